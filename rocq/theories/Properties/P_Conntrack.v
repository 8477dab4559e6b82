(** Conntrack: C30-C35, C71. *)
From Coq Require FinFun.
From Verif Require Import Proof.CtFacts Proof.AddrFacts Spec.Samples Properties.P_Config.

(** a sample flow: 10.0.0.1:1000 -> 10.0.0.2:53, UDP; addresses in the 16-byte
    form net.ParseIP returns *)
Definition v4 (a b c d : Z) : bytes := [0;0;0;0;0;0;0;0;0;0;255;255;a;b;c;d].
Definition sample_tuple : tuple5 := mk5 (v4 10 0 0 1) (v4 10 0 0 2) 17 1000 53.
Definition sample_flow : flow :=
  mkF (mkT [10;0;0;1] [10;0;0;2] 17 1000 53) (mkT [10;0;0;2] [10;0;0;1] 17 53 1000).
Definition other_flow : flow :=
  mkF (mkT [10;0;0;1] [10;0;0;2] 17 1000 54) (mkT [10;0;0;2] [10;0;0;1] 17 54 1000).
Lemma v4_is a b c d : is_bytes [a; b; c; d] -> v4_addr (v4 a b c d).
Proof. intros H. exists [a; b; c; d]. auto. Qed.
Lemma v4_four a b c d : is_bytes [a; b; c; d] -> v4_addr [a; b; c; d].
Proof. intros H. exists [a; b; c; d]. auto. Qed.
Lemma sample_tuple_ok : tuple5_ok sample_tuple.
Proof.
  unfold tuple5_ok. cbn. unfold is_u8, is_u16.
  repeat split; try (apply v4_is; bytes_tac); lia.
Qed.
Lemma sample_flows_ok : Forall flow_ok [sample_flow; other_flow; sample_flow].
Proof.
  repeat apply Forall_cons; try apply Forall_nil; unfold flow_ok; cbn;
    repeat split; apply v4_four; bytes_tac.
Qed.
Lemma kernel_acks_open : sockets_open kernel_acks.
Proof. intros tr c. destruct c; cbn; auto. Qed.
Lemma kernel_acks_first_open k : sockets_open (kernel_acks_first k).
Proof. intros tr c. destruct c; cbn; auto. Qed.

(** ** C30 *)
Theorem C30_mark_update_request : forall m t mark hi e w,
  tuple5_ok t -> is_u32 mark -> replies_within 20 hi e -> sockets_open e ->
  exists res w' new b,
    ConntrackTableUpdateMark m (f_src t) (f_dst t) (f_proto t) (f_sport t) (f_dport t) mark e w = (Ok res, w') /\
    w_tr w' = w_tr w ++ new /\
    ct_update m t [mark_attr mark] b /\ one_update m b new res.
Proof. exact UpdateMark_run. Qed.
Print Assumptions C30_mark_update_request.
Example C30_hypotheses_met :
  tuple5_ok sample_tuple /\ is_u32 4026531841 /\ replies_within 20 37 kernel_acks /\ sockets_open kernel_acks /\
  map fst (w_tr (snd (ConntrackTableUpdateMark LE (f_src sample_tuple) (f_dst sample_tuple) 17 1000 53 4026531841
                        kernel_acks (mkW tt [] [])))) =
   [ KSocket 16 3 12; KBind 7 16;
     KSendto 7 [80;0;0;0; 0;1; 5;0; 0;0;0;0; 0;0;0;0; 2;0;0;0; 52;0;1;128; 20;0;1;128; 8;0;1;0; 10;0;0;1;
                8;0;2;0; 10;0;0;2; 28;0;2;128; 5;0;1;0; 17;0;0;0; 6;0;2;0; 3;232;0;0; 6;0;3;0; 0;53;0;0;
                8;0;8;0; 240;0;0;1] 0;
     KRecvfrom 7 80 0; KClose 7 ].
Proof.
  split; [exact sample_tuple_ok|]. split; [red; lia|]. split; [apply kernel_acks_within; lia|].
  split; [exact kernel_acks_open|]. vm_compute. reflexivity.
Qed.

(** ** C31 *)
Theorem C31_label_update_request_partial : forall m t label hi e flows w,
  tuple5_ok t -> is_u32 label -> f_proto t <> 6 -> replies_within 20 hi e -> sockets_open e ->
  Forall flow_ok flows ->
  exists k err w' new er,
    ConntrackTableUpdateLabel m flows (f_src t) (f_dst t) (f_proto t) (f_sport t) (f_dport t) label e w =
      (Ok (match err with None => Z.of_nat k | Some _ => 0 end, er), w') /\
    w_tr w' = w_tr w ++ new /\ (er = None <-> err = None) /\
    updates m (ct_update m t [label_attr m label]) (flow_matches t) flows k new err.
Proof.
  intros m t label hi e flows w T K P R O F.
  destruct (label_loop_run m t label hi e flows w 0 T K P R O F ltac:(lia))
    as (k & err & w' & new & er & H). exists k, err, w', new, er. exact H.
Qed.
Print Assumptions C31_label_update_request_partial.
(** False for TCP: for every TCP five-tuple and label the request's protocol
    information cannot be decoded. *)
Theorem C31_tcp_label_request_refuted : forall m t label,
  tuple5_ok t -> is_u32 label -> f_proto t = 6 ->
  exists hdr data b v pi tcp,
    label_request m (f_src t) (f_dst t) (f_proto t) (f_sport t) (f_dport t) label = Ok (hdr, data) /\
    send_bytes m hdr data = Ok b /\
    read_message m b =
      Some (mkMsg (msg_type SUBSYS_CTNETLINK 0) (NLM_F_REQUEST + NLM_F_ACK) 0 0 2 0 0
              [(nested 1, v); (nested 4, pi); label_attr m label]) /\
    tuple_body m t v /\ attrs_of m pi = Some [(nested 1, tcp)] /\ attrs_of m tcp = None.
Proof.
  intros m t label T K P.
  destruct (label_tcp_message m t label T K) as (v & pi & tcp & H1 & H2 & H3 & H4).
  do 3 eexists. exists v, pi, tcp.
  split; [apply label_tcp_request_ok; assumption|]. split; [apply send_bytes_ok|].
  split; [exact H2|]. auto.
Qed.
Print Assumptions C31_tcp_label_request_refuted.
Example C31_hypotheses_met :
  tuple5_ok sample_tuple /\ f_proto sample_tuple <> 6 /\
  tuple5_ok (mk5 (v4 10 0 0 1) (v4 10 0 0 2) 6 1000 53) /\
  fst (ConntrackTableUpdateLabel LE [sample_flow; other_flow; sample_flow] (f_src sample_tuple)
         (f_dst sample_tuple) 17 1000 53 77 kernel_acks (mkW tt [] [])) = Ok (2, None).
Proof.
  split; [exact sample_tuple_ok|]. split; [discriminate|]. split.
  - unfold tuple5_ok. cbn. unfold is_u8, is_u16. repeat split; try (apply v4_is; bytes_tac); lia.
  - vm_compute. reflexivity.
Qed.

(** ** C32 *)
Theorem C32_only_matching_flows_updated : forall m t mark hi e flows w,
  tuple5_ok t -> is_u32 mark -> mark <> 0 -> replies_within 20 hi e -> sockets_open e ->
  Forall flow_ok flows ->
  exists k err w' new er,
    ConntrackTableUpdateMarkForAvailableFlow m flows
      (f_src t) (f_dst t) (f_proto t) (f_sport t) (f_dport t) mark e w =
      (Ok (match err with None => Z.of_nat k | Some _ => 0 end, er), w') /\
    w_tr w' = w_tr w ++ new /\ (er = None <-> err = None) /\
    updates m (ct_update m t [mark_attr mark]) (flow_matches t) flows k new err.
Proof.
  intros m t mark hi e flows w T K P R O F.
  destruct (mark_loop_run m t mark hi e flows w 0 T K P R O F ltac:(lia))
    as (k & err & w' & new & er & H). exists k, err, w', new, er. exact H.
Qed.
Print Assumptions C32_only_matching_flows_updated.
(** when all updates succeed, k is the number of matching flows *)
Theorem C32_count_is_number_of_matches : forall m P t flows k new,
  updates m P (flow_matches t) flows k new None ->
  exists l, NoDup l /\ length l = k /\
    forall i, In i l <-> exists fl, nth_error flows i = Some fl /\ flow_matches t fl.
Proof.
  intros m P t flows k new H. remember None as err eqn:Eerr. induction H.
  - exists []. split; [constructor|]. split; [reflexivity|]. intros i. split; [intros []|].
    intros (fl & X & _). destruct i; discriminate.
  - destruct (IHupdates Eerr) as (l & N & L & I). exists (map S l).
    split; [apply FinFun.Injective_map_NoDup; [intros a b Q; injection Q; auto|exact N]|].
    split; [rewrite map_length; exact L|]. intros i. rewrite in_map_iff. split.
    + intros (j & <- & J). apply I in J. exact J.
    + intros (g & X & Y). destruct i as [|i]; [injection X as <-; contradiction|].
      exists i. split; [reflexivity|]. apply I. eauto.
  - destruct (IHupdates Eerr) as (l & N & L & I). exists (0%nat :: map S l).
    split.
    { constructor; [rewrite in_map_iff; intros (j & Q & _); discriminate|].
      apply FinFun.Injective_map_NoDup; [intros a b' Q; injection Q; auto|exact N]. }
    split; [cbn; rewrite map_length, L; reflexivity|]. intros i. cbn [In]. rewrite in_map_iff. split.
    + intros [<-|(j & <- & J)]; [exists fl; auto|]. apply I in J. exact J.
    + intros (g & X & Y). destruct i as [|i]; [left; reflexivity|]. right.
      exists i. split; [reflexivity|]. apply I. eauto.
  - discriminate.
Qed.
Print Assumptions C32_count_is_number_of_matches.
Theorem C32_mark_zero_sends_nothing : forall m t flows e w,
  tuple5_ok t -> Forall flow_ok flows ->
  ConntrackTableUpdateMarkForAvailableFlow m flows
    (f_src t) (f_dst t) (f_proto t) (f_sport t) (f_dport t) 0 e w = (Ok (0, None), w).
Proof. intros m t flows e w. apply mark_zero_run. Qed.
Print Assumptions C32_mark_zero_sends_nothing.
Example C32_hypotheses_met :
  tuple5_ok sample_tuple /\ Forall flow_ok [sample_flow; other_flow; sample_flow] /\
  flow_matches sample_tuple sample_flow /\ ~ flow_matches sample_tuple other_flow /\
  let run := ConntrackTableUpdateMarkForAvailableFlow LE [sample_flow; other_flow; sample_flow]
     (f_src sample_tuple) (f_dst sample_tuple) 17 1000 53 9 kernel_acks (mkW tt [] []) in
  fst run = Ok (2, None) /\ map call_name (w_tr (snd run)) = [1;2;5;6;7; 1;2;5;6;7].
Proof.
  split; [exact sample_tuple_ok|]. split; [exact sample_flows_ok|].
  split; [unfold flow_matches, same_v4; cbn; tauto|].
  split; [intros (_ & _ & _ & _ & X & _); discriminate X|].
  split; vm_compute; reflexivity.
Qed.

(** ** C33 *)
(** False for every list without a match: 0 and nil are returned. *)
Theorem C33_absent_flow_reported_refuted : forall m t mark flows e w,
  tuple5_ok t -> Forall flow_ok flows -> Forall (fun fl => ~ flow_matches t fl) flows ->
  ConntrackTableUpdateMarkForAvailableFlow m flows
    (f_src t) (f_dst t) (f_proto t) (f_sport t) (f_dport t) mark e w = (Ok (0, None), w) /\
  ConntrackTableUpdateLabel m flows
    (f_src t) (f_dst t) (f_proto t) (f_sport t) (f_dport t) mark e w = (Ok (0, None), w).
Proof. exact no_match_run. Qed.
Print Assumptions C33_absent_flow_reported_refuted.
(** and the count is wrong after a failure: one flow was updated, 0 is returned *)
Theorem C33_count_after_failure_refuted :
  exists e flows t, sockets_open e /\ replies_within 20 37 e /\ tuple5_ok t /\ Forall flow_ok flows /\
  let run := ConntrackTableUpdateMarkForAvailableFlow LE flows
               (f_src t) (f_dst t) (f_proto t) (f_sport t) (f_dport t) 9 e (mkW tt [] []) in
  (exists er, fst run = Ok (0, Some er)) /\
  exists new, w_tr (snd run) = new /\
    map (fun ev => reply_code LE (r_data (snd ev)))
        (filter (fun ev => match fst ev with KRecvfrom _ _ _ => true | _ => false end) new) = [0; -1].
Proof.
  exists (kernel_acks_first 1), [sample_flow; sample_flow], sample_tuple.
  split; [apply kernel_acks_first_open|]. split; [apply kernel_acks_first_within; lia|].
  split; [exact sample_tuple_ok|].
  split; [pose proof sample_flows_ok as F; pose proof (Forall_inv F); repeat apply Forall_cons; auto|].
  cbv zeta. split; [eexists; vm_compute; reflexivity|]. eexists. split; [reflexivity|]. vm_compute. reflexivity.
Qed.
Print Assumptions C33_count_after_failure_refuted.
(** what holds: the count is right whenever no error is returned (C32). *)
Theorem C33_count_right_without_error_partial : forall m t mark hi e flows w,
  tuple5_ok t -> is_u32 mark -> mark <> 0 -> replies_within 20 hi e -> sockets_open e ->
  Forall flow_ok flows ->
  forall n w',
    ConntrackTableUpdateMarkForAvailableFlow m flows
      (f_src t) (f_dst t) (f_proto t) (f_sport t) (f_dport t) mark e w = (Ok (n, None), w') ->
  exists l, NoDup l /\ Z.of_nat (length l) = n /\
    forall i, In i l <-> exists fl, nth_error flows i = Some fl /\ flow_matches t fl.
Proof.
  intros m t mark hi e flows w T K P R O F n w' E.
  destruct (C32_only_matching_flows_updated m t mark hi e flows w T K P R O F)
    as (k & err & w2 & new & er & E2 & _ & Q & U).
  rewrite E2 in E. injection E as E3 E4 _. subst er. pose proof (proj1 Q eq_refl) as Q0. subst err.
  destruct (C32_count_is_number_of_matches _ _ _ _ _ _ U) as (l & N & L & I).
  exists l. split; [exact N|]. split; [congruence|exact I].
Qed.
Print Assumptions C33_count_right_without_error_partial.
(** What the count and the error are, whatever the addresses, the flow list, the socket and
    the kernel do: an error always comes with the count 0, "Entry not present" is never
    returned, and a count never exceeds the number of flows. *)
Theorem C33_error_means_zero_partial : forall m flows ipSrc ipDst protonum srcport dstport newmark e w n er w',
  ConntrackTableUpdateMarkForAvailableFlow m flows ipSrc ipDst protonum srcport dstport newmark e w
    = (Ok (n, er), w') ->
  (er <> None -> n = 0) /\ er <> Some ENotPresent /\ 0 <= n <= Z.of_nat (length flows).
Proof.
  intros m flows a b p s d k e w n er w'. unfold ConntrackTableUpdateMarkForAvailableFlow.
  enough (G : forall c w, 0 <= c -> mark_loop m flows a b p s d k c e w = (Ok (n, er), w') ->
    (er <> None -> n = 0) /\ er <> Some ENotPresent /\ 0 <= n <= c + Z.of_nat (length flows))
    by (intros E; apply (G 0 w); [lia|exact E]).
  induction flows as [|fl fs IH]; intros c w0 C E; cbn [mark_loop] in E.
  - replace (0 <=? c) with true in E by lia. injection E as <- <- _. cbn [length].
    split; [congruence|]. split; [discriminate|lia].
  - cbn [length]. unfold mbind at 1, lift in E.
    destruct (checkTuplesInFlow fl a b p s d) as [present| |]; try discriminate E.
    destruct (present && negb (k =? 0)).
    + unfold mbind in E. destruct (ConntrackTableUpdateMark m a b p s d k e w0) as [[[x|]| |] w1]; try discriminate E.
      * injection E as <- <- _. split; [reflexivity|]. split; [discriminate|lia].
      * destruct (IH (c + 1) w1) as (A & B & D); [lia|exact E|]. split; [exact A|]. split; [exact B|lia].
    + destruct (IH c w0 C E) as (A & B & D). split; [exact A|]. split; [exact B|lia].
Qed.
Print Assumptions C33_error_means_zero_partial.
Theorem C33_label_error_means_zero_partial : forall m flows ipSrc ipDst protonum srcport dstport newlabels e w n er w',
  ConntrackTableUpdateLabel m flows ipSrc ipDst protonum srcport dstport newlabels e w
    = (Ok (n, er), w') ->
  (er <> None -> n = 0) /\ 0 <= n <= Z.of_nat (length flows).
Proof.
  intros m flows a b p s d k e w n er w'. unfold ConntrackTableUpdateLabel.
  enough (G : forall c w, 0 <= c -> label_loop m flows a b p s d k c e w = (Ok (n, er), w') ->
    (er <> None -> n = 0) /\ 0 <= n <= c + Z.of_nat (length flows))
    by (intros E; apply (G 0 w); [lia|exact E]).
  induction flows as [|fl fs IH]; intros c w0 C E; cbn [label_loop] in E.
  - replace (0 <=? c) with true in E by lia. injection E as <- <- _. cbn [length].
    split; [congruence|lia].
  - cbn [length]. unfold mbind at 1, lift in E.
    destruct (checkTuplesInFlow fl a b p s d) as [present| |]; try discriminate E.
    destruct present.
    + unfold mbind in E. destruct (label_request m a b p s d k) as [[hdr data]| |]; try discriminate E.
      destruct (sendMessage m hdr data e w0) as [[[x|]| |] w1]; try discriminate E.
      * injection E as <- <- _. split; [reflexivity|lia].
      * destruct (IH (c + 1) w1) as (A & D); [lia|exact E|]. split; [exact A|lia].
    + destruct (IH c w0 C E) as (A & D). split; [exact A|lia].
Qed.
Print Assumptions C33_label_error_means_zero_partial.
Example C33_hypotheses_met :
  tuple5_ok sample_tuple /\ Forall (fun fl => ~ flow_matches sample_tuple fl) [other_flow; other_flow].
Proof.
  split; [exact sample_tuple_ok|].
  repeat apply Forall_cons; try apply Forall_nil; intros (_ & _ & _ & _ & X & _); discriminate X.
Qed.

(** ** C34 *)
(** For every environment: either the socket could not be opened (then the call
    panics) or exactly one datagram was sent on the new socket, which is closed
    at the end. *)
Theorem C34_update_uses_and_closes_one_socket_partial : forall m t mark e w,
  tuple5_ok t -> is_u32 mark ->
  let run := ConntrackTableUpdateMark m (f_src t) (f_dst t) (f_proto t) (f_sport t) (f_dport t) mark e w in
  exists new, w_tr (snd run) = w_tr w ++ new /\
    ((exists fd o b r1 rest rc, ct_opens fd o /\ ct_update m t [mark_attr mark] b /\
        new = o ++ (KSendto fd b 0, r1) :: rest ++ [(KClose fd, rc)] /\
        (rest = [] \/ exists n r2, rest = [(KRecvfrom fd n 0, r2)]) /\ fst run <> NoFuel)
     \/ (open_fails new /\ fst run = Panic)).
Proof. exact UpdateMark_trace. Qed.
Print Assumptions C34_update_uses_and_closes_one_socket_partial.
(** Failure to open is not returned as an error: the call panics. *)
Theorem C34_open_failure_is_an_error_refuted : forall m t mark e w,
  tuple5_ok t -> is_u32 mark ->
  (exists en, r_err (e (w_tr w) (KSocket 16 3 12)) = Some en) ->
  fst (ConntrackTableUpdateMark m (f_src t) (f_dst t) (f_proto t) (f_sport t) (f_dport t) mark e w) = Panic.
Proof.
  intros m t mark e w T K [en H].
  destruct (UpdateMark_trace m t mark e w T K) as (new & Tr & [(fd & o & b & r1 & rest & rc & O & _ & N & _)|[_ P]]); [|exact P].
  exfalso. revert Tr. unfold ConntrackTableUpdateMark. rewrite build_request_ok by exact T.
  rewrite bind_lift_ok, appendMark_ok by exact K. rewrite bind_lift_ok.
  unfold sendMessage, ct_open. repeat mstep. change (KSocket AF_NETLINK SOCK_RAW NETLINK_NETFILTER) with (KSocket 16 3 12). rewrite H. rewrite bind_ret. cbn [mpanic snd w_tr]. subst new.
  destruct O as (rs & rb & _ & _ & _ & ->). cbn [app]. intros Tr. apply app_inv_head in Tr. discriminate Tr.
Qed.
Print Assumptions C34_open_failure_is_an_error_refuted.
Example C34_hypotheses_met :
  (exists en, r_err (kernel_no_socket [] (KSocket 16 3 12)) = Some en) /\
  map call_name (w_tr (snd (ConntrackTableUpdateMark LE (f_src sample_tuple) (f_dst sample_tuple) 17 1000 53 9
     (kernel_acks_first 0) (mkW tt [] [])))) = [1;2;5;6;7].
Proof. split; [eexists; reflexivity|vm_compute; reflexivity]. Qed.

(** ** C35 *)
(** net.ParseIP returns nil (here []) for an unparsable string: the call panics,
    whatever the other arguments. *)
Theorem C35_malformed_address_handled_refuted : forall m a b p sp dp mark e (w : world unit),
  (a = [] \/ (b = [] /\ v4_addr a)) ->
  fst (ConntrackTableUpdateMark m a b p sp dp mark e w) = Panic.
Proof. exact nil_addr_panics. Qed.
Print Assumptions C35_malformed_address_handled_refuted.
(** what holds: with IPv4 addresses the request is always built *)
Theorem C35_ipv4_addresses_never_panic_partial : forall m t mark,
  tuple5_ok t -> is_u32 mark ->
  exists hdr data, buildConntrackUpdateRequest m (f_src t) (f_dst t) (f_proto t) (f_sport t) (f_dport t)
                   = Ok (hdr, data) /\
    exists ex hdr', appendMark m mark hdr = Ok (ex, hdr').
Proof.
  intros m t mark T K. do 2 eexists. split; [apply build_request_ok, T|].
  do 2 eexists. apply appendMark_ok, K.
Qed.
Print Assumptions C35_ipv4_addresses_never_panic_partial.

(** ** C71 *)
(** The update named by two dotted-decimal strings is for exactly those addresses:
    net.ParseIP gives the address back, and the request carries it. *)
Theorem C71_address_text : forall parse6 four, is_bytes four -> length four = 4%nat ->
  ParseIP parse6 (ip_string four) = mapped four /\ v4_bytes (ParseIP parse6 (ip_string four)) = four.
Proof.
  intros parse6 four B L. rewrite parse_text by auto. split; [reflexivity|].
  unfold v4_bytes, mapped. rewrite app_length, L. reflexivity.
Qed.
Print Assumptions C71_address_text.
Theorem C71_update_by_text_partial : forall parse6 m t mark hi e w,
  tuple5_ok t -> length (f_src t) = 4%nat -> length (f_dst t) = 4%nat -> is_u32 mark -> replies_within 20 hi e -> sockets_open e ->
  exists res w' new b,
    UpdateMark_text parse6 m (ip_string (f_src t)) (ip_string (f_dst t)) (f_proto t) (f_sport t) (f_dport t) mark e w = (Ok res, w') /\
    w_tr w' = w_tr w ++ new /\ ct_update m t [mark_attr mark] b /\ one_update m b new res.
Proof. exact text_update. Qed.
Print Assumptions C71_update_by_text_partial.
(** Refuted for IPv6: whatever the two addresses are, the call does what it does for
    the IPv4 addresses made of their last four bytes - and any IPv4 flow between
    those counts as a match. *)
Theorem C71_ipv6_refuted : forall m a b p sp dp mark fl, length a = 16%nat -> length b = 16%nat ->
  ConntrackTableUpdateMark m a b p sp dp mark = ConntrackTableUpdateMark m (skipn 12 a) (skipn 12 b) p sp dp mark /\
  checkTuplesInFlow fl a b p sp dp = checkTuplesInFlow fl (skipn 12 a) (skipn 12 b) p sp dp.
Proof. intros. split; [apply mark_low; auto|apply check_low; auto]. Qed.
Print Assumptions C71_ipv6_refuted.
(** 2001:db8::a00:1 and 2001:db8::a00:2: the flow 10.0.0.1 -> 10.0.0.2 counts as the
    one asked for, and the update sent names it *)
Theorem C71_ipv6_marks_ipv4_flow_refuted : exists a b,
  length a = 16%nat /\ length b = 16%nat /\ ~ v4_addr a /\ ~ v4_addr b /\
  checkTuplesInFlow sample_flow a b 17 1000 53 = Ok true /\
  forall mark hi e w, is_u32 mark -> replies_within 20 hi e -> sockets_open e ->
    exists res w' new req,
      ConntrackTableUpdateMark LE a b 17 1000 53 mark e w = (Ok res, w') /\ w_tr w' = w_tr w ++ new /\
      ct_update LE sample_tuple [mark_attr mark] req /\ one_update LE req new res.
Proof.
  exists [32;1;13;184;0;0;0;0;0;0;0;0;10;0;0;1], [32;1;13;184;0;0;0;0;0;0;0;0;10;0;0;2].
  split; [reflexivity|]. split; [reflexivity|].
  split; [intros (f & _ & L & [<-|H]); discriminate|]. split; [intros (f & _ & L & [<-|H]); discriminate|].
  split; [vm_compute; reflexivity|]. intros mark hi e w K R O. rewrite mark_low by reflexivity.
  exact (UpdateMark_run LE sample_tuple mark hi e w sample_tuple_ok K R O).
Qed.
Print Assumptions C71_ipv6_marks_ipv4_flow_refuted.
(** "10.0.0.1" and "10.0.0.2" *)
Example C71_hypotheses_met :
  ip_string [10;0;0;1] = [49;48;46;48;46;48;46;49] /\
  tuple5_ok (mk5 [10;0;0;1] [10;0;0;2] 17 1000 53) /\ length [10;0;0;1] = 4%nat /\ length [10;0;0;2] = 4%nat /\ is_u32 9 /\
  replies_within 20 37 kernel_acks /\ sockets_open kernel_acks.
Proof.
  split; [reflexivity|]. split; [split; [exists [10;0;0;1]; split; [bytes_tac|auto]|split; [exists [10;0;0;2]; split; [bytes_tac|auto]|cbn; unfold is_u8, is_u16; lia]]|]. split; [reflexivity|]. split; [reflexivity|].
  split; [red; lia|]. split; [apply kernel_acks_within; lia|exact kernel_acks_open].
Qed.
