(** C88-C90: the example programs and the UDP flow helper. *)
From Verif Require Import Spec.ExampleSpec Spec.LoopSpec Spec.Samples Proof.CtFacts Proof.AddrFacts
  Properties.P_Config Properties.P_Conntrack Properties.P_Loop.

Lemma v4_text parse6 ip : v4_addr ip -> ParseIP parse6 (ip_string ip) = mapped (v4_bytes ip).
Proof.
  intros (four & B & L & [->| ->]).
  - rewrite parse_text by auto. unfold v4_bytes. rewrite L. reflexivity.
  - assert (X : ip_string (mapped four) = ip_string four)
      by (destruct four as [|a [|b [|c [|d [|x r]]]]]; try discriminate L; reflexivity).
    rewrite X, parse_text by auto. unfold v4_bytes, mapped. rewrite app_length, L. reflexivity.
Qed.
Lemma v4_bytes_addr ip : v4_addr ip -> is_bytes (v4_bytes ip) /\ length (v4_bytes ip) = 4%nat.
Proof.
  intros (four & B & L & [->| ->]); unfold v4_bytes, mapped; [|rewrite app_length]; rewrite L; auto.
Qed.
Lemma mapped_bytes four : length four = 4%nat -> v4_bytes (mapped four) = four.
Proof. intros L. unfold v4_bytes, mapped. rewrite app_length, L. reflexivity. Qed.
(** the five-tuple with its addresses as net.ParseIP gives them *)
Definition reparsed (t : tuple5) : tuple5 :=
  mk5 (mapped (v4_bytes (f_src t))) (mapped (v4_bytes (f_dst t))) (f_proto t) (f_sport t) (f_dport t).
Lemma reparsed_ok t : tuple5_ok t -> tuple5_ok (reparsed t).
Proof.
  intros (S & D & P). apply v4_bytes_addr in S as [S1 S2]. apply v4_bytes_addr in D as [D1 D2].
  split; [eexists; eauto|]. split; [eexists; eauto|exact P].
Qed.
Lemma reparsed_matches t fl : tuple5_ok t -> flow_matches (reparsed t) fl <-> flow_matches t fl.
Proof.
  intros (S & D & _). apply v4_bytes_addr in S as [_ S]. apply v4_bytes_addr in D as [_ D].
  unfold flow_matches, same_v4, reparsed. cbn [f_src f_dst f_proto f_sport f_dport].
  rewrite !mapped_bytes by assumption. reflexivity.
Qed.
Lemma reparsed_update m t ex b : tuple5_ok t -> ct_update m (reparsed t) ex b -> ct_update m t ex b.
Proof.
  intros (S & D & _). apply v4_bytes_addr in S as [_ S]. apply v4_bytes_addr in D as [_ D].
  intros (v & (ip & pr & A & B & C) & R). exists v. split; [|exact R]. exists ip, pr.
  split; [exact A|]. split; [|exact C]. rewrite B. unfold reparsed. cbn [f_src f_dst].
  rewrite !mapped_bytes by assumption. reflexivity.
Qed.
Lemma updates_weaken m (P Q : bytes -> Prop) (s s' : flow -> Prop) fs n evs err :
  (forall b, P b -> Q b) -> (forall f, s f <-> s' f) -> updates m P s fs n evs err -> updates m Q s' fs n evs err.
Proof.
  intros H I U. induction U.
  - constructor.
  - apply up_skip; [rewrite <- I; assumption|assumption].
  - apply (up_ok m Q s' fl fs b); [apply I; assumption|auto|assumption|assumption].
  - apply (up_fail m Q s' fl fs b); [apply I; assumption|auto|assumption].
Qed.
Lemma listed_tuple f : listed f -> tuple5_ok (tuple_of f).
Proof. intros ((A & B & _) & P). split; [exact A|]. split; [exact B|exact P]. Qed.
Lemma lists_table lib l : lists lib l -> fst (ConntrackTableList lib ConntrackTable) = Some l.
Proof. intros L. unfold ConntrackTableList, ConntrackTable, AF_INET. rewrite L. reflexivity. Qed.
Lemma text_as_tuple parse6 m flows f : listed f ->
  UpdateMarkForAvailableFlow_text parse6 m flows (ip_string (t_src (f_fwd f))) (ip_string (t_dst (f_fwd f)))
    (t_proto (f_fwd f)) (t_sport (f_fwd f)) (t_dport (f_fwd f)) 42 =
  let t := reparsed (tuple_of f) in
  ConntrackTableUpdateMarkForAvailableFlow m flows (f_src t) (f_dst t) (f_proto t) (f_sport t) (f_dport t) 42.
Proof.
  intros ((S & D & _) & _). unfold UpdateMarkForAvailableFlow_text.
  rewrite !v4_text by assumption. reflexivity.
Qed.
(** whether f0 itself is one of the flows matched *)
Lemma matches_itself f : listed f -> (flow_matches (tuple_of f) f <-> untranslated f).
Proof.
  intros _. unfold flow_matches, untranslated, same_v4, tuple_of. cbn. tauto.
Qed.

(** ** C88 *)
(** On a table whose first IPv4 entry is f0 the conntrack example sends one update with
    mark 42 for each entry with f0's forward tuple and the mirrored reverse one (in
    table order, stopping at the first failure), prints their number and the first
    entry of the second listing.  f0 is among the updated ones exactly when its
    address is not translated.  Missing: a translated f0, and an empty table. *)
Theorem C88_conntrack_example_partial : forall parse6 m lib1 lib2 f0 fs g0 gs hi e w,
  lists lib1 (f0 :: fs) -> lists lib2 (g0 :: gs) -> listed f0 -> Forall flow_ok fs ->
  replies_within 20 hi e -> sockets_open e ->
  exists k err er w' new,
    ct_example parse6 m lib1 lib2 e w = (Ok (match err with None => Z.of_nat k | Some _ => 0 end, er, g0), w') /\
    w_tr w' = w_tr w ++ new /\ (er = None <-> err = None) /\
    updates m (ct_update m (tuple_of f0) [mark_attr 42]) (flow_matches (tuple_of f0)) (f0 :: fs) k new err /\
    (flow_matches (tuple_of f0) f0 <-> untranslated f0).
Proof.
  intros parse6 m lib1 lib2 f0 fs g0 gs hi e w L1 L2 F0 FS R O.
  pose proof (listed_tuple _ F0) as T.
  destruct (C32_only_matching_flows_updated m (reparsed (tuple_of f0)) 42 hi e (f0 :: fs) w (reparsed_ok _ T)
     ltac:(unfold is_u32; lia) ltac:(discriminate) R O (Forall_cons _ (proj1 F0) FS))
    as (k & err & w' & new & er & A & B & C & D).
  exists k, err, er, w', new. split.
  { unfold ct_example. rewrite (lists_table _ _ L1). cbn [first_flow].
    rewrite bind_lift_ok, text_as_tuple by exact F0. cbv zeta.
    rewrite (bind_ok _ _ e w _ _ A). rewrite (lists_table _ _ L2). cbn [first_flow].
    rewrite bind_lift_ok. reflexivity. }
  split; [exact B|]. split; [exact C|]. split; [|exact (matches_itself f0 F0)].
  eapply updates_weaken; [|intros f; apply reparsed_matches; exact T|exact D].
  intros b. apply reparsed_update, T.
Qed.
Print Assumptions C88_conntrack_example_partial.
(** Refuted: "we update the first entry".  A first entry whose address is translated is
    not updated; if nothing else in the table matches, nothing is sent and 0 is printed
    without an error. *)
Theorem C88_first_entry_translated_refuted : forall parse6 m lib1 lib2 f0 fs g0 gs e w,
  lists lib1 (f0 :: fs) -> lists lib2 (g0 :: gs) -> listed f0 -> Forall flow_ok fs ->
  ~ untranslated f0 -> Forall (fun fl => ~ flow_matches (tuple_of f0) fl) fs ->
  ct_example parse6 m lib1 lib2 e w = (Ok (0, None, g0), w).
Proof.
  intros parse6 m lib1 lib2 f0 fs g0 gs e w L1 L2 F0 FS NU NM.
  pose proof (listed_tuple _ F0) as T.
  destruct (no_match_run m (reparsed (tuple_of f0)) 42 (f0 :: fs) e w (reparsed_ok _ T) (Forall_cons _ (proj1 F0) FS)) as [A _].
  { constructor.
    - rewrite reparsed_matches, matches_itself by assumption. exact NU.
    - eapply Forall_impl; [|exact NM]. intros fl H. rewrite reparsed_matches by exact T. exact H. }
  unfold ct_example. rewrite (lists_table _ _ L1). cbn [first_flow].
  rewrite bind_lift_ok, text_as_tuple by exact F0. cbv zeta.
  rewrite (bind_ok _ _ e w _ _ A). rewrite (lists_table _ _ L2). cbn [first_flow].
  rewrite bind_lift_ok. reflexivity.
Qed.
Print Assumptions C88_first_entry_translated_refuted.
(** Refuted: "Empty conntrack entries" is not where it ends.  Whenever the listing fails
    or has no entry the program panics, before any system call. *)
Theorem C88_empty_table_refuted : forall parse6 m lib1 lib2 e w,
  (forall f fs, ~ lists lib1 (f :: fs)) -> ct_example parse6 m lib1 lib2 e w = (Panic, w).
Proof.
  intros parse6 m lib1 lib2 e w N. unfold ct_example, ConntrackTableList, ConntrackTable.
  unfold lists in N. unfold AF_INET. destruct (lib1 1 2) as [[[|f l]|] [er|]]; try reflexivity.
  exfalso. exact (N f l eq_refl).
Qed.
Print Assumptions C88_empty_table_refuted.
(** the same at the end, after the updates: an entry can go away in between *)
Theorem C88_table_emptied_refuted : forall parse6 m lib1 lib2 f0 fs hi e w,
  lists lib1 (f0 :: fs) -> (forall g gs, ~ lists lib2 (g :: gs)) -> listed f0 -> Forall flow_ok fs ->
  replies_within 20 hi e -> sockets_open e ->
  fst (ct_example parse6 m lib1 lib2 e w) = Panic.
Proof.
  intros parse6 m lib1 lib2 f0 fs hi e w L1 N F0 FS R O.
  pose proof (listed_tuple _ F0) as T.
  destruct (C32_only_matching_flows_updated m (reparsed (tuple_of f0)) 42 hi e (f0 :: fs) w (reparsed_ok _ T)
     ltac:(unfold is_u32; lia) ltac:(discriminate) R O (Forall_cons _ (proj1 F0) FS))
    as (k & err & w' & new & er & A & B & C & D).
  unfold ct_example. rewrite (lists_table _ _ L1). cbn [first_flow].
  rewrite bind_lift_ok, text_as_tuple by exact F0. cbv zeta.
  rewrite (bind_ok _ _ e w _ _ A). unfold ConntrackTableList, ConntrackTable.
  unfold lists in N. unfold AF_INET. destruct (lib2 1 2) as [[[|f l]|] [x|]]; try reflexivity.
  exfalso. exact (N f l eq_refl).
Qed.
Print Assumptions C88_table_emptied_refuted.
(** "10.0.2.15" and "10.0.2.2": the other example sends one update, for exactly the TCP
    flow 10.0.2.15:22 -> 10.0.2.2:57766, with mark 24 *)
Theorem C88_second_example : forall parse6 m hi e w, replies_within 20 hi e -> sockets_open e ->
  exists res w' new b,
    ct_example2 parse6 m e w = (Ok res, w') /\ w_tr w' = w_tr w ++ new /\
    ct_update m (mk5 [10;0;2;15] [10;0;2;2] 6 22 57766) [mark_attr 24] b /\ one_update m b new res.
Proof.
  intros parse6 m hi e w R O.
  apply (C71_update_by_text_partial parse6 m (mk5 [10;0;2;15] [10;0;2;2] 6 22 57766) 24 hi e w); auto.
  - split; [apply v4_four; bytes_tac|]. split; [apply v4_four; bytes_tac|]. cbn. unfold is_u8, is_u16. lia.
  - unfold is_u32. lia.
Qed.
Print Assumptions C88_second_example.

(** a flow behind source translation: replies go to another address *)
Definition translated_flow : flow :=
  mkF (mkT [10;0;0;1] [10;0;0;2] 17 1000 53) (mkT [10;0;0;2] [192;0;2;1] 17 53 1000).
Example C88_hypotheses_met :
  let lib : list flow -> lib_list := fun l _ fam => if fam =? 2 then (Some l, None) else (None, None) in
  lists (lib [sample_flow; other_flow]) [sample_flow; other_flow] /\ listed sample_flow /\ untranslated sample_flow /\
  Forall flow_ok [other_flow] /\ replies_within 20 37 kernel_acks /\ sockets_open kernel_acks /\
  fst (ct_example (fun _ => []) LE (lib [sample_flow; other_flow]) (lib [other_flow]) kernel_acks (mkW tt [] [])) =
    Ok (1, None, other_flow) /\
  listed translated_flow /\ ~ untranslated translated_flow /\
  Forall (fun fl => ~ flow_matches (tuple_of translated_flow) fl) [other_flow] /\
  (forall f fs, ~ lists (lib []) (f :: fs)).
Proof.
  intros lib. split; [reflexivity|]. pose proof sample_flows_ok as F.
  split; [split; [exact (Forall_inv F)|cbn; unfold is_u8, is_u16; lia]|].
  split; [unfold untranslated, same_v4; cbn; tauto|].
  split; [constructor; [exact (Forall_inv (Forall_inv_tail F))|constructor]|].
  split; [apply kernel_acks_within; lia|]. split; [apply kernel_acks_open|].
  split; [vm_compute; reflexivity|].
  split. { split; [|cbn; unfold is_u8, is_u16; lia].
    split; [apply v4_four; bytes_tac|]. split; [apply v4_four; bytes_tac|]. split; apply v4_four; bytes_tac. }
  split; [intros (_ & X & _); discriminate X|].
  split; [constructor; [intros (_ & _ & _ & _ & X & _); discriminate X|constructor]|].
  intros f fs H. discriminate H.
Qed.

(** ** C89 *)
(** Each of the nfqueue example's four queues: whatever packets arrive, in every history,
    every packet is released by exactly one verdict message with its own id and bytes,
    verdict NF_ACCEPT (1) and mark 11, through its own queue. *)
Theorem C89_nfqueue_example : forall m fuel grow n i e w0 w res w',
  10 <= i < 14 -> (Z.to_nat 19201 < fuel)%nat -> bytes_env e -> kernel_sends_packets m e ->
  replies_within 20 76800 e ->
  nfq_example m i e w0 = (Ok None, w) ->
  ProcessPackets n fuel m grow e w = (res, w') ->
  exists fd its last, w_tr w' = w_tr w ++ concat its ++ last /\
    Forall (release_turn m fd i 0 (fun _ _ _ => (1, 11))) its /\
    ((res = Ok tt /\ loop_end fd res last) \/ (res = NoFuel /\ last = [] /\ length its = n)).
Proof.
  intros m fuel grow n i e w0 w res w' I HF HB KS RW ST PP.
  assert (U : u16 i = i) by (unfold u16; apply Z.mod_small; lia).
  unfold nfq_example in ST. rewrite U in ST.
  apply (C57_every_packet_is_released m fuel grow n i 2000 65535 (fun _ _ _ => (1, 11)) 0 e w0 w res w'); auto;
    try (unfold is_u16, is_u32; lia).
  intros ? ? ?. cbn. unfold is_u32. lia.
Qed.
Print Assumptions C89_nfqueue_example.
Example C89_hypotheses_met :
  let ds := [Some marked_packet; None; Some unmarked_packet] in
  bytes_env (kernel_delivers ds) /\ kernel_sends_packets LE (kernel_delivers ds) /\
  replies_within 20 76800 (kernel_delivers ds) /\
  fst (nfq_example LE 12 (kernel_delivers ds) blank) = Ok None.
Proof.
  intros ds. destruct C57_hypotheses_met as (A & B & _).
  split; [exact A|]. split; [exact B|]. split.
  - destruct (sample_hyps (releasing accept_all) ds) as (_ & X & _); [unfold ds; sample_bytes|exact X].
  - vm_compute. reflexivity.
Qed.

(** ** C90 *)
Lemma ncall_eq e c tr : ncall e c tr = (e tr c, tr ++ [(c, e tr c)]).
Proof. reflexivity. Qed.
Lemma udp_flow_run e srcPort i dstIP dstPort tr : 0 <= srcPort + i -> 0 <= dstPort ->
  exists ok evs, udp_flow e srcPort i dstIP dstPort tr = (ok, tr ++ evs) /\
    (if ok then one_flow else broken_flow) (dstIP ++ [58] ++ itoa dstPort)
      ([49;50;55;46;48;46;48;46;49;58] ++ itoa (srcPort + i)) evs.
Proof.
  intros P Q. unfold udp_flow. unfold fmt_d.
  destruct (Z.ltb_spec dstPort 0); [lia|]. destruct (Z.ltb_spec (srcPort + i) 0); [lia|].
  change local_prefix with [49;50;55;46;48;46;48;46;49;58].
  set (sv := dstIP ++ [58] ++ itoa dstPort). set (lc := [49;50;55;46;48;46;48;46;49;58] ++ itoa (srcPort + i)).
  rewrite ncall_eq. destruct (e tr (NResolve sv)) as [s|];
    [|exists false; eexists; split; [reflexivity|left; reflexivity]].
  set (tr1 := tr ++ _). rewrite ncall_eq. destruct (e tr1 (NResolve lc)) as [l|];
    [|exists false; eexists; split; [unfold tr1; rewrite <- app_assoc; reflexivity|right; left; eexists; reflexivity]].
  set (tr2 := tr1 ++ _). rewrite ncall_eq. destruct (e tr2 (NDial l s)) as [c|];
    [|exists false; eexists; split; [unfold tr2, tr1; rewrite <- !app_assoc; reflexivity|right; right; left; do 2 eexists; reflexivity]].
  set (tr3 := tr2 ++ _). rewrite ncall_eq. set (tr4 := tr3 ++ _). rewrite ncall_eq.
  destruct (e tr4 (NClose c)) as [x|].
  - exists true. eexists. split; [unfold tr4, tr3, tr2, tr1; rewrite <- !app_assoc; reflexivity|do 5 eexists; reflexivity].
  - exists false. eexists. split; [unfold tr4, tr3, tr2, tr1; rewrite <- !app_assoc; reflexivity|].
    right; right; right. do 4 eexists; reflexivity.
Qed.
Lemma udp_flows_run e srcPort dstIP dstPort : 0 <= dstPort -> forall k i tr, 0 <= srcPort + i ->
  exists ok evs, udp_flows k e srcPort i dstIP dstPort tr = (ok, tr ++ evs) /\
    flows_from (dstIP ++ [58] ++ itoa dstPort) k (srcPort + i) ok evs.
Proof.
  intros Q. induction k as [|k IH]; intros i tr P.
  - exists true, []. rewrite app_nil_r. split; [reflexivity|constructor].
  - cbn [udp_flows]. destruct (udp_flow_run e srcPort i dstIP dstPort tr P Q) as (ok & evs & -> & H).
    destruct ok.
    + destruct (IH (i + 1) (tr ++ evs) ltac:(lia)) as (ok & evs' & -> & H').
      exists ok, (evs ++ evs'). split; [rewrite app_assoc; reflexivity|]. apply ff_next; [exact H|].
      replace (srcPort + i + 1) with (srcPort + (i + 1)) by lia. exact H'.
    + exists false, evs. split; [reflexivity|]. apply ff_fail. exact H.
Qed.
(** UDPFlowCreate makes the flows in order of local port, one datagram each, and stops with
    an error at the first one that cannot be made. *)
Theorem C90_flows_created : forall e flows srcPort dstIP dstPort tr,
  0 <= srcPort -> 0 <= dstPort ->
  exists ok evs, UDPFlowCreate e flows srcPort dstIP dstPort tr = (ok, tr ++ evs) /\
    flows_from (dstIP ++ [58] ++ itoa dstPort) (Z.to_nat flows) srcPort ok evs.
Proof.
  intros e flows srcPort dstIP dstPort tr P Q. unfold UDPFlowCreate.
  destruct (udp_flows_run e srcPort dstIP dstPort Q (Z.to_nat flows) 0 tr ltac:(lia)) as (ok & evs & E & H).
  rewrite Z.add_0_r in H. exists ok, evs. auto.
Qed.
Print Assumptions C90_flows_created.
(** No connection stays open: every one that was opened is closed, in the same order,
    whether or not an error is returned. *)
Theorem C90_no_connection_left_open : forall e flows srcPort dstIP dstPort,
  0 <= srcPort -> 0 <= dstPort ->
  let tr := snd (UDPFlowCreate e flows srcPort dstIP dstPort []) in
  closed_conns tr = dialled tr.
Proof.
  intros e flows srcPort dstIP dstPort P Q. cbv zeta.
  destruct (C90_flows_created e flows srcPort dstIP dstPort [] P Q) as (ok & evs & -> & H). cbn [snd app].
  unfold closed_conns, dialled.
  induction H as [|k port ok ev evs (s & l & c & wr & x & ->) H IH|k port ev [->|[(s & ->)|[(s & l & ->)|(s & l & c & wr & ->)]]]];
    [reflexivity| |reflexivity|reflexivity|reflexivity|reflexivity].
  cbn [app flat_map]. f_equal. apply IH; lia.
Qed.
Print Assumptions C90_no_connection_left_open.
(** nil means all of them were made: one connection and one datagram for each *)
Theorem C90_nil_means_all_partial : forall e flows srcPort dstIP dstPort tr',
  0 <= srcPort -> 0 <= dstPort -> 0 <= flows ->
  UDPFlowCreate e flows srcPort dstIP dstPort [] = (true, tr') ->
  Z.of_nat (length (dialled tr')) = flows.
Proof.
  intros e flows srcPort dstIP dstPort tr' P Q F E.
  destruct (C90_flows_created e flows srcPort dstIP dstPort [] P Q) as (ok & evs & E' & H).
  rewrite E in E'. injection E' as <- ->.
  assert (X : length (dialled evs) = Z.to_nat flows); [|rewrite X; lia].
  clear E F. remember true as t eqn:T. unfold dialled.
  induction H as [|k port ok ev evs (s & l & c & wr & x & ->) H IH|]; [reflexivity| |discriminate].
  cbn [app flat_map length]. rewrite IH; [reflexivity|lia|exact T].
Qed.
Print Assumptions C90_nil_means_all_partial.
(** Refuted: that the datagram was sent.  Whether the write worked makes no difference. *)
Theorem C90_failed_write_unnoticed_refuted : exists e tr',
  UDPFlowCreate e 1 2000 [49] 3000 [] = (true, tr') /\
  exists c, In (NWrite c hello_world, None) tr'.
Proof.
  exists (fun _ c => match c with NWrite _ _ => None | _ => Some 5 end). eexists. split; [vm_compute; reflexivity|].
  exists 5. do 3 right. left. reflexivity.
Qed.
Print Assumptions C90_failed_write_unnoticed_refuted.
(** example2: five flows from ports 2000-2004 to "127.0.0.10:3000" *)
Example C90_hypotheses_met :
  let r := UDPFlowCreate (fun tr c => match c with NDial _ _ => if (length tr <? 18)%nat then Some (Z.of_nat (length tr)) else None | _ => Some 1 end)
             5 2000 [49;50;55;46;48;46;48;46;49;48] 3000 [] in
  fst r = false /\ dialled (snd r) = [2; 7; 12; 17] /\ length (snd r) = 23%nat.
Proof. vm_compute. auto. Qed.
