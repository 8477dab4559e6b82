(** C30-C35: conntrack. *)
From Verif Require Export Proof.SockFacts Proof.MessageFacts Proof.NfqStart Spec.CtSpec.

Lemma v4_addr_len ip : v4_addr ip -> is_bytes ip /\ (length ip = 4%nat \/ length ip = 16%nat).
Proof.
  intros (f & B & L & [->| ->]); [auto|]. split; [|right; unfold mapped; rewrite app_length, L; reflexivity].
  unfold mapped. apply is_bytes_app. split; [|exact B]. repeat constructor; unfold is_byte; lia.
Qed.
Lemma v4_IP2int ip : v4_addr ip -> IP2int ip = Ok (num BE (v4_bytes ip)) /\
  length (v4_bytes ip) = 4%nat /\ is_bytes (v4_bytes ip) /\ is_u32 (num BE (v4_bytes ip)).
Proof.
  intros V. apply v4_addr_len in V as [B L]. unfold v4_bytes. destruct (Nat.eqb_spec (length ip) 16) as [E|E].
  - assert (L4 : length (skipn 12 ip) = 4%nat) by (rewrite skipn_length; lia).
    assert (B4 : is_bytes (skipn 12 ip)) by (apply is_bytes_skipn, B).
    destruct (int_ip_roundtrip _ B4 L4) as (I1 & _ & I3).
    rewrite <- (firstn_skipn 12 ip) at 1. rewrite ip_v4_in_v6, I1; auto.
    rewrite firstn_length. lia.
  - assert (L4 : length ip = 4%nat) by (destruct L; congruence).
    destruct (int_ip_roundtrip _ B L4) as (I1 & _ & I3). auto.
Qed.
Lemma put32_be32 v : is_u32 v -> put32 BE v = be32 v.
Proof. intros H; red in H. unfold put32, be32. f_equal; lia. Qed.
Lemma be32_num b : length b = 4%nat -> is_bytes b -> be32 (num BE b) = b.
Proof.
  intros L B. destruct (int_ip_roundtrip b B L) as (_ & I & R).
  rewrite <- put32_be32 by exact R.
  change (Int2ip (num BE b)) with (Ok (put32 BE (num BE b))) in I. congruence.
Qed.
Lemma put16_be16 v : is_u16 v -> put16 BE v = be16 v.
Proof. intros H; red in H. unfold put16, be16. f_equal; lia. Qed.
Lemma num_v4_inj a b :
  length a = 4%nat -> length b = 4%nat -> is_bytes a -> is_bytes b -> num BE a = num BE b -> a = b.
Proof. intros La Lb Ba Bb E. rewrite <- (be32_num a), <- (be32_num b), E by assumption. reflexivity. Qed.

(** ** The request *)
Definition a_ (m : endian) (l t : Z) : bytes := attr_bytes m (mkAttr l t).
Definition ct_ip (m : endian) (t : tuple5) : bytes :=
  (a_ m 8 1 ++ v4_bytes (f_src t)) ++ (a_ m 8 2 ++ v4_bytes (f_dst t)).
Definition ct_proto (m : endian) (t : tuple5) : bytes :=
  (a_ m 5 1 ++ [f_proto t] ++ [0; 0; 0]) ++ (a_ m 6 2 ++ be16 (f_sport t) ++ [0; 0])
    ++ (a_ m 6 3 ++ be16 (f_dport t) ++ [0; 0]).
Definition ct_body (m : endian) (t : tuple5) : bytes :=
  (a_ m 20 (nested 1) ++ ct_ip m t) ++ (a_ m 28 (nested 2) ++ ct_proto m t).

Lemma build_request_ok m t :
  tuple5_ok t ->
  buildConntrackUpdateRequest m (f_src t) (f_dst t) (f_proto t) (f_sport t) (f_dport t) =
  Ok (mkNlh 72 256 5 0 0, gen_bytes (mkGen 2 0 0) ++ a_ m 52 (nested 1) ++ ct_body m t).
Proof.
  intros (S & D & P & SP & DP).
  destruct (v4_IP2int _ S) as (ES & LS & BS & RS). destruct (v4_IP2int _ D) as (ED & LD & BD & RD).
  pose proof (be32_num _ LS BS) as FS. pose proof (be32_num _ LD BD) as FD.
  unfold buildConntrackUpdateRequest. rewrite ES, ED. cbn [rbind].
  remember (num BE (v4_bytes (f_src t))) as vs eqn:Evs. clear Evs.
  remember (num BE (v4_bytes (f_dst t))) as vd eqn:Evd. clear Evd.
  unfold ct_body, ct_ip, ct_proto.
  rewrite <- FS, <- FD. rewrite <- !put32_be32 by assumption. rewrite <- !put16_be16 by assumption.
  destruct m; reflexivity.
Qed.

Lemma ct_body_ok m t : tuple5_ok t -> tuple_body m t (ct_body m t) /\ length (ct_body m t) = 48%nat.
Proof.
  intros (S & D & P & SP & DP).
  destruct (v4_IP2int _ S) as (_ & LS & _ & _). destruct (v4_IP2int _ D) as (_ & LD & _ & _).
  assert (LI : length (ct_ip m t) = 16%nat).
  { unfold ct_ip, a_. rewrite !app_length, !attr_bytes_length, LS, LD. reflexivity. }
  assert (LP : length (ct_proto m t) = 24%nat).
  { unfold ct_proto, a_. rewrite !app_length, !attr_bytes_length. reflexivity. }
  split.
  - exists (ct_ip m t), (ct_proto m t). split; [|split].
    + unfold ct_body, a_. rewrite <- app_assoc.
      change (ct_ip m t ++ ?x) with (ct_ip m t ++ [] ++ x).
      rewrite (attrs_of_cons m 20 (nested 1) (ct_ip m t) []
                 (attr_bytes m (mkAttr 28 (nested 2)) ++ ct_proto m t) [(nested 2, ct_proto m t)]).
      * reflexivity.
      * unfold zlen. rewrite LI. reflexivity.
      * red; lia.
      * unfold nested; red; lia.
      * rewrite LI. reflexivity.
      * apply attrs_of_last; [unfold zlen; rewrite LP; reflexivity|red; lia|unfold nested; red; lia].
    + unfold ct_ip, a_. rewrite <- app_assoc.
      change (v4_bytes (f_src t) ++ ?x) with (v4_bytes (f_src t) ++ [] ++ x).
      rewrite (attrs_of_cons m 8 1 (v4_bytes (f_src t)) []
                 (attr_bytes m (mkAttr 8 2) ++ v4_bytes (f_dst t)) [(2, v4_bytes (f_dst t))]).
      * reflexivity.
      * unfold zlen. rewrite LS. reflexivity.
      * red; lia.
      * red; lia.
      * rewrite LS. reflexivity.
      * apply attrs_of_last; [unfold zlen; rewrite LD; reflexivity|red; lia|red; lia].
    + unfold ct_proto, a_. rewrite <- !app_assoc.
      rewrite (attrs_of_cons m 5 1 [f_proto t] [0;0;0] _ [(2, be16 (f_sport t)); (3, be16 (f_dport t))]);
        [reflexivity|reflexivity|red; lia|red; lia|reflexivity|].
      rewrite (attrs_of_cons m 6 2 (be16 (f_sport t)) [0;0] _ [(3, be16 (f_dport t))]);
        [reflexivity|reflexivity|red; lia|red; lia|reflexivity|].
      rewrite <- (app_nil_r [0; 0]).
      apply (attrs_of_cons m 6 3 (be16 (f_dport t)) [0;0] [] []);
        [reflexivity|red; lia|red; lia|reflexivity|reflexivity].
  - unfold ct_body, a_. rewrite !app_length, !attr_bytes_length, LI, LP. reflexivity.
Qed.

Lemma ct_message_ok m t ex v :
  tuple5_ok t -> length v = 4%nat -> is_u16 ex ->
  ct_update m t [(ex, v)]
    (hdr_bytes m (mkNlh 80 256 5 0 0) ++
     (gen_bytes (mkGen 2 0 0) ++ a_ m 52 (nested 1) ++ ct_body m t) ++ a_ m 8 ex ++ v).
Proof.
  intros T L X. destruct (ct_body_ok m t T) as [B LB].
  exists (ct_body m t). split; [exact B|].
  rewrite <- !app_assoc.
  set (body := a_ m 52 (nested 1) ++ ct_body m t ++ a_ m 8 ex ++ v).
  rewrite <- (app_nil_r body).
  assert (Lb : length body = 60%nat).
  { unfold body, a_. rewrite !app_length, !attr_bytes_length, LB, L. reflexivity. }
  rewrite (read_message_build m (mkNlh 80 256 5 0 0) (mkGen 2 0 0) body []
             [(nested 1, ct_body m t); (ex, v)]).
  - reflexivity.
  - unfold hdr_in_range, is_u32, is_u16. cbn [n_len n_type n_flags n_seq n_pid]. lia.
  - cbn; red; lia.
  - cbn; red; lia.
  - cbn; red; lia.
  - cbn [n_len]. unfold zlen. rewrite Lb. reflexivity.
  - rewrite Lb. reflexivity.
  - unfold body, a_. change (ct_body m t ++ ?x) with (ct_body m t ++ [] ++ x).
    apply attrs_of_cons.
    + unfold zlen. rewrite LB. reflexivity.
    + red; lia.
    + unfold nested; red; lia.
    + rewrite LB. reflexivity.
    + apply attrs_of_last; [unfold zlen; rewrite L; reflexivity|red; lia|exact X].
Qed.

Definition mark_bytes (m : endian) (t : tuple5) (mark : Z) : bytes :=
  hdr_bytes m (mkNlh 80 256 5 0 0) ++
  (gen_bytes (mkGen 2 0 0) ++ a_ m 52 (nested 1) ++ ct_body m t) ++ a_ m 8 8 ++ be32 mark.
Definition label_bytes (m : endian) (t : tuple5) (label : Z) : bytes :=
  hdr_bytes m (mkNlh 80 256 5 0 0) ++
  (gen_bytes (mkGen 2 0 0) ++ a_ m 52 (nested 1) ++ ct_body m t) ++ a_ m 8 22 ++ native32 m label.

Lemma appendMark_ok m mark :
  is_u32 mark -> appendMark m mark (mkNlh 72 256 5 0 0) = Ok (a_ m 8 8 ++ be32 mark, mkNlh 80 256 5 0 0).
Proof.
  intros H. unfold appendMark. cbn [BuildNfAttrMsg]. rewrite NfAttr_ToWireFormat_ok. cbn [rbind].
  change (NfValue32_ToWireFormat mark) with (Ok (put32 BE mark)). cbn [rbind].
  rewrite put32_be32 by exact H. reflexivity.
Qed.
Lemma native32_put m v : is_u32 v -> put32 (NativeEndian m) v = native32 m v.
Proof.
  intros H. rewrite NativeEndian_id. destruct m; cbn [native32].
  - change (put32 LE v) with (rev (put32 BE v)). now rewrite put32_be32.
  - apply put32_be32, H.
Qed.
Lemma appendLabel_ok m label :
  is_u32 label ->
  appendLabel m label (mkNlh 72 256 5 0 0) = Ok (a_ m 8 22 ++ native32 m label, mkNlh 80 256 5 0 0).
Proof.
  intros H. unfold appendLabel. cbn [BuildNfAttrMsg]. rewrite NfAttr_ToWireFormat_ok.
  rewrite native32_put by exact H.
  assert (G : gput (gmake SizeOfValue32) 0 (native32 m label) = Ok (native32 m label)) by (destruct m; reflexivity).
  rewrite G. reflexivity.
Qed.

(** ** One update *)
Lemma ct_query_run m fd hdr data hi e w :
  (4 <= length data)%nat -> replies_within 20 hi e ->
  exists res w' new,
    ct_query m fd hdr data e w = (Ok res, w') /\ w_tr w' = w_tr w ++ new /\
    one_request m fd (zlen (hdr_bytes m hdr ++ data)) (hdr_bytes m hdr ++ data) new res.
Proof.
  intros L R.
  destruct (sock_exchange m fd hdr data hi e w (fun _ => ret tt) L R)
    as (res & w' & new & buf & st & E & T & Q & _).
  { intros s. exists (w_st w). reflexivity. }
  exists res, w', new. auto.
Qed.

Lemma sendMessage_run m hdr data hi e w :
  (4 <= length data)%nat -> replies_within 20 hi e -> sockets_open e ->
  exists res w' new,
    sendMessage m hdr data e w = (Ok res, w') /\ w_tr w' = w_tr w ++ new /\
    one_update m (hdr_bytes m hdr ++ data) new res.
Proof.
  intros L R O. unfold sendMessage, ct_open. repeat mstep.
  pose proof (O (w_tr w) (KSocket AF_NETLINK SOCK_RAW NETLINK_NETFILTER)) as O1. cbn in O1.
  rewrite O1. repeat mstep.
  set (rs := e (w_tr w) _). set (t1 := w_tr w ++ _).
  pose proof (O t1 (KBind (r_val rs) AF_NETLINK)) as O2. cbn in O2. rewrite O2. rewrite bind_ret.
  set (rb := e t1 _). set (w1 := mkW _ _ _).
  destruct (ct_query_run m (r_val rs) hdr data hi e w1 L R) as (res & w' & new & E & T & Q).
  unfold deferred. rewrite E. rewrite bind_do_call. cbn [fst snd].
  eexists res, _, _. split; [reflexivity|]. cbn [w_tr]. rewrite T. cbn [w1 w_tr]. unfold t1.
  rewrite <- !app_assoc. split; [reflexivity|].
  exists (r_val rs), [(KSocket AF_NETLINK SOCK_RAW NETLINK_NETFILTER, rs); (KBind (r_val rs) AF_NETLINK, rb)], new.
  eexists. split; [|split; [exact Q|reflexivity]].
  exists rs, rb. auto.
Qed.

Lemma UpdateMark_run m t mark hi e w :
  tuple5_ok t -> is_u32 mark -> replies_within 20 hi e -> sockets_open e ->
  exists res w' new b,
    ConntrackTableUpdateMark m (f_src t) (f_dst t) (f_proto t) (f_sport t) (f_dport t) mark e w = (Ok res, w') /\
    w_tr w' = w_tr w ++ new /\
    ct_update m t [mark_attr mark] b /\ one_update m b new res.
Proof.
  intros T K R O. unfold ConntrackTableUpdateMark. rewrite build_request_ok by exact T.
  rewrite bind_lift_ok, appendMark_ok by exact K. rewrite bind_lift_ok.
  match goal with |- context [sendMessage m ?h ?d] =>
    destruct (sendMessage_run m h d hi e w) as (res & w' & new & E & Tr & U) end;
    [cbn; lia|exact R|exact O|].
  exists res, w', new. eexists. split; [exact E|]. split; [exact Tr|]. split; [|exact U].
  apply ct_message_ok; [exact T|reflexivity|red; lia].
Qed.

Lemma label_request_ok m t label :
  tuple5_ok t -> is_u32 label -> f_proto t <> 6 ->
  label_request m (f_src t) (f_dst t) (f_proto t) (f_sport t) (f_dport t) label =
  Ok (mkNlh 80 256 5 0 0,
      (gen_bytes (mkGen 2 0 0) ++ a_ m 52 (nested 1) ++ ct_body m t) ++ a_ m 8 22 ++ native32 m label).
Proof.
  intros T K P. unfold label_request. rewrite build_request_ok by exact T. cbn [rbind].
  unfold TCP_PROTO. destruct (Z.eqb_spec (f_proto t) 6) as [X|X]; [contradiction|]. cbn [rbind].
  rewrite appendLabel_ok by exact K. reflexivity.
Qed.

(** ** Matching *)
Lemma ip_eq_ok a b : v4_addr a -> v4_addr b ->
  exists x, ip_eq a b = Ok x /\ (x = true <-> same_v4 a b).
Proof.
  intros A B. destruct (v4_IP2int _ A) as (EA & LA & BA & _). destruct (v4_IP2int _ B) as (EB & LB & BB & _).
  unfold ip_eq. rewrite EA, EB. cbn [rbind]. eexists. split; [reflexivity|].
  rewrite Z.eqb_eq. unfold same_v4. split; [|congruence].
  apply num_v4_inj; assumption.
Qed.
Lemma and_then_ok a b x y : a = Ok x -> b = Ok y -> and_then a b = Ok (x && y).
Proof. intros -> ->. unfold and_then. cbn [rbind]. destruct x; reflexivity. Qed.
Lemma check_ok t fl :
  tuple5_ok t -> flow_ok fl ->
  exists x, checkTuplesInFlow fl (f_src t) (f_dst t) (f_proto t) (f_sport t) (f_dport t) = Ok x /\
    (x = true <-> flow_matches t fl).
Proof.
  intros (S & D & _) (F1 & F2 & F3 & F4).
  destruct (ip_eq_ok _ _ F1 S) as (x1 & E1 & H1). destruct (ip_eq_ok _ _ F3 D) as (x2 & E2 & H2).
  destruct (ip_eq_ok _ _ F2 D) as (x3 & E3 & H3). destruct (ip_eq_ok _ _ F4 S) as (x4 & E4 & H4).
  unfold checkTuplesInFlow. rewrite (and_then_ok _ _ _ _ E1 E2), (and_then_ok _ _ _ _ E3 E4). cbn [rbind].
  eexists. split; [reflexivity|]. unfold flow_matches.
  rewrite !andb_true_iff, !Z.eqb_eq, H1, H2, H3, H4. tauto.
Qed.

Lemma mark_loop_run m t mark hi e : forall flows w n,
  tuple5_ok t -> is_u32 mark -> mark <> 0 -> replies_within 20 hi e -> sockets_open e ->
  Forall flow_ok flows -> 0 <= n ->
  exists k err w' new er,
    mark_loop m flows (f_src t) (f_dst t) (f_proto t) (f_sport t) (f_dport t) mark n e w =
      (Ok (match err with None => n + Z.of_nat k | Some _ => 0 end, er), w') /\
    w_tr w' = w_tr w ++ new /\ (er = None <-> err = None) /\
    updates m (ct_update m t [mark_attr mark]) (flow_matches t) flows k new err.
Proof.
  induction flows as [|fl fs IH]; intros w n T K NZ R O F N.
  - exists 0%nat, None, w, [], None. cbn [mark_loop]. destruct (Z.leb_spec 0 n); [|lia].
    rewrite app_nil_r, Z.add_0_r. split; [reflexivity|]. split; [reflexivity|]. split; [tauto|constructor].
  - cbn [mark_loop]. destruct (check_ok t fl T (Forall_inv F)) as (x & E & X). rewrite E, bind_lift_ok.
    destruct (Z.eqb_spec mark 0); [contradiction|]. cbn [negb]. rewrite andb_true_r.
    destruct x.
    + destruct (UpdateMark_run m t mark hi e w T K R O) as (res & w1 & new1 & b & E1 & T1 & B1 & U1).
      rewrite (bind_ok _ _ _ _ _ _ E1). destruct res as [er|].
      * exists 0%nat, (Some er), w1, new1. eexists. split; [reflexivity|]. split; [exact T1|].
        split; [split; discriminate|]. eapply up_fail; [apply X; reflexivity|exact B1|exact U1].
      * destruct (IH w1 (n + 1) T K NZ R O (Forall_inv_tail F) ltac:(lia))
          as (k & err & w2 & new2 & er & E2 & T2 & Q2 & U2).
        exists (S k), err, w2, (new1 ++ new2), er. split.
        { rewrite E2. destruct err; [reflexivity|]. do 3 f_equal. lia. }
        rewrite T2, T1, <- app_assoc. split; [reflexivity|]. split; [exact Q2|].
        eapply up_ok; [apply X; reflexivity|exact B1|exact U1|exact U2].
    + destruct (IH w n T K NZ R O (Forall_inv_tail F) N) as (k & err & w2 & new2 & er & E2 & T2 & Q2 & U2).
      exists k, err, w2, new2, er. split; [exact E2|]. split; [exact T2|]. split; [exact Q2|].
      apply up_skip; [|exact U2]. intros C. apply X in C. discriminate.
Qed.

Lemma mark_zero_run m t flows e w :
  tuple5_ok t -> Forall flow_ok flows ->
  ConntrackTableUpdateMarkForAvailableFlow m flows (f_src t) (f_dst t) (f_proto t) (f_sport t) (f_dport t) 0 e w =
  (Ok (0, None), w).
Proof.
  intros T F. unfold ConntrackTableUpdateMarkForAvailableFlow.
  induction flows as [|fl fs IH]; [reflexivity|]. cbn [mark_loop].
  destruct (check_ok t fl T (Forall_inv F)) as (x & E & _). rewrite E, bind_lift_ok.
  rewrite andb_false_r. apply IH, (Forall_inv_tail F).
Qed.

Lemma label_loop_run m t label hi e : forall flows w n,
  tuple5_ok t -> is_u32 label -> f_proto t <> 6 -> replies_within 20 hi e -> sockets_open e ->
  Forall flow_ok flows -> 0 <= n ->
  exists k err w' new er,
    label_loop m flows (f_src t) (f_dst t) (f_proto t) (f_sport t) (f_dport t) label n e w =
      (Ok (match err with None => n + Z.of_nat k | Some _ => 0 end, er), w') /\
    w_tr w' = w_tr w ++ new /\ (er = None <-> err = None) /\
    updates m (ct_update m t [label_attr m label]) (flow_matches t) flows k new err.
Proof.
  induction flows as [|fl fs IH]; intros w n T K NP R O F N.
  - exists 0%nat, None, w, [], None. cbn [label_loop]. destruct (Z.leb_spec 0 n); [|lia].
    rewrite app_nil_r, Z.add_0_r. split; [reflexivity|]. split; [reflexivity|]. split; [tauto|constructor].
  - cbn [label_loop]. destruct (check_ok t fl T (Forall_inv F)) as (x & E & X). rewrite E, bind_lift_ok.
    destruct x.
    + rewrite label_request_ok by assumption. rewrite bind_lift_ok.
      match goal with |- context [sendMessage m ?h ?d] =>
        destruct (sendMessage_run m h d hi e w) as (res & w1 & new1 & E1 & T1 & U1) end;
        [cbn; lia|exact R|exact O|].
      assert (B1 : ct_update m t [label_attr m label]
        (hdr_bytes m (mkNlh 80 256 5 0 0) ++
         (gen_bytes (mkGen 2 0 0) ++ a_ m 52 (nested 1) ++ ct_body m t) ++ a_ m 8 22 ++ native32 m label)).
      { apply ct_message_ok; [exact T|destruct m; reflexivity|red; lia]. }
      rewrite (bind_ok _ _ _ _ _ _ E1). destruct res as [er|].
      * exists 0%nat, (Some er), w1, new1. eexists. split; [reflexivity|]. split; [exact T1|].
        split; [split; discriminate|]. eapply up_fail; [apply X; reflexivity|exact B1|exact U1].
      * destruct (IH w1 (n + 1) T K NP R O (Forall_inv_tail F) ltac:(lia))
          as (k & err & w2 & new2 & er & E2 & T2 & Q2 & U2).
        exists (S k), err, w2, (new1 ++ new2), er. split.
        { rewrite E2. destruct err; [reflexivity|]. do 3 f_equal. lia. }
        rewrite T2, T1, <- app_assoc. split; [reflexivity|]. split; [exact Q2|].
        eapply up_ok; [apply X; reflexivity|exact B1|exact U1|exact U2].
    + destruct (IH w n T K NP R O (Forall_inv_tail F) N) as (k & err & w2 & new2 & er & E2 & T2 & Q2 & U2).
      exists k, err, w2, new2, er. split; [exact E2|]. split; [exact T2|]. split; [exact Q2|].
      apply up_skip; [|exact U2]. intros C. apply X in C. discriminate.
Qed.

(** ** C34 for every reply: one socket, one request, closed once *)
(** functions without a loop always return or panic *)
Definition ends {A} (x : res A) : Prop := x <> NoFuel.
Lemma ends_bind {A B} (x : res A) (f : A -> res B) : ends x -> (forall a, ends (f a)) -> ends (rbind x f).
Proof. intros H F. unfold ends in *. destruct x; cbn; [apply F|discriminate|contradiction]. Qed.
Lemma ends_ok {A} (a : A) : ends (Ok a).
Proof. discriminate. Qed.
Lemma ends_get16 e b : ends (get16 e b).
Proof. destruct b as [|? [|]]; discriminate. Qed.
Lemma ends_get32 e b : ends (get32 e b).
Proof. destruct b as [|? [|? [|? [|]]]]; discriminate. Qed.
Lemma ends_reslice s a b : ends (reslice s a b).
Proof. unfold reslice. destruct (_ && _); discriminate. Qed.
Lemma ends_sidx h s i : ends (sidx h s i).
Proof. unfold sidx, gidx. destruct (_ && _); discriminate. Qed.
#[local] Hint Resolve ends_ok ends_get16 ends_get32 ends_reslice ends_sidx : ends.
Ltac ends_tac := repeat (apply ends_bind; [auto with ends|intros ?]); auto with ends.
Lemma ends_hdr m h b : ends (NetlinkMessageToStruct m h b).
Proof.
  unfold NetlinkMessageToStruct, resl_from. destruct (_ <=? _)%nat; [discriminate|]. cbv zeta. ends_tac.
Qed.
#[local] Hint Resolve ends_hdr : ends.
Lemma ends_err m h b : ends (NetlinkErrMessagetoStruct m h b).
Proof.
  unfold NetlinkErrMessagetoStruct, resl_from. ends_tac. destruct a1 as [[? ?] ?]. discriminate.
Qed.
Lemma ends_gen h b : ends (NetlinkMessageToNfGenStruct h b).
Proof. unfold NetlinkMessageToNfGenStruct, resl_from. ends_tac. Qed.
#[local] Hint Resolve ends_err ends_gen : ends.

(** no further interaction, and an end *)
Definition quiet {S A} (x : M S A) (e : env) (w : world S) : Prop :=
  exists r w', x e w = (r, w') /\ ends r /\ w_tr w' = w_tr w.
Lemma quiet_lift {S A B} (x : res A) (f : A -> M S B) e w :
  ends x -> (forall a, quiet (f a) e w) -> quiet (mbind (lift x) f) e w.
Proof.
  intros Hx Hf. unfold quiet, mbind, lift. destruct x as [a| |]; cbn; [apply Hf| |contradiction].
  eexists _, _. split; [reflexivity|]. split; [discriminate|reflexivity].
Qed.
Lemma quiet_ret {S A} (a : A) e (w : world S) : quiet (ret a) e w.
Proof. eexists _, _. split; [reflexivity|]. split; [discriminate|reflexivity]. Qed.

Lemma ct_query_trace m fd hdr data e w :
  exists r1 rest r w',
    ct_query m fd hdr data e w = (r, w') /\ ends r /\
    w_tr w' = w_tr w ++ (KSendto fd (hdr_bytes m hdr ++ data) 0, r1) :: rest /\
    (rest = [] \/ exists n r2, rest = [(KRecvfrom fd n 0, r2)]).
Proof.
  unfold ct_query, sock_send. rewrite !bind_assoc, send_bytes_ok, bind_lift_ok.
  unfold m_alloc, alloc. repeat mstep. set (b := hdr_bytes m hdr ++ data).
  set (c1 := KSendto fd b 0). set (r1 := e (w_tr w) c1). exists r1.
  destruct (r_err r1) as [en|] eqn:E1.
  { rewrite bind_ret. eexists [], _, _. split; [reflexivity|]. split; [discriminate|].
    split; [reflexivity|left; reflexivity]. }
  rewrite bind_ret. set (buf := mkSl _ _ _ _). set (w1 := mkW _ _ _).
  set (c2 := KRecvfrom fd (Z.of_nat (s_len buf)) 0).
  set (r2 := e (w_tr w1) c2).
  assert (G : exists r w', sock_recv m fd buf e w1 = (r, w') /\ ends r /\
              w_tr w' = w_tr w1 ++ [(c2, r2)]).
  { unfold sock_recv. destruct (r_err r2) as [en|] eqn:E2.
    - unfold r2, c2 in E2. rewrite (bind_ok _ _ _ _ _ _ (recvfrom_err _ _ _ _ _ _ E2)).
      eexists _, _. split; [reflexivity|]. split; [discriminate|reflexivity].
    - pose proof (recvfrom_ok fd buf 0 e w1 E2) as E. cbv zeta in E.
      rewrite (bind_ok _ _ _ _ _ _ E). clear E. fold c2 r2. set (w2 := mkW _ _ _).
      change (w_tr w1 ++ [(c2, r2)]) with (w_tr w2).
      cbv beta iota.
      apply quiet_lift; [unfold resl_to; auto with ends|].
      intros b2. unfold quiet. rewrite bind_get_heap. apply quiet_lift; [auto with ends|].
      intros [[[hd|] nx] [er|]]; try apply quiet_ret.
      + unfold quiet. destruct (n_type hd =? NlMsgError).
        * rewrite bind_assoc. apply quiet_lift; [auto with ends|]. intros z. unfold quiet. rewrite bind_ret.
          destruct (snd z =? 0); [|apply quiet_ret].
          apply quiet_lift; [auto with ends|]. intros ?. apply quiet_ret.
        * rewrite bind_ret. apply quiet_lift; [auto with ends|]. intros ?. apply quiet_ret.
      + eexists _, _. split; [reflexivity|]. split; [discriminate|reflexivity]. }
  destruct G as (r & w' & G1 & G2 & G3).
  exists [(c2, r2)], r, w'. split; [exact G1|]. split; [exact G2|]. split.
  - rewrite G3. cbn [w1 w_tr]. rewrite <- app_assoc. reflexivity.
  - right. eexists _, _. reflexivity.
Qed.

Lemma sendMessage_trace m hdr data e w :
  exists new,
    w_tr (snd (sendMessage m hdr data e w)) = w_tr w ++ new /\
    ((exists fd o r1 rest rc, ct_opens fd o /\
        new = o ++ (KSendto fd (hdr_bytes m hdr ++ data) 0, r1) :: rest ++ [(KClose fd, rc)] /\
        (rest = [] \/ exists n r2, rest = [(KRecvfrom fd n 0, r2)]) /\
        ends (fst (sendMessage m hdr data e w)))
     \/ (open_fails new /\ fst (sendMessage m hdr data e w) = Panic)).
Proof.
  unfold sendMessage, ct_open. repeat mstep.
  set (c1 := KSocket _ _ _). set (rs := e (w_tr w) c1).
  destruct (r_err rs) as [en|] eqn:E1.
  { rewrite bind_ret. eexists. split; [reflexivity|]. right. split; [|reflexivity].
    left. exists rs, en. auto. }
  repeat mstep. set (t1 := w_tr w ++ _).
  set (c2 := KBind _ _). set (rb := e t1 c2).
  destruct (r_err rb) as [en|] eqn:E2.
  { rewrite bind_ret. eexists. cbn [snd w_tr mpanic]. unfold t1. rewrite <- app_assoc.
    split; [reflexivity|]. right. split; [|reflexivity]. right. exists rs, rb, en. auto. }
  rewrite bind_ret. set (w1 := mkW _ _ _).
  destruct (ct_query_trace m (r_val rs) hdr data e w1) as (r1 & rest & r & w' & Q1 & Q2 & Q3 & Q4).
  unfold deferred. rewrite Q1. rewrite bind_do_call.
  set (rc := e (w_tr w') _). cbn [ret fst snd].
  assert (T : w_tr w' ++ [(KClose (r_val rs), rc)] =
    w_tr w ++ [(c1, rs); (c2, rb)] ++ (KSendto (r_val rs) (hdr_bytes m hdr ++ data) 0, r1)
           :: rest ++ [(KClose (r_val rs), rc)]).
  { rewrite Q3. cbn [w1 w_tr]. unfold t1. rewrite <- !app_assoc. reflexivity. }
  assert (O : ct_opens (r_val rs) [(c1, rs); (c2, rb)]) by (exists rs, rb; auto).
  destruct r as [res| |]; [| |exfalso; apply Q2; reflexivity]; cbn [fst snd w_tr];
    (eexists; split; [exact T|]; left; exists (r_val rs), [(c1, rs); (c2, rb)], r1, rest, rc;
     split; [exact O|]; split; [reflexivity|]; split; [exact Q4|discriminate]).
Qed.

(** ** TCP label updates *)
Definition ct_tcp (m : endian) : bytes :=
  a_ m 4 4 ++ [10; 10; 0; 0] ++ a_ m 4 5 ++ [10; 10; 0; 0].
Definition ct_protoinfo (m : endian) : bytes := a_ m 20 (nested 1) ++ ct_tcp m.

Lemma label_tcp_request_ok m t label :
  tuple5_ok t -> is_u32 label -> f_proto t = 6 ->
  label_request m (f_src t) (f_dst t) (f_proto t) (f_sport t) (f_dport t) label =
  Ok (mkNlh 104 256 5 0 0,
      ((gen_bytes (mkGen 2 0 0) ++ a_ m 52 (nested 1) ++ ct_body m t) ++
       a_ m 24 (nested 4) ++ ct_protoinfo m) ++ a_ m 8 22 ++ native32 m label).
Proof.
  intros T K P. unfold label_request. rewrite build_request_ok by exact T. cbn [rbind].
  rewrite P. cbn [Z.eqb TCP_PROTO Pos.eqb].
  assert (AP : appendProtoInfo m (mkNlh 72 256 5 0 0) =
               Ok (a_ m 24 (nested 4) ++ ct_protoinfo m, mkNlh 96 256 5 0 0))
    by (destruct m; reflexivity).
  rewrite AP. cbn [rbind].
  unfold appendLabel. cbn [BuildNfAttrMsg]. rewrite NfAttr_ToWireFormat_ok.
  rewrite native32_put by exact K.
  assert (G : gput (gmake SizeOfValue32) 0 (native32 m label) = Ok (native32 m label)) by (destruct m; reflexivity).
  rewrite G. reflexivity.
Qed.

Lemma label_tcp_message m t label :
  tuple5_ok t -> is_u32 label ->
  exists v pi tcp,
    tuple_body m t v /\
    read_message m (hdr_bytes m (mkNlh 104 256 5 0 0) ++
      ((gen_bytes (mkGen 2 0 0) ++ a_ m 52 (nested 1) ++ ct_body m t) ++
       a_ m 24 (nested 4) ++ ct_protoinfo m) ++ a_ m 8 22 ++ native32 m label) =
    Some (mkMsg (msg_type SUBSYS_CTNETLINK 0) (NLM_F_REQUEST + NLM_F_ACK) 0 0 2 0 0
            [(nested 1, v); (nested 4, pi); label_attr m label]) /\
    attrs_of m pi = Some [(nested 1, tcp)] /\ attrs_of m tcp = None.
Proof.
  intros T K. destruct (ct_body_ok m t T) as [B LB].
  exists (ct_body m t), (ct_protoinfo m), (ct_tcp m). split; [exact B|]. split; [|split].
  - rewrite <- !app_assoc.
    set (body := a_ m 52 (nested 1) ++ ct_body m t ++ a_ m 24 (nested 4) ++ ct_protoinfo m ++ a_ m 8 22 ++ native32 m label).
    rewrite <- (app_nil_r body).
    assert (LN : length (native32 m label) = 4%nat) by (destruct m; reflexivity).
    assert (LP : length (ct_protoinfo m) = 20%nat) by (destruct m; reflexivity).
    assert (Lb : length body = 84%nat).
    { unfold body, a_. rewrite !app_length, !attr_bytes_length, LB, LN, LP. reflexivity. }
    rewrite (read_message_build m (mkNlh 104 256 5 0 0) (mkGen 2 0 0) body []
               [(nested 1, ct_body m t); (nested 4, ct_protoinfo m); label_attr m label]).
    + reflexivity.
    + unfold hdr_in_range, is_u32, is_u16. cbn [n_len n_type n_flags n_seq n_pid]. lia.
    + cbn; red; lia.
    + cbn; red; lia.
    + cbn; red; lia.
    + cbn [n_len]. unfold zlen. rewrite Lb. reflexivity.
    + rewrite Lb. reflexivity.
    + unfold body, a_. change (ct_body m t ++ ?x) with (ct_body m t ++ [] ++ x).
      apply attrs_of_cons.
      * unfold zlen. rewrite LB. reflexivity.
      * red; lia.
      * unfold nested; red; lia.
      * rewrite LB. reflexivity.
      * change (ct_protoinfo m ++ ?x) with (ct_protoinfo m ++ [] ++ x).
        apply attrs_of_cons.
        -- unfold zlen. rewrite LP. reflexivity.
        -- red; lia.
        -- unfold nested; red; lia.
        -- rewrite LP. reflexivity.
        -- apply attrs_of_last; [unfold zlen; rewrite LN; reflexivity|red; lia|red; lia].
  - unfold ct_protoinfo, a_. apply attrs_of_last; [destruct m; reflexivity|red; lia|unfold nested; red; lia].
  - destruct m; reflexivity.
Qed.

(** ** API-level statements *)
Lemma UpdateMark_trace m t mark e w :
  tuple5_ok t -> is_u32 mark ->
  let run := ConntrackTableUpdateMark m (f_src t) (f_dst t) (f_proto t) (f_sport t) (f_dport t) mark e w in
  exists new, w_tr (snd run) = w_tr w ++ new /\
    ((exists fd o b r1 rest rc, ct_opens fd o /\ ct_update m t [mark_attr mark] b /\
        new = o ++ (KSendto fd b 0, r1) :: rest ++ [(KClose fd, rc)] /\
        (rest = [] \/ exists n r2, rest = [(KRecvfrom fd n 0, r2)]) /\ fst run <> NoFuel)
     \/ (open_fails new /\ fst run = Panic)).
Proof.
  intros T K run. unfold run, ConntrackTableUpdateMark. rewrite build_request_ok by exact T.
  rewrite bind_lift_ok, appendMark_ok by exact K. rewrite bind_lift_ok.
  match goal with |- context [sendMessage m ?h ?d] =>
    destruct (sendMessage_trace m h d e w) as (new & Tr & [(fd & o & r1 & rest & rc & O & N & Q & F)|F]) end.
  - exists new. split; [exact Tr|]. left. exists fd, o. eexists. exists r1, rest, rc.
    split; [exact O|]. split; [|split; [exact N|split; [exact Q|exact F]]].
    apply ct_message_ok; [exact T|reflexivity|red; lia].
  - exists new. split; [exact Tr|]. right. exact F.
Qed.

Lemma nil_addr_panics m a b p sp dp mark e (w : world unit) :
  (a = [] \/ (b = [] /\ v4_addr a)) ->
  fst (ConntrackTableUpdateMark m a b p sp dp mark e w) = Panic.
Proof.
  intros [->|[-> A]]; unfold ConntrackTableUpdateMark, buildConntrackUpdateRequest.
  - reflexivity.
  - destruct (v4_IP2int _ A) as (-> & _). reflexivity.
Qed.

Lemma no_match_run m t mark flows e w :
  tuple5_ok t -> Forall flow_ok flows -> Forall (fun fl => ~ flow_matches t fl) flows ->
  ConntrackTableUpdateMarkForAvailableFlow m flows (f_src t) (f_dst t) (f_proto t) (f_sport t) (f_dport t) mark e w =
  (Ok (0, None), w) /\
  ConntrackTableUpdateLabel m flows (f_src t) (f_dst t) (f_proto t) (f_sport t) (f_dport t) mark e w =
  (Ok (0, None), w).
Proof.
  intros T F N. unfold ConntrackTableUpdateMarkForAvailableFlow, ConntrackTableUpdateLabel.
  induction flows as [|fl fs IH]; [split; reflexivity|]. cbn [mark_loop label_loop].
  destruct (check_ok t fl T (Forall_inv F)) as (x & E & X). rewrite E, !bind_lift_ok.
  destruct x; [exfalso; apply (Forall_inv N), X; reflexivity|]. cbn [andb].
  apply IH; [apply (Forall_inv_tail F)|apply (Forall_inv_tail N)].
Qed.
Lemma ct_open_run e w :
  exists r w' new, ct_open e w = (Ok r, w') /\ w_tr w' = w_tr w ++ new /\
    match r with inl fd => ct_opens fd new | inr _ => open_fails new end.
Proof.
  unfold ct_open. repeat mstep.
  set (c1 := KSocket _ _ _). set (rs := e (w_tr w) c1).
  destruct (r_err rs) as [en|] eqn:E1.
  { eexists (inr _), _, _. split; [reflexivity|]. split; [reflexivity|]. left. exists rs, en. auto. }
  repeat mstep. set (t1 := w_tr w ++ _).
  set (c2 := KBind _ _). set (rb := e t1 c2).
  destruct (r_err rb) as [en|] eqn:E2.
  { eexists (inr _), _, _. split; [reflexivity|]. cbn [w_tr]. unfold t1. rewrite <- app_assoc.
    split; [reflexivity|]. right. exists rs, rb, en. auto. }
  eexists (inl _), _, _. split; [reflexivity|]. cbn [w_tr]. unfold t1. rewrite <- app_assoc.
  split; [reflexivity|]. exists rs, rb. auto.
Qed.
