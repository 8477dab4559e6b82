(** Packets leave the socket in order, each exactly once (C81). *)
From Verif Require Export Proof.Grows Spec.Fifo.

(** ** What a callback that does not stop the queue does to the history *)
Definition no_recv (ev : event) : Prop := match fst ev with KRecvfrom _ _ _ | KPacketCb _ _ _ _ _ => False | _ => True end.
Definition quiet {S A} (x : M S A) : Prop :=
  forall e w, exists rest, w_tr (snd (x e w)) = w_tr w ++ rest /\ Forall no_recv rest.
Lemma quiet_pure {S A} (x : M S A) : (forall e w, w_tr (snd (x e w)) = w_tr w) -> quiet x.
Proof. intros H e w. exists []. rewrite app_nil_r. auto. Qed.
Lemma quiet_call {S} c : no_recv (c, mkResp None 0 [] false) -> quiet (S:=S) (do_call c).
Proof. intros H e w. eexists. split; [reflexivity|]. constructor; [exact H|constructor]. Qed.
Lemma quiet_bind {S A B} (x : M S A) (f : A -> M S B) :
  quiet x -> (forall a, quiet (f a)) -> quiet (mbind x f).
Proof.
  intros Hx Hf e w. unfold mbind. destruct (Hx e w) as (r1 & E1 & F1).
  destruct (x e w) as [[a| |] w1]; cbn [snd] in *; [|exists r1; auto|exists r1; auto].
  destruct (Hf a e w1) as (r2 & E2 & F2). exists (r1 ++ r2). rewrite E2, E1, <- app_assoc.
  split; [reflexivity|apply Forall_app; auto].
Qed.
Ltac quiet_step :=
  match goal with
  | |- quiet (mbind _ _) => apply quiet_bind; [|intros ?]
  | |- quiet (ret _) => apply quiet_pure; reflexivity
  | |- quiet (lift _) => apply quiet_pure; reflexivity
  | |- quiet mpanic => apply quiet_pure; reflexivity
  | |- quiet get_st => apply quiet_pure; reflexivity
  | |- quiet (put_st _) => apply quiet_pure; reflexivity
  | |- quiet get_heap => apply quiet_pure; reflexivity
  | |- quiet (put_heap _) => apply quiet_pure; reflexivity
  | |- quiet (do_call _) => apply quiet_call; exact Logic.I
  | |- quiet (match ?x with _ => _ end) => destruct x
  | |- quiet (let _ := _ in _) => cbv zeta
  end.
Lemma quiet_m_alloc {S} v sp : quiet (S:=S) (m_alloc v sp).
Proof. unfold m_alloc. repeat quiet_step. Qed.
Lemma quiet_m_stores {S} s ws : quiet (S:=S) (m_stores s ws).
Proof. induction ws as [|[o v] ws IH]; cbn [m_stores]; repeat quiet_step. exact IH. Qed.
Lemma quiet_SetVerdict m g v pl id p : quiet (SetVerdict m g v pl id p).
Proof.
  unfold SetVerdict. cbn [BuildNfgenMsg BuildNfAttrMsg]. unfold append_pad, sendmsg.
  repeat (quiet_step || apply quiet_m_alloc).
Qed.
Lemma quiet_SetVerdict2 m g v mk pl id p : quiet (SetVerdict2 m g v mk pl id p).
Proof.
  unfold SetVerdict2. apply quiet_bind; [quiet_step|intros q].
  destruct (sv2_hdr _ _ _ _ _ _) as [[ws n] a]. unfold append_pad, sendmsg.
  repeat (quiet_step || apply quiet_m_stores).
Qed.
Lemma quiet_acts m g l : ~ In CbStop l -> quiet (run_acts m g l).
Proof.
  induction l as [|a l IH]; cbn [run_acts]; intros N; [quiet_step|].
  apply quiet_bind; [|intros _; apply IH; intros ?; apply N; now right].
  destruct a; [apply quiet_SetVerdict|apply quiet_SetVerdict2|apply quiet_m_stores| |].
  - apply quiet_bind; [apply quiet_m_alloc|intros _; quiet_step].
  - exfalso. apply N. now left.
Qed.

(** ** Counting *)
Lemma taken_app l1 l2 : taken (l1 ++ l2) = (taken l1 + taken l2)%nat.
Proof. unfold taken. rewrite filter_app, app_length. reflexivity. Qed.
Lemma taken_quiet l : Forall no_recv l -> taken l = 0%nat.
Proof. induction 1 as [|[c r] l H _ IH]; [reflexivity|]. unfold taken in *. destruct c; cbn in *; auto; contradiction. Qed.
Lemma shown_app l1 l2 : shown (l1 ++ l2) = shown l1 ++ shown l2.
Proof. apply flat_map_app. Qed.
Lemma shown_quiet l : Forall no_recv l -> shown l = [].
Proof.
  induction 1 as [|[c r] l H _ IH]; [reflexivity|].
  change ((c, r) :: l) with ([(c, r)] ++ l). rewrite shown_app, IH. destruct c; cbn in *; auto; contradiction.
Qed.

(** ** A well-formed attribute list is not cut off *)
Lemma start_in_list m b l : attrs_of m b = Some l -> forall p, attr_start m b p ->
  (p mod 4 = 0)%nat /\ exists d l', attrs_go d m (skipn p b) = Some l'.
Proof.
  intros E p H. induction H as [|p H [IH1 (d & l' & IH2)] H1 H2].
  - split; [reflexivity|]. eexists _, _. exact E.
  - assert (A : al4 (p + attr_len m b p) = (p + al4 (attr_len m b p))%nat).
    { unfold al4. pose proof (Nat.div_mod p 4 ltac:(lia)) as D. rewrite IH1, Nat.add_0_r in D.
      rewrite D at 1. rewrite <- Nat.add_assoc, (Nat.mul_comm 4 (p / 4)), Nat.div_add_l by lia. lia. }
    split.
    { rewrite A. unfold al4. rewrite Nat.mul_comm, Nat.mod_add by lia. exact IH1. }
    destruct d as [|d]; [discriminate|]. cbn [attrs_go] in IH2.
    destruct (skipn p b) as [|x y] eqn:EB.
    { apply (f_equal (@length Z)) in EB. rewrite skipn_length in EB. cbn in EB. lia. }
    rewrite <- EB in IH2.
    replace (Z.to_nat (num m (field (skipn p b) 0 2))) with (attr_len m b p) in IH2
      by (unfold attr_len, field; rewrite skipn_O; reflexivity).
    destruct ((length (skipn p b) <? 4)%nat || (attr_len m b p <? 4)%nat || (length (skipn p b) <? attr_len m b p)%nat); [discriminate|].
    rewrite A, Nat.add_comm, <- skipn_skipn.
    destruct (attrs_go d m (skipn (al4 (attr_len m b p)) (skipn p b))) as [l''|] eqn:EL; [|discriminate]. eauto.
Qed.
Lemma not_truncated m b l : attrs_of m b = Some l -> ~ truncated_attr m b.
Proof.
  intros E (p & A1 & A2 & A3). destruct (start_in_list m b l E p A1) as (_ & d & l' & H).
  destruct d as [|d]; [discriminate|]. cbn [attrs_go] in H.
  destruct (skipn p b) as [|x y] eqn:EB.
  { apply (f_equal (@length Z)) in EB. rewrite skipn_length in EB. cbn in EB. lia. }
  rewrite <- EB in H.
  replace (Z.to_nat (num m (field (skipn p b) 0 2))) with (attr_len m b p) in H
    by (unfold attr_len, field; rewrite skipn_O; reflexivity).
  rewrite skipn_length in H.
  destruct (Nat.ltb_spec (length b - p) (attr_len m b p)); [|lia].
  rewrite !orb_true_r in H. discriminate.
Qed.

Lemma skipn_app_le {A} (l1 l2 : list A) n : (n <= length l1)%nat -> skipn n (l1 ++ l2) = skipn n l1 ++ l2.
Proof. intros H. rewrite skipn_app. replace (n - length l1)%nat with 0%nat by lia. reflexivity. Qed.
Lemma skipn_nth {A} (l : list A) n x : nth_error l n = Some x -> skipn n l = x :: skipn (S n) l.
Proof.
  revert n; induction l as [|y l IH]; intros [|n] H; cbn in *; try discriminate; [congruence|auto].
Qed.

Section FIFO.
Context (m : endian) (fuel : nat) (grow : nat -> nat -> nat) (e : env) (fd pd : Z)
        (priv : list nat) (cb : callback) (q : list event -> list bytes).
Hypothesis HF : (Z.to_nat 19201 < fuel)%nat.
Hypothesis HB : bytes_env e.
Hypothesis CBOK : callback_ok e priv cb.
Hypothesis NS : never_stops cb.
Hypothesis FS : fifo_socket q e.

Lemma one_turn_quiet w w' id mark s cont r2 evs :
  loop_inv fd priv cb pd w ->
  process_one fuel m grow e w = (Ok tt, w') ->
  w_tr w' = w_tr w ++ (KRecvfrom fd 76800 256, e (w_tr w) (KRecvfrom fd 76800 256)) ::
              (KPacketCb id mark s cont pd, r2) :: evs ->
  Forall no_recv evs.
Proof.
  intros LI E1 T. pose proof LI as [Q P I1 I2 I3 I4].
  rewrite (process_one_eq m fuel grow e w fd cb Q I1 I2) in E1.
  set (c := KRecvfrom fd 76800 256) in *. set (r := e (w_tr w) c) in *.
  assert (X : forall a b (x : event), [a; b] = x :: (KPacketCb id mark s cont pd, r2) :: evs ->
              (match fst b with KErrCb _ _ => True | _ => False end) -> False).
  { intros a b x EQ Hb. inversion EQ; subst. contradiction. }
  destruct (r_err r) as [en|] eqn:E.
  { inversion E1; subst w'. unfold with_event in T. cbn [w_tr] in T. rewrite <- app_assoc in T.
    apply app_inv_head in T. exfalso. eapply X; [exact T|exact Logic.I]. }
  destruct (length (received r) <? 20)%nat; [inversion E1|].
  destruct (negb (reply_code m (received r) =? 0)).
  { inversion E1; subst w'. unfold with_event in T. cbn [w_tr] in T. rewrite <- app_assoc in T.
    apply app_inv_head in T. exfalso. eapply X; [exact T|exact Logic.I]. }
  destruct (NetlinkMessageToNfAttrStruct _ _ _ _ _) as [[[tbl lo] [er|]]| |]; try (inversion E1; fail).
  { inversion E1; subst w'. unfold with_event in T. cbn [w_tr] in T. rewrite <- app_assoc in T.
    apply app_inv_head in T. exfalso. eapply X; [exact T|exact Logic.I]. }
  destruct (GetPacketInfo _ _ _) as [[[id' mark'] s']| |]; try (inversion E1; fail).
  cbv zeta in E1.
  match type of E1 with run_acts m grow ?l e ?w1 = _ =>
    destruct (quiet_acts m grow l (NS _ _ _ _) e w1) as (rest & R1 & R2) end.
  rewrite E1 in R1. cbn [snd w_tr] in R1. rewrite T in R1.
  unfold with_event in R1. rewrite <- !app_assoc in R1. apply app_inv_head in R1. cbn [app] in R1.
  inversion R1; subst. exact R2.
Qed.

Lemma fifo_loop n : forall w res w',
  loop_inv fd priv cb pd w -> slots_readable w ->
  (taken (w_tr w) <= length (q (w_tr w)))%nat ->
  (forall h, Forall (a_packet m) (skipn (taken (w_tr w)) (q (w_tr w ++ h)))) ->
  ProcessPackets n fuel m grow e w = (res, w') ->
  exists evs delivered, w_tr w' = w_tr w ++ evs /\
    skipn (taken (w_tr w)) (q (w_tr w')) = delivered ++ waiting q (w_tr w') /\
    Forall2 (is_of m) (shown evs) delivered /\
    res <> Panic /\
    (res = NoFuel -> (Nat.min n (length (waiting q (w_tr w))) <= length delivered)%nat).
Proof.
  destruct FS as [FA FT FR].
  induction n as [|n IH]; intros w res w' LI SR TL PK; cbn [ProcessPackets].
  { intros EQ. inversion EQ; subst res w'. exists [], []. rewrite app_nil_r.
    split; [reflexivity|]. split; [reflexivity|]. split; [constructor|]. split; [discriminate|]. intros _. cbn. lia. }
  mstep. set (r0 := e (w_tr w) KCtxDone). set (w0 := mkW _ _ _).
  pose proof (loop_inv_tr _ _ _ _ _ (w_tr w ++ [(KCtxDone, r0)]) LI) as LI0. fold w0 in LI0.
  assert (T0 : taken (w_tr w0) = taken (w_tr w)) by (cbn [w_tr w0]; rewrite taken_app; cbn; lia).
  destruct (r_flag r0) eqn:F.
  { destruct (NfqClose_inv e w0 fd (li_ready _ _ _ _ _ LI0)) as [r1 EC]. rewrite EC.
    intros EQ. inversion EQ; subst res w'. cbn [w_tr w0].
    exists [(KCtxDone, r0); (KClose fd, r1)], []. rewrite <- app_assoc. split; [reflexivity|].
    split. { unfold waiting. rewrite taken_app. cbn. f_equal. lia. }
    split; [constructor|]. split; discriminate. }
  assert (QA : exists y, q (w_tr w0) = q (w_tr w) ++ y) by apply FA.
  destruct QA as [y QA].
  assert (TL0 : (taken (w_tr w0) <= length (q (w_tr w0)))%nat) by (rewrite QA, app_length, T0; lia).
  assert (PK0 : forall h, Forall (a_packet m) (skipn (taken (w_tr w0)) (q (w_tr w0 ++ h)))).
  { intros h. rewrite T0. cbn [w0 w_tr]. rewrite <- app_assoc. apply PK. }
  set (r := e (w_tr w0) (KRecvfrom fd 76800 256)).
  assert (GOT : r_err r = None -> a_packet m (r_data r) /\ nth_error (q (w_tr w0)) (taken (w_tr w0)) = Some (r_data r)).
  { intros E. pose proof (FT _ _ _ _ E) as N. split; [|exact N]. specialize (PK0 []). rewrite app_nil_r in PK0.
    rewrite (skipn_nth _ _ _ N) in PK0. inversion PK0; assumption. }
  assert (RC : r_err r = None -> received r = r_data r).
  { intros E. destruct (GOT E) as [(_ & l & id & pl & (_ & _ & Z1 & _) & _) _]. unfold received.
    apply firstn_all2. unfold zlen in Z1. lia. }
  destruct (process_one_safe m fuel grow e fd pd priv cb HF HB CBOK w0 LI0) as (w1 & E1 & SR1); [exact SR| |].
  { cbv zeta. fold r. intros E. rewrite (RC E). apply (GOT E). }
  pose proof (process_one_cases m fuel grow e w0 fd pd priv cb LI0 HF HB CBOK _ w1 E1) as PC.
  fold r in PC.
  rewrite (bind_ok _ _ _ _ _ _ E1). intros E2.
  destruct PC as (LI1 & _ & _ & _ & _ & T).
  destruct T as [(er & dt & r2 & T1 & T2 & T3)|(id & mark & s & cont & r2 & evs & T1 & T2 & T3 & T4 & T5 & T6 & T7 & T8 & _)].
  - (* nothing to receive *)
    assert (EE : exists en, r_err r = Some en).
    { destruct (r_err r) as [en|] eqn:E; [eauto|]. exfalso.
      destruct (GOT eq_refl) as [((W1 & W2) & l & id & pl & (D1 & D2 & D3 & D4 & D5) & _) _].
      assert (RC' := RC eq_refl).
      destruct T2 as [(en & A & _)|[(_ & A & _)|(_ & _ & A & _)]]; [congruence| |].
      - apply A. rewrite RC'. unfold reply_code. rewrite D4.
        replace (msg_type SUBSYS_QUEUE 0 =? 2) with false by reflexivity. reflexivity.
      - rewrite RC' in A. destruct A as (p & A1 & A2 & A3).
        eapply not_truncated; [exact D5|]. exists p. auto. }
    destruct EE as [en EE].
    assert (TE : taken (w_tr w1) = taken (w_tr w0)).
    { rewrite T1, taken_app. cbn. fold r. rewrite EE. cbn. lia. }
    assert (WE : length (waiting q (w_tr w)) = 0%nat).
    { unfold waiting. rewrite skipn_length. destruct (Nat.ltb_spec (taken (w_tr w)) (length (q (w_tr w)))) as [L|L]; [|lia].
      exfalso. assert (r_err r = None); [|congruence]. apply FR. rewrite QA, app_length, T0. lia. }
    assert (QA1 : exists y1, q (w_tr w1) = q (w_tr w0) ++ y1) by (rewrite T1; apply FA).
    destruct QA1 as [y1 QA1].
    destruct (IH w1 res w' LI1 SR1) as (ev & del & J1 & J2 & J3 & J4 & J5).
    + rewrite TE, QA1, app_length. lia.
    + intros h. rewrite TE, T1, <- app_assoc. apply PK0.
    + exact E2.
    + exists ((KCtxDone, r0) :: (KRecvfrom fd 76800 256, r) :: (KErrCb er dt, r2) :: ev), del.
      split. { rewrite J1, T1. cbn [w0 w_tr]. rewrite <- !app_assoc. reflexivity. }
      split. { rewrite <- J2, TE, T0. reflexivity. }
      split; [exact J3|]. split; [exact J4|]. intros _. rewrite WE. lia.
  - destruct (GOT T2) as [AP NE]. rewrite (RC T2) in *.
    pose proof (one_turn_quiet w0 w1 id mark s cont r2 evs LI0 E1 T1) as QU.
    assert (TE : taken (w_tr w1) = S (taken (w_tr w0))).
    { rewrite T1, taken_app.
      change (taken ((KRecvfrom fd 76800 256, r) :: (KPacketCb id mark s cont pd, r2) :: evs))
        with (taken ([(KRecvfrom fd 76800 256, r); (KPacketCb id mark s cont pd, r2)] ++ evs)).
      rewrite taken_app, (taken_quiet evs QU). unfold taken at 2. cbn [filter]. rewrite T2. cbn [length]. lia. }
    assert (QA1 : exists y1, q (w_tr w1) = q (w_tr w0) ++ y1) by (rewrite T1; apply FA).
    destruct QA1 as [y1 QA1].
    assert (LT : (taken (w_tr w0) < length (q (w_tr w0)))%nat) by (apply nth_error_Some; congruence).
    destruct (IH w1 res w' LI1 SR1) as (ev & del & J1 & J2 & J3 & J4 & J5).
    + rewrite TE, QA1, app_length. lia.
    + intros h. rewrite TE, T1, <- app_assoc. specialize (PK0 (((KRecvfrom fd 76800 256, r) :: (KPacketCb id mark s cont pd, r2) :: evs) ++ h)).
      apply Forall_forall. intros d Hd. rewrite Forall_forall in PK0. apply PK0.
      match type of Hd with In d (skipn (S ?a) ?l) =>
        assert (In d (skipn 1 (skipn a l))) as Hd' by (rewrite skipn_skipn; exact Hd) end.
      clear - Hd'. revert Hd'.
      match goal with |- In d (skipn 1 ?l) -> In d ?l' => change l' with l; generalize l end.
      intros [|z l] Hz; [destruct Hz|right; exact Hz].
    + exact E2.
    + exists ((KCtxDone, r0) :: (KRecvfrom fd 76800 256, r) :: (KPacketCb id mark s cont pd, r2) :: evs ++ ev), (r_data r :: del).
      split. { rewrite J1, T1. cbn [w0 w_tr]. rewrite <- !app_assoc. reflexivity. }
      assert (QW : exists y2, q (w_tr w') = q (w_tr w0) ++ y2).
      { rewrite J1, T1, <- app_assoc. apply FA. }
      destruct QW as [y2 QW].
      split. { rewrite <- T0. cbn [app]. rewrite <- J2, TE. apply skipn_nth. rewrite QW, nth_error_app1 by exact LT. exact NE. }
      split.
      { change (shown ((KCtxDone, r0) :: (KRecvfrom fd 76800 256, r) :: (KPacketCb id mark s cont pd, r2) :: evs ++ ev))
          with ((id, mark, cont) :: shown (evs ++ ev)).
        rewrite shown_app, (shown_quiet evs QU). cbn [app]. constructor; [|exact J3].
        destruct AP as (W & l & id' & pl & D & (HI & HP)).
        assert (A := D). destruct A as (_ & _ & _ & _ & A). destruct (T6 l A) as (B1 & B2 & B3).
        exists l. split; [exact D|]. cbn [fst snd].
        rewrite (B1 _ HI), (B3 _ HP). auto. }
      split; [exact J4|]. intros HN. specialize (J5 HN). cbn [length].
      unfold waiting in *. rewrite skipn_length in *. rewrite TE, QA1, QA, !app_length, T0 in J5. lia.
Qed.
End FIFO.

(** ** Every recorded answer is the environment's *)
Definition answered (e : env) (tr rest : list event) : Prop :=
  forall pre c r post, rest = pre ++ (c, r) :: post -> r = e (tr ++ pre) c.
Lemma answered_app e tr r1 r2 : answered e tr r1 -> answered e (tr ++ r1) r2 -> answered e tr (r1 ++ r2).
Proof.
  intros H1 H2 pre c r post EQ.
  destruct (app_eq_app _ _ _ _ EQ) as (mid & [(A & B)|(A & B)]).
  - destruct mid as [|x mid].
    + rewrite app_nil_r in A. subst pre. cbn [app] in B. rewrite <- (app_nil_r (tr ++ r1)).
      eapply (H2 [] c r post). now symmetry.
    + cbn [app] in B. inversion B; subst. eapply H1. reflexivity.
  - subst pre. rewrite app_assoc. eapply H2. exact B.
Qed.
Definition answers {S A} (x : M S A) : Prop :=
  forall e w, exists rest, w_tr (snd (x e w)) = w_tr w ++ rest /\ answered e (w_tr w) rest.
Lemma answers_pure {S A} (x : M S A) : (forall e w, w_tr (snd (x e w)) = w_tr w) -> answers x.
Proof. intros H e w. exists []. rewrite app_nil_r. split; [auto|]. intros [|] ? ? ? EQ; discriminate. Qed.
Lemma answers_call {S} c : answers (S:=S) (do_call c).
Proof.
  intros e w. eexists. split; [reflexivity|]. intros [|? [|]] ? ? ? EQ; cbn in EQ; inversion EQ; subst.
  now rewrite app_nil_r.
Qed.
Lemma answers_bind {S A B} (x : M S A) (f : A -> M S B) :
  answers x -> (forall a, answers (f a)) -> answers (mbind x f).
Proof.
  intros Hx Hf e w. unfold mbind. destruct (Hx e w) as (r1 & E1 & F1).
  destruct (x e w) as [[a| |] w1]; cbn [snd] in *; [|exists r1; auto|exists r1; auto].
  destruct (Hf a e w1) as (r2 & E2 & F2). exists (r1 ++ r2). rewrite E2, E1, <- app_assoc.
  split; [reflexivity|]. apply answered_app; [exact F1|]. rewrite <- E1. exact F2.
Qed.
Ltac answers_step :=
  match goal with
  | |- answers (mbind _ _) => apply answers_bind; [|intros ?]
  | |- answers (ret _) => apply answers_pure; reflexivity
  | |- answers (lift _) => apply answers_pure; reflexivity
  | |- answers mpanic => apply answers_pure; reflexivity
  | |- answers get_st => apply answers_pure; reflexivity
  | |- answers (put_st _) => apply answers_pure; reflexivity
  | |- answers get_heap => apply answers_pure; reflexivity
  | |- answers (put_heap _) => apply answers_pure; reflexivity
  | |- answers (do_call _) => apply answers_call
  | |- answers (match ?x with _ => _ end) => destruct x
  | |- answers (let _ := _ in _) => cbv zeta
  end.
Lemma answers_m_alloc {S} v sp : answers (S:=S) (m_alloc v sp).
Proof. unfold m_alloc. repeat answers_step. Qed.
Lemma answers_recvfrom {S} fd b fl : answers (S:=S) (sys_recvfrom fd b fl).
Proof. unfold sys_recvfrom. repeat answers_step. Qed.
Lemma answers_cfg m c : answers (cfg_run m c).
Proof.
  destruct c; cbn [cfg_run]; unfold UnbindPf, BindPf, CreateQueue, NfqSetMode, NfqSetQueueMaxLen, NfqDestroyQueue;
    cbn [BuildNfgenMsg BuildNfAttrMsg]; unfold config_request, nfq_query, nfq_send, nfq_recv;
    repeat (answers_step || apply answers_recvfrom).
Qed.
Lemma answers_start m id mx ps cb ecb pd : answers (CreateAndStartNfQueue m id mx ps cb ecb pd).
Proof.
  unfold CreateAndStartNfQueue, NewNFQueue, NfqOpen, NfqClose.
  repeat (answers_step || apply answers_m_alloc).
  all: try apply (answers_cfg m CfgUnbindPf). all: try apply (answers_cfg m CfgBindPf).
  all: try apply (answers_cfg m (CfgCreate id cb ecb pd)). all: try apply (answers_cfg m (CfgMode NfqnlCopyPacket ps)).
  all: try apply (answers_cfg m CfgDestroy). all: try apply (answers_cfg m (CfgMaxLen mx)).
Qed.

(** a FIFO socket never yields more than it was given *)
Lemma taken_bounded q e : fifo_socket q e -> forall rest tr,
  answered e tr rest -> (taken tr <= length (q tr))%nat -> (taken (tr ++ rest) <= length (q (tr ++ rest)))%nat.
Proof.
  intros [FA FT FR]. induction rest as [|[c r] rest IH] using rev_ind; intros tr AN TL; [now rewrite app_nil_r|].
  assert (A1 : answered e tr rest).
  { intros pre c' r' post EQ. apply (AN pre c' r' (post ++ [(c, r)])). rewrite EQ, <- app_assoc. reflexivity. }
  specialize (IH tr A1 TL). specialize (AN rest c r [] eq_refl).
  assert (EQ : tr ++ rest ++ [(c, r)] = (tr ++ rest) ++ [(c, r)]) by apply app_assoc.
  change (@cons event) with (@cons (call * resp)); change (@nil event) with (@nil (call * resp)). rewrite EQ. clear EQ. revert IH AN. generalize (tr ++ rest). intros h IH AN.
  destruct (FA h [(c, r)]) as [y Y]. rewrite Y, taken_app, app_length. unfold taken at 2. destruct c; cbn [filter length]; try lia.
  destruct (r_err r) eqn:E; cbn [length]; [lia|]. rewrite AN in E. apply FT in E.
  assert (taken h < length (q h))%nat by (apply nth_error_Some; congruence). lia.
Qed.

(** ** The set-up takes five datagrams and shows none *)
Lemma opens_quiet fd evs : opens fd evs -> Forall no_recv evs.
Proof. intros (? & ? & ? & ? & ? & ? & _ & _ & _ & ->). repeat (apply Forall_cons; [exact Logic.I|]). constructor. Qed.
Lemma ran_taken m fd lim msgs reqs acked : ran_requests m fd lim msgs reqs acked None ->
  taken reqs = length msgs /\ shown reqs = [].
Proof.
  intros H. remember None as er eqn:EQ. induction H as [| |msg rest b new new' acked err R O RR IH]; [auto|discriminate|].
  destruct (IH EQ) as [I1 I2]. rewrite taken_app, shown_app, I1, I2.
  destruct O as [(r1 & en & _ & _ & X)|(r1 & r2 & _ & -> & X & _)]; [discriminate|].
  destruct X as [_ X]. destruct (X eq_refl) as (_ & X2 & _). unfold taken. cbn. rewrite X2. auto.
Qed.
Lemma start_taken m id mx ps new : start_outcome m id mx ps new None -> taken new = 5%nat /\ shown new = [].
Proof.
  intros H. remember None as er eqn:EQ. destruct H as [| fd evs reqs r O R| |]; try discriminate.
  destruct (ran_taken _ _ _ _ _ _ R) as [A1 A2]. pose proof (opens_quiet _ _ O) as OQ.
  rewrite !taken_app, !shown_app, A1, A2, (taken_quiet _ OQ), (shown_quiet _ OQ). auto.
Qed.

(** ** One request on a FIFO socket *)
Lemma request_on_fifo m c e w fd q reply :
  cfg_args_ok c -> is_u16 (q_num (w_st w)) -> open_handle w fd -> replies_within 20 76800 e ->
  fifo_socket q e -> taken (w_tr w) = length (q (w_tr w)) ->
  (forall b, r_err (e (w_tr w) (KSendto fd b 0)) = None) ->
  (forall b, q (w_tr w ++ [(KSendto fd b 0, e (w_tr w) (KSendto fd b 0))]) = q (w_tr w) ++ [reply]) ->
  exists w', cfg_run m c e w =
    (Ok (if reply_code m reply =? 0 then None else Some (ENetlink (reply_code m reply))), w').
Proof.
  intros A N O R FS TK SE QA.
  destruct (cfg_request m c e w fd A N O R) as (err & w' & new & b & H1 & H2 & H3 & H4 & _).
  destruct (answers_cfg m c e w) as (rest & T & AN). rewrite H1 in T. cbn [snd] in T.
  rewrite H2 in T. apply app_inv_head in T. subst rest.
  exists w'. rewrite H1. do 2 f_equal.
  destruct H4 as [(r1 & en & E1 & -> & _)|(r1 & r2 & E1 & -> & X1 & X2 & X3)].
  { specialize (AN [] _ _ _ eq_refl). rewrite app_nil_r in AN. rewrite AN, SE in E1. discriminate. }
  pose proof (AN [] _ _ _ eq_refl) as AN1. rewrite app_nil_r in AN1.
  pose proof (AN [_] _ _ _ eq_refl) as AN2.
  rewrite AN1 in AN2. specialize (QA b).
  set (h := w_tr w ++ [(KSendto fd b 0, e (w_tr w) (KSendto fd b 0))]) in *.
  assert (TH : taken h = length (q (w_tr w))).
  { unfold h. rewrite taken_app, TK. cbn. lia. }
  assert (E2 : r_err r2 = None).
  { rewrite AN2. apply (ff_ready _ _ FS). rewrite TH, QA, app_length. cbn. lia. }
  assert (D2 : r_data r2 = reply).
  { rewrite AN2 in E2. apply (ff_takes _ _ FS) in E2. rewrite <- AN2, TH, QA, nth_error_app2, Nat.sub_diag in E2 by lia.
    cbn in E2. congruence. }
  destruct (Z.eqb_spec (reply_code m reply) 0) as [Z0|Z0].
  - apply X1. split; [exact E1|]. split; [exact E2|]. now rewrite D2.
  - specialize (X3 E2). rewrite D2 in X3. auto.
Qed.

(** scripted kernels are FIFO sockets *)
Lemma sends_app l1 l2 : sends (l1 ++ l2) = (sends l1 + sends l2)%nat.
Proof. unfold sends. rewrite filter_app, app_length. reflexivity. Qed.
Lemma script_fifo stop script : fifo_socket (script_queue script) (script_kernel stop script).
Proof.
  constructor.
  - intros h x. unfold script_queue. rewrite sends_app.
    change (S (sends h + sends x)) with (S (sends h) + sends x)%nat. generalize (S (sends h)) as a, (sends x) as b.
    intros a b. exists (concat (firstn b (skipn a script))). rewrite <- concat_app. f_equal.
    revert script. induction a as [|a IH]; intros [|s script]; cbn; try reflexivity.
    + now rewrite firstn_nil.
    + now rewrite IH.
  - intros h fd n fl. cbn. destruct (nth_error _ _); [reflexivity|discriminate].
  - intros h fd n fl L. unfold script_kernel. destruct (nth_error _ _) eqn:E; [reflexivity|]. apply nth_error_None in E. lia.
Qed.
