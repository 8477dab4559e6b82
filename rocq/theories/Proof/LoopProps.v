(** The packet loop, over all runs. *)
From Verif Require Export Proof.LoopFacts.

Lemma packet_calls_app l1 l2 : packet_calls (l1 ++ l2) = (packet_calls l1 + packet_calls l2)%nat.
Proof. unfold packet_calls. rewrite filter_app, app_length. reflexivity. Qed.
Lemma packet_calls_cb evs : Forall cb_event evs -> packet_calls evs = 0%nat.
Proof.
  induction 1 as [|[c r] l H _ IH]; [reflexivity|]. unfold packet_calls in *.
  destruct c; cbn in *; auto; contradiction.
Qed.
Lemma u64_add a b : u64 (u64 a + b) = u64 (a + b).
Proof. unfold u64. apply Zplus_mod_idemp_l. Qed.

Lemma loop_inv_tr fd priv cb pd w tr :
  loop_inv fd priv cb pd w -> loop_inv fd priv cb pd (mkW (w_st w) (w_heap w) tr).
Proof.
  intros [Q P I1 I2 I3 I4]. constructor; auto. destruct Q; constructor; auto.
Qed.

Lemma NfqClose_inv e w fd : queue_ready w fd ->
  exists r, NfqClose e w = (Ok tt, mkW (w_st w) (w_heap w) (w_tr w ++ [(KClose fd, r)])).
Proof. intros Q. unfold NfqClose. mstep. rewrite (qr_handle _ _ Q). eexists. reflexivity. Qed.

Lemma slice_eq_dec (a b : slice) : a = b \/ a <> b.
Proof.
  destruct a as [a1 a2 a3 a4], b as [b1 b2 b3 b4].
  destruct (Nat.eq_dec a1 b1), (Nat.eq_dec a2 b2), (Nat.eq_dec a3 b3), (Nat.eq_dec a4 b4);
    subst; auto; right; congruence.
Qed.

Section LOOP.
Context (m : endian) (fuel : nat) (grow : nat -> nat -> nat) (e : env) (fd pd : Z)
        (priv : list nat) (cb : callback).
Hypothesis HF : (Z.to_nat 19201 < fuel)%nat.
Hypothesis BE : bytes_env e.
Hypothesis CBOK : callback_ok e priv cb.

Lemma process_packets_trace n : forall w res w',
  loop_inv fd priv cb pd w ->
  ProcessPackets n fuel m grow e w = (res, w') ->
  exists its last,
    w_tr w' = w_tr w ++ concat its ++ last /\
    Forall (turn m fd pd) its /\ loop_end fd res last /\
    q_proc (w_st w') = u64 (q_proc (w_st w) + Z.of_nat (packet_calls (concat its))).
Proof.
  induction n as [|n IH]; intros w res w' LI; cbn [ProcessPackets].
  { intros EQ. inversion EQ; subst res w'. exists [], []. rewrite app_nil_r.
    split; [reflexivity|]. split; [constructor|]. split; [left; reflexivity|].
    cbn [concat packet_calls]. symmetry. apply u64_id, LI. }
  mstep. set (r0 := e (w_tr w) KCtxDone). set (w0 := mkW _ _ _).
  pose proof (loop_inv_tr _ _ _ _ _ (w_tr w ++ [(KCtxDone, r0)]) LI) as LI0. fold w0 in LI0.
  destruct (r_flag r0) eqn:F.
  { destruct (NfqClose_inv e w0 fd (li_ready _ _ _ _ _ LI0)) as [r1 EC]. rewrite EC.
    intros EQ. inversion EQ; subst res w'. exists [], [(KCtxDone, r0); (KClose fd, r1)].
    cbn [w_tr w0 w_st]. rewrite <- app_assoc. split; [reflexivity|]. split; [constructor|].
    split; [exists r0, r1; auto|]. symmetry. apply u64_id, LI. }
  destruct (process_one fuel m grow e w0) as [x w1] eqn:E1.
  pose proof (process_one_cases m fuel grow e w0 fd pd priv cb LI0 HF BE CBOK x w1 E1) as PC.
  destruct x as [[]| |].
  2,3: destruct PC as (C1 & C2 & C3); rewrite ?(bind_panic _ _ _ _ _ E1), ?(bind_nofuel _ _ _ _ _ E1);
    intros EQ; inversion EQ; subst res w'; eexists [], _;
    rewrite C2, C3; cbn [w0 w_tr w_st]; rewrite <- app_assoc;
    (split; [reflexivity|]); (split; [constructor|]);
    (split; [|symmetry; apply u64_id, LI]); cbn [loop_end].
  2:{ eexists _, _. split; [exact F|]. split; [exact C1|reflexivity]. }
  2:{ right. eexists _, _. split; [exact F|]. split; [exact C1|reflexivity]. }
  rewrite (bind_ok _ _ _ _ _ _ E1). intros E2.
  destruct PC as (LI1 & _ & _ & _ & _ & T).
  destruct (IH w1 res w' LI1 E2) as (its & last & H1 & H2 & H3 & H4).
  destruct T as [(er & dt & r2 & T1 & T2 & T3)|(id & mark & s & cont & r2 & evs & T1 & T2 & T3 & T4 & T5 & T6 & T7 & T8 & _)].
  - exists ([(KCtxDone, r0); (KRecvfrom fd 76800 256, e (w_tr w0) (KRecvfrom fd 76800 256)); (KErrCb er dt, r2)] :: its), last.
    split; [|split; [constructor; [|exact H2]|split; [exact H3|]]].
    + rewrite H1, T1. cbn [w0 w_tr concat]. rewrite <- !app_assoc. reflexivity.
    + eapply turn_error; eauto.
    + rewrite H4, T3. cbn [w0 w_st concat]. rewrite packet_calls_app. reflexivity.
  - exists (((KCtxDone, r0) :: (KRecvfrom fd 76800 256, e (w_tr w0) (KRecvfrom fd 76800 256)) ::
              (KPacketCb id mark s cont pd, r2) :: evs) :: its), last.
    split; [|split; [constructor; [|exact H2]|split; [exact H3|]]].
    + rewrite H1, T1. cbn [w0 w_tr concat]. rewrite <- !app_assoc. reflexivity.
    + eapply turn_packet; eauto.
    + rewrite H4, T8. cbn [w0 w_st concat]. rewrite packet_calls_app, u64_add.
      f_equal. unfold packet_calls at 2. cbn [filter fst length]. fold (packet_calls evs).
      rewrite (packet_calls_cb evs T7). lia.
Qed.

(** ** Safety *)
Lemma slots_readable_after w w' r :
  slots_readable w -> queue_ready w fd ->
  (r_err r = None -> whole_message m (received r)) ->
  (forall t, t = 1 \/ t = 3 \/ t = 10 -> slot_after m w w' r t) -> slots_readable w'.
Proof.
  intros R Q W SA t s Ht Hs.
  destruct (qr_slots _ _ Q t ltac:(tauto)) as (s0 & A & _).
  destruct (SA t ltac:(tauto) s0 A) as (s' & B1 & B2). rewrite Hs in B1. injection B1 as <-.
  destruct B2 as [->|(E & _ & p & C1 & C2 & C3 & C4)].
  - exact (R t s0 Ht A).
  - rewrite C4. destruct (W E) as [_ W2]. destruct (W2 p C1) as [_ W3]. rewrite C3 in W3. specialize (W3 Ht). lia.
Qed.

Lemma process_one_safe w :
  loop_inv fd priv cb pd w -> slots_readable w ->
  (let r := e (w_tr w) (KRecvfrom fd 76800 256) in r_err r = None -> whole_message m (received r)) ->
  exists w', process_one fuel m grow e w = (Ok tt, w') /\ slots_readable w'.
Proof.
  intros LI SR W. set (r := e (w_tr w) (KRecvfrom fd 76800 256)) in *. cbv zeta in W.
  destruct (process_one fuel m grow e w) as [x w1] eqn:E1.
  pose proof (process_one_cases m fuel grow e w fd pd priv cb LI HF BE CBOK x w1 E1) as PC.
  assert (X : x = Ok tt).
  { clear PC. pose proof LI as [Q P I1 I2 I3 I4].
    rewrite (process_one_eq m fuel grow e w fd cb Q I1 I2) in E1. fold r in E1.
    destruct (r_err r) as [en|] eqn:E; [inversion E1; reflexivity|].
    specialize (W eq_refl). destruct W as [W1 W2].
    destruct (Nat.ltb_spec (length (received r)) 20); [lia|].
    destruct (reply_code m (received r) =? 0) eqn:C; cbn [negb] in E1; [|inversion E1; reflexivity].
    destruct (recv_heap_facts e w fd Q) as (F1 & F3 & F4 & F5). fold r in F1, F3, F4, F5.
    destruct (F5 20%nat W1) as [V20 R20].
    pose proof (win_len e w fd) as WL. pose proof (win_bytes e w fd pd priv cb LI BE W1) as WB.
    fold r in WL, WB.
    destruct (attr_parser_returns m (recv_heap w (received r)) (recv_win w (received r) 20)
                (q_attr (w_st w)) fuel V20 WB WL) as (tbl & er & EP & _).
    - rewrite R20. intros p Hp. apply (W2 p Hp).
    - cbn [recv_win s_len]. pose proof (d_len e w fd) as DL. fold r in DL. lia.
    - pose proof (slots_after_recv m fuel e w fd pd priv cb LI BE (set_attr (w_st w) tbl) []) as SA.
      fold r in SA.
      assert (SA' : forall t, t = 1 \/ t = 3 \/ t = 10 ->
        slot_after m w (mkW (set_attr (w_st w) tbl) (recv_heap w (received r)) []) r t).
      { intros t Ht. apply SA; auto. right. split; [exact E|]. split; [|exact W1].
        exists None, er. exact EP. }
      clear SA.
      pose proof (slots_readable_after w _ r SR Q ltac:(intros _; split; assumption) SA') as SR'.
      rewrite EP in E1. destruct er as [er|]; [inversion E1; reflexivity|].
      assert (RA : queue_ready (mkW (set_attr (w_st w) tbl) (recv_heap w (received r)) []) fd).
      { apply (ready_after m e w fd Q). right. exists fuel, tbl, None, None.
        repeat split; auto. exact (d_bytes e w fd BE). }
      destruct (qr_slots _ _ RA 1 ltac:(auto)) as (t1 & B1 & V1 & _).
      destruct (qr_slots _ _ RA 3 ltac:(auto)) as (t3 & B3 & V3 & _).
      destruct (qr_slots _ _ RA 10 ltac:(auto)) as (t10 & B10 & V10 & _).
      pose proof (SR' 1 t1 ltac:(auto) B1) as S1. pose proof (SR' 3 t3 ltac:(auto) B3) as S3.
      cbn [w_st w_heap set_attr q_attr] in B1, B3, B10, V1, V3, V10.
      rewrite (packet_info m _ tbl t1 t3 t10 B1 B3 B10) in E1.
      rewrite !valid_len in E1 by assumption.
      destruct (Nat.ltb_spec (s_len t1) 4); [lia|]. destruct (Nat.ltb_spec (s_len t3) 4); [lia|].
      cbn [orb] in E1. cbv zeta in E1.
      match type of E1 with run_acts m grow ?l e ?w1 = _ =>
        destruct (run_acts_ok m grow fd priv e l w1) as (w2 & evs & G1 & _) end.
      + destruct RA as [q1 q2 q3 q4 q5 q6 q7 q8 q9]. constructor; auto.
      + pose proof (inv_after m fuel e w fd pd priv cb LI BE (set_attr (w_st w) tbl) [] (q_proc (w_st w))
                      eq_refl I4 eq_refl eq_refl eq_refl eq_refl eq_refl eq_refl eq_refl) as IA.
        fold r in IA.
        destruct IA as [_ PA _ _ _ _]; [right; split; [exists None, None; exact EP|exact W1]|].
        exact PA.
      + pose proof (inv_after m fuel e w fd pd priv cb LI BE (set_attr (w_st w) tbl) [] (q_proc (w_st w))
                      eq_refl I4 eq_refl eq_refl eq_refl eq_refl eq_refl eq_refl eq_refl) as IA.
        fold r in IA.
        destruct IA as [_ PA _ _ _ _]; [right; split; [exists None, None; exact EP|exact W1]|].
        destruct PA as (_ & _ & PA3 & PA4). cbn [w_heap]. apply CBOK; cbn [p_buf]; auto.
      + rewrite G1 in E1. inversion E1. reflexivity. }
  subst x. destruct PC as (_ & SA & _). exists w1. split; [reflexivity|].
  eapply slots_readable_after; eauto. apply LI.
Qed.

Lemma process_packets_safe n : kernel_ok m e -> forall w res w',
  loop_inv fd priv cb pd w -> slots_readable w ->
  ProcessPackets n fuel m grow e w = (res, w') ->
  res <> Panic /\ (res = NoFuel -> exists its, w_tr w' = w_tr w ++ concat its /\
                                      Forall (turn m fd pd) its /\ length its = n).
Proof.
  intros K. induction n as [|n IH]; intros w res w' LI SR; cbn [ProcessPackets].
  { intros EQ. inversion EQ; subst res w'. split; [discriminate|]. intros _. exists []. rewrite app_nil_r.
    split; [reflexivity|]. split; constructor. }
  mstep. set (r0 := e (w_tr w) KCtxDone). set (w0 := mkW _ _ _).
  pose proof (loop_inv_tr _ _ _ _ _ (w_tr w ++ [(KCtxDone, r0)]) LI) as LI0. fold w0 in LI0.
  destruct (r_flag r0) eqn:F.
  { destruct (NfqClose_inv e w0 fd (li_ready _ _ _ _ _ LI0)) as [r1 EC]. rewrite EC.
    intros EQ. inversion EQ; subst res w'. split; discriminate. }
  destruct (process_one_safe w0 LI0) as (w1 & E1 & SR1); [exact SR|apply K|].
  pose proof (process_one_cases m fuel grow e w0 fd pd priv cb LI0 HF BE CBOK _ w1 E1) as PC.
  rewrite (bind_ok _ _ _ _ _ _ E1). intros E2.
  destruct PC as (LI1 & _ & _ & _ & _ & T).
  destruct (IH w1 res w' LI1 SR1 E2) as [H1 H2]. split; [exact H1|]. intros HN.
  destruct (H2 HN) as (its & J1 & J2 & J3).
  destruct T as [(er & dt & r2 & T1 & T2 & T3)|(id & mark & s & cont & r2 & evs & T1 & T2 & T3 & T4 & T5 & T6 & T7 & T8 & _)].
  - exists ([(KCtxDone, r0); (KRecvfrom fd 76800 256, e (w_tr w0) (KRecvfrom fd 76800 256)); (KErrCb er dt, r2)] :: its).
    split; [|split; [constructor; [|exact J2]|cbn [length]; congruence]].
    + rewrite J1, T1. cbn [w0 w_tr concat]. rewrite <- !app_assoc. reflexivity.
    + eapply turn_error; eauto.
  - exists (((KCtxDone, r0) :: (KRecvfrom fd 76800 256, e (w_tr w0) (KRecvfrom fd 76800 256)) ::
              (KPacketCb id mark s cont pd, r2) :: evs) :: its).
    split; [|split; [constructor; [|exact J2]|cbn [length]; congruence]].
    + rewrite J1, T1. cbn [w0 w_tr concat]. rewrite <- !app_assoc. reflexivity.
    + eapply turn_packet; eauto.
Qed.

(** ** The mark of unmarked packets *)
Definition marks_zero_until (evs : list event) : Prop :=
  forall pre id mark s cont pd' r post,
    evs = pre ++ (KPacketCb id mark s cont pd', r) :: post -> no_mark_in m fd pre -> mark = 0.

Lemma no_mark_app l1 l2 : no_mark_in m fd (l1 ++ l2) <-> no_mark_in m fd l1 /\ no_mark_in m fd l2.
Proof.
  unfold no_mark_in. split.
  - intros H. split; intros r p I; apply H; apply in_or_app; auto.
  - intros [H1 H2] r p I. apply in_app_or in I as [I|I]; eauto.
Qed.
Lemma marks_zero_app l1 l2 :
  marks_zero_until l1 -> (no_mark_in m fd l1 -> marks_zero_until l2) -> marks_zero_until (l1 ++ l2).
Proof.
  intros H1 H2 pre id mark s cont pd' r post EQ N.
  destruct (app_eq_app _ _ _ _ EQ) as (mid & [(A & B)|(A & B)]).
  - destruct mid as [|x mid].
    + rewrite app_nil_r in A. subst pre. cbn [app] in B. eapply (H2 N []); [symmetry; exact B|].
      intros ? ? [].
    + cbn [app] in B. inversion B; subst. eapply H1; [reflexivity|exact N].
  - subst pre. apply no_mark_app in N as [N1 N2]. eapply H2; eauto.
Qed.
Lemma marks_zero_cb evs : Forall cb_event evs -> marks_zero_until evs.
Proof.
  intros H pre id mark s cont pd' r post -> _. exfalso.
  apply Forall_app in H as [_ H]. inversion H; subst. contradiction.
Qed.

Lemma process_packets_marks n : forall w res w',
  loop_inv fd priv cb pd w -> fresh_mark w priv ->
  ProcessPackets n fuel m grow e w = (res, w') ->
  exists evs, w_tr w' = w_tr w ++ evs /\ marks_zero_until evs.
Proof.
  induction n as [|n IH]; intros w res w' LI FM; cbn [ProcessPackets].
  { intros EQ. inversion EQ; subst res w'. exists []. rewrite app_nil_r. split; [reflexivity|].
    intros [|] ? ? ? ? ? ? ? EQ'; discriminate. }
  mstep. set (r0 := e (w_tr w) KCtxDone). set (w0 := mkW _ _ _).
  pose proof (loop_inv_tr _ _ _ _ _ (w_tr w ++ [(KCtxDone, r0)]) LI) as LI0. fold w0 in LI0.
  assert (Z3 : forall x y z, (forall id mark s cont pd', fst x <> KPacketCb id mark s cont pd') ->
     (forall id mark s cont pd', fst y <> KPacketCb id mark s cont pd') ->
     (forall id mark s cont pd', fst z <> KPacketCb id mark s cont pd') -> marks_zero_until [x; y; z]).
  { intros x y z X Y Z pre id mark s cont pd' r post EQ _.
    destruct pre as [|? [|? [|? [|]]]]; cbn in EQ; inversion EQ; subst; exfalso;
      [eapply X|eapply Y|eapply Z]; reflexivity. }
  destruct (r_flag r0) eqn:F.
  { destruct (NfqClose_inv e w0 fd (li_ready _ _ _ _ _ LI0)) as [r1 EC]. rewrite EC.
    intros EQ. inversion EQ; subst res w'. exists [(KCtxDone, r0); (KClose fd, r1)].
    cbn [w_tr w0 w_st]. rewrite <- app_assoc. split; [reflexivity|].
    intros [|? [|? [|]]] ? ? ? ? ? ? ? EQ'; cbn in EQ'; inversion EQ'. }
  destruct (process_one fuel m grow e w0) as [x w1] eqn:E1.
  pose proof (process_one_cases m fuel grow e w0 fd pd priv cb LI0 HF BE CBOK x w1 E1) as PC.
  destruct x as [[]| |].
  2,3: destruct PC as (C1 & C2 & C3); rewrite ?(bind_panic _ _ _ _ _ E1), ?(bind_nofuel _ _ _ _ _ E1);
    intros EQ; inversion EQ; subst res w'; eexists;
    rewrite C2; cbn [w0 w_tr w_st]; rewrite <- app_assoc;
    (split; [reflexivity|]);
    intros [|? [|? [|]]] ? ? ? ? ? ? ? EQ'; cbn in EQ'; inversion EQ'.
  rewrite (bind_ok _ _ _ _ _ _ E1). intros E2.
  destruct PC as (LI1 & SA & AR & EH & _ & T).
  destruct FM as (s3 & M1 & M2 & M3 & M4).
  destruct (SA 3 ltac:(auto) s3 M1) as (s3' & S1 & S2).
  assert (ST : forall l, no_mark_in m fd ((KRecvfrom fd 76800 256, e (w_tr w0) (KRecvfrom fd 76800 256)) :: l) ->
                 s3' = s3).
  { intros l N. destruct S2 as [S2|(X1 & _ & p & X2 & _ & X3 & _)]; [exact S2|]. exfalso.
    eapply N; [left; reflexivity|exact X1|exact X2|exact X3]. }
  assert (FM1 : s3' = s3 -> fresh_mark w1 priv).
  { intros ->. exists s3. split; [exact S1|]. split; [exact M2|]. rewrite EH. split; [exact M3|].
    unfold rd. rewrite AR by auto. exact M4. }
  assert (MM : forall evs0, w_tr w1 = w_tr w ++ (KCtxDone, r0) :: (KRecvfrom fd 76800 256, e (w_tr w0) (KRecvfrom fd 76800 256)) :: evs0 ->
     marks_zero_until ((KCtxDone, r0) :: (KRecvfrom fd 76800 256, e (w_tr w0) (KRecvfrom fd 76800 256)) :: evs0) ->
     exists evs, w_tr w' = w_tr w ++ evs /\ marks_zero_until evs).
  { intros evs0 TR MZ.
    destruct (slice_eq_dec s3' s3) as [ES|NS].
    - destruct (IH w1 res w' LI1 (FM1 ES) E2) as (evs & J1 & J2). eexists. split.
      + rewrite J1, TR, <- app_assoc. reflexivity.
      + apply marks_zero_app; auto.
    - destruct (process_packets_trace n w1 res w' LI1 E2) as (its & last & J1 & _).
      eexists. split.
      + rewrite J1, TR, <- app_assoc. reflexivity.
      + apply marks_zero_app; auto. intros N. exfalso. apply NS. eapply ST.
        intros r p I. apply (N r p). right. exact I. }
  destruct T as [(er & dt & r2 & T1 & T2 & T3)|(id & mark & s & cont & r2 & evs & T1 & T2 & T3 & T4 & T5 & T6 & T7 & T8 & T9)].
  - apply (MM [(KErrCb er dt, r2)]).
    + rewrite T1. cbn [w0 w_tr]. rewrite <- app_assoc. reflexivity.
    + apply Z3; intros; discriminate.
  - apply (MM ((KPacketCb id mark s cont pd, r2) :: evs)).
    + rewrite T1. cbn [w0 w_tr]. rewrite <- app_assoc. reflexivity.
    + intros pre id' mark' s' cont' pd' r' post EQ N.
      destruct pre as [|? [|? [|? pre]]]; cbn in EQ; inversion EQ; subst.
      * assert (ES : s3' = s3) by (eapply ST; intros r p I; apply (N r p); right; exact I).
        subst s3'. rewrite (T9 s3 M1 S1 M2). change (w_heap w0) with (w_heap w). rewrite M4. reflexivity.
      * exfalso. apply Forall_app in T7 as [_ T7]. inversion T7; subst. contradiction.
Qed.
End LOOP.
