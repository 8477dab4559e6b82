(** Where the parts of a packet come from that its message does not carry (C99). *)
From Verif Require Export Proof.MarkWhere Spec.StaleSpec.

(** ** One turn *)
Section TURN.
Context (m : endian) (fuel : nat) (grow : nat -> nat -> nat) (e : env) (w : world nfq) (fd pd : Z)
        (priv : list nat) (cb : callback).
Hypothesis LI : loop_inv fd priv cb pd w.
Hypothesis HF : (Z.to_nat 19201 < fuel)%nat.
Hypothesis HBE : bytes_env e.
Hypothesis CBOK : callback_ok e priv cb.
Let r := e (w_tr w) (KRecvfrom fd 76800 256).

(** where the slot of type [t] points after a turn, and what is shown from it *)
Lemma process_one_slot t w' s3 :
  t = 1 \/ t = 3 \/ t = 10 ->
  process_one fuel m grow e w = (Ok tt, w') -> amap_get (q_attr (w_st w)) t = Some s3 ->
  q_buf (w_st w') = q_buf (w_st w) /\
  exists s3', amap_get (q_attr (w_st w')) t = Some s3' /\
    (s3' = s3 /\ (forall d p, brought m r d -> attr_complete m (skipn 20 d) p -> attr_type m (skipn 20 d) p <> t) \/
     exists d p, brought m r d /\ last_of t m (skipn 20 d) p /\
       s_arr s3' = s_arr (q_buf (w_st w)) /\ s_off s3' = (s_off (q_buf (w_st w)) + (24 + p))%nat /\
       s_len s3' = (attr_len m (skipn 20 d) p - 4)%nat) /\
    (forall x id mark s cont pd' r2 evs,
       w_tr w' = w_tr w ++ x :: (KPacketCb id mark s cont pd', r2) :: evs ->
       brought m r (received r) /\
       (t = 1 -> (4 <= s_len s3')%nat /\ id = num m (field (rd (recv_heap w (received r)) s3') 0 4)) /\
       (t = 3 -> (4 <= s_len s3')%nat /\ mark = num Base.BE (field (rd (recv_heap w (received r)) s3') 0 4)) /\
       (t = 10 -> s = s3' /\ cont = rd (recv_heap w (received r)) s3')).
Proof.
  pose proof LI as [Q P I1 I2 I3 I4]. intros HT E1 A3.
  assert (EQ := process_one_eq m fuel grow e w fd cb Q I1 I2). fold r in EQ. cbv zeta in EQ.
  set (d := received r) in *. rewrite E1 in EQ. clear E1.
  destruct (recv_heap_facts e w fd Q) as (F1 & F3 & F4 & F5). fold r in F1, F3, F4, F5. fold d in F1, F3, F4, F5.
  assert (TRX : forall k (x : event) id mark s cont pd' r2 evs,
     (forall i mk ss cc pp, k <> KPacketCb i mk ss cc pp) ->
     (w_tr w ++ [(KRecvfrom fd 76800 256, r)]) ++ [(k, e (w_tr w ++ [(KRecvfrom fd 76800 256, r)]) k)]
       = w_tr w ++ x :: (KPacketCb id mark s cont pd', r2) :: evs -> False).
  { intros k x id mark s cont pd' r2 evs N X. rewrite <- app_assoc in X. apply app_inv_head in X.
    cbn [app] in X. inversion X. eapply N; eassumption. }
  destruct (r_err r) as [en|] eqn:E.
  { injection EQ as ->. cbn [w_st w_tr]. split; [reflexivity|]. exists s3. split; [exact A3|]. split.
    - left. split; [reflexivity|]. intros d' p (B & _). congruence.
    - intros. exfalso. unfold with_event in *. eapply TRX; [|eassumption]. intros. discriminate. }
  destruct (Nat.ltb_spec (length d) 20) as [L|L]; [discriminate|].
  destruct (Z.eqb_spec (reply_code m d) 0) as [C|C]; cbn [negb] in EQ.
  2:{ injection EQ as ->. cbn [w_st w_tr]. split; [reflexivity|]. exists s3. split; [exact A3|]. split.
      - left. split; [reflexivity|]. intros d' p (_ & B & _ & B'). fold d in B. subst d'. contradiction.
      - intros. exfalso. unfold with_event in *. eapply TRX; [|eassumption]. intros. discriminate. }
  assert (BR : brought m r d) by (repeat split; auto).
  destruct (F5 20%nat L) as [V20 R20].
  assert (HBw : is_bytes (rd (recv_heap w d) (recv_win w d 20)))
    by (rewrite R20; unfold d, received; apply is_bytes_skipn, is_bytes_firstn, HBE).
  assert (HL : Z.of_nat (s_len (recv_win w d 20)) <= 4294967292).
  { cbn [recv_win s_len]. assert (length d <= Z.to_nat 76800)%nat by (unfold d, received; rewrite firstn_length; clear; lia). lia. }
  destruct (NetlinkMessageToNfAttrStruct fuel m (recv_heap w d) (recv_win w d 20) (q_attr (w_st w)))
    as [[[tbl lo] er]| |] eqn:EP; try discriminate.
  assert (T3 : exists s3', amap_get tbl t = Some s3' /\
    (s3' = s3 /\ (forall d p, brought m r d -> attr_complete m (skipn 20 d) p -> attr_type m (skipn 20 d) p <> t) \/
     exists d p, brought m r d /\ last_of t m (skipn 20 d) p /\
       s_arr s3' = s_arr (q_buf (w_st w)) /\ s_off s3' = (s_off (q_buf (w_st w)) + (24 + p))%nat /\
       s_len s3' = (attr_len m (skipn 20 d) p - 4)%nat)).
  { assert (Ht : t < 11) by lia.
    destruct (parser_last m _ _ fuel _ _ _ _ t s3 V20 HL HBw Ht A3 EP) as (s3' & X & Y).
    rewrite R20 in Y. exists s3'. split; [exact X|]. destruct Y as [[Y1 Y2]|(q & Y1 & Y2 & Y3 & Y4 & Y5)]; [left|right].
    - split; [exact Y1|]. intros d' p (_ & B & _). fold d in B. subst d'. apply Y2.
    - exists d, q. split; [exact BR|]. split; [split; [exact Y1|split; [exact Y3|exact Y5]]|].
      rewrite Y4. cbn [win recv_win s_arr s_off s_len]. rewrite R20. split; [reflexivity|]. split; [lia|reflexivity]. }
  destruct T3 as (s3' & G3 & W3).
  destruct er as [er|].
  { injection EQ as ->. cbn [w_st w_tr set_attr q_buf q_attr]. split; [reflexivity|]. exists s3'. split; [exact G3|]. split; [exact W3|].
    intros. exfalso. unfold with_event in *. eapply TRX; [|eassumption]. intros. discriminate. }
  destruct (GetPacketInfo m (recv_heap w d) (Some tbl)) as [[[id mark] s]| |] eqn:EG; try discriminate.
  assert (SL : forall t, t = 1 \/ t = 3 \/ t = 10 -> exists s', amap_get tbl t = Some s').
  { intros t' Ht. destruct (qr_slots _ _ Q t' Ht) as (s0 & A & _).
    pose proof (parser_slots _ _ _ _ _ _ _ _ V20 HL HBw EP t') as X. rewrite A in X. destruct X as (x & X & _). eauto. }
  destruct (SL 1 ltac:(auto)) as (t1 & B1). destruct (SL 3 ltac:(auto)) as (t3 & B3). destruct (SL 10 ltac:(auto)) as (t10 & B10).
  rewrite (packet_info m _ tbl t1 t3 t10 B1 B3 B10) in EG.
  destruct (_ || _)%bool eqn:LL in EG; [discriminate|]. injection EG as <- <- <-.
  apply Bool.orb_false_iff in LL as [LL1 LL3]. apply Nat.ltb_ge in LL1, LL3.
  symmetry in EQ.
  match type of EQ with run_acts _ _ ?l _ ?w1 = _ =>
    assert (CF : q_buf (w_st w') = q_buf (w_st w1) /\ q_attr (w_st w') = q_attr (w_st w1) /\
                 exists evs, w_tr w' = w_tr w1 ++ evs) end.
  { match type of EQ with run_acts _ _ ?l _ ?w1 = _ => set (acts := l) in *; set (w1' := w1) in * end.
    assert (LI1 : loop_inv fd priv cb pd w1').
    { eapply inv_after with (p0 := u64 (q_proc (w_st w) + 1)); auto.
      - unfold u64. apply Z.mod_pos_bound. reflexivity.
      - right. split; [|exact L]. exists lo, None. exact EP. }
    pose proof LI1 as [Q1 P1 _ _ _ _].
    assert (AO : acts_ok e (w_heap w1') priv acts).
    { apply CBOK; cbn [p_buf].
      - destruct (qr_slots _ _ Q1 10 ltac:(auto)) as (x & X1 & X2 & _).
        cbn [w1' w_st w_heap set_counts set_attr q_attr] in X1, X2. rewrite B10 in X1. injection X1 as <-. exact X2.
      - destruct P1 as (_ & _ & _ & P4). apply P4. exact B10.
      - destruct P1 as (_ & _ & P3 & _). exact P3. }
    destruct (run_acts_ok m grow fd priv e _ w1' Q1 P1 AO) as (w2 & evs & G1 & G2 & _ & [_ _ _ (x & y & K4)]).
    rewrite EQ in G1. injection G1 as <-. rewrite K4. cbn [set_counts q_buf q_attr]. eauto. }
  cbn [w_st w_tr set_counts set_attr q_buf q_attr] in CF. destruct CF as (CF1 & CF2 & evs0 & CF3).
  split; [exact CF1|]. exists s3'. rewrite CF2. split; [exact G3|]. split; [exact W3|].
  intros x id' mark' s' cont' pd' r2 evs TR.
  rewrite CF3 in TR. unfold with_event in TR. rewrite <- !app_assoc in TR. apply app_inv_head in TR. cbn [app] in TR.
  injection TR as _ <- <- <- <- _ _ _. split; [exact BR|].
  unfold rd in LL1, LL3. rewrite firstn_length in LL1, LL3.
  split; [|split]; intros ->; rewrite G3 in *.
  - injection B1 as <-. split; [lia|reflexivity].
  - injection B3 as <-. split; [lia|reflexivity].
  - injection B10 as <-. split; reflexivity.
Qed.

(** the first bytes of a window on the receive buffer *)
Lemma window_bytes s k n d :
  r_err r = None -> received r = d -> s_arr s = s_arr (q_buf (w_st w)) -> s_off s = (s_off (q_buf (w_st w)) + k)%nat ->
  (n <= s_len s)%nat -> (k + n <= length d)%nat ->
  field (rd (recv_heap w d) s) 0 n = field d k n.
Proof.
  intros E D A O L K. pose proof (li_ready _ _ _ _ _ LI) as Q.
  destruct (recv_heap_facts e w fd Q) as (_ & _ & _ & F5). fold r in F5. rewrite D in F5.
  destruct (F5 0%nat ltac:(lia)) as [_ R0]. cbn [skipn] in R0.
  transitivity (field (rd (recv_heap w d) (recv_win w d 0)) k n); [|rewrite R0; reflexivity].
  unfold rd, field. cbn [recv_win s_arr s_off s_len].
  rewrite A, O. rewrite !skipn_firstn_comm, !firstn_firstn, !skipn_skipn.
  replace (Nat.min n (s_len s - 0)) with n by lia.
  replace (Nat.min n (length d - 0 - k)) with n by lia.
  f_equal. f_equal. lia.
Qed.
End TURN.

(** ** Every run *)
Section RUN.
Context (m : endian) (fuel : nat) (grow : nat -> nat -> nat) (e : env) (fd pd : Z)
        (priv : list nat) (cb : callback) (t : Z) (init : slice).
Hypothesis HF : (Z.to_nat 19201 < fuel)%nat.
Hypothesis HBE : bytes_env e.
Hypothesis CBOK : callback_ok e priv cb.
Hypothesis HT : t = 1 \/ t = 3 \/ t = 10.
Notation RX r := (KRecvfrom fd 76800 256, r).
Notation quiet := (quiet fd).

Lemma was_step A r B k n : quiet B -> was_at t m fd (A ++ RX r :: B) k n ->
  (exists d p, brought m r d /\ last_of t m (skipn 20 d) p /\ k = (24 + p)%nat /\ n = (attr_len m (skipn 20 d) p - 4)%nat) \/
  (was_at t m fd A k n /\ absent_since t m fd [RX r]).
Proof.
  intros QB (pre & r' & post & d & p & EQ & BR & LM & K & N & US).
  destruct (app_eq_app _ _ _ _ EQ) as (mid & [(X & Y)|(X & Y)]).
  - destruct mid as [|x mid]; cbn [app] in Y.
    + injection Y as <- <-. left. exists d, p. auto.
    + injection Y as <- ->. right. split.
      * exists pre, r', mid, d, p. split; [exact X|]. split; [exact BR|]. split; [exact LM|]. split; [exact K|]. split; [exact N|].
        intros r2 d2 p2 I2. apply US. apply in_or_app. auto.
      * intros r2 d2 p2 [I2|[]]. apply US. apply in_or_app. right. left. exact I2.
  - destruct mid as [|x mid]; cbn [app] in Y.
    + injection Y as -> _. left. exists d, p. auto.
    + injection Y as _ Y. exfalso. apply (QB r'). rewrite Y. apply in_or_app. right. left. reflexivity.
Qed.
Lemma was_quiet A B k n : quiet B -> was_at t m fd (A ++ B) k n -> was_at t m fd A k n.
Proof.
  intros QB (pre & r' & post & d & p & EQ & BR & LM & K & N & US).
  destruct (app_eq_app _ _ _ _ EQ) as (mid & [(X & Y)|(X & Y)]).
  - destruct mid as [|x mid]; cbn [app] in Y.
    + exfalso. apply (QB r'). rewrite <- Y. left. reflexivity.
    + injection Y as <- ->. exists pre, r', mid, d, p. split; [exact X|]. split; [exact BR|]. split; [exact LM|].
      split; [exact K|]. split; [exact N|]. intros r2 d2 p2 I2. apply US. apply in_or_app. auto.
  - exfalso. apply (QB r'). rewrite Y. apply in_or_app. right. left. reflexivity.
Qed.
Lemma absent_l A B : absent_since t m fd (A ++ B) -> absent_since t m fd A.
Proof. intros H r d p I1. apply H. apply in_or_app. left. exact I1. Qed.
Lemma absent_in A r B : absent_since t m fd (A ++ RX r :: B) -> absent_since t m fd [RX r].
Proof. intros H r' d p [I1|[]]. apply H. apply in_or_app. right. left. exact I1. Qed.

(** the slot points where the last such attribute was; before there was one it is as it was made *)
Definition points (evs : list event) (w : world nfq) : Prop :=
  forall s3, amap_get (q_attr (w_st w)) t = Some s3 ->
    (forall k n, was_at t m fd evs k n ->
       s_arr s3 = s_arr (q_buf (w_st w)) /\ s_off s3 = (s_off (q_buf (w_st w)) + k)%nat /\ s_len s3 = n) /\
    (absent_since t m fd evs -> s3 = init).
Definition stale (before evs : list event) : Prop :=
  forall pre r id mark s cont pd' r2 post d,
    evs = pre ++ RX r :: (KPacketCb id mark s cont pd', r2) :: post ->
    received r = d -> absent_since t m fd [RX r] ->
    (forall k n, was_at t m fd (before ++ pre) k n ->
       (t = 1 -> (k + 4 <= length d)%nat -> id = num m (field d k 4)) /\
       (t = 3 -> (k + 4 <= length d)%nat -> mark = num Base.BE (field d k 4)) /\
       (t = 10 -> s_len s = n /\ forall j, (j <= n)%nat -> (k + j <= length d)%nat -> firstn j cont = field d k j)) /\
    (t = 10 -> absent_since t m fd (before ++ pre) -> s = init).

Lemma stale_nothing before l : (forall id mark s cont pd' r2, ~ In (KPacketCb id mark s cont pd', r2) l) -> stale before l.
Proof.
  intros N pre r id mark s cont pd' r2 post d -> _ _. exfalso.
  eapply N. apply in_or_app. right. right. left. reflexivity.
Qed.
Lemma stale_both before l1 l2 :
  stale before l1 -> stale (before ++ l1) l2 ->
  (forall x id mark s cont pd' r2, l2 = (KPacketCb id mark s cont pd', r2) :: x -> False) ->
  stale before (l1 ++ l2).
Proof.
  intros H1 H2 N pre r id mark s cont pd' r2 post d EQ D U.
  destruct (app_eq_app _ _ _ _ EQ) as (mid & [(X & Y)|(X & Y)]).
  - destruct mid as [|x [|y mid]]; cbn [app] in Y.
    + rewrite app_nil_r in X. subst pre.
      pose proof (H2 [] r id mark s cont pd' r2 post d (eq_sym Y) D U) as Z. rewrite app_nil_r in Z. exact Z.
    + injection Y as _ Y. exfalso. eapply N. symmetry. exact Y.
    + injection Y as <- <- ->. eapply H1; eauto.
  - subst pre. pose proof (H2 mid r id mark s cont pd' r2 post d Y D U) as Z. rewrite <- app_assoc in Z. exact Z.
Qed.

Lemma process_packets_points n0 : forall before w res w',
  loop_inv fd priv cb pd w -> points before w ->
  ProcessPackets n0 fuel m grow e w = (res, w') ->
  exists evs, w_tr w' = w_tr w ++ evs /\ stale before evs /\
    (forall x id mark s cont pd' r2, evs = (KPacketCb id mark s cont pd', r2) :: x -> False).
Proof.
  induction n0 as [|n0 IH]; intros before w res w' LI TK; cbn [ProcessPackets].
  { intros EQ. inversion EQ; subst res w'. exists []. rewrite app_nil_r. split; [reflexivity|].
    split; [apply stale_nothing; intros ? ? ? ? ? ? []|discriminate]. }
  mstep. set (r0 := e (w_tr w) KCtxDone). set (w0 := mkW _ _ _).
  pose proof (loop_inv_tr _ _ _ _ _ (w_tr w ++ [(KCtxDone, r0)]) LI) as LI0. fold w0 in LI0.
  destruct (r_flag r0) eqn:F.
  { destruct (NfqClose_inv e w0 fd (li_ready _ _ _ _ _ LI0)) as [r1 EC]. rewrite EC.
    intros EQ. inversion EQ; subst res w'. exists [(KCtxDone, r0); (KClose fd, r1)].
    cbn [w_tr w0 w_st]. rewrite <- app_assoc. split; [reflexivity|].
    split; [apply stale_nothing; intros ? ? ? ? ? ? [X|[X|[]]]; discriminate|discriminate]. }
  destruct (process_one fuel m grow e w0) as [x w1] eqn:E1.
  pose proof (process_one_cases m fuel grow e w0 fd pd priv cb LI0 HF HBE CBOK x w1 E1) as PC.
  destruct x as [[]| |].
  2,3: destruct PC as (C1 & C2 & C3); rewrite ?(bind_panic _ _ _ _ _ E1), ?(bind_nofuel _ _ _ _ _ E1);
    intros EQ; inversion EQ; subst res w'; eexists;
    rewrite C2; cbn [w0 w_tr w_st]; rewrite <- app_assoc;
    (split; [reflexivity|]); (split; [apply stale_nothing; intros ? ? ? ? ? ? [X|[X|[]]]; discriminate|discriminate]).
  rewrite (bind_ok _ _ _ _ _ _ E1). intros E2.
  destruct PC as (LI1 & _ & _ & _ & _ & T).
  destruct (qr_slots _ _ (li_ready _ _ _ _ _ LI0) t HT) as (s3 & A3 & _).
  destruct (process_one_slot m fuel grow e w0 fd pd priv cb LI0 HF HBE CBOK t w1 s3 HT E1 A3) as (BF & s3' & A3' & W3 & MK).
  set (r := e (w_tr w0) (KRecvfrom fd 76800 256)) in *.
  assert (T' : exists y tail, w_tr w1 = w_tr w ++ (KCtxDone, r0) :: RX r :: y :: tail /\ quiet (y :: tail) /\
     (forall id mark s cont pd' r2, ~ In (KPacketCb id mark s cont pd', r2) tail)).
  { destruct T as [(er & dt & r2 & T1 & T2 & T3)|(id & mark & s & cont & r2 & evs & T1 & T2 & T3 & T4 & T5 & T6 & T7 & T8 & T9)].
    - exists (KErrCb er dt, r2), []. rewrite T1. cbn [w0 w_tr]. rewrite <- app_assoc. split; [reflexivity|].
      split; [intros ? [X|[]]; discriminate|intros ? ? ? ? ? ? []].
    - exists (KPacketCb id mark s cont pd, r2), evs. rewrite T1. cbn [w0 w_tr]. rewrite <- app_assoc. split; [reflexivity|].
      split; [intros ? [X|X]; [discriminate|exact (cb_quiet fd _ T7 _ X)]|].
      intros id' mark' s' cont' pd' r2' X. rewrite Forall_forall in T7. exact (T7 _ X). }
  clear T. destruct T' as (y & tail & TR & QT & NP).
  set (ev1 := (KCtxDone, r0) :: RX r :: y :: tail) in *.
  assert (QC : quiet [(KCtxDone, r0)]) by (intros ? [X|[]]; discriminate).
  assert (TK1 : points (before ++ ev1) w1).
  { intros s G. rewrite A3' in G. injection G as <-. rewrite BF.
    unfold ev1. replace (before ++ (KCtxDone, r0) :: RX r :: y :: tail)
      with ((before ++ [(KCtxDone, r0)]) ++ RX r :: y :: tail) by (rewrite <- app_assoc; reflexivity).
    split.
    - intros k n M1. apply (was_step _ _ _ _ _ QT) in M1. destruct W3 as [[-> NM]|(d & p & BR & LM & X1 & X2 & X3)].
      + destruct M1 as [(d & p & BR & (L1 & L2 & _) & _)|[M1 _]]; [destruct (NM d p BR L1 L2)|].
        apply was_quiet in M1; [|exact QC]. exact (proj1 (TK s3 A3) k n M1).
      + destruct M1 as [(d' & p' & BR' & LM' & -> & ->)|[_ M1]].
        * assert (d' = d) by (destruct BR as (_ & B & _), BR' as (_ & B' & _); congruence). subst d'.
          assert (p' = p) by (destruct LM as (L1 & L2 & L3), LM' as (L1' & L2' & L3');
            pose proof (L3 _ L1' L2'); pose proof (L3' _ L1 L2); lia). subst p'. auto.
        * destruct LM as (L1 & L2 & _). destruct (M1 r d p (or_introl eq_refl) BR L1 L2).
    - intros AB. destruct W3 as [[-> NM]|(d & p & BR & (L1 & L2 & _) & _)].
      + apply (proj2 (TK s3 A3)). apply absent_l in AB. apply absent_l in AB. exact AB.
      + apply absent_in in AB. destruct (AB r d p (or_introl eq_refl) BR L1 L2). }
  assert (ST1 : stale before ev1).
  { intros pre r' id mark s cont pd' r2 post d EQ D U.
    destruct pre as [|x0 [|x1 pre]]; cbn [app] in EQ.
    - discriminate.
    - injection EQ as <- <- -> <-.
      destruct (MK (RX r) id mark s cont pd' r2 tail) as (BR & K1 & K3 & K10).
      { rewrite TR. cbn [w0 w_tr]. rewrite <- app_assoc. reflexivity. }
      assert (BR' := BR). destruct BR' as (EN & _).
      destruct W3 as [[-> NM]|(d' & p & BR' & (L1 & L2 & _) & _)].
      2:{ destruct (U r d' p (or_introl eq_refl) BR' L1 L2). }
      destruct (TK s3 A3) as [TKa TKb]. split.
      + intros k n MW. apply was_quiet in MW; [|exact QC]. destruct (TKa k n MW) as (X1 & X2 & X3). split; [|split].
        * intros T1 L. destruct (K1 T1) as [L4 ->]. rewrite D. f_equal. eapply window_bytes; eauto.
        * intros T1 L. destruct (K3 T1) as [L4 ->]. rewrite D. f_equal. eapply window_bytes; eauto.
        * intros T1. destruct (K10 T1) as [-> ->]. split; [exact X3|]. intros j J1 J2. rewrite D.
          change (firstn j ?l) with (field l 0 j). eapply window_bytes; eauto. rewrite X3. exact J1.
      + intros T1 AB. destruct (K10 T1) as [-> _]. apply TKb. apply absent_l in AB. exact AB.
    - exfalso. destruct pre as [|x2 pre]; cbn [app] in EQ; injection EQ as _ _ EQ.
      + inversion EQ; subst. eapply NP. left. reflexivity.
      + inversion EQ; subst. eapply NP. apply in_or_app. right. right. left. reflexivity. }
  destruct (IH (before ++ ev1) w1 res w' LI1 TK1 E2) as (evs & J1 & J2 & J3).
  exists (ev1 ++ evs). split; [rewrite J1, TR, <- app_assoc; reflexivity|].
  split; [apply stale_both; assumption|]. intros x id mark s cont pd' r2 X. unfold ev1 in X. discriminate.
Qed.
End RUN.
