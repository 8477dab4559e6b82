(** How long a delivered buffer stays valid (C58). *)
From Verif Require Export Proof.Release.

Section LIFE.
Variables (m : endian) (grow : nat -> nat -> nat) (e : env) (fd : Z) (s : slice) (hd : nat).
Definition holds (w : world nfq) : Prop :=
  verdict_ready w fd /\ s_arr (q_hdr (w_st w)) = hd /\ valid (w_heap w) s /\ s_arr s <> hd.

Lemma rd_same h h' (x : slice) : arr h' (s_arr x) = arr h (s_arr x) -> rd h' x = rd h x.
Proof. unfold rd. now intros ->. Qed.

Lemma holds_verdict w w' p q :
  holds w -> verdict_frame w w' p -> w_st w' = q -> q_handle q = q_handle (w_st w) ->
  q_hdr q = q_hdr (w_st w) -> q_num q = q_num (w_st w) ->
  p = s \/ s_arr p <> s_arr s -> 
  holds w' /\ rd (w_heap w') s = rd (w_heap w) s.
Proof.
  intros ((A & B & C & D) & H1 & H2 & H3) F E1 E2 E3 E4 X. subst q. split.
  - split; [|split; [congruence|split; [apply (vf_keep _ _ _ F), H2|exact H3]]].
    split; [rewrite E2; exact A|]. rewrite E3, E4.
    split; [apply (vf_keep _ _ _ F), B|auto].
  - destruct X as [->|X]; [apply (vf_old _ _ _ F)|].
    destruct H2 as [V1 [V2|[V2 V3]]].
    + unfold rd. replace (s_len s) with 0%nat by lia. reflexivity.
    + apply rd_same. apply (vf_other _ _ _ F); congruence.
Qed.

Lemma one_act_keeps w a :
  holds w -> act_ok e (w_heap w) [hd] a -> leaves_alone s a ->
  exists w', run_acts m grow [a] e w = (Ok tt, w') /\
    holds w' /\ rd (w_heap w') s = rd (w_heap w) s /\
    (forall x, valid (w_heap w) x -> valid (w_heap w') x).
Proof.
  intros H A LA. pose proof H as (VR & H1 & H2 & H3). cbn [run_acts].
  destruct a as [v pl id p|v mk pl id p|x o v|v sp|]; cbn [act_ok leaves_alone] in A, LA.
  - destruct A as (Vp & -> & L & Np). pose proof (valid_len _ _ Vp) as Lp.
    destruct (SetVerdict_raw m grow v id p (rd (w_heap w) p) e w fd VR) as (w' & new & K1 & _ & _ & K4 & K5).
    { split; [exact Vp|]. split; [reflexivity|]. intros E. apply Np. left. congruence. }
    { lia. }
    unfold zlen in K1. rewrite Lp in K1.
    exists w'. rewrite (bind_ok _ _ _ _ _ _ K1). split; [reflexivity|].
    destruct (holds_verdict w w' p _ H K5 K4) as [G1 G2]; try (unfold counted; destruct (v =? 1); reflexivity).
    { exact LA. }
    split; [exact G1|]. split; [exact G2|apply K5].
  - destruct A as (Vp & -> & L & Np). pose proof (valid_len _ _ Vp) as Lp.
    destruct (SetVerdict2_raw m grow v mk id p (rd (w_heap w) p) e w fd VR) as (w' & new & K1 & _ & _ & K4 & K5).
    { split; [exact Vp|]. split; [reflexivity|]. intros E. apply Np. left. congruence. }
    { intros E. rewrite E in Lp. cbn in Lp. lia. }
    unfold zlen in K1. rewrite Lp in K1.
    exists w'. rewrite (bind_ok _ _ _ _ _ _ K1). split; [reflexivity|].
    destruct (holds_verdict w w' p _ H K5 K4) as [G1 G2]; try reflexivity.
    { exact LA. }
    split; [exact G1|]. split; [exact G2|apply K5].
  - destruct A as (Vs & O1 & O2 & L & Ns). cbn [m_stores].
    pose proof Vs as [V1 [V2|[V2 V3]]]; [lia|].
    mstep. mstep. rewrite wr_ok by lia. mstep. mstep. mstep.
    eexists. split; [reflexivity|].
    assert (K : forall y, valid (w_heap w) y -> valid (upd_arr (w_heap w) (s_arr x)
        (splice (arr (w_heap w) (s_arr x)) (s_off x + Z.to_nat o) v)) y).
    { intros y Vy. apply valid_upd; auto. apply splice_length. unfold zlen in O2. lia. }
    destruct VR as (B1 & B2 & B3 & B4).
    split; [|split; [|exact K]]; cbn [w_heap w_st].
    + split; [|split; [exact H1|split; [apply K, H2|exact H3]]].
      split; [exact B1|]. split; [apply K, B2|]. split; [exact B3|exact B4].
    + apply rd_same. apply arr_upd_other; [exact V2|congruence].
  - unfold m_alloc. cbn [alloc]. mstep. mstep. mstep. mstep. mstep.
    eexists. split; [reflexivity|]. destruct VR as (B1 & B2 & B3 & B4).
    split; [|split]; cbn [w_heap w_st].
    + split; [|split; [exact H1|split; [apply valid_app, H2|exact H3]]].
      split; [exact B1|]. split; [apply valid_app, B2|]. split; [exact B3|exact B4].
    + destruct H2 as [V1 [V2|[V2 V3]]].
      * unfold rd. replace (s_len s) with 0%nat by lia. reflexivity.
      * apply rd_same. exact (arr_alloc_old (w_heap w) v sp _ V2).
    + intros y Vy. apply valid_app, Vy.
  - contradiction.
Qed.

Lemma acts_keep l : forall w,
  holds w -> Forall (act_ok e (w_heap w) [hd]) l -> Forall (leaves_alone s) l ->
  exists w', run_acts m grow l e w = (Ok tt, w') /\ rd (w_heap w') s = rd (w_heap w) s.
Proof.
  induction l as [|a l IH]; intros w H A L; [exists w; split; reflexivity|].
  inversion A as [|? ? A1 A2]; subst. inversion L as [|? ? L1 L2]; subst.
  destruct (one_act_keeps w a H A1 L1) as (w1 & E1 & H1 & R1 & K1).
  destruct (IH w1 H1) as (w2 & E2 & R2); [|exact L2|].
  - eapply Forall_impl; [|exact A2]. intros x. apply act_ok_mono, K1.
  - exists w2. rewrite run_acts_cons, (bind_ok _ _ _ _ _ _ E1). split; [exact E2|congruence].
Qed.
End LIFE.

Lemma delivered_buffer_kept m fuel grow e w fd d l id mark payload :
  queue_ready w fd ->
  let r := e (w_tr w) (KRecvfrom fd 76800 256) in
  r_err r = None -> r_data r = d -> packet_datagram m d l ->
  has_id m l id -> has_mark l mark -> has_payload l payload -> (Z.to_nat 19201 < fuel)%nat ->
  exists g tbl s w',
    Recv fuel m e w = (Ok (Some g, Some tbl, None), w') /\
    GetPacketInfo m (w_heap w') (Some tbl) = Ok (id, mark, s) /\
    forall acts, Forall (act_ok e (w_heap w') [s_arr (q_hdr (w_st w'))]) acts ->
      Forall (leaves_alone s) acts ->
      exists w'', run_acts m grow acts e w' = (Ok tt, w'') /\ rd (w_heap w'') s = payload.
Proof.
  intros Q r E D P I M PL Hf.
  destruct (recv_packet m fuel e w fd d l Q E D P Hf) as (g0 & tbl0 & w0 & R0 & S1 & _ & _ & Q' & _ & _).
  destruct (recv_delivers m fuel e w fd d l id mark payload Q E D P I M PL Hf)
    as (g & tbl & s & w' & R & G & B & _ & _).
  rewrite R in R0. injection R0 as <- <- <-.
  exists g, tbl, s, w'. split; [exact R|]. split; [exact G|].
  intros acts A L. destruct (qr_slots _ _ Q' 10 ltac:(auto)) as (s' & G1 & G2 & G3).
  assert (Es : s = s').
  { rewrite S1 in G1. cbn [set_attr q_attr] in G1.
    destruct (qr_slots _ _ Q' 1 ltac:(auto)) as (s1 & A1 & _).
    destruct (qr_slots _ _ Q' 3 ltac:(auto)) as (s3 & A3 & _).
    rewrite S1 in A1, A3. cbn [set_attr q_attr] in A1, A3.
    rewrite (packet_info m _ _ _ _ _ A1 A3 G1) in G.
    destruct (_ || _)%bool; [discriminate|]. congruence. }
  subst s'.
  destruct (acts_keep m grow e fd s (s_arr (q_hdr (w_st w'))) acts w') as (w'' & E1 & E2).
  - split; [|auto]. destruct Q'. split; [eauto|]. auto.
  - exact A.
  - exact L.
  - exists w''. split; [exact E1|congruence].
Qed.
