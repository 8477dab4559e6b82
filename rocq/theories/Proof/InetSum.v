(** The Internet checksum: the code's folding equals RFC 1071. *)
From Verif Require Export Proof.AttrLoop Model.Checksum Spec.Inet.

Definition raw_sum (b : bytes) : Z := fold_right Z.add 0 (words16 b).

Lemma words16_app a b : Nat.even (length a) = true -> words16 (a ++ b) = words16 a ++ words16 b.
Proof.
  remember (length a) as n eqn:E. revert a E. induction n as [n IH] using lt_wf_ind.
  intros a E H. destruct a as [|x [|y a]]; [reflexivity|subst; discriminate|].
  cbn [app words16]. f_equal. cbn [length] in E. subst n. apply (IH (length a)); auto.
Qed.
Lemma words_range b : is_bytes b -> Forall (fun w => 0 <= w < 65536) (words16 b).
Proof.
  remember (length b) as n eqn:E. revert b E. induction n as [n IH] using lt_wf_ind.
  intros b E H. destruct b as [|x [|y b]]; cbn [words16]; [constructor| |].
  - inversion H; subst. unfold is_byte in *. constructor; [lia|constructor].
  - inversion H as [|? ? H1 H2]; subst. inversion H2; subst. unfold is_byte in *.
    constructor; [lia|]. apply (IH (length b)); cbn [length]; auto.
Qed.
Lemma raw_sum_app a b : Nat.even (length a) = true -> raw_sum (a ++ b) = raw_sum a + raw_sum b.
Proof.
  intros H. unfold raw_sum. rewrite words16_app by exact H. induction (words16 a); cbn [app fold_right]; lia.
Qed.
Lemma raw_sum_bound b : is_bytes b -> 0 <= raw_sum b <= 65535 * ((zlen b + 1) / 2).
Proof.
  remember (length b) as n eqn:E. revert b E. induction n as [n IH] using lt_wf_ind.
  intros b E H. unfold zlen. rewrite <- E. destruct b as [|x [|y b]]; cbn [length] in E; subst n.
  - cbn. lia.
  - inversion H; subst. unfold is_byte in *. cbn [raw_sum words16 fold_right]. unfold raw_sum. cbn [words16 fold_right].
    change (Z.of_nat 1) with 1. lia.
  - inversion H as [|? ? H1 H2]; subst. inversion H2; subst. unfold is_byte in *.
    specialize (IH (length b) ltac:(cbn; lia) b eq_refl ltac:(assumption)).
    unfold raw_sum, zlen in *. cbn [words16 fold_right]. rewrite !Nat2Z.inj_succ. lia.
Qed.

(** a number in 0..65535 congruent to S modulo 65535, and 0 only if S is *)
Definition folds_to (S r : Z) : Prop :=
  0 <= r <= 65535 /\ r mod 65535 = S mod 65535 /\ (r = 0 <-> S = 0).
Lemma folds_unique S r r' : folds_to S r -> folds_to S r' -> r = r'.
Proof.
  intros (A1 & A2 & A3) (B1 & B2 & B3).
  assert (H : r mod 65535 = r' mod 65535) by lia.
  destruct (Z.eq_dec r 65535), (Z.eq_dec r' 65535); subst.
  - reflexivity.
  - rewrite Z_mod_same_full in H. rewrite Z.mod_small in H by lia. lia.
  - rewrite Z_mod_same_full in H. rewrite Z.mod_small in H by lia. lia.
  - rewrite !Z.mod_small in H by lia. exact H.
Qed.
Lemma oc_add_folds a b : 0 <= a <= 65535 -> 0 <= b <= 65535 -> folds_to (a + b) (oc_add a b).
Proof.
  intros A B. unfold folds_to, oc_add. destruct (Z.ltb_spec (a + b) 65536).
  - repeat split; lia.
  - split; [lia|]. split; [|lia].
    replace (a + b - 65535) with (a + b + (-1) * 65535) by lia. apply Z_mod_plus_full.
Qed.
Lemma folds_trans S r x y : 0 <= S -> 0 <= x -> folds_to S r -> folds_to (r + x) y -> folds_to (S + x) y.
Proof.
  intros HS HX (A1 & A2 & A3) (B1 & B2 & B3). split; [exact B1|]. split.
  - rewrite B2. rewrite <- Zplus_mod_idemp_l, A2, Zplus_mod_idemp_l. reflexivity.
  - rewrite B3. lia.
Qed.
Lemma oc_sum_go ws : forall acc S, Forall (fun w => 0 <= w < 65536) ws -> 0 <= S -> folds_to S acc ->
  folds_to (S + fold_right Z.add 0 ws) (fold_left oc_add ws acc).
Proof.
  induction ws as [|w ws IH]; intros acc S F HS H; cbn [fold_left fold_right].
  - rewrite Z.add_0_r. exact H.
  - inversion F; subst. rewrite Z.add_assoc. apply IH; auto; [lia|].
    apply folds_trans with acc; [lia|lia|exact H|]. apply oc_add_folds; [apply H|lia].
Qed.
Lemma oc_sum_folds b : is_bytes b -> folds_to (raw_sum b) (oc_sum b).
Proof.
  intros H. unfold oc_sum, raw_sum. rewrite <- (Z.add_0_l (fold_right _ _ _)).
  apply oc_sum_go; [apply words_range, H|lia|]. unfold folds_to. repeat split; lia.
Qed.
Lemma oc_sum_range b : is_bytes b -> 0 <= oc_sum b <= 65535.
Proof. intros H. apply (oc_sum_folds b H). Qed.

(** ** The code's loops *)
Lemma fold16_step S : 65536 <= S < 4294967296 ->
  let S' := u32 (Z.shiftr S 16 + Z.land S 65535) in
  S' = S / 65536 + S mod 65536 /\ S' mod 65535 = S mod 65535 /\ 0 < S'.
Proof.
  intros H S'. assert (E : S' = S / 65536 + S mod 65536).
  { unfold S'. rewrite shiftr_div by lia. change 65535 with (Z.ones 16). rewrite land_ones' by lia.
    change (2 ^ 16) with 65536. unfold u32. lia. }
  split; [exact E|]. rewrite E. split; [|lia].
  rewrite (Z.div_mod S 65536) at 3 by lia. replace (65536 * (S / 65536) + S mod 65536)
    with (S / 65536 + S mod 65536 + (S / 65536) * 65535) by lia. symmetry. apply Z_mod_plus_full.
Qed.
Lemma fold16_spec S : 0 <= S < 4294967296 -> exists r, csumConvert32To16bit S = Ok r /\ folds_to S r.
Proof.
  intros H. unfold csumConvert32To16bit.
  assert (B : forall f T, 0 <= T <= 65535 -> fold16 f T = Ok T).
  { intros f T HT. unfold fold16. destruct f; destruct (Z.ltb_spec 65535 T); try lia; unfold u16; f_equal; lia. }
  assert (G : forall f T, 65535 < T -> fold16 (Datatypes.S f) T = fold16 f (u32 (Z.shiftr T 16 + Z.land T 65535))).
  { intros f T HT. cbn [fold16]. destruct (Z.ltb_spec 65535 T); [reflexivity|lia]. }
  destruct (Z_le_gt_dec S 65535).
  { exists S. rewrite B by lia. split; [reflexivity|]. unfold folds_to. repeat split; lia. }
  destruct (fold16_step S ltac:(lia)) as (E1 & C1 & P1). rewrite G by lia.
  set (S1 := u32 _) in *. clearbody S1.
  destruct (Z_le_gt_dec S1 65535).
  { exists S1. rewrite B by lia. split; [reflexivity|]. unfold folds_to. repeat split; lia. }
  destruct (fold16_step S1 ltac:(lia)) as (E2 & C2 & P2). rewrite G by lia.
  set (S2 := u32 _) in *. clearbody S2.
  assert (S2 <= 65535) by lia.
  exists S2. rewrite B by lia. split; [reflexivity|]. unfold folds_to. repeat split; lia.
Qed.
Lemma lor_word a b : is_byte a -> is_byte b -> Z.lor (u32 (Z.shiftl a 8)) b = a * 256 + b.
Proof.
  unfold is_byte. intros A B. rewrite Z.shiftl_mul_pow2 by lia. change (2 ^ 8) with 256.
  unfold u32. rewrite Z.mod_small by lia.

  assert (Z.land (a * 256) b = 0).
  { change 256 with (2 ^ 8). rewrite <- Z.shiftl_mul_pow2 by lia.
    apply Z.bits_inj'. intros n Hn. rewrite Z.land_spec, Z.bits_0, Z.shiftl_spec by lia.
    destruct (Z_lt_ge_dec n 8).
    - rewrite Z.testbit_neg_r by lia. reflexivity.
    - rewrite andb_comm. destruct (Z.eq_dec b 0) as [->|Hb]; [rewrite Z.bits_0; reflexivity|].
      rewrite (Z.bits_above_log2 b n); [reflexivity|lia|].
      apply Z.lt_le_trans with 8; [|lia]. apply Z.log2_lt_pow2; lia. }
  symmetry. rewrite Z.add_nocarry_lxor by assumption.
  apply Z.bits_inj'. intros n Hn. rewrite Z.lxor_spec, Z.lor_spec.
  apply (f_equal (fun z => Z.testbit z n)) in H. rewrite Z.land_spec, Z.bits_0 in H.
  destruct (Z.testbit (a * 256) n), (Z.testbit b n); cbn in *; congruence.
Qed.
Lemma checksumDelta_spec b : forall S, is_bytes b -> 0 <= S -> S + raw_sum b < 4294967296 ->
  checksumDelta S b = S + raw_sum b.
Proof.
  remember (length b) as n eqn:E. revert b E. induction n as [n IH] using lt_wf_ind.
  intros b E S H HS L. destruct b as [|x [|y b]].
  - cbn. lia.
  - inversion H as [|? ? H1 _]; subst. unfold raw_sum in *. cbn [checksumDelta words16 fold_right] in *.
    pose proof (lor_word x 0 H1 ltac:(red; lia)) as X. rewrite Z.lor_0_r in X. rewrite X.
    unfold u32, is_byte in *. rewrite Z.mod_small; lia.
  - inversion H as [|? ? H1 H2]; subst. inversion H2 as [|? ? H3 H4]; subst.
    cbn [checksumDelta]. rewrite lor_word by assumption.
    assert (R : raw_sum (x :: y :: b) = x * 256 + y + raw_sum b) by reflexivity. rewrite R in *.
    pose proof (raw_sum_bound b H4). unfold is_byte in *.
    replace (u32 (S + (x * 256 + y))) with (S + (x * 256 + y)) by (unfold u32; rewrite Z.mod_small; lia).
    rewrite (IH (length b)); cbn [length]; auto; lia.
Qed.
Lemma checksum_spec b : is_bytes b -> zlen b <= 131070 -> checksum b = Ok (internet_checksum b).
Proof.
  intros H L. pose proof (raw_sum_bound b H) as B. unfold checksum.
  rewrite checksumDelta_spec by (auto; lia). rewrite Z.add_0_l.
  destruct (fold16_spec (raw_sum b)) as (r & E & F); [lia|]. rewrite E. cbn [rbind].
  rewrite (folds_unique _ _ _ F (oc_sum_folds b H)). reflexivity.
Qed.
(** piecewise *)
Definition csum_pieces (init : Z) (ps : list bytes) : Z := fold_left partialChecksum ps init.
Lemma csum_pieces_spec ps : forall S last, Forall is_bytes ps -> is_bytes last ->
  Forall (fun p => Nat.even (length p) = true) ps -> 0 <= S ->
  S + raw_sum (concat ps ++ last) < 4294967296 ->
  partialChecksum (csum_pieces S ps) last = S + raw_sum (concat ps ++ last).
Proof.
  induction ps as [|p ps IH]; intros S last F HL EV HS L.
  - cbn in *. unfold partialChecksum. apply checksumDelta_spec; auto.
  - inversion F; inversion EV; subst. cbn [csum_pieces fold_left concat] in *.
    rewrite <- app_assoc in *. rewrite raw_sum_app in * by assumption.
    assert (0 <= raw_sum p) by (apply raw_sum_bound; assumption).
    assert (0 <= raw_sum (concat ps ++ last)).
    { apply raw_sum_bound. apply is_bytes_app. split; [|assumption].
      clear - H2. induction H2; cbn [concat]; [constructor|]. apply is_bytes_app; auto. }
    assert (E1 : partialChecksum S p = S + raw_sum p) by (apply checksumDelta_spec; auto; lia).
    change (partialChecksum (csum_pieces (partialChecksum S p) ps) last = S + (raw_sum p + raw_sum (concat ps ++ last))).
    rewrite E1, Z.add_assoc. apply IH; auto; lia.
Qed.
Lemma finalize_spec b : is_bytes b -> raw_sum b < 4294967296 ->
  finalizeChecksum (raw_sum b) = Ok (internet_checksum b).
Proof.
  intros H L. pose proof (raw_sum_bound b H) as B. unfold finalizeChecksum.
  destruct (fold16_spec (raw_sum b)) as (r & E & F); [lia|]. rewrite E. cbn [rbind].
  rewrite (folds_unique _ _ _ F (oc_sum_folds b H)). reflexivity.
Qed.
