(** The operations on packets, as transformations of the packet's bytes. *)
From Verif Require Export Proof.PktParse.

(** ** More about windows *)
Lemma rd_apart h s B t : vslice h s -> length B = s_len s -> apart s t -> rd (set_rd h s B) t = rd h t.
Proof.
  intros V L A. destruct (Nat.eq_dec (s_len t) 0) as [Z|NZ]; [unfold rd; now rewrite Z|].
  destruct (Nat.eq_dec (s_arr s) (s_arr t)) as [E|N].
  - destruct A as [A|[A|A]]; try contradiction. unfold rd. rewrite <- E, set_rd_arr by exact V.
    pose proof V as (V1 & V2 & V3).
    pose proof (sub_splice_disj (arr h (s_arr s)) (s_off s) B (s_off t) (s_off t + s_len t) ltac:(lia)) as X.
    unfold sub in X. replace (s_off t + s_len t - s_off t)%nat with (s_len t) in X by lia. apply X. rewrite L. lia.
  - unfold rd. rewrite set_rd_other by auto. reflexivity.
Qed.
Lemma firstn_splice n B o v : (o + length v <= n)%nat -> (n <= length B)%nat ->
  firstn n (splice B o v) = splice (firstn n B) o v.
Proof.
  intros H L. apply nth_ext_len with 0.
  - rewrite firstn_length, !splice_length; rewrite ?firstn_length; lia.
  - intros j J. rewrite firstn_length, splice_length in J by lia.
    rewrite nth_firstn' by lia. rewrite !nth_splice; rewrite ?firstn_length; try lia.
    destruct (_ && _)%bool; [reflexivity|]. now rewrite nth_firstn' by lia.
Qed.
Lemma skipn_splice n B o v : (o + length v <= length B)%nat -> (n <= o)%nat ->
  skipn n (splice B o v) = splice (skipn n B) (o - n) v.
Proof.
  intros H L. apply nth_ext_len with 0.
  - rewrite skipn_length, !splice_length; rewrite ?skipn_length; lia.
  - intros j J. rewrite skipn_length, splice_length in J by lia.
    rewrite nth_skipn'. rewrite !nth_splice; rewrite ?skipn_length; try lia.
    destruct (Nat.leb_spec o (n + j)), (Nat.leb_spec (o - n) j), (Nat.ltb_spec (n + j) (o + length v)),
      (Nat.ltb_spec j (o - n + length v)); cbn [andb]; try lia; rewrite ?nth_skipn'; try reflexivity; f_equal; lia.
Qed.
Lemma splice_twice B o x y : (o + 2 <= length B)%nat -> splice (splice B o [x]) (o + 1) [y] = splice B o [x; y].
Proof.
  intros H. apply nth_ext_len with 0.
  - rewrite !splice_length; rewrite ?splice_length; cbn [length]; lia.
  - intros j J. rewrite !nth_splice; rewrite ?splice_length; cbn [length]; try lia.
    destruct (Nat.leb_spec (o + 1) j), (Nat.ltb_spec j (o + 1 + 1)), (Nat.leb_spec o j), (Nat.ltb_spec j (o + 2)),
      (Nat.ltb_spec j (o + 1)); cbn [andb]; try lia; try reflexivity.
    + replace (j - o)%nat with 1%nat by lia. replace (j - (o + 1))%nat with 0%nat by lia. reflexivity.
    + replace (j - o)%nat with 0%nat by lia. reflexivity.
Qed.
Lemma splice_same_twice B o v w : length v = length w -> (o + length v <= length B)%nat ->
  splice (splice B o v) o w = splice B o w.
Proof. intros E H. apply splice_splice_same; lia. Qed.
Lemma put16_0 : put16 BE 0 = [0; 0].
Proof. reflexivity. Qed.

(** ** Folding *)
Lemma fold_complement S f : 0 <= S -> folds_to S f -> folds_to (S + (65535 - f)) 65535.
Proof.
  intros HS (A & B & C). split; [lia|]. split.
  - rewrite Z_mod_same_full. symmetry. replace (S + (65535 - f)) with (S - f + 1 * 65535) by lia.
    rewrite Z_mod_plus_full, Zminus_mod, <- B, <- Zminus_mod, Z.sub_diag. reflexivity.
  - split; intros; [|lia]. destruct (Z.eq_dec f 0); lia.
Qed.
Lemma sums_iff_folds b : is_bytes b -> sums_to_ones b <-> folds_to (raw_sum b) 65535.
Proof.
  intros H. pose proof (oc_sum_folds b H) as F. unfold sums_to_ones. split; [intros <-; exact F|].
  intros G. apply (folds_unique _ _ _ F G).
Qed.
Lemma inc_fold_done f c : 0 <= c < 65536 -> inc_fold f c = Ok c.
Proof.
  intros H. destruct f; cbn [inc_fold]; rewrite shiftr_div by lia; change (2 ^ 16) with 65536;
    rewrite Z.div_small by lia; reflexivity.
Qed.
Lemma inc_fold_step f c : 65536 <= c < 4294967296 -> inc_fold (Datatypes.S f) c = inc_fold f (c mod 65536 + c / 65536).
Proof.
  intros H. cbn [inc_fold]. rewrite shiftr_div by lia. change (2 ^ 16) with 65536.
  destruct (Z.ltb_spec 0 (c / 65536)); [|lia]. change 65535 with (Z.ones 16). rewrite !land_ones' by lia.
  change (2 ^ 16) with 65536. f_equal. unfold u32. lia.
Qed.
Lemma lxor_not16 x : 0 <= x < 65536 -> Z.lxor x 65535 = 65535 - x.
Proof.
  intros H. change 65535 with (Z.ones 16).
  assert (X : x + Z.lxor x (Z.ones 16) = Z.ones 16); [|lia].
  rewrite Z.add_nocarry_lxor.
  - rewrite <- Z.lxor_assoc, Z.lxor_nilpotent. apply Z.lxor_0_l.
  - apply Z.bits_inj'. intros n Hn. rewrite Z.land_spec, Z.lxor_spec, Z.bits_0, Z.testbit_ones_nonneg by lia.
    destruct (Z.ltb_spec n 16); [destruct (Z.testbit x n); reflexivity|].
    assert (X : x mod 2 ^ 16 = x) by (apply Z.mod_small; exact H). rewrite <- X, Z.mod_pow2_bits_high by lia. reflexivity.
Qed.
Lemma incCsum_spec cs old new : 0 <= cs < 65536 -> 0 <= old < 65536 -> 0 <= new < 65536 ->
  exists f, incCsum16 cs old new = Ok (65535 - f) /\ folds_to ((65535 - cs) + (65535 - old) + new) f.
Proof.
  intros A B C. unfold incCsum16. rewrite !lxor_not16 by lia.
  set (X := 65535 - cs + (65535 - old) + new). assert (HX : 0 <= X <= 196605) by (unfold X; lia).
  unfold u32. rewrite Z.mod_small by lia.
  assert (E : exists f, inc_fold 4 X = Ok f /\ folds_to X f).
  { destruct (Z_lt_ge_dec X 65536).
    - exists X. split; [apply inc_fold_done; lia|]. unfold folds_to. repeat split; lia.
    - rewrite inc_fold_step by lia. set (Y := X mod 65536 + X / 65536). assert (HY : 0 < Y <= 65538 /\ Y mod 65535 = X mod 65535) by (unfold Y; lia).
      destruct (Z_lt_ge_dec Y 65536).
      + exists Y. split; [apply inc_fold_done; lia|]. unfold folds_to. repeat split; lia.
      + rewrite inc_fold_step by lia. set (Z0 := Y mod 65536 + Y / 65536).
        assert (HZ : 0 < Z0 <= 65535 /\ Z0 mod 65535 = Y mod 65535) by (unfold Z0; lia).
        exists Z0. split; [apply inc_fold_done; lia|]. unfold folds_to. repeat split; lia. }
  destruct E as (f & E & F). rewrite E. cbn [rbind]. exists f. split; [|exact F].
  destruct F as (F1 & _). rewrite lxor_not16 by lia. unfold u16. f_equal. lia.
Qed.

(** ** The IPv4 header checksum *)
Lemma ip4_zeroed_splice b : (20 <= length b)%nat -> ip4_zeroed b = splice (firstn 20 b) 10 [0; 0].
Proof.
  intros H. unfold ip4_zeroed, splice, field. cbn [length Nat.add]. rewrite firstn_firstn, Nat.min_l by lia.
  f_equal. f_equal. rewrite skipn_firstn_comm. reflexivity.
Qed.
Lemma be16f_firstn b o n : (o + 2 <= n)%nat -> be16f (firstn n b) o = be16f b o.
Proof.
  intros H. unfold be16f, field. rewrite skipn_firstn_comm, firstn_firstn, Nat.min_l by lia. reflexivity.
Qed.
Lemma raw_zeroed b : is_bytes b -> (20 <= length b)%nat ->
  raw_sum (ip4_zeroed b) = raw_sum (firstn 20 b) - ip4_checksum b.
Proof.
  intros IB H. rewrite ip4_zeroed_splice by exact H. change [0;0] with (put16 BE 0).
  rewrite raw_sum_splice2; [|reflexivity|rewrite firstn_length; lia|lia].
  rewrite be16f_firstn by lia. unfold ip4_checksum. lia.
Qed.
Lemma zeroed_bytes b : is_bytes b -> is_bytes (ip4_zeroed b).
Proof.
  intros IB. unfold ip4_zeroed, field. apply Forall_app. split; [apply is_bytes_firstn, IB|].
  apply Forall_app. split; [repeat constructor; unfold is_byte; lia|]. apply is_bytes_firstn, is_bytes_skipn, IB.
Qed.
Lemma raw_zeroed_pos b : is_bytes b -> (20 <= length b)%nat -> byte_at b 0 = 69 -> 0 < raw_sum (ip4_zeroed b).
Proof.
  intros IB L B0. pose proof (zeroed_bytes b IB) as ZB.
  assert (E : exists y r, ip4_zeroed b = 69 :: y :: r).
  { unfold ip4_zeroed, byte_at in *. destruct b as [|x [|y b]]; cbn in L; try lia. cbn in B0. subst x.
    exists y. eexists. reflexivity. }
  destruct E as (y & r & E). rewrite E in *. inversion ZB as [|? ? _ Z2]; subst. inversion Z2 as [|? ? Z3 Z4]; subst.
  pose proof (raw_sum_bound r Z4). unfold raw_sum in *. cbn [words16 fold_right]. unfold is_byte in Z3. lia.
Qed.
(** validity of the header, in terms of the checksum field *)
Lemma ip4_valid_iff b : is_bytes b -> (20 <= length b)%nat ->
  ip4_valid b <-> folds_to (raw_sum (ip4_zeroed b) + ip4_checksum b) 65535.
Proof.
  intros IB L. unfold ip4_valid. rewrite sums_iff_folds by (apply is_bytes_firstn, IB).
  rewrite raw_zeroed by auto. replace (raw_sum (firstn 20 b) - ip4_checksum b + ip4_checksum b) with (raw_sum (firstn 20 b)) by lia.
  reflexivity.
Qed.
Lemma right_valid b : is_bytes b -> (20 <= length b)%nat -> ip4_checksum b = ip4_right_checksum b -> ip4_valid b.
Proof.
  intros IB L E. apply ip4_valid_iff; auto. rewrite E. unfold ip4_right_checksum, internet_checksum.
  pose proof (zeroed_bytes b IB) as ZB. apply fold_complement; [|apply oc_sum_folds, ZB].
  pose proof (raw_sum_bound _ ZB). lia.
Qed.
Lemma valid_right b : is_bytes b -> (20 <= length b)%nat -> byte_at b 0 = 69 ->
  ip4_checksum b = ip4_right_checksum b <-> ip4_valid b /\ ip4_checksum b <> 65535.
Proof.
  intros IB L B0. pose proof (raw_zeroed_pos b IB L B0) as P. pose proof (zeroed_bytes b IB) as ZB.
  pose proof (oc_sum_folds _ ZB) as (F1 & F2 & F3). pose proof (be16f_range b 10 IB ltac:(lia)) as R. fold (ip4_checksum b) in R.
  split.
  - intros E. split; [apply right_valid; auto|]. rewrite E. unfold ip4_right_checksum, internet_checksum. lia.
  - intros [V N]. apply ip4_valid_iff in V; auto. destruct V as (_ & V2 & _). rewrite Z_mod_same_full in V2.
    unfold ip4_right_checksum, internet_checksum.
    set (S := raw_sum (ip4_zeroed b)) in *. set (f := oc_sum (ip4_zeroed b)) in *. set (c := ip4_checksum b) in *.
    assert (X : (f + c) mod 65535 = 0) by (rewrite Zplus_mod, F2, <- Zplus_mod; auto).
    assert (f <> 0) by lia. clearbody S f c. clear - X F1 R N H. lia.
Qed.

(** ** Computing with spliced byte strings *)
Ltac slen := repeat (rewrite splice_length by slen); cbn [length put16 put32] in *; lia.
Ltac fields :=
  repeat first
   [ rewrite be16f_splice_same by slen | rewrite be16f_splice_disj by slen
   | rewrite be32f_splice_same by slen | rewrite be32f_splice_disj by slen
   | rewrite field_splice_disj by slen
   | rewrite nth_splice_same by slen | rewrite nth_splice_disj by slen ].
Lemma only_splices h s B B' (P : nat -> Prop) : vslice h s -> length B = s_len s -> length B' = s_len s ->
  (forall k, (k < s_len s)%nat -> ~ P k -> nth k B' 0 = nth k B 0) ->
  (forall k, P k \/ ~ P k) -> B = rd h s ->
  only_bytes h (set_rd h s B') s P.
Proof.
  intros V L L' H D E. destruct (only_set h s V B' L') as (A1 & A2 & A3). split; [exact A1|]. split; [exact A2|].
  intros a i N. destruct (A3 a i N) as (E1 & k & E2 & E3 & E4). split; [exact E1|]. exists k.
  split; [exact E2|]. split; [exact E3|]. destruct (D k) as [Y|Y]; [exact Y|]. exfalso. apply E4. subst B. auto.
Qed.
Lemma only_refl h s P : only_bytes h h s P.
Proof. split; [reflexivity|]. split; [reflexivity|]. intros a i N. congruence. Qed.

(** [Buffer p] is the first [n] bytes of slice s *)
Definition at_front (s : slice) (p : packet) (n : nat) : Prop :=
  Buffer p = win s 0 n (s_cap s) /\ (n <= s_len s)%nat.
Lemma at_front_all p : at_front (Buffer p) p (s_len (Buffer p)).
Proof. split; [symmetry; apply win_all|lia]. Qed.

Definition fix4 (b : bytes) (tl cs : Z) : bytes := splice (splice b 2 (put16 BE tl)) 10 (put16 BE cs).
Definition fix6 (b : bytes) (tl : Z) : bytes := splice b 4 (put16 BE (u16 (tl - 40))).
Definition fixip (v : ipver) (b : bytes) (tl cs : Z) : bytes :=
  match v with V4 => fix4 b tl cs | V6 => fix6 b tl end.
Lemma fixip_length v b tl cs : (20 <= length b)%nat -> length (fixip v b tl cs) = length b.
Proof. intros H. destruct v; unfold fixip, fix4, fix6; rewrite ?splice_length; rewrite ?splice_length; cbn [length put16]; lia. Qed.

Lemma fixup_run h s B p n old new cs : vslice h s -> length B = s_len s -> at_front s p n -> (hl p <= n)%nat ->
  ipHeaderLen p = Z.of_nat (hl p) ->
  incCsum16 (ipChecksum p) old new = Ok cs ->
  FixupIPHdrOnDataModify (set_rd h s B) p old new =
  Ok (with_total_csum p (u16 (u16 (ipTotalLength p + new) - old)) cs,
      set_rd h s (fixip (version p) B (u16 (u16 (ipTotalLength p + new) - old)) cs)).
Proof.
  intros V L [A1 A2] N H E. pose proof V as (_ & _ & V3). unfold FixupIPHdrOnDataModify. rewrite E. cbn [rbind].
  cbn [with_total_csum with_ip version Buffer ipHeaderLen]. rewrite A1.
  unfold hl in *. destruct (version p).
  - unfold ipv4LengthPos, ipv4ChecksumPos. rewrite put16_win by (auto; lia). cbn [rbind].
    rewrite put16_win by (rewrite ?splice_length; cbn [length put16]; auto; lia). reflexivity.
  - unfold ipv6PayloadLenPos. rewrite put16_win by (auto; lia). cbn [rbind]. rewrite H.
    unfold fixip, fix6. reflexivity.
Qed.

(** the checksum after the total length went from [old] to [new] *)
Lemma inc_valid b tot' old new cs : is_bytes b -> (20 <= length b)%nat -> byte_at b 0 = 69 ->
  0 <= old < 65536 -> 0 <= new < 65536 -> tot' = ip4_total b + new - old -> 0 <= tot' < 65536 ->
  incCsum16 (ip4_checksum b) old new = Ok cs ->
  0 <= cs < 65536 /\
  (ip4_valid b -> ip4_valid (fix4 b tot' cs)) /\
  (ip4_checksum b = ip4_right_checksum b -> ip4_checksum (fix4 b tot' cs) = ip4_right_checksum (fix4 b tot' cs)).
Proof.
  intros IB L B0 RO RN ET RT E.
  pose proof (be16f_range b 10 IB ltac:(lia)) as RC. fold (ip4_checksum b) in RC.
  destruct (incCsum_spec (ip4_checksum b) old new RC RO RN) as (f & E' & F1 & F2 & F3). rewrite E in E'. apply Ok_inj in E'.
  assert (R : 0 <= cs < 65536) by lia.
  assert (IB' : is_bytes (fix4 b tot' cs)).
  { unfold fix4. apply is_bytes_splice; [|apply is_bytes_put16]. apply is_bytes_splice; [exact IB|apply is_bytes_put16]. }
  assert (L' : length (fix4 b tot' cs) = length b) by (unfold fix4; slen).
  assert (B0' : byte_at (fix4 b tot' cs) 0 = 69).
  { unfold byte_at, fix4 in *. fields. exact B0. }
  assert (C' : ip4_checksum (fix4 b tot' cs) = cs).
  { unfold ip4_checksum, fix4. fields. lia. }
  assert (S' : raw_sum (ip4_zeroed (fix4 b tot' cs)) = raw_sum (ip4_zeroed b) + new - old).
  { rewrite !raw_zeroed by (auto; lia). rewrite C'. unfold fix4.
    rewrite firstn_splice by slen. rewrite firstn_splice by slen.
    assert (LF : length (firstn 20 b) = 20%nat) by (rewrite firstn_length; lia).
    rewrite raw_sum_splice2; [|reflexivity|slen|lia].
    rewrite raw_sum_splice2; [|reflexivity|slen|lia].
    rewrite be16f_splice_disj by slen. rewrite !be16f_firstn by lia.
    fold (ip4_total b). fold (ip4_checksum b). lia. }
  pose proof (raw_zeroed_pos b IB L B0) as P. 
  assert (P' : 0 < raw_sum (ip4_zeroed (fix4 b tot' cs))) by (apply raw_zeroed_pos; auto; lia).
  set (S := raw_sum (ip4_zeroed b)) in *. set (c := ip4_checksum b) in *.
  split; [exact R|].
  assert (VV : ip4_valid b -> ip4_valid (fix4 b tot' cs)).
  { intros X. apply ip4_valid_iff in X; auto. apply ip4_valid_iff; [auto|lia|]. rewrite C', S'.
    destruct X as (_ & X & _). fold S c in X. split; [lia|]. split.
    - rewrite Z_mod_same_full in X |- *. symmetry. rewrite E'. clear - X F2.
      replace (S + new - old + (65535 - f)) with ((S + c) - (c - new + old + f) + 1 * 65535) by lia.
      assert (Q : (c - new + old + f) mod 65535 = 0).
      { replace (c - new + old + f) with (f - (65535 - c + (65535 - old) + new) + 2 * 65535) by lia.
        rewrite Z_mod_plus_full, Zminus_mod, F2, Z.sub_diag. reflexivity. }
      rewrite Z_mod_plus_full, Zminus_mod, <- X, Q. reflexivity.
    - split; intros; [lia|]. rewrite S' in P'. lia. }
  split; [exact VV|].
  intros X. apply valid_right; [auto|lia|exact B0'|]. split; [apply VV; apply right_valid; auto|].
  rewrite C'. pose proof X as X'. unfold ip4_right_checksum, internet_checksum in X'.
  pose proof (oc_sum_folds _ (zeroed_bytes b IB)) as (G1 & _ & G3). fold S in G3. fold c in X'. lia.
Qed.

(** ** Facts from agreement *)
Lemma agrees_vslice h p : ip_agrees h p -> vslice h (Buffer p).
Proof.
  intros (V & _ & _ & M). apply valid_vslice; [exact V|]. rewrite <- (valid_len h (Buffer p) V).
  destruct (version p); lia.
Qed.
Lemma agrees_hl h p : ip_agrees h p -> ipHeaderLen p = Z.of_nat (hl p) /\ (hl p <= s_len (Buffer p))%nat /\ (20 <= hl p)%nat.
Proof.
  intros (V & _ & _ & M). rewrite <- (valid_len h (Buffer p) V). unfold hl. destruct (version p); intuition lia.
Qed.
Lemma agrees_ranges h p : ip_agrees h p -> 0 <= ipTotalLength p < 65536 /\ 0 <= ipChecksum p < 65536.
Proof.
  intros (V & IB & _ & M). destruct (version p).
  - destruct M as (L & _ & _ & _ & T & C & _). unfold IPTotalLen in T. rewrite T, C.
    split; apply be16f_range; auto; lia.
  - destruct M as (L & _ & _ & T & C & _). unfold IPTotalLen in T. split; [rewrite T; lia|exact C].
Qed.
Lemma field_firstn b o n m : (o + n <= m)%nat -> field (firstn m b) o n = field b o n.
Proof. intros H. unfold field. rewrite skipn_firstn_comm, firstn_firstn, Nat.min_l by lia. reflexivity. Qed.
Lemma be32f_firstn b o n : (o + 4 <= n)%nat -> be32f (firstn n b) o = be32f b o.
Proof. intros H. unfold be32f. now rewrite field_firstn by lia. Qed.
Lemma nth_firstn b o n : (o < n)%nat -> nth o (firstn n b) 0 = nth o b 0.
Proof. intros H. now apply nth_firstn'. Qed.
Ltac fields' :=
  repeat first
   [ rewrite be16f_firstn by lia | rewrite be32f_firstn by lia | rewrite field_firstn by lia | rewrite nth_firstn by lia ];
  fields.

(** agreement after the IP header was fixed up and the packet possibly cut *)
Lemma agrees_fixed h p p' n tl cs B' :
  ip_agrees h p -> (hl p <= n <= s_len (Buffer p))%nat ->
  version p' = version p -> ipHeaderLen p' = ipHeaderLen p -> ipProto p' = ipProto p ->
  sourceAddress p' = sourceAddress p -> destinationAddress p' = destinationAddress p ->
  Buffer p' = win (Buffer p) 0 n (s_cap (Buffer p)) ->
  ipTotalLength p' = tl -> ipChecksum p' = cs -> 0 <= tl < 65536 -> 0 <= cs < 65536 ->
  is_bytes B' -> length B' = s_len (Buffer p) ->
  firstn (hl p) B' = firstn (hl p) (fixip (version p) (rd h (Buffer p)) tl cs) ->
  ip_agrees (set_rd h (Buffer p) B') p'.
Proof.
  intros A N V' H' P' S' D' U' T' C' RT RC IB' L' F. pose proof (agrees_vslice h p A) as VS.
  pose proof (vslice_len h _ VS) as LB.
  destruct A as (V & IB & L & M). unfold ip_agrees.
  assert (R : rd (set_rd h (Buffer p) B') (Buffer p') = firstn n B').
  { rewrite U', rd_win by (auto; lia). reflexivity. }
  assert (LR : length (firstn n B') = n) by (rewrite firstn_length; lia).
  rewrite R. cbv zeta. rewrite LR. unfold IPProto, IPTotalLen, SourceAddress, DestinationAddress in *. rewrite V', P', T', C', S', D', H'.
  split. { apply set_rd_valid; auto. rewrite U'. unfold valid, win. cbn [s_len s_cap s_off s_arr].
           destruct VS as (W1 & W2 & W3). split; [lia|]. right. split; [exact W1|lia]. }
  split; [apply is_bytes_firstn, IB'|]. split; [rewrite U'; cbn; lia|].
  unfold hl, fixip in *. destruct (version p).
  - destruct M as (M1 & M2 & M3 & M4 & M5 & M6 & M7 & M8).
    assert (G : forall o m, (o + m <= 20)%nat -> field (firstn n B') o m = field (fix4 (rd h (Buffer p)) tl cs) o m).
    { intros o m Q. rewrite field_firstn by lia. rewrite <- (field_firstn _ o m 20) by lia. rewrite F. now rewrite field_firstn by lia. }
    assert (GN : forall o, (o < 20)%nat -> nth o (firstn n B') 0 = nth o (fix4 (rd h (Buffer p)) tl cs) 0).
    { intros o Q. rewrite nth_firstn by lia. rewrite <- (nth_firstn _ o 20) by lia. rewrite F. now rewrite nth_firstn by lia. }
    unfold byte_at, ip4_proto, ip4_total, ip4_checksum, ip4_src, ip4_dst, be16f in *. unfold byte_at in *.
    rewrite !G, !GN by lia. unfold fix4. 
    fold (be16f (splice (splice (rd h (Buffer p)) 2 (put16 BE tl)) 10 (put16 BE cs)) 2).
    fold (be16f (splice (splice (rd h (Buffer p)) 2 (put16 BE tl)) 10 (put16 BE cs)) 10).
    fields. repeat split; auto; try lia.
  - destruct M as (M1 & M2 & M3 & M4 & M5 & M6 & M7).
    assert (G : forall o m, (o + m <= 40)%nat -> field (firstn n B') o m = field (fix6 (rd h (Buffer p)) tl) o m).
    { intros o m Q. rewrite field_firstn by lia. rewrite <- (field_firstn _ o m 40) by lia. rewrite F. now rewrite field_firstn by lia. }
    assert (GN : forall o, (o < 40)%nat -> nth o (firstn n B') 0 = nth o (fix6 (rd h (Buffer p)) tl) 0).
    { intros o Q. rewrite nth_firstn by lia. rewrite <- (nth_firstn _ o 40) by lia. rewrite F. now rewrite nth_firstn by lia. }
    unfold ip6_next, ip6_payload, ip6_src, ip6_dst, be16f in *. unfold byte_at in *.
    rewrite !G, !GN by lia. unfold fix6.
    fold (be16f (splice (rd h (Buffer p)) 4 (put16 BE (u16 (tl - 40)))) 4).
    fields. unfold u16. repeat split; auto; try lia.
Qed.

(** ** C40 *)
Lemma incremental_update_v4 : forall h p old new,
  ip_agrees h p -> version p = V4 -> 0 <= old < 65536 -> 0 <= new < 65536 ->
  0 <= IPTotalLen p + new - old < 65536 ->
  exists p' h', FixupIPHdrOnDataModify h p old new = Ok (p', h') /\
    ip_agrees h' p' /\ Buffer p' = Buffer p /\ IPTotalLen p' = IPTotalLen p + new - old /\
    (ip4_valid (rd h (Buffer p)) -> ip4_valid (rd h' (Buffer p'))) /\
    (ip4_checksum (rd h (Buffer p)) = ip4_right_checksum (rd h (Buffer p)) ->
     ip4_checksum (rd h' (Buffer p')) = ip4_right_checksum (rd h' (Buffer p'))) /\
    only_bytes h h' (Buffer p) (fun k => (2 <= k < 4)%nat \/ (10 <= k < 12)%nat).
Proof.
  intros h p old new A V4' RO RN RT. unfold IPTotalLen in *.
  pose proof (agrees_vslice h p A) as VS. pose proof (vslice_len h _ VS) as LB.
  destruct (agrees_hl h p A) as (H1 & H2 & H3). destruct (agrees_ranges h p A) as (R1 & R2).
  destruct (incCsum_spec (ipChecksum p) old new R2 RO RN) as (f & E & F). set (cs := 65535 - f) in *.
  assert (RC : 0 <= cs < 65536) by (destruct F; unfold cs; lia).
  pose proof (fixup_run h (Buffer p) (rd h (Buffer p)) p (s_len (Buffer p)) old new cs VS LB (at_front_all p) H2 H1 E) as X.
  rewrite set_rd_same in X by exact VS. rewrite X.
  assert (TL : u16 (u16 (ipTotalLength p + new) - old) = ipTotalLength p + new - old) by (unfold u16; lia).
  rewrite TL in *. set (tl := ipTotalLength p + new - old) in *.
  destruct A as (AV & IB & AL & M). rewrite V4' in *. destruct M as (M1 & M2 & M3 & M4 & M5 & M6 & M7 & M8).
  rewrite LB in M1.
  do 2 eexists. split; [reflexivity|].
  assert (IB' : is_bytes (fix4 (rd h (Buffer p)) tl cs)).
  { unfold fix4. apply is_bytes_splice; [|apply is_bytes_put16]. apply is_bytes_splice; [exact IB|apply is_bytes_put16]. }
  assert (L' : length (fix4 (rd h (Buffer p)) tl cs) = s_len (Buffer p)) by (unfold fix4; slen).
  split.
  { apply (agrees_fixed h p _ (s_len (Buffer p)) tl cs); auto; try lia.
    - unfold ip_agrees. rewrite V4'. cbv zeta. rewrite LB. repeat split; auto; apply AV.
    - symmetry. apply win_all.
    - unfold fixip. rewrite V4'. reflexivity. }
  split; [reflexivity|]. split; [reflexivity|].
  cbn [with_total_csum with_ip Buffer]. unfold fixip. rewrite rd_set by (auto; slen).
  rewrite M6 in E.
  destruct (inc_valid (rd h (Buffer p)) tl old new cs IB ltac:(lia) M2 RO RN ltac:(unfold tl; rewrite <- M5; reflexivity) RT E) as (_ & I1 & I2).
  split; [exact I1|]. split; [exact I2|].
  apply only_splices with (B := rd h (Buffer p)); auto; try lia.
  intros k K NK. unfold fix4. rewrite !nth_splice_disj by slen. reflexivity.
Qed.
Lemma incremental_update_v6 : forall h p old new,
  ip_agrees h p -> version p = V6 -> 0 <= old < 65536 -> 0 <= new < 65536 ->
  0 <= IPTotalLen p + new - old < 65536 ->
  exists p' h', FixupIPHdrOnDataModify h p old new = Ok (p', h') /\
    ip_agrees h' p' /\ Buffer p' = Buffer p /\ IPTotalLen p' = IPTotalLen p + new - old /\
    only_bytes h h' (Buffer p) (fun k => (4 <= k < 6)%nat).
Proof.
  intros h p old new A V6' RO RN RT. unfold IPTotalLen in *.
  pose proof (agrees_vslice h p A) as VS. pose proof (vslice_len h _ VS) as LB.
  destruct (agrees_hl h p A) as (H1 & H2 & H3). destruct (agrees_ranges h p A) as (R1 & R2).
  destruct (incCsum_spec (ipChecksum p) old new R2 RO RN) as (f & E & F). set (cs := 65535 - f) in *.
  assert (RC : 0 <= cs < 65536) by (destruct F; unfold cs; lia).
  pose proof (fixup_run h (Buffer p) (rd h (Buffer p)) p (s_len (Buffer p)) old new cs VS LB (at_front_all p) H2 H1 E) as X.
  rewrite set_rd_same in X by exact VS. rewrite X.
  assert (TL : u16 (u16 (ipTotalLength p + new) - old) = ipTotalLength p + new - old) by (unfold u16; lia).
  rewrite TL in *. set (tl := ipTotalLength p + new - old) in *.
  assert (L40 : (40 <= s_len (Buffer p))%nat) by (unfold hl in H2; rewrite V6' in H2; exact H2).
  do 2 eexists. split; [reflexivity|]. rewrite V6'. cbn [fixip].
  assert (L' : length (fix6 (rd h (Buffer p)) tl) = s_len (Buffer p)) by (unfold fix6; slen).
  split.
  { apply (agrees_fixed h p _ (s_len (Buffer p)) tl cs); auto; try lia.
    - symmetry. apply win_all.
    - unfold fix6. apply is_bytes_splice; [apply A|apply is_bytes_put16].
    - rewrite V6'. reflexivity. }
  split; [reflexivity|]. split; [reflexivity|].
  apply only_splices with (B := rd h (Buffer p)); auto; try lia.
  intros k K NK. unfold fix6. rewrite !nth_splice_disj by slen. reflexivity.
Qed.

(** ** C41 *)
Lemma splice_field B o n : (o + n <= length B)%nat -> splice B o (field B o n) = B.
Proof.
  intros H. apply nth_ext_len with 0.
  - rewrite splice_length; [reflexivity|]. rewrite field_length; lia.
  - intros j J. rewrite nth_splice by (rewrite field_length; lia). rewrite field_length by lia.
    destruct (Nat.leb_spec o j), (Nat.ltb_spec j (o + n)); cbn [andb]; try reflexivity.
    unfold field. rewrite nth_firstn' by lia. rewrite nth_skipn'. f_equal. lia.
Qed.
Lemma compute4_run h s B p n : vslice h s -> length B = s_len s -> at_front s p n -> (20 <= n)%nat ->
  ipHeaderLen p = 20 -> is_bytes B ->
  computeIPv4Checksum (set_rd h s B) p =
  Ok (ip4_right_checksum B, set_rd h s (splice B 10 (put16 BE (ipChecksum p)))).
Proof.
  intros V L [A1 A2] N H IB. pose proof V as (_ & _ & V3). unfold computeIPv4Checksum. rewrite A1, H.
  unfold ipv4ChecksumPos.
  rewrite wr_win by (auto; try (unfold zlen; cbn [length]; lia)). cbn [rbind].
  rewrite wr_win by (rewrite ?splice_length; auto; try (unfold zlen; cbn [length]; lia)). cbn [rbind].
  cbn [Nat.add]. change (Z.to_nat (10 + 1)) with (10 + 1)%nat. change (Z.to_nat 10) with 10%nat.
  rewrite splice_twice by lia.
  rewrite resl_to_ok by (cbn [win s_cap]; lia). cbn [rbind win s_arr s_off].
  change (mkSl (s_arr s) (s_off s + 0) (Z.to_nat 20) (s_cap (win s 0 n (s_cap s)))) with (win s 0 20 (s_cap s)).
  rewrite rd_win by (rewrite ?splice_length; cbn [length]; auto; lia). cbn [skipn].
  rewrite firstn_splice by slen. rewrite <- ip4_zeroed_splice by lia.
  rewrite checksum_spec.
  - cbn [rbind]. fold (win s 0 n (s_cap s)). rewrite put16_win by (rewrite ?splice_length; cbn [length]; auto; lia). cbn [rbind].
    change (0 + Z.to_nat 10)%nat with 10%nat. rewrite splice_same_twice by slen. reflexivity.
  - apply zeroed_bytes, IB.
  - unfold zlen, ip4_zeroed. rewrite app_length, firstn_length, app_length, field_length by lia. cbn [length]. lia.
Qed.
Lemma ip4_right_range b : is_bytes b -> 0 <= ip4_right_checksum b < 65536.
Proof. intros IB. pose proof (oc_sum_range _ (zeroed_bytes b IB)). unfold ip4_right_checksum, internet_checksum. lia. Qed.
Lemma ip4_zeroed_upd b v : (20 <= length b)%nat -> ip4_zeroed (splice b 10 (put16 BE v)) = ip4_zeroed b.
Proof.
  intros L. rewrite !ip4_zeroed_splice by slen. rewrite firstn_splice by slen.
  apply splice_same_twice; [reflexivity|]. rewrite firstn_length. cbn [length put16]. lia.
Qed.

Lemma verify_ipv4 : forall h p, ip_agrees h p -> version p = V4 ->
  exists b, VerifyIPv4Checksum h p = Ok (b, h) /\
    (b = true <-> ip4_checksum (rd h (Buffer p)) = ip4_right_checksum (rd h (Buffer p))) /\
    (b = true <-> ip4_valid (rd h (Buffer p)) /\ ip4_checksum (rd h (Buffer p)) <> 65535).
Proof.
  intros h p A V4'. pose proof (agrees_vslice h p A) as VS. pose proof (vslice_len h _ VS) as LB.
  destruct A as (AV & IB & AL & M). rewrite V4' in M. destruct M as (M1 & M2 & M3 & M4 & M5 & M6 & M7 & M8).
  pose proof (compute4_run h (Buffer p) (rd h (Buffer p)) p (s_len (Buffer p)) VS LB (at_front_all p) ltac:(lia) M3 IB) as X.
  rewrite M6 in X. unfold ip4_checksum in X. rewrite put16_be16f in X by (auto; lia).
  rewrite splice_field in X by lia. rewrite set_rd_same in X by exact VS.
  unfold VerifyIPv4Checksum. rewrite X. cbn [rbind fst snd]. eexists. split; [reflexivity|].
  assert (Y : (ip4_right_checksum (rd h (Buffer p)) =? ipChecksum p) = true <->
              ip4_checksum (rd h (Buffer p)) = ip4_right_checksum (rd h (Buffer p))).
  { rewrite Z.eqb_eq, M6. split; auto. }
  split; [exact Y|]. rewrite Y. apply valid_right; auto.
Qed.
Lemma update_ipv4_run h p : ip_agrees h p -> version p = V4 ->
  UpdateIPv4Checksum h p =
  Ok (with_total_csum p (ipTotalLength p) (ip4_right_checksum (rd h (Buffer p))),
      set_rd h (Buffer p) (splice (rd h (Buffer p)) 10 (put16 BE (ip4_right_checksum (rd h (Buffer p)))))).
Proof.
  intros A V4'. pose proof (agrees_vslice h p A) as VS. pose proof (vslice_len h _ VS) as LB.
  destruct A as (AV & IB & AL & M). rewrite V4' in M. destruct M as (M1 & M2 & M3 & M4 & M5 & M6 & M7 & M8).
  pose proof (compute4_run h (Buffer p) (rd h (Buffer p)) p (s_len (Buffer p)) VS LB (at_front_all p) ltac:(lia) M3 IB) as X.
  rewrite M6 in X. unfold ip4_checksum in X. rewrite put16_be16f in X by (auto; lia).
  rewrite splice_field in X by lia. rewrite set_rd_same in X by exact VS.
  unfold UpdateIPv4Checksum. rewrite X. cbn [rbind fst snd with_total_csum with_ip Buffer ipChecksum].
  pose proof VS as (_ & _ & VC).
  pose proof (put16_win h (Buffer p) VS (rd h (Buffer p)) LB 0 (s_len (Buffer p)) (s_cap (Buffer p)) 10
    (ip4_right_checksum (rd h (Buffer p))) ltac:(cbn; lia) ltac:(lia) ltac:(lia)) as Y.
  rewrite (set_rd_same h (Buffer p) VS), (win_all (Buffer p)) in Y. unfold ipv4ChecksumPos. rewrite Y. reflexivity.
Qed.
Lemma update_ipv4 : forall h p, ip_agrees h p -> version p = V4 ->
  exists p' h', UpdateIPv4Checksum h p = Ok (p', h') /\
    ip_agrees h' p' /\ Buffer p' = Buffer p /\ IPTotalLen p' = IPTotalLen p /\
    ip4_valid (rd h' (Buffer p')) /\
    ip4_checksum (rd h' (Buffer p')) = ip4_right_checksum (rd h' (Buffer p')) /\
    VerifyIPv4Checksum h' p' = Ok (true, h') /\
    only_bytes h h' (Buffer p) (fun k => (10 <= k < 12)%nat).
Proof.
  intros h p A V4'. pose proof (agrees_vslice h p A) as VS. pose proof (vslice_len h _ VS) as LB.
  rewrite (update_ipv4_run h p A V4'). do 2 eexists. split; [reflexivity|].
  pose proof A as (AV & IB & AL & M). rewrite V4' in M. destruct M as (M1 & M2 & M3 & M4 & M5 & M6 & M7 & M8).
  pose proof (ip4_right_range _ IB) as RR. set (cs := ip4_right_checksum (rd h (Buffer p))) in *.
  set (B' := splice (rd h (Buffer p)) 10 (put16 BE cs)).
  assert (L' : length B' = s_len (Buffer p)) by (unfold B'; slen).
  destruct (agrees_ranges h p A) as (R1 & R2).
  assert (A' : ip_agrees (set_rd h (Buffer p) B') (with_total_csum p (ipTotalLength p) cs)).
  { apply (agrees_fixed h p _ (s_len (Buffer p)) (ipTotalLength p) cs); auto; try lia.
    - unfold hl. rewrite V4'. lia.
    - symmetry. apply win_all.
    - apply is_bytes_splice; [exact IB|apply is_bytes_put16].
    - rewrite V4'. unfold hl, fixip, fix4, B'. rewrite V4'. f_equal. f_equal.
      unfold IPTotalLen in M5. rewrite M5. unfold ip4_total. rewrite put16_be16f by (auto; lia).
      symmetry. apply splice_field. lia. }
  assert (RB : rd (set_rd h (Buffer p) B') (Buffer p) = B') by (apply rd_set; auto).
  assert (CR : ip4_checksum B' = ip4_right_checksum B').
  { unfold ip4_right_checksum, B' at 2. rewrite ip4_zeroed_upd by lia. fold (ip4_right_checksum (rd h (Buffer p))). fold cs.
    unfold ip4_checksum, B'. fields. lia. }
  split; [exact A'|]. split; [reflexivity|]. split; [reflexivity|].
  cbn [with_total_csum with_ip Buffer]. rewrite RB.
  assert (IB' : is_bytes B') by (apply is_bytes_splice; [exact IB|apply is_bytes_put16]).
  split; [apply right_valid; auto; lia|]. split; [exact CR|]. split.
  - destruct (verify_ipv4 _ _ A' V4') as (b & E & I & _). rewrite E.
    cbn [with_total_csum with_ip Buffer] in I. rewrite RB in I. rewrite (proj2 I CR). reflexivity.
  - apply only_splices with (B := rd h (Buffer p)); auto; try lia.
    intros k K NK. unfold B'. rewrite nth_splice_disj by slen. reflexivity.
Qed.
