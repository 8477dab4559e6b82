(** The TCP checksum of segments sent in pieces of odd length (C42). *)
From Verif Require Export Proof.PktCsum Spec.OddSpec.

(** a byte string placed at an odd octet counts 256-fold *)
Lemma raw_shift x b : (raw_sum (x :: b) - (256 * x + 256 * raw_sum b)) mod 65535 = 0.
Proof.
  revert x. remember (length b) as n eqn:E. revert b E. induction n as [n IH] using lt_wf_ind. intros b E x.
  destruct b as [|y [|z r]].
  - cbn [raw_sum words16 fold_right]. unfold raw_sum. cbn [words16 fold_right]. lia.
  - unfold raw_sum. cbn [words16 fold_right]. lia.
  - assert (R1 : raw_sum (x :: y :: z :: r) = x * 256 + y + raw_sum (z :: r)) by reflexivity.
    assert (R2 : raw_sum (y :: z :: r) = y * 256 + z + raw_sum r) by reflexivity.
    pose proof (IH (length r) ltac:(subst; cbn; lia) r eq_refl z) as X. rewrite R1, R2. 
    generalize dependent (raw_sum (z :: r)). generalize (raw_sum r). intros. lia.
Qed.
Lemma even_snoc {A} (a : list A) : Nat.even (length a) = false -> exists a' x, a = a' ++ [x] /\ Nat.even (length a') = true.
Proof.
  destruct a as [|x a] using rev_ind; intros E; [discriminate|]. clear IHa. exists a, x. split; [reflexivity|].
  rewrite app_length in E. cbn [length] in E. rewrite Nat.add_1_r, Nat.even_succ, <- Nat.negb_even in E.
  destruct (Nat.even (length a)); [reflexivity|discriminate].
Qed.
Lemma raw_odd_app a b : Nat.even (length a) = false -> (raw_sum (a ++ b) - (raw_sum a + 256 * raw_sum b)) mod 65535 = 0.
Proof.
  intros E. destruct (even_snoc a E) as (a' & x & -> & E'). rewrite <- app_assoc. rewrite !(raw_sum_app a') by exact E'.
  cbn [app]. assert (R : raw_sum [x] = x * 256 + 0) by reflexivity. rewrite R. pose proof (raw_shift x b). lia.
Qed.
Lemma raw_even_len b : raw_sum (even_len b) = raw_sum b.
Proof.
  unfold even_len. destruct (Nat.even (length b)) eqn:E; [now rewrite app_nil_r|].
  destruct (even_snoc b E) as (a & x & -> & E'). rewrite <- app_assoc, !(raw_sum_app a) by exact E'. f_equal.
  unfold raw_sum. cbn [app words16 fold_right]. lia.
Qed.
Lemma even_even_len b : Nat.even (length (even_len b)) = true.
Proof.
  unfold even_len. rewrite app_length. destruct (Nat.even (length b)) eqn:E; [now rewrite Nat.add_0_r|].
  cbn [length]. rewrite Nat.add_1_r, Nat.even_succ, <- Nat.negb_even, E. reflexivity.
Qed.
Lemma bytes_even_len b : is_bytes b -> is_bytes (even_len b).
Proof.
  intros H. unfold even_len. apply is_bytes_app. split; [exact H|]. destruct (Nat.even _); repeat constructor; unfold is_byte; lia.
Qed.

Lemma is_bytes_4 w x y z : is_bytes w -> is_bytes x -> is_bytes y -> is_bytes z -> is_bytes (w ++ x ++ y ++ z).
Proof. intros. repeat (apply is_bytes_app; split); assumption. Qed.
Lemma is_bytes_3 x y z : is_bytes x -> is_bytes y -> is_bytes z -> is_bytes (x ++ y ++ z).
Proof. intros. repeat (apply is_bytes_app; split); assumption. Qed.

Section P.
Context (h : heap) (p : packet) (A : ip_agrees h p) (L20 : (hl p + 20 <= s_len (Buffer p))%nat) (AO : attached_ok h p).
Notation b := (rd h (Buffer p)).
Notation o := (rd h (tcpOptions p)).
Notation d := (rd h (tcpData p)).
Notation zs := (l4_zeroed 16 (skipn (hl p) b)).
Notation P0 := (pseudo (version p) b PROTO_TCP (zlen (skipn (hl p) (GetTCPBytes h p)))).

Lemma odd_facts : length b = s_len (Buffer p) /\ length o = s_len (tcpOptions p) /\ length d = s_len (tcpData p) /\
  is_bytes b /\ is_bytes o /\ is_bytes d /\ (s_len (Buffer p) + s_len (tcpOptions p) + s_len (tcpData p) < Z.to_nat 65536)%nat /\
  (match version p with V4 => 20 | V6 => 40 end <= length b)%nat /\
  zlen (skipn (hl p) (GetTCPBytes h p)) = Z.of_nat (s_len (Buffer p) - hl p + s_len (tcpOptions p) + s_len (tcpData p)) /\
  is_bytes zs /\ length zs = (s_len (Buffer p) - hl p)%nat /\ Nat.even (length zs) = Nat.even (s_len (Buffer p)) /\
  is_bytes P0 /\ Nat.even (length P0) = true /\ 0 < raw_sum P0.
Proof.
  facts A. destruct AO as (O1 & O2 & O3 & O4 & O5 & O6 & O7). assert (IB : is_bytes b) by apply A.
  assert (LO : length o = s_len (tcpOptions p)) by (apply valid_len; auto).
  assert (LD : length d = s_len (tcpData p)) by (apply valid_len; auto).
  rewrite emitted_eq in O7. unfold zlen in O7. rewrite !app_length, LO, LD, LB in O7.
  assert (HB : (match version p with V4 => 20 | V6 => 40 end <= length b)%nat) by (rewrite <- hl_match; lia).
  assert (ZL : zlen (skipn (hl p) (GetTCPBytes h p)) = Z.of_nat (s_len (Buffer p) - hl p + s_len (tcpOptions p) + s_len (tcpData p))).
  { rewrite emitted_eq. unfold zlen. rewrite skipn_length, !app_length, LO, LD, LB. lia. }
  assert (LZ : length zs = (s_len (Buffer p) - hl p)%nat).
  { unfold l4_zeroed. rewrite !app_length, firstn_length, !skipn_length. cbn [length]. lia. }
  split; [exact LB|]. split; [exact LO|]. split; [exact LD|]. split; [exact IB|]. split; [exact O3|]. split; [exact O4|].
  split; [lia|]. split; [exact HB|]. split; [exact ZL|]. split; [apply l4_zeroed_bytes, is_bytes_skipn, IB|]. split; [exact LZ|].
  split. { rewrite LZ. assert (Nat.even (hl p) = true) by (unfold hl; destruct (version p); reflexivity).
    rewrite Nat.even_sub by lia. rewrite H. destruct (Nat.even (s_len (Buffer p))); reflexivity. }
  split; [apply pseudo_bytes; [exact IB|unfold PROTO_TCP; lia|lia]|]. split; [apply pseudo_even; exact HB|].
  apply pseudo_pos; [exact IB|exact HB|unfold PROTO_TCP; lia|lia].
Qed.

Lemma compute_exact : computeTCPChecksum h p = Ok (piecewise_checksum h p, h).
Proof.
  destruct odd_facts as (LB & LO & LD & IB & IO & ID & LT & HB & ZL & IZ & LZ & EZ & IP & EP & PP).
  rewrite (tcp_compute_raw h p A L20 AO). unfold tcp_pieces, tcp_zeroed, tcp_len.
  set (len := u16 _).
  assert (LEN : len = zlen (skipn (hl p) (GetTCPBytes h p))) by (rewrite ZL; unfold len, u16; lia).
  assert (RL : 0 <= len < 65536) by (unfold len, u16; lia).
  assert (ZE : skipn (hl p) (splice b (hl p + 16) [0; 0]) = zs).
  { rewrite l4_zeroed_splice by (rewrite skipn_length; lia). rewrite skipn_splice by slen. f_equal. lia. }
  rewrite ZE, LEN.
  set (W := pseudo_pieces (version p) b PROTO_TCP (zlen (skipn (hl p) (GetTCPBytes h p)))).
  assert (FL : fold_left partialChecksum W 0 = raw_sum P0).
  { rewrite <- (app_nil_r P0), pseudo_raw by (auto; lia). fold W. change (fold_left partialChecksum W 0) with (partialChecksum (csum_pieces 0 W) []).
    rewrite csum_pieces_spec; [lia| | |apply pieces_even; exact HB|lia|].
    - apply pieces_bytes; [exact IB|unfold PROTO_TCP; lia].
    - constructor.
    - unfold W. rewrite <- pseudo_raw by (auto; lia). rewrite app_nil_r. pose proof (raw_sum_bound _ IP) as B.
      assert (Hp : zlen P0 <= 40).
      { unfold zlen. destruct (version p); unfold pseudo, pseudo4, pseudo6, ip4_src, ip4_dst, ip6_src, ip6_dst; rewrite !app_length, !field_length by lia; cbn [length]; lia. }
      lia. }
  rewrite FL. 
  assert (Hp : zlen P0 <= 40).
  { unfold zlen. destruct (version p); unfold pseudo, pseudo4, pseudo6, ip4_src, ip4_dst, ip6_src, ip6_dst; rewrite !app_length, !field_length by lia; cbn [length]; lia. }
  pose proof (raw_sum_bound _ IP) as B0. pose proof (raw_sum_bound _ IZ) as B1. pose proof (raw_sum_bound _ IO) as B2. pose proof (raw_sum_bound _ ID) as B3.
  unfold zlen in B1, B2, B3. rewrite LZ in B1. rewrite LO in B2. rewrite LD in B3.
  unfold partialChecksum.
  rewrite (checksumDelta_spec zs) by (auto; lia). rewrite (checksumDelta_spec o) by (auto; lia). rewrite (checksumDelta_spec d) by (auto; lia).
  assert (RS : raw_sum P0 + raw_sum zs + raw_sum o + raw_sum d = raw_sum (P0 ++ even_len zs ++ even_len o ++ d)).
  { rewrite raw_sum_app by exact EP. rewrite (raw_sum_app (even_len zs)) by apply even_even_len.
    rewrite (raw_sum_app (even_len o)) by apply even_even_len. rewrite !raw_even_len. lia. }
  rewrite RS, finalize_spec; [reflexivity| |rewrite <- RS; lia].
  apply is_bytes_4; auto; apply bytes_even_len; auto.
Qed.

(** the piecewise checksum is the right one iff the misplaced words sum to a multiple of 257 *)
Lemma piecewise_right : piecewise_checksum h p = l4_right_checksum (version p) (hl p) PROTO_TCP 16 (GetTCPBytes h p) <->
  misaligned h p mod 257 = 0.
Proof.
  destruct odd_facts as (LB & LO & LD & IB & IO & ID & LT & HB & ZL & IZ & LZ & EZ & IP & EP & PP).
  unfold piecewise_checksum, l4_right_checksum.
  assert (Q1 : pseudo (version p) (GetTCPBytes h p) PROTO_TCP (zlen (skipn (hl p) (GetTCPBytes h p))) = P0).
  { rewrite emitted_eq at 1. apply pseudo_app, HB. }
  assert (Q2 : l4_zeroed 16 (skipn (hl p) (GetTCPBytes h p)) = zs ++ o ++ d).
  { rewrite emitted_eq, skipn_app_le by lia. rewrite !l4_zeroed_splice by (rewrite ?app_length, skipn_length; lia).
    apply splice_app_l. rewrite skipn_length. cbn [length put16]. lia. }
  rewrite Q1, Q2.
  set (X := P0 ++ even_len zs ++ even_len o ++ d). set (Y := P0 ++ zs ++ o ++ d).
  assert (IX : is_bytes X) by (unfold X; apply is_bytes_4; auto; apply bytes_even_len; auto).
  assert (IY : is_bytes Y) by (unfold Y; apply is_bytes_4; auto).
  assert (RX : raw_sum X = raw_sum P0 + raw_sum zs + raw_sum o + raw_sum d).
  { unfold X. rewrite raw_sum_app by exact EP. rewrite (raw_sum_app (even_len zs)) by apply even_even_len.
    rewrite (raw_sum_app (even_len o)) by apply even_even_len. rewrite !raw_even_len. lia. }
  assert (RY : (raw_sum Y - (raw_sum X + 255 * misaligned h p)) mod 65535 = 0).
  { unfold Y. rewrite raw_sum_app by exact EP. rewrite RX. unfold misaligned. rewrite <- EZ.
    change (word_sum o) with (raw_sum o). change (word_sum d) with (raw_sum d).
    rewrite Nat.even_add, <- EZ, <- LO.
    assert (OD : if Nat.even (length o) then raw_sum (o ++ d) = raw_sum o + raw_sum d else (raw_sum (o ++ d) - (raw_sum o + 256 * raw_sum d)) mod 65535 = 0).
    { destruct (Nat.even (length o)) eqn:E; [apply raw_sum_app, E|apply raw_odd_app, E]. }
    assert (ZD : if Nat.even (length zs) then raw_sum (zs ++ o ++ d) = raw_sum zs + raw_sum (o ++ d) else (raw_sum (zs ++ o ++ d) - (raw_sum zs + 256 * raw_sum (o ++ d))) mod 65535 = 0).
    { destruct (Nat.even (length zs)) eqn:E; [apply raw_sum_app, E|apply raw_odd_app, E]. }
    destruct (Nat.even (length zs)), (Nat.even (length o)); cbn [eqb]; lia. }
  pose proof (oc_sum_folds _ IX) as (F1 & F2 & F3). pose proof (oc_sum_folds _ IY) as (G1 & G2 & G3).
  pose proof (raw_sum_bound _ IZ). pose proof (raw_sum_bound _ IO). pose proof (raw_sum_bound _ ID).
  assert (PX : 0 < raw_sum X) by lia.
  assert (PY : 0 < raw_sum Y).
  { unfold Y. rewrite raw_sum_app by exact EP. assert (IQ : is_bytes (zs ++ o ++ d)) by (apply is_bytes_3; auto).
    pose proof (raw_sum_bound _ IQ). lia. }
  unfold internet_checksum. set (x := oc_sum X) in *. set (y := oc_sum Y) in *. set (rx := raw_sum X) in *. set (ry := raw_sum Y) in *.
  set (m := misaligned h p) in *. clearbody x y rx ry m. clear - F1 F2 F3 G1 G2 G3 PX PY RY.
  assert (E1 : 65535 - x = 65535 - y <-> rx mod 65535 = ry mod 65535).
  { rewrite <- F2, <- G2. assert (x <> 0) by lia. assert (y <> 0) by lia. split; [intros; f_equal; lia|]. clear F2 G2 RY. intros. lia. }
  rewrite E1. clear - RY. 
  assert (E2 : rx mod 65535 = ry mod 65535 <-> (255 * m) mod 65535 = 0) by lia. rewrite E2.
  assert (E3 : (255 * m) mod 65535 = 255 * (m mod 257)). { change 65535 with (255 * 257). apply Z.mul_mod_distr_l; lia. }
  rewrite E3. lia.
Qed.

Lemma piecewise_range : 0 <= piecewise_checksum h p < 65535.
Proof.
  destruct odd_facts as (LB & LO & LD & IB & IO & ID & LT & HB & ZL & IZ & LZ & EZ & IP & EP & PP).
  unfold piecewise_checksum. set (X := P0 ++ _).
  assert (IX : is_bytes X) by (unfold X; apply is_bytes_4; auto; apply bytes_even_len; auto).
  pose proof (oc_sum_folds _ IX) as (F1 & F2 & F3). unfold internet_checksum.
  assert (0 < raw_sum X). { unfold X. rewrite raw_sum_app by exact EP.
    match goal with |- 0 < _ + raw_sum ?Q => assert (IQ : is_bytes Q) by (apply is_bytes_3; auto; apply bytes_even_len; auto); pose proof (raw_sum_bound _ IQ) end. lia. }
  lia.
Qed.
End P.

Lemma valid_iff_right h p : tcp_agrees h p -> attached_ok h p ->
  (tcp_checksum (rd h (Buffer p)) (hl p) = l4_right_checksum (version p) (hl p) PROTO_TCP 16 (GetTCPBytes h p) <->
   l4_valid (version p) (hl p) PROTO_TCP (GetTCPBytes h p) /\ tcp_checksum (rd h (Buffer p)) (hl p) <> 65535).
Proof.
  intros T AO. pose proof T as (A & P & L & S). facts A. rewrite LB in L. set (b := rd h (Buffer p)) in *.
  destruct AO as (O1 & O2 & O3 & O4 & O5 & O6 & O7). rewrite emitted_eq in *. fold b in O7 |- *.
  set (x := rd h (tcpOptions p) ++ rd h (tcpData p)) in *.
  assert (IX : is_bytes x) by (apply is_bytes_app; auto). assert (IB : is_bytes b) by apply A.
  unfold l4_right_checksum, l4_valid. rewrite skipn_app_le by lia.
  assert (SE : tcp_checksum b (hl p) = be16f (skipn (hl p) b ++ x) 16).
  { unfold tcp_checksum, be16f. unfold field. rewrite skipn_app_le by (rewrite skipn_length; lia).
    rewrite skipn_skipn, (Nat.add_comm 16). rewrite firstn_app_le by (rewrite skipn_length; lia). reflexivity. }
  rewrite SE. unfold zlen in *. rewrite app_length in O7.
  apply l4_check_iff.
  - apply pseudo_bytes; [apply is_bytes_app; auto|unfold PROTO_TCP; lia|]. rewrite app_length, skipn_length. lia.
  - apply is_bytes_app. split; [apply is_bytes_skipn, IB|exact IX].
  - apply pseudo_even. rewrite <- hl_match, app_length. lia.
  - reflexivity.
  - rewrite app_length, skipn_length. lia.
  - apply pseudo_pos; [apply is_bytes_app; auto|rewrite <- hl_match, app_length; lia|unfold PROTO_TCP; lia|].
    rewrite app_length, skipn_length. lia.
Qed.

(** verification, for pieces of any length *)
Lemma verify_exact : forall h p, tcp_agrees h p -> attached_ok h p ->
  exists b, VerifyTCPChecksum h p = Ok (b, h) /\
    (b = true <-> tcp_checksum (rd h (Buffer p)) (hl p) = piecewise_checksum h p) /\
    (l4_valid (version p) (hl p) PROTO_TCP (GetTCPBytes h p) ->
       (b = true <-> tcp_checksum (rd h (Buffer p)) (hl p) <> 65535 /\ misaligned h p mod 257 = 0)).
Proof.
  intros h p T AO. pose proof T as (A & P & L & S). facts A. rewrite LB in L.
  unfold VerifyTCPChecksum. rewrite (compute_exact h p A L AO). cbn [rbind fst snd]. eexists. split; [reflexivity|].
  destruct S as (_ & _ & _ & _ & _ & _ & S7). rewrite S7.
  assert (Y : (piecewise_checksum h p =? tcp_checksum (rd h (Buffer p)) (hl p)) = true <-> tcp_checksum (rd h (Buffer p)) (hl p) = piecewise_checksum h p).
  { rewrite Z.eqb_eq. split; auto. }
  split; [exact Y|]. rewrite Y. intros V. rewrite <- (piecewise_right h p A L AO).
  pose proof (valid_iff_right h p T AO) as R. pose proof (piecewise_range h p A L AO) as PR.
  split.
  - intros E. assert (N : tcp_checksum (rd h (Buffer p)) (hl p) <> 65535) by lia. split; [exact N|]. rewrite <- E. apply R. auto.
  - intros (N & E). rewrite E. apply R. auto.
Qed.

(** updating, for pieces of any length *)
Lemma update_exact : forall h p, tcp_agrees h p -> attached_ok h p ->
  exists p' h', UpdateTCPChecksum h p = Ok (p', h') /\ tcp_agrees h' p' /\
    Buffer p' = Buffer p /\ tcpOptions p' = tcpOptions p /\ tcpData p' = tcpData p /\
    tcp_checksum (rd h' (Buffer p')) (hl p') = piecewise_checksum h p /\
    (l4_valid (version p') (hl p') PROTO_TCP (GetTCPBytes h' p') <-> misaligned h p mod 257 = 0) /\
    VerifyTCPChecksum h' p' = Ok (true, h') /\
    only_bytes h h' (Buffer p) (fun k => (hl p + 16 <= k < hl p + 18)%nat) /\
    rd h' (tcpOptions p) = rd h (tcpOptions p) /\ rd h' (tcpData p) = rd h (tcpData p).
Proof.
  intros h p T AO. pose proof T as (A & P & L & S). facts A. rewrite LB in L.
  unfold UpdateTCPChecksum. rewrite HL1.
  pose proof (resl_from_win (Buffer p) 0 (s_len (Buffer p)) (s_cap (Buffer p)) (Z.of_nat (hl p)) ltac:(lia) ltac:(lia)) as RW.
  rewrite win_all in RW. rewrite RW. cbn [rbind Nat.add]. rewrite Nat2Z.id.
  rewrite (compute_exact h p A L AO). cbn [rbind fst snd].
  pose proof (piecewise_range h p A L AO) as RC0. pose proof (piecewise_right h p A L AO) as PR.
  set (cs := piecewise_checksum h p) in *.
  assert (RC : 0 <= cs < 65536) by lia.
  cbn [with_tcpcsum with_tcp tcpChecksum]. unfold tcpChecksumPos.
  pose proof (put16_win h (Buffer p) VS (rd h (Buffer p)) LB (hl p) (s_len (Buffer p) - hl p) (s_cap (Buffer p) - hl p) 16 cs ltac:(lia) ltac:(lia) ltac:(lia)) as PW.
  rewrite set_rd_same in PW by exact VS. rewrite PW. cbn [rbind]. change (Z.to_nat 16) with 16%nat. clear RW PW.
  pose proof (fun E => proj1 (valid_iff_right h p T AO) E) as VI.
  set (b := rd h (Buffer p)) in *. set (B' := splice b (hl p + 16) (put16 BE cs)).
  assert (L' : length B' = s_len (Buffer p)) by (unfold B'; slen).
  assert (IB : is_bytes b) by apply A.
  assert (IB' : is_bytes B') by (apply is_bytes_splice; [exact IB|apply is_bytes_put16]).
  set (p' := with_tcpcsum p cs). set (h' := set_rd h (Buffer p) B').
  pose proof AO as (O1 & O2 & O3 & O4 & O5 & O6 & O7).
  assert (RO : rd h' (tcpOptions p) = rd h (tcpOptions p)) by (apply rd_apart; auto).
  assert (RD : rd h' (tcpData p) = rd h (tcpData p)) by (apply rd_apart; auto).
  assert (RB : rd h' (Buffer p) = B') by (apply rd_set; auto).
  assert (T' : tcp_agrees h' p').
  { split.
    - assert (FB : firstn (hl p) B' = firstn (hl p) b) by (unfold B'; apply firstn_splice_behind; [lia|slen]).
      apply agrees_behind; auto.
    - split; [exact P|]. change (Buffer p') with (Buffer p). change (hl p') with (hl p). rewrite RB. split; [lia|].
      destruct S as (S1 & S2 & S3 & S4 & S5 & S6 & S7).
      unfold shows_tcp, l4_sport, l4_dport, tcp_seq, tcp_ack, tcp_offset, tcp_flags, tcp_checksum, byte_at, B' in *. fields.
      change (tcpChecksum p') with cs. rewrite Z.mod_small by lia. repeat split; auto. }
  assert (EQ : GetTCPBytes h' p' = B' ++ rd h (tcpOptions p) ++ rd h (tcpData p)).
  { rewrite emitted_eq. change (Buffer p') with (Buffer p). change (tcpOptions p') with (tcpOptions p). change (tcpData p') with (tcpData p).
    rewrite RB, RO, RD. reflexivity. }
  assert (AO' : attached_ok h' p').
  { unfold attached_ok. change (tcpOptions p') with (tcpOptions p). change (tcpData p') with (tcpData p). change (Buffer p') with (Buffer p).
    rewrite RO, RD. split; [apply set_rd_valid; auto|]. split; [apply set_rd_valid; auto|]. do 4 (split; [assumption|]).
    rewrite EQ. rewrite emitted_eq in O7. unfold zlen in *. rewrite !app_length in *. fold b in O7. lia. }
  assert (C1 : tcp_checksum B' (hl p) = cs) by (unfold tcp_checksum, B'; fields; lia).
  (* what a checksum is computed from does not change *)
  assert (PS : forall n, pseudo (version p) B' PROTO_TCP n = pseudo (version p) b PROTO_TCP n).
  { intros n. unfold B', hl in *. destruct (version p); unfold pseudo, ip4_src, ip4_dst, ip6_src, ip6_dst; fields; reflexivity. }
  assert (ZB : l4_zeroed 16 (skipn (hl p) B') = l4_zeroed 16 (skipn (hl p) b)).
  { rewrite !l4_zeroed_splice by (rewrite skipn_length; lia). unfold B'. rewrite skipn_splice by slen.
    replace (hl p + 16 - hl p)%nat with 16%nat by lia. apply splice_same_twice; [reflexivity|]. rewrite skipn_length. cbn [length put16]. lia. }
  assert (ZL : zlen (skipn (hl p) (GetTCPBytes h' p')) = zlen (skipn (hl p) (GetTCPBytes h p))).
  { rewrite EQ, emitted_eq. fold b. unfold zlen. rewrite !skipn_length, !app_length, L', LB. reflexivity. }
  assert (PW : piecewise_checksum h' p' = cs).
  { unfold piecewise_checksum. change (version p') with (version p). change (hl p') with (hl p). change (Buffer p') with (Buffer p).
    change (tcpOptions p') with (tcpOptions p). change (tcpData p') with (tcpData p). rewrite RB, RO, RD, PS, ZB, ZL. reflexivity. }
  assert (MI : misaligned h' p' = misaligned h p).
  { unfold misaligned. change (Buffer p') with (Buffer p). change (tcpOptions p') with (tcpOptions p). change (tcpData p') with (tcpData p). rewrite RO, RD. reflexivity. }
  exists p', h'. split; [reflexivity|]. split; [exact T'|]. do 3 (split; [reflexivity|]).
  split; [change (Buffer p') with (Buffer p); change (hl p') with (hl p); rewrite RB; exact C1|].
  pose proof T' as (A' & _ & LX & _). pose proof (valid_len _ _ (proj1 A')) as LB'. rewrite LB' in LX.
  pose proof (piecewise_right h' p' A' LX AO') as PR'. rewrite PW, MI in PR'. pose proof (valid_iff_right h' p' T' AO') as VR'.
  assert (C2 : tcp_checksum (rd h' (Buffer p')) (hl p') = cs) by (change (Buffer p') with (Buffer p); change (hl p') with (hl p); rewrite RB; exact C1).
  rewrite C2 in VR'.
  split.
  { rewrite <- PR', VR'. split; [intros H; split; [exact H|lia]|intros H; apply H]. }
  split.
  { destruct (verify_exact h' p' T' AO') as (v & E & I & _). rewrite E. f_equal. f_equal. apply I. rewrite PW. exact C2. }
  split; [|split; [exact RO|exact RD]].
  apply only_splices with (B := b); auto; try lia.
  intros k K NK. unfold B'. rewrite nth_splice_disj by slen. reflexivity.
Qed.
