(** Transport checksums. *)
From Verif Require Export Proof.PktTcp.

(** ** Splices and concatenation *)
Lemma splice_app_l a b o v : (o + length v <= length a)%nat -> splice (a ++ b) o v = splice a o v ++ b.
Proof.
  intros H. unfold splice. rewrite firstn_app_le by lia. rewrite skipn_app_le by lia. rewrite <- !app_assoc. reflexivity.
Qed.
Lemma splice_app_r a b o v : splice (a ++ b) (length a + o) v = a ++ splice b o v.
Proof.
  unfold splice. rewrite firstn_app_2. rewrite skipn_app_ge by lia.
  replace (length a + o + length v - length a)%nat with (o + length v)%nat by lia.
  rewrite <- app_assoc. reflexivity.
Qed.
Lemma l4_zeroed_splice co seg : (co + 2 <= length seg)%nat -> l4_zeroed co seg = splice seg co (put16 BE 0).
Proof. intros H. reflexivity. Qed.
Lemma skipn_app_le' {A} n (a b : list A) : (n <= length a)%nat -> skipn n (a ++ b) = skipn n a ++ b.
Proof. apply skipn_app_le. Qed.

(** ** Pseudo headers *)
Definition pseudo_pieces (v : ipver) (b : bytes) (proto len : Z) : list bytes :=
  match v with
  | V4 => [ip4_src b; ip4_dst b; [0; proto]; put16 BE len]
  | V6 => [ip6_src b; ip6_dst b; [0; proto]; put16 BE len]
  end.

Lemma field_even_len b o n : (o + n <= length b)%nat -> length (field b o n) = n.
Proof. apply field_length. Qed.
Lemma pseudo_even v b proto len : (match v with V4 => 20 | V6 => 40 end <= length b)%nat ->
  Nat.even (length (pseudo v b proto len)) = true.
Proof.
  intros H. destruct v; unfold pseudo, pseudo4, pseudo6, ip4_src, ip4_dst, ip6_src, ip6_dst;
    rewrite !app_length, !field_length by lia; reflexivity.
Qed.
Lemma pseudo_bytes v b proto len : is_bytes b -> 0 <= proto < 256 -> 0 <= len < 65536 -> is_bytes (pseudo v b proto len).
Proof.
  intros IB P L. assert (F : forall o n, is_bytes (field b o n)) by (intros; apply is_bytes_firstn, is_bytes_skipn, IB).
  destruct v; unfold pseudo, pseudo4, pseudo6, ip4_src, ip4_dst, ip6_src, ip6_dst;
    repeat (apply is_bytes_app; split); auto; repeat constructor; unfold is_byte; lia.
Qed.
Lemma pieces_even v b proto len : (match v with V4 => 20 | V6 => 40 end <= length b)%nat ->
  Forall (fun p => Nat.even (length p) = true) (pseudo_pieces v b proto len).
Proof.
  intros H. destruct v; unfold pseudo_pieces, ip4_src, ip4_dst, ip6_src, ip6_dst;
    repeat constructor; rewrite ?field_length by lia; reflexivity.
Qed.
Lemma pieces_bytes v b proto len : is_bytes b -> 0 <= proto < 256 -> Forall is_bytes (pseudo_pieces v b proto len).
Proof.
  intros IB P. assert (F : forall o n, is_bytes (field b o n)) by (intros; apply is_bytes_firstn, is_bytes_skipn, IB).
  destruct v; unfold pseudo_pieces, ip4_src, ip4_dst, ip6_src, ip6_dst;
    repeat constructor; try apply F; try (unfold is_byte; lia).
Qed.
Lemma pseudo_raw v b proto len x : (match v with V4 => 20 | V6 => 40 end <= length b)%nat -> 0 <= len < 65536 ->
  raw_sum (pseudo v b proto len ++ x) = raw_sum (concat (pseudo_pieces v b proto len) ++ x).
Proof.
  intros H L. rewrite raw_sum_app by (apply pseudo_even; exact H).
  assert (E : Nat.even (length (concat (pseudo_pieces v b proto len))) = true).
  { destruct v; unfold pseudo_pieces, ip4_src, ip4_dst, ip6_src, ip6_dst; cbn [concat];
      rewrite !app_length, !field_length by lia; reflexivity. }
  rewrite (raw_sum_app _ _ E). f_equal.
  destruct v; unfold pseudo, pseudo4, pseudo6, pseudo_pieces, ip4_src, ip4_dst, ip6_src, ip6_dst; cbn [concat];
    rewrite !(raw_sum_app (field _ _ _)) by (rewrite field_length by lia; reflexivity); do 2 f_equal;
    unfold raw_sum; cbn [app words16 fold_right put16]; lia.
Qed.

(** the raw sum when two bytes at an even place are replaced *)
Lemma l4_raw P seg co v : Nat.even (length P) = true -> Nat.even co = true -> (co + 2 <= length seg)%nat -> 0 <= v < 65536 ->
  raw_sum (P ++ splice seg co (put16 BE v)) = raw_sum (P ++ l4_zeroed co seg) + v.
Proof.
  intros E1 E2 L R. rewrite l4_zeroed_splice by exact L. rewrite !raw_sum_app by exact E1.
  rewrite !raw_sum_splice2 by (auto; lia). lia.
Qed.
Lemma l4_zeroed_bytes co seg : is_bytes seg -> is_bytes (l4_zeroed co seg).
Proof.
  intros H. unfold l4_zeroed. apply is_bytes_app. split; [apply is_bytes_firstn, H|]. apply is_bytes_app. split; [|apply is_bytes_skipn, H].
  repeat constructor; unfold is_byte; lia.
Qed.
(** filling in the right checksum makes the packet valid; a checksum field is
    right iff the packet is valid and the field is not all ones *)
Lemma l4_filled P seg co : is_bytes P -> is_bytes seg -> Nat.even (length P) = true -> Nat.even co = true -> (co + 2 <= length seg)%nat ->
  sums_to_ones (P ++ splice seg co (put16 BE (internet_checksum (P ++ l4_zeroed co seg)))).
Proof.
  intros I1 I2 E1 E2 L.
  assert (IZ : is_bytes (P ++ l4_zeroed co seg)) by (apply is_bytes_app; split; [exact I1|apply l4_zeroed_bytes, I2]).
  pose proof (oc_sum_range _ IZ) as R.
  apply sums_iff_folds.
  { apply is_bytes_app. split; [exact I1|]. apply is_bytes_splice; [exact I2|apply is_bytes_put16]. }
  rewrite l4_raw by (auto; unfold internet_checksum; lia). unfold internet_checksum.
  apply fold_complement; [|apply oc_sum_folds, IZ]. pose proof (raw_sum_bound _ IZ). lia.
Qed.
Lemma l4_check_iff P seg co : is_bytes P -> is_bytes seg -> Nat.even (length P) = true -> Nat.even co = true -> (co + 2 <= length seg)%nat ->
  0 < raw_sum P ->
  be16f seg co = internet_checksum (P ++ l4_zeroed co seg) <-> sums_to_ones (P ++ seg) /\ be16f seg co <> 65535.
Proof.
  intros I1 I2 E1 E2 L PP.
  assert (IZ : is_bytes (P ++ l4_zeroed co seg)) by (apply is_bytes_app; split; [exact I1|apply l4_zeroed_bytes, I2]).
  pose proof (oc_sum_folds _ IZ) as (F1 & F2 & F3). pose proof (be16f_range seg co I2 L) as R.
  assert (ES : seg = splice seg co (put16 BE (be16f seg co))).
  { rewrite put16_be16f by auto. symmetry. apply splice_field. lia. }
  assert (RS : raw_sum (P ++ seg) = raw_sum (P ++ l4_zeroed co seg) + be16f seg co).
  { rewrite ES at 1. apply l4_raw; auto. }
  assert (PZ : 0 < raw_sum (P ++ l4_zeroed co seg)).
  { rewrite raw_sum_app by exact E1. pose proof (raw_sum_bound _ (l4_zeroed_bytes co seg I2)). lia. }
  rewrite sums_iff_folds by (apply is_bytes_app; auto). rewrite RS. unfold internet_checksum.
  set (S := raw_sum (P ++ l4_zeroed co seg)) in *. set (f := oc_sum (P ++ l4_zeroed co seg)) in *. set (c := be16f seg co) in *.
  clearbody S f c. split.
  - intros ->. split; [|lia]. apply fold_complement; [lia|]. split; auto.
  - intros [(_ & V2 & _) N]. rewrite Z_mod_same_full in V2.
    assert (X : (f + c) mod 65535 = 0) by (rewrite Zplus_mod, F2, <- Zplus_mod; auto).
    assert (f <> 0) by lia. clear - X F1 R N H. lia.
Qed.
Lemma pseudo_pos v b proto len : is_bytes b -> (match v with V4 => 20 | V6 => 40 end <= length b)%nat -> 0 < proto < 256 -> 0 <= len < 65536 ->
  0 < raw_sum (pseudo v b proto len).
Proof.
  intros IB H P L. rewrite <- (app_nil_r (pseudo v b proto len)), pseudo_raw by auto.
  assert (F : forall o n, is_bytes (field b o n)) by (intros; apply is_bytes_firstn, is_bytes_skipn, IB).
  destruct v; unfold pseudo_pieces, ip4_src, ip4_dst, ip6_src, ip6_dst; cbn [concat];
    rewrite <- !app_assoc;
    rewrite !(raw_sum_app (field _ _ _)) by (rewrite field_length by lia; reflexivity).
  - pose proof (raw_sum_bound _ (F 12%nat 4%nat)). pose proof (raw_sum_bound _ (F 16%nat 4%nat)).
    unfold raw_sum at 3. cbn [app words16 fold_right put16]. lia.
  - pose proof (raw_sum_bound _ (F 8%nat 16%nat)). pose proof (raw_sum_bound _ (F 24%nat 16%nat)).
    unfold raw_sum at 3. cbn [app words16 fold_right put16]. lia.
Qed.

(** ** The TCP checksum *)
Lemma finalize_pieces v b proto len ps last : (match v with V4 => 20 | V6 => 40 end <= length b)%nat -> is_bytes b -> 0 <= proto < 256 ->
  0 <= len < 65536 -> Forall is_bytes ps -> is_bytes last -> Forall (fun p => Nat.even (length p) = true) ps ->
  zlen (concat ps ++ last) <= 131000 ->
  finalizeChecksum (partialChecksum (fold_left partialChecksum (pseudo_pieces v b proto len ++ ps) 0) last) =
  Ok (internet_checksum (pseudo v b proto len ++ concat ps ++ last)).
Proof.
  intros L IB P R F1 F2 F3 Z. rewrite <- csum_pieces_fold.
  assert (IB2 : is_bytes (concat ps ++ last)).
  { apply is_bytes_app. split; [|exact F2]. clear - F1. induction F1; cbn [concat]; [constructor|]. apply is_bytes_app; auto. }
  assert (IBP : is_bytes (concat (pseudo_pieces v b proto len))).
  { pose proof (pieces_bytes v b proto len IB P) as X. clear - X. induction X; cbn [concat]; [constructor|]. apply is_bytes_app; auto. }
  assert (LP : zlen (concat (pseudo_pieces v b proto len)) <= 36).
  { unfold zlen. destruct v; unfold pseudo_pieces, ip4_src, ip4_dst, ip6_src, ip6_dst; cbn [concat];
      rewrite !app_length, !field_length by lia; cbn [length put16]; lia. }
  assert (IBA : is_bytes (concat (pseudo_pieces v b proto len) ++ concat ps ++ last)) by (apply is_bytes_app; auto).
  pose proof (raw_sum_bound _ IBA) as B. unfold zlen in *. rewrite app_length in B.
  assert (EQ : concat (pseudo_pieces v b proto len ++ ps) ++ last = concat (pseudo_pieces v b proto len) ++ concat ps ++ last).
  { rewrite concat_app, <- app_assoc. reflexivity. }
  rewrite csum_pieces_spec.
  - rewrite EQ, Z.add_0_l, <- pseudo_raw by auto. apply finalize_spec.
    + apply is_bytes_app. split; [apply pseudo_bytes; auto|exact IB2].
    + rewrite pseudo_raw by auto. lia.
  - apply Forall_app. split; [apply pieces_bytes; auto|exact F1].
  - exact F2.
  - apply Forall_app. split; [apply pieces_even; exact L|exact F3].
  - lia.
  - rewrite EQ. lia.
Qed.

(** the bytes a TCP packet emits *)
Lemma emitted_eq h p : GetTCPBytes h p = rd h (Buffer p) ++ rd h (tcpOptions p) ++ rd h (tcpData p).
Proof. unfold GetTCPBytes. now rewrite <- app_assoc. Qed.
Lemma pseudo_app v b x proto len : (match v with V4 => 20 | V6 => 40 end <= length b)%nat ->
  pseudo v (b ++ x) proto len = pseudo v b proto len.
Proof.
  intros H. assert (F : forall o n, (o + n <= length b)%nat -> field (b ++ x) o n = field b o n).
  { intros o n L. unfold field. rewrite skipn_app_le by lia. rewrite firstn_app_le by (rewrite skipn_length; lia). reflexivity. }
  destruct v; unfold pseudo, ip4_src, ip4_dst, ip6_src, ip6_dst; rewrite !F by lia; reflexivity.
Qed.
Lemma hl_match p : hl p = (match version p with V4 => 20 | V6 => 40 end)%nat.
Proof. reflexivity. Qed.

Section TCPCHECKSUM.
Context (h : heap) (p : packet) (A : ip_agrees h p) (L20 : (hl p + 20 <= s_len (Buffer p))%nat)
  (AO : attached_ok h p).

(** the pieces added up, whatever their lengths; the packet is as before afterwards *)
Definition tcp_len : Z := u16 (Z.of_nat (s_len (Buffer p) - hl p) + Z.of_nat (s_len (tcpData p)) + Z.of_nat (s_len (tcpOptions p))).
Definition tcp_zeroed : bytes := skipn (hl p) (splice (rd h (Buffer p)) (hl p + 16) [0; 0]).
Definition tcp_pieces : Z :=
  partialChecksum (partialChecksum (partialChecksum
      (fold_left partialChecksum (pseudo_pieces (version p) (rd h (Buffer p)) PROTO_TCP tcp_len) 0) tcp_zeroed) (rd h (tcpOptions p))) (rd h (tcpData p)).
Lemma tcp_compute_raw : computeTCPChecksum h p = let* c := finalizeChecksum tcp_pieces in Ok (c, h).
Proof.
  facts A. set (b := rd h (Buffer p)) in *. set (s := Buffer p) in *. set (k := hl p) in *.
  destruct AO as (O1 & O2 & O3 & O4 & O5 & O6 & O7).
  assert (IB : is_bytes b) by apply A.
  assert (LO : length (rd h (tcpOptions p)) = s_len (tcpOptions p)) by (apply valid_len; auto).
  assert (LD : length (rd h (tcpData p)) = s_len (tcpData p)) by (apply valid_len; auto).
  rewrite emitted_eq in *. fold s b in O7 |- *. unfold zlen in O7. rewrite !app_length, LO, LD, LB in O7.
  unfold computeTCPChecksum. fold s. rewrite HL1. fold k.
  rewrite <- (win_all s) at 1. rewrite resl_from_win by lia. cbn [rbind Nat.add]. rewrite Nat2Z.id.
  rewrite <- (set_rd_same h s VS). fold b.
  set (w := win s k (s_len s - k) (s_cap s - k)).
  change (s_len w) with (s_len s - k)%nat.
  unfold tcpChecksumPos. unfold w.
  rewrite (sidx_win h s VS b LB) by lia. cbn [rbind].
  rewrite (sidx_win h s VS b LB) by lia. cbn [rbind].
  change (Z.to_nat (16 + 1)) with (16 + 1)%nat. change (Z.to_nat 16) with 16%nat.
  set (lo := nth (k + 16) b 0). set (hi := nth (k + (16 + 1)) b 0).
  rewrite wr_win by (auto; try (unfold zlen; cbn [length]; lia)). cbn [rbind].
  rewrite wr_win by (rewrite ?splice_length; cbn [length]; auto; try (unfold zlen; cbn [length]; lia)). cbn [rbind].
  change (Z.to_nat (16 + 1)) with (16 + 1)%nat. change (Z.to_nat 16) with 16%nat. rewrite Nat.add_assoc.
  rewrite splice_twice by lia. set (z := splice b (k + 16) [0; 0]).
  assert (Lz : length z = s_len s) by (unfold z; slen).
  (* the addresses *)
  assert (ADR : (match version p with
            | V4 =>
                let* s0 := copy_of (set_rd h s z) s ipv4SourceAddrPos (ipv4SourceAddrPos + 4) in
                let* d := copy_of (set_rd h s z) s ipv4DestAddrPos (ipv4DestAddrPos + 4) in
                Ok (partialChecksum (partialChecksum 0 s0) d)
            | V6 =>
                let* s0 := copy_of (set_rd h s z) s ipv6SourceAddrPos (ipv6SourceAddrPos + 16) in
                let* d := copy_of (set_rd h s z) s ipv6DestAddrPos (ipv6DestAddrPos + 16) in
                Ok (partialChecksum (partialChecksum 0 s0) d)
            end) = Ok (fold_left partialChecksum (firstn 2 (pseudo_pieces (version p) b PROTO_TCP 0)) 0)).
  { pose proof (fun lo hi => copy_of_win h s VS z Lz 0 (s_len s) (s_cap s) lo hi) as CW.
    rewrite (win_all s) in CW. unfold k, hl in *. unfold ipv4SourceAddrPos, ipv4DestAddrPos, ipv6SourceAddrPos, ipv6DestAddrPos.
    destruct (version p); rewrite !CW by lia; cbn [rbind pseudo_pieces firstn fold_left]; do 2 f_equal;
      try (unfold ip4_dst, ip6_dst, z; rewrite field_splice_disj by slen; reflexivity); f_equal;
      unfold ip4_src, ip6_src, z; rewrite field_splice_disj by slen; reflexivity. }
  rewrite ADR. cbn [rbind]. clear ADR.
  rewrite rd_win by (auto; lia). rewrite !rd_apart by (auto).
  rewrite (firstn_all2 (skipn k z)) by (rewrite skipn_length; lia).
  set (o := rd h (tcpOptions p)) in *. set (d := rd h (tcpData p)) in *.
  set (len := u16 (Z.of_nat (s_len s - k) + Z.of_nat (s_len (tcpData p)) + Z.of_nat (s_len (tcpOptions p)))).
  assert (PP : partialChecksum (partialChecksum (fold_left partialChecksum (firstn 2 (pseudo_pieces (version p) b PROTO_TCP 0)) 0) [0; 6]) (put16 BE len)
             = fold_left partialChecksum (pseudo_pieces (version p) b PROTO_TCP len) 0) by (destruct (version p); reflexivity).
  rewrite PP. clear PP.
  assert (TP : partialChecksum (partialChecksum (partialChecksum
      (fold_left partialChecksum (pseudo_pieces (version p) b PROTO_TCP len) 0) (skipn k z)) o) d = tcp_pieces) by reflexivity.
  rewrite TP. clear TP. destruct (finalizeChecksum tcp_pieces) as [c| |]; cbn [rbind]; try reflexivity.
  rewrite wr_win by (auto; try (unfold zlen; cbn [length]; lia)). cbn [rbind].
  rewrite wr_win by (rewrite ?splice_length; cbn [length]; auto; try (unfold zlen; cbn [length]; lia)). cbn [rbind].
  change (Z.to_nat (16 + 1)) with (16 + 1)%nat. change (Z.to_nat 16) with 16%nat. rewrite Nat.add_assoc.
  rewrite splice_twice by lia. unfold z. rewrite splice_same_twice by slen.
  assert (RE : splice b (k + 16) [lo; hi] = b).
  { assert (X : [lo; hi] = field b (k + 16) 2).
    { unfold field, lo, hi. rewrite Nat.add_assoc. clearbody b. clear - L20 LB.
      pose proof (skipn_length (k + 16) b) as X. rewrite <- (Nat.add_0_r (k + 16)) at 1. rewrite <- !nth_skipn'.
      destruct (skipn (k + 16) b) as [|x [|y r]]; cbn [length] in X; try lia. reflexivity. }
    rewrite X. apply splice_field. lia. }
  rewrite RE. reflexivity.
Qed.
Context (EV : even_pieces h p).
Lemma tcp_compute : computeTCPChecksum h p =
  Ok (l4_right_checksum (version p) (hl p) PROTO_TCP 16 (GetTCPBytes h p), h).
Proof.
  rewrite tcp_compute_raw. unfold tcp_pieces, tcp_zeroed, tcp_len.
  facts A. set (b := rd h (Buffer p)) in *. set (s := Buffer p) in *. set (k := hl p) in *.
  destruct AO as (O1 & O2 & O3 & O4 & O5 & O6 & O7).
  assert (IB : is_bytes b) by apply A.
  assert (LO : length (rd h (tcpOptions p)) = s_len (tcpOptions p)) by (apply valid_len; auto).
  assert (LD : length (rd h (tcpData p)) = s_len (tcpData p)) by (apply valid_len; auto).
  rewrite emitted_eq in *. fold s b in O7 |- *. unfold zlen in O7. rewrite !app_length, LO, LD, LB in O7.
  set (z := splice b (k + 16) [0; 0]).
  assert (Lz : length z = s_len s) by (unfold z; slen).
  set (o := rd h (tcpOptions p)) in *. set (d := rd h (tcpData p)) in *.
  set (len := u16 (Z.of_nat (s_len s - k) + Z.of_nat (s_len (tcpData p)) + Z.of_nat (s_len (tcpOptions p)))).
  assert (LEN : len = Z.of_nat (length (skipn k b ++ o ++ d))).
  { unfold len, u16. rewrite !app_length, skipn_length, LO, LD, LB. lia. }
  assert (RL : 0 <= len < 65536) by (unfold len, u16; lia).
  assert (HB : (match version p with V4 => 20 | V6 => 40 end <= length b)%nat) by (rewrite <- hl_match; fold k; lia).
  assert (IZ : is_bytes z) by (apply is_bytes_splice; [exact IB|repeat constructor; unfold is_byte; lia]).
  assert (ZS : l4_zeroed 16 (skipn k b ++ o ++ d) = skipn k z ++ o ++ d).
  { rewrite l4_zeroed_splice by (rewrite app_length, skipn_length; lia).
    rewrite splice_app_l by (rewrite skipn_length; cbn [length put16]; lia). f_equal.
    unfold z. rewrite skipn_splice by slen. f_equal. lia. }
  assert (FIN : finalizeChecksum (partialChecksum (partialChecksum (partialChecksum
      (fold_left partialChecksum (pseudo_pieces (version p) b PROTO_TCP len) 0) (skipn k z)) o) d) =
      Ok (internet_checksum (pseudo (version p) b PROTO_TCP len ++ skipn k z ++ o ++ d))).
  { assert (LZ : length (skipn k z) = (s_len s - k)%nat) by (rewrite skipn_length; lia).
    assert (KE : Nat.even (length (skipn k z)) = Nat.even (s_len s)).
    { rewrite LZ. assert (Nat.even k = true) by (unfold k, hl; destruct (version p); reflexivity).
      rewrite Nat.even_sub by lia. rewrite H. destruct (Nat.even (s_len s)); reflexivity. }
    destruct EV as [E1 E2]. fold s in E1.
    assert (Z0 : forall x : bytes, length x = 0%nat -> x = []) by (intros [|]; cbn; [reflexivity|discriminate]).
    assert (ISK : is_bytes (skipn k z)) by (apply is_bytes_skipn, IZ).
    destruct (Nat.eq_dec (s_len (tcpData p)) 0) as [D0|D0].
    - assert (Ed : d = []) by (apply Z0; lia). rewrite Ed. cbn [partialChecksum checksumDelta]. rewrite app_nil_r.
      destruct (Nat.eq_dec (s_len (tcpOptions p)) 0) as [P0|P0].
      + assert (Eo : o = []) by (apply Z0; lia). rewrite Eo. cbn [partialChecksum checksumDelta]. rewrite app_nil_r.
        pose proof (finalize_pieces (version p) b PROTO_TCP len [] (skipn k z) HB IB ltac:(unfold PROTO_TCP; lia) RL) as X.
        rewrite app_nil_r in X. apply X; auto. cbn [concat app]. unfold zlen. lia.
      + pose proof (finalize_pieces (version p) b PROTO_TCP len [skipn k z] o HB IB ltac:(unfold PROTO_TCP; lia) RL) as X.
        rewrite fold_left_app in X. cbn [fold_left concat] in X. rewrite app_nil_r in X. apply X; auto.
        * constructor; [|constructor]. rewrite KE. destruct E1 as [E1|[E1 _]]; [exact E1|lia].
        * unfold zlen. rewrite app_length. lia.
    - pose proof (finalize_pieces (version p) b PROTO_TCP len [skipn k z; o] d HB IB ltac:(unfold PROTO_TCP; lia) RL) as X.
      rewrite fold_left_app in X. cbn [fold_left concat] in X. rewrite app_nil_r, <- app_assoc in X. apply X; auto.
      * constructor; [|constructor; [|constructor]].
        -- rewrite KE. destruct E1 as [E1|[_ E1]]; [exact E1|lia].
        -- rewrite LO. destruct E2 as [E2|E2]; [exact E2|lia].
      * unfold zlen. rewrite !app_length. lia. }
  rewrite FIN. cbn [rbind]. clear FIN. do 2 f_equal.
  unfold l4_right_checksum. fold k. rewrite skipn_app_le by lia. rewrite ZS.
  rewrite pseudo_app by exact HB. unfold zlen. rewrite <- LEN. reflexivity.
Qed.
End TCPCHECKSUM.

Lemma verify_tcp : forall h p, tcp_agrees h p -> attached_ok h p -> even_pieces h p ->
  exists b, VerifyTCPChecksum h p = Ok (b, h) /\
    (b = true <-> tcp_checksum (rd h (Buffer p)) (hl p) = l4_right_checksum (version p) (hl p) PROTO_TCP 16 (GetTCPBytes h p)) /\
    (b = true <-> l4_valid (version p) (hl p) PROTO_TCP (GetTCPBytes h p) /\ tcp_checksum (rd h (Buffer p)) (hl p) <> 65535).
Proof.
  intros h p T AO EV. pose proof T as (A & P & L & S). facts A. rewrite LB in L.
  unfold VerifyTCPChecksum. rewrite (tcp_compute h p A L AO EV). cbn [rbind fst snd]. eexists. split; [reflexivity|].
  destruct S as (_ & _ & _ & _ & _ & _ & S7). rewrite S7.
  set (b := rd h (Buffer p)) in *.
  assert (Y : (l4_right_checksum (version p) (hl p) PROTO_TCP 16 (GetTCPBytes h p) =? tcp_checksum b (hl p)) = true <->
     tcp_checksum b (hl p) = l4_right_checksum (version p) (hl p) PROTO_TCP 16 (GetTCPBytes h p)).
  { rewrite Z.eqb_eq. split; auto. }
  split; [exact Y|]. rewrite Y.
  destruct AO as (O1 & O2 & O3 & O4 & O5 & O6 & O7). rewrite emitted_eq in *. fold b in O7 |- *.
  set (x := rd h (tcpOptions p) ++ rd h (tcpData p)) in *.
  assert (IX : is_bytes x) by (apply is_bytes_app; auto). assert (IB : is_bytes b) by apply A.
  unfold l4_right_checksum, l4_valid. rewrite skipn_app_le by lia.
  assert (SE : tcp_checksum b (hl p) = be16f (skipn (hl p) b ++ x) 16).
  { unfold tcp_checksum, be16f. unfold field. rewrite skipn_app_le by (rewrite skipn_length; lia).
    rewrite skipn_skipn, (Nat.add_comm 16). rewrite firstn_app_le by (rewrite skipn_length; lia). reflexivity. }
  rewrite SE. unfold zlen in *. rewrite app_length in O7.
  apply l4_check_iff.
  - apply pseudo_bytes; [apply is_bytes_app; auto|unfold PROTO_TCP; lia|]. rewrite app_length, skipn_length. lia.
  - apply is_bytes_app. split; [apply is_bytes_skipn, IB|exact IX].
  - apply pseudo_even. rewrite <- hl_match, app_length. lia.
  - reflexivity.
  - rewrite app_length, skipn_length. lia.
  - apply pseudo_pos; [apply is_bytes_app; auto|rewrite <- hl_match, app_length; lia|unfold PROTO_TCP; lia|].
    rewrite app_length, skipn_length. lia.
Qed.

Lemma update_tcp : forall h p, tcp_agrees h p -> attached_ok h p -> even_pieces h p ->
  exists p' h', UpdateTCPChecksum h p = Ok (p', h') /\ tcp_agrees h' p' /\
    Buffer p' = Buffer p /\ tcpOptions p' = tcpOptions p /\ tcpData p' = tcpData p /\
    l4_valid (version p') (hl p') PROTO_TCP (GetTCPBytes h' p') /\
    VerifyTCPChecksum h' p' = Ok (true, h') /\
    only_bytes h h' (Buffer p) (fun k => (hl p + 16 <= k < hl p + 18)%nat) /\
    rd h' (tcpOptions p) = rd h (tcpOptions p) /\ rd h' (tcpData p) = rd h (tcpData p).
Proof.
  intros h p T AO EV. pose proof T as (A & P & L & S). facts A. rewrite LB in L.
  unfold UpdateTCPChecksum. rewrite HL1.
  pose proof (resl_from_win (Buffer p) 0 (s_len (Buffer p)) (s_cap (Buffer p)) (Z.of_nat (hl p)) ltac:(lia) ltac:(lia)) as RW.
  rewrite win_all in RW. rewrite RW. cbn [rbind Nat.add]. rewrite Nat2Z.id.
  rewrite (tcp_compute h p A L AO EV). cbn [rbind fst snd].
  set (cs := l4_right_checksum (version p) (hl p) PROTO_TCP 16 (GetTCPBytes h p)).
  cbn [with_tcpcsum with_tcp tcpChecksum]. unfold tcpChecksumPos.
  pose proof (put16_win h (Buffer p) VS (rd h (Buffer p)) LB (hl p) (s_len (Buffer p) - hl p) (s_cap (Buffer p) - hl p) 16 cs ltac:(lia) ltac:(lia) ltac:(lia)) as PW.
  rewrite set_rd_same in PW by exact VS. rewrite PW. cbn [rbind]. change (Z.to_nat 16) with 16%nat. clear RW PW.
  set (b := rd h (Buffer p)) in *. set (B' := splice b (hl p + 16) (put16 BE cs)).
  assert (L' : length B' = s_len (Buffer p)) by (unfold B'; slen).
  assert (IB : is_bytes b) by apply A.
  assert (IB' : is_bytes B') by (apply is_bytes_splice; [exact IB|apply is_bytes_put16]).
  set (p' := with_tcpcsum p cs). set (h' := set_rd h (Buffer p) B').
  pose proof AO as (O1 & O2 & O3 & O4 & O5 & O6 & O7).
  assert (RO : rd h' (tcpOptions p) = rd h (tcpOptions p)) by (apply rd_apart; auto).
  assert (RD : rd h' (tcpData p) = rd h (tcpData p)) by (apply rd_apart; auto).
  assert (RB : rd h' (Buffer p) = B') by (apply rd_set; auto).
  assert (RC : 0 <= cs < 65536).
  { unfold cs, l4_right_checksum, internet_checksum. 
    assert (IE : is_bytes (GetTCPBytes h p)) by (rewrite emitted_eq; repeat (apply is_bytes_app; split); auto).
    match goal with |- context [oc_sum ?X] => assert (IX : is_bytes X); [|pose proof (oc_sum_range X IX); lia] end.
    apply is_bytes_app. split; [|apply l4_zeroed_bytes, is_bytes_skipn, IE].
    apply pseudo_bytes; [exact IE|unfold PROTO_TCP; lia|]. unfold zlen in *. rewrite skipn_length. lia. }
  assert (T' : tcp_agrees h' p').
  { split.
    - assert (FB : firstn (hl p) B' = firstn (hl p) b) by (unfold B'; apply firstn_splice_behind; [lia|slen]).
      apply agrees_behind; auto.
    - split; [exact P|]. change (Buffer p') with (Buffer p). change (hl p') with (hl p). rewrite RB. split; [lia|].
      destruct S as (S1 & S2 & S3 & S4 & S5 & S6 & S7).
      unfold shows_tcp, l4_sport, l4_dport, tcp_seq, tcp_ack, tcp_offset, tcp_flags, tcp_checksum, byte_at, B' in *. fields.
      change (tcpChecksum p') with cs. rewrite Z.mod_small by lia. repeat split; auto. }
  assert (EQ : GetTCPBytes h' p' = B' ++ rd h (tcpOptions p) ++ rd h (tcpData p)).
  { rewrite emitted_eq. change (Buffer p') with (Buffer p). change (tcpOptions p') with (tcpOptions p). change (tcpData p') with (tcpData p).
    rewrite RB, RO, RD. reflexivity. }
  assert (VAL : l4_valid (version p') (hl p') PROTO_TCP (GetTCPBytes h' p')).
  { rewrite EQ. change (version p') with (version p). change (hl p') with (hl p).
    set (x := rd h (tcpOptions p) ++ rd h (tcpData p)) in *. 
    unfold l4_valid. rewrite skipn_app_le by lia. unfold B'. rewrite skipn_splice by slen.
    replace (hl p + 16 - hl p)%nat with 16%nat by lia.
    assert (LS : (16 + length (put16 BE cs) <= length (skipn (hl p) b))%nat) by (rewrite skipn_length; cbn [length put16]; lia).
    rewrite <- (splice_app_l (skipn (hl p) b) x 16 (put16 BE cs) LS).
    assert (IX : is_bytes x) by (apply is_bytes_app; auto).
    assert (PE : pseudo (version p) (splice b (hl p + 16) (put16 BE cs) ++ x) PROTO_TCP (zlen (splice (skipn (hl p) b ++ x) 16 (put16 BE cs)))
               = pseudo (version p) (b ++ x) PROTO_TCP (zlen (skipn (hl p) b ++ x))).
    { unfold zlen. rewrite (splice_length _ 16) by (rewrite app_length; lia).
      rewrite !pseudo_app by (rewrite <- hl_match; slen).
      unfold hl in *. destruct (version p); unfold pseudo, ip4_src, ip4_dst, ip6_src, ip6_dst; fields; reflexivity. }
    rewrite PE. unfold cs. rewrite emitted_eq. fold b. fold x. unfold l4_right_checksum. rewrite skipn_app_le by lia.
    unfold zlen in *. rewrite emitted_eq, app_length in O7. fold b x in O7.
    apply l4_filled.
    - apply pseudo_bytes; [apply is_bytes_app; auto|unfold PROTO_TCP; lia|]. rewrite app_length, skipn_length. lia.
    - apply is_bytes_app. split; [apply is_bytes_skipn, IB|exact IX].
    - apply pseudo_even. rewrite <- hl_match, app_length. lia.
    - reflexivity.
    - rewrite app_length, skipn_length. lia. }
  exists p', h'. split; [reflexivity|]. split; [exact T'|]. do 3 (split; [reflexivity|]). split; [exact VAL|].
  split.
  { assert (AO' : attached_ok h' p').
    { unfold attached_ok. change (tcpOptions p') with (tcpOptions p). change (tcpData p') with (tcpData p). change (Buffer p') with (Buffer p).
      rewrite RO, RD. split; [apply set_rd_valid; auto|]. split; [apply set_rd_valid; auto|]. do 4 (split; [assumption|]).
      rewrite EQ. rewrite emitted_eq in O7. unfold zlen in *. rewrite !app_length in *. fold b in O7. lia. }
    destruct (verify_tcp h' p' T' AO' EV) as (v & E & I & _). rewrite E. f_equal. f_equal.
    apply I. change (Buffer p') with (Buffer p). change (hl p') with (hl p). change (version p') with (version p). rewrite RB, EQ.
    assert (C1 : tcp_checksum B' (hl p) = cs) by (unfold tcp_checksum, B'; fields; lia).
    rewrite C1. unfold cs. rewrite emitted_eq. fold b. set (x := rd h (tcpOptions p) ++ rd h (tcpData p)).
    unfold l4_right_checksum. rewrite !skipn_app_le by lia. f_equal.
    assert (ZQ : l4_zeroed 16 (skipn (hl p) B' ++ x) = l4_zeroed 16 (skipn (hl p) b ++ x)).
    { rewrite !l4_zeroed_splice by (rewrite app_length, skipn_length; lia).
      unfold B'. rewrite skipn_splice by slen. replace (hl p + 16 - hl p)%nat with 16%nat by lia.
      rewrite <- splice_app_l by (rewrite skipn_length; cbn [length put16]; lia).
      apply splice_same_twice; [reflexivity|]. rewrite app_length, skipn_length. cbn [length put16]. lia. }
    rewrite ZQ. f_equal. unfold zlen. rewrite !app_length, !skipn_length, L', LB.
    rewrite !pseudo_app by (rewrite <- hl_match; lia).
    unfold B', hl in *. destruct (version p); unfold pseudo, ip4_src, ip4_dst, ip6_src, ip6_dst; fields; reflexivity. }
  split; [|split; [exact RO|exact RD]].
  apply only_splices with (B := b); auto; try lia.
  intros k K NK. unfold B'. rewrite nth_splice_disj by slen. reflexivity.
Qed.
