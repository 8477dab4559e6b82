(** UDP operations. *)
From Verif Require Export Proof.PktMisc.

Lemma udp_ports p : IPProto p = PROTO_UDP -> SourcePort p = udpSourcePort p /\ DestPort p = udpDestinationPort p.
Proof. intros P. unfold SourcePort, DestPort. unfold IPProto, PROTO_UDP in P. rewrite P. split; reflexivity. Qed.

(** agreement survives writes behind the UDP ports *)
Lemma udp_behind h p p' B' : udp_agrees h p ->
  version p' = version p -> ipHeaderLen p' = ipHeaderLen p -> ipProto p' = ipProto p ->
  ipTotalLength p' = ipTotalLength p -> ipChecksum p' = ipChecksum p ->
  sourceAddress p' = sourceAddress p -> destinationAddress p' = destinationAddress p ->
  udpSourcePort p' = udpSourcePort p -> udpDestinationPort p' = udpDestinationPort p ->
  Buffer p' = Buffer p -> is_bytes B' -> length B' = s_len (Buffer p) ->
  firstn (hl p + 4) B' = firstn (hl p + 4) (rd h (Buffer p)) ->
  udp_agrees (set_rd h (Buffer p) B') p'.
Proof.
  intros (A & P & L & S) E1 E2 E3 E4 E5 E6 E7 E8 E9 E10 IB' L' F. facts A. rewrite LB in L.
  assert (F1 : firstn (hl p) B' = firstn (hl p) (rd h (Buffer p))).
  { replace (hl p) with (Nat.min (hl p) (hl p + 4)) by lia. rewrite <- !firstn_firstn. now rewrite F. }
  assert (P' : IPProto p' = PROTO_UDP) by (unfold IPProto in *; congruence).
  split; [apply (agrees_behind h p); auto|]. split; [exact P'|].
  assert (H' : hl p' = hl p) by (unfold hl; now rewrite E1). rewrite H', E10, rd_set by auto. split; [lia|].
  destruct (udp_ports p P) as [U1 U2]. destruct (udp_ports p' P') as [U3 U4]. destruct S as [S1 S2].
  unfold shows_udp, l4_sport, l4_dport in *. rewrite U1 in S1. rewrite U2 in S2. rewrite U3, U4, E8, E9, S1, S2.
  rewrite <- (be16f_firstn B' (hl p) (hl p + 4)), <- (be16f_firstn B' (hl p + 2) (hl p + 4)) by lia. rewrite F.
  rewrite !be16f_firstn by lia. auto.
Qed.
Lemma resl_hdr h p : ip_agrees h p ->
  resl_from (Buffer p) (ipHeaderLen p) = Ok (win (Buffer p) (hl p) (s_len (Buffer p) - hl p) (s_cap (Buffer p) - hl p)).
Proof.
  intros A. facts A. rewrite HL1.
  pose proof (resl_from_win (Buffer p) 0 (s_len (Buffer p)) (s_cap (Buffer p)) (Z.of_nat (hl p)) ltac:(lia) ltac:(lia)) as RW.
  rewrite win_all in RW. rewrite RW, Nat2Z.id. reflexivity.
Qed.

(** the UDP length field *)
Lemma udp_hdr_spec h p : udp_agrees h p ->
  exists h', fixupUDPHdr h p = Ok h' /\ udp_agrees h' p /\
    h' = set_rd h (Buffer p) (splice (rd h (Buffer p)) (hl p + 4) (put16 BE (Z.of_nat (s_len (Buffer p) - hl p)))) /\
    rd h' (Buffer p) = splice (rd h (Buffer p)) (hl p + 4) (put16 BE (Z.of_nat (s_len (Buffer p) - hl p))) /\
    udp_length (rd h' (Buffer p)) (hl p) = Z.of_nat (s_len (Buffer p) - hl p).
Proof.
  intros T. pose proof T as (A & P & L & S). facts A. rewrite LB in L. pose proof A as (_ & IB & AL & _).
  set (b := rd h (Buffer p)) in *. set (B' := splice b (hl p + 4) (put16 BE (Z.of_nat (s_len (Buffer p) - hl p)))).
  assert (L' : length B' = s_len (Buffer p)) by (unfold B'; slen).
  assert (FB : firstn (hl p + 4) B' = firstn (hl p + 4) b) by (unfold B'; apply firstn_splice_behind; cbn [length put16]; lia).
  assert (R' : rd (set_rd h (Buffer p) B') (Buffer p) = B') by (apply rd_set; auto).
  exists (set_rd h (Buffer p) B'). split.
  - unfold fixupUDPHdr. rewrite (resl_hdr h p A). cbn [rbind]. unfold udpLengthPos.
    change (s_len (win (Buffer p) (hl p) (s_len (Buffer p) - hl p) (s_cap (Buffer p) - hl p))) with (s_len (Buffer p) - hl p)%nat.
    pose proof (put16_win h (Buffer p) VS b LB (hl p) (s_len (Buffer p) - hl p) (s_cap (Buffer p) - hl p) 4
      (u16 (Z.of_nat (s_len (Buffer p) - hl p))) ltac:(change (Z.to_nat 4) with 4%nat; lia) ltac:(lia) ltac:(lia)) as X.
    change (set_rd h (Buffer p) b) with (set_rd h (Buffer p) (rd h (Buffer p))) in X.
    rewrite (set_rd_same h (Buffer p) VS) in X. rewrite X. change (Z.to_nat 4) with 4%nat.
    unfold B', u16. rewrite Z.mod_small by lia. reflexivity.
  - split; [|split; [reflexivity|split; [exact R'|]]].
    + apply udp_behind; auto. unfold B'. apply is_bytes_splice; [exact IB|apply is_bytes_put16].
    + rewrite R'. unfold udp_length, B'. rewrite be16f_splice_same by lia. apply Z.mod_small. lia.
Qed.

(** the UDP checksum *)
Definition udp_checksum_right (v : ipver) (o : nat) (b : bytes) : Z :=
  match v with V4 => 0 | V6 => l4_right_checksum V6 o PROTO_UDP 6 b end.
Lemma pseudo6_put32 src dst len : 0 <= len < 65536 ->
  concat [src; dst; put32 BE len; [0; 0; 0; 17]] = pseudo6 src dst PROTO_UDP len.
Proof.
  intros H. cbn [concat put32]. unfold pseudo6, PROTO_UDP. rewrite app_nil_r.
  replace (len / 16777216 mod 256) with (len / 16777216) by lia. reflexivity.
Qed.
Lemma udp_csum_spec h p : udp_agrees h p ->
  exists p' h', fixupUDPChecksum h p = Ok (p', h') /\ udp_agrees h' p' /\
    p' = with_udpcsum p (udpChecksum p') /\
    h' = set_rd h (Buffer p) (splice (rd h (Buffer p)) (hl p + 6) (put16 BE (udp_checksum_right (version p) (hl p) (rd h (Buffer p))))) /\
    rd h' (Buffer p) = splice (rd h (Buffer p)) (hl p + 6) (put16 BE (udp_checksum_right (version p) (hl p) (rd h (Buffer p)))) /\
    udp_checksum (rd h' (Buffer p)) (hl p) = udp_checksum_right (version p) (hl p) (rd h (Buffer p)) /\
    (version p = V6 -> udp6_right (rd h' (Buffer p))).
Proof.
  intros T. pose proof T as (A & P & L & S). facts A. rewrite LB in L. pose proof A as (_ & IB & AL & M).
  set (b := rd h (Buffer p)) in *. set (r := udp_checksum_right (version p) (hl p) b).
  set (B' := splice b (hl p + 6) (put16 BE r)).
  assert (L' : length B' = s_len (Buffer p)) by (unfold B'; slen).
  assert (FB : firstn (hl p + 4) B' = firstn (hl p + 4) b) by (unfold B'; apply firstn_splice_behind; cbn [length put16]; lia).
  assert (R' : rd (set_rd h (Buffer p) B') (Buffer p) = B') by (apply rd_set; auto).
  assert (IB' : is_bytes B') by (unfold B'; apply is_bytes_splice; [exact IB|apply is_bytes_put16]).
  assert (ZB : splice (splice b (hl p + 6) [0]) (hl p + 7) [0] = splice b (hl p + 6) (put16 BE 0)).
  { replace (hl p + 7)%nat with (hl p + 6 + 1)%nat by lia. rewrite splice_twice by lia. reflexivity. }
  assert (LZ : length (splice b (hl p + 6) (put16 BE 0)) = s_len (Buffer p)) by slen.
  assert (W : (let* h1 := wr h (win (Buffer p) (hl p) (s_len (Buffer p) - hl p) (s_cap (Buffer p) - hl p)) 6 [0] in
               wr h1 (win (Buffer p) (hl p) (s_len (Buffer p) - hl p) (s_cap (Buffer p) - hl p)) (6 + 1) [0]) =
              Ok (set_rd h (Buffer p) (splice b (hl p + 6) (put16 BE 0)))).
  { pose proof (set_rd_same h (Buffer p) VS) as SR. fold b in SR. rewrite <- SR at 1. clear SR.
    rewrite wr_win by (unfold zlen; cbn [length]; auto; lia). cbn [rbind].
    rewrite wr_win by (try (rewrite splice_length); unfold zlen; cbn [length]; auto; change (Z.to_nat 6) with 6%nat; try lia).
    change (Z.to_nat 6) with 6%nat. change (Z.to_nat (6 + 1)) with 7%nat. rewrite ZB. reflexivity. }
  destruct (version p) eqn:VP.
  - exists p, (set_rd h (Buffer p) B'). split.
    { unfold fixupUDPChecksum. rewrite VP, (resl_hdr h p A). cbn [rbind]. unfold udpChecksumPos.
      set (bw := win (Buffer p) (hl p) (s_len (Buffer p) - hl p) (s_cap (Buffer p) - hl p)) in *.
      destruct (wr h bw 6 [0]) as [h1| |]; cbn [rbind] in *; try discriminate. rewrite W. cbn [rbind]. reflexivity. }
    split; [apply udp_behind; auto|]. split; [now destruct p|]. split; [reflexivity|]. split; [exact R'|]. rewrite R'.
    split; [|discriminate]. unfold udp_checksum, B'. rewrite be16f_splice_same by lia. reflexivity.
  - assert (HV : hl p = 40%nat) by (unfold hl; now rewrite VP).
    assert (PS : is_bytes (pseudo V6 b PROTO_UDP (zlen (skipn 40 b)))).
    { apply pseudo_bytes; auto; [unfold PROTO_UDP; lia|]. unfold zlen. rewrite skipn_length. lia. }
    assert (LS : zlen (skipn 40 b) = Z.of_nat (s_len (Buffer p) - hl p)) by (unfold zlen; rewrite skipn_length; lia).
    assert (RR : 0 <= r < 65536).
    { unfold r, udp_checksum_right, l4_right_checksum, internet_checksum.
      assert (IZ : is_bytes (pseudo V6 b PROTO_UDP (zlen (skipn (hl p) b)) ++ l4_zeroed 6 (skipn (hl p) b))).
      { rewrite HV. apply is_bytes_app. split; [exact PS|]. apply l4_zeroed_bytes, is_bytes_skipn, IB. }
      pose proof (oc_sum_range _ IZ). lia. }
    exists (with_udpcsum p r), (set_rd h (Buffer p) B'). split.
    { unfold fixupUDPChecksum, updateUDPv6Checksum. rewrite VP, (resl_hdr h p A). cbn [rbind]. unfold udpChecksumPos.
      set (bw := win (Buffer p) (hl p) (s_len (Buffer p) - hl p) (s_cap (Buffer p) - hl p)) in *.
      destruct (wr h bw 6 [0]) as [h1| |]; cbn [rbind] in *; try discriminate. rewrite W. cbn [rbind].
      change (s_len bw) with (s_len (Buffer p) - hl p)%nat.
      assert (RD : rd (set_rd h (Buffer p) (splice b (hl p + 6) (put16 BE 0))) bw = l4_zeroed 6 (skipn 40 b)).
      { unfold bw. rewrite rd_win by (auto; lia). rewrite firstn_all2 by (rewrite skipn_length; lia).
        rewrite skipn_splice by (cbn [length put16]; lia). rewrite HV. replace (40 + 6 - 40)%nat with 6%nat by lia.
        symmetry. apply l4_zeroed_splice. rewrite skipn_length. lia. }
      rewrite RD. unfold u32. rewrite Z.mod_small by lia.
      destruct M as (M1 & M2 & M3 & M4 & M5 & M6 & M7). unfold SourceAddress in M6. unfold DestinationAddress in M7. rewrite M6, M7.
      fold b. 
      pose proof (piecewise_checksum [ip6_src b; ip6_dst b; put32 BE (Z.of_nat (s_len (Buffer p) - hl p)); [0; 0; 0; 17]] (l4_zeroed 6 (skipn 40 b))) as PC.
      cbn [fold_left] in PC. rewrite PC; clear PC.
      - cbn [rbind]. rewrite pseudo6_put32 by lia. rewrite <- LS.
        change (pseudo6 (ip6_src b) (ip6_dst b) PROTO_UDP (zlen (skipn 40 b))) with (pseudo V6 b PROTO_UDP (zlen (skipn 40 b))).
        assert (ER : internet_checksum (pseudo V6 b PROTO_UDP (zlen (skipn 40 b)) ++ l4_zeroed 6 (skipn 40 b)) = r).
        { unfold r, udp_checksum_right, l4_right_checksum. rewrite HV. reflexivity. }
        rewrite ER. unfold bw.
        rewrite put16_win by (auto; change (Z.to_nat 6) with 6%nat; lia). cbn [rbind]. change (Z.to_nat 6) with 6%nat.
        rewrite splice_same_twice by (cbn [length put16]; auto; lia). reflexivity.
      - apply Forall_cons; [unfold ip6_src, field; apply is_bytes_firstn, is_bytes_skipn, IB|].
        apply Forall_cons; [unfold ip6_dst, field; apply is_bytes_firstn, is_bytes_skipn, IB|].
        apply Forall_cons; [apply is_bytes_put32|].
        apply Forall_cons; [bytes_tac|apply Forall_nil].
      - apply l4_zeroed_bytes, is_bytes_skipn, IB.
      - repeat constructor; unfold ip6_src, ip6_dst; rewrite field_length by lia; reflexivity.
      - rewrite pseudo6_put32 by lia. unfold zlen, pseudo6, ip6_src, ip6_dst. rewrite !app_length, !field_length by lia. cbn [length].
        rewrite l4_zeroed_splice by (rewrite skipn_length; lia). rewrite splice_length by (rewrite skipn_length; cbn [length put16]; lia).
        rewrite skipn_length. lia. }
    split; [apply udp_behind; auto|]. split; [reflexivity|]. split; [reflexivity|]. split; [exact R'|]. rewrite R'.
    split.
    + unfold udp_checksum, B'. rewrite be16f_splice_same by lia. apply Z.mod_small. exact RR.
    + intros _. unfold udp6_right, l4_valid.
      assert (EP : pseudo V6 B' PROTO_UDP (zlen (skipn 40 B')) = pseudo V6 b PROTO_UDP (zlen (skipn 40 b))).
      { unfold pseudo, ip6_src, ip6_dst. unfold B'. rewrite !field_splice_disj by (cbn [length put16]; lia).
        unfold zlen. rewrite !skipn_length, splice_length by (cbn [length put16]; lia). reflexivity. }
      assert (ES : skipn 40 B' = splice (skipn 40 b) 6 (put16 BE r)).
      { unfold B'. rewrite skipn_splice by (cbn [length put16]; lia). f_equal. lia. }
      unfold l4_right_checksum. rewrite EP, ES. split.
      2: { replace (be16f B' 46) with r by (unfold B'; rewrite HV, be16f_splice_same by lia; symmetry; apply Z.mod_small; exact RR).
           unfold r, udp_checksum_right, l4_right_checksum. rewrite HV. do 2 f_equal.
           rewrite !l4_zeroed_splice by (rewrite ?splice_length; rewrite ?skipn_length; cbn [length put16]; lia).
           rewrite splice_same_twice by (rewrite ?skipn_length; cbn [length put16]; auto; lia). reflexivity. }
      unfold r, udp_checksum_right, l4_right_checksum. rewrite HV.
      apply l4_filled; auto.
      * apply is_bytes_skipn, IB.
      * apply pseudo_even. lia.
      * rewrite skipn_length. lia.
Qed.

(** ** Lengths and checksum of the UDP header together *)
Lemma only_trans h1 h2 h3 s P : only_bytes h1 h2 s P -> only_bytes h2 h3 s P -> only_bytes h1 h3 s P.
Proof.
  intros (A1 & A2 & A3) (B1 & B2 & B3). split; [congruence|]. split; [congruence|]. intros a i N.
  destruct (Z.eq_dec (nth i (arr h2 a) 0) (nth i (arr h1 a) 0)) as [E|E]; [apply B3; congruence|apply A3, E].
Qed.
Lemma only_weaken h h' s (P Q : nat -> Prop) : (forall k, (k < s_len s)%nat -> P k -> Q k) -> only_bytes h h' s P -> only_bytes h h' s Q.
Proof.
  intros I (A1 & A2 & A3). split; [exact A1|]. split; [exact A2|]. intros a i N. destruct (A3 a i N) as (E & k & K1 & K2 & K3).
  split; [exact E|]. exists k. auto.
Qed.
Lemma only_front h h' s n c P : (n <= s_len s)%nat -> only_bytes h h' (win s 0 n c) P -> only_bytes h h' s P.
Proof.
  intros L (A1 & A2 & A3). split; [exact A1|]. split; [exact A2|]. intros a i N. destruct (A3 a i N) as (E & k & K1 & K2 & K3).
  cbn [win s_arr s_off s_len] in *. split; [exact E|]. exists k. repeat split; auto; lia.
Qed.
Lemma udp_finish h p : udp_agrees h p ->
  exists p' h', (let* h1 := fixupUDPHdr h p in fixupUDPChecksum h1 p) = Ok (p', h') /\ udp_agrees h' p' /\
    p' = with_udpcsum p (udpChecksum p') /\
    length (rd h' (Buffer p)) = length (rd h (Buffer p)) /\
    firstn (hl p + 4) (rd h' (Buffer p)) = firstn (hl p + 4) (rd h (Buffer p)) /\
    skipn (hl p + 8) (rd h' (Buffer p)) = skipn (hl p + 8) (rd h (Buffer p)) /\
    udp_length (rd h' (Buffer p)) (hl p) = Z.of_nat (s_len (Buffer p) - hl p) /\
    (version p = V4 -> udp_checksum (rd h' (Buffer p)) (hl p) = 0) /\
    (version p = V6 -> udp6_right (rd h' (Buffer p))) /\
    (version p = V4 -> ip4_valid (rd h (Buffer p)) -> ip4_valid (rd h' (Buffer p))) /\
    only_bytes h h' (Buffer p) (fun k => hl p + 4 <= k < hl p + 8)%nat.
Proof.
  intros T. destruct (udp_hdr_spec h p T) as (h1 & E1 & T1 & F1 & R1 & U1).
  destruct (udp_csum_spec h1 p T1) as (p' & h' & E2 & T2 & Q2 & F2 & R2 & C2 & V2).
  pose proof T as (A & P & L & S). facts A. rewrite LB in L. pose proof A as (_ & IB & AL & M).
  set (b := rd h (Buffer p)) in *.
  assert (L1 : length (rd h1 (Buffer p)) = s_len (Buffer p)) by (rewrite R1; slen).
  assert (L2 : length (rd h' (Buffer p)) = s_len (Buffer p)) by (rewrite R2; slen).
  assert (F : firstn (hl p + 4) (rd h' (Buffer p)) = firstn (hl p + 4) b).
  { rewrite R2, firstn_splice_behind by (cbn [length put16]; lia). rewrite R1, firstn_splice_behind by (cbn [length put16]; lia). reflexivity. }
  exists p', h'. split; [rewrite E1; exact E2|]. split; [exact T2|]. split; [exact Q2|]. split; [congruence|]. split; [exact F|].
  split. { rewrite R2, skipn_splice_before by (cbn [length put16]; lia). rewrite R1, skipn_splice_before by (cbn [length put16]; lia). reflexivity. }
  split. { rewrite R2. unfold udp_length in *. rewrite be16f_splice_disj by (cbn [length put16]; lia). exact U1. }
  split. { intros V. rewrite C2, V. reflexivity. }
  split; [exact V2|]. split.
  { intros V HV. destruct (hdr_ext (rd h' (Buffer p)) b (hl p + 4)) as (_ & _ & X); [lia|exact F|]. apply X, HV. }
  apply only_trans with h1.
  - rewrite F1. apply (only_splices h (Buffer p) b); [exact VS|exact LB|slen| |intros; lia|reflexivity].
    intros k K1 K2. apply nth_splice_disj; cbn [length put16]; lia.
  - rewrite F2. assert (VS' : vslice h1 (Buffer p)) by (destruct T1 as (A1 & _); facts A1; assumption).
    apply (only_splices h1 (Buffer p) (rd h1 (Buffer p))); [exact VS'|exact L1|slen| |intros; lia|reflexivity].
    intros k K1 K2. apply nth_splice_disj; cbn [length put16]; lia.
Qed.
