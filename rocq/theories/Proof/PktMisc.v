(** Flag changes, the authentication option, flag text. *)
From Verif Require Export Proof.PktDetach.

(** ** ConvertAcktoFinAck *)
Lemma flags_agree h p f : tcp_agrees h p -> 0 <= f < 256 ->
  updateTCPFlags h p f = Ok (set_rd h (Buffer p) (splice (rd h (Buffer p)) (hl p + 13) [f])) /\
  tcp_agrees (set_rd h (Buffer p) (splice (rd h (Buffer p)) (hl p + 13) [f])) (with_flags p f).
Proof.
  intros T RF. pose proof T as (A & P & L & S). facts A. rewrite LB in L. pose proof A as (_ & IB & AL & _).
  set (b := rd h (Buffer p)) in *. set (B' := splice b (hl p + 13) [f]).
  assert (L' : length B' = s_len (Buffer p)) by (unfold B'; rewrite splice_length; cbn [length]; lia).
  assert (FB : firstn (hl p) B' = firstn (hl p) b) by (unfold B'; apply firstn_splice_behind; cbn [length]; lia).
  split.
  - unfold updateTCPFlags. rewrite HL1.
    pose proof (resl_from_win (Buffer p) 0 (s_len (Buffer p)) (s_cap (Buffer p)) (Z.of_nat (hl p)) ltac:(lia) ltac:(lia)) as RW.
    rewrite win_all in RW. rewrite RW. cbn [rbind Nat.add]. rewrite Nat2Z.id. unfold tcpFlagsOffsetPos.
    rewrite <- (set_rd_same h (Buffer p) VS) at 1. rewrite wr_win by (cbn [length]; unfold zlen; cbn [length]; auto; lia). reflexivity.
  - assert (A' : ip_agrees (set_rd h (Buffer p) B') (with_flags p f)).
    { apply agrees_behind; auto.
      apply is_bytes_splice; [exact IB|]. constructor; [unfold is_byte; lia|constructor]. }
    split; [exact A'|]. split; [exact P|]. change (Buffer (with_flags p f)) with (Buffer p). change (hl (with_flags p f)) with (hl p).
    rewrite rd_set by auto. split; [lia|]. destruct S as (S1 & S2 & S3 & S4 & S5 & S6 & S7).
    unfold shows_tcp, l4_sport, l4_dport, tcp_seq, tcp_ack, tcp_offset, tcp_flags, tcp_checksum, byte_at in *.
    unfold B'. fields. 
    change (SourcePort (with_flags p f)) with (SourcePort p). change (DestPort (with_flags p f)) with (DestPort p).
    change (tcpSeq (with_flags p f)) with (tcpSeq p). change (tcpAck (with_flags p f)) with (tcpAck p).
    change (tcpDataOffset (with_flags p f)) with (tcpDataOffset p).
    change (GetTCPFlags (with_flags p f)) with f. change (tcpChecksum (with_flags p f)) with (tcpChecksum p). auto 10.
Qed.

Lemma rd_snil h : rd h snil = [].
Proof. reflexivity. Qed.
Lemma fin_ack : forall h p, tcp_agrees h p -> 5 <= tcpDataOffset p -> (payload_at p <= s_len (Buffer p))%nat ->
  exists p' h', ConvertAcktoFinAck h p = Ok (p', h') /\ tcp_agrees h' p' /\
    GetTCPFlags p' = 17 /\ tcp_flags (GetTCPBytes h' p') (hl p) = 17 /\
    length (GetTCPBytes h' p') = payload_at p /\
    (forall k, (k < payload_at p)%nat -> ~ ip_len_bytes (version p) k -> k <> (hl p + 12)%nat -> k <> (hl p + 13)%nat ->
       nth k (GetTCPBytes h' p') 0 = nth k (rd h (Buffer p)) 0) /\
    tcp_offset (GetTCPBytes h' p') (hl p) = tcp_offset (rd h (Buffer p)) (hl p) /\
    IPTotalLen p' = (IPTotalLen p - payload_len p) mod 65536 /\
    (version p = V4 -> ip4_valid (rd h (Buffer p)) -> ip4_valid (GetTCPBytes h' p')) /\
    GetTCPData h' p' = [] /\ GetTCPOptions h' p' = [] /\
    only_bytes h h' (Buffer p) (fun k => ip_len_bytes (version p) k \/ k = hl p + 12 \/ k = hl p + 13)%nat.
Proof.
  intros h p T OF PA. pose proof T as (A & P & L & S). facts A. rewrite LB in L. pose proof A as (_ & IB & AL & _).
  destruct (tcp_agrees_facts h p T) as (_ & _ & R3 & _).
  destruct (flags_agree h p 17 T ltac:(lia)) as (E1 & T1).
  set (b := rd h (Buffer p)) in *. set (b1 := splice b (hl p + 13) [17]) in *. set (h1 := set_rd h (Buffer p) b1) in *.
  set (p1 := with_flags p 17) in *.
  assert (L1 : length b1 = s_len (Buffer p)) by (unfold b1; rewrite splice_length; cbn [length]; lia).
  assert (R1 : rd h1 (Buffer p) = b1) by (apply rd_set; auto).
  assert (PO : Z.of_nat (payload_at p) = Z.of_nat (hl p) + 4 * tcpDataOffset p) by (unfold payload_at; lia).
  destruct (detach_spec h1 p1 0 T1 ltac:(lia) eq_refl ltac:(change (tcpDataOffset p1) with (tcpDataOffset p); lia) PA)
    as (cs & p2 & h2 & I1 & RC & D & EP & EH & T2 & X1 & X2 & X3).
  change (IPTotalLen p1) with (IPTotalLen p) in *. change (payload_len p1) with (payload_len p) in *.
  change (Buffer p1) with (Buffer p) in *. change (hl p1) with (hl p) in *. change (version p1) with (version p) in *. rewrite R1 in *.
  set (tl := (IPTotalLen p - (payload_len p + 0)) mod 65536) in *.
  assert (TB : tcp_agrees h2 (DropTCPDetachedBytes p2)).
  { unfold DropTCPDetachedBytes. apply (tcp_agrees_ext h2); auto. apply T2. }
  assert (EM : GetTCPBytes h2 (DropTCPDetachedBytes p2) = rd h2 (Buffer p2)).
  { unfold GetTCPBytes, DropTCPDetachedBytes. cbn [with_optdata with_tcp tcpOptions tcpData Buffer]. rewrite rd_snil, !app_nil_r. reflexivity. }
  assert (CU : cut_at p1 0 = payload_at p) by (unfold cut_at; change (payload_at p1) with (payload_at p); cbn; lia).
  assert (BP : Buffer p2 = win (Buffer p) 0 (payload_at p) (s_cap (Buffer p))) by (rewrite EP; unfold detached_packet; cbn; now rewrite CU).
  set (c := splice b1 (hl p + 12) [tcpDataOffset p * 16]).
  set (B2 := detached_bytes p1 b1 0 tl cs) in *.
  assert (EB : B2 = fixip (version p) c tl cs).
  { unfold B2, detached_bytes, c. change (0 / 4) with 0. rewrite Z.sub_0_r. reflexivity. }
  assert (LC : length c = s_len (Buffer p)) by (unfold c; rewrite splice_length; cbn [length]; lia).
  assert (LB2 : length B2 = s_len (Buffer p)) by (rewrite EB, fixip_length; lia).
  assert (VS' : vslice h1 (Buffer p)) by (apply set_rd_vslice; auto).
  assert (RB : rd h2 (Buffer p2) = firstn (payload_at p) B2).
  { rewrite BP, EH. rewrite rd_win by (auto; lia). reflexivity. }
  exists (DropTCPDetachedBytes p2), h2. rewrite EM.
  assert (HP2 : hl p2 = hl p) by (rewrite EP; reflexivity).
  split. { unfold ConvertAcktoFinAck. change (Z.lor (Z.lor 0 TCPFinMask) TCPAckMask) with 17. rewrite E1. cbn [rbind]. fold p1. rewrite D. reflexivity. }
  split; [exact TB|]. split; [rewrite EP; reflexivity|].
  split. { pose proof T2 as (_ & _ & _ & (_ & _ & _ & _ & _ & S6 & _)). rewrite HP2 in S6. rewrite <- S6, EP. reflexivity. }
  split; [rewrite RB, firstn_length; lia|].
  split. { intros k K N1 N2 N3. rewrite RB, nth_firstn by lia. rewrite EB, fixip_nth by (auto; lia).
           unfold c, b1. rewrite !nth_splice_disj by (rewrite ?splice_length; cbn [length]; lia). reflexivity. }
  split. { destruct T2 as (_ & _ & _ & (_ & _ & _ & _ & S5' & _ & _)). rewrite HP2 in S5'. rewrite <- S5'.
           destruct S as (_ & _ & _ & _ & S5 & _ & _). fold b in S5. rewrite <- S5, EP. unfold detached_packet. cbn. apply Z.sub_0_r. }
  split; [rewrite EP; change (IPTotalLen (DropTCPDetachedBytes (detached_packet p1 0 tl cs))) with tl; unfold tl; now rewrite Z.add_0_r|].
  split. { intros V4' W. apply X1; [exact V4'|]. apply (hdr_ext b1 b 20); [lia| |exact W].
           unfold b1. apply firstn_splice_behind; cbn [length]; lia. }
  split; [reflexivity|]. split; [reflexivity|].
  rewrite EH. fold B2. unfold h1. rewrite set_rd_set by auto. apply (only_splices h (Buffer p) b B2); auto.
  - intros k K N. rewrite EB, fixip_nth by (first [lia|tauto]).
    unfold c, b1. rewrite !nth_splice_disj by (rewrite ?splice_length; cbn [length]; lia). reflexivity.
  - intros k. unfold ip_len_bytes. destruct (version p); lia.
Qed.

(** ** The authentication option *)
Lemma auth_walk_det b a : auth_walk b a -> forall a', auth_walk b a' -> a = a'.
Proof.
  induction 1 as [|k r a H W IH|r|k N1 N2 N3|k r N1 N2 N3|k l r a N1 N2 N3 N4 W IH]; intros a' W'; inversion W'; subst;
    try reflexivity; try lia; try (now auto); try (destruct H; lia).
Qed.
Lemma skipn_cons_nth (b : bytes) i : (i < length b)%nat -> skipn i b = nth i b 0 :: skipn (S i) b.
Proof.
  revert i. induction b as [|x b IH]; intros [|i] H; cbn in *; try lia; auto. apply IH. lia.
Qed.
Lemma auth_loop_spec b : is_bytes b -> forall n i fuel, (length b - i < n)%nat -> (n <= fuel)%nat ->
  exists a, auth_walk (skipn i b) a /\ auth_loop fuel b (Z.of_nat i) = Ok (auth_error a).
Proof.
  intros IB. induction n as [|n IH]; intros i fuel Hn Hf; [lia|].
  destruct fuel as [|f]; [lia|]. cbn [auth_loop]. unfold zlen.
  destruct (Z.ltb_spec (Z.of_nat i) (Z.of_nat (length b))) as [L|L].
  2:{ exists AuthMissing. rewrite skipn_all2 by lia. split; [constructor|reflexivity]. }
  rewrite (skipn_cons_nth b i) by lia. set (k := nth i b 0).
  assert (GI : gidx b (Z.of_nat i) = Ok k).
  { unfold k. rewrite gidx_ok by (unfold zlen; lia). now rewrite Nat2Z.id. }
  rewrite GI. cbn [rbind].
  destruct (Z.eqb_spec k 0) as [K0|K0]; cbn [orb].
  { destruct (IH (S i) f ltac:(lia) ltac:(lia)) as (a & W & E). exists a. split; [constructor; auto|].
    replace (Z.of_nat i + 1) with (Z.of_nat (S i)) by lia. exact E. }
  destruct (Z.eqb_spec k 1) as [K1|K1].
  { destruct (IH (S i) f ltac:(lia) ltac:(lia)) as (a & W & E). exists a. split; [constructor; auto|].
    replace (Z.of_nat i + 1) with (Z.of_nat (S i)) by lia. exact E. }
  unfold TCPAuthenticationOption. destruct (Z.eqb_spec k 34) as [K2|K2]; cbn [negb].
  { exists AuthFound. rewrite K2. split; [apply aw_found|reflexivity]. }
  destruct (Z.leb_spec (Z.of_nat (length b)) (Z.of_nat i + 1)) as [L1|L1].
  { exists AuthMissing. rewrite skipn_all2 by lia. split; [now apply aw_cut|reflexivity]. }
  rewrite (skipn_cons_nth b (S i)) by lia. set (l := nth (S i) b 0).
  assert (GL : gidx b (Z.of_nat i + 1) = Ok l).
  { unfold l. rewrite gidx_ok by (unfold zlen; lia). replace (Z.to_nat (Z.of_nat i + 1)) with (S i) by lia. reflexivity. }
  rewrite GL. cbn [rbind]. assert (RL : 0 <= l < 256) by (apply nth_byte, IB).
  destruct (Z.eqb_spec l 0) as [Z0|Z0].
  { exists AuthBadLength. rewrite Z0. split; [now apply aw_zero|reflexivity]. }
  destruct (IH (i + Z.to_nat l)%nat f ltac:(lia) ltac:(lia)) as (a & W & E). exists a. split.
  - apply aw_skip; auto; [lia|]. unfold k, l. rewrite <- (skipn_cons_nth b (S i)) by lia.
    rewrite <- (skipn_cons_nth b i) by lia. fold l. rewrite skipn_skipn. rewrite Nat.add_comm. exact W.
  - replace (Z.of_nat i + l) with (Z.of_nat (i + Z.to_nat l)) by lia. exact E.
Qed.

Lemma auth_option : forall h p fuel, tcp_agrees h p -> (256 <= fuel)%nat ->
  let b := rd h (Buffer p) in let o := hl p in
  (4 * tcp_offset b o <= 20 -> CheckTCPAuthenticationOption fuel h p = Ok (Some errTCPAuthOption)) /\
  (20 < 4 * tcp_offset b o -> zlen b < Z.of_nat o + 4 * tcp_offset b o ->
     CheckTCPAuthenticationOption fuel h p = Ok (Some errInvalidTCP)) /\
  (20 < 4 * tcp_offset b o -> Z.of_nat o + 4 * tcp_offset b o <= zlen b ->
     exists a, auth_walk (tcp_options b o) a /\ CheckTCPAuthenticationOption fuel h p = Ok (auth_error a)).
Proof.
  intros h p fuel T F b o. pose proof T as (A & P & L & S). facts A. rewrite LB in L. pose proof A as (_ & IB & AL & _).
  destruct (tcp_agrees_facts h p T) as (_ & _ & R3 & _).
  assert (S5 : tcpDataOffset p = tcp_offset b o) by apply S.
  assert (HLL : (hl p <= 40)%nat) by (unfold hl; destruct (version p); lia).
  unfold CheckTCPAuthenticationOption. rewrite <- S5.
  assert (SB : TCPDataStartBytes p = 4 * tcpDataOffset p) by (unfold TCPDataStartBytes, u16; lia).
  assert (U8 : u8 (tcpDataOffset p * 4) = 4 * tcpDataOffset p) by (unfold u8; lia).
  rewrite SB, U8, HL1. unfold minTCPIPPacketLen, zlen.
  assert (LBb : length b = s_len (Buffer p)) by exact LB. rewrite LBb. fold o.
  destruct (Z.ltb_spec (Z.of_nat (s_len (Buffer p))) (Z.of_nat o + 20)) as [X|X]; [unfold o in X; lia|].
  destruct (Z.leb_spec (4 * tcpDataOffset p) 20) as [Y|Y]; [split; [auto|split; intros; lia]|].
  split; [intros; lia|].
  destruct (Z.ltb_spec (Z.of_nat (s_len (Buffer p))) (Z.of_nat o + 4 * tcpDataOffset p)) as [W|W];
    (split; [intros; try lia; reflexivity|intros _ W']); [lia|].
  replace (u8 (Z.of_nat o + 20)) with (Z.of_nat o + 20) by (unfold u8, o; lia).
  pose proof (reslice_win (Buffer p) 0 (s_len (Buffer p)) (s_cap (Buffer p)) (Z.of_nat o + 20) (Z.of_nat o + 4 * tcpDataOffset p)
    ltac:(lia) ltac:(unfold o; lia)) as RW. rewrite win_all in RW. rewrite RW. cbn [rbind].
  assert (R : rd h (win (Buffer p) (0 + Z.to_nat (Z.of_nat o + 20)) (Z.to_nat (Z.of_nat o + 4 * tcpDataOffset p) - Z.to_nat (Z.of_nat o + 20))
     (s_cap (Buffer p) - Z.to_nat (Z.of_nat o + 20))) = tcp_options b o).
  { rewrite <- (set_rd_same h (Buffer p) VS) at 1. rewrite rd_win by (auto; unfold o; lia). unfold tcp_options, field. rewrite <- S5.
    unfold b, o. f_equal; [lia|]. f_equal. lia. }
  rewrite R.
  assert (IBo : is_bytes (tcp_options b o)) by (unfold tcp_options, field; apply is_bytes_firstn, is_bytes_skipn, IB).
  assert (LO : (length (tcp_options b o) < 256)%nat).
  { unfold tcp_options, field. rewrite firstn_length. rewrite <- S5. lia. }
  destruct (auth_loop_spec (tcp_options b o) IBo 256 0 fuel ltac:(lia) F) as (a & W1 & W2). exists a. split; [exact W1|exact W2].
Qed.

(** ** Flag text *)
Lemma flags_text : forall f, 0 <= f < 256 ->
  exists u a p r s n, TCPFlagsToStr f = [u; a; p; r; s; n] /\
    u = (if Z.testbit f 5 then 85 else 46) /\ a = (if Z.testbit f 4 then 65 else 46) /\ p = (if Z.testbit f 3 then 80 else 46) /\
    r = (if Z.testbit f 2 then 82 else 46) /\ s = (if Z.testbit f 1 then 83 else 46) /\ n = (if Z.testbit f 0 then 70 else 46).
Proof.
  intros f R.
  assert (B : forall i, 0 <= i -> (Z.land f (2 ^ i) =? 0) = negb (Z.testbit f i)).
  { intros i I. rewrite <- Z.shiftl_1_l. destruct (Z.testbit f i) eqn:Q; cbn [negb].
    - apply Z.eqb_neq. intros X. assert (Y : Z.testbit (Z.land f (Z.shiftl 1 i)) i = false) by (rewrite X; apply Z.bits_0).
      rewrite Z.land_spec, Q in Y. rewrite Z.shiftl_spec, Z.sub_diag in Y by lia. discriminate.
    - apply Z.eqb_eq. apply Z.bits_inj'. intros j J. rewrite Z.bits_0, Z.land_spec, Z.shiftl_spec by lia.
      destruct (Z.eq_dec i j) as [<-|NE]; [rewrite Q; reflexivity|]. apply andb_false_intro2.
      change 1 with (2 ^ 0). apply Z.pow2_bits_false. lia. }
  pose proof (B 5 ltac:(lia)) as B5. pose proof (B 4 ltac:(lia)) as B4. pose proof (B 3 ltac:(lia)) as B3.
  pose proof (B 2 ltac:(lia)) as B2. pose proof (B 1 ltac:(lia)) as B1. pose proof (B 0 ltac:(lia)) as B0.
  unfold TCPFlagsToStr. change (2 ^ 5) with 32 in B5. change (2 ^ 4) with 16 in B4. change (2 ^ 3) with 8 in B3.
  change (2 ^ 2) with 4 in B2. change (2 ^ 1) with 2 in B1. change (2 ^ 0) with 1 in B0.
  rewrite B5, B4, B3, B2, B1, B0.
  destruct (Z.testbit f 5), (Z.testbit f 4), (Z.testbit f 3), (Z.testbit f 2), (Z.testbit f 1), (Z.testbit f 0); cbn [negb app];
    do 6 eexists; repeat split.
Qed.
Lemma flags_text_equal : forall f g, 0 <= f < 256 -> 0 <= g < 256 ->
  TCPFlagsToStr f = TCPFlagsToStr g <-> f mod 64 = g mod 64.
Proof.
  intros f g Rf Rg.
  destruct (flags_text f Rf) as (u & a & p & r & s & n & E & F1 & F2 & F3 & F4 & F5 & F6).
  destruct (flags_text g Rg) as (u' & a' & p' & r' & s' & n' & E' & G1 & G2 & G3 & G4 & G5 & G6).
  rewrite E, E'. split.
  - intros X. injection X as X1 X2 X3 X4 X5 X6. subst.
    assert (T : forall (x y : bool) c, c <> 46 -> (if x then c else 46) = (if y then c else 46) -> x = y).
    { intros [|] [|] c Hc Q; auto; congruence. }
    apply T in X1; [|lia]. apply T in X2; [|lia]. apply T in X3; [|lia]. apply T in X4; [|lia]. apply T in X5; [|lia]. apply T in X6; [|lia].
    change 64 with (2 ^ 6). apply Z.bits_inj'. intros j J. destruct (Z.lt_ge_cases j 6).
    + rewrite !Z.mod_pow2_bits_low by lia.
      assert (j = 0 \/ j = 1 \/ j = 2 \/ j = 3 \/ j = 4 \/ j = 5) as [->|[->|[->|[->|[->| ->]]]]] by lia; auto.
    + rewrite !Z.mod_pow2_bits_high by lia. reflexivity.
  - intros X. assert (B : forall j, 0 <= j < 6 -> Z.testbit f j = Z.testbit g j).
    { intros j J. rewrite <- (Z.mod_pow2_bits_low f 6 j), <- (Z.mod_pow2_bits_low g 6 j) by lia. change (2 ^ 6) with 64. now rewrite X. }
    subst. rewrite !B by lia. reflexivity.
Qed.
