(** UDP control packets and UDP data. *)
From Verif Require Export Proof.PktAttachUdp Spec.Signature.

Lemma bytes_eqb_iff a b : bytes_eqb a b = true <-> a = b.
Proof.
  revert b. induction a as [|x a IH]; intros [|y b]; cbn [bytes_eqb]; split; intros H; try congruence; try discriminate.
  - apply andb_true_iff in H. destruct H as [H1 H2]. apply Z.eqb_eq in H1. apply IH in H2. congruence.
  - injection H as -> ->. apply andb_true_iff. split; [apply Z.eqb_refl|now apply IH].
Qed.
Lemma marker_signature : UDPAuthMarker = control_signature.
Proof. reflexivity. Qed.

Lemma type_of_buffer : forall d, is_bytes d ->
  (has_signature d -> GetUDPTypeFromBuffer d = Ok (Z.land (byte_at d 8) 240)) /\
  (~ has_signature d -> GetUDPTypeFromBuffer d = Ok 0).
Proof.
  intros d ID. unfold GetUDPTypeFromBuffer, UDPDataPos, UDPSignatureLen, udpSignatureEnd, udpAuthMarkerOffset, UDPPacketMask, has_signature.
  destruct (Z.ltb_spec (zlen d) (8 + 20)) as [L|L].
  - split; [intros [H _]; unfold zlen in L; lia|auto].
  - unfold zlen in L. rewrite (gsl_ok d 8 28) by (unfold zlen; lia). cbn [rbind]. rewrite (gsl_ok d 10 28) by (unfold zlen; lia). cbn [rbind].
    assert (E1 : sub d (Z.to_nat 10) (Z.to_nat 28) = field d 10 18) by reflexivity. rewrite E1.
    assert (E2 : gidx (sub d (Z.to_nat 8) (Z.to_nat 28)) 0 = Ok (byte_at d 8)).
    { rewrite gidx_ok.
      - unfold sub. rewrite nth_firstn' by (cbn; lia). rewrite nth_skipn'. reflexivity.
      - unfold zlen, sub. rewrite firstn_length, skipn_length. change (Z.to_nat 28) with 28%nat. change (Z.to_nat 8) with 8%nat. lia. }
    destruct (bytes_eqb (field d 10 18) UDPAuthMarker) eqn:B; cbn [negb].
    + apply bytes_eqb_iff in B. rewrite marker_signature in B. rewrite E2. cbn [rbind].
      split; [reflexivity|]. intros N. exfalso. apply N. split; [lia|exact B].
    + split; [|reflexivity]. intros [_ H]. rewrite <- marker_signature in H. apply bytes_eqb_iff in H. congruence.
Qed.

Lemma marker_bytes ty : CreateUDPAuthMarker ty = Ok (ty :: 0 :: control_signature).
Proof. unfold CreateUDPAuthMarker. vm_compute. reflexivity. Qed.

(** accessors of a UDP packet *)
Lemma udp_part h p : udp_agrees h p ->
  exists s, resl_from (Buffer p) (ipHeaderLen p) = Ok s /\ rd h s = skipn (hl p) (rd h (Buffer p)) /\
    s = win (Buffer p) (hl p) (s_len (Buffer p) - hl p) (s_cap (Buffer p) - hl p).
Proof.
  intros (A & _). facts A. exists (win (Buffer p) (hl p) (s_len (Buffer p) - hl p) (s_cap (Buffer p) - hl p)).
  split; [apply (resl_hdr h p A)|]. split; [|reflexivity].
  pose proof (rd_win h (Buffer p) VS (rd h (Buffer p)) (hl p) (s_len (Buffer p) - hl p) (s_cap (Buffer p) - hl p) LB ltac:(lia)) as X.
  rewrite set_rd_same in X by exact VS. rewrite X. apply firstn_all2. rewrite skipn_length. lia.
Qed.
Lemma rd_tail h s k c : vslice h s -> (k <= s_len s)%nat -> rd h (win s k (s_len s - k) c) = skipn k (rd h s).
Proof.
  intros VS K. pose proof (vslice_len h s VS) as LB.
  pose proof (rd_win h s VS (rd h s) k (s_len s - k) c LB ltac:(lia)) as X.
  rewrite set_rd_same in X by exact VS. rewrite X. apply firstn_all2. rewrite skipn_length. lia.
Qed.
Lemma type_of_packet h p : udp_agrees h p -> GetUDPType h p = GetUDPTypeFromBuffer (skipn (hl p) (rd h (Buffer p))).
Proof.
  intros T. destruct (udp_part h p T) as (s & E & R & _). unfold GetUDPType. rewrite E. cbn [rbind]. now rewrite R.
Qed.
Lemma token_of_packet h p : udp_agrees h p ->
  exists s, ReadUDPToken p = Ok s /\ rd h s = skipn (hl p + 28) (rd h (Buffer p)).
Proof.
  intros T. destruct (udp_part h p T) as (s & E & R & Q). unfold ReadUDPToken. rewrite E. cbn [rbind]. unfold udpJwtTokenOffset.
  destruct T as (A & _). facts A. assert (LS : s_len s = (s_len (Buffer p) - hl p)%nat) by (rewrite Q; reflexivity).
  rewrite LS. destruct (Z.leb_spec (Z.of_nat (s_len (Buffer p) - hl p)) 28) as [H|H].
  - exists snil. split; [reflexivity|]. rewrite skipn_all2 by lia. reflexivity.
  - rewrite Q, resl_from_win by lia. eexists. split; [reflexivity|]. change (Z.to_nat 28) with 28%nat.
    replace (s_len (Buffer p) - hl p - 28)%nat with (s_len (Buffer p) - (hl p + 28))%nat by lia. apply rd_tail; [exact VS|lia].
Qed.
Lemma data_of_packet h p : udp_agrees h p ->
  exists s, GetUDPData p = Ok s /\ rd h s = skipn (hl p + 8) (rd h (Buffer p)).
Proof.
  intros (A & _ & L & _). facts A. rewrite LB in L. unfold GetUDPData, UDPDataPos.
  assert (U : u8 (ipHeaderLen p + 8) = Z.of_nat (hl p + 8)) by (rewrite HL1; unfold u8, hl; destruct (version p); reflexivity).
  pose proof (resl_from_win (Buffer p) 0 (s_len (Buffer p)) (s_cap (Buffer p)) (Z.of_nat (hl p + 8)) ltac:(lia) ltac:(lia)) as X.
  rewrite win_all, Nat2Z.id in X. rewrite U, X. eexists. split; [reflexivity|].
  cbn [Nat.add]. apply rd_tail; [exact VS|lia].
Qed.

Lemma completes_valid h p : udp_agrees h p -> IPTotalLen p = zlen (rd h (Buffer p)) ->
  udp_length (rd h (Buffer p)) (hl p) = zlen (rd h (Buffer p)) - Z.of_nat (hl p) ->
  (version p = V4 -> udp_checksum (rd h (Buffer p)) 20 = 0) ->
  (version p = V6 -> l4_valid V6 40 PROTO_UDP (rd h (Buffer p))) ->
  (version p = V4 -> ip4_valid (rd h (Buffer p))) -> udp_complete (version p) (rd h (Buffer p)).
Proof.
  intros (A & _ & L & _) TL UL C4 C6 W. facts A. pose proof A as (_ & IB & AL & M). unfold udp_complete, hl in *. destruct (version p).
  - destruct M as (M1 & M2 & M3 & M4 & M5 & M6 & M7 & M8). split; [congruence|]. split; [exact UL|]. auto.
  - destruct M as (M1 & M2 & M3 & M4 & M5 & M6 & M7). split; [|split; [exact UL|auto]].
    pose proof (be16f_range (rd h (Buffer p)) 4 IB ltac:(lia)) as R. fold (ip6_payload (rd h (Buffer p))) in R.
    unfold zlen in *. rewrite LB in *. lia.
Qed.

Lemma completes h p : udp_agrees h p -> IPTotalLen p = zlen (rd h (Buffer p)) ->
  udp_length (rd h (Buffer p)) (hl p) = zlen (rd h (Buffer p)) - Z.of_nat (hl p) ->
  (version p = V4 -> udp_checksum (rd h (Buffer p)) 20 = 0) ->
  (version p = V6 -> udp6_right (rd h (Buffer p))) ->
  (version p = V4 -> ip4_valid (rd h (Buffer p))) -> udp_complete (version p) (rd h (Buffer p)).
Proof. intros U TL UL C4 C6 W. apply completes_valid; auto. intros V. apply C6, V. Qed.

Lemma control_packet : forall grow h p ty d t, udp_agrees h p -> s_len (Buffer p) = (hl p + 8)%nat ->
  IPTotalLen p = Z.of_nat (hl p + 8) -> (version p = V4 -> ip4_valid (rd h (Buffer p))) ->
  0 <= ty < 256 -> CreateUDPAuthMarker ty = Ok (rd h d) -> valid h d -> valid h t -> is_bytes (rd h t) ->
  zlen (rd h (Buffer p) ++ rd h d ++ rd h t) < 65536 ->
  exists p' h' s, UDPTokenAttach grow h p d t = Ok (p', h') /\ udp_agrees h' p' /\
    GetUDPType h' p' = Ok (Z.land ty 240) /\
    ReadUDPToken p' = Ok s /\ rd h' s = rd h t /\
    zlen (rd h' (Buffer p')) = Z.of_nat (hl p) + 28 + zlen (rd h t) /\
    version p' = version p /\ udp_complete (version p') (rd h' (Buffer p')) /\ header_kept h h' p p'.
Proof.
  intros grow h p ty d t T LB8 TL W RT MK VD VT IT LL. rewrite marker_bytes in MK. apply Ok_inj in MK.
  assert (ID : is_bytes (rd h d)).
  { rewrite <- MK. constructor; [exact RT|]. constructor; [unfold is_byte; lia|]. bytes_tac. }
  destruct (token_attach grow h p d t T VD VT ID IT LL) as (p' & h' & E & T' & V' & _ & _ & _ & _ & TL' & LN & SK & UL & C4 & C6 & W' & HK).
  pose proof T as (A & _). facts A.
  assert (H' : hl p' = hl p) by (unfold hl; now rewrite V').
  assert (SK' : skipn (hl p + 8) (rd h' (Buffer p')) = ty :: 0 :: control_signature ++ rd h t).
  { rewrite SK, skipn_all2 by lia. rewrite <- MK. reflexivity. }
  assert (ZL : zlen (rd h' (Buffer p')) = Z.of_nat (hl p) + 28 + zlen (rd h t)).
  { rewrite LN. unfold zlen. rewrite !app_length, LB, LB8, <- MK. change (length (ty :: 0 :: control_signature)) with 20%nat. lia. }
  destruct (token_of_packet h' p' T') as (s & E2 & R2). rewrite H' in R2.
  exists p', h', s. split; [exact E|]. split; [exact T'|]. split.
  { rewrite (type_of_packet h' p' T'), H'.
    assert (ND : forall k, nth (8 + k) (skipn (hl p) (rd h' (Buffer p'))) 0 = nth k (ty :: 0 :: control_signature ++ rd h t) 0).
    { intros k. rewrite nth_skipn'. rewrite <- SK', nth_skipn'. f_equal. lia. }
    assert (IB' : is_bytes (rd h' (Buffer p'))) by (destruct T' as (A' & _); apply A').
    destruct (type_of_buffer (skipn (hl p) (rd h' (Buffer p'))) ltac:(apply is_bytes_skipn, IB')) as [TB _].
    rewrite TB.
    - unfold byte_at. change 8%nat with (8 + 0)%nat at 1. rewrite (ND 0%nat). reflexivity.
    - split. { rewrite skipn_length. unfold zlen in ZL. lia. }
      assert (F : field (skipn (hl p) (rd h' (Buffer p'))) 10 18 = field (skipn (hl p + 8) (rd h' (Buffer p'))) 2 18).
      { unfold field. rewrite !skipn_skipn. do 2 f_equal. lia. }
      rewrite F, SK'. unfold field. cbn [skipn]. rewrite firstn_app_le by (cbn; lia). reflexivity. }
  split; [exact E2|]. split.
  { rewrite R2. replace (hl p + 28)%nat with (20 + (hl p + 8))%nat by lia. rewrite <- skipn_skipn, SK'. reflexivity. }
  split; [exact ZL|]. split; [exact V'|]. split; [|exact HK].
  apply completes; auto; rewrite ?V', ?H'; auto.
  rewrite TL', TL. unfold zlen in *. rewrite !app_length in *. rewrite LB, LB8 in *. rewrite <- MK in *.
  change (length (ty :: 0 :: control_signature)) with 20%nat in *. rewrite Z.mod_small; lia.
Qed.

(** ** Data *)
Lemma data_detach : forall h p, udp_agrees h p ->
  exists p', UDPDataDetach p = Ok p' /\ p' = with_buffer p (win (Buffer p) 0 (hl p + 8) (s_cap (Buffer p))) /\ udp_agrees h p' /\
    rd h (Buffer p') = firstn (hl p + 8) (rd h (Buffer p)) /\ s_len (Buffer p') = (hl p + 8)%nat.
Proof.
  intros h p T. pose proof T as (A & P & L & S). facts A. rewrite LB in L. pose proof A as (_ & IB & AL & M).
  unfold UDPDataDetach, UDPDataPos.
  assert (U : u8 (ipHeaderLen p + 8) = Z.of_nat (hl p + 8)) by (rewrite HL1; unfold u8, hl; destruct (version p); reflexivity).
  rewrite U, resl_to_ok by lia. rewrite Nat2Z.id. cbn [rbind].
  replace (mkSl (s_arr (Buffer p)) (s_off (Buffer p)) (hl p + 8) (s_cap (Buffer p))) with (win (Buffer p) 0 (hl p + 8) (s_cap (Buffer p)))
    by (unfold win; now rewrite Nat.add_0_r).
  set (p' := with_buffer p (win (Buffer p) 0 (hl p + 8) (s_cap (Buffer p)))).
  exists p'. split; [reflexivity|]. split; [reflexivity|].
  assert (R : rd h (Buffer p') = firstn (hl p + 8) (rd h (Buffer p))).
  { pose proof (rd_win h (Buffer p) VS (rd h (Buffer p)) 0 (hl p + 8) (s_cap (Buffer p)) LB ltac:(lia)) as X.
    rewrite set_rd_same in X by exact VS. exact X. }
  split; [|split; [exact R|reflexivity]].
  assert (A' : ip_agrees h p').
  { pose proof (agrees_fixed h p p' (hl p + 8) (ipTotalLength p) (ipChecksum p) (rd h (Buffer p)) A) as X.
    rewrite set_rd_same in X by exact VS. apply X; auto; [lia|]. now rewrite fixip_own. }
  split; [exact A'|]. split; [exact P|]. rewrite R. change (hl p') with (hl p). rewrite firstn_length. split; [lia|].
  destruct S as [S1 S2]. unfold shows_udp, l4_sport, l4_dport in *. rewrite !be16f_firstn by lia. split; [exact S1|exact S2].
Qed.

(** whatever the in-place append of the header does to the data given *)
Lemma data_attach_general : forall grow h p hd d r, udp_agrees h p -> valid h hd ->
  is_bytes (rd h hd) -> is_bytes r -> rd (fst (gappend grow h (Buffer p) (rd h hd))) d = r ->
  zlen (rd h (Buffer p) ++ rd h hd ++ r) < 65536 ->
  exists p' h', UDPDataAttach grow h p hd d = Ok (p', h') /\ udp_agrees h' p' /\ version p' = version p /\
    SourceAddress p' = SourceAddress p /\ DestinationAddress p' = DestinationAddress p /\
    SourcePort p' = SourcePort p /\ DestPort p' = DestPort p /\
    IPTotalLen p' = zlen (rd h' (Buffer p')) /\
    zlen (rd h' (Buffer p')) = zlen (rd h (Buffer p) ++ rd h hd ++ r) /\
    skipn (hl p + 8) (rd h' (Buffer p')) = skipn (hl p + 8) (rd h (Buffer p)) ++ rd h hd ++ r /\
    udp_length (rd h' (Buffer p')) (hl p) = zlen (rd h' (Buffer p')) - Z.of_nat (hl p) /\
    (version p = V4 -> udp_checksum (rd h' (Buffer p')) 20 = 0) /\
    (version p = V6 -> udp6_right (rd h' (Buffer p'))) /\
    (version p = V4 -> ip4_valid (rd h (Buffer p)) -> ip4_valid (rd h' (Buffer p'))) /\
    header_kept h h' p p'.
Proof.
  intros grow h p hd d r T VH IH ID AS LL. pose proof T as (A & P & L & S). facts A. rewrite LB in L. pose proof A as (AV & IB & AL & M).
  unfold UDPDataAttach.
  destruct (gappend_rd grow h (Buffer p) (rd h hd) AV) as (R1 & V1 & N1 & K1 & S1 & _).
  destruct (gappend grow h (Buffer p) (rd h hd)) as [h1 b1]. cbn [fst snd] in *.
  rewrite AS. change (Buffer (with_buffer p b1)) with b1.
  destruct (gappend_rd grow h1 b1 (r) V1) as (R2 & V2 & N2 & _ & _ & _).
  destruct (gappend grow h1 b1 (r)) as [h2 b2]. cbn [fst snd] in *.
  rewrite R1, <- app_assoc in R2.
  set (p2 := with_buffer (with_buffer p b1) b2).
  assert (E2 : p2 = with_buffer p b2) by reflexivity.
  assert (LB2 : Z.of_nat (s_len b2) = zlen (rd h (Buffer p) ++ rd h hd ++ r)).
  { unfold zlen. rewrite N2, N1, !app_length, LB. lia. }
  assert (T2 : udp_agrees h2 p2).
  { rewrite E2. apply (udp_grown h h2 p b2 (rd h hd ++ r)); auto; [apply is_bytes_app; auto|lia]. }
  change (Buffer p2) with b2. change (ipTotalLength p2) with (ipTotalLength p).
  destruct (udp_resize h2 p2 (s_len b2) (u16 (Z.of_nat (s_len b2))) T2) as (cs & p3 & h3 & E3 & RC & Q3 & F3 & T3 & R3 & W3 & O3).
  { change (hl p2) with (hl p). change (Buffer p2) with b2. unfold zlen in LB2. rewrite !app_length in LB2. lia. }
  { unfold u16. lia. }
  change (Buffer p2) with b2 in *. rewrite win_all in E3, Q3. change (ipTotalLength p2) with (ipTotalLength p) in *.
  replace (with_buffer p2 b2) with p2 in E3, Q3 by reflexivity. rewrite E3. cbn [rbind].
  destruct (udp_finish h3 p3 T3) as (p4 & h4 & E4 & T4 & Q4 & LL4 & F4 & K4 & UL & C4 & C6 & PV & O4). rewrite E4.
  assert (B3 : Buffer p3 = b2) by (rewrite Q3; reflexivity).
  assert (VV : version p3 = version p) by (rewrite Q3; reflexivity).
  assert (HH : hl p3 = hl p) by (unfold hl; now rewrite VV).
  rewrite B3, HH, ?VV in *. rewrite R3, R2 in *. change (version p2) with (version p) in *.
  assert (B4 : Buffer p4 = b2) by (rewrite Q4; exact B3).
  set (b := rd h (Buffer p) ++ rd h hd ++ r) in *.
  assert (LBB : length b = s_len b2) by (unfold zlen in LB2; lia).
  assert (LB20 : (hl p + 8 <= length b)%nat) by (unfold b; rewrite app_length; lia).
  set (FX := fixip (version p) b (u16 (Z.of_nat (s_len b2))) cs) in *.
  assert (LFX : length FX = length b) by (unfold FX; apply fixip_length; lia).
  assert (FN : firstn (s_len b2) FX = FX) by (apply firstn_all2; lia). rewrite FN in *.
  exists p4, h4. rewrite B4. split; [reflexivity|]. split; [exact T4|]. split; [rewrite Q4; exact VV|].
  split; [rewrite Q4, Q3; reflexivity|]. split; [rewrite Q4, Q3; reflexivity|].
  split; [rewrite Q4, Q3; reflexivity|]. split; [rewrite Q4, Q3; reflexivity|].
  assert (LZ : zlen (rd h4 b2) = zlen b) by (unfold zlen; congruence).
  split. { rewrite LZ. replace (IPTotalLen p4) with (IPTotalLen p3) by (rewrite Q4; reflexivity). rewrite Q3.
           change (IPTotalLen (with_total_csum p2 (u16 (Z.of_nat (s_len b2))) cs)) with (u16 (Z.of_nat (s_len b2))).
           unfold u16. rewrite Z.mod_small; lia. }
  split; [exact LZ|].
  split. { rewrite K4. unfold FX. rewrite fixip_skipn by lia. unfold b. apply skipn_app_le. lia. }
  split. { rewrite UL, LZ. unfold zlen. lia. }
  split. { intros Q. pose proof (C4 Q) as C. revert C. unfold hl. rewrite Q. auto. }
  split; [exact C6|]. split.
  { intros Q W. apply PV; [exact Q|]. apply W3; [exact Q|]. unfold b. apply ip4_valid_app; [lia|exact W]. }
  intros k K NK. rewrite B4. rewrite <- (nth_firstn _ k (hl p + 4)) by lia. rewrite F4. rewrite nth_firstn by lia.
  unfold FX. rewrite fixip_nth by (auto; lia). unfold b. apply app_nth1. lia.
Qed.

Lemma data_attach : forall grow h p hd d, udp_agrees h p -> valid h hd -> valid h d ->
  is_bytes (rd h hd) -> is_bytes (rd h d) -> append_safe (Buffer p) (length (rd h hd)) d ->
  zlen (rd h (Buffer p) ++ rd h hd ++ rd h d) < 65536 ->
  exists p' h', UDPDataAttach grow h p hd d = Ok (p', h') /\ udp_agrees h' p' /\ version p' = version p /\
    SourceAddress p' = SourceAddress p /\ DestinationAddress p' = DestinationAddress p /\
    SourcePort p' = SourcePort p /\ DestPort p' = DestPort p /\
    IPTotalLen p' = zlen (rd h' (Buffer p')) /\
    zlen (rd h' (Buffer p')) = zlen (rd h (Buffer p) ++ rd h hd ++ rd h d) /\
    skipn (hl p + 8) (rd h' (Buffer p')) = skipn (hl p + 8) (rd h (Buffer p)) ++ rd h hd ++ rd h d /\
    udp_length (rd h' (Buffer p')) (hl p) = zlen (rd h' (Buffer p')) - Z.of_nat (hl p) /\
    (version p = V4 -> udp_checksum (rd h' (Buffer p')) 20 = 0) /\
    (version p = V6 -> udp6_right (rd h' (Buffer p'))) /\
    (version p = V4 -> ip4_valid (rd h (Buffer p)) -> ip4_valid (rd h' (Buffer p'))) /\
    header_kept h h' p p'.
Proof.
  intros grow h p hd d T VH VD IH ID AS LL. pose proof T as ((AV & _) & _).
  assert (RD : rd (fst (gappend grow h (Buffer p) (rd h hd))) d = rd h d) by (apply (gappend_rd grow h (Buffer p) (rd h hd) AV); auto).
  exact (data_attach_general grow h p hd d (rd h d) T VH IH ID RD LL).
Qed.

Lemma data_replaced : forall grow h p hd d, udp_agrees h p -> valid h hd -> valid h d ->
  is_bytes (rd h hd) -> is_bytes (rd h d) ->
  append_safe (win (Buffer p) 0 (hl p + 8) (s_cap (Buffer p))) (length (rd h hd)) d ->
  Z.of_nat (hl p) + 8 + zlen (rd h hd ++ rd h d) < 65536 ->
  (version p = V4 -> ip4_valid (rd h (Buffer p))) ->
  exists p1 p2 h2 s, UDPDataDetach p = Ok p1 /\ UDPDataAttach grow h p1 hd d = Ok (p2, h2) /\ udp_agrees h2 p2 /\
    GetUDPData p2 = Ok s /\ rd h2 s = rd h hd ++ rd h d /\
    version p2 = version p /\ SourceAddress p2 = SourceAddress p /\ DestinationAddress p2 = DestinationAddress p /\
    SourcePort p2 = SourcePort p /\ DestPort p2 = DestPort p /\
    IPTotalLen p2 = zlen (rd h2 (Buffer p2)) /\
    udp_complete (version p) (rd h2 (Buffer p2)) /\ header_kept h h2 p p2.
Proof.
  intros grow h p hd d T VH VD IH ID AS LL W. destruct (data_detach h p T) as (p1 & E1 & Q1 & T1 & R1 & L1).
  pose proof T as (A & P & L & S). facts A. rewrite LB in L.
  assert (V1 : version p1 = version p) by (rewrite Q1; reflexivity).
  assert (H1 : hl p1 = hl p) by (unfold hl; now rewrite V1).
  destruct (data_attach grow h p1 hd d T1 VH VD IH ID) as (p2 & h2 & E2 & T2 & V2 & SA & DA & SP & DP & TL & LN & SK & UL & C4 & C6 & W2 & HK).
  { rewrite Q1. exact AS. }
  { rewrite R1. unfold zlen in *. rewrite app_length, firstn_length. lia. }
  assert (H2 : hl p2 = hl p) by (unfold hl in *; now rewrite V2).
  destruct (data_of_packet h2 p2 T2) as (s & E3 & R3). rewrite H2 in R3.
  exists p1, p2, h2, s. split; [exact E1|]. split; [exact E2|]. split; [exact T2|]. split; [exact E3|]. split.
  { rewrite R3. rewrite H1 in SK. rewrite SK, R1, skipn_all2 by (rewrite firstn_length; lia). reflexivity. }
  split; [congruence|]. rewrite SA, DA, SP, DP, Q1. do 4 (split; [reflexivity|]). split; [exact TL|]. split.
  - rewrite <- V1, <- V2. apply completes; auto; rewrite ?H2, ?V2; auto; [rewrite H1 in UL; exact UL|].
    intros V. apply W2; [exact V|]. apply (hdr_ext (rd h (Buffer p1)) (rd h (Buffer p)) (hl p + 8)); [lia| |apply W; congruence].
    rewrite R1, firstn_firstn, Nat.min_id. reflexivity.
  - intros k K NK. rewrite HK by (rewrite ?H1, ?V1; auto). rewrite R1. apply nth_firstn. lia.
Qed.
