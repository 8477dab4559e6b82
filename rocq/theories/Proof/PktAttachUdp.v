(** UDPTokenAttach, UDPDataDetach, UDPDataAttach, packet types. *)
From Verif Require Export Proof.PktReverse.

Lemma udp_ext h h' p p' : udp_agrees h p -> valid h' (Buffer p') -> Buffer p' = Buffer p -> rd h' (Buffer p) = rd h (Buffer p) ->
  version p' = version p -> ipHeaderLen p' = ipHeaderLen p -> ipProto p' = ipProto p -> ipTotalLength p' = ipTotalLength p ->
  ipChecksum p' = ipChecksum p -> sourceAddress p' = sourceAddress p -> destinationAddress p' = destinationAddress p ->
  udpSourcePort p' = udpSourcePort p -> udpDestinationPort p' = udpDestinationPort p -> udp_agrees h' p'.
Proof.
  intros (A & P & L & S) V B R E1 E2 E3 E4 E5 E6 E7 E8 E9.
  assert (P' : IPProto p' = PROTO_UDP) by (unfold IPProto in *; congruence).
  split; [eapply ip_agrees_ext; eauto|]. split; [exact P'|]. rewrite B, R. assert (H : hl p' = hl p) by (unfold hl; now rewrite E1).
  rewrite H. split; [exact L|]. destruct (udp_ports p P) as [U1 U2]. destruct (udp_ports p' P') as [U3 U4].
  unfold shows_udp in *. rewrite U3, U4, E8, E9, <- U1, <- U2. exact S.
Qed.

(** the bytes grew at the end *)
Lemma udp_grown h h' p s' v : udp_agrees h p -> valid h' s' -> rd h' s' = rd h (Buffer p) ++ v -> is_bytes v ->
  Z.of_nat (s_len s') < 65536 -> udp_agrees h' (with_buffer p s').
Proof.
  intros (A & P & L & S) V R IV LS. pose proof (valid_len h' s' V) as LV. rewrite R, app_length in LV.
  facts A. rewrite LB in L, LV. pose proof A as (_ & IB & AL & M). set (b := rd h (Buffer p)) in *.
  assert (NB : forall o, (o < s_len (Buffer p))%nat -> nth o (b ++ v) 0 = nth o b 0) by (intros; apply app_nth1; lia).
  assert (FB : forall o n, (o + n <= s_len (Buffer p))%nat -> field (b ++ v) o n = field b o n).
  { intros o n Q. unfold field. rewrite skipn_app_le by lia. apply firstn_app_le. rewrite skipn_length. lia. }
  assert (BB : forall o, (o + 2 <= s_len (Buffer p))%nat -> be16f (b ++ v) o = be16f b o) by (intros; unfold be16f; rewrite FB by lia; reflexivity).
  split; [|split; [exact P|]].
  - unfold ip_agrees. change (Buffer (with_buffer p s')) with s'. rewrite R. split; [exact V|]. split; [apply is_bytes_app; auto|].
    split; [exact LS|]. change (version (with_buffer p s')) with (version p). change (ipHeaderLen (with_buffer p s')) with (ipHeaderLen p).
    change (IPProto (with_buffer p s')) with (IPProto p). change (IPTotalLen (with_buffer p s')) with (IPTotalLen p).
    change (ipChecksum (with_buffer p s')) with (ipChecksum p). change (SourceAddress (with_buffer p s')) with (SourceAddress p).
    change (DestinationAddress (with_buffer p s')) with (DestinationAddress p). unfold hl in *. rewrite app_length. destruct (version p).
    + destruct M as (M1 & M2 & M3 & M4 & M5 & M6 & M7 & M8).
      unfold byte_at, ip4_proto, ip4_total, ip4_checksum, ip4_src, ip4_dst, byte_at in *. rewrite !NB, !BB, !FB by lia. repeat split; auto; lia.
    + destruct M as (M1 & M2 & M3 & M4 & M5 & M6 & M7).
      unfold byte_at, ip6_next, ip6_payload, ip6_src, ip6_dst, byte_at in *. rewrite !NB, !BB, !FB by lia. repeat split; auto; lia.
  - change (Buffer (with_buffer p s')) with s'. change (hl (with_buffer p s')) with (hl p). rewrite R, app_length.
    split; [lia|]. destruct S as [S1 S2]. unfold shows_udp, l4_sport, l4_dport in *. rewrite !BB by lia. split; [exact S1|exact S2].
Qed.
Lemma ip4_valid_app b v : (20 <= length b)%nat -> ip4_valid (b ++ v) <-> ip4_valid b.
Proof. intros L. apply (hdr_ext (b ++ v) b 20); [lia|]. rewrite firstn_app_le by lia. reflexivity. Qed.

Lemma with_buffer_same p : with_buffer p (Buffer p) = p.
Proof. now destruct p. Qed.

(** appending [v] to a header and completing it *)
Lemma udp_appended h p s' h' v : udp_agrees h p -> valid h' s' -> rd h' s' = rd h (Buffer p) ++ v -> is_bytes v ->
  Z.of_nat (s_len s') < 65536 ->
  exists p'' h'', (let* h1 := fixupUDPHdr h' (with_buffer p s') in fixupUDPChecksum h1 (with_buffer p s')) = Ok (p'', h'') /\
    udp_agrees h'' p'' /\ p'' = with_udpcsum (with_buffer p s') (udpChecksum p'') /\
    length (rd h'' s') = (length (rd h (Buffer p)) + length v)%nat /\
    firstn (hl p + 4) (rd h'' s') = firstn (hl p + 4) (rd h (Buffer p)) /\
    skipn (hl p + 8) (rd h'' s') = skipn (hl p + 8) (rd h (Buffer p)) ++ v /\
    udp_length (rd h'' s') (hl p) = zlen (rd h'' s') - Z.of_nat (hl p) /\
    (version p = V4 -> udp_checksum (rd h'' s') 20 = 0) /\
    (version p = V6 -> udp6_right (rd h'' s')) /\
    (version p = V4 -> ip4_valid (rd h (Buffer p)) -> ip4_valid (rd h'' s')) /\
    (forall x, valid h' x -> valid h'' x).
Proof.
  intros T V R IV LS. pose proof (udp_grown h h' p s' v T V R IV LS) as T'.
  destruct (udp_finish h' (with_buffer p s') T') as (p'' & h'' & E & T2 & Q & LL & F & K & UL & C4 & C6 & PV & O).
  change (Buffer (with_buffer p s')) with s' in *. change (hl (with_buffer p s')) with (hl p) in *.
  change (version (with_buffer p s')) with (version p) in *. rewrite R in *.
  pose proof T as (A & P & L & S). facts A. pose proof A as (_ & IB & AL & M). set (b := rd h (Buffer p)) in *.
  assert (LV : length (b ++ v) = s_len s') by (rewrite <- R; apply valid_len, V).
  exists p'', h''. split; [exact E|]. split; [exact T2|]. split; [exact Q|]. split; [rewrite LL; apply app_length|].
  split; [rewrite F; apply firstn_app_le; lia|]. split; [rewrite K; apply skipn_app_le; lia|].
  split. { rewrite UL. unfold zlen. rewrite LL, LV. rewrite app_length in LV. lia. }
  split. { intros V4'. pose proof (C4 V4') as C. revert C. unfold hl. rewrite V4'. auto. }
  split; [exact C6|]. split; [intros V4' W; apply PV; [exact V4'|]; apply ip4_valid_app; [lia|exact W]|].
  intros x Vx. destruct O as (O1 & O2 & _). destruct Vx as [X1 X2]. split; [exact X1|]. rewrite O1, O2. exact X2.
Qed.

Lemma token_attach_full : forall grow h p d t, udp_agrees h p -> valid h d -> valid h t ->
  is_bytes (rd h d) -> is_bytes (rd h t) -> zlen (rd h (Buffer p) ++ rd h d ++ rd h t) < 65536 ->
  exists p' h', UDPTokenAttach grow h p d t = Ok (p', h') /\ udp_agrees h' p' /\ version p' = version p /\
    SourceAddress p' = SourceAddress p /\ DestinationAddress p' = DestinationAddress p /\
    SourcePort p' = SourcePort p /\ DestPort p' = DestPort p /\
    IPTotalLen p' = (IPTotalLen p + zlen (rd h d ++ rd h t)) mod 65536 /\
    zlen (rd h' (Buffer p')) = zlen (rd h (Buffer p) ++ rd h d ++ rd h t) /\
    skipn (hl p + 8) (rd h' (Buffer p')) = skipn (hl p + 8) (rd h (Buffer p)) ++ rd h d ++ rd h t /\
    udp_length (rd h' (Buffer p')) (hl p) = zlen (rd h' (Buffer p')) - Z.of_nat (hl p) /\
    (version p = V4 -> udp_checksum (rd h' (Buffer p')) 20 = 0) /\
    (version p = V6 -> udp6_right (rd h' (Buffer p'))) /\
    (version p = V4 -> ip4_valid (rd h (Buffer p)) -> ip4_valid (rd h' (Buffer p'))) /\
    header_kept h h' p p' /\ (forall x, valid h x -> valid h' x).
Proof.
  intros grow h p d t T VD VT ID IT LL. pose proof T as (A & P & L & S). facts A. rewrite LB in L. pose proof A as (AV & IB & AL & M).
  unfold UDPTokenAttach.
  assert (VN : valid h snil) by (split; cbn; [lia|left; reflexivity]).
  destruct (gappend_rd grow h snil (rd h d) VN) as (R1 & V1 & N1 & K1 & S1 & D1).
  destruct (gappend grow h snil (rd h d)) as [h1 d1]. cbn [fst snd] in *.
  assert (AS1 : forall x, valid h x -> rd h1 x = rd h x).
  { intros x Vx. apply S1; [exact Vx|]. destruct (Nat.eq_dec (length (rd h d)) 0) as [E0|E0]; [left; exact E0|right; left; cbn; lia]. }
  assert (RB1 : rd h1 (Buffer p) = rd h (Buffer p)) by (apply AS1, AV).
  assert (RT1 : rd h1 t = rd h t) by (apply AS1, VT).
  destruct (gappend_rd grow h1 d1 (rd h1 t) V1) as (R2 & V2 & N2 & K2 & S2 & D2).
  destruct (gappend grow h1 d1 (rd h1 t)) as [h2 d2]. cbn [fst snd] in *.
  assert (R1' : rd h1 d1 = rd h d) by (rewrite R1; reflexivity).
  rewrite R1', RT1 in R2.
  (* d2 shares nothing with the packet *)
  assert (NA : s_len d2 = 0%nat \/ s_arr d2 <> s_arr (Buffer p)).
  { assert (X1 : s_len d1 = 0%nat /\ s_cap d1 = 0%nat \/ s_arr d1 <> s_arr (Buffer p)).
    { destruct D1 as [D1|D1]; [right; lia|]. left. rewrite D1 in V1 |- *. destruct V1 as [V1 _]. cbn [s_len s_cap snil] in *. lia. }
    assert (LN : (s_arr (Buffer p) < length h1)%nat).
    { destruct (K1 _ AV) as [_ [Q|[Q _]]]; [lia|exact Q]. }
    destruct D2 as [D2|D2]; [right; lia|]. rewrite D2 in V2 |- *. destruct V2 as [V2 _]. cbn [s_len s_cap s_arr] in *.
    destruct X1 as [[X1 X2]|X1]; [left; lia|right; exact X1]. }
  assert (SB : rd h2 (Buffer p) = rd h (Buffer p)).
  { rewrite <- RB1. apply S2; [apply K1, AV|]. destruct (Nat.eq_dec (length (rd h1 t)) 0) as [E0|E0]; [left; exact E0|].
    destruct (Nat.leb_spec (s_len d1 + length (rd h1 t)) (s_cap d1)) as [Q|Q]; [right; right|right; left; exact Q].
    right. left. cbn [s_arr]. destruct D1 as [D1|D1]; [lia|]. rewrite D1 in Q. cbn [s_cap snil] in Q. lia. }
  cbv zeta. change (ipTotalLength (with_udp p (udpSourcePort p) (udpDestinationPort p) (udpChecksum p) d2)) with (ipTotalLength p).
  set (p0 := with_udp p (udpSourcePort p) (udpDestinationPort p) (udpChecksum p) d2).
  assert (T0 : udp_agrees h2 p0).
  { apply (udp_ext h h2 p p0 T); try reflexivity; [apply K2, K1, AV|exact SB]. }
  set (inc := u16 (Z.of_nat (s_len d) + Z.of_nat (s_len t))).
  assert (EI : inc = zlen (rd h d ++ rd h t)).
  { unfold inc, u16, zlen in *. rewrite !app_length in *. rewrite !valid_len in LL by assumption. rewrite !valid_len by assumption. lia. }
  assert (RI : 0 <= u16 (ipTotalLength p + inc) < 65536) by (unfold u16; lia).
  destruct (udp_resize h2 p0 (s_len (Buffer p)) (u16 (ipTotalLength p + inc)) T0) as (cs & p3 & h3 & E3 & RC & Q3 & F3 & T3 & R3 & W3 & O3).
  { change (hl p0) with (hl p). change (Buffer p0) with (Buffer p). lia. }
  { exact RI. }
  change (Buffer p0) with (Buffer p) in *. rewrite win_all in E3, Q3.
  replace (with_buffer p0 (Buffer p)) with p0 in E3, Q3 by (symmetry; exact (with_buffer_same p0)).
  change (ipTotalLength p0) with (ipTotalLength p) in E3. rewrite E3. cbn [rbind].
  assert (B3 : Buffer p3 = Buffer p) by (rewrite Q3; reflexivity). rewrite B3 in *.
  assert (VSH : vslice h2 (Buffer p)) by (apply (agrees_vslice h2 p0); apply T0).
  assert (LF : length (fixip (version p0) (rd h2 (Buffer p)) (u16 (ipTotalLength p + inc)) cs) = s_len (Buffer p)).
  { rewrite fixip_length by (rewrite SB; lia). rewrite SB. exact LB. }
  assert (RD3 : rd h3 d2 = rd h d ++ rd h t).
  { rewrite F3, rd_apart; [exact R2|exact VSH|exact LF|]. destruct NA as [NA|NA]; [left; exact NA|right; left; congruence]. }
  assert (V3 : valid h3 (Buffer p)) by (destruct T3 as ((Q & _) & _); rewrite B3 in Q; exact Q).
  rewrite RD3.
  destruct (gappend_rd grow h3 (Buffer p) (rd h d ++ rd h t) V3) as (R4 & V4 & N4 & K4 & S4 & D4).
  destruct (gappend grow h3 (Buffer p) (rd h d ++ rd h t)) as [h4 b4]. cbn [fst snd] in *.
  assert (IDT : is_bytes (rd h d ++ rd h t)) by (apply is_bytes_app; auto).
  rewrite <- B3 in R4.
  destruct (udp_appended h3 p3 b4 h4 (rd h d ++ rd h t) T3 V4 R4 IDT) as (p5 & h5 & E5 & T5 & Q5 & L5 & FF & KK & UL & C4 & C6 & W5 & VV5).
  { rewrite N4. unfold zlen in LL. rewrite !app_length in LL. rewrite app_length. lia. }
  rewrite E5. assert (B5 : Buffer p5 = b4) by (rewrite Q5; reflexivity).
  assert (VV : version p3 = version p) by (rewrite Q3; reflexivity).
  assert (HH : hl p3 = hl p) by (unfold hl; now rewrite VV).
  rewrite B3, HH, ?VV in *. rewrite R3 in *. rewrite SB in *. change (version p0) with (version p) in *.
  set (FX := fixip (version p) (rd h (Buffer p)) (u16 (ipTotalLength p + inc)) cs) in *.
  assert (FN : firstn (s_len (Buffer p)) FX = FX) by (apply firstn_all2; lia). rewrite FN in *.
  exists p5, h5. rewrite B5. split; [reflexivity|]. split; [exact T5|]. split; [rewrite Q5; exact VV|].
  split; [rewrite Q5, Q3; reflexivity|]. split; [rewrite Q5, Q3; reflexivity|].
  split; [rewrite Q5, Q3; reflexivity|]. split; [rewrite Q5, Q3; reflexivity|].
  split; [rewrite Q5, Q3, <- EI; reflexivity|].
  split; [unfold zlen; rewrite L5, LF, (app_length (rd h (Buffer p))), LB; reflexivity|].
  split; [rewrite KK; f_equal; unfold FX; apply fixip_skipn; lia|].
  split; [exact UL|]. split; [exact C4|]. split; [exact C6|].
  split; [intros Q W; apply W5; [exact Q|]; apply W3; [exact Q|exact W]|].
  split.
  2:{ intros x Vx. apply VV5, K4. apply K1, K2 in Vx. destruct O3 as (O31 & O32 & _). destruct Vx as [X1 X2]. split; [exact X1|]. rewrite O31, O32. exact X2. }
  intros k K NK. rewrite B5. rewrite <- (nth_firstn _ k (hl p + 4)) by lia. rewrite FF. rewrite nth_firstn by lia.
  unfold FX. apply fixip_nth; [lia|exact NK].
Qed.
Lemma token_attach : forall grow h p d t, udp_agrees h p -> valid h d -> valid h t ->
  is_bytes (rd h d) -> is_bytes (rd h t) -> zlen (rd h (Buffer p) ++ rd h d ++ rd h t) < 65536 ->
  exists p' h', UDPTokenAttach grow h p d t = Ok (p', h') /\ udp_agrees h' p' /\ version p' = version p /\
    SourceAddress p' = SourceAddress p /\ DestinationAddress p' = DestinationAddress p /\
    SourcePort p' = SourcePort p /\ DestPort p' = DestPort p /\
    IPTotalLen p' = (IPTotalLen p + zlen (rd h d ++ rd h t)) mod 65536 /\
    zlen (rd h' (Buffer p')) = zlen (rd h (Buffer p) ++ rd h d ++ rd h t) /\
    skipn (hl p + 8) (rd h' (Buffer p')) = skipn (hl p + 8) (rd h (Buffer p)) ++ rd h d ++ rd h t /\
    udp_length (rd h' (Buffer p')) (hl p) = zlen (rd h' (Buffer p')) - Z.of_nat (hl p) /\
    (version p = V4 -> udp_checksum (rd h' (Buffer p')) 20 = 0) /\
    (version p = V6 -> udp6_right (rd h' (Buffer p'))) /\
    (version p = V4 -> ip4_valid (rd h (Buffer p)) -> ip4_valid (rd h' (Buffer p'))) /\
    header_kept h h' p p'.
Proof.
  intros grow h p d t T VD VT ID IT LL.
  destruct (token_attach_full grow h p d t T VD VT ID IT LL)
    as (p' & h' & A1 & A2 & A3 & A4 & A5 & A6 & A7 & A8 & A9 & A10 & A11 & A12 & A13 & A14 & A15 & _).
  exists p', h'. auto 20.
Qed.
