(** Looking at a packet (C64-C67). *)
From Verif Require Export Proof.PktNew Proof.PktUdp Proof.PktEmit Proof.IPText Proof.HashHistory Model.PacketView Spec.ViewSpec.

Lemma resl_from_rd h s lo : valid h s -> 0 <= lo <= Z.of_nat (s_len s) ->
  exists s', resl_from s lo = Ok s' /\ rd h s' = skipn (Z.to_nat lo) (rd h s).
Proof.
  intros V H. destruct V as [C V]. rewrite resl_from_ok by lia. eexists. split; [reflexivity|]. apply rd_from.
Qed.
Lemma resl_from_out s lo : (s_len s <= s_cap s)%nat -> lo < 0 \/ Z.of_nat (s_len s) < lo -> resl_from s lo = Panic.
Proof. intros C H. apply resl_from_panic; auto. lia. Qed.

Lemma tcp_off_range h p : tcp_agrees h p -> 0 <= tcpDataOffset p < 16 /\ tcpDataOffset p = tcp_offset (rd h (Buffer p)) (hl p).
Proof.
  intros (A & P & L & S). destruct S as (_ & _ & _ & _ & S5 & _). split; [|exact S5]. rewrite S5.
  assert (B : is_bytes (rd h (Buffer p))) by apply A.
  assert (X : 0 <= byte_at (rd h (Buffer p)) (hl p + 12) < 256).
  { unfold byte_at. apply is_bytes_nth, B. }
  unfold tcp_offset. lia.
Qed.
Lemma start_bytes h p : tcp_agrees h p -> TCPDataStartBytes p = 4 * tcp_offset (rd h (Buffer p)) (hl p).
Proof. intros T. destruct (tcp_off_range h p T) as [R E]. unfold TCPDataStartBytes, u16. rewrite <- E. lia. Qed.
Lemma read_at h p : tcp_agrees h p ->
  u16 (u16 (ipHeaderLen p) + TCPDataStartBytes p) = Z.of_nat (tcp_payload_at (rd h (Buffer p)) (hl p)).
Proof.
  intros T. rewrite (start_bytes h p T). destruct (tcp_off_range h p T) as [R E]. destruct T as (A & _). facts A.
  rewrite HL1. unfold tcp_payload_at, u16. rewrite <- E. unfold hl in *. destruct (version p); lia.
Qed.

(** ** C64 *)
Lemma reads_payload h p : tcp_agrees h p ->
  let b := rd h (Buffer p) in
  ((tcp_payload_at b (hl p) <= length b)%nat ->
     (exists s, ReadTCPData p = Ok s /\ rd h s = tcp_payload b (hl p)) /\ ReadTCPDataString h p = Ok (tcp_payload b (hl p))) /\
  ((length b < tcp_payload_at b (hl p))%nat -> ReadTCPData p = Panic /\ ReadTCPDataString h p = Panic).
Proof.
  intros T. pose proof T as (A & _). facts A. cbv zeta. rewrite LB. unfold ReadTCPDataString, ReadTCPData.
  rewrite (read_at h p T). set (k := tcp_payload_at _ _). assert (V : valid h (Buffer p)) by apply A. split; intros H.
  - destruct (resl_from_rd h (Buffer p) (Z.of_nat k) V ltac:(lia)) as (s & -> & R). rewrite Nat2Z.id in R. cbn [rbind].
    unfold tcp_payload. fold k. rewrite R. split; [eauto|reflexivity].
  - rewrite resl_from_out; [split; reflexivity|apply V|lia].
Qed.
Lemma buffer_from h p off : ip_agrees h p ->
  (0 <= off <= zlen (rd h (Buffer p)) -> exists s, GetBuffer p off = Ok s /\ rd h s = skipn (Z.to_nat off) (rd h (Buffer p))) /\
  (off < 0 \/ zlen (rd h (Buffer p)) < off -> GetBuffer p off = Panic).
Proof.
  intros A. facts A. unfold zlen. rewrite LB. assert (V : valid h (Buffer p)) by apply A. unfold GetBuffer. split; intros H.
  - apply resl_from_rd; auto.
  - apply resl_from_out; [apply V|lia].
Qed.
Lemma udp_payload h p : udp_agrees h p ->
  exists s, GetUDPData p = Ok s /\ rd h s = skipn (hl p + 8) (rd h (Buffer p)).
Proof.
  intros (A & P & L & _). facts A. rewrite LB in L. assert (V : valid h (Buffer p)) by apply A. unfold GetUDPData.
  assert (E : u8 (ipHeaderLen p + UDPDataPos) = Z.of_nat (hl p + 8)).
  { rewrite HL1. unfold u8, UDPDataPos, hl. destruct (version p); reflexivity. }
  rewrite E. destruct (resl_from_rd h (Buffer p) (Z.of_nat (hl p + 8)) V ltac:(lia)) as (s & E2 & R). rewrite Nat2Z.id in R. eauto.
Qed.
Lemma transport_tcplen h p bs q : parse_transport h p bs = Ok (q, None) -> ipProto p = IPProtocolTCP ->
  tcpTotalLength q = u16 (Z.of_nat (s_len (Buffer q)) - ipHeaderLen q) .
Proof.
  unfold parse_transport. intros H P. rewrite P in H. rewrite Z.eqb_refl in H. cbn [andb] in H.
  destruct (_ <? minTCPIPPacketLen) in H; [discriminate H|].
  destruct (parseTCP h p bs) as [p1| |] eqn:E1; cbn [rbind] in H; try discriminate H.
  assert (S1 : tcpTotalLength p1 = u16 (Z.of_nat (s_len (Buffer p1)) - ipHeaderLen p1) /\ ipProto p1 = IPProtocolTCP).
  { unfold parseTCP in E1. unbind E1. injection E1 as <-. cbn [tcpTotalLength with_tcp Buffer ipHeaderLen ipProto].
    match goal with HR : resl_from (Buffer p) _ = Ok ?b |- _ => unfold resl_from, reslice in HR; destruct (_ && _) eqn:C in HR; [|discriminate HR]; injection HR as <- end.
    cbn [s_len]. split; [|exact P]. f_equal. lia. }
  destruct S1 as [S1 P1]. rewrite P1 in H. change (IPProtocolTCP =? IPProtocolUDP) with false in H. cbn [andb rbind] in H.
  injection H as <-. exact S1.
Qed.
Lemma new_tcplen h ctx s v p : New h ctx s v = Ok (Some p, None) -> ipProto p = IPProtocolTCP ->
  tcpTotalLength p = u16 (Z.of_nat (s_len (Buffer p)) - ipHeaderLen p).
Proof.
  unfold New. intros H P. destruct (_ <? _) in H; [discriminate H|].
  destruct (sidx _ _ _) in H; cbn [rbind] in H; try discriminate H.
  match type of H with rbind ?x _ = _ => destruct x as [[q e]| |] eqn:E1; cbn [rbind fst snd] in H; try discriminate H end.
  injection H as -> ->.
  assert (TR : forall q bs, parse_transport h q bs = Ok (p, None) -> tcpTotalLength p = u16 (Z.of_nat (s_len (Buffer p)) - ipHeaderLen p)).
  { intros q bs E. apply (transport_tcplen _ _ _ _ E).
    revert E. unfold parse_transport. destruct (ipProto q =? IPProtocolTCP) eqn:Q; [intros _; lia|]. cbn [andb rbind].
    destruct ((ipProto q =? IPProtocolUDP) && _); [discriminate|].
    match goal with |- rbind ?x _ = _ -> _ => destruct x as [p2| |] eqn:E2; cbn [rbind]; try discriminate end.
    intros X. injection X as <-. cbn [ipProto with_hash] in P.
    destruct (ipProto q =? IPProtocolUDP) in E2; [|injection E2 as <-; lia].
    unfold parseUDP in E2. unbind E2. injection E2 as <-. cbn [ipProto with_udp] in P. lia. }
  destruct (_ =? 64) in E1.
  - unfold parseIPv4Packet in E1. destruct (_ <? _) in E1; [discriminate E1|].
    do 7 (match type of E1 with rbind ?x _ = _ => destruct x; cbn [rbind] in E1; try discriminate E1 end).
    destruct (negb _) in E1; [discriminate E1|].
    match type of E1 with (if ?c then _ else _) = _ => destruct c eqn:C end.
    + match type of E1 with (if ?c then _ else _) = _ => destruct c; [|discriminate E1] end.
      destruct (resl_to _ _) as [b| |] in E1; cbn [rbind] in E1; try discriminate E1. exact (TR _ _ E1).
    + exact (TR _ _ E1).
  - unfold parseIPv6Packet in E1.
    do 4 (match type of E1 with rbind ?x _ = _ => destruct x; cbn [rbind] in E1; try discriminate E1 end).
    match type of E1 with (if ?c then _ else _) = _ => destruct c eqn:C end.
    + match type of E1 with (if ?c then _ else _) = _ => destruct c; [|discriminate E1] end.
      destruct (resl_to _ _) as [b| |] in E1; cbn [rbind] in E1; try discriminate E1.
      destruct (parseTCP _ _ _) as [pt| |] in E1; cbn [rbind] in E1; try discriminate E1. exact (TR _ _ E1).
    + exact (TR _ _ E1).
Qed.
Lemma empty_iff h ctx s v p : valid h s -> is_bytes (rd h s) -> (0 < s_len s)%nat -> Z.of_nat (s_len s) < 65536 ->
  New h ctx s v = Ok (Some p, None) -> IPProto p = PROTO_TCP -> (hl p + 20 <= s_len (Buffer p))%nat ->
  tcp_agrees h p /\ TCPOptionLength p = 0 /\ TCPDataLength p = 0 /\ GetTCPOptions h p = [] /\ GetTCPData h p = [] /\
  (IsEmptyTCPPayload p = true <-> length (rd h (Buffer p)) = tcp_payload_at (rd h (Buffer p)) (hl p)).
Proof.
  intros V B L1 L2 E P H. destruct (new_agrees h ctx s v p V B L1 L2 E ltac:(lia)) as (A & O & D & T & _).
  specialize (T P H). unfold TCPOptionLength, TCPDataLength, GetTCPOptions, GetTCPData. rewrite O, D.
  split; [exact T|]. do 4 (split; [reflexivity|]). unfold IsEmptyTCPPayload.
  rewrite (new_tcplen h ctx s v p E P), (start_bytes h p T). destruct (tcp_off_range h p T) as [R X]. facts A.
  rewrite HL1, LB, Z.eqb_eq. assert (Z.of_nat (s_len (Buffer p)) < 65536) by apply A. unfold u16, tcp_payload_at. rewrite <- X. lia.
Qed.

(** ** C65 *)
Lemma endpoint_inj (P : bytes -> Prop) a n a' n' :
  (forall x y, P x -> P y -> ip_string x = ip_string y -> x = y) -> P a -> P a' -> small n -> small n' ->
  ip_string a ++ [58] ++ itoa n = ip_string a' ++ [58] ++ itoa n' -> a = a' /\ n = n'.
Proof.
  intros I A A' N N' E. cbn [app] in E.
  apply split_last in E as [E1 E2]; [|apply itoa_no; auto; lia|apply itoa_no; auto; lia].
  split; [apply I; auto|apply itoa_inj; auto].
Qed.
Lemma source_port_hash h1 p1 h2 p2 stage : tcp_agrees h1 p1 \/ udp_agrees h1 p1 -> tcp_agrees h2 p2 \/ udp_agrees h2 p2 ->
  version p1 = version p2 ->
  (SourcePortHash p1 stage = SourcePortHash p2 stage <->
   if stage =? PacketTypeNetwork
   then DestinationAddress p1 = DestinationAddress p2 /\ DestPort p1 = DestPort p2
   else SourceAddress p1 = SourceAddress p2 /\ SourcePort p1 = SourcePort p2).
Proof.
  intros A1 A2 V. unfold SourcePortHash.
  assert (X : exists P : bytes -> Prop, (forall x y, P x -> P y -> ip_string x = ip_string y -> x = y) /\
     P (sourceAddress p1) /\ P (sourceAddress p2) /\ P (destinationAddress p1) /\ P (destinationAddress p2) /\
     small (SourcePort p1) /\ small (SourcePort p2) /\ small (DestPort p1) /\ small (DestPort p2)).
  { destruct (version p1) eqn:V1; symmetry in V.
    - exists is_addr4. pose proof (agreed_flow4 h1 p1 A1 V1) as F1. pose proof (agreed_flow4 h2 p2 A2 V) as F2.
      split; [intros; apply addr4_inj; auto|]. tauto.
    - exists is_addr16. pose proof (agreed_flow6 h1 p1 A1 V1) as F1. pose proof (agreed_flow6 h2 p2 A2 V) as F2.
      split; [intros; apply addr16_inj; auto|]. tauto. }
  destruct X as (P & I & S1 & S2 & D1 & D2 & N1 & N2 & N3 & N4).
  destruct (stage =? PacketTypeNetwork); unfold SourceAddress, DestinationAddress; split.
  - intros E. apply (endpoint_inj P) in E; [exact E|assumption..].
  - intros [-> ->]. same.
  - intros E. apply (endpoint_inj P) in E; [exact E|assumption..].
  - intros [-> ->]. same.
Qed.

(** ** C66 *)
Lemma bit_set_testbit f i : 0 <= i -> bit_set f (2 ^ i) = Z.testbit f i.
Proof.
  intros H. unfold bit_set. assert (E : Z.land f (2 ^ i) = if Z.testbit f i then 2 ^ i else 0).
  { apply Z.bits_inj'. intros n Hn. rewrite Z.land_spec, Z.pow2_bits_eqb by lia.
    destruct (Z.eqb_spec i n) as [->|N].
    - destruct (Z.testbit f n); cbn [andb]; [rewrite Z.pow2_bits_true by lia; reflexivity|rewrite Z.bits_0; reflexivity].
    - rewrite Bool.andb_false_r. destruct (Z.testbit f i); [rewrite Z.pow2_bits_false by lia; reflexivity|rewrite Z.bits_0; reflexivity]. }
  rewrite E. pose proof (Z.pow_pos_nonneg 2 i). destruct (Z.testbit f i); cbn [negb]; [destruct (Z.eqb_spec (2 ^ i) 0); [lia|reflexivity]|reflexivity].
Qed.
Lemma direction_text f : flagsToDir f = direction_of f.
Proof.
  unfold flagsToDir, direction_of, first_name. change PacketTypeApplication with (2 ^ 13). change PacketTypeNetwork with (2 ^ 12).
  rewrite !bit_set_testbit by lia. reflexivity.
Qed.
Lemma path_text f : flagsToStr f = path_of f.
Proof.
  unfold flagsToStr, path_of, first_name.
  change PacketTypeApplication with (2 ^ 13). change PacketTypeNetwork with (2 ^ 12).
  change PacketStageIncoming with (2 ^ 8). change PacketStageOutgoing with (2 ^ 11). change PacketStageAuth with (2 ^ 9).
  change PacketStageService with (2 ^ 10). change PacketFailureCreate with (2 ^ 4). change PacketFailureAuth with (2 ^ 5).
  change PacketFailureService with (2 ^ 6).
  rewrite !bit_set_testbit by lia. reflexivity.
Qed.
Lemma syn_test f : 0 <= f < 256 -> (if Z.land f TCPSynMask =? TCPSynMask then 1 else 0) = syn_bit f.
Proof.
  intros R. pose proof (bit_set_testbit f 1 ltac:(lia)) as X. unfold bit_set in X. change (2 ^ 1) with 2 in X. unfold TCPSynMask, syn_bit.
  assert (T : Z.testbit f 1 = (f / 2 mod 2 =? 1)).
  { rewrite Z.testbit_eqb by lia. reflexivity. }
  assert (E : Z.land f 2 = if Z.testbit f 1 then 2 else 0).
  { apply Z.bits_inj'. intros n Hn. change 2 with (2 ^ 1). rewrite Z.land_spec, Z.pow2_bits_eqb by lia.
    destruct (Z.eqb_spec 1 n) as [<-|N].
    - destruct (Z.testbit f 1); reflexivity.
    - rewrite Bool.andb_false_r. destruct (Z.testbit f 1); [rewrite Z.pow2_bits_false by lia; reflexivity|rewrite Z.bits_0; reflexivity]. }
  rewrite E, T. destruct (Z.eqb_spec (f / 2 mod 2) 1) as [->|N]; [reflexivity|]. cbn. lia.
Qed.
Lemma print_spec h p ctx level : tcp_agrees h p -> attached_ok h p -> even_pieces h p ->
  exists r, Print h p ctx level = Ok (r, h) /\
  ((level = true \/ ctx = 0) <-> r <> None) /\
  forall l, r = Some l ->
    let b := rd h (Buffer p) in let o := hl p in
    rp_dir l = direction_of (Z.lor (context p) ctx) /\ rp_comment l = path_of (Z.lor (context p) ctx) /\
    rp_src l = ip_string (SourceAddress p) /\ rp_dst l = ip_string (DestinationAddress p) /\
    rp_sport l = l4_sport b o /\ rp_dport l = l4_dport b o /\ rp_flags l = TCPFlagsToStr (tcp_flags b o) /\
    rp_seq l = tcp_seq b o /\ rp_ack l = tcp_ack b o /\ rp_offset l = tcp_offset b o /\
    rp_csum l = tcp_checksum b o /\
    rp_computed l = l4_right_checksum (version p) o PROTO_TCP 16 (GetTCPBytes h p) /\
    (rp_bad l = false <-> tcp_checksum b o = l4_right_checksum (version p) o PROTO_TCP 16 (GetTCPBytes h p)) /\
    rp_dump l = ether_header ++ GetTCPBytes h p /\
    ((tcp_payload_at b o <= length b)%nat ->
       rp_len l = zlen (tcp_payload b o) /\ rp_expack l = rp_expseq l /\
       rp_expack l = (tcp_seq b o + zlen (tcp_payload b o) + syn_bit (tcp_flags b o)) mod 4294967296).
Proof.
  intros T AO EV. pose proof T as (A & P & L & S). facts A. unfold Print.
  unfold IPProto, PROTO_TCP in P. rewrite P. change (negb (6 =? IPProtocolTCP)) with false. cbv iota.
  destruct (level || (ctx =? 0)) eqn:C.
  2: { exists None. split; [reflexivity|]. split; [|discriminate]. apply Bool.orb_false_iff in C as [-> C].
       split; [intros [X|X]; [discriminate X|lia]|congruence]. }
  rewrite (resl_hdr h p A). cbn [rbind]. rewrite LB in L.
  rewrite (tcp_compute h p A L AO EV). cbn [rbind]. eexists. split; [reflexivity|]. split.
  { split; [discriminate|]. intros _. apply Bool.orb_true_iff in C as [C|C]; [auto|right; lia]. }
  intros l E. injection E as <-. cbn [rp_dir rp_comment rp_src rp_dst rp_sport rp_dport rp_flags rp_seq rp_ack rp_offset rp_csum rp_computed rp_bad rp_dump rp_len rp_expack rp_expseq].
  pose proof (start_bytes h p T) as SB. destruct (tcp_off_range h p T) as [OR OE].
  destruct S as (S1 & S2 & S3 & S4 & S5 & S6 & S7).
  unfold SourcePort in S1. unfold DestPort in S2. rewrite P in S1, S2. change (6 =? IPProtocolTCP) with true in S1, S2. cbv iota in S1, S2.
  rewrite direction_text, path_text. rewrite S1, S2, S3, S4, S5, S6, S7.
  assert (BB : is_bytes (rd h (Buffer p))) by apply A.
  split; [reflexivity|]. split; [reflexivity|]. do 10 (split; [reflexivity|]). split.
  { destruct (Z.eqb_spec (tcp_checksum (rd h (Buffer p)) (hl p)) (l4_right_checksum (version p) (hl p) PROTO_TCP 16 (GetTCPBytes h p))) as [E|E];
      cbn [negb]; [split; auto|split; [discriminate|intros; contradiction]]. }
  split; [unfold GetTCPBytes; rewrite <- !app_assoc; reflexivity|]. intros LP.
  assert (LEN : u16 (u16 (Z.of_nat (s_len (Buffer p) - hl p)) - TCPDataStartBytes p) =
    zlen (tcp_payload (rd h (Buffer p)) (hl p))).
  { rewrite SB. unfold tcp_payload, zlen. rewrite skipn_length.
    unfold tcp_payload_at in *. rewrite LB in *. rewrite <- OE in *. assert (Z.of_nat (s_len (Buffer p)) < 65536) by apply A. unfold u16. lia. }
  rewrite LEN. split; [reflexivity|]. split; [reflexivity|].
  rewrite syn_test by (unfold tcp_flags, byte_at; apply is_bytes_nth, BB).
  assert (0 <= syn_bit (tcp_flags (rd h (Buffer p)) (hl p)) < 2) by (unfold syn_bit; lia).
  unfold u32. rewrite Zplus_mod_idemp_l. reflexivity.
Qed.

(** ** C67 *)
Lemma set_flags h p f : tcp_agrees h p ->
  GetTCPFlags (SetTCPFlags p f) = f /\ GetTCPBytes h (SetTCPFlags p f) = GetTCPBytes h p /\
  tcp_flags (GetTCPBytes h (SetTCPFlags p f)) (hl p) = GetTCPFlags p.
Proof.
  intros (A & P & L & S). facts A. rewrite LB in L. split; [reflexivity|]. split; [reflexivity|].
  change (GetTCPBytes h (SetTCPFlags p f)) with (GetTCPBytes h p). rewrite emitted_eq.
  destruct S as (_ & _ & _ & _ & _ & S6 & _). rewrite S6. unfold tcp_flags, byte_at. apply app_nth1. lia.
Qed.
