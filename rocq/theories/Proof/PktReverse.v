(** Resizing UDP packets and CreateReverseFlowPacket. *)
From Verif Require Export Proof.PktUdp.

(** cut to [n] bytes (or not at all) and state the length [new] *)
Lemma udp_resize h p n new : udp_agrees h p -> (hl p + 8 <= n <= s_len (Buffer p))%nat -> 0 <= new < 65536 ->
  exists cs p' h',
    FixupIPHdrOnDataModify h (with_buffer p (win (Buffer p) 0 n (s_cap (Buffer p)))) (ipTotalLength p) new = Ok (p', h') /\
    0 <= cs < 65536 /\
    p' = with_total_csum (with_buffer p (win (Buffer p) 0 n (s_cap (Buffer p)))) new cs /\
    h' = set_rd h (Buffer p) (fixip (version p) (rd h (Buffer p)) new cs) /\
    udp_agrees h' p' /\
    rd h' (Buffer p') = firstn n (fixip (version p) (rd h (Buffer p)) new cs) /\
    (version p = V4 -> ip4_valid (rd h (Buffer p)) -> ip4_valid (rd h' (Buffer p'))) /\
    only_bytes h h' (Buffer p) (ip_len_bytes (version p)).
Proof.
  intros T N RN. pose proof T as (A & P & L & S). facts A. rewrite LB in L. pose proof A as (_ & IB & AL & M).
  destruct (incCsum_spec (ipChecksum p) (ipTotalLength p) new RCS RTL RN) as (f & E & F).
  set (cs := 65535 - f) in *. assert (RC : 0 <= cs < 65536) by (destruct F; unfold cs; lia).
  set (b := rd h (Buffer p)) in *. set (pB := with_buffer p (win (Buffer p) 0 n (s_cap (Buffer p)))).
  set (B' := fixip (version p) b new cs).
  assert (LB' : length B' = s_len (Buffer p)) by (unfold B'; rewrite fixip_length; lia).
  assert (X : FixupIPHdrOnDataModify h pB (ipTotalLength p) new = Ok (with_total_csum pB new cs, set_rd h (Buffer p) B')).
  { pose proof (fixup_run h (Buffer p) b pB n (ipTotalLength p) new cs VS LB) as X.
    replace (set_rd h (Buffer p) b) with h in X by (unfold b; symmetry; apply set_rd_same, VS).
    rewrite X; clear X; [|split; [reflexivity|lia]|change (hl pB) with (hl p); lia|exact HL1|exact E].
    change (ipTotalLength pB) with (ipTotalLength p).
    replace (u16 (u16 (ipTotalLength p + new) - ipTotalLength p)) with new by (unfold u16; lia). reflexivity. }
  exists cs, (with_total_csum pB new cs), (set_rd h (Buffer p) B').
  assert (R : rd (set_rd h (Buffer p) B') (Buffer (with_total_csum pB new cs)) = firstn n B').
  { change (Buffer (with_total_csum pB new cs)) with (win (Buffer p) 0 n (s_cap (Buffer p))). rewrite rd_win by (auto; lia). reflexivity. }
  split; [exact X|]. split; [exact RC|]. split; [reflexivity|]. split; [reflexivity|]. split.
  { assert (A' : ip_agrees (set_rd h (Buffer p) B') (with_total_csum pB new cs)).
    { apply (agrees_fixed h p _ n new cs B' A); auto; [lia|]. unfold B'. apply is_bytes_fixip, IB. }
    split; [exact A'|]. split; [exact P|]. rewrite R. change (hl (with_total_csum pB new cs)) with (hl p).
    rewrite firstn_length. split; [lia|]. destruct S as [S1 S2]. unfold shows_udp, l4_sport, l4_dport in *.
    rewrite !be16f_firstn by lia. unfold B'. rewrite !fixip_be16 by lia. split; [exact S1|exact S2]. }
  split; [exact R|]. rewrite R. split.
  - intros V4' W. apply (hdr_ext _ B' 20 ltac:(lia)); [rewrite firstn_firstn, Nat.min_l by lia; reflexivity|].
    rewrite V4' in M. destruct M as (M1 & M2 & M3 & M4 & M5 & M6 & _). unfold B', fixip. rewrite V4'.
    assert (M5' : ip4_total b = ipTotalLength p) by (symmetry; exact M5).
    assert (M6' : ip4_checksum b = ipChecksum p) by (symmetry; exact M6).
    apply (inc_valid b new (ipTotalLength p) new cs IB M1 M2 RTL RN); auto; [rewrite M5'; lia|rewrite M6'; exact E].
  - apply (only_splices h (Buffer p) b); [exact VS|exact LB|exact LB'| |unfold ip_len_bytes; intros; destruct (version p); lia|reflexivity].
    intros k K NK. unfold B'. apply fixip_nth; [lia|exact NK].
Qed.

(** addresses and ports exchanged *)
Definition ports_swapped (o : nat) (b : bytes) : bytes :=
  splice (splice b o (put16 BE (be16f b (o + 2)))) (o + 2) (put16 BE (be16f b o)).
Definition addrs_swapped (v : ipver) (b : bytes) : bytes :=
  match v with
  | V4 => splice (splice b 12 (field b 16 4)) 16 (field b 12 4)
  | V6 => splice (splice b 8 (field b 24 16)) 24 (field b 8 16)
  end.
Lemma field_splice_eq B o v n : length v = n -> (o + n <= length B)%nat -> field (splice B o v) o n = v.
Proof. intros <-. apply field_splice_same. Qed.
Ltac flen := repeat first [rewrite splice_length by flen | rewrite field_length by lia]; cbn [length put16 put32]; lia.
Ltac ffields :=
  repeat first
   [ rewrite field_splice_disj by flen | rewrite (field_splice_eq _ _ (field _ _ _)) by flen
   | rewrite be16f_splice_disj by flen | rewrite nth_splice_disj by flen ].
Definition reversed_fields (p : packet) : packet :=
  with_udp (with_addrs p (destinationAddress p) (sourceAddress p)) (udpDestinationPort p) (udpSourcePort p) (udpChecksum p) (udpData p).
Definition swapped (v : ipver) (o : nat) (b : bytes) : bytes := ports_swapped o (addrs_swapped v b).
Definition swap_run (h : heap) (p : packet) : res heap :=
  let buffer := Buffer p in
  let* h := match version p with
            | V4 =>
                let* h := copy_into h buffer ipv4SourceAddrPos (ipv4SourceAddrPos + 4) (destinationAddress p) in
                copy_into h buffer ipv4DestAddrPos (ipv4DestAddrPos + 4) (sourceAddress p)
            | V6 =>
                let* h := copy_into h buffer ipv6SourceAddrPos (ipv6SourceAddrPos + 16) (destinationAddress p) in
                copy_into h buffer ipv6DestAddrPos (ipv6DestAddrPos + 16) (sourceAddress p)
            end in
  let* buffer := resl_from buffer (ipHeaderLen p) in
  let* h := put16_at h buffer udpSourcePortPos (udpDestinationPort p) in
  put16_at h buffer udpDestPortPos (udpSourcePort p).

Lemma addrs_swapped_length v b : (hl (with_ip (zero_packet 0) v 0 0 0 0 0 [] []) <= length b)%nat -> length (addrs_swapped v b) = length b.
Proof. unfold hl. destruct v; cbn [with_ip version]; intros H; unfold addrs_swapped; flen. Qed.
Lemma addrs_swapped_behind v b o : (hl (with_ip (zero_packet 0) v 0 0 0 0 0 [] []) <= o)%nat -> (o + 2 <= length b)%nat ->
  be16f (addrs_swapped v b) o = be16f b o.
Proof. unfold hl. destruct v; cbn [with_ip version]; intros H L; unfold addrs_swapped; ffields; reflexivity. Qed.
Lemma swap_ok h p : udp_agrees h p ->
  swap_run h p = Ok (set_rd h (Buffer p) (swapped (version p) (hl p) (rd h (Buffer p)))) /\
  udp_agrees (set_rd h (Buffer p) (swapped (version p) (hl p) (rd h (Buffer p)))) (reversed_fields p) /\
  only_bytes h (set_rd h (Buffer p) (swapped (version p) (hl p) (rd h (Buffer p)))) (Buffer p)
    (fun k => match version p with V4 => 12 <= k < 24 | V6 => 8 <= k < 44 end)%nat.
Proof.
  intros T. pose proof T as (A & P & L & S). facts A. rewrite LB in L. pose proof A as (_ & IB & AL & M).
  set (b := rd h (Buffer p)) in *.
  assert (SR : set_rd h (Buffer p) b = h) by (apply set_rd_same, VS).
  assert (LA : length (addrs_swapped (version p) b) = length b) by (apply addrs_swapped_length; rewrite LB; exact HL2).
  assert (LS : length (swapped (version p) (hl p) b) = s_len (Buffer p)) by (unfold swapped, ports_swapped; slen).
  assert (EP : be16f (addrs_swapped (version p) b) (hl p) = be16f b (hl p) /\ be16f (addrs_swapped (version p) b) (hl p + 2) = be16f b (hl p + 2)).
  { split; apply addrs_swapped_behind; fold (hl p); unfold hl in *; cbn [with_ip version]; lia. }
  destruct (udp_ports p P) as [U1 U2]. destruct S as [S1 S2]. rewrite U1 in S1. rewrite U2 in S2.
  assert (ISW : is_bytes (swapped (version p) (hl p) b)).
  { unfold swapped, ports_swapped. repeat apply is_bytes_splice; auto using is_bytes_put16.
    unfold addrs_swapped. destruct (version p); repeat apply is_bytes_splice; auto; unfold field; apply is_bytes_firstn, is_bytes_skipn, IB. }
  assert (R : rd (set_rd h (Buffer p) (swapped (version p) (hl p) b)) (Buffer p) = swapped (version p) (hl p) b) by (apply rd_set; auto).
  split; [|split].
  - unfold swap_run.
    assert (E1 : (match version p with
       | V4 => let* h1 := copy_into h (Buffer p) ipv4SourceAddrPos (ipv4SourceAddrPos + 4) (destinationAddress p) in
               copy_into h1 (Buffer p) ipv4DestAddrPos (ipv4DestAddrPos + 4) (sourceAddress p)
       | V6 => let* h1 := copy_into h (Buffer p) ipv6SourceAddrPos (ipv6SourceAddrPos + 16) (destinationAddress p) in
               copy_into h1 (Buffer p) ipv6DestAddrPos (ipv6DestAddrPos + 16) (sourceAddress p)
       end) = Ok (set_rd h (Buffer p) (addrs_swapped (version p) b))).
    { assert (W : forall B lo hi v, length B = s_len (Buffer p) -> 0 <= lo <= hi -> (Z.to_nat hi <= s_len (Buffer p))%nat -> zlen v = hi - lo ->
                  copy_into (set_rd h (Buffer p) B) (Buffer p) lo hi v = Ok (set_rd h (Buffer p) (splice B (Z.to_nat lo) v))).
      { intros B lo hi v Q1 Q2 Q3 Q4. rewrite <- (win_all (Buffer p)) at 2. rewrite copy_into_win by (auto; lia). reflexivity. }
      unfold hl in *. unfold addrs_swapped. destruct (version p).
      - destruct M as (M1 & M2 & M3 & M4 & M5 & M6 & M7 & M8). unfold SourceAddress in M7. unfold DestinationAddress in M8.
        rewrite M7, M8. unfold ip4_src, ip4_dst, ipv4SourceAddrPos, ipv4DestAddrPos. rewrite <- SR at 1.
        rewrite W by (unfold zlen; rewrite ?field_length by lia; auto; lia). cbn [rbind].
        rewrite W by (unfold zlen; try flen; auto; lia). reflexivity.
      - destruct M as (M1 & M2 & M3 & M4 & M5 & M6 & M7). unfold SourceAddress in M6. unfold DestinationAddress in M7.
        rewrite M6, M7. unfold ip6_src, ip6_dst, ipv6SourceAddrPos, ipv6DestAddrPos. rewrite <- SR at 1.
        rewrite W by (unfold zlen; rewrite ?field_length by lia; auto; lia). cbn [rbind].
        rewrite W by (unfold zlen; try flen; auto; lia). reflexivity. }
    rewrite E1. cbn [rbind]. rewrite (resl_hdr h p A). cbn [rbind]. unfold udpSourcePortPos, udpDestPortPos.
    rewrite put16_win by (auto; try lia; congruence). cbn [rbind]. rewrite put16_win by (auto; try slen; lia).
    unfold swapped, ports_swapped. destruct EP as [EP1 EP2]. rewrite EP1, EP2. unfold l4_sport, l4_dport in *. rewrite S1, S2.
    change (Z.to_nat 0) with 0%nat. change (Z.to_nat 2) with 2%nat. rewrite Nat.add_0_r. reflexivity.
  - assert (A' : ip_agrees (set_rd h (Buffer p) (swapped (version p) (hl p) b)) (reversed_fields p)).
    { unfold ip_agrees. change (Buffer (reversed_fields p)) with (Buffer p). rewrite R. cbv zeta. rewrite LS.
      split; [apply set_rd_valid; auto; apply A|]. split; [exact ISW|]. split; [exact AL|].
      change (version (reversed_fields p)) with (version p). change (ipHeaderLen (reversed_fields p)) with (ipHeaderLen p).
      change (IPProto (reversed_fields p)) with (IPProto p). change (IPTotalLen (reversed_fields p)) with (IPTotalLen p).
      change (ipChecksum (reversed_fields p)) with (ipChecksum p).
      change (SourceAddress (reversed_fields p)) with (DestinationAddress p).
      change (DestinationAddress (reversed_fields p)) with (SourceAddress p).
      unfold swapped, ports_swapped, addrs_swapped, hl in *. destruct (version p).
      - destruct M as (M1 & M2 & M3 & M4 & M5 & M6 & M7 & M8).
        unfold byte_at, ip4_proto, ip4_total, ip4_checksum, ip4_src, ip4_dst, byte_at in *.
        ffields. repeat split; auto; lia.
      - destruct M as (M1 & M2 & M3 & M4 & M5 & M6 & M7).
        unfold byte_at, ip6_next, ip6_payload, ip6_src, ip6_dst, byte_at in *.
        ffields. repeat split; auto; lia. }
    split; [exact A'|]. split; [exact P|]. change (Buffer (reversed_fields p)) with (Buffer p). rewrite R, LS.
    change (hl (reversed_fields p)) with (hl p). split; [exact L|].
    destruct (udp_ports (reversed_fields p) P) as [U3 U4]. unfold shows_udp. rewrite U3, U4.
    change (udpSourcePort (reversed_fields p)) with (udpDestinationPort p).
    change (udpDestinationPort (reversed_fields p)) with (udpSourcePort p). rewrite S1, S2.
    pose proof (be16f_range b (hl p) IB ltac:(lia)). pose proof (be16f_range b (hl p + 2) IB ltac:(lia)).
    unfold l4_sport, l4_dport, swapped, ports_swapped in *. destruct EP as [EP1 EP2]. rewrite EP1, EP2. fields. 
    split; symmetry; apply Z.mod_small; lia.
  - apply (only_splices h (Buffer p) b); [exact VS|exact LB|exact LS| |destruct (version p); intros; lia|reflexivity].
    intros k K NK. unfold swapped, ports_swapped, addrs_swapped, hl in *. destruct (version p); ffields; reflexivity.
Qed.

(** ** CreateReverseFlowPacket *)
Lemma reverse_unfold h p :
  CreateReverseFlowPacket h p =
  let* h := swap_run h p in
  let p := reversed_fields p in
  let* b := resl_to (Buffer p) (u8 (ipHeaderLen p + UDPDataPos)) in
  let p := with_buffer p b in
  let* x := FixupIPHdrOnDataModify h p (ipTotalLength p) (u16 (u8 (ipHeaderLen p + UDPDataPos))) in
  let '(p, h) := x in
  let* x := match version p with
            | V4 => UpdateIPv4Checksum h p
            | V6 => Ok (p, h)
            end in
  let '(p, h) := x in
  let* h := fixupUDPHdr h p in
  fixupUDPChecksum h p.
Proof.
  unfold CreateReverseFlowPacket, swap_run. cbv zeta.
  assert (AS : forall A B C (m : res A) (f : A -> res B) (g : B -> res C), rbind (rbind m f) g = rbind m (fun x => rbind (f x) g)).
  { intros A B C m f g. destruct m; reflexivity. }
  rewrite AS. destruct (match version p with V4 => _ | V6 => _ end) as [h1| |]; cbn [rbind]; try reflexivity.
  rewrite AS. destruct (resl_from (Buffer p) (ipHeaderLen p)) as [b| |]; cbn [rbind]; try reflexivity.
  rewrite AS. destruct (put16_at h1 b udpSourcePortPos (udpDestinationPort p)) as [h2| |]; cbn [rbind]; try reflexivity.
Qed.
Lemma udp_update4 h p : udp_agrees h p -> version p = V4 ->
  exists p' h', UpdateIPv4Checksum h p = Ok (p', h') /\ udp_agrees h' p' /\
    p' = with_total_csum p (ipTotalLength p) (ipChecksum p') /\
    ip4_valid (rd h' (Buffer p)) /\ skipn 20 (rd h' (Buffer p)) = skipn 20 (rd h (Buffer p)) /\
    only_bytes h h' (Buffer p) (fun k => (10 <= k < 12)%nat).
Proof.
  intros T V4'. pose proof T as (A & P & L & S). facts A. rewrite LB in L.
  destruct (update_ipv4 h p A V4') as (p' & h' & E & A' & B' & TL & W & _ & _ & O).
  pose proof (update_ipv4_run h p A V4') as R. rewrite E in R. apply Ok_inj in R.
  assert (R1 : p' = with_total_csum p (ipTotalLength p) (ip4_right_checksum (rd h (Buffer p)))) by congruence.
  assert (R2 : h' = set_rd h (Buffer p) (splice (rd h (Buffer p)) 10 (put16 BE (ip4_right_checksum (rd h (Buffer p)))))) by congruence.
  assert (HP : hl p = 20%nat) by (unfold hl; now rewrite V4').
  assert (RB : rd h' (Buffer p) = splice (rd h (Buffer p)) 10 (put16 BE (ip4_right_checksum (rd h (Buffer p))))) by (rewrite R2; apply rd_set; [exact VS|slen]).
  rewrite B' in W. exists p', h'. split; [exact E|]. split.
  { split; [exact A'|]. split; [rewrite R1; exact P|]. rewrite B', RB. assert (HP' : hl p' = hl p) by (rewrite R1; reflexivity). rewrite HP'.
    split; [slen|]. destruct S as [S1 S2]. unfold shows_udp, l4_sport, l4_dport in *. rewrite !be16f_splice_disj by slen.
    rewrite R1. split; [exact S1|exact S2]. }
  split; [rewrite R1; reflexivity|]. split; [exact W|]. split; [rewrite RB; apply skipn_splice_before; slen|exact O].
Qed.

Lemma reverse_flow : forall h p, udp_agrees h p ->
  exists p' h', CreateReverseFlowPacket h p = Ok (p', h') /\
    udp_agrees h' p' /\ version p' = version p /\
    Buffer p' = win (Buffer p) 0 (hl p + 8) (s_cap (Buffer p)) /\
    SourceAddress p' = DestinationAddress p /\ DestinationAddress p' = SourceAddress p /\
    SourcePort p' = DestPort p /\ DestPort p' = SourcePort p /\
    IPTotalLen p' = Z.of_nat (hl p + 8) /\ L4FlowHash p' = L4FlowHash p /\
    udp_length (rd h' (Buffer p')) (hl p) = 8 /\
    (version p = V4 -> ip4_valid (rd h' (Buffer p')) /\ udp_checksum (rd h' (Buffer p')) 20 = 0) /\
    (version p = V6 -> udp6_right (rd h' (Buffer p'))) /\
    only_bytes h h' (Buffer p) (reverse_bytes (version p)).
Proof.
  intros h p T. destruct (swap_ok h p T) as (E1 & T1 & O1). rewrite reverse_unfold, E1. cbn [rbind].
  pose proof T as (A & P & L & S). facts A. rewrite LB in L. pose proof A as (_ & _ & AL & _).
  set (h1 := set_rd h (Buffer p) (swapped (version p) (hl p) (rd h (Buffer p)))) in *. set (p1 := reversed_fields p) in *.
  assert (U : u8 (ipHeaderLen p1 + UDPDataPos) = Z.of_nat (hl p + 8)).
  { change (ipHeaderLen p1) with (ipHeaderLen p). rewrite HL1. unfold UDPDataPos, u8, hl. destruct (version p); reflexivity. }
  assert (HB : Z.of_nat (hl p + 8) < 65536) by lia.
  rewrite U. change (Buffer p1) with (Buffer p).
  rewrite resl_to_ok by lia. rewrite Nat2Z.id. cbn [rbind].
  replace (mkSl (s_arr (Buffer p)) (s_off (Buffer p)) (hl p + 8) (s_cap (Buffer p))) with (win (Buffer p) 0 (hl p + 8) (s_cap (Buffer p)))
    by (unfold win; now rewrite Nat.add_0_r).
  set (w := win (Buffer p) 0 (hl p + 8) (s_cap (Buffer p))) in *.
  assert (NL : Z.of_nat (hl p + 8) mod 65536 = Z.of_nat (hl p + 8)) by (apply Z.mod_small; lia).
  change (ipHeaderLen (with_buffer p1 w)) with (ipHeaderLen p1). rewrite U. unfold u16 at 1. rewrite NL.
  destruct (udp_resize h1 p1 (hl p + 8) (Z.of_nat (hl p + 8)) T1) as (cs & p2 & h2 & E2 & RC & Q2 & F2 & T2 & R2 & _ & O2).
  { change (hl p1) with (hl p). change (Buffer p1) with (Buffer p). lia. }
  { lia. }
  change (Buffer p1) with (Buffer p) in *. fold w in E2, Q2.
  change (ipTotalLength (with_buffer p1 w)) with (ipTotalLength p1). rewrite E2. cbn [rbind].
  assert (V2 : version p2 = version p) by (rewrite Q2; reflexivity).
  assert (B2 : Buffer p2 = w) by (rewrite Q2; reflexivity).
  assert (H2 : hl p2 = hl p) by (unfold hl; now rewrite V2).
  assert (LW : (s_len w = hl p + 8)%nat) by reflexivity.
  assert (X3 : exists p3 h3, (match version p2 with V4 => UpdateIPv4Checksum h2 p2 | V6 => Ok (p2, h2) end) = Ok (p3, h3) /\
    udp_agrees h3 p3 /\ p3 = with_total_csum p2 (ipTotalLength p2) (ipChecksum p3) /\
    (version p = V4 -> ip4_valid (rd h3 w)) /\ only_bytes h2 h3 w (fun k => (version p = V4 /\ 10 <= k < 12)%nat)).
  { destruct (version p2) eqn:EV.
    - destruct (udp_update4 h2 p2 T2 EV) as (p3 & h3 & E3 & T3 & Q3 & W3 & _ & O3). rewrite B2 in *. exists p3, h3. split; [exact E3|].
      split; [exact T3|]. split; [exact Q3|]. split; [auto|]. eapply only_weaken; [|exact O3]. intros k _ K. cbn beta in *. split; [congruence|exact K].
    - exists p2, h2. split; [reflexivity|]. split; [exact T2|]. split; [now destruct p2|]. split; [intros; congruence|]. apply only_refl. }
  destruct X3 as (p3 & h3 & E3 & T3 & Q3 & W3 & O3). rewrite E3. cbn [rbind].
  destruct (udp_finish h3 p3 T3) as (p4 & h4 & E4 & T4 & Q4 & _ & _ & _ & UL & C4 & C6 & PV & O4). rewrite E4.
  assert (B3 : Buffer p3 = w) by (rewrite Q3; exact B2). rewrite B3 in *.
  assert (V3 : version p3 = version p) by (rewrite Q3; exact V2).
  assert (H3 : hl p3 = hl p) by (unfold hl; now rewrite V3).
  assert (B4 : Buffer p4 = w) by (rewrite Q4; exact B3).
  assert (V4 : version p4 = version p) by (rewrite Q4; exact V3).
  exists p4, h4. rewrite B4. split; [reflexivity|]. split; [exact T4|]. split; [exact V4|]. split; [reflexivity|].
  split; [rewrite Q4, Q3, Q2; reflexivity|]. split; [rewrite Q4, Q3, Q2; reflexivity|].
  destruct (udp_ports p P) as [P1 P2]. assert (P4 : IPProto p4 = PROTO_UDP) by (rewrite Q4, Q3, Q2; exact P).
  destruct (udp_ports p4 P4) as [P5 P6]. rewrite P1, P2, P5, P6.
  split; [rewrite Q4, Q3, Q2; reflexivity|]. split; [rewrite Q4, Q3, Q2; reflexivity|].
  split; [rewrite Q4, Q3, Q2; reflexivity|]. split; [rewrite Q4, Q3, Q2; reflexivity|].
  split. { rewrite H3 in UL. rewrite UL, LW. lia. }
  split. { intros V. assert (HP : hl p = 20%nat) by (unfold hl; now rewrite V). rewrite H3, HP in C4. split; [apply PV; [congruence|apply W3, V]|apply C4; congruence]. }
  split. { intros V. apply C6. congruence. }
  apply only_trans with h1; [eapply only_weaken; [|exact O1]|].
  { intros k _ K. unfold reverse_bytes. cbn beta in K. destruct (version p); lia. }
  apply only_trans with h2.
  { (* the length bytes *) rewrite F2. apply (only_splices h1 (Buffer p) (rd h1 (Buffer p))).
    - destruct T1 as (A1 & _). exact (agrees_vslice _ _ A1).
    - destruct T1 as (A1 & _). facts A1. exact LB0.
    - destruct T1 as (A1 & _). facts A1. rewrite fixip_length; [exact LB0|]. change (Buffer p1) with (Buffer p) in *. lia.
    - destruct T1 as (A1 & _). facts A1. change (Buffer p1) with (Buffer p) in *. intros k K NK. change (version p1) with (version p).
      unfold reverse_bytes in NK. destruct (version p); unfold fixip, fix4, fix6; rewrite ?nth_splice_disj by (rewrite ?splice_length; cbn [length put16]; lia); reflexivity.
    - unfold reverse_bytes. intros k. destruct (version p); lia.
    - reflexivity. }
  apply only_trans with h3.
  - apply (only_front _ _ _ (hl p + 8) (s_cap (Buffer p))); [lia|]. fold w. eapply only_weaken; [|exact O3].
    intros k _ (V & K). unfold reverse_bytes. rewrite V. lia.
  - apply (only_front _ _ _ (hl p + 8) (s_cap (Buffer p))); [lia|]. fold w. eapply only_weaken; [|exact O4].
    intros k _ K. cbn beta in K. rewrite H3 in K. unfold reverse_bytes, hl in *. destruct (version p); lia.
Qed.
