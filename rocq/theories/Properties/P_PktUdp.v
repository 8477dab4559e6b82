(** Properties of package packet, UDP and flow hashes: C47-C53. *)
From Verif Require Import Proof.PktNew Proof.PktMirror Proof.IPText Spec.PktSamples Properties.P_PktOps.

(** ** C47 *)
Theorem C47_reverse_flow : forall h p, udp_agrees h p ->
  exists p' h', CreateReverseFlowPacket h p = Ok (p', h') /\
    udp_agrees h' p' /\ version p' = version p /\ opposite_flow p p' /\
    mirrors (version p) (rd h (Buffer p)) (rd h' (Buffer p')) /\
    udp_complete (version p) (rd h' (Buffer p')) /\
    IPTotalLen p' = zlen (rd h' (Buffer p')) /\ L4FlowHash p' = L4FlowHash p /\
    Buffer p' = win (Buffer p) 0 (hl p + 8) (s_cap (Buffer p)) /\
    only_bytes h h' (Buffer p) (reverse_bytes (version p)).
Proof. exact reverse_wire. Qed.
Print Assumptions C47_reverse_flow.
Definition u4 := parsed udp4_sample.
Definition u6 := parsed udp6_sample.
Example C47_hypotheses_met :
  udp_agrees (fst u4) (snd u4) /\ udp_agrees (fst u6) (snd u6) /\ version (snd u4) = V4 /\ version (snd u6) = V6 /\
  exists p' h', CreateReverseFlowPacket (fst u4) (snd u4) = Ok (p', h') /\
    rd h' (Buffer p') = [69;0;0;28; 0;7;0;0; 64;17;102;200; 10;0;0;2; 10;0;0;1; 3;232;0;53; 0;8;0;0].
Proof.
  split; [apply udp4_state|]. split; [apply udp6_state|]. split; [vm_compute; reflexivity|]. split; [vm_compute; reflexivity|].
  do 2 eexists. split; vm_compute; reflexivity.
Qed.

(** ** C48 *)
(** a control packet made from a header-only packet *)
Theorem C48_control_packet : forall grow h p ty d t, udp_agrees h p -> s_len (Buffer p) = (hl p + 8)%nat ->
  IPTotalLen p = Z.of_nat (hl p + 8) -> (version p = V4 -> ip4_valid (rd h (Buffer p))) ->
  0 <= ty < 256 -> CreateUDPAuthMarker ty = Ok (rd h d) -> valid h d -> valid h t -> is_bytes (rd h t) ->
  zlen (rd h (Buffer p) ++ rd h d ++ rd h t) < 65536 ->
  exists p' h' s, UDPTokenAttach grow h p d t = Ok (p', h') /\ udp_agrees h' p' /\
    GetUDPType h' p' = Ok (Z.land ty 240) /\
    ReadUDPToken p' = Ok s /\ rd h' s = rd h t /\
    zlen (rd h' (Buffer p')) = Z.of_nat (hl p) + 28 + zlen (rd h t) /\
    version p' = version p /\ udp_complete (version p') (rd h' (Buffer p')) /\ header_kept h h' p p'.
Proof. exact control_packet. Qed.
Print Assumptions C48_control_packet.
(** ... and from any UDP packet by reversing it *)
Theorem C48_control_reply : forall grow h p ty d t, udp_agrees h p -> 0 <= ty < 256 ->
  CreateUDPAuthMarker ty = Ok (rd h d) -> valid h d -> valid h t -> apart (Buffer p) d -> apart (Buffer p) t ->
  is_bytes (rd h t) -> Z.of_nat (hl p) + 28 + zlen (rd h t) < 65536 ->
  exists p1 h1 p2 h2 s, CreateReverseFlowPacket h p = Ok (p1, h1) /\
    UDPTokenAttach grow h1 p1 d t = Ok (p2, h2) /\ udp_agrees h2 p2 /\
    GetUDPType h2 p2 = Ok (Z.land ty 240) /\ ReadUDPToken p2 = Ok s /\ rd h2 s = rd h t /\
    zlen (rd h2 (Buffer p2)) = Z.of_nat (hl p) + 28 + zlen (rd h t) /\
    opposite_flow p p2 /\ udp_complete (version p) (rd h2 (Buffer p2)).
Proof. exact control_reply. Qed.
Print Assumptions C48_control_reply.
(** the marker, and the type of any datagram *)
Theorem C48_marker : forall ty, CreateUDPAuthMarker ty = Ok (ty :: 0 :: control_signature).
Proof. exact marker_bytes. Qed.
Print Assumptions C48_marker.
Theorem C48_type_of_buffer : forall d, is_bytes d ->
  (has_signature d -> GetUDPTypeFromBuffer d = Ok (Z.land (byte_at d 8) 240)) /\
  (~ has_signature d -> GetUDPTypeFromBuffer d = Ok 0).
Proof. exact type_of_buffer. Qed.
Print Assumptions C48_type_of_buffer.
Lemma udp_state h p s : valid h s -> is_bytes (rd h s) -> (0 < s_len s)%nat -> Z.of_nat (s_len s) < 65536 ->
  New h 0 s true = Ok (Some p, None) -> IPProto p = PROTO_UDP -> (hl p + 8 <= s_len (Buffer p))%nat -> udp_agrees h p.
Proof. intros V B L1 L2 E P H. destruct (new_agrees h 0 s true p V B L1 L2 E ltac:(lia)) as (_ & _ & _ & _ & T). auto. Qed.
Ltac udp_state_tac s :=
  apply (udp_state _ _ s);
  [vm_compute; split; [lia|right; lia]|bytes_tac|apply Nat.ltb_lt; reflexivity|reflexivity
  |vm_compute; reflexivity|reflexivity|apply Nat.leb_le; reflexivity].
Definition h48 : heap := [udp4_sample; 32 :: 0 :: control_signature; [7; 8; 9]].
Example C48_hypotheses_met : let p := snd u4 in let d := mkSl 1 0 20 20 in let t := mkSl 2 0 3 3 in
  udp_agrees h48 p /\ CreateUDPAuthMarker 32 = Ok (rd h48 d) /\ valid h48 d /\ valid h48 t /\ apart (Buffer p) d /\ apart (Buffer p) t /\
  is_bytes (rd h48 t) /\ has_signature (skipn 20 (firstn 28 udp4_sample ++ rd h48 d ++ rd h48 t)).
Proof.
  intros p d t. split; [udp_state_tac (mkSl 0 0 32 32)|]. split; [vm_compute; reflexivity|].
  split; [vm_compute; split; [lia|right; lia]|]. split; [vm_compute; split; [lia|right; lia]|].
  split; [right; left; vm_compute; discriminate|]. split; [right; left; vm_compute; discriminate|].
  split; [bytes_tac|]. split; [vm_compute; lia|vm_compute; reflexivity].
Qed.

(** ** C49 *)
(** [append_safe]: appending the header in place does not write over the data
    given (see the refutation) *)
Theorem C49_detach_attach_partial : forall grow h p hd d, udp_agrees h p -> valid h hd -> valid h d ->
  is_bytes (rd h hd) -> is_bytes (rd h d) ->
  append_safe (win (Buffer p) 0 (hl p + 8) (s_cap (Buffer p))) (length (rd h hd)) d ->
  Z.of_nat (hl p) + 8 + zlen (rd h hd ++ rd h d) < 65536 ->
  (version p = V4 -> ip4_valid (rd h (Buffer p))) ->
  exists p1 p2 h2 s, UDPDataDetach p = Ok p1 /\ UDPDataAttach grow h p1 hd d = Ok (p2, h2) /\ udp_agrees h2 p2 /\
    GetUDPData p2 = Ok s /\ rd h2 s = rd h hd ++ rd h d /\
    version p2 = version p /\ SourceAddress p2 = SourceAddress p /\ DestinationAddress p2 = DestinationAddress p /\
    SourcePort p2 = SourcePort p /\ DestPort p2 = DestPort p /\
    IPTotalLen p2 = zlen (rd h2 (Buffer p2)) /\
    udp_complete (version p) (rd h2 (Buffer p2)) /\ header_kept h h2 p p2.
Proof. exact data_replaced. Qed.
Print Assumptions C49_detach_attach_partial.
(** Refuted in general: prefix a header to the packet's own payload *)
Theorem C49_detach_attach_refuted : exists grow h p hd d p1 p2 h2 s,
  udp_agrees h p /\ valid h hd /\ apart (Buffer p) hd /\ rd h hd = [9; 9] /\
  GetUDPData p = Ok d /\ rd h d = [1; 2; 3; 4] /\
  UDPDataDetach p = Ok p1 /\ UDPDataAttach grow h p1 hd d = Ok (p2, h2) /\
  GetUDPData p2 = Ok s /\ rd h2 s = [9; 9; 9; 9; 3; 4].
Proof.
  exists (fun _ _ => 0%nat), [udp4_sample; [9; 9]], (snd u4), (mkSl 1 0 2 2). do 5 eexists.
  split; [udp_state_tac (mkSl 0 0 32 32)|]. split; [vm_compute; split; [lia|right; lia]|].
  split; [right; left; vm_compute; discriminate|].
  split; [vm_compute; reflexivity|]. split; [vm_compute; reflexivity|]. split; [vm_compute; reflexivity|].
  split; [vm_compute; reflexivity|]. split; [vm_compute; reflexivity|]. split; [vm_compute; reflexivity|]. vm_compute. reflexivity.
Qed.
Print Assumptions C49_detach_attach_refuted.
Example C49_hypotheses_met : let h := [udp4_sample; [9; 9]; [5; 6; 7]] in let p := snd u4 in
  let hd := mkSl 1 0 2 2 in let d := mkSl 2 0 3 3 in
  udp_agrees h p /\ valid h hd /\ valid h d /\ is_bytes (rd h hd) /\ is_bytes (rd h d) /\
  append_safe (win (Buffer p) 0 (hl p + 8) (s_cap (Buffer p))) (length (rd h hd)) d /\ ip4_valid (rd h (Buffer p)).
Proof.
  intros h p hd d. split; [udp_state_tac (mkSl 0 0 32 32)|].
  split; [vm_compute; split; [lia|right; lia]|]. split; [vm_compute; split; [lia|right; lia]|].
  split; [unfold h, hd; bytes_tac|]. split; [unfold h, d; bytes_tac|].
  split; [right; right; right; left; vm_compute; discriminate|vm_compute; reflexivity].
Qed.

(** ** C50 *)
(** every operation that writes an IPv6 UDP checksum writes a valid one, and the
    exact value the sum gives: so 0 exactly when the sum gives 0 *)
Theorem C50_ipv6_checksum_valid_partial : forall h p, udp_agrees h p -> version p = V6 ->
  let written b := l4_valid V6 40 PROTO_UDP b /\ udp_checksum b 40 = l4_right_checksum V6 40 PROTO_UDP 6 b in
  (exists p' h', CreateReverseFlowPacket h p = Ok (p', h') /\ written (rd h' (Buffer p'))) /\
  (forall grow d t, valid h d -> valid h t -> is_bytes (rd h d) -> is_bytes (rd h t) ->
     zlen (rd h (Buffer p) ++ rd h d ++ rd h t) < 65536 ->
     exists p' h', UDPTokenAttach grow h p d t = Ok (p', h') /\ written (rd h' (Buffer p'))) /\
  (forall grow hd d, valid h hd -> valid h d -> is_bytes (rd h hd) -> is_bytes (rd h d) ->
     append_safe (Buffer p) (length (rd h hd)) d -> zlen (rd h (Buffer p) ++ rd h hd ++ rd h d) < 65536 ->
     exists p' h', UDPDataAttach grow h p hd d = Ok (p', h') /\ written (rd h' (Buffer p'))).
Proof.
  intros h p U V written. split; [|split].
  - destruct (reverse_flow h p U) as (p' & h' & R & X). exists p', h'. split; [exact R|]. apply X, V.
  - intros grow d t V1 V2 B1 B2 L. destruct (token_attach grow h p d t U V1 V2 B1 B2 L) as (p' & h' & R & X).
    exists p', h'. split; [exact R|]. apply X, V.
  - intros grow hd d V1 V2 B1 B2 S L. destruct (data_attach grow h p hd d U V1 V2 B1 B2 S L) as (p' & h' & R & X).
    exists p', h'. split; [exact R|]. apply X, V.
Qed.
Print Assumptions C50_ipv6_checksum_valid_partial.
(** 2001:db8::1:53 -> 2001:db8::2:42036: the reply carries checksum 0, which
    RFC 8200 forbids (receivers discard it) *)
Definition udp6_zero : bytes := firstn 42 udp6_sample ++ [164; 52] ++ skipn 44 udp6_sample.
Theorem C50_ipv6_checksum_never_zero_refuted : exists h p p' h',
  udp_agrees h p /\ version p = V6 /\ CreateReverseFlowPacket h p = Ok (p', h') /\
  udp_checksum (rd h' (Buffer p')) 40 = 0.
Proof.
  exists (fst (parsed udp6_zero)), (snd (parsed udp6_zero)). do 2 eexists. split; [parsed_tac|].
  split; [vm_compute; reflexivity|]. split; [vm_compute; reflexivity|]. vm_compute. reflexivity.
Qed.
Print Assumptions C50_ipv6_checksum_never_zero_refuted.
Example C50_hypotheses_met : udp_agrees (fst u6) (snd u6) /\ version (snd u6) = V6.
Proof. split; [apply udp6_state|vm_compute; reflexivity]. Qed.

(** ** C51 *)
(** a packet accepted by New whose headers are inside it *)
Definition accepted (h : heap) (p : packet) : Prop :=
  exists ctx s v, valid h s /\ is_bytes (rd h s) /\ (0 < s_len s)%nat /\ Z.of_nat (s_len s) < 65536 /\
    New h ctx s v = Ok (Some p, None) /\ (hl p <= s_len (Buffer p))%nat /\
    (IPProto p = PROTO_TCP /\ (hl p + 20 <= s_len (Buffer p))%nat \/ IPProto p = PROTO_UDP /\ (hl p + 8 <= s_len (Buffer p))%nat).
Lemma accepted_facts h p : accepted h p -> (tcp_agrees h p \/ udp_agrees h p) /\ L4FlowHash p = l4FlowHash p.
Proof.
  intros (ctx & s & v & V & B & L1 & L2 & E & H & K). split; [|eapply new_hash, E].
  destruct (new_agrees h ctx s v p V B L1 L2 E H) as (_ & _ & _ & T & U). destruct K as [[P Q]|[P Q]]; auto.
Qed.
Theorem C51_flow_hash_ipv4 : forall h1 p1 h2 p2, accepted h1 p1 -> accepted h2 p2 -> version p1 = V4 -> version p2 = V4 ->
  (L4FlowHash p1 = L4FlowHash p2 <-> same_flow p1 p2) /\ (L4ReverseFlowHash p1 = L4FlowHash p2 <-> opposite_flow p1 p2).
Proof.
  intros h1 p1 h2 p2 A1 A2 V1 V2. destruct (accepted_facts _ _ A1), (accepted_facts _ _ A2). apply (hash4 h1 p1 h2 p2); auto.
Qed.
Print Assumptions C51_flow_hash_ipv4.
Lemma accepted_held b : forallb (fun x => (0 <=? x) && (x <? 256)) b = true -> (0 < length b)%nat -> zlen b < 65536 ->
  (exists p, New (fst (held b 0)) 0 (snd (held b 0)) true = Ok (Some p, None) /\ (hl p <= s_len (Buffer p))%nat /\
    (IPProto p = PROTO_TCP /\ (hl p + 20 <= s_len (Buffer p))%nat \/ IPProto p = PROTO_UDP /\ (hl p + 8 <= s_len (Buffer p))%nat)) ->
  accepted (fst (parsed b)) (snd (parsed b)).
Proof.
  intros IB L0 L (p & E & H & K). exists 0, (snd (held b 0)), true. unfold parsed. cbn [fst snd]. rewrite E.
  assert (R : rd (fst (held b 0)) (snd (held b 0)) = b).
  { unfold held, rd, arr. cbn. rewrite app_nil_r. apply firstn_all. }
  split; [unfold held; split; cbn; [lia|right]; unfold arr; cbn; rewrite app_nil_r; split; lia|].
  split. { rewrite R. apply Forall_forall. intros x I. rewrite forallb_forall in IB. specialize (IB x I). unfold is_byte. lia. }
  split; [exact L0|]. split; [exact L|]. auto.
Qed.
Ltac accepted_tac := apply accepted_held;
  [vm_compute; reflexivity|vm_compute; lia|vm_compute; reflexivity|
   eexists; split; [vm_compute; reflexivity|split; [vm_compute; lia|right; split; [vm_compute; reflexivity|vm_compute; lia]]]].
(** 10.0.0.2:1000 -> 10.0.0.1:53 *)
Definition udp4_back : bytes := [69;0;0;28; 0;7;0;0; 64;17;102;200; 10;0;0;2; 10;0;0;1; 3;232;0;53; 0;8;0;0].
Example C51_hypotheses_met :
  accepted (fst u4) (snd u4) /\ accepted (fst (parsed udp4_back)) (snd (parsed udp4_back)) /\
  version (snd u4) = V4 /\ version (snd (parsed udp4_back)) = V4 /\ opposite_flow (snd u4) (snd (parsed udp4_back)).
Proof.
  split; [accepted_tac|]. split; [accepted_tac|]. split; [vm_compute; reflexivity|]. split; [vm_compute; reflexivity|].
  repeat split; vm_compute; reflexivity.
Qed.

(** ** C52 *)
(** Equal hashes give equal ports, and one equal address gives the same flow; so
    do source (or destination) addresses without "::". *)
Theorem C52_flow_hash_ipv6_partial : forall h1 p1 h2 p2, accepted h1 p1 -> accepted h2 p2 -> version p1 = V6 -> version p2 = V6 ->
  (same_flow p1 p2 -> L4FlowHash p1 = L4FlowHash p2) /\
  (L4FlowHash p1 = L4FlowHash p2 ->
     SourcePort p1 = SourcePort p2 /\ DestPort p1 = DestPort p2 /\
     (SourceAddress p1 = SourceAddress p2 -> same_flow p1 p2) /\
     (DestinationAddress p1 = DestinationAddress p2 -> same_flow p1 p2) /\
     (uncompressed (SourceAddress p1) -> uncompressed (SourceAddress p2) -> same_flow p1 p2) /\
     (uncompressed (DestinationAddress p1) -> uncompressed (DestinationAddress p2) -> same_flow p1 p2)).
Proof.
  intros h1 p1 h2 p2 A1 A2 V1 V2. destruct (accepted_facts _ _ A1), (accepted_facts _ _ A2). apply (hash6 h1 p1 h2 p2); auto.
Qed.
Print Assumptions C52_flow_hash_ipv6_partial.
(** 1::2 -> 3:4::5 and 1::2:3 -> 4::5, same ports *)
Definition udp6_between (src dst : bytes) : bytes := firstn 8 udp6_sample ++ src ++ dst ++ skipn 40 udp6_sample.
Definition clash1 : bytes := udp6_between [0;1;0;0;0;0;0;0;0;0;0;0;0;0;0;2] [0;3;0;4;0;0;0;0;0;0;0;0;0;0;0;5].
Definition clash2 : bytes := udp6_between [0;1;0;0;0;0;0;0;0;0;0;0;0;2;0;3] [0;4;0;0;0;0;0;0;0;0;0;0;0;0;0;5].
(** exactly: the two hashes are equal when the ports are and the two addresses'
    texts, joined by a colon, are the same text *)
Theorem C52_flow_hash_ipv6_exact : forall h1 p1 h2 p2, accepted h1 p1 -> accepted h2 p2 -> version p1 = V6 -> version p2 = V6 ->
  let joined a b := ip_string a ++ [58] ++ ip_string b in
  (L4FlowHash p1 = L4FlowHash p2 <->
     SourcePort p1 = SourcePort p2 /\ DestPort p1 = DestPort p2 /\
     joined (SourceAddress p1) (DestinationAddress p1) = joined (SourceAddress p2) (DestinationAddress p2)) /\
  (L4ReverseFlowHash p1 = L4FlowHash p2 <->
     DestPort p1 = SourcePort p2 /\ SourcePort p1 = DestPort p2 /\
     joined (DestinationAddress p1) (SourceAddress p1) = joined (SourceAddress p2) (DestinationAddress p2)).
Proof.
  intros h1 p1 h2 p2 A1 A2 V1 V2 joined. destruct (accepted_facts _ _ A1), (accepted_facts _ _ A2). apply (hash6_exact h1 p1 h2 p2); auto.
Qed.
Print Assumptions C52_flow_hash_ipv6_exact.
(** the hash of the opposite direction's packet, for every pair of addresses *)
Theorem C52_reverse_hash_partial : forall h1 p1 h2 p2, accepted h1 p1 -> accepted h2 p2 -> version p1 = V6 -> version p2 = V6 ->
  opposite_flow p1 p2 -> L4ReverseFlowHash p1 = L4FlowHash p2.
Proof.
  intros h1 p1 h2 p2 A1 A2 V1 V2 (O1 & O2 & O3 & O4). destruct (C52_flow_hash_ipv6_exact h1 p1 h2 p2 A1 A2 V1 V2) as [_ X].
  apply X. rewrite O1, O2, O3, O4. auto.
Qed.
Print Assumptions C52_reverse_hash_partial.
Theorem C52_flow_hash_ipv6_refuted : exists h1 p1 h2 p2, accepted h1 p1 /\ accepted h2 p2 /\ version p1 = V6 /\ version p2 = V6 /\
  L4FlowHash p1 = L4FlowHash p2 /\ SourceAddress p1 <> SourceAddress p2 /\ DestinationAddress p1 <> DestinationAddress p2.
Proof.
  exists (fst (parsed clash1)), (snd (parsed clash1)), (fst (parsed clash2)), (snd (parsed clash2)).
  split; [accepted_tac|]. split; [accepted_tac|]. do 3 (split; [vm_compute; reflexivity|]). split; vm_compute; discriminate.
Qed.
Print Assumptions C52_flow_hash_ipv6_refuted.
Example C52_hypotheses_met : accepted (fst u6) (snd u6) /\ version (snd u6) = V6 /\
  uncompressed [32;1; 0;0; 0;1; 0;2; 0;3; 0;0; 1;0; 0;1].
Proof.
  split; [accepted_tac|]. split; [vm_compute; reflexivity|]. intros i Hi.
  do 7 (destruct i as [|i]; [vm_compute; intros [? ?]; discriminate|]). lia.
Qed.

(** ** C53 *)
(** The hash of a reversed packet is still the original direction's, whatever
    the packet; for IPv4 it is wrong unless the flow is its own mirror. *)
Theorem C53_hash_follows_refuted : forall h p, udp_agrees h p -> L4FlowHash p = l4FlowHash p ->
  exists p' h', CreateReverseFlowPacket h p = Ok (p', h') /\ opposite_flow p p' /\
    L4FlowHash p' = L4FlowHash p /\ L4FlowHash p' = L4ReverseFlowHash p' /\
    (version p = V4 -> L4FlowHash p' = l4FlowHash p' ->
       SourceAddress p = DestinationAddress p /\ SourcePort p = DestPort p).
Proof. exact hash_stale. Qed.
Print Assumptions C53_hash_follows_refuted.
(** sending the reversed bytes through New again shows the other hash *)
Theorem C53_hash_follows_example_refuted : exists h p p' h' q,
  accepted h p /\ udp_agrees h p /\ CreateReverseFlowPacket h p = Ok (p', h') /\
  New h' 0 (Buffer p') true = Ok (Some q, None) /\ same_flow p' q /\ L4FlowHash p' <> L4FlowHash q.
Proof.
  exists (fst u4), (snd u4). do 3 eexists. split; [accepted_tac|]. split; [apply udp4_state|].
  split; [vm_compute; reflexivity|]. split; [vm_compute; reflexivity|]. split; [repeat split; vm_compute; reflexivity|].
  vm_compute. discriminate.
Qed.
Print Assumptions C53_hash_follows_example_refuted.
Example C53_hypotheses_met : udp_agrees (fst u4) (snd u4) /\ L4FlowHash (snd u4) = l4FlowHash (snd u4) /\
  SourcePort (snd u4) <> DestPort (snd u4).
Proof. split; [apply udp4_state|]. split; [vm_compute; reflexivity|vm_compute; discriminate]. Qed.
