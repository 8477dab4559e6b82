(** C60, exactly: which fields New takes from where *)
From Verif Require Import Proof.PktSource Spec.PktSamples Properties.P_Packet.

(** every field of an accepted packet is read from the packet and the memory
    behind it in its buffer *)
Theorem C60_fields_of_the_buffer : forall h ctx s v p,
  given h s -> is_bytes (memory h s) -> New h ctx s v = Ok (Some p, None) ->
  firstn (s_len s) (memory h s) = rd h s /\
  (ip4_version (rd h s) = 4 -> shows_ip4 p (memory h s) /\ shows_l4 p (memory h s) 20) /\
  (ip4_version (rd h s) <> 4 -> shows_ip6 p (memory h s) /\ shows_l4 p (memory h s) 40).
Proof.
  intros h ctx s v p (VA & _ & L1 & L2) IB E. pose proof (valid_vslice h s VA L1) as V.
  split; [now apply memory_prefix|]. split; intros VR.
  - eapply New_source4; eassumption.
  - eapply New_source6; eassumption.
Qed.
Print Assumptions C60_fields_of_the_buffer.
(** the ports of an accepted UDP packet are its own, whatever lies behind it, exactly
    when it holds the first four bytes of the UDP header *)
Theorem C60_udp_ports_exact : forall h ctx s v p,
  given h s -> is_bytes (memory h s) -> New h ctx s v = Ok (Some p, None) -> IPProto p = PROTO_UDP ->
  ((forall h' p', refilled h h' s -> New h' ctx s v = Ok (Some p', None) ->
      SourcePort p' = SourcePort p /\ DestPort p' = DestPort p) <-> (hlen (rd h s) + 4 <= s_len s)%nat).
Proof.
  intros h ctx s v p (VA & _ & L1 & L2) IB E U. pose proof (valid_vslice h s VA L1) as V.
  destruct (udp_ports_own h ctx s v p V IB L1 L2 E U) as [A B]. split.
  - intros H. apply A. intros h' p' V' IB' R. apply H. split; [now apply vslice_valid|auto].
  - intros Q h' p' (V' & IB' & R). apply (B Q h' p'); auto. now apply valid_vslice.
Qed.
Print Assumptions C60_udp_ports_exact.
(** an accepted TCP packet's ports, numbers, offset and flags are always its own *)
Theorem C60_tcp_fields_own : forall h ctx s v p h' p',
  given h s -> is_bytes (memory h s) -> New h ctx s v = Ok (Some p, None) -> IPProto p = PROTO_TCP ->
  refilled h h' s -> New h' ctx s v = Ok (Some p', None) ->
  SourcePort p' = SourcePort p /\ DestPort p' = DestPort p /\ tcpSeq p' = tcpSeq p /\ tcpAck p' = tcpAck p /\
  tcpDataOffset p' = tcpDataOffset p /\ GetTCPFlags p' = GetTCPFlags p.
Proof.
  intros h ctx s v p h' p' (VA & _ & L1 & L2) IB E U (V' & IB' & R) E'. pose proof (valid_vslice h s VA L1) as V.
  destruct (tcp_fields_own h ctx s v p V IB L1 L2 E U) as [A _]. apply (A h' p'); auto. now apply valid_vslice.
Qed.
Print Assumptions C60_tcp_fields_own.
(** ... and its checksum exactly when the packet reaches that far *)
Theorem C60_tcp_checksum_exact : forall h ctx s v p,
  given h s -> is_bytes (memory h s) -> New h ctx s v = Ok (Some p, None) -> IPProto p = PROTO_TCP ->
  ((forall h' p', refilled h h' s -> New h' ctx s v = Ok (Some p', None) -> tcpChecksum p' = tcpChecksum p) <->
   (hlen (rd h s) + 18 <= s_len s)%nat).
Proof.
  intros h ctx s v p (VA & _ & L1 & L2) IB E U. pose proof (valid_vslice h s VA L1) as V.
  destruct (tcp_fields_own h ctx s v p V IB L1 L2 E U) as [_ [A B]]. split.
  - intros H. apply A. intros h' p' V' IB' R. apply H. split; [now apply vslice_valid|auto].
  - intros Q h' p' (V' & IB' & R). apply (B Q h' p'); auto. now apply valid_vslice.
Qed.
Print Assumptions C60_tcp_checksum_exact.
(** the addresses of an accepted IPv6 packet are its own exactly when it holds the
    IPv6 header (those of an IPv4 packet always are: C36) *)
Theorem C60_ipv6_addresses_exact : forall h ctx s v p,
  given h s -> is_bytes (memory h s) -> New h ctx s v = Ok (Some p, None) -> ip4_version (rd h s) <> 4 ->
  ((forall h' p', refilled h h' s -> New h' ctx s v = Ok (Some p', None) ->
      SourceAddress p' = SourceAddress p /\ DestinationAddress p' = DestinationAddress p) <-> (40 <= s_len s)%nat).
Proof.
  intros h ctx s v p (VA & _ & L1 & L2) IB E U. pose proof (valid_vslice h s VA L1) as V.
  destruct (ip6_addresses_own h ctx s v p V IB L1 L2 E U) as [A B]. split.
  - intros H. apply A. intros h' p' V' IB' R. apply H. split; [now apply vslice_valid|auto].
  - intros Q h' p' (V' & IB' & R). apply (B Q h' p'); auto. now apply valid_vslice.
Qed.
Print Assumptions C60_ipv6_addresses_exact.
(** a UDP packet cut after its IP header (accepted without validation), a whole
    one, and an IPv6 packet of 7 bytes *)
Example C60_exact_hypotheses_met :
  let h := [firstn 20 udp4_sample ++ repeat 1 8] in let s := mkSl 0 0 20 28 in
  let h6 := [firstn 7 [96;0;0;0;0;0;59] ++ repeat 3 40] in let s6 := mkSl 0 0 7 47 in
  given h s /\ is_bytes (memory h s) /\
  (exists p, New h 0 s false = Ok (Some p, None) /\ IPProto p = PROTO_UDP /\ SourcePort p = 257) /\
  given h6 s6 /\ is_bytes (memory h6 s6) /\ ip4_version (rd h6 s6) <> 4 /\
  (exists p, New h6 0 s6 false = Ok (Some p, None) /\ SourceAddress p = repeat 3 16).
Proof.
  cbn zeta. split; [given_tac|]. split; [bytes_tac|].
  split; [eexists; split; [vm_compute; reflexivity|vm_compute; auto]|].
  split; [given_tac|]. split; [bytes_tac|]. split; [vm_compute; discriminate|].
  eexists; split; [vm_compute; reflexivity|vm_compute; auto].
Qed.
