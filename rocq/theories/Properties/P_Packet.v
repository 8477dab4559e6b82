(** Properties of package packet, parsing and checksums: C36-C39, C60. *)
From Verif Require Import Proof.PktParse Spec.PktSamples.

(** The heap holds the slice and its bytes are bytes; lengths are those of IP
    packets.  [New] takes the heap and returns none: it writes nowhere. *)
Definition given (h : heap) (s : slice) : Prop :=
  valid h s /\ is_bytes (rd h s) /\ (0 < s_len s)%nat /\ Z.of_nat (s_len s) < 65536.

Ltac given_tac :=
  split; [vm_compute; split; [lia|right; lia]|split; [bytes_tac|vm_compute; split; [lia|reflexivity]]].

(** ** C36 *)
Theorem C36_ipv4_parsing_shows_the_wire : forall h ctx s v p,
  given h s -> ip4_version (rd h s) = 4 -> New h ctx s v = Ok (Some p, None) ->
  context p = ctx /\
  shows_ip4 p (rd h s) /\
  (l4_inside (ip4_proto (rd h s)) 20 (rd h s) -> shows_l4 p (rd h s) 20) /\
  s_arr (Buffer p) = s_arr s /\ s_off (Buffer p) = s_off s /\
  rd h (Buffer p) = kept v (ip4_total (rd h s)) (rd h s).
Proof. exact ipv4_parsing_shows_the_wire. Qed.
Print Assumptions C36_ipv4_parsing_shows_the_wire.
Example C36_hypotheses_met :
  let '(h, s) := held tcp4_sample 4 in
  given h s /\ ip4_version (rd h s) = 4 /\ l4_inside (ip4_proto (rd h s)) 20 (rd h s) /\
  exists p, New h 7 s true = Ok (Some p, None) /\ SourcePort p = 1000 /\ DestPort p = 80 /\
            ID p = [52; 54; 54; 48].
Proof.
  cbn zeta beta iota delta [held]. split; [given_tac|]. split; [vm_compute; reflexivity|]. split.
  - vm_compute. split; intros; lia.
  - eexists. split; [vm_compute; reflexivity|]. vm_compute. auto.
Qed.

(** ** C37: the exact outcome, for every input; "never crashes" is refuted *)
Theorem C37_ipv4_outcome_partial : forall h ctx s v,
  given h s -> ip4_version (rd h s) = 4 ->
  outcome (New h ctx s v) = classify4 (rd h s) (Z.of_nat (s_cap s)) v.
Proof. exact ipv4_outcome. Qed.
Print Assumptions C37_ipv4_outcome_partial.
Theorem C37_no_crash_with_room_partial : forall h ctx s v,
  given h s -> ip4_version (rd h s) = 4 -> (38 <= s_len s)%nat -> (v = true -> 20 <= ip4_total (rd h s)) ->
  New h ctx s v <> Panic.
Proof. exact ipv4_no_crash. Qed.
Print Assumptions C37_no_crash_with_room_partial.
Theorem C37_never_crashes_refuted :
  (exists h s, given h s /\ ip4_version (rd h s) = 4 /\ New h 0 s false = Panic) /\
  (exists h s, given h s /\ ip4_version (rd h s) = 4 /\ New h 0 s true = Panic) /\
  (forall h ctx s v, s_len s = 0%nat -> New h ctx s v = Panic).
Proof.
  split; [|split; [|exact empty_input_crashes]].
  - (* 33 bytes of a TCP packet, not validated *)
    exists (fst (held (firstn 33 tcp4_sample) 0)), (snd (held (firstn 33 tcp4_sample) 0)).
    split; [given_tac|]. split; vm_compute; reflexivity.
  - (* a TCP packet stating a total length of 19 bytes, validated *)
    exists (fst (held (firstn 3 tcp4_sample ++ 19 :: skipn 4 tcp4_sample) 0)),
           (snd (held (firstn 3 tcp4_sample ++ 19 :: skipn 4 tcp4_sample) 0)).
    split; [given_tac|]. split; vm_compute; reflexivity.
Qed.
Print Assumptions C37_never_crashes_refuted.
Example C37_hypotheses_met :
  let '(h, s) := held udp4_sample 0 in
  given h s /\ ip4_version (rd h s) = 4 /\ outcome (New h 0 s true) = Accepts /\
  let '(h, s) := held (firstn 3 udp4_sample ++ 27 :: skipn 4 udp4_sample) 0 in
  outcome (New h 0 s true) = Rejects errUDPTooSmall.
Proof. cbn zeta beta iota delta [held]. split; [given_tac|]. repeat split; vm_compute; reflexivity. Qed.

(** ** C38 *)
Theorem C38_ipv6_parsing_shows_the_wire : forall h ctx s v p,
  given h s -> ip4_version (rd h s) <> 4 -> New h ctx s v = Ok (Some p, None) ->
  context p = ctx /\
  ((40 <= s_len s)%nat -> shows_ip6 p (rd h s)) /\
  (l4_inside (ip6_next (rd h s)) 40 (rd h s) -> shows_l4 p (rd h s) 40) /\
  s_arr (Buffer p) = s_arr s /\ s_off (Buffer p) = s_off s /\
  rd h (Buffer p) = kept v ((40 + ip6_payload (rd h s)) mod 65536) (rd h s).
Proof. exact ipv6_parsing_shows_the_wire. Qed.
Print Assumptions C38_ipv6_parsing_shows_the_wire.
Theorem C38_ipv6_outcome_partial : forall h ctx s v,
  given h s -> ip4_version (rd h s) <> 4 ->
  outcome (New h ctx s v) = classify6 (rd h s) (Z.of_nat (s_cap s)) v.
Proof. exact ipv6_outcome. Qed.
Print Assumptions C38_ipv6_outcome_partial.
(** short input is not rejected: it crashes, and a validated UDP packet with
    bytes behind it crashes too *)
Theorem C38_short_input_rejected_refuted :
  (exists h s, given h s /\ (s_len s < 40)%nat /\ ip4_version (rd h s) = 6 /\ New h 0 s true = Panic) /\
  (exists h s p, given h s /\ (s_len s < 40)%nat /\ ip4_version (rd h s) = 6 /\ New h 0 s false = Ok (Some p, None)) /\
  (exists h s, given h s /\ (53 <= s_len s)%nat /\ ip4_version (rd h s) = 6 /\ ip6_next (rd h s) = PROTO_UDP /\
     New h 0 s false <> Panic /\ New h 0 s true = Panic).
Proof.
  split; [|split].
  - exists (fst (held (firstn 39 udp6_sample) 0)), (snd (held (firstn 39 udp6_sample) 0)).
    split; [given_tac|]. split; [vm_compute; lia|]. split; vm_compute; reflexivity.
  - exists (fst (held (firstn 6 udp6_sample ++ [58]) 40)), (snd (held (firstn 6 udp6_sample ++ [58]) 40)). eexists.
    split; [given_tac|]. split; [vm_compute; lia|]. split; vm_compute; reflexivity.
  - exists (fst (held (udp6_sample ++ [0]) 0)), (snd (held (udp6_sample ++ [0]) 0)).
    split; [given_tac|]. split; [vm_compute; lia|]. repeat split; try (vm_compute; reflexivity). vm_compute. discriminate.
Qed.
Print Assumptions C38_short_input_rejected_refuted.
Example C38_hypotheses_met :
  let '(h, s) := held udp6_sample 0 in
  given h s /\ ip4_version (rd h s) = 6 /\ l4_inside (ip6_next (rd h s)) 40 (rd h s) /\
  exists p, New h 7 s true = Ok (Some p, None) /\ SourcePort p = 53 /\ DestPort p = 1000.
Proof.
  cbn zeta beta iota delta [held]. split; [given_tac|]. split; [vm_compute; reflexivity|]. split.
  - vm_compute. split; intros; lia.
  - eexists. split; [vm_compute; reflexivity|]. vm_compute. auto.
Qed.

(** ** C39 *)
Theorem C39_checksum_is_rfc1071 : forall b,
  is_bytes b -> zlen b <= 131070 -> checksum b = Ok (internet_checksum b).
Proof. exact checksum_spec. Qed.
Print Assumptions C39_checksum_is_rfc1071.
(** piecewise: [partialChecksum] over even-length pieces and a last piece of any
    length, then [finalizeChecksum], is the checksum of the concatenation *)
Theorem C39_piecewise : forall pieces last,
  Forall is_bytes pieces -> is_bytes last -> Forall (fun p => Nat.even (length p) = true) pieces ->
  zlen (concat pieces ++ last) <= 131070 ->
  finalizeChecksum (partialChecksum (fold_left partialChecksum pieces 0) last) =
  Ok (internet_checksum (concat pieces ++ last)).
Proof. exact piecewise_checksum. Qed.
Print Assumptions C39_piecewise.
(** the folding loop ends for every 32-bit sum *)
Theorem C39_folding_terminates : forall sum, 0 <= sum < 4294967296 ->
  exists r, csumConvert32To16bit sum = Ok r /\ 0 <= r < 65536 /\ r mod 65535 = sum mod 65535.
Proof. exact folding_terminates. Qed.
Print Assumptions C39_folding_terminates.
(** the RFC 1071 example (section 3): 0001 f203 f4f5 f6f7 sums to ddf2 *)
Example C39_rfc_example : oc_sum [0;1;242;3;244;245;246;247] = 56818 /\
  checksum [0;1;242;3;244;245;246;247] = Ok (65535 - 56818) /\
  finalizeChecksum (partialChecksum (fold_left partialChecksum [[0;1;242;3]; [244;245]] 0) [246]) =
  checksum [0;1;242;3;244;245;246].
Proof. repeat split; vm_compute; reflexivity. Qed.

(** ** C60: parsing depends only on the packet's own bytes - false of the code *)
(** fields are read up to the capacity: 20 bytes of UDP packet in a larger
    buffer are accepted, with ports taken from the neighbouring memory *)
Theorem C60_reads_only_the_packet_partial : forall h1 h2 ctx1 ctx2 s1 s2 v p1 p2,
  given h1 s1 -> given h2 s2 -> rd h1 s1 = rd h2 s2 -> ip4_version (rd h1 s1) = 4 ->
  l4_inside (ip4_proto (rd h1 s1)) 20 (rd h1 s1) ->
  New h1 ctx1 s1 v = Ok (Some p1, None) -> New h2 ctx2 s2 v = Ok (Some p2, None) ->
  SourceAddress p1 = SourceAddress p2 /\ DestinationAddress p1 = DestinationAddress p2 /\
  IPProto p1 = IPProto p2 /\
  (IPProto p1 = PROTO_TCP \/ IPProto p1 = PROTO_UDP -> SourcePort p1 = SourcePort p2 /\ DestPort p1 = DestPort p2) /\
  rd h1 (Buffer p1) = rd h2 (Buffer p2).
Proof. exact reads_only_the_packet. Qed.
Print Assumptions C60_reads_only_the_packet_partial.
Theorem C60_reads_only_the_packet_refuted :
  exists h1 h2 s p1 p2, given h1 s /\ given h2 s /\ rd h1 s = rd h2 s /\ ip4_version (rd h1 s) = 4 /\
    New h1 0 s false = Ok (Some p1, None) /\ New h2 0 s false = Ok (Some p2, None) /\
    SourcePort p1 <> SourcePort p2.
Proof.
  exists [firstn 20 udp4_sample ++ repeat 1 8], [firstn 20 udp4_sample ++ repeat 2 8], (mkSl 0 0 20 28).
  do 2 eexists. split; [given_tac|]. split; [given_tac|].
  do 4 (split; [vm_compute; reflexivity|]). vm_compute. discriminate.
Qed.
Print Assumptions C60_reads_only_the_packet_refuted.
