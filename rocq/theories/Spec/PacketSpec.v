(** What the packet package must show: the accessors against the bytes. *)
From Verif Require Import Model.Packet Spec.Netlink Spec.Inet Spec.Signature.

(** decimal numerals *)
Definition dec_value (s : bytes) : Z := fold_left (fun a c => a * 10 + (c - 48)) s 0.
Definition is_decimal (n : Z) (s : bytes) : Prop :=
  s <> [] /\ Forall (fun c => 48 <= c <= 57) s /\ dec_value s = n /\
  ((1 < length s)%nat -> hd 0 s <> 48).

(** the accessors of [p] show the IPv4/IPv6 header at the start of [b] *)
Definition shows_ip4 (p : packet) (b : bytes) : Prop :=
  version p = V4 /\ ipHeaderLen p = 20 /\
  IPProto p = ip4_proto b /\ IPTotalLen p = ip4_total b /\ is_decimal (ip4_id b) (ID p) /\
  ipChecksum p = ip4_checksum b /\
  SourceAddress p = ip4_src b /\ DestinationAddress p = ip4_dst b.
Definition shows_ip6 (p : packet) (b : bytes) : Prop :=
  version p = V6 /\ ipHeaderLen p = 40 /\
  IPProto p = ip6_next b /\ IPTotalLen p = (40 + ip6_payload b) mod 65536 /\
  SourceAddress p = ip6_src b /\ DestinationAddress p = ip6_dst b.
(** ... and the TCP or UDP header at offset o *)
Definition shows_tcp (p : packet) (b : bytes) (o : nat) : Prop :=
  SourcePort p = l4_sport b o /\ DestPort p = l4_dport b o /\
  tcpSeq p = tcp_seq b o /\ tcpAck p = tcp_ack b o /\ tcpDataOffset p = tcp_offset b o /\
  GetTCPFlags p = tcp_flags b o /\ tcpChecksum p = tcp_checksum b o.
Definition shows_udp (p : packet) (b : bytes) (o : nat) : Prop :=
  SourcePort p = l4_sport b o /\ DestPort p = l4_dport b o.
(** the transport header is inside the bytes *)
Definition l4_inside (proto : Z) (o : nat) (b : bytes) : Prop :=
  (proto = PROTO_TCP -> (o + 20 <= length b)%nat) /\ (proto = PROTO_UDP -> (o + 8 <= length b)%nat).
Definition shows_l4 (p : packet) (b : bytes) (o : nat) : Prop :=
  (IPProto p = PROTO_TCP -> shows_tcp p b o) /\ (IPProto p = PROTO_UDP -> shows_udp p b o).

(** the bytes kept: with validation, cut to the stated length *)
Definition kept (validate : bool) (total : Z) (b : bytes) : bytes :=
  if validate then firstn (Z.to_nat total) b else b.

(** ** Outcomes of New *)
Inductive parse_result := Accepts | Rejects (e : gerr) | Crashes.
Definition outcome {A} (r : res (option A * option gerr)) : parse_result :=
  match r with
  | Ok (_, None) => Accepts
  | Ok (_, Some e) => Rejects e
  | _ => Crashes
  end.
(** [min] bytes of transport header do not fit between the IP header and the
    stated end (an impossible stated length below 20 is not noticed) *)
Definition stated_too_small (hdr min total : Z) : bool := (hdr <=? total) && (total <? hdr + min).
(** IPv4: [cap] is the capacity of the slice given, beyond which reads crash *)
Definition classify4 (b : bytes) (cap : Z) (validate : bool) : parse_result :=
  if zlen b <? 20 then Rejects errIPPacketCorrupt
  else if negb (ip4_ihl b =? 5) then Rejects errIPOptions
  else if validate && (zlen b <? ip4_total b) then Rejects errStatedLength
  else if ip4_proto b =? PROTO_TCP then
    if stated_too_small 20 20 (ip4_total b) then Rejects errTCPTooSmall
    else if (zlen b <? 34) || (cap <? 38) || (validate && (ip4_total b <? 20)) then Crashes
    else Accepts
  else if ip4_proto b =? PROTO_UDP then
    if stated_too_small 20 8 (ip4_total b) then Rejects errUDPTooSmall
    else if cap <? 28 then Crashes
    else Accepts
  else Accepts.
(** IPv6 (every first byte whose high nibble is not 4) *)
Definition classify6 (b : bytes) (cap : Z) (validate : bool) : parse_result :=
  let total := (40 + ip6_payload b) mod 65536 in
  let no_tcp := (zlen b <? 54) || (cap <? 58) || (validate && (total <? 40)) in
  if (zlen b <? 7) || (cap <? 40) then Crashes
  else if validate && (zlen b <? total) then Rejects errStatedLength
  else if validate && (total <? zlen b) && no_tcp then Crashes
  else if ip6_next b =? PROTO_TCP then
    if ip6_payload b <? 20 then Rejects errTCPTooSmall
    else if no_tcp then Crashes
    else Accepts
  else if ip6_next b =? PROTO_UDP then
    if ip6_payload b <? 8 then Rejects errUDPTooSmall
    else if (zlen b <? 40) || (cap <? 48) then Crashes
    else Accepts
  else Accepts.

(** ** Packet states *)
(** The accessors and the bytes agree: what New establishes and the operations
    keep.  Stated of the IP header ... *)
Definition ip_agrees (h : heap) (p : packet) : Prop :=
  let b := rd h (Buffer p) in
  valid h (Buffer p) /\ is_bytes b /\ Z.of_nat (s_len (Buffer p)) < 65536 /\
  match version p with
  | V4 => (20 <= length b)%nat /\ byte_at b 0 = 69 /\ ipHeaderLen p = 20 /\
          IPProto p = ip4_proto b /\ IPTotalLen p = ip4_total b /\ ipChecksum p = ip4_checksum b /\
          SourceAddress p = ip4_src b /\ DestinationAddress p = ip4_dst b
  | V6 => (40 <= length b)%nat /\ ipHeaderLen p = 40 /\
          IPProto p = ip6_next b /\ IPTotalLen p = (40 + ip6_payload b) mod 65536 /\
          0 <= ipChecksum p < 65536 /\
          SourceAddress p = ip6_src b /\ DestinationAddress p = ip6_dst b
  end.
(** ... and of the transport header *)
Definition hl (p : packet) : nat := match version p with V4 => 20 | V6 => 40 end.
Definition tcp_agrees (h : heap) (p : packet) : Prop :=
  let b := rd h (Buffer p) in
  ip_agrees h p /\ IPProto p = PROTO_TCP /\ (hl p + 20 <= length b)%nat /\ shows_tcp p b (hl p).
Definition udp_agrees (h : heap) (p : packet) : Prop :=
  let b := rd h (Buffer p) in
  ip_agrees h p /\ IPProto p = PROTO_UDP /\ (hl p + 8 <= length b)%nat /\
  shows_udp p b (hl p).

(** the IPv4 header with a zero checksum field, and the checksum RFC 791 asks for *)
Definition ip4_zeroed (b : bytes) : bytes := firstn 10 b ++ [0; 0] ++ field b 12 8.
Definition ip4_right_checksum (b : bytes) : Z := internet_checksum (ip4_zeroed b).
Definition ip4_valid (b : bytes) : Prop := sums_to_ones (firstn 20 b).

(** two slices share no byte *)
Definition apart (s t : slice) : Prop :=
  s_len t = 0%nat \/ s_arr s <> s_arr t \/
  (s_off s + s_len s <= s_off t)%nat \/ (s_off t + s_len t <= s_off s)%nat.

(** pseudo header of a packet whose bytes are [b], for a payload of [len] bytes *)
Definition pseudo (v : ipver) (b : bytes) (proto len : Z) : bytes :=
  match v with
  | V4 => pseudo4 (ip4_src b) (ip4_dst b) proto len
  | V6 => pseudo6 (ip6_src b) (ip6_dst b) proto len
  end.
(** a packet's transport checksum is valid (RFC 793, 768, 8200) *)
Definition l4_valid (v : ipver) (o : nat) (proto : Z) (b : bytes) : Prop :=
  sums_to_ones (pseudo v b proto (zlen (skipn o b)) ++ skipn o b).
(** the transport checksum a packet should carry: computed with the two bytes at
    [co] of the transport part set to zero *)
Definition l4_zeroed (co : nat) (seg : bytes) : bytes := firstn co seg ++ [0; 0] ++ skipn (co + 2) seg.
Definition l4_right_checksum (v : ipver) (o : nat) (proto : Z) (co : nat) (b : bytes) : Z :=
  internet_checksum (pseudo v b proto (zlen (skipn o b)) ++ l4_zeroed co (skipn o b)).
(** an IPv6 UDP datagram carries a valid checksum, and exactly the value the sum
    gives (RFC 8200 8.1 has a computed 0 replaced by 65535) *)
Definition udp6_right (b : bytes) : Prop :=
  l4_valid V6 40 PROTO_UDP b /\ be16f b 46 = l4_right_checksum V6 40 PROTO_UDP 6 b.
(** the attached options and data of a TCP packet: valid, sharing no byte with
    the packet's buffer, and the emitted packet is an IP packet in size *)
Definition attached_ok (h : heap) (p : packet) : Prop :=
  valid h (tcpOptions p) /\ valid h (tcpData p) /\
  is_bytes (rd h (tcpOptions p)) /\ is_bytes (rd h (tcpData p)) /\
  apart (Buffer p) (tcpOptions p) /\ apart (Buffer p) (tcpData p) /\
  zlen (GetTCPBytes h p) < 65536.
(** no odd-length piece is followed by more bytes *)
Definition even_pieces (h : heap) (p : packet) : Prop :=
  (Nat.even (s_len (Buffer p)) = true \/ (s_len (tcpOptions p) = 0 /\ s_len (tcpData p) = 0)%nat) /\
  (Nat.even (s_len (tcpOptions p)) = true \/ s_len (tcpData p) = 0%nat).

(** ** Appending to a slice *)
(** appending [n] bytes to [s] does not write over the bytes of [t]: nothing is
    appended, or the array is too small and a fresh one is made, or the place
    behind [s] is not part of [t] *)
Definition append_safe (s : slice) (n : nat) (t : slice) : Prop :=
  n = 0%nat \/ (s_cap s < s_len s + n)%nat \/ apart (mkSl (s_arr s) (s_off s + s_len s) n n) t.
(** the bytes of an IP header that depend on the packet's length *)
Definition ip_len_bytes (v : ipver) (k : nat) : Prop :=
  match v with V4 => k = 2 \/ k = 3 \/ k = 10 \/ k = 11 | V6 => k = 4 \/ k = 5 end%nat.

(** offset of the TCP payload in the packet *)
Definition payload_at (p : packet) : nat := (hl p + 4 * Z.to_nat (tcpDataOffset p))%nat.
(** ... and its length *)
Definition payload_len (p : packet) : Z := Z.of_nat (s_len (Buffer p)) - Z.of_nat (payload_at p).
(** memory an attach may be given: appending the new options to the held ones
    writes over neither the packet nor the new data, which share no byte with
    the packet *)
Definition attachable (h : heap) (p : packet) (o d : slice) : Prop :=
  valid h (tcpOptions p) /\ valid h o /\ valid h d /\
  apart (Buffer p) (tcpOptions p) /\ apart (Buffer p) d /\
  append_safe (tcpOptions p) (s_len o) (Buffer p) /\ append_safe (tcpOptions p) (s_len o) d.

(** ** TCP options (RFC 793, 3.1) *)
Inductive auth_answer := AuthFound | AuthMissing | AuthBadLength.
(** walking the option list: kinds 0 and 1 are single bytes, kind 34 is the
    authentication option, any other kind is followed by its length byte, which
    counts from the kind byte *)
Inductive auth_walk : bytes -> auth_answer -> Prop :=
| aw_end : auth_walk [] AuthMissing
| aw_pad k r a : k = 0 \/ k = 1 -> auth_walk r a -> auth_walk (k :: r) a
| aw_found r : auth_walk (34 :: r) AuthFound
| aw_cut k : k <> 0 -> k <> 1 -> k <> 34 -> auth_walk [k] AuthMissing
| aw_zero k r : k <> 0 -> k <> 1 -> k <> 34 -> auth_walk (k :: 0 :: r) AuthBadLength
| aw_skip k l r a : k <> 0 -> k <> 1 -> k <> 34 -> 0 < l ->
    auth_walk (skipn (Z.to_nat l) (k :: l :: r)) a -> auth_walk (k :: l :: r) a.
(** how an answer is reported *)
Definition auth_error (a : auth_answer) : option gerr :=
  match a with AuthFound => None | AuthMissing => Some errTCPAuthOption | AuthBadLength => Some errInvalidOption end.
(** the option bytes of a TCP header at [o] *)
Definition tcp_options (b : bytes) (o : nat) : bytes := field b (o + 20) (Z.to_nat (4 * tcp_offset b o - 20)).

(** ** UDP control packets *)
(** a datagram (UDP header first) carries the signature *)
Definition has_signature (d : bytes) : Prop := (28 <= length d)%nat /\ field d 10 18 = control_signature.
(** what a packet keeps when its payload changes: the header bytes before the
    UDP length, except the IP length and checksum *)
Definition header_kept (h h' : heap) (p p' : packet) : Prop :=
  forall k, (k < hl p + 4)%nat -> ~ ip_len_bytes (version p) k -> nth k (rd h' (Buffer p')) 0 = nth k (rd h (Buffer p)) 0.
(** a UDP packet is complete: every length field is the actual length, and the
    checksums are valid (0, meaning none, for UDP over IPv4) *)
Definition udp_complete (v : ipver) (b : bytes) : Prop :=
  match v with
  | V4 => ip4_total b = zlen b /\ udp_length b 20 = zlen b - 20 /\ udp_checksum b 20 = 0 /\ ip4_valid b
  | V6 => ip6_payload b = zlen b - 40 /\ udp_length b 40 = zlen b - 40 /\ l4_valid V6 40 PROTO_UDP b
  end.
(** the datagram [b'] goes the opposite way of [b]: IP and UDP headers only *)
Definition mirrors (v : ipver) (b b' : bytes) : Prop :=
  match v with
  | V4 => length b' = 28%nat /\ ip4_src b' = ip4_dst b /\ ip4_dst b' = ip4_src b /\
          l4_sport b' 20 = l4_dport b 20 /\ l4_dport b' 20 = l4_sport b 20
  | V6 => length b' = 48%nat /\ ip6_src b' = ip6_dst b /\ ip6_dst b' = ip6_src b /\
          l4_sport b' 40 = l4_dport b 40 /\ l4_dport b' 40 = l4_sport b 40
  end.
(** the bytes reversing a flow may change: lengths, addresses, ports, checksums *)
Definition reverse_bytes (v : ipver) (k : nat) : Prop :=
  match v with V4 => 2 <= k < 4 \/ 10 <= k < 28 | V6 => 4 <= k < 6 \/ 8 <= k < 48 end%nat.
(** a flow: source and destination address and port *)
Definition same_flow (p q : packet) : Prop :=
  SourceAddress p = SourceAddress q /\ DestinationAddress p = DestinationAddress q /\
  SourcePort p = SourcePort q /\ DestPort p = DestPort q.
Definition opposite_flow (p q : packet) : Prop :=
  DestinationAddress p = SourceAddress q /\ SourceAddress p = DestinationAddress q /\
  DestPort p = SourcePort q /\ SourcePort p = DestPort q.
(** an IPv6 address without two adjacent zero 16-bit groups: its text has no "::" *)
Definition uncompressed (a : bytes) : Prop :=
  forall i, (i < 7)%nat -> ~ (be16f a (2 * i) = 0 /\ be16f a (2 * i + 2) = 0).
