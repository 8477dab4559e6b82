(** A client of the whole library: it takes a packet from the queue, parses it,
    attaches TCP options and data, recomputes the checksum and gives the result
    back to the kernel.  And what the kernel must then be sent, in terms of the
    bytes of the two packets. *)
From Verif Require Export Model.NfQueue Model.Packet Spec.Netlink Spec.NfqSpec Spec.VerdictSpec
  Spec.LoopSpec Spec.Inet Spec.PacketSpec.

(** no code: the client.  Verdicts: 1 is NF_ACCEPT, 0 is NF_DROP. *)
Definition tag_and_release (fuel : nat) (m : endian) (grow : nat -> nat -> nat) (o d : slice) : MQ unit :=
  let! r := Recv fuel m in
  match r with
  | (Some _, attrs, None) =>
    let! h := get_heap in
    let! i := lift (GetPacketInfo m h attrs) in
    let '(id, mark, buf) := i in
    let drop := SetVerdict2 m grow 0 mark (Z.of_nat (s_len buf)) id buf in
    let! n := lift (New h 0 buf true) in
    match n with
    | (Some p, None) =>
      let! a := lift (TCPDataAttach grow h p o d) in
      let '(p1, h1, er) := a in
      match er with
      | None =>
        let! u := lift (UpdateTCPChecksum h1 p1) in
        let! _ := put_heap (snd u) in
        let b := GetTCPBytes (snd u) (fst u) in
        let! out := m_alloc b 0 in
        SetVerdict2 m grow 1 mark (zlen b) id out
      | Some _ => drop
      end
    | _ => drop
    end
  | _ => ret tt
  end.

(** the IP header's length and the length the packet states *)
Definition ip_hdr (v : ipver) : nat := match v with V4 => 20 | V6 => 40 end.
Definition stated_length (v : ipver) (b : bytes) : Z :=
  match v with V4 => ip4_total b | V6 => 40 + ip6_payload b end.
(** a TCP packet without data: IPv4 without IP options and with a valid header
    checksum, or IPv6 without extension headers; it states its own length, which
    is that of its two headers *)
Definition bare_tcp (v : ipver) (b : bytes) : Prop :=
  match v with
  | V4 => byte_at b 0 = 69 /\ ip4_proto b = PROTO_TCP /\ ip4_valid b
  | V6 => byte_at b 0 / 16 = 6 /\ ip6_next b = PROTO_TCP
  end /\
  is_bytes b /\ (ip_hdr v + 20 <= length b)%nat /\
  stated_length v b = zlen b /\
  zlen b = Z.of_nat (ip_hdr v) + 4 * tcp_offset b (ip_hdr v).
(** [b'] is packet [b] with options [o] and data [d] added: lengths, header
    length and checksums are those of the new packet, the four bits beside the
    header length are zero, all else is as it was *)
Definition extended (v : ipver) (b o d b' : bytes) : Prop :=
  length b' = (length b + length o + length d)%nat /\ skipn (length b) b' = o ++ d /\
  (forall k, (k < length b)%nat -> ~ ip_len_bytes v k -> k <> (ip_hdr v + 12)%nat ->
     k <> (ip_hdr v + 16)%nat -> k <> (ip_hdr v + 17)%nat -> nth k b' 0 = nth k b 0) /\
  stated_length v b' = zlen b' /\
  byte_at b' (ip_hdr v + 12) = 16 * (tcp_offset b (ip_hdr v) + zlen o / 4) /\
  (v = V4 -> ip4_valid b') /\ l4_valid v (ip_hdr v) PROTO_TCP b'.
(** IPv4 packets that are no packets: shorter than a header, with IP options
    (which the library refuses), or shorter than they state *)
Definition malformed4 (b : bytes) : Prop :=
  ip4_version b = 4 /\ (zlen b < 20 \/ ip4_ihl b <> 5 \/ zlen b < ip4_total b).
(** what the client adds: options and data in memory of its own, filling whole
    header words, the header and the packet staying within their limits *)
Definition addable (w : world nfq) (v : ipver) (b : bytes) (o d : slice) : Prop :=
  valid (w_heap w) o /\ valid (w_heap w) d /\
  (s_len o = 0%nat \/ s_arr o <> s_arr (q_buf (w_st w))) /\
  (s_len d = 0%nat \/ s_arr d <> s_arr (q_buf (w_st w))) /\
  is_bytes (rd (w_heap w) o) /\ is_bytes (rd (w_heap w) d) /\
  (s_len o mod 4 = 0)%nat /\ tcp_offset b (ip_hdr v) + Z.of_nat (s_len o) / 4 < 16 /\
  zlen b + Z.of_nat (s_len o) + Z.of_nat (s_len d) <= 65531.
