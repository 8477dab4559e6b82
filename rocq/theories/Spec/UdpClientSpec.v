(** A second client of the whole library: it answers every UDP packet of the queue
    with a control packet that goes the other way, lets other packets through
    unchanged and drops what is no packet (C102). *)
From Verif Require Export Spec.ClientSpec Spec.Signature.

(** no code: the client.  [ty] is the control packet's type, [tok] the token it
    carries.  Verdicts: 1 is NF_ACCEPT, 0 is NF_DROP. *)
Definition answer_udp (fuel : nat) (m : endian) (grow : nat -> nat -> nat) (ty : Z) (tok : slice) : MQ unit :=
  let! r := Recv fuel m in
  match r with
  | (Some _, attrs, None) =>
    let! h := get_heap in
    let! i := lift (GetPacketInfo m h attrs) in
    let '(id, mark, buf) := i in
    let! n := lift (New h 0 buf true) in
    match n with
    | (Some p, None) =>
      if IPProto p =? 17 then
        let! u := lift (CreateReverseFlowPacket h p) in
        let! _ := put_heap (snd u) in
        let! mk := lift (CreateUDPAuthMarker ty) in
        let! d := m_alloc mk 0 in
        let! h := get_heap in
        let! u := lift (UDPTokenAttach grow h (fst u) d tok) in
        let! _ := put_heap (snd u) in
        let b := rd (snd u) (Buffer (fst u)) in
        let! out := m_alloc b 0 in
        SetVerdict2 m grow 1 mark (zlen b) id out
      else SetVerdict2 m grow 1 mark (Z.of_nat (s_len buf)) id buf
    | _ => SetVerdict2 m grow 0 mark (Z.of_nat (s_len buf)) id buf
    end
  | _ => ret tt
  end.

(** a UDP packet: IPv4 without IP options, or IPv6 without extension headers; it
    states its own length *)
Definition udp_packet (v : ipver) (b : bytes) : Prop :=
  match v with
  | V4 => byte_at b 0 = 69 /\ ip4_proto b = PROTO_UDP
  | V6 => byte_at b 0 / 16 = 6 /\ ip6_next b = PROTO_UDP
  end /\
  is_bytes b /\ (ip_hdr v + 8 <= length b)%nat /\ stated_length v b = zlen b.
Definition ip_source (v : ipver) (b : bytes) : bytes := match v with V4 => ip4_src b | V6 => ip6_src b end.
Definition ip_dest (v : ipver) (b : bytes) : bytes := match v with V4 => ip4_dst b | V6 => ip6_dst b end.
(** [b'] answers [b]: addresses and ports exchanged, the payload is type, zero byte,
    signature and token, lengths and checksums are right, and the rest of the IP
    header is as it was *)
Definition answers (v : ipver) (ty : Z) (token b b' : bytes) : Prop :=
  let o := ip_hdr v in
  length b' = (o + 28 + length token)%nat /\
  ip_source v b' = ip_dest v b /\ ip_dest v b' = ip_source v b /\
  l4_sport b' o = l4_dport b o /\ l4_dport b' o = l4_sport b o /\
  skipn (o + 8) b' = ty :: 0 :: control_signature ++ token /\
  udp_complete v b' /\
  (forall k, (k < o)%nat -> ~ reverse_bytes v k -> nth k b' 0 = nth k b 0).
(** the token: in memory of the client's own *)
Definition own_token (w : world nfq) (tok : slice) : Prop :=
  valid (w_heap w) tok /\ (s_len tok = 0%nat \/ s_arr tok <> s_arr (q_buf (w_st w))) /\ is_bytes (rd (w_heap w) tok).
