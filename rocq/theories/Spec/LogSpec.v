(** Receiving NFLOG datagrams: what the kernel sends (linux/netlink.h,
    linux/netfilter/nfnetlink_log.h) and what the callback must be shown. *)
From Verif Require Import Model.NfLog Spec.Netlink Spec.Inet Spec.PacketSpec.

(** ** Datagrams *)
(** [messages_of b ms rest]: the bytes [b] start with the netlink messages [ms]
    (type and what follows the 16-byte header) and continue with [rest].  Each
    message states its own length, which is a multiple of 4 unless the message
    ends the datagram. *)
Inductive messages_of : bytes -> list (Z * bytes) -> bytes -> Prop :=
| messages_nil b : messages_of b [] b
| messages_cons b len ms rest :
    len = Z.to_nat (num LE (field b 0 4)) ->
    (16 <= len <= length b)%nat -> (Nat.modulo len 4 = 0 \/ len = length b)%nat ->
    messages_of (skipn len b) ms rest ->
    messages_of b ((num LE (field b 4 2), field b 16 (len - 16)) :: ms) rest.

(** ** Packet messages *)
Definition LOG_PACKET : Z := msg_type SUBSYS_ULOG 0.
Definition ATTR_PAYLOAD : Z := 9.
Definition ATTR_PREFIX : Z := 10.

(** bytes taken by the attributes [l] when no padding follows the last one *)
Fixpoint packed_len (l : list (Z * bytes)) : nat :=
  match l with
  | [] => 0
  | [(_, v)] => 4 + length v
  | (_, v) :: l' => al4 (4 + length v) + packed_len l'
  end.
(** the last attribute's data ends the message: no padding follows *)
Definition unpadded (area : bytes) (l : list (Z * bytes)) : bool := (length area =? packed_len l)%nat.

(** What the attributes ask for, in order: for each payload, the prefix in force
    (the latest prefix attribute without its terminating NUL), the payload, and
    whether the payload's last byte is the last byte of the message. *)
Definition delivery : Type := bytes * bytes * bool.
Fixpoint deliveries (unpadded : bool) (prefix : bytes) (l : list (Z * bytes)) : list delivery :=
  match l with
  | [] => []
  | (t, v) :: l' =>
      if t =? ATTR_PREFIX then deliveries unpadded (removelast v) l'
      else if t =? ATTR_PAYLOAD then
        (prefix, v, unpadded && match l' with [] => true | _ => false end)
          :: deliveries unpadded prefix l'
      else deliveries unpadded prefix l'
  end.
Definition message_deliveries (m : Z * bytes) : list delivery :=
  if fst m =? LOG_PACKET then
    match attrs_of LE (skipn 4 (snd m)) with
    | Some l => deliveries (unpadded (skipn 4 (snd m)) l) [] l
    | None => []
    end
  else [].

(** an IPv4 packet without options, of which enough was copied to show ports
    ([clipped]: its last byte is not seen) *)
Definition logged_ip4 (v : bytes) (clipped : bool) : Prop :=
  byte_at v 0 = 69 /\ ((if clipped then 21 else 20) <= length v)%nat /\
  (ip4_proto v = PROTO_TCP -> 40 <= ip4_total v /\ (37 <= length v)%nat) /\
  (ip4_proto v = PROTO_UDP -> 28 <= ip4_total v /\ (25 <= length v)%nat).
(** an IPv6 packet with a TCP or UDP header straight after the fixed header (or
    another protocol), of which enough was copied *)
Definition logged_ip6 (v : bytes) (clipped : bool) : Prop :=
  ip4_version v = 6 /\ ((if clipped then 41 else 40) <= length v)%nat /\
  (ip6_next v = PROTO_TCP -> 20 <= ip6_payload v /\ (57 <= length v)%nat) /\
  (ip6_next v = PROTO_UDP -> 8 <= ip6_payload v /\ (45 <= length v)%nat).
Definition logged_ip (v : bytes) (clipped : bool) : Prop := logged_ip4 v clipped \/ logged_ip6 v clipped.
(** A message the reader must handle: anything that is not a packet message, or
    a packet message with nfgenmsg, attributes to the end, no empty prefix, no
    empty last attribute, and IPv4 or IPv6 payloads. *)
Definition message_ok (m : Z * bytes) : Prop :=
  fst m = LOG_PACKET ->
  exists l, (4 <= length (snd m))%nat /\ attrs_of LE (skipn 4 (snd m)) = Some l /\
    (forall v, In (ATTR_PREFIX, v) l -> v <> []) /\
    (forall t l', l <> l' ++ [(t, [])]) /\
    Forall (fun d => logged_ip (snd (fst d)) (snd d)) (deliveries (unpadded (skipn 4 (snd m)) l) [] l).

(** ** Callbacks *)
(** the payload the callback is given *)
Definition shown_payload (v : bytes) (clipped : bool) : bytes :=
  if clipped then removelast v ++ [0] else v.
(** the headers of the packet [v]: addresses, protocol, total length, for IPv4 the
    identification in decimal, and the ports *)
Definition headers_shown (v src dst : bytes) (proto total : Z) (id : bytes) (sp dp : Z) : Prop :=
  if ip4_version v =? 4 then
    src = ip4_src v /\ dst = ip4_dst v /\ proto = ip4_proto v /\ total = ip4_total v /\ is_decimal (ip4_id v) id /\
    (proto = PROTO_TCP \/ proto = PROTO_UDP -> sp = l4_sport v 20 /\ dp = l4_dport v 20)
  else
    src = ip6_src v /\ dst = ip6_dst v /\ proto = ip6_next v /\ total = (40 + ip6_payload v) mod 65536 /\
    (proto = PROTO_TCP \/ proto = PROTO_UDP -> sp = l4_sport v 40 /\ dp = l4_dport v 40).
(** one invocation of the callback that shows prefix, headers and payload of a
    logged packet.  The version number shown is 4, which is right for IPv4 and wrong
    for IPv6 (C72). *)
Definition delivers (ev : event) (d : delivery) : Prop :=
  let '(prefix, v, clipped) := d in
  exists src dst proto total id sp dp r,
    ev = (KLogCb prefix (shown_payload v clipped) src dst 4 proto total id sp dp, r) /\
    headers_shown v src dst proto total id sp dp.
Definition log_cb (ev : event) : Prop :=
  match fst ev with KLogCb _ _ _ _ _ _ _ _ _ _ => True | _ => False end.

(** ** Where the reader looks *)
(** offsets at which a message header is looked for when the declared lengths
    are followed *)
Inductive msg_start (b : bytes) : nat -> Prop :=
| msg_start_0 : msg_start b 0
| msg_start_next p :
    msg_start b p -> (p + 16 <= length b)%nat ->
    (p + Z.to_nat (num LE (field b p 4)) <= length b)%nat ->
    msg_start b (p + Z.to_nat (num LE (field b p 4))).
(** the reader cannot get past p: less than a header is left, or the declared
    length is 0 *)
Definition stuck_at (b : bytes) (p : nat) : Prop :=
  msg_start b p /\ (p < length b)%nat /\
  ((length b < p + 16)%nat \/ num LE (field b p 4) = 0).

(** ** The reader loop *)
Definition log_received (r : resp) : bytes := firstn (Z.to_nat 65536) (r_data r).
Definition reports (ecb : bool) (er : gerr) (evs : list event) : Prop :=
  if ecb then exists r, evs = [(KErrCb er IfaceNil, r)] else evs = [].
(** a datagram made of messages the reader must handle *)
Definition datagram_ok (d : bytes) (ms : list (Z * bytes)) : Prop :=
  messages_of d ms [] /\ Forall message_ok ms.
(** whatever follows them, the messages before it that the reader must handle were
    handled, first *)
Definition prefix_delivered (d : bytes) (cbs : list event) : Prop :=
  forall ms rest, messages_of d ms rest -> Forall message_ok ms ->
  exists c1 c2, cbs = c1 ++ c2 /\ Forall2 delivers c1 (flat_map message_deliveries ms).
(** the datagram continues with the beginning of a message only *)
Definition cut_message (rest : bytes) : Prop :=
  (16 <= length rest)%nat /\ Z.of_nat (length rest) < num LE (field rest 0 4).
(** one turn that the loop survives *)
Inductive log_turn (fd : Z) (ecb : bool) : list event -> Prop :=
| turn_nobufs r evs :
    r_err r = Some 105 -> reports ecb (EWrapped 8 (ESys 105)) evs ->
    log_turn fd ecb ((KRecvfrom fd 65536 0, r) :: evs)
| turn_parsed r cbs :
    r_err r = None -> Forall log_cb cbs ->
    (forall ms, datagram_ok (log_received r) ms ->
       Forall2 delivers cbs (flat_map message_deliveries ms)) ->
    prefix_delivered (log_received r) cbs ->
    (forall ms rest, messages_of (log_received r) ms rest -> Forall message_ok ms -> ~ cut_message rest) ->
    log_turn fd ecb ((KRecvfrom fd 65536 0, r) :: cbs)
| turn_bad_data r cbs er evs :
    r_err r = None -> Forall log_cb cbs -> (forall ms, ~ datagram_ok (log_received r) ms) ->
    prefix_delivered (log_received r) cbs ->
    (forall ms rest, messages_of (log_received r) ms rest -> Forall message_ok ms -> cut_message rest ->
       Forall2 delivers cbs (flat_map message_deliveries ms) /\ er = ETruncated) ->
    reports ecb (EWrapped 9 er) evs ->
    log_turn fd ecb ((KRecvfrom fd 65536 0, r) :: cbs ++ evs).
(** How a run of ReadLogs stands: ended by a receive error other than ENOBUFS (105),
    reported and followed by closing the socket; killed by a crash in the parser,
    the socket being closed on the way out; or not ended, after [n] turns or
    because the parser hangs.  Crash and hang need a malformed datagram. *)
Definition log_end (fd : Z) (ecb : bool) (n turns : nat) (res : res unit) (last : list event) : Prop :=
  match res with
  | Ok _ => exists r en evs rc,
      r_err r = Some en /\ en <> 105 /\ reports ecb (EWrapped 8 (ESys en)) evs /\
      last = (KRecvfrom fd 65536 0, r) :: evs ++ [(KClose fd, rc)]
  | Panic => exists r cbs rc,
      r_err r = None /\ Forall log_cb cbs /\ (forall ms, ~ datagram_ok (log_received r) ms) /\
      prefix_delivered (log_received r) cbs /\ last = (KRecvfrom fd 65536 0, r) :: cbs ++ [(KClose fd, rc)]
  | NoFuel => (turns = n /\ last = []) \/
      exists r cbs p, r_err r = None /\ Forall log_cb cbs /\ stuck_at (log_received r) p /\
                      prefix_delivered (log_received r) cbs /\ last = (KRecvfrom fd 65536 0, r) :: cbs
  end.
