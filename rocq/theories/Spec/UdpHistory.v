(** Histories of calls on one UDP packet (C80). *)
From Verif Require Export Model.Packet Spec.Inet Spec.PacketSpec.

(** the calls of the API that change a UDP packet *)
Inductive udp_call :=
| UDetach | UAttach (header data : slice) | UToken (data token : slice) | UReverse | UUpdIP.
Definition make_udp_call (grow : nat -> nat -> nat) (c : udp_call) (h : heap) (p : packet) : res (packet * heap) :=
  match c with
  | UDetach => let* p' := UDPDataDetach p in Ok (p', h)
  | UAttach hd d => UDPDataAttach grow h p hd d
  | UToken d t => UDPTokenAttach grow h p d t
  | UReverse => CreateReverseFlowPacket h p
  | UUpdIP => UpdateIPv4Checksum h p
  end.

(** What the caller must see to: it attaches octets it has, the datagram stays
    below 64 KiB, appending the header does not overwrite the data still to be
    appended, and the IPv4 checksum is only asked for on IPv4. *)
Definition udp_permitted (h : heap) (p : packet) (c : udp_call) : Prop :=
  match c with
  | UDetach | UReverse => True
  | UAttach hd d => valid h hd /\ valid h d /\ is_bytes (rd h hd) /\ is_bytes (rd h d) /\
      append_safe (Buffer p) (length (rd h hd)) d /\ zlen (rd h (Buffer p) ++ rd h hd ++ rd h d) < 65536
  | UToken d t => valid h d /\ valid h t /\ is_bytes (rd h d) /\ is_bytes (rd h t) /\
      zlen (rd h (Buffer p) ++ rd h d ++ rd h t) < 65536
  | UUpdIP => version p = V4
  end.

(** what the caller did, in terms of octets *)
Inductive udp_event := EDetach | EData (v : bytes) | EToken (v : bytes) | EReverse | EUpdIP.
Definition event_of (h : heap) (c : udp_call) : udp_event :=
  match c with
  | UDetach => EDetach
  | UAttach hd d => EData (rd h hd ++ rd h d)
  | UToken d t => EToken (rd h d ++ rd h t)
  | UReverse => EReverse
  | UUpdIP => EUpdIP
  end.

(** the states a history of permitted calls reaches *)
Inductive udp_reached (grow : nat -> nat -> nat) (h0 : heap) (p0 : packet) : list udp_event -> heap -> packet -> Prop :=
| udp_reached_start : udp_reached grow h0 p0 [] h0 p0
| udp_reached_call es h p c h' p' :
    udp_reached grow h0 p0 es h p -> udp_permitted h p c -> make_udp_call grow c h p = Ok (p', h') ->
    udp_reached grow h0 p0 (es ++ [event_of h c]) h' p'.

(** ** The ledger: what the packet should hold, from the events alone *)
Record ledger := mkLedger {
  lg_payload : bytes;  (* the datagram's data *)
  lg_excess : Z;       (* how much the IP length field exceeds the actual length *)
  lg_sound : bool;     (* UDP length and checksum fields are up to date *)
  lg_ipvalid : bool;   (* the IPv4 header checksum is known to be right *)
  lg_turned : bool     (* source and destination are exchanged *)
}.
Definition enter (l : ledger) (e : udp_event) : ledger :=
  match e with
  | EDetach => mkLedger [] (lg_excess l + zlen (lg_payload l)) (lg_sound l && (zlen (lg_payload l) =? 0)) (lg_ipvalid l) (lg_turned l)
  | EData v => mkLedger (lg_payload l ++ v) 0 true (lg_ipvalid l) (lg_turned l)
  | EToken v => mkLedger (lg_payload l ++ v) (lg_excess l) true (lg_ipvalid l) (lg_turned l)
  | EReverse => mkLedger [] 0 true true (negb (lg_turned l))
  | EUpdIP => mkLedger (lg_payload l) (lg_excess l) (lg_sound l) true (lg_turned l)
  end.

(** UDP length and checksum fields of the datagram [b] are right (0, meaning
    none, for UDP over IPv4) *)
Definition udp_sound (v : ipver) (b : bytes) : Prop :=
  match v with
  | V4 => udp_length b 20 = zlen b - 20 /\ udp_checksum b 20 = 0
  | V6 => udp_length b 40 = zlen b - 40 /\ l4_valid V6 40 PROTO_UDP b
  end.
(** octets of the IP header that no call may change: version, traffic class,
    flags, hop limit and protocol *)
Definition standing (v : ipver) (k : nat) : Prop :=
  match v with V4 => k < 2 \/ 4 <= k < 10 | V6 => k < 4 \/ 6 <= k < 8 end%nat.

(** a packet is as the ledger says *)
Definition kept_by (p0 : packet) (b0 : bytes) (l : ledger) (h : heap) (p : packet) : Prop :=
  let b := rd h (Buffer p) in
  udp_agrees h p /\ version p = version p0 /\
  (if lg_turned l then opposite_flow p0 p else same_flow p0 p) /\
  length b = (hl p0 + 8 + length (lg_payload l))%nat /\ skipn (hl p0 + 8) b = lg_payload l /\
  IPTotalLen p = (zlen b + lg_excess l) mod 65536 /\
  (lg_sound l = true -> udp_sound (version p0) b) /\
  (lg_ipvalid l = true -> version p0 = V4 -> ip4_valid b) /\
  (forall k, standing (version p0) k -> nth k b 0 = nth k b0 0).
(** the ledger a parsed packet starts with; [s], [i]: its checks are known to be right *)
Definition opening (h0 : heap) (p0 : packet) (s i : bool) : ledger :=
  mkLedger (skipn (hl p0 + 8) (rd h0 (Buffer p0))) (IPTotalLen p0 - zlen (rd h0 (Buffer p0))) s i false.
