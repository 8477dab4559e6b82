(** Histories of calls on one TCP packet (C63). *)
From Verif Require Import Model.Packet Spec.Inet Spec.PacketSpec.

(** the calls of the API that change a TCP packet, or only look at it *)
Inductive tcp_call :=
| IncSeq (n : Z) | DecSeq (n : Z) | IncAck (n : Z) | DecAck (n : Z)
| UpdIP | VerIP | UpdTCP | VerTCP
| Detach (optionLength : Z)
| Attach (options data : slice)
| FinAck | DropData | DropAll | SetData (d : slice).
Definition make_call (grow : nat -> nat -> nat) (c : tcp_call) (h : heap) (p : packet) : res (packet * heap) :=
  match c with
  | IncSeq n => IncreaseTCPSeq h p n
  | DecSeq n => DecreaseTCPSeq h p n
  | IncAck n => IncreaseTCPAck h p n
  | DecAck n => DecreaseTCPAck h p n
  | UpdIP => UpdateIPv4Checksum h p
  | VerIP => let* x := VerifyIPv4Checksum h p in Ok (p, snd x)
  | UpdTCP => UpdateTCPChecksum h p
  | VerTCP => let* x := VerifyTCPChecksum h p in Ok (p, snd x)
  | Detach ol => TCPDataDetach h p ol
  | Attach o d => let* x := TCPDataAttach grow h p o d in Ok (fst x)
  | FinAck => ConvertAcktoFinAck h p
  | DropData => Ok (DropTCPDetachedDataBytes p, h)
  | DropAll => Ok (DropTCPDetachedBytes p, h)
  | SetData d => Ok (SetTCPData p d, h)
  end.

(** What the caller must see to.  Header calls are always allowed on a packet of
    the right IP version; the TCP checksum needs pieces that do not overlap the
    packet and of even length before others (C42); a detach needs an option
    length inside the header, an attach room for it and memory that the append
    does not destroy (C44). *)
Definition permitted (h : heap) (p : packet) (c : tcp_call) : Prop :=
  match c with
  | IncSeq _ | DecSeq _ | IncAck _ | DecAck _ | DropData | DropAll | SetData _ => True
  | UpdIP | VerIP => version p = V4
  | UpdTCP | VerTCP => attached_ok h p /\ even_pieces h p
  | Detach ol => 0 <= ol /\ ol mod 4 = 0 /\ 20 + ol <= 4 * tcpDataOffset p /\ (payload_at p <= s_len (Buffer p))%nat
  | FinAck => 5 <= tcpDataOffset p /\ (payload_at p <= s_len (Buffer p))%nat
  | Attach o d => attachable h p o d /\ (s_len o = 0%nat \/ s_len (Buffer p) = payload_at p) /\
                  tcpDataOffset p + Z.of_nat (s_len o) / 4 < 16
  end.

(** what a call should do to the numbers of the packet *)
Definition seq_change (c : tcp_call) : Z := match c with IncSeq n => n | DecSeq n => - n | _ => 0 end.
Definition ack_change (c : tcp_call) : Z := match c with IncAck n => n | DecAck n => - n | _ => 0 end.
Definition offset_change (c : tcp_call) : Z :=
  match c with Detach ol => - (ol / 4) | Attach o _ => Z.of_nat (s_len o) / 4 | _ => 0 end.
Definition attached_len (c : tcp_call) : Z :=
  match c with Attach o d => Z.of_nat (s_len o) + Z.of_nat (s_len d) | _ => 0 end.
Definition flags_after (f : Z) (c : tcp_call) : Z := match c with FinAck => 17 | _ => f end.
Definition total_of (f : tcp_call -> Z) (cs : list tcp_call) : Z := fold_right Z.add 0 (map f cs).

(** the states a history of permitted calls reaches *)
Inductive reached (grow : nat -> nat -> nat) (h0 : heap) (p0 : packet) : list tcp_call -> heap -> packet -> Prop :=
| reached_start : reached grow h0 p0 [] h0 p0
| reached_call cs h p c h' p' :
    reached grow h0 p0 cs h p -> permitted h p c -> make_call grow c h p = Ok (p', h') ->
    reached grow h0 p0 (cs ++ [c]) h' p'.

(** ** Orderly histories
    [Whole]: nothing is detached or attached.  [Loose]: the payload has been cut
    off ([true]: options too) and has not been dropped or replaced yet.
    [Extended]: something has been attached. *)
Inductive phase := Whole | Loose (options : bool) | Extended.
(** what an orderly caller does next: it attaches once, and only after the
    detached options (if any) have been dropped; it never drops what it attached *)
Definition next_phase (ph : phase) (c : tcp_call) : option phase :=
  match c with
  | IncSeq _ | DecSeq _ | IncAck _ | DecAck _ | UpdIP | VerIP | UpdTCP | VerTCP => Some ph
  | Detach ol => match ph with Whole => Some (Loose (negb (ol =? 0))) | _ => None end
  | DropAll | FinAck => match ph with Extended => None | _ => Some Whole end
  | DropData => match ph with Whole => Some Whole | Loose true => Some (Loose true) | Loose false => Some Whole | Extended => None end
  | Attach _ _ => match ph with Whole | Loose false => Some Extended | _ => None end
  | SetData _ => None
  end.
Fixpoint phase_after (ph : phase) (cs : list tcp_call) : option phase :=
  match cs with
  | [] => Some ph
  | c :: cs => match next_phase ph c with Some ph' => phase_after ph' cs | None => None end
  end.

(** ** Calls on a packet of any protocol (C53) *)
Inductive packet_call :=
| Tcp (c : tcp_call) | SetFlags (f : Z) | TokenAttach (d t : slice) | DataAttach (hd d : slice) | DataDetach | Reverse.
Definition make_packet_call (grow : nat -> nat -> nat) (c : packet_call) (h : heap) (p : packet) : res (packet * heap) :=
  match c with
  | Tcp c => make_call grow c h p
  | SetFlags f => Ok (SetTCPFlags p f, h)
  | TokenAttach d t => UDPTokenAttach grow h p d t
  | DataAttach hd d => UDPDataAttach grow h p hd d
  | DataDetach => let* p' := UDPDataDetach p in Ok (p', h)
  | Reverse => CreateReverseFlowPacket h p
  end.
(** whatever calls return normally, in any order *)
Inductive made (grow : nat -> nat -> nat) (h0 : heap) (p0 : packet) : list packet_call -> heap -> packet -> Prop :=
| made_start : made grow h0 p0 [] h0 p0
| made_call cs h p c h' p' : made grow h0 p0 cs h p -> make_packet_call grow c h p = Ok (p', h') ->
    made grow h0 p0 (cs ++ [c]) h' p'.
Definition is_reverse (c : packet_call) : bool := match c with Reverse => true | _ => false end.
Definition reversals (cs : list packet_call) : nat := length (filter is_reverse cs).
