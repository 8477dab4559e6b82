(** Goroutines looking at packets at the same time (C68). *)
From Verif Require Import Model.PacketConc Spec.Inet Spec.PacketSpec.

Definition call_packet (c : pcall) : packet := match c with CVerify p | CBytes p => p end.
(** the packet is a parsed TCP packet, possibly with attached pieces *)
Definition call_ok (h : heap) (c : pcall) : Prop :=
  tcp_agrees h (call_packet c) /\ attached_ok h (call_packet c).
(** the call, made by itself, answers this *)
Definition answered (h : heap) (c : pcall) (read : bytes) : Prop :=
  match c with
  | CVerify p => exists b, VerifyTCPChecksum h p = Ok (b, h) /\ verify_answer p read = Ok b
  | CBytes p => read = GetTCPBytes h p
  end.
(** the bytes of a slice, and of a packet with what is attached to it *)
Definition covers (s : slice) (a k : nat) : Prop := a = s_arr s /\ (s_off s <= k < s_off s + s_len s)%nat.
Definition uses (p : packet) (a k : nat) : Prop := covers (Buffer p) a k \/ covers (tcpOptions p) a k \/ covers (tcpData p) a k.
(** two calls do not get in each other's way: if the first verifies, its packet
    buffer shares no byte with the other's packet *)
Definition separate (c c' : pcall) : Prop :=
  match c with
  | CBytes _ => True
  | CVerify p => forall a k, covers (Buffer p) a k -> uses (call_packet c') a k -> False
  end.
Definition separate_threads (threads : list (list pcall)) : Prop :=
  forall i j ci cj c c', i <> j -> nth_error threads i = Some ci -> nth_error threads j = Some cj ->
    In c ci -> In c' cj -> separate c c'.
Definition finished (c : pconf) : Prop := Forall (fun tc => snd tc = []) (pc_threads c).
