(** What the TCP checksum functions compute when pieces of odd length are
    followed by more octets (C42). *)
From Verif Require Export Model.Packet Spec.Inet Spec.PacketSpec.

(** the sum of the 16-bit words of a byte string, an odd last octet padded *)
Definition word_sum (b : bytes) : Z := fold_right Z.add 0 (words16 b).
(** a byte string padded to an even length *)
Definition even_len (b : bytes) : bytes := b ++ (if Nat.even (length b) then [] else [0]).
(** the checksum of the segment with each piece padded on its own: the octets
    still in the packet's buffer, the attached options, the attached data *)
Definition piecewise_checksum (h : heap) (p : packet) : Z :=
  internet_checksum (pseudo (version p) (rd h (Buffer p)) PROTO_TCP (zlen (skipn (hl p) (GetTCPBytes h p))) ++
    even_len (l4_zeroed 16 (skipn (hl p) (rd h (Buffer p)))) ++ even_len (rd h (tcpOptions p)) ++ rd h (tcpData p)).
(** the words of the pieces that start at an odd octet of the segment sent *)
Definition misaligned (h : heap) (p : packet) : Z :=
  (if Nat.even (s_len (Buffer p)) then 0 else word_sum (rd h (tcpOptions p))) +
  (if Nat.even (s_len (Buffer p) + s_len (tcpOptions p)) then 0 else word_sum (rd h (tcpData p))).
