(** What lies behind a packet in its buffer (C60) *)
From Verif Require Export Model.Packet Spec.Netlink Spec.Inet Spec.PacketSpec.

(** the slice extended to its capacity; its bytes are the packet's and those
    behind it *)
Definition whole (s : slice) : slice := mkSl (s_arr s) (s_off s) (s_cap s) (s_cap s).
Definition memory (h : heap) (s : slice) : bytes := rd h (whole s).
(** [h'] holds the same packet at the same place, with any bytes behind it *)
Definition refilled (h h' : heap) (s : slice) : Prop :=
  valid h' s /\ is_bytes (memory h' s) /\ rd h' s = rd h s.
(** length of the IP header of the packets New accepts *)
Definition hlen (b : bytes) : nat := if ip4_version b =? 4 then 20%nat else 40%nat.
