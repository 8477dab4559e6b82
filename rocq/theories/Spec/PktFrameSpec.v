(** Memory a packet was not given (C101). *)
From Verif Require Export Spec.History Model.Packet.

(** byte [k] of array [a] is not in the memory the slice [s] gives access to: its
    capacity, which reaches beyond its length *)
Definition beyond (s : slice) (a k : nat) : Prop :=
  s_arr s <> a \/ (k < s_off s)%nat \/ (s_off s + s_cap s <= k)%nat.
(** byte [k] of array [a], which exists *)
Definition byte_of (h : heap) (a k : nat) : option Z := nth_error (arr h a) k.
