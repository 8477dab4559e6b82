(** Small predicates used to state the properties of package common. *)
From Verif Require Import Model.Common.

(** [f] rounds up to a multiple of 4 in an unsigned type with M values: the
    least multiple of 4 not below x when that is representable, 0 otherwise. *)
Definition rounds_up_to4 (f : Z -> Z) (M : Z) : Prop :=
  forall x, 0 <= x < M ->
    (x <= M - 4 ->
       f x mod 4 = 0 /\ x <= f x /\ f x < M /\ (forall y, y mod 4 = 0 -> x <= y -> f x <= y)) /\
    (M - 4 < x -> f x = 0).

(** the header fields hold values of their Go types *)
Definition hdr_in_range (r : nlmsghdr) : Prop :=
  is_u32 (n_len r) /\ is_u16 (n_type r) /\ is_u16 (n_flags r) /\ is_u32 (n_seq r) /\ is_u32 (n_pid r).

(** A buffer-filling call [p] (its stores and returned count): on [buf] it
    writes the bytes [b] at the front, leaves the rest, and returns their
    number. *)
Definition writes_prefix (p : stores * Z) (buf b : bytes) : Prop :=
  snd p = zlen b /\ store_all buf (fst p) = Ok (b ++ skipn (length b) buf).
