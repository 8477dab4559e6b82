(** Exactly what hostile bytes do to the attribute parser. *)
From Verif Require Export Model.Common Spec.Netlink Spec.AttrTable.

(** reading the attributes [b] into table [tbl]: the attribute at [p] crashes the
    reader (it is asked for and declares fewer bytes than its own header), or
    holds it for ever (it declares no bytes at all and nobody asked for it) *)
Definition crashes_at (m : endian) (tbl : attrmap) (b : bytes) (p : nat) : Prop :=
  attr_complete m b p /\ (attr_len m b p < 4)%nat /\ requested tbl (attr_type m b p) = true.
Definition hangs_at (m : endian) (tbl : attrmap) (b : bytes) (p : nat) : Prop :=
  attr_complete m b p /\ attr_len m b p = 0%nat /\ requested tbl (attr_type m b p) = false.
Definition fatal_at (m : endian) (tbl : attrmap) (b : bytes) (p : nat) : Prop :=
  crashes_at m tbl b p \/ hangs_at m tbl b p.
(** no fatal attribute before [p] *)
Definition fine_before (m : endian) (tbl : attrmap) (b : bytes) (p : nat) : Prop :=
  forall p', (p' < p)%nat -> ~ fatal_at m tbl b p'.

(** the attributes the queue library asks for: packet header, mark, payload *)
Definition queue_wants (t : Z) : bool := (t =? 1) || (t =? 3) || (t =? 10).
(** a table that asks for exactly the attributes in [f] *)
Definition asks (f : Z -> bool) (tbl : attrmap) : Prop := forall t, requested tbl t = f t.
(** as above, for a reader that asks for the attributes in [f] *)
Definition crash_attr (f : Z -> bool) (m : endian) (b : bytes) (p : nat) : Prop :=
  attr_complete m b p /\ (attr_len m b p < 4)%nat /\ f (attr_type m b p) = true.
Definition hang_attr (f : Z -> bool) (m : endian) (b : bytes) (p : nat) : Prop :=
  attr_complete m b p /\ attr_len m b p = 0%nat /\ f (attr_type m b p) = false.
(** [p] is the first attribute that is either *)
Definition first_bad (f : Z -> bool) (m : endian) (b : bytes) (p : nat) : Prop :=
  forall p', (p' < p)%nat -> ~ crash_attr f m b p' /\ ~ hang_attr f m b p'.
