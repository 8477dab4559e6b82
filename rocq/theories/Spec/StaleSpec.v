(** Where the parts of a packet come from that its message does not carry (C99). *)
From Verif Require Export Spec.MarkSpec.

(** the attribute at [p] is the last complete attribute of type [t] of the attributes [b] *)
Definition last_of (t : Z) (m : endian) (b : bytes) (p : nat) : Prop :=
  attr_complete m b p /\ attr_type m b p = t /\
  forall p', attr_complete m b p' -> attr_type m b p' = t -> (p' <= p)%nat.
(** no packet message received in [evs] carries an attribute of type [t] *)
Definition absent_since (t : Z) (m : endian) (fd : Z) (evs : list event) : Prop :=
  forall r d p, In (KRecvfrom fd 76800 256, r) evs -> brought m r d ->
    attr_complete m (skipn 20 d) p -> attr_type m (skipn 20 d) p <> t.
(** after [evs]: the last packet message that carried an attribute of type [t] had its
    value, of [n] bytes, [k] bytes after its first byte (20 bytes of headers, the
    attribute's offset, and the 4 bytes of the attribute's own header) *)
Definition was_at (t : Z) (m : endian) (fd : Z) (evs : list event) (k n : nat) : Prop :=
  exists pre r post d p, evs = pre ++ (KRecvfrom fd 76800 256, r) :: post /\
    brought m r d /\ last_of t m (skipn 20 d) p /\ k = (24 + p)%nat /\
    n = (attr_len m (skipn 20 d) p - 4)%nat /\ absent_since t m fd post.
