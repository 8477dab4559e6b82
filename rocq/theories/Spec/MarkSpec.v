(** Where the mark shown with an unmarked packet comes from (C13). *)
From Verif Require Export Model.NfQueue Spec.Netlink Spec.Requests Spec.NfqSpec Spec.VerdictSpec Spec.LoopSpec.

(** the attribute at [p] is the last complete mark attribute (type 3) of the
    attributes [b] *)
Definition last_mark (m : endian) (b : bytes) (p : nat) : Prop :=
  attr_complete m b p /\ attr_type m b p = 3 /\
  forall p', attr_complete m b p' -> attr_type m b p' = 3 -> (p' <= p)%nat.
(** a receive that brought a packet message (not a refusal) *)
Definition brought (m : endian) (r : resp) (d : bytes) : Prop :=
  r_err r = None /\ received r = d /\ (20 <= length d)%nat /\ reply_code m d = 0.
(** no packet message received in [evs] carries a mark *)
Definition unmarked_since (m : endian) (fd : Z) (evs : list event) : Prop :=
  forall r d p, In (KRecvfrom fd 76800 256, r) evs -> brought m r d ->
    attr_complete m (skipn 20 d) p -> attr_type m (skipn 20 d) p <> 3.
(** after [evs]: the last packet message that carried a mark had its value [k]
    bytes after its first byte (20 bytes of headers, the attribute's offset, and
    the 4 bytes of the attribute's own header) *)
Definition mark_was_at (m : endian) (fd : Z) (evs : list event) (k : nat) : Prop :=
  exists pre r post d p, evs = pre ++ (KRecvfrom fd 76800 256, r) :: post /\
    brought m r d /\ last_mark m (skipn 20 d) p /\ k = (24 + p)%nat /\ unmarked_since m fd post.
