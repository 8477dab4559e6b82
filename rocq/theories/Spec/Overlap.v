(** What becomes of bytes that lie behind a slice when something is appended to it. *)
From Verif Require Export Model.Packet Spec.PacketSpec.

(** appending [n] bytes to [s] stores over byte [i] of [t]: there is room behind [s] in
    its array, and that room is where the byte is *)
Definition overwritten (s : slice) (n : nat) (t : slice) (i : nat) : Prop :=
  (s_len s + n <= s_cap s)%nat /\ s_arr t = s_arr s /\
  (s_off s + s_len s <= s_off t + i < s_off s + s_len s + n)%nat.
(** [r] is what [t] shows after [v] was appended to [s] *)
Definition shown_after (h : heap) (s : slice) (v : bytes) (t : slice) (r : bytes) : Prop :=
  length r = s_len t /\
  forall i, (i < s_len t)%nat ->
    (overwritten s (length v) t i -> nth i r 0 = nth (s_off t + i - (s_off s + s_len s)) v 0) /\
    (~ overwritten s (length v) t i -> nth i r 0 = nth i (rd h t) 0).
(** the bytes stored over [t] are the ones that were there *)
Definition harmless (h : heap) (s : slice) (v : bytes) (t : slice) : Prop :=
  forall i, (i < s_len t)%nat -> overwritten s (length v) t i ->
    nth (s_off t + i - (s_off s + s_len s)) v 0 = nth i (rd h t) 0.
