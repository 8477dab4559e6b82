(** Counting closes against requests (C61). *)
From Verif Require Import Model.NfQueue Spec.Lifecycle.

(** the requests sent on [fd] *)
Definition requests (fd : Z) (evs : list event) : nat :=
  length (filter (fun ev => match fst ev with KSendto x _ _ => x =? fd | _ => false end) evs).
