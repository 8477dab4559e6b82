(** Log messages on a FIFO socket (C84). *)
From Verif Require Export Spec.Fifo Spec.LogOutcome Spec.NflogSpec.

(** the invocations of the log callback in a history *)
Definition log_calls (evs : list event) : list event :=
  filter (fun ev => match fst ev with KLogCb _ _ _ _ _ _ _ _ _ _ => true | _ => false end) evs.
(** a datagram the reader gets through, at most as long as its buffer: it shows
    [ps] to the callback, and then is finished or reports an error (C27) *)
Definition log_shows (d : bytes) (ps : list (bytes * bytes * bytes)) : Prop :=
  zlen d <= 65536 /\ (log_ends d ps Finished \/ exists er, log_ends d ps (Failed er)).
