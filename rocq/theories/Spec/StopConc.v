(** StopQueue beside the loop: counting what happened (C85, C86). *)
From Verif Require Export Model.NfqStop Spec.Fifo.

(** successful receives of the loop (flags MSG_WAITALL = 256) and of StopQueue (flags 0) *)
Definition takes (flags : Z) (evs : list event) : nat :=
  length (filter (fun ev => match ev with
                            | (KRecvfrom _ _ fl, r) => (fl =? flags) && match r_err r with None => true | Some _ => false end
                            | _ => false end) evs).
Definition closings (evs : list event) : nat :=
  length (filter (fun ev => match fst ev with KClose _ => true | _ => false end) evs).
(** A process whose loop runs, with an open socket nothing is waiting on, and
    whose callback does not itself stop the queue *)
Definition running (p : proc) : Prop :=
  (p_loop p = LCheck \/ p_loop p = LWait) /\ p_stop p = SIdle /\ p_closed p = false /\ p_cancel p = false /\
  p_waiting p = [] /\ p_arrived p = [] /\
  (exists k, q_handle (w_st (p_w p)) = Some k) /\
  (forall cb, q_cb (w_st (p_w p)) = Some cb -> never_stops cb).
