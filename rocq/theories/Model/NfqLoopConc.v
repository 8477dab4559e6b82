(** The receive loop running while other goroutines issue verdicts
    (nfqueue/nfqueue.go:442-511 beside 342-439), at the granularity of
    Model/NfqConc.v.  Simplifications: the bytes a datagram leaves in the receive
    buffer are taken as one list of bytes written from its start (nfqueue.go:445);
    parsing is left out (it only makes slices of the buffer); packets of the other
    goroutines are in memory from the start. *)
From Verif Require Export Model.NfqConc.

(** one turn of the loop: the datagram received and the verdicts the callback
    issues before it returns *)
(* nfqueue.go:483-510 *)
Record turn := mkTurn { tn_data : bytes; tn_calls : list vcall }.
(* nfqueue.go:445 (the kernel writes into buf) and 505 (the callback) *)
Definition turn_code (m : endian) (q : vhandle) (rb : nat) (t : turn) : list instr :=
  store_code rb 0 (tn_data t) ++ thread_code m q (tn_calls t).
(* nfqueue.go:484-510 *)
Definition loop_code (m : endian) (q : vhandle) (rb : nat) (turns : list turn) : list instr :=
  flat_map (turn_code m q rb) turns.
(** goroutine 0 runs the loop, the others issue the verdicts [workers] *)
(* no code: the loop and the callers of SetVerdict/SetVerdict2 side by side *)
Definition linit (m : endian) (q : vhandle) (rb : nat) (turns : list turn) (workers : list (list vcall)) (h : heap) : conf :=
  mkC ((idle, loop_code m q rb turns) :: map (fun cs => (idle, thread_code m q cs)) workers) (mem_of h) 0 0 [].
