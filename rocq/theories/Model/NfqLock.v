(** Verdicts issued under a mutex of the application: the program of
    Model/NfqLoopConc.v in which a goroutine may hold one shared sync.Mutex around
    a call of SetVerdict or SetVerdict2 (nfqueue/nfqueue.go:342-439).  The mutex is
    the caller's, not the library's; the library has none. *)
From Verif Require Export Model.NfqLoopConc.

(* no code: mu.Lock(), mu.Unlock() of the caller and the library's instructions *)
Inductive linstr := LAcq | LRel | LDo (x : instr).
(** a call, and whether the mutex is held around it *)
(* no code: arguments of SetVerdict/SetVerdict2 (nfqueue.go:342, 386) *)
Notation gcall := (bool * vcall)%type.
(* nfqueue.go:342-439 between Lock and Unlock *)
Definition lcall_code (m : endian) (q : vhandle) (g : gcall) : list linstr :=
  if fst g then LAcq :: map LDo (call_code m q (snd g)) ++ [LRel] else map LDo (call_code m q (snd g)).
(* no code: calls one after the other *)
Definition lthread_code (m : endian) (q : vhandle) (cs : list gcall) : list linstr :=
  flat_map (lcall_code m q) cs.
(** one turn of the receive loop: datagram and the verdicts of the callback *)
(* nfqueue.go:483-510 *)
Record lturn := mkLT { lt_data : bytes; lt_calls : list gcall }.
(* nfqueue.go:445 (the kernel writes into buf) and 505 (the callback) *)
Definition lturn_code (m : endian) (q : vhandle) (rb : nat) (t : lturn) : list linstr :=
  map LDo (store_code rb 0 (lt_data t)) ++ lthread_code m q (lt_calls t).
(* nfqueue.go:484-510 *)
Definition lloop_code (m : endian) (q : vhandle) (rb : nat) (turns : list lturn) : list linstr :=
  flat_map (lturn_code m q rb) turns.

(** all goroutines, memory, who holds the mutex, the datagrams handed over *)
(* no code: shared memory and interleaving *)
Record lconf := mkLC {
  l_threads : list (tstate * list linstr);
  l_mem : mem;
  l_owner : option nat;
  l_log : list (nat * (Z * bytes)) }.
(* no code: shared memory and interleaving; Lock waits until the mutex is free *)
Inductive lstep : lconf -> lconf -> Prop :=
| lstep_acq i t code ts mm log :
    nth_error ts i = Some (t, LAcq :: code) ->
    lstep (mkLC ts mm None log) (mkLC (set_nth i (t, code) ts) mm (Some i) log)
| lstep_rel i t code ts mm log :
    nth_error ts i = Some (t, LRel :: code) ->
    lstep (mkLC ts mm (Some i) log) (mkLC (set_nth i (t, code) ts) mm None log)
| lstep_do i t x code ts mm o log :
    nth_error ts i = Some (t, LDo x :: code) ->
    lstep (mkLC ts mm o log)
      (mkLC (set_nth i (fst (fst (exec x t mm)), code) ts) (snd (fst (exec x t mm))) o
            (log ++ map (pair i) (snd (exec x t mm)))).
(* no code: shared memory and interleaving *)
Inductive lsteps : lconf -> lconf -> Prop :=
| lsteps_refl c : lsteps c c
| lsteps_next c c' c'' : lsteps c c' -> lstep c' c'' -> lsteps c c''.
(** goroutine 0 runs the loop, the others issue the verdicts [workers] *)
(* no code: the loop and the callers of SetVerdict/SetVerdict2 side by side *)
Definition lkinit (m : endian) (q : vhandle) (rb : nat) (turns : list lturn) (workers : list (list gcall)) (h : heap) : lconf :=
  mkLC ((idle, lloop_code m q rb turns) :: map (fun cs => (idle, lthread_code m q cs)) workers) (mem_of h) None [].
(** run a given schedule (steps that are not possible are skipped) *)
(* no code: shared memory and interleaving *)
Fixpoint lrun (sched : list nat) (c : lconf) : lconf :=
  match sched with
  | [] => c
  | i :: sched' =>
      lrun sched'
        match nth_error (l_threads c) i with
        | Some (t, LAcq :: code) =>
            match l_owner c with
            | None => mkLC (set_nth i (t, code) (l_threads c)) (l_mem c) (Some i) (l_log c)
            | Some _ => c
            end
        | Some (t, LRel :: code) =>
            match l_owner c with
            | Some j => if (j =? i)%nat then mkLC (set_nth i (t, code) (l_threads c)) (l_mem c) None (l_log c) else c
            | None => c
            end
        | Some (t, LDo x :: code) =>
            mkLC (set_nth i (fst (fst (exec x t (l_mem c))), code) (l_threads c)) (snd (fst (exec x t (l_mem c)))) (l_owner c)
              (l_log c ++ map (pair i) (snd (exec x t (l_mem c))))
        | _ => c
        end
  end.
