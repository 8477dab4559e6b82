(** Verdicts under the application's mutex. *)
From Verif Require Export Model.NfqLock Spec.LoopConcSpec.

(** the same turns without saying where the mutex is held *)
Definition plain (turns : list lturn) : list turn :=
  map (fun t => mkTurn (lt_data t) (map snd (lt_calls t))) turns.
Definition plain_calls (workers : list (list gcall)) : list (list vcall) := map (map snd) workers.
(** every SetVerdict2 call is made while holding the mutex (SetVerdict calls may or may not be) *)
Definition guards_SetVerdict2 (cs : list gcall) : Prop :=
  forall g, In g cs -> v_mark (snd g) <> None -> fst g = true.
Definition lfinished (c : lconf) : Prop := Forall (fun t => snd t = []) (l_threads c).
