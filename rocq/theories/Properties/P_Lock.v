(** C79: one mutex around every SetVerdict2 call is enough. *)
From Verif Require Import Model.NfqLock Spec.Netlink Spec.NfqSpec Spec.VerdictSpec Spec.ConcSpec Spec.LoopConcSpec Spec.LockSpec.
From Verif Require Import Proof.LockProps Properties.P_Conc Properties.P_LoopConc.

(** Any number of goroutines use SetVerdict and SetVerdict2 on one handle, on packets
    of their own, while the receive loop runs and its callback does the same on the
    packets it delivers.  If the application holds one mutex around every SetVerdict2
    call (and around whichever SetVerdict calls it likes), then after every schedule,
    finished or not, each goroutine has sent exactly the messages of its first k
    calls, and the loop those of its first k verdicts, each carrying the bytes of its
    own datagram. *)
Theorem C79_mutex_keeps_verdicts_apart : forall m q rb turns workers h,
  loop_layout h q rb (plain turns) (plain_calls workers) ->
  (forall t, In t turns -> guards_SetVerdict2 (lt_calls t)) ->
  (forall cs, In cs workers -> guards_SetVerdict2 cs) ->
  forall c, lsteps (lkinit m q rb turns workers h) c ->
  (exists k t rest, nth_error (l_threads c) 0 = Some (t, rest) /\
     loop_sent m h q rb k (plain turns) (sent_by 0 (l_log c)) /\
     (rest = [] -> k = length (loop_calls (plain turns)))) /\
  (forall i cs, nth_error workers i = Some cs ->
     exists k t rest, nth_error (l_threads c) (S i) = Some (t, rest) /\
       sent_first m h q k (map snd cs) (sent_by (S i) (l_log c)) /\ (rest = [] -> k = length cs)).
Proof. exact locked_verdicts. Qed.
Print Assumptions C79_mutex_keeps_verdicts_apart.
(** and the mutex never deadlocks: from every reachable state all goroutines can finish *)
Theorem C79_no_deadlock : forall m q rb turns workers h,
  loop_layout h q rb (plain turns) (plain_calls workers) ->
  (forall t, In t turns -> guards_SetVerdict2 (lt_calls t)) ->
  (forall cs, In cs workers -> guards_SetVerdict2 cs) ->
  forall c, lsteps (lkinit m q rb turns workers h) c -> exists c', lsteps c c' /\ lfinished c'.
Proof. exact locked_finish. Qed.
Print Assumptions C79_no_deadlock.

(** ** The hypotheses are met, by the calls that mix without the mutex (C22) *)
Definition lk_turns : list lturn :=
  [mkLT [16; 0; 69; 1; 2; 3] [(true, mkV (Some 5) 1 300 lc_pkt)]; mkLT [16; 0; 70; 4; 5; 6; 7] [(false, mkV None 0 301 lc_pkt)]].
Definition lk_workers : list (list gcall) :=
  [[(true, mkV (Some 1) 0 100 pkt1)]; [(true, mkV (Some 2) 1 200 pkt2)]].
Lemma lrun_steps sched : forall c, lsteps c (lrun sched c).
Proof.
  induction sched as [|i sched IH]; intros c; cbn [lrun]; [constructor|].
  eapply lsteps_trans; [|apply IH]. destruct c as [ts mm o log]. cbn [l_threads l_owner l_mem l_log].
  destruct (nth_error ts i) as [[t [|[| |x] code]]|] eqn:E; try constructor.
  - destruct o; [constructor|]. eapply lsteps_next; [constructor|]. now apply lstep_acq.
  - destruct o as [j|]; [|constructor]. destruct (Nat.eqb_spec j i) as [->|]; [|constructor].
    eapply lsteps_next; [constructor|]. now apply lstep_rel.
  - eapply lsteps_next; [constructor|]. now apply lstep_do.
Qed.
Example C79_hypotheses_met :
  loop_layout lc_heap conc_handle 3 (plain lk_turns) (plain_calls lk_workers) /\
  (forall t, In t lk_turns -> guards_SetVerdict2 (lt_calls t)) /\
  (forall cs, In cs lk_workers -> guards_SetVerdict2 cs) /\
  (* a schedule that keeps switching; goroutines that find the mutex taken wait *)
  exists c, lsteps (lkinit LE conc_handle 3 lk_turns lk_workers lc_heap) c /\ lfinished c /\
  map (fun x => (fst x, read_message LE (snd (snd x)))) (l_log c) =
    [(1%nat, Some (verdict2_message LE 8 0 1 100 [69; 0; 0; 5; 17]));
     (0%nat, Some (verdict2_message LE 8 1 5 300 [69; 1; 2; 3]));
     (0%nat, Some (verdict1_message LE 8 0 301 [70; 4; 5; 6]));
     (2%nat, Some (verdict2_message LE 8 1 2 200 [96; 1; 2; 3]))].
Proof.
  split; [|split; [|split]].
  - constructor.
    + split; [vm_compute; lia|reflexivity].
    + vm_compute. split; [discriminate|reflexivity].
    + split; [vm_compute; lia|discriminate].
    + intros t [<-|[<-|[]]]; vm_compute; lia.
    + intros t c [<-|[<-|[]]] [<-|[]]; apply lc_delivered; cbn [tn_data lt_data length]; auto; unfold is_u32; lia.
    + intros t c c' [<-|[<-|[]]] [<-|[]] [<-|[]]; right; left; cbn; lia.
    + repeat (apply Forall_cons; [|]); try apply Forall_nil; unfold vcall_ok, valid, is_u32;
        cbn [snd v_pkt v_mark v_verdict v_id pkt1 pkt2 s_arr s_off s_len s_cap conc_handle h_hdr];
        (split; [vm_compute; lia|]); (split; [discriminate|]); repeat split; try lia.
    + intros cs c [<-|[<-|[]]] J; cbn in J; intuition (subst; discriminate).
    + intros i j ci cj c c' NE Hi Hj I J. destruct i as [|[|i]], j as [|[|j]]; try congruence;
        try (destruct i; discriminate); try (destruct j; discriminate);
        injection Hi as <-; injection Hj as <-; left; cbn in I, J;
        intuition (subst; discriminate).
    + intros ci c c' I J K. destruct I as [<-|[<-|[]]]; cbn in J, K;
        intuition (subst; right; left; cbn; lia).
  - intros t [<-|[<-|[]]] g [<-|[]] H; [reflexivity|now destruct H].
  - intros cs [<-|[<-|[]]] g [<-|[]] H; reflexivity.
  - exists (lrun (flat_map (fun _ => [1; 0; 2]%nat) (repeat tt 500)) (lkinit LE conc_handle 3 lk_turns lk_workers lc_heap)).
    split; [apply lrun_steps|]. split; [|vm_compute; reflexivity].
    unfold lfinished. vm_compute. repeat constructor.
Qed.
