(** C21, C22, C70: verdicts issued concurrently. *)
From Verif Require Import Model.NfqConc Spec.Netlink Spec.NfqSpec Spec.VerdictSpec Spec.ConcSpec.
From Verif Require Import Proof.ConcProps Proof.ConcQueues Spec.Samples Properties.P_Config Properties.P_Verdict.

(** The code interleaved below is the code of the sequential model: run alone
    it hands over exactly the datagram that SetVerdict or SetVerdict2 sends. *)
Theorem C21_concurrent_code_is_the_sequential_code : forall m grow e w fd c pkt,
  verdict_ready w fd -> packet_in w (v_pkt c) pkt ->
  (1 <= length pkt <= Z.to_nat 65531)%nat ->
  let q := mkH (q_num (w_st w)) fd (q_hdr (w_st w)) in
  vcall_ok (w_heap w) q c ->
  exists iov new mm' w',
    match v_mark c with
    | None => SetVerdict m grow (v_verdict c) (zlen pkt) (v_id c) (v_pkt c) e w
    | Some mk => SetVerdict2 m grow (v_verdict c) mk (zlen pkt) (v_id c) (v_pkt c) e w
    end = (Ok tt, w') /\ w_tr w' = w_tr w ++ new /\ sends_one fd iov new /\
    srun (call_code m q c) idle (mem_of (w_heap w)) = (idle, mm', [(fd, concat iov)]).
Proof. exact solo_is_sequential. Qed.
Print Assumptions C21_concurrent_code_is_the_sequential_code.

(** ** C21 *)
(** Any number of goroutines, each making any sequence of SetVerdict calls on
    packets of its own.  After every schedule, finished or not, each goroutine
    has sent exactly the messages of its first k calls, each carrying that
    call's verdict, id and packet; a goroutine that is done has sent all of
    them; when all are done the counters have counted every call. *)
Theorem C21_concurrent_SetVerdict : forall m q threads h a d,
  layout_ok h q threads ->
  (forall cs c, In cs threads -> In c cs -> v_mark c = None) ->
  0 <= a < 18446744073709551616 -> 0 <= d < 18446744073709551616 ->
  forall c, csteps (cinit m q threads h a d) c ->
  (forall i cs, nth_error threads i = Some cs ->
     exists k t rest, nth_error (c_threads c) i = Some (t, rest) /\
       sent_first m h q k cs (sent_by i (c_log c)) /\ (rest = [] -> k = length cs)) /\
  (finished c ->
     c_acc c = u64 (a + accepts threads) /\ c_drop c = u64 (d + drops threads) /\
     accepts threads + drops threads = zlen (concat threads)).
Proof.
  intros m q threads h a d L NM A D c ST. split.
  - intros i cs Hi. eapply (verdicts_do_not_mix m q threads h a d 0%nat L); eauto.
    intros j cj x Hj Ix NN. exfalso. apply NN. eapply NM; eauto using nth_error_In.
  - intros FIN. destruct (verdicts_counted m q threads h a d L A D c ST FIN) as [H1 H2].
    repeat split; auto. clear - NM. unfold accepts, drops.
    assert (F : forall x, In x (concat threads) -> v_mark x = None).
    { intros x Hx. apply in_concat in Hx as (cs & I1 & I2). eapply NM; eauto. }
    induction (concat threads) as [|x l IH]; [reflexivity|].
    specialize (IH (fun y Hy => F y (or_intror Hy))). cbn [filter].
    rewrite (F x (or_introl eq_refl)). unfold zlen in *.
    destruct (v_verdict x =? 1); cbn [negb length]; lia.
Qed.
Print Assumptions C21_concurrent_SetVerdict.

(** every schedule can be continued until all goroutines are done *)
Theorem C21_calls_finish : forall m q threads h a d c,
  csteps (cinit m q threads h a d) c -> exists c', csteps c c' /\ finished c'.
Proof. exact calls_finish. Qed.
Print Assumptions C21_calls_finish.

(** ** C22 *)
(** Missing: several goroutines using SetVerdict2 at once (refuted below).
    Proved: one goroutine uses SetVerdict2, and SetVerdict, while any number of
    others use SetVerdict. *)
Theorem C22_one_SetVerdict2_user_partial : forall m q threads h a d i0,
  layout_ok h q threads -> only_user_of_SetVerdict2 i0 threads ->
  forall c, csteps (cinit m q threads h a d) c ->
  forall i cs, nth_error threads i = Some cs ->
  exists k t rest, nth_error (c_threads c) i = Some (t, rest) /\
    sent_first m h q k cs (sent_by i (c_log c)) /\ (rest = [] -> k = length cs).
Proof. exact verdicts_do_not_mix. Qed.
Print Assumptions C22_one_SetVerdict2_user_partial.

(** ** A concrete handle and packets *)
Definition conc_heap : heap :=
  [repeat 0 40; [69; 0; 0; 5; 17; 201; 202; 203]; [96; 1; 2; 3]].
Definition conc_handle : vhandle := mkH 8 7 (mkSl 0 0 40 40).
Definition pkt1 : slice := mkSl 1 0 5 8.
Definition pkt2 : slice := mkSl 2 0 4 4.
(** goroutine 0 drops packet 100, goroutine 1 accepts packet 200 *)
Definition two_calls : list (list vcall) :=
  [[mkV (Some 1) 0 100 pkt1]; [mkV (Some 2) 1 200 pkt2]].
(** goroutine 0 up to the system call, then all of goroutine 1, then the rest *)
Definition race : list nat := repeat 0%nat 60 ++ repeat 1%nat 120 ++ repeat 0%nat 120.

Lemma two_calls_layout : layout_ok conc_heap conc_handle two_calls.
Proof.
  constructor.
  - split; [|reflexivity]. vm_compute. lia.
  - vm_compute. split; [discriminate|reflexivity].
  - repeat (apply Forall_cons; [|]); try apply Forall_nil; unfold vcall_ok, valid, is_u32;
      cbn [v_pkt v_mark v_verdict v_id pkt1 pkt2 s_arr s_off s_len s_cap conc_handle h_hdr];
      (split; [vm_compute; lia|]); (split; [discriminate|]); repeat split; try lia.
  - intros i j ci cj c c' NE Hi Hj I J. destruct i as [|[|i]], j as [|[|j]]; try congruence;
      try (destruct i; discriminate); try (destruct j; discriminate);
      injection Hi as <-; injection Hj as <-; destruct I as [<-|[]], J as [<-|[]]; left; cbn; lia.
  - intros ci c c' I J K. destruct I as [<-|[<-|[]]]; destruct J as [<-|[]], K as [<-|[]]; right; left; cbn; lia.
Qed.

Lemma crun_steps sched : forall c, csteps c (crun sched c).
Proof.
  induction sched as [|i sched IH]; intros c; cbn [crun]; [constructor|].
  destruct (nth_error _ _) as [[t [|x code]]|] eqn:E; auto.
  eapply csteps_trans; [|apply IH]. eapply csteps_next; [constructor|]. constructor. exact E.
Qed.

(** The layout is as required, yet after the schedule goroutine 0, which
    dropped packet id 100 (its bytes start with 69), has sent verdict "accept",
    mark 2, id 200 -- the other goroutine's -- with its own packet, and no
    message dropping packet 100 was ever sent. *)
Theorem C22_concurrent_SetVerdict2_refuted :
  layout_ok conc_heap conc_handle two_calls /\
  exists c, csteps (cinit LE conc_handle two_calls conc_heap 0 0) c /\ finished c /\
    map (fun x => (fst x, read_message LE (snd (snd x)))) (c_log c) =
      [(1%nat, Some (verdict2_message LE 8 1 2 200 [96; 1; 2; 3]));
       (0%nat, Some (verdict2_message LE 8 1 2 200 [69; 0; 0; 5; 17]))] /\
    verdict2_message LE 8 1 2 200 [69; 0; 0; 5; 17] <> vmessage LE conc_heap conc_handle (mkV (Some 1) 0 100 pkt1).
Proof.
  split; [exact two_calls_layout|].
  exists (crun race (cinit LE conc_handle two_calls conc_heap 0 0)).
  split; [apply crun_steps|]. split; [|split].
  - unfold finished. vm_compute. repeat constructor.
  - vm_compute. reflexivity.
  - vm_compute. discriminate.
Qed.
Print Assumptions C22_concurrent_SetVerdict2_refuted.

(** ** The hypotheses are met *)
(** two goroutines, the first making two calls on one packet *)
Definition some_goroutines (mk : option Z) : list (list vcall) :=
  [[mkV None 1 100 pkt1; mkV mk 0 101 pkt1]; [mkV None 1 200 pkt2]].
Lemma some_goroutines_layout mk :
  match mk with None => True | Some x => is_u32 x end -> layout_ok conc_heap conc_handle (some_goroutines mk).
Proof.
  intros U. constructor.
  - split; [|reflexivity]. vm_compute. lia.
  - vm_compute. split; [discriminate|reflexivity].
  - repeat (apply Forall_cons; [|]); try apply Forall_nil; unfold vcall_ok, valid, is_u32 in *;
      cbn [v_pkt v_mark v_verdict v_id pkt1 pkt2 s_arr s_off s_len s_cap conc_handle h_hdr];
      (split; [vm_compute; lia|]); (split; [discriminate|]); destruct mk; repeat split; lia.
  - intros i j ci cj c c' NE Hi Hj I J. destruct i as [|[|i]], j as [|[|j]]; try congruence;
      try (destruct i; discriminate); try (destruct j; discriminate);
      injection Hi as <-; injection Hj as <-; left; cbn in I, J;
      intuition (subst; discriminate).
  - intros ci c c' I J K. destruct I as [<-|[<-|[]]]; cbn in J, K;
      intuition (subst; right; left; cbn; lia).
Qed.
Example C21_hypotheses_met :
  layout_ok conc_heap conc_handle (some_goroutines None) /\
  (forall cs c, In cs (some_goroutines None) -> In c cs -> v_mark c = None) /\
  (* and the conclusion is about real messages: in this schedule the goroutines alternate *)
  map (fun x => (fst x, read_message LE (snd (snd x))))
      (c_log (crun (flat_map (fun _ => [0%nat; 1%nat]) (repeat tt 60)) (cinit LE conc_handle (some_goroutines None) conc_heap 0 0))) =
    [(1%nat, Some (verdict1_message LE 8 1 200 [96; 1; 2; 3]));
     (0%nat, Some (verdict1_message LE 8 1 100 [69; 0; 0; 5; 17; 0; 0; 0]));
     (0%nat, Some (verdict1_message LE 8 0 101 [69; 0; 0; 5; 17; 0; 0; 0]))].
Proof.
  split; [exact (some_goroutines_layout None I)|]. split.
  - intros cs c [<-|[<-|[]]] J; cbn in J; intuition (subst; reflexivity).
  - vm_compute. reflexivity.
Qed.
Example C22_hypotheses_met :
  layout_ok conc_heap conc_handle (some_goroutines (Some 9)) /\
  only_user_of_SetVerdict2 0 (some_goroutines (Some 9)).
Proof.
  split; [apply some_goroutines_layout; vm_compute; split; [discriminate|reflexivity]|].
  intros [|[|i]] ci c H J N; [reflexivity| |destruct i; discriminate].
  injection H as <-. destruct J as [<-|[]]. now contradiction N.
Qed.

(** ** C70 *)
(** Any number of queues in one program, each goroutine issuing verdicts on its own
    queue (as in the example program): after every schedule each goroutine has sent,
    on its own queue's socket, exactly the messages of its first k calls. *)
Theorem C70_queues_do_not_mix : forall m l h, queues_ok h l ->
  forall c, csteps (qinit m l h) c ->
  forall i q cs, nth_error l i = Some (q, cs) ->
  exists k t rest, nth_error (c_threads c) i = Some (t, rest) /\
    sent_first m h q k cs (sent_by i (c_log c)) /\ (rest = [] -> k = length cs).
Proof. exact queues_do_not_mix. Qed.
Print Assumptions C70_queues_do_not_mix.
Theorem C70_queues_finish : forall m l h c, csteps (qinit m l h) c -> exists c', csteps c c' /\ finished c'.
Proof. exact queues_finish. Qed.
Print Assumptions C70_queues_finish.
(** the two calls that mix on one handle do not on two *)
Definition two_heap : heap := conc_heap ++ [repeat 0 40].
Definition two_queues : users :=
  [(mkH 8 7 (mkSl 0 0 40 40), [mkV (Some 1) 0 100 pkt1]); (mkH 9 6 (mkSl 3 0 40 40), [mkV (Some 2) 1 200 pkt2])].
Example C70_hypotheses_met : queues_ok two_heap two_queues /\
  map (fun x => (fst (snd x), read_message LE (snd (snd x)))) (c_log (crun race (qinit LE two_queues two_heap))) =
      [(6, Some (verdict2_message LE 9 1 2 200 [96; 1; 2; 3]));
       (7, Some (verdict2_message LE 8 0 1 100 [69; 0; 0; 5; 17]))].
Proof.
  split; [|vm_compute; reflexivity]. constructor.
  - intros q cs [E|[E|[]]]; injection E as <- <-; vm_compute; repeat split; try discriminate; try lia.
  - intros q cs [E|[E|[]]]; injection E as <- <-; apply Forall_cons; try apply Forall_nil; unfold vcall_ok, valid, is_u32;
      cbn [v_pkt v_mark v_verdict v_id pkt1 pkt2 s_arr s_off s_len s_cap h_hdr];
      (split; [vm_compute; lia|]); (split; [discriminate|]); repeat split; try lia.
  - intros q cs q' cs' c [E|[E|[]]] [E'|[E'|[]]] I; injection E as <- <-; injection E' as <- <-; destruct I as [<-|[]]; discriminate.
  - intros i j qi ci qj cj c c' N Ei Ej _ _ _ _. destruct i as [|[|i]]; [| |destruct i; discriminate Ei];
      (destruct j as [|[|j]]; [| |destruct j; discriminate Ej]); try (now destruct N); injection Ei as <- <-; injection Ej as <- <-; discriminate.
  - intros i j qi ci qj cj c c' N Ei Ej I J. destruct i as [|[|i]]; [| |destruct i; discriminate Ei];
      (destruct j as [|[|j]]; [| |destruct j; discriminate Ej]); try (now destruct N); injection Ei as <- <-; injection Ej as <- <-;
      destruct I as [<-|[]], J as [<-|[]]; left; discriminate.
  - intros q ci c c' [E|[E|[]]] I J; injection E as <- <-; destruct I as [<-|[]], J as [<-|[]]; right; left; cbn; lia.
Qed.
