(** StopQueue and cancellation while ProcessPackets runs: C85, C86. *)
From Verif Require Import Proof.StopConc Spec.Samples Properties.P_Loop Properties.P_Fifo.

(** ** The pieces are the code *)
(** Run one after the other, with nothing in between, the pieces that the two
    goroutines are cut into are a turn of the loop and a call of StopQueue. *)
Theorem C85_pieces_make_a_turn : forall fuel m grow e w,
  process_one fuel m grow e w = (let! x := loop_receive in process_rest fuel m grow x) e w.
Proof. exact process_one_pieces. Qed.
Print Assumptions C85_pieces_make_a_turn.
Theorem C85_pieces_make_StopQueue : forall m e w,
  StopQueue m e w = (let! r := stop_send m in
                     match r with
                     | Some er => ret (Some er)
                     | None => let! x := stop_receive in stop_rest m x
                     end) e w.
Proof. exact StopQueue_pieces. Qed.
Print Assumptions C85_pieces_make_StopQueue.

(** ** C85 *)
(** For every interleaving of the two goroutines with the arrival of packets and
    with cancellation: the datagrams that arrived are those taken from the socket
    - each by one receive, in the order they arrived - followed by those still
    waiting; StopQueue takes at most one of them; and the socket is closed once
    for the end of the loop and once more for a StopQueue that returned nil. *)
Theorem C85_each_datagram_one_receiver_partial : forall fuel m grow e p0 ls p,
  running p0 -> steps fuel m grow e p0 ls p ->
  exists new, w_tr (p_w p) = w_tr (p_w p0) ++ new /\
    datagrams new ++ p_waiting p = p_arrived p /\
    length (datagrams new) = (takes 256 new + takes 0 new)%nat /\
    (takes 0 new <= 1)%nat /\
    closings new = ((match p_loop p with LEnd => 1 | _ => 0 end) +
                    (match p_stop p with SRet None => 1 | _ => 0 end))%nat.
Proof.
  intros fuel m grow e p0 ls p R ST.
  destruct (pinv_steps fuel m grow e _ _ _ _ (pinv_running p0 R) ST) as [(new & T & D & K0 & KC & KD) _ _].
  exists new. split; [exact T|]. split; [exact D|]. split; [exact KD|].
  split; [destruct (p_stop p); cbn in K0; lia|exact KC].
Qed.
Print Assumptions C85_each_datagram_one_receiver_partial.

(** The sample process: a queue just started, its loop blocked in the receive. *)
Definition quiet_script : list (list bytes) := [[]; [ack]; [ack]; [ack]; [ack]; [ack]].
Notation quiet_world := (snd (scripted_start 4 quiet_script)).
Notation quiet_kernel := (script_kernel 4 quiet_script).
Notation quiet_proc := (mkProc quiet_world [] [] true false false LWait SIdle).
Notation quiet_fuel := (Z.to_nat 19202).
Notation no_spare := (fun _ k : nat => k).
Lemma quiet_within : replies_within 20 76800 quiet_kernel.
Proof. apply script_within. unfold quiet_script. repeat (apply Forall_cons || apply Forall_nil); within_tac. Qed.
Lemma quiet_started : scripted_start 4 quiet_script = (Ok None, quiet_world).
Proof.
  assert (X : fst (scripted_start 4 quiet_script) = Ok None) by (vm_compute; reflexivity).
  destruct (scripted_start 4 quiet_script) as [r w]. cbn [fst snd] in *. now rewrite X.
Qed.
Lemma quiet_facts : (exists k, q_handle (w_st quiet_world) = Some k) /\ q_num (w_st quiet_world) = 42 /\
  q_cb (w_st quiet_world) = Some (guarded accept_all).
Proof.
  destruct (started_ready LE 42 100 65535 (Some (guarded accept_all)) true 5 quiet_kernel blank quiet_world)
    as (fd & priv & _ & _ & _ & _ & F & A & B & C & D); try (red; lia).
  - exact quiet_within.
  - exact quiet_started.
  - split; [|auto]. destruct F as [[H _] _]. eauto.
Qed.
Lemma quiet_running : running quiet_proc.
Proof.
  destruct quiet_facts as ((k & HK) & _ & CB). unfold running. cbn [p_loop p_stop p_closed p_cancel p_waiting p_arrived p_w].
  split; [now right|]. do 5 (split; [reflexivity|]). split; [eauto|].
  intros cb E. rewrite CB in E. injection E as <-. apply guarded_never_stops.
Qed.
(** Two packets arrive, StopQueue is called and takes the first of the two, the
    loop takes the other and then the answer, and sees the context done. *)
Example C85_hypotheses_met :
  running quiet_proc /\
  exists p, steps quiet_fuel LE no_spare quiet_kernel quiet_proc
    [Arrive marked_packet; Arrive unmarked_packet; StopSend true ack; StopTake; StopHandle;
     LoopTake; LoopHandle; Cancel; LoopCheck] p /\
    (map fst (shown (w_tr (p_w p))), p_waiting p, p_stop p, p_loop p) = ([(259, 0)], [ack], SRet None, LEnd).
Proof.
  split; [exact quiet_running|]. apply execs_observe. vm_compute. reflexivity.
Qed.

(** False: "StopQueue returns".  Whatever the state in which the loop waits for a
    packet, there is a schedule in which the kernel destroys the queue, the loop
    takes the answer, and StopQueue then waits for ever: in every continuation of
    that schedule it has not returned. *)
Theorem C85_StopQueue_waits_for_ever_refuted : forall fuel m grow e p0 k reply,
  running p0 -> p_loop p0 = LWait -> p_bound p0 = true ->
  q_handle (w_st (p_w p0)) = Some k -> is_u16 (q_num (w_st (p_w p0))) ->
  (forall b, r_err (e (w_tr (p_w p0)) (KSendto (k_fd k) b 0)) = None) ->
  exists p1, steps fuel m grow e p0 [StopSend true reply; LoopTake] p1 /\
    forall ls p2, steps fuel m grow e p1 ls p2 -> p_stop p2 = SWait.
Proof.
  intros fuel m grow e [w q a b c cl l s] k reply (_ & S & CL & CA & W & A & _) L BD HK N OK.
  cbn [p_w p_loop p_bound p_stop p_closed p_cancel p_waiting p_arrived] in *. subst.
  destruct (stolen_answer fuel m grow e w [] k LWait reply eq_refl HK N OK eq_refl) as (p1 & S1 & AB).
  exists p1. split; [exact S1|]. intros ls p2 S2. exact (proj1 (abandoned_steps _ _ _ _ _ _ _ AB S2)).
Qed.
Print Assumptions C85_StopQueue_waits_for_ever_refuted.
Example C85_waits_hypotheses_met :
  running quiet_proc /\ (exists k, q_handle (w_st quiet_world) = Some k) /\ is_u16 (q_num (w_st quiet_world)) /\
  forall k b, r_err (quiet_kernel (w_tr quiet_world) (KSendto (k_fd k) b 0)) = None.
Proof.
  destruct quiet_facts as (K & N & _). split; [exact quiet_running|]. split; [exact K|].
  split; [rewrite N; red; lia|reflexivity].
Qed.

(** False: "a packet the loop takes is shown to the callback as it is".  Both
    goroutines receive into one buffer.  The loop takes a packet with id 258 and
    mark 263; before it reads it, StopQueue receives the kernel's answer over its
    first 36 bytes.  The callback is shown a packet 0 without a mark; no other
    packet is ever shown. *)
Theorem C85_packet_overwritten_refuted :
  running quiet_proc /\ a_packet LE marked_packet /\
  exists p, steps quiet_fuel LE no_spare quiet_kernel quiet_proc
    [Arrive marked_packet; LoopTake; StopSend true ack; StopTake; LoopHandle; StopHandle] p /\
    (shown (w_tr (p_w p)), p_arrived p, p_waiting p, p_stop p, p_loop p) =
    ([(0, 0, [69; 0; 0; 5; 17])], [marked_packet; ack], [], SRet None, LCheck).
Proof.
  split; [exact quiet_running|]. split; [exact marked_a_packet|]. apply execs_observe. vm_compute. reflexivity.
Qed.
Print Assumptions C85_packet_overwritten_refuted.
(** False: "StopQueue reports a refusal it receives".  The kernel refuses (EPERM),
    StopQueue receives the refusal; before it reads it the loop receives a packet
    over it.  StopQueue returns nil and closes the socket. *)
Theorem C85_refusal_overwritten_refuted :
  running quiet_proc /\ reply_code LE eperm = -1 /\
  exists p, steps quiet_fuel LE no_spare quiet_kernel quiet_proc
    [StopSend false eperm; StopTake; Arrive marked_packet; LoopTake; StopHandle; LoopHandle] p /\
    (p_bound p, p_waiting p, p_stop p, p_closed p, map fst (shown (w_tr (p_w p)))) =
    (true, [], SRet None, true, [(258, 263)]).
Proof.
  split; [exact quiet_running|]. split; [vm_compute; reflexivity|]. apply execs_observe. vm_compute. reflexivity.
Qed.
Print Assumptions C85_refusal_overwritten_refuted.

(** ** C86 *)
(** Once the context is done the loop takes at most one more datagram, and none
    if it was not already waiting for one, whatever is scheduled. *)
Theorem C86_at_most_one_more_partial : forall fuel m grow e p0 ls p1 ls' p2,
  running p0 -> steps fuel m grow e p0 ls p1 -> p_cancel p1 = true -> steps fuel m grow e p1 ls' p2 ->
  exists new, w_tr (p_w p2) = w_tr (p_w p1) ++ new /\
    (takes 256 new <= match p_loop p1 with LWait => 1 | _ => 0 end)%nat.
Proof.
  intros fuel m grow e p0 ls p1 ls' p2 R S1 C S2.
  pose proof (pinv_steps fuel m grow e _ _ _ _ (pinv_running p0 R) S1) as P1.
  destruct (cancel_steps fuel m grow e _ _ _ _ P1 C S2) as (_ & new & T & L). exists new. split; [exact T|].
  unfold due in L. destruct (p_loop p1); lia.
Qed.
Print Assumptions C86_at_most_one_more_partial.
(** When the loop then looks at the context it returns, closing the socket and
    making no other call. *)
Theorem C86_loop_returns : forall fuel m grow e p0 ls p1,
  running p0 -> steps fuel m grow e p0 ls p1 -> p_cancel p1 = true -> p_loop p1 = LCheck ->
  (exists p2, step fuel m grow e p1 LoopCheck p2) /\
  forall p2, step fuel m grow e p1 LoopCheck p2 ->
    p_loop p2 = LEnd /\
    exists fd r r', w_tr (p_w p2) = w_tr (p_w p1) ++ [(KCtxDone, r); (KClose fd, r')].
Proof.
  intros fuel m grow e p0 ls p1 R S1 C L.
  pose proof (pinv_steps fuel m grow e _ _ _ _ (pinv_running p0 R) S1) as [_ (k & HK) _].
  destruct p1 as [w q a b c cl l s]. cbn [p_w p_cancel p_loop] in *. subst c l. split.
  - eexists. eapply st_check_done; [reflexivity|]. unfold NfqClose. rewrite bind_get_st.
    cbn [w_st]. rewrite HK, bind_do_call. reflexivity.
  - intros p2 ST. inversion ST; subst.
    match goal with H : do_call _ _ _ = _ |- _ => destruct (check_trace _ _ _ _ _ H) as (S2 & rc & T1) end.
    rewrite <- S2 in HK.
    match goal with H : NfqClose _ _ = _ |- _ => destruct (close_trace _ _ _ _ HK H) as (S3 & rc2 & T2) end.
    cbn [p_loop p_w]. split; [reflexivity|]. exists (k_fd k), rc, rc2. rewrite T2, T1, <- app_assoc. reflexivity.
Qed.
Print Assumptions C86_loop_returns.
Example C86_hypotheses_met :
  running quiet_proc /\
  exists p, steps quiet_fuel LE no_spare quiet_kernel quiet_proc [Cancel; Arrive marked_packet; LoopTake; LoopHandle] p /\
    (p_cancel p, p_loop p, map fst (shown (w_tr (p_w p)))) = (true, LCheck, [(258, 263)]).
Proof. split; [exact quiet_running|]. apply execs_observe. vm_compute. reflexivity. Qed.

(** False: "cancelling the context ends the loop".  A loop that waits for a packet
    when the context is cancelled waits on for as long as no datagram arrives,
    whatever else is scheduled: it has not returned. *)
Theorem C86_cancelled_loop_waits_refuted : forall fuel m grow e p0,
  running p0 -> p_loop p0 = LWait ->
  exists p1, steps fuel m grow e p0 [Cancel] p1 /\ p_cancel p1 = true /\
    forall ls p2, Forall silent ls -> steps fuel m grow e p1 ls p2 -> p_loop p2 = LWait.
Proof.
  intros fuel m grow e [w q a b c cl l s] (_ & S & CL & CA & W & A & _) L.
  cbn [p_loop p_stop p_closed p_cancel p_waiting p_arrived] in *. subst.
  eexists. split; [econstructor; [apply st_cancel|constructor]|]. split; [reflexivity|].
  intros ls p2 F ST. eapply (deaf_steps fuel m grow e); [|exact F|exact ST]. split; reflexivity.
Qed.
Print Assumptions C86_cancelled_loop_waits_refuted.
Example C86_waits_hypotheses_met : running quiet_proc /\ p_loop quiet_proc = LWait.
Proof. split; [exact quiet_running|reflexivity]. Qed.
