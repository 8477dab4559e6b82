(** C78: the receive loop running while other goroutines issue verdicts. *)
From Verif Require Import Model.NfqLoopConc Spec.Netlink Spec.NfqSpec Spec.VerdictSpec Spec.ConcSpec Spec.LoopConcSpec.
From Verif Require Import Proof.ConcProps Proof.LoopConc Properties.P_Conc.

(** Missing: the delivered buffer itself handed to another goroutine (refuted
    below).  Proved: the loop receives any datagrams one after the other into its
    one buffer, the callback may issue verdicts on each before it returns, and other
    goroutines issue verdicts on copies of their own.  After every schedule the loop
    has sent the messages of its first k verdicts, each carrying the bytes of its
    own datagram, and each other goroutine those of its first k calls. *)
Theorem C78_receiving_and_answering_partial : forall m q rb turns workers h i0,
  loop_layout h q rb turns workers ->
  only_user_of_SetVerdict2 i0 (map snd (loop_calls turns) :: workers) ->
  forall c, csteps (linit m q rb turns workers h) c ->
  (exists k t rest, nth_error (c_threads c) 0 = Some (t, rest) /\
     loop_sent m h q rb k turns (sent_by 0 (c_log c)) /\ (rest = [] -> k = length (loop_calls turns))) /\
  (forall i cs, nth_error workers i = Some cs ->
     exists k t rest, nth_error (c_threads c) (S i) = Some (t, rest) /\
       sent_first m h q k cs (sent_by (S i) (c_log c)) /\ (rest = [] -> k = length cs)).
Proof. exact loop_and_verdicts. Qed.
Print Assumptions C78_receiving_and_answering_partial.
Theorem C78_all_finish : forall m q rb turns workers h c,
  csteps (linit m q rb turns workers h) c -> exists c', csteps c c' /\ finished c'.
Proof. intros m q rb turns workers h c _. eapply can_finish. reflexivity. Qed.
Print Assumptions C78_all_finish.

(** For every datagram, every verdict a callback could pass on with the delivered
    buffer to another goroutine, and every datagram received next: some schedule
    makes the only verdict sent carry the bytes of the next datagram; where the two
    differ it is not the verdict on the packet that was delivered. *)
Theorem C78_delivered_buffer_refuted : forall m q rb h received next c,
  is_u16 (h_num q) -> (rb < length h)%nat -> rb <> s_arr (h_hdr q) ->
  delivered h q rb received c -> delivered h q rb next c ->
  exists cf out, csteps (linit m q rb [mkTurn received []; mkTurn next []] [[c]] h) cf /\ finished cf /\
    c_log cf = [(1%nat, out)] /\ is_message_of m (hold h rb next) q c out /\
    (rd (hold h rb received) (v_pkt c) <> rd (hold h rb next) (v_pkt c) ->
     ~ is_message_of m (hold h rb received) q c out).
Proof.
  intros m q rb h d0 d c N RB RH D0 D.
  destruct (delivered_buffer_race m q rb h d0 d c N RB RH D0 D) as (cf & out & S & F & L & M).
  exists cf, out. split; [exact S|]. split; [exact F|]. split; [exact L|]. split; [exact M|].
  intros NE [_ X]. destruct M as [_ M]. apply NE. apply (vmessage_bytes m _ _ q c); [apply D0|apply D|].
  rewrite M in X. congruence.
Qed.
Print Assumptions C78_delivered_buffer_refuted.

(** ** The hypotheses are met *)
(** array 0: header buffer, 1 and 2: private packets, 3: the receive buffer *)
Definition lc_heap : heap := conc_heap ++ [repeat 0 12].
Definition lc_pkt : slice := mkSl 3 2 4 10.
Definition lc_turns : list turn :=
  [mkTurn [16; 0; 69; 1; 2; 3] [mkV (Some 5) 1 300 lc_pkt]; mkTurn [16; 0; 70; 4; 5; 6; 7] [mkV None 0 301 lc_pkt]].
Definition lc_workers : list (list vcall) := [[mkV None 1 100 pkt1; mkV None 0 101 pkt1]; [mkV None 1 200 pkt2]].
Lemma lc_delivered d mk v id : length d = 6%nat \/ length d = 7%nat ->
  match mk with None => True | Some x => is_u32 x end -> is_u32 v -> is_u32 id ->
  delivered lc_heap conc_handle 3 d (mkV mk v id lc_pkt).
Proof.
  intros L U V D. unfold delivered, vcall_ok, valid. cbn [v_pkt v_mark v_verdict v_id lc_pkt s_arr s_off s_len s_cap conc_handle h_hdr].
  assert (LA : (3 < length lc_heap)%nat) by (vm_compute; lia).
  unfold hold. rewrite arr_upd_same by exact LA. rewrite app_length, skipn_length.
  change (length (arr lc_heap 3)) with 12%nat.
  assert (LH : length (upd_arr lc_heap 3 (d ++ skipn (length d) (arr lc_heap 3))) = 4%nat) by reflexivity.
  unfold is_u32 in *. rewrite LH. destruct mk; repeat split; try lia; discriminate.
Qed.
Example C78_hypotheses_met :
  loop_layout lc_heap conc_handle 3 lc_turns lc_workers /\
  only_user_of_SetVerdict2 0 (map snd (loop_calls lc_turns) :: lc_workers) /\
  (* one schedule and what is sent in it *)
  map (fun x => (fst x, read_message LE (snd (snd x))))
    (c_log (crun (flat_map (fun _ => [0; 1; 2; 0]%nat) (repeat tt 100)) (linit LE conc_handle 3 lc_turns lc_workers lc_heap))) =
    [(2%nat, Some (verdict1_message LE 8 1 200 [96; 1; 2; 3]));
     (1%nat, Some (verdict1_message LE 8 1 100 [69; 0; 0; 5; 17; 0; 0; 0]));
     (1%nat, Some (verdict1_message LE 8 0 101 [69; 0; 0; 5; 17; 0; 0; 0]));
     (0%nat, Some (verdict2_message LE 8 1 5 300 [69; 1; 2; 3]));
     (0%nat, Some (verdict1_message LE 8 0 301 [70; 4; 5; 6]))].
Proof.
  split; [|split].
  - constructor.
    + split; [vm_compute; lia|reflexivity].
    + vm_compute. split; [discriminate|reflexivity].
    + split; [vm_compute; lia|discriminate].
    + intros t [<-|[<-|[]]]; vm_compute; lia.
    + intros t c [<-|[<-|[]]] [<-|[]]; apply lc_delivered; cbn [tn_data length]; auto; unfold is_u32; lia.
    + intros t c c' [<-|[<-|[]]] [<-|[]] [<-|[]]; right; left; cbn; lia.
    + repeat (apply Forall_cons; [|]); try apply Forall_nil; unfold vcall_ok, valid, is_u32;
        cbn [v_pkt v_mark v_verdict v_id pkt1 pkt2 s_arr s_off s_len s_cap conc_handle h_hdr];
        (split; [vm_compute; lia|]); (split; [discriminate|]); repeat split; try lia.
    + intros cs c [<-|[<-|[]]] J; cbn in J; intuition (subst; discriminate).
    + intros i j ci cj c c' NE Hi Hj I J. destruct i as [|[|i]], j as [|[|j]]; try congruence;
        try (destruct i; discriminate); try (destruct j; discriminate);
        injection Hi as <-; injection Hj as <-; left; cbn in I, J;
        intuition (subst; discriminate).
    + intros ci c c' I J K. destruct I as [<-|[<-|[]]]; cbn in J, K;
        intuition (subst; right; left; cbn; lia).
  - intros [|[|[|i]]] ci c H J NN; [reflexivity| | |destruct i; discriminate];
      injection H as <-; cbn in J; intuition (subst; now contradiction NN).
  - vm_compute. reflexivity.
Qed.
Example C78_race_met :
  delivered lc_heap conc_handle 3 [16; 0; 69; 1; 2; 3] (mkV None 1 300 lc_pkt) /\
  delivered lc_heap conc_handle 3 [16; 0; 70; 4; 5; 6; 7] (mkV None 1 300 lc_pkt) /\
  rd (hold lc_heap 3 [16; 0; 69; 1; 2; 3]) lc_pkt <> rd (hold lc_heap 3 [16; 0; 70; 4; 5; 6; 7]) lc_pkt.
Proof.
  split; [|split]; [apply lc_delivered; cbn [length]; auto; unfold is_u32; lia..|vm_compute; discriminate].
Qed.
