(** The socket as a queue: C81, C82. *)
From Verif Require Import Proof.Fifo Spec.Samples Properties.P_Loop.

(** ** C81 *)
(** A process sets up a queue and runs the packet loop on a FIFO socket; the first
    five datagrams on the socket are the answers to the five set-up requests and
    all later ones are packets; the callback follows the rules and does not stop
    the queue.  Then, for every number of turns and wherever the run stops: the
    packets that arrived are those the callback was shown - each exactly once, in
    the order they arrived, with their own id, mark and payload - followed by
    those still waiting on the socket; the loop does not crash; and n turns show
    at least n of the packets that were waiting when the loop started. *)
Theorem C81_each_packet_once_in_order_partial :
  forall m fuel grow n queueID maxp psz cb pd e q w0 w res w',
  (Z.to_nat 19201 < fuel)%nat -> bytes_env e -> well_behaved e cb -> never_stops cb ->
  is_u16 queueID -> is_u32 maxp -> is_u32 psz -> replies_within 20 76800 e ->
  fifo_socket q e -> w_tr w0 = [] ->
  CreateAndStartNfQueue m queueID maxp psz (Some cb) true pd e w0 = (Ok None, w) ->
  (forall h, Forall (a_packet m) (skipn 5 (q h))) ->
  ProcessPackets n fuel m grow e w = (res, w') ->
  taken (w_tr w) = 5%nat /\
  exists delivered,
    skipn 5 (q (w_tr w')) = delivered ++ waiting q (w_tr w') /\
    Forall2 (is_of m) (shown (w_tr w')) delivered /\
    res <> Panic /\
    (res = NoFuel -> (Nat.min n (length (waiting q (w_tr w))) <= length delivered)%nat).
Proof.
  intros m fuel grow n queueID maxp psz cb pd e q w0 w res w' HF HB WB NS A1 A2 A3 RW FS T0 ST PK PP.
  destruct (started_ready m queueID maxp psz (Some cb) true pd e w0 w A1 A2 A3 RW ST)
    as (fd & priv & op & rest & TR & O & F & N & C & D & E).
  destruct (CreateAndStart_run m queueID maxp psz (Some cb) true pd e w0 A1 A2 A3 RW) as (err & w1 & new & R1 & R2 & R3 & _).
  rewrite ST in R1. injection R1 as <- <-. rewrite T0 in R2. cbn [app] in R2.
  destruct (start_taken _ _ _ _ _ R3) as [K1 K2].
  assert (TK : taken (w_tr w) = 5%nat) by (rewrite R2; exact K1).
  assert (TL : (taken (w_tr w) <= length (q (w_tr w)))%nat).
  { destruct (answers_start m queueID maxp psz (Some cb) true pd e w0) as (rs & S1 & S2).
    rewrite ST in S1. cbn [snd] in S1. rewrite S1. apply (taken_bounded q e FS rs (w_tr w0) S2).
    rewrite T0. cbn. lia. }
  split; [exact TK|].
  destruct (fifo_loop m fuel grow e fd pd priv cb q HF HB (WB priv) NS FS n w res w')
    as (evs & del & J1 & J2 & J3 & J4 & J5); auto.
  - eapply started_inv; eauto.
  - apply F.
  - intros h. rewrite TK. apply PK.
  - exists del. rewrite TK in J2. split; [exact J2|]. split; [|auto].
    rewrite J1, shown_app, R2, K2. exact J3.
Qed.
Print Assumptions C81_each_packet_once_in_order_partial.

Definition ack : bytes := nlmsg_error [0; 0; 0; 0].
Definition eperm : bytes := nlmsg_error [255; 255; 255; 255].
(** all packets arrive after the last set-up answer *)
Definition late_script : list (list bytes) :=
  [[]; [ack]; [ack]; [ack]; [ack]; [ack; marked_packet; unmarked_packet]].
Lemma script_bytes stop script : Forall (Forall is_bytes) script -> bytes_env (script_kernel stop script).
Proof.
  intros H tr fd n fl. cbn. destruct (nth_error _ _) as [d|] eqn:E; [|constructor]. cbn.
  apply nth_error_In in E. unfold script_queue in E. apply in_concat in E as (l & L1 & L2).
  rewrite Forall_forall in H.
  assert (In l script) by (rewrite <- (firstn_skipn (S (sends tr)) script); apply in_or_app; auto).
  specialize (H l H0). rewrite Forall_forall in H. auto.
Qed.
Lemma script_within stop script :
  Forall (Forall (fun d => is_bytes d /\ 20 <= zlen d < 76800)) script -> replies_within 20 76800 (script_kernel stop script).
Proof.
  intros H tr0 b r1 fd n. remember (tr0 ++ _) as tr eqn:Htr. cbn. destruct (nth_error _ _) as [d|] eqn:E; [|discriminate]. cbn. intros _.
  apply nth_error_In in E. unfold script_queue in E. apply in_concat in E as (l & L1 & L2).
  rewrite Forall_forall in H.
  assert (In l script) by (rewrite <- (firstn_skipn (S (sends tr)) script); apply in_or_app; auto).
  specialize (H l H0). rewrite Forall_forall in H. auto.
Qed.
Lemma script_data (P : bytes -> Prop) script : Forall (Forall P) script -> forall h, Forall P (script_queue script h).
Proof.
  intros H h. apply Forall_forall. intros d E. unfold script_queue in E. apply in_concat in E as (l & L1 & L2).
  rewrite Forall_forall in H.
  assert (HI : In l script) by (rewrite <- (firstn_skipn (S (sends h)) script); apply in_or_app; auto).
  specialize (H l HI). rewrite Forall_forall in H. auto.
Qed.
Lemma marked_a_packet : a_packet LE marked_packet.
Proof.
  split; [apply whole_sample|]. destruct marked_is_packet as (l & A & B & _ & C). eexists l, _, _. eauto.
Qed.
Lemma unmarked_a_packet : a_packet LE unmarked_packet.
Proof.
  split; [apply whole_sample|]. eexists _, _, _. split; [|split].
  - split; [bytes_tac|]. split; [vm_compute; lia|]. split; [vm_compute; discriminate|]. split; reflexivity.
  - eexists. split; [reflexivity|]. split; [vm_compute; lia|reflexivity].
  - reflexivity.
Qed.
Definition within_ok (d : bytes) : Prop := is_bytes d /\ 20 <= zlen d < 76800.
Ltac within_tac := split; [bytes_tac|vm_compute; split; congruence].
Lemma late_ok : Forall (Forall within_ok) late_script.
Proof. unfold late_script. repeat (apply Forall_cons || apply Forall_nil); within_tac. Qed.
Lemma guarded_never_stops choose : never_stops (guarded choose).
Proof.
  intros tr h pkt pd. unfold guarded, releasing. destruct (_ =? _)%nat; [intros []|].
  destruct (choose _ _ _). intros [X|[]]. discriminate.
Qed.
(** The hypotheses are met, and the run shows the two packets and closes. *)
Notation scripted_start stop script :=
  (CreateAndStartNfQueue LE 42 100 65535 (Some (guarded accept_all)) true 5 (script_kernel stop script) blank).
Notation scripted_run n stop script :=
  (ProcessPackets n (Z.to_nat 19202) LE (fun _ k => k) (script_kernel stop script) (snd (scripted_start stop script))).
Notation loops n stop script w := (ProcessPackets n (Z.to_nat 19202) LE (fun _ k => k) (script_kernel stop script) w).
(** no code: one computation for all that the example says of its run *)
Lemma late_facts : let s := scripted_start 4 late_script in let r := loops 9 4 late_script (snd s) in
  fst s = Ok None /\ fst r = Ok tt /\ shown (w_tr (snd r)) = [(258, 263, [69; 0; 0; 5; 17]); (259, 517, [70; 1; 1; 6; 18])].
Proof. vm_compute. split; [reflexivity|split; reflexivity]. Qed.
Example C81_hypotheses_met :
  bytes_env (script_kernel 4 late_script) /\ well_behaved (script_kernel 4 late_script) (guarded accept_all) /\
  never_stops (guarded accept_all) /\ replies_within 20 76800 (script_kernel 4 late_script) /\
  fifo_socket (script_queue late_script) (script_kernel 4 late_script) /\
  fst (scripted_start 4 late_script) = Ok None /\
  (forall h, Forall (a_packet LE) (skipn 5 (script_queue late_script h))) /\
  fst (scripted_run 9 4 late_script) = Ok tt /\
  shown (w_tr (snd (scripted_run 9 4 late_script))) =
    [(258, 263, [69; 0; 0; 5; 17]); (259, 517, [70; 1; 1; 6; 18])].
Proof.
  pose proof late_facts as F. cbv zeta in F. destruct F as (F1 & F2 & F3).
  split; [|split; [|split; [|split; [|split; [|split; [|split; [|split]]]]]]].
  - apply script_bytes. eapply Forall_impl; [|exact late_ok]. intros l. apply Forall_impl. now intros d [].
  - apply guarded_well_behaved.
  - apply guarded_never_stops.
  - apply script_within. exact late_ok.
  - apply script_fifo.
  - exact F1.
  - intros h. unfold script_queue. destruct (sends h) as [|[|[|[|[|k]]]]].
    1-5: constructor.
    rewrite firstn_all2 by (cbn; lia). constructor; [exact marked_a_packet|].
    constructor; [exact unmarked_a_packet|constructor].
  - exact F2.
  - exact F3.
Qed.

(** It is false when a packet arrives between the creation of the queue and the
    end of the set-up - the kernel queues packets from the creation on.  Set-up
    takes the packet for the answer to its next request: it reports success, the
    packet is never shown to the callback and never gets a verdict, and the real
    answer is later reported to the error callback as a malformed packet. *)
Definition early_script : list (list bytes) :=
  [[]; [ack]; [ack]; [ack; marked_packet]; [ack]; [ack; unmarked_packet]].
Lemma early_facts : let s := scripted_start 4 early_script in let r := loops 9 4 early_script (snd s) in
  let q := script_queue early_script in
  fst s = Ok None /\ fst r = Ok tt /\
  q (w_tr (snd r)) = [ack; ack; ack; marked_packet; ack; ack; unmarked_packet] /\ waiting q (w_tr (snd r)) = [] /\
  map fst (shown (w_tr (snd r))) = [(259, 0)] /\
  filter (fun ev => match fst ev with KErrCb EBadAttr _ => true | _ => false end) (w_tr (snd r)) <> [] /\
  length (filter (fun ev => match fst ev with KSendmsg _ _ => true | _ => false end) (w_tr (snd r))) = 1%nat.
Proof. vm_compute. do 5 (split; [reflexivity|]). split; [discriminate|reflexivity]. Qed.
Theorem C81_packet_during_setup_lost_refuted :
  let e := script_kernel 4 early_script in let q := script_queue early_script in
  let w' := snd (scripted_run 9 4 early_script) in
  fifo_socket q e /\ a_packet LE marked_packet /\
  fst (scripted_start 4 early_script) = Ok None /\ fst (scripted_run 9 4 early_script) = Ok tt /\
  q (w_tr w') = [ack; ack; ack; marked_packet; ack; ack; unmarked_packet] /\ waiting q (w_tr w') = [] /\
  map fst (shown (w_tr w')) = [(259, 0)] /\
  filter (fun ev => match fst ev with KErrCb EBadAttr _ => true | _ => false end) (w_tr w') <> [] /\
  length (filter (fun ev => match fst ev with KSendmsg _ _ => true | _ => false end) (w_tr w')) = 1%nat.
Proof.
  pose proof early_facts as F. cbv zeta in F |- *. split; [apply script_fifo|]. split; [exact marked_a_packet|]. exact F.
Qed.
Print Assumptions C81_packet_during_setup_lost_refuted.

(** ** C82 *)
(** On a FIFO socket with nothing waiting, every configuration call returns nil
    exactly when the kernel's answer to it is an acknowledgement, and otherwise
    the kernel's code. *)
Theorem C82_result_is_the_kernels_answer_partial : forall m c e w fd q reply,
  cfg_args_ok c -> is_u16 (q_num (w_st w)) -> open_handle w fd -> replies_within 20 76800 e ->
  fifo_socket q e -> taken (w_tr w) = length (q (w_tr w)) ->
  (forall b, r_err (e (w_tr w) (KSendto fd b 0)) = None) ->
  (forall b, q (w_tr w ++ [(KSendto fd b 0, e (w_tr w) (KSendto fd b 0))]) = q (w_tr w) ++ [reply]) ->
  exists w', cfg_run m c e w =
    (Ok (if reply_code m reply =? 0 then None else Some (ENetlink (reply_code m reply))), w').
Proof. exact request_on_fifo. Qed.
Print Assumptions C82_result_is_the_kernels_answer_partial.

(** It is false when a packet is waiting: the packet is taken for the answer.
    Here the kernel refuses to destroy the queue (EPERM), but a packet arrived
    first: StopQueue returns nil and closes the socket; the refusal is never
    read. *)
Definition refused_script : list (list bytes) :=
  [[]; [ack]; [ack]; [ack]; [ack]; [ack; marked_packet]; [eperm]].
Lemma refused_facts : let s := scripted_start 4 refused_script in let r := StopQueue LE (script_kernel 4 refused_script) (snd s) in
  let q := script_queue refused_script in
  fst s = Ok None /\ waiting q (w_tr (snd s)) = [marked_packet] /\
  fst r = Ok None /\ waiting q (w_tr (snd r)) = [eperm] /\ reply_code LE eperm = -1 /\
  w_tr (snd r) <> [] /\
  match last (w_tr (snd r)) (KGo, mkResp None 0 [] true) with (KClose _, _) => True | _ => False end.
Proof. vm_compute. do 5 (split; [reflexivity|]). split; [discriminate|exact Logic.I]. Qed.
Theorem C82_refused_request_reported_as_done_refuted :
  let e := script_kernel 4 refused_script in let q := script_queue refused_script in
  let w := snd (scripted_start 4 refused_script) in
  let r := StopQueue LE e w in
  fifo_socket q e /\ fst (scripted_start 4 refused_script) = Ok None /\
  waiting q (w_tr w) = [marked_packet] /\
  fst r = Ok None /\ waiting q (w_tr (snd r)) = [eperm] /\ reply_code LE eperm = -1 /\
  (exists fd rr tr, w_tr (snd r) = tr ++ [(KClose fd, rr)]).
Proof.
  pose proof refused_facts as F. cbv zeta in F |- *. destruct F as (F1 & F2 & F3 & F4 & F5 & F6 & F7).
  split; [apply script_fifo|]. split; [exact F1|]. split; [exact F2|]. split; [exact F3|]. split; [exact F4|]. split; [exact F5|].
  apply (app_removelast_last (KGo, mkResp None 0 [] true)) in F6. revert F6 F7.
  match goal with |- ?t = _ -> _ => generalize t end. intros t F6 F7.
  assert (G : forall x : event, t = removelast t ++ [x] -> match x with (KClose _, _) => True | _ => False end ->
             exists fd rr tr, t = tr ++ [(KClose fd, rr)]).
  { intros [[] rr] A B; try contradiction. eexists _, _, _. exact A. }
  exact (G _ F6 F7).
Qed.
Print Assumptions C82_refused_request_reported_as_done_refuted.
(** with nothing waiting the same refusal is reported *)
Definition refusing_script : list (list bytes) := [[]; [ack]; [ack]; [ack]; [ack]; [ack]; [eperm]].
Lemma refusing_within : replies_within 20 76800 (script_kernel 4 refusing_script).
Proof. apply script_within. unfold refusing_script. repeat (apply Forall_cons || apply Forall_nil); within_tac. Qed.
Lemma refusing_facts : let s := scripted_start 4 refusing_script in
  fst s = Ok None /\ sends (w_tr (snd s)) = 5%nat /\ taken (w_tr (snd s)) = length (script_queue refusing_script (w_tr (snd s))) /\
  fst (cfg_run LE CfgDestroy (script_kernel 4 refusing_script) (snd s)) = Ok (Some (ENetlink (-1))).
Proof. vm_compute. do 3 (split; [reflexivity|]). reflexivity. Qed.
Lemma refusing_started : scripted_start 4 refusing_script = (Ok None, snd (scripted_start 4 refusing_script)).
Proof.
  pose proof refusing_facts as F. cbv zeta in F. destruct F as (X & _). revert X. 
  destruct (scripted_start 4 refusing_script) as [r w]. cbn [fst snd]. intros ->. reflexivity.
Qed.
Lemma refusing_sends : sends (w_tr (snd (scripted_start 4 refusing_script))) = 5%nat.
Proof. exact (proj1 (proj2 refusing_facts)). Qed.
Lemma open_of_started m a b c cb ecb pd e w w' :
  is_u16 a -> is_u32 b -> is_u32 c -> replies_within 20 76800 e ->
  CreateAndStartNfQueue m a b c cb ecb pd e w = (Ok None, w') -> exists fd, open_handle w' fd.
Proof.
  intros A1 A2 A3 RW ST.
  destruct (CreateAndStart_run m a b c cb ecb pd e w A1 A2 A3 RW) as (err & w1 & new & R1 & _ & _ & R4).
  rewrite ST in R1. injection R1 as <- <-. destruct (R4 eq_refl) as (fd & _ & _ & _ & _ & OH & _). eauto.
Qed.
Lemma refusing_open : exists fd, open_handle (snd (scripted_start 4 refusing_script)) fd.
Proof.
  refine (open_of_started LE 42 100 65535 (Some (guarded accept_all)) true 5 (script_kernel 4 refusing_script) blank
            (snd (scripted_start 4 refusing_script)) _ _ _ refusing_within _); [red; lia|red; lia|red; lia|].
  exact refusing_started.
Qed.
Example C82_hypotheses_met :
  let e := script_kernel 4 refusing_script in let q := script_queue refusing_script in
  let w := snd (scripted_start 4 refusing_script) in
  replies_within 20 76800 e /\ fifo_socket q e /\ taken (w_tr w) = length (q (w_tr w)) /\
  (exists fd, open_handle w fd /\
    (forall b, r_err (e (w_tr w) (KSendto fd b 0)) = None) /\
    (forall b, q (w_tr w ++ [(KSendto fd b 0, e (w_tr w) (KSendto fd b 0))]) = q (w_tr w) ++ [eperm])) /\
  fst (cfg_run LE CfgDestroy e w) = Ok (Some (ENetlink (-1))).
Proof.
  cbv zeta. split; [exact refusing_within|]. split; [apply script_fifo|].
  pose proof refusing_facts as F. cbv zeta in F. destruct F as (_ & _ & F3 & F4).
  split; [exact F3|]. split; [|exact F4].
  destruct refusing_open as [fd OH].
  exists fd. split; [exact OH|]. split; [reflexivity|].
  intros b. unfold script_queue. rewrite sends_app, refusing_sends. reflexivity.
Qed.
