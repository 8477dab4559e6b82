(** Log messages on a FIFO socket: C84. *)
From Verif Require Import Proof.LogFifo Spec.Samples Properties.P_NfLog Properties.P_LogExact Properties.P_Fifo.

(** A process subscribes to groups and runs the reader on a FIFO socket; the first
    datagrams on the socket are the answers to the set-up requests (two per
    group) and every later one, at most 65536 bytes long, is one the reader gets
    through (C27).  Then, for every number of turns and wherever the run stops:
    the datagrams that arrived are those whose packets the callback was shown -
    each exactly once, in the order they arrived - followed by those still
    waiting; the reader does not crash; and n turns handle at least n of the
    datagrams that were waiting when it started. *)
Theorem C84_each_log_once_in_order_partial :
  forall m fuel n groups psz hi e q w0 w,
  (Z.to_nat 65536 < fuel)%nat -> bytes_env e ->
  Forall is_u16 groups -> is_u32 psz -> replies_within 20 hi e -> fifo_socket q e -> w_tr w0 = [] ->
  BindAndListenForLogs m groups psz true true e w0 = (Ok None, w) ->
  (forall h, Forall (fun d => exists ps, log_shows d ps) (skipn (2 * length groups) (q h))) ->
  let w' := snd (ReadLogs n fuel e w) in let res := fst (ReadLogs n fuel e w) in
  taken (w_tr w) = (2 * length groups)%nat /\
  exists delivered pss,
    skipn (2 * length groups) (q (w_tr w')) = delivered ++ waiting q (w_tr w') /\
    Forall2 log_shows delivered pss /\ Forall2 shows_log (log_calls (w_tr w')) (concat pss) /\
    res <> Panic /\ (res = NoFuel -> (Nat.min n (length (waiting q (w_tr w))) <= length delivered)%nat).
Proof. intros m fuel n groups psz hi e q w0 w. apply log_fifo. Qed.
Print Assumptions C84_each_log_once_in_order_partial.

Notation log_setup script :=
  (BindAndListenForLogs LE [10; 20] 64 true true (script_kernel 0 script) (mkW (mkL false false None) [] [])).
Notation log_run n script := (ReadLogs n (Z.to_nat 65537) (script_kernel 0 script) (snd (log_setup script))).
Definition late_logs : list (list bytes) := [[]; [ack]; [ack]; [ack]; [ack; log_message1; sample_datagram]].
Definition early_logs : list (list bytes) := [[]; [ack]; [ack; log_message1]; [ack]; [ack; log_message1]].

Definition all_ok (script : list (list bytes)) := Forall (Forall (fun d => is_bytes d /\ 20 <= zlen d < 76800)) script.
Ltac all_tac := repeat (apply Forall_cons || apply Forall_nil); (split; [bytes_tac|vm_compute; split; congruence]).
Lemma late_logs_ok : all_ok late_logs.
Proof. unfold all_ok, late_logs, sample_datagram, log_message1, log_message2, log_done, udp29, tcp40. all_tac. Qed.
Lemma message1_shows : log_shows log_message1 [([102;119], udp29 ++ [0;0;0], udp29)].
Proof.
  split; [vm_compute; discriminate|]. left.
  eapply le_packet' with (ps := [([102;119], udp29 ++ [0;0;0], udp29)]) (ps' := []) (rest := []);
    [cbn; lia|reflexivity|vm_compute; intuition congruence| reflexivity | reflexivity | |constructor|reflexivity].
  eapply ae_other'; [vm_compute; lia|vm_compute; discriminate|vm_compute; discriminate|vm_compute; reflexivity|].
  eapply ae_prefix'; [vm_compute; lia|reflexivity|vm_compute; intuition congruence|vm_compute; reflexivity|vm_compute; reflexivity|].
  eapply ae_payload'; [vm_compute; lia|reflexivity|vm_compute; reflexivity|vm_compute; reflexivity|vm_compute; reflexivity|constructor].
Qed.
Lemma datagram_shows : exists ps, length ps = 2%nat /\ log_shows sample_datagram ps.
Proof.
  eexists. split; [|split; [vm_compute; discriminate|left; exact (proj1 C27_outcome_case)]]. reflexivity.
Qed.
(** The hypotheses are met: three packets shown *)
Example C84_hypotheses_met :
  bytes_env (script_kernel 0 late_logs) /\ replies_within 20 76800 (script_kernel 0 late_logs) /\
  fifo_socket (script_queue late_logs) (script_kernel 0 late_logs) /\ fst (log_setup late_logs) = Ok None /\
  (forall h, Forall (fun d => exists ps, log_shows d ps) (skipn 4 (script_queue late_logs h))) /\
  fst (log_run 9 late_logs) = Ok tt /\ length (log_calls (w_tr (snd (log_run 9 late_logs)))) = 3%nat.
Proof.
  split; [|split; [|split; [|split; [|split; [|split]]]]].
  - apply script_bytes. eapply Forall_impl; [|exact late_logs_ok]. intros l. apply Forall_impl. now intros d [].
  - apply script_within. exact late_logs_ok.
  - apply script_fifo.
  - vm_compute. reflexivity.
  - intros h. unfold script_queue. destruct (sends h) as [|[|[|[|k]]]].
    1-4: constructor.
    rewrite firstn_all2 by (cbn; lia). constructor; [eexists; exact message1_shows|].
    constructor; [destruct datagram_shows as (ps & _ & S); exists ps; exact S|constructor].
  - vm_compute. reflexivity.
  - vm_compute. reflexivity.
Qed.

(** It is false when a log message arrives between the first group's binding and
    the end of the set-up (the kernel sends them from the binding on): the set-up
    takes it for the answer to its next request.  The packet is never shown. *)
Theorem C84_log_during_setup_lost_refuted :
  let e := script_kernel 0 early_logs in let q := script_queue early_logs in let w' := snd (log_run 9 early_logs) in
  fifo_socket q e /\ (exists ps, log_shows log_message1 ps) /\ fst (log_setup early_logs) = Ok None /\ fst (log_run 9 early_logs) = Ok tt /\
  q (w_tr w') = [ack; ack; log_message1; ack; ack; log_message1] /\ waiting q (w_tr w') = [] /\
  length (log_calls (w_tr w')) = 1%nat.
Proof.
  cbv zeta. split; [apply script_fifo|]. split; [eexists; exact message1_shows|].
  split; [vm_compute; reflexivity|]. split; [vm_compute; reflexivity|]. split; [vm_compute; reflexivity|].
  split; vm_compute; reflexivity.
Qed.
Print Assumptions C84_log_during_setup_lost_refuted.
(** Worse: the kernel refuses the copy mode of the second group; the refusal is
    then read by the reader, which skips it.  Set-up returns success and no error
    is ever reported (but that of the receive that ends the run). *)
Definition refused_logs : list (list bytes) := [[]; [ack]; [ack; log_message1]; [ack]; [eperm]].
Theorem C84_refusal_unreported_refuted :
  let e := script_kernel 0 refused_logs in let q := script_queue refused_logs in let w' := snd (log_run 9 refused_logs) in
  fifo_socket q e /\ fst (log_setup refused_logs) = Ok None /\ fst (log_run 9 refused_logs) = Ok tt /\
  q (w_tr w') = [ack; ack; log_message1; ack; eperm] /\ waiting q (w_tr w') = [] /\
  log_calls (w_tr w') = [] /\
  map fst (filter (fun ev => match fst ev with KErrCb _ _ => true | _ => false end) (w_tr w')) = [KErrCb (EWrapped 8 (ESys 11)) IfaceNil].
Proof.
  cbv zeta. split; [apply script_fifo|].
  split; [vm_compute; reflexivity|]. split; [vm_compute; reflexivity|]. split; [vm_compute; reflexivity|].
  split; [vm_compute; reflexivity|]. split; vm_compute; reflexivity.
Qed.
Print Assumptions C84_refusal_unreported_refuted.
