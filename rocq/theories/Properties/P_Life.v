(** The life of a queue's socket: C61, C62. *)
From Verif Require Import Proof.Lifecycle Spec.Samples Properties.P_Config Properties.P_Loop.

(** ** C61 *)
(** With callbacks that do not stop the queue: whatever the kernel does, whatever
    the callbacks do, the loop uses no other socket, closes its own exactly once,
    as its last action, when the context is cancelled, and otherwise never. *)
Theorem C61_closed_once_partial : forall n fuel m grow e w fd buf cb res w',
  q_handle (w_st w) = Some (mkSock fd buf) -> q_cb (w_st w) = Some cb -> never_stops cb ->
  ProcessPackets n fuel m grow e w = (res, w') ->
  exists evs, w_tr w' = w_tr w ++ evs /\
    closes fd evs = (match res with Ok _ => 1 | _ => 0 end)%nat /\
    never_used_after_close fd evs /\
    (forall ev, In ev evs -> works_on (fst ev) = None \/ works_on (fst ev) = Some fd).
Proof.
  intros n fuel m grow e w fd buf cb res w' H C NS E.
  destruct (loop_closes_once fd cb NS fuel m grow n e w res w' ltac:(split; eauto) E) as (evs & last & T & F & L).
  exists (evs ++ last). split; [exact T|]. rewrite closes_app, (on_socket_closes fd evs F).
  assert (ON : forall ev, In ev evs -> works_on (fst ev) = None \/ works_on (fst ev) = Some fd).
  { intros ev Hin. rewrite Forall_forall in F. specialize (F ev Hin). destruct ev as [c r]. destruct c; cbn in F |- *; tauto. }
  destruct res as [[]| |].
  - destruct L as (r & ->). split; [unfold closes; cbn [filter fst length]; rewrite Z.eqb_refl; reflexivity|].
    split; [now apply once_at_end|]. intros ev Hin. apply in_app_or in Hin as [Hin|[<-|[]]]; [auto|right; reflexivity].
  - subst last. rewrite app_nil_r. split; [reflexivity|]. split; [|exact ON].
    intros before r after ->. exfalso. apply Forall_app in F as (_ & F). inversion F as [|? ? X _]; subst. exact X.
  - subst last. rewrite app_nil_r. split; [reflexivity|]. split; [|exact ON].
    intros before r after ->. exfalso. apply Forall_app in F as (_ & F). inversion F as [|? ? X _]; subst. exact X.
Qed.
Print Assumptions C61_closed_once_partial.

(** Start to finish: set-up followed by a cancelled loop leaves no descriptor open. *)
Theorem C61_start_to_finish_partial : forall m queueID maxp psz cb ecb pd n fuel grow e w0 w w' acc,
  is_u16 queueID -> is_u32 maxp -> is_u32 psz -> replies_within 20 76800 e -> never_stops cb ->
  CreateAndStartNfQueue m queueID maxp psz (Some cb) ecb pd e w0 = (Ok None, w) ->
  ProcessPackets n fuel m grow e w = (Ok tt, w') ->
  exists new, w_tr w' = w_tr w0 ++ new /\ left_open acc new = acc.
Proof.
  intros m queueID maxp psz cb ecb pd n fuel grow e w0 w w' acc A1 A2 A3 RW NS ST PP.
  destruct (CreateAndStart_run m queueID maxp psz (Some cb) ecb pd e w0 A1 A2 A3 RW) as (err & w1 & new & E & T & O & X).
  rewrite ST in E. injection E as <- <-. destruct (X eq_refl) as (fd & evs & rest & -> & OP & (buf & HB & _) & _ & C & _).
  destruct (loop_closes_once fd cb NS fuel m grow n e w _ w' ltac:(split; eauto) PP) as (ev2 & last & T2 & F & r & ->).
  exists ((evs ++ rest) ++ ev2 ++ [(KClose fd, r)]). rewrite T2, T, <- !app_assoc. split; [reflexivity|].
  rewrite app_assoc, left_open_app, (on_socket_left fd ev2 F).
  inversion O as [|f3 ev3 reqs r3 OP3 RQ EV|?|?]; subst.
  assert (f3 = fd).
  { destruct OP as (rs & rb & r1 & r2 & r3' & r4 & _ & <- & _ & ->).
    destruct OP3 as (ss & sb & s1 & s2 & s3 & s4 & _ & <- & _ & ->).
    cbn [app] in EV. injection EV as -> _. reflexivity. }
  subst f3. rewrite !left_open_app, (opens_left_open _ _ _ OP3), (ran_left_open _ _ _ _ _ _ _ _ RQ).
  cbn [left_open]. apply remove_fd_head.
Qed.
Print Assumptions C61_start_to_finish_partial.

(** Refuted once StopQueue is used: it closes the socket but leaves it in the
    handle; the loop then works on the closed number - it receives from it and,
    when the context is cancelled, closes it again.  For every kernel that
    acknowledges the destroy request. *)
Theorem C61_closed_once_refuted : forall m e w fd n fuel grow w1,
  is_u16 (q_num (w_st w)) -> open_handle w fd -> replies_within 20 76800 e ->
  StopQueue m e w = (Ok None, w1) ->
  exists r0 req, w_tr w1 = w_tr w ++ req ++ [(KClose fd, r0)] /\
  (r_flag (e (w_tr w1) KCtxDone) = true ->
     exists w2 rc rd, ProcessPackets (S n) fuel m grow e w1 = (Ok tt, w2) /\
       w_tr w2 = w_tr w ++ (req ++ [(KClose fd, r0)]) ++ [(KCtxDone, rc); (KClose fd, rd)] /\
       closes fd ((req ++ [(KClose fd, r0)]) ++ [(KCtxDone, rc); (KClose fd, rd)]) = 2%nat) /\
  (r_flag (e (w_tr w1) KCtxDone) = false ->
     exists res w2 rc rx rest, ProcessPackets (S n) fuel m grow e w1 = (res, w2) /\
       w_tr w2 = w_tr w ++ (req ++ [(KClose fd, r0)]) ++ (KCtxDone, rc) :: (KRecvfrom fd 76800 256, rx) :: rest).
Proof.
  intros m e w fd n fuel grow w1 N OH RW ST.
  destruct (stop_outcome m e w fd N OH RW) as (err & w' & req & b & E & _ & RQ & T & S).
  rewrite ST in E. injection E as <- <-. destruct T as (r0 & T). exists r0, req. split; [exact T|].
  pose proof OH as (buf & HB & QB & _ & LB & _). rewrite <- S in HB, QB.
  assert (CQ : closes fd req = 0%nat).
  { destruct RQ as [(r1 & en & _ & -> & _)|(r1 & r2 & _ & -> & _)]; reflexivity. }
  split; intros FL; cbn [ProcessPackets]; unfold mbind at 1, do_call at 1; rewrite FL.
  - unfold NfqClose, mbind, get_st. cbn [w_st]. rewrite HB. unfold do_call, ret. eexists _, _, _. split; [reflexivity|].
    cbn [w_tr k_fd]. rewrite T, <- !app_assoc. split; [reflexivity|].
    rewrite !closes_app, CQ. unfold closes. cbn [filter fst length]. rewrite Z.eqb_refl. reflexivity.
  - set (w0 := mkW _ _ _).
    destruct (loop_starts_receiving n fuel m grow e w0 fd buf HB) as (rx & rest & X).
    destruct ((let! _ := process_one fuel m grow in ProcessPackets n fuel m grow) e w0) as [res w2] eqn:E2.
    cbn [snd] in X. exists res, w2, (e (w_tr w1) KCtxDone), rx, rest. split; [reflexivity|].
    rewrite X. cbn [w0 w_tr w_st]. rewrite QB, T, <- !app_assoc. rewrite LB. reflexivity.
Qed.
Print Assumptions C61_closed_once_refuted.

(** ** C62 *)
(** What StopQueue does, for every kernel: it asks for the queue to be destroyed;
    it reports nil exactly when the kernel acknowledged, and in that case the
    socket is closed straight afterwards and nothing is left open; otherwise the
    error is the kernel's and the socket stays as it was (that part is the
    finding below: the English claim wants it closed). *)
Theorem C62_stop_outcome_partial : forall m e w fd,
  is_u16 (q_num (w_st w)) -> open_handle w fd -> replies_within 20 76800 e ->
  exists err w' req b new,
    StopQueue m e w = (Ok err, w') /\ w_tr w' = w_tr w ++ new /\
    read_message m b = Some (cfg_message CfgDestroy (q_num (w_st w))) /\
    one_request m fd 76800 b req err /\
    match err with
    | None => (exists r, new = req ++ [(KClose fd, r)]) /\ forall acc, left_open (fd :: acc) new = acc
    | Some _ => new = req /\ forall acc, left_open acc new = acc
    end.
Proof.
  intros m e w fd N OH RW. destruct (stop_outcome m e w fd N OH RW) as (err & w' & req & b & E & RM & RQ & T & S).
  assert (LO : forall acc l, left_open acc (req ++ l) = left_open acc l).
  { intros acc l. destruct RQ as [(r1 & en & _ & -> & _)|(r1 & r2 & _ & -> & _)]; reflexivity. }
  destruct err as [er|].
  - exists (Some er), w', req, b, req. repeat (split; [assumption|]). split; [reflexivity|]. intros acc.
    rewrite <- (app_nil_r req), LO. reflexivity.
  - destruct T as (r & T). exists None, w', req, b, (req ++ [(KClose fd, r)]). repeat (split; [assumption|]).
    split; [eauto|]. intros acc. rewrite LO. cbn [left_open]. apply remove_fd_head.
Qed.
Print Assumptions C62_stop_outcome_partial.
(** Refuted: a kernel that refuses to destroy the queue leaves the socket open. *)
Theorem C62_stop_closes_refuted :
  exists e er, let run := StopQueue LE e sample_world in
    fst run = Ok (Some er) /\ left_open [7] (w_tr (snd run)) = [7] /\ closes 7 (w_tr (snd run)) = 0%nat.
Proof. exists (kernel_acks_first 0). eexists. cbv zeta. vm_compute. split; [reflexivity|split; reflexivity]. Qed.
Print Assumptions C62_stop_closes_refuted.

Lemma stop_facts : let r := StopQueue LE kernel_acks sample_world in
  fst r = Ok None /\ map call_name (w_tr (snd r)) = [5; 6; 7].
Proof. vm_compute. split; reflexivity. Qed.
(** both outcomes of [C62_stop_outcome_partial]: the kernel acknowledges, or refuses *)
Example C62_hypotheses_met :
  is_u16 (q_num (w_st sample_world)) /\ open_handle sample_world 7 /\
  replies_within 20 76800 kernel_acks /\ replies_within 20 76800 (kernel_acks_first 0) /\
  fst (StopQueue LE kernel_acks sample_world) = Ok None /\
  map call_name (w_tr (snd (StopQueue LE kernel_acks sample_world))) = [5; 6; 7] /\
  map call_name (w_tr (snd (StopQueue LE (kernel_acks_first 0) sample_world))) = [5; 6].
Proof.
  split; [unfold is_u16; cbn; lia|]. split; [exact sample_world_open|].
  split; [apply kernel_acks_within; lia|]. split; [apply kernel_acks_first_within; lia|].
  split; [exact (proj1 stop_facts)|]. split; [exact (proj2 stop_facts)|vm_compute; reflexivity].
Qed.

(** the hypotheses are met: the sample queue is stopped, and then its loop runs *)
Example C61_hypotheses_met :
  open_handle sample_world 7 /\ replies_within 20 76800 kernel_acks /\
  fst (StopQueue LE kernel_acks sample_world) = Ok None /\
  map call_name (w_tr (snd (StopQueue LE kernel_acks sample_world))) = [5; 6; 7] /\
  never_stops (guarded accept_all).
Proof.
  split; [exact sample_world_open|]. split; [apply kernel_acks_within; lia|].
  split; [exact (proj1 stop_facts)|]. split; [exact (proj2 stop_facts)|].
  intros tr h pkt pd. unfold guarded. destruct (_ =? _)%nat; [exact (fun H => H)|]. unfold releasing.
  cbn [accept_all]. intros [H|[]]. discriminate H.
Qed.
(** and so are those of the other two: a packet is delivered, answered, and the context then cancelled *)
Example C61_run_met :
  let ds := [Some marked_packet] in
  CreateAndStartNfQueue LE 42 100 65535 (Some (guarded accept_all)) true 5 (kernel_delivers ds) blank =
    (Ok None, started (guarded accept_all) true ds) /\
  replies_within 20 76800 (kernel_delivers ds) /\ fst (run 3 (guarded accept_all) true ds) = Ok tt.
Proof.
  intros ds. destruct (sample_hyps (guarded accept_all) ds) as (A & B & C); [unfold ds; sample_bytes|].
  split; [exact C|]. split; [exact B|]. vm_compute. reflexivity.
Qed.
