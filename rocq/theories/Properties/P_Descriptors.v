(** The descriptors a handle operates on: C94, C95. *)
From Verif Require Import Proof.Descriptors Proof.NfqConfig Spec.NflogSpec Proof.NflogConfig Proof.Release Spec.Samples Properties.P_Config Properties.P_Loop.

Ltac own_call_tac :=
  lazymatch goal with
  | |- own _ _ _ NfqOpen => apply own_Open
  | |- own _ _ _ (UnbindPf _) => apply own_UnbindPf
  | |- own _ _ _ (BindPf _) => apply own_BindPf
  | |- own _ _ _ (CreateQueue _ _ _ _ _) => apply own_CreateQueue
  | |- own _ _ _ (NfqSetMode _ _ _) => apply own_SetMode
  | |- own _ _ _ (NfqSetQueueMaxLen _ _) => apply own_SetMax
  | |- own _ _ _ (NfqDestroyQueue _) => apply own_Destroy
  | |- own _ _ _ NfqClose => apply own_Close
  | |- own _ _ _ (StopQueue _) => apply own_Stop
  | |- own _ _ _ (SetVerdict _ _ _ _ _ _) => apply own_SetVerdict
  | |- own _ _ _ (SetVerdict2 _ _ _ _ _ _ _) => apply own_SetVerdict2
  | |- own _ _ _ (Recv _ _) => apply own_Recv
  | |- own _ _ _ (ProcessPackets _ _ _ _) => apply own_loop
  | |- own _ _ _ GetNotificationChannel => unfold GetNotificationChannel; repeat qstep
  | |- own _ _ _ NFlogOpen => apply own_lopen
  | |- own _ _ _ (NFlogUnbind _) => unfold NFlogUnbind; apply own_lcmd
  | |- own _ _ _ (NFlogBind _) => unfold NFlogBind; apply own_lcmd
  | |- own _ _ _ (NFlogBindGroup _ _ _ _) => apply own_lbind
  | |- own _ _ _ (NFlogSetMode _ _ _) => apply own_lmode
  | |- own _ _ _ (ReadLogs _ _) => apply own_logs
  | |- own _ _ _ NFlogClose => apply own_lclose
  end.
Lemma own_use p m grow k : own qsock p [] (use m grow k).
Proof.
  destruct k; cbn [use];
    lazymatch goal with
    | |- own _ _ _ (mbind _ _) => apply own_bind; [own_call_tac|intros ?; apply own_ret]
    | |- _ => own_call_tac
    end.
Qed.
Lemma own_log_use p m k : own lsockfd p [] (log_use m k).
Proof.
  destruct k; cbn [log_use];
    lazymatch goal with
    | |- own _ _ _ (mbind _ _) => apply own_bind; [own_call_tac|intros ?; apply own_ret]
    | |- _ => own_call_tac
    end.
Qed.
Lemma own_uses p m grow cs e : forall w, inv qsock p [] w -> inv qsock p [] (uses m grow cs e w).
Proof. induction cs as [|k cs IH]; intros w H; cbn [uses]; [exact H|]. apply IH, own_use, H. Qed.
Lemma own_log_uses p m cs e : forall w, inv lsockfd p [] w -> inv lsockfd p [] (log_uses m cs e w).
Proof. induction cs as [|k cs IH]; intros w H; cbn [log_uses]; [exact H|]. apply IH, own_log_use, H. Qed.
Lemma inv_start {S} (sk : S -> option Z) (w : world S) : sk (w_st w) = None -> inv sk (w_tr w) [] w.
Proof.
  intros H. exists []. split; [symmetry; apply app_nil_r|]. split; [exact own_nil|].
  split; [intros fd E; congruence|intros fd []].
Qed.

(** A new queue handle, then any methods in any order with any arguments, any kernel, any
    callbacks: every interaction since the handle was made is on a descriptor that an
    earlier, successful socket(AF_NETLINK, SOCK_RAW, NETLINK_NETFILTER) of this handle returned. *)
Theorem C94_queue_uses_own_descriptors : forall m grow cs e w0 w,
  w = snd (NewNFQueue e w0) \/
  (exists queueID maxp psz cb ecb pd, w = snd (CreateAndStartNfQueue m queueID maxp psz cb ecb pd e w0)) ->
  exists since, w_tr (uses m grow cs e w) = w_tr w0 ++ since /\ own_descriptors since.
Proof.
  intros m grow cs e w0 w H.
  enough (I1 : inv qsock (w_tr w0) [] w).
  { destruct (own_uses _ m grow cs e w I1) as (since & T & O & _). exists since. split; [exact T|exact O]. }
  assert (N : inv qsock (w_tr w0) [] (snd (NewNFQueue e w0))).
  { apply (inv_start qsock (mkW (w_st (snd (NewNFQueue e w0))) (w_heap (snd (NewNFQueue e w0))) (w_tr w0))). reflexivity. }
  destruct H as [-> |(i & mx & sz & cb & ecb & pd & ->)]; [exact N|].
  unfold CreateAndStartNfQueue.
  match goal with |- context [mbind NewNFQueue ?f] => set (rest := f) end.
  assert (K : forall u, own qsock (w_tr w0) [] (rest u)).
  { intros u. unfold rest. repeat (own_call_tac || qstep). }
  unfold mbind at 1. destruct (NewNFQueue e w0) as [[a| |] w1]; cbn [snd] in *; try exact N.
  apply K. exact N.
Qed.
Print Assumptions C94_queue_uses_own_descriptors.
(** the same for a log handle *)
Theorem C94_log_uses_own_descriptors : forall m cs e w0 w,
  w = snd (NewNFLog e w0) \/
  (exists groups psz cb ecb, w = snd (BindAndListenForLogs m groups psz cb ecb e w0)) ->
  exists since, w_tr (log_uses m cs e w) = w_tr w0 ++ since /\ own_descriptors since.
Proof.
  intros m cs e w0 w H.
  enough (I1 : inv lsockfd (w_tr w0) [] w).
  { destruct (own_log_uses _ m cs e w I1) as (since & T & O & _). exists since. split; [exact T|exact O]. }
  assert (N : inv lsockfd (w_tr w0) [] (snd (NewNFLog e w0))).
  { apply (inv_start lsockfd (mkW (w_st (snd (NewNFLog e w0))) (w_heap w0) (w_tr w0))). reflexivity. }
  destruct H as [-> |(gs & sz & cb & ecb & ->)]; [exact N|].
  unfold BindAndListenForLogs.
  match goal with |- context [mbind NewNFLog ?f] => set (rest := f) end.
  assert (K : forall u, own lsockfd (w_tr w0) [] (rest u)).
  { intros u. unfold rest. repeat (own_call_tac || lstep). }
  unfold mbind at 1. destruct (NewNFLog e w0) as [[a| |] w1]; cbn [snd] in *; try exact N.
  apply K. exact N.
Qed.
Print Assumptions C94_log_uses_own_descriptors.
(** ... but not only while they are open: after NfqClose every configuration call still
    sends its request on the closed descriptor, which by then may be anyone's *)
Theorem C95_queue_use_after_close_refuted : forall m grow c e w fd buf,
  cfg_args_ok c -> is_u16 (q_num (w_st w)) -> q_handle (w_st w) = Some (mkSock fd buf) ->
  exists b r1 r2 rest,
    w_tr (snd (cfg_run m c e (uses m grow [HClose] e w))) =
      w_tr w ++ (KClose fd, r1) :: (KSendto fd b 0, r2) :: rest /\
    read_message m b = Some (cfg_message c (q_num (w_st w))).
Proof.
  intros m grow c e w fd buf A N H.
  assert (E : uses m grow [HClose] e w = mkW (w_st w) (w_heap w) (w_tr w ++ [(KClose fd, e (w_tr w) (KClose fd))])).
  { cbn [uses use]. unfold NfqClose, mbind, get_st, do_call, ret. cbn [fst snd]. rewrite H. reflexivity. }
  rewrite E.
  destruct (cfg_sends m c e (mkW (w_st w) (w_heap w) (w_tr w ++ [(KClose fd, e (w_tr w) (KClose fd))])) fd A N)
    as (b & r1 & new & T & _ & M1); [exists buf; exact H|].
  exists b, (e (w_tr w) (KClose fd)), r1, new. rewrite T. cbn [w_tr]. rewrite <- app_assoc. split; [reflexivity|exact M1].
Qed.
Print Assumptions C95_queue_use_after_close_refuted.
(** the same in nflog: all requests of the call run on the closed descriptor *)
Theorem C95_log_use_after_close_refuted : forall m c hi e w fd,
  log_args_ok c -> replies_within 20 hi e -> open_log w fd ->
  exists r1 err w' new acked,
    log_run m c e (log_uses m [LClose] e w) = (Ok err, w') /\
    w_tr w' = w_tr w ++ (KClose fd, r1) :: new /\
    ran_requests m fd zlen (log_messages c) new acked err.
Proof.
  intros m c hi e w fd A R [buf H].
  set (w1 := mkW (w_st w) (w_heap w) (w_tr w ++ [(KClose fd, e (w_tr w) (KClose fd))])).
  assert (E : log_uses m [LClose] e w = w1).
  { cbn [log_uses log_use]. unfold NFlogClose, mbind, get_st, do_call, ret. cbn [fst snd]. rewrite H. reflexivity. }
  rewrite E.
  destruct (log_call_run m c hi e w1 fd A R) as (err & w' & new & acked & E1 & T & Q & _); [exists buf; exact H|].
  exists (e (w_tr w) (KClose fd)), err, w', new, acked. split; [exact E1|]. split; [|exact Q].
  rewrite T. cbn [w1 w_tr]. rewrite <- app_assoc. reflexivity.
Qed.
Print Assumptions C95_log_use_after_close_refuted.
(** a request on the closed descriptor 7 of the sample handle *)
Example C95_hypotheses_met :
  cfg_args_ok (CfgMode 2 65535) /\ is_u16 (q_num (w_st sample_world)) /\
  map fst (w_tr (snd (cfg_run LE (CfgMode 2 65535) kernel_acks (uses LE (fun _ k => k) [HClose] kernel_acks sample_world)))) =
    [ KClose 7;
      KSendto 7 [32;0;0;0; 2;3; 5;0; 0;0;0;0; 0;0;0;0; 0;0;0;42; 12;0;2;0; 0;0;255;255; 2;0;0;0] 0;
      KRecvfrom 7 76800 0 ].
Proof. split; [cbn; unfold is_u8, is_u32; lia|]. split; [cbn; red; lia|]. vm_compute; reflexivity. Qed.
(** a started queue that has received two packets; a log handle opened and bound *)
Example C94_hypotheses_met :
  let ds := [Some marked_packet; Some unmarked_packet] in
  let e := kernel_delivers ds in
  let w := snd (CreateAndStartNfQueue LE 42 100 65535 (Some (fun _ _ _ _ => [])) true 5 e blank) in
  let w' := uses LE (fun _ k => k) [HProcessPackets 3 (Z.to_nat 19202); HClose] e w in
  (length (w_tr w') <? 20)%nat = false /\
  existsb (fun c => match descriptor (fst c) with Some _ => true | None => false end) (w_tr w') = true.
Proof. vm_compute. split; reflexivity. Qed.
