(** The notification channel of a queue handle: C93. *)
From Verif Require Import Proof.Channel Proof.Release Spec.HandleSpec Spec.Samples Properties.P_Config Properties.P_Loop.

Ltac keeps_call_tac :=
  lazymatch goal with
  | |- keeps _ NfqOpen => apply keeps_Open
  | |- keeps _ (UnbindPf _) => apply keeps_UnbindPf
  | |- keeps _ (BindPf _) => apply keeps_BindPf
  | |- keeps _ (CreateQueue _ _ _ _ _) => apply keeps_CreateQueue
  | |- keeps _ (NfqSetMode _ _ _) => apply keeps_SetMode
  | |- keeps _ (NfqSetQueueMaxLen _ _) => apply keeps_SetMax
  | |- keeps _ (NfqDestroyQueue _) => apply keeps_Destroy
  | |- keeps _ NfqClose => apply keeps_Close
  | |- keeps _ (StopQueue _) => apply keeps_Stop
  | |- keeps _ (SetVerdict _ _ _ _ _ _) => apply keeps_SetVerdict
  | |- keeps _ (SetVerdict2 _ _ _ _ _ _ _) => apply keeps_SetVerdict2
  | |- keeps _ (Recv _ _) => apply keeps_Recv
  | |- keeps _ (ProcessPackets _ _ _ _) => apply keeps_loop
  | |- keeps _ GetNotificationChannel => unfold GetNotificationChannel; keeps_tac
  end.
Lemma keeps_use c m grow k : keeps c (use m grow k).
Proof.
  destruct k; cbn [use];
    lazymatch goal with
    | |- keeps _ (mbind _ _) => apply keeps_bind; [keeps_call_tac|intros ?; apply keeps_ret]
    | |- _ => keeps_call_tac
    end.
Qed.
Lemma keeps_uses c m grow cs e : forall w,
  q_notify (w_st w) = c -> q_notify (w_st (uses m grow cs e w)) = c.
Proof.
  induction cs as [|k cs IH]; intros w H; cbn [uses]; [exact H|]. apply IH. apply keeps_use. exact H.
Qed.
(** A handle from NewNFQueue or CreateAndStartNfQueue, then any methods called any number
    of times in any order with any arguments, any kernel, any callbacks, any packets: the
    channel that GetNotificationChannel returns is empty, before and after. *)
Theorem C93_notification_channel_silent_refuted : forall m grow cs e w,
  (exists w0, w = snd (NewNFQueue e w0)) \/
  (exists queueID maxp psz cb ecb pd w0, w = snd (CreateAndStartNfQueue m queueID maxp psz cb ecb pd e w0)) ->
  let w' := uses m grow cs e w in
  fst (GetNotificationChannel e w') = Ok [].
Proof.
  intros m grow cs e w H. cbv zeta. unfold GetNotificationChannel, mbind, get_st, ret. cbn [fst]. f_equal.
  apply keeps_uses.
  assert (N : forall w0, q_notify (w_st (snd (NewNFQueue e w0))) = []) by (intros w0; reflexivity).
  destruct H as [[w0 ->]|(i & mx & sz & cb & ecb & pd & w0 & ->)]; [apply N|].
  unfold CreateAndStartNfQueue.
  match goal with |- context [mbind NewNFQueue ?f] => set (rest := f) end.
  assert (K : forall u, keeps [] (rest u)).
  { intros u. unfold rest.
    repeat (keeps_call_tac || keeps_step). }
  unfold mbind at 1. specialize (N w0). destruct (NewNFQueue e w0) as [[a| |] w1]; cbn [snd] in *; try exact N.
  apply K. exact N.
Qed.
Print Assumptions C93_notification_channel_silent_refuted.
(** two packets have been received and shown to the callback, nothing is in the channel *)
Example C93_hypotheses_met :
  let ds := [Some marked_packet; Some unmarked_packet] in
  let e := kernel_delivers ds in
  let w := snd (CreateAndStartNfQueue LE 42 100 65535 (Some (fun _ _ _ _ => [])) true 5 e blank) in
  let w' := uses LE (fun _ k => k) [HProcessPackets 3 (Z.to_nat 19202)] e w in
  (map fst (map fst (shown_packets (w_tr w'))), fst (GetNotificationChannel e w')) = ([258; 259], Ok []).
Proof. vm_compute; reflexivity. Qed.
