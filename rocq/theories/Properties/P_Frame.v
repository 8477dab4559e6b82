(** Memory a queue handle leaves alone: C96. *)
From Verif Require Import Proof.Frame Proof.Release Spec.Samples Properties.P_Config Properties.P_Loop.

Lemma alloc_then a c v sp (f : slice -> MQ unit) e w :
  unch a c (w_heap w) ->
  (forall s w', away a s -> unch a c (w_heap w') -> intact a c (snd (f s e w'))) ->
  intact a c (snd (mbind (m_alloc v sp) f e w)).
Proof.
  intros U H. unfold m_alloc. unfold mbind at 1. unfold mbind at 1, get_heap.
  pose proof (alloc_unch a c (w_heap w) v sp U) as [U' A].
  destruct (alloc (w_heap w) v sp) as [h' s]. cbn [fst snd] in U', A.
  unfold mbind at 1, put_heap, ret. apply H; [exact A|exact U'].
Qed.
Lemma new_good a e w0 : (a < length (w_heap w0))%nat ->
  intact a (arr (w_heap w0) a) (snd (NewNFQueue e w0)).
Proof.
  intros L. unfold NewNFQueue. apply alloc_then; [split; [exact L|reflexivity]|].
  intros buf w1 A1 U1. apply alloc_then; [exact U1|]. intros hs w2 A2 U2.
  apply alloc_then; [exact U2|]. intros s1 w3 A3 U3. apply alloc_then; [exact U3|]. intros s2 w4 A4 U4.
  apply alloc_then; [exact U4|]. intros s3 w5 A5 U5. unfold put_st. cbn [snd].
  split; [exact U5|]. unfold st_away. cbn [w_st q_buf q_hdr q_handle q_attr q_cb].
  split; [exact A1|]. split; [exact A2|]. split; [exact I|]. split; [|exact I].
  repeat (apply Forall_cons; [assumption|]). apply Forall_nil.
Qed.
Ltac fr_call_tac :=
  lazymatch goal with
  | |- fr _ _ NfqOpen _ => apply fr_Open
  | |- fr _ _ (UnbindPf _) _ => apply fr_UnbindPf
  | |- fr _ _ (BindPf _) _ => apply fr_BindPf
  | |- fr _ _ (CreateQueue _ _ _ _ _) _ => apply fr_CreateQueue
  | |- fr _ _ (NfqSetMode _ _ _) _ => apply fr_SetMode
  | |- fr _ _ (NfqSetQueueMaxLen _ _) _ => apply fr_SetMax
  | |- fr _ _ (NfqDestroyQueue _) _ => apply fr_Destroy
  | |- fr _ _ NfqClose _ => apply fr_Close
  | |- fr _ _ (StopQueue _) _ => apply fr_Stop
  | |- fr _ _ (SetVerdict _ _ _ _ _ _) _ => apply fr_SetVerdict
  | |- fr _ _ (SetVerdict2 _ _ _ _ _ _ _) _ => apply fr_SetVerdict2
  | |- fr _ _ (Recv _ _) _ => eapply fr_weaken; [|apply fr_Recv]; intros; exact I
  | |- fr _ _ (ProcessPackets _ _ _ _) _ => apply fr_loop
  | |- fr _ _ GetNotificationChannel _ => unfold GetNotificationChannel; repeat fstep
  end.
Lemma fr_use a c m grow k : call_away a k -> fr a c (use m grow k) any.
Proof.
  intros A. destruct k; cbn [use call_away] in *;
    lazymatch goal with
    | |- fr _ _ (mbind _ _) _ => apply (fr_bind _ _ _ _ any); [fr_call_tac|intros ? _; apply fr_ret; exact I]
    | |- _ => fr_call_tac
    end; try exact A.
Qed.
Lemma fr_uses a c m grow cs e : Forall (call_away a) cs -> forall w, intact a c w -> intact a c (uses m grow cs e w).
Proof.
  induction cs as [|k cs IH]; intros F w G; cbn [uses]; [exact G|]. inversion F as [|? ? Fk Fcs]; subst.
  apply IH; [exact Fcs|]. apply (fr_use a c m grow k Fk e w G).
Qed.
(** An array of the program that exists before the handle is made; any calls of the
    handle's methods in any order, any kernel, with no slice of that array passed to a
    verdict by the program or by a callback, and no callback storing into it: the array
    keeps every byte. *)
Theorem C96_memory_left_alone : forall m grow cs e w0 w a,
  (a < length (w_heap w0))%nat ->
  w = snd (NewNFQueue e w0) \/
  (exists queueID maxp psz cb ecb pd,
     match cb with Some f => cb_away a f | None => True end /\
     w = snd (CreateAndStartNfQueue m queueID maxp psz cb ecb pd e w0)) ->
  Forall (call_away a) cs ->
  arr (w_heap (uses m grow cs e w)) a = arr (w_heap w0) a.
Proof.
  intros m grow cs e w0 w a L H F.
  enough (G : intact a (arr (w_heap w0) a) w) by apply (fr_uses a _ m grow cs e F w G).
  pose proof (new_good a e w0 L) as N.
  destruct H as [-> |(i & mx & sz & cb & ecb & pd & C & ->)]; [exact N|].
  unfold CreateAndStartNfQueue.
  match goal with |- context [mbind NewNFQueue ?f] => set (rest := f) end.
  assert (K : forall u, fr a (arr (w_heap w0) a) (rest u) any).
  { intros u. unfold rest.
    repeat (match goal with
            | |- fr _ _ (mbind (match _ with _ => _ end) _) _ => fstep
            | |- fr _ _ (mbind (do_call _) _) _ => fstep
            | |- fr _ _ (mbind (ret _) _) _ => apply (fr_bind _ _ _ _ any); [fstep|intros ? _]
            | |- fr _ _ (mbind _ _) _ => apply (fr_bind _ _ _ _ any); [fr_call_tac; try exact C|intros ? _]
            end || fstep). }
  unfold mbind at 1. destruct (NewNFQueue e w0) as [[v| |] w1]; cbn [snd] in *; try exact N.
  apply K. exact N.
Qed.
Print Assumptions C96_memory_left_alone.
(** a callback that accepts every packet it is shown, and a program's own array *)
Definition accepting : callback := fun _ _ p _ => [CbVerdict2 1 99 (Z.of_nat (s_len (p_buf p))) (p_id p) (p_buf p)].
Example C96_hypotheses_met :
  cb_away 0 accepting /\
  let w0 := mkW (w_st blank) [[7; 8; 9]] [] in
  let e := kernel_delivers [Some marked_packet; Some unmarked_packet] in
  let w := snd (CreateAndStartNfQueue LE 42 100 65535 (Some accepting) true 5 e w0) in
  let w' := uses LE (fun _ k => k) [HProcessPackets 3 (Z.to_nat 19202); HSetVerdict 0 4 9 (mkSl 1 0 4 4)] e w in
  (0 < length (w_heap w0))%nat /\
  (arr (w_heap w') 0, existsb (fun x => match fst x with KSendmsg _ _ => true | _ => false end) (w_tr w')) = ([7; 8; 9], true).
Proof.
  split; [|vm_compute; split; [repeat constructor|reflexivity]].
  intros tr h p priv A. apply Forall_cons; [exact A|apply Forall_nil].
Qed.
