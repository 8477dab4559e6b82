(** The attribute table of a started queue is the one it was made with. *)
From Verif Require Export Model.NfQueue.

Definition same_table (t : attrmap) {A} (x : MQ A) : Prop :=
  forall e w, q_attr (w_st w) = t -> q_attr (w_st (snd (x e w))) = t.
Lemma st_bind t {A B} (x : MQ A) (f : A -> MQ B) :
  same_table t x -> (forall a, same_table t (f a)) -> same_table t (mbind x f).
Proof.
  intros Hx Hf e w H. unfold mbind. specialize (Hx e w H).
  destruct (x e w) as [[a| |] w1]; cbn [snd] in *; [apply Hf; exact Hx|exact Hx|exact Hx].
Qed.
Lemma st_bind_st t {B} (f : nfq -> MQ B) :
  (forall q, q_attr q = t -> same_table t (f q)) -> same_table t (mbind get_st f).
Proof. intros Hf e w H. unfold mbind, get_st. apply Hf; exact H. Qed.
Ltac tab_step :=
  lazymatch goal with
  | |- same_table _ (mbind get_st _) => apply st_bind_st; intros ? ?
  | |- same_table _ (mbind _ _) => apply st_bind; [|intros ?]
  | |- same_table _ (put_st _) => intros ? ? ?; cbn [put_st snd w_st]; unfold set_handle, set_subsys, set_queue, set_counts; cbn [q_attr]; assumption
  | |- same_table _ (match ?x with _ => _ end) => destruct x
  | |- same_table _ (let _ := _ in _) => cbv zeta
  | |- same_table _ (ret _) => let H := fresh in intros ? ? H; exact H
  | |- same_table _ (lift _) => let H := fresh in intros ? ? H; exact H
  | |- same_table _ mpanic => let H := fresh in intros ? ? H; exact H
  | |- same_table _ get_heap => let H := fresh in intros ? ? H; exact H
  | |- same_table _ (put_heap _) => let H := fresh in intros ? ? H; exact H
  | |- same_table _ (do_call _) => let H := fresh in intros ? ? H; exact H
  end.
Lemma st_config t m g at_ h d : same_table t (config_request m g at_ h d).
Proof. unfold config_request, nfq_query, nfq_send, nfq_recv, sys_recvfrom. repeat tab_step. Qed.
Ltac tab := repeat (lazymatch goal with |- same_table _ (config_request _ _ _ _ _) => apply st_config | |- _ => tab_step end).
(** after a successful set-up the three slots are windows of 76800 bytes *)
Lemma started_slots m queueID maxp psz cb ecb pd e w0 w :
  CreateAndStartNfQueue m queueID maxp psz cb ecb pd e w0 = (Ok None, w) ->
  exists a1 a3 a10, q_attr (w_st w) = [(1, a1); (3, a3); (10, a10)] /\
    s_len a10 = Z.to_nat 76800.
Proof.
  unfold CreateAndStartNfQueue. match goal with |- context [mbind NewNFQueue ?f] => set (rest := f) end.
  unfold mbind at 1.
  assert (N : exists w1 a1 a3 a10, NewNFQueue e w0 = (Ok tt, w1) /\ q_attr (w_st w1) = [(1, a1); (3, a3); (10, a10)] /\
     s_len a10 = length (gmake NfnlBuffSize)).
  { unfold NewNFQueue, m_alloc, mbind, get_heap, put_heap, ret, put_st, alloc. do 4 eexists. split; [reflexivity|].
    split; [reflexivity|]. reflexivity. }
  destruct N as (w1 & a1 & a3 & a10 & E & A & L). rewrite E. intros R. exists a1, a3, a10. split.
  2:{ rewrite L. unfold gmake. rewrite repeat_length. reflexivity. }
  assert (K : same_table [(1, a1); (3, a3); (10, a10)] (rest tt)).
  { unfold rest, NfqOpen, UnbindPf, BindPf, CreateQueue, NfqSetMode, NfqSetQueueMaxLen, NfqDestroyQueue, NfqClose. cbn [BuildNfgenMsg BuildNfAttrMsg]. tab. }
  specialize (K e w1 A). rewrite R in K. exact K.
Qed.
