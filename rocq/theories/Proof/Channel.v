(** Nothing ever touches the notification channel. *)
From Verif Require Export Model.NfQueue.

Definition keeps (c : list nfpacket) {A} (x : MQ A) : Prop :=
  forall e w, q_notify (w_st w) = c -> q_notify (w_st (snd (x e w))) = c.
Section KEEP.
Context (c : list nfpacket).
Lemma keeps_ret {A} (a : A) : keeps c (ret a).
Proof. intros e w H. exact H. Qed.
Lemma keeps_lift {A} (a : res A) : keeps c (lift a).
Proof. intros e w H. exact H. Qed.
Lemma keeps_panic {A} : keeps c (A:=A) mpanic.
Proof. intros e w H. exact H. Qed.
Lemma keeps_nofuel {A} : keeps c (A:=A) mnofuel.
Proof. intros e w H. exact H. Qed.
Lemma keeps_get_heap : keeps c get_heap.
Proof. intros e w H. exact H. Qed.
Lemma keeps_put_heap h : keeps c (put_heap h).
Proof. intros e w H. exact H. Qed.
Lemma keeps_call k : keeps c (do_call k).
Proof. intros e w H. exact H. Qed.
Lemma keeps_get_tr : keeps c get_tr.
Proof. intros e w H. exact H. Qed.
Lemma keeps_put_st q : q_notify q = c -> keeps c (put_st q).
Proof. intros Q e w H. exact Q. Qed.
Lemma keeps_bind {A B} (x : MQ A) (f : A -> MQ B) :
  keeps c x -> (forall a, keeps c (f a)) -> keeps c (mbind x f).
Proof.
  intros Hx Hf e w H. unfold mbind. specialize (Hx e w H).
  destruct (x e w) as [[a| |] w1]; cbn [snd] in *; [apply Hf; exact Hx|exact Hx|exact Hx].
Qed.
Lemma keeps_bind_st {B} (f : nfq -> MQ B) :
  (forall q, q_notify q = c -> keeps c (f q)) -> keeps c (mbind get_st f).
Proof. intros Hf e w H. unfold mbind, get_st. apply Hf; exact H. Qed.
End KEEP.
Ltac keeps_step :=
  match goal with
  | |- keeps _ (mbind get_st _) => apply keeps_bind_st; intros ? ?
  | |- keeps _ (mbind _ _) => apply keeps_bind; [|intros ?]
  | |- keeps _ (ret _) => apply keeps_ret
  | |- keeps _ (lift _) => apply keeps_lift
  | |- keeps _ mpanic => apply keeps_panic
  | |- keeps _ mnofuel => apply keeps_nofuel
  | |- keeps _ (put_st _) => apply keeps_put_st; repeat (match goal with |- q_notify (if ?b then _ else _) = _ => destruct b end); first [assumption|unfold set_handle, set_subsys, set_queue, set_attr, set_counts; cbn [q_notify]; assumption|cbn [q_notify]; assumption]
  | |- keeps _ get_heap => apply keeps_get_heap
  | |- keeps _ get_tr => apply keeps_get_tr
  | |- keeps _ (put_heap _) => apply keeps_put_heap
  | |- keeps _ (do_call _) => apply keeps_call
  | |- keeps _ (match ?x with _ => _ end) => destruct x
  | |- keeps _ (let _ := _ in _) => cbv zeta
  end.
Ltac keeps_tac := repeat keeps_step.
Section KEEP2.
Context (c : list nfpacket).
Lemma keeps_m_alloc v sp : keeps c (m_alloc v sp).
Proof. unfold m_alloc. keeps_tac. Qed.
Lemma keeps_m_stores s ws : keeps c (m_stores s ws).
Proof. induction ws as [|[o v] ws IH]; cbn [m_stores]; keeps_tac. exact IH. Qed.
Lemma keeps_recvfrom fd b fl : keeps c (sys_recvfrom fd b fl).
Proof. unfold sys_recvfrom. keeps_tac. Qed.
Lemma keeps_query m k hdr data : keeps c (nfq_query m k hdr data).
Proof. unfold nfq_query, nfq_send, nfq_recv. repeat (keeps_step || (match goal with |- keeps _ (sys_recvfrom _ _ _) => apply keeps_recvfrom end)). Qed.
Lemma keeps_config m g a h d : keeps c (config_request m g a h d).
Proof. unfold config_request. repeat (keeps_step || (match goal with |- keeps _ (nfq_query _ _ _ _) => apply keeps_query end)). Qed.
Lemma keeps_SetVerdict m g v pl id p : keeps c (SetVerdict m g v pl id p).
Proof.
  unfold SetVerdict. cbn [BuildNfgenMsg BuildNfAttrMsg]. unfold append_pad, sendmsg.
  repeat (keeps_step || (match goal with |- keeps _ (m_alloc _ _) => apply keeps_m_alloc end)).
Qed.
Lemma keeps_SetVerdict2 m g v mk pl id p : keeps c (SetVerdict2 m g v mk pl id p).
Proof.
  unfold SetVerdict2. apply keeps_bind_st; intros q Q.
  destruct (sv2_hdr _ _ _ _ _ _) as [[ws n] a]. unfold append_pad, sendmsg.
  repeat (keeps_step || (match goal with |- keeps _ (m_stores _ _) => apply keeps_m_stores end)).
Qed.
Lemma keeps_Destroy m : keeps c (NfqDestroyQueue m).
Proof. unfold NfqDestroyQueue. cbn [BuildNfgenMsg BuildNfAttrMsg]. repeat (keeps_step || (match goal with |- keeps _ (config_request _ _ _ _ _) => apply keeps_config end)). Qed.
Lemma keeps_Close : keeps c NfqClose.
Proof. unfold NfqClose. keeps_tac. Qed.
Lemma keeps_Stop m : keeps c (StopQueue m).
Proof. unfold StopQueue. repeat ((match goal with |- keeps _ (NfqDestroyQueue _) => apply keeps_Destroy end) || (match goal with |- keeps _ (NfqClose) => apply keeps_Close end) || keeps_step). Qed.
Lemma keeps_acts m g l : keeps c (run_acts m g l).
Proof.
  induction l as [|a l IH]; cbn [run_acts]; [apply keeps_ret|].
  apply keeps_bind; [|intros _; exact IH].
  destruct a; [apply keeps_SetVerdict|apply keeps_SetVerdict2|apply keeps_m_stores| |];
    (apply keeps_bind; [apply keeps_m_alloc || apply keeps_Stop|intros _; apply keeps_ret]).
Qed.
Lemma keeps_Recv fuel m : keeps c (Recv fuel m).
Proof. unfold Recv. repeat ((match goal with |- keeps _ (sys_recvfrom _ _ _) => apply keeps_recvfrom end) || keeps_step). Qed.
Lemma keeps_one fuel m g : keeps c (process_one fuel m g).
Proof. unfold process_one. repeat ((match goal with |- keeps _ (Recv _ _) => apply keeps_Recv end) || (match goal with |- keeps _ (run_acts _ _ _) => apply keeps_acts end) || keeps_step). Qed.
Lemma keeps_loop n fuel m g : keeps c (ProcessPackets n fuel m g).
Proof.
  induction n as [|n IH]; cbn [ProcessPackets]; [apply keeps_nofuel|].
  repeat ((match goal with |- keeps _ (process_one _ _ _) => apply keeps_one end) || (match goal with |- keeps _ (NfqClose) => apply keeps_Close end) || exact IH || keeps_step).
Qed.
Lemma keeps_Open : keeps c NfqOpen.
Proof. unfold NfqOpen. keeps_tac. Qed.
Lemma keeps_CreateQueue m n cb ecb pd : keeps c (CreateQueue m n cb ecb pd).
Proof. unfold CreateQueue. cbn [BuildNfgenMsg BuildNfAttrMsg]. repeat ((match goal with |- keeps _ (config_request _ _ _ _ _) => apply keeps_config end) || keeps_step). Qed.
Lemma keeps_SetMode m a b : keeps c (NfqSetMode m a b).
Proof. unfold NfqSetMode. cbn [BuildNfgenMsg BuildNfAttrMsg]. repeat ((match goal with |- keeps _ (config_request _ _ _ _ _) => apply keeps_config end) || keeps_step). Qed.
Lemma keeps_SetMax m a : keeps c (NfqSetQueueMaxLen m a).
Proof. unfold NfqSetQueueMaxLen. cbn [BuildNfgenMsg BuildNfAttrMsg]. repeat ((match goal with |- keeps _ (config_request _ _ _ _ _) => apply keeps_config end) || keeps_step). Qed.
Lemma keeps_BindPf m : keeps c (BindPf m).
Proof. unfold BindPf. cbn [BuildNfgenMsg BuildNfAttrMsg]. repeat ((match goal with |- keeps _ (config_request _ _ _ _ _) => apply keeps_config end) || keeps_step). Qed.
Lemma keeps_UnbindPf m : keeps c (UnbindPf m).
Proof. unfold UnbindPf. cbn [BuildNfgenMsg BuildNfAttrMsg]. repeat ((match goal with |- keeps _ (config_request _ _ _ _ _) => apply keeps_config end) || keeps_step). Qed.
End KEEP2.
