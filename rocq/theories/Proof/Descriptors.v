(** Every interaction is on a descriptor the handle opened. *)
From Verif Require Export Spec.Descriptors.

Lemma opened_app a b fd : opened a fd -> opened (a ++ b) fd.
Proof. intros (r & I1 & R). exists r. split; [apply in_or_app; left; exact I1|exact R]. Qed.
Lemma own_nil : own_descriptors [].
Proof. intros b c r a fd H. destruct b; discriminate. Qed.
Lemma own_snoc tr c r :
  own_descriptors tr -> (forall fd, descriptor c = Some fd -> opened tr fd) ->
  own_descriptors (tr ++ [(c, r)]).
Proof.
  intros O D b c' r' a fd E F.
  destruct a as [|z a].
  - apply app_inj_tail in E. destruct E as [-> X]. injection X as -> ->. exact (D fd F).
  - destruct (@exists_last _ (z :: a)) as (a' & x & L); [discriminate|]. rewrite L in E.
    rewrite app_comm_cons, app_assoc in E. apply app_inj_tail in E. destruct E as [-> _].
    exact (O _ _ _ _ _ eq_refl F).
Qed.
Section KIT.
Context {S : Type} (sock : S -> option Z) (p : list event).
(** [F]: descriptors known to be opened *)
Definition inv (F : list Z) (w : world S) : Prop :=
  exists rest, w_tr w = p ++ rest /\ own_descriptors rest /\
    (forall fd, sock (w_st w) = Some fd -> opened rest fd) /\ (forall fd, In fd F -> opened rest fd).
Definition own (F : list Z) {A} (x : M S A) : Prop := forall e w, inv F w -> inv F (snd (x e w)).
Lemma inv_weaken F fd w : inv (fd :: F) w -> inv F w.
Proof. intros (r & T & O & K & X). exists r. split; [exact T|]. split; [exact O|]. split; [exact K|].
  intros fd' I1. apply X. right. exact I1. Qed.
Lemma own_ret F {A} (a : A) : own F (ret a).
Proof. intros e w H. exact H. Qed.
Lemma own_lift F {A} (a : res A) : own F (lift a).
Proof. intros e w H. exact H. Qed.
Lemma own_panic F {A} : own F (A:=A) mpanic.
Proof. intros e w H. exact H. Qed.
Lemma own_nofuel F {A} : own F (A:=A) mnofuel.
Proof. intros e w H. exact H. Qed.
Lemma own_get_heap F : own F get_heap.
Proof. intros e w H. exact H. Qed.
Lemma own_get_tr F : own F get_tr.
Proof. intros e w H. exact H. Qed.
Lemma own_put_heap F h : own F (put_heap h).
Proof. intros e w H. exact H. Qed.
Lemma own_put_st F q : (forall fd, sock q = Some fd -> In fd F) -> own F (put_st q).
Proof.
  intros Q e w (r & T & O & K & X). exists r. cbn. split; [exact T|]. split; [exact O|].
  split; [|exact X]. intros fd E. apply X, Q, E.
Qed.
Lemma own_call F c : (forall fd, descriptor c = Some fd -> In fd F) -> own F (do_call c).
Proof.
  intros D e w (r & T & O & K & X). exists (r ++ [(c, e (w_tr w) c)]). cbn [do_call snd w_tr w_st].
  split; [rewrite T, <- app_assoc; reflexivity|].
  split; [apply own_snoc; [exact O|intros fd E; apply X, D, E]|].
  split; intros fd E; apply opened_app; [apply K|apply X]; exact E.
Qed.
Lemma own_bind F {A B} (x : M S A) (f : A -> M S B) :
  own F x -> (forall a, own F (f a)) -> own F (mbind x f).
Proof.
  intros Hx Hf e w H. unfold mbind. specialize (Hx e w H).
  destruct (x e w) as [[a| |] w1]; cbn [snd] in *; [apply Hf; exact Hx|exact Hx|exact Hx].
Qed.
Lemma own_bind_st F {B} (f : S -> M S B) :
  (forall q, sock q = None -> own F (f q)) ->
  (forall q fd, sock q = Some fd -> own (fd :: F) (f q)) -> own F (mbind get_st f).
Proof.
  intros H0 H1 e w H. unfold mbind, get_st. destruct (sock (w_st w)) as [fd|] eqn:E.
  - apply inv_weaken with fd. apply (H1 _ _ E). destruct H as (r & T & O & K & X). exists r.
    split; [exact T|]. split; [exact O|]. split; [exact K|]. intros fd' [-> |I1]; [apply K; exact E|apply X, I1].
  - apply (H0 _ E). exact H.
Qed.
Lemma own_bind_socket F {B} (f : resp -> M S B) :
  (forall r, r_err r <> None -> own F (f r)) ->
  (forall r, r_err r = None -> own (r_val r :: F) (f r)) -> own F (mbind (do_call (KSocket 16 3 12)) f).
Proof.
  intros H0 H1 e w H. unfold mbind, do_call. cbn [fst snd]. set (r := e (w_tr w) _).
  assert (V : inv F (mkW (w_st w) (w_heap w) (w_tr w ++ [(KSocket 16 3 12, r)]))).
  { refine (own_call F (KSocket 16 3 12) _ e w H). intros fd; discriminate. }
  destruct (r_err r) eqn:E; [apply H0; [rewrite E; discriminate|exact V]|].
  apply inv_weaken with (r_val r). apply (H1 _ E). destruct H as (u & T & _). destruct V as (u' & T' & O & K & X).
  exists u'. split; [exact T'|]. split; [exact O|]. split; [exact K|]. intros fd [<-|I1]; [|apply X, I1].
  exists r. split; [|split; [exact E|reflexivity]].
  cbn [w_tr] in T'. rewrite T, <- app_assoc in T'. apply app_inv_head in T'. rewrite <- T'. apply in_or_app. right. left. reflexivity.
Qed.
Lemma own_deferred F {A} (x : M S A) y : own F x -> own F y -> own F (deferred x y).
Proof.
  intros Hx Hy e w H. unfold deferred. specialize (Hx e w H). destruct (x e w) as [[a| |] w1]; cbn [snd] in *;
    [apply Hy; exact Hx|apply Hy; exact Hx|exact Hx].
Qed.
End KIT.
(** ** the queue handle *)
Definition qsock (q : nfq) : option Z := match q_handle q with Some k => Some (k_fd k) | None => None end.
Definition lsockfd (l : nflog) : option Z := match l_sock l with Some k => Some (ls_fd k) | None => None end.
Ltac own_in := intros ? Hfd; cbn [descriptor] in Hfd;
  first [discriminate Hfd | injection Hfd as <-; cbn [In]; tauto].
Ltac own_step :=
  match goal with
  | |- own _ _ _ (mbind get_st _) => apply own_bind_st; [intros ? ?|intros ? ? ?]
  | |- own _ _ _ (mbind (do_call (KSocket _ _ _)) _) => apply own_bind_socket; [intros ? ?|intros ? ?]
  | |- own _ _ _ (mbind _ _) => apply own_bind; [|intros ?]
  | |- own _ _ _ (ret _) => apply own_ret
  | |- own _ _ _ (lift _) => apply own_lift
  | |- own _ _ _ mpanic => apply own_panic
  | |- own _ _ _ mnofuel => apply own_nofuel
  | |- own _ _ _ get_heap => apply own_get_heap
  | |- own _ _ _ get_tr => apply own_get_tr
  | |- own _ _ _ (put_heap _) => apply own_put_heap
  | |- own _ _ _ (do_call _) => apply own_call; own_in
  | |- own _ _ _ (deferred _ _) => apply own_deferred
  | |- own _ _ _ (let _ := _ in _) => cbv zeta
  end.
Section Q.
Context (p : list event).
Notation ownq F x := (own qsock p F x).
(** split on the handle read *)
Lemma own_q_st F {B} (f : nfq -> MQ B) :
  (forall q, q_handle q = None -> ownq F (f q)) ->
  (forall q k, q_handle q = Some k -> ownq (k_fd k :: F) (f q)) -> ownq F (mbind get_st f).
Proof.
  intros H0 H1. apply own_bind_st; intros q.
  - intros E. apply H0. unfold qsock in E. destruct (q_handle q); [discriminate|reflexivity].
  - intros fd E. unfold qsock in E. destruct (q_handle q) as [k|] eqn:K; [|discriminate].
    injection E as <-. apply (H1 _ _ K).
Qed.
Lemma own_q_put F q : match q_handle q with Some k => In (k_fd k) F | None => True end -> ownq F (put_st q).
Proof.
  intros H. apply own_put_st. intros fd E. unfold qsock in E. destruct (q_handle q); [|discriminate].
  injection E as <-. exact H.
Qed.
Lemma own_m_alloc {S} (sk : S -> option Z) F v sp : own sk p F (m_alloc v sp).
Proof. unfold m_alloc. apply own_bind; [apply own_get_heap|intros h]. destruct (alloc h v sp). repeat own_step. Qed.
Lemma own_m_stores {S} (sk : S -> option Z) F s ws : own sk p F (m_stores s ws).
Proof. induction ws as [|[o v] ws IH]; cbn [m_stores]; repeat own_step. exact IH. Qed.
Lemma own_recvfrom {S} (sk : S -> option Z) F fd b fl : In fd F -> own sk p F (sys_recvfrom fd b fl).
Proof.
  intros H. unfold sys_recvfrom. apply own_bind.
  - apply own_call. intros fd' E. injection E as <-. exact H.
  - intros r. destruct (r_err r); repeat own_step.
Qed.
End Q.
Ltac qstep :=
  lazymatch goal with
  | |- own _ _ _ (mbind get_st _) => apply own_q_st; [intros ? ?Hq|intros ? ? ?Hq]
  | |- own _ _ _ (put_st _) =>
      apply own_q_put; unfold set_handle, set_subsys, set_queue, set_attr, set_counts;
      repeat (match goal with |- context [if ?b then _ else _] => destruct b end);
      cbn [q_handle k_fd In]; repeat (match goal with H : q_handle _ = _ |- _ => rewrite ?H; clear H end);
      cbn [In]; tauto
  | |- own _ _ _ (m_alloc _ _) => apply own_m_alloc
  | |- own _ _ _ (m_stores _ _) => apply own_m_stores
  | |- own _ _ _ (sys_recvfrom _ _ _) => apply own_recvfrom; cbn [In]; tauto
  | |- own _ _ _ (match q_handle ?q with _ => _ end) =>
      match goal with H : q_handle q = _ |- _ => rewrite H end
  | |- own _ _ _ (match ?x with _ => _ end) => destruct x
  | |- _ => own_step
  end.
Section Q2.
Context (p : list event).
Notation ownq F x := (own qsock p F x).
Lemma own_query F m k hdr data : In (k_fd k) F -> ownq F (nfq_query m k hdr data).
Proof. intros H. unfold nfq_query, nfq_send, nfq_recv. repeat qstep. Qed.
Lemma own_config F m g a h d : ownq F (config_request m g a h d).
Proof. unfold config_request. repeat (match goal with |- own _ _ _ (nfq_query _ _ _ _) => apply own_query; cbn [In]; tauto end || qstep). Qed.
Lemma own_SetVerdict F m g v pl id pk : ownq F (SetVerdict m g v pl id pk).
Proof. unfold SetVerdict. cbn [BuildNfgenMsg BuildNfAttrMsg]. unfold append_pad, sendmsg. repeat qstep. Qed.
Lemma own_SetVerdict2 F m g v mk pl id pk : ownq F (SetVerdict2 m g v mk pl id pk).
Proof.
  unfold SetVerdict2. apply own_q_st; [intros q Q|intros q k Q];
  (destruct (sv2_hdr _ _ _ _ _ _) as [[ws n] a]; unfold append_pad, sendmsg; repeat qstep).
Qed.
Ltac confs := repeat (match goal with |- own _ _ _ (config_request _ _ _ _ _) => apply own_config end || qstep).
Lemma own_Destroy F m : ownq F (NfqDestroyQueue m).
Proof. unfold NfqDestroyQueue. cbn [BuildNfgenMsg BuildNfAttrMsg]. confs. Qed.
Lemma own_Close F : ownq F NfqClose.
Proof. unfold NfqClose. confs. Qed.
Lemma own_Stop F m : ownq F (StopQueue m).
Proof. unfold StopQueue. repeat (match goal with |- own _ _ _ (NfqDestroyQueue _) => apply own_Destroy | |- own _ _ _ NfqClose => apply own_Close end || qstep). Qed.
Lemma own_acts F m g l : ownq F (run_acts m g l).
Proof.
  induction l as [|a l IH]; cbn [run_acts]; [apply own_ret|].
  apply own_bind; [|intros _; exact IH].
  destruct a; [apply own_SetVerdict|apply own_SetVerdict2|apply own_m_stores| |].
  - apply own_bind; [apply own_m_alloc|intros _; apply own_ret].
  - apply own_bind; [apply own_Stop|intros _; apply own_ret].
Qed.
Lemma own_Recv F fuel m : ownq F (Recv fuel m).
Proof. unfold Recv. repeat qstep. Qed.
Lemma own_one F fuel m g : ownq F (process_one fuel m g).
Proof. unfold process_one. repeat (match goal with |- own _ _ _ (Recv _ _) => apply own_Recv | |- own _ _ _ (run_acts _ _ _) => apply own_acts end || qstep). Qed.
Lemma own_loop F n fuel m g : ownq F (ProcessPackets n fuel m g).
Proof.
  revert F. induction n as [|n IH]; intros F; cbn [ProcessPackets]; [apply own_nofuel|].
  repeat (match goal with |- own _ _ _ (process_one _ _ _) => apply own_one | |- own _ _ _ NfqClose => apply own_Close | |- own _ _ _ (ProcessPackets _ _ _ _) => apply IH end || qstep).
Qed.
Lemma own_Open F : ownq F NfqOpen.
Proof. unfold NfqOpen. cbv zeta. repeat qstep. Qed.
Lemma own_CreateQueue F m n cb ecb pd : ownq F (CreateQueue m n cb ecb pd).
Proof. unfold CreateQueue. cbn [BuildNfgenMsg BuildNfAttrMsg]. confs. Qed.
Lemma own_SetMode F m a b : ownq F (NfqSetMode m a b).
Proof. unfold NfqSetMode. cbn [BuildNfgenMsg BuildNfAttrMsg]. confs. Qed.
Lemma own_SetMax F m a : ownq F (NfqSetQueueMaxLen m a).
Proof. unfold NfqSetQueueMaxLen. cbn [BuildNfgenMsg BuildNfAttrMsg]. confs. Qed.
Lemma own_BindPf F m : ownq F (BindPf m).
Proof. unfold BindPf. cbn [BuildNfgenMsg BuildNfAttrMsg]. confs. Qed.
Lemma own_UnbindPf F m : ownq F (UnbindPf m).
Proof. unfold UnbindPf. cbn [BuildNfgenMsg BuildNfAttrMsg]. confs. Qed.
End Q2.
(** ** the log handle *)
Section L.
Context (p : list event).
Notation ownl F x := (own lsockfd p F x).
Lemma own_l_st F {B} (f : nflog -> ML B) :
  (forall l, l_sock l = None -> ownl F (f l)) ->
  (forall l k, l_sock l = Some k -> ownl (ls_fd k :: F) (f l)) -> ownl F (mbind get_st f).
Proof.
  intros H0 H1. apply own_bind_st; intros q.
  - intros E. apply H0. unfold lsockfd in E. destruct (l_sock q); [discriminate|reflexivity].
  - intros fd E. unfold lsockfd in E. destruct (l_sock q) as [k|] eqn:K; [|discriminate].
    injection E as <-. apply (H1 _ _ K).
Qed.
Lemma own_l_put F l : match l_sock l with Some k => In (ls_fd k) F | None => True end -> ownl F (put_st l).
Proof.
  intros H. apply own_put_st. intros fd E. unfold lsockfd in E. destruct (l_sock l); [|discriminate].
  injection E as <-. exact H.
Qed.
End L.
Ltac lstep :=
  lazymatch goal with
  | |- own _ _ _ (mbind get_st _) => apply own_l_st; [intros ? ?Hq|intros ? ? ?Hq]
  | |- own _ _ _ (put_st _) =>
      apply own_l_put; cbn [l_sock ls_fd In]; repeat (match goal with H : l_sock _ = _ |- _ => rewrite ?H; clear H end);
      cbn [In]; tauto
  | |- own _ _ _ (m_alloc _ _) => apply own_m_alloc
  | |- own _ _ _ (m_stores _ _) => apply own_m_stores
  | |- own _ _ _ (sys_recvfrom _ _ _) => apply own_recvfrom; cbn [In]; tauto
  | |- own _ _ _ (match l_sock ?q with _ => _ end) =>
      match goal with H : l_sock q = _ |- _ => rewrite H end
  | |- own _ _ _ (match ?x with _ => _ end) => destruct x
  | |- _ => own_step
  end.
Section L2.
Context (p : list event).
Notation ownl F x := (own lsockfd p F x).
Lemma own_lquery F m k hdr data : In (ls_fd k) F -> ownl F (nfl_query m k hdr data).
Proof. intros H. unfold nfl_query, sock_send, sock_recv. repeat lstep. Qed.
Ltac lq := repeat (match goal with |- own _ _ _ (nfl_query _ _ _ _) => apply own_lquery; cbn [In]; tauto end || lstep).
Lemma own_lopen F : ownl F NFlogOpen.
Proof. unfold NFlogOpen. cbv zeta. lq. Qed.
Lemma own_lcmd F m c : ownl F (nfl_pf_command m c).
Proof. unfold nfl_pf_command. cbn [BuildNfgenMsg BuildNfAttrMsg]. lq. Qed.
Lemma own_lgroups m gs : forall F, ownl F (bind_groups m gs).
Proof.
  induction gs as [|g gs IH]; intros F; cbn [bind_groups BuildNfgenMsg BuildNfAttrMsg]; [apply own_ret|].
  repeat (match goal with |- own _ _ _ (bind_groups _ _) => apply IH | |- own _ _ _ (nfl_query _ _ _ _) => apply own_lquery; cbn [In]; tauto end || lstep).
Qed.
Lemma own_lbind F m gs cb ecb : ownl F (NFlogBindGroup m gs cb ecb).
Proof.
  unfold NFlogBindGroup. repeat (match goal with |- own _ _ _ (bind_groups _ _) => apply own_lgroups end || lstep).
Qed.
Lemma own_lmode m sz gs : forall F, ownl F (NFlogSetMode m gs sz).
Proof.
  induction gs as [|g gs IH]; intros F; cbn [NFlogSetMode BuildNfgenMsg BuildNfAttrMsg]; [apply own_ret|].
  repeat (match goal with |- own _ _ _ (NFlogSetMode _ _ _) => apply IH | |- own _ _ _ (nfl_query _ _ _ _) => apply own_lquery; cbn [In]; tauto end || lstep).
Qed.
Lemma own_lclose F : ownl F NFlogClose.
Proof. unfold NFlogClose. lq. Qed.
Lemma own_tlv fuel : forall F b a, ownl F (tlv_loop fuel b a).
Proof.
  induction fuel as [|f IH]; intros F b a; cbn [tlv_loop]; [destruct b; [|apply own_nofuel]|];
  repeat (match goal with |- own _ _ _ (tlv_loop _ _ _) => apply IH end || lstep).
Qed.
Lemma own_parse fuel : forall F b, ownl F (parseLog fuel b).
Proof.
  induction fuel as [|f IH]; intros F b; destruct b; cbn [parseLog]; unfold parsePacket;
  repeat (match goal with |- own _ _ _ (parseLog _ _) => apply IH | |- own _ _ _ (tlv_loop _ _ _) => apply own_tlv end || lstep).
Qed.
Lemma own_rloop fuel b n : forall F, ownl F (read_loop n fuel b).
Proof.
  induction n as [|n IH]; intros F; cbn [read_loop];
  repeat (match goal with |- own _ _ _ (parseLog _ _) => apply own_parse | |- own _ _ _ (read_loop _ _ _) => apply IH end || lstep).
Qed.
Lemma own_logs F n fuel : ownl F (ReadLogs n fuel).
Proof.
  unfold ReadLogs. apply own_deferred; [|apply own_lclose].
  apply own_bind; [apply own_m_alloc|intros b; apply own_rloop].
Qed.
End L2.
