(** How often the loop closes the queue's socket when callbacks may stop it (C61). *)
From Verif Require Export Proof.Lifecycle Spec.StopCountSpec.

Lemma requests_app fd a b : requests fd (a ++ b) = (requests fd a + requests fd b)%nat.
Proof. unfold requests. rewrite filter_app, app_length. reflexivity. Qed.

Section Queue.
Context (fd : Z) (cb : callback).
Notation onq := (on_queue fd cb).
Definition on_fd (ev : event) : Prop := works_on (fst ev) = None \/ works_on (fst ev) = Some fd.
Definition bal {A} (x : MQ A) : Prop := forall e w, onq (w_st w) ->
  onq (w_st (snd (x e w))) /\
  exists evs, w_tr (snd (x e w)) = w_tr w ++ evs /\ (closes fd evs <= requests fd evs)%nat /\ Forall on_fd evs.
Lemma bal_does {A} (x : MQ A) : does onq (on_socket fd) x -> bal x.
Proof.
  intros D e w Q. destruct (D e w Q) as (Q' & evs & T & F). split; [exact Q'|]. exists evs. split; [exact T|].
  split; [rewrite (on_socket_closes _ _ F); lia|]. eapply Forall_impl; [|exact F].
  intros [c r] H. unfold on_fd. destruct c; cbn in H |- *; tauto.
Qed.
Lemma bal_bind {A B} (x : MQ A) (f : A -> MQ B) : bal x -> (forall a, bal (f a)) -> bal (mbind x f).
Proof.
  intros Hx Hf e w H. unfold mbind. destruct (Hx e w H) as (H1 & r1 & E1 & F1 & G1).
  destruct (x e w) as [[a| |] w1]; cbn [snd] in *; [|split; [exact H1|]; exists r1; auto|split; [exact H1|]; exists r1; auto].
  destruct (Hf a e w1 H1) as (H2 & r2 & E2 & F2 & G2). split; [exact H2|]. exists (r1 ++ r2).
  rewrite E2, E1, <- app_assoc, closes_app, requests_app. split; [reflexivity|]. split; [lia|]. apply Forall_app. auto.
Qed.
Lemma bal_bind_st {B} (f : nfq -> MQ B) : (forall q, onq q -> bal (f q)) -> bal (mbind get_st f).
Proof. intros Hf e w H. unfold mbind, get_st. apply Hf; exact H. Qed.
Lemma bal_quiet {A} (x : MQ A) : (forall e w, w_st (snd (x e w)) = w_st w /\ w_tr (snd (x e w)) = w_tr w) -> bal x.
Proof.
  intros X e w Q. destruct (X e w) as [E1 E2]. rewrite E1, E2. split; [exact Q|]. exists []. rewrite app_nil_r. split; [reflexivity|]. cbn. auto.
Qed.

(** what a stop does: one request, and at most one close, both on the socket *)
Lemma recv_does m b : does onq (on_socket fd) (nfq_recv m (mkSock fd b)).
Proof.
  unfold nfq_recv. cbn [k_fd k_buf]. apply does_bind; [apply does_recvfrom|]. intros [[en|] n]; [apply does_ret|].
  apply does_bind; [apply does_lift|intros bb]. apply does_bind; [apply does_get_heap|intros h].
  apply does_bind; [apply does_lift|intros [[[hd|] nx] er]; [|apply does_panic]].
  destruct (n_type hd =? NlMsgError); [|apply does_ret]. apply does_bind; [apply does_lift|intros z].
  destruct (snd z =? 0); apply does_ret.
Qed.
Lemma send_does m b hdr data : does onq (on_socket fd) (nfq_send m (mkSock fd b) hdr data).
Proof.
  unfold nfq_send. cbn [k_fd]. apply does_bind; [apply does_lift|intros bb].
  apply does_bind; [apply does_call; intros r; cbn; auto|intros r]. destruct (r_err r); apply does_ret.
Qed.
Lemma query_does m b hdr data : does onq (on_socket fd) (nfq_query m (mkSock fd b) hdr data).
Proof. unfold nfq_query. apply does_bind; [apply send_does|]. intros [er|]; [apply does_ret|apply recv_does]. Qed.
Lemma config_does m g a hdr c : does onq (on_socket fd) (config_request m g a hdr c).
Proof.
  unfold config_request. do 3 (apply does_bind; [apply does_lift|intros ?]). cbv zeta.
  apply does_bind_st. intros q ((b & ->) & _). apply query_does.
Qed.
Lemma requests_pos (r : resp) b evs : (1 <= requests fd ((KSendto fd b 0, r) :: evs))%nat.
Proof. unfold requests. cbn [filter fst]. rewrite Z.eqb_refl. cbn. lia. Qed.
Lemma config_asks m g a hdr c e w w' err : onq (w_st w) -> config_request m g a hdr c e w = (Ok err, w') ->
  exists evs, w_tr w' = w_tr w ++ evs /\ (1 <= requests fd evs)%nat.
Proof.
  intros ((b & HB) & HC). unfold config_request, mbind, lift, get_st.
  destruct (NfqGenMsg_ToWireFormat g) as [x1| |]; try discriminate.
  destruct (NfAttr_ToWireFormat m a) as [x2| |]; try discriminate.
  destruct c as [x3| |]; try discriminate. cbv zeta. rewrite HB.
  unfold nfq_query, nfq_send, mbind, lift, do_call. cbn [k_fd].
  destruct (send_bytes _ _ _) as [x4| |]; try discriminate.
  set (r := e (w_tr w) _). set (w1 := mkW _ _ _).
  destruct (r_err r) as [en|]; unfold ret.
  - intros E. injection E as _ <-. eexists. split; [reflexivity|]. apply requests_pos.
  - intros E. pose proof (recv_does m b e w1) as D. cbn [w1 w_st] in D.
    destruct D as (_ & evs & T & _); [split; eauto|]. rewrite E in T. cbn [snd w1 w_tr] in T.
    exists ((KSendto fd x4 0, r) :: evs). rewrite T, <- app_assoc. split; [reflexivity|]. apply requests_pos.
Qed.
Lemma bal_stop m : bal (StopQueue m).
Proof.
  intros e w Q. unfold StopQueue. unfold mbind.
  assert (D : does onq (on_socket fd) (NfqDestroyQueue m)).
  { unfold NfqDestroyQueue. apply does_bind_st. intros q _. apply config_does. }
  destruct (bal_does _ D e w Q) as (Q1 & evs & T & C & F).
  assert (RQ : forall err w1, NfqDestroyQueue m e w = (Ok err, w1) -> exists evs, w_tr w1 = w_tr w ++ evs /\ (1 <= requests fd evs)%nat).
  { intros err w1 E. unfold NfqDestroyQueue, mbind at 1, get_st at 1 in E. exact (config_asks _ _ _ _ _ _ _ _ _ Q E). }
  destruct (D e w Q) as (_ & evs0 & T0 & F0). pose proof (on_socket_closes _ _ F0) as C0.
  destruct (NfqDestroyQueue m e w) as [[[er|]| |] w1]; cbn [snd] in *;
    try solve [split; [exact Q1|]; exists evs; auto].
  unfold mbind, get_st. pose proof Q1 as ((b & HB) & _). cbv beta iota. rewrite HB. unfold do_call, ret. cbn [snd k_fd w_st w_tr].
  destruct (RQ _ _ eq_refl) as (evs1 & T1 & R1).
  assert (evs1 = evs0) as -> by (rewrite T0 in T1; apply app_inv_head in T1; auto).
  assert (evs0 = evs) as -> by (rewrite T0 in T; apply app_inv_head in T; auto).
  split; [exact Q1|]. eexists (evs ++ [(KClose fd, _)]). rewrite T, <- app_assoc. split; [reflexivity|].
  rewrite closes_app, requests_app, C0. split; [cbn; destruct (fd =? fd); cbn; lia|].
  apply Forall_app. split; [exact F|]. constructor; [right; reflexivity|constructor].
Qed.
Lemma bal_acts m g l : bal (run_acts m g l).
Proof.
  induction l as [|a l IH]; cbn [run_acts]; [apply bal_does, does_ret|].
  apply bal_bind; [|intros _; exact IH]. destruct a.
  - apply bal_does, does_SetVerdict.
  - apply bal_does, does_SetVerdict2.
  - apply bal_does, does_stores.
  - apply bal_does, does_bind; [apply does_alloc|intros _; apply does_ret].
  - apply bal_bind; [apply bal_stop|intros _; apply bal_does, does_ret].
Qed.
Lemma bal_one fuel m g : bal (process_one fuel m g).
Proof.
  unfold process_one. apply bal_bind; [apply bal_does, does_Recv|intros [[ng at'] err]].
  apply bal_bind_st; intros q OQ. apply bal_bind.
  { apply bal_does. repeat match goal with
    | |- does _ _ (mbind get_st _) => apply does_bind_st; intros ? ?
    | |- does _ _ (mbind _ _) => apply does_bind; [|intros ?]
    | |- does _ _ (ret _) => apply does_ret
    | |- does _ _ (do_call _) => apply does_call; intros ?; cbn; auto
    | |- does _ _ (match ?x with _ => _ end) => destruct x
    end. }
  intros skip. destruct skip; [apply bal_does, does_ret|].
  apply bal_bind; [apply bal_does, does_get_heap|intros h]. apply bal_bind; [apply bal_does, does_lift|intros [[id mark] pkt]].
  apply bal_bind_st; intros q2 OQ2. apply bal_bind; [apply bal_does, does_put_st, on_queue_counts, OQ2|intros _].
  destruct OQ2 as (_ & C). rewrite C. apply bal_bind; [apply bal_does, does_call; intros r; cbn; auto|intros r].
  apply bal_bind; [apply bal_does, does_get_tr|intros tr]. apply bal_acts.
Qed.
Lemma loop_close_count fuel m g n : forall e w res w', onq (w_st w) ->
  ProcessPackets n fuel m g e w = (res, w') ->
  exists evs, w_tr w' = w_tr w ++ evs /\ Forall on_fd evs /\
    (closes fd evs <= requests fd evs + match res with Ok _ => 1 | _ => 0 end)%nat /\
    (forall u, res = Ok u -> exists evs0 r, evs = evs0 ++ [(KClose fd, r)]).
Proof.
  induction n as [|n IH]; intros e w res w' Q; cbn [ProcessPackets].
  { intros E. injection E as <- <-. exists []. rewrite app_nil_r. cbn. repeat split; auto. discriminate. }
  unfold mbind at 1, do_call at 1. set (r0 := e (w_tr w) KCtxDone). set (w0 := mkW _ _ _).
  assert (OC : on_fd (KCtxDone, r0)) by (left; reflexivity).
  destruct (r_flag r0).
  - unfold NfqClose, mbind, get_st. cbn [w0 w_st]. destruct Q as ((b & ->) & _). unfold do_call, ret. intros E. injection E as <- <-.
    cbn [w_tr w0 k_fd]. eexists [(KCtxDone, r0); (KClose fd, _)]. rewrite <- app_assoc. split; [reflexivity|].
    split; [constructor; [exact OC|]; constructor; [right; reflexivity|constructor]|]. split; [cbn; destruct (fd =? fd); cbn; lia|].
    intros _ _. eexists [(KCtxDone, r0)], _. reflexivity.
  - pose proof (bal_one fuel m g e w0 Q) as (Q1 & ev1 & T1 & C1 & F1). unfold mbind.
    destruct (process_one fuel m g e w0) as [[[]| |] w1]; cbn [snd] in *.
    + intros E. destruct (IH e w1 res w' Q1 E) as (ev2 & T2 & F2 & C2 & L). exists ((KCtxDone, r0) :: ev1 ++ ev2).
      rewrite T2, T1. cbn [w0 w_tr]. rewrite <- !app_assoc. split; [reflexivity|].
      split; [constructor; [exact OC|]; apply Forall_app; auto|].
      split. { change ((KCtxDone, r0) :: ev1 ++ ev2) with ([(KCtxDone, r0)] ++ ev1 ++ ev2). rewrite !closes_app, !requests_app. cbn [closes requests filter fst length]. unfold closes, requests in *. cbn. lia. }
      intros u U. destruct (L u U) as (e0 & r & ->). exists ((KCtxDone, r0) :: ev1 ++ e0), r. cbn. now rewrite <- app_assoc.
    + intros E. injection E as <- <-. exists ((KCtxDone, r0) :: ev1). rewrite T1. cbn [w0 w_tr].
      rewrite <- !app_assoc. split; [reflexivity|]. split; [constructor; auto|]. split; [unfold closes, requests in *; cbn in *; lia|discriminate].
    + intros E. injection E as <- <-. exists ((KCtxDone, r0) :: ev1). rewrite T1. cbn [w0 w_tr].
      rewrite <- !app_assoc. split; [reflexivity|]. split; [constructor; auto|]. split; [unfold closes, requests in *; cbn in *; lia|discriminate].
Qed.
End Queue.
