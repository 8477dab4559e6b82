(** The life of a queue's socket (C61, C62). *)
From Verif Require Export Proof.Grows Spec.Lifecycle.

(** [x] keeps [I] of the handle and only does [P] *)
Definition does {A} (I : nfq -> Prop) (P : event -> Prop) (x : MQ A) : Prop :=
  forall e w, I (w_st w) -> I (w_st (snd (x e w))) /\
    exists evs, w_tr (snd (x e w)) = w_tr w ++ evs /\ Forall P evs.
Section Does.
Context (I : nfq -> Prop) (P : event -> Prop).
Ltac triv := intros e w H; split; [exact H|]; exists []; rewrite app_nil_r; auto.
Lemma does_ret {A} (a : A) : does I P (ret a). Proof. triv. Qed.
Lemma does_lift {A} (a : res A) : does I P (lift a). Proof. triv. Qed.
Lemma does_panic {A} : does (A:=A) I P mpanic. Proof. triv. Qed.
Lemma does_get_st : does I P get_st. Proof. triv. Qed.
Lemma does_get_tr : does I P get_tr. Proof. triv. Qed.
Lemma does_get_heap : does I P get_heap. Proof. triv. Qed.
Lemma does_put_heap h : does I P (put_heap h). Proof. triv. Qed.
Lemma does_put_st s : I s -> does I P (put_st s).
Proof. intros Hs e w H. split; [exact Hs|]. exists []. rewrite app_nil_r. auto. Qed.
Lemma does_call c : (forall r, P (c, r)) -> does I P (do_call c).
Proof. intros Hc e w H. split; [exact H|]. eexists. split; [reflexivity|]. constructor; [apply Hc|constructor]. Qed.
Lemma does_bind {A B} (x : MQ A) (f : A -> MQ B) : does I P x -> (forall a, does I P (f a)) -> does I P (mbind x f).
Proof.
  intros Hx Hf e w H. unfold mbind. destruct (Hx e w H) as (H1 & r1 & E1 & F1).
  destruct (x e w) as [[a| |] w1]; cbn [snd] in *; [|split; [exact H1|]; exists r1; auto|split; [exact H1|]; exists r1; auto].
  destruct (Hf a e w1 H1) as (H2 & r2 & E2 & F2). split; [exact H2|]. exists (r1 ++ r2).
  rewrite E2, E1, <- app_assoc. split; [reflexivity|]. apply Forall_app. auto.
Qed.
Lemma does_bind_st {B} (f : nfq -> MQ B) : (forall q, I q -> does I P (f q)) -> does I P (mbind get_st f).
Proof. intros Hf e w H. unfold mbind, get_st. apply Hf; exact H. Qed.
End Does.

Section Queue.
Context (fd : Z) (cb : callback) (NS : never_stops cb).
Definition on_queue (q : nfq) : Prop := (exists b, q_handle q = Some (mkSock fd b)) /\ (q_cb q = Some cb).
Notation D x := (does on_queue (on_socket fd) x).
Ltac call_tac := apply does_call; intros ?; cbn; auto.
Ltac dstep :=
  match goal with
  | |- does _ _ (mbind get_st _) => apply does_bind_st; let q := fresh "q" in let H := fresh "OQ" in intros q H
  | |- does _ _ (mbind _ _) => apply does_bind; [|intros ?]
  | |- does _ _ (ret _) => apply does_ret
  | |- does _ _ (lift _) => apply does_lift
  | |- does _ _ mpanic => apply does_panic
  | |- does _ _ get_st => apply does_get_st
  | |- does _ _ get_tr => apply does_get_tr
  | |- does _ _ get_heap => apply does_get_heap
  | |- does _ _ (put_heap _) => apply does_put_heap
  | |- does _ _ (put_st _) => apply does_put_st
  | H : on_queue ?q |- does _ _ (match q_handle ?q with _ => _ end) =>
      let b := fresh "b" in let H1 := fresh "HH" in let E := fresh "EH" in pose proof H as ((b & E) & H1); rewrite E
  | |- does _ _ (do_call _) => call_tac
  | |- does _ _ (match ?x with _ => _ end) => destruct x
  | |- does _ _ (let _ := _ in _) => cbv zeta
  end.
Lemma does_alloc v sp : D (m_alloc v sp).
Proof. unfold m_alloc. repeat dstep. Qed.
Lemma does_stores s ws : D (m_stores s ws).
Proof. induction ws as [|[o v] ws IH]; cbn [m_stores]; repeat dstep. exact IH. Qed.
Lemma does_recvfrom b fl : D (sys_recvfrom fd b fl).
Proof. unfold sys_recvfrom. repeat dstep. Qed.
Lemma does_sendmsg iov : D (sendmsg fd iov).
Proof. unfold sendmsg. repeat dstep. Qed.
Lemma on_queue_counts q x y z : on_queue q -> on_queue (set_counts q x y z).
Proof. destruct q. exact (fun H => H). Qed.
Lemma on_queue_attr q t : on_queue q -> on_queue (set_attr q t).
Proof. destruct q. exact (fun H => H). Qed.
Lemma does_SetVerdict m g v pl id p : D (SetVerdict m g v pl id p).
Proof.
  unfold SetVerdict. cbn [BuildNfgenMsg BuildNfAttrMsg]. unfold append_pad.
  repeat (dstep || apply does_alloc || (apply on_queue_counts; assumption) || apply does_sendmsg).
  destruct (v =? 1); apply on_queue_counts; assumption.
Qed.
Lemma does_SetVerdict2 m g v mk pl id p : D (SetVerdict2 m g v mk pl id p).
Proof.
  unfold SetVerdict2. dstep. destruct (sv2_hdr _ _ _ _ _ _) as [[ws n] a]. unfold append_pad.
  repeat (dstep || apply does_stores || apply does_sendmsg).
Qed.
Lemma does_acts m g l : ~ In CbStop l -> D (run_acts m g l).
Proof.
  induction l as [|a l IH]; intros N; cbn [run_acts]; [apply does_ret|].
  assert (N1 : a <> CbStop) by (intros ->; apply N; left; reflexivity).
  assert (N2 : ~ In CbStop l) by (intros ?; apply N; right; assumption).
  apply does_bind; [|intros _; exact (IH N2)].
  destruct a; [apply does_SetVerdict|apply does_SetVerdict2|apply does_stores| |congruence].
  apply does_bind; [apply does_alloc|intros _; apply does_ret].
Qed.
Lemma does_Recv fuel m : D (Recv fuel m).
Proof.
  unfold Recv. dstep. dstep. apply does_bind; [apply does_recvfrom|intros [[en|] n]; [apply does_ret|]].
  repeat (dstep || (apply on_queue_attr; assumption)).
Qed.
Lemma does_one fuel m g : D (process_one fuel m g).
Proof.
  unfold process_one. apply does_bind; [apply does_Recv|intros [[ng at'] err]].
  apply does_bind_st; intros q OQ. apply does_bind; [repeat dstep|intros skip].
  destruct skip; [apply does_ret|]. dstep; [dstep|]. dstep; [dstep|].
  match goal with |- does _ _ (let '(_, _) := ?x in _) => destruct x as [[id mark] pkt] end.
  apply does_bind_st; intros q2 OQ2. apply does_bind; [apply does_put_st, on_queue_counts, OQ2|intros _].
  destruct OQ2 as (_ & C). rewrite C. dstep; [dstep|]. dstep; [dstep|]. apply does_acts, NS.
Qed.
Lemma loop_closes_once fuel m g n : forall e w res w', on_queue (w_st w) ->
  ProcessPackets n fuel m g e w = (res, w') ->
  exists evs last, w_tr w' = w_tr w ++ evs ++ last /\ Forall (on_socket fd) evs /\
    match res with Ok _ => exists r, last = [(KClose fd, r)] | _ => last = [] end.
Proof.
  induction n as [|n IH]; intros e w res w' Q; cbn [ProcessPackets].
  { intros E. injection E as <- <-. exists [], []. rewrite !app_nil_r. auto. }
  unfold mbind at 1, do_call at 1. set (r0 := e (w_tr w) KCtxDone). set (w0 := mkW _ _ _).
  assert (OC : on_socket fd (KCtxDone, r0)) by (left; reflexivity).
  destruct (r_flag r0).
  - unfold NfqClose, mbind, get_st. cbn [w0 w_st]. destruct Q as ((b & ->) & _). unfold do_call, ret. intros E. injection E as <- <-.
    cbn [w_tr w0 k_fd]. exists [(KCtxDone, r0)]. eexists. rewrite <- app_assoc. split; [reflexivity|]. split; [auto|]. eexists. reflexivity.
  - pose proof (does_one fuel m g e w0 Q) as (Q1 & ev1 & T1 & F1). unfold mbind.
    destruct (process_one fuel m g e w0) as [[[]| |] w1]; cbn [snd] in *.
    + intros E. destruct (IH e w1 res w' Q1 E) as (ev2 & last & T2 & F2 & L). exists ((KCtxDone, r0) :: ev1 ++ ev2), last.
      rewrite T2, T1. cbn [w0 w_tr]. rewrite <- !app_assoc. cbn [app]. rewrite <- !app_assoc. split; [reflexivity|]. split; [|exact L].
      constructor; [exact OC|]. apply Forall_app. auto.
    + intros E. injection E as <- <-. exists ((KCtxDone, r0) :: ev1), []. rewrite T1. cbn [w0 w_tr].
      rewrite <- !app_assoc, app_nil_r. split; [reflexivity|]. auto.
    + intros E. injection E as <- <-. exists ((KCtxDone, r0) :: ev1), []. rewrite T1. cbn [w0 w_tr].
      rewrite <- !app_assoc, app_nil_r. split; [reflexivity|]. auto.
Qed.
End Queue.

Lemma on_socket_closes fd evs : Forall (on_socket fd) evs -> closes fd evs = 0%nat.
Proof.
  induction 1 as [|[c r] evs H F IH]; [reflexivity|]. unfold closes in *. cbn [filter fst]. destruct c; cbn in H; try exact IH; destruct H.
Qed.
Lemma closes_app fd a b : closes fd (a ++ b) = (closes fd a + closes fd b)%nat.
Proof. unfold closes. rewrite filter_app, app_length. reflexivity. Qed.
Lemma on_socket_left fd evs : Forall (on_socket fd) evs -> forall acc l, left_open acc (evs ++ l) = left_open acc l.
Proof.
  induction 1 as [|[c r] evs H F IH]; intros acc l; [reflexivity|]. cbn [app left_open]. destruct c; cbn in H; try apply IH; destruct H.
Qed.
Lemma once_at_end fd evs r : Forall (on_socket fd) evs -> never_used_after_close fd (evs ++ [(KClose fd, r)]).
Proof.
  intros F before r' after E. destruct after as [|y ys]; [constructor|].
  assert (N : y :: ys <> []) by discriminate. remember (y :: ys) as after.
  exfalso. clear Heqafter. destruct (exists_last N) as (a' & x & ->).
  rewrite app_comm_cons, app_assoc in E. apply app_inj_tail in E as (E & _).
  rewrite E in F. apply Forall_app in F as (_ & F). inversion F as [|? ? X _]; subst. exact X.
Qed.

(** ** StopQueue *)
Lemma stop_outcome m e w fd : is_u16 (q_num (w_st w)) -> open_handle w fd -> replies_within 20 76800 e ->
  exists err w' req b, StopQueue m e w = (Ok err, w') /\
    read_message m b = Some (cfg_message CfgDestroy (q_num (w_st w))) /\ one_request m fd 76800 b req err /\
    match err with
    | None => exists r, w_tr w' = w_tr w ++ req ++ [(KClose fd, r)]
    | Some _ => w_tr w' = w_tr w ++ req
    end /\ w_st w' = w_st w.
Proof.
  intros N OH A. destruct (cfg_request m CfgDestroy e w fd I N OH A) as (err & w' & new & b & H1 & H2 & H0 & H3 & H4 & H5 & _).
  cbn [cfg_run] in H1. cbn [cfg_state] in H4. unfold StopQueue. rewrite (bind_ok _ _ _ _ _ _ H1). destruct err as [er|].
  - exists (Some er), w', new, b. unfold ret. auto 6.
  - destruct OH as (buf & HB & _). unfold mbind, get_st. rewrite H4, HB. unfold do_call, ret. cbn [k_fd].
    eexists None, _, new, b. split; [reflexivity|]. split; [exact H0|]. split; [exact H3|]. cbn [w_tr w_st].
    split; [|exact H4]. eexists. rewrite H2, <- app_assoc. reflexivity.
Qed.

(** ** The loop begins by receiving *)
Lemma grows_get_tr {S} : grows (S:=S) get_tr.
Proof. intros e w. exists []. now rewrite app_nil_r. Qed.
Lemma grows_nofuel {S A} : grows (S:=S) (A:=A) mnofuel.
Proof. intros e w. exists []. now rewrite app_nil_r. Qed.
Lemma call_first {S A} (c : call) (f : resp -> M S A) e w : (forall r, grows (f r)) ->
  exists rx rest, w_tr (snd (mbind (do_call c) f e w)) = w_tr w ++ (c, rx) :: rest.
Proof.
  intros G. unfold mbind, do_call. destruct (G (e (w_tr w) c) e (mkW (w_st w) (w_heap w) (w_tr w ++ [(c, e (w_tr w) c)]))) as (rest & X).
  eexists _, rest. rewrite X. cbn [w_tr]. rewrite <- app_assoc. reflexivity.
Qed.
Lemma grows_Recv fuel m : grows (Recv fuel m).
Proof. unfold Recv. repeat (grows_step || apply grows_recvfrom). Qed.
Lemma grows_one fuel m g : grows (process_one fuel m g).
Proof.
  unfold process_one. apply grows_bind; [apply grows_Recv|intros [[ng at'] err]].
  repeat (grows_step || apply grows_get_tr || apply grows_acts).
Qed.
Lemma grows_loop fuel m g n : grows (ProcessPackets n fuel m g).
Proof.
  induction n as [|n IH]; cbn [ProcessPackets]; [apply grows_nofuel|]. unfold NfqClose.
  repeat (grows_step || apply grows_one || apply IH).
Qed.
Lemma loop_starts_receiving n fuel m g e w fd buf : q_handle (w_st w) = Some (mkSock fd buf) ->
  exists rx rest, w_tr (snd ((let! _ := process_one fuel m g in ProcessPackets n fuel m g) e w)) =
    w_tr w ++ (KRecvfrom fd (Z.of_nat (s_len (q_buf (w_st w)))) 256, rx) :: rest.
Proof.
  intros HB. unfold process_one, Recv. rewrite !bind_assoc, bind_get_st, HB. unfold sys_recvfrom. rewrite !bind_assoc.
  cbn [k_fd k_buf]. change MSG_WAITALL with 256. apply call_first. intros r.
  repeat (grows_step || apply grows_get_tr || apply grows_acts || apply grows_loop).
Qed.
