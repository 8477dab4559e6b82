(** StopQueue beside the loop. *)
From Verif Require Export Spec.StopConc Proof.SysFacts Proof.NfqConfig Proof.Fifo Proof.LogFifo.

Lemma mbind_ext {S A B} (x : M S A) (f g : A -> M S B) e w :
  (forall a w1, x e w = (Ok a, w1) -> f a e w1 = g a e w1) -> mbind x f e w = mbind x g e w.
Proof. intros H. unfold mbind. destruct (x e w) as [[a| |] w1] eqn:E; auto. Qed.
Lemma recvfrom_st {S} fd b fl e (w : world S) x w1 : sys_recvfrom fd b fl e w = (Ok x, w1) -> w_st w1 = w_st w.
Proof.
  unfold sys_recvfrom. rewrite bind_do_call. destruct (r_err _); intros H; inversion H; reflexivity.
Qed.

(** the pieces make the whole *)
Lemma process_one_pieces fuel m grow e w :
  process_one fuel m grow e w = (let! x := loop_receive in process_rest fuel m grow x) e w.
Proof.
  unfold process_one, loop_receive, Recv, process_rest. rewrite !bind_assoc, !bind_get_st.
  destruct (q_handle (w_st w)) as [k|]; [|reflexivity].
  rewrite bind_assoc. apply mbind_ext. intros [[en|] n] w1 E; pose proof (recvfrom_st _ _ _ _ _ _ _ E) as ST.
  - unfold Recv_rest. symmetry. rewrite bind_assoc, bind_get_st. reflexivity.
  - unfold Recv_rest. symmetry. rewrite bind_assoc, bind_get_st, ST. reflexivity.
Qed.
Lemma StopQueue_pieces m e w :
  StopQueue m e w = (let! r := stop_send m in
                     match r with
                     | Some er => ret (Some er)
                     | None => let! x := stop_receive in stop_rest m x
                     end) e w.
Proof.
  unfold StopQueue, NfqDestroyQueue, stop_send. rewrite !bind_assoc, !bind_get_st.
  destruct (BuildNfgenMsg _ _ _ _) as [nfgen hdr]. destruct (BuildNfAttrMsg _ _ _) as [attr hdr']. unfold config_request.
  rewrite !bind_assoc. apply mbind_ext. intros a w1 E1. assert (w1 = w) by (inversion E1; auto). subst w1.
  rewrite !bind_assoc. apply mbind_ext. intros b w1 E2. assert (w1 = w) by (inversion E2; auto). subst w1.
  rewrite !bind_assoc. apply mbind_ext. intros c w1 E3. assert (w1 = w) by (inversion E3; auto). subst w1.
  rewrite !bind_assoc, !bind_get_st. destruct (q_handle (w_st w)) as [k|] eqn:HK; [|rewrite !bind_ret; reflexivity].
  unfold nfq_query. rewrite !bind_assoc. apply mbind_ext. intros [er|] w1 E4; [rewrite !bind_ret; reflexivity|].
  assert (ST : w_st w1 = w_st w).
  { revert E4. unfold nfq_send. destruct (send_bytes _ _ _); [rewrite bind_lift_ok|discriminate|discriminate].
    rewrite bind_do_call. destruct (r_err _); intros H; inversion H; reflexivity. }
  unfold stop_receive. rewrite !bind_assoc, !bind_get_st, ST, HK. unfold nfq_recv. rewrite !bind_assoc. apply mbind_ext.
  intros [[en|] n] w2 E5; pose proof (recvfrom_st _ _ _ _ _ _ _ E5) as ST2; unfold stop_rest; rewrite bind_get_st, ST2, ST, HK.
  - rewrite !bind_ret. reflexivity.
  - apply mbind_ext. intros r w3 E6. destruct r; [reflexivity|].
    assert (ST3 : w_st w3 = w_st w2).
    { revert E6. clear. intros E. 
      destruct (resl_to (k_buf k) (n + 1)); [rewrite bind_lift_ok in E|discriminate E|discriminate E].
      rewrite bind_get_heap in E. destruct (NetlinkMessageToStruct m (w_heap w2) a) as [[[[hdr|] nx] er]| |];
        [rewrite bind_lift_ok in E|rewrite bind_lift_ok in E; discriminate E|discriminate E|discriminate E].
      destruct (_ =? _); [|inversion E; reflexivity].
      destruct (NetlinkErrMessagetoStruct m (w_heap w2) nx); [rewrite bind_lift_ok in E|discriminate E|discriminate E].
      destruct (_ =? _); inversion E; reflexivity. }
    rewrite bind_get_st, ST3, ST2, ST, HK. reflexivity.
Qed.

(** ** Code that neither receives nor closes *)
Definition inner (ev : event) : Prop := match fst ev with KRecvfrom _ _ _ | KClose _ => False | _ => True end.
Definition steady {A} (e : env) (x : MQ A) (w : world nfq) : Prop :=
  exists rest, w_tr (snd (x e w)) = w_tr w ++ rest /\ Forall inner rest /\
    q_cb (w_st (snd (x e w))) = q_cb (w_st w) /\ q_handle (w_st (snd (x e w))) = q_handle (w_st w).
Lemma steady_none {A} e (x : MQ A) w : w_tr (snd (x e w)) = w_tr w -> w_st (snd (x e w)) = w_st w -> steady e x w.
Proof. intros T S. exists []. rewrite app_nil_r, S. auto. Qed.
Lemma steady_call e c w : inner (c, mkResp None 0 [] false) -> steady e (do_call (S:=nfq) c) w.
Proof. intros H. eexists. split; [reflexivity|]. split; [constructor; [exact H|constructor]|]. auto. Qed.
Lemma steady_bind {A B} e (x : MQ A) (f : A -> MQ B) w :
  steady e x w -> (forall a w1, x e w = (Ok a, w1) -> steady e (f a) w1) -> steady e (mbind x f) w.
Proof.
  intros (r1 & E1 & F1 & C1 & D1) H. unfold steady, mbind.
  destruct (x e w) as [[a| |] w1] eqn:E; cbn [snd] in *; [|exists r1; auto|exists r1; auto].
  destruct (H a w1 eq_refl) as (r2 & E2 & F2 & C2 & D2). exists (r1 ++ r2).
  rewrite E2, E1, C2, D2, C1, D1, <- app_assoc. split; [reflexivity|]. split; [apply Forall_app|]; auto.
Qed.
Lemma steady_get {B} e (f : nfq -> MQ B) w : steady e (f (w_st w)) w -> steady e (mbind get_st f) w.
Proof. intros H. unfold steady. rewrite bind_get_st. exact H. Qed.
Lemma steady_put e s w : q_cb s = q_cb (w_st w) -> q_handle s = q_handle (w_st w) -> steady e (put_st s) w.
Proof. intros A B. exists []. rewrite app_nil_r. cbn. auto. Qed.
Lemma steady_lift {A B} e (x : res A) (f : A -> MQ B) w : (forall a, x = Ok a -> steady e (f a) w) -> steady e (mbind (lift x) f) w.
Proof.
  intros H. destruct x; [unfold steady; rewrite bind_lift_ok; apply H; reflexivity|apply steady_none; reflexivity|apply steady_none; reflexivity].
Qed.
Ltac steady_step :=
  match goal with
  | |- steady _ (mbind get_st _) _ => apply steady_get
  | |- steady _ (mbind (lift _) _) _ => apply steady_lift; intros ? _
  | |- steady _ (mbind _ _) _ => apply steady_bind; [|intros ? ? ?]
  | |- steady _ (ret _) _ => apply steady_none; reflexivity
  | |- steady _ (lift _) _ => apply steady_none; reflexivity
  | |- steady _ mpanic _ => apply steady_none; reflexivity
  | |- steady _ get_heap _ => apply steady_none; reflexivity
  | |- steady _ get_tr _ => apply steady_none; reflexivity
  | |- steady _ (put_heap _) _ => apply steady_none; reflexivity
  | |- steady _ (do_call _) _ => apply steady_call; exact Logic.I
  | |- steady _ (match ?x with _ => _ end) _ => destruct x eqn:?
  | |- steady _ (let _ := _ in _) _ => cbv zeta
  end.
Lemma steady_alloc e v sp w : steady e (m_alloc v sp) w.
Proof. unfold m_alloc. repeat steady_step. Qed.
Lemma steady_stores e s ws : forall w, steady e (m_stores s ws) w.
Proof. induction ws as [|[o v] ws IH]; intros w; cbn [m_stores]; repeat steady_step. apply IH. Qed.
Lemma steady_SetVerdict e m g v pl id p w : steady e (SetVerdict m g v pl id p) w.
Proof.
  unfold SetVerdict. cbn [BuildNfgenMsg BuildNfAttrMsg]. apply steady_get. apply steady_bind.
  - apply steady_put; destruct (v =? 1); reflexivity.
  - intros _ w1 _. unfold append_pad, sendmsg. repeat (steady_step || apply steady_alloc).
Qed.
Lemma steady_SetVerdict2 e m g v mk pl id p w : steady e (SetVerdict2 m g v mk pl id p) w.
Proof.
  unfold SetVerdict2. apply steady_get. destruct (sv2_hdr _ _ _ _ _ _) as [[ws n] a]. unfold append_pad, sendmsg.
  repeat (steady_step || apply steady_stores).
Qed.
Lemma steady_acts e m g l : ~ In CbStop l -> forall w, steady e (run_acts m g l) w.
Proof.
  induction l as [|a l IH]; cbn [run_acts]; intros N w; [steady_step|].
  apply steady_bind; [|intros ? ? _; apply IH; intros ?; apply N; now right].
  destruct a; [apply steady_SetVerdict|apply steady_SetVerdict2|apply steady_stores| |].
  - apply steady_bind; [apply steady_alloc|intros; steady_step].
  - exfalso. apply N. now left.
Qed.
Lemma steady_Recv_rest e fuel m x w : steady e (Recv_rest fuel m x) w.
Proof.
  unfold Recv_rest. apply steady_get. destruct x as [[en|] n]; [steady_step|].
  apply steady_lift. intros b _. unfold steady. rewrite bind_get_heap.
  change (steady e (let! y := lift (NetlinkMessageToStruct m (w_heap w) b) in
    match y with
    | (Some hdr, payload, err) =>
        let! stop := (if n_type hdr =? NlMsgError then let! z := lift (NetlinkErrMessagetoStruct m (w_heap w) payload) in
                        ret (if snd z =? 0 then None else Some (ENetlink (snd z))) else ret None) in
        match stop with
        | Some er => ret (None, None, Some er)
        | None => match err with
                  | Some _ => ret (None, None, Some EFormat)
                  | None => let! g := lift (NetlinkMessageToNfGenStruct (w_heap w) payload) in
                            let '(nfgenmsg, payload0) := g in
                            let! z := lift (NetlinkMessageToNfAttrStruct fuel m (w_heap w) payload0 (q_attr (w_st w))) in
                            let '(tbl, _, er) := z in
                            let! q := get_st in let! _ := put_st (set_attr q tbl) in ret (Some nfgenmsg, Some tbl, er)
                  end
        end
    | (None, _, _) => mpanic
    end) w).
  repeat steady_step; apply steady_put; reflexivity.
Qed.
Lemma steady_handle e m g x w : (forall cb, q_cb (w_st w) = Some cb -> never_stops cb) -> steady e (handle_received m g x) w.
Proof.
  intros NS. unfold handle_received. destruct x as [[ng at_] er]. apply steady_get. apply steady_bind.
  - repeat steady_step.
  - intros skip w1 E.
    assert (CB : q_cb (w_st w1) = q_cb (w_st w)).
    { destruct er as [er|]; [|inversion E; reflexivity].
      destruct (q_ecb (w_st w)); [rewrite bind_do_call in E; inversion E; reflexivity|].
      rewrite bind_do_call in E. destruct ng; [rewrite bind_do_call in E|]; inversion E; reflexivity. }
    destruct skip; [steady_step|]. apply steady_bind; [steady_step|]. intros h w2 E2. inversion E2; subst h w2; clear E2.
    apply steady_lift. intros [[id mark] pk] _. apply steady_get. apply steady_bind; [apply steady_put; reflexivity|].
    intros ? w2 E2. destruct (q_cb (w_st w1)) as [cb|] eqn:EC; [|steady_step].
    apply steady_bind; [steady_step|]. intros ? w3 _. apply steady_bind; [steady_step|]. intros tr w4 _.
    apply steady_acts. rewrite CB in EC. symmetry in CB. apply (NS cb); congruence.
Qed.
Lemma steady_rest e fuel m g x w : (forall cb, q_cb (w_st w) = Some cb -> never_stops cb) -> steady e (process_rest fuel m g x) w.
Proof.
  intros NS. unfold process_rest. apply steady_bind; [apply steady_Recv_rest|]. intros y w1 E. apply steady_handle.
  destruct (steady_Recv_rest e fuel m x w) as (r & _ & _ & CB & _). rewrite E in CB. cbn [snd] in CB. rewrite CB. exact NS.
Qed.

(** ** The other pieces *)
Lemma stop_send_run m e w k : is_u16 (q_num (w_st w)) -> q_handle (w_st w) = Some k ->
  exists b, read_message m b = Some (cfg_message CfgDestroy (q_num (w_st w))) /\
    let r := e (w_tr w) (KSendto (k_fd k) b 0) in
    stop_send m e w = (Ok (match r_err r with Some en => Some (ESys en) | None => None end),
                       mkW (w_st w) (w_heap w) (w_tr w ++ [(KSendto (k_fd k) b 0, r)])).
Proof.
  intros N HK. exists (hdr_bytes m (cfg_hdr CfgDestroy) ++ cfg_data m CfgDestroy (q_num (w_st w))).
  split; [apply cfg_message_ok; [exact Logic.I|exact N]|]. cbv zeta.
  unfold stop_send. rewrite bind_get_st. cbn [BuildNfgenMsg BuildNfAttrMsg].
  assert (U : u16 (q_num (w_st w)) = q_num (w_st w)) by (unfold u16, is_u16 in *; lia).
  rewrite NfqGenMsg_ToWireFormat_ok, NfAttr_ToWireFormat_ok, ConfigCommand_ok, !bind_lift_ok, bind_get_st, HK.
  unfold nfq_send. rewrite send_bytes_ok, bind_lift_ok, bind_do_call.
  match goal with |- context[KSendto (k_fd k) ?b 0] => assert (EQ : b = hdr_bytes m (cfg_hdr CfgDestroy) ++ cfg_data m CfgDestroy (q_num (w_st w))) end.
  { rewrite ?U. destruct m; reflexivity. }
  rewrite EQ. destruct (r_err _); reflexivity.
Qed.
Lemma stop_send_trace m e w r w1 : stop_send m e w = (r, w1) ->
  exists rest, w_tr w1 = w_tr w ++ rest /\ Forall inner rest /\ w_st w1 = w_st w.
Proof.
  unfold stop_send. rewrite bind_get_st. cbn [BuildNfgenMsg BuildNfAttrMsg]. intros E.
  rewrite NfqGenMsg_ToWireFormat_ok, NfAttr_ToWireFormat_ok, ConfigCommand_ok, !bind_lift_ok, bind_get_st in E.
  destruct (q_handle (w_st w)).
  - unfold nfq_send in E. rewrite send_bytes_ok, bind_lift_ok, bind_do_call in E.
    destruct (r_err _); inversion E; subst; (eexists; split; [reflexivity|]; split; [|reflexivity]; constructor; [exact Logic.I|constructor]).
  - inversion E; subst. exists []. rewrite app_nil_r. auto.
Qed.
Lemma recv_trace (e : env) fd b fl (w : world nfq) x w1 :
  sys_recvfrom fd b fl e w = (Ok x, w1) ->
  w_st w1 = w_st w /\ w_tr w1 = w_tr w ++ [(KRecvfrom fd (Z.of_nat (s_len b)) fl, e (w_tr w) (KRecvfrom fd (Z.of_nat (s_len b)) fl))].
Proof.
  intros E. split; [eapply recvfrom_st, E|]. revert E. unfold sys_recvfrom. rewrite bind_do_call.
  destruct (r_err _); intros H; inversion H; reflexivity.
Qed.
Lemma loop_receive_trace e w x w1 : loop_receive e w = (Ok x, w1) ->
  w_st w1 = w_st w /\ exists fd n, w_tr w1 = w_tr w ++ [(KRecvfrom fd n 256, e (w_tr w) (KRecvfrom fd n 256))].
Proof.
  unfold loop_receive. rewrite bind_get_st. destruct (q_handle (w_st w)); [|discriminate]. intros E.
  destruct (recv_trace _ _ _ _ _ _ _ E) as [A B]. split; [exact A|]. eauto.
Qed.
Lemma stop_receive_trace e w x w1 : stop_receive e w = (Ok x, w1) ->
  w_st w1 = w_st w /\ exists fd n, w_tr w1 = w_tr w ++ [(KRecvfrom fd n 0, e (w_tr w) (KRecvfrom fd n 0))].
Proof.
  unfold stop_receive. rewrite bind_get_st. destruct (q_handle (w_st w)); [|discriminate]. intros E.
  destruct (recv_trace _ _ _ _ _ _ _ E) as [A B]. split; [exact A|]. eauto.
Qed.
Lemma stop_rest_trace m x e w r w1 : stop_rest m x e w = (r, w1) ->
  w_st w1 = w_st w /\
  match r with
  | Ok None => exists fd rc, w_tr w1 = w_tr w ++ [(KClose fd, rc)]
  | _ => w_tr w1 = w_tr w
  end.
Proof.
  unfold stop_rest. rewrite bind_get_st. destruct (q_handle (w_st w)) as [k|]; [|intros E; inversion E; subst; auto].
  set (look := match x with (Some en, _) => ret (Some (ERecv en)) | (None, n) => _ end).
  assert (L : forall r0 w0, look e w = (r0, w0) -> w0 = w).
  { intros r0 w0 E. unfold look in E. destruct x as [[en|] n]; [inversion E; auto|].
    destruct (resl_to (k_buf k) (n + 1)) as [b| |]; [rewrite bind_lift_ok in E|inversion E; auto|inversion E; auto].
    rewrite bind_get_heap in E. destruct (NetlinkMessageToStruct m (w_heap w) b) as [[[[hdr|] nx] er]| |];
      [rewrite bind_lift_ok in E|rewrite bind_lift_ok in E; inversion E; auto|inversion E; auto|inversion E; auto].
    destruct (_ =? _); [|inversion E; reflexivity].
    destruct (NetlinkErrMessagetoStruct m (w_heap w) nx); [rewrite bind_lift_ok in E|inversion E; auto|inversion E; auto].
    destruct (_ =? _); inversion E; reflexivity. }
  unfold mbind at 1. destruct (look e w) as [[r0| |] w0] eqn:E; rewrite (L _ _ eq_refl).
  - destruct r0 as [er|]; [intros H; inversion H; auto|]. rewrite bind_do_call. intros H. inversion H; subst. cbn. eauto.
  - intros H; inversion H; auto.
  - intros H; inversion H; auto.
Qed.
Lemma check_trace done e (w : world nfq) r w1 : do_call KCtxDone (asked done e) w = (Ok r, w1) ->
  w_st w1 = w_st w /\ exists rc, w_tr w1 = w_tr w ++ [(KCtxDone, rc)].
Proof. unfold do_call. intros E. injection E as <- <-. cbn [w_st w_tr]. split; [reflexivity|]. eexists. reflexivity. Qed.
Lemma close_trace e w w1 k : q_handle (w_st w) = Some k -> NfqClose e w = (Ok tt, w1) ->
  w_st w1 = w_st w /\ exists rc, w_tr w1 = w_tr w ++ [(KClose (k_fd k), rc)].
Proof. intros HK. unfold NfqClose. rewrite bind_get_st, HK, bind_do_call. intros E. injection E as <-. cbn. eauto. Qed.

(** ** Counting *)
Lemma takes_app f l1 l2 : takes f (l1 ++ l2) = (takes f l1 + takes f l2)%nat.
Proof. unfold takes. rewrite filter_app, app_length. reflexivity. Qed.
Lemma closings_app l1 l2 : closings (l1 ++ l2) = (closings l1 + closings l2)%nat.
Proof. unfold closings. rewrite filter_app, app_length. reflexivity. Qed.
Lemma inner_counts f l : Forall inner l -> takes f l = 0%nat /\ closings l = 0%nat /\ datagrams l = [].
Proof.
  induction 1 as [|[c r] l H _ (I1 & I2 & I3)]; [auto|]. unfold takes, closings, datagrams in *.
  destruct c; cbn [filter fst flat_map] in *; try contradiction H; auto.
Qed.
Definition ended (l : loop_at) : nat := match l with LEnd => 1 | _ => 0 end.
Definition stopped (s : stop_at) : nat := match s with SRet None => 1 | _ => 0 end.
Definition looked (s : stop_at) : nat := match s with SIdle | SWait => 0 | _ => 1 end.

Section STEPS.
Variables (fuel : nat) (m : endian) (grow : nat -> nat -> nat) (e : env).
Record pinv (tr0 : list event) (p : proc) : Prop := {
  pi_new : exists new, w_tr (p_w p) = tr0 ++ new /\
    datagrams new ++ p_waiting p = p_arrived p /\
    (takes 0 new <= looked (p_stop p))%nat /\
    closings new = (ended (p_loop p) + stopped (p_stop p))%nat /\
    length (datagrams new) = (takes 256 new + takes 0 new)%nat;
  pi_handle : exists k, q_handle (w_st (p_w p)) = Some k;
  pi_cb : forall cb, q_cb (w_st (p_w p)) = Some cb -> never_stops cb }.
Lemma pinv_running p : running p -> pinv (w_tr (p_w p)) p.
Proof.
  intros (L & S & _ & _ & W & A & H & C). constructor; auto. exists []. rewrite app_nil_r, W, A, S.
  split; [reflexivity|]. split; [reflexivity|]. destruct L as [->| ->]; cbn; auto.
Qed.
Lemma pinv_step tr0 p l p' : pinv tr0 p -> step fuel m grow e p l p' -> pinv tr0 p'.
Proof.
  intros [(new & T & D & K0 & KC & KD) (k & HK) CB] ST.
  destruct ST as [d w q a c cl l s|w q a b c cl l s|w q a b cl s w1 r w2 E1 E2|w q a b s w1 r E1|w q a b s w1 r w2 x E1 E2
    |w d q a b c cl s w1 x E|w q a b c cl x s w1 r E|ok reply w q a b c cl l w1 er E|ok reply w q a b c l w1 E
    |w d q a b c cl l w1 x E|w q a b c cl l x w1 r E]; cbn [p_w p_waiting p_arrived p_loop p_stop] in *.
  - constructor; cbn [p_w p_waiting p_arrived p_loop p_stop]; eauto. exists new. rewrite app_assoc, D. auto 10.
  - constructor; cbn [p_w p_waiting p_arrived p_loop p_stop]; eauto. exists new. auto 10.
  - destruct (check_trace _ _ _ _ _ E1) as (S1 & rc & T1). rewrite <- S1 in HK. destruct (close_trace _ _ _ _ HK E2) as (S2 & rc2 & T2).
    constructor; cbn [p_w p_waiting p_arrived p_loop p_stop]; rewrite ?S2; eauto; [|rewrite S1; auto].
    exists (new ++ [(KCtxDone, rc); (KClose (k_fd k), rc2)]). split; [rewrite T2, T1, T, <- !app_assoc; reflexivity|].
    rewrite !takes_app, closings_app, datagrams_app. cbn [ended] in *.
    change (datagrams [(KCtxDone, rc); (KClose (k_fd k), rc2)]) with (@nil bytes). rewrite app_nil_r.
    split; [exact D|]. cbn [ended Nat.add]. split; [cbn in *; lia|]. split; [cbn in *; lia|cbn in *; lia].
  - destruct (check_trace _ _ _ _ _ E1) as (S1 & rc & T1).
    constructor; cbn [p_w p_waiting p_arrived p_loop p_stop]; rewrite ?S1; eauto.
    exists (new ++ [(KCtxDone, rc)]). split; [rewrite T1, T, <- !app_assoc; reflexivity|].
    rewrite !takes_app, closings_app, datagrams_app. change (datagrams [(KCtxDone, rc)]) with (@nil bytes). rewrite app_nil_r.
    split; [exact D|]. split; [cbn in *; lia|]. split; [cbn in *; lia|cbn in *; lia].
  - destruct (check_trace _ _ _ _ _ E1) as (S1 & rc & T1). destruct (loop_receive_trace _ _ _ _ E2) as (S2 & fd & n & T2).
    constructor; cbn [p_w p_waiting p_arrived p_loop p_stop]; rewrite ?S2, ?S1; eauto.
    eexists (new ++ [(KCtxDone, rc); _]). split; [rewrite T2, T1, T, <- !app_assoc; reflexivity|]. cbn [fails].
    rewrite !takes_app, closings_app, datagrams_app.
    change (datagrams [(KCtxDone, rc); (KRecvfrom fd n 256, mkResp (Some EBADF) 0 [] false)]) with (@nil bytes). rewrite app_nil_r.
    split; [exact D|]. split; [cbn in *; lia|]. split; [cbn in *; lia|cbn in *; lia].
  - destruct (loop_receive_trace _ _ _ _ E) as (S2 & fd & n & T2).
    constructor; cbn [p_w p_waiting p_arrived p_loop p_stop]; rewrite ?S2; eauto.
    eexists (new ++ [_]). split; [rewrite T2, T, <- !app_assoc; reflexivity|]. cbn [gives].
    rewrite !takes_app, closings_app, datagrams_app, app_length.
    change (datagrams [(KRecvfrom fd n 256, mkResp None 0 d false)]) with [d].
    split; [rewrite <- app_assoc; exact D|]. split; [cbn in *; lia|]. split; [cbn in *; lia|cbn in *; lia].
  - destruct (steady_rest e fuel m grow x w CB) as (rest & T2 & IN & C2 & H2). rewrite E in T2, C2, H2. cbn [snd] in T2, C2, H2.
    destruct (inner_counts 0 rest IN) as (X1 & X2 & X3). destruct (inner_counts 256 rest IN) as (X4 & _ & _).
    constructor; cbn [p_w p_waiting p_arrived p_loop p_stop]; rewrite ?C2, ?H2; eauto.
    exists (new ++ rest). split; [rewrite T2, T, <- !app_assoc; reflexivity|].
    rewrite !takes_app, closings_app, datagrams_app, X1, X2, X3, X4, app_nil_r. split; [exact D|].
    split; [lia|]. split; [cbn [ended] in *; destruct r; cbn [ended]; lia|lia].
  - destruct (stop_send_trace _ _ _ _ _ E) as (rest & T2 & IN & S2).
    destruct (inner_counts 0 rest IN) as (X1 & X2 & X3). destruct (inner_counts 256 rest IN) as (X4 & _ & _).
    constructor; cbn [p_w p_waiting p_arrived p_loop p_stop]; rewrite ?S2; eauto.
    exists (new ++ rest). split; [rewrite T2, T, <- !app_assoc; reflexivity|].
    rewrite !takes_app, closings_app, datagrams_app, X1, X2, X3, X4, app_nil_r. split; [exact D|].
    cbn [looked stopped] in *. split; [lia|]. split; lia.
  - destruct (stop_send_trace _ _ _ _ _ E) as (rest & T2 & IN & S2).
    destruct (inner_counts 0 rest IN) as (X1 & X2 & X3). destruct (inner_counts 256 rest IN) as (X4 & _ & _).
    constructor; cbn [p_w p_waiting p_arrived p_loop p_stop]; rewrite ?S2; eauto.
    exists (new ++ rest). split; [rewrite T2, T, <- !app_assoc; reflexivity|].
    rewrite !takes_app, closings_app, datagrams_app, X1, X2, X3, X4, app_nil_r. split; [rewrite app_assoc, D; reflexivity|].
    cbn [looked stopped] in *. split; [lia|]. split; lia.
  - destruct (stop_receive_trace _ _ _ _ E) as (S2 & fd & n & T2).
    constructor; cbn [p_w p_waiting p_arrived p_loop p_stop]; rewrite ?S2; eauto.
    eexists (new ++ [_]). split; [rewrite T2, T, <- !app_assoc; reflexivity|]. cbn [gives].
    rewrite !takes_app, closings_app, datagrams_app, app_length.
    change (datagrams [(KRecvfrom fd n 0, mkResp None 0 d false)]) with [d].
    split; [rewrite <- app_assoc; exact D|]. cbn [looked stopped] in *. split; [cbn in *; lia|]. split; [cbn in *; lia|cbn in *; lia].
  - destruct (stop_rest_trace _ _ _ _ _ _ E) as (S2 & T2).
    constructor; cbn [p_w p_waiting p_arrived p_loop p_stop]; rewrite ?S2; eauto.
    cbn [looked stopped] in *.
    assert (SAME : w_tr w1 = w_tr w -> (match r with Ok None => False | _ => True end) ->
      exists new0, w_tr w1 = tr0 ++ new0 /\ datagrams new0 ++ q = a /\
        (takes 0 new0 <= looked (match r with Ok r0 => SRet r0 | _ => SCrash end))%nat /\
        closings new0 = (ended l + stopped (match r with Ok r0 => SRet r0 | _ => SCrash end))%nat /\
        length (datagrams new0) = (takes 256 new0 + takes 0 new0)%nat).
    { intros T3 NN. exists new. rewrite T3. split; [exact T|]. split; [exact D|].
      destruct r as [[er|]| |]; try contradiction; cbn [looked stopped]; lia. }
    destruct r as [[er|]| |]; [apply SAME; auto| |apply SAME; auto|apply SAME; auto].
    destruct T2 as (fd & rc & T2). exists (new ++ [(KClose fd, rc)]). split; [rewrite T2, T, <- !app_assoc; reflexivity|].
    rewrite !takes_app, closings_app, datagrams_app. change (datagrams [(KClose fd, rc)]) with (@nil bytes). rewrite app_nil_r.
    split; [exact D|]. cbn [looked stopped]. split; [cbn in *; lia|]. split; [cbn in *; lia|cbn in *; lia].
Qed.
Lemma pinv_steps tr0 p ls p' : pinv tr0 p -> steps fuel m grow e p ls p' -> pinv tr0 p'.
Proof. intros H S. revert H. induction S; eauto using pinv_step. Qed.

(** ** Waiting for ever *)
Definition abandoned (p : proc) : Prop := p_stop p = SWait /\ p_waiting p = [] /\ p_bound p = false.
Lemma abandoned_step p l p' : abandoned p -> step fuel m grow e p l p' -> abandoned p'.
Proof. intros (A & B & C) ST. unfold abandoned. destruct ST; cbn in *; try discriminate; auto. Qed.
Lemma abandoned_steps p ls p' : abandoned p -> steps fuel m grow e p ls p' -> abandoned p'.
Proof. intros H S. revert H. induction S; eauto using abandoned_step. Qed.
Definition silent (l : label) : Prop := match l with Arrive _ | StopSend _ _ => False | _ => True end.
Definition deaf (p : proc) : Prop := p_loop p = LWait /\ p_waiting p = [].
Lemma deaf_step p l p' : deaf p -> silent l -> step fuel m grow e p l p' -> deaf p'.
Proof. intros (A & B) SL ST. unfold deaf. destruct ST; cbn in *; try discriminate; try contradiction; auto. Qed.
Lemma deaf_steps p ls p' : deaf p -> Forall silent ls -> steps fuel m grow e p ls p' -> deaf p'.
Proof. intros H F S. revert H F. induction S; intros D F; [exact D|]. inversion F; subst. eauto using deaf_step. Qed.

(** ** After the context is done *)
Definition due (l : loop_at) : nat := match l with LWait => 1 | _ => 0 end.
Lemma cancel_step p l p' : p_cancel p = true -> (exists k, q_handle (w_st (p_w p)) = Some k) ->
  (forall cb, q_cb (w_st (p_w p)) = Some cb -> never_stops cb) -> step fuel m grow e p l p' ->
  p_cancel p' = true /\ exists new, w_tr (p_w p') = w_tr (p_w p) ++ new /\ (takes 256 new + due (p_loop p') <= due (p_loop p))%nat.
Proof.
  intros CA (k & HK) CB ST.
  destruct ST as [d w q a c cl l s|w q a b c cl l s|w q a b cl s w1 r w2 E1 E2|w q a b s w1 r E1|w q a b s w1 r w2 x E1 E2
    |w d q a b c cl s w1 x E|w q a b c cl x s w1 r E|ok reply w q a b c cl l w1 er E|ok reply w q a b c l w1 E
    |w d q a b c cl l w1 x E|w q a b c cl l x w1 r E]; cbn [p_w p_loop p_cancel] in *; try discriminate CA.
  - split; [exact CA|]. exists []. rewrite app_nil_r. cbn. auto.
  - split; [reflexivity|]. exists []. rewrite app_nil_r. cbn. auto.
  - destruct (check_trace _ _ _ _ _ E1) as (S1 & rc & T1). rewrite <- S1 in HK. destruct (close_trace _ _ _ _ HK E2) as (S2 & rc2 & T2).
    split; [reflexivity|]. eexists. split; [rewrite T2, T1, <- app_assoc; reflexivity|]. cbn. lia.
  - destruct (loop_receive_trace _ _ _ _ E) as (S2 & fd & n & T2). split; [exact CA|]. eexists. split; [exact T2|]. cbn. lia.
  - destruct (steady_rest e fuel m grow x w CB) as (rest & T2 & IN & _). rewrite E in T2. cbn [snd] in T2.
    destruct (inner_counts 256 rest IN) as (X & _). split; [exact CA|]. exists rest. split; [exact T2|]. rewrite X. destruct r; cbn in *; lia.
  - destruct (stop_send_trace _ _ _ _ _ E) as (rest & T2 & IN & S2). destruct (inner_counts 256 rest IN) as (X & _).
    split; [exact CA|]. exists rest. split; [exact T2|]. lia.
  - destruct (stop_send_trace _ _ _ _ _ E) as (rest & T2 & IN & S2). destruct (inner_counts 256 rest IN) as (X & _).
    split; [exact CA|]. exists rest. split; [exact T2|]. lia.
  - destruct (stop_receive_trace _ _ _ _ E) as (S2 & fd & n & T2). split; [exact CA|]. eexists. split; [exact T2|]. cbn. lia.
  - destruct (stop_rest_trace _ _ _ _ _ _ E) as (S2 & T2). split; [exact CA|].
    destruct r as [[er|]| |]; [exists []; rewrite app_nil_r; cbn; auto|destruct T2 as (fd & rc & T2)|exists []; rewrite app_nil_r; cbn; auto|exists []; rewrite app_nil_r; cbn; auto].
    eexists. split; [exact T2|]. cbn. lia.
Qed.
Lemma cancel_steps tr0 p ls p' : pinv tr0 p -> p_cancel p = true -> steps fuel m grow e p ls p' ->
  p_cancel p' = true /\ exists new, w_tr (p_w p') = w_tr (p_w p) ++ new /\ (takes 256 new + due (p_loop p') <= due (p_loop p))%nat.
Proof.
  intros H CA S. revert H CA. induction S as [p|p l p1 ls p2 ST _ IH]; intros H CA.
  - split; [exact CA|]. exists []. rewrite app_nil_r. cbn. auto.
  - pose proof H as [_ HK CB]. destruct (cancel_step p l p1 CA HK CB ST) as (C1 & n1 & T1 & L1).
    destruct (IH (pinv_step _ _ _ _ H ST) C1) as (C2 & n2 & T2 & L2). split; [exact C2|].
    exists (n1 ++ n2). rewrite T2, T1, app_assoc. split; [reflexivity|]. rewrite takes_app. lia.
Qed.
End STEPS.

(** ** Steps that can be computed *)
Section EXEC.
Variables (fuel : nat) (m : endian) (grow : nat -> nat -> nat) (e : env).
Definition exec (p : proc) (l : label) : option proc :=
  let '(mkProc w q a b c cl lp s) := p in
  match l with
  | Arrive d => if b then Some (mkProc w (q ++ [d]) (a ++ [d]) true c cl lp s) else None
  | Cancel => Some (mkProc w q a b true cl lp s)
  | LoopCheck =>
      match lp with
      | LCheck =>
          if c then
            let w1 := snd (do_call KCtxDone (asked true e) w) in
            match NfqClose e w1 with (Ok _, w2) => Some (mkProc w2 q a b true true LEnd s) | _ => None end
          else
            let w1 := snd (do_call KCtxDone (asked false e) w) in
            if cl then match loop_receive (fails EBADF e) w1 with (Ok x, w2) => Some (mkProc w2 q a b false true (LGot x) s) | _ => None end
            else Some (mkProc w1 q a b false false LWait s)
      | _ => None
      end
  | LoopTake =>
      match lp, q with
      | LWait, d :: q => match loop_receive (gives d e) w with (Ok x, w1) => Some (mkProc w1 q a b c cl (LGot x) s) | _ => None end
      | _, _ => None
      end
  | LoopHandle =>
      match lp with
      | LGot x => let r := process_rest fuel m grow x e w in
          Some (mkProc (snd r) q a b c cl (match fst r with Ok _ => LCheck | _ => LCrash end) s)
      | _ => None
      end
  | StopSend ok reply =>
      match s with
      | SIdle =>
          match stop_send m e w with
          | (Ok (Some er), w1) => Some (mkProc w1 q a b c cl lp (SRet (Some er)))
          | (Ok None, w1) => if cl then None else Some (mkProc w1 (q ++ [reply]) (a ++ [reply]) (if ok then false else b) c false lp SWait)
          | _ => None
          end
      | _ => None
      end
  | StopTake =>
      match s, q with
      | SWait, d :: q => match stop_receive (gives d e) w with (Ok x, w1) => Some (mkProc w1 q a b c cl lp (SGot x)) | _ => None end
      | _, _ => None
      end
  | StopHandle =>
      match s with
      | SGot x => let r := stop_rest m x e w in
          Some (mkProc (snd r) q a b c (match fst r with Ok None => true | _ => cl end) lp (match fst r with Ok r => SRet r | _ => SCrash end))
      | _ => None
      end
  end.
Fixpoint execs (p : proc) (ls : list label) : option proc :=
  match ls with [] => Some p | l :: ls => match exec p l with Some p => execs p ls | None => None end end.
Lemma exec_sound p l p' : exec p l = Some p' -> step fuel m grow e p l p'.
Proof.
  destruct p as [w q a b c cl lp s]. destruct l; cbn [exec]; intros E.
  - destruct b; [|discriminate]. injection E as <-. constructor.
  - injection E as <-. constructor.
  - destruct lp; try discriminate. destruct c.
    + destruct (NfqClose _ _) as [[[]| |] w2] eqn:EC; try discriminate. injection E as <-.
      eapply st_check_done; [unfold do_call; reflexivity|exact EC].
    + destruct cl.
      * destruct (loop_receive _ _) as [[x| |] w2] eqn:EC; try discriminate. injection E as <-.
        eapply st_check_closed; [unfold do_call; reflexivity|exact EC].
      * injection E as <-. eapply st_check_wait. unfold do_call; reflexivity.
  - destruct lp; try discriminate. destruct q as [|d q]; try discriminate.
    destruct (loop_receive _ _) as [[x| |] w2] eqn:EC; try discriminate. injection E as <-. now constructor.
  - destruct lp; try discriminate. destruct (process_rest _ _ _ _ _ _) as [r w2] eqn:EC. injection E as <-. now constructor.
  - destruct s; try discriminate. destruct (stop_send _ _ _) as [[[er|]| |] w2] eqn:EC; try discriminate.
    + injection E as <-. now apply st_send_fails.
    + destruct cl; [discriminate|]. injection E as <-. now apply st_send.
  - destruct s; try discriminate. destruct q as [|d q]; try discriminate.
    destruct (stop_receive _ _) as [[x| |] w2] eqn:EC; try discriminate. injection E as <-. now constructor.
  - destruct s; try discriminate. destruct (stop_rest _ _ _ _) as [r w2] eqn:EC. injection E as <-. now constructor.
Qed.
Lemma execs_sound ls : forall p p', execs p ls = Some p' -> steps fuel m grow e p ls p'.
Proof.
  induction ls as [|l ls IH]; intros p p' E; cbn [execs] in E.
  - injection E as <-. constructor.
  - destruct (exec p l) as [p1|] eqn:X; [|discriminate]. econstructor; [apply exec_sound, X|apply IH, E].
Qed.
(** what is observed at the end of a computed schedule *)
Lemma execs_observe {A} p ls (f : proc -> A) x :
  match execs p ls with Some p' => Some (f p') | None => None end = Some x ->
  exists p', steps fuel m grow e p ls p' /\ f p' = x.
Proof.
  destruct (execs p ls) as [p'|] eqn:E; [|discriminate]. intros H. injection H as H.
  exists p'. split; [apply execs_sound, E|exact H].
Qed.
Lemma loop_receive_ok d w k : q_handle (w_st w) = Some k -> exists x w1, loop_receive (gives d e) w = (Ok x, w1).
Proof.
  intros HK. unfold loop_receive. rewrite bind_get_st, HK. unfold sys_recvfrom. rewrite bind_do_call. cbn [gives r_err]. do 2 eexists. reflexivity.
Qed.
(** the loop takes the answer that StopQueue waits for *)
Lemma stolen_answer w q0 k l reply : l = LWait -> q_handle (w_st w) = Some k -> is_u16 (q_num (w_st w)) ->
  (forall b, r_err (e (w_tr w) (KSendto (k_fd k) b 0)) = None) -> q0 = [] ->
  exists p1, steps fuel m grow e (mkProc w q0 [] true false false l SIdle) [StopSend true reply; LoopTake] p1 /\ abandoned p1.
Proof.
  intros -> HK N OK ->. destruct (stop_send_run m e w k N HK) as (b & _ & R). cbv zeta in R. rewrite OK in R.
  destruct (loop_receive_ok reply (mkW (w_st w) (w_heap w) (w_tr w ++ [(KSendto (k_fd k) b 0, e (w_tr w) (KSendto (k_fd k) b 0))])) k HK) as (x & w1 & T).
  eexists. split.
  - econstructor; [eapply st_send; exact R|]. econstructor; [|constructor]. apply st_loop_take. exact T.
  - split; [reflexivity|]. split; reflexivity.
Qed.
End EXEC.
