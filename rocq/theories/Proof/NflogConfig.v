(** C15, C17, C23, C24, C29 for nflog. *)
From Verif Require Export Proof.SockFacts Proof.MessageFacts Proof.NfqStart Spec.NflogSpec.

Definition log_bytes (m : endian) (family group : Z) (attr : Z * bytes) : bytes :=
  hdr_bytes m (mkNlh (24 + zlen (snd attr)) 1025 5 0 0) ++
  gen_bytes (mkGen family 0 group) ++
  attr_bytes m (mkAttr (4 + zlen (snd attr)) (fst attr)) ++ snd attr.

Lemma log_bytes_ok m family group (attr : Z * bytes) :
  is_u8 family -> is_u16 group -> is_u16 (fst attr) -> zlen (snd attr) <= 65000 ->
  (length (snd attr) mod 4 = 0)%nat ->
  read_message m (log_bytes m family group attr) = Some (log_message family group attr).
Proof.
  intros R1 R2 R3 L A. unfold log_bytes.
  rewrite <- (app_nil_r (attr_bytes m (mkAttr (4 + zlen (snd attr)) (fst attr)) ++ snd attr)).
  assert (P : 0 <= zlen (snd attr)) by (unfold zlen; lia).
  rewrite (read_message_build m (mkNlh (24 + zlen (snd attr)) 1025 5 0 0) (mkGen family 0 group)
             (attr_bytes m (mkAttr (4 + zlen (snd attr)) (fst attr)) ++ snd attr) [] [attr]).
  - reflexivity.
  - unfold hdr_in_range, is_u32, is_u16. cbn [n_len n_type n_flags n_seq n_pid]. lia.
  - exact R1.
  - cbn. red; lia.
  - exact R2.
  - cbn [n_len]. unfold zlen. rewrite app_length, attr_bytes_length. lia.
  - rewrite app_length, attr_bytes_length. cbn [length]. unfold al4.
    replace (4 + length (snd attr) + 3)%nat with (3 + (1 + length (snd attr) / 4) * 4)%nat
      by (pose proof (Nat.div_mod (length (snd attr)) 4 ltac:(lia)); lia).
    rewrite Nat.div_add by lia. change (3/4)%nat with 0%nat.
    pose proof (Nat.div_mod (length (snd attr)) 4 ltac:(lia)). lia.
  - destruct attr as [t v]. cbn [fst snd] in *. apply attrs_of_last; [reflexivity|red; lia|exact R3].
Qed.

(** one request on an open handle *)
Definition log_request (m : endian) (hdr : nlmsghdr) (data : bytes) (absent : option gerr)
  : ML (option gerr) :=
  let! l := get_st in
  match l_sock l with
  | Some k => nfl_query m k hdr data
  | None => ret absent
  end.

Lemma log_request_run m hdr data absent hi e w fd :
  (4 <= length data)%nat -> replies_within 20 hi e -> open_log w fd ->
  exists res w' new,
    log_request m hdr data absent e w = (Ok res, w') /\ w_tr w' = w_tr w ++ new /\
    one_request m fd (zlen (hdr_bytes m hdr ++ data)) (hdr_bytes m hdr ++ data) new res /\
    open_log w' fd /\ l_cb (w_st w') = l_cb (w_st w) /\ l_ecb (w_st w') = l_ecb (w_st w).
Proof.
  intros L R [b0 O]. unfold log_request. rewrite bind_get_st, O. unfold nfl_query. cbn [ls_fd].
  destruct (sock_exchange m fd hdr data hi e w
              (fun buf => let! l := get_st in put_st (mkL (l_cb l) (l_ecb l) (Some (mkLS fd buf)))) L R)
    as (res & w' & new & buf & st & E & T & Q & K & W & _).
  { intros s. exists (mkL (l_cb (w_st w)) (l_ecb (w_st w)) (Some (mkLS fd s))). intros h tr. reflexivity. }
  specialize (K [] []). cbn in K. injection K as K.
  exists res, w', new. split.
  { rewrite <- E. unfold mbind.
    destruct (sock_send m fd hdr data e w) as [[[bf er]| |] w1]; reflexivity. }
  split; [exact T|]. split; [exact Q|].
  unfold open_log. rewrite W, <- K. cbn. eauto.
Qed.

Lemma nfl_data_ok m g a c : nfl_data m g a (Ok c) = Ok (gen_bytes g ++ attr_bytes m a ++ c).
Proof.
  unfold nfl_data. rewrite NfqGenMsg_ToWireFormat_ok, NfAttr_ToWireFormat_ok. cbn [rbind].
  rewrite <- app_assoc. reflexivity.
Qed.

Lemma nfl_pf_command_run m cmd hi e w fd :
  is_u8 cmd -> replies_within 20 hi e -> open_log w fd ->
  exists res w' new,
    nfl_pf_command m cmd e w = (Ok res, w') /\ w_tr w' = w_tr w ++ new /\
    one_request m fd (zlen (log_bytes m 2 0 (1, [cmd; 0; 0; 0]))) (log_bytes m 2 0 (1, [cmd; 0; 0; 0])) new res /\
    open_log w' fd.
Proof.
  intros C R O.
  assert (Q : nfl_pf_command m cmd e w =
    log_request m (mkNlh 28 1025 5 0 0)
      (gen_bytes (mkGen 2 0 0) ++ attr_bytes m (mkAttr 8 1) ++ [cmd; 0; 0; 0]) (Some ENotOpen) e w).
  { unfold nfl_pf_command. cbn [BuildNfgenMsg BuildNfAttrMsg].
    change (NflMsgConfigCommand_ToWireFormat cmd) with (Ok [u8 cmd; 0; 0; 0]).
    rewrite nfl_data_ok, bind_lift_ok. red in C. replace (u8 cmd) with cmd by (unfold u8; lia).
    reflexivity. }
  rewrite Q.
  destruct (log_request_run m (mkNlh 28 1025 5 0 0)
      (gen_bytes (mkGen 2 0 0) ++ attr_bytes m (mkAttr 8 1) ++ [cmd; 0; 0; 0]) (Some ENotOpen) hi e w fd)
    as (res & w' & new & E & T & H & O' & _); [cbn; lia|exact R|exact O|].
  exists res, w', new. auto.
Qed.

(** the loops as sequences of [log_request]s *)
Definition then_groups (rest : ML (option gerr)) (x : option gerr) : ML (option gerr) :=
  match x with Some er => ret (Some er) | None => rest end.
Lemma bind_groups_cons m g gs e w :
  is_u16 g ->
  bind_groups m (g :: gs) e w =
  mbind (log_request m (mkNlh 28 1025 5 0 0)
           (gen_bytes (mkGen 2 0 g) ++ attr_bytes m (mkAttr 8 1) ++ [1; 0; 0; 0]) None)
        (then_groups (bind_groups m gs)) e w.
Proof.
  intros G; red in G. cbn [bind_groups BuildNfgenMsg BuildNfAttrMsg].
  change (NflMsgConfigCommand_ToWireFormat NFULNL_CFG_CMD_BIND) with (Ok [1; 0; 0; 0]).
  rewrite nfl_data_ok, bind_lift_ok. unfold log_request. rewrite bind_assoc.
  replace (u16 g) with g by (unfold u16; lia). reflexivity.
Qed.
Lemma NFlogSetMode_cons m g gs sz e w :
  is_u16 g -> is_u32 sz ->
  NFlogSetMode m (g :: gs) sz e w =
  mbind (log_request m (mkNlh 32 1025 5 0 0)
           (gen_bytes (mkGen 0 0 g) ++ attr_bytes m (mkAttr 12 2) ++ be32 sz ++ [2; 0; 0; 0]) None)
        (then_groups (NFlogSetMode m gs sz)) e w.
Proof.
  intros G Z; red in G, Z. cbn [NFlogSetMode BuildNfgenMsg BuildNfAttrMsg].
  change (NflMsgConfigMode_ToWireFormat sz NFULNL_COPY_PACKET) with (Ok (put32 BE sz ++ [2; 0; 0; 0])).
  assert (B : put32 BE sz = be32 sz) by (unfold put32, be32; f_equal; lia).
  rewrite B, nfl_data_ok, bind_lift_ok. unfold log_request. rewrite bind_assoc.
  replace (u16 g) with g by (unfold u16; lia). reflexivity.
Qed.

Lemma groups_run m hi e fd family (attr : Z * bytes) (data : Z -> bytes) (loop : list Z -> ML (option gerr)) hdr :
  replies_within 20 hi e -> is_u8 family -> is_u16 (fst attr) -> zlen (snd attr) <= 65000 ->
  (length (snd attr) mod 4 = 0)%nat ->
  (forall g, (4 <= length (data g))%nat /\ hdr_bytes m hdr ++ data g = log_bytes m family g attr) ->
  (forall w, loop [] e w = (Ok None, w)) ->
  (forall g gs w, is_u16 g ->
     loop (g :: gs) e w = mbind (log_request m hdr (data g) None) (then_groups (loop gs)) e w) ->
  forall groups w, Forall is_u16 groups -> open_log w fd ->
  exists err w' new acked,
    loop groups e w = (Ok err, w') /\ w_tr w' = w_tr w ++ new /\
    ran_requests m fd zlen (map (fun g => log_message family g attr) groups) new acked err /\
    open_log w' fd /\ l_cb (w_st w') = l_cb (w_st w) /\ l_ecb (w_st w') = l_ecb (w_st w) /\
    (err = None -> acked = length groups).
Proof.
  intros R F A1 A2 A3 D L0 LS. induction groups as [|g gs IH]; intros w G O.
  - exists None, w, [], 0%nat. rewrite app_nil_r. split; [apply L0|]. split; [reflexivity|].
    split; [constructor|]. auto.
  - pose proof (Forall_inv G) as Gg. pose proof (Forall_inv_tail G) as Gs.
    rewrite LS by exact Gg. destruct (D g) as [Dl Db].
    destruct (log_request_run m hdr (data g) None hi e w fd Dl R O)
      as (res & w' & new & E & T & H & O' & C1 & C2).
    rewrite Db in H. rewrite (bind_ok _ _ _ _ _ _ E).
    pose proof (log_bytes_ok m family g attr F Gg A1 A2 A3) as M.
    destruct res as [er|]; cbn [then_groups].
    + exists (Some er), w', new, 0%nat. split; [reflexivity|]. split; [exact T|].
      split; [cbn [map]; eapply ran_fail; eassumption|]. split; [exact O'|].
      split; [exact C1|]. split; [exact C2|discriminate].
    + destruct (IH w' Gs O') as (err & w2 & new2 & acked & E2 & T2 & H2 & O2 & C3 & C4 & K2).
      exists err, w2, (new ++ new2), (S acked). split; [exact E2|].
      rewrite T2, T, <- app_assoc. split; [reflexivity|].
      split; [cbn [map]; eapply ran_ok; eassumption|]. split; [exact O2|].
      split; [congruence|]. split; [congruence|]. intros X. rewrite (K2 X). reflexivity.
Qed.

Lemma bind_groups_run m hi e fd groups w :
  replies_within 20 hi e -> Forall is_u16 groups -> open_log w fd ->
  exists err w' new acked,
    bind_groups m groups e w = (Ok err, w') /\ w_tr w' = w_tr w ++ new /\
    ran_requests m fd zlen (log_messages (LogBindGroup groups true true)) new acked err /\
    open_log w' fd /\ l_cb (w_st w') = l_cb (w_st w) /\ l_ecb (w_st w') = l_ecb (w_st w) /\
    (err = None -> acked = length groups).
Proof.
  intros R. apply (groups_run m hi e fd 2 (1, [1; 0; 0; 0])
    (fun g => gen_bytes (mkGen 2 0 g) ++ attr_bytes m (mkAttr 8 1) ++ [1; 0; 0; 0])
    (bind_groups m) (mkNlh 28 1025 5 0 0)); auto; try reflexivity.
  - red; lia.
  - cbn; red; lia.
  - cbn; lia.
  - intros g. split; [cbn; lia|reflexivity].
  - intros g gs w'. apply bind_groups_cons.
Qed.
Lemma NFlogSetMode_run m hi e fd groups sz w :
  replies_within 20 hi e -> is_u32 sz -> Forall is_u16 groups -> open_log w fd ->
  exists err w' new acked,
    NFlogSetMode m groups sz e w = (Ok err, w') /\ w_tr w' = w_tr w ++ new /\
    ran_requests m fd zlen (log_messages (LogSetMode groups sz)) new acked err /\
    open_log w' fd /\ l_cb (w_st w') = l_cb (w_st w) /\ l_ecb (w_st w') = l_ecb (w_st w) /\
    (err = None -> acked = length groups).
Proof.
  intros R Z. apply (groups_run m hi e fd 0 (2, be32 sz ++ [2; 0; 0; 0])
    (fun g => gen_bytes (mkGen 0 0 g) ++ attr_bytes m (mkAttr 12 2) ++ be32 sz ++ [2; 0; 0; 0])
    (fun gs => NFlogSetMode m gs sz) (mkNlh 32 1025 5 0 0)); auto; try reflexivity.
  - red; lia.
  - cbn; red; lia.
  - cbn; lia.
  - intros g. split; [cbn; lia|reflexivity].
  - intros g gs w' G. apply NFlogSetMode_cons; assumption.
Qed.

(** ** C23, C15 *)
Lemma pf_command_ran m cmd hi e w fd :
  is_u8 cmd -> replies_within 20 hi e -> open_log w fd ->
  exists err w' new acked,
    nfl_pf_command m cmd e w = (Ok err, w') /\ w_tr w' = w_tr w ++ new /\
    ran_requests m fd zlen [ log_message 2 0 (1, [cmd; 0; 0; 0]) ] new acked err /\ open_log w' fd.
Proof.
  intros C R O.
  destruct (nfl_pf_command_run m cmd hi e w fd C R O) as (res & w' & new & E & T & H & O').
  assert (M := log_bytes_ok m 2 0 (1, [cmd; 0; 0; 0]) ltac:(red; lia) ltac:(red; lia)
                     ltac:(cbn; red; lia) ltac:(cbn; lia) eq_refl).
  destruct res as [er|].
  - exists (Some er), w', new, 0%nat. split; [exact E|]. split; [exact T|].
    split; [eapply ran_fail; [exact M|exact H]|exact O'].
  - exists None, w', new, 1%nat. split; [exact E|]. split; [exact T|].
    split; [|exact O']. rewrite <- (app_nil_r new). eapply ran_ok; [exact M|exact H|constructor].
Qed.
Lemma log_call_run m c hi e w fd :
  log_args_ok c -> replies_within 20 hi e -> open_log w fd ->
  exists err w' new acked,
    log_run m c e w = (Ok err, w') /\ w_tr w' = w_tr w ++ new /\
    ran_requests m fd zlen (log_messages c) new acked err /\ open_log w' fd.
Proof.
  intros A R O. destruct c as [| |gs cb ecb|gs sz]; cbn [log_run log_args_ok] in *.
  - apply (pf_command_ran m 4 hi); [red; lia|exact R|exact O].
  - apply (pf_command_ran m 3 hi); [red; lia|exact R|exact O].
  - unfold NFlogBindGroup. rewrite bind_get_st, bind_put_st.
    destruct (bind_groups_run m hi e fd gs (mkW (mkL cb ecb (l_sock (w_st w))) (w_heap w) (w_tr w)) R A)
      as (err & w' & new & acked & E & T & H & O' & _).
    { destruct O as [b O]. exists b. exact O. }
    exists err, w', new, acked. auto.
  - destruct A as [A1 A2].
    destruct (NFlogSetMode_run m hi e fd gs sz w R A2 A1 O) as (err & w' & new & acked & E & T & H & O' & _).
    exists err, w', new, acked. auto.
Qed.

(** ** C24 *)
Lemma log_not_open m c e w :
  log_args_ok c -> l_sock (w_st w) = None ->
  exists err w', log_run m c e w = (Ok err, w') /\ w_tr w' = w_tr w /\
    match c with
    | LogUnbind | LogBind => err <> None
    | _ => err = None
    end.
Proof.
  intros A H. destruct c as [| |gs cb ecb|gs sz]; cbn [log_run log_args_ok] in *.
  - unfold NFlogUnbind, nfl_pf_command. cbn [BuildNfgenMsg BuildNfAttrMsg].
    change (NflMsgConfigCommand_ToWireFormat _) with (Ok [4; 0; 0; 0]).
    rewrite nfl_data_ok, bind_lift_ok, bind_get_st, H. eexists _, w. split; [reflexivity|].
    split; [reflexivity|discriminate].
  - unfold NFlogBind, nfl_pf_command. cbn [BuildNfgenMsg BuildNfAttrMsg].
    change (NflMsgConfigCommand_ToWireFormat _) with (Ok [3; 0; 0; 0]).
    rewrite nfl_data_ok, bind_lift_ok, bind_get_st, H. eexists _, w. split; [reflexivity|].
    split; [reflexivity|discriminate].
  - unfold NFlogBindGroup. rewrite bind_get_st, bind_put_st.
    set (w1 := mkW _ _ _). exists None, w1. split; [|auto].
    assert (H1 : l_sock (w_st w1) = None) by exact H. clearbody w1. clear H.
    induction gs as [|g gs IH]; [reflexivity|].
    rewrite bind_groups_cons by (apply (Forall_inv A)).
    unfold log_request. rewrite bind_assoc, bind_get_st, H1, bind_ret. cbn [then_groups].
    apply IH, (Forall_inv_tail A).
  - destruct A as [A Z]. exists None, w. split; [|auto].
    induction gs as [|g gs IH]; [reflexivity|].
    rewrite NFlogSetMode_cons by (try exact Z; apply (Forall_inv A)).
    unfold log_request. rewrite bind_assoc, bind_get_st, H, bind_ret. cbn [then_groups].
    apply IH, (Forall_inv_tail A).
Qed.

(** ** Opening *)
Lemma NFlogOpen_run e w :
  exists err w' new,
    NFlogOpen e w = (Ok err, w') /\ w_tr w' = w_tr w ++ new /\
    match err with
    | None => exists fd, log_opens fd new /\ open_log w' fd
    | Some _ => open_fails new /\ l_sock (w_st w') = l_sock (w_st w)
    end.
Proof.
  unfold NFlogOpen. repeat mstep.
  set (c1 := KSocket _ _ _). set (rs := e (w_tr w) c1).
  destruct (r_err rs) as [en|] eqn:E1.
  { eexists _, _, _. split; [reflexivity|]. cbn. split; [reflexivity|].
    split; [|reflexivity]. left. exists rs, en. auto. }
  repeat mstep. set (t1 := w_tr w ++ _).
  set (c2 := KBind _ _). set (rb := e t1 c2).
  destruct (r_err rb) as [en|] eqn:E2.
  { eexists _, _, _. split; [reflexivity|]. cbn [w_tr w_st]. unfold t1. rewrite <- app_assoc.
    split; [reflexivity|]. split; [|reflexivity]. right. exists rs, rb, en. auto. }
  repeat mstep. eexists None, _, _. split; [reflexivity|]. cbn [w_tr w_heap w_st].
  unfold t1. rewrite <- !app_assoc. split; [reflexivity|].
  exists (r_val rs). split.
  - cbn [app]. unfold log_opens. do 3 eexists. split; [exact E1|]. split; [reflexivity|].
    split; [exact E2|]. reflexivity.
  - exists snil. reflexivity.
Qed.

Lemma ran_app_ok m fd lim l1 new1 a1 : forall e1 l2 new2 a2 err,
  ran_requests m fd lim l1 new1 a1 e1 -> e1 = None -> ran_requests m fd lim l2 new2 a2 err ->
  ran_requests m fd lim (l1 ++ l2) (new1 ++ new2) (a1 + a2) err.
Proof.
  intros e1 l2 new2 a2 err H. revert l2 new2 a2 err.
  induction H as [|msg rest b new er R H|msg rest b new new' acked err R H H' IH];
    intros l2 new2 a2 err2 X K; [exact K|discriminate|].
  cbn [app Nat.add]. rewrite <- app_assoc. eapply ran_ok; [exact R|exact H|].
  apply IH; assumption.
Qed.
Lemma ran_app_fail m fd lim l1 new1 a1 : forall e1 l2 er,
  ran_requests m fd lim l1 new1 a1 e1 -> e1 = Some er ->
  ran_requests m fd lim (l1 ++ l2) new1 a1 (Some er).
Proof.
  intros e1 l2 er H. revert l2 er.
  induction H as [|msg rest b new er' R H|msg rest b new new' acked err R H H' IH];
    intros l2 er X; [discriminate| |].
  - injection X as <-. cbn [app]. eapply ran_fail; eassumption.
  - cbn [app]. eapply ran_ok; [exact R|exact H|]. apply IH, X.
Qed.

Lemma NFlogClose_run e w fd :
  open_log w fd ->
  exists r, NFlogClose e w = (Ok tt, mkW (w_st w) (w_heap w) (w_tr w ++ [(KClose fd, r)])).
Proof. intros [b H]. unfold NFlogClose. rewrite bind_get_st, H. cbn [ls_fd]. eexists. reflexivity. Qed.

Lemma BindAndListen_run m groups sz cb ecb hi e w :
  Forall is_u16 groups -> is_u32 sz -> replies_within 20 hi e ->
  exists err w' new,
    BindAndListenForLogs m groups sz cb ecb e w = (Ok err, w') /\ w_tr w' = w_tr w ++ new /\
    listen_outcome m groups sz new err /\
    (err = None -> exists fd evs rest, new = evs ++ rest /\ log_opens fd evs /\ open_log w' fd /\
       l_cb (w_st w') = cb /\ l_ecb (w_st w') = ecb).
Proof.
  intros A1 A2 R. unfold BindAndListenForLogs.
  unfold NewNFLog at 1. rewrite bind_put_st.
  set (w0 := mkW _ _ _).
  destruct (NFlogOpen_run e w0) as (er & w1 & new1 & E1 & T1 & P1).
  rewrite (bind_ok _ _ _ _ _ _ E1). cbn [w0 w_tr] in T1.
  destruct er as [er|].
  { eexists _, w1, new1. split; [reflexivity|]. split; [exact T1|]. split; [|discriminate].
    constructor. apply P1. }
  destruct P1 as (fd & O1 & H1).
  unfold NFlogBindGroup. rewrite bind_assoc, bind_get_st, bind_assoc, bind_put_st.
  set (w2 := mkW (mkL cb ecb (l_sock (w_st w1))) (w_heap w1) (w_tr w1)).
  destruct (bind_groups_run m hi e fd groups w2 R A1) as (er3 & w3 & new3 & k3 & E3 & T3 & Q3 & H3 & C3 & D3 & K3).
  { destruct H1 as [b H1]. exists b. exact H1. }
  cbn [w2 w_tr w_st l_cb l_ecb] in T3, C3, D3. rewrite (bind_ok _ _ _ _ _ _ E3).
  destruct er3 as [er3|].
  { destruct (NFlogClose_run e w3 fd H3) as [r Ec]. rewrite (bind_ok _ _ _ _ _ _ Ec).
    eexists _, _, _. split; [reflexivity|]. cbn [w_tr]. rewrite T3, T1, <- !app_assoc.
    split; [reflexivity|]. split; [|discriminate].
    eapply listen_failed; [exact O1|]. eapply ran_app_fail; [exact Q3|reflexivity]. }
  destruct (NFlogSetMode_run m hi e fd groups sz w3 R A2 A1 H3)
    as (er4 & w4 & new4 & k4 & E4 & T4 & Q4 & H4 & C4 & D4 & K4).
  rewrite (bind_ok _ _ _ _ _ _ E4).
  pose proof (ran_app_ok _ _ _ _ _ _ _ _ _ _ _ Q3 eq_refl Q4) as Q.
  destruct er4 as [er4|].
  { destruct (NFlogClose_run e w4 fd H4) as [r Ec]. rewrite (bind_ok _ _ _ _ _ _ Ec).
    eexists _, _, _. split; [reflexivity|]. cbn [w_tr]. rewrite T4, T3, T1, <- !app_assoc.
    split; [reflexivity|]. split; [|discriminate]. rewrite (app_assoc new3).
    eapply listen_failed; [exact O1|exact Q]. }
  rewrite bind_do_call. eexists None, _, _. split; [reflexivity|]. cbn [w_tr w_st].
  rewrite T4, T3, T1, <- !app_assoc. split; [reflexivity|]. split.
  - rewrite (app_assoc new3). eapply listen_ok; [exact O1|].
    rewrite (K3 eq_refl), (K4 eq_refl) in Q. replace (2 * length groups)%nat with (length groups + length groups)%nat by lia.
    exact Q.
  - intros _. eexists fd, new1, _. split; [reflexivity|]. split; [exact O1|].
    split; [destruct H4 as [b H4]; exists b; exact H4|]. split; congruence.
Qed.

Lemma log_opens_left_open fd evs acc : log_opens fd evs -> left_open acc evs = fd :: acc.
Proof. intros (rs & rb & r1 & A & B & _ & ->). cbn. rewrite A, B. reflexivity. Qed.
Lemma listen_no_leak m groups sz new err acc :
  listen_outcome m groups sz new err ->
  match err with
  | None => exists fd, left_open acc new = fd :: acc
  | Some _ =>
      (exists rs rb en fd, r_err rs = None /\ r_val rs = fd /\ r_err rb = Some en /\
         new = [(KSocket AF_NETLINK SOCK_RAW NETLINK_NETFILTER, rs); (KBind fd AF_NETLINK, rb)])
      \/ left_open acc new = acc
  end.
Proof.
  intros [new' er H|fd evs reqs r O H|fd evs reqs acked why er r O H].
  - destruct H as [(rs & en & H & ->)|(rs & rb & en & H & K & ->)].
    + right. cbn. rewrite H. reflexivity.
    + left. exists rs, rb, en, (r_val rs). auto.
  - exists fd. rewrite !left_open_app, (log_opens_left_open _ _ _ O), (ran_left_open _ _ _ _ _ _ _ _ H).
    reflexivity.
  - right. rewrite !left_open_app, (log_opens_left_open _ _ _ O), (ran_left_open _ _ _ _ _ _ _ _ H).
    cbn [left_open]. apply remove_fd_head.
Qed.
