(** C16, C17: CreateAndStartNfQueue. *)
From Verif Require Export Proof.NfqConfig.

Lemma NfqClose_run e w fd :
  open_handle w fd ->
  exists r, NfqClose e w = (Ok tt, mkW (w_st w) (w_heap w) (w_tr w ++ [(KClose fd, r)])).
Proof.
  intros (buf & H & _). unfold NfqClose. rewrite bind_get_st, H. cbn [k_fd]. eexists. reflexivity.
Qed.

Lemma cfg_fail_close e (w : world nfq) fd er :
  open_handle w fd ->
  exists r, (let! _ := NfqClose in ret (Some er : option gerr)) e w =
            (Ok (Some er), mkW (w_st w) (w_heap w) (w_tr w ++ [(KClose fd, r)])).
Proof.
  intros H. destruct (NfqClose_run e w fd H) as [r E]. exists r.
  rewrite (bind_ok _ _ _ _ _ _ E). reflexivity.
Qed.

Lemma CreateAndStart_run m queueID maxp psz cb ecb priv e w :
  is_u16 queueID -> is_u32 maxp -> is_u32 psz -> replies_within 20 76800 e ->
  exists err w' new,
    CreateAndStartNfQueue m queueID maxp psz cb ecb priv e w = (Ok err, w') /\
    w_tr w' = w_tr w ++ new /\
    start_outcome m queueID maxp psz new err /\
    (err = None -> exists fd evs rest, new = evs ++ rest /\ opens fd evs /\ open_handle w' fd /\
       q_num (w_st w') = queueID /\ q_cb (w_st w') = cb /\ q_ecb (w_st w') = ecb /\
       q_priv (w_st w') = priv).
Proof.
  intros A1 A2 A3 R. unfold CreateAndStartNfQueue.
  destruct (NewNFQueue_run e w) as (w0 & E0 & T0 & _ & N0 & V0 & L0 & C0 & _).
  rewrite (bind_ok _ _ _ _ _ _ E0).
  destruct (NfqOpen_run e w0 V0 L0 C0) as (er & w1 & new1 & E1 & T1 & _ & P1).
  rewrite (bind_ok _ _ _ _ _ _ E1). rewrite T0 in T1.
  destruct er as [er|].
  { eexists _, w1, new1. split; [reflexivity|]. split; [exact T1|].
    split; [constructor; apply P1|discriminate]. }
  destruct P1 as (fd & O1 & H1 & N1 & _). rewrite N0 in N1.
  (* unbind *)
  destruct (cfg_request m CfgUnbindPf e w1 fd I ltac:(rewrite N1; red; lia) H1 R)
    as (er2 & w2 & new2 & b2 & E2 & T2 & M2 & Q2 & S2 & H2 & _).
  cbn [cfg_run] in E2. rewrite (bind_ok _ _ _ _ _ _ E2). rewrite N1 in M2.
  destruct er2 as [er2|].
  { destruct (cfg_fail_close e w2 fd (EWrapped 2 er2) H2) as [r ->].
    eexists _, _, _. split; [reflexivity|]. cbn [w_tr]. rewrite T2, T1, <- !app_assoc.
    split; [reflexivity|]. split; [|discriminate].
    eapply (start_failed_before_create _ _ _ _ fd new1 new2 0); [exact O1| |lia].
    eapply ran_fail; eassumption. }
  cbn [cfg_state] in S2.
  (* bind *)
  destruct (cfg_request m CfgBindPf e w2 fd I ltac:(rewrite S2, N1; red; lia) H2 R)
    as (er3 & w3 & new3 & b3 & E3 & T3 & M3 & Q3 & S3 & H3 & _).
  cbn [cfg_run] in E3. rewrite (bind_ok _ _ _ _ _ _ E3). rewrite S2, N1 in M3.
  destruct er3 as [er3|].
  { destruct (cfg_fail_close e w3 fd (EWrapped 3 er3) H3) as [r ->].
    eexists _, _, _. split; [reflexivity|]. cbn [w_tr].
    rewrite T3, T2, T1, <- !app_assoc. split; [reflexivity|]. split; [|discriminate].
    rewrite (app_assoc new2).
    eapply (start_failed_before_create _ _ _ _ fd new1 (new2 ++ new3) 1); [exact O1| |lia].
    eapply ran_ok; [eassumption..|]. eapply ran_fail; eassumption. }
  cbn [cfg_state] in S3.
  (* create *)
  destruct (cfg_request m (CfgCreate queueID cb ecb priv) e w3 fd A1
             ltac:(rewrite S3, S2, N1; red; lia) H3 R)
    as (er4 & w4 & new4 & b4 & E4 & T4 & M4 & Q4 & S4 & H4 & _).
  cbn [cfg_run] in E4. rewrite (bind_ok _ _ _ _ _ _ E4). rewrite S3, S2, N1 in M4.
  assert (M4' : read_message m b4 = Some (cfg_message (CfgCreate queueID None false 0) 0)) by exact M4.
  clear M4.
  destruct er4 as [er4|].
  { destruct (cfg_fail_close e w4 fd (EWrapped 4 er4) H4) as [r ->].
    eexists _, _, _. split; [reflexivity|]. cbn [w_tr].
    rewrite T4, T3, T2, T1, <- !app_assoc. split; [reflexivity|]. split; [|discriminate].
    rewrite (app_assoc new3), (app_assoc new2).
    eapply (start_failed_before_create _ _ _ _ fd new1 (new2 ++ new3 ++ new4) 2); [exact O1| |lia].
    do 2 (eapply ran_ok; [eassumption..|]). eapply ran_fail; eassumption. }
  cbn [cfg_state] in S4.
  assert (N4 : q_num (w_st w4) = queueID) by (rewrite S4; reflexivity).
  (* mode *)
  assert (A5 : cfg_args_ok (CfgMode 2 psz)).
  { cbn [cfg_args_ok]. split; [|exact A3]. unfold is_u8. lia. }
  destruct (cfg_request m (CfgMode 2 psz) e w4 fd A5
             ltac:(rewrite N4; exact A1) H4 R)
    as (er5 & w5 & new5 & b5 & E5 & T5 & M5 & Q5 & S5 & H5 & _).
  cbn [cfg_run] in E5. change NfqnlCopyPacket with 2. rewrite (bind_ok _ _ _ _ _ _ E5).
  cbn [cfg_state] in S5. rewrite N4 in M5.
  assert (N5 : q_num (w_st w5) = queueID) by (rewrite S5; exact N4).
  destruct er5 as [er5|].
  { destruct (cfg_request m CfgDestroy e w5 fd I ltac:(rewrite N5; exact A1) H5 R)
      as (er6 & w6 & new6 & b6 & E6 & T6 & M6 & Q6 & S6 & H6 & _).
    cbn [cfg_run] in E6. rewrite (bind_ok _ _ _ _ _ _ E6). rewrite N5 in M6.
    destruct (cfg_fail_close e w6 fd (EWrapped 5 er5) H6) as [r ->].
    eexists _, _, _. split; [reflexivity|]. cbn [w_tr].
    rewrite T6, T5, T4, T3, T2, T1, <- !app_assoc. split; [reflexivity|]. split; [|discriminate].
    rewrite (app_assoc new4), (app_assoc new3), (app_assoc new2).
    eapply (start_failed_after_create _ _ _ _ fd new1 (new2 ++ new3 ++ new4 ++ new5) 3);
      [exact O1| |lia|exact M6|exact Q6].
    do 3 (eapply ran_ok; [eassumption..|]). eapply ran_fail; eassumption. }
  (* max length *)
  destruct (cfg_request m (CfgMaxLen maxp) e w5 fd A2 ltac:(rewrite N5; exact A1) H5 R)
    as (er7 & w7 & new7 & b7 & E7 & T7 & M7 & Q7 & S7 & H7 & _).
  cbn [cfg_run] in E7. rewrite (bind_ok _ _ _ _ _ _ E7).
  cbn [cfg_state] in S7. rewrite N5 in M7.
  assert (N7 : q_num (w_st w7) = queueID) by (rewrite S7; exact N5).
  destruct er7 as [er7|].
  { destruct (cfg_request m CfgDestroy e w7 fd I ltac:(rewrite N7; exact A1) H7 R)
      as (er6 & w6 & new6 & b6 & E6 & T6 & M6 & Q6 & S6 & H6 & _).
    cbn [cfg_run] in E6. rewrite (bind_ok _ _ _ _ _ _ E6). rewrite N7 in M6.
    destruct (cfg_fail_close e w6 fd (EWrapped 6 er7) H6) as [r ->].
    eexists _, _, _. split; [reflexivity|]. cbn [w_tr].
    rewrite T6, T7, T5, T4, T3, T2, T1, <- !app_assoc. split; [reflexivity|]. split; [|discriminate].
    rewrite (app_assoc new5), (app_assoc new4), (app_assoc new3), (app_assoc new2).
    eapply (start_failed_after_create _ _ _ _ fd new1 (new2 ++ new3 ++ new4 ++ new5 ++ new7) 4);
      [exact O1| |lia|exact M6|exact Q6].
    do 4 (eapply ran_ok; [eassumption..|]). eapply ran_fail; eassumption. }
  rewrite bind_do_call. eexists None, _, _. split; [reflexivity|]. cbn [w_tr w_st].
  rewrite T7, T5, T4, T3, T2, T1, <- !app_assoc. split; [reflexivity|].
  rewrite (app_assoc new5), (app_assoc new4), (app_assoc new3), (app_assoc new2).
  split.
  - eapply (start_ok _ _ _ _ fd new1 (new2 ++ new3 ++ new4 ++ new5 ++ new7)); [exact O1|].
    rewrite <- (app_nil_r new7).
    do 5 (eapply ran_ok; [eassumption..|]). constructor.
  - intros _. eexists fd, new1, _. split; [reflexivity|]. split; [exact O1|].
    split; [exact H7|]. rewrite S7, S5, S4. cbn. auto.
Qed.

(** ** No descriptor left behind *)
Lemma one_request_left_open m fd n b new res acc :
  one_request m fd n b new res -> left_open acc new = acc.
Proof. intros [(r1 & en & _ & -> & _)|(r1 & r2 & _ & -> & _)]; reflexivity. Qed.
Lemma left_open_app l1 : forall acc l2, left_open acc (l1 ++ l2) = left_open (left_open acc l1) l2.
Proof. induction l1 as [|[c r] l1 IH]; intros acc l2; [reflexivity|]. destruct c; cbn; apply IH. Qed.
Lemma ran_left_open m fd lim msgs new acked err acc :
  ran_requests m fd lim msgs new acked err -> left_open acc new = acc.
Proof.
  intros H. revert acc.
  induction H as [|msg rest b new er _ H|msg rest b new new' acked err _ H _ IH]; intros acc.
  - reflexivity.
  - exact (one_request_left_open _ _ _ _ _ _ _ H).
  - rewrite left_open_app, (one_request_left_open _ _ _ _ _ _ _ H). apply IH.
Qed.
Lemma remove_fd_head fd l : remove_fd fd (fd :: l) = l.
Proof. cbn. rewrite Z.eqb_refl. reflexivity. Qed.
Lemma opens_left_open fd evs acc : opens fd evs -> left_open acc evs = fd :: acc.
Proof. intros (rs & rb & r1 & r2 & r3 & r4 & A & B & _ & ->). cbn. rewrite A, B. reflexivity. Qed.

Lemma start_no_leak m queueID maxp psz new err acc :
  start_outcome m queueID maxp psz new err ->
  match err with
  | None => exists fd, left_open acc new = fd :: acc
  | Some _ =>
      (exists rs rb en fd, r_err rs = None /\ r_val rs = fd /\ r_err rb = Some en /\
         new = [(KSocket AF_NETLINK SOCK_RAW NETLINK_NETFILTER, rs); (KBind fd AF_NETLINK, rb)])
      \/ left_open acc new = acc
  end.
Proof.
  intros [new' er H|fd evs reqs r O H|fd evs reqs acked why er r O H A|fd evs reqs acked why er r b d rs O H A D Q].
  - destruct H as [(rs & en & H & ->)|(rs & rb & en & H & K & ->)].
    + right. cbn. rewrite H. reflexivity.
    + left. exists rs, rb, en, (r_val rs). auto.
  - exists fd. rewrite !left_open_app, (opens_left_open _ _ _ O), (ran_left_open _ _ _ _ _ _ _ _ H).
    reflexivity.
  - right. rewrite !left_open_app, (opens_left_open _ _ _ O), (ran_left_open _ _ _ _ _ _ _ _ H).
    cbn [left_open]. apply remove_fd_head.
  - right. rewrite !left_open_app, (opens_left_open _ _ _ O), (ran_left_open _ _ _ _ _ _ _ _ H),
      (one_request_left_open _ _ _ _ _ _ _ Q).
    cbn [left_open]. apply remove_fd_head.
Qed.
