(** Exactly which datagrams crash or hang the queue's receive path (C20). *)
From Verif Require Export Proof.AttrOutcome Proof.Release.

Lemma started_asks m queueID maxp psz cb ecb pd e w w' :
  is_u16 queueID -> is_u32 maxp -> is_u32 psz -> replies_within 20 76800 e ->
  CreateAndStartNfQueue m queueID maxp psz cb ecb pd e w = (Ok None, w') ->
  asks queue_wants (q_attr (w_st w')).
Proof.
  intros A1 A2 A3 R. unfold CreateAndStartNfQueue.
  destruct (NewNFQueue_run e w) as (w0 & E0 & T0 & _ & N0 & V0 & L0 & C0 & AT & _).
  rewrite (bind_ok _ _ _ _ _ _ E0).
  destruct (NfqOpen_run e w0 V0 L0 C0) as (er & w1 & new1 & E1 & T1 & _ & P1).
  rewrite (bind_ok _ _ _ _ _ _ E1).
  destruct er as [er|]; [intros X; inversion X|].
  destruct P1 as (_ & _ & _ & _ & _ & AT1 & _).
  destruct (NewNFQueue_open e w w0 w1 E0 E1) as (fd & priv & evs & TR & O & FR).
  assert (STEP : forall c wa (er : option gerr) wb, cfg_args_ok c -> fresh_ready wa fd priv ->
    cfg_run m c e wa = (Ok er, wb) ->
    fresh_ready wb fd priv /\ q_attr (w_st wb) = q_attr (w_st wa)).
  { intros c wa er wb Hc Hf Hr. destruct (fresh_cfg m c e wa fd priv Hc R Hf er wb Hr) as (X & Y & _).
    split; [exact X|]. rewrite Y. destruct c; reflexivity. }
  assert (RUN : forall c wa, cfg_args_ok c -> fresh_ready wa fd priv ->
    exists er wb, cfg_run m c e wa = (Ok er, wb)).
  { intros c wa Hc [Q _ _ _ _].
    assert (OH : open_handle wa fd) by (destruct Q; exists (q_buf (w_st wa)); auto).
    destruct (cfg_request m c e wa fd Hc (qr_num _ _ Q) OH R) as (er & wb & _ & _ & H & _). eauto. }
  destruct (RUN CfgUnbindPf w1 I FR) as (er2 & w2 & E2).
  destruct (STEP CfgUnbindPf _ _ _ I FR E2) as (FR2 & S2). cbn [cfg_run] in E2.
  rewrite (bind_ok _ _ _ _ _ _ E2).
  assert (CL : forall (f : gerr) wx w'', (let! _ := NfqClose in ret (Some f)) e wx = (Ok None, w'') -> False).
  { intros f wx w''. unfold mbind. destruct (NfqClose e wx) as [[|  |] ?]; intros X; inversion X. }
  assert (CL2 : forall (f : gerr) wx w'', (let! _ := NfqDestroyQueue m in let! _ := NfqClose in ret (Some f)) e wx = (Ok None, w'') -> False).
  { intros f wx w''. unfold mbind at 1. destruct (NfqDestroyQueue m e wx) as [[|  |] ?]; try (intros X; inversion X; fail).
    apply CL. }
  destruct er2; [intros X; destruct (CL _ _ _ X)|].
  destruct (RUN CfgBindPf w2 I FR2) as (er3 & w3 & E3).
  destruct (STEP CfgBindPf _ _ _ I FR2 E3) as (FR3 & S3). cbn [cfg_run] in E3.
  rewrite (bind_ok _ _ _ _ _ _ E3). destruct er3; [intros X; destruct (CL _ _ _ X)|].
  destruct (RUN (CfgCreate queueID cb ecb pd) w3 A1 FR3) as (er4 & w4 & E4).
  destruct (STEP (CfgCreate queueID cb ecb pd) _ _ _ A1 FR3 E4) as (FR4 & S4). cbn [cfg_run] in E4.
  rewrite (bind_ok _ _ _ _ _ _ E4). destruct er4; [intros X; destruct (CL _ _ _ X)|].
  assert (A5 : cfg_args_ok (CfgMode 2 psz)) by (split; [red; lia|exact A3]).
  destruct (RUN (CfgMode 2 psz) w4 A5 FR4) as (er5 & w5 & E5).
  destruct (STEP (CfgMode 2 psz) _ _ _ A5 FR4 E5) as (FR5 & S5). cbn [cfg_run] in E5.
  change NfqnlCopyPacket with 2.
  rewrite (bind_ok _ _ _ _ _ _ E5). destruct er5; [intros X; destruct (CL2 _ _ _ X)|].
  destruct (RUN (CfgMaxLen maxp) w5 A2 FR5) as (er6 & w6 & E6).
  destruct (STEP (CfgMaxLen maxp) _ _ _ A2 FR5 E6) as (FR6 & S6). cbn [cfg_run] in E6.
  rewrite (bind_ok _ _ _ _ _ _ E6). destruct er6; [intros X; destruct (CL2 _ _ _ X)|].
  mstep. intros X. inversion X; subst w'. clear X. cbn [w_st].
  rewrite S6, S5, S4, S3, S2, AT1. destruct AT as (a1 & a3 & a10 & -> & _).
  intros t. unfold requested, queue_wants. cbn [amap_get fst snd].
  destruct (Z.ltb_spec t 11) as [X|X].
  - destruct (Z.eqb_spec t 1) as [->|]; [reflexivity|]. destruct (Z.eqb_spec t 3) as [->|]; [reflexivity|].
    destruct (Z.eqb_spec t 10) as [->|]; [reflexivity|].
    unfold amap_get. cbn [find fst]. 
    repeat match goal with |- context[?a =? ?b] => destruct (Z.eqb_spec a b); [lia|] end. reflexivity.
  - destruct (Z.eqb_spec t 1); [lia|]. destruct (Z.eqb_spec t 3); [lia|]. destruct (Z.eqb_spec t 10); [lia|]. reflexivity.
Qed.

Lemma crash_attr_eq f m tbl b p : asks f tbl -> (crashes_at m tbl b p <-> crash_attr f m b p).
Proof. intros A. unfold crashes_at, crash_attr. now rewrite A. Qed.
Lemma hang_attr_eq f m tbl b p : asks f tbl -> (hangs_at m tbl b p <-> hang_attr f m b p).
Proof. intros A. unfold hangs_at, hang_attr. now rewrite A. Qed.
Lemma fine_eq f m tbl b p : asks f tbl -> (fine_before m tbl b p <-> first_bad f m b p).
Proof.
  intros A. unfold fine_before, first_bad, fatal_at.
  split; intros H p' L; specialize (H p' L); rewrite ?(crash_attr_eq f), ?(hang_attr_eq f) in * by exact A; tauto.
Qed.
(** only one attribute can be the first bad one *)
Lemma first_bad_crash_hang f m b p q :
  crash_attr f m b p -> first_bad f m b p -> hang_attr f m b q -> first_bad f m b q -> False.
Proof.
  intros C FP H FQ. destruct (Nat.lt_trichotomy p q) as [L|[->|L]].
  - exact (proj1 (FQ p L) C).
  - destruct C as (_ & _ & C), H as (_ & _ & H). congruence.
  - exact (proj2 (FP q L) H).
Qed.

Lemma attr_outcome f m h buf tbl fuel :
  valid h buf -> is_bytes (rd h buf) -> Z.of_nat (s_len buf) <= 4294967292 -> (s_len buf / 4 + 1 < fuel)%nat ->
  asks f tbl ->
  ((exists r, NetlinkMessageToNfAttrStruct fuel m h buf tbl = Ok r) <->
     forall p, ~ crash_attr f m (rd h buf) p /\ ~ hang_attr f m (rd h buf) p) /\
  (NetlinkMessageToNfAttrStruct fuel m h buf tbl = Panic <->
     exists p, crash_attr f m (rd h buf) p /\ first_bad f m (rd h buf) p) /\
  ((forall fuel', NetlinkMessageToNfAttrStruct fuel' m h buf tbl = NoFuel) <->
     exists p, hang_attr f m (rd h buf) p /\ first_bad f m (rd h buf) p) /\
  (NetlinkMessageToNfAttrStruct fuel m h buf tbl = NoFuel ->
     forall fuel', NetlinkMessageToNfAttrStruct fuel' m h buf tbl = NoFuel).
Proof.
  intros V HB HL HF A. pose proof (attr_parser_outcome m h buf tbl fuel V HB HL HF) as O.
  destruct (NetlinkMessageToNfAttrStruct fuel m h buf tbl) as [r| |] eqn:E.
  - assert (NB : forall p, ~ crash_attr f m (rd h buf) p /\ ~ hang_attr f m (rd h buf) p).
    { intros p. specialize (O p). unfold fatal_at in O.
      rewrite (crash_attr_eq f), (hang_attr_eq f) in O by exact A. tauto. }
    split; [split; eauto|]. split; [split; [discriminate|intros (p & X & _); destruct (proj1 (NB p) X)]|].
    split; [|discriminate].
    split; [intros X; rewrite X in E; discriminate|intros (p & X & _); destruct (proj2 (NB p) X)].
  - destruct O as (p & C & FI). apply (crash_attr_eq f) in C; [|exact A]. apply (fine_eq f) in FI; [|exact A].
    split; [split; [intros (r & X); discriminate|intros X; destruct (proj1 (X p) C)]|].
    split; [split; eauto|]. split; [|discriminate].
    split; [intros X; rewrite X in E; discriminate|intros (q & X & Y); destruct (first_bad_crash_hang f m (rd h buf) p q C FI X Y)].
  - destruct O as ((p & C & FI) & ALL). apply (hang_attr_eq f) in C; [|exact A]. apply (fine_eq f) in FI; [|exact A].
    split; [split; [intros (r & X); discriminate|intros X; destruct (proj2 (X p) C)]|].
    split; [split; [discriminate|intros (q & X & Y); destruct (first_bad_crash_hang f m (rd h buf) q p X Y C FI)]|].
    split; [split; eauto|auto].
Qed.

(** what the asked-for types are does not change *)
Lemma recv_asks f m fuel e w fd res w' :
  queue_ready w fd -> bytes_env e -> asks f (q_attr (w_st w)) ->
  Recv fuel m e w = (res, w') -> asks f (q_attr (w_st w')).
Proof.
  intros Q HBE A. set (r := e (w_tr w) (KRecvfrom fd 76800 256)). destruct (r_err r) as [en|] eqn:E.
  { rewrite (recv_err m e w fd Q fuel en E). intros X. injection X as <- <-. exact A. }
  rewrite (recv_run m e w fd Q fuel E). fold r. set (d := received r).
  destruct (Nat.ltb_spec (length d) 20) as [S|S]; [intros X; injection X as <- <-; exact A|].
  destruct (Z.eqb_spec (reply_code m d) 0) as [C|C]; cbn [negb]; [|intros X; injection X as <- <-; exact A].
  destruct (NetlinkMessageToNfAttrStruct _ _ _ _ _) as [[[tb lo] er]| |] eqn:EP;
    intros X; injection X as <- <-; try exact A. cbn [w_st set_attr q_attr].
  pose proof (recv_heap_facts e w fd Q) as F. fold r in F. fold d in F. destruct F as (F1 & F3 & F4 & F5).
  destruct (F5 20%nat S) as [V20 R20].
  assert (LM : (length d <= Z.to_nat 76800)%nat) by (unfold d, received; rewrite firstn_length; lia).
  assert (HB : is_bytes (rd (recv_heap w d) (recv_win w d 20)))
    by (rewrite R20; unfold d, received; apply is_bytes_skipn, is_bytes_firstn, HBE).
  assert (HL : Z.of_nat (s_len (recv_win w d 20)) <= 4294967292) by (cbn [recv_win s_len]; lia).
  intros t. rewrite <- A. pose proof (parser_slots _ _ _ _ _ _ _ _ V20 HL HB EP t) as P. unfold requested.
  destruct (amap_get (q_attr (w_st w)) t); [destruct P as (s' & -> & _)|rewrite P]; reflexivity.
Qed.

Lemma recv_outcome m fuel e w fd :
  queue_ready w fd -> bytes_env e -> asks queue_wants (q_attr (w_st w)) -> (Z.to_nat 19201 < fuel)%nat ->
  let r := e (w_tr w) (KRecvfrom fd 76800 256) in
  let d := received r in
  let b := skipn 20 d in
  ((exists x w', Recv fuel m e w = (Ok x, w')) <->
     r_err r <> None \/ (20 <= length d)%nat /\
       (reply_code m d <> 0 \/ forall p, ~ crash_attr queue_wants m b p /\ ~ hang_attr queue_wants m b p)) /\
  ((exists w', Recv fuel m e w = (Panic, w')) <->
     r_err r = None /\ ((length d < 20)%nat \/
       reply_code m d = 0 /\ exists p, crash_attr queue_wants m b p /\ first_bad queue_wants m b p)) /\
  ((forall fuel', exists w', Recv fuel' m e w = (NoFuel, w')) <->
     r_err r = None /\ (20 <= length d)%nat /\ reply_code m d = 0 /\
       exists p, hang_attr queue_wants m b p /\ first_bad queue_wants m b p).
Proof.
  intros Q HBE A HF r d b. destruct (r_err r) as [en|] eqn:E.
  { pose proof (fun f => recv_err m e w fd Q f en E) as X. split; [split; [left; discriminate|intros _; rewrite X; eauto]|].
    split; (split; [|intros [Y _]; discriminate]); [intros [w' Y]; rewrite X in Y; discriminate|].
    intros Y. destruct (Y fuel) as [w' Z]. rewrite X in Z. discriminate. }
  pose proof (fun f => recv_run m e w fd Q f E) as X. fold r in X. fold d in X.
  destruct (Nat.ltb_spec (length d) 20) as [S|S].
  { split; [split; [intros (x & w' & Y); rewrite X in Y; discriminate|intros [Y|[Y _]]; [congruence|lia]]|].
    split; [split; [auto|intros _; rewrite X; eauto]|].
    split; [intros Y; destruct (Y fuel) as [w' Z]; rewrite X in Z; discriminate|intros (_ & Y & _); lia]. }
  destruct (Z.eqb_spec (reply_code m d) 0) as [C|C]; cbn [negb] in X.
  2: { split; [split; [auto|intros _; rewrite X; eauto]|].
       split; [split; [intros (w' & Y); rewrite X in Y; discriminate|intros [_ [Y|[Y _]]]; [lia|contradiction]]|].
       split; [intros Y; destruct (Y fuel) as [w' Z]; rewrite X in Z; discriminate|intros (_ & _ & Y & _); contradiction]. }
  pose proof (recv_heap_facts e w fd Q) as F. fold r in F. fold d in F. destruct F as (F1 & F3 & F4 & F5).
  destruct (F5 20%nat S) as [V20 R20].
  assert (LM : (length d <= Z.to_nat 76800)%nat) by (unfold d, received; rewrite firstn_length; lia).
  assert (HB : is_bytes (rd (recv_heap w d) (recv_win w d 20)))
    by (rewrite R20; unfold d, received; apply is_bytes_skipn, is_bytes_firstn, HBE).
  assert (HL : Z.of_nat (s_len (recv_win w d 20)) <= 4294967292) by (cbn [recv_win s_len]; lia).
  assert (LF : (s_len (recv_win w d 20) / 4 + 1 < fuel)%nat) by (cbn [recv_win s_len]; lia).
  destruct (attr_outcome queue_wants m _ _ _ fuel V20 HB HL LF A) as (O1 & O2 & O3 & O4).
  rewrite R20 in O1, O2, O3. fold b in O1, O2, O3.
  set (np := fun fu => NetlinkMessageToNfAttrStruct fu m (recv_heap w d) (recv_win w d 20) (q_attr (w_st w))) in *.
  assert (XP : forall fu, fst (Recv fu m e w) = match np fu with Ok (tb, lo, er) =>
     Ok (Some (mkGen (num BE (field d 16 1)) (num BE (field d 17 1)) (num BE (field d 18 2))), Some tb, er)
     | Panic => Panic | NoFuel => NoFuel end).
  { intros fu. rewrite X. fold (np fu). destruct (np fu) as [[[? ?] ?]| |]; reflexivity. }
  assert (EO : (exists x w', Recv fuel m e w = (Ok x, w')) <-> exists x, np fuel = Ok x).
  { pose proof (XP fuel) as Y. destruct (Recv fuel m e w) as [rs w'] eqn:ER. cbn [fst] in Y.
    destruct (np fuel) as [[[tb lo] er]| |]; subst rs.
    - split; intros _; eauto.
    - split; [intros (? & ? & Z)|intros (? & Z)]; discriminate.
    - split; [intros (? & ? & Z)|intros (? & Z)]; discriminate. }
  assert (EP : (exists w', Recv fuel m e w = (Panic, w')) <-> np fuel = Panic).
  { pose proof (XP fuel) as Y. destruct (Recv fuel m e w) as [rs w'] eqn:ER. cbn [fst] in Y.
    destruct (np fuel) as [[[tb lo] er]| |]; subst rs;
      (split; [intros (? & Z); try discriminate; reflexivity|intros Z; try discriminate; eauto]). }
  assert (EN : (forall fu, exists w', Recv fu m e w = (NoFuel, w')) <-> forall fu, np fu = NoFuel).
  { split; intros Y fu; pose proof (XP fu) as Z.
    - destruct (Y fu) as [w' W]. rewrite W in Z. cbn [fst] in Z. destruct (np fu) as [[[? ?] ?]| |]; congruence.
    - rewrite Y in Z. destruct (Recv fu m e w) as [rs w']. cbn [fst] in Z. subst rs. eauto. }
  rewrite EO, EP, EN. split; [|split].
  - etransitivity; [exact O1|]. split; [auto|]. intros [Y|[_ [Y|Y]]]; [congruence|contradiction|exact Y].
  - etransitivity; [exact O2|]. split; [auto|]. intros [_ [Y|[_ Y]]]; [lia|exact Y].
  - etransitivity; [exact O3|]. split; [auto|]. intros (_ & _ & _ & Y). exact Y.
Qed.
