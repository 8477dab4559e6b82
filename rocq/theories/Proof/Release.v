(** The documented callback releases every packet; the id on the wire; a started
    handle is ready. *)
From Verif Require Export Proof.LoopProps.

(** ** Numbers on the wire (C14) *)
Lemma num_u32 m b : is_bytes b -> length b = 4%nat -> is_u32 (num m b).
Proof.
  intros H L. destruct b as [|b0 [|b1 [|b2 [|b3 [|]]]]]; try discriminate.
  repeat match goal with H : is_bytes (_ :: _) |- _ => inversion H; subst; clear H end.
  repeat match goal with H : Forall _ (_ :: _) |- _ => inversion H; subst; clear H end.
  unfold is_byte, is_u32 in *. destruct m; cbn; lia.
Qed.
Lemma native32_num m b : is_bytes b -> length b = 4%nat -> native32 m (num m b) = b.
Proof.
  intros H L. destruct b as [|b0 [|b1 [|b2 [|b3 [|]]]]]; try discriminate.
  repeat match goal with H : is_bytes (_ :: _) |- _ => inversion H; subst; clear H end.
  repeat match goal with H : Forall _ (_ :: _) |- _ => inversion H; subst; clear H end.
  unfold is_byte in *. destruct m; cbv [num be_num fold_left rev app native32 be32];
    repeat (apply (f_equal2 (@cons Z)); [lia|]); reflexivity.
Qed.

Lemma attrs_go_bytes fuel m : forall b l, is_bytes b -> attrs_go fuel m b = Some l ->
  Forall (fun av => is_bytes (snd av)) l.
Proof.
  induction fuel as [|f IH]; intros b l HB; cbn [attrs_go]; [discriminate|].
  destruct b as [|x b']; [intros E; inversion E; constructor|]. set (b := x :: b') in *. clearbody b. clear b' x.
  cbv zeta. destruct (_ || _)%bool; [discriminate|].
  destruct (attrs_go f m _) as [rest|] eqn:E; [|discriminate].
  intros EQ. inversion EQ; subst. constructor.
  - cbn [snd]. unfold field. apply is_bytes_firstn, is_bytes_skipn, HB.
  - eapply IH; [|exact E]. apply is_bytes_skipn, HB.
Qed.
Lemma last_attr_in t l v : last_attr t l = Some v -> In (t, v) l.
Proof.
  induction l as [|[t' v'] l IH]; cbn [last_attr]; [discriminate|].
  destruct (last_attr t l) as [w|].
  - intros E. inversion E; subst. right. auto.
  - destruct (Z.eqb_spec t' t) as [->|]; [|discriminate]. intros E. inversion E; subst. left. reflexivity.
Qed.
Lemma attr_bytes_of m d l t v :
  packet_datagram m d l -> last_attr t l = Some v -> is_bytes v.
Proof.
  intros (HB & _ & _ & _ & A) L. apply last_attr_in in L.
  pose proof (attrs_go_bytes _ _ _ _ (is_bytes_skipn 20 d HB) A) as F.
  rewrite Forall_forall in F. exact (F _ L).
Qed.
Lemma field_len b n : (n <= length b)%nat -> length (field b 0 n) = n.
Proof. intros H. unfold field. cbn [skipn]. rewrite firstn_length. lia. Qed.
Lemma has_id_u32 m d l id : packet_datagram m d l -> has_id m l id -> is_u32 id.
Proof.
  intros P (hv & H1 & H2 & ->). apply num_u32.
  - unfold field. apply is_bytes_firstn, is_bytes_skipn. eapply attr_bytes_of; eauto.
  - apply field_len, H2.
Qed.
Lemma id_on_wire m d l id hv :
  packet_datagram m d l -> has_id m l id -> last_attr 1 l = Some hv -> native32 m id = field hv 0 4.
Proof.
  intros P (hv' & H1 & H2 & ->) H. rewrite H in H1. injection H1 as <-. apply native32_num.
  - unfold field. apply is_bytes_firstn, is_bytes_skipn. eapply attr_bytes_of; eauto.
  - apply field_len, H2.
Qed.

(** ** C57 *)
Section RELEASE.
Context (m : endian) (fuel : nat) (grow : nat -> nat -> nat) (e : env) (fd num pd : Z)
        (priv : list nat) (choose : Z -> Z -> bytes -> Z * Z).
Hypothesis HF : (Z.to_nat 19201 < fuel)%nat.
Hypothesis BE : bytes_env e.
Hypothesis K : kernel_sends_packets m e.
Hypothesis CH : forall i k c, is_u32 (fst (choose i k c)) /\ is_u32 (snd (choose i k c)).

Lemma release_one w : release_inv fd num pd priv choose w ->
  exists w' evs, process_one fuel m grow e w = (Ok tt, w') /\ w_tr w' = w_tr w ++ evs /\
    release_inv fd num pd priv choose w' /\
    forall r0, r_flag r0 = false -> release_turn m fd num pd choose ((KCtxDone, r0) :: evs).
Proof.
  intros [LI HN SR]. pose proof LI as [Q P I1 I2 I3 I4].
  rewrite (process_one_eq m fuel grow e w fd _ Q I1 I2).
  set (c := KRecvfrom fd 76800 256). set (r := e (w_tr w) c).
  destruct (r_err r) as [en|] eqn:E.
  { eexists _, _. split; [reflexivity|]. cbn [w_tr]. unfold with_event. rewrite <- app_assoc.
    split; [reflexivity|]. split.
    - constructor; auto. apply loop_inv_tr, LI.
    - intros r0 F. constructor; auto. }
  destruct (K (w_tr w) fd 76800 E) as (l & id & payload & PK). fold c in PK. fold r in PK.
  pose proof PK as (PD & HI & HP & LP & HM).
  assert (Ed : received r = r_data r).
  { unfold received. apply firstn_all2. destruct PD as (_ & _ & P0 & _). unfold zlen in P0. lia. }
  pose proof (packet_datagram_code m _ _ PD) as RC.
  pose proof PD as (HB & L20 & LM & T & A). rewrite Ed.
  set (d := r_data r) in *.
  destruct (Nat.ltb_spec (length d) 20); [lia|]. rewrite RC. cbn [Z.eqb negb].
  pose proof (recv_heap_facts e w fd Q) as F. fold c in F. fold r in F. rewrite Ed in F.
  destruct F as (F1 & F3 & F4 & F5). destruct (F5 20%nat L20) as [V20 R20].
  pose proof (win_len e w fd) as WL. pose proof (win_bytes e w fd pd priv _ LI BE) as WB.
  fold c in WL, WB. fold r in WL, WB. rewrite Ed in WL, WB. specialize (WB L20).
  destruct (attr_parser_wellformed fuel m (recv_heap w d) (recv_win w d 20) (q_attr (w_st w)) l V20 WB WL)
    as (tbl & EP & TF).
  { rewrite R20. exact A. }
  { cbn [recv_win s_len]. unfold zlen in LM. clear - LM HF. lia. }
  rewrite EP.
  destruct (qr_slots _ _ Q 1 ltac:(auto)) as (s1 & A1 & _).
  destruct (qr_slots _ _ Q 3 ltac:(auto)) as (s3 & A3 & V3 & _).
  destruct (qr_slots _ _ Q 10 ltac:(auto)) as (s10 & A10 & _).
  pose proof HI as (hv & H1 & H2 & H3).
  destruct (table_slot _ _ _ _ _ 1 _ _ TF eq_refl A1 H1) as (t1 & B1 & R1 & _).
  destruct (table_slot _ _ _ _ _ 10 _ _ TF eq_refl A10 HP) as (t10 & B10 & R10 & W10).
  assert (S3 : exists t3, amap_get tbl 3 = Some t3 /\ (4 <= length (rd (recv_heap w d) t3))%nat /\
                 forall k, has_mark l k -> Netlink.num Base.BE (field (rd (recv_heap w d) t3) 0 4) = k).
  { destruct (last_attr 3 l) as [mv|] eqn:M3.
    - destruct HM as (k0 & mv' & M1 & M2 & M4); [discriminate|].
      destruct (table_slot _ _ _ _ _ 3 _ _ TF eq_refl A3 M1) as (t3 & B3 & R3 & _).
      exists t3. split; [exact B3|]. rewrite R3. split; [exact M2|].
      intros k (mv2 & N1 & N2 & N3). rewrite M1 in N1. injection N1 as <-. auto.
    - pose proof (table_keep _ _ _ _ _ 3 _ TF A3 M3) as B3. exists s3. split; [exact B3|].
      split; [rewrite valid_len by (apply F1, V3); apply (SR 3 s3); auto|].
      intros k (mv & N1 & _). rewrite M3 in N1. discriminate. }
  destruct S3 as (t3 & B3 & L3 & M3).
  rewrite (packet_info m _ tbl t1 t3 t10 B1 B3 B10), R1.
  destruct (Nat.ltb_spec (length hv) 4); [lia|].
  destruct (Nat.ltb_spec (length (rd (recv_heap w d) t3)) 4); [lia|]. cbn [orb]. rewrite <- H3.
  set (mark := Netlink.num Base.BE (field (rd (recv_heap w d) t3) 0 4)) in *. cbv zeta.
  set (tr2 := with_event e _ _).
  set (w1 := mkW (set_counts (set_attr (w_st w) tbl) (q_acc (w_st w)) (q_drop (w_st w))
                    (u64 (q_proc (w_st w) + 1))) (recv_heap w d) tr2).
  unfold releasing at 1. cbn [p_id p_mark p_buf]. rewrite R10.
  destruct (choose id mark payload) as [v mk] eqn:EC.
  pose proof (CH id mark payload) as [CV CM]. rewrite EC in CV, CM. cbn [fst snd] in CV, CM.
  assert (LI1 : loop_inv fd priv (releasing choose) pd w1).
  { pose proof (inv_after m fuel e w fd pd priv _ LI BE (w_st w1) tr2 (u64 (q_proc (w_st w) + 1))) as IA.
    fold c in IA. fold r in IA. rewrite Ed in IA. apply IA; auto.
    - unfold u64. apply Z.mod_pos_bound. reflexivity.
    - right. split; [|exact L20]. exists None, None. exact EP. }
  pose proof LI1 as [Q1 P1 _ _ _ _].
  assert (V10 : valid (recv_heap w d) t10).
  { destruct (qr_slots _ _ Q1 10 ltac:(auto)) as (x & X1 & X2 & _).
    cbn [w1 w_st w_heap set_counts set_attr q_attr] in X1, X2. rewrite B10 in X1. injection X1 as <-. exact X2. }
  pose proof (valid_len _ _ V10) as L10. rewrite R10 in L10.
  assert (N10 : ~ In (s_arr t10) priv).
  { destruct P1 as (_ & _ & _ & P4). apply P4. exact B10. }
  destruct (SetVerdict2_run m grow v mk id t10 payload e w1 fd) as (w2 & new & G1 & G2 & G3 & G4 & G5).
  - destruct Q1. split; [eauto|]. auto.
  - split; [exact V10|]. split; [exact R10|]. intros X. apply N10. rewrite X. apply P1.
  - exact CV.
  - exact CM.
  - eapply has_id_u32; eauto.
  - exact LP.
  - cbn [run_acts]. rewrite <- L10. unfold zlen in G1. rewrite (bind_ok _ _ _ _ _ _ G1).
    assert (CF : cb_frame priv w1 w2).
    { eapply verdict_cb_frame; [apply P1|exact N10|exact G5|].
      rewrite G4. exists (q_acc (w_st w1)), (q_drop (w_st w1)). reflexivity. }
    exists w2. eexists. split; [reflexivity|]. split; [|split].
    + rewrite G2. cbn [w1 w_tr]. unfold tr2, with_event. rewrite <- !app_assoc. reflexivity.
    + constructor.
      * constructor; rewrite ?G4; auto.
        -- eapply cb_frame_ready; eauto.
        -- eapply cb_frame_private; eauto.
        -- cbn. unfold u64. apply Z.mod_pos_bound. reflexivity.
      * rewrite G4. exact HN.
      * intros t s Ht Hs. rewrite G4 in Hs. cbn [w1 w_st set_counts set_attr q_attr] in Hs.
        destruct Ht as [->| ->].
        -- rewrite B1 in Hs. injection Hs as <-. rewrite <- R1 in H2.
           assert (V1 : valid (recv_heap w d) t1).
           { destruct (qr_slots _ _ Q1 1 ltac:(auto)) as (x & X1 & X2 & _).
             cbn [w1 w_st w_heap set_counts set_attr q_attr] in X1, X2. rewrite B1 in X1. injection X1 as <-. exact X2. }
           rewrite valid_len in H2 by exact V1. exact H2.
        -- rewrite B3 in Hs. injection Hs as <-.
           assert (V3' : valid (recv_heap w d) t3).
           { destruct (qr_slots _ _ Q1 3 ltac:(auto)) as (x & X1 & X2 & _).
             cbn [w1 w_st w_heap set_counts set_attr q_attr] in X1, X2. rewrite B3 in X1. injection X1 as <-. exact X2. }
           rewrite valid_len in L3 by exact V3'. exact L3.
    + intros r0 F0. cbn [app]. rewrite I3. eapply release_packet; eauto.
      * rewrite R10. exact PK.
      * rewrite R10. exact EC.
      * rewrite R10, <- HN. exact G3.
Qed.

Lemma release_loop n : forall w res w',
  release_inv fd num pd priv choose w ->
  ProcessPackets n fuel m grow e w = (res, w') ->
  exists its last, w_tr w' = w_tr w ++ concat its ++ last /\
    Forall (release_turn m fd num pd choose) its /\
    ((res = Ok tt /\ loop_end fd res last) \/ (res = NoFuel /\ last = [] /\ length its = n)).
Proof.
  induction n as [|n IH]; intros w res w' RI; cbn [ProcessPackets].
  { intros EQ. inversion EQ; subst res w'. exists [], []. rewrite app_nil_r.
    split; [reflexivity|]. split; [constructor|]. right. auto. }
  mstep. set (r0 := e (w_tr w) KCtxDone). set (w0 := mkW _ _ _).
  assert (RI0 : release_inv fd num pd priv choose w0).
  { destruct RI as [LI HN SR]. constructor; auto. apply loop_inv_tr, LI. }
  destruct (r_flag r0) eqn:F.
  { destruct (NfqClose_inv e w0 fd (li_ready _ _ _ _ _ (ri_loop _ _ _ _ _ _ RI0))) as [r1 EC]. rewrite EC.
    intros EQ. inversion EQ; subst res w'. exists [], [(KCtxDone, r0); (KClose fd, r1)].
    cbn [w_tr w0 w_st]. rewrite <- app_assoc. split; [reflexivity|]. split; [constructor|].
    left. split; [reflexivity|]. exists r0, r1. auto. }
  destruct (release_one w0 RI0) as (w1 & evs & E1 & T1 & RI1 & RT).
  rewrite (bind_ok _ _ _ _ _ _ E1). intros E2.
  destruct (IH w1 res w' RI1 E2) as (its & last & H1 & H2 & H3).
  exists (((KCtxDone, r0) :: evs) :: its), last. split; [|split; [constructor; auto|]].
  - rewrite H1, T1. cbn [w0 w_tr concat]. rewrite <- !app_assoc. reflexivity.
  - destruct H3 as [H3|(H3 & H4 & H5)]; [left; exact H3|right]. cbn [length]. auto.
Qed.
End RELEASE.

(** ** A started handle is ready *)
Lemma NewNFQueue_open e w : forall w0 w1, NewNFQueue e w = (Ok tt, w0) -> NfqOpen e w0 = (Ok None, w1) ->
  exists fd priv evs, w_tr w1 = w_tr w ++ evs /\ opens fd evs /\ fresh_ready w1 fd priv.
Proof.
  intros w0 w1 E0 E1.
  set (B := repeat 0 (Z.to_nat 76800)). set (H := repeat 0 40).
  set (n := length (w_heap w)).
  set (sB := fun i => mkSl (n + i) 0 (Z.to_nat 76800) (Z.to_nat 76800)).
  set (h := w_heap w ++ [B; H; B; B; B]).
  assert (LB : length B = Z.to_nat 76800) by apply repeat_length.
  assert (LH : length H = 40%nat) by reflexivity.
  assert (E : NewNFQueue e w = (Ok tt, mkW (mkQ 0 0 None false 0 None (sB 0%nat)
                   [(NfqaPacketHdr, sB 2%nat); (NfqaMark, sB 3%nat); (NfqaPayload, sB 4%nat)]
                   (mkSl (n + 1) 0 40 40) 0 0 0 []) h (w_tr w))).
  { unfold NewNFQueue, m_alloc, alloc.
    change (gmake NfnlBuffSize) with B. change (gmake (SizeofNlMsghdr + _ + _ + _)) with H.
    repeat mstep. unfold put_st. cbn [w_st w_heap w_tr]. cbn [repeat]. rewrite !app_nil_r, !Nat.add_0_r.
    rewrite !LB, !LH, !app_length. cbn [length]. fold n. rewrite <- !app_assoc. cbn [app]. fold h.
    unfold sB. rewrite Nat.add_0_r. rewrite <- !Nat.add_assoc. reflexivity. }
  rewrite E in E0. inversion E0; subst w0. clear E0 E.
  assert (Harr : forall i, arr h (n + i) = nth i [B; H; B; B; B] []).
  { intros i. unfold h, arr. rewrite app_nth2 by (fold n; lia). f_equal. fold n. lia. }
  assert (Hlen : length h = (n + 5)%nat) by (unfold h; rewrite app_length; reflexivity).
  assert (VB : forall i, nth i [B; H; B; B; B] [] = B -> (i < 5)%nat -> valid h (sB i)).
  { intros i Hi Li. split; [cbn; lia|]. right. cbn [sB s_arr s_off s_cap]. rewrite Harr, Hi, LB. lia. }
  assert (V0 : valid h (sB 0%nat)) by (apply VB; [reflexivity|lia]).
  assert (LZ : Z.of_nat (s_len (sB 0%nat)) = 76800) by (cbn [sB s_len]; apply Z2Nat.id; lia).
  match type of E1 with NfqOpen e ?w0 = _ => destruct (NfqOpen_run e w0) as (er & w2 & new & G1 & G2 & G3 & G4) end;
    [exact V0|exact LZ|reflexivity|].
  rewrite E1 in G1. inversion G1; subst er w2. clear G1.
  destruct G4 as (fd & O & (buf & OH1 & OH2 & OH3 & OH4 & OH5) & N & Bf & At & Hd & C1 & C2 & C3).
  cbn [w_st w_heap w_tr q_num q_buf q_attr q_hdr q_acc q_drop q_proc] in *.
  exists fd, [(n + 1)%nat; (n + 2)%nat; (n + 3)%nat], new. split; [exact G2|]. split; [exact O|].
  assert (G : forall t s, amap_get [(NfqaPacketHdr, sB 2%nat); (NfqaMark, sB 3%nat); (NfqaPayload, sB 4%nat)] t = Some s ->
             (t = 1 -> s = sB 2%nat) /\ (t = 3 -> s = sB 3%nat) /\ (t = 10 -> s = sB 4%nat)).
  { intros t s Hs. repeat split; intros ->; cbn in Hs; congruence. }
  constructor.
  - rewrite Bf in OH2. subst buf. constructor; rewrite ?Bf, ?Hd, ?G3, ?At, ?N; auto; try reflexivity.
    + split; [cbn; lia|]. right. cbn [s_arr s_off s_cap]. rewrite Harr. cbn [nth]. rewrite LH. lia.
    + cbn [s_arr sB]. lia.
    + red. lia.
    + intros t [->|[->| ->]]; eexists; (split; [reflexivity|]); (split; [apply VB; [reflexivity|lia]|]);
        cbn [s_arr sB]; lia.
  - unfold private_ok. rewrite Hd, Bf, G3, At. cbn [s_arr sB]. split; [left; reflexivity|].
    split; [intros [X|[X|[X|[]]]]; lia|]. split; [rewrite Hlen; repeat constructor; lia|].
    intros s Hs. apply G in Hs as (_ & _ & Hs). rewrite (Hs eq_refl). cbn [sB s_arr].
    intros [X|[X|[X|[]]]]; lia.
  - exists (sB 3%nat). rewrite At, Hd, G3. split; [reflexivity|]. split; [right; right; left; reflexivity|].
    split; [cbn [sB s_arr]; lia|]. unfold rd. cbn [sB s_arr s_off s_len]. rewrite Harr. cbn [nth skipn].
    unfold field. cbn [skipn]. rewrite firstn_firstn. replace (Nat.min 4 (Z.to_nat 76800)) with 4%nat by lia.
    unfold B. replace (Z.to_nat 76800) with (4 + Z.to_nat 76796)%nat by lia. reflexivity.
  - intros t s Ht Hs. rewrite At in Hs. apply G in Hs as (X1 & X2 & _).
    assert (Y : s = sB 2%nat \/ s = sB 3%nat) by (destruct Ht; auto).
    destruct Y as [->| ->]; cbn [sB s_len]; lia.
  - auto.
Qed.

Lemma fresh_cfg m c e w fd priv : 
  cfg_args_ok c -> replies_within 20 76800 e -> fresh_ready w fd priv ->
  forall er w', cfg_run m c e w = (Ok er, w') ->
  fresh_ready w' fd priv /\ w_st w' = cfg_state c (w_st w) /\ exists new, w_tr w' = w_tr w ++ new.
Proof.
  intros A R [Q P FM SR CN] er w' E.
  assert (OH : open_handle w fd) by (destruct Q; exists (q_buf (w_st w)); auto).
  destruct (cfg_request m c e w fd A (qr_num _ _ Q) OH R)
    as (er' & w2 & new & b & H1 & H2 & _ & _ & H4 & H5 & H6 & H7 & H8).
  rewrite E in H1. inversion H1; subst er' w2. clear H1.
  assert (S0 : q_hdr (w_st w') = q_hdr (w_st w) /\ q_buf (w_st w') = q_buf (w_st w) /\
              q_attr (w_st w') = q_attr (w_st w) /\ q_handle (w_st w') = q_handle (w_st w) /\
              is_u16 (q_num (w_st w')) /\ q_acc (w_st w') = q_acc (w_st w) /\
              q_drop (w_st w') = q_drop (w_st w) /\ q_proc (w_st w') = q_proc (w_st w)).
  { rewrite H4. pose proof (qr_num _ _ Q). destruct c; cbn in *; auto 10. }
  destruct S0 as (S1 & S2 & S3 & S4 & S5 & S6 & S7 & S8).
  split; [|split; [exact H4|eauto]]. constructor.
  - destruct Q as [q1 q2 q3 q4 q5 q6 q7 q8 q9]. constructor; rewrite ?S1, ?S2, ?S3, ?S4; auto.
    intros t Ht. destruct (q9 t Ht) as (s & X1 & X2 & X3). eauto.
  - destruct P as (P1 & P2 & P3 & P4). unfold private_ok. rewrite S1, S2, S3, H6. auto.
  - destruct FM as (s & X1 & X2 & X3 & X4). exists s. rewrite S1, S3. repeat (split; [assumption|]).
    unfold rd. rewrite H8; [exact X4|]. intros X. destruct P as (_ & P2 & _). rewrite X in X2. auto.
  - intros t s Ht Hs. rewrite S3 in Hs. eauto.
  - rewrite S6, S7, S8. exact CN.
Qed.

Lemma started_ready m queueID maxp psz cb ecb pd e w w' :
  is_u16 queueID -> is_u32 maxp -> is_u32 psz -> replies_within 20 76800 e ->
  CreateAndStartNfQueue m queueID maxp psz cb ecb pd e w = (Ok None, w') ->
  exists fd priv evs rest, w_tr w' = w_tr w ++ evs ++ rest /\ opens fd evs /\
    fresh_ready w' fd priv /\ q_num (w_st w') = queueID /\
    q_cb (w_st w') = cb /\ q_ecb (w_st w') = ecb /\ q_priv (w_st w') = pd.
Proof.
  intros A1 A2 A3 R. unfold CreateAndStartNfQueue.
  destruct (NewNFQueue_run e w) as (w0 & E0 & T0 & _ & N0 & V0 & L0 & C0 & _).
  rewrite (bind_ok _ _ _ _ _ _ E0).
  destruct (NfqOpen_run e w0 V0 L0 C0) as (er & w1 & new1 & E1 & T1 & _ & P1).
  rewrite (bind_ok _ _ _ _ _ _ E1).
  destruct er as [er|]; [intros X; inversion X|].
  destruct (NewNFQueue_open e w w0 w1 E0 E1) as (fd & priv & evs & TR & O & FR).
  assert (STEP : forall c wa (er : option gerr) wb, cfg_args_ok c -> fresh_ready wa fd priv ->
    cfg_run m c e wa = (Ok er, wb) ->
    fresh_ready wb fd priv /\ w_st wb = cfg_state c (w_st wa) /\ exists new, w_tr wb = w_tr wa ++ new).
  { intros c wa er wb Hc Hf Hr. eapply fresh_cfg; eauto. }
  assert (RUN : forall c wa, cfg_args_ok c -> fresh_ready wa fd priv ->
    exists er wb, cfg_run m c e wa = (Ok er, wb)).
  { intros c wa Hc [Q _ _ _ _].
    assert (OH : open_handle wa fd) by (destruct Q; exists (q_buf (w_st wa)); auto).
    destruct (cfg_request m c e wa fd Hc (qr_num _ _ Q) OH R) as (er & wb & _ & _ & H & _). eauto. }
  destruct (RUN CfgUnbindPf w1 I FR) as (er2 & w2 & E2).
  destruct (STEP CfgUnbindPf _ _ _ I FR E2) as (FR2 & S2 & n2 & T2). cbn [cfg_run] in E2.
  rewrite (bind_ok _ _ _ _ _ _ E2).
  assert (CL : forall (f : gerr) wx w'', (let! _ := NfqClose in ret (Some f)) e wx = (Ok None, w'') -> False).
  { intros f wx w''. unfold mbind. destruct (NfqClose e wx) as [[|  |] ?]; intros X; inversion X. }
  assert (CL2 : forall (f : gerr) wx w'', (let! _ := NfqDestroyQueue m in let! _ := NfqClose in ret (Some f)) e wx = (Ok None, w'') -> False).
  { intros f wx w''. unfold mbind at 1. destruct (NfqDestroyQueue m e wx) as [[|  |] ?]; try (intros X; inversion X; fail).
    apply CL. }
  destruct er2; [intros X; destruct (CL _ _ _ X)|].
  destruct (RUN CfgBindPf w2 I FR2) as (er3 & w3 & E3).
  destruct (STEP CfgBindPf _ _ _ I FR2 E3) as (FR3 & S3 & n3 & T3). cbn [cfg_run] in E3.
  rewrite (bind_ok _ _ _ _ _ _ E3). destruct er3; [intros X; destruct (CL _ _ _ X)|].
  destruct (RUN (CfgCreate queueID cb ecb pd) w3 A1 FR3) as (er4 & w4 & E4).
  destruct (STEP (CfgCreate queueID cb ecb pd) _ _ _ A1 FR3 E4) as (FR4 & S4 & n4 & T4). cbn [cfg_run] in E4.
  rewrite (bind_ok _ _ _ _ _ _ E4). destruct er4; [intros X; destruct (CL _ _ _ X)|].
  assert (A5 : cfg_args_ok (CfgMode 2 psz)) by (split; [red; lia|exact A3]).
  destruct (RUN (CfgMode 2 psz) w4 A5 FR4) as (er5 & w5 & E5).
  destruct (STEP (CfgMode 2 psz) _ _ _ A5 FR4 E5) as (FR5 & S5 & n5 & T5). cbn [cfg_run] in E5.
  change NfqnlCopyPacket with 2.
  rewrite (bind_ok _ _ _ _ _ _ E5). destruct er5; [intros X; destruct (CL2 _ _ _ X)|].
  destruct (RUN (CfgMaxLen maxp) w5 A2 FR5) as (er6 & w6 & E6).
  destruct (STEP (CfgMaxLen maxp) _ _ _ A2 FR5 E6) as (FR6 & S6 & n6 & T6). cbn [cfg_run] in E6.
  rewrite (bind_ok _ _ _ _ _ _ E6). destruct er6; [intros X; destruct (CL2 _ _ _ X)|].
  mstep. intros X. inversion X; subst w'. clear X. cbn [w_st w_tr].
  eexists fd, priv, evs, _. split.
  { rewrite T6, T5, T4, T3, T2, TR, <- !app_assoc. reflexivity. }
  split; [exact O|]. split.
  { destruct FR6 as [Q P FM SR CN]. constructor; auto. destruct Q; constructor; auto. }
  rewrite S6, S5, S4. cbn. auto.
Qed.

(** ** C14 *)
Lemma id_round_trip m fuel grow e w fd d l hv :
  queue_ready w fd -> slots_readable w ->
  let r := e (w_tr w) (KRecvfrom fd 76800 256) in
  r_err r = None -> r_data r = d -> packet_datagram m d l ->
  last_attr 1 l = Some hv -> (4 <= length hv)%nat ->
  (forall mv, last_attr 3 l = Some mv -> (4 <= length mv)%nat) -> (Z.to_nat 19201 < fuel)%nat ->
  exists g tbl id mark s w',
    Recv fuel m e w = (Ok (Some g, Some tbl, None), w') /\
    GetPacketInfo m (w_heap w') (Some tbl) = Ok (id, mark, s) /\
    (forall v mk p pkt, is_u32 v -> is_u32 mk -> packet_in w' p pkt ->
       (1 <= length pkt <= Z.to_nat 65531)%nat ->
       exists w'' new, SetVerdict2 m grow v mk (zlen pkt) id p e w' = (Ok tt, w'') /\
         w_tr w'' = w_tr w' ++ new /\
         sends_message m fd (verdict_message (q_num (w_st w))
            [(2, be32 v ++ field hv 0 4); (3, be32 mk); (10, pkt)]) new) /\
    (forall v p pkt, is_u32 v -> packet_in w' p pkt -> (1 <= length pkt <= Z.to_nat 65528)%nat ->
       exists w'' new, SetVerdict m grow v (zlen pkt) id p e w' = (Ok tt, w'') /\
         w_tr w'' = w_tr w' ++ new /\
         sends_message m fd (verdict_message (q_num (w_st w))
            [(2, be32 v ++ field hv 0 4); (10, pkt ++ pad4 (length pkt))]) new).
Proof.
  intros Q SR r E D P I1 I2 MM Hf.
  destruct (recv_packet m fuel e w fd d l Q E D P Hf) as (g & tbl & w' & R & S1 & S2 & S3 & Q' & G & TF).
  destruct (qr_slots _ _ Q 1 ltac:(auto)) as (s1 & A1 & _).
  destruct (qr_slots _ _ Q 3 ltac:(auto)) as (s3 & A3 & V3 & _).
  destruct (qr_slots _ _ Q' 10 ltac:(auto)) as (s10 & A10 & _).
  assert (TB : q_attr (w_st w') = tbl) by (rewrite S1; reflexivity). rewrite TB in A10.
  destruct (table_slot _ _ _ _ _ 1 _ _ TF eq_refl A1 I1) as (t1 & B1 & C1 & _).
  assert (S3' : exists t3, amap_get tbl 3 = Some t3 /\ (4 <= length (rd (w_heap w') t3))%nat).
  { destruct (last_attr 3 l) as [mv|] eqn:LM.
    - destruct (table_slot _ _ _ _ _ 3 _ _ TF eq_refl A3 LM) as (t3 & B3 & C3 & _).
      exists t3. rewrite C3. auto.
    - pose proof (table_keep _ _ _ _ _ 3 _ TF A3 LM) as B3. exists s3. split; [exact B3|].
      destruct (qr_slots _ _ Q' 3 ltac:(auto)) as (s3' & A3' & V3' & _).
      rewrite TB, B3 in A3'. injection A3' as <-. rewrite valid_len by exact V3'. apply (SR 3 s3); auto. }
  destruct S3' as (t3 & B3 & L3).
  assert (HI : has_id m l (num m (field hv 0 4))) by (exists hv; auto).
  pose proof (has_id_u32 m d l _ P HI) as UI.
  pose proof (id_on_wire m d l _ hv P HI I1) as W.
  assert (VR : verdict_ready w' fd).
  { destruct Q' as [q1 q2 q3 q4 q5 q6 q7 q8 q9]. split; [eauto|]. auto. }
  assert (QN : q_num (w_st w') = q_num (w_st w)) by (rewrite S1; reflexivity).
  exists g, tbl, (num m (field hv 0 4)). eexists. exists s10, w'. split; [exact R|].
  rewrite (packet_info m (w_heap w') tbl t1 t3 s10 B1 B3 A10), C1.
  destruct (Nat.ltb_spec (length hv) 4); [lia|].
  destruct (Nat.ltb_spec (length (rd (w_heap w') t3)) 4); [lia|]. cbn [orb].
  split; [reflexivity|]. split.
  - intros v mk p pkt Hv Hmk Hp Hl.
    destruct (SetVerdict2_run m grow v mk _ p pkt e w' fd VR Hp Hv Hmk UI Hl) as (w'' & new & X1 & X2 & X3 & _).
    exists w'', new. split; [exact X1|]. split; [exact X2|].
    unfold verdict2_message, verdict_attr in X3. rewrite W, QN in X3. exact X3.
  - intros v p pkt Hv Hp Hl.
    destruct (SetVerdict_run m grow v _ p pkt e w' fd VR Hp Hv UI Hl) as (w'' & new & X1 & X2 & X3 & _).
    exists w'', new. split; [exact X1|]. split; [exact X2|].
    unfold verdict1_message, verdict_attr in X3. rewrite W, QN in X3. exact X3.
Qed.
