(** The packet loop. *)
From Verif Require Export Proof.RecvFacts.

(** ** One turn, exactly *)
Section TURN.
Context (m : endian) (fuel : nat) (grow : nat -> nat -> nat) (e : env) (w : world nfq) (fd : Z)
        (cb : callback).
Hypothesis Q : queue_ready w fd.
Hypothesis ECB : q_ecb (w_st w) = true.
Hypothesis CB : q_cb (w_st w) = Some cb.
Let c := KRecvfrom fd 76800 256.
Let r := e (w_tr w) c.
Let d := received r.
Let tr' := w_tr w ++ [(c, r)].
Let h' := recv_heap w d.
Definition with_event (tr : list event) (k : call) : list event := tr ++ [(k, e tr k)].

Lemma process_one_eq :
  process_one fuel m grow e w =
  match r_err r with
  | Some en => (Ok tt, mkW (w_st w) (w_heap w) (with_event tr' (KErrCb (ERecv en) (IfaceGen None))))
  | None =>
    if (length d <? 20)%nat then (Panic, mkW (w_st w) h' tr')
    else if negb (reply_code m d =? 0)
    then (Ok tt, mkW (w_st w) h' (with_event tr' (KErrCb (ENetlink (reply_code m d)) (IfaceGen None))))
    else match NetlinkMessageToNfAttrStruct fuel m h' (recv_win w d 20) (q_attr (w_st w)) with
         | Ok (tbl, _, Some er) =>
             (Ok tt, mkW (set_attr (w_st w) tbl) h' (with_event tr' (KErrCb er (IfaceGen (Some (generic_header d))))))
         | Ok (tbl, _, None) =>
             match GetPacketInfo m h' (Some tbl) with
             | Ok (id, mark, s) =>
                 let tr2 := with_event tr' (KPacketCb id mark s (rd h' s) (q_priv (w_st w))) in
                 run_acts m grow (cb tr2 h' (mkPkt s mark id) (q_priv (w_st w))) e
                   (mkW (set_counts (set_attr (w_st w) tbl) (q_acc (w_st w)) (q_drop (w_st w))
                                    (u64 (q_proc (w_st w) + 1))) h' tr2)
             | Panic => (Panic, mkW (set_attr (w_st w) tbl) h' tr')
             | NoFuel => (NoFuel, mkW (set_attr (w_st w) tbl) h' tr')
             end
         | Panic => (Panic, mkW (w_st w) h' tr')
         | NoFuel => (NoFuel, mkW (w_st w) h' tr')
         end
  end.
Proof.
  unfold process_one. destruct (r_err r) as [en|] eqn:E.
  - rewrite (bind_ok _ _ _ _ _ _ (recv_err m e w fd Q fuel en E)).
    mstep. rewrite ECB. mstep. mstep. reflexivity.
  - pose proof (recv_run m e w fd Q fuel E) as R. fold c in R. fold r in R. fold d in R. fold tr' in R. fold h' in R.
    destruct (length d <? 20)%nat; [rewrite (bind_panic _ _ _ _ _ R); reflexivity|].
    destruct (negb (reply_code m d =? 0)).
    + rewrite (bind_ok _ _ _ _ _ _ R). mstep. rewrite ECB. mstep. mstep. reflexivity.
    + destruct (NetlinkMessageToNfAttrStruct fuel m h' (recv_win w d 20) (q_attr (w_st w)))
        as [[[tbl lo] [er|]]| |].
      * rewrite (bind_ok _ _ _ _ _ _ R). mstep. cbn [q_ecb set_attr]. rewrite ECB. mstep. mstep. reflexivity.
      * rewrite (bind_ok _ _ _ _ _ _ R). mstep. mstep. mstep.
        destruct (GetPacketInfo m h' (Some tbl)) as [[[id mark] s]| |]; [|reflexivity|reflexivity].
        mstep. mstep. mstep. cbn [q_cb set_attr q_priv q_acc q_drop q_proc]. rewrite CB.
        mstep. mstep. reflexivity.
      * rewrite (bind_panic _ _ _ _ _ R). reflexivity.
      * rewrite (bind_nofuel _ _ _ _ _ R). reflexivity.
Qed.
End TURN.

(** ** What a callback leaves *)
Record cb_frame (priv : list nat) (w w' : world nfq) : Prop := mkCF {
  cf_keep : forall x, valid (w_heap w) x -> valid (w_heap w') x;
  cf_grow : (length (w_heap w) <= length (w_heap w'))%nat;
  cf_priv : forall a, In a priv -> (a < length (w_heap w))%nat -> a <> s_arr (q_hdr (w_st w)) ->
              arr (w_heap w') a = arr (w_heap w) a;
  cf_st : exists x y, w_st w' = set_counts (w_st w) x y (q_proc (w_st w)) }.
Lemma cb_frame_refl priv w : cb_frame priv w w.
Proof.
  constructor; auto. exists (q_acc (w_st w)), (q_drop (w_st w)). destruct (w_st w); reflexivity.
Qed.
Lemma cb_frame_trans priv w1 w2 w3 :
  cb_frame priv w1 w2 -> cb_frame priv w2 w3 -> cb_frame priv w1 w3.
Proof.
  intros [A1 A2 A3 (x & y & A4)] [B1 B2 B3 (x' & y' & B4)]. constructor.
  - auto.
  - lia.
  - intros a Ha L N. rewrite B3, A3; auto; [lia|]. rewrite A4. exact N.
  - exists x', y'. rewrite B4, A4. reflexivity.
Qed.
Lemma cb_frame_ready priv w w' fd : queue_ready w fd -> cb_frame priv w w' -> queue_ready w' fd.
Proof.
  intros [q1 q2 q3 q4 q5 q6 q7 q8 q9] [A1 A2 A3 (x & y & A4)].
  constructor; rewrite ?A4; cbn [set_counts q_handle q_buf q_hdr q_num q_attr]; auto.
  intros t Ht. destruct (q9 t Ht) as (s & B1 & B2 & B3). exists s. auto.
Qed.
Lemma cb_frame_private priv w w' : private_ok w priv -> cb_frame priv w w' -> private_ok w' priv.
Proof.
  intros (P1 & P2 & P3 & P4) [A1 A2 A3 (x & y & A4)]. unfold private_ok. rewrite A4.
  cbn [set_counts q_hdr q_buf q_attr]. repeat (split; auto).
  eapply Forall_impl; [|exact P3]. cbn. lia.
Qed.

Lemma act_ok_mono e h h' priv a :
  (forall x, valid h x -> valid h' x) -> act_ok e h priv a -> act_ok e h' priv a.
Proof. intros K. destruct a; cbn; intuition. Qed.

Lemma cb_event_sends fd iov evs : sends_one fd iov evs -> Forall cb_event evs.
Proof.
  intros (r & [(H1 & ->)|(en & r' & H1 & ->)]); repeat constructor.
Qed.
Lemma cb_event_request m fd n b evs res : one_request m fd n b evs res -> Forall cb_event evs.
Proof.
  intros [(r1 & en & _ & -> & _)|(r1 & r2 & _ & -> & _)]; repeat constructor.
Qed.

Lemma verdict_cb_frame priv w w' p :
  In (s_arr (q_hdr (w_st w))) priv -> ~ In (s_arr p) priv ->
  verdict_frame w w' p -> (exists x y, w_st w' = set_counts (w_st w) x y (q_proc (w_st w))) ->
  cb_frame priv w w'.
Proof.
  intros I N [A1 A2 A3 A4 A5 A6] S. constructor; auto.
  intros a Ha L Hn. apply A4; auto. intros ->. auto.
Qed.

Lemma one_act m grow e w fd priv a :
  queue_ready w fd -> private_ok w priv -> act_ok e (w_heap w) priv a ->
  exists w' evs,
    run_acts m grow [a] e w = (Ok tt, w') /\ w_tr w' = w_tr w ++ evs /\ Forall cb_event evs /\
    cb_frame priv w w'.
Proof.
  intros Q (P1 & P2 & P3 & P4) A. cbn [run_acts].
  assert (VR : verdict_ready w fd).
  { destruct Q. split; [eauto|]. auto. }
  destruct a as [v pl id p|v mk pl id p|s o v|v sp|]; cbn [act_ok] in A.
  - destruct A as (Vp & -> & L & Np).
    pose proof (valid_len _ _ Vp) as Lp.
    destruct (SetVerdict_raw m grow v id p (rd (w_heap w) p) e w fd VR) as (w' & new & H1 & H2 & H3 & H4 & H5).
    { split; [exact Vp|]. split; [reflexivity|]. intros E. rewrite E in Np. auto. }
    { lia. }
    unfold zlen in H1. rewrite Lp in H1.
    exists w', new. rewrite (bind_ok _ _ _ _ _ _ H1). split; [reflexivity|]. split; [exact H2|].
    split; [eapply cb_event_sends; eauto|].
    eapply verdict_cb_frame; eauto. rewrite H4. unfold counted.
    destruct (v =? 1); eauto.
  - destruct A as (Vp & -> & L & Np).
    pose proof (valid_len _ _ Vp) as Lp.
    destruct (SetVerdict2_raw m grow v mk id p (rd (w_heap w) p) e w fd VR) as (w' & new & H1 & H2 & H3 & H4 & H5).
    { split; [exact Vp|]. split; [reflexivity|]. intros E. rewrite E in Np. auto. }
    { intros E. rewrite E in Lp. cbn in Lp. lia. }
    unfold zlen in H1. rewrite Lp in H1.
    exists w', new. rewrite (bind_ok _ _ _ _ _ _ H1). split; [reflexivity|]. split; [exact H2|].
    split; [eapply cb_event_sends; eauto|].
    eapply verdict_cb_frame; eauto. rewrite H4. exists (q_acc (w_st w)), (q_drop (w_st w)).
    destruct (w_st w); reflexivity.
  - destruct A as (Vs & O1 & O2 & L & Ns). cbn [m_stores].
    pose proof Vs as [V1 [V2|[V2 V3]]]; [lia|].
    mstep. mstep. rewrite wr_ok by lia. mstep. mstep. mstep.
    eexists _, []. split; [reflexivity|]. cbn [w_tr]. rewrite app_nil_r. split; [reflexivity|].
    split; [constructor|]. constructor; cbn [w_heap w_st].
    + intros x Vx. apply valid_upd; auto. apply splice_length. unfold zlen in O2. lia.
    + rewrite upd_arr_length by exact V2. lia.
    + intros a Ha La Hn. apply arr_upd_other; [exact V2|]. intros E. apply Ns. rewrite E. exact Ha.
    + exists (q_acc (w_st w)), (q_drop (w_st w)). destruct (w_st w); reflexivity.
  - unfold m_alloc. cbn [alloc]. mstep. mstep. mstep. mstep. mstep.
    eexists _, []. split; [reflexivity|]. cbn [w_tr]. rewrite app_nil_r. split; [reflexivity|].
    split; [constructor|]. constructor; cbn [w_heap w_st].
    + intros x Vx. apply valid_app, Vx.
    + rewrite app_length. lia.
    + intros a Ha La Hn. exact (arr_alloc_old (w_heap w) v sp a La).
    + exists (q_acc (w_st w)), (q_drop (w_st w)). destruct (w_st w); reflexivity.
  - assert (OH : open_handle w fd).
    { destruct Q. exists (q_buf (w_st w)). auto. }
    destruct (cfg_request m CfgDestroy e w fd I (qr_num _ _ Q) OH A)
      as (err & w' & new & b & H1 & H2 & _ & H3 & H4 & H5 & H6 & H7 & H8).
    cbn [cfg_run] in H1. unfold StopQueue. mstep. mstep.
    rewrite (bind_ok _ _ _ _ _ _ H1). cbn [cfg_state] in H4.
    assert (F : cb_frame priv w w').
    { constructor; auto; [lia| |].
      - intros a Ha La Hn. apply H8. intros ->. auto.
      - rewrite H4. exists (q_acc (w_st w)), (q_drop (w_st w)). destruct (w_st w); reflexivity. }
    destruct err as [er|].
    + mstep. exists w', new. split; [reflexivity|]. split; [exact H2|]. split; [|exact F].
      eapply cb_event_request; eauto.
    + mstep. mstep. rewrite H4, (qr_handle _ _ Q). repeat mstep. cbn [k_fd].
      eexists _, _. split; [reflexivity|]. cbn [w_tr]. rewrite H2, <- app_assoc. split; [reflexivity|].
      split.
      * apply Forall_app. split; [eapply cb_event_request; eauto|]. repeat constructor.
      * eapply cb_frame_trans; [exact F|]. constructor; cbn [w_heap w_st]; auto.
        exists (q_acc (w_st w')), (q_drop (w_st w')). destruct (w_st w'); reflexivity.
Qed.

Lemma run_acts_cons m grow a l e w :
  run_acts m grow (a :: l) e w = mbind (run_acts m grow [a]) (fun _ => run_acts m grow l) e w.
Proof. cbn [run_acts]. rewrite bind_assoc. reflexivity. Qed.

Lemma run_acts_forall m grow fd priv e l : forall w,
  queue_ready w fd -> private_ok w priv -> Forall (act_ok e (w_heap w) priv) l ->
  exists w' evs,
    run_acts m grow l e w = (Ok tt, w') /\ w_tr w' = w_tr w ++ evs /\ Forall cb_event evs /\
    cb_frame priv w w'.
Proof.
  induction l as [|a l IH]; intros w Q P A.
  - exists w, []. rewrite app_nil_r. split; [reflexivity|]. split; [reflexivity|].
    split; [constructor|apply cb_frame_refl].
  - inversion A as [|? ? A1 A2]; subst.
    destruct (one_act m grow e w fd priv a Q P A1) as (w1 & ev1 & E1 & E2 & E3 & E4).
    destruct (IH w1) as (w2 & ev2 & F1 & F2 & F3 & F4).
    + eapply cb_frame_ready; eauto.
    + eapply cb_frame_private; eauto.
    + eapply Forall_impl; [|exact A2]. intros x. apply act_ok_mono. apply (cf_keep _ _ _ E4).
    + exists w2, (ev1 ++ ev2). rewrite run_acts_cons, (bind_ok _ _ _ _ _ _ E1).
      split; [exact F1|]. split; [rewrite F2, E2, app_assoc; reflexivity|].
      split; [apply Forall_app; auto|]. eapply cb_frame_trans; eauto.
Qed.
Lemma run_acts_ok m grow fd priv e l : forall w,
  queue_ready w fd -> private_ok w priv -> acts_ok e (w_heap w) priv l ->
  exists w' evs,
    run_acts m grow l e w = (Ok tt, w') /\ w_tr w' = w_tr w ++ evs /\ Forall cb_event evs /\
    cb_frame priv w w'.
Proof.
  induction l as [|a l IH]; intros w Q P A; [apply run_acts_forall with fd; auto; constructor|].
  destruct a as [v pl id p|v mk pl id p|s o v|v sp|]; try (apply run_acts_forall with fd; auto; fail).
  cbn [acts_ok] in A.
  destruct (one_act m grow e w fd priv (CbAlloc v sp) Q P I) as (w1 & ev1 & E1 & E2 & E3 & E4).
  assert (HW : w_heap w1 = fst (alloc (w_heap w) v sp)).
  { cbn [run_acts] in E1. unfold m_alloc in E1. cbn [alloc] in E1.
    repeat (rewrite ?bind_assoc, ?bind_get_heap, ?bind_put_heap, ?bind_ret in E1). cbn [w_heap w_st w_tr] in E1.
    inversion E1. reflexivity. }
  destruct (IH w1) as (w2 & ev2 & F1 & F2 & F3 & F4).
  - eapply cb_frame_ready; eauto.
  - eapply cb_frame_private; eauto.
  - rewrite HW. exact A.
  - exists w2, (ev1 ++ ev2). rewrite run_acts_cons, (bind_ok _ _ _ _ _ _ E1).
    split; [exact F1|]. split; [rewrite F2, E2, app_assoc; reflexivity|].
    split; [apply Forall_app; auto|]. eapply cb_frame_trans; eauto.
Qed.

(** ** One turn of the loop *)
Lemma attr_error_kind m h buf fuel hdr hdr' lo er :
  NetlinkMessageToNfAttrStruct fuel m h buf hdr = Ok (hdr', lo, Some er) -> er = EBadAttr.
Proof.
  unfold NetlinkMessageToNfAttrStruct.
  assert (L : forall fuel i hdr x, nfattr_loop fuel m h buf i hdr = Ok x -> snd x = None \/ snd x = Some EBadAttr).
  { clear. intros fuel. induction fuel as [|f IH]; intros i hdr x; cbn [nfattr_loop]; [discriminate|].
    destruct (i <? _); [|intros E; inversion E; auto].
    destruct (_ <? i + 4); [intros E; inversion E; auto|].
    destruct (resl_from buf i); cbn [rbind]; try discriminate.
    destruct (get16 _ _); cbn [rbind]; try discriminate.
    destruct (resl_from buf (i + 2)); cbn [rbind]; try discriminate.
    destruct (get16 _ _) as [t| |]; cbn [rbind]; try discriminate.
    destruct (_ <=? _); [|intros E; inversion E; auto].
    destruct (t <? nfqaMax); [|apply IH].
    destruct (amap_get hdr t); [|apply IH].
    destruct (reslice _ _ _); cbn [rbind]; try discriminate. apply IH. }
  destruct (nfattr_loop fuel m h buf 0 hdr) as [[[h1 i] e1]| |] eqn:EL; cbn [rbind]; try discriminate.
  destruct (L _ _ _ _ EL) as [H|H]; cbn [snd] in H; subst e1.
  - destruct (_ <=? i); [discriminate|]. destruct (resl_from buf i); discriminate.
  - intros E. inversion E. reflexivity.
Qed.

(** where the slot of attribute type [t] may point after a datagram [d] *)
Definition slot_after (m : endian) (w w' : world nfq) (r : resp) (t : Z) : Prop :=
  forall s, amap_get (q_attr (w_st w)) t = Some s ->
  exists s', amap_get (q_attr (w_st w')) t = Some s' /\
    (s' = s \/
     r_err r = None /\ s_arr s' = s_arr (q_buf (w_st w)) /\
     exists p, attr_complete m (skipn 20 (received r)) p /\
       (4 <= attr_len m (skipn 20 (received r)) p)%nat /\
       attr_type m (skipn 20 (received r)) p = t /\
       s_len s' = (attr_len m (skipn 20 (received r)) p - 4)%nat).

Lemma u64_id x : 0 <= x < 18446744073709551616 -> u64 (x + 0) = x.
Proof. intros H. unfold u64. rewrite Z.add_0_r. apply Z.mod_small. exact H. Qed.

Section ONE.
Context (m : endian) (fuel : nat) (grow : nat -> nat -> nat) (e : env) (w : world nfq) (fd pd : Z)
        (priv : list nat) (cb : callback).
Hypothesis LI : loop_inv fd priv cb pd w.
Hypothesis HF : (Z.to_nat 19201 < fuel)%nat.
Hypothesis BE : bytes_env e.
Hypothesis CBOK : callback_ok e priv cb.
Let c := KRecvfrom fd 76800 256.
Let r := e (w_tr w) c.
Let d := received r.
Let tr' := w_tr w ++ [(c, r)].
Let h' := recv_heap w d.

Lemma d_bytes : is_bytes d.
Proof. unfold d, received. apply is_bytes_firstn. apply BE. Qed.
Lemma d_len : (length d <= Z.to_nat 76800)%nat.
Proof. clear HF grow. unfold d, received. rewrite firstn_length. lia. Qed.

Lemma heap_facts :
  (forall s, valid (w_heap w) s -> valid h' s) /\
  length h' = length (w_heap w) /\
  (forall a, a <> s_arr (q_buf (w_st w)) -> arr h' a = arr (w_heap w) a) /\
  (forall k, (k <= length d)%nat ->
     valid h' (recv_win w d k) /\ rd h' (recv_win w d k) = skipn k d).
Proof. exact (recv_heap_facts e w fd (li_ready _ _ _ _ _ LI)). Qed.
Lemma win_len : Z.of_nat (s_len (recv_win w d 20)) <= 4294967292.
Proof. cbn [recv_win s_len]. pose proof d_len. clear HF grow. lia. Qed.
Lemma win_bytes : (20 <= length d)%nat -> is_bytes (rd h' (recv_win w d 20)).
Proof.
  intros L. destruct LI as [Q _ _ _ _ _].
  destruct heap_facts as (F1 & F3 & F4 & F5). destruct (F5 20%nat L) as [V20 R20].
  assert (X : rd h' (recv_win w d 20) = skipn 20 d) by exact R20. rewrite X. apply is_bytes_skipn, d_bytes.
Qed.

(** the world after the receive, with table [tbl] *)
Lemma inv_after st' tr0 p0 :
  q_proc st' = p0 -> 0 <= p0 < 18446744073709551616 ->
  q_ecb st' = q_ecb (w_st w) -> q_cb st' = q_cb (w_st w) -> q_priv st' = q_priv (w_st w) ->
  q_buf st' = q_buf (w_st w) -> q_hdr st' = q_hdr (w_st w) -> q_handle st' = q_handle (w_st w) ->
  q_num st' = q_num (w_st w) ->
  q_attr st' = q_attr (w_st w) \/
    ((exists lo er, NetlinkMessageToNfAttrStruct fuel m h' (recv_win w d 20) (q_attr (w_st w)) = Ok (q_attr st', lo, er))
     /\ (20 <= length d)%nat) ->
  loop_inv fd priv cb pd (mkW st' h' tr0).
Proof.
  intros E0 E1 E2 E3 E4 E5 E6 E7 E8 H. destruct LI as [Q P I1 I2 I3 I4].
  destruct heap_facts as (F1 & F3 & F4 & F5).
  constructor; cbn [w_st].
  - assert (RA : queue_ready (mkW (set_attr (w_st w) (q_attr st')) h' tr0) fd).
    { apply (ready_after m e w fd Q). destruct H as [H|((lo & er & H) & L)].
      - left. rewrite H. destruct (w_st w); reflexivity.
      - right. exists fuel, (q_attr st'), lo, er. repeat split; auto. apply d_bytes. }
    destruct RA as [q1 q2 q3 q4 q5 q6 q7 q8 q9].
    cbn [w_st w_heap set_attr q_handle q_buf q_hdr q_num q_attr] in *.
    constructor; cbn [w_st w_heap]; rewrite ?E5, ?E6, ?E7, ?E8; auto.
  - destruct P as (P1 & P2 & P3 & P4). unfold private_ok. cbn [w_st w_heap]. rewrite E5, E6.
    split; [exact P1|]. split; [exact P2|]. split.
    + assert (LH : length h' = length (w_heap w)) by exact F3. rewrite LH. exact P3.
    + intros s Hs. destruct H as [H|((lo & er & H) & L)]; [rewrite H in Hs; auto|].
      destruct (F5 20%nat L) as [V20 R20].
      pose proof (parser_slots _ _ _ _ _ _ _ _ V20 win_len (win_bytes L) H 10) as PS.
      destruct (qr_slots _ _ Q 10 ltac:(auto)) as (s0 & A & _). rewrite A in PS.
      destruct PS as (s' & B1 & B2). rewrite Hs in B1. injection B1 as <-.
      destruct B2 as [->|B2]; [auto|].
      apply (slot_window_valid _ _ _ _ _ V20) in B2 as [_ (B2 & _)]. cbn [recv_win s_arr] in B2.
      rewrite B2. exact P2.
  - congruence.
  - congruence.
  - congruence.
  - rewrite E0. exact E1.
Qed.

Lemma slots_after_recv st' tr0 t :
  (t = 1 \/ t = 3 \/ t = 10) ->
  q_attr st' = q_attr (w_st w) \/
    (r_err r = None /\ (exists lo er, NetlinkMessageToNfAttrStruct fuel m h' (recv_win w d 20) (q_attr (w_st w)) = Ok (q_attr st', lo, er))
     /\ (20 <= length d)%nat) ->
  slot_after m w (mkW st' h' tr0) r t.
Proof.
  intros Ht H s Hs. cbn [w_st].
  destruct H as [H|(E & (lo & er & H) & L)]; [rewrite H; eauto|].
  destruct LI as [Q P I1 I2 I3 I4].
  destruct heap_facts as (F1 & F3 & F4 & F5).
  destruct (F5 20%nat L) as [V20 R20].
  pose proof (parser_slots _ _ _ _ _ _ _ _ V20 win_len (win_bytes L) H t) as PS.
  rewrite Hs in PS. destruct PS as (s' & B1 & B2). exists s'. split; [exact B1|].
  destruct B2 as [->|(p & C1 & C2 & C3 & C4)]; [auto|]. right.
  rewrite R20 in C1, C2, C3, C4. split; [exact E|]. subst s'. cbn [s_arr s_len recv_win].
  split; [reflexivity|]. exists p. auto.
Qed.

Lemma process_one_cases res w' :
  process_one fuel m grow e w = (res, w') ->
  match res with
  | Ok _ =>
      loop_inv fd priv cb pd w' /\
      (forall t, t = 1 \/ t = 3 \/ t = 10 -> slot_after m w w' r t) /\
      (forall a, In a priv -> a <> s_arr (q_hdr (w_st w)) -> arr (w_heap w') a = arr (w_heap w) a) /\
      s_arr (q_hdr (w_st w')) = s_arr (q_hdr (w_st w)) /\
      s_arr (q_buf (w_st w')) = s_arr (q_buf (w_st w)) /\
      ((exists er dt r2, w_tr w' = w_tr w ++ [(c, r); (KErrCb er dt, r2)] /\ receive_error m r er dt /\
          q_proc (w_st w') = q_proc (w_st w)) \/
       (exists id mark s contents r2 evs,
          w_tr w' = w_tr w ++ (c, r) :: (KPacketCb id mark s contents pd, r2) :: evs /\
          r_err r = None /\ (20 <= length d)%nat /\ reply_code m d = 0 /\ ~ truncated_attr m (skipn 20 d) /\
          shows m d id mark contents /\ Forall cb_event evs /\
          q_proc (w_st w') = u64 (q_proc (w_st w) + 1) /\
          (forall s3, amap_get (q_attr (w_st w)) 3 = Some s3 -> amap_get (q_attr (w_st w')) 3 = Some s3 ->
             In (s_arr s3) priv -> mark = num Base.BE (field (rd (w_heap w) s3) 0 4))))
  | _ => r_err r = None /\ w_tr w' = w_tr w ++ [(c, r)] /\ q_proc (w_st w') = q_proc (w_st w)
  end.
Proof.
  pose proof LI as [Q P I1 I2 I3 I4].
  rewrite (process_one_eq m fuel grow e w fd cb Q I1 I2). fold c r d tr' h'.
  destruct heap_facts as (F1 & F3 & F4 & F5).
  assert (PA : forall a, In a priv -> arr h' a = arr (w_heap w) a).
  { intros a Ha. apply F4. intros ->. destruct P as (_ & P2 & _). auto. }
  destruct (r_err r) as [en|] eqn:E.
  { intros EQ. inversion EQ; subst res w'; clear EQ. cbn [w_st w_heap w_tr].
    split; [|split; [|split; [auto|split; [reflexivity|split; [reflexivity|]]]]].
    - constructor; auto. destruct Q; constructor; auto.
    - intros t Ht s Hs. cbn [w_st]. eauto.
    - left. eexists _, _, _. unfold with_event, tr'. rewrite <- app_assoc. split; [reflexivity|].
      split; [left; exists en; auto|reflexivity]. }
  destruct (Nat.ltb_spec (length d) 20) as [L|L].
  { intros EQ. inversion EQ; subst res w'; clear EQ. cbn [w_st w_heap w_tr]. auto. }
  destruct (Z.eqb_spec (reply_code m d) 0) as [C|C]; cbn [negb].
  2:{ intros EQ. inversion EQ; subst res w'; clear EQ. split; [apply inv_after with (p0 := q_proc (w_st w)); auto|].
      split; [|cbn [w_st w_heap w_tr]; split; [auto|split; [reflexivity|split; [reflexivity|]]]].
      - intros t Ht. apply slots_after_recv; auto.
      - left. eexists _, _, _. unfold with_event, tr'. rewrite <- app_assoc. split; [reflexivity|].
        split; [right; left; auto|reflexivity]. }
  destruct (NetlinkMessageToNfAttrStruct fuel m h' (recv_win w d 20) (q_attr (w_st w)))
    as [[[tbl lo] er]| |] eqn:EP.
  2,3: intros EQ; inversion EQ; subst res w'; clear EQ; cbn [w_st w_heap w_tr]; auto.
  destruct (F5 20%nat L) as [V20 R20].
  pose proof (attr_parser_error_iff m h' (recv_win w d 20) _ _ _ _ _ V20 (win_bytes L) win_len EP) as EI. rewrite R20 in EI.
  destruct er as [er|].
  { pose proof (attr_error_kind _ _ _ _ _ _ _ _ EP) as K. subst er.
    intros EQ. inversion EQ; subst res w'; clear EQ. split.
    - apply inv_after with (p0 := q_proc (w_st w)); auto.
      right. split; [exists lo, (Some EBadAttr); exact EP|exact L].
    - split; [|cbn [w_st w_heap w_tr set_attr q_hdr q_buf q_proc]; split; [auto|split; [reflexivity|split; [reflexivity|]]]].
      + intros t Ht. apply slots_after_recv; [exact Ht|]. right. split; [exact E|]. split; [|exact L].
        exists lo, (Some EBadAttr). exact EP.
      + left. eexists _, _, _. unfold with_event, tr'. rewrite <- app_assoc. split; [reflexivity|].
        split; [right; right|reflexivity]. split; [exact E|]. split; [exact C|]. split; [|auto].
        apply EI. discriminate. }
  destruct (GetPacketInfo m h' (Some tbl)) as [[[id mark] s]| |] eqn:EG.
  2,3: intros EQ; inversion EQ; subst res w'; clear EQ; cbn [w_st w_heap w_tr]; auto.
  (* the slots *)
  assert (SL : forall t, t = 1 \/ t = 3 \/ t = 10 -> exists s', amap_get tbl t = Some s').
  { intros t Ht. destruct (qr_slots _ _ Q t Ht) as (s0 & A & _).
    destruct (slots_after_recv (set_attr (w_st w) tbl) [] t Ht) with (s := s0) as (s' & B & _); [|exact A|].
    - right. split; [exact E|]. split; [|exact L]. exists lo, None. exact EP.
    - cbn [w_st set_attr q_attr] in B. eauto. }
  destruct (SL 1 ltac:(auto)) as (t1 & B1). destruct (SL 3 ltac:(auto)) as (t3 & B3).
  destruct (SL 10 ltac:(auto)) as (t10 & B10). clear SL.
  rewrite (packet_info m h' tbl t1 t3 t10 B1 B3 B10) in EG.
  destruct (_ || _)%bool eqn:LL in EG; [discriminate|]. inversion EG; subst id mark s. clear EG.
  set (id := num m (field (rd h' t1) 0 4)). set (mark := be_num (field (rd h' t3) 0 4)).
  cbv zeta.
  set (k := KPacketCb id mark t10 (rd h' t10) (q_priv (w_st w))).
  set (tr2 := with_event e tr' k).
  set (w1 := mkW (set_counts (set_attr (w_st w) tbl) (q_acc (w_st w)) (q_drop (w_st w))
                    (u64 (q_proc (w_st w) + 1))) h' tr2).
  assert (LI1 : loop_inv fd priv cb pd w1).
  { apply inv_after with (p0 := u64 (q_proc (w_st w) + 1)); auto.
    - unfold u64. apply Z.mod_pos_bound. reflexivity.
    - right. split; [|exact L]. exists lo, None. exact EP. }
  pose proof LI1 as [Q1 P1 _ _ _ _].
  assert (V10 : valid h' t10).
  { destruct (qr_slots _ _ Q1 10 ltac:(auto)) as (x & X1 & X2 & _).
    cbn [w1 w_st w_heap set_counts set_attr q_attr] in X1, X2. rewrite B10 in X1. injection X1 as <-. exact X2. }
  assert (AO : acts_ok e h' priv (cb tr2 h' (mkPkt t10 mark id) (q_priv (w_st w)))).
  { apply CBOK; cbn [p_buf].
    - exact V10.
    - destruct P1 as (_ & _ & _ & P4). apply P4. exact B10.
    - destruct P1 as (_ & _ & P3 & _). exact P3. }
  destruct (run_acts_ok m grow fd priv e _ w1 Q1 P1 AO) as (w2 & evs & G1 & G2 & G3 & G4).
  rewrite G1. intros EQ. inversion EQ; subst res w'. clear EQ.
  pose proof G4 as [K1 K2 K3 (x & y & K4)].
  cbn [w1 w_st set_counts set_attr q_subsys q_num q_cb q_ecb q_priv q_handle q_buf q_attr q_hdr q_proc] in K4.
  split.
  { constructor.
    - eapply cb_frame_ready; eauto.
    - eapply cb_frame_private; eauto.
    - rewrite K4. exact I1.
    - rewrite K4. exact I2.
    - rewrite K4. exact I3.
    - rewrite K4. cbn [q_proc]. unfold u64. apply Z.mod_pos_bound. reflexivity. }
  split.
  { intros t Ht s Hs. destruct (slots_after_recv (set_attr (w_st w) tbl) [] t Ht) with (s := s) as (s' & B & B'); [|exact Hs|].
    - right. split; [exact E|]. split; [|exact L]. exists lo, None. exact EP.
    - cbn [w_st set_attr q_attr] in B. exists s'. rewrite K4. cbn [q_attr]. auto. }
  split.
  { intros a Ha Hn. rewrite K3; auto.
    destruct P1 as (_ & _ & P3 & _). rewrite Forall_forall in P3. exact (P3 a Ha). }
  rewrite K4. cbn [q_hdr q_buf q_proc q_attr]. split; [reflexivity|]. split; [reflexivity|]. right.
  exists id, mark, t10, (rd h' t10), (e tr' k), evs.
  split.
  { rewrite G2. cbn [w1 w_tr]. unfold tr2, with_event, tr', k. rewrite I3, <- !app_assoc. reflexivity. }
  split; [reflexivity|]. split; [exact L|]. split; [exact C|].
  split. { intros T. apply EI in T. congruence. }
  split.
  { intros l Hl.
    destruct (attr_parser_wellformed fuel m h' (recv_win w d 20) (q_attr (w_st w)) l V20) as (tbl' & EP' & TF).
    - rewrite R20. apply is_bytes_skipn, d_bytes.
    - cbn [recv_win s_len]. pose proof d_len. lia.
    - rewrite R20. exact Hl.
    - cbn [recv_win s_len]. pose proof d_len. lia.
    - rewrite EP in EP'. inversion EP'; subst tbl'. clear EP'.
      destruct (qr_slots _ _ Q 1 ltac:(auto)) as (s1 & A1 & _).
      destruct (qr_slots _ _ Q 3 ltac:(auto)) as (s3 & A3 & _).
      destruct (qr_slots _ _ Q 10 ltac:(auto)) as (s10 & A10 & _).
      split; [|split].
      + intros i (hv & Y1 & Y2 & Y3).
        destruct (table_slot _ _ _ _ _ 1 _ _ TF eq_refl A1 Y1) as (x1 & X1 & X2 & _).
        rewrite B1 in X1. injection X1 as <-. unfold id. rewrite X2. auto.
      + intros i (mv & Y1 & Y2 & Y3).
        destruct (table_slot _ _ _ _ _ 3 _ _ TF eq_refl A3 Y1) as (x1 & X1 & X2 & _).
        rewrite B3 in X1. injection X1 as <-. unfold mark. rewrite X2. auto.
      + intros p Y1.
        destruct (table_slot _ _ _ _ _ 10 _ _ TF eq_refl A10 Y1) as (x1 & X1 & X2 & _).
        rewrite B10 in X1. injection X1 as <-. exact X2. }
  split; [exact G3|]. split; [reflexivity|].
  intros s3 A3 A3' In3. cbn [set_counts set_attr q_attr] in A3'. rewrite B3 in A3'. injection A3' as <-. unfold mark. cbn [num]. f_equal.
  unfold rd. rewrite PA by exact In3. reflexivity.
Qed.
End ONE.
