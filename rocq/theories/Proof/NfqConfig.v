(** C08, C15, C16, C17 for nfqueue. *)
From Verif Require Export Proof.Requests Proof.MessageFacts Spec.NfqSpec.

Definition cfg_attr_bytes (m : endian) (c : cfg_call) : bytes :=
  attr_bytes m (mkAttr (4 + zlen (snd (cfg_attr c))) (fst (cfg_attr c))) ++ snd (cfg_attr c).
Definition cfg_hdr (c : cfg_call) : nlmsghdr :=
  mkNlh (24 + zlen (snd (cfg_attr c))) 770 5 0 0.
Definition cfg_data (m : endian) (c : cfg_call) (num : Z) : bytes :=
  gen_bytes (mkGen 0 0 (cfg_resid c num)) ++ cfg_attr_bytes m c.

(** the state a call leaves before talking to the socket *)
Definition cfg_state (c : cfg_call) (q : nfq) : nfq :=
  match c with CfgCreate n cb ecb priv => set_queue q n cb ecb priv | _ => q end.

Lemma ConfigCommand_ok c p pf :
  ConfigCommand_ToWireFormat c p pf = Ok ([u8 c; u8 p] ++ put16 BE pf).
Proof. reflexivity. Qed.
Lemma ConfigParams_ok r md : ConfigParams_ToWireFormat r md = Ok (put32 BE r ++ [u8 md; 0; 0; 0]).
Proof. reflexivity. Qed.
Lemma ConfigQueueLen_ok r : ConfigQueueLen_ToWireFormat r = Ok (put32 BE r).
Proof. reflexivity. Qed.

Lemma cfg_run_unfold m c e w :
  cfg_args_ok c -> is_u16 (q_num (w_st w)) ->
  let q := cfg_state c (w_st w) in
  let w1 := mkW q (w_heap w) (w_tr w) in
  cfg_run m c e w =
  match q_handle (w_st w) with
  | Some k => nfq_query m k (cfg_hdr c) (cfg_data m c (q_num (w_st w))) e w1
  | None => (Ok (Some ENotOpen), w1)
  end.
Proof.
  intros A N. cbv zeta.
  assert (W : mkW (w_st w) (w_heap w) (w_tr w) = w) by (destruct w; reflexivity).
  unfold is_u16, is_u32, is_u8 in *.
  assert (forall m a, NfAttr_ToWireFormat m a = Ok (attr_bytes m a)) as HA by apply NfAttr_ToWireFormat_ok.
  destruct c as [| |n cb ecb priv|mode sz|n|]; cbn [cfg_run cfg_state]; try rewrite W;
    cbn [cfg_args_ok] in A; unfold is_u16, is_u32, is_u8 in *.
  - unfold UnbindPf, config_request. cbn [BuildNfgenMsg BuildNfAttrMsg].
    rewrite HA, NfqGenMsg_ToWireFormat_ok, ?ConfigCommand_ok, ?ConfigParams_ok, ?ConfigQueueLen_ok. repeat mstep.
    destruct (q_handle (w_st w)) as [k|]; [|reflexivity]. destruct m; reflexivity.
  - unfold BindPf, config_request. cbn [BuildNfgenMsg BuildNfAttrMsg].
    rewrite HA, NfqGenMsg_ToWireFormat_ok, ?ConfigCommand_ok, ?ConfigParams_ok, ?ConfigQueueLen_ok. repeat mstep.
    destruct (q_handle (w_st w)) as [k|]; [|reflexivity]. destruct m; reflexivity.
  - unfold CreateQueue, config_request. repeat mstep. cbn [BuildNfgenMsg BuildNfAttrMsg].
    rewrite HA, NfqGenMsg_ToWireFormat_ok, ?ConfigCommand_ok, ?ConfigParams_ok, ?ConfigQueueLen_ok. repeat mstep. cbn [set_queue q_handle q_num].
    replace (u16 n) with n by (unfold u16; lia).
    destruct (q_handle (w_st w)) as [k|]; [|reflexivity]. destruct m; reflexivity.
  - unfold NfqSetMode, config_request. repeat mstep. cbn [BuildNfgenMsg BuildNfAttrMsg].
    rewrite HA, NfqGenMsg_ToWireFormat_ok, ?ConfigCommand_ok, ?ConfigParams_ok, ?ConfigQueueLen_ok.
    replace (u16 (q_num (w_st w))) with (q_num (w_st w)) by (unfold u16; lia).
    replace (u8 (u8 mode)) with mode by (unfold u8; lia).
    repeat mstep.
    assert (B : put32 BE sz = be32 sz) by (unfold put32, be32; f_equal; lia).
    rewrite B. 
    destruct (q_handle (w_st w)) as [k|]; [|reflexivity]. destruct m; reflexivity.
  - unfold NfqSetQueueMaxLen, config_request. repeat mstep. cbn [BuildNfgenMsg BuildNfAttrMsg].
    rewrite HA, NfqGenMsg_ToWireFormat_ok, ?ConfigCommand_ok, ?ConfigParams_ok, ?ConfigQueueLen_ok.
    replace (u16 (q_num (w_st w))) with (q_num (w_st w)) by (unfold u16; lia).
    repeat mstep.
    assert (B : put32 BE n = be32 n) by (unfold put32, be32; f_equal; lia).
    rewrite B.
    destruct (q_handle (w_st w)) as [k|]; [|reflexivity]. destruct m; reflexivity.
  - unfold NfqDestroyQueue, config_request. repeat mstep. cbn [BuildNfgenMsg BuildNfAttrMsg].
    rewrite HA, NfqGenMsg_ToWireFormat_ok, ?ConfigCommand_ok, ?ConfigParams_ok, ?ConfigQueueLen_ok.
    replace (u16 (q_num (w_st w))) with (q_num (w_st w)) by (unfold u16; lia).
    repeat mstep.
    destruct (q_handle (w_st w)) as [k|]; [|reflexivity]. destruct m; reflexivity.
Qed.

Lemma cfg_attr_len c : zlen (snd (cfg_attr c)) = 4 \/ zlen (snd (cfg_attr c)) = 8.
Proof. destruct c; cbn; auto. Qed.
Lemma cfg_message_ok m c num :
  cfg_args_ok c -> is_u16 num ->
  read_message m (hdr_bytes m (cfg_hdr c) ++ cfg_data m c num) = Some (cfg_message c num).
Proof.
  intros A N. unfold cfg_data. pose proof (cfg_attr_len c) as HL.
  rewrite <- (app_nil_r (cfg_attr_bytes m c)).
  assert (Hlen : length (cfg_attr_bytes m c) = (4 + length (snd (cfg_attr c)))%nat).
  { unfold cfg_attr_bytes. rewrite app_length, attr_bytes_length. reflexivity. }
  rewrite (read_message_build m (cfg_hdr c) (mkGen 0 0 (cfg_resid c num)) (cfg_attr_bytes m c) []
             [cfg_attr c]).
  - reflexivity.
  - unfold hdr_in_range, is_u32, is_u16. cbn [cfg_hdr n_len n_type n_flags n_seq n_pid]. lia.
  - cbn. red; lia.
  - cbn. red; lia.
  - cbn [g_res]. destruct c; cbn in *; unfold is_u16 in *; lia.
  - cbn [cfg_hdr n_len]. unfold zlen at 2. rewrite Hlen. unfold zlen. lia.
  - rewrite Hlen. unfold zlen in HL. cbn [length]. unfold al4. lia.
  - unfold cfg_attr_bytes.
    replace (cfg_attr c) with (fst (cfg_attr c), snd (cfg_attr c)) at 4
      by (destruct (cfg_attr c); reflexivity).
    apply attrs_of_last; [reflexivity|red; lia|]. destruct c; cbn; red; lia.
Qed.

(** ** C08, C15 *)
Lemma cfg_sends m c e w fd :
  cfg_args_ok c -> is_u16 (q_num (w_st w)) ->
  (exists buf, q_handle (w_st w) = Some (mkSock fd buf)) ->
  exists b r1 new,
    w_tr (snd (cfg_run m c e w)) = w_tr w ++ (KSendto fd b 0, r1) :: new /\
    existsb is_send new = false /\
    read_message m b = Some (cfg_message c (q_num (w_st w))).
Proof.
  intros A N [buf H]. rewrite cfg_run_unfold by assumption. rewrite H.
  destruct (nfq_query_sends m (mkSock fd buf) (cfg_hdr c) (cfg_data m c (q_num (w_st w))) e
              (mkW (cfg_state c (w_st w)) (w_heap w) (w_tr w))) as (r1 & new & E1 & E2).
  exists (hdr_bytes m (cfg_hdr c) ++ cfg_data m c (q_num (w_st w))), r1, new.
  split; [exact E1|]. split; [exact E2|]. apply cfg_message_ok; assumption.
Qed.

Lemma cfg_state_handle c q : q_handle (cfg_state c q) = q_handle q.
Proof. destruct c; reflexivity. Qed.
Lemma cfg_state_buf c q : q_buf (cfg_state c q) = q_buf q.
Proof. destruct c; reflexivity. Qed.

Lemma cfg_request m c e w fd :
  cfg_args_ok c -> is_u16 (q_num (w_st w)) -> open_handle w fd -> replies_within 20 76800 e ->
  exists err w' new b,
    cfg_run m c e w = (Ok err, w') /\ w_tr w' = w_tr w ++ new /\
    read_message m b = Some (cfg_message c (q_num (w_st w))) /\
    one_request m fd 76800 b new err /\
    w_st w' = cfg_state c (w_st w) /\ open_handle w' fd /\
    length (w_heap w') = length (w_heap w) /\
    (forall s, valid (w_heap w) s -> valid (w_heap w') s) /\
    (forall a, a <> s_arr (q_buf (w_st w)) -> arr (w_heap w') a = arr (w_heap w) a).
Proof.
  intros A N (buf & H1 & H2 & H3 & H4 & H5) R. rewrite cfg_run_unfold by assumption. rewrite H1.
  set (w1 := mkW (cfg_state c (w_st w)) (w_heap w) (w_tr w)).
  destruct (nfq_query_run m (mkSock fd buf) (cfg_hdr c) (cfg_data m c (q_num (w_st w))) e w1)
    as (res & w' & new & E1 & E2 & E3 & E4 & E5 & E6 & E7).
  - exact H3.
  - cbn. lia.
  - cbn [k_buf]. rewrite H4. exact R.
  - cbn [k_buf k_fd] in *. rewrite H4 in E4.
    exists res, w', new, (hdr_bytes m (cfg_hdr c) ++ cfg_data m c (q_num (w_st w))).
    split; [exact E1|]. split; [exact E3|]. split; [apply cfg_message_ok; assumption|].
    split; [exact E4|]. split; [exact E2|]. split.
    + exists buf. rewrite E2. cbn [w1 w_st]. rewrite cfg_state_handle, cfg_state_buf.
      split; [exact H1|]. split; [exact H2|]. split; [apply E6, H3|]. auto.
    + split; [exact E5|]. split; [exact E6|]. rewrite H2. exact E7.
Qed.

Lemma cfg_not_open m c e w :
  cfg_args_ok c -> is_u16 (q_num (w_st w)) -> q_handle (w_st w) = None ->
  exists err w', cfg_run m c e w = (Ok (Some err), w') /\ w_tr w' = w_tr w.
Proof.
  intros A N H. rewrite cfg_run_unfold by assumption. rewrite H. eauto.
Qed.

(** ** Opening *)
Lemma NfqOpen_run e w :
  valid (w_heap w) (q_buf (w_st w)) -> Z.of_nat (s_len (q_buf (w_st w))) = 76800 ->
  s_cap (q_buf (w_st w)) = s_len (q_buf (w_st w)) ->
  exists err w' new,
    NfqOpen e w = (Ok err, w') /\ w_tr w' = w_tr w ++ new /\ w_heap w' = w_heap w /\
    match err with
    | None => exists fd, opens fd new /\ open_handle w' fd /\
                q_num (w_st w') = q_num (w_st w) /\ q_buf (w_st w') = q_buf (w_st w) /\
                q_attr (w_st w') = q_attr (w_st w) /\ q_hdr (w_st w') = q_hdr (w_st w) /\
                q_acc (w_st w') = q_acc (w_st w) /\ q_drop (w_st w') = q_drop (w_st w) /\
                q_proc (w_st w') = q_proc (w_st w)
    | Some _ => open_fails new /\ q_handle (w_st w') = q_handle (w_st w)
    end.
Proof.
  intros V L C. unfold NfqOpen. repeat mstep.
  set (c1 := KSocket _ _ _). set (rs := e (w_tr w) c1).
  destruct (r_err rs) as [en|] eqn:E1.
  { eexists _, _, _. split; [reflexivity|]. cbn. split; [reflexivity|]. split; [reflexivity|].
    split; [|reflexivity]. left. exists rs, en. auto. }
  repeat mstep. set (t1 := w_tr w ++ _).
  set (c2 := KBind _ _). set (rb := e t1 c2).
  destruct (r_err rb) as [en|] eqn:E2.
  { eexists _, _, _. split; [reflexivity|]. cbn [w_tr w_heap w_st]. unfold t1. rewrite <- app_assoc.
    split; [reflexivity|]. split; [reflexivity|].
    split; [|reflexivity]. right. exists rs, rb, en. auto. }
  repeat mstep. eexists None, _, _. split; [reflexivity|]. cbn [w_tr w_heap w_st].
  unfold t1. rewrite <- !app_assoc. split; [reflexivity|]. split; [reflexivity|].
  exists (r_val rs). split.
  - cbn [app]. unfold opens. do 6 eexists. split; [exact E1|]. split; [reflexivity|]. split; [exact E2|].
    reflexivity.
  - split; [|cbn; tauto]. exists (q_buf (w_st w)). cbn. auto.
Qed.

Lemma NewNFQueue_run e w :
  exists w', NewNFQueue e w = (Ok tt, w') /\ w_tr w' = w_tr w /\
    q_handle (w_st w') = None /\ q_num (w_st w') = 0 /\
    valid (w_heap w') (q_buf (w_st w')) /\ Z.of_nat (s_len (q_buf (w_st w'))) = 76800 /\
    s_cap (q_buf (w_st w')) = s_len (q_buf (w_st w')) /\
    (exists a1 a3 a10, q_attr (w_st w') = [(1, a1); (3, a3); (10, a10)] /\
       Forall (fun a => valid (w_heap w') a /\ Z.of_nat (s_len a) = 76800 /\
                        rd (w_heap w') a = repeat 0 (Z.to_nat 76800) /\
                        s_arr a <> s_arr (q_buf (w_st w'))) [a1; a3; a10]) /\
    valid (w_heap w') (q_hdr (w_st w')) /\ s_len (q_hdr (w_st w')) = 40%nat /\
    s_cap (q_hdr (w_st w')) = 40%nat /\ s_off (q_hdr (w_st w')) = 0%nat /\
    s_arr (q_hdr (w_st w')) <> s_arr (q_buf (w_st w')) /\
    q_acc (w_st w') = 0 /\ q_drop (w_st w') = 0 /\ q_proc (w_st w') = 0.
Proof.
  set (B := repeat 0 (Z.to_nat 76800)). set (H := repeat 0 40).
  set (n := length (w_heap w)).
  set (sB := fun i => mkSl (n + i) 0 (Z.to_nat 76800) (Z.to_nat 76800)).
  set (h := w_heap w ++ [B; H; B; B; B]).
  assert (LB : length B = Z.to_nat 76800) by apply repeat_length.
  assert (LH : length H = 40%nat) by reflexivity.
  exists (mkW (mkQ 0 0 None false 0 None (sB 0%nat)
                   [(NfqaPacketHdr, sB 2%nat); (NfqaMark, sB 3%nat); (NfqaPayload, sB 4%nat)]
                   (mkSl (n + 1) 0 40 40) 0 0 0 []) h (w_tr w)).
  split.
  { unfold NewNFQueue, m_alloc, alloc.
    change (gmake NfnlBuffSize) with B. change (gmake (SizeofNlMsghdr + _ + _ + _)) with H.
    repeat mstep. unfold put_st. cbn [w_st w_heap w_tr]. cbn [repeat]. rewrite !app_nil_r, !Nat.add_0_r.
    rewrite !LB, !LH, !app_length. cbn [length]. fold n. rewrite <- !app_assoc. cbn [app]. fold h.
    unfold sB. rewrite Nat.add_0_r. rewrite <- !Nat.add_assoc. reflexivity. }
  assert (Harr : forall i, arr h (n + i) = nth i [B; H; B; B; B] []).
  { intros i. unfold h, arr. rewrite app_nth2 by (fold n; lia). f_equal. fold n. lia. }
  assert (Hlen : length h = (n + 5)%nat) by (unfold h; rewrite app_length; reflexivity).
  assert (VB : forall i, nth i [B; H; B; B; B] [] = B -> (i < 5)%nat ->
             valid h (sB i) /\ Z.of_nat (s_len (sB i)) = 76800 /\ rd h (sB i) = B).
  { intros i Hi Li. split; [|split].
    - split; [cbn; lia|]. right. cbn [sB s_arr s_off s_cap]. rewrite Harr, Hi, LB. lia.
    - cbn [sB s_len]. apply Z2Nat.id. lia.
    - unfold rd. cbn [sB s_arr s_off s_len skipn]. rewrite Harr, Hi, <- LB. apply firstn_all. }
  cbn [w_st w_heap w_tr q_handle q_num q_buf q_attr q_hdr q_acc q_drop q_proc].
  do 3 (split; [reflexivity|]).
  destruct (VB 0%nat eq_refl ltac:(lia)) as (V0 & L0 & _).
  split; [exact V0|]. split; [exact L0|]. split; [reflexivity|]. split.
  { exists (sB 2%nat), (sB 3%nat), (sB 4%nat). split; [reflexivity|].
    repeat (apply Forall_cons; [|]); try apply Forall_nil.
    - destruct (VB 2%nat eq_refl ltac:(lia)) as (V1 & L1 & R1). split; [exact V1|]. split; [exact L1|].
      split; [exact R1|]. cbn. lia.
    - destruct (VB 3%nat eq_refl ltac:(lia)) as (V1 & L1 & R1). split; [exact V1|]. split; [exact L1|].
      split; [exact R1|]. cbn. lia.
    - destruct (VB 4%nat eq_refl ltac:(lia)) as (V1 & L1 & R1). split; [exact V1|]. split; [exact L1|].
      split; [exact R1|]. cbn. lia. }
  split.
  { split; [cbn; lia|]. right. cbn [s_arr s_off s_cap]. rewrite Harr. cbn [nth]. rewrite LH. lia. }
  cbn [s_len s_cap s_off s_arr sB]. repeat split; lia.
Qed.
