(** The client that answers UDP packets (Spec/UdpClientSpec.v). *)
From Verif Require Export Proof.Client Proof.PktMirror Proof.PktFrame Spec.UdpServeSpec.

Lemma udp_accepted h s b v : valid h s -> rd h s = b -> zlen b < 65536 -> udp_packet v b ->
  exists p, New h 0 s true = Ok (Some p, None) /\ version p = v /\ udp_agrees h p /\
    s_arr (Buffer p) = s_arr s /\ rd h (Buffer p) = b /\ s_len (Buffer p) = length b /\ tcpOptions p = snil.
Proof.
  intros VA R LT (SHP & IB & L & ST). subst b.
  assert (LB : length (rd h s) = s_len s) by (apply valid_len, VA).
  assert (L1 : (1 <= s_len s)%nat) by lia. unfold zlen in LT. rewrite LB in LT.
  pose proof (valid_vslice h s VA L1) as V. pose proof V as (V1 & V2 & V3).
  assert (X : exists p, New h 0 s true = Ok (Some p, None) /\ version p = v /\
            exists n, Buffer p = mkSl (s_arr s) (s_off s) n (s_cap s) /\ (n <= s_len s)%nat /\
            rd h (Buffer p) = kept true (stated_length v (rd h s) mod 65536) (rd h s)).
  { destruct v; destruct SHP as [B0 SHP]; cbn [ip_hdr stated_length] in *.
    - assert (V4 : ip4_version (rd h s) = 4) by (unfold ip4_version; rewrite B0; reflexivity).
      pose proof (New_v4 h 0 s true V IB L1 LT V4) as X.
      assert (C : classify4 (rd h s) (Z.of_nat (s_cap s)) true = Accepts).
      { unfold classify4, ip4_ihl, stated_too_small. rewrite B0, SHP, ST. unfold zlen. rewrite LB.
        destruct (Z.ltb_spec (Z.of_nat (s_len s)) 20); [lia|]. change (69 mod 16 =? 5) with true. cbn [negb andb].
        destruct (Z.ltb_spec (Z.of_nat (s_len s)) (Z.of_nat (s_len s))); [lia|].
        change (PROTO_UDP =? PROTO_TCP) with false. rewrite Z.eqb_refl. cbv iota.
        destruct (Z.ltb_spec (Z.of_nat (s_len s)) (20 + 8)); [lia|]. rewrite andb_false_r.
        destruct (Z.ltb_spec (Z.of_nat (s_cap s)) 28); [lia|]. reflexivity. }
      rewrite C in X. destruct (New h 0 s true) as [[[p|] [er|]]| |]; try discriminate X; try contradiction.
      destruct X as [_ [A1 A2 A3 A4 A5 A6 A7 A8]]. exists p. split; [reflexivity|]. destruct A2 as (I1 & _). split; [exact I1|].
      rewrite Z.mod_small by (rewrite ST; unfold zlen; lia). exact A5.
    - assert (V4 : ip4_version (rd h s) <> 4) by (unfold ip4_version; rewrite B0; discriminate).
      pose proof (New_v6 h 0 s true V IB L1 LT V4) as X.
      assert (TT : (40 + ip6_payload (rd h s)) mod 65536 = Z.of_nat (s_len s)) by (rewrite ST; unfold zlen; rewrite LB; apply Z.mod_small; lia).
      assert (C : classify6 (rd h s) (Z.of_nat (s_cap s)) true = Accepts).
      { unfold classify6. rewrite TT, SHP. unfold zlen in *. rewrite LB in *. cbv zeta. cbn [andb].
        destruct (Z.ltb_spec (Z.of_nat (s_len s)) 7); [lia|]. destruct (Z.ltb_spec (Z.of_nat (s_cap s)) 40); [lia|]. cbn [orb].
        destruct (Z.ltb_spec (Z.of_nat (s_len s)) (Z.of_nat (s_len s))); [lia|]. cbn [andb].
        change (PROTO_UDP =? PROTO_TCP) with false. rewrite Z.eqb_refl. cbv iota.
        destruct (Z.ltb_spec (ip6_payload (rd h s)) 8); [lia|].
        destruct (Z.ltb_spec (Z.of_nat (s_len s)) 40); [lia|]. destruct (Z.ltb_spec (Z.of_nat (s_cap s)) 48); [lia|]. reflexivity. }
      rewrite C in X. destruct (New h 0 s true) as [[[p|] [er|]]| |]; try discriminate X; try contradiction.
      destruct X as [_ [A1 A2 A3 A4 A5 A6 A7 A8 A9 A10 A11 A12]]. exists p. split; [reflexivity|]. split; [exact A5|exact A9]. }
  destruct X as (p & E & VP & n & BP & LN & RB).
  assert (RB' : rd h (Buffer p) = rd h s).
  { rewrite RB, ST. unfold kept, zlen. rewrite LB, Z.mod_small by lia. rewrite Nat2Z.id. apply firstn_all2. lia. }
  assert (SL : s_len (Buffer p) = length (rd h s)).
  { rewrite <- RB'. symmetry. apply valid_len. rewrite BP. split; cbn [s_len s_cap s_arr s_off]; [lia|right; lia]. }
  assert (HL : hl p = ip_hdr v) by (unfold hl; rewrite VP; reflexivity).
  destruct (new_agrees h 0 s true p VA IB L1 LT E ltac:(lia)) as (AG & TO & _ & _ & UC).
  exists p. split; [exact E|]. split; [exact VP|]. split.
  { apply UC; [|lia]. destruct AG as (_ & _ & _ & M). rewrite VP in M. rewrite RB' in M. destruct v; destruct SHP as [_ SHP].
    - destruct M as (_ & _ & _ & M & _). rewrite M. exact SHP.
    - destruct M as (_ & _ & M & _). rewrite M. exact SHP. }
  split; [rewrite BP; reflexivity|]. auto.
Qed.

Lemma valid_more h v x : valid h x -> valid (h ++ [v]) x.
Proof.
  intros [X1 X2]. split; [exact X1|]. rewrite app_length. cbn [length].
  destruct X2 as [X2|[X2 X3]]; [now left|right]. split; [lia|]. unfold arr. rewrite app_nth1 by exact X2. exact X3.
Qed.
Lemma rd_more h v x : valid h x -> rd (h ++ [v]) x = rd h x.
Proof.
  intros [X1 X2]. destruct (Nat.eq_dec (s_len x) 0) as [Z0|Z0]; [unfold rd; rewrite Z0; reflexivity|].
  destruct X2 as [X2|[X2 X3]]; [lia|]. unfold rd, arr. rewrite app_nth1 by exact X2. reflexivity.
Qed.

(** reversing a UDP packet and attaching marker and token *)
Lemma answer_emits grow h p tok ty v b :
  udp_agrees h p -> version p = v -> rd h (Buffer p) = b -> s_len (Buffer p) = length b ->
  0 <= ty < 256 -> valid h tok -> apart (Buffer p) tok -> is_bytes (rd h tok) ->
  Z.of_nat (ip_hdr v) + 28 + Z.of_nat (s_len tok) < 65536 -> tcpOptions p = snil ->
  let mk := (ty :: 0 :: control_signature) ++ repeat 0 0 in
  exists p1 h1 p2 h2, CreateReverseFlowPacket h p = Ok (p1, h1) /\
    UDPTokenAttach grow (h1 ++ [mk]) p1 (mkSl (length h1) 0 20 20) tok = Ok (p2, h2) /\
    answers v ty (rd h tok) b (rd h2 (Buffer p2)) /\ is_bytes (rd h2 (Buffer p2)) /\
    (forall x, valid h x -> valid h2 x) /\
    (forall a k x, a <> s_arr (Buffer p) -> nth_error (arr h a) k = Some x -> nth_error (arr h2 a) k = Some x).
Proof.
  intros U VP RB SL TY VT AT IT LE TO mk.
  destruct (reverse_wire h p U) as (p1 & h1 & R1 & U1 & VP1 & OF & MI & CO & TL & _ & BP & OB).
  set (d := mkSl (length h1) 0 20 20). set (h1' := h1 ++ [mk]).
  pose proof U1 as (A1 & _). pose proof A1 as (VB1 & _).
  assert (VT1 : valid h1 tok) by (eapply only_valid; eauto).
  assert (RT1 : rd h1 tok = rd h tok) by (eapply only_apart; eauto).
  assert (RDD : rd h1' d = ty :: 0 :: control_signature) by exact (rd_alloc_new h1 (ty :: 0 :: control_signature) 0).
  assert (VD : valid h1' d).
  { split; cbn [d s_len s_cap s_arr s_off]; [lia|right]. unfold h1', arr. rewrite app_length, app_nth2, Nat.sub_diag by lia. cbn. lia. }
  assert (U1' : udp_agrees h1' p1).
  { apply (udp_ext h1 h1' p1 p1 U1); try reflexivity; [apply valid_more, VB1|apply rd_more, VB1]. }
  assert (RT1' : rd h1' tok = rd h tok) by (unfold h1'; rewrite rd_more by exact VT1; exact RT1).
  assert (HP : hl p1 = ip_hdr v) by (unfold hl; rewrite VP1, VP; destruct v; reflexivity).
  assert (HP0 : hl p = ip_hdr v) by (unfold hl; rewrite VP; destruct v; reflexivity).
  assert (RB1 : rd h1' (Buffer p1) = rd h1 (Buffer p1)) by (apply rd_more, VB1).
  assert (LB : length (rd h1 (Buffer p1)) = (ip_hdr v + 8)%nat).
  { rewrite (valid_len h1 _ VB1), BP. cbn [win s_len]. lia. }
  assert (LT : length (rd h tok) = s_len tok) by (apply valid_len, VT).
  destruct (token_attach_full grow h1' p1 d tok U1' VD) as (p2 & h2 & R2 & U2 & VP2 & F1 & F2 & F3 & F4 & TL2 & ZL & SK & UL & C4 & C6 & W2 & HK & VV).
  { apply valid_more, VT1. }
  { rewrite RDD. constructor; [exact TY|]. constructor; [unfold is_byte; lia|]. bytes_tac. }
  { now rewrite RT1'. }
  { rewrite RB1, RDD, RT1'. unfold zlen. rewrite !app_length, LB, LT. change (length (ty :: 0 :: control_signature)) with 20%nat. lia. }
  rewrite RB1, RDD, RT1' in *. rewrite HP in *. rewrite VP1 in *.
  assert (ZL' : zlen (rd h2 (Buffer p2)) = Z.of_nat (ip_hdr v) + 28 + Z.of_nat (s_len tok)).
  { rewrite ZL. unfold zlen. rewrite !app_length, LB, LT. change (length (ty :: 0 :: control_signature)) with 20%nat. lia. }
  assert (HP2 : hl p2 = ip_hdr v) by (unfold hl; rewrite VP2, VP; destruct v; reflexivity).
  exists p1, h1, p2, h2. split; [exact R1|]. split; [exact R2|]. split; [|split].
  2:{ destruct U2 as ((_ & IB2 & _) & _). exact IB2. }
  2:{ split; [intros x Vx; apply VV, valid_more; eapply only_valid; eauto|].
      intros a k x NA HK0.
      assert (PK : pk a k p) by (split; [left; congruence|rewrite TO; apply out_snil]).
      destruct (k_reverse a k x h p PK HK0 _ R1) as [PK1 HK1]. cbn [fst snd] in *.
      assert (HK2 : hk a k x h1').
      { pose proof (hk_arr a k x h1 HK1) as X. unfold hk, h1', arr. rewrite app_nth1 by exact X. exact HK1. }
      destruct (k_token a k x grow h1' p1 d tok PK1 HK2 _ R2) as [_ HK3]. exact HK3. }
  assert (SK' : skipn (ip_hdr v + 8) (rd h2 (Buffer p2)) = ty :: 0 :: control_signature ++ rd h tok).
  { rewrite SK. rewrite skipn_all2 by lia. reflexivity. }
  unfold answers. cbv zeta. split; [unfold zlen in ZL'; lia|].
  assert (FL : ip_source v (rd h2 (Buffer p2)) = ip_dest v b /\ ip_dest v (rd h2 (Buffer p2)) = ip_source v b /\
      l4_sport (rd h2 (Buffer p2)) (ip_hdr v) = l4_dport b (ip_hdr v) /\ l4_dport (rd h2 (Buffer p2)) (ip_hdr v) = l4_sport b (ip_hdr v)).
  { destruct OF as (O1 & O2 & O3 & O4).
    destruct U as ((_ & _ & _ & M) & _ & _ & SH). destruct U2 as ((_ & _ & _ & M2) & _ & _ & SH2). rewrite HP2 in SH2. rewrite HP0 in SH.
    destruct SH as (Q1 & Q2). destruct SH2 as (Q3 & Q4). rewrite VP2, VP in M2. rewrite VP in M. rewrite RB in *.
    unfold ip_source, ip_dest. destruct v.
    - destruct M as (_ & _ & _ & _ & _ & _ & M1 & M3). destruct M2 as (_ & _ & _ & _ & _ & _ & M4 & M5). repeat split; congruence.
    - destruct M as (_ & _ & _ & _ & _ & M1 & M3). destruct M2 as (_ & _ & _ & _ & _ & M4 & M5). repeat split; congruence. }
  destruct FL as (FL1 & FL2 & FL3 & FL4). split; [exact FL1|]. split; [exact FL2|]. split; [exact FL3|]. split; [exact FL4|].
  split; [exact SK'|]. split.
  { replace v with (version p2) by congruence. apply completes; auto.
    - rewrite TL2, TL, ZL'. unfold zlen. rewrite LB, app_length, LT. change (length (ty :: 0 :: control_signature)) with 20%nat.
      rewrite Z.mod_small; lia.
    - rewrite HP2. exact UL.
    - intros Q. apply C4. congruence.
    - intros Q. apply C6. congruence.
    - intros Q. rewrite VP2 in Q. apply W2; [congruence|]. rewrite Q in CO. apply CO. }
  intros k K NR. rewrite HK; [|lia|].
  2:{ rewrite VP1, VP. intros X. apply NR. revert X. unfold ip_len_bytes, reverse_bytes. destruct v; cbn; lia. }
  rewrite RB1. rewrite <- RB.
  destruct (Z.eq_dec (nth k (rd h1 (Buffer p1)) 0) (nth k (rd h (Buffer p)) 0)) as [|NE]; [assumption|exfalso].
  rewrite BP in NE. unfold rd in NE. cbn [win s_arr s_off s_len] in NE. rewrite Nat.add_0_r in NE.
  assert (LBB : (ip_hdr v + 8 <= length b)%nat).
  { destruct U as (_ & _ & X & _). rewrite RB, HP0 in X. exact X. }
  rewrite !nth_firstn', !nth_skipn' in NE by lia.
  destruct OB as (_ & _ & OB). destruct (OB _ _ NE) as (_ & j & E1 & E2 & E3). rewrite VP in E3.
  apply NR. replace k with j by lia. exact E3.
Qed.

(** what serving a message leaves of the queue and of memory *)
Definition keeps (w w' : world nfq) : Prop :=
  q_buf (w_st w') = q_buf (w_st w) /\ q_hdr (w_st w') = q_hdr (w_st w) /\ q_num (w_st w') = q_num (w_st w) /\
  (forall x, valid (w_heap w) x -> valid (w_heap w') x) /\
  (forall a k x, a <> s_arr (q_buf (w_st w)) -> a <> s_arr (q_hdr (w_st w)) ->
     nth_error (arr (w_heap w) a) k = Some x -> nth_error (arr (w_heap w') a) k = Some x).
Lemma arr_in h a k (x : Z) : nth_error (arr h a) k = Some x -> (a < length h)%nat.
Proof. intros X. destruct (Nat.lt_ge_cases a (length h)) as [|Y]; [assumption|]. unfold arr in X. rewrite nth_overflow in X by exact Y. now destruct k. Qed.
Lemma keeps_recv m fuel e w fd dg l g tbl w1 : queue_ready w fd ->
  r_err (e (w_tr w) (KRecvfrom fd 76800 256)) = None -> r_data (e (w_tr w) (KRecvfrom fd 76800 256)) = dg ->
  packet_datagram m dg l -> (Z.to_nat 19201 < fuel)%nat ->
  Recv fuel m e w = (Ok (Some g, Some tbl, None), w1) -> keeps w w1.
Proof.
  intros Q E D P HF R. destruct (recv_packet m fuel e w fd dg l Q E D P HF) as (g' & tbl' & w1' & R' & S1 & S2 & S3 & Q1 & _).
  rewrite R in R'. injection R' as <- <- <-. cbn.
  assert (ED : received (e (w_tr w) (KRecvfrom fd 76800 256)) = dg).
  { unfold received. rewrite D. apply firstn_all2. destruct P as (_ & _ & P0 & _). unfold zlen in P0. lia. }
  pose proof (recv_heap_facts e w fd Q) as F. cbv zeta in F. rewrite ED in F. destruct F as (F1 & _ & F4 & _).
  split; [rewrite S1; reflexivity|]. split; [rewrite S1; reflexivity|]. split; [rewrite S1; reflexivity|].
  rewrite S2. split; [exact F1|]. intros a k x NB _ HK. rewrite F4 by exact NB. exact HK.
Qed.
Lemma keeps_verdict w w1 w2 w' p : keeps w w1 -> w_st w2 = w_st w1 ->
  (forall x, valid (w_heap w1) x -> valid (w_heap w2) x) ->
  (forall a k x, a <> s_arr (q_buf (w_st w1)) -> nth_error (arr (w_heap w1) a) k = Some x -> nth_error (arr (w_heap w2) a) k = Some x) ->
  w_st w' = w_st w2 -> verdict_frame w2 w' p ->
  (forall a k x, a <> s_arr (q_buf (w_st w1)) -> nth_error (arr (w_heap w1) a) k = Some x -> a <> s_arr p) -> keeps w w'.
Proof.
  intros (K1 & K2 & K3 & K4 & K5) S2 V2 B2 S3 FR AP. unfold keeps. rewrite S3, S2.
  split; [exact K1|]. split; [exact K2|]. split; [exact K3|]. split; [intros x X; apply FR, V2, K4, X|].
  intros a k x NB NH HK. pose proof (K5 a k x NB NH HK) as X1. pose proof (B2 a k x ltac:(congruence) X1) as X2.
  rewrite (vf_other _ _ _ FR); [exact X2|eapply arr_in; eauto|rewrite S2; congruence|].
  eapply AP; eauto. congruence.
Qed.
Lemma keeps_token w w' tok : keeps w w' -> held_token w tok -> held_token w' tok /\ rd (w_heap w') tok = rd (w_heap w) tok.
Proof.
  intros (K1 & K2 & K3 & K4 & K5) (V & IB & N).
  assert (RE : rd (w_heap w') tok = rd (w_heap w) tok).
  { destruct N as [N|[N1 N2]]; [unfold rd; rewrite N; reflexivity|].
    pose proof (valid_len _ _ V) as L1. pose proof (valid_len _ _ (K4 _ V)) as L2.
    apply nth_ext with 0 0; [congruence|]. intros n Hn. rewrite L2 in Hn.
    destruct V as [V1 V2]. destruct V2 as [V2|[V2 V3]]; [lia|].
    unfold rd. rewrite !nth_firstn', !nth_skipn' by lia.
    destruct (nth_error (arr (w_heap w) (s_arr tok)) (s_off tok + n)) as [x|] eqn:X.
    2:{ apply nth_error_None in X. lia. }
    rewrite (nth_error_nth _ _ 0 X). apply (nth_error_nth _ _ 0). apply K5; auto. }
  split; [|exact RE]. split; [apply K4, V|]. rewrite RE. split; [exact IB|]. rewrite K1, K2. exact N.
Qed.

Section CLIENT.
Context (m : endian) (fuel : nat) (grow : nat -> nat -> nat) (e : env) (w : world nfq) (fd : Z)
        (dg : bytes) (l : list (Z * bytes)) (id mark : Z) (b : bytes) (ty : Z) (tok : slice).
Hypothesis Q : queue_ready w fd.
Let r := e (w_tr w) (KRecvfrom fd 76800 256).
Hypothesis E : r_err r = None.
Hypothesis D : r_data r = dg.
Hypothesis P : packet_datagram m dg l.
Hypothesis HI : has_id m l id.
Hypothesis HM : has_mark l mark.
Hypothesis HP : has_payload l b.
Hypothesis HF : (Z.to_nat 19201 < fuel)%nat.

Lemma client_answers v : udp_packet v b -> 0 <= ty < 256 -> own_token w tok ->
  zlen b <= 65531 -> Z.of_nat (ip_hdr v) + 28 + Z.of_nat (s_len tok) <= 65531 ->
  exists w' b' new, answer_udp fuel m grow ty tok e w = (Ok tt, w') /\
    w_tr w' = w_tr w ++ (KRecvfrom fd 76800 256, r) :: new /\
    sends_message m fd (verdict2_message m (q_num (w_st w)) 1 mark id b') new /\
    answers v ty (rd (w_heap w) tok) b b' /\ queue_ready w' fd /\ keeps w w'.
Proof.
  intros BT TY (Vt & Nt & IT) LE LT.
  destruct (client_received m fuel grow e w fd dg l id mark b Q E D P HI HM HP HF)
    as (g & tbl & s & w1 & R1 & TR & Q1 & H1 & ED & PI & VS & RS & AS & QB & QN & HD & IB & UI & UM).
  destruct (recv_other e w fd dg tok Q ED Vt Nt) as [Vt1 Rt].
  rewrite <- H1 in Vt1, Rt.
  destruct (udp_accepted (w_heap w1) s b v VS RS ltac:(lia) BT) as (p & EN & VP & T & AB & RB & LB & TO).
  destruct (answer_emits grow (w_heap w1) p tok ty v b T VP RB LB TY Vt1) as (p1 & h1 & p2 & h2 & ER & EA & EX & IBB & VV & KB); auto; try lia.
  { unfold apart. destruct Nt as [Nt|Nt]; [now left|right; left]. rewrite AB, AS. congruence. }
  { now rewrite Rt. }
  rewrite Rt in EX.
  assert (PU : IPProto p =? 17 = true) by (destruct T as (_ & T & _); rewrite T; reflexivity).
  set (b' := rd h2 (Buffer p2)) in *.
  unfold answer_udp. rewrite (bind_ok _ _ _ _ _ _ R1). mstep. rewrite PI. mstep. rewrite EN. mstep. rewrite PU. rewrite ER. do 2 mstep.
  rewrite marker_bytes. mstep. unfold m_alloc. cbn [alloc fst snd]. do 6 mstep. cbn [w_heap w_st w_tr].
  change (length (ty :: 0 :: control_signature)) with 20%nat. change (20 + 0)%nat with 20%nat. rewrite EA. do 2 mstep. cbn [fst snd]. fold b'.
  do 4 mstep.
  set (w2 := mkW (w_st w1) (h2 ++ [b' ++ repeat 0 0]) (w_tr w1)). set (out := mkSl (length h2) 0 (length b') (length b' + 0)).
  assert (VO : forall x, valid (w_heap w1) x -> valid (w_heap w2) x) by (intros x Vx; apply valid_more, VV, Vx).
  assert (Q2 : queue_ready w2 fd) by (apply (queue_ready_heap w1 w2); auto).
  destruct (SetVerdict2_run m grow 1 mark id out b' e w2 fd (verdict_ready_of fd w2 Q2)) as (w3 & new & R3 & T3 & SM & S3 & FR).
  { split; [|split].
    - split; cbn [out s_len s_cap s_arr s_off w2 w_heap]; [lia|]. right. rewrite app_length. cbn [length]. split; [lia|].
      unfold arr. rewrite app_nth2, Nat.sub_diag by lia. cbn [nth]. rewrite app_length, repeat_length. lia.
    - exact (rd_alloc_new h2 b' 0).
    - cbn [out s_arr w2 w_st]. pose proof (VV _ (qr_hdr _ _ Q1)) as [_ X]. pose proof (qr_hdrlen _ _ Q1). destruct X as [X|[X _]]; [|lia].
      destruct (qr_hdr _ _ Q1) as [Y _]. lia. }
  { red; lia. } { exact UM. } { exact UI. }
  { destruct EX as (EX & _). rewrite EX. pose proof (valid_len _ _ Vt) as X1. rewrite X1. lia. }
  cbn [w2 w_st w_tr] in *. exists w3, b', new. split; [exact R3|]. split; [rewrite T3, TR, <- app_assoc; reflexivity|].
  split; [rewrite <- QN; exact SM|]. split; [exact EX|]. split; [apply (queue_ready_heap w2 w3); auto; apply FR|].
  refine (keeps_verdict w w1 w2 w3 out (keeps_recv m fuel e w fd dg l g tbl w1 Q E D P HF R1) eq_refl VO _ S3 FR _).
  - intros a k x NB X. cbn [w2 w_heap]. pose proof (KB a k x ltac:(congruence) X) as Y. unfold arr. rewrite app_nth1 by (eapply arr_in; eauto). exact Y.
  - intros a k x NB X. pose proof (arr_in _ _ _ _ (KB a k x ltac:(congruence) X)). cbn [out s_arr]. lia.
Qed.

Lemma client_passes v : bare_tcp v b -> zlen b <= 65531 ->
  exists w' new, answer_udp fuel m grow ty tok e w = (Ok tt, w') /\
    w_tr w' = w_tr w ++ (KRecvfrom fd 76800 256, r) :: new /\
    sends_message m fd (verdict2_message m (q_num (w_st w)) 1 mark id b) new /\ queue_ready w' fd /\ keeps w w'.
Proof.
  intros BT LE.
  destruct (client_received m fuel grow e w fd dg l id mark b Q E D P HI HM HP HF)
    as (g & tbl & s & w1 & R1 & TR & Q1 & H1 & ED & PI & VS & RS & AS & QB & QN & HD & IB & UI & UM).
  assert (LS : length b = s_len s) by (rewrite <- RS; apply valid_len, VS).
  destruct (bare_accepted (w_heap w1) s b v VS RS ltac:(lia) BT) as (p & EN & VP & T & _).
  assert (PU : IPProto p =? 17 = false) by (destruct T as (_ & T & _); rewrite T; reflexivity).
  unfold answer_udp. rewrite (bind_ok _ _ _ _ _ _ R1). mstep. rewrite PI. mstep. rewrite EN. mstep. rewrite PU.
  replace (Z.of_nat (s_len s)) with (zlen b) by (unfold zlen; lia).
  destruct (SetVerdict2_run m grow 1 mark id s b e w1 fd (verdict_ready_of fd w1 Q1)) as (w3 & new & R3 & T3 & SM & S3 & FR); auto.
  { split; [exact VS|]. split; [exact RS|exact HD]. } { red; lia. }
  { destruct BT as (_ & _ & BT & _). assert (ip_hdr v <> 0)%nat by (destruct v; discriminate). unfold zlen in LE. lia. }
  exists w3, new. split; [exact R3|]. split; [rewrite T3, TR, <- app_assoc; reflexivity|].
  split; [rewrite <- QN; exact SM|]. split; [apply (queue_ready_heap w1 w3); auto; apply FR|].
  refine (keeps_verdict w w1 w1 w3 s (keeps_recv m fuel e w fd dg l g tbl w1 Q E D P HF R1) eq_refl _ _ S3 FR _); auto.
  intros a k x NB _. congruence.
Qed.

Lemma client_drops_malformed : (1 <= length b)%nat -> zlen b <= 65531 -> malformed4 b ->
  exists w' new, answer_udp fuel m grow ty tok e w = (Ok tt, w') /\
    w_tr w' = w_tr w ++ (KRecvfrom fd 76800 256, r) :: new /\
    sends_message m fd (verdict2_message m (q_num (w_st w)) 0 mark id b) new /\ queue_ready w' fd /\ keeps w w'.
Proof.
  intros L1 LE (V4 & BAD).
  destruct (client_received m fuel grow e w fd dg l id mark b Q E D P HI HM HP HF)
    as (g & tbl & s & w1 & R1 & TR & Q1 & H1 & ED & PI & VS & RS & AS & QB & QN & HD & IB & UI & UM).
  assert (LS : length b = s_len s) by (rewrite <- RS; apply valid_len, VS).
  assert (EN : exists p er, New (w_heap w1) 0 s true = Ok (Some p, Some er)).
  { pose proof (New_v4 (w_heap w1) 0 s true (valid_vslice _ s VS ltac:(lia)) ltac:(now rewrite RS) ltac:(lia) ltac:(unfold zlen in LE; lia) ltac:(now rewrite RS)) as X.
    rewrite RS in X.
    assert (C : exists er, classify4 b (Z.of_nat (s_cap s)) true = Rejects er).
    { unfold classify4. destruct (Z.ltb_spec (zlen b) 20); [eauto|]. destruct (Z.eqb_spec (ip4_ihl b) 5); [|cbn; eauto]. cbn [negb andb].
      destruct (Z.ltb_spec (zlen b) (ip4_total b)); [eauto|]. lia. }
    destruct C as [er C]. rewrite C in X. destruct (New (w_heap w1) 0 s true) as [[[p|] [er'|]]| |]; try (exfalso; intuition discriminate). eauto. }
  destruct EN as (p & er & EN).
  unfold answer_udp. rewrite (bind_ok _ _ _ _ _ _ R1). mstep. rewrite PI. mstep. rewrite EN. mstep.
  replace (Z.of_nat (s_len s)) with (zlen b) by (unfold zlen; lia).
  destruct (SetVerdict2_run m grow 0 mark id s b e w1 fd (verdict_ready_of fd w1 Q1)) as (w3 & new & R3 & T3 & SM & S3 & FR); auto.
  { split; [exact VS|]. split; [exact RS|exact HD]. } { red; lia. } { unfold zlen in LE. lia. }
  exists w3, new. split; [exact R3|]. split; [rewrite T3, TR, <- app_assoc; reflexivity|].
  split; [rewrite <- QN; exact SM|]. split; [apply (queue_ready_heap w1 w3); auto; apply FR|].
  refine (keeps_verdict w w1 w1 w3 s (keeps_recv m fuel e w fd dg l g tbl w1 Q E D P HF R1) eq_refl _ _ S3 FR _); auto.
  intros a k x NB _. congruence.
Qed.
End CLIENT.

(** one message of the run *)
Lemma serve_step m fuel grow ty tok e w fd :
  queue_ready w fd -> held_token w tok -> 0 <= ty < 256 -> zlen (rd (w_heap w) tok) <= 65463 ->
  busy_kernel m fd e -> (Z.to_nat 19201 < fuel)%nat ->
  exists w' r new, answer_udp fuel m grow ty tok e w = (Ok tt, w') /\
    w_tr w' = w_tr w ++ (KRecvfrom fd 76800 256, r) :: new /\
    served m fd (q_num (w_st w)) ty (rd (w_heap w) tok) (r_data r) new /\
    queue_ready w' fd /\ keeps w w'.
Proof.
  intros Q HT TY LT BK HF. destruct (BK (w_tr w)) as (E & id & mark & b & (l & P & HI & HM & HP) & EX & LE).
  pose proof HT as (Vt & IT & Nt). pose proof (valid_len _ _ Vt) as LV. unfold zlen in LT. rewrite LV in LT.
  set (r := e (w_tr w) (KRecvfrom fd 76800 256)) in *.
  destruct EX as [(v & U)|[(v & T)|(L1 & BAD)]].
  - destruct (client_answers m fuel grow e w fd (r_data r) l id mark b ty tok Q E eq_refl P HI HM HP HF v U TY)
      as (w' & b' & new & R & T & SM & A & Q' & K); auto.
    { split; [exact Vt|]. split; [|exact IT]. destruct Nt as [N|[N _]]; auto. }
    { destruct v; cbn [ip_hdr]; lia. }
    exists w', r, new. split; [exact R|]. split; [exact T|]. split; [|split; assumption].
    exists id, mark, b. split; [exists l; auto|]. left. exists v, b'. auto.
  - destruct (client_passes m fuel grow e w fd (r_data r) l id mark b ty tok Q E eq_refl P HI HM HP HF v T LE)
      as (w' & new & R & TR & SM & Q' & K).
    exists w', r, new. split; [exact R|]. split; [exact TR|]. split; [|split; assumption].
    exists id, mark, b. split; [exists l; auto|]. right; left. split; [eauto|exact SM].
  - destruct (client_drops_malformed m fuel grow e w fd (r_data r) l id mark b ty tok Q E eq_refl P HI HM HP HF L1 LE BAD)
      as (w' & new & R & TR & SM & Q' & K).
    exists w', r, new. split; [exact R|]. split; [exact TR|]. split; [|split; assumption].
    exists id, mark, b. split; [exists l; auto|]. right; right. split; [exact BAD|exact SM].
Qed.

Lemma serve_run m fuel grow ty tok e fd : 0 <= ty < 256 -> busy_kernel m fd e -> (Z.to_nat 19201 < fuel)%nat ->
  forall n w, queue_ready w fd -> held_token w tok -> zlen (rd (w_heap w) tok) <= 65463 ->
  exists w' segs, serve n fuel m grow ty tok e w = (Ok tt, w') /\ length segs = n /\
    w_tr w' = w_tr w ++ concat (map (fun s : resp * list event => (KRecvfrom fd 76800 256, fst s) :: snd s) segs) /\
    Forall (fun s => served m fd (q_num (w_st w)) ty (rd (w_heap w) tok) (r_data (fst s)) (snd s)) segs /\
    queue_ready w' fd /\ keeps w w'.
Proof.
  intros TY BK HF. induction n as [|n IH]; intros w Q HT LT.
  - exists w, []. split; [reflexivity|]. split; [reflexivity|]. split; [symmetry; apply app_nil_r|].
    split; [constructor|]. split; [exact Q|]. repeat split; auto; apply H.
  - destruct (serve_step m fuel grow ty tok e w fd Q HT TY LT BK HF) as (w1 & r & new & R & T & SV & Q1 & K).
    destruct (keeps_token w w1 tok K HT) as [HT1 RT].
    destruct (IH w1 Q1 HT1 ltac:(now rewrite RT)) as (w' & segs & R' & LS & T' & FA & Q' & K').
    exists w', ((r, new) :: segs). split; [cbn [serve]; rewrite (bind_ok _ _ _ _ _ _ R); exact R'|].
    split; [cbn; congruence|]. split; [rewrite T', T; cbn [map concat fst snd]; now rewrite <- app_assoc|].
    destruct K as (K1 & K2 & K3 & K4 & K5). destruct K' as (K1' & K2' & K3' & K4' & K5').
    split. { constructor; [exact SV|]. rewrite K3, RT in FA. exact FA. }
    split; [exact Q'|]. split; [congruence|]. split; [congruence|]. split; [congruence|]. split; [auto|].
    intros a k x NB NH X. apply K5'; [congruence|congruence|]. apply K5; auto.
Qed.
