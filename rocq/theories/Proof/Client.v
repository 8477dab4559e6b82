(** A client of the whole library (Spec/ClientSpec.v). *)
From Verif Require Export Proof.Release Proof.PktNew Proof.PktEmit Proof.HashHistory Spec.ClientSpec.

Lemma byte0_v6 x : is_byte x -> x / 16 = 6 -> x / 16 <> 4.
Proof. lia. Qed.

Lemma bare_accepted h s b v : valid h s -> rd h s = b -> zlen b < 65536 -> bare_tcp v b ->
  exists p, New h 0 s true = Ok (Some p, None) /\ version p = v /\ tcp_agrees h p /\
    s_arr (Buffer p) = s_arr s /\ rd h (Buffer p) = b /\ s_len (Buffer p) = length b /\
    tcpOptions p = snil /\ tcpData p = snil.
Proof.
  intros VA R LT (SHP & IB & L & ST & NP). subst b.
  assert (LB : length (rd h s) = s_len s) by (apply valid_len, VA).
  assert (L1 : (1 <= s_len s)%nat) by lia. unfold zlen in LT. rewrite LB in LT.
  pose proof (valid_vslice h s VA L1) as V. pose proof V as (V1 & V2 & V3).
  assert (X : exists p, New h 0 s true = Ok (Some p, None) /\ version p = v /\
            exists n, Buffer p = mkSl (s_arr s) (s_off s) n (s_cap s) /\ (n <= s_len s)%nat /\
            rd h (Buffer p) = kept true (stated_length v (rd h s) mod 65536) (rd h s)).
  { destruct v; destruct SHP as [B0 SHP]; cbn [ip_hdr stated_length] in *.
    - destruct SHP as [PR _]. assert (V4 : ip4_version (rd h s) = 4) by (unfold ip4_version; rewrite B0; reflexivity).
      pose proof (New_v4 h 0 s true V IB L1 LT V4) as X.
      assert (C : classify4 (rd h s) (Z.of_nat (s_cap s)) true = Accepts).
      { unfold classify4, ip4_ihl, stated_too_small. rewrite B0, PR, ST. unfold zlen. rewrite LB. cbn [Z.modulo Z.div_eucl Z.eqb Pos.eqb negb].
        destruct (Z.ltb_spec (Z.of_nat (s_len s)) 20); [lia|]. change (69 mod 16 =? 5) with true. cbn [negb andb].
        destruct (Z.ltb_spec (Z.of_nat (s_len s)) (Z.of_nat (s_len s))); [lia|]. rewrite Z.eqb_refl.
        destruct (Z.ltb_spec (Z.of_nat (s_len s)) (20 + 20)); [lia|]. rewrite andb_false_r.
        destruct (Z.ltb_spec (Z.of_nat (s_len s)) 34); [lia|]. destruct (Z.ltb_spec (Z.of_nat (s_cap s)) 38); [lia|]. reflexivity. }
      rewrite C in X. destruct (New h 0 s true) as [[[p|] [er|]]| |]; try discriminate X; try contradiction.
      destruct X as [_ [A1 A2 A3 A4 A5 A6 A7 A8]]. exists p. split; [reflexivity|]. destruct A2 as (I1 & _). split; [exact I1|].
      rewrite Z.mod_small by (rewrite ST; unfold zlen; lia). exact A5.
    - assert (V4 : ip4_version (rd h s) <> 4) by (unfold ip4_version; rewrite B0; discriminate).
      pose proof (New_v6 h 0 s true V IB L1 LT V4) as X.
      assert (TT : (40 + ip6_payload (rd h s)) mod 65536 = Z.of_nat (s_len s)) by (rewrite ST; unfold zlen; rewrite LB; apply Z.mod_small; lia).
      assert (C : classify6 (rd h s) (Z.of_nat (s_cap s)) true = Accepts).
      { unfold classify6. rewrite TT, SHP. unfold zlen in *. rewrite LB in *. cbv zeta. cbn [andb].
        destruct (Z.ltb_spec (Z.of_nat (s_len s)) 7); [lia|]. destruct (Z.ltb_spec (Z.of_nat (s_cap s)) 40); [lia|]. cbn [orb].
        destruct (Z.ltb_spec (Z.of_nat (s_len s)) (Z.of_nat (s_len s))); [lia|]. cbn [andb].
        rewrite Z.eqb_refl. destruct (Z.ltb_spec (ip6_payload (rd h s)) 20); [lia|].
        destruct (Z.ltb_spec (Z.of_nat (s_len s)) 54); [lia|]. destruct (Z.ltb_spec (Z.of_nat (s_cap s)) 58); [lia|].
        destruct (Z.ltb_spec (Z.of_nat (s_len s)) 40); [lia|]. reflexivity. }
      rewrite C in X. destruct (New h 0 s true) as [[[p|] [er|]]| |]; try discriminate X; try contradiction.
      destruct X as [_ [A1 A2 A3 A4 A5 A6 A7 A8 A9 A10 A11 A12]]. exists p. split; [reflexivity|]. split; [exact A5|exact A9]. }
  destruct X as (p & E & VP & n & BP & LN & RB).
  assert (RB' : rd h (Buffer p) = rd h s).
  { rewrite RB, ST. unfold kept, zlen. rewrite LB, Z.mod_small by lia. rewrite Nat2Z.id. apply firstn_all2. lia. }
  assert (SL : s_len (Buffer p) = length (rd h s)).
  { rewrite <- RB'. symmetry. apply valid_len. rewrite BP. split; cbn [s_len s_cap s_arr s_off]; [lia|right; lia]. }
  assert (HL : hl p = ip_hdr v) by (unfold hl; rewrite VP; reflexivity).
  destruct (new_agrees h 0 s true p VA IB L1 LT E ltac:(lia)) as (AG & TO & TD & TC & _).
  exists p. split; [exact E|]. split; [exact VP|]. split.
  { apply TC; [|lia]. destruct AG as (_ & _ & _ & M). rewrite VP in M. rewrite RB' in M. destruct v; destruct SHP as [_ SHP].
    - destruct M as (_ & _ & _ & M & _). rewrite M. apply SHP.
    - destruct M as (_ & _ & M & _). rewrite M. exact SHP. }
  split; [rewrite BP; reflexivity|]. auto.
Qed.

Lemma be16f_app b x o : (o + 2 <= length b)%nat -> be16f (b ++ x) o = be16f b o.
Proof. intros L. rewrite <- (be16f_firstn (b ++ x) o (length b)) by lia. now rewrite firstn_app, firstn_all, Nat.sub_diag, app_nil_r. Qed.
Lemma update_tcp_fields h p p' h' : UpdateTCPChecksum h p = Ok (p', h') -> version p' = version p /\ IPTotalLen p' = IPTotalLen p.
Proof.
  unfold UpdateTCPChecksum. intros R. destruct (resl_from _ _) in R; cbn [rbind] in R; try discriminate.
  destruct (computeTCPChecksum _ _) in R; cbn [rbind] in R; try discriminate.
  destruct (put16_at _ _ _ _) in R; cbn [rbind] in R; try discriminate. injection R as <- _. split; reflexivity.
Qed.
Lemma stated_app v b x : (ip_hdr v <= length b)%nat -> stated_length v (b ++ x) = stated_length v b.
Proof.
  intros L. destruct v; cbn [stated_length ip_hdr] in *; unfold ip4_total, ip6_payload; rewrite be16f_app by lia; reflexivity.
Qed.
Lemma bytes_range b o : is_bytes b -> (o + 2 <= length b)%nat -> 0 <= be16f b o < 65536.
Proof. intros. apply be16f_range; auto. Qed.

Lemma tag_emits grow h p o d v b :
  tcp_agrees h p -> version p = v -> rd h (Buffer p) = b -> s_len (Buffer p) = length b -> bare_tcp v b ->
  tcpOptions p = snil -> tcpData p = snil ->
  valid h o -> valid h d -> apart (Buffer p) d -> is_bytes (rd h o) -> is_bytes (rd h d) ->
  (s_len o mod 4 = 0)%nat -> tcp_offset b (ip_hdr v) + Z.of_nat (s_len o) / 4 < 16 ->
  zlen b + Z.of_nat (s_len o) + Z.of_nat (s_len d) <= 65531 ->
  exists p1 h1 p2 h2, TCPDataAttach grow h p o d = Ok (p1, h1, None) /\
    UpdateTCPChecksum h1 p1 = Ok (p2, h2) /\ extended v b (rd h o) (rd h d) (GetTCPBytes h2 p2) /\
    is_bytes (GetTCPBytes h2 p2) /\ (forall x, valid h x -> valid h2 x).
Proof.
  intros T VP RB SL (SHP & IB & L & ST & NP) TO TD Vo Vd AD IO ID O4 OF LE.
  assert (HL : hl p = ip_hdr v) by (unfold hl; rewrite VP; reflexivity).
  pose proof T as (A & PR & LL & S). pose proof A as (VB & _ & BS & _).
  assert (TOF : tcpDataOffset p = tcp_offset b (ip_hdr v)) by (destruct S as (_ & _ & _ & _ & S & _); rewrite S, RB, HL; reflexivity).
  assert (PA : s_len (Buffer p) = payload_at p).
  { unfold payload_at. rewrite TOF, HL, SL. unfold zlen in NP. lia. }
  assert (VN : valid h snil) by (split; cbn; [lia|left; reflexivity]).
  assert (SO : forall t, append_safe snil (s_len o) t).
  { intros t. unfold append_safe. cbn [s_cap s_len snil]. destruct (s_len o); [now left|right; left; lia]. }
  assert (AT : attachable h p o d).
  { unfold attachable. rewrite TO. split; [exact VN|]. split; [exact Vo|]. split; [exact Vd|].
    split; [left; reflexivity|]. split; [exact AD|]. split; apply SO. }
  assert (Lo : length (rd h o) = s_len o) by (apply valid_len, Vo).
  assert (Ld : length (rd h d) = s_len d) by (apply valid_len, Vd).
  destruct (attach_spec grow h p o d T AT (or_intror PA) ltac:(rewrite TOF; exact OF))
    as (cs & p1 & h1 & E & RC & RUN & EP & T1 & RB1 & RO & RD & W1 & W2 & AP & VV & IV & IR).
  destruct (attach_emits grow h p o d T AT (or_intror PA) ltac:(unfold zlen; rewrite Lo, TOF; exact OF))
    as (p1' & h1' & RUN' & _ & BP & GE & GO & GD & KEEP & TF & TL & IPV).
  rewrite RUN in RUN'. injection RUN' as <- <-.
  rewrite TO in GE, GO, RO. change (rd h snil) with (@nil Z) in *. cbn [app] in *.
  assert (D1 : tcpData p1 = d) by (rewrite EP; reflexivity).
  assert (V1 : version p1 = v) by (rewrite EP; exact VP).
  assert (HL1 : hl p1 = ip_hdr v) by (rewrite EP; exact HL).
  assert (LO1 : s_len (tcpOptions p1) = s_len o) by (rewrite <- Lo, <- RO; symmetry; apply valid_len, W1).
  assert (LB1 : length (rd h1 (Buffer p)) = length b) by (rewrite <- SL; apply valid_len, VV, VB).
  assert (LG : length (GetTCPBytes h1 p1) = (length b + s_len o + s_len d)%nat) by (rewrite GE, !app_length; lia).
  assert (AO : attached_ok h1 p1).
  { unfold attached_ok. rewrite RO, D1, RD, BP. split; [exact W1|]. split; [exact W2|]. split; [exact IO|]. split; [exact ID|].
    split; [exact AP|]. split; [exact AD|]. unfold zlen in *. lia. }
  assert (EV : even_pieces h1 p1).
  { unfold even_pieces. rewrite BP, LO1. split; left.
    - rewrite PA. unfold payload_at. rewrite Nat.even_add, Nat.even_mul. rewrite HL. destruct v; reflexivity.
    - replace (s_len o) with (4 * (s_len o / 4))%nat by (clear - O4; lia). rewrite Nat.even_mul. reflexivity. }
  destruct (update_tcp h1 p1 T1 AO EV) as (p2 & h2 & RUN2 & T2 & BP2 & TO2 & TD2 & LV & _ & OB & RO2 & RD2).
  assert (V2 : version p2 = v).
  { rewrite <- V1. apply (update_tcp_fields _ _ _ _ RUN2). }
  assert (HL2 : hl p2 = ip_hdr v) by (unfold hl; rewrite V2; reflexivity).
  assert (GE2 : GetTCPBytes h2 p2 = rd h2 (Buffer p) ++ rd h o ++ rd h d).
  { unfold GetTCPBytes. rewrite BP2, TO2, TD2, RO2, RD2, BP, D1, RO, RD. now rewrite <- ?app_assoc. }
  pose proof T2 as ((VB2 & IB2 & _ & M2) & _ & LL2 & S2). rewrite BP2, BP in *.
  assert (LB2 : length (rd h2 (Buffer p)) = length b) by (rewrite <- SL; apply valid_len, VB2).
  assert (NB : forall k, (k < length b)%nat -> k <> (ip_hdr v + 16)%nat -> k <> (ip_hdr v + 17)%nat ->
             nth k (rd h2 (Buffer p)) 0 = nth k (rd h1 (Buffer p)) 0).
  { intros k Hk N1 N2. destruct (Z.eq_dec (nth k (rd h2 (Buffer p)) 0) (nth k (rd h1 (Buffer p)) 0)) as [|NE]; [assumption|].
    exfalso. destruct OB as (_ & _ & OB). unfold rd in NE.
    rewrite !nth_firstn', !nth_skipn' in NE by (rewrite SL; exact Hk).
    destruct (OB _ _ NE) as (_ & j & E1 & E2 & E3). rewrite HL1 in E3. lia. }
  exists p1, h1, p2, h2. split; [exact RUN|]. split; [exact RUN2|]. split; [|split].
  - rewrite GE2. unfold extended. rewrite !app_length, LB2. split; [lia|]. split; [rewrite skipn_app, skipn_all2, LB2, Nat.sub_diag by lia; reflexivity|].
    split.
    { intros k Hk N0 N1 N2 N3. rewrite app_nth1 by lia. rewrite NB by auto. rewrite KEEP; [now rewrite RB|lia|congruence|congruence]. }
    assert (HH : (ip_hdr v <= length (rd h2 (Buffer p)))%nat) by lia.
    assert (IPT : IPTotalLen p2 = zlen b + Z.of_nat (s_len o) + Z.of_nat (s_len d)).
    { assert (Q : IPTotalLen p2 = IPTotalLen p1).
      { apply (update_tcp_fields _ _ _ _ RUN2). }
      rewrite Q, TL. assert (Q0 : IPTotalLen p = zlen b).
      { destruct A as (_ & _ & _ & M). rewrite VP, RB in M. destruct v; cbn [stated_length] in ST.
        - destruct M as (_ & _ & _ & _ & M & _). congruence.
        - destruct M as (_ & _ & _ & M & _). rewrite M, ST. apply Z.mod_small. unfold zlen in *. lia. }
      rewrite Q0. unfold zlen in *. rewrite app_length, Lo, Ld. rewrite Z.mod_small; lia. }
    split.
    { rewrite stated_app by exact HH. replace (zlen (rd h2 (Buffer p) ++ rd h o ++ rd h d)) with (IPTotalLen p2).
      2:{ rewrite IPT. unfold zlen. rewrite !app_length. lia. }
      rewrite V2 in M2. destruct v; cbn [stated_length ip_hdr] in *.
      - destruct M2 as (_ & _ & _ & _ & M & _). congruence.
      - destruct M2 as (_ & _ & _ & M & _).
        assert (0 <= ip6_payload (rd h2 (Buffer p)) < 65536) by (unfold ip6_payload; apply bytes_range; auto; lia).
        unfold zlen in *. lia. }
    split.
    { unfold byte_at. rewrite app_nth1 by lia. rewrite NB by lia. rewrite RB1. unfold attach_bytes. rewrite HL.
      rewrite nth_splice by (rewrite fixip_length; cbn [length]; lia). cbn [length].
      rewrite Nat.leb_refl. destruct (Nat.ltb_spec (ip_hdr v + 12) (ip_hdr v + 12 + 1)); [|lia]. cbn [andb].
      rewrite Nat.sub_diag. cbn [nth]. rewrite TOF. unfold zlen. rewrite Lo. lia. }
    split.
    { intros V. specialize (IPV ltac:(congruence)). rewrite RB in IPV. rewrite V in *. destruct SHP as (_ & _ & SHP).
      specialize (IPV SHP). cbn [ip_hdr] in *.
      assert (FF : firstn 20 (rd h2 (Buffer p) ++ rd h o ++ rd h d) = firstn 20 (GetTCPBytes h1 p1)).
      { apply nth_ext with (d := 0) (d' := 0); [rewrite !firstn_length, !app_length; lia|].
        intros k Hk. rewrite firstn_length in Hk. rewrite !nth_firstn' by lia. rewrite GE, !app_nth1 by lia. apply NB; lia. }
      unfold ip4_valid in *. rewrite FF. exact IPV. }
    rewrite GE2, V2, HL2 in LV. exact LV.
  - rewrite GE2. apply is_bytes_app. split; [exact IB2|]. apply is_bytes_app. auto.
  - intros x Vx. destruct OB as (OB1 & OB2 & _). apply VV in Vx. destruct Vx as [X1 X2]. split; [exact X1|].
    rewrite OB1, OB2. exact X2.
Qed.

(** memory the receive does not write *)
Lemma recv_other e w fd d s : queue_ready w fd -> received (e (w_tr w) (KRecvfrom fd 76800 256)) = d ->
  valid (w_heap w) s -> s_len s = 0%nat \/ s_arr s <> s_arr (q_buf (w_st w)) ->
  valid (recv_heap w d) s /\ rd (recv_heap w d) s = rd (w_heap w) s.
Proof.
  intros Q ED V N. pose proof (recv_heap_facts e w fd Q) as F. cbv zeta in F. rewrite ED in F. destruct F as (F1 & _ & F4 & _).
  split; [apply F1, V|]. destruct N as [N|N]; [unfold rd; rewrite N; reflexivity|]. unfold rd. rewrite F4 by exact N. reflexivity.
Qed.

Lemma queue_ready_heap w w' fd : queue_ready w fd -> w_st w' = w_st w ->
  (forall x, valid (w_heap w) x -> valid (w_heap w') x) -> queue_ready w' fd.
Proof.
  intros [A B C D E F G H I] ES VV. constructor; rewrite ?ES; auto.
  intros t Ht. destruct (I t Ht) as (s & S1 & S2 & S3). exists s. auto.
Qed.

Section CLIENT.
Context (m : endian) (fuel : nat) (grow : nat -> nat -> nat) (e : env) (w : world nfq) (fd : Z)
        (dg : bytes) (l : list (Z * bytes)) (id mark : Z) (b : bytes) (o d : slice).
Hypothesis Q : queue_ready w fd.
Let r := e (w_tr w) (KRecvfrom fd 76800 256).
Hypothesis E : r_err r = None.
Hypothesis D : r_data r = dg.
Hypothesis P : packet_datagram m dg l.
Hypothesis HI : has_id m l id.
Hypothesis HM : has_mark l mark.
Hypothesis HP : has_payload l b.
Hypothesis HF : (Z.to_nat 19201 < fuel)%nat.

(** the client after the receive *)
Lemma client_received : exists g tbl s w1,
  Recv fuel m e w = (Ok (Some g, Some tbl, None), w1) /\ w_tr w1 = w_tr w ++ [(KRecvfrom fd 76800 256, r)] /\
  queue_ready w1 fd /\ w_heap w1 = recv_heap w dg /\ received r = dg /\
  GetPacketInfo m (w_heap w1) (Some tbl) = Ok (id, mark, s) /\
  valid (w_heap w1) s /\ rd (w_heap w1) s = b /\ s_arr s = s_arr (q_buf (w_st w)) /\
  q_buf (w_st w1) = q_buf (w_st w) /\ q_num (w_st w1) = q_num (w_st w) /\ s_arr s <> s_arr (q_hdr (w_st w1)) /\
  is_bytes b /\ is_u32 id /\ is_u32 mark.
Proof.
  destruct (recv_packet m fuel e w fd dg l Q E D P HF) as (g & tbl & w1 & R & S1 & S2 & S3 & Q1 & G & TF).
  pose proof HI as (hv & I1 & I2 & I3). pose proof HM as (mv & M1 & M2 & M3).
  destruct (qr_slots _ _ Q 1 ltac:(auto)) as (s1 & A1 & _).
  destruct (qr_slots _ _ Q 3 ltac:(auto)) as (s3 & A3 & _).
  destruct (qr_slots _ _ Q 10 ltac:(auto)) as (s10 & A10 & _).
  destruct (table_slot _ _ _ _ _ 1 _ _ TF eq_refl A1 I1) as (t1 & B1 & C1 & _).
  destruct (table_slot _ _ _ _ _ 3 _ _ TF eq_refl A3 M1) as (t3 & B3 & C3 & _).
  destruct (table_slot _ _ _ _ _ 10 _ _ TF eq_refl A10 HP) as (t10 & B10 & C10 & W10).
  destruct (qr_slots _ _ Q1 10 ltac:(auto)) as (t & T1 & T2 & T3). rewrite S1 in T1. cbn [q_attr set_attr] in T1.
  rewrite B10 in T1. injection T1 as <-.
  exists g, tbl, t10, w1. split; [exact R|]. split; [exact S3|]. split; [exact Q1|]. split; [exact S2|].
  split. { unfold received. fold r. rewrite D. apply firstn_all2. destruct P as (_ & _ & P0 & _). unfold zlen in P0. lia. }
  split. { rewrite (packet_info m (w_heap w1) tbl t1 t3 t10 B1 B3 B10), C1, C3.
    destruct (Nat.ltb_spec (length hv) 4); [lia|]. destruct (Nat.ltb_spec (length mv) 4); [lia|].
    cbn [orb]. rewrite <- I3, <- M3. reflexivity. }
  split; [exact T2|]. split; [exact C10|]. split; [apply W10|]. split; [rewrite S1; reflexivity|]. split; [rewrite S1; reflexivity|].
  split; [exact T3|]. split; [eapply attr_bytes_of; eauto|]. split; [eapply has_id_u32; eauto|].
  rewrite M3. apply num_u32; [|apply field_len, M2]. unfold field. apply is_bytes_firstn, is_bytes_skipn. eapply attr_bytes_of; eauto.
Qed.

Lemma verdict_ready_of w1 : queue_ready w1 fd -> verdict_ready w1 fd.
Proof. intros [A B C D' E' F G H I]. split; [eauto|]. split; [exact E'|]. split; [exact F|exact H]. Qed.

Lemma client_tags v : bare_tcp v b -> addable w v b o d ->
  exists w' b' new, tag_and_release fuel m grow o d e w = (Ok tt, w') /\
    w_tr w' = w_tr w ++ (KRecvfrom fd 76800 256, r) :: new /\
    sends_message m fd (verdict2_message m (q_num (w_st w)) 1 mark id b') new /\
    extended v b (rd (w_heap w) o) (rd (w_heap w) d) b' /\ queue_ready w' fd.
Proof.
  intros BT (Vo & Vd & No & Nd & IO & ID & O4 & OF & LE).
  destruct client_received as (g & tbl & s & w1 & R1 & TR & Q1 & H1 & ED & PI & VS & RS & AS & QB & QN & HD & IB & UI & UM).
  destruct (recv_other e w fd dg o Q ED Vo No) as [Vo1 Ro]. destruct (recv_other e w fd dg d Q ED Vd Nd) as [Vd1 Rd].
  rewrite <- H1 in Vo1, Vd1, Ro, Rd.
  destruct (bare_accepted (w_heap w1) s b v VS RS ltac:(lia) BT) as (p & EN & VP & T & AB & RB & LB & TO & TD).
  destruct (tag_emits grow (w_heap w1) p o d v b T VP RB LB BT TO TD Vo1 Vd1) as (p1 & h1 & p2 & h2 & EA & EU & EX & IBB & VV); auto.
  { unfold apart. destruct Nd as [Nd|Nd]; [now left|right; left]. rewrite AB, AS. congruence. }
  { now rewrite Ro. } { now rewrite Rd. }
  rewrite Ro, Rd in EX.
  set (b' := GetTCPBytes h2 p2) in *.
  unfold tag_and_release. rewrite (bind_ok _ _ _ _ _ _ R1). mstep. rewrite PI. mstep. rewrite EN. mstep. rewrite EA. mstep. rewrite EU. mstep. mstep.
  cbn [fst snd]. fold b'. unfold m_alloc. cbn [alloc]. do 5 mstep.
  set (w2 := mkW (w_st w1) (h2 ++ [b' ++ repeat 0 0]) (w_tr w1)). set (out := mkSl (length h2) 0 (length b') (length b' + 0)).
  assert (VO : forall x, valid (w_heap w1) x -> valid (w_heap w2) x).
  { intros x Vx. apply VV in Vx. destruct Vx as [X1 X2]. split; [exact X1|]. cbn [w2 w_heap]. rewrite app_length. cbn [length].
    destruct X2 as [X2|[X2 X3]]; [now left|right]. split; [lia|]. unfold arr. rewrite app_nth1 by exact X2. exact X3. }
  assert (Q2 : queue_ready w2 fd) by (apply (queue_ready_heap w1 w2); auto).
  destruct (SetVerdict2_run m grow 1 mark id out b' e w2 fd (verdict_ready_of w2 Q2)) as (w3 & new & R3 & T3 & SM & S3 & FR).
  { split; [|split].
    - split; cbn [out s_len s_cap s_arr s_off w2 w_heap]; [lia|]. right. rewrite app_length. cbn [length]. split; [lia|].
      unfold arr. rewrite app_nth2, Nat.sub_diag by lia. cbn [nth]. rewrite app_length, repeat_length. lia.
    - exact (rd_alloc_new h2 b' 0).
    - cbn [out s_arr w2 w_st]. pose proof (VV _ (qr_hdr _ _ Q1)) as [_ X]. pose proof (qr_hdrlen _ _ Q1). destruct X as [X|[X _]]; [|lia].
      destruct (qr_hdr _ _ Q1) as [Y _]. lia. }
  { red; lia. } { exact UM. } { exact UI. }
  { destruct EX as (EX & _). rewrite EX. destruct BT as (_ & _ & BT & _).
    pose proof (valid_len _ _ Vo) as X1. pose proof (valid_len _ _ Vd) as X2. unfold zlen in LE.
    assert (ip_hdr v <> 0)%nat by (destruct v; discriminate). lia. }
  cbn [w2 w_st w_tr] in *. exists w3, b', new. split; [exact R3|]. split; [rewrite T3, TR, <- app_assoc; reflexivity|].
  split; [rewrite <- QN; exact SM|]. split; [exact EX|]. apply (queue_ready_heap w2 w3); auto. apply FR.
Qed.

Lemma client_drops : (1 <= length b)%nat -> zlen b <= 65531 -> malformed4 b ->
  exists w' new, tag_and_release fuel m grow o d e w = (Ok tt, w') /\
    w_tr w' = w_tr w ++ (KRecvfrom fd 76800 256, r) :: new /\
    sends_message m fd (verdict2_message m (q_num (w_st w)) 0 mark id b) new /\ queue_ready w' fd.
Proof.
  intros L1 LE (V4 & BAD).
  destruct client_received as (g & tbl & s & w1 & R1 & TR & Q1 & H1 & ED & PI & VS & RS & AS & QB & QN & HD & IB & UI & UM).
  assert (LS : length b = s_len s) by (rewrite <- RS; apply valid_len, VS).
  assert (EN : exists p er, New (w_heap w1) 0 s true = Ok (Some p, Some er)).
  { pose proof (New_v4 (w_heap w1) 0 s true (valid_vslice _ s VS ltac:(lia)) ltac:(now rewrite RS) ltac:(lia) ltac:(unfold zlen in LE; lia) ltac:(now rewrite RS)) as X.
    rewrite RS in X.
    assert (C : exists er, classify4 b (Z.of_nat (s_cap s)) true = Rejects er).
    { unfold classify4. destruct (Z.ltb_spec (zlen b) 20); [eauto|]. destruct (Z.eqb_spec (ip4_ihl b) 5); [|cbn; eauto]. cbn [negb andb].
      destruct (Z.ltb_spec (zlen b) (ip4_total b)); [eauto|]. lia. }
    destruct C as [er C]. rewrite C in X. destruct (New (w_heap w1) 0 s true) as [[[p|] [er'|]]| |]; try (exfalso; intuition discriminate). eauto. }
  destruct EN as (p & er & EN).
  unfold tag_and_release. rewrite (bind_ok _ _ _ _ _ _ R1). mstep. rewrite PI. mstep. rewrite EN. mstep.
  replace (Z.of_nat (s_len s)) with (zlen b) by (unfold zlen; lia).
  destruct (SetVerdict2_run m grow 0 mark id s b e w1 fd (verdict_ready_of w1 Q1)) as (w3 & new & R3 & T3 & SM & S3 & FR); auto.
  { split; [exact VS|]. split; [exact RS|exact HD]. } { red; lia. } { unfold zlen in LE. lia. }
  exists w3, new. split; [exact R3|]. split; [rewrite T3, TR, <- app_assoc; reflexivity|].
  split; [rewrite <- QN; exact SM|]. apply (queue_ready_heap w1 w3); auto. apply FR.
Qed.
End CLIENT.
