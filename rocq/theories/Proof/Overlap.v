(** Appending over bytes that are still in use. *)
From Verif Require Export Spec.Overlap Proof.PktMirror.

Lemma rd_nth h t i : valid h t -> (i < s_len t)%nat -> nth i (rd h t) 0 = nth (s_off t + i) (arr h (s_arr t)) 0.
Proof.
  intros V L. unfold rd. rewrite nth_firstn by exact L. rewrite nth_skipn'. reflexivity.
Qed.
Lemma append_shows grow h s v t : valid h s -> valid h t ->
  shown_after h s v t (rd (fst (gappend grow h s v)) t).
Proof.
  intros VS VT. pose proof (gappend_rd grow h s v VS) as (_ & _ & _ & K & SF & _).
  pose proof (K t VT) as VT'. split; [apply valid_len, VT'|]. intros i Hi.
  destruct (Nat.leb_spec (s_len s + length v) (s_cap s)) as [L|L].
  2:{ rewrite SF by (auto; right; left; exact L). split; [intros (X & _); lia|reflexivity]. }
  destruct v as [|x v'].
  { rewrite SF by (auto; left; reflexivity). split; [intros (_ & _ & X); cbn [length] in X; lia|reflexivity]. }
  set (v := x :: v') in *.
  assert (V2 : (s_arr s < length h)%nat /\ (s_off s + s_cap s <= length (arr h (s_arr s)))%nat).
  { destruct VS as [_ [Q|Q]]; [cbn in L; lia|exact Q]. } destruct V2 as [V2 V3].
  assert (EG : fst (gappend grow h s v) = upd_arr h (s_arr s) (splice (arr h (s_arr s)) (s_off s + s_len s) v)).
  { unfold gappend. destruct (Nat.leb_spec (s_len s + length v) (s_cap s)); [reflexivity|lia]. }
  rewrite !rd_nth by auto. rewrite EG.
  destruct (Nat.eq_dec (s_arr t) (s_arr s)) as [E|E].
  - rewrite E, arr_upd_same by exact V2. rewrite nth_splice by lia.
    unfold overwritten. destruct (Nat.leb_spec (s_off s + s_len s) (s_off t + i)), (Nat.ltb_spec (s_off t + i) (s_off s + s_len s + length v)); cbn [andb].
    + split; [reflexivity|]. intros X. exfalso. apply X. auto.
    + split; [lia|reflexivity].
    + split; [lia|reflexivity].
    + split; [lia|reflexivity].
  - rewrite arr_upd_other by (auto; congruence). split; [intros (_ & X & _); contradiction|reflexivity].
Qed.
Lemma shown_same h s v t r : valid h t -> shown_after h s v t r -> (r = rd h t <-> harmless h s v t).
Proof.
  intros V [L H]. split.
  - intros -> i Hi O. symmetry. apply H; auto.
  - intros N. apply nth_ext_len with 0; [rewrite L; symmetry; apply valid_len, V|]. intros i Hi. rewrite L in Hi.
    destruct (H i Hi) as [H1 H2].
    assert (D : overwritten s (length v) t i \/ ~ overwritten s (length v) t i).
    { unfold overwritten. destruct (le_dec (s_len s + length v) (s_cap s)), (Nat.eq_dec (s_arr t) (s_arr s)); try lia; tauto. }
    destruct D as [D|D]; [rewrite H1 by exact D; apply N; auto|apply H2, D].
Qed.
Lemma shown_bytes h s v t r : shown_after h s v t r -> valid h t -> is_bytes v -> is_bytes (rd h t) -> is_bytes r.
Proof.
  intros [L H] VT B1 B2. apply Forall_forall. intros x Hx. apply In_nth with (d := 0) in Hx as (i & Hi & <-).
  rewrite L in Hi. destruct (H i Hi) as [H1 H2].
  destruct (le_dec (s_len s + length v) (s_cap s)) as [D1|D1];
  destruct (Nat.eq_dec (s_arr t) (s_arr s)) as [D2|D2];
  destruct (le_dec (s_off s + s_len s) (s_off t + i)) as [D3|D3];
  destruct (lt_dec (s_off t + i) (s_off s + s_len s + length v)) as [D4|D4];
  try (rewrite H2 by (unfold overwritten; intros (?&?&?); lia);
       assert (F : Forall is_byte (rd h t)) by exact B2; eapply Forall_forall; [exact F|]; apply nth_In;
       rewrite (valid_len h t VT); exact Hi).
  rewrite H1 by (unfold overwritten; auto). assert (F : Forall is_byte v) by exact B1.
  eapply Forall_forall; [exact F|]. apply nth_In. lia.
Qed.

(** ** UDP *)
Lemma data_replaced_exact : forall grow h p hd d, udp_agrees h p -> valid h hd -> valid h d ->
  is_bytes (rd h hd) -> is_bytes (rd h d) ->
  Z.of_nat (hl p) + 8 + zlen (rd h hd ++ rd h d) < 65536 ->
  (version p = V4 -> ip4_valid (rd h (Buffer p))) ->
  exists p1 p2 h2 s r, UDPDataDetach p = Ok p1 /\ UDPDataAttach grow h p1 hd d = Ok (p2, h2) /\ udp_agrees h2 p2 /\
    shown_after h (win (Buffer p) 0 (hl p + 8) (s_cap (Buffer p))) (rd h hd) d r /\
    GetUDPData p2 = Ok s /\ rd h2 s = rd h hd ++ r /\
    version p2 = version p /\ SourceAddress p2 = SourceAddress p /\ DestinationAddress p2 = DestinationAddress p /\
    SourcePort p2 = SourcePort p /\ DestPort p2 = DestPort p /\
    IPTotalLen p2 = zlen (rd h2 (Buffer p2)) /\
    udp_complete (version p) (rd h2 (Buffer p2)) /\ header_kept h h2 p p2.
Proof.
  intros grow h p hd d T VH VD IH ID LL W. destruct (data_detach h p T) as (p1 & E1 & Q1 & T1 & R1 & L1).
  pose proof T as (A & P & L & S). facts A. rewrite LB in L.
  assert (V1 : version p1 = version p) by (rewrite Q1; reflexivity).
  assert (H1 : hl p1 = hl p) by (unfold hl; now rewrite V1).
  assert (VB1 : valid h (Buffer p1)) by (apply T1).
  pose proof (append_shows grow h (Buffer p1) (rd h hd) d VB1 VD) as SA.
  set (r := rd (fst (gappend grow h (Buffer p1) (rd h hd))) d) in *.
  assert (LR : length r = length (rd h d)) by (destruct SA as [X _]; rewrite X; symmetry; apply valid_len, VD).
  destruct (data_attach_general grow h p1 hd d r T1 VH IH (shown_bytes _ _ _ _ _ SA VD IH ID) eq_refl)
    as (p2 & h2 & E2 & T2 & V2 & SA' & DA & SP & DP & TL & LN & SK & UL & C4 & C6 & W2 & HK).
  { rewrite R1. unfold zlen in *. rewrite !app_length in *. rewrite firstn_length. lia. }
  assert (H2 : hl p2 = hl p) by (unfold hl in *; now rewrite V2).
  destruct (data_of_packet h2 p2 T2) as (s & E3 & R3). rewrite H2 in R3.
  exists p1, p2, h2, s, r. split; [exact E1|]. split; [exact E2|]. split; [exact T2|].
  split; [rewrite Q1 in SA; exact SA|]. split; [exact E3|]. split.
  { rewrite R3. rewrite H1 in SK. rewrite SK, R1, skipn_all2 by (rewrite firstn_length; lia). reflexivity. }
  split; [congruence|]. rewrite SA', DA, SP, DP, Q1. do 4 (split; [reflexivity|]). split; [exact TL|]. split.
  - rewrite <- V1, <- V2. apply completes; auto; rewrite ?H2, ?V2; auto; [rewrite H1 in UL; exact UL|].
    intros V. apply W2; [exact V|]. apply (hdr_ext (rd h (Buffer p1)) (rd h (Buffer p)) (hl p + 8)); [lia| |apply W; congruence].
    rewrite R1, firstn_firstn, Nat.min_id. reflexivity.
  - intros k K NK. rewrite HK by (rewrite ?H1, ?V1; auto). rewrite R1. apply nth_firstn. lia.
Qed.

(** the bytes directly behind [s] *)
Lemma shown_adjacent h s v t r : valid h t -> shown_after h s v t r ->
  s_arr t = s_arr s -> s_off t = (s_off s + s_len s)%nat ->
  r = if (s_len s + length v <=? s_cap s)%nat then firstn (s_len t) (v ++ skipn (length v) (rd h t)) else rd h t.
Proof.
  intros V [L H] EA EO. pose proof (valid_len h t V) as LT.
  destruct (Nat.leb_spec (s_len s + length v) (s_cap s)) as [C|C].
  - apply nth_ext_len with 0.
    { rewrite L, firstn_length, app_length, skipn_length. lia. }
    intros i Hi. rewrite L in Hi. destruct (H i Hi) as [H1 H2]. rewrite nth_firstn by exact Hi.
    destruct (Nat.lt_ge_cases i (length v)) as [Q|Q].
    + rewrite app_nth1 by exact Q. rewrite H1 by (unfold overwritten; lia). f_equal. lia.
    + rewrite app_nth2 by exact Q. rewrite nth_skipn'. rewrite H2 by (unfold overwritten; lia). f_equal. lia.
  - apply nth_ext_len with 0; [rewrite L; auto|]. intros i Hi. rewrite L in Hi. apply H; [exact Hi|].
    unfold overwritten. lia.
Qed.
Lemma udp_data_slice h p d : udp_agrees h p -> GetUDPData p = Ok d ->
  d = win (Buffer p) (hl p + 8) (s_len (Buffer p) - (hl p + 8)) (s_cap (Buffer p) - (hl p + 8)).
Proof.
  intros (A & _ & L & _). facts A. rewrite LB in L. unfold GetUDPData, UDPDataPos.
  assert (U : u8 (ipHeaderLen p + 8) = Z.of_nat (hl p + 8)) by (rewrite HL1; unfold u8, hl; destruct (version p); reflexivity).
  pose proof (resl_from_win (Buffer p) 0 (s_len (Buffer p)) (s_cap (Buffer p)) (Z.of_nat (hl p + 8)) ltac:(lia) ltac:(lia)) as X.
  rewrite win_all, Nat2Z.id in X. rewrite U, X. intros E. injection E as <-. reflexivity.
Qed.

(** ** TCP *)
Lemma attach_emits_exact : forall grow h p o d, tcp_agrees h p ->
  valid h (tcpOptions p) -> valid h o -> valid h d -> apart (Buffer p) (tcpOptions p) -> apart (Buffer p) d ->
  append_safe (tcpOptions p) (s_len o) (Buffer p) ->
  (s_len o = 0%nat \/ s_len (Buffer p) = payload_at p) ->
  tcpDataOffset p + zlen (rd h o) / 4 < 16 ->
  exists p' h' r, TCPDataAttach grow h p o d = Ok (p', h', None) /\ tcp_agrees h' p' /\ Buffer p' = Buffer p /\
    shown_after h (tcpOptions p) (rd h o) d r /\
    GetTCPBytes h' p' = rd h' (Buffer p) ++ rd h (tcpOptions p) ++ rd h o ++ r /\
    GetTCPOptions h' p' = rd h (tcpOptions p) ++ rd h o /\ GetTCPData h' p' = r /\
    (forall k, (k < s_len (Buffer p))%nat -> ~ ip_len_bytes (version p) k -> k <> (hl p + 12)%nat ->
       nth k (rd h' (Buffer p)) 0 = nth k (rd h (Buffer p)) 0) /\
    tcp_offset (GetTCPBytes h' p') (hl p) = tcp_offset (rd h (Buffer p)) (hl p) + zlen (rd h o) / 4 /\
    IPTotalLen p' = (IPTotalLen p + zlen (rd h o ++ rd h d)) mod 65536 /\
    (version p = V4 -> ip4_valid (rd h (Buffer p)) -> ip4_valid (GetTCPBytes h' p')).
Proof.
  intros grow h p o d A VO Vo Vd AO AD SB PL OF.
  assert (Lo : zlen (rd h o) = Z.of_nat (s_len o)) by (unfold zlen; now rewrite (valid_len h o Vo)).
  assert (Ld : zlen (rd h d) = Z.of_nat (s_len d)) by (unfold zlen; now rewrite (valid_len h d Vd)).
  rewrite Lo in *.
  destruct (attach_general grow h p o d A VO Vo Vd AO AD SB PL OF) as (cs & p' & h' & E & RC & RUN & EP & T & RB & RO & RD & V1 & V2 & AP & VV & IV & IR).
  pose proof (append_shows grow h (tcpOptions p) (rd h o) d VO Vd) as SA. rewrite <- RD in SA.
  exists p', h', (rd h' d). pose proof T as (A' & _ & L' & S').
  assert (BP : Buffer p' = Buffer p) by (rewrite EP; reflexivity).
  assert (HP : hl p' = hl p) by (rewrite EP; reflexivity).
  assert (GE : GetTCPBytes h' p' = rd h' (Buffer p) ++ rd h (tcpOptions p) ++ rd h o ++ rd h' d).
  { unfold GetTCPBytes. rewrite BP, RO. replace (rd h' (tcpData p')) with (rd h' d) by (rewrite EP; reflexivity).
    rewrite <- ?app_assoc. reflexivity. }
  pose proof A as ((VB & IB & BS & _) & _ & LB & _).
  assert (LB' : length (rd h' (Buffer p)) = s_len (Buffer p)) by (apply valid_len, VV, VB).
  assert (LB0 : length (rd h (Buffer p)) = s_len (Buffer p)) by (apply valid_len, VB).
  assert (HL : (20 <= hl p)%nat) by (unfold hl; destruct (version p); lia).
  split; [exact RUN|]. split; [exact T|]. split; [exact BP|]. split; [exact SA|]. split; [exact GE|].
  split; [exact RO|]. split; [unfold GetTCPData; rewrite EP; reflexivity|]. split.
  { intros k Hk N1 N2. rewrite RB. unfold attach_bytes. rewrite nth_splice by (cbn [length]; rewrite fixip_length; lia).
    destruct (_ && _) eqn:Q.
    - exfalso. cbn [length] in Q. apply andb_true_iff in Q as [Q1 Q2]. apply Nat.leb_le in Q1. apply Nat.ltb_lt in Q2. lia.
    - apply fixip_nth; [lia|exact N1]. }
  split.
  { destruct S' as (_ & _ & _ & _ & SO & _). rewrite HP, BP in SO.
    assert (X : tcp_offset (GetTCPBytes h' p') (hl p) = tcp_offset (rd h' (Buffer p)) (hl p)).
    { rewrite GE. unfold tcp_offset, byte_at. rewrite app_nth1 by lia. reflexivity. }
    rewrite X, <- SO, EP. destruct A as (_ & _ & _ & (_ & _ & _ & _ & SO0 & _)). rewrite <- SO0. reflexivity. }
  split.
  { rewrite zlen_app, Lo, Ld, EP. unfold attach_packet. cbn. rewrite Z.add_assoc. reflexivity. }
  intros V IV0. rewrite GE. apply ip4_valid_app; [lia|]. auto.
Qed.

(** detach options and data, attach other options with the data just detached *)
Lemma swap_options : forall grow h p ol o, tcp_agrees h p -> 0 < ol -> ol mod 4 = 0 -> 20 + ol <= 4 * tcpDataOffset p ->
  (payload_at p < s_len (Buffer p))%nat -> valid h o -> apart (Buffer p) o ->
  tcpDataOffset p - ol / 4 + zlen (rd h o) / 4 < 16 ->
  exists p1 h1 p2 h2, TCPDataDetach h p ol = Ok (p1, h1) /\
    GetTCPData h1 p1 = skipn (payload_at p) (rd h (Buffer p)) /\
    TCPDataAttach grow h1 p1 o (tcpData p1) = Ok (p2, h2, None) /\
    GetTCPOptions h2 p2 = GetTCPOptions h1 p1 ++ rd h o /\
    let d := skipn (payload_at p) (rd h (Buffer p)) in
    GetTCPData h2 p2 =
      if (payload_at p + length (rd h o) <=? s_cap (Buffer p))%nat
      then firstn (length d) (rd h o ++ skipn (length (rd h o)) d) else d.
Proof.
  intros grow h p ol o T O1 O2 O3 PA Vo AO OF. pose proof T as (A & P & L & S). facts A. rewrite LB in L.
  destruct (tcp_agrees_facts h p T) as (_ & _ & R3 & _). pose proof A as (VB & IB & AL & _).
  assert (PO : Z.of_nat (payload_at p) = Z.of_nat (hl p) + 4 * tcpDataOffset p) by (unfold payload_at; lia).
  destruct (detach_spec h p ol T ltac:(lia) O2 O3 ltac:(lia)) as (cs1 & p1 & h1 & I1 & RC1 & D1 & EP1 & EH1 & T1 & X1 & X2 & X3).
  set (tl1 := (IPTotalLen p - (payload_len p + ol)) mod 65536) in *.
  assert (PL : payload_len p <> 0) by (unfold payload_len; lia).
  assert (CU : Z.of_nat (cut_at p ol) = Z.of_nat (payload_at p) - ol) by (unfold cut_at; lia).
  assert (ED : tcpData p1 = win (Buffer p) (payload_at p) (s_len (Buffer p) - payload_at p) (s_cap (Buffer p) - payload_at p)).
  { assert (Q : tcpData p1 = detached_data p) by (rewrite EP1; reflexivity). rewrite Q. unfold detached_data.
    destruct (Z.eqb_spec (payload_len p) 0); [contradiction|reflexivity]. }
  assert (EO : tcpOptions p1 = win (Buffer p) (cut_at p ol) (Z.to_nat ol) (s_cap (Buffer p) - cut_at p ol)).
  { assert (Q : tcpOptions p1 = detached_opts p ol) by (rewrite EP1; reflexivity). rewrite Q. unfold detached_opts.
    destruct (Z.eqb_spec ol 0); [lia|reflexivity]. }
  assert (EB : Buffer p1 = win (Buffer p) 0 (cut_at p ol) (s_cap (Buffer p))) by (rewrite EP1; reflexivity).
  assert (LDB : length (detached_bytes p (rd h (Buffer p)) ol tl1 cs1) = s_len (Buffer p)).
  { unfold detached_bytes. rewrite fixip_length; rewrite splice_length; cbn [length]; lia. }
  assert (K1 : forall x, valid h x -> valid h1 x) by (intros x Vx; rewrite EH1; apply set_rd_valid; auto).
  assert (VW : forall a n c, (a + n <= s_cap (Buffer p))%nat -> (a + c <= s_cap (Buffer p))%nat -> (n <= c)%nat -> valid h1 (win (Buffer p) a n c)).
  { intros a n c Q1 Q2 Q3. pose proof (K1 _ VB) as [Y1 [Y2|[Y2 Y3]]]; split; cbn [win s_len s_cap s_arr s_off]; auto; [left; lia|right; split; [exact Y2|lia]]. }
  assert (CAP : (s_len (Buffer p) <= s_cap (Buffer p))%nat) by (destruct VB; auto).
  assert (RO1 : rd h1 o = rd h o) by (rewrite EH1; apply rd_apart; auto).
  assert (RD1 : rd h1 (tcpData p1) = skipn (payload_at p) (rd h (Buffer p))).
  { rewrite ED, EH1. rewrite rd_win by (auto; lia). unfold detached_bytes.
    rewrite fixip_skipn by (rewrite ?splice_length; cbn [length]; lia).
    rewrite skipn_splice_before by (cbn [length]; lia).
    apply firstn_all2. rewrite skipn_length. lia. }
  assert (V1 : version p1 = version p) by (rewrite EP1; reflexivity).
  assert (H1 : hl p1 = hl p) by (unfold hl; now rewrite V1).
  assert (OF1 : tcpDataOffset p1 = tcpDataOffset p - ol / 4) by (rewrite EP1; reflexivity).
  assert (VT : valid h1 (tcpOptions p1)) by (rewrite EO; apply VW; lia).
  assert (VD : valid h1 (tcpData p1)) by (rewrite ED; apply VW; lia).
  destruct (attach_emits_exact grow h1 p1 o (tcpData p1) T1 VT (K1 o Vo) VD) as (p2 & h2 & r & E2 & T2 & B2 & SH & _ & GO & GD & _).
  { rewrite EB, EO. right. right. cbn [win s_off s_len s_arr]. lia. }
  { rewrite EB, ED. right. right. cbn [win s_off s_len s_arr]. lia. }
  { rewrite EB, EO. right. right. right. right. cbn [win s_off s_len s_arr]. lia. }
  { right. rewrite EB. cbn [win s_len]. unfold payload_at. rewrite H1, OF1. lia. }
  { rewrite OF1, RO1. exact OF. }
  exists p1, h1, p2, h2. split; [exact D1|]. split; [exact RD1|]. split; [exact E2|].
  split; [rewrite GO, RO1; reflexivity|]. cbv zeta. rewrite GD.
  assert (SZ : s_off (tcpData p1) = (s_off (tcpOptions p1) + s_len (tcpOptions p1))%nat).
  { rewrite ED, EO. cbn [win s_off s_len]. lia. }
  rewrite (shown_adjacent _ _ _ _ _ VD SH) by (auto; rewrite ED, EO; reflexivity).
  rewrite RD1, RO1. rewrite EO at 1 2. cbn [win s_len s_cap].
  replace (s_len (tcpData p1)) with (length (skipn (payload_at p) (rd h (Buffer p)))).
  2:{ rewrite skipn_length, LB, ED. reflexivity. }
  destruct (Nat.leb_spec (Z.to_nat ol + length (rd h o)) (s_cap (Buffer p) - cut_at p ol)),
           (Nat.leb_spec (payload_at p + length (rd h o)) (s_cap (Buffer p))); try reflexivity; lia.
Qed.
