(** Parsing: exact outcome of New and the fields it extracts. *)
From Verif Require Export Proof.PktMem Spec.PacketSpec.

Lemma Ok_inj {A} (a b : A) : Ok a = Ok b -> a = b.
Proof. congruence. Qed.

(** ** Decimal numerals *)
Lemma digits_rev_spec fuel : forall n, 0 <= n < 10 ^ Z.of_nat fuel -> (0 < fuel)%nat ->
  digits_rev fuel n <> [] /\ Forall (fun c => 48 <= c <= 57) (digits_rev fuel n) /\
  fold_right (fun c a => a * 10 + (c - 48)) 0 (digits_rev fuel n) = n /\
  ((1 < length (digits_rev fuel n))%nat -> last (digits_rev fuel n) 0 <> 48) /\
  (0 < n -> last (digits_rev fuel n) 0 <> 48).
Proof.
  induction fuel as [|f IH]; intros n H F; [lia|]. cbn [digits_rev].
  destruct (Z.ltb_spec n 10).
  - cbn [fold_right length last]. repeat split; try lia; try discriminate.
    constructor; [lia|constructor].
  - destruct f as [|f].
    { cbn in H. lia. }
    rewrite Nat2Z.inj_succ, Z.pow_succ_r in H by lia.
    destruct (IH (n / 10)) as (I1 & I2 & I3 & I4 & I5); [lia|lia|].
    set (d := digits_rev (S f) (n / 10)) in *. clearbody d.
    cbn [fold_right length]. split; [discriminate|]. split; [constructor; [lia|exact I2]|].
    rewrite I3. split; [lia|].
    assert (E : last ((48 + n mod 10) :: d) 0 = last d 0) by (destruct d; [congruence|reflexivity]).
    rewrite E. split; intros; apply I5; lia.
Qed.
Lemma dec_value_rev l : dec_value (rev l) = fold_right (fun c a => a * 10 + (c - 48)) 0 l.
Proof. unfold dec_value. rewrite <- fold_left_rev_right, rev_involutive. reflexivity. Qed.
Lemma hd_rev (l : bytes) : l <> [] -> hd 0 (rev l) = last l 0.
Proof.
  intros H. destruct (exists_last H) as (l' & x & ->). rewrite rev_app_distr, last_last. reflexivity.
Qed.
Lemma itoa_decimal n : 0 <= n < 10 ^ 20 -> is_decimal n (itoa n).
Proof.
  intros H. destruct (digits_rev_spec 20 n H ltac:(lia)) as (A & B & C & D & _).
  unfold itoa, is_decimal. split; [|split; [|split]].
  - intros E. apply A. rewrite <- (rev_involutive (digits_rev 20 n)), E. reflexivity.
  - apply Forall_rev, B.
  - rewrite dec_value_rev. exact C.
  - rewrite rev_length, hd_rev by exact A. exact D.
Qed.

(** ** Reads that may run past the length but not past the capacity *)
Lemma be16_any h s pos : vslice h s -> 0 <= pos ->
  (exists v, pos + 2 <= Z.of_nat (s_cap s) /\ be16_at h s pos = Ok v) \/
  (Z.of_nat (s_cap s) < pos + 2 /\ be16_at h s pos = Panic).
Proof.
  intros (A & B & C) P. unfold be16_at. destruct (Z_le_gt_dec (pos + 2) (Z.of_nat (s_cap s))).
  - left. rewrite reslice_ok by lia. cbn [rbind].
    destruct (get16_ok BE (rd h (mkSl (s_arr s) (s_off s + Z.to_nat pos) (Z.to_nat (pos + 2) - Z.to_nat pos) (s_cap s - Z.to_nat pos)))) as [v E].
    + unfold rd. cbn [s_arr s_off s_len]. rewrite firstn_length, skipn_length. lia.
    + exists v. auto.
  - right. split; [lia|]. unfold reslice.
    destruct (Z.leb_spec 0 pos), (Z.leb_spec pos (pos + 2)), (Z.leb_spec (pos + 2) (Z.of_nat (s_cap s))); cbn; auto; lia.
Qed.
Lemma be32_any h s pos : vslice h s -> 0 <= pos ->
  (exists v, pos + 4 <= Z.of_nat (s_cap s) /\ be32_at h s pos = Ok v) \/
  (Z.of_nat (s_cap s) < pos + 4 /\ be32_at h s pos = Panic).
Proof.
  intros (A & B & C) P. unfold be32_at. destruct (Z_le_gt_dec (pos + 4) (Z.of_nat (s_cap s))).
  - left. rewrite reslice_ok by lia. cbn [rbind].
    destruct (get32_ok BE (rd h (mkSl (s_arr s) (s_off s + Z.to_nat pos) (Z.to_nat (pos + 4) - Z.to_nat pos) (s_cap s - Z.to_nat pos)))) as [v E].
    + unfold rd. cbn [s_arr s_off s_len]. rewrite firstn_length, skipn_length. lia.
    + exists v. auto.
  - right. split; [lia|]. unfold reslice.
    destruct (Z.leb_spec 0 pos), (Z.leb_spec pos (pos + 4)), (Z.leb_spec (pos + 4) (Z.of_nat (s_cap s))); cbn; auto; lia.
Qed.
Lemma sidx_any h s i : vslice h s -> 0 <= i ->
  (i < Z.of_nat (s_len s) /\ sidx h s i = Ok (nth (Z.to_nat i) (rd h s) 0)) \/
  (Z.of_nat (s_len s) <= i /\ sidx h s i = Panic).
Proof.
  intros V I. pose proof (vslice_len h s V) as L. unfold sidx. destruct (Z_lt_ge_dec i (Z.of_nat (s_len s))).
  - left. split; [assumption|]. apply gidx_ok. unfold zlen. lia.
  - right. split; [lia|]. apply gidx_panic. unfold zlen. lia.
Qed.
Lemma copy_any h s lo hi : 0 <= lo <= hi ->
  (exists v, hi <= Z.of_nat (s_cap s) /\ copy_of h s lo hi = Ok v) \/
  (Z.of_nat (s_cap s) < hi /\ copy_of h s lo hi = Panic).
Proof.
  intros H. unfold copy_of, reslice.
  destruct (Z.leb_spec 0 lo), (Z.leb_spec lo hi), (Z.leb_spec hi (Z.of_nat (s_cap s))); cbn; try lia; eauto.
Qed.
Lemma be16_in h s pos : vslice h s -> 0 <= pos -> pos + 2 <= Z.of_nat (s_len s) ->
  be16_at h s pos = Ok (be16f (rd h s) (Z.to_nat pos)).
Proof.
  intros V P L. pose proof V as (_ & _ & C).
  pose proof (be16_win h s V (rd h s) (vslice_len h s V) 0 (s_len s) (s_cap s) pos) as X.
  rewrite (set_rd_same h s V), (win_all s) in X. apply X; lia.
Qed.
Lemma be32_in h s pos : vslice h s -> 0 <= pos -> pos + 4 <= Z.of_nat (s_len s) ->
  be32_at h s pos = Ok (be32f (rd h s) (Z.to_nat pos)).
Proof.
  intros V P L. pose proof V as (_ & _ & C).
  pose proof (be32_win h s V (rd h s) (vslice_len h s V) 0 (s_len s) (s_cap s) pos) as X.
  rewrite (set_rd_same h s V), (win_all s) in X. apply X; lia.
Qed.
Lemma copy_in h s lo hi : vslice h s -> 0 <= lo <= hi -> hi <= Z.of_nat (s_len s) ->
  copy_of h s lo hi = Ok (field (rd h s) (Z.to_nat lo) (Z.to_nat hi - Z.to_nat lo)).
Proof.
  intros V P L. pose proof V as (_ & _ & C).
  pose proof (copy_of_win h s V (rd h s) (vslice_len h s V) 0 (s_len s) (s_cap s) lo hi) as X.
  rewrite (set_rd_same h s V), (win_all s) in X. apply X; lia.
Qed.
Lemma vslice_from h s k : vslice h s -> (k <= s_len s)%nat ->
  vslice h (mkSl (s_arr s) (s_off s + k) (s_len s - k) (s_cap s - k)).
Proof. intros (A & B & C) K. repeat split; cbn [s_arr s_off s_len s_cap]; lia. Qed.
Lemma field_skipn' B k o n : field (skipn k B) o n = field B (k + o) n.
Proof. apply field_skipn. Qed.

(** ** The transport parsers *)
Definition tcp_crashes (s : slice) (hl : Z) (blen : Z) : bool :=
  (Z.of_nat (s_len s) <? hl + 14) || (Z.of_nat (s_cap s) <? hl + 18) || (blen <? hl).
Lemma parseTCP_any h p s hl : vslice h s -> ipHeaderLen p = hl -> 0 <= hl ->
  (s_len (Buffer p) <= s_cap (Buffer p))%nat ->
  match parseTCP h p s with
  | Ok p' => tcp_crashes s hl (Z.of_nat (s_len (Buffer p))) = false /\
      exists sp dp sq ak off fl cs tl,
        p' = with_tcp p snil snil sp dp sq ak off fl cs tl /\
        (Z.of_nat (s_len s) >= hl + 18 ->
           let b := rd h s in let o := Z.to_nat hl in
           sp = l4_sport b o /\ dp = l4_dport b o /\ sq = tcp_seq b o /\ ak = tcp_ack b o /\
           off = Z.shiftr (Z.land (byte_at b (o + 12)) 240) 4 /\ fl = tcp_flags b o /\ cs = tcp_checksum b o)
  | Panic => tcp_crashes s hl (Z.of_nat (s_len (Buffer p))) = true
  | NoFuel => False
  end.
Proof.
  intros V E HL HB. pose proof V as (V1 & V2 & V3). unfold parseTCP, tcp_crashes. rewrite E.
  destruct (Z_le_gt_dec hl (Z.of_nat (s_len s))) as [H1|H1].
  2:{ rewrite resl_from_panic by lia. cbn [rbind]. destruct (Z.ltb_spec (Z.of_nat (s_len s)) (hl + 14)); [reflexivity|lia]. }
  rewrite resl_from_ok by lia. cbn [rbind].
  set (tb := mkSl _ _ _ _). assert (VT : vslice h tb) by (apply vslice_from; [exact V|lia]).
  assert (RT : rd h tb = skipn (Z.to_nat hl) (rd h s)) by apply rd_from.
  assert (LT : s_len tb = (s_len s - Z.to_nat hl)%nat) by reflexivity.
  assert (CT : s_cap tb = (s_cap s - Z.to_nat hl)%nat) by reflexivity.
  destruct (be16_any h tb tcpChecksumPos VT ltac:(unfold tcpChecksumPos; lia)) as [(cs & C1 & Ecs)|[C1 Ecs]];
    unfold tcpChecksumPos in C1 at 1; rewrite Ecs; cbn [rbind].
  2:{ destruct (Z.ltb_spec (Z.of_nat (s_cap s)) (hl + 18)); [now rewrite orb_true_r|lia]. }
  destruct (be16_any h tb tcpSourcePortPos VT ltac:(unfold tcpSourcePortPos; lia)) as [(sp & C2 & Esp)|[C2 _]];
    [|unfold tcpSourcePortPos in C2; lia]. rewrite Esp. cbn [rbind].
  destruct (be16_any h tb tcpDestPortPos VT ltac:(unfold tcpDestPortPos; lia)) as [(dp & C3 & Edp)|[C3 _]];
    [|unfold tcpDestPortPos in C3; lia]. rewrite Edp. cbn [rbind].
  destruct (be32_any h tb tcpAckPos VT ltac:(unfold tcpAckPos; lia)) as [(ak & C4 & Eak)|[C4 _]];
    [|unfold tcpAckPos in C4; lia]. rewrite Eak. cbn [rbind].
  destruct (be32_any h tb tcpSeqPos VT ltac:(unfold tcpSeqPos; lia)) as [(sq & C5 & Esq)|[C5 _]];
    [|unfold tcpSeqPos in C5; lia]. rewrite Esq. cbn [rbind].
  destruct (sidx_any h tb tcpDataOffsetPos VT ltac:(unfold tcpDataOffsetPos; lia)) as [[C6 Eob]|[C6 Eob]];
    unfold tcpDataOffsetPos in C6; rewrite Eob; cbn [rbind].
  2:{ destruct (Z.ltb_spec (Z.of_nat (s_len s)) (hl + 14)); [reflexivity|lia]. }
  destruct (Z_le_gt_dec hl (Z.of_nat (s_len (Buffer p)))) as [H2|H2].
  2:{ rewrite resl_from_panic by lia. cbn [rbind].
      destruct (Z.ltb_spec (Z.of_nat (s_len (Buffer p))) hl); [now rewrite orb_true_r|lia]. }
  rewrite resl_from_ok by lia. cbn [rbind].
  destruct (sidx_any h tb tcpFlagsOffsetPos VT ltac:(unfold tcpFlagsOffsetPos; lia)) as [[C7 Efl]|[C7 Efl]];
    unfold tcpFlagsOffsetPos in C7; rewrite Efl; cbn [rbind].
  2:{ destruct (Z.ltb_spec (Z.of_nat (s_len s)) (hl + 14)); [reflexivity|lia]. }
  split.
  - destruct (Z.ltb_spec (Z.of_nat (s_len s)) (hl + 14)), (Z.ltb_spec (Z.of_nat (s_cap s)) (hl + 18)),
      (Z.ltb_spec (Z.of_nat (s_len (Buffer p))) hl); cbn [orb]; try reflexivity; lia.
  - do 8 eexists. split; [reflexivity|]. intros G.
    rewrite be16_in in Ecs, Esp, Edp by (auto; unfold tcpChecksumPos, tcpSourcePortPos, tcpDestPortPos; lia).
    rewrite be32_in in Eak, Esq by (auto; unfold tcpAckPos, tcpSeqPos; lia).
    rewrite RT in Ecs, Esp, Edp, Eak, Esq. unfold be16f, be32f in *. rewrite field_skipn in Ecs, Esp, Edp, Eak, Esq.
    apply Ok_inj in Ecs. subst cs. apply Ok_inj in Esp. subst sp. apply Ok_inj in Edp. subst dp. apply Ok_inj in Eak. subst ak. apply Ok_inj in Esq. subst sq.
    rewrite RT. rewrite !nth_skipn'.
    unfold l4_sport, l4_dport, tcp_seq, tcp_ack, tcp_flags, tcp_checksum, byte_at, be16f, be32f.
    rewrite Nat.add_0_r. repeat split; reflexivity.
Qed.
Lemma parseUDP_any h p s hl : vslice h s -> ipHeaderLen p = hl -> 0 <= hl ->
  match parseUDP h p s with
  | Ok p' => (hl <= Z.of_nat (s_len s) /\ hl + 8 <= Z.of_nat (s_cap s)) /\
      exists sp dp cs, p' = with_udp p sp dp cs snil /\
        (Z.of_nat (s_len s) >= hl + 8 ->
           let b := rd h s in let o := Z.to_nat hl in
           sp = l4_sport b o /\ dp = l4_dport b o /\ cs = udp_checksum b o)
  | Panic => Z.of_nat (s_len s) < hl \/ Z.of_nat (s_cap s) < hl + 8
  | NoFuel => False
  end.
Proof.
  intros V E HL. pose proof V as (V1 & V2 & V3). unfold parseUDP. rewrite E.
  destruct (Z_le_gt_dec hl (Z.of_nat (s_len s))) as [H1|H1].
  2:{ rewrite resl_from_panic by lia. cbn [rbind]. lia. }
  rewrite resl_from_ok by lia. cbn [rbind].
  set (tb := mkSl _ _ _ _). assert (VT : vslice h tb) by (apply vslice_from; [exact V|lia]).
  assert (RT : rd h tb = skipn (Z.to_nat hl) (rd h s)) by apply rd_from.
  assert (LT : s_len tb = (s_len s - Z.to_nat hl)%nat) by reflexivity.
  assert (CT : s_cap tb = (s_cap s - Z.to_nat hl)%nat) by reflexivity.
  destruct (be16_any h tb udpChecksumPos VT ltac:(unfold udpChecksumPos; lia)) as [(cs & C1 & Ecs)|[C1 Ecs]];
    unfold udpChecksumPos in C1 at 1; rewrite Ecs; cbn [rbind]; [|lia].
  destruct (be16_any h tb udpSourcePortPos VT ltac:(unfold udpSourcePortPos; lia)) as [(sp & C2 & Esp)|[C2 _]];
    [|unfold udpSourcePortPos in C2; lia]. rewrite Esp. cbn [rbind].
  destruct (be16_any h tb udpDestPortPos VT ltac:(unfold udpDestPortPos; lia)) as [(dp & C3 & Edp)|[C3 _]];
    [|unfold udpDestPortPos in C3; lia]. rewrite Edp. cbn [rbind].
  split; [lia|]. do 3 eexists. split; [reflexivity|]. intros G.
  rewrite be16_in in Ecs, Esp, Edp by (auto; unfold udpChecksumPos, udpSourcePortPos, udpDestPortPos; lia).
  rewrite RT in Ecs, Esp, Edp. unfold be16f in *. rewrite field_skipn in Ecs, Esp, Edp.
  apply Ok_inj in Ecs. subst cs. apply Ok_inj in Esp. subst sp. apply Ok_inj in Edp. subst dp.
  unfold l4_sport, l4_dport, udp_checksum, be16f. rewrite Nat.add_0_r. repeat split; reflexivity.
Qed.

(** ** Bytes and nibbles *)
Lemma byte_cases (P : Z -> bool) : forallb P (map Z.of_nat (seq 0 256)) = true -> forall x, 0 <= x < 256 -> P x = true.
Proof.
  intros H x R. rewrite forallb_forall in H. apply H. apply in_map_iff. exists (Z.to_nat x).
  split; [lia|]. apply in_seq. lia.
Qed.
Lemma land240 x : 0 <= x < 256 -> Z.land x 240 = x / 16 * 16.
Proof. intros R. apply Z.eqb_eq. revert x R. apply byte_cases. vm_compute. reflexivity. Qed.
Lemma land15 x : Z.land x 15 = x mod 16.
Proof. change 15 with (Z.ones 4). rewrite Z.land_ones by lia. reflexivity. Qed.
Lemma shr4 x : 0 <= x < 256 -> Z.shiftr (Z.land x 240) 4 = x / 16.
Proof. intros R. apply Z.eqb_eq. revert x R. apply byte_cases. vm_compute. reflexivity. Qed.
Lemma nth_byte b i : is_bytes b -> 0 <= nth i b 0 < 256.
Proof.
  intros H. destruct (Nat.lt_ge_cases i (length b)).
  - unfold is_bytes in H. rewrite Forall_forall in H. apply H, nth_In, H0.
  - rewrite nth_overflow by lia. lia.
Qed.

(** ** The transport part *)
Definition transport_class (proto total hl : Z) (s : slice) (blen : Z) : parse_result :=
  let small min := (total - hl) mod 65536 <? min in
  if proto =? PROTO_TCP then
    if small 20 then Rejects errTCPTooSmall
    else if tcp_crashes s hl blen then Crashes else Accepts
  else if proto =? PROTO_UDP then
    if small 8 then Rejects errUDPTooSmall
    else if (Z.of_nat (s_len s) <? hl) || (Z.of_nat (s_cap s) <? hl + 8) then Crashes else Accepts
  else Accepts.

Record same_ip (p p' : packet) : Prop := {
  si_ctx : context p' = context p;
  si_buf : Buffer p' = Buffer p;
  si_hl : ipHeaderLen p' = ipHeaderLen p;
  si_proto : ipProto p' = ipProto p;
  si_total : ipTotalLength p' = ipTotalLength p;
  si_id : ipID p' = ipID p;
  si_cs : ipChecksum p' = ipChecksum p;
  si_ver : version p' = version p;
  si_src : sourceAddress p' = sourceAddress p;
  si_dst : destinationAddress p' = destinationAddress p;
  si_opt : tcpOptions p' = snil;
  si_data : tcpData p' = snil;
  si_udata : udpData p' = snil }.
Record shows_l4_full (h : heap) (s : slice) (hl : Z) (p' : packet) : Prop := {
  sl_tcp : ipProto p' = PROTO_TCP -> Z.of_nat (s_len s) >= hl + 18 -> shows_tcp p' (rd h s) (Z.to_nat hl);
  sl_tl : ipProto p' = PROTO_TCP -> hl <= Z.of_nat (s_len (Buffer p')) ->
          tcpTotalLength p' = (Z.of_nat (s_len (Buffer p')) - hl) mod 65536;
  sl_udp : ipProto p' = PROTO_UDP -> Z.of_nat (s_len s) >= hl + 8 ->
           shows_udp p' (rd h s) (Z.to_nat hl) /\ udpSourcePort p' = l4_sport (rd h s) (Z.to_nat hl) /\
           udpDestinationPort p' = l4_dport (rd h s) (Z.to_nat hl) /\
           udpChecksum p' = udp_checksum (rd h s) (Z.to_nat hl);
  sl_hash : L4FlowHash p' = l4FlowHash p' }.

Lemma parseTCP_tl h p s p' : parseTCP h p s = Ok p' ->
  tcpTotalLength p' = u16 (Z.of_nat (s_len (Buffer p)) - ipHeaderLen p).
Proof.
  unfold parseTCP. intros H.
  repeat match type of H with
  | rbind ?x _ = Ok _ => destruct x eqn:?; cbn [rbind] in H; try discriminate
  end.
  apply Ok_inj in H. subst p'. cbn [with_tcp tcpTotalLength]. f_equal.
  match goal with X : resl_from (Buffer p) _ = Ok _ |- _ => unfold resl_from, reslice in X; revert X end.
  destruct (Z.leb_spec 0 (ipHeaderLen p)), (Z.leb_spec (ipHeaderLen p) (Z.of_nat (s_len (Buffer p)))),
    (Z.leb_spec (Z.of_nat (s_len (Buffer p))) (Z.of_nat (s_cap (Buffer p)))); cbn [andb]; intros X; try discriminate.
  apply Ok_inj in X. subst. cbn [s_len]. lia.
Qed.

Lemma transport_any h p s hl : vslice h s -> is_bytes (rd h s) -> ipHeaderLen p = hl -> 0 <= hl < 256 ->
  (s_len (Buffer p) <= s_cap (Buffer p))%nat ->
  tcpOptions p = snil -> tcpData p = snil -> udpData p = snil ->
  match parse_transport h p s with
  | Ok (p', None) => transport_class (ipProto p) (ipTotalLength p) hl s (Z.of_nat (s_len (Buffer p))) = Accepts /\
      same_ip p p' /\ shows_l4_full h s hl p'
  | Ok (_, Some e) => transport_class (ipProto p) (ipTotalLength p) hl s (Z.of_nat (s_len (Buffer p))) = Rejects e
  | Panic => transport_class (ipProto p) (ipTotalLength p) hl s (Z.of_nat (s_len (Buffer p))) = Crashes
  | NoFuel => False
  end.
Proof.
  intros V IB E HL HB N1 N2 N3. unfold parse_transport, transport_class.
  unfold IPProtocolTCP, IPProtocolUDP, PROTO_TCP, PROTO_UDP, minTCPIPPacketLen, minUDPIPPacketLen.
  replace (u16 (ipTotalLength p - u16 (ipHeaderLen p))) with ((ipTotalLength p - hl) mod 65536)
    by (rewrite E; unfold u16; rewrite (Z.mod_small hl) by lia; reflexivity).
  destruct (Z.eqb_spec (ipProto p) 6) as [T|T]; cbn [andb].
  - destruct (_ <? 20); cbn [rbind]; [reflexivity|].
    pose proof (parseTCP_any h p s hl V E ltac:(lia) HB) as X. pose proof (parseTCP_tl h p s) as TL.
    destruct (parseTCP h p s) as [p1| |]; cbn [rbind]; [|rewrite X; reflexivity|contradiction].
    destruct X as (X1 & sp & dp & sq & ak & off & fl & cs & tl & -> & X2). rewrite X1.
    specialize (TL _ eq_refl). cbn [with_tcp tcpTotalLength] in TL.
    cbn [with_tcp ipProto]. rewrite T. cbn [Z.eqb Pos.eqb andb rbind].
    split; [reflexivity|]. split; [constructor; cbn; auto|].
    constructor; cbn [ipProto with_hash with_tcp tcpTotalLength Buffer].
    + intros _ G. specialize (X2 G). cbn zeta in X2. destruct X2 as (-> & -> & -> & -> & -> & -> & ->).
      unfold shows_tcp, SourcePort, DestPort, IPProtocolTCP. cbn [ipProto with_hash with_tcp]. rewrite T. cbn [Z.eqb Pos.eqb].
      repeat split; cbn [tcpDataOffset with_hash with_tcp]. unfold tcp_offset, byte_at. rewrite shr4; [reflexivity|].
      apply nth_byte, IB.
    + intros _ G. rewrite TL, E. unfold u16. reflexivity.
    + rewrite T. unfold PROTO_UDP. discriminate.
    + reflexivity.
  - cbn [rbind]. destruct (Z.eqb_spec (ipProto p) 17) as [U|U]; cbn [andb].
    + destruct (_ <? 8); cbn [rbind]; [reflexivity|].
      pose proof (parseUDP_any h p s hl V E ltac:(lia)) as X.
      destruct (parseUDP h p s) as [p1| |]; cbn [rbind]; [| |contradiction].
      2:{ destruct (Z.ltb_spec (Z.of_nat (s_len s)) hl), (Z.ltb_spec (Z.of_nat (s_cap s)) (hl + 8)); cbn [orb]; try reflexivity; lia. }
      destruct X as (X1 & sp & dp & cs & -> & X2).
      split. { destruct (Z.ltb_spec (Z.of_nat (s_len s)) hl), (Z.ltb_spec (Z.of_nat (s_cap s)) (hl + 8)); cbn [orb]; try reflexivity; lia. }
      split; [constructor; cbn; auto|].
      constructor; cbn [ipProto with_hash with_udp].
      * rewrite U. unfold PROTO_TCP. discriminate.
      * rewrite U. unfold PROTO_TCP. discriminate.
      * intros _ G. specialize (X2 G). cbn zeta in X2. destruct X2 as (-> & -> & ->).
        unfold shows_udp, SourcePort, DestPort, IPProtocolTCP. cbn [ipProto with_hash with_udp]. rewrite U. cbn [Z.eqb Pos.eqb].
        repeat split.
      * reflexivity.
    + split; [reflexivity|]. split; [constructor; cbn; auto|].
      constructor; cbn [ipProto with_hash]; unfold PROTO_TCP, PROTO_UDP; try congruence. reflexivity.
Qed.

(** ** New *)
(** what an accepted IPv4 packet is *)
Record accepted4 (h : heap) (ctx : Z) (s : slice) (v : bool) (p : packet) : Prop := {
  a4_ctx : context p = ctx;
  a4_ip : shows_ip4 p (rd h s);
  a4_l4 : shows_l4_full h s 20 p;
  a4_id : ipID p = ip4_id (rd h s);
  a4_buf : exists n, Buffer p = mkSl (s_arr s) (s_off s) n (s_cap s) /\ (n <= s_len s)%nat /\
           rd h (Buffer p) = kept v (ip4_total (rd h s)) (rd h s);
  a4_opt : tcpOptions p = snil;
  a4_data : tcpData p = snil;
  a4_udata : udpData p = snil }.

Lemma resl_to_ok s hi : 0 <= hi <= Z.of_nat (s_cap s) ->
  resl_to s hi = Ok (mkSl (s_arr s) (s_off s) (Z.to_nat hi) (s_cap s)).
Proof.
  intros H. unfold resl_to. rewrite reslice_ok by lia. cbn [Z.to_nat]. rewrite Nat.add_0_r, !Nat.sub_0_r. reflexivity.
Qed.
Lemma slice_eta s : mkSl (s_arr s) (s_off s) (s_len s) (s_cap s) = s.
Proof. destruct s. reflexivity. Qed.
Lemma rd_prefix h s n : (n <= s_len s)%nat -> rd h (mkSl (s_arr s) (s_off s) n (s_cap s)) = firstn n (rd h s).
Proof. intros H. unfold rd. cbn [s_arr s_off s_len]. rewrite firstn_firstn, Nat.min_l by lia. reflexivity. Qed.

Lemma New_v4 h ctx s v : vslice h s -> is_bytes (rd h s) -> (1 <= s_len s)%nat -> Z.of_nat (s_len s) < 65536 ->
  ip4_version (rd h s) = 4 ->
  match New h ctx s v with
  | Ok (Some p, None) => classify4 (rd h s) (Z.of_nat (s_cap s)) v = Accepts /\ accepted4 h ctx s v p
  | Ok (Some _, Some e) => classify4 (rd h s) (Z.of_nat (s_cap s)) v = Rejects e
  | Ok (None, _) => False
  | Panic => classify4 (rd h s) (Z.of_nat (s_cap s)) v = Crashes
  | NoFuel => False
  end.
Proof.
  intros V IB L1 L2 VER. pose proof V as (V1 & V2 & V3). pose proof (vslice_len h s V) as LB.
  unfold New, ipv4HdrLenPos. destruct (Z.ltb_spec (Z.of_nat (s_len s)) 0); [lia|].
  unfold classify4, zlen. rewrite LB.
  destruct (sidx_any h s 0 V ltac:(lia)) as [[_ E0]|[X _]]; [|lia]. rewrite E0. cbn [rbind]. change (Z.to_nat 0) with 0%nat in *.
  pose proof (nth_byte (rd h s) 0 IB) as R0.
  rewrite (land240 _ R0). unfold ip4_version, byte_at in VER. rewrite VER. cbn [Z.mul Pos.mul Z.eqb Pos.eqb].
  unfold parseIPv4Packet, minIPv4HdrSize, ipv4HdrLenPos.
  destruct (Z.ltb_spec (Z.of_nat (s_len s)) 20) as [S|S]; [reflexivity|].
  rewrite E0. cbn [rbind].
  destruct (sidx_any h s ipv4ProtoPos V ltac:(unfold ipv4ProtoPos; lia)) as [[_ E1]|[X _]]; [|unfold ipv4ProtoPos in X; lia].
  rewrite E1. cbn [rbind].
  rewrite !be16_in by (auto; unfold ipv4LengthPos, ipv4IDPos, ipv4ChecksumPos; lia). cbn [rbind].
  rewrite !copy_in by (auto; unfold ipv4SourceAddrPos, ipv4DestAddrPos; lia). cbn [rbind].
  rewrite land15.
  assert (HL : u8 (nth 0 (rd h s) 0 mod 16 * 4) = ip4_ihl (rd h s) * 4) by (unfold u8, ip4_ihl, byte_at; lia).
  rewrite HL.
  destruct (Z.eqb_spec (ip4_ihl (rd h s)) 5) as [I|I]; cbn [negb].
  2:{ destruct (Z.eqb_spec (ip4_ihl (rd h s) * 4) 20); [lia|]. reflexivity. }
  rewrite I. cbn [Z.mul Pos.mul Z.eqb Pos.eqb negb].
  unfold u16. rewrite (Z.mod_small (Z.of_nat (s_len s))) by lia.
  unfold ipv4LengthPos, ipv4IDPos, ipv4ChecksumPos, ipv4SourceAddrPos, ipv4DestAddrPos, ipv4ProtoPos.
  change (Z.to_nat 2) with 2%nat. change (Z.to_nat 4) with 4%nat. change (Z.to_nat 9) with 9%nat.
  change (Z.to_nat 10) with 10%nat. change (Z.to_nat 12) with 12%nat. change (Z.to_nat 16) with 16%nat.
  change (Z.to_nat (12 + 4) - 12)%nat with 4%nat. change (Z.to_nat (16 + 4) - 16)%nat with 4%nat.
  fold (ip4_total (rd h s)). fold (ip4_id (rd h s)). fold (ip4_checksum (rd h s)).
  fold (ip4_src (rd h s)). fold (ip4_dst (rd h s)).
  change (nth 9 (rd h s) 0) with (ip4_proto (rd h s)).
  pose proof (be16f_range (rd h s) 2 IB ltac:(lia)) as RT. fold (ip4_total (rd h s)) in RT.
  set (tot := ip4_total (rd h s)) in *.
  assert (TR : forall n, (n <= s_len s)%nat -> (v = true -> n = Z.to_nat tot \/ (Z.of_nat (s_len s) = tot /\ n = s_len s)) -> (v = false -> n = s_len s) ->
    (v && (Z.of_nat (s_len s) <? tot) = false) ->
    let q := with_buffer (with_ip (with_version (zero_packet ctx) V4) (version (with_version (zero_packet ctx) V4)) 20
               (ip4_proto (rd h s)) tot (ip4_id (rd h s)) (ip4_checksum (rd h s)) (ip4_src (rd h s)) (ip4_dst (rd h s)))
               (mkSl (s_arr s) (s_off s) n (s_cap s)) in
    match (let* x := parse_transport h q s in Ok (Some (fst x), snd x)) with
    | Ok (Some p, None) => 
        (if ip4_proto (rd h s) =? PROTO_TCP then
           if stated_too_small 20 20 tot then Rejects errTCPTooSmall
           else if (Z.of_nat (s_len s) <? 34) || (Z.of_nat (s_cap s) <? 38) || (v && (tot <? 20)) then Crashes else Accepts
         else if ip4_proto (rd h s) =? PROTO_UDP then
           if stated_too_small 20 8 tot then Rejects errUDPTooSmall
           else if Z.of_nat (s_cap s) <? 28 then Crashes else Accepts
         else Accepts) = Accepts /\ accepted4 h ctx s v p
    | Ok (Some _, Some e) =>
        (if ip4_proto (rd h s) =? PROTO_TCP then
           if stated_too_small 20 20 tot then Rejects errTCPTooSmall
           else if (Z.of_nat (s_len s) <? 34) || (Z.of_nat (s_cap s) <? 38) || (v && (tot <? 20)) then Crashes else Accepts
         else if ip4_proto (rd h s) =? PROTO_UDP then
           if stated_too_small 20 8 tot then Rejects errUDPTooSmall
           else if Z.of_nat (s_cap s) <? 28 then Crashes else Accepts
         else Accepts) = Rejects e
    | Ok (None, _) => False
    | Panic =>
        (if ip4_proto (rd h s) =? PROTO_TCP then
           if stated_too_small 20 20 tot then Rejects errTCPTooSmall
           else if (Z.of_nat (s_len s) <? 34) || (Z.of_nat (s_cap s) <? 38) || (v && (tot <? 20)) then Crashes else Accepts
         else if ip4_proto (rd h s) =? PROTO_UDP then
           if stated_too_small 20 8 tot then Rejects errUDPTooSmall
           else if Z.of_nat (s_cap s) <? 28 then Crashes else Accepts
         else Accepts) = Crashes
    | NoFuel => False
    end).
  { intros n Hn Hv Hf Hrej q.
    pose proof (transport_any h q s 20 V IB eq_refl ltac:(lia) ltac:(cbn; lia) eq_refl eq_refl eq_refl) as T.
    cbn [q with_buffer with_ip ipProto ipTotalLength Buffer s_len] in T. fold q in T.
    assert (CL : transport_class (ip4_proto (rd h s)) tot 20 s (Z.of_nat n) =
      (if ip4_proto (rd h s) =? PROTO_TCP then
           if stated_too_small 20 20 tot then Rejects errTCPTooSmall
           else if (Z.of_nat (s_len s) <? 34) || (Z.of_nat (s_cap s) <? 38) || (v && (tot <? 20)) then Crashes else Accepts
         else if ip4_proto (rd h s) =? PROTO_UDP then
           if stated_too_small 20 8 tot then Rejects errUDPTooSmall
           else if Z.of_nat (s_cap s) <? 28 then Crashes else Accepts
         else Accepts)).
    { unfold transport_class, tcp_crashes, stated_too_small.
      assert (SM : forall m, 0 <= m <= 20 -> ((tot - 20) mod 65536 <? m) = ((20 <=? tot) && (tot <? 20 + m))).
      { intros m Hm. destruct (Z.leb_spec 20 tot), (Z.ltb_spec tot (20 + m)), (Z.ltb_spec ((tot - 20) mod 65536) m);
          cbn [andb]; try reflexivity; lia. }
      rewrite !SM by lia. 
      assert (NV : (Z.of_nat n <? 20) = (v && (tot <? 20))).
      { destruct v; cbn [andb].
        - destruct (Hv eq_refl) as [->|[A ->]]; destruct (Z.ltb_spec tot 20); destruct (Z.ltb_spec (Z.of_nat (s_len s)) 20);
            try lia; destruct (Z.ltb_spec (Z.of_nat (Z.to_nat tot)) 20); try lia; reflexivity.
        - rewrite (Hf eq_refl). destruct (Z.ltb_spec (Z.of_nat (s_len s)) 20); [lia|reflexivity]. }
      rewrite NV. destruct (Z.ltb_spec (Z.of_nat (s_len s)) 20); [lia|]. reflexivity. }
    rewrite CL in T. clear CL. destruct (parse_transport h q s) as [[p' [e|]]| |]; cbn [rbind fst snd]; try exact T.
    destruct T as (T1 & T2 & T3). split; [exact T1|]. destruct T2.
    constructor; auto.
    - unfold shows_ip4, ID, IPProto, IPTotalLen, SourceAddress, DestinationAddress.
      rewrite si_ver0, si_hl0, si_proto0, si_total0, si_id0, si_cs0, si_src0, si_dst0.
      cbn [q with_buffer with_ip with_version version ipHeaderLen ipProto ipTotalLength ipID ipChecksum sourceAddress destinationAddress].
      repeat (split; [reflexivity|]). split; [|auto]. apply itoa_decimal.
      pose proof (be16f_range (rd h s) 4 IB ltac:(lia)) as RI. fold (ip4_id (rd h s)) in RI. lia.
    - exists n. rewrite si_buf0. cbn [q with_buffer Buffer]. split; [reflexivity|]. split; [exact Hn|].
      rewrite rd_prefix by exact Hn. unfold kept. destruct v.
      + destruct (Hv eq_refl) as [->|[A ->]]; [reflexivity|].
        fold tot. rewrite <- A, Nat2Z.id. reflexivity.
      + rewrite (Hf eq_refl), <- LB, firstn_all. reflexivity. }
  destruct v; cbn [andb].
  - destruct (Z.eqb_spec tot (Z.of_nat (s_len s))) as [Q|Q]; cbn [negb].
    + destruct (Z.ltb_spec (Z.of_nat (s_len s)) tot); [lia|].
      pose proof (TR (s_len s) ltac:(lia) ltac:(intros _; right; auto) ltac:(discriminate) eq_refl) as X. cbn zeta in X.
      rewrite slice_eta in X. exact X.
    + destruct (Z.ltb_spec tot (Z.of_nat (s_len s))).
      * destruct (Z.ltb_spec (Z.of_nat (s_len s)) tot); [lia|].
        rewrite resl_to_ok by lia. cbn [rbind].
        exact (TR (Z.to_nat tot) ltac:(lia) ltac:(auto) ltac:(discriminate) eq_refl).
      * destruct (Z.ltb_spec (Z.of_nat (s_len s)) tot); [|lia]. reflexivity.
  - pose proof (TR (s_len s) ltac:(lia) ltac:(discriminate) ltac:(auto) eq_refl) as X. cbn zeta in X.
    rewrite slice_eta in X. exact X.
Qed.

(** what an accepted IPv6 packet is *)
Record accepted6 (h : heap) (ctx : Z) (s : slice) (v : bool) (p : packet) : Prop := {
  a6_ctx : context p = ctx;
  a6_ip : (40 <= s_len s)%nat -> shows_ip6 p (rd h s);
  a6_l4 : shows_l4_full h s 40 p;
  a6_len : (7 <= s_len s)%nat;
  a6_ver : version p = V6;
  a6_hl : ipHeaderLen p = 40;
  a6_proto : ipProto p = ip6_next (rd h s);
  a6_cs : ipChecksum p = 0;
  a6_buf : exists n, Buffer p = mkSl (s_arr s) (s_off s) n (s_cap s) /\ (n <= s_len s)%nat /\
           rd h (Buffer p) = kept v ((40 + ip6_payload (rd h s)) mod 65536) (rd h s);
  a6_opt : tcpOptions p = snil;
  a6_data : tcpData p = snil;
  a6_udata : udpData p = snil }.

Lemma New_v6 h ctx s v : vslice h s -> is_bytes (rd h s) -> (1 <= s_len s)%nat -> Z.of_nat (s_len s) < 65536 ->
  ip4_version (rd h s) <> 4 ->
  match New h ctx s v with
  | Ok (Some p, None) => classify6 (rd h s) (Z.of_nat (s_cap s)) v = Accepts /\ accepted6 h ctx s v p
  | Ok (Some _, Some e) => classify6 (rd h s) (Z.of_nat (s_cap s)) v = Rejects e
  | Ok (None, _) => False
  | Panic => classify6 (rd h s) (Z.of_nat (s_cap s)) v = Crashes
  | NoFuel => False
  end.
Proof.
  intros V IB L1 L2 VER. pose proof V as (V1 & V2 & V3). pose proof (vslice_len h s V) as LB.
  unfold New, ipv4HdrLenPos. destruct (Z.ltb_spec (Z.of_nat (s_len s)) 0); [lia|].
  unfold classify6, zlen. rewrite LB.
  destruct (sidx_any h s 0 V ltac:(lia)) as [[_ E0]|[X _]]; [|lia]. rewrite E0. cbn [rbind]. change (Z.to_nat 0) with 0%nat in *.
  pose proof (nth_byte (rd h s) 0 IB) as R0.
  rewrite (land240 _ R0). unfold ip4_version, byte_at in VER.
  destruct (Z.eqb_spec (nth 0 (rd h s) 0 / 16 * 16) 64) as [X64|X64]; [lia|].
  unfold parseIPv6Packet, ipv6ProtoPos.
  destruct (sidx_any h s 6 V ltac:(lia)) as [[C6 E1]|[C6 E1]]; rewrite E1; cbn [rbind].
  2:{ destruct (Z.ltb_spec (Z.of_nat (s_len s)) 7); [reflexivity|lia]. }
  destruct (Z.ltb_spec (Z.of_nat (s_len s)) 7); [lia|]. cbn [orb].
  unfold ipv6PayloadLenPos. rewrite be16_in by (auto; lia). cbn [rbind].
  change (Z.to_nat 4) with 4%nat. fold (ip6_payload (rd h s)).
  unfold ipv6HeaderLen, u16. rewrite (Z.mod_small (Z.of_nat (s_len s))) by lia.
  pose proof (be16f_range (rd h s) 4 IB ltac:(lia)) as RP. fold (ip6_payload (rd h s)) in RP.
  set (pl := ip6_payload (rd h s)) in *. set (tot := (40 + pl) mod 65536).
  change (Z.to_nat 6) with 6%nat. change (nth 6 (rd h s) 0) with (ip6_next (rd h s)).
  unfold ipv6SourceAddrPos, ipv6DestAddrPos.
  destruct (copy_any h s 8 (8 + 16) ltac:(lia)) as [(sa & C1 & ES)|[C1 ES]].
  2:{ rewrite ES. cbn [rbind]. destruct (Z.ltb_spec (Z.of_nat (s_cap s)) 40); [reflexivity|lia]. }
  rewrite ES. cbn [rbind].
  destruct (copy_any h s 24 (24 + 16) ltac:(lia)) as [(da & C2 & ED)|[C2 ED]].
  2:{ rewrite ED. cbn [rbind]. destruct (Z.ltb_spec (Z.of_nat (s_cap s)) 40); [reflexivity|lia]. }
  rewrite ED. cbn [rbind].
  destruct (Z.ltb_spec (Z.of_nat (s_cap s)) 40); [lia|].
  assert (AD : (40 <= s_len s)%nat -> sa = ip6_src (rd h s) /\ da = ip6_dst (rd h s)).
  { intros G. rewrite copy_in in ES, ED by (auto; lia). apply Ok_inj in ES, ED. subst. split; reflexivity. }
  clear ES ED.
  set (NT := (Z.of_nat (s_len s) <? 54) || (Z.of_nat (s_cap s) <? 58) || (v && (tot <? 40))).
  set (RES := if ip6_next (rd h s) =? PROTO_TCP
       then if pl <? 20 then Rejects errTCPTooSmall else if NT then Crashes else Accepts
       else if ip6_next (rd h s) =? PROTO_UDP
        then if pl <? 8 then Rejects errUDPTooSmall
             else if (Z.of_nat (s_len s) <? 40) || (Z.of_nat (s_cap s) <? 48) then Crashes else Accepts
        else Accepts).
  set (q0 := with_ip (with_version (zero_packet ctx) V6) (version (with_version (zero_packet ctx) V6)) 40
               (ip6_next (rd h s)) tot (ipID (with_version (zero_packet ctx) V6)) (ipChecksum (with_version (zero_packet ctx) V6)) sa da).
  assert (NV : forall n, (n <= s_len s)%nat -> (v = true -> n = Z.to_nat tot) -> (v = false -> n = s_len s) ->
     tcp_crashes s 40 (Z.of_nat n) = NT).
  { intros n Hn Hv Hf. unfold tcp_crashes, NT. change (40 + 14) with 54. change (40 + 18) with 58.
    destruct v.
    - cbn [andb]. rewrite (Hv eq_refl), Z2Nat.id by lia. reflexivity.
    - cbn [andb]. rewrite (Hf eq_refl).
      destruct (Z.ltb_spec (Z.of_nat (s_len s)) 40), (Z.ltb_spec (Z.of_nat (s_len s)) 54); try lia; cbn [orb]; try reflexivity. }
  assert (TR : forall n q, (n <= s_len s)%nat -> (v = true -> n = Z.to_nat tot) -> (v = false -> n = s_len s) ->
    context q = ctx -> Buffer q = mkSl (s_arr s) (s_off s) n (s_cap s) -> ipHeaderLen q = 40 -> ipProto q = ip6_next (rd h s) ->
    ipTotalLength q = tot -> version q = V6 -> sourceAddress q = sa -> destinationAddress q = da -> ipChecksum q = 0 ->
    tcpOptions q = snil -> tcpData q = snil -> udpData q = snil ->
    match (let* x := parse_transport h q s in Ok (Some (fst x), snd x)) with
    | Ok (Some p, None) => RES = Accepts /\ accepted6 h ctx s v p
    | Ok (Some _, Some e) => RES = Rejects e
    | Ok (None, _) => False
    | Panic => RES = Crashes
    | NoFuel => False
    end).
  { intros n q Hn Hv Hf Q1 Q2 Q3 Q4 Q5 Q6 Q7 Q8 Q8' Q9 Q10 Q11.
    pose proof (transport_any h q s 40 V IB Q3 ltac:(lia) ltac:(rewrite Q2; cbn; lia) Q9 Q10 Q11) as T.
    rewrite Q4, Q5, Q2 in T. cbn [s_len] in T.
    assert (CL : transport_class (ip6_next (rd h s)) tot 40 s (Z.of_nat n) = RES).
    { unfold transport_class, RES. rewrite (NV n Hn Hv Hf).
      replace ((tot - 40) mod 65536) with pl by (unfold tot; lia). reflexivity. }
    rewrite CL in T. clear CL. destruct (parse_transport h q s) as [[p' [e|]]| |]; cbn [rbind fst snd]; try exact T.
    destruct T as (T1 & T2 & T3). split; [exact T1|]. destruct T2.
    constructor; auto; try congruence.
    - intros G. destruct (AD G) as [A1 A2].
      unfold shows_ip6, IPProto, IPTotalLen, SourceAddress, DestinationAddress.
      rewrite si_ver0, si_hl0, si_proto0, si_total0, si_src0, si_dst0, Q3, Q4, Q5, Q6, Q7, Q8.
      repeat split; auto.
    - lia.
    - exists n. rewrite si_buf0, Q2. split; [reflexivity|]. split; [exact Hn|].
      rewrite rd_prefix by exact Hn. unfold kept. destruct v.
      + now rewrite (Hv eq_refl).
      + rewrite (Hf eq_refl), <- LB, firstn_all. reflexivity. }
  assert (RT : 0 <= tot < 65536) by (unfold tot; lia).
  destruct v; cbn [andb].
  - destruct (Z.eqb_spec tot (Z.of_nat (s_len s))) as [Q|Q]; cbn [negb].
    + destruct (Z.ltb_spec (Z.of_nat (s_len s)) tot); [lia|]. destruct (Z.ltb_spec tot (Z.of_nat (s_len s))); [lia|]. cbn [andb].
      apply (TR (s_len s)); auto; try lia. cbn [with_buffer Buffer]. now rewrite slice_eta.
    + destruct (Z.ltb_spec tot (Z.of_nat (s_len s))).
      * destruct (Z.ltb_spec (Z.of_nat (s_len s)) tot); [lia|]. cbn [andb].
        rewrite resl_to_ok by lia. cbn [rbind]. fold q0.
        set (q1 := with_buffer (with_buffer q0 s) _).
        pose proof (parseTCP_any h q1 s 40 V eq_refl ltac:(lia) ltac:(cbn; lia)) as X.
        cbn [q1 with_buffer Buffer s_len] in X. rewrite (NV (Z.to_nat tot) ltac:(lia) ltac:(auto) ltac:(discriminate)) in X.
        fold q1 in X. 
        change ((Z.of_nat (s_len s) <? 54) || (Z.of_nat (s_cap s) <? 58) || (tot <? 40)) with NT.
        destruct (parseTCP h q1 s) as [p1| |]; cbn [rbind]; [|rewrite X; reflexivity|contradiction].
        destruct X as (X1 & sp & dp & sq & ak & off & fl & cs & tl & -> & X2). rewrite X1.
        fold RES. apply (TR (Z.to_nat tot)); auto; try lia; try discriminate.
      * destruct (Z.ltb_spec (Z.of_nat (s_len s)) tot); [|lia]. reflexivity.
  - apply (TR (s_len s)); auto; try discriminate. cbn [with_buffer Buffer]. now rewrite slice_eta.
Qed.

Lemma ipv4_parsing_shows_the_wire : forall h ctx s v p,
  (valid h s /\ is_bytes (rd h s) /\ (0 < s_len s)%nat /\ Z.of_nat (s_len s) < 65536) ->
  ip4_version (rd h s) = 4 -> New h ctx s v = Ok (Some p, None) ->
  context p = ctx /\
  shows_ip4 p (rd h s) /\
  (l4_inside (ip4_proto (rd h s)) 20 (rd h s) -> shows_l4 p (rd h s) 20) /\
  s_arr (Buffer p) = s_arr s /\ s_off (Buffer p) = s_off s /\
  rd h (Buffer p) = kept v (ip4_total (rd h s)) (rd h s).
Proof.
  intros h ctx s v p (VA & IB & L1 & L2) VER E. pose proof (valid_vslice h s VA L1) as V.
  pose proof (New_v4 h ctx s v V IB L1 L2 VER) as X. rewrite E in X. destruct X as [_ [A1 A2 A3 A4 (n & A5 & A6 & A7) _ _ _]].
  split; [exact A1|]. split; [exact A2|]. split.
  - intros [I1 I2]. pose proof (vslice_len h s V) as LB. destruct A2 as (_ & _ & P & _). unfold IPProto in P.
    destruct A3. change (Z.to_nat 20) with 20%nat in *. split; unfold IPProto; intros Q.
    + apply sl_tcp0; auto. specialize (I1 ltac:(congruence)). lia.
    + apply sl_udp0; auto. specialize (I2 ltac:(congruence)). lia.
  - rewrite A5 at 1 2. cbn [s_arr s_off]. auto.
Qed.
Lemma ipv4_outcome : forall h ctx s v,
  (valid h s /\ is_bytes (rd h s) /\ (0 < s_len s)%nat /\ Z.of_nat (s_len s) < 65536) ->
  ip4_version (rd h s) = 4 ->
  outcome (New h ctx s v) = classify4 (rd h s) (Z.of_nat (s_cap s)) v.
Proof.
  intros h ctx s v (VA & IB & L1 & L2) VER. pose proof (valid_vslice h s VA L1) as V.
  pose proof (New_v4 h ctx s v V IB L1 L2 VER) as X. unfold outcome.
  destruct (New h ctx s v) as [[[p|] [e|]]| |]; try contradiction; try (symmetry; exact X).
  symmetry. apply X.
Qed.
Lemma ipv4_no_crash : forall h ctx s v,
  (valid h s /\ is_bytes (rd h s) /\ (0 < s_len s)%nat /\ Z.of_nat (s_len s) < 65536) ->
  ip4_version (rd h s) = 4 -> (38 <= s_len s)%nat -> (v = true -> 20 <= ip4_total (rd h s)) ->
  New h ctx s v <> Panic.
Proof.
  intros h ctx s v G VER L T P. pose proof (ipv4_outcome h ctx s v G VER) as X. rewrite P in X. cbn in X.
  destruct G as (VA & IB & L1 & L2). pose proof (valid_len h s VA) as LB. destruct VA as [LC _].
  unfold classify4, zlen in X. rewrite LB in X.
  destruct (Z.ltb_spec (Z.of_nat (s_len s)) 20); [lia|]. destruct (Z.ltb_spec (Z.of_nat (s_len s)) 34); [lia|].
  destruct (Z.ltb_spec (Z.of_nat (s_cap s)) 38); [lia|]. destruct (Z.ltb_spec (Z.of_nat (s_cap s)) 28); [lia|].
  assert (Y : v && (ip4_total (rd h s) <? 20) = false).
  { destruct v; [|reflexivity]. specialize (T eq_refl). destruct (Z.ltb_spec (ip4_total (rd h s)) 20); [lia|reflexivity]. }
  rewrite Y in X. cbn [orb] in X.
  repeat match type of X with context [if ?c then _ else _] => destruct c end; discriminate.
Qed.
Lemma ipv6_parsing_shows_the_wire : forall h ctx s v p,
  (valid h s /\ is_bytes (rd h s) /\ (0 < s_len s)%nat /\ Z.of_nat (s_len s) < 65536) ->
  ip4_version (rd h s) <> 4 -> New h ctx s v = Ok (Some p, None) ->
  context p = ctx /\
  ((40 <= s_len s)%nat -> shows_ip6 p (rd h s)) /\
  (l4_inside (ip6_next (rd h s)) 40 (rd h s) -> shows_l4 p (rd h s) 40) /\
  s_arr (Buffer p) = s_arr s /\ s_off (Buffer p) = s_off s /\
  rd h (Buffer p) = kept v ((40 + ip6_payload (rd h s)) mod 65536) (rd h s).
Proof.
  intros h ctx s v p (VA & IB & L1 & L2) VER E. pose proof (valid_vslice h s VA L1) as V.
  pose proof (New_v6 h ctx s v V IB L1 L2 VER) as X. rewrite E in X. destruct X as [_ [A1 A2 A3 A4 A4' A4'' A4''' A4'''' (n & A5 & A6 & A7) _ _ _]].
  split; [exact A1|]. split; [exact A2|]. split.
  - intros [I1 I2]. pose proof (vslice_len h s V) as LB. 
    destruct A3. change (Z.to_nat 40) with 40%nat in *. split; unfold IPProto; intros Q.
    + apply sl_tcp0; auto. specialize (I1 ltac:(congruence)). lia.
    + apply sl_udp0; auto. specialize (I2 ltac:(congruence)). lia.
  - rewrite A5 at 1 2. cbn [s_arr s_off]. auto.
Qed.
Lemma ipv6_outcome : forall h ctx s v,
  (valid h s /\ is_bytes (rd h s) /\ (0 < s_len s)%nat /\ Z.of_nat (s_len s) < 65536) ->
  ip4_version (rd h s) <> 4 ->
  outcome (New h ctx s v) = classify6 (rd h s) (Z.of_nat (s_cap s)) v.
Proof.
  intros h ctx s v (VA & IB & L1 & L2) VER. pose proof (valid_vslice h s VA L1) as V.
  pose proof (New_v6 h ctx s v V IB L1 L2 VER) as X. unfold outcome.
  destruct (New h ctx s v) as [[[p|] [e|]]| |]; try contradiction; try (symmetry; exact X).
  symmetry. apply X.
Qed.
Lemma empty_input_crashes h ctx s v : s_len s = 0%nat -> New h ctx s v = Panic.
Proof.
  intros E. unfold New, ipv4HdrLenPos. rewrite E. change (Z.of_nat 0) with 0. cbn [Z.ltb Z.compare].
  unfold sidx. assert (R : rd h s = []) by (unfold rd; rewrite E; reflexivity). rewrite R. reflexivity.
Qed.

Lemma csum_pieces_fold ps : forall S, csum_pieces S ps = fold_left partialChecksum ps S.
Proof. induction ps as [|p ps IH]; intros S; [reflexivity|]. cbn [csum_pieces fold_left]. apply IH. Qed.
Lemma piecewise_checksum : forall pieces last,
  Forall is_bytes pieces -> is_bytes last -> Forall (fun p => Nat.even (length p) = true) pieces ->
  zlen (concat pieces ++ last) <= 131070 ->
  finalizeChecksum (partialChecksum (fold_left partialChecksum pieces 0) last) =
  Ok (internet_checksum (concat pieces ++ last)).
Proof.
  intros ps l F1 F2 F3 L. rewrite <- csum_pieces_fold.
  assert (IB : is_bytes (concat ps ++ l)).
  { apply Forall_app. split; [|exact F2]. clear - F1. induction F1; cbn [concat]; [constructor|]. apply Forall_app; auto. }
  pose proof (raw_sum_bound _ IB) as B.
  rewrite csum_pieces_spec by (auto; lia). rewrite Z.add_0_l. apply finalize_spec; [exact IB|lia].
Qed.
Lemma folding_terminates : forall sum, 0 <= sum < 4294967296 ->
  exists r, csumConvert32To16bit sum = Ok r /\ 0 <= r < 65536 /\ r mod 65535 = sum mod 65535.
Proof. intros s H. destruct (fold16_spec s H) as (r & E & A & B & _). exists r. split; [exact E|]. split; [lia|exact B]. Qed.
Lemma reads_only_the_packet : forall h1 h2 ctx1 ctx2 s1 s2 v p1 p2,
  (valid h1 s1 /\ is_bytes (rd h1 s1) /\ (0 < s_len s1)%nat /\ Z.of_nat (s_len s1) < 65536) ->
  (valid h2 s2 /\ is_bytes (rd h2 s2) /\ (0 < s_len s2)%nat /\ Z.of_nat (s_len s2) < 65536) ->
  rd h1 s1 = rd h2 s2 -> ip4_version (rd h1 s1) = 4 ->
  l4_inside (ip4_proto (rd h1 s1)) 20 (rd h1 s1) ->
  New h1 ctx1 s1 v = Ok (Some p1, None) -> New h2 ctx2 s2 v = Ok (Some p2, None) ->
  SourceAddress p1 = SourceAddress p2 /\ DestinationAddress p1 = DestinationAddress p2 /\
  IPProto p1 = IPProto p2 /\
  (IPProto p1 = PROTO_TCP \/ IPProto p1 = PROTO_UDP -> SourcePort p1 = SourcePort p2 /\ DestPort p1 = DestPort p2) /\
  rd h1 (Buffer p1) = rd h2 (Buffer p2).
Proof.
  intros h1 h2 c1 c2 s1 s2 v p1 p2 G1 G2 E V I N1 N2.
  destruct (ipv4_parsing_shows_the_wire h1 c1 s1 v p1 G1 V N1) as (_ & (A1 & A2 & A3 & A4 & A5 & A6 & A7 & A8) & A9 & _ & _ & A10).
  pose proof V as V'. pose proof I as I'. rewrite E in V', I'.
  destruct (ipv4_parsing_shows_the_wire h2 c2 s2 v p2 G2 V' N2) as (_ & (B1 & B2 & B3 & B4 & B5 & B6 & B7 & B8) & B9 & _ & _ & B10).
  rewrite E in *. split; [congruence|]. split; [congruence|]. split; [congruence|]. split; [|congruence].
  destruct (A9 I) as [X1 X2]. destruct (B9 I) as [Y1 Y2]. intros [P|P].
  - destruct (X1 P) as (-> & -> & _). destruct (Y1 ltac:(congruence)) as (-> & -> & _). auto.
  - destruct (X2 P) as (-> & ->). destruct (Y2 ltac:(congruence)) as (-> & ->). auto.
Qed.
