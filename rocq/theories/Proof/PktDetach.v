(** Detaching TCP options and data, and attaching them. *)
From Verif Require Export Proof.PktCsum.

(** the bytes of the headers after cutting [ol] bytes of options *)
Definition cut_at (p : packet) (ol : Z) : nat := (payload_at p - Z.to_nat ol)%nat.

Definition detached_data (p : packet) : slice :=
  if payload_len p =? 0 then tcpData p
  else win (Buffer p) (payload_at p) (s_len (Buffer p) - payload_at p) (s_cap (Buffer p) - payload_at p).
Definition detached_opts (p : packet) (ol : Z) : slice :=
  if ol =? 0 then tcpOptions p
  else win (Buffer p) (cut_at p ol) (Z.to_nat ol) (s_cap (Buffer p) - cut_at p ol).
Definition detached_packet (p : packet) (ol tl cs : Z) : packet :=
  with_total_csum (with_offset (with_buffer (with_optdata p (detached_opts p ol) (detached_data p))
    (win (Buffer p) 0 (cut_at p ol) (s_cap (Buffer p)))) (tcpDataOffset p - ol / 4)) tl cs.
Definition detached_bytes (p : packet) (b : bytes) (ol tl cs : Z) : bytes :=
  fixip (version p) (splice b (hl p + 12) [(tcpDataOffset p - ol / 4) * 16]) tl cs.

Lemma shl4 x : 0 <= x < 16 -> u8 (Z.shiftl x 4) = x * 16.
Proof. intros H. rewrite Z.shiftl_mul_pow2 by lia. change (2 ^ 4) with 16. unfold u8. rewrite Z.mod_small; lia. Qed.

Lemma detach_run h p ol cs : tcp_agrees h p -> 0 <= ol -> ol mod 4 = 0 -> 20 + ol <= 4 * tcpDataOffset p ->
  (payload_at p <= s_len (Buffer p))%nat ->
  incCsum16 (ipChecksum p) (IPTotalLen p) ((IPTotalLen p - (payload_len p + ol)) mod 65536) = Ok cs ->
  TCPDataDetach h p ol =
  Ok (detached_packet p ol ((IPTotalLen p - (payload_len p + ol)) mod 65536) cs,
      set_rd h (Buffer p) (detached_bytes p (rd h (Buffer p)) ol ((IPTotalLen p - (payload_len p + ol)) mod 65536) cs)).
Proof.
  intros T O1 O2 O3 PA E. pose proof T as (A & P & L & S). facts A. rewrite LB in L.
  destruct (tcp_agrees_facts h p T) as (_ & _ & R3 & _). destruct A as (_ & _ & AL & _).
  unfold IPTotalLen in *. set (dl := payload_len p) in *.
  assert (PO : Z.of_nat (payload_at p) = Z.of_nat (hl p) + 4 * tcpDataOffset p) by (unfold payload_at; lia).
  assert (DL : dl = Z.of_nat (s_len (Buffer p)) - (Z.of_nat (hl p) + 4 * tcpDataOffset p)) by (unfold dl, payload_len; lia).
  assert (HLL : (hl p <= 40)%nat) by (unfold hl; destruct (version p); lia).
  assert (SB : TCPDataStartBytes p = 4 * tcpDataOffset p) by (unfold TCPDataStartBytes, u16; lia).
  unfold TCPDataDetach. rewrite HL1.
  assert (RW : resl_from (Buffer p) (Z.of_nat (hl p)) = Ok (win (Buffer p) (hl p) (s_len (Buffer p) - hl p) (s_cap (Buffer p) - hl p))).
  { rewrite <- (win_all (Buffer p)) at 1. rewrite resl_from_win by lia. rewrite Nat2Z.id. reflexivity. }
  rewrite RW. cbn [rbind]. cbn [win s_len]. rewrite SB.
  replace (u16 (u16 (Z.of_nat (s_len (Buffer p) - hl p)) - 4 * tcpDataOffset p)) with dl by (unfold u16; lia).
  unfold tcpDataDetach. rewrite HL1, RW. cbn [rbind]. rewrite SB.
  assert (D : (if dl =? 0 then Ok (tcpData p)
               else resl_from (win (Buffer p) (hl p) (s_len (Buffer p) - hl p) (s_cap (Buffer p) - hl p)) (4 * tcpDataOffset p)) =
              Ok (detached_data p)).
  { unfold detached_data. fold dl. destruct (dl =? 0) eqn:Q; [reflexivity|]. rewrite resl_from_win by lia.
    unfold payload_at. f_equal. f_equal; lia. }
  rewrite D. cbn [rbind].
  assert (OP : (if ol =? 0 then Ok (tcpOptions p)
               else reslice (win (Buffer p) (hl p) (s_len (Buffer p) - hl p) (s_cap (Buffer p) - hl p))
                      (u16 (4 * tcpDataOffset p - ol)) (4 * tcpDataOffset p)) = Ok (detached_opts p ol)).
  { unfold detached_opts. destruct (ol =? 0) eqn:Q; [reflexivity|].
    replace (u16 (4 * tcpDataOffset p - ol)) with (4 * tcpDataOffset p - ol) by (unfold u16; lia).
    rewrite reslice_win by lia. f_equal. unfold cut_at, payload_at. f_equal; lia. }
  rewrite OP. cbn [rbind].
  assert (CU : Z.of_nat (cut_at p ol) = Z.of_nat (hl p) + 4 * tcpDataOffset p - ol) by (unfold cut_at; lia).
  replace (u16 (u16 (u16 (Z.of_nat (hl p)) + 4 * tcpDataOffset p) - ol)) with (Z.of_nat (cut_at p ol)) by (unfold u16; lia).
  rewrite (resl_to_ok (Buffer p)) by lia. rewrite Nat2Z.id. cbn [rbind].
  set (nb := mkSl (s_arr (Buffer p)) (s_off (Buffer p)) (cut_at p ol) (s_cap (Buffer p))).
  assert (NB : nb = win (Buffer p) 0 (cut_at p ol) (s_cap (Buffer p))) by (unfold nb, win; now rewrite Nat.add_0_r).
  set (p1 := with_buffer (with_optdata p (detached_opts p ol) (detached_data p)) nb).
  unfold FixuptcpHdrOnTCPDataDetach.
  change (ipHeaderLen p1) with (ipHeaderLen p). change (Buffer p1) with nb. rewrite HL1, NB.
  rewrite resl_from_win by lia. cbn [rbind Nat.add]. rewrite Nat2Z.id.
  change (tcpDataOffset p1) with (tcpDataOffset p).
  replace (u8 (tcpDataOffset p - u8 (ol / 4))) with (tcpDataOffset p - ol / 4) by (unfold u8; lia).
  rewrite shl4 by lia. unfold tcpDataOffsetPos.
  rewrite <- (set_rd_same h (Buffer p) VS) at 1.
  rewrite wr_win by (cbn [zlen length]; unfold zlen; cbn [length]; auto; lia). cbn [rbind].
  change (Z.to_nat 12) with 12%nat.
  set (p2 := with_offset p1 (tcpDataOffset p - ol / 4)).
  change (ipTotalLength p2) with (ipTotalLength p).
  replace (u16 (ipTotalLength p - u16 (dl + ol))) with ((ipTotalLength p - (dl + ol)) mod 65536) by (unfold u16; lia).
  set (tl := (ipTotalLength p - (dl + ol)) mod 65536) in *.
  set (b := rd h (Buffer p)) in *.
  assert (LS : length (splice b (hl p + 12) [(tcpDataOffset p - ol / 4) * 16]) = s_len (Buffer p)).
  { rewrite splice_length by (cbn [length]; lia). exact LB. }
  assert (AF : at_front (Buffer p) p2 (cut_at p ol)) by (split; [exact NB|lia]).
  assert (HC : (hl p2 <= cut_at p ol)%nat) by (change (hl p2) with (hl p); lia).
  rewrite (fixup_run h (Buffer p) (splice b (hl p + 12) [(tcpDataOffset p - ol / 4) * 16]) p2 (cut_at p ol)
             (ipTotalLength p) tl cs VS LS AF HC HL1 E).
  change (ipTotalLength p2) with (ipTotalLength p). change (version p2) with (version p).
  replace (u16 (u16 (ipTotalLength p + tl) - ipTotalLength p)) with tl by (unfold tl, u16; lia).
  unfold detached_packet, detached_bytes. rewrite <- NB. reflexivity.
Qed.

(** ** The IPv4 header checksum depends on the header only *)
Lemma hdr_ext b b' n : (20 <= n)%nat -> firstn n b = firstn n b' ->
  ip4_checksum b = ip4_checksum b' /\ ip4_right_checksum b = ip4_right_checksum b' /\ (ip4_valid b <-> ip4_valid b').
Proof.
  intros N E.
  assert (G : forall o m, (o + m <= n)%nat -> field b o m = field b' o m).
  { intros o m Q. rewrite <- (field_firstn b o m n), <- (field_firstn b' o m n) by lia. now rewrite E. }
  assert (F : forall m, (m <= n)%nat -> firstn m b = firstn m b').
  { intros m Q. rewrite <- (Nat.min_l m n) by lia. rewrite <- !firstn_firstn. now rewrite E. }
  unfold ip4_checksum, ip4_right_checksum, ip4_valid, ip4_zeroed, be16f. rewrite (G 10%nat), (G 12%nat), (F 10%nat), (F 20%nat) by lia. tauto.
Qed.
Lemma fixip_firstn v b b' n tl cs : (20 <= n)%nat -> (n <= length b)%nat -> length b' = length b -> firstn n b = firstn n b' ->
  firstn n (fixip v b tl cs) = firstn n (fixip v b' tl cs).
Proof.
  intros N L L' E.
  assert (G : forall x y o (w : bytes), (o + length w <= n)%nat -> (n <= length x)%nat -> length y = length x ->
            firstn n x = firstn n y -> firstn n (splice x o w) = firstn n (splice y o w)).
  { intros x y o w Q LX LY EX. rewrite !firstn_splice by lia. now rewrite EX. }
  destruct v; unfold fixip, fix4, fix6.
  - apply G; rewrite ?splice_length; cbn [length put16]; try lia. apply G; cbn [length put16]; try lia. exact E.
  - apply G; cbn [length put16]; try lia. exact E.
Qed.
Lemma ip_len_behind v k : (20 <= k)%nat -> ~ ip_len_bytes v k.
Proof. unfold ip_len_bytes. destruct v; lia. Qed.
Lemma fixip_nth v b tl cs k : (20 <= length b)%nat -> ~ ip_len_bytes v k ->
  nth k (fixip v b tl cs) 0 = nth k b 0.
Proof.
  intros L K. unfold ip_len_bytes in K. destruct v; unfold fixip, fix4, fix6; rewrite ?nth_splice_disj; rewrite ?splice_length; cbn [length put16]; auto; lia.
Qed.
Lemma is_bytes_fixip v b tl cs : is_bytes b -> is_bytes (fixip v b tl cs).
Proof. intros H. destruct v; unfold fixip, fix4, fix6; repeat apply is_bytes_splice; auto using is_bytes_put16. Qed.
Lemma fixip_be16 v b tl cs o : (20 <= length b)%nat -> (20 <= o)%nat -> (o + 2 <= length b)%nat -> be16f (fixip v b tl cs) o = be16f b o.
Proof. intros L O1 O2. destruct v; unfold fixip, fix4, fix6; fields; reflexivity. Qed.
Lemma fixip_be32 v b tl cs o : (20 <= length b)%nat -> (20 <= o)%nat -> (o + 4 <= length b)%nat -> be32f (fixip v b tl cs) o = be32f b o.
Proof. intros L O1 O2. destruct v; unfold fixip, fix4, fix6; fields; reflexivity. Qed.
Lemma fixip_field v b tl cs o n : (20 <= length b)%nat -> (20 <= o)%nat -> (o + n <= length b)%nat -> field (fixip v b tl cs) o n = field b o n.
Proof. intros L O1 O2. destruct v; unfold fixip, fix4, fix6; fields; reflexivity. Qed.
Lemma skipn_splice_before n B o (v : bytes) : (o + length v <= n)%nat -> (o + length v <= length B)%nat -> skipn n (splice B o v) = skipn n B.
Proof.
  intros H L. apply nth_ext_len with 0.
  - rewrite !skipn_length, splice_length; lia.
  - intros j J. rewrite !nth_skipn'. apply nth_splice_disj; lia.
Qed.
Lemma fixip_skipn v b tl cs o : (20 <= length b)%nat -> (20 <= o)%nat -> skipn o (fixip v b tl cs) = skipn o b.
Proof.
  intros L O. destruct v; unfold fixip, fix4, fix6; rewrite ?skipn_splice_before; rewrite ?splice_length; cbn [length put16]; auto; lia.
Qed.

(** ** Detaching *)
Lemma detach_spec : forall h p ol, tcp_agrees h p -> 0 <= ol -> ol mod 4 = 0 -> 20 + ol <= 4 * tcpDataOffset p ->
  (payload_at p <= s_len (Buffer p))%nat ->
  let tl := (IPTotalLen p - (payload_len p + ol)) mod 65536 in
  exists cs p' h', incCsum16 (ipChecksum p) (IPTotalLen p) tl = Ok cs /\ 0 <= cs < 65536 /\
    TCPDataDetach h p ol = Ok (p', h') /\ p' = detached_packet p ol tl cs /\
    h' = set_rd h (Buffer p) (detached_bytes p (rd h (Buffer p)) ol tl cs) /\
    tcp_agrees h' p' /\
    (version p = V4 -> ip4_valid (rd h (Buffer p)) -> ip4_valid (rd h' (Buffer p'))) /\
    (version p = V4 -> ip4_checksum (rd h (Buffer p)) = ip4_right_checksum (rd h (Buffer p)) ->
       ip4_checksum (rd h' (Buffer p')) = ip4_right_checksum (rd h' (Buffer p'))) /\
    only_bytes h h' (Buffer p) (fun k => ip_len_bytes (version p) k \/ k = hl p + 12)%nat.
Proof.
  intros h p ol T O1 O2 O3 PA tl. pose proof T as (A & P & L & S). facts A. rewrite LB in L.
  destruct (tcp_agrees_facts h p T) as (_ & _ & R3 & _). unfold IPTotalLen in *.
  destruct (incCsum_spec (ipChecksum p) (ipTotalLength p) tl RCS RTL ltac:(unfold tl; lia)) as (f & E & F).
  set (cs := 65535 - f) in *. assert (RC : 0 <= cs < 65536) by (destruct F; unfold cs; lia).
  exists cs, (detached_packet p ol tl cs), (set_rd h (Buffer p) (detached_bytes p (rd h (Buffer p)) ol tl cs)).
  split; [exact E|]. split; [exact RC|]. split; [apply detach_run; auto|]. split; [reflexivity|]. split; [reflexivity|].
  set (b := rd h (Buffer p)) in *. set (c := splice b (hl p + 12) [(tcpDataOffset p - ol / 4) * 16]).
  assert (IBb : is_bytes b) by apply A.
  assert (IBc : is_bytes c).
  { apply is_bytes_splice; [exact IBb|]. constructor; [unfold is_byte; lia|constructor]. }
  assert (LC : length c = s_len (Buffer p)) by (unfold c; rewrite splice_length; cbn [length]; lia).
  set (B' := detached_bytes p b ol tl cs). assert (EB : B' = fixip (version p) c tl cs) by reflexivity.
  assert (LB' : length B' = s_len (Buffer p)) by (rewrite EB, fixip_length; lia).
  assert (PO : Z.of_nat (payload_at p) = Z.of_nat (hl p) + 4 * tcpDataOffset p) by (unfold payload_at; lia).
  assert (CU : Z.of_nat (cut_at p ol) = Z.of_nat (hl p) + 4 * tcpDataOffset p - ol) by (unfold cut_at; lia).
  assert (FC : firstn (hl p) c = firstn (hl p) b) by (unfold c; apply firstn_splice_behind; cbn [length]; lia).
  assert (FB : firstn (hl p) B' = firstn (hl p) (fixip (version p) b tl cs)).
  { rewrite EB. apply fixip_firstn; auto; lia. }
  assert (RB : rd (set_rd h (Buffer p) B') (Buffer (detached_packet p ol tl cs)) = firstn (cut_at p ol) B').
  { change (Buffer (detached_packet p ol tl cs)) with (win (Buffer p) 0 (cut_at p ol) (s_cap (Buffer p))).
    rewrite rd_win by (auto; lia). reflexivity. }
  assert (A' : ip_agrees (set_rd h (Buffer p) B') (detached_packet p ol tl cs)).
  { apply (agrees_fixed h p (detached_packet p ol tl cs) (cut_at p ol) tl cs B'); auto.
    - lia.
    - unfold tl; lia.
    - rewrite EB. apply is_bytes_fixip, IBc. }
  split.
  { split; [exact A'|]. split; [exact P|]. rewrite RB. change (hl (detached_packet p ol tl cs)) with (hl p).
    rewrite firstn_length. split; [lia|]. destruct S as (S1 & S2 & S3 & S4 & S5 & S6 & S7).
    unfold shows_tcp, l4_sport, l4_dport, tcp_seq, tcp_ack, tcp_offset, tcp_flags, tcp_checksum, byte_at in *.
    rewrite !be16f_firstn, !be32f_firstn, !nth_firstn by lia. rewrite EB.
    rewrite !fixip_be16, !fixip_be32, !fixip_nth by (try apply ip_len_behind; lia). unfold c. fields.
    change (SourcePort (detached_packet p ol tl cs)) with (SourcePort p).
    change (DestPort (detached_packet p ol tl cs)) with (DestPort p).
    change (tcpSeq (detached_packet p ol tl cs)) with (tcpSeq p).
    change (tcpAck (detached_packet p ol tl cs)) with (tcpAck p).
    change (tcpDataOffset (detached_packet p ol tl cs)) with (tcpDataOffset p - ol / 4).
    change (GetTCPFlags (detached_packet p ol tl cs)) with (GetTCPFlags p).
    change (tcpChecksum (detached_packet p ol tl cs)) with (tcpChecksum p).
    rewrite Z.div_mul by lia. auto 10. }
  assert (HX : version p = V4 -> firstn 20 (firstn (cut_at p ol) B') = firstn 20 (fix4 b tl cs)).
  { intros V4'. rewrite firstn_firstn, Nat.min_l by lia. revert FB. unfold hl. rewrite V4'. auto. }
  rewrite RB.
  split; [|split].
  - intros V4' W. apply (hdr_ext _ (fix4 b tl cs) 20 ltac:(lia) (HX V4')).
    destruct A as (_ & _ & _ & M). rewrite V4' in M. destruct M as (M1 & M2 & M3 & M4 & M5 & M6 & _).
    assert (M5' : ip4_total b = ipTotalLength p) by (symmetry; exact M5).
    assert (M6' : ip4_checksum b = ipChecksum p) by (symmetry; exact M6).
    apply (inc_valid b tl (ipTotalLength p) tl cs IBb M1 M2 RTL ltac:(unfold tl; lia)); auto; [rewrite M5'; lia|unfold tl; lia|rewrite M6'; exact E].
  - intros V4' W. destruct (hdr_ext _ (fix4 b tl cs) 20 ltac:(lia) (HX V4')) as (X1 & X2 & _). rewrite X1, X2.
    destruct A as (_ & _ & _ & M). rewrite V4' in M. destruct M as (M1 & M2 & M3 & M4 & M5 & M6 & _).
    assert (M5' : ip4_total b = ipTotalLength p) by (symmetry; exact M5).
    assert (M6' : ip4_checksum b = ipChecksum p) by (symmetry; exact M6).
    apply (inc_valid b tl (ipTotalLength p) tl cs IBb M1 M2 RTL ltac:(unfold tl; lia)); auto; [rewrite M5'; lia|unfold tl; lia|rewrite M6'; exact E].
  - apply (only_splices h (Buffer p) b B'); auto.
    + intros k K N. rewrite EB. rewrite fixip_nth by (first [lia|tauto]). unfold c.
      apply nth_splice_disj; cbn [length]; lia.
    + intros k. unfold ip_len_bytes. destruct (version p); lia.
Qed.

(** ** Appending *)
Lemma gappend_rd grow h s v : valid h s ->
  let h' := fst (gappend grow h s v) in let s' := snd (gappend grow h s v) in
  rd h' s' = rd h s ++ v /\ valid h' s' /\ s_len s' = (s_len s + length v)%nat /\
  (forall x, valid h x -> valid h' x) /\ (forall t, valid h t -> append_safe s (length v) t -> rd h' t = rd h t) /\
  (s_arr s' = length h \/ s' = mkSl (s_arr s) (s_off s) (s_len s + length v) (s_cap s)).
Proof.
  intros V. cbv zeta. unfold gappend. destruct (Nat.leb_spec (s_len s + length v) (s_cap s)) as [L|L].
  - destruct v as [|x v'].
    + cbn [fst snd length]. rewrite Nat.add_0_r, app_nil_r. 
      split; [reflexivity|]. split; [exact V|]. split; [reflexivity|]. split; [auto|]. split; [auto|]. right. reflexivity.
    + cbn [fst snd]. set (v := x :: v') in *.
      assert (V2 : (s_arr s < length h)%nat /\ (s_off s + s_cap s <= length (arr h (s_arr s)))%nat).
      { destruct V as [_ [V|V]]; [cbn in L; lia|exact V]. } destruct V2 as [V2 V3].
      assert (Ln : length (splice (arr h (s_arr s)) (s_off s + s_len s) v) = length (arr h (s_arr s)))
        by (apply splice_length; lia).
      assert (K : forall y, valid h y -> valid (upd_arr h (s_arr s) (splice (arr h (s_arr s)) (s_off s + s_len s) v)) y)
        by (intros y Vy; apply valid_upd; auto).
      split; [|split; [|split; [reflexivity|split; [exact K|split; [|right; reflexivity]]]]].
      * unfold rd at 1. cbn [s_arr s_off s_len]. rewrite arr_upd_same by exact V2.
        change (firstn ?n (skipn ?o ?l)) with (firstn n (skipn o l)).
        rewrite firstn_is_app with (n := s_len s) by lia.
        replace (s_len s + length v - s_len s)%nat with (length v) by lia.
        rewrite skipn_skipn. f_equal.
        -- pose proof (sub_splice_disj (arr h (s_arr s)) (s_off s + s_len s) v (s_off s) (s_off s + s_len s)) as D.
           unfold sub in D. replace (s_off s + s_len s - s_off s)%nat with (s_len s) in D by lia. apply D; lia.
        -- pose proof (sub_splice_same (arr h (s_arr s)) (s_off s + s_len s) v) as D.
           unfold sub in D.
           replace (s_off s + s_len s + length v - (s_off s + s_len s))%nat with (length v) in D by lia.
           rewrite (Nat.add_comm (s_len s)). apply D; lia.
      * apply K. split; cbn [s_len s_cap s_arr s_off]; [lia|right; auto].
      * intros t Vt [A|[A|A]]; [discriminate|lia|].
        destruct (Nat.eq_dec (s_len t) 0) as [Z0|Z0]; [unfold rd; now rewrite Z0|].
        destruct (Nat.eq_dec (s_arr s) (s_arr t)) as [Q|Q].
        -- unfold rd. rewrite <- Q, arr_upd_same by exact V2.
           pose proof (sub_splice_disj (arr h (s_arr s)) (s_off s + s_len s) v (s_off t) (s_off t + s_len t)) as D.
           unfold sub in D. replace (s_off t + s_len t - s_off t)%nat with (s_len t) in D by lia. apply D; try lia.
           unfold apart in A. cbn [s_len s_arr s_off] in A. lia.
        -- unfold rd. rewrite arr_upd_other; auto.
  - cbn [alloc fst snd]. set (g := grow _ _). pose proof (valid_len _ _ V) as Lr.
    assert (K : forall x, valid h x -> valid (h ++ [(rd h s ++ v) ++ repeat 0 g]) x)
      by (intros; apply valid_app; assumption).
    assert (A : forall a, (a < length h)%nat -> arr (h ++ [(rd h s ++ v) ++ repeat 0 g]) a = arr h a)
      by (intros a Ha; unfold arr; apply app_nth1, Ha).
    split; [exact (rd_alloc_new h (rd h s ++ v) g)|]. split.
    { split; cbn [s_len s_cap s_arr s_off]; [lia|right]. rewrite app_length. cbn [length].
      split; [lia|]. unfold arr. rewrite app_nth2 by lia. rewrite Nat.sub_diag. cbn [nth].
      rewrite !app_length, repeat_length. lia. }
    split; [cbn [s_len]; rewrite app_length, Lr; reflexivity|]. split; [exact K|]. split; [|left; reflexivity].
    intros t Vt _. destruct Vt as [T1 [T2|[T2 T3]]].
    + assert (s_len t = 0)%nat by lia. unfold rd. now replace (s_len t) with 0%nat.
    + unfold rd. rewrite A by exact T2. reflexivity.
Qed.

(** agreement depends on the heap only through the packet's bytes *)
Lemma ip_agrees_ext h h' p p' : ip_agrees h p -> valid h' (Buffer p') -> Buffer p' = Buffer p -> rd h' (Buffer p) = rd h (Buffer p) ->
  version p' = version p -> ipHeaderLen p' = ipHeaderLen p -> ipProto p' = ipProto p -> ipTotalLength p' = ipTotalLength p ->
  ipChecksum p' = ipChecksum p -> sourceAddress p' = sourceAddress p -> destinationAddress p' = destinationAddress p -> ip_agrees h' p'.
Proof.
  intros A V B R E1 E2 E3 E4 E5 E6 E7. unfold ip_agrees, IPProto, IPTotalLen, SourceAddress, DestinationAddress in *.
  rewrite B in *. rewrite R, E1, E2, E3, E4, E5, E6, E7. destruct A as (A1 & A2). split; [exact V|exact A2].
Qed.
Lemma tcp_agrees_ext h h' p o d : tcp_agrees h p -> valid h' (Buffer p) -> rd h' (Buffer p) = rd h (Buffer p) ->
  tcp_agrees h' (with_optdata p o d).
Proof.
  intros (A & P & L & S) V R. unfold tcp_agrees.
  change (Buffer (with_optdata p o d)) with (Buffer p). change (hl (with_optdata p o d)) with (hl p). rewrite R.
  split; [|split; [exact P|split; [exact L|exact S]]].
  eapply ip_agrees_ext; [exact A|exact V|reflexivity|exact R|reflexivity..].
Qed.

(** ** Attaching *)
Definition attach_bytes (p : packet) (b : bytes) (ol tl cs : Z) : bytes :=
  splice (fixip (version p) b tl cs) (hl p + 12) [(tcpDataOffset p + ol / 4) * 16].
Definition attach_packet (p : packet) (opts data : slice) (ol tl cs : Z) : packet :=
  with_offset (with_total_csum (with_optdata p opts data) tl cs) (tcpDataOffset p + ol / 4).

Lemma fixup_attach_run h p ol tl cs : tcp_agrees h p -> 0 <= ol -> tcpDataOffset p + ol / 4 < 16 ->
  0 <= tl < 65536 -> 0 <= cs < 65536 ->
  incCsum16 (ipChecksum p) (ipTotalLength p) tl = Ok cs ->
  (let* y := FixupIPHdrOnDataModify h p (ipTotalLength p) tl in
   FixuptcpHdrOnTCPDataAttach (snd y) (fst y) ol) =
  Ok (with_offset (with_total_csum p tl cs) (tcpDataOffset p + ol / 4),
      set_rd h (Buffer p) (attach_bytes p (rd h (Buffer p)) ol tl cs)).
Proof.
  intros T O1 O2 RT RC E. pose proof T as (A & P & L & S). facts A. rewrite LB in L.
  destruct (tcp_agrees_facts h p T) as (_ & _ & R3 & _). pose proof A as (_ & IB & AL & _).
  pose proof (fixup_run h (Buffer p) (rd h (Buffer p)) p (s_len (Buffer p)) (ipTotalLength p) tl cs VS LB (at_front_all p) HL2 HL1 E) as X.
  rewrite set_rd_same in X by exact VS. rewrite X. cbn [rbind fst snd]. clear X.
  replace (u16 (u16 (ipTotalLength p + tl) - ipTotalLength p)) with tl by (unfold u16; lia).
  set (b := rd h (Buffer p)) in *. set (c := fixip (version p) b tl cs).
  assert (LC : length c = s_len (Buffer p)) by (unfold c; rewrite fixip_length; lia).
  unfold FixuptcpHdrOnTCPDataAttach. set (p1 := with_total_csum p tl cs).
  change (ipHeaderLen p1) with (ipHeaderLen p). change (Buffer p1) with (Buffer p). rewrite HL1.
  pose proof (resl_from_win (Buffer p) 0 (s_len (Buffer p)) (s_cap (Buffer p)) (Z.of_nat (hl p)) ltac:(lia) ltac:(lia)) as RW.
  rewrite win_all in RW. rewrite RW. cbn [rbind Nat.add]. rewrite Nat2Z.id.
  change (tcpDataOffset p1) with (tcpDataOffset p).
  replace (u8 (tcpDataOffset p + u8 (ol / 4))) with (tcpDataOffset p + ol / 4) by (unfold u8; lia).
  rewrite shl4 by lia. unfold tcpChecksumPos, tcpDataOffsetPos.
  change (tcpChecksum (with_offset p1 (tcpDataOffset p + ol / 4))) with (tcpChecksum p).
  rewrite put16_win by (auto; lia). cbn [rbind]. change (Z.to_nat 16) with 16%nat.
  assert (SAME : splice c (hl p + 16) (put16 BE (tcpChecksum p)) = c).
  { destruct S as (_ & _ & _ & _ & _ & _ & S7). rewrite S7. unfold tcp_checksum.
    rewrite <- (fixip_be16 (version p) b tl cs) by lia. fold c.
    rewrite put16_be16f; [apply splice_field; lia|unfold c; apply is_bytes_fixip, IB|lia]. }
  rewrite SAME. rewrite wr_win by (cbn [length]; unfold zlen; cbn [length]; auto; lia). cbn [rbind].
  reflexivity.
Qed.

Lemma attach_bytes_facts h p ol tl cs : tcp_agrees h p -> 0 <= ol -> tcpDataOffset p + ol / 4 < 16 ->
  0 <= tl < 65536 -> 0 <= cs < 65536 -> incCsum16 (ipChecksum p) (ipTotalLength p) tl = Ok cs ->
  let p' := with_offset (with_total_csum p tl cs) (tcpDataOffset p + ol / 4) in
  let h' := set_rd h (Buffer p) (attach_bytes p (rd h (Buffer p)) ol tl cs) in
  tcp_agrees h' p' /\
  (version p = V4 -> ip4_valid (rd h (Buffer p)) -> ip4_valid (rd h' (Buffer p))) /\
  (version p = V4 -> ip4_checksum (rd h (Buffer p)) = ip4_right_checksum (rd h (Buffer p)) ->
     ip4_checksum (rd h' (Buffer p)) = ip4_right_checksum (rd h' (Buffer p))) /\
  only_bytes h h' (Buffer p) (fun k => ip_len_bytes (version p) k \/ k = hl p + 12)%nat.
Proof.
  intros T O1 O2 RT RC E p' h'. pose proof T as (A & P & L & S). facts A. rewrite LB in L.
  destruct (tcp_agrees_facts h p T) as (_ & _ & R3 & _). pose proof A as (_ & IB & AL & _).
  set (b := rd h (Buffer p)) in *. set (c := fixip (version p) b tl cs). set (B' := attach_bytes p b ol tl cs).
  assert (LC : length c = s_len (Buffer p)) by (unfold c; rewrite fixip_length; lia).
  assert (EB : B' = splice c (hl p + 12) [(tcpDataOffset p + ol / 4) * 16]) by reflexivity.
  assert (LB' : length B' = s_len (Buffer p)) by (rewrite EB, splice_length; cbn [length]; lia).
  assert (FB : firstn (hl p) B' = firstn (hl p) c) by (rewrite EB; apply firstn_splice_behind; cbn [length]; lia).
  assert (IBc : is_bytes c) by (apply is_bytes_fixip, IB).
  assert (RB : rd h' (Buffer p) = B') by (unfold h'; apply rd_set; auto).
  assert (A' : ip_agrees h' p').
  { apply (agrees_fixed h p p' (s_len (Buffer p)) tl cs B'); auto.
    - unfold p'. cbn. symmetry. apply win_all.
    - rewrite EB. apply is_bytes_splice; auto. constructor; [unfold is_byte; lia|constructor]. }
  split.
  { split; [exact A'|]. split; [exact P|]. change (Buffer p') with (Buffer p). change (hl p') with (hl p). rewrite RB, EB.
    rewrite splice_length by (cbn [length]; lia). split; [lia|]. destruct S as (S1 & S2 & S3 & S4 & S5 & S6 & S7).
    unfold shows_tcp, l4_sport, l4_dport, tcp_seq, tcp_ack, tcp_offset, tcp_flags, tcp_checksum, byte_at in *.
    fields. unfold c. rewrite !fixip_be16, !fixip_be32, !fixip_nth by (try apply ip_len_behind; lia).
    change (SourcePort p') with (SourcePort p). change (DestPort p') with (DestPort p).
    change (tcpSeq p') with (tcpSeq p). change (tcpAck p') with (tcpAck p).
    change (tcpDataOffset p') with (tcpDataOffset p + ol / 4).
    change (GetTCPFlags p') with (GetTCPFlags p). change (tcpChecksum p') with (tcpChecksum p).
    rewrite Z.div_mul by lia. auto 10. }
  rewrite RB.
  assert (HX : version p = V4 -> firstn 20 B' = firstn 20 (fix4 b tl cs)).
  { intros V4'. revert FB. unfold c, hl. rewrite V4'. auto. }
  split; [|split].
  - intros V4' W. apply (hdr_ext _ (fix4 b tl cs) 20 ltac:(lia) (HX V4')).
    destruct A as (_ & _ & _ & M). rewrite V4' in M. destruct M as (M1 & M2 & M3 & M4 & M5 & M6 & _).
    assert (M5' : ip4_total b = ipTotalLength p) by (symmetry; exact M5).
    assert (M6' : ip4_checksum b = ipChecksum p) by (symmetry; exact M6).
    apply (inc_valid b tl (ipTotalLength p) tl cs IB M1 M2 RTL RT); auto; [rewrite M5'; lia|rewrite M6'; exact E].
  - intros V4' W. destruct (hdr_ext _ (fix4 b tl cs) 20 ltac:(lia) (HX V4')) as (X1 & X2 & _). rewrite X1, X2.
    destruct A as (_ & _ & _ & M). rewrite V4' in M. destruct M as (M1 & M2 & M3 & M4 & M5 & M6 & _).
    assert (M5' : ip4_total b = ipTotalLength p) by (symmetry; exact M5).
    assert (M6' : ip4_checksum b = ipChecksum p) by (symmetry; exact M6).
    apply (inc_valid b tl (ipTotalLength p) tl cs IB M1 M2 RTL RT); auto; [rewrite M5'; lia|rewrite M6'; exact E].
  - apply (only_splices h (Buffer p) b B'); auto.
    + intros k K N. rewrite EB. rewrite nth_splice_disj by (cbn [length]; lia). unfold c.
      apply fixip_nth; [lia|tauto].
    + intros k. unfold ip_len_bytes. destruct (version p); lia.
Qed.

(** whatever the in-place append does to the data given *)
Lemma attach_general : forall grow h p o d, tcp_agrees h p ->
  valid h (tcpOptions p) -> valid h o -> valid h d -> apart (Buffer p) (tcpOptions p) -> apart (Buffer p) d ->
  append_safe (tcpOptions p) (s_len o) (Buffer p) ->
  (s_len o = 0%nat \/ s_len (Buffer p) = payload_at p) ->
  tcpDataOffset p + Z.of_nat (s_len o) / 4 < 16 ->
  let ol := Z.of_nat (s_len o) in
  let tl := (IPTotalLen p + ol + Z.of_nat (s_len d)) mod 65536 in
  exists cs p' h', incCsum16 (ipChecksum p) (IPTotalLen p) tl = Ok cs /\ 0 <= cs < 65536 /\
    TCPDataAttach grow h p o d = Ok (p', h', None) /\
    p' = attach_packet p (snd (gappend grow h (tcpOptions p) (rd h o))) d ol tl cs /\
    tcp_agrees h' p' /\
    rd h' (Buffer p) = attach_bytes p (rd h (Buffer p)) ol tl cs /\
    rd h' (tcpOptions p') = rd h (tcpOptions p) ++ rd h o /\ rd h' d = rd (fst (gappend grow h (tcpOptions p) (rd h o))) d /\
    valid h' (tcpOptions p') /\ valid h' d /\ apart (Buffer p) (tcpOptions p') /\
    (forall x, valid h x -> valid h' x) /\
    (version p = V4 -> ip4_valid (rd h (Buffer p)) -> ip4_valid (rd h' (Buffer p))) /\
    (version p = V4 -> ip4_checksum (rd h (Buffer p)) = ip4_right_checksum (rd h (Buffer p)) ->
       ip4_checksum (rd h' (Buffer p)) = ip4_right_checksum (rd h' (Buffer p))).
Proof.
  intros grow h p o d T VO Vo Vd AO AD SB LO OFF ol tl. pose proof T as (A & P & L & S). facts A. rewrite LB in L.
  destruct (tcp_agrees_facts h p T) as (_ & _ & R3 & _). pose proof A as (VB & IB & AL & _). unfold IPTotalLen in *.
  destruct (incCsum_spec (ipChecksum p) (ipTotalLength p) tl RCS RTL ltac:(unfold tl; lia)) as (f & E & F).
  set (cs := 65535 - f) in *. assert (RC : 0 <= cs < 65536) by (destruct F; unfold cs; lia).
  assert (HLL : (hl p <= 40)%nat) by (unfold hl; destruct (version p); lia).
  pose proof (valid_len h o Vo) as Lo.
  pose proof (gappend_rd grow h (tcpOptions p) (rd h o) VO) as G. cbv zeta in G. rewrite Lo in G.
  assert (TD : tcpDataAttach grow h p o d =
     Ok (with_optdata p (snd (gappend grow h (tcpOptions p) (rd h o))) d, fst (gappend grow h (tcpOptions p) (rd h o)), None)).
  { unfold tcpDataAttach. rewrite HL1.
    pose proof (resl_from_win (Buffer p) 0 (s_len (Buffer p)) (s_cap (Buffer p)) (Z.of_nat (hl p)) ltac:(lia) ltac:(lia)) as RW.
    rewrite win_all in RW. rewrite RW. cbn [rbind win s_len].
    assert (Q : negb (TCPDataStartBytes p =? u16 (Z.of_nat (s_len (Buffer p) - Z.to_nat (Z.of_nat (hl p))))) && negb (s_len o =? 0)%nat = false).
    { destruct LO as [LO|LO]; [rewrite LO; cbn; apply andb_false_r|].
      replace (TCPDataStartBytes p =? _) with true; [reflexivity|]. symmetry. apply Z.eqb_eq. rewrite LO. unfold payload_at, TCPDataStartBytes, u16. lia. }
    rewrite Q. destruct (gappend grow h (tcpOptions p) (rd h o)) as [h1 o1]. reflexivity. }
  set (h1 := fst (gappend grow h (tcpOptions p) (rd h o))) in *. set (o1 := snd (gappend grow h (tcpOptions p) (rd h o))) in *.
  destruct G as (G1 & G2 & G3 & G4 & G5 & G6).
  assert (RB1 : rd h1 (Buffer p) = rd h (Buffer p)) by (apply G5; auto).
  set (p1 := with_optdata p o1 d) in *.
  assert (T1 : tcp_agrees h1 p1) by (apply (tcp_agrees_ext h); auto).
  pose proof (fixup_attach_run h1 p1 ol tl cs T1 ltac:(lia) OFF ltac:(unfold tl; lia) RC E) as X.
  destruct (attach_bytes_facts h1 p1 ol tl cs T1 ltac:(lia) OFF ltac:(unfold tl; lia) RC E) as (Y1 & Y2 & Y3 & Y4).
  change (Buffer p1) with (Buffer p) in *. rewrite RB1 in *. change (version p1) with (version p) in *.
  change (attach_bytes p1) with (attach_bytes p) in *.
  set (B' := attach_bytes p (rd h (Buffer p)) ol tl cs) in *. set (h2 := set_rd h1 (Buffer p) B') in *.
  assert (VS1' : vslice h1 (Buffer p)) by (apply valid_vslice; [auto|lia]).
  assert (LB' : length B' = s_len (Buffer p)).
  { unfold B', attach_bytes. rewrite splice_length; rewrite fixip_length; cbn [length]; lia. }
  assert (APO : apart (Buffer p) o1).
  { destruct G6 as [G6|G6].
    - right. left. rewrite G6. lia.
    - rewrite G6. unfold apart in *. cbn [s_len s_arr s_off]. unfold append_safe, apart in SB. cbn [s_len s_arr s_off] in SB.
      destruct (Nat.eq_dec (s_arr (Buffer p)) (s_arr (tcpOptions p))) as [Q|Q]; [|right; left; exact Q].
      assert (CAP : (s_len (tcpOptions p) + s_len o <= s_cap (tcpOptions p))%nat).
      { destruct G2 as [G2 _]. rewrite G6 in G2. cbn [s_len s_cap] in G2. lia. }
      destruct (Nat.eq_dec (s_len (tcpOptions p) + s_len o) 0) as [Z0|Z0]; [left; exact Z0|]. right. right.
      destruct (Nat.eq_dec (s_len o) 0) as [Zo|Zo]; [lia|].
      destruct (Nat.eq_dec (s_len (tcpOptions p)) 0) as [Zt|Zt]; lia. }
  exists cs, (attach_packet p o1 d ol tl cs), h2.
  split; [exact E|]. split; [exact RC|]. split.
  { unfold TCPDataAttach. rewrite TD. cbn [rbind]. cbv beta iota zeta.
    change (ipTotalLength p1) with (ipTotalLength p) in *.
    replace (u16 (ipTotalLength p + u16 (Z.of_nat (s_len d) + Z.of_nat (s_len o)))) with tl by (unfold tl, ol, u16; lia).
    change (ipTotalLength p1) with (ipTotalLength p) in X. fold ol.
    destruct (FixupIPHdrOnDataModify h1 p1 (ipTotalLength p) tl) as [[p2 h3]| |]; cbn [rbind] in X |- *; try discriminate.
    cbn [fst snd] in X. rewrite X. cbn [rbind]. reflexivity. }
  split; [reflexivity|]. split; [exact Y1|].
  split; [unfold h2; apply rd_set; auto|].
  change (tcpOptions (attach_packet p o1 d ol tl cs)) with o1.
  split; [unfold h2; rewrite rd_apart by auto; exact G1|].
  split; [unfold h2; rewrite rd_apart by auto; reflexivity|].
  split; [apply set_rd_valid; auto|]. split; [apply set_rd_valid; auto|]. split; [exact APO|].
  split; [intros x Vx; apply set_rd_valid; auto|]. split; [exact Y2|exact Y3].
Qed.

Lemma attach_spec : forall grow h p o d, tcp_agrees h p -> attachable h p o d ->
  (s_len o = 0%nat \/ s_len (Buffer p) = payload_at p) ->
  tcpDataOffset p + Z.of_nat (s_len o) / 4 < 16 ->
  let ol := Z.of_nat (s_len o) in
  let tl := (IPTotalLen p + ol + Z.of_nat (s_len d)) mod 65536 in
  exists cs p' h', incCsum16 (ipChecksum p) (IPTotalLen p) tl = Ok cs /\ 0 <= cs < 65536 /\
    TCPDataAttach grow h p o d = Ok (p', h', None) /\
    p' = attach_packet p (snd (gappend grow h (tcpOptions p) (rd h o))) d ol tl cs /\
    tcp_agrees h' p' /\
    rd h' (Buffer p) = attach_bytes p (rd h (Buffer p)) ol tl cs /\
    rd h' (tcpOptions p') = rd h (tcpOptions p) ++ rd h o /\ rd h' d = rd h d /\
    valid h' (tcpOptions p') /\ valid h' d /\ apart (Buffer p) (tcpOptions p') /\
    (forall x, valid h x -> valid h' x) /\
    (version p = V4 -> ip4_valid (rd h (Buffer p)) -> ip4_valid (rd h' (Buffer p))) /\
    (version p = V4 -> ip4_checksum (rd h (Buffer p)) = ip4_right_checksum (rd h (Buffer p)) ->
       ip4_checksum (rd h' (Buffer p)) = ip4_right_checksum (rd h' (Buffer p))).
Proof.
  intros grow h p o d T (VO & Vo & Vd & AO & AD & SB & SD) LO OFF ol tl.
  destruct (attach_general grow h p o d T VO Vo Vd AO AD SB LO OFF) as (cs & p' & h' & H1 & H2 & H3 & H4 & H5 & H6 & H7 & H8 & H9).
  assert (RD1 : rd (fst (gappend grow h (tcpOptions p) (rd h o))) d = rd h d).
  { apply (gappend_rd grow h (tcpOptions p) (rd h o) VO); [exact Vd|]. rewrite (valid_len h o Vo). exact SD. }
  rewrite RD1 in H8. exists cs, p', h'. auto 20.
Qed.

(** ** Detaching and attaching again *)
Lemma splice_nth2 B o (v : bytes) k : (o + length v <= length B)%nat ->
  nth k (splice B o v) 0 = if (o <=? k)%nat && (k <? o + length v)%nat then nth (k - o) v 0 else nth k B 0.
Proof.
  intros H. destruct ((o <=? k)%nat && (k <? o + length v)%nat) eqn:Q.
  - apply andb_true_iff in Q. destruct Q as [Q1 Q2]. apply Nat.leb_le in Q1. apply Nat.ltb_lt in Q2.
    rewrite nth_splice by lia. destruct (Nat.leb_spec o k); [|lia]. destruct (Nat.ltb_spec k (o + length v)); [reflexivity|lia].
  - apply nth_splice_disj; [exact H|]. apply andb_false_iff in Q. destruct Q as [Q|Q]; [apply Nat.leb_gt in Q|apply Nat.ltb_ge in Q]; lia.
Qed.
Lemma fixip_twice v c t1 c1 t2 c2 : (20 <= length c)%nat -> fixip v (fixip v c t1 c1) t2 c2 = fixip v c t2 c2.
Proof.
  intros L. destruct v; unfold fixip, fix4, fix6.
  - apply nth_ext_len with 0; [slen|]. intros k K.
    rewrite !splice_nth2 by slen. cbn [length put16].
    destruct (Nat.leb_spec 2 k), (Nat.ltb_spec k (2 + 2)), (Nat.leb_spec 10 k), (Nat.ltb_spec k (10 + 2)); cbn [andb]; try lia; reflexivity.
  - apply nth_ext_len with 0; [slen|]. intros k K.
    rewrite !splice_nth2 by slen. cbn [length put16].
    destruct (Nat.leb_spec 4 k), (Nat.ltb_spec k (4 + 2)); cbn [andb]; try lia; reflexivity.
Qed.
Lemma fixip_cut v c t1 c1 n : (20 <= n <= length c)%nat -> fixip v (firstn n c) t1 c1 = firstn n (fixip v c t1 c1).
Proof.
  intros L. destruct v; unfold fixip, fix4, fix6; rewrite !firstn_splice by (rewrite ?splice_length; cbn [length put16]; lia); reflexivity.
Qed.
Lemma fixip_behind v c t1 c1 o (w : bytes) : (20 <= o)%nat -> (o + length w <= length c)%nat ->
  fixip v (splice c o w) t1 c1 = splice (fixip v c t1 c1) o w.
Proof.
  intros H L. assert (X : forall a o1 (x : bytes), (o1 + length x <= 20)%nat -> length a = length c ->
     splice (splice a o w) o1 x = splice (splice a o1 x) o w).
  { intros a o1 x Q E. apply nth_ext_len with 0; [rewrite !splice_length; rewrite ?splice_length; lia|]. intros k K.
    rewrite !splice_nth2 by (rewrite ?splice_length; lia).
    destruct (Nat.leb_spec o1 k), (Nat.ltb_spec k (o1 + length x)), (Nat.leb_spec o k), (Nat.ltb_spec k (o + length w)); cbn [andb]; try lia; reflexivity. }
  destruct v; unfold fixip, fix4, fix6; rewrite !X; auto; cbn [length put16]; try lia. rewrite splice_length; cbn [length put16]; lia.
Qed.
Lemma fixip_own h p : ip_agrees h p -> fixip (version p) (rd h (Buffer p)) (ipTotalLength p) (ipChecksum p) = rd h (Buffer p).
Proof.
  intros A. facts A. destruct A as (AV & IB & AL & M). unfold fixip, fix4, fix6. destruct (version p).
  - destruct M as (M1 & M2 & M3 & M4 & M5 & M6 & M7 & M8). unfold IPTotalLen in M5. rewrite M5, M6.
    unfold ip4_total, ip4_checksum. rewrite (put16_be16f _ 2) by (auto; lia). rewrite splice_field by lia.
    rewrite put16_be16f by (auto; lia). apply splice_field. lia.
  - destruct M as (M1 & M2 & M3 & M4 & M5 & M6 & M7). unfold IPTotalLen in M4. rewrite M4.
    pose proof (be16f_range (rd h (Buffer p)) 4 IB ltac:(lia)) as R. fold (ip6_payload (rd h (Buffer p))) in R.
    replace (u16 ((40 + ip6_payload (rd h (Buffer p))) mod 65536 - 40)) with (ip6_payload (rd h (Buffer p))) by (unfold u16; lia).
    unfold ip6_payload. rewrite put16_be16f by (auto; lia). apply splice_field. lia.
Qed.
Lemma inc_back cs t1 t2 c1 c2 : 0 <= cs < 65535 -> 0 <= t1 < 65536 -> 0 <= t2 < 65536 ->
  incCsum16 cs t1 t2 = Ok c1 -> incCsum16 c1 t2 t1 = Ok c2 -> c2 = cs.
Proof.
  intros R1 R2 R3 E1 E2.
  destruct (incCsum_spec cs t1 t2 ltac:(lia) R2 R3) as (f1 & F1 & G1). assert (c1 = 65535 - f1) by congruence. subst c1.
  destruct G1 as (G1 & G2 & G3).
  destruct (incCsum_spec (65535 - f1) t2 t1 ltac:(lia) R3 R2) as (f2 & F2 & H1). assert (c2 = 65535 - f2) by congruence. subst c2.
  destruct H1 as (H1 & H2 & H3). lia.
Qed.

Lemma detach_attach : forall grow h p, tcp_agrees h p -> 5 <= tcpDataOffset p -> (payload_at p <= s_len (Buffer p))%nat ->
  valid h (tcpOptions p) -> valid h (tcpData p) -> s_len (tcpOptions p) = 0%nat -> s_len (tcpData p) = 0%nat ->
  exists p1 h1 p2 h2,
    TCPDataDetach h p 0 = Ok (p1, h1) /\ tcp_agrees h1 p1 /\
    s_len (Buffer p1) = payload_at p /\
    GetTCPData h1 p1 = skipn (payload_at p) (rd h (Buffer p)) /\ GetTCPOptions h1 p1 = [] /\
    IPTotalLen p1 = (IPTotalLen p - payload_len p) mod 65536 /\
    (version p = V4 -> ip4_valid (rd h (Buffer p)) -> ip4_valid (rd h1 (Buffer p1))) /\
    only_bytes h h1 (Buffer p) (fun k => ip_len_bytes (version p) k \/ k = hl p + 12)%nat /\
    TCPDataAttach grow h1 p1 snil (tcpData p1) = Ok (p2, h2, None) /\ tcp_agrees h2 p2 /\
    IPTotalLen p2 = IPTotalLen p /\ tcpChecksum p2 = tcpChecksum p /\
    (version p = V4 -> ip4_valid (rd h (Buffer p)) -> ip4_valid (GetTCPBytes h2 p2)) /\
    (version p = V6 \/ ip4_checksum (rd h (Buffer p)) <> 65535 ->
     GetTCPBytes h2 p2 = splice (GetTCPBytes h p) (hl p + 12) [tcp_offset (GetTCPBytes h p) (hl p) * 16]).
Proof.
  intros grow h p T OF PA VO VD LO LD. pose proof T as (A & P & L & S). facts A. rewrite LB in L.
  destruct (tcp_agrees_facts h p T) as (_ & _ & R3 & _). pose proof A as (VB & IB & AL & _).
  assert (PO : Z.of_nat (payload_at p) = Z.of_nat (hl p) + 4 * tcpDataOffset p) by (unfold payload_at; lia).
  destruct (detach_spec h p 0 T ltac:(lia) eq_refl ltac:(lia) PA) as (cs1 & p1 & h1 & I1 & RC1 & D1 & EP1 & EH1 & T1 & X1 & X2 & X3).
  set (tl1 := (IPTotalLen p - (payload_len p + 0)) mod 65536) in *.
  set (n := payload_at p) in *. set (b := rd h (Buffer p)) in *.
  assert (CU : cut_at p 0 = n) by (unfold cut_at; cbn; lia).
  set (B1 := detached_bytes p b 0 tl1 cs1) in *.
  set (c := splice b (hl p + 12) [tcpDataOffset p * 16]).
  assert (EB1 : B1 = fixip (version p) c tl1 cs1).
  { unfold B1, detached_bytes, c. change (0 / 4) with 0. now rewrite Z.sub_0_r. }
  assert (LC : length c = s_len (Buffer p)) by (unfold c; rewrite splice_length; cbn [length]; lia).
  assert (LB1 : length B1 = s_len (Buffer p)) by (rewrite EB1, fixip_length; lia).
  assert (BP1 : Buffer p1 = win (Buffer p) 0 n (s_cap (Buffer p))) by (rewrite EP1; unfold detached_packet; cbn; now rewrite CU).
  assert (OP1 : tcpOptions p1 = tcpOptions p) by (rewrite EP1; reflexivity).
  assert (DP1 : tcpData p1 = detached_data p) by (rewrite EP1; reflexivity).
  assert (RB1 : rd h1 (Buffer p1) = firstn n B1).
  { rewrite BP1, EH1. rewrite rd_win by (auto; lia). reflexivity. }
  assert (SK : skipn n B1 = skipn n b).
  { rewrite EB1, fixip_skipn by lia. unfold c. apply skipn_splice_before; cbn [length]; lia. }
  assert (RD1 : rd h1 (tcpData p1) = skipn n b).
  { rewrite DP1, EH1. unfold detached_data. destruct (Z.eqb_spec (payload_len p) 0) as [Z0|Z0].
    - unfold rd. rewrite LD. cbn [firstn]. symmetry. apply skipn_all2. unfold payload_len in Z0. fold n in Z0. lia.
    - fold n. rewrite rd_win by (auto; lia). rewrite SK. apply firstn_all2. rewrite skipn_length. lia. }
  assert (RO1 : rd h1 (tcpOptions p1) = []) by (rewrite OP1; unfold rd; rewrite LO; reflexivity).
  assert (V1 : forall x, valid h x -> valid h1 x) by (intros x Vx; rewrite EH1; apply set_rd_valid; auto).
  assert (LD1 : Z.of_nat (s_len (tcpData p1)) = payload_len p).
  { rewrite DP1. unfold detached_data. destruct (Z.eqb_spec (payload_len p) 0) as [Z0|Z0]; [lia|]. cbn [win s_len]. unfold payload_len. fold n. lia. }
  assert (AT : attachable h1 p1 snil (tcpData p1)).
  { unfold attachable. rewrite OP1.
    assert (VD1 : valid h1 (tcpData p1)).
    { rewrite DP1. unfold detached_data. destruct (payload_len p =? 0); [apply V1, VD|].
      rewrite EH1. apply set_rd_valid; auto. unfold valid, win. cbn [s_len s_cap s_off s_arr]. lia. }
    split; [apply V1, VO|]. split; [split; cbn; [lia|left; reflexivity]|]. split; [exact VD1|].
    split; [left; exact LO|]. split; [|split; left; reflexivity].
    rewrite DP1, BP1. unfold detached_data. destruct (Z.eqb_spec (payload_len p) 0); [left; exact LD|].
    right. right. left. cbn [win s_off s_len]. fold n. lia. }
  assert (OF1 : tcpDataOffset p1 = tcpDataOffset p) by (rewrite EP1; unfold detached_packet; cbn; lia).
  destruct (attach_spec grow h1 p1 snil (tcpData p1) T1 AT (or_introl eq_refl)) as
    (cs2 & p2 & h2 & I2 & RC2 & D2 & EP2 & T2 & RB2 & RO2 & RD2 & _ & _ & _ & _ & Y1 & Y2).
  { rewrite OF1. cbn. lia. }
  set (tl2 := (IPTotalLen p1 + Z.of_nat (s_len snil) + Z.of_nat (s_len (tcpData p1))) mod 65536) in *.
  assert (TP1 : IPTotalLen p1 = tl1) by (rewrite EP1; reflexivity).
  assert (ETL : tl2 = ipTotalLength p).
  { unfold tl2. rewrite TP1, LD1. unfold tl1, IPTotalLen. cbn [s_len snil Z.of_nat]. lia. }
  assert (BP2 : Buffer p2 = Buffer p1) by (rewrite EP2; reflexivity).
  assert (DP2 : tcpData p2 = tcpData p1) by (rewrite EP2; reflexivity).
  assert (EM : GetTCPBytes h2 p2 = attach_bytes p1 (firstn n B1) 0 tl2 cs2 ++ skipn n b).
  { unfold GetTCPBytes. rewrite RO2, BP2, RB2, DP2, RD2, RB1, RD1, RO1. cbn [app].
    change (rd h1 snil) with (@nil Z). rewrite app_nil_r. reflexivity. }
  assert (HP1 : hl p1 = hl p) by (rewrite EP1; reflexivity).
  assert (VP1 : version p1 = version p) by (rewrite EP1; reflexivity).
  assert (AB : attach_bytes p1 (firstn n B1) 0 tl2 cs2 = firstn n (fixip (version p) c tl2 cs2)).
  { unfold attach_bytes. rewrite HP1, VP1, OF1. change (0 / 4) with 0. rewrite Z.add_0_r.
    rewrite fixip_cut by lia. rewrite EB1, fixip_twice by lia. rewrite <- firstn_splice by (cbn [length]; rewrite ?fixip_length; lia).
    f_equal. unfold c. rewrite fixip_behind by (cbn [length]; lia). apply splice_same_twice; [reflexivity|]. cbn [length]. rewrite fixip_length; lia. }
  assert (E0 : GetTCPBytes h p = b).
  { unfold GetTCPBytes. fold b. unfold rd at 1 2. rewrite LO, LD. cbn [firstn]. now rewrite !app_nil_r. }
  exists p1, h1, p2, h2.
  split; [exact D1|]. split; [exact T1|]. split; [rewrite BP1; reflexivity|]. split; [exact RD1|]. split; [exact RO1|].
  split; [rewrite TP1; unfold tl1; now rewrite Z.add_0_r|]. split; [exact X1|]. split; [exact X3|]. split; [exact D2|].
  split; [exact T2|]. split; [rewrite EP2; exact ETL|]. split; [rewrite EP2, EP1; reflexivity|]. split.
  - intros V4' W. rewrite VP1 in Y1. specialize (Y1 V4' (X1 V4' W)). rewrite RB2, RB1 in Y1. rewrite EM.
    apply (hdr_ext _ (attach_bytes p1 (firstn n B1) 0 tl2 cs2) 20); [lia| |exact Y1].
    rewrite firstn_app. replace (20 - length (attach_bytes p1 (firstn n B1) 0 tl2 cs2))%nat with 0%nat.
    + cbn [firstn]. apply app_nil_r.
    + rewrite AB, firstn_length, fixip_length; lia.
  - intros HC. rewrite EM, AB, E0. destruct S as (_ & _ & _ & _ & S5 & _). fold b in S5. rewrite <- S5.
    fold c. assert (EC : fixip (version p) c tl2 cs2 = c).
    { rewrite ETL. unfold c. rewrite fixip_behind by (cbn [length]; lia). f_equal.
      pose proof (fixip_own h p A) as FO. fold b in FO.
      destruct (version p) eqn:VP.
      - destruct HC as [HC|HC]; [discriminate|]. destruct A as (_ & _ & _ & M). rewrite VP in M. destruct M as (_ & _ & _ & _ & _ & M6 & _).
        assert (M6' : ip4_checksum b = ipChecksum p) by (symmetry; exact M6). rewrite M6' in HC.
        assert (CP1 : ipChecksum p1 = cs1) by (rewrite EP1; reflexivity). rewrite CP1, TP1, ETL in I2.
        rewrite (inc_back (ipChecksum p) (ipTotalLength p) tl1 cs1 cs2); auto; [lia|unfold tl1; lia].
      - exact FO. }
    rewrite EC. replace (skipn n b) with (skipn n c) by (unfold c; apply skipn_splice_before; cbn [length]; lia).
    apply firstn_skipn.
Qed.
