(** New reads the packet and what lies behind it, and nothing else *)
From Verif Require Export Spec.BufferSpec Proof.PktParse.

Section S.
Variable (h : heap) (s : slice).
Hypothesis V : vslice h s.
Lemma whole_vslice : vslice h (whole s).
Proof using V. destruct V as (A & B & C). repeat split; cbn [whole s_arr s_off s_len s_cap]; lia. Qed.
Lemma memory_prefix : firstn (s_len s) (memory h s) = rd h s.
Proof using V.
  destruct V as (A & B & C). unfold memory, rd, whole. cbn [s_arr s_off s_len].
  rewrite firstn_firstn, Nat.min_l by lia. reflexivity.
Qed.
Lemma memory_length : length (memory h s) = s_cap s.
Proof using V. exact (vslice_len h (whole s) whole_vslice). Qed.
Lemma be16_whole pos : be16_at h (whole s) pos = be16_at h s pos.
Proof using. reflexivity. Qed.
Lemma copy_whole lo hi : copy_of h (whole s) lo hi = copy_of h s lo hi.
Proof using. reflexivity. Qed.
Lemma nth_memory i : (i < s_len s)%nat -> nth i (memory h s) 0 = nth i (rd h s) 0.
Proof using V. intros L. rewrite <- memory_prefix. symmetry. now apply nth_firstn'. Qed.
Lemma sidx_whole i x : sidx h s i = Ok x -> sidx h (whole s) i = Ok x.
Proof using V.
  intros E. destruct V as (A & B & C). unfold sidx, gidx in *. fold (memory h s).
  unfold zlen in *. rewrite memory_length. rewrite (vslice_len h s V) in E.
  destruct (Z.leb_spec 0 i), (Z.ltb_spec i (Z.of_nat (s_len s))); cbn [andb] in E; try discriminate.
  destruct (Z.ltb_spec i (Z.of_nat (s_cap s))); [|lia]. cbn [andb]. rewrite nth_memory by lia. exact E.
Qed.
Lemma from_whole k tb : resl_from s k = Ok tb -> resl_from (whole s) k = Ok (whole tb) /\ vslice h tb.
Proof using V.
  intros E. destruct V as (A & B & C). unfold resl_from, reslice in *. cbn [whole s_len s_cap s_arr s_off] in *.
  destruct (Z.leb_spec 0 k), (Z.leb_spec k (Z.of_nat (s_len s))),
    (Z.leb_spec (Z.of_nat (s_len s)) (Z.of_nat (s_cap s))); cbn [andb] in E; try discriminate.
  apply Ok_inj in E. subst tb. destruct (Z.leb_spec k (Z.of_nat (s_cap s))); [|lia]. rewrite Z.leb_refl. cbn [andb].
  split; [|repeat split; cbn; lia]. unfold whole. cbn [s_arr s_off s_cap]. repeat f_equal; lia.
Qed.
End S.

Lemma parseTCP_whole h s p p' : vslice h s -> parseTCP h p s = Ok p' -> parseTCP h p (whole s) = Ok p'.
Proof.
  intros V. unfold parseTCP.
  destruct (resl_from s (ipHeaderLen p)) as [tb| |] eqn:F; cbn [rbind]; try discriminate.
  destruct (from_whole h s V _ _ F) as [F' VT]. rewrite F'. cbn [rbind].
  change (be16_at h (whole tb)) with (be16_at h tb). change (be32_at h (whole tb)) with (be32_at h tb).
  do 5 (match goal with |- rbind ?x _ = _ -> _ => destruct x; cbn [rbind]; try discriminate end).
  destruct (sidx h tb tcpDataOffsetPos) eqn:X; cbn [rbind]; try discriminate. rewrite (sidx_whole h tb VT _ _ X). cbn [rbind].
  destruct (resl_from (Buffer p) (ipHeaderLen p)); cbn [rbind]; try discriminate.
  destruct (sidx h tb tcpFlagsOffsetPos) eqn:Y; cbn [rbind]; try discriminate. rewrite (sidx_whole h tb VT _ _ Y). cbn [rbind].
  auto.
Qed.
Lemma parseUDP_whole h s p p' : vslice h s -> parseUDP h p s = Ok p' -> parseUDP h p (whole s) = Ok p'.
Proof.
  intros V. unfold parseUDP.
  destruct (resl_from s (ipHeaderLen p)) as [tb| |] eqn:F; cbn [rbind]; try discriminate.
  destruct (from_whole h s V _ _ F) as [F' VT]. rewrite F'. cbn [rbind]. auto.
Qed.
Lemma transport_whole h s p p' : vslice h s -> parse_transport h p s = Ok (p', None) ->
  parse_transport h p (whole s) = Ok (p', None).
Proof.
  intros V. unfold parse_transport. destruct (_ && _); [discriminate|].
  destruct (ipProto p =? IPProtocolTCP).
  - destruct (parseTCP h p s) as [p1| |] eqn:E; cbn [rbind]; try discriminate. rewrite (parseTCP_whole _ _ _ _ V E). cbn [rbind].
    destruct (_ && _); [discriminate|]. destruct (ipProto p1 =? IPProtocolUDP); [|auto].
    destruct (parseUDP h p1 s) as [p2| |] eqn:E2; cbn [rbind]; try discriminate. rewrite (parseUDP_whole _ _ _ _ V E2). auto.
  - cbn [rbind]. destruct (_ && _); [discriminate|]. destruct (ipProto p =? IPProtocolUDP); [|auto].
    destruct (parseUDP h p s) as [p2| |] eqn:E2; cbn [rbind]; try discriminate. rewrite (parseUDP_whole _ _ _ _ V E2). auto.
Qed.
Lemma transport_source h s p p' hl : vslice h s -> is_bytes (memory h s) -> ipHeaderLen p = hl -> 0 <= hl < 256 ->
  (s_len (Buffer p) <= s_cap (Buffer p))%nat ->
  tcpOptions p = snil -> tcpData p = snil -> udpData p = snil ->
  parse_transport h p s = Ok (p', None) ->
  same_ip p p' /\ shows_l4 p' (memory h s) (Z.to_nat hl) /\
  (ipProto p' = PROTO_UDP -> udpChecksum p' = udp_checksum (memory h s) (Z.to_nat hl)).
Proof.
  intros V IB E HL HB N1 N2 N3 R. apply (transport_whole _ _ _ _ V) in R.
  pose proof (transport_any h p (whole s) hl (whole_vslice h s V) IB E HL HB N1 N2 N3) as X. rewrite R in X.
  destruct X as (X1 & X2 & [A B C D]). unfold transport_class, tcp_crashes in X1. cbn [whole s_len s_cap] in *.
  split; [exact X2|]. fold (memory h s) in *. pose proof (si_proto _ _ X2) as SP.
  assert (G : (ipProto p' = PROTO_TCP -> Z.of_nat (s_cap s) >= hl + 18) /\ (ipProto p' = PROTO_UDP -> Z.of_nat (s_cap s) >= hl + 8)).
  { rewrite SP. split; intros P; rewrite P in X1; unfold PROTO_TCP, PROTO_UDP in X1; cbn [Z.eqb Pos.eqb] in X1;
      destruct (_ <? _) in X1; try discriminate.
    - destruct (Z.ltb_spec (Z.of_nat (s_cap s)) (hl + 18)); [rewrite orb_true_r in X1; discriminate|lia].
    - destruct (Z.ltb_spec (Z.of_nat (s_cap s)) (hl + 8)); [rewrite orb_true_r in X1; discriminate|lia]. }
  destruct G as [G1 G2]. split; [split; unfold IPProto; intros P|intros P].
  - apply A; auto.
  - apply (C P (G2 P)).
  - apply (C P (G2 P)).
Qed.

Lemma be16_source h s pos x : vslice h s -> 0 <= pos -> be16_at h s pos = Ok x -> x = be16f (memory h s) (Z.to_nat pos).
Proof.
  intros V P E. destruct (be16_any h s pos V P) as [(v & C & F)|[_ F]]; [|congruence].
  rewrite <- be16_whole in E. rewrite be16_in in E; [|now apply whole_vslice|exact P|cbn; lia]. apply Ok_inj in E. now subst.
Qed.
Lemma copy_source h s lo hi x : vslice h s -> 0 <= lo <= hi -> copy_of h s lo hi = Ok x ->
  x = field (memory h s) (Z.to_nat lo) (Z.to_nat hi - Z.to_nat lo).
Proof.
  intros V P E. destruct (copy_any h s lo hi P) as [(v & C & F)|[_ F]]; [|congruence].
  rewrite <- copy_whole in E. rewrite copy_in in E; [|now apply whole_vslice|exact P|cbn; lia]. apply Ok_inj in E. now subst.
Qed.
Lemma sidx_source h s i x : vslice h s -> 0 <= i -> sidx h s i = Ok x -> x = nth (Z.to_nat i) (memory h s) 0.
Proof.
  intros V P E. destruct (sidx_any h s i V P) as [[L F]|[_ F]]; [|congruence].
  rewrite F in E. apply Ok_inj in E. subst x. symmetry. apply nth_memory; [exact V|lia].
Qed.

Lemma In_firstn {A} (x : A) n l : In x (firstn n l) -> In x l.
Proof. revert n. induction l as [|a l IH]; intros [|n]; cbn; try tauto. intros [->|H]; eauto. Qed.
Lemma memory_bytes h s : vslice h s -> is_bytes (memory h s) -> is_bytes (rd h s).
Proof.
  intros V IB. rewrite <- (memory_prefix h s V). apply Forall_forall. intros x Hx. unfold is_bytes in IB. rewrite Forall_forall in IB.
  apply IB. eapply In_firstn; eassumption.
Qed.
Lemma memory_version h s : vslice h s -> (1 <= s_len s)%nat -> ip4_version (memory h s) = ip4_version (rd h s).
Proof. intros V L. unfold ip4_version, byte_at. rewrite nth_memory; auto. Qed.

Lemma New_source4 h ctx s v p : vslice h s -> is_bytes (memory h s) -> (1 <= s_len s)%nat -> Z.of_nat (s_len s) < 65536 ->
  New h ctx s v = Ok (Some p, None) -> ip4_version (rd h s) = 4 ->
  shows_ip4 p (memory h s) /\ shows_l4 p (memory h s) 20.
Proof.
  intros V IB L1 L2 E VER. pose proof V as (V1 & V2 & V3). pose proof (memory_bytes h s V IB) as IB0.
  pose proof (New_v4 h ctx s v V IB0 L1 L2 VER) as X. rewrite E in X. destruct X as [CL A].
  assert (L20 : (20 <= s_len s)%nat).
  { unfold classify4, zlen in CL. rewrite (vslice_len h s V) in CL. destruct (Z.ltb_spec (Z.of_nat (s_len s)) 20); [discriminate|lia]. }
  assert (F : forall o n, (o + n <= 20)%nat -> field (memory h s) o n = field (rd h s) o n).
  { intros o n Hn. rewrite <- (memory_prefix h s V). unfold field, sub. rewrite !skipn_firstn_comm, !firstn_firstn.
    f_equal. lia. }
  split.
  - pose proof (a4_ip _ _ _ _ _ A) as (A1 & A2 & A3 & A4 & A5 & A6 & A7 & A8).
    unfold shows_ip4, ip4_proto, ip4_total, ip4_id, ip4_checksum, ip4_src, ip4_dst, byte_at, be16f in *.
    rewrite !F by lia. rewrite nth_memory by (auto; lia). auto 10.
  - clear A CL. revert E. unfold New. destruct (_ <? _); [discriminate|].
    destruct (sidx h s ipv4HdrLenPos) as [b0| |] eqn:E0; cbn [rbind]; try discriminate.
    apply sidx_source in E0; [|exact V|unfold ipv4HdrLenPos; lia]. 
    assert (C : (Z.land b0 240 =? 64) = true).
    { subst b0. unfold ipv4HdrLenPos. change (Z.to_nat 0) with 0%nat. rewrite nth_memory by (auto; lia).
      rewrite land240 by (apply nth_byte, IB0). unfold ip4_version, byte_at in VER. rewrite VER. reflexivity. }
    rewrite C. unfold parseIPv4Packet. destruct (_ <? _); [discriminate|].
    do 7 (match goal with |- rbind (rbind ?x _) _ = _ -> _ => destruct x; cbn [rbind]; try discriminate end).
    destruct (negb _) eqn:N; [discriminate|]. apply negb_false_iff, Z.eqb_eq in N. rewrite N.
    unfold minIPv4HdrSize. 
    assert (T : forall q, ipHeaderLen q = 20 -> (s_len (Buffer q) <= s_cap (Buffer q))%nat ->
      tcpOptions q = snil -> tcpData q = snil -> udpData q = snil ->
      (let* x := parse_transport h q s in Ok (Some (fst x), snd x)) = Ok (Some p, None) -> shows_l4 p (memory h s) 20).
    { intros q Q1 Q2 Q3 Q4 Q5 R. destruct (parse_transport h q s) as [[p' e']| |] eqn:PT; cbn [rbind fst snd] in R; try discriminate.
      injection R as <- ->. apply (transport_source h s q p' 20) in PT; auto; [|lia]. tauto. }
    destruct (v && _).
    + destruct (_ <? _); [|discriminate]. destruct (resl_to s _) as [b| |] eqn:RB; cbn [rbind]; try discriminate.
      apply T; try reflexivity. cbn [with_buffer Buffer]. revert RB. unfold resl_to, reslice.
      match goal with |- (if ?c then _ else _) = _ -> _ => destruct c eqn:?; [|discriminate] end.
      intros RB. apply Ok_inj in RB. subst b. cbn [s_len s_cap]. lia.
    + apply T; try reflexivity. cbn. lia.
Qed.
Lemma New_source6 h ctx s v p : vslice h s -> is_bytes (memory h s) -> (1 <= s_len s)%nat -> Z.of_nat (s_len s) < 65536 ->
  New h ctx s v = Ok (Some p, None) -> ip4_version (rd h s) <> 4 ->
  shows_ip6 p (memory h s) /\ shows_l4 p (memory h s) 40.
Proof.
  intros V IB L1 L2 E VER. pose proof V as (V1 & V2 & V3). pose proof (memory_bytes h s V IB) as IB0.
  revert E. unfold New. destruct (_ <? _); [discriminate|].
  destruct (sidx h s ipv4HdrLenPos) as [b0| |] eqn:E0; cbn [rbind]; try discriminate.
  apply sidx_source in E0; [|exact V|unfold ipv4HdrLenPos; lia]. 
  assert (C : (Z.land b0 240 =? 64) = false).
  { subst b0. unfold ipv4HdrLenPos. change (Z.to_nat 0) with 0%nat. rewrite nth_memory by (auto; lia).
    rewrite land240 by (apply nth_byte, IB0). unfold ip4_version, byte_at in VER. apply Z.eqb_neq. lia. }
  rewrite C. unfold parseIPv6Packet.
  destruct (sidx h s ipv6ProtoPos) as [pr| |] eqn:E1; cbn [rbind]; try discriminate.
  destruct (be16_at h s ipv6PayloadLenPos) as [pl| |] eqn:E2; cbn [rbind]; try discriminate.
  destruct (copy_of h s ipv6SourceAddrPos _) as [sa| |] eqn:E3; cbn [rbind]; try discriminate.
  destruct (copy_of h s ipv6DestAddrPos _) as [da| |] eqn:E4; cbn [rbind]; try discriminate.
  apply sidx_source in E1; [|exact V|unfold ipv6ProtoPos; lia].
  apply be16_source in E2; [|exact V|unfold ipv6PayloadLenPos; lia].
  apply copy_source in E3; [|exact V|unfold ipv6SourceAddrPos; lia].
  apply copy_source in E4; [|exact V|unfold ipv6DestAddrPos; lia].
  set (M := memory h s) in *.
  assert (T : forall q, ipHeaderLen q = 40 -> (s_len (Buffer q) <= s_cap (Buffer q))%nat ->
      tcpOptions q = snil -> tcpData q = snil -> udpData q = snil -> shows_ip6 q M ->
      (let* x := parse_transport h q s in Ok (Some (fst x), snd x)) = Ok (Some p, None) -> shows_ip6 p M /\ shows_l4 p M 40).
  { intros q Q1 Q2 Q3 Q4 Q5 Q6 R. destruct (parse_transport h q s) as [[p' e']| |] eqn:PT; cbn [rbind fst snd] in R; try discriminate.
    injection R as <- ->. apply (transport_source h s q p' 40) in PT; auto; [|lia]. destruct PT as (SI & SL & _).
    split; [|exact SL]. unfold shows_ip6, IPProto, IPTotalLen, SourceAddress, DestinationAddress in *.
    rewrite (si_ver _ _ SI), (si_hl _ _ SI), (si_proto _ _ SI), (si_total _ _ SI), (si_src _ _ SI), (si_dst _ _ SI). exact Q6. }
  assert (IPQ : forall q, version q = V6 -> ipHeaderLen q = 40 -> ipProto q = pr -> ipTotalLength q = u16 (ipv6HeaderLen + pl) ->
    sourceAddress q = sa -> destinationAddress q = da -> shows_ip6 q M).
  { intros q Q1 Q2 Q3 Q4 Q5 Q6. unfold shows_ip6, IPProto, IPTotalLen, SourceAddress, DestinationAddress.
    rewrite Q1, Q2, Q3, Q4, Q5, Q6. subst. repeat split. }
  destruct (v && _).
  - destruct (_ <? _); [|discriminate]. destruct (resl_to s _) as [b| |] eqn:RB; cbn [rbind]; try discriminate.
    assert (LB : (s_len b <= s_cap b)%nat).
    { revert RB. unfold resl_to, reslice.
      match goal with |- (if ?c then _ else _) = _ -> _ => destruct c eqn:?; [|discriminate] end.
      intros RB. apply Ok_inj in RB. subst b. cbn [s_len s_cap]. lia. }
    match goal with |- context [parseTCP h ?q s] => pose proof (parseTCP_any h q s 40 V eq_refl ltac:(lia) LB) as X; destruct (parseTCP h q s) as [p1| |]; cbn [rbind]; try discriminate end.
    destruct X as (_ & sp & dp & sq & ak & off & fl & cs & tl & -> & _).
    apply T; try reflexivity; [exact LB|]. apply IPQ; reflexivity.
  - apply T; try reflexivity; [cbn; lia|]. apply IPQ; reflexivity.
Qed.

(** ** Which fields can come from behind the packet *)
Lemma New_source h ctx s v p : vslice h s -> is_bytes (memory h s) -> (1 <= s_len s)%nat -> Z.of_nat (s_len s) < 65536 ->
  New h ctx s v = Ok (Some p, None) ->
  ipHeaderLen p = Z.of_nat (hlen (rd h s)) /\ shows_l4 p (memory h s) (hlen (rd h s)).
Proof.
  intros V IB L1 L2 E. unfold hlen. destruct (Z.eqb_spec (ip4_version (rd h s)) 4) as [VR|VR].
  - destruct (New_source4 _ _ _ _ _ V IB L1 L2 E VR) as [(_ & H & _) X]. auto.
  - destruct (New_source6 _ _ _ _ _ V IB L1 L2 E VR) as [(_ & H & _) X]. auto.
Qed.
(** an accepted TCP packet reaches 14 bytes into the TCP header, an accepted UDP
    packet has its whole IP header and 8 bytes of memory behind that *)
Lemma New_lengths h ctx s v p : vslice h s -> is_bytes (rd h s) -> (1 <= s_len s)%nat -> Z.of_nat (s_len s) < 65536 ->
  New h ctx s v = Ok (Some p, None) ->
  (IPProto p = PROTO_TCP -> (hlen (rd h s) + 14 <= s_len s)%nat) /\
  (IPProto p = PROTO_UDP -> (hlen (rd h s) <= s_len s /\ hlen (rd h s) + 8 <= s_cap s)%nat).
Proof.
  intros V IB L1 L2 E. pose proof (vslice_len h s V) as LB. unfold hlen. destruct (Z.eqb_spec (ip4_version (rd h s)) 4) as [VR|VR].
  - pose proof (New_v4 h ctx s v V IB L1 L2 VR) as X. rewrite E in X. destruct X as [CL A].
    destruct (a4_ip _ _ _ _ _ A) as (_ & _ & P & _). rewrite P. clear A P E.
    unfold classify4, zlen in CL. rewrite LB in CL.
    repeat match type of CL with (if ?c then _ else _) = _ => destruct c eqn:?; try discriminate end;
      split; intros Q; rewrite ?Q in *; unfold PROTO_TCP, PROTO_UDP in *; try discriminate; try lia.
  - pose proof (New_v6 h ctx s v V IB L1 L2 VR) as X. rewrite E in X. destruct X as [CL A].
    pose proof (a6_proto _ _ _ _ _ A) as P. unfold IPProto. rewrite P. clear A P E.
    unfold classify6, zlen in CL. rewrite LB in CL.
    repeat match type of CL with (if ?c then _ else _) = _ => destruct c eqn:?; try discriminate end;
      split; intros Q; rewrite ?Q in *; unfold PROTO_TCP, PROTO_UDP in *; try discriminate; try lia.
Qed.

(** the same packet with other bytes behind it *)
Lemma other_memory h s M' : vslice h s -> length M' = s_cap s -> firstn (s_len s) M' = rd h s ->
  let h' := set_rd h (whole s) M' in
  vslice h' s /\ memory h' s = M' /\ rd h' s = rd h s.
Proof.
  intros V L F h'. pose proof (whole_vslice h s V) as W. 
  assert (VS : vslice h' s) by (apply set_rd_vslice; auto).
  assert (MM : memory h' s = M') by (apply rd_set; auto).
  split; [exact VS|]. split; [exact MM|]. rewrite <- (memory_prefix h' s VS), MM. exact F.
Qed.
Lemma New_accepts_again h h' ctx s v p : vslice h s -> vslice h' s -> is_bytes (rd h s) -> (1 <= s_len s)%nat -> Z.of_nat (s_len s) < 65536 ->
  rd h' s = rd h s -> New h ctx s v = Ok (Some p, None) -> exists p', New h' ctx s v = Ok (Some p', None).
Proof.
  intros V V' IB L1 L2 R E.
  assert (G : valid h s /\ is_bytes (rd h s) /\ (0 < s_len s)%nat /\ Z.of_nat (s_len s) < 65536) by (split; [now apply vslice_valid|auto]).
  assert (G' : valid h' s /\ is_bytes (rd h' s) /\ (0 < s_len s)%nat /\ Z.of_nat (s_len s) < 65536) by (rewrite R; split; [now apply vslice_valid|auto]).
  assert (O : outcome (New h' ctx s v) = Accepts /\ forall o, New h' ctx s v <> Ok (None, o)).
  { destruct (Z.eq_dec (ip4_version (rd h s)) 4) as [VR|VR].
    - pose proof (ipv4_outcome h ctx s v G VR) as X. rewrite E in X. cbn [outcome] in X.
      pose proof (ipv4_outcome h' ctx s v G' ltac:(now rewrite R)) as Y. rewrite R, <- X in Y. split; [exact Y|].
      intros o Q. pose proof (New_v4 h' ctx s v V' ltac:(now rewrite R) L1 L2 ltac:(now rewrite R)) as Z'. rewrite Q in Z'. exact Z'.
    - pose proof (ipv6_outcome h ctx s v G VR) as X. rewrite E in X. cbn [outcome] in X.
      pose proof (ipv6_outcome h' ctx s v G' ltac:(now rewrite R)) as Y. rewrite R, <- X in Y. split; [exact Y|].
      intros o Q. pose proof (New_v6 h' ctx s v V' ltac:(now rewrite R) L1 L2 ltac:(now rewrite R)) as Z'. rewrite Q in Z'. exact Z'. }
  destruct O as [O NN]. unfold outcome in O.
  destruct (New h' ctx s v) as [[[p'|] [e|]]| |]; try discriminate; [eauto|]. exfalso. eapply NN; reflexivity.
Qed.
Definition bump (x : Z) : Z := (x + 1) mod 256.
Lemma bump_spec M i : is_bytes M -> (i < length M)%nat ->
  is_bytes (splice M i [bump (nth i M 0)]) /\ length (splice M i [bump (nth i M 0)]) = length M /\
  nth i (splice M i [bump (nth i M 0)]) 0 <> nth i M 0 /\
  (forall n, (n <= i)%nat -> firstn n (splice M i [bump (nth i M 0)]) = firstn n M).
Proof.
  intros IB L. pose proof (nth_byte M i IB) as R.
  assert (Q : bump (nth i M 0) <> nth i M 0) by (unfold bump; destruct (Z.eq_dec (nth i M 0) 255) as [->|]; [discriminate|rewrite Z.mod_small; lia]).
  split; [|split; [|split]].
  - unfold splice, is_bytes. apply Forall_app. split; [|apply Forall_app; split].
    + apply Forall_forall. intros x Hx. unfold is_bytes in IB. rewrite Forall_forall in IB. apply IB. eapply In_firstn; eassumption.
    + constructor; [|constructor]. unfold bump. apply Z.mod_pos_bound. lia.
    + unfold is_bytes in IB. rewrite Forall_forall in *. intros x Hx. apply IB. rewrite <- (firstn_skipn (i + length [bump (nth i M 0)]) M). apply in_or_app. now right.
  - apply splice_length. cbn. lia.
  - rewrite nth_splice_same by lia. exact Q.
  - intros n Hn. unfold splice. rewrite firstn_app, firstn_firstn, firstn_length. 
    replace (n - Nat.min i (length M))%nat with 0%nat by lia. rewrite Nat.min_l by lia. cbn [firstn]. apply app_nil_r.
Qed.

Lemma udp_ports_own h ctx s v p : vslice h s -> is_bytes (memory h s) -> (1 <= s_len s)%nat -> Z.of_nat (s_len s) < 65536 ->
  New h ctx s v = Ok (Some p, None) -> IPProto p = PROTO_UDP ->
  ((forall h' p', vslice h' s -> is_bytes (memory h' s) -> rd h' s = rd h s -> New h' ctx s v = Ok (Some p', None) ->
      SourcePort p' = SourcePort p /\ DestPort p' = DestPort p) <-> (hlen (rd h s) + 4 <= s_len s)%nat).
Proof.
  intros V IB L1 L2 E U. pose proof V as (V1 & V2 & V3). pose proof (memory_bytes h s V IB) as IB0.
  destruct (New_source h ctx s v p V IB L1 L2 E) as [HLP [_ SU]]. destruct (SU U) as [S1 S2].
  destruct (New_lengths h ctx s v p V IB0 L1 L2 E) as [_ LU]. destruct (LU U) as [LU1 LU2].
  pose proof (memory_length h s V) as LM.
  assert (PR : forall h' p', vslice h' s -> is_bytes (memory h' s) -> rd h' s = rd h s -> New h' ctx s v = Ok (Some p', None) ->
     SourcePort p' = l4_sport (memory h' s) (hlen (rd h s)) /\ DestPort p' = l4_dport (memory h' s) (hlen (rd h s))).
  { intros h' p' V' IB' R E'. destruct (New_source h' ctx s v p' V' IB' L1 L2 E') as [HLP' [_ SU']].
    rewrite R in *. apply SU'. 
    assert (PP : forall h0 p0, vslice h0 s -> is_bytes (memory h0 s) -> rd h0 s = rd h s -> New h0 ctx s v = Ok (Some p0, None) ->
      IPProto p0 = if ip4_version (rd h s) =? 4 then ip4_proto (rd h s) else ip6_next (rd h s)).
    { intros h0 p0 V0 IB1 R0 E0. destruct (Z.eqb_spec (ip4_version (rd h s)) 4) as [VR|VR].
      - pose proof (New_v4 h0 ctx s v V0 ltac:(now rewrite R0) L1 L2 ltac:(now rewrite R0)) as X. rewrite E0 in X. destruct X as [_ A].
        destruct (a4_ip _ _ _ _ _ A) as (_ & _ & P & _). now rewrite R0 in P.
      - pose proof (New_v6 h0 ctx s v V0 ltac:(now rewrite R0) L1 L2 ltac:(now rewrite R0)) as X. rewrite E0 in X. destruct X as [_ A].
        pose proof (a6_proto _ _ _ _ _ A) as P. now rewrite R0 in P. }
    rewrite (PP h' p' V' IB' R E'), <- (PP h p V IB eq_refl E). exact U. }
  set (o := hlen (rd h s)) in *. split.
  - intros H. destruct (le_lt_dec (o + 4) (s_len s)) as [Q|Q]; [exact Q|exfalso].
    set (M := memory h s) in *. remember (o + 3)%nat as i eqn:EI.
    destruct (bump_spec M i IB ltac:(lia)) as (B1 & B2 & B3 & B4). set (M' := splice M i [bump (nth i M 0)]) in *.
    destruct (other_memory h s M' V ltac:(lia)) as (O1 & O2 & O3).
    { rewrite B4 by lia. apply memory_prefix, V. }
    destruct (New_accepts_again h _ ctx s v p V O1 IB0 L1 L2 O3 E) as [p' E'].
    destruct (H _ p' O1 ltac:(now rewrite O2) O3 E') as [_ D].
    destruct (PR _ p' O1 ltac:(now rewrite O2) O3 E') as [_ D']. rewrite O2 in D'. rewrite D', S2 in D.
    unfold l4_dport in D. clear - D B2 B3 LM LU2 EI. rewrite !be16f_nth in D by lia.
    assert (N2 : nth (o + 2) M' 0 = nth (o + 2) M 0) by (apply nth_splice_disj; cbn [length]; lia).
    replace (S (o + 2)) with i in D by lia. lia.
  - intros Q h' p' V' IB' R E'. destruct (PR h' p' V' IB' R E') as [-> ->]. rewrite S1, S2.
    assert (F : forall a n, (a + n <= o + 4)%nat -> field (memory h' s) a n = field (memory h s) a n).
    { intros a n Hn. pose proof (memory_prefix h s V) as A1. pose proof (memory_prefix h' s V') as A2. rewrite R in A2.
      unfold field. transitivity (firstn n (skipn a (firstn (s_len s) (memory h' s)))).
      - rewrite skipn_firstn_comm, firstn_firstn. f_equal. lia.
      - rewrite A2, <- A1. rewrite skipn_firstn_comm, firstn_firstn. f_equal. lia. }
    unfold l4_sport, l4_dport, be16f. rewrite !F by lia. auto.
Qed.

Lemma same_field h h' s a n : vslice h s -> vslice h' s -> rd h' s = rd h s -> (a + n <= s_len s)%nat ->
  field (memory h' s) a n = field (memory h s) a n.
Proof.
  intros V V' R Hn. pose proof (memory_prefix h s V) as A1. pose proof (memory_prefix h' s V') as A2. rewrite R in A2.
  unfold field. transitivity (firstn n (skipn a (firstn (s_len s) (memory h' s)))).
  - rewrite skipn_firstn_comm, firstn_firstn. f_equal. lia.
  - rewrite A2, <- A1. rewrite skipn_firstn_comm, firstn_firstn. f_equal. lia.
Qed.
(** change one byte behind the packet *)
Lemma bumped h ctx s v p i : vslice h s -> is_bytes (memory h s) -> (1 <= s_len s)%nat -> Z.of_nat (s_len s) < 65536 ->
  New h ctx s v = Ok (Some p, None) -> (s_len s <= i < s_cap s)%nat ->
  exists h' p', vslice h' s /\ is_bytes (memory h' s) /\ rd h' s = rd h s /\ New h' ctx s v = Ok (Some p', None) /\
    length (memory h' s) = length (memory h s) /\
    nth i (memory h' s) 0 <> nth i (memory h s) 0 /\
    forall j, j <> i -> nth j (memory h' s) 0 = nth j (memory h s) 0.
Proof.
  intros V IB L1 L2 E L. pose proof (memory_bytes h s V IB) as IB0. pose proof (memory_length h s V) as LM.
  set (M := memory h s) in *.
  destruct (bump_spec M i IB ltac:(lia)) as (B1 & B2 & B3 & B4). 
  destruct (other_memory h s (splice M i [bump (nth i M 0)]) V ltac:(lia)) as (O1 & O2 & O3).
  { rewrite B4 by lia. apply memory_prefix, V. }
  destruct (New_accepts_again h _ ctx s v p V O1 IB0 L1 L2 O3 E) as [p' E'].
  eexists _, p'. split; [exact O1|]. rewrite O2. do 5 (split; [assumption|]).
  intros j J. apply nth_splice_disj; cbn [length]; lia.
Qed.
Lemma same_proto h h' ctx s v p p' : vslice h s -> vslice h' s -> is_bytes (rd h s) -> (1 <= s_len s)%nat -> Z.of_nat (s_len s) < 65536 ->
  rd h' s = rd h s -> New h ctx s v = Ok (Some p, None) -> New h' ctx s v = Ok (Some p', None) -> IPProto p' = IPProto p.
Proof.
  intros V V' IB L1 L2 R E E'. destruct (Z.eq_dec (ip4_version (rd h s)) 4) as [VR|VR].
  - pose proof (New_v4 h ctx s v V IB L1 L2 VR) as X. rewrite E in X. destruct X as [_ A].
    pose proof (New_v4 h' ctx s v V' ltac:(now rewrite R) L1 L2 ltac:(now rewrite R)) as X. rewrite E' in X. destruct X as [_ A'].
    destruct (a4_ip _ _ _ _ _ A) as (_ & _ & P & _). destruct (a4_ip _ _ _ _ _ A') as (_ & _ & P' & _). now rewrite P, P', R.
  - pose proof (New_v6 h ctx s v V IB L1 L2 VR) as X. rewrite E in X. destruct X as [_ A].
    pose proof (New_v6 h' ctx s v V' ltac:(now rewrite R) L1 L2 ltac:(now rewrite R)) as X. rewrite E' in X. destruct X as [_ A'].
    pose proof (a6_proto _ _ _ _ _ A) as P. pose proof (a6_proto _ _ _ _ _ A') as P'. unfold IPProto. now rewrite P, P', R.
Qed.
Lemma tcp_fields_own h ctx s v p : vslice h s -> is_bytes (memory h s) -> (1 <= s_len s)%nat -> Z.of_nat (s_len s) < 65536 ->
  New h ctx s v = Ok (Some p, None) -> IPProto p = PROTO_TCP ->
  (forall h' p', vslice h' s -> is_bytes (memory h' s) -> rd h' s = rd h s -> New h' ctx s v = Ok (Some p', None) ->
      SourcePort p' = SourcePort p /\ DestPort p' = DestPort p /\ tcpSeq p' = tcpSeq p /\ tcpAck p' = tcpAck p /\
      tcpDataOffset p' = tcpDataOffset p /\ GetTCPFlags p' = GetTCPFlags p) /\
  ((forall h' p', vslice h' s -> is_bytes (memory h' s) -> rd h' s = rd h s -> New h' ctx s v = Ok (Some p', None) ->
      tcpChecksum p' = tcpChecksum p) <-> (hlen (rd h s) + 18 <= s_len s)%nat).
Proof.
  intros V IB L1 L2 E U. pose proof V as (V1 & V2 & V3). pose proof (memory_bytes h s V IB) as IB0.
  destruct (New_source h ctx s v p V IB L1 L2 E) as [HLP [ST _]]. destruct (ST U) as (S1 & S2 & S3 & S4 & S5 & S6 & S7).
  destruct (New_lengths h ctx s v p V IB0 L1 L2 E) as [LU _]. specialize (LU U).
  pose proof (memory_length h s V) as LM.
  assert (PR : forall h' p', vslice h' s -> is_bytes (memory h' s) -> rd h' s = rd h s -> New h' ctx s v = Ok (Some p', None) ->
     shows_tcp p' (memory h' s) (hlen (rd h s))).
  { intros h' p' V' IB' R E'. destruct (New_source h' ctx s v p' V' IB' L1 L2 E') as [HLP' [ST' _]].
    rewrite R in *. apply ST'. rewrite (same_proto h h' ctx s v p p'); auto. }
  set (o := hlen (rd h s)) in *. split; [|split].
  - intros h' p' V' IB' R E'. destruct (PR h' p' V' IB' R E') as (-> & -> & -> & -> & -> & -> & _). rewrite S1, S2, S3, S4, S5, S6.
    assert (NN : forall i, (i < o + 14)%nat -> nth i (memory h' s) 0 = nth i (memory h s) 0).
    { intros i Hi. rewrite !nth_memory by (auto; lia). now rewrite R. }
    unfold l4_sport, l4_dport, tcp_seq, tcp_ack, tcp_offset, tcp_flags, byte_at, be16f, be32f.
    rewrite !(same_field h h' s) by (auto; lia). rewrite !NN by lia. auto 10.
  - intros H. destruct (le_lt_dec (o + 18) (s_len s)) as [Q|Q]; [exact Q|exfalso].
    assert (LC : (o + 18 <= s_cap s)%nat).
    { clear - E U V IB0 L1 L2 V3 HLP. unfold o, hlen in *. pose proof (vslice_len h s V) as LB. destruct (Z.eqb_spec (ip4_version (rd h s)) 4) as [VR|VR].
      - pose proof (New_v4 h ctx s v V IB0 L1 L2 VR) as X. rewrite E in X. destruct X as [CL A].
        destruct (a4_ip _ _ _ _ _ A) as (_ & _ & P & _). rewrite P in U. clear A P E.
        unfold classify4, zlen in CL. rewrite LB in CL. rewrite U in CL. unfold PROTO_TCP in CL. cbn [Z.eqb Pos.eqb] in CL.
        repeat match type of CL with (if ?c then _ else _) = _ => destruct c eqn:?; try discriminate end; lia.
      - pose proof (New_v6 h ctx s v V IB0 L1 L2 VR) as X. rewrite E in X. destruct X as [CL A].
        pose proof (a6_proto _ _ _ _ _ A) as P. unfold IPProto in U. rewrite P in U. clear A P E.
        unfold classify6, zlen in CL. rewrite LB in CL. rewrite U in CL. unfold PROTO_TCP in CL. cbn [Z.eqb Pos.eqb] in CL.
        repeat match type of CL with (if ?c then _ else _) = _ => destruct c eqn:?; try discriminate end; lia. }
    destruct (bumped h ctx s v p (o + 17) V IB L1 L2 E ltac:(lia)) as (h' & p' & V' & IB' & R & E' & B1 & B2 & B3).
    pose proof (H h' p' V' IB' R E') as D. destruct (PR h' p' V' IB' R E') as (_ & _ & _ & _ & _ & _ & D'). rewrite D', S7 in D.
    unfold tcp_checksum in D. specialize (B3 (o + 16)%nat ltac:(lia)). clear - D B1 B2 B3 LM LC. rewrite !be16f_nth in D by lia.
    replace (S (o + 16)) with (o + 17)%nat in D by lia. lia.
  - intros Q h' p' V' IB' R E'. destruct (PR h' p' V' IB' R E') as (_ & _ & _ & _ & _ & _ & ->). rewrite S7.
    unfold tcp_checksum, be16f. rewrite !(same_field h h' s) by (auto; lia). auto.
Qed.
Lemma ip6_addresses_own h ctx s v p : vslice h s -> is_bytes (memory h s) -> (1 <= s_len s)%nat -> Z.of_nat (s_len s) < 65536 ->
  New h ctx s v = Ok (Some p, None) -> ip4_version (rd h s) <> 4 ->
  ((forall h' p', vslice h' s -> is_bytes (memory h' s) -> rd h' s = rd h s -> New h' ctx s v = Ok (Some p', None) ->
      SourceAddress p' = SourceAddress p /\ DestinationAddress p' = DestinationAddress p) <-> (40 <= s_len s)%nat).
Proof.
  intros V IB L1 L2 E VR. pose proof V as (V1 & V2 & V3). pose proof (memory_bytes h s V IB) as IB0.
  pose proof (New_source6 h ctx s v p V IB L1 L2 E VR) as [(_ & _ & _ & _ & S1 & S2) _].
  pose proof (memory_length h s V) as LM.
  assert (PR : forall h' p', vslice h' s -> is_bytes (memory h' s) -> rd h' s = rd h s -> New h' ctx s v = Ok (Some p', None) ->
     SourceAddress p' = ip6_src (memory h' s) /\ DestinationAddress p' = ip6_dst (memory h' s)).
  { intros h' p' V' IB' R E'. pose proof (New_source6 h' ctx s v p' V' IB' L1 L2 E' ltac:(now rewrite R)) as [(_ & _ & _ & _ & T1 & T2) _]. auto. }
  split.
  - intros H. destruct (le_lt_dec 40 (s_len s)) as [Q|Q]; [exact Q|exfalso].
    assert (LC : (40 <= s_cap s)%nat).
    { pose proof (New_v6 h ctx s v V IB0 L1 L2 VR) as X. rewrite E in X. destruct X as [CL A]. unfold classify6 in CL.
      destruct (Z.ltb_spec (Z.of_nat (s_cap s)) 40); [rewrite orb_true_r in CL; discriminate|lia]. }
    destruct (bumped h ctx s v p 39 V IB L1 L2 E ltac:(lia)) as (h' & p' & V' & IB' & R & E' & B1 & B2 & B3).
    pose proof (H h' p' V' IB' R E') as [_ D]. destruct (PR h' p' V' IB' R E') as [_ D']. rewrite D', S2 in D.
    unfold ip6_dst, field in D. apply (f_equal (fun l => nth 15 l 0)) in D. rewrite !nth_firstn', !nth_skipn' in D by lia. auto.
  - intros Q h' p' V' IB' R E'. destruct (PR h' p' V' IB' R E') as [-> ->]. rewrite S1, S2.
    unfold ip6_src, ip6_dst. rewrite !(same_field h h' s) by (auto; lia). auto.
Qed.
