(** Packets made by [New] are in agreement with their bytes. *)
From Verif Require Export Proof.PktCsum.

Lemma kept_prefix v t (b : bytes) : exists n, kept v t b = firstn n b.
Proof. destruct v; [eexists; reflexivity|]. exists (length b). cbn. now rewrite firstn_all. Qed.
Lemma shows_tcp_firstn p b n o : (o + 20 <= n)%nat -> (o + 20 <= length b)%nat -> shows_tcp p b o -> shows_tcp p (firstn n b) o.
Proof.
  intros H1 H2. unfold shows_tcp, l4_sport, l4_dport, tcp_seq, tcp_ack, tcp_offset, tcp_flags, tcp_checksum, byte_at.
  rewrite !be16f_firstn, !be32f_firstn, !nth_firstn by lia. auto.
Qed.
Lemma shows_udp_firstn p b n o : (o + 8 <= n)%nat -> shows_udp p b o -> shows_udp p (firstn n b) o.
Proof. intros H1. unfold shows_udp, l4_sport, l4_dport. rewrite !be16f_firstn by lia. auto. Qed.

Lemma new_agrees : forall h ctx s v p,
  valid h s -> is_bytes (rd h s) -> (0 < s_len s)%nat -> Z.of_nat (s_len s) < 65536 ->
  New h ctx s v = Ok (Some p, None) -> (hl p <= s_len (Buffer p))%nat ->
  ip_agrees h p /\ tcpOptions p = snil /\ tcpData p = snil /\
  (IPProto p = PROTO_TCP -> (hl p + 20 <= s_len (Buffer p))%nat -> tcp_agrees h p) /\
  (IPProto p = PROTO_UDP -> (hl p + 8 <= s_len (Buffer p))%nat -> udp_agrees h p).
Proof.
  intros h ctx s v p VA IB L1 L2 E HLB. pose proof (valid_vslice h s VA L1) as V. pose proof (vslice_len h s V) as LB.
  pose proof V as (V1 & V2 & V3).
  destruct (Z.eq_dec (ip4_version (rd h s)) 4) as [VER|VER].
  - pose proof (New_v4 h ctx s v V IB L1 L2 VER) as X. rewrite E in X.
    destruct X as [CL [_ A2 A3 _ (n & A5 & A6 & A7) A8 A9 _]].
    destruct A2 as (I1 & I2 & I3 & I4 & I5 & I6 & I7 & I8).
    assert (VB : valid h (Buffer p)) by (rewrite A5; split; cbn [s_len s_cap s_arr s_off]; [lia|right; lia]).
    assert (LN : s_len (Buffer p) = n) by (rewrite A5; reflexivity).
    assert (RB : rd h (Buffer p) = firstn n (rd h s)).
    { rewrite A5. unfold rd. cbn [s_len s_off s_arr]. rewrite firstn_firstn, Nat.min_l by lia. reflexivity. }
    unfold hl in HLB |- *. rewrite I1 in *.
    assert (B0 : byte_at (rd h s) 0 = 69).
    { unfold classify4 in CL. unfold ip4_version in VER. unfold ip4_ihl in CL.
      destruct (zlen (rd h s) <? 20); [discriminate|]. destruct (byte_at (rd h s) 0 mod 16 =? 5) eqn:Q; cbn in CL; [|discriminate]. lia. }
    assert (AG : ip_agrees h p).
    { unfold ip_agrees. rewrite I1, RB. split; [exact VB|]. split; [apply is_bytes_firstn; exact IB|].
      split; [lia|]. split; [rewrite firstn_length; lia|].
      unfold byte_at, ip4_proto, ip4_total, ip4_checksum, ip4_src, ip4_dst, byte_at in *.
      rewrite !nth_firstn, !be16f_firstn, !field_firstn by lia. auto 10. }
    split; [exact AG|]. split; [exact A8|]. split; [exact A9|]. split; intros PR LL.
    + split; [exact AG|]. split; [exact PR|]. unfold hl. rewrite I1, RB, firstn_length. split; [lia|].
      apply shows_tcp_firstn; try lia. apply (sl_tcp _ _ _ _ A3); auto. lia.
    + split; [exact AG|]. split; [exact PR|]. unfold hl. rewrite I1, RB, firstn_length. split; [lia|].
      apply shows_udp_firstn; try lia. apply (sl_udp _ _ _ _ A3); auto. lia.
  - pose proof (New_v6 h ctx s v V IB L1 L2 VER) as X. rewrite E in X.
    destruct X as [CL [_ A2 A3 _ I1 I2 I3 ICS (n & A5 & A6 & A7) A8 A9 _]].
    assert (VB : valid h (Buffer p)) by (rewrite A5; split; cbn [s_len s_cap s_arr s_off]; [lia|right; lia]).
    assert (LN : s_len (Buffer p) = n) by (rewrite A5; reflexivity).
    assert (RB : rd h (Buffer p) = firstn n (rd h s)).
    { rewrite A5. unfold rd. cbn [s_len s_off s_arr]. rewrite firstn_firstn, Nat.min_l by lia. reflexivity. }
    unfold hl in HLB |- *. rewrite I1 in *. specialize (A2 ltac:(lia)).
    destruct A2 as (_ & _ & J3 & J4 & J5 & J6).
    assert (AG : ip_agrees h p).
    { unfold ip_agrees. rewrite I1, RB. split; [exact VB|]. split; [apply is_bytes_firstn; exact IB|].
      split; [lia|]. split; [rewrite firstn_length; lia|].
      unfold byte_at, ip6_next, ip6_payload, ip6_src, ip6_dst, byte_at in *.
      rewrite !nth_firstn, !be16f_firstn, !field_firstn by lia. rewrite ICS.
      split; [exact I2|]. split; [exact J3|]. split; [exact J4|]. split; [lia|]. split; [exact J5|exact J6]. }
    split; [exact AG|]. split; [exact A8|]. split; [exact A9|]. split; intros PR LL.
    + split; [exact AG|]. split; [exact PR|]. unfold hl. rewrite I1, RB, firstn_length. split; [lia|].
      apply shows_tcp_firstn; try lia. apply (sl_tcp _ _ _ _ A3); auto. lia.
    + split; [exact AG|]. split; [exact PR|]. unfold hl. rewrite I1, RB, firstn_length. split; [lia|].
      apply shows_udp_firstn; try lia. apply (sl_udp _ _ _ _ A3); auto. lia.
Qed.
Lemma fresh_attached h p : ip_agrees h p -> tcpOptions p = snil -> tcpData p = snil -> attached_ok h p /\ even_pieces h p.
Proof.
  intros A O D. pose proof (agrees_vslice h p A) as VS. pose proof (vslice_len h _ VS) as LB.
  unfold attached_ok, even_pieces, apart, GetTCPBytes. rewrite O, D. cbn [s_len snil].
  assert (R : rd h snil = []) by reflexivity. rewrite R, !app_nil_r. unfold zlen. rewrite LB.
  assert (VN : valid h snil) by (split; cbn; [lia|left; reflexivity]).
  split; [|split; right; auto]. split; [exact VN|]. split; [exact VN|]. split; [constructor|]. split; [constructor|].
  split; [left; reflexivity|]. split; [left; reflexivity|]. destruct A as (_ & _ & X & _). exact X.
Qed.
