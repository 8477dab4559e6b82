(** Parsing NFLOG datagrams (C25-C27). *)
From Verif Require Export Proof.MessageFacts Proof.PktParse Proof.SysFacts Spec.LogSpec.
From Coq Require Import Bool.

(** ** Readers *)
Lemma le16_num b : (2 <= length b)%nat -> le16 b = num LE (field b 0 2).
Proof. intros H. destruct b as [|x [|y b]]; cbn in H; try lia. unfold le16. cbn. lia. Qed.
Lemma le32_num b : (4 <= length b)%nat -> le32 b = num LE (field b 0 4).
Proof. intros H. destruct b as [|x [|y [|z [|t b]]]]; cbn in H; try lia. unfold le32. cbn. lia. Qed.
Lemma le16_at b o : (o + 2 <= length b)%nat -> le16 (skipn o b) = num LE (field b o 2).
Proof. intros H. rewrite le16_num by (rewrite skipn_length; lia). rewrite field_skipn, Nat.add_0_r. reflexivity. Qed.
Lemma num4_nonneg b o : is_bytes b -> 0 <= num LE (field b o 4).
Proof.
  intros H. unfold num, be_num. rewrite <- fold_left_rev_right, rev_involutive.
  assert (K : is_bytes (field b o 4)) by (apply is_bytes_firstn, is_bytes_skipn, H).
  induction (field b o 4) as [|x l IH]; cbn; [lia|]. inversion K as [|? ? X Y]; subst.
  specialize (IH Y). red in X. lia.
Qed.
Lemma num4_lt b o : is_bytes b -> (o + 4 <= length b)%nat -> num LE (field b o 4) < 4294967296.
Proof.
  intros H L. assert (X : is_u32 (num LE (field b o 4))); [|apply X].
  eapply get32_range; [apply (is_bytes_skipn o), H|]. apply num4_at, L.
Qed.

Lemma removelast_firstn_len' (l : bytes) : removelast l = firstn (length l - 1) l.
Proof. rewrite removelast_firstn_len. f_equal. lia. Qed.
Lemma removelast_len (l : bytes) : length (removelast l) = (length l - 1)%nat.
Proof. rewrite removelast_firstn_len', firstn_length. lia. Qed.
Lemma skipn_removelast k (l : bytes) : skipn k (removelast l) = removelast (skipn k l).
Proof.
  rewrite !removelast_firstn_len', skipn_firstn_comm, skipn_length. f_equal. lia.
Qed.
Lemma NfaAlign16_al4 n : (n <= Z.to_nat 65532)%nat -> NfaAlign16 (Z.of_nat n) = Z.of_nat (al4 n).
Proof.
  intros H. unfold NfaAlign16, u16. rewrite Z.mod_small by lia.
  change 65532 with (Z.shiftl (Z.ones 14) 2).
  assert (X : 0 <= Z.of_nat n + 3 < 65536) by lia.
  set (v := Z.of_nat n + 3) in *.
  replace (Z.land v (Z.shiftl (Z.ones 14) 2)) with (Z.shiftl (Z.shiftr v 2) 2).
  - rewrite Z.shiftl_mul_pow2, Z.shiftr_div_pow2 by lia. rewrite al4_Z. fold v. lia.
  - apply Z.bits_inj'. intros i Hi. rewrite Z.land_spec.
    destruct (Z.lt_ge_cases i 2) as [A|A].
    + rewrite !Z.shiftl_spec_low by lia. rewrite andb_false_r. reflexivity.
    + rewrite !Z.shiftl_spec by lia. rewrite Z.shiftr_spec by lia.
      replace (i - 2 + 2) with i by lia.
      destruct (Z.lt_ge_cases (i - 2) 14) as [B|B].
      * rewrite Z.ones_spec_low by lia. rewrite andb_true_r. reflexivity.
      * rewrite Z.ones_spec_high by lia. rewrite andb_false_r.
        apply Z.bits_above_log2; [lia|]. destruct (Z.eq_dec v 0) as [E|E]; [rewrite E; cbn; lia|].
        apply Z.log2_lt_pow2; [lia|]. apply Z.lt_le_trans with (2 ^ 16); [cbn; lia|].
        apply Z.pow_le_mono_r; lia.
Qed.

(** ** What is read of one attribute when the message's last byte is missing *)
Section ATTR.
Context (a : bytes) (n : nat).
Hypothesis A4 : (4 <= length a)%nat.
Hypothesis N4 : (4 <= n)%nat.
Hypothesis NA : (n <= length a)%nat.
Let v := field a 4 (n - 4).
Let rest := skipn (al4 n) a.
Hypothesis NE : rest = [] -> v <> [].
Let al := al4 (n - 4).

Lemma attr_al : al4 n = (4 + al)%nat.
Proof. unfold al, al4. replace (n + 3)%nat with (n - 4 + 3 + 1 * 4)%nat by lia. rewrite Nat.div_add by lia. lia. Qed.
Lemma attr_v_len : length v = (n - 4)%nat.
Proof. unfold v. apply field_length. lia. Qed.
Lemma attr_hdr_len : (4 <= length (removelast a))%nat.
Proof.
  rewrite removelast_len. destruct rest as [|x r] eqn:E.
  - specialize (NE eq_refl). assert (length v <> 0)%nat by (destruct v; [congruence|discriminate]).
    rewrite attr_v_len in *. lia.
  - assert (length (skipn (al4 n) a) = S (length r)) by (fold rest; rewrite E; reflexivity).
    rewrite skipn_length in *. pose proof (al4_spec n). lia.
Qed.
Lemma attr_hdr_field o k : (o + k <= 4)%nat -> field (removelast a) o k = field a o k.
Proof.
  intros H. pose proof attr_hdr_len as L. rewrite removelast_len in L.
  unfold field. rewrite removelast_firstn_len', skipn_firstn_comm, firstn_firstn. f_equal. lia.
Qed.
Lemma attr_rest : skipn al (skipn 4 (removelast a)) = removelast rest.
Proof. rewrite skipn_skipn, skipn_removelast. unfold rest. rewrite attr_al. do 2 f_equal. lia. Qed.
Let clip := ((length a =? n)%nat && match rest with [] => true | _ => false end)%bool.
Let seen := read_into (skipn 4 (removelast a)) (Z.of_nat al).
Lemma seen_len : length seen = al.
Proof. unfold seen, read_into. rewrite app_length, repeat_length, firstn_length, Nat2Z.id. lia. Qed.
Lemma seen_bytes : is_bytes a -> is_bytes seen.
Proof.
  intros H. unfold seen, read_into. apply is_bytes_app. split; [|apply is_bytes_repeat].
  apply is_bytes_firstn, is_bytes_skipn. rewrite removelast_firstn_len'. apply is_bytes_firstn, H.
Qed.
Lemma seen_nth i : (i < n - 4)%nat -> (clip = true -> S i < n - 4)%nat -> nth i seen 0 = nth i v 0.
Proof.
  intros H C. pose proof (al4_spec (n - 4)) as [X _]. fold al in X.
  assert (I : (4 + i < length a - 1)%nat).
  { destruct (Nat.eqb_spec (length a) n) as [E|E].
    - destruct rest as [|x r] eqn:R.
      + assert (clip = true) as K by (unfold clip; destruct (Nat.eqb_spec (length a) n); [reflexivity|congruence]).
        specialize (C K). lia.
      + assert (length (skipn (al4 n) a) = S (length r)) by (fold rest; rewrite R; reflexivity).
        rewrite skipn_length in *. pose proof (al4_spec n). lia.
    - lia. }
  unfold seen, read_into. rewrite Nat2Z.id.
  rewrite app_nth1 by (rewrite firstn_length, skipn_length, removelast_len; lia).
  rewrite nth_firstn' by lia. rewrite nth_skipn', removelast_firstn_len', nth_firstn' by lia.
  unfold v, field. rewrite nth_firstn' by lia. rewrite nth_skipn'. reflexivity.
Qed.
Lemma seen_shown : firstn (n - 4) seen = shown_payload v clip.
Proof.
  pose proof (al4_spec (n - 4)) as [X _]. fold al in X. pose proof seen_len as SL. pose proof attr_v_len as VL.
  assert (P : clip = true -> (1 <= n - 4)%nat).
  { intros C. unfold clip in C. apply andb_true_iff in C as [_ C]. destruct rest eqn:R; [|discriminate].
    specialize (NE eq_refl). rewrite <- VL. destruct v; [congruence|cbn; lia]. }
  apply (nth_ext _ _ 0 0).
  - rewrite firstn_length, SL. unfold shown_payload. destruct clip; [|lia].
    rewrite app_length, removelast_len. change (length [0]) with 1%nat. specialize (P eq_refl). lia.
  - intros i Hi. rewrite firstn_length, SL in Hi. rewrite nth_firstn' by lia.
    unfold shown_payload. destruct clip eqn:C; [|apply seen_nth; [lia|congruence]].
    specialize (P eq_refl).
    destruct (Nat.eq_dec i (n - 5)) as [->|E].
    + rewrite app_nth2 by (rewrite removelast_len; lia). rewrite removelast_len, VL.
      replace (n - 5 - (n - 4 - 1))%nat with 0%nat by lia. cbn [nth].
      unfold clip in C. apply andb_true_iff in C as [C _]. apply Nat.eqb_eq in C.
      unfold seen, read_into. rewrite Nat2Z.id.
      rewrite app_nth2 by (rewrite firstn_length, skipn_length, removelast_len; lia).
      apply nth_repeat.
    + rewrite app_nth1 by (rewrite removelast_len; lia).
      rewrite removelast_firstn_len', nth_firstn' by lia. apply seen_nth; [lia|lia].
Qed.
End ATTR.

(** ** The logged packet *)
Lemma field_agree x y k o n : (forall i, (i < k)%nat -> nth i x 0 = nth i y 0) ->
  (o + n <= k)%nat -> (k <= length x)%nat -> (k <= length y)%nat -> field x o n = field y o n.
Proof.
  intros H A B C. apply (nth_ext _ _ 0 0); [rewrite !field_length by lia; reflexivity|].
  intros i Hi. rewrite field_length in Hi by lia. unfold field.
  rewrite !nth_firstn' by lia. rewrite !nth_skipn'. apply H. lia.
Qed.
Lemma payload_parsed v seen clipped :
  logged_ip4 v clipped -> is_bytes seen -> length seen = al4 (length v) -> (length seen < Z.to_nat 65536)%nat ->
  (forall i, (i < length v)%nat -> (clipped = true -> S i < length v)%nat -> nth i seen 0 = nth i v 0) ->
  exists p, New [seen] PacketTypeNetwork (mkSl 0 0 (length seen) (length seen)) false = Ok (Some p, None) /\
    SourceAddress p = ip4_src v /\ DestinationAddress p = ip4_dst v /\ IPProto p = ip4_proto v /\
    IPTotalLen p = ip4_total v /\ is_decimal (ip4_id v) (ID p) /\
    (ip4_proto v = PROTO_TCP \/ ip4_proto v = PROTO_UDP ->
       SourcePort p = l4_sport v 20 /\ DestPort p = l4_dport v 20).
Proof.
  intros (B0 & LV & TC & UD) IB SL SR AG. pose proof (al4_spec (length v)) as [AS _].
  set (s := mkSl 0 0 (length seen) (length seen)).
  assert (L20 : (20 <= length v)%nat) by (destruct clipped; lia).
  assert (A20 : forall i, (i < 20)%nat -> nth i seen 0 = nth i v 0).
  { intros i Hi. apply AG; [lia|]. intros ->. lia. }
  assert (RD : rd [seen] s = seen).
  { unfold rd, s. cbn [s_arr s_off s_len arr nth]. unfold arr. cbn [nth]. rewrite skipn_O. apply firstn_all. }
  assert (VS : vslice [seen] s).
  { apply valid_vslice; [|cbn; lia]. split; [cbn; lia|]. right. split; [cbn; lia|]. unfold arr; cbn. lia. }
  assert (E0 : byte_at seen 0 = 69) by (unfold byte_at; rewrite A20 by lia; exact B0).
  assert (F : forall o n, (o + n <= 20)%nat -> field seen o n = field v o n).
  { intros o n H. apply (field_agree _ _ 20); auto; lia. }
  assert (EP : ip4_proto seen = ip4_proto v) by (apply A20; lia).
  assert (ET : ip4_total seen = ip4_total v) by (unfold ip4_total, be16f; rewrite F by lia; reflexivity).
  pose proof (New_v4 [seen] PacketTypeNetwork s false VS) as X. rewrite RD in X.
  specialize (X IB ltac:(cbn; lia) ltac:(cbn [s_len s]; lia)).
  assert (VER : ip4_version seen = 4) by (unfold ip4_version; rewrite E0; reflexivity).
  specialize (X VER).
  assert (CL : classify4 seen (Z.of_nat (s_cap s)) false = Accepts).
  { unfold classify4, zlen, s. cbn [s_cap andb]. unfold ip4_ihl. rewrite E0, EP, ET. cbn [Z.modulo Z.div_eucl].
    destruct (Z.ltb_spec (Z.of_nat (length seen)) 20); [lia|]. change (negb (69 mod 16 =? 5)) with false. cbv iota.
    destruct (Z.eqb_spec (ip4_proto v) PROTO_TCP) as [T|T].
    - destruct (TC T) as [T1 T2]. unfold stated_too_small.
      destruct (Z.ltb_spec (ip4_total v) (20 + 20)); [lia|]. rewrite andb_false_r.
      assert (40 <= length seen)%nat by (rewrite SL; unfold al4; lia).
      destruct (Z.ltb_spec (Z.of_nat (length seen)) 34); [lia|].
      destruct (Z.ltb_spec (Z.of_nat (length seen)) 38); [lia|]. reflexivity.
    - destruct (Z.eqb_spec (ip4_proto v) PROTO_UDP) as [U|U]; [|reflexivity].
      destruct (UD U) as [T1 T2]. unfold stated_too_small.
      destruct (Z.ltb_spec (ip4_total v) (20 + 8)); [lia|]. rewrite andb_false_r.
      assert (28 <= length seen)%nat by (rewrite SL; unfold al4; lia).
      destruct (Z.ltb_spec (Z.of_nat (length seen)) 28); [lia|]. reflexivity. }
  destruct (New [seen] PacketTypeNetwork s false) as [[[p|] [er|]]| |] eqn:EN; try (rewrite CL in X; discriminate); try contradiction.
  destruct X as [_ A]. exists p. split; [reflexivity|].
  destruct A as [_ (_ & _ & P & T & I & _ & S & D) L4 _ _ _ _ _]. rewrite RD in P, T, I, S, D.
  rewrite S, D, P, T. unfold ip4_src, ip4_dst, ip4_id, be16f in *.
  rewrite !F in * by lia. repeat (split; [assumption || reflexivity|]).
  assert (FP : (25 <= length v)%nat -> l4_sport seen 20 = l4_sport v 20 /\ l4_dport seen 20 = l4_dport v 20).
  { intros K. unfold l4_sport, l4_dport, be16f.
    assert (A24 : forall i, (i < 24)%nat -> nth i seen 0 = nth i v 0) by (intros i Hi; apply AG; lia).
    rewrite !(field_agree seen v 24) by first [exact A24|lia]. auto. }
  unfold IPProto in P. destruct L4 as [L1 _ L2 _]. rewrite RD in L1, L2. change (Z.to_nat 20) with 20%nat in *.
  intros [Q|Q].
  - destruct (TC Q) as [_ K]. destruct (FP ltac:(lia)) as [<- <-].
    assert (40 <= length seen)%nat by (rewrite SL; unfold al4; lia).
    destruct (L1 ltac:(congruence) ltac:(cbn [s s_len]; lia)) as (? & ? & _); auto.
  - destruct (UD Q) as [_ K]. destruct (FP ltac:(lia)) as [<- <-].
    assert (28 <= length seen)%nat by (rewrite SL; unfold al4; lia).
    apply L2; [congruence|cbn [s s_len]; lia].
Qed.

Lemma payload_parsed6 v seen clipped :
  logged_ip6 v clipped -> is_bytes seen -> length seen = al4 (length v) -> (length seen < Z.to_nat 65536)%nat ->
  (forall i, (i < length v)%nat -> (clipped = true -> S i < length v)%nat -> nth i seen 0 = nth i v 0) ->
  exists p, New [seen] PacketTypeNetwork (mkSl 0 0 (length seen) (length seen)) false = Ok (Some p, None) /\
    SourceAddress p = ip6_src v /\ DestinationAddress p = ip6_dst v /\ IPProto p = ip6_next v /\
    IPTotalLen p = (40 + ip6_payload v) mod 65536 /\
    (ip6_next v = PROTO_TCP \/ ip6_next v = PROTO_UDP ->
       SourcePort p = l4_sport v 40 /\ DestPort p = l4_dport v 40).
Proof.
  intros (B0 & LV & TC & UD) IB SL SR AG. pose proof (al4_spec (length v)) as [AS _].
  set (s := mkSl 0 0 (length seen) (length seen)).
  assert (L40 : (40 <= length v)%nat) by (destruct clipped; lia).
  assert (A40 : forall i, (i < 40)%nat -> nth i seen 0 = nth i v 0).
  { intros i Hi. apply AG; [lia|]. intros ->. lia. }
  assert (RD : rd [seen] s = seen).
  { unfold rd, s. cbn [s_arr s_off s_len arr nth]. unfold arr. cbn [nth]. rewrite skipn_O. apply firstn_all. }
  assert (VS : vslice [seen] s).
  { apply valid_vslice; [|cbn; lia]. split; [cbn; lia|]. right. split; [cbn; lia|]. unfold arr; cbn. lia. }
  assert (E0 : ip4_version seen = 6) by (unfold ip4_version, byte_at; rewrite A40 by lia; exact B0).
  assert (F : forall o n, (o + n <= 40)%nat -> field seen o n = field v o n).
  { intros o n H. apply (field_agree _ _ 40); auto; lia. }
  assert (EP : ip6_next seen = ip6_next v) by (apply A40; lia).
  assert (ET : ip6_payload seen = ip6_payload v) by (unfold ip6_payload, be16f; rewrite F by lia; reflexivity).
  pose proof (New_v6 [seen] PacketTypeNetwork s false VS) as X. rewrite RD in X.
  specialize (X IB ltac:(cbn; lia) ltac:(cbn [s_len s]; lia) ltac:(lia)).
  assert (CL : classify6 seen (Z.of_nat (s_cap s)) false = Accepts).
  { unfold classify6, zlen, s. cbn [s_cap andb]. rewrite orb_false_r, EP, ET.
    destruct (Z.ltb_spec (Z.of_nat (length seen)) 7); [lia|].
    destruct (Z.ltb_spec (Z.of_nat (length seen)) 40); [lia|]. cbn [orb].
    destruct (Z.eqb_spec (ip6_next v) PROTO_TCP) as [T|T].
    - destruct (TC T) as [T1 T2]. destruct (Z.ltb_spec (ip6_payload v) 20); [lia|].
      assert (60 <= length seen)%nat by (rewrite SL; unfold al4; lia).
      destruct (Z.ltb_spec (Z.of_nat (length seen)) 54); [lia|].
      destruct (Z.ltb_spec (Z.of_nat (length seen)) 58); [lia|]. reflexivity.
    - destruct (Z.eqb_spec (ip6_next v) PROTO_UDP) as [U|U]; [|reflexivity].
      destruct (UD U) as [T1 T2]. destruct (Z.ltb_spec (ip6_payload v) 8); [lia|].
      assert (48 <= length seen)%nat by (rewrite SL; unfold al4; lia).
      destruct (Z.ltb_spec (Z.of_nat (length seen)) 48); [lia|]. reflexivity. }
  destruct (New [seen] PacketTypeNetwork s false) as [[[p|] [er|]]| |] eqn:EN; try (rewrite CL in X; discriminate); try contradiction.
  destruct X as [_ A]. exists p. split; [reflexivity|].
  destruct A as [_ SH L4 _ _ _ _ _ _ _ _ _]. rewrite RD in SH. specialize (SH ltac:(cbn [s s_len]; lia)).
  destruct SH as (_ & _ & P & T & S & D). rewrite S, D, P, T, EP, ET. unfold ip6_src, ip6_dst.
  rewrite !F by lia. repeat (split; [reflexivity|]).
  assert (FP : (45 <= length v)%nat -> l4_sport seen 40 = l4_sport v 40 /\ l4_dport seen 40 = l4_dport v 40).
  { intros K. unfold l4_sport, l4_dport, be16f.
    assert (A44 : forall i, (i < 44)%nat -> nth i seen 0 = nth i v 0) by (intros i Hi; apply AG; lia).
    rewrite !(field_agree seen v 44) by first [exact A44|lia]. auto. }
  unfold IPProto in P. destruct L4 as [L1 _ L2 _]. rewrite RD in L1, L2. change (Z.to_nat 40) with 40%nat in *.
  intros [Q|Q].
  - destruct (TC Q) as [_ K]. destruct (FP ltac:(lia)) as [<- <-].
    assert (60 <= length seen)%nat by (rewrite SL; unfold al4; lia).
    destruct (L1 ltac:(congruence) ltac:(cbn [s s_len]; lia)) as (? & ? & _); auto.
  - destruct (UD Q) as [_ K]. destruct (FP ltac:(lia)) as [<- <-].
    assert (48 <= length seen)%nat by (rewrite SL; unfold al4; lia).
    apply L2; [congruence|cbn [s s_len]; lia].
Qed.
Lemma payload_headers v seen clipped :
  logged_ip v clipped -> is_bytes seen -> length seen = al4 (length v) -> (length seen < Z.to_nat 65536)%nat ->
  (forall i, (i < length v)%nat -> (clipped = true -> S i < length v)%nat -> nth i seen 0 = nth i v 0) ->
  exists p, New [seen] PacketTypeNetwork (mkSl 0 0 (length seen) (length seen)) false = Ok (Some p, None) /\
    headers_shown v (SourceAddress p) (DestinationAddress p) (IPProto p) (IPTotalLen p) (ID p) (SourcePort p) (DestPort p).
Proof.
  intros [L|L] IB SL SR AG; unfold headers_shown.
  - destruct (payload_parsed v seen clipped L IB SL SR AG) as (p & EN & S & D & P & T & I & PO).
    exists p. split; [exact EN|]. destruct L as (B0 & _). unfold ip4_version. rewrite B0. cbn [Z.eqb].
    change (69 / 16 =? 4) with true. cbv iota. rewrite P. auto 10.
  - destruct (payload_parsed6 v seen clipped L IB SL SR AG) as (p & EN & S & D & P & T & PO).
    exists p. split; [exact EN|]. destruct L as (B0 & _). rewrite B0. change (6 =? 4) with false. cbv iota. rewrite P. auto 10.
Qed.

(** ** The attributes of one message *)
Definition after (w : world nflog) (evs : list event) : world nflog :=
  mkW (w_st w) (w_heap w) (w_tr w ++ evs).
Lemma after_nil w : after w [] = w.
Proof. unfold after. rewrite app_nil_r. destruct w; reflexivity. Qed.
Lemma after_app w a b : after (after w a) b = after w (a ++ b).
Proof. unfold after. cbn. rewrite app_assoc. reflexivity. Qed.

Lemma upto_ok l k : 0 <= k <= zlen l -> upto l k = Ok (firstn (Z.to_nat k) l).
Proof.
  intros H. unfold upto. rewrite gsl_ok by lia. unfold sub. change (Z.to_nat 0) with 0%nat.
  rewrite skipn_O, Nat.sub_0_r. reflexivity.
Qed.
Lemma attrs_of_step a t v l : attrs_of LE a = Some ((t, v) :: l) ->
  exists n, n = Z.to_nat (num LE (field a 0 2)) /\ (4 <= length a)%nat /\ (4 <= n)%nat /\ (n <= length a)%nat /\
    t = num LE (field a 2 2) /\ v = field a 4 (n - 4) /\ attrs_of LE (skipn (al4 n) a) = Some l.
Proof.
  unfold attrs_of at 1. rewrite attrs_go_S. destruct a as [|a0 a1] eqn:Ea; [discriminate|]. rewrite <- Ea in *.
  cbv zeta. set (n := Z.to_nat (num LE (field a 0 2))).
  destruct (Nat.ltb_spec (length a) 4) as [A|A]; [discriminate|].
  destruct (Nat.ltb_spec n 4) as [B|B]; [discriminate|].
  destruct (Nat.ltb_spec (length a) n) as [C|C]; [discriminate|]. cbn [orb].
  destruct (attrs_go (length a) LE (skipn (al4 n) a)) as [l'|] eqn:E; [|discriminate].
  intros X. injection X as <- <- <-. exists n. repeat (split; [auto; fail|]).
  unfold attrs_of. rewrite <- E. apply attrs_go_fuel with (n := length (skipn (al4 n) a)); [lia|lia|].
  rewrite skipn_length. pose proof (al4_spec n). lia.
Qed.
Lemma attrs_of_empty a : attrs_of LE a = Some [] -> a = [].
Proof.
  unfold attrs_of. rewrite attrs_go_S. destruct a as [|x a]; [reflexivity|]. cbv zeta.
  destruct (_ || _ || _); [discriminate|]. destruct (attrs_go _ _ _); discriminate.
Qed.
Lemma attrs_of_nonempty a l : attrs_of LE a = Some l -> a <> [] -> l <> [].
Proof. intros H N ->. apply N, attrs_of_empty, H. Qed.
(** the clip flag computed on the rest of the attributes is the same *)
Lemma packed_step (a : bytes) n (v : bytes) t l : (4 <= n <= length a)%nat -> length v = (n - 4)%nat ->
  attrs_of LE (skipn (al4 n) a) = Some l ->
  unpadded a ((t, v) :: l) =
    match l with [] => (length a =? n)%nat | _ => unpadded (skipn (al4 n) a) l end.
Proof.
  intros H LV E. unfold unpadded. cbn [packed_len]. destruct l as [|[t' v'] l'].
  - rewrite LV. replace (4 + (n - 4))%nat with n by lia. reflexivity.
  - rewrite LV. replace (4 + (n - 4))%nat with n by lia. rewrite skipn_length.
    assert (al4 n < length a)%nat.
    { destruct (attrs_of_step _ _ _ _ E) as (k & _ & X & _). rewrite skipn_length in X. lia. }
    destruct (Nat.eqb_spec (length a) (al4 n + packed_len ((t', v') :: l')));
      destruct (Nat.eqb_spec (length a - al4 n) (packed_len ((t', v') :: l'))); auto; lia.
Qed.

Lemma tlv_walk : forall l a f m e w,
  is_bytes a -> attrs_of LE a = Some l -> l_cb (w_st w) = true -> (length a <= f)%nat ->
  (forall v, In (ATTR_PREFIX, v) l -> v <> []) -> (forall t l', l <> l' ++ [(t, [])]) ->
  Forall (fun d => logged_ip (snd (fst d)) (snd d)) (deliveries (unpadded a l) (np_prefix m) l) ->
  exists evs, tlv_loop f (removelast a) m e w = (Ok None, after w evs) /\
    Forall2 delivers evs (deliveries (unpadded a l) (np_prefix m) l).
Proof.
  induction l as [|[t v] l IH]; intros a f m e w IB E CB HF PN LN FA.
  - apply attrs_of_empty in E. subst a. exists []. rewrite after_nil.
    split; [destruct f; reflexivity|constructor].
  - destruct (attrs_of_step _ _ _ _ E) as (n & En & A4 & N4 & NA & Et & Ev & Er).
    assert (NZ : Z.of_nat n = num LE (field a 0 2)).
    { rewrite En. apply Z2Nat.id. apply (num2_range LE a 0); [exact IB|lia]. }
    assert (NR : Z.of_nat n < 65536).
    { rewrite NZ. apply (num2_range LE a 0); [exact IB|lia]. }
    assert (NE : skipn (al4 n) a = [] -> field a 4 (n - 4) <> []).
    { intros X. rewrite X in Er. cbn in Er. injection Er as <-. rewrite <- Ev. intros ->. apply (LN t []). reflexivity. }
    pose proof (attr_hdr_len a n A4 N4 NA NE) as HL.
    pose proof (attr_v_len a n A4 N4 NA) as VL. rewrite <- Ev in VL.
    pose proof (packed_step a n v t l ltac:(lia) VL Er) as PS.
    destruct f as [|f]; [rewrite removelast_len in HL; lia|].
    assert (IR : is_bytes (skipn (al4 n) a)) by (apply is_bytes_skipn, IB).
    assert (HF' : (length (skipn (al4 n) a) <= f)%nat) by (rewrite skipn_length; pose proof (al4_spec n); lia).
    assert (PN' : forall v0, In (ATTR_PREFIX, v0) l -> v0 <> []) by (intros v0 H; apply PN; right; exact H).
    assert (LN' : forall t0 l', l <> l' ++ [(t0, [])]).
    { intros t0 l' H. apply (LN t0 ((t, v) :: l')). rewrite H. reflexivity. }
    (* the flag of the rest *)
    assert (UR : forall p, deliveries (unpadded a ((t, v) :: l)) p l = deliveries (unpadded (skipn (al4 n) a) l) p l).
    { intros p. rewrite PS. destruct l; reflexivity. }
    set (clip := ((length a =? n)%nat && match skipn (al4 n) a with [] => true | _ => false end)%bool).
    assert (CLP : (unpadded a ((t, v) :: l) && match l with [] => true | _ => false end)%bool = clip).
    { rewrite PS. unfold clip. destruct l as [|x l0].
      - apply attrs_of_empty in Er. rewrite Er. reflexivity.
      - destruct (skipn (al4 n) a) eqn:K; [discriminate Er|]. rewrite !andb_false_r. reflexivity. }
    pose proof (al4_spec (n - 4)) as [AS _].
    pose proof (seen_len a n A4 N4 NA) as SL. pose proof (seen_bytes a n IB) as SB.
    pose proof (seen_nth a n A4 N4 NA NE) as SN. pose proof (seen_shown a n A4 N4 NA NE) as SS.
    fold clip in SN, SS. rewrite <- Ev in SN, SS.
    pose proof (attr_rest a n A4 N4 NA) as AR.
    assert (PL : u16 (num LE (field a 0 2) - 4) = Z.of_nat (n - 4)).
    { rewrite <- NZ. unfold u16. rewrite Z.mod_small by lia. lia. }
    assert (AL : NfaAlign16 (Z.of_nat (n - 4)) = Z.of_nat (al4 (n - 4))) by (apply NfaAlign16_al4; lia).
    set (r := removelast a) in *. cbn [tlv_loop].
    destruct r as [|r0 r1] eqn:Er0; [cbn in HL; lia|]. rewrite <- Er0 in *. clear Er0 r0 r1.
    destruct (Nat.ltb_spec (length r) 4) as [X|_]; [lia|].
    rewrite (le16_num r) by lia. rewrite (le16_at r 2) by lia.
    change (field r 0 2) with (field (removelast a) 0 2). change (field r 2 2) with (field (removelast a) 2 2).
    rewrite !(attr_hdr_field a n A4 N4 NA NE) by lia. rewrite <- Et, PL, AL, Nat2Z.id, AR.
    set (seen := read_into (skipn 4 r) (Z.of_nat (al4 (n - 4)))) in *.
    cbn [deliveries] in FA |- *.
    change NFULA_PREFIX with ATTR_PREFIX. change NFULA_PAYLOAD with ATTR_PAYLOAD.
    destruct (Z.eqb_spec t ATTR_PREFIX) as [T1|T1].
    + assert (VN : v <> []) by (apply PN; left; rewrite T1; reflexivity).
      assert (1 <= n - 4)%nat by (rewrite <- VL; destruct v; [congruence|cbn; lia]).
      replace (u16 (Z.of_nat (n - 4) - 1)) with (Z.of_nat (n - 5))
        by (unfold u16; rewrite Z.mod_small by lia; lia).
      rewrite upto_ok by (unfold zlen; rewrite SL; lia). rewrite Nat2Z.id, bind_lift_ok.
      assert (PX : firstn (n - 5) seen = removelast v).
      { apply (nth_ext _ _ 0 0); [rewrite firstn_length, removelast_len, SL, VL; lia|].
        intros i Hi. rewrite firstn_length, SL in Hi. rewrite nth_firstn' by lia.
        rewrite removelast_firstn_len', nth_firstn' by lia. apply SN; lia. }
      rewrite PX. rewrite UR in *.
      apply IH; auto.
    + destruct (Z.eqb_spec t ATTR_PAYLOAD) as [T2|T2].
      * rewrite CLP in *. inversion FA as [|? ? F1 F2]; subst x l0. cbn [fst snd] in F1.
        destruct (payload_headers v seen clip F1 SB) as (p & EN & HS).
        { rewrite SL, VL. reflexivity. }
        { rewrite SL. unfold al4. lia. }
        { rewrite VL. exact SN. }
        rewrite EN, bind_lift_ok. rewrite upto_ok by (unfold zlen; rewrite SL; lia).
        rewrite Nat2Z.id, bind_lift_ok, SS, bind_get_st, CB, bind_do_call. cbn [np_prefix np_payload np_src np_dst np_version np_proto np_len np_id np_sport np_dport].
        set (c := KLogCb _ _ _ _ _ _ _ _ _ _). set (rr := e (w_tr w) c). rewrite UR in *.
        destruct (IH (skipn (al4 n) a) f (mkNP (np_prefix m) (shown_payload v clip) (SourceAddress p)
           (DestinationAddress p) IPVersion (IPProto p) (IPTotalLen p) (ID p) (SourcePort p) (DestPort p)) e
           (after w [(c, rr)])) as (evs & EV & DV); auto.
        exists ((c, rr) :: evs). split.
        { change (mkW (w_st w) (w_heap w) (w_tr w ++ [(c, rr)])) with (after w [(c, rr)]).
          rewrite EV, after_app. reflexivity. }
        constructor; [|exact DV]. cbn. do 7 eexists. exists rr. split; [reflexivity|exact HS].
      * rewrite UR in *. apply IH; auto.
Qed.

(** ** Messages *)
Lemma parseLog_S f b e w : b <> [] ->
  parseLog (S f) b e w =
  (let short := (length b <? 16)%nat in
   let msgLen := if short then 0 else le32 b in
   let typ := if short then 0 else le16 (skipn 4 b) in
   if u32 (zlen b) <? msgLen then ret (Some ETruncated)
   else
     let! er := (if typ =? NFLogPacketType then
                  let! body := lift (gsl b 16 (u32 (msgLen - 1))) in parsePacket (length body) body
                else ret None) in
     match er with
     | Some er => ret (Some (EWrapped 7 er))
     | None => let! rest := lift (gfrom b msgLen) in parseLog f rest
     end) e w.
Proof. intros H. destruct b; [congruence|reflexivity]. Qed.
Lemma parse_step b len e w : is_bytes b -> zlen b < 4294967296 ->
  len = Z.to_nat (num LE (field b 0 4)) -> (16 <= len <= length b)%nat ->
  message_ok (num LE (field b 4 2), field b 16 (len - 16)) -> l_cb (w_st w) = true ->
  exists evs, Forall2 delivers evs (message_deliveries (num LE (field b 4 2), field b 16 (len - 16))) /\
    forall f, parseLog (S f) b e w = parseLog f (skipn len b) e (after w evs).
Proof.
  intros IB ZL EL HL MO CB. unfold zlen in ZL.
  assert (NZ : num LE (field b 0 4) = Z.of_nat len) by (rewrite EL, Z2Nat.id by (apply num4_nonneg; exact IB); reflexivity).
  assert (HD : exists evs, Forall2 delivers evs (message_deliveries (num LE (field b 4 2), field b 16 (len - 16))) /\
    (if num LE (field b 4 2) =? NFLogPacketType then
       let! body := lift (gsl b 16 (u32 (Z.of_nat len - 1))) in parsePacket (length body) body
     else ret None) e w = (Ok None, after w evs)).
  { unfold message_deliveries. cbn [fst snd]. change LOG_PACKET with NFLogPacketType.
    destruct (Z.eqb_spec (num LE (field b 4 2)) NFLogPacketType) as [T|T].
    - destruct (MO T) as (l & M1 & M2 & M3 & M4 & M5). cbn [fst snd] in *.
      assert (FL : length (field b 16 (len - 16)) = (len - 16)%nat) by (apply field_length; lia).
      replace (u32 (Z.of_nat len - 1)) with (Z.of_nat (len - 1)) by (unfold u32; rewrite Z.mod_small by lia; lia).
      rewrite gsl_ok by (unfold zlen; lia). rewrite bind_lift_ok. unfold parsePacket.
      change (Z.to_nat 16) with 16%nat. rewrite Nat2Z.id.
      assert (BE' : sub b 16 (len - 1) = removelast (field b 16 (len - 16))).
      { rewrite removelast_firstn_len', FL. unfold sub, field. rewrite firstn_firstn. f_equal. lia. }
      rewrite BE', skipn_removelast, removelast_len, FL.
      destruct (tlv_walk l (skipn 4 (field b 16 (len - 16))) (len - 16 - 1) np_zero e w) as (evs & EV & DV); auto.
      { apply is_bytes_skipn, is_bytes_firstn, is_bytes_skipn, IB. }
      { rewrite skipn_length, FL. lia. }
      exists evs. rewrite M2. split; [exact DV|exact EV].
    - exists []. split; [constructor|]. rewrite after_nil. reflexivity. }
  destruct HD as (evs & DV & EV). exists evs. split; [exact DV|]. intros f.
  rewrite parseLog_S by (destruct b; [cbn in HL; lia|discriminate]). cbv zeta.
  destruct (Nat.ltb_spec (length b) 16); [lia|].
  rewrite (le32_num b) by lia. rewrite (le16_at b 4) by lia. rewrite NZ.
  destruct (Z.ltb_spec (u32 (zlen b)) (Z.of_nat len)) as [X|_].
  { unfold u32, zlen in X. rewrite Z.mod_small in X by lia. lia. }
  unfold mbind at 1. rewrite EV. unfold gfrom. rewrite gsl_ok by (unfold zlen; lia). rewrite bind_lift_ok.
  unfold sub. rewrite Nat2Z.id. rewrite firstn_all2 by (rewrite skipn_length; unfold zlen; lia). reflexivity.
Qed.

Lemma parse_walk d ms rest : messages_of d ms rest -> forall e w,
  is_bytes d -> zlen d < 4294967296 -> Forall message_ok ms -> l_cb (w_st w) = true ->
  exists evs, Forall2 delivers evs (flat_map message_deliveries ms) /\
    forall f, parseLog (length ms + f) d e w = parseLog f rest e (after w evs).
Proof.
  induction 1 as [b|b len ms rest EL HL HM HR IH]; intros e w IB ZL FO CB.
  - exists []. split; [constructor|]. intros f. rewrite after_nil. reflexivity.
  - inversion FO as [|? ? F1 F2]; subst x l.
    destruct (parse_step b len e w IB ZL EL HL F1 CB) as (evs & DV & EV).
    destruct (IH e (after w evs)) as (evs' & DV' & EV'); auto.
    { apply is_bytes_skipn, IB. }
    { unfold zlen in *. rewrite skipn_length. lia. }
    exists (evs ++ evs'). split; [cbn [flat_map]; apply Forall2_app; assumption|].
    intros f. cbn [length Nat.add]. rewrite EV, EV', after_app. reflexivity.
Qed.
(** too little fuel is noticed *)
Lemma parse_short d ms rest : messages_of d ms rest -> rest <> [] -> forall f e w,
  is_bytes d -> zlen d < 4294967296 -> Forall message_ok ms -> l_cb (w_st w) = true ->
  (f <= length ms)%nat -> fst (parseLog f d e w) = NoFuel.
Proof.
  induction 1 as [b|b len ms rest EL HL HM HR IH]; intros RN f e w IB ZL FO CB HF.
  - cbn in HF. destruct f; [|lia]. destruct b; [congruence|reflexivity].
  - inversion FO as [|? ? F1 F2]; subst x l. destruct f as [|f].
    { destruct b; [cbn in HL; lia|reflexivity]. }
    destruct (parse_step b len e w IB ZL EL HL F1 CB) as (evs & DV & EV). rewrite EV.
    apply IH; auto; [apply is_bytes_skipn, IB|unfold zlen in *; rewrite skipn_length; lia|cbn in HF; lia].
Qed.
(** fewer bytes than a header: no progress *)
Lemma parse_tail_hangs b : (1 <= length b <= 15)%nat -> forall f e w, parseLog f b e w = (NoFuel, w).
Proof.
  intros H. induction f as [|f IH]; intros e w; [destruct b; [cbn in H; lia|reflexivity]|].
  rewrite parseLog_S by (destruct b; [cbn in H; lia|discriminate]). cbv zeta.
  destruct (Nat.ltb_spec (length b) 16) as [_|X]; [|lia].
  destruct (Z.ltb_spec (u32 (zlen b)) 0) as [X|_]; [unfold u32 in X; lia|]. change (0 =? NFLogPacketType) with false. cbv iota.
  rewrite bind_ret. unfold gfrom. rewrite gsl_ok by (unfold zlen; lia). rewrite bind_lift_ok.
  unfold sub. change (Z.to_nat 0) with 0%nat. rewrite skipn_O, firstn_all2 by (unfold zlen; lia). apply IH.
Qed.
(** a declared length of 0: no progress *)
Lemma parse_zero_hangs b : (16 <= length b)%nat -> num LE (field b 0 4) = 0 -> num LE (field b 4 2) <> LOG_PACKET ->
  forall f e w, parseLog f b e w = (NoFuel, w).
Proof.
  intros H Z0 T. induction f as [|f IH]; intros e w; [destruct b; [cbn in H; lia|reflexivity]|].
  rewrite parseLog_S by (destruct b; [cbn in H; lia|discriminate]). cbv zeta.
  destruct (Nat.ltb_spec (length b) 16) as [X|_]; [lia|].
  rewrite (le32_num b) by lia. rewrite (le16_at b 4) by lia. rewrite Z0.
  destruct (Z.ltb_spec (u32 (zlen b)) 0) as [X|_]; [unfold u32 in X; lia|].
  destruct (Z.eqb_spec (num LE (field b 4 2)) NFLogPacketType) as [X|_]; [contradiction|].
  rewrite bind_ret. unfold gfrom. rewrite gsl_ok by (unfold zlen; lia). rewrite bind_lift_ok.
  unfold sub. change (Z.to_nat 0) with 0%nat. rewrite skipn_O, firstn_all2 by (unfold zlen; lia). apply IH.
Qed.
(** a packet message too short to drop a byte of *)
Lemma parse_tiny_crashes b : (16 <= length b)%nat -> zlen b < 4294967295 -> 0 <= num LE (field b 0 4) <= 16 ->
  num LE (field b 4 2) = LOG_PACKET -> forall f e w, parseLog (S f) b e w = (Panic, w).
Proof.
  intros H ZL Z0 T f e w. unfold zlen in ZL.
  rewrite parseLog_S by (destruct b; [cbn in H; lia|discriminate]). cbv zeta.
  destruct (Nat.ltb_spec (length b) 16) as [X|_]; [lia|].
  rewrite (le32_num b) by lia. rewrite (le16_at b 4) by lia.
  destruct (Z.ltb_spec (u32 (zlen b)) (num LE (field b 0 4))) as [X|_].
  { unfold u32, zlen in X. rewrite Z.mod_small in X by lia. lia. }
  rewrite T. change (LOG_PACKET =? NFLogPacketType) with true. cbv iota.
  assert (G : gsl b 16 (u32 (num LE (field b 0 4) - 1)) = Panic); [|rewrite G; reflexivity].
  unfold gsl. destruct (Z.eq_dec (num LE (field b 0 4)) 0) as [E|E].
  - rewrite E. change (u32 (0 - 1)) with 4294967295. unfold zlen.
    destruct (Z.leb_spec 4294967295 (Z.of_nat (length b))); [lia|]. rewrite andb_false_r. reflexivity.
  - unfold u32. rewrite Z.mod_small by lia.
    destruct (Z.leb_spec 16 (num LE (field b 0 4) - 1)); [lia|]. rewrite andb_false_r. reflexivity.
Qed.
(** a declared length beyond what is left *)
Lemma parse_truncated b : (16 <= length b)%nat -> Z.of_nat (length b) < num LE (field b 0 4) -> zlen b < 4294967296 ->
  forall f e w, parseLog (S f) b e w = (Ok (Some ETruncated), w).
Proof.
  intros H T ZL f e w. rewrite parseLog_S by (destruct b; [cbn in H; lia|discriminate]). cbv zeta.
  destruct (Nat.ltb_spec (length b) 16) as [X|_]; [lia|]. rewrite (le32_num b) by lia.
  unfold u32, zlen in *. rewrite Z.mod_small by lia.
  destruct (Z.ltb_spec (Z.of_nat (length b)) (num LE (field b 0 4))); [reflexivity|lia].
Qed.

(** ** Any bytes at all *)
Lemma New_answers payload : is_bytes payload -> (length payload < Z.to_nat 65536)%nat ->
  let s := mkSl 0 0 (length payload) (length payload) in
  match New [payload] PacketTypeNetwork s false with
  | Ok (Some _, _) => True | Ok (None, _) => False | Panic => True | NoFuel => False end.
Proof.
  intros IB HL s. destruct (Nat.eq_dec (length payload) 0) as [Z0|NZ].
  - destruct payload; [|discriminate]. reflexivity.
  - assert (VS : vslice [payload] s).
    { apply valid_vslice; [|cbn; lia]. split; [cbn; lia|]. right. split; [cbn; lia|]. unfold arr; cbn. lia. }
    assert (RD : rd [payload] s = payload).
    { unfold rd, s. cbn [s_arr s_off s_len]. unfold arr. cbn [nth]. rewrite skipn_O. apply firstn_all. }
    destruct (Z.eq_dec (ip4_version payload) 4) as [E|E].
    + pose proof (New_v4 [payload] PacketTypeNetwork s false VS) as X. rewrite RD in X.
      specialize (X IB ltac:(cbn; lia) ltac:(cbn [s_len s]; lia) E).
      destruct (New [payload] PacketTypeNetwork s false) as [[[p|] [er|]]| |]; auto.
    + pose proof (New_v6 [payload] PacketTypeNetwork s false VS) as X. rewrite RD in X.
      specialize (X IB ltac:(cbn; lia) ltac:(cbn [s_len s]; lia) E).
      destruct (New [payload] PacketTypeNetwork s false) as [[[p|] [er|]]| |]; auto.
Qed.
Lemma read_into_len a n : 0 <= n -> length (read_into a n) = Z.to_nat n.
Proof. intros H. unfold read_into. rewrite app_length, repeat_length, firstn_length. lia. Qed.
Lemma read_into_bytes a n : is_bytes a -> is_bytes (read_into a n).
Proof. intros H. apply is_bytes_app. split; [apply is_bytes_firstn, H|apply is_bytes_repeat]. Qed.
Lemma NfaAlign16_range v : 0 <= NfaAlign16 v < 65536.
Proof.
  unfold NfaAlign16. assert (0 <= u16 (v + 3) < 65536) by (unfold u16; lia).
  split; [apply Z.land_nonneg; lia|].
  pose proof (Z.land_nonneg (u16 (v + 3)) 65532) as N.
  destruct (Z.eq_dec (Z.land (u16 (v + 3)) 65532) 0) as [E|E]; [rewrite E; lia|].
  apply (Z.log2_lt_cancel _ 65536). apply Z.le_lt_trans with (Z.min (Z.log2 (u16 (v + 3))) (Z.log2 65532)).
  - apply Z.log2_land; lia.
  - change (Z.log2 65532) with 15. change (Z.log2 65536) with 16. lia.
Qed.

Lemma tlv_any : forall f a m e w, is_bytes a -> (length a <= f)%nat ->
  exists r evs, tlv_loop f a m e w = (r, after w evs) /\ Forall log_cb evs /\ r <> NoFuel.
Proof.
  induction f as [|f IH]; intros a m e w IB HL.
  - destruct a; [|cbn in HL; lia]. exists (Ok None), []. rewrite after_nil. repeat split; [constructor|discriminate].
  - destruct a as [|a0 a1] eqn:Ea; [exists (Ok None), []; rewrite after_nil; repeat split; [constructor|discriminate]|].
    rewrite <- Ea in *. 
    assert (ST : tlv_loop (S f) a m e w = 
      (if (length a <? 4)%nat then ret (Some EShort)
      else
        let al := NfaAlign16 (u16 (le16 a - 4)) in
        let rest := skipn (Z.to_nat al) (skipn 4 a) in
        let payload := read_into (skipn 4 a) al in
        if le16 (skipn 2 a) =? NFULA_PREFIX then
          let! p := lift (upto payload (u16 (u16 (le16 a - 4) - 1))) in
          tlv_loop f rest
            (mkNP p (np_payload m) (np_src m) (np_dst m) (np_version m) (np_proto m)
                  (np_len m) (np_id m) (np_sport m) (np_dport m))
        else if le16 (skipn 2 a) =? NFULA_PAYLOAD then
          let! x := lift (New [payload] PacketTypeNetwork (mkSl 0 0 (length payload) (length payload)) false) in
          match x with
          | (_, Some e) => ret (Some e)
          | (None, None) => mpanic
          | (Some ip, None) =>
              let! pl := lift (upto payload (u16 (le16 a - 4))) in
              let m := mkNP (np_prefix m) pl (SourceAddress ip) (DestinationAddress ip) IPVersion
                            (IPProto ip) (IPTotalLen ip) (ID ip) (SourcePort ip) (DestPort ip) in
              let! l := get_st in
              if l_cb l then
                let! _ := do_call (KLogCb (np_prefix m) (np_payload m) (np_src m) (np_dst m)
                                     (np_version m) (np_proto m) (np_len m) (np_id m)
                                     (np_sport m) (np_dport m)) in
                tlv_loop f rest m
              else mpanic
          end
        else tlv_loop f rest m) e w).
    { rewrite Ea. reflexivity. }
    rewrite ST. clear ST. cbv zeta.
    assert (LA : (1 <= length a)%nat) by (rewrite Ea; cbn; lia). clear Ea a0 a1.
    destruct (Nat.ltb_spec (length a) 4) as [A|A].
    { exists (Ok (Some EShort)), []. rewrite after_nil. repeat split; [constructor|discriminate]. }
    set (al := NfaAlign16 (u16 (le16 a - 4))). pose proof (NfaAlign16_range (u16 (le16 a - 4))) as AR. fold al in AR.
    set (rest := skipn (Z.to_nat al) (skipn 4 a)). set (payload := read_into (skipn 4 a) al).
    assert (IR : is_bytes rest) by (apply is_bytes_skipn, is_bytes_skipn, IB).
    assert (HR : (length rest <= f)%nat) by (unfold rest; rewrite !skipn_length; lia).
    assert (PB : is_bytes payload) by (apply read_into_bytes, is_bytes_skipn, IB).
    assert (PL : length payload = Z.to_nat al) by (apply read_into_len; lia).
    assert (UP : forall k, upto payload k = Panic \/ exists v, upto payload k = Ok v).
    { intros k. unfold upto, gsl. destruct (_ && _); eauto. }
    assert (PC : exists (r : res (option gerr)) evs, (Panic, w) = (r, after w evs) /\ Forall log_cb evs /\ r <> NoFuel).
    { exists Panic, []. rewrite after_nil. repeat split; [constructor|discriminate]. }
    destruct (_ =? NFULA_PREFIX).
    + destruct (UP (u16 (u16 (le16 a - 4) - 1))) as [U|[v U]]; rewrite U; [exact PC|]. rewrite bind_lift_ok. apply IH; auto.
    + destruct (_ =? NFULA_PAYLOAD); [|apply IH; auto].
      pose proof (New_answers payload PB ltac:(rewrite PL; lia)) as NA. cbv zeta in NA.
      destruct (New [payload] PacketTypeNetwork _ false) as [[[p|] er]| |]; try contradiction; [|exact PC].
      rewrite bind_lift_ok. destruct er as [er|].
      { exists (Ok (Some er)), []. rewrite after_nil. repeat split; [constructor|discriminate]. }
      destruct (UP (u16 (le16 a - 4))) as [U|[v U]]; rewrite U; [exact PC|]. rewrite bind_lift_ok, bind_get_st.
      destruct (l_cb (w_st w)); [|exact PC]. rewrite bind_do_call. cbn [np_prefix np_payload np_src np_dst np_version np_proto np_len np_id np_sport np_dport].
      set (c := KLogCb _ _ _ _ _ _ _ _ _ _).
      destruct (IH rest (mkNP (np_prefix m) v (SourceAddress p)
           (DestinationAddress p) IPVersion (IPProto p) (IPTotalLen p) (ID p) (SourcePort p) (DestPort p)) e
           (after w [(c, e (w_tr w) c)]) IR HR) as (r & evs & EV & FV & RN).
      exists r, ((c, e (w_tr w) c) :: evs). split; [|split; [constructor; [exact I|exact FV]|exact RN]].
      change (mkW (w_st w) (w_heap w) (w_tr w ++ [(c, e (w_tr w) c)])) with (after w [(c, e (w_tr w) c)]).
      rewrite EV, after_app. reflexivity.
Qed.

Lemma parse_any d : is_bytes d -> zlen d < 4294967296 -> forall f p e w,
  msg_start d p -> (p <= length d)%nat ->
  exists r evs, parseLog f (skipn p d) e w = (r, after w evs) /\ Forall log_cb evs /\
    (r = NoFuel -> (length d - p < f)%nat -> exists q, stuck_at d q).
Proof.
  intros IB ZL. unfold zlen in ZL. induction f as [|f IH]; intros p e w MS HP.
  - destruct (skipn p d) as [|x b] eqn:E.
    + exists (Ok None), []. rewrite after_nil. repeat split; [constructor|discriminate].
    + exists NoFuel, []. rewrite after_nil. repeat split; [constructor|intros; lia].
  - destruct (Nat.eq_dec p (length d)) as [E|E].
    { rewrite skipn_all2 by lia. exists (Ok None), []. rewrite after_nil. repeat split; [constructor|discriminate]. }
    set (b := skipn p d). assert (LB : length b = (length d - p)%nat) by apply skipn_length.
    assert (IBb : is_bytes b) by (apply is_bytes_skipn, IB).
    rewrite parseLog_S by (intros K; rewrite K in LB; cbn in LB; lia). cbv zeta.
    destruct (Nat.ltb_spec (length b) 16) as [S|S].
    { pose proof (parse_tail_hangs b ltac:(lia) (Datatypes.S f) e w) as X.
      rewrite parseLog_S in X by (intros K; rewrite K in LB; cbn in LB; lia). cbv zeta in X.
      destruct (Nat.ltb_spec (length b) 16) as [_|Y] in X; [|lia]. rewrite X.
      exists NoFuel, []. rewrite after_nil. repeat split; [constructor|]. intros _ _. exists p. split; [exact MS|]. split; lia. }
    assert (FE : field b 0 4 = field d p 4) by (unfold b; rewrite field_skipn; f_equal; lia).
    rewrite (le32_num b) by lia. rewrite (le16_at b 4) by lia. rewrite FE.
    pose proof (num4_nonneg d p IB) as N0. set (L := num LE (field d p 4)) in *.
    unfold u32 at 1. unfold zlen at 1. rewrite Z.mod_small by lia.
    destruct (Z.ltb_spec (Z.of_nat (length b)) L) as [T|T].
    { exists (Ok (Some ETruncated)), []. rewrite after_nil. repeat split; [constructor|discriminate]. }
    assert (BD : exists r evs, (if num LE (field b 4 2) =? NFLogPacketType then
                  let! body := lift (gsl b 16 (u32 (L - 1))) in parsePacket (length body) body
                else ret None) e w = (r, after w evs) /\ Forall log_cb evs /\ r <> NoFuel).
    { destruct (_ =? NFLogPacketType).
      - unfold gsl. destruct (_ && _).
        + rewrite bind_lift_ok. apply tlv_any; [apply is_bytes_skipn, is_bytes_sub, IBb|rewrite skipn_length; lia].
        + exists Panic, []. rewrite after_nil. repeat split; [constructor|discriminate].
      - exists (Ok None), []. rewrite after_nil. repeat split; [constructor|discriminate]. }
    destruct BD as (r & evs & BV & FV & RN). unfold mbind at 1. rewrite BV.
    destruct r as [[er|]| |]; [| | |congruence].
    + exists (Ok (Some (EWrapped 7 er))), evs. repeat split; [exact FV|discriminate].
    + unfold gfrom. rewrite gsl_ok by (unfold zlen; lia). rewrite bind_lift_ok.
      unfold sub. rewrite firstn_all2 by (rewrite skipn_length; unfold zlen; lia).
      unfold b at 1. rewrite skipn_skipn.
      destruct (Z.eq_dec L 0) as [L0|L0].
      * replace (Z.to_nat L + p)%nat with p by lia.
        destruct (IH p e (after w evs) MS HP) as (r & evs' & EV & FV' & NV).
        exists r, (evs ++ evs'). rewrite EV, after_app. repeat split; [apply Forall_app; auto|].
        intros _ _. exists p. split; [exact MS|]. split; [lia|]. right. exact L0.
      * replace (Z.to_nat L + p)%nat with (p + Z.to_nat L)%nat by lia.
        destruct (IH (p + Z.to_nat L)%nat e (after w evs)) as (r & evs' & EV & FV' & NV).
        { apply msg_start_next; [exact MS|lia|fold L; lia]. }
        { lia. }
        exists r, (evs ++ evs'). rewrite EV, after_app. repeat split; [apply Forall_app; auto|].
        intros R HF. apply NV; [exact R|lia].
    + exists Panic, evs. repeat split; [exact FV|discriminate].
Qed.
