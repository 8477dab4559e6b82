(** Exactly what the log reader does with any bytes at all (C27). *)
From Verif Require Export Proof.LogLoop Spec.LogOutcome.

Lemma attrs_end_det a prefix ps r : attrs_end a prefix ps r -> forall ps' r', attrs_end a prefix ps' r' -> ps = ps' /\ r = r'.
Proof.
  assert (PP : ATTR_PREFIX <> ATTR_PAYLOAD) by discriminate.
  induction 1; intros ps' r' H'; inversion H'; subst; cbn [length] in *;
    try (exfalso; lia); try (exfalso; congruence);
    try (split; congruence); try (apply IHattrs_end; assumption).
  match goal with H : attrs_end (la_next _) _ _ _, HI : forall _ _, attrs_end (la_next _) _ _ _ -> _ |- _ =>
    destruct (HI _ _ H) as [-> ->] end; auto.
Qed.
Lemma log_ends_det b ps r : log_ends b ps r -> forall ps' r', log_ends b ps' r' -> ps = ps' /\ r = r'.
Proof.
  induction 1; intros qs q H'; inversion H'; subst; cbn [length] in *;
    try (exfalso; lia); try (exfalso; congruence); try (split; congruence); try (apply IHlog_ends; assumption).
  1-4: exfalso; unfold zlen in *; lia.
  - match goal with A : attrs_end ?a [] ?x ?y, B : attrs_end ?a [] ?u ?v |- _ => destruct (attrs_end_det _ _ _ _ A _ _ B) as [-> ->] end. auto.
  - match goal with A : attrs_end ?a [] ?x ?y, B : attrs_end ?a [] ?u ?v |- _ => destruct (attrs_end_det _ _ _ _ A _ _ B) as [E1 E2] end. exfalso. congruence.
  - match goal with A : attrs_end ?a [] ?x ?y, B : attrs_end ?a [] ?u ?v |- _ => destruct (attrs_end_det _ _ _ _ A _ _ B) as [E1 E2] end. exfalso. congruence.
  - match goal with A : attrs_end ?a [] ?x ?y, B : attrs_end ?a [] ?u ?v |- _ => destruct (attrs_end_det _ _ _ _ A _ _ B) as [-> _] end.
    match goal with B : log_ends _ ?x q |- _ => destruct (IHlog_ends _ _ B) as [-> ->] end. auto.
Qed.

Lemma New_classified payload : is_bytes payload -> (length payload < Z.to_nat 65536)%nat ->
  Nat.modulo (length payload) 4 = 0%nat ->
  let s := mkSl 0 0 (length payload) (length payload) in
  match New [payload] PacketTypeNetwork s false with
  | Ok (Some p, None) => classify_ip payload = Accepts /\
      headers_shown payload (SourceAddress p) (DestinationAddress p) (IPProto p) (IPTotalLen p) (ID p) (SourcePort p) (DestPort p)
  | Ok (Some _, Some e) => classify_ip payload = Rejects e
  | Ok (None, _) => False
  | Panic => classify_ip payload = Crashes
  | NoFuel => False end.
Proof.
  intros IB HL M4 s. destruct (Nat.eq_dec (length payload) 0) as [Z0|NZ].
  - destruct payload; [|discriminate]. reflexivity.
  - assert (VS : vslice [payload] s).
    { apply valid_vslice; [|cbn; lia]. split; [cbn; lia|]. right. split; [cbn; lia|]. unfold arr; cbn. lia. }
    assert (RD : rd [payload] s = payload).
    { unfold rd, s. cbn [s_arr s_off s_len]. unfold arr. cbn [nth]. rewrite skipn_O. apply firstn_all. }
    assert (CP : Z.of_nat (s_cap s) = zlen payload) by reflexivity. unfold classify_ip, headers_shown.
    destruct (Z.eqb_spec (ip4_version payload) 4) as [E|E].
    + pose proof (New_v4 [payload] PacketTypeNetwork s false VS) as X. rewrite RD, CP in X.
      specialize (X IB ltac:(cbn; lia) ltac:(cbn [s_len s]; lia) E).
      destruct (New [payload] PacketTypeNetwork s false) as [[[p|] [er|]]| |]; auto.
      destruct X as [CL A]. split; [exact CL|].
      destruct A as [_ (_ & _ & P & T & I & _ & S & D) L4 _ _ _ _ _]. rewrite RD in P, T, I, S, D.
      repeat (split; [assumption|]).
      destruct L4 as [L1 _ L2 _]. rewrite RD in L1, L2. change (Z.to_nat 20) with 20%nat in *. cbn [s s_len] in L1, L2.
      rewrite P. unfold IPProto in P. unfold classify4, zlen in CL. intros [Q|Q].
      * destruct (Z.ltb_spec (Z.of_nat (length payload)) 20); [discriminate|]. destruct (negb _); [discriminate|]. cbn [andb] in CL.
        rewrite Q in CL. cbn [Z.eqb Pos.eqb PROTO_TCP] in CL. destruct (stated_too_small _ _ _); [discriminate|].
        destruct (Z.ltb_spec (Z.of_nat (length payload)) 34); [discriminate|]. cbn [orb] in CL.
        destruct (Z.ltb_spec (Z.of_nat (length payload)) 38); [discriminate|].
        destruct (L1 ltac:(congruence) ltac:(lia)) as (? & ? & _); auto.
      * destruct (Z.ltb_spec (Z.of_nat (length payload)) 20); [discriminate|]. destruct (negb _); [discriminate|]. cbn [andb] in CL.
        rewrite Q in CL. cbn [Z.eqb Pos.eqb PROTO_TCP PROTO_UDP] in CL. destruct (stated_too_small _ _ _); [discriminate|].
        destruct (Z.ltb_spec (Z.of_nat (length payload)) 28); [discriminate|].
        apply L2; [congruence|lia].
    + pose proof (New_v6 [payload] PacketTypeNetwork s false VS) as X. rewrite RD, CP in X.
      specialize (X IB ltac:(cbn; lia) ltac:(cbn [s_len s]; lia) E).
      destruct (New [payload] PacketTypeNetwork s false) as [[[p|] [er|]]| |]; auto.
      destruct X as [CL A]. split; [exact CL|].
      destruct A as [_ SH L4 _ _ _ _ _ _ _ _ _]. rewrite RD in SH. unfold classify6, zlen in CL. cbv zeta in CL. cbn [andb s s_len] in *.
      destruct (Z.ltb_spec (Z.of_nat (length payload)) 7); [discriminate|].
      destruct (Z.ltb_spec (Z.of_nat (length payload)) 40); [discriminate|]. cbn [orb] in CL.
      specialize (SH ltac:(lia)). destruct SH as (_ & _ & P & T & S & D).
      repeat (split; [assumption|]).
      destruct L4 as [L1 _ L2 _]. rewrite RD in L1, L2. change (Z.to_nat 40) with 40%nat in *. cbn [s s_len] in L1, L2.
      rewrite P. unfold IPProto in P. rewrite orb_false_r in CL. intros [Q|Q].
      * rewrite Q in CL. cbn [Z.eqb Pos.eqb PROTO_TCP] in CL. destruct (_ <? 20); [discriminate|].
        destruct (Z.ltb_spec (Z.of_nat (length payload)) 54); [discriminate|]. cbn [orb] in CL.
        destruct (Z.ltb_spec (Z.of_nat (length payload)) 58); [discriminate|].
        destruct (L1 ltac:(congruence) ltac:(lia)) as (? & ? & _); auto.
      * rewrite Q in CL. cbn [Z.eqb Pos.eqb PROTO_TCP PROTO_UDP] in CL. destruct (_ <? 8); [discriminate|].
        destruct (Z.ltb_spec (Z.of_nat (length payload)) 48); [discriminate|].
        apply L2; [congruence|lia].
Qed.

Lemma room_align n : 0 <= n < 65536 -> NfaAlign16 (u16 (n - 4)) = la_room n.
Proof.
  intros H. unfold la_room. destruct (Z.eqb_spec n 0) as [->|N0]; [reflexivity|].
  destruct (Z.ltb_spec n 4) as [L|L].
  - assert (n = 1 \/ n = 2 \/ n = 3) as [->|[->| ->]] by lia; reflexivity.
  - unfold u16. rewrite Z.mod_small by lia. rewrite <- (Z2Nat.id (n - 4)) by lia. rewrite NfaAlign16_al4 by lia.
    rewrite al4_Z. rewrite Z2Nat.id by lia. lia.
Qed.
Lemma num2_range b o : is_bytes b -> 0 <= num LE (field b o 2) < 65536.
Proof.
  intros H. assert (F : is_bytes (field b o 2)) by (apply is_bytes_firstn, is_bytes_skipn, H).
  assert (L : (length (field b o 2) <= 2)%nat) by (unfold field; rewrite firstn_length; lia).
  destruct (field b o 2) as [|x [|y [|z r]]]; cbn [length] in L; try lia; cbn.
  - lia.
  - inversion F; subst. unfold is_byte in *. lia.
  - inversion F as [|? ? F1 F2]; subst. inversion F2; subst. unfold is_byte in *. lia.
Qed.

Lemma tlv_ends : forall f a m e w, is_bytes a -> (length a <= f)%nat -> l_cb (w_st w) = true ->
  exists ps r evs, attrs_end a (np_prefix m) ps r /\ r <> Stuck /\
    tlv_loop f a m e w = (ended r, after w evs) /\ Forall2 shows_log evs ps.
Proof.
  induction f as [|f IH]; intros a m e w IB HL CB.
  - destruct a; [|cbn in HL; lia]. exists [], Finished, []. rewrite after_nil. split; [constructor|]. split; [discriminate|]. split; [reflexivity|constructor].
  - destruct a as [|a0 a1] eqn:Ea.
    { exists [], Finished, []. rewrite after_nil. split; [constructor|]. split; [discriminate|]. split; [reflexivity|constructor]. }
    rewrite <- Ea in *. 
    assert (ST : tlv_loop (S f) a m e w = 
      (if (length a <? 4)%nat then ret (Some EShort)
      else
        let al := NfaAlign16 (u16 (le16 a - 4)) in
        let rest := skipn (Z.to_nat al) (skipn 4 a) in
        let payload := read_into (skipn 4 a) al in
        if le16 (skipn 2 a) =? NFULA_PREFIX then
          let! p := lift (upto payload (u16 (u16 (le16 a - 4) - 1))) in
          tlv_loop f rest
            (mkNP p (np_payload m) (np_src m) (np_dst m) (np_version m) (np_proto m)
                  (np_len m) (np_id m) (np_sport m) (np_dport m))
        else if le16 (skipn 2 a) =? NFULA_PAYLOAD then
          let! x := lift (New [payload] PacketTypeNetwork (mkSl 0 0 (length payload) (length payload)) false) in
          match x with
          | (_, Some e) => ret (Some e)
          | (None, None) => mpanic
          | (Some ip, None) =>
              let! pl := lift (upto payload (u16 (le16 a - 4))) in
              let m := mkNP (np_prefix m) pl (SourceAddress ip) (DestinationAddress ip) IPVersion
                            (IPProto ip) (IPTotalLen ip) (ID ip) (SourcePort ip) (DestPort ip) in
              let! l := get_st in
              if l_cb l then
                let! _ := do_call (KLogCb (np_prefix m) (np_payload m) (np_src m) (np_dst m)
                                     (np_version m) (np_proto m) (np_len m) (np_id m)
                                     (np_sport m) (np_dport m)) in
                tlv_loop f rest m
              else mpanic
          end
        else tlv_loop f rest m) e w).
    { rewrite Ea. reflexivity. }
    rewrite ST. clear ST. cbv zeta.
    assert (LA : (1 <= length a)%nat) by (rewrite Ea; cbn; lia). clear Ea a0 a1.
    destruct (Nat.ltb_spec (length a) 4) as [A|A].
    { exists [], (Failed EShort), []. rewrite after_nil. split; [apply ae_short; lia|]. split; [discriminate|]. split; [reflexivity|constructor]. }
    rewrite (le16_num a), (le16_at a 2) by lia. fold (la_len a) (la_type a).
    pose proof (num2_range a 0 IB) as RN. fold (la_len a) in RN.
    rewrite (room_align _ RN).
    assert (AR : 0 <= la_room (la_len a) < 65536).
    { unfold la_room. destruct (_ =? 0); [lia|]. destruct (Z.ltb_spec (la_len a) 4); lia. }
    fold (la_next a). change (read_into (skipn 4 a) (la_room (la_len a))) with (la_seen a).
    assert (IR : is_bytes (la_next a)) by (apply is_bytes_skipn, is_bytes_skipn, IB).
    assert (HR : (length (la_next a) <= f)%nat) by (unfold la_next; rewrite !skipn_length; lia).
    assert (PB : is_bytes (la_seen a)) by (apply read_into_bytes, is_bytes_skipn, IB).
    assert (PL : length (la_seen a) = Z.to_nat (la_room (la_len a))) by (apply read_into_len; lia).
    assert (UP : forall k, 0 <= k <= la_room (la_len a) -> upto (la_seen a) k = Ok (firstn (Z.to_nat k) (la_seen a))).
    { intros k K. apply upto_ok. unfold zlen. rewrite PL. lia. }
    assert (UN : forall k, la_room (la_len a) < k -> upto (la_seen a) k = Panic).
    { intros k K. unfold upto, gsl. replace (_ && _) with false; [reflexivity|]. symmetry. apply andb_false_iff.
      unfold zlen. rewrite PL. lia. }
    destruct (Z.eqb_spec (la_type a) NFULA_PREFIX) as [T1|T1].
    + destruct (Z.lt_ge_cases (la_len a) 1) as [N0|N1].
      * assert (N : la_len a = 0) by lia.
        assert (U : u16 (u16 (la_len a - 4) - 1) = 65531) by (rewrite N; reflexivity). rewrite U.
        rewrite UP by (rewrite N; cbn; lia). rewrite bind_lift_ok.
        destruct (IH (la_next a) (mkNP (firstn (Z.to_nat 65531) (la_seen a)) (np_payload m) (np_src m) (np_dst m) (np_version m) (np_proto m)
                  (np_len m) (np_id m) (np_sport m) (np_dport m)) e w IR HR CB) as (ps & r & evs & AE & RS & EV & FV).
        exists ps, r, evs. split; [|auto]. apply ae_prefix; auto; [lia|].
        cbn [np_prefix] in AE. replace (removelast (la_data a)) with (firstn (Z.to_nat 65531) (la_seen a)); [exact AE|].
        unfold la_data. rewrite removelast_firstn_len'. rewrite firstn_length, firstn_firstn, PL, N. change (la_room 0) with 65532. change ((0 - 4) mod 65536) with 65532.
        rewrite Nat.min_id. f_equal; try lia.
      * destruct (Z.le_gt_cases (la_len a) 4) as [N4|N4].
        { rewrite UN.
          - exists [], Crashed, []. rewrite after_nil. split; [apply ae_prefix_crash; auto; lia|]. split; [discriminate|]. split; [reflexivity|constructor].
          - assert (la_len a = 1 \/ la_len a = 2 \/ la_len a = 3 \/ la_len a = 4) as [->|[->|[->| ->]]] by lia; reflexivity. }
        assert (U : u16 (u16 (la_len a - 4) - 1) = la_len a - 5) by (unfold u16; lia). rewrite U.
        assert (RM : la_len a - 4 <= la_room (la_len a)).
        { unfold la_room. destruct (Z.eqb_spec (la_len a) 0); [lia|]. destruct (Z.ltb_spec (la_len a) 4); lia. }
        rewrite UP by lia. rewrite bind_lift_ok.
        destruct (IH (la_next a) (mkNP (firstn (Z.to_nat (la_len a - 5)) (la_seen a)) (np_payload m) (np_src m) (np_dst m) (np_version m) (np_proto m)
                  (np_len m) (np_id m) (np_sport m) (np_dport m)) e w IR HR CB) as (ps & r & evs & AE & RS & EV & FV).
        exists ps, r, evs. split; [|auto]. apply ae_prefix; auto; [lia|].
        cbn [np_prefix] in AE. replace (removelast (la_data a)) with (firstn (Z.to_nat (la_len a - 5)) (la_seen a)); [exact AE|].
        unfold la_data. rewrite removelast_firstn_len'. rewrite firstn_length, firstn_firstn, PL, (Z.mod_small (la_len a - 4)) by lia. f_equal. lia.
    + destruct (Z.eqb_spec (la_type a) NFULA_PAYLOAD) as [T2|T2].
      2:{ destruct (IH (la_next a) m e w IR HR CB) as (ps & r & evs & AE & RS & EV & FV).
          exists ps, r, evs. split; [|auto]. apply ae_other; auto. }
      assert (M4 : Nat.modulo (length (la_seen a)) 4 = 0%nat).
      { rewrite PL. unfold la_room. destruct (_ =? 0); [reflexivity|]. destruct (_ <? 4); [reflexivity|]. lia. }
      pose proof (New_classified (la_seen a) PB ltac:(rewrite PL; lia) M4) as NA. cbv zeta in NA.
      destruct (New [la_seen a] PacketTypeNetwork _ false) as [[[p|] er]| |] eqn:NE; try contradiction.
      2:{ exists [], Crashed, []. rewrite after_nil. split; [apply ae_payload_crash; auto|]. split; [discriminate|]. split; [reflexivity|constructor]. }
      rewrite bind_lift_ok. destruct er as [er|].
      { exists [], (Failed er), []. rewrite after_nil. split; [apply ae_payload_reject; auto|]. split; [discriminate|]. split; [reflexivity|constructor]. }
      destruct NA as [NA HS].
      assert (LE : u16 (la_len a - 4) <= la_room (la_len a)).
      { unfold la_room, u16. destruct (Z.eqb_spec (la_len a) 0) as [N|N]; [rewrite N; reflexivity|].
        destruct (Z.ltb_spec (la_len a) 4) as [N4|N4]; [exfalso|rewrite Z.mod_small by lia; lia].
        assert (la_seen a = []).
        { destruct (la_seen a); [reflexivity|]. unfold la_room in PL. destruct (Z.eqb_spec (la_len a) 0); [lia|]. destruct (Z.ltb_spec (la_len a) 4); [discriminate|lia]. }
        rewrite H in NA. discriminate. }
      rewrite UP by (unfold u16 in *; lia). rewrite bind_lift_ok, bind_get_st, CB. rewrite bind_do_call.
      cbn [np_prefix np_payload np_src np_dst np_version np_proto np_len np_id np_sport np_dport].
      set (c := KLogCb _ _ _ _ _ _ _ _ _ _).
      destruct (IH (la_next a) (mkNP (np_prefix m) (firstn (Z.to_nat (u16 (la_len a - 4))) (la_seen a)) (SourceAddress p)
           (DestinationAddress p) IPVersion (IPProto p) (IPTotalLen p) (ID p) (SourcePort p) (DestPort p)) e
           (after w [(c, e (w_tr w) c)]) IR HR CB) as (ps & r & evs & AE & RS & EV & FV).
      exists ((np_prefix m, la_seen a, la_data a) :: ps), r, ((c, e (w_tr w) c) :: evs).
      split; [apply ae_payload; auto|]. split; [exact RS|]. split; [|constructor; [|exact FV]].
      * change (mkW (w_st w) (w_heap w) (w_tr w ++ [(c, e (w_tr w) c)])) with (after w [(c, e (w_tr w) c)]).
        rewrite EV, after_app. reflexivity.
      * unfold shows_log, c. cbn [fst snd]. do 8 eexists. split; [reflexivity|exact HS].
Qed.

Lemma gsl_body b L : 16 < L <= zlen b -> zlen b < 4294967296 -> gsl b 16 (u32 (L - 1)) = Ok (sub b 16 (Z.to_nat (L - 1))).
Proof.
  intros H Z. unfold u32. rewrite Z.mod_small by lia. rewrite gsl_ok by lia. reflexivity.
Qed.

Lemma parse_ends : forall f b e w, is_bytes b -> zlen b < 4294967295 -> l_cb (w_st w) = true -> (length b < f)%nat ->
  exists ps r evs, log_ends b ps r /\ parseLog f b e w = (ended r, after w evs) /\ Forall2 shows_log evs ps.
Proof.
  induction f as [|f IH]; intros b e w IB ZL CB HF; [lia|].
  destruct (Nat.eq_dec (length b) 0) as [E|E].
  { destruct b; [|discriminate]. exists [], Finished, []. rewrite after_nil. split; [constructor|]. split; [reflexivity|constructor]. }
  assert (NE : b <> []) by (intros ->; apply E; reflexivity).
  destruct (Nat.lt_ge_cases (length b) 16) as [S|S].
  { exists [], Stuck, []. rewrite after_nil. split; [constructor; lia|]. rewrite parse_tail_hangs by lia. split; [reflexivity|constructor]. }
  pose proof (num4_nonneg b 0 IB) as N0.
  destruct (Z.lt_ge_cases (zlen b) (num LE (field b 0 4))) as [T|T].
  { exists [], (Failed ETruncated), []. rewrite after_nil. split; [apply le_truncated; auto|]. rewrite parse_truncated by (auto; unfold zlen in *; lia). split; [reflexivity|constructor]. }
  destruct (Z.eq_dec (num LE (field b 4 2)) LOG_PACKET) as [P|P].
  - destruct (Z.le_gt_cases (num LE (field b 0 4)) 16) as [S16|S16].
    { exists [], Crashed, []. rewrite after_nil. split; [apply le_tiny; auto|].
      rewrite parse_tiny_crashes by (auto; lia). split; [reflexivity|constructor]. }
    rewrite parseLog_S by exact NE. cbv zeta. destruct (Nat.ltb_spec (length b) 16); [lia|].
    rewrite (le32_num b), (le16_at b 4) by lia. unfold u32 at 1. rewrite Z.mod_small by lia.
    destruct (Z.ltb_spec (zlen b) (num LE (field b 0 4))); [lia|]. rewrite P. change (LOG_PACKET =? NFLogPacketType) with true. cbn iota.
    set (L := num LE (field b 0 4)) in *. rewrite gsl_body by lia.
    assert (BD : skipn 4 (sub b 16 (Z.to_nat (L - 1))) = skipn 20 (firstn (Z.to_nat (L - 1)) b)).
    { unfold sub. rewrite skipn_firstn_comm, skipn_skipn. rewrite skipn_firstn_comm. f_equal. lia. }
    unfold mbind at 1. unfold mbind at 1. unfold lift at 1. unfold parsePacket. rewrite BD.
    destruct (tlv_ends (length (sub b 16 (Z.to_nat (L - 1)))) (skipn 20 (firstn (Z.to_nat (L - 1)) b)) np_zero e w) as (ps & r & evs & AE & RS & EV & FV).
    { apply is_bytes_skipn, is_bytes_firstn, IB. } { rewrite <- BD, skipn_length. lia. } { exact CB. }
    cbn [np_prefix np_zero] in AE. rewrite EV.
    destruct r as [|er| |]; [| | |congruence]; cbn [ended].
    + unfold gfrom. rewrite gsl_ok by (unfold zlen in *; lia). rewrite bind_lift_ok.
      unfold sub. rewrite firstn_all2 by (rewrite skipn_length; unfold zlen in *; lia).
      destruct (IH (skipn (Z.to_nat L) b) e (after w evs)) as (ps' & r' & evs' & LE' & EV' & FV').
      { apply is_bytes_skipn, IB. } { unfold zlen in *. rewrite skipn_length. lia. } { exact CB. } { rewrite skipn_length. unfold zlen in *. lia. }
      exists (ps ++ ps'), r', (evs ++ evs'). split; [apply le_packet; auto|]. rewrite EV', after_app. split; [reflexivity|]. apply Forall2_app; auto.
    + exists ps, (Failed (EWrapped 7 er)), evs. split; [apply (le_bad b ps (Failed er)); auto; discriminate|]. split; [reflexivity|exact FV].
    + exists ps, Crashed, evs. split; [apply (le_bad b ps Crashed); auto; discriminate|]. split; [reflexivity|exact FV].
  - destruct (Z.eq_dec (num LE (field b 0 4)) 0) as [Z0|Z0].
    { exists [], Stuck, []. rewrite after_nil. split; [apply le_zero; auto|]. rewrite parse_zero_hangs by auto. split; [reflexivity|constructor]. }
    rewrite parseLog_S by exact NE. cbv zeta. destruct (Nat.ltb_spec (length b) 16); [lia|].
    rewrite (le32_num b), (le16_at b 4) by lia. unfold u32 at 1. rewrite Z.mod_small by lia.
    destruct (Z.ltb_spec (zlen b) (num LE (field b 0 4))); [lia|].
    destruct (Z.eqb_spec (num LE (field b 4 2)) NFLogPacketType) as [PP|PP]; [exfalso; apply P; exact PP|].
    set (L := num LE (field b 0 4)) in *. rewrite bind_ret. cbn iota.
    unfold gfrom. rewrite gsl_ok by (unfold zlen in *; lia). rewrite bind_lift_ok.
    unfold sub. rewrite firstn_all2 by (rewrite skipn_length; unfold zlen in *; lia).
    destruct (IH (skipn (Z.to_nat L) b) e w) as (ps' & r' & evs' & LE' & EV' & FV').
    { apply is_bytes_skipn, IB. } { unfold zlen in *. rewrite skipn_length. lia. } { exact CB. } { rewrite skipn_length. unfold zlen in *. lia. }
    exists ps', r', evs'. split; [apply le_skip; auto; fold L; lia|]. auto.
Qed.

(** ** The reader loop *)
Lemma read_loop_exact fuel buffer k e : (Z.to_nat 65536 < fuel)%nat ->
  Z.of_nat (s_len buffer) = 65536 ->
  (forall tr fd n fl, is_bytes (r_data (e tr (KRecvfrom fd n fl)))) ->
  forall n w, l_sock (w_st w) = Some k -> l_cb (w_st w) = true -> valid (w_heap w) buffer ->
  exists r w' turns last,
    read_loop n fuel buffer e w = (r, w') /\ w_st w' = w_st w /\
    w_tr w' = w_tr w ++ concat turns ++ last /\
    Forall (exact_turn (ls_fd k) (l_ecb (w_st w))) turns /\
    exact_stop (ls_fd k) (l_ecb (w_st w)) (fun cl => cl = []) n (length turns) r last.
Proof.
  intros HF BL EB. induction n as [|n IH]; intros w SK CB VB.
  - exists NoFuel, w, [], []. cbn [read_loop concat app]. rewrite app_nil_r.
    repeat (split; [reflexivity || constructor|]). left. auto.
  - cbn [read_loop]. rewrite bind_get_st, SK. set (fd := ls_fd k). set (ecb := l_ecb (w_st w)).
    set (r0 := e (w_tr w) (KRecvfrom fd (Z.of_nat (s_len buffer)) 0)).
    assert (GO : forall w1 evs, w_st w1 = w_st w -> valid (w_heap w1) buffer -> w_tr w1 = w_tr w ++ evs ->
      exact_turn fd ecb evs ->
      exists r w' turns last, read_loop n fuel buffer e w1 = (r, w') /\ w_st w' = w_st w /\
        w_tr w' = w_tr w ++ concat turns ++ last /\ Forall (exact_turn fd ecb) turns /\
        exact_stop fd ecb (fun cl => cl = []) (S n) (length turns) r last).
    { intros w1 evs H1 H2 H3 H4.
      destruct (IH w1) as (r & w' & turns & last & R1 & R2 & R3 & R4 & R5); [rewrite H1; assumption|rewrite H1; assumption|exact H2|].
      exists r, w', (evs :: turns), last. split; [exact R1|]. split; [congruence|].
      split; [rewrite R3, H3; cbn [concat]; rewrite <- !app_assoc; reflexivity|].
      split; [constructor; [exact H4|rewrite H1 in R4; exact R4]|].
      rewrite H1 in R5. fold fd ecb in R5. unfold exact_stop in *. destruct r; auto.
      destruct R5 as [[R5 R6]|R5]; [left; cbn; auto|right; exact R5]. }
    destruct (r_err r0) as [en|] eqn:ER.
    + unfold mbind at 1. rewrite recvfrom_err with (en := en) by exact ER. fold r0.
      set (w1 := mkW (w_st w) (w_heap w) _).
      assert (RP : exists evs, reports ecb (EWrapped 8 (ESys en)) evs /\
        (if ecb then let! _ := do_call (KErrCb (EWrapped 8 (ESys en)) IfaceNil) in ret tt else ret tt) e w1
        = (Ok tt, after w1 evs)).
      { unfold reports. destruct ecb.
        - eexists. split; [eexists; reflexivity|]. rewrite bind_do_call. reflexivity.
        - exists []. split; [reflexivity|]. rewrite after_nil. reflexivity. }
      destruct RP as (evs & RP & RE). unfold mbind at 1. rewrite RE.
      unfold ENOBUFS. destruct (Z.eqb_spec en 105) as [E|E].
      * apply (GO (after w1 evs) ((KRecvfrom fd 65536 0, r0) :: evs)); auto.
        { unfold after, w1. cbn. rewrite BL, <- app_assoc. reflexivity. }
        apply et_nobufs; congruence.
      * exists (Ok tt), (after w1 evs), [], ((KRecvfrom fd 65536 0, r0) :: evs).
        split; [reflexivity|]. split; [reflexivity|]. split; [unfold after, w1; cbn; rewrite BL, <- app_assoc; reflexivity|].
        split; [constructor|]. exists r0, en, evs, []. rewrite app_nil_r. auto.
    + unfold mbind at 1. rewrite recvfrom_ok by exact ER. fold r0.
      set (d := firstn (s_len buffer) (r_data r0)).
      assert (DL : (length d <= s_len buffer)%nat) by (unfold d; rewrite firstn_length; lia).
      assert (IB : is_bytes d) by (apply is_bytes_firstn, EB).
      assert (DE : d = log_received r0) by (unfold d, log_received; f_equal; lia).
      destruct (scopy_facts (w_heap w) buffer d VB ltac:(lia) DL) as (SV & SR & _ & _).
      pose proof VB as [VC _].
      rewrite resl_to_ok by (unfold zlen; lia). rewrite bind_lift_ok, bind_get_heap. cbn [w_heap].
      set (h1 := scopy (w_heap w) buffer d) in *. set (w1 := mkW (w_st w) h1 _).
      assert (RD : rd h1 (mkSl (s_arr buffer) (s_off buffer) (Z.to_nat (zlen d)) (s_cap buffer)) = d).
      { unfold zlen. rewrite Nat2Z.id.
        replace (rd h1 (mkSl (s_arr buffer) (s_off buffer) (length d) (s_cap buffer)))
          with (firstn (length d) (rd h1 buffer)).
        - rewrite SR, firstn_app, Nat.sub_diag, firstn_all. cbn [firstn]. apply app_nil_r.
        - unfold rd. cbn [s_arr s_off s_len]. rewrite firstn_firstn. f_equal. lia. }
      rewrite RD.
      destruct (parse_ends fuel d e w1 IB ltac:(unfold zlen; lia) CB ltac:(lia)) as (ps & r & cbs & LE & PV & FV).
      assert (T1 : w_tr w1 = w_tr w ++ [(KRecvfrom fd 65536 0, r0)]) by (unfold w1; cbn; rewrite BL; reflexivity).
      unfold mbind at 1. rewrite PV. rewrite DE in *.
      destruct r as [|er| |]; cbn [ended].
      * rewrite bind_ret. apply (GO _ ((KRecvfrom fd 65536 0, r0) :: cbs)).
        { reflexivity. }
        { apply SV, VB. }
        { unfold after. cbn [w_tr]. rewrite T1, <- app_assoc. reflexivity. }
        eapply et_finished; eauto.
      * assert (RP : exists evs, reports ecb (EWrapped 9 er) evs /\
        (if ecb then let! _ := do_call (KErrCb (EWrapped 9 er) IfaceNil) in ret tt else ret tt) e (after w1 cbs)
          = (Ok tt, after (after w1 cbs) evs)).
        { unfold reports. destruct ecb.
          - eexists. split; [eexists; reflexivity|]. rewrite bind_do_call. reflexivity.
          - exists []. split; [reflexivity|]. rewrite after_nil. reflexivity. }
        destruct RP as (evs & RP & RE). unfold mbind at 1. rewrite RE. rewrite after_app.
        apply (GO _ ((KRecvfrom fd 65536 0, r0) :: cbs ++ evs)).
        { reflexivity. }
        { apply SV, VB. }
        { unfold after. cbn [w_tr]. rewrite T1, <- app_assoc. reflexivity. }
        eapply et_failed; eauto.
      * exists Panic, (after w1 cbs), [], ((KRecvfrom fd 65536 0, r0) :: cbs). split; [reflexivity|]. split; [reflexivity|].
        split; [unfold after; cbn [w_tr concat app]; rewrite T1, <- app_assoc; reflexivity|]. split; [constructor|].
        exists r0, cbs, ps, []. rewrite app_nil_r. auto 6.
      * exists NoFuel, (after w1 cbs), [], ((KRecvfrom fd 65536 0, r0) :: cbs). split; [reflexivity|]. split; [reflexivity|].
        split; [unfold after; cbn [w_tr concat app]; rewrite T1, <- app_assoc; reflexivity|]. split; [constructor|].
        right. exists r0, cbs, ps. auto.
Qed.

Lemma ReadLogs_exact n fuel e w fd : (Z.to_nat 65536 < fuel)%nat ->
  (forall tr fd n fl, is_bytes (r_data (e tr (KRecvfrom fd n fl)))) ->
  open_log w fd -> l_cb (w_st w) = true ->
  exists turns last,
    w_tr (snd (ReadLogs n fuel e w)) = w_tr w ++ concat turns ++ last /\
    Forall (exact_turn fd (l_ecb (w_st w))) turns /\
    exact_stop fd (l_ecb (w_st w)) (closed_fd fd) n (length turns) (fst (ReadLogs n fuel e w)) last.
Proof.
  intros HF EB [buf0 SK] CB. unfold ReadLogs, deferred, m_alloc.
  rewrite bind_assoc, bind_get_heap. destruct (alloc (w_heap w) (gmake 65536) 0) as [h' s] eqn:EA.
  rewrite bind_assoc, bind_put_heap, bind_ret.
  assert (SE : h' = fst (alloc (w_heap w) (gmake 65536) 0)) by (rewrite EA; reflexivity).
  assert (S' : s = snd (alloc (w_heap w) (gmake 65536) 0)) by (rewrite EA; reflexivity).
  clear EA.
  assert (LG : length (gmake 65536) = Z.to_nat 65536) by (unfold gmake; apply repeat_length).
  assert (BL : Z.of_nat (s_len s) = 65536) by (rewrite S'; unfold alloc; cbn [snd s_len]; rewrite LG; lia).
  assert (VB : valid h' s).
  { rewrite SE, S'. split; [unfold alloc; cbn [snd s_len s_cap]; lia|]. right. split.
    - unfold alloc. cbn [fst snd s_arr]. rewrite app_length. cbn [length]. lia.
    - change (s_arr (snd (alloc (w_heap w) (gmake 65536) 0))) with (length (w_heap w)).
      rewrite arr_alloc_new. unfold alloc. cbn [snd s_off s_cap]. rewrite app_length, repeat_length. lia. }
  destruct (read_loop_exact fuel s (mkLS fd buf0) e HF BL EB n (mkW (w_st w) h' (w_tr w)) SK CB VB)
    as (r & w' & turns & last & R1 & R2 & R3 & R4 & R5). cbn [w_st w_tr ls_fd] in *. rewrite R1.
  assert (NC : NFlogClose e w' = (Ok tt, mkW (w_st w') (w_heap w') (w_tr w' ++ [(KClose fd, e (w_tr w') (KClose fd))]))).
  { unfold NFlogClose. rewrite bind_get_st, R2, SK. rewrite bind_do_call, R2. reflexivity. }
  destruct r as [[]| |].
  - rewrite NC. cbn [fst snd w_tr]. destruct R5 as (r & en & evs & cl & X1 & X2 & X3 & -> & ->). rewrite app_nil_r in *.
    exists turns, (((KRecvfrom fd 65536 0, r) :: evs) ++ [(KClose fd, e (w_tr w') (KClose fd))]).
    split; [rewrite R3, <- !app_assoc; reflexivity|]. split; [exact R4|]. exists r, en, evs. eexists. repeat (split; [eassumption|]). split; [eexists; reflexivity|reflexivity].
  - rewrite NC. cbn [fst snd w_tr]. destruct R5 as (r & cbs & ps & cl & X1 & X2 & X3 & -> & ->). rewrite app_nil_r in *.
    exists turns, (((KRecvfrom fd 65536 0, r) :: cbs) ++ [(KClose fd, e (w_tr w') (KClose fd))]).
    split; [rewrite R3, <- !app_assoc; reflexivity|]. split; [exact R4|]. exists r, cbs, ps. eexists. repeat (split; [eassumption|]). split; [eexists; reflexivity|reflexivity].
  - cbn [fst snd]. exists turns, last. split; [exact R3|]. split; [exact R4|]. exact R5.
Qed.
