(** Histories of calls on a UDP packet (C80). *)
From Verif Require Export Proof.PktMirror Proof.PktHistory Proof.PktControl Proof.PktAttachUdp Spec.UdpHistory.

Lemma udp_total_range h p : udp_agrees h p -> 0 <= IPTotalLen p < 65536.
Proof.
  intros (A & _ & _). destruct A as (_ & IB & _ & X). destruct (version p).
  - destruct X as (L & _ & _ & _ & T & _). rewrite T. unfold ip4_total. apply be16f_range; auto; lia.
  - destruct X as (L & _ & _ & T & _). rewrite T. lia.
Qed.
Lemma complete_sound v b : udp_complete v b -> udp_sound v b.
Proof. unfold udp_complete, udp_sound. destruct v; tauto. Qed.
Lemma sound_complete h p l : udp_agrees h p -> IPTotalLen p = (zlen (rd h (Buffer p)) + lg_excess l) mod 65536 ->
  lg_excess l = 0 -> udp_sound (version p) (rd h (Buffer p)) -> (version p = V4 -> ip4_valid (rd h (Buffer p))) ->
  udp_complete (version p) (rd h (Buffer p)).
Proof.
  intros U T E S I. pose proof U as (A & _). pose proof A as (VB & _ & LT & _). pose proof (valid_len _ _ VB) as LB.
  assert (X : IPTotalLen p = zlen (rd h (Buffer p))).
  { rewrite T, E, Z.add_0_r. apply Z.mod_small. unfold zlen. lia. }
  apply completes_valid; auto; unfold udp_sound, hl in *; destruct (version p); try discriminate; intuition.
Qed.
Lemma turn_same p0 p p' (t : bool) : SourceAddress p' = SourceAddress p -> DestinationAddress p' = DestinationAddress p ->
  SourcePort p' = SourcePort p -> DestPort p' = DestPort p ->
  (if t then opposite_flow p0 p else same_flow p0 p) -> if t then opposite_flow p0 p' else same_flow p0 p'.
Proof. unfold opposite_flow, same_flow. intros -> -> -> ->. auto. Qed.
Lemma turn_over p0 p p' (t : bool) : opposite_flow p p' ->
  (if t then opposite_flow p0 p else same_flow p0 p) -> if negb t then opposite_flow p0 p' else same_flow p0 p'.
Proof. unfold opposite_flow, same_flow. intros (E1 & E2 & E3 & E4). destruct t; cbn [negb]; intros (F1 & F2 & F3 & F4); repeat split; congruence. Qed.
Lemma standing_header v k : standing v k -> (k < match v with V4 => 20 | V6 => 40 end)%nat /\ ~ ip_len_bytes v k /\ ~ reverse_bytes v k.
Proof. unfold standing, ip_len_bytes, reverse_bytes. destruct v; lia. Qed.
Lemma hl_ver p : hl p = match version p with V4 => 20 | V6 => 40 end%nat.
Proof. reflexivity. Qed.

Section H.
Variables (grow : nat -> nat -> nat) (p0 : packet) (b0 : bytes).

Lemma udp_update_ip h p h' p' : udp_agrees h p -> version p = V4 -> UpdateIPv4Checksum h p = Ok (p', h') ->
  udp_agrees h' p' /\ Buffer p' = Buffer p /\ p' = with_total_csum p (ipTotalLength p) (ipChecksum p') /\
  ip4_valid (rd h' (Buffer p)) /\ only_bytes h h' (Buffer p) (fun k => (10 <= k < 12)%nat) /\
  length (rd h' (Buffer p)) = length (rd h (Buffer p)) /\ skipn 20 (rd h' (Buffer p)) = skipn 20 (rd h (Buffer p)).
Proof.
  intros U V M. pose proof U as (A & P & L & S). facts A.
  destruct (update_ipv4 h p A V) as (p1 & h1 & E & A1 & B1 & T1 & IV & _ & _ & OB).
  rewrite M in E. injection E as <- <-.
  assert (PE : p' = with_total_csum p (ipTotalLength p) (ipChecksum p')).
  { unfold UpdateIPv4Checksum in M. destruct (computeIPv4Checksum h p) as [x| |]; cbn [rbind] in M; try discriminate.
    destruct (put16_at _ _ _ _) in M; cbn [rbind] in M; try discriminate. injection M as <- _. reflexivity. }
  assert (HH : hl p = 20%nat) by (unfold hl; now rewrite V).
  assert (L' : length (rd h' (Buffer p)) = s_len (Buffer p)).
  { rewrite <- B1. apply valid_len. apply A1. }
  assert (N : forall k, (20 <= k < s_len (Buffer p))%nat -> nth k (rd h' (Buffer p)) 0 = nth k (rd h (Buffer p)) 0).
  { intros k K. apply (only_bytes_nth _ _ _ _ _ OB); lia. }
  assert (SK : skipn 20 (rd h' (Buffer p)) = skipn 20 (rd h (Buffer p))).
  { apply nth_ext_len with 0; [rewrite !skipn_length; lia|]. intros j J. rewrite skipn_length in J. rewrite !nth_skipn'. apply N. lia. }
  split; [|rewrite B1 in IV; split; [exact B1|split; [exact PE|split; [exact IV|split; [exact OB|split; [lia|exact SK]]]]]].
  split; [exact A1|]. rewrite B1. assert (HP : hl p' = hl p) by (rewrite PE; reflexivity). rewrite HP.
  split; [rewrite PE; exact P|]. split; [lia|].
  assert (FE : forall o n, (20 <= o)%nat -> field (rd h' (Buffer p)) o n = field (rd h (Buffer p)) o n).
  { intros o n K1. unfold field. replace o with ((o - 20) + 20)%nat by lia. rewrite <- !skipn_skipn, SK. reflexivity. }
  unfold shows_udp, l4_sport, l4_dport, be16f in *. rewrite !FE by lia. rewrite PE. exact S.
Qed.

Lemma udp_step l c h p h' p' : kept_by p0 b0 l h p -> udp_permitted h p c -> make_udp_call grow c h p = Ok (p', h') ->
  kept_by p0 b0 (enter l (event_of h c)) h' p'.
Proof.
  intros (U & V & F & LN & PL & T & S & I4 & ST) PM M. pose proof U as (A & _ & LL & _). facts A.
  assert (HP : hl p = hl p0) by (rewrite !hl_ver, V; reflexivity).
  destruct c as [|hd d|d t| |]; cbn [make_udp_call udp_permitted event_of] in *.
  - destruct (data_detach h p U) as (p1 & E & PE & U1 & R1 & L1). rewrite E in M. cbn [rbind] in M. injection M as <- <-.
    assert (X : length (rd h (Buffer p1)) = (hl p0 + 8)%nat) by (rewrite R1, firstn_length; lia).
    unfold kept_by. cbn [enter lg_payload lg_excess lg_sound lg_ipvalid lg_turned length].
    split; [exact U1|]. split; [rewrite PE; exact V|]. split; [apply (turn_same p0 p); auto; rewrite PE; reflexivity|].
    split; [lia|]. split; [apply skipn_all2; lia|].
    split. { replace (IPTotalLen p1) with (IPTotalLen p) by (rewrite PE; reflexivity). rewrite T. f_equal. unfold zlen. lia. }
    split. { rewrite andb_true_iff. intros (S1 & Z0). apply Z.eqb_eq in Z0. rewrite R1, firstn_all2; [auto|]. unfold zlen in Z0. lia. }
    split. { intros J V4. specialize (I4 J V4). rewrite R1. unfold ip4_valid in *. rewrite firstn_firstn, Nat.min_l; [exact I4|]. rewrite hl_ver, V, V4. lia. }
    intros k K. destruct (standing_header _ _ K) as (K1 & _). rewrite R1, nth_firstn'; [apply ST, K|]. rewrite HP, hl_ver. lia.
  - destruct PM as (P1 & P2 & P3 & P4 & P5 & P6).
    destruct (data_attach grow h p hd d U P1 P2 P3 P4 P5 P6) as (p1 & h1 & E & U1 & V1 & A1 & A2 & A3 & A4 & T1 & ZL & SK & UL & C4 & C6 & IV & HK).
    rewrite E in M. injection M as <- <-. rewrite HP in *.
    assert (LX : length (rd h1 (Buffer p1)) = (hl p0 + 8 + length (lg_payload l ++ rd h hd ++ rd h d))%nat).
    { unfold zlen in ZL. rewrite app_length in *. lia. }
    unfold kept_by. cbn [enter lg_payload lg_excess lg_sound lg_ipvalid lg_turned].
    split; [exact U1|]. split; [congruence|]. split; [apply (turn_same p0 p); auto|].
    split; [exact LX|]. split; [rewrite SK, PL; reflexivity|].
    split. { rewrite Z.add_0_r, Z.mod_small; [exact T1|]. unfold zlen in *. lia. }
    split. { intros _. unfold udp_sound, hl in *. rewrite V in *. destruct (version p0); [auto|split; [auto|apply C6; reflexivity]]. }
    split. { intros J V4. apply IV; [congruence|auto]. }
    intros k K. rewrite <- ST by exact K. destruct (standing_header _ _ K) as (K1 & K2 & _). apply HK; [|congruence]. rewrite HP, hl_ver. lia.
  - destruct PM as (P1 & P2 & P3 & P4 & P5).
    destruct (token_attach grow h p d t U P1 P2 P3 P4 P5) as (p1 & h1 & E & U1 & V1 & A1 & A2 & A3 & A4 & T1 & ZL & SK & UL & C4 & C6 & IV & HK).
    rewrite E in M. injection M as <- <-. rewrite HP in *.
    assert (LX : length (rd h1 (Buffer p1)) = (hl p0 + 8 + length (lg_payload l ++ rd h d ++ rd h t))%nat).
    { unfold zlen in ZL. rewrite app_length in *. lia. }
    unfold kept_by. cbn [enter lg_payload lg_excess lg_sound lg_ipvalid lg_turned].
    split; [exact U1|]. split; [congruence|]. split; [apply (turn_same p0 p); auto|].
    split; [exact LX|]. split; [rewrite SK, PL; reflexivity|].
    split. { rewrite T1, T, Zplus_mod_idemp_l. f_equal. unfold zlen in *. rewrite (app_length (rd h (Buffer p))) in ZL. lia. }
    split. { intros _. unfold udp_sound, hl in *. rewrite V in *. destruct (version p0); [auto|split; [auto|apply C6; reflexivity]]. }
    split. { intros J V4. apply IV; [congruence|auto]. }
    intros k K. rewrite <- ST by exact K. destruct (standing_header _ _ K) as (K1 & K2 & _). apply HK; [|congruence]. rewrite HP, hl_ver. lia.
  - destruct (reverse_wire h p U) as (p1 & h1 & E & U1 & V1 & OF & MI & CO & T1 & _ & B1 & OB).
    rewrite E in M. injection M as <- <-.
    assert (LX : length (rd h1 (Buffer p1)) = (hl p0 + 8)%nat).
    { pose proof U1 as (A1 & _). rewrite (valid_len _ _ (proj1 A1)), B1, <- HP. reflexivity. }
    assert (LT : zlen (rd h1 (Buffer p1)) < 65536) by (pose proof (udp_total_range _ _ U1); lia).
    unfold kept_by. cbn [enter lg_payload lg_excess lg_sound lg_ipvalid lg_turned length].
    split; [exact U1|]. split; [congruence|]. split; [eapply turn_over; eauto|].
    split; [lia|]. split; [apply skipn_all2; lia|].
    split. { rewrite Z.add_0_r, Z.mod_small; [exact T1|]. unfold zlen in *. lia. }
    rewrite V in CO, OB.
    split. { intros _. apply complete_sound, CO. }
    split. { intros _ V4. rewrite V4 in CO. apply CO. }
    intros k K. rewrite <- ST by exact K. destruct (standing_header _ _ K) as (K1 & _ & K3).
    rewrite LB in *. pose proof (hl_ver p0) as HV.
    assert (RB : rd h1 (Buffer p1) = firstn (hl p0 + 8) (rd h1 (Buffer p))).
    { rewrite B1, <- HP. unfold rd, win. cbn [s_off s_len s_arr]. rewrite Nat.add_0_r, firstn_firstn, Nat.min_l by lia. reflexivity. }
    rewrite RB, nth_firstn' by lia. apply (only_bytes_nth _ _ _ _ _ OB); [lia|exact K3].
  - destruct (udp_update_ip h p h' p' U PM M) as (U1 & B1 & PE & IV & OB & LX & SK).
    unfold kept_by. cbn [enter lg_payload lg_excess lg_sound lg_ipvalid lg_turned]. rewrite B1.
    assert (H20 : hl p0 = 20%nat) by (rewrite hl_ver, <- V, PM; reflexivity).
    assert (SKN : forall k, (20 <= k)%nat -> skipn k (rd h' (Buffer p)) = skipn k (rd h (Buffer p))).
    { intros k K. replace k with ((k - 20) + 20)%nat by lia. rewrite <- !skipn_skipn, SK. reflexivity. }
    split; [exact U1|]. split; [rewrite PE; exact V|]. split; [apply (turn_same p0 p); auto; rewrite PE; reflexivity|].
    split; [congruence|]. split; [rewrite SKN by lia; exact PL|].
    split. { replace (IPTotalLen p') with (IPTotalLen p) by (rewrite PE; reflexivity). rewrite T. unfold zlen. rewrite LX. reflexivity. }
    split. { intros J. specialize (S J). rewrite <- V, PM in *. unfold udp_sound, udp_length, udp_checksum, be16f, field, zlen in *.
      rewrite !SKN by lia. rewrite LX. exact S. }
    split; [auto|].
    intros k K. rewrite <- ST by exact K. destruct (standing_header _ _ K) as (K1 & _). rewrite <- V, PM in K, K1. unfold standing in K.
    rewrite LB in *. apply (only_bytes_nth _ _ _ _ _ OB); lia.
Qed.

(** every permitted call succeeds *)
Lemma udp_call_succeeds c h p : udp_agrees h p -> udp_permitted h p c -> exists p' h', make_udp_call grow c h p = Ok (p', h').
Proof.
  intros U PM. pose proof U as (A & _). destruct c as [|hd d|d t| |]; cbn [make_udp_call udp_permitted] in *.
  - destruct (data_detach h p U) as (p1 & E & _). rewrite E. do 2 eexists. reflexivity.
  - destruct PM as (P1 & P2 & P3 & P4 & P5 & P6).
    destruct (data_attach grow h p hd d U P1 P2 P3 P4 P5 P6) as (p1 & h1 & E & _). eauto.
  - destruct PM as (P1 & P2 & P3 & P4 & P5).
    destruct (token_attach grow h p d t U P1 P2 P3 P4 P5) as (p1 & h1 & E & _). eauto.
  - destruct (reverse_wire h p U) as (p1 & h1 & E & _). eauto.
  - destruct (update_ipv4 h p A PM) as (p1 & h1 & E & _). eauto.
Qed.
End H.

Lemma opening_kept h0 p0 s i : udp_agrees h0 p0 -> (s = true -> udp_sound (version p0) (rd h0 (Buffer p0))) ->
  (i = true -> version p0 = V4 -> ip4_valid (rd h0 (Buffer p0))) ->
  kept_by p0 (rd h0 (Buffer p0)) (opening h0 p0 s i) h0 p0.
Proof.
  intros U S I. pose proof U as (A & _ & L & _). unfold kept_by, opening. cbn [lg_payload lg_excess lg_sound lg_ipvalid lg_turned].
  split; [exact U|]. split; [reflexivity|]. split; [repeat split|]. split; [rewrite skipn_length; lia|]. split; [reflexivity|].
  split. { pose proof (udp_total_range _ _ U). replace (zlen (rd h0 (Buffer p0)) + (IPTotalLen p0 - zlen (rd h0 (Buffer p0)))) with (IPTotalLen p0) by lia. rewrite Z.mod_small; lia. }
  auto.
Qed.

Lemma udp_history grow h0 p0 s i es h p : udp_agrees h0 p0 -> (s = true -> udp_sound (version p0) (rd h0 (Buffer p0))) ->
  (i = true -> version p0 = V4 -> ip4_valid (rd h0 (Buffer p0))) ->
  udp_reached grow h0 p0 es h p -> kept_by p0 (rd h0 (Buffer p0)) (fold_left enter es (opening h0 p0 s i)) h p.
Proof.
  intros U S I R. induction R as [|es h p c h' p' R IH PM M].
  - now apply opening_kept.
  - rewrite fold_left_app. cbn [fold_left]. eapply udp_step; eauto.
Qed.
