(** Reversed flows on the wire, and replies made from them. *)
From Verif Require Export Proof.PktEmit.

Lemma only_valid h h' s P t : only_bytes h h' s P -> valid h t -> valid h' t.
Proof.
  intros (L & AL & _) (V1 & V2). split; [exact V1|]. destruct V2 as [V2|[V2 V3]]; [left; exact V2|right].
  rewrite L, AL. auto.
Qed.
Lemma only_apart h h' s P t : only_bytes h h' s P -> apart s t -> rd h' t = rd h t.
Proof.
  intros (L & AL & C) AP. unfold rd.
  destruct (Nat.eq_dec (s_len t) 0) as [Z0|Z0]; [rewrite Z0; reflexivity|].
  apply (nth_ext _ _ 0 0).
  - rewrite !firstn_length, !skipn_length, AL. reflexivity.
  - intros i Hi. rewrite firstn_length, skipn_length in Hi.
    rewrite !nth_firstn' by lia. rewrite !nth_skipn'.
    destruct (Z.eq_dec (nth (s_off t + i) (arr h' (s_arr t)) 0) (nth (s_off t + i) (arr h (s_arr t)) 0)) as [E|E]; [exact E|].
    exfalso. destruct (C _ _ E) as (E1 & k & E2 & E3 & _). destruct AP as [AP|[AP|AP]]; [congruence|congruence|lia].
Qed.

Lemma reverse_wire : forall h p, udp_agrees h p ->
  exists p' h', CreateReverseFlowPacket h p = Ok (p', h') /\
    udp_agrees h' p' /\ version p' = version p /\ opposite_flow p p' /\
    mirrors (version p) (rd h (Buffer p)) (rd h' (Buffer p')) /\
    udp_complete (version p) (rd h' (Buffer p')) /\
    IPTotalLen p' = zlen (rd h' (Buffer p')) /\ L4FlowHash p' = L4FlowHash p /\
    Buffer p' = win (Buffer p) 0 (hl p + 8) (s_cap (Buffer p)) /\
    only_bytes h h' (Buffer p) (reverse_bytes (version p)).
Proof.
  intros h p U.
  destruct (reverse_flow h p U) as (p' & h' & RUN & U' & VP & BP & S1 & S2 & S3 & S4 & TL & HA & UL & F4 & F6 & OB).
  pose proof U as (A & P & LL & SH). pose proof U' as (A' & P' & LL' & SH').
  assert (HP : hl p' = hl p) by (unfold hl; now rewrite VP).
  assert (LB : length (rd h' (Buffer p')) = (hl p + 8)%nat).
  { destruct A' as (VB' & _). rewrite (valid_len h' _ VB'), BP. reflexivity. }
  assert (ZL : zlen (rd h' (Buffer p')) = Z.of_nat (hl p + 8)) by (unfold zlen; now rewrite LB).
  assert (X : IPTotalLen p' = zlen (rd h' (Buffer p'))) by congruence.
  exists p', h'. split; [exact RUN|]. split; [exact U'|]. split; [exact VP|]. split; [unfold opposite_flow; auto|].
  split.
  { destruct SH as (Q1 & Q2). destruct SH' as (Q3 & Q4). rewrite HP in Q3, Q4.
    destruct A as (_ & _ & _ & M). destruct A' as (_ & _ & _ & M'). rewrite VP in M'.
    unfold mirrors, hl in *. destruct (version p).
    - destruct M as (_ & _ & _ & _ & _ & _ & M1 & M2). destruct M' as (_ & _ & _ & _ & _ & _ & M3 & M4).
      split; [lia|]. repeat split; congruence.
    - destruct M as (_ & _ & _ & _ & _ & M1 & M2). destruct M' as (_ & _ & _ & _ & _ & M3 & M4).
      split; [lia|]. repeat split; congruence. }
  split.
  { rewrite <- VP. apply completes; auto.
    - rewrite HP, UL, ZL. lia.
    - intros V. apply F4. congruence.
    - intros V. apply F6. congruence.
    - intros V. apply F4. congruence. }
  auto.
Qed.

(** a control reply: the reversed packet with a marker and a token *)
Lemma control_reply : forall grow h p ty d t, udp_agrees h p -> 0 <= ty < 256 ->
  CreateUDPAuthMarker ty = Ok (rd h d) -> valid h d -> valid h t -> apart (Buffer p) d -> apart (Buffer p) t ->
  is_bytes (rd h t) -> Z.of_nat (hl p) + 28 + zlen (rd h t) < 65536 ->
  exists p1 h1 p2 h2 s, CreateReverseFlowPacket h p = Ok (p1, h1) /\
    UDPTokenAttach grow h1 p1 d t = Ok (p2, h2) /\ udp_agrees h2 p2 /\
    GetUDPType h2 p2 = Ok (Z.land ty 240) /\ ReadUDPToken p2 = Ok s /\ rd h2 s = rd h t /\
    zlen (rd h2 (Buffer p2)) = Z.of_nat (hl p) + 28 + zlen (rd h t) /\
    opposite_flow p p2 /\ udp_complete (version p) (rd h2 (Buffer p2)).
Proof.
  intros grow h p ty d t U TY MK VD VT AD AT IT LEN.
  destruct (reverse_wire h p U) as (p1 & h1 & R1 & U1 & VP & OF & MI & CO & TL & _ & BP & OB).
  assert (RD : rd h1 d = rd h d) by (eapply only_apart; eauto).
  assert (RT : rd h1 t = rd h t) by (eapply only_apart; eauto).
  assert (HP : hl p1 = hl p) by (unfold hl; now rewrite VP).
  assert (LB : length (rd h1 (Buffer p1)) = (hl p + 8)%nat).
  { destruct U1 as ((VB' & _) & _). rewrite (valid_len h1 _ VB'), BP. reflexivity. }
  assert (LM : zlen (rd h d) = 20).
  { rewrite marker_bytes in MK. assert (X : rd h d = ty :: 0 :: control_signature) by congruence. rewrite X. reflexivity. }
  destruct (control_packet grow h1 p1 ty d t U1) as (p2 & h2 & s & R2 & U2 & G1 & G2 & G3 & G4 & G5 & G6 & G7).
  - rewrite BP, HP. reflexivity.
  - rewrite TL, HP. unfold zlen. now rewrite LB.
  - intros V. rewrite VP in V. unfold udp_complete in CO. rewrite V in CO. apply CO.
  - exact TY.
  - now rewrite RD.
  - eapply only_valid; eauto.
  - eapply only_valid; eauto.
  - now rewrite RT.
  - rewrite !zlen_app, RD, RT, LM. unfold zlen at 1. rewrite LB. lia.
  - exists p1, h1, p2, h2, s. rewrite RT in *. rewrite HP in *. rewrite VP in *.
    split; [exact R1|]. split; [exact R2|]. split; [exact U2|]. split; [exact G1|]. split; [exact G2|]. split; [exact G3|].
    split; [exact G4|]. split.
    { destruct (token_attach grow h1 p1 d t U1) as (q & hq & RQ & _ & _ & E1 & E2 & E3 & E4 & _).
      { eapply only_valid; eauto. } { eapply only_valid; eauto. }
      { rewrite RD. rewrite marker_bytes in MK. assert (X : rd h d = ty :: 0 :: control_signature) by congruence. rewrite X.
        constructor; [unfold is_byte; lia|]. bytes_tac. }
      { now rewrite RT. }
      { rewrite !zlen_app, RD, RT, LM. unfold zlen at 1. rewrite LB. lia. }
      assert (q = p2) by congruence. subst q. destruct OF as (O1 & O2 & O3 & O4).
      unfold opposite_flow. repeat split; congruence. }
    rewrite G5 in G6. exact G6.
Qed.

(** The hash kept by a reversed packet. *)
Lemma hash_stale : forall h p, udp_agrees h p -> L4FlowHash p = l4FlowHash p ->
  exists p' h', CreateReverseFlowPacket h p = Ok (p', h') /\ opposite_flow p p' /\
    L4FlowHash p' = L4FlowHash p /\ L4FlowHash p' = L4ReverseFlowHash p' /\
    (version p = V4 -> L4FlowHash p' = l4FlowHash p' ->
       SourceAddress p = DestinationAddress p /\ SourcePort p = DestPort p).
Proof.
  intros h p U HS.
  destruct (reverse_wire h p U) as (p' & h' & R & U' & VP & OF & _ & _ & _ & HA & _).
  exists p', h'. split; [exact R|]. split; [exact OF|]. split; [exact HA|].
  destruct OF as (O1 & O2 & O3 & O4). split.
  { rewrite HA, HS. unfold L4ReverseFlowHash, l4FlowHash. unfold SourceAddress, DestinationAddress in *. congruence. }
  intros V E. destruct (hash4 h p h' p' (or_intror U) (or_intror U') V ltac:(congruence) HS E) as ((H1 & _) & _).
  destruct (H1 (eq_sym HA)) as (Q1 & _ & Q3 & _). split; congruence.
Qed.
