(** Histories of calls on a TCP packet (C63). *)
From Verif Require Export Proof.PktEmit Spec.History.

Record step_ok (c : tcp_call) (h : heap) (p : packet) (h' : heap) (p' : packet) : Prop := mkStep {
  so_agrees : tcp_agrees h' p';
  so_flow : same_flow p' p;
  so_version : version p' = version p;
  so_seq : tcpSeq p' = (tcpSeq p + seq_change c) mod 4294967296;
  so_ack : tcpAck p' = (tcpAck p + ack_change c) mod 4294967296;
  so_offset : tcpDataOffset p' = tcpDataOffset p + offset_change c;
  so_flags : GetTCPFlags p' = flags_after (GetTCPFlags p) c;
  so_total : IPTotalLen p' = (IPTotalLen p + Z.of_nat (s_len (Buffer p')) - Z.of_nat (s_len (Buffer p)) + attached_len c) mod 65536;
  so_valid : version p = V4 -> ip4_valid (rd h (Buffer p)) -> ip4_valid (rd h' (Buffer p')) }.

Lemma only_bytes_nth h h' s P k : only_bytes h h' s P -> (k < s_len s)%nat -> ~ P k ->
  nth k (rd h' s) 0 = nth k (rd h s) 0.
Proof.
  intros (_ & LA & OB) K N. unfold rd. rewrite !nth_firstn' by lia. rewrite !nth_skipn'.
  destruct (Z.eq_dec (nth (s_off s + k) (arr h' (s_arr s)) 0) (nth (s_off s + k) (arr h (s_arr s)) 0)) as [E|E]; [exact E|].
  exfalso. destruct (OB _ _ E) as (_ & j & J1 & _ & J3). apply N. replace k with j by lia. exact J3.
Qed.
Lemma only_bytes_firstn h h' s P n : only_bytes h h' s P -> (forall k, (k < n)%nat -> ~ P k) -> (n <= s_len s)%nat ->
  length (rd h s) = s_len s -> length (rd h' s) = s_len s -> firstn n (rd h' s) = firstn n (rd h s).
Proof.
  intros OB N L L1 L2. apply nth_ext_len with 0.
  - rewrite !firstn_length. lia.
  - intros j J. rewrite firstn_length in J. rewrite !nth_firstn' by lia.
    apply (only_bytes_nth h h' s P); auto; [lia|]. apply N. lia.
Qed.
Lemma total_range h p : tcp_agrees h p -> 0 <= IPTotalLen p < 65536.
Proof.
  intros (A & _ & _). destruct A as (_ & IB & _ & X). destruct (version p).
  - destruct X as (L & _ & _ & _ & T & _). rewrite T. unfold ip4_total. apply be16f_range; auto; lia.
  - destruct X as (L & _ & _ & T & _). rewrite T. lia.
Qed.

(** for calls that only concern the TCP header *)
Lemma header_step c h p h' p' : tcp_agrees h p -> tcp_agrees h' p' ->
  Buffer p' = Buffer p -> SourceAddress p' = SourceAddress p -> DestinationAddress p' = DestinationAddress p ->
  SourcePort p' = SourcePort p -> DestPort p' = DestPort p -> version p' = version p -> IPTotalLen p' = IPTotalLen p ->
  tcpSeq p' = (tcpSeq p + seq_change c) mod 4294967296 -> tcpAck p' = (tcpAck p + ack_change c) mod 4294967296 ->
  tcpDataOffset p' = tcpDataOffset p + offset_change c -> GetTCPFlags p' = flags_after (GetTCPFlags p) c ->
  attached_len c = 0 -> (version p = V4 -> ip4_valid (rd h (Buffer p)) -> ip4_valid (rd h' (Buffer p'))) ->
  step_ok c h p h' p'.
Proof.
  intros T T' B A1 A2 P1 P2 V TL S K O F AL IV. constructor; auto.
  - unfold same_flow. auto.
  - rewrite B, TL, AL. pose proof (total_range h p T). rewrite Z.mod_small; lia.
Qed.

Lemma mod_id_0 a m : 0 <= a < m -> a = (a + 0) mod m.
Proof. intros H. rewrite Z.mod_small; lia. Qed.

Lemma seq_step o c grow h p h' p' : tcp_agrees h p ->
  make_call grow c h p = run_seqop o h p -> seq_change c = seq_delta o -> ack_change c = ack_delta o ->
  offset_change c = 0 -> attached_len c = 0 -> (forall f, flags_after f c = f) ->
  make_call grow c h p = Ok (p', h') -> step_ok c h p h' p'.
Proof.
  intros T E S K O AL F M. rewrite E, (seqop_run o h p T) in M. injection M as <- <-.
  pose proof (seqop_agrees o h p T) as T'. destruct (tcp_agrees_facts h p T) as (R1 & R2 & _).
  pose proof T as (A & _ & L & _). facts A. rewrite LB in L.
  apply header_step; auto;
    try (unfold seqop_packet; destruct (is_seq o); reflexivity).
  - rewrite S. unfold seqop_packet, seqop_value. destruct o; cbn [is_seq seq_delta with_seq with_ack with_tcp tcpSeq];
      try reflexivity; apply mod_id_0; auto.
  - rewrite K. unfold seqop_packet, seqop_value. destruct o; cbn [is_seq ack_delta with_seq with_ack with_tcp tcpAck];
      try reflexivity; apply mod_id_0; auto.
  - rewrite O. unfold seqop_packet. destruct (is_seq o); cbn [with_seq with_ack with_tcp tcpDataOffset]; lia.
  - rewrite F. unfold seqop_packet. destruct (is_seq o); reflexivity.
  - intros V4 IV. assert (HB : Buffer (seqop_packet o p) = Buffer p) by (unfold seqop_packet; destruct (is_seq o); reflexivity).
    rewrite HB. assert (FO : (4 <= seqop_field o /\ seqop_field o <= 8)%nat) by (unfold seqop_field; destruct (is_seq o); lia).
    rewrite rd_set; [|exact VS|slen].
    unfold ip4_valid in *. assert (H20 : hl p = 20%nat) by (unfold hl; now rewrite V4).
    rewrite firstn_splice_behind; [exact IV|lia|slen].
Qed.

Ltac same_numbers T := 
  let R1 := fresh in let R2 := fresh in
  destruct (tcp_agrees_facts _ _ T) as (R1 & R2 & _); cbn [seq_change ack_change offset_change attached_len flags_after].

Lemma look_step c h p h' p' : tcp_agrees h p -> seq_change c = 0 -> ack_change c = 0 -> offset_change c = 0 ->
  attached_len c = 0 -> (forall f, flags_after f c = f) -> h' = h ->
  Buffer p' = Buffer p -> SourceAddress p' = SourceAddress p -> DestinationAddress p' = DestinationAddress p ->
  SourcePort p' = SourcePort p -> DestPort p' = DestPort p -> version p' = version p -> IPTotalLen p' = IPTotalLen p ->
  tcpSeq p' = tcpSeq p -> tcpAck p' = tcpAck p -> tcpDataOffset p' = tcpDataOffset p -> GetTCPFlags p' = GetTCPFlags p ->
  tcp_agrees h p' -> step_ok c h p h' p'.
Proof.
  intros T S K O AL F -> B A1 A2 P1 P2 V TL E1 E2 E3 E4 T'. destruct (tcp_agrees_facts _ _ T) as (R1 & R2 & _).
  assert (S1 : tcpSeq p' = (tcpSeq p + seq_change c) mod 4294967296) by (rewrite S, E1; apply mod_id_0, R1).
  assert (S2 : tcpAck p' = (tcpAck p + ack_change c) mod 4294967296) by (rewrite K, E2; apply mod_id_0, R2).
  assert (S3 : tcpDataOffset p' = tcpDataOffset p + offset_change c) by (rewrite O, E3; lia).
  assert (S4 : GetTCPFlags p' = flags_after (GetTCPFlags p) c) by (rewrite F; exact E4).
  apply header_step; auto. rewrite B. auto.
Qed.

Lemma update_ip_step grow h p h' p' : tcp_agrees h p -> version p = V4 ->
  make_call grow UpdIP h p = Ok (p', h') -> step_ok UpdIP h p h' p'.
Proof.
  intros T V M. cbn [make_call] in M. pose proof T as (A & P & L & S). facts A.
  destruct (update_ipv4 h p A V) as (p1 & h1 & E & A1 & B1 & T1 & IV & _ & _ & OB).
  rewrite M in E. injection E as <- <-.
  assert (PE : p' = with_total_csum p (ipTotalLength p) (ipChecksum p')).
  { unfold UpdateIPv4Checksum in M. destruct (computeIPv4Checksum h p) as [x| |]; cbn [rbind] in M; try discriminate.
    destruct (put16_at _ _ _ _) in M; cbn [rbind] in M; try discriminate. injection M as <- _. reflexivity. }
  assert (HH : hl p = 20%nat) by (unfold hl; now rewrite V).
  assert (L' : length (rd h' (Buffer p)) = s_len (Buffer p)).
  { rewrite <- B1. apply valid_len. apply A1. }
  assert (T' : tcp_agrees h' p').
  { split; [exact A1|]. rewrite B1. assert (HP : hl p' = hl p) by (rewrite PE; reflexivity). rewrite HP.
    split; [rewrite PE; exact P|]. split; [lia|].
    assert (N : forall k, (20 <= k < s_len (Buffer p))%nat -> nth k (rd h' (Buffer p)) 0 = nth k (rd h (Buffer p)) 0).
    { intros k K. apply (only_bytes_nth _ _ _ _ _ OB); lia. }
    assert (FE : forall o n, (20 <= o)%nat -> (o + n <= s_len (Buffer p))%nat -> field (rd h' (Buffer p)) o n = field (rd h (Buffer p)) o n).
    { intros o n K1 K2. unfold field. apply nth_ext_len with 0.
      - rewrite !firstn_length, !skipn_length. lia.
      - intros j J. rewrite firstn_length, skipn_length in J. rewrite !nth_firstn' by lia. rewrite !nth_skipn'. apply N. lia. }
    rewrite LB in L. unfold shows_tcp, l4_sport, l4_dport, tcp_seq, tcp_ack, tcp_offset, tcp_flags, tcp_checksum, byte_at, be16f, be32f in *.
    rewrite !FE by lia. rewrite !N by lia. rewrite PE. exact S. }
  destruct (tcp_agrees_facts _ _ T) as (R1 & R2 & _).
  apply header_step; auto; try (rewrite PE; reflexivity); cbn [seq_change ack_change offset_change attached_len flags_after].
  - rewrite PE at 1. apply mod_id_0, R1.
  - rewrite PE at 1. apply mod_id_0, R2.
  - rewrite PE at 1. cbn. lia.
Qed.

Lemma detach_fields p ol tl cs :
  let q := detached_packet p ol tl cs in
  SourceAddress q = SourceAddress p /\ DestinationAddress q = DestinationAddress p /\ SourcePort q = SourcePort p /\
  DestPort q = DestPort p /\ version q = version p /\ tcpSeq q = tcpSeq p /\ tcpAck q = tcpAck p /\
  tcpDataOffset q = tcpDataOffset p - ol / 4 /\ GetTCPFlags q = GetTCPFlags p /\ IPTotalLen q = tl /\
  s_len (Buffer q) = cut_at p ol.
Proof. intros q. unfold q. repeat split. Qed.

Lemma detach_step grow h p ol h' p' : tcp_agrees h p -> permitted h p (Detach ol) ->
  make_call grow (Detach ol) h p = Ok (p', h') -> step_ok (Detach ol) h p h' p'.
Proof.
  intros T (O1 & O2 & O3 & O4) M. cbn [make_call] in M.
  destruct (detach_spec h p ol T O1 O2 O3 O4) as (cs & p1 & h1 & _ & _ & E & PE & _ & T' & IV & _).
  rewrite M in E. injection E as <- <-.
  destruct (tcp_agrees_facts _ _ T) as (R1 & R2 & R3 & _).
  pose proof (detach_fields p ol ((IPTotalLen p - (payload_len p + ol)) mod 65536) cs) as D. cbv zeta in D.
  rewrite <- PE in D. destruct D as (D1 & D2 & D3 & D4 & D5 & D6 & D7 & D8 & D9 & D10 & D11).
  constructor; auto; cbn [seq_change ack_change offset_change attached_len flags_after].
  - unfold same_flow. auto.
  - rewrite D6. apply mod_id_0, R1.
  - rewrite D7. apply mod_id_0, R2.
  - rewrite D10, D11. f_equal. unfold payload_len, cut_at, payload_at in *. lia.
Qed.

Lemma attach_step grow h p o d h' p' : tcp_agrees h p -> permitted h p (Attach o d) ->
  make_call grow (Attach o d) h p = Ok (p', h') -> step_ok (Attach o d) h p h' p'.
Proof.
  intros T (O1 & O2 & O3) M. cbn [make_call] in M.
  destruct (attach_spec grow h p o d T O1 O2 O3) as (cs & p1 & h1 & _ & _ & E & PE & T' & _ & _ & _ & _ & _ & _ & _ & IV & _).
  rewrite E in M. cbn [rbind fst] in M. injection M as <- <-.
  destruct (tcp_agrees_facts _ _ T) as (R1 & R2 & R3 & _).
  set (tl := (IPTotalLen p + Z.of_nat (s_len o) + Z.of_nat (s_len d)) mod 65536) in *.
  assert (D : SourceAddress p1 = SourceAddress p /\ DestinationAddress p1 = DestinationAddress p /\ SourcePort p1 = SourcePort p /\
    DestPort p1 = DestPort p /\ version p1 = version p /\ tcpSeq p1 = tcpSeq p /\ tcpAck p1 = tcpAck p /\
    tcpDataOffset p1 = tcpDataOffset p + Z.of_nat (s_len o) / 4 /\ GetTCPFlags p1 = GetTCPFlags p /\ IPTotalLen p1 = tl /\ Buffer p1 = Buffer p).
  { rewrite PE. repeat split. }
  destruct D as (D1 & D2 & D3 & D4 & D5 & D6 & D7 & D8 & D9 & D10 & D11).
  constructor; auto; cbn [seq_change ack_change offset_change attached_len flags_after].
  - unfold same_flow. auto.
  - rewrite D6. apply mod_id_0, R1.
  - rewrite D7. apply mod_id_0, R2.
  - rewrite D10, D11. unfold tl. f_equal. lia.
  - rewrite D11. exact IV.
Qed.

Lemma fin_step grow h p h' p' : tcp_agrees h p -> permitted h p FinAck ->
  make_call grow FinAck h p = Ok (p', h') -> step_ok FinAck h p h' p'.
Proof.
  intros T (O1 & O2) M. cbn [make_call] in M.
  destruct (fin_ack h p T O1 O2) as (p1 & h1 & E & T' & F1 & _ & LG & _ & _ & TL & IV & G1 & G2 & _).
  rewrite M in E. injection E as <- <-.
  unfold ConvertAcktoFinAck in M. change (Z.lor (Z.lor 0 TCPFinMask) TCPAckMask) with 17 in M.
  destruct (flags_agree h p 17 T ltac:(lia)) as (UF & TF). rewrite UF in M. cbn [rbind] in M.
  set (h2 := set_rd _ _ _) in *.
  destruct (detach_spec h2 (with_flags p 17) 0 TF ltac:(lia) ltac:(reflexivity)) as (cs & q & h3 & _ & _ & E & QE & _).
  { change (tcpDataOffset (with_flags p 17)) with (tcpDataOffset p). lia. }
  { exact O2. }
  rewrite E in M. cbn [rbind] in M. injection M as PE _.
  set (tl := ((IPTotalLen (with_flags p 17) - (payload_len (with_flags p 17) + 0)) mod 65536)) in *.
  pose proof (detach_fields (with_flags p 17) 0 tl cs) as D. cbv zeta in D. rewrite <- QE in D.
  destruct D as (D1 & D2 & D3 & D4 & D5 & D6 & D7 & D8 & D9 & D10 & D11).
  destruct (tcp_agrees_facts _ _ T) as (R1 & R2 & R3 & _).
  assert (BE' : length (GetTCPBytes h' p') = s_len (Buffer p')).
  { unfold GetTCPBytes. unfold GetTCPData in G1. unfold GetTCPOptions in G2. rewrite G1, G2, !app_nil_r.
    apply valid_len. apply T'. }
  assert (SB : s_len (Buffer p') = payload_at p) by lia.
  assert (X : SourceAddress p' = SourceAddress p /\ DestinationAddress p' = DestinationAddress p /\ SourcePort p' = SourcePort p /\
    DestPort p' = DestPort p /\ version p' = version p /\ tcpSeq p' = tcpSeq p /\ tcpAck p' = tcpAck p /\
    tcpDataOffset p' = tcpDataOffset p).
  { rewrite <- PE. unfold DropTCPDetachedBytes.
    change (SourceAddress (with_optdata q snil snil)) with (SourceAddress q).
    change (DestinationAddress (with_optdata q snil snil)) with (DestinationAddress q).
    change (SourcePort (with_optdata q snil snil)) with (SourcePort q).
    change (DestPort (with_optdata q snil snil)) with (DestPort q).
    change (version (with_optdata q snil snil)) with (version q).
    change (tcpSeq (with_optdata q snil snil)) with (tcpSeq q).
    change (tcpAck (with_optdata q snil snil)) with (tcpAck q).
    change (tcpDataOffset (with_optdata q snil snil)) with (tcpDataOffset q).
    rewrite D1, D2, D3, D4, D5, D6, D7, D8. repeat split.
    change (tcpDataOffset (with_flags p 17)) with (tcpDataOffset p). change (0 / 4) with 0. lia. }
  destruct X as (X1 & X2 & X3 & X4 & X5 & X6 & X7 & X8).
  constructor; auto; cbn [seq_change ack_change offset_change attached_len flags_after].
  - unfold same_flow. auto.
  - rewrite X6. apply mod_id_0, R1.
  - rewrite X7. apply mod_id_0, R2.
  - lia.
  - rewrite TL, SB. f_equal. unfold payload_len. lia.
  - intros V4 I4. specialize (IV V4 I4). unfold GetTCPBytes in IV. unfold GetTCPData in G1. unfold GetTCPOptions in G2.
    rewrite G1, G2, !app_nil_r in IV. exact IV.
Qed.

Lemma update_tcp_step grow h p h' p' : tcp_agrees h p -> permitted h p UpdTCP ->
  make_call grow UpdTCP h p = Ok (p', h') -> step_ok UpdTCP h p h' p'.
Proof.
  intros T (AO & EV) M. cbn [make_call] in M.
  destruct (update_tcp h p T AO EV) as (p1 & h1 & E & T' & B1 & _ & _ & _ & _ & OB & _).
  rewrite M in E. injection E as <- <-. pose proof T as (A & P & L & S). facts A. rewrite LB in L.
  assert (PE : p' = with_tcpcsum p (tcpChecksum p')).
  { unfold UpdateTCPChecksum in M. destruct (resl_from _ _) in M; cbn [rbind] in M; try discriminate.
    destruct (computeTCPChecksum h p) as [x| |]; cbn [rbind] in M; try discriminate.
    destruct (put16_at _ _ _ _) in M; cbn [rbind] in M; try discriminate. injection M as <- _. reflexivity. }
  destruct (tcp_agrees_facts _ _ T) as (R1 & R2 & _).
  apply header_step; auto; try (rewrite PE; reflexivity); cbn [seq_change ack_change offset_change attached_len flags_after].
  - rewrite PE at 1. apply mod_id_0, R1.
  - rewrite PE at 1. apply mod_id_0, R2.
  - rewrite PE at 1. cbn. lia.
  - intros V4 IV. rewrite B1. unfold ip4_valid in *.
    rewrite (only_bytes_firstn h h' (Buffer p) _ 20 OB); auto.
    + intros k K. assert (hl p = 20%nat) by (unfold hl; now rewrite V4). lia.
    + lia.
    + rewrite <- B1. apply valid_len, T'.
Qed.

Lemma call_step grow c h p h' p' : tcp_agrees h p -> permitted h p c -> make_call grow c h p = Ok (p', h') ->
  step_ok c h p h' p'.
Proof.
  intros T PM M. destruct c.
  - now apply (seq_step (SeqUp n) _ grow).
  - now apply (seq_step (SeqDown n) _ grow).
  - now apply (seq_step (AckUp n) _ grow).
  - now apply (seq_step (AckDown n) _ grow).
  - now apply (update_ip_step grow).
  - pose proof T as (A & _). destruct (verify_ipv4 h p A PM) as (b & E & _). cbn [make_call] in M. rewrite E in M.
    cbn [rbind snd] in M. injection M as <- <-. apply look_step; auto.
  - now apply (update_tcp_step grow).
  - destruct PM as (AO & EV). destruct (verify_tcp h p T AO EV) as (b & E & _). cbn [make_call] in M. rewrite E in M.
    cbn [rbind snd] in M. injection M as <- <-. apply look_step; auto.
  - now apply (detach_step grow).
  - now apply (attach_step grow).
  - now apply (fin_step grow).
  - cbn [make_call] in M. injection M as <- <-. apply look_step; auto; apply (tcp_agrees_ext h); auto; apply T.
  - cbn [make_call] in M. injection M as <- <-. apply look_step; auto; apply (tcp_agrees_ext h); auto; apply T.
  - cbn [make_call] in M. injection M as <- <-. apply look_step; auto; apply (tcp_agrees_ext h); auto; apply T.
Qed.
Lemma call_succeeds grow c h p : tcp_agrees h p -> permitted h p c -> exists p' h', make_call grow c h p = Ok (p', h').
Proof.
  intros T PM. pose proof T as (A & _). destruct c; cbn [make_call permitted] in *.
  - rewrite (seqop_run (SeqUp n) h p T : IncreaseTCPSeq h p n = _). eauto.
  - rewrite (seqop_run (SeqDown n) h p T : DecreaseTCPSeq h p n = _). eauto.
  - rewrite (seqop_run (AckUp n) h p T : IncreaseTCPAck h p n = _). eauto.
  - rewrite (seqop_run (AckDown n) h p T : DecreaseTCPAck h p n = _). eauto.
  - destruct (update_ipv4 h p A PM) as (p1 & h1 & E & _). eauto.
  - destruct (verify_ipv4 h p A PM) as (b & E & _). rewrite E. cbn [rbind]. eauto.
  - destruct PM. destruct (update_tcp h p T) as (p1 & h1 & E & _); auto. eauto.
  - destruct PM. destruct (verify_tcp h p T) as (b & E & _); auto. rewrite E. cbn [rbind]. eauto.
  - destruct PM as (O1 & O2 & O3 & O4). destruct (detach_spec h p _ T O1 O2 O3 O4) as (cs & p1 & h1 & _ & _ & E & _). eauto.
  - destruct PM as (O1 & O2 & O3). destruct (attach_spec grow h p _ _ T O1 O2 O3) as (cs & p1 & h1 & _ & _ & E & _).
    rewrite E. cbn [rbind fst]. eauto.
  - destruct PM as (O1 & O2). destruct (fin_ack h p T O1 O2) as (p1 & h1 & E & _). eauto.
  - eauto.
  - eauto.
  - eauto.
Qed.

Lemma total_of_snoc f cs c : total_of f (cs ++ [c]) = total_of f cs + f c.
Proof. unfold total_of. induction cs as [|x cs IH]; cbn [app map fold_right] in *; lia. Qed.

Lemma history grow h0 p0 : tcp_agrees h0 p0 -> forall cs h p, reached grow h0 p0 cs h p ->
  tcp_agrees h p /\ same_flow p p0 /\ version p = version p0 /\
  tcpSeq p = (tcpSeq p0 + total_of seq_change cs) mod 4294967296 /\
  tcpAck p = (tcpAck p0 + total_of ack_change cs) mod 4294967296 /\
  tcpDataOffset p = tcpDataOffset p0 + total_of offset_change cs /\
  GetTCPFlags p = fold_left flags_after cs (GetTCPFlags p0) /\
  IPTotalLen p = (IPTotalLen p0 + Z.of_nat (s_len (Buffer p)) - Z.of_nat (s_len (Buffer p0)) + total_of attached_len cs) mod 65536 /\
  (version p0 = V4 -> ip4_valid (rd h0 (Buffer p0)) -> ip4_valid (rd h (Buffer p))) /\
  (forall c, permitted h p c -> exists p' h', make_call grow c h p = Ok (p', h')).
Proof.
  intros T0 cs h p R. induction R as [|cs h p c h' p' R IH PM M].
  - destruct (tcp_agrees_facts _ _ T0) as (R1 & R2 & _). pose proof (total_range _ _ T0).
    split; [exact T0|]. split; [unfold same_flow; auto|]. split; [reflexivity|].
    split; [apply mod_id_0, R1|]. split; [apply mod_id_0, R2|]. split; [cbn; lia|]. split; [reflexivity|].
    split; [change (total_of attached_len []) with 0; rewrite Z.mod_small; lia|]. split; [auto|].
    intros c. apply call_succeeds, T0.
  - destruct IH as (T & F & V & S & K & O & FL & TL & IV & _).
    destruct (call_step grow c h p h' p' T PM M) as [T' F' V' S' K' O' FL' TL' IV'].
    rewrite !total_of_snoc. split; [exact T'|].
    split; [unfold same_flow in *; destruct F as (? & ? & ? & ?), F' as (? & ? & ? & ?); repeat split; congruence|].
    split; [congruence|]. split; [rewrite S', S; lia|]. split; [rewrite K', K; lia|]. split; [lia|].
    split; [rewrite fold_left_app; cbn [fold_left]; congruence|].
    split; [rewrite TL', TL; lia|]. split; [intros; apply IV'; [congruence|auto]|].
    intros c'. apply call_succeeds, T'.
Qed.

(** ** Orderly histories: the total length is the number of bytes sent *)
Definition in_phase (ph : phase) (h : heap) (p : packet) : Prop :=
  match ph with
  | Whole => IPTotalLen p = Z.of_nat (s_len (Buffer p)) mod 65536 /\ s_len (tcpOptions p) = 0%nat /\ s_len (tcpData p) = 0%nat
  | Loose o => IPTotalLen p = Z.of_nat (s_len (Buffer p)) mod 65536 /\ (o = false -> s_len (tcpOptions p) = 0%nat)
  | Extended => IPTotalLen p = (Z.of_nat (s_len (Buffer p)) + Z.of_nat (s_len (tcpOptions p)) + Z.of_nat (s_len (tcpData p))) mod 65536 /\
      valid h (tcpOptions p) /\ valid h (tcpData p)
  end.

Lemma only_bytes_valid h h' s P x : only_bytes h h' s P -> valid h x -> valid h' x.
Proof. intros (L & A & _) (V1 & V2). unfold valid. rewrite L, A. auto. Qed.

Definition header_call (c : tcp_call) : bool :=
  match c with IncSeq _ | DecSeq _ | IncAck _ | DecAck _ | UpdIP | VerIP | UpdTCP | VerTCP => true | _ => false end.
Lemma header_pieces grow c h p h' p' : header_call c = true -> tcp_agrees h p -> permitted h p c ->
  make_call grow c h p = Ok (p', h') ->
  tcpOptions p' = tcpOptions p /\ tcpData p' = tcpData p /\ Buffer p' = Buffer p /\ (forall x, valid h x -> valid h' x).
Proof.
  intros H T PM M. pose proof T as (A & P & L & S). facts A. rewrite LB in L.
  assert (SQ : forall o, run_seqop o h p = Ok (p', h') ->
    tcpOptions p' = tcpOptions p /\ tcpData p' = tcpData p /\ Buffer p' = Buffer p /\ (forall x, valid h x -> valid h' x)).
  { intros o E. rewrite (seqop_run o h p T) in E. injection E as <- <-. unfold seqop_packet.
    assert (F : (4 <= seqop_field o <= 8)%nat) by (unfold seqop_field; destruct (is_seq o); lia).
    destruct (is_seq o); (do 3 (split; [reflexivity|])); intros x; apply set_rd_valid; solve [exact VS|slen]. }
  destruct c; try discriminate H; cbn [make_call permitted] in M, PM.
  - now apply (SQ (SeqUp n)).
  - now apply (SQ (SeqDown n)).
  - now apply (SQ (AckUp n)).
  - now apply (SQ (AckDown n)).
  - destruct (update_ipv4 h p A PM) as (p1 & h1 & E & _ & B1 & _ & _ & _ & _ & OB). rewrite M in E. injection E as <- <-.
    assert (PE : p' = with_total_csum p (ipTotalLength p) (ipChecksum p')).
    { unfold UpdateIPv4Checksum in M. destruct (computeIPv4Checksum h p) as [x| |]; cbn [rbind] in M; try discriminate.
      destruct (put16_at _ _ _ _) in M; cbn [rbind] in M; try discriminate. injection M as <- _. reflexivity. }
    split; [rewrite PE; reflexivity|]. split; [rewrite PE; reflexivity|]. split; [exact B1|].
    intros x. apply (only_bytes_valid _ _ _ _ _ OB).
  - destruct (verify_ipv4 h p A PM) as (b & E & _). rewrite E in M. cbn [rbind snd] in M. injection M as <- <-. auto.
  - destruct PM as (AO & EV). destruct (update_tcp h p T AO EV) as (p1 & h1 & E & T' & B1 & _ & _ & _ & _ & OB & _).
    rewrite M in E. injection E as <- <-.
    assert (PE : p' = with_tcpcsum p (tcpChecksum p')).
    { unfold UpdateTCPChecksum in M. destruct (resl_from _ _) in M; cbn [rbind] in M; try discriminate.
      destruct (computeTCPChecksum h p) as [x| |]; cbn [rbind] in M; try discriminate.
      destruct (put16_at _ _ _ _) in M; cbn [rbind] in M; try discriminate. injection M as <- _. reflexivity. }
    split; [rewrite PE; reflexivity|]. split; [rewrite PE; reflexivity|]. split; [exact B1|].
    intros x. apply (only_bytes_valid _ _ _ _ _ OB).
  - destruct PM as (AO & EV). destruct (verify_tcp h p T AO EV) as (b & E & _). rewrite E in M.
    cbn [rbind snd] in M. injection M as <- <-. auto.
Qed.

Lemma phase_step grow c h p h' p' ph ph' : tcp_agrees h p -> permitted h p c -> make_call grow c h p = Ok (p', h') ->
  in_phase ph h p -> next_phase ph c = Some ph' -> in_phase ph' h' p'.
Proof.
  intros T PM M J N. pose proof (call_step grow c h p h' p' T PM M) as ST.
  destruct (header_call c) eqn:HC.
  { destruct (header_pieces grow c h p h' p' HC T PM M) as (E1 & E2 & E3 & VK).
    assert (ph' = ph) by (destruct c; try discriminate HC; cbn in N; congruence). subst ph'.
    assert (TE : IPTotalLen p' = IPTotalLen p).
    { rewrite (so_total _ _ _ _ _ ST), E3. pose proof (total_range h p T).
      replace (attached_len c) with 0 by (destruct c; try discriminate HC; reflexivity). rewrite Z.mod_small; lia. }
    unfold in_phase in *. destruct ph; rewrite TE, ?E1, ?E2, ?E3; intuition auto. }
  pose proof (so_total _ _ _ _ _ ST) as TL. pose proof (total_range h p T).
  destruct c; try discriminate HC.
  - (* detach *)
    destruct PM as (O1 & O2 & O3 & O4). cbn [next_phase make_call attached_len] in *.
    destruct ph; try discriminate N. injection N as <-. destruct J as (J1 & J2 & J3).
    split; [rewrite TL; lia|]. intros OB.
    destruct (detach_spec h p _ T O1 O2 O3 O4) as (cs & p1 & h1 & _ & _ & E & PE & _).
    rewrite M in E. injection E as <- <-. rewrite PE. cbn [detached_packet tcpOptions with_total_csum with_offset with_buffer with_optdata].
    unfold detached_packet, detached_opts. destruct (Z.eqb_spec optionLength 0); [exact J2|discriminate OB].
  - (* attach *)
    destruct PM as (O1 & O2 & O3). cbn [next_phase make_call attached_len] in *.
    destruct (attach_spec grow h p options data T O1 O2 O3) as (cs & p1 & h1 & _ & _ & E & PE & _ & _ & _ & _ & V1 & V2 & _).
    rewrite E in M. cbn [rbind fst] in M. injection M as <- <-.
    assert (ZO : s_len (tcpOptions p) = 0%nat /\ IPTotalLen p = Z.of_nat (s_len (Buffer p)) mod 65536).
    { destruct ph as [|[]|]; try discriminate N; cbn in J; intuition auto. }
    assert (ph' = Extended) by (destruct ph as [|[]|]; congruence). subst ph'. destruct ZO as (Z1 & Z2).
    pose proof O1 as (VO & Vo & Vd & _).
    destruct (gappend_rd grow h (tcpOptions p) (rd h options) VO) as (_ & _ & LN & _). cbv zeta in LN.
    rewrite (valid_len h options Vo) in LN.
    assert (LO : s_len (tcpOptions p1) = s_len options) by (rewrite PE; rewrite Z1 in LN; exact LN).
    assert (DO : tcpData p1 = data) by (rewrite PE; reflexivity).
    split; [|rewrite DO; split; [exact V1|exact V2]].
    rewrite LO, DO, TL. assert (s_len (Buffer p1) = s_len (Buffer p)) by (rewrite PE; reflexivity). lia.
  - (* fin *)
    destruct PM as (O1 & O2). cbn [next_phase make_call attached_len] in *.
    assert (ph' = Whole /\ IPTotalLen p = Z.of_nat (s_len (Buffer p)) mod 65536) as (-> & Z2).
    { destruct ph as [|[]|]; try discriminate N; injection N as <-; cbn in J; intuition auto. }
    split; [rewrite TL; lia|].
    unfold ConvertAcktoFinAck in M. destruct (updateTCPFlags _ _ _) in M; cbn [rbind] in M; try discriminate.
    destruct (TCPDataDetach _ _ _) as [[q hq]| |] in M; cbn [rbind] in M; try discriminate.
    injection M as <- _. split; reflexivity.
  - (* drop data *)
    cbn [next_phase make_call attached_len] in *. injection M as <- <-.
    destruct ph as [|[]|]; try discriminate N; injection N as <-; cbn in J |- *; intuition auto.
  - cbn [next_phase make_call attached_len] in *. injection M as <- <-.
    destruct ph as [|[]|]; try discriminate N; injection N as <-; cbn in J |- *; intuition auto.
  - discriminate N.
Qed.

Lemma phase_after_snoc cs : forall ph c, phase_after ph (cs ++ [c]) =
  match phase_after ph cs with Some ph' => next_phase ph' c | None => None end.
Proof.
  induction cs as [|x cs IH]; intros ph c; cbn [app phase_after].
  - destruct (next_phase ph c); reflexivity.
  - destruct (next_phase ph x); [apply IH|reflexivity].
Qed.

Lemma orderly_phase grow h0 p0 : tcp_agrees h0 p0 -> in_phase Whole h0 p0 -> forall cs h p ph, reached grow h0 p0 cs h p ->
  phase_after Whole cs = Some ph -> in_phase ph h p.
Proof.
  intros T0 J0 cs h p ph R. revert ph. induction R as [|cs h p c h' p' R IH PM M]; intros ph PH.
  - injection PH as <-. exact J0.
  - rewrite phase_after_snoc in PH. destruct (phase_after Whole cs) as [ph1|] eqn:E1; [|discriminate].
    apply (phase_step grow c h p h' p' ph1); auto. apply (history grow h0 p0 T0 cs h p R).
Qed.

Lemma orderly_total grow h0 p0 : tcp_agrees h0 p0 -> IPTotalLen p0 = Z.of_nat (s_len (Buffer p0)) ->
  s_len (tcpOptions p0) = 0%nat -> s_len (tcpData p0) = 0%nat ->
  forall cs h p, reached grow h0 p0 cs h p ->
  phase_after Whole cs = Some Whole \/ phase_after Whole cs = Some Extended ->
  IPTotalLen p = zlen (GetTCPBytes h p) mod 65536.
Proof.
  intros T0 TL0 O0 D0 cs h p R PH. pose proof (total_range _ _ T0).
  assert (J0 : in_phase Whole h0 p0) by (split; [rewrite Z.mod_small; lia|auto]).
  destruct (history grow h0 p0 T0 cs h p R) as (T & _). pose proof T as (A & _). pose proof (valid_len h (Buffer p) (proj1 A)) as LB.
  assert (RN : forall s, s_len s = 0%nat -> rd h s = []) by (intros s Z0; unfold rd; rewrite Z0; reflexivity).
  unfold zlen, GetTCPBytes. rewrite !app_length. destruct PH as [PH|PH]; pose proof (orderly_phase grow h0 p0 T0 J0 cs h p _ R PH) as J.
  - destruct J as (J1 & J2 & J3). rewrite (RN _ J2), (RN _ J3). cbn [length]. rewrite J1, LB. f_equal. lia.
  - destruct J as (J1 & J2 & J3). rewrite (valid_len _ _ J2), (valid_len _ _ J3), LB, J1. f_equal. lia.
Qed.
