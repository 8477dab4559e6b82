(** TCP operations. *)
From Verif Require Export Proof.PktOps.

(** agreement of the IP header survives writes behind it *)
Lemma agrees_behind h p p' B' : ip_agrees h p ->
  version p' = version p -> ipHeaderLen p' = ipHeaderLen p -> ipProto p' = ipProto p ->
  ipTotalLength p' = ipTotalLength p -> ipChecksum p' = ipChecksum p ->
  sourceAddress p' = sourceAddress p -> destinationAddress p' = destinationAddress p ->
  Buffer p' = Buffer p -> is_bytes B' -> length B' = s_len (Buffer p) ->
  firstn (hl p) B' = firstn (hl p) (rd h (Buffer p)) ->
  ip_agrees (set_rd h (Buffer p) B') p'.
Proof.
  intros A V' H' P' T' C' S' D' U' IB' L' F. pose proof (agrees_vslice h p A) as VS. pose proof (vslice_len h _ VS) as LB.
  destruct (agrees_ranges h p A) as (R1 & R2). destruct (agrees_hl h p A) as (H1 & H2 & H3).
  apply (agrees_fixed h p p' (s_len (Buffer p)) (ipTotalLength p) (ipChecksum p)); auto.
  - rewrite U'. symmetry. apply win_all.
  - rewrite F. f_equal. destruct A as (AV & IB & AL & M). unfold fixip, fix4, fix6. unfold hl in *. destruct (version p).
    + destruct M as (M1 & M2 & M3 & M4 & M5 & M6 & M7 & M8). unfold IPTotalLen in M5. rewrite M5, M6.
      unfold ip4_total, ip4_checksum. rewrite (put16_be16f _ 2) by (auto; lia). rewrite splice_field by lia.
      rewrite put16_be16f by (auto; lia). symmetry. apply splice_field. lia.
    + destruct M as (M1 & M2 & M3 & M4 & M5 & M6 & M7). unfold IPTotalLen in M4. rewrite M4.
      pose proof (be16f_range (rd h (Buffer p)) 4 IB ltac:(lia)) as R. fold (ip6_payload (rd h (Buffer p))) in R.
      replace (u16 ((40 + ip6_payload (rd h (Buffer p))) mod 65536 - 40)) with (ip6_payload (rd h (Buffer p))) by (unfold u16; lia).
      unfold ip6_payload. rewrite put16_be16f by (auto; lia). symmetry. apply splice_field. lia.
Qed.

Ltac facts A :=
  let VS := fresh "VS" in let LB := fresh "LB" in let H1 := fresh "HL1" in let H2 := fresh "HL2" in let H3 := fresh "HL3" in
  let R1 := fresh "RTL" in let R2 := fresh "RCS" in let V1 := fresh "VS1" in let V2 := fresh "VS2" in let V3 := fresh "VS3" in
  pose proof (agrees_vslice _ _ A) as VS; pose proof (vslice_len _ _ VS) as LB;
  pose proof VS as (V1 & V2 & V3);
  destruct (agrees_hl _ _ A) as (H1 & H2 & H3); destruct (agrees_ranges _ _ A) as (R1 & R2).

(** bodies of the four sequence-number operations *)
Lemma put32_hdr h p o v : vslice h (Buffer p) -> ipHeaderLen p = Z.of_nat (hl p) -> (hl p + o + 4 <= s_len (Buffer p))%nat ->
  rbind (resl_from (Buffer p) (ipHeaderLen p)) (fun b => put32_at h b (Z.of_nat o) v) =
  Ok (set_rd h (Buffer p) (splice (rd h (Buffer p)) (hl p + o) (put32 BE v))).
Proof.
  intros VS H L. pose proof VS as (V1 & V2 & V3). pose proof (vslice_len _ _ VS) as LB. rewrite H.
  rewrite <- (win_all (Buffer p)) at 1. rewrite resl_from_win by lia. cbn [rbind Nat.add].
  rewrite <- (set_rd_same h (Buffer p) VS) at 1. rewrite put32_win by (auto; lia). rewrite !Nat2Z.id. reflexivity.
Qed.

Inductive seqop := SeqUp (n : Z) | SeqDown (n : Z) | AckUp (n : Z) | AckDown (n : Z).
Definition run_seqop (o : seqop) (h : heap) (p : packet) : res (packet * heap) :=
  match o with
  | SeqUp n => IncreaseTCPSeq h p n
  | SeqDown n => DecreaseTCPSeq h p n
  | AckUp n => IncreaseTCPAck h p n
  | AckDown n => DecreaseTCPAck h p n
  end.
Definition seq_delta (o : seqop) : Z := match o with SeqUp n => n | SeqDown n => - n | _ => 0 end.
Definition ack_delta (o : seqop) : Z := match o with AckUp n => n | AckDown n => - n | _ => 0 end.

Definition is_seq (o : seqop) : bool := match o with SeqUp _ | SeqDown _ => true | _ => false end.
Definition seqop_field (o : seqop) : nat := if is_seq o then 4%nat else 8%nat.
Definition seqop_value (o : seqop) (p : packet) : Z :=
  (if is_seq o then tcpSeq p + seq_delta o else tcpAck p + ack_delta o) mod 4294967296.
Definition seqop_packet (o : seqop) (p : packet) : packet :=
  if is_seq o then with_seq p (seqop_value o p) else with_ack p (seqop_value o p).
Lemma seqop_run o h p : tcp_agrees h p ->
  run_seqop o h p = Ok (seqop_packet o p,
    set_rd h (Buffer p) (splice (rd h (Buffer p)) (hl p + seqop_field o) (put32 BE (seqop_value o p)))).
Proof.
  intros (A & P & L & S). facts A. rewrite LB in L.
  pose proof (put32_hdr h p (seqop_field o) (seqop_value o p) VS HL1 ltac:(destruct o; cbn; lia)) as X.
  destruct o; cbn [run_seqop seqop_field is_seq seqop_packet] in *;
    unfold IncreaseTCPSeq, DecreaseTCPSeq, IncreaseTCPAck, DecreaseTCPAck, seqop_packet, is_seq, u32 in *;
    unfold seqop_value in X; unfold seqop_value; cbn [seq_delta ack_delta is_seq] in *.
  all: destruct (resl_from (Buffer p) (ipHeaderLen p)) as [b| |]; cbn [rbind] in X |- *; try discriminate;
    cbn [with_seq with_ack with_tcp tcpSeq tcpAck]; unfold tcpSeqPos, tcpAckPos;
    change (Z.of_nat 4) with 4 in X; change (Z.of_nat 8) with 8 in X; rewrite <- ?Z.add_opp_r; rewrite X; reflexivity.
Qed.
Lemma seqop_value_range o p : 0 <= seqop_value o p < 4294967296.
Proof. unfold seqop_value. lia. Qed.
Lemma tcp_agrees_facts h p : tcp_agrees h p -> 0 <= tcpSeq p < 4294967296 /\ 0 <= tcpAck p < 4294967296 /\
  0 <= tcpDataOffset p < 16 /\ 0 <= tcpFlags p < 256 /\ 0 <= tcpChecksum p < 65536.
Proof.
  intros (A & P & L & S). destruct A as (_ & IB & _ & _). destruct S as (_ & _ & S1 & S2 & S3 & S4 & S5).
  unfold GetTCPFlags in S4. rewrite S1, S2, S3, S4, S5.
  unfold tcp_seq, tcp_ack, tcp_offset, tcp_flags, tcp_checksum, byte_at.
  pose proof (nth_byte (rd h (Buffer p)) (hl p + 12) IB). pose proof (nth_byte (rd h (Buffer p)) (hl p + 13) IB).
  split; [apply be32f_range; auto; lia|]. split; [apply be32f_range; auto; lia|].
  split; [lia|]. split; [lia|]. apply be16f_range; auto; lia.
Qed.
Lemma firstn_splice_behind n B o v : (n <= o)%nat -> (o + length v <= length B)%nat -> firstn n (splice B o v) = firstn n B.
Proof.
  intros H L. apply nth_ext_len with 0.
  - rewrite !firstn_length, splice_length; lia.
  - intros j J. rewrite firstn_length, splice_length in J by lia. rewrite !nth_firstn' by lia.
    apply nth_splice_disj; lia.
Qed.
Lemma seqop_agrees o h p : tcp_agrees h p ->
  tcp_agrees (set_rd h (Buffer p) (splice (rd h (Buffer p)) (hl p + seqop_field o) (put32 BE (seqop_value o p)))) (seqop_packet o p).
Proof.
  intros T. pose proof T as (A & P & L & S). facts A. set (b := rd h (Buffer p)) in *.
  assert (FO : (4 <= seqop_field o /\ seqop_field o <= 8)%nat) by (unfold seqop_field; destruct (is_seq o); lia).
  set (B' := splice b (hl p + seqop_field o) (put32 BE (seqop_value o p))).
  assert (L' : length B' = s_len (Buffer p)) by (unfold B'; slen).
  assert (FB : firstn (hl p) B' = firstn (hl p) b) by (unfold B'; apply firstn_splice_behind; rewrite ?put32_length; lia).
  assert (A' : ip_agrees (set_rd h (Buffer p) B') (seqop_packet o p)).
  { unfold seqop_packet. destruct (is_seq o); apply agrees_behind; auto.
    all: unfold B', b; apply is_bytes_splice; [apply A|apply is_bytes_put32]. }
  assert (E1 : Buffer (seqop_packet o p) = Buffer p) by (unfold seqop_packet; destruct (is_seq o); reflexivity).
  assert (E2 : hl (seqop_packet o p) = hl p) by (unfold seqop_packet; destruct (is_seq o); reflexivity).
  unfold tcp_agrees. rewrite E1, E2. rewrite rd_set by auto. split; [exact A'|].
  split; [unfold seqop_packet; destruct (is_seq o); exact P|]. split; [lia|].
  destruct S as (S1 & S2 & S3 & S4 & S5 & S6 & S7).
  pose proof (seqop_value_range o p) as RV. pose proof RV as RV'.
  destruct (is_seq o) eqn:IS.
  - assert (FE : seqop_field o = 4%nat) by (unfold seqop_field; now rewrite IS).
    assert (PE : seqop_packet o p = with_seq p (seqop_value o p)) by (unfold seqop_packet; now rewrite IS).
    rewrite PE. unfold B'. rewrite FE.
    unfold shows_tcp, l4_sport, l4_dport, tcp_seq, tcp_ack, tcp_offset, tcp_flags, tcp_checksum, byte_at in *.
    clear L' FB A' B'. fields. change (tcpSeq (with_seq p (seqop_value o p))) with (seqop_value o p).
    rewrite Z.mod_small by lia. repeat split; auto.
  - assert (FE : seqop_field o = 8%nat) by (unfold seqop_field; now rewrite IS).
    assert (PE : seqop_packet o p = with_ack p (seqop_value o p)) by (unfold seqop_packet; now rewrite IS).
    rewrite PE. unfold B'. rewrite FE.
    unfold shows_tcp, l4_sport, l4_dport, tcp_seq, tcp_ack, tcp_offset, tcp_flags, tcp_checksum, byte_at in *.
    clear L' FB A' B'. fields. change (tcpAck (with_ack p (seqop_value o p))) with (seqop_value o p).
    rewrite Z.mod_small by lia. repeat split; auto.
Qed.

Fixpoint run_seqops (l : list seqop) (h : heap) (p : packet) : res (packet * heap) :=
  match l with
  | [] => Ok (p, h)
  | o :: r => let* x := run_seqop o h p in run_seqops r (snd x) (fst x)
  end.
(** everything but the two numbers *)
Definition same_but_seq (p p' : packet) : Prop := with_ack (with_seq p' (tcpSeq p)) (tcpAck p) = p.

Lemma seqops_history : forall l h p, tcp_agrees h p ->
  exists p' h', run_seqops l h p = Ok (p', h') /\ tcp_agrees h' p' /\
    tcpSeq p' = (tcpSeq p + fold_right Z.add 0 (map seq_delta l)) mod 4294967296 /\
    tcpAck p' = (tcpAck p + fold_right Z.add 0 (map ack_delta l)) mod 4294967296 /\
    same_but_seq p p' /\
    only_bytes h h' (Buffer p) (fun k => (hl p + 4 <= k < hl p + 12)%nat).
Proof.
  induction l as [|o l IH]; intros h p T.
  - destruct (tcp_agrees_facts h p T) as (R1 & R2 & _). exists p, h. cbn. rewrite !Z.add_0_r.
    split; [reflexivity|]. split; [exact T|]. rewrite !Z.mod_small by lia. split; [reflexivity|]. split; [reflexivity|].
    split; [unfold same_but_seq; destruct p; reflexivity|]. apply only_refl.
  - cbn [run_seqops]. rewrite seqop_run by exact T. cbn [rbind fst snd].
    destruct (IH _ _ (seqop_agrees o h p T)) as (p' & h' & E & T' & S1 & S2 & S3 & S4).
    exists p', h'. split; [exact E|]. split; [exact T'|].
    pose proof T as (A & P & L & S). facts A. pose proof (seqop_value_range o p) as RV.
    assert (V1 : seqop_value o p = (tcpSeq p + seq_delta o) mod 4294967296 /\ is_seq o = true /\ ack_delta o = 0 \/
                 seqop_value o p = (tcpAck p + ack_delta o) mod 4294967296 /\ is_seq o = false /\ seq_delta o = 0).
    { unfold seqop_value. destruct o; cbn; auto. }
    destruct (tcp_agrees_facts h p T) as (R1 & R2 & _).
    assert (E1 : Buffer (seqop_packet o p) = Buffer p) by (unfold seqop_packet; destruct (is_seq o); reflexivity).
    assert (E2 : hl (seqop_packet o p) = hl p) by (unfold seqop_packet; destruct (is_seq o); reflexivity).
    cbn [map fold_right].
    split; [|split; [|split]].
    + rewrite S1. unfold seqop_packet. destruct V1 as [(E0 & IS & D)|(E0 & IS & D)]; rewrite IS; cbn [with_seq with_ack with_tcp tcpSeq].
      * rewrite E0, Zplus_mod_idemp_l, Z.add_assoc. reflexivity.
      * rewrite D, Z.add_0_l. reflexivity.
    + rewrite S2. unfold seqop_packet. destruct V1 as [(E0 & IS & D)|(E0 & IS & D)]; rewrite IS; cbn [with_seq with_ack with_tcp tcpAck].
      * rewrite D, Z.add_0_l. reflexivity.
      * rewrite E0, Zplus_mod_idemp_l, Z.add_assoc. reflexivity.
    + unfold same_but_seq in *. unfold seqop_packet in S3. destruct (is_seq o); destruct p, p'; cbn in *; injection S3; intros; subst; reflexivity.
    + rewrite E1, E2 in S4. set (B' := splice _ _ _) in *.
      assert (L' : length B' = s_len (Buffer p)) by (unfold B', seqop_field; destruct (is_seq o); slen).
      pose proof (only_splices h (Buffer p) (rd h (Buffer p)) B' (fun k => (hl p + 4 <= k < hl p + 12)%nat) VS LB L') as O.
      destruct S4 as (O1 & O2 & O3). destruct O as (Q1 & Q2 & Q3).
      * intros k K NK. unfold B', seqop_field. destruct (is_seq o); rewrite nth_splice_disj by slen; reflexivity.
      * intros k. lia.
      * reflexivity.
      * split; [lia|]. split; [intros a; rewrite O2; apply Q2|].
        intros a i N. destruct (Z.eq_dec (nth i (arr (set_rd h (Buffer p) B') a) 0) (nth i (arr h a) 0)) as [Q|Q].
        -- apply O3. congruence.
        -- apply Q3, Q.
Qed.
Lemma seqop_undone : forall h p n, tcp_agrees h p -> 0 <= n ->
  (let* x := IncreaseTCPSeq h p n in DecreaseTCPSeq (snd x) (fst x) n) = Ok (p, h) /\
  (let* x := IncreaseTCPAck h p n in DecreaseTCPAck (snd x) (fst x) n) = Ok (p, h).
Proof.
  intros h p n T _. destruct (tcp_agrees_facts h p T) as (R1 & R2 & _). pose proof T as (A & P & L & S). facts A.
  assert (G : forall o o' q, is_seq o = is_seq o' -> seq_delta o' = - seq_delta o -> ack_delta o' = - ack_delta o -> q = p ->
    (let* x := run_seqop o h p in run_seqop o' (snd x) (fst x)) = Ok (p, h)).
  { intros o o' _ IS D1 D2 _. rewrite seqop_run by exact T. cbn [rbind fst snd].
    rewrite seqop_run by (apply seqop_agrees, T).
    assert (E1 : Buffer (seqop_packet o p) = Buffer p) by (unfold seqop_packet; destruct (is_seq o); reflexivity).
    assert (E2 : hl (seqop_packet o p) = hl p) by (unfold seqop_packet; destruct (is_seq o); reflexivity).
    assert (EF : seqop_field o' = seqop_field o) by (unfold seqop_field; now rewrite IS).
    assert (EP : seqop_value o' (seqop_packet o p) = if is_seq o then tcpSeq p else tcpAck p).
    { unfold seqop_value, seqop_packet. rewrite <- IS, D1, D2. destruct (is_seq o) eqn:Q; cbn [with_seq with_ack with_tcp tcpSeq tcpAck];
        unfold seqop_value; rewrite Q; rewrite Zplus_mod_idemp_l; rewrite <- Z.add_assoc, Z.add_opp_diag_r, Z.add_0_r; apply Z.mod_small; lia. }
    rewrite E1, E2, EF, EP. f_equal. f_equal.
    - unfold seqop_packet. rewrite <- IS. unfold seqop_packet in EP. destruct (is_seq o); rewrite EP; destruct p; reflexivity.
    - assert (LF : (hl p + seqop_field o + 4 <= s_len (Buffer p))%nat) by (unfold seqop_field; destruct (is_seq o); lia).
      rewrite rd_set by (auto; slen). rewrite set_rd_set by (auto; slen).
      rewrite splice_same_twice by slen.
      assert (V : put32 BE (if is_seq o then tcpSeq p else tcpAck p) = field (rd h (Buffer p)) (hl p + seqop_field o) 4).
      { destruct S as (_ & _ & S3 & S4 & _). unfold seqop_field. destruct (is_seq o); rewrite ?S3, ?S4; unfold tcp_seq, tcp_ack;
          apply put32_be32f; try apply A; lia. }
      rewrite V, splice_field by lia. apply set_rd_same, VS. }
  split.
  - apply (G (SeqUp n) (SeqDown n) p); reflexivity.
  - apply (G (AckUp n) (AckDown n) p); reflexivity.
Qed.
