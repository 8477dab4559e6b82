(** What TCPDataAttach makes a packet emit. *)
From Verif Require Export Proof.FlowHash.

Lemma attach_emits : forall grow h p o d, tcp_agrees h p -> attachable h p o d ->
  (s_len o = 0%nat \/ s_len (Buffer p) = payload_at p) ->
  tcpDataOffset p + zlen (rd h o) / 4 < 16 ->
  exists p' h', TCPDataAttach grow h p o d = Ok (p', h', None) /\ tcp_agrees h' p' /\
    Buffer p' = Buffer p /\
    GetTCPBytes h' p' = rd h' (Buffer p) ++ rd h (tcpOptions p) ++ rd h o ++ rd h d /\
    GetTCPOptions h' p' = rd h (tcpOptions p) ++ rd h o /\ GetTCPData h' p' = rd h d /\
    (forall k, (k < s_len (Buffer p))%nat -> ~ ip_len_bytes (version p) k -> k <> (hl p + 12)%nat ->
       nth k (rd h' (Buffer p)) 0 = nth k (rd h (Buffer p)) 0) /\
    tcp_offset (GetTCPBytes h' p') (hl p) = tcp_offset (rd h (Buffer p)) (hl p) + zlen (rd h o) / 4 /\
    IPTotalLen p' = (IPTotalLen p + zlen (rd h o ++ rd h d)) mod 65536 /\
    (version p = V4 -> ip4_valid (rd h (Buffer p)) -> ip4_valid (GetTCPBytes h' p')).
Proof.
  intros grow h p o d A AT PL OF. pose proof AT as (VO & Vo & Vd & _ & _ & _ & _).
  assert (Lo : zlen (rd h o) = Z.of_nat (s_len o)) by (unfold zlen; now rewrite (valid_len h o Vo)).
  assert (Ld : zlen (rd h d) = Z.of_nat (s_len d)) by (unfold zlen; now rewrite (valid_len h d Vd)).
  rewrite Lo in *.
  destruct (attach_spec grow h p o d A AT PL OF) as (cs & p' & h' & E & RC & RUN & EP & T & RB & RO & RD & V1 & V2 & AP & VV & IV & IR).
  exists p', h'. pose proof T as (A' & _ & L' & S').
  assert (BP : Buffer p' = Buffer p) by (rewrite EP; reflexivity).
  assert (HP : hl p' = hl p) by (rewrite EP; reflexivity).
  assert (GE : GetTCPBytes h' p' = rd h' (Buffer p) ++ rd h (tcpOptions p) ++ rd h o ++ rd h d).
  { unfold GetTCPBytes. rewrite BP, RO. replace (rd h' (tcpData p')) with (rd h d) by (rewrite <- RD, EP; reflexivity).
    rewrite <- ?app_assoc. reflexivity. }
  pose proof A as ((VB & IB & BS & _) & _ & LB & _).
  assert (LB' : length (rd h' (Buffer p)) = s_len (Buffer p)) by (apply valid_len, VV, VB).
  assert (LB0 : length (rd h (Buffer p)) = s_len (Buffer p)) by (apply valid_len, VB).
  assert (HL : (20 <= hl p)%nat) by (unfold hl; destruct (version p); lia).
  split; [exact RUN|]. split; [exact T|]. split; [exact BP|]. split; [exact GE|].
  split; [exact RO|]. split; [unfold GetTCPData; rewrite <- RD, EP; reflexivity|]. split.
  { intros k Hk N1 N2. rewrite RB. unfold attach_bytes. rewrite nth_splice by (cbn [length]; rewrite fixip_length; lia).
    destruct (_ && _) eqn:Q.
    - exfalso. cbn [length] in Q. apply andb_true_iff in Q as [Q1 Q2]. apply Nat.leb_le in Q1. apply Nat.ltb_lt in Q2. lia.
    - apply fixip_nth; [lia|exact N1]. }
  split.
  { destruct S' as (_ & _ & _ & _ & SO & _). rewrite HP, BP in SO.
    assert (X : tcp_offset (GetTCPBytes h' p') (hl p) = tcp_offset (rd h' (Buffer p)) (hl p)).
    { rewrite GE. unfold tcp_offset, byte_at. rewrite app_nth1 by lia. reflexivity. }
    rewrite X, <- SO, EP. destruct A as (_ & _ & _ & (_ & _ & _ & _ & SO0 & _)). rewrite <- SO0. reflexivity. }
  split.
  { rewrite zlen_app, Lo, Ld, EP. unfold attach_packet. cbn. rewrite Z.add_assoc. reflexivity. }
  intros V IV0. rewrite GE. apply ip4_valid_app; [lia|]. auto.
Qed.

(** options are refused while payload is still in the packet *)
Lemma attach_refused : forall grow h p o d, tcp_agrees h p -> 0 <= tcpDataOffset p -> (0 < s_len o)%nat ->
  s_len (Buffer p) <> payload_at p ->
  TCPDataAttach grow h p o d = Ok (p, h, Some errInsertOptions).
Proof.
  intros grow h p o d A OF LO NE. pose proof A as (A0 & _ & L & S). pose proof A0 as (VB & IB & BS & _).
  pose proof (resl_hdr h p A0) as R.
  assert (LB0 : length (rd h (Buffer p)) = s_len (Buffer p)) by (apply valid_len, VB).
  assert (OR : 0 <= tcpDataOffset p < 16).
  { destruct S as (_ & _ & _ & _ & SO & _). rewrite SO. unfold tcp_offset.
    assert (is_byte (byte_at (rd h (Buffer p)) (hl p + 12))).
    { unfold byte_at. assert (Forall is_byte (rd h (Buffer p))) by exact IB. eapply Forall_forall; [exact H|]. apply nth_In. lia. }
    unfold is_byte in H. lia. }
  unfold TCPDataAttach, tcpDataAttach. rewrite R. cbn [rbind].
  change (s_len (win (Buffer p) (hl p) (s_len (Buffer p) - hl p) (s_cap (Buffer p) - hl p))) with (s_len (Buffer p) - hl p)%nat.
  assert (X : (TCPDataStartBytes p =? u16 (Z.of_nat (s_len (Buffer p) - hl p))) = false).
  { apply Z.eqb_neq. unfold TCPDataStartBytes, payload_at, u16 in *. intros Q. apply NE.
    assert (Q' : 4 * tcpDataOffset p = Z.of_nat (s_len (Buffer p) - hl p)). { rewrite (Z.mod_small (Z.of_nat _)) in Q by lia. rewrite <- Q. rewrite ?Z.mod_small; lia. }
    lia. }
  rewrite X. replace (s_len o =? 0)%nat with false by (symmetry; apply Nat.eqb_neq; lia). reflexivity.
Qed.

(** what a detach leaves where, for any number of option bytes *)
Lemma detach_parts : forall h p ol, tcp_agrees h p -> 0 <= ol -> ol mod 4 = 0 -> 20 + ol <= 4 * tcpDataOffset p ->
  (payload_at p <= s_len (Buffer p))%nat ->
  let b := rd h (Buffer p) in let n := Z.to_nat ol in
  exists p' h', TCPDataDetach h p ol = Ok (p', h') /\ tcp_agrees h' p' /\
    length (rd h' (Buffer p')) = (payload_at p - n)%nat /\
    (forall k, (k < payload_at p - n)%nat -> ~ ip_len_bytes (version p) k -> k <> (hl p + 12)%nat ->
       nth k (rd h' (Buffer p')) 0 = nth k b 0) /\
    (ol <> 0 -> GetTCPOptions h' p' = field b (payload_at p - n) n) /\
    (payload_len p <> 0 -> GetTCPData h' p' = skipn (payload_at p) b) /\
    tcp_offset (rd h' (Buffer p')) (hl p) = tcp_offset b (hl p) - ol / 4 /\
    IPTotalLen p' = (IPTotalLen p - (payload_len p + ol)) mod 65536 /\
    (version p = V4 -> ip4_valid b -> ip4_valid (rd h' (Buffer p'))) /\
    only_bytes h h' (Buffer p) (fun k => ip_len_bytes (version p) k \/ k = hl p + 12)%nat.
Proof.
  intros h p ol T OL OM OF PA b n. pose proof T as (A & P & L & S). facts A. rewrite LB in L. fold b in LB.
  pose proof A as (VB & IB & AL & _).
  assert (PO : Z.of_nat (payload_at p) = Z.of_nat (hl p) + 4 * tcpDataOffset p) by (unfold payload_at; lia).
  destruct (detach_spec h p ol T OL OM OF PA) as (cs & p' & h' & I1 & RC & RUN & EP & EH & T' & X1 & X2 & X3).
  set (tl := (IPTotalLen p - (payload_len p + ol)) mod 65536) in *. fold b in EH.
  set (B1 := detached_bytes p b ol tl cs) in *.
  set (c := splice b (hl p + 12) [(tcpDataOffset p - ol / 4) * 16]).
  assert (EB1 : B1 = fixip (version p) c tl cs) by reflexivity.
  assert (LC : length c = s_len (Buffer p)) by (unfold c; rewrite splice_length; cbn [length]; lia).
  assert (LB1 : length B1 = s_len (Buffer p)) by (rewrite EB1, fixip_length; lia).
  assert (CU : cut_at p ol = (payload_at p - n)%nat) by reflexivity.
  assert (Hn : (hl p + 20 <= payload_at p - n)%nat) by (unfold n; lia).
  assert (BP : Buffer p' = win (Buffer p) 0 (payload_at p - n) (s_cap (Buffer p))) by (rewrite EP; unfold detached_packet; cbn; now rewrite CU).
  assert (HP : hl p' = hl p) by (rewrite EP; reflexivity).
  assert (RB : rd h' (Buffer p') = firstn (payload_at p - n) B1).
  { rewrite BP, EH. rewrite rd_win by (auto; lia). reflexivity. }
  assert (SK : forall m, (hl p + 20 <= m)%nat -> skipn m B1 = skipn m b).
  { intros m Hm. rewrite EB1, fixip_skipn by lia. unfold c. apply skipn_splice_before; cbn [length]; lia. }
  exists p', h'. split; [exact RUN|]. split; [exact T'|]. split; [rewrite RB, firstn_length; lia|]. split.
  { intros k Hk N1 N2. rewrite RB, nth_firstn' by lia. rewrite EB1, fixip_nth by (auto; lia). unfold c.
    rewrite nth_splice by (cbn [length]; lia). cbn [length].
    destruct (_ && _) eqn:Q; [|reflexivity]. exfalso. apply andb_true_iff in Q as [Q1 Q2]. apply Nat.leb_le in Q1. apply Nat.ltb_lt in Q2. lia. }
  split.
  { intros N0. unfold GetTCPOptions. rewrite EH, EP. unfold detached_packet, detached_opts.
    cbn [tcpOptions with_total_csum with_offset with_buffer with_optdata with_ip with_tcp].
    destruct (Z.eqb_spec ol 0); [contradiction|]. rewrite CU. fold n. rewrite rd_win by (auto; lia).
    unfold field. now rewrite SK by lia. }
  split.
  { intros N0. unfold GetTCPData. rewrite EH, EP. unfold detached_packet, detached_data.
    cbn [tcpData with_total_csum with_offset with_buffer with_optdata with_ip with_tcp].
    destruct (Z.eqb_spec (payload_len p) 0); [contradiction|]. rewrite rd_win by (auto; lia).
    rewrite SK by lia. apply firstn_all2. rewrite skipn_length. lia. }
  split.
  { destruct T' as (_ & _ & _ & (_ & _ & _ & _ & SO & _)). rewrite HP in SO. rewrite <- SO.
    destruct S as (_ & _ & _ & _ & SO0 & _). fold b in SO0. rewrite <- SO0, EP. reflexivity. }
  split; [rewrite EP; reflexivity|]. split; [exact X1|exact X3].
Qed.
