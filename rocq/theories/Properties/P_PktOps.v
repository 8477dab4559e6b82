(** Properties of package packet, operations on parsed packets: C40-C42, C45. *)
From Verif Require Import Proof.PktNew Spec.PktSamples.

(** ** The states the theorems below range over *)
(** Every packet New accepts whose headers lie inside the bytes kept is in the
    state [ip_agrees]/[tcp_agrees]/[udp_agrees]: accessors = bytes. *)
Theorem C40_parsed_packets_agree : forall h ctx s v p,
  valid h s -> is_bytes (rd h s) -> (0 < s_len s)%nat -> Z.of_nat (s_len s) < 65536 ->
  New h ctx s v = Ok (Some p, None) -> (hl p <= s_len (Buffer p))%nat ->
  ip_agrees h p /\ tcpOptions p = snil /\ tcpData p = snil /\
  (IPProto p = PROTO_TCP -> (hl p + 20 <= s_len (Buffer p))%nat -> tcp_agrees h p) /\
  (IPProto p = PROTO_UDP -> (hl p + 8 <= s_len (Buffer p))%nat -> udp_agrees h p).
Proof. exact new_agrees. Qed.
Print Assumptions C40_parsed_packets_agree.

(** parsing a concrete packet gives such states *)
Definition parsed (b : bytes) : heap * packet :=
  (fst (held b 0),
   match New (fst (held b 0)) 0 (snd (held b 0)) true with
   | Ok (Some p, None) => p | _ => zero_packet 0
   end).
Lemma parsed_tcp b : forallb (fun x => (0 <=? x) && (x <? 256)) b = true -> zlen b < 65536 ->
  (exists p, New (fst (held b 0)) 0 (snd (held b 0)) true = Ok (Some p, None) /\
     (hl p + 20 <= s_len (Buffer p))%nat /\ IPProto p = PROTO_TCP) ->
  tcp_agrees (fst (parsed b)) (snd (parsed b)) /\
  attached_ok (fst (parsed b)) (snd (parsed b)) /\ even_pieces (fst (parsed b)) (snd (parsed b)).
Proof.
  intros IB L (p & E & H & P). unfold parsed. cbn [fst snd]. rewrite E. set (h := fst (held b 0)) in *. set (s := snd (held b 0)) in *.
  assert (R : rd h s = b).
  { unfold h, s, held, rd, arr. cbn. rewrite app_nil_r. apply firstn_all. }
  destruct (Nat.eq_dec (length b) 0) as [Z0|Z0].
  { exfalso. destruct b; [|discriminate]. vm_compute in E. discriminate. }
  assert (X : valid h s).
  { unfold h, s, held. split; cbn; [lia|right]. unfold arr. cbn. rewrite app_nil_r. split; lia. }
  assert (Y : is_bytes (rd h s)).
  { rewrite R. apply Forall_forall. intros x I. rewrite forallb_forall in IB. specialize (IB x I). unfold is_byte. lia. }
  assert (LL : s_len s = length b) by reflexivity. unfold zlen in L.
  destruct (new_agrees h 0 s true p X Y ltac:(lia) ltac:(lia) E ltac:(lia)) as (A & O & D & T & _).
  destruct (fresh_attached h p A O D) as [F1 F2]. auto.
Qed.
Lemma parsed_udp b : forallb (fun x => (0 <=? x) && (x <? 256)) b = true -> zlen b < 65536 ->
  (exists p, New (fst (held b 0)) 0 (snd (held b 0)) true = Ok (Some p, None) /\
     (hl p + 8 <= s_len (Buffer p))%nat /\ IPProto p = PROTO_UDP) ->
  udp_agrees (fst (parsed b)) (snd (parsed b)).
Proof.
  intros IB L (p & E & H & P). unfold parsed. cbn [fst snd]. rewrite E. set (h := fst (held b 0)) in *. set (s := snd (held b 0)) in *.
  assert (R : rd h s = b).
  { unfold h, s, held, rd, arr. cbn. rewrite app_nil_r. apply firstn_all. }
  destruct (Nat.eq_dec (length b) 0) as [Z0|Z0].
  { exfalso. destruct b; [|discriminate]. vm_compute in E. discriminate. }
  assert (X : valid h s).
  { unfold h, s, held. split; cbn; [lia|right]. unfold arr. cbn. rewrite app_nil_r. split; lia. }
  assert (Y : is_bytes (rd h s)).
  { rewrite R. apply Forall_forall. intros x I. rewrite forallb_forall in IB. specialize (IB x I). unfold is_byte. lia. }
  assert (LL : s_len s = length b) by reflexivity. unfold zlen in L.
  destruct (new_agrees h 0 s true p X Y ltac:(lia) ltac:(lia) E ltac:(lia)) as (A & O & D & _ & T). auto.
Qed.
Ltac parsed_tac :=
  first [apply parsed_tcp|apply parsed_udp];
  [vm_compute; reflexivity|vm_compute; reflexivity|
   eexists; split; [vm_compute; reflexivity|split; [vm_compute; lia|vm_compute; reflexivity]]].
Lemma tcp4_state : tcp_agrees (fst (parsed tcp4_sample)) (snd (parsed tcp4_sample)) /\
  attached_ok (fst (parsed tcp4_sample)) (snd (parsed tcp4_sample)) /\
  even_pieces (fst (parsed tcp4_sample)) (snd (parsed tcp4_sample)).
Proof. parsed_tac. Qed.
Lemma udp4_state : udp_agrees (fst (parsed udp4_sample)) (snd (parsed udp4_sample)).
Proof. parsed_tac. Qed.
Lemma udp6_state : udp_agrees (fst (parsed udp6_sample)) (snd (parsed udp6_sample)).
Proof. parsed_tac. Qed.

(** ** C40 *)
Theorem C40_incremental_update_ipv4 : forall h p old new,
  ip_agrees h p -> version p = V4 -> 0 <= old < 65536 -> 0 <= new < 65536 ->
  0 <= IPTotalLen p + new - old < 65536 ->
  exists p' h', FixupIPHdrOnDataModify h p old new = Ok (p', h') /\
    ip_agrees h' p' /\ Buffer p' = Buffer p /\ IPTotalLen p' = IPTotalLen p + new - old /\
    (ip4_valid (rd h (Buffer p)) -> ip4_valid (rd h' (Buffer p'))) /\
    (ip4_checksum (rd h (Buffer p)) = ip4_right_checksum (rd h (Buffer p)) ->
     ip4_checksum (rd h' (Buffer p')) = ip4_right_checksum (rd h' (Buffer p'))) /\
    only_bytes h h' (Buffer p) (fun k => (2 <= k < 4)%nat \/ (10 <= k < 12)%nat).
Proof. exact incremental_update_v4. Qed.
Print Assumptions C40_incremental_update_ipv4.
Theorem C40_incremental_update_ipv6 : forall h p old new,
  ip_agrees h p -> version p = V6 -> 0 <= old < 65536 -> 0 <= new < 65536 ->
  0 <= IPTotalLen p + new - old < 65536 ->
  exists p' h', FixupIPHdrOnDataModify h p old new = Ok (p', h') /\
    ip_agrees h' p' /\ Buffer p' = Buffer p /\ IPTotalLen p' = IPTotalLen p + new - old /\
    only_bytes h h' (Buffer p) (fun k => (4 <= k < 6)%nat).
Proof. exact incremental_update_v6. Qed.
Print Assumptions C40_incremental_update_ipv6.
Example C40_hypotheses_met :
  let '(h, p) := parsed tcp4_sample in
  ip_agrees h p /\ version p = V4 /\ IPTotalLen p = 48 /\ ip4_valid (rd h (Buffer p)) /\
  ip4_checksum (rd h (Buffer p)) = ip4_right_checksum (rd h (Buffer p)) /\
  let '(h, p) := parsed udp6_sample in ip_agrees h p /\ version p = V6 /\ IPTotalLen p = 52.
Proof.
  rewrite (surjective_pairing (parsed tcp4_sample)), (surjective_pairing (parsed udp6_sample)).
  split; [apply tcp4_state|]. do 4 (split; [vm_compute; reflexivity|]).
  split; [apply udp6_state|]. split; vm_compute; reflexivity.
Qed.

(** ** C41 *)
Theorem C41_verify_ipv4_checksum : forall h p, ip_agrees h p -> version p = V4 ->
  exists b, VerifyIPv4Checksum h p = Ok (b, h) /\
    (b = true <-> ip4_checksum (rd h (Buffer p)) = ip4_right_checksum (rd h (Buffer p))) /\
    (b = true <-> ip4_valid (rd h (Buffer p)) /\ ip4_checksum (rd h (Buffer p)) <> 65535).
Proof. exact verify_ipv4. Qed.
Print Assumptions C41_verify_ipv4_checksum.
Theorem C41_update_ipv4_checksum : forall h p, ip_agrees h p -> version p = V4 ->
  exists p' h', UpdateIPv4Checksum h p = Ok (p', h') /\
    ip_agrees h' p' /\ Buffer p' = Buffer p /\ IPTotalLen p' = IPTotalLen p /\
    ip4_valid (rd h' (Buffer p')) /\
    ip4_checksum (rd h' (Buffer p')) = ip4_right_checksum (rd h' (Buffer p')) /\
    VerifyIPv4Checksum h' p' = Ok (true, h') /\
    only_bytes h h' (Buffer p) (fun k => (10 <= k < 12)%nat).
Proof. exact update_ipv4. Qed.
Print Assumptions C41_update_ipv4_checksum.
(** the all-ones checksum field: the header sums to 0xffff, Verify answers false *)
Example C41_all_ones_field :
  let '(h, p) := parsed (firstn 4 tcp4_sample ++ [38;198] ++ firstn 4 (skipn 6 tcp4_sample) ++ [255;255] ++ skipn 12 tcp4_sample) in
  ip4_valid (rd h (Buffer p)) /\ VerifyIPv4Checksum h p = Ok (false, h).
Proof. vm_compute. auto. Qed.
Example C41_hypotheses_met :
  let '(h, p) := parsed udp4_sample in ip_agrees h p /\ version p = V4 /\ VerifyIPv4Checksum h p = Ok (true, h).
Proof.
  rewrite (surjective_pairing (parsed udp4_sample)). split; [apply udp4_state|]. split; vm_compute; reflexivity.
Qed.

(** ** C42 *)
Lemma new_tcp h ctx s v p : valid h s -> is_bytes (rd h s) -> (0 < s_len s)%nat -> Z.of_nat (s_len s) < 65536 ->
  New h ctx s v = Ok (Some p, None) -> IPProto p = PROTO_TCP -> (hl p + 20 <= s_len (Buffer p))%nat -> tcp_agrees h p.
Proof. intros V B L1 L2 E P H. destruct (new_agrees h ctx s v p V B L1 L2 E ltac:(lia)) as (_ & _ & _ & T & _). auto. Qed.
Theorem C42_verify_tcp_checksum_partial : forall h p, tcp_agrees h p -> attached_ok h p -> even_pieces h p ->
  exists b, VerifyTCPChecksum h p = Ok (b, h) /\
    (b = true <-> tcp_checksum (rd h (Buffer p)) (hl p) = l4_right_checksum (version p) (hl p) PROTO_TCP 16 (GetTCPBytes h p)) /\
    (b = true <-> l4_valid (version p) (hl p) PROTO_TCP (GetTCPBytes h p) /\ tcp_checksum (rd h (Buffer p)) (hl p) <> 65535).
Proof. exact verify_tcp. Qed.
Print Assumptions C42_verify_tcp_checksum_partial.
Theorem C42_update_tcp_checksum_partial : forall h p, tcp_agrees h p -> attached_ok h p -> even_pieces h p ->
  exists p' h', UpdateTCPChecksum h p = Ok (p', h') /\ tcp_agrees h' p' /\
    Buffer p' = Buffer p /\ tcpOptions p' = tcpOptions p /\ tcpData p' = tcpData p /\
    l4_valid (version p') (hl p') PROTO_TCP (GetTCPBytes h' p') /\
    VerifyTCPChecksum h' p' = Ok (true, h') /\
    only_bytes h h' (Buffer p) (fun k => (hl p + 16 <= k < hl p + 18)%nat) /\
    rd h' (tcpOptions p) = rd h (tcpOptions p) /\ rd h' (tcpData p) = rd h (tcpData p).
Proof. exact update_tcp. Qed.
Print Assumptions C42_update_tcp_checksum_partial.
(** missing: packets with an odd number of bytes before attached ones.  The
    claim is false of them: one byte of data in the buffer and two attached. *)
Definition tcp4_one_byte : bytes :=
  [69;0;0;41; 18;52;64;0; 64;6;20;153; 10;0;0;1; 10;0;0;2;
   3;232;0;80; 0;0;0;1; 0;0;0;2; 80;24;1;0; 0;0;0;0; 97].
Theorem C42_update_tcp_checksum_refuted : exists grow h s d p p1 h1 p2 h2,
  valid h s /\ is_bytes (rd h s) /\ ip4_valid (rd h s) /\
  New h 0 s true = Ok (Some p, None) /\ tcp_agrees h p /\
  TCPDataAttach grow h p snil d = Ok (p1, h1, None) /\ attached_ok h1 p1 /\
  UpdateTCPChecksum h1 p1 = Ok (p2, h2) /\
  ~ l4_valid V4 20 PROTO_TCP (GetTCPBytes h2 p2) /\ VerifyTCPChecksum h2 p2 = Ok (true, h2).
Proof.
  exists (fun _ _ => 0%nat), [tcp4_one_byte; [98; 99]], (mkSl 0 0 41 41), (mkSl 1 0 2 2).
  do 5 eexists. split; [vm_compute; split; [lia|right; lia]|]. split; [bytes_tac|]. split; [vm_compute; reflexivity|].
  split; [vm_compute; reflexivity|]. split.
  { apply (new_tcp [tcp4_one_byte; [98; 99]] 0 (mkSl 0 0 41 41) true).
    - vm_compute. split; [lia|right; lia].
    - bytes_tac.
    - apply Nat.ltb_lt. reflexivity.
    - reflexivity.
    - vm_compute. reflexivity.
    - reflexivity.
    - apply Nat.leb_le. reflexivity. }
  split; [vm_compute; reflexivity|]. split.
  { split; [vm_compute; split; [lia|left; reflexivity]|]. split; [vm_compute; split; [lia|right; lia]|].
    split; [bytes_tac|]. split; [bytes_tac|]. split; [left; reflexivity|]. split; [right; left; discriminate|].
    vm_compute. reflexivity. }
  split; [vm_compute; reflexivity|]. split; [vm_compute; discriminate|vm_compute; reflexivity].
Qed.
Print Assumptions C42_update_tcp_checksum_refuted.
Example C42_hypotheses_met :
  let '(h, p) := parsed tcp4_sample in
  tcp_agrees h p /\ attached_ok h p /\ even_pieces h p /\
  exists p' h', UpdateTCPChecksum h p = Ok (p', h') /\ tcpChecksum p' <> tcpChecksum p.
Proof.
  rewrite (surjective_pairing (parsed tcp4_sample)). split; [apply tcp4_state|]. split; [apply tcp4_state|].
  split; [apply tcp4_state|]. do 2 eexists. split; [vm_compute; reflexivity|vm_compute; discriminate].
Qed.

(** ** C45 *)
(** [run_seqops] runs any sequence of the four calls *)
Theorem C45_seq_ack_history : forall l h p, tcp_agrees h p ->
  exists p' h', run_seqops l h p = Ok (p', h') /\ tcp_agrees h' p' /\
    tcpSeq p' = (tcpSeq p + fold_right Z.add 0 (map seq_delta l)) mod 4294967296 /\
    tcpAck p' = (tcpAck p + fold_right Z.add 0 (map ack_delta l)) mod 4294967296 /\
    same_but_seq p p' /\
    only_bytes h h' (Buffer p) (fun k => (hl p + 4 <= k < hl p + 12)%nat).
Proof. exact seqops_history. Qed.
Print Assumptions C45_seq_ack_history.
Theorem C45_decrease_undoes_increase : forall h p n, tcp_agrees h p -> 0 <= n ->
  (let* x := IncreaseTCPSeq h p n in DecreaseTCPSeq (snd x) (fst x) n) = Ok (p, h) /\
  (let* x := IncreaseTCPAck h p n in DecreaseTCPAck (snd x) (fst x) n) = Ok (p, h).
Proof. exact seqop_undone. Qed.
Print Assumptions C45_decrease_undoes_increase.
Example C45_hypotheses_met :
  let '(h, p) := parsed tcp4_sample in
  tcp_agrees h p /\
  exists p' h', run_seqops [SeqUp 10; AckDown 3; SeqDown 12] h p = Ok (p', h') /\
    tcpSeq p' = 4294967295 /\ tcpAck p' = 4294967295 /\ tcp_seq (rd h' (Buffer p')) 20 = 4294967295.
Proof.
  rewrite (surjective_pairing (parsed tcp4_sample)). split; [apply tcp4_state|].
  do 2 eexists. split; [vm_compute; reflexivity|]. repeat split; vm_compute; reflexivity.
Qed.
