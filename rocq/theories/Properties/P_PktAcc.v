(** The remaining accessors, and the packet made for tests: C83. *)
From Verif Require Import Proof.PktView Proof.PktNew Proof.PktParse Spec.PktSamples Properties.P_Packet Properties.P_PktOps Properties.P_PktTcp Properties.P_PktUdp.
From Coq Require Import String.
From Verif Require Import Go.Base.

(** the version reported is the one in the first four bits (6 is reported for
    everything that is not 4), and the header length is that version's *)
Theorem C83_version_reported : forall h ctx s v p, given h s -> New h ctx s v = Ok (Some p, None) ->
  (IPversion p = V4 <-> byte_at (rd h s) 0 / 16 = 4) /\ IPHeaderLen p = match IPversion p with V4 => 20 | V6 => 40 end.
Proof.
  intros h ctx s v p (V & B & L & L2) E. pose proof (valid_vslice h s V L) as VS.
  unfold IPversion, IPHeaderLen. destruct (Z.eq_dec (ip4_version (rd h s)) 4) as [VER|VER].
  - pose proof (New_v4 h ctx s v VS B L L2 VER) as X. rewrite E in X. destruct X as [_ X].
    destruct X as [_ A2 _ _ _ _ _ _]. destruct A2 as (I1 & I2 & _). rewrite I1, I2. split; [|reflexivity].
    split; [intros _; exact VER|reflexivity].
  - pose proof (New_v6 h ctx s v VS B L L2 VER) as X. rewrite E in X. destruct X as [_ X]. destruct X. rewrite a6_ver, a6_hl.
    split; [|reflexivity]. split; [discriminate|intros Y; contradiction].
Qed.
Print Assumptions C83_version_reported.
(** in every agreed state (C40, C63) the lengths reported are those of what is
    shown: the IP length of the header, the detached options and data *)
Theorem C83_lengths_reported : forall h p, ip_agrees h p -> attached_ok h p ->
  GetIPLength p = (match IPversion p with
                   | V4 => ip4_total (rd h (Buffer p))
                   | V6 => (40 + ip6_payload (rd h (Buffer p))) mod 65536
                   end) /\
  GetIPLength p = IPTotalLen p /\
  TCPOptionLength p = zlen (GetTCPOptions h p) /\ TCPDataLength p = zlen (GetTCPData h p) /\
  zlen (GetTCPBytes h p) = zlen (rd h (Buffer p)) + TCPOptionLength p + TCPDataLength p.
Proof.
  intros h p IA (VO & VD & _). 
  assert (LO : TCPOptionLength p = zlen (GetTCPOptions h p)) by (unfold TCPOptionLength, GetTCPOptions, zlen; rewrite valid_len by exact VO; reflexivity).
  assert (LD : TCPDataLength p = zlen (GetTCPData h p)) by (unfold TCPDataLength, GetTCPData, zlen; rewrite valid_len by exact VD; reflexivity).
  split; [|split; [reflexivity|split; [exact LO|split; [exact LD|]]]].
  - unfold GetIPLength, IPversion. destruct IA as (_ & _ & _ & IA). unfold IPTotalLen in IA.
    destruct (version p); destruct IA as (_ & IA); repeat (destruct IA as [? IA]); assumption.
  - rewrite LO, LD. unfold GetTCPBytes, GetTCPOptions, GetTCPData, zlen. rewrite !app_length. lia.
Qed.
Print Assumptions C83_lengths_reported.
(** UDP: what follows the 8 bytes at the reported start is what GetUDPData gives *)
Theorem C83_udp_start : forall h p, udp_agrees h p ->
  exists s t, GetUDPData p = Ok s /\ GetBuffer p (IPHeaderLen p + GetUDPDataStartBytes p) = Ok t /\
    rd h s = rd h t /\ rd h t = skipn (hl p + 8) (rd h (Buffer p)).
Proof.
  intros h p U. pose proof U as (IA & _ & L & _). pose proof IA as (VB & _ & LB & AG).
  assert (HL : IPHeaderLen p = Z.of_nat (hl p)).
  { unfold IPHeaderLen, hl. destruct (version p); destruct AG as (_ & AG); repeat (destruct AG as [? AG]); assumption. }
  destruct (udp_payload h p U) as (s & Es & Rs).
  assert (X : 0 <= IPHeaderLen p + GetUDPDataStartBytes p <= zlen (rd h (Buffer p))) by (rewrite HL; unfold GetUDPDataStartBytes, UDPDataPos, zlen; lia).
  destruct (proj1 (buffer_from h p _ IA) X) as (t & Et & Rt).
  exists s, t. split; [exact Es|]. split; [exact Et|]. rewrite Rs, Rt, HL. unfold GetUDPDataStartBytes, UDPDataPos.
  replace (Z.to_nat (Z.of_nat (hl p) + 8)) with (hl p + 8)%nat by lia. auto.
Qed.
Print Assumptions C83_udp_start.

(** ** The packet made for tests *)
(** it carries the addresses and ports given; compared by SourcePortHash and by
    the reverse flow hash it is like a received TCP packet of that flow *)
Theorem C83_test_packet_partial : forall src dst sp dp,
  let t := TestGetTCPPacket src dst sp dp in
  SourceAddress t = src /\ DestinationAddress t = dst /\ SourcePort t = sp /\ DestPort t = dp /\ IPProto t = PROTO_TCP /\
  forall p, IPProto p = PROTO_TCP ->
    ip_string (SourceAddress p) = ip_string src -> ip_string (DestinationAddress p) = ip_string dst ->
    SourcePort p = sp -> DestPort p = dp ->
    (forall stage, SourcePortHash t stage = SourcePortHash p stage) /\ L4ReverseFlowHash t = L4ReverseFlowHash p.
Proof.
  intros src dst sp dp t. split; [reflexivity|]. split; [reflexivity|]. split; [reflexivity|]. split; [reflexivity|]. split; [reflexivity|].
  intros p P A B C D. unfold SourcePortHash, L4ReverseFlowHash. unfold SourceAddress, DestinationAddress in *.
  rewrite A, B, C, D. auto.
Qed.
Print Assumptions C83_test_packet_partial.
(** Refuted for the flow hash, for every flow: the test packet's is empty, so it
    differs from that of every received packet of that flow and is the same for
    all flows *)
Theorem C83_test_packet_flow_hash_refuted : forall src dst sp dp,
  L4FlowHash (TestGetTCPPacket src dst sp dp) = [] /\
  forall h p, accepted h p -> L4FlowHash p <> L4FlowHash (TestGetTCPPacket src dst sp dp).
Proof.
  intros src dst sp dp. split; [reflexivity|]. intros h p A X. destruct (accepted_facts _ _ A) as [_ E].
  change (L4FlowHash (TestGetTCPPacket src dst sp dp)) with (@nil Z) in X. rewrite X in E. 
  unfold l4FlowHash in E. destruct (ip_string (sourceAddress p)); discriminate E.
Qed.
Print Assumptions C83_test_packet_flow_hash_refuted.
Example C83_hypotheses_met :
  (exists h s p, given h s /\ New h 0 s true = Ok (Some p, None) /\ IPversion p = V6) /\
  ip_agrees st4 pk4 /\ attached_ok st4 pk4 /\ GetIPLength pk4 = 48 /\
  udp_agrees (fst (parsed udp4_sample)) (snd (parsed udp4_sample)) /\
  SourcePortHash (TestGetTCPPacket [10;0;0;1] [10;0;0;2] 1000 80) 4096 = text "10.0.0.2:80"%string.
Proof.
  split. { exists (fst (held udp6_sample 0)), (snd (held udp6_sample 0)). eexists. split; [given_tac|]. split; vm_compute; reflexivity. }
  split; [apply tcp4_state|]. split; [apply tcp4_state|]. split; [vm_compute; reflexivity|]. split; [apply udp4_state|vm_compute; reflexivity].
Qed.
