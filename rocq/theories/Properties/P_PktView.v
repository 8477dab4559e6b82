(** Looking at a packet: C64-C67. *)
From Verif Require Import Proof.PktView Spec.PktSamples Properties.P_PktOps Properties.P_PktTcp.
From Coq Require Import String.
From Verif Require Import Go.Base.

(** ** C64 *)
(** In every agreed state - as parsed, or after any history of C63 - the payload
    accessors show the bytes behind the TCP header; they crash exactly when the
    stated header length is larger than the packet. *)
Theorem C64_payload_accessors_partial : forall h p, tcp_agrees h p ->
  let b := rd h (Buffer p) in let at_ := tcp_payload_at b (hl p) in
  TCPDataStartBytes p = 4 * tcp_offset b (hl p) /\
  ((at_ <= length b)%nat ->
     (exists s, ReadTCPData p = Ok s /\ rd h s = tcp_payload b (hl p)) /\ ReadTCPDataString h p = Ok (tcp_payload b (hl p))) /\
  ((length b < at_)%nat -> ReadTCPData p = Panic /\ ReadTCPDataString h p = Panic).
Proof. intros h p T. split; [exact (start_bytes h p T)|exact (reads_payload h p T)]. Qed.
Print Assumptions C64_payload_accessors_partial.
Theorem C64_bytes_from_offset : forall h p off, ip_agrees h p ->
  (0 <= off <= zlen (rd h (Buffer p)) -> exists s, GetBuffer p off = Ok s /\ rd h s = skipn (Z.to_nat off) (rd h (Buffer p))) /\
  (off < 0 \/ zlen (rd h (Buffer p)) < off -> GetBuffer p off = Panic).
Proof. exact buffer_from. Qed.
Print Assumptions C64_bytes_from_offset.
Theorem C64_udp_payload : forall h p, udp_agrees h p ->
  exists s, GetUDPData p = Ok s /\ rd h s = skipn (hl p + 8) (rd h (Buffer p)).
Proof. exact udp_payload. Qed.
Print Assumptions C64_udp_payload.
(** as parsed: nothing is detached yet, and the emptiness test is right *)
Theorem C64_empty_as_parsed_partial : forall h ctx s v p,
  valid h s -> is_bytes (rd h s) -> (0 < s_len s)%nat -> Z.of_nat (s_len s) < 65536 ->
  New h ctx s v = Ok (Some p, None) -> IPProto p = PROTO_TCP -> (hl p + 20 <= s_len (Buffer p))%nat ->
  tcp_agrees h p /\ TCPOptionLength p = 0 /\ TCPDataLength p = 0 /\ GetTCPOptions h p = [] /\ GetTCPData h p = [] /\
  (IsEmptyTCPPayload p = true <-> length (rd h (Buffer p)) = tcp_payload_at (rd h (Buffer p)) (hl p)).
Proof. exact empty_iff. Qed.
Print Assumptions C64_empty_as_parsed_partial.
(** Refuted after edits: the payload has been dropped, what is sent has none, and
    the test still says there is one. *)
Theorem C64_empty_refuted :
  exists p' h', ConvertAcktoFinAck st4 pk4 = Ok (p', h') /\
    tcp_payload (GetTCPBytes h' p') (hl p') = [] /\ tcp_payload_at (GetTCPBytes h' p') (hl p') = length (GetTCPBytes h' p') /\
    IsEmptyTCPPayload p' = false.
Proof. do 2 eexists. split; [vm_compute; reflexivity|]. vm_compute. auto. Qed.
Print Assumptions C64_empty_refuted.
(** Refuted: a packet New accepts, with validation, whose stated TCP header is
    longer than the packet; reading its payload crashes. *)
Theorem C64_reads_never_crash_refuted : exists h s p,
  valid h s /\ is_bytes (rd h s) /\ New h 0 s true = Ok (Some p, None) /\ tcp_agrees h p /\
  ReadTCPData p = Panic /\ ReadTCPDataString h p = Panic.
Proof.
  set (b := [69;0;0;40; 0;0;0;0; 64;6;0;0; 10;0;0;1; 10;0;0;2; 3;232;0;80; 0;0;0;1; 0;0;0;2; 240;16;1;0; 0;0;0;0]).
  exists (fst (held b 0)), (snd (held b 0)), (snd (parsed b)).
  split; [vm_compute; split; [lia|right; lia]|]. split; [unfold b; bytes_tac|]. split; [vm_compute; reflexivity|].
  split; [apply (parsed_tcp b); [vm_compute; reflexivity|vm_compute; reflexivity|
            eexists; split; [vm_compute; reflexivity|split; [vm_compute; lia|vm_compute; reflexivity]]]|].
  split; vm_compute; reflexivity.
Qed.
Print Assumptions C64_reads_never_crash_refuted.
Example C64_hypotheses_met :
  tcp_agrees st4 pk4 /\ (tcp_payload_at (rd st4 (Buffer pk4)) (hl pk4) <= length (rd st4 (Buffer pk4)))%nat /\
  ReadTCPDataString st4 pk4 = Ok [97; 98; 99; 100] /\ IsEmptyTCPPayload pk4 = false /\
  udp_agrees (fst (parsed udp4_sample)) (snd (parsed udp4_sample)).
Proof.
  split; [apply tcp4_state|]. split; [vm_compute; lia|]. split; [vm_compute; reflexivity|]. split; [vm_compute; reflexivity|apply udp4_state].
Qed.

(** ** C65 *)
Theorem C65_source_port_hash : forall h1 p1 h2 p2 stage,
  tcp_agrees h1 p1 \/ udp_agrees h1 p1 -> tcp_agrees h2 p2 \/ udp_agrees h2 p2 -> version p1 = version p2 ->
  (SourcePortHash p1 stage = SourcePortHash p2 stage <->
   if stage =? 4096
   then DestinationAddress p1 = DestinationAddress p2 /\ DestPort p1 = DestPort p2
   else SourceAddress p1 = SourceAddress p2 /\ SourcePort p1 = SourcePort p2).
Proof. exact source_port_hash. Qed.
Print Assumptions C65_source_port_hash.
(** the two directions of a connection have the same hash *)
Theorem C65_both_directions : forall p q stage, opposite_flow p q -> stage <> 4096 ->
  SourcePortHash p 4096 = SourcePortHash q stage /\ SourcePortHash p stage = SourcePortHash q 4096.
Proof.
  intros p q stage (A & B & C & D) N. unfold SourcePortHash, PacketTypeNetwork. rewrite Z.eqb_refl. destruct (Z.eqb_spec stage 4096); [contradiction|].
  unfold SourceAddress, DestinationAddress in *. rewrite A, B, C, D. auto.
Qed.
Print Assumptions C65_both_directions.
Example C65_hypotheses_met :
  let p := pk4 in let q := snd (parsed udp4_sample) in
  tcp_agrees st4 p /\ udp_agrees (fst (parsed udp4_sample)) q /\ version p = version q /\
  SourcePortHash p 4096 <> SourcePortHash p 8192.
Proof. split; [apply tcp4_state|]. split; [apply udp4_state|]. split; [reflexivity|]. vm_compute. discriminate. Qed.

(** ** C66 *)
(** The log line shows the packet, and logging leaves memory as it was. *)
Theorem C66_print_partial : forall h p ctx level, tcp_agrees h p -> attached_ok h p -> even_pieces h p ->
  exists r, Print h p ctx level = Ok (r, h) /\
  ((level = true \/ ctx = 0) <-> r <> None) /\
  forall l, r = Some l ->
    let b := rd h (Buffer p) in let o := hl p in
    rp_dir l = direction_of (Z.lor (context p) ctx) /\ rp_comment l = path_of (Z.lor (context p) ctx) /\
    rp_src l = ip_string (SourceAddress p) /\ rp_dst l = ip_string (DestinationAddress p) /\
    rp_sport l = l4_sport b o /\ rp_dport l = l4_dport b o /\ rp_flags l = TCPFlagsToStr (tcp_flags b o) /\
    rp_seq l = tcp_seq b o /\ rp_ack l = tcp_ack b o /\ rp_offset l = tcp_offset b o /\
    rp_csum l = tcp_checksum b o /\
    rp_computed l = l4_right_checksum (version p) o PROTO_TCP 16 (GetTCPBytes h p) /\
    (rp_bad l = false <-> tcp_checksum b o = l4_right_checksum (version p) o PROTO_TCP 16 (GetTCPBytes h p)) /\
    rp_dump l = ether_header ++ GetTCPBytes h p /\
    ((tcp_payload_at b o <= length b)%nat ->
       rp_len l = zlen (tcp_payload b o) /\ rp_expack l = rp_expseq l /\
       rp_expack l = (tcp_seq b o + zlen (tcp_payload b o) + syn_bit (tcp_flags b o)) mod 4294967296).
Proof. exact print_spec. Qed.
Print Assumptions C66_print_partial.
(** other protocols are not logged and not touched *)
Theorem C66_print_others : forall h p ctx level, IPProto p <> PROTO_TCP -> Print h p ctx level = Ok (None, h).
Proof.
  intros h p ctx level N. unfold Print. unfold IPProto, PROTO_TCP in N.
  destruct (Z.eqb_spec (ipProto p) IPProtocolTCP) as [E|E]; [unfold IPProtocolTCP in E; contradiction|reflexivity].
Qed.
Print Assumptions C66_print_others.
(** Refuted: the expected acknowledgement is wrong for every segment with FIN. *)
Theorem C66_expected_ack_refuted : forall h p ctx l h', tcp_agrees h p -> attached_ok h p -> even_pieces h p ->
  (tcp_payload_at (rd h (Buffer p)) (hl p) <= length (rd h (Buffer p)))%nat ->
  fin_bit (tcp_flags (rd h (Buffer p)) (hl p)) = 1 -> Print h p ctx true = Ok (Some l, h') ->
  rp_expack l <> next_seq (tcp_seq (rd h (Buffer p)) (hl p)) (tcp_flags (rd h (Buffer p)) (hl p)) (zlen (tcp_payload (rd h (Buffer p)) (hl p))).
Proof.
  intros h p ctx l h' T AO EV LP F E. destruct (print_spec h p ctx true T AO EV) as (r & E2 & _ & X).
  rewrite E in E2. injection E2 as <- <-. destruct (X l eq_refl) as (_ & _ & _ & _ & _ & _ & _ & _ & _ & _ & _ & _ & _ & _ & Y).
  destruct (Y LP) as (_ & _ & ->). unfold next_seq. rewrite F. intros Z. lia.
Qed.
Print Assumptions C66_expected_ack_refuted.
Example C66_hypotheses_met :
  tcp_agrees st4 pk4 /\ attached_ok st4 pk4 /\ even_pieces st4 pk4 /\
  (exists l, Print st4 pk4 4352 true = Ok (Some l, st4) /\ rp_dir l = text ">>>>>"%string /\ rp_comment l = text "Network-Incoming"%string /\
     rp_src l = text "10.0.0.1"%string /\ rp_len l = 4 /\ rp_expack l = rp_seq l + 4).
Proof.
  split; [apply tcp4_state|]. split; [apply tcp4_state|]. split; [apply tcp4_state|].
  eexists. split; [vm_compute; reflexivity|]. vm_compute. auto.
Qed.

(** ** C67 *)
(** SetTCPFlags changes what GetTCPFlags reports, and nothing in the packet. *)
Theorem C67_set_flags_partial : forall h p f, tcp_agrees h p ->
  GetTCPFlags (SetTCPFlags p f) = f /\ GetTCPBytes h (SetTCPFlags p f) = GetTCPBytes h p /\
  tcp_flags (GetTCPBytes h (SetTCPFlags p f)) (hl p) = GetTCPFlags p.
Proof. exact set_flags. Qed.
Print Assumptions C67_set_flags_partial.
(** Refuted, for every packet and every change of flags *)
Theorem C67_set_flags_refuted : forall h p f, tcp_agrees h p -> f <> GetTCPFlags p ->
  tcp_flags (GetTCPBytes h (SetTCPFlags p f)) (hl p) <> f /\ ~ tcp_agrees h (SetTCPFlags p f).
Proof.
  intros h p f T N. destruct (set_flags h p f T) as (A & B & C). rewrite C. split; [congruence|].
  intros (_ & _ & _ & S). destruct S as (_ & _ & _ & _ & _ & S6 & _). rewrite A in S6.
  destruct T as (_ & _ & _ & T). destruct T as (_ & _ & _ & _ & _ & T6 & _). apply N. rewrite T6, S6. reflexivity.
Qed.
Print Assumptions C67_set_flags_refuted.
Example C67_hypotheses_met : tcp_agrees st4 pk4 /\ 2 <> GetTCPFlags pk4.
Proof. split; [apply tcp4_state|vm_compute; discriminate]. Qed.
