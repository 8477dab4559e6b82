(** Further concrete cases that meet the hypotheses of theorems proved elsewhere. *)
From Verif Require Import Proof.NfqStart Proof.NflogConfig Proof.CtFacts Proof.RecvOutcome Proof.PktNew Proof.PktSource Proof.Overlap Spec.Samples Spec.PktSamples
  Properties.P_Config Properties.P_Conntrack Properties.P_Loop Properties.P_Packet Properties.P_PktOps
  Properties.P_PktTcp Properties.P_PktUdp.

(** C15: requests on open and on closed handles, of all three packages *)
Example C15_all_hypotheses_met :
  (cfg_args_ok (CfgMaxLen 100) /\ is_u16 (q_num (w_st sample_world)) /\ open_handle sample_world 7) /\
  (let w := mkW (mkQ 8 42 None true 0 None snil [] snil 0 0 0 []) [] [] in
   is_u16 (q_num (w_st w)) /\ q_handle (w_st w) = None /\
   fst (cfg_run LE (CfgMaxLen 100) kernel_acks w) = Ok (Some ENotOpen)) /\
  (let w := mkW (mkL true true (Some (mkLS 7 snil))) [] [] in
   open_log w 7 /\ log_args_ok LogBind /\ exists msg, log_messages LogBind = [msg]) /\
  l_sock (w_st (mkW (mkL true true None) [] [])) = None /\
  (tuple5_ok sample_tuple /\ is_u32 9 /\ replies_within 20 37 kernel_acks /\ sockets_open kernel_acks).
Proof.
  split; [split; [cbn; red; lia|split; [cbn; red; lia|exact sample_world_open]]|].
  split; [cbv zeta; split; [cbn; red; lia|split; [reflexivity|vm_compute; reflexivity]]|].
  split; [cbv zeta; split; [exists snil; reflexivity|split; [exact Logic.I|eexists; reflexivity]]|].
  split; [reflexivity|]. split; [apply C32_hypotheses_met|]. split; [red; lia|].
  split; [apply kernel_acks_within; lia|apply kernel_acks_open].
Qed.

(** C20: a datagram of three bytes *)
Example C20_short_datagram_met : exists fd,
  let d := [1; 2; 3] in let w := started (guarded accept_all) true [Some d] in
  let r := kernel_delivers [Some d] (w_tr w) (KRecvfrom fd 76800 256) in
  queue_ready w fd /\ r_err r = None /\ (length (r_data r) < 20)%nat.
Proof.
  destruct (started_fresh (guarded accept_all) true [Some [1; 2; 3]]) as (fd & priv & F & _).
  exists fd. cbv zeta. split; [apply F|]. rewrite first_delivery. cbn. split; [reflexivity|lia].
Qed.

(** C60: a TCP packet cut after 14 bytes of the TCP header, with 20 more bytes of
    capacity: accepted, and its checksum is not its own *)
Example C60_tcp_hypotheses_met :
  let h := [firstn 34 tcp4_sample ++ repeat 1 20] in let s := mkSl 0 0 34 54 in
  given h s /\ is_bytes (memory h s) /\
  exists p, New h 0 s false = Ok (Some p, None) /\ IPProto p = PROTO_TCP /\ SourcePort p = 1000 /\ tcpChecksum p = 257.
Proof.
  cbv zeta. split; [given_tac|]. split; [bytes_tac|]. eexists. split; [vm_compute; reflexivity|]. vm_compute. auto.
Qed.

(** C48: a packet with no data takes the control message *)
Definition bare : heap := [firstn 28 udp4_back; 32 :: 0 :: control_signature; [7; 8; 9]].
Definition bare_packet : packet := snd (parsed udp4_back).
Example C48_control_packet_met : let p := bare_packet in let d := mkSl 1 0 20 20 in let t := mkSl 2 0 3 3 in
  udp_agrees bare p /\ s_len (Buffer p) = (hl p + 8)%nat /\ IPTotalLen p = Z.of_nat (hl p + 8) /\
  ip4_valid (rd bare (Buffer p)) /\
  CreateUDPAuthMarker 32 = Ok (rd bare d) /\ valid bare d /\ valid bare t /\ is_bytes (rd bare t) /\
  zlen (rd bare (Buffer p) ++ rd bare d ++ rd bare t) < 65536.
Proof.
  intros p d t. split; [udp_state_tac (mkSl 0 0 28 28)|]. split; [vm_compute; reflexivity|]. split; [vm_compute; reflexivity|].
  split; [vm_compute; reflexivity|]. split; [vm_compute; reflexivity|].
  split; [vm_compute; split; [lia|right; lia]|]. split; [vm_compute; split; [lia|right; lia]|].
  split; [bytes_tac|]. vm_compute. reflexivity.
Qed.

(** C44: a packet with its data still in place refuses options *)
Example C44_options_refused_met :
  let h := st4 ++ [[1; 1; 1; 1]] in
  tcp_agrees h pk4 /\ 0 <= tcpDataOffset pk4 /\ s_len (Buffer pk4) <> payload_at pk4 /\
  TCPDataAttach (fun _ _ => 0%nat) h pk4 (mkSl 1 0 4 4) snil = Ok (pk4, h, Some errInsertOptions).
Proof.
  cbv zeta. split; [|split; [vm_compute; discriminate|split; [vm_compute; discriminate|vm_compute; reflexivity]]].
  apply (new_tcp (st4 ++ [[1; 1; 1; 1]]) 0 (mkSl 0 0 48 48) true);
  [vm_compute; split; [lia|right; lia]|bytes_tac|apply Nat.ltb_lt; reflexivity|reflexivity
  |vm_compute; reflexivity|reflexivity|apply Nat.leb_le; reflexivity].
Qed.

(** C52: two IPv6 packets of opposite flows *)
Definition udp6_back : bytes :=
  [96;0;0;0; 0;12;17;64;
   32;1;13;184;0;0;0;0;0;0;0;0;0;0;0;2; 32;1;13;184;0;0;0;0;0;0;0;0;0;0;0;1;
   3;232;0;53; 0;12;0;0; 1;2;3;4].
Example C52_opposite_met :
  accepted (fst u6) (snd u6) /\ accepted (fst (parsed udp6_back)) (snd (parsed udp6_back)) /\
  version (snd u6) = V6 /\ version (snd (parsed udp6_back)) = V6 /\ opposite_flow (snd u6) (snd (parsed udp6_back)).
Proof.
  split; [accepted_tac|]. split; [accepted_tac|]. split; [vm_compute; reflexivity|]. split; [vm_compute; reflexivity|].
  repeat split; vm_compute; reflexivity.
Qed.

(** C33: flows of which two match, and a mark that is not zero *)
Example C33_count_hypotheses_met :
  tuple5_ok sample_tuple /\ is_u32 9 /\ 9 <> 0 /\ replies_within 20 37 kernel_acks /\ sockets_open kernel_acks /\
  Forall flow_ok [sample_flow; other_flow; sample_flow].
Proof.
  split; [apply C32_hypotheses_met|]. split; [red; lia|]. split; [lia|]. split; [apply kernel_acks_within; lia|].
  split; [apply kernel_acks_open|]. apply C32_hypotheses_met.
Qed.
