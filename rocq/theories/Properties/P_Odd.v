(** C42, for pieces of every length: what UpdateTCPChecksum writes and what
    VerifyTCPChecksum answers. *)
From Verif Require Import Proof.PktOdd Spec.PktSamples Properties.P_PktOps.

Theorem C42_update_tcp_checksum_exact : forall h p, tcp_agrees h p -> attached_ok h p ->
  exists p' h', UpdateTCPChecksum h p = Ok (p', h') /\ tcp_agrees h' p' /\
    Buffer p' = Buffer p /\ tcpOptions p' = tcpOptions p /\ tcpData p' = tcpData p /\
    tcp_checksum (rd h' (Buffer p')) (hl p') = piecewise_checksum h p /\
    (l4_valid (version p') (hl p') PROTO_TCP (GetTCPBytes h' p') <-> misaligned h p mod 257 = 0) /\
    VerifyTCPChecksum h' p' = Ok (true, h') /\
    only_bytes h h' (Buffer p) (fun k => (hl p + 16 <= k < hl p + 18)%nat) /\
    rd h' (tcpOptions p) = rd h (tcpOptions p) /\ rd h' (tcpData p) = rd h (tcpData p).
Proof. exact update_exact. Qed.
Print Assumptions C42_update_tcp_checksum_exact.

Theorem C42_verify_tcp_checksum_exact : forall h p, tcp_agrees h p -> attached_ok h p ->
  exists b, VerifyTCPChecksum h p = Ok (b, h) /\
    (b = true <-> tcp_checksum (rd h (Buffer p)) (hl p) = piecewise_checksum h p) /\
    (l4_valid (version p) (hl p) PROTO_TCP (GetTCPBytes h p) ->
       (b = true <-> tcp_checksum (rd h (Buffer p)) (hl p) <> 65535 /\ misaligned h p mod 257 = 0)).
Proof. exact verify_exact. Qed.
Print Assumptions C42_verify_tcp_checksum_exact.

(** one octet of data in the buffer: attaching [98; 99] gives an invalid segment
    (25187 = 98 * 257 + 1), attaching [98; 98] a valid one *)
Example C42_exact_cases :
  exists p1 h1 p2 h2 p3 h3 p4 h4,
    New [tcp4_one_byte; [98; 99]; [98; 98]] 0 (mkSl 0 0 41 41) true = Ok (Some (snd (parsed tcp4_one_byte)), None) /\
    TCPDataAttach (fun _ _ => 0%nat) [tcp4_one_byte; [98; 99]; [98; 98]] (snd (parsed tcp4_one_byte)) snil (mkSl 1 0 2 2) = Ok (p1, h1, None) /\
    misaligned h1 p1 mod 257 = 1 /\ UpdateTCPChecksum h1 p1 = Ok (p2, h2) /\
    oc_sum (pseudo V4 (GetTCPBytes h2 p2) 6 23 ++ skipn 20 (GetTCPBytes h2 p2)) <> 65535 /\
    TCPDataAttach (fun _ _ => 0%nat) [tcp4_one_byte; [98; 99]; [98; 98]] (snd (parsed tcp4_one_byte)) snil (mkSl 2 0 2 2) = Ok (p3, h3, None) /\
    misaligned h3 p3 mod 257 = 0 /\ UpdateTCPChecksum h3 p3 = Ok (p4, h4) /\
    oc_sum (pseudo V4 (GetTCPBytes h4 p4) 6 23 ++ skipn 20 (GetTCPBytes h4 p4)) = 65535.
Proof.
  do 8 eexists. split; [vm_compute; reflexivity|]. split; [vm_compute; reflexivity|]. split; [vm_compute; reflexivity|].
  split; [vm_compute; reflexivity|]. split; [vm_compute; discriminate|]. split; [vm_compute; reflexivity|].
  split; [vm_compute; reflexivity|]. split; vm_compute; reflexivity.
Qed.
