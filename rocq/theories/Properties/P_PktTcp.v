(** Properties of package packet, TCP: C43, C44, C46, C54, C55. *)
From Verif Require Import Proof.PktEmit Spec.PktSamples Properties.P_PktOps.

(** ** C43 *)
(** detaching the payload and attaching it again.  (A checksum field of 0xffff,
    the second representation of zero, may come back as 0: still valid.) *)
Theorem C43_detach_then_attach : forall grow h p, tcp_agrees h p -> 5 <= tcpDataOffset p -> (payload_at p <= s_len (Buffer p))%nat ->
  valid h (tcpOptions p) -> valid h (tcpData p) -> s_len (tcpOptions p) = 0%nat -> s_len (tcpData p) = 0%nat ->
  exists p1 h1 p2 h2,
    TCPDataDetach h p 0 = Ok (p1, h1) /\ tcp_agrees h1 p1 /\
    s_len (Buffer p1) = payload_at p /\
    GetTCPData h1 p1 = skipn (payload_at p) (rd h (Buffer p)) /\ GetTCPOptions h1 p1 = [] /\
    IPTotalLen p1 = (IPTotalLen p - payload_len p) mod 65536 /\
    (version p = V4 -> ip4_valid (rd h (Buffer p)) -> ip4_valid (rd h1 (Buffer p1))) /\
    only_bytes h h1 (Buffer p) (fun k => ip_len_bytes (version p) k \/ k = hl p + 12)%nat /\
    TCPDataAttach grow h1 p1 snil (tcpData p1) = Ok (p2, h2, None) /\ tcp_agrees h2 p2 /\
    IPTotalLen p2 = IPTotalLen p /\ tcpChecksum p2 = tcpChecksum p /\
    (version p = V4 -> ip4_valid (rd h (Buffer p)) -> ip4_valid (GetTCPBytes h2 p2)) /\
    (version p = V6 \/ ip4_checksum (rd h (Buffer p)) <> 65535 ->
     GetTCPBytes h2 p2 = splice (GetTCPBytes h p) (hl p + 12) [tcp_offset (GetTCPBytes h p) (hl p) * 16]).
Proof. exact detach_attach. Qed.
Print Assumptions C43_detach_then_attach.
(** detaching the last [ol] bytes of the options with the payload *)
Theorem C43_detach_with_options : forall h p ol, tcp_agrees h p -> 0 <= ol -> ol mod 4 = 0 -> 20 + ol <= 4 * tcpDataOffset p ->
  (payload_at p <= s_len (Buffer p))%nat ->
  let b := rd h (Buffer p) in let n := Z.to_nat ol in
  exists p' h', TCPDataDetach h p ol = Ok (p', h') /\ tcp_agrees h' p' /\
    length (rd h' (Buffer p')) = (payload_at p - n)%nat /\
    (forall k, (k < payload_at p - n)%nat -> ~ ip_len_bytes (version p) k -> k <> (hl p + 12)%nat ->
       nth k (rd h' (Buffer p')) 0 = nth k b 0) /\
    (ol <> 0 -> GetTCPOptions h' p' = field b (payload_at p - n) n) /\
    (payload_len p <> 0 -> GetTCPData h' p' = skipn (payload_at p) b) /\
    tcp_offset (rd h' (Buffer p')) (hl p) = tcp_offset b (hl p) - ol / 4 /\
    IPTotalLen p' = (IPTotalLen p - (payload_len p + ol)) mod 65536 /\
    (version p = V4 -> ip4_valid b -> ip4_valid (rd h' (Buffer p'))) /\
    only_bytes h h' (Buffer p) (fun k => ip_len_bytes (version p) k \/ k = hl p + 12)%nat.
Proof. exact detach_parts. Qed.
Print Assumptions C43_detach_with_options.
Definition st4 : heap := fst (parsed tcp4_sample).
Definition pk4 : packet := snd (parsed tcp4_sample).
Example C43_hypotheses_met :
  tcp_agrees st4 pk4 /\ tcpDataOffset pk4 = 6 /\ payload_at pk4 = 44%nat /\ s_len (Buffer pk4) = 48%nat /\ payload_len pk4 = 4 /\
  valid st4 (tcpOptions pk4) /\ valid st4 (tcpData pk4) /\ s_len (tcpOptions pk4) = 0%nat /\ s_len (tcpData pk4) = 0%nat /\
  ip4_valid (rd st4 (Buffer pk4)) /\ ip4_checksum (rd st4 (Buffer pk4)) <> 65535 /\
  exists p' h', TCPDataDetach st4 pk4 4 = Ok (p', h') /\ GetTCPOptions h' p' = [34;4;7;9] /\ GetTCPData h' p' = [97;98;99;100] /\
    IPTotalLen p' = 40 /\ length (rd h' (Buffer p')) = 40%nat.
Proof.
  split; [apply tcp4_state|]. do 4 (split; [vm_compute; reflexivity|]).
  split; [apply tcp4_state|]. split; [apply tcp4_state|].
  do 3 (split; [vm_compute; reflexivity|]). split; [vm_compute; discriminate|].
  do 2 eexists. split; [vm_compute; reflexivity|]. repeat split; vm_compute; reflexivity.
Qed.

(** ** C44 *)
(** Attaching keeps everything held.  [attachable] excludes exactly the memory
    layouts where appending the new options writes over the packet or over the
    data given: the part of the claim that is false, see below. *)
Theorem C44_attach_keeps_all_partial : forall grow h p o d, tcp_agrees h p -> attachable h p o d ->
  (s_len o = 0%nat \/ s_len (Buffer p) = payload_at p) ->
  tcpDataOffset p + zlen (rd h o) / 4 < 16 ->
  exists p' h', TCPDataAttach grow h p o d = Ok (p', h', None) /\ tcp_agrees h' p' /\
    Buffer p' = Buffer p /\
    GetTCPBytes h' p' = rd h' (Buffer p) ++ rd h (tcpOptions p) ++ rd h o ++ rd h d /\
    GetTCPOptions h' p' = rd h (tcpOptions p) ++ rd h o /\ GetTCPData h' p' = rd h d /\
    (forall k, (k < s_len (Buffer p))%nat -> ~ ip_len_bytes (version p) k -> k <> (hl p + 12)%nat ->
       nth k (rd h' (Buffer p)) 0 = nth k (rd h (Buffer p)) 0) /\
    tcp_offset (GetTCPBytes h' p') (hl p) = tcp_offset (rd h (Buffer p)) (hl p) + zlen (rd h o) / 4 /\
    IPTotalLen p' = (IPTotalLen p + zlen (rd h o ++ rd h d)) mod 65536 /\
    (version p = V4 -> ip4_valid (rd h (Buffer p)) -> ip4_valid (GetTCPBytes h' p')).
Proof. exact attach_emits. Qed.
Print Assumptions C44_attach_keeps_all_partial.
(** options given while payload is still in the packet: refused, nothing changes *)
Theorem C44_options_refused_partial : forall grow h p o d, tcp_agrees h p -> 0 <= tcpDataOffset p -> (0 < s_len o)%nat ->
  s_len (Buffer p) <> payload_at p ->
  TCPDataAttach grow h p o d = Ok (p, h, Some errInsertOptions).
Proof. exact attach_refused. Qed.
Print Assumptions C44_options_refused_partial.
(** Refuted in general: detach options and data from a parsed packet, attach
    four more option bytes with the data just detached. *)
Theorem C44_attach_keeps_all_refuted : exists grow h p p1 h1 o p2 h2,
  tcp_agrees h p /\ tcpOptions p = snil /\ tcpData p = snil /\
  TCPDataDetach h p 4 = Ok (p1, h1) /\ rd h1 o = [1; 1; 1; 1] /\ valid h1 o /\
  apart (Buffer p) o /\
  TCPDataAttach grow h1 p1 o (tcpData p1) = Ok (p2, h2, None) /\
  GetTCPData h1 p1 = [97; 98; 99; 100] /\ GetTCPData h2 p2 = [1; 1; 1; 1].
Proof.
  assert (X : tcp_agrees (st4 ++ [[1; 1; 1; 1]]) pk4).
  { apply (new_tcp (st4 ++ [[1; 1; 1; 1]]) 0 (mkSl 0 0 48 48) true).
    - vm_compute. split; [lia|right; lia].
    - bytes_tac.
    - apply Nat.ltb_lt. reflexivity.
    - reflexivity.
    - vm_compute. reflexivity.
    - reflexivity.
    - apply Nat.leb_le. reflexivity. }
  exists (fun _ _ => 0%nat), (st4 ++ [[1; 1; 1; 1]]), pk4. do 2 eexists. exists (mkSl 1 0 4 4). do 2 eexists.
  split; [exact X|]. do 4 (split; [vm_compute; reflexivity|]). split; [vm_compute; split; [lia|right; lia]|].
  split; [right; left; vm_compute; discriminate|]. split; [vm_compute; reflexivity|]. split; vm_compute; reflexivity.
Qed.
Print Assumptions C44_attach_keeps_all_refuted.
Example C44_hypotheses_met :
  let h := st4 ++ [[1; 1; 1; 1]; [120; 121; 122]] in
  exists p1 h1, TCPDataDetach h pk4 0 = Ok (p1, h1) /\ tcp_agrees h1 p1 /\
    let p := DropTCPDetachedBytes p1 in let o := mkSl 1 0 4 4 in let d := mkSl 2 0 3 3 in
    tcp_agrees h1 p /\ attachable h1 p o d /\ s_len (Buffer p) = payload_at p /\ tcpDataOffset p + zlen (rd h1 o) / 4 = 7 /\
    exists p2 h2, TCPDataAttach (fun _ _ => 0%nat) h1 p o d = Ok (p2, h2, None) /\
      skipn 40 (GetTCPBytes h2 p2) = [34;4;7;9; 1;1;1;1; 120;121;122] /\ IPTotalLen p2 = 51.
Proof.
  intros h.
  assert (X : tcp_agrees h pk4).
  { apply (new_tcp h 0 (mkSl 0 0 48 48) true).
    - vm_compute. split; [lia|right; lia].
    - unfold h. bytes_tac.
    - apply Nat.ltb_lt. reflexivity.
    - reflexivity.
    - vm_compute. reflexivity.
    - reflexivity.
    - apply Nat.leb_le. reflexivity. }
  destruct (detach_parts h pk4 0 X) as (p1 & h1 & R & T & _).
  { lia. } { reflexivity. } { vm_compute. discriminate. } { apply Nat.leb_le. vm_compute. reflexivity. }
  exists p1, h1. split; [exact R|]. split; [exact T|]. intros p o d.
  assert (T2 : tcp_agrees h1 p).
  { unfold p, DropTCPDetachedBytes. apply (tcp_agrees_ext h1); [exact T|apply T|reflexivity]. }
  split; [exact T2|].
  assert (R' := R). vm_compute in R'. injection R' as E1 E2.
  unfold p, o, d. clear T T2 p o d X R. subst p1 h1. split.
  { split; [vm_compute; split; [lia|left; reflexivity]|]. split; [vm_compute; split; [lia|right; lia]|].
    split; [vm_compute; split; [lia|right; lia]|]. split; [left; reflexivity|]. split; [right; left; vm_compute; discriminate|].
    split; right; left; apply Nat.ltb_lt; reflexivity. }
  split; [vm_compute; reflexivity|]. split; [vm_compute; reflexivity|].
  do 2 eexists. split; [vm_compute; reflexivity|]. split; vm_compute; reflexivity.
Qed.

(** ** C46 *)
Theorem C46_auth_option : forall h p fuel, tcp_agrees h p -> (256 <= fuel)%nat ->
  let b := rd h (Buffer p) in let o := hl p in
  (4 * tcp_offset b o <= 20 -> CheckTCPAuthenticationOption fuel h p = Ok (Some errTCPAuthOption)) /\
  (20 < 4 * tcp_offset b o -> zlen b < Z.of_nat o + 4 * tcp_offset b o ->
     CheckTCPAuthenticationOption fuel h p = Ok (Some errInvalidTCP)) /\
  (20 < 4 * tcp_offset b o -> Z.of_nat o + 4 * tcp_offset b o <= zlen b ->
     exists a, auth_walk (tcp_options b o) a /\ CheckTCPAuthenticationOption fuel h p = Ok (auth_error a)).
Proof. exact auth_option. Qed.
Print Assumptions C46_auth_option.
(** the walk has one answer, so the call answers exactly *)
Theorem C46_walk_deterministic : forall b a, auth_walk b a -> forall a', auth_walk b a' -> a = a'.
Proof. exact auth_walk_det. Qed.
Print Assumptions C46_walk_deterministic.
Example C46_hypotheses_met :
  tcp_agrees st4 pk4 /\ tcp_options (rd st4 (Buffer pk4)) 20 = [34;4;7;9] /\
  CheckTCPAuthenticationOption 256 st4 pk4 = Ok None /\
  auth_walk [1; 2; 4; 0; 0; 34; 9] AuthFound /\ auth_walk [3; 0; 34] AuthBadLength /\ auth_walk [0; 7] AuthMissing.
Proof.
  split; [apply tcp4_state|]. split; [vm_compute; reflexivity|]. split; [vm_compute; reflexivity|]. split.
  { apply aw_pad; [auto|]. apply aw_skip; try lia. cbn. apply aw_found. }
  split; [apply aw_zero; lia|]. apply aw_pad; [auto|]. apply aw_cut; lia.
Qed.

(** ** C54 *)
Theorem C54_fin_ack : forall h p, tcp_agrees h p -> 5 <= tcpDataOffset p -> (payload_at p <= s_len (Buffer p))%nat ->
  exists p' h', ConvertAcktoFinAck h p = Ok (p', h') /\ tcp_agrees h' p' /\
    GetTCPFlags p' = 17 /\ tcp_flags (GetTCPBytes h' p') (hl p) = 17 /\
    length (GetTCPBytes h' p') = payload_at p /\
    (forall k, (k < payload_at p)%nat -> ~ ip_len_bytes (version p) k -> k <> (hl p + 12)%nat -> k <> (hl p + 13)%nat ->
       nth k (GetTCPBytes h' p') 0 = nth k (rd h (Buffer p)) 0) /\
    tcp_offset (GetTCPBytes h' p') (hl p) = tcp_offset (rd h (Buffer p)) (hl p) /\
    IPTotalLen p' = (IPTotalLen p - payload_len p) mod 65536 /\
    (version p = V4 -> ip4_valid (rd h (Buffer p)) -> ip4_valid (GetTCPBytes h' p')) /\
    GetTCPData h' p' = [] /\ GetTCPOptions h' p' = [] /\
    only_bytes h h' (Buffer p) (fun k => ip_len_bytes (version p) k \/ k = hl p + 12 \/ k = hl p + 13)%nat.
Proof. exact fin_ack. Qed.
Print Assumptions C54_fin_ack.
Example C54_hypotheses_met :
  tcp_agrees st4 pk4 /\ tcpDataOffset pk4 = 6 /\ payload_at pk4 = 44%nat /\ s_len (Buffer pk4) = 48%nat /\
  ip4_valid (rd st4 (Buffer pk4)) /\
  exists p' h', ConvertAcktoFinAck st4 pk4 = Ok (p', h') /\ IPTotalLen p' = 44 /\ VerifyIPv4Checksum h' p' = Ok (true, h').
Proof.
  split; [apply tcp4_state|]. do 4 (split; [vm_compute; reflexivity|]).
  do 2 eexists. split; [vm_compute; reflexivity|]. split; vm_compute; reflexivity.
Qed.

(** ** C55: the letters are U A P R S F and '.' *)
Theorem C55_flags_text : forall f, 0 <= f < 256 ->
  exists u a p r s n, TCPFlagsToStr f = [u; a; p; r; s; n] /\
    u = (if Z.testbit f 5 then 85 else 46) /\ a = (if Z.testbit f 4 then 65 else 46) /\ p = (if Z.testbit f 3 then 80 else 46) /\
    r = (if Z.testbit f 2 then 82 else 46) /\ s = (if Z.testbit f 1 then 83 else 46) /\ n = (if Z.testbit f 0 then 70 else 46).
Proof. exact flags_text. Qed.
Print Assumptions C55_flags_text.
Theorem C55_flags_text_equal : forall f g, 0 <= f < 256 -> 0 <= g < 256 ->
  TCPFlagsToStr f = TCPFlagsToStr g <-> f mod 64 = g mod 64.
Proof. exact flags_text_equal. Qed.
Print Assumptions C55_flags_text_equal.
Example C55_hypotheses_met : TCPFlagsToStr 18 = [46; 65; 46; 46; 83; 46].
Proof. reflexivity. Qed.
