(** Replacing and dropping the pieces held apart from the packet's buffer: C87. *)
From Verif Require Import Proof.PktView Proof.PktNew Proof.PktParse Spec.PktSamples Properties.P_Packet Properties.P_PktOps Properties.P_PktTcp Properties.P_PktUdp.

(** everything the API shows of a packet besides the two pieces *)
Definition rest_shown (p : packet) :=
  (Buffer p, IPversion p, GetIPLength p, IPHeaderLen p, SourceAddress p, DestinationAddress p,
   SourcePort p, DestPort p, (GetTCPFlags p, tcpSeq p, tcpAck p), TCPDataStartBytes p, (ipChecksum p, tcpChecksum p), L4FlowHash p).
(** what is sent: the buffer, the options, the data *)
Theorem C87_set_data : forall h p d,
  let p' := SetTCPData p d in
  GetTCPData h p' = rd h d /\ GetTCPOptions h p' = GetTCPOptions h p /\
  GetTCPBytes h p' = rd h (Buffer p) ++ GetTCPOptions h p ++ rd h d /\ rest_shown p' = rest_shown p.
Proof. intros h p d p'. unfold p', GetTCPBytes. cbn. rewrite <- ?app_assoc. auto. Qed.
Print Assumptions C87_set_data.
Theorem C87_drop_data : forall h p,
  let p' := DropTCPDetachedDataBytes p in
  GetTCPData h p' = [] /\ GetTCPOptions h p' = GetTCPOptions h p /\
  GetTCPBytes h p' = rd h (Buffer p) ++ GetTCPOptions h p /\ rest_shown p' = rest_shown p.
Proof. intros h p p'. unfold p', GetTCPBytes, GetTCPData, GetTCPOptions. cbn. change (rd h snil) with (@nil Z). rewrite ?app_nil_r. auto. Qed.
Print Assumptions C87_drop_data.
Theorem C87_drop_all : forall h p,
  let p' := DropTCPDetachedBytes p in
  GetTCPData h p' = [] /\ GetTCPOptions h p' = [] /\
  GetTCPBytes h p' = rd h (Buffer p) /\ rest_shown p' = rest_shown p.
Proof. intros h p p'. unfold p', GetTCPBytes, GetTCPData, GetTCPOptions. cbn. change (rd h snil) with (@nil Z). rewrite ?app_nil_r. auto. Qed.
Print Assumptions C87_drop_all.

(** the length the IP header states is that of the bytes sent *)
Definition length_true (h : heap) (p : packet) : Prop := GetIPLength p = zlen (GetTCPBytes h p).
(** None of the three touches the stated length, so it stays true exactly when
    the length of what is sent stays: a replacement must be as long as what it
    replaces, and only nothing can be dropped. *)
Theorem C87_length_stays_true_partial : forall h p, length_true h p -> attached_ok h p ->
  (forall d, valid h d -> (length_true h (SetTCPData p d) <-> s_len d = s_len (tcpData p))) /\
  (length_true h (DropTCPDetachedDataBytes p) <-> s_len (tcpData p) = 0%nat) /\
  (length_true h (DropTCPDetachedBytes p) <-> s_len (tcpData p) = 0%nat /\ s_len (tcpOptions p) = 0%nat).
Proof.
  intros h p LT (VO & VD & _). unfold length_true in *.
  destruct (C87_drop_data h p) as (_ & _ & B1 & _). destruct (C87_drop_all h p) as (_ & _ & B2 & _).
  assert (B0 : zlen (GetTCPBytes h p) = zlen (rd h (Buffer p)) + Z.of_nat (s_len (tcpOptions p)) + Z.of_nat (s_len (tcpData p))).
  { unfold GetTCPBytes, zlen. rewrite !app_length, (valid_len h (tcpOptions p) VO), (valid_len h (tcpData p) VD). lia. }
  assert (O : zlen (GetTCPOptions h p) = Z.of_nat (s_len (tcpOptions p))) by (unfold GetTCPOptions, zlen; now rewrite valid_len).
  split; [|split].
  - intros d V. destruct (C87_set_data h p d) as (_ & _ & B & R). cbv zeta in B, R. rewrite B.
    change (GetIPLength (SetTCPData p d)) with (GetIPLength p). rewrite LT, B0.
    unfold zlen in *. rewrite !app_length, (valid_len h d V). lia.
  - cbv zeta in B1. rewrite B1. change (GetIPLength (DropTCPDetachedDataBytes p)) with (GetIPLength p). rewrite LT, B0.
    unfold zlen in *. rewrite !app_length. lia.
  - cbv zeta in B2. rewrite B2. change (GetIPLength (DropTCPDetachedBytes p)) with (GetIPLength p). rewrite LT, B0.
    unfold zlen in *. lia.
Qed.
Print Assumptions C87_length_stays_true_partial.
(** So "SetTCPData leaves a packet that can be sent" is false: on a packet with
    nothing attached (every packet as parsed) any non-empty data breaks it. *)
Theorem C87_length_false_refuted : forall h p d, length_true h p -> attached_ok h p ->
  s_len (tcpData p) = 0%nat -> valid h d -> (0 < s_len d)%nat ->
  GetIPLength (SetTCPData p d) <> zlen (GetTCPBytes h (SetTCPData p d)).
Proof.
  intros h p d LT AT N V P X. destruct (C87_length_stays_true_partial h p LT AT) as (S & _).
  apply (S d V) in X. lia.
Qed.
Print Assumptions C87_length_false_refuted.
Example C87_hypotheses_met :
  length_true st4 pk4 /\ attached_ok st4 pk4 /\ s_len (tcpData pk4) = 0%nat /\
  valid st4 (mkSl 0 40 3 3) /\ GetIPLength (SetTCPData pk4 (mkSl 0 40 3 3)) = 48 /\
  zlen (GetTCPBytes st4 (SetTCPData pk4 (mkSl 0 40 3 3))) = 51.
Proof.
  split; [vm_compute; reflexivity|]. split; [apply tcp4_state|]. split; [vm_compute; reflexivity|].
  split; [vm_compute; split; [lia|right; lia]|]. split; vm_compute; reflexivity.
Qed.
