(** C44 and C49, exactly: what an attach emits when the pieces given share memory. *)
From Verif Require Import Spec.PktSamples Proof.Overlap Properties.P_PktOps Properties.P_PktTcp Properties.P_PktUdp.

(** ** C49 *)
(** For every header and data, wherever they live: the new payload is the header followed
    by what the data shows once the header has been appended to the packet's headers;
    everything else is as required. *)
Theorem C49_attach_exact_partial : forall grow h p hd d, udp_agrees h p -> valid h hd -> valid h d ->
  is_bytes (rd h hd) -> is_bytes (rd h d) ->
  Z.of_nat (hl p) + 8 + zlen (rd h hd ++ rd h d) < 65536 ->
  (version p = V4 -> ip4_valid (rd h (Buffer p))) ->
  exists p1 p2 h2 s r, UDPDataDetach p = Ok p1 /\ UDPDataAttach grow h p1 hd d = Ok (p2, h2) /\ udp_agrees h2 p2 /\
    shown_after h (win (Buffer p) 0 (hl p + 8) (s_cap (Buffer p))) (rd h hd) d r /\
    GetUDPData p2 = Ok s /\ rd h2 s = rd h hd ++ r /\
    version p2 = version p /\ SourceAddress p2 = SourceAddress p /\ DestinationAddress p2 = DestinationAddress p /\
    SourcePort p2 = SourcePort p /\ DestPort p2 = DestPort p /\
    IPTotalLen p2 = zlen (rd h2 (Buffer p2)) /\
    udp_complete (version p) (rd h2 (Buffer p2)) /\ header_kept h h2 p p2.
Proof. exact data_replaced_exact. Qed.
Print Assumptions C49_attach_exact_partial.
(** ... so the payload is what was given exactly when the header bytes that land on the
    data are the ones already there. *)
Theorem C49_right_iff_harmless : forall grow h p hd d, udp_agrees h p -> valid h hd -> valid h d ->
  is_bytes (rd h hd) -> is_bytes (rd h d) ->
  Z.of_nat (hl p) + 8 + zlen (rd h hd ++ rd h d) < 65536 ->
  (version p = V4 -> ip4_valid (rd h (Buffer p))) ->
  exists p1 p2 h2 s, UDPDataDetach p = Ok p1 /\ UDPDataAttach grow h p1 hd d = Ok (p2, h2) /\ GetUDPData p2 = Ok s /\
    (rd h2 s = rd h hd ++ rd h d <-> harmless h (win (Buffer p) 0 (hl p + 8) (s_cap (Buffer p))) (rd h hd) d).
Proof.
  intros grow h p hd d T VH VD IH ID LL W.
  destruct (data_replaced_exact grow h p hd d T VH VD IH ID LL W) as (p1 & p2 & h2 & s & r & A & B & _ & C & D & E & _).
  exists p1, p2, h2, s. split; [exact A|]. split; [exact B|]. split; [exact D|].
  rewrite <- (shown_same _ _ _ _ _ VD C), E. split; [apply app_inv_head|congruence].
Qed.
Print Assumptions C49_right_iff_harmless.
(** Prefixing a header to the packet's own payload: whenever it fits into the packet's
    memory, the payload's first bytes are replaced by the header. *)
Theorem C49_own_payload_refuted : forall grow h p hd d, udp_agrees h p -> valid h hd -> GetUDPData p = Ok d ->
  is_bytes (rd h hd) ->
  Z.of_nat (hl p) + 8 + zlen (rd h hd ++ rd h d) < 65536 ->
  (version p = V4 -> ip4_valid (rd h (Buffer p))) ->
  exists p1 p2 h2 s, UDPDataDetach p = Ok p1 /\ UDPDataAttach grow h p1 hd d = Ok (p2, h2) /\ GetUDPData p2 = Ok s /\
    rd h2 s = rd h hd ++
      if (hl p + 8 + length (rd h hd) <=? s_cap (Buffer p))%nat
      then firstn (length (rd h d)) (rd h hd ++ skipn (length (rd h hd)) (rd h d)) else rd h d.
Proof.
  intros grow h p hd d T VH GD IH LL W. pose proof (udp_data_slice h p d T GD) as ED.
  destruct (data_of_packet h p T) as (d' & GD' & RD). rewrite GD in GD'. injection GD' as <-.
  pose proof T as (A & _ & L & _). facts A. rewrite LB in L. pose proof A as (VB & IB & _).
  assert (VD : valid h d).
  { rewrite ED. destruct VB as [Y1 [Y2|[Y2 Y3]]]; split; cbn [win s_len s_cap s_arr s_off]; [lia|left; lia|lia|right; split; [exact Y2|lia]]. }
  assert (ID : is_bytes (rd h d)) by (rewrite RD; apply is_bytes_skipn, IB).
  destruct (data_replaced_exact grow h p hd d T VH VD IH ID LL W) as (p1 & p2 & h2 & s & r & A1 & B & _ & C & D & E & _).
  exists p1, p2, h2, s. split; [exact A1|]. split; [exact B|]. split; [exact D|]. rewrite E. f_equal.
  rewrite (shown_adjacent _ _ _ _ _ VD C) by (rewrite ED; cbn [win s_arr s_off s_len]; lia).
  rewrite (valid_len h d VD). cbn [win s_len s_cap]. reflexivity.
Qed.
Print Assumptions C49_own_payload_refuted.
(** the sample packet, header [9;9]: [1;2;3;4] becomes [9;9;3;4] *)
Example C49_exact_hypotheses_met : let h := [udp4_sample; [9; 9]] in let p := snd u4 in let hd := mkSl 1 0 2 2 in
  udp_agrees h p /\ valid h hd /\ is_bytes (rd h hd) /\
  exists d, GetUDPData p = Ok d /\ rd h d = [1; 2; 3; 4] /\ valid h d /\ is_bytes (rd h d) /\ ip4_valid (rd h (Buffer p)) /\
    (hl p + 8 + length (rd h hd) <=? s_cap (Buffer p))%nat = true /\
    ~ harmless h (win (Buffer p) 0 (hl p + 8) (s_cap (Buffer p))) (rd h hd) d /\
    firstn (length (rd h d)) (rd h hd ++ skipn (length (rd h hd)) (rd h d)) = [9; 9; 3; 4].
Proof.
  intros h p hd. split; [udp_state_tac (mkSl 0 0 32 32)|]. split; [vm_compute; split; [lia|right; lia]|].
  split; [unfold h, hd; bytes_tac|]. eexists. split; [vm_compute; reflexivity|]. split; [vm_compute; reflexivity|].
  split; [vm_compute; split; [lia|right; lia]|]. split; [bytes_tac|]. split; [vm_compute; reflexivity|].
  split; [vm_compute; reflexivity|]. split; [|vm_compute; reflexivity].
  intros H. specialize (H 0%nat). vm_compute in H.
  assert (X : 9 = 1) by (apply H; [lia|split; [lia|split; [reflexivity|lia]]]). discriminate X.
Qed.

(** ** C44 *)
(** For every data, wherever it lives (outside the packet itself): attaching keeps the
    options held and adds the new ones; the data emitted is what the given slice shows
    once the new options have been appended to the held ones. *)
Theorem C44_attach_exact_partial : forall grow h p o d, tcp_agrees h p ->
  valid h (tcpOptions p) -> valid h o -> valid h d -> apart (Buffer p) (tcpOptions p) -> apart (Buffer p) d ->
  append_safe (tcpOptions p) (s_len o) (Buffer p) ->
  (s_len o = 0%nat \/ s_len (Buffer p) = payload_at p) ->
  tcpDataOffset p + zlen (rd h o) / 4 < 16 ->
  exists p' h' r, TCPDataAttach grow h p o d = Ok (p', h', None) /\ tcp_agrees h' p' /\ Buffer p' = Buffer p /\
    shown_after h (tcpOptions p) (rd h o) d r /\
    GetTCPBytes h' p' = rd h' (Buffer p) ++ rd h (tcpOptions p) ++ rd h o ++ r /\
    GetTCPOptions h' p' = rd h (tcpOptions p) ++ rd h o /\ GetTCPData h' p' = r /\
    (forall k, (k < s_len (Buffer p))%nat -> ~ ip_len_bytes (version p) k -> k <> (hl p + 12)%nat ->
       nth k (rd h' (Buffer p)) 0 = nth k (rd h (Buffer p)) 0) /\
    tcp_offset (GetTCPBytes h' p') (hl p) = tcp_offset (rd h (Buffer p)) (hl p) + zlen (rd h o) / 4 /\
    IPTotalLen p' = (IPTotalLen p + zlen (rd h o ++ rd h d)) mod 65536 /\
    (version p = V4 -> ip4_valid (rd h (Buffer p)) -> ip4_valid (GetTCPBytes h' p')).
Proof. exact attach_emits_exact. Qed.
Print Assumptions C44_attach_exact_partial.
Theorem C44_right_iff_harmless : forall grow h p o d, tcp_agrees h p ->
  valid h (tcpOptions p) -> valid h o -> valid h d -> apart (Buffer p) (tcpOptions p) -> apart (Buffer p) d ->
  append_safe (tcpOptions p) (s_len o) (Buffer p) ->
  (s_len o = 0%nat \/ s_len (Buffer p) = payload_at p) ->
  tcpDataOffset p + zlen (rd h o) / 4 < 16 ->
  exists p' h', TCPDataAttach grow h p o d = Ok (p', h', None) /\
    (GetTCPData h' p' = rd h d <-> harmless h (tcpOptions p) (rd h o) d).
Proof.
  intros grow h p o d T VO Vo Vd AO AD SB PL OF.
  destruct (attach_emits_exact grow h p o d T VO Vo Vd AO AD SB PL OF) as (p' & h' & r & A & _ & _ & C & _ & _ & D & _).
  exists p', h'. split; [exact A|]. rewrite D. apply shown_same; auto.
Qed.
Print Assumptions C44_right_iff_harmless.
(** Refuted for every packet with payload: detach some of its options with the data, attach other
    options with the data just detached.  Whenever they fit into the packet's memory,
    the first bytes of the data are replaced by the new options. *)
Theorem C44_own_data_refuted : forall grow h p ol o, tcp_agrees h p -> 0 < ol -> ol mod 4 = 0 -> 20 + ol <= 4 * tcpDataOffset p ->
  (payload_at p < s_len (Buffer p))%nat -> valid h o -> apart (Buffer p) o ->
  tcpDataOffset p - ol / 4 + zlen (rd h o) / 4 < 16 ->
  exists p1 h1 p2 h2, TCPDataDetach h p ol = Ok (p1, h1) /\
    GetTCPData h1 p1 = skipn (payload_at p) (rd h (Buffer p)) /\
    TCPDataAttach grow h1 p1 o (tcpData p1) = Ok (p2, h2, None) /\
    GetTCPOptions h2 p2 = GetTCPOptions h1 p1 ++ rd h o /\
    let d := skipn (payload_at p) (rd h (Buffer p)) in
    GetTCPData h2 p2 =
      if (payload_at p + length (rd h o) <=? s_cap (Buffer p))%nat
      then firstn (length d) (rd h o ++ skipn (length (rd h o)) d) else d.
Proof. exact swap_options. Qed.
Print Assumptions C44_own_data_refuted.
Example C44_exact_hypotheses_met :
  let h := st4 ++ [[1; 1; 1; 1]] in let o := mkSl 1 0 4 4 in
  tcp_agrees h pk4 /\ 20 + 4 <= 4 * tcpDataOffset pk4 /\ (payload_at pk4 < s_len (Buffer pk4))%nat /\
  valid h o /\ apart (Buffer pk4) o /\ tcpDataOffset pk4 - 4 / 4 + zlen (rd h o) / 4 < 16 /\
  skipn (payload_at pk4) (rd h (Buffer pk4)) = [97; 98; 99; 100].
Proof.
  intros h o. split.
  { apply (new_tcp (st4 ++ [[1; 1; 1; 1]]) 0 (mkSl 0 0 48 48) true).
    - vm_compute. split; [lia|right; lia].
    - bytes_tac.
    - apply Nat.ltb_lt. reflexivity.
    - reflexivity.
    - vm_compute. reflexivity.
    - reflexivity.
    - apply Nat.leb_le. reflexivity. }
  split; [vm_compute; discriminate|]. split; [apply Nat.ltb_lt; reflexivity|].
  split; [vm_compute; split; [lia|right; lia]|]. split; [right; left; vm_compute; discriminate|].
  split; vm_compute; reflexivity.
Qed.
