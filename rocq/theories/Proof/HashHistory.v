(** The flow hash through any history of calls (C53). *)
From Verif Require Export Proof.PktHistory.

(** what no call but Reverse touches *)
Definition same_head (p q : packet) : Prop :=
  l4flowhash q = l4flowhash p /\ ipProto q = ipProto p /\ sourceAddress q = sourceAddress p /\
  destinationAddress q = destinationAddress p /\ tcpSourcePort q = tcpSourcePort p /\
  tcpDestinationPort q = tcpDestinationPort p /\ udpSourcePort q = udpSourcePort p /\
  udpDestinationPort q = udpDestinationPort p.

Ltac unbind H :=
  repeat first
    [ discriminate H
    | match type of H with
      | rbind ?x _ = Ok _ => let E := fresh "E" in destruct x eqn:E; cbn [rbind] in H; try discriminate H
      | (let '(_, _) := ?x in _) = Ok _ => destruct x
      | (match ?x with V4 => _ | V6 => _ end) = Ok _ => destruct x
      | (match ?x with Some _ => _ | None => _ end) = Ok _ => destruct x
      | (if ?x then _ else _) = Ok _ => destruct x
      end ].
Lemma same_head_refl p : same_head p p.
Proof. unfold same_head. auto 9. Qed.
Lemma same_head_trans p q r : same_head p q -> same_head q r -> same_head p r.
Proof. unfold same_head. intuition congruence. Qed.
Ltac sh := unfold same_head; auto 9.

Lemma fixup_head h p o n p' h' : FixupIPHdrOnDataModify h p o n = Ok (p', h') -> same_head p p'.
Proof. unfold FixupIPHdrOnDataModify. intros H. unbind H; injection H as <- _; sh. Qed.
Lemma upd4_head h p p' h' : UpdateIPv4Checksum h p = Ok (p', h') -> same_head p p'.
Proof. unfold UpdateIPv4Checksum. intros H. unbind H; injection H as <- _; sh. Qed.
Lemma upd6_head h p p' h' : updateUDPv6Checksum h p = Ok (p', h') -> same_head p p'.
Proof. unfold updateUDPv6Checksum. intros H. unbind H; injection H as <- _; sh. Qed.
Lemma fixudp_head h p p' h' : fixupUDPChecksum h p = Ok (p', h') -> same_head p p'.
Proof.
  unfold fixupUDPChecksum. intros H. destruct (version p); [|now apply (upd6_head h p p' h')].
  unbind H; injection H as <- _; sh.
Qed.
Lemma detach_head h p ol p' h' : TCPDataDetach h p ol = Ok (p', h') -> same_head p p'.
Proof.
  unfold TCPDataDetach, tcpDataDetach, FixuptcpHdrOnTCPDataDetach. intros H.
  destruct (resl_from _ _) in H; cbn [rbind] in H; try discriminate H.
  match type of H with context [rbind ?x _] => destruct x as [p1| |] eqn:E1; cbn [rbind] in H; try discriminate H end.
  assert (S1 : same_head p p1) by (unbind E1; injection E1 as <-; sh). clear E1.
  match type of H with rbind ?x _ = _ => destruct x as [[p2 h2]| |] eqn:E2; cbn [rbind] in H; try discriminate H end.
  assert (S2 : same_head p1 p2) by (unbind E2; injection E2 as <- _; sh). clear E2.
  apply fixup_head in H. eauto using same_head_trans.
Qed.
Lemma attach_head grow h p o d p' h' e : TCPDataAttach grow h p o d = Ok (p', h', e) -> same_head p p'.
Proof.
  unfold TCPDataAttach, tcpDataAttach, FixuptcpHdrOnTCPDataAttach. intros H.
  match type of H with rbind ?x _ = _ => destruct x as [[[p1 h1] e1]| |] eqn:E1; cbn [rbind] in H; try discriminate H end.
  assert (S1 : same_head p p1).
  { destruct (resl_from _ _) in E1; cbn [rbind] in E1; try discriminate E1.
    destruct (_ && _) in E1; [injection E1 as <- _ _; sh|]. destruct (gappend _ _ _ _) in E1. injection E1 as <- _ _. sh. }
  clear E1. destruct e1; [injection H as <- _ _; exact S1|]. cbv zeta in H.
  match type of H with rbind ?x _ = _ => destruct x as [[p2 h2]| |] eqn:E2; cbn [rbind] in H; try discriminate H end.
  apply fixup_head in E2.
  match type of H with rbind ?x _ = _ => destruct x as [[p3 h3]| |] eqn:E3; cbn [rbind] in H; try discriminate H end.
  assert (S3 : same_head p2 p3) by (unbind E3; injection E3 as <- _; sh).
  injection H as <- _ _. eauto using same_head_trans.
Qed.
Lemma tcp_head grow c h p p' h' : make_call grow c h p = Ok (p', h') -> same_head p p'.
Proof.
  intros H. destruct c; cbn [make_call] in H.
  - unfold IncreaseTCPSeq in H. unbind H; injection H as <- _; sh.
  - unfold DecreaseTCPSeq in H. unbind H; injection H as <- _; sh.
  - unfold IncreaseTCPAck in H. unbind H; injection H as <- _; sh.
  - unfold DecreaseTCPAck in H. unbind H; injection H as <- _; sh.
  - now apply upd4_head in H.
  - unbind H; injection H as <- _; sh.
  - unfold UpdateTCPChecksum in H. unbind H; injection H as <- _; sh.
  - unbind H; injection H as <- _; sh.
  - now apply detach_head in H.
  - destruct (TCPDataAttach _ _ _ _ _) as [[[p1 h1] e]| |] eqn:E in H; cbn [rbind fst] in H; try discriminate H.
    injection H as <- _. now apply attach_head in E.
  - unfold ConvertAcktoFinAck in H. destruct (updateTCPFlags _ _ _) in H; cbn [rbind] in H; try discriminate H.
    destruct (TCPDataDetach _ _ _) as [[q hq]| |] eqn:E in H; cbn [rbind] in H; try discriminate H.
    apply detach_head in E. injection H as <- _. apply (same_head_trans _ q); [|sh].
    exact E.
  - injection H as <- _. sh.
  - injection H as <- _. sh.
  - injection H as <- _. sh.
Qed.

(** what Reverse does *)
Definition swapped_head (p q : packet) : Prop :=
  l4flowhash q = l4flowhash p /\ ipProto q = ipProto p /\ sourceAddress q = destinationAddress p /\
  destinationAddress q = sourceAddress p /\ tcpSourcePort q = tcpSourcePort p /\
  tcpDestinationPort q = tcpDestinationPort p /\ udpSourcePort q = udpDestinationPort p /\
  udpDestinationPort q = udpSourcePort p.
Lemma reverse_head h p p' h' : CreateReverseFlowPacket h p = Ok (p', h') -> swapped_head p p'.
Proof.
  unfold CreateReverseFlowPacket. intros H.
  match type of H with rbind ?x _ = _ => destruct x as [h1| |]; cbn [rbind] in H; try discriminate H end.
  match type of H with rbind ?x _ = _ => destruct x as [b1| |]; cbn [rbind] in H; try discriminate H end.
  match type of H with rbind ?x _ = _ => destruct x as [h2| |]; cbn [rbind] in H; try discriminate H end.
  match type of H with rbind ?x _ = _ => destruct x as [h3| |]; cbn [rbind] in H; try discriminate H end.
  match type of H with rbind ?x _ = _ => destruct x as [b2| |]; cbn [rbind] in H; try discriminate H end.
  match type of H with rbind ?x _ = _ => destruct x as [[p2 h4]| |] eqn:E2; cbn [rbind] in H; try discriminate H end.
  apply fixup_head in E2.
  match type of H with rbind ?x _ = _ => destruct x as [[p3 h5]| |] eqn:E3; cbn [rbind] in H; try discriminate H end.
  assert (S3 : same_head p2 p3).
  { destruct (version p2); [now apply upd4_head in E3|]. injection E3 as <- _. sh. }
  match type of H with rbind ?x _ = _ => destruct x as [h6| |]; cbn [rbind] in H; try discriminate H end.
  apply fixudp_head in H.
  unfold swapped_head, same_head in *. cbn in E2. intuition congruence.
Qed.
Lemma call_head grow c h p p' h' : make_packet_call grow c h p = Ok (p', h') ->
  if is_reverse c then swapped_head p p' else same_head p p'.
Proof.
  intros H. destruct c; cbn [make_packet_call is_reverse] in *.
  - now apply tcp_head in H.
  - injection H as <- _. sh.
  - unfold UDPTokenAttach in H. destruct (gappend _ _ _ _) in H. destruct (gappend _ _ _ _) in H.
    match type of H with context [rbind ?x _] => destruct x as [[p2 h4]| |] eqn:E2; cbn [rbind] in H; try discriminate H end.
    apply fixup_head in E2. destruct (gappend _ _ _ _) in H.
    match type of H with context [rbind ?x _] => destruct x as [h6| |]; cbn [rbind] in H; try discriminate H end.
    apply fixudp_head in H. unfold same_head in *. cbn in E2, H. intuition congruence.
  - unfold UDPDataAttach in H. destruct (gappend _ _ _ _) in H. destruct (gappend _ _ _ _) in H.
    match type of H with context [rbind ?x _] => destruct x as [[p2 h4]| |] eqn:E2; cbn [rbind] in H; try discriminate H end.
    apply fixup_head in E2.
    match type of H with context [rbind ?x _] => destruct x as [h6| |]; cbn [rbind] in H; try discriminate H end.
    apply fixudp_head in H. unfold same_head in *. cbn in E2, H. intuition congruence.
  - unfold UDPDataDetach in H. unbind H. injection H as <- _. 
    match goal with E : rbind _ _ = Ok _ |- _ => unbind E; injection E as <- end. sh.
  - now apply reverse_head in H.
Qed.

Lemma reversals_snoc cs c : reversals (cs ++ [c]) = (reversals cs + (if is_reverse c then 1 else 0))%nat.
Proof. unfold reversals. rewrite filter_app, app_length. cbn [filter]. destruct (is_reverse c); cbn [length]; lia. Qed.

Definition flow_shown (p : packet) : bytes * bytes * Z * Z := (sourceAddress p, destinationAddress p, SourcePort p, DestPort p).
Definition flow_turned (p : packet) : bytes * bytes * Z * Z := (destinationAddress p, sourceAddress p, DestPort p, SourcePort p).
Lemma same_head_flow p q : same_head p q -> flow_shown q = flow_shown p /\ flow_turned q = flow_turned p /\ L4FlowHash q = L4FlowHash p /\ IPProto q = IPProto p.
Proof.
  unfold same_head, flow_shown, flow_turned, SourcePort, DestPort, L4FlowHash, IPProto.
  intros (H1 & H2 & H3 & H4 & H5 & H6 & H7 & H8). rewrite H2, H3, H4, H5, H6, H7, H8. auto.
Qed.
Lemma swapped_head_flow p q : IPProto p <> IPProtocolTCP -> swapped_head p q ->
  flow_shown q = flow_turned p /\ flow_turned q = flow_shown p /\ L4FlowHash q = L4FlowHash p /\ IPProto q = IPProto p.
Proof.
  unfold swapped_head, flow_shown, flow_turned, SourcePort, DestPort, L4FlowHash, IPProto.
  intros N (H1 & H2 & H3 & H4 & H5 & H6 & H7 & H8). rewrite H2, H3, H4, H5, H6, H7, H8.
  destruct (Z.eqb_spec (ipProto p) IPProtocolTCP); [congruence|]. auto.
Qed.
Lemma hash_of_flow p q : flow_shown p = flow_shown q -> l4FlowHash p = l4FlowHash q.
Proof. unfold flow_shown, l4FlowHash. intros E. injection E as -> -> -> ->. reflexivity. Qed.
Lemma hash_of_turned p q : flow_shown p = flow_turned q -> l4FlowHash p = L4ReverseFlowHash q.
Proof. unfold flow_shown, flow_turned, l4FlowHash, L4ReverseFlowHash. intros E. injection E as -> -> -> ->. reflexivity. Qed.

Lemma hash_history grow h0 p0 : L4FlowHash p0 = l4FlowHash p0 -> forall cs h p, made grow h0 p0 cs h p ->
  (IPProto p0 <> IPProtocolTCP \/ reversals cs = 0%nat) ->
  L4FlowHash p = if Nat.even (reversals cs) then l4FlowHash p else L4ReverseFlowHash p.
Proof.
  intros H0.
  assert (G : forall cs h p, made grow h0 p0 cs h p -> (IPProto p0 <> IPProtocolTCP \/ reversals cs = 0%nat) ->
    L4FlowHash p = L4FlowHash p0 /\ IPProto p = IPProto p0 /\
    if Nat.even (reversals cs) then flow_shown p = flow_shown p0 /\ flow_turned p = flow_turned p0
    else flow_shown p = flow_turned p0 /\ flow_turned p = flow_shown p0).
  { intros cs h p M. induction M as [|cs h p c h' p' M IH E]; intros PR.
    - cbn. auto.
    - rewrite reversals_snoc in *. pose proof (call_head grow c h p p' h' E) as CH.
      destruct (is_reverse c) eqn:RC.
      + assert (N : IPProto p0 <> IPProtocolTCP) by (destruct PR; [assumption|lia]).
        destruct (IH (or_introl N)) as (I1 & I2 & I3).
        destruct (swapped_head_flow p p' ltac:(congruence) CH) as (J1 & J2 & J3 & J4).
        rewrite Nat.add_1_r, Nat.even_succ, <- Nat.negb_even.
        split; [congruence|]. split; [congruence|].
        destruct (Nat.even (reversals cs)); cbn [negb]; destruct I3; split; congruence.
      + rewrite Nat.add_0_r in *. destruct (IH PR) as (I1 & I2 & I3).
        destruct (same_head_flow p p' CH) as (J1 & J2 & J3 & J4).
        split; [congruence|]. split; [congruence|].
        destruct (Nat.even (reversals cs)); destruct I3; split; congruence. }
  intros cs h p M PR. destruct (G cs h p M PR) as (I1 & _ & I3). rewrite I1, H0.
  destruct (Nat.even (reversals cs)); destruct I3 as (F1 & F2).
  - symmetry. now apply hash_of_flow.
  - apply hash_of_turned. congruence.
Qed.

(** New computes the hash of what it shows *)
Lemma transport_facts h p bs q e : parse_transport h p bs = Ok (q, e) ->
  ipTotalLength q = ipTotalLength p /\ Buffer q = Buffer p /\ (e = None -> L4FlowHash q = l4FlowHash q).
Proof.
  unfold parse_transport. intros H.
  destruct ((ipProto p =? IPProtocolTCP) && _) in H.
  { injection H as <- <-. split; [reflexivity|]. split; [reflexivity|discriminate]. }
  match type of H with rbind ?x _ = _ => destruct x as [p1| |] eqn:E1; cbn [rbind] in H; try discriminate H end.
  assert (S1 : ipTotalLength p1 = ipTotalLength p /\ Buffer p1 = Buffer p).
  { destruct (ipProto p =? IPProtocolTCP); [|injection E1 as <-; auto].
    unfold parseTCP in E1. unbind E1. injection E1 as <-. auto. }
  clear E1. destruct ((ipProto p1 =? IPProtocolUDP) && _) in H.
  { injection H as <- <-. split; [apply S1|]. split; [apply S1|discriminate]. }
  match type of H with rbind ?x _ = _ => destruct x as [p2| |] eqn:E2; cbn [rbind] in H; try discriminate H end.
  assert (S2 : ipTotalLength p2 = ipTotalLength p1 /\ Buffer p2 = Buffer p1).
  { destruct (ipProto p1 =? IPProtocolUDP); [|injection E2 as <-; auto].
    unfold parseUDP in E2. unbind E2. injection E2 as <-. auto. }
  injection H as <- <-. destruct S1, S2. split; [cbn; congruence|]. split; [cbn; congruence|]. intros _. reflexivity.
Qed.
Lemma new_hash h ctx s v p : New h ctx s v = Ok (Some p, None) -> L4FlowHash p = l4FlowHash p.
Proof.
  unfold New. intros H. destruct (_ <? _) in H; [discriminate H|].
  destruct (sidx _ _ _) in H; cbn [rbind] in H; try discriminate H.
  match type of H with rbind ?x _ = _ => destruct x as [[q e]| |] eqn:E1; cbn [rbind fst snd] in H; try discriminate H end.
  injection H as -> ->.
  destruct (_ =? 64) in E1.
  - unfold parseIPv4Packet in E1. unbind E1; try (injection E1 as _ E1; discriminate E1); now apply transport_facts in E1 as (_ & _ & ?); auto.
  - unfold parseIPv6Packet in E1. unbind E1; try (injection E1 as _ E1; discriminate E1); now apply transport_facts in E1 as (_ & _ & ?); auto.
Qed.
(** with validation the stated length is the length held *)
Lemma new_total h ctx s p : Z.of_nat (s_len s) < 65536 -> New h ctx s true = Ok (Some p, None) ->
  (0 <= ipTotalLength p) -> IPTotalLen p = Z.of_nat (s_len (Buffer p)).
Proof.
  unfold New. intros LS H R. destruct (_ <? _) in H; [discriminate H|].
  destruct (sidx _ _ _) in H; cbn [rbind] in H; try discriminate H.
  match type of H with rbind ?x _ = _ => destruct x as [[q e]| |] eqn:E1; cbn [rbind fst snd] in H; try discriminate H end.
  injection H as -> ->. unfold IPTotalLen.
  assert (X : forall (q : packet) bs tl, ipTotalLength q = tl -> s_len bs = s_len s ->
    (if true && negb (tl =? u16 (Z.of_nat (s_len bs))) then False else True) -> ipTotalLength q = Z.of_nat (s_len bs)).
  { intros q0 bs tl E EL C. cbn [andb] in C. unfold u16 in C. destruct (Z.eqb_spec tl (Z.of_nat (s_len bs) mod 65536)); [|destruct C].
    rewrite Z.mod_small in *; lia. }
  destruct (_ =? 64) in E1.
  - unfold parseIPv4Packet in E1. destruct (_ <? _) in E1; [discriminate E1|].
    do 7 (match type of E1 with rbind ?x _ = _ => destruct x; cbn [rbind] in E1; try discriminate E1 end).
    destruct (negb _) in E1; [discriminate E1|].
    match type of E1 with (if ?c then _ else _) = _ => destruct c eqn:C end.
    + match type of E1 with (if ?c then _ else _) = _ => destruct c; [|discriminate E1] end.
      unfold resl_to in E1. destruct (reslice _ _ _) as [b| |] eqn:RS in E1; cbn [rbind] in E1; try discriminate E1.
      apply transport_facts in E1 as (T & B & _). cbn in T, B. rewrite B. unfold reslice in RS.
      destruct (_ && _) in RS; [|discriminate RS]. injection RS as <-. cbn [s_len]. lia.
    + apply transport_facts in E1 as (T & B & _). rewrite B. cbn [Buffer with_buffer].
      apply (X p s (ipTotalLength p)); auto. rewrite T. cbn [ipTotalLength with_buffer with_ip] in *.
      cbn [andb] in C |- *. rewrite C. exact I.
  - unfold parseIPv6Packet in E1.
    do 4 (match type of E1 with rbind ?x _ = _ => destruct x; cbn [rbind] in E1; try discriminate E1 end).
    match type of E1 with (if ?c then _ else _) = _ => destruct c eqn:C end.
    + match type of E1 with (if ?c then _ else _) = _ => destruct c; [|discriminate E1] end.
      unfold resl_to in E1. destruct (reslice _ _ _) as [b| |] eqn:RS in E1; cbn [rbind] in E1; try discriminate E1.
      destruct (parseTCP _ _ _) as [pt| |] eqn:PT in E1; cbn [rbind] in E1; try discriminate E1.
      apply transport_facts in E1 as (T & B & _). unfold parseTCP in PT. unbind PT. injection PT as <-.
      cbn in T, B. rewrite B. unfold reslice in RS.
      destruct (_ && _) in RS; [|discriminate RS]. injection RS as <-. cbn [s_len]. unfold u16 in *. lia.
    + apply transport_facts in E1 as (T & B & _). rewrite B. cbn [Buffer with_buffer].
      apply (X p s (ipTotalLength p)); auto. rewrite T. cbn [ipTotalLength with_buffer with_ip] in *.
      cbn [andb] in C |- *. rewrite C. exact I.
Qed.
