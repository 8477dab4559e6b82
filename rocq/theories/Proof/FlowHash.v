(** Flow hashes. *)
From Verif Require Export Proof.PktControl.

(** the cached hash is the hash of the fields when New returns *)
Lemma transport_hash h p s p' : parse_transport h p s = Ok (p', None) -> l4flowhash p' = l4FlowHash p'.
Proof.
  unfold parse_transport. intros E.
  destruct ((ipProto p =? IPProtocolTCP) && _); [discriminate|].
  destruct (if ipProto p =? IPProtocolTCP then parseTCP h p s else Ok p) as [p1| |]; cbn [rbind] in E; try discriminate.
  destruct ((ipProto p1 =? IPProtocolUDP) && _); [discriminate|].
  destruct (if ipProto p1 =? IPProtocolUDP then parseUDP h p1 s else Ok p1) as [p2| |]; cbn [rbind] in E; try discriminate.
  assert (p' = with_hash p2 (l4FlowHash p2)) by congruence. subst p'. reflexivity.
Qed.
Lemma new_hash : forall h ctx s v p, New h ctx s v = Ok (Some p, None) -> L4FlowHash p = l4FlowHash p.
Proof.
  intros h ctx s v p E. unfold New in E. cbv zeta in E. destruct (Z.of_nat (s_len s) <? ipv4HdrLenPos); [discriminate|].
  destruct (sidx h s ipv4HdrLenPos) as [b0| |]; cbn [rbind] in E; try discriminate.
  assert (X : exists x, (if Z.land b0 240 =? 64 then parseIPv4Packet h (with_version (zero_packet ctx) V4) s v
              else parseIPv6Packet h (with_version (zero_packet ctx) V6) s v) = Ok x /\ fst x = p /\ snd x = None).
  { destruct (if Z.land b0 240 =? 64 then _ else _) as [x| |]; cbn [rbind] in E; try discriminate. exists x.
    split; [reflexivity|]. split; congruence. }
  clear E. destruct X as ([q e] & E & Q1 & Q2). cbn [fst snd] in *. subst q e. change (L4FlowHash p) with (l4flowhash p).
  destruct (Z.land b0 240 =? 64).
  - unfold parseIPv4Packet in E. destruct (Z.of_nat (s_len s) <? minIPv4HdrSize); [discriminate|].
    repeat match type of E with rbind ?m _ = _ => destruct m; cbn [rbind] in E; try discriminate end.
    cbv zeta in E. destruct (negb _); [discriminate|]. destruct (v && _).
    + destruct (_ <? _); [|discriminate]. destruct (resl_to s _); cbn [rbind] in E; try discriminate. eapply transport_hash, E.
    + eapply transport_hash, E.
  - unfold parseIPv6Packet in E.
    repeat match type of E with rbind ?m _ = _ => destruct m; cbn [rbind] in E; try discriminate end.
    cbv zeta in E. destruct (v && _).
    + destruct (_ <? _); [|discriminate]. destruct (resl_to s _); cbn [rbind] in E; try discriminate.
      destruct (parseTCP _ _ _); cbn [rbind] in E; try discriminate. eapply transport_hash, E.
    + eapply transport_hash, E.
Qed.

(** ** Unique readability *)
Lemma split_first (c : Z) x y x' y' : ~ In c x -> ~ In c x' -> x ++ c :: y = x' ++ c :: y' -> x = x' /\ y = y'.
Proof.
  revert x'. induction x as [|a x IH]; intros [|a' x'] N N' E; cbn in *.
  - injection E as E. auto.
  - injection E as E1 E2. exfalso. apply N'. now left.
  - injection E as E1 E2. exfalso. apply N. now left.
  - injection E as -> E2. destruct (IH x') as [-> ->]; auto.
Qed.
Lemma split_last (c : Z) x y x' y' : ~ In c y -> ~ In c y' -> x ++ c :: y = x' ++ c :: y' -> x = x' /\ y = y'.
Proof.
  intros N N' E. apply (f_equal (@rev Z)) in E. rewrite !rev_app_distr in E. cbn [rev] in E. rewrite <- !app_assoc in E. cbn [app] in E.
  apply split_first in E; [|rewrite <- in_rev; auto..]. destruct E as [E1 E2].
  split; [rewrite <- (rev_involutive x), <- (rev_involutive x'); congruence|rewrite <- (rev_involutive y), <- (rev_involutive y'); congruence].
Qed.
Definition small (n : Z) : Prop := 0 <= n < 10 ^ 20.
Lemma itoa_digits n c : small n -> In c (itoa n) -> 48 <= c <= 57.
Proof. intros H I. destruct (itoa_decimal n H) as (_ & F & _). rewrite Forall_forall in F. apply F, I. Qed.
Lemma itoa_no n c : small n -> c < 48 \/ 57 < c -> ~ In c (itoa n).
Proof. intros H C I. apply itoa_digits in I; [lia|exact H]. Qed.
Lemma itoa_inj m n : small m -> small n -> itoa m = itoa n -> m = n.
Proof.
  intros H1 H2 E. destruct (itoa_decimal m H1) as (_ & _ & V1 & _). destruct (itoa_decimal n H2) as (_ & _ & V2 & _). congruence.
Qed.
Lemma dotted_inj a b c d a' b' c' d' : small a -> small b -> small c -> small d -> small a' -> small b' -> small c' -> small d' ->
  dotted a b c d = dotted a' b' c' d' -> a = a' /\ b = b' /\ c = c' /\ d = d'.
Proof.
  intros H1 H2 H3 H4 H5 H6 H7 H8 E. unfold dotted in E. cbn [app] in E.
  apply split_first in E; [|apply itoa_no; auto; lia..]. destruct E as [E1 E].
  apply split_first in E; [|apply itoa_no; auto; lia..]. destruct E as [E2 E].
  apply split_first in E; [|apply itoa_no; auto; lia..]. destruct E as [E3 E4].
  repeat split; apply itoa_inj; auto.
Qed.
Lemma dotted_no58 a b c d : small a -> small b -> small c -> small d -> ~ In 58 (dotted a b c d).
Proof.
  intros H1 H2 H3 H4 I. unfold dotted in I. rewrite !in_app_iff in I. cbn [In] in I.
  repeat match goal with H : _ \/ _ |- _ => destruct H end; try contradiction; try discriminate;
  match goal with H : In 58 (itoa _) |- _ => revert H; apply itoa_no; auto; lia end.
Qed.

Definition is_addr4 (a : bytes) : Prop := length a = 4%nat /\ is_bytes a.
Lemma addr4_string a : is_addr4 a -> exists w x y z, a = [w; x; y; z] /\ ip_string a = dotted w x y z /\ small w /\ small x /\ small y /\ small z.
Proof.
  intros [L B]. destruct a as [|w [|x [|y [|z [|? ?]]]]]; try discriminate. exists w, x, y, z. split; [reflexivity|]. split; [reflexivity|].
  unfold is_bytes in B. repeat match goal with H : Forall _ (_ :: _) |- _ => inversion H; subst; clear H end.
  unfold is_byte, small in *. lia.
Qed.
Lemma addr4_inj a b : is_addr4 a -> is_addr4 b -> ip_string a = ip_string b -> a = b.
Proof.
  intros A B E. destruct (addr4_string a A) as (a1 & a2 & a3 & a4 & -> & E1 & S1 & S2 & S3 & S4).
  destruct (addr4_string b B) as (b1 & b2 & b3 & b4 & -> & E2 & T1 & T2 & T3 & T4). rewrite E1, E2 in E.
  apply dotted_inj in E; auto. destruct E as (-> & -> & -> & ->). reflexivity.
Qed.
Lemma addr4_no58 a : is_addr4 a -> ~ In 58 (ip_string a).
Proof. intros A. destruct (addr4_string a A) as (a1 & a2 & a3 & a4 & -> & E1 & S1 & S2 & S3 & S4). rewrite E1. apply dotted_no58; auto. Qed.

Definition flow_text (s d : bytes) (sp dp : Z) : bytes := ip_string s ++ [58] ++ ip_string d ++ [58] ++ itoa sp ++ [58] ++ itoa dp.
Lemma flow_text_inj s d sp dp s' d' sp' dp' : is_addr4 s -> is_addr4 d -> is_addr4 s' -> is_addr4 d' ->
  small sp -> small dp -> small sp' -> small dp' ->
  flow_text s d sp dp = flow_text s' d' sp' dp' <-> (s = s' /\ d = d' /\ sp = sp' /\ dp = dp').
Proof.
  intros A1 A2 A3 A4 P1 P2 P3 P4. split; [|intros (-> & -> & -> & ->); reflexivity]. intros E. unfold flow_text in E. cbn [app] in E.
  apply split_first in E; [|apply addr4_no58; auto..]. destruct E as [E1 E].
  apply split_first in E; [|apply addr4_no58; auto..]. destruct E as [E2 E].
  apply split_first in E; [|apply itoa_no; auto; lia..]. destruct E as [E3 E4].
  repeat split; auto using addr4_inj, itoa_inj.
Qed.
(** packets with IPv4 addresses and 16-bit ports *)
Lemma agreed_flow4 h p : tcp_agrees h p \/ udp_agrees h p -> version p = V4 ->
  is_addr4 (SourceAddress p) /\ is_addr4 (DestinationAddress p) /\ small (SourcePort p) /\ small (DestPort p).
Proof.
  intros T V.
  assert (X : ip_agrees h p /\ 0 <= SourcePort p < 65536 /\ 0 <= DestPort p < 65536).
  { destruct T as [(A & P & L & S)|(A & P & L & S)]; (split; [exact A|]); facts A; pose proof A as (_ & IB & _); destruct S as (S1 & S2);
      [destruct S2 as (S2 & _)|]; rewrite S1, S2; unfold l4_sport, l4_dport; split; apply be16f_range; auto; lia. }
  destruct X as (A & R1 & R2). facts A. pose proof A as (_ & IB & _ & M). rewrite V in M. destruct M as (M1 & _ & _ & _ & _ & _ & M7 & M8).
  rewrite M7, M8. unfold is_addr4, small, ip4_src, ip4_dst. rewrite !field_length by lia.
  assert (forall o n, is_bytes (field (rd h (Buffer p)) o n)) by (intros; unfold field; apply is_bytes_firstn, is_bytes_skipn, IB).
  repeat split; auto; lia.
Qed.
Local Opaque itoa ip_string.
(** by syntax only, so that a wrong hash is refused at once *)
Ltac same := match goal with |- ?x = ?x => reflexivity end.
Lemma hash_text p : l4FlowHash p = flow_text (SourceAddress p) (DestinationAddress p) (SourcePort p) (DestPort p).
Proof. unfold l4FlowHash, flow_text, SourceAddress, DestinationAddress. same. Qed.
Lemma reverse_text p : L4ReverseFlowHash p = flow_text (DestinationAddress p) (SourceAddress p) (DestPort p) (SourcePort p).
Proof. unfold L4ReverseFlowHash, flow_text, SourceAddress, DestinationAddress. same. Qed.
Lemma hash4 : forall h1 p1 h2 p2,
  tcp_agrees h1 p1 \/ udp_agrees h1 p1 -> tcp_agrees h2 p2 \/ udp_agrees h2 p2 -> version p1 = V4 -> version p2 = V4 ->
  L4FlowHash p1 = l4FlowHash p1 -> L4FlowHash p2 = l4FlowHash p2 ->
  (L4FlowHash p1 = L4FlowHash p2 <->
     SourceAddress p1 = SourceAddress p2 /\ DestinationAddress p1 = DestinationAddress p2 /\
     SourcePort p1 = SourcePort p2 /\ DestPort p1 = DestPort p2) /\
  (L4ReverseFlowHash p1 = L4FlowHash p2 <->
     DestinationAddress p1 = SourceAddress p2 /\ SourceAddress p1 = DestinationAddress p2 /\
     DestPort p1 = SourcePort p2 /\ SourcePort p1 = DestPort p2).
Proof.
  intros h1 p1 h2 p2 T1 T2 V1 V2 E1 E2. rewrite E1, E2.
  destruct (agreed_flow4 h1 p1 T1 V1) as (A1 & A2 & A3 & A4). destruct (agreed_flow4 h2 p2 T2 V2) as (B1 & B2 & B3 & B4).
  rewrite (hash_text p1), (hash_text p2), (reverse_text p1). split; apply flow_text_inj; auto.
Qed.

(** equal hashes of any packets: the ports agree, and so does the text of the two addresses *)
Lemma hash_ports s d sp dp s' d' sp' dp' : small sp -> small dp -> small sp' -> small dp' ->
  flow_text s d sp dp = flow_text s' d' sp' dp' ->
  sp = sp' /\ dp = dp' /\ ip_string s ++ [58] ++ ip_string d = ip_string s' ++ [58] ++ ip_string d'.
Proof.
  intros P1 P2 P3 P4 E. unfold flow_text in E.
  assert (X : forall a b u v, ip_string a ++ [58] ++ ip_string b ++ [58] ++ itoa u ++ [58] ++ itoa v =
              ((ip_string a ++ [58] ++ ip_string b) ++ 58 :: itoa u) ++ 58 :: itoa v).
  { intros. rewrite <- !app_assoc. reflexivity. }
  rewrite !X in E. apply split_last in E; [|apply itoa_no; auto; lia..]. destruct E as [E E1].
  apply split_last in E; [|apply itoa_no; auto; lia..]. destruct E as [E E2].
  split; [apply itoa_inj; auto|]. split; [apply itoa_inj; auto|exact E].
Qed.
