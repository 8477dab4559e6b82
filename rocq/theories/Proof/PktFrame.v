(** Editing a packet writes only to the packet's memory and to new memory (C101). *)
From Verif Require Export Spec.PktFrameSpec Proof.HeapFacts.

Lemma nth_error_firstn_lt {A} (l : list A) : forall o k, (k < o)%nat -> nth_error (firstn o l) k = nth_error l k.
Proof. induction l as [|y l IH]; intros [|o] [|k] H; try lia; try reflexivity. cbn. apply IH. lia. Qed.
Lemma nth_error_skipn' {A} (l : list A) : forall o k, nth_error (skipn o l) k = nth_error l (o + k).
Proof. induction l as [|y l IH]; intros [|o] k; try reflexivity; [destruct k; reflexivity|]. cbn. apply IH. Qed.
Section PF.
Context (a k : nat) (x : Z).
Definition hk (h : heap) : Prop := nth_error (arr h a) k = Some x.
Definition out (s : slice) : Prop :=
  s_arr s <> a \/ (k < s_off s)%nat \/ (s_off s + s_len s <= k /\ s_off s + s_cap s <= k)%nat.
Lemma hk_arr h : hk h -> (a < length h)%nat.
Proof.
  unfold hk, arr. intros H. destruct (Nat.lt_ge_cases a (length h)) as [L|L]; [exact L|].
  rewrite nth_overflow in H by lia. destruct k; discriminate H.
Qed.
Lemma splice_keeps l o v : nth_error l k = Some x -> (k < o \/ o + length v <= k)%nat -> nth_error (splice l o v) k = Some x.
Proof.
  intros E K. assert (L : (k < length l)%nat) by (apply nth_error_Some; congruence). unfold splice.
  destruct K as [K|K].
  - rewrite nth_error_app1 by (rewrite firstn_length; lia). rewrite nth_error_firstn_lt by exact K. exact E.
  - rewrite nth_error_app2 by (rewrite firstn_length; lia). rewrite firstn_length, Nat.min_l by lia.
    rewrite nth_error_app2 by lia. rewrite nth_error_skipn'. rewrite <- E. f_equal. lia.
Qed.
Lemma upd_hk h b o v : hk h -> (b <> a \/ (k < o)%nat \/ (o + length v <= k)%nat) ->
  hk (upd_arr h b (splice (arr h b) o v)).
Proof.
  intros H C. pose proof (hk_arr h H) as L. unfold hk. destruct (Nat.eq_dec b a) as [->|N].
  - rewrite arr_upd_same by exact L. apply splice_keeps; [exact H|]. destruct C as [C|C]; [congruence|exact C].
  - destruct (Nat.lt_ge_cases b (length h)) as [B|B]; [rewrite arr_upd_other by assumption; exact H|].
    unfold arr, upd_arr. rewrite firstn_all2 by lia. rewrite app_nth1 by lia. exact H.
Qed.
(** *** a little calculus of results *)
Definition keep {A} (P : A -> Prop) (y : res A) : Prop := forall v, y = Ok v -> P v.
Lemma keep_ok {A} (P : A -> Prop) v : P v -> keep P (Ok v).
Proof. intros H v' E. injection E as <-. exact H. Qed.
Lemma keep_bind {A B} (P : A -> Prop) (Q : B -> Prop) (y : res A) f :
  keep P y -> (forall v, P v -> keep Q (f v)) -> keep Q (rbind y f).
Proof. intros H1 H2 v. destruct y as [u| |]; cbn [rbind]; try discriminate. apply (H2 u), H1. reflexivity. Qed.
Lemma keep_any {A} (y : res A) : keep (fun _ => True) y.
Proof. intros v _. exact Logic.I. Qed.
Lemma out_snil : out snil.
Proof. right. right. cbn. lia. Qed.
Lemma k_reslice s lo hi : out s -> keep out (reslice s lo hi).
Proof.
  intros O v E. unfold reslice in E. destruct (_ && _) eqn:C; [|discriminate E]. injection E as <-.
  apply andb_true_iff in C as (C & C3). apply andb_true_iff in C as (C1 & C2). apply Z.leb_le in C1, C2, C3.
  unfold out in *. cbn [s_arr s_off s_len s_cap]. lia.
Qed.
Lemma k_from s lo : out s -> keep out (resl_from s lo).
Proof. apply k_reslice. Qed.
Lemma k_to s hi : out s -> keep out (resl_to s hi).
Proof. apply k_reslice. Qed.
Lemma k_wr h s i v : hk h -> out s -> keep hk (wr h s i v).
Proof.
  intros H O h' E. unfold wr in E. destruct (_ && _) eqn:C; [|discriminate E]. injection E as <-.
  apply andb_true_iff in C as (C1 & C2). apply Z.leb_le in C1, C2. unfold zlen in C2.
  apply upd_hk; [exact H|]. unfold out in O. lia.
Qed.
Lemma k_put16 h s i v : hk h -> out s -> keep hk (put16_at h s i v).
Proof. intros H O. unfold put16_at. apply (keep_bind out); [apply k_reslice, O|]. intros w W. apply k_wr; assumption. Qed.
Lemma k_put32 h s i v : hk h -> out s -> keep hk (put32_at h s i v).
Proof. intros H O. unfold put32_at. apply (keep_bind out); [apply k_reslice, O|]. intros w W. apply k_wr; assumption. Qed.
Lemma k_copy h s lo hi v : hk h -> out s -> keep hk (copy_into h s lo hi v).
Proof.
  intros H O. unfold copy_into. apply (keep_bind out); [apply k_reslice, O|]. intros w W. apply keep_ok.
  unfold scopy. apply upd_hk; [exact H|]. pose proof (firstn_le_length (s_len w) v). rewrite firstn_length. unfold out in W. lia.
Qed.
Lemma k_append g h s v : hk h -> out s -> hk (fst (gappend g h s v)) /\ out (snd (gappend g h s v)).
Proof.
  intros H O. unfold gappend. destruct (_ <=? _)%nat eqn:C.
  - apply Nat.leb_le in C. cbn [fst snd]. split; [|unfold out in *; cbn; lia].
    destruct v as [|y v]; [exact H|]. apply upd_hk; [exact H|]. cbn [length] in *. unfold out in O. lia.
  - cbn [alloc fst snd]. pose proof (hk_arr h H) as L. split.
    + unfold hk, arr in *. rewrite app_nth1 by exact L. exact H.
    + left. cbn. lia.
Qed.
(** *** packets *)
Definition pk (p : packet) : Prop := out (Buffer p) /\ out (tcpOptions p).
Definition pkh (y : packet * heap) : Prop := pk (fst y) /\ hk (snd y).
End PF.
Ltac kstep :=
  match goal with
  | |- keep _ (match gappend ?g ?h ?s ?v with _ => _ end) =>
      let H := fresh in
      pose proof (k_append _ _ _ g h s v ltac:(eassumption) ltac:(solve [eassumption | apply out_snil | cbn; eassumption])) as H;
      destruct (gappend g h s v) as [? ?]; cbn [fst snd] in H; destruct H
  | |- keep _ (rbind (wr _ _ _ _) _) => eapply keep_bind; [apply k_wr; [eassumption|cbn; eassumption]|intros ? ?]
  | |- keep _ (rbind (put16_at _ _ _ _) _) => eapply keep_bind; [apply k_put16; [eassumption|cbn; eassumption]|intros ? ?]
  | |- keep _ (rbind (put32_at _ _ _ _) _) => eapply keep_bind; [apply k_put32; [eassumption|cbn; eassumption]|intros ? ?]
  | |- keep _ (rbind (copy_into _ _ _ _ _) _) => eapply keep_bind; [apply k_copy; [eassumption|cbn; eassumption]|intros ? ?]
  | |- keep _ (copy_into _ _ _ _ _) => apply k_copy; [assumption|cbn; assumption]
  | |- keep _ (wr _ _ _ _) => apply k_wr; [assumption|cbn; assumption]
  | |- keep _ (put16_at _ _ _ _) => apply k_put16; [assumption|cbn; assumption]
  | |- keep _ (rbind (reslice _ _ _) _) => eapply keep_bind; [apply k_reslice; cbn; eassumption|intros ? ?]
  | |- keep _ (rbind (resl_from _ _) _) => eapply keep_bind; [apply k_from; cbn; eassumption|intros ? ?]
  | |- keep _ (rbind (resl_to _ _) _) => eapply keep_bind; [apply k_to; cbn; eassumption|intros ? ?]
  | |- keep _ (rbind (FixupIPHdrOnDataModify _ _ _ _) _) => fail 1
  | |- keep _ (rbind _ _) => eapply keep_bind; [apply keep_any|intros ? _]
  | |- keep _ (Ok _) => apply keep_ok
  | |- keep _ (if ?b then _ else _) => destruct b
  end.
Section PF2.
Context (a k : nat) (x : Z).
Notation hk := (hk a k x). Notation out := (out a k). Notation pk := (pk a k). Notation pkh := (pkh a k x).
Ltac fin := (split; [split; cbn; assumption|assumption]).
Lemma k_fixip h p o n : pk p -> hk h -> keep pkh (FixupIPHdrOnDataModify h p o n).
Proof.
  intros (B & O) H. unfold FixupIPHdrOnDataModify. kstep. cbv zeta.
  destruct (version _); repeat kstep; fin.
Qed.
Lemma k_detach0 p ol dl : pk p -> keep pk (tcpDataDetach p ol dl).
Proof.
  intros (B & O). unfold tcpDataDetach. kstep. cbv zeta. kstep.
  apply (keep_bind out); [destruct (ol =? 0); [apply keep_ok, O|apply k_reslice; assumption]|]. intros o Ho.
  repeat kstep. split; cbn; assumption.
Qed.
Lemma k_detach h p ol : pk p -> hk h -> keep pkh (TCPDataDetach h p ol).
Proof.
  intros P H. pose proof P as (B & O). unfold TCPDataDetach. kstep. cbv zeta.
  apply (keep_bind pk); [apply k_detach0, P|]. intros p1 P1.
  apply (keep_bind pkh).
  { destruct P1 as (B1 & O1). unfold FixuptcpHdrOnTCPDataDetach. repeat kstep. fin. }
  intros (p2 & h2) (P2 & H2). cbn [fst snd] in *. apply k_fixip; assumption.
Qed.
Lemma k_attach g h p o d : pk p -> hk h -> keep (fun y => pkh (fst y)) (TCPDataAttach g h p o d).
Proof.
  intros P H. pose proof P as (B & O). unfold TCPDataAttach.
  apply (keep_bind (fun y => pkh (fst y))).
  { unfold tcpDataAttach. repeat kstep; fin. }
  intros ((p1 & h1) & e) (P1 & H1). cbn [fst snd] in *. destruct e; [apply keep_ok; split; assumption|].
  cbv zeta. apply (keep_bind pkh); [apply k_fixip; assumption|]. intros (p2 & h2) ((B2 & O2) & H2). cbn [fst snd] in *.
  apply (keep_bind pkh).
  { unfold FixuptcpHdrOnTCPDataAttach. repeat kstep. fin. }
  intros (p3 & h3) P3. apply keep_ok. exact P3.
Qed.
Lemma k_csum4 h p : pk p -> hk h -> keep (fun y => hk (snd y)) (computeIPv4Checksum h p).
Proof. intros (B & O) H. unfold computeIPv4Checksum. repeat kstep. assumption. Qed.
Lemma k_csumT h p : pk p -> hk h -> keep (fun y => hk (snd y)) (computeTCPChecksum h p).
Proof. intros (B & O) H. unfold computeTCPChecksum. repeat (kstep || cbv zeta). assumption. Qed.
Lemma k_upd4 h p : pk p -> hk h -> keep pkh (UpdateIPv4Checksum h p).
Proof.
  intros P H. pose proof P as (B & O). unfold UpdateIPv4Checksum.
  apply (keep_bind (fun y => hk (snd y))); [apply k_csum4; assumption|]. intros (s & h1) H1. cbn [fst snd] in *. cbv zeta.
  repeat kstep. fin.
Qed.
Lemma k_updT h p : pk p -> hk h -> keep pkh (UpdateTCPChecksum h p).
Proof.
  intros P H. pose proof P as (B & O). unfold UpdateTCPChecksum. kstep.
  apply (keep_bind (fun y => hk (snd y))); [apply k_csumT; assumption|]. intros (s & h1) H1. cbn [fst snd] in *. cbv zeta.
  repeat kstep. fin.
Qed.
Lemma k_udph h p : pk p -> hk h -> keep hk (fixupUDPHdr h p).
Proof. intros (B & O) H. unfold fixupUDPHdr. repeat kstep. Qed.
Lemma k_udpc h p : pk p -> hk h -> keep pkh (fixupUDPChecksum h p).
Proof. intros (B & O) H. unfold fixupUDPChecksum, updateUDPv6Checksum. destruct (version p); repeat (kstep || cbv zeta); fin. Qed.
Lemma k_token g h p d t : pk p -> hk h -> keep pkh (UDPTokenAttach g h p d t).
Proof.
  intros P H. pose proof P as (B & O). unfold UDPTokenAttach. kstep. kstep. cbv zeta.
  apply (keep_bind pkh); [apply k_fixip; [split; cbn; assumption|assumption]|]. intros (pp & hp) ((B1 & O1) & H1'). cbn [fst snd] in *.
  kstep. cbv zeta. apply (keep_bind hk); [apply k_udph; [split; cbn; assumption|assumption]|].
  intros hz Hz. apply k_udpc; [split; cbn; assumption|assumption].
Qed.
Lemma k_data g h p d t : pk p -> hk h -> keep pkh (UDPDataAttach g h p d t).
Proof.
  intros P H. pose proof P as (B & O). unfold UDPDataAttach. kstep. cbv zeta. cbn [Buffer with_buffer]. kstep.
  apply (keep_bind pkh); [apply k_fixip; [split; cbn; assumption|assumption]|]. intros (pp & hp) (Pp & Hp). cbn [fst snd] in *.
  apply (keep_bind hk); [apply k_udph; assumption|].
  intros hz Hz. apply k_udpc; assumption.
Qed.
Lemma k_reverse h p : pk p -> hk h -> keep pkh (CreateReverseFlowPacket h p).
Proof.
  intros P H. pose proof P as (B & O). unfold CreateReverseFlowPacket. cbv zeta.
  apply (keep_bind hk); [destruct (version p); repeat kstep|]. intros h1 H1. repeat kstep.
  apply (keep_bind pkh); [apply k_fixip; [split; cbn; assumption|assumption]|]. intros (pp & hp) (Pp & Hp). cbn [fst snd] in *.
  apply (keep_bind pkh); [destruct (version pp); [apply k_upd4; assumption|apply keep_ok; split; assumption]|].
  intros (pq & hq) (Pq & Hq). cbn [fst snd] in *.
  apply (keep_bind hk); [apply k_udph; assumption|]. intros hz Hz. apply k_udpc; assumption.
Qed.
Lemma k_finack h p : pk p -> hk h -> keep pkh (ConvertAcktoFinAck h p).
Proof.
  intros P H. pose proof P as (B & O). unfold ConvertAcktoFinAck. cbv zeta.
  apply (keep_bind hk); [unfold updateTCPFlags; repeat kstep|]. intros h1 H1.
  apply (keep_bind pkh); [apply k_detach; [split; cbn; assumption|assumption]|]. intros (p2 & h2) ((B2 & _) & H2). cbn [fst snd] in *.
  apply keep_ok. split; [split; cbn; [assumption|apply out_snil]|assumption].
Qed.
Lemma k_call g c h p : pk p -> hk h -> keep pkh (make_call g c h p).
Proof.
  intros P H. pose proof P as (B & O). destruct c; cbn [make_call];
    try (unfold IncreaseTCPSeq, DecreaseTCPSeq, IncreaseTCPAck, DecreaseTCPAck; repeat (kstep || cbv zeta); fin).
  - apply k_upd4; assumption.
  - apply (keep_bind (fun y => hk (snd y))).
    + unfold VerifyIPv4Checksum. apply (keep_bind (fun y => hk (snd y))); [apply k_csum4; assumption|]. intros y Y. apply keep_ok. exact Y.
    + intros y Y. apply keep_ok. split; assumption.
  - apply k_updT; assumption.
  - apply (keep_bind (fun y => hk (snd y))).
    + unfold VerifyTCPChecksum. apply (keep_bind (fun y => hk (snd y))); [apply k_csumT; assumption|]. intros y Y. apply keep_ok. exact Y.
    + intros y Y. apply keep_ok. split; assumption.
  - apply k_detach; assumption.
  - apply (keep_bind (fun y => pkh (fst y))); [apply k_attach; assumption|]. intros y Y. apply keep_ok. exact Y.
  - apply k_finack; assumption.
  - apply keep_ok. split; [split; cbn; [assumption|apply out_snil]|assumption].
Qed.
Lemma k_packet_call g c h p : pk p -> hk h -> keep pkh (make_packet_call g c h p).
Proof.
  intros P H. pose proof P as (B & O). destruct c; cbn [make_packet_call].
  - apply k_call; assumption.
  - apply keep_ok. split; assumption.
  - apply k_token; assumption.
  - apply k_data; assumption.
  - apply (keep_bind pk); [unfold UDPDataDetach; kstep; apply keep_ok; split; cbn; assumption|].
    intros p' P'. apply keep_ok. split; assumption.
  - apply k_reverse; assumption.
Qed.
Lemma k_made g h0 p0 cs h p : made g h0 p0 cs h p -> pk p0 -> hk h0 -> pk p /\ hk h.
Proof.
  intros M P H. induction M as [|cs h p c h' p' M IH E]; [split; assumption|].
  destruct IH as (P1 & H1). pose proof (k_packet_call g c h p P1 H1 _ E) as K. exact K.
Qed.
(** *** making a packet *)
Lemma k_parseTCP h p b : pk p -> keep pk (parseTCP h p b).
Proof.
  intros (B & O). unfold parseTCP. repeat (eapply keep_bind; [apply keep_any|intros ? _]; cbv zeta).
  apply keep_ok. split; cbn; [assumption|apply out_snil].
Qed.
Lemma k_parseUDP h p b : pk p -> keep pk (parseUDP h p b).
Proof.
  intros (B & O). unfold parseUDP. repeat (eapply keep_bind; [apply keep_any|intros ? _]; cbv zeta).
  apply keep_ok. split; cbn; assumption.
Qed.
Lemma k_transport h p b : pk p -> keep (fun y => pk (fst y)) (parse_transport h p b).
Proof.
  intros P. unfold parse_transport. cbv zeta. destruct (_ && _); [apply keep_ok, P|].
  apply (keep_bind pk); [destruct (_ =? _); [apply k_parseTCP, P|apply keep_ok, P]|]. intros p1 P1.
  destruct (_ && _); [apply keep_ok, P1|].
  apply (keep_bind pk); [destruct (_ =? _); [apply k_parseUDP, P1|apply keep_ok, P1]|]. intros p2 P2.
  apply keep_ok. exact P2.
Qed.
Lemma k_new h ctx s v : out s -> keep (fun y => match fst y with Some p => pk p | None => True end) (New h ctx s v).
Proof.
  intros S. unfold New. cbv zeta. destruct (_ <? _); [apply keep_ok; exact Logic.I|].
  eapply keep_bind; [apply keep_any|intros b0 _].
  apply (keep_bind (fun y => pk (fst y))); [|intros y Y; apply keep_ok, Y].
  assert (Z0 : forall w, pk (with_version (zero_packet ctx) w)) by (intros w; split; apply out_snil).
  destruct (_ =? _).
  - unfold parseIPv4Packet. destruct (_ <? _); [apply keep_ok, Z0|].
    repeat (eapply keep_bind; [apply keep_any|intros ? _]; cbv zeta).
    destruct (negb _); [apply keep_ok; apply (Z0 V4)|].
    destruct (_ && _).
    + destruct (_ <? _).
      * apply (keep_bind out); [apply k_to, S|]. intros b B. apply k_transport. split; [exact B|apply out_snil].
      * apply keep_ok. split; [exact S|apply out_snil].
    + apply k_transport. split; [exact S|apply out_snil].
  - unfold parseIPv6Packet.
    repeat (eapply keep_bind; [apply keep_any|intros ? _]; cbv zeta).
    destruct (_ && _).
    + destruct (_ <? _).
      * apply (keep_bind out); [apply k_to, S|]. intros b B.
        apply (keep_bind pk); [apply k_parseTCP; split; [exact B|apply out_snil]|]. intros p1 P1. apply k_transport, P1.
      * apply keep_ok. split; [exact S|apply out_snil].
    + apply k_transport. split; [exact S|apply out_snil].
Qed.
End PF2.
Lemma edits_stay_inside g h0 ctx s v p0 e cs h p a k x :
  New h0 ctx s v = Ok (Some p0, e) -> made g h0 p0 cs h p -> (s_len s <= s_cap s)%nat -> beyond s a k ->
  byte_of h0 a k = Some x -> byte_of h a k = Some x.
Proof.
  intros N M L B E. assert (S : out a k s) by (unfold out; unfold beyond in B; lia).
  pose proof (k_new a k h0 ctx s v S _ N) as P. cbn [fst] in P.
  exact (proj2 (k_made a k x g h0 p0 cs h p M P E)).
Qed.
