(** Histories of calls on one packet: C63, and the general part of C53. *)
From Verif Require Import Proof.HashHistory Proof.PktNew Spec.PktSamples Properties.P_PktOps Properties.P_PktTcp.

(** ** C63 *)
(** Whatever permitted calls a history makes, in whatever order, the accessors
    still show the bytes of the packet ([tcp_agrees]), the flow is the original
    one, and every number is the original plus what the calls asked for. *)
Theorem C63_every_history : forall grow h0 p0, tcp_agrees h0 p0 -> forall cs h p, reached grow h0 p0 cs h p ->
  tcp_agrees h p /\ same_flow p p0 /\ version p = version p0 /\
  tcpSeq p = (tcpSeq p0 + total_of seq_change cs) mod 4294967296 /\
  tcpAck p = (tcpAck p0 + total_of ack_change cs) mod 4294967296 /\
  tcpDataOffset p = tcpDataOffset p0 + total_of offset_change cs /\
  GetTCPFlags p = fold_left flags_after cs (GetTCPFlags p0) /\
  IPTotalLen p = (IPTotalLen p0 + Z.of_nat (s_len (Buffer p)) - Z.of_nat (s_len (Buffer p0)) + total_of attached_len cs) mod 65536 /\
  (version p0 = V4 -> ip4_valid (rd h0 (Buffer p0)) -> ip4_valid (rd h (Buffer p))) /\
  (forall c, permitted h p c -> exists p' h', make_call grow c h p = Ok (p', h')).
Proof. exact history. Qed.
Print Assumptions C63_every_history.

(** A packet parsed with length validation starts with its total length equal to
    its bytes and nothing attached; after any orderly history that ends with the
    packet whole or extended, the total length is again the number of bytes that
    would be sent. *)
Theorem C63_total_is_bytes_sent_partial : forall grow h0 ctx s p0,
  valid h0 s -> is_bytes (rd h0 s) -> (0 < s_len s)%nat -> Z.of_nat (s_len s) < 65536 ->
  New h0 ctx s true = Ok (Some p0, None) -> IPProto p0 = PROTO_TCP -> (hl p0 + 20 <= s_len (Buffer p0))%nat ->
  forall cs h p, reached grow h0 p0 cs h p ->
  phase_after Whole cs = Some Whole \/ phase_after Whole cs = Some Extended ->
  IPTotalLen p = zlen (GetTCPBytes h p) mod 65536 /\
  (version p = V4 -> ip4_valid (rd h0 s) -> ip4_valid (GetTCPBytes h p)).
Proof.
  intros grow h0 ctx s p0 V IB L1 L2 E PR HB cs h p R PH.
  destruct (new_agrees h0 ctx s true p0 V IB L1 L2 E ltac:(lia)) as (A & O & D & T & _).
  specialize (T PR HB). destruct (total_range _ _ T) as (R0 & _).
  destruct (history grow h0 p0 T cs h p R) as (T' & _ & V' & _ & _ & _ & _ & _ & IV & _). split.
  - apply (orderly_total grow h0 p0 T) with (cs := cs); auto.
    + now apply (new_total h0 ctx s).
    + now rewrite O.
    + now rewrite D.
  - intros V4' IV0. pose proof T' as (A' & _). pose proof (valid_len _ _ (proj1 A')) as LB.
    assert (H20 : (20 <= s_len (Buffer p))%nat) by (destruct T' as ((X1 & X2 & X3 & _) & _ & L & _); lia).
    assert (IVp : ip4_valid (rd h (Buffer p))).
    { apply IV; [congruence|]. pose proof (valid_vslice h0 s V L1) as VS0.
      assert (FB : firstn 20 (rd h0 (Buffer p0)) = firstn 20 (rd h0 s)).
      { assert (BE1 : s_arr (Buffer p0) = s_arr s /\ s_off (Buffer p0) = s_off s /\ (s_len (Buffer p0) <= s_len s)%nat).
        { destruct (Z.eq_dec (ip4_version (rd h0 s)) 4) as [VER|VER].
          - pose proof (New_v4 h0 ctx s true VS0 IB L1 L2 VER) as X. rewrite E in X. destruct X as (_ & X).
            destruct (a4_buf _ _ _ _ _ X) as (n & B & N & _). rewrite B. cbn. auto.
          - pose proof (New_v6 h0 ctx s true VS0 IB L1 L2 VER) as X. rewrite E in X. destruct X as (_ & X).
            destruct (a6_buf _ _ _ _ _ X) as (n & B & N & _). rewrite B. cbn. auto. }
        destruct BE1 as (B1 & B2 & B3). unfold rd. rewrite B1, B2, !firstn_firstn.
        assert (hl p0 = 20%nat) by (unfold hl; rewrite <- V', V4'; reflexivity).
        rewrite !Nat.min_l by lia. reflexivity. }
      unfold ip4_valid in *. rewrite FB. exact IV0. }
    unfold ip4_valid, GetTCPBytes in *. rewrite <- app_assoc, firstn_app.
    replace (20 - length (rd h (Buffer p)))%nat with 0%nat by lia. rewrite app_nil_r. exact IVp.
Qed.
Print Assumptions C63_total_is_bytes_sent_partial.

(** Exactly: after every history, orderly or not, the total length differs from the
    number of bytes that would be sent by what the history attached and the packet
    no longer carries. *)
Theorem C63_total_exact : forall grow h0 ctx s p0,
  valid h0 s -> is_bytes (rd h0 s) -> (0 < s_len s)%nat -> Z.of_nat (s_len s) < 65536 ->
  New h0 ctx s true = Ok (Some p0, None) -> IPProto p0 = PROTO_TCP -> (hl p0 + 20 <= s_len (Buffer p0))%nat ->
  forall cs h p, reached grow h0 p0 cs h p ->
  (IPTotalLen p = zlen (GetTCPBytes h p) mod 65536 <->
   total_of attached_len cs mod 65536 = (zlen (rd h (tcpOptions p)) + zlen (rd h (tcpData p))) mod 65536).
Proof.
  intros grow h0 ctx s p0 V IB L1 L2 E PR HB cs h p R.
  destruct (new_agrees h0 ctx s true p0 V IB L1 L2 E ltac:(lia)) as (A & O & D & T & _). specialize (T PR HB).
  destruct (history grow h0 p0 T cs h p R) as (T' & _ & V' & _ & _ & _ & _ & TL & _).
  destruct (total_range _ _ T) as (R0 & _).
  assert (N0 : IPTotalLen p0 = Z.of_nat (s_len (Buffer p0))) by now apply (new_total h0 ctx s). pose proof T' as (A' & _).
  pose proof (valid_len _ _ (proj1 A')) as LB.
  rewrite TL, N0. unfold GetTCPBytes, zlen. rewrite !app_length, LB. 
  set (t := total_of attached_len cs). set (b := Z.of_nat (s_len (Buffer p))). set (b0 := Z.of_nat (s_len (Buffer p0))).
  rewrite !Nat2Z.inj_add. fold b. lia.
Qed.
Print Assumptions C63_total_exact.

(** Refuted without the order: attaching twice replaces the data but counts both. *)
Definition sth : heap := st4 ++ [[120; 121; 122]].
Lemma sth_agrees : tcp_agrees sth pk4.
Proof.
  apply (new_tcp sth 0 (mkSl 0 0 48 48) true).
  - vm_compute. split; [lia|right; lia].
  - unfold sth. bytes_tac.
  - apply Nat.ltb_lt. reflexivity.
  - reflexivity.
  - vm_compute. reflexivity.
  - reflexivity.
  - apply Nat.leb_le. reflexivity.
Qed.
Definition xyz : slice := mkSl 1 0 3 3.
Definition no_grow : nat -> nat -> nat := fun _ _ => 0%nat.
Lemma attach_allowed h p d : tcp_agrees h p -> tcpOptions p = snil -> s_arr (Buffer p) <> s_arr d -> valid h d ->
  permitted h p (Attach snil d).
Proof.
  intros T O AP V. destruct (tcp_agrees_facts _ _ T) as (_ & _ & R3 & _).
  assert (VN : valid h snil) by (split; cbn; [lia|left; reflexivity]).
  split; [|split; [left; reflexivity|cbn; lia]].
  unfold attachable, apart, append_safe. rewrite O. cbn [s_len snil]. intuition auto.
Qed.
Theorem C63_total_is_bytes_sent_refuted : exists grow h0 s p0 cs h p,
  valid h0 s /\ is_bytes (rd h0 s) /\ New h0 0 s true = Ok (Some p0, None) /\ tcp_agrees h0 p0 /\
  reached grow h0 p0 cs h p /\ cs = [Detach 0; DropAll; Attach snil xyz; Attach snil xyz] /\
  IPTotalLen p = 50 /\ zlen (GetTCPBytes h p) = 47.
Proof.
  exists no_grow, sth, (mkSl 0 0 48 48), pk4, [Detach 0; DropAll; Attach snil xyz; Attach snil xyz].
  assert (X2 : exists q k p2 h2, make_call no_grow (Detach 0) sth pk4 = Ok (q, k) /\ make_call no_grow DropAll k q = Ok (p2, h2) /\
    tcpOptions p2 = snil /\ s_arr (Buffer p2) = 0%nat /\ valid h2 xyz).
  { do 4 eexists. split; [vm_compute; reflexivity|]. split; [vm_compute; reflexivity|].
    split; [reflexivity|]. split; [reflexivity|]. vm_compute. split; [lia|right; lia]. }
  destruct X2 as (q & k & p2 & h2 & M1 & M2 & O2 & B2 & V2).
  assert (PD : permitted sth pk4 (Detach 0)).
  { cbn [permitted]. split; [lia|]. split; [reflexivity|]. split; [vm_compute; discriminate|apply Nat.leb_le; reflexivity]. }
  pose proof (reached_call no_grow sth pk4 [] _ _ _ _ _ (reached_start _ _ _) PD M1) as R1.
  pose proof (reached_call no_grow sth pk4 _ _ _ DropAll _ _ R1 I M2) as R2.
  pose proof (history _ _ _ sth_agrees _ _ _ R2) as (T2 & _).
  pose proof (attach_allowed h2 p2 xyz T2 O2 ltac:(rewrite B2; discriminate) V2) as P2.
  destruct (call_succeeds no_grow _ h2 p2 T2 P2) as (p3 & h3 & E3).
  pose proof (reached_call _ _ _ _ _ _ _ _ _ R2 P2 E3) as R3.
  assert (X : exists p3 h3 p4 h4, make_call no_grow (Attach snil xyz) h2 p2 = Ok (p3, h3) /\ make_call no_grow (Attach snil xyz) h3 p3 = Ok (p4, h4) /\
    tcpOptions p3 = snil /\ s_arr (Buffer p3) = 0%nat /\ valid h3 xyz /\ IPTotalLen p4 = 50 /\ zlen (GetTCPBytes h4 p4) = 47).
  { vm_compute in M1. injection M1 as <- <-. vm_compute in M2. injection M2 as <- <-. do 4 eexists. split; [vm_compute; reflexivity|].
    split; [vm_compute; reflexivity|]. split; [reflexivity|]. split; [reflexivity|].
    split; [vm_compute; split; [lia|right; lia]|]. split; vm_compute; reflexivity. }
  destruct X as (p3' & h3' & p4 & h4 & E3' & E4 & O3 & B3 & V3 & F1 & F2).
  rewrite E3 in E3'. injection E3' as <- <-. pose proof (history _ _ _ sth_agrees _ _ _ R3) as (T3 & _).
  pose proof (attach_allowed h3 p3 xyz T3 O3 ltac:(rewrite B3; discriminate) V3) as P3.
  pose proof (reached_call _ _ _ _ _ _ _ _ _ R3 P3 E4) as R4.
  exists h4, p4. split; [vm_compute; split; [lia|right; lia]|]. split; [unfold sth; bytes_tac|].
  split; [vm_compute; reflexivity|]. split; [exact sth_agrees|]. split; [exact R4|]. split; [reflexivity|]. split; assumption.
Qed.
Print Assumptions C63_total_is_bytes_sent_refuted.

(** An orderly history that reaches each phase. *)
Example C63_hypotheses_met :
  tcp_agrees sth pk4 /\ ip4_valid (rd sth (Buffer pk4)) /\ IPTotalLen pk4 = 48 /\
  exists h p, reached no_grow sth pk4 [IncSeq 5; Detach 0; UpdIP; DropAll; DecSeq 7] h p /\
    phase_after Whole [IncSeq 5; Detach 0; UpdIP; DropAll; DecSeq 7] = Some Whole /\
    permitted h p (Attach snil xyz) /\ phase_after Whole [IncSeq 5; Detach 0; UpdIP; DropAll; DecSeq 7; Attach snil xyz] = Some Extended /\
    IPTotalLen p = 44 /\ tcpSeq p = (tcpSeq pk4 - 2) mod 4294967296.
Proof.
  split; [exact sth_agrees|]. split; [vm_compute; reflexivity|]. split; [vm_compute; reflexivity|].
  assert (X : exists p1 h1 p2 h2 p3 h3 p4 h4 p5 h5, make_call no_grow (IncSeq 5) sth pk4 = Ok (p1, h1) /\
    make_call no_grow (Detach 0) h1 p1 = Ok (p2, h2) /\ make_call no_grow UpdIP h2 p2 = Ok (p3, h3) /\
    make_call no_grow DropAll h3 p3 = Ok (p4, h4) /\ make_call no_grow (DecSeq 7) h4 p4 = Ok (p5, h5) /\
    tcpDataOffset p1 = 6 /\ payload_at p1 = 44%nat /\ s_len (Buffer p1) = 48%nat /\ version p2 = V4 /\
    tcpOptions p5 = snil /\ s_arr (Buffer p5) = 0%nat /\ valid h5 xyz /\ IPTotalLen p5 = 44 /\ tcpSeq p5 = (tcpSeq pk4 - 2) mod 4294967296).
  { do 10 eexists. do 5 (split; [vm_compute; reflexivity|]).
    do 6 (split; [reflexivity|]). split; [vm_compute; split; [lia|right; lia]|]. split; vm_compute; reflexivity. }
  destruct X as (p1 & h1 & p2 & h2 & p3 & h3 & p4 & h4 & p5 & h5 & M1 & M2 & M3 & M4 & M5 & D1 & D2 & D3 & V2 & O & B & V & F1 & F2).
  assert (R : reached no_grow sth pk4 [IncSeq 5; Detach 0; UpdIP; DropAll; DecSeq 7] h5 p5).
  { apply (reached_call _ _ _ [IncSeq 5; Detach 0; UpdIP; DropAll] h4 p4); [|exact I|exact M5].
    apply (reached_call _ _ _ [IncSeq 5; Detach 0; UpdIP] h3 p3); [|exact I|exact M4].
    apply (reached_call _ _ _ [IncSeq 5; Detach 0] h2 p2); [|exact V2|exact M3].
    apply (reached_call _ _ _ [IncSeq 5] h1 p1); [| |exact M2].
    - apply (reached_call _ _ _ [] sth pk4); [apply reached_start|exact I|exact M1].
    - cbn [permitted]. rewrite D1, D2, D3. split; [lia|]. split; [reflexivity|]. split; [lia|apply Nat.leb_le; reflexivity]. }
  clear M1 M2 M3 M4 M5.
  exists h5, p5. split; [exact R|]. split; [reflexivity|].
  split; [|auto]. apply attach_allowed; auto; [|rewrite B; discriminate].
  apply (history _ _ _ sth_agrees _ _ _ R).
Qed.

(** ** C53, the general part *)
(** For every history of calls that return (no precondition), the hash reported
    is the hash of the flow the packet now shows after an even number of
    reversals, and of the opposite flow after an odd number. *)
Theorem C53_hash_every_history_partial : forall grow h0 ctx s v p0, New h0 ctx s v = Ok (Some p0, None) ->
  forall cs h p, made grow h0 p0 cs h p -> IPProto p0 <> 6 \/ reversals cs = 0%nat ->
  L4FlowHash p = if Nat.even (reversals cs) then l4FlowHash p else L4ReverseFlowHash p.
Proof. intros grow h0 ctx s v p0 E. apply hash_history. now apply (new_hash h0 ctx s v). Qed.
Print Assumptions C53_hash_every_history_partial.
Definition su4 : heap := fst (parsed udp4_sample).
Definition pu4 : packet := snd (parsed udp4_sample).
Example C53_history_hypotheses_met : exists h p,
  New su4 0 (Buffer pu4) true = Ok (Some pu4, None) /\ IPProto pu4 <> 6 /\
  made no_grow su4 pu4 [DataDetach; Reverse; DataAttach snil snil] h p /\
  reversals [DataDetach; Reverse; DataAttach snil snil] = 1%nat /\ L4FlowHash p <> l4FlowHash p.
Proof.
  assert (X : exists p1 h1 p2 h2 p3 h3, make_packet_call no_grow DataDetach su4 pu4 = Ok (p1, h1) /\
    make_packet_call no_grow Reverse h1 p1 = Ok (p2, h2) /\
    make_packet_call no_grow (DataAttach snil snil) h2 p2 = Ok (p3, h3) /\ L4FlowHash p3 <> l4FlowHash p3).
  { do 6 eexists. do 3 (split; [vm_compute; reflexivity|]). vm_compute. discriminate. }
  destruct X as (p1 & h1 & p2 & h2 & p3 & h3 & M1 & M2 & M3 & N). exists h3, p3.
  split; [vm_compute; reflexivity|]. split; [vm_compute; discriminate|]. split; [|split; [reflexivity|exact N]]. clear N.
  apply (made_call _ _ _ [DataDetach; Reverse] h2 p2); [|exact M3].
  apply (made_call _ _ _ [DataDetach] h1 p1); [|exact M2].
  apply (made_call _ _ _ [] su4 pu4); [apply made_start|exact M1].
Qed.
