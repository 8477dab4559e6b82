(** C80: histories of edits of one UDP packet. *)
From Verif Require Import Proof.UdpHistory Spec.PktSamples Properties.P_PktOps Properties.P_PktUdp.

(** the number of reversals in a history *)
Definition turns (es : list udp_event) : nat :=
  length (filter (fun e => match e with EReverse => true | _ => false end) es).
(** the data of the datagram after a history, starting from [v] *)
Definition data_after (v : bytes) (es : list udp_event) : bytes :=
  fold_left (fun v e => match e with
    | EDetach | EReverse => [] | EData w | EToken w => v ++ w | EUpdIP => v end) es v.

Lemma ledger_payload es l : lg_payload (fold_left enter es l) = data_after (lg_payload l) es.
Proof. revert l. induction es as [|e es IH]; intros l; [reflexivity|]. cbn [fold_left data_after]. rewrite IH. destruct e; reflexivity. Qed.
Lemma ledger_turned es l : lg_turned (fold_left enter es l) = xorb (Nat.odd (turns es)) (lg_turned l).
Proof.
  revert l. induction es as [|e es IH]; intros l; [cbn; destruct (lg_turned l); reflexivity|]. cbn [fold_left]. rewrite IH. unfold turns.
  destruct e; cbn [enter lg_turned filter length]; try reflexivity.
  rewrite Nat.odd_succ, <- Nat.negb_odd. destruct (Nat.odd _), (lg_turned l); reflexivity.
Qed.

(** ** C80 *)
(** the data, the flow and the untouched header octets after any history *)
Theorem C80_udp_history : forall grow h0 p0 es h p, udp_agrees h0 p0 -> udp_reached grow h0 p0 es h p ->
  udp_agrees h p /\ version p = version p0 /\
  (if Nat.odd (turns es) then opposite_flow p0 p else same_flow p0 p) /\
  (exists s s0, GetUDPData p0 = Ok s0 /\ GetUDPData p = Ok s /\ rd h s = data_after (rd h0 s0) es /\
     zlen (rd h (Buffer p)) = Z.of_nat (hl p) + 8 + zlen (rd h s)) /\
  (forall k, standing (version p) k -> nth k (rd h (Buffer p)) 0 = nth k (rd h0 (Buffer p0)) 0).
Proof.
  intros grow h0 p0 es h p U R.
  destruct (udp_history grow h0 p0 false false es h p U ltac:(discriminate) ltac:(discriminate) R) as (U' & V & F & L & PL & _ & _ & _ & ST).
  rewrite ledger_turned in F. cbn [opening lg_turned] in F. rewrite xorb_false_r in F.
  assert (HP : hl p = hl p0) by (rewrite !hl_ver, V; reflexivity).
  destruct (data_of_packet h0 p0 U) as (s0 & E0 & R0). destruct (data_of_packet h p U') as (s & E & R1).
  split; [exact U'|]. split; [exact V|]. split; [exact F|]. split.
  - exists s, s0. split; [exact E0|]. split; [exact E|]. rewrite HP, PL, ledger_payload in R1. cbn [opening lg_payload] in R1.
    rewrite R0. split; [exact R1|]. rewrite ledger_payload in L. cbn [opening lg_payload] in L. rewrite R1, HP. unfold zlen. rewrite L. lia.
  - rewrite V. exact ST.
Qed.
Print Assumptions C80_udp_history.

(** every permitted call succeeds *)
Theorem C80_calls_succeed : forall grow h0 p0 es h p c, udp_agrees h0 p0 -> udp_reached grow h0 p0 es h p ->
  udp_permitted h p c -> exists p' h', make_udp_call grow c h p = Ok (p', h').
Proof.
  intros grow h0 p0 es h p c U R PM. destruct (C80_udp_history grow h0 p0 es h p U R) as (U' & _).
  now apply udp_call_succeeds.
Qed.
Print Assumptions C80_calls_succeed.

(** the lengths and checksums: the IP length is off by exactly what was detached
    since the last data attachment or reversal, and everything else is right
    unless the last edit was a detachment *)
Theorem C80_lengths : forall grow h0 p0 es h p, udp_agrees h0 p0 ->
  udp_complete (version p0) (rd h0 (Buffer p0)) -> udp_reached grow h0 p0 es h p ->
  let l := fold_left enter es (opening h0 p0 true true) in
  IPTotalLen p = (zlen (rd h (Buffer p)) + lg_excess l) mod 65536 /\
  (version p = V4 -> ip4_valid (rd h (Buffer p))) /\
  (lg_sound l = true -> udp_sound (version p) (rd h (Buffer p))) /\
  (lg_sound l = true -> lg_excess l = 0 -> udp_complete (version p) (rd h (Buffer p))).
Proof.
  intros grow h0 p0 es h p U C R l.
  assert (K : kept_by p0 (rd h0 (Buffer p0)) l h p).
  { apply (udp_history grow); auto. - intros _. now apply complete_sound. - intros _ V. rewrite V in C. apply C. }
  destruct K as (U' & V & _ & _ & _ & T & S & I4 & _).
  assert (IV : lg_ipvalid l = true).
  { unfold l. clear. assert (X : lg_ipvalid (opening h0 p0 true true) = true) by reflexivity. revert X.
    generalize (opening h0 p0 true true). induction es as [|e es IH]; intros l X; [exact X|]. cbn [fold_left]. apply IH.
    destruct e; cbn [enter lg_ipvalid]; auto. }
  rewrite V in *. split; [exact T|]. split; [auto|]. split; [exact S|].
  intros J Z0. rewrite <- V. eapply sound_complete; eauto; rewrite V; auto.
Qed.
Print Assumptions C80_lengths.

(** in a history where every detachment is followed, sooner or later, by a data
    attachment or reversal before the end, the packet is complete; so it is
    whatever happened before the last data attachment or reversal *)
Theorem C80_complete_after_data_partial : forall grow h0 p0 es e es' h p, udp_agrees h0 p0 ->
  (version p0 = V4 -> ip4_valid (rd h0 (Buffer p0))) ->
  udp_reached grow h0 p0 (es ++ e :: es') h p ->
  (exists v, e = EData v) \/ e = EReverse -> ~ In EDetach es' ->
  udp_complete (version p) (rd h (Buffer p)).
Proof.
  intros grow h0 p0 es e es' h p U I R E ND.
  pose proof (udp_history grow h0 p0 false true _ h p U ltac:(discriminate) ltac:(auto) R) as K.
  set (l0 := fold_left enter es (opening h0 p0 false true)) in *. rewrite fold_left_app in K. cbn [fold_left] in K. fold l0 in K.
  assert (I0 : lg_ipvalid l0 = true).
  { unfold l0. clear. assert (X : lg_ipvalid (opening h0 p0 false true) = true) by reflexivity. revert X.
    generalize (opening h0 p0 false true). induction es as [|e es IH]; intros l X; [exact X|]. cbn [fold_left]. apply IH.
    destruct e; cbn [enter lg_ipvalid]; auto. }
  assert (X : lg_sound (enter l0 e) = true /\ lg_excess (enter l0 e) = 0 /\ lg_ipvalid (enter l0 e) = true).
  { destruct E as [(v & ->)| ->]; cbn [enter lg_sound lg_excess lg_ipvalid]; auto. }
  revert K X. generalize (enter l0 e). induction es' as [|e' es' IH] using rev_ind; intros l K (X1 & X2 & X3).
  - cbn [fold_left] in K. destruct K as (U' & V & _ & _ & _ & T & S & I4 & _).
    eapply sound_complete; eauto; rewrite V; auto.
  - clear IH. assert (Y : forall es l, ~ In EDetach es -> lg_sound l = true /\ lg_excess l = 0 /\ lg_ipvalid l = true ->
      lg_sound (fold_left enter es l) = true /\ lg_excess (fold_left enter es l) = 0 /\ lg_ipvalid (fold_left enter es l) = true).
    { clear. induction es as [|e es IH]; intros l N X; [exact X|]. cbn [fold_left]. apply IH; [intros D; apply N; right; exact D|].
      destruct X as (X1 & X2 & X3). destruct e; cbn [enter lg_sound lg_excess lg_ipvalid]; auto. exfalso. apply N. left. reflexivity. }
    destruct (Y _ l ND (conj X1 (conj X2 X3))) as (Y1 & Y2 & Y3).
    destruct K as (U' & V & _ & _ & _ & T & S & I4 & _).
    eapply sound_complete; eauto; rewrite V; auto.
Qed.
Print Assumptions C80_complete_after_data_partial.

(** detaching the data and attaching a token leaves an IP length field that
    still counts the detached data: 4 octets too many here *)
Definition h80 : heap := [udp4_sample; [5; 6]; [7; 8; 9]].
Theorem C80_complete_refuted : exists grow h p p' h',
  udp_agrees h p /\ udp_complete (version p) (rd h (Buffer p)) /\
  udp_reached grow h p [EDetach; EToken [5; 6; 7; 8; 9]] h' p' /\
  zlen (rd h' (Buffer p')) = 33 /\ ip4_total (rd h' (Buffer p')) = 37 /\ udp_length (rd h' (Buffer p')) 20 = 13 /\
  ip4_valid (rd h' (Buffer p')).
Proof.
  pose (d := mkSl 1 0 2 2). pose (t := mkSl 2 0 3 3).
  assert (X : exists p1 p' h', UDPDataDetach (snd u4) = Ok p1 /\ UDPTokenAttach (fun _ _ => 0%nat) h80 p1 d t = Ok (p', h') /\
    zlen (rd h80 (Buffer p1) ++ rd h80 d ++ rd h80 t) < 65536 /\
    zlen (rd h' (Buffer p')) = 33 /\ ip4_total (rd h' (Buffer p')) = 37 /\ udp_length (rd h' (Buffer p')) 20 = 13 /\
    ip4_valid (rd h' (Buffer p'))).
  { do 3 eexists. do 6 (split; [vm_compute; reflexivity|]). vm_compute; reflexivity. }
  destruct X as (p1 & p' & h' & E1 & E2 & L & X). exists (fun _ _ => 0%nat), h80, (snd u4), p', h'.
  assert (U : udp_agrees h80 (snd u4)) by (udp_state_tac (mkSl 0 0 32 32)).
  split; [exact U|]. split. { vm_compute. repeat split. } split; [|exact X].
  change [EDetach; EToken [5; 6; 7; 8; 9]] with (([] ++ [event_of h80 UDetach]) ++ [event_of h80 (UToken d t)]).
  eapply udp_reached_call with (h := h80) (p := p1).
  - eapply udp_reached_call with (h := h80) (p := snd u4); [constructor|exact Logic.I|].
    cbn [make_udp_call]. rewrite E1. reflexivity.
  - cbn [udp_permitted]. split; [vm_compute; split; [lia|right; lia]|]. split; [vm_compute; split; [lia|right; lia]|].
    split; [unfold d, h80; bytes_tac|]. split; [unfold t, h80; bytes_tac|]. exact L.
  - exact E2.
Qed.
Print Assumptions C80_complete_refuted.

Example C80_hypotheses_met : exists h p, 
  udp_agrees h80 (snd u4) /\ udp_complete (version (snd u4)) (rd h80 (Buffer (snd u4))) /\
  udp_reached (fun _ _ => 0%nat) h80 (snd u4) [EDetach; EData [5; 6; 7; 8; 9]; EReverse; EToken [7; 8; 9; 5; 6]; EUpdIP] h p /\
  rd h (Buffer p) = [69;0;0;33; 0;7;0;0; 64;17;102;195; 10;0;0;2; 10;0;0;1; 3;232;0;53; 0;13;0;0; 7;8;9;5;6].
Proof.
  pose (d := mkSl 1 0 2 2). pose (t := mkSl 2 0 3 3). pose (g := fun _ _ : nat => 0%nat).
  assert (X : exists p1 p2 h2 p3 h3 p4 h4 p5 h5, UDPDataDetach (snd u4) = Ok p1 /\ UDPDataAttach g h80 p1 d t = Ok (p2, h2) /\
    CreateReverseFlowPacket h2 p2 = Ok (p3, h3) /\ UDPTokenAttach g h3 p3 t d = Ok (p4, h4) /\ UpdateIPv4Checksum h4 p4 = Ok (p5, h5) /\
    zlen (rd h80 (Buffer p1) ++ rd h80 d ++ rd h80 t) < 65536 /\ zlen (rd h3 (Buffer p3) ++ rd h3 t ++ rd h3 d) < 65536 /\
    s_arr (Buffer p1) = 0%nat /\ rd h3 d = [5; 6] /\ rd h3 t = [7; 8; 9] /\ valid h3 d /\ valid h3 t /\ version p4 = V4 /\
    rd h5 (Buffer p5) = [69;0;0;33; 0;7;0;0; 64;17;102;195; 10;0;0;2; 10;0;0;1; 3;232;0;53; 0;13;0;0; 7;8;9;5;6]).
  { do 9 eexists. do 10 (split; [vm_compute; reflexivity|]). split; [vm_compute; split; [lia|right; lia]|].
    split; [vm_compute; split; [lia|right; lia]|]. split; vm_compute; reflexivity. }
  destruct X as (p1 & p2 & h2 & p3 & h3 & p4 & h4 & p5 & h5 & E1 & E2 & E3 & E4 & E5 & L1 & L2 & AR & RD & RT & VD & VT & V4' & X).
  exists h5, p5. split; [udp_state_tac (mkSl 0 0 32 32)|]. split. { vm_compute. repeat split. } split; [|exact X].
  assert (R1 : udp_reached g h80 (snd u4) ([] ++ [event_of h80 UDetach]) h80 p1).
  { eapply udp_reached_call with (h := h80) (p := snd u4); [constructor|exact Logic.I|]. cbn [make_udp_call]. rewrite E1. reflexivity. }
  eapply udp_reached_call with (c := UAttach d t) in R1; [|clear R1|exact E2].
  2:{ cbn [udp_permitted]. split; [vm_compute; split; [lia|right; lia]|]. split; [vm_compute; split; [lia|right; lia]|].
      split; [unfold d, h80; bytes_tac|]. split; [unfold t, h80; bytes_tac|]. split; [|exact L1].
      right. right. right. left. cbn [s_arr]. rewrite AR. vm_compute. discriminate. }
  eapply udp_reached_call with (c := UReverse) in R1; [|exact Logic.I|exact E3].
  eapply udp_reached_call with (c := UToken t d) in R1; [|clear R1|exact E4].
  2:{ cbn [udp_permitted]. split; [exact VT|]. split; [exact VD|]. rewrite RT, RD in *. split; [bytes_tac|]. split; [bytes_tac|]. exact L2. }
  eapply udp_reached_call with (c := UUpdIP) in R1; [|exact V4'|exact E5].
  cbn [event_of app] in R1. rewrite RD, RT in R1. exact R1.
Qed.
