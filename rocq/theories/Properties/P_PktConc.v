(** Goroutines looking at packets at the same time: C68. *)
From Verif Require Import Proof.PktConc Spec.PktSamples Properties.P_PktOps.

(** Goroutines verifying checksums and collecting the bytes of packets, interleaved
    byte access by byte access in any way, where no goroutine looks at a packet
    another one verifies: every call answers what it answers alone, and memory ends
    as it began. *)
Theorem C68_concurrent_partial : forall h threads c,
  Forall (Forall (call_ok h)) threads -> separate_threads threads ->
  psteps (pinit threads h) c -> finished c ->
  length (pc_threads c) = length threads /\
  (forall i cs, nth_error threads i = Some cs -> exists t, nth_error (pc_threads c) i = Some (t, []) /\
     Forall2 (answered h) cs (pt_done t)) /\
  (forall a k, pc_mem c a k = nth k (arr h a) 0).
Proof. exact concurrent_calls. Qed.
Print Assumptions C68_concurrent_partial.
(** every interleaving comes to this end: as long as a goroutine has something left
    to do a step is possible, and there are only finitely many *)
Theorem C68_no_deadlock : forall threads h c, psteps (pinit threads h) c ->
  (finished c \/ exists c', pstep c c') /\
  forall c', pstep c c' ->
    (fold_right (fun tc n => length (snd tc) + n) 0 (pc_threads c') < fold_right (fun tc n => length (snd tc) + n) 0 (pc_threads c))%nat.
Proof.
  intros threads h c _. split.
  - unfold finished. destruct c as [ts m]. cbn [pc_threads]. clear.
    assert (X : Forall (fun tc : pthread * list pinstr => snd tc = []) ts \/ exists i t x code, nth_error ts i = Some (t, x :: code)).
    { induction ts as [|[t code] ts IH]; [left; constructor|]. destruct code as [|x code].
      - destruct IH as [IH|(i & t' & x & code & E)]; [left; constructor; auto|right; exists (S i), t', x, code; exact E].
      - right. exists 0%nat, t, x, code. reflexivity. }
    destruct X as [X|(i & t & x & code & E)]; [left; exact X|right]. eexists. apply (pstep_thread i t x code). exact E.
  - intros c' S. inversion S as [i t x code c0 E]; subst. cbn [pc_threads]. clear S.
    generalize (fst (pexec x t (pc_mem c))). intros t'. revert i E.
    induction (pc_threads c) as [|[u k] l IH]; intros [|i] E; try discriminate; cbn [nth_error put_nth fold_right snd] in *.
    + injection E as -> ->. cbn [length]. lia.
    + specialize (IH i E). lia.
Qed.
Print Assumptions C68_no_deadlock.

(** ** Refuted: the same packet in two goroutines *)
Lemma prun_psteps sched : forall c0 c, psteps c0 c -> psteps c0 (prun sched c).
Proof.
  induction sched as [|i sched IH]; intros c0 c S; cbn [prun]; [exact S|].
  destruct (nth_error (pc_threads c) i) as [[t [|x code]]|] eqn:E; auto.
  apply IH. eapply psteps_next; [exact S|]. apply pstep_thread. exact E.
Qed.
(** the sample with its right TCP checksum, 39091 *)
Definition checked : bytes :=
  [69;0;0;48; 18;52;64;0; 64;6;20;146; 10;0;0;1; 10;0;0;2;
   3;232;0;80; 0;0;0;1; 0;0;0;2; 96;24;1;0; 152;179;0;0; 34;4;7;9; 97;98;99;100].
Definition pk (a : nat) : packet :=
  match New [checked; checked] 0 (mkSl a 0 48 48) true with Ok (Some p, _) => p | _ => snd (parsed []) end.
Definition two : heap := [checked; checked].
Lemma pk_ok a : (a < 2)%nat -> tcp_agrees two (pk a) /\ attached_ok two (pk a).
Proof.
  intros H. assert (T : tcp_agrees two (pk a)).
  { apply (new_tcp two 0 (mkSl a 0 48 48) true); destruct a as [|[|a]]; try lia;
      try (vm_compute; split; [lia|right; lia]); try bytes_tac; try (apply Nat.ltb_lt; reflexivity); try reflexivity;
      try (vm_compute; reflexivity); try (apply Nat.leb_le; reflexivity). }
  split; [exact T|]. apply fresh_attached; [apply T| |]; destruct a as [|[|a]]; try lia; reflexivity.
Qed.
Definition sched_lost : list nat := repeat 0%nat 4 ++ repeat 1%nat 4 ++ repeat 0%nat 60 ++ repeat 1%nat 60.
(** after both have verified the packet - which is right, and stays untouched by
    either alone - its checksum is gone *)
Theorem C68_same_packet_refuted : exists h p c,
  tcp_agrees h p /\ attached_ok h p /\ VerifyTCPChecksum h p = Ok (true, h) /\
  psteps (pinit [[CVerify p]; [CVerify p]] h) c /\ finished c /\
  tcp_checksum (rd h (Buffer p)) (hl p) = 39091 /\
  (pc_mem c (s_arr (Buffer p)) (s_off (Buffer p) + hl p + 16)%nat = 0 /\ pc_mem c (s_arr (Buffer p)) (s_off (Buffer p) + hl p + 17)%nat = 0).
Proof.
  exists two, (pk 0), (prun sched_lost (pinit [[CVerify (pk 0)]; [CVerify (pk 0)]] two)).
  split; [apply pk_ok; lia|]. split; [apply pk_ok; lia|]. split; [vm_compute; reflexivity|].
  split; [apply prun_psteps, psteps_refl|]. split; [vm_compute; repeat constructor|]. vm_compute. auto.
Qed.
Print Assumptions C68_same_packet_refuted.
(** one of the two is told that a right checksum is wrong *)
Definition sched_wrong : list nat := repeat 0%nat 2 ++ repeat 1%nat 40 ++ repeat 0%nat 2 ++ repeat 1%nat 60 ++ repeat 0%nat 60.
Theorem C68_wrong_answer_refuted : exists h p c t r,
  tcp_agrees h p /\ attached_ok h p /\ VerifyTCPChecksum h p = Ok (true, h) /\
  psteps (pinit [[CVerify p]; [CVerify p]] h) c /\ finished c /\
  nth_error (pc_threads c) 0 = Some (t, []) /\ pt_done t = [r] /\ verify_answer p r = Ok false.
Proof.
  exists two, (pk 0), (prun sched_wrong (pinit [[CVerify (pk 0)]; [CVerify (pk 0)]] two)).
  do 2 eexists. split; [apply pk_ok; lia|]. split; [apply pk_ok; lia|]. split; [vm_compute; reflexivity|].
  split; [apply prun_psteps, psteps_refl|]. split; [vm_compute; repeat constructor|].
  split; [vm_compute; reflexivity|]. split; [vm_compute; reflexivity|]. vm_compute. reflexivity.
Qed.
Print Assumptions C68_wrong_answer_refuted.
(** a goroutine sending the packet while another verifies it sends it without its checksum *)
Theorem C68_bytes_refuted : exists h p c t r,
  tcp_agrees h p /\ attached_ok h p /\
  psteps (pinit [[CVerify p]; [CBytes p]] h) c /\ finished c /\
  nth_error (pc_threads c) 1 = Some (t, []) /\ pt_done t = [r] /\
  tcp_checksum r (hl p) = 0 /\ tcp_checksum (GetTCPBytes h p) (hl p) = 39091.
Proof.
  exists two, (pk 0), (prun (repeat 0%nat 10 ++ repeat 1%nat 60 ++ repeat 0%nat 60) (pinit [[CVerify (pk 0)]; [CBytes (pk 0)]] two)).
  do 2 eexists. split; [apply pk_ok; lia|]. split; [apply pk_ok; lia|].
  split; [apply prun_psteps, psteps_refl|]. split; [vm_compute; repeat constructor|].
  split; [vm_compute; reflexivity|]. split; [vm_compute; reflexivity|]. vm_compute. auto.
Qed.
Print Assumptions C68_bytes_refuted.
Lemma slices a : (a < 2)%nat -> Buffer (pk a) = mkSl a 0 48 48 /\ tcpOptions (pk a) = snil /\ tcpData (pk a) = snil.
Proof. intros H. destruct a as [|[|a]]; [| |lia]; vm_compute; auto. Qed.
Example C68_hypotheses_met : let threads := [[CVerify (pk 0); CBytes (pk 0)]; [CBytes (pk 1); CVerify (pk 1)]] in
  Forall (Forall (call_ok two)) threads /\ separate_threads threads /\
  exists c, psteps (pinit threads two) c /\ finished c.
Proof.
  intros threads. split; [|split].
  - assert (F : forall a, (a < 2)%nat -> call_ok two (CVerify (pk a)) /\ call_ok two (CBytes (pk a))) by (intros a H; split; apply pk_ok; exact H).
    destruct (F 0%nat) as (F1 & F2); [lia|]. destruct (F 1%nat) as (F3 & F4); [lia|].
    apply Forall_cons; [|apply Forall_cons; [|apply Forall_nil]]; apply Forall_cons; auto.
  - intros i j ci cj c c' N Ei Ej I I' .
    assert (A0 : forall x, In x [CVerify (pk 0); CBytes (pk 0)] -> call_packet x = pk 0) by (intros x [<-|[<-|[]]]; reflexivity).
    assert (A1 : forall x, In x [CBytes (pk 1); CVerify (pk 1)] -> call_packet x = pk 1) by (intros x [<-|[<-|[]]]; reflexivity).
    assert (SP : forall x y, call_packet x = pk 0 /\ call_packet y = pk 1 \/ call_packet x = pk 1 /\ call_packet y = pk 0 -> separate x y).
    { assert (U0 : forall a k, uses (pk 0) a k -> a = 0%nat /\ (k < 48)%nat).
      { intros a k U. unfold uses, covers in U. rewrite (proj1 (slices 0 ltac:(lia))), (proj1 (proj2 (slices 0 ltac:(lia)))), (proj2 (proj2 (slices 0 ltac:(lia)))) in U.
        cbn [s_arr s_off s_len snil] in U. lia. }
      assert (U1 : forall a k, uses (pk 1) a k -> a = 1%nat /\ (k < 48)%nat).
      { intros a k U. unfold uses, covers in U. rewrite (proj1 (slices 1 ltac:(lia))), (proj1 (proj2 (slices 1 ltac:(lia)))), (proj2 (proj2 (slices 1 ltac:(lia)))) in U.
        cbn [s_arr s_off s_len snil] in U. lia. }
      intros [p|p] y H; [|exact Logic.I]. cbn [separate call_packet] in *. intros a k C U.
      assert (C' : uses p a k) by (left; exact C).
      destruct H as [(-> & E)|(-> & E)]; rewrite E in U; [apply U0 in C'; apply U1 in U|apply U1 in C'; apply U0 in U]; lia. }
    destruct i as [|[|i]]; [| |destruct i; discriminate Ei]; destruct j as [|[|j]]; try (now destruct N); try (destruct j; discriminate Ej);
      injection Ei as <-; injection Ej as <-; apply SP; [left|right]; auto.
  - eexists. split; [apply (prun_psteps (repeat 0%nat 50 ++ repeat 1%nat 100 ++ repeat 0%nat 100)), psteps_refl|]. vm_compute. repeat constructor.
Qed.
