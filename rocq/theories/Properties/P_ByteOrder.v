(** The byte order the package uses: C104. *)
From Verif Require Import Proof.RecvFacts Proof.Requests Proof.Verdict Proof.CommonProps Spec.ByteOrderSpec.

Lemma found_order m : (if nth 0 (put32 m 16909060) 0 =? 1 then BE else LE) = m.
Proof. destruct m; reflexivity. Qed.
Lemma request_is m r data : request_with (Some m) r data = Ok (hdr_bytes m r ++ data).
Proof. rewrite <- send_bytes_ok. unfold request_with, send_bytes, nlmsghdr_stores. rewrite NativeEndian_id. reflexivity. Qed.
Lemma right_step m u : right_answer m u (snd (use_step m (Some m) u)).
Proof.
  destruct u as [|h attr|v id|r data]; cbn [use_step snd right_answer].
  - reflexivity.
  - intros t s1 s3 s10 -> A1 A3 A10 L1 L3. f_equal.
    pose proof (packet_info m h t s1 s3 s10 A1 A3 A10) as X.
    destruct (Nat.ltb_spec (length (rd h s1)) 4); [lia|]. destruct (Nat.ltb_spec (length (rd h s3)) 4); [lia|].
    cbn [orb] in X. rewrite <- X. unfold GetPacketInfo. rewrite NativeEndian_id. reflexivity.
  - intros RV RI. exists (put32 BE v ++ put32 m id). split; [f_equal; destruct m; reflexivity|].
    split; [destruct m; reflexivity|].
    replace (field (put32 BE v ++ put32 m id) 0 4) with (put32 BE v) by (destruct m; reflexivity).
    replace (field (put32 BE v ++ put32 m id) 4 4) with (put32 m id) by (destruct m; reflexivity).
    rewrite !num_put32. unfold is_u32 in *. rewrite !Z.mod_small by lia. auto.
  - intros R1 R2 R3 R4 R5. exists (hdr_bytes m r ++ data). split; [f_equal; apply request_is|].
    split; [rewrite app_length, hdr_bytes_length; reflexivity|]. unfold is_u32, is_u16 in *.
    do 5 (split; [destruct m; cbn; lia|]). destruct m; reflexivity.
Qed.
Lemma uses_app m native l1 l2 : exists native' g1, length g1 = length l1 /\
  uses m native (l1 ++ l2) = g1 ++ uses m native' l2 /\
  (native = Some m -> native' = Some m) /\ (native = None -> In UseNew l1 -> native' = Some m).
Proof.
  revert native. induction l1 as [|u l1 IH]; intros native.
  - exists native, []. cbn. intuition.
  - cbn [app uses]. destruct (use_step m native u) as [n1 g] eqn:S. destruct (IH n1) as (n2 & g1 & L & E & K1 & K2).
    exists n2, (g :: g1). split; [cbn; congruence|]. split; [cbn; now rewrite E|].
    assert (N1 : native = Some m -> n1 = Some m).
    { intros ->. destruct u; cbn in S; congruence. }
    split; [auto|]. intros -> [->|I].
    + apply K1. cbn in S. unfold nfqueueinit in S. rewrite found_order in S. congruence.
    + destruct u; cbn in S; try (apply K2; congruence). apply K1. unfold nfqueueinit in S. rewrite found_order in S. congruence.
Qed.
Lemma uses_right m : forall l, Forall2 (right_answer m) l (uses m (Some m) l).
Proof.
  induction l as [|u l IH]; [constructor|]. cbn [uses]. pose proof (right_step m u) as X.
  destruct (use_step m (Some m) u) as [n g] eqn:S. constructor; [exact X|].
  assert (n = Some m) as -> by (destruct u; cbn in S; congruence). exact IH.
Qed.

(** Once a queue has been created, every later use gets the right answer, whatever
    was done before and after. *)
Theorem C104_right_after_first_queue : forall m l1 l2, In UseNew l1 ->
  exists g1 g2, uses m None (l1 ++ l2) = g1 ++ g2 /\ length g1 = length l1 /\ Forall2 (right_answer m) l2 g2.
Proof.
  intros m l1 l2 I. destruct (uses_app m None l1 l2) as (n & g1 & L & E & _ & K).
  rewrite (K eq_refl I) in E. exists g1, (uses m (Some m) l2). split; [exact E|]. split; [exact L|]. apply uses_right.
Qed.
Print Assumptions C104_right_after_first_queue.

(** Before that, the uses that need the byte order panic, and the others get what
    they would get later. *)
Theorem C104_before_first_queue : forall m l, ~ In UseNew l ->
  Forall2 (fun u g => (needs_order u -> panics g) /\ (~ needs_order u -> [g] = uses m (Some m) [u])) l (uses m None l).
Proof.
  intros m. induction l as [|u l IH]; intros N; [constructor|]. cbn [uses].
  destruct (use_step m None u) as [n g] eqn:S.
  assert (NN : ~ In UseNew l) by (intros X; apply N; now right).
  destruct u as [|h attr|v id|r data]; cbn in S; injection S as <- <-.
  - exfalso. apply N. now left.
  - constructor; [|apply IH, NN]. split.
    + intros (t & s & -> & A). left. unfold packet_info_with. cbn [order_of]. change NfqaPacketHdr with 1. rewrite A. reflexivity.
    + intros X. cbn [uses use_step]. do 2 f_equal. unfold packet_info_with. destruct attr as [t|]; [|reflexivity].
      change NfqaPacketHdr with 1. destruct (amap_get t 1) as [s|] eqn:A; [|reflexivity]. exfalso. apply X. cbn. eauto.
  - constructor; [|apply IH, NN]. split; [|cbn; tauto]. intros _. right. reflexivity.
  - constructor; [|apply IH, NN]. split; [|cbn; tauto]. intros _. right. reflexivity.
Qed.
Print Assumptions C104_before_first_queue.
(** so the full claim, a right answer to every use, is false *)
Theorem C104_every_use_right_refuted : forall m, exists u g,
  uses m None [u] = [g] /\ panics g /\ ~ right_answer m u g.
Proof.
  intros m. exists (UseHeader 1 258), (GotBytes Panic). split; [reflexivity|]. split; [now right|].
  intros X. destruct X as (b & X & _); [unfold is_u32; lia|unfold is_u32; lia|discriminate].
Qed.
Print Assumptions C104_every_use_right_refuted.

(** ** Queues created from several goroutines *)
Lemma set_pc_nth l : forall i x j, nth_error (set_pc l i x) j = if (i =? j)%nat then match nth_error l i with Some _ => Some x | None => None end else nth_error l j.
Proof.
  induction l as [|y l IH]; intros i x j; [destruct i, j; cbn; try reflexivity; now destruct (i =? j)%nat|].
  destruct i, j; cbn; try reflexivity. apply IH.
Qed.
(** Any number of them, in any order: the variable is never anything but nil or the
    machine's order, it never goes back to nil, and whoever has finished has it set. *)
Theorem C104_concurrent_creation : forall m n sched,
  let s := init_run m (None, repeat Looking n) sched in
  (fst s = None \/ fst s = Some m) /\
  (forall i, nth_error (snd s) i = Some Finished -> fst s = Some m) /\
  forall more, fst s = Some m -> fst (init_run m s more) = Some m.
Proof.
  intros m n sched.
  pose (inv := fun s : option endian * list init_pc => (fst s = None \/ fst s = Some m) /\
    forall i, nth_error (snd s) i = Some Finished -> fst s = Some m).
  assert (ST : forall l s, inv s -> inv (init_run m s l)).
  { induction l as [|i l IH]; intros s IV; [exact IV|]. cbn [init_run].
    destruct (nth_error (snd s) i) as [pc|] eqn:P; [|apply IH, IV].
    destruct (init_step m (fst s) pc) as [n' pc'] eqn:S. apply IH. destruct IV as [I1 I2].
    unfold init_step in S. rewrite found_order in S.
    split; cbn [fst snd].
    - destruct pc; [destruct (fst s) eqn:F|..]; injection S as <- <-; auto.
    - intros j. rewrite set_pc_nth, P. destruct (Nat.eqb_spec i j) as [->|NE].
      + intros Q. injection Q as ->. destruct pc; [destruct (fst s) as [e|] eqn:F|..]; injection S; try discriminate.
        * intros <-. destruct I1 as [I1|I1]; [discriminate|exact I1].
        * intros <-. reflexivity.
        * intros <-. eapply I2; eauto.
      + intros Q. specialize (I2 j Q). destruct pc; [destruct (fst s) eqn:F|..]; injection S; intros _ <-; auto; discriminate. }
  assert (FX : forall l s, inv s -> fst s = Some m -> fst (init_run m s l) = Some m).
  { induction l as [|i l IH]; intros s IV F; [exact F|]. cbn [init_run].
    destruct (nth_error (snd s) i) as [pc|] eqn:P; [|apply IH; auto].
    pose proof (ST [i] s IV) as IV'. cbn [init_run] in IV'. rewrite P in IV'.
    destruct (init_step m (fst s) pc) as [n' pc'] eqn:S. apply IH; [exact IV'|]. cbn [fst].
    unfold init_step in S. rewrite found_order, F in S. destruct pc; injection S; congruence. }
  cbv zeta. assert (IV : inv (init_run m (None, repeat Looking n) sched)).
  { apply ST. split; [now left|]. cbn [fst snd]. intros i X. apply nth_error_In, repeat_spec in X. discriminate. }
  split; [apply IV|]. split; [apply IV|]. intros more F. apply FX; auto.
Qed.
Print Assumptions C104_concurrent_creation.
(** But nothing orders their accesses: two of them can be about to write the variable
    at the same time, which Go calls a data race. *)
Theorem C104_creation_race_free_refuted : forall m, exists sched,
  let s := init_run m (None, repeat Looking 2) sched in
  nth_error (snd s) 0 = Some Writing /\ nth_error (snd s) 1 = Some Writing.
Proof. intros m. exists [0;1]%nat. split; reflexivity. Qed.
Print Assumptions C104_creation_race_free_refuted.

(** a history: a header asked for too early, a queue, and then an id and a header *)
Example C104_case :
  let h := [[2;1;0;0]; [0;0;1;7]; [69]] in
  let t := [(1, mkSl 0 0 4 4); (3, mkSl 1 0 4 4); (10, mkSl 2 0 1 1)] in
  uses LE None [UseHeader 1 258; UseNew; UseInfo h (Some t); UseHeader 1 258] =
  [GotBytes Panic; GotNew; GotInfo (Ok (258, 263, mkSl 2 0 1 1)); GotBytes (Ok [0;0;0;1; 2;1;0;0])].
Proof. reflexivity. Qed.
(** three goroutines, interleaved *)
Example C104_schedule_case :
  init_run BE (None, repeat Looking 3) [0;1;0;2;1]%nat = (Some BE, [Finished; Finished; Finished]).
Proof. reflexivity. Qed.
