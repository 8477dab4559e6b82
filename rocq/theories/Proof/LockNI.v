(** Goroutines with disjoint footprints except for one array guarded by a mutex (C79). *)
From Verif Require Export Proof.LoopConc Spec.LockSpec.

Fixpoint strip (l : list linstr) : list instr :=
  match l with [] => [] | LDo x :: l' => x :: strip l' | _ :: l' => strip l' end.
Lemma strip_app a b : strip (a ++ b) = strip a ++ strip b.
Proof. induction a as [|[] a IH]; cbn; auto. now rewrite IH. Qed.
Lemma strip_do l : strip (map LDo l) = l.
Proof. induction l as [|x l IH]; cbn; congruence. Qed.

(** inside a critical section: the instructions since the mutex was taken *)
Definition istep (st : option (list instr)) (x : linstr) : option (list instr) :=
  match x with LAcq => Some [] | LRel => None | LDo y => option_map (fun l => l ++ [y]) st end.
Definition inside (pre : list linstr) : option (list instr) := fold_left istep pre None.
Lemma inside_snoc pre x : inside (pre ++ [x]) = istep (inside pre) x.
Proof. unfold inside. rewrite fold_left_app. reflexivity. Qed.

Section LNI.
Variable A : nat.   (* the guarded array *)
Definition okstep (st : option (list instr)) (x : linstr) : Prop :=
  match x with
  | LAcq => st = None
  | LRel => st <> None
  | LDo y => forall k, touch y A k -> exists crit, st = Some crit /\ (write y A k \/ writes crit A k)
  end.
Fixpoint wfc (st : option (list instr)) (code : list linstr) : Prop :=
  match code with [] => st = None | x :: r => okstep st x /\ wfc (istep st x) r end.

Lemma wfc_app code1 : forall st code2, wfc st code1 -> wfc None code2 -> wfc st (code1 ++ code2).
Proof.
  induction code1 as [|x c IH]; intros st code2 H1 H2; cbn [app wfc] in *; [now subst|].
  destruct H1 as [H1 H3]. auto.
Qed.
Lemma wfc_at pre : forall st x rest, wfc st (pre ++ x :: rest) -> okstep (fold_left istep pre st) x.
Proof. induction pre as [|y pre IH]; intros st x rest H; cbn in *; [apply H|]. apply (IH _ _ rest). apply H. Qed.
Lemma wfc_end code : forall st, wfc st code -> fold_left istep code st = None.
Proof. induction code as [|y c IH]; intros st H; cbn in *; [exact H|]. apply IH. apply H. Qed.
Lemma wfc_free l : (forall x k, In x l -> ~ touch x A k) -> wfc None (map LDo l).
Proof.
  induction l as [|x l IH]; intros H; cbn [map wfc istep option_map]; [reflexivity|]. split.
  - intros k T. exfalso. apply (H x k); [now left|exact T].
  - apply IH. intros y k I. apply H. now right.
Qed.
Lemma wfc_crit_aux l : forall crit,
  (forall p y s k, l = p ++ y :: s -> touch y A k -> write y A k \/ writes (crit ++ p) A k) ->
  wfc (Some crit) (map LDo l ++ [LRel]).
Proof.
  induction l as [|x l IH]; intros crit H; cbn [map app wfc istep option_map].
  - split; [discriminate|reflexivity].
  - split.
    + intros k T. exists crit. split; [reflexivity|]. destruct (H [] x l k eq_refl T) as [W|W]; [now left|right].
      now rewrite app_nil_r in W.
    + apply IH. intros p y s k E T. destruct (H (x :: p) y s k) as [W|W]; [now rewrite E|exact T|now left|right].
      rewrite <- app_assoc. exact W.
Qed.
Lemma wfc_crit l :
  (forall p y s k, l = p ++ y :: s -> touch y A k -> write y A k \/ writes p A k) ->
  wfc None (LAcq :: map LDo l ++ [LRel]).
Proof. intros H. cbn [wfc istep okstep]. split; [reflexivity|]. apply wfc_crit_aux. exact H. Qed.

Lemma exec_agree_w x t mm mm' (F : nat -> nat -> Prop) :
  (forall a k, touch x a k -> F a k \/ write x a k) -> (forall a k, F a k -> mm a k = mm' a k) ->
  fst (fst (exec x t mm)) = fst (fst (exec x t mm')) /\ snd (exec x t mm) = snd (exec x t mm') /\
  (forall a k, F a k \/ write x a k -> snd (fst (exec x t mm)) a k = snd (fst (exec x t mm')) a k).
Proof.
  intros T AG. destruct x; cbn in *; try (repeat split; intros; apply AG; tauto).
  - repeat split. intros a' k' H. unfold mset.
    destruct (Nat.eqb_spec a' a), (Nat.eqb_spec k' i); cbn; auto; destruct H as [H|[? ?]]; auto; congruence.
  - rewrite (AG a i) by (destruct (T a i (conj eq_refl eq_refl)); tauto).
    repeat split; intros; apply AG; tauto.
  - rewrite (AG a i) by (destruct (T a i (conj eq_refl eq_refl)); tauto).
    repeat split; intros; apply AG; tauto.
Qed.

Variable codes : list (list linstr).
Variable m0 : mem.
Hypothesis DISJ : forall i j ci cj a k, i <> j ->
  nth_error codes i = Some ci -> nth_error codes j = Some cj ->
  writes (strip cj) a k -> touches (strip ci) a k -> a = A.
Hypothesis WF : forall i ci, nth_error codes i = Some ci -> wfc None ci.

Definition lk_inv (c : lconf) : Prop :=
  forall i t rest, nth_error (l_threads c) i = Some (t, rest) ->
  exists code pre, nth_error codes i = Some code /\ code = pre ++ rest /\
    fst (fst (srun (strip pre) idle m0)) = t /\ sent_by i (l_log c) = snd (srun (strip pre) idle m0) /\
    (forall a k, touches (strip code) a k -> a <> A -> l_mem c a k = snd (fst (srun (strip pre) idle m0)) a k) /\
    (forall crit k, inside pre = Some crit -> writes crit A k ->
       l_mem c A k = snd (fst (srun (strip pre) idle m0)) A k) /\
    (inside pre <> None <-> l_owner c = Some i).

Lemma lk_step c c' : lk_inv c -> lstep c c' -> lk_inv c'.
Proof.
  intros IV S. destruct S as [i t code ts mm log N|i t code ts mm log N|i t x code ts mm o log N];
    pose proof (IV i _ _ N) as (full & pre & F1 & F2 & F3 & F4 & F5 & F6 & F7); cbn [l_threads l_mem l_log l_owner] in *;
    pose proof (WF i full F1) as W; rewrite F2 in W; pose proof (wfc_at pre None _ _ W) as OK; fold (inside pre) in OK.
  - (* Lock *)
    intros j tj rest Hj. cbn [l_threads l_log l_mem l_owner] in *. rewrite nth_error_set_nth in Hj.
    destruct (Nat.eqb_spec j i) as [->|NE].
    + rewrite N in Hj. injection Hj as <- <-. exists full, (pre ++ [LAcq]).
      rewrite strip_app, inside_snoc. cbn [strip istep]. rewrite app_nil_r.
      split; [exact F1|]. split; [rewrite <- app_assoc; exact F2|]. split; [exact F3|]. split; [exact F4|]. split; [exact F5|].
      split; [|split; [reflexivity|discriminate]]. intros crit k E (y & Iy & _). injection E as <-. destruct Iy.
    + destruct (IV j tj rest Hj) as (fj & pj & G1 & G2 & G3 & G4 & G5 & G6 & G7). cbn [l_owner] in G7.
      exists fj, pj. repeat (split; [assumption|]). split; [intros X; apply G7 in X; discriminate|].
      intros X. injection X as X. congruence.
  - (* Unlock *)
    intros j tj rest Hj. cbn [l_threads l_log l_mem l_owner] in *. rewrite nth_error_set_nth in Hj.
    destruct (Nat.eqb_spec j i) as [->|NE].
    + rewrite N in Hj. injection Hj as <- <-. exists full, (pre ++ [LRel]).
      rewrite strip_app, inside_snoc. cbn [strip istep]. rewrite app_nil_r.
      split; [exact F1|]. split; [rewrite <- app_assoc; exact F2|]. split; [exact F3|]. split; [exact F4|]. split; [exact F5|].
      split; [discriminate|split; [congruence|discriminate]].
    + destruct (IV j tj rest Hj) as (fj & pj & G1 & G2 & G3 & G4 & G5 & G6 & G7). cbn [l_owner] in G7.
      exists fj, pj. repeat (split; [assumption|]). split; [|discriminate].
      intros X. apply G7 in X. injection X as X. congruence.
  - (* an instruction *)
    intros j tj rest Hj. cbn [l_threads l_log l_mem l_owner] in *. rewrite nth_error_set_nth in Hj.
    destruct (Nat.eqb_spec j i) as [->|NE].
    + rewrite N in Hj. injection Hj as <- <-. exists full, (pre ++ [LDo x]).
      rewrite strip_app, inside_snoc. cbn [strip istep].
      split; [exact F1|]. split; [rewrite <- app_assoc; exact F2|].
      rewrite srun_app. destruct (srun (strip pre) idle m0) as [[t1 m1] o1] eqn:SR. cbn [fst snd] in *. subst t1.
      assert (TX : forall a k, touch x a k -> touches (strip full) a k).
      { intros a k T. exists x. split; [|exact T]. rewrite F2, strip_app. apply in_or_app. right. cbn. now left. }
      destruct (exec_agree_w x t mm m1
        (fun a k => (a <> A /\ touches (strip full) a k) \/ (a = A /\ exists crit, inside pre = Some crit /\ writes crit A k)))
        as (A1 & A2 & A3).
      { intros a k T. destruct (Nat.eq_dec a A) as [->|NA]; [|left; left; split; [exact NA|auto]].
        destruct (OK k T) as (crit & E & [X|X]); [now right|left; right]. split; [reflexivity|]. eauto. }
      { intros a k [[NA T]|[-> (crit & E & X)]]; [now apply F5|]. now apply (F6 crit). }
      cbn [srun]. destruct (exec x t m1) as [[t2 m2] o2]. cbn [fst snd] in *.
      split; [congruence|]. split; [rewrite sent_by_app, sent_by_same, F4, A2, app_nil_r; reflexivity|].
      split; [intros a k T NA; apply A3; left; left; auto|]. split.
      * intros crit k E X. apply A3. destruct (inside pre) as [cr|] eqn:EI; [|discriminate]. injection E as <-.
        destruct X as (y & Iy & Wy). apply in_app_or in Iy as [Iy|[<-|[]]]; [|now right].
        left. right. split; [reflexivity|]. exists cr. split; [reflexivity|]. exists y. auto.
      * rewrite <- F7. destruct (inside pre); cbn; split; intros X; try discriminate; congruence.
    + destruct (IV j tj rest Hj) as (fj & pj & G1 & G2 & G3 & G4 & G5 & G6 & G7). cbn [l_owner l_mem l_log] in *.
      exists fj, pj. split; [exact G1|]. split; [exact G2|]. split; [exact G3|].
      split; [rewrite sent_by_app, sent_by_other by exact NE; rewrite app_nil_r; exact G4|].
      assert (WX : forall a k, write x a k -> writes (strip full) a k).
      { intros a k T. exists x. split; [|exact T]. rewrite F2, strip_app. apply in_or_app. right. cbn. now left. }
      split; [|split; [|exact G7]].
      * intros a k T NA. rewrite <- G5 by assumption. apply exec_mem. intros X.
        apply NA. exact (DISJ j i fj full a k NE G1 F1 (WX a k X) T).
      * intros crit k E X. rewrite <- (G6 crit) by assumption. apply exec_mem. intros Y.
        assert (O1 : o = Some j) by (apply G7; congruence).
        destruct (OK k) as (cr & E' & _); [destruct x; cbn in *; tauto|].
        assert (O2 : o = Some i) by (apply F7; congruence). congruence.
Qed.
Lemma lk_steps c c' : lsteps c c' -> lk_inv c -> lk_inv c'.
Proof. induction 1 as [c|c c1 c2 H IH S]; intros IV; [exact IV|]. exact (lk_step c1 c2 (IH IV) S). Qed.

Lemma lsteps_trans c c' c'' : lsteps c c' -> lsteps c' c'' -> lsteps c c''.
Proof. intros H1 H2. revert H1. induction H2 as [|x y z _ IH S]; intros H1; [assumption|]. exact (lsteps_next _ _ _ (IH H1) S). Qed.
Lemma lstep_length c c' : lstep c c' -> length (l_threads c') = length (l_threads c).
Proof. destruct 1; cbn [l_threads]; apply set_nth_length. Qed.
Lemma lsteps_length c c' : lsteps c c' -> length (l_threads c') = length (l_threads c).
Proof. induction 1 as [|c c1 c2 _ IH S]; [reflexivity|]. rewrite (lstep_length _ _ S). exact IH. Qed.

(** no deadlock *)
Definition todo (c : lconf) : nat := list_sum (map (fun t => length (snd t)) (l_threads c)).
Lemma todo_set ts i (t : tstate) (x : linstr) code t' : nth_error ts i = Some (t, x :: code) ->
  S (list_sum (map (fun u => length (snd u)) (set_nth i (t', code) ts))) =
  list_sum (map (fun u : tstate * list linstr => length (snd u)) ts).
Proof.
  revert i. induction ts as [|y ts IH]; intros i H; [destruct i; discriminate|]. destruct i; cbn in *.
  - injection H as ->. reflexivity.
  - specialize (IH i H). unfold list_sum in *. lia.
Qed.
Lemma lk_progress c : lk_inv c -> (forall i, l_owner c = Some i -> (i < length (l_threads c))%nat) ->
  todo c <> 0%nat -> exists c', lstep c c' /\ S (todo c') = todo c.
Proof.
  intros IV OW TD. destruct c as [ts mm o log]. unfold todo in *. cbn [l_threads l_owner] in *.
  assert (GO : forall i t x rest, nth_error ts i = Some (t, x :: rest) ->
     (x = LAcq -> o = None) -> (x = LRel -> o = Some i) ->
     exists c', lstep (mkLC ts mm o log) c' /\ S (list_sum (map (fun t => length (snd t)) (l_threads c'))) =
       list_sum (map (fun u : tstate * list linstr => length (snd u)) ts)).
  { intros i t x rest H H1 H2. destruct x.
    - rewrite H1 by reflexivity. eexists. split; [apply lstep_acq; exact H|]. cbn [l_threads]. eapply todo_set; eauto.
    - rewrite H2 by reflexivity. eexists. split; [apply lstep_rel; exact H|]. cbn [l_threads]. eapply todo_set; eauto.
    - eexists. split; [apply lstep_do; exact H|]. cbn [l_threads]. eapply todo_set; eauto. }
  destruct o as [i|].
  - specialize (OW i eq_refl). destruct (nth_error ts i) as [[t rest]|] eqn:E; [|apply nth_error_None in E; lia].
    destruct (IV i t rest E) as (full & pre & F1 & F2 & _ & _ & _ & _ & F7). cbn [l_owner] in F7.
    assert (NI : inside pre <> None) by now apply F7.
    destruct rest as [|x rest].
    + exfalso. rewrite app_nil_r in F2. subst pre. apply NI. apply wfc_end. eauto.
    + apply (GO i t x rest E); [|reflexivity]. intros ->. pose proof (WF i full F1) as W. rewrite F2 in W.
      apply wfc_at in W. cbn in W. fold (inside pre) in W. congruence.
  - assert (X : exists i t x rest, nth_error ts i = Some (t, x :: rest)).
    { clear - TD. induction ts as [|[t [|x r]] ts IH]; [now destruct TD| |exists 0%nat; cbn; eauto].
      destruct (IH TD) as (i & H). exists (S i). exact H. }
    destruct X as (i & t & x & rest & E). apply (GO i t x rest E); [reflexivity|]. intros ->. exfalso.
    destruct (IV i t _ E) as (full & pre & F1 & F2 & _ & _ & _ & _ & F7). cbn [l_owner] in F7.
    pose proof (WF i full F1) as W. rewrite F2 in W. apply wfc_at in W. cbn in W. apply F7 in W. discriminate.
Qed.
Lemma own_step c c' : lstep c c' -> (forall i, l_owner c = Some i -> (i < length (l_threads c))%nat) ->
  forall i, l_owner c' = Some i -> (i < length (l_threads c'))%nat.
Proof.
  intros S OW i H. rewrite (lstep_length _ _ S). destruct S as [j ? ? ? ? ? N| |]; cbn [l_owner l_threads] in *; [|discriminate|auto].
  injection H as ->. apply nth_error_Some. congruence.
Qed.
Lemma lk_finish n : forall c, lk_inv c -> (forall i, l_owner c = Some i -> (i < length (l_threads c))%nat) ->
  todo c = n -> exists c', lsteps c c' /\ lfinished c'.
Proof.
  induction n as [|n IH]; intros c IV OW TD.
  - exists c. split; [constructor|]. clear IV OW. unfold lfinished, todo in *.
    induction (l_threads c) as [|[t code] l IHl]; [constructor|].
    cbn [map list_sum fold_right snd] in TD. destruct code; [|discriminate]. constructor; [reflexivity|]. apply IHl. exact TD.
  - destruct (lk_progress c IV OW) as (c1 & S & T); [lia|].
    destruct (IH c1) as (c2 & S2 & F); [eapply lk_step; eauto|eapply own_step; eauto|lia|].
    exists c2. split; [|exact F]. eapply lsteps_trans; [|exact S2]. eapply lsteps_next; [constructor|exact S].
Qed.
Lemma own_steps c c' : lsteps c c' -> (forall i, l_owner c = Some i -> (i < length (l_threads c))%nat) ->
  forall i, l_owner c' = Some i -> (i < length (l_threads c'))%nat.
Proof. induction 1 as [|c c1 c2 _ IH S]; intros OW; [exact OW|]. eapply own_step; eauto. Qed.
End LNI.
