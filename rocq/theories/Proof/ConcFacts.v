(** Interleavings: non-interference of goroutines with disjoint footprints. *)
From Verif Require Export Proof.Verdict Model.NfqConc Spec.ConcSpec.

(** ** Running alone *)
Fixpoint srun (l : list instr) (t : tstate) (mm : mem) : tstate * mem * list (Z * bytes) :=
  match l with
  | [] => (t, mm, [])
  | x :: l' =>
      let '(t1, m1, o1) := exec x t mm in
      let '(t2, m2, o2) := srun l' t1 m1 in (t2, m2, o1 ++ o2)
  end.
Lemma srun_app l1 l2 t mm :
  srun (l1 ++ l2) t mm =
  let '(t1, m1, o1) := srun l1 t mm in
  let '(t2, m2, o2) := srun l2 t1 m1 in (t2, m2, o1 ++ o2).
Proof.
  revert t mm. induction l1 as [|x l1 IH]; intros t mm; cbn [app srun].
  - destruct (srun l2 t mm) as [[? ?] ?]. reflexivity.
  - destruct (exec x t mm) as [[t1 m1] o1]. rewrite IH.
    destruct (srun l1 t1 m1) as [[t2 m2] o2]. destruct (srun l2 t2 m2) as [[t3 m3] o3].
    rewrite app_assoc. reflexivity.
Qed.

Definition touch (x : instr) (a k : nat) : Prop :=
  match x with IStore a' k' _ | ICopy a' k' | ILoad a' k' => a = a' /\ k = k' | _ => False end.
Definition write (x : instr) (a k : nat) : Prop :=
  match x with IStore a' k' _ => a = a' /\ k = k' | _ => False end.
Definition touches (l : list instr) (a k : nat) : Prop := exists x, In x l /\ touch x a k.
Definition writes (l : list instr) (a k : nat) : Prop := exists x, In x l /\ write x a k.

Lemma mset_other mm a i b a' i' : ~ (a' = a /\ i' = i) -> mset mm a i b a' i' = mm a' i'.
Proof.
  intros H. unfold mset. destruct (Nat.eqb_spec a' a), (Nat.eqb_spec i' i); cbn; auto. exfalso. auto.
Qed.
Lemma mset_same mm a i b : mset mm a i b a i = b.
Proof. unfold mset. now rewrite !Nat.eqb_refl. Qed.
Lemma exec_mem x t mm a k : ~ write x a k -> snd (fst (exec x t mm)) a k = mm a k.
Proof. destruct x; cbn; auto. intros H. apply mset_other. tauto. Qed.
Lemma srun_mem l : forall t mm a k, ~ writes l a k -> snd (fst (srun l t mm)) a k = mm a k.
Proof.
  induction l as [|x l IH]; intros t mm a k H; cbn [srun]; [reflexivity|].
  destruct (exec x t mm) as [[t1 m1] o1] eqn:E.
  specialize (IH t1 m1 a k). destruct (srun l t1 m1) as [[t2 m2] o2]. cbn [fst snd] in *.
  rewrite IH.
  - pose proof (exec_mem x t mm a k) as X. rewrite E in X. apply X. intros W. apply H. exists x. split; [left|]; auto.
  - intros (y & I & W). apply H. exists y. split; [right|]; auto.
Qed.

(** an instruction's effect depends on the bytes it touches only *)
Lemma exec_agree x t mm mm' (F : nat -> nat -> Prop) :
  (forall a k, touch x a k -> F a k) -> (forall a k, F a k -> mm a k = mm' a k) ->
  fst (fst (exec x t mm)) = fst (fst (exec x t mm')) /\ snd (exec x t mm) = snd (exec x t mm') /\
  (forall a k, F a k -> snd (fst (exec x t mm)) a k = snd (fst (exec x t mm')) a k).
Proof.
  intros T A. destruct x; cbn in *; auto.
  - repeat split. intros a' k' H. unfold mset. destruct (_ && _)%bool; auto.
  - rewrite (A a i) by (apply T; auto). auto.
  - rewrite (A a i) by (apply T; auto). auto.
Qed.

(** ** Non-interference *)
Lemma nth_error_set_nth {A} i j (x : A) l :
  nth_error (set_nth i x l) j =
  if (j =? i)%nat then match nth_error l i with Some _ => Some x | None => None end else nth_error l j.
Proof.
  revert i j. induction l as [|y l IH]; intros i j; cbn.
  - destruct i, j; cbn; try reflexivity; destruct (_ =? _)%nat; reflexivity.
  - destruct i, j; cbn; try reflexivity. apply IH.
Qed.
Lemma set_nth_length {A} i (x : A) l : length (set_nth i x l) = length l.
Proof. revert i. induction l as [|y l IH]; intros i; destruct i; cbn; auto. Qed.
Lemma sent_by_app i l1 l2 : sent_by i (l1 ++ l2) = sent_by i l1 ++ sent_by i l2.
Proof. unfold sent_by. rewrite filter_app, map_app. reflexivity. Qed.
Lemma sent_by_same i o : sent_by i (map (pair i) o) = o.
Proof.
  induction o as [|x o IH]; [reflexivity|]. unfold sent_by in *. cbn. rewrite Nat.eqb_refl. cbn.
  now rewrite IH.
Qed.
Lemma sent_by_other i j o : i <> j -> sent_by i (map (pair j) o) = [].
Proof.
  intros H. induction o as [|x o IH]; [reflexivity|]. unfold sent_by in *. cbn.
  destruct (Nat.eqb_spec j i); [congruence|]. exact IH.
Qed.

Section NI.
Variable codes : list (list instr).
Variable m0 : mem.
Hypothesis DISJ : forall i j ci cj a k, i <> j ->
  nth_error codes i = Some ci -> nth_error codes j = Some cj -> writes cj a k -> ~ touches ci a k.

Definition ni_inv (c : conf) : Prop :=
  forall i t rest, nth_error (c_threads c) i = Some (t, rest) ->
  exists code pre, nth_error codes i = Some code /\ code = pre ++ rest /\
    fst (fst (srun pre idle m0)) = t /\ sent_by i (c_log c) = snd (srun pre idle m0) /\
    forall a k, touches code a k -> c_mem c a k = snd (fst (srun pre idle m0)) a k.

Lemma ni_step c c' : ni_inv c -> cstep c c' -> ni_inv c'.
Proof.
  intros I S. destruct S as [i t x code c N]. unfold step_thread.
  destruct (exec x t (c_mem c)) as [[t' mm] out] eqn:E.
  destruct (counts x (c_acc c) (c_drop c)) as [na nd].
  destruct (I i t (x :: code) N) as (full & pre & F1 & F2 & F3 & F4 & F5).
  intros j tj rest Hj. cbn [c_threads c_log c_mem] in *. rewrite nth_error_set_nth in Hj.
  destruct (Nat.eqb_spec j i) as [->|NE].
  - rewrite N in Hj. injection Hj as <- <-.
    exists full, (pre ++ [x]). split; [exact F1|]. split; [rewrite <- app_assoc; exact F2|].
    rewrite srun_app. destruct (srun pre idle m0) as [[t1 m1] o1] eqn:SR. cbn [fst snd] in *. subst t1.
    destruct (exec_agree x t (c_mem c) m1 (touches full)) as (A1 & A2 & A3).
    { intros a k T. exists x. split; [rewrite F2; apply in_or_app; right; left; reflexivity|exact T]. }
    { exact F5. }
    rewrite E in A1, A2, A3. cbn [srun]. destruct (exec x t m1) as [[t2 m2] o2]. cbn [fst snd] in *.
    subst t2 o2. split; [reflexivity|]. split; [|exact A3].
    rewrite sent_by_app, sent_by_same, F4. rewrite app_nil_r. reflexivity.
  - destruct (I j tj rest Hj) as (fj & pj & G1 & G2 & G3 & G4 & G5).
    exists fj, pj. split; [exact G1|]. split; [exact G2|]. split; [exact G3|]. split.
    + rewrite sent_by_app, sent_by_other by exact NE. rewrite app_nil_r. exact G4.
    + intros a k T. rewrite <- G5 by exact T.
      pose proof (exec_mem x t (c_mem c) a k) as X. rewrite E in X. cbn [fst snd] in X. apply X.
      intros W. apply (DISJ j i fj full a k NE G1 F1); auto.
      exists x. split; [rewrite F2; apply in_or_app; right; left; reflexivity|exact W].
Qed.
Lemma ni_steps c c' : csteps c c' -> ni_inv c -> ni_inv c'.
Proof.
  induction 1 as [c|c c1 c2 H IH S]; intros I; [exact I|]. apply (ni_step c1 c2 (IH I) S).
Qed.
End NI.

(** the counters *)
Fixpoint counting (b : bool) (l : list instr) : Z :=
  match l with
  | [] => 0
  | ICount b' :: l' => (if Bool.eqb b b' then 1 else 0) + counting b l'
  | _ :: l' => counting b l'
  end.
Definition remaining (b : bool) (ts : list (tstate * list instr)) : Z :=
  fold_right (fun t s => counting b (snd t) + s) 0 ts.
Lemma remaining_set_nth b i t x code t' ts :
  nth_error ts i = Some (t, x :: code) ->
  remaining b ts = remaining b (set_nth i (t', code) ts) +
                   match x with ICount b' => if Bool.eqb b b' then 1 else 0 | _ => 0 end.
Proof.
  revert i. induction ts as [|y ts IH]; intros i H; [destruct i; discriminate|].
  destruct i; cbn in H.
  - injection H as ->. cbn. destruct x; lia.
  - cbn [set_nth remaining fold_right]. unfold remaining in IH. rewrite (IH i H). lia.
Qed.
Definition cnt_inv (a0 d0 : Z) (c : conf) : Prop :=
  u64 (c_acc c + remaining true (c_threads c)) = u64 a0 /\
  u64 (c_drop c + remaining false (c_threads c)) = u64 d0 /\
  u64 (c_acc c) = c_acc c /\ u64 (c_drop c) = c_drop c.
Lemma cnt_step a0 d0 c c' : cnt_inv a0 d0 c -> cstep c c' -> cnt_inv a0 d0 c'.
Proof.
  intros (A & D & A2 & D2) S. destruct S as [i t x code c N]. unfold step_thread.
  destruct (exec x t (c_mem c)) as [[t' mm] out].
  pose proof (remaining_set_nth true i t x code t' _ N) as R1.
  pose proof (remaining_set_nth false i t x code t' _ N) as R2.
  unfold cnt_inv. destruct x as [[]| | | | | |]; cbn [counts c_acc c_drop c_threads Bool.eqb] in *; rewrite ?Z.add_0_r in *; unfold u64 in *;
    repeat split; try assumption; try apply Zmod_mod;
    try (rewrite <- A; rewrite R1; rewrite ?Zplus_mod_idemp_l; f_equal; lia);
    try (rewrite <- D; rewrite R2; rewrite ?Zplus_mod_idemp_l; f_equal; lia).
Qed.
Lemma cnt_steps a0 d0 c c' : csteps c c' -> cnt_inv a0 d0 c -> cnt_inv a0 d0 c'.
Proof.
  induction 1 as [c|c c1 c2 H IH S]; intros I; [exact I|]. apply (cnt_step a0 d0 c1 c2 (IH I) S).
Qed.

(** ** Running one call alone *)
Definition mbytes (mm : mem) (a i n : nat) : bytes := map (fun k => mm a (i + k)%nat) (seq 0 n).
Lemma mbytes_length mm a i n : length (mbytes mm a i n) = n.
Proof. unfold mbytes. now rewrite map_length, seq_length. Qed.
Lemma mbytes_S mm a i n : mbytes mm a i (S n) = mm a i :: mbytes mm a (S i) n.
Proof.
  unfold mbytes. cbn [seq map]. rewrite Nat.add_0_r. f_equal. rewrite <- seq_shift, map_map.
  apply map_ext. intros k. f_equal. lia.
Qed.
Lemma mbytes_app mm a i n n' : mbytes mm a i (n + n') = mbytes mm a i n ++ mbytes mm a (i + n) n'.
Proof.
  revert i. induction n as [|n IH]; intros i; cbn [Nat.add app].
  - rewrite Nat.add_0_r. reflexivity.
  - rewrite !mbytes_S, IH. cbn [app]. do 3 f_equal. lia.
Qed.
Lemma mbytes_ext mm mm' a i n :
  (forall k, (i <= k < i + n)%nat -> mm a k = mm' a k) -> mbytes mm a i n = mbytes mm' a i n.
Proof.
  intros H. unfold mbytes. apply map_ext_in. intros k Hk. apply in_seq in Hk. apply H. lia.
Qed.
Lemma mbytes_eq mm a i (v : bytes) :
  (forall k, (k < length v)%nat -> mm a (i + k)%nat = nth k v 0) -> mbytes mm a i (length v) = v.
Proof.
  revert i. induction v as [|x v IH]; intros i H; [reflexivity|]. cbn [length].
  rewrite mbytes_S. f_equal.
  - specialize (H 0%nat). rewrite Nat.add_0_r in H. apply H. cbn. lia.
  - apply IH. intros k Hk. specialize (H (S k)). cbn [nth] in H. rewrite <- H by (cbn; lia). f_equal. lia.
Qed.
Lemma mbytes_rd h s : valid h s -> mbytes (mem_of h) (s_arr s) (s_off s) (s_len s) = rd h s.
Proof.
  intros V. rewrite <- (valid_len h s V) at 1. apply mbytes_eq. intros k Hk.
  rewrite valid_len in Hk by exact V. unfold mem_of, rd.
  rewrite nth_firstn' by exact Hk. rewrite nth_skipn'. reflexivity.
Qed.

Lemma store_code_cons a i x v : store_code a i (x :: v) = IStore a i x :: store_code a (S i) v.
Proof.
  unfold store_code. cbn [length seq map nth]. rewrite Nat.add_0_r. f_equal.
  rewrite <- seq_shift, map_map. apply map_ext. intros k. f_equal. lia.
Qed.
Lemma load_code_S a i n : load_code a i (S n) = ILoad a i :: load_code a (S i) n.
Proof.
  unfold load_code. cbn [seq map]. rewrite Nat.add_0_r. f_equal. rewrite <- seq_shift, map_map.
  apply map_ext. intros k. f_equal. lia.
Qed.
Lemma copy_code_S a i n : copy_code a i (S n) = ICopy a i :: copy_code a (S i) n.
Proof.
  unfold copy_code. cbn [seq map]. rewrite Nat.add_0_r. f_equal. rewrite <- seq_shift, map_map.
  apply map_ext. intros k. f_equal. lia.
Qed.
Lemma load_run a n : forall i t mm,
  srun (load_code a i n) t mm = (mkT (t_copy t) (t_buf t ++ mbytes mm a i n), mm, []).
Proof.
  induction n as [|n IH]; intros i t mm.
  - cbn. rewrite app_nil_r. destruct t; reflexivity.
  - rewrite load_code_S, mbytes_S. cbn [srun exec]. rewrite IH. cbn [t_copy t_buf app].
    rewrite <- app_assoc. reflexivity.
Qed.
Lemma copy_run a n : forall i t mm,
  srun (copy_code a i n) t mm = (mkT (t_copy t ++ mbytes mm a i n) (t_buf t), mm, []).
Proof.
  induction n as [|n IH]; intros i t mm.
  - cbn. rewrite app_nil_r. destruct t; reflexivity.
  - rewrite copy_code_S, mbytes_S. cbn [srun exec]. rewrite IH. cbn [t_copy t_buf app].
    rewrite <- app_assoc. reflexivity.
Qed.
Lemma store_run a v : forall i t mm,
  exists mm', srun (store_code a i v) t mm = (t, mm', []) /\
    (forall k, (k < length v)%nat -> mm' a (i + k)%nat = nth k v 0) /\
    (forall a' k', ~ (a' = a /\ (i <= k' < i + length v)%nat) -> mm' a' k' = mm a' k').
Proof.
  induction v as [|x v IH]; intros i t mm.
  - exists mm. split; [reflexivity|]. split; [cbn; lia|auto].
  - rewrite store_code_cons. cbn [srun exec].
    destruct (IH (S i) t (mset mm a i x)) as (mm' & E & H1 & H2). rewrite E.
    exists mm'. split; [reflexivity|]. split.
    + intros [|k] Hk; cbn [nth].
      * rewrite Nat.add_0_r. rewrite H2 by lia. apply mset_same.
      * replace (i + S k)%nat with (S i + k)%nat by lia. apply H1. cbn in Hk. lia.
    + intros a' k' N. cbn [length] in N. rewrite H2 by lia. apply mset_other. lia.
Qed.
Lemma stores_run a off ws : forall o t mm,
  0 <= o -> contiguous o ws ->
  exists mm', srun (flat_map (fun ov => store_code a (off + Z.to_nat (fst ov)) (snd ov)) ws) t mm = (t, mm', []) /\
    (forall k, (k < length (payload ws))%nat -> mm' a (off + Z.to_nat o + k)%nat = nth k (payload ws) 0) /\
    (forall a' k', ~ (a' = a /\ (off + Z.to_nat o <= k' < off + Z.to_nat o + length (payload ws))%nat) ->
                   mm' a' k' = mm a' k').
Proof.
  induction ws as [|[o' v] ws IH]; intros o t mm O C.
  - exists mm. split; [reflexivity|]. split; [cbn; lia|auto].
  - cbn [contiguous] in C. destruct C as [-> C]. cbn [flat_map fst snd]. rewrite srun_app.
    destruct (store_run a v (off + Z.to_nat o) t mm) as (m1 & E1 & A1 & B1). rewrite E1.
    destruct (IH (o + zlen v) t m1) as (m2 & E2 & A2 & B2); [unfold zlen; lia|exact C|]. rewrite E2.
    exists m2. split; [reflexivity|].
    assert (Z2 : Z.to_nat (o + zlen v) = (Z.to_nat o + length v)%nat) by (unfold zlen; lia).
    rewrite Z2 in A2, B2. unfold payload in *. cbn [map snd concat]. split.
    + intros k Hk. rewrite app_length in Hk. destruct (Nat.ltb_spec k (length v)) as [L|L].
      * rewrite app_nth1 by exact L. rewrite B2 by lia. apply A1, L.
      * rewrite app_nth2 by exact L. rewrite <- A2 by lia. f_equal. lia.
    + intros a' k' N. rewrite app_length in N. rewrite B2 by lia. apply B1. lia.
Qed.

Lemma pad_run p pad t mm :
  t_copy t = [] ->
  exists t1 m1, srun (pad_code p pad) t mm = (t1, m1, []) /\ t_buf t1 = t_buf t /\
    (forall t2, t_copy t2 = t_copy t1 ->
       srun (read_code p pad (s_len p + length pad)) t2 m1 =
       (mkT (t_copy t2) (t_buf t2 ++ mbytes mm (s_arr p) (s_off p) (s_len p) ++ pad), m1, [])) /\
    (forall a k, a <> s_arr p -> m1 a k = mm a k).
Proof.
  intros C. unfold pad_code, read_code. destruct (fits p pad).
  - destruct (store_run (s_arr p) pad (s_off p + s_len p) t mm) as (m1 & E & A & B).
    exists t, m1. split; [exact E|]. split; [reflexivity|]. split.
    + intros t2 H2. rewrite load_run, mbytes_app. do 4 f_equal.
      f_equal.
      * apply mbytes_ext. intros k Hk. apply B. lia.
      * apply mbytes_eq, A.
    + intros a k N. apply B. tauto.
  - rewrite copy_run. eexists _, mm. split; [reflexivity|]. cbn [t_buf t_copy]. split; [reflexivity|].
    split; [|reflexivity]. intros t2 H2. rewrite C in H2. cbn [app] in H2. cbn [srun exec t_copy t_buf].
    rewrite H2. replace (s_len p + length pad - s_len p)%nat with (length pad) by lia.
    rewrite firstn_all, <- app_assoc. reflexivity.
Qed.

(** the bytes a call sends when its packet reads [pkt] *)
Definition call_bytes (m : endian) (q : vhandle) (c : vcall) (pkt : bytes) : bytes :=
  match v_mark c with
  | None => sv1_bytes m (h_num q) (v_verdict c) (NfaLength (zlen pkt)) (v_id c) ++
            attr_bytes m (mkAttr (NfaLength (zlen pkt)) 10) ++ pkt ++ pad4 (length pkt)
  | Some mk => sv2_bytes m (h_num q) (v_verdict c) mk (4 + zlen pkt) (v_id c) ++
            attr_bytes m (mkAttr (4 + zlen pkt) 10) ++ pkt ++ pad4 (length pkt)
  end.
