(** Descriptors over histories of conntrack updates. *)
From Verif Require Export Spec.CtHandle Proof.CtFacts.

Lemma oo_nil : only_open_descriptors [].
Proof. intros b c r a fd H. destruct b; discriminate. Qed.
Lemma open_app_l a b fd : open_at_end b fd -> open_at_end (a ++ b) fd.
Proof.
  intros (x & r & y & -> & E & V & N). exists (a ++ x), r, y. rewrite <- app_assoc. repeat split; assumption.
Qed.
Lemma app_split {A} (a b x : list A) z y : a ++ b = x ++ z :: y ->
  (exists u, a = x ++ z :: u /\ y = u ++ b) \/ (exists u, x = a ++ u /\ b = u ++ z :: y).
Proof.
  revert x. induction a as [|c a IH]; intros x E; cbn [app] in E.
  - right. exists x. split; [reflexivity|exact E].
  - destruct x as [|c' x]; cbn [app] in E; injection E as E1 E2.
    + left. exists a. subst. split; reflexivity.
    + destruct (IH x E2) as [(u & -> & ->)|(u & -> & ->)]; subst; [left|right]; exists u; split; reflexivity.
Qed.
Lemma oo_app a b : only_open_descriptors a -> only_open_descriptors b -> only_open_descriptors (a ++ b).
Proof.
  intros A B x c r y fd E D. destruct (app_split a b x (c, r) y E) as [(u & -> & _)|(u & -> & ->)].
  - exact (A _ _ _ _ _ eq_refl D).
  - apply open_app_l. exact (B _ _ _ _ _ eq_refl D).
Qed.
Lemma open_app_inv a b fd : open_at_end (a ++ b) fd -> open_at_end a fd \/ open_at_end b fd.
Proof.
  intros (x & r & y & E & H1 & H2 & N). destruct (app_split a b x _ y E) as [(u & -> & ->)|(u & -> & ->)].
  - left. exists x, r, u. repeat split; try assumption. intros r' I1. apply (N r'), in_or_app. left. exact I1.
  - right. exists u, r, y. repeat split; assumption.
Qed.
(** what a computation adds to the trace *)
Definition adds {A} (P : list event -> Prop) (x : MC A) : Prop :=
  forall e w, exists new, w_tr (snd (x e w)) = w_tr w ++ new /\ P new.
Definition tidy (new : list event) : Prop :=
  only_open_descriptors new /\ (binds_succeed new -> forall fd, ~ open_at_end new fd).
Lemma tidy_nil : tidy [].
Proof. split; [exact oo_nil|]. intros _ fd (x & r & y & E & _). destruct x; discriminate. Qed.
Lemma tidy_app a b : tidy a -> tidy b -> tidy (a ++ b).
Proof.
  intros [A1 A2] [B1 B2]. split; [apply oo_app; assumption|]. intros S fd O.
  destruct (open_app_inv _ _ _ O) as [H|H]; [eapply A2|eapply B2]; try exact H;
    intros f fm r I1; apply (S f fm r), in_or_app; [left|right]; exact I1.
Qed.
Lemma adds_bind {A B} (P : list event -> Prop) (x : MC A) (f : A -> MC B) :
  (forall a b, P a -> P b -> P (a ++ b)) -> adds P x -> (forall v, adds P (f v)) -> adds P (mbind x f).
Proof.
  intros C X F e w. destruct (X e w) as (n & T & H). unfold mbind.
  destruct (x e w) as [[v| |] w1]; cbn [snd] in T; [|exists n; split; assumption..].
  destruct (F v e w1) as (n' & T' & H'). exists (n ++ n'). rewrite T', T, <- app_assoc. split; [reflexivity|apply C; assumption].
Qed.
Lemma adds_ret {A} (P : list event -> Prop) (v : A) : P [] -> adds P (ret v).
Proof. intros H e w. exists []. split; [symmetry; apply app_nil_r|exact H]. Qed.
Lemma adds_lift {A} (P : list event -> Prop) (v : res A) : P [] -> adds P (lift v).
Proof. intros H e w. exists []. split; [symmetry; apply app_nil_r|exact H]. Qed.
Definition transfers (fd : Z) (new : list event) : Prop :=
  Forall (fun ev => match fst ev with KSendto f _ _ | KRecvfrom f _ _ => f = fd | _ => False end) new.
Lemma open_of_socket r l : r_err r = None ->
  (forall r', ~ In (KClose (r_val r), r') l) -> open_at_end ((KSocket 16 3 12, r) :: l) (r_val r).
Proof. intros E N. exists [], r, l. repeat split; assumption. Qed.
(** a whole session is tidy *)
Lemma session_tidy r rb rc ts : r_err r = None -> transfers (r_val r) ts ->
  tidy ((KSocket 16 3 12, r) :: (KBind (r_val r) 16, rb) :: ts ++ [(KClose (r_val r), rc)]).
Proof.
  intros E T. split.
  - intros b c r0 a fd EQ D.
    destruct b as [|z b]; [injection EQ as <- <- _; discriminate D|]. cbn [app] in EQ. injection EQ as <- EQ.
    destruct b as [|z b]; [injection EQ as <- <- _|].
    { injection D as <-. apply open_of_socket; [exact E|intros ? []]. }
    cbn [app] in EQ. injection EQ as <- EQ.
    assert (NC : forall l, transfers (r_val r) l -> forall f r', ~ In (KClose f, r') l).
    { intros l L f r' I1. unfold transfers in L. rewrite Forall_forall in L. exact (L _ I1). }
    destruct (app_split _ _ _ _ _ EQ) as [(u & -> & _)|(u & -> & EQ2)].
    + apply Forall_app in T. destruct T as [T1 T2]. inversion T2 as [|? ? T3 _]; subst. cbn [fst] in T3.
      assert (fd = r_val r) as -> by (destruct c; cbn in T3; try contradiction; cbn in D; congruence).
      apply open_of_socket; [exact E|]. intros r' [I1|I1]; [discriminate|exact (NC b T1 _ _ I1)].
    + destruct u as [|z u]; [|destruct u; discriminate]. cbn [app] in EQ2. injection EQ2 as <- <- _. injection D as <-.
      apply open_of_socket; [exact E|]. rewrite app_nil_r. intros r' [I1|I1]; [discriminate|exact (NC ts T _ _ I1)].
  - intros _ fd (x & r0 & y & EQ & E0 & V & N).
    destruct x as [|z x]; cbn [app] in EQ; injection EQ as Q1 EQ.
    { subst r0 y fd. apply (N rc). right. apply in_or_app. right. left. reflexivity. }
    destruct x as [|z2 x]; cbn [app] in EQ; injection EQ as Q2 EQ; [discriminate|].
    destruct (app_split _ _ _ _ _ EQ) as [(u & -> & _)|(u & -> & EQ2)].
    + apply Forall_app in T. destruct T as [_ T2]. inversion T2 as [|? ? T3 _]; subst. exact T3.
    + destruct u as [|z3 u]; [discriminate|destruct u; discriminate].
Qed.
Lemma sendMessage_tidy m hdr data : adds tidy (sendMessage m hdr data).
Proof.
  intros e w. destruct (sendMessage_trace m hdr data e w) as (new & T & [(fd & o & r1 & rest & rc & O & -> & R & _)|[F _]]);
    eexists; (split; [exact T|]).
  - destruct O as (rs & rb & E & <- & _ & ->). cbn [app].
    apply (session_tidy rs rb rc ((KSendto (r_val rs) (hdr_bytes m hdr ++ data) 0, r1) :: rest)); [exact E|].
    apply Forall_cons; [reflexivity|]. destruct R as [-> |(n & r2 & ->)]; [apply Forall_nil|].
    apply Forall_cons; [reflexivity|apply Forall_nil].
  - destruct F as [(rs & en & E & ->)|(rs & rb & en & E & Eb & ->)]; split.
    + intros [|z b] c r0 a fd EQ D; [injection EQ as <- _ _; discriminate D|destruct b; discriminate].
    + intros _ fd ([|z x] & r0 & y & EQ & E0 & _); [injection EQ as <- _; congruence|destruct x; discriminate].
    + intros [|z b] c r0 a fd EQ D; [injection EQ as <- _ _; discriminate D|]. cbn [app] in EQ. injection EQ as <- EQ.
      destruct b as [|z b]; [|destruct b; discriminate]. injection EQ as <- _ _. injection D as <-.
      apply open_of_socket; [exact E|intros ? []].
    + intros B. exfalso. specialize (B (r_val rs) AF_NETLINK rb). rewrite B in Eb; [discriminate|]. right. left. reflexivity.
Qed.
Lemma UpdateMark_tidy m s d p sp dp k : adds tidy (ConntrackTableUpdateMark m s d p sp dp k).
Proof.
  unfold ConntrackTableUpdateMark. apply adds_bind; [exact tidy_app|apply adds_lift, tidy_nil|intros [hdr data]].
  apply adds_bind; [exact tidy_app|apply adds_lift, tidy_nil|intros [md hdr2]]. apply sendMessage_tidy.
Qed.
Ltac dstep :=
  lazymatch goal with
  | |- adds tidy (mbind _ _) => apply adds_bind; [exact tidy_app| |intros ?]
  | |- adds tidy (ret _) => apply adds_ret, tidy_nil
  | |- adds tidy (lift _) => apply adds_lift, tidy_nil
  | |- adds tidy (sendMessage _ _ _) => apply sendMessage_tidy
  | |- adds tidy (ConntrackTableUpdateMark _ _ _ _ _ _ _) => apply UpdateMark_tidy
  | |- adds tidy (match ?x with _ => _ end) => destruct x
  | H : forall n, adds tidy (?f n) |- adds tidy (?f _) => apply H
  end.
Lemma mark_loop_tidy m fs s d p sp dp k : forall n, adds tidy (mark_loop m fs s d p sp dp k n).
Proof. induction fs as [|f fs IH]; intros n; cbn [mark_loop]; repeat dstep. Qed.
Lemma label_loop_tidy m fs s d p sp dp k : forall n, adds tidy (label_loop m fs s d p sp dp k n).
Proof. induction fs as [|f fs IH]; intros n; cbn [label_loop]; repeat dstep. Qed.
Lemma ct_use_tidy m c : adds tidy (ct_use m c).
Proof.
  destruct c; cbn [ct_use]; (apply adds_bind; [exact tidy_app| |intros _; apply adds_ret, tidy_nil]).
  - apply UpdateMark_tidy.
  - unfold ConntrackTableUpdateMarkForAvailableFlow. apply mark_loop_tidy.
  - unfold ConntrackTableUpdateLabel. apply label_loop_tidy.
Qed.
Lemma ct_uses_tidy m cs e : forall w, exists new, w_tr (ct_uses m cs e w) = w_tr w ++ new /\ tidy new.
Proof.
  induction cs as [|c cs IH]; intros w; cbn [ct_uses].
  - exists []. split; [symmetry; apply app_nil_r|exact tidy_nil].
  - destruct (ct_use_tidy m c e w) as (n1 & T1 & P1). destruct (IH (snd (ct_use m c e w))) as (n2 & T2 & P2).
    exists (n1 ++ n2). rewrite T2, T1, <- app_assoc. split; [reflexivity|apply tidy_app; assumption].
Qed.
