(** Parts of a program with their own sockets (C100). *)
From Verif Require Export Spec.ProgramSpec Proof.CtHistory.
From Verif Require Import Proof.NfqStart Proof.Lifecycle Proof.LogLoop Proof.NflogConfig Properties.P_LogLife.

(** ** one part: only descriptors open at that moment *)
Lemma on_socket_no_close fd evs : Forall (on_socket fd) evs -> forall f r, ~ In (KClose f, r) evs.
Proof. intros F f r H. rewrite Forall_forall in F. exact (F _ H). Qed.
Lemma session_open rs fd mid last :
  r_err rs = None -> r_val rs = fd -> Forall (on_socket fd) mid -> (last = [] \/ exists r, last = [(KClose fd, r)]) ->
  only_open_descriptors ((KSocket 16 3 12, rs) :: mid ++ last).
Proof.
  intros E V F L b c r a f EQ D.
  destruct b as [|x b]; [injection EQ as <- _ _; discriminate D|]. injection EQ as <- EQ.
  assert (P : forall b', Forall (on_socket fd) b' -> open_at_end ((KSocket 16 3 12, rs) :: b') fd).
  { intros b' F'. exists [], rs, b'. split; [reflexivity|]. split; [exact E|]. split; [exact V|].
    intros r'. apply (on_socket_no_close fd b' F'). }
  assert (Q : descriptor c = Some f -> (on_socket fd (c, r) \/ c = KClose fd) -> f = fd).
  { intros D' [H|H].
    - unfold on_socket in H. destruct c; cbn in H, D'; try discriminate D'; injection D' as <-; try contradiction;
        destruct H as [H|H]; try discriminate H; injection H as ->; reflexivity.
    - subst c. injection D' as <-. reflexivity. }
  destruct (app_split mid last b (c, r) a EQ) as [(k & -> & _)|(k & -> & L')].
  - apply Forall_app in F as (F1 & F2). inversion F2 as [|? ? F3 F4]; subst.
    rewrite (Q D (or_introl F3)). apply P, F1.
  - destruct L as [L|(r' & L)]; rewrite L in L'; [destruct k; discriminate|].
    destruct k as [|? k]; [|destruct k; discriminate]. injection L' as <- _ _.
    rewrite (Q D (or_intror eq_refl)), app_nil_r. apply P, F.
Qed.
Ltac on_tac := repeat (apply Forall_cons; [cbn; auto|]); try apply Forall_nil.
Lemma one_request_on m fd lim b new err : one_request m fd lim b new err -> Forall (on_socket fd) new.
Proof. intros [(r1 & en & _ & -> & _)|(r1 & r2 & _ & -> & _)]; on_tac. Qed.
Lemma ran_on m fd lim ms new k err : ran_requests m fd lim ms new k err -> Forall (on_socket fd) new.
Proof.
  induction 1; [constructor|eapply one_request_on; eassumption|].
  apply Forall_app. split; [eapply one_request_on; eassumption|assumption].
Qed.
Lemma fails_open evs : open_fails evs -> only_open_descriptors evs.
Proof.
  intros [(rs & en & E & ->)|(rs & rb & en & E & E2 & ->)] b c r a f EQ D.
  - destruct b as [|x b]; [injection EQ as <- _ _; discriminate D|destruct b; discriminate].
  - destruct b as [|x b]; [injection EQ as <- _ _; discriminate D|].
    destruct b as [|y b]; [|destruct b; discriminate]. injection EQ as <- <- _ _. injection D as <-.
    exists [], rs, []. auto.
Qed.
Definition session (fd : Z) (evs : list event) : Prop :=
  exists rs mid, evs = (KSocket 16 3 12, rs) :: mid /\ r_err rs = None /\ r_val rs = fd /\ Forall (on_socket fd) mid.
Lemma session_app fd evs more : session fd evs -> Forall (on_socket fd) more -> session fd (evs ++ more).
Proof. intros (rs & mid & -> & E & V & F) G. exists rs, (mid ++ more). split; [reflexivity|]. rewrite Forall_app. auto. Qed.
Lemma session_ends fd evs last : session fd evs -> (last = [] \/ exists r, last = [(KClose fd, r)]) ->
  only_open_descriptors (evs ++ last).
Proof. intros (rs & mid & -> & E & V & F) L. apply (session_open rs fd mid last E V F L). Qed.
Lemma opens_session fd evs : opens fd evs -> session fd evs.
Proof. intros (rs & rb & r1 & r2 & r3 & r4 & E & V & _ & ->). eexists _, _. split; [reflexivity|]. split; [exact E|]. split; [exact V|]. on_tac. Qed.
Lemma log_opens_session fd evs : log_opens fd evs -> session fd evs.
Proof. intros (rs & rb & r1 & E & V & _ & ->). eexists _, _. split; [reflexivity|]. split; [exact E|]. split; [exact V|]. on_tac. Qed.
Lemma session_fd fd fd' evs evs' : session fd evs -> session fd' evs' -> forall r r', evs ++ r = evs' ++ r' -> fd = fd'.
Proof.
  intros (rs & mid & -> & E & V & F) (rs' & mid' & -> & E' & V' & F') r r' EQ. cbn [app] in EQ. injection EQ as -> _. congruence.
Qed.
Lemma queue_part_open m e i mx sz cb ecb pd n fuel grow evs :
  part_ok (PQueue i mx sz cb ecb pd n fuel grow) -> answers_ok e ->
  part_does m e (PQueue i mx sz cb ecb pd n fuel grow) evs -> only_open_descriptors evs.
Proof.
  intros (A1 & A2 & A3 & NS) (RW & _) (w0 & T0 & EV). cbv zeta in EV.
  destruct (CreateAndStart_run m i mx sz (Some cb) ecb pd e w0 A1 A2 A3 RW) as (err & w & new & E & T & O & X).
  rewrite E in EV. cbn [fst snd] in EV. rewrite T0 in T. cbn [app] in T.
  destruct err as [er|].
  - subst evs. rewrite T. inversion O as [? ? OF|?|fd ? reqs ? ? ? r OP RQ|fd ? reqs ? ? ? r b des res OP RQ ? RM OR]; subst.
    + apply fails_open, OF.
    + rewrite app_assoc. apply (session_ends fd); [|right; eexists; reflexivity].
      apply session_app; [apply opens_session, OP|eapply ran_on, RQ].
    + rewrite !app_assoc. apply (session_ends fd); [|right; eexists; reflexivity].
      repeat apply session_app; [apply opens_session, OP|eapply ran_on, RQ|eapply one_request_on, OR].
  - destruct (X eq_refl) as (fd & ev0 & rest & NEW & OP & (buf & HB & _) & _ & C & _).
    destruct (ProcessPackets n fuel m grow e w) as [res w'] eqn:PP. cbn [snd] in EV.
    destruct (loop_closes_once fd cb NS fuel m grow n e w _ w' ltac:(split; eauto) PP) as (ev2 & last & T2 & F & L).
    subst evs. rewrite T2, T.
    inversion O as [|f3 ev3 reqs r3 OP3 RQ EV|?|?]. clear O. rewrite <- EV in NEW.
    pose proof (session_fd _ _ _ _ (opens_session _ _ OP3) (opens_session _ _ OP) _ _ NEW) as <-.
    rewrite !app_assoc. apply (session_ends f3); [|destruct res; [right; exact L|left; exact L|left; exact L]].
    repeat apply session_app; [apply opens_session, OP3|eapply ran_on, RQ|on_tac|exact F].
Qed.
Lemma log_part_open m e gs sz ecb n fuel evs :
  part_ok (PLogs gs sz ecb n fuel) -> answers_ok e ->
  part_does m e (PLogs gs sz ecb n fuel) evs -> only_open_descriptors evs.
Proof.
  intros (A1 & A2 & HF) (RW & EB) (w0 & T0 & EV). cbv zeta in EV.
  destruct (BindAndListen_run m gs sz true ecb 76800 e w0 A1 A2 RW) as (err & w & new & E & T & O & X).
  rewrite E in EV. cbn [fst snd] in EV. rewrite T0 in T. cbn [app] in T.
  destruct err as [er|].
  - subst evs. rewrite T. inversion O as [? ? OF|?|fd ? reqs ? ? ? r OP RQ]; subst.
    + apply fails_open, OF.
    + rewrite app_assoc. apply (session_ends fd); [|right; eexists; reflexivity].
      apply session_app; [apply log_opens_session, OP|eapply ran_on, RQ].
  - destruct (X eq_refl) as (fd & ev0 & rest & NEW & OP & OL & CB & _).
    destruct (reader_events n fuel e w fd HF EB OL CB) as (ev2 & last & T2 & F & L).
    subst evs. rewrite T2, T.
    inversion O as [|f3 ev3 reqs r3 OP3 RQ EV|?]. clear O. rewrite <- EV in NEW.
    pose proof (session_fd _ _ _ _ (log_opens_session _ _ OP3) (log_opens_session _ _ OP) _ _ NEW) as <-.
    rewrite !app_assoc. apply (session_ends f3); [|destruct (fst (ReadLogs n fuel e w)); [right; exact L|right; exact L|left; exact L]].
    repeat apply session_app; [apply log_opens_session, OP3|eapply ran_on, RQ|on_tac|exact F].
Qed.
Lemma part_open m e p evs : part_ok p -> answers_ok e -> part_does m e p evs -> only_open_descriptors evs.
Proof.
  destruct p as [i mx sz cb ecb pd n fuel grow|gs sz ecb n fuel|cs]; intros A E D.
  - eapply queue_part_open; eassumption.
  - eapply log_part_open; eassumption.
  - destruct D as (w0 & T0 & ->). destruct (ct_uses_tidy m cs e w0) as (nw & T & O & _). rewrite T, T0. exact O.
Qed.
Lemma open_prefix a b : only_open_descriptors (a ++ b) -> only_open_descriptors a.
Proof. intros H x c r y fd E D. apply (H x c r (y ++ b) fd); [rewrite E, <- app_assoc; reflexivity|exact D]. Qed.

(** ** all parts together *)
Lemma of_part_app i a b : of_part i (a ++ b) = of_part i a ++ of_part i b.
Proof. unfold of_part. rewrite filter_app, map_app. reflexivity. Qed.
Lemma of_part_own i ev : of_part i [(i, ev)] = [ev].
Proof. unfold of_part. cbn [filter fst]. rewrite Nat.eqb_refl. reflexivity. Qed.
Lemma of_part_other i j ev : j <> i -> of_part i [(j, ev)] = [].
Proof. intros H. unfold of_part. cbn [filter fst]. apply Nat.eqb_neq in H. rewrite H. reflexivity. Qed.
Lemma of_part_in i ev g : In (i, ev) g <-> In ev (of_part i g).
Proof.
  unfold of_part. rewrite in_map_iff. split.
  - intros H. exists (i, ev). split; [reflexivity|]. apply filter_In. split; [exact H|apply Nat.eqb_refl].
  - intros ((j & ev') & <- & H). apply filter_In in H as (H & E). apply Nat.eqb_eq in E. cbn [fst snd] in *. subst j. exact H.
Qed.
Lemma open_snoc_inv tr c r fd : open_at_end (tr ++ [(c, r)]) fd ->
  c <> KClose fd /\ (open_at_end tr fd \/ c = KSocket 16 3 12 /\ r_err r = None /\ r_val r = fd).
Proof.
  intros (b & r0 & a & EQ & E & V & N). destruct (exists_last (l := (KSocket 16 3 12, r0) :: a) ltac:(discriminate)) as (l & x & L).
  rewrite L, app_assoc in EQ. apply app_inj_tail in EQ as (-> & <-).
  destruct l as [|y l].
  - cbn [app] in L. injection L as <- <- _. split; [discriminate|]. right. auto.
  - cbn [app] in L. injection L as <- ->. split.
    + intros ->. apply (N r). apply in_or_app. right. left. reflexivity.
    + left. exists b, r0, l. split; [reflexivity|]. split; [exact E|]. split; [exact V|].
      intros r' H. apply (N r'). apply in_or_app. left. exact H.
Qed.
Lemma open_snoc tr c r fd : open_at_end tr fd -> c <> KClose fd -> open_at_end (tr ++ [(c, r)]) fd.
Proof.
  intros (b & r0 & a & -> & E & V & N) C. exists b, r0, (a ++ [(c, r)]). rewrite <- app_assoc. split; [reflexivity|].
  split; [exact E|]. split; [exact V|]. intros r' H. apply in_app_or in H as [H|[H|[]]]; [exact (N r' H)|]. injection H as -> _. congruence.
Qed.
Lemma open_opened tr r : r_err r = None -> open_at_end (tr ++ [(KSocket 16 3 12, r)]) (r_val r).
Proof. intros E. exists tr, r, []. auto. Qed.
Section ALL.
Context (g0 : schedule).
Context (LOCAL : forall i, only_open_descriptors (of_part i g0)) (FRESH : fresh_descriptors g0).
(** what a part has open is held by it *)
Lemma open_held : forall g rest, g0 = g ++ rest ->
  (forall i fd, open_at_end (of_part i g) fd -> held_by i fd g /\ open_at_end (map snd g) fd) /\
  (forall i j fd, open_at_end (of_part i g) fd -> open_at_end (of_part j g) fd -> i = j).
Proof.
  induction g as [|[k [c r]] g IH] using rev_ind; intros rest EQ.
  { split; intros i; [intros fd|intros j fd]; intros (b & r0 & a & E & _); destruct b; discriminate E. }
  rewrite <- app_assoc in EQ. cbn [app] in EQ. destruct (IH _ EQ) as (IH1 & IH2). clear IH.
  (* who may use the descriptor *)
  assert (USE : forall fd, descriptor c = Some fd -> open_at_end (of_part k g) fd).
  { intros fd D. pose proof (LOCAL k) as LK. rewrite EQ, of_part_app in LK.
    change ((k, (c, r)) :: rest) with ([(k, (c, r))] ++ rest) in LK. rewrite of_part_app, of_part_own in LK.
    cbn [app] in LK. exact (LK _ _ _ _ _ eq_refl D). }
  assert (NEW : c = KSocket 16 3 12 -> r_err r = None -> forall i, ~ open_at_end (of_part i g) (r_val r)).
  { intros -> E i O. destruct (IH1 i _ O) as (_ & OG). exact (FRESH _ _ _ _ EQ E OG). }
  (* a part's descriptors after this step *)
  assert (STEP : forall i fd, open_at_end (of_part i (g ++ [(k, (c, r))])) fd ->
            (open_at_end (of_part i g) fd /\ c <> KClose fd /\ ~ (c = KSocket 16 3 12 /\ r_err r = None /\ r_val r = fd)) \/
            (i = k /\ c = KSocket 16 3 12 /\ r_err r = None /\ r_val r = fd)).
  { intros i fd O. rewrite of_part_app in O. destruct (Nat.eq_dec k i) as [<-|NE].
    - rewrite of_part_own in O. apply open_snoc_inv in O as (NC & [O|(A & B & C)]).
      + left. split; [exact O|]. split; [exact NC|]. intros (A & B & C). subst fd. exact (NEW A B _ O).
      + right. auto.
    - rewrite of_part_other, app_nil_r in O by exact NE. left. split; [exact O|]. split.
      + intros ->. apply NE. exact (IH2 k i fd (USE fd eq_refl) O).
      + intros (A & B & C). subst fd. exact (NEW A B _ O). }
  split.
  - intros i fd O. destruct (STEP i fd O) as [(O' & NC & NS)|(-> & -> & E & V)].
    + destruct (IH1 i fd O') as ((g1 & r0 & g2 & EG & E & V & H) & OG). split.
      * exists g1, r0, (g2 ++ [(k, (c, r))]). rewrite EG, <- app_assoc. split; [reflexivity|]. split; [exact E|]. split; [exact V|].
        intros j c' r' IN. apply in_app_or in IN as [IN|[IN|[]]]; [exact (H j c' r' IN)|]. injection IN as <- <- <-.
        split; [|exact NS]. intros D. split; [|exact NC]. exact (IH2 k i fd (USE fd D) O').
      * rewrite map_app. cbn [map snd]. apply open_snoc; [exact OG|exact NC].
    + split.
      * exists g, r, []. split; [reflexivity|]. split; [exact E|]. split; [exact V|]. intros j c' r' [].
      * rewrite map_app. cbn [map snd]. rewrite <- V. apply open_opened, E.
  - intros i j fd Oi Oj.
    destruct (STEP i fd Oi) as [(Oi' & NCi & NSi)|(-> & -> & Ei & Vi)], (STEP j fd Oj) as [(Oj' & NCj & NSj)|(-> & Cj & Ej & Vj)].
    + exact (IH2 i j fd Oi' Oj').
    + exfalso. apply NSi. auto.
    + exfalso. apply NSj. auto.
    + reflexivity.
Qed.
End ALL.
Lemma sockets_held m ps g :
  runs_of m ps g -> Forall part_ok ps -> fresh_descriptors g ->
  forall before i c r after fd, g = before ++ (i, (c, r)) :: after -> descriptor c = Some fd -> held_by i fd before.
Proof.
  intros (IX & RU) OK FR before i c r after fd EQ D.
  assert (LOCAL : forall j, only_open_descriptors (of_part j g)).
  { intros j. destruct (nth_error ps j) as [p|] eqn:N.
    - destruct (RU j p N) as (e & evs & later & AE & DO & ->).
      apply (open_prefix _ later), (part_open m e p); [|exact AE|exact DO]. rewrite Forall_forall in OK. apply OK. eapply nth_error_In, N.
    - assert (Z : of_part j g = []).
      { destruct (of_part j g) as [|ev l] eqn:P; [reflexivity|]. exfalso.
        assert (H : In (j, ev) g) by (apply of_part_in; rewrite P; left; reflexivity).
        apply IX in H. apply nth_error_None in N. lia. }
      rewrite Z. exact oo_nil. }
  destruct (open_held g LOCAL FR before ((i, (c, r)) :: after) EQ) as (H & _). apply H.
  specialize (LOCAL i). rewrite EQ, of_part_app in LOCAL.
  change ((i, (c, r)) :: after) with ([(i, (c, r))] ++ after) in LOCAL. rewrite of_part_app, of_part_own in LOCAL.
  exact (LOCAL _ _ _ _ _ eq_refl D).
Qed.
