(** What the queue's error callback is given: C92. *)
From Verif Require Import Proof.LoopProps Proof.Release Spec.Samples Properties.P_Config Properties.P_Loop.

(** every error callback of [evs] directly follows the receive it reports *)
Definition errors_explained (m : endian) (fd : Z) (evs : list event) : Prop :=
  forall pre er dt r2 post, evs = pre ++ (KErrCb er dt, r2) :: post ->
    exists before r, pre = before ++ [(KRecvfrom fd 76800 256, r)] /\ receive_error m r er dt.

Lemma explained_app m fd a b :
  errors_explained m fd a -> errors_explained m fd b -> errors_explained m fd (a ++ b).
Proof.
  intros A B pre er dt r2 post E.
  destruct (Nat.lt_ge_cases (length pre) (length a)) as [L|L].
  - assert (E1 : a = pre ++ (KErrCb er dt, r2) :: skipn (S (length pre)) a).
    { assert (F : firstn (S (length pre)) (a ++ b) = firstn (S (length pre)) a) by (apply firstn_app_le; lia).
      rewrite E in F. rewrite <- (firstn_skipn (S (length pre)) a) at 1. rewrite <- F.
      replace (S (length pre)) with (length (pre ++ [(KErrCb er dt, r2)])) at 1
        by (rewrite app_length; cbn [length]; lia).
      replace (pre ++ (KErrCb er dt, r2) :: post) with ((pre ++ [(KErrCb er dt, r2)]) ++ post)
        by (rewrite <- app_assoc; reflexivity).
      rewrite firstn_app_exact by reflexivity. rewrite <- app_assoc. reflexivity. }
    exact (A _ _ _ _ _ E1).
  - assert (E1 : pre = a ++ skipn (length a) pre).
    { assert (F : firstn (length a) (a ++ b) = a) by (apply firstn_app_exact; reflexivity).
      rewrite E, firstn_app_le in F by exact L. cbn [app] in F.
      rewrite <- F at 1. rewrite firstn_skipn. reflexivity. }
    rewrite E1 in E. rewrite <- app_assoc in E. apply app_inv_head in E.
    destruct (B _ _ _ _ _ E) as (x & r & X1 & X2).
    exists (a ++ x), r. split; [|exact X2]. rewrite E1, X1, app_assoc. reflexivity.
Qed.
Lemma explained_none m fd l :
  Forall (fun ev => match fst ev with KErrCb _ _ => False | _ => True end) l -> errors_explained m fd l.
Proof.
  intros F pre er dt r2 post E. exfalso. subst l.
  apply Forall_app in F as [_ F]. apply Forall_inv in F. exact F.
Qed.
Lemma explained_turn m fd pd l : turn m fd pd l -> errors_explained m fd l.
Proof.
  intros [r0 r er dt r2 A B|r0 r id mark buf cont r2 evs A1 A2 A3 A4 A5 A6 A7].
  - intros pre er' dt' r2' post E.
    destruct pre as [|? [|? [|? pre]]]; cbn [app] in E; inversion E; subst.
    + exists [(KCtxDone, r0)], r. split; [reflexivity|exact B].
    + destruct pre; discriminate.
  - apply explained_none. repeat apply Forall_cons; try exact I.
    eapply Forall_impl; [|exact A7]. intros [[] ?]; cbn; auto.
Qed.
Lemma explained_end m fd res l : loop_end fd res l -> errors_explained m fd l.
Proof.
  intros H. apply explained_none. destruct res; cbn [loop_end] in H.
  - destruct H as (r1 & r2 & _ & ->). repeat apply Forall_cons; try exact I. apply Forall_nil.
  - destruct H as (r1 & r2 & _ & _ & ->). repeat apply Forall_cons; try exact I. apply Forall_nil.
  - destruct H as [-> | (r1 & r2 & _ & _ & ->)]; repeat apply Forall_cons; try exact I; apply Forall_nil.
Qed.

(** On a started queue with an error callback, any kernel and any well-behaved packet
    callback: each error callback directly follows a receive and is given, beside the
    error, the parsed generic header of that datagram if its attributes were cut off, and a
    nil header pointer if nothing was received or the kernel reported an error. *)
Theorem C92_error_callback_data_partial :
  forall m fuel grow n queueID maxp psz cb pd e w0 w res w',
  (Z.to_nat 19201 < fuel)%nat -> bytes_env e -> well_behaved e cb ->
  is_u16 queueID -> is_u32 maxp -> is_u32 psz -> replies_within 20 76800 e ->
  CreateAndStartNfQueue m queueID maxp psz (Some cb) true pd e w0 = (Ok None, w) ->
  ProcessPackets n fuel m grow e w = (res, w') ->
  exists fd evs, w_tr w' = w_tr w ++ evs /\ errors_explained m fd evs.
Proof.
  intros m fuel grow n queueID maxp psz cb pd e w0 w res w' HF HB WB A1 A2 A3 RW ST PP.
  destruct (started_ready m queueID maxp psz (Some cb) true pd e w0 w A1 A2 A3 RW ST)
    as (fd & priv & _ & _ & _ & _ & F & N & C & D & E).
  destruct (process_packets_trace m fuel grow e fd pd priv cb HF HB (WB priv) n w res w')
    as (its & last & T & TU & EN & _); [apply started_inv; auto|exact PP|].
  exists fd, (concat its ++ last). split; [exact T|]. apply explained_app; [|eapply explained_end; exact EN].
  clear - TU. induction TU as [|x l H _ IH]; cbn [concat].
  - apply explained_none. apply Forall_nil.
  - apply explained_app; [eapply explained_turn; exact H|exact IH].
Qed.
Print Assumptions C92_error_callback_data_partial.
(** so the test "data != nil" is useless: the interface is never nil, not even when there
    is no header to look at *)
Theorem C92_data_is_never_nil_refuted : forall m r er dt,
  receive_error m r er dt ->
  dt <> IfaceNil /\
  (dt = IfaceGen None <-> r_err r <> None \/ reply_code m (received r) <> 0).
Proof.
  intros m r er dt [(en & A & B & C)|[(A & B & C & D)|(A & B & C & D & E)]]; subst dt.
  - split; [discriminate|]. split; [intros _; left; congruence|reflexivity].
  - split; [discriminate|]. split; [auto|reflexivity].
  - split; [discriminate|]. split; [discriminate|]. intros [X|X]; congruence.
Qed.
Print Assumptions C92_data_is_never_nil_refuted.

(** a datagram of queue 42 whose only attribute says it is longer than the datagram *)
Definition cut_packet : bytes :=
  [32;0;0;0; 0;3; 0;0; 0;0;0;0; 0;0;0;0; 2;0;0;42; 60;0;10;0; 69;0;0;5].
Lemma cut_packet_bytes : is_bytes cut_packet.
Proof. bytes_tac. Qed.
Example C92_hypotheses_met :
  let ds := [Some marked_packet; None; Some cut_packet] in
  bytes_env (kernel_delivers ds) /\ replies_within 20 76800 (kernel_delivers ds) /\
  well_behaved (kernel_delivers ds) (guarded accept_all) /\
  CreateAndStartNfQueue LE 42 100 65535 (Some (guarded accept_all)) true 5 (kernel_delivers ds) blank =
    (Ok None, started (guarded accept_all) true ds) /\
  filter (fun c => match c with KErrCb _ _ => true | _ => false end)
    (map fst (w_tr (snd (run 5 (guarded accept_all) true ds)))) =
  [KErrCb (ERecv 105) (IfaceGen None); KErrCb EBadAttr (IfaceGen (Some (mkGen 2 0 42)))].
Proof.
  intros ds. destruct (sample_hyps (guarded accept_all) ds) as (A & B & C).
  - unfold ds. apply Forall_cons; [apply samples_are_bytes|]. apply Forall_cons; [exact I|].
    apply Forall_cons; [apply cut_packet_bytes|apply Forall_nil].
  - split; [exact A|]. split; [exact B|]. split; [apply guarded_well_behaved|]. split; [exact C|].
    vm_compute; reflexivity.
Qed.
