(** Queues, log listeners and conntrack updates in one program: C100. *)
From Verif Require Import Proof.Program Proof.Release Spec.Samples Properties.P_Config Properties.P_Loop Properties.P_Conntrack.

(** Any number of queues, log listeners and goroutines making conntrack updates, running
    interleaved in any way, under any kernel that does not hand out a descriptor that is in
    use: whenever a part binds, sets, sends on, receives from or closes a descriptor, it holds
    it - it opened it itself, and since then only this part has used it and nobody closed it. *)
Theorem C100_each_part_uses_its_own_sockets_partial : forall m ps g,
  runs_of m ps g -> Forall part_ok ps -> fresh_descriptors g ->
  forall before i c r after fd,
    g = before ++ (i, (c, r)) :: after -> descriptor c = Some fd -> held_by i fd before.
Proof. exact sockets_held. Qed.
Print Assumptions C100_each_part_uses_its_own_sockets_partial.

(** ** A sample program *)
Definition tag (i : nat) (evs : list event) : schedule := map (fun ev => (i, ev)) evs.
Lemma of_tag i evs : of_part i (tag i evs) = evs.
Proof. induction evs as [|ev l IH]; [reflexivity|]. unfold of_part, tag in *. cbn [map filter fst]. rewrite Nat.eqb_refl. cbn [map snd]. rewrite IH. reflexivity. Qed.
Lemma of_tag_other i j evs : j <> i -> of_part i (tag j evs) = [].
Proof. intros H. apply Nat.eqb_neq in H. induction evs as [|ev l IH]; [reflexivity|]. unfold of_part, tag in *. cbn [map filter fst]. rewrite H. exact IH. Qed.
Lemma in_tag i j ev evs : In (j, ev) (tag i evs) -> j = i.
Proof. unfold tag. rewrite in_map_iff. intros (x & H & _). injection H as <- _. reflexivity. Qed.
(** a first look at which descriptors are open, to check a given schedule *)
Fixpoint fresh_check (opn : list Z) (g : schedule) : bool :=
  match g with
  | [] => true
  | (_, (c, r)) :: g' =>
      match c with
      | KSocket _ _ _ =>
          match r_err r with
          | None => negb (existsb (Z.eqb (r_val r)) opn) && fresh_check (r_val r :: opn) g'
          | Some _ => fresh_check opn g'
          end
      | KClose fd => fresh_check (filter (fun x => negb (x =? fd)) opn) g'
      | _ => fresh_check opn g'
      end
  end.
Lemma fresh_check_ok : forall g opn p,
  (forall fd, open_at_end (map snd p) fd -> In fd opn) -> fresh_check opn g = true ->
  forall before i r after, g = before ++ (i, (KSocket 16 3 12, r)) :: after -> r_err r = None ->
    ~ open_at_end (map snd (p ++ before)) (r_val r).
Proof.
  induction g as [|[k [c r0]] g IH]; intros opn p P H before i r after E R; [destruct before; discriminate|].
  assert (STEP : forall opn', (forall fd, open_at_end (map snd p ++ [(c, r0)]) fd -> In fd opn') -> fresh_check opn' g = true ->
    forall b, before = (k, (c, r0)) :: b -> ~ open_at_end (map snd (p ++ before)) (r_val r)).
  { intros opn' P' H' b ->. cbn [app] in E. injection E as E. replace (p ++ (k, (c, r0)) :: b) with ((p ++ [(k, (c, r0))]) ++ b) by (rewrite <- app_assoc; reflexivity).
    apply (IH opn' (p ++ [(k, (c, r0))])) with (i := i) (after := after); [|exact H'|exact E|exact R].
    intros fd O. apply P'. rewrite map_app in O. exact O. }
  destruct before as [|x before].
  - injection E as -> -> -> ->. cbn [fresh_check] in H. rewrite R in H. apply andb_prop in H as (H & _).
    rewrite app_nil_r. intros O. apply P in O. apply negb_true_iff in H.
    assert (X : existsb (Z.eqb (r_val r)) opn = true) by (apply existsb_exists; exists (r_val r); split; [exact O|apply Z.eqb_refl]). congruence.
  - assert (X : x = (k, (c, r0))) by (cbn [app] in E; injection E as X _; symmetry; exact X). subst x.
    destruct c; cbn [fresh_check] in H; try (apply (STEP opn) with (b := before); [|exact H|reflexivity];
      intros fd' O; apply open_snoc_inv in O as (_ & [O|(A & _)]); [exact (P _ O)|discriminate A]).
    + destruct (r_err r0) eqn:R0.
      * apply (STEP opn) with (b := before); [|exact H|reflexivity].
        intros fd' O; apply open_snoc_inv in O as (_ & [O|(_ & A & _)]); [exact (P _ O)|congruence].
      * apply andb_prop in H as (_ & H). apply (STEP (r_val r0 :: opn)) with (b := before); [|exact H|reflexivity].
        intros fd' O; apply open_snoc_inv in O as (_ & [O|(_ & _ & A)]); [right; exact (P _ O)|left; exact A].
    + apply (STEP (filter (fun x => negb (x =? fd)) opn)) with (b := before); [|exact H|reflexivity].
      intros fd' O; apply open_snoc_inv in O as (NC & [O|(A & _)]); [|discriminate A].
      apply filter_In. split; [exact (P _ O)|]. apply negb_true_iff. apply Z.eqb_neq. congruence.
Qed.
(** the queue's part, with one packet; and three conntrack updates over the descriptor [fd] *)
Definition sample_queue (cb : callback) : part :=
  PQueue 42 100 65535 cb true 5 3 (Z.to_nat 19202) (fun _ k => k).
Notation queue_events cb :=
  (w_tr (snd (ProcessPackets 3 (Z.to_nat 19202) LE (fun _ k => k) (kernel_delivers [Some marked_packet])
     (started cb true [Some marked_packet])))).
Definition kernel_gives (fd : Z) : env := fun tr c =>
  match c with KSocket _ _ _ => mkResp None fd [] false | _ => kernel_acks tr c end.
Definition sample_update : ct_call :=
  CUpdateMark (f_src sample_tuple) (f_dst sample_tuple) 6 1000 80 7.
Notation update_events fd := (w_tr (ct_uses LE [sample_update; sample_update] (kernel_gives fd) (mkW tt [] []))).
Lemma marked_bytes : is_bytes marked_packet.
Proof. unfold marked_packet. bytes_tac. Qed.
Lemma delivers_answers : answers_ok (kernel_delivers [Some marked_packet]).
Proof.
  split; [apply delivers_within|]. apply delivers_bytes. constructor; [exact marked_bytes|constructor].
Qed.
Lemma gives_answers fd : answers_ok (kernel_gives fd).
Proof.
  split; [intros tr f n; cbn; intros _; split; [bytes_tac|unfold zlen; cbn; lia]|]. intros tr f n fl. cbn. bytes_tac.
Qed.
Lemma does_after_start m e i mx sz cb ecb pd n fuel grow w0 w : w_tr w0 = [] ->
  CreateAndStartNfQueue m i mx sz (Some cb) ecb pd e w0 = (Ok None, w) ->
  part_does m e (PQueue i mx sz cb ecb pd n fuel grow) (w_tr (snd (ProcessPackets n fuel m grow e w))).
Proof. intros T E. exists w0. split; [exact T|]. cbv zeta. rewrite E. reflexivity. Qed.
Lemma queue_does cb : part_does LE (kernel_delivers [Some marked_packet]) (sample_queue cb) (queue_events cb).
Proof. exact (does_after_start _ _ _ _ _ _ _ _ _ _ _ blank _ eq_refl (started_ok cb true [Some marked_packet])). Qed.
Lemma update_does fd : part_does LE (kernel_gives fd) (PConntrack [sample_update; sample_update]) (update_events fd).
Proof. exists (mkW tt [] []). split; reflexivity. Qed.
(** two parts, the second one's [k2] events between the first [k1] events of the first part
    and the rest of it *)
Definition mixed (k1 k2 : nat) (q c : list event) : schedule :=
  tag 0 (firstn k1 q) ++ tag 1 (firstn k2 c) ++ tag 0 (skipn k1 q).
Lemma mixed_runs k1 k2 p1 p2 q c e1 e2 :
  answers_ok e1 -> answers_ok e2 -> part_does LE e1 p1 q -> part_does LE e2 p2 c ->
  runs_of LE [p1; p2] (mixed k1 k2 q c).
Proof.
  intros A1 A2 D1 D2. split.
  - intros i ev H. unfold mixed in H. apply in_app_or in H as [H|H]; [apply in_tag in H; subst; cbn; lia|].
    apply in_app_or in H as [H|H]; apply in_tag in H; subst; cbn; lia.
  - intros [|[|i]] p N; [injection N as <-|injection N as <-|destruct i; discriminate]; unfold mixed; rewrite !of_part_app.
    + exists e1, q, []. rewrite !of_tag, (of_tag_other 0 1) by discriminate. cbn [app]. rewrite app_nil_r, firstn_skipn. auto.
    + exists e2, c, (skipn k2 c). rewrite of_tag, !(of_tag_other 1 0) by discriminate. cbn [app]. rewrite app_nil_r, firstn_skipn. auto.
Qed.
(** a queue receives and answers a packet while the other goroutine makes two updates *)
Example C100_hypotheses_met :
  let q := queue_events (guarded accept_all) in let c := update_events 8 in
  let g := mixed 17 20 q c in
  runs_of LE [sample_queue (guarded accept_all); PConntrack [sample_update; sample_update]] g /\
  Forall part_ok [sample_queue (guarded accept_all); PConntrack [sample_update; sample_update]] /\
  fresh_descriptors g /\ length q = 23%nat /\ length c = 10%nat.
Proof.
  cbv zeta. split; [|split; [|split; [|split]]].
  - apply (mixed_runs 17 20 _ _ _ _ _ _ delivers_answers (gives_answers 8) (queue_does _) (update_does 8)).
  - constructor; [|constructor; [exact Logic.I|constructor]]. cbn [sample_queue part_ok].
    split; [red; lia|]. split; [red; lia|]. split; [red; lia|].
    intros tr h pkt pd. unfold guarded. destruct (_ =? _)%nat; [exact (fun H => H)|]. unfold releasing.
    cbn [accept_all]. intros [H|[]]. discriminate H.
  - intros before i r after E R. apply (fresh_check_ok _ [] [] ltac:(intros fd (b & ? & ? & X & _); destruct b; discriminate X)) with (2 := E); [|exact R].
    vm_compute. reflexivity.
  - vm_compute. reflexivity.
  - vm_compute. reflexivity.
Qed.
(** Refuted for a queue that is stopped: its callback calls StopQueue, which closes
    descriptor 7; the kernel gives 7 to the other goroutine's update; the context is
    cancelled and the queue's loop closes 7 under the update, which is waiting for its reply.
    The kernel never hands out a descriptor in use, and nobody but the library is involved. *)
Definition stopping : callback := fun _ _ _ _ => [CbStop].
Lemma mixed_end k1 k2 q c ev : skipn k1 q = [ev] ->
  mixed k1 k2 q c = (tag 0 (firstn k1 q) ++ tag 1 (firstn k2 c)) ++ [(0%nat, ev)].
Proof. intros E. unfold mixed. rewrite E, <- app_assoc. reflexivity. Qed.
Lemma held_middle g1 r more fd : r_err r = None -> r_val r = fd ->
  Forall (fun ev => fst ev <> KClose fd /\ fst ev <> KSocket 16 3 12) more ->
  held_by 1 fd (g1 ++ tag 1 ((KSocket 16 3 12, r) :: more)).
Proof.
  intros E V F. exists g1, r, (tag 1 more). split; [reflexivity|]. split; [exact E|]. split; [exact V|].
  intros j c r' H. pose proof (in_tag _ _ _ _ H) as ->. apply of_part_in in H. rewrite of_tag in H.
  rewrite Forall_forall in F. destruct (F _ H) as (A & B). cbn [fst] in A, B. split; [auto|]. intros (X & _). contradiction.
Qed.
(** no two parts hold the same descriptor *)
Lemma held_unique i j fd g : held_by i fd g -> held_by j fd g -> i = j.
Proof.
  intros (g1 & r & g2 & -> & E & V & H) (g1' & r' & g2' & EQ & E' & V' & H').
  destruct (app_split g1 ((i, (KSocket 16 3 12, r)) :: g2) g1' _ _ EQ) as [(u & -> & ->)|(u & -> & X)].
  - exfalso. refine (proj2 (H' i (KSocket 16 3 12) r _) (conj eq_refl (conj E V))). apply in_or_app. right. left. reflexivity.
  - destruct u as [|x u]; [injection X as <- _ _; reflexivity|]. injection X as <- X.
    exfalso. refine (proj2 (H j (KSocket 16 3 12) r' _) (conj eq_refl (conj E' V'))). rewrite X. apply in_or_app. right. left. reflexivity.
Qed.
Lemma stop_last : skipn (length (queue_events stopping) - 1) (queue_events stopping) = [(KClose 7, resp_ok)].
Proof. vm_compute. reflexivity. Qed.
Lemma start_update : exists r, r_err r = None /\ r_val r = 7 /\ exists more,
  firstn 3 (update_events 7) = (KSocket 16 3 12, r) :: more /\
  Forall (fun ev => fst ev <> KClose 7 /\ fst ev <> KSocket 16 3 12) more.
Proof.
  eexists. split; [|split; [|eexists; split; [vm_compute; reflexivity|]]]; [reflexivity|reflexivity|].
  repeat (apply Forall_cons; [split; discriminate|]). apply Forall_nil.
Qed.
Theorem C100_stopped_queue_closes_anothers_socket_refuted :
  let q := queue_events stopping in
  let g := mixed (length q - 1) 3 q (update_events 7) in
  runs_of LE [sample_queue stopping; PConntrack [sample_update; sample_update]] g /\ fresh_descriptors g /\
  exists before r, g = before ++ [(0%nat, (KClose 7, r))] /\ held_by 1 7 before /\ ~ held_by 0 7 before.
Proof.
  cbv zeta. split; [|split].
  - apply (mixed_runs _ 3 _ _ _ _ _ _ delivers_answers (gives_answers 7) (queue_does _) (update_does 7)).
  - intros before i r after E R. apply (fresh_check_ok _ [] [] ltac:(intros fd (b & ? & ? & X & _); destruct b; discriminate X)) with (2 := E); [|exact R].
    vm_compute. reflexivity.
  - pose proof (mixed_end _ 3 _ (update_events 7) _ stop_last) as G.
    destruct start_update as (r & E & V & more & C & F). rewrite C in G.
    eexists _, _. split; [exact G|].
    assert (H : held_by 1 7 (tag 0 (firstn (length (queue_events stopping) - 1) (queue_events stopping)) ++ tag 1 ((KSocket 16 3 12, r) :: more)))
      by (apply held_middle; assumption).
    split; [exact H|]. intros K. pose proof (held_unique _ _ _ _ H K). discriminate.
Qed.
Print Assumptions C100_stopped_queue_closes_anothers_socket_refuted.
