(** The packet loop: C12, C13, C18, C19, C20, C57, C58. *)
From Verif Require Import Proof.Grows Proof.BufferLife Spec.Samples.

(** ** The loop on a queue that was just started *)
(** A callback that follows the rules for every choice of private memory. *)
Definition well_behaved (e : env) (cb : callback) : Prop := forall priv, callback_ok e priv cb.
Lemma releasing_well_behaved_ok : forall e choose priv tr h pkt pd,
  valid h (p_buf pkt) -> ~ In (s_arr (p_buf pkt)) priv -> (0 < s_len (p_buf pkt))%nat ->
  acts_ok e h priv (releasing choose tr h pkt pd).
Proof.
  intros e choose priv tr h pkt pd V N L. unfold releasing.
  destruct (choose _ _ _) as [v mk]. cbn. constructor; [|constructor]. cbn. auto.
Qed.
(** the documented callback, guarded against empty payloads *)
Definition guarded (choose : Z -> Z -> bytes -> Z * Z) : callback := fun tr h pkt pd =>
  if (s_len (p_buf pkt) =? 0)%nat then [] else releasing choose tr h pkt pd.
Lemma guarded_well_behaved e choose : well_behaved e (guarded choose).
Proof.
  intros priv tr h pkt pd V N P. unfold guarded.
  destruct (Nat.eqb_spec (s_len (p_buf pkt)) 0); [constructor|].
  apply releasing_well_behaved_ok; auto. lia.
Qed.

Definition blank : world nfq := mkW (mkQ 0 0 None false 0 None snil [] snil 0 0 0 []) [] [].
Definition accept_all : Z -> Z -> bytes -> Z * Z := fun _ _ _ => (1, 99).
Definition started (cb : callback) (ecb : bool) (ds : list (option bytes)) : world nfq :=
  snd (CreateAndStartNfQueue LE 42 100 65535 (Some cb) ecb 5 (kernel_delivers ds) blank).
Definition run (n : nat) (cb : callback) (ecb : bool) (ds : list (option bytes)) : res unit * world nfq :=
  ProcessPackets n (Z.to_nat 19202) LE (fun _ k => k) (kernel_delivers ds) (started cb ecb ds).
(** the events of the loop: everything after the set-up *)
Definition loop_events (cb : callback) (ecb : bool) (ds : list (option bytes)) (w : world nfq) : list event :=
  skipn (length (w_tr (started cb ecb ds))) (w_tr w).
Lemma started_computed cb ecb ds :
  let r := CreateAndStartNfQueue LE 42 100 65535 (Some cb) ecb 5 (kernel_delivers ds) blank in
  (fst r, packet_receives (w_tr (snd r))) = (Ok None, 0%nat).
Proof. vm_compute. reflexivity. Qed.
Lemma started_ok cb ecb ds :
  CreateAndStartNfQueue LE 42 100 65535 (Some cb) ecb 5 (kernel_delivers ds) blank =
  (Ok None, started cb ecb ds).
Proof.
  pose proof (started_computed cb ecb ds) as H. unfold started.
  destruct (CreateAndStartNfQueue _ _ _ _ _ _ _ _ _) as [r w].
  cbn [fst snd] in *. congruence.
Qed.
Lemma started_trace cb ecb ds : packet_receives (w_tr (started cb ecb ds)) = 0%nat.
Proof.
  pose proof (started_computed cb ecb ds) as H. unfold started.
  destruct (CreateAndStartNfQueue _ _ _ _ _ _ _ _ _) as [r w].
  cbn [fst snd] in *. congruence.
Qed.
Lemma first_delivery cb ecb ds fd n :
  kernel_delivers ds (w_tr (started cb ecb ds)) (KRecvfrom fd n 256) =
  match nth 0 ds None with Some d => mkResp None 0 d false | None => mkResp (Some 105) 0 [] false end.
Proof. unfold kernel_delivers. rewrite started_trace. reflexivity. Qed.
Lemma delivers_within ds : replies_within 20 76800 (kernel_delivers ds).
Proof. intros tr b r1 fd n. cbn. intros _. split; [bytes_tac|]. unfold zlen. cbn. lia. Qed.
Lemma delivers_bytes ds : Forall (fun o => match o with Some d => is_bytes d | None => True end) ds ->
  bytes_env (kernel_delivers ds).
Proof.
  intros H tr fd n fl. cbn. destruct (fl =? 256); [|bytes_tac].
  destruct (nth (packet_receives tr) ds None) as [d|] eqn:E; [|constructor].
  destruct (Nat.ltb_spec (packet_receives tr) (length ds)) as [L|L].
  - rewrite Forall_forall in H. specialize (H (Some d)). apply H. rewrite <- E. apply nth_In, L.
  - rewrite nth_overflow in E by exact L. discriminate.
Qed.
Lemma started_fresh cb ecb ds : exists fd priv, fresh_ready (started cb ecb ds) fd priv /\
  q_num (w_st (started cb ecb ds)) = 42 /\ q_cb (w_st (started cb ecb ds)) = Some cb /\
  q_ecb (w_st (started cb ecb ds)) = ecb /\ q_priv (w_st (started cb ecb ds)) = 5.
Proof.
  destruct (started_ready LE 42 100 65535 (Some cb) ecb 5 (kernel_delivers ds) blank (started cb ecb ds))
    as (fd & priv & _ & _ & _ & _ & F & A & B & C & D); try (red; lia).
  - apply delivers_within.
  - apply started_ok.
  - exists fd, priv. auto 10.
Qed.

(** what the packet callback was shown: id, mark, contents *)
Definition shown_packets (tr : list event) : list (Z * Z * bytes) :=
  flat_map (fun ev => match fst ev with KPacketCb id mark _ c _ => [(id, mark, c)] | _ => [] end) tr.

(** ** Reachability *)
(** A successful CreateAndStartNfQueue leaves a handle on which everything below
    applies. *)
Theorem C18_started_queue_is_ready : forall m queueID maxp psz cb ecb pd e w w',
  is_u16 queueID -> is_u32 maxp -> is_u32 psz -> replies_within 20 76800 e ->
  CreateAndStartNfQueue m queueID maxp psz cb ecb pd e w = (Ok None, w') ->
  exists fd priv evs rest, w_tr w' = w_tr w ++ evs ++ rest /\ opens fd evs /\
    fresh_ready w' fd priv /\ q_num (w_st w') = queueID /\
    q_cb (w_st w') = cb /\ q_ecb (w_st w') = ecb /\ q_priv (w_st w') = pd.
Proof. exact started_ready. Qed.
Print Assumptions C18_started_queue_is_ready.

Lemma started_inv fd priv cb pd w :
  fresh_ready w fd priv -> q_cb (w_st w) = Some cb -> q_ecb (w_st w) = true -> q_priv (w_st w) = pd ->
  loop_inv fd priv cb pd w.
Proof.
  intros [Q P FM SR (C1 & C2 & C3)] A B C. constructor; auto. rewrite C3. lia.
Qed.

(** ** C12 *)
Theorem C12_packet_delivered_with_its_own_data : forall m fuel e w fd d l id mark payload,
  queue_ready w fd ->
  let r := e (w_tr w) (KRecvfrom fd 76800 256) in
  r_err r = None -> r_data r = d -> packet_datagram m d l ->
  has_id m l id -> has_mark l mark -> has_payload l payload -> (Z.to_nat 19201 < fuel)%nat ->
  exists g tbl s w',
    Recv fuel m e w = (Ok (Some g, Some tbl, None), w') /\
    GetPacketInfo m (w_heap w') (Some tbl) = Ok (id, mark, s) /\ rd (w_heap w') s = payload /\
    QueueID g = num BE (field d 18 2) /\ queue_ready w' fd.
Proof. exact recv_delivers. Qed.
Print Assumptions C12_packet_delivered_with_its_own_data.

Lemma marked_is_packet : exists l, packet_datagram LE marked_packet l /\
  has_id LE l 258 /\ has_mark l 263 /\ has_payload l [69; 0; 0; 5; 17].
Proof.
  eexists. split.
  - split; [bytes_tac|]. split; [vm_compute; lia|]. split; [vm_compute; discriminate|]. split; reflexivity.
  - split; [|split].
    + eexists. split; [reflexivity|]. split; [vm_compute; lia|reflexivity].
    + eexists. split; [reflexivity|]. split; [vm_compute; lia|reflexivity].
    + reflexivity.
Qed.
Example C12_hypotheses_met :
  let e := kernel_delivers [Some marked_packet] in
  exists fd, let w := started (guarded accept_all) true [Some marked_packet] in
  queue_ready w fd /\ r_data (e (w_tr w) (KRecvfrom fd 76800 256)) = marked_packet /\
  (exists l, packet_datagram LE marked_packet l /\
     has_id LE l 258 /\ has_mark l 263 /\ has_payload l [69; 0; 0; 5; 17]).
Proof.
  intros e. destruct (started_fresh (guarded accept_all) true [Some marked_packet]) as (fd & priv & F & _).
  exists fd. split; [apply F|]. split; [|exact marked_is_packet].
  unfold e. rewrite first_delivery. reflexivity.
Qed.
(** the hypotheses of C14 hold there too *)
Example C14_hypotheses_met :
  exists fd, let w := started (guarded accept_all) true [Some marked_packet] in
  queue_ready w fd /\ slots_readable w /\
  exists l hv, packet_datagram LE marked_packet l /\ last_attr 1 l = Some hv /\ (4 <= length hv)%nat /\
    (forall mv, last_attr 3 l = Some mv -> (4 <= length mv)%nat).
Proof.
  destruct (started_fresh (guarded accept_all) true [Some marked_packet]) as (fd & priv & F & _).
  exists fd. split; [apply F|]. split; [apply F|].
  destruct marked_is_packet as (l & A & (hv & B1 & B2 & _) & (mv & C1 & C2 & _) & _).
  exists l, hv. split; [exact A|]. split; [exact B1|]. split; [exact B2|].
  intros mv'. rewrite C1. intros E. injection E as <-. exact C2.
Qed.

(** ** C13 *)
(** On a started queue, with any well-behaved callback: as long as no received
    datagram carries a mark, every packet is shown with mark 0.  Missing: packets
    after the first marked one. *)
Theorem C13_unmarked_until_first_mark_partial :
  forall m fuel grow n queueID maxp psz cb pd e w0 w res w',
  (Z.to_nat 19201 < fuel)%nat -> bytes_env e -> well_behaved e cb ->
  is_u16 queueID -> is_u32 maxp -> is_u32 psz -> replies_within 20 76800 e ->
  CreateAndStartNfQueue m queueID maxp psz (Some cb) true pd e w0 = (Ok None, w) ->
  ProcessPackets n fuel m grow e w = (res, w') ->
  exists fd evs, w_tr w' = w_tr w ++ evs /\
    forall pre id mark buf contents pd' r post,
      evs = pre ++ (KPacketCb id mark buf contents pd', r) :: post -> no_mark_in m fd pre -> mark = 0.
Proof.
  intros m fuel grow n queueID maxp psz cb pd e w0 w res w' HF HB WB A1 A2 A3 RW ST PP.
  destruct (started_ready m queueID maxp psz (Some cb) true pd e w0 w A1 A2 A3 RW ST)
    as (fd & priv & _ & _ & _ & _ & F & N & C & D & E).
  destruct (process_packets_marks m fuel grow e fd pd priv cb HF HB (WB priv) n w res w')
    as (evs & T & M); [apply started_inv; auto|apply F|exact PP|].
  exists fd, evs. split; [exact T|]. intros. eapply M; eauto.
Qed.
Print Assumptions C13_unmarked_until_first_mark_partial.

(** the second packet carries no mark and is shown with a mark read from its own
    unrelated attribute *)
Theorem C13_stale_mark_refuted :
  let ds := [Some marked_packet; Some unmarked_packet] in
  (exists l, attrs_of LE (skipn 20 unmarked_packet) = Some l /\ last_attr 3 l = None) /\
  let r := run 5 (fun _ _ _ _ => []) true ds in
  (fst r, shown_packets (w_tr (snd r))) =
  (Ok tt, [(258, 263, [69; 0; 0; 5; 17]); (259, 517, [70; 1; 1; 6; 18])]).
Proof.
  split; [eexists; split; reflexivity|]. vm_compute; reflexivity.
Qed.
Print Assumptions C13_stale_mark_refuted.

Lemma samples_are_bytes : is_bytes marked_packet /\ is_bytes unmarked_packet.
Proof. split; bytes_tac. Qed.
Ltac sample_bytes :=
  repeat match goal with |- Forall _ (_ :: _) => apply Forall_cons | |- Forall _ [] => apply Forall_nil end;
  try exact I; apply samples_are_bytes.
Lemma sample_hyps cb ds :
  Forall (fun o => match o with Some d => is_bytes d | None => True end) ds ->
  bytes_env (kernel_delivers ds) /\ replies_within 20 76800 (kernel_delivers ds) /\
  CreateAndStartNfQueue LE 42 100 65535 (Some cb) true 5 (kernel_delivers ds) blank =
    (Ok None, started cb true ds).
Proof.
  intros H. split; [apply delivers_bytes, H|]. split; [apply delivers_within|apply started_ok].
Qed.
Example C13_hypotheses_met :
  let ds := [Some unmarked_packet; Some unmarked_packet; None; Some marked_packet] in
  bytes_env (kernel_delivers ds) /\ replies_within 20 76800 (kernel_delivers ds) /\
  well_behaved (kernel_delivers ds) (guarded accept_all) /\
  CreateAndStartNfQueue LE 42 100 65535 (Some (guarded accept_all)) true 5 (kernel_delivers ds) blank =
    (Ok None, started (guarded accept_all) true ds).
Proof.
  intros ds. destruct (sample_hyps (guarded accept_all) ds) as (A & B & C).
  - unfold ds. sample_bytes.
  - auto using guarded_well_behaved.
Qed.

(** ** C18 *)
(** Every run of the loop, from set-up on: the events are whole turns - context
    not done, one receive, one error callback or one packet callback with the
    registered private data, showing what was received - and at the end, if the
    loop returned, the context was done and the socket was closed. *)
Theorem C18_loop_trace : forall m fuel grow n queueID maxp psz cb pd e w0 w res w',
  (Z.to_nat 19201 < fuel)%nat -> bytes_env e -> well_behaved e cb ->
  is_u16 queueID -> is_u32 maxp -> is_u32 psz -> replies_within 20 76800 e ->
  CreateAndStartNfQueue m queueID maxp psz (Some cb) true pd e w0 = (Ok None, w) ->
  ProcessPackets n fuel m grow e w = (res, w') ->
  exists fd opening rest its last,
    w_tr w = w_tr w0 ++ opening ++ rest /\ opens fd opening /\
    w_tr w' = w_tr w ++ concat its ++ last /\
    Forall (turn m fd pd) its /\ loop_end fd res last /\
    q_proc (w_st w') = u64 (Z.of_nat (packet_calls (concat its))).
Proof.
  intros m fuel grow n queueID maxp psz cb pd e w0 w res w' HF HB WB A1 A2 A3 RW ST PP.
  destruct (started_ready m queueID maxp psz (Some cb) true pd e w0 w A1 A2 A3 RW ST)
    as (fd & priv & op & rest & TR & O & F & N & C & D & E).
  destruct (process_packets_trace m fuel grow e fd pd priv cb HF HB (WB priv) n w res w')
    as (its & last & T & G & L & P); [apply started_inv; auto|exact PP|].
  exists fd, op, rest, its, last. repeat (split; [assumption|]).
  destruct (fr_counts _ _ _ F) as (_ & _ & Z0). rewrite Z0 in P. exact P.
Qed.
Print Assumptions C18_loop_trace.

(** From any state the loop can be in (not only the first). *)
Theorem C18_loop_trace_from_any_state : forall m fuel grow e fd pd priv cb n w res w',
  (Z.to_nat 19201 < fuel)%nat -> bytes_env e -> callback_ok e priv cb ->
  loop_inv fd priv cb pd w ->
  ProcessPackets n fuel m grow e w = (res, w') ->
  exists its last,
    w_tr w' = w_tr w ++ concat its ++ last /\
    Forall (turn m fd pd) its /\ loop_end fd res last /\
    q_proc (w_st w') = u64 (q_proc (w_st w) + Z.of_nat (packet_calls (concat its))).
Proof. intros m fuel grow e fd pd priv cb n w res w' H1 H2 H3. now apply process_packets_trace. Qed.
Print Assumptions C18_loop_trace_from_any_state.

(** When the context is done on entry nothing is received. *)
Theorem C18_cancel_closes_without_receiving : forall n fuel m grow e w fd,
  queue_ready w fd -> r_flag (e (w_tr w) KCtxDone) = true ->
  exists r1 r2 w', ProcessPackets (S n) fuel m grow e w = (Ok tt, w') /\
    w_tr w' = w_tr w ++ [(KCtxDone, r1); (KClose fd, r2)].
Proof.
  intros n fuel m grow e w fd Q F. cbn [ProcessPackets]. mstep. rewrite F.
  set (w0 := mkW _ _ _). assert (Q0 : queue_ready w0 fd) by (destruct Q; constructor; auto).
  destruct (NfqClose_inv e w0 fd Q0) as [r2 EC]. rewrite EC.
  eexists _, r2, _. split; [reflexivity|]. cbn [w_tr w0]. rewrite <- app_assoc. reflexivity.
Qed.
Print Assumptions C18_cancel_closes_without_receiving.

(** (a complete run is computed at C57) *)
Example C18_hypotheses_met :
  let ds := [Some marked_packet; None; Some unmarked_packet] in
  bytes_env (kernel_delivers ds) /\ replies_within 20 76800 (kernel_delivers ds) /\
  well_behaved (kernel_delivers ds) (guarded accept_all) /\
  CreateAndStartNfQueue LE 42 100 65535 (Some (guarded accept_all)) true 5 (kernel_delivers ds) blank =
    (Ok None, started (guarded accept_all) true ds).
Proof.
  intros ds. destruct (sample_hyps (guarded accept_all) ds) as (A & B & C).
  - unfold ds. sample_bytes.
  - auto using guarded_well_behaved.
Qed.

(** ** C19 *)
(** With an error callback registered every packet callback comes right after a
    receive that succeeded, and shows what that receive brought.  Missing:
    handles without an error callback (refuted below). *)
Lemma turn_packet_after_receive m fd pd t : turn m fd pd t ->
  forall pre id mark buf contents pd' r post,
  t = pre ++ (KPacketCb id mark buf contents pd', r) :: post ->
  exists r0 rr, pre = [(KCtxDone, r0); (KRecvfrom fd 76800 256, rr)] /\ r_err rr = None /\
    (20 <= length (received rr))%nat /\ reply_code m (received rr) = 0 /\
    shows m (received rr) id mark contents.
Proof.
  intros T pre id mark buf contents pd' r post E. destruct T as [r0 r1 er r2 F R|r0 r1 i k b c r2 evs F RE L RC NT SH CB].
  - destruct pre as [|x pre]; [discriminate|]. injection E as <- E.
    destruct pre as [|x pre]; [discriminate|]. injection E as <- E.
    destruct pre as [|x pre]; [discriminate|]. injection E as <- E.
    destruct pre; discriminate.
  - destruct pre as [|x pre]; [discriminate|]. injection E as <- E.
    destruct pre as [|x pre]; [discriminate|]. injection E as <- E.
    destruct pre as [|x pre].
    + injection E as <- <- <- <- <- <- <-. exists r0, r1. auto 10.
    + injection E as <- E. exfalso. rewrite E in CB. apply Forall_app in CB as [_ CB].
      inversion CB as [|? ? X]; subst. exact X.
Qed.
Lemma split_concat {A} (its : list (list A)) : forall last pre x post,
  concat its ++ last = pre ++ x :: post ->
  (exists a t b, its = a ++ t :: b /\ exists p q, t = p ++ x :: q /\ pre = concat a ++ p) \/
  (exists p, last = p ++ x :: post /\ pre = concat its ++ p).
Proof.
  induction its as [|t its IH]; intros last pre x post E.
  - right. exists pre. auto.
  - cbn [concat] in E. rewrite <- app_assoc in E.
    destruct (Nat.ltb_spec (length pre) (length t)) as [L|L].
    + left. exists [], t, its. split; [reflexivity|].
      exists pre, (skipn (length pre + 1) t). split; [|reflexivity].
      assert (F : firstn (length pre + 1) (t ++ concat its ++ last) = pre ++ [x]).
      { rewrite E. rewrite firstn_app. rewrite firstn_all2 by lia.
        replace (length pre + 1 - length pre)%nat with 1%nat by lia. reflexivity. }
      rewrite firstn_app in F. replace (length pre + 1 - length t)%nat with 0%nat in F by lia.
      rewrite firstn_O, app_nil_r in F.
      rewrite <- (firstn_skipn (length pre + 1) t) at 1. rewrite F, <- app_assoc. reflexivity.
    + assert (F : pre = t ++ skipn (length t) pre).
      { rewrite <- (firstn_skipn (length t) pre) at 1. f_equal.
        assert (G : firstn (length t) (t ++ concat its ++ last) = firstn (length t) (pre ++ x :: post)) by now rewrite E.
        rewrite firstn_app, Nat.sub_diag, firstn_O, app_nil_r, firstn_all in G.
        rewrite firstn_app in G. replace (length t - length pre)%nat with 0%nat in G by lia.
        rewrite firstn_O, app_nil_r in G. now symmetry. }
      rewrite F in E. rewrite <- app_assoc in E. apply app_inv_head in E.
      destruct (IH _ _ _ _ E) as [(a & t' & b & -> & p & q & H1 & H2)|(p & H1 & H2)].
      * left. exists (t :: a), t', b. split; [reflexivity|]. exists p, q. split; [exact H1|].
        rewrite F, H2. cbn [concat]. now rewrite app_assoc.
      * right. exists p. split; [exact H1|]. rewrite F, H2. cbn [concat]. now rewrite app_assoc.
Qed.
Theorem C19_packet_callback_only_after_receive_partial :
  forall m fuel grow n queueID maxp psz cb pd e w0 w res w',
  (Z.to_nat 19201 < fuel)%nat -> bytes_env e -> well_behaved e cb ->
  is_u16 queueID -> is_u32 maxp -> is_u32 psz -> replies_within 20 76800 e ->
  CreateAndStartNfQueue m queueID maxp psz (Some cb) true pd e w0 = (Ok None, w) ->
  ProcessPackets n fuel m grow e w = (res, w') ->
  exists fd evs, w_tr w' = w_tr w ++ evs /\
    forall pre id mark buf contents pd' r post,
      evs = pre ++ (KPacketCb id mark buf contents pd', r) :: post ->
      exists pre' rr, pre = pre' ++ [(KRecvfrom fd 76800 256, rr)] /\ r_err rr = None /\
        (20 <= length (received rr))%nat /\ reply_code m (received rr) = 0 /\
        shows m (received rr) id mark contents.
Proof.
  intros m fuel grow n queueID maxp psz cb pd e w0 w res w' HF HB WB A1 A2 A3 RW ST PP.
  destruct (C18_loop_trace m fuel grow n queueID maxp psz cb pd e w0 w res w' HF HB WB A1 A2 A3 RW ST PP)
    as (fd & _ & _ & its & last & _ & _ & T & G & L & _).
  exists fd, (concat its ++ last). split; [exact T|].
  intros pre id mark buf contents pd' r post E.
  destruct (split_concat its last _ _ _ E) as [(a & t & b & -> & p & q & H1 & H2)|(p & H1 & H2)].
  - apply Forall_app in G as [_ G]. inversion G as [|? ? GT _]; subst.
    destruct (turn_packet_after_receive m fd pd _ GT _ _ _ _ _ _ _ _ eq_refl)
      as (r0 & rr & -> & X).
    exists (concat a ++ [(KCtxDone, r0)]), rr. split; [|exact X].
    now rewrite <- app_assoc.
  - exfalso. destruct res; cbn in L.
    + destruct L as (r1 & r2 & _ & L). rewrite L in H1.
      destruct p as [|x p]; [discriminate|]. injection H1 as <- H1.
      destruct p as [|x p]; [discriminate|]. injection H1 as <- H1. destruct p; discriminate.
    + destruct L as (r1 & r2 & _ & _ & L). rewrite L in H1.
      destruct p as [|x p]; [discriminate|]. injection H1 as <- H1.
      destruct p as [|x p]; [discriminate|]. injection H1 as <- H1. destruct p; discriminate.
    + destruct L as [L|(r1 & r2 & _ & _ & L)]; rewrite L in H1; [destruct p; discriminate|].
      destruct p as [|x p]; [discriminate|]. injection H1 as <- H1.
      destruct p as [|x p]; [discriminate|]. injection H1 as <- H1. destruct p; discriminate.
Qed.
Print Assumptions C19_packet_callback_only_after_receive_partial.

(** With an error callback registered it holds: see [turn] in C18 (a packet
    callback only follows a receive that succeeded).  Without one: *)
Theorem C19_failed_receive_reaches_packet_callback_refuted : forall m fuel grow e w fd cb en,
  queue_ready w fd -> q_ecb (w_st w) = false -> q_cb (w_st w) = Some cb ->
  r_err (e (w_tr w) (KRecvfrom fd 76800 256)) = Some en ->
  exists r1 r2 r3 rest, let w' := snd (process_one fuel m grow e w) in
    w_tr w' = w_tr w ++ [(KRecvfrom fd 76800 256, r1); (KPrint, r2);
                         (KPacketCb 0 0 snil [] (q_priv (w_st w)), r3)] ++ rest.
Proof. exact failed_receive_reaches_callback. Qed.
Print Assumptions C19_failed_receive_reaches_packet_callback_refuted.

(** with the documented callback this crashes the process *)
Theorem C19_failed_receive_crashes_documented_callback_refuted :
  fst (run 3 (releasing accept_all) false [None; Some marked_packet]) = Panic.
Proof. vm_compute. reflexivity. Qed.
Print Assumptions C19_failed_receive_crashes_documented_callback_refuted.
Example C19_hypotheses_met : exists fd,
  let w := started (releasing accept_all) false [None] in
  queue_ready w fd /\ q_ecb (w_st w) = false /\ q_cb (w_st w) = Some (releasing accept_all) /\
  r_err (kernel_delivers [None] (w_tr w) (KRecvfrom fd 76800 256)) = Some 105.
Proof.
  destruct (started_fresh (releasing accept_all) false [None]) as (fd & priv & F & A & B & C & D).
  exists fd. split; [apply F|]. split; [exact C|]. split; [exact B|].
  rewrite first_delivery. reflexivity.
Qed.

(** ** C20 *)
(** Missing: datagrams that are not whole messages (shorter than the two headers,
    or with an attribute shorter than its header); the process then dies or
    hangs. *)
Theorem C20_receive_survives_partial : forall m fuel e w fd,
  queue_ready w fd -> bytes_env e ->
  let r := e (w_tr w) (KRecvfrom fd 76800 256) in
  let d := received r in
  (r_err r = None -> (20 <= length d)%nat) ->
  (r_err r = None -> reply_code m d = 0 -> forall p, attr_complete m (skipn 20 d) p ->
     (4 <= attr_len m (skipn 20 d) p)%nat) ->
  (Z.to_nat 19201 < fuel)%nat ->
  exists res w', Recv fuel m e w = (Ok res, w') /\ queue_ready w' fd.
Proof. exact recv_survives. Qed.
Print Assumptions C20_receive_survives_partial.

(** The whole loop survives any run with a kernel sending whole messages, and
    every iteration is a whole turn. *)
Theorem C20_loop_survives_partial : forall m fuel grow n queueID maxp psz cb pd e w0 w res w',
  (Z.to_nat 19201 < fuel)%nat -> bytes_env e -> well_behaved e cb -> kernel_ok m e ->
  is_u16 queueID -> is_u32 maxp -> is_u32 psz -> replies_within 20 76800 e ->
  CreateAndStartNfQueue m queueID maxp psz (Some cb) true pd e w0 = (Ok None, w) ->
  ProcessPackets n fuel m grow e w = (res, w') ->
  res <> Panic /\ exists fd, (res = NoFuel -> exists its, w_tr w' = w_tr w ++ concat its /\
                       Forall (turn m fd pd) its /\ length its = n).
Proof.
  intros m fuel grow n queueID maxp psz cb pd e w0 w res w' HF HB WB KO A1 A2 A3 RW ST PP.
  destruct (started_ready m queueID maxp psz (Some cb) true pd e w0 w A1 A2 A3 RW ST)
    as (fd & priv & _ & _ & _ & _ & F & N & C & D & E).
  destruct (process_packets_safe m fuel grow e fd pd priv cb HF HB (WB priv) n KO w res w')
    as (X & Y); [apply started_inv; auto|apply F|exact PP|].
  split; [exact X|]. exists fd. exact Y.
Qed.
Print Assumptions C20_loop_survives_partial.

Theorem C20_short_datagram_crashes_refuted : forall m fuel e w fd,
  queue_ready w fd ->
  let r := e (w_tr w) (KRecvfrom fd 76800 256) in
  r_err r = None -> (length (r_data r) < 20)%nat ->
  exists w', Recv fuel m e w = (Panic, w').
Proof. exact recv_crashes_short. Qed.
Print Assumptions C20_short_datagram_crashes_refuted.

Lemma starts_marked p : attr_start LE (skipn 20 marked_packet) p -> In p [0; 12; 20; 28; 40]%nat.
Proof.
  induction 1 as [|p H IH L1 L2]; [left; reflexivity|].
  destruct IH as [<-|[<-|[<-|[<-|[<-|[]]]]]]; vm_compute in L1, L2 |- *; auto 10; lia.
Qed.
Lemma starts_unmarked p : attr_start LE (skipn 20 unmarked_packet) p -> In p [0; 12; 28; 40]%nat.
Proof.
  induction 1 as [|p H IH L1 L2]; [left; reflexivity|].
  destruct IH as [<-|[<-|[<-|[<-|[]]]]]; vm_compute in L1, L2 |- *; auto 10; lia.
Qed.
Lemma whole_sample : whole_message LE marked_packet /\ whole_message LE unmarked_packet.
Proof.
  split; (split; [vm_compute; lia|]); intros p (H & L1 & L2);
    [apply starts_marked in H; destruct H as [<-|[<-|[<-|[<-|[<-|[]]]]]]
    |apply starts_unmarked in H; destruct H as [<-|[<-|[<-|[<-|[]]]]]];
    vm_compute in L1, L2 |- *; split; try lia; intros [|]; try lia; discriminate.
Qed.
Example C20_hypotheses_met :
  let ds := [Some marked_packet; None; Some unmarked_packet] in
  bytes_env (kernel_delivers ds) /\ kernel_ok LE (kernel_delivers ds).
Proof.
  intros ds. split; [apply delivers_bytes; unfold ds; sample_bytes|].
  - intros tr fd n. cbn [kernel_delivers]. cbn [Z.eqb Pos.eqb].
    destruct whole_sample as [W1 W2].
    unfold received. destruct (packet_receives tr) as [|[|[|[|k]]]]; cbn [ds nth r_err r_data]; intros E;
      try discriminate; rewrite firstn_all2 by (cbn; lia); assumption.
Qed.

(** ** C57 *)
Theorem C57_every_packet_is_released : forall m fuel grow n queueID maxp psz choose pd e w0 w res w',
  (Z.to_nat 19201 < fuel)%nat -> bytes_env e -> kernel_sends_packets m e ->
  (forall i k c, is_u32 (fst (choose i k c)) /\ is_u32 (snd (choose i k c))) ->
  is_u16 queueID -> is_u32 maxp -> is_u32 psz -> replies_within 20 76800 e ->
  CreateAndStartNfQueue m queueID maxp psz (Some (releasing choose)) true pd e w0 = (Ok None, w) ->
  ProcessPackets n fuel m grow e w = (res, w') ->
  exists fd its last, w_tr w' = w_tr w ++ concat its ++ last /\
    Forall (release_turn m fd queueID pd choose) its /\
    ((res = Ok tt /\ loop_end fd res last) \/ (res = NoFuel /\ last = [] /\ length its = n)).
Proof.
  intros m fuel grow n queueID maxp psz choose pd e w0 w res w' HF HB KS CH A1 A2 A3 RW ST PP.
  destruct (started_ready m queueID maxp psz _ true pd e w0 w A1 A2 A3 RW ST)
    as (fd & priv & _ & _ & _ & _ & F & N & C & D & E).
  destruct (release_loop m fuel grow e fd queueID pd priv choose HF HB KS CH n w res w')
    as (its & last & X).
  - constructor; [apply started_inv; auto|exact N|apply F].
  - exact PP.
  - exists fd, its, last. exact X.
Qed.
Print Assumptions C57_every_packet_is_released.

Lemma sample_packets_ok :
  (exists l, packet_ok LE marked_packet l 258 [69; 0; 0; 5; 17]) /\
  (exists l, packet_ok LE unmarked_packet l 259 [70; 1; 1; 6; 18]).
Proof.
  split.
  - destruct marked_is_packet as (l & A & B & C & D). exists l.
    split; [exact A|]. split; [exact B|]. split; [exact D|]. split; [cbn [length]; lia|eauto].
  - eexists. split.
    { split; [bytes_tac|]. split; [vm_compute; lia|]. split; [vm_compute; discriminate|]. split; reflexivity. }
    split; [eexists; split; [reflexivity|]; split; [vm_compute; lia|reflexivity]|]. split; [reflexivity|].
    split; [cbn [length]; lia|]. intros H. exfalso. apply H. reflexivity.
Qed.
Example C57_hypotheses_met :
  let ds := [Some marked_packet; None; Some unmarked_packet] in
  bytes_env (kernel_delivers ds) /\ kernel_sends_packets LE (kernel_delivers ds) /\
  (forall i k c, is_u32 (fst (accept_all i k c)) /\ is_u32 (snd (accept_all i k c))) /\
  CreateAndStartNfQueue LE 42 100 65535 (Some (releasing accept_all)) true 5 (kernel_delivers ds) blank =
    (Ok None, started (releasing accept_all) true ds) /\
  let r := run 4 (releasing accept_all) true ds in
  let evs := loop_events (releasing accept_all) true ds (snd r) in
  (fst r, q_proc (w_st (snd r)),
   map (fun ev => match fst ev with
                 | KCtxDone => 1 | KRecvfrom _ _ _ => 2 | KPacketCb _ _ _ _ _ => 3 | KSendmsg _ _ => 4
                 | KErrCb (ERecv 105) (IfaceGen None) => 5 | KClose 7 => 6 | _ => 0 end) evs,
   map fst (filter is_send evs)) =
  (Ok tt, 2, [1;2;3;4; 1;2;5; 1;2;3;4; 1;6],
    [ KSendmsg 7 [ [49;0;0;0; 1;3; 1;0; 0;0;0;0; 0;0;0;0; 0;0;0;42; 12;0;2;0; 0;0;0;1; 2;1;0;0;
                    8;0;3;0; 0;0;0;99]; [9;0;10;0]; [69;0;0;5;17;0;0;0] ];
      KSendmsg 7 [ [49;0;0;0; 1;3; 1;0; 0;0;0;0; 0;0;0;0; 0;0;0;42; 12;0;2;0; 0;0;0;1; 3;1;0;0;
                    8;0;3;0; 0;0;0;99]; [9;0;10;0]; [70;1;1;6;18;0;0;0] ] ]).
Proof.
  intros ds. destruct (sample_hyps (releasing accept_all) ds) as (A & B & C).
  { unfold ds. sample_bytes. }
  split; [exact A|]. split.
  - intros tr fd n. cbn [kernel_delivers]. cbn [Z.eqb Pos.eqb].
    destruct sample_packets_ok as [[l1 W1] [l2 W2]].
    destruct (packet_receives tr) as [|[|[|[|k]]]]; cbn [ds nth r_err r_data]; intros E;
      [exists l1; do 2 eexists; exact W1|discriminate E|exists l2; do 2 eexists; exact W2
      |discriminate E|discriminate E].
  - split; [intros; cbn; unfold is_u32; lia|]. split; [exact C|]. vm_compute; reflexivity.
Qed.

(** ** C58 *)
(** Until the handle receives again the buffer keeps showing the delivered
    payload, whatever verdicts are issued for it or for packets elsewhere,
    whatever is stored elsewhere or allocated.  Missing: after the next receive. *)
Theorem C58_buffer_valid_until_next_receive_partial :
  forall m fuel grow e w fd d l id mark payload,
  queue_ready w fd ->
  let r := e (w_tr w) (KRecvfrom fd 76800 256) in
  r_err r = None -> r_data r = d -> packet_datagram m d l ->
  has_id m l id -> has_mark l mark -> has_payload l payload -> (Z.to_nat 19201 < fuel)%nat ->
  exists g tbl s w',
    Recv fuel m e w = (Ok (Some g, Some tbl, None), w') /\
    GetPacketInfo m (w_heap w') (Some tbl) = Ok (id, mark, s) /\
    forall acts, Forall (act_ok e (w_heap w') [s_arr (q_hdr (w_st w'))]) acts ->
      Forall (leaves_alone s) acts ->
      exists w'', run_acts m grow acts e w' = (Ok tt, w'') /\ rd (w_heap w'') s = payload.
Proof. exact delivered_buffer_kept. Qed.
Print Assumptions C58_buffer_valid_until_next_receive_partial.
Example C58_hypotheses_met : exists fd l,
  let w := started (guarded accept_all) true [Some marked_packet] in
  queue_ready w fd /\ packet_datagram LE marked_packet l /\
  has_id LE l 258 /\ has_mark l 263 /\ has_payload l [69; 0; 0; 5; 17] /\
  r_data (kernel_delivers [Some marked_packet] (w_tr w) (KRecvfrom fd 76800 256)) = marked_packet /\
  (* a verdict for a five-byte window, and an allocation *)
  let s := mkSl 0 40 5 100 in
  Forall (act_ok (kernel_delivers []) [repeat 0 200; []] [1%nat])
    [CbVerdict2 1 0 5 258 s; CbVerdict 0 5 258 s; CbAlloc [1; 2] 0] /\
  Forall (leaves_alone s) [CbVerdict2 1 0 5 258 s; CbVerdict 0 5 258 s; CbAlloc [1; 2] 0].
Proof.
  destruct (started_fresh (guarded accept_all) true [Some marked_packet]) as (fd & priv & F & _).
  destruct marked_is_packet as (l & A & B & C & D).
  exists fd, l. split; [apply F|]. split; [exact A|]. split; [exact B|]. split; [exact C|].
  split; [exact D|]. split; [rewrite first_delivery; reflexivity|].
  assert (V : valid [repeat 0 200; []] (mkSl 0 40 5 100)).
  { split; [cbn; lia|]. right. cbn [s_arr s_off s_cap arr nth length]. rewrite repeat_length. lia. }
  split.
  - constructor; [|constructor; [|constructor; [exact I|constructor]]];
      (split; [exact V|]; split; [reflexivity|]; split; [cbn [s_len]; lia|];
       intros [X|[]]; discriminate X).
  - constructor; [|constructor; [|constructor; [exact I|constructor]]]; left; reflexivity.
Qed.
(** the buffer shown with the first packet shows the second packet's bytes after
    the next receive *)
Theorem C58_buffer_reused_refuted :
  let w := snd (run 5 (guarded accept_all) true [Some marked_packet; Some marked_packet2]) in
  match filter (fun ev => match fst ev with KPacketCb _ _ _ _ _ => true | _ => false end) (w_tr w) with
  | [(KPacketCb 258 263 buf shown 5, _); _] =>
      shown = [69; 0; 0; 5; 17] /\ rd (w_heap w) buf = [70; 1; 1; 6; 18]
  | _ => False
  end.
Proof. vm_compute. split; reflexivity. Qed.
Print Assumptions C58_buffer_reused_refuted.
