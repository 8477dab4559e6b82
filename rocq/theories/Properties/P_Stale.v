(** Parts of a packet its message does not carry: C99. *)
From Verif Require Import Proof.StaleWhere Proof.StartSlots Proof.Release Spec.Samples Properties.P_Config Properties.P_Loop.

Section RUN.
Context (m : endian) (fuel : nat) (grow : nat -> nat -> nat) (n0 : nat) (queueID maxp psz : Z) (cb : callback)
  (pd : Z) (e : env) (w0 w : world nfq) (res : res unit) (w' : world nfq).
Hypothesis HF : (Z.to_nat 19201 < fuel)%nat.
Hypothesis HB : bytes_env e.
Hypothesis WB : well_behaved e cb.
Hypothesis A1 : is_u16 queueID.
Hypothesis A2 : is_u32 maxp.
Hypothesis A3 : is_u32 psz.
Hypothesis RW : replies_within 20 76800 e.
Hypothesis ST : CreateAndStartNfQueue m queueID maxp psz (Some cb) true pd e w0 = (Ok None, w).
Hypothesis PP : ProcessPackets n0 fuel m grow e w = (res, w').
Lemma run_stale t : t = 1 \/ t = 3 \/ t = 10 ->
  exists fd evs init, w_tr w' = w_tr w ++ evs /\ amap_get (q_attr (w_st w)) t = Some init /\ stale m fd t init [] evs.
Proof.
  intros HT. destruct (started_ready m queueID maxp psz (Some cb) true pd e w0 w A1 A2 A3 RW ST)
    as (fd & priv & _ & _ & _ & _ & F & N & C & D & E).
  destruct (qr_slots _ _ (fr_ready _ _ _ F) t HT) as (init & G & _).
  destruct (process_packets_points m fuel grow e fd pd priv cb t init HF HB (WB priv) HT n0 [] w res w')
    as (evs & T & S & _); [apply started_inv; auto| |exact PP|].
  - intros s G'. rewrite G in G'. injection G' as <-. split; [|reflexivity].
    intros k n (pre & r & post & d & p & X & _). destruct pre; discriminate.
  - exists fd, evs, init. auto.
Qed.
End RUN.

(** Refuted, exactly, in every run from set-up on: once some message carried a payload
    ([n] bytes, [k] bytes after its first byte), every later packet whose message carries
    none is shown with a buffer of [n] bytes, and these are its own message's bytes from
    [k] on as far as that message reaches. *)
Theorem C99_stale_payload_refuted : forall m fuel grow n0 queueID maxp psz cb pd e w0 w res w',
  (Z.to_nat 19201 < fuel)%nat -> bytes_env e -> well_behaved e cb ->
  is_u16 queueID -> is_u32 maxp -> is_u32 psz -> replies_within 20 76800 e ->
  CreateAndStartNfQueue m queueID maxp psz (Some cb) true pd e w0 = (Ok None, w) ->
  ProcessPackets n0 fuel m grow e w = (res, w') ->
  exists fd evs, w_tr w' = w_tr w ++ evs /\
    forall pre r id mark buf contents pd' r2 post d k n,
      evs = pre ++ (KRecvfrom fd 76800 256, r) :: (KPacketCb id mark buf contents pd', r2) :: post ->
      was_at 10 m fd pre k n -> received r = d -> absent_since 10 m fd [(KRecvfrom fd 76800 256, r)] ->
      s_len buf = n /\
      forall j, (j <= n)%nat -> (k + j <= length d)%nat -> firstn j contents = field d k j.
Proof.
  intros m fuel grow n0 queueID maxp psz cb pd e w0 w res w' HF HB WB A1 A2 A3 RW ST PP.
  edestruct (run_stale m fuel grow n0 queueID maxp psz cb pd e w0 w res w') with (t := 10)
    as (fd & evs & init & T & _ & S); eauto.
  exists fd, evs. split; [exact T|]. intros pre r id mark buf contents pd' r2 post d k n EQ W D AB.
  destruct (S pre r id mark buf contents pd' r2 post d EQ D AB) as [X _].
  destruct (X k n W) as (_ & _ & Y). exact (Y eq_refl).
Qed.
Print Assumptions C99_stale_payload_refuted.
(** the same for the packet id: read from the message's own bytes at the place where an
    earlier message had its packet header *)
Theorem C99_stale_id_refuted : forall m fuel grow n0 queueID maxp psz cb pd e w0 w res w',
  (Z.to_nat 19201 < fuel)%nat -> bytes_env e -> well_behaved e cb ->
  is_u16 queueID -> is_u32 maxp -> is_u32 psz -> replies_within 20 76800 e ->
  CreateAndStartNfQueue m queueID maxp psz (Some cb) true pd e w0 = (Ok None, w) ->
  ProcessPackets n0 fuel m grow e w = (res, w') ->
  exists fd evs, w_tr w' = w_tr w ++ evs /\
    forall pre r id mark buf contents pd' r2 post d k n,
      evs = pre ++ (KRecvfrom fd 76800 256, r) :: (KPacketCb id mark buf contents pd', r2) :: post ->
      was_at 1 m fd pre k n -> received r = d -> absent_since 1 m fd [(KRecvfrom fd 76800 256, r)] ->
      (k + 4 <= length d)%nat -> id = num m (field d k 4).
Proof.
  intros m fuel grow n0 queueID maxp psz cb pd e w0 w res w' HF HB WB A1 A2 A3 RW ST PP.
  edestruct (run_stale m fuel grow n0 queueID maxp psz cb pd e w0 w res w') with (t := 1)
    as (fd & evs & init & T & _ & S); eauto.
  exists fd, evs. split; [exact T|]. intros pre r id mark buf contents pd' r2 post d k n EQ W D AB L.
  destruct (S pre r id mark buf contents pd' r2 post d EQ D AB) as [X _].
  destruct (X k n W) as (Y & _). exact (Y eq_refl L).
Qed.
Print Assumptions C99_stale_id_refuted.
(** and as long as no message at all has carried a payload, every packet is shown with a
    buffer of 76800 bytes *)
Theorem C99_no_payload_yet_refuted : forall m fuel grow n0 queueID maxp psz cb pd e w0 w res w',
  (Z.to_nat 19201 < fuel)%nat -> bytes_env e -> well_behaved e cb ->
  is_u16 queueID -> is_u32 maxp -> is_u32 psz -> replies_within 20 76800 e ->
  CreateAndStartNfQueue m queueID maxp psz (Some cb) true pd e w0 = (Ok None, w) ->
  ProcessPackets n0 fuel m grow e w = (res, w') ->
  exists fd evs, w_tr w' = w_tr w ++ evs /\
    forall pre r id mark buf contents pd' r2 post,
      evs = pre ++ (KRecvfrom fd 76800 256, r) :: (KPacketCb id mark buf contents pd', r2) :: post ->
      absent_since 10 m fd (pre ++ [(KRecvfrom fd 76800 256, r)]) ->
      s_len buf = Z.to_nat 76800.
Proof.
  intros m fuel grow n0 queueID maxp psz cb pd e w0 w res w' HF HB WB A1 A2 A3 RW ST PP.
  edestruct (run_stale m fuel grow n0 queueID maxp psz cb pd e w0 w res w') with (t := 10)
    as (fd & evs & init & T & G & S); eauto.
  exists fd, evs. split; [exact T|]. intros pre r id mark buf contents pd' r2 post EQ AB.
  assert (AB1 : absent_since 10 m fd [(KRecvfrom fd 76800 256, r)]) by (eapply absent_in; exact AB).
  destruct (S pre r id mark buf contents pd' r2 post _ EQ eq_refl AB1) as [_ X].
  rewrite (X eq_refl) by (eapply absent_l; exact AB).
  destruct (started_slots m queueID maxp psz (Some cb) true pd e w0 w ST) as (a1 & a3 & a10 & Q & L).
  rewrite Q in G. injection G as <-. exact L.
Qed.
Print Assumptions C99_no_payload_yet_refuted.

(** ** A case: a message with a packet header (id 260) and one 28-byte attribute nobody asks for *)
Definition bare_message : bytes :=
  [64;0;0;0; 0;3; 0;0; 0;0;0;0; 0;0;0;0;  2;0;0;42;
   11;0;1;0; 4;1;0;0; 8;0;1;0;  32;0;99;0; 1;2;3;4;5;6;7;8;9;10;11;12;13;14;15;16;17;18;19;20;21;22;23;24;25;26;27;28].
Lemma bare_bytes : is_bytes bare_message.
Proof. bytes_tac. Qed.
(** after [marked_packet], whose payload was 5 bytes at 52: shown with five bytes of the
    unrelated attribute; as the first message: with 76800 bytes *)
Example C99_case :
  let quiet := fun _ _ _ _ => [] in
  (exists l, attrs_of LE (skipn 20 bare_message) = Some l /\ last_attr 10 l = None) /\
  shown_packets (w_tr (snd (run 5 quiet true [Some marked_packet; Some bare_message]))) =
    [(258, 263, [69; 0; 0; 5; 17]); (260, 151653132, [17; 18; 19; 20; 21])] /\
  field bare_message 52 5 = [17; 18; 19; 20; 21] /\
  map (fun x => (fst x, zlen (snd x))) (shown_packets (w_tr (snd (run 5 quiet true [Some bare_message])))) =
    [(260, 0, 76800)].
Proof. cbv zeta. split; [eexists; split; reflexivity|]. split; [vm_compute; reflexivity|]. split; vm_compute; reflexivity. Qed.
Lemma starts_bare p : attr_start LE (skipn 20 bare_message) p -> In p [0;12;44]%nat.
Proof.
  induction 1 as [|p A IH B C]; [cbn; auto|].
  cbn [In] in IH. destruct IH as [<-|[<-|[<-|[]]]]; vm_compute in B, C |- *; auto; lia.
Qed.
Example C99_hypotheses_met :
  let ds := [Some marked_packet; Some bare_message] in
  bytes_env (kernel_delivers ds) /\ replies_within 20 76800 (kernel_delivers ds) /\
  well_behaved (kernel_delivers ds) (guarded accept_all) /\
  CreateAndStartNfQueue LE 42 100 65535 (Some (guarded accept_all)) true 5 (kernel_delivers ds) blank =
    (Ok None, started (guarded accept_all) true ds) /\
  absent_since 10 LE 7 [(KRecvfrom 7 76800 256, mkResp None 0 bare_message false)].
Proof.
  intros ds. destruct (sample_hyps (guarded accept_all) ds) as (A & B & C).
  { unfold ds. repeat match goal with |- Forall _ (_ :: _) => apply Forall_cons | |- Forall _ [] => apply Forall_nil end;
      [apply samples_are_bytes|apply bare_bytes]. }
  split; [exact A|]. split; [exact B|]. split; [apply guarded_well_behaved|]. split; [exact C|].
  intros r d p [X|[]] (_ & D & _) (S & L & _) T. injection X as <-.
  assert (RU : received (mkResp None 0 bare_message false) = bare_message)
    by (apply firstn_all2; cbn [r_data]; vm_compute length; lia).
  rewrite RU in D. subst d. apply starts_bare in S.
  destruct S as [<-|[<-|[<-|[]]]]; vm_compute in L, T; try discriminate; lia.
Qed.
