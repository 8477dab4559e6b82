(** What the log reader does with every datagram: C27, C28. *)
From Verif Require Import Proof.LogOutcome Properties.P_NfLog.

(** ** C27 *)
(** For every byte string the way parsing ends (finished, failed with an error,
    crashed, never) and what the callback is shown before are those of [log_ends]. *)
Theorem C27_outcome : forall d f e w,
  is_bytes d -> zlen d < 4294967295 -> l_cb (w_st w) = true -> (length d < f)%nat ->
  exists ps r evs, log_ends d ps r /\
    parseLog f d e w = (ended r, mkW (w_st w) (w_heap w) (w_tr w ++ evs)) /\ Forall2 shows_log evs ps.
Proof. intros d f e w IB ZL CB HF. exact (parse_ends f d e w IB ZL CB HF). Qed.
(** ... of which there is exactly one *)
Theorem C27_outcome_unique : forall d ps r ps' r', log_ends d ps r -> log_ends d ps' r' -> ps = ps' /\ r = r'.
Proof. intros d ps r ps' r' H H'. exact (log_ends_det d ps r H ps' r' H'). Qed.
(** So parsing never ends exactly when the datagram is one of [Stuck], whatever the
    number of steps allowed. *)
Theorem C27_hangs_iff : forall d e w,
  is_bytes d -> zlen d < 4294967295 -> l_cb (w_st w) = true ->
  ((exists ps, log_ends d ps Stuck) <-> (forall f, (length d < f)%nat -> fst (parseLog f d e w) = NoFuel)).
Proof.
  intros d e w IB ZL CB. split.
  - intros [ps S] f HF. destruct (parse_ends f d e w IB ZL CB HF) as (ps' & r & evs & L & E & _).
    destruct (log_ends_det _ _ _ S _ _ L) as [<- <-]. rewrite E. reflexivity.
  - intros H. destruct (parse_ends (S (length d)) d e w IB ZL CB ltac:(lia)) as (ps & r & evs & L & E & _).
    specialize (H (S (length d)) ltac:(lia)). rewrite E in H. exists ps. destruct r; try discriminate H. exact L.
Qed.
Theorem C27_crashes_iff : forall d f e w,
  is_bytes d -> zlen d < 4294967295 -> l_cb (w_st w) = true -> (length d < f)%nat ->
  ((exists ps, log_ends d ps Crashed) <-> fst (parseLog f d e w) = Panic).
Proof.
  intros d f e w IB ZL CB HF. destruct (parse_ends f d e w IB ZL CB HF) as (ps & r & evs & L & E & _). rewrite E. split.
  - intros [ps' S]. destruct (log_ends_det _ _ _ S _ _ L) as [<- <-]. reflexivity.
  - intros H. exists ps. destruct r; try discriminate H. exact L.
Qed.

(** Every ending happens. *)
Ltac big := cbn; lia.
Lemma le_skip' b rest ps r : (16 <= length b)%nat -> num LE (field b 4 2) <> LOG_PACKET -> 0 < num LE (field b 0 4) <= zlen b ->
  rest = skipn (Z.to_nat (num LE (field b 0 4))) b -> log_ends rest ps r -> log_ends b ps r.
Proof. intros A B C -> D. apply le_skip; auto. Qed.
Lemma le_packet' b area rest ps ps' qs r : (16 <= length b)%nat -> num LE (field b 4 2) = LOG_PACKET -> 16 < num LE (field b 0 4) <= zlen b ->
  area = skipn 20 (firstn (Z.to_nat (num LE (field b 0 4) - 1)) b) ->
  rest = skipn (Z.to_nat (num LE (field b 0 4))) b ->
  attrs_end area [] ps Finished -> log_ends rest ps' r -> qs = ps ++ ps' -> log_ends b qs r.
Proof. intros A B C -> -> D E ->. apply le_packet; auto. Qed.
Lemma ae_other' a next prefix ps r : (4 <= length a)%nat -> la_type a <> ATTR_PREFIX -> la_type a <> ATTR_PAYLOAD ->
  next = la_next a -> attrs_end next prefix ps r -> attrs_end a prefix ps r.
Proof. intros A B C -> D. apply ae_other; auto. Qed.
Lemma ae_prefix' a next new prefix ps r : (4 <= length a)%nat -> la_type a = ATTR_PREFIX -> ~ 1 <= la_len a <= 4 ->
  next = la_next a -> new = removelast (la_data a) -> attrs_end next new ps r -> attrs_end a prefix ps r.
Proof. intros A B C -> -> D. apply ae_prefix; auto. Qed.
Lemma ae_payload' a next x prefix ps r : (4 <= length a)%nat -> la_type a = ATTR_PAYLOAD ->
  classify_ip (la_seen a) = Accepts -> next = la_next a -> x = (prefix, la_seen a, la_data a) ->
  attrs_end next prefix ps r -> attrs_end a prefix (x :: ps) r.
Proof. intros A B C -> -> D. apply ae_payload; auto. Qed.

Example C27_outcome_case :
  (* two packets, the second clipped *)
  log_ends sample_datagram
    [([102;119], udp29 ++ [0;0;0], udp29); ([119], removelast tcp40 ++ [0], removelast tcp40 ++ [0])] Finished /\
  (* a packet, then a stray octet *)
  log_ends (log_message1 ++ [0]) [([102;119], udp29 ++ [0;0;0], udp29)] Stuck /\
  (* a packet, then a message that claims more than is left *)
  log_ends (log_message1 ++ [200;0;0;0; 0;4; 0;0; 0;0;0;0; 0;0;0;0]) [([102;119], udp29 ++ [0;0;0], udp29)] (Failed ETruncated) /\
  (* too little of a TCP packet *)
  log_ends short_copy [] Crashed.
Proof.
  assert (A1 : forall rest ps r, log_ends rest ps r -> log_ends (log_message1 ++ rest) (([102;119], udp29 ++ [0;0;0], udp29) :: ps) r).
  { intros rest ps r H.
    eapply le_packet' with (ps := [([102;119], udp29 ++ [0;0;0], udp29)]) (ps' := ps) (rest := rest); [cbn; lia|reflexivity| | reflexivity | reflexivity | |exact H|reflexivity].
    { unfold zlen. rewrite app_length. change (num LE (field (log_message1 ++ rest) 0 4)) with 72. change (length log_message1) with 72%nat. lia. }
    change (skipn 20 _) with (skipn 20 (removelast log_message1)).
    eapply ae_other'; [vm_compute; lia|vm_compute; discriminate|vm_compute; discriminate|vm_compute; reflexivity|].
    eapply ae_prefix'; [vm_compute; lia|reflexivity|vm_compute; intuition congruence|vm_compute; reflexivity|vm_compute; reflexivity|].
    eapply ae_payload'; [vm_compute; lia|reflexivity|vm_compute; reflexivity|vm_compute; reflexivity|vm_compute; reflexivity|constructor]. }
  split; [|split; [|split]].
  - apply A1. eapply le_skip'; [cbn; lia|vm_compute; discriminate|vm_compute; intuition congruence|vm_compute; reflexivity|].
    eapply le_packet' with (ps := [([119], removelast tcp40 ++ [0], removelast tcp40 ++ [0])]) (ps' := []);
      [vm_compute; lia|reflexivity|vm_compute; intuition congruence|vm_compute; reflexivity|vm_compute; reflexivity| |constructor|reflexivity].
    eapply ae_prefix'; [vm_compute; lia|reflexivity|vm_compute; intuition congruence|vm_compute; reflexivity|vm_compute; reflexivity|].
    eapply ae_payload'; [vm_compute; lia|reflexivity|vm_compute; reflexivity|vm_compute; reflexivity|vm_compute; reflexivity|constructor].
  - apply A1. apply le_tail. cbn; lia.
  - apply A1. apply le_truncated; [cbn; lia|reflexivity].
  - apply (le_bad short_copy [] Crashed); [cbn; lia|reflexivity|vm_compute; intuition congruence| |discriminate].
    apply ae_payload_crash; [vm_compute; lia|reflexivity|vm_compute; reflexivity].
Qed.

(** ** C28 *)
(** Every run of the reader, whatever arrives: each turn receives, then shows and
    reports exactly what the datagram says; the run ends by a receive error other than
    ENOBUFS (reported), by a datagram that crashes the parser, or not at all; when it
    ends the socket is closed, last and once. *)
Theorem C28_reader_loop_exact : forall n fuel e w fd,
  (Z.to_nat 65536 < fuel)%nat ->
  (forall tr fd n fl, is_bytes (r_data (e tr (KRecvfrom fd n fl)))) ->
  open_log w fd -> l_cb (w_st w) = true ->
  exists turns last,
    w_tr (snd (ReadLogs n fuel e w)) = w_tr w ++ concat turns ++ last /\
    Forall (exact_turn fd (l_ecb (w_st w))) turns /\
    exact_stop fd (l_ecb (w_st w)) (closed_fd fd) n (length turns) (fst (ReadLogs n fuel e w)) last.
Proof. exact ReadLogs_exact. Qed.
(** non-vacuous: C28_case *)
Print Assumptions C27_outcome.
Print Assumptions C27_outcome_unique.
Print Assumptions C28_reader_loop_exact.
