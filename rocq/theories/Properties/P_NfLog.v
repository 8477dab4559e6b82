(** Reading NFLOG datagrams: C25, C26, C27, C28. *)
From Verif Require Import Proof.LogLoop.

(** ** Samples: two packet messages and a foreign one *)
(** nfgenmsg; an interface index (type 4); prefix "fw" NUL; a 29-byte UDP packet
    (1 byte of data), padded to 32 *)
Definition udp29 : bytes :=
  [69;0;0;29; 18;52;0;0; 64;17;0;0; 10;0;0;1; 10;0;0;2;  0;53;4;0; 0;9;0;0; 77].
Definition log_message1 : bytes :=
  [72;0;0;0; 0;4; 0;0; 0;0;0;0; 0;0;0;0;  2;0;0;5;
   8;0;4;0; 0;0;0;3;  7;0;10;0; 102;119;0;0;  33;0;9;0] ++ udp29 ++ [0;0;0].
(** a 40-byte TCP packet that ends the message *)
Definition tcp40 : bytes :=
  [69;0;0;40; 0;7;0;0; 64;6;0;0; 10;0;0;1; 10;0;0;2;
   31;144;0;80; 0;0;0;1; 0;0;0;2; 80;2;16;0; 0;0;0;9].
Definition log_message2 : bytes :=
  [72;0;0;0; 0;4; 0;0; 0;0;0;0; 0;0;0;0;  2;0;0;5;  6;0;10;0; 119;0;0;0;  44;0;9;0] ++ tcp40.
(** NLMSG_DONE *)
Definition log_done : bytes := [20;0;0;0; 3;0; 0;0; 0;0;0;0; 0;0;0;0; 0;0;0;0].
Definition sample_datagram : bytes := log_message1 ++ log_done ++ log_message2.
Definition sample_messages : list (Z * bytes) :=
  [(1024, skipn 16 log_message1); (3, [0;0;0;0]); (1024, skipn 16 log_message2)].
Definition sample_deliveries : list delivery :=
  [([102;119], udp29, false); ([119], tcp40, true)].
Definition log_ready : world nflog := mkW (mkL true true (Some (mkLS 7 snil))) [] [].

Ltac mods := first [left; reflexivity | right; reflexivity].
Lemma sample_parses tail : messages_of (sample_datagram ++ tail) sample_messages tail.
Proof.
  unfold sample_messages.
  change (1024, skipn 16 log_message1) with
    (num LE (field (sample_datagram ++ tail) 4 2), field (sample_datagram ++ tail) 16 (72 - 16)).
  apply messages_cons; [reflexivity|cbn; lia|mods|].
  change (skipn 72 (sample_datagram ++ tail)) with (log_done ++ log_message2 ++ tail).
  change (3, [0;0;0;0]) with
    (num LE (field (log_done ++ log_message2 ++ tail) 4 2), field (log_done ++ log_message2 ++ tail) 16 (20 - 16)).
  apply messages_cons; [reflexivity|cbn; lia|mods|].
  change (skipn 20 (log_done ++ log_message2 ++ tail)) with (log_message2 ++ tail).
  change (1024, skipn 16 log_message2) with
    (num LE (field (log_message2 ++ tail) 4 2), field (log_message2 ++ tail) 16 (72 - 16)).
  apply messages_cons; [reflexivity|cbn; lia|mods|]. constructor.
Qed.
Lemma sample_delivers : flat_map message_deliveries sample_messages = sample_deliveries.
Proof. reflexivity. Qed.
Lemma udp29_ok : logged_ip4 udp29 false.
Proof.
  split; [reflexivity|]. split; [cbn; lia|].
  split; intros X; try discriminate X; (split; [vm_compute; discriminate|cbn; lia]).
Qed.
Lemma tcp40_ok : logged_ip4 tcp40 true.
Proof.
  split; [reflexivity|]. split; [cbn; lia|].
  split; intros X; try discriminate X; (split; [vm_compute; discriminate|cbn; lia]).
Qed.
(** a 48-byte IPv6 UDP packet *)
Definition udp48 : bytes :=
  [96;0;0;0; 0;8; 17;64; 32;1;13;184;0;0;0;0;0;0;0;0;0;0;0;1; 32;1;13;184;0;0;0;0;0;0;0;0;0;0;0;2;
   0;53;4;0; 0;8;0;9].
Lemma udp48_ok : logged_ip6 udp48 true.
Proof.
  split; [reflexivity|]. split; [cbn; lia|].
  split; intros X; try discriminate X; (split; [vm_compute; discriminate|cbn; lia]).
Qed.
Lemma sample_ok : Forall message_ok sample_messages.
Proof.
  unfold sample_messages. repeat constructor.
  - intros _. exists [(4, [0;0;0;3]); (10, [102;119;0]); (9, udp29)].
    split; [cbn; lia|]. split; [reflexivity|]. split; [|split].
    + intros v H E; subst v; cbn in H; repeat (destruct H as [H|H]; [discriminate H|]); exact H.
    + intros t [|x1 [|x2 [|x3 l]]]; cbn; unfold udp29; intros H; inversion H. destruct l; discriminate.
    + constructor; [left; exact udp29_ok|constructor].
  - intros X. discriminate X.
  - intros _. exists [(10, [119;0]); (9, tcp40)].
    split; [cbn; lia|]. split; [reflexivity|]. split; [|split].
    + intros v H E; subst v; cbn in H; repeat (destruct H as [H|H]; [discriminate H|]); exact H.
    + intros t [|x1 [|x2 l]]; cbn; unfold tcp40; intros H; inversion H. destruct l; discriminate.
    + constructor; [left; exact tcp40_ok|constructor].
Qed.

(** ** C25 *)
(** Whatever follows them in the datagram, well-formed messages are handled
    first: each of their packets is delivered once, in order, and parsing goes on
    with the rest.  Nothing else about the handle or memory changes. *)
Theorem C25_messages_delivered_in_order : forall d ms rest e w,
  is_bytes d -> zlen d < 4294967296 -> messages_of d ms rest -> Forall message_ok ms ->
  l_cb (w_st w) = true ->
  exists evs, Forall2 delivers evs (flat_map message_deliveries ms) /\
    forall f, parseLog (length ms + f) d e w
              = parseLog f rest e (mkW (w_st w) (w_heap w) (w_tr w ++ evs)).
Proof. intros d ms rest e w IB ZL MS FO CB. exact (parse_walk d ms rest MS e w IB ZL FO CB). Qed.
(** A datagram made of such messages is parsed without error. *)
Theorem C25_datagram_delivered : forall d ms f e w,
  is_bytes d -> zlen d < 4294967296 -> datagram_ok d ms -> l_cb (w_st w) = true ->
  (length d <= f)%nat ->
  exists evs, parseLog f d e w = (Ok None, mkW (w_st w) (w_heap w) (w_tr w ++ evs)) /\
    Forall2 delivers evs (flat_map message_deliveries ms).
Proof. intros d ms f e w IB ZL OK CB HF. exact (parse_datagram d ms f e w OK IB ZL CB HF). Qed.
(** One callback per packet message when each carries one payload. *)
Lemma deliveries_count u p l : length (deliveries u p l) = length (filter (fun av => fst av =? ATTR_PAYLOAD) l).
Proof.
  revert p; induction l as [|[t v] l IH]; intros p; [reflexivity|]. cbn [deliveries filter fst].
  destruct (Z.eqb_spec t ATTR_PREFIX) as [->|]; [apply IH|].
  destruct (t =? ATTR_PAYLOAD); cbn [length]; rewrite IH; reflexivity.
Qed.
Theorem C25_once_per_packet_message : forall d ms f e w,
  is_bytes d -> zlen d < 4294967296 -> datagram_ok d ms -> l_cb (w_st w) = true ->
  (length d <= f)%nat ->
  (forall body l, In (LOG_PACKET, body) ms -> attrs_of LE (skipn 4 body) = Some l ->
     length (filter (fun av => fst av =? ATTR_PAYLOAD) l) = 1%nat) ->
  exists evs, w_tr (snd (parseLog f d e w)) = w_tr w ++ evs /\ Forall log_cb evs /\
    length evs = length (filter (fun m => fst m =? LOG_PACKET) ms).
Proof.
  intros d ms f e w IB ZL OK CB HF ONE.
  destruct (C25_datagram_delivered d ms f e w IB ZL OK CB HF) as (evs & EV & DV).
  exists evs. rewrite EV. split; [reflexivity|]. split.
  - clear - DV. induction DV as [|ev [[p v] c] evs ds H DV IH]; constructor; [|exact IH].
    destruct H as (src & dst & pr & tot & id & sp & dp & r & -> & _). exact I.
  - assert (FL : length evs = length (flat_map message_deliveries ms)) by (clear - DV; induction DV; cbn; congruence).
    rewrite FL. destruct OK as [_ FO].
    clear - ONE FO. induction ms as [|[t body] ms IH]; [reflexivity|].
    inversion FO as [|? ? F1 F2]; subst. cbn [flat_map filter fst]. rewrite app_length, IH;
      [|exact F2|intros b l H; apply ONE; right; exact H].
    unfold message_deliveries. cbn [fst snd]. destruct (Z.eqb_spec t LOG_PACKET) as [->|]; [|reflexivity].
    destruct (F1 eq_refl) as (l & _ & E & _). cbn [snd] in E. rewrite E, deliveries_count.
    rewrite (ONE body l); [reflexivity|left; reflexivity|exact E].
Qed.
Example C25_case : is_bytes sample_datagram /\ zlen sample_datagram < 4294967296 /\
  datagram_ok sample_datagram sample_messages /\ l_cb (w_st log_ready) = true /\
  flat_map message_deliveries sample_messages = sample_deliveries.
Proof.
  split; [unfold sample_datagram, log_message1, log_message2, log_done, udp29, tcp40; bytes_tac|].
  split; [reflexivity|]. split; [split; [|exact sample_ok]|auto].
  pose proof (sample_parses []) as X. rewrite app_nil_r in X. exact X.
Qed.

(** ** C26 *)
Definition payload_of (ev : event) : option bytes :=
  match fst ev with KLogCb _ p _ _ _ _ _ _ _ _ => Some p | _ => None end.
(** Missing: nothing when no packet's last byte ends its message ... *)
Theorem C26_payload_exact_partial : forall d ms f e w,
  is_bytes d -> zlen d < 4294967296 -> datagram_ok d ms -> l_cb (w_st w) = true ->
  (length d <= f)%nat ->
  Forall (fun x => snd x = false) (flat_map message_deliveries ms) ->
  exists evs, w_tr (snd (parseLog f d e w)) = w_tr w ++ evs /\
    map payload_of evs = map (fun x => Some (snd (fst x))) (flat_map message_deliveries ms).
Proof.
  intros d ms f e w IB ZL OK CB HF EX.
  destruct (C25_datagram_delivered d ms f e w IB ZL OK CB HF) as (evs & EV & DV).
  exists evs. rewrite EV. split; [reflexivity|].
  clear - DV EX. induction DV as [|ev [[p v] c] evs ds H DV IH]; [reflexivity|].
  inversion EX as [|? ? X1 X2]; subst. cbn [snd fst] in *. subst c.
  destruct H as (src & dst & pr & tot & id & sp & dp & r & -> & _). cbn [map payload_of fst snd shown_payload]. f_equal. apply IH, X2.
Qed.
(** ... otherwise the last byte of each such packet is replaced by 0, and nothing else. *)
Theorem C26_all_but_the_last_byte_partial : forall d ms f e w,
  is_bytes d -> zlen d < 4294967296 -> datagram_ok d ms -> l_cb (w_st w) = true ->
  (length d <= f)%nat ->
  exists evs, w_tr (snd (parseLog f d e w)) = w_tr w ++ evs /\
    Forall2 (fun ev (x : delivery) => exists p, payload_of ev = Some p /\
               length p = length (snd (fst x)) /\ removelast p = removelast (snd (fst x)) /\
               (snd x = false -> last p 0 = last (snd (fst x)) 0))
            evs (flat_map message_deliveries ms).
Proof.
  intros d ms f e w IB ZL OK CB HF.
  destruct (C25_datagram_delivered d ms f e w IB ZL OK CB HF) as (evs & EV & DV).
  exists evs. rewrite EV. split; [reflexivity|].
  assert (NE : Forall (fun x : delivery => snd x = true -> snd (fst x) <> []) (flat_map message_deliveries ms)).
  { destruct OK as [_ FO]. clear - FO. induction FO as [|[t body] ms M FO IH]; [constructor|].
    cbn [flat_map]. apply Forall_app. split; [|exact IH]. unfold message_deliveries. cbn [fst snd].
    destruct (Z.eqb_spec t LOG_PACKET) as [->|]; [|constructor].
    destruct (M eq_refl) as (l & _ & E & _ & _ & G). cbn [fst snd] in *. rewrite E.
    eapply Forall_impl; [|exact G]. intros [[p v] c] [(_ & L & _)|(_ & L & _)] C; cbn [fst snd] in *; subst c;
      (destruct v; [cbn in L; lia|discriminate]). }
  clear - DV NE. induction DV as [|ev [[p v] c] evs ds H DV IH]; [constructor|].
  inversion NE as [|? ? X1 X2]; subst. constructor; [|apply IH, X2].
  destruct H as (src & dst & pr & tot & id & sp & dp & r & -> & _). cbn [fst snd] in *. eexists. split; [reflexivity|].
  unfold shown_payload. destruct c; [|auto]. specialize (X1 eq_refl).
  split; [rewrite app_length, removelast_len; cbn; destruct v; [congruence|cbn; lia]|].
  split; [apply removelast_last|discriminate].
Qed.
(** The flag: in a message of a multiple of 4 bytes, a payload is affected exactly
    when it is the last attribute and its own length is a multiple of 4. *)
Lemma packed_mod l t v : (Nat.modulo (packed_len (l ++ [(t, v)])) 4 = Nat.modulo (length v) 4)%nat.
Proof.
  induction l as [|[t' v'] l IH].
  - cbn [packed_len app]. lia.
  - cbn [app]. assert (E : packed_len ((t', v') :: l ++ [(t, v)]) =
      (al4 (4 + length v') + packed_len (l ++ [(t, v)]))%nat) by (destruct l; reflexivity).
    rewrite E. pose proof (al4_spec (4 + length v')). lia.
Qed.
Lemma packed_bound : forall l a, attrs_of LE a = Some l -> (packed_len l <= length a <= al4 (packed_len l))%nat.
Proof.
  induction l as [|[t v] l IH]; intros a E.
  - apply attrs_of_empty in E. subst a. cbn. lia.
  - destruct (attrs_of_step _ _ _ _ E) as (n & En & A4 & N4 & NA & Et & Ev & Er).
    pose proof (attr_v_len a n A4 N4 NA) as VL. rewrite <- Ev in VL.
    pose proof (al4_spec n) as [G1 G2]. destruct l as [|x l].
    + apply attrs_of_empty in Er. cbn [packed_len]. rewrite VL. replace (4 + (n - 4))%nat with n by lia.
      assert (length (skipn (al4 n) a) = 0%nat) by (rewrite Er; reflexivity). rewrite skipn_length in *. lia.
    + assert (PE : packed_len ((t, v) :: x :: l) = (al4 (4 + length v) + packed_len (x :: l))%nat) by reflexivity.
      rewrite PE, VL. replace (4 + (n - 4))%nat with n by lia.
      destruct (IH _ Er) as [H1 H2]. rewrite skipn_length in *.
      assert (1 <= packed_len (x :: l))%nat.
      { destruct x as [tx vx]. pose proof (al4_spec (4 + length vx)). destruct l; cbn [packed_len]; lia. }
      pose proof (al4_spec (al4 n + packed_len (x :: l))) as [K1 K2]. 
      pose proof (al4_spec (packed_len (x :: l))) as [J1 J2]. split; [lia|]. unfold al4 in *. lia.
Qed.
Theorem C26_which_payloads_partial : forall area l t v,
  attrs_of LE area = Some (l ++ [(t, v)]) -> (Nat.modulo (length area) 4 = 0)%nat ->
  (unpadded area (l ++ [(t, v)]) = true <-> (Nat.modulo (length v) 4 = 0)%nat).
Proof.
  intros area l t v E M. unfold unpadded. rewrite Nat.eqb_eq.
  pose proof (packed_bound _ _ E) as B. pose proof (packed_mod l t v) as PM.
  pose proof (al4_spec (packed_len (l ++ [(t, v)]))). split; intros H0; lia.
Qed.
Example C26_case :
  (exists ms, datagram_ok log_message1 ms /\ flat_map message_deliveries ms = [([102;119], udp29, false)]) /\
  attrs_of LE (skipn 20 log_message1) = Some ([(4, [0;0;0;3]); (10, [102;119;0])] ++ [(9, udp29)]) /\
  (Nat.modulo (length (skipn 20 log_message1)) 4 = 0)%nat.
Proof.
  split; [|auto]. exists [(1024, skipn 16 log_message1)]. split; [split|reflexivity].
  - change (1024, skipn 16 log_message1) with (num LE (field log_message1 4 2), field log_message1 16 (72 - 16)).
    apply messages_cons; [reflexivity|cbn; lia|mods|]. constructor.
  - pose proof sample_ok as S. inversion S; subst. constructor; [assumption|constructor].
Qed.
(** The kernel puts the payload last, so packets of 4k bytes are never delivered intact:
    any clipped payload that does not already end in 0 is altered. *)
Theorem C26_refuted : 
  (forall d ms f e w, is_bytes d -> zlen d < 4294967296 -> datagram_ok d ms -> l_cb (w_st w) = true ->
     (length d <= f)%nat ->
     forall prefix v, In (prefix, v, true) (flat_map message_deliveries ms) -> last v 0 <> 0 ->
     exists ev p, In ev (skipn (length (w_tr w)) (w_tr (snd (parseLog f d e w)))) /\
       payload_of ev = Some p /\ p <> v /\ p = removelast v ++ [0]) /\
  In ([119], tcp40, true) (flat_map message_deliveries sample_messages) /\ last tcp40 0 <> 0.
Proof.
  split; [|split; [right; left; reflexivity|discriminate]].
  intros d ms f e w IB ZL OK CB HF prefix v IN NZ.
  destruct (C25_datagram_delivered d ms f e w IB ZL OK CB HF) as (evs & EV & DV). rewrite EV.
  cbn [snd w_tr]. rewrite skipn_app, skipn_all, Nat.sub_diag. cbn [app skipn].
  clear - IN NZ DV. induction DV as [|ev ds evs l H DV IH]; [destruct IN|].
  destruct IN as [->|IN].
  - destruct H as (src & dst & pr & tot & id & sp & dp & r & -> & _). eexists. exists (removelast v ++ [0]).
    split; [left; reflexivity|]. split; [reflexivity|]. split; [|reflexivity].
    intros X. apply NZ. rewrite <- X. apply last_last.
  - destruct (IH IN) as (ev' & p & A & B). exists ev', p. split; [right; exact A|exact B].
Qed.

(** ** C27 *)
(** A message that claims more bytes than are left is reported, after everything
    before it was delivered; nothing is delivered for it. *)
Theorem C27_truncated_message_partial : forall d ms rest f e w,
  is_bytes d -> zlen d < 4294967296 -> messages_of d ms rest -> Forall message_ok ms ->
  l_cb (w_st w) = true -> (length d < f)%nat ->
  (16 <= length rest)%nat -> Z.of_nat (length rest) < num LE (field rest 0 4) ->
  exists evs, Forall2 delivers evs (flat_map message_deliveries ms) /\
    parseLog f d e w = (Ok (Some ETruncated), mkW (w_st w) (w_heap w) (w_tr w ++ evs)).
Proof.
  intros d ms rest f e w IB ZL MS FO CB HF R1 R2.
  destruct (parse_walk d ms rest MS e w IB ZL FO CB) as (evs & DV & EV).
  exists evs. split; [exact DV|]. pose proof (messages_len _ _ _ MS).
  assert (RL : (length rest <= length d)%nat).
  { clear - MS. induction MS; [lia|]. rewrite skipn_length in *. lia. }
  replace f with (length ms + S (f - length ms - 1))%nat by lia. rewrite EV.
  apply parse_truncated; [exact R1|exact R2|unfold zlen in *; lia].
Qed.
(** For every byte string: parsing can fail to finish only at an offset, reached by
    following the declared lengths, with 1 to 15 bytes left or a declared length of 0;
    what it does in any case is a sequence of packet callbacks. *)
Theorem C27_only_these_hangs_partial : forall d f e w,
  is_bytes d -> zlen d < 4294967296 -> (length d < f)%nat ->
  exists evs, w_tr (snd (parseLog f d e w)) = w_tr w ++ evs /\ Forall log_cb evs /\
    w_st (snd (parseLog f d e w)) = w_st w /\ w_heap (snd (parseLog f d e w)) = w_heap w /\
    (fst (parseLog f d e w) = NoFuel -> exists p, stuck_at d p).
Proof.
  intros d f e w IB ZL HF.
  destruct (parse_any d IB ZL f 0 e w (msg_start_0 d) ltac:(lia)) as (r & evs & EV & FV & NV).
  rewrite skipn_O in EV. exists evs. rewrite EV. cbn [fst snd after w_tr w_st w_heap].
  repeat (split; [auto; fail|]). intros R. apply NV; [exact R|lia].
Qed.
Example C27_case : forall tail, tail = [200;0;0;0; 0;4; 0;0; 0;0;0;0; 0;0;0;0; 2;0;0;5] ->
  messages_of (sample_datagram ++ tail) sample_messages tail /\ Forall message_ok sample_messages /\
  (16 <= length tail)%nat /\ Z.of_nat (length tail) < num LE (field tail 0 4) /\ is_bytes (sample_datagram ++ tail).
Proof.
  intros tail ->. split; [apply sample_parses|]. split; [exact sample_ok|].
  split; [cbn; lia|]. split; [reflexivity|].
  unfold sample_datagram, log_message1, log_message2, log_done, udp29, tcp40. bytes_tac.
Qed.
(** The claim itself is false: trailing bytes and zero lengths hang the reader for
    ever, a packet message of at most 16 bytes crashes it, and so does a TCP packet
    of which fewer than 33 bytes were copied. *)
Definition short_copy : bytes :=
  [56;0;0;0; 0;4; 0;0; 0;0;0;0; 0;0;0;0;  2;0;0;5;  36;0;9;0] ++ firstn 32 tcp40.
Theorem C27_refuted :
  (forall d ms rest e w, is_bytes d -> zlen d < 4294967296 -> messages_of d ms rest -> Forall message_ok ms ->
     l_cb (w_st w) = true -> (1 <= length rest <= 15)%nat -> forall f, fst (parseLog f d e w) = NoFuel) /\
  (forall d ms rest e w, is_bytes d -> zlen d < 4294967296 -> messages_of d ms rest -> Forall message_ok ms ->
     l_cb (w_st w) = true -> (16 <= length rest)%nat -> num LE (field rest 0 4) = 0 ->
     num LE (field rest 4 2) <> LOG_PACKET -> forall f, fst (parseLog f d e w) = NoFuel) /\
  (forall d e w f, is_bytes d -> (16 <= length d)%nat -> zlen d < 4294967295 -> num LE (field d 0 4) <= 16 ->
     num LE (field d 4 2) = LOG_PACKET -> fst (parseLog (S f) d e w) = Panic) /\
  (forall e f, fst (parseLog (S f) short_copy e log_ready) = Panic) /\
  messages_of (sample_datagram ++ [0;0;0]) sample_messages [0;0;0].
Proof.
  split; [|split; [|split; [|split]]].
  - intros d ms rest e w IB ZL MS FO CB R f.
    destruct (Nat.le_gt_cases f (length ms)) as [H|H].
    + apply (parse_short d ms rest MS); auto. intros ->. cbn in R. lia.
    + destruct (parse_walk d ms rest MS e w IB ZL FO CB) as (evs & DV & EV).
      replace f with (length ms + (f - length ms))%nat by lia. rewrite EV, parse_tail_hangs by exact R. reflexivity.
  - intros d ms rest e w IB ZL MS FO CB R Z0 T f.
    destruct (Nat.le_gt_cases f (length ms)) as [H|H].
    + apply (parse_short d ms rest MS); auto. intros ->. cbn in R. lia.
    + destruct (parse_walk d ms rest MS e w IB ZL FO CB) as (evs & DV & EV).
      replace f with (length ms + (f - length ms))%nat by lia. rewrite EV, parse_zero_hangs by auto. reflexivity.
  - intros d e w f IB L ZL N T. rewrite parse_tiny_crashes; auto. split; [apply num4_nonneg; exact IB|exact N].
  - intros e f. reflexivity.
  - apply sample_parses.
Qed.

(** ** C28 *)
(** [n] bounds the turns observed; the parser's fuel is more than any datagram needs. *)
Theorem C28_reader_loop : forall n fuel e w fd,
  (Z.to_nat 65536 < fuel)%nat ->
  (forall tr fd n fl, is_bytes (r_data (e tr (KRecvfrom fd n fl)))) ->
  open_log w fd -> l_cb (w_st w) = true ->
  exists turns last,
    w_tr (snd (ReadLogs n fuel e w)) = w_tr w ++ concat turns ++ last /\
    Forall (log_turn fd (l_ecb (w_st w))) turns /\
    log_end fd (l_ecb (w_st w)) n (length turns) (fst (ReadLogs n fuel e w)) last.
Proof. exact ReadLogs_run. Qed.
(** The socket is closed exactly once in a run that ends, and not before. *)
Definition closes (evs : list event) : nat :=
  length (filter (fun ev => match fst ev with KClose _ => true | _ => false end) evs).
Lemma closes_app a b : closes (a ++ b) = (closes a + closes b)%nat.
Proof. unfold closes. rewrite filter_app, app_length. reflexivity. Qed.
Lemma closes_cbs cbs : Forall log_cb cbs -> closes cbs = 0%nat.
Proof. induction 1 as [|[c r] l H F IH]; [reflexivity|]. unfold closes in *. cbn in *. destruct c; cbn in *; tauto. Qed.
Lemma closes_reports ecb er evs : reports ecb er evs -> closes evs = 0%nat.
Proof. unfold reports. destruct ecb; [intros [r ->]|intros ->]; reflexivity. Qed.
Lemma closes_recv fd n fl r evs : closes ((KRecvfrom fd n fl, r) :: evs) = closes evs.
Proof. reflexivity. Qed.
Lemma closes_turns fd ecb turns : Forall (log_turn fd ecb) turns -> closes (concat turns) = 0%nat.
Proof.
  induction 1 as [|t l H F IH]; [reflexivity|]. cbn [concat]. rewrite closes_app, IH, Nat.add_0_r.
  destruct H as [r evs A B|r cbs A B C C1 C2|r cbs er evs A B C C1 C2 D]; rewrite closes_recv, ?closes_app.
  - eapply closes_reports; eassumption.
  - apply closes_cbs; assumption.
  - rewrite closes_cbs by assumption. eapply closes_reports; eassumption.
Qed.
Theorem C28_socket_closed_exactly_once : forall n fuel e w fd,
  (Z.to_nat 65536 < fuel)%nat ->
  (forall tr fd n fl, is_bytes (r_data (e tr (KRecvfrom fd n fl)))) ->
  open_log w fd -> l_cb (w_st w) = true ->
  exists evs, w_tr (snd (ReadLogs n fuel e w)) = w_tr w ++ evs /\
    closes evs = match fst (ReadLogs n fuel e w) with NoFuel => 0%nat | _ => 1%nat end /\
    (fst (ReadLogs n fuel e w) <> NoFuel -> exists r, last evs (KGo, r) = (KClose fd, r)).
Proof.
  intros n fuel e w fd HF EB OP CB.
  destruct (ReadLogs_run n fuel e w fd HF EB OP CB) as (turns & lst & TR & FT & EN).
  exists (concat turns ++ lst). split; [exact TR|]. rewrite closes_app, (closes_turns _ _ _ FT). cbn [Nat.add].
  destruct (fst (ReadLogs n fuel e w)) as [[]| |].
  - destruct EN as (r & en & evs & rc & A & B & C & ->). rewrite closes_recv, closes_app.
    rewrite (closes_reports _ _ _ C). split; [reflexivity|]. intros _. exists rc.
    rewrite app_comm_cons, app_assoc. apply last_last.
  - destruct EN as (r & cbs & rc & A & B & C & C' & ->). rewrite closes_recv, closes_app.
    rewrite (closes_cbs _ B). split; [reflexivity|]. intros _. exists rc.
    rewrite app_comm_cons, app_assoc. apply last_last.
  - split; [|congruence]. destruct EN as [[_ ->]|(r & cbs & p & A & B & _ & _ & ->)]; [reflexivity|].
    rewrite closes_recv. apply closes_cbs, B.
Qed.
(** A kernel that sends the sample datagram, then reports ENOBUFS, then EBADF. *)
Definition log_kernel : env := fun tr c =>
  match c with
  | KRecvfrom _ _ _ =>
      match length (filter (fun ev => match fst ev with KRecvfrom _ _ _ => true | _ => false end) tr) with
      | 0%nat => mkResp None 0 sample_datagram false
      | 1%nat => mkResp (Some 105) 0 [] false
      | _ => mkResp (Some 9) 0 [] false
      end
  | _ => mkResp None 0 [] false
  end.
Example C28_case :
  (forall tr fd n fl, is_bytes (r_data (log_kernel tr (KRecvfrom fd n fl)))) /\
  open_log log_ready 7 /\ l_cb (w_st log_ready) = true /\
  let r := ReadLogs 4 (Z.to_nat 65537) log_kernel log_ready in
  fst r = Ok tt /\
  map (fun ev => match fst ev with KRecvfrom _ _ _ => 1 | KLogCb _ _ _ _ _ _ _ _ _ _ => 2 | KErrCb _ _ => 3 | KClose _ => 4 | _ => 0 end)
      (w_tr (snd r)) = [1; 2; 2; 1; 3; 1; 3; 4].
Proof.
  split.
  { intros tr fd n fl. cbn. destruct (length _) as [|[|k]]; cbn [r_data];
      [unfold sample_datagram, log_message1, log_message2, log_done, udp29, tcp40|..]; bytes_tac. }
  split; [exists snil; reflexivity|]. split; [reflexivity|]. cbv zeta.
  split; vm_compute; reflexivity.
Qed.

(** ** C72 *)
(** What the callback is told about the IP version, and the addresses it is shown *)
Definition version_of (ev : event) : option (Z * bytes * bytes) :=
  match fst ev with KLogCb _ _ src dst ver _ _ _ _ _ => Some (ver, src, dst) | _ => None end.
(** a datagram of one message with the IPv6 packet *)
Definition log_message6 : bytes :=
  [72;0;0;0; 0;4; 0;0; 0;0;0;0; 0;0;0;0;  10;0;0;5;  52;0;9;0] ++ udp48.
Lemma message6_ok : datagram_ok log_message6 [(1024, skipn 16 log_message6)].
Proof.
  split.
  - change (1024, skipn 16 log_message6) with (num LE (field log_message6 4 2), field log_message6 16 (72 - 16)).
    apply messages_cons; [reflexivity|cbn; lia|mods|]. constructor.
  - constructor; [|constructor]. intros _. exists [(9, udp48)].
    split; [cbn; lia|]. split; [reflexivity|]. split; [|split].
    + intros v H E; subst v; cbn in H; repeat (destruct H as [H|H]; [discriminate H|]); exact H.
    + intros t [|x1 l]; cbn; unfold udp48; intros H; inversion H. destruct l; discriminate.
    + constructor; [right; exact udp48_ok|constructor].
Qed.
Example C72_hypotheses_met :
  is_bytes sample_datagram /\ zlen sample_datagram < 4294967296 /\ datagram_ok sample_datagram sample_messages /\
  l_cb (w_st log_ready) = true /\
  In ([119], tcp40, true) (flat_map message_deliveries sample_messages) /\ ip4_version tcp40 = 4 /\
  is_bytes log_message6 /\ zlen log_message6 < 4294967296 /\ l_cb (w_st log_ready) = true.
Proof.
  destruct C25_case as (A & B & C & D & E). rewrite E.
  split; [exact A|]. split; [exact B|]. split; [exact C|]. split; [exact D|].
  split; [cbn; auto|]. split; [reflexivity|]. split; [unfold log_message6, udp48; bytes_tac|].
  split; [vm_compute; reflexivity|reflexivity].
Qed.
Theorem C72_ipv4_version_partial : forall d ms f e w,
  is_bytes d -> zlen d < 4294967296 -> datagram_ok d ms -> l_cb (w_st w) = true -> (length d <= f)%nat ->
  exists evs, w_tr (snd (parseLog f d e w)) = w_tr w ++ evs /\
    Forall2 (fun ev (x : delivery) => ip4_version (snd (fst x)) = 4 ->
               version_of ev = Some (ip4_version (snd (fst x)), ip4_src (snd (fst x)), ip4_dst (snd (fst x))))
            evs (flat_map message_deliveries ms).
Proof.
  intros d ms f e w IB ZL OK CB HF.
  destruct (C25_datagram_delivered d ms f e w IB ZL OK CB HF) as (evs & EV & DV).
  exists evs. rewrite EV. split; [reflexivity|]. clear - DV.
  induction DV as [|ev [[p v] c] evs ds H DV IH]; constructor; [|exact IH].
  cbn [fst snd]. intros V. destruct H as (src & dst & pr & tot & id & sp & dp & r & -> & HS).
  unfold headers_shown in HS. rewrite V in HS. destruct HS as (-> & -> & _). rewrite V. reflexivity.
Qed.
(** Refuted: every IPv6 packet is reported with its own addresses and version 4. *)
Theorem C72_ipv6_version_refuted :
  (forall d ms f e w, is_bytes d -> zlen d < 4294967296 -> datagram_ok d ms -> l_cb (w_st w) = true ->
     (length d <= f)%nat ->
     forall prefix v c, In (prefix, v, c) (flat_map message_deliveries ms) -> ip4_version v = 6 ->
     exists ev, In ev (skipn (length (w_tr w)) (w_tr (snd (parseLog f d e w)))) /\
       version_of ev = Some (4, ip6_src v, ip6_dst v)) /\
  datagram_ok log_message6 [(1024, skipn 16 log_message6)] /\ is_bytes log_message6 /\
  In ([], udp48, true) (flat_map message_deliveries [(1024, skipn 16 log_message6)]) /\ ip4_version udp48 = 6.
Proof.
  split; [|split; [exact message6_ok|split; [unfold log_message6, udp48; bytes_tac|split; [left; reflexivity|reflexivity]]]].
  intros d ms f e w IB ZL OK CB HF prefix v c IN V6.
  destruct (C25_datagram_delivered d ms f e w IB ZL OK CB HF) as (evs & EV & DV). rewrite EV.
  cbn [snd w_tr]. rewrite skipn_app, skipn_all, Nat.sub_diag. cbn [app skipn].
  clear - IN V6 DV. induction DV as [|ev ds evs l H DV IH]; [destruct IN|].
  destruct IN as [->|IN].
  - destruct H as (src & dst & pr & tot & id & sp & dp & r & -> & HS). eexists. split; [left; reflexivity|].
    unfold headers_shown in HS. rewrite V6 in HS. destruct HS as (-> & -> & _). reflexivity.
  - destruct (IH IN) as (ev' & I & X). exists ev'. split; [right; exact I|exact X].
Qed.
Print Assumptions C72_ipv6_version_refuted.

(** ** C73 *)
(** A datagram that does not fit the reader's 65536 bytes, cut inside a message after
    its header: the messages before are delivered and the loss is reported, in every
    turn of the loop. *)
Theorem C73_cut_datagram_reported_partial : forall fd ecb evs,
  log_turn fd ecb evs ->
  forall r tl, evs = (KRecvfrom fd 65536 0, r) :: tl -> r_err r = None ->
  forall ms rest, messages_of (log_received r) ms rest -> Forall message_ok ms -> cut_message rest ->
  exists cbs reps, tl = cbs ++ reps /\ Forall2 delivers cbs (flat_map message_deliveries ms) /\
    reports ecb (EWrapped 9 ETruncated) reps.
Proof.
  intros fd ecb evs T r tl E R ms rest MS FO CM. destruct T as [r0 x RE RP|r0 cbs RE FC DL PD NC|r0 cbs er x RE FC ND PD TR RP].
  - injection E as -> _. congruence.
  - injection E as -> _. destruct (NC ms rest MS FO CM).
  - injection E as -> <-. destruct (TR ms rest MS FO CM) as [D ->]. exists cbs, x. auto.
Qed.
(** Refuted: when fewer than 16 bytes of the next message fit, the reader delivers
    what came before and then hangs for ever: nothing is reported and nothing more is
    received, however many turns it is given. *)
Theorem C73_cut_in_header_refuted : forall n fuel e w fd r ms rest,
  (Z.to_nat 65536 < fuel)%nat -> open_log w fd -> l_cb (w_st w) = true ->
  r = e (w_tr w) (KRecvfrom fd 65536 0) -> r_err r = None -> is_bytes (r_data r) ->
  messages_of (log_received r) ms rest -> Forall message_ok ms -> (1 <= length rest <= 15)%nat ->
  exists evs, Forall2 delivers evs (flat_map message_deliveries ms) /\
    fst (ReadLogs (S n) fuel e w) = NoFuel /\
    w_tr (snd (ReadLogs (S n) fuel e w)) = w_tr w ++ (KRecvfrom fd 65536 0, r) :: evs.
Proof. exact reader_hangs. Qed.
Print Assumptions C73_cut_in_header_refuted.

(** Refuted: when the cut falls between two messages, the turn ends without a report,
    and the messages behind the cut are lost silently. *)
Theorem C73_cut_between_messages_refuted : forall fd ecb evs,
  log_turn fd ecb evs ->
  forall r tl, evs = (KRecvfrom fd 65536 0, r) :: tl -> r_err r = None ->
  forall ms, messages_of (log_received r) ms [] -> Forall message_ok ms ->
  Forall2 delivers tl (flat_map message_deliveries ms) /\
  forall er d x, ~ In (KErrCb er d, x) tl.
Proof.
  intros fd ecb evs T r tl E R ms MS FO.
  assert (D : Forall2 delivers tl (flat_map message_deliveries ms)).
  { destruct T as [r0 x RE RP|r0 cbs RE FC DL PD NC|r0 cbs er x RE FC ND PD TR RP].
    - injection E as -> _. congruence.
    - injection E as -> <-. apply DL. split; assumption.
    - injection E as -> _. destruct (ND ms). split; assumption. }
  split; [exact D|]. intros er d x IN. clear - D IN.
  induction D as [|ev [[p v] c] tl ds H D IH]; [destruct IN|]. destruct IN as [->|IN]; [|exact (IH IN)].
  destruct H as (src & dst & pr & tot & id & sp & dp & rr & H & _). discriminate H.
Qed.
Print Assumptions C73_cut_between_messages_refuted.



(** A datagram of 65600 bytes: a foreign message of 65528 bytes, then a packet message
    of which 8 bytes fit; and one of 65592 bytes of which 16 fit. *)
Definition big_message (lo : Z) (n : Z) : bytes := [lo;255;0;0; 3;0; 0;0; 0;0;0;0; 0;0;0;0] ++ repeat 0 (Z.to_nat n).
Lemma big_parses lo n rest : 0 <= lo < 256 -> n = lo + 65280 - 16 -> lo mod 4 = 0 ->
  messages_of (big_message lo n ++ rest) [(3, repeat 0 (Z.to_nat n))] rest.
Proof.
  intros L N M. set (b := big_message lo n ++ rest). set (len := Z.to_nat (lo + 65280)).
  assert (LB : length (big_message lo n) = len) by (unfold big_message; rewrite app_length, repeat_length; cbn [length]; lia).
  assert (F : field b 16 (len - 16) = repeat 0 (Z.to_nat n)).
  { unfold b, big_message, field. rewrite <- app_assoc. rewrite skipn_app. cbn [length Nat.sub skipn app].
    rewrite firstn_app, repeat_length. replace (len - 16 - Z.to_nat n)%nat with 0%nat by lia. cbn [firstn]. rewrite app_nil_r.
    apply firstn_all2. rewrite repeat_length. lia. }
  assert (X : messages_of b [(num LE (field b 4 2), field b 16 (len - 16))] rest).
  { apply messages_cons.
    - unfold len. f_equal. change (field b 0 4) with [lo;255;0;0]. unfold num, be_num. cbn [rev app fold_left]. lia.
    - unfold b. rewrite app_length, LB. lia.
    - left. assert (E : Z.of_nat (Nat.modulo len 4) = 0); [|lia]. rewrite Nat2Z.inj_mod. unfold len. rewrite Z2Nat.id by lia. change (Z.of_nat 4) with 4. lia.
    - unfold b. rewrite skipn_app, LB, Nat.sub_diag, <- LB, skipn_all. constructor. }
  rewrite F in X. exact X.
Qed.
Example C73_case :
  (forall r, r_data r = big_message 248 65512 ++ log_message1 ->
     log_received r = big_message 248 65512 ++ firstn 8 log_message1 /\
     messages_of (log_received r) [(3, repeat 0 (Z.to_nat 65512))] (firstn 8 log_message1)) /\
  (forall r, r_data r = big_message 240 65504 ++ log_message1 ->
     messages_of (log_received r) [(3, repeat 0 (Z.to_nat 65504))] (firstn 16 log_message1) /\
     cut_message (firstn 16 log_message1)) /\
  (forall v, message_ok (3, v)).
Proof.
  assert (LB : forall lo n, length (big_message lo n) = (16 + Z.to_nat n)%nat)
    by (intros; unfold big_message; rewrite app_length, repeat_length; reflexivity).
  split; [|split].
  - intros r E. assert (X : log_received r = big_message 248 65512 ++ firstn 8 log_message1).
    { unfold log_received. rewrite E, firstn_app, LB. replace (Z.to_nat 65536 - (16 + Z.to_nat 65512))%nat with 8%nat by lia.
      f_equal; try reflexivity; apply firstn_all2; rewrite LB; lia. }
    split; [exact X|]. rewrite X. apply big_parses; [lia|lia|reflexivity].
  - intros r E. assert (X : log_received r = big_message 240 65504 ++ firstn 16 log_message1).
    { unfold log_received. rewrite E, firstn_app, LB. replace (Z.to_nat 65536 - (16 + Z.to_nat 65504))%nat with 16%nat by lia.
      f_equal; try reflexivity; apply firstn_all2; rewrite LB; lia. }
    rewrite X. split; [apply big_parses; [lia|lia|reflexivity]|]. split; [cbn; lia|reflexivity].
  - intros v X. discriminate X.
Qed.
(** A datagram whose first 65536 bytes are two whole messages, and whose third is lost. *)
Lemma messages_app b ms r ms' r' : messages_of b ms r -> messages_of r ms' r' -> messages_of b (ms ++ ms') r'.
Proof. intros H. induction H; intros K; cbn [app]; [exact K|]. eapply messages_cons; eauto. Qed.
Definition small_message : bytes := [16;0;0;0; 3;0; 0;0; 0;0;0;0; 0;0;0;0].
Example C73_boundary_case : forall r, r_data r = big_message 240 65504 ++ small_message ++ log_message1 ->
  log_received r = big_message 240 65504 ++ small_message /\
  messages_of (log_received r) [(3, repeat 0 (Z.to_nat 65504)); (3, [])] [] /\
  Forall message_ok [(3, repeat 0 (Z.to_nat 65504)); (3, [])] /\
  message_deliveries (1024, skipn 16 log_message1) <> [].
Proof.
  intros r E.
  assert (LB : forall lo n, length (big_message lo n) = (16 + Z.to_nat n)%nat)
    by (intros; unfold big_message; rewrite app_length, repeat_length; reflexivity).
  assert (X : log_received r = big_message 240 65504 ++ small_message).
  { unfold log_received. rewrite E, app_assoc, firstn_app, app_length, LB. change (length small_message) with 16%nat.
    replace (Z.to_nat 65536 - (16 + Z.to_nat 65504 + 16))%nat with 0%nat by lia. cbn [firstn]. rewrite app_nil_r.
    apply firstn_all2. rewrite app_length, LB. change (length small_message) with 16%nat. lia. }
  rewrite X. split; [reflexivity|]. split; [|split].
  - change [(3, repeat 0 (Z.to_nat 65504)); (3, [])] with ([(3, repeat 0 (Z.to_nat 65504))] ++ [(3, @nil Z)]).
    eapply messages_app; [apply big_parses; [lia|lia|reflexivity]|].
    change (3, @nil Z) with (num LE (field small_message 4 2), field small_message 16 (16 - 16)).
    apply messages_cons; [reflexivity|cbn; lia|left; reflexivity|]. constructor.
  - constructor; [intros K; discriminate K|]. constructor; [intros K; discriminate K|constructor].
  - vm_compute. discriminate.
Qed.
