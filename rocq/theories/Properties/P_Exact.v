(** Exact outcomes: which bytes crash, hold or satisfy the readers, and where stale
    marks come from (C05, C13, C20). *)
From Verif Require Import Proof.RecvOutcome Proof.MarkWhere Spec.Samples Properties.P_Loop.

(** ** C05 *)
(** For every byte string and every set [f] of attribute types asked for, the
    parser returns iff no attribute is bad; otherwise the first bad attribute
    decides: it crashes iff that one is asked for, it never returns iff not. *)
Theorem C05_outcome : forall f m h buf tbl fuel,
  valid h buf -> is_bytes (rd h buf) -> Z.of_nat (s_len buf) <= 4294967292 -> (s_len buf / 4 + 1 < fuel)%nat ->
  asks f tbl ->
  ((exists r, NetlinkMessageToNfAttrStruct fuel m h buf tbl = Ok r) <->
     forall p, ~ crash_attr f m (rd h buf) p /\ ~ hang_attr f m (rd h buf) p) /\
  (NetlinkMessageToNfAttrStruct fuel m h buf tbl = Panic <->
     exists p, crash_attr f m (rd h buf) p /\ first_bad f m (rd h buf) p) /\
  ((forall fuel', NetlinkMessageToNfAttrStruct fuel' m h buf tbl = NoFuel) <->
     exists p, hang_attr f m (rd h buf) p /\ first_bad f m (rd h buf) p) /\
  (NetlinkMessageToNfAttrStruct fuel m h buf tbl = NoFuel ->
     forall fuel', NetlinkMessageToNfAttrStruct fuel' m h buf tbl = NoFuel).
Proof. exact attr_outcome. Qed.
Print Assumptions C05_outcome.

(** a good attribute, then a mark attribute declaring 2 bytes: crash; then with
    an unrequested attribute declaring 0 bytes in between: never returns *)
Example C05_outcome_met :
  let tbl := [(1, snil); (3, snil); (10, snil)] in
  let b1 := [8;0;1;0; 1;2;3;4; 2;0;3;0] in
  let b2 := [8;0;1;0; 1;2;3;4; 0;0;9;0; 2;0;3;0] in
  asks queue_wants tbl /\
  (crash_attr queue_wants LE b1 8 /\ first_bad queue_wants LE b1 8) /\
  (hang_attr queue_wants LE b2 8 /\ first_bad queue_wants LE b2 8) /\
  NetlinkMessageToNfAttrStruct 9 LE [b1] (mkSl 0 0 12 12) tbl = Panic /\
  NetlinkMessageToNfAttrStruct 9 LE [b2] (mkSl 0 0 16 16) tbl = NoFuel.
Proof.
  assert (S0 : forall b p, (p < 8)%nat -> attr_len LE b 0 = 8%nat -> attr_start LE b p -> p = 0%nat).
  { intros b p L D S. induction S as [|p S IH H1 H2]; [reflexivity|]. exfalso.
    assert (p < 8)%nat by (pose proof (al4_spec (p + attr_len LE b p)); lia).
    rewrite (IH H) in L. rewrite D in L. vm_compute in L. lia. }
  assert (S8 : forall b, attr_len LE b 0 = 8%nat -> (8 <= length b)%nat -> attr_start LE b 8).
  { intros b D LB. pose proof (attr_start_next LE b 0 (attr_start_0 _ _)) as X. rewrite D in X.
    apply X; lia. }
  assert (FB : forall b, attr_len LE b 0 = 8%nat -> first_bad queue_wants LE b 8).
  { intros b D p L. split; intros ((S & _) & X & _); rewrite (S0 b p L D S), D in X; lia. }
  intros tbl b1 b2. split.
  { intros t. unfold requested, queue_wants, tbl, amap_get. cbn [find fst snd].
    destruct (Z.ltb_spec t 11) as [X|X].
    - rewrite (Z.eqb_sym 1), (Z.eqb_sym 3), (Z.eqb_sym 10).
      destruct (t =? 1); [reflexivity|]. destruct (t =? 3); [reflexivity|]. destruct (t =? 10); reflexivity.
    - destruct (Z.eqb_spec t 1); [lia|]. destruct (Z.eqb_spec t 3); [lia|]. destruct (Z.eqb_spec t 10); [lia|]. reflexivity. }
  split; [split; [|apply FB; reflexivity]|].
  { split; [split; [apply S8; [reflexivity|vm_compute; lia]|vm_compute; lia]|]. split; [vm_compute; lia|reflexivity]. }
  split; [split; [|apply FB; reflexivity]|].
  { split; [split; [apply S8; [reflexivity|vm_compute; lia]|vm_compute; lia]|]. split; reflexivity. }
  split; reflexivity.
Qed.

(** ** C20 *)
(** what set-up asks for: the packet header, the mark and the payload *)
Theorem C20_started_asks : forall m queueID maxp psz cb ecb pd e w w',
  is_u16 queueID -> is_u32 maxp -> is_u32 psz -> replies_within 20 76800 e ->
  CreateAndStartNfQueue m queueID maxp psz cb ecb pd e w = (Ok None, w') ->
  asks queue_wants (q_attr (w_st w')).
Proof. exact started_asks. Qed.
Print Assumptions C20_started_asks.
(** and receiving never changes that *)
Theorem C20_recv_asks : forall f m fuel e w fd res w',
  queue_ready w fd -> bytes_env e -> asks f (q_attr (w_st w)) ->
  Recv fuel m e w = (res, w') -> asks f (q_attr (w_st w')).
Proof. exact recv_asks. Qed.
Print Assumptions C20_recv_asks.

(** exactly which datagrams a receive survives, which crash it, and which make
    it never return *)
Theorem C20_receive_outcome : forall m fuel e w fd,
  queue_ready w fd -> bytes_env e -> asks queue_wants (q_attr (w_st w)) -> (Z.to_nat 19201 < fuel)%nat ->
  let r := e (w_tr w) (KRecvfrom fd 76800 256) in
  let d := received r in
  let b := skipn 20 d in
  ((exists x w', Recv fuel m e w = (Ok x, w')) <->
     r_err r <> None \/ (20 <= length d)%nat /\
       (reply_code m d <> 0 \/ forall p, ~ crash_attr queue_wants m b p /\ ~ hang_attr queue_wants m b p)) /\
  ((exists w', Recv fuel m e w = (Panic, w')) <->
     r_err r = None /\ ((length d < 20)%nat \/
       reply_code m d = 0 /\ exists p, crash_attr queue_wants m b p /\ first_bad queue_wants m b p)) /\
  ((forall fuel', exists w', Recv fuel' m e w = (NoFuel, w')) <->
     r_err r = None /\ (20 <= length d)%nat /\ reply_code m d = 0 /\
       exists p, hang_attr queue_wants m b p /\ first_bad queue_wants m b p).
Proof. exact recv_outcome. Qed.
Print Assumptions C20_receive_outcome.

(** on a started queue: a packet message with a mark attribute that declares 2
    bytes crashes the first receive; with an attribute of length 0 it hangs *)
Definition bad_head : bytes := [32;0;0;0; 0;3;0;0; 0;0;0;0; 0;0;0;0; 2;0;0;42].
Example C20_outcome_met :
  let crash := bad_head ++ [2;0;3;0] in
  let hang := bad_head ++ [0;0;9;0] in
  (exists w', Recv (Z.to_nat 19202) LE (kernel_delivers [Some crash]) (started (guarded accept_all) true [Some crash]) = (Panic, w')) /\
  (forall fuel', exists w', Recv fuel' LE (kernel_delivers [Some hang]) (started (guarded accept_all) true [Some hang]) = (NoFuel, w')).
Proof.
  intros crash hang.
  assert (G : forall d, is_bytes d -> (length d <= 100)%nat ->
    let w := started (guarded accept_all) true [Some d] in
    exists fd, queue_ready w fd /\ bytes_env (kernel_delivers [Some d]) /\ asks queue_wants (q_attr (w_st w)) /\
      let r := kernel_delivers [Some d] (w_tr w) (KRecvfrom fd 76800 256) in r_err r = None /\ received r = d).
  { intros d HB HL w. destruct (started_fresh (guarded accept_all) true [Some d]) as (fd & priv & F & _).
    exists fd. split; [apply F|]. split; [apply delivers_bytes; constructor; [exact HB|constructor]|].
    split; [eapply started_asks; [| | | |apply started_ok]; try (red; lia); apply delivers_within|].
    unfold w. rewrite first_delivery. cbn [nth r_err received r_data]. split; [reflexivity|].
    unfold received. cbn [r_data]. apply firstn_all2. lia. }
  split.
  - destruct (G crash) as (fd & Q & BV & A & E1 & E2); [bytes_tac|vm_compute; lia|].
    destruct (recv_outcome LE (Z.to_nat 19202) _ _ fd Q BV A ltac:(lia)) as (_ & O & _).
    apply O. split; [exact E1|]. right. rewrite E2. split; [reflexivity|]. exists 0%nat. split.
    + split; [split; [constructor|vm_compute; lia]|]. split; [vm_compute; lia|reflexivity].
    + intros p L. lia.
  - destruct (G hang) as (fd & Q & BV & A & E1 & E2); [bytes_tac|vm_compute; lia|].
    destruct (recv_outcome LE (Z.to_nat 19202) _ _ fd Q BV A ltac:(lia)) as (_ & _ & O).
    apply O. split; [exact E1|]. rewrite E2. split; [vm_compute; lia|]. split; [reflexivity|]. exists 0%nat. split.
    + split; [split; [constructor|vm_compute; lia]|]. split; reflexivity.
    + intros p L. lia.
Qed.

(** ** C13 *)
(** Exactly which mark an unmarked packet is shown with, in every run from set-up
    on: once some packet carried a mark, with its value [k] bytes after the first
    byte of its message, every later packet without a mark whose message is long
    enough is shown with the number its own message happens to have at [k]. *)
Theorem C13_stale_mark_exact : forall m fuel grow n queueID maxp psz cb pd e w0 w res w',
  (Z.to_nat 19201 < fuel)%nat -> bytes_env e -> well_behaved e cb ->
  is_u16 queueID -> is_u32 maxp -> is_u32 psz -> replies_within 20 76800 e ->
  CreateAndStartNfQueue m queueID maxp psz (Some cb) true pd e w0 = (Ok None, w) ->
  ProcessPackets n fuel m grow e w = (res, w') ->
  exists fd evs, w_tr w' = w_tr w ++ evs /\
    forall pre r id mark buf contents pd' r2 post d k,
      evs = pre ++ (KRecvfrom fd 76800 256, r) :: (KPacketCb id mark buf contents pd', r2) :: post ->
      mark_was_at m fd pre k -> received r = d -> unmarked_since m fd [(KRecvfrom fd 76800 256, r)] ->
      (k + 4 <= length d)%nat -> mark = num BE (field d k 4).
Proof.
  intros m fuel grow n queueID maxp psz cb pd e w0 w res w' HF HB WB A1 A2 A3 RW ST PP.
  destruct (started_ready m queueID maxp psz (Some cb) true pd e w0 w A1 A2 A3 RW ST)
    as (fd & priv & _ & _ & _ & _ & F & N & C & D & E).
  destruct (process_packets_stale m fuel grow e fd pd priv cb HF HB (WB priv) n [] w res w')
    as (evs & T & M & _); [apply started_inv; auto| |exact PP|].
  - intros k s3 (pre & r & post & d & p & X & _). destruct pre; discriminate.
  - exists fd, evs. split; [exact T|]. exact M.
Qed.
Print Assumptions C13_stale_mark_exact.

(** the sample run of [C13_stale_mark_refuted]: the marked packet leaves the mark
    at byte 44, and the unmarked one has 517 there *)
Example C13_stale_mark_met :
  let rm := mkResp None 0 marked_packet false in
  let ru := mkResp None 0 unmarked_packet false in
  mark_was_at LE 7 [(KCtxDone, ru); (KRecvfrom 7 76800 256, rm)] 44 /\
  unmarked_since LE 7 [(KRecvfrom 7 76800 256, ru)] /\ received ru = unmarked_packet /\
  (44 + 4 <= length unmarked_packet)%nat /\ num BE (field unmarked_packet 44 4) = 517.
Proof.
  intros rm ru.
  assert (RU : received ru = unmarked_packet) by (apply firstn_all2; cbn [r_data ru]; vm_compute length; lia).
  assert (RM : received rm = marked_packet) by (apply firstn_all2; cbn [r_data rm]; vm_compute length; lia).
  split; [|split; [|split; [exact RU|split; [vm_compute; lia|reflexivity]]]].
  - exists [(KCtxDone, ru)], rm, [], marked_packet, 20%nat.
    split; [reflexivity|]. split; [|split; [|split; [reflexivity|intros ? ? ? []]]].
    + split; [reflexivity|]. split; [exact RM|]. split; [vm_compute; lia|reflexivity].
    + split; [split; [|vm_compute; lia]|split; [reflexivity|]].
      * assert (X : attr_start LE (skipn 20 marked_packet) 12).
        { apply (attr_start_next LE (skipn 20 marked_packet) 0 (attr_start_0 _ _)); vm_compute; lia. }
        apply (attr_start_next LE (skipn 20 marked_packet) 12 X); vm_compute; lia.
      * intros p (S & L & _) T. apply starts_marked in S.
        destruct S as [<-|[<-|[<-|[<-|[<-|[]]]]]]; try lia; vm_compute in L, T; try discriminate; lia.
  - intros r d p [X|[]] (_ & D & _) (S & L & _) T. injection X as <-. rewrite RU in D. subst d.
    apply starts_unmarked in S.
    destruct S as [<-|[<-|[<-|[<-|[]]]]]; vm_compute in L, T; try discriminate; lia.
Qed.
