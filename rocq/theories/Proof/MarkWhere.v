(** Where the mark shown with an unmarked packet comes from (C13). *)
From Verif Require Export Proof.AttrOutcome Proof.LoopProps Spec.MarkSpec.

Section LAST.
Context (m : endian) (h : heap) (buf : slice) (t : Z).
Hypothesis V : valid h buf.
Hypothesis HL : Z.of_nat (s_len buf) <= 4294967292.
Hypothesis HB : is_bytes (rd h buf).
Hypothesis Ht : t < 11.
Let b := rd h buf.
Notation next p := (al4 (p + attr_len m b p)).
Definition win (q : nat) : slice :=
  mkSl (s_arr buf) (s_off buf + (q + 4)) (attr_len m b q - 4) (s_cap buf - (q + 4)).

Lemma start_split p q : attr_start m b p -> attr_start m b q -> (p < q)%nat ->
  ((p + 4 <= length b)%nat /\ (p + attr_len m b p <= length b)%nat) /\ (next p <= q)%nat.
Proof.
  intros A B L. destruct (path_total m h buf p q A B) as [P|P].
  2:{ apply path_le in P. lia. }
  assert (X : p = q \/ ((p + 4 <= length b)%nat /\ (p + attr_len m b p <= length b)%nat) /\ path m h buf (next p) q).
  { clear - P. induction P as [|p q P IHP A B]; [now left|]. right. destruct IHP as [->|[IHP1 IHP2]].
    - split; [auto|constructor].
    - split; [exact IHP1|now apply path_step]. }
  destruct X as [X|[X1 X2]]; [lia|]. split; [exact X1|]. now apply path_le in X2.
Qed.

Lemma loop_last fuel : forall p hdr hdr' i er s,
  attr_start m b p -> amap_get hdr t = Some s ->
  nfattr_loop fuel m h buf (Z.of_nat p) hdr = Ok (hdr', i, er) ->
  exists s', amap_get hdr' t = Some s' /\
    (s' = s /\ (forall q, attr_complete m b q -> (p <= q)%nat -> attr_type m b q <> t) \/
     exists q, (p <= q)%nat /\ attr_complete m b q /\ (4 <= attr_len m b q)%nat /\ attr_type m b q = t /\ s' = win q /\
       forall q', attr_complete m b q' -> attr_type m b q' = t -> (q' <= q)%nat).
Proof.
  pose proof (valid_len _ _ V) as LB. fold b in LB.
  induction fuel as [|fuel IH]; intros p hdr hdr' i er s Hs G; [discriminate|].
  rewrite (loop_step m h buf V HL HB).
  change (decl m h buf p) with (attr_len m b p) in *. change (atyp m h buf p) with (attr_type m b p) in *.
  (* nothing complete from here on *)
  assert (STOP : ~ ((p + 4 <= length b)%nat /\ (p + attr_len m b p <= length b)%nat) ->
     forall q, attr_complete m b q -> (p <= q)%nat -> attr_type m b q <> t).
  { intros N q (Q1 & Q2 & Q3) L. exfalso. apply N. destruct (Nat.eq_dec p q) as [->|NE]; [auto|].
    apply (start_split p q Hs Q1); lia. }
  destruct (Nat.ltb_spec p (s_len buf)) as [A|A].
  2:{ intros E. injection E as <- <- <-. exists s. split; [exact G|]. left. split; [reflexivity|]. apply STOP. lia. }
  destruct (Nat.ltb_spec (s_len buf) (p + 4)) as [C|C].
  { intros E. injection E as <- <- <-. exists s. split; [exact G|]. left. split; [reflexivity|]. apply STOP. lia. }
  destruct (Nat.leb_spec (p + attr_len m b p) (s_len buf)) as [D|D].
  2:{ intros E. injection E as <- <- <-. exists s. split; [exact G|]. left. split; [reflexivity|]. apply STOP. lia. }
  assert (Hn : attr_start m b (next p)) by (apply attr_start_next; [exact Hs|rewrite LB; auto..]).
  assert (CO : attr_complete m b p) by (split; [exact Hs|rewrite LB; auto]).
  assert (PN : (p <= next p)%nat) by (pose proof (al4_spec (p + attr_len m b p)); lia).
  (* an attribute of another type *)
  assert (SKIP : attr_type m b p <> t -> forall hd, amap_get hd t = Some s ->
     nfattr_loop fuel m h buf (Z.of_nat (next p)) hd = Ok (hdr', i, er) ->
     exists s', amap_get hdr' t = Some s' /\
    (s' = s /\ (forall q, attr_complete m b q -> (p <= q)%nat -> attr_type m b q <> t) \/
     exists q, (p <= q)%nat /\ attr_complete m b q /\ (4 <= attr_len m b q)%nat /\ attr_type m b q = t /\ s' = win q /\
       forall q', attr_complete m b q' -> attr_type m b q' = t -> (q' <= q)%nat)).
  { intros NT hd Gd E. destruct (IH _ _ _ _ _ s Hn Gd E) as (s' & G' & K). exists s'. split; [exact G'|].
    destruct K as [[K1 K2]|(q & K1 & K2)]; [left|right; exists q; split; [lia|exact K2]].
    split; [exact K1|]. intros q Q L. destruct (Nat.eq_dec p q) as [<-|NE]; [exact NT|].
    apply K2; [exact Q|]. apply (start_split p q Hs); [apply Q|lia]. }
  destruct (attr_type m b p <? nfqaMax) eqn:T.
  2:{ apply SKIP; [|exact G]. intros X. rewrite X in T. unfold nfqaMax in T. lia. }
  destruct (amap_get hdr (attr_type m b p)) as [o|] eqn:G2.
  2:{ apply SKIP; [|exact G]. intros X. congruence. }
  destruct (Nat.ltb_spec (attr_len m b p) 4) as [F|F]; [discriminate|].
  destruct (Z.eq_dec (attr_type m b p) t) as [Q|Q].
  2:{ apply SKIP; [exact Q|]. rewrite amap_get_set. destruct (Z.eqb_spec (attr_type m b p) t); [contradiction|exact G]. }
  intros E.
  match type of E with nfattr_loop _ _ _ _ _ (amap_set _ _ ?x) = _ => change x with (win p) in E end.
  assert (G' : amap_get (amap_set hdr (attr_type m b p) (win p)) t = Some (win p)).
  { rewrite amap_get_set, Q, Z.eqb_refl, G. reflexivity. }
  destruct (IH _ _ _ _ _ (win p) Hn G' E) as (s' & K0 & K). exists s'. split; [exact K0|]. right.
  destruct K as [[K1 K2]|(q & K1 & K2)]; [exists p|exists q; split; [lia|exact K2]].
  split; [lia|]. split; [exact CO|]. split; [exact F|]. split; [exact Q|]. split; [exact K1|].
  intros q' Q1 Q2. destruct (Nat.le_gt_cases q' p) as [L|L]; [exact L|]. exfalso.
  apply (K2 q' Q1); [|exact Q2]. apply (start_split p q' Hs); [apply Q1|lia].
Qed.
End LAST.

(** what the table has for type [t] after the parser *)
Lemma parser_last m h buf fuel hdr hdr' lo er t s :
  valid h buf -> Z.of_nat (s_len buf) <= 4294967292 -> is_bytes (rd h buf) -> t < 11 ->
  amap_get hdr t = Some s ->
  NetlinkMessageToNfAttrStruct fuel m h buf hdr = Ok (hdr', lo, er) ->
  exists s', amap_get hdr' t = Some s' /\
    (s' = s /\ (forall q, attr_complete m (rd h buf) q -> attr_type m (rd h buf) q <> t) \/
     exists q, attr_complete m (rd h buf) q /\ (4 <= attr_len m (rd h buf) q)%nat /\ attr_type m (rd h buf) q = t /\
       s' = win m h buf q /\
       forall q', attr_complete m (rd h buf) q' -> attr_type m (rd h buf) q' = t -> (q' <= q)%nat).
Proof.
  intros V HL HB Ht G. unfold NetlinkMessageToNfAttrStruct.
  destruct (nfattr_loop fuel m h buf 0 hdr) as [[[h1 i] e1]| |] eqn:E; cbn [rbind]; try discriminate.
  pose proof (loop_last m h buf t V HL HB Ht fuel 0%nat hdr h1 i e1 s (attr_start_0 _ _) G E) as Hs.
  assert (R : exists s', amap_get h1 t = Some s' /\
    (s' = s /\ (forall q, attr_complete m (rd h buf) q -> attr_type m (rd h buf) q <> t) \/
     exists q, attr_complete m (rd h buf) q /\ (4 <= attr_len m (rd h buf) q)%nat /\ attr_type m (rd h buf) q = t /\
       s' = win m h buf q /\
       forall q', attr_complete m (rd h buf) q' -> attr_type m (rd h buf) q' = t -> (q' <= q)%nat)).
  { destruct Hs as (s' & A & [[B C]|(q & B & C)]); exists s'; (split; [exact A|]).
    - left. split; [exact B|]. intros q Q. apply C; [exact Q|lia].
    - right. exists q. exact C. }
  destruct e1 as [x|].
  - intros Q. injection Q as <- <- <-. exact R.
  - destruct (Z.of_nat (s_len buf) <=? i).
    + intros Q. injection Q as <- <- <-. exact R.
    + destruct (resl_from buf i); cbn [rbind]; try discriminate.
      intros Q. injection Q as <- <- <-. exact R.
Qed.

(** ** One turn *)
Section TURN.
Context (m : endian) (fuel : nat) (grow : nat -> nat -> nat) (e : env) (w : world nfq) (fd pd : Z)
        (priv : list nat) (cb : callback).
Hypothesis LI : loop_inv fd priv cb pd w.
Hypothesis HF : (Z.to_nat 19201 < fuel)%nat.
Hypothesis HBE : bytes_env e.
Hypothesis CBOK : callback_ok e priv cb.
Let r := e (w_tr w) (KRecvfrom fd 76800 256).

(** where the mark slot points after a turn, and the mark shown in it *)
Lemma process_one_mark w' s3 :
  process_one fuel m grow e w = (Ok tt, w') -> amap_get (q_attr (w_st w)) 3 = Some s3 ->
  q_buf (w_st w') = q_buf (w_st w) /\
  exists s3', amap_get (q_attr (w_st w')) 3 = Some s3' /\
    (s3' = s3 /\ (forall d p, brought m r d -> attr_complete m (skipn 20 d) p -> attr_type m (skipn 20 d) p <> 3) \/
     exists d p, brought m r d /\ last_mark m (skipn 20 d) p /\
       s_arr s3' = s_arr (q_buf (w_st w)) /\ s_off s3' = (s_off (q_buf (w_st w)) + (24 + p))%nat) /\
    (forall x id mark s cont pd' r2 evs,
       w_tr w' = w_tr w ++ x :: (KPacketCb id mark s cont pd', r2) :: evs ->
       brought m r (received r) /\ (4 <= s_len s3')%nat /\
       mark = num Base.BE (field (rd (recv_heap w (received r)) s3') 0 4)).
Proof.
  pose proof LI as [Q P I1 I2 I3 I4]. intros E1 A3.
  assert (EQ := process_one_eq m fuel grow e w fd cb Q I1 I2). fold r in EQ. cbv zeta in EQ.
  set (d := received r) in *. rewrite E1 in EQ. clear E1.
  destruct (recv_heap_facts e w fd Q) as (F1 & F3 & F4 & F5). fold r in F1, F3, F4, F5. fold d in F1, F3, F4, F5.
  assert (TRX : forall k (x : event) id mark s cont pd' r2 evs,
     (forall i mk ss cc pp, k <> KPacketCb i mk ss cc pp) ->
     (w_tr w ++ [(KRecvfrom fd 76800 256, r)]) ++ [(k, e (w_tr w ++ [(KRecvfrom fd 76800 256, r)]) k)]
       = w_tr w ++ x :: (KPacketCb id mark s cont pd', r2) :: evs -> False).
  { intros k x id mark s cont pd' r2 evs N X. rewrite <- app_assoc in X. apply app_inv_head in X.
    cbn [app] in X. inversion X. eapply N; eassumption. }
  destruct (r_err r) as [en|] eqn:E.
  { injection EQ as ->. cbn [w_st w_tr]. split; [reflexivity|]. exists s3. split; [exact A3|]. split.
    - left. split; [reflexivity|]. intros d' p (B & _). congruence.
    - intros. exfalso. unfold with_event in *. eapply TRX; [|eassumption]. intros. discriminate. }
  destruct (Nat.ltb_spec (length d) 20) as [L|L]; [discriminate|].
  destruct (Z.eqb_spec (reply_code m d) 0) as [C|C]; cbn [negb] in EQ.
  2:{ injection EQ as ->. cbn [w_st w_tr]. split; [reflexivity|]. exists s3. split; [exact A3|]. split.
      - left. split; [reflexivity|]. intros d' p (_ & B & _ & B'). fold d in B. subst d'. contradiction.
      - intros. exfalso. unfold with_event in *. eapply TRX; [|eassumption]. intros. discriminate. }
  assert (BR : brought m r d) by (repeat split; auto).
  destruct (F5 20%nat L) as [V20 R20].
  assert (HBw : is_bytes (rd (recv_heap w d) (recv_win w d 20)))
    by (rewrite R20; unfold d, received; apply is_bytes_skipn, is_bytes_firstn, HBE).
  assert (HL : Z.of_nat (s_len (recv_win w d 20)) <= 4294967292).
  { cbn [recv_win s_len]. assert (length d <= Z.to_nat 76800)%nat by (unfold d, received; rewrite firstn_length; clear; lia). lia. }
  destruct (NetlinkMessageToNfAttrStruct fuel m (recv_heap w d) (recv_win w d 20) (q_attr (w_st w)))
    as [[[tbl lo] er]| |] eqn:EP; try discriminate.
  assert (T3 : exists s3', amap_get tbl 3 = Some s3' /\
    (s3' = s3 /\ (forall d p, brought m r d -> attr_complete m (skipn 20 d) p -> attr_type m (skipn 20 d) p <> 3) \/
     exists d p, brought m r d /\ last_mark m (skipn 20 d) p /\
       s_arr s3' = s_arr (q_buf (w_st w)) /\ s_off s3' = (s_off (q_buf (w_st w)) + (24 + p))%nat)).
  { destruct (parser_last m _ _ fuel _ _ _ _ 3 s3 V20 HL HBw eq_refl A3 EP) as (s3' & X & Y).
    rewrite R20 in Y. exists s3'. split; [exact X|]. destruct Y as [[Y1 Y2]|(q & Y1 & Y2 & Y3 & Y4 & Y5)]; [left|right].
    - split; [exact Y1|]. intros d' p (_ & B & _). fold d in B. subst d'. apply Y2.
    - exists d, q. split; [exact BR|]. split; [split; [exact Y1|split; [exact Y3|exact Y5]]|].
      rewrite Y4. cbn [win recv_win s_arr s_off]. split; [reflexivity|lia]. }
  destruct T3 as (s3' & G3 & W3).
  destruct er as [er|].
  { injection EQ as ->. cbn [w_st w_tr set_attr q_buf q_attr]. split; [reflexivity|]. exists s3'. split; [exact G3|]. split; [exact W3|].
    intros. exfalso. unfold with_event in *. eapply TRX; [|eassumption]. intros. discriminate. }
  destruct (GetPacketInfo m (recv_heap w d) (Some tbl)) as [[[id mark] s]| |] eqn:EG; try discriminate.
  assert (SL : forall t, t = 1 \/ t = 10 -> exists s', amap_get tbl t = Some s').
  { intros t Ht. destruct (qr_slots _ _ Q t ltac:(tauto)) as (s0 & A & _).
    pose proof (parser_slots _ _ _ _ _ _ _ _ V20 HL HBw EP t) as X. rewrite A in X. destruct X as (x & X & _). eauto. }
  destruct (SL 1 ltac:(auto)) as (t1 & B1). destruct (SL 10 ltac:(auto)) as (t10 & B10).
  rewrite (packet_info m _ tbl t1 s3' t10 B1 G3 B10) in EG.
  destruct (_ || _)%bool eqn:LL in EG; [discriminate|]. injection EG as <- <- <-.
  apply Bool.orb_false_iff in LL as [_ LL]. apply Nat.ltb_ge in LL.
  symmetry in EQ.
  match type of EQ with run_acts _ _ ?l _ ?w1 = _ =>
    assert (CF : q_buf (w_st w') = q_buf (w_st w1) /\ q_attr (w_st w') = q_attr (w_st w1) /\
                 exists evs, w_tr w' = w_tr w1 ++ evs) end.
  { match type of EQ with run_acts _ _ ?l _ ?w1 = _ => set (acts := l) in *; set (w1' := w1) in * end.
    assert (LI1 : loop_inv fd priv cb pd w1').
    { eapply inv_after with (p0 := u64 (q_proc (w_st w) + 1)); auto.
      - unfold u64. apply Z.mod_pos_bound. reflexivity.
      - right. split; [|exact L]. exists lo, None. exact EP. }
    pose proof LI1 as [Q1 P1 _ _ _ _].
    assert (AO : acts_ok e (w_heap w1') priv acts).
    { apply CBOK; cbn [p_buf].
      - destruct (qr_slots _ _ Q1 10 ltac:(auto)) as (x & X1 & X2 & _).
        cbn [w1' w_st w_heap set_counts set_attr q_attr] in X1, X2. rewrite B10 in X1. injection X1 as <-. exact X2.
      - destruct P1 as (_ & _ & _ & P4). apply P4. exact B10.
      - destruct P1 as (_ & _ & P3 & _). exact P3. }
    destruct (run_acts_ok m grow fd priv e _ w1' Q1 P1 AO) as (w2 & evs & G1 & G2 & _ & [_ _ _ (x & y & K4)]).
    rewrite EQ in G1. injection G1 as <-. rewrite K4. cbn [set_counts q_buf q_attr]. eauto. }
  cbn [w_st w_tr set_counts set_attr q_buf q_attr] in CF. destruct CF as (CF1 & CF2 & evs0 & CF3).
  split; [exact CF1|]. exists s3'. rewrite CF2. split; [exact G3|]. split; [exact W3|].
  intros x id' mark' s' cont' pd' r2 evs TR.
  rewrite CF3 in TR. unfold with_event in TR. rewrite <- !app_assoc in TR. apply app_inv_head in TR. cbn [app] in TR.
  injection TR as _ _ <- _ _ _ _ _. split; [exact BR|].
  split; [|reflexivity]. unfold rd in LL. rewrite firstn_length in LL. lia.
Qed.

(** the first bytes of a window on the receive buffer *)
Lemma window_bytes s k d :
  r_err r = None -> received r = d -> s_arr s = s_arr (q_buf (w_st w)) -> s_off s = (s_off (q_buf (w_st w)) + k)%nat ->
  (4 <= s_len s)%nat -> (k + 4 <= length d)%nat ->
  field (rd (recv_heap w d) s) 0 4 = field d k 4.
Proof.
  intros E D A O L K. pose proof (li_ready _ _ _ _ _ LI) as Q.
  destruct (recv_heap_facts e w fd Q) as (_ & _ & _ & F5). fold r in F5. rewrite D in F5.
  destruct (F5 0%nat ltac:(lia)) as [_ R0]. cbn [skipn] in R0.
  transitivity (field (rd (recv_heap w d) (recv_win w d 0)) k 4); [|rewrite R0; reflexivity].
  unfold rd, field. cbn [recv_win s_arr s_off s_len].
  rewrite A, O. rewrite !skipn_firstn_comm, !firstn_firstn, !skipn_skipn.
  replace (Nat.min 4 (s_len s - 0)) with 4%nat by lia.
  replace (Nat.min 4 (length d - 0 - k)) with 4%nat by lia.
  f_equal. f_equal. lia.
Qed.
End TURN.

(** ** Every run *)
Section RUN.
Context (m : endian) (fuel : nat) (grow : nat -> nat -> nat) (e : env) (fd pd : Z)
        (priv : list nat) (cb : callback).
Hypothesis HF : (Z.to_nat 19201 < fuel)%nat.
Hypothesis HBE : bytes_env e.
Hypothesis CBOK : callback_ok e priv cb.
Notation RX r := (KRecvfrom fd 76800 256, r).

(** events that are not receives of the loop *)
Definition quiet (l : list event) : Prop := forall r, ~ In (RX r) l.
Lemma cb_quiet l : Forall cb_event l -> quiet l.
Proof. intros H r I. rewrite Forall_forall in H. specialize (H _ I). cbn in H. discriminate. Qed.

Lemma mark_was_step A r B k : quiet B -> mark_was_at m fd (A ++ RX r :: B) k ->
  (exists d p, brought m r d /\ last_mark m (skipn 20 d) p /\ k = (24 + p)%nat) \/
  (mark_was_at m fd A k /\ unmarked_since m fd [RX r]).
Proof.
  intros QB (pre & r' & post & d & p & EQ & BR & LM & K & US).
  destruct (app_eq_app _ _ _ _ EQ) as (mid & [(X & Y)|(X & Y)]).
  - (* A = pre ++ mid *) destruct mid as [|x mid]; cbn [app] in Y.
    + injection Y as <- <-. left. exists d, p. auto.
    + injection Y as <- ->. right. split.
      * exists pre, r', mid, d, p. split; [exact X|]. split; [exact BR|]. split; [exact LM|]. split; [exact K|].
        intros r2 d2 p2 I2. apply US. apply in_or_app. auto.
      * intros r2 d2 p2 [I2|[]]. apply US. apply in_or_app. right. left. exact I2.
  - destruct mid as [|x mid]; cbn [app] in Y.
    + injection Y as -> _. left. exists d, p. auto.
    + injection Y as _ Y. exfalso. apply (QB r'). rewrite Y. apply in_or_app. right. left. reflexivity.
Qed.
Lemma mark_was_quiet A B k : quiet B -> mark_was_at m fd (A ++ B) k -> mark_was_at m fd A k.
Proof.
  intros QB (pre & r' & post & d & p & EQ & BR & LM & K & US).
  destruct (app_eq_app _ _ _ _ EQ) as (mid & [(X & Y)|(X & Y)]).
  - destruct mid as [|x mid]; cbn [app] in Y.
    + exfalso. apply (QB r'). rewrite <- Y. left. reflexivity.
    + injection Y as <- ->. exists pre, r', mid, d, p. split; [exact X|]. split; [exact BR|]. split; [exact LM|].
      split; [exact K|]. intros r2 d2 p2 I2. apply US. apply in_or_app. auto.
  - exfalso. apply (QB r'). rewrite Y. apply in_or_app. right. left. reflexivity.
Qed.

(** the mark slot points where the last mark was *)
Definition tracks (evs : list event) (w : world nfq) : Prop :=
  forall k s3, mark_was_at m fd evs k -> amap_get (q_attr (w_st w)) 3 = Some s3 ->
    s_arr s3 = s_arr (q_buf (w_st w)) /\ s_off s3 = (s_off (q_buf (w_st w)) + k)%nat.
(** every unmarked packet long enough is shown with its own bytes from there *)
Definition stale_marks (before evs : list event) : Prop :=
  forall pre r id mark s cont pd' r2 post d k,
    evs = pre ++ RX r :: (KPacketCb id mark s cont pd', r2) :: post ->
    mark_was_at m fd (before ++ pre) k -> received r = d -> unmarked_since m fd [RX r] ->
    (k + 4 <= length d)%nat -> mark = num Base.BE (field d k 4).

Lemma stale_none before l : (forall id mark s cont pd' r2, ~ In (KPacketCb id mark s cont pd', r2) l) -> stale_marks before l.
Proof.
  intros N pre r id mark s cont pd' r2 post d k -> _ _ _ _. exfalso.
  eapply N. apply in_or_app. right. right. left. reflexivity.
Qed.
Lemma stale_app before l1 l2 :
  stale_marks before l1 -> stale_marks (before ++ l1) l2 ->
  (forall x id mark s cont pd' r2, l2 = (KPacketCb id mark s cont pd', r2) :: x -> False) ->
  stale_marks before (l1 ++ l2).
Proof.
  intros H1 H2 N pre r id mark s cont pd' r2 post d k EQ MW D U L.
  destruct (app_eq_app _ _ _ _ EQ) as (mid & [(X & Y)|(X & Y)]).
  - destruct mid as [|x [|y mid]]; cbn [app] in Y.
    + rewrite app_nil_r in X. subst pre. eapply (H2 []); [symmetry; exact Y|rewrite app_nil_r; exact MW|exact D|exact U|exact L].
    + injection Y as _ Y. exfalso. eapply N. symmetry. exact Y.
    + injection Y as <- <- ->. eapply H1; eauto.
  - subst pre. rewrite app_assoc in MW. eapply H2; eauto.
Qed.

Lemma process_packets_stale n : forall before w res w',
  loop_inv fd priv cb pd w -> tracks before w ->
  ProcessPackets n fuel m grow e w = (res, w') ->
  exists evs, w_tr w' = w_tr w ++ evs /\ stale_marks before evs /\
    (forall x id mark s cont pd' r2, evs = (KPacketCb id mark s cont pd', r2) :: x -> False).
Proof.
  induction n as [|n IH]; intros before w res w' LI TK; cbn [ProcessPackets].
  { intros EQ. inversion EQ; subst res w'. exists []. rewrite app_nil_r. split; [reflexivity|].
    split; [apply stale_none; intros ? ? ? ? ? ? []|discriminate]. }
  mstep. set (r0 := e (w_tr w) KCtxDone). set (w0 := mkW _ _ _).
  pose proof (loop_inv_tr _ _ _ _ _ (w_tr w ++ [(KCtxDone, r0)]) LI) as LI0. fold w0 in LI0.
  destruct (r_flag r0) eqn:F.
  { destruct (NfqClose_inv e w0 fd (li_ready _ _ _ _ _ LI0)) as [r1 EC]. rewrite EC.
    intros EQ. inversion EQ; subst res w'. exists [(KCtxDone, r0); (KClose fd, r1)].
    cbn [w_tr w0 w_st]. rewrite <- app_assoc. split; [reflexivity|].
    split; [apply stale_none; intros ? ? ? ? ? ? [X|[X|[]]]; discriminate|discriminate]. }
  destruct (process_one fuel m grow e w0) as [x w1] eqn:E1.
  pose proof (process_one_cases m fuel grow e w0 fd pd priv cb LI0 HF HBE CBOK x w1 E1) as PC.
  destruct x as [[]| |].
  2,3: destruct PC as (C1 & C2 & C3); rewrite ?(bind_panic _ _ _ _ _ E1), ?(bind_nofuel _ _ _ _ _ E1);
    intros EQ; inversion EQ; subst res w'; eexists;
    rewrite C2; cbn [w0 w_tr w_st]; rewrite <- app_assoc;
    (split; [reflexivity|]); (split; [apply stale_none; intros ? ? ? ? ? ? [X|[X|[]]]; discriminate|discriminate]).
  rewrite (bind_ok _ _ _ _ _ _ E1). intros E2.
  destruct PC as (LI1 & _ & _ & _ & _ & T).
  destruct (qr_slots _ _ (li_ready _ _ _ _ _ LI0) 3 ltac:(auto)) as (s3 & A3 & _).
  destruct (process_one_mark m fuel grow e w0 fd pd priv cb LI0 HF HBE CBOK w1 s3 E1 A3) as (BF & s3' & A3' & W3 & MK).
  set (r := e (w_tr w0) (KRecvfrom fd 76800 256)) in *.
  assert (T' : exists y tail, w_tr w1 = w_tr w ++ (KCtxDone, r0) :: RX r :: y :: tail /\ quiet (y :: tail) /\
     (forall id mark s cont pd' r2, ~ In (KPacketCb id mark s cont pd', r2) tail)).
  { destruct T as [(er & dt & r2 & T1 & T2 & T3)|(id & mark & s & cont & r2 & evs & T1 & T2 & T3 & T4 & T5 & T6 & T7 & T8 & T9)].
    - exists (KErrCb er dt, r2), []. rewrite T1. cbn [w0 w_tr]. rewrite <- app_assoc. split; [reflexivity|].
      split; [intros ? [X|[]]; discriminate|intros ? ? ? ? ? ? []].
    - exists (KPacketCb id mark s cont pd, r2), evs. rewrite T1. cbn [w0 w_tr]. rewrite <- app_assoc. split; [reflexivity|].
      split; [intros ? [X|X]; [discriminate|exact (cb_quiet _ T7 _ X)]|].
      intros id' mark' s' cont' pd' r2' X. rewrite Forall_forall in T7. exact (T7 _ X). }
  clear T. destruct T' as (y & tail & TR & QT & NP).
  set (ev1 := (KCtxDone, r0) :: RX r :: y :: tail) in *.
  assert (TK1 : tracks (before ++ ev1) w1).
  { intros k s M G. rewrite A3' in G. injection G as <-. rewrite BF.
    unfold ev1 in M. replace (before ++ (KCtxDone, r0) :: RX r :: y :: tail)
      with ((before ++ [(KCtxDone, r0)]) ++ RX r :: y :: tail) in M by (rewrite <- app_assoc; reflexivity).
    apply (mark_was_step _ _ _ _ QT) in M. destruct W3 as [[-> NM]|(d & p & BR & LM & X1 & X2)].
    - destruct M as [(d & p & BR & (L1 & L2 & _) & _)|[M _]]; [destruct (NM d p BR L1 L2)|].
      apply mark_was_quiet in M; [|intros ? [X|[]]; discriminate]. exact (TK k s3 M A3).
    - destruct M as [(d' & p' & BR' & LM' & ->)|[_ M]].
      + assert (d' = d) by (destruct BR as (_ & B & _), BR' as (_ & B' & _); congruence). subst d'.
        assert (p' = p) by (destruct LM as (L1 & L2 & L3), LM' as (L1' & L2' & L3');
          pose proof (L3 _ L1' L2'); pose proof (L3' _ L1 L2); lia). subst p'. auto.
      + destruct LM as (L1 & L2 & _). destruct (M r d p (or_introl eq_refl) BR L1 L2). }
  assert (ST1 : stale_marks before ev1).
  { intros pre r' id mark s cont pd' r2 post d k EQ MW D U L.
    destruct pre as [|x0 [|x1 pre]]; cbn [app] in EQ.
    - discriminate.
    - injection EQ as <- <- -> <-. 
      destruct (MK (RX r) id mark s cont pd' r2 tail) as (BR & L4 & EM).
      { rewrite TR. cbn [w0 w_tr]. rewrite <- app_assoc. reflexivity. }
      rewrite EM. rewrite D.
      assert (BR' := BR). destruct BR' as (EN & _).
      destruct W3 as [[-> NM]|(d' & p & BR' & (L1 & L2 & _) & _)].
      2:{ destruct (U r d' p (or_introl eq_refl) BR' L1 L2). }
      apply mark_was_quiet in MW; [|intros ? [X|[]]; discriminate].
      destruct (TK k s3 MW A3) as (X1 & X2). f_equal.
      eapply window_bytes; eauto.
    - exfalso. destruct pre as [|x2 pre]; cbn [app] in EQ; injection EQ as _ _ EQ.
      + inversion EQ; subst. eapply NP. left. reflexivity.
      + inversion EQ; subst. eapply NP. apply in_or_app. right. right. left. reflexivity. }
  destruct (IH (before ++ ev1) w1 res w' LI1 TK1 E2) as (evs & J1 & J2 & J3).
  exists (ev1 ++ evs). split; [rewrite J1, TR, <- app_assoc; reflexivity|].
  split; [apply stale_app; assumption|]. intros x id mark s cont pd' r2 X. unfold ev1 in X. discriminate.
Qed.
End RUN.
