(** The attribute parser on every input: returns, crashes or hangs (C05). *)
From Verif Require Export Proof.CommonProps Spec.Outcome.

Section OUT.
Context (m : endian) (h : heap) (buf : slice).
Hypothesis V : valid h buf.
Hypothesis HL : Z.of_nat (s_len buf) <= 4294967292.
Hypothesis HB : is_bytes (rd h buf).
Let b := rd h buf.
Let L := s_len buf.
Let next (p : nat) := al4 (p + attr_len m b p).

Inductive path : nat -> nat -> Prop :=
| path_refl p : path p p
| path_step p q : path p q -> (q + 4 <= length b)%nat -> (q + attr_len m b q <= length b)%nat -> path p (next q).
Lemma path_le p q : path p q -> (p <= q)%nat.
Proof. induction 1; [lia|]. unfold next. pose proof (al4_spec (q + attr_len m b q)). lia. Qed.
Lemma path_total p q : attr_start m b p -> attr_start m b q -> path p q \/ path q p.
Proof.
  intros Hp. induction Hp as [|p Hp IH H1 H2]; intros Hq.
  - left. clear - Hq. induction Hq; [constructor|]. now apply path_step.
  - destruct (IH Hq) as [P|P]; [|right; now apply path_step].
    assert (X : p = q \/ path (next p) q).
    { clear - P. induction P as [|p q P IHP A B]; [now left|]. right. destruct IHP as [->|IHP]; [constructor|now apply path_step]. }
    destruct X as [<-|X]; [right|left; exact X]. apply path_step; [constructor|assumption..].
Qed.
(** nothing is looked at between an offset and the next *)
Lemma start_gap p p' : attr_start m b p -> attr_start m b p' -> (p' < next p)%nat -> (p' <= p)%nat.
Proof.
  intros A B C. destruct (path_total p p' A B) as [P|P]; [|now apply path_le].
  assert (X : p = p' \/ path (next p) p').
  { clear - P. induction P as [|p q P IHP A B]; [now left|]. right. destruct IHP as [->|IHP]; [constructor|now apply path_step]. }
  destruct X as [->|X]; [lia|]. apply path_le in X. lia.
Qed.

Lemma loop_outcome hdr0 : forall fuel p hdr,
  attr_start m b p -> (Nat.modulo p 4 = 0)%nat -> (forall t, requested hdr t = requested hdr0 t) ->
  fine_before m hdr0 b p -> (al4 L < p + 4 * fuel)%nat ->
  match nfattr_loop fuel m h buf (Z.of_nat p) hdr with
  | Ok _ => True
  | Panic => exists p', crashes_at m hdr0 b p' /\ fine_before m hdr0 b p'
  | NoFuel => (exists p', hangs_at m hdr0 b p' /\ fine_before m hdr0 b p') /\
              forall f, nfattr_loop f m h buf (Z.of_nat p) hdr = NoFuel
  end.
Proof.
  pose proof (valid_len _ _ V) as LB. fold b L in LB.
  induction fuel as [|fuel IH]; intros p hdr Hs Hm Hr Hf HF.
  - exfalso. assert (p <= al4 L)%nat; [|lia]. destruct Hs as [|p Hs H1 H2]; [lia|]. unfold al4. lia.
  - assert (STEP : forall f, nfattr_loop (S f) m h buf (Z.of_nat p) hdr = nfattr_loop (S f) m h buf (Z.of_nat p) hdr) by reflexivity.
    setoid_rewrite (loop_step m h buf V HL HB) in STEP at 2. rewrite STEP.
    change (decl m h buf p) with (attr_len m b p) in *. change (atyp m h buf p) with (attr_type m b p) in *. fold L in STEP |- *.
    destruct (Nat.ltb_spec p L) as [A|A]; [|exact I].
    destruct (Nat.ltb_spec L (p + 4)) as [C|C]; [exact I|].
    destruct (Nat.leb_spec (p + attr_len m b p) L) as [D|D]; [|exact I].
    assert (CO : attr_complete m b p) by (split; [exact Hs|rewrite LB; auto]).
    fold (next p) in STEP |- *.
    assert (Hn : attr_start m b (next p)) by (apply attr_start_next; [exact Hs|rewrite LB; auto..]).
    assert (Hm' : Nat.modulo (next p) 4 = 0%nat) by apply al4_spec.
    assert (RQ : requested hdr0 (attr_type m b p) =
       if attr_type m b p <? nfqaMax then match amap_get hdr (attr_type m b p) with Some _ => true | None => false end else false).
    { rewrite <- Hr. unfold requested, nfqaMax. destruct (_ <? 11); reflexivity. }
    (* going on after an attribute that is not fatal *)
    assert (GO : forall hdr', (forall t, requested hdr' t = requested hdr0 t) -> ~ fatal_at m hdr0 b p -> (1 <= attr_len m b p)%nat ->
       (forall f, nfattr_loop (S f) m h buf (Z.of_nat p) hdr = nfattr_loop f m h buf (Z.of_nat (next p)) hdr') ->
       match nfattr_loop fuel m h buf (Z.of_nat (next p)) hdr' with
       | Ok _ => True
       | Panic => exists p', crashes_at m hdr0 b p' /\ fine_before m hdr0 b p'
       | NoFuel => (exists p', hangs_at m hdr0 b p' /\ fine_before m hdr0 b p') /\
                   forall f, nfattr_loop f m h buf (Z.of_nat p) hdr = NoFuel
       end).
    { intros hdr' Hr' NF L1 ST.
      assert (PR : (p + 4 <= next p)%nat) by (unfold next; pose proof (al4_spec (p + attr_len m b p)) as [X Y]; clear - X Y L1 Hm; lia).
      assert (FB : fine_before m hdr0 b (next p)).
      { intros p' Lp FA. assert (SP : attr_start m b p') by (destruct FA as [[[X _] _]|[[X _] _]]; exact X).
        pose proof (start_gap p p' Hs SP Lp) as LE. destruct (Nat.eq_dec p' p) as [->|NE]; [exact (NF FA)|].
        apply (Hf p'); [lia|exact FA]. }
      pose proof (IH (next p) hdr' Hn Hm' Hr' FB ltac:(lia)) as R.
      destruct (nfattr_loop fuel m h buf (Z.of_nat (next p)) hdr'); auto. destruct R as [R1 R2]. split; [exact R1|].
      intros [|f]; [reflexivity|]. rewrite ST. apply R2. }
    (* an attribute that holds the reader *)
    assert (HANG : attr_len m b p = 0%nat -> requested hdr0 (attr_type m b p) = false ->
       (forall f, nfattr_loop (S f) m h buf (Z.of_nat p) hdr = nfattr_loop f m h buf (Z.of_nat (next p)) hdr) ->
       nfattr_loop fuel m h buf (Z.of_nat (next p)) hdr = NoFuel /\
       (exists p', hangs_at m hdr0 b p' /\ fine_before m hdr0 b p') /\
       forall f, nfattr_loop f m h buf (Z.of_nat p) hdr = NoFuel).
    { intros Z0 NR ST. assert (NP : next p = p) by (unfold next; rewrite Z0; unfold al4; clear - Hm; lia). rewrite NP in *.
      assert (ALL : forall f, nfattr_loop f m h buf (Z.of_nat p) hdr = NoFuel)
        by (induction f as [|f IHf]; [reflexivity|rewrite ST; exact IHf]).
      split; [apply ALL|]. split; [|exact ALL]. exists p. split; [|exact Hf]. split; [exact CO|]. auto. }
    destruct (attr_type m b p <? nfqaMax) eqn:T.
    + destruct (amap_get hdr (attr_type m b p)) as [o|] eqn:G.
      * destruct (Nat.ltb_spec (attr_len m b p) 4) as [E|E].
        { exists p. split; [|exact Hf]. split; [exact CO|]. split; [exact E|exact RQ]. }
        apply GO; [|intros [(_ & X & _)|(_ & X & _)]; lia|lia|exact STEP]. intros t. rewrite requested_set. apply Hr.
      * destruct (Nat.eq_dec (attr_len m b p) 0) as [Z0|Z0].
        { destruct (HANG Z0 RQ STEP) as (X & Y). rewrite X. exact Y. }
        apply GO; [exact Hr| |lia|exact STEP]. intros [(_ & _ & X)|(_ & X & _)]; congruence.
    + destruct (Nat.eq_dec (attr_len m b p) 0) as [Z0|Z0].
      { destruct (HANG Z0 RQ STEP) as (X & Y). rewrite X. exact Y. }
      apply GO; [exact Hr| |lia|exact STEP]. intros [(_ & _ & X)|(_ & X & _)]; congruence.
Qed.
End OUT.

Lemma attr_parser_outcome m h buf tbl fuel :
  valid h buf -> is_bytes (rd h buf) -> Z.of_nat (s_len buf) <= 4294967292 -> (s_len buf / 4 + 1 < fuel)%nat ->
  match NetlinkMessageToNfAttrStruct fuel m h buf tbl with
  | Ok _ => forall p, ~ fatal_at m tbl (rd h buf) p
  | Panic => exists p, crashes_at m tbl (rd h buf) p /\ fine_before m tbl (rd h buf) p
  | NoFuel => (exists p, hangs_at m tbl (rd h buf) p /\ fine_before m tbl (rd h buf) p) /\
              forall fuel', NetlinkMessageToNfAttrStruct fuel' m h buf tbl = NoFuel
  end.
Proof.
  intros V HB HL HF.
  pose proof (loop_outcome m h buf V HL HB tbl fuel 0%nat tbl (attr_start_0 _ _) eq_refl (fun _ => eq_refl)) as O.
  assert (FB0 : fine_before m tbl (rd h buf) 0) by (intros p' X; lia).
  assert (LF : (al4 (s_len buf) < 0 + 4 * fuel)%nat) by (unfold al4; lia).
  specialize (O FB0 LF). change (Z.of_nat 0) with 0 in O.
  unfold NetlinkMessageToNfAttrStruct at 1.
  destruct (nfattr_loop fuel m h buf 0 tbl) as [[[tb i] er]| |] eqn:E; cbn [rbind].
  - assert (OK : exists r, NetlinkMessageToNfAttrStruct fuel m h buf tbl = Ok r).
    { pose proof (loop_i_nonneg fuel m h buf V HB HL 0%nat tbl _ E) as Hi. cbn [fst snd] in Hi.
      unfold NetlinkMessageToNfAttrStruct. rewrite E. cbn [rbind]. destruct er as [x|]; [eauto|].
      destruct (Z.leb_spec (Z.of_nat (s_len buf)) i) as [A|A]; [eauto|]. destruct Hi; [lia|congruence]. }
    assert (NF : forall p, ~ fatal_at m tbl (rd h buf) p).
    { destruct OK as [r OK]. intros p FA.
      pose proof (proj1 (attr_parser_returns_iff m h buf tbl V HB HL) (ex_intro _ fuel (ex_intro _ r OK)) p) as X.
      destruct FA as [(C & A & R)|(C & A & R)]; destruct (X C) as [Y|[Y1 Y2]]; try lia; congruence. }
    destruct OK as [r OK]. unfold NetlinkMessageToNfAttrStruct in OK. rewrite E in OK. cbn [rbind] in OK. rewrite OK. exact NF.
  - exact O.
  - destruct O as [O1 O2]. split; [exact O1|]. intros f. unfold NetlinkMessageToNfAttrStruct. now rewrite O2.
Qed.
