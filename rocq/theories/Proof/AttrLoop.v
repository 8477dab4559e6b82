(** The attribute parser (C04, C05). *)
From Verif Require Export Proof.CommonFacts Spec.Netlink Spec.AttrTable.

(** ** num and the code's readers agree *)
Lemma num2 e b : (2 <= length b)%nat -> get16 e b = Ok (num e (field b 0 2)).
Proof.
  intros H. destruct b as [|x [|y b]]; cbn in H; try lia.
  destruct e; cbn; f_equal; lia.
Qed.
Lemma num4 e b : (4 <= length b)%nat -> get32 e b = Ok (num e (field b 0 4)).
Proof.
  intros H. destruct b as [|x [|y [|z [|w b]]]]; cbn in H; try lia.
  destruct e; cbn; f_equal; lia.
Qed.
Lemma field_skipn b o p n : field (skipn o b) p n = field b (o + p) n.
Proof. unfold field. rewrite skipn_skipn. do 2 f_equal. lia. Qed.
Lemma field_length b o n : (o + n <= length b)%nat -> length (field b o n) = n.
Proof. intros H. unfold field. rewrite firstn_length, skipn_length. lia. Qed.
Lemma num2_at e b o : (o + 2 <= length b)%nat -> get16 e (skipn o b) = Ok (num e (field b o 2)).
Proof.
  intros H. rewrite num2 by (rewrite skipn_length; lia). rewrite field_skipn, Nat.add_0_r. reflexivity.
Qed.
Lemma num4_at e b o : (o + 4 <= length b)%nat -> get32 e (skipn o b) = Ok (num e (field b o 4)).
Proof.
  intros H. rewrite num4 by (rewrite skipn_length; lia). rewrite field_skipn, Nat.add_0_r. reflexivity.
Qed.
Lemma num2_range e b o : is_bytes b -> (o + 2 <= length b)%nat -> is_u16 (num e (field b o 2)).
Proof.
  intros Hb H. eapply get16_range; [apply is_bytes_skipn, Hb|]. apply num2_at, H.
Qed.
Lemma al4_spec n : (n <= al4 n < n + 4 /\ Nat.modulo (al4 n) 4 = 0)%nat.
Proof. unfold al4. pose proof (Nat.div_mod_eq (n + 3) 4). pose proof (Nat.mod_upper_bound (n+3) 4). 
  split; [lia|]. rewrite Nat.mul_comm. apply Nat.mod_mul. lia. Qed.
Lemma al4_Z n : Z.of_nat (al4 n) = 4 * ((Z.of_nat n + 3) / 4).
Proof. pose proof (al4_spec n) as [A B]. lia. Qed.

(** ** One iteration *)
Section LOOP.
Context (m : endian) (h : heap) (buf : slice).
Hypothesis V : valid h buf.
Hypothesis HL : Z.of_nat (s_len buf) <= 4294967292.
Hypothesis HB : is_bytes (rd h buf).
Let B := rd h buf.
Let L := s_len buf.

Definition decl (p : nat) : nat := Z.to_nat (num m (field B p 2)).
Definition atyp (p : nat) : Z := num m (field B (p + 2) 2).

Lemma decl_Z p : (p + 4 <= L)%nat -> Z.of_nat (decl p) = num m (field B p 2).
Proof.
  intros H. unfold decl. apply Z2Nat.id.
  assert (is_u16 (num m (field B p 2))) as [? ?];
    [|assumption]. apply num2_range; [exact HB|]. unfold B. rewrite valid_len by exact V.
  fold L. lia.
Qed.
Lemma decl_range p : (p + 4 <= L)%nat -> (Z.of_nat (decl p) < 65536).
Proof.
  intros H. rewrite decl_Z by exact H.
  assert (is_u16 (num m (field B p 2))) as [? ?];
    [|assumption]. apply num2_range; [exact HB|]. unfold B. rewrite valid_len by exact V.
  fold L. lia.
Qed.

Lemma loop_step fuel p hdr :
  nfattr_loop (S fuel) m h buf (Z.of_nat p) hdr =
  if (p <? L)%nat then
    if (L <? p + 4)%nat then Ok (hdr, Z.of_nat p + 4, None)
    else if (p + decl p <=? L)%nat then
           if atyp p <? nfqaMax then
             match amap_get hdr (atyp p) with
             | None => nfattr_loop fuel m h buf (Z.of_nat (al4 (p + decl p))) hdr
             | Some _ =>
                 if (decl p <? 4)%nat then Panic
                 else nfattr_loop fuel m h buf (Z.of_nat (al4 (p + decl p)))
                        (amap_set hdr (atyp p)
                           (mkSl (s_arr buf) (s_off buf + (p + 4)) (decl p - 4)
                                 (s_cap buf - (p + 4))))
             end
           else nfattr_loop fuel m h buf (Z.of_nat (al4 (p + decl p))) hdr
         else Ok (hdr, Z.of_nat p + 4, Some EBadAttr)
  else Ok (hdr, Z.of_nat p, None).
Proof.
  cbn [nfattr_loop]. fold L. pose proof (valid_len _ _ V) as HLen. fold B L in HLen.
  destruct V as [Vc _].
  destruct (Z.ltb_spec (Z.of_nat p) (Z.of_nat L)) as [A|A];
    destruct (Nat.ltb_spec p L) as [A'|A']; try lia; [|reflexivity].
  destruct (Z.ltb_spec (Z.of_nat L) (Z.of_nat p + 4)) as [C|C];
    destruct (Nat.ltb_spec L (p + 4)) as [C'|C']; try lia; [reflexivity|].
  rewrite !resl_from_ok by (fold L; lia). cbn [rbind].
  rewrite !rd_from, NativeEndian_id. fold B.
  replace (Z.to_nat (Z.of_nat p)) with p by lia.
  replace (Z.to_nat (Z.of_nat p + 2)) with (p + 2)%nat by lia.
  rewrite num2_at by lia. cbn [rbind]. rewrite num2_at by lia. cbn [rbind].
  fold (atyp p). rewrite <- decl_Z by lia. pose proof (decl_range p C') as HR.
  replace (Z.of_nat p + 4 + Z.of_nat (decl p) - 4) with (Z.of_nat (p + decl p)) by lia.
  destruct (Z.leb_spec (Z.of_nat (p + decl p)) (Z.of_nat L)) as [D|D];
    destruct (Nat.leb_spec (p + decl p) L) as [D'|D']; try lia; [|reflexivity].
  assert (HN : NfaAlign32 (u32 (Z.of_nat (p + decl p))) = Z.of_nat (al4 (p + decl p))).
  { unfold u32. fold L in HL. rewrite Z.mod_small by lia. rewrite NfaAlign32_spec by (red; lia).
    rewrite al4_Z. destruct (Z.leb_spec (Z.of_nat (p + decl p)) 4294967292); lia. }
  rewrite HN. destruct (atyp p <? nfqaMax); [|reflexivity].
  destruct (amap_get hdr (atyp p)) as [o|]; [|reflexivity].
  destruct (Nat.ltb_spec (decl p) 4) as [E|E].
  - unfold reslice. destruct (Z.leb_spec (Z.of_nat p + 4) (Z.of_nat (p + decl p))); [lia|].
    rewrite andb_false_r. reflexivity.
  - rewrite reslice_ok by (fold L; lia). cbn [rbind]. f_equal. f_equal. f_equal; lia.
Qed.

(** ** Exactly when it returns *)
Inductive visited : nat -> Prop :=
| visited_0 : visited 0%nat
| visited_next p : visited p -> (p + 4 <= L)%nat -> (p + decl p <= L)%nat ->
                   visited (al4 (p + decl p)).

Definition good (hdr : attrmap) (p : nat) : Prop :=
  (4 <= decl p \/ 1 <= decl p /\ requested hdr (atyp p) = false)%nat.

Lemma amap_get_set hdr t k s :
  amap_get (amap_set hdr k s) t =
  if k =? t then match amap_get hdr t with Some _ => Some s | None => None end
  else amap_get hdr t.
Proof.
  induction hdr as [|[k' s'] hdr IH]; cbn; [destruct (k =? t); reflexivity|].
  destruct (Z.eqb_spec k' k) as [E|E]; cbn.
  - subst k'. destruct (Z.eqb_spec k t); reflexivity.
  - destruct (Z.eqb_spec k' t) as [F|F].
    + destruct (Z.eqb_spec k t); [congruence|reflexivity].
    + exact IH.
Qed.
Lemma requested_set hdr k s t : requested (amap_set hdr k s) t = requested hdr t.
Proof.
  unfold requested. rewrite amap_get_set.
  destruct (k =? t); [|reflexivity]. destruct (amap_get hdr t); reflexivity.
Qed.

Lemma loop_returns hdr0 :
  (forall p, visited p -> (p + 4 <= L)%nat -> (p + decl p <= L)%nat -> good hdr0 p) ->
  forall fuel p hdr, visited p -> (Nat.modulo p 4 = 0)%nat ->
    (forall t, requested hdr t = requested hdr0 t) ->
    (al4 L < p + 4 * fuel)%nat ->
    exists r, nfattr_loop fuel m h buf (Z.of_nat p) hdr = Ok r.
Proof.
  intros HG. induction fuel as [|fuel IH]; intros p hdr Hv Hp Hr Hf.
  - exfalso. clear - Hv Hf Hp.
    assert (p <= al4 L)%nat; [|lia].
    destruct Hv as [|p Hv H1 H2]; [lia|]. unfold al4. lia.
  - rewrite loop_step.
    destruct (Nat.ltb_spec p L) as [A|A]; [|eauto].
    destruct (Nat.ltb_spec L (p + 4)) as [C|C]; [eauto|].
    destruct (Nat.leb_spec (p + decl p) L) as [D|D]; [|eauto].
    pose proof (HG p Hv C D) as G.
    assert (Hprog : (p + 4 <= al4 (p + decl p))%nat).
    { pose proof (al4_spec (p + decl p)) as [X Y]. destruct G as [G|[G _]]; [lia|].
      clear - X Y G Hp. lia. }
    assert (Hn : visited (al4 (p + decl p))) by (constructor; assumption).
    assert (Hm : Nat.modulo (al4 (p + decl p)) 4 = 0%nat) by apply al4_spec.
    destruct (atyp p <? nfqaMax) eqn:T.
    + destruct (amap_get hdr (atyp p)) as [o|] eqn:G2.
      * assert (R : requested hdr0 (atyp p) = true).
        { rewrite <- Hr. unfold requested. rewrite G2. unfold nfqaMax in T. rewrite T. reflexivity. }
        destruct (Nat.ltb_spec (decl p) 4) as [E|E].
        { destruct G as [G|[_ G]]; [lia|congruence]. }
        apply IH; auto; try lia. intros t. rewrite requested_set. apply Hr.
      * apply IH; auto; lia.
    + apply IH; auto; lia.
Qed.


Lemma loop_reaches hdr0 fuel0 p : visited p ->
  (exists hdr fuel, (forall t, requested hdr t = requested hdr0 t) /\
     nfattr_loop fuel0 m h buf 0 hdr0 = nfattr_loop fuel m h buf (Z.of_nat p) hdr)
  \/ forall r, nfattr_loop fuel0 m h buf 0 hdr0 <> Ok r.
Proof.
intros Hv. induction Hv as [|p Hv IH H1 H2].
    - left. exists hdr0, fuel0. split; [reflexivity|reflexivity].
    - destruct IH as [(hdr & fuel & Hr & E)|IH]; [|right; exact IH].
      destruct fuel as [|fuel].
      + right. intros r. rewrite E. cbn. discriminate.
      + rewrite E, loop_step.
        destruct (Nat.ltb_spec p L) as [A|A]; [|lia].
        destruct (Nat.ltb_spec L (p + 4)) as [C|C]; [lia|].
        destruct (Nat.leb_spec (p + decl p) L) as [D|D]; [|lia].
        destruct (atyp p <? nfqaMax) eqn:T; [|left; eauto].
        destruct (amap_get hdr (atyp p)) as [o|] eqn:G2; [|left; eauto].
        destruct (Nat.ltb_spec (decl p) 4) as [F|F]; [right; discriminate|].
        left. eexists _, fuel. split; [|reflexivity]. intros t. rewrite requested_set. apply Hr.
Qed.

(** a bad header stops it from ever returning *)
Lemma loop_stuck hdr0 p0 :
  visited p0 -> (p0 + 4 <= L)%nat -> (p0 + decl p0 <= L)%nat -> ~ good hdr0 p0 ->
  forall fuel r, nfattr_loop fuel m h buf 0 hdr0 <> Ok r.
Proof.
  intros Hv0 H4 Hd Hbad.
  intros fuel0 r. destruct (loop_reaches hdr0 fuel0 p0 Hv0) as [(hdr & fuel & Hr & E)|N]; [|apply N].
  rewrite E. clear E.
  assert (Hm : Nat.modulo p0 4 = 0%nat).
  { destruct Hv0 as [|p Hv H1 H2]; [reflexivity|]. apply al4_spec. }
  revert hdr Hr. induction fuel as [|fuel IH]; intros hdr Hr; [discriminate|].
  rewrite loop_step.
  destruct (Nat.ltb_spec p0 L) as [A|A]; [|lia].
  destruct (Nat.ltb_spec L (p0 + 4)) as [C|C]; [lia|].
  destruct (Nat.leb_spec (p0 + decl p0) L) as [D|D]; [|lia].
  destruct (requested hdr0 (atyp p0)) eqn:R.
  - pose proof R as R2. rewrite <- Hr in R2. unfold requested in R2.
    unfold nfqaMax. destruct (atyp p0 <? 11); [|discriminate].
    destruct (amap_get hdr (atyp p0)) as [o|]; [|discriminate].
    destruct (Nat.ltb_spec (decl p0) 4) as [F|F]; [discriminate|].
    exfalso. apply Hbad. left. exact F.
  - assert (Hz : decl p0 = 0%nat).
    { destruct (decl p0) as [|k] eqn:Ek; [reflexivity|]. exfalso. apply Hbad.
      right. split; [lia|exact R]. }
    assert (Hs : al4 (p0 + decl p0) = p0) by (rewrite Hz; unfold al4; lia).
    rewrite Hs. pose proof R as R2. rewrite <- Hr in R2. unfold requested in R2.
    unfold nfqaMax. destruct (atyp p0 <? 11) eqn:T; [|apply IH, Hr].
    destruct (amap_get hdr (atyp p0)) as [o|]; [discriminate|]. apply IH, Hr.
Qed.

(** whatever it hands out lies inside the input *)
Lemma loop_inside fuel : forall p hdr hdr' i er,
  nfattr_loop fuel m h buf (Z.of_nat p) hdr = Ok (hdr', i, er) ->
  forall t s, amap_get hdr' t = Some s -> amap_get hdr t = Some s \/ window_in buf s.
Proof.
  induction fuel as [|fuel IH]; intros p hdr hdr' i er; [discriminate|].
  rewrite loop_step.
  destruct (Nat.ltb_spec p L) as [A|A].
  2:{ intros E t s. injection E as <- <- <-. auto. }
  destruct (Nat.ltb_spec L (p + 4)) as [C|C].
  { intros E t s. injection E as <- <- <-. auto. }
  destruct (Nat.leb_spec (p + decl p) L) as [D|D].
  2:{ intros E t s. injection E as <- <- <-. auto. }
  destruct (atyp p <? nfqaMax) eqn:T; [|apply IH].
  destruct (amap_get hdr (atyp p)) as [o|] eqn:G2; [|apply IH].
  destruct (Nat.ltb_spec (decl p) 4) as [F|F]; [discriminate|].
  intros E t s Hs. destruct (IH _ _ _ _ _ E t s Hs) as [K|K]; [|auto].
  rewrite amap_get_set in K. destruct (Z.eqb_spec (atyp p) t) as [Q|Q]; [|auto].
  destruct (amap_get hdr t); [|discriminate]. injection K as <-. right.
  unfold window_in. cbn. fold L. lia.
Qed.

(** ** Well-formed input *)
Lemma loop_fills d : forall p l hdr fuel,
  attrs_go d m (skipn p B) = Some l -> (Nat.modulo p 4 = 0)%nat -> (length l < fuel)%nat ->
  exists hdr' i, nfattr_loop fuel m h buf (Z.of_nat p) hdr = Ok (hdr', i, None) /\ Z.of_nat L <= i /\ table_filled h buf l hdr hdr'.
Proof.
  pose proof (valid_len _ _ V) as HLen. fold B L in HLen.
  induction d as [|d IH]; intros p l hdr fuel; [discriminate|].
  cbn [attrs_go]. intros Hd Hp Hf.
  destruct fuel as [|fuel]; [lia|]. rewrite loop_step.
  destruct (Nat.ltb_spec p L) as [A|A].
  2:{ rewrite skipn_all2 in Hd by lia. injection Hd as <-.
      exists hdr, (Z.of_nat p). split; [reflexivity|]. split; [lia|].
      intros t. cbn. auto. }
  assert (Hne : skipn p B <> []).
  { intros E. apply (f_equal (@length Z)) in E. rewrite skipn_length in E. cbn in E. lia. }
  destruct (skipn p B) as [|b0 bs] eqn:Es; [congruence|]. rewrite <- Es in *. clear Hne b0 bs Es.
  rewrite !field_skipn, !skipn_length, skipn_skipn in Hd. rewrite Nat.add_0_r in Hd.
  fold (atyp p) in Hd. fold (decl p) in Hd.
  destruct (Nat.ltb_spec (length B - p) 4) as [C|C]; [discriminate|].
  destruct (Nat.ltb_spec (decl p) 4) as [F|F]; [discriminate|].
  destruct (Nat.ltb_spec (length B - p) (decl p)) as [D|D]; [discriminate|].
  cbn [orb] in Hd.
  replace (al4 (decl p) + p)%nat with (al4 (p + decl p)) in Hd by (unfold al4; lia).
  destruct (attrs_go d m (skipn (al4 (p + decl p)) B)) as [rest|] eqn:Er; [|discriminate].
  injection Hd as <-.
  destruct (Nat.ltb_spec L (p + 4)) as [C'|C']; [lia|].
  destruct (Nat.leb_spec (p + decl p) L) as [D'|D']; [|lia].
  assert (Hm : Nat.modulo (al4 (p + decl p)) 4 = 0%nat) by apply al4_spec.
  cbn [length] in Hf.
  assert (Skip : requested hdr (atyp p) = false ->
     exists hdr' i, nfattr_loop fuel m h buf (Z.of_nat (al4 (p + decl p))) hdr = Ok (hdr', i, None) /\ Z.of_nat L <= i /\ table_filled h buf ((atyp p, field B (p + 4) (decl p - 4)) :: rest) hdr hdr').
  { intros R. destruct (IH (al4 (p + decl p)) rest hdr fuel Er Hm) as (hdr' & i & E1 & E2 & E3); [lia|].
    exists hdr', i. split; [exact E1|]. split; [exact E2|]. intros t.
    destruct (E3 t) as [F1 F2]. split; [exact F1|]. intros R'.
    specialize (F2 R'). cbn [last_attr]. destruct (last_attr t rest); [exact F2|].
    destruct (Z.eqb_spec (atyp p) t) as [Q|Q]; [congruence|exact F2]. }
  destruct (atyp p <? nfqaMax) eqn:T.
  2:{ apply Skip. unfold requested. unfold nfqaMax in T. rewrite T. reflexivity. }
  destruct (amap_get hdr (atyp p)) as [o|] eqn:G2.
  2:{ apply Skip. unfold requested. rewrite G2. apply andb_false_r. }
  destruct (Nat.ltb_spec (decl p) 4) as [F'|_]; [lia|].
  set (s0 := mkSl (s_arr buf) (s_off buf + (p + 4)) (decl p - 4) (s_cap buf - (p + 4))).
  destruct (IH (al4 (p + decl p)) rest (amap_set hdr (atyp p) s0) fuel Er Hm)
    as (hdr' & i & E1 & E2 & E3); [lia|].
  exists hdr', i. split; [exact E1|]. split; [exact E2|]. intros t.
  destruct (E3 t) as [F1 F2]. rewrite requested_set, amap_get_set in F1, F2.
  destruct (Z.eqb_spec (atyp p) t) as [Q|Q].
  - subst t. assert (R : requested hdr (atyp p) = true).
    { unfold requested. rewrite G2. unfold nfqaMax in T. rewrite T. reflexivity. }
    split; [congruence|]. intros _. specialize (F2 R). cbn [last_attr].
    destruct (last_attr (atyp p) rest) as [v|]; [exact F2|].
    rewrite Z.eqb_refl. exists s0. rewrite G2 in F2. split; [exact F2|]. split.
    + unfold s0. rewrite rd_window by (fold L; lia). reflexivity.
    + unfold window_in, s0. cbn. fold L. lia.
  - split; [exact F1|]. intros R. specialize (F2 R). cbn [last_attr].
    destruct (last_attr t rest) as [v|]; [exact F2|].
    destruct (Z.eqb_spec (atyp p) t); [congruence|]. exact F2.
Qed.

(** the "Bad Attr" error *)
Lemma loop_error_sound fuel : forall p hdr hdr' i er, visited p ->
  nfattr_loop fuel m h buf (Z.of_nat p) hdr = Ok (hdr', i, er) ->
  er = None \/ er = Some EBadAttr /\
    exists q, visited q /\ (q + 4 <= L)%nat /\ (L < q + decl q)%nat.
Proof.
  induction fuel as [|fuel IH]; intros p hdr hdr' i er Hv; [discriminate|].
  rewrite loop_step.
  destruct (Nat.ltb_spec p L) as [A|A]; [|intros E; injection E as <- <- <-; auto].
  destruct (Nat.ltb_spec L (p + 4)) as [C|C]; [intros E; injection E as <- <- <-; auto|].
  destruct (Nat.leb_spec (p + decl p) L) as [D|D]; [|intros E; injection E as <- <- <-; eauto 6].
  assert (Hn : visited (al4 (p + decl p))) by (constructor; assumption).
  destruct (atyp p <? nfqaMax); [|apply IH, Hn].
  destruct (amap_get hdr (atyp p)); [|apply IH, Hn].
  destruct (decl p <? 4)%nat; [discriminate|]. apply IH, Hn.
Qed.
Lemma loop_error_complete q : visited q -> (q + 4 <= L)%nat -> (L < q + decl q)%nat ->
  forall fuel hdr hdr' i er, nfattr_loop fuel m h buf 0 hdr = Ok (hdr', i, er) -> er = Some EBadAttr.
Proof.
  intros Hv H4 Hd fuel hdr hdr' i er E.
  destruct (loop_reaches hdr fuel q Hv) as [(hdr1 & fuel1 & _ & E1)|N]; [|exfalso; eapply N; eauto].
  rewrite E1 in E. destruct fuel1 as [|fuel1]; [discriminate|]. rewrite loop_step in E.
  destruct (Nat.ltb_spec q L) as [A|A]; [|lia].
  destruct (Nat.ltb_spec L (q + 4)) as [C|C]; [lia|].
  destruct (Nat.leb_spec (q + decl q) L) as [D|D]; [lia|]. injection E as <- <- <-. reflexivity.
Qed.
End LOOP.
