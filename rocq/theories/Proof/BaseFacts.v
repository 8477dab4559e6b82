(** Lemma library over Go/Base.v and Go/Heap.v. *)
From Coq Require Export ZifyBool ZifyNat.
From Verif Require Export Go.Heap.
Ltac Zify.zify_post_hook ::= Z.div_mod_to_equations.

Lemma zlen_app {A} (a b : list A) : zlen (a ++ b) = zlen a + zlen b.
Proof. unfold zlen; rewrite app_length; lia. Qed.
Lemma zlen_nonneg {A} (a : list A) : 0 <= zlen a.
Proof. unfold zlen; lia. Qed.

(** ** lists *)
Lemma skipn_skipn {A} x y (l : list A) : skipn x (skipn y l) = skipn (x + y) l.
Proof.
  revert l; induction y as [|y IH]; intros l; [now rewrite Nat.add_0_r|].
  rewrite Nat.add_succ_r. destruct l as [|a l]; [now rewrite !skipn_nil|]. cbn. apply IH.
Qed.
Lemma firstn_skipn_app {A} (l : list A) n m :
  firstn m (skipn n l) ++ skipn (n + m) l = skipn n l.
Proof. rewrite Nat.add_comm, <- skipn_skipn. apply firstn_skipn. Qed.

Lemma firstn_app_exact {A} (a b : list A) n : length a = n -> firstn n (a ++ b) = a.
Proof. intros <-. rewrite firstn_app, Nat.sub_diag, firstn_all. cbn. apply app_nil_r. Qed.
Lemma skipn_app_exact {A} (a b : list A) n : length a = n -> skipn n (a ++ b) = b.
Proof. intros <-. rewrite skipn_app, Nat.sub_diag, skipn_all. reflexivity. Qed.
Lemma skipn_app_ge {A} (a b : list A) n :
  (length a <= n)%nat -> skipn n (a ++ b) = skipn (n - length a) b.
Proof. intros H. rewrite skipn_app, skipn_all2 by assumption. reflexivity. Qed.
Lemma firstn_app_le {A} (a b : list A) n :
  (n <= length a)%nat -> firstn n (a ++ b) = firstn n a.
Proof.
  intros H. rewrite firstn_app. replace (n - length a)%nat with O by lia.
  cbn. apply app_nil_r.
Qed.
Lemma skipn_app_le {A} (a b : list A) n :
  (n <= length a)%nat -> skipn n (a ++ b) = skipn n a ++ b.
Proof.
  intros H. rewrite skipn_app. replace (n - length a)%nat with O by lia. reflexivity.
Qed.
Lemma firstn_skipn_comm' {A} (l : list A) n m :
  firstn m (skipn n l) = skipn n (firstn (n + m) l).
Proof. apply firstn_skipn_comm. Qed.
Lemma firstn_is_app {A} (l : list A) n m :
  (n <= m)%nat -> firstn m l = firstn n l ++ firstn (m - n) (skipn n l).
Proof.
  intros H. rewrite <- (firstn_skipn n (firstn m l)).
  rewrite firstn_firstn, Nat.min_l by lia. f_equal.
  rewrite firstn_skipn_comm. f_equal. f_equal. lia.
Qed.

Lemma nth_ext_len {A} (a b : list A) d :
  length a = length b ->
  (forall i, (i < length a)%nat -> nth i a d = nth i b d) -> a = b.
Proof. intros Hl H. apply nth_ext with d d; auto. Qed.

Lemma nth_skipn' {A} (l : list A) i n d : nth i (skipn n l) d = nth (n + i) l d.
Proof.
  revert l; induction n as [|n IH]; intros l; [reflexivity|].
  destruct l as [|x l]; cbn; [destruct i; reflexivity|apply IH].
Qed.
Lemma nth_firstn' {A} (l : list A) i n d :
  (i < n)%nat -> nth i (firstn n l) d = nth i l d.
Proof.
  revert l i; induction n as [|n IH]; intros l i H; [lia|].
  destruct l as [|x l]; [destruct i; reflexivity|].
  destruct i as [|i]; cbn; [reflexivity|]. apply IH. lia.
Qed.

Lemma length_sub l lo hi : length (sub l lo hi) = Nat.min (hi - lo) (length l - lo).
Proof. unfold sub. rewrite firstn_length, skipn_length. reflexivity. Qed.
Lemma nth_sub l lo hi i d :
  (i < hi - lo)%nat -> nth i (sub l lo hi) d = nth (lo + i) l d.
Proof. intros H. unfold sub. rewrite nth_firstn' by assumption. apply nth_skipn'. Qed.
Lemma sub_all l : sub l 0 (length l) = l.
Proof. unfold sub. rewrite Nat.sub_0_r. cbn. apply firstn_all. Qed.
Lemma sub_sub l a b c d :
  (a + d <= b)%nat -> sub (sub l a b) c d = sub l (a + c) (a + d).
Proof.
  intros H. apply nth_ext_len with 0.
  - rewrite !length_sub. lia.
  - intros i Hi. rewrite !length_sub in Hi. rewrite !nth_sub by lia. f_equal. lia.
Qed.
Lemma sub_app_split l a b c :
  (a <= b <= c)%nat -> sub l a c = sub l a b ++ sub l b c.
Proof.
  intros H. unfold sub. rewrite (firstn_is_app _ (b - a) (c - a)) by lia.
  f_equal. rewrite skipn_skipn. f_equal; [lia|f_equal; lia].
Qed.

(** ** splice *)
Lemma splice_length l o v :
  (o + length v <= length l)%nat -> length (splice l o v) = length l.
Proof.
  intros H. unfold splice. rewrite !app_length, firstn_length, skipn_length. lia.
Qed.
Lemma splice_length_gen l o v :
  length (splice l o v) = (Nat.min o (length l) + length v + (length l - (o + length v)))%nat.
Proof. unfold splice. rewrite !app_length, firstn_length, skipn_length. lia. Qed.
Lemma nth_splice l o v i d :
  (o + length v <= length l)%nat ->
  nth i (splice l o v) d =
  if (o <=? i)%nat && (i <? o + length v)%nat then nth (i - o) v d else nth i l d.
Proof.
  intros H. unfold splice.
  assert (Hf : length (firstn o l) = o) by (rewrite firstn_length; lia).
  destruct (Nat.leb_spec o i) as [A|A]; cbn [andb].
  - rewrite app_nth2 by lia. rewrite Hf.
    destruct (Nat.ltb_spec i (o + length v)) as [B|B].
    + rewrite app_nth1 by lia. reflexivity.
    + rewrite app_nth2 by lia. rewrite nth_skipn'. f_equal. lia.
  - rewrite app_nth1 by lia. apply nth_firstn'. lia.
Qed.
Lemma splice_nil l o : splice l o [] = l.
Proof. unfold splice. cbn. rewrite Nat.add_0_r. apply firstn_skipn. Qed.
Lemma splice_app3 (a b c v : bytes) o :
  length a = o -> length b = length v -> splice (a ++ b ++ c) o v = a ++ v ++ c.
Proof.
  intros Ha Hb. unfold splice. rewrite firstn_app_exact by assumption. do 2 f_equal.
  rewrite app_assoc. apply skipn_app_exact. rewrite app_length. lia.
Qed.
Lemma splice_full l v : length v = length l -> splice l 0 v = v.
Proof.
  intros H. unfold splice. cbn. rewrite H, skipn_all. apply app_nil_r.
Qed.
Lemma splice_splice_same l o v w :
  length v = length w -> (o + length v <= length l)%nat ->
  splice (splice l o v) o w = splice l o w.
Proof.
  intros H Hl. apply nth_ext_len with 0.
  - rewrite !splice_length; rewrite ?splice_length; lia.
  - intros i _. rewrite !nth_splice; rewrite ?splice_length; try lia.
    destruct (Nat.leb_spec o i), (Nat.ltb_spec i (o + length w)),
      (Nat.ltb_spec i (o + length v)); cbn [andb]; auto; lia.
Qed.
Lemma splice_self l o v :
  sub l o (o + length v) = v -> splice l o v = l.
Proof.
  intros H. unfold splice. unfold sub in H.
  replace (o + length v - o)%nat with (length v) in H by lia.
  rewrite <- H at 1. rewrite firstn_skipn_app. apply firstn_skipn.
Qed.
Lemma sub_splice_same l o v :
  (o + length v <= length l)%nat -> sub (splice l o v) o (o + length v) = v.
Proof.
  intros H. unfold sub, splice.
  rewrite skipn_app_exact by (rewrite firstn_length; lia).
  apply firstn_app_exact. lia.
Qed.
Lemma sub_splice_disj l o v a b :
  (o + length v <= length l)%nat -> (b <= o \/ o + length v <= a)%nat ->
  sub (splice l o v) a b = sub l a b.
Proof.
  intros H D. apply nth_ext_len with 0.
  - rewrite !length_sub, splice_length by lia. reflexivity.
  - intros i Hi. rewrite length_sub, splice_length in Hi by lia.
    rewrite !nth_sub by lia. rewrite nth_splice by lia.
    destruct (Nat.leb_spec o (a + i)), (Nat.ltb_spec (a + i) (o + length v));
      cbn [andb]; auto; lia.
Qed.
Lemma splice_comm l o v p w :
  (o + length v <= length l)%nat -> (p + length w <= length l)%nat ->
  (o + length v <= p \/ p + length w <= o)%nat ->
  splice (splice l o v) p w = splice (splice l p w) o v.
Proof.
  intros H1 H2 D. apply nth_ext_len with 0.
  - rewrite !splice_length; rewrite ?splice_length; lia.
  - intros i _. rewrite !nth_splice; rewrite ?splice_length; try lia.
    destruct (Nat.leb_spec o i), (Nat.ltb_spec i (o + length v)),
      (Nat.leb_spec p i), (Nat.ltb_spec i (p + length w)); cbn [andb]; auto; lia.
Qed.

(** ** bytes *)
Lemma is_bytes_app a b : is_bytes (a ++ b) <-> is_bytes a /\ is_bytes b.
Proof. apply Forall_app. Qed.
Lemma is_bytes_firstn n l : is_bytes l -> is_bytes (firstn n l).
Proof.
  intros H. apply Forall_forall. intros x Hx. rewrite <- (firstn_skipn n l) in H.
  apply is_bytes_app in H as [H _]. eapply Forall_forall in H; eauto.
Qed.
Lemma is_bytes_skipn n l : is_bytes l -> is_bytes (skipn n l).
Proof.
  intros H. rewrite <- (firstn_skipn n l) in H. apply is_bytes_app in H. tauto.
Qed.
Lemma is_bytes_sub l a b : is_bytes l -> is_bytes (sub l a b).
Proof. intros H. apply is_bytes_firstn, is_bytes_skipn, H. Qed.
Lemma is_bytes_splice l o v : is_bytes l -> is_bytes v -> is_bytes (splice l o v).
Proof.
  intros H1 H2. unfold splice. apply is_bytes_app; split; [apply is_bytes_firstn, H1|].
  apply is_bytes_app; split; [exact H2|apply is_bytes_skipn, H1].
Qed.
Lemma is_bytes_repeat n : is_bytes (repeat 0 n).
Proof. apply Forall_forall. intros x Hx. apply repeat_spec in Hx. subst. red; lia. Qed.
Lemma is_bytes_nth l i : is_bytes l -> is_byte (nth i l 0).
Proof.
  intros H. destruct (Nat.lt_ge_cases i (length l)) as [L|L].
  - eapply Forall_forall in H; [exact H|]. apply nth_In, L.
  - rewrite nth_overflow by lia. red; lia.
Qed.
Lemma is_byte_mod x : is_byte (x mod 256).
Proof. red; lia. Qed.
Lemma is_bytes_put16 e v : is_bytes (put16 e v).
Proof. destruct e; repeat (apply Forall_cons; [red; lia|]); apply Forall_nil. Qed.
Lemma is_bytes_put32 e v : is_bytes (put32 e v).
Proof. destruct e; repeat (apply Forall_cons; [red; lia|]); apply Forall_nil. Qed.
Lemma put16_length e v : length (put16 e v) = 2%nat.
Proof. destruct e; reflexivity. Qed.
Lemma put32_length e v : length (put32 e v) = 4%nat.
Proof. destruct e; reflexivity. Qed.

(** ** byte orders *)
Lemma get16_put16 e v r : get16 e (put16 e v ++ r) = Ok (v mod 65536).
Proof. destruct e; cbn; f_equal; lia. Qed.
Lemma get32_put32 e v r : get32 e (put32 e v ++ r) = Ok (v mod 4294967296).
Proof. destruct e; cbn; f_equal; lia. Qed.
Lemma put16_get16 e b v : is_bytes b -> get16 e b = Ok v -> put16 e v = firstn 2 b.
Proof.
  intros Hb H. destruct b as [|x [|y b]]; try discriminate.
  inversion Hb as [|? ? Hx Hb']; inversion Hb' as [|? ? Hy Hb'']; subst.
  red in Hx, Hy. destruct e; cbn in *; inversion H; subst; repeat f_equal; lia.
Qed.
Lemma put32_get32 e b v : is_bytes b -> get32 e b = Ok v -> put32 e v = firstn 4 b.
Proof.
  intros Hb H. destruct b as [|x [|y [|z [|w b]]]]; try discriminate.
  inversion Hb as [|? ? Hx Hb1]; inversion Hb1 as [|? ? Hy Hb2];
    inversion Hb2 as [|? ? Hz Hb3]; inversion Hb3 as [|? ? Hw Hb4]; subst.
  red in Hx, Hy, Hz, Hw. destruct e; cbn in *; inversion H; subst; repeat f_equal; lia.
Qed.
Lemma get16_range e b v : is_bytes b -> get16 e b = Ok v -> is_u16 v.
Proof.
  intros Hb H. destruct b as [|x [|y b]]; try discriminate.
  inversion Hb as [|? ? Hx Hb']; inversion Hb' as [|? ? Hy Hb'']; subst.
  red in Hx, Hy. destruct e; cbn in *; inversion H; subst; red; lia.
Qed.
Lemma get32_range e b v : is_bytes b -> get32 e b = Ok v -> is_u32 v.
Proof.
  intros Hb H. destruct b as [|x [|y [|z [|w b]]]]; try discriminate.
  inversion Hb as [|? ? Hx Hb1]; inversion Hb1 as [|? ? Hy Hb2];
    inversion Hb2 as [|? ? Hz Hb3]; inversion Hb3 as [|? ? Hw Hb4]; subst.
  red in Hx, Hy, Hz, Hw. destruct e; cbn in *; inversion H; subst; red; lia.
Qed.
Lemma get16_ok e b : (2 <= length b)%nat -> exists v, get16 e b = Ok v.
Proof. destruct b as [|x [|y b]]; cbn; intros; try lia; eauto. Qed.
Lemma get32_ok e b : (4 <= length b)%nat -> exists v, get32 e b = Ok v.
Proof. destruct b as [|x [|y [|z [|w b]]]]; cbn; intros; try lia; eauto. Qed.
Lemma get16_panic e b : (length b < 2)%nat -> get16 e b = Panic.
Proof. destruct b as [|x [|y b]]; cbn; intros; try lia; eauto. Qed.
Lemma get32_panic e b : (length b < 4)%nat -> get32 e b = Panic.
Proof. destruct b as [|x [|y [|z [|w b]]]]; cbn; intros; try lia; eauto. Qed.

(** ** bit masks *)
Lemma ldiff3 x : 0 <= x -> Z.ldiff x 3 = 4 * (x / 4).
Proof.
  intros H. change 3 with (Z.ones 2). rewrite Z.ldiff_ones_r by lia.
  rewrite Z.shiftl_mul_pow2, Z.shiftr_div_pow2 by lia. change (2 ^ 2) with 4. lia.
Qed.
Lemma land_ones' x n : 0 <= n -> Z.land x (Z.ones n) = x mod 2 ^ n.
Proof. intros; apply Z.land_ones; auto. Qed.
Lemma land15 x : Z.land x 15 = x mod 16.
Proof. change 15 with (Z.ones 4). apply Z.land_ones. lia. Qed.
Lemma land255 x : Z.land x 255 = x mod 256.
Proof. change 255 with (Z.ones 8). apply Z.land_ones. lia. Qed.
Lemma shiftr_div x n : 0 <= n -> Z.shiftr x n = x / 2 ^ n.
Proof. apply Z.shiftr_div_pow2. Qed.

(** ** index and slice operations on byte lists *)
Lemma gidx_ok l i : 0 <= i < zlen l -> gidx l i = Ok (nth (Z.to_nat i) l 0).
Proof. intros H. unfold gidx. destruct (Z.leb_spec 0 i), (Z.ltb_spec i (zlen l)); cbn; auto; lia. Qed.
Lemma gidx_panic l i : ~ (0 <= i < zlen l) -> gidx l i = Panic.
Proof. intros H. unfold gidx. destruct (Z.leb_spec 0 i), (Z.ltb_spec i (zlen l)); cbn; auto; lia. Qed.
Lemma gsl_ok l lo hi : 0 <= lo <= hi -> hi <= zlen l ->
  gsl l lo hi = Ok (sub l (Z.to_nat lo) (Z.to_nat hi)).
Proof.
  intros H1 H2. unfold gsl.
  destruct (Z.leb_spec 0 lo), (Z.leb_spec lo hi), (Z.leb_spec hi (zlen l)); cbn; auto; lia.
Qed.
Lemma gput_ok l lo v : 0 <= lo -> lo + zlen v <= zlen l ->
  gput l lo v = Ok (splice l (Z.to_nat lo) v).
Proof.
  intros H1 H2. unfold gput.
  destruct (Z.leb_spec 0 lo), (Z.leb_spec (lo + zlen v) (zlen l)); cbn; auto; lia.
Qed.
Lemma gcopy_ok l lo v : 0 <= lo -> lo + zlen v = zlen l ->
  gcopy l lo v = Ok (firstn (Z.to_nat lo) l ++ v).
Proof.
  intros H1 H2. unfold gcopy. pose proof (zlen_nonneg v).
  destruct (Z.leb_spec 0 lo), (Z.leb_spec lo (zlen l)); cbn; try lia.
  f_equal. unfold zlen in *. rewrite (firstn_all2 v) by lia.
  unfold splice. rewrite skipn_all2 by lia. now rewrite app_nil_r.
Qed.

(** ** heap *)
Lemma rd_sub h s : rd h s = sub (arr h (s_arr s)) (s_off s) (s_off s + s_len s).
Proof. unfold rd, sub. f_equal. lia. Qed.

Lemma valid_len h s : valid h s -> length (rd h s) = s_len s.
Proof.
  intros [H1 [H2|[H2 H3]]]; unfold rd; rewrite firstn_length, skipn_length; lia.
Qed.

Lemma arr_upd_same h a l : (a < length h)%nat -> arr (upd_arr h a l) a = l.
Proof.
  intros H. unfold arr, upd_arr. rewrite app_nth2; rewrite firstn_length; [|lia].
  replace (a - Nat.min a (length h))%nat with O by lia. reflexivity.
Qed.
Lemma arr_upd_other h a b l : (a < length h)%nat -> a <> b -> arr (upd_arr h a l) b = arr h b.
Proof.
  intros H N. unfold arr, upd_arr.
  destruct (Nat.lt_ge_cases b a) as [L|L].
  - rewrite app_nth1 by (rewrite firstn_length; lia). apply nth_firstn'. lia.
  - rewrite app_nth2 by (rewrite firstn_length; lia).
    rewrite firstn_length, Nat.min_l by lia.
    destruct (b - a)%nat as [|k] eqn:E; [lia|]. cbn [nth]. rewrite nth_skipn'.
    f_equal. lia.
Qed.
Lemma upd_arr_length h a l : (a < length h)%nat -> length (upd_arr h a l) = length h.
Proof.
  intros H. unfold upd_arr. rewrite app_length, firstn_length. cbn [length].
  rewrite skipn_length. lia.
Qed.
Lemma upd_arr_self h a : (a < length h)%nat -> upd_arr h a (arr h a) = h.
Proof.
  intros H. unfold upd_arr, arr. rewrite <- (firstn_skipn a h) at 4. f_equal.
  revert h H; induction a as [|a IH]; intros h H; destruct h as [|x h]; cbn in *; try lia; auto.
  apply IH. lia.
Qed.
Lemma upd_upd_same h a l l' : (a < length h)%nat ->
  upd_arr (upd_arr h a l) a l' = upd_arr h a l'.
Proof.
  intros H. unfold upd_arr.
  assert (Hf : length (firstn a h) = a) by (rewrite firstn_length; lia).
  rewrite firstn_app_exact by assumption. f_equal. f_equal.
  rewrite skipn_app_ge by lia. rewrite Hf. replace (S a - a)%nat with 1%nat by lia. reflexivity.
Qed.

Lemma reslice_ok s lo hi : 0 <= lo <= hi -> hi <= Z.of_nat (s_cap s) ->
  reslice s lo hi = Ok (mkSl (s_arr s) (s_off s + Z.to_nat lo) (Z.to_nat hi - Z.to_nat lo)
                             (s_cap s - Z.to_nat lo)).
Proof.
  intros H1 H2. unfold reslice.
  destruct (Z.leb_spec 0 lo), (Z.leb_spec lo hi), (Z.leb_spec hi (Z.of_nat (s_cap s)));
    cbn; auto; lia.
Qed.
Lemma resl_from_ok s lo : 0 <= lo <= Z.of_nat (s_len s) -> (s_len s <= s_cap s)%nat ->
  resl_from s lo = Ok (mkSl (s_arr s) (s_off s + Z.to_nat lo) (s_len s - Z.to_nat lo)
                            (s_cap s - Z.to_nat lo)).
Proof.
  intros H1 H2. unfold resl_from. rewrite reslice_ok by lia. rewrite Nat2Z.id. reflexivity.
Qed.
Lemma resl_from_panic s lo : (s_len s <= s_cap s)%nat ->
  ~ (0 <= lo <= Z.of_nat (s_len s)) -> resl_from s lo = Panic.
Proof.
  intros H1 H2. unfold resl_from, reslice.
  destruct (Z.leb_spec 0 lo), (Z.leb_spec lo (Z.of_nat (s_len s))); cbn; auto; lia.
Qed.
Lemma rd_from h s k :
  rd h (mkSl (s_arr s) (s_off s + k) (s_len s - k) (s_cap s - k)) = skipn k (rd h s).
Proof.
  unfold rd. cbn [s_arr s_off s_len]. rewrite skipn_firstn_comm, skipn_skipn.
  f_equal. f_equal. lia.
Qed.
Lemma rd_window h s lo n c :
  (lo + n <= s_len s)%nat ->
  rd h (mkSl (s_arr s) (s_off s + lo) n c) = firstn n (skipn lo (rd h s)).
Proof.
  intros H. unfold rd. cbn [s_arr s_off s_len].
  rewrite skipn_firstn_comm, skipn_skipn, firstn_firstn, Nat.min_l by lia.
  do 2 f_equal. lia.
Qed.
Lemma valid_from h s k : valid h s -> (k <= s_len s)%nat ->
  valid h (mkSl (s_arr s) (s_off s + k) (s_len s - k) (s_cap s - k)).
Proof.
  intros [H1 H2] Hk. split; cbn [s_arr s_off s_len s_cap]; [lia|].
  destruct H2 as [H2|[H2 H3]]; [left; lia|]. right. split; [exact H2|]. lia.
Qed.

Lemma wr_ok h s i v : 0 <= i -> i + zlen v <= Z.of_nat (s_len s) ->
  wr h s i v = Ok (upd_arr h (s_arr s) (splice (arr h (s_arr s)) (s_off s + Z.to_nat i) v)).
Proof.
  intros H1 H2. unfold wr.
  destruct (Z.leb_spec 0 i), (Z.leb_spec (i + zlen v) (Z.of_nat (s_len s))); cbn; auto; lia.
Qed.
Lemma arr_alloc_new h v sp : arr (fst (alloc h v sp)) (length h) = v ++ repeat 0 sp.
Proof. unfold alloc, arr. cbn. rewrite app_nth2, Nat.sub_diag by lia. reflexivity. Qed.
Lemma arr_alloc_old h v sp a : (a < length h)%nat -> arr (fst (alloc h v sp)) a = arr h a.
Proof. intros H. unfold alloc, arr. cbn. apply app_nth1. exact H. Qed.
Lemma rd_alloc_old h v sp s : (s_arr s < length h)%nat -> rd (fst (alloc h v sp)) s = rd h s.
Proof. intros H. unfold rd. rewrite arr_alloc_old by exact H. reflexivity. Qed.
Lemma rd_upd_other h a l s : (a < length h)%nat -> s_arr s <> a -> rd (upd_arr h a l) s = rd h s.
Proof. intros H N. unfold rd. rewrite arr_upd_other by congruence. reflexivity. Qed.
Lemma rd_alloc_new h v sp : rd (fst (alloc h v sp)) (snd (alloc h v sp)) = v.
Proof.
  unfold rd. cbn [alloc snd s_arr s_off s_len]. 
  change (h ++ [v ++ repeat 0 sp]) with (fst (alloc h v sp)).
  replace (arr (fst (alloc h v sp)) (length h)) with (v ++ repeat 0 sp)
    by (symmetry; apply arr_alloc_new).
  cbn [skipn]. apply firstn_app_exact. reflexivity.
Qed.
Lemma scopy_arr h s d : (s_arr s < length h)%nat ->
  arr (scopy h s d) (s_arr s) = splice (arr h (s_arr s)) (s_off s) (firstn (s_len s) d).
Proof. intros H. unfold scopy. apply arr_upd_same, H. Qed.
Lemma is_bytes_b l : forallb (fun b => (0 <=? b) && (b <? 256)) l = true -> is_bytes l.
Proof.
  intros H. apply Forall_forall. intros x Hx. rewrite forallb_forall in H.
  apply H in Hx. red. lia.
Qed.
Ltac bytes_tac := apply is_bytes_b; vm_compute; reflexivity.
(** closes concrete, decidable conjunctions (used by the examples) *)
Ltac ex_tac :=
  cbv zeta; repeat match goal with |- _ /\ _ => split end;
  first [ lia | red; cbn; lia | bytes_tac | vm_compute; reflexivity
        | unfold valid; cbn; lia
        | vm_compute; intuition congruence ].
