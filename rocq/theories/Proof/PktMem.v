(** Reading and writing windows of one slice: the heap as "h with slice s
    holding B". *)
From Verif Require Export Proof.HeapFacts Proof.InetSum Model.Packet.

Definition set_rd (h : heap) (s : slice) (B : bytes) : heap :=
  upd_arr h (s_arr s) (splice (arr h (s_arr s)) (s_off s) B).
Definition vslice (h : heap) (s : slice) : Prop :=
  (s_arr s < length h)%nat /\ (s_off s + s_cap s <= length (arr h (s_arr s)))%nat /\ (s_len s <= s_cap s)%nat.
Definition win (s : slice) (k n c : nat) : slice := mkSl (s_arr s) (s_off s + k) n c.

Lemma vslice_valid h s : vslice h s -> valid h s.
Proof. intros (A & B & C). split; auto. Qed.
Lemma valid_vslice h s : valid h s -> (0 < s_len s)%nat -> vslice h s.
Proof. intros [A [B|[B C]]] H; [lia|]. repeat split; auto. Qed.
Lemma vslice_len h s : vslice h s -> length (rd h s) = s_len s.
Proof. intros V. apply valid_len, vslice_valid, V. Qed.

Lemma win_all s : win s 0 (s_len s) (s_cap s) = s.
Proof. destruct s. unfold win. cbn. now rewrite Nat.add_0_r. Qed.
Section S.
Context (h : heap) (s : slice) (V : vslice h s).
Lemma set_rd_arr B : arr (set_rd h s B) (s_arr s) = splice (arr h (s_arr s)) (s_off s) B.
Proof. apply arr_upd_same, V. Qed.
Lemma set_rd_other B a : a <> s_arr s -> arr (set_rd h s B) a = arr h a.
Proof. intros N. apply arr_upd_other; [apply V|auto]. Qed.
Lemma set_rd_length B : length (set_rd h s B) = length h.
Proof. apply upd_arr_length, V. Qed.
Lemma set_rd_arr_length B a : length B = s_len s -> length (arr (set_rd h s B) a) = length (arr h a).
Proof.
  intros L. destruct V as (A & C & D). destruct (Nat.eq_dec a (s_arr s)) as [->|N].
  - rewrite set_rd_arr. apply splice_length. lia.
  - now rewrite set_rd_other.
Qed.
Lemma set_rd_vslice B s' : length B = s_len s -> vslice h s' -> vslice (set_rd h s B) s'.
Proof.
  intros L (A & C & D). unfold vslice. rewrite set_rd_length, set_rd_arr_length by exact L. auto.
Qed.
Lemma set_rd_valid B s' : length B = s_len s -> valid h s' -> valid (set_rd h s B) s'.
Proof.
  intros L (A & C). unfold valid. rewrite set_rd_length, set_rd_arr_length by exact L. auto.
Qed.
Lemma rd_win B k n c : length B = s_len s -> (k + n <= s_len s)%nat ->
  rd (set_rd h s B) (win s k n c) = firstn n (skipn k B).
Proof.
  intros L K. destruct V as (A & C & D). unfold rd, win. cbn [s_arr s_off s_len].
  rewrite set_rd_arr. unfold splice.
  rewrite skipn_app_ge by (rewrite firstn_length; lia).
  rewrite firstn_length, Nat.min_l by lia.
  replace (s_off s + k - s_off s)%nat with k by lia.
  rewrite skipn_app_le by lia. rewrite firstn_app_le by (rewrite skipn_length; lia). reflexivity.
Qed.
Lemma rd_set B : length B = s_len s -> rd (set_rd h s B) s = B.
Proof.
  intros L. rewrite <- (win_all s) at 2. rewrite rd_win by lia. cbn [skipn]. rewrite <- L. apply firstn_all.
Qed.
Lemma set_rd_same : set_rd h s (rd h s) = h.
Proof.
  destruct V as (A & C & D). unfold set_rd.
  assert (E : splice (arr h (s_arr s)) (s_off s) (rd h s) = arr h (s_arr s)).
  { apply splice_self. rewrite vslice_len by exact V. symmetry. apply rd_sub. }
  rewrite E. apply upd_arr_self, A.
Qed.
Lemma set_rd_set B B' : length B = s_len s -> length B' = s_len s ->
  set_rd (set_rd h s B) s B' = set_rd h s B'.
Proof.
  intros L L'. destruct V as (A & C & D). unfold set_rd at 1. rewrite set_rd_arr.
  unfold set_rd. rewrite upd_upd_same by exact A. f_equal. apply splice_splice_same; lia.
Qed.
Lemma wr_win B k n c i v : length B = s_len s -> (k + n <= s_len s)%nat ->
  0 <= i -> i + zlen v <= Z.of_nat n ->
  wr (set_rd h s B) (win s k n c) i v = Ok (set_rd h s (splice B (k + Z.to_nat i) v)).
Proof.
  intros L K I J. destruct V as (A & C & D). unfold zlen in J.
  rewrite wr_ok by (cbn [win s_len]; unfold zlen; lia). cbn [win s_arr s_off].
  rewrite set_rd_arr. unfold set_rd. rewrite upd_upd_same by exact A. do 2 f_equal.
  apply nth_ext_len with 0.
  - rewrite !splice_length; rewrite ?splice_length; lia.
  - intros j _. rewrite !nth_splice; rewrite ?splice_length; try lia.
    destruct (Nat.leb_spec (s_off s) j); cbn [andb].
    + destruct (Nat.ltb_spec j (s_off s + length B)).
      * destruct (Nat.leb_spec (s_off s + k + Z.to_nat i) j), (Nat.ltb_spec j (s_off s + k + Z.to_nat i + length v)),
          (Nat.leb_spec (k + Z.to_nat i) (j - s_off s)), (Nat.ltb_spec (j - s_off s) (k + Z.to_nat i + length v));
          cbn [andb]; try lia; try reflexivity. f_equal. lia.
      * destruct (Nat.leb_spec (s_off s + k + Z.to_nat i) j), (Nat.ltb_spec j (s_off s + k + Z.to_nat i + length v));
          cbn [andb]; try lia; reflexivity.
    + destruct (Nat.leb_spec (s_off s + k + Z.to_nat i) j); [lia|reflexivity].
Qed.
Lemma only_set B : length B = s_len s ->
  only_bytes h (set_rd h s B) s (fun k => nth k B 0 <> nth k (rd h s) 0).
Proof.
  intros L. destruct V as (A & C & D). split; [apply set_rd_length|]. split; [intros a; apply set_rd_arr_length, L|].
  intros a i N. destruct (Nat.eq_dec a (s_arr s)) as [->|Na]; [|rewrite set_rd_other in N by exact Na; congruence].
  split; [reflexivity|]. rewrite set_rd_arr, nth_splice in N by lia.
  destruct (Nat.leb_spec (s_off s) i), (Nat.ltb_spec i (s_off s + length B)); cbn [andb] in N; try congruence.
  exists (i - s_off s)%nat. split; [lia|]. split; [lia|].
  unfold rd. rewrite nth_firstn' by lia. rewrite nth_skipn'.
  replace (s_off s + (i - s_off s))%nat with i by lia. exact N.
Qed.
End S.

(** ** Windows of windows *)
Section W.
Context (h : heap) (s : slice) (V : vslice h s) (B : bytes) (L : length B = s_len s).
Lemma resl_from_win k n c lo : 0 <= lo <= Z.of_nat n -> (n <= c)%nat ->
  resl_from (win s k n c) lo = Ok (win s (k + Z.to_nat lo) (n - Z.to_nat lo) (c - Z.to_nat lo)).
Proof using.
  clear V L B.  intros H C. rewrite resl_from_ok by (cbn; lia). unfold win. cbn [s_arr s_off s_len s_cap].
  now rewrite Nat.add_assoc.
Qed.
Lemma reslice_win k n c lo hi : 0 <= lo <= hi -> hi <= Z.of_nat c ->
  reslice (win s k n c) lo hi = Ok (win s (k + Z.to_nat lo) (Z.to_nat hi - Z.to_nat lo) (c - Z.to_nat lo)).
Proof using.
  clear V L B.  intros H C. rewrite reslice_ok by (cbn; lia). unfold win. cbn [s_arr s_off s_len s_cap].
  now rewrite Nat.add_assoc.
Qed.
Lemma sidx_win k n c i : (k + n <= s_len s)%nat -> 0 <= i < Z.of_nat n ->
  sidx (set_rd h s B) (win s k n c) i = Ok (nth (k + Z.to_nat i) B 0).
Proof.
  intros K I. unfold sidx. rewrite rd_win by auto. rewrite gidx_ok.
  - rewrite nth_firstn' by lia. now rewrite nth_skipn'.
  - unfold zlen. rewrite firstn_length, skipn_length. lia.
Qed.
Lemma be16_win k n c pos : (k + Z.to_nat pos + 2 <= s_len s)%nat -> 0 <= pos -> pos + 2 <= Z.of_nat c ->
  be16_at (set_rd h s B) (win s k n c) pos = Ok (be16f B (k + Z.to_nat pos)).
Proof.
  intros K P C. unfold be16_at. rewrite reslice_win by lia. cbn [rbind].
  rewrite rd_win by (auto; lia). replace (Z.to_nat (pos + 2) - Z.to_nat pos)%nat with 2%nat by lia.
  unfold be16f, field. rewrite num2 by (rewrite firstn_length, skipn_length; lia).
  unfold field. cbn [skipn]. rewrite firstn_firstn. reflexivity.
Qed.
Lemma be32_win k n c pos : (k + Z.to_nat pos + 4 <= s_len s)%nat -> 0 <= pos -> pos + 4 <= Z.of_nat c ->
  be32_at (set_rd h s B) (win s k n c) pos = Ok (be32f B (k + Z.to_nat pos)).
Proof.
  intros K P C. unfold be32_at. rewrite reslice_win by lia. cbn [rbind].
  rewrite rd_win by (auto; lia). replace (Z.to_nat (pos + 4) - Z.to_nat pos)%nat with 4%nat by lia.
  unfold be32f, field. rewrite num4 by (rewrite firstn_length, skipn_length; lia).
  unfold field. cbn [skipn]. rewrite firstn_firstn. reflexivity.
Qed.
Lemma put16_win k n c pos v : (k + Z.to_nat pos + 2 <= s_len s)%nat -> 0 <= pos -> pos + 2 <= Z.of_nat c ->
  put16_at (set_rd h s B) (win s k n c) pos v = Ok (set_rd h s (splice B (k + Z.to_nat pos) (put16 BE v))).
Proof.
  intros K P C. unfold put16_at. rewrite reslice_win by lia. cbn [rbind].
  rewrite wr_win; auto; try lia.
  - cbn [Z.to_nat]. now rewrite Nat.add_0_r.
  - unfold zlen. rewrite put16_length. lia.
Qed.
Lemma put32_win k n c pos v : (k + Z.to_nat pos + 4 <= s_len s)%nat -> 0 <= pos -> pos + 4 <= Z.of_nat c ->
  put32_at (set_rd h s B) (win s k n c) pos v = Ok (set_rd h s (splice B (k + Z.to_nat pos) (put32 BE v))).
Proof.
  intros K P C. unfold put32_at. rewrite reslice_win by lia. cbn [rbind].
  rewrite wr_win; auto; try lia.
  - cbn [Z.to_nat]. now rewrite Nat.add_0_r.
  - unfold zlen. rewrite put32_length. lia.
Qed.
Lemma copy_of_win k n c lo hi : 0 <= lo <= hi -> (k + Z.to_nat hi <= s_len s)%nat -> hi <= Z.of_nat c ->
  copy_of (set_rd h s B) (win s k n c) lo hi = Ok (field B (k + Z.to_nat lo) (Z.to_nat hi - Z.to_nat lo)).
Proof.
  intros H K C. unfold copy_of. rewrite reslice_win by lia. cbn [rbind].
  rewrite rd_win by (auto; lia). reflexivity.
Qed.
Lemma copy_into_win k n c lo hi v : 0 <= lo <= hi -> (k + Z.to_nat hi <= s_len s)%nat -> hi <= Z.of_nat c ->
  zlen v = hi - lo ->
  copy_into (set_rd h s B) (win s k n c) lo hi v = Ok (set_rd h s (splice B (k + Z.to_nat lo) v)).
Proof.
  intros H K C Z. unfold copy_into. rewrite reslice_win by lia. cbn [rbind].
  unfold zlen in Z.
  pose proof (wr_win h s V B (k + Z.to_nat lo) (Z.to_nat hi - Z.to_nat lo) (c - Z.to_nat lo) 0 v L) as W.
  rewrite Nat.add_0_r in W. unfold zlen in W. rewrite wr_ok in W by (cbn; unfold zlen; lia).
  unfold scopy. cbn [win s_arr s_off s_len] in *. change (Z.to_nat 0) with 0%nat in W. rewrite Nat.add_0_r in W.
  rewrite firstn_all2 by lia. apply W; lia.
Qed.
End W.

(** ** Fields of spliced byte strings *)
Lemma field_splice_same B o v : (o + length v <= length B)%nat -> field (splice B o v) o (length v) = v.
Proof.
  intros H. pose proof (sub_splice_same B o v H) as X. unfold sub in X.
  replace (o + length v - o)%nat with (length v) in X by lia. exact X.
Qed.
Lemma field_splice_disj B o v p n : (o + length v <= length B)%nat -> (p + n <= o \/ o + length v <= p)%nat ->
  field (splice B o v) p n = field B p n.
Proof.
  intros H D. pose proof (sub_splice_disj B o v p (p + n) H D) as X. unfold sub in X.
  replace (p + n - p)%nat with n in X by lia. exact X.
Qed.
Lemma nth_splice_same B o x : (o < length B)%nat -> nth o (splice B o [x]) 0 = x.
Proof.
  intros H. rewrite nth_splice by (cbn; lia). cbn [length].
  destruct (Nat.leb_spec o o), (Nat.ltb_spec o (o + 1)); try lia. cbn [andb]. now rewrite Nat.sub_diag.
Qed.
Lemma nth_splice_disj B o v i : (o + length v <= length B)%nat -> (i < o \/ o + length v <= i)%nat ->
  nth i (splice B o v) 0 = nth i B 0.
Proof.
  intros H D. rewrite nth_splice by exact H.
  destruct (Nat.leb_spec o i), (Nat.ltb_spec i (o + length v)); cbn [andb]; try lia; reflexivity.
Qed.
Lemma be16f_nth B o : (o + 2 <= length B)%nat -> be16f B o = nth o B 0 * 256 + nth (S o) B 0.
Proof.
  intros H. unfold be16f, num, field.
  assert (E : firstn 2 (skipn o B) = [nth o B 0; nth (S o) B 0]).
  { replace (S o) with (o + 1)%nat by lia. rewrite <- (Nat.add_0_r o) at 2.
    rewrite <- !nth_skipn'. pose proof (skipn_length o B) as X.
    destruct (skipn o B) as [|x [|y r]]; cbn in *; try lia. reflexivity. }
  rewrite E. cbn. lia.
Qed.
Lemma be16f_splice_same B o v : (o + 2 <= length B)%nat -> be16f (splice B o (put16 BE v)) o = v mod 65536.
Proof.
  intros H. unfold be16f. change 2%nat with (length (put16 BE v)).
  rewrite field_splice_same by (rewrite put16_length; lia). unfold num, be_num. cbn [put16 fold_left]. lia.
Qed.
Lemma be32f_splice_same B o v : (o + 4 <= length B)%nat -> be32f (splice B o (put32 BE v)) o = v mod 4294967296.
Proof.
  intros H. unfold be32f. change 4%nat with (length (put32 BE v)).
  rewrite field_splice_same by (rewrite put32_length; lia). unfold num, be_num. cbn [put32 fold_left]. lia.
Qed.
Lemma be16f_splice_disj B o v p : (o + length v <= length B)%nat -> (p + 2 <= o \/ o + length v <= p)%nat ->
  be16f (splice B o v) p = be16f B p.
Proof. intros H D. unfold be16f. now rewrite field_splice_disj. Qed.
Lemma be32f_splice_disj B o v p : (o + length v <= length B)%nat -> (p + 4 <= o \/ o + length v <= p)%nat ->
  be32f (splice B o v) p = be32f B p.
Proof. intros H D. unfold be32f. now rewrite field_splice_disj. Qed.
Lemma be16f_range B o : is_bytes B -> (o + 2 <= length B)%nat -> 0 <= be16f B o < 65536.
Proof. intros H L. exact (num2_range BE B o H L). Qed.
Lemma be32f_range B o : is_bytes B -> (o + 4 <= length B)%nat -> 0 <= be32f B o < 4294967296.
Proof.
  intros H L. unfold be32f, num, field. pose proof (skipn_length o B) as X. pose proof (is_bytes_skipn o B H) as Y.
  destruct (skipn o B) as [|a [|b [|c [|d r]]]]; cbn [length] in X; try lia.
  inversion Y as [|? ? Y1 Z1]; subst. inversion Z1 as [|? ? Y2 Z2]; subst. inversion Z2 as [|? ? Y3 Z3]; subst.
  inversion Z3 as [|? ? Y4 Z4]; subst. unfold is_byte in *. cbn. lia.
Qed.
Lemma put32_be32f B o : is_bytes B -> (o + 4 <= length B)%nat -> put32 BE (be32f B o) = field B o 4.
Proof.
  intros H L. pose proof (num4_at BE B o L) as E.
  exact (put32_get32 BE (skipn o B) _ (is_bytes_skipn o B H) E).
Qed.
Lemma put16_be16f B o : is_bytes B -> (o + 2 <= length B)%nat -> put16 BE (be16f B o) = field B o 2.
Proof.
  intros H L. pose proof (num2_at BE B o L) as E.
  exact (put16_get16 BE (skipn o B) _ (is_bytes_skipn o B H) E).
Qed.

(** ** Checksum of spliced byte strings *)
Lemma raw_sum_split B o : Nat.even o = true -> (o <= length B)%nat ->
  raw_sum B = raw_sum (firstn o B) + raw_sum (skipn o B).
Proof.
  intros E L. rewrite <- (firstn_skipn o B) at 1. apply raw_sum_app. rewrite firstn_length, Nat.min_l by lia. exact E.
Qed.
Lemma raw_sum_splice2 B o v : Nat.even o = true -> (o + 2 <= length B)%nat -> 0 <= v < 65536 ->
  raw_sum (splice B o (put16 BE v)) = raw_sum B - be16f B o + v.
Proof.
  intros E L R. rewrite (raw_sum_split B o E) by lia.
  pose proof (skipn_length o B) as LS. pose proof (be16f_nth B o L) as N.
  replace (S o) with (o + 1)%nat in N by lia. rewrite <- (Nat.add_0_r o) in N at 2.
  rewrite <- !nth_skipn' in N.
  unfold splice. rewrite raw_sum_app by (rewrite firstn_length, Nat.min_l by lia; exact E).
  rewrite put16_length. rewrite <- (Nat.add_comm 2), <- skipn_skipn.
  destruct (skipn o B) as [|x [|y r]]; cbn [length] in LS; try lia.
  cbn [nth skipn] in *. unfold raw_sum. cbn [put16 app words16 fold_right]. lia.
Qed.
