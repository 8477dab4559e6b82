(** More facts about slices in memory: append and runs of stores. *)
From Verif Require Export Proof.SysFacts.

Lemma splice_splice_adj l o v v' :
  (o + length v + length v' <= length l)%nat ->
  splice (splice l o v) (o + length v) v' = splice l o (v ++ v').
Proof.
  intros H. apply nth_ext_len with 0.
  - rewrite !splice_length; rewrite ?app_length, ?splice_length; lia.
  - intros i Hi.
    rewrite nth_splice by (rewrite splice_length; lia).
    rewrite !nth_splice by (rewrite ?app_length; lia). rewrite app_length.
    destruct (Nat.leb_spec (o + length v) i), (Nat.ltb_spec i (o + length v + length v')),
      (Nat.leb_spec o i), (Nat.ltb_spec i (o + length v)),
      (Nat.ltb_spec i (o + (length v + length v'))); cbn [andb]; try lia.
    all: try reflexivity.
    + rewrite app_nth2 by lia. f_equal. lia.
    + rewrite app_nth1 by lia. reflexivity.
Qed.

Lemma valid_app h x s : valid h s -> valid (h ++ [x]) s.
Proof.
  intros [H1 H2]. split; [exact H1|]. destruct H2 as [H2|[H2 H3]]; [left; exact H2|].
  right. rewrite app_length. split; [cbn; lia|]. unfold arr in *. rewrite app_nth1 by exact H2.
  exact H3.
Qed.

(** m_stores of tiling stores *)
Lemma m_stores_run {S} (s : slice) : forall ws o e (w : world S),
  valid (w_heap w) s -> (0 < s_len s)%nat -> contiguous (Z.of_nat o) ws ->
  (o + length (payload ws) <= s_len s)%nat ->
  m_stores s ws e w =
  (Ok tt, mkW (w_st w)
              (upd_arr (w_heap w) (s_arr s)
                        (splice (arr (w_heap w) (s_arr s)) (s_off s + o) (payload ws))) (w_tr w)).
Proof.
  induction ws as [|[p v] ws IH]; intros o e w V P C L.
  - pose proof V as [V1 [V2|[V2 V3]]]; [lia|].
    cbn [m_stores]. unfold ret, payload. cbn [map concat].
    rewrite splice_nil, upd_arr_self by exact V2. destruct w; reflexivity.
  - pose proof V as [V1 [V2|[V2 V3]]]; [lia|].
    destruct C as [-> C]. cbn [m_stores].
    unfold payload in L. cbn [map concat snd] in L. rewrite app_length in L.
    fold (payload ws) in L.
    mstep. rewrite wr_ok by (unfold zlen; lia). mstep. mstep.
    rewrite Nat2Z.id.
    rewrite (IH (o + length v)%nat).
    + cbn [w_heap w_st w_tr]. rewrite arr_upd_same, upd_upd_same by exact V2.
      rewrite Nat.add_assoc, splice_splice_adj by lia. reflexivity.
    + cbn [w_heap]. apply valid_upd; [exact V|exact V2|]. apply splice_length. lia.
    + exact P.
    + rewrite Nat2Z.inj_add. exact C.
    + lia.
Qed.
Lemma m_stores_prefix {S} (s : slice) ws e (w : world S) :
  valid (w_heap w) s -> (0 < s_len s)%nat -> contiguous 0 ws ->
  (length (payload ws) <= s_len s)%nat ->
  m_stores s ws e w =
  (Ok tt, mkW (w_st w)
              (upd_arr (w_heap w) (s_arr s)
                        (splice (arr (w_heap w) (s_arr s)) (s_off s) (payload ws))) (w_tr w)).
Proof.
  intros V P C L. rewrite (m_stores_run s ws 0) by (auto || lia). now rewrite Nat.add_0_r.
Qed.

(** append *)
Record appended (h : heap) (s : slice) (v : bytes) (h' : heap) (s' : slice) : Prop := mkApp {
  ap_rd : rd h' s' = rd h s ++ v;
  ap_valid : valid h' s';
  ap_len : s_len s' = (s_len s + length v)%nat;
  ap_old : rd h' s = rd h s;
  ap_other : forall a, a <> s_arr s -> (a < length h)%nat -> arr h' a = arr h a;
  ap_same : forall i, (i < s_off s + s_len s)%nat -> nth i (arr h' (s_arr s)) 0 = nth i (arr h (s_arr s)) 0;
  ap_rest : forall i, (s_off s + s_len s + length v <= i)%nat ->
    nth i (arr h' (s_arr s)) 0 = nth i (arr h (s_arr s)) 0;
  ap_here : arr h' (s_arr s) =
    if (s_len s + length v <=? s_cap s)%nat then splice (arr h (s_arr s)) (s_off s + s_len s) v else arr h (s_arr s);
  ap_grow : (length h <= length h')%nat;
  ap_keep : forall x, valid h x -> valid h' x }.
Lemma gappend_spec grow h s v :
  valid h s -> (0 < s_len s)%nat ->
  appended h s v (fst (gappend grow h s v)) (snd (gappend grow h s v)).
Proof.
  intros V P. pose proof V as [V1 [V2|[V2 V3]]]; [lia|].
  unfold gappend. destruct (Nat.leb_spec (s_len s + length v) (s_cap s)) as [L|L].
  - set (h' := match v with [] => h | _ => _ end). cbn [fst snd].
    assert (E : h' = upd_arr h (s_arr s) (splice (arr h (s_arr s)) (s_off s + s_len s) v)).
    { unfold h'. destruct v; [|reflexivity]. rewrite splice_nil, upd_arr_self by exact V2. reflexivity. }
    assert (Ln : length (splice (arr h (s_arr s)) (s_off s + s_len s) v) = length (arr h (s_arr s)))
      by (apply splice_length; lia).
    assert (K : forall x, valid h x -> valid h' x) by (rewrite E; intros x Vx; apply valid_upd; auto).
    constructor.
    + rewrite E. unfold rd at 1. cbn [s_arr s_off s_len]. rewrite arr_upd_same by exact V2.
      change (firstn ?n (skipn ?o ?l)) with (firstn n (skipn o l)).
      rewrite firstn_is_app with (n := s_len s) by lia.
      replace (s_len s + length v - s_len s)%nat with (length v) by lia.
      rewrite skipn_skipn. f_equal.
      * pose proof (sub_splice_disj (arr h (s_arr s)) (s_off s + s_len s) v (s_off s) (s_off s + s_len s)) as D.
        unfold sub in D. replace (s_off s + s_len s - s_off s)%nat with (s_len s) in D by lia.
        apply D; lia.
      * pose proof (sub_splice_same (arr h (s_arr s)) (s_off s + s_len s) v) as D.
        unfold sub in D.
        replace (s_off s + s_len s + length v - (s_off s + s_len s))%nat with (length v) in D by lia.
        rewrite (Nat.add_comm (s_len s)). apply D; lia.
    + apply K. split; cbn [s_len s_cap s_arr s_off]; [lia|right; auto].
    + reflexivity.
    + rewrite E. unfold rd. rewrite arr_upd_same by exact V2.
      pose proof (sub_splice_disj (arr h (s_arr s)) (s_off s + s_len s) v (s_off s) (s_off s + s_len s)) as D.
      unfold sub in D. replace (s_off s + s_len s - s_off s)%nat with (s_len s) in D by lia.
      apply D; lia.
    + intros a Ha Hb. rewrite E. apply arr_upd_other; auto.
    + intros i Hi. rewrite E, arr_upd_same by exact V2. rewrite nth_splice by lia.
      destruct (Nat.leb_spec (s_off s + s_len s) i); [lia|reflexivity].
    + intros i Hi. rewrite E, arr_upd_same by exact V2.
      destruct (Nat.lt_ge_cases i (length (arr h (s_arr s)))) as [Li|Li].
      * rewrite nth_splice by lia.
        destruct (Nat.leb_spec (s_off s + s_len s) i); [|lia].
        destruct (Nat.ltb_spec i (s_off s + s_len s + length v)); [lia|reflexivity].
      * rewrite !nth_overflow by lia. reflexivity.
    + destruct (Nat.leb_spec (s_len s + length v) (s_cap s)); [|lia]. rewrite E, arr_upd_same by exact V2. reflexivity.
    + rewrite E, upd_arr_length by exact V2. lia.
    + exact K.
  - cbn [alloc fst snd].
    set (g := grow _ _). pose proof (valid_len _ _ V) as Lr.
    assert (K : forall x, valid h x -> valid (h ++ [(rd h s ++ v) ++ repeat 0 g]) x)
      by (intros; apply valid_app; assumption).
    assert (A : forall a, (a < length h)%nat -> arr (h ++ [(rd h s ++ v) ++ repeat 0 g]) a = arr h a)
      by (intros a Ha; unfold arr; apply app_nth1, Ha).
    constructor.
    + exact (rd_alloc_new h (rd h s ++ v) g).
    + split; cbn [s_len s_cap s_arr s_off]; [lia|right]. rewrite app_length. cbn [length].
      split; [lia|]. unfold arr. rewrite app_nth2 by lia. rewrite Nat.sub_diag. cbn [nth].
      rewrite !app_length, repeat_length. lia.
    + cbn [s_len]. rewrite app_length, Lr. reflexivity.
    + unfold rd. rewrite A by exact V2. reflexivity.
    + intros a _ Ha. apply A, Ha.
    + intros i _. rewrite A by exact V2. reflexivity.
    + intros i _. rewrite A by exact V2. reflexivity.
    + destruct (Nat.leb_spec (s_len s + length v) (s_cap s)); [lia|]. apply A, V2.
    + rewrite app_length. lia.
    + exact K.
Qed.
