(** The environment monad: unfolding equations, and receiving into a buffer. *)
From Verif Require Export Proof.CommonProps Model.Sys.

Section EQS.
Context {S : Type}.
Lemma bind_ret {A B} (a : A) (f : A -> M S B) e w : mbind (ret a) f e w = f a e w.
Proof. reflexivity. Qed.
Lemma bind_lift_ok {A B} (a : A) (f : A -> M S B) e w : mbind (lift (Ok a)) f e w = f a e w.
Proof. reflexivity. Qed.
Lemma bind_get_st {B} (f : S -> M S B) e w : mbind get_st f e w = f (w_st w) e w.
Proof. reflexivity. Qed.
Lemma bind_put_st {B} s (f : unit -> M S B) e w :
  mbind (put_st s) f e w = f tt e (mkW s (w_heap w) (w_tr w)).
Proof. reflexivity. Qed.
Lemma bind_get_heap {B} (f : heap -> M S B) e w : mbind get_heap f e w = f (w_heap w) e w.
Proof. reflexivity. Qed.
Lemma bind_put_heap {B} h (f : unit -> M S B) e w :
  mbind (put_heap h) f e w = f tt e (mkW (w_st w) h (w_tr w)).
Proof. reflexivity. Qed.
Lemma bind_get_tr {B} (f : list event -> M S B) e w : mbind get_tr f e w = f (w_tr w) e w.
Proof. reflexivity. Qed.
Lemma bind_do_call {B} c (f : resp -> M S B) e w :
  mbind (do_call c) f e w =
  f (e (w_tr w) c) e (mkW (w_st w) (w_heap w) (w_tr w ++ [(c, e (w_tr w) c)])).
Proof. reflexivity. Qed.
Lemma bind_assoc {A B C} (x : M S A) (f : A -> M S B) (g : B -> M S C) e w :
  mbind (mbind x f) g e w = mbind x (fun a => mbind (f a) g) e w.
Proof. unfold mbind. destruct (x e w) as [[a| |] w']; reflexivity. Qed.
Lemma bind_ok {A B} (x : M S A) (f : A -> M S B) e w a w' :
  x e w = (Ok a, w') -> mbind x f e w = f a e w'.
Proof. intros H. unfold mbind. rewrite H. reflexivity. Qed.
Lemma bind_panic {A B} (x : M S A) (f : A -> M S B) e w w' :
  x e w = (Panic, w') -> mbind x f e w = (Panic, w').
Proof. intros H. unfold mbind. rewrite H. reflexivity. Qed.
Lemma bind_nofuel {A B} (x : M S A) (f : A -> M S B) e w w' :
  x e w = (NoFuel, w') -> mbind x f e w = (NoFuel, w').
Proof. intros H. unfold mbind. rewrite H. reflexivity. Qed.
End EQS.

(** ** scopy *)
Lemma scopy_length h s d : (s_arr s < length h)%nat -> length (scopy h s d) = length h.
Proof. intros H. unfold scopy. apply upd_arr_length, H. Qed.
Lemma valid_upd h a l s :
  valid h s -> (a < length h)%nat -> length l = length (arr h a) -> valid (upd_arr h a l) s.
Proof.
  intros [H1 H2] Ha Hl. split; [exact H1|]. destruct H2 as [H2|[H2 H3]]; [left; exact H2|].
  right. rewrite upd_arr_length by exact Ha. split; [exact H2|].
  destruct (Nat.eq_dec (s_arr s) a) as [E|E].
  - subst a. rewrite arr_upd_same by exact Ha. lia.
  - rewrite arr_upd_other by auto. exact H3.
Qed.
Lemma scopy_facts h s d :
  valid h s -> (0 < s_len s)%nat -> (length d <= s_len s)%nat ->
  (forall s', valid h s' -> valid (scopy h s d) s') /\
  rd (scopy h s d) s = d ++ skipn (length d) (rd h s) /\
  length (scopy h s d) = length h /\
  (forall a, a <> s_arr s -> arr (scopy h s d) a = arr h a).
Proof.
  intros V P L. pose proof V as [H1 [H2|[H2 H3]]]; [lia|].
  assert (Hf : firstn (s_len s) d = d) by (apply firstn_all2; exact L).
  unfold scopy. rewrite Hf. split; [|split; [|split]].
  - intros s' V'. apply valid_upd; auto. apply splice_length. lia.
  - unfold rd. rewrite arr_upd_same by exact H2. unfold splice.
    rewrite skipn_app_exact by (rewrite firstn_length; lia).
    rewrite firstn_app. rewrite (firstn_all2 d) by exact L. f_equal.
    rewrite skipn_firstn_comm, skipn_skipn. do 2 f_equal. lia.
  - apply upd_arr_length, H2.
  - intros a Ha. apply arr_upd_other; auto.
Qed.

Lemma recvfrom_err {S} fd buf fl e (w : world S) en :
  r_err (e (w_tr w) (KRecvfrom fd (Z.of_nat (s_len buf)) fl)) = Some en ->
  sys_recvfrom fd buf fl e w =
  (Ok (Some en, -1),
   mkW (w_st w) (w_heap w)
       (w_tr w ++ [(KRecvfrom fd (Z.of_nat (s_len buf)) fl,
                    e (w_tr w) (KRecvfrom fd (Z.of_nat (s_len buf)) fl))])).
Proof. intros H. unfold sys_recvfrom. rewrite bind_do_call, H. reflexivity. Qed.
Lemma recvfrom_ok {S} fd buf fl e (w : world S) :
  let r := e (w_tr w) (KRecvfrom fd (Z.of_nat (s_len buf)) fl) in
  r_err r = None ->
  sys_recvfrom fd buf fl e w =
  (Ok (None, zlen (firstn (s_len buf) (r_data r))),
   mkW (w_st w) (scopy (w_heap w) buf (firstn (s_len buf) (r_data r)))
       (w_tr w ++ [(KRecvfrom fd (Z.of_nat (s_len buf)) fl, r)])).
Proof. intros r H. unfold sys_recvfrom. rewrite bind_do_call. fold r. rewrite H. reflexivity. Qed.

Ltac mstep :=
  first [ rewrite bind_ret | rewrite bind_lift_ok | rewrite bind_get_st | rewrite bind_put_st
        | rewrite bind_get_heap | rewrite bind_put_heap | rewrite bind_get_tr
        | rewrite bind_do_call | rewrite bind_assoc ];
  cbn [w_st w_heap w_tr].
