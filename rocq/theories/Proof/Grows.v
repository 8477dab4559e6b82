(** Computations only ever append to the trace. *)
From Verif Require Export Proof.Release.

Definition grows {S A} (x : M S A) : Prop :=
  forall e w, exists rest, w_tr (snd (x e w)) = w_tr w ++ rest.
Lemma grows_ret {S A} (a : A) : grows (S:=S) (ret a).
Proof. intros e w. exists []. now rewrite app_nil_r. Qed.
Lemma grows_lift {S A} (a : res A) : grows (S:=S) (lift a).
Proof. intros e w. exists []. now rewrite app_nil_r. Qed.
Lemma grows_panic {S A} : grows (S:=S) (A:=A) mpanic.
Proof. intros e w. exists []. now rewrite app_nil_r. Qed.
Lemma grows_get_st {S} : grows (S:=S) get_st.
Proof. intros e w. exists []. now rewrite app_nil_r. Qed.
Lemma grows_put_st {S} (s : S) : grows (put_st s).
Proof. intros e w. exists []. now rewrite app_nil_r. Qed.
Lemma grows_get_heap {S} : grows (S:=S) get_heap.
Proof. intros e w. exists []. now rewrite app_nil_r. Qed.
Lemma grows_put_heap {S} h : grows (S:=S) (put_heap h).
Proof. intros e w. exists []. now rewrite app_nil_r. Qed.
Lemma grows_call {S} c : grows (S:=S) (do_call c).
Proof. intros e w. eexists. reflexivity. Qed.
Lemma grows_bind {S A B} (x : M S A) (f : A -> M S B) :
  grows x -> (forall a, grows (f a)) -> grows (mbind x f).
Proof.
  intros Hx Hf e w. unfold mbind. destruct (Hx e w) as [r1 E1].
  destruct (x e w) as [[a| |] w1]; cbn [snd] in *; [|exists r1; exact E1|exists r1; exact E1].
  destruct (Hf a e w1) as [r2 E2]. exists (r1 ++ r2). rewrite E2, E1, <- app_assoc. reflexivity.
Qed.
Ltac grows_step :=
  match goal with
  | |- grows (mbind _ _) => apply grows_bind; [|intros ?]
  | |- grows (ret _) => apply grows_ret
  | |- grows (lift _) => apply grows_lift
  | |- grows mpanic => apply grows_panic
  | |- grows get_st => apply grows_get_st
  | |- grows (put_st _) => apply grows_put_st
  | |- grows get_heap => apply grows_get_heap
  | |- grows (put_heap _) => apply grows_put_heap
  | |- grows (do_call _) => apply grows_call
  | |- grows (match ?x with _ => _ end) => destruct x
  | |- grows (let _ := _ in _) => cbv zeta
  end.
Ltac grows_tac := repeat grows_step.
Lemma grows_m_alloc {S} v sp : grows (S:=S) (m_alloc v sp).
Proof. unfold m_alloc. grows_tac. Qed.
Lemma grows_m_stores {S} s ws : grows (S:=S) (m_stores s ws).
Proof. induction ws as [|[o v] ws IH]; cbn [m_stores]; grows_tac. exact IH. Qed.
Lemma grows_recvfrom {S} fd b fl : grows (S:=S) (sys_recvfrom fd b fl).
Proof. unfold sys_recvfrom. grows_tac. Qed.
Lemma grows_SetVerdict m g v pl id p : grows (SetVerdict m g v pl id p).
Proof.
  unfold SetVerdict. cbn [BuildNfgenMsg BuildNfAttrMsg]. unfold append_pad, sendmsg.
  repeat (grows_step || apply grows_m_alloc).
Qed.
Lemma grows_SetVerdict2 m g v mk pl id p : grows (SetVerdict2 m g v mk pl id p).
Proof.
  unfold SetVerdict2. apply grows_bind; [apply grows_get_st|intros q].
  destruct (sv2_hdr _ _ _ _ _ _) as [[ws n] a]. unfold append_pad, sendmsg.
  repeat (grows_step || apply grows_m_stores).
Qed.
Lemma grows_StopQueue m : grows (StopQueue m).
Proof.
  unfold StopQueue, NfqDestroyQueue. cbn [BuildNfgenMsg BuildNfAttrMsg]. unfold config_request, nfq_query, nfq_send, nfq_recv.
  repeat (grows_step || apply grows_recvfrom).
Qed.
Lemma grows_acts m g l : grows (run_acts m g l).
Proof.
  induction l as [|a l IH]; cbn [run_acts]; [apply grows_ret|].
  apply grows_bind; [|intros _; exact IH].
  destruct a; [apply grows_SetVerdict|apply grows_SetVerdict2|apply grows_m_stores| |];
    (apply grows_bind; [apply grows_m_alloc || apply grows_StopQueue|intros _; apply grows_ret]).
Qed.

(** ** C19: without an error callback *)
Lemma failed_receive_reaches_callback m fuel grow e w fd cb en :
  queue_ready w fd -> q_ecb (w_st w) = false -> q_cb (w_st w) = Some cb ->
  r_err (e (w_tr w) (KRecvfrom fd 76800 256)) = Some en ->
  exists r1 r2 r3 rest, let w' := snd (process_one fuel m grow e w) in
    w_tr w' = w_tr w ++ [(KRecvfrom fd 76800 256, r1); (KPrint, r2);
                         (KPacketCb 0 0 snil [] (q_priv (w_st w)), r3)] ++ rest.
Proof.
  intros Q EC CB E. unfold process_one.
  rewrite (bind_ok _ _ _ _ _ _ (recv_err m e w fd Q fuel en E)).
  mstep. rewrite EC. mstep. mstep. mstep. rewrite bind_get_heap. cbn [w_heap].
  replace (GetPacketInfo m (w_heap w) None) with (Ok (0, 0, snil) : res (Z * Z * slice))
    by (unfold GetPacketInfo; reflexivity).
  mstep. mstep. mstep. rewrite CB. mstep. mstep.
  replace (rd (w_heap w) snil) with (@nil Z) by reflexivity.
  match goal with |- context[run_acts m grow ?l e ?w1] => destruct (grows_acts m grow l e w1) as [rest R] end.
  cbv zeta. eexists _, _, _, rest. rewrite R. cbn [w_tr].
  rewrite <- !app_assoc. cbn [app]. reflexivity.
Qed.
