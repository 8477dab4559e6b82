(** A handle writes only to its own memory and to what it is given. *)
From Verif Require Export Spec.FrameSpec Proof.HeapFacts.

Lemma arr_upd_away h a b l : (b < length h)%nat -> a <> b -> arr (upd_arr h a l) b = arr h b.
Proof.
  intros L N. destruct (Nat.lt_ge_cases a (length h)) as [H|H]; [apply arr_upd_other; assumption|].
  unfold arr, upd_arr. rewrite firstn_all2 by lia. now rewrite app_nth1 by lia.
Qed.
Lemma upd_arr_grows h a l : (length h <= length (upd_arr h a l))%nat.
Proof.
  destruct (Nat.lt_ge_cases a (length h)) as [H|H]; [now rewrite upd_arr_length|].
  unfold upd_arr. rewrite firstn_all2 by lia. rewrite app_length. lia.
Qed.
Section FR.
Context (a : nat) (c : bytes).
Definition unch (h : heap) : Prop := (a < length h)%nat /\ arr h a = c.
Lemma upd_unch h s o v : away a s -> (v = [] \/ (0 < s_len s \/ 0 < s_cap s)%nat) -> unch h ->
  unch (upd_arr h (s_arr s) (splice (arr h (s_arr s)) o v)).
Proof.
  intros A V [L E]. split; [pose proof (upd_arr_grows h (s_arr s) (splice (arr h (s_arr s)) o v)); lia|].
  destruct (Nat.eq_dec (s_arr s) a) as [Ea|N]; [|now rewrite arr_upd_away].
  destruct A as [A|[A B]]; [congruence|]. destruct V as [-> |V]; [|lia].
  rewrite splice_nil. rewrite Ea, arr_upd_same by exact L. exact E.
Qed.
Lemma wr_unch h s i v h' : away a s -> wr h s i v = Ok h' -> unch h -> unch h'.
Proof.
  unfold wr. intros A W U. destruct (_ && _) eqn:C; [|discriminate]. injection W as <-.
  apply upd_unch; [exact A| |exact U]. apply andb_true_iff in C. destruct C as [C1 C2].
  apply Z.leb_le in C1, C2. unfold zlen in C2. destruct v; [left; reflexivity|right; left; cbn in C2; lia].
Qed.
Lemma scopy_unch h s v : away a s -> unch h -> unch (scopy h s v).
Proof.
  intros A U. unfold scopy. apply upd_unch; [exact A| |exact U].
  destruct (s_len s); [left; reflexivity|right; left; lia].
Qed.
Lemma alloc_unch h v sp : unch h -> unch (fst (alloc h v sp)) /\ away a (snd (alloc h v sp)).
Proof.
  intros [L E]. cbn [alloc fst snd]. split.
  - split; [rewrite app_length; cbn; lia|]. unfold arr. now rewrite app_nth1.
  - left. cbn. lia.
Qed.
Lemma append_unch g h s v : away a s -> unch h ->
  unch (fst (gappend g h s v)) /\ away a (snd (gappend g h s v)).
Proof.
  intros A U. unfold gappend. destruct (_ <=? _)%nat eqn:C; [|apply alloc_unch, U].
  apply Nat.leb_le in C. cbn [fst snd]. split.
  - destruct v as [|x v]; [exact U|]. apply upd_unch; [exact A| |exact U]. right. cbn in C. right. lia.
  - destruct A as [A|[A B]]; [left; exact A|right]. cbn. lia.
Qed.
Lemma away_reslice s lo hi t : away a s -> reslice s lo hi = Ok t -> away a t.
Proof.
  unfold reslice. intros A R. destruct (_ && _) eqn:C; [|discriminate]. injection R as <-.
  apply andb_true_iff in C. destruct C as [C C3]. apply andb_true_iff in C. destruct C as [C1 C2].
  apply Z.leb_le in C1, C2, C3. destruct A as [A|[A B]]; [left; exact A|right]. cbn. rewrite B in *. cbn in C3. split; lia.
Qed.
Lemma away_snil : away a snil.
Proof. right. split; reflexivity. Qed.
Definition tbl_away (t : attrmap) : Prop := Forall (fun kv => away a (snd kv)) t.
Lemma tbl_get t k s : tbl_away t -> amap_get t k = Some s -> away a s.
Proof.
  induction t as [|[k' s'] t IH]; cbn [amap_get]; [discriminate|]. intros H G. inversion H; subst.
  destruct (k' =? k); [injection G as <-; assumption|auto].
Qed.
Lemma tbl_set t k s : tbl_away t -> away a s -> tbl_away (amap_set t k s).
Proof.
  intros H S. induction t as [|[k' s'] t IH]; cbn [amap_set]; [exact H|]. inversion H; subst.
  destruct (k' =? k); constructor; auto. apply IH. assumption.
Qed.
Lemma attr_loop_away m h buf : away a buf -> forall fuel i t t' j er,
  tbl_away t -> nfattr_loop fuel m h buf i t = Ok (t', j, er) -> tbl_away t'.
Proof.
  intros B. induction fuel as [|f IH]; intros i t t' j er T; cbn [nfattr_loop]; [discriminate|].
  cbv zeta. intros E.
  repeat (match type of E with
          | (if ?b then _ else _) = _ => destruct b
          | rbind ?x _ = _ => destruct x eqn:?; cbn [rbind] in E; [|discriminate E|discriminate E]
          | match ?x with Some _ => _ | None => _ end = _ => destruct x
          | nfattr_loop _ _ _ _ _ _ = _ => eapply IH; [|exact E]; try exact T
          | Ok _ = Ok _ => injection E as <- <- <-; exact T
          end).
  apply tbl_set; [exact T|]. eapply away_reslice; [exact B|eassumption].
Qed.
Lemma attrs_away fuel m h buf t t' l er : away a buf -> tbl_away t ->
  NetlinkMessageToNfAttrStruct fuel m h buf t = Ok (t', l, er) -> tbl_away t'.
Proof.
  intros B T. unfold NetlinkMessageToNfAttrStruct.
  destruct (nfattr_loop fuel m h buf 0 t) as [[[t1 j] er1]| |] eqn:E; cbn [rbind]; try discriminate.
  apply attr_loop_away in E; [|exact B|exact T].
  destruct er1; [intros H; injection H as <- <- <-; exact E|].
  destruct (_ <=? _); [intros H; injection H as <- <- <-; exact E|].
  destruct (resl_from buf j); cbn [rbind]; try discriminate. intros H; injection H as <- <- <-; exact E.
Qed.
Lemma msg_away m h buf x y z : away a buf -> NetlinkMessageToStruct m h buf = Ok (x, y, z) -> away a y.
Proof.
  intros B. unfold NetlinkMessageToStruct. destruct (_ <=? _)%nat; [intros E; injection E as <- <- <-; exact away_snil|].
  cbv zeta. intros E.
  repeat (match type of E with
          | rbind ?x _ = _ => destruct x eqn:?; cbn [rbind] in E; [|discriminate E|discriminate E]
          | Ok _ = Ok _ => injection E as <- <- <- end).
  eapply away_reslice; [exact B|]. unfold resl_from in *. eassumption.
Qed.
Lemma gen_away h buf x y : away a buf -> NetlinkMessageToNfGenStruct h buf = Ok (x, y) -> away a y.
Proof.
  intros B. unfold NetlinkMessageToNfGenStruct. intros E.
  repeat (match type of E with
          | rbind ?x _ = _ => destruct x eqn:?; cbn [rbind] in E; [|discriminate E|discriminate E]
          | Ok _ = Ok _ => injection E as <- <- end).
  eapply away_reslice; [exact B|]. unfold resl_from in *. eassumption.
Qed.
(** ** computations *)
Definition st_away (q : nfq) : Prop :=
  away a (q_buf q) /\ away a (q_hdr q) /\ match q_handle q with Some k => away a (k_buf k) | None => True end /\
  tbl_away (q_attr q) /\ match q_cb q with Some cb => cb_away a cb | None => True end.
Definition intact (w : world nfq) : Prop := unch (w_heap w) /\ st_away (w_st w).
Definition fr {A} (x : MQ A) (Q : A -> Prop) : Prop :=
  forall e w, intact w -> intact (snd (x e w)) /\ (forall v, fst (x e w) = Ok v -> Q v).
Lemma fr_ret {A} (v : A) (Q : A -> Prop) : Q v -> fr (ret v) Q.
Proof. intros H e w G. split; [exact G|]. intros v' E. injection E as <-. exact H. Qed.
Lemma fr_lift {A} (v : res A) (Q : A -> Prop) : (forall x, v = Ok x -> Q x) -> fr (lift v) Q.
Proof. intros H e w G. split; [exact G|]. exact H. Qed.
Lemma fr_panic {A} (Q : A -> Prop) : fr mpanic Q.
Proof. intros e w G. split; [exact G|]. discriminate. Qed.
Lemma fr_nofuel {A} (Q : A -> Prop) : fr mnofuel Q.
Proof. intros e w G. split; [exact G|]. discriminate. Qed.
Lemma fr_get_tr (Q : list event -> Prop) : (forall t, Q t) -> fr get_tr Q.
Proof. intros H e w G. split; [exact G|]. intros v _. apply H. Qed.
Lemma fr_get_st : fr get_st st_away.
Proof. intros e w G. split; [exact G|]. intros v E. injection E as <-. apply G. Qed.
Lemma fr_get_heap : fr get_heap unch.
Proof. intros e w G. split; [exact G|]. intros v E. injection E as <-. apply G. Qed.
Lemma fr_put_heap h (Q : unit -> Prop) : unch h -> Q tt -> fr (put_heap h) Q.
Proof. intros H T e w G. split; [split; [exact H|apply G]|]. intros []; intros _. exact T. Qed.
Lemma fr_put_st q (Q : unit -> Prop) : st_away q -> Q tt -> fr (put_st q) Q.
Proof. intros H T e w G. split; [split; [apply G|exact H]|]. intros []; intros _. exact T. Qed.
Lemma fr_call k (Q : resp -> Prop) : (forall r, Q r) -> fr (do_call k) Q.
Proof. intros H e w G. split; [exact G|]. intros r _. apply H. Qed.
Lemma fr_bind {A B} (x : MQ A) (f : A -> MQ B) R Q :
  fr x R -> (forall v, R v -> fr (f v) Q) -> fr (mbind x f) Q.
Proof.
  intros Hx Hf e w G. unfold mbind. destruct (Hx e w G) as [G1 V].
  destruct (x e w) as [[v| |] w1]; cbn [fst snd] in *; [|split; [exact G1|discriminate]..].
  apply Hf; [apply V; reflexivity|exact G1].
Qed.
Lemma fr_weaken {A} (x : MQ A) (Q R : A -> Prop) : (forall v, Q v -> R v) -> fr x Q -> fr x R.
Proof. intros H F e w G. destruct (F e w G) as [G1 V]. split; [exact G1|]. intros v E. apply H, V, E. Qed.
End FR.
Notation any := (fun _ => True).
Ltac fstep :=
  lazymatch goal with
  | |- fr _ _ (mbind get_st _) _ => eapply fr_bind; [apply fr_get_st|intros ? ?]
  | |- fr _ _ (mbind get_heap _) _ => eapply fr_bind; [apply fr_get_heap|intros ? ?]
  | |- fr _ _ (mbind get_tr _) _ => apply (fr_bind _ _ _ _ any); [apply fr_get_tr; intros; exact I|intros ? _]
  | |- fr _ _ (mbind (lift ?v) _) _ => apply (fr_bind _ _ _ _ (fun x => v = Ok x)); [apply fr_lift; intros ? He; exact He|intros ? ?]
  | |- fr _ _ (mbind (do_call _) _) _ => apply (fr_bind _ _ _ _ any); [apply fr_call; intros; exact I|intros ? _]
  | |- fr _ _ (mbind (mbind _ _) _) _ => apply (fr_bind _ _ _ _ any); [|intros ? _]
  | |- fr _ _ (mbind (match _ with _ => _ end) _) _ => apply (fr_bind _ _ _ _ any); [|intros ? _]
  | |- fr _ _ (mbind (put_st _) _) _ => apply (fr_bind _ _ _ _ any); [apply fr_put_st; [|exact I]|intros ? _]
  | |- fr _ _ (mbind (put_heap _) _) _ => apply (fr_bind _ _ _ _ any); [apply fr_put_heap; [|exact I]|intros ? _]
  | |- fr _ _ (ret _) _ => apply fr_ret; try exact I
  | |- fr _ _ (lift _) any => apply fr_lift; intros; exact I
  | |- fr _ _ (do_call _) any => apply fr_call; intros; exact I
  | |- fr _ _ mpanic _ => apply fr_panic
  | |- fr _ _ mnofuel _ => apply fr_nofuel
  | |- fr _ _ (match ?x with _ => _ end) _ => destruct x eqn:?
  | |- fr _ _ (let _ := _ in _) _ => cbv zeta
  end.
Section FR2.
Context (a : nat) (c : bytes).
Notation fr' := (fr a c).
Lemma fr_m_alloc v sp : fr' (m_alloc v sp) (away a).
Proof.
  unfold m_alloc. fstep. destruct (alloc v0 v sp) as [h' s] eqn:E.
  pose proof (alloc_unch a c v0 v sp H) as [U A]. rewrite E in U, A. fstep; [exact U|]. fstep. exact A.
Qed.
Lemma fr_m_stores s ws : away a s -> fr' (m_stores s ws) any.
Proof.
  intros A. induction ws as [|[o v] ws IH]; cbn [m_stores]; [fstep|].
  fstep. fstep. fstep; [eapply wr_unch; eassumption|exact IH].
Qed.
Lemma fr_recvfrom fd b fl : away a b -> fr' (sys_recvfrom fd b fl) any.
Proof. intros A. unfold sys_recvfrom. repeat fstep. apply scopy_unch; assumption. Qed.
Lemma fr_query m k hdr data : away a (k_buf k) -> fr' (nfq_query m k hdr data) any.
Proof.
  intros A. unfold nfq_query, nfq_send, nfq_recv.
  repeat (match goal with |- fr _ _ (mbind (sys_recvfrom _ _ _) _) _ => apply (fr_bind _ _ _ _ any); [apply fr_recvfrom; exact A|intros ? _] end || fstep).
Qed.
Lemma fr_config m g at_ h d : fr' (config_request m g at_ h d) any.
Proof.
  unfold config_request. repeat fstep. apply fr_query.
  match goal with H : st_away a _ |- _ => destruct H as (_ & _ & X & _) end.
  match goal with E : q_handle _ = _ |- _ => rewrite E in X end. exact X.
Qed.
Lemma fr_sendmsg fd iov : fr' (sendmsg fd iov) any.
Proof. unfold sendmsg. repeat fstep. Qed.
Lemma fr_pad g p v : away a p -> fr' (append_pad g p v) (away a).
Proof.
  intros A. unfold append_pad. destruct v as [|x v]; [apply fr_ret; exact A|].
  fstep. destruct (gappend g v0 p (x :: v)) as [h' s] eqn:E.
  pose proof (append_unch a c g v0 p (x :: v) A H) as [U B]. rewrite E in U, B. fstep; [exact U|]. fstep. exact B.
Qed.
Lemma fr_SetVerdict m g v pl id p : away a p -> fr' (SetVerdict m g v pl id p) any.
Proof.
  intros A. unfold SetVerdict. cbn [BuildNfgenMsg BuildNfAttrMsg].
  repeat (match goal with
          | |- fr _ _ (mbind (m_alloc _ _) _) _ => eapply fr_bind; [apply fr_m_alloc|intros ? ?]
          | |- fr _ _ (mbind (append_pad _ _ _) _) _ => eapply fr_bind; [apply fr_pad; exact A|intros ? ?]
          | |- fr _ _ (sendmsg _ _) _ => apply fr_sendmsg
          end || fstep).
  destruct (v =? 1); exact H.
Qed.
Lemma fr_SetVerdict2 m g v mk pl id p : away a p -> fr' (SetVerdict2 m g v mk pl id p) any.
Proof.
  intros A. unfold SetVerdict2. fstep. destruct (sv2_hdr _ _ _ _ _ _) as [[ws n] at_].
  repeat (match goal with
          | |- fr _ _ (mbind (m_stores _ _) _) _ => apply (fr_bind _ _ _ _ any); [apply fr_m_stores; apply H|intros ? _]
          | |- fr _ _ (mbind (append_pad _ _ _) _) _ => eapply fr_bind; [apply fr_pad; exact A|intros ? ?]
          | |- fr _ _ (sendmsg _ _) _ => apply fr_sendmsg
          end || fstep).
Qed.
Ltac fconf := repeat (match goal with |- fr _ _ (config_request _ _ _ _ _) _ => apply fr_config end || fstep).
Lemma fr_Destroy m : fr' (NfqDestroyQueue m) any.
Proof. unfold NfqDestroyQueue. cbn [BuildNfgenMsg BuildNfAttrMsg]. fconf. Qed.
Lemma fr_Close : fr' NfqClose any.
Proof. unfold NfqClose. fconf. Qed.
Lemma fr_Stop m : fr' (StopQueue m) any.
Proof.
  unfold StopQueue. repeat (match goal with
    | |- fr _ _ (mbind (NfqDestroyQueue _) _) _ => apply (fr_bind _ _ _ _ any); [apply fr_Destroy|intros ? _]
    | |- fr _ _ (mbind NfqClose _) _ => apply (fr_bind _ _ _ _ any); [apply fr_Close|intros ? _] end || fstep).
Qed.
Lemma fr_acts m g l : Forall (act_away a) l -> fr' (run_acts m g l) any.
Proof.
  induction l as [|x l IH]; cbn [run_acts]; intros F; [fstep|]. inversion F as [|? ? Fx Fl]; subst.
  apply (fr_bind _ _ _ _ any); [|intros _ _; exact (IH Fl)].
  destruct x; cbn [act_away] in Fx; [apply fr_SetVerdict, Fx|apply fr_SetVerdict2, Fx|apply fr_m_stores, Fx| |].
  - eapply fr_bind; [apply fr_m_alloc|intros ? _; apply fr_ret; exact I].
  - eapply fr_bind; [apply fr_Stop|intros ? _; apply fr_ret; exact I].
Qed.
Definition recv_post (x : option nfgenmsg * option attrmap * option gerr) : Prop :=
  match snd (fst x) with Some t => tbl_away a t | None => True end.
Lemma fr_Recv fuel m : fr' (Recv fuel m) recv_post.
Proof.
  unfold Recv. fstep. rename v into q, H into Q. destruct (q_handle q) as [k|] eqn:K; [|fstep]. cbv zeta.
  apply (fr_bind _ _ _ _ any); [apply fr_recvfrom; apply Q|intros [[en|] n] _]; [fstep; exact I|].
  fstep. fstep. fstep. destruct v1 as [[[hdr|] pl] er]; [|fstep].
  assert (P : away a pl).
  { match goal with R : resl_to _ _ = Ok _, E : NetlinkMessageToStruct _ _ _ = Ok _ |- _ =>
      exact (msg_away a _ _ _ _ _ _ (away_reslice a _ _ _ _ (proj1 Q) R) E) end. }
  apply (fr_bind _ _ _ _ any); [repeat fstep|intros stop _]. destruct stop; [fstep; exact I|].
  destruct er; [fstep; exact I|]. fstep. destruct v1 as [g pl2].
  assert (P2 : away a pl2).
  { match goal with E : NetlinkMessageToNfGenStruct _ _ = Ok _ |- _ => exact (gen_away a _ _ _ _ P E) end. }
  fstep. destruct v1 as [[t l] er].
  assert (T : tbl_away a t).
  { destruct Q as (_ & _ & _ & Q4 & _).
    match goal with E : NetlinkMessageToNfAttrStruct _ _ _ _ _ = Ok _ |- _ => exact (attrs_away a _ _ _ _ _ _ _ _ P2 Q4 E) end. }
  fstep. rename v1 into q2. match goal with H : st_away a q2 |- _ => rename H into Q2 end. fstep.
  - destruct Q2 as (A1 & A2 & A3 & A4 & A5). unfold st_away. cbn [set_attr q_buf q_hdr q_handle q_attr q_cb]. auto.
  - fstep. exact T.
Qed.
Lemma info_away m h t i mk p : match t with Some t => tbl_away a t | None => True end ->
  GetPacketInfo m h t = Ok (i, mk, p) -> away a p.
Proof.
  intros T. unfold GetPacketInfo. intros E.
  assert (T' : tbl_away a (match t with Some t => t | None => [] end)) by (destruct t; [exact T|constructor]).
  revert T' E. generalize (match t with Some t => t | None => [] end). clear T t. intros t T E. cbv zeta in E.
  repeat (match type of E with rbind ?x _ = _ => destruct x; cbn [rbind] in E; [|discriminate E|discriminate E] end).
  destruct (amap_get t NfqaPayload) eqn:G; injection E as <- <- <-; [eapply tbl_get; eassumption|apply away_snil].
Qed.
Lemma fr_one fuel m g : fr' (process_one fuel m g) any.
Proof.
  unfold process_one. eapply fr_bind; [apply fr_Recv|]. intros [[gen t] er] T. unfold recv_post in T. cbn [fst snd] in T.
  fstep. apply (fr_bind _ _ _ _ any); [repeat fstep|intros skip _]. destruct skip; [fstep|].
  fstep. fstep. destruct v1 as [[id mk] p].
  assert (P : away a p) by (eapply info_away; [|eassumption]; exact T).
  fstep. rename v1 into q2. match goal with H : st_away a q2 |- _ => rename H into Q2 end.
  fstep; [exact Q2|]. destruct (q_cb q2) as [cb|] eqn:CB; [|fstep]. fstep. fstep.
  apply fr_acts. destruct Q2 as (_ & _ & _ & _ & C). rewrite CB in C. apply C. exact P.
Qed.
Lemma fr_loop n fuel m g : fr' (ProcessPackets n fuel m g) any.
Proof.
  induction n as [|n IH]; cbn [ProcessPackets]; [fstep|].
  repeat (match goal with
    | |- fr _ _ (mbind (process_one _ _ _) _) _ => apply (fr_bind _ _ _ _ any); [apply fr_one|intros ? _]
    | |- fr _ _ (mbind NfqClose _) _ => apply (fr_bind _ _ _ _ any); [apply fr_Close|intros ? _]
    | |- fr _ _ NfqClose _ => apply fr_Close
    | |- fr _ _ (ProcessPackets _ _ _ _) _ => exact IH end || fstep).
Qed.
Lemma fr_Open : fr' NfqOpen any.
Proof.
  unfold NfqOpen. cbv zeta. repeat fstep; try assumption.
  destruct H0 as (A1 & A2 & A3 & A4 & A5). repeat split; assumption.
Qed.
Lemma fr_CreateQueue m n cb ecb pd : match cb with Some f => cb_away a f | None => True end ->
  fr' (CreateQueue m n cb ecb pd) any.
Proof.
  intros C. unfold CreateQueue. cbn [BuildNfgenMsg BuildNfAttrMsg]. fconf.
  destruct H as (A1 & A2 & A3 & A4 & A5). repeat split; assumption.
Qed.
Lemma fr_SetMode m x b : fr' (NfqSetMode m x b) any.
Proof. unfold NfqSetMode. cbn [BuildNfgenMsg BuildNfAttrMsg]. fconf. Qed.
Lemma fr_SetMax m x : fr' (NfqSetQueueMaxLen m x) any.
Proof. unfold NfqSetQueueMaxLen. cbn [BuildNfgenMsg BuildNfAttrMsg]. fconf. Qed.
Lemma fr_BindPf m : fr' (BindPf m) any.
Proof. unfold BindPf. cbn [BuildNfgenMsg BuildNfAttrMsg]. fconf. Qed.
Lemma fr_UnbindPf m : fr' (UnbindPf m) any.
Proof. unfold UnbindPf. cbn [BuildNfgenMsg BuildNfAttrMsg]. fconf. Qed.
End FR2.
