(** Verdicts under the application's mutex: C79. *)
From Verif Require Export Proof.LockNI.

Section CODE.
Context (m : endian) (q : vhandle) (h : heap).
Hypothesis N : is_u16 (h_num q).
Let A := s_arr (h_hdr q).

Lemma store_code_writes a i v k : (k < length v)%nat -> writes (store_code a i v) a (i + k)%nat.
Proof.
  intros H. exists (IStore a (i + k) (nth k v 0)). split; [|cbn; auto].
  unfold store_code. apply in_map_iff. exists k. split; [reflexivity|]. apply in_seq. lia.
Qed.
Lemma stores_writes a off ws : forall o k, 0 <= o -> contiguous o ws -> (k < length (payload ws))%nat ->
  writes (flat_map (fun ov => store_code a (off + Z.to_nat (fst ov)) (snd ov)) ws) a (off + Z.to_nat o + k)%nat.
Proof.
  induction ws as [|[o' v] ws IH]; intros o k O C K; [cbn in K; lia|].
  destruct C as [-> C]. unfold payload in K. cbn [map concat snd] in K. rewrite app_length in K. fold (payload ws) in K.
  cbn [flat_map fst snd].
  destruct (Nat.ltb_spec k (length v)) as [L|L].
  - destruct (store_code_writes a (off + Z.to_nat o) v k L) as (x & I & W). exists x. split; [apply in_or_app; now left|exact W].
  - destruct (IH (o + zlen v) (k - length v)%nat) as (x & I & W); [unfold zlen; lia|exact C|lia|].
    exists x. split; [apply in_or_app; now right|].
    replace (off + Z.to_nat o + k)%nat with (off + Z.to_nat (o + zlen v) + (k - length v))%nat by (unfold zlen; lia). exact W.
Qed.

(** in a call the header buffer is filled before it is read *)
Lemma call_fills_first c : vcall_ok h q c ->
  forall p y s k, call_code m q c = p ++ y :: s -> touch y A k -> write y A k \/ writes p A k.
Proof.
  intros OK p y s k E T. pose proof OK as (V & NE & _). pose proof (call_shape m q h N c OK) as S. cbv zeta in S.
  assert (PK : forall k', ~ in_packet (v_pkt c) A k') by (intros k' [X _]; apply NE; symmetry; exact X).
  assert (IY : In y (call_code m q c)) by (rewrite E; apply in_or_app; right; now left).
  destruct (v_mark c) as [mk|] eqn:MK.
  - destruct S as (ws & E' & C & P). rewrite E in E'.
    set (st := flat_map _ ws) in E'. set (rest := pad_code _ _ ++ _) in E'.
    destruct (Nat.ltb_spec (length p) (length st)) as [L|L].
    + left. assert (IS : In y st).
      { assert (X : nth_error (st ++ rest) (length p) = Some y) by (rewrite <- E', nth_error_app2, Nat.sub_diag by lia; reflexivity).
        rewrite nth_error_app1 in X by exact L. now apply nth_error_In in X. }
      apply in_flat_map in IS as ([o v] & _ & IS). apply in_store_code in IS as (j & b & -> & _). exact T.
    + right. assert (PS : exists p', p = st ++ p' /\ p' ++ y :: s = rest).
      { exists (skipn (length st) p). assert (F : firstn (length st) p = st).
        { apply (f_equal (firstn (length st))) in E'. rewrite firstn_app in E'.
          replace (length st - length p)%nat with 0%nat in E' by lia. cbn [firstn] in E'. rewrite app_nil_r in E'.
          rewrite firstn_app, Nat.sub_diag, firstn_all in E'. cbn [firstn] in E'. now rewrite app_nil_r in E'. }
        assert (FP : p = st ++ skipn (length st) p) by (rewrite <- F at 1; now rewrite firstn_skipn).
        split; [exact FP|]. rewrite FP, <- app_assoc in E'. now apply app_inv_head in E'. }
      destruct PS as (p' & -> & E2). assert (IR : In y rest) by (rewrite <- E2; apply in_or_app; right; now left).
      unfold rest in IR. repeat (apply in_app_or in IR as [IR|IR]).
      * apply pad_code_foot in IR as [H1 _]. exfalso. apply (PK k). auto.
      * apply in_load_code in IR as (j & -> & J). cbn in T. destruct T as [_ ->].
        destruct (stores_writes A (s_off (h_hdr q)) ws 0 j) as (x & Ix & Wx); [lia|exact C|rewrite P, sv2_bytes_length; exact J|].
        exists x. split; [apply in_or_app; now left|]. cbn in Wx. rewrite Nat.add_0_r in Wx. exact Wx.
      * destruct IR as [<-|[]]. destruct T.
      * apply read_code_foot in IR as [H1 _]. exfalso. apply (PK k). auto.
      * destruct IR as [<-|[]]. destruct T.
  - exfalso. destruct (call_foot m q h N c y OK IY) as [F _]. apply F in T as [T|[X _]]; [exact (PK k T)|congruence].
Qed.
Lemma call_free c : vcall_ok h q c -> v_mark c = None -> forall x k, In x (call_code m q c) -> ~ touch x A k.
Proof.
  intros OK MK x k I T. pose proof OK as (V & NE & _). destruct (call_foot m q h N c x OK I) as [F _].
  apply F in T as [[X _]|[X _]]; [|congruence]. apply NE. symmetry. exact X.
Qed.
Lemma lcall_wf g : vcall_ok h q (snd g) -> (v_mark (snd g) <> None -> fst g = true) -> wfc A None (lcall_code m q g).
Proof.
  intros OK G. unfold lcall_code. destruct (fst g).
  - apply wfc_crit. apply call_fills_first. exact OK.
  - apply wfc_free. apply call_free; [exact OK|]. destruct (v_mark (snd g)); [|reflexivity]. discriminate G. discriminate.
Qed.
Lemma lthread_wf cs : Forall (vcall_ok h q) (map snd cs) -> guards_SetVerdict2 cs -> wfc A None (lthread_code m q cs).
Proof.
  induction cs as [|g cs IH]; intros F G; [reflexivity|]. inversion F; subst. cbn [lthread_code flat_map].
  apply wfc_app; [apply lcall_wf; [assumption|apply G; now left]|]. apply IH; [assumption|]. intros x I. apply G. now right.
Qed.
Lemma strip_call g : strip (lcall_code m q g) = call_code m q (snd g).
Proof. unfold lcall_code. destruct (fst g); cbn [strip]; rewrite ?strip_app, strip_do; cbn [strip]; rewrite ?app_nil_r; reflexivity. Qed.
Lemma strip_thread cs : strip (lthread_code m q cs) = thread_code m q (map snd cs).
Proof.
  induction cs as [|g cs IH]; [reflexivity|]. cbn [lthread_code thread_code flat_map map]. rewrite strip_app, strip_call.
  f_equal. exact IH.
Qed.
End CODE.
Lemma strip_loop m q rb turns : strip (lloop_code m q rb turns) = loop_code m q rb (plain turns).
Proof.
  induction turns as [|t turns IH]; [reflexivity|]. cbn [lloop_code plain loop_code flat_map map].
  rewrite strip_app. f_equal; [|exact IH]. unfold lturn_code, turn_code. cbn [tn_data tn_calls].
  rewrite strip_app, strip_do, strip_thread. reflexivity.
Qed.
Lemma lloop_wf m q h rb turns : is_u16 (h_num q) -> rb <> s_arr (h_hdr q) ->
  (forall t c, In t (plain turns) -> In c (tn_calls t) -> delivered h q rb (tn_data t) c) ->
  (forall t, In t turns -> guards_SetVerdict2 (lt_calls t)) ->
  wfc (s_arr (h_hdr q)) None (lloop_code m q rb turns).
Proof.
  intros N RH. induction turns as [|t turns IH]; intros D G; [reflexivity|]. cbn [lloop_code flat_map].
  apply wfc_app.
  - unfold lturn_code. apply wfc_app.
    + apply wfc_free. intros x k I T. apply in_store_code in I as (j & b & -> & _). cbn in T. destruct T. congruence.
    + apply (lthread_wf m q (hold h rb (lt_data t)) N); [|apply G; now left].
      apply Forall_forall. intros c I. apply (D (mkTurn (lt_data t) (map snd (lt_calls t))) c); [now left|exact I].
  - apply IH; [intros u c I; apply D; now right|intros u I; apply G; now right].
Qed.

Section MAIN.
Context (m : endian) (q : vhandle) (rb : nat) (turns : list lturn) (workers : list (list gcall)) (h : heap).
Hypothesis LL : loop_layout h q rb (plain turns) (plain_calls workers).
Hypothesis GT : forall t, In t turns -> guards_SetVerdict2 (lt_calls t).
Hypothesis GW : forall cs, In cs workers -> guards_SetVerdict2 cs.
Let codes := lloop_code m q rb turns :: map (lthread_code m q) workers.
Let A := s_arr (h_hdr q).

Lemma codes_S j : nth_error codes (S j) = option_map (lthread_code m q) (nth_error workers j).
Proof. unfold codes. cbn [nth_error]. apply nth_error_map. Qed.
Lemma plain_nth j cs : nth_error workers j = Some cs -> nth_error (plain_calls workers) j = Some (map snd cs).
Proof. intros H. unfold plain_calls. exact (map_nth_error (map snd) j workers H). Qed.

Lemma lock_wf i ci : nth_error codes i = Some ci -> wfc A None ci.
Proof.
  destruct LL as [LH LN [RB RH] LF LD LDK LC LCP LA LK]. destruct i as [|i]; intros H.
  - injection H as <-. eapply lloop_wf; eauto.
  - rewrite codes_S in H. destruct (nth_error workers i) as [cs|] eqn:E; [|discriminate]. injection H as <-.
    apply (lthread_wf m q h LN); [|apply GW; eapply nth_error_In; eauto].
    rewrite Forall_forall in LC. apply LC. eapply nth_error_In. apply plain_nth. exact E.
Qed.
Lemma lock_disj i j ci cj a k : i <> j -> nth_error codes i = Some ci -> nth_error codes j = Some cj ->
  writes (strip cj) a k -> touches (strip ci) a k -> a = A.
Proof.
  destruct LL as [LH LN [RB RH] LF LD LDK LC LCP LA LK]. rewrite Forall_forall in LC.
  assert (WK : forall i cs a k, nth_error workers i = Some cs -> touches (strip (lthread_code m q cs)) a k -> a <> A ->
     a <> rb /\ exists c, In c (map snd cs) /\ in_packet (v_pkt c) a k).
  { intros i' cs a' k' Hi T NA. pose proof (nth_error_In _ _ (plain_nth _ _ Hi)) as Ii. rewrite strip_thread in T.
    apply (code_foot m q h LN _ a' k' (LC _ Ii)) in T as (x & Ix & T).
    destruct T as [T|[_ T]]; [|exfalso; exact (NA T)]. split; [|eauto]. destruct T as [T1 _]. rewrite T1. exact (LCP _ x Ii Ix). }
  assert (WW : forall i cs a k, nth_error workers i = Some cs -> writes (strip (lthread_code m q cs)) a k -> a <> A ->
     exists c, In c (map snd cs) /\ in_pad (v_pkt c) a k).
  { intros i' cs a' k' Hi T NA. pose proof (nth_error_In _ _ (plain_nth _ _ Hi)) as Ii. rewrite strip_thread in T.
    apply (code_foot m q h LN _ a' k' (LC _ Ii)) in T as (x & Ix & T). destruct T as [T|[_ T]]; [|exfalso; exact (NA T)]. eauto. }
  assert (LO : forall a k, touches (strip (lloop_code m q rb turns)) a k -> a <> A -> a = rb).
  { intros a' k' T NA. rewrite strip_loop in T. apply (loop_foot m q h rb LN) in T; [|assumption].
    destruct T as [T|(t & c & _ & _ & _ & T)]; [exact T|exfalso; exact (NA T)]. }
  intros NE Hi Hj W T. destruct (Nat.eq_dec a A) as [->|NA]; [reflexivity|exfalso].
  destruct i as [|i], j as [|j]; [congruence| | |].
  - injection Hi as <-. rewrite codes_S in Hj. destruct (nth_error workers j) as [cs|] eqn:E; [|discriminate]. injection Hj as <-.
    apply writes_touches in W. destruct (WK j cs a k E W NA) as [X _]. apply X. eauto.
  - injection Hj as <-. rewrite codes_S in Hi. destruct (nth_error workers i) as [cs|] eqn:E; [|discriminate]. injection Hi as <-.
    apply writes_touches in W. destruct (WK i cs a k E T NA) as [X _]. apply X. eauto.
  - rewrite codes_S in Hi, Hj. destruct (nth_error workers i) as [csi|] eqn:Ei; [|discriminate].
    destruct (nth_error workers j) as [csj|] eqn:Ej; [|discriminate]. injection Hi as <-. injection Hj as <-.
    destruct (WK i csi a k Ei T NA) as (_ & x & Ix & X). destruct (WW j csj a k Ej W NA) as (y & Iy & Y).
    assert (NE' : i <> j) by congruence.
    pose proof (LA i j _ _ x y NE' (plain_nth _ _ Ei) (plain_nth _ _ Ej) Ix Iy) as AP.
    unfold apart, in_packet, in_pad in *. lia.
Qed.
Lemma lock_init : lk_inv A codes (mem_of h) (lkinit m q rb turns workers h).
Proof.
  intros [|j] t rest Hj; cbn [lkinit l_threads nth_error] in Hj.
  - injection Hj as <- <-. exists (lloop_code m q rb turns), []. cbn. repeat split; try discriminate; try congruence.
  - rewrite nth_error_map in Hj. destruct (nth_error workers j) as [cs|] eqn:Ej; [|discriminate].
    injection Hj as <- <-. exists (lthread_code m q cs), []. split; [rewrite codes_S, Ej; reflexivity|].
    cbn. repeat split; try discriminate; try congruence.
Qed.

Lemma locked_verdicts : forall c, lsteps (lkinit m q rb turns workers h) c ->
  (exists k t rest, nth_error (l_threads c) 0 = Some (t, rest) /\
     loop_sent m h q rb k (plain turns) (sent_by 0 (l_log c)) /\ (rest = [] -> k = length (loop_calls (plain turns)))) /\
  (forall i cs, nth_error workers i = Some cs ->
     exists k t rest, nth_error (l_threads c) (S i) = Some (t, rest) /\
       sent_first m h q k (map snd cs) (sent_by (S i) (l_log c)) /\ (rest = [] -> k = length cs)).
Proof.
  intros c ST. pose proof (lk_steps A codes (mem_of h) lock_disj lock_wf _ _ ST lock_init) as J.
  pose proof (lsteps_length _ _ ST) as LEN. cbn [lkinit l_threads length] in LEN. rewrite map_length in LEN.
  destruct LL as [LH LN [RB RH] LF LD LDK LC LCP LA LK]. rewrite Forall_forall in LC.
  split.
  - destruct (nth_error (l_threads c) 0) as [[t rest]|] eqn:Et; [|apply nth_error_None in Et; lia].
    destruct (J 0%nat t rest Et) as (code & pre & J1 & J2 & J3 & J4 & _). injection J1 as <-.
    destruct (loop_solo m q h rb LN RB RH (plain turns) (mem_of h) LD LDK) as (mm' & SOLO).
    rewrite <- strip_loop, J2, strip_app, srun_app in SOLO.
    destruct (srun (strip pre) idle (mem_of h)) as [[t1 m1] o1] eqn:SP. cbn [fst snd] in *.
    destruct (srun (strip rest) t1 m1) as [[t2 m2] o2] eqn:SR.
    assert (EO : map (dbytes m q h rb) (loop_calls (plain turns)) = o1 ++ o2) by (injection SOLO; auto).
    destruct (prefix_of_map _ _ _ _ EO) as (k & Hk & Ek).
    exists k, t, rest. split; [reflexivity|]. split.
    + split; [exact Hk|]. rewrite J4, Ek.
      assert (F' : forall dc, In dc (firstn k (loop_calls (plain turns))) -> vcall_ok (hold h rb (fst dc)) q (snd dc)).
      { intros dc I. assert (I' : In dc (loop_calls (plain turns))) by (rewrite <- (firstn_skipn k); apply in_or_app; now left).
        apply in_flat_map in I' as (tn & It & I'). apply in_map_iff in I' as (x & <- & Ix). apply (LD tn x It Ix). }
      clear - F' LN. induction (firstn k (loop_calls (plain turns))) as [|[d x] l IH]; [constructor|].
      constructor; [|apply IH; intros; apply F'; now right]. split; [reflexivity|]. cbn [dbytes fst snd].
      apply call_message; [exact LN|]. apply (F' (d, x)). now left.
    + intros ->. cbn [strip srun] in SR. injection SR as <- <- <-. rewrite app_nil_r in EO.
      rewrite Ek in EO. apply (f_equal (@length _)) in EO. rewrite !map_length, firstn_length in EO. lia.
  - intros i cs Hi.
    destruct (nth_error (l_threads c) (S i)) as [[t rest]|] eqn:Et.
    2:{ apply nth_error_None in Et. assert (i < length workers)%nat by (apply nth_error_Some; congruence). lia. }
    destruct (J (S i) t rest Et) as (code & pre & J1 & J2 & J3 & J4 & _).
    rewrite codes_S, Hi in J1. injection J1 as J1. pose proof (nth_error_In _ _ (plain_nth _ _ Hi)) as Ii.
    pose proof (LC _ Ii) as F.
    assert (KK : forall c c', In c (map snd cs) -> In c' (map snd cs) -> keeps (v_pkt c) (v_pkt c')) by (intros; eapply LK; eauto).
    destruct (thread_solo m q h LN (map snd cs) (mem_of h) F KK) as (mm' & SOLO).
    rewrite <- strip_thread, J1, J2, strip_app, srun_app in SOLO.
    destruct (srun (strip pre) idle (mem_of h)) as [[t1 m1] o1] eqn:SP. cbn [fst snd] in *.
    destruct (srun (strip rest) t1 m1) as [[t2 m2] o2] eqn:SR.
    assert (EO : map (fun c => (h_fd q, call_bytes m q c
          (mbytes (mem_of h) (s_arr (v_pkt c)) (s_off (v_pkt c)) (s_len (v_pkt c))))) (map snd cs) = o1 ++ o2)
      by (injection SOLO; auto).
    destruct (prefix_of_map _ _ _ _ EO) as (k & Hk & Ek).
    exists k, t, rest. split; [reflexivity|]. split.
    + split; [exact Hk|]. rewrite J4, Ek.
      assert (F' : Forall (vcall_ok h q) (firstn k (map snd cs))).
      { rewrite <- (firstn_skipn k (map snd cs)) in F. apply Forall_app in F as [F _]. exact F. }
      clear - F' LN. induction (firstn k (map snd cs)) as [|c l IH]; [constructor|].
      inversion F'; subst. constructor; [|auto]. split; [reflexivity|]. cbn [snd].
      destruct H1 as (V & R). rewrite mbytes_rd by exact V. apply call_message; auto. split; assumption.
    + intros ->. cbn [strip srun] in SR. injection SR as <- <- <-. rewrite app_nil_r in EO.
      rewrite Ek in EO. apply (f_equal (@length _)) in EO. rewrite !map_length, firstn_length, map_length in EO.
      rewrite map_length in Hk. lia.
Qed.
Lemma locked_finish c : lsteps (lkinit m q rb turns workers h) c -> exists c', lsteps c c' /\ lfinished c'.
Proof.
  intros ST. eapply (lk_finish A codes (mem_of h) lock_disj lock_wf); [|eapply own_steps; eauto; discriminate|reflexivity].
  exact (lk_steps A codes (mem_of h) lock_disj lock_wf _ _ ST lock_init).
Qed.
End MAIN.
