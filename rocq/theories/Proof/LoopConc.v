(** The receive loop beside other goroutines (C78). *)
From Verif Require Export Proof.ConcProps Spec.LoopConcSpec.

Lemma hold_arr_len h rb d : (rb < length h)%nat -> (length d <= length (arr h rb))%nat ->
  length (d ++ skipn (length d) (arr h rb)) = length (arr h rb).
Proof. intros A B. rewrite app_length, skipn_length. lia. Qed.
Lemma rd_hold h rb d s : (rb < length h)%nat -> s_arr s = rb -> (s_off s + s_len s <= length d)%nat ->
  rd (hold h rb d) s = firstn (s_len s) (skipn (s_off s) d).
Proof.
  intros A E L. unfold rd, hold. rewrite E, arr_upd_same by exact A.
  rewrite skipn_app, firstn_app, skipn_length.
  replace (s_len s - (length d - s_off s))%nat with 0%nat by lia. cbn [firstn]. now rewrite app_nil_r.
Qed.

Section LOOP.
Context (m : endian) (q : vhandle) (h : heap) (rb : nat).
Hypothesis N : is_u16 (h_num q).
Hypothesis RB : (rb < length h)%nat.
Hypothesis RH : rb <> s_arr (h_hdr q).

Lemma stored_mbytes d t mm s : s_arr s = rb -> (s_off s + s_len s <= length d)%nat ->
  mbytes (snd (fst (srun (store_code rb 0 d) t mm))) (s_arr s) (s_off s) (s_len s) = rd (hold h rb d) s.
Proof.
  intros E L. rewrite rd_hold by assumption. destruct (store_run rb d 0 t mm) as (m1 & E1 & A1 & _). rewrite E1.
  cbn [fst snd]. rewrite E.
  assert (LL : length (firstn (s_len s) (skipn (s_off s) d)) = s_len s) by (rewrite firstn_length, skipn_length; lia).
  rewrite <- LL at 1. apply mbytes_eq. intros k Hk. rewrite LL in Hk. rewrite nth_firstn' by exact Hk.
  rewrite nth_skipn'. apply (A1 (s_off s + k)%nat). lia.
Qed.

Definition dbytes (dc : bytes * vcall) : Z * bytes :=
  (h_fd q, call_bytes m q (snd dc) (rd (hold h rb (fst dc)) (v_pkt (snd dc)))).
Lemma loop_solo turns : forall mm,
  (forall t c, In t turns -> In c (tn_calls t) -> delivered h q rb (tn_data t) c) ->
  (forall t c c', In t turns -> In c (tn_calls t) -> In c' (tn_calls t) -> keeps (v_pkt c) (v_pkt c')) ->
  exists mm', srun (loop_code m q rb turns) idle mm = (idle, mm', map dbytes (loop_calls turns)).
Proof.
  induction turns as [|t turns IH]; intros mm D K; [exists mm; reflexivity|].
  unfold loop_code, loop_calls. cbn [flat_map]. unfold turn_code at 1. rewrite <- app_assoc, srun_app.
  destruct (store_run rb (tn_data t) 0 idle mm) as (m1 & E1 & _ & _).
  assert (SB : forall c, In c (tn_calls t) ->
    mbytes m1 (s_arr (v_pkt c)) (s_off (v_pkt c)) (s_len (v_pkt c)) = rd (hold h rb (tn_data t)) (v_pkt c)).
  { intros c Ic. destruct (D t c (or_introl eq_refl) Ic) as (_ & A & L).
    pose proof (stored_mbytes (tn_data t) idle mm (v_pkt c) A L) as X. rewrite E1 in X. exact X. }
  rewrite E1, srun_app.
  destruct (thread_solo m q (hold h rb (tn_data t)) N (tn_calls t) m1) as (m2 & E2).
  { apply Forall_forall. intros c Ic. apply (D t c (or_introl eq_refl) Ic). }
  { intros c c' Ic Ic'. apply (K t); auto. now left. }
  rewrite E2. destruct (IH m2) as (m3 & E3); [intros; apply D; [right|]; assumption|intros t' c c' ?; apply (K t'); now right|].
  unfold loop_code, loop_calls in E3. rewrite E3. exists m3. cbn [app]. f_equal. rewrite map_app, map_map. f_equal.
  apply map_ext_in. intros c Ic. unfold dbytes. cbn [fst snd]. now rewrite SB.
Qed.

Lemma loop_foot turns a k :
  (forall t c, In t turns -> In c (tn_calls t) -> delivered h q rb (tn_data t) c) ->
  touches (loop_code m q rb turns) a k ->
  a = rb \/ exists t c, In t turns /\ In c (tn_calls t) /\ in_hdr q c a k.
Proof.
  intros D (x & I & T). apply in_flat_map in I as (t & It & I). apply in_app_or in I as [I|I].
  - apply in_store_code in I as (j & b & -> & _). left. apply T.
  - apply in_flat_map in I as (c & Ic & I). destruct (D t c It Ic) as (OK & A & _).
    destruct (call_foot m q _ N c x OK I) as [F _]. apply F in T as [T|T].
    + left. rewrite <- A. apply T.
    + right. exists t, c. auto.
Qed.
End LOOP.

Lemma writes_touches l a k : writes l a k -> touches l a k.
Proof. intros (x & I & W). exists x. split; [exact I|]. destruct x; cbn in *; tauto. Qed.

Lemma threads_length c0 c : csteps c0 c -> length (c_threads c) = length (c_threads c0).
Proof.
  induction 1 as [c|c c1 c2 H IH S]; [reflexivity|].
  destruct S. unfold step_thread. destruct (exec _ _ _) as [[? ?] ?]. destruct (counts _ _ _).
  cbn [c_threads]. rewrite set_nth_length. auto.
Qed.

Lemma loop_and_verdicts m q rb turns workers h i0 :
  loop_layout h q rb turns workers ->
  only_user_of_SetVerdict2 i0 (map snd (loop_calls turns) :: workers) ->
  forall c, csteps (linit m q rb turns workers h) c ->
  (exists k t rest, nth_error (c_threads c) 0 = Some (t, rest) /\
     loop_sent m h q rb k turns (sent_by 0 (c_log c)) /\ (rest = [] -> k = length (loop_calls turns))) /\
  (forall i cs, nth_error workers i = Some cs ->
     exists k t rest, nth_error (c_threads c) (S i) = Some (t, rest) /\
       sent_first m h q k cs (sent_by (S i) (c_log c)) /\ (rest = [] -> k = length cs)).
Proof.
  intros [LH LN [RB RH] LF LD LDK LC LCP LA LK] U c ST.
  set (codes := loop_code m q rb turns :: map (thread_code m q) workers).
  assert (UL : forall t c, In t turns -> In c (tn_calls t) -> v_mark c <> None -> 0%nat = i0).
  { intros t x It Ix M. eapply (U 0%nat); [reflexivity| |exact M]. apply in_map_iff. exists (tn_data t, x).
    split; [reflexivity|]. apply in_flat_map. exists t. split; [exact It|]. now apply in_map. }
  assert (UW : forall i cs c, nth_error workers i = Some cs -> In c cs -> v_mark c <> None -> S i = i0).
  { intros i cs x Hi Ix M. eapply (U (S i)); eauto. }
  rewrite Forall_forall in LC.
  assert (CO : forall j, nth_error codes (S j) = option_map (thread_code m q) (nth_error workers j))
    by (intros j; unfold codes; cbn [nth_error]; apply nth_error_map).
  assert (WF : forall i cs a k, nth_error workers i = Some cs -> touches (thread_code m q cs) a k ->
     a <> rb /\ exists c, In c cs /\ (in_packet (v_pkt c) a k \/ in_hdr q c a k)).
  { intros i cs a k Hi T. pose proof (nth_error_In _ _ Hi) as Ii.
    apply (code_foot m q h LN cs a k (LC cs Ii)) in T as (x & Ix & T). split; [|eauto].
    destruct T as [T|T]; destruct T as [T1 T2]; [rewrite T1; exact (LCP cs x Ii Ix)|congruence]. }
  assert (HP : forall i cs x a k, nth_error workers i = Some cs -> In x cs -> in_packet (v_pkt x) a k -> a <> s_arr (h_hdr q)).
  { intros i cs x a k Hi Ix [A _]. pose proof (LC cs (nth_error_In _ _ Hi)) as F. rewrite Forall_forall in F.
    destruct (F x Ix) as (_ & NE & _). congruence. }
  assert (PP : forall p a k, in_pad p a k -> in_packet p a k) by (unfold in_pad, in_packet; intros; lia).
  assert (LW : forall j csj a k, nth_error workers j = Some csj ->
     touches (thread_code m q csj) a k -> touches (loop_code m q rb turns) a k -> False).
  { intros j csj a k Ej W T. destruct (WF j csj a k Ej W) as (NA & x & Ix & X).
    apply (loop_foot m q h rb LN) in T; [|assumption]. destruct T as [T|(t & y & It & Iy & M & A)]; [congruence|].
    destruct X as [X|[X1 X2]].
    - exact (HP j csj x a k Ej Ix X A).
    - pose proof (UL t y It Iy M). pose proof (UW j csj x Ej Ix X1). lia. }
  assert (DISJ : forall i j ci cj a k, i <> j ->
     nth_error codes i = Some ci -> nth_error codes j = Some cj -> writes cj a k -> ~ touches ci a k).
  { intros [|i] [|j] ci cj a k NE Hi Hj W T; [congruence| | |].
    - injection Hi as <-. rewrite CO in Hj. destruct (nth_error workers j) as [csj|] eqn:Ej; [|discriminate].
      injection Hj as <-. apply writes_touches in W. eauto.
    - injection Hj as <-. rewrite CO in Hi. destruct (nth_error workers i) as [csi|] eqn:Ei; [|discriminate].
      injection Hi as <-. apply writes_touches in W. eauto.
    - rewrite CO in Hi, Hj. destruct (nth_error workers i) as [csi|] eqn:Ei; [|discriminate].
      destruct (nth_error workers j) as [csj|] eqn:Ej; [|discriminate]. injection Hi as <-. injection Hj as <-.
      destruct (WF i csi a k Ei T) as (_ & x & Ix & X).
      apply (code_foot m q h LN csj a k (LC csj (nth_error_In _ _ Ej))) in W as (y & Iy & Y).
      assert (NE' : i <> j) by congruence. pose proof (LA i j csi csj x y NE' Ei Ej Ix Iy) as AP.
      destruct X as [X|X], Y as [Y|Y].
      + unfold apart, in_packet, in_pad in *. lia.
      + destruct Y as [_ Y]. exact (HP i csi x a k Ei Ix X Y).
      + destruct X as [_ X]. exact (HP j csj y a k Ej Iy (PP _ _ _ Y) X).
      + destruct X as [X _], Y as [Y _]. pose proof (UW i csi x Ei Ix X). pose proof (UW j csj y Ej Iy Y). lia. }
  assert (J : ni_inv codes (mem_of h) c).
  { apply (ni_steps codes (mem_of h) DISJ _ _ ST). intros [|j] t rest Hj; cbn [linit c_threads nth_error] in Hj.
    - injection Hj as <- <-. exists (loop_code m q rb turns), []. repeat split.
    - rewrite nth_error_map in Hj. destruct (nth_error workers j) as [cs|] eqn:Ej; [|discriminate].
      injection Hj as <- <-. exists (thread_code m q cs), []. split; [rewrite CO, Ej; reflexivity|]. repeat split. }
  pose proof (threads_length _ _ ST) as LEN. cbn [linit c_threads length] in LEN. rewrite map_length in LEN.
  split.
  - destruct (nth_error (c_threads c) 0) as [[t rest]|] eqn:Et; [|apply nth_error_None in Et; lia].
    destruct (J 0%nat t rest Et) as (code & pre & J1 & J2 & J3 & J4 & J5). injection J1 as <-.
    destruct (loop_solo m q h rb LN RB RH turns (mem_of h) LD LDK) as (mm' & SOLO).
    rewrite J2, srun_app in SOLO.
    destruct (srun pre idle (mem_of h)) as [[t1 m1] o1] eqn:SP. cbn [fst snd] in *.
    destruct (srun rest t1 m1) as [[t2 m2] o2] eqn:SR.
    assert (EO : map (dbytes m q h rb) (loop_calls turns) = o1 ++ o2) by (injection SOLO; auto).
    destruct (prefix_of_map _ _ _ _ EO) as (k & Hk & Ek).
    exists k, t, rest. split; [reflexivity|]. split.
    + split; [exact Hk|]. rewrite J4, Ek.
      assert (F' : forall dc, In dc (firstn k (loop_calls turns)) -> vcall_ok (hold h rb (fst dc)) q (snd dc)).
      { intros dc I. assert (I' : In dc (loop_calls turns)) by (rewrite <- (firstn_skipn k); apply in_or_app; now left).
        apply in_flat_map in I' as (tn & It & I'). apply in_map_iff in I' as (x & <- & Ix). apply (LD tn x It Ix). }
      clear - F' LN. induction (firstn k (loop_calls turns)) as [|[d x] l IH]; [constructor|].
      constructor; [|apply IH; intros; apply F'; now right]. split; [reflexivity|]. cbn [dbytes fst snd].
      apply call_message; [exact LN|]. apply (F' (d, x)). now left.
    + intros ->. cbn [srun] in SR. injection SR as <- <- <-. rewrite app_nil_r in EO.
      rewrite Ek in EO. apply (f_equal (@length _)) in EO. rewrite !map_length, firstn_length in EO. lia.
  - intros i cs Hi.
    destruct (nth_error (c_threads c) (S i)) as [[t rest]|] eqn:Et.
    2:{ apply nth_error_None in Et. assert (i < length workers)%nat by (apply nth_error_Some; congruence). lia. }
    destruct (J (S i) t rest Et) as (code & pre & J1 & J2 & J3 & J4 & J5).
    rewrite CO, Hi in J1. injection J1 as J1.
    pose proof (LC cs (nth_error_In _ _ Hi)) as F.
    assert (KK : forall c c', In c cs -> In c' cs -> keeps (v_pkt c) (v_pkt c')) by (intros; eapply LK; eauto using nth_error_In).
    destruct (thread_solo m q h LN cs (mem_of h) F KK) as (mm' & SOLO).
    rewrite J1, J2, srun_app in SOLO.
    destruct (srun pre idle (mem_of h)) as [[t1 m1] o1] eqn:SP. cbn [fst snd] in *.
    destruct (srun rest t1 m1) as [[t2 m2] o2] eqn:SR.
    assert (EO : map (fun c => (h_fd q, call_bytes m q c
          (mbytes (mem_of h) (s_arr (v_pkt c)) (s_off (v_pkt c)) (s_len (v_pkt c))))) cs = o1 ++ o2)
      by (injection SOLO; auto).
    destruct (prefix_of_map _ _ _ _ EO) as (k & Hk & Ek).
    exists k, t, rest. split; [reflexivity|]. split.
    + split; [exact Hk|]. rewrite J4, Ek.
      assert (F' : Forall (vcall_ok h q) (firstn k cs)).
      { rewrite <- (firstn_skipn k cs) in F. apply Forall_app in F as [F _]. exact F. }
      clear - F' LN. induction (firstn k cs) as [|c l IH]; [constructor|].
      inversion F'; subst. constructor; [|auto]. split; [reflexivity|]. cbn [snd].
      destruct H1 as (V & R). rewrite mbytes_rd by exact V. apply call_message; auto. split; assumption.
    + intros ->. cbn [srun] in SR. injection SR as <- <- <-. rewrite app_nil_r in EO.
      rewrite Ek in EO. apply (f_equal (@length _)) in EO. rewrite !map_length, firstn_length in EO. lia.
Qed.

(** ** Running one goroutine to its end *)
Lemma run_thread code : forall i t c, nth_error (c_threads c) i = Some (t, code) ->
  exists c', csteps c c' /\
    c_threads c' = set_nth i (fst (fst (srun code t (c_mem c))), []) (c_threads c) /\
    c_mem c' = snd (fst (srun code t (c_mem c))) /\
    c_log c' = c_log c ++ map (pair i) (snd (srun code t (c_mem c))).
Proof.
  induction code as [|x code IH]; intros i t c H.
  - exists c. split; [constructor|]. cbn [srun fst snd map]. split; [|split; [reflexivity|now rewrite app_nil_r]].
    generalize dependent i. induction (c_threads c) as [|y l IHl]; intros i H; [destruct i; discriminate|].
    destruct i; cbn in *; [congruence|]. f_equal. auto.
  - assert (ST : cstep c (step_thread i t x code c)) by (constructor; exact H). cbn [srun].
    unfold step_thread in ST. destruct (exec x t (c_mem c)) as [[t1 m1] o1]. destruct (counts _ _ _) as [na nd].
    match type of ST with cstep _ ?z => destruct (IH i t1 z) as (c' & S1 & A & B & D) end.
    { cbn [c_threads]. rewrite nth_error_set_nth, Nat.eqb_refl, H. reflexivity. }
    cbn [c_threads c_mem c_log] in A, B, D. destruct (srun code t1 m1) as [[t2 m2] o2]. cbn [fst snd] in *.
    exists c'. split; [eapply csteps_trans; [eapply csteps_next; [constructor|exact ST]|exact S1]|].
    split; [|split; [exact B|]].
    + rewrite A. clear. revert i. induction (c_threads c) as [|y l IHl]; intros [|i]; cbn; try reflexivity. f_equal. auto.
    + rewrite D, <- app_assoc, map_app. reflexivity.
Qed.

(** ** The delivered buffer itself handed to another goroutine *)
Lemma delivered_buffer_race m q rb h d0 d c :
  is_u16 (h_num q) -> (rb < length h)%nat -> rb <> s_arr (h_hdr q) ->
  delivered h q rb d0 c -> delivered h q rb d c ->
  exists cf out, csteps (linit m q rb [mkTurn d0 []; mkTurn d []] [[c]] h) cf /\ finished cf /\
    c_log cf = [(1%nat, out)] /\ is_message_of m (hold h rb d) q c out.
Proof.
  intros N RB RH D0 D.
  set (c0 := linit m q rb [mkTurn d0 []; mkTurn d []] [[c]] h).
  destruct (run_thread (loop_code m q rb [mkTurn d0 []; mkTurn d []]) 0%nat idle c0 eq_refl) as (c1 & S1 & T1 & M1 & L1).
  unfold loop_code in *. unfold turn_code, thread_code in T1, M1, L1; cbn [flat_map tn_data tn_calls] in T1, M1, L1. rewrite !app_nil_r in T1, M1, L1.
  rewrite srun_app in T1, M1, L1. destruct (store_run rb d0 0 idle (c_mem c0)) as (m1 & E1 & _ & _). rewrite E1 in T1, M1, L1.
  pose proof (stored_mbytes q h rb RB RH d idle m1 (v_pkt c)) as SB.
  destruct (store_run rb d 0 idle m1) as (m2 & E2 & A2 & B2). rewrite E2 in T1, M1, L1, SB. cbn [fst snd app map] in T1, M1, L1, SB.
  destruct D as (OK & AR & LE).
  assert (T1' : c_threads c1 = [(idle, []); (idle, thread_code m q [c])]) by (rewrite T1; reflexivity).
  destruct (run_thread (thread_code m q [c]) 1%nat idle c1) as (c2 & S2 & T2 & M2 & L2); [rewrite T1'; reflexivity|].
  cbn [thread_code flat_map] in T2, M2, L2. rewrite app_nil_r in T2, M2, L2. rewrite M1 in T2, M2, L2.
  destruct (call_solo m q _ N c m2 OK) as (m3 & E3). rewrite E3 in T2, M2, L2. cbn [fst snd map] in T2, M2, L2.
  rewrite L1 in L2. cbn [app] in L2. rewrite SB in L2 by assumption.
  eexists c2, _. split; [eapply csteps_trans; eassumption|]. split; [|split; [exact L2|]].
  - unfold finished. rewrite T2, T1'. repeat constructor.
  - split; [reflexivity|]. cbn [snd]. apply call_message; assumption.
Qed.
Lemma vmessage_bytes m h h' q c : valid h (v_pkt c) -> valid h' (v_pkt c) ->
  vmessage m h q c = vmessage m h' q c -> rd h (v_pkt c) = rd h' (v_pkt c).
Proof.
  intros V V' E. unfold vmessage in E. destruct (v_mark c).
  - unfold verdict2_message, verdict_message in E. congruence.
  - unfold verdict1_message, verdict_message in E.
    assert (X : rd h (v_pkt c) ++ pad4 (s_len (v_pkt c)) = rd h' (v_pkt c) ++ pad4 (s_len (v_pkt c))) by congruence.
    now apply app_inv_tail in X.
Qed.
