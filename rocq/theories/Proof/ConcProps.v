(** Concurrent verdict calls: the theorems behind C21 and C22. *)
From Verif Require Export Proof.ConcFacts.

Lemma sv1_hdr_ok m num v n id :
  is_u16 num -> (n <= Z.to_nat 65531)%nat ->
  let al := NfaLength (Z.of_nat n) in
  sv1_hdr m num v (Z.of_nat n) id = Ok (sv1_bytes m num v al id, attr_bytes m (mkAttr al 10)).
Proof.
  intros N L al.
  assert (EU : u16 (Z.of_nat n) = Z.of_nat n) by (unfold u16; lia).
  assert (HA : 0 <= al < 65536).
  { unfold al, NfaLength. rewrite NfaAlign_spec by (unfold is_u16, u16; lia).
    assert (0 <= u16 (Z.of_nat n + SizeofNfAttr) < 65536) by (unfold u16; lia).
    destruct (_ <=? _) eqn:E; lia. }
  unfold sv1_hdr. rewrite EU. fold al. cbn [BuildNfgenMsg BuildNfAttrMsg].
  rewrite NfAttr_ToWireFormat_ok, SerializeNlMsgHdr_ok, NfqGenMsg_ToWireFormat_ok, NfAttr_ToWireFormat_ok, VerdictHdr_ok.
  cbn [rbind]. cbn [set_n_len n_len a_len].
  change (u32 (NlMsgLength SizeofNfGenMsg + NfaLength (u16 SizeofNfqMsgVerdictHdr))) with 32.
  replace (u32 (32 + al)) with (32 + al) by (unfold u32; lia).
  replace (u16 num) with num by (red in N; unfold u16; lia).
  match goal with |- Ok (firstn _ ?b, _) = _ => change b with (sv1_bytes m num v al id) end.
  rewrite firstn_all2 by (rewrite sv1_bytes_length; vm_compute; lia). reflexivity.
Qed.

Section CALL.
Context (m : endian) (q : vhandle) (h : heap).
Hypothesis N : is_u16 (h_num q).

Lemma call_shape c : vcall_ok h q c ->
  let p := v_pkt c in
  let pad := pad4 (s_len p) in
  match v_mark c with
  | None => exists al,
      call_code m q c = [ICount (v_verdict c =? 1)] ++ pad_code p pad ++
        [IPut (sv1_bytes m (h_num q) (v_verdict c) al (v_id c)); IPut (attr_bytes m (mkAttr al 10))] ++
        read_code p pad (s_len p + length pad) ++ [ISend (h_fd q)] /\
      al = NfaLength (Z.of_nat (s_len p))
  | Some mk => exists ws,
      call_code m q c =
        flat_map (fun ov => store_code (s_arr (h_hdr q)) (s_off (h_hdr q) + Z.to_nat (fst ov)) (snd ov)) ws ++
        pad_code p pad ++ load_code (s_arr (h_hdr q)) (s_off (h_hdr q)) 40 ++
        [IPut (attr_bytes m (mkAttr (4 + Z.of_nat (s_len p)) 10))] ++
        read_code p pad (s_len p + length pad) ++ [ISend (h_fd q)] /\
      contiguous 0 ws /\
      payload ws = sv2_bytes m (h_num q) (v_verdict c) mk (4 + Z.of_nat (s_len p)) (v_id c)
  end.
Proof.
  intros (V & NE & L & _) p pad. unfold call_code. fold p.
  assert (L' : (1 <= s_len p <= Z.to_nat 65531)%nat) by (unfold p; destruct (v_mark c); lia).
  rewrite verdict_pad_spec by lia. fold pad.
  destruct (v_mark c) as [mk|].
  - destruct (sv2_hdr_spec m (h_num q) (v_verdict c) mk (Z.of_nat (s_len p)) (v_id c) N) as (ws & E1 & E2 & E3).
    rewrite E1, NfAttr_ToWireFormat_ok.
    replace (u16 (u16 (Z.of_nat (s_len p)) + 4)) with (4 + Z.of_nat (s_len p)) in * by (unfold u16; lia).
    exists ws. split; [reflexivity|]. auto.
  - rewrite sv1_hdr_ok by (auto || lia). eexists. split; [|reflexivity].
    do 4 f_equal.
    replace (u16 (Z.of_nat (s_len p))) with (Z.of_nat (s_len p)) by (unfold u16; lia).
    rewrite NfaAlign_spec by (red; lia). destruct (Z.leb_spec (Z.of_nat (s_len p)) 65532); [|lia].
    unfold pad, pad4. rewrite repeat_length. unfold al4. do 2 f_equal. lia.
Qed.

Lemma call_solo c mm : vcall_ok h q c -> 
  exists mm', srun (call_code m q c) idle mm =
    (idle, mm', [(h_fd q, call_bytes m q c (mbytes mm (s_arr (v_pkt c)) (s_off (v_pkt c)) (s_len (v_pkt c))))]).
Proof.
  intros OK. pose proof OK as (V & NE & L & _). pose proof (call_shape c OK) as S. cbv zeta in S.
  unfold call_bytes. set (pk := mbytes _ _ _ _).
  assert (LP : length pk = s_len (v_pkt c)) by apply mbytes_length.
  destruct (v_mark c) as [mk|].
  - destruct S as (ws & E & C & P). rewrite E. clear E.
    rewrite srun_app.
    destruct (stores_run (s_arr (h_hdr q)) (s_off (h_hdr q)) ws 0 idle mm ltac:(lia) C) as (m1 & E1 & A1 & B1).
    rewrite E1. rewrite srun_app.
    destruct (pad_run (v_pkt c) (pad4 (s_len (v_pkt c))) idle m1 eq_refl) as (t1 & m2 & E2 & T1 & R2 & K2).
    rewrite E2. rewrite srun_app, load_run.
    rewrite srun_app. cbn [srun exec t_copy t_buf]. rewrite srun_app.
    rewrite R2 by reflexivity. cbn [srun exec t_copy t_buf app].
    exists m2. do 3 f_equal. rewrite T1. cbn [idle t_buf app].
    rewrite <- !app_assoc. unfold zlen. rewrite LP. f_equal.
    + replace 40%nat with (length (payload ws)) by (rewrite P, sv2_bytes_length; reflexivity).
      rewrite <- P. apply mbytes_eq. intros k Hk. rewrite K2 by auto.
      rewrite <- A1 by exact Hk. f_equal. lia.
    + do 2 f_equal. apply mbytes_ext. intros k Hk. apply B1. tauto.
  - destruct S as (al & E & AL). rewrite E. clear E.
    rewrite srun_app. cbn [srun exec]. rewrite srun_app.
    destruct (pad_run (v_pkt c) (pad4 (s_len (v_pkt c))) idle mm eq_refl) as (t1 & m2 & E2 & T1 & R2 & K2).
    rewrite E2. rewrite srun_app. cbn [srun exec t_copy t_buf]. rewrite srun_app.
    rewrite R2 by reflexivity. cbn [srun exec t_copy t_buf app].
    exists m2. do 3 f_equal. rewrite T1. cbn [idle t_buf app].
    rewrite <- !app_assoc. unfold zlen. rewrite LP, <- AL. reflexivity.
Qed.

(** ** Footprints *)
Lemma in_store_code x a i v : In x (store_code a i v) ->
  exists k b, x = IStore a (i + k) b /\ (k < length v)%nat.
Proof.
  unfold store_code. intros H. apply in_map_iff in H as (k & <- & H). apply in_seq in H.
  eexists _, _. split; [reflexivity|lia].
Qed.
Lemma in_load_code x a i n : In x (load_code a i n) -> exists k, x = ILoad a (i + k) /\ (k < n)%nat.
Proof.
  unfold load_code. intros H. apply in_map_iff in H as (k & <- & H). apply in_seq in H.
  eexists. split; [reflexivity|lia].
Qed.
Lemma in_copy_code x a i n : In x (copy_code a i n) -> exists k, x = ICopy a (i + k) /\ (k < n)%nat.
Proof.
  unfold copy_code. intros H. apply in_map_iff in H as (k & <- & H). apply in_seq in H.
  eexists. split; [reflexivity|lia].
Qed.
Lemma pad4_le n : (length (pad4 n) <= 3)%nat.
Proof. unfold pad4, al4. rewrite repeat_length. lia. Qed.

Definition in_pad (p : slice) (a k : nat) : Prop :=
  a = s_arr p /\ (s_off p + s_len p <= k < s_off p + s_len p + 3)%nat.
Definition in_packet (p : slice) (a k : nat) : Prop :=
  a = s_arr p /\ (s_off p <= k < s_off p + s_len p + 3)%nat.
Lemma pad_code_foot p n x : In x (pad_code p (pad4 n)) ->
  (forall a k, touch x a k -> in_packet p a k) /\ (forall a k, write x a k -> in_pad p a k).
Proof.
  pose proof (pad4_le n) as LE. unfold pad_code. destruct (fits _ _); intros H.
  - apply in_store_code in H as (j & b & -> & Hj). cbn. unfold in_packet, in_pad.
    split; intros a k [-> ->]; lia.
  - apply in_copy_code in H as (j & -> & Hj). cbn. unfold in_packet. split; [intros a k [-> ->]; lia|tauto].
Qed.
Lemma read_code_foot p n x : In x (read_code p (pad4 n) (s_len p + length (pad4 n))) ->
  (forall a k, touch x a k -> in_packet p a k) /\ (forall a k, ~ write x a k).
Proof.
  pose proof (pad4_le n) as LE. unfold read_code. destruct (fits _ _); intros H.
  - apply in_load_code in H as (j & -> & Hj). cbn. unfold in_packet. split; [intros a k [-> ->]; lia|tauto].
  - destruct H as [<-|[<-|[]]]; cbn; tauto.
Qed.
Definition in_hdr (c : vcall) (a k : nat) : Prop := v_mark c <> None /\ a = s_arr (h_hdr q).
Lemma call_foot c x : vcall_ok h q c -> In x (call_code m q c) ->
  (forall a k, touch x a k -> in_packet (v_pkt c) a k \/ in_hdr c a k) /\
  (forall a k, write x a k -> in_pad (v_pkt c) a k \/ in_hdr c a k).
Proof.
  intros OK H. pose proof (call_shape c OK) as S. cbv zeta in S. unfold in_hdr.
  destruct (v_mark c) as [mk|].
  - destruct S as (ws & E & _). rewrite E in H. clear E.
    repeat (apply in_app_or in H as [H|H]).
    + apply in_flat_map in H as ([o v] & _ & H). apply in_store_code in H as (j & b & -> & _).
      cbn. split; intros a k [-> ->]; right; (split; [discriminate|reflexivity]).
    + apply pad_code_foot in H as [H1 H2]. split; intros; left; auto.
    + apply in_load_code in H as (j & -> & _). cbn.
      split; [intros a k [-> ->]; right; (split; [discriminate|reflexivity])|tauto].
    + destruct H as [<-|[]]. cbn. tauto.
    + apply read_code_foot in H as [H1 H2]. split; intros; [left; auto|exfalso; eapply H2; eauto].
    + destruct H as [<-|[]]. cbn. tauto.
  - destruct S as (al & E & _). rewrite E in H. clear E.
    repeat (apply in_app_or in H as [H|H]).
    + destruct H as [<-|[]]. cbn. tauto.
    + apply pad_code_foot in H as [H1 H2]. split; intros; left; auto.
    + destruct H as [<-|[<-|[]]]; cbn; tauto.
    + apply read_code_foot in H as [H1 H2]. split; intros; [left; auto|exfalso; eapply H2; eauto].
    + destruct H as [<-|[]]. cbn. tauto.
Qed.
Lemma code_foot cs a k : Forall (vcall_ok h q) cs ->
  (touches (thread_code m q cs) a k -> exists c, In c cs /\ (in_packet (v_pkt c) a k \/ in_hdr c a k)) /\
  (writes (thread_code m q cs) a k -> exists c, In c cs /\ (in_pad (v_pkt c) a k \/ in_hdr c a k)).
Proof.
  intros F. rewrite Forall_forall in F.
  split; intros (x & I & T); apply in_flat_map in I as (c & I1 & I2); exists c; (split; [exact I1|]);
    destruct (call_foot c x (F c I1) I2) as [H1 H2]; auto.
Qed.

(** ** One goroutine alone *)
Lemma thread_solo cs : forall mm,
  Forall (vcall_ok h q) cs ->
  (forall c c', In c cs -> In c' cs -> keeps (v_pkt c) (v_pkt c')) ->
  exists mm', srun (thread_code m q cs) idle mm =
    (idle, mm', map (fun c => (h_fd q, call_bytes m q c
        (mbytes mm (s_arr (v_pkt c)) (s_off (v_pkt c)) (s_len (v_pkt c))))) cs).
Proof.
  induction cs as [|c cs IH]; intros mm F K.
  - exists mm. reflexivity.
  - inversion F as [|? ? F1 F2]; subst. cbn [thread_code flat_map map].
    rewrite srun_app. destruct (call_solo c mm F1) as (m1 & E1).
    assert (KM : forall c', In c' cs -> mbytes m1 (s_arr (v_pkt c')) (s_off (v_pkt c')) (s_len (v_pkt c')) =
                                   mbytes mm (s_arr (v_pkt c')) (s_off (v_pkt c')) (s_len (v_pkt c'))).
    { intros c' I'. apply mbytes_ext. intros k Hk.
      pose proof (srun_mem (call_code m q c) idle mm (s_arr (v_pkt c')) k) as X. rewrite E1 in X. apply X.
      intros (x & Ix & W). destruct (call_foot c x F1 Ix) as [_ W2]. apply W2 in W as [(A & B)|[_ A]].
      - specialize (K c c' (or_introl eq_refl) (or_intror I')). unfold keeps in K. lia.
      - rewrite Forall_forall in F2. destruct (F2 c' I') as (_ & NE & _). auto. }
    rewrite E1.
    destruct (IH m1 F2) as (m2 & E2); [intros; apply K; right; auto|].
    change (flat_map (call_code m q) cs) with (thread_code m q cs). rewrite E2.
    exists m2. f_equal. cbn [app]. f_equal. apply map_ext_in. intros c' I'. rewrite KM by exact I'. reflexivity.
Qed.

Lemma call_message c : vcall_ok h q c ->
  read_message m (call_bytes m q c (rd h (v_pkt c))) = Some (vmessage m h q c).
Proof.
  intros (V & NE & L & UV & UI & UM). pose proof (valid_len h _ V) as LR.
  unfold call_bytes, vmessage. destruct (v_mark c) as [mk|].
  - apply sv2_message; auto. rewrite LR. lia.
  - rewrite LR.
    assert (LP : length (rd h (v_pkt c) ++ pad4 (s_len (v_pkt c))) = al4 (s_len (v_pkt c))).
    { rewrite app_length, LR. unfold pad4. rewrite repeat_length. unfold al4. lia. }
    replace (NfaLength (zlen (rd h (v_pkt c)))) with (4 + zlen (rd h (v_pkt c) ++ pad4 (s_len (v_pkt c)))).
    + apply sv1_message; auto.
      * rewrite LP. unfold al4. lia.
      * rewrite LP. unfold al4. lia.
    + unfold NfaLength. unfold zlen. rewrite LP, LR. cbn [SizeofNfAttr].
      rewrite NfaAlign_spec by (unfold is_u16, u16; lia). unfold SizeofNfAttr.
      destruct (Z.leb_spec (u16 (Z.of_nat (s_len (v_pkt c)) + 4)) 65532); unfold u16, al4 in *; lia.
Qed.
End CALL.

(** ** All schedules *)
Lemma prefix_of_map {A B} (f : A -> B) l pre rest : map f l = pre ++ rest ->
  exists k, (k <= length l)%nat /\ pre = map f (firstn k l).
Proof.
  intros H. exists (length pre). split.
  - rewrite <- (map_length f), H, app_length. lia.
  - rewrite <- firstn_map, H. rewrite firstn_app, Nat.sub_diag, firstn_all. cbn. now rewrite app_nil_r.
Qed.

Lemma verdicts_do_not_mix m q threads h a d i0 :
  layout_ok h q threads -> only_user_of_SetVerdict2 i0 threads ->
  forall c, csteps (cinit m q threads h a d) c ->
  forall i cs, nth_error threads i = Some cs ->
  exists k t rest, nth_error (c_threads c) i = Some (t, rest) /\
    sent_first m h q k cs (sent_by i (c_log c)) /\ (rest = [] -> k = length cs).
Proof.
  intros [LH LN LC LA LK] U c ST i cs Hi.
  set (codes := map (thread_code m q) threads).
  assert (CO : forall j, nth_error codes j = option_map (thread_code m q) (nth_error threads j))
    by (intros j; unfold codes; apply nth_error_map).
  rewrite Forall_forall in LC.
  assert (DISJ : forall i j ci cj a k, i <> j ->
     nth_error codes i = Some ci -> nth_error codes j = Some cj -> writes cj a k -> ~ touches ci a k).
  { intros x y cx cy a' k NE Hx Hy W T. rewrite CO in Hx, Hy.
    destruct (nth_error threads x) as [csx|] eqn:Ex; [|discriminate].
    destruct (nth_error threads y) as [csy|] eqn:Ey; [|discriminate].
    injection Hx as <-. injection Hy as <-.
    pose proof (LC csx (nth_error_In _ _ Ex)) as Fx. pose proof (LC csy (nth_error_In _ _ Ey)) as Fy.
    destruct (code_foot m q h LN csx a' k Fx) as [TX _]. destruct (code_foot m q h LN csy a' k Fy) as [_ WY].
    apply TX in T as (c1 & I1 & T). apply WY in W as (c2 & I2 & W).
    rewrite Forall_forall in Fx, Fy.
    destruct (Fx c1 I1) as (_ & N1 & _). destruct (Fy c2 I2) as (_ & N2 & _).
    pose proof (LA x y csx csy c1 c2 NE Ex Ey I1 I2) as AP.
    unfold apart in AP. unfold in_packet, in_pad, in_hdr in *.
    destruct T as [[T1 T2]|[T1 T2]], W as [[W1 W2]|[W1 W2]]; try congruence.
    - subst. destruct AP as [AP|AP]; [congruence|lia].
    - pose proof (U x csx c1 Ex I1 T1) as U1. pose proof (U y csy c2 Ey I2 W1) as U2. congruence. }
  assert (INV : ni_inv codes (mem_of h) (cinit m q threads h a d)).
  { intros j t rest Hj. cbn [cinit c_threads] in Hj. rewrite nth_error_map in Hj.
    destruct (nth_error threads j) as [csj|] eqn:Ej; [|discriminate]. injection Hj as <- <-.
    exists (thread_code m q csj), []. rewrite CO, Ej. cbn. auto 10. }
  pose proof (ni_steps codes (mem_of h) DISJ _ _ ST INV) as J.
  assert (LEN : length (c_threads c) = length threads).
  { clear - ST. remember (cinit m q threads h a d) as c0 eqn:E0. induction ST as [|c c' c'' _ IH S].
    - subst. cbn. apply map_length.
    - destruct S. unfold step_thread. destruct (exec _ _ _) as [[? ?] ?]. destruct (counts _ _ _).
      cbn [c_threads]. rewrite set_nth_length. auto. }
  destruct (nth_error (c_threads c) i) as [[t rest]|] eqn:Et.
  2:{ apply nth_error_None in Et. assert (i < length threads)%nat by (apply nth_error_Some; congruence). lia. }
  destruct (J i t rest Et) as (code & pre & J1 & J2 & J3 & J4 & J5).
  rewrite CO, Hi in J1. injection J1 as J1.
  pose proof (LC cs (nth_error_In _ _ Hi)) as F.
  assert (KK : forall c c', In c cs -> In c' cs -> keeps (v_pkt c) (v_pkt c')).
  { intros; eapply LK; eauto using nth_error_In. }
  destruct (thread_solo m q h LN cs (mem_of h) F KK) as (mm' & SOLO).
  rewrite J1, J2, srun_app in SOLO.
  destruct (srun pre idle (mem_of h)) as [[t1 m1] o1] eqn:SP. cbn [fst snd] in *.
  destruct (srun rest t1 m1) as [[t2 m2] o2] eqn:SR.
  assert (EO : map (fun c => (h_fd q, call_bytes m q c
        (mbytes (mem_of h) (s_arr (v_pkt c)) (s_off (v_pkt c)) (s_len (v_pkt c))))) cs = o1 ++ o2)
    by (injection SOLO; auto).
  destruct (prefix_of_map _ _ _ _ EO) as (k & Hk & Ek).
  exists k, t, rest. split; [reflexivity|]. split.
  - split; [exact Hk|]. rewrite J4, Ek.
    assert (F' : Forall (vcall_ok h q) (firstn k cs)).
    { rewrite <- (firstn_skipn k cs) in F. apply Forall_app in F as [F _]. exact F. }
    clear - F' LN. induction (firstn k cs) as [|c l IH]; [constructor|].
    inversion F'; subst. constructor; [|auto]. split; [reflexivity|]. cbn [snd].
    destruct H1 as (V & R). rewrite mbytes_rd by exact V. apply call_message; auto. split; assumption.
  - intros ->. cbn [srun] in SR. injection SR as <- <- <-. rewrite app_nil_r in EO.
    rewrite Ek in EO. apply (f_equal (@length _)) in EO. rewrite !map_length, firstn_length in EO. lia.
Qed.

(** ** Every schedule can be completed *)
Lemma csteps_trans c c' c'' : csteps c c' -> csteps c' c'' -> csteps c c''.
Proof. intros H1 H2. revert H1. induction H2 as [|x y z _ IH S]; intros H1; [assumption|]. exact (csteps_next _ _ _ (IH H1) S). Qed.
Lemma can_finish n : forall c, list_sum (map (fun t => length (snd t)) (c_threads c)) = n ->
  exists c', csteps c c' /\ finished c'.
Proof.
  induction n as [|n IH]; intros c H.
  - exists c. split; [constructor|]. unfold finished. induction (c_threads c) as [|[t code] l IHl]; [constructor|].
    cbn [map list_sum fold_right snd] in H. destruct code; [|cbn [length Nat.add] in H; discriminate H].
    constructor; [reflexivity|]. apply IHl. exact H.
  - assert (X : exists i t x code, nth_error (c_threads c) i = Some (t, x :: code) /\
        list_sum (map (fun t => length (snd t)) (set_nth i (fst (fst (exec x t (c_mem c))), code) (c_threads c))) = n).
    { clear IH. generalize (c_mem c). intros mm. revert n H. induction (c_threads c) as [|[t [|x code]] l IHl]; intros n H.
      - discriminate H.
      - cbn in H. destruct (IHl n H) as (i & t' & x & code & E & L). exists (S i), t', x, code. cbn. auto.
      - exists 0%nat, t, x, code. split; [reflexivity|]. cbn in *. lia. }
    destruct X as (i & t & x & code & E & L).
    destruct (IH (step_thread i t x code c)) as (c' & S1 & F).
    + unfold step_thread. destruct (exec x t (c_mem c)) as [[t' mm] out]. destruct (counts _ _ _). exact L.
    + exists c'. split; [|exact F]. eapply csteps_trans; [|exact S1].
      eapply csteps_next; [constructor|]. constructor. exact E.
Qed.
Lemma calls_finish m q threads h a d c :
  csteps (cinit m q threads h a d) c -> exists c', csteps c c' /\ finished c'.
Proof. intros _. eapply can_finish. reflexivity. Qed.

(** ** Counters *)
Lemma counting_app b l1 l2 : counting b (l1 ++ l2) = counting b l1 + counting b l2.
Proof. induction l1 as [|[] l1 IH]; cbn [app counting]; try lia. Qed.
Lemma counting_none b l : (forall x, In x l -> match x with ICount _ => False | _ => True end) -> counting b l = 0.
Proof.
  induction l as [|x l IH]; intros H; [reflexivity|]. pose proof (H x (or_introl eq_refl)).
  destruct x; cbn [counting]; try contradiction; apply IH; intros; apply H; right; assumption.
Qed.
Lemma call_counting m q h b c : is_u16 (h_num q) -> vcall_ok h q c ->
  counting b (call_code m q c) =
  match v_mark c with None => if Bool.eqb b (v_verdict c =? 1) then 1 else 0 | _ => 0 end.
Proof.
  intros N OK. pose proof (call_shape m q h N c OK) as S. cbv zeta in S.
  assert (P0 : forall p n, counting b (pad_code p (pad4 n)) = 0).
  { intros p n. apply counting_none. intros x. unfold pad_code. destruct (fits _ _); intros H.
    - apply in_store_code in H as (? & ? & -> & _). exact I.
    - apply in_copy_code in H as (? & -> & _). exact I. }
  assert (R0 : forall p n k, counting b (read_code p (pad4 n) k) = 0).
  { intros p n k. apply counting_none. intros x. unfold read_code. destruct (fits _ _); intros H.
    - apply in_load_code in H as (? & -> & _). exact I.
    - destruct H as [<-|[<-|[]]]; exact I. }
  destruct (v_mark c).
  - destruct S as (ws & -> & _). rewrite !counting_app, P0, R0. cbn [counting].
    rewrite !counting_none; [reflexivity| |].
    + intros x H. apply in_load_code in H as (? & -> & _). exact I.
    + intros x H. apply in_flat_map in H as ([o v] & _ & H). apply in_store_code in H as (? & ? & -> & _). exact I.
  - destruct S as (al & -> & _). rewrite !counting_app, P0, R0. cbn [counting]. lia.
Qed.
Lemma thread_counting m q h cs : is_u16 (h_num q) -> Forall (vcall_ok h q) cs ->
  counting true (thread_code m q cs) = accepts [cs] /\ counting false (thread_code m q cs) = drops [cs].
Proof.
  intros N F. unfold accepts, drops. cbn [concat]. rewrite app_nil_r.
  induction F as [|c cs OK F [IH1 IH2]]; [split; reflexivity|].
  cbn [thread_code flat_map]. rewrite !counting_app, !(call_counting m q h _ c N OK).
  change (flat_map (call_code m q) cs) with (thread_code m q cs). rewrite IH1, IH2.
  cbn [filter]. unfold zlen. destruct (v_mark c); [split; lia|].
  destruct (v_verdict c =? 1); cbn [Bool.eqb negb length]; lia.
Qed.
Lemma verdicts_counted m q threads h a d :
  layout_ok h q threads -> 0 <= a < 18446744073709551616 -> 0 <= d < 18446744073709551616 ->
  forall c, csteps (cinit m q threads h a d) c -> finished c ->
  c_acc c = u64 (a + accepts threads) /\ c_drop c = u64 (d + drops threads).
Proof.
  intros [LH LN LC LA LK] Ha Hd c ST FIN.
  assert (R : forall b ts, Forall (Forall (vcall_ok h q)) ts ->
     remaining b (map (fun cs => (idle, thread_code m q cs)) ts) = if b then accepts ts else drops ts).
  { intros b ts F. induction F as [|cs ts F0 F IH].
    1:{ destruct b; reflexivity. }
    cbn [map remaining fold_right snd]. unfold remaining in IH. rewrite IH.
    destruct (thread_counting m q h cs LN F0) as [T1 T2].
    unfold accepts, drops in *. cbn [concat] in *. rewrite app_nil_r in T1, T2.
    rewrite !filter_app. unfold zlen in *. rewrite !app_length. destruct b; [rewrite T1|rewrite T2]; lia. }
  assert (INV : cnt_inv (a + accepts threads) (d + drops threads) (cinit m q threads h a d)).
  { unfold cnt_inv, cinit. cbn [c_threads c_acc c_drop]. rewrite !R by exact LC.
    unfold u64. repeat split; lia. }
  destruct (cnt_steps _ _ _ _ ST INV) as (A & D & A2 & D2).
  assert (Z0 : forall b, remaining b (c_threads c) = 0).
  { intros b. unfold finished in FIN. clear - FIN. induction (c_threads c) as [|x l IH].
    - reflexivity.
    - inversion FIN as [|? ? H1 H2]; subst. cbn [remaining fold_right]. unfold remaining in IH.
      rewrite (IH H2), H1. reflexivity. }
  rewrite !Z0, !Z.add_0_r in *. rewrite A2 in A. rewrite D2 in D. auto.
Qed.

(** ** The concurrent code run alone is the sequential model *)
Lemma solo_is_sequential m grow e w fd c pkt :
  verdict_ready w fd -> packet_in w (v_pkt c) pkt ->
  (1 <= length pkt <= Z.to_nat 65531)%nat ->
  let q := mkH (q_num (w_st w)) fd (q_hdr (w_st w)) in
  vcall_ok (w_heap w) q c ->
  exists iov new mm' w',
    match v_mark c with
    | None => SetVerdict m grow (v_verdict c) (zlen pkt) (v_id c) (v_pkt c) e w
    | Some mk => SetVerdict2 m grow (v_verdict c) mk (zlen pkt) (v_id c) (v_pkt c) e w
    end = (Ok tt, w') /\ w_tr w' = w_tr w ++ new /\ sends_one fd iov new /\
    srun (call_code m q c) idle (mem_of (w_heap w)) = (idle, mm', [(fd, concat iov)]).
Proof.
  intros VR PI L q OK. pose proof PI as (V & RD & NE). pose proof VR as (_ & _ & _ & N).
  destruct (call_solo m q (w_heap w) N c (mem_of (w_heap w)) OK) as (mm' & SR).
  rewrite mbytes_rd, RD in SR by exact V. unfold call_bytes in SR. rewrite SR. clear SR.
  destruct (v_mark c) as [mk|].
  - destruct (SetVerdict2_raw m grow (v_verdict c) mk (v_id c) (v_pkt c) pkt e w fd VR PI)
      as (w' & new & H1 & H2 & H3 & _).
    { destruct pkt; [cbn in L; lia|discriminate]. }
    eexists _, new, mm', w'. split; [exact H1|]. split; [exact H2|]. split; [exact H3|].
    cbn [q h_num h_fd concat]. rewrite app_nil_r.
    replace (u16 (u16 (zlen pkt) + 4)) with (4 + zlen pkt) by (unfold u16, zlen; lia).
    unfold zlen. rewrite verdict_pad_spec by lia. reflexivity.
  - destruct (SetVerdict_raw m grow (v_verdict c) (v_id c) (v_pkt c) pkt e w fd VR PI L)
      as (w' & new & H1 & H2 & H3 & _).
    eexists _, new, mm', w'. split; [exact H1|]. split; [exact H2|]. split; [exact H3|].
    cbn [q h_num h_fd concat]. rewrite app_nil_r. reflexivity.
Qed.
