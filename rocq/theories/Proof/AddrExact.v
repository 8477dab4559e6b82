(** Which address strings the conntrack update calls take (C35, C71). *)
From Verif Require Export Proof.AddrFacts Spec.AddrSpec Proof.Grows.

Definition digs (t : bytes) : Prop := Forall (fun c => 48 <= c <= 57) t.
Definition value (n : Z) (t : bytes) : Z := fold_left (fun n c => 10 * n + (c - 48)) t n.
Lemma value_mono t : forall n, 0 <= n -> digs t -> n <= value n t.
Proof.
  induction t as [|x t IH]; intros n N D; unfold value; cbn [fold_left]; [lia|]. inversion D; subst. cbv beta in *.
  specialize (IH (10 * n + (x - 48)) ltac:(lia) ltac:(assumption)). unfold value in *. lia.
Qed.
Lemma dtoi_sound s : forall n i v c, dtoi_from s n i = (v, c, true) ->
  exists t r, s = t ++ r /\ digs t /\ no_digit r /\ (i <> 0%nat \/ t <> []) /\ c = (i + length t)%nat /\ v = value n t.
Proof.
  induction s as [|x s IH]; intros n i v c; cbn [dtoi_from].
  - destruct (Nat.eqb_spec i 0); [discriminate|]. intros E. injection E as <- <-. exists [], [].
    cbn. repeat split; auto; try constructor; try lia.
  - destruct (Z.leb_spec 48 x), (Z.leb_spec x 57); cbn [andb].
    2-4: destruct (Nat.eqb_spec i 0) as [Z0|Z0]; try discriminate; intros E; injection E as <- <-; exists [], (x :: s);
         cbn; repeat split; auto; try constructor; try lia.
    destruct (Z.leb_spec 16777215 (n * 10 + (x - 48))); [discriminate|]. intros E.
    destruct (IH _ _ _ _ E) as (t & r & -> & D & R & _ & -> & ->). exists (x :: t), r.
    split; [reflexivity|]. split; [constructor; auto|]. split; [exact R|]. split; [right; discriminate|].
    split; [cbn [length]; lia|]. unfold value. cbn [fold_left]. f_equal. lia.
Qed.
Lemma dtoi_complete t : forall r n i, digs t -> no_digit r -> i <> 0%nat \/ t <> [] -> 0 <= n -> value n t <= 255 ->
  dtoi_from (t ++ r) n i = (value n t, (i + length t)%nat, true).
Proof.
  induction t as [|x t IH]; intros r n i D R NE N V.
  - destruct NE as [NE|NE]; [|contradiction]. cbn [app]. rewrite dtoi_stop by auto. cbn. do 2 f_equal. lia.
  - inversion D; subst. cbv beta in *. cbn [app dtoi_from]. destruct (Z.leb_spec 48 x), (Z.leb_spec x 57); try lia. cbn [andb].
    pose proof (value_mono t (10 * n + (x - 48)) ltac:(lia) ltac:(assumption)) as M.
    unfold value in V. cbn [fold_left] in V. fold (value (10 * n + (x - 48)) t) in V.
    destruct (Z.leb_spec 16777215 (n * 10 + (x - 48))); [lia|].
    replace (n * 10 + (x - 48)) with (10 * n + (x - 48)) by lia.
    rewrite IH by (auto; try lia). unfold value. cbn [fold_left length]. do 2 f_equal. lia.
Qed.

Definition dots (ts : list bytes) : bytes := concat (map (cons 46) ts).
Definition join (first : bool) (ts : list bytes) : bytes :=
  match ts with t :: r => if first then t ++ dots r else dots ts | [] => [] end.
Lemma dots_no ts : no_digit (dots ts).
Proof. destruct ts; cbn; [exact I|lia]. Qed.
Lemma skipn_pre {A} (a b : list A) : skipn (length a) (a ++ b) = b.
Proof. rewrite skipn_app, skipn_all2 by lia. rewrite Nat.sub_diag. reflexivity. Qed.
Lemma number_range t : is_number t -> 0 <= decimal t.
Proof. intros [_ D]. apply (value_mono t 0); [lia|exact D]. Qed.
Lemma parse4_sound k : forall first s p q, parse4 k first s p = Some q ->
  exists ts, length ts = k /\ Forall is_number ts /\ Forall (fun t => decimal t <= 255) ts /\
    q = p ++ map decimal ts /\ s = join first ts.
Proof.
  induction k as [|k IH]; intros first s p q; cbn [parse4].
  - destruct s; [|discriminate]. intros E. injection E as <-. exists []. rewrite app_nil_r. repeat split; constructor.
  - destruct s as [|x r]; [discriminate|]. destruct (negb first && negb (x =? 46)) eqn:G; [discriminate|].
    destruct (dtoi (if first then x :: r else r)) as [[n c] ok] eqn:D.
    destruct ok; cbn [negb orb]; [|discriminate]. destruct (Z.ltb_spec 255 n); [discriminate|]. intros E.
    destruct (dtoi_sound _ _ _ _ _ D) as (t & rr & S & DT & NR & NE & -> & ->). cbn [Nat.add] in *.
    destruct (IH _ _ _ _ E) as (ts & L & F1 & F2 & -> & SK). rewrite S, skipn_pre in SK.
    assert (NT : is_number t) by (split; [destruct NE; [congruence|auto]|exact DT]).
    pose proof (number_range t NT) as NR'. unfold decimal in NR'. fold (value 0 t) in NR'.
    exists (t :: ts). split; [cbn; lia|]. split; [constructor; auto|]. split; [constructor; auto|].
    split. { cbn [map]. rewrite <- app_assoc. cbn [app]. unfold u8. rewrite Z.mod_small by lia. reflexivity. }
    assert (RD : rr = dots ts) by (rewrite SK; destruct ts; reflexivity). rewrite RD in S.
    destruct first; cbn [negb andb] in *.
    + exact S.
    + destruct (Z.eqb_spec x 46); [|discriminate]. subst x. cbn [join dots map concat app]. f_equal. exact S.
Qed.
Lemma parse4_complete ts : forall first p, Forall is_number ts -> Forall (fun t => decimal t <= 255) ts ->
  parse4 (length ts) first (join first ts) p = Some (p ++ map decimal ts).
Proof.
  induction ts as [|t ts IH]; intros first p F1 F2; [cbn; now rewrite app_nil_r|].
  inversion F1 as [|? ? N1 N2]; subst. inversion F2 as [|? ? D1 D2]; subst. pose proof (number_range t N1) as R.
  cbn [length parse4 map].
  assert (DT : dtoi (t ++ dots ts) = (decimal t, length t, true)).
  { unfold dtoi. rewrite dtoi_complete; auto; try lia; [apply N1|apply dots_no|right; apply N1]. }
  assert (G : parse4 (length ts) false (dots ts) (p ++ [u8 (decimal t)]) = Some (p ++ decimal t :: map decimal ts)).
  { replace (dots ts) with (join false ts) by (destruct ts; reflexivity). rewrite IH by auto. rewrite <- app_assoc. cbn [app].
    unfold u8. rewrite Z.mod_small by lia. reflexivity. }
  assert (B : (255 <? decimal t) = false) by (apply Z.ltb_ge; lia).
  destruct first; cbn [join].
  - destruct (t ++ dots ts) as [|x r] eqn:E. { destruct t; [destruct N1; congruence|discriminate]. }
    cbn [negb andb]. rewrite DT. cbn [negb orb]. rewrite B, <- E, skipn_pre. exact G.
  - unfold dots. cbn [map concat app]. fold (dots ts). rewrite Z.eqb_refl. cbn [negb andb]. rewrite DT. cbn [negb orb].
    rewrite B, skipn_pre. exact G.
Qed.
Lemma parseIPv4_quad s : (forall four, parseIPv4 s = mapped four <-> dotted_quad s four) /\
  (parseIPv4 s = [] <-> ~ exists four, dotted_quad s four).
Proof.
  assert (Y : forall four, dotted_quad s four -> parse4 4 true s [] = Some four).
  { intros four (a & b & c & d & N & -> & -> & D).
    pose proof (parse4_complete [a; b; c; d] true [] N) as P. cbn [length join dots map concat app] in P.
    rewrite app_nil_r in P. cbn [app]. apply P.
    inversion D as [|? ? D1 E1]; subst. inversion E1 as [|? ? D2 E2]; subst. inversion E2 as [|? ? D3 E3]; subst.
    inversion E3; subst. auto. }
  assert (X : forall q, parse4 4 true s [] = Some q -> dotted_quad s q).
  { intros q E. destruct (parse4_sound _ _ _ _ _ E) as (ts & L & F1 & F2 & -> & ->).
    destruct ts as [|a [|b [|c [|d [|]]]]]; try discriminate. exists a, b, c, d. split; [exact F1|].
    split. { cbn [join dots map concat app]. now rewrite app_nil_r. } split; [reflexivity|].
    rewrite Forall_forall in *. intros n IN. cbn [app] in IN. apply in_map_iff in IN. destruct IN as (t & <- & IT). auto. }
  unfold parseIPv4. destruct (parse4 4 true s []) as [q|] eqn:E.
  - split.
    + intros four. split.
      * intros M. unfold mapped in M. cbn [app] in M. injection M as M. subst. auto.
      * intros D. specialize (Y four D). injection Y as ->. reflexivity.
    + split; [discriminate|]. intros N. exfalso. apply N. eauto.
  - split.
    + intros four. split; [discriminate|]. intros D. specialize (Y four D). discriminate.
    + split; [|reflexivity]. intros _ (four & D). specialize (Y four D). discriminate.
Qed.
Lemma parse_by_four parse6 whole s : ~ In 58 s -> parse_by parse6 whole s = if existsb (Z.eqb 46) s then parseIPv4 whole else [].
Proof.
  induction s as [|x s IH]; intros N; [reflexivity|]. cbn [parse_by existsb].
  rewrite (Z.eqb_sym 46 x). destruct (Z.eqb_spec x 46); [reflexivity|]. cbn [orb].
  destruct (Z.eqb_spec x 58) as [->|]; [exfalso; apply N; left; reflexivity|]. apply IH. intros Q. apply N. right. exact Q.
Qed.
Lemma quad_dot s four : dotted_quad s four -> existsb (Z.eqb 46) s = true.
Proof.
  intros (a & b & c & d & _ & -> & _). apply existsb_exists. exists 46. split; [|reflexivity].
  apply in_or_app. right. left. reflexivity.
Qed.
Lemma parse_exact parse6 s : ~ In 58 s ->
  (forall four, ParseIP parse6 s = mapped four <-> dotted_quad s four) /\
  (ParseIP parse6 s = [] <-> ~ exists four, dotted_quad s four).
Proof.
  intros N. unfold ParseIP. rewrite parse_by_four by exact N. destruct (existsb (Z.eqb 46) s) eqn:E.
  - apply parseIPv4_quad.
  - assert (ND : forall four, ~ dotted_quad s four) by (intros four D; apply quad_dot in D; congruence).
    split.
    + intros four. split; [discriminate|]. intros D. destruct (ND four D).
    + split; [|reflexivity]. intros _ (four & D). exact (ND four D).
Qed.
(** what net.ParseIP gives is nil or sixteen bytes *)
Lemma parse_shape parse6 s : (forall t, In 58 t -> parse6 t = [] \/ is_bytes (parse6 t) /\ length (parse6 t) = 16%nat) ->
  ParseIP parse6 s = [] \/ is_bytes (ParseIP parse6 s) /\ length (ParseIP parse6 s) = 16%nat.
Proof.
  intros P.
  assert (Q : parseIPv4 s = [] \/ is_bytes (parseIPv4 s) /\ length (parseIPv4 s) = 16%nat).
  { destruct (parseIPv4 s) eqn:E; [left; reflexivity|]. right. rewrite <- E.
    destruct (parseIPv4_quad s) as [A B].
    unfold parseIPv4 in *. destruct (parse4 4 true s []) as [q|] eqn:E4; [|discriminate].
    assert (D : dotted_quad s q) by (apply A; reflexivity).
    destruct D as (n1 & n2 & n3 & n4 & N & _ & -> & L). split; [|reflexivity].
    inversion N as [|? ? N1 M1]; subst. inversion M1 as [|? ? N2 M2]; subst. inversion M2 as [|? ? N3 M3]; subst.
    inversion M3 as [|? ? N4 _]; subst. apply number_range in N1, N2, N3, N4.
    inversion L as [|? ? D1 E1]; subst. inversion E1 as [|? ? D2 E2]; subst. inversion E2 as [|? ? D3 E3]; subst.
    inversion E3; subst. cbn [app]. unfold is_bytes, is_byte. repeat (apply Forall_cons; [lia|]). apply Forall_nil. }
  assert (G : forall r, (forall x, In x r -> In x s) ->
     parse_by parse6 s r = [] \/ is_bytes (parse_by parse6 s r) /\ length (parse_by parse6 s r) = 16%nat).
  { induction r as [|x r IH]; intros H; cbn [parse_by]; [auto|]. destruct (Z.eqb_spec x 46); [exact Q|].
    destruct (Z.eqb_spec x 58) as [->|]; [apply P, H; left; reflexivity|]. apply IH. intros y Y. apply H. right. exact Y. }
  apply G. auto.
Qed.

(** ** The update calls with texts *)
Lemma low_addr a : is_bytes a -> length a = 16%nat -> v4_addr (skipn 12 a).
Proof.
  intros B L. exists (skipn 12 a). split; [apply Forall_forall; intros x I; apply (proj1 (Forall_forall _ _) B);
    rewrite <- (firstn_skipn 12 a); apply in_or_app; right; exact I|]. split; [rewrite skipn_length; lia|left; reflexivity].
Qed.
Lemma sendMessage_calls m hdr data e w :
  exists ev new, w_tr (snd (sendMessage m hdr data e w)) = w_tr w ++ ev :: new.
Proof.
  destruct (sendMessage_trace m hdr data e w) as (new & T & [(fd & o & r1 & rest & rc & O & N & _)|[O _]]).
  - destruct O as (rs & rb & _ & _ & _ & ->). rewrite T, N. cbn [app]. eauto.
  - destruct O as [(rs & en & _ & ->)|(rs & rb & en & _ & _ & ->)]; rewrite T; eauto.
Qed.
Lemma grows_sendMessage m hdr data : grows (sendMessage m hdr data).
Proof. intros e w. destruct (sendMessage_calls m hdr data e w) as (ev & new & T). eauto. Qed.
Lemma grows_UpdateMark m a b p sp dp mark : grows (ConntrackTableUpdateMark m a b p sp dp mark).
Proof. unfold ConntrackTableUpdateMark. grows_tac. apply grows_sendMessage. Qed.
Lemma grows_mark_loop m a b p sp dp mark flows : forall n, grows (mark_loop m flows a b p sp dp mark n).
Proof.
  induction flows as [|fl fs IH]; intros n; cbn [mark_loop]; [grows_tac|].
  apply grows_bind; [apply grows_lift|intros x]. destruct (x && negb (mark =? 0)); [|apply IH].
  apply grows_bind; [apply grows_UpdateMark|intros y]. destruct y; [apply grows_ret|apply IH].
Qed.
Lemma grows_label_loop m a b p sp dp mark flows : forall n, grows (label_loop m flows a b p sp dp mark n).
Proof.
  induction flows as [|fl fs IH]; intros n; cbn [label_loop]; [grows_tac|].
  apply grows_bind; [apply grows_lift|intros x]. destruct x; [|apply IH].
  apply grows_bind; [apply grows_lift|intros [hdr data]].
  apply grows_bind; [apply grows_sendMessage|intros y]. destruct y; [apply grows_ret|apply IH].
Qed.
Lemma longer {A} (l : list A) x n : l <> l ++ x :: n.
Proof. intros E. apply (f_equal (@length A)) in E. rewrite app_length in E. cbn [length] in E. lia. Qed.
Lemma longer2 {A} (l l1 : list A) x n r : l1 = l ++ x :: n -> l <> l1 ++ r.
Proof. intros -> E. rewrite <- app_assoc in E. cbn [app] in E. exact (longer _ _ _ E). Qed.

Lemma UpdateMark_calls m t mark e w : tuple5_ok t -> is_u32 mark ->
  exists ev new, w_tr (snd (ConntrackTableUpdateMark m (f_src t) (f_dst t) (f_proto t) (f_sport t) (f_dport t) mark e w)) = w_tr w ++ ev :: new.
Proof.
  intros T K. unfold ConntrackTableUpdateMark. rewrite build_request_ok by exact T.
  rewrite bind_lift_ok, appendMark_ok by exact K. rewrite bind_lift_ok. apply sendMessage_calls.
Qed.
Lemma mark_loop_calls m t mark e : tuple5_ok t -> is_u32 mark -> forall flows w n, Forall flow_ok flows ->
  mark_loop m flows (f_src t) (f_dst t) (f_proto t) (f_sport t) (f_dport t) mark n e w <> (Panic, w).
Proof.
  intros T K. induction flows as [|fl fs IH]; intros w n F; cbn [mark_loop].
  - destruct (0 <=? n); discriminate.
  - destruct (check_ok t fl T (Forall_inv F)) as (x & E & _). rewrite E, bind_lift_ok.
    destruct (x && negb (mark =? 0)); [|apply IH, (Forall_inv_tail F)].
    destruct (UpdateMark_calls m t mark e w T K) as (ev & new & Tr). unfold mbind.
    destruct (ConntrackTableUpdateMark m (f_src t) (f_dst t) (f_proto t) (f_sport t) (f_dport t) mark e w) as [[[er|]| |] w1];
      cbn [snd] in Tr; try discriminate.
    + intros Q. destruct (grows_mark_loop m (f_src t) (f_dst t) (f_proto t) (f_sport t) (f_dport t) mark fs (n + 1) e w1) as [rest R].
      rewrite Q in R. cbn [snd] in R. exact (longer2 _ _ _ _ _ Tr R).
    + intros Q. injection Q as ->. exact (longer _ _ _ Tr).
Qed.
Lemma label_request_total m t label : tuple5_ok t -> is_u32 label ->
  exists hdr data, label_request m (f_src t) (f_dst t) (f_proto t) (f_sport t) (f_dport t) label = Ok (hdr, data).
Proof.
  intros T K. destruct (Z.eq_dec (f_proto t) 6) as [P|P].
  - do 2 eexists. apply label_tcp_request_ok; auto.
  - do 2 eexists. apply label_request_ok; auto.
Qed.
Lemma label_loop_calls m t mark e : tuple5_ok t -> is_u32 mark -> forall flows w n, Forall flow_ok flows ->
  label_loop m flows (f_src t) (f_dst t) (f_proto t) (f_sport t) (f_dport t) mark n e w <> (Panic, w).
Proof.
  intros T K. destruct (label_request_total m t mark T K) as (hdr & data & LR).
  induction flows as [|fl fs IH]; intros w n F; cbn [label_loop].
  - destruct (0 <=? n); discriminate.
  - destruct (check_ok t fl T (Forall_inv F)) as (x & E & _). rewrite E, bind_lift_ok.
    destruct x; [|apply IH, (Forall_inv_tail F)]. rewrite LR, bind_lift_ok.
    destruct (sendMessage_calls m hdr data e w) as (ev & new & Tr). unfold mbind.
    destruct (sendMessage m hdr data e w) as [[[er|]| |] w1]; cbn [snd] in Tr; try discriminate.
    + intros Q. destruct (grows_label_loop m (f_src t) (f_dst t) (f_proto t) (f_sport t) (f_dport t) mark fs (n + 1) e w1) as [rest R].
      rewrite Q in R. cbn [snd] in R. exact (longer2 _ _ _ _ _ Tr R).
    + intros Q. injection Q as ->. exact (longer _ _ _ Tr).
Qed.

(** with a nil address: no system call before the panic *)
Lemma nil_ip : IP2int [] = Panic.
Proof. reflexivity. Qed.
Lemma nil_build m a b p sp dp : a = [] \/ b = [] -> (a = [] \/ is_bytes a /\ length a = 16%nat) ->
  buildConntrackUpdateRequest m a b p sp dp = Panic.
Proof.
  intros N A. unfold buildConntrackUpdateRequest. destruct A as [-> |[BA LA]]; [reflexivity|].
  destruct N as [-> | ->]; [discriminate LA|]. rewrite IP2int_low by exact LA.
  destruct (v4_IP2int _ (low_addr a BA LA)) as (-> & _). reflexivity.
Qed.
Lemma nil_check fl a b p sp dp : flow_ok fl -> a = [] \/ b = [] -> (a = [] \/ is_bytes a /\ length a = 16%nat) ->
  checkTuplesInFlow fl a b p sp dp = Panic.
Proof.
  intros (F1 & F2 & F3 & F4) N A. unfold checkTuplesInFlow.
  destruct (v4_IP2int _ F1) as (E1 & _). destruct (v4_IP2int _ F2) as (E2 & _). destruct (v4_IP2int _ F3) as (E3 & _).
  unfold ip_eq. rewrite E1, E2, E3. cbn [rbind].
  destruct A as [-> |[BA LA]]; [reflexivity|]. destruct N as [-> | ->]; [discriminate LA|].
  rewrite IP2int_low by exact LA. destruct (v4_IP2int _ (low_addr a BA LA)) as (-> & _). rewrite nil_ip. cbn [rbind and_then].
  destruct (num BE (v4_bytes (t_src (f_fwd fl))) =? num BE (v4_bytes (skipn 12 a))); reflexivity.
Qed.

Section texts.
Variables (parse6 : bytes -> bytes) (m : endian) (s d : bytes) (p sp dp x : Z).
Hypothesis P6 : forall t, In 58 t -> parse6 t = [] \/ is_bytes (parse6 t) /\ length (parse6 t) = 16%nat.
Hypothesis UP : is_u8 p.
Hypothesis US : is_u16 sp.
Hypothesis UD : is_u16 dp.
Hypothesis UX : is_u32 x.
Lemma parsed_or : (ParseIP parse6 s = [] \/ ParseIP parse6 d = []) \/
  (exists t, tuple5_ok t /\ f_proto t = p /\ f_sport t = sp /\ f_dport t = dp /\
     length (ParseIP parse6 s) = 16%nat /\ length (ParseIP parse6 d) = 16%nat /\
     f_src t = skipn 12 (ParseIP parse6 s) /\ f_dst t = skipn 12 (ParseIP parse6 d) /\
     ParseIP parse6 s <> [] /\ ParseIP parse6 d <> []).
Proof.
  destruct (parse_shape parse6 s P6) as [E1|[B1 L1]]; [auto|]. destruct (parse_shape parse6 d P6) as [E2|[B2 L2]]; [auto|].
  right. exists (mk5 (skipn 12 (ParseIP parse6 s)) (skipn 12 (ParseIP parse6 d)) p sp dp). cbn [f_src f_dst f_proto f_sport f_dport].
  split; [split; [apply low_addr; auto|split; [apply low_addr; auto|auto]]|]. repeat split; auto; intros E; rewrite E in *; discriminate.
Qed.
Lemma mark_text_exact e w : UpdateMark_text parse6 m s d p sp dp x e w = (Panic, w) <->
  ParseIP parse6 s = [] \/ ParseIP parse6 d = [].
Proof.
  unfold UpdateMark_text. split.
  - destruct parsed_or as [Q|(t & T & T1 & T2 & T3 & L1 & L2 & A1 & A2 & _)]; [auto|].
    rewrite mark_low by auto. rewrite <- A1, <- A2, <- T1, <- T2, <- T3. intros E. exfalso.
    destruct (UpdateMark_calls m t x e w T UX) as (ev & new & Tr). rewrite E in Tr. exact (longer _ _ _ Tr).
  - intros N. unfold ConntrackTableUpdateMark. rewrite nil_build; [reflexivity|exact N|apply parse_shape, P6].
Qed.
Lemma loop_low flows n : length (ParseIP parse6 s) = 16%nat -> length (ParseIP parse6 d) = 16%nat -> forall e w,
  mark_loop m flows (ParseIP parse6 s) (ParseIP parse6 d) p sp dp x n e w =
  mark_loop m flows (skipn 12 (ParseIP parse6 s)) (skipn 12 (ParseIP parse6 d)) p sp dp x n e w.
Proof.
  intros L1 L2. revert n. induction flows as [|fl fs IH]; intros n e w; [reflexivity|]. cbn [mark_loop]. rewrite check_low by auto.
  rewrite (mark_low m (ParseIP parse6 s)) by auto.
  unfold mbind. destruct (lift (checkTuplesInFlow fl _ _ p sp dp) e w) as [[y| |] w1]; try reflexivity.
  destruct (y && negb (x =? 0)); [|apply IH].
  destruct (ConntrackTableUpdateMark m _ _ p sp dp x e w1) as [[[er|]| |] w2]; try reflexivity. apply IH.
Qed.
Lemma label_low flows n : length (ParseIP parse6 s) = 16%nat -> length (ParseIP parse6 d) = 16%nat -> forall e w,
  label_loop m flows (ParseIP parse6 s) (ParseIP parse6 d) p sp dp x n e w =
  label_loop m flows (skipn 12 (ParseIP parse6 s)) (skipn 12 (ParseIP parse6 d)) p sp dp x n e w.
Proof.
  intros L1 L2. revert n. induction flows as [|fl fs IH]; intros n e w; [reflexivity|]. cbn [label_loop]. rewrite check_low by auto.
  assert (R : label_request m (ParseIP parse6 s) (ParseIP parse6 d) p sp dp x =
              label_request m (skipn 12 (ParseIP parse6 s)) (skipn 12 (ParseIP parse6 d)) p sp dp x).
  { unfold label_request, buildConntrackUpdateRequest. rewrite (IP2int_low (ParseIP parse6 s)), (IP2int_low (ParseIP parse6 d)) by auto. reflexivity. }
  rewrite R. unfold mbind. destruct (lift (checkTuplesInFlow fl _ _ p sp dp) e w) as [[y| |] w1]; try reflexivity.
  destruct y; [|apply IH]. destruct (lift (label_request m _ _ p sp dp x) e w1) as [[[hdr data]| |] w2]; try reflexivity.
  destruct (sendMessage m hdr data e w2) as [[[er|]| |] w3]; try reflexivity. apply IH.
Qed.
Lemma marks_text_exact flows e w : Forall flow_ok flows ->
  UpdateMarkForAvailableFlow_text parse6 m flows s d p sp dp x e w = (Panic, w) <->
  flows <> [] /\ (ParseIP parse6 s = [] \/ ParseIP parse6 d = []).
Proof.
  intros F. unfold UpdateMarkForAvailableFlow_text, ConntrackTableUpdateMarkForAvailableFlow. split.
  - intros E. split; [intros ->; discriminate E|].
    destruct parsed_or as [Q|(t & T & T1 & T2 & T3 & L1 & L2 & A1 & A2 & _)]; [auto|].
    exfalso. rewrite loop_low in E by auto. rewrite <- A1, <- A2, <- T1, <- T2, <- T3 in E.
    exact (mark_loop_calls m t x e T UX flows w 0 F E).
  - intros [NE N]. destruct flows as [|fl fs]; [congruence|]. cbn [mark_loop].
    rewrite nil_check; [reflexivity|exact (Forall_inv F)|exact N|apply parse_shape, P6].
Qed.
Lemma labels_text_exact flows e w : Forall flow_ok flows ->
  UpdateLabel_text parse6 m flows s d p sp dp x e w = (Panic, w) <->
  flows <> [] /\ (ParseIP parse6 s = [] \/ ParseIP parse6 d = []).
Proof.
  intros F. unfold UpdateLabel_text, ConntrackTableUpdateLabel. split.
  - intros E. split; [intros ->; discriminate E|].
    destruct parsed_or as [Q|(t & T & T1 & T2 & T3 & L1 & L2 & A1 & A2 & _)]; [auto|].
    exfalso. rewrite label_low in E by auto. rewrite <- A1, <- A2, <- T1, <- T2, <- T3 in E.
    exact (label_loop_calls m t x e T UX flows w 0 F E).
  - intros [NE N]. destruct flows as [|fl fs]; [congruence|]. cbn [label_loop].
    rewrite nil_check; [reflexivity|exact (Forall_inv F)|exact N|apply parse_shape, P6].
Qed.
End texts.
Lemma quad_no_colon s four : dotted_quad s four -> ~ In 58 s.
Proof.
  intros (a & b & c & d & N & -> & _).
  assert (X : forall t, is_number t -> ~ In 58 t).
  { intros t [_ D] J. rewrite Forall_forall in D. specialize (D _ J). lia. }
  inversion N as [|? ? N1 M1]; subst. inversion M1 as [|? ? N2 M2]; subst. inversion M2 as [|? ? N3 M3]; subst.
  inversion M3 as [|? ? N4 _]; subst. apply X in N1, N2, N3, N4.
  rewrite !in_app_iff. cbn [In]. intuition lia.
Qed.
Lemma quad_four s four : dotted_quad s four -> length four = 4%nat.
Proof. intros (a & b & c & d & _ & _ & -> & _). reflexivity. Qed.
Lemma any_text_update parse6 m s d t mark hi e w :
  dotted_quad s (f_src t) -> dotted_quad d (f_dst t) -> tuple5_ok t -> is_u32 mark -> replies_within 20 hi e -> sockets_open e ->
  exists res w' new b,
    UpdateMark_text parse6 m s d (f_proto t) (f_sport t) (f_dport t) mark e w = (Ok res, w') /\
    w_tr w' = w_tr w ++ new /\ ct_update m t [mark_attr mark] b /\ one_update m b new res.
Proof.
  intros QS QD T K R O. unfold UpdateMark_text.
  rewrite (proj2 (proj1 (parse_exact parse6 s (quad_no_colon _ _ QS)) _) QS), (proj2 (proj1 (parse_exact parse6 d (quad_no_colon _ _ QD)) _) QD).
  apply quad_four in QS, QD. rewrite mark_low by (unfold mapped; rewrite app_length; cbn [length]; lia).
  change (skipn 12 (mapped (f_src t))) with (f_src t). change (skipn 12 (mapped (f_dst t))) with (f_dst t).
  exact (UpdateMark_run m t mark hi e w T K R O).
Qed.
