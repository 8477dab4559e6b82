(** Interleaved packet readers (C68). *)
From Verif Require Export Proof.PktNew Model.PacketConc Spec.PacketConcSpec.

(** ** Any interleaving of goroutines that do not read what others write *)
Definition prun1 (tm : pthread * pmem) (x : pinstr) : pthread * pmem := pexec x (fst tm) (snd tm).
Definition palone (code : list pinstr) (tm : pthread * pmem) : pthread * pmem := fold_left prun1 code tm.
Definition within (R W : nat -> nat -> Prop) (x : pinstr) : Prop :=
  match x with
  | PLoad a k => R a k
  | PZero a k | PRestore a k _ => W a k
  | PReturn => True
  end.
Lemma put_nth_same {A} i (x : A) l : (i < length l)%nat -> nth_error (put_nth i x l) i = Some x.
Proof. revert i; induction l as [|y l IH]; intros [|i] H; cbn in *; try lia; [reflexivity|apply IH; lia]. Qed.
Lemma put_nth_other {A} i j (x : A) l : i <> j -> nth_error (put_nth i x l) j = nth_error l j.
Proof. revert i j; induction l as [|y l IH]; intros [|i] [|j] H; cbn; try reflexivity; [congruence|apply IH; congruence]. Qed.
Lemma put_nth_length {A} i (x : A) l : length (put_nth i x l) = length l.
Proof. revert i; induction l as [|y l IH]; intros [|i]; cbn; auto. Qed.

Section Interleave.
Context (codes : list (list pinstr)) (R W : nat -> nat -> nat -> Prop) (m0 : pmem).
Context (INC : forall i a k, W i a k -> R i a k).
Context (SEP : forall i j a k, i <> j -> R i a k -> ~ W j a k).
Context (IN : forall i code, nth_error codes i = Some code -> Forall (within (R i) (W i)) code).
Definition good (c : pconf) : Prop :=
  length (pc_threads c) = length codes /\
  (forall i code, nth_error codes i = Some code -> exists pre rest t,
     code = pre ++ rest /\ nth_error (pc_threads c) i = Some (t, rest) /\
     t = fst (palone pre (pstart, m0)) /\
     forall a k, R i a k -> pc_mem c a k = snd (palone pre (pstart, m0)) a k) /\
  (forall a k, (forall i, ~ W i a k) -> pc_mem c a k = m0 a k).
Lemma good_init : good (mkPC (map (fun code => (pstart, code)) codes) m0).
Proof.
  split; [cbn; apply map_length|]. split; [|reflexivity]. intros i code E. exists [], code, pstart. split; [reflexivity|].
  split; [cbn; rewrite nth_error_map, E; reflexivity|]. split; reflexivity.
Qed.
Lemma good_step c c' : good c -> pstep c c' -> good c'.
Proof.
  intros (L & G & O) S. inversion S as [i t x rest c0 E]; subst. clear S.
  assert (Hi : (i < length codes)%nat) by (rewrite <- L; apply nth_error_Some; congruence).
  destruct (nth_error codes i) as [code|] eqn:EC; [|apply nth_error_None in EC; lia].
  destruct (G i code EC) as (pre & rest' & t' & -> & E' & T & MI). rewrite E in E'. injection E' as <- <-.
  pose proof (IN i _ EC) as F. apply Forall_app in F as (_ & F). inversion F as [|? ? Wx _]; subst x0 l.
  assert (STEP : palone (pre ++ [x]) (pstart, m0) = pexec x t (snd (palone pre (pstart, m0)))).
  { unfold palone. rewrite fold_left_app. cbn [fold_left]. unfold prun1 at 1. fold (palone pre (pstart, m0)). rewrite <- T. reflexivity. }
  (* what the step does to the memory *)
  assert (MEM : forall a k, snd (pexec x t (pc_mem c)) a k <> pc_mem c a k -> W i a k).
  { intros a k. destruct x as [la lk|la lk|la lk ri|]; cbn [pexec snd]; try congruence; unfold pset;
      destruct (Nat.eqb_spec a la) as [->|]; cbn [andb]; try congruence;
      destruct (Nat.eqb_spec k lk) as [->|]; try congruence; intros _; exact Wx. }
  assert (SAME : forall a k, ~ W i a k -> snd (pexec x t (pc_mem c)) a k = pc_mem c a k).
  { intros a k N. destruct (Z.eq_dec (snd (pexec x t (pc_mem c)) a k) (pc_mem c a k)) as [e|n]; [exact e|]. exfalso. auto. }
  split; [cbn [pc_threads]; rewrite put_nth_length; exact L|]. split; cbn [pc_threads pc_mem].
  - intros j code' EJ. destruct (Nat.eq_dec i j) as [<-|NE].
    + rewrite EC in EJ. injection EJ as <-. exists (pre ++ [x]), rest, (fst (pexec x t (pc_mem c))).
      split; [rewrite <- app_assoc; reflexivity|]. split; [apply put_nth_same; lia|]. rewrite STEP. split.
      * destruct x as [la lk|la lk|la lk ri|]; cbn [pexec fst]; try reflexivity. cbn in Wx. rewrite (MI _ _ Wx). reflexivity.
      * intros a k Ra. destruct x as [la lk|la lk|la lk ri|]; cbn [pexec snd]; auto; unfold pset; destruct (_ && _); auto.
    + destruct (G j code' EJ) as (prej & restj & tj & -> & Ej & Tj & Mj). exists prej, restj, tj.
      split; [reflexivity|]. split; [rewrite put_nth_other by exact NE; exact Ej|]. split; [exact Tj|].
      intros a k Ra. rewrite SAME; [exact (Mj a k Ra)|]. apply (SEP j i a k); auto.
  - intros a k N. rewrite SAME by apply N. apply O, N.
Qed.
Lemma good_steps c c' : good c -> psteps c c' -> good c'.
Proof. intros G S. induction S as [|c1 c2 c3 S IH ST]; [exact G|]. exact (good_step _ _ (IH G) ST). Qed.
End Interleave.

(** ** What each call does alone *)
Lemma palone_app a b tm : palone (a ++ b) tm = palone b (palone a tm).
Proof. apply fold_left_app. Qed.
Lemma palone_cons x l tm : palone (x :: l) tm = palone l (prun1 tm x).
Proof. reflexivity. Qed.
Lemma palone_loads (f : nat -> nat) a (l : list nat) t m :
  palone (map (fun k => PLoad a (f k)) l) (t, m) = (mkPT (pt_done t) (pt_regs t ++ map (fun k => m a (f k)) l), m).
Proof.
  revert t; induction l as [|k l IH]; intros t; cbn [map].
  { cbn. rewrite app_nil_r. destruct t. reflexivity. }
  rewrite palone_cons. unfold prun1. cbn [pexec fst snd]. rewrite IH. cbn [pt_done pt_regs]. rewrite <- app_assoc. reflexivity.
Qed.
Definition pview (m : pmem) (a o n : nat) : bytes := map (fun k => m a (o + k)%nat) (seq 0 n).
Lemma pview_length m a o n : length (pview m a o n) = n.
Proof. unfold pview. now rewrite map_length, seq_length. Qed.
Lemma pview_ext m m' a o n : (forall a k, m a k = m' a k) -> pview m a o n = pview m' a o n.
Proof. intros E. unfold pview. apply map_ext. intros k. apply E. Qed.
Lemma palone_load_slice s t m : palone (load_slice s) (t, m) = (mkPT (pt_done t) (pt_regs t ++ pview m (s_arr s) (s_off s) (s_len s)), m).
Proof. apply (palone_loads (fun k => (s_off s + k)%nat)). Qed.
Lemma palone_load_part s o n t m : palone (load_part s o n) (t, m) = (mkPT (pt_done t) (pt_regs t ++ pview m (s_arr s) (s_off s + o) n), m).
Proof. apply (palone_loads (fun k => (s_off s + o + k)%nat)). Qed.
Lemma pview_heap h a o n : (o + n <= length (arr h a))%nat -> pview (pmem_of h) a o n = firstn n (skipn o (arr h a)).
Proof.
  intros H. apply (nth_ext_len _ _ 0); [rewrite pview_length, firstn_length, skipn_length; lia|].
  intros i Hi. rewrite pview_length in Hi. unfold pview.
  rewrite (nth_indep _ 0 (pmem_of h a (o + 0)%nat)) by (rewrite map_length, seq_length; lia).
  rewrite (map_nth (fun k => pmem_of h a (o + k)%nat)). rewrite seq_nth by lia. rewrite nth_firstn' by lia. rewrite nth_skipn'.
  reflexivity.
Qed.
Lemma pview_rd h s : valid h s -> pview (pmem_of h) (s_arr s) (s_off s) (s_len s) = rd h s.
Proof.
  intros (A & [B|(B & C)]).
  - assert (Z : s_len s = 0%nat) by lia. unfold rd. rewrite Z. reflexivity.
  - apply pview_heap. lia.
Qed.
(** the code of a call, and of any list of calls, depends on the bytes in memory only *)
Lemma palone_ext code : forall t (m m' : pmem), (forall a k, m a k = m' a k) ->
  fst (palone code (t, m)) = fst (palone code (t, m')) /\
  forall a k, snd (palone code (t, m)) a k = snd (palone code (t, m')) a k.
Proof.
  induction code as [|x code IH]; intros t m m' E; [split; [reflexivity|exact E]|].
  rewrite !palone_cons. unfold prun1. cbn [fst snd].
  assert (X : fst (pexec x t m) = fst (pexec x t m') /\ forall a k, snd (pexec x t m) a k = snd (pexec x t m') a k).
  { destruct x; cbn [pexec fst snd]; try (split; [reflexivity|]; intros; unfold pset; try destruct (_ && _); auto).
    rewrite E. split; [reflexivity|exact E]. }
  destruct X as (X1 & X2). rewrite (surjective_pairing (pexec x t m)), (surjective_pairing (pexec x t m')), X1.
  apply IH, X2.
Qed.
Lemma bytes_alone p d h : valid h (Buffer p) -> valid h (tcpOptions p) -> valid h (tcpData p) ->
  palone (bytes_code p) (mkPT d [], pmem_of h) = (mkPT (d ++ [GetTCPBytes h p]) [], pmem_of h).
Proof.
  intros V1 V2 V3. unfold bytes_code. rewrite !palone_app, !palone_load_slice. cbn [pt_done pt_regs app].
  rewrite !pview_rd by auto. rewrite palone_cons. unfold prun1. cbn [pexec fst snd palone fold_left pt_done pt_regs].
  rewrite emitted_eq, <- app_assoc. reflexivity.
Qed.
(** the bytes a verification reads *)
Definition verify_reads (p : packet) (h : heap) : bytes :=
  let b := rd h (Buffer p) in
  [nth (hl p + 16) b 0; nth (hl p + 17) b 0] ++
  field b (src_pos (version p)) (addr_len (version p)) ++ field b (dst_pos (version p)) (addr_len (version p)) ++
  tcp_zeroed h p ++ rd h (tcpOptions p) ++ rd h (tcpData p).
Lemma pset_heap h s i v : vslice h s -> (i < s_len s)%nat -> forall a k,
  pset (pmem_of h) (s_arr s) (s_off s + i) v a k = pmem_of (set_rd h s (splice (rd h s) i [v])) a k.
Proof.
  intros V I a k. pose proof (vslice_len _ _ V) as LB. pose proof V as (V1 & V2 & V3). unfold pset, pmem_of.
  destruct (Nat.eqb_spec a (s_arr s)) as [->|N]; cbn [andb]; [|rewrite set_rd_other by auto; reflexivity].
  rewrite set_rd_arr by exact V.
  assert (E : splice (arr h (s_arr s)) (s_off s) (splice (rd h s) i [v]) = splice (arr h (s_arr s)) (s_off s + i) [v]).
  { apply (nth_ext_len _ _ 0); [rewrite !splice_length; slen|]. intros j Hj.
    rewrite splice_length in Hj by slen. rewrite !nth_splice by slen. rewrite splice_length by slen. cbn [length].
    destruct (Nat.leb_spec (s_off s) j); cbn [andb].
    2:{ destruct (Nat.leb_spec (s_off s + i) j); [lia|]. reflexivity. }
    destruct (Nat.ltb_spec j (s_off s + length (rd h s))); cbn [andb].
    - destruct (Nat.leb_spec i (j - s_off s)), (Nat.leb_spec (s_off s + i) j); try lia; cbn [andb].
      + destruct (Nat.ltb_spec (j - s_off s) (i + 1)), (Nat.ltb_spec j (s_off s + i + 1)); try lia; [f_equal; lia|].
        unfold rd. rewrite nth_firstn' by lia. rewrite nth_skipn'. f_equal. lia.
      + unfold rd. rewrite nth_firstn' by lia. rewrite nth_skipn'. f_equal. lia.
    - destruct (Nat.ltb_spec j (s_off s + i + 1)); [lia|]. rewrite andb_false_r. reflexivity. }
  rewrite E, nth_splice by (cbn [length]; lia). cbn [length].
  destruct (Nat.eqb_spec k (s_off s + i)) as [->|N].
  - rewrite Nat.leb_refl. destruct (Nat.ltb_spec (s_off s + i) (s_off s + i + 1)); [|lia]. cbn [andb]. rewrite Nat.sub_diag. reflexivity.
  - destruct (Nat.leb_spec (s_off s + i) k); cbn [andb]; [|reflexivity].
    destruct (Nat.ltb_spec k (s_off s + i + 1)); [lia|reflexivity].
Qed.
(** one call of VerifyTCPChecksum alone: what it reads; memory ends as it began *)
Section VERIFY.
Context (h : heap) (p : packet) (A : ip_agrees h p) (L20 : (hl p + 20 <= s_len (Buffer p))%nat) (AO : attached_ok h p).
Lemma verify_alone d :
  fst (palone (verify_code p) (mkPT d [], pmem_of h)) = mkPT (d ++ [verify_reads p h]) [] /\
  forall a k, snd (palone (verify_code p) (mkPT d [], pmem_of h)) a k = pmem_of h a k.
Proof.
  facts A. destruct AO as (O1 & O2 & O3 & O4 & O5 & O6 & O7).
  set (b := rd h (Buffer p)) in *. set (s := Buffer p) in *. set (n := hl p) in *.
  assert (HN : hdr_len p = n) by (unfold hdr_len; rewrite HL1; lia).
  set (z := splice b (n + 16) [0; 0]). assert (Lz : length z = s_len s) by (unfold z; slen).
  set (m0 := pmem_of h). set (c := (s_off s + n + 16)%nat).
  set (m2 := pset (pset m0 (s_arr s) c 0) (s_arr s) (c + 1) 0).
  assert (M2 : forall a k, m2 a k = pmem_of (set_rd h s z) a k).
  { intros a k. unfold m2.
    assert (E1 : forall a k, pset m0 (s_arr s) c 0 a k = pmem_of (set_rd h s (splice b (n + 16) [0])) a k).
    { intros. unfold m0, c. rewrite <- Nat.add_assoc. apply pset_heap; [exact VS|lia]. }
    transitivity (pset (pmem_of (set_rd h s (splice b (n + 16) [0]))) (s_arr s) (s_off s + (n + 17)) 0 a k).
    { unfold pset at 1 3. replace (c + 1)%nat with (s_off s + (n + 17))%nat by (unfold c; lia). destruct (_ && _); [reflexivity|apply E1]. }
    assert (LB1 : length (splice b (n + 16) [0]) = s_len s) by slen.
    rewrite pset_heap by (try apply set_rd_vslice; auto; lia).
    rewrite rd_set by auto. rewrite set_rd_set by (try exact VS; slen).
    f_equal. f_equal. unfold z. replace (n + 17)%nat with (n + 16 + 1)%nat by lia. apply splice_twice. lia. }
  assert (R0 : m0 (s_arr s) c = nth (n + 16) b 0).
  { unfold m0, pmem_of, c, b, rd. rewrite nth_firstn' by lia. rewrite nth_skipn'. f_equal. lia. }
  assert (R1 : m0 (s_arr s) (c + 1)%nat = nth (n + 17) b 0).
  { unfold m0, pmem_of, c, b, rd. rewrite nth_firstn' by lia. rewrite nth_skipn'. f_equal. lia. }
  assert (VW : forall o l, (o + l <= s_len s)%nat -> pview m2 (s_arr s) (s_off s + o) l = field z o l).
  { intros o l Hl. rewrite (pview_ext _ _ _ _ _ M2).
    unfold field. rewrite <- (rd_win h s VS z o l l Lz Hl). apply (pview_rd (set_rd h s z) (win s o l l)).
    split; [reflexivity|right]. cbn [win s_arr s_off s_cap]. rewrite set_rd_length, set_rd_arr_length by auto. lia. }
  assert (VO : forall t, valid h t -> apart s t -> pview m2 (s_arr t) (s_off t) (s_len t) = rd h t).
  { intros t Vt At. rewrite (pview_ext _ _ _ _ _ M2). rewrite pview_rd by (apply set_rd_valid; auto). apply rd_apart; auto. }
  unfold verify_code. fold s. rewrite HN. fold c. cbn [app]. rewrite !palone_cons.
  change (prun1 (prun1 (prun1 (prun1 (mkPT d [], m0) (PLoad (s_arr s) c)) (PLoad (s_arr s) (c + 1))) (PZero (s_arr s) c)) (PZero (s_arr s) (c + 1)))
    with (mkPT d [m0 (s_arr s) c; m0 (s_arr s) (c + 1)%nat], m2).
  rewrite !palone_app, !palone_load_part, !palone_load_slice. cbn [pt_done pt_regs app].
  rewrite !palone_cons. unfold prun1. cbn [pexec fst snd pt_done pt_regs app nth palone fold_left].
  assert (P1 : (src_pos (version p) + addr_len (version p) <= n)%nat /\ (dst_pos (version p) + addr_len (version p) <= n)%nat).
  { unfold n, hl. destruct (version p); cbn; lia. }
  destruct P1 as (P1 & P2).
  rewrite !VW, !VO by (auto; lia). split.
  - f_equal. f_equal. f_equal. unfold verify_reads, tcp_zeroed. fold s b n. rewrite <- !app_assoc. cbn [app].
    rewrite R0, R1. do 2 f_equal. unfold z.
    rewrite !field_splice_disj by slen. do 2 f_equal.
    unfold field. rewrite firstn_all2 by (rewrite skipn_length; slen). reflexivity.
  - intros a k. unfold m2, pset. destruct (Nat.eqb_spec a (s_arr s)) as [->|N]; cbn [andb]; [|reflexivity].
    destruct (Nat.eqb_spec k (c + 1)) as [->|N1]; [reflexivity|]. destruct (Nat.eqb_spec k c) as [->|N2]; reflexivity.
Qed.
Lemma checksum_range l : forall c, 0 <= c < 4294967296 -> 0 <= partialChecksum c l < 4294967296.
Proof.
  unfold partialChecksum. assert (X : forall n l, (length l <= n)%nat -> forall c, 0 <= c < 4294967296 -> 0 <= checksumDelta c l < 4294967296).
  { clear. induction n as [|n IH]; intros [|x [|y l]] Hl c Hc; cbn [length checksumDelta] in *; try lia; unfold u32; try lia.
    apply IH; [lia|]. lia. }
  intros c Hc. eapply X; [reflexivity|exact Hc].
Qed.
Lemma verify_answers : answered h (CVerify p) (verify_reads p h).
Proof.
  facts A. pose proof AO as (O1 & O2 & O3 & O4 & O5 & O6 & O7).
  cbn [answered]. unfold VerifyTCPChecksum. rewrite (tcp_compute_raw h p A L20 AO).
  assert (RG : 0 <= tcp_pieces h p < 4294967296).
  { unfold tcp_pieces. do 3 apply checksum_range. destruct (version p); cbn [pseudo_pieces fold_left]; do 4 apply checksum_range; lia. }
  destruct (fold16_spec (tcp_pieces h p) RG) as (r & E & _).
  assert (FE : finalizeChecksum (tcp_pieces h p) = Ok (not16 r)) by (unfold finalizeChecksum; rewrite E; reflexivity).
  rewrite FE. cbn [rbind fst snd]. eexists. split; [reflexivity|].
  unfold verify_answer, verify_reads. cbn [app skipn].
  assert (HN : hdr_len p = hl p) by (unfold hdr_len; rewrite HL1; lia). rewrite HN.
  set (b := rd h (Buffer p)) in *. set (n := addr_len (version p)). set (seg := (s_len (Buffer p) - hl p)%nat).
  assert (P1 : (src_pos (version p) + n <= hl p)%nat /\ (dst_pos (version p) + n <= hl p)%nat).
  { unfold n, hl. destruct (version p); cbn; lia. }
  assert (F1 : length (field b (src_pos (version p)) n) = n) by (apply field_length; lia).
  assert (F2 : length (field b (dst_pos (version p)) n) = n) by (apply field_length; lia).
  assert (F3 : length (tcp_zeroed h p) = seg) by (unfold tcp_zeroed; fold b; rewrite skipn_length; unfold seg; slen).
  assert (F4 : length (rd h (tcpOptions p)) = s_len (tcpOptions p)) by (apply valid_len; auto).
  set (A1 := field b (src_pos (version p)) n) in *. set (A2 := field b (dst_pos (version p)) n) in *. set (A3 := tcp_zeroed h p) in *.
  set (A4 := rd h (tcpOptions p)) in *. set (A5 := rd h (tcpData p)).
  assert (TAKE : forall (x y : bytes) k, length x = k -> firstn k (x ++ y) = x /\ skipn k (x ++ y) = y).
  { intros x y k <-. rewrite firstn_app, firstn_all, Nat.sub_diag. split; [|rewrite skipn_app, skipn_all, Nat.sub_diag; reflexivity].
    apply app_nil_r. }
  destruct (TAKE A1 (A2 ++ A3 ++ A4 ++ A5) n F1) as (T1 & T2). rewrite T1, T2.
  destruct (TAKE A2 (A3 ++ A4 ++ A5) n F2) as (T3 & T4). rewrite T3.
  assert (T5 : skipn (2 * n) (A1 ++ A2 ++ A3 ++ A4 ++ A5) = A3 ++ A4 ++ A5).
  { replace (2 * n)%nat with (n + n)%nat by lia. rewrite <- skipn_skipn, T2. exact T4. }
  rewrite T5. destruct (TAKE A3 (A4 ++ A5) seg F3) as (T6 & T7). rewrite T6, T7.
  destruct (TAKE A4 A5 _ F4) as (T8 & T9). rewrite T8.
  assert (T10 : skipn (seg + s_len (tcpOptions p)) (A3 ++ A4 ++ A5) = A5).
  { rewrite Nat.add_comm, <- skipn_skipn, T7. exact T9. }
  rewrite T10.
  assert (TP : partialChecksum (partialChecksum (partialChecksum (partialChecksum (partialChecksum (partialChecksum (partialChecksum 0 A1) A2) [0; 6])
     (put16 BE (u16 (Z.of_nat seg + Z.of_nat (s_len (tcpData p)) + Z.of_nat (s_len (tcpOptions p)))))) A3) A4) A5 = tcp_pieces h p).
  { unfold tcp_pieces, tcp_len, A1, A2, A3, A4, A5, n, b, seg. destruct (version p); reflexivity. }
  rewrite TP, FE. reflexivity.
Qed.
End VERIFY.

(** ** A goroutine's calls one after the other, alone *)
Definition call_reads (h : heap) (c : pcall) : bytes :=
  match c with CVerify p => verify_reads p h | CBytes p => GetTCPBytes h p end.
Lemma call_alone h c d : call_ok h c ->
  fst (palone (pcode c) (mkPT d [], pmem_of h)) = mkPT (d ++ [call_reads h c]) [] /\
  forall a k, snd (palone (pcode c) (mkPT d [], pmem_of h)) a k = pmem_of h a k.
Proof.
  intros ((A & P & L & S) & AO). facts A. rewrite LB in L. destruct c as [p|p]; cbn [call_packet pcode call_reads] in *.
  - apply verify_alone; auto.
  - destruct AO as (O1 & O2 & _). rewrite bytes_alone by (first [assumption | apply vslice_valid; assumption]). split; reflexivity.
Qed.
Lemma calls_alone h cs : Forall (call_ok h) cs -> forall d (m : pmem), (forall a k, m a k = pmem_of h a k) ->
  fst (palone (pcode_all cs) (mkPT d [], m)) = mkPT (d ++ map (call_reads h) cs) [] /\
  forall a k, snd (palone (pcode_all cs) (mkPT d [], m)) a k = pmem_of h a k.
Proof.
  induction 1 as [|c cs OK F IH]; intros d m E.
  - cbn. rewrite app_nil_r. auto.
  - unfold pcode_all. cbn [flat_map map]. fold (pcode_all cs). rewrite palone_app.
    destruct (call_alone h c d OK) as (X1 & X2). destruct (palone_ext (pcode c) (mkPT d []) m (pmem_of h) E) as (Y1 & Y2).
    destruct (palone (pcode c) (mkPT d [], m)) as [t1 m1] eqn:PE. rewrite ?PE in Y1, Y2. cbn [fst snd] in Y1, Y2. assert (t1 = mkPT (d ++ [call_reads h c]) []) by (rewrite <- X1; exact Y1). clear Y1. subst t1.
    destruct (IH (d ++ [call_reads h c]) m1) as (Z1 & Z2).
    { intros a k. rewrite Y2. apply X2. }
    rewrite <- app_assoc in Z1. split; [exact Z1|exact Z2].
Qed.
Lemma call_answered h c : call_ok h c -> answered h c (call_reads h c).
Proof.
  intros ((A & P & L & S) & AO). facts A. rewrite LB in L. destruct c as [p|p]; cbn [call_packet call_reads] in *.
  - apply verify_answers; auto.
  - reflexivity.
Qed.

(** ** Footprints *)
Definition written (c : pcall) (a k : nat) : Prop :=
  match c with
  | CVerify p => a = s_arr (Buffer p) /\ (k = s_off (Buffer p) + hl p + 16 \/ k = s_off (Buffer p) + hl p + 17)%nat
  | CBytes _ => False
  end.
Lemma written_covered h c a k : call_ok h c -> written c a k -> covers (Buffer (call_packet c)) a k.
Proof.
  intros ((A & P & L & S) & AO) W. facts A. rewrite LB in L. destruct c as [p|p]; cbn [written call_packet] in *; [|contradiction].
  destruct W as (-> & W). split; [reflexivity|lia].
Qed.
Lemma within_map (R W : nat -> nat -> Prop) a (f : nat -> nat) l : (forall k, In k l -> R a (f k)) -> Forall (within R W) (map (fun k => PLoad a (f k)) l).
Proof. intros H. apply Forall_forall. intros x I. apply in_map_iff in I as (k & <- & I). apply H, I. Qed.
Lemma call_within h c : call_ok h c -> Forall (within (uses (call_packet c)) (written c)) (pcode c).
Proof.
  intros ((A & P & L & S) & AO). facts A. rewrite LB in L.
  assert (LS : forall s, (forall a k, covers s a k -> uses (call_packet c) a k) -> Forall (within (uses (call_packet c)) (written c)) (load_slice s)).
  { intros s H. apply within_map. intros k I. apply in_seq in I. apply H. split; [reflexivity|lia]. }
  assert (LP : forall o n, (o + n <= s_len (Buffer (call_packet c)))%nat ->
     Forall (within (uses (call_packet c)) (written c)) (load_part (Buffer (call_packet c)) o n)).
  { intros o n H. apply (within_map _ _ _ (fun k => (s_off (Buffer (call_packet c)) + o + k)%nat)). intros k I. apply in_seq in I. left. split; [reflexivity|lia]. }
  destruct c as [p|p]; cbn [call_packet pcode] in *.
  - assert (HN : hdr_len p = hl p) by (unfold hdr_len; rewrite HL1; lia).
    unfold verify_code. rewrite HN.
    assert (P1 : (src_pos (version p) + addr_len (version p) <= hl p)%nat /\ (dst_pos (version p) + addr_len (version p) <= hl p)%nat).
    { unfold hl. destruct (version p); cbn; lia. }
    destruct P1 as (P1 & P2).
    apply Forall_app. split.
    { apply Forall_cons; [left; split; [reflexivity|lia]|]. apply Forall_cons; [left; split; [reflexivity|lia]|].
      apply Forall_cons; [split; [reflexivity|lia]|]. apply Forall_cons; [split; [reflexivity|lia]|]. apply Forall_nil. }
    apply Forall_app. split; [apply LP; lia|]. apply Forall_app. split; [apply LP; lia|]. apply Forall_app. split; [apply LP; lia|].
    apply Forall_app. split; [apply LS; intros; right; left; assumption|]. apply Forall_app. split; [apply LS; intros; right; right; assumption|].
    apply Forall_cons; [split; [reflexivity|lia]|]. apply Forall_cons; [split; [reflexivity|lia]|]. apply Forall_cons; [exact I|]. apply Forall_nil.
  - unfold bytes_code. apply Forall_app. split; [apply LS; intros; left; assumption|].
    apply Forall_app. split; [apply LS; intros; right; left; assumption|]. apply Forall_app. split; [apply LS; intros; right; right; assumption|].
    repeat constructor.
Qed.

(** ** Any interleaving *)
Lemma concurrent_calls h threads c : Forall (Forall (call_ok h)) threads -> separate_threads threads ->
  psteps (pinit threads h) c -> finished c ->
  length (pc_threads c) = length threads /\
  (forall i cs, nth_error threads i = Some cs -> exists t, nth_error (pc_threads c) i = Some (t, []) /\
     Forall2 (answered h) cs (pt_done t)) /\
  (forall a k, pc_mem c a k = pmem_of h a k).
Proof.
  intros OK SEP ST FIN.
  set (codes := map pcode_all threads).
  set (R := fun i a k => exists cs x, nth_error threads i = Some cs /\ In x cs /\ uses (call_packet x) a k).
  set (W := fun i a k => exists cs x, nth_error threads i = Some cs /\ In x cs /\ written x a k).
  assert (OKc : forall i cs x, nth_error threads i = Some cs -> In x cs -> call_ok h x).
  { intros i cs x E I. apply nth_error_In in E. rewrite Forall_forall in OK. specialize (OK _ E). rewrite Forall_forall in OK. auto. }
  assert (INC : forall i a k, W i a k -> R i a k).
  { intros i a k (cs & x & E & I & Wx). exists cs, x. split; [exact E|]. split; [exact I|]. left. eapply written_covered; eauto. }
  assert (SEPF : forall i j a k, i <> j -> R i a k -> ~ W j a k).
  { intros i j a k NE (cs & x & E & I & U) (cs' & y & E' & I' & Wy).
    pose proof (SEP j i cs' cs y x (not_eq_sym NE) E' E I' I) as SX.
    pose proof (written_covered h y a k (OKc _ _ _ E' I') Wy) as CV.
    destruct y as [q|q]; cbn [written separate call_packet] in *; [|contradiction]. exact (SX a k CV U). }
  assert (IN : forall i code, nth_error codes i = Some code -> Forall (within (R i) (W i)) code).
  { intros i code E. unfold codes in E. rewrite nth_error_map in E. destruct (nth_error threads i) as [cs|] eqn:EC; [|discriminate].
    injection E as <-. apply Forall_forall. intros x I. apply in_flat_map in I as (y & Iy & Ix).
    pose proof (call_within h y (OKc _ _ _ EC Iy)) as CW. rewrite Forall_forall in CW. specialize (CW x Ix).
    destruct x; cbn [within] in *; auto; exists cs, y; auto. }
  assert (IN0 : pinit threads h = mkPC (map (fun code => (pstart, code)) codes) (pmem_of h)).
  { unfold pinit, codes. rewrite map_map. reflexivity. }
  assert (G : good codes R W (pmem_of h) c).
  { eapply (good_steps codes R W (pmem_of h)); eauto. rewrite IN0. apply good_init. }
  destruct G as (GL & GT & GO). unfold codes in GL. rewrite map_length in GL.
  assert (EACH : forall i cs, nth_error threads i = Some cs -> exists t, nth_error (pc_threads c) i = Some (t, []) /\
     t = mkPT (map (call_reads h) cs) [] /\ forall a k, R i a k -> pc_mem c a k = pmem_of h a k).
  { intros i cs E. destruct (GT i (pcode_all cs)) as (pre & rest & t & EQ & ET & T & M).
    { unfold codes. rewrite nth_error_map, E. reflexivity. }
    unfold finished in FIN. rewrite Forall_forall in FIN. pose proof (FIN _ (nth_error_In _ _ ET)) as Z. cbn in Z. subst rest.
    rewrite app_nil_r in EQ. subst pre. exists t. split; [exact ET|].
    assert (F : Forall (call_ok h) cs) by (apply Forall_forall; intros x I; eapply OKc; eauto).
    destruct (calls_alone h cs F [] (pmem_of h) ltac:(reflexivity)) as (X1 & X2).
    split; [rewrite T; exact X1|]. intros a k Ra. rewrite (M a k Ra). apply X2. }
  split; [exact GL|]. split.
  - intros i cs E. destruct (EACH i cs E) as (t & ET & -> & _). exists (mkPT (map (call_reads h) cs) []). split; [exact ET|].
    cbn [pt_done]. assert (F : Forall (call_ok h) cs) by (apply Forall_forall; intros x I; eapply OKc; eauto).
    clear - F. induction F; cbn [map]; constructor; auto. apply call_answered. assumption.
  - intros a k.
    assert (D : (exists i, W i a k) \/ forall i, ~ W i a k).
    { assert (X : forall l, (exists i cs x, nth_error l i = Some cs /\ In x cs /\ written x a k) \/ (forall i cs x, nth_error l i = Some cs -> In x cs -> ~ written x a k)).
      { induction l as [|cs l IH].
        - right. intros [|i] cs x E; discriminate.
        - assert (Y : (exists x, In x cs /\ written x a k) \/ (forall x, In x cs -> ~ written x a k)).
          { induction cs as [|x cs IHc]; [right; intros x []|].
            assert (DW : written x a k \/ ~ written x a k).
            { destruct x as [q|q]; cbn [written]; [|auto].
              destruct (Nat.eq_dec a (s_arr (Buffer q))), (Nat.eq_dec k (s_off (Buffer q) + hl q + 16)), (Nat.eq_dec k (s_off (Buffer q) + hl q + 17)); tauto. }
            destruct DW as [D|D]; [left; exists x; cbn; auto|]. destruct IHc as [(y & I & D2)|N]; [left; exists y; cbn; auto|].
            right. intros y [<-|I]; auto. }
          destruct Y as [(x & I & D)|N]; [left; exists 0%nat, cs, x; auto|].
          destruct IH as [(i & cs' & x & E & I & D)|N2]; [left; exists (S i), cs', x; auto|].
          right. intros [|i] cs' x E I; [injection E as <-; auto|eapply N2; eauto]. }
      destruct (X threads) as [(i & cs & x & E & I & D)|N]; [left; exists i, cs, x; auto|].
      right. intros i (cs & x & E & I & D). eapply N; eauto. }
    destruct D as [(i & Wi)|N]; [|apply GO, N].
    pose proof (INC i a k Wi) as (cs & x & E & I & U). destruct (EACH i cs E) as (t & _ & _ & M). apply M. exists cs, x. auto.
Qed.
