(** The NFLOG reader loop (C28). *)
From Verif Require Export Proof.LogFacts Spec.NflogSpec Proof.HeapFacts.

Lemma messages_len d ms rest : messages_of d ms rest -> (length ms <= length d)%nat.
Proof.
  induction 1 as [b|b len ms rest EL HL HM HR IH]; [cbn; lia|].
  rewrite skipn_length in IH. cbn [length]. lia.
Qed.
Lemma messages_rest d ms rest : messages_of d ms rest -> (length rest + length ms <= length d)%nat.
Proof.
  induction 1 as [b|b len ms rest EL HL HM HR IH]; [cbn; lia|].
  rewrite skipn_length in IH. cbn [length]. lia.
Qed.
Lemma messages_bytes d ms rest : messages_of d ms rest -> is_bytes d -> is_bytes rest.
Proof. induction 1 as [b|b len ms rest EL HL HM HR IH]; intros B; [exact B|]. apply IH, is_bytes_skipn, B. Qed.
Lemma after_inj w a b : after w a = after w b -> a = b.
Proof. unfold after. intros H. injection H as H. apply app_inv_head in H. exact H. Qed.

(** a well-formed datagram is parsed without error, whatever the fuel beyond its size *)
Lemma parse_datagram d ms f e w : datagram_ok d ms -> is_bytes d -> zlen d < 4294967296 ->
  l_cb (w_st w) = true -> (length d <= f)%nat ->
  exists evs, parseLog f d e w = (Ok None, after w evs) /\ Forall2 delivers evs (flat_map message_deliveries ms).
Proof.
  intros [MS FO] IB ZL CB HF. destruct (parse_walk d ms [] MS e w IB ZL FO CB) as (evs & DV & EV).
  exists evs. split; [|exact DV]. pose proof (messages_len _ _ _ MS).
  replace f with (length ms + (f - length ms))%nat by lia. rewrite EV.
  destruct (f - length ms)%nat; reflexivity.
Qed.
Lemma parse_outcome d f e w : is_bytes d -> zlen d < 4294967296 -> l_cb (w_st w) = true -> (length d < f)%nat ->
  exists r evs, parseLog f d e w = (r, after w evs) /\ Forall log_cb evs /\
    (forall ms, datagram_ok d ms -> r = Ok None /\ Forall2 delivers evs (flat_map message_deliveries ms)) /\
    (r = NoFuel -> exists p, stuck_at d p) /\ prefix_delivered d evs /\
    (forall ms rest, messages_of d ms rest -> Forall message_ok ms -> cut_message rest ->
       Forall2 delivers evs (flat_map message_deliveries ms) /\ r = Ok (Some ETruncated)).
Proof.
  intros IB ZL CB HF.
  destruct (parse_any d IB ZL f 0 e w (msg_start_0 d) ltac:(lia)) as (r & evs & EV & FV & NV).
  rewrite skipn_O in EV. exists r, evs. split; [exact EV|]. split; [exact FV|]. split.
  - intros ms OK. destruct (parse_datagram d ms f e w OK IB ZL CB ltac:(lia)) as (evs' & EV' & DV).
    rewrite EV in EV'. injection EV' as E1 E2. apply app_inv_head in E2. subst. auto.
  - split; [intros R; apply NV; [exact R|lia]|].
    assert (SP : forall ms rest, messages_of d ms rest -> Forall message_ok ms ->
      exists c1 c2, evs = c1 ++ c2 /\ Forall2 delivers c1 (flat_map message_deliveries ms) /\
        (cut_message rest -> c2 = [] /\ r = Ok (Some ETruncated))).
    { intros ms rest MS FO. destruct (parse_walk d ms rest MS e w IB ZL FO CB) as (c1 & DV & EV').
      pose proof (messages_rest _ _ _ MS) as ML. pose proof (messages_bytes _ _ _ MS IB) as RB.
      assert (ZR : zlen rest < 4294967296) by (unfold zlen in *; lia).
      fold (after w c1) in EV'. specialize (EV' (f - length ms)%nat).
      replace (length ms + (f - length ms))%nat with f in EV' by lia. rewrite EV in EV'.
      destruct (parse_any rest RB ZR (f - length ms) 0 e (after w c1) (msg_start_0 rest) ltac:(lia)) as (r' & c2 & E2 & _).
      rewrite skipn_O in E2. rewrite E2, after_app in EV'. injection EV' as X1 X2. apply app_inv_head in X2. subst evs r'.
      exists c1, c2. split; [reflexivity|]. split; [exact DV|]. intros [K1 K2].
      destruct (f - length ms)%nat as [|f'] eqn:Ef; [lia|].
      rewrite parse_truncated in E2 by assumption. injection E2 as Y1 Y2. split; [|congruence].
      rewrite <- (app_nil_r (w_tr w ++ c1)) in Y2 at 1. apply app_inv_head in Y2. congruence. }
    split.
    + intros ms rest MS FO. destruct (SP ms rest MS FO) as (c1 & c2 & E & D & _). eauto.
    + intros ms rest MS FO K. destruct (SP ms rest MS FO) as (c1 & c2 & E & D & T). destruct (T K) as [-> ->].
      rewrite app_nil_r in E. subst c1. auto.
Qed.

(** the loop before the deferred close *)
Definition loop_stop (fd : Z) (ecb : bool) (n turns : nat) (res : res unit) (last : list event) : Prop :=
  match res with
  | Ok _ => exists r en evs,
      r_err r = Some en /\ en <> ENOBUFS /\ reports ecb (EWrapped 8 (ESys en)) evs /\
      last = (KRecvfrom fd 65536 0, r) :: evs
  | Panic => exists r cbs,
      r_err r = None /\ Forall log_cb cbs /\ (forall ms, ~ datagram_ok (log_received r) ms) /\
      prefix_delivered (log_received r) cbs /\ last = (KRecvfrom fd 65536 0, r) :: cbs
  | NoFuel => (turns = n /\ last = []) \/
      exists r cbs p, r_err r = None /\ Forall log_cb cbs /\ stuck_at (log_received r) p /\
                      prefix_delivered (log_received r) cbs /\ last = (KRecvfrom fd 65536 0, r) :: cbs
  end.

Lemma read_loop_run fuel buffer k e : (Z.to_nat 65536 < fuel)%nat ->
  Z.of_nat (s_len buffer) = 65536 ->
  (forall tr fd n fl, is_bytes (r_data (e tr (KRecvfrom fd n fl)))) ->
  forall n w, l_sock (w_st w) = Some k -> l_cb (w_st w) = true -> valid (w_heap w) buffer ->
  exists r w' turns last,
    read_loop n fuel buffer e w = (r, w') /\ w_st w' = w_st w /\
    w_tr w' = w_tr w ++ concat turns ++ last /\
    Forall (log_turn (ls_fd k) (l_ecb (w_st w))) turns /\
    loop_stop (ls_fd k) (l_ecb (w_st w)) n (length turns) r last.
Proof.
  intros HF BL EB. induction n as [|n IH]; intros w SK CB VB.
  - exists NoFuel, w, [], []. cbn [read_loop concat app]. rewrite app_nil_r.
    repeat (split; [reflexivity || constructor|]). left. auto.
  - cbn [read_loop]. rewrite bind_get_st, SK. set (fd := ls_fd k). set (ecb := l_ecb (w_st w)).
    set (r0 := e (w_tr w) (KRecvfrom fd (Z.of_nat (s_len buffer)) 0)).
    (* one event list and the rest of the run *)
    assert (GO : forall w1 evs, w_st w1 = w_st w -> valid (w_heap w1) buffer -> w_tr w1 = w_tr w ++ evs ->
      log_turn fd ecb evs ->
      exists r w' turns last, read_loop n fuel buffer e w1 = (r, w') /\ w_st w' = w_st w /\
        w_tr w' = w_tr w ++ concat turns ++ last /\ Forall (log_turn fd ecb) turns /\
        loop_stop fd ecb (S n) (length turns) r last).
    { intros w1 evs H1 H2 H3 H4.
      destruct (IH w1) as (r & w' & turns & last & R1 & R2 & R3 & R4 & R5); [rewrite H1; assumption|rewrite H1; assumption|exact H2|].
      exists r, w', (evs :: turns), last. split; [exact R1|]. split; [congruence|].
      split; [rewrite R3, H3; cbn [concat]; rewrite <- !app_assoc; reflexivity|].
      split; [constructor; [exact H4|rewrite H1 in R4; exact R4]|].
      rewrite H1 in R5. fold fd ecb in R5. unfold loop_stop in *. destruct r; auto.
      destruct R5 as [[R5 R6]|R5]; [left; cbn; auto|right; exact R5]. }
    destruct (r_err r0) as [en|] eqn:ER.
    + unfold mbind at 1. rewrite recvfrom_err with (en := en) by exact ER. fold r0.
      set (w1 := mkW (w_st w) (w_heap w) _).
      assert (RP : exists evs, reports ecb (EWrapped 8 (ESys en)) evs /\
        (if ecb then let! _ := do_call (KErrCb (EWrapped 8 (ESys en)) IfaceNil) in ret tt else ret tt) e w1
        = (Ok tt, after w1 evs)).
      { unfold reports. destruct ecb.
        - eexists. split; [eexists; reflexivity|]. rewrite bind_do_call. reflexivity.
        - exists []. split; [reflexivity|]. rewrite after_nil. reflexivity. }
      destruct RP as (evs & RP & RE). unfold mbind at 1. rewrite RE.
      unfold ENOBUFS. destruct (Z.eqb_spec en 105) as [E|E].
      * apply (GO (after w1 evs) ((KRecvfrom fd 65536 0, r0) :: evs)); auto.
        { unfold after, w1. cbn. rewrite BL, <- app_assoc. reflexivity. }
        apply turn_nobufs; congruence.
      * exists (Ok tt), (after w1 evs), [], ((KRecvfrom fd 65536 0, r0) :: evs).
        split; [reflexivity|]. split; [reflexivity|]. split; [unfold after, w1; cbn; rewrite BL, <- app_assoc; reflexivity|].
        split; [constructor|]. exists r0, en, evs. auto.
    + unfold mbind at 1. rewrite recvfrom_ok by exact ER. fold r0.
      set (d := firstn (s_len buffer) (r_data r0)).
      assert (DL : (length d <= s_len buffer)%nat) by (unfold d; rewrite firstn_length; lia).
      assert (IB : is_bytes d) by (apply is_bytes_firstn, EB).
      assert (DE : d = log_received r0) by (unfold d, log_received; f_equal; lia).
      destruct (scopy_facts (w_heap w) buffer d VB ltac:(lia) DL) as (SV & SR & _ & _).
      pose proof VB as [VC _].
      rewrite resl_to_ok by (unfold zlen; lia). rewrite bind_lift_ok, bind_get_heap. cbn [w_heap].
      set (h1 := scopy (w_heap w) buffer d) in *. set (w1 := mkW (w_st w) h1 _).
      assert (RD : rd h1 (mkSl (s_arr buffer) (s_off buffer) (Z.to_nat (zlen d)) (s_cap buffer)) = d).
      { unfold zlen. rewrite Nat2Z.id.
        replace (rd h1 (mkSl (s_arr buffer) (s_off buffer) (length d) (s_cap buffer)))
          with (firstn (length d) (rd h1 buffer)).
        - rewrite SR, firstn_app, Nat.sub_diag, firstn_all. cbn [firstn]. apply app_nil_r.
        - unfold rd. cbn [s_arr s_off s_len]. rewrite firstn_firstn. f_equal. lia. }
      rewrite RD.
      destruct (parse_outcome d fuel e w1 IB ltac:(unfold zlen; lia) CB ltac:(lia)) as (r & cbs & PV & FV & OKV & NV & PD & CM).
      assert (T1 : w_tr w1 = w_tr w ++ [(KRecvfrom fd 65536 0, r0)]) by (unfold w1; cbn; rewrite BL; reflexivity).
      unfold mbind at 1. rewrite PV. rewrite DE in *.
      destruct r as [[er|]| |].
      * assert (RP : exists evs, reports ecb (EWrapped 9 er) evs /\
        (if ecb then let! _ := do_call (KErrCb (EWrapped 9 er) IfaceNil) in ret tt else ret tt) e (after w1 cbs)
          = (Ok tt, after (after w1 cbs) evs)).
        { unfold reports. destruct ecb.
          - eexists. split; [eexists; reflexivity|]. rewrite bind_do_call. reflexivity.
          - exists []. split; [reflexivity|]. rewrite after_nil. reflexivity. }
        destruct RP as (evs & RP & RE). unfold mbind at 1. rewrite RE. rewrite after_app.
        apply (GO _ ((KRecvfrom fd 65536 0, r0) :: cbs ++ evs)).
        { reflexivity. }
        { apply SV, VB. }
        { unfold after. cbn [w_tr]. rewrite T1, <- app_assoc. reflexivity. }
        apply turn_bad_data with (er := er); auto.
        { intros ms OK. destruct (OKV ms OK) as [X _]. discriminate X. }
        { intros ms rest MS FO K. destruct (CM ms rest MS FO K) as [D X]. split; [exact D|congruence]. }
      * rewrite bind_ret. apply (GO _ ((KRecvfrom fd 65536 0, r0) :: cbs)).
        { reflexivity. }
        { apply SV, VB. }
        { unfold after. cbn [w_tr]. rewrite T1, <- app_assoc. reflexivity. }
        apply turn_parsed; auto; [intros ms OK; apply (OKV ms OK)|].
        intros ms rest MS FO K. destruct (CM ms rest MS FO K) as [_ X]. discriminate X.
      * exists Panic, (after w1 cbs), [], ((KRecvfrom fd 65536 0, r0) :: cbs). split; [reflexivity|]. split; [reflexivity|].
        split; [unfold after; cbn [w_tr concat app]; rewrite T1, <- app_assoc; reflexivity|]. split; [constructor|].
        exists r0, cbs. repeat (split; [auto; fail|]). split; [|split; [exact PD|reflexivity]]. intros ms OK. destruct (OKV ms OK) as [X _]. discriminate X.
      * destruct (NV eq_refl) as [p SP].
        exists NoFuel, (after w1 cbs), [], ((KRecvfrom fd 65536 0, r0) :: cbs). split; [reflexivity|]. split; [reflexivity|].
        split; [unfold after; cbn [w_tr concat app]; rewrite T1, <- app_assoc; reflexivity|]. split; [constructor|].
        right. exists r0, cbs, p. auto.
Qed.

Lemma ReadLogs_run n fuel e w fd : (Z.to_nat 65536 < fuel)%nat ->
  (forall tr fd n fl, is_bytes (r_data (e tr (KRecvfrom fd n fl)))) ->
  open_log w fd -> l_cb (w_st w) = true ->
  exists turns last,
    w_tr (snd (ReadLogs n fuel e w)) = w_tr w ++ concat turns ++ last /\
    Forall (log_turn fd (l_ecb (w_st w))) turns /\
    log_end fd (l_ecb (w_st w)) n (length turns) (fst (ReadLogs n fuel e w)) last.
Proof.
  intros HF EB [buf0 SK] CB. unfold ReadLogs, deferred, m_alloc.
  rewrite bind_assoc, bind_get_heap. destruct (alloc (w_heap w) (gmake 65536) 0) as [h' s] eqn:EA.
  rewrite bind_assoc, bind_put_heap, bind_ret.
  assert (SE : h' = fst (alloc (w_heap w) (gmake 65536) 0)) by (rewrite EA; reflexivity).
  assert (S' : s = snd (alloc (w_heap w) (gmake 65536) 0)) by (rewrite EA; reflexivity).
  clear EA.
  assert (LG : length (gmake 65536) = Z.to_nat 65536) by (unfold gmake; apply repeat_length).
  assert (BL : Z.of_nat (s_len s) = 65536) by (rewrite S'; unfold alloc; cbn [snd s_len]; rewrite LG; lia).
  assert (VB : valid h' s).
  { rewrite SE, S'. split; [unfold alloc; cbn [snd s_len s_cap]; lia|]. right. split.
    - unfold alloc. cbn [fst snd s_arr]. rewrite app_length. cbn [length]. lia.
    - change (s_arr (snd (alloc (w_heap w) (gmake 65536) 0))) with (length (w_heap w)).
      rewrite arr_alloc_new. unfold alloc. cbn [snd s_off s_cap]. rewrite app_length, repeat_length. lia. }
  destruct (read_loop_run fuel s (mkLS fd buf0) e HF BL EB n (mkW (w_st w) h' (w_tr w)) SK CB VB)
    as (r & w' & turns & last & R1 & R2 & R3 & R4 & R5). cbn [w_st w_tr ls_fd] in *. rewrite R1.
  assert (CL : forall x, NFlogClose e x = NFlogClose e x) by reflexivity.
  assert (NC : NFlogClose e w' = (Ok tt, mkW (w_st w') (w_heap w') (w_tr w' ++ [(KClose fd, e (w_tr w') (KClose fd))]))).
  { unfold NFlogClose. rewrite bind_get_st, R2, SK. rewrite bind_do_call, R2. reflexivity. }
  destruct r as [[]| |].
  - rewrite NC. cbn [fst snd w_tr]. destruct R5 as (r & en & evs & X1 & X2 & X3 & ->).
    exists turns, (((KRecvfrom fd 65536 0, r) :: evs) ++ [(KClose fd, e (w_tr w') (KClose fd))]).
    split; [rewrite R3, <- !app_assoc; reflexivity|]. split; [exact R4|]. exists r, en, evs. eexists. repeat (split; [eassumption|]). reflexivity.
  - rewrite NC. cbn [fst snd w_tr]. destruct R5 as (r & cbs & X1 & X2 & X3 & X4 & ->).
    exists turns, (((KRecvfrom fd 65536 0, r) :: cbs) ++ [(KClose fd, e (w_tr w') (KClose fd))]).
    split; [rewrite R3, <- !app_assoc; reflexivity|]. split; [exact R4|]. exists r, cbs. eexists. repeat (split; [eassumption|]). reflexivity.
  - cbn [fst snd]. exists turns, last. split; [exact R3|]. split; [exact R4|]. exact R5.
Qed.

(** the first turn with a datagram that leaves 1 to 15 bytes over *)
Lemma reader_hangs n fuel e w fd r ms rest :
  (Z.to_nat 65536 < fuel)%nat -> open_log w fd -> l_cb (w_st w) = true ->
  r = e (w_tr w) (KRecvfrom fd 65536 0) -> r_err r = None -> is_bytes (r_data r) ->
  messages_of (log_received r) ms rest -> Forall message_ok ms -> (1 <= length rest <= 15)%nat ->
  exists evs, Forall2 delivers evs (flat_map message_deliveries ms) /\
    fst (ReadLogs (S n) fuel e w) = NoFuel /\
    w_tr (snd (ReadLogs (S n) fuel e w)) = w_tr w ++ (KRecvfrom fd 65536 0, r) :: evs.
Proof.
  intros HF [buf0 SK] CB RR ER DB MS FO LR. unfold ReadLogs, deferred, m_alloc.
  rewrite bind_assoc, bind_get_heap. destruct (alloc (w_heap w) (gmake 65536) 0) as [h' s] eqn:EA.
  rewrite bind_assoc, bind_put_heap, bind_ret.
  assert (SE : h' = fst (alloc (w_heap w) (gmake 65536) 0)) by (rewrite EA; reflexivity).
  assert (S' : s = snd (alloc (w_heap w) (gmake 65536) 0)) by (rewrite EA; reflexivity).
  clear EA.
  assert (LG : length (gmake 65536) = Z.to_nat 65536) by (unfold gmake; apply repeat_length).
  assert (BL : Z.of_nat (s_len s) = 65536) by (rewrite S'; unfold alloc; cbn [snd s_len]; rewrite LG; lia).
  assert (VB : valid h' s).
  { rewrite SE, S'. split; [unfold alloc; cbn [snd s_len s_cap]; lia|]. right. split.
    - unfold alloc. cbn [fst snd s_arr]. rewrite app_length. cbn [length]. lia.
    - change (s_arr (snd (alloc (w_heap w) (gmake 65536) 0))) with (length (w_heap w)).
      rewrite arr_alloc_new. unfold alloc. cbn [snd s_off s_cap]. rewrite app_length, repeat_length. lia. }
  clear SE S' LG. set (w0 := mkW (w_st w) h' (w_tr w)).
  assert (RL : exists evs w', Forall2 delivers evs (flat_map message_deliveries ms) /\
     read_loop (S n) fuel s e w0 = (NoFuel, w') /\ w_tr w' = w_tr w ++ (KRecvfrom fd 65536 0, r) :: evs).
  { cbn [read_loop]. rewrite bind_get_st. unfold w0 at 1. cbn [w_st]. rewrite SK. cbn [ls_fd].
    assert (R0 : e (w_tr w0) (KRecvfrom fd (Z.of_nat (s_len s)) 0) = r) by (rewrite BL; symmetry; exact RR).
    unfold mbind at 1. rewrite recvfrom_ok by (rewrite R0; exact ER). rewrite R0.
    set (d := firstn (s_len s) (r_data r)).
    assert (DL : (length d <= s_len s)%nat) by (unfold d; rewrite firstn_length; lia).
    assert (IB : is_bytes d) by (apply is_bytes_firstn, DB).
    assert (DE : d = log_received r) by (unfold d, log_received; f_equal; lia).
    destruct (scopy_facts (w_heap w0) s d VB ltac:(lia) DL) as (SV & SR & _ & _).
    pose proof VB as [VC _].
    rewrite resl_to_ok by (unfold zlen; lia). rewrite bind_lift_ok, bind_get_heap. cbn [w_heap].
    set (h1 := scopy (w_heap w0) s d) in *. set (w1 := mkW (w_st w0) h1 _).
    assert (RD : rd h1 (mkSl (s_arr s) (s_off s) (Z.to_nat (zlen d)) (s_cap s)) = d).
    { unfold zlen. rewrite Nat2Z.id.
      replace (rd h1 (mkSl (s_arr s) (s_off s) (length d) (s_cap s)))
        with (firstn (length d) (rd h1 s)).
      - rewrite SR, firstn_app, Nat.sub_diag, firstn_all. cbn [firstn]. apply app_nil_r.
      - unfold rd. cbn [s_arr s_off s_len]. rewrite firstn_firstn. f_equal. lia. }
    rewrite RD. rewrite <- DE in MS.
    destruct (parse_walk d ms rest MS e w1 IB ltac:(unfold zlen; lia) FO CB) as (evs & DV & EV).
    pose proof (messages_rest _ _ _ MS).
    specialize (EV (fuel - length ms)%nat). replace (length ms + (fuel - length ms))%nat with fuel in EV by lia.
    unfold mbind at 1. rewrite EV, parse_tail_hangs by exact LR.
    exists evs. eexists. split; [exact DV|]. split; [reflexivity|].
    subst w1 w0. unfold after. cbn [w_tr]. rewrite BL, <- app_assoc. reflexivity. }
  destruct RL as (evs & w' & DV & R1 & R2). exists evs. split; [exact DV|].
  rewrite R1. cbn [fst snd]. split; [reflexivity|exact R2].
Qed.
