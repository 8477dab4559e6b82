(** The log reader on a FIFO socket. *)
From Verif Require Export Proof.Fifo Proof.LogOutcome Proof.NflogConfig Spec.LogFifo.

Lemma datagrams_app l1 l2 : datagrams (l1 ++ l2) = datagrams l1 ++ datagrams l2.
Proof. apply flat_map_app. Qed.
Lemma log_calls_app l1 l2 : log_calls (l1 ++ l2) = log_calls l1 ++ log_calls l2.
Proof. apply filter_app. Qed.
Lemma answered_snoc e tr rest x : answered e tr (rest ++ [x]) -> answered e tr rest.
Proof. intros AN pre c r post EQ. apply (AN pre c r (post ++ [x])). rewrite EQ, <- app_assoc. reflexivity. Qed.
Lemma answered_left e tr r1 r2 : answered e tr (r1 ++ r2) -> answered e tr r1.
Proof. intros AN pre c r post EQ. apply (AN pre c r (post ++ r2)). rewrite EQ, <- app_assoc. reflexivity. Qed.
Lemma answered_right e tr r1 r2 : answered e tr (r1 ++ r2) -> answered e (tr ++ r1) r2.
Proof. intros AN pre c r post EQ. rewrite <- app_assoc. apply (AN (r1 ++ pre) c r post). rewrite EQ, app_assoc. reflexivity. Qed.

(** what is taken from a FIFO socket is what is in front *)
Lemma fifo_received q e : fifo_socket q e -> forall rest tr,
  answered e tr rest -> (taken tr <= length (q tr))%nat ->
  skipn (taken tr) (q (tr ++ rest)) = datagrams rest ++ waiting q (tr ++ rest).
Proof.
  intros FS. pose proof FS as [FA FT FR]. induction rest as [|[c r] rest IH] using rev_ind; intros tr AN TL.
  - rewrite app_nil_r. reflexivity.
  - pose proof (answered_snoc _ _ _ _ AN) as A1. specialize (IH tr A1 TL).
    pose proof (taken_bounded q e FS rest tr A1 TL) as TB.
    specialize (AN rest c r [] eq_refl). 
    assert (TM : (taken tr <= taken (tr ++ rest))%nat) by (rewrite taken_app; lia).
    assert (EQ : tr ++ rest ++ [(c, r)] = (tr ++ rest) ++ [(c, r)]) by apply app_assoc.
    change (@cons event) with (@cons (call * resp)); change (@nil event) with (@nil (call * resp)). rewrite EQ. clear EQ.
    rewrite datagrams_app. revert IH AN TB TM. generalize (tr ++ rest). intros h IH AN TB TM.
    destruct (FA h [(c, r)]) as [y Y]. unfold waiting. rewrite Y.
    rewrite skipn_app_le by lia. rewrite IH. unfold waiting in *. rewrite <- !app_assoc. f_equal.
    assert (OTHER : taken [(c, r)] = 0%nat -> datagrams [(c, r)] = [] ->
      skipn (taken h) (q h) ++ y = datagrams [(c, r)] ++ skipn (taken (h ++ [(c, r)])) (q h ++ y)).
    { intros T0 R0. rewrite R0, taken_app, T0, Nat.add_0_r, skipn_app_le by lia. reflexivity. }
    destruct c as [| | | | |fd n flags| | | | | | | |]; try (apply OTHER; reflexivity).
    destruct (r_err r) eqn:E; [apply OTHER; [unfold taken; cbn; now rewrite E|cbn; now rewrite E]|].
    rewrite AN in E. pose proof (FT _ _ _ _ E) as N. rewrite <- AN in N, E.
    assert (LT : (taken h < length (q h))%nat) by (apply nth_error_Some; congruence).
    unfold datagrams. cbn [flat_map]. rewrite E. cbn [app].
    assert (T1 : taken [(KRecvfrom fd n flags, r)] = 1%nat) by (unfold taken; cbn; now rewrite E).
    rewrite (skipn_nth _ _ _ N), taken_app, T1. cbn [app].
    rewrite Nat.add_1_r, skipn_app_le by lia. reflexivity.
Qed.

(** ** Turns of the reader *)
Lemma shows_log_calls cbs ps : Forall2 shows_log cbs ps -> log_calls cbs = cbs /\ datagrams cbs = [] /\ taken cbs = 0%nat.
Proof.
  induction 1 as [|ev x cbs ps H _ (I1 & I2 & I3)]; [auto|].
  destruct H as (src & dst & proto & total & id & sp & dp & r & -> & _).
  unfold log_calls, datagrams, taken in *. cbn [filter flat_map fst app] in *. rewrite I1, I2. auto.
Qed.
Lemma reports_quiet ecb e evs : reports ecb e evs -> log_calls evs = [] /\ datagrams evs = [] /\ taken evs = 0%nat.
Proof. unfold reports. destruct ecb; [intros [r ->]|intros ->]; auto. Qed.
Lemma received_short d : zlen d <= 65536 -> forall r, r_data r = d -> log_received r = d.
Proof. intros L r <-. unfold log_received. apply firstn_all2. unfold zlen in L. lia. Qed.

Definition may_show (d : bytes) : Prop := exists ps, log_shows d ps.
Lemma turn_shows fd ecb t : exact_turn fd ecb t -> Forall may_show (datagrams t) ->
  exists pss, Forall2 log_shows (datagrams t) pss /\ Forall2 shows_log (log_calls t) (concat pss).
Proof.
  intros T. inversion T as [r evs E R|r cbs ps E L F|r cbs ps er evs E L F R]; subst.
  - destruct (reports_quiet _ _ _ R) as (A & B & _). intros _. exists [].
    unfold datagrams, log_calls in *. cbn [flat_map filter fst]. rewrite E, A, B. split; constructor.
  - destruct (shows_log_calls _ _ F) as (A & B & _). unfold datagrams, log_calls in *. cbn [flat_map filter fst]. rewrite E, A, B.
    intros M. inversion M as [|? ? [ps0 [ZL _]] _]; subst. exists [ps]. rewrite (received_short _ ZL r eq_refl) in L.
    split; [constructor; [split; auto|constructor]|]. cbn [concat]. rewrite app_nil_r. exact F.
  - destruct (shows_log_calls _ _ F) as (A & B & _). destruct (reports_quiet _ _ _ R) as (A' & B' & _).
    change ((KRecvfrom fd 65536 0, r) :: cbs ++ evs) with ([(KRecvfrom fd 65536 0, r)] ++ cbs ++ evs).
    rewrite !datagrams_app, !log_calls_app, A, B, A', B'. unfold datagrams, log_calls. cbn [flat_map filter fst]. rewrite E. cbn [app].
    intros M. inversion M as [|? ? [ps0 [ZL _]] _]; subst. exists [ps]. rewrite (received_short _ ZL r eq_refl) in L.
    split; [constructor; [split; eauto|constructor]|]. cbn [concat]. rewrite !app_nil_r. exact F.
Qed.
Lemma turns_show fd ecb turns : Forall (exact_turn fd ecb) turns -> Forall may_show (datagrams (concat turns)) ->
  exists pss, Forall2 log_shows (datagrams (concat turns)) pss /\ Forall2 shows_log (log_calls (concat turns)) (concat pss).
Proof.
  induction 1 as [|t turns T _ IH]; intros M.
  - exists []. split; constructor.
  - cbn [concat] in *. rewrite datagrams_app in *. apply Forall_app in M as [M1 M2].
    destruct (turn_shows _ _ _ T M1) as (p1 & A1 & B1). destruct (IH M2) as (p2 & A2 & B2).
    exists (p1 ++ p2). rewrite concat_app, log_calls_app. split; apply Forall2_app; assumption.
Qed.
(** a turn receives, and nothing else of it does *)
Lemma turn_head fd ecb t : exact_turn fd ecb t -> exists r evs, t = (KRecvfrom fd 65536 0, r) :: evs /\ taken evs = 0%nat.
Proof.
  intros T. inversion T as [r evs E R|r cbs ps E L F|r cbs ps er evs E L F R]; subst.
  - exists r, evs. destruct (reports_quiet _ _ _ R) as (_ & _ & X). auto.
  - exists r, cbs. destruct (shows_log_calls _ _ F) as (_ & _ & X). auto.
  - exists r, (cbs ++ evs). destruct (shows_log_calls _ _ F) as (_ & _ & X). destruct (reports_quiet _ _ _ R) as (_ & _ & Y).
    rewrite taken_app, X, Y. auto.
Qed.
Lemma taken_received evs : taken evs = length (datagrams evs).
Proof.
  unfold taken, datagrams. induction evs as [|[c r] evs IH]; [reflexivity|]. cbn [filter flat_map].
  destruct c; cbn [app]; try exact IH. destruct (r_err r); cbn [app length]; lia.
Qed.
Lemma turns_progress q e fd ecb : fifo_socket q e -> forall turns tr,
  Forall (exact_turn fd ecb) turns -> answered e tr (concat turns) -> (taken tr <= length (q tr))%nat ->
  (Nat.min (length turns) (length (waiting q tr)) <= length (datagrams (concat turns)))%nat.
Proof.
  intros FS. pose proof FS as [FA FT FR]. induction turns as [|t turns IH]; intros tr FT' AN TL; [cbn; lia|].
  inversion FT' as [|? ? T FR']; subst. cbn [concat length] in *.
  pose proof (answered_left _ _ _ _ AN) as A1. pose proof (answered_right _ _ _ _ AN) as A2.
  pose proof (taken_bounded q e FS t tr A1 TL) as TB.
  specialize (IH (tr ++ t) FR' A2 TB). rewrite datagrams_app, app_length.
  destruct (turn_head _ _ _ T) as (r & evs & -> & TE).
  pose proof (A1 [] _ r evs eq_refl) as RE. rewrite app_nil_r in RE.
  destruct (FA tr ((KRecvfrom fd 65536 0, r) :: evs)) as [y Y].
  unfold waiting in *. rewrite !skipn_length in *. rewrite Y, app_length in IH.
  rewrite <- (taken_received ((KRecvfrom fd 65536 0, r) :: evs)).
  assert (TX : taken ((KRecvfrom fd 65536 0, r) :: evs) = match r_err r with None => 1%nat | Some _ => 0%nat end).
  { change ((KRecvfrom fd 65536 0, r) :: evs) with ([(KRecvfrom fd 65536 0, r)] ++ evs). rewrite taken_app, TE.
    unfold taken. cbn [filter]. destruct (r_err r); reflexivity. }
  rewrite taken_app, TX in IH. rewrite TX. destruct (r_err r) eqn:E.
  - assert (~ (taken tr < length (q tr))%nat).
    { intros LT. pose proof (FR tr fd 65536 0 LT) as X. rewrite <- RE in X. congruence. }
    lia.
  - lia.
Qed.

(** ** Recorded answers are the environment's *)
Lemma answers_sock_send {S} m fd hdr d : answers (S:=S) (sock_send m fd hdr d).
Proof. unfold sock_send. repeat (answers_step || apply answers_m_alloc). Qed.
Lemma answers_sock_recv {S} m fd b : answers (S:=S) (sock_recv m fd b).
Proof. unfold sock_recv. repeat (answers_step || apply answers_recvfrom). Qed.
Lemma answers_nfl_query m k hdr d : answers (nfl_query m k hdr d).
Proof. unfold nfl_query. repeat (apply answers_sock_recv || apply answers_sock_send || answers_step). Qed.
Lemma answers_bind_groups m gs : answers (bind_groups m gs).
Proof.
  induction gs as [|g gs IH]; cbn [bind_groups BuildNfgenMsg BuildNfAttrMsg]; [apply answers_pure; reflexivity|].
  repeat (exact IH || apply answers_nfl_query || answers_step).
Qed.
Lemma answers_set_mode m gs sz : answers (NFlogSetMode m gs sz).
Proof.
  induction gs as [|g gs IH]; cbn [NFlogSetMode BuildNfgenMsg BuildNfAttrMsg]; [apply answers_pure; reflexivity|].
  repeat (exact IH || apply answers_nfl_query || answers_step).
Qed.
Lemma answers_listen m gs sz cb ecb : answers (BindAndListenForLogs m gs sz cb ecb).
Proof.
  unfold BindAndListenForLogs, NewNFLog, NFlogOpen, NFlogBindGroup, NFlogClose.
  repeat (apply answers_bind_groups || apply answers_set_mode || answers_step).
Qed.
Lemma answers_tlv f : forall a p, answers (tlv_loop f a p).
Proof.
  induction f as [|f IH]; intros [|x a] p; cbn [tlv_loop]; try (apply answers_pure; reflexivity).
  repeat (apply IH || answers_step).
Qed.
Lemma answers_parse f : forall b, answers (parseLog f b).
Proof.
  induction f as [|f IH]; intros [|x b]; cbn [parseLog]; try (apply answers_pure; reflexivity).
  unfold parsePacket. repeat (apply IH || apply answers_tlv || answers_step).
Qed.
Lemma answers_read_loop n fuel b : answers (read_loop n fuel b).
Proof.
  induction n as [|n IH]; cbn [read_loop]; [apply answers_pure; reflexivity|].
  repeat (exact IH || apply answers_parse || apply answers_recvfrom || answers_step).
Qed.
Lemma answers_ReadLogs n fuel : answers (ReadLogs n fuel).
Proof.
  intros e w. unfold ReadLogs, deferred.
  set (body := let! buffer := m_alloc (gmake 65536) 0 in read_loop n fuel buffer).
  assert (B : answers body) by (unfold body; apply answers_bind; [apply answers_m_alloc|intros; apply answers_read_loop]).
  destruct (B e w) as (r1 & E1 & F1). destruct (body e w) as [r w1]; cbn [snd] in E1.
  assert (C : answers NFlogClose) by (unfold NFlogClose; repeat answers_step).
  destruct (C e w1) as (r2 & E2 & F2).
  destruct r; cbn [snd]; [exists (r1 ++ r2)|exists (r1 ++ r2)|exists r1; auto].
  all: rewrite E2, E1, <- app_assoc; split; [reflexivity|]; apply answered_app; [exact F1|rewrite <- E1; exact F2].
Qed.
Lemma log_opens_quiet fd evs : log_opens fd evs -> taken evs = 0%nat /\ log_calls evs = [].
Proof. intros (? & ? & ? & _ & _ & _ & ->). auto. Qed.
Lemma ran_no_calls m fd lim msgs reqs acked : ran_requests m fd lim msgs reqs acked None -> log_calls reqs = [].
Proof.
  intros H. remember None as er eqn:EQ. induction H as [| |msg rest b new new' acked err R O RR IH]; [auto|discriminate|].
  rewrite log_calls_app, (IH EQ).
  destruct O as [(r1 & en & _ & _ & X)|(r1 & r2 & _ & -> & X & _)]; [discriminate|]. reflexivity.
Qed.

Lemma log_fifo m fuel n groups psz hi e q w0 w :
  (Z.to_nat 65536 < fuel)%nat -> (forall tr fd n fl, is_bytes (r_data (e tr (KRecvfrom fd n fl)))) ->
  Forall is_u16 groups -> is_u32 psz -> replies_within 20 hi e -> fifo_socket q e -> w_tr w0 = [] ->
  BindAndListenForLogs m groups psz true true e w0 = (Ok None, w) ->
  (forall h, Forall may_show (skipn (2 * length groups) (q h))) ->
  let w' := snd (ReadLogs n fuel e w) in let res := fst (ReadLogs n fuel e w) in
  taken (w_tr w) = (2 * length groups)%nat /\
  exists delivered pss,
    skipn (2 * length groups) (q (w_tr w')) = delivered ++ waiting q (w_tr w') /\
    Forall2 log_shows delivered pss /\ Forall2 shows_log (log_calls (w_tr w')) (concat pss) /\
    res <> Panic /\ (res = NoFuel -> (Nat.min n (length (waiting q (w_tr w))) <= length delivered)%nat).
Proof.
  intros HF EB A1 A2 RW FS T0 ST PK.
  destruct (BindAndListen_run m groups psz true true hi e w0 A1 A2 RW) as (err & w1 & new & R1 & R2 & R3 & R4).
  rewrite ST in R1. injection R1 as <- <-. destruct (R4 eq_refl) as (fd & evs0 & rest0 & _ & _ & OL & CB & ECB). clear R4.
  rewrite T0 in R2. cbn [app] in R2.
  assert (K : taken new = (2 * length groups)%nat /\ log_calls new = []).
  { inversion R3 as [|fd' evs reqs r OP RAN|]; subst. destruct (log_opens_quiet _ _ OP) as [X1 X2].
    destruct (ran_taken _ _ _ _ _ _ RAN) as [Y1 _]. pose proof (ran_no_calls _ _ _ _ _ _ RAN) as Y2.
    rewrite !taken_app, !log_calls_app, X1, X2, Y1, Y2. cbn [log_messages]. rewrite app_length, !map_length. split; [cbn; lia|reflexivity]. }
  destruct K as [K1 K2]. rewrite <- R2 in K1, K2.
  assert (TL : (taken (w_tr w) <= length (q (w_tr w)))%nat).
  { destruct (answers_listen m groups psz true true e w0) as (rs & S1 & S2).
    rewrite ST in S1. cbn [snd] in S1. rewrite S1. apply (taken_bounded q e FS rs (w_tr w0) S2). rewrite T0. cbn. lia. }
  destruct (answers_ReadLogs n fuel e w) as (rs & AR & AN).
  destruct (ReadLogs_exact n fuel e w fd HF EB OL CB) as (turns & last & W & FTU & STP).
  intros w' res. split; [exact K1|]. fold w' in AR, W. fold res in STP.
  assert (EQ : rs = concat turns ++ last) by (rewrite AR in W; now apply app_inv_head in W). subst rs.
  pose proof (fifo_received q e FS _ _ AN TL) as FR. rewrite <- AR, K1 in FR.
  pose proof (PK (w_tr w')) as MS. rewrite FR in MS. apply Forall_app in MS as [MS _]. rewrite datagrams_app in MS.
  apply Forall_app in MS as [MS1 MS2].
  destruct (turns_show _ _ _ FTU MS1) as (pss & G1 & G2).
  assert (NB : forall r ps z, r_err r = None -> (exists fl x, last = (KRecvfrom fd 65536 fl, r) :: x) -> log_ends (log_received r) ps z ->
             z <> Crashed /\ z <> Stuck).
  { intros r ps z E (fl & x & ->) L. unfold datagrams in MS2. cbn [flat_map] in MS2. rewrite E in MS2. cbn [app] in MS2.
    inversion MS2 as [|? ? (ps0 & ZL & S) _]; subst. rewrite (received_short _ ZL r eq_refl) in L.
    destruct S as [S|[er S]]; destruct (log_ends_det _ _ _ S _ _ L) as [_ <-]; split; discriminate. }
  assert (LQ : res <> Panic /\ datagrams last = [] /\ log_calls last = [] /\ (res = NoFuel -> length turns = n)).
  { unfold exact_stop in STP. destruct res.
    - destruct STP as (r & en & evs & cl & E & _ & R & [rc ->] & ->). destruct (reports_quiet _ _ _ R) as (X1 & X2 & _).
      split; [discriminate|].
      change ((KRecvfrom fd 65536 0, r) :: evs ++ [(KClose fd, rc)]) with ([(KRecvfrom fd 65536 0, r)] ++ evs ++ [(KClose fd, rc)]).
      rewrite !datagrams_app, !log_calls_app, X1, X2. unfold datagrams, log_calls. cbn [flat_map filter fst]. rewrite E. 
      split; [reflexivity|]. split; [reflexivity|discriminate].
    - destruct STP as (r & cbs & ps & cl & E & L & _ & _ & EL). destruct (NB r ps Crashed E ltac:(eauto) L). congruence.
    - destruct STP as [[T L]|(r & cbs & ps & E & L & _ & EL)].
      + subst last. split; [discriminate|]. auto.
      + destruct (NB r ps Stuck E ltac:(eauto) L). congruence. }
  destruct LQ as (L1 & L2 & L3 & L4).
  rewrite datagrams_app, L2, app_nil_r in FR. exists (datagrams (concat turns)), pss.
  split; [exact FR|]. split; [exact G1|].
  split; [rewrite W, log_calls_app, K2, log_calls_app, L3, app_nil_r; exact G2|].
  split; [exact L1|]. intros HN. rewrite <- (L4 HN). eapply turns_progress; eauto using answered_left.
Qed.
