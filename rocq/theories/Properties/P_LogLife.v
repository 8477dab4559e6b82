(** The life of the log socket, from BindAndListenForLogs to the end of the reader: C77. *)
From Verif Require Import Proof.LogLoop Proof.Lifecycle Proof.NflogConfig Proof.NfqStart Spec.Samples Properties.P_Config.
From Verif Require Properties.P_NfLog.
Import P_NfLog.

Lemma cbs_on fd cbs : Forall log_cb cbs -> Forall (on_socket fd) cbs.
Proof. induction 1 as [|[c r] l H F IH]; constructor; [|exact IH]. destruct c; cbn in *; tauto. Qed.
Lemma reports_on fd ecb er evs : reports ecb er evs -> Forall (on_socket fd) evs.
Proof. unfold reports. destruct ecb; [intros [r ->]|intros ->]; repeat apply Forall_cons; try apply Forall_nil. cbn. auto. Qed.
Lemma recv_on fd n fl r evs : Forall (on_socket fd) evs -> Forall (on_socket fd) ((KRecvfrom fd n fl, r) :: evs).
Proof. intros H. apply Forall_cons; [cbn; auto|exact H]. Qed.
Lemma turns_on fd ecb turns : Forall (log_turn fd ecb) turns -> Forall (on_socket fd) (concat turns).
Proof.
  induction 1 as [|t l H F IH]; [constructor|]. cbn [concat]. apply Forall_app. split; [|exact IH].
  destruct H as [r evs A B|r cbs A B C C1 C2|r cbs er evs A B C C1 C2 D]; apply recv_on.
  - eapply reports_on; eassumption.
  - apply cbs_on; assumption.
  - apply Forall_app. split; [apply cbs_on; assumption|eapply reports_on; eassumption].
Qed.
(** the reader's events: on the socket only, then the closing of it if the reader ends *)
Lemma reader_events n fuel e w fd :
  (Z.to_nat 65536 < fuel)%nat -> (forall tr fd n fl, is_bytes (r_data (e tr (KRecvfrom fd n fl)))) ->
  open_log w fd -> l_cb (w_st w) = true ->
  exists evs last, w_tr (snd (ReadLogs n fuel e w)) = w_tr w ++ evs ++ last /\ Forall (on_socket fd) evs /\
    match fst (ReadLogs n fuel e w) with NoFuel => last = [] | _ => exists r, last = [(KClose fd, r)] end.
Proof.
  intros HF EB OP CB. destruct (ReadLogs_run n fuel e w fd HF EB OP CB) as (turns & lst & TR & FT & EN).
  pose proof (turns_on _ _ _ FT) as ON.
  destruct (fst (ReadLogs n fuel e w)) as [[]| |].
  - destruct EN as (r & en & evs & rc & A & B & C & ->).
    exists (concat turns ++ (KRecvfrom fd 65536 0, r) :: evs), [(KClose fd, rc)].
    split; [rewrite TR, <- app_assoc; reflexivity|]. split; [|exists rc; reflexivity].
    apply Forall_app. split; [exact ON|]. apply recv_on. eapply reports_on, C.
  - destruct EN as (r & cbs & rc & A & B & C & C' & ->).
    exists (concat turns ++ (KRecvfrom fd 65536 0, r) :: cbs), [(KClose fd, rc)].
    split; [rewrite TR, <- app_assoc; reflexivity|]. split; [|exists rc; reflexivity].
    apply Forall_app. split; [exact ON|]. apply recv_on, cbs_on, B.
  - exists (concat turns ++ lst), []. rewrite app_nil_r. split; [exact TR|]. split; [|reflexivity].
    apply Forall_app. split; [exact ON|]. destruct EN as [[_ ->]|(r & cbs & p & A & B & _ & _ & ->)]; [constructor|].
    apply recv_on, cbs_on, B.
Qed.
Lemma on_one_close fd evs r : Forall (on_socket fd) evs -> Lifecycle.closes fd (evs ++ [(KClose fd, r)]) = 1%nat.
Proof.
  intros F. rewrite Lifecycle.closes_app, (on_socket_closes fd evs F). unfold Lifecycle.closes. cbn [filter fst length]. rewrite Z.eqb_refl. reflexivity.
Qed.

(** ** C77 *)
(** Whatever the kernel does: the reader works on its own socket only, closes it exactly
    once, as its last action, when it ends - by an error or by a crash -, and otherwise never. *)
Theorem C77_reader_closes_once_partial : forall n fuel e w fd,
  (Z.to_nat 65536 < fuel)%nat -> (forall tr fd n fl, is_bytes (r_data (e tr (KRecvfrom fd n fl)))) ->
  open_log w fd -> l_cb (w_st w) = true ->
  exists evs, w_tr (snd (ReadLogs n fuel e w)) = w_tr w ++ evs /\
    Lifecycle.closes fd evs = (match fst (ReadLogs n fuel e w) with NoFuel => 0 | _ => 1 end)%nat /\
    never_used_after_close fd evs /\
    (forall ev, In ev evs -> works_on (fst ev) = None \/ works_on (fst ev) = Some fd).
Proof.
  intros n fuel e w fd HF EB OP CB. destruct (reader_events n fuel e w fd HF EB OP CB) as (evs & lst & T & F & L).
  exists (evs ++ lst). split; [exact T|].
  assert (ON : forall ev, In ev evs -> works_on (fst ev) = None \/ works_on (fst ev) = Some fd).
  { intros ev Hin. rewrite Forall_forall in F. specialize (F ev Hin). destruct ev as [c r]. destruct c; cbn in F |- *; tauto. }
  assert (E1 : forall r, lst = [(KClose fd, r)] ->
    Lifecycle.closes fd (evs ++ lst) = 1%nat /\ never_used_after_close fd (evs ++ lst) /\
    forall ev, In ev (evs ++ lst) -> works_on (fst ev) = None \/ works_on (fst ev) = Some fd).
  { intros r ->. split; [apply on_one_close, F|]. split; [apply once_at_end, F|].
    intros ev Hin. apply in_app_or in Hin as [Hin|[<-|[]]]; [auto|right; reflexivity]. }
  destruct (fst (ReadLogs n fuel e w)) as [u| |].
  - destruct L as (r & L). exact (E1 r L).
  - destruct L as (r & L). exact (E1 r L).
  - subst lst. rewrite app_nil_r. split; [apply on_socket_closes, F|]. split; [|exact ON].
    intros before r after ->. exfalso. apply Forall_app in F as (_ & F). inversion F as [|? ? X _]; subst. exact X.
Qed.
Print Assumptions C77_reader_closes_once_partial.
(** Start to finish: set-up and a reader that ended leave no descriptor open. *)
Theorem C77_start_to_finish_partial : forall m groups psz ecb hi n fuel e w0 w acc,
  Forall is_u16 groups -> is_u32 psz -> replies_within 20 hi e ->
  (Z.to_nat 65536 < fuel)%nat -> (forall tr fd n fl, is_bytes (r_data (e tr (KRecvfrom fd n fl)))) ->
  BindAndListenForLogs m groups psz true ecb e w0 = (Ok None, w) ->
  fst (ReadLogs n fuel e w) <> NoFuel ->
  exists new, w_tr (snd (ReadLogs n fuel e w)) = w_tr w0 ++ new /\ left_open acc new = acc.
Proof.
  intros m groups psz ecb hi n fuel e w0 w acc A1 A2 RW HF EB ST NF.
  destruct (BindAndListen_run m groups psz true ecb hi e w0 A1 A2 RW) as (err & w1 & new & E & T & O & X).
  rewrite ST in E. injection E as <- <-. destruct (X eq_refl) as (fd & evs & rest & EN & OP & OL & CB & _).
  destruct (reader_events n fuel e w fd HF EB OL CB) as (ev2 & last & T2 & F & L).
  assert (L' : exists r, last = [(KClose fd, r)]) by (destruct (fst (ReadLogs n fuel e w)); [exact L|exact L|congruence]).
  destruct L' as (r & ->). exists (new ++ ev2 ++ [(KClose fd, r)]). rewrite T2, T, <- !app_assoc. split; [reflexivity|].
  rewrite left_open_app, (on_socket_left fd ev2 F).
  inversion O as [|f3 ev3 reqs r3 OP3 RQ EV|?]. clear O. rewrite EN in EV.
  assert (f3 = fd).
  { destruct OP as (rs & rb & r1 & _ & <- & _ & ->). destruct OP3 as (ss & sb & s1 & _ & <- & _ & ->).
    cbn [app] in EV. injection EV as EV _. rewrite EV. reflexivity. }
  subst f3. rewrite !left_open_app, (log_opens_left_open _ _ _ OP3), (ran_left_open _ _ _ _ _ _ _ _ RQ).
  cbn [left_open]. apply remove_fd_head.
Qed.
Print Assumptions C77_start_to_finish_partial.
(** Refuted once NFlogClose is used while the reader runs: the reader goes on with the
    closed number - it receives from it and closes it a second time.  [w] is any state
    between two turns of the reader. *)
Theorem C77_closed_once_refuted : forall n fuel e w fd,
  (Z.to_nat 65536 < fuel)%nat -> (forall tr fd n fl, is_bytes (r_data (e tr (KRecvfrom fd n fl)))) ->
  open_log w fd -> l_cb (w_st w) = true ->
  exists w1 r0, NFlogClose e w = (Ok tt, w1) /\ w_tr w1 = w_tr w ++ [(KClose fd, r0)] /\
  exists r1 rest, w_tr (snd (ReadLogs (S n) fuel e w1)) = w_tr w ++ [(KClose fd, r0)] ++ (KRecvfrom fd 65536 0, r1) :: rest /\
    (fst (ReadLogs (S n) fuel e w1) <> NoFuel -> exists evs,
       w_tr (snd (ReadLogs (S n) fuel e w1)) = w_tr w ++ evs /\ Lifecycle.closes fd evs = 2%nat).
Proof.
  intros n fuel e w fd HF EB OP CB. pose proof OP as (b & SB).
  set (r0 := e (w_tr w) (KClose fd)). set (w1 := mkW (w_st w) (w_heap w) (w_tr w ++ [(KClose fd, r0)])).
  exists w1, r0. split; [|split; [reflexivity|]].
  { unfold NFlogClose, mbind, get_st. rewrite SB. reflexivity. }
  assert (OP1 : open_log w1 fd) by exact OP. assert (CB1 : l_cb (w_st w1) = true) by exact CB.
  assert (C : fst (ReadLogs (S n) fuel e w1) <> NoFuel -> exists evs,
       w_tr (snd (ReadLogs (S n) fuel e w1)) = w_tr w ++ evs /\ Lifecycle.closes fd evs = 2%nat).
  { intros NF. destruct (reader_events (S n) fuel e w1 fd HF EB OP1 CB1) as (evs & lst & T & F & L).
    assert (L' : exists r, lst = [(KClose fd, r)]) by (destruct (fst (ReadLogs (S n) fuel e w1)); [exact L|exact L|congruence]).
    destruct L' as (r & ->). exists ([(KClose fd, r0)] ++ evs ++ [(KClose fd, r)]).
    split; [rewrite T; unfold w1; cbn [w_tr]; rewrite <- app_assoc; reflexivity|].
    rewrite Lifecycle.closes_app, on_one_close by exact F. unfold Lifecycle.closes. cbn [filter fst]. rewrite Z.eqb_refl. reflexivity. }
  destruct (ReadLogs_run (S n) fuel e w1 fd HF EB OP1 CB1) as (turns & lst & TR & FT & EN).
  assert (H : exists r1 rest, concat turns ++ lst = (KRecvfrom fd 65536 0, r1) :: rest).
  { destruct turns as [|t turns].
    - cbn [concat app]. destruct (fst (ReadLogs (S n) fuel e w1)) as [[]| |].
      + destruct EN as (r & en & evs & rc & _ & _ & _ & ->). eauto.
      + destruct EN as (r & cbs & rc & _ & _ & _ & _ & ->). eauto.
      + destruct EN as [[X _]|(r & cbs & p & _ & _ & _ & _ & ->)]; [discriminate X|eauto].
    - inversion FT as [|? ? H _]; subst. cbn [concat]. destruct H; cbn [app]; eauto. }
  destruct H as (r1 & rest & H). exists r1, rest. split; [|exact C].
  rewrite TR, H. unfold w1. cbn [w_tr]. rewrite <- app_assoc. reflexivity.
Qed.
Print Assumptions C77_closed_once_refuted.
(** a kernel that accepts the set-up, delivers the sample datagram and then fails *)
Definition life_kernel : env := fun tr c =>
  match c with
  | KRecvfrom _ 65536 _ => log_kernel (skipn 12 tr) c
  | _ => kernel_acks tr c
  end.
Example C77_hypotheses_met :
  (forall tr fd n fl, is_bytes (r_data (log_kernel tr (KRecvfrom fd n fl)))) /\
  open_log log_ready 7 /\ l_cb (w_st log_ready) = true /\ replies_within 20 37 kernel_acks /\
  (let s := BindAndListenForLogs LE [10; 20] 64 true true life_kernel (mkW (mkL false false None) [] []) in
   fst s = Ok None /\ fst (ReadLogs 4 (Z.to_nat 65537) life_kernel (snd s)) = Ok tt /\
   map call_name (w_tr (snd (ReadLogs 4 (Z.to_nat 65537) life_kernel (snd s)))) = [1; 2; 3; 5; 6; 5; 6; 5; 6; 5; 6; 8; 6; 9; 9; 6; 9; 6; 9; 7]).
Proof.
  split; [apply C28_case|]. split; [apply C28_case|]. split; [apply C28_case|]. split; [apply kernel_acks_within; lia|].
  split; [vm_compute; reflexivity|]. split; [vm_compute; reflexivity|]. vm_compute. reflexivity.
Qed.
