(** Configuration requests and set-up: C08, C15, C16, C17 (nfqueue), C23, C24,
    C29 (nflog). *)
From Verif Require Import Proof.NfqStart Proof.NflogConfig Proof.CtFacts Spec.Samples.

(** ** C08 *)
(** Whatever the environment answers, each configuration call on a handle with a
    socket sends exactly one datagram, and it reads as the request asked for. *)
Theorem C08_config_request_is_what_was_asked : forall m c e w fd,
  cfg_args_ok c -> is_u16 (q_num (w_st w)) ->
  (exists buf, q_handle (w_st w) = Some (mkSock fd buf)) ->
  exists b r1 new,
    w_tr (snd (cfg_run m c e w)) = w_tr w ++ (KSendto fd b 0, r1) :: new /\
    existsb is_send new = false /\
    read_message m b = Some (cfg_message c (q_num (w_st w))).
Proof. exact cfg_sends. Qed.
Print Assumptions C08_config_request_is_what_was_asked.

Definition sample_world : world nfq :=
  mkW (mkQ 8 42 None true 0 (Some (mkSock 7 (mkSl 0 0 (Z.to_nat 76800) (Z.to_nat 76800))))
           (mkSl 0 0 (Z.to_nat 76800) (Z.to_nat 76800)) [] snil 0 0 0 [])
      [repeat 0 (Z.to_nat 76800)] [].
Lemma sample_world_open : open_handle sample_world 7.
Proof.
  exists (mkSl 0 0 (Z.to_nat 76800) (Z.to_nat 76800)). cbn [sample_world w_st w_heap q_handle q_buf].
  split; [reflexivity|]. split; [reflexivity|]. split.
  - split; [cbn; lia|]. right. cbn [s_arr s_off s_cap arr nth length]. rewrite repeat_length. lia.
  - split; [apply Z2Nat.id; lia|reflexivity].
Qed.
Lemma kernel_acks_within : forall hi, 36 < hi -> replies_within 20 hi kernel_acks.
Proof.
  intros hi H tr b r1 fd n. cbn. intros _. split; [bytes_tac|]. unfold zlen. cbn. lia.
Qed.
Lemma kernel_acks_first_within : forall k hi, 36 < hi -> replies_within 20 hi (kernel_acks_first k).
Proof.
  intros k hi H tr0 b r1 fd n. remember (tr0 ++ _) as tr eqn:Htr. unfold kernel_acks_first. cbn [r_err r_data]. intros _.
  destruct (receives tr <? k)%nat; (split; [bytes_tac|]); unfold zlen; cbn; lia.
Qed.
(** copy mode 2, range 65535, queue 42 *)
Example C08_hypotheses_met :
  cfg_args_ok (CfgMode 2 65535) /\ is_u16 (q_num (w_st sample_world)) /\
  open_handle sample_world 7 /\ replies_within 20 76800 kernel_acks /\
  map fst (w_tr (snd (cfg_run LE (CfgMode 2 65535) kernel_acks sample_world))) =
    [ KSendto 7 [32;0;0;0; 2;3; 5;0; 0;0;0;0; 0;0;0;0; 0;0;0;42; 12;0;2;0; 0;0;255;255; 2;0;0;0] 0;
      KRecvfrom 7 76800 0 ] /\
  fst (cfg_run LE (CfgMode 2 65535) kernel_acks sample_world) = Ok None.
Proof.
  split; [cbn; unfold is_u8, is_u32; lia|]. split; [cbn; red; lia|].
  split; [exact sample_world_open|]. split; [apply kernel_acks_within; lia|].
  split; vm_compute; reflexivity.
Qed.

(** ** C15 *)
Theorem C15_nfqueue_request_outcome : forall m c e w fd,
  cfg_args_ok c -> is_u16 (q_num (w_st w)) -> open_handle w fd -> replies_within 20 76800 e ->
  exists err w' new b,
    cfg_run m c e w = (Ok err, w') /\ w_tr w' = w_tr w ++ new /\
    read_message m b = Some (cfg_message c (q_num (w_st w))) /\
    one_request m fd 76800 b new err.
Proof.
  intros m c e w fd A N O R.
  destruct (cfg_request m c e w fd A N O R) as (err & w' & new & b & H1 & H2 & H3 & H4 & _).
  exists err, w', new, b. auto.
Qed.
Print Assumptions C15_nfqueue_request_outcome.

Theorem C15_nfqueue_not_open : forall m c e w,
  cfg_args_ok c -> is_u16 (q_num (w_st w)) -> q_handle (w_st w) = None ->
  exists err w', cfg_run m c e w = (Ok (Some err), w') /\ w_tr w' = w_tr w.
Proof. exact cfg_not_open. Qed.
Print Assumptions C15_nfqueue_not_open.

Theorem C15_nflog_request_outcome : forall m c hi e w fd msg,
  log_args_ok c -> log_messages c = [msg] -> replies_within 20 hi e -> open_log w fd ->
  exists err w' new b,
    log_run m c e w = (Ok err, w') /\ w_tr w' = w_tr w ++ new /\
    read_message m b = Some msg /\ one_request m fd (zlen b) b new err.
Proof.
  intros m c hi e w fd msg A L R O.
  destruct (log_call_run m c hi e w fd A R O) as (err & w' & new & k & H1 & H2 & H3 & _).
  rewrite L in H3. exists err, w', new.
  inversion H3 as [|? ? b ? er Rb Q|? ? b n1 n2 a er Rb Q H']; subst.
  - exists b. auto.
  - inversion H'; subst. exists b. rewrite app_nil_r in *. auto.
Qed.
Print Assumptions C15_nflog_request_outcome.

Theorem C15_nflog_not_open : forall m e w c,
  (c = LogBind \/ c = LogUnbind) -> l_sock (w_st w) = None ->
  exists err w', log_run m c e w = (Ok (Some err), w') /\ w_tr w' = w_tr w.
Proof.
  intros m e w c C H.
  destruct (log_not_open m c e w ltac:(destruct C; subst; exact I) H) as (err & w' & E & T & P).
  destruct err as [er|]; [exists er, w'; auto|].
  exfalso. destruct C; subst; apply P; reflexivity.
Qed.
Print Assumptions C15_nflog_not_open.

Theorem C15_conntrack_request_outcome : forall m t mark hi e w,
  tuple5_ok t -> is_u32 mark -> replies_within 20 hi e -> sockets_open e ->
  exists res w' new b,
    ConntrackTableUpdateMark m (f_src t) (f_dst t) (f_proto t) (f_sport t) (f_dport t) mark e w = (Ok res, w') /\
    w_tr w' = w_tr w ++ new /\
    ct_update m t [mark_attr mark] b /\ one_update m b new res.
Proof. exact UpdateMark_run. Qed.
Print Assumptions C15_conntrack_request_outcome.

(** a refused request is reported with the kernel's code *)
Example C15_hypotheses_met :
  replies_within 20 76800 (kernel_acks_first 0) /\
  fst (cfg_run LE CfgBindPf (kernel_acks_first 0) sample_world) = Ok (Some (ENetlink (-1))) /\
  fst (log_run LE (LogBindGroup [10] true true) (kernel_acks_first 0)
         (mkW (mkL true true (Some (mkLS 7 snil))) [] [])) = Ok (Some (ENetlink (-1))).
Proof.
  split; [apply kernel_acks_first_within; lia|].
  split; vm_compute; reflexivity.
Qed.

(** ** C16 *)
Theorem C16_start_sets_up_in_order_and_cleans_up : forall m queueID maxp psz cb ecb priv e w,
  is_u16 queueID -> is_u32 maxp -> is_u32 psz -> replies_within 20 76800 e ->
  exists err w' new,
    CreateAndStartNfQueue m queueID maxp psz cb ecb priv e w = (Ok err, w') /\
    w_tr w' = w_tr w ++ new /\
    start_outcome m queueID maxp psz new err /\
    (err = None -> exists fd evs rest, new = evs ++ rest /\ opens fd evs /\ open_handle w' fd /\
       q_num (w_st w') = queueID /\ q_cb (w_st w') = cb /\ q_ecb (w_st w') = ecb /\
       q_priv (w_st w') = priv).
Proof. exact CreateAndStart_run. Qed.
Print Assumptions C16_start_sets_up_in_order_and_cleans_up.

(** consequence on descriptors: an error leaves none open unless bind(2) failed *)
Theorem C16_start_failure_closes : forall m queueID maxp psz new err acc,
  start_outcome m queueID maxp psz new err ->
  match err with
  | None => exists fd, left_open acc new = fd :: acc
  | Some _ =>
      (exists rs rb en fd, r_err rs = None /\ r_val rs = fd /\ r_err rb = Some en /\
         new = [(KSocket 16 3 12, rs); (KBind fd 16, rb)])
      \/ left_open acc new = acc
  end.
Proof. exact start_no_leak. Qed.
Print Assumptions C16_start_failure_closes.

(** a run in which setting the copy mode is refused: the queue is destroyed and
    the socket closed; and one in which all succeeds *)
Definition call_name (ev : event) : Z :=
  match fst ev with
  | KSocket _ _ _ => 1 | KBind _ _ => 2 | KSetsockoptInt _ _ _ _ => 3 | KSetLinger _ _ _ => 4
  | KSendto _ _ _ => 5 | KRecvfrom _ _ _ => 6 | KClose _ => 7 | KGo => 8 | _ => 9
  end.
Example C16_hypotheses_met :
  replies_within 20 76800 (kernel_acks_first 3) /\ replies_within 20 76800 kernel_acks /\
  (let run := CreateAndStartNfQueue LE 42 1000 65535 None true 5 (kernel_acks_first 3)
                (mkW (w_st sample_world) [] []) in
   fst run = Ok (Some (EWrapped 5 (ENetlink (-1)))) /\
   map call_name (w_tr (snd run)) = [1;2;3;3;3;4; 5;6; 5;6; 5;6; 5;6; 5;6; 7]) /\
  (let run := CreateAndStartNfQueue LE 42 1000 65535 None true 5 kernel_acks
                (mkW (w_st sample_world) [] []) in
   fst run = Ok None /\
   map call_name (w_tr (snd run)) = [1;2;3;3;3;4; 5;6; 5;6; 5;6; 5;6; 5;6; 8]).
Proof.
  split; [apply kernel_acks_first_within; lia|]. split; [apply kernel_acks_within; lia|].
  split; vm_compute; split; reflexivity.
Qed.

(** ** C17 *)
(** The claim is false in all three packages: bind(2) fails, the caller gets an
    error, the descriptor stays open. *)
Theorem C17_no_leak_refuted :
  (exists e er, let run := NfqOpen e sample_world in
     fst run = Ok (Some er) /\ left_open [] (w_tr (snd run)) = [7]) /\
  (exists e er, let run := NFlogOpen e (mkW (mkL true true None) [] []) in
     fst run = Ok (Some er) /\ left_open [] (w_tr (snd run)) = [7]) /\
  (exists e er, let run := ct_open e (mkW tt [] []) in
     fst run = Ok (inr er) /\ left_open [] (w_tr (snd run)) = [7]).
Proof.
  split; [|split]; exists kernel_no_bind, (ESys 98); split; vm_compute; reflexivity.
Qed.
Print Assumptions C17_no_leak_refuted.

(** What does hold: a failed open made one of two sequences of calls; when it
    was socket(2) that failed nothing is left open. *)
Theorem C17_leak_only_when_bind_fails_partial :
  (forall e w, valid (w_heap w) (q_buf (w_st w)) -> Z.of_nat (s_len (q_buf (w_st w))) = 76800 ->
     s_cap (q_buf (w_st w)) = s_len (q_buf (w_st w)) ->
     exists err w' new, NfqOpen e w = (Ok err, w') /\ w_tr w' = w_tr w ++ new /\
       match err with None => exists fd, opens fd new | Some _ => open_fails new end) /\
  (forall e w, exists err w' new, NFlogOpen e w = (Ok err, w') /\ w_tr w' = w_tr w ++ new /\
       match err with None => exists fd, log_opens fd new | Some _ => open_fails new end) /\
  (forall e w, exists r w' new, ct_open e w = (Ok r, w') /\ w_tr w' = w_tr w ++ new /\
       match r with inl fd => ct_opens fd new | inr _ => open_fails new end) /\
  (forall new acc, open_fails new ->
     left_open acc new = acc \/
     exists rs rb en, r_err rs = None /\ r_err rb = Some en /\
       new = [ (KSocket 16 3 12, rs); (KBind (r_val rs) 16, rb) ] /\
       left_open acc new = r_val rs :: acc).
Proof.
  split; [|split; [|split]].
  - intros e w V L C. destruct (NfqOpen_run e w V L C) as (err & w' & new & E & T & _ & P).
    exists err, w', new. split; [exact E|]. split; [exact T|]. destruct err; [apply P|].
    destruct P as (fd & P & _). eauto.
  - intros e w. destruct (NFlogOpen_run e w) as (err & w' & new & E & T & P).
    exists err, w', new. split; [exact E|]. split; [exact T|]. destruct err; [apply P|].
    destruct P as (fd & P & _). eauto.
  - exact ct_open_run.
  - intros new acc [(rs & en & H & ->)|(rs & rb & en & H & K & ->)].
    + left. cbn. rewrite H. reflexivity.
    + right. exists rs, rb, en. cbn. rewrite H. auto.
Qed.
Print Assumptions C17_leak_only_when_bind_fails_partial.
Example C17_hypotheses_met :
  valid (w_heap sample_world) (q_buf (w_st sample_world)) /\
  Z.of_nat (s_len (q_buf (w_st sample_world))) = 76800 /\
  map call_name (w_tr (snd (NfqOpen kernel_no_socket sample_world))) = [1].
Proof.
  destruct sample_world_open as (b & _ & E & V & L & _). rewrite E.
  split; [exact V|]. split; [exact L|reflexivity].
Qed.

(** ** C23 *)
Theorem C23_nflog_requests_say_what_was_asked : forall m c hi e w fd,
  log_args_ok c -> replies_within 20 hi e -> open_log w fd ->
  exists err w' new acked,
    log_run m c e w = (Ok err, w') /\ w_tr w' = w_tr w ++ new /\
    ran_requests m fd zlen (log_messages c) new acked err /\ open_log w' fd.
Proof. exact log_call_run. Qed.
Print Assumptions C23_nflog_requests_say_what_was_asked.
(** two groups, the second refused *)
Example C23_hypotheses_met :
  log_args_ok (LogBindGroup [10; 513] true true) /\ replies_within 20 37 (kernel_acks_first 1) /\
  let w := mkW (mkL true true (Some (mkLS 7 snil))) [] [] in
  open_log w 7 /\
  let run := log_run LE (LogBindGroup [10; 513] true true) (kernel_acks_first 1) w in
  fst run = Ok (Some (ENetlink (-1))) /\
  map fst (w_tr (snd run)) =
   [ KSendto 7 [28;0;0;0; 1;4; 5;0; 0;0;0;0; 0;0;0;0; 2;0;0;10; 8;0;1;0; 1;0;0;0] 0; KRecvfrom 7 28 0;
     KSendto 7 [28;0;0;0; 1;4; 5;0; 0;0;0;0; 0;0;0;0; 2;0;2;1; 8;0;1;0; 1;0;0;0] 0; KRecvfrom 7 28 0 ].
Proof.
  split; [cbn; repeat apply Forall_cons; try apply Forall_nil; red; lia|].
  split; [apply kernel_acks_first_within; lia|].
  split; [exists snil; reflexivity|]. split; vm_compute; reflexivity.
Qed.

(** ** C24 *)
(** False for the group calls: nil is returned for every list of groups, and
    nothing is sent. *)
Theorem C24_group_calls_need_open_refuted : forall m e w groups cb ecb psz,
  Forall is_u16 groups -> is_u32 psz -> l_sock (w_st w) = None ->
  (exists w', NFlogBindGroup m groups cb ecb e w = (Ok None, w') /\ w_tr w' = w_tr w) /\
  (exists w', NFlogSetMode m groups psz e w = (Ok None, w') /\ w_tr w' = w_tr w).
Proof.
  intros m e w groups cb ecb psz G P H. split.
  - destruct (log_not_open m (LogBindGroup groups cb ecb) e w G H) as (err & w' & E & T & ->).
    exists w'. auto.
  - destruct (log_not_open m (LogSetMode groups psz) e w (conj G P) H) as (err & w' & E & T & ->).
    exists w'. auto.
Qed.
Print Assumptions C24_group_calls_need_open_refuted.
(** what holds: the family calls do report it (also C15_nflog_not_open) *)
Theorem C24_family_calls_need_open_partial : forall m e w,
  l_sock (w_st w) = None ->
  (exists er w', NFlogBind m e w = (Ok (Some er), w') /\ w_tr w' = w_tr w) /\
  (exists er w', NFlogUnbind m e w = (Ok (Some er), w') /\ w_tr w' = w_tr w).
Proof.
  intros m e w H. split.
  - exact (C15_nflog_not_open m e w LogBind (or_introl eq_refl) H).
  - exact (C15_nflog_not_open m e w LogUnbind (or_intror eq_refl) H).
Qed.
Print Assumptions C24_family_calls_need_open_partial.
Example C24_hypotheses_met :
  Forall is_u16 [10; 20] /\ l_sock (w_st (snd (NewNFLog kernel_acks (mkW (mkL false false None) [] [])))) = None.
Proof. split; [repeat apply Forall_cons; try apply Forall_nil; red; lia|reflexivity]. Qed.

(** ** C29 *)
Theorem C29_listen_sets_up_in_order_and_cleans_up : forall m groups psz cb ecb hi e w,
  Forall is_u16 groups -> is_u32 psz -> replies_within 20 hi e ->
  exists err w' new,
    BindAndListenForLogs m groups psz cb ecb e w = (Ok err, w') /\ w_tr w' = w_tr w ++ new /\
    listen_outcome m groups psz new err /\
    (err = None -> exists fd evs rest, new = evs ++ rest /\ log_opens fd evs /\ open_log w' fd /\
       l_cb (w_st w') = cb /\ l_ecb (w_st w') = ecb).
Proof. exact BindAndListen_run. Qed.
Print Assumptions C29_listen_sets_up_in_order_and_cleans_up.
Theorem C29_listen_failure_closes : forall m groups psz new err acc,
  listen_outcome m groups psz new err ->
  match err with
  | None => exists fd, left_open acc new = fd :: acc
  | Some _ =>
      (exists rs rb en fd, r_err rs = None /\ r_val rs = fd /\ r_err rb = Some en /\
         new = [(KSocket 16 3 12, rs); (KBind fd 16, rb)])
      \/ left_open acc new = acc
  end.
Proof. exact listen_no_leak. Qed.
Print Assumptions C29_listen_failure_closes.
(** the mode of the second of two groups is refused: closed; and a success *)
Example C29_hypotheses_met :
  Forall is_u16 [10; 20] /\ replies_within 20 37 (kernel_acks_first 3) /\
  (let run := BindAndListenForLogs LE [10; 20] 64 true true (kernel_acks_first 3)
                (mkW (mkL false false None) [] []) in
   fst run = Ok (Some (EWrapped 3 (ENetlink (-1)))) /\
   map call_name (w_tr (snd run)) = [1;2;3; 5;6; 5;6; 5;6; 5;6; 7]) /\
  (let run := BindAndListenForLogs LE [10; 20] 64 true true kernel_acks
                (mkW (mkL false false None) [] []) in
   fst run = Ok None /\
   map call_name (w_tr (snd run)) = [1;2;3; 5;6; 5;6; 5;6; 5;6; 8]).
Proof.
  split; [repeat apply Forall_cons; try apply Forall_nil; red; lia|].
  split; [apply kernel_acks_first_within; lia|].
  split; vm_compute; split; reflexivity.
Qed.
