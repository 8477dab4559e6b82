(** Histories of log handles and of conntrack updates: C97 (memory), C98 (descriptors). *)
From Verif Require Import Proof.LogFrame Proof.CtHistory Spec.Samples Properties.P_Config Properties.P_NfLog Properties.P_Conntrack.

(** ** C97 *)
(** Any array the program has before a log handle is made keeps every byte, whatever methods
    are then called in whatever order, whatever the kernel sends; no hypothesis on callbacks,
    which are given copies. *)
Theorem C97_log_leaves_memory_alone : forall m cs e w0 w a,
  (a < length (w_heap w0))%nat ->
  w = snd (NewNFLog e w0) \/
  (exists groups psz cb ecb, w = snd (BindAndListenForLogs m groups psz cb ecb e w0)) ->
  arr (w_heap (log_uses m cs e w)) a = arr (w_heap w0) a.
Proof.
  intros m cs e w0 w a L H.
  enough (G : unch a (arr (w_heap w0) a) (w_heap w)) by apply (hf_log_uses a _ m cs e w G).
  assert (N : unch a (arr (w_heap w0) a) (w_heap w0)) by (split; [exact L|reflexivity]).
  destruct H as [-> |(gs & sz & cb & ecb & ->)]; [exact N|].
  assert (K : hf a (arr (w_heap w0) a) (BindAndListenForLogs m gs sz cb ecb) any).
  { unfold BindAndListenForLogs, NewNFLog, NFlogBindGroup.
    repeat (lazymatch goal with
            | |- hf _ _ (mbind NFlogOpen _) _ => apply (hf_bind _ _ _ _ any); [apply hf_LOpen|intros ? _]
            | |- hf _ _ (mbind NFlogClose _) _ => apply (hf_bind _ _ _ _ any); [apply hf_LClose|intros ? _]
            | |- hf _ _ (mbind (NFlogSetMode _ _ _) _) _ => apply (hf_bind _ _ _ _ any); [apply hf_mode|intros ? _]
            | |- hf _ _ (bind_groups _ _) _ => apply hf_groups
            | |- _ => hstep end). }
  exact (proj1 (K e w0 N)).
Qed.
Print Assumptions C97_log_leaves_memory_alone.
(** the same for any sequence of conntrack updates *)
Theorem C97_conntrack_leaves_memory_alone : forall m cs e w0 a,
  (a < length (w_heap w0))%nat ->
  arr (w_heap (ct_uses m cs e w0)) a = arr (w_heap w0) a.
Proof.
  intros m cs e w0 a L. assert (N : unch a (arr (w_heap w0) a) (w_heap w0)) by (split; [exact L|reflexivity]).
  revert N. generalize (arr (w_heap w0) a). intros c N. clear L. revert w0 N.
  enough (G : forall w, unch a c (w_heap w) -> unch a c (w_heap (ct_uses m cs e w))) by (intros w N; apply (G w N)).
  induction cs as [|k cs IH]; intros w N; cbn [ct_uses]; [exact N|]. apply IH.
  assert (K : hf a c (ct_use m k) any).
  { destruct k; cbn [ct_use]; (apply (hf_bind _ _ _ _ any); [|intros ? _; hstep]).
    - apply hf_UpdateMark.
    - unfold ConntrackTableUpdateMarkForAvailableFlow. apply hf_mark_loop.
    - unfold ConntrackTableUpdateLabel. apply hf_label_loop. }
  exact (proj1 (K e w N)).
Qed.
Print Assumptions C97_conntrack_leaves_memory_alone.
(** a program's array [7;8;9]; the handle allocates and receives behind it *)
Example C97_hypotheses_met :
  let w0 : world nflog := mkW (mkL false false None) [[7; 8; 9]] [] in
  let w := snd (BindAndListenForLogs LE [10; 20] 64 true true kernel_acks w0) in
  let w' := log_uses LE [LUnbind; LSetMode [30] 16; LClose] kernel_acks w in
  (0 < length (w_heap w0))%nat /\
  (arr (w_heap w') 0, length (w_heap w'), receives (w_tr w')) = ([7; 8; 9], 7%nat, 6%nat).
Proof. split; [cbn; lia|vm_compute; reflexivity]. Qed.
Definition ct_calls : list ct_call :=
  [CUpdateMark (f_src sample_tuple) (f_dst sample_tuple) 6 1000 80 7;
   CUpdateMarkAvailable [sample_flow; other_flow; sample_flow] (f_src sample_tuple) (f_dst sample_tuple)
     (f_proto sample_tuple) (f_sport sample_tuple) (f_dport sample_tuple) 8;
   CUpdateLabel [sample_flow] (f_src sample_tuple) (f_dst sample_tuple)
     (f_proto sample_tuple) (f_sport sample_tuple) (f_dport sample_tuple) 9].

(** ** C98 *)
(** Any sequence of conntrack updates with any arguments, flows and kernel answers, also
    ones that end in a panic the program recovers from: every bind, send, receive and close
    is on a descriptor that is open at that moment (a netlink socket returned it and it has
    not been closed since), and if no bind failed, no descriptor is open at the end. *)
Theorem C98_conntrack_descriptors_partial : forall m cs e w0,
  exists since, w_tr (ct_uses m cs e w0) = w_tr w0 ++ since /\
    only_open_descriptors since /\
    (binds_succeed since -> forall fd, ~ open_at_end since fd).
Proof.
  intros m cs e w0. destruct (ct_uses_tidy m cs e w0) as (n & T & O & C). exists n. split; [exact T|]. split; assumption.
Qed.
Print Assumptions C98_conntrack_descriptors_partial.
(** Refuted: when a bind fails the descriptor stays open. *)
Theorem C98_failed_bind_leaks_refuted : forall m t mark e w0 rs,
  tuple5_ok t -> is_u32 mark ->
  rs = e (w_tr w0) (KSocket 16 3 12) -> r_err rs = None ->
  r_err (e (w_tr w0 ++ [(KSocket 16 3 12, rs)]) (KBind (r_val rs) 16)) <> None ->
  exists since,
    w_tr (ct_uses m [CUpdateMark (f_src t) (f_dst t) (f_proto t) (f_sport t) (f_dport t) mark] e w0) = w_tr w0 ++ since /\
    open_at_end since (r_val rs).
Proof.
  intros m t mark e w0 rs T K -> E Eb. set (rs := e (w_tr w0) (KSocket 16 3 12)) in *.
  destruct (r_err (e (w_tr w0 ++ [(KSocket 16 3 12, rs)]) (KBind (r_val rs) 16))) as [en|] eqn:X; [|contradiction].
  exists [(KSocket 16 3 12, rs); (KBind (r_val rs) 16, e (w_tr w0 ++ [(KSocket 16 3 12, rs)]) (KBind (r_val rs) 16))].
  split.
  - cbn [ct_uses ct_use]. unfold ConntrackTableUpdateMark. rewrite build_request_ok by exact T.
    unfold mbind at 1. rewrite bind_lift_ok, appendMark_ok by exact K. rewrite bind_lift_ok.
    unfold sendMessage, ct_open, mbind, do_call.
    change (KSocket AF_NETLINK SOCK_RAW NETLINK_NETFILTER) with (KSocket 16 3 12). fold rs. rewrite E. cbn [w_tr w_st w_heap].
    change AF_NETLINK with 16. rewrite X. unfold ret, mpanic. cbn [snd w_tr]. rewrite <- app_assoc. reflexivity.
  - exists [], rs. eexists. split; [reflexivity|]. split; [exact E|]. split; [reflexivity|].
    intros r' [H|[]]. discriminate.
Qed.
Print Assumptions C98_failed_bind_leaks_refuted.
Example C98_hypotheses_met :
  let w' := ct_uses LE ct_calls kernel_acks (mkW tt [] []) in
  length (w_tr w') = 20%nat /\ forallb (fun ev => match fst ev with KBind _ _ => match r_err (snd ev) with None => true | _ => false end | _ => true end) (w_tr w') = true /\
  tuple5_ok sample_tuple /\ is_u32 8 /\
  r_err (kernel_no_bind [] (KBind 7 16)) <> None.
Proof. cbv zeta. split; [vm_compute; reflexivity|]. split; [vm_compute; reflexivity|]. split; [exact sample_tuple_ok|]. split; [red; lia|discriminate]. Qed.
