(** A log handle and the conntrack updates write only to memory they allocate. *)
From Verif Require Export Proof.Frame Spec.Descriptors Model.Conntrack.

Section HF.
Context (a : nat) (c : bytes) {S : Type}.
Definition hf {A} (x : M S A) (Q : A -> Prop) : Prop :=
  forall e w, unch a c (w_heap w) -> unch a c (w_heap (snd (x e w))) /\ (forall v, fst (x e w) = Ok v -> Q v).
Lemma hf_ret {A} (v : A) (Q : A -> Prop) : Q v -> hf (ret v) Q.
Proof. intros H e w G. split; [exact G|]. intros v' E. injection E as <-. exact H. Qed.
Lemma hf_lift {A} (v : res A) : hf (lift v) (fun x => v = Ok x).
Proof. intros e w G. split; [exact G|]. intros x E. exact E. Qed.
Lemma hf_panic {A} (Q : A -> Prop) : hf mpanic Q.
Proof. intros e w G. split; [exact G|]. discriminate. Qed.
Lemma hf_nofuel {A} (Q : A -> Prop) : hf mnofuel Q.
Proof. intros e w G. split; [exact G|]. discriminate. Qed.
Lemma hf_get_st : hf get_st any.
Proof. intros e w G. split; [exact G|auto]. Qed.
Lemma hf_get_heap : hf get_heap (unch a c).
Proof. intros e w G. split; [exact G|]. intros v E. injection E as <-. exact G. Qed.
Lemma hf_put_heap h : unch a c h -> hf (put_heap h) any.
Proof. intros H e w G. split; [exact H|auto]. Qed.
Lemma hf_put_st q : hf (put_st q) any.
Proof. intros e w G. split; [exact G|auto]. Qed.
Lemma hf_call k : hf (do_call k) any.
Proof. intros e w G. split; [exact G|auto]. Qed.
Lemma hf_bind {A B} (x : M S A) (f : A -> M S B) R Q :
  hf x R -> (forall v, R v -> hf (f v) Q) -> hf (mbind x f) Q.
Proof.
  intros Hx Hf e w G. unfold mbind. destruct (Hx e w G) as [G1 V].
  destruct (x e w) as [[v| |] w1]; cbn [fst snd] in *; [|split; [exact G1|discriminate]..].
  apply Hf; [apply V; reflexivity|exact G1].
Qed.
Lemma hf_deferred {A} (x : M S A) y : hf x any -> hf y any -> hf (deferred x y) any.
Proof.
  intros Hx Hy e w G. split; [|auto]. unfold deferred. destruct (Hx e w G) as [G1 _].
  destruct (x e w) as [[v| |] w1]; cbn [fst snd] in *; [|exact (proj1 (Hy e w1 G1))|exact G1].
  exact (proj1 (Hy e w1 G1)).
Qed.
End HF.
Ltac hstep :=
  lazymatch goal with
  | |- hf _ _ (mbind get_st _) _ => apply (hf_bind _ _ _ _ any); [apply hf_get_st|intros ? _]
  | |- hf _ _ (mbind get_heap _) _ => eapply hf_bind; [apply hf_get_heap|intros ? ?]
  | |- hf _ _ (mbind (lift ?v) _) _ => eapply hf_bind; [apply hf_lift|intros ? ?]
  | |- hf _ _ (mbind (do_call _) _) _ => apply (hf_bind _ _ _ _ any); [apply hf_call|intros ? _]
  | |- hf _ _ (mbind (mbind _ _) _) _ => apply (hf_bind _ _ _ _ any); [|intros ? _]
  | |- hf _ _ (mbind (match _ with _ => _ end) _) _ => apply (hf_bind _ _ _ _ any); [|intros ? _]
  | |- hf _ _ (mbind (put_st _) _) _ => apply (hf_bind _ _ _ _ any); [apply hf_put_st|intros ? _]
  | |- hf _ _ (mbind (put_heap _) _) _ => apply (hf_bind _ _ _ _ any); [apply hf_put_heap|intros ? _]
  | |- hf _ _ (ret _) _ => apply hf_ret; try exact I
  | |- hf _ _ mpanic _ => apply hf_panic
  | |- hf _ _ mnofuel _ => apply hf_nofuel
  | |- hf _ _ (match ?x with _ => _ end) _ => destruct x eqn:?
  | |- hf _ _ (let _ := _ in _) _ => cbv zeta
  end.
Section HF2.
Context (a : nat) (c : bytes).
Lemma hf_m_alloc {S} v sp : hf a c (m_alloc (S := S) v sp) (away a).
Proof.
  unfold m_alloc. hstep. destruct (alloc v0 v sp) as [h' s] eqn:E.
  pose proof (alloc_unch a c v0 v sp H) as [U A]. rewrite E in U, A. hstep; [exact U|]. hstep. exact A.
Qed.
Lemma hf_recvfrom {S} fd b fl : away a b -> hf a c (sys_recvfrom (S := S) fd b fl) any.
Proof. intros A. unfold sys_recvfrom. repeat hstep. apply scopy_unch; assumption. Qed.
Lemma hf_send {S} m fd hdr data : hf a c (sock_send (S := S) m fd hdr data) (fun x => away a (fst x)).
Proof.
  unfold sock_send. hstep. eapply hf_bind; [apply hf_m_alloc|intros b B]. hstep. hstep; hstep; exact B.
Qed.
Lemma hf_recv {S} m fd b : away a b -> hf a c (sock_recv (S := S) m fd b) any.
Proof.
  intros A. unfold sock_recv. apply (hf_bind _ _ _ _ any); [apply hf_recvfrom; exact A|intros [[en|] n] _]; [hstep|].
  repeat hstep.
Qed.
(** ** nflog *)
Lemma hf_nfl_query m k hdr data : hf a c (nfl_query m k hdr data) any.
Proof.
  unfold nfl_query. eapply hf_bind; [apply hf_send|intros [b er] B]. cbn [fst] in B.
  hstep. hstep. destruct er; [hstep|]. apply hf_recv. exact B.
Qed.
Ltac hq := repeat (match goal with |- hf _ _ (nfl_query _ _ _ _) _ => apply hf_nfl_query end || hstep).
Lemma hf_pf m cmd : hf a c (nfl_pf_command m cmd) any.
Proof. unfold nfl_pf_command. cbn [BuildNfgenMsg BuildNfAttrMsg]. hq. Qed.
Lemma hf_groups m gs : hf a c (bind_groups m gs) any.
Proof.
  induction gs as [|g gs IH]; cbn [bind_groups BuildNfgenMsg BuildNfAttrMsg]; [hstep|].
  repeat (match goal with |- hf _ _ (bind_groups _ _) _ => exact IH | |- hf _ _ (nfl_query _ _ _ _) _ => apply hf_nfl_query end || hstep).
Qed.
Lemma hf_mode m gs sz : hf a c (NFlogSetMode m gs sz) any.
Proof.
  induction gs as [|g gs IH]; cbn [NFlogSetMode BuildNfgenMsg BuildNfAttrMsg]; [hstep|].
  repeat (match goal with |- hf _ _ (NFlogSetMode _ _ _) _ => exact IH | |- hf _ _ (nfl_query _ _ _ _) _ => apply hf_nfl_query end || hstep).
Qed.
Lemma hf_LOpen : hf a c NFlogOpen any.
Proof. unfold NFlogOpen. cbv zeta. repeat hstep. Qed.
Lemma hf_LClose : hf a c NFlogClose any.
Proof. unfold NFlogClose. repeat hstep. Qed.
Lemma hf_tlv f : forall b p, hf a c (tlv_loop f b p) any.
Proof.
  induction f as [|f IH]; intros [|x b] p; cbn [tlv_loop]; idtac.
  all: repeat (match goal with |- hf _ _ (tlv_loop _ _ _) _ => apply IH end || hstep).
Qed.
Lemma hf_parse f : forall b, hf a c (parseLog f b) any.
Proof.
  induction f as [|f IH]; intros [|x b]; cbn [parseLog]; unfold parsePacket.
  all: repeat (match goal with |- hf _ _ (tlv_loop _ _ _) _ => apply hf_tlv | |- hf _ _ (parseLog _ _) _ => apply IH end || hstep).
Qed.
Lemma hf_read_loop n fuel b : away a b -> hf a c (read_loop n fuel b) any.
Proof.
  intros A. induction n as [|n IH]; cbn [read_loop]; [hstep|].
  repeat (match goal with
          | |- hf _ _ (mbind (sys_recvfrom _ _ _) _) _ => apply (hf_bind _ _ _ _ any); [apply hf_recvfrom; exact A|intros ? _]
          | |- hf _ _ (mbind (parseLog _ _) _) _ => apply (hf_bind _ _ _ _ any); [apply hf_parse|intros ? _]
          | |- hf _ _ (read_loop _ _ _) _ => exact IH end || hstep).
Qed.
Lemma hf_ReadLogs n fuel : hf a c (ReadLogs n fuel) any.
Proof.
  unfold ReadLogs. apply hf_deferred; [|apply hf_LClose].
  eapply hf_bind; [apply hf_m_alloc|intros b B]. apply hf_read_loop; exact B.
Qed.
Lemma hf_log_use m k : hf a c (log_use m k) any.
Proof.
  destruct k; cbn [log_use];
    lazymatch goal with
    | |- hf _ _ (mbind NFlogOpen _) _ => apply (hf_bind _ _ _ _ any); [apply hf_LOpen|intros ? _; hstep]
    | |- hf _ _ (mbind (NFlogUnbind _) _) _ => apply (hf_bind _ _ _ _ any); [unfold NFlogUnbind; apply hf_pf|intros ? _; hstep]
    | |- hf _ _ (mbind (NFlogBind _) _) _ => apply (hf_bind _ _ _ _ any); [unfold NFlogBind; apply hf_pf|intros ? _; hstep]
    | |- hf _ _ (mbind (NFlogBindGroup _ _ _ _) _) _ => apply (hf_bind _ _ _ _ any); [unfold NFlogBindGroup; hstep; hstep; apply hf_groups|intros ? _; hstep]
    | |- hf _ _ (mbind (NFlogSetMode _ _ _) _) _ => apply (hf_bind _ _ _ _ any); [apply hf_mode|intros ? _; hstep]
    | |- hf _ _ (ReadLogs _ _) _ => apply hf_ReadLogs
    | |- hf _ _ NFlogClose _ => apply hf_LClose
    end.
Qed.
Lemma hf_log_uses m cs e : forall w, unch a c (w_heap w) -> unch a c (w_heap (log_uses m cs e w)).
Proof.
  induction cs as [|k cs IH]; intros w G; cbn [log_uses]; [exact G|]. apply IH. exact (proj1 (hf_log_use m k e w G)).
Qed.
(** ** conntrack *)
Lemma hf_sendMessage m hdr data : hf a c (sendMessage m hdr data) any.
Proof.
  unfold sendMessage, ct_open. cbv zeta. hstep.
  - repeat hstep.
  - destruct v as [fd|er]; [|hstep]. apply hf_deferred; [|repeat hstep].
    unfold ct_query. eapply hf_bind; [apply hf_send|intros [b er] B]. cbn [fst] in B.
    destruct er; [hstep|]. apply hf_recv. exact B.
Qed.
Lemma hf_UpdateMark m s d p sp dp k : hf a c (ConntrackTableUpdateMark m s d p sp dp k) any.
Proof.
  unfold ConntrackTableUpdateMark.
  repeat (match goal with |- hf _ _ (sendMessage _ _ _) _ => apply hf_sendMessage end || hstep).
Qed.
Lemma hf_mark_loop m fs s d p sp dp k : forall n, hf a c (mark_loop m fs s d p sp dp k n) any.
Proof.
  induction fs as [|f fs IH]; intros n; cbn [mark_loop]; [repeat hstep|].
  repeat (match goal with
          | |- hf _ _ (mbind (ConntrackTableUpdateMark _ _ _ _ _ _ _) _) _ => apply (hf_bind _ _ _ _ any); [apply hf_UpdateMark|intros ? _]
          | |- hf _ _ (mark_loop _ _ _ _ _ _ _ _ _) _ => apply IH end || hstep).
Qed.
Lemma hf_label_loop m fs s d p sp dp k : forall n, hf a c (label_loop m fs s d p sp dp k n) any.
Proof.
  induction fs as [|f fs IH]; intros n; cbn [label_loop]; [repeat hstep|].
  repeat (match goal with
          | |- hf _ _ (mbind (sendMessage _ _ _) _) _ => apply (hf_bind _ _ _ _ any); [apply hf_sendMessage|intros ? _]
          | |- hf _ _ (label_loop _ _ _ _ _ _ _ _ _) _ => apply IH end || hstep).
Qed.
End HF2.
