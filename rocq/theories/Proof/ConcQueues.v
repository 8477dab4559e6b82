(** Several queues at once (C70). *)
From Verif Require Export Proof.ConcProps Spec.QueuesSpec.

Lemma queues_do_not_mix m l h : queues_ok h l ->
  forall c, csteps (qinit m l h) c ->
  forall i q cs, nth_error l i = Some (q, cs) ->
  exists k t rest, nth_error (c_threads c) i = Some (t, rest) /\
    sent_first m h q k cs (sent_by i (c_log c)) /\ (rest = [] -> k = length cs).
Proof.
  intros [LH LC LO LW LA LK] c ST i q cs Hi.
  set (codes := map (fun u : vhandle * list vcall => thread_code m (fst u) (snd u)) l).
  assert (CO : forall j, nth_error codes j = match nth_error l j with Some u => Some (thread_code m (fst u) (snd u)) | None => None end).
  { intros j. unfold codes. rewrite nth_error_map. destruct (nth_error l j); reflexivity. }
  assert (DISJ : forall i j ci cj a k, i <> j ->
     nth_error codes i = Some ci -> nth_error codes j = Some cj -> writes cj a k -> ~ touches ci a k).
  { clear i q cs Hi. intros i j ci cj a k NE Hi Hj W T. rewrite CO in Hi, Hj.
    destruct (nth_error l i) as [[qi csi]|] eqn:Ei; [|discriminate]. destruct (nth_error l j) as [[qj csj]|] eqn:Ej; [|discriminate].
    injection Hi as <-. injection Hj as <-. cbn [fst snd] in *.
    pose proof (nth_error_In _ _ Ei) as Ii. pose proof (nth_error_In _ _ Ej) as Ij.
    destruct (LH _ _ Ii) as (_ & _ & Ni). destruct (LH _ _ Ij) as (_ & _ & Nj).
    apply (code_foot m qj h Nj csj a k (LC _ _ Ij)) in W as (c1 & I1 & W).
    apply (code_foot m qi h Ni csi a k (LC _ _ Ii)) in T as (c2 & I2 & T).
    pose proof (LA i j qi csi qj csj c2 c1 NE Ei Ej I2 I1) as AP. unfold in_pad, in_packet, in_hdr, apart in *.
    destruct W as [(A1 & B1)|(M1 & A1)], T as [(A2 & B2)|(M2 & A2)].
    - lia.
    - apply (LO qj csj qi csi c1 Ij Ii I1). congruence.
    - apply (LO qi csi qj csj c2 Ii Ij I2). congruence.
    - apply (LW i j qi csi qj csj c2 c1 NE Ei Ej I2 I1 M2 M1). congruence. }
  assert (J : ni_inv codes (mem_of h) c).
  { apply (ni_steps codes (mem_of h) DISJ _ _ ST). intros j t rest Hj. cbn [qinit c_threads] in Hj.
    rewrite nth_error_map in Hj. destruct (nth_error l j) as [u|] eqn:Ej; [|discriminate]. injection Hj as <- <-.
    exists (thread_code m (fst u) (snd u)), []. split; [rewrite CO, Ej; reflexivity|]. repeat split. }
  assert (LT : length (c_threads c) = length l).
  { clear - ST. remember (qinit m l h) as c0 eqn:E. induction ST as [c|c c1 c2 H IH S].
    - subst. cbn. apply map_length.
    - destruct S. unfold step_thread. destruct (exec _ _ _) as [[? ?] ?]. destruct (counts _ _ _).
      cbn [c_threads]. rewrite set_nth_length. auto. }
  destruct (nth_error (c_threads c) i) as [[t rest]|] eqn:Et.
  2:{ apply nth_error_None in Et. assert (i < length l)%nat by (apply nth_error_Some; congruence). lia. }
  destruct (J i t rest Et) as (code & pre & J1 & J2 & J3 & J4 & J5).
  rewrite CO, Hi in J1. cbn [fst snd] in J1. injection J1 as J1.
  pose proof (nth_error_In _ _ Hi) as Ii. destruct (LH _ _ Ii) as (_ & _ & LN). pose proof (LC _ _ Ii) as F.
  assert (KK : forall c c', In c cs -> In c' cs -> keeps (v_pkt c) (v_pkt c')) by (intros; eapply LK; eauto).
  destruct (thread_solo m q h LN cs (mem_of h) F KK) as (mm' & SOLO).
  rewrite J1, J2, srun_app in SOLO.
  destruct (srun pre idle (mem_of h)) as [[t1 m1] o1] eqn:SP. cbn [fst snd] in *.
  destruct (srun rest t1 m1) as [[t2 m2] o2] eqn:SR.
  assert (EO : map (fun c => (h_fd q, call_bytes m q c
        (mbytes (mem_of h) (s_arr (v_pkt c)) (s_off (v_pkt c)) (s_len (v_pkt c))))) cs = o1 ++ o2)
    by (injection SOLO; auto).
  destruct (prefix_of_map _ _ _ _ EO) as (k & Hk & Ek).
  exists k, t, rest. split; [reflexivity|]. split.
  - split; [exact Hk|]. rewrite J4, Ek.
    assert (F' : Forall (vcall_ok h q) (firstn k cs)).
    { rewrite <- (firstn_skipn k cs) in F. apply Forall_app in F as [F _]. exact F. }
    clear - F' LN. induction (firstn k cs) as [|c l IH]; [constructor|].
    inversion F'; subst. constructor; [|auto]. split; [reflexivity|]. cbn [snd].
    destruct H1 as (V & R). rewrite mbytes_rd by exact V. apply call_message; auto. split; assumption.
  - intros ->. cbn [srun] in SR. injection SR as <- <- <-. rewrite app_nil_r in EO.
    rewrite Ek in EO. apply (f_equal (@length _)) in EO. rewrite !map_length, firstn_length in EO. lia.
Qed.
Lemma queues_finish m l h c : csteps (qinit m l h) c -> exists c', csteps c c' /\ finished c'.
Proof. intros _. eapply can_finish. reflexivity. Qed.
