(** The request/reply exchange of nflog and conntrack (sock_send, sock_recv). *)
From Verif Require Export Proof.Requests.

Lemma sock_recv_run {S} m fd buf hi e (w : world S) :
  valid (w_heap w) buf -> (20 <= s_len buf)%nat ->
  let c := KRecvfrom fd (Z.of_nat (s_len buf)) 0 in
  let r := e (w_tr w) c in
  (r_err r = None -> is_bytes (r_data r) /\ 20 <= zlen (r_data r) < hi) ->
  exists h',
    sock_recv m fd buf e w = (Ok (nfq_reply m r), mkW (w_st w) h' (w_tr w ++ [(c, r)])) /\
    length h' = length (w_heap w) /\
    (forall s, valid (w_heap w) s -> valid h' s) /\
    (forall a, a <> s_arr buf -> arr h' a = arr (w_heap w) a).
Proof.
  intros V P c r R. unfold sock_recv, nfq_reply.
  destruct (r_err r) as [en|] eqn:Er.
  - exists (w_heap w). split; [|auto].
    unfold r, c in Er. rewrite (bind_ok _ _ _ _ _ _ (recvfrom_err _ _ _ _ _ _ Er)). reflexivity.
  - pose proof (R eq_refl) as [HB HR].
    pose proof (recvfrom_ok fd buf 0 e w Er) as E. cbv zeta in E. fold c r in E.
    rewrite (bind_ok _ _ _ _ _ _ E). clear E.
    set (d := firstn (s_len buf) (r_data r)).
    assert (Ld : (20 <= length d <= s_len buf)%nat).
    { unfold d. rewrite firstn_length. unfold zlen in HR. lia. }
    set (h' := scopy (w_heap w) buf d).
    destruct (scopy_facts (w_heap w) buf d V ltac:(lia) ltac:(lia)) as (F1 & F2 & F3 & F4).
    fold h' in F1, F2, F3, F4. exists h'.
    assert (Vc := proj1 V).
    unfold resl_to. rewrite reslice_ok by (unfold zlen; lia).
    rewrite bind_lift_ok, bind_get_heap. cbn [w_heap].
    change (Z.to_nat 0) with 0%nat. rewrite Nat.add_0_r, !Nat.sub_0_r.
    replace (Z.to_nat (zlen d)) with (length d) by (unfold zlen; lia).
    set (b := mkSl (s_arr buf) (s_off buf) (length d) (s_cap buf)).
    assert (Vb : valid h' b).
    { destruct (F1 _ V) as [X Y]. split; [cbn; lia|]. exact Y. }
    assert (Hb : rd h' b = firstn (length d) (rd h' buf)).
    { unfold rd. cbn. rewrite firstn_firstn, Nat.min_l by lia. reflexivity. }
    destruct (parse_reply m h' b (r_data r) Vb) as (hdr & next & E1 & Hn & E2 & oh & E3).
    { cbn. lia. }
    { intros o n Hon. rewrite Hb, field_firstn by lia.
      rewrite F2, field_app_l by lia. unfold d. apply field_firstn. lia. }
    rewrite E1, bind_lift_ok. cbv beta iota. rewrite E2. unfold reply_code, NlMsgError.
    split; [|auto].
    assert (G : exists x, NetlinkMessageToNfGenStruct h' next = Ok x).
    { eexists. eapply parse_gen; [| |reflexivity].
      - rewrite Hn. apply (valid_from h' b 16 Vb). cbn. lia.
      - rewrite Hn. cbn. lia. }
    destruct G as [x G].
    destruct (num m (field (r_data r) 4 2) =? 2).
    + rewrite E3. repeat mstep. cbn [snd].
      destruct (signed32 (num m (field (r_data r) 16 4)) =? 0); [|reflexivity].
      rewrite G. reflexivity.
    + rewrite bind_ret, G. reflexivity.
Qed.

Lemma sock_exchange {S} m fd hdr data hi e (w : world S) (k : slice -> M S unit) :
  (4 <= length data)%nat -> replies_within 20 hi e ->
  (forall s, exists st, forall h tr, k s e (mkW (w_st w) h tr) = (Ok tt, mkW st h tr)) ->
  exists res w' new buf st,
    (let! x := sock_send m fd hdr data in
     let '(buf, er) := x in
     let! _ := k buf in
     match er with Some er => ret (Some er) | None => sock_recv m fd buf end) e w = (Ok res, w') /\
    w_tr w' = w_tr w ++ new /\
    one_request m fd (zlen (hdr_bytes m hdr ++ data)) (hdr_bytes m hdr ++ data) new res /\
    (forall h tr, k buf e (mkW (w_st w) h tr) = (Ok tt, mkW st h tr)) /\ w_st w' = st /\
    length (w_heap w') = Datatypes.S (length (w_heap w)) /\
    (forall s, valid (w_heap w) s -> valid (w_heap w') s) /\
    (forall a, (a < length (w_heap w))%nat -> arr (w_heap w') a = arr (w_heap w) a).
Proof.
  intros L R K. set (b := hdr_bytes m hdr ++ data).
  assert (Lb : (20 <= length b)%nat) by (unfold b; rewrite app_length, hdr_bytes_length; lia).
  unfold sock_send. rewrite bind_assoc, send_bytes_ok, bind_lift_ok. fold b.
  unfold m_alloc, alloc. repeat mstep. cbn [repeat]. rewrite app_nil_r, Nat.add_0_r.
  set (buf := mkSl (length (w_heap w)) 0 (length b) (length b)).
  set (h1 := w_heap w ++ [b]).
  set (c1 := KSendto fd b 0). set (r1 := e (w_tr w) c1).
  destruct (K buf) as [st Hst].
  assert (V1 : forall s, valid (w_heap w) s -> valid h1 s).
  { intros s [X [Y|[Y Z]]]; (split; [exact X|]); [left; exact Y|right]. unfold h1. rewrite app_length. cbn.
    split; [lia|]. unfold arr. rewrite app_nth1 by lia. exact Z. }
  assert (A1 : forall a, (a < length (w_heap w))%nat -> arr h1 a = arr (w_heap w) a).
  { intros a Ha. unfold h1, arr. apply app_nth1, Ha. }
  assert (Hl : length h1 = Datatypes.S (length (w_heap w))) by (unfold h1; rewrite app_length; cbn; lia).
  destruct (r_err r1) as [en|] eqn:E1.
  - rewrite bind_ret. rewrite (bind_ok _ _ _ _ _ _ (Hst _ _)).
    eexists _, _, [(c1, r1)], buf, st. split; [reflexivity|]. cbn [w_tr w_st w_heap].
    split; [reflexivity|]. split; [left; exists r1, en; auto|].
    split; [exact Hst|]. split; [reflexivity|]. auto.
  - rewrite bind_ret. rewrite (bind_ok _ _ _ _ _ _ (Hst _ _)).
    set (w1 := mkW st h1 (w_tr w ++ [(c1, r1)])).
    assert (Vb : valid (w_heap w1) buf).
    { split; [cbn; lia|]. right. cbn [w1 w_heap buf s_arr s_off s_cap].
      rewrite Hl. split; [lia|]. unfold h1, arr. rewrite app_nth2, Nat.sub_diag by lia. cbn. lia. }
    destruct (sock_recv_run m fd buf hi e w1 Vb Lb (R (w_tr w) b r1 fd (Z.of_nat (s_len buf)))) as (h' & E & L' & V' & O').
    rewrite E. cbn [w1 w_st w_heap w_tr buf s_arr s_len] in *.
    eexists _, _, _, buf, st. split; [reflexivity|]. cbn [w_st w_heap w_tr].
    rewrite <- app_assoc. split; [reflexivity|]. split.
    { right. eexists r1, _. split; [exact E1|]. split; [reflexivity|].
      apply ack_facts; [exact E1|reflexivity]. }
    split; [exact Hst|]. split; [reflexivity|]. split; [congruence|].
    split; [auto|]. intros a Ha. rewrite O' by lia. auto.
Qed.
