(** One request/reply exchange, for the three packages. *)
From Verif Require Export Proof.SysFacts Spec.Requests Model.NfQueue Model.Conntrack.

Lemma field_app_l b r o n : (o + n <= length b)%nat -> field (b ++ r) o n = field b o n.
Proof.
  intros H. unfold field. rewrite skipn_app_le by lia. apply firstn_app_le.
  rewrite skipn_length. lia.
Qed.
Lemma field_firstn b o n k : (o + n <= k)%nat -> field (firstn k b) o n = field b o n.
Proof.
  intros H. unfold field. rewrite skipn_firstn_comm, firstn_firstn, Nat.min_l by lia. reflexivity.
Qed.
Lemma i32_signed v : i32 v = signed32 v.
Proof. reflexivity. Qed.

(** parsing a reply that is at least 20 bytes long *)
Lemma parse_reply m h b d :
  valid h b -> (20 <= s_len b)%nat -> (forall o n, (o + n <= 20)%nat -> field (rd h b) o n = field d o n) ->
  exists hdr next, NetlinkMessageToStruct m h b = Ok (Some hdr, next, None) /\
    next = mkSl (s_arr b) (s_off b + 16) (s_len b - 16) (s_cap b - 16) /\
    n_type hdr = num m (field d 4 2) /\
    exists oh, NetlinkErrMessagetoStruct m h next = Ok (oh, signed32 (num m (field d 16 4))).
Proof.
  intros V L F. pose proof (valid_len _ _ V) as HL.
  destruct (NetlinkMessageToStruct_ok m h b V ltac:(lia)) as (l & t & f & s & p & _ & _ & Ht & _ & _ & _ & ->).
  eexists _, _. split; [reflexivity|]. split; [reflexivity|].
  cbn [n_type]. split.
  - rewrite num2_at in Ht by lia. injection Ht as <-. rewrite F by lia. reflexivity.
  - pose proof (valid_from h b 16 V ltac:(lia)) as V16.
    unfold NetlinkErrMessagetoStruct. rewrite NativeEndian_id, rd_from, num4_at by lia. cbn [rbind].
    rewrite resl_from_ok; cbn [s_len s_cap s_arr s_off]; [|lia|destruct V; lia].
    cbn [rbind]. change (Z.to_nat 4) with 4%nat.
    pose proof (netlink_header_rejects_exactly_short m h _ (valid_from h _ 4 V16 ltac:(cbn; lia))) as K.
    cbn [s_len s_cap s_arr s_off] in K. rewrite i32_signed, F by lia.
    match type of K with if ?c then _ else _ => destruct c end.
    + destruct K as [er ->]. cbn. eauto.
    + destruct K as (r & nx & ->). cbn. eauto.
Qed.

Lemma send_bytes_ok m hdr data : send_bytes m hdr data = Ok (hdr_bytes m hdr ++ data).
Proof.
  unfold send_bytes. rewrite store_all_prefix.
  - rewrite nlmsghdr_stores_payload. cbn [rbind]. rewrite hdr_bytes_length.
    assert (HL : zlen (skipn 16 (gmake (SizeofNlMsghdr + zlen data))) = zlen data).
    { unfold gmake, zlen. rewrite skipn_length, repeat_length. unfold SizeofNlMsghdr. lia. }
    assert (HH : zlen (hdr_bytes m hdr) = 16) by (unfold zlen; rewrite hdr_bytes_length; reflexivity).
    rewrite gcopy_ok; [|lia|rewrite zlen_app, HL, HH; lia].
    change (Z.to_nat 16) with 16%nat.
    rewrite firstn_app_exact by apply hdr_bytes_length. reflexivity.
  - apply nlmsghdr_stores_contig.
  - rewrite nlmsghdr_stores_payload, hdr_bytes_length. unfold gmake. rewrite repeat_length.
    unfold SizeofNlMsghdr, zlen. lia.
Qed.

Lemma ack_facts m r1 r2 (res : option gerr) :
  r_err r1 = None ->
  res = match r_err r2 with
        | Some en => Some (ERecv en)
        | None => if reply_code m (r_data r2) =? 0 then None
                  else Some (ENetlink (reply_code m (r_data r2)))
        end ->
  (acknowledged m r1 r2 <-> res = None) /\
  (forall en, r_err r2 = Some en -> res = Some (ERecv en)) /\
  (r_err r2 = None -> reply_code m (r_data r2) <> 0 ->
     res = Some (ENetlink (reply_code m (r_data r2)))).
Proof.
  intros H1 ->. unfold acknowledged. rewrite H1.
  destruct (r_err r2) as [en|].
  - split; [|split].
    + split; [intros (_ & X & _)|intros X]; discriminate.
    + intros en' X. injection X as <-. reflexivity.
    + discriminate.
  - destruct (Z.eqb_spec (reply_code m (r_data r2)) 0) as [E|E].
    + split; [tauto|]. split; [discriminate|]. intros _ X. contradiction.
    + split; [|split; [discriminate|reflexivity]]. split; [tauto|discriminate].
Qed.

(** ** nfqueue *)
Definition nfq_reply (m : endian) (r2 : resp) : option gerr :=
  match r_err r2 with
  | Some en => Some (ERecv en)
  | None => if reply_code m (r_data r2) =? 0 then None
            else Some (ENetlink (reply_code m (r_data r2)))
  end.

Lemma nfq_recv_run m k e w :
  valid (w_heap w) (k_buf k) -> (0 < s_len (k_buf k))%nat ->
  let c := KRecvfrom (k_fd k) (Z.of_nat (s_len (k_buf k))) 0 in
  let r := e (w_tr w) c in
  (r_err r = None -> is_bytes (r_data r) /\ 20 <= zlen (r_data r) < Z.of_nat (s_len (k_buf k))) ->
  exists h',
    nfq_recv m k e w = (Ok (nfq_reply m r), mkW (w_st w) h' (w_tr w ++ [(c, r)])) /\
    length h' = length (w_heap w) /\
    (forall s, valid (w_heap w) s -> valid h' s) /\
    (forall a, a <> s_arr (k_buf k) -> arr h' a = arr (w_heap w) a).
Proof.
  intros V P c r R. unfold nfq_recv, nfq_reply.
  destruct (r_err r) as [en|] eqn:Er.
  - exists (w_heap w). split; [|auto].
    unfold r, c in Er. rewrite (bind_ok _ _ _ _ _ _ (recvfrom_err _ _ _ _ _ _ Er)). reflexivity.
  - pose proof (R eq_refl) as [HB HR].
    assert (Hd : firstn (s_len (k_buf k)) (r_data r) = r_data r)
      by (apply firstn_all2; unfold zlen in HR; lia).
    pose proof (recvfrom_ok (k_fd k) (k_buf k) 0 e w Er) as E. cbv zeta in E. fold c r in E. rewrite Hd in E.
    rewrite (bind_ok _ _ _ _ _ _ E). clear E.
    set (h' := scopy (w_heap w) (k_buf k) (r_data r)).
    destruct (scopy_facts (w_heap w) (k_buf k) (r_data r) V P ltac:(unfold zlen in HR; lia)) as (F1 & F2 & F3 & F4).
    fold h' in F1, F2, F3, F4. exists h'.
    assert (Vc := proj1 V).
    unfold resl_to. rewrite reslice_ok by (unfold zlen in HR |- *; lia).
    rewrite bind_lift_ok, bind_get_heap. cbn [w_heap].
    change (Z.to_nat 0) with 0%nat. rewrite Nat.add_0_r, !Nat.sub_0_r.
    replace (Z.to_nat (zlen (r_data r) + 1)) with (length (r_data r) + 1)%nat by (unfold zlen; lia).
    set (b := mkSl (s_arr (k_buf k)) (s_off (k_buf k)) (length (r_data r) + 1) (s_cap (k_buf k))).
    assert (Vb : valid h' b).
    { destruct (F1 _ V) as [X Y]. split; [cbn; unfold zlen in HR; lia|]. exact Y. }
    assert (Hb : rd h' b = firstn (length (r_data r) + 1) (rd h' (k_buf k))).
    { unfold rd. cbn. rewrite firstn_firstn, Nat.min_l; [reflexivity|]. unfold zlen in HR. lia. }
    destruct (parse_reply m h' b (r_data r) Vb) as (hdr & next & E1 & _ & E2 & oh & E3).
    { cbn. unfold zlen in HR. lia. }
    { intros o n Hon. rewrite Hb, field_firstn by (unfold zlen in HR; lia).
      rewrite F2. apply field_app_l. unfold zlen in HR. lia. }
    rewrite E1, bind_lift_ok. cbv beta iota. rewrite E2. unfold reply_code, NlMsgError.
    split; [|auto].
    destruct (num m (field (r_data r) 4 2) =? 2).
    + rewrite E3, bind_lift_ok. cbn [snd].
      destruct (signed32 (num m (field (r_data r) 16 4)) =? 0); reflexivity.
    + reflexivity.
Qed.

Lemma nfq_query_run m k hdr data e w :
  valid (w_heap w) (k_buf k) -> (0 < s_len (k_buf k))%nat ->
  replies_within 20 (Z.of_nat (s_len (k_buf k))) e ->
  exists res w' new,
    nfq_query m k hdr data e w = (Ok res, w') /\
    w_st w' = w_st w /\ w_tr w' = w_tr w ++ new /\
    one_request m (k_fd k) (Z.of_nat (s_len (k_buf k))) (hdr_bytes m hdr ++ data) new res /\
    length (w_heap w') = length (w_heap w) /\
    (forall s, valid (w_heap w) s -> valid (w_heap w') s) /\
    (forall a, a <> s_arr (k_buf k) -> arr (w_heap w') a = arr (w_heap w) a).
Proof.
  intros V P R. unfold nfq_query, nfq_send. rewrite !bind_assoc.
  rewrite send_bytes_ok, bind_lift_ok. rewrite !bind_assoc. rewrite bind_do_call.
  set (b := hdr_bytes m hdr ++ data). set (c1 := KSendto (k_fd k) b 0).
  set (r1 := e (w_tr w) c1).
  destruct (r_err r1) as [en|] eqn:E1.
  - rewrite bind_ret. eexists _, _, [(c1, r1)]. split; [reflexivity|]. cbn.
    split; [reflexivity|]. split; [reflexivity|]. split; [|auto].
    left. exists r1, en. auto.
  - rewrite bind_ret.
    set (w1 := mkW (w_st w) (w_heap w) (w_tr w ++ [(c1, r1)])).
    destruct (nfq_recv_run m k e w1 V P (R (w_tr w) b r1 (k_fd k) (Z.of_nat (s_len (k_buf k))))) as (h' & E & L' & V' & O').
    rewrite E. cbn [w1 w_st w_heap w_tr] in *.
    eexists _, _, _. split; [reflexivity|]. cbn [w_st w_heap w_tr].
    split; [reflexivity|]. rewrite <- app_assoc. split; [reflexivity|]. split; [|auto].
    right. eexists r1, _. split; [exact E1|]. split; [reflexivity|].
    apply ack_facts; [exact E1|reflexivity].
Qed.

(** the datagram goes out whatever the reply is *)
Lemma nfq_query_sends m k hdr data e w :
  exists r1 new, w_tr (snd (nfq_query m k hdr data e w)) =
    w_tr w ++ (KSendto (k_fd k) (hdr_bytes m hdr ++ data) 0, r1) :: new /\
    existsb is_send new = false.
Proof.
  unfold nfq_query, nfq_send. rewrite !bind_assoc.
  rewrite send_bytes_ok, bind_lift_ok. rewrite !bind_assoc. rewrite bind_do_call.
  set (b := hdr_bytes m hdr ++ data). set (c1 := KSendto (k_fd k) b 0).
  set (r1 := e (w_tr w) c1). exists r1.
  destruct (r_err r1) as [en|] eqn:E1.
  - rewrite bind_ret. exists []. cbn. auto.
  - rewrite bind_ret.
    set (w1 := mkW (w_st w) (w_heap w) (w_tr w ++ [(c1, r1)])).
    set (c2 := KRecvfrom (k_fd k) (Z.of_nat (s_len (k_buf k))) 0).
    exists [(c2, e (w_tr w1) c2)]. split; [|reflexivity].
    change ((c1, r1) :: [(c2, e (w_tr w1) c2)]) with ([(c1, r1)] ++ [(c2, e (w_tr w1) c2)]).
    rewrite app_assoc. change (w_tr w ++ [(c1, r1)]) with (w_tr w1).
    unfold nfq_recv.
    destruct (r_err (e (w_tr w1) c2)) as [en|] eqn:E2.
    + unfold c2 in E2. rewrite (bind_ok _ _ _ _ _ _ (recvfrom_err _ _ _ _ _ _ E2)). reflexivity.
    + pose proof (recvfrom_ok (k_fd k) (k_buf k) 0 e w1 E2) as E. cbv zeta in E.
      rewrite (bind_ok _ _ _ _ _ _ E). clear E.
      set (w2 := mkW _ _ _). fold c2. 
      assert (forall T (x : res T) f, (forall a, w_tr (snd ((f a : M nfq (option gerr)) e w2)) = w_tr w2) ->
                w_tr (snd (mbind (lift x) f e w2)) = w_tr w2) as HL.
      { intros T x f Hf. unfold mbind, lift. destruct x; cbn; auto. }
      change (w_tr w1 ++ [(c2, e (w_tr w1) c2)]) with (w_tr w2).
      cbv beta iota. apply HL. intros b2. rewrite bind_get_heap. apply HL.
      intros [[[hd|] nx] er]; [|reflexivity].
      destruct (n_type hd =? NlMsgError); [|reflexivity]. apply HL.
      intros z. destruct (snd z =? 0); reflexivity.
Qed.
