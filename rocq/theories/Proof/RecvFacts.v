(** One Recv, exactly. *)
From Verif Require Export Proof.Verdict Proof.NfqStart Spec.LoopSpec.

(** every slot stays, and is old or the window of a complete attribute of its type *)
Definition slot_window (m : endian) (h : heap) (buf : slice) (t : Z) (s : slice) : Prop :=
  exists p, attr_complete m (rd h buf) p /\ (4 <= attr_len m (rd h buf) p)%nat /\
    attr_type m (rd h buf) p = t /\
    s = mkSl (s_arr buf) (s_off buf + (p + 4)) (attr_len m (rd h buf) p - 4) (s_cap buf - (p + 4)).
Lemma slot_window_valid m h buf t s :
  valid h buf -> slot_window m h buf t s -> valid h s /\ window_in buf s.
Proof.
  intros V (p & (H1 & H2 & H3) & H4 & H5 & ->). rewrite (valid_len _ _ V) in H2, H3.
  destruct V as [V1 V2]. split.
  - split; cbn [s_len s_cap s_arr s_off]; [lia|].
    destruct V2 as [V2|[V2 V3]]; [left; lia|right; split; [exact V2|lia]].
  - unfold window_in. cbn [s_len s_cap s_arr s_off]. lia.
Qed.
Lemma loop_slots m h buf fuel :
  valid h buf -> Z.of_nat (s_len buf) <= 4294967292 -> is_bytes (rd h buf) ->
  forall p hdr hdr' i er, visited m h buf p ->
  nfattr_loop fuel m h buf (Z.of_nat p) hdr = Ok (hdr', i, er) ->
  forall t, match amap_get hdr t with
            | None => amap_get hdr' t = None
            | Some s => exists s', amap_get hdr' t = Some s' /\ (s' = s \/ slot_window m h buf t s')
            end.
Proof.
  intros V HL HB. induction fuel as [|fuel IH]; intros p hdr hdr' i er Hv; [discriminate|].
  assert (Same : forall t, match amap_get hdr t with
            | None => amap_get hdr t = None
            | Some s => exists s', amap_get hdr t = Some s' /\ (s' = s \/ slot_window m h buf t s')
            end).
  { intros t. destruct (amap_get hdr t); eauto. }
  rewrite (loop_step m h buf V HL HB).
  destruct (Nat.ltb_spec p (s_len buf)) as [A|A].
  2:{ intros E. injection E as <- <- <-. exact Same. }
  destruct (Nat.ltb_spec (s_len buf) (p + 4)) as [C|C].
  { intros E. injection E as <- <- <-. exact Same. }
  destruct (Nat.leb_spec (p + decl m h buf p) (s_len buf)) as [D|D].
  2:{ intros E. injection E as <- <- <-. exact Same. }
  assert (Hn : visited m h buf (al4 (p + decl m h buf p))) by (constructor; assumption).
  destruct (atyp m h buf p <? nfqaMax) eqn:T; [|intros E; exact (IH _ _ _ _ _ Hn E)].
  destruct (amap_get hdr (atyp m h buf p)) as [o|] eqn:G2; [|intros E; exact (IH _ _ _ _ _ Hn E)].
  destruct (Nat.ltb_spec (decl m h buf p) 4) as [F|F]; [discriminate|].
  intros E t. pose proof (IH _ _ _ _ _ Hn E t) as K. rewrite amap_get_set in K.
  destruct (Z.eqb_spec (atyp m h buf p) t) as [Q|Q]; [|exact K].
  destruct (amap_get hdr t) as [s|]; [|exact K].
  destruct K as (s' & K1 & [K2|K2]); exists s'; split; auto.
  right. subst s'. exists p. split; [|split; [|split]].
  - split; [apply visited_attr_start; assumption|]. rewrite (valid_len _ _ V). split; [exact C|exact D].
  - exact F.
  - exact Q.
  - reflexivity.
Qed.
Lemma parser_slots m h buf fuel hdr hdr' lo er :
  valid h buf -> Z.of_nat (s_len buf) <= 4294967292 -> is_bytes (rd h buf) ->
  NetlinkMessageToNfAttrStruct fuel m h buf hdr = Ok (hdr', lo, er) ->
  forall t, match amap_get hdr t with
            | None => amap_get hdr' t = None
            | Some s => exists s', amap_get hdr' t = Some s' /\ (s' = s \/ slot_window m h buf t s')
            end.
Proof.
  intros V HL HB. unfold NetlinkMessageToNfAttrStruct.
  destruct (nfattr_loop fuel m h buf 0 hdr) as [[[h1 i] e1]| |] eqn:E; cbn [rbind]; try discriminate.
  pose proof (loop_slots m h buf fuel V HL HB 0%nat hdr h1 i e1 (visited_0 m h buf) E) as Hs.
  destruct e1 as [x|].
  - intros Q. injection Q as <- <- <-. exact Hs.
  - destruct (Z.of_nat (s_len buf) <=? i).
    + intros Q. injection Q as <- <- <-. exact Hs.
    + destruct (resl_from buf i); cbn [rbind]; try discriminate.
      intros Q. injection Q as <- <- <-. exact Hs.
Qed.

(** the receive buffer after a datagram *)
Definition recv_heap (w : world nfq) (d : bytes) : heap := scopy (w_heap w) (q_buf (w_st w)) d.
Definition recv_win (w : world nfq) (d : bytes) (k : nat) : slice :=
  let buf := q_buf (w_st w) in
  mkSl (s_arr buf) (s_off buf + k) (length d - k) (s_cap buf - k).

Section RECV.
Context (m : endian) (e : env) (w : world nfq) (fd : Z).
Hypothesis Q : queue_ready w fd.
Let c := KRecvfrom fd 76800 256.
Let r := e (w_tr w) c.
Let d := received r.
Let tr' := w_tr w ++ [(c, r)].

Lemma buf_pos : (0 < s_len (q_buf (w_st w)))%nat.
Proof. pose proof (qr_len _ _ Q). lia. Qed.
Lemma len_d : (length d <= s_len (q_buf (w_st w)))%nat.
Proof. pose proof (qr_len _ _ Q). unfold d, received. rewrite firstn_length. lia. Qed.

Lemma recv_err fuel en :
  r_err r = Some en ->
  Recv fuel m e w = (Ok (None, None, Some (ERecv en)), mkW (w_st w) (w_heap w) tr').
Proof.
  intros E. unfold Recv. mstep. rewrite (qr_handle _ _ Q).
  unfold r, c in E. rewrite <- (qr_len _ _ Q) in E.
  rewrite (bind_ok _ _ _ _ _ _ (recvfrom_err fd (q_buf (w_st w)) 256 e w en E)).
  unfold ret, tr', r, c. rewrite (qr_len _ _ Q). reflexivity.
Qed.

Lemma recv_heap_facts :
  (forall s, valid (w_heap w) s -> valid (recv_heap w d) s) /\
  length (recv_heap w d) = length (w_heap w) /\
  (forall a, a <> s_arr (q_buf (w_st w)) -> arr (recv_heap w d) a = arr (w_heap w) a) /\
  (forall k, (k <= length d)%nat ->
     valid (recv_heap w d) (recv_win w d k) /\ rd (recv_heap w d) (recv_win w d k) = skipn k d).
Proof.
  destruct (scopy_facts (w_heap w) (q_buf (w_st w)) d (qr_buf _ _ Q) buf_pos len_d) as (F1 & F2 & F3 & F4).
  fold (recv_heap w d) in F1, F2, F3, F4.
  split; [exact F1|]. split; [exact F3|]. split; [exact F4|]. intros k Hk.
  pose proof len_d as LD. pose proof (qr_cap _ _ Q) as C.
  destruct (F1 _ (qr_buf _ _ Q)) as [V1 V2]. split.
  - split; cbn [recv_win s_len s_cap s_arr s_off]; [lia|].
    destruct V2 as [V2|[V2 V3]]; [left; lia|right; split; [exact V2|lia]].
  - unfold recv_win. rewrite rd_window by lia. rewrite F2.
    rewrite skipn_app_le by exact Hk. rewrite firstn_app_exact; [reflexivity|].
    rewrite skipn_length. lia.
Qed.

Lemma recv_run fuel :
  r_err r = None ->
  Recv fuel m e w =
  if (length d <? 20)%nat then (Panic, mkW (w_st w) (recv_heap w d) tr')
  else if negb (reply_code m d =? 0)
  then (Ok (None, None, Some (ENetlink (reply_code m d))), mkW (w_st w) (recv_heap w d) tr')
  else match NetlinkMessageToNfAttrStruct fuel m (recv_heap w d) (recv_win w d 20) (q_attr (w_st w)) with
       | Ok (tbl, _, er) =>
           (Ok (Some (mkGen (num BE (field d 16 1)) (num BE (field d 17 1)) (num BE (field d 18 2))),
                Some tbl, er),
            mkW (set_attr (w_st w) tbl) (recv_heap w d) tr')
       | Panic => (Panic, mkW (w_st w) (recv_heap w d) tr')
       | NoFuel => (NoFuel, mkW (w_st w) (recv_heap w d) tr')
       end.
Proof.
  intros E. unfold Recv. mstep. rewrite (qr_handle _ _ Q). cbn [k_fd].
  assert (E' : r_err (e (w_tr w) (KRecvfrom fd (Z.of_nat (s_len (q_buf (w_st w)))) 256)) = None)
    by (rewrite (qr_len _ _ Q); exact E).
  rewrite (bind_ok _ _ _ _ _ _ (recvfrom_ok fd (q_buf (w_st w)) 256 e w E')). clear E'.
  rewrite (qr_len _ _ Q). fold c r.
  assert (Hd : firstn (s_len (q_buf (w_st w))) (r_data r) = d).
  { unfold d, received. f_equal. pose proof (qr_len _ _ Q). lia. }
  rewrite Hd. fold (recv_heap w d). fold tr'.
  destruct recv_heap_facts as (F1 & F3 & F4 & F5). pose proof len_d as LD.
  pose proof (qr_cap _ _ Q) as C.
  unfold resl_to. rewrite reslice_ok by (unfold zlen; lia). mstep. mstep.
  change (Z.to_nat 0) with 0%nat. rewrite !Nat.sub_0_r.
  replace (Z.to_nat (zlen d)) with (length d) by (unfold zlen; lia).
  set (b := mkSl _ _ (length d) _).
  assert (Eb : b = recv_win w d 0) by (unfold b, recv_win; f_equal; lia).
  destruct (F5 0%nat ltac:(lia)) as [Vb Rb]. rewrite <- Eb in Vb, Rb. cbn [skipn] in Rb.
  destruct (Nat.ltb_spec (length d) 20) as [S|S].
  - destruct (Nat.lt_ge_cases (length d) 16) as [S1|S1].
    + rewrite NetlinkMessageToStruct_short by exact S1. reflexivity.
    + destruct (NetlinkMessageToStruct_ok m (recv_heap w d) b Vb S1)
        as (l & t & f & sq & p & _ & _ & Ht & _ & _ & _ & ->). mstep. cbn [n_type].
      set (nx := mkSl _ _ _ _).
      assert (Vn : valid (recv_heap w d) nx) by (apply valid_from; [exact Vb|exact S1]).
      destruct (t =? NlMsgError).
      * rewrite (proj1 (err_parse_panics_iff m (recv_heap w d) nx Vn)) by (unfold nx, b; cbn [s_len]; lia). reflexivity.
      * mstep. rewrite (parse_gen_short _ nx Vn) by (unfold nx, b; cbn [s_len]; lia). reflexivity.
  - destruct (parse_reply m (recv_heap w d) b d Vb) as (hdr & next & P1 & P2 & P3 & oh & P4).
    + unfold b. cbn [s_len]. exact S.
    + intros o n Hon. rewrite Rb. reflexivity.
    + rewrite P1. mstep. unfold reply_code. rewrite P3. change NlMsgError with 2.
      assert (Vn : valid (recv_heap w d) next) by (subst next; apply valid_from; [exact Vb|unfold b; cbn [s_len]; lia]).
      assert (Rn : rd (recv_heap w d) next = skipn 16 d) by (subst next; rewrite rd_from, Rb; reflexivity).
      assert (G : NetlinkMessageToNfGenStruct (recv_heap w d) next =
        Ok (mkGen (num BE (field d 16 1)) (num BE (field d 17 1)) (num BE (field d 18 2)),
            recv_win w d 20)).
      { rewrite (parse_gen _ next (skipn 16 d) Vn); [|subst next; unfold b; cbn [s_len]; lia|exact Rn].
        rewrite !field_skipn. subst next. unfold b. cbn [s_arr s_off s_len s_cap Nat.add].
        unfold recv_win. do 2 f_equal. f_equal; lia. }
      assert (Tail : forall (k : option gerr), k = None ->
        (let! g := lift (NetlinkMessageToNfGenStruct (recv_heap w d) next)
         in let '(nfgenmsg, payload) := g in
            let! z := lift (NetlinkMessageToNfAttrStruct fuel m (recv_heap w d) payload (q_attr (w_st w))) in
            let '(tbl, _, er) := z in
            let! q := get_st in
            let! _ := put_st (set_attr q tbl) in
            ret (Some nfgenmsg, Some tbl, er)) e (mkW (w_st w) (recv_heap w d) tr') =
        match NetlinkMessageToNfAttrStruct fuel m (recv_heap w d) (recv_win w d 20) (q_attr (w_st w)) with
        | Ok (tbl, _, er) =>
           (Ok (Some (mkGen (num BE (field d 16 1)) (num BE (field d 17 1)) (num BE (field d 18 2))),
                Some tbl, er),
            mkW (set_attr (w_st w) tbl) (recv_heap w d) tr')
        | Panic => (Panic, mkW (w_st w) (recv_heap w d) tr')
        | NoFuel => (NoFuel, mkW (w_st w) (recv_heap w d) tr')
        end).
      { intros _ _. rewrite G. mstep.
        destruct (NetlinkMessageToNfAttrStruct _ _ _ _ _) as [[[tbl lo] er]| |]; reflexivity. }
      destruct (num m (field d 4 2) =? 2).
      * mstep. rewrite P4. mstep. mstep. cbn [snd].
        destruct (signed32 (num m (field d 16 4)) =? 0); cbn [negb]; [|reflexivity].
        exact (Tail None eq_refl).
      * mstep. cbn [negb Z.eqb]. exact (Tail None eq_refl).
Qed.

Lemma ready_after st' tr0 :
  st' = w_st w \/ (exists fuel tbl lo er,
     NetlinkMessageToNfAttrStruct fuel m (recv_heap w d) (recv_win w d 20) (q_attr (w_st w)) = Ok (tbl, lo, er)
     /\ st' = set_attr (w_st w) tbl /\ (20 <= length d)%nat /\ is_bytes d) ->
  queue_ready (mkW st' (recv_heap w d) tr0) fd.
Proof.
  intros H. destruct recv_heap_facts as (F1 & F3 & F4 & F5). destruct Q as [q1 q2 q3 q4 q5 q6 q7 q8 q9].
  assert (S0 : q_handle st' = q_handle (w_st w) /\ q_buf st' = q_buf (w_st w) /\
               q_hdr st' = q_hdr (w_st w) /\ q_num st' = q_num (w_st w)).
  { destruct H as [->|(fuel & tbl & lo & er & _ & -> & _)]; cbn; auto. }
  destruct S0 as (S1 & S2 & S3 & S4).
  constructor; cbn [w_st w_heap]; rewrite ?S1, ?S2, ?S3, ?S4; auto.
  intros t Ht. destruct (q9 t Ht) as (s & A1 & A2 & A3).
  destruct H as [->|(fuel & tbl & lo & er & HP & -> & L20 & HB)].
  - exists s. auto.
  - cbn [q_attr set_attr]. destruct (F5 20%nat L20) as [V20 R20].
    assert (LL : Z.of_nat (s_len (recv_win w d 20)) <= 4294967292).
    { cbn [recv_win s_len]. pose proof len_d. lia. }
    pose proof (parser_slots _ _ _ _ _ _ _ _ V20 LL
                  ltac:(rewrite R20; apply is_bytes_skipn, HB) HP t) as P.
    rewrite A1 in P. destruct P as (s' & P1 & [->|P2]).
    + exists s. auto.
    + apply (slot_window_valid _ _ _ _ _ V20) in P2 as [P2 P3].
      exists s'. split; [exact P1|]. split; [exact P2|]. destruct P3 as (P3 & _).
      cbn [recv_win s_arr] in P3. rewrite P3. auto.
Qed.
End RECV.

(** ** What GetPacketInfo reads *)
Lemma packet_info m h tbl s1 s3 s10 :
  amap_get tbl 1 = Some s1 -> amap_get tbl 3 = Some s3 -> amap_get tbl 10 = Some s10 ->
  GetPacketInfo m h (Some tbl) =
  if ((length (rd h s1) <? 4) || (length (rd h s3) <? 4))%nat then Panic
  else Ok (num m (field (rd h s1) 0 4), num BE (field (rd h s3) 0 4), s10).
Proof.
  intros E1 E3 E10. unfold GetPacketInfo, NfqaPacketHdr, NfqaMark, NfqaPayload.
  rewrite E1, E3, E10, NativeEndian_id.
  destruct (Nat.ltb_spec (length (rd h s1)) 4) as [L|L].
  { rewrite get32_panic by exact L. reflexivity. }
  rewrite num4 by exact L. cbn [rbind orb].
  destruct (Nat.ltb_spec (length (rd h s3)) 4) as [L3|L3].
  { rewrite get32_panic by exact L3. reflexivity. }
  rewrite num4 by exact L3. reflexivity.
Qed.

Lemma packet_datagram_code m d l : packet_datagram m d l -> reply_code m d = 0.
Proof. intros (_ & _ & _ & H & _). unfold reply_code. rewrite H. reflexivity. Qed.

(** ** C12 *)
Lemma recv_packet m fuel e w fd d l :
  queue_ready w fd ->
  let r := e (w_tr w) (KRecvfrom fd 76800 256) in
  r_err r = None -> r_data r = d -> packet_datagram m d l -> (Z.to_nat 19201 < fuel)%nat ->
  exists g tbl w',
    Recv fuel m e w = (Ok (Some g, Some tbl, None), w') /\
    w_st w' = set_attr (w_st w) tbl /\
    w_heap w' = recv_heap w d /\
    w_tr w' = w_tr w ++ [(KRecvfrom fd 76800 256, r)] /\
    queue_ready w' fd /\ QueueID g = num BE (field d 18 2) /\
    table_filled (w_heap w') (recv_win w d 20) l (q_attr (w_st w)) tbl.
Proof.
  intros Q r E D P Hf.
  assert (Ed : received r = d).
  { unfold received. rewrite D. apply firstn_all2. destruct P as (_ & _ & P & _). unfold zlen in P. lia. }
  pose proof (recv_run m e w fd Q fuel E) as R. fold r in R. rewrite Ed in R.
  pose proof (recv_heap_facts e w fd Q) as F. fold r in F. rewrite Ed in F. destruct F as (F1 & F3 & F4 & F5).
  pose proof (packet_datagram_code m d l P) as C.
  destruct P as (HB & L20 & LM & T & A).
  destruct (F5 20%nat L20) as [V20 R20].
  destruct (attr_parser_wellformed fuel m (recv_heap w d) (recv_win w d 20) (q_attr (w_st w)) l)
    as (tbl & EP & TF).
  - exact V20.
  - rewrite R20. apply is_bytes_skipn, HB.
  - cbn [recv_win s_len]. unfold zlen in LM. lia.
  - rewrite R20. exact A.
  - cbn [recv_win s_len]. unfold zlen in LM. lia.
  - rewrite EP, C in R. destruct (Nat.ltb_spec (length d) 20); [lia|].
    cbn [Z.eqb negb] in R.
    eexists _, tbl, _. split; [exact R|]. cbn [w_st w_heap w_tr].
    split; [reflexivity|]. split; [reflexivity|]. split; [reflexivity|].
    split; [|split; [reflexivity|exact TF]].
    pose proof (ready_after m e w fd Q (set_attr (w_st w) tbl)) as RA. fold r in RA. rewrite Ed in RA.
    apply RA. right. exists fuel, tbl, None, None. auto.
Qed.

Lemma table_slot h buf l tbl tbl' t s v :
  table_filled h buf l tbl tbl' -> t < 11 -> amap_get tbl t = Some s -> last_attr t l = Some v ->
  exists s', amap_get tbl' t = Some s' /\ rd h s' = v /\ window_in buf s'.
Proof.
  intros TF Ht G L. destruct (TF t) as [_ H]. rewrite L in H. apply H.
  unfold requested. rewrite G. destruct (Z.ltb_spec t 11); [reflexivity|lia].
Qed.
Lemma table_keep h buf l tbl tbl' t s :
  table_filled h buf l tbl tbl' -> amap_get tbl t = Some s -> last_attr t l = None ->
  amap_get tbl' t = Some s.
Proof.
  intros TF G L. destruct (TF t) as [H0 H]. rewrite L, G in H. rewrite G in H0.
  destruct (requested tbl t); auto.
Qed.

Lemma recv_delivers m fuel e w fd d l id mark payload :
  queue_ready w fd ->
  let r := e (w_tr w) (KRecvfrom fd 76800 256) in
  r_err r = None -> r_data r = d -> packet_datagram m d l ->
  has_id m l id -> has_mark l mark -> has_payload l payload -> (Z.to_nat 19201 < fuel)%nat ->
  exists g tbl s w',
    Recv fuel m e w = (Ok (Some g, Some tbl, None), w') /\
    GetPacketInfo m (w_heap w') (Some tbl) = Ok (id, mark, s) /\ rd (w_heap w') s = payload /\
    QueueID g = num BE (field d 18 2) /\ queue_ready w' fd.
Proof.
  intros Q r E D P (hv & I1 & I2 & I3) (mv & M1 & M2 & M3) PL Hf.
  destruct (recv_packet m fuel e w fd d l Q E D P Hf) as (g & tbl & w' & R & S1 & S2 & S3 & Q' & G & TF).
  destruct (qr_slots _ _ Q 1 ltac:(auto)) as (s1 & A1 & _).
  destruct (qr_slots _ _ Q 3 ltac:(auto)) as (s3 & A3 & _).
  destruct (qr_slots _ _ Q 10 ltac:(auto)) as (s10 & A10 & _).
  destruct (table_slot _ _ _ _ _ 1 _ _ TF eq_refl A1 I1) as (t1 & B1 & C1 & _).
  destruct (table_slot _ _ _ _ _ 3 _ _ TF eq_refl A3 M1) as (t3 & B3 & C3 & _).
  destruct (table_slot _ _ _ _ _ 10 _ _ TF eq_refl A10 PL) as (t10 & B10 & C10 & _).
  exists g, tbl, t10, w'. split; [exact R|].
  rewrite (packet_info m (w_heap w') tbl t1 t3 t10 B1 B3 B10), C1, C3.
  destruct (Nat.ltb_spec (length hv) 4); [lia|]. destruct (Nat.ltb_spec (length mv) 4); [lia|].
  cbn [orb]. rewrite <- I3, <- M3. auto.
Qed.

(** ** C20: the crash conditions of Recv *)
Lemma recv_crashes_short m fuel e w fd :
  queue_ready w fd ->
  let r := e (w_tr w) (KRecvfrom fd 76800 256) in
  r_err r = None -> (length (r_data r) < 20)%nat ->
  exists w', Recv fuel m e w = (Panic, w').
Proof.
  intros Q r E L. pose proof (recv_run m e w fd Q fuel E) as R. fold r in R.
  assert (Ed : received r = r_data r) by (unfold received; apply firstn_all2; lia).
  rewrite Ed in R. destruct (Nat.ltb_spec (length (r_data r)) 20); [|lia]. eauto.
Qed.
Lemma recv_survives m fuel e w fd :
  queue_ready w fd -> bytes_env e ->
  let r := e (w_tr w) (KRecvfrom fd 76800 256) in
  let d := received r in
  (r_err r = None -> (20 <= length d)%nat) ->
  (r_err r = None -> reply_code m d = 0 -> forall p, attr_complete m (skipn 20 d) p ->
     (4 <= attr_len m (skipn 20 d) p)%nat) ->
  (Z.to_nat 19201 < fuel)%nat ->
  exists res w', Recv fuel m e w = (Ok res, w') /\ queue_ready w' fd.
Proof.
  intros Q BE r d L A Hf. destruct (r_err r) as [en|] eqn:E.
  - rewrite (recv_err m e w fd Q fuel en E). eexists _, _. split; [reflexivity|].
    destruct Q; constructor; auto.
  - specialize (L eq_refl). specialize (A eq_refl).
    rewrite (recv_run m e w fd Q fuel E). fold r. fold d.
    destruct (Nat.ltb_spec (length d) 20); [lia|].
    assert (HB : is_bytes d) by (unfold d, received; apply is_bytes_firstn, BE).
    destruct (Z.eqb_spec (reply_code m d) 0) as [C|C]; cbn [negb].
    + pose proof (recv_heap_facts e w fd Q) as F. fold r in F. fold d in F. destruct F as (F1 & F3 & F4 & F5).
      destruct (F5 20%nat L) as [V20 R20].
      assert (LM : (length d <= Z.to_nat 76800)%nat) by (unfold d, received; rewrite firstn_length; lia).
      destruct (attr_parser_returns m (recv_heap w d) (recv_win w d 20) (q_attr (w_st w)) fuel)
        as (tbl & er & EP & _).
      * exact V20.
      * rewrite R20. apply is_bytes_skipn, HB.
      * cbn [recv_win s_len]. lia.
      * rewrite R20. exact (A C).
      * cbn [recv_win s_len]. lia.
      * rewrite EP. eexists _, _. split; [reflexivity|].
        apply (ready_after m e w fd Q). right. exists fuel, tbl, None, er. auto.
    + eexists _, _. split; [reflexivity|]. apply (ready_after m e w fd Q). auto.
Qed.
