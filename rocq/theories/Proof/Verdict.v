(** C09, C10, C11, C14: verdict messages. *)
From Verif Require Export Proof.HeapFacts Proof.CtFacts Spec.VerdictSpec.

Lemma put32_native m v : is_u32 v -> put32 m v = native32 m v.
Proof. intros H. rewrite <- native32_put by exact H. now rewrite NativeEndian_id. Qed.

(** ** The header buffer of SetVerdict2 *)
Definition sv2_bytes (m : endian) (num verdict mark al id : Z) : bytes :=
  hdr_bytes m (mkNlh (40 + al) 769 1 0 0) ++ gen_bytes (mkGen 0 0 num) ++
  attr_bytes m (mkAttr 12 2) ++ (put32 BE verdict ++ put32 m id) ++
  attr_bytes m (mkAttr 8 3) ++ put32 BE mark.
Lemma sv2_bytes_length m num v mk al id : length (sv2_bytes m num v mk al id) = 40%nat.
Proof. destruct m; reflexivity. Qed.
Lemma sv2_hdr_spec m num v mk pl id :
  is_u16 num ->
  let al := u16 (u16 pl + 4) in
  exists ws, sv2_hdr m num v mk pl id = (ws, 40, mkAttr al 10) /\
    contiguous 0 ws /\ payload ws = sv2_bytes m num v mk al id.
Proof.
  intros N al. red in N.
  assert (HA : 0 <= al < 65536) by (unfold al, u16; lia).
  unfold sv2_hdr. cbn [BuildNfgenMsg BuildNfAttrMsg].
  eexists. split; [reflexivity|]. fold al.
  unfold SerializeNlMsgHdrBuf, NfqGenMsg_ToWireFormatBuf, NfAttr_ToWireFormatBuf,
    VerdictHdr_ToWireFormatBuf, MarkHdr_ToWireFormatBuf, verdicthdr_stores, nfattr_stores,
    nlmsghdr_stores. rewrite NativeEndian_id.
  split.
  - destruct m; cbn; repeat split; try reflexivity.
  - unfold sv2_bytes.
    replace (u16 num) with num by (unfold u16; lia).
    replace (n_len (set_n_len _ _)) with (40 + al).
    + destruct m; reflexivity.
    + cbn [set_n_len n_len a_len].
      change (u32 _) with (u32 (40 + al)). unfold u32. lia.
Qed.

Lemma verdict_pad_any n : verdict_pad (Z.of_nat n) = pad4 n.
Proof.
  unfold verdict_pad, pad4, gmake. unfold NfaAlign.
  assert (X : forall y, Z.ldiff y 3 = 4 * (y / 4)).
  { intros y. change 3 with (Z.ones 2). rewrite Z.ldiff_ones_r, Z.shiftl_mul_pow2, Z.shiftr_div_pow2 by lia. change (2 ^ 2) with 4. lia. }
  rewrite X. f_equal. unfold u16, al4. lia.
Qed.
Lemma verdict_pad_spec n :
  (n <= Z.to_nat 65532)%nat -> verdict_pad (Z.of_nat n) = pad4 n.
Proof.
  intros H. unfold verdict_pad, pad4, gmake.
  assert (E : u16 (Z.of_nat n) = Z.of_nat n) by (unfold u16; lia).
  rewrite E, NfaAlign_spec by (red; lia).
  destruct (Z.leb_spec (Z.of_nat n) 65532); [|lia].
  f_equal. unfold u16, al4. lia.
Qed.
Lemma verdict_pad_le x : (length (verdict_pad x) <= 3)%nat.
Proof.
  unfold verdict_pad, gmake. rewrite repeat_length.
  assert (H : 0 <= u16 x < 65536) by (unfold u16; lia).
  rewrite NfaAlign_spec by (red; lia).
  destruct (Z.leb_spec (u16 x) 65532); unfold u16 in *; lia.
Qed.
Lemma al4_65531 n : (n <= Z.to_nat 65532)%nat -> Z.of_nat (al4 n) <= 65532.
Proof. unfold al4. lia. Qed.

(** append of the pad *)
Lemma append_pad_run grow p pad e (w : world nfq) :
  valid (w_heap w) p -> (0 < s_len p)%nat ->
  exists h' p', append_pad grow p pad e w = (Ok p', mkW (w_st w) h' (w_tr w)) /\
    appended (w_heap w) p pad h' p'.
Proof.
  intros V P. unfold append_pad. destruct pad as [|x pad].
  - exists (w_heap w), p. split; [destruct w; reflexivity|].
    constructor; auto; [now rewrite app_nil_r|]. rewrite splice_nil. destruct (_ <=? _)%nat; reflexivity.
  - mstep. pose proof (gappend_spec grow (w_heap w) p (x :: pad) V P) as G.
    destruct (gappend grow (w_heap w) p (x :: pad)) as [h' p']. cbn [fst snd] in G.
    exists h', p'. split; [reflexivity|exact G].
Qed.

Lemma iov_read_prefix h s n :
  valid h s -> (0 < s_len s)%nat -> (n <= s_len s)%nat ->
  iov_read h s (Z.of_nat n) = Ok (firstn n (rd h s)).
Proof.
  intros V P L. unfold iov_read. destruct (Nat.eqb_spec (s_len s) 0); [lia|].
  unfold rd. rewrite firstn_firstn, Nat2Z.id. do 2 f_equal. lia.
Qed.
Lemma iov_read_all h s :
  valid h s -> (0 < s_len s)%nat -> iov_read h s (Z.of_nat (s_len s)) = Ok (rd h s).
Proof.
  intros V P. rewrite iov_read_prefix by (auto || lia).
  rewrite firstn_all2; [reflexivity|]. rewrite valid_len by exact V. lia.
Qed.

Lemma sendmsg_run fd iov e (w : world nfq) :
  exists new, sendmsg fd iov e w = (Ok tt, mkW (w_st w) (w_heap w) (w_tr w ++ new)) /\
    sends_one fd iov new.
Proof.
  unfold sendmsg. mstep. destruct (r_err (e (w_tr w) (KSendmsg fd iov))) as [en|] eqn:E.
  - mstep. eexists. split.
    + unfold ret. rewrite <- app_assoc. reflexivity.
    + eexists. right. eexists; eexists. split; [exact E|reflexivity].
  - eexists. split; [reflexivity|]. eexists. left. split; [exact E|reflexivity].
Qed.

(** ** C09 *)
Lemma sv2_message m num v mk id pkt :
  is_u16 num -> is_u32 v -> is_u32 mk -> is_u32 id -> (length pkt <= Z.to_nat 65531)%nat ->
  read_message m (sv2_bytes m num v mk (4 + zlen pkt) id ++
                  attr_bytes m (mkAttr (4 + zlen pkt) 10) ++ pkt ++ pad4 (length pkt)) =
  Some (verdict2_message m num v mk id pkt).
Proof.
  intros N V K I L. unfold is_u16, is_u32 in *. unfold sv2_bytes.
  set (body := attr_bytes m (mkAttr 12 2) ++ (put32 BE v ++ put32 m id) ++ [] ++
               attr_bytes m (mkAttr 8 3) ++ put32 BE mk ++ [] ++
               attr_bytes m (mkAttr (4 + zlen pkt) 10) ++ pkt).
  replace (_ ++ _) with (hdr_bytes m (mkNlh (40 + (4 + zlen pkt)) 769 1 0 0) ++
                          gen_bytes (mkGen 0 0 num) ++ body ++ pad4 (length pkt))
    by (unfold body; rewrite <- !app_assoc; reflexivity).
  assert (HB : length body = (24 + length pkt)%nat).
  { unfold body. rewrite !app_length, !attr_bytes_length, !put32_length. cbn [length]. lia. }
  rewrite (read_message_build m _ _ body _
             [verdict_attr m v id; (3, be32 mk); (10, pkt)]).
  - reflexivity.
  - unfold hdr_in_range, is_u32, is_u16. cbn [n_len n_type n_flags n_seq n_pid]. unfold zlen. lia.
  - red; cbn; lia.
  - red; cbn; lia.
  - exact N.
  - cbn [n_len]. unfold zlen. rewrite HB. lia.
  - rewrite HB. unfold pad4. rewrite repeat_length. unfold al4. lia.
  - unfold body, verdict_attr.
    rewrite (put32_be32 v), (put32_be32 mk), (put32_native m id) by assumption.
    apply attrs_of_cons; [destruct m; reflexivity|red; lia|red; lia|destruct m; reflexivity|].
    apply attrs_of_cons; [reflexivity|red; lia|red; lia|reflexivity|].
    apply attrs_of_last; [reflexivity|red; unfold zlen; lia|red; lia].
Qed.

Lemma pad_here h h1 h2 p p2 (pkt : bytes) : length pkt = s_len p -> appended h1 p (verdict_pad (zlen pkt)) h2 p2 ->
  arr h1 (s_arr p) = arr h (s_arr p) ->
  arr h2 (s_arr p) = if (al4 (s_len p) <=? s_cap p)%nat
     then splice (arr h (s_arr p)) (s_off p + s_len p) (pad4 (s_len p)) else arr h (s_arr p).
Proof.
  intros L AP E. rewrite (ap_here _ _ _ _ _ AP), E. unfold zlen. rewrite verdict_pad_any, L.
  replace (s_len p + length (pad4 (s_len p)))%nat with (al4 (s_len p)); [reflexivity|].
  unfold pad4. rewrite repeat_length. unfold al4. lia.
Qed.
Lemma SetVerdict2_raw m grow v mk id p pkt e w fd :
  verdict_ready w fd -> packet_in w p pkt -> pkt <> [] ->
  let al := u16 (u16 (zlen pkt) + 4) in
  exists w' new,
    SetVerdict2 m grow v mk (zlen pkt) id p e w = (Ok tt, w') /\
    w_tr w' = w_tr w ++ new /\
    sends_one fd [sv2_bytes m (q_num (w_st w)) v mk al id; attr_bytes m (mkAttr al 10);
                  pkt ++ verdict_pad (zlen pkt)] new /\
    w_st w' = w_st w /\ verdict_frame w w' p.
Proof.
  intros ((buf & Hh) & Vh & Lh & N) (Vp & Rp & Np) NE al.
  assert (L : (0 < length pkt)%nat) by (destruct pkt; [congruence|cbn; lia]).
  pose proof (valid_len _ _ Vp) as Lp. rewrite Rp in Lp.
  unfold SetVerdict2. mstep.
  destruct (sv2_hdr_spec m (q_num (w_st w)) v mk (zlen pkt) id N) as (ws & E1 & E2 & E3).
  rewrite E1.
  fold al in E1, E3.
  rewrite NfAttr_ToWireFormat_ok. mstep.
  rewrite (bind_ok _ _ _ _ _ _
             (m_stores_prefix (q_hdr (w_st w)) ws e w Vh ltac:(lia) E2
                ltac:(rewrite E3, sv2_bytes_length; lia))).
  rewrite E3. set (h1 := upd_arr _ _ _).
  pose proof Vh as [Vh1 [Vh2|[Vh2 Vh3]]]; [lia|].
  assert (K1 : forall x, valid (w_heap w) x -> valid h1 x).
  { intros x Vx. apply valid_upd; auto. apply splice_length. rewrite sv2_bytes_length. lia. }
  assert (R1 : rd h1 p = pkt).
  { unfold h1. rewrite rd_upd_other by auto. exact Rp. }
  destruct (append_pad_run grow p (verdict_pad (zlen pkt)) e (mkW (w_st w) h1 (w_tr w)))
    as (h2 & p2 & EP & AP); [apply K1, Vp|lia|].
  rewrite (bind_ok _ _ _ _ _ _ EP). cbn [w_heap w_st w_tr] in *. mstep.
  pose proof (ap_other _ _ _ _ _ AP (s_arr (q_hdr (w_st w))) ltac:(auto)
                ltac:(unfold h1; rewrite upd_arr_length by exact Vh2; exact Vh2)) as AH.
  assert (RH : rd h2 (q_hdr (w_st w)) = sv2_bytes m (q_num (w_st w)) v mk al id).
  { unfold rd. rewrite AH. unfold h1. rewrite arr_upd_same by exact Vh2. rewrite Lh.
    pose proof (sub_splice_same (arr (w_heap w) (s_arr (q_hdr (w_st w)))) (s_off (q_hdr (w_st w)))
                  (sv2_bytes m (q_num (w_st w)) v mk al id)) as D.
    unfold sub in D. rewrite sv2_bytes_length in D.
    replace (s_off (q_hdr (w_st w)) + 40 - s_off (q_hdr (w_st w)))%nat with 40%nat in D by lia.
    apply D. lia. }
  assert (EH : iov_read h2 (q_hdr (w_st w)) 40 = Ok (sv2_bytes m (q_num (w_st w)) v mk al id)).
  { replace 40 with (Z.of_nat (s_len (q_hdr (w_st w)))) by lia.
    rewrite iov_read_all; [|apply (ap_keep _ _ _ _ _ AP), K1, Vh|lia]. now rewrite RH. }
  rewrite EH. mstep.
  rewrite iov_read_all; [|apply (ap_valid _ _ _ _ _ AP)|].
  2:{ rewrite (ap_len _ _ _ _ _ AP). lia. }
  rewrite (ap_rd _ _ _ _ _ AP). cbn [w_heap]. rewrite R1. mstep.
  rewrite Hh. cbn [k_fd].
  match goal with |- context [sendmsg fd ?iov e ?w0] =>
    destruct (sendmsg_run fd iov e w0) as (new & ES & SO) end.
  exists (mkW (w_st w) h2 (w_tr w ++ new)), new. split; [exact ES|]. split; [reflexivity|].
  split; [|split; [reflexivity|]].
  - exact SO.
  - constructor; cbn [w_heap].
    + intros x Vx. apply (ap_keep _ _ _ _ _ AP), K1, Vx.
    + rewrite (ap_old _ _ _ _ _ AP). cbn [w_heap]. congruence.
    + pose proof (ap_grow _ _ _ _ _ AP) as G. unfold h1 in G.
      rewrite upd_arr_length in G by exact Vh2. exact G.
    + intros a Ha Hb Hc. rewrite (ap_other _ _ _ _ _ AP) by
        (auto; unfold h1; rewrite upd_arr_length by exact Vh2; exact Ha).
      unfold h1. apply arr_upd_other; auto.
    + intros i Hi. rewrite (ap_same _ _ _ _ _ AP) by exact Hi. unfold h1.
      rewrite arr_upd_other by auto. reflexivity.
    + intros i Hi. pose proof (verdict_pad_le (zlen pkt)). rewrite (ap_rest _ _ _ _ _ AP) by lia. unfold h1.
      rewrite arr_upd_other by auto. reflexivity.
    + apply (pad_here (w_heap w) h1 h2 p p2 pkt); auto. unfold h1. apply arr_upd_other; auto.
Qed.

Lemma SetVerdict2_run m grow v mk id p pkt e w fd :
  verdict_ready w fd -> packet_in w p pkt -> is_u32 v -> is_u32 mk -> is_u32 id ->
  (1 <= length pkt <= Z.to_nat 65531)%nat ->
  exists w' new,
    SetVerdict2 m grow v mk (zlen pkt) id p e w = (Ok tt, w') /\
    w_tr w' = w_tr w ++ new /\
    sends_message m fd (verdict2_message m (q_num (w_st w)) v mk id pkt) new /\
    w_st w' = w_st w /\ verdict_frame w w' p.
Proof.
  intros R P V K I L.
  destruct (SetVerdict2_raw m grow v mk id p pkt e w fd R P) as (w' & new & H1 & H2 & H3 & H4 & H5).
  { destruct pkt; [cbn in L; lia|discriminate]. }
  exists w', new. split; [exact H1|]. split; [exact H2|]. split; [|split; assumption].
  eexists. split; [exact H3|]. cbn [concat]. rewrite app_nil_r.
  replace (u16 (u16 (zlen pkt) + 4)) with (4 + zlen pkt) by (unfold u16, zlen; lia).
  unfold zlen at 3. rewrite verdict_pad_spec by lia.
  destruct R as (_ & _ & _ & N). apply sv2_message; auto; lia.
Qed.

(** lengths the 16-bit attribute length cannot hold *)
Lemma read_message_wrong_length m hdr r :
  is_u32 (n_len hdr) -> (al4 (Z.to_nat (n_len hdr)) <> 16 + length r)%nat ->
  read_message m (hdr_bytes m hdr ++ r) = None.
Proof.
  intros R NE. unfold read_message. red in R.
  replace (num m (field (hdr_bytes m hdr ++ r) 0 4)) with (n_len hdr)
    by (destruct hdr; destruct m; cbn in *; lia).
  cbv zeta. rewrite app_length, hdr_bytes_length.
  destruct (Nat.eqb_spec (16 + length r) (al4 (Z.to_nat (n_len hdr)))) as [B|B].
  - congruence.
  - cbn [negb]. rewrite orb_true_r. reflexivity.
Qed.
Lemma SetVerdict2_oversize m grow v mk id p pkt e w fd :
  verdict_ready w fd -> packet_in w p pkt ->
  (Z.to_nat 65532 <= length pkt <= Z.to_nat 65535)%nat ->
  exists w' new iov,
    SetVerdict2 m grow v mk (zlen pkt) id p e w = (Ok tt, w') /\
    w_tr w' = w_tr w ++ new /\ sends_one fd iov new /\ read_message m (concat iov) = None.
Proof.
  intros R P L.
  destruct (SetVerdict2_raw m grow v mk id p pkt e w fd R P) as (w' & new & H1 & H2 & H3 & _).
  { destruct pkt; [cbn in L; lia|discriminate]. }
  exists w', new. eexists. split; [exact H1|]. split; [exact H2|]. split; [exact H3|].
  cbn [concat]. rewrite app_nil_r. unfold sv2_bytes. rewrite <- !app_assoc.
  set (al := u16 (u16 (zlen pkt) + 4)).
  assert (A : 0 <= al < 4) by (unfold al, u16, zlen; lia).
  apply read_message_wrong_length; cbn [n_len]; [red; lia|].
  rewrite !app_length. unfold al4. lia.
Qed.

(** ** SetVerdict *)
Definition sv1_bytes (m : endian) (num verdict al id : Z) : bytes :=
  ((hdr_bytes m (mkNlh (32 + al) 769 1 0 0) ++ gen_bytes (mkGen 0 0 num)) ++
   attr_bytes m (mkAttr 12 2)) ++ (put32 BE verdict ++ put32 m id).
Lemma sv1_bytes_length m num v al id : length (sv1_bytes m num v al id) = 32%nat.
Proof. destruct m; reflexivity. Qed.
Lemma VerdictHdr_ok m v id : VerdictHdr_ToWireFormat m v id = Ok (put32 BE v ++ put32 m id).
Proof. unfold VerdictHdr_ToWireFormat, verdicthdr_stores. rewrite NativeEndian_id. destruct m; reflexivity. Qed.

(** the counters after a SetVerdict *)
Definition counted (q : nfq) (verdict : Z) : nfq :=
  if verdict =? 1 then set_counts q (u64 (q_acc q + 1)) (q_drop q) (q_proc q)
  else set_counts q (q_acc q) (u64 (q_drop q + 1)) (q_proc q).

Lemma SetVerdict_raw m grow v id p pkt e w fd :
  verdict_ready w fd -> packet_in w p pkt ->
  (1 <= length pkt <= Z.to_nat 65531)%nat ->
  let al := NfaLength (zlen pkt) in
  exists w' new,
    SetVerdict m grow v (zlen pkt) id p e w = (Ok tt, w') /\
    w_tr w' = w_tr w ++ new /\
    sends_one fd [sv1_bytes m (q_num (w_st w)) v al id; attr_bytes m (mkAttr al 10);
                  pkt ++ pad4 (length pkt)] new /\
    w_st w' = counted (w_st w) v /\ verdict_frame w w' p.
Proof.
  intros ((buf & Hh) & Vh & Lh & N) (Vp & Rp & Np) L al.
  pose proof (valid_len _ _ Vp) as Lp. rewrite Rp in Lp.
  assert (EU : u16 (zlen pkt) = zlen pkt) by (unfold u16, zlen; lia).
  assert (HA : 0 <= al < 65536).
  { unfold al, NfaLength. rewrite NfaAlign_spec by (unfold is_u16, u16; lia).
    assert (0 <= u16 (zlen pkt + SizeofNfAttr) < 65536) by (unfold u16; lia).
    destruct (_ <=? _) eqn:E; lia. }
  unfold SetVerdict. rewrite EU. fold al. mstep. mstep. cbn [BuildNfgenMsg BuildNfAttrMsg].
  rewrite NfAttr_ToWireFormat_ok. mstep.
  rewrite SerializeNlMsgHdr_ok. mstep. rewrite NfqGenMsg_ToWireFormat_ok. mstep.
  rewrite NfAttr_ToWireFormat_ok. mstep. rewrite VerdictHdr_ok. mstep.
  match goal with |- context [m_alloc ?b 0] =>
    replace b with (sv1_bytes m (q_num (w_st w)) v al id) end.
  2:{ red in N. unfold sv1_bytes. replace (u16 (q_num (w_st w))) with (q_num (w_st w)) by (unfold u16; lia).
      cbn [set_n_len n_len a_len]. change (u32 (_ + al)) with (u32 (32 + al)).
      replace (u32 (32 + al)) with (32 + al) by (unfold u32; lia). reflexivity. }
  set (hb := sv1_bytes m (q_num (w_st w)) v al id).
  fold (counted (w_st w) v).
  change (if v =? 1 then _ else _) with (counted (w_st w) v).
  unfold m_alloc. cbn [alloc]. mstep. mstep. mstep. mstep. mstep.
  set (h1 := w_heap w ++ [hb ++ repeat 0 0]).
  assert (E0 : iov_read h1 (mkSl (length (w_heap w)) 0 (length hb) (length hb + 0)) (Z.of_nat 32) = Ok hb).
  { replace 32%nat with (s_len (mkSl (length (w_heap w)) 0 (length hb) (length hb + 0)))
      by (cbn [s_len]; unfold hb; apply sv1_bytes_length).
    rewrite iov_read_all.
    - f_equal. exact (rd_alloc_new (w_heap w) hb 0).
    - split; cbn [s_len s_cap s_arr s_off]; [lia|right]. unfold h1. rewrite app_length. cbn [length].
      split; [lia|]. unfold arr. rewrite app_nth2 by lia. rewrite Nat.sub_diag. cbn [nth].
      rewrite app_length, repeat_length. lia.
    - cbn [s_len]. unfold hb. rewrite sv1_bytes_length. lia. }
  mstep.
  match goal with |- context [iov_read h1 _ ?n] => change n with (Z.of_nat 32) end.
  rewrite E0. mstep.
  assert (R1 : rd h1 p = pkt).
  { destruct Vp as [Vp1 [Vp2|[Vp2 Vp3]]]; [lia|].
    rewrite <- Rp. exact (rd_alloc_old (w_heap w) hb 0 p Vp2). }
  assert (K1 : forall x, valid (w_heap w) x -> valid h1 x) by (intros; apply valid_app; assumption).
  destruct (append_pad_run grow p (verdict_pad (zlen pkt)) e (mkW (counted (w_st w) v) h1 (w_tr w)))
    as (h2 & p2 & EP & AP); [apply K1, Vp|lia|].
  rewrite (bind_ok _ _ _ _ _ _ EP). cbn [w_heap w_st w_tr] in *. mstep.
  unfold zlen in AP at 1. rewrite verdict_pad_spec in AP by lia.
  assert (EL : Z.of_nat (s_len p2) = NfaAlign (zlen pkt)).
  { rewrite (ap_len _ _ _ _ _ AP). unfold pad4. rewrite repeat_length, <- Lp.
    rewrite NfaAlign_spec by (unfold is_u16, zlen; lia).
    destruct (Z.leb_spec (zlen pkt) 65532); unfold zlen, al4 in *; lia. }
  rewrite <- EL.
  rewrite iov_read_all; [|apply (ap_valid _ _ _ _ _ AP)|].
  2:{ rewrite (ap_len _ _ _ _ _ AP). lia. }
  rewrite (ap_rd _ _ _ _ _ AP). cbn [w_heap]. rewrite R1. mstep.
  rewrite Hh. cbn [k_fd].
  match goal with |- context [sendmsg fd ?iov e ?w0] =>
    destruct (sendmsg_run fd iov e w0) as (new & ES & SO) end.
  eexists; exists new. split; [exact ES|]. cbn [w_tr w_st]. split; [reflexivity|].
  split; [exact SO|split; [reflexivity|]].
  constructor; cbn [w_heap].
  - intros x Vx. apply (ap_keep _ _ _ _ _ AP), K1, Vx.
  - rewrite (ap_old _ _ _ _ _ AP). cbn [w_heap]. congruence.
  - pose proof (ap_grow _ _ _ _ _ AP) as G. cbn [w_heap] in G. unfold h1 in G.
    rewrite app_length in G. lia.
  - intros a Ha Hb Hc. rewrite (ap_other _ _ _ _ _ AP).
    + cbn [w_heap]. exact (arr_alloc_old (w_heap w) hb 0 a Ha).
    + exact Hc.
    + cbn [w_heap]. unfold h1. rewrite app_length. lia.
  - intros i Hi. rewrite (ap_same _ _ _ _ _ AP) by exact Hi. cbn [w_heap].
    destruct Vp as [Vp1 [Vp2|[Vp2 Vp3]]]; [lia|].
    f_equal. exact (arr_alloc_old (w_heap w) hb 0 _ Vp2).
  - intros i Hi. rewrite (ap_rest _ _ _ _ _ AP).
    + cbn [w_heap]. destruct Vp as [Vp1 [Vp2|[Vp2 Vp3]]]; [lia|].
      f_equal. exact (arr_alloc_old (w_heap w) hb 0 _ Vp2).
    + unfold pad4. rewrite repeat_length. unfold al4. lia.
  - apply (pad_here (w_heap w) h1 h2 p p2 pkt); [lia| |].
    + unfold zlen. rewrite verdict_pad_spec by lia. exact AP.
    + destruct Vp as [Vp1 [Vp2|[Vp2 Vp3]]]; [lia|]. exact (arr_alloc_old (w_heap w) hb 0 _ Vp2).
Qed.

Lemma sv1_message m num v id pl :
  is_u16 num -> is_u32 v -> is_u32 id -> (length pl <= Z.to_nat 65531)%nat ->
  (al4 (length pl) = length pl) ->
  read_message m (sv1_bytes m num v (4 + zlen pl) id ++
                  attr_bytes m (mkAttr (4 + zlen pl) 10) ++ pl) =
  Some (verdict1_message m num v id pl).
Proof.
  intros N V I L AL. unfold is_u16, is_u32 in *. unfold sv1_bytes.
  set (body := attr_bytes m (mkAttr 12 2) ++ (put32 BE v ++ put32 m id) ++ [] ++
               attr_bytes m (mkAttr (4 + zlen pl) 10) ++ pl).
  replace (_ ++ _) with (hdr_bytes m (mkNlh (32 + (4 + zlen pl)) 769 1 0 0) ++
                          gen_bytes (mkGen 0 0 num) ++ body ++ [])
    by (unfold body; rewrite <- !app_assoc, app_nil_r; reflexivity).
  assert (HB : length body = (16 + length pl)%nat).
  { unfold body. rewrite !app_length, !attr_bytes_length, !put32_length. cbn [length]. lia. }
  rewrite (read_message_build m _ _ body _ [verdict_attr m v id; (10, pl)]).
  - reflexivity.
  - unfold hdr_in_range, is_u32, is_u16. cbn [n_len n_type n_flags n_seq n_pid]. unfold zlen. lia.
  - red; cbn; lia.
  - red; cbn; lia.
  - exact N.
  - cbn [n_len]. unfold zlen. rewrite HB. lia.
  - rewrite HB. cbn [length]. unfold al4 in *. lia.
  - unfold body, verdict_attr.
    rewrite (put32_be32 v), (put32_native m id) by assumption.
    apply attrs_of_cons; [destruct m; reflexivity|red; lia|red; lia|destruct m; reflexivity|].
    apply attrs_of_last; [reflexivity|red; unfold zlen; lia|red; lia].
Qed.

Lemma SetVerdict_run m grow v id p pkt e w fd :
  verdict_ready w fd -> packet_in w p pkt -> is_u32 v -> is_u32 id ->
  (1 <= length pkt <= Z.to_nat 65528)%nat ->
  exists w' new,
    SetVerdict m grow v (zlen pkt) id p e w = (Ok tt, w') /\
    w_tr w' = w_tr w ++ new /\
    sends_message m fd (verdict1_message m (q_num (w_st w)) v id (pkt ++ pad4 (length pkt))) new /\
    w_st w' = counted (w_st w) v /\ verdict_frame w w' p.
Proof.
  intros R P V I L.
  destruct (SetVerdict_raw m grow v id p pkt e w fd R P) as (w' & new & H1 & H2 & H3 & H4 & H5); [lia|].
  exists w', new. split; [exact H1|]. split; [exact H2|]. split; [|split; assumption].
  eexists. split; [exact H3|]. cbn [concat]. rewrite app_nil_r.
  destruct R as (_ & _ & _ & N).
  assert (AL : length (pkt ++ pad4 (length pkt)) = al4 (length pkt)).
  { rewrite app_length. unfold pad4. rewrite repeat_length. unfold al4. lia. }
  replace (NfaLength (zlen pkt)) with (4 + zlen (pkt ++ pad4 (length pkt))).
  - apply sv1_message; auto; rewrite AL; unfold al4; lia.
  - unfold zlen at 1. rewrite AL. rewrite NfaLength_spec by (unfold zlen; lia). unfold zlen, al4. lia.
Qed.
Lemma SetVerdict_near_64k m grow v id p pkt e w fd :
  verdict_ready w fd -> packet_in w p pkt ->
  (Z.to_nat 65529 <= length pkt <= Z.to_nat 65531)%nat ->
  exists w' new iov,
    SetVerdict m grow v (zlen pkt) id p e w = (Ok tt, w') /\
    w_tr w' = w_tr w ++ new /\ sends_one fd iov new /\ read_message m (concat iov) = None.
Proof.
  intros R P L.
  destruct (SetVerdict_raw m grow v id p pkt e w fd R P) as (w' & new & H1 & H2 & H3 & _); [lia|].
  exists w', new. eexists. split; [exact H1|]. split; [exact H2|]. split; [exact H3|].
  cbn [concat]. rewrite app_nil_r. unfold sv1_bytes. rewrite <- !app_assoc.
  replace (NfaLength (zlen pkt)) with 0.
  - apply read_message_wrong_length; cbn [n_len]; [red; lia|].
    rewrite !app_length. unfold al4. lia.
  - unfold NfaLength. rewrite NfaAlign_spec by (unfold is_u16, u16; lia).
    destruct (Z.leb_spec (u16 (zlen pkt + SizeofNfAttr)) 65532); [|reflexivity].
    unfold u16, zlen, SizeofNfAttr in *. lia.
Qed.

(** an empty packet crashes both calls, before anything is sent *)
Lemma SetVerdict2_empty m grow v mk id p e w fd :
  verdict_ready w fd -> s_len p = 0%nat ->
  exists w', SetVerdict2 m grow v mk 0 id p e w = (Panic, w') /\ w_tr w' = w_tr w.
Proof.
  intros ((buf & Hh) & Vh & Lh & N) L. unfold SetVerdict2.
  rewrite bind_get_st.
  destruct (sv2_hdr_spec m (q_num (w_st w)) v mk 0 id N) as (ws & E1 & E2 & E3).
  rewrite E1.
  rewrite NfAttr_ToWireFormat_ok. rewrite bind_lift_ok.
  rewrite (bind_ok _ _ _ _ _ _
             (m_stores_prefix (q_hdr (w_st w)) ws e w Vh ltac:(lia) E2
                ltac:(rewrite E3, sv2_bytes_length; lia))).
  set (h1 := upd_arr _ _ _).
  change (verdict_pad 0) with (@nil Z). unfold append_pad. mstep. mstep.
  unfold iov_read at 1. rewrite Lh. cbn [Nat.eqb]. mstep.
  unfold iov_read. rewrite L. cbn [Nat.eqb]. eexists. split; [reflexivity|]. reflexivity.
Qed.
Lemma SetVerdict_empty m grow v id p e w fd :
  verdict_ready w fd -> s_len p = 0%nat ->
  exists w', SetVerdict m grow v 0 id p e w = (Panic, w') /\ w_tr w' = w_tr w.
Proof.
  intros ((buf & Hh) & Vh & Lh & N) L. unfold SetVerdict.
  mstep. mstep. cbn [BuildNfgenMsg BuildNfAttrMsg].
  rewrite NfAttr_ToWireFormat_ok. mstep.
  rewrite SerializeNlMsgHdr_ok. mstep. rewrite NfqGenMsg_ToWireFormat_ok. mstep.
  rewrite NfAttr_ToWireFormat_ok. mstep. rewrite VerdictHdr_ok. mstep.
  unfold m_alloc. cbn [alloc]. mstep. mstep. mstep. mstep. mstep.
  unfold iov_read at 1. cbn [s_len].
  match goal with |- context [(?n =? 0)%nat] => destruct (Nat.eqb_spec n 0) as [Z0|_] end.
  { exfalso. revert Z0. rewrite !app_length. rewrite hdr_bytes_length. lia. }
  mstep. change (verdict_pad 0) with (@nil Z). unfold append_pad. mstep. mstep.
  unfold iov_read. rewrite L. cbn [Nat.eqb]. eexists. split; [reflexivity|]. reflexivity.
Qed.
