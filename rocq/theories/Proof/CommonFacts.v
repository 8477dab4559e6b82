(** Facts about Model/Common.v. *)
From Verif Require Export Proof.BaseFacts Model.Common Spec.CommonSpec.

Lemma NativeEndian_id m : NativeEndian m = m.
Proof. destruct m; reflexivity. Qed.

(** ** Alignment (C01) *)
Lemma align_mod M x : 4 < M -> M mod 4 = 0 -> 0 <= x < M ->
  Z.ldiff (((x + 4) mod M - 1) mod M) 3 =
  if x <=? M - 4 then 4 * ((x + 3) / 4) else 0.
Proof.
  intros HM H4 Hx.
  assert (0 <= ((x + 4) mod M - 1) mod M) by (apply Z.mod_pos_bound; lia).
  rewrite ldiff3 by assumption.
  rewrite Zminus_mod_idemp_l. replace (x + 4 - 1) with (x + 3) by lia.
  destruct (Z.leb_spec x (M - 4)) as [L|L].
  - rewrite Z.mod_small by lia. reflexivity.
  - replace (x + 3) with ((x + 3 - M) + 1 * M) by lia. rewrite Z.mod_add by lia.
    rewrite Z.mod_small by lia. rewrite Z.div_small by lia. reflexivity.
Qed.
Lemma NfaAlign_spec x : is_u16 x ->
  NfaAlign x = if x <=? 65532 then 4 * ((x + 3) / 4) else 0.
Proof. intros H. unfold NfaAlign, u16. apply (align_mod 65536); [lia|reflexivity|exact H]. Qed.
Lemma NlMsgAlign_spec x : is_u32 x ->
  NlMsgAlign x = if x <=? 4294967292 then 4 * ((x + 3) / 4) else 0.
Proof. intros H. unfold NlMsgAlign, u32. apply (align_mod 4294967296); [lia|reflexivity|exact H]. Qed.
Lemma NfaAlign32_spec x : is_u32 x ->
  NfaAlign32 x = if x <=? 4294967292 then 4 * ((x + 3) / 4) else 0.
Proof. exact (NlMsgAlign_spec x). Qed.
Lemma NfaLength_spec x : 0 <= x <= 65528 -> NfaLength x = 4 * ((x + 3) / 4) + 4.
Proof.
  intros H. unfold NfaLength, SizeofNfAttr, u16. rewrite Z.mod_small by lia.
  rewrite NfaAlign_spec by (red; lia). destruct (Z.leb_spec (x + 4) 65532); lia.
Qed.
Lemma NlMsgLength_spec x : 0 <= x < 4294967296 - 16 -> NlMsgLength x = x + 16.
Proof. intros H. unfold NlMsgLength, u32. change (NlMsgAlign SizeofNlMsghdr) with 16. lia. Qed.

Lemma rounds_up_intro f M : M mod 4 = 0 ->
  (forall x, 0 <= x < M -> f x = if x <=? M - 4 then 4 * ((x + 3) / 4) else 0) ->
  rounds_up_to4 f M.
Proof.
  intros HM H x Hx. rewrite (H x Hx). destruct (Z.leb_spec x (M - 4)) as [L|L].
  - split; [|lia]. intros _. repeat split; try lia.
    all: intros; lia.
  - split; [lia|]. reflexivity.
Qed.

(** ** store_all *)
Lemma store_all_app buf a b :
  store_all buf (a ++ b) = let* x := store_all buf a in store_all x b.
Proof.
  revert buf; induction a as [|[o v] a IH]; intros buf; [reflexivity|].
  cbn [store_all app]. destruct (gput buf o v); cbn [rbind]; auto.
Qed.

Definition hdr_bytes (m : endian) (r : nlmsghdr) : bytes :=
  put32 m (n_len r) ++ put16 m (n_type r) ++ put16 m (n_flags r) ++
  put32 m (n_seq r) ++ put32 m (n_pid r).
Lemma hdr_bytes_length m r : length (hdr_bytes m r) = 16%nat.
Proof. destruct m; reflexivity. Qed.
Definition gen_bytes (r : nfgenmsg) : bytes := [g_fam r; g_ver r] ++ put16 BE (g_res r).
Definition attr_bytes (m : endian) (r : nfattr) : bytes := put16 m (a_len r) ++ put16 m (a_type r).

(** stores tile a prefix of the buffer *)
Fixpoint contiguous (o : Z) (ws : stores) : Prop :=
  match ws with [] => True | (p, v) :: ws' => p = o /\ contiguous (o + zlen v) ws' end.
Definition payload (ws : stores) : bytes := concat (map snd ws).
Lemma store_all_contiguous ws : forall pre old rest,
  contiguous (zlen pre) ws -> length old = length (payload ws) ->
  store_all (pre ++ old ++ rest) ws = Ok (pre ++ payload ws ++ rest).
Proof.
  induction ws as [|[o v] ws IH]; intros pre old rest Hc Hl.
  - cbn in *. destruct old; [reflexivity|discriminate].
  - destruct Hc as [-> Hc]. unfold payload in Hl; cbn in Hl. rewrite app_length in Hl.
    set (o1 := firstn (length v) old). set (o2 := skipn (length v) old).
    assert (Ho : old = o1 ++ o2) by (symmetry; apply firstn_skipn).
    assert (H1 : length o1 = length v) by (unfold o1; rewrite firstn_length; lia).
    assert (H2 : length o2 = length (payload ws))
      by (unfold o2, payload; rewrite skipn_length; lia).
    cbn [store_all]. rewrite gput_ok.
    2: apply zlen_nonneg.
    2:{ unfold zlen. rewrite !app_length. lia. }
    cbn [rbind]. rewrite Ho, <- app_assoc, splice_app3.
    2: unfold zlen; lia.
    2: exact H1.
    rewrite (app_assoc pre v). rewrite (IH (pre ++ v) o2 rest).
    + unfold payload; cbn. rewrite <- !app_assoc. reflexivity.
    + rewrite zlen_app. exact Hc.
    + exact H2.
Qed.
Lemma store_all_prefix ws buf :
  contiguous 0 ws -> (length (payload ws) <= length buf)%nat ->
  store_all buf ws = Ok (payload ws ++ skipn (length (payload ws)) buf).
Proof.
  intros Hc Hl. rewrite <- (firstn_skipn (length (payload ws)) buf) at 1.
  rewrite <- (app_nil_l (firstn _ _ ++ _)).
  rewrite store_all_contiguous; [reflexivity|exact Hc|]. rewrite firstn_length. lia.
Qed.

Lemma nlmsghdr_stores_contig m r : contiguous 0 (nlmsghdr_stores m r).
Proof. unfold nlmsghdr_stores. rewrite NativeEndian_id. destruct m; cbn; auto 10. Qed.
Lemma nlmsghdr_stores_payload m r : payload (nlmsghdr_stores m r) = hdr_bytes m r.
Proof. unfold nlmsghdr_stores, payload, hdr_bytes. rewrite NativeEndian_id. cbn. now rewrite app_nil_r. Qed.
Lemma SerializeNlMsgHdr_ok m r : SerializeNlMsgHdr m r = Ok (hdr_bytes m r).
Proof.
  unfold SerializeNlMsgHdr. rewrite store_all_prefix.
  - rewrite nlmsghdr_stores_payload. cbn. destruct m; reflexivity.
  - apply nlmsghdr_stores_contig.
  - rewrite nlmsghdr_stores_payload, hdr_bytes_length. reflexivity.
Qed.
Lemma NfqGenMsg_ToWireFormat_ok r : NfqGenMsg_ToWireFormat r = Ok (gen_bytes r).
Proof. reflexivity. Qed.
Lemma NfAttr_ToWireFormat_ok m r : NfAttr_ToWireFormat m r = Ok (attr_bytes m r).
Proof.
  unfold NfAttr_ToWireFormat, nfattr_stores, attr_bytes. rewrite NativeEndian_id.
  destruct m; reflexivity.
Qed.

(** ** NetlinkMessageToStruct *)
Lemma NetlinkMessageToStruct_ok m h buf :
  valid h buf -> (16 <= s_len buf)%nat ->
  exists l t f s p,
    firstn 16 (rd h buf) = firstn 16 (rd h buf) /\
    get32 m (rd h buf) = Ok l /\ get16 m (skipn 4 (rd h buf)) = Ok t /\
    get16 m (skipn 6 (rd h buf)) = Ok f /\ get32 m (skipn 8 (rd h buf)) = Ok s /\
    get32 m (skipn 12 (rd h buf)) = Ok p /\
    NetlinkMessageToStruct m h buf =
    Ok (Some (mkNlh l t f s p),
        mkSl (s_arr buf) (s_off buf + 16) (s_len buf - 16) (s_cap buf - 16), None).
Proof.
  intros V L. pose proof (valid_len _ _ V) as HL. destruct V as [Hc _].
  destruct (get32_ok m (rd h buf)) as [l Hl]; [lia|].
  destruct (get16_ok m (skipn 4 (rd h buf))) as [t Ht]; [rewrite skipn_length; lia|].
  destruct (get16_ok m (skipn 6 (rd h buf))) as [f Hf]; [rewrite skipn_length; lia|].
  destruct (get32_ok m (skipn 8 (rd h buf))) as [s Hs]; [rewrite skipn_length; lia|].
  destruct (get32_ok m (skipn 12 (rd h buf))) as [p Hp]; [rewrite skipn_length; lia|].
  exists l, t, f, s, p. repeat (split; [try assumption; reflexivity|]).
  unfold NetlinkMessageToStruct. rewrite NativeEndian_id.
  destruct (Nat.leb_spec (s_len buf) 15) as [B|_]; [lia|].
  rewrite Hl. cbn [rbind].
  repeat (rewrite resl_from_ok by lia; cbn [rbind];
          match goal with |- context [Z.to_nat ?z] =>
            let n := eval vm_compute in (Z.to_nat z) in change (Z.to_nat z) with n end;
          rewrite ?rd_from, ?Ht, ?Hf, ?Hs, ?Hp; cbn [rbind]).
  reflexivity.
Qed.
Lemma NetlinkMessageToStruct_short m h buf :
  (s_len buf < 16)%nat ->
  NetlinkMessageToStruct m h buf = Ok (None, snil, Some EBufferEmpty).
Proof.
  intros H. unfold NetlinkMessageToStruct.
  destruct (Nat.leb_spec (s_len buf) 15) as [B|B]; [reflexivity|lia].
Qed.
