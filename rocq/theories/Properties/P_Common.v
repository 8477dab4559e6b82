(** Properties of package common: C01-C07. *)
From Verif Require Import Proof.CommonProps Model.NfLog.

(** ** C01 *)
Theorem C01_alignment_rounds_up :
  rounds_up_to4 NlMsgAlign 4294967296 /\ rounds_up_to4 NfaAlign32 4294967296 /\
  rounds_up_to4 NfaAlign 65536 /\ rounds_up_to4 NfaAlign16 65536.
Proof. exact alignment_rounds_up. Qed.
Print Assumptions C01_alignment_rounds_up.
Example C01_nontrivial :
  NfaAlign 65529 = 65532 /\ NfaAlign 65532 = 65532 /\ NfaAlign 65533 = 0 /\
  NlMsgAlign 4294967293 = 0 /\ NlMsgAlign 17 = 20.
Proof. ex_tac. Qed.

Theorem C01_length_helpers : forall x,
  (0 <= x <= 4294967279 -> NlMsgLength x = x + 16) /\
  (0 <= x <= 4294967276 -> NlMsgSpace x = NlMsgAlign (x + 16)) /\
  (0 <= x <= 65528 -> NfaLength x = NfaAlign (x + 4)).
Proof. exact length_helpers. Qed.
Print Assumptions C01_length_helpers.

(** ** C02 *)
Theorem C02_header_roundtrip : forall m r,
  hdr_in_range r ->
  exists b, SerializeNlMsgHdr m r = Ok b /\
    length b = 16%nat /\
    num m (field b 0 4) = n_len r /\ num m (field b 4 2) = n_type r /\
    num m (field b 6 2) = n_flags r /\ num m (field b 8 4) = n_seq r /\
    num m (field b 12 4) = n_pid r /\
    forall h buf rest, valid h buf -> rd h buf = b ++ rest ->
      exists next, NetlinkMessageToStruct m h buf = Ok (Some r, next, None) /\ rd h next = rest.
Proof. exact netlink_header_roundtrip. Qed.
Print Assumptions C02_header_roundtrip.

Theorem C02_header_parse_then_write : forall m h buf,
  valid h buf -> is_bytes (rd h buf) -> (16 <= s_len buf)%nat ->
  exists r next, NetlinkMessageToStruct m h buf = Ok (Some r, next, None) /\
    rd h next = skipn 16 (rd h buf) /\ SerializeNlMsgHdr m r = Ok (firstn 16 (rd h buf)) /\
    hdr_in_range r.
Proof. exact netlink_header_parse_then_write. Qed.
Print Assumptions C02_header_parse_then_write.

Theorem C02_header_rejects_exactly_short : forall m h buf,
  valid h buf ->
  if (s_len buf <? 16)%nat
  then exists e, NetlinkMessageToStruct m h buf = Ok (None, snil, Some e)
  else exists r next, NetlinkMessageToStruct m h buf = Ok (Some r, next, None).
Proof. exact netlink_header_rejects_exactly_short. Qed.
Print Assumptions C02_header_rejects_exactly_short.

Theorem C02_header_fills_buffer : forall m r b buf,
  SerializeNlMsgHdr m r = Ok b -> (16 <= length buf)%nat ->
  writes_prefix (SerializeNlMsgHdrBuf m r) buf b.
Proof. exact netlink_header_writes_prefix. Qed.
Print Assumptions C02_header_fills_buffer.

Example C02_hypotheses_met :
  let r := mkNlh 20 768 1 7 4294967295 in
  let h := [[20;0;0;0; 0;3; 1;0; 7;0;0;0; 255;255;255;255; 9;8;7;6]] in
  let buf := mkSl 0 0 20 20 in
  (is_u32 (n_len r) /\ is_u16 (n_type r) /\ is_u16 (n_flags r) /\ is_u32 (n_seq r) /\ is_u32 (n_pid r)) /\ valid h buf /\ is_bytes (rd h buf) /\ (16 <= s_len buf)%nat /\
  SerializeNlMsgHdr LE r = Ok (firstn 16 (rd h buf)) /\
  NetlinkMessageToStruct LE h buf = Ok (Some r, mkSl 0 16 4 4, None).
Proof. ex_tac. Qed.

(** ** C03 *)
Theorem C03_nfgen_roundtrip : forall r,
  is_u8 (g_fam r) -> is_u8 (g_ver r) -> is_u16 (g_res r) ->
  exists b, NfqGenMsg_ToWireFormat r = Ok b /\ length b = 4%nat /\
    nth 0 b 0 = g_fam r /\ nth 1 b 0 = g_ver r /\ num BE (field b 2 2) = g_res r /\
    forall h buf rest, valid h buf -> rd h buf = b ++ rest ->
      exists next, NetlinkMessageToNfGenStruct h buf = Ok (r, next) /\ rd h next = rest.
Proof. exact nfgen_roundtrip. Qed.
Print Assumptions C03_nfgen_roundtrip.

Theorem C03_attr_and_value_layout :
  (forall m l t, is_u16 l -> is_u16 t ->
     exists b, NfAttr_ToWireFormat m (mkAttr l t) = Ok b /\ length b = 4%nat /\
       num m (field b 0 2) = l /\ num m (field b 2 2) = t) /\
  (forall v, is_u8 v -> NfValue8_ToWireFormat v = Ok [v; 0; 0; 0]) /\
  (forall v, is_u16 v -> exists b, NfValue16_ToWireFormat v = Ok (b ++ [0; 0]) /\
     length b = 2%nat /\ num BE b = v) /\
  (forall v, is_u32 v -> exists b, NfValue32_ToWireFormat v = Ok b /\
     length b = 4%nat /\ num BE b = v).
Proof. exact attr_and_value_layout. Qed.
Print Assumptions C03_attr_and_value_layout.

(** the in-place variants write the bytes of the allocating ones; on a buffer
    of zeros also the padding agrees *)
Theorem C03_in_place_variants : forall buf, (4 <= length buf)%nat ->
  (forall r b, NfqGenMsg_ToWireFormat r = Ok b -> writes_prefix (NfqGenMsg_ToWireFormatBuf r) buf b) /\
  (forall m r b, NfAttr_ToWireFormat m r = Ok b -> writes_prefix (NfAttr_ToWireFormatBuf m r) buf b) /\
  (forall v b, NfValue32_ToWireFormat v = Ok b -> writes_prefix (NfValue32_ToWireFormatBuf v) buf b) /\
  (forall v b, NfValue16_ToWireFormat v = Ok b ->
     snd (NfValue16_ToWireFormatBuf v) = 4 /\
     store_all buf (fst (NfValue16_ToWireFormatBuf v)) = Ok (firstn 2 b ++ skipn 2 buf)) /\
  (forall v b, NfValue8_ToWireFormat v = Ok b ->
     snd (NfValue8_ToWireFormatBuf v) = 4 /\
     store_all buf (fst (NfValue8_ToWireFormatBuf v)) = Ok (firstn 1 b ++ skipn 1 buf)).
Proof. exact in_place_variants. Qed.
Print Assumptions C03_in_place_variants.

Example C03_hypotheses_met :
  NfqGenMsg_ToWireFormat (mkGen 2 0 513) = Ok [2; 0; 2; 1] /\
  NfAttr_ToWireFormat BE (mkAttr 12 32769) = Ok [0; 12; 128; 1] /\
  NfValue16_ToWireFormat 258 = Ok [1; 2; 0; 0].
Proof. ex_tac. Qed.

(** ** C04 *)
Theorem C04_requested_attributes_exact : forall fuel m h buf tbl l,
  valid h buf -> is_bytes (rd h buf) -> Z.of_nat (s_len buf) <= 4294967292 ->
  attrs_of m (rd h buf) = Some l ->
  (s_len buf / 4 + 1 < fuel)%nat ->
  exists tbl', NetlinkMessageToNfAttrStruct fuel m h buf tbl = Ok (tbl', None, None) /\
    table_filled h buf l tbl tbl'.
Proof. exact attr_parser_wellformed. Qed.
Print Assumptions C04_requested_attributes_exact.

(** two marks, an unrequested type, a type above 11, a payload without padding *)
Example C04_hypotheses_met :
  let b := [8;0;3;0; 0;0;0;1;   5;0;4;0; 77;0;0;0;   4;0;200;0;
            8;0;3;0; 0;0;0;2;   6;0;10;0; 65;66] in
  let h := [b; repeat 0 8] in
  let buf := mkSl 0 0 34 34 in
  let old := mkSl 1 0 8 8 in
  valid h buf /\ is_bytes (rd h buf) /\
  attrs_of LE (rd h buf) =
    Some [(3, [0;0;0;1]); (4, [77]); (200, []); (3, [0;0;0;2]); (10, [65;66])] /\
  NetlinkMessageToNfAttrStruct 10 LE h buf [(1, old); (3, old); (10, old)] =
    Ok ([(1, old); (3, mkSl 0 24 4 10); (10, mkSl 0 32 2 2)], None, None) /\
  rd h (mkSl 0 24 4 10) = [0;0;0;2] /\ rd h (mkSl 0 32 2 2) = [65;66].
Proof. ex_tac. Qed.

(** ** C05 *)
(** the full property fails: an attribute of length 0 that nobody asked for
    makes the parser run for ever (it has not returned after any number of
    iterations), one of length 0..3 that was asked for makes it crash *)
Theorem C05_hostile_bytes_refuted :
  (exists h buf tbl, valid h buf /\ is_bytes (rd h buf) /\
     forall fuel, NetlinkMessageToNfAttrStruct fuel LE h buf tbl = NoFuel) /\
  (exists h buf tbl, valid h buf /\ is_bytes (rd h buf) /\
     forall fuel, NetlinkMessageToNfAttrStruct (S fuel) LE h buf tbl = Panic).
Proof. exact hostile_bytes. Qed.
Print Assumptions C05_hostile_bytes_refuted.

(** exactly which byte strings it returns for *)
Theorem C05_returns_iff : forall m h buf tbl,
  valid h buf -> is_bytes (rd h buf) -> Z.of_nat (s_len buf) <= 4294967292 ->
  (exists fuel r, NetlinkMessageToNfAttrStruct fuel m h buf tbl = Ok r) <->
  (forall p, attr_complete m (rd h buf) p ->
     (4 <= attr_len m (rd h buf) p)%nat \/
     (1 <= attr_len m (rd h buf) p)%nat /\ requested tbl (attr_type m (rd h buf) p) = false).
Proof. exact attr_parser_returns_iff. Qed.
Print Assumptions C05_returns_iff.

(** missing for the full property: the hypothesis that no header declares a
    length below 4 *)
Theorem C05_hostile_bytes_partial : forall m h buf tbl fuel,
  valid h buf -> is_bytes (rd h buf) -> Z.of_nat (s_len buf) <= 4294967292 ->
  (forall p, attr_complete m (rd h buf) p -> (4 <= attr_len m (rd h buf) p)%nat) ->
  (s_len buf / 4 + 1 < fuel)%nat ->
  exists tbl' er, NetlinkMessageToNfAttrStruct fuel m h buf tbl = Ok (tbl', None, er) /\
    (forall t s, amap_get tbl' t = Some s -> amap_get tbl t = Some s \/ window_in buf s).
Proof. exact attr_parser_returns. Qed.
Print Assumptions C05_hostile_bytes_partial.

Theorem C05_payloads_inside_input : forall m h buf tbl fuel tbl' left er,
  valid h buf -> is_bytes (rd h buf) -> Z.of_nat (s_len buf) <= 4294967292 ->
  NetlinkMessageToNfAttrStruct fuel m h buf tbl = Ok (tbl', left, er) ->
  left = None /\
  (forall t s, amap_get tbl' t = Some s -> amap_get tbl t = Some s \/ window_in buf s).
Proof. exact attr_parser_inside. Qed.
Print Assumptions C05_payloads_inside_input.

(** it reports an error iff some header declares more bytes than there are *)
Theorem C05_error_iff_overlong : forall m h buf tbl fuel tbl' left er,
  valid h buf -> is_bytes (rd h buf) -> Z.of_nat (s_len buf) <= 4294967292 ->
  NetlinkMessageToNfAttrStruct fuel m h buf tbl = Ok (tbl', left, er) ->
  (er <> None <->
   exists p, attr_start m (rd h buf) p /\ (p + 4 <= length (rd h buf))%nat /\
             (length (rd h buf) < p + attr_len m (rd h buf) p)%nat).
Proof. exact attr_parser_error_iff. Qed.
Print Assumptions C05_error_iff_overlong.

Example C05_hypotheses_met :
  let h := [[4;0;9;0; 200;0;3;0; 1;2]] in
  let buf := mkSl 0 0 10 10 in
  valid h buf /\ NetlinkMessageToNfAttrStruct 9 LE h buf [(3, snil)] = Ok ([(3, snil)], None, Some EBadAttr).
Proof. ex_tac. Qed.

(** ** C06 *)
Theorem C06_error_code_survives : forall m h buf code rest,
  valid h buf -> -2147483648 <= code < 2147483648 ->
  rd h buf = put32 m (code mod 4294967296) ++ rest ->
  exists hdr, NetlinkErrMessagetoStruct m h buf = Ok (hdr, code).
Proof. exact err_code_roundtrip. Qed.
Print Assumptions C06_error_code_survives.

Theorem C06_crashes_only_if_too_short : forall m h buf, valid h buf ->
  (s_len buf < 4)%nat <-> NetlinkErrMessagetoStruct m h buf = Panic.
Proof. exact err_parse_panics_iff. Qed.
Print Assumptions C06_crashes_only_if_too_short.

Example C06_hypotheses_met :
  let h := [[255;255;255;255; 1]] in let buf := mkSl 0 0 5 5 in
  valid h buf /\ rd h buf = put32 LE ((-1) mod 4294967296) ++ [1] /\
  NetlinkErrMessagetoStruct LE h buf = Ok (None, -1).
Proof. ex_tac. Qed.

(** ** C07 *)
Theorem C07_int_to_ip_and_back : forall v, is_u32 v ->
  exists ip, Int2ip v = Ok ip /\ length ip = 4%nat /\ is_bytes ip /\ IP2int ip = Ok v.
Proof. exact ip_int_roundtrip. Qed.
Print Assumptions C07_int_to_ip_and_back.

Theorem C07_ip_to_int_and_back : forall ip, is_bytes ip -> length ip = 4%nat ->
  IP2int ip = Ok (num BE ip) /\ Int2ip (num BE ip) = Ok ip /\ is_u32 (num BE ip).
Proof. exact int_ip_roundtrip. Qed.
Print Assumptions C07_ip_to_int_and_back.

Theorem C07_v4_in_v6 : forall ip prefix, length ip = 4%nat -> length prefix = 12%nat ->
  IP2int (prefix ++ ip) = IP2int ip.
Proof. exact ip_v4_in_v6. Qed.
Print Assumptions C07_v4_in_v6.
Example C07_hypotheses_met :
  IP2int [192; 168; 0; 1] = Ok 3232235521 /\
  IP2int [0;0;0;0;0;0;0;0;0;0;255;255;192;168;0;1] = Ok 3232235521 /\
  Int2ip 3232235521 = Ok [192; 168; 0; 1].
Proof. ex_tac. Qed.

(** ** C69 *)
(** The type field of a netfilter message holds the subsystem in its upper and the
    message number in its lower byte. *)
Theorem C69_type_halves : forall subsys msg, 0 <= subsys < 256 -> 0 <= msg < 256 ->
  NlMsgSubsysID (subsys * 256 + msg) = subsys /\ NlMsgType (subsys * 256 + msg) = msg.
Proof.
  intros s m S M. unfold NlMsgSubsysID, NlMsgType.
  assert (B : forall n, Z.testbit m n = (n <? 8) && Z.testbit m n).
  { intros n. destruct (Z.ltb_spec n 8); [reflexivity|]. cbn [andb]. destruct (Z.eq_dec m 0) as [->|]; [apply Z.bits_0|].
    apply Z.bits_above_log2; [lia|]. assert (Z.log2 m < 8) by (apply Z.log2_lt_pow2; lia). lia. }
  split.
  - change 65280 with (Z.shiftl 255 8). rewrite Z.shiftr_land. rewrite Z.shiftr_shiftl_l by lia. cbn [Z.sub Z.shiftl].
    change (Z.shiftl 255 (8 - 8)) with (Z.ones 8). rewrite Z.land_ones by lia. rewrite Z.shiftr_div_pow2 by lia. change (2 ^ 8) with 256. lia.
  - change 255 with (Z.ones 8). rewrite Z.land_ones by lia. change (2 ^ 8) with 256. lia.
Qed.
Print Assumptions C69_type_halves.
Theorem C69_type_whole : forall ty, is_u16 ty ->
  0 <= NlMsgSubsysID ty < 256 /\ 0 <= NlMsgType ty < 256 /\ NlMsgSubsysID ty * 256 + NlMsgType ty = ty.
Proof.
  intros ty R. unfold is_u16 in R.
  assert (E : ty = (ty / 256) * 256 + ty mod 256) by lia.
  destruct (C69_type_halves (ty / 256) (ty mod 256)) as (A & B); [lia|lia|]. rewrite <- E in A, B. rewrite A, B. lia.
Qed.
Print Assumptions C69_type_whole.
(** the verdict message of the queue subsystem *)
Example C69_hypotheses_met : is_u16 769 /\ NlMsgSubsysID 769 = 3 /\ NlMsgType 769 = 1.
Proof. unfold is_u16. split; [lia|split; reflexivity]. Qed.
