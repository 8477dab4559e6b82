(** C01-C07: lemmas behind the properties of package common. *)
From Verif Require Export Proof.AttrLoop Model.NfLog.

(** ** C02 *)
Lemma skipn_app_n {A} (a b : list A) n k : length a = n -> skipn (n + k) (a ++ b) = skipn k b.
Proof. intros <-. rewrite skipn_app_ge by lia. f_equal. lia. Qed.

Lemma parse_hdr_bytes m h buf r rest :
  valid h buf -> hdr_in_range r -> rd h buf = hdr_bytes m r ++ rest ->
  NetlinkMessageToStruct m h buf =
  Ok (Some r, mkSl (s_arr buf) (s_off buf + 16) (s_len buf - 16) (s_cap buf - 16), None).
Proof.
  intros V (R1 & R2 & R3 & R4 & R5) E.
  pose proof (valid_len _ _ V) as HL.
  assert (16 <= s_len buf)%nat by (rewrite <- HL, E, app_length, hdr_bytes_length; lia).
  destruct (NetlinkMessageToStruct_ok m h buf V H) as (l & t & f & s & p & _ & Hl & Ht & Hf & Hs & Hp & ->).
  unfold is_u32, is_u16 in *.
  rewrite E in Hl, Ht, Hf, Hs, Hp. unfold hdr_bytes in *. rewrite <- ?app_assoc in *.
  rewrite get32_put32, Z.mod_small in Hl by lia.
  rewrite (skipn_app_n _ _ 4 0), skipn_O, get16_put16, Z.mod_small in Ht by (try apply put32_length; lia).
  rewrite (skipn_app_n _ _ 4 2), (skipn_app_n _ _ 2 0), skipn_O, get16_put16, Z.mod_small in Hf
    by (try apply put32_length; try apply put16_length; lia).
  rewrite (skipn_app_n _ _ 4 4), (skipn_app_n _ _ 2 2), (skipn_app_n _ _ 2 0), skipn_O, get32_put32, Z.mod_small in Hs
    by (try apply put32_length; try apply put16_length; lia).
  rewrite (skipn_app_n _ _ 4 8), (skipn_app_n _ _ 2 6), (skipn_app_n _ _ 2 4),
    (skipn_app_n _ _ 4 0), skipn_O, get32_put32, Z.mod_small in Hp
    by (try apply put32_length; try apply put16_length; lia).
  injection Hl as <-. injection Ht as <-. injection Hf as <-. injection Hs as <-. injection Hp as <-.
  destruct r; reflexivity.
Qed.

Lemma num_put32 e v : num e (put32 e v) = v mod 4294967296.
Proof. destruct e; cbn; lia. Qed.
Lemma num_put16 e v : num e (put16 e v) = v mod 65536.
Proof. destruct e; cbn; lia. Qed.

Lemma netlink_header_roundtrip m r :
  hdr_in_range r ->
  exists b, SerializeNlMsgHdr m r = Ok b /\
    length b = 16%nat /\
    num m (field b 0 4) = n_len r /\ num m (field b 4 2) = n_type r /\
    num m (field b 6 2) = n_flags r /\ num m (field b 8 4) = n_seq r /\
    num m (field b 12 4) = n_pid r /\
    forall h buf rest, valid h buf -> rd h buf = b ++ rest ->
      exists next, NetlinkMessageToStruct m h buf = Ok (Some r, next, None) /\ rd h next = rest.
Proof.
  intros R. exists (hdr_bytes m r). split; [apply SerializeNlMsgHdr_ok|].
  split; [apply hdr_bytes_length|].
  pose proof R as (R1 & R2 & R3 & R4 & R5). unfold is_u32, is_u16 in *.
  do 5 (split; [destruct m; cbn; lia|]).
  intros h buf rest V E. eexists. split; [eapply parse_hdr_bytes; eauto|].
  rewrite rd_from, E. apply skipn_app_exact. apply hdr_bytes_length.
Qed.

Lemma netlink_header_parse_then_write m h buf :
  valid h buf -> is_bytes (rd h buf) -> (16 <= s_len buf)%nat ->
  exists r next, NetlinkMessageToStruct m h buf = Ok (Some r, next, None) /\
    rd h next = skipn 16 (rd h buf) /\ SerializeNlMsgHdr m r = Ok (firstn 16 (rd h buf)) /\
    hdr_in_range r.
Proof.
  intros V HB H.
  destruct (NetlinkMessageToStruct_ok m h buf V H) as (l & t & f & s & p & _ & Hl & Ht & Hf & Hs & Hp & ->).
  eexists _, _. split; [reflexivity|]. split; [apply rd_from|].
  assert (forall k, is_bytes (skipn k (rd h buf))) as HBk by (intros; apply is_bytes_skipn, HB).
  split.
  - rewrite SerializeNlMsgHdr_ok. f_equal. unfold hdr_bytes. cbn [n_len n_type n_flags n_seq n_pid].
    apply put32_get32 in Hl; auto. apply put16_get16 in Ht, Hf; auto.
    apply put32_get32 in Hs, Hp; auto.
    rewrite Hl, Ht, Hf, Hs, Hp.
    rewrite (firstn_is_app (rd h buf) 4 16) by lia. f_equal.
    rewrite (firstn_is_app (skipn 4 (rd h buf)) 2 (16 - 4)) by lia. f_equal.
    rewrite skipn_skipn.
    rewrite (firstn_is_app (skipn (2 + 4) (rd h buf)) 2 (16 - 4 - 2)) by lia. f_equal.
    rewrite skipn_skipn.
    rewrite (firstn_is_app (skipn (2 + (2 + 4)) (rd h buf)) 4 (16 - 4 - 2 - 2)) by lia. f_equal.
    rewrite skipn_skipn. reflexivity.
  - unfold hdr_in_range. cbn [n_len n_type n_flags n_seq n_pid].
    exact (conj (get32_range m _ _ HB Hl) (conj (get16_range m _ _ (HBk _) Ht)
      (conj (get16_range m _ _ (HBk _) Hf) (conj (get32_range m _ _ (HBk _) Hs)
        (get32_range m _ _ (HBk _) Hp))))).
Qed.

Lemma netlink_header_rejects_exactly_short m h buf :
  valid h buf ->
  if (s_len buf <? 16)%nat
  then exists e, NetlinkMessageToStruct m h buf = Ok (None, snil, Some e)
  else exists r next, NetlinkMessageToStruct m h buf = Ok (Some r, next, None).
Proof.
  intros V. destruct (Nat.ltb_spec (s_len buf) 16) as [L|L].
  - rewrite NetlinkMessageToStruct_short by exact L. eauto.
  - destruct (NetlinkMessageToStruct_ok m h buf V L) as (l & t & f & s & p & _ & _ & _ & _ & _ & _ & ->).
    eauto.
Qed.

Lemma netlink_header_buf m r b buf :
  SerializeNlMsgHdr m r = Ok b ->
  snd (SerializeNlMsgHdrBuf m r) = 16 /\
  ((16 <= length buf)%nat ->
   store_all buf (fst (SerializeNlMsgHdrBuf m r)) = Ok (b ++ skipn 16 buf)).
Proof.
  rewrite SerializeNlMsgHdr_ok. intros E. injection E as <-. split; [reflexivity|].
  intros L. cbn [SerializeNlMsgHdrBuf fst]. rewrite store_all_prefix.
  - rewrite nlmsghdr_stores_payload, hdr_bytes_length. reflexivity.
  - apply nlmsghdr_stores_contig.
  - rewrite nlmsghdr_stores_payload, hdr_bytes_length. exact L.
Qed.

(** ** C03 *)
Lemma parse_gen h buf b :
  valid h buf -> (4 <= s_len buf)%nat -> rd h buf = b ->
  NetlinkMessageToNfGenStruct h buf =
  Ok (mkGen (num BE (field b 0 1)) (num BE (field b 1 1)) (num BE (field b 2 2)),
      mkSl (s_arr buf) (s_off buf + 4) (s_len buf - 4) (s_cap buf - 4)).
Proof.
  intros V L E. pose proof (valid_len _ _ V) as HL. rewrite E in HL.
  unfold NetlinkMessageToNfGenStruct, sidx. rewrite E.
  rewrite !gidx_ok by (unfold zlen; lia). cbn [rbind].
  destruct V as [Vc _]. rewrite !resl_from_ok by lia. cbn [rbind].
  rewrite !rd_from, E. change (Z.to_nat 2) with 2%nat. rewrite num2_at by lia. cbn [rbind].
  change (Z.to_nat 4) with 4%nat. change (Z.to_nat 0) with 0%nat. change (Z.to_nat 1) with 1%nat.
  destruct b as [|x [|y [|z [|w b]]]]; cbn in HL; try lia.
  cbn -[num field]. do 3 f_equal; cbn; lia.
Qed.
Lemma parse_gen_short h buf :
  valid h buf -> (s_len buf < 4)%nat -> NetlinkMessageToNfGenStruct h buf = Panic.
Proof.
  intros V L. pose proof (valid_len _ _ V) as HL. destruct V as [Vc _].
  unfold NetlinkMessageToNfGenStruct, sidx.
  destruct (Nat.eq_dec (s_len buf) 0) as [Q|Q].
  { rewrite gidx_panic by (unfold zlen; lia). reflexivity. }
  rewrite gidx_ok by (unfold zlen; lia). cbn [rbind].
  destruct (Nat.eq_dec (s_len buf) 1) as [Q1|Q1].
  { rewrite gidx_panic by (unfold zlen; lia). reflexivity. }
  rewrite gidx_ok by (unfold zlen; lia). cbn [rbind].
  rewrite resl_from_ok by lia. cbn [rbind].
  rewrite rd_from, get16_panic; [reflexivity|]. rewrite skipn_length. lia.
Qed.

Lemma nfgen_roundtrip r :
  is_u8 (g_fam r) -> is_u8 (g_ver r) -> is_u16 (g_res r) ->
  exists b, NfqGenMsg_ToWireFormat r = Ok b /\ length b = 4%nat /\
    nth 0 b 0 = g_fam r /\ nth 1 b 0 = g_ver r /\ num BE (field b 2 2) = g_res r /\
    forall h buf rest, valid h buf -> rd h buf = b ++ rest ->
      exists next, NetlinkMessageToNfGenStruct h buf = Ok (r, next) /\ rd h next = rest.
Proof.
  intros R1 R2 R3. unfold is_u8, is_u16 in *.
  exists (gen_bytes r). split; [reflexivity|]. split; [reflexivity|].
  split; [reflexivity|]. split; [reflexivity|]. split; [cbn; lia|].
  intros h buf rest V E. pose proof (valid_len _ _ V) as HL. rewrite E in HL.
  rewrite app_length in HL. cbn in HL.
  eexists. split.
  - rewrite (parse_gen h buf _ V ltac:(lia) E). cbn. do 2 f_equal.
    destruct r as [f v s]; cbn in *. f_equal; lia.
  - rewrite rd_from, E. reflexivity.
Qed.

(** layout of attribute headers and values, and the in-place variants *)
Lemma nfgen_buf r buf : (4 <= length buf)%nat ->
  writes_prefix (NfqGenMsg_ToWireFormatBuf r) buf (gen_bytes r).
Proof.
  intros L. split; [reflexivity|]. cbn [fst NfqGenMsg_ToWireFormatBuf].
  rewrite store_all_prefix; [reflexivity| |exact L]. cbn. auto.
Qed.
Lemma nfattr_buf m r buf : (4 <= length buf)%nat ->
  writes_prefix (NfAttr_ToWireFormatBuf m r) buf (attr_bytes m r).
Proof.
  intros L. split; [destruct m; reflexivity|]. cbn [fst NfAttr_ToWireFormatBuf].
  unfold nfattr_stores. rewrite NativeEndian_id.
  rewrite store_all_prefix.
  - unfold payload, attr_bytes. cbn. rewrite app_nil_r. destruct m; reflexivity.
  - destruct m; cbn; auto.
  - destruct m; cbn; exact L.
Qed.
Lemma nfattr_layout m l t : is_u16 l -> is_u16 t ->
  exists b, NfAttr_ToWireFormat m (mkAttr l t) = Ok b /\ length b = 4%nat /\
    num m (field b 0 2) = l /\ num m (field b 2 2) = t.
Proof.
  intros H1 H2. unfold is_u16 in *. exists (attr_bytes m (mkAttr l t)).
  split; [apply NfAttr_ToWireFormat_ok|]. destruct m; cbn; repeat split; lia.
Qed.
Lemma value_layout v :
  (is_u8 v -> NfValue8_ToWireFormat v = Ok [v; 0; 0; 0]) /\
  (is_u16 v -> exists b, NfValue16_ToWireFormat v = Ok (b ++ [0; 0]) /\ length b = 2%nat /\ num BE b = v) /\
  (is_u32 v -> exists b, NfValue32_ToWireFormat v = Ok b /\ length b = 4%nat /\ num BE b = v).
Proof.
  split; [reflexivity|]. split; intros H; red in H.
  - exists (put16 BE v). split; [reflexivity|]. split; [reflexivity|]. cbn. lia.
  - exists (put32 BE v). split; [reflexivity|]. split; [reflexivity|]. cbn. lia.
Qed.
Lemma value_buf v buf : (4 <= length buf)%nat ->
  NfValue8_ToWireFormatBuf v = ([(0, [v])], 4) /\
  store_all buf (fst (NfValue8_ToWireFormatBuf v)) = Ok (v :: skipn 1 buf) /\
  (is_u16 v -> exists b, num BE b = v /\ length b = 2%nat /\ snd (NfValue16_ToWireFormatBuf v) = 4 /\
     store_all buf (fst (NfValue16_ToWireFormatBuf v)) = Ok (b ++ skipn 2 buf)) /\
  (is_u32 v -> exists b, num BE b = v /\ length b = 4%nat /\ snd (NfValue32_ToWireFormatBuf v) = 4 /\
     store_all buf (fst (NfValue32_ToWireFormatBuf v)) = Ok (b ++ skipn 4 buf)).
Proof.
  intros L. split; [reflexivity|]. split.
  { cbn [fst NfValue8_ToWireFormatBuf value8_stores].
    rewrite store_all_prefix; cbn [payload map snd concat app length]; cbn; auto. lia. }
  split; intros H; red in H.
  - exists (put16 BE v). split; [cbn; lia|]. split; [reflexivity|]. split; [reflexivity|].
    cbn [fst NfValue16_ToWireFormatBuf value16_stores].
    rewrite store_all_prefix; [reflexivity| |]; cbn; auto. lia.
  - exists (put32 BE v). split; [cbn; lia|]. split; [reflexivity|]. split; [reflexivity|].
    cbn [fst NfValue32_ToWireFormatBuf value32_stores].
    rewrite store_all_prefix; [reflexivity| |]; cbn; auto.
Qed.

(** ** C04/C05 at the level of the exported function *)
Lemma visited_attr_start m h buf p : valid h buf ->
  visited m h buf p <-> attr_start m (rd h buf) p.
Proof.
  intros V. pose proof (valid_len _ _ V) as HL. split; intros H; induction H.
  - constructor.
  - apply attr_start_next; auto; rewrite HL; auto.
  - constructor.
  - apply visited_next; auto; rewrite <- HL; auto.
Qed.

Lemma attrs_go_length d e b l : attrs_go d e b = Some l -> (4 * length l <= length b + 3)%nat.
Proof.
  revert b l; induction d as [|d IH]; intros b l; [discriminate|]. cbn [attrs_go].
  destruct b as [|b0 bs] eqn:Eb; [intros E; injection E as <-; cbn; lia|]. rewrite <- Eb.
  intros E.
  destruct (Nat.ltb_spec (length b) 4) as [C|C]; [discriminate|].
  destruct (Nat.ltb_spec (Z.to_nat (num e (field b 0 2))) 4) as [F|F]; [discriminate|].
  destruct (Nat.ltb_spec (length b) (Z.to_nat (num e (field b 0 2)))) as [D|D]; [discriminate|].
  cbn [orb] in E.
  destruct (attrs_go d e (skipn (al4 (Z.to_nat (num e (field b 0 2)))) b)) as [rest|] eqn:Er; [|discriminate].
  injection E as <-. apply IH in Er. rewrite skipn_length in Er. cbn [length].
  pose proof (al4_spec (Z.to_nat (num e (field b 0 2)))). lia.
Qed.

Lemma attr_parser_wellformed fuel m h buf hdr l :
  valid h buf -> is_bytes (rd h buf) -> Z.of_nat (s_len buf) <= 4294967292 ->
  attrs_of m (rd h buf) = Some l -> (s_len buf / 4 + 1 < fuel)%nat ->
  exists hdr', NetlinkMessageToNfAttrStruct fuel m h buf hdr = Ok (hdr', None, None) /\
    table_filled h buf l hdr hdr'.
Proof.
  intros V HB HL Hl Hf. pose proof (valid_len _ _ V) as Hlen.
  pose proof (attrs_go_length _ _ _ _ Hl) as Hb. rewrite Hlen in Hb.
  unfold NetlinkMessageToNfAttrStruct. unfold attrs_of in Hl.
  destruct (loop_fills m h buf V HL HB _ 0 l hdr fuel Hl eq_refl ltac:(lia)) as (hdr' & i & E1 & E2 & E3).
  change (Z.of_nat 0) with 0 in E1. rewrite E1. cbn [rbind].
  destruct (Z.leb_spec (Z.of_nat (s_len buf)) i) as [A|A]; [|lia].
  exists hdr'. split; [reflexivity|exact E3].
Qed.

Lemma parser_of_loop_ok fuel m h buf hdr r :
  (s_len buf <= s_cap buf)%nat ->
  nfattr_loop fuel m h buf 0 hdr = Ok r ->
  0 <= snd (fst r) ->
  exists l e, NetlinkMessageToNfAttrStruct fuel m h buf hdr = Ok (fst (fst r), l, e).
Proof.
  intros Hc E Hi. unfold NetlinkMessageToNfAttrStruct. rewrite E. cbn [rbind].
  destruct r as [[hdr' i] er]. cbn in *. destruct er; [eauto|].
  destruct (Z.leb_spec (Z.of_nat (s_len buf)) i) as [A|A]; [eauto|].
  rewrite resl_from_ok by lia. cbn. eauto.
Qed.
Lemma loop_i_nonneg fuel m h buf : valid h buf -> is_bytes (rd h buf) -> Z.of_nat (s_len buf) <= 4294967292 ->
  forall p hdr r, nfattr_loop fuel m h buf (Z.of_nat p) hdr = Ok r -> Z.of_nat (s_len buf) <= snd (fst r) \/ snd r <> None.
Proof.
  intros V HB HL. induction fuel as [|fuel IH]; intros p hdr r; [discriminate|].
  rewrite (loop_step m h buf V HL HB).
  destruct (Nat.ltb_spec p (s_len buf)) as [A|A].
  2:{ intros E. injection E as <-. cbn. left. lia. }
  destruct (Nat.ltb_spec (s_len buf) (p + 4)) as [C|C].
  { intros E. injection E as <-. cbn. left. lia. }
  destruct (Nat.leb_spec (p + decl m h buf p) (s_len buf)) as [D|D].
  2:{ intros E. injection E as <-. cbn. right. discriminate. }
  destruct (atyp m h buf p <? nfqaMax); [|apply IH].
  destruct (amap_get hdr (atyp m h buf p)); [|apply IH].
  destruct (decl m h buf p <? 4)%nat; [discriminate|]. apply IH.
Qed.

(** exactly when the parser returns *)
Lemma attr_parser_returns_iff m h buf hdr :
  valid h buf -> is_bytes (rd h buf) -> Z.of_nat (s_len buf) <= 4294967292 ->
  (exists fuel r, NetlinkMessageToNfAttrStruct fuel m h buf hdr = Ok r) <->
  (forall p, attr_complete m (rd h buf) p ->
     (4 <= attr_len m (rd h buf) p)%nat \/
     (1 <= attr_len m (rd h buf) p)%nat /\ requested hdr (attr_type m (rd h buf) p) = false).
Proof.
  intros V HB HL. pose proof (valid_len _ _ V) as Hlen. split.
  - intros (fuel & r & E) p (Hs & H4 & Hd).
    apply visited_attr_start in Hs; auto. rewrite Hlen in H4, Hd.
    destruct (le_lt_dec 4 (attr_len m (rd h buf) p)) as [G|G]; [auto|].
    destruct (Nat.eq_dec (attr_len m (rd h buf) p) 0) as [Z0|Z0];
      [|destruct (requested hdr (attr_type m (rd h buf) p)) eqn:R; [|right; split; [lia|reflexivity]]].
    all: exfalso; unfold NetlinkMessageToNfAttrStruct in E;
      destruct (nfattr_loop fuel m h buf 0 hdr) as [x| |] eqn:EL; try discriminate;
      refine (loop_stuck m h buf V HL HB hdr p Hs H4 Hd _ fuel x EL);
      intros [K|[K1 K2]]; change (decl m h buf p) with (attr_len m (rd h buf) p) in *; 
      change (atyp m h buf p) with (attr_type m (rd h buf) p) in *; try lia; congruence.
  - intros H. exists (S (s_len buf)).
    destruct (loop_returns m h buf V HL HB hdr) with (fuel := S (s_len buf)) (p := 0%nat) (hdr := hdr) as [r E].
    + intros p Hv H4 Hd. apply H. split; [apply visited_attr_start; auto|]. rewrite Hlen. auto.
    + constructor.
    + reflexivity.
    + reflexivity.
    + pose proof (al4_spec (s_len buf)). lia.
    + change (Z.of_nat 0) with 0 in E. 
      unfold NetlinkMessageToNfAttrStruct. rewrite E. cbn [rbind].
      destruct r as [[hdr' i] er]. pose proof (loop_i_nonneg _ _ _ _ V HB HL 0%nat _ _ E) as Hi. cbn in Hi.
      destruct er as [er|]; [eauto|].
      destruct (Z.leb_spec (Z.of_nat (s_len buf)) i) as [A|A]; [eauto|]. destruct Hi; [lia|congruence].
Qed.

(** enough fuel: a quarter of the length *)
Lemma attr_parser_returns m h buf hdr fuel :
  valid h buf -> is_bytes (rd h buf) -> Z.of_nat (s_len buf) <= 4294967292 ->
  (forall p, attr_complete m (rd h buf) p -> (4 <= attr_len m (rd h buf) p)%nat) ->
  (s_len buf / 4 + 1 < fuel)%nat ->
  exists hdr' er, NetlinkMessageToNfAttrStruct fuel m h buf hdr = Ok (hdr', None, er) /\
    (forall t s, amap_get hdr' t = Some s -> amap_get hdr t = Some s \/ window_in buf s).
Proof.
  intros V HB HL H Hf. pose proof (valid_len _ _ V) as Hlen.
  destruct (loop_returns m h buf V HL HB hdr) with (fuel := fuel) (p := 0%nat) (hdr := hdr) as [r E].
  - intros p Hv H4 Hd. left. apply H. split; [apply visited_attr_start; auto|]. rewrite Hlen. auto.
  - constructor.
  - reflexivity.
  - reflexivity.
  - unfold al4. lia.
  - destruct r as [[hdr' i] er]. pose proof (loop_inside m h buf V HL HB _ _ _ _ _ _ E) as Hin.
    change (Z.of_nat 0) with 0 in E. unfold NetlinkMessageToNfAttrStruct. rewrite E. cbn [rbind].
    pose proof (loop_i_nonneg _ _ _ _ V HB HL 0%nat _ _ E) as Hi. cbn in Hi.
    destruct er as [er|]; [eauto 10|].
    destruct (Z.leb_spec (Z.of_nat (s_len buf)) i) as [A|A]; [eauto 10|]. destruct Hi; [lia|congruence].
Qed.

(** a complete-looking header that claims too many bytes is an error *)
Lemma attr_parser_inside m h buf hdr fuel hdr' lo er :
  valid h buf -> is_bytes (rd h buf) -> Z.of_nat (s_len buf) <= 4294967292 ->
  NetlinkMessageToNfAttrStruct fuel m h buf hdr = Ok (hdr', lo, er) ->
  lo = None /\
  (forall t s, amap_get hdr' t = Some s -> amap_get hdr t = Some s \/ window_in buf s).
Proof.
  intros V HB HL. unfold NetlinkMessageToNfAttrStruct.
  destruct (nfattr_loop fuel m h buf 0 hdr) as [[[h1 i] e1]| |] eqn:E; cbn [rbind]; try discriminate.
  pose proof (loop_inside m h buf V HL HB fuel 0%nat hdr h1 i e1 E) as Hin.
  pose proof (loop_i_nonneg _ _ _ _ V HB HL 0%nat _ _ E) as Hi. cbn in Hi.
  destruct e1 as [e1|]; [intros Q; injection Q as <- <- <-; auto|].
  destruct (Z.leb_spec (Z.of_nat (s_len buf)) i) as [A|A]; [intros Q; injection Q as <- <- <-; auto|].
  destruct Hi; [lia|congruence].
Qed.

Lemma attr_parser_error_iff m h buf hdr fuel hdr' lo er :
  valid h buf -> is_bytes (rd h buf) -> Z.of_nat (s_len buf) <= 4294967292 ->
  NetlinkMessageToNfAttrStruct fuel m h buf hdr = Ok (hdr', lo, er) ->
  (er <> None <->
   exists p, attr_start m (rd h buf) p /\ (p + 4 <= length (rd h buf))%nat /\
             (length (rd h buf) < p + attr_len m (rd h buf) p)%nat).
Proof.
  intros V HB HL E. rewrite (valid_len _ _ V). unfold NetlinkMessageToNfAttrStruct in E.
  destruct (nfattr_loop fuel m h buf 0 hdr) as [[[h1 i] e1]| |] eqn:EL; cbn [rbind] in E; try discriminate.
  assert (er = e1).
  { destruct e1; [injection E as _ _ <-; reflexivity|].
    pose proof (loop_i_nonneg _ _ _ _ V HB HL 0%nat _ _ EL) as Hi. cbn in Hi.
    destruct (Z.leb_spec (Z.of_nat (s_len buf)) i) as [A|A]; [injection E as _ _ <-; reflexivity|].
    destruct Hi; [lia|congruence]. }
  subst e1. split.
  - intros N.
    destruct (loop_error_sound m h buf V HL HB fuel 0%nat hdr h1 i er (visited_0 _ _ _) EL)
      as [?|(_ & q & Hq & H1 & H2)]; [congruence|].
    exists q. split; [apply visited_attr_start; auto|]. auto.
  - intros (q & Hq & H1 & H2). apply visited_attr_start in Hq; [|exact V].
    rewrite (loop_error_complete m h buf V HL HB q Hq H1 H2 _ _ _ _ _ EL). discriminate.
Qed.

(** ** C06 *)
Lemma err_code_roundtrip m h buf code rest :
  valid h buf -> -2147483648 <= code < 2147483648 ->
  rd h buf = put32 m (code mod 4294967296) ++ rest ->
  exists hdr, NetlinkErrMessagetoStruct m h buf = Ok (hdr, code).
Proof.
  intros V R E. pose proof (valid_len _ _ V) as HL. unfold NetlinkErrMessagetoStruct.
  rewrite NativeEndian_id, E, get32_put32. cbn [rbind].
  rewrite E, app_length, put32_length in HL. destruct V as [Vc Va].
  rewrite resl_from_ok by lia. cbn [rbind].
  change (Z.to_nat 4) with 4%nat.
  pose proof (netlink_header_rejects_exactly_short m h _ (valid_from h buf 4 (conj Vc Va) ltac:(lia))) as K.
  assert (HC : i32 ((code mod 4294967296) mod 4294967296) = code).
  { unfold i32. rewrite Z.mod_mod by lia.
    destruct (Z.ltb_spec (code mod 4294967296) 2147483648); lia. }
  rewrite HC.
  match type of K with if ?c then _ else _ => destruct c end.
  - destruct K as [e ->]. cbn. eauto.
  - destruct K as (r & next & ->). cbn. eauto.
Qed.
Lemma err_parse_panics_iff m h buf : valid h buf ->
  (s_len buf < 4)%nat <-> NetlinkErrMessagetoStruct m h buf = Panic.
Proof.
  intros V. pose proof (valid_len _ _ V) as HL. unfold NetlinkErrMessagetoStruct.
  split.
  - intros L. rewrite get32_panic by lia. reflexivity.
  - intros E. destruct (Nat.lt_ge_cases (s_len buf) 4) as [|L]; [assumption|]. exfalso.
    destruct (get32_ok (NativeEndian m) (rd h buf)) as [v Ev]; [lia|]. rewrite Ev in E. cbn [rbind] in E.
    destruct V as [Vc Va]. rewrite resl_from_ok in E by lia. cbn [rbind] in E.
    change (Z.to_nat 4) with 4%nat in E.
    pose proof (netlink_header_rejects_exactly_short m h _ (valid_from h buf 4 (conj Vc Va) ltac:(lia))) as K.
    match type of K with if ?c then _ else _ => destruct c end.
    + destruct K as [e K]. rewrite K in E. discriminate.
    + destruct K as (r & next & K). rewrite K in E. discriminate.
Qed.

(** ** C07 *)
Lemma ip_int_roundtrip v : is_u32 v ->
  exists ip, Int2ip v = Ok ip /\ length ip = 4%nat /\ is_bytes ip /\ IP2int ip = Ok v.
Proof.
  intros H; red in H. exists (put32 BE v). split; [reflexivity|]. split; [reflexivity|].
  split; [apply is_bytes_put32|]. cbn. f_equal. lia.
Qed.
Lemma int_ip_roundtrip ip : is_bytes ip -> length ip = 4%nat ->
  IP2int ip = Ok (num BE ip) /\ Int2ip (num BE ip) = Ok ip /\ is_u32 (num BE ip).
Proof.
  intros HB L. destruct ip as [|a [|b [|c [|d [|x ip]]]]]; cbn in L; try lia.
  assert (Ha := is_bytes_nth _ 0 HB). assert (Hb := is_bytes_nth _ 1 HB).
  assert (Hc := is_bytes_nth _ 2 HB). assert (Hd := is_bytes_nth _ 3 HB). cbn in Ha, Hb, Hc, Hd.
  unfold is_byte in *.
  split; [cbn; f_equal; lia|]. split.
  - change (Int2ip (num BE [a; b; c; d])) with (Ok (put32 BE (num BE [a; b; c; d]))). f_equal.
    rewrite (put32_get32 BE [a; b; c; d]); [reflexivity|exact HB|].
    rewrite num4 by (cbn; lia). reflexivity.
  - red. cbn. lia.
Qed.
Lemma ip_v4_in_v6 ip p : length ip = 4%nat -> length p = 12%nat -> IP2int (p ++ ip) = IP2int ip.
Proof.
  intros L P. unfold IP2int. rewrite app_length, L, P. cbn [Nat.add Nat.eqb].
  rewrite gsl_ok by (unfold zlen; rewrite ?app_length; lia). cbn [rbind].
  change (Z.to_nat 12) with 12%nat. change (Z.to_nat 16) with 16%nat.
  unfold sub. rewrite skipn_app_exact by exact P. cbn [Nat.sub].
  rewrite firstn_all2 by lia. reflexivity.
Qed.

(** ** assembled statements *)
Lemma netlink_header_writes_prefix m r b buf :
  SerializeNlMsgHdr m r = Ok b -> (16 <= length buf)%nat ->
  writes_prefix (SerializeNlMsgHdrBuf m r) buf b.
Proof.
  intros E L. destruct (netlink_header_buf m r b buf E) as [H1 H2].
  assert (length b = 16%nat) as Hb.
  { rewrite SerializeNlMsgHdr_ok in E. injection E as <-. apply hdr_bytes_length. }
  split; [unfold zlen; rewrite Hb; exact H1|]. rewrite Hb. apply H2, L.
Qed.
Lemma length_helpers x :
  (0 <= x <= 4294967279 -> NlMsgLength x = x + 16) /\
  (0 <= x <= 4294967276 -> NlMsgSpace x = NlMsgAlign (x + 16)) /\
  (0 <= x <= 65528 -> NfaLength x = NfaAlign (x + 4)).
Proof.
  split; [intros H; apply NlMsgLength_spec; lia|].
  split; intros H.
  - unfold NlMsgSpace. rewrite NlMsgLength_spec by lia. reflexivity.
  - unfold NfaLength, u16, SizeofNfAttr. rewrite Z.mod_small by lia. reflexivity.
Qed.
Lemma attr_and_value_layout :
  (forall m l t, is_u16 l -> is_u16 t ->
     exists b, NfAttr_ToWireFormat m (mkAttr l t) = Ok b /\ length b = 4%nat /\
       num m (field b 0 2) = l /\ num m (field b 2 2) = t) /\
  (forall v, is_u8 v -> NfValue8_ToWireFormat v = Ok [v; 0; 0; 0]) /\
  (forall v, is_u16 v -> exists b, NfValue16_ToWireFormat v = Ok (b ++ [0; 0]) /\
     length b = 2%nat /\ num BE b = v) /\
  (forall v, is_u32 v -> exists b, NfValue32_ToWireFormat v = Ok b /\
     length b = 4%nat /\ num BE b = v).
Proof.
  split; [exact nfattr_layout|]. split; [intros v; apply value_layout|].
  split; intros v; apply value_layout.
Qed.
Lemma in_place_variants buf : (4 <= length buf)%nat ->
  (forall r b, NfqGenMsg_ToWireFormat r = Ok b -> writes_prefix (NfqGenMsg_ToWireFormatBuf r) buf b) /\
  (forall m r b, NfAttr_ToWireFormat m r = Ok b -> writes_prefix (NfAttr_ToWireFormatBuf m r) buf b) /\
  (forall v b, NfValue32_ToWireFormat v = Ok b -> writes_prefix (NfValue32_ToWireFormatBuf v) buf b) /\
  (forall v b, NfValue16_ToWireFormat v = Ok b ->
     snd (NfValue16_ToWireFormatBuf v) = 4 /\
     store_all buf (fst (NfValue16_ToWireFormatBuf v)) = Ok (firstn 2 b ++ skipn 2 buf)) /\
  (forall v b, NfValue8_ToWireFormat v = Ok b ->
     snd (NfValue8_ToWireFormatBuf v) = 4 /\
     store_all buf (fst (NfValue8_ToWireFormatBuf v)) = Ok (firstn 1 b ++ skipn 1 buf)).
Proof.
  intros L.
  split; [intros r b E; rewrite NfqGenMsg_ToWireFormat_ok in E; injection E as <-; apply nfgen_buf, L|].
  split; [intros m r b E; rewrite NfAttr_ToWireFormat_ok in E; injection E as <-; apply nfattr_buf, L|].
  split; [|split].
  - intros v b E. change (NfValue32_ToWireFormat v) with (Ok (put32 BE v)) in E. injection E as <-.
    split; [reflexivity|]. cbn [fst NfValue32_ToWireFormatBuf value32_stores].
    rewrite store_all_prefix; [reflexivity|cbn; auto|exact L].
  - intros v b E. change (NfValue16_ToWireFormat v) with (Ok (put16 BE v ++ [0;0])) in E.
    injection E as <-. split; [reflexivity|]. cbn [fst NfValue16_ToWireFormatBuf value16_stores].
    rewrite store_all_prefix; [reflexivity|cbn; auto|cbn; lia].
  - intros v b E. change (NfValue8_ToWireFormat v) with (Ok [v; 0; 0; 0]) in E. injection E as <-.
    split; [reflexivity|]. cbn [fst NfValue8_ToWireFormatBuf value8_stores].
    rewrite store_all_prefix; [reflexivity|cbn; auto|cbn; lia].
Qed.
Lemma land65532 x : 0 <= x < 65536 -> Z.land x 65532 = 4 * (x / 4).
Proof.
  intros H. change 65532 with (Z.ldiff (Z.ones 16) 3).
  rewrite Z.ldiff_land, Z.land_assoc, Z.land_ones by lia.
  rewrite <- Z.ldiff_land. change (2 ^ 16) with 65536. rewrite Z.mod_small by lia.
  apply ldiff3. lia.
Qed.
Lemma NfaAlign16_spec x : is_u16 x ->
  NfaAlign16 x = if x <=? 65532 then 4 * ((x + 3) / 4) else 0.
Proof.
  intros H. red in H. unfold NfaAlign16, u16. rewrite land65532 by lia.
  destruct (Z.leb_spec x 65532) as [L|L]; lia.
Qed.
Lemma alignment_rounds_up :
  rounds_up_to4 NlMsgAlign 4294967296 /\ rounds_up_to4 NfaAlign32 4294967296 /\
  rounds_up_to4 NfaAlign 65536 /\ rounds_up_to4 NfaAlign16 65536.
Proof.
  split; [|split; [|split]]; apply rounds_up_intro; try reflexivity.
  - apply NlMsgAlign_spec.
  - apply NfaAlign32_spec.
  - apply NfaAlign_spec.
  - apply NfaAlign16_spec.
Qed.
Lemma hostile_bytes :
  (exists h buf tbl, valid h buf /\ is_bytes (rd h buf) /\
     forall fuel, NetlinkMessageToNfAttrStruct fuel LE h buf tbl = NoFuel) /\
  (exists h buf tbl, valid h buf /\ is_bytes (rd h buf) /\
     forall fuel, NetlinkMessageToNfAttrStruct (S fuel) LE h buf tbl = Panic).
Proof.
  split.
  - exists [[0;0;9;0]], (mkSl 0 0 4 4), [(1, snil); (3, snil); (10, snil)].
    split; [unfold valid; cbn; lia|]. split; [bytes_tac|].
    intros fuel. unfold NetlinkMessageToNfAttrStruct.
    assert (E : nfattr_loop fuel LE [[0;0;9;0]] (mkSl 0 0 4 4) 0 [(1, snil); (3, snil); (10, snil)] = NoFuel).
    { induction fuel as [|fuel IH]; [reflexivity|]. exact IH. }
    rewrite E. reflexivity.
  - exists [[3;0;3;0]], (mkSl 0 0 4 4), [(1, snil); (3, snil); (10, snil)].
    split; [unfold valid; cbn; lia|]. split; [bytes_tac|].
    intros fuel. reflexivity.
Qed.
