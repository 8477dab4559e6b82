(** Packet descriptions, value accessors, the conntrack listing: C74-C76. *)
From Verif Require Import Proof.TextFacts Model.Accessors Model.CtTable Proof.CommonProps Proof.CtFacts
  Properties.P_PktOps Properties.P_PktTcp Properties.P_Conntrack Properties.P_Config Spec.Samples.
From Coq Require Import String.
From Verif Require Import Go.Base.

(** ** C74 *)
(** [describe] is the library's reading of the IP header: arbitrary. *)
Theorem C74_text_shows_packet : forall describe h p hd,
  tcp_agrees h p -> attached_ok h p -> describe (rd h (Buffer p)) = Some hd ->
  let b := rd h (Buffer p) in let o := hl p in
  exists sp dp ck dt,
    PacketToStringTCP describe h p =
      hd ++ text " srcport=" ++ sp ++ text " dstport=" ++ dp ++ text " tcpcksum=0x" ++ ck ++ text " data" ++ dt /\
    is_decimal (l4_sport b o) sp /\ is_decimal (l4_dport b o) dp /\
    ck <> [] /\ hex_number 0 ck = Some (tcp_checksum b o) /\
    read_hex dt = Some (GetTCPBytes h p).
Proof. exact packet_text. Qed.
Print Assumptions C74_text_shows_packet.
(** packets with the same text have the same bytes *)
Theorem C74_text_identifies_bytes : forall describe h1 p1 h2 p2,
  tcp_agrees h1 p1 -> attached_ok h1 p1 -> tcp_agrees h2 p2 -> attached_ok h2 p2 ->
  describe (rd h1 (Buffer p1)) <> None -> describe (rd h2 (Buffer p2)) <> None ->
  PacketToStringTCP describe h1 p1 = PacketToStringTCP describe h2 p2 -> GetTCPBytes h1 p1 = GetTCPBytes h2 p2.
Proof. exact text_identifies. Qed.
Print Assumptions C74_text_identifies_bytes.
Theorem C74_unreadable_header : forall describe h p, describe (rd h (Buffer p)) = None ->
  PacketToStringTCP describe h p = text "(error)".
Proof. intros describe h p E. unfold PacketToStringTCP. rewrite E. reflexivity. Qed.
Print Assumptions C74_unreadable_header.
Example C74_hypotheses_met :
  tcp_agrees st4 pk4 /\ attached_ok st4 pk4 /\
  exists dt, PacketToStringTCP (fun _ => Some (text "ver=4")) st4 pk4 =
    text "ver=4 srcport=1000 dstport=80 tcpcksum=0x" ++ hexstr (tcpChecksum pk4) ++ text " data450000" ++ dt.
Proof. split; [apply tcp4_state|]. split; [apply tcp4_state|]. eexists. vm_compute. reflexivity. Qed.

(** ** C75 *)
(** what was set is what the getters and the wire show; the other field is kept *)
Theorem C75_attribute_header : forall m r t l, is_u16 t -> is_u16 l ->
  let r' := SetNfaLen (SetNfaType r t) l in
  GetNfaType r' = t /\ GetNfaLen r' = l /\
  GetNfaLen (SetNfaType r t) = GetNfaLen r /\ GetNfaType (SetNfaLen r l) = GetNfaType r /\
  exists b, NfAttr_ToWireFormat m r' = Ok b /\ length b = 4%nat /\ num m (field b 0 2) = l /\ num m (field b 2 2) = t.
Proof.
  intros m r t l T L r'. split; [reflexivity|]. split; [reflexivity|]. split; [reflexivity|]. split; [reflexivity|].
  destruct attr_and_value_layout as (A & _). exact (A m l t L T).
Qed.
Print Assumptions C75_attribute_header.
Theorem C75_values : forall old v,
  (is_u8 v -> Get8Value (Set8Value old v) = v /\ NfValue8_ToWireFormat (Set8Value old v) = Ok [v; 0; 0; 0]) /\
  (is_u16 v -> Get16Value (Set16Value old v) = v /\
     exists b, NfValue16_ToWireFormat (Set16Value old v) = Ok (b ++ [0; 0]) /\ length b = 2%nat /\ num BE b = v) /\
  (is_u32 v -> Get32Value (Set32Value old v) = v /\
     exists b, NfValue32_ToWireFormat (Set32Value old v) = Ok b /\ length b = 4%nat /\ num BE b = v).
Proof.
  intros old v. destruct attr_and_value_layout as (_ & A & B & C).
  split; [intros H; split; [reflexivity|apply A; exact H]|].
  split; intros H; (split; [reflexivity|]); [apply B|apply C]; exact H.
Qed.
Print Assumptions C75_values.
(** the nfgen getters show the received bytes *)
Theorem C75_nfgen_getters : forall h buf g next, valid h buf ->
  NetlinkMessageToNfGenStruct h buf = Ok (g, next) ->
  GetNfgenFamily g = num BE (field (rd h buf) 0 1) /\ GetNfgenVersion g = num BE (field (rd h buf) 1 1) /\
  GetNfgenResID g = num BE (field (rd h buf) 2 2).
Proof.
  intros h buf g next V E. destruct (Compare_dec.le_lt_dec 4 (s_len buf)) as [L|L].
  - rewrite (parse_gen h buf (rd h buf) V L eq_refl) in E. injection E as <- _. split; [reflexivity|]. split; reflexivity.
  - rewrite (parse_gen_short h buf V L) in E. discriminate E.
Qed.
Print Assumptions C75_nfgen_getters.
(** a payload is created with the bytes asked for, all zero; memory in use is not touched *)
Theorem C75_netlink_data : forall h n, 0 <= n ->
  let r := SetNetlinkData h n in let s := GetNetlinkData (snd r) in
  valid (fst r) s /\ rd (fst r) s = repeat 0 (Z.to_nat n) /\
  forall t, valid h t -> s_cap t <> 0%nat -> s_arr t <> s_arr s /\ rd (fst r) t = rd h t.
Proof.
  intros h n N r s. subst s r. unfold SetNetlinkData, GetNetlinkData, gmake.
  split; [|split].
  - split; [cbn; lia|]. right. cbn [alloc fst snd s_arr s_off s_cap]. rewrite app_length. cbn [length]. split; [lia|].
    change (arr (h ++ [repeat 0 (Z.to_nat n) ++ repeat 0 0]) (length h)) with (arr (fst (alloc h (repeat 0 (Z.to_nat n)) 0)) (length h)).
    rewrite arr_alloc_new, app_length. cbn [repeat length]. lia.
  - apply rd_alloc_new.
  - intros t [_ [C|[L _]]] C'; [contradiction|]. split; [cbn [alloc snd s_arr]; lia|]. apply rd_alloc_old. exact L.
Qed.
Print Assumptions C75_netlink_data.
Example C75_hypotheses_met :
  GetNfaType (SetNfaLen (SetNfaType (mkAttr 0 0) 32769) 12) = 32769 /\
  NfAttr_ToWireFormat BE (SetNfaLen (SetNfaType (mkAttr 0 0) 32769) 12) = Ok [0; 12; 128; 1].
Proof. split; vm_compute; reflexivity. Qed.

(** ** C76 *)
(** the library's answer for IPv4 is passed on; its errors are reported *)
Theorem C76_list_partial : forall lib table,
  (forall flows, lib table 2 = (Some flows, None) -> ConntrackTableList lib table = (Some flows, None)) /\
  (forall e, snd (lib table 2) = Some e ->
     fst (ConntrackTableList lib table) = None /\ snd (ConntrackTableList lib table) <> None).
Proof.
  intros lib table. unfold ConntrackTableList, AF_INET. split.
  - intros flows ->. reflexivity.
  - intros e E. destruct (lib table 2) as [[l|] [er|]]; cbn in *; try discriminate E; split; congruence.
Qed.
Print Assumptions C76_list_partial.
(** listing and updating: exactly the matching ones of the table's IPv4 flows are updated *)
Theorem C76_list_then_update : forall lib table m t mark hi e flows w,
  lib table 2 = (Some flows, None) -> Forall flow_ok flows ->
  tuple5_ok t -> is_u32 mark -> mark <> 0 -> replies_within 20 hi e -> sockets_open e ->
  exists listed k err w' new er,
    ConntrackTableList lib table = (Some listed, None) /\
    ConntrackTableUpdateMarkForAvailableFlow m listed
      (f_src t) (f_dst t) (f_proto t) (f_sport t) (f_dport t) mark e w =
      (Ok (match err with None => Z.of_nat k | Some _ => 0 end, er), w') /\
    w_tr w' = w_tr w ++ new /\ (er = None <-> err = None) /\
    updates m (ct_update m t [mark_attr mark]) (flow_matches t) flows k new err.
Proof.
  intros lib table m t mark hi e flows w L F T K N R O.
  destruct (C32_only_matching_flows_updated m t mark hi e flows w T K N R O F) as (k & err & w' & new & er & H).
  exists flows, k, err, w', new, er. split; [apply C76_list_partial; exact L|exact H].
Qed.
Print Assumptions C76_list_then_update.
(** Refuted: an empty table (the library's nil slice, no error) is an error ... *)
Theorem C76_empty_table_refuted : forall lib table, lib table 2 = (None, None) ->
  snd (ConntrackTableList lib table) <> None.
Proof. intros lib table E. unfold ConntrackTableList, AF_INET. rewrite E. discriminate. Qed.
Print Assumptions C76_empty_table_refuted.
(** ... and what the table holds for any other family makes no difference *)
Theorem C76_other_families_refuted : forall lib lib' table, lib table 2 = lib' table 2 ->
  ConntrackTableList lib table = ConntrackTableList lib' table.
Proof. intros lib lib' table E. unfold ConntrackTableList, AF_INET. rewrite E. reflexivity. Qed.
Print Assumptions C76_other_families_refuted.
Example C76_hypotheses_met :
  let lib : lib_list := fun _ fam => if fam =? 2 then (Some [sample_flow; other_flow], None) else (Some [other_flow; other_flow], None) in
  lib 1 2 = (Some [sample_flow; other_flow], None) /\ lib 1 10 <> lib 1 2 /\
  Forall flow_ok [sample_flow; other_flow] /\ tuple5_ok sample_tuple /\ flow_matches sample_tuple sample_flow.
Proof.
  split; [reflexivity|]. split; [discriminate|].
  split; [pose proof sample_flows_ok as X; inversion X; inversion H2; subst; apply Forall_cons; [assumption|apply Forall_cons; [assumption|apply Forall_nil]]|].
  split; [exact sample_tuple_ok|]. unfold flow_matches, same_v4; cbn; tauto.
Qed.
