(** Model of package conntrack (conntrack/conntrack.go, sockets.go). *)
From Verif Require Export Model.NfLog.

(** ** Constants (conntrack/constants.go) *)
Definition NLA_F_NESTED : Z := 32768.      (* constants.go:5 *)
(* constants.go:40-46 *)
Definition CTA_TUPLE_ORIG : Z := 1.
(* constants.go:40-46 *)
Definition CTA_MARK : Z := 8.
(* constants.go:40-46 *)
Definition CTA_PROTOINFO : Z := 4.
Definition CTA_LABELS : Z := 22.           (* constants.go:39-46 *)
(* constants.go:58 *)
Definition CTA_TUPLE_IP : Z := 1.
Definition CTA_TUPLE_PROTO : Z := 2.       (* constants.go:57-58 *)
(* constants.go:72 *)
Definition CTA_IP_V4_SRC : Z := 1.
Definition CTA_IP_V4_DST : Z := 2.         (* constants.go:71-72 *)
(* constants.go:93 *)
Definition CTA_PROTO_NUM : Z := 1.
(* constants.go:94 *)
Definition CTA_PROTO_SRC_PORT : Z := 2.
Definition CTA_PROTO_DST_PORT : Z := 3.    (* constants.go:92-94 *)
Definition CTA_PROTOINFO_TCP : Z := 1.     (* constants.go:106 *)
(* constants.go:124 *)
Definition CTA_PROTOINFO_TCP_FLAGS_ORIGINAL : Z := 4.
Definition CTA_PROTOINFO_TCP_FLAGS_REPLY : Z := 5.   (* constants.go:123-124 *)
(* constants.go:131 *)
Definition SizeOfNestedTupleOrig : Z := 48.
(* constants.go:133 *)
Definition SizeOfNestedTupleIP : Z := 16.
(* constants.go:135 *)
Definition SizeOfNestedTupleProto : Z := 24.
(* constants.go:137 *)
Definition SizeofNestedProtoInfo : Z := 20.
Definition SizeofNestedProtoInfoTCP : Z := 16.       (* constants.go:130-138 *)
(* constants.go:151 *)
Definition PROTO_NUM_LEN : Z := 5.
(* constants.go:152 *)
Definition PROTO_SRC_PORT_LEN : Z := 6.
Definition PROTO_DST_PORT_LEN : Z := 6.    (* constants.go:150-152 *)
Definition TCP_PROTO : Z := 6.             (* common/constants.go:113 *)

(** Addresses are given to this package as strings and parsed by net.ParseIP
    (standard library).  The model takes the parse result: [] for nil, else the
    bytes ParseIP returned (16 of them). *)

(** A flow as listed by vishvananda/netlink: the two tuples. *)
(* the fields of netlink.ConntrackFlow read at conntrack.go:119-147 *)
Record tuple := mkT { t_src : bytes; t_dst : bytes; t_proto : Z; t_sport : Z; t_dport : Z }.
(* the fields of netlink.ConntrackFlow read at conntrack.go:119-147 *)
Record flow := mkF { f_fwd : tuple; f_rev : tuple }.

(* conntrack.go:115-154.  The conjunctions are evaluated left to right with
   Go's short circuit (it matters for the panics of IP2int). *)
Definition and_then (a : res bool) (b : res bool) : res bool :=
  let* x := a in if x then b else Ok false.
(* the address comparisons of conntrack.go:119, 125 *)
Definition ip_eq (a b : bytes) : res bool :=
  let* x := IP2int a in let* y := IP2int b in Ok (x =? y).
(* conntrack.go:115-154 *)
Definition checkTuplesInFlow (fl : flow) (ipSrc ipDst : bytes) (protonum srcport dstport : Z)
  : res bool :=
  let* isSrcIP := and_then (ip_eq (t_src (f_fwd fl)) ipSrc) (ip_eq (t_src (f_rev fl)) ipDst) in
  let* isDstIP := and_then (ip_eq (t_dst (f_fwd fl)) ipDst) (ip_eq (t_dst (f_rev fl)) ipSrc) in
  let isProto := (t_proto (f_fwd fl) =? protonum) && (t_proto (f_rev fl) =? protonum) in
  let isSrcPort := (t_sport (f_fwd fl) =? srcport) && (t_sport (f_rev fl) =? dstport) in
  let isDstPort := (t_dport (f_fwd fl) =? dstport) && (t_dport (f_rev fl) =? srcport) in
  Ok (isSrcIP && isDstIP && isSrcPort && isDstPort && isProto).

(* conntrack.go:159-199 *)
Definition buildConntrackUpdateRequest (m : endian) (ipSrc ipDst : bytes)
  (protonum srcport dstport : Z) : res (nlmsghdr * bytes) :=
  let* src := IP2int ipSrc in
  let* dst := IP2int ipDst in
  let hdr := BuildNlMsgHeader NfnlConntrackTable (Z.lor NlmFRequest NlmFAck) 0 in
  let '(nfgen, hdr) := BuildNfgenMsg AF_INET 0 0 hdr in
  let '(tupleOrig, hdr) := BuildNfAttrMsg (Z.lor NLA_F_NESTED CTA_TUPLE_ORIG) hdr SizeOfNestedTupleOrig in
  let tupleIP := BuildNfNestedAttrMsg (Z.lor NLA_F_NESTED CTA_TUPLE_IP) SizeOfNestedTupleIP in
  let v4src := BuildNfNestedAttrMsg CTA_IP_V4_SRC NfValue32_Length in
  let v4dst := BuildNfNestedAttrMsg CTA_IP_V4_DST NfValue32_Length in
  let tupleProto := BuildNfNestedAttrMsg (Z.lor NLA_F_NESTED CTA_TUPLE_PROTO) SizeOfNestedTupleProto in
  let protoNum := BuildNfAttrWithPaddingMsg CTA_PROTO_NUM PROTO_NUM_LEN in
  let srcPort := BuildNfAttrWithPaddingMsg CTA_PROTO_SRC_PORT PROTO_SRC_PORT_LEN in
  let dstPort := BuildNfAttrWithPaddingMsg CTA_PROTO_DST_PORT PROTO_DST_PORT_LEN in
  let size := 3 * SizeofNfAttr + SizeofNfGenMsg + 2 * NfaLength (u16 SizeOfValue32)
              + 2 * NfaLength (u16 SizeOfValue16) + NfaLength (u16 SizeOfValue8) in
  let* buf := store_all (gmake size)
    (seq_stores 0
       [ NfqGenMsg_ToWireFormatBuf nfgen;
         NfAttr_ToWireFormatBuf m tupleOrig;
         NfAttr_ToWireFormatBuf m tupleIP;
         NfAttr_ToWireFormatBuf m v4src;
         NfValue32_ToWireFormatBuf src;
         NfAttr_ToWireFormatBuf m v4dst;
         NfValue32_ToWireFormatBuf dst;
         NfAttr_ToWireFormatBuf m tupleProto;
         NfAttr_ToWireFormatBuf m protoNum;
         NfValue8_ToWireFormatBuf protonum;
         NfAttr_ToWireFormatBuf m srcPort;
         NfValue16_ToWireFormatBuf srcport;
         NfAttr_ToWireFormatBuf m dstPort;
         NfValue16_ToWireFormatBuf dstport ]) in
  Ok (hdr, buf).

(* conntrack.go:202-209 *)
Definition appendMark (m : endian) (mark : Z) (hdr : nlmsghdr) : res (bytes * nlmsghdr) :=
  let '(a, hdr) := BuildNfAttrMsg CTA_MARK hdr NfValue32_Length in
  let* ab := NfAttr_ToWireFormat m a in
  let* vb := NfValue32_ToWireFormat mark in
  Ok (ab ++ vb, hdr).
(* conntrack.go:212-222 *)
Definition appendLabel (m : endian) (label : Z) (hdr : nlmsghdr) : res (bytes * nlmsghdr) :=
  let '(a, hdr) := BuildNfAttrMsg CTA_LABELS hdr NfValue32_Length in
  let* vb := gput (gmake SizeOfValue32) 0 (put32 (NativeEndian m) label) in
  let* ab := NfAttr_ToWireFormat m a in
  Ok (ab ++ vb, hdr).
(* conntrack.go:226-246 *)
Definition appendProtoInfo (m : endian) (hdr : nlmsghdr) : res (bytes * nlmsghdr) :=
  let '(protoData, hdr) := BuildNfAttrMsg (Z.lor NLA_F_NESTED CTA_PROTOINFO) hdr SizeofNestedProtoInfo in
  let protoTCP := BuildNfNestedAttrMsg (Z.lor NLA_F_NESTED CTA_PROTOINFO_TCP) SizeofNestedProtoInfoTCP in
  let protoOriginal := BuildNfAttrWithPaddingMsg CTA_PROTOINFO_TCP_FLAGS_ORIGINAL NfValue16_Length in
  let protoReply := BuildNfAttrWithPaddingMsg CTA_PROTOINFO_TCP_FLAGS_REPLY NfValue16_Length in
  let* b1 := NfAttr_ToWireFormat m protoData in
  let* b2 := NfAttr_ToWireFormat m protoTCP in
  let* b3 := NfAttr_ToWireFormat m protoOriginal in
  let* b4 := NfValue16_ToWireFormat 2570 in
  let* b5 := NfAttr_ToWireFormat m protoReply in
  let* b6 := NfValue16_ToWireFormat 2570 in
  Ok (((((b1 ++ b2) ++ b3) ++ b4) ++ b5) ++ b6, hdr).

(** The Handles object carries no state that the update calls use. *)
(* no code: computations of package conntrack (its handle holds no state, conntrack/types.go:25-28) *)
Definition MC := M unit.

(* conntrack/sockets.go:12-28: the file descriptor or the error *)
Definition ct_open : MC (Z + gerr) :=
  let! r := do_call (KSocket AF_NETLINK SOCK_RAW NETLINK_NETFILTER) in
  match r_err r with
  | Some en => ret (inr (ESys en))
  | None =>
      let fd := r_val r in
      let! rb := do_call (KBind fd AF_NETLINK) in
      match r_err rb with
      | Some en => ret (inr (ESys en))
      | None => ret (inl fd)
      end
  end.

(* conntrack/sockets.go:30-36 *)
Definition ct_query (m : endian) (fd : Z) (hdr : nlmsghdr) (data : bytes) : MC (option gerr) :=
  let! x := sock_send m fd hdr data in
  let '(buf, e) := x in
  match e with
  | Some er => ret (Some er)
  | None => sock_recv m fd buf
  end.

(* conntrack.go:248-261: [defer sh.close()] comes before the error check, so a
   failed open (sh nil) panics *)
Definition sendMessage (m : endian) (hdr : nlmsghdr) (data : bytes) : MC (option gerr) :=
  let! o := ct_open in
  match o with
  | inr _ => mpanic
  | inl fd =>
      deferred (ct_query m fd hdr data)
               (let! _ := do_call (KClose fd) in ret tt)
  end.

(* conntrack.go:65-75 *)
Definition ConntrackTableUpdateMark (m : endian) (ipSrc ipDst : bytes)
  (protonum srcport dstport newmark : Z) : MC (option gerr) :=
  let! x := lift (buildConntrackUpdateRequest m ipSrc ipDst protonum srcport dstport) in
  let '(hdr, data) := x in
  let! y := lift (appendMark m newmark hdr) in
  let '(md, hdr) := y in
  sendMessage m hdr (data ++ md).

(* conntrack.go:45-61: the loop; the result is the count and the error *)
Fixpoint mark_loop (m : endian) (flows : list flow) (ipSrc ipDst : bytes)
  (protonum srcport dstport newmark : Z) (entriesUpdated : Z) : MC (Z * option gerr) :=
  match flows with
  | [] => if 0 <=? entriesUpdated then ret (entriesUpdated, None)
          else ret (-1, Some ENotPresent)
  | fl :: fs =>
      let! present := lift (checkTuplesInFlow fl ipSrc ipDst protonum srcport dstport) in
      if present && negb (newmark =? 0) then
        let! e := ConntrackTableUpdateMark m ipSrc ipDst protonum srcport dstport newmark in
        match e with
        | Some er => ret (0, Some (EWrapped 10 er))
        | None => mark_loop m fs ipSrc ipDst protonum srcport dstport newmark (entriesUpdated + 1)
        end
      else mark_loop m fs ipSrc ipDst protonum srcport dstport newmark entriesUpdated
  end.
(* conntrack.go:41-62 *)
Definition ConntrackTableUpdateMarkForAvailableFlow (m : endian) (flows : list flow)
  (ipSrc ipDst : bytes) (protonum srcport dstport newmark : Z) : MC (Z * option gerr) :=
  mark_loop m flows ipSrc ipDst protonum srcport dstport newmark 0.

(** the request of conntrack.go:89-96 *)
Definition label_request (m : endian) (ipSrc ipDst : bytes)
  (protonum srcport dstport newlabels : Z) : res (nlmsghdr * bytes) :=
  let* x := buildConntrackUpdateRequest m ipSrc ipDst protonum srcport dstport in
  let '(hdr, data) := x in
  let* y := (if protonum =? TCP_PROTO then
               let* z := appendProtoInfo m hdr in
               let '(pd, hdr) := z in Ok (data ++ pd, hdr)
             else Ok (data, hdr)) in
  let '(data, hdr) := y in
  let* z := appendLabel m newlabels hdr in
  let '(ld, hdr) := z in
  Ok (hdr, data ++ ld).

(* conntrack.go:85-110 *)
Fixpoint label_loop (m : endian) (flows : list flow) (ipSrc ipDst : bytes)
  (protonum srcport dstport newlabels : Z) (entriesUpdated : Z) : MC (Z * option gerr) :=
  match flows with
  | [] => if 0 <=? entriesUpdated then ret (entriesUpdated, None)
          else ret (0, Some ENotPresent)
  | fl :: fs =>
      let! present := lift (checkTuplesInFlow fl ipSrc ipDst protonum srcport dstport) in
      if present then
        let! x := lift (label_request m ipSrc ipDst protonum srcport dstport newlabels) in
        let '(hdr, data) := x in
        let! e := sendMessage m hdr data in
        match e with
        | Some er => ret (0, Some er)
        | None => label_loop m fs ipSrc ipDst protonum srcport dstport newlabels (entriesUpdated + 1)
        end
      else label_loop m fs ipSrc ipDst protonum srcport dstport newlabels entriesUpdated
  end.
(* conntrack.go:80-111 *)
Definition ConntrackTableUpdateLabel (m : endian) (flows : list flow)
  (ipSrc ipDst : bytes) (protonum srcport dstport newlabels : Z) : MC (Z * option gerr) :=
  label_loop m flows ipSrc ipDst protonum srcport dstport newlabels 0.
