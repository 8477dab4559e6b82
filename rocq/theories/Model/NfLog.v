(** Model of package nflog (nflog/nflog.go, sockets.go, helpers.go). *)
From Verif Require Export Model.Sys Model.Packet Model.NfQueue.

(** ** Constants (nflog/constants.go) *)
Definition NFULNL_CFG_CMD_BIND : Z := 1.       (* constants.go:15-21 *)
(* constants.go:20 *)
Definition NFULNL_CFG_CMD_PF_BIND : Z := 3.
(* constants.go:21 *)
Definition NFULNL_CFG_CMD_PF_UNBIND : Z := 4.
Definition NFULNL_COPY_PACKET : Z := 2.        (* constants.go:23-27 *)
Definition NFULA_CFG_CMD : Z := 1.             (* constants.go:30-38 *)
(* constants.go:34 *)
Definition NFULA_CFG_MODE : Z := 2.
Definition NFULA_PAYLOAD : Z := 9.             (* constants.go:41-62 *)
(* constants.go:53 *)
Definition NFULA_PREFIX : Z := 10.
Definition NFLogPacketType : Z := 1024.        (* (NFNL_SUBSYS_ULOG << 8) | NFULNL_MSG_PACKET *)
Definition IPVersion : Z := 4.                 (* constants.go:70 *)

(* helpers.go:40-42 *)
Definition NfaAlign16 (v : Z) : Z := Z.land (u16 (v + 3)) 65532.

(* helpers.go:11-13: unsafe.Sizeof of {uint8} *)
Definition NflMsgConfigCommand_Length : Z := 1.
(* helpers.go:16-18: unsafe.Sizeof of {uint32; uint8} *)
Definition NflMsgConfigMode_Length : Z := 8.
(* helpers.go:21-27 *)
Definition NflMsgConfigCommand_ToWireFormat (command : Z) : res bytes :=
  store_all (gmake 4) [ (0, [u8 command]) ].
(* helpers.go:30-37 *)
Definition NflMsgConfigMode_ToWireFormat (copyRange copyMode : Z) : res bytes :=
  store_all (gmake 8) [ (0, put32 BE copyRange); (4, [u8 copyMode]) ].

(** ** The handle (types.go:15-23, 53-60).  Callbacks are user code observed as
    events; only whether they are nil matters to the code. *)
Record lsock := mkLS { ls_fd : Z; ls_buf : slice }.
(* nflog/types.go:15-22 *)
Record nflog := mkL { l_cb : bool; l_ecb : bool; l_sock : option lsock }.
(* no code: computations on the handle of nflog/types.go:15-22 *)
Definition ML := M nflog.

(* nflog.go:18-21 *)
Definition NewNFLog : ML unit := put_st (mkL false false None).

(* nflog.go:52-76; the result is the error *)
Definition NFlogOpen : ML (option gerr) :=
  let! r := do_call (KSocket AF_NETLINK SOCK_RAW NETLINK_NETFILTER) in
  match r_err r with
  | Some en => ret (Some (ESys en))
  | None =>
      let fd := r_val r in
      let! rb := do_call (KBind fd AF_NETLINK) in
      match r_err rb with
      | Some en => ret (Some (ESys en))
      | None =>
          let! _ := do_call (KSetsockoptInt fd SOL_NETLINK NETLINK_NO_ENOBUFS 1) in
          let! l := get_st in
          let! _ := put_st (mkL (l_cb l) (l_ecb l) (Some (mkLS fd snil))) in
          ret None
      end
  end.

(** nflog/sockets.go:47-58 and conntrack/sockets.go:64-74 are the same code: the
    request is built in a fresh buffer which also becomes the receive buffer.
    The result is that buffer and the error. *)
Definition sock_send {S} (m : endian) (fd : Z) (hdr : nlmsghdr) (data : bytes)
  : M S (slice * option gerr) :=
  let! bs := lift (send_bytes m hdr data) in
  let! buf := m_alloc bs 0 in
  let! r := do_call (KSendto fd bs 0) in
  match r_err r with
  | Some en => ret (buf, Some (ESys en))
  | None => ret (buf, None)
  end.

(** nflog/sockets.go:20-45 and conntrack/sockets.go:38-62 are the same code *)
Definition sock_recv {S} (m : endian) (fd : Z) (buf : slice) : M S (option gerr) :=
  let! x := sys_recvfrom fd buf 0 in
  match x with
  | (Some en, _) => ret (Some (ERecv en))
  | (None, n) =>
      let! b := lift (resl_to buf n) in
      let! h := get_heap in
      let! y := lift (NetlinkMessageToStruct m h b) in
      match y with
      | (_, _, Some e) => ret (Some e)
      | (None, _, None) => mpanic                       (* not produced *)
      | (Some hdr, next, None) =>
          let! stop :=
            (if n_type hdr =? NlMsgError then
               let! z := lift (NetlinkErrMessagetoStruct m h next) in
               ret (if snd z =? 0 then None else Some (ENetlink (snd z)))
             else ret None) in
          match stop with
          | Some e => ret (Some e)
          | None =>
              let! _ := lift (NetlinkMessageToNfGenStruct h next) in
              ret None
          end
      end
  end.

(* nflog/sockets.go:12-18 *)
Definition nfl_query (m : endian) (k : lsock) (hdr : nlmsghdr) (data : bytes) : ML (option gerr) :=
  let! x := sock_send m (ls_fd k) hdr data in
  let '(buf, e) := x in
  let! l := get_st in
  let! _ := put_st (mkL (l_cb l) (l_ecb l) (Some (mkLS (ls_fd k) buf))) in
  match e with
  | Some er => ret (Some er)
  | None => sock_recv m (ls_fd k) buf
  end.

(** nfgen ++ attr ++ config, as in nflog.go:92-99 *)
Definition nfl_data (m : endian) (nfgen : nfgenmsg) (attr : nfattr) (config : res bytes)
  : res bytes :=
  let* a := NfqGenMsg_ToWireFormat nfgen in
  let* b := NfAttr_ToWireFormat m attr in
  let* c := config in
  Ok ((a ++ b) ++ c).

(* nflog.go:79-106 (Unbind), 109-136 (Bind) *)
Definition nfl_pf_command (m : endian) (cmd : Z) : ML (option gerr) :=
  let hdr := BuildNlMsgHeader NfnlNFLog (Z.lor NlmFRequest NlmFAck) 0 in
  let '(nfgen, hdr) := BuildNfgenMsg AF_INET 0 0 hdr in
  let '(attr, hdr) := BuildNfAttrMsg NFULA_CFG_CMD hdr NflMsgConfigCommand_Length in
  let! data := lift (nfl_data m nfgen attr (NflMsgConfigCommand_ToWireFormat cmd)) in
  let! l := get_st in
  match l_sock l with
  | Some k => nfl_query m k hdr data
  | None => ret (Some ENotOpen)
  end.
Definition NFlogUnbind (m : endian) := nfl_pf_command m NFULNL_CFG_CMD_PF_UNBIND.
Definition NFlogBind (m : endian) := nfl_pf_command m NFULNL_CFG_CMD_PF_BIND.

(* nflog.go:145-172: the loop over groups *)
Fixpoint bind_groups (m : endian) (groups : list Z) : ML (option gerr) :=
  match groups with
  | [] => ret None
  | g :: gs =>
      let hdr := BuildNlMsgHeader NfnlNFLog (Z.lor NlmFRequest NlmFAck) 0 in
      let '(nfgen, hdr) := BuildNfgenMsg AF_INET 0 g hdr in
      let '(attr, hdr) := BuildNfAttrMsg NFULA_CFG_CMD hdr NflMsgConfigCommand_Length in
      let! data := lift (nfl_data m nfgen attr (NflMsgConfigCommand_ToWireFormat NFULNL_CFG_CMD_BIND)) in
      let! l := get_st in
      let! e := match l_sock l with
                | Some k => nfl_query m k hdr data
                | None => ret None                                  (* 166: silently skipped *)
                end in
      match e with
      | Some er => ret (Some er)
      | None => bind_groups m gs
      end
  end.
(* nflog.go:140-175 *)
Definition NFlogBindGroup (m : endian) (groups : list Z) (cb ecb : bool) : ML (option gerr) :=
  let! l := get_st in
  let! _ := put_st (mkL cb ecb (l_sock l)) in
  bind_groups m groups.

(* nflog.go:179-212 *)
Fixpoint NFlogSetMode (m : endian) (groups : list Z) (packetSize : Z) : ML (option gerr) :=
  match groups with
  | [] => ret None
  | g :: gs =>
      let hdr := BuildNlMsgHeader NfnlNFLog (Z.lor NlmFRequest NlmFAck) 0 in
      let '(nfgen, hdr) := BuildNfgenMsg AF_UNSPEC 0 g hdr in
      let '(attr, hdr) := BuildNfAttrMsg NFULA_CFG_MODE hdr NflMsgConfigMode_Length in
      let! data := lift (nfl_data m nfgen attr (NflMsgConfigMode_ToWireFormat packetSize NFULNL_COPY_PACKET)) in
      let! l := get_st in
      let! e := match l_sock l with
                | Some k => nfl_query m k hdr data
                | None => ret None                                  (* 203: silently skipped *)
                end in
      match e with
      | Some er => ret (Some er)
      | None => NFlogSetMode m gs packetSize
      end
  end.

(* nflog.go:335-339 *)
Definition NFlogClose : ML unit :=
  let! l := get_st in
  match l_sock l with
  | Some k => let! _ := do_call (KClose (ls_fd k)) in ret tt
  | None => ret tt
  end.

(** ** Parsing *)
(** the fields of NfPacket filled while parsing (nflog.go:274; types.go:67-91) *)
Record nfpkt := mkNP {
  np_prefix : bytes; np_payload : bytes; np_src : bytes; np_dst : bytes;
  np_version : Z; np_proto : Z; np_len : Z; np_id : bytes; np_sport : Z; np_dport : Z }.
(* no code: var m NfPacket (nflog.go:274) *)
Definition np_zero : nfpkt := mkNP [] [] [] [] 0 0 0 [] 0 0.

(** little-endian fields as binary.Read decodes them from exactly enough bytes *)
(* no code: binary.Read, little endian (nflog.go:247, 272, 278) *)
Definition le16 (b : bytes) : Z := nth 0 b 0 + nth 1 b 0 * 256.
(* no code: binary.Read, little endian (nflog.go:247, 272, 278) *)
Definition le32 (b : bytes) : Z :=
  nth 0 b 0 + nth 1 b 0 * 256 + nth 2 b 0 * 65536 + nth 3 b 0 * 16777216.

(** reader.Read(payload) into a fresh zeroed slice of n bytes *)
(* no code: Reader.Read into a zeroed slice of n bytes (nflog.go:287-288, 291-292) *)
Definition read_into (avail : bytes) (n : Z) : bytes :=
  let got := firstn (Z.to_nat n) avail in
  got ++ repeat 0 (Z.to_nat n - length got).

(** payload[:k] of a slice made with exactly its length as capacity *)
(* no code: payload[:k] (nflog.go:289, 309) *)
Definition upto (payload : bytes) (k : Z) : res bytes := gsl payload 0 k.

(* nflog.go:276-323: the attribute loop over the unread bytes *)
Fixpoint tlv_loop (fuel : nat) (avail : bytes) (m : nfpkt) : ML (option gerr) :=
  match avail with
  | [] => ret None
  | _ =>
    match fuel with
    | O => mnofuel
    | S f =>
      if (length avail <? 4)%nat then ret (Some EShort)                        (* 278-281 *)
      else
        let len := le16 avail in
        let typ := le16 (skipn 2 avail) in
        let avail := skipn 4 avail in
        let payloadLen := u16 (len - 4) in                                     (* 283 *)
        let al := NfaAlign16 payloadLen in
        if typ =? NFULA_PREFIX then
          let payload := read_into avail al in
          let! p := lift (upto payload (u16 (payloadLen - 1))) in              (* 289 *)
          tlv_loop f (skipn (Z.to_nat al) avail)
            (mkNP p (np_payload m) (np_src m) (np_dst m) (np_version m) (np_proto m)
                  (np_len m) (np_id m) (np_sport m) (np_dport m))
        else if typ =? NFULA_PAYLOAD then
          let payload := read_into avail al in
          let n := length payload in
          let! x := lift (New [payload] PacketTypeNetwork (mkSl 0 0 n n) false) in   (* 293 *)
          match x with
          | (_, Some e) => ret (Some e)
          | (None, None) => mpanic                              (* not produced by New *)
          | (Some ip, None) =>
              let! pl := lift (upto payload payloadLen) in                      (* 309 *)
              let m := mkNP (np_prefix m) pl (SourceAddress ip) (DestinationAddress ip) IPVersion
                            (IPProto ip) (IPTotalLen ip) (ID ip) (SourcePort ip) (DestPort ip) in
              let! l := get_st in
              if l_cb l then
                let! _ := do_call (KLogCb (np_prefix m) (np_payload m) (np_src m) (np_dst m)
                                     (np_version m) (np_proto m) (np_len m) (np_id m)
                                     (np_sport m) (np_dport m)) in              (* 311-318 *)
                tlv_loop f (skipn (Z.to_nat al) avail) m
              else mpanic
          end
        else tlv_loop f (skipn (Z.to_nat al) avail) m                          (* 321 *)
    end
  end.

(* nflog.go:268-326; the nfgen header (or what is there of it) is skipped *)
Definition parsePacket (fuel : nat) (buffer : bytes) : ML (option gerr) :=
  tlv_loop fuel (skipn 4 buffer) np_zero.

(* nflog.go:241-265.  A header that cannot be read stays zero (247: the error
   of binary.Read is ignored). *)
Fixpoint parseLog (fuel : nat) (buffer : bytes) : ML (option gerr) :=
  match buffer with
  | [] => ret None
  | _ =>
    match fuel with
    | O => mnofuel
    | S f =>
      let short := (length buffer <? 16)%nat in
      let msgLen := if short then 0 else le32 buffer in
      let typ := if short then 0 else le16 (skipn 4 buffer) in
      if u32 (zlen buffer) <? msgLen then ret (Some ETruncated)                 (* 251-253 *)
      else
        let! e := (if typ =? NFLogPacketType then
                     let! body := lift (gsl buffer 16 (u32 (msgLen - 1))) in     (* 256 *)
                     parsePacket (length body) body
                   else ret None) in
        match e with
        | Some er => ret (Some (EWrapped 7 er))
        | None =>
            let! rest := lift (gfrom buffer msgLen) in                          (* 261 *)
            parseLog f rest
        end
    end
  end.

(** [defer close]: runs after a normal return and also while a panic unwinds *)
(* no code: defer (nflog.go:217) *)
Definition deferred {S A} (body : M S A) (close : M S unit) : M S A :=
  fun e w => match body e w with
             | (NoFuel, w') => (NoFuel, w')
             | (r, w') => (match fst (close e w') with
                           | Ok _ => r
                           | Panic => Panic
                           | NoFuel => NoFuel
                           end, snd (close e w'))
             end.

(* nflog.go:220-237: the loop; [n] bounds the iterations observed, [fuel] the
   messages of one datagram *)
Fixpoint read_loop (n fuel : nat) (buffer : slice) : ML unit :=
  match n with
  | O => mnofuel
  | S n' =>
    let! l := get_st in
    match l_sock l with
    | None => mpanic
    | Some k =>
      let! x := sys_recvfrom (ls_fd k) buffer 0 in
      match x with
      | (Some en, _) =>
          let! _ := (if l_ecb l then let! _ := do_call (KErrCb (EWrapped 8 (ESys en)) IfaceNil) in ret tt
                     else ret tt) in
          if en =? ENOBUFS then read_loop n' fuel buffer else ret tt
      | (None, s) =>
          let! b := lift (resl_to buffer s) in
          let! h := get_heap in
          let! e := parseLog fuel (rd h b) in
          let! _ := (match e with
                     | Some er =>
                         if l_ecb l then let! _ := do_call (KErrCb (EWrapped 9 er) IfaceNil) in ret tt
                         else ret tt
                     | None => ret tt
                     end) in
          read_loop n' fuel buffer
      end
    end
  end.
(* nflog.go:215-238 *)
Definition ReadLogs (n fuel : nat) : ML unit :=
  deferred
    (let! buffer := m_alloc (gmake 65536) 0 in read_loop n fuel buffer)
    NFlogClose.

(* nflog.go:26-46 *)
Definition BindAndListenForLogs (m : endian) (groups : list Z) (packetSize : Z) (cb ecb : bool)
  : ML (option gerr) :=
  let! _ := NewNFLog in
  let! e := NFlogOpen in
  match e with
  | Some er => ret (Some (EWrapped 1 er))
  | None =>
      let! e := NFlogBindGroup m groups cb ecb in
      match e with
      | Some er => let! _ := NFlogClose in ret (Some (EWrapped 2 er))
      | None =>
          let! e := NFlogSetMode m groups packetSize in
          match e with
          | Some er => let! _ := NFlogClose in ret (Some (EWrapped 3 er))
          | None => let! _ := do_call KGo in ret None
          end
      end
  end.
