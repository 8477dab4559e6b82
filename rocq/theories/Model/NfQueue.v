(** Model of package nfqueue (nfqueue/nfqueue.go, nfqueue/helpers.go). *)
From Verif Require Export Model.Sys.

(** ** Constants (nfqueue/constants.go) *)
Definition NfqaPacketHdr : Z := 1.        (* constants.go:17 *)
Definition NfqaVerdictHdr : Z := 2.       (* constants.go:19 *)
Definition NfqaMark : Z := 3.             (* constants.go:21 *)
Definition NfqaPayload : Z := 10.         (* constants.go:35 *)
Definition NfqnlCfgCmdBind : Z := 1.      (* constants.go:42 *)
Definition NfqnlCfgCmdUnbind : Z := 2.    (* constants.go:44 *)
Definition NfqnlCfgCmdPfBind : Z := 3.    (* constants.go:46 *)
Definition NfqnlCfgCmdPfUnbind : Z := 4.  (* constants.go:48 *)
Definition NfqnlCopyPacket : Z := 2.      (* constants.go:55 *)
Definition NfqaCfgCmd : Z := 1.           (* constants.go:73 *)
Definition NfqaCfgParams : Z := 2.        (* constants.go:75 *)
Definition NfqaCfgQueueMaxLen : Z := 3.   (* constants.go:77 *)
Definition SizeofMsgConfigCommand : Z := 4.  (* constants.go:57 *)
(* unsafe.Sizeof of {uint32; uint8}: 4+1 rounded up to the alignment 4 *)
(* constants.go:59 *)
Definition SizeOfNfqMsgConfigParams : Z := 8.
(* constants.go:61 *)
Definition SizeOfNfqMsgConfigQueueLen : Z := 4.
Definition SizeofNfqMsgVerdictHdr : Z := 8.  (* constants.go:63 *)
Definition SizeofNfqMsgMarkHdr : Z := 4.     (* constants.go:65 *)

(** ** Wire formats (nfqueue/helpers.go) *)
(* helpers.go:33-34 / 40-41 *)
Definition verdicthdr_stores (m : endian) (verdict id : Z) : stores :=
  [ (0, put32 BE verdict); (4, put32 (NativeEndian m) id) ].
(* helpers.go:31-36 *)
Definition VerdictHdr_ToWireFormat (m : endian) (verdict id : Z) : res bytes :=
  store_all (gmake SizeofNfqMsgVerdictHdr) (verdicthdr_stores m verdict id).
(* helpers.go:39-48 *)
Definition VerdictHdr_ToWireFormatBuf (m : endian) (verdict id : Z) : stores * Z :=
  (verdicthdr_stores m verdict id, SizeofNfqMsgVerdictHdr).
(* helpers.go:58-66 *)
Definition MarkHdr_ToWireFormatBuf (mark : Z) : stores * Z :=
  ([ (0, put32 BE mark) ], 4).
(* helpers.go:51-55 *)
Definition MarkHdr_ToWireFormat (mark : Z) : res bytes :=
  store_all (gmake 4) [ (0, put32 BE mark) ].
(* helpers.go:69-76 *)
Definition ConfigCommand_ToWireFormat (command pad pf : Z) : res bytes :=
  store_all (gmake SizeofMsgConfigCommand)
    [ (0, [u8 command]); (1, [u8 pad]); (2, put16 BE pf) ].
(* helpers.go:84-89 *)
Definition ConfigParams_ToWireFormat (copyRange copyMode : Z) : res bytes :=
  store_all (gmake SizeOfNfqMsgConfigParams)
    [ (0, put32 BE copyRange); (4, [u8 copyMode]) ].
(* helpers.go:97-101 *)
Definition ConfigQueueLen_ToWireFormat (queueLen : Z) : res bytes :=
  store_all (gmake SizeOfNfqMsgConfigQueueLen) [ (0, put32 BE queueLen) ].

(** ** The handle *)
(** What a packet callback may do: issue verdicts or stop the queue (a Verdict is
    what it gets in NFPacket.QueueHandle), store into memory, allocate. *)
(* what the user's callback may do with the handle (nfqueue.go:496) *)
Inductive cbact :=
| CbVerdict (verdict packetLen packetID : Z) (packet : slice)
| CbVerdict2 (verdict mark packetLen packetID : Z) (packet : slice)
| CbStore (s : slice) (off : Z) (v : bytes)
| CbAlloc (v : bytes) (spare : nat)
| CbStop.                                (* StopQueue *)

(* nfqueue.go:43-49 (Xbuffer is never set; QueueHandle is the handle itself) *)
Record nfpacket := mkPkt { p_buf : slice; p_mark : Z; p_id : Z }.

(** A callback decides its actions from everything it can see: the history,
    memory, the packet and its private data. *)
(* what the user's callback may do with the handle (nfqueue.go:496) *)
Definition callback : Type := list event -> heap -> nfpacket -> Z -> list cbact.

(* NfqSockHandle, types.go:83-89 (lsa.Family is always AF_NETLINK) *)
Record nfqsock := mkSock { k_fd : Z; k_buf : slice }.

(* NfQueue, nfqueue.go:52-67.  The counters are uint64; [q_notify] is the packets waiting
   in NotificationChannel (its capacity is 100). *)
Record nfq := mkQ {
  q_subsys : Z;
  q_num : Z;
  q_cb : option callback;
  q_ecb : bool;                (* errorCallback != nil *)
  q_priv : Z;
  q_handle : option nfqsock;
  q_buf : slice;
  q_attr : attrmap;
  q_hdr : slice;
  q_acc : Z;
  q_drop : Z;
  q_proc : Z;
  q_notify : list nfpacket }.

(* no code: assignments to fields of NfqueueHandle *)
Definition set_handle (q : nfq) (k : nfqsock) : nfq :=
  mkQ (q_subsys q) (q_num q) (q_cb q) (q_ecb q) (q_priv q) (Some k) (q_buf q) (q_attr q)
      (q_hdr q) (q_acc q) (q_drop q) (q_proc q) (q_notify q).
(* no code: assignments to fields of NfqueueHandle *)
Definition set_subsys (q : nfq) (s : Z) : nfq :=
  mkQ s (q_num q) (q_cb q) (q_ecb q) (q_priv q) (q_handle q) (q_buf q) (q_attr q)
      (q_hdr q) (q_acc q) (q_drop q) (q_proc q) (q_notify q).
(* no code: assignments to fields of NfqueueHandle *)
Definition set_queue (q : nfq) (num : Z) (cb : option callback) (ecb : bool) (priv : Z) : nfq :=
  mkQ (q_subsys q) num cb ecb priv (q_handle q) (q_buf q) (q_attr q)
      (q_hdr q) (q_acc q) (q_drop q) (q_proc q) (q_notify q).
(* no code: assignments to fields of NfqueueHandle *)
Definition set_attr (q : nfq) (t : attrmap) : nfq :=
  mkQ (q_subsys q) (q_num q) (q_cb q) (q_ecb q) (q_priv q) (q_handle q) (q_buf q) t
      (q_hdr q) (q_acc q) (q_drop q) (q_proc q) (q_notify q).
(* no code: assignments to fields of NfqueueHandle *)
Definition set_counts (q : nfq) (a d p : Z) : nfq :=
  mkQ (q_subsys q) (q_num q) (q_cb q) (q_ecb q) (q_priv q) (q_handle q) (q_buf q) (q_attr q)
      (q_hdr q) a d p (q_notify q).

(* no code: computations on a NfQueue handle *)
Definition MQ := M nfq.

(* nfqueue.go:72-88: the heap gets the receive buffer (array 0 of the handle),
   the three attribute placeholders and the header buffer *)
Definition NewNFQueue : MQ unit :=
  let! buf := m_alloc (gmake NfnlBuffSize) 0 in
  let! hs := m_alloc (gmake (SizeofNlMsghdr + SizeofNfGenMsg
                             + NfaLength (u16 SizeofNfqMsgVerdictHdr)
                             + NfaLength (u16 SizeofNfqMsgMarkHdr))) 0 in
  let! a1 := m_alloc (gmake NfnlBuffSize) 0 in
  let! a3 := m_alloc (gmake NfnlBuffSize) 0 in
  let! a10 := m_alloc (gmake NfnlBuffSize) 0 in
  put_st (mkQ 0 0 None false 0 None buf
            [(NfqaPacketHdr, a1); (NfqaMark, a3); (NfqaPayload, a10)] hs 0 0 0 []).

(* nfqueue.go:531-533: what a receiver finds waiting there *)
Definition GetNotificationChannel : MQ (list nfpacket) :=
  let! q := get_st in ret (q_notify q).

(* nfqueue.go:133-162.  The result is the error; the handle is stored. *)
Definition NfqOpen : MQ (option gerr) :=
  let! q := get_st in
  let! _ := put_st (set_subsys q (Z.lor (q_subsys q) 8)) in
  let! r := do_call (KSocket AF_NETLINK SOCK_RAW NETLINK_NETFILTER) in
  match r_err r with
  | Some en => ret (Some (ESys en))
  | None =>
      let fd := r_val r in
      let! rb := do_call (KBind fd AF_NETLINK) in
      match r_err rb with
      | Some en => ret (Some (ESys en))
      | None =>
          let sockbuf := 500 * NfnlBuffSize in
          let! _ := do_call (KSetsockoptInt fd SOL_NETLINK NETLINK_NO_ENOBUFS 1) in
          let! _ := do_call (KSetsockoptInt fd SOL_SOCKET SO_RCVBUFFORCE sockbuf) in
          let! _ := do_call (KSetsockoptInt fd SOL_SOCKET SO_SNDBUFFORCE sockbuf) in
          let! _ := do_call (KSetLinger fd 1 0) in
          let! q := get_st in
          let! _ := put_st (set_handle q (mkSock fd (q_buf q))) in
          ret None
      end
  end.

(* nfqueue.go:216-227: the buffer is built and sent *)
Definition send_bytes (m : endian) (hdr : nlmsghdr) (data : bytes) : res bytes :=
  let* buf := store_all (gmake (SizeofNlMsghdr + zlen data)) (nlmsghdr_stores m hdr) in
  gcopy buf 16 data.
(* nfqueue.go:216-227 *)
Definition nfq_send (m : endian) (k : nfqsock) (hdr : nlmsghdr) (data : bytes)
  : MQ (option gerr) :=
  let! buf := lift (send_bytes m hdr data) in
  let! r := do_call (KSendto (k_fd k) buf 0) in
  match r_err r with Some en => ret (Some (ESys en)) | None => ret None end.

(* nfqueue.go:195-212.  NetlinkMessageToStruct's error is ignored, so a nil
   header is dereferenced. *)
Definition nfq_recv (m : endian) (k : nfqsock) : MQ (option gerr) :=
  let buf := k_buf k in
  let! x := sys_recvfrom (k_fd k) buf 0 in
  match x with
  | (Some en, _) => ret (Some (ERecv en))
  | (None, n) =>
      let! b := lift (resl_to buf (n + 1)) in
      let! h := get_heap in
      let! y := lift (NetlinkMessageToStruct m h b) in
      match y with
      | (None, _, _) => mpanic
      | (Some hdr, next, _) =>
          if n_type hdr =? NlMsgError then
            let! z := lift (NetlinkErrMessagetoStruct m h next) in
            if snd z =? 0 then ret None else ret (Some (ENetlink (snd z)))
          else ret None
      end
  end.

(* nfqueue.go:167-174 *)
Definition nfq_query (m : endian) (k : nfqsock) (hdr : nlmsghdr) (data : bytes)
  : MQ (option gerr) :=
  let! e := nfq_send m k hdr data in
  match e with
  | Some er => ret (Some er)
  | None => nfq_recv m k
  end.

(** The common tail of the configuration calls: nfgen ++ attr ++ config, sent
    through the handle if there is one (e.g. nfqueue.go:245-256). *)
Definition config_request (m : endian) (nfgen : nfgenmsg) (attr : nfattr) (hdr : nlmsghdr)
  (config : res bytes) : MQ (option gerr) :=
  let! a := lift (NfqGenMsg_ToWireFormat nfgen) in
  let! b := lift (NfAttr_ToWireFormat m attr) in
  let! c := lift config in
  let data := (a ++ b) ++ c in
  let! q := get_st in
  match q_handle q with
  | Some k => nfq_query m k hdr data
  | None => ret (Some ENotOpen)
  end.

(* nfqueue.go:230-258 *)
Definition UnbindPf (m : endian) : MQ (option gerr) :=
  let hdr := BuildNlMsgHeader NfqnlMsgConfig (Z.lor NlmFRequest NlmFAck) 0 in
  let '(nfgen, hdr) := BuildNfgenMsg AF_UNSPEC 0 0 hdr in
  let '(attr, hdr) := BuildNfAttrMsg NfqaCfgCmd hdr SizeofMsgConfigCommand in
  config_request m nfgen attr hdr (ConfigCommand_ToWireFormat NfqnlCfgCmdPfUnbind 116 AF_INET).

(* nfqueue.go:507-528 *)
Definition BindPf (m : endian) : MQ (option gerr) :=
  let hdr := BuildNlMsgHeader NfqnlMsgConfig (Z.lor NlmFRequest NlmFAck) 0 in
  let '(nfgen, hdr) := BuildNfgenMsg AF_UNSPEC 0 0 hdr in
  let '(attr, hdr) := BuildNfAttrMsg NfqaCfgCmd hdr SizeofMsgConfigCommand in
  config_request m nfgen attr hdr (ConfigCommand_ToWireFormat NfqnlCfgCmdPfBind 0 AF_INET).

(* nfqueue.go:264-289 *)
Definition CreateQueue (m : endian) (num : Z) (cb : option callback) (ecb : bool) (priv : Z)
  : MQ (option gerr) :=
  let! q := get_st in
  let! _ := put_st (set_queue q num cb ecb priv) in
  let hdr := BuildNlMsgHeader NfqnlMsgConfig (Z.lor NlmFRequest NlmFAck) 0 in
  let '(nfgen, hdr) := BuildNfgenMsg AF_UNSPEC 0 num hdr in
  let '(attr, hdr) := BuildNfAttrMsg NfqaCfgCmd hdr SizeofMsgConfigCommand in
  config_request m nfgen attr hdr (ConfigCommand_ToWireFormat NfqnlCfgCmdBind 0 AF_UNSPEC).

(* nfqueue.go:295-315 *)
Definition NfqSetMode (m : endian) (mode packetSize : Z) : MQ (option gerr) :=
  let! q := get_st in
  let hdr := BuildNlMsgHeader NfqnlMsgConfig (Z.lor NlmFRequest NlmFAck) 0 in
  let '(nfgen, hdr) := BuildNfgenMsg AF_UNSPEC 0 (q_num q) hdr in
  let '(attr, hdr) := BuildNfAttrMsg NfqaCfgParams hdr SizeOfNfqMsgConfigParams in
  config_request m nfgen attr hdr (ConfigParams_ToWireFormat packetSize (u8 mode)).

(* nfqueue.go:320-339 *)
Definition NfqSetQueueMaxLen (m : endian) (queuelen : Z) : MQ (option gerr) :=
  let! q := get_st in
  let hdr := BuildNlMsgHeader NfqnlMsgConfig (Z.lor NlmFRequest NlmFAck) 0 in
  let '(nfgen, hdr) := BuildNfgenMsg AF_UNSPEC 0 (q_num q) hdr in
  let '(attr, hdr) := BuildNfAttrMsg NfqaCfgQueueMaxLen hdr SizeOfNfqMsgConfigQueueLen in
  config_request m nfgen attr hdr (ConfigQueueLen_ToWireFormat queuelen).

(* nfqueue.go:571-591 *)
Definition NfqDestroyQueue (m : endian) : MQ (option gerr) :=
  let! q := get_st in
  let hdr := BuildNlMsgHeader NfqnlMsgConfig (Z.lor NlmFRequest NlmFAck) 0 in
  let '(nfgen, hdr) := BuildNfgenMsg AF_UNSPEC 0 (q_num q) hdr in
  let '(attr, hdr) := BuildNfAttrMsg NfqaCfgCmd hdr SizeofMsgConfigCommand in
  config_request m nfgen attr hdr (ConfigCommand_ToWireFormat NfqnlCfgCmdUnbind 0 AF_UNSPEC).

(* nfqueue.go:189-191, 554-559 *)
Definition NfqClose : MQ unit :=
  let! q := get_st in
  match q_handle q with
  | Some k => let! _ := do_call (KClose (k_fd k)) in ret tt
  | None => ret tt
  end.

(* nfqueue.go:562-568; without a handle NfqDestroyQueue has already failed *)
Definition StopQueue (m : endian) : MQ (option gerr) :=
  let! e := NfqDestroyQueue m in
  match e with
  | Some er => ret (Some er)
  | None =>
      let! q := get_st in
      match q_handle q with
      | Some k => let! _ := do_call (KClose (k_fd k)) in ret None
      | None => mpanic
      end
  end.

(** ** Verdicts *)
(** An iovec entry points at the first byte of a slice (panicking when it has
    none, &s[0]) and the kernel reads [n] bytes from there: what lies in the
    array, cut at its end. *)
(* no code: the kernel reads the iovec (nfqueue.go:371-382, 424-437) *)
Definition iov_read (h : heap) (s : slice) (n : Z) : res bytes :=
  if (s_len s =? 0)%nat then Panic
  else Ok (firstn (Z.to_nat n) (skipn (s_off s) (arr h (s_arr s)))).

(* nfqueue.go:536-551: the result of sendmsg is printed and dropped *)
Definition sendmsg (fd : Z) (iov : list bytes) : MQ unit :=
  let! r := do_call (KSendmsg fd iov) in
  match r_err r with
  | Some _ => let! _ := do_call KPrint in ret tt
  | None => ret tt
  end.

(* the pad of nfqueue.go:377/414: make([]byte, NfaAlign(uint16(packetLen)) - uint16(packetLen)) *)
Definition verdict_pad (packetLen : Z) : bytes :=
  gmake (u16 (NfaAlign (u16 packetLen) - u16 packetLen)).

(** append(packet, pad...) when the pad is not empty (378-380, 430-432) *)
(* no code: append(packet, pad...) (nfqueue.go:376-379, 414, 430-432) *)
Definition append_pad (grow : nat -> nat -> nat) (packet : slice) (pad : bytes) : MQ slice :=
  match pad with
  | [] => ret packet
  | _ => let! h := get_heap in
         let '(h', p) := gappend grow h packet pad in
         let! _ := put_heap h' in
         ret p
  end.

(* nfqueue.go:342-383.  Without an open socket q.queueHandle.getFd() is a nil
   dereference.  The queueNum argument is ignored by the code. *)
Definition SetVerdict (m : endian) (grow : nat -> nat -> nat)
  (verdict packetLen packetID : Z) (packet : slice) : MQ unit :=
  let! q := get_st in
  let! _ := put_st (if verdict =? 1
                    then set_counts q (u64 (q_acc q + 1)) (q_drop q) (q_proc q)
                    else set_counts q (q_acc q) (u64 (q_drop q + 1)) (q_proc q)) in
  let hdr := BuildNlMsgHeader NfqnlMsgVerdict NlmFRequest 0 in
  let '(nfgen, hdr) := BuildNfgenMsg AF_UNSPEC 0 (q_num q) hdr in
  let '(verdicthdr, hdr) := BuildNfAttrMsg NfqaVerdictHdr hdr SizeofNfqMsgVerdictHdr in
  let iovecLen := n_len hdr in
  let payloadnfattr := mkAttr (NfaLength (u16 packetLen)) NfqaPayload in
  let! payloadnfattrbuf := lift (NfAttr_ToWireFormat m payloadnfattr) in
  let hdr := set_n_len hdr (u32 (n_len hdr + a_len payloadnfattr)) in
  let! hb := lift (SerializeNlMsgHdr m hdr) in
  let! nb := lift (NfqGenMsg_ToWireFormat nfgen) in
  let! vb := lift (NfAttr_ToWireFormat m verdicthdr) in
  let! cb := lift (VerdictHdr_ToWireFormat m verdict packetID) in
  let vedicthdrbuf := ((hb ++ nb) ++ vb) ++ cb in
  let! v := m_alloc vedicthdrbuf 0 in
  let! h := get_heap in
  let! iov0 := lift (iov_read h v iovecLen) in
  let! packet := append_pad grow packet (verdict_pad packetLen) in
  let! h := get_heap in
  let! iov2 := lift (iov_read h packet (NfaAlign (u16 packetLen))) in
  match q_handle q with
  | None => mpanic
  | Some k => sendmsg (k_fd k) [iov0; payloadnfattrbuf; iov2]
  end.

(** SetVerdict2, lines 387-421: the header pieces and the stores that fill the
    handle's shared header buffer; also iovec[0].Len and the payload attribute
    header. *)
(* nfqueue.go:387-425 *)
Definition sv2_hdr (m : endian) (num verdict mark packetLen packetID : Z)
  : stores * Z * nfattr :=
  let hdr := BuildNlMsgHeader NfqnlMsgVerdict NlmFRequest 0 in
  let '(nfgen, hdr) := BuildNfgenMsg AF_UNSPEC 0 num hdr in
  let '(verdicthdr, hdr) := BuildNfAttrMsg NfqaVerdictHdr hdr SizeofNfqMsgVerdictHdr in
  let '(markhdr, hdr) := BuildNfAttrMsg (u16 NfqaMark) hdr SizeofNfqMsgMarkHdr in
  let iovecLen := n_len hdr in
  let payloadnfattr := mkAttr (u16 (u16 packetLen + 4)) NfqaPayload in
  let hdr := set_n_len hdr (u32 (n_len hdr + a_len payloadnfattr)) in
  (seq_stores 0
     [ SerializeNlMsgHdrBuf m hdr;
       NfqGenMsg_ToWireFormatBuf nfgen;
       NfAttr_ToWireFormatBuf m verdicthdr;
       VerdictHdr_ToWireFormatBuf m verdict packetID;
       NfAttr_ToWireFormatBuf m markhdr;
       MarkHdr_ToWireFormatBuf mark ],
   iovecLen, payloadnfattr).

(* nfqueue.go:386-439 *)
Definition SetVerdict2 (m : endian) (grow : nat -> nat -> nat)
  (verdict mark packetLen packetID : Z) (packet : slice) : MQ unit :=
  let! q := get_st in
  let '(ws, iovecLen, payloadnfattr) := sv2_hdr m (q_num q) verdict mark packetLen packetID in
  let! payloadnfattrbuf := lift (NfAttr_ToWireFormat m payloadnfattr) in
  let! _ := m_stores (q_hdr q) ws in
  let! packet := append_pad grow packet (verdict_pad packetLen) in
  let! h := get_heap in
  let! iov0 := lift (iov_read h (q_hdr q) iovecLen) in
  let! iov2 := lift (iov_read h packet (Z.of_nat (s_len packet))) in
  match q_handle q with
  | None => mpanic
  | Some k => sendmsg (k_fd k) [iov0; payloadnfattrbuf; iov2]
  end.

(** ** Receiving *)
(* nfqueue.go:442-470.  The map returned on success is q.nfattrresponse
   itself, updated in place; on a parse error the (partially updated) map is
   returned with the error. *)
Definition Recv (fuel : nat) (m : endian)
  : MQ (option nfgenmsg * option attrmap * option gerr) :=
  let! q := get_st in
  match q_handle q with
  | None => mpanic
  | Some k =>
    let buf := q_buf q in
    let! x := sys_recvfrom (k_fd k) buf MSG_WAITALL in
    match x with
    | (Some en, _) => ret (None, None, Some (ERecv en))
    | (None, n) =>
      let! b := lift (resl_to buf n) in
      let! h := get_heap in
      let! y := lift (NetlinkMessageToStruct m h b) in
      match y with
      | (None, _, _) => mpanic                               (* hdr.Type, hdr nil *)
      | (Some hdr, payload, err) =>
        let! stop :=
          (if n_type hdr =? NlMsgError then
             let! z := lift (NetlinkErrMessagetoStruct m h payload) in
             ret (if snd z =? 0 then None else Some (ENetlink (snd z)))
           else ret None) in
        match stop with
        | Some er => ret (None, None, Some er)
        | None =>
          match err with
          | Some _ => ret (None, None, Some EFormat)
          | None =>
            let! g := lift (NetlinkMessageToNfGenStruct h payload) in
            let '(nfgenmsg, payload) := g in
            let! z := lift (NetlinkMessageToNfAttrStruct fuel m h payload (q_attr q)) in
            let '(tbl, _, er) := z in
            let! q := get_st in
            let! _ := put_st (set_attr q tbl) in
            ret (Some nfgenmsg, Some tbl, er)
          end
        end
      end
    end
  end.

(* helpers.go:14-28; [None] is the nil map.  The result: id, mark, packet *)
Definition GetPacketInfo (m : endian) (h : heap) (attr : option attrmap)
  : res (Z * Z * slice) :=
  let t := match attr with Some t => t | None => [] end in
  let* id := match amap_get t NfqaPacketHdr with
             | Some s => get32 (NativeEndian m) (rd h s)
             | None => Ok 0 end in
  let* mark := match amap_get t NfqaMark with
               | Some s => get32 BE (rd h s)
               | None => Ok 0 end in
  match amap_get t NfqaPayload with
  | Some s => Ok (id, mark, s)
  | None => Ok (id, mark, snil)
  end.

(** running the actions a callback chose *)
(* no code: the body of the user's callback *)
Fixpoint run_acts (m : endian) (grow : nat -> nat -> nat) (l : list cbact) : MQ unit :=
  match l with
  | [] => ret tt
  | a :: l' =>
      let! _ := match a with
                | CbVerdict v pl id p => SetVerdict m grow v pl id p
                | CbVerdict2 v mk pl id p => SetVerdict2 m grow v mk pl id p
                | CbStore s o v => m_stores s [(o, v)]
                | CbAlloc v sp => let! _ := m_alloc v sp in ret tt
                | CbStop => let! _ := StopQueue m in ret tt
                end in
      run_acts m grow l'
  end.

(* nfqueue.go:480-501: one iteration after the context was found not done *)
Definition process_one (fuel : nat) (m : endian) (grow : nat -> nat -> nat) : MQ unit :=
  let! x := Recv fuel m in
  let '(nfgenmsg, attr, err) := x in
  let! q := get_st in
  let! skip :=
    (match err with
     | None => ret false
     | Some er =>
         if q_ecb q then let! _ := do_call (KErrCb er (IfaceGen nfgenmsg)) in ret true     (* 483-485 *)
         else
           let! _ := do_call KPrint in                                 (* 487 *)
           match nfgenmsg with
           | Some _ => let! _ := do_call KPrint in ret false           (* 488-490 *)
           | None => ret false
           end
     end) in
  if skip then ret tt
  else
    let! h := get_heap in
    let! i := lift (GetPacketInfo m h attr) in
    let '(id, mark, packet) := i in
    let! q := get_st in
    let! _ := put_st (set_counts q (q_acc q) (q_drop q) (u64 (q_proc q + 1))) in
    match q_cb q with
    | None => mpanic                                                   (* nil function *)
    | Some cb =>
        let! _ := do_call (KPacketCb id mark packet (rd h packet) (q_priv q)) in
        let! tr := get_tr in
        run_acts m grow (cb tr h (mkPkt packet mark id) (q_priv q))
    end.

(* nfqueue.go:473-504.  [n] bounds the number of iterations observed, [fuel]
   the attribute loop of one Recv. *)
Fixpoint ProcessPackets (n : nat) (fuel : nat) (m : endian) (grow : nat -> nat -> nat) : MQ unit :=
  match n with
  | O => mnofuel
  | S n' =>
      let! r := do_call KCtxDone in
      if r_flag r then NfqClose
      else let! _ := process_one fuel m grow in ProcessPackets n' fuel m grow
  end.

(* nfqueue.go:95-127.  The starting of the goroutine is the event KGo. *)
Definition CreateAndStartNfQueue (m : endian) (queueID maxPacketsInQueue packetSize : Z)
  (cb : option callback) (ecb : bool) (priv : Z) : MQ (option gerr) :=
  let! _ := NewNFQueue in
  let! e := NfqOpen in
  match e with
  | Some er => ret (Some (EWrapped 1 er))
  | None =>
    let! e := UnbindPf m in
    match e with
    | Some er => let! _ := NfqClose in ret (Some (EWrapped 2 er))
    | None =>
      let! e := BindPf m in
      match e with
      | Some er => let! _ := NfqClose in ret (Some (EWrapped 3 er))
      | None =>
        let! e := CreateQueue m queueID cb ecb priv in
        match e with
        | Some er => let! _ := NfqClose in ret (Some (EWrapped 4 er))
        | None =>
          let! e := NfqSetMode m NfqnlCopyPacket packetSize in
          match e with
          | Some er =>
              let! _ := NfqDestroyQueue m in
              let! _ := NfqClose in ret (Some (EWrapped 5 er))
          | None =>
            let! e := NfqSetQueueMaxLen m maxPacketsInQueue in
            match e with
            | Some er =>
                let! _ := NfqDestroyQueue m in
                let! _ := NfqClose in ret (Some (EWrapped 6 er))
            | None => let! _ := do_call KGo in ret None
            end
          end
        end
      end
    end
  end.

(* helpers.go:114-116 *)
Definition QueueID (msg : nfgenmsg) : Z := g_res msg.
