(** Model of package common: netlink header, nfgen and attribute codecs
    (common/helpers.go, common/accessors.go, common/constants.go). *)
From Verif Require Export Go.Heap.

(** ** Constants (common/constants.go:11-102) *)
Definition NfqnlMsgPacket  : Z := 768.   (* constants.go:34, 3<<8|0 *)
Definition NfqnlMsgVerdict : Z := 769.   (* constants.go:36, 3<<8|1 *)
Definition NfqnlMsgConfig  : Z := 770.   (* constants.go:38, 3<<8|2 *)
Definition NfnlConntrackTable : Z := 256. (* constants.go:43, 1<<8|0 *)
Definition NfnlNFLog : Z := 1025.        (* constants.go:46, 4<<8|1 *)
Definition nfqaMax : Z := 11.            (* constants.go:49 *)
Definition NlmFRequest : Z := 1.         (* constants.go:52 *)
Definition NlmFAck : Z := 4.             (* constants.go:56 *)
Definition NfnlBuffSize : Z := 76800.    (* constants.go:65 *)
Definition NlMsgError : Z := 2.          (* constants.go:89 *)
(* common/constants.go:66-102 and unix.SizeofNlMsghdr *)
Definition SizeofNlMsghdr : Z := 16.     (* syscall.SizeofNlMsghdr *)
Definition SizeofNfGenMsg : Z := 4.      (* constants.go:71 *)
Definition SizeofNfAttr : Z := 4.        (* constants.go:74 *)
Definition SizeOfValue8 : Z := 1.        (* constants.go:97 *)
Definition SizeOfValue16 : Z := 2.       (* constants.go:99 *)
Definition SizeOfValue32 : Z := 4.       (* constants.go:101 *)
(* package syscall, used at nfqueue.go:235-243 *)
Definition AF_UNSPEC : Z := 0.           (* package syscall *)
(* package syscall, used at nfqueue.go:235-243 *)
Definition AF_INET : Z := 2.
(* package syscall, used at nfqueue.go:235-243 *)
Definition AF_NETLINK : Z := 16.

(** ** Byte order of the machine (helpers.go:307-313; nfqueue.go:598-608 is the
    same code).  [m] is how the machine stores the uint32 0x01020304; the code
    looks at the first byte of that store. *)
Definition NativeEndian (m : endian) : endian :=
  if nth 0 (put32 m 16909060) 0 =? 1 then BE else LE.

(** ** Header fields packed in the 16-bit message type *)
(* helpers.go:14-16 *)
Definition NlMsgType (ty : Z) : Z := Z.land ty 255.
(* helpers.go:19-21 *)
Definition NlMsgSubsysID (ty : Z) : Z := Z.shiftr (Z.land ty 65280) 8.

(** ** Alignment *)
(* helpers.go:24-26, uint32 arithmetic *)
Definition NlMsgAlign (len : Z) : Z := Z.ldiff (u32 (u32 (len + 4) - 1)) 3.
(* helpers.go:29-31, uint16 arithmetic *)
Definition NfaAlign (len : Z) : Z := Z.ldiff (u16 (u16 (len + 4) - 1)) 3.
(* helpers.go:34-36, uint32 arithmetic *)
Definition NfaAlign32 (len : Z) : Z := Z.ldiff (u32 (u32 (len + 4) - 1)) 3.
(* helpers.go:39-41 *)
Definition NlMsgLength (len : Z) : Z := u32 (len + NlMsgAlign SizeofNlMsghdr).
(* helpers.go:44-46 *)
Definition NlMsgSpace (len : Z) : Z := NlMsgAlign (NlMsgLength len).
(* helpers.go:49-51 *)
Definition NfaLength (len : Z) : Z := NfaAlign (u16 (len + SizeofNfAttr)).

(** ** Structures *)
(* syscall.NlMsghdr *)
(* syscall.NlMsghdr *)
Record nlmsghdr := mkNlh { n_len : Z; n_type : Z; n_flags : Z; n_seq : Z; n_pid : Z }.
(* types.go:101-105 *)
Record nfgenmsg := mkGen { g_fam : Z; g_ver : Z; g_res : Z }.
(* types.go:110-113 *)
Record nfattr := mkAttr { a_len : Z; a_type : Z }.

(* assignment to hdr.Len (helpers.go:60-95) *)
Definition set_n_len (n : nlmsghdr) (l : Z) : nlmsghdr :=
  mkNlh l (n_type n) (n_flags n) (n_seq n) (n_pid n).

(* helpers.go:57-65 *)
Definition BuildNlMsgHeader (msgType msgFlags len : Z) : nlmsghdr :=
  mkNlh (NlMsgLength len) (u16 msgType) (u16 msgFlags) 0 0.
(* helpers.go:72-79; the second component is the updated *n *)
Definition BuildNfgenMsg (family version resID : Z) (n : nlmsghdr) : nfgenmsg * nlmsghdr :=
  (mkGen (u8 family) (u8 version) (u16 resID), set_n_len n (NlMsgLength SizeofNfGenMsg)).
(* helpers.go:87-93; the second component is the updated *n *)
Definition BuildNfAttrMsg (attrType : Z) (n : nlmsghdr) (dataLen : Z) : nfattr * nlmsghdr :=
  (mkAttr (NfaLength (u16 dataLen)) attrType,
   set_n_len n (u32 (n_len n + NfaLength (u16 dataLen)))).
(* helpers.go:120-125 *)
Definition BuildNfNestedAttrMsg (attrType dataLen : Z) : nfattr :=
  mkAttr (NfaLength (u16 dataLen)) attrType.
(* helpers.go:130-135 *)
Definition BuildNfAttrWithPaddingMsg (attrType dataLen : Z) : nfattr :=
  mkAttr (u16 dataLen) attrType.

(** ** Serialisation.  A function that fills a caller's buffer is modelled by
    the ordered list of stores (offset, bytes) it performs and the count it
    returns; the allocating variant performs the same kind of stores on a fresh
    zeroed buffer.  [copy(buf, []byte{b})] is written as a store of one byte:
    both fail (copy later, in the following PutUint16) when the buffer is too
    short. *)
(* no code: a list of stores into a buffer *)
Definition stores : Type := list (Z * bytes).

(* no code: a list of stores into a buffer *)
Fixpoint store_all (buf : bytes) (ws : stores) : res bytes :=
  match ws with
  | [] => Ok buf
  | (o, v) :: ws' => let* b := gput buf o v in store_all b ws'
  end.

(* helpers.go:107-115 (and 96-104, which does the same stores): the stores *)
Definition nlmsghdr_stores (m : endian) (hdr : nlmsghdr) : stores :=
  let e := NativeEndian m in
  [ (0, put32 e (n_len hdr)); (4, put16 e (n_type hdr)); (6, put16 e (n_flags hdr));
    (8, put32 e (n_seq hdr)); (12, put32 e (n_pid hdr)) ].
(* helpers.go:96-104 *)
Definition SerializeNlMsgHdr (m : endian) (hdr : nlmsghdr) : res bytes :=
  store_all (gmake SizeofNlMsghdr) (nlmsghdr_stores m hdr).
(* helpers.go:107-115 *)
Definition SerializeNlMsgHdrBuf (m : endian) (hdr : nlmsghdr) : stores * Z :=
  (nlmsghdr_stores m hdr, SizeofNlMsghdr).

(* helpers.go:140-143 / 149-152 *)
Definition nfgen_stores (r : nfgenmsg) : stores :=
  [ (0, [g_fam r]); (1, [g_ver r]); (2, put16 BE (g_res r)) ].
(* helpers.go:138-145 *)
Definition NfqGenMsg_ToWireFormat (r : nfgenmsg) : res bytes :=
  store_all (gmake SizeofNfGenMsg) (nfgen_stores r).
(* helpers.go:148-160 *)
Definition NfqGenMsg_ToWireFormatBuf (r : nfgenmsg) : stores * Z :=
  (nfgen_stores r, SizeofNfGenMsg).

(* helpers.go:166-167 / 174-175 *)
Definition nfattr_stores (m : endian) (r : nfattr) : stores :=
  [ (0, put16 (NativeEndian m) (a_len r)); (2, put16 (NativeEndian m) (a_type r)) ].
(* helpers.go:163-170 *)
Definition NfAttr_ToWireFormat (m : endian) (r : nfattr) : res bytes :=
  store_all (gmake SizeofNfAttr) (nfattr_stores m r).
(* helpers.go:173-177, 219-221 *)
Definition NfAttr_ToWireFormatBuf (m : endian) (r : nfattr) : stores * Z :=
  (nfattr_stores m r, 4).

(* helpers.go:182 / 188 *)
Definition value8_stores (v : Z) : stores := [ (0, [v]) ].
(* helpers.go:180-184 *)
Definition NfValue8_ToWireFormat (v : Z) : res bytes :=
  store_all (gmake SizeOfValue32) (value8_stores v).
(* helpers.go:187-190, 234-236: Length() is the size of NfValue32 *)
Definition NfValue8_ToWireFormatBuf (v : Z) : stores * Z := (value8_stores v, 4).

(* helpers.go:195 / 201 *)
Definition value16_stores (v : Z) : stores := [ (0, put16 BE v) ].
(* helpers.go:193-197 *)
Definition NfValue16_ToWireFormat (v : Z) : res bytes :=
  store_all (gmake SizeOfValue32) (value16_stores v).
(* helpers.go:200-203, 229-231: Length() is the size of NfValue32 *)
Definition NfValue16_ToWireFormatBuf (v : Z) : stores * Z := (value16_stores v, 4).
Definition NfValue16_Length : Z := 4.    (* helpers.go:229-231 *)

(* helpers.go:208 / 214 *)
Definition value32_stores (v : Z) : stores := [ (0, put32 BE v) ].
(* helpers.go:206-210 *)
Definition NfValue32_ToWireFormat (v : Z) : res bytes :=
  store_all (gmake SizeOfValue32) (value32_stores v).
(* helpers.go:213-216, 224-226 *)
Definition NfValue32_ToWireFormatBuf (v : Z) : stores * Z := (value32_stores v, 4).
Definition NfValue32_Length : Z := 4.    (* helpers.go:224-226 *)

(** Filling one buffer with consecutive *Buf calls, the pattern
    [copyIndex += x.ToWireFormatBuf(buf[copyIndex:])] used at
    conntrack.go:183-196 and nfqueue.go:417-422: the stores, relative to the
    whole buffer. *)
Fixpoint seq_stores (copyIndex : Z) (parts : list (stores * Z)) : stores :=
  match parts with
  | [] => []
  | (ws, n) :: ps =>
      map (fun ow => (copyIndex + fst ow, snd ow)) ws ++ seq_stores (copyIndex + n) ps
  end.

(** ** Parsing, over windows of the receive buffer *)

(* helpers.go:239-251.  The header is [None] for Go's nil pointer. *)
Definition NetlinkMessageToStruct (m : endian) (h : heap) (buf : slice)
  : res (option nlmsghdr * slice * option gerr) :=
  if (s_len buf <=? 15)%nat then Ok (None, snil, Some EBufferEmpty)
  else
    let e := NativeEndian m in
    let* l := get32 e (rd h buf) in
    let* b4 := resl_from buf 4 in let* t := get16 e (rd h b4) in
    let* b6 := resl_from buf 6 in let* f := get16 e (rd h b6) in
    let* b8 := resl_from buf 8 in let* s := get32 e (rd h b8) in
    let* b12 := resl_from buf 12 in let* p := get32 e (rd h b12) in
    let* next := resl_from buf 16 in
    Ok (Some (mkNlh l t f s p), next, None).

(* helpers.go:254-260 (never returns an error) *)
Definition NetlinkMessageToNfGenStruct (h : heap) (buf : slice)
  : res (nfgenmsg * slice) :=
  let* f := sidx h buf 0 in
  let* v := sidx h buf 1 in
  let* b2 := resl_from buf 2 in
  let* r := get16 BE (rd h b2) in
  let* next := resl_from buf 4 in
  Ok (mkGen f v r, next).

(** the map[int]*NfAttrResponsePayload: attribute type -> data window *)
(* no code: Go map [nfqaMax]*NfAttrResponsePayload (helpers.go:263-296) *)
Definition attrmap : Type := list (Z * slice).
(* no code: Go map [nfqaMax]*NfAttrResponsePayload (helpers.go:263-296) *)
Fixpoint amap_get (t : attrmap) (k : Z) : option slice :=
  match t with
  | [] => None
  | (k', s) :: t' => if k' =? k then Some s else amap_get t' k
  end.
(* no code: Go map [nfqaMax]*NfAttrResponsePayload (helpers.go:263-296) *)
Fixpoint amap_set (t : attrmap) (k : Z) (v : slice) : attrmap :=
  match t with
  | [] => []
  | (k', s) :: t' => if k' =? k then (k', v) :: t' else (k', s) :: amap_set t' k v
  end.

(* helpers.go:266-290: the loop; the result is the map, the final i, and the
   error of the "Bad Attr" return *)
Fixpoint nfattr_loop (fuel : nat) (m : endian) (h : heap) (buf : slice) (i : Z)
  (hdr : attrmap) : res (attrmap * Z * option gerr) :=
  match fuel with
  | O => NoFuel
  | S fuel' =>
    let L := Z.of_nat (s_len buf) in
    if i <? L then
      if L <? i + 4 then Ok (hdr, i + 4, None)                    (* 267-270 *)
      else
        let* b := resl_from buf i in
        let* nfaLen32 := get16 (NativeEndian m) (rd h b) in         (* 271 *)
        let* b2 := resl_from buf (i + 2) in
        let* nfaType := get16 (NativeEndian m) (rd h b2) in         (* 272 *)
        let i := i + 4 in
        if i + nfaLen32 - 4 <=? L then
          let next := NfaAlign32 (u32 (i + nfaLen32 - 4)) in        (* 278-279, 288-289 *)
          if nfaType <? nfqaMax then
            match amap_get hdr nfaType with
            | None => nfattr_loop fuel' m h buf next hdr            (* 277-281 *)
            | Some _ =>
                let* d := reslice buf i (i + nfaLen32 - 4) in       (* 283 *)
                nfattr_loop fuel' m h buf next (amap_set hdr nfaType d)
            end
          else nfattr_loop fuel' m h buf next hdr
        else Ok (hdr, i, Some EBadAttr)                             (* 286 *)
    else Ok (hdr, i, None)
  end.

(* helpers.go:263-296.  The leftover is [None] for nil. *)
Definition NetlinkMessageToNfAttrStruct (fuel : nat) (m : endian) (h : heap)
  (buf : slice) (hdr : attrmap) : res (attrmap * option slice * option gerr) :=
  let* x := nfattr_loop fuel m h buf 0 hdr in
  match x with
  | (hdr', _, Some e) => Ok (hdr', None, Some e)
  | (hdr', i, None) =>
      if Z.of_nat (s_len buf) <=? i then Ok (hdr', None, None)
      else let* rest := resl_from buf i in Ok (hdr', Some rest, None)
  end.

(* helpers.go:299-304: the header result and the Error field *)
Definition NetlinkErrMessagetoStruct (m : endian) (h : heap) (buf : slice)
  : res (option nlmsghdr * Z) :=
  let* e := get32 (NativeEndian m) (rd h buf) in
  let* b4 := resl_from buf 4 in
  let* x := NetlinkMessageToStruct m h b4 in
  match x with (hdr, _, _) => Ok (hdr, i32 e) end.

(** ** Addresses *)
(* helpers.go:316-321; an IP is its byte slice (nil = []) *)
Definition IP2int (ip : bytes) : res Z :=
  if (length ip =? 16)%nat then let* t := gsl ip 12 16 in get32 BE t else get32 BE ip.
(* helpers.go:324-328 *)
Definition Int2ip (nn : Z) : res bytes := gput (gmake 4) 0 (put32 BE nn).
