(** Model of package packet (common/packet/packet.go, helpers.go, types.go).
    Byte slices are windows into the heap; addresses are private copies
    (packet.go:89-90, 136-137) and so plain byte strings.  Print and the
    other ways of looking at a packet are in PacketView.v.  Not modelled here: Mark and
    the opaque metadata fields. *)
From Verif Require Export Go.Heap Model.Checksum Model.NetIP.

(** ** Constants (common/packet/constants.go) *)
Definition minTCPIPPacketLen : Z := 20.   (* constants.go:5 *)
Definition minUDPIPPacketLen : Z := 8.    (* constants.go:8 *)
Definition minIPv4HdrSize : Z := 20.      (* constants.go:10 *)
(* constants.go:16 *)
Definition ipv4HdrLenPos : Z := 0.
(* constants.go:19 *)
Definition ipv4LengthPos : Z := 2.
(* constants.go:22 *)
Definition ipv4IDPos : Z := 4.
(* constants.go:25 *)
Definition ipv4ProtoPos : Z := 9.
(* constants.go:28 *)
Definition ipv4ChecksumPos : Z := 10.
(* constants.go:31 *)
Definition ipv4SourceAddrPos : Z := 12.
Definition ipv4DestAddrPos : Z := 16.     (* constants.go:14-35 *)
(* constants.go:39 *)
Definition ipv6HeaderLen : Z := 40.
(* constants.go:42 *)
Definition ipv6PayloadLenPos : Z := 4.
(* constants.go:45 *)
Definition ipv6ProtoPos : Z := 6.
(* constants.go:48 *)
Definition ipv6SourceAddrPos : Z := 8.
Definition ipv6DestAddrPos : Z := 24.     (* constants.go:37-52 *)
(* constants.go:57 *)
Definition IPProtocolTCP : Z := 6.
Definition IPProtocolUDP : Z := 17.       (* constants.go:57-60 *)
(* constants.go:75 *)
Definition tcpSourcePortPos : Z := 0.
(* constants.go:78 *)
Definition tcpDestPortPos : Z := 2.
(* constants.go:81 *)
Definition tcpSeqPos : Z := 4.
(* constants.go:84 *)
Definition tcpAckPos : Z := 8.
(* constants.go:87 *)
Definition tcpDataOffsetPos : Z := 12.
(* constants.go:90 *)
Definition tcpFlagsOffsetPos : Z := 13.
Definition tcpChecksumPos : Z := 16.      (* constants.go:73-94 *)
(* constants.go:111 *)
Definition TCPAckMask : Z := 16.
Definition TCPFinMask : Z := 1.           (* constants.go:111,114 *)
Definition TCPAuthenticationOption : Z := 34.  (* constants.go:123 *)
(* constants.go:135 *)
Definition udpSourcePortPos : Z := 0.
(* constants.go:137 *)
Definition udpDestPortPos : Z := 2.
(* constants.go:139 *)
Definition udpLengthPos : Z := 4.
(* constants.go:141 *)
Definition udpChecksumPos : Z := 6.
(* constants.go:143 *)
Definition UDPDataPos : Z := 8.
Definition UDPPacketMask : Z := 240.      (* constants.go:133-156 *)
(* "n30njxq7bmiwr6dtxq", constants.go:160 *)
Definition UDPAuthMarker : bytes :=
  [110;51;48;110;106;120;113;55;98;109;105;119;114;54;100;116;120;113].
(* constants.go:164 *)
Definition UDPSignatureLen : Z := 20.
(* constants.go:166 *)
Definition udpAuthMarkerOffset : Z := 10.
(* constants.go:168 *)
Definition udpSignatureEnd : Z := 28.
Definition udpJwtTokenOffset : Z := 28.   (* constants.go:158-171 *)
Definition PacketTypeNetwork : Z := 4096. (* types.go:7 *)

(** error numbers of EPacket *)
Definition errInvalidLength := EPacket 1.     (* packet.go:36 *)
Definition errIPPacketCorrupt := EPacket 2.   (* packet.go:81 *)
Definition errIPOptions := EPacket 3.         (* packet.go:93 *)
Definition errStatedLength := EPacket 4.      (* packet.go:102, 145 *)
Definition errTCPTooSmall := EPacket 5.       (* packet.go:109, 154 *)
Definition errUDPTooSmall := EPacket 6.       (* packet.go:118, 163 *)
Definition errTCPAuthOption := EPacket 7.     (* packet.go:21 *)
Definition errInvalidIP := EPacket 8.         (* packet.go:322 *)
Definition errInvalidTCP := EPacket 9.        (* packet.go:325 *)
Definition errInvalidOption := EPacket 10.    (* packet.go:341 *)
Definition errInsertOptions := EPacket 11.    (* packet.go:465, 478 *)

(** ** Structures (types.go:138-202) *)
Inductive ipver := V4 | V6.
(* types.go:148-202 *)
Record packet := mkP {
  context : Z;
  (* iphdr *)
  Buffer : slice;
  ipHeaderLen : Z;
  ipProto : Z;
  ipTotalLength : Z;
  ipID : Z;
  ipChecksum : Z;
  version : ipver;
  sourceAddress : bytes;
  destinationAddress : bytes;
  (* tcphdr *)
  tcpOptions : slice;
  tcpData : slice;
  tcpSourcePort : Z;
  tcpDestinationPort : Z;
  tcpSeq : Z;
  tcpAck : Z;
  tcpDataOffset : Z;
  tcpFlags : Z;
  tcpChecksum : Z;
  tcpTotalLength : Z;
  (* udphdr *)
  udpSourcePort : Z;
  udpDestinationPort : Z;
  udpChecksum : Z;
  udpData : slice;
  l4flowhash : bytes }.

(** the zero Packet with the given context *)
(* no code: assignments to fields of Packet *)
Definition zero_packet (ctx : Z) : packet :=
  mkP ctx snil 0 0 0 0 0 V4 [] [] snil snil 0 0 0 0 0 0 0 0 0 0 0 snil [].

(** field updates *)
(* no code: assignments to fields of Packet *)
Definition with_buffer (p : packet) (b : slice) : packet :=
  mkP (context p) b (ipHeaderLen p) (ipProto p) (ipTotalLength p) (ipID p) (ipChecksum p)
      (version p) (sourceAddress p) (destinationAddress p) (tcpOptions p) (tcpData p)
      (tcpSourcePort p) (tcpDestinationPort p) (tcpSeq p) (tcpAck p) (tcpDataOffset p)
      (tcpFlags p) (tcpChecksum p) (tcpTotalLength p) (udpSourcePort p) (udpDestinationPort p)
      (udpChecksum p) (udpData p) (l4flowhash p).
(* no code: assignments to fields of Packet *)
Definition with_ip (p : packet) (v : ipver) (hl pr tl id cs : Z) (sa da : bytes) : packet :=
  mkP (context p) (Buffer p) hl pr tl id cs
      v sa da (tcpOptions p) (tcpData p)
      (tcpSourcePort p) (tcpDestinationPort p) (tcpSeq p) (tcpAck p) (tcpDataOffset p)
      (tcpFlags p) (tcpChecksum p) (tcpTotalLength p) (udpSourcePort p) (udpDestinationPort p)
      (udpChecksum p) (udpData p) (l4flowhash p).
(* no code: assignments to fields of Packet *)
Definition with_tcp (p : packet) (opts data : slice) (sp dp sq ak off fl cs tl : Z) : packet :=
  mkP (context p) (Buffer p) (ipHeaderLen p) (ipProto p) (ipTotalLength p) (ipID p) (ipChecksum p)
      (version p) (sourceAddress p) (destinationAddress p) opts data
      sp dp sq ak off fl cs tl (udpSourcePort p) (udpDestinationPort p)
      (udpChecksum p) (udpData p) (l4flowhash p).
(* no code: assignments to fields of Packet *)
Definition with_udp (p : packet) (sp dp cs : Z) (data : slice) : packet :=
  mkP (context p) (Buffer p) (ipHeaderLen p) (ipProto p) (ipTotalLength p) (ipID p) (ipChecksum p)
      (version p) (sourceAddress p) (destinationAddress p) (tcpOptions p) (tcpData p)
      (tcpSourcePort p) (tcpDestinationPort p) (tcpSeq p) (tcpAck p) (tcpDataOffset p)
      (tcpFlags p) (tcpChecksum p) (tcpTotalLength p) sp dp cs data (l4flowhash p).
(* no code: assignments to fields of Packet *)
Definition with_hash (p : packet) (s : bytes) : packet :=
  mkP (context p) (Buffer p) (ipHeaderLen p) (ipProto p) (ipTotalLength p) (ipID p) (ipChecksum p)
      (version p) (sourceAddress p) (destinationAddress p) (tcpOptions p) (tcpData p)
      (tcpSourcePort p) (tcpDestinationPort p) (tcpSeq p) (tcpAck p) (tcpDataOffset p)
      (tcpFlags p) (tcpChecksum p) (tcpTotalLength p) (udpSourcePort p) (udpDestinationPort p)
      (udpChecksum p) (udpData p) s.
(* no code: assignments to fields of Packet *)
Definition with_total_csum (p : packet) (tl cs : Z) : packet :=
  with_ip p (version p) (ipHeaderLen p) (ipProto p) tl (ipID p) cs
          (sourceAddress p) (destinationAddress p).
(* no code: assignments to fields of Packet *)
Definition with_addrs (p : packet) (sa da : bytes) : packet :=
  with_ip p (version p) (ipHeaderLen p) (ipProto p) (ipTotalLength p) (ipID p) (ipChecksum p) sa da.
(* no code: assignments to fields of Packet *)
Definition with_seq (p : packet) (x : Z) : packet :=
  with_tcp p (tcpOptions p) (tcpData p) (tcpSourcePort p) (tcpDestinationPort p) x (tcpAck p)
    (tcpDataOffset p) (tcpFlags p) (tcpChecksum p) (tcpTotalLength p).
(* no code: assignments to fields of Packet *)
Definition with_ack (p : packet) (x : Z) : packet :=
  with_tcp p (tcpOptions p) (tcpData p) (tcpSourcePort p) (tcpDestinationPort p) (tcpSeq p) x
    (tcpDataOffset p) (tcpFlags p) (tcpChecksum p) (tcpTotalLength p).
(* no code: assignments to fields of Packet *)
Definition with_offset (p : packet) (x : Z) : packet :=
  with_tcp p (tcpOptions p) (tcpData p) (tcpSourcePort p) (tcpDestinationPort p) (tcpSeq p)
    (tcpAck p) x (tcpFlags p) (tcpChecksum p) (tcpTotalLength p).
(* no code: assignments to fields of Packet *)
Definition with_flags (p : packet) (x : Z) : packet :=
  with_tcp p (tcpOptions p) (tcpData p) (tcpSourcePort p) (tcpDestinationPort p) (tcpSeq p)
    (tcpAck p) (tcpDataOffset p) x (tcpChecksum p) (tcpTotalLength p).
(* no code: assignments to fields of Packet *)
Definition with_tcpcsum (p : packet) (x : Z) : packet :=
  with_tcp p (tcpOptions p) (tcpData p) (tcpSourcePort p) (tcpDestinationPort p) (tcpSeq p)
    (tcpAck p) (tcpDataOffset p) (tcpFlags p) x (tcpTotalLength p).
(* no code: assignments to fields of Packet *)
Definition with_optdata (p : packet) (o d : slice) : packet :=
  with_tcp p o d (tcpSourcePort p) (tcpDestinationPort p) (tcpSeq p)
    (tcpAck p) (tcpDataOffset p) (tcpFlags p) (tcpChecksum p) (tcpTotalLength p).
(* no code: assignments to fields of Packet *)
Definition with_udpcsum (p : packet) (x : Z) : packet :=
  with_udp p (udpSourcePort p) (udpDestinationPort p) x (udpData p).

(** ** Reading and writing windows *)
(* binary.BigEndian.UintN(s[lo:hi]) *)
(* no code: package encoding/binary on a slice *)
Definition be16_at (h : heap) (s : slice) (pos : Z) : res Z :=
  let* w := reslice s pos (pos + 2) in get16 BE (rd h w).
(* no code: package encoding/binary on a slice *)
Definition be32_at (h : heap) (s : slice) (pos : Z) : res Z :=
  let* w := reslice s pos (pos + 4) in get32 BE (rd h w).
(* binary.BigEndian.PutUintN(s[pos:pos+n], v) *)
(* no code: package encoding/binary on a slice *)
Definition put16_at (h : heap) (s : slice) (pos v : Z) : res heap :=
  let* w := reslice s pos (pos + 2) in wr h w 0 (put16 BE v).
(* no code: package encoding/binary on a slice *)
Definition put32_at (h : heap) (s : slice) (pos v : Z) : res heap :=
  let* w := reslice s pos (pos + 4) in wr h w 0 (put32 BE v).
(* append([]byte{}, s[lo:hi]...) *)
(* no code: append([]byte{}, s[lo:hi]...) *)
Definition copy_of (h : heap) (s : slice) (lo hi : Z) : res bytes :=
  let* w := reslice s lo hi in Ok (rd h w).

(** ** Accessors *)
(* packet.go:533-539 *)
Definition SourcePort (p : packet) : Z :=
  if ipProto p =? IPProtocolTCP then tcpSourcePort p else udpSourcePort p.
(* packet.go:542-548 *)
Definition DestPort (p : packet) : Z :=
  if ipProto p =? IPProtocolTCP then tcpDestinationPort p else udpDestinationPort p.
(* packet.go:551-573, 223-225, 379-386: SourceAddress, DestinationAddress,
   IPProto, IPTotalLen, GetIPLength, IPHeaderLen, IPversion, GetTCPFlags,
   GetTCPData, GetTCPOptions are the fields themselves *)
Definition SourceAddress := sourceAddress.
(* packet.go:556-558 *)
Definition DestinationAddress := destinationAddress.
(* packet.go:561-563 *)
Definition IPProto := ipProto.
(* packet.go:566-568 *)
Definition IPTotalLen := ipTotalLength.
(* helpers.go:379-381 *)
Definition GetTCPFlags := tcpFlags.
Definition SetTCPFlags (p : packet) (f : Z) : packet := with_flags p f.  (* helpers.go:384-386 *)
(* packet.go:218-220 *)
Definition TCPDataStartBytes (p : packet) : Z := u16 (tcpDataOffset p * 4).
(* packet.go:176-178 *)
Definition IsEmptyTCPPayload (p : packet) : bool := TCPDataStartBytes p =? tcpTotalLength p.
(* packet.go:181-183, 201-203 *)
Definition GetTCPData (h : heap) (p : packet) : bytes := rd h (tcpData p).
(* packet.go:201-203 *)
Definition GetTCPOptions (h : heap) (p : packet) : bytes := rd h (tcpOptions p).
(* packet.go:186-188 *)
Definition GetUDPData (p : packet) : res slice :=
  resl_from (Buffer p) (u8 (ipHeaderLen p + UDPDataPos)).
(* packet.go:576-578 *)
Definition GetBuffer (p : packet) (offset : Z) : res slice := resl_from (Buffer p) offset.
(* packet.go:518-520 *)
Definition ID (p : packet) : bytes := itoa (ipID p).
(* packet.go:523-530 *)
Definition TCPOptionLength (p : packet) : Z := Z.of_nat (s_len (tcpOptions p)).
(* packet.go:528-530 *)
Definition TCPDataLength (p : packet) : Z := Z.of_nat (s_len (tcpData p)).
(* packet.go:293-300 *)
Definition GetTCPBytes (h : heap) (p : packet) : bytes :=
  (rd h (Buffer p) ++ rd h (tcpOptions p)) ++ rd h (tcpData p).
(* packet.go:310-312 *)
Definition ReadTCPData (p : packet) : res slice :=
  resl_from (Buffer p) (u16 (u16 (ipHeaderLen p) + TCPDataStartBytes p)).
(* packet.go:196-198 *)
Definition SetTCPData (p : packet) (b : slice) : packet := with_optdata p (tcpOptions p) b.
(* packet.go:206-208 *)
Definition DropTCPDetachedDataBytes (p : packet) : packet := with_optdata p (tcpOptions p) snil.
(* packet.go:211-215 *)
Definition DropTCPDetachedBytes (p : packet) : packet := with_optdata p snil snil.

(** ** Flow hashes *)
(* packet.go:499-501 *)
Definition l4FlowHash (p : packet) : bytes :=
  ip_string (sourceAddress p) ++ [58] ++ ip_string (destinationAddress p) ++ [58]
  ++ itoa (SourcePort p) ++ [58] ++ itoa (DestPort p).
(* packet.go:495-497 *)
Definition L4FlowHash (p : packet) : bytes := l4flowhash p.
(* packet.go:504-506 *)
Definition L4ReverseFlowHash (p : packet) : bytes :=
  ip_string (destinationAddress p) ++ [58] ++ ip_string (sourceAddress p) ++ [58]
  ++ itoa (DestPort p) ++ [58] ++ itoa (SourcePort p).
(* packet.go:509-515 *)
Definition SourcePortHash (p : packet) (stage : Z) : bytes :=
  if stage =? PacketTypeNetwork
  then ip_string (destinationAddress p) ++ [58] ++ itoa (DestPort p)
  else ip_string (sourceAddress p) ++ [58] ++ itoa (SourcePort p).

(** ** Parsing *)
(* packet.go:47-64 *)
Definition parseTCP (h : heap) (p : packet) (bytes : slice) : res packet :=
  let* tb := resl_from bytes (ipHeaderLen p) in
  let* cs := be16_at h tb tcpChecksumPos in
  let* sp := be16_at h tb tcpSourcePortPos in
  let* dp := be16_at h tb tcpDestPortPos in
  let* ak := be32_at h tb tcpAckPos in
  let* sq := be32_at h tb tcpSeqPos in
  let* ob := sidx h tb tcpDataOffsetPos in
  let off := Z.shiftr (Z.land ob 240) 4 in
  let* bb := resl_from (Buffer p) (ipHeaderLen p) in
  let tl := u16 (Z.of_nat (s_len bb)) in
  let* fl := sidx h tb tcpFlagsOffsetPos in
  Ok (with_tcp p snil snil sp dp sq ak off fl cs tl).

(* packet.go:66-75 *)
Definition parseUDP (h : heap) (p : packet) (bytes : slice) : res packet :=
  let* ub := resl_from bytes (ipHeaderLen p) in
  let* cs := be16_at h ub udpChecksumPos in
  let* sp := be16_at h ub udpSourcePortPos in
  let* dp := be16_at h ub udpDestPortPos in
  Ok (with_udp p sp dp cs snil).

(* packet.go:107-127 and 152-171: the transport part, shared text of both
   parsers *)
Definition parse_transport (h : heap) (p : packet) (bytes : slice) : res (packet * option gerr) :=
  let small (min : Z) := u16 (ipTotalLength p - u16 (ipHeaderLen p)) <? min in
  if (ipProto p =? IPProtocolTCP) && small minTCPIPPacketLen then Ok (p, Some errTCPTooSmall)
  else
    let* p1 := if ipProto p =? IPProtocolTCP then parseTCP h p bytes else Ok p in
    if (ipProto p1 =? IPProtocolUDP) && small minUDPIPPacketLen then Ok (p1, Some errUDPTooSmall)
    else
      let* p2 := if ipProto p1 =? IPProtocolUDP then parseUDP h p1 bytes else Ok p1 in
      Ok (with_hash p2 (l4FlowHash p2), None).

(* packet.go:77-129.  The result is the packet as filled so far and the error. *)
Definition parseIPv4Packet (h : heap) (p : packet) (bytes : slice) (lengthValidate : bool)
  : res (packet * option gerr) :=
  if Z.of_nat (s_len bytes) <? minIPv4HdrSize then Ok (p, Some errIPPacketCorrupt)
  else
    let* b0 := sidx h bytes ipv4HdrLenPos in
    let hl := u8 (Z.land b0 15 * 4) in
    let* pr := sidx h bytes ipv4ProtoPos in
    let* tl := be16_at h bytes ipv4LengthPos in
    let* id := be16_at h bytes ipv4IDPos in
    let* cs := be16_at h bytes ipv4ChecksumPos in
    let* sa := copy_of h bytes ipv4SourceAddrPos (ipv4SourceAddrPos + 4) in
    let* da := copy_of h bytes ipv4DestAddrPos (ipv4DestAddrPos + 4) in
    let p := with_ip p (version p) hl pr tl id cs sa da in
    if negb (hl =? minIPv4HdrSize) then Ok (p, Some errIPOptions)
    else
      let p := with_buffer p bytes in
      let blen := u16 (Z.of_nat (s_len bytes)) in
      if lengthValidate && negb (tl =? blen) then
        if tl <? blen then
          let* b := resl_to bytes tl in
          parse_transport h (with_buffer p b) bytes
        else Ok (p, Some errStatedLength)
      else parse_transport h p bytes.

(* packet.go:131-173 *)
Definition parseIPv6Packet (h : heap) (p : packet) (bytes : slice) (lengthValidate : bool)
  : res (packet * option gerr) :=
  let* pr := sidx h bytes ipv6ProtoPos in
  let* pl := be16_at h bytes ipv6PayloadLenPos in
  let tl := u16 (ipv6HeaderLen + pl) in
  let* sa := copy_of h bytes ipv6SourceAddrPos (ipv6SourceAddrPos + 16) in
  let* da := copy_of h bytes ipv6DestAddrPos (ipv6DestAddrPos + 16) in
  let p := with_buffer (with_ip p (version p) ipv6HeaderLen pr tl (ipID p) (ipChecksum p) sa da) bytes in
  let blen := u16 (Z.of_nat (s_len bytes)) in
  if lengthValidate && negb (tl =? blen) then
    if tl <? blen then
      let* b := resl_to bytes tl in
      let* p := parseTCP h (with_buffer p b) bytes in       (* 148: for every protocol *)
      parse_transport h p bytes
    else Ok (p, Some errStatedLength)
  else parse_transport h p bytes.

(* no code: assignments to fields of Packet *)
Definition with_version (p : packet) (v : ipver) : packet :=
  with_ip p v (ipHeaderLen p) (ipProto p) (ipTotalLength p) (ipID p) (ipChecksum p)
          (sourceAddress p) (destinationAddress p).

(* packet.go:26-45.  [None] is the nil packet. *)
Definition New (h : heap) (context : Z) (bytes : slice) (lengthValidate : bool)
  : res (option packet * option gerr) :=
  let p := zero_packet context in
  if Z.of_nat (s_len bytes) <? ipv4HdrLenPos then Ok (None, Some errInvalidLength)
  else
    let* b0 := sidx h bytes ipv4HdrLenPos in
    let* x := if Z.land b0 240 =? 64
              then parseIPv4Packet h (with_version p V4) bytes lengthValidate
              else parseIPv6Packet h (with_version p V6) bytes lengthValidate in
    Ok (Some (fst x), snd x).

(** ** Authentication option (packet.go:315-354) *)
(* the loop of 329-352 *)
Fixpoint auth_loop (fuel : nat) (buffer : bytes) (i : Z) : res (option gerr) :=
  match fuel with
  | O => NoFuel
  | S f =>
    if i <? zlen buffer then
      let* k := gidx buffer i in
      if (k =? 0) || (k =? 1) then auth_loop f buffer (i + 1)
      else if negb (k =? TCPAuthenticationOption) then
        if zlen buffer <=? i + 1 then Ok (Some errTCPAuthOption)
        else
          let* l := gidx buffer (i + 1) in
          if l =? 0 then Ok (Some errInvalidOption)
          else auth_loop f buffer (i + l)
      else Ok None
    else Ok (Some errTCPAuthOption)
  end.
(* packet.go:315-355 *)
Definition CheckTCPAuthenticationOption (fuel : nat) (h : heap) (p : packet)
  : res (option gerr) :=
  if TCPDataStartBytes p <=? minTCPIPPacketLen then Ok (Some errTCPAuthOption)
  else if Z.of_nat (s_len (Buffer p)) <? ipHeaderLen p + 20 then Ok (Some errInvalidIP)
  else if Z.of_nat (s_len (Buffer p)) <? ipHeaderLen p + u8 (tcpDataOffset p * 4)
  then Ok (Some errInvalidTCP)
  else
    let* b := reslice (Buffer p) (u8 (ipHeaderLen p + 20))
                      (ipHeaderLen p + u8 (tcpDataOffset p * 4)) in
    auth_loop fuel (rd h b) 0.

(** ** IP header fix-up (packet.go:357-370) *)
Definition FixupIPHdrOnDataModify (h : heap) (p : packet) (old new : Z) : res (packet * heap) :=
  let* cs := incCsum16 (ipChecksum p) old new in
  let tl := u16 (u16 (ipTotalLength p + new) - old) in
  let p := with_total_csum p tl cs in
  match version p with
  | V6 =>
      let* h := put16_at h (Buffer p) ipv6PayloadLenPos (u16 (tl - u16 (ipHeaderLen p))) in
      Ok (p, h)
  | V4 =>
      let* h := put16_at h (Buffer p) ipv4LengthPos tl in
      let* h := put16_at h (Buffer p) ipv4ChecksumPos cs in
      Ok (p, h)
  end.

(** ** Sequence numbers (packet.go:373-398) *)
Definition IncreaseTCPSeq (h : heap) (p : packet) (incr : Z) : res (packet * heap) :=
  let* b := resl_from (Buffer p) (ipHeaderLen p) in
  let p := with_seq p (u32 (tcpSeq p + incr)) in
  let* h := put32_at h b tcpSeqPos (tcpSeq p) in Ok (p, h).
(* packet.go:380-384 *)
Definition DecreaseTCPSeq (h : heap) (p : packet) (decr : Z) : res (packet * heap) :=
  let* b := resl_from (Buffer p) (ipHeaderLen p) in
  let p := with_seq p (u32 (tcpSeq p - decr)) in
  let* h := put32_at h b tcpSeqPos (tcpSeq p) in Ok (p, h).
(* packet.go:387-391 *)
Definition IncreaseTCPAck (h : heap) (p : packet) (incr : Z) : res (packet * heap) :=
  let* b := resl_from (Buffer p) (ipHeaderLen p) in
  let p := with_ack p (u32 (tcpAck p + incr)) in
  let* h := put32_at h b tcpAckPos (tcpAck p) in Ok (p, h).
(* packet.go:394-398 *)
Definition DecreaseTCPAck (h : heap) (p : packet) (decr : Z) : res (packet * heap) :=
  let* b := resl_from (Buffer p) (ipHeaderLen p) in
  let p := with_ack p (u32 (tcpAck p - decr)) in
  let* h := put32_at h b tcpAckPos (tcpAck p) in Ok (p, h).

(** ** Detaching and attaching TCP data *)
(* packet.go:401-407 *)
Definition FixuptcpHdrOnTCPDataDetach (h : heap) (p : packet) (optionLength : Z)
  : res (packet * heap) :=
  let* b := resl_from (Buffer p) (ipHeaderLen p) in
  let off := u8 (tcpDataOffset p - u8 (optionLength / 4)) in
  let p := with_offset p off in
  let* h := wr h b tcpDataOffsetPos [u8 (Z.shiftl off 4)] in
  Ok (p, h).

(* packet.go:410-425 (never returns an error) *)
Definition tcpDataDetach (p : packet) (optionLength dataLength : Z) : res packet :=
  let* buffer := resl_from (Buffer p) (ipHeaderLen p) in
  let start := TCPDataStartBytes p in
  let* data := if dataLength =? 0 then Ok (tcpData p) else resl_from buffer start in
  let* opts := if optionLength =? 0 then Ok (tcpOptions p)
               else reslice buffer (u16 (start - optionLength)) start in
  let* nb := resl_to (Buffer p) (u16 (u16 (u16 (ipHeaderLen p) + start) - optionLength)) in
  Ok (with_buffer (with_optdata p opts data) nb).

(* packet.go:432-448 *)
Definition TCPDataDetach (h : heap) (p : packet) (optionLength : Z) : res (packet * heap) :=
  let* b := resl_from (Buffer p) (ipHeaderLen p) in
  let dataLength := u16 (u16 (Z.of_nat (s_len b)) - TCPDataStartBytes p) in
  let* p := tcpDataDetach p optionLength dataLength in
  let* x := FixuptcpHdrOnTCPDataDetach h p optionLength in
  let '(p, h) := x in
  FixupIPHdrOnDataModify h p (ipTotalLength p)
    (u16 (ipTotalLength p - u16 (dataLength + optionLength))).

(* packet.go:451-459; nopts = len(tcpOptions) of the argument *)
Definition FixuptcpHdrOnTCPDataAttach (h : heap) (p : packet) (nopts : Z) : res (packet * heap) :=
  let* b := resl_from (Buffer p) (ipHeaderLen p) in
  let off := u8 (tcpDataOffset p + u8 (nopts / 4)) in
  let p := with_offset p off in
  let* h := put16_at h b tcpChecksumPos (tcpChecksum p) in
  let* h := wr h b tcpDataOffsetPos [u8 (Z.shiftl off 4)] in
  Ok (p, h).

(* packet.go:462-472.  [options] is read when appended. *)
Definition tcpDataAttach (grow : nat -> nat -> nat) (h : heap) (p : packet) (options data : slice)
  : res (packet * heap * option gerr) :=
  let* b := resl_from (Buffer p) (ipHeaderLen p) in
  if negb (TCPDataStartBytes p =? u16 (Z.of_nat (s_len b))) && negb (s_len options =? 0)%nat
  then Ok (p, h, Some errInsertOptions)
  else
    let '(h', o) := gappend grow h (tcpOptions p) (rd h options) in
    Ok (with_optdata p o data, h', None).

(* packet.go:475-491 *)
Definition TCPDataAttach (grow : nat -> nat -> nat) (h : heap) (p : packet) (options data : slice)
  : res (packet * heap * option gerr) :=
  let* x := tcpDataAttach grow h p options data in
  match x with
  | (p, h, Some e) => Ok (p, h, Some e)
  | (p, h, None) =>
      let inc := u16 (Z.of_nat (s_len data) + Z.of_nat (s_len options)) in
      let* y := FixupIPHdrOnDataModify h p (ipTotalLength p) (u16 (ipTotalLength p + inc)) in
      let '(p, h) := y in
      let* z := FixuptcpHdrOnTCPDataAttach h p (Z.of_nat (s_len options)) in
      let '(p, h) := z in
      Ok (p, h, None)
  end.

(** ** Checksums of packets (helpers.go:17-52, 102-160, 220-259) *)
(* helpers.go:103-116 *)
Definition computeIPv4Checksum (h : heap) (p : packet) : res (Z * heap) :=
  let* h := wr h (Buffer p) ipv4ChecksumPos [0] in
  let* h := wr h (Buffer p) (ipv4ChecksumPos + 1) [0] in
  let* hd := resl_to (Buffer p) (ipHeaderLen p) in
  let* sum := checksum (rd h hd) in
  let* h := put16_at h (Buffer p) ipv4ChecksumPos (ipChecksum p) in
  Ok (sum, h).
(* helpers.go:20-25 *)
Definition VerifyIPv4Checksum (h : heap) (p : packet) : res (bool * heap) :=
  let* x := computeIPv4Checksum h p in
  Ok (fst x =? ipChecksum p, snd x).
(* helpers.go:29-34 *)
Definition UpdateIPv4Checksum (h : heap) (p : packet) : res (packet * heap) :=
  let* x := computeIPv4Checksum h p in
  let p := with_total_csum p (ipTotalLength p) (fst x) in
  let* h := put16_at (snd x) (Buffer p) ipv4ChecksumPos (ipChecksum p) in
  Ok (p, h).

(* helpers.go:119-160 *)
Definition computeTCPChecksum (h : heap) (p : packet) : res (Z * heap) :=
  let* buffer := resl_from (Buffer p) (ipHeaderLen p) in
  let tcpBufSize := u16 (Z.of_nat (s_len buffer) + Z.of_nat (s_len (tcpData p))
                         + Z.of_nat (s_len (tcpOptions p))) in
  let* oldCsumLow := sidx h buffer tcpChecksumPos in
  let* oldCsumHigh := sidx h buffer (tcpChecksumPos + 1) in
  let* h := wr h buffer tcpChecksumPos [0] in
  let* h := wr h buffer (tcpChecksumPos + 1) [0] in
  let* c := match version p with
            | V4 =>
                let* s := copy_of h (Buffer p) ipv4SourceAddrPos (ipv4SourceAddrPos + 4) in
                let* d := copy_of h (Buffer p) ipv4DestAddrPos (ipv4DestAddrPos + 4) in
                Ok (partialChecksum (partialChecksum 0 s) d)
            | V6 =>
                let* s := copy_of h (Buffer p) ipv6SourceAddrPos (ipv6SourceAddrPos + 16) in
                let* d := copy_of h (Buffer p) ipv6DestAddrPos (ipv6DestAddrPos + 16) in
                Ok (partialChecksum (partialChecksum 0 s) d)
            end in
  let c := partialChecksum c [0; 6] in
  let c := partialChecksum c (put16 BE tcpBufSize) in
  let c := partialChecksum c (rd h buffer) in
  let c := partialChecksum c (rd h (tcpOptions p)) in
  let c := partialChecksum c (rd h (tcpData p)) in
  let* csum16 := finalizeChecksum c in
  let* h := wr h buffer tcpChecksumPos [oldCsumLow] in
  let* h := wr h buffer (tcpChecksumPos + 1) [oldCsumHigh] in
  Ok (csum16, h).
(* helpers.go:39-44 *)
Definition VerifyTCPChecksum (h : heap) (p : packet) : res (bool * heap) :=
  let* x := computeTCPChecksum h p in
  Ok (fst x =? tcpChecksum p, snd x).
(* helpers.go:48-52 *)
Definition UpdateTCPChecksum (h : heap) (p : packet) : res (packet * heap) :=
  let* buffer := resl_from (Buffer p) (ipHeaderLen p) in
  let* x := computeTCPChecksum h p in
  let p := with_tcpcsum p (fst x) in
  let* h := put16_at (snd x) buffer tcpChecksumPos (tcpChecksum p) in
  Ok (p, h).

(* helpers.go:55-58 *)
Definition updateTCPFlags (h : heap) (p : packet) (f : Z) : res heap :=
  let* b := resl_from (Buffer p) (ipHeaderLen p) in
  wr h b tcpFlagsOffsetPos [f].
(* helpers.go:63-77 *)
Definition ConvertAcktoFinAck (h : heap) (p : packet) : res (packet * heap) :=
  let f := Z.lor (Z.lor 0 TCPFinMask) TCPAckMask in
  let* h := updateTCPFlags h p f in
  let p := with_flags p f in
  let* x := TCPDataDetach h p 0 in
  let '(p, h) := x in
  Ok (DropTCPDetachedBytes p, h).

(* helpers.go:220-242 *)
Definition updateUDPv6Checksum (h : heap) (p : packet) : res (packet * heap) :=
  let* buffer := resl_from (Buffer p) (ipHeaderLen p) in
  let c := partialChecksum 0 (sourceAddress p) in
  let c := partialChecksum c (destinationAddress p) in
  let c := partialChecksum c (put32 BE (u32 (Z.of_nat (s_len buffer)))) in
  let c := partialChecksum c [0; 0; 0; 17] in
  let* h := wr h buffer udpChecksumPos [0] in
  let* h := wr h buffer (udpChecksumPos + 1) [0] in
  let c := partialChecksum c (rd h buffer) in
  let* s := finalizeChecksum c in
  let p := with_udpcsum p s in
  let* h := put16_at h buffer udpChecksumPos s in
  Ok (p, h).
(* helpers.go:244-248 *)
Definition fixupUDPHdr (h : heap) (p : packet) : res heap :=
  let* buffer := resl_from (Buffer p) (ipHeaderLen p) in
  put16_at h buffer udpLengthPos (u16 (Z.of_nat (s_len buffer))).
(* helpers.go:250-259 *)
Definition fixupUDPChecksum (h : heap) (p : packet) : res (packet * heap) :=
  match version p with
  | V4 =>
      let* buffer := resl_from (Buffer p) (ipHeaderLen p) in
      let* h := wr h buffer udpChecksumPos [0] in
      let* h := wr h buffer (udpChecksumPos + 1) [0] in
      Ok (p, h)
  | V6 => updateUDPv6Checksum h p
  end.

(** ** UDP (helpers.go:261-407) *)
(* helpers.go:262-269 *)
Definition ReadUDPToken (p : packet) : res slice :=
  let* buffer := resl_from (Buffer p) (ipHeaderLen p) in
  if Z.of_nat (s_len buffer) <=? udpJwtTokenOffset then Ok snil
  else resl_from buffer udpJwtTokenOffset.

(* helpers.go:272-290.  udpData is a fresh array (append to []byte{}). *)
Definition UDPTokenAttach (grow : nat -> nat -> nat) (h : heap) (p : packet)
  (udpdata udptoken : slice) : res (packet * heap) :=
  let '(h, d) := gappend grow h snil (rd h udpdata) in
  let '(h, d) := gappend grow h d (rd h udptoken) in
  let p := with_udp p (udpSourcePort p) (udpDestinationPort p) (udpChecksum p) d in
  let inc := u16 (Z.of_nat (s_len udpdata) + Z.of_nat (s_len udptoken)) in
  let* x := FixupIPHdrOnDataModify h p (ipTotalLength p) (u16 (ipTotalLength p + inc)) in
  let '(p, h) := x in
  let '(h, b) := gappend grow h (Buffer p) (rd h d) in
  let p := with_buffer p b in
  let* h := fixupUDPHdr h p in
  fixupUDPChecksum h p.

(* helpers.go:293-303 *)
Definition UDPDataAttach (grow : nat -> nat -> nat) (h : heap) (p : packet)
  (header udpdata : slice) : res (packet * heap) :=
  let '(h, b) := gappend grow h (Buffer p) (rd h header) in
  let p := with_buffer p b in
  let '(h, b) := gappend grow h (Buffer p) (rd h udpdata) in
  let p := with_buffer p b in
  let* x := FixupIPHdrOnDataModify h p (ipTotalLength p) (u16 (Z.of_nat (s_len (Buffer p)))) in
  let '(p, h) := x in
  let* h := fixupUDPHdr h p in
  fixupUDPChecksum h p.

(* helpers.go:306-309 *)
Definition UDPDataDetach (p : packet) : res packet :=
  let* b := resl_to (Buffer p) (u8 (ipHeaderLen p + UDPDataPos)) in
  Ok (with_buffer p b).

(* copy(s[lo:hi], v) *)
(* no code: copy(s[lo:hi], v) *)
Definition copy_into (h : heap) (s : slice) (lo hi : Z) (v : bytes) : res heap :=
  let* w := reslice s lo hi in Ok (scopy h w v).

(* helpers.go:312-346 *)
Definition CreateReverseFlowPacket (h : heap) (p : packet) : res (packet * heap) :=
  let buffer := Buffer p in
  let* h := match version p with
            | V4 =>
                let* h := copy_into h buffer ipv4SourceAddrPos (ipv4SourceAddrPos + 4) (destinationAddress p) in
                copy_into h buffer ipv4DestAddrPos (ipv4DestAddrPos + 4) (sourceAddress p)
            | V6 =>
                let* h := copy_into h buffer ipv6SourceAddrPos (ipv6SourceAddrPos + 16) (destinationAddress p) in
                copy_into h buffer ipv6DestAddrPos (ipv6DestAddrPos + 16) (sourceAddress p)
            end in
  let* buffer := resl_from buffer (ipHeaderLen p) in
  let* h := put16_at h buffer udpSourcePortPos (udpDestinationPort p) in
  let* h := put16_at h buffer udpDestPortPos (udpSourcePort p) in
  let p := with_addrs p (destinationAddress p) (sourceAddress p) in
  let p := with_udp p (udpDestinationPort p) (udpSourcePort p) (udpChecksum p) (udpData p) in
  let* b := resl_to (Buffer p) (u8 (ipHeaderLen p + UDPDataPos)) in
  let p := with_buffer p b in
  let* x := FixupIPHdrOnDataModify h p (ipTotalLength p) (u16 (u8 (ipHeaderLen p + UDPDataPos))) in
  let '(p, h) := x in
  let* x := match version p with
            | V4 => UpdateIPv4Checksum h p
            | V6 => Ok (p, h)
            end in
  let '(p, h) := x in
  let* h := fixupUDPHdr h p in
  fixupUDPChecksum h p.

(* no code: bytes.Equal *)
Fixpoint bytes_eqb (a b : bytes) : bool :=
  match a, b with
  | [], [] => true
  | x :: a', y :: b' => (x =? y) && bytes_eqb a' b'
  | _, _ => false
  end.
(* helpers.go:362-376 *)
Definition GetUDPTypeFromBuffer (buffer : bytes) : res Z :=
  if zlen buffer <? UDPDataPos + UDPSignatureLen then Ok 0
  else
    let* marker := gsl buffer UDPDataPos udpSignatureEnd in
    let* sig := gsl buffer udpAuthMarkerOffset udpSignatureEnd in
    if negb (bytes_eqb sig UDPAuthMarker) then Ok 0
    else let* b := gidx marker 0 in Ok (Z.land b UDPPacketMask).
(* helpers.go:349-359 *)
Definition GetUDPType (h : heap) (p : packet) : res Z :=
  let* b := resl_from (Buffer p) (ipHeaderLen p) in GetUDPTypeFromBuffer (rd h b).
(* helpers.go:389-407 *)
Definition CreateUDPAuthMarker (packetType : Z) : res bytes :=
  let marker := gmake UDPSignatureLen in
  let* b := gidx marker 0 in
  let* marker := gput marker 0 [Z.lor b packetType] in
  let* marker := gput marker 1 [0] in
  gcopy marker 2 UDPAuthMarker.

(** ** Flag names (types.go:103-136) *)
Definition TCPFlagsToStr (flags : Z) : bytes :=
  let pick (mask : Z) (c : Z) := if Z.land flags mask =? 0 then [46] else [c] in
  ((((([] ++ pick 32 85) ++ pick 16 65) ++ pick 8 80) ++ pick 4 82) ++ pick 2 83) ++ pick 1 70.
