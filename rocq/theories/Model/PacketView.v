(** Looking at a packet: the remaining read accessors, the log line of Print and
    the description of a packet's path (common/packet/packet.go, types.go). *)
From Verif Require Export Model.Packet.
From Coq Require Import String Ascii.

(** bytes of a string constant *)
(* no code: bytes of a string constant *)
Definition text (s : string) : bytes := map (fun a => Z.of_nat (nat_of_ascii a)) (list_ascii_of_string s).

(** ** Accessors *)
(* packet.go:304-306 *)
Definition ReadTCPDataString (h : heap) (p : packet) : res bytes :=
  let* s := ReadTCPData p in Ok (rd h s).
(* packet.go:191-193 *)
Definition GetUDPDataStartBytes (p : packet) : Z := UDPDataPos.
(* packet.go:223-225 *)
Definition GetIPLength (p : packet) : Z := ipTotalLength p.
(* packet.go:571-573 *)
Definition IPHeaderLen (p : packet) : Z := ipHeaderLen p.
(* packet.go:581-583 *)
Definition IPversion (p : packet) : ipver := version p.
(* packet.go:586-596.  The addresses are net.IP values of the caller. *)
Definition TestGetTCPPacket (srcIP dstIP : bytes) (srcPort dstPort : Z) : packet :=
  with_ip (with_tcp (zero_packet 0) snil snil srcPort dstPort 0 0 0 0 0 0)
    V4 0 IPProtocolTCP 0 0 0 srcIP dstIP.

(** ** Names of a packet's path (types.go:28-65) *)
Definition PacketTypeApplication := 8192.
(* types.go:5-26 *)
Definition PacketStageIncoming := 256.
(* types.go:5-26 *)
Definition PacketStageAuth := 512.
(* types.go:5-26 *)
Definition PacketStageService := 1024.
(* types.go:5-26 *)
Definition PacketStageOutgoing := 2048.
(* types.go:5-26 *)
Definition PacketFailureCreate := 16.
(* types.go:5-26 *)
Definition PacketFailureAuth := 32.
(* types.go:5-26 *)
Definition PacketFailureService := 64.
(* no code: x&mask != 0 *)
Definition bit_set (flags mask : Z) : bool := negb (Z.land flags mask =? 0).
(* types.go:28-36 *)
Definition flagsToDir (flags : Z) : bytes :=
  if bit_set flags PacketTypeApplication then text "<<<<<"
  else if bit_set flags PacketTypeNetwork then text ">>>>>"
  else text "xxxxx".
(* types.go:38-65 *)
Definition flagsToStr (flags : Z) : bytes :=
  (if bit_set flags PacketTypeApplication then text "Application"
   else if bit_set flags PacketTypeNetwork then text "Network" else []) ++
  (if bit_set flags PacketStageIncoming then text "-Incoming"
   else if bit_set flags PacketStageOutgoing then text "-Outgoing"
   else if bit_set flags PacketStageAuth then text "-Auth"
   else if bit_set flags PacketStageService then text "-Service" else []) ++
  (if bit_set flags PacketFailureCreate then text "-(Fail Create)"
   else if bit_set flags PacketFailureAuth then text "-(Fail Auth)"
   else if bit_set flags PacketFailureService then text "-(Fail Service)" else []).

(** ** Print (packet.go:228-290) *)
(** the values the log line is made of, in the order of the format string, and
    the bytes of the hex dump.  Not modelled: the padding of the columns, the
    column titles every 200 lines (the package variable printCount), the logger
    (the text is made, and the packet touched, at every log level). *)
Record report := mkReport {
  rp_id : Z; rp_dir : bytes; rp_comment : bytes;
  rp_src : bytes; rp_sport : Z; rp_dst : bytes; rp_dport : Z;
  rp_flags : bytes; rp_seq : Z; rp_ack : Z; rp_len : Z; rp_expack : Z; rp_expseq : Z;
  rp_offset : Z; rp_csum : Z; rp_computed : Z; rp_bad : bool;
  rp_dump : bytes }.
(* constants.go:102 *)
Definition TCPSynMask := 2.
(* packet.go:280: a made-up Ethernet header *)
Definition ether_header : bytes := [0; 0; 0; 0; 0; 1; 0; 0; 0; 0; 0; 2; 8; 0].
(* packet.go:228-290 *)
Definition Print (h : heap) (p : packet) (ctx : Z) (packetLogLevel : bool) : res (option report * heap) :=
  if negb (ipProto p =? IPProtocolTCP) then Ok (None, h)                  (* 230-232 *)
  else if packetLogLevel || (ctx =? 0) then                               (* 237-240 *)
    let offset := if Z.land (GetTCPFlags p) TCPSynMask =? TCPSynMask then 1 else 0 in
    let* bb := resl_from (Buffer p) (ipHeaderLen p) in
    let n := u16 (u16 (Z.of_nat (s_len bb)) - TCPDataStartBytes p) in
    let expAck := u32 (u32 (tcpSeq p + n) + offset) in                    (* 257 *)
    let* x := computeTCPChecksum h p in                                   (* 258 *)
    let '(ccsum, h) := x in
    let fl := Z.lor (context p) ctx in
    Ok (Some (mkReport (ipID p) (flagsToDir fl) (flagsToStr fl)           (* 265-275 *)
          (ip_string (sourceAddress p)) (tcpSourcePort p)
          (ip_string (destinationAddress p)) (tcpDestinationPort p)
          (TCPFlagsToStr (GetTCPFlags p)) (tcpSeq p) (tcpAck p) n expAck expAck
          (tcpDataOffset p) (tcpChecksum p) ccsum (negb (tcpChecksum p =? ccsum))
          (((ether_header ++ rd h (Buffer p)) ++ rd h (tcpOptions p)) ++ rd h (tcpData p))), h)
  else Ok (None, h).
