(** PacketToStringTCP (common/packet/helpers.go:80-100). *)
From Verif Require Export Model.PacketView.
From Coq Require Import String.
From Verif Require Import Go.Base.

(* helpers.go:80-100.  [describe] is ipv4.ParseHeader followed by Header.String
   (golang.org/x/net/ipv4, not part of /repo): None when the header is refused.
   fmt's "0x%0x" of a uint16 is lower-case hex without leading zeros; encoding/hex
   writes two lower-case digits per byte. *)
Definition PacketToStringTCP (describe : bytes -> option bytes) (h : heap) (p : packet) : bytes :=
  match describe (rd h (Buffer p)) with
  | None => text "(error)"
  | Some hd =>
      hd ++ text " srcport=" ++ itoa (SourcePort p) ++ text " dstport=" ++ itoa (DestPort p) ++
      text " tcpcksum=" ++ text "0x" ++ hexstr (tcpChecksum p) ++
      text " data" ++ hexbytes (GetTCPBytes h p)
  end.
