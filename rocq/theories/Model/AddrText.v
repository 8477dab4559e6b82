(** Address strings given to package conntrack: net.ParseIP (standard library, not
    part of /repo, modelled from the Go 1.13 sources: net/ip.go parseIPv4, ParseIP and
    net/parse.go dtoi; later releases also refuse leading zeros, which no canonical
    address has).  IPv6 texts go to an arbitrary function [parse6]. *)
From Verif Require Export Model.NetIP Model.Conntrack.

(* dtoi: number, digits read, ok *)
(* no code of /repo: net/parse.go dtoi *)
Fixpoint dtoi_from (s : bytes) (n : Z) (i : nat) : Z * nat * bool :=
  match s with
  | x :: r =>
      if (48 <=? x) && (x <=? 57) then
        let n' := n * 10 + (x - 48) in
        if 16777215 <=? n' then (16777215, i, false) else dtoi_from r n' (S i)
      else if (i =? 0)%nat then (0, 0%nat, false) else (n, i, true)
  | [] => if (i =? 0)%nat then (0, 0%nat, false) else (n, i, true)
  end.
(* no code of /repo: net/parse.go dtoi *)
Definition dtoi (s : bytes) : Z * nat * bool := dtoi_from s 0 0.
(* parseIPv4: [k] components to go, [first] for i = 0 *)
(* no code of /repo: net/ip.go parseIPv4 *)
Fixpoint parse4 (k : nat) (first : bool) (s : bytes) (p : bytes) : option bytes :=
  match k with
  | O => match s with [] => Some p | _ => None end
  | S k' =>
      match s with
      | [] => None
      | x :: r =>
          if negb first && negb (x =? 46) then None
          else
            let s := if first then s else r in
            let '(n, c, ok) := dtoi s in
            if negb ok || (255 <? n) then None else parse4 k' false (skipn c s) (p ++ [u8 n])
      end
  end.
(* no code of /repo: net/ip.go parseIPv4 *)
Definition parseIPv4 (s : bytes) : bytes :=
  match parse4 4 true s [] with
  | Some p => [0;0;0;0;0;0;0;0;0;0;255;255] ++ p
  | None => []
  end.
(* no code of /repo: net/ip.go ParseIP *)
Fixpoint parse_by (parse6 : bytes -> bytes) (whole s : bytes) : bytes :=
  match s with
  | [] => []
  | x :: r => if x =? 46 then parseIPv4 whole else if x =? 58 then parse6 whole else parse_by parse6 whole r
  end.
(* no code of /repo: net/ip.go ParseIP *)
Definition ParseIP (parse6 : bytes -> bytes) (s : bytes) : bytes := parse_by parse6 s s.

(* conntrack.go:119, 125, 165-166: the strings are parsed where the model takes addresses *)
Definition UpdateMark_text (parse6 : bytes -> bytes) (m : endian) (ipSrc ipDst : bytes) (protonum srcport dstport newmark : Z)
  : MC (option gerr) :=
  ConntrackTableUpdateMark m (ParseIP parse6 ipSrc) (ParseIP parse6 ipDst) protonum srcport dstport newmark.
(* conntrack.go:41-62, 119, 125 *)
Definition UpdateMarkForAvailableFlow_text (parse6 : bytes -> bytes) (m : endian) (flows : list flow)
  (ipSrc ipDst : bytes) (protonum srcport dstport newmark : Z) : MC (Z * option gerr) :=
  ConntrackTableUpdateMarkForAvailableFlow m flows (ParseIP parse6 ipSrc) (ParseIP parse6 ipDst) protonum srcport dstport newmark.
(* conntrack.go:80-111, 119, 125, 165-166 *)
Definition UpdateLabel_text (parse6 : bytes -> bytes) (m : endian) (flows : list flow)
  (ipSrc ipDst : bytes) (protonum srcport dstport newlabels : Z) : MC (Z * option gerr) :=
  ConntrackTableUpdateLabel m flows (ParseIP parse6 ipSrc) (ParseIP parse6 ipDst) protonum srcport dstport newlabels.
