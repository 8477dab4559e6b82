(** Checksum helpers of common/packet/helpers.go:162-218. *)
From Verif Require Export Go.Base.

(* helpers.go:176-182: the loop; the fuel is checked to suffice in Proof *)
Fixpoint fold16 (fuel : nat) (sum : Z) : res Z :=
  if 65535 <? sum then
    match fuel with
    | O => NoFuel
    | S f => fold16 f (u32 (Z.shiftr sum 16 + Z.land sum 65535))
    end
  else Ok (u16 sum).
(* helpers.go:176-183 *)
Definition csumConvert32To16bit (sum : Z) : res Z := fold16 4 sum.

(* helpers.go:185-198 *)
Fixpoint checksumDelta (sum : Z) (buf : bytes) : Z :=
  match buf with
  | a :: b :: r => checksumDelta (u32 (sum + Z.lor (u32 (Z.shiftl a 8)) b)) r
  | [a] => u32 (sum + u32 (Z.shiftl a 8))
  | [] => sum
  end.

(* ^x for a uint16 *)
(* no code: the operator ^ on uint16 (helpers.go:165-166, 205, 215) *)
Definition not16 (x : Z) : Z := 65535 - x.

(* helpers.go:201-207 *)
Definition checksum (buf : bytes) : res Z :=
  let* s := csumConvert32To16bit (checksumDelta 0 buf) in Ok (not16 s).
(* helpers.go:209-211 *)
Definition partialChecksum (csum : Z) (buf : bytes) : Z := checksumDelta csum buf.
(* helpers.go:213-218 *)
Definition finalizeChecksum (csum32 : Z) : res Z :=
  let* s := csumConvert32To16bit csum32 in Ok (not16 s).

(* helpers.go:169-171 *)
Fixpoint inc_fold (fuel : nat) (csum : Z) : res Z :=
  if 0 <? Z.shiftr csum 16 then
    match fuel with
    | O => NoFuel
    | S f => inc_fold f (u32 (Z.land csum 65535 + Z.land (Z.shiftr csum 16) 65535))
    end
  else Ok csum.
(* helpers.go:163-174 *)
Definition incCsum16 (start old new : Z) : res Z :=
  let start := Z.lxor start 65535 in
  let old := Z.lxor old 65535 in
  let* c := inc_fold 4 (u32 (start + old + new)) in
  Ok (u16 (Z.lxor c 65535)).
