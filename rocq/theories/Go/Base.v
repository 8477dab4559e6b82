(** Go run-time basics shared by every model file: outcomes, fixed-width
    integers, byte lists, byte orders.  Nothing here models code of /repo;
    it fixes the meaning of the Go constructs the models use. *)
From Coq Require Export List ZArith Lia Bool.
Export ListNotations.
Global Open Scope Z_scope.

(** ** Outcomes.  [Panic] is a Go run-time panic (index or slice bounds out of
    range, nil dereference).  [NoFuel] is the outcome of a loop model whose
    fuel ran out; it is never produced by straight-line code.  Go [error]
    results are ordinary values inside [Ok]. *)
Inductive res (A : Type) : Type :=
| Ok (a : A)
| Panic
| NoFuel.
Arguments Ok {A} a.
Arguments Panic {A}.
Arguments NoFuel {A}.

Definition rbind {A B} (x : res A) (f : A -> res B) : res B :=
  match x with Ok a => f a | Panic => Panic | NoFuel => NoFuel end.

Notation "'let*' x ':=' a 'in' b" := (rbind a (fun x => b))
  (at level 200, x pattern, a at level 100, b at level 200).

(** ** Fixed-width unsigned integers: a Go conversion or arithmetic result of
    type uintN is the mathematical value modulo 2^N. *)
Definition u8 (x : Z) : Z := x mod 256.
Definition u16 (x : Z) : Z := x mod 65536.
Definition u32 (x : Z) : Z := x mod 4294967296.
Definition u64 (x : Z) : Z := x mod 18446744073709551616.
(** conversion int32(x) of a uint32 value *)
Definition i32 (x : Z) : Z := if x <? 2147483648 then x else x - 4294967296.

Definition is_byte (b : Z) : Prop := 0 <= b < 256.
Definition is_u8 (x : Z) : Prop := 0 <= x < 256.
Definition is_u16 (x : Z) : Prop := 0 <= x < 65536.
Definition is_u32 (x : Z) : Prop := 0 <= x < 4294967296.

(** Byte strings. *)
Definition bytes : Type := list Z.
Definition is_bytes (l : bytes) : Prop := Forall is_byte l.
Definition zlen {A} (l : list A) : Z := Z.of_nat (length l).

(** ** Slices used as values (no aliasing).  [sub l lo hi] is l[lo:hi];
    [splice l o v] is l with v written over it at offset o. *)
Definition sub (l : bytes) (lo hi : nat) : bytes := firstn (hi - lo) (skipn lo l).
Definition splice (l : bytes) (o : nat) (v : bytes) : bytes :=
  firstn o l ++ v ++ skipn (o + length v) l.

(** l[i], panicking when out of range *)
Definition gidx (l : bytes) (i : Z) : res Z :=
  if (0 <=? i) && (i <? zlen l) then Ok (nth (Z.to_nat i) l 0) else Panic.
(** l[lo:hi], for a slice whose capacity equals its length *)
Definition gsl (l : bytes) (lo hi : Z) : res bytes :=
  if (0 <=? lo) && (lo <=? hi) && (hi <=? zlen l)
  then Ok (sub l (Z.to_nat lo) (Z.to_nat hi)) else Panic.
(** l[lo:] *)
Definition gfrom (l : bytes) (lo : Z) : res bytes := gsl l lo (zlen l).
(** write v over l[lo:lo+len(v)] *)
Definition gput (l : bytes) (lo : Z) (v : bytes) : res bytes :=
  if (0 <=? lo) && (lo + zlen v <=? zlen l)
  then Ok (splice l (Z.to_nat lo) v) else Panic.
(** copy(l[lo:], v) *)
Definition gcopy (l : bytes) (lo : Z) (v : bytes) : res bytes :=
  if (0 <=? lo) && (lo <=? zlen l)
  then Ok (splice l (Z.to_nat lo) (firstn (length l - Z.to_nat lo) v)) else Panic.
(** make([]byte, n) *)
Definition gmake (n : Z) : bytes := repeat 0 (Z.to_nat n).

(** ** Byte orders (encoding/binary). *)
Inductive endian := LE | BE.

(** the two/four bytes written by PutUint16/PutUint32 *)
Definition put16 (e : endian) (v : Z) : bytes :=
  match e with
  | BE => [v / 256 mod 256; v mod 256]
  | LE => [v mod 256; v / 256 mod 256]
  end.
Definition put32 (e : endian) (v : Z) : bytes :=
  match e with
  | BE => [v / 16777216 mod 256; v / 65536 mod 256; v / 256 mod 256; v mod 256]
  | LE => [v mod 256; v / 256 mod 256; v / 65536 mod 256; v / 16777216 mod 256]
  end.
(** Uint16(b)/Uint32(b): they panic when b is too short *)
Definition get16 (e : endian) (b : bytes) : res Z :=
  match b with
  | x :: y :: _ => Ok (match e with BE => x * 256 + y | LE => x + y * 256 end)
  | _ => Panic
  end.
Definition get32 (e : endian) (b : bytes) : res Z :=
  match b with
  | x :: y :: z :: w :: _ =>
      Ok (match e with
          | BE => x * 16777216 + y * 65536 + z * 256 + w
          | LE => x + y * 256 + z * 65536 + w * 16777216
          end)
  | _ => Panic
  end.

(** Go [error] values: only their presence and origin matter to callers of
    this library, so an error is a tag. *)
Inductive gerr :=
| EBufferEmpty        (* common: "Buffer is empty" *)
| EBadAttr            (* common: "Bad Attr" *)
| ESys (errno : Z)    (* an error returned by a system call *)
| ESend (errno : Z)
| ERecv (errno : Z)   (* "Recvfrom returned error" / "Unable to read from socket" *)
| ENetlink (code : Z) (* "Netlink Returned errror %d" *)
| ENotOpen            (* "... No Socket open" *)
| EFormat             (* "Netlink message format invalid" *)
| EWrapped (stage : Z) (e : gerr)  (* fmt.Errorf("...: %v", err) *)
| ETruncated          (* nflog "Message was truncated" *)
| EShort              (* io.EOF / io.ErrUnexpectedEOF from binary.Read *)
| EPacket (k : Z)     (* common/packet errors, numbered in Model/Packet.v *)
| ENotPresent.        (* conntrack "Entry not present" *)
