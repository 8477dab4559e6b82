(** Model of common/syscallwrappers/syscalls.go: each wrapper in terms of the
    raw system call.  The kernel is an oracle that sees the arguments and how
    many raw calls this wrapper made before.  A wrapper's result is what it
    returns and the list of raw calls it made, with their arguments in order. *)
From Verif Require Export Go.Base.

(** raw call: number of earlier calls, arguments -> None (success) or errno *)
(* no code: the kernel *)
Definition raw (A : Type) : Type := nat -> A -> option Z.

(** [if f(args) != nil { return f(args) }; return nil] *)
(* syscalls.go:13-55, the pattern of each wrapper *)
Definition retry_twice {A} (r : raw A) (a : A) : option Z * list A :=
  match r 0%nat a with
  | Some _ => (r 1%nat a, [a; a])
  | None => (None, [a])
  end.

(** argument tuples: addresses and buffers as byte strings *)
Definition Bind (r : raw (Z * bytes)) (fd : Z) (sa : bytes) := retry_twice r (fd, sa).     (* syscalls.go:13-18 *)
(* syscalls.go:28-33 *)
Definition SetsockoptInt (r : raw (Z * Z * Z * Z)) (fd level opt value : Z) :=
  retry_twice r (fd, level, opt, value).                                                   (* syscalls.go:28-33 *)
Definition Close (r : raw Z) (fd : Z) := retry_twice r fd.                                 (* syscalls.go:35-40 *)
(* syscalls.go:50-55 *)
Definition Sendto (r : raw (Z * bytes * Z * bytes)) (fd : Z) (pa : bytes) (flags : Z) (to : bytes) :=
  retry_twice r (fd, pa, flags, to).                                                       (* syscalls.go:50-55 *)

(** calls that also return a value *)
(* no code: the kernel *)
Definition raw1 (A : Type) : Type := nat -> A -> Z * option Z.
(* syscalls.go:20-26 *)
Definition Socket (r : raw1 (Z * Z * Z)) (domain typ proto : Z) : Z * option Z * list (Z * Z * Z) :=
  match r 0%nat (domain, typ, proto) with
  | (_, Some e) => (-1, Some e, [(domain, typ, proto)])
  | (fd, None) => (fd, None, [(domain, typ, proto)])
  end.
(* syscalls.go:42-48; the buffer filled and the sender address are not modelled here *)
Definition Recvfrom (r : raw1 (Z * Z)) (fd flags : Z) : Z * option Z * list (Z * Z) :=
  match r 0%nat (fd, flags) with
  | (_, Some e) => (-1, Some e, [(fd, flags)])
  | (n, None) => (n, None, [(fd, flags)])
  end.
(* syscalls.go:57-63; one of the two result registers, the other is treated alike *)
Definition Syscall (r : raw1 (Z * Z * Z * Z)) (trap a1 a2 a3 : Z) : Z * option Z * list (Z * Z * Z * Z) :=
  match r 0%nat (trap, a1, a2, a3) with
  | (_, Some e) => (0, Some e, [(trap, a1, a2, a3)])
  | (x, None) => (x, None, [(trap, a1, a2, a3)])
  end.
