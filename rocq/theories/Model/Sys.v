(** The world outside the library: system calls (through the Syscalls
    interface, common/syscallwrappers/syscall_interfaces.go:8-23), context
    polling, user callbacks and goroutine starts.  Every interaction is a
    [call] answered by an arbitrary environment and recorded in a trace. *)
From Verif Require Export Model.Common.

(** The second argument of nfqueue's error callback, an interface{}: [IfaceNil] is the
    nil interface; [IfaceGen p] holds a *NfqGenMsg, where [p = None] is a nil pointer (the
    interface itself is then not nil).  nflog's error callback has no such argument and is
    recorded with [IfaceNil]. *)
(* nfqueue.go:56, 484; nflog.go:140 *)
Inductive errdata := IfaceNil | IfaceGen (p : option nfgenmsg).

(** One interaction. *)
(* syscall_interfaces.go:8-23; context and callbacks: nfqueue.go:466-510, nflog.go:205-320 *)
Inductive call :=
| KSocket (domain typ proto : Z)
| KBind (fd family : Z)
| KSetsockoptInt (fd level opt value : Z)
| KSetLinger (fd onoff linger : Z)              (* syscall.SetsockoptLinger *)
| KClose (fd : Z)
| KRecvfrom (fd maxlen flags : Z)
| KSendto (fd : Z) (data : bytes) (flags : Z)
| KSendmsg (fd : Z) (iov : list bytes)          (* SYS_SENDMSG: bytes of each iovec *)
| KCtxDone                                      (* select on ctx.Done() *)
| KPacketCb (id mark : Z) (buf : slice) (contents : bytes) (priv : Z)
                                                (* nfqueue packet callback *)
| KLogCb (prefix payload src dst : bytes) (version proto len : Z) (id : bytes)
         (sport dport : Z)                      (* nflog packet callback *)
| KErrCb (e : gerr) (data : errdata)            (* error callback *)
| KPrint                                        (* fmt.Println *)
| KGo.                                          (* the reader goroutine is started *)

(** The answer: an errno if the call failed, a number (file descriptor), data
    (received datagram), a flag (context done). *)
(* syscall_interfaces.go:8-23; context and callbacks: nfqueue.go:466-510, nflog.go:205-320 *)
Record resp := mkResp { r_err : option Z; r_val : Z; r_data : bytes; r_flag : bool }.

(* no code: runs and their traces *)
Definition event : Type := call * resp.
(* no code: runs and their traces *)
Definition env : Type := list event -> call -> resp.

(** The state of a run: the handle's fields, the Go heap, and the trace so far
    (oldest first). *)
(* no code: runs and their traces *)
Record world (S : Type) := mkW { w_st : S; w_heap : heap; w_tr : list event }.
Arguments mkW {S}.
Arguments w_st {S}.
Arguments w_heap {S}.
Arguments w_tr {S}.

(** Computations: they always return the world reached, also when they panic. *)
(* no code: runs and their traces *)
Definition M (S A : Type) : Type := env -> world S -> res A * world S.

(* no code: runs and their traces *)
Definition ret {S A} (a : A) : M S A := fun _ w => (Ok a, w).
(* no code: runs and their traces *)
Definition mbind {S A B} (x : M S A) (f : A -> M S B) : M S B :=
  fun e w => match x e w with
             | (Ok a, w') => f a e w'
             | (Panic, w') => (Panic, w')
             | (NoFuel, w') => (NoFuel, w')
             end.
Notation "'let!' x ':=' a 'in' b" := (mbind a (fun x => b))
  (at level 200, x pattern, a at level 100, b at level 200).
(* no code: runs and their traces *)
Definition mpanic {S A} : M S A := fun _ w => (Panic, w).
(* no code: runs and their traces *)
Definition mnofuel {S A} : M S A := fun _ w => (NoFuel, w).
(** lift a pure outcome *)
(* no code: runs and their traces *)
Definition lift {S A} (x : res A) : M S A := fun _ w => (x, w).
(* no code: runs and their traces *)
Definition get_st {S} : M S S := fun _ w => (Ok (w_st w), w).
(* no code: runs and their traces *)
Definition put_st {S} (s : S) : M S unit := fun _ w => (Ok tt, mkW s (w_heap w) (w_tr w)).
(* no code: runs and their traces *)
Definition get_heap {S} : M S heap := fun _ w => (Ok (w_heap w), w).
(* no code: runs and their traces *)
Definition put_heap {S} (h : heap) : M S unit := fun _ w => (Ok tt, mkW (w_st w) h (w_tr w)).
(* no code: runs and their traces *)
Definition get_tr {S} : M S (list event) := fun _ w => (Ok (w_tr w), w).

(** perform one interaction *)
(* no code: runs and their traces *)
Definition do_call {S} (c : call) : M S resp :=
  fun e w => let r := e (w_tr w) c in (Ok r, mkW (w_st w) (w_heap w) (w_tr w ++ [(c, r)])).

(** Recvfrom(fd, buf, flags): the datagram, cut to len(buf), is stored at the
    start of buf and its length returned; on failure buf is untouched. *)
(* no code: recvfrom(2) as called at syscalls.go:42-48 *)
Definition sys_recvfrom {S} (fd : Z) (buf : slice) (flags : Z) : M S (option Z * Z) :=
  let! r := do_call (KRecvfrom fd (Z.of_nat (s_len buf)) flags) in
  match r_err r with
  | Some en => ret (Some en, -1)
  | None =>
      let d := firstn (s_len buf) (r_data r) in
      let! h := get_heap in
      let! _ := put_heap (scopy h buf d) in
      ret (None, zlen d)
  end.

(** allocate an array in the heap *)
(* no code: make and stores *)
Definition m_alloc {S} (v : bytes) (spare : nat) : M S slice :=
  let! h := get_heap in
  let '(h', s) := alloc h v spare in
  let! _ := put_heap h' in
  ret s.

(** stores into a slice of the heap *)
(* no code: make and stores *)
Fixpoint m_stores {S} (s : slice) (ws : stores) : M S unit :=
  match ws with
  | [] => ret tt
  | (o, v) :: ws' =>
      let! h := get_heap in
      let! h' := lift (wr h s o v) in
      let! _ := put_heap h' in
      m_stores s ws'
  end.

(** ** Constants of package syscall (linux/amd64) *)
(* package syscall *)
Definition SOCK_RAW : Z := 3.
(* package syscall *)
Definition NETLINK_NETFILTER : Z := 12.
Definition SOL_NETLINK : Z := 270.      (* common/constants.go:29 *)
(* package syscall *)
Definition NETLINK_NO_ENOBUFS : Z := 5.
(* package syscall *)
Definition SOL_SOCKET : Z := 1.
(* package syscall *)
Definition SO_LINGER : Z := 13.
(* package syscall *)
Definition SO_SNDBUFFORCE : Z := 32.
(* package syscall *)
Definition SO_RCVBUFFORCE : Z := 33.
(* package syscall *)
Definition MSG_WAITALL : Z := 256.
(* package syscall *)
Definition ENOBUFS : Z := 105.
