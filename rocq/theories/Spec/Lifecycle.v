(** The life of a descriptor (C61, C62). *)
From Verif Require Import Model.NfQueue Spec.Netlink Spec.Requests Spec.NfqSpec.

(** the descriptor a system call works on *)
Definition works_on (c : call) : option Z :=
  match c with
  | KBind fd _ | KSetsockoptInt fd _ _ _ | KSetLinger fd _ _ | KClose fd
  | KRecvfrom fd _ _ | KSendto fd _ _ | KSendmsg fd _ => Some fd
  | KSocket _ _ _ | KCtxDone | KPacketCb _ _ _ _ _ | KLogCb _ _ _ _ _ _ _ _ _ _ | KErrCb _ _ | KPrint | KGo => None
  end.
Definition closes (fd : Z) (evs : list event) : nat :=
  length (filter (fun ev => match fst ev with KClose x => x =? fd | _ => false end) evs).
(** once closed, the number is never used again: it may by then belong to
    somebody else's file *)
Definition never_used_after_close (fd : Z) (evs : list event) : Prop :=
  forall before r after, evs = before ++ (KClose fd, r) :: after ->
    Forall (fun ev => works_on (fst ev) <> Some fd) after.
(** a callback that leaves the queue running *)
Definition never_stops (cb : callback) : Prop := forall tr h pkt pd, ~ In CbStop (cb tr h pkt pd).
(** something the running loop does: it only works on its own socket, opens
    nothing and closes nothing *)
Definition on_socket (fd : Z) (ev : event) : Prop :=
  match fst ev with
  | KSocket _ _ _ | KClose _ => False
  | c => works_on c = None \/ works_on c = Some fd
  end.
