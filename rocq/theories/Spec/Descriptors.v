(** Which descriptors a handle operates on. *)
From Verif Require Export Spec.HandleSpec Model.NfLog.

(** the descriptor an interaction operates on, if any *)
Definition descriptor (c : call) : option Z :=
  match c with
  | KBind fd _ | KSetsockoptInt fd _ _ _ | KSetLinger fd _ _ | KClose fd
  | KRecvfrom fd _ _ | KSendto fd _ _ | KSendmsg fd _ => Some fd
  | _ => None
  end.
(** [fd] is what socket(AF_NETLINK, SOCK_RAW, NETLINK_NETFILTER) returned in [tr] *)
Definition opened (tr : list event) (fd : Z) : Prop :=
  exists r, In (KSocket 16 3 12, r) tr /\ r_err r = None /\ r_val r = fd.
(** every interaction in [tr] is on a descriptor opened earlier in [tr] *)
Definition own_descriptors (tr : list event) : Prop :=
  forall before c r after fd,
    tr = before ++ (c, r) :: after -> descriptor c = Some fd -> opened before fd.

(** The exported methods of a log handle (nflog/interfaces.go:7-26), in any order. *)
Inductive log_method :=
| LOpen | LUnbind | LBind
| LBindGroup (groups : list Z) (cb ecb : bool) | LSetMode (groups : list Z) (packetSize : Z)
| LReadLogs (n fuel : nat) | LClose.
Definition log_use (m : endian) (c : log_method) : ML unit :=
  match c with
  | LOpen => let! _ := NFlogOpen in ret tt
  | LUnbind => let! _ := NFlogUnbind m in ret tt
  | LBind => let! _ := NFlogBind m in ret tt
  | LBindGroup gs cb ecb => let! _ := NFlogBindGroup m gs cb ecb in ret tt
  | LSetMode gs sz => let! _ := NFlogSetMode m gs sz in ret tt
  | LReadLogs n fuel => ReadLogs n fuel
  | LClose => NFlogClose
  end.
Fixpoint log_uses (m : endian) (cs : list log_method) (e : env) (w : world nflog) : world nflog :=
  match cs with
  | [] => w
  | c :: cs' => log_uses m cs' e (snd (log_use m c e w))
  end.
