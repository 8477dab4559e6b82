(** NFLOG configuration requests as the kernel documents them
    (linux/netfilter/nfnetlink_log.h), and opening/closing in the nflog package. *)
From Verif Require Import Model.NfLog Spec.Netlink Spec.Requests Spec.NfqSpec.

Inductive log_call :=
| LogUnbind | LogBind
| LogBindGroup (groups : list Z) (cb ecb : bool)
| LogSetMode (groups : list Z) (packetSize : Z).
Definition log_run (m : endian) (c : log_call) : ML (option gerr) :=
  match c with
  | LogUnbind => NFlogUnbind m
  | LogBind => NFlogBind m
  | LogBindGroup gs cb ecb => NFlogBindGroup m gs cb ecb
  | LogSetMode gs sz => NFlogSetMode m gs sz
  end.
Definition log_args_ok (c : log_call) : Prop :=
  match c with
  | LogBindGroup gs _ _ => Forall is_u16 gs
  | LogSetMode gs sz => Forall is_u16 gs /\ is_u32 sz
  | _ => True
  end.

(** One NFLOG configuration message (subsystem ULOG, NFULNL_MSG_CONFIG = 1).
    NFULA_CFG_CMD (1) holds {u8 command} (here with the three pad bytes inside
    the attribute): BIND 1, PF_BIND 3, PF_UNBIND 4; NFULA_CFG_MODE (2) holds
    {be32 range; u8 mode; u8 pad} (padded to 8), mode NFULNL_COPY_PACKET = 2. *)
Definition log_message (family group : Z) (attr : Z * bytes) : message :=
  mkMsg (msg_type SUBSYS_ULOG 1) (NLM_F_REQUEST + NLM_F_ACK) 0 0 family 0 group [attr].
Definition log_messages (c : log_call) : list message :=
  match c with
  | LogUnbind => [ log_message 2 0 (1, [4; 0; 0; 0]) ]
  | LogBind => [ log_message 2 0 (1, [3; 0; 0; 0]) ]
  | LogBindGroup gs _ _ => map (fun g => log_message 2 g (1, [1; 0; 0; 0])) gs
  | LogSetMode gs sz => map (fun g => log_message 0 g (2, be32 sz ++ [2; 0; 0; 0])) gs
  end.

Definition open_log (w : world nflog) (fd : Z) : Prop :=
  exists buf, l_sock (w_st w) = Some (mkLS fd buf).

(** The system calls of a successful NFlogOpen giving descriptor fd, in Linux's numbers:
    socket(AF_NETLINK = 16, SOCK_RAW = 3, NETLINK_NETFILTER = 12), level SOL_NETLINK = 270
    with NETLINK_NO_ENOBUFS = 5. *)
Definition log_opens (fd : Z) (evs : list event) : Prop :=
  exists rs rb r1,
    r_err rs = None /\ r_val rs = fd /\ r_err rb = None /\
    evs = [ (KSocket 16 3 12, rs); (KBind fd 16, rb);
            (KSetsockoptInt fd 270 5 1, r1) ].

(** The system calls [new] and the result of BindAndListenForLogs: the group
    binds, then the mode settings, each in the order of [groups]; the reader is
    started (KGo) iff all were acknowledged; otherwise the socket is closed. *)
Inductive listen_outcome (m : endian) (groups : list Z) (packetSize : Z)
  : list event -> option gerr -> Prop :=
| listen_no_socket new er : open_fails new -> listen_outcome m groups packetSize new (Some er)
| listen_ok fd evs reqs r :
    log_opens fd evs ->
    ran_requests m fd zlen
      (log_messages (LogBindGroup groups true true) ++ log_messages (LogSetMode groups packetSize))
      reqs (2 * length groups) None ->
    listen_outcome m groups packetSize (evs ++ reqs ++ [(KGo, r)]) None
| listen_failed fd evs reqs acked why er r :
    log_opens fd evs ->
    ran_requests m fd zlen
      (log_messages (LogBindGroup groups true true) ++ log_messages (LogSetMode groups packetSize))
      reqs acked (Some why) ->
    listen_outcome m groups packetSize (evs ++ reqs ++ [(KClose fd, r)]) (Some er).
