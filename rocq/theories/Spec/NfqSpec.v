(** NFQUEUE requests as the kernel documents them
    (linux/netfilter/nfnetlink_queue.h), and the vocabulary of the nfqueue
    properties. *)
From Verif Require Import Model.NfQueue Spec.Netlink Spec.Requests.

(** ** Configuration calls *)
Inductive cfg_call :=
| CfgUnbindPf | CfgBindPf
| CfgCreate (num : Z) (cb : option callback) (ecb : bool) (priv : Z)
| CfgMode (mode packetSize : Z)
| CfgMaxLen (queuelen : Z)
| CfgDestroy.

(** the API function *)
Definition cfg_run (m : endian) (c : cfg_call) : MQ (option gerr) :=
  match c with
  | CfgUnbindPf => UnbindPf m
  | CfgBindPf => BindPf m
  | CfgCreate n cb ecb priv => CreateQueue m n cb ecb priv
  | CfgMode mode sz => NfqSetMode m mode sz
  | CfgMaxLen n => NfqSetQueueMaxLen m n
  | CfgDestroy => NfqDestroyQueue m
  end.

(** arguments have values of their Go types *)
Definition cfg_args_ok (c : cfg_call) : Prop :=
  match c with
  | CfgCreate n _ _ _ => is_u16 n
  | CfgMode mode sz => is_u8 mode /\ is_u32 sz
  | CfgMaxLen n => is_u32 n
  | _ => True
  end.

(** the big-endian bytes of a 32-bit number *)
Definition be32 (v : Z) : bytes :=
  [v / 16777216; v / 65536 mod 256; v / 256 mod 256; v mod 256].

(** The request each call must put on the wire, for queue number [num].
    NFQA_CFG_CMD (1): {u8 command; u8 pad; be16 pf}, commands BIND 1, UNBIND 2,
    PF_BIND 3, PF_UNBIND 4; NFQA_CFG_PARAMS (2): {be32 range; u8 mode} padded to
    8 bytes as the C structure is on this library's wire; NFQA_CFG_QUEUE_MAXLEN
    (3): be32.  The pad byte of the command structure is ignored by the kernel. *)
Definition cfg_attr (c : cfg_call) : Z * bytes :=
  match c with
  | CfgUnbindPf => (1, [4; 116; 0; 2])
  | CfgBindPf => (1, [3; 0; 0; 2])
  | CfgCreate _ _ _ _ => (1, [1; 0; 0; 0])
  | CfgMode mode sz => (2, be32 sz ++ [mode; 0; 0; 0])
  | CfgMaxLen n => (3, be32 n)
  | CfgDestroy => (1, [2; 0; 0; 0])
  end.
Definition cfg_resid (c : cfg_call) (num : Z) : Z :=
  match c with CfgUnbindPf | CfgBindPf => 0 | CfgCreate n _ _ _ => n | _ => num end.
Definition cfg_message (c : cfg_call) (num : Z) : message :=
  mkMsg (msg_type SUBSYS_QUEUE 2) (NLM_F_REQUEST + NLM_F_ACK) 0 0 0 0 (cfg_resid c num) [cfg_attr c].

(** ** Handles *)
(** an open handle: socket [fd], receive buffer inside the heap *)
Definition open_handle (w : world nfq) (fd : Z) : Prop :=
  exists buf, q_handle (w_st w) = Some (mkSock fd buf) /\
    q_buf (w_st w) = buf /\ valid (w_heap w) buf /\ Z.of_nat (s_len buf) = 76800 /\
    s_cap buf = s_len buf.

(** The system calls of a successful NfqOpen giving descriptor fd.  In Linux's numbers:
    socket(AF_NETLINK = 16, SOCK_RAW = 3, NETLINK_NETFILTER = 12), level SOL_NETLINK = 270
    with NETLINK_NO_ENOBUFS = 5, level SOL_SOCKET = 1 with SO_RCVBUFFORCE = 33 and
    SO_SNDBUFFORCE = 32, linger on with no time. *)
Definition opens (fd : Z) (evs : list event) : Prop :=
  exists rs rb r1 r2 r3 r4,
    r_err rs = None /\ r_val rs = fd /\ r_err rb = None /\
    evs = [ (KSocket 16 3 12, rs); (KBind fd 16, rb);
            (KSetsockoptInt fd 270 5 1, r1);
            (KSetsockoptInt fd 1 33 38400000, r2);
            (KSetsockoptInt fd 1 32 38400000, r3);
            (KSetLinger fd 1 0, r4) ].
(** the system calls of a failed open *)
Definition open_fails (evs : list event) : Prop :=
  (exists rs en, r_err rs = Some en /\
     evs = [ (KSocket 16 3 12, rs) ]) \/
  (exists rs rb en, r_err rs = None /\ r_err rb = Some en /\
     evs = [ (KSocket 16 3 12, rs);
             (KBind (r_val rs) 16, rb) ]).

(** the requests CreateAndStartNfQueue makes, in order *)
Definition setup_messages (queueID maxPackets packetSize : Z) : list message :=
  [ cfg_message CfgUnbindPf 0; cfg_message CfgBindPf 0;
    cfg_message (CfgCreate queueID None false 0) 0;
    cfg_message (CfgMode 2 packetSize) queueID;
    cfg_message (CfgMaxLen maxPackets) queueID ].

(** The system calls [new] and the result [err] of CreateAndStartNfQueue. *)
Inductive start_outcome (m : endian) (queueID maxPackets packetSize : Z)
  : list event -> option gerr -> Prop :=
| start_no_socket new er :
    open_fails new -> start_outcome m queueID maxPackets packetSize new (Some er)
| start_ok fd evs reqs r :
    opens fd evs ->
    ran_requests m fd (fun _ => 76800) (setup_messages queueID maxPackets packetSize) reqs 5 None ->
    start_outcome m queueID maxPackets packetSize (evs ++ reqs ++ [(KGo, r)]) None
| start_failed_before_create fd evs reqs acked why er r :
    opens fd evs ->
    ran_requests m fd (fun _ => 76800) (setup_messages queueID maxPackets packetSize) reqs acked
                 (Some why) ->
    (acked < 3)%nat ->
    start_outcome m queueID maxPackets packetSize (evs ++ reqs ++ [(KClose fd, r)]) (Some er)
| start_failed_after_create fd evs reqs acked why er r b destroy res :
    opens fd evs ->
    ran_requests m fd (fun _ => 76800) (setup_messages queueID maxPackets packetSize) reqs acked
                 (Some why) ->
    (3 <= acked)%nat ->
    read_message m b = Some (cfg_message CfgDestroy queueID) ->
    one_request m fd 76800 b destroy res ->
    start_outcome m queueID maxPackets packetSize
      (evs ++ reqs ++ destroy ++ [(KClose fd, r)]) (Some er).
