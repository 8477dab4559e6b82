(** Receiving packets: what the kernel sends, what the callback must see. *)
From Verif Require Import Model.NfQueue Spec.Netlink Spec.Requests Spec.NfqSpec Spec.VerdictSpec.

(** A well-formed NFQUEUE packet datagram with attributes [l]: netlink header of
    type NFQNL_MSG_PACKET, nfgenmsg, attributes up to the end. *)
Definition packet_datagram (m : endian) (d : bytes) (l : list (Z * bytes)) : Prop :=
  is_bytes d /\ (20 <= length d)%nat /\ zlen d <= 76800 /\
  num m (field d 4 2) = msg_type SUBSYS_QUEUE 0 /\
  attrs_of m (skipn 20 d) = Some l.
(** its packet header attribute (NFQA_PACKET_HDR, 1) starts with the id; the id
    is read in the machine's order; NFQA_MARK (3) is a be32; NFQA_PAYLOAD (10)
    the packet *)
Definition has_id (m : endian) (l : list (Z * bytes)) (id : Z) : Prop :=
  exists hv, last_attr 1 l = Some hv /\ (4 <= length hv)%nat /\ id = num m (field hv 0 4).
Definition has_mark (l : list (Z * bytes)) (mark : Z) : Prop :=
  exists mv, last_attr 3 l = Some mv /\ (4 <= length mv)%nat /\ mark = num BE (field mv 0 4).
Definition has_payload (l : list (Z * bytes)) (payload : bytes) : Prop :=
  last_attr 10 l = Some payload.

(** A handle that can receive and answer: socket open, the receive buffer of
    76800 bytes and the 40-byte header buffer in separate memory, a slot in the
    attribute table for each of the three attributes the library reads. *)
Record queue_ready (w : world nfq) (fd : Z) : Prop := mkReady {
  qr_handle : q_handle (w_st w) = Some (mkSock fd (q_buf (w_st w)));
  qr_buf : valid (w_heap w) (q_buf (w_st w));
  qr_len : Z.of_nat (s_len (q_buf (w_st w))) = 76800;
  qr_cap : s_cap (q_buf (w_st w)) = s_len (q_buf (w_st w));
  qr_hdr : valid (w_heap w) (q_hdr (w_st w));
  qr_hdrlen : s_len (q_hdr (w_st w)) = 40%nat;
  qr_sep : s_arr (q_hdr (w_st w)) <> s_arr (q_buf (w_st w));
  qr_num : is_u16 (q_num (w_st w));
  qr_slots : forall t, t = 1 \/ t = 3 \/ t = 10 ->
    exists s, amap_get (q_attr (w_st w)) t = Some s /\ valid (w_heap w) s /\
              s_arr s <> s_arr (q_hdr (w_st w)) }.

(** the environment returns byte strings *)
Definition bytes_env (e : env) : Prop :=
  forall tr fd n fl, is_bytes (r_data (e tr (KRecvfrom fd n fl))).
(** what a receive into the 76800-byte buffer yields *)
Definition received (r : resp) : bytes := firstn (Z.to_nat 76800) (r_data r).

(** ** Callbacks *)
(** One action of a callback that uses the API as documented: verdicts for
    non-empty packets with packetLen = len(packet), stores inside slices; no
    access to the memory in [priv] (arrays the library never hands out).
    Stopping the queue is fine when the kernel's replies are whole messages. *)
Definition act_ok (e : env) (h : heap) (priv : list nat) (a : cbact) : Prop :=
  match a with
  | CbVerdict _ pl _ p =>
      valid h p /\ pl = Z.of_nat (s_len p) /\ (1 <= s_len p <= Z.to_nat 65531)%nat /\ ~ In (s_arr p) priv
  | CbVerdict2 _ _ pl _ p =>
      valid h p /\ pl = Z.of_nat (s_len p) /\ (1 <= s_len p)%nat /\ ~ In (s_arr p) priv
  | CbStore s o v =>
      valid h s /\ 0 <= o /\ o + zlen v <= Z.of_nat (s_len s) /\ (0 < s_len s)%nat /\ ~ In (s_arr s) priv
  | CbAlloc _ _ => True
  | CbStop => replies_within 20 76800 e
  end.
(** a callback first allocates what it needs, then acts *)
Fixpoint acts_ok (e : env) (h : heap) (priv : list nat) (l : list cbact) : Prop :=
  match l with
  | CbAlloc v sp :: l' => acts_ok e (fst (alloc h v sp)) priv l'
  | _ => Forall (act_ok e h priv) l
  end.
Definition callback_ok (e : env) (priv : list nat) (cb : callback) : Prop :=
  forall tr h pkt pd,
    valid h (p_buf pkt) -> ~ In (s_arr (p_buf pkt)) priv -> Forall (fun a => (a < length h)%nat) priv ->
    acts_ok e h priv (cb tr h pkt pd).
(** [priv] is private memory of the handle: it contains the header buffer, not
    the receive buffer and not what the payload slot shows *)
Definition private_ok (w : world nfq) (priv : list nat) : Prop :=
  In (s_arr (q_hdr (w_st w))) priv /\ ~ In (s_arr (q_buf (w_st w))) priv /\
  Forall (fun a => (a < length (w_heap w))%nat) priv /\
  (forall s, amap_get (q_attr (w_st w)) 10 = Some s -> ~ In (s_arr s) priv).

(** A handle on which the packet loop can run: ready, with private memory [priv],
    an error callback, packet callback [cb] and private data [pd]. *)
Record loop_inv (fd : Z) (priv : list nat) (cb : callback) (pd : Z) (w : world nfq) : Prop := mkLI {
  li_ready : queue_ready w fd;
  li_priv : private_ok w priv;
  li_ecb : q_ecb (w_st w) = true;
  li_cb : q_cb (w_st w) = Some cb;
  li_pd : q_priv (w_st w) = pd;
  li_proc : 0 <= q_proc (w_st w) < 18446744073709551616 }.

(** ** The trace of the packet loop *)
(** what a callback may cause: verdicts, or the destroy request of StopQueue *)
Definition cb_event (ev : event) : Prop :=
  match fst ev with
  | KSendmsg _ _ | KPrint | KSendto _ _ _ | KClose _ => True
  | KRecvfrom _ _ fl => fl = 0
  | _ => False
  end.
(** the attributes cannot be followed: one runs past the end *)
Definition truncated_attr (m : endian) (b : bytes) : Prop :=
  exists p, attr_start m b p /\ (p + 4 <= length b)%nat /\ (length b < p + attr_len m b p)%nat.
(** the generic header behind a datagram's netlink header: family, version, resource id *)
Definition generic_header (d : bytes) : nfgenmsg :=
  mkGen (num BE (field d 16 1)) (num BE (field d 17 1)) (num BE (field d 18 2)).
(** the error reported for a failed receive [r], and the data reported with it *)
Definition receive_error (m : endian) (r : resp) (er : gerr) (dt : errdata) : Prop :=
  let d := received r in
  (exists en, r_err r = Some en /\ er = ERecv en /\ dt = IfaceGen None) \/
  (r_err r = None /\ reply_code m d <> 0 /\ er = ENetlink (reply_code m d) /\ dt = IfaceGen None) \/
  (r_err r = None /\ reply_code m d = 0 /\ truncated_attr m (skipn 20 d) /\ er = EBadAttr /\
   dt = IfaceGen (Some (generic_header d))).
(** what the callback is shown for a received datagram [d] *)
Definition shows (m : endian) (d : bytes) (id mark : Z) (contents : bytes) : Prop :=
  forall l, attrs_of m (skipn 20 d) = Some l ->
    (forall i, has_id m l i -> id = i) /\ (forall k, has_mark l k -> mark = k) /\
    (forall p, has_payload l p -> contents = p).
(** One turn of the loop: the context is not done, one receive, and then either
    one error callback or one packet callback. *)
Inductive turn (m : endian) (fd pd : Z) : list event -> Prop :=
| turn_error r0 r er dt r2 :
    r_flag r0 = false -> receive_error m r er dt ->
    turn m fd pd [(KCtxDone, r0); (KRecvfrom fd 76800 256, r); (KErrCb er dt, r2)]
| turn_packet r0 r id mark buf contents r2 evs :
    r_flag r0 = false -> r_err r = None -> (20 <= length (received r))%nat ->
    reply_code m (received r) = 0 -> ~ truncated_attr m (skipn 20 (received r)) ->
    shows m (received r) id mark contents -> Forall cb_event evs ->
    turn m fd pd ((KCtxDone, r0) :: (KRecvfrom fd 76800 256, r) ::
                  (KPacketCb id mark buf contents pd, r2) :: evs).
(** number of packet callbacks in a trace *)
Definition packet_calls (evs : list event) : nat :=
  length (filter (fun ev => match fst ev with KPacketCb _ _ _ _ _ => true | _ => false end) evs).
(** How the loop ends: by closing the socket once the context is done; or it is
    still running; or the process died (or hangs) in the receive path. *)
Definition loop_end (fd : Z) (res : res unit) (last : list event) : Prop :=
  match res with
  | Ok _ => exists r1 r2, r_flag r1 = true /\ last = [(KCtxDone, r1); (KClose fd, r2)]
  | NoFuel => last = [] \/
      exists r0 r, r_flag r0 = false /\ r_err r = None /\
                   last = [(KCtxDone, r0); (KRecvfrom fd 76800 256, r)]
  | Panic =>
      exists r0 r, r_flag r0 = false /\ r_err r = None /\
                   last = [(KCtxDone, r0); (KRecvfrom fd 76800 256, r)]
  end.
(** no datagram received by the loop so far carries a mark (NFQA_MARK, 3) *)
Definition no_mark_in (m : endian) (fd : Z) (evs : list event) : Prop :=
  forall r p, In (KRecvfrom fd 76800 256, r) evs -> r_err r = None ->
    attr_complete m (skipn 20 (received r)) p -> attr_type m (skipn 20 (received r)) p <> 3.
(** The table as a new handle has it: the mark slot shows zeros in private
    memory. *)
Definition fresh_mark (w : world nfq) (priv : list nat) : Prop :=
  exists s, amap_get (q_attr (w_st w)) 3 = Some s /\ In (s_arr s) priv /\
    s_arr s <> s_arr (q_hdr (w_st w)) /\ field (rd (w_heap w) s) 0 4 = [0; 0; 0; 0].
(** the id and mark slots are long enough to be read *)
Definition slots_readable (w : world nfq) : Prop :=
  forall t s, t = 1 \/ t = 3 -> amap_get (q_attr (w_st w)) t = Some s -> (4 <= s_len s)%nat.
(** A kernel whose successful receives are whole messages: at least a netlink and
    an nfgen header, no attribute shorter than its own header, at least four
    bytes in the packet header and mark attributes. *)
Definition whole_message (m : endian) (d : bytes) : Prop :=
  (20 <= length d)%nat /\
  forall p, attr_complete m (skipn 20 d) p ->
    (4 <= attr_len m (skipn 20 d) p)%nat /\
    (attr_type m (skipn 20 d) p = 1 \/ attr_type m (skipn 20 d) p = 3 ->
       (8 <= attr_len m (skipn 20 d) p)%nat).
Definition kernel_ok (m : endian) (e : env) : Prop :=
  forall tr fd n, let r := e tr (KRecvfrom fd n 256) in
    r_err r = None -> whole_message m (received r).

(** a handle as set-up leaves it *)
Record fresh_ready (w : world nfq) (fd : Z) (priv : list nat) : Prop := mkFR {
  fr_ready : queue_ready w fd;
  fr_priv : private_ok w priv;
  fr_mark : fresh_mark w priv;
  fr_slots : slots_readable w;
  fr_counts : q_acc (w_st w) = 0 /\ q_drop (w_st w) = 0 /\ q_proc (w_st w) = 0 }.

(** ** The documented callback *)
(** It decides verdict and mark from what it is shown and issues SetVerdict2 with
    the delivered id, length and buffer (nfqueue/examples/example.go). *)
Definition releasing (choose : Z -> Z -> bytes -> Z * Z) : callback :=
  fun tr h pkt pd =>
    let '(v, mk) := choose (p_id pkt) (p_mark pkt) (rd h (p_buf pkt)) in
    [CbVerdict2 v mk (Z.of_nat (s_len (p_buf pkt))) (p_id pkt) (p_buf pkt)].
(** a well-formed packet with id and non-empty payload; its mark, if any, is complete *)
Definition packet_ok (m : endian) (d : bytes) (l : list (Z * bytes)) (id : Z) (payload : bytes) : Prop :=
  packet_datagram m d l /\ has_id m l id /\ has_payload l payload /\
  (1 <= length payload <= Z.to_nat 65531)%nat /\
  (last_attr 3 l <> None -> exists mark, has_mark l mark).
(** One turn: a failed receive is reported; a packet is shown to the callback and
    exactly one verdict message for it is sent. *)
Inductive release_turn (m : endian) (fd num pd : Z) (choose : Z -> Z -> bytes -> Z * Z)
  : list event -> Prop :=
| release_error r0 r en r2 :
    r_flag r0 = false -> r_err r = Some en ->
    release_turn m fd num pd choose
      [(KCtxDone, r0); (KRecvfrom fd 76800 256, r); (KErrCb (ERecv en) (IfaceGen None), r2)]
| release_packet r0 r l id mark buf payload v mk r2 evs :
    r_flag r0 = false -> r_err r = None -> packet_ok m (r_data r) l id payload ->
    (forall k, has_mark l k -> mark = k) -> choose id mark payload = (v, mk) ->
    sends_message m fd (verdict2_message m num v mk id payload) evs ->
    release_turn m fd num pd choose
      ((KCtxDone, r0) :: (KRecvfrom fd 76800 256, r) :: (KPacketCb id mark buf payload pd, r2) :: evs).
(** a kernel that only sends such packets *)
Definition kernel_sends_packets (m : endian) (e : env) : Prop :=
  forall tr fd n, let r := e tr (KRecvfrom fd n 256) in
    r_err r = None -> exists l id payload, packet_ok m (r_data r) l id payload.
Record release_inv (fd num pd : Z) (priv : list nat) (choose : Z -> Z -> bytes -> Z * Z)
  (w : world nfq) : Prop := mkRI {
  ri_loop : loop_inv fd priv (releasing choose) pd w;
  ri_num : q_num (w_st w) = num;
  ri_slots : slots_readable w }.

(** ** How long a delivered buffer stays valid *)
(** an action that has no business with the memory of the delivered buffer [s]
    beyond a verdict for it: verdicts for [s] itself or for packets elsewhere,
    stores elsewhere, allocations *)
Definition leaves_alone (s : slice) (a : cbact) : Prop :=
  match a with
  | CbVerdict _ _ _ p | CbVerdict2 _ _ _ _ p => p = s \/ s_arr p <> s_arr s
  | CbStore x _ _ => s_arr x <> s_arr s
  | CbAlloc _ _ => True
  | CbStop => False
  end.
