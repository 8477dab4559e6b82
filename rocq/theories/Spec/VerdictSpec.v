(** Verdict messages as the kernel documents them
    (linux/netfilter/nfnetlink_queue.h), and the vocabulary of the verdict
    properties. *)
From Verif Require Import Model.NfQueue Spec.Netlink Spec.NfqSpec Spec.CtSpec.

(** NFQNL_MSG_VERDICT (1) for queue [num]: NFQA_VERDICT_HDR (2) is
    {be32 verdict; id}, the id being the four bytes the kernel used in the
    packet message (it is not interpreted on the way, so it is written in the
    order it was read in: the machine's); NFQA_MARK (3) is be32; NFQA_PAYLOAD
    (10) is the packet. *)
Definition verdict_attr (m : endian) (verdict id : Z) : Z * bytes :=
  (2, be32 verdict ++ native32 m id).
Definition verdict_message (num : Z) (attrs : list (Z * bytes)) : message :=
  mkMsg (msg_type SUBSYS_QUEUE 1) NLM_F_REQUEST 0 0 0 0 num attrs.
Definition verdict1_message (m : endian) (num verdict id : Z) (payload : bytes) : message :=
  verdict_message num [verdict_attr m verdict id; (10, payload)].
Definition verdict2_message (m : endian) (num verdict mark id : Z) (payload : bytes) : message :=
  verdict_message num [verdict_attr m verdict id; (3, be32 mark); (10, payload)].

(** One sendmsg on [fd] gathering [iov]; a failure is only printed. *)
Definition sends_one (fd : Z) (iov : list bytes) (evs : list event) : Prop :=
  exists r, (r_err r = None /\ evs = [(KSendmsg fd iov, r)]) \/
            (exists en r', r_err r = Some en /\ evs = [(KSendmsg fd iov, r); (KPrint, r')]).
(** exactly one message is handed to the kernel and it reads as [msg] *)
Definition sends_message (m : endian) (fd : Z) (msg : message) (evs : list event) : Prop :=
  exists iov, sends_one fd iov evs /\ read_message m (concat iov) = Some msg.

(** A handle on which verdicts can be issued: socket [fd] open, header buffer of
    40 bytes in memory, 16-bit queue number. *)
Definition verdict_ready (w : world nfq) (fd : Z) : Prop :=
  (exists buf, q_handle (w_st w) = Some (mkSock fd buf)) /\
  valid (w_heap w) (q_hdr (w_st w)) /\ s_len (q_hdr (w_st w)) = 40%nat /\
  is_u16 (q_num (w_st w)).
(** The caller's packet: a slice in memory showing [pkt], not part of the
    handle's private header buffer. *)
Definition packet_in (w : world nfq) (p : slice) (pkt : bytes) : Prop :=
  valid (w_heap w) p /\ rd (w_heap w) p = pkt /\ s_arr p <> s_arr (q_hdr (w_st w)).

(** zero bytes up to the next multiple of 4 *)
Definition pad4 (n : nat) : bytes := repeat 0 (al4 n - n).

(** What a verdict call for packet [p] leaves alone: validity of slices, the
    packet itself, every array but the handle's header buffer and the packet's
    own, and in the latter everything but the up to three bytes after the packet
    that complete it to a multiple of 4: these are zeroed exactly when they
    belong to the slice's capacity. *)
Record verdict_frame (w w' : world nfq) (p : slice) : Prop := mkVF {
  vf_keep : forall x, valid (w_heap w) x -> valid (w_heap w') x;
  vf_old : rd (w_heap w') p = rd (w_heap w) p;
  vf_grow : (length (w_heap w) <= length (w_heap w'))%nat;
  vf_other : forall a, (a < length (w_heap w))%nat -> a <> s_arr (q_hdr (w_st w)) -> a <> s_arr p ->
     arr (w_heap w') a = arr (w_heap w) a;
  vf_same : forall i, (i < s_off p + s_len p)%nat ->
     nth i (arr (w_heap w') (s_arr p)) 0 = nth i (arr (w_heap w) (s_arr p)) 0;
  vf_rest : forall i, (s_off p + s_len p + 3 <= i)%nat ->
     nth i (arr (w_heap w') (s_arr p)) 0 = nth i (arr (w_heap w) (s_arr p)) 0;
  vf_pad : arr (w_heap w') (s_arr p) =
     if (al4 (s_len p) <=? s_cap p)%nat
     then splice (arr (w_heap w) (s_arr p)) (s_off p + s_len p) (pad4 (s_len p))
     else arr (w_heap w) (s_arr p) }.
