(** Conntrack update requests as the kernel documents them
    (linux/netfilter/nfnetlink_conntrack.h), matching of flows, and the system
    calls of an update. *)
From Verif Require Import Model.Conntrack Spec.Netlink Spec.Requests Spec.NfqSpec.

(** the four bytes of an IPv4 address, from its 4- or 16-byte form *)
Definition v4_bytes (ip : bytes) : bytes := if (length ip =? 16)%nat then skipn 12 ip else ip.
(** an IPv4 address: four bytes, or these in the IPv4-mapped IPv6 form (RFC 4291,
    2.5.5.2), which is what net.ParseIP returns for an IPv4 string *)
Definition mapped (four : bytes) : bytes := [0;0;0;0;0;0;0;0;0;0;255;255] ++ four.
Definition v4_addr (ip : bytes) : Prop :=
  exists four, is_bytes four /\ length four = 4%nat /\ (ip = four \/ ip = mapped four).

Definition be16 (v : Z) : bytes := [v / 256; v mod 256].
(** attribute types carrying nested attributes have bit 15 set *)
Definition nested (t : Z) : Z := 32768 + t.

(** A five-tuple. *)
Record tuple5 := mk5 { f_src : bytes; f_dst : bytes; f_proto : Z; f_sport : Z; f_dport : Z }.
Definition tuple5_ok (t : tuple5) : Prop :=
  v4_addr (f_src t) /\ v4_addr (f_dst t) /\ is_u8 (f_proto t) /\ is_u16 (f_sport t) /\ is_u16 (f_dport t).

(** [v] is the body of a CTA_TUPLE attribute for the five-tuple: CTA_TUPLE_IP
    with CTA_IP_V4_SRC/DST and CTA_TUPLE_PROTO with CTA_PROTO_NUM (u8),
    CTA_PROTO_SRC_PORT and CTA_PROTO_DST_PORT (be16) *)
Definition tuple_body (m : endian) (t : tuple5) (v : bytes) : Prop :=
  exists ip pr,
    attrs_of m v = Some [(nested 1, ip); (nested 2, pr)] /\
    attrs_of m ip = Some [(1, v4_bytes (f_src t)); (2, v4_bytes (f_dst t))] /\
    attrs_of m pr = Some [(1, [f_proto t]); (2, be16 (f_sport t)); (3, be16 (f_dport t))].

(** [b] is one IPCTNL_MSG_CT_NEW request (update) for the five-tuple whose other
    top-level attributes are [extra] *)
Definition ct_update (m : endian) (t : tuple5) (extra : list (Z * bytes)) (b : bytes) : Prop :=
  exists v, tuple_body m t v /\
    read_message m b =
    Some (mkMsg (msg_type SUBSYS_CTNETLINK 0) (NLM_F_REQUEST + NLM_F_ACK) 0 0 2 0 0
            ((nested 1, v) :: extra)).
(** CTA_MARK (8) is big endian; CTA_LABELS (22) is a native bit string *)
Definition mark_attr (mark : Z) : Z * bytes := (8, be32 mark).
Definition native32 (m : endian) (v : Z) : bytes :=
  match m with BE => be32 v | LE => rev (be32 v) end.
Definition label_attr (m : endian) (label : Z) : Z * bytes := (22, native32 m label).

(** ** Which flows match *)
Definition same_v4 (a b : bytes) : Prop := v4_bytes a = v4_bytes b.
Definition flow_ok (fl : flow) : Prop :=
  v4_addr (t_src (f_fwd fl)) /\ v4_addr (t_dst (f_fwd fl)) /\
  v4_addr (t_src (f_rev fl)) /\ v4_addr (t_dst (f_rev fl)).
(** the forward tuple is the five-tuple, the reverse one its mirror image *)
Definition flow_matches (t : tuple5) (fl : flow) : Prop :=
  same_v4 (t_src (f_fwd fl)) (f_src t) /\ same_v4 (t_dst (f_fwd fl)) (f_dst t) /\
  t_proto (f_fwd fl) = f_proto t /\ t_sport (f_fwd fl) = f_sport t /\ t_dport (f_fwd fl) = f_dport t /\
  same_v4 (t_src (f_rev fl)) (f_dst t) /\ same_v4 (t_dst (f_rev fl)) (f_src t) /\
  t_proto (f_rev fl) = f_proto t /\ t_sport (f_rev fl) = f_dport t /\ t_dport (f_rev fl) = f_sport t.

(** ** One update *)
Definition ct_opens (fd : Z) (evs : list event) : Prop :=
  exists rs rb, r_err rs = None /\ r_val rs = fd /\ r_err rb = None /\
    evs = [ (KSocket 16 3 12, rs); (KBind fd 16, rb) ].
(** open, one request [b], close *)
Definition one_update (m : endian) (b : bytes) (evs : list event) (res : option gerr) : Prop :=
  exists fd o req rc,
    ct_opens fd o /\ one_request m fd (zlen b) b req res /\
    evs = o ++ req ++ [(KClose fd, rc)].

(** [updates m P flows n evs err]: one update with a request satisfying [P] for
    each flow of [flows] that satisfies [sel], in order, stopping at the first
    failure; n is the number that succeeded. *)
Inductive updates (m : endian) (P : bytes -> Prop) (sel : flow -> Prop)
  : list flow -> nat -> list event -> option gerr -> Prop :=
| up_done : updates m P sel [] 0 [] None
| up_skip fl fs n evs err :
    ~ sel fl -> updates m P sel fs n evs err -> updates m P sel (fl :: fs) n evs err
| up_ok fl fs b n ev evs err :
    sel fl -> P b -> one_update m b ev None -> updates m P sel fs n evs err ->
    updates m P sel (fl :: fs) (S n) (ev ++ evs) err
| up_fail fl fs b ev er :
    sel fl -> P b -> one_update m b ev (Some er) ->
    updates m P sel (fl :: fs) 0 ev (Some er).

(** opening a socket never fails *)
Definition sockets_open (e : env) : Prop :=
  forall tr c, match c with KSocket _ _ _ | KBind _ _ => r_err (e tr c) = None | _ => True end.
