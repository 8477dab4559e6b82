(** Independent reading of netlink/nfnetlink messages (linux/netlink.h,
    linux/netfilter/nfnetlink.h).  Written from the protocol, not from the
    code: it only shares the byte type with the models. *)
From Verif Require Import Go.Base.

(** value of a byte string in a byte order *)
Definition be_num (b : bytes) : Z := fold_left (fun acc x => acc * 256 + x) b 0.
Definition num (e : endian) (b : bytes) : Z :=
  match e with BE => be_num b | LE => be_num (rev b) end.

(** [field b o n]: the n bytes of b at offset o *)
Definition field (b : bytes) (o n : nat) : bytes := firstn n (skipn o b).

(** smallest multiple of 4 not below n *)
Definition al4 (n : nat) : nat := (4 * ((n + 3) / 4))%nat.

(** A sequence of attributes: each starts with a 2-byte length (header
    included) and a 2-byte type, is followed by length-4 bytes of data, and the
    next one starts at the next multiple of 4 (the padding after the last one
    may be missing).  [None] when the bytes are not of this form. *)
Fixpoint attrs_go (fuel : nat) (e : endian) (b : bytes) : option (list (Z * bytes)) :=
  match fuel with
  | O => None
  | S fuel' =>
      match b with
      | [] => Some []
      | _ =>
          let l := Z.to_nat (num e (field b 0 2)) in
          if (length b <? 4)%nat || (l <? 4)%nat || (length b <? l)%nat then None
          else match attrs_go fuel' e (skipn (al4 l) b) with
               | None => None
               | Some rest => Some ((num e (field b 2 2), field b 4 (l - 4)) :: rest)
               end
      end
  end.
Definition attrs_of (e : endian) (b : bytes) : option (list (Z * bytes)) :=
  attrs_go (S (length b)) e b.

(** data of the last attribute of a given type *)
Fixpoint last_attr (t : Z) (l : list (Z * bytes)) : option bytes :=
  match l with
  | [] => None
  | (t', v) :: l' =>
      match last_attr t l' with
      | Some w => Some w
      | None => if t' =? t then Some v else None
      end
  end.

(** An nfnetlink message: netlink header, nfgenmsg, attributes. *)
Record message := mkMsg {
  m_type : Z; m_flags : Z; m_seq : Z; m_pid : Z;
  m_family : Z; m_version : Z; m_resid : Z;
  m_attrs : list (Z * bytes) }.

(** A datagram holding exactly one message: its length field covers every
    byte, up to the final alignment padding. *)
Definition read_message (e : endian) (b : bytes) : option message :=
  let len := Z.to_nat (num e (field b 0 4)) in
  if (len <? 20)%nat || negb (length b =? al4 len)%nat then None
  else match attrs_of e (firstn (len - 20) (skipn 20 b)) with
       | None => None
       | Some l =>
           Some (mkMsg (num e (field b 4 2)) (num e (field b 6 2)) (num e (field b 8 4))
                   (num e (field b 12 4)) (num e (field b 16 1)) (num e (field b 17 1))
                   (num BE (field b 18 2)) l)
       end.

(** ** Numbers of the protocol *)
Definition NLM_F_REQUEST := 1.
Definition NLM_F_ACK := 4.
Definition SUBSYS_CTNETLINK := 1.
Definition SUBSYS_QUEUE := 3.
Definition SUBSYS_ULOG := 4.
Definition msg_type (subsys msg : Z) : Z := subsys * 256 + msg.

(** ** Walking arbitrary bytes as attributes *)
(** what the header at offset p declares *)
Definition attr_len (e : endian) (b : bytes) (p : nat) : nat := Z.to_nat (num e (field b p 2)).
Definition attr_type (e : endian) (b : bytes) (p : nat) : Z := num e (field b (p + 2) 2).
(** [p] is an offset at which a reader that follows the declared lengths looks
    for an attribute header *)
Inductive attr_start (e : endian) (b : bytes) : nat -> Prop :=
| attr_start_0 : attr_start e b 0%nat
| attr_start_next p :
    attr_start e b p -> (p + 4 <= length b)%nat -> (p + attr_len e b p <= length b)%nat ->
    attr_start e b (al4 (p + attr_len e b p)).
(** there is a complete attribute at p: header and declared bytes are present *)
Definition attr_complete (e : endian) (b : bytes) (p : nat) : Prop :=
  attr_start e b p /\ (p + 4 <= length b)%nat /\ (p + attr_len e b p <= length b)%nat.
