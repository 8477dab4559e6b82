(** The UDP client run over any number of messages (C103). *)
From Verif Require Export Spec.UdpClientSpec.

(** no code: the client serves [n] messages *)
Fixpoint serve (n : nat) (fuel : nat) (m : endian) (grow : nat -> nat -> nat) (ty : Z) (tok : slice) : MQ unit :=
  match n with
  | O => ret tt
  | S n => let! _ := answer_udp fuel m grow ty tok in serve n fuel m grow ty tok
  end.

(** message [dg] delivers packet [b] under an id and a mark *)
Definition delivers_packet (m : endian) (dg : bytes) (id mark : Z) (b : bytes) : Prop :=
  exists l, packet_datagram m dg l /\ has_id m l id /\ has_mark l mark /\ has_payload l b.
(** the packets the client is told to expect *)
Definition expected (b : bytes) : Prop :=
  (exists v, udp_packet v b) \/ (exists v, bare_tcp v b) \/ (1 <= length b)%nat /\ malformed4 b.
(** every receive on the queue's socket delivers one of them *)
Definition busy_kernel (m : endian) (fd : Z) (e : env) : Prop :=
  forall tr, let r := e tr (KRecvfrom fd 76800 256) in
    r_err r = None /\ exists id mark b, delivers_packet m (r_data r) id mark b /\ expected b /\ zlen b <= 65531.
(** [new] is what the client must send for the message [dg] *)
Definition served (m : endian) (fd num ty : Z) (token dg : bytes) (new : list event) : Prop :=
  exists id mark b, delivers_packet m dg id mark b /\
  ( (exists v b', udp_packet v b /\ answers v ty token b b' /\
       sends_message m fd (verdict2_message m num 1 mark id b') new)
    \/ ((exists v, bare_tcp v b) /\ sends_message m fd (verdict2_message m num 1 mark id b) new)
    \/ (malformed4 b /\ sends_message m fd (verdict2_message m num 0 mark id b) new) ).
(** the token: in memory the queue uses neither for receiving nor for headers *)
Definition held_token (w : world nfq) (tok : slice) : Prop :=
  valid (w_heap w) tok /\ is_bytes (rd (w_heap w) tok) /\
  (s_len tok = 0%nat \/ s_arr tok <> s_arr (q_buf (w_st w)) /\ s_arr tok <> s_arr (q_hdr (w_st w))).
