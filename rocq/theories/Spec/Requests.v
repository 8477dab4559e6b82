(** What one configuration request looks like from outside: one datagram sent,
    one reply awaited, and how the reply decides the result. *)
From Verif Require Import Model.Sys Spec.Netlink.

(** two's complement reading of a 32-bit field *)
Definition signed32 (v : Z) : Z := if v <? 2147483648 then v else v - 4294967296.

(** the error code a kernel reply carries: only NLMSG_ERROR (type 2) messages
    carry one, right after the 16-byte header; 0 is the acknowledgement *)
Definition reply_code (m : endian) (d : bytes) : Z :=
  if num m (field d 4 2) =? 2 then signed32 (num m (field d 16 4)) else 0.

(** the request succeeded: send and receive succeeded and no error code *)
Definition acknowledged (m : endian) (sent received : resp) : Prop :=
  r_err sent = None /\ r_err received = None /\ reply_code m (r_data received) = 0.

(** [new] are the system calls made by one request that returned [result]:
    datagram [b] went to socket [fd] exactly once; if that worked exactly one
    reply was awaited; the result is nil iff acknowledged, and otherwise names
    the failure. *)
Definition one_request (m : endian) (fd maxlen : Z) (b : bytes) (new : list event)
  (result : option gerr) : Prop :=
  (exists r1 en, r_err r1 = Some en /\ new = [(KSendto fd b 0, r1)] /\ result = Some (ESys en)) \/
  (exists r1 r2, r_err r1 = None /\
     new = [(KSendto fd b 0, r1); (KRecvfrom fd maxlen 0, r2)] /\
     (acknowledged m r1 r2 <-> result = None) /\
     (forall en, r_err r2 = Some en -> result = Some (ERecv en)) /\
     (r_err r2 = None -> reply_code m (r_data r2) <> 0 ->
        result = Some (ENetlink (reply_code m (r_data r2))))).

(** replies to requests - what is received, with flags 0, right after something was sent
    on the same descriptor - are byte strings of at least [lo] and less than [hi] bytes *)
Definition replies_within (lo hi : Z) (e : env) : Prop :=
  forall tr b r1 fd n,
    let r := e (tr ++ [(KSendto fd b 0, r1)]) (KRecvfrom fd n 0) in
    r_err r = None -> is_bytes (r_data r) /\ lo <= zlen (r_data r) < hi.

(** system calls that touch the socket's data stream *)
Definition is_send (ev : event) : bool :=
  match fst ev with KSendto _ _ _ => true | KSendmsg _ _ => true | _ => false end.

(** ** Sequences of requests *)
(** The messages [msgs] are requested one after the other on socket [fd]; the
    sequence stops at the first request that fails.  [new] are all the system
    calls made, [acked] the number of requests acknowledged, [err] the failure
    that stopped it, if any.  [lim b] is the size of the buffer the reply to
    datagram [b] is received in. *)
Inductive ran_requests (m : endian) (fd : Z) (lim : bytes -> Z)
  : list message -> list event -> nat -> option gerr -> Prop :=
| ran_done : ran_requests m fd lim [] [] 0 None
| ran_fail msg rest b new er :
    read_message m b = Some msg -> one_request m fd (lim b) b new (Some er) ->
    ran_requests m fd lim (msg :: rest) new 0 (Some er)
| ran_ok msg rest b new new' acked err :
    read_message m b = Some msg -> one_request m fd (lim b) b new None ->
    ran_requests m fd lim rest new' acked err ->
    ran_requests m fd lim (msg :: rest) (new ++ new') (S acked) err.

(** ** File descriptors *)
Fixpoint remove_fd (fd : Z) (l : list Z) : list Z :=
  match l with [] => [] | x :: l' => if x =? fd then l' else x :: remove_fd fd l' end.
(** descriptors created and not closed by the calls of a trace (a descriptor is
    gone after close whatever close returns) *)
Fixpoint left_open (acc : list Z) (tr : list event) : list Z :=
  match tr with
  | [] => acc
  | (KSocket _ _ _, r) :: tr' =>
      left_open (match r_err r with None => r_val r :: acc | Some _ => acc end) tr'
  | (KClose fd, _) :: tr' => left_open (remove_fd fd acc) tr'
  | _ :: tr' => left_open acc tr'
  end.
