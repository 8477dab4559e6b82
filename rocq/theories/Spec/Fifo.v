(** A netlink socket is a queue: the kernel appends datagrams, receives take them
    from the front. *)
From Verif Require Export Model.NfQueue Spec.Netlink Spec.Requests Spec.NfqSpec Spec.VerdictSpec Spec.LoopSpec.

(** number of datagrams taken from the socket in a history *)
Definition taken (tr : list event) : nat :=
  length (filter (fun ev => match ev with
                            | (KRecvfrom _ _ _, r) => match r_err r with None => true | Some _ => false end
                            | _ => false end) tr).
(** the datagrams taken in a history *)
Definition datagrams (evs : list event) : list bytes :=
  flat_map (fun ev => match ev with
                      | (KRecvfrom _ _ _, r) => match r_err r with None => [r_data r] | Some _ => [] end
                      | _ => [] end) evs.
(** [q h]: all the datagrams the kernel has put on the socket by the time the
    history is [h], oldest first, taken or not.  The environment is a FIFO socket
    for [q]: datagrams are only ever added at the end; a receive that succeeds
    yields the oldest one not yet taken; a receive succeeds when there is one. *)
Record fifo_socket (q : list event -> list bytes) (e : env) : Prop := mkFifo {
  ff_append : forall h x, exists y, q (h ++ x) = q h ++ y;
  ff_takes : forall h fd n fl, r_err (e h (KRecvfrom fd n fl)) = None ->
    nth_error (q h) (taken h) = Some (r_data (e h (KRecvfrom fd n fl)));
  ff_ready : forall h fd n fl, (taken h < length (q h))%nat -> r_err (e h (KRecvfrom fd n fl)) = None }.
(** the datagrams waiting on the socket *)
Definition waiting (q : list event -> list bytes) (h : list event) : list bytes := skipn (taken h) (q h).

(** A packet message as the kernel sends it: whole, with an id and a payload. *)
Definition a_packet (m : endian) (d : bytes) : Prop :=
  whole_message m d /\
  exists l id payload, packet_datagram m d l /\ has_id m l id /\ has_payload l payload.
(** what the packet callback is shown in a history: id, mark, contents *)
Definition shown (evs : list event) : list (Z * Z * bytes) :=
  flat_map (fun ev => match fst ev with KPacketCb id mark _ c _ => [(id, mark, c)] | _ => [] end) evs.
(** it is the id, the mark (if it has one) and the payload of [d] *)
Definition is_of (m : endian) (x : Z * Z * bytes) (d : bytes) : Prop :=
  exists l, packet_datagram m d l /\ has_id m l (fst (fst x)) /\ has_payload l (snd x) /\
    (forall k, has_mark l k -> snd (fst x) = k).
(** the callback does not stop the queue *)
Definition never_stops (cb : callback) : Prop :=
  forall tr h pkt pd, ~ In CbStop (cb tr h pkt pd).

(** ** Scripted kernels (used for examples and counterexamples) *)
Definition sends (h : list event) : nat :=
  length (filter (fun ev => match fst ev with KSendto _ _ _ => true | _ => false end) h).
Definition polls (h : list event) : nat :=
  length (filter (fun ev => match fst ev with KCtxDone => true | _ => false end) h).
(** after the i-th datagram sent, the i-th batch of the script arrives *)
Definition script_queue (script : list (list bytes)) (h : list event) : list bytes :=
  concat (firstn (S (sends h)) script).
(** sockets get descriptor 7; the context is done at the [stop]-th look *)
Definition script_kernel (stop : nat) (script : list (list bytes)) : env := fun h c =>
  match c with
  | KSocket _ _ _ => mkResp None 7 [] false
  | KRecvfrom _ _ _ =>
      match nth_error (script_queue script h) (taken h) with
      | Some d => mkResp None 0 d false
      | None => mkResp (Some 11) 0 [] false
      end
  | KCtxDone => mkResp None 0 [] (stop <=? polls h)%nat
  | _ => mkResp None 0 [] false
  end.
