(** The receive loop beside other goroutines: layouts and what must be sent. *)
From Verif Require Export Model.NfqLoopConc Spec.Netlink Spec.NfqSpec Spec.VerdictSpec Spec.ConcSpec.

(** memory when datagram [d] has just been received into array [rb] *)
Definition hold (h : heap) (rb : nat) (d : bytes) : heap :=
  upd_arr h rb (d ++ skipn (length d) (arr h rb)).
(** the packet of call [c] is (part of) the datagram [d] in the receive buffer *)
Definition delivered (h : heap) (q : vhandle) (rb : nat) (d : bytes) (c : vcall) : Prop :=
  vcall_ok (hold h rb d) q c /\ s_arr (v_pkt c) = rb /\ (s_off (v_pkt c) + s_len (v_pkt c) <= length d)%nat.
Record loop_layout (h : heap) (q : vhandle) (rb : nat) (turns : list turn) (workers : list (list vcall)) : Prop := mkLL {
  ll_hdr : valid h (h_hdr q) /\ s_len (h_hdr q) = 40%nat;
  ll_num : is_u16 (h_num q);
  (* the receive buffer is an array of its own and large enough *)
  ll_rb : (rb < length h)%nat /\ rb <> s_arr (h_hdr q);
  ll_fits : forall t, In t turns -> (length (tn_data t) <= length (arr h rb))%nat;
  (* the callback's own verdicts are on the packet just received *)
  ll_loop : forall t c, In t turns -> In c (tn_calls t) -> delivered h q rb (tn_data t) c;
  ll_loop_keeps : forall t c c', In t turns -> In c (tn_calls t) -> In c' (tn_calls t) -> keeps (v_pkt c) (v_pkt c');
  (* the others use memory of their own *)
  ll_workers : Forall (Forall (vcall_ok h q)) workers;
  ll_copies : forall cs c, In cs workers -> In c cs -> s_arr (v_pkt c) <> rb;
  ll_apart : forall i j ci cj c c', i <> j ->
    nth_error workers i = Some ci -> nth_error workers j = Some cj -> In c ci -> In c' cj ->
    apart (v_pkt c) (v_pkt c');
  ll_keeps : forall ci c c', In ci workers -> In c ci -> In c' ci -> keeps (v_pkt c) (v_pkt c') }.
(** the loop's verdicts with the datagrams they belong to, in order *)
Definition loop_calls (turns : list turn) : list (bytes * vcall) :=
  flat_map (fun t => map (pair (tn_data t)) (tn_calls t)) turns.
(** the loop has sent the messages of its first [k] verdicts, each carrying the
    bytes of its own datagram, and nothing else *)
Definition loop_sent (m : endian) (h : heap) (q : vhandle) (rb k : nat) (turns : list turn) (sent : list (Z * bytes)) : Prop :=
  (k <= length (loop_calls turns))%nat /\
  Forall2 (fun dc => is_message_of m (hold h rb (fst dc)) q (snd dc)) (firstn k (loop_calls turns)) sent.
