(** Concurrent verdict calls: which memory layouts are allowed and what each
    call must send. *)
From Verif Require Import Model.NfqConc Spec.Netlink Spec.NfqSpec Spec.VerdictSpec.

(** One call: its packet is a slice in memory outside the handle's header
    buffer, of a length for which the call works; arguments have their types. *)
Definition vcall_ok (h : heap) (q : vhandle) (c : vcall) : Prop :=
  valid h (v_pkt c) /\ s_arr (v_pkt c) <> s_arr (h_hdr q) /\
  (1 <= s_len (v_pkt c) <= Z.to_nat (match v_mark c with None => 65528 | Some _ => 65531 end))%nat /\
  is_u32 (v_verdict c) /\ is_u32 (v_id c) /\
  match v_mark c with None => True | Some mk => is_u32 mk end.
(** packets of calls made by different goroutines: different arrays, or so far
    apart that the padding of one does not reach the other *)
Definition apart (p p' : slice) : Prop :=
  s_arr p <> s_arr p' \/ (s_off p + s_len p + 3 <= s_off p')%nat \/
  (s_off p' + s_len p' + 3 <= s_off p)%nat.
(** packets of calls made by the same goroutine: the padding of one does not
    reach into the other (the same packet may be used again) *)
Definition keeps (p p' : slice) : Prop :=
  s_arr p <> s_arr p' \/ (s_off p' + s_len p' <= s_off p + s_len p)%nat \/
  (s_off p + s_len p + 3 <= s_off p')%nat.
Record layout_ok (h : heap) (q : vhandle) (threads : list (list vcall)) : Prop := mkLay {
  lay_hdr : valid h (h_hdr q) /\ s_len (h_hdr q) = 40%nat;
  lay_num : is_u16 (h_num q);
  lay_calls : Forall (Forall (vcall_ok h q)) threads;
  lay_apart : forall i j ci cj c c', i <> j ->
    nth_error threads i = Some ci -> nth_error threads j = Some cj -> In c ci -> In c' cj ->
    apart (v_pkt c) (v_pkt c');
  lay_keeps : forall ci c c', In ci threads -> In c ci -> In c' ci -> keeps (v_pkt c) (v_pkt c') }.

(** the message a call must send, alone or not *)
Definition vmessage (m : endian) (h : heap) (q : vhandle) (c : vcall) : message :=
  match v_mark c with
  | None => verdict1_message m (h_num q) (v_verdict c) (v_id c)
              (rd h (v_pkt c) ++ pad4 (s_len (v_pkt c)))
  | Some mk => verdict2_message m (h_num q) (v_verdict c) mk (v_id c) (rd h (v_pkt c))
  end.
(** what goroutine [i] sent, in order *)
Definition sent_by (i : nat) (log : list (nat * (Z * bytes))) : list (Z * bytes) :=
  map snd (filter (fun x => (fst x =? i)%nat) log).
(** datagram [d] on socket [fd] is the message of call [c] *)
Definition is_message_of (m : endian) (h : heap) (q : vhandle) (c : vcall) (d : Z * bytes) : Prop :=
  fst d = h_fd q /\ read_message m (snd d) = Some (vmessage m h q c).
(** goroutine [i], which makes the calls [cs], has sent the messages of the
    first [k] of them and nothing else *)
Definition sent_first (m : endian) (h : heap) (q : vhandle) (k : nat) (cs : list vcall)
  (sent : list (Z * bytes)) : Prop :=
  (k <= length cs)%nat /\ Forall2 (is_message_of m h q) (firstn k cs) sent.
Definition finished (c : conf) : Prop := Forall (fun t => snd t = []) (c_threads c).
(** numbers of SetVerdict calls with verdict 1 and with another verdict *)
Definition accepts (threads : list (list vcall)) : Z :=
  zlen (filter (fun c => match v_mark c with None => v_verdict c =? 1 | _ => false end) (concat threads)).
Definition drops (threads : list (list vcall)) : Z :=
  zlen (filter (fun c => match v_mark c with None => negb (v_verdict c =? 1) | _ => false end) (concat threads)).
(** only goroutine [i0] uses SetVerdict2 *)
Definition only_user_of_SetVerdict2 (i0 : nat) (threads : list (list vcall)) : Prop :=
  forall i ci c, nth_error threads i = Some ci -> In c ci -> v_mark c <> None -> i = i0.
