(** Several queues, each with goroutines of its own, in one program (C70). *)
From Verif Require Import Model.NfqConc Spec.Netlink Spec.NfqSpec Spec.VerdictSpec Spec.ConcSpec.

(** goroutines, each with the handle it uses and the calls it makes *)
Definition users : Type := list (vhandle * list vcall).
(** The goroutines' packets are apart (C21); a goroutine's packets are not in any
    handle's header buffer; two goroutines that both use SetVerdict2 use handles
    with different header buffers - every handle the library makes has its own. *)
Record queues_ok (h : heap) (l : users) : Prop := mkQs {
  qs_hdr : forall q cs, In (q, cs) l -> valid h (h_hdr q) /\ s_len (h_hdr q) = 40%nat /\ is_u16 (h_num q);
  qs_calls : forall q cs, In (q, cs) l -> Forall (vcall_ok h q) cs;
  qs_outside : forall q cs q' cs' c, In (q, cs) l -> In (q', cs') l -> In c cs -> s_arr (v_pkt c) <> s_arr (h_hdr q');
  qs_own : forall i j qi ci qj cj c c', i <> j -> nth_error l i = Some (qi, ci) -> nth_error l j = Some (qj, cj) ->
    In c ci -> In c' cj -> v_mark c <> None -> v_mark c' <> None -> s_arr (h_hdr qi) <> s_arr (h_hdr qj);
  qs_apart : forall i j qi ci qj cj c c', i <> j -> nth_error l i = Some (qi, ci) -> nth_error l j = Some (qj, cj) ->
    In c ci -> In c' cj -> apart (v_pkt c) (v_pkt c');
  qs_keeps : forall q ci c c', In (q, ci) l -> In c ci -> In c' ci -> keeps (v_pkt c) (v_pkt c') }.
(** the program starts: nobody has done anything yet *)
Definition qinit (m : endian) (l : users) (h : heap) : conf :=
  mkC (map (fun u => (idle, thread_code m (fst u) (snd u))) l) (mem_of h) 0 0 [].
