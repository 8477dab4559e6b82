(** Closing when callbacks may stop the queue: C61. *)
From Verif Require Import Proof.StopCount.

(** Whatever the callbacks do and whatever the kernel answers: the loop works on no
    other socket, closes its own at most once for every request sent on it - one by
    each StopQueue - and once more when it is cancelled, and that close is its last
    action. *)
Theorem C61_closes_bounded_partial : forall n fuel m grow e w fd buf cb res w',
  q_handle (w_st w) = Some (mkSock fd buf) -> q_cb (w_st w) = Some cb ->
  ProcessPackets n fuel m grow e w = (res, w') ->
  exists evs, w_tr w' = w_tr w ++ evs /\
    (forall ev, In ev evs -> works_on (fst ev) = None \/ works_on (fst ev) = Some fd) /\
    (closes fd evs <= requests fd evs + match res with Ok _ => 1 | _ => 0 end)%nat /\
    (forall u, res = Ok u -> exists evs0 r, evs = evs0 ++ [(KClose fd, r)]).
Proof.
  intros n fuel m grow e w fd buf cb res w' H C E.
  destruct (loop_close_count fd cb fuel m grow n e w res w' ltac:(split; eauto) E) as (evs & T & F & B & L).
  exists evs. split; [exact T|]. split; [intros ev I; rewrite Forall_forall in F; exact (F ev I)|]. auto.
Qed.
Print Assumptions C61_closes_bounded_partial.

(** The bound is reached: the callback stops the queue, the kernel acknowledges, and
    at its next look at the context the loop is cancelled.  One request, two closes. *)
Definition stopping_queue : world nfq :=
  mkW (mkQ 8 42 (Some (fun _ _ _ _ => [CbStop])) false 0 (Some (mkSock 7 (mkSl 0 0 40 40))) (mkSl 0 0 40 40) [] snil 0 0 0 [])
      [repeat 0 40] [].
Definition acknowledges_then_cancels : env := fun tr c =>
  match c with
  | KCtxDone => mkResp None 0 [] (2 <? length tr)%nat
  | KRecvfrom _ _ 0 => mkResp None 0 [36;0;0;0; 2;0;0;0; 0;0;0;0; 0;0;0;0; 0;0;0;0] false
  | KRecvfrom _ _ _ => mkResp (Some 9) 0 [] false
  | _ => mkResp None 0 [] false
  end.
Example C61_bound_reached :
  let x := ProcessPackets 2 5 LE (fun a _ => a) acknowledges_then_cancels stopping_queue in
  fst x = Ok tt /\ closes 7 (w_tr (snd x)) = 2%nat /\ requests 7 (w_tr (snd x)) = 1%nat.
Proof. vm_compute. auto. Qed.
