(** Properties of the system-call wrappers: C56. *)
From Verif Require Import Model.SyscallWrappers.

(** The outcome [out] of a wrapper asked to make the call [a] of a kernel [r]:
    one call if it succeeds, the same call once more if it fails, and then the
    second answer. *)
Definition reissued_once {A} (r : raw A) (a : A) (out : option Z * list A) : Prop :=
  (r 0%nat a = None -> out = (None, [a])) /\ (forall e, r 0%nat a = Some e -> out = (r 1%nat a, [a; a])).
Lemma reissued {A} (r : raw A) a : reissued_once r a (retry_twice r a).
Proof. unfold retry_twice. split; [intros ->; reflexivity|intros e ->; reflexivity]. Qed.
Theorem C56_wrapper_outcome_partial :
  (forall r fd sa, reissued_once r (fd, sa) (Bind r fd sa)) /\
  (forall r fd l o v, reissued_once r (fd, l, o, v) (SetsockoptInt r fd l o v)) /\
  (forall r fd, reissued_once r fd (Close r fd)) /\
  (forall r fd pa fl sa, reissued_once r (fd, pa, fl, sa) (Sendto r fd pa fl sa)).
Proof. split; [|split; [|split]]; intros; apply reissued. Qed.
Print Assumptions C56_wrapper_outcome_partial.
(** nil is returned iff one of the (at most two) attempts succeeded *)
Theorem C56_nil_iff_success_partial : forall r fd pa fl sa,
  fst (Sendto r fd pa fl sa) = None <-> (r 0%nat (fd, pa, fl, sa) = None \/ r 1%nat (fd, pa, fl, sa) = None).
Proof. intros r fd pa fl sa. unfold Sendto, retry_twice. destruct (r 0%nat _); cbn; intuition congruence. Qed.
Print Assumptions C56_nil_iff_success_partial.
(** the remaining wrappers make one call and pass its outcome on *)
Theorem C56_single_calls_partial :
  (forall r d t p, (forall v, r 0%nat (d, t, p) = (v, None) -> Socket r d t p = (v, None, [(d, t, p)])) /\
                   (forall v e, r 0%nat (d, t, p) = (v, Some e) -> Socket r d t p = (-1, Some e, [(d, t, p)]))) /\
  (forall r fd fl, (forall v, r 0%nat (fd, fl) = (v, None) -> Recvfrom r fd fl = (v, None, [(fd, fl)])) /\
                   (forall v e, r 0%nat (fd, fl) = (v, Some e) -> Recvfrom r fd fl = (-1, Some e, [(fd, fl)]))) /\
  (forall r t a b c, (forall v, r 0%nat (t, a, b, c) = (v, None) -> Syscall r t a b c = (v, None, [(t, a, b, c)])) /\
                     (forall v e, r 0%nat (t, a, b, c) = (v, Some e) -> Syscall r t a b c = (0, Some e, [(t, a, b, c)]))).
Proof.
  unfold Socket, Recvfrom, Syscall. split; [|split].
  - intros r d t p. split; [intros v ->|intros v e ->]; reflexivity.
  - intros r fd fl. split; [intros v ->|intros v e ->]; reflexivity.
  - intros r t a b c. split; [intros v ->|intros v e ->]; reflexivity.
Qed.
Print Assumptions C56_single_calls_partial.
(** Refuted: one call each.  A failing send is sent again - for a datagram the
    kernel did take in spite of the error, twice - and a failing close closes
    the descriptor number again, by then possibly somebody else's. *)
Theorem C56_called_once_refuted :
  (exists r : raw Z, forall fd, Close r fd = (None, [fd; fd])) /\
  (exists r : raw (Z * bytes * Z * bytes), forall fd pa fl sa, Sendto r fd pa fl sa = (None, [(fd, pa, fl, sa); (fd, pa, fl, sa)])) /\
  (exists r : raw (Z * bytes), forall fd sa, Bind r fd sa = (None, [(fd, sa); (fd, sa)])) /\
  (exists r : raw (Z * Z * Z * Z), forall fd l o v, SetsockoptInt r fd l o v = (None, [(fd, l, o, v); (fd, l, o, v)])).
Proof. repeat split; exists (fun n _ => match n with O => Some 4 | _ => None end); reflexivity. Qed.
Print Assumptions C56_called_once_refuted.
Example C56_hypotheses_met :
  Sendto (fun n _ => match n with O => Some 11 | _ => Some 105 end) 3 [1; 2] 0 [] = (Some 105, [(3, [1; 2], 0, []); (3, [1; 2], 0, [])]).
Proof. reflexivity. Qed.
