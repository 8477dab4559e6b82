(** Memory that nobody handed to a queue handle. *)
From Verif Require Export Spec.HandleSpec.

(** [s] is not a window into array [a] (an empty slice without capacity is a window into nothing) *)
Definition away (a : nat) (s : slice) : Prop :=
  s_arr s <> a \/ (s_len s = 0%nat /\ s_cap s = 0%nat).
Definition act_away (a : nat) (x : cbact) : Prop :=
  match x with
  | CbVerdict _ _ _ p | CbVerdict2 _ _ _ _ p => away a p
  | CbStore s _ _ => away a s
  | CbAlloc _ _ | CbStop => True
  end.
(** a callback which, shown a packet buffer away from [a], neither stores into [a] nor gives
    a slice of [a] to a verdict *)
Definition cb_away (a : nat) (cb : callback) : Prop :=
  forall tr h p priv, away a (p_buf p) -> Forall (act_away a) (cb tr h p priv).
Definition call_away (a : nat) (c : handle_call) : Prop :=
  match c with
  | HCreateQueue _ (Some cb) _ _ => cb_away a cb
  | HSetVerdict _ _ _ p | HSetVerdict2 _ _ _ _ p => away a p
  | _ => True
  end.
