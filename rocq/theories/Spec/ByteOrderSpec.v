(** What the package must answer on a machine of byte order [m] (C104). *)
From Verif Require Export Model.ByteOrder Spec.Netlink.

(** the right answer to a use: ids and message headers in the machine's order,
    marks and verdicts in network order *)
Definition right_answer (m : endian) (u : use) (g : got) : Prop :=
  match u with
  | UseNew => g = GotNew
  | UseInfo h attr => forall t s1 s3 s10, attr = Some t ->
      amap_get t 1 = Some s1 -> amap_get t 3 = Some s3 -> amap_get t 10 = Some s10 ->
      (4 <= length (rd h s1))%nat -> (4 <= length (rd h s3))%nat ->
      g = GotInfo (Ok (num m (field (rd h s1) 0 4), num BE (field (rd h s3) 0 4), s10))
  | UseHeader v id => is_u32 v -> is_u32 id -> exists b, g = GotBytes (Ok b) /\ length b = 8%nat /\
      num BE (field b 0 4) = v /\ num m (field b 4 4) = id
  | UseRequest r data =>
      is_u32 (n_len r) -> is_u16 (n_type r) -> is_u16 (n_flags r) -> is_u32 (n_seq r) -> is_u32 (n_pid r) ->
      exists b, g = GotBytes (Ok b) /\ length b = (16 + length data)%nat /\
      num m (field b 0 4) = n_len r /\ num m (field b 4 2) = n_type r /\
      num m (field b 6 2) = n_flags r /\ num m (field b 8 4) = n_seq r /\
      num m (field b 12 4) = n_pid r /\ skipn 16 b = data
  end.
(** the use panics *)
Definition panics (g : got) : Prop := g = GotInfo Panic \/ g = GotBytes Panic.
(** the use needs the machine's byte order: it has a packet id or a message header *)
Definition needs_order (u : use) : Prop :=
  match u with
  | UseNew => False
  | UseInfo _ attr => exists t s, attr = Some t /\ amap_get t 1 = Some s
  | UseHeader _ _ => True
  | UseRequest _ _ => True
  end.
