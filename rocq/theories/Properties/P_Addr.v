(** Address strings of the conntrack update calls: C35 and C71 exactly. *)
From Verif Require Import Proof.AddrExact Spec.Samples Properties.P_Config Properties.P_Conntrack.

(** ** C35 *)
(** Which strings without a colon name an address: exactly four decimal numbers up
    to 255 separated by dots; every other string gives nil. *)
Theorem C35_ipv4_text_exact : forall parse6 s, ~ In 58 s ->
  (forall four, ParseIP parse6 s = mapped four <-> dotted_quad s four) /\
  (ParseIP parse6 s = [] <-> ~ exists four, dotted_quad s four).
Proof. exact parse_exact. Qed.
Print Assumptions C35_ipv4_text_exact.
(** The three update calls panic before any system call exactly when one of the two
    strings names no address (and, where a flow list is searched, it is not empty);
    whatever the kernel does. [parse6] is net.ParseIP's answer for texts with a
    colon: nil or sixteen bytes. *)
Theorem C35_panic_exact : forall parse6 m s d proto sport dport x e w flows,
  (forall t, In 58 t -> parse6 t = [] \/ is_bytes (parse6 t) /\ length (parse6 t) = 16%nat) ->
  is_u8 proto -> is_u16 sport -> is_u16 dport -> is_u32 x -> Forall flow_ok flows ->
  let malformed := ParseIP parse6 s = [] \/ ParseIP parse6 d = [] in
  (UpdateMark_text parse6 m s d proto sport dport x e w = (Panic, w) <-> malformed) /\
  (UpdateMarkForAvailableFlow_text parse6 m flows s d proto sport dport x e w = (Panic, w) <-> flows <> [] /\ malformed) /\
  (UpdateLabel_text parse6 m flows s d proto sport dport x e w = (Panic, w) <-> flows <> [] /\ malformed).
Proof.
  intros parse6 m s d proto sport dport x e w flows P6 U1 U2 U3 U4 F malformed.
  split; [apply mark_text_exact; auto|]. split; [apply marks_text_exact; auto|apply labels_text_exact; auto].
Qed.
Print Assumptions C35_panic_exact.
(** "10.0.0.256" and "10.0.0" name no address, "010.0.0.1" does (Go 1.13) *)
Example C35_exact_hypotheses_met :
  let bad := [49;48;46;48;46;48;46;50;53;54] in let short := [49;48;46;48;46;48] in
  let ok := [48;49;48;46;48;46;48;46;49] in
  ~ In 58 bad /\ ParseIP (fun _ => []) bad = [] /\ ParseIP (fun _ => []) short = [] /\
  dotted_quad ok [10; 0; 0; 1] /\ ParseIP (fun _ => []) ok = mapped [10; 0; 0; 1] /\
  (forall t, In 58 t -> (fun _ : bytes => @nil Z) t = [] \/ is_bytes [] /\ length (@nil Z) = 16%nat) /\
  is_u8 17 /\ is_u16 1000 /\ is_u32 9 /\ Forall flow_ok [sample_flow; other_flow; sample_flow] /\
  UpdateMarkForAvailableFlow_text (fun _ => []) LE [sample_flow] ok short 17 1000 53 9 kernel_acks (mkW tt [] []) = (Panic, mkW tt [] []) /\
  UpdateMarkForAvailableFlow_text (fun _ => []) LE [] ok short 17 1000 53 9 kernel_acks (mkW tt [] []) = (Ok (0, None), mkW tt [] []).
Proof.
  intros bad short ok. split; [cbn; lia|]. split; [reflexivity|]. split; [reflexivity|].
  split.
  { exists [48;49;48], [48], [48], [49]. split; [repeat apply Forall_cons; try apply Forall_nil; (split; [discriminate|repeat (apply Forall_cons; [lia|]); apply Forall_nil])|].
    split; [reflexivity|]. split; [reflexivity|]. repeat (apply Forall_cons; [lia|]); apply Forall_nil. }
  split; [reflexivity|]. split; [auto|]. split; [red; lia|]. split; [red; lia|]. split; [red; lia|].
  split; [exact sample_flows_ok|]. split; vm_compute; reflexivity.
Qed.

(** ** C71 *)
(** the update for two dotted texts is for exactly the addresses they spell *)
Theorem C71_update_by_any_text_partial : forall parse6 m s d t mark hi e w,
  dotted_quad s (f_src t) -> dotted_quad d (f_dst t) -> tuple5_ok t -> is_u32 mark -> replies_within 20 hi e -> sockets_open e ->
  exists res w' new b,
    UpdateMark_text parse6 m s d (f_proto t) (f_sport t) (f_dport t) mark e w = (Ok res, w') /\
    w_tr w' = w_tr w ++ new /\ ct_update m t [mark_attr mark] b /\ one_update m b new res.
Proof. exact any_text_update. Qed.
Print Assumptions C71_update_by_any_text_partial.
Example C71_any_text_hypotheses_met :
  dotted_quad [49;48;46;48;46;48;46;49] [10; 0; 0; 1] /\ dotted_quad [49;48;46;48;46;48;46;50] [10; 0; 0; 2] /\
  tuple5_ok (mk5 [10;0;0;1] [10;0;0;2] 17 1000 53) /\ is_u32 9 /\ replies_within 20 37 kernel_acks /\ sockets_open kernel_acks.
Proof.
  assert (Q : forall x, 48 <= x <= 57 -> dotted_quad [49;48;46;48;46;48;46;x] [10; 0; 0; x - 48]).
  { intros x X. exists [49;48], [48], [48], [x].
    split; [repeat apply Forall_cons; try apply Forall_nil; (split; [discriminate|repeat (apply Forall_cons; [lia|]); apply Forall_nil])|].
    split; [reflexivity|]. split; [|repeat (apply Forall_cons; [lia|]); apply Forall_nil].
    change (decimal [x]) with (10 * 0 + (x - 48)). reflexivity. }
  split; [apply (Q 49); lia|]. split; [apply (Q 50); lia|].
  assert (V : forall x, is_byte x -> v4_addr [10; 0; 0; x]).
  { intros x X. exists [10;0;0;x]. split; [repeat (apply Forall_cons; [first [exact X|red; lia]|]); apply Forall_nil|auto]. }
  split; [split; [apply V; red; lia|split; [apply V; red; lia|split; [red; cbn; lia|split; red; cbn; lia]]]|].
  split; [red; lia|]. split; [apply kernel_acks_within; lia|apply kernel_acks_open].
Qed.
