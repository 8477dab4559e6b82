(** What the example programs are said to do. *)
From Verif Require Export Model.Examples Spec.Netlink Spec.Requests Spec.NfqSpec Spec.CtSpec.

(** the five-tuple a flow's forward direction names *)
Definition tuple_of (f : flow) : tuple5 :=
  mk5 (t_src (f_fwd f)) (t_dst (f_fwd f)) (t_proto (f_fwd f)) (t_sport (f_fwd f)) (t_dport (f_fwd f)).
(** its protocol and ports are what the kernel can list *)
Definition listed (f : flow) : Prop :=
  flow_ok f /\ is_u8 (t_proto (f_fwd f)) /\ is_u16 (t_sport (f_fwd f)) /\ is_u16 (t_dport (f_fwd f)).
(** no address translation: the replies run between the same two ends *)
Definition untranslated (f : flow) : Prop :=
  same_v4 (t_src (f_rev f)) (t_dst (f_fwd f)) /\ same_v4 (t_dst (f_rev f)) (t_src (f_fwd f)) /\
  t_proto (f_rev f) = t_proto (f_fwd f) /\
  t_sport (f_rev f) = t_dport (f_fwd f) /\ t_dport (f_rev f) = t_sport (f_fwd f).
(** the table has an IPv4 entry and can be read *)
Definition lists (lib : lib_list) (l : list flow) : Prop := lib 1 2 = (Some l, None).

(** ** UDP flows *)
(** one complete flow: both addresses resolved, one connection from the local to the
    server address, one datagram (whatever becomes of it), closed *)
Definition one_flow (server local : bytes) (evs : list (netcall * option Z)) : Prop :=
  exists s l c wr x, evs =
    [ (NResolve server, Some s); (NResolve local, Some l); (NDial l s, Some c);
      (NWrite c [72;101;108;108;111;32;87;111;114;108;100], wr); (NClose c, Some x) ].
(** a flow given up: the first thing that fails, other than sending, ends it *)
Definition broken_flow (server local : bytes) (evs : list (netcall * option Z)) : Prop :=
  evs = [(NResolve server, None)] \/
  (exists s, evs = [(NResolve server, Some s); (NResolve local, None)]) \/
  (exists s l, evs = [(NResolve server, Some s); (NResolve local, Some l); (NDial l s, None)]) \/
  (exists s l c wr, evs =
     [ (NResolve server, Some s); (NResolve local, Some l); (NDial l s, Some c);
       (NWrite c [72;101;108;108;111;32;87;111;114;108;100], wr); (NClose c, None) ]).
(** [flows_from k port]: flows from local ports port, port+1, ... (k of them), or fewer
    when one fails *)
Inductive flows_from (server : bytes) : nat -> Z -> bool -> list (netcall * option Z) -> Prop :=
| ff_done port : flows_from server 0 port true []
| ff_next k port ok ev evs :
    one_flow server ([49;50;55;46;48;46;48;46;49;58] ++ itoa port) ev -> flows_from server k (port + 1) ok evs ->
    flows_from server (S k) port ok (ev ++ evs)
| ff_fail k port ev :
    broken_flow server ([49;50;55;46;48;46;48;46;49;58] ++ itoa port) ev -> flows_from server (S k) port false ev.
(** connections opened, and those closed *)
Definition dialled (tr : list (netcall * option Z)) : list Z :=
  flat_map (fun ev => match ev with (NDial _ _, Some c) => [c] | _ => [] end) tr.
Definition closed_conns (tr : list (netcall * option Z)) : list Z :=
  flat_map (fun ev => match ev with (NClose c, _) => [c] | _ => [] end) tr.
