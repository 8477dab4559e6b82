(** The example programs shipped with the library, and conntrack's UDPFlowCreate.
    Printing (fmt.Println, log.Println) is not modelled; what is printed is the
    program's result here. *)
From Verif Require Export Model.CtTable Model.AddrText Model.NfQueue.

(* common/constants.go:18 *)
Definition ConntrackTable : Z := 1.

(** result[0] of a Go slice: panics when it is nil or empty *)
(* conntrack/examples/example/example.go:18, 31 *)
Definition first_flow (l : option (list flow)) : res flow :=
  match l with Some (f :: _) => Ok f | _ => Panic end.

(** The result is what is printed: the count, its error, and the flow displayed.
    [lib1] and [lib2] are the table as the two listings find it. *)
(* conntrack/examples/example/example.go:21-42 *)
Definition ct_example (parse6 : bytes -> bytes) (m : endian) (lib1 lib2 : lib_list)
  : MC (Z * option gerr * flow) :=
  let result := fst (ConntrackTableList lib1 ConntrackTable) in
  let! f0 := lift (first_flow result) in
  let! u := UpdateMarkForAvailableFlow_text parse6 m
              (match result with Some l => l | None => [] end)
              (ip_string (t_src (f_fwd f0))) (ip_string (t_dst (f_fwd f0)))
              (t_proto (f_fwd f0)) (t_sport (f_fwd f0)) (t_dport (f_fwd f0)) 42 in
  let finalResult := fst (ConntrackTableList lib2 ConntrackTable) in
  let! f1 := lift (first_flow finalResult) in
  ret (fst u, snd u, f1).

(** ** UDPFlowCreate *)
(** what it asks of package net; addresses are texts.  A connection is named by the
    number of the request that opened it. *)
(* conntrack/test_utils.go:9-33; no code of /repo: net.ResolveUDPAddr, net.DialUDP, UDPConn.Write, UDPConn.Close *)
Inductive netcall :=
| NResolve (addr : bytes)
| NDial (local server : Z)
| NWrite (conn : Z) (data : bytes)
| NClose (conn : Z).
(** the answers, depending on everything before: a handle or an error *)
(* no code of /repo: package net *)
Definition net_env : Type := list (netcall * option Z) -> netcall -> option Z.

(* test_utils.go:11-31: one request *)
Definition ncall (e : net_env) (c : netcall) (tr : list (netcall * option Z)) : option Z * list (netcall * option Z) :=
  (e tr c, tr ++ [(c, e tr c)]).
(* "Hello World", test_utils.go:26 *)
Definition hello_world : bytes := [72;101;108;108;111;32;87;111;114;108;100].
(* "127.0.0.1:", test_utils.go:16 *)
Definition local_prefix : bytes := [49;50;55;46;48;46;48;46;49;58].
(* fmt.Sprintf "%d" of an int: no code of /repo *)
Definition fmt_d (n : Z) : bytes := if n <? 0 then 45 :: itoa (- n) else itoa n.
(* test_utils.go:11-31: the body for one i; true is "go on", false an error is returned *)
Definition udp_flow (e : net_env) (srcPort i : Z) (dstIP : bytes) (dstPort : Z) (tr : list (netcall * option Z))
  : bool * list (netcall * option Z) :=
  let '(a, tr) := ncall e (NResolve (dstIP ++ [58] ++ fmt_d dstPort)) tr in
  match a with
  | None => (false, tr)
  | Some server =>
      let '(a, tr) := ncall e (NResolve (local_prefix ++ fmt_d (srcPort + i))) tr in
      match a with
      | None => (false, tr)
      | Some local =>
          let '(a, tr) := ncall e (NDial local server) tr in
          match a with
          | None => (false, tr)
          | Some conn =>
              let '(_, tr) := ncall e (NWrite conn hello_world) tr in
              let '(a, tr) := ncall e (NClose conn) tr in
              match a with None => (false, tr) | Some _ => (true, tr) end
          end
      end
  end.
(* test_utils.go:10: [k] turns to go, the next one has number i *)
Fixpoint udp_flows (k : nat) (e : net_env) (srcPort i : Z) (dstIP : bytes) (dstPort : Z) (tr : list (netcall * option Z))
  : bool * list (netcall * option Z) :=
  match k with
  | O => (true, tr)
  | S k' =>
      let '(ok, tr) := udp_flow e srcPort i dstIP dstPort tr in
      if ok then udp_flows k' e srcPort (i + 1) dstIP dstPort tr else (false, tr)
  end.
(** true: nil is returned *)
(* test_utils.go:9-33; a negative number of flows means none *)
Definition UDPFlowCreate (e : net_env) (flows srcPort : Z) (dstIP : bytes) (dstPort : Z) (tr : list (netcall * option Z))
  : bool * list (netcall * option Z) :=
  udp_flows (Z.to_nat flows) e srcPort 0 dstIP dstPort tr.

(** "10.0.2.15" and "10.0.2.2" *)
(* conntrack/examples/example2/main.go:21 *)
Definition text_10_0_2_15 : bytes := [49;48;46;48;46;50;46;49;53].
(* conntrack/examples/example2/main.go:21 *)
Definition text_10_0_2_2 : bytes := [49;48;46;48;46;50;46;50].
(* conntrack/examples/example2/main.go:21-24; the flows created at line 17 only matter to
   the kernel's table, which the update does not read *)
Definition ct_example2 (parse6 : bytes -> bytes) (m : endian) : MC (option gerr) :=
  UpdateMark_text parse6 m text_10_0_2_15 text_10_0_2_2 6 22 57766 24.

(** ** nfqueue/examples/example.go *)
(* example.go:16-26: passNetVerdict and passVerdict are the same *)
Definition passVerdict : callback :=
  fun tr h pkt pd => [CbVerdict2 1 11 (Z.of_nat (s_len (p_buf pkt))) (p_id pkt) (p_buf pkt)].
(* example.go:37-42: one of the four calls (queues 10 to 13); the error is dropped *)
Definition nfq_example (m : endian) (i : Z) : MQ (option gerr) :=
  CreateAndStartNfQueue m (u16 i) 2000 65535 (Some passVerdict) true 0.
