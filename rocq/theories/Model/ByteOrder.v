(** nfqueue's package variable [native]: nil until a queue is created.  The rest of
    the model takes the machine's order where the code looks at the variable; this
    file has the variable itself. *)
From Verif Require Export Model.NfQueue.

(* nfqueue.go:598-608.  The argument and the result are the variable before and
   after.  Also the only statement of NewNFQueue (72-88) that touches it. *)
Definition nfqueueinit (m : endian) (native : option endian) : option endian :=
  match native with
  | Some _ => native
  | None => Some (if nth 0 (put32 m 16909060) 0 =? 1 then BE else LE)
  end.
(* no code: calling a method of the interface value; nil panics *)
Definition order_of (native : option endian) : res endian :=
  match native with Some e => Ok e | None => Panic end.
(* helpers.go:14-28 *)
Definition packet_info_with (native : option endian) (h : heap) (attr : option attrmap) : res (Z * Z * slice) :=
  let t := match attr with Some t => t | None => [] end in
  let* id := match amap_get t NfqaPacketHdr with
             | Some s => let* e := order_of native in get32 e (rd h s)
             | None => Ok 0 end in
  let* mark := match amap_get t NfqaMark with
               | Some s => get32 BE (rd h s)
               | None => Ok 0 end in
  match amap_get t NfqaPayload with
  | Some s => Ok (id, mark, s)
  | None => Ok (id, mark, snil)
  end.
(* helpers.go:31-36 *)
Definition verdict_header_with (native : option endian) (verdict id : Z) : res bytes :=
  let* b := store_all (gmake SizeofNfqMsgVerdictHdr) [ (0, put32 BE verdict) ] in
  let* e := order_of native in
  store_all b [ (4, put32 e id) ].
(* nfqueue.go:216-226: the bytes of a request *)
Definition request_with (native : option endian) (hdr : nlmsghdr) (data : bytes) : res bytes :=
  let* e := order_of native in
  let* buf := store_all (gmake (SizeofNlMsghdr + zlen data))
    [ (0, put32 e (n_len hdr)); (4, put16 e (n_type hdr)); (6, put16 e (n_flags hdr));
      (8, put32 e (n_seq hdr)); (12, put32 e (n_pid hdr)) ] in
  gcopy buf 16 data.

(** what a program can ask of the package, and what it gets *)
Inductive use :=
| UseNew                                           (* NewNFQueue *)
| UseInfo (h : heap) (attr : option attrmap)       (* GetPacketInfo *)
| UseHeader (verdict id : Z)                       (* NfqMsgVerdictHdr.ToWireFormat *)
| UseRequest (hdr : nlmsghdr) (data : bytes).      (* a request on a queue's socket *)
Inductive got :=
| GotNew
| GotInfo (r : res (Z * Z * slice))
| GotBytes (r : res bytes).
(* no code: one use of the package *)
Definition use_step (m : endian) (native : option endian) (u : use) : option endian * got :=
  match u with
  | UseNew => (nfqueueinit m native, GotNew)
  | UseInfo h attr => (native, GotInfo (packet_info_with native h attr))
  | UseHeader v id => (native, GotBytes (verdict_header_with native v id))
  | UseRequest hdr data => (native, GotBytes (request_with native hdr data))
  end.
(* no code: a program's uses one after the other *)
Fixpoint uses (m : endian) (native : option endian) (l : list use) : list got :=
  match l with
  | [] => []
  | u :: l => let '(native', g) := use_step m native u in g :: uses m native' l
  end.

(** Goroutines in nfqueueinit at the same time: each looks at the variable
    (599) and, if it was nil, writes it (603-607). *)
Inductive init_pc := Looking | Writing | Finished.
(* nfqueue.go:598-608, one step of one goroutine *)
Definition init_step (m : endian) (native : option endian) (pc : init_pc) : option endian * init_pc :=
  match pc with
  | Looking => match native with Some _ => (native, Finished) | None => (native, Writing) end
  | Writing => (Some (if nth 0 (put32 m 16909060) 0 =? 1 then BE else LE), Finished)
  | Finished => (native, Finished)
  end.
(* no code: element [i] of a list replaced *)
Fixpoint set_pc (l : list init_pc) (i : nat) (x : init_pc) : list init_pc :=
  match l, i with
  | [], _ => []
  | _ :: l, O => x :: l
  | y :: l, S i => y :: set_pc l i x
  end.
(* no code: the goroutines run in the order [sched] *)
Fixpoint init_run (m : endian) (s : option endian * list init_pc) (sched : list nat) : option endian * list init_pc :=
  match sched with
  | [] => s
  | i :: sched =>
      match nth_error (snd s) i with
      | None => init_run m s sched
      | Some pc => let '(n', pc') := init_step m (fst s) pc in init_run m (n', set_pc (snd s) i pc') sched
      end
  end.
