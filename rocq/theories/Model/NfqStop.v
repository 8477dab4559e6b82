(** StopQueue called by another goroutine while ProcessPackets runs: both receive
    from the same socket, into the same buffer.  The two goroutines are cut at
    their system calls; between two cuts a goroutine is modelled as running
    undisturbed (so schedules that interleave inside the parsing are left out). *)
From Verif Require Export Model.NfQueue.

(** ** The loop body after its receive *)
(* nfqueue.go:447-470: Recv after the system call; [x] is what it returned *)
Definition Recv_rest (fuel : nat) (m : endian) (x : option Z * Z)
  : MQ (option nfgenmsg * option attrmap * option gerr) :=
  let! q := get_st in
  match x with
  | (Some en, _) => ret (None, None, Some (ERecv en))
  | (None, n) =>
    let! b := lift (resl_to (q_buf q) n) in
    let! h := get_heap in
    let! y := lift (NetlinkMessageToStruct m h b) in
    match y with
    | (None, _, _) => mpanic
    | (Some hdr, payload, err) =>
      let! stop :=
        (if n_type hdr =? NlMsgError then
           let! z := lift (NetlinkErrMessagetoStruct m h payload) in
           ret (if snd z =? 0 then None else Some (ENetlink (snd z)))
         else ret None) in
      match stop with
      | Some er => ret (None, None, Some er)
      | None =>
        match err with
        | Some _ => ret (None, None, Some EFormat)
        | None =>
          let! g := lift (NetlinkMessageToNfGenStruct h payload) in
          let '(nfgenmsg, payload) := g in
          let! z := lift (NetlinkMessageToNfAttrStruct fuel m h payload (q_attr q)) in
          let '(tbl, _, er) := z in
          let! q := get_st in
          let! _ := put_st (set_attr q tbl) in
          ret (Some nfgenmsg, Some tbl, er)
        end
      end
    end
  end.
(* nfqueue.go:482-501: the rest of the iteration *)
Definition handle_received (m : endian) (grow : nat -> nat -> nat)
  (x : option nfgenmsg * option attrmap * option gerr) : MQ unit :=
  let '(nfgenmsg, attr, err) := x in
  let! q := get_st in
  let! skip :=
    (match err with
     | None => ret false
     | Some er =>
         if q_ecb q then let! _ := do_call (KErrCb er (IfaceGen nfgenmsg)) in ret true
         else
           let! _ := do_call KPrint in
           match nfgenmsg with
           | Some _ => let! _ := do_call KPrint in ret false
           | None => ret false
           end
     end) in
  if skip then ret tt
  else
    let! h := get_heap in
    let! i := lift (GetPacketInfo m h attr) in
    let '(id, mark, packet) := i in
    let! q := get_st in
    let! _ := put_st (set_counts q (q_acc q) (q_drop q) (u64 (q_proc q + 1))) in
    match q_cb q with
    | None => mpanic
    | Some cb =>
        let! _ := do_call (KPacketCb id mark packet (rd h packet) (q_priv q)) in
        let! tr := get_tr in
        run_acts m grow (cb tr h (mkPkt packet mark id) (q_priv q))
    end.
(* nfqueue.go:447-501 *)
Definition process_rest (fuel : nat) (m : endian) (grow : nat -> nat -> nat) (x : option Z * Z) : MQ unit :=
  let! y := Recv_rest fuel m x in handle_received m grow y.
(* nfqueue.go:444-446: the receive of the loop *)
Definition loop_receive : MQ (option Z * Z) :=
  let! q := get_st in
  match q_handle q with
  | None => mpanic
  | Some k => sys_recvfrom (k_fd k) (q_buf q) MSG_WAITALL
  end.

(** ** StopQueue in three pieces *)
(* nfqueue.go:571-593, 167-169, 216-227: the request is sent *)
Definition stop_send (m : endian) : MQ (option gerr) :=
  let! q := get_st in
  let hdr := BuildNlMsgHeader NfqnlMsgConfig (Z.lor NlmFRequest NlmFAck) 0 in
  let '(nfgen, hdr) := BuildNfgenMsg AF_UNSPEC 0 (q_num q) hdr in
  let '(attr, hdr) := BuildNfAttrMsg NfqaCfgCmd hdr SizeofMsgConfigCommand in
  let! a := lift (NfqGenMsg_ToWireFormat nfgen) in
  let! b := lift (NfAttr_ToWireFormat m attr) in
  let! c := lift (ConfigCommand_ToWireFormat NfqnlCfgCmdUnbind 0 AF_UNSPEC) in
  let! q := get_st in
  match q_handle q with
  | Some k => nfq_send m k hdr ((a ++ b) ++ c)
  | None => ret (Some ENotOpen)
  end.
(* nfqueue.go:195-197: the receive of StopQueue *)
Definition stop_receive : MQ (option Z * Z) :=
  let! q := get_st in
  match q_handle q with
  | None => mpanic
  | Some k => sys_recvfrom (k_fd k) (k_buf k) 0
  end.
(* nfqueue.go:198-212, 563-567: the answer is looked at and the socket closed *)
Definition stop_rest (m : endian) (x : option Z * Z) : MQ (option gerr) :=
  let! q := get_st in
  match q_handle q with
  | None => mpanic
  | Some k =>
    let! e :=
      (match x with
       | (Some en, _) => ret (Some (ERecv en))
       | (None, n) =>
           let! b := lift (resl_to (k_buf k) (n + 1)) in
           let! h := get_heap in
           let! y := lift (NetlinkMessageToStruct m h b) in
           match y with
           | (None, _, _) => mpanic
           | (Some hdr, next, _) =>
               if n_type hdr =? NlMsgError then
                 let! z := lift (NetlinkErrMessagetoStruct m h next) in
                 if snd z =? 0 then ret None else ret (Some (ENetlink (snd z)))
               else ret None
           end
       end) in
    match e with
    | Some er => ret (Some er)
    | None => let! _ := do_call (KClose (k_fd k)) in ret None
    end
  end.

(** ** The two goroutines, the socket and the kernel *)
(* no code: where the loop's goroutine is (nfqueue.go:474-503) *)
Inductive loop_at := LCheck | LWait | LGot (x : option Z * Z) | LEnd | LCrash.
(* no code: where the goroutine calling StopQueue is (nfqueue.go:562-568) *)
Inductive stop_at := SIdle | SWait | SGot (x : option Z * Z) | SRet (r : option gerr) | SCrash.
(** [p_waiting]: datagrams on the socket, oldest first; [p_arrived]: all that ever
    arrived; [p_bound]: the kernel queue exists; [p_cancel]: the context is done;
    [p_closed]: the socket was closed *)
(* no code: the state of the process and of its socket *)
Record proc := mkProc {
  p_w : world nfq; p_waiting : list bytes; p_arrived : list bytes;
  p_bound : bool; p_cancel : bool; p_closed : bool;
  p_loop : loop_at; p_stop : stop_at }.
(* no code: what can happen next *)
Inductive label := Arrive (d : bytes) | Cancel | LoopCheck | LoopTake | LoopHandle | StopSend (accepted : bool) (reply : bytes) | StopTake | StopHandle.
(** a receive that yields [d] (or fails with [en]); other calls are answered by [e] *)
(* no code: recvfrom(2) on a socket whose oldest datagram is d *)
Definition gives (d : bytes) (e : env) : env := fun tr c =>
  match c with KRecvfrom _ _ _ => mkResp None 0 d false | _ => e tr c end.
(* no code: recvfrom(2) on a closed descriptor *)
Definition fails (en : Z) (e : env) : env := fun tr c =>
  match c with KRecvfrom _ _ _ => mkResp (Some en) 0 [] false | _ => e tr c end.
(* no code: select on ctx.Done() *)
Definition asked (done : bool) (e : env) : env := fun tr c =>
  match c with KCtxDone => mkResp None 0 [] done | _ => e tr c end.
(* no code: EBADF *)
Definition EBADF := 9.

(* nfqueue.go:473-504 and 562-568, interleaved *)
Inductive step (fuel : nat) (m : endian) (grow : nat -> nat -> nat) (e : env) : proc -> label -> proc -> Prop :=
| st_arrive d w q a c cl l s :                                             (* the kernel queues a packet *)
    step fuel m grow e (mkProc w q a true c cl l s) (Arrive d) (mkProc w (q ++ [d]) (a ++ [d]) true c cl l s)
| st_cancel w q a b c cl l s :
    step fuel m grow e (mkProc w q a b c cl l s) Cancel (mkProc w q a b true cl l s)
| st_check_done w q a b cl s w1 r w2 :                                     (* 476-478 *)
    do_call KCtxDone (asked true e) w = (Ok r, w1) -> NfqClose e w1 = (Ok tt, w2) ->
    step fuel m grow e (mkProc w q a b true cl LCheck s) LoopCheck (mkProc w2 q a b true true LEnd s)
| st_check_wait w q a b s w1 r :                                           (* 479-480 *)
    do_call KCtxDone (asked false e) w = (Ok r, w1) ->
    step fuel m grow e (mkProc w q a b false false LCheck s) LoopCheck (mkProc w1 q a b false false LWait s)
| st_check_closed w q a b s w1 r w2 x :                                    (* the descriptor is gone *)
    do_call KCtxDone (asked false e) w = (Ok r, w1) -> loop_receive (fails EBADF e) w1 = (Ok x, w2) ->
    step fuel m grow e (mkProc w q a b false true LCheck s) LoopCheck (mkProc w2 q a b false true (LGot x) s)
| st_loop_take w d q a b c cl s w1 x :
    loop_receive (gives d e) w = (Ok x, w1) ->
    step fuel m grow e (mkProc w (d :: q) a b c cl LWait s) LoopTake (mkProc w1 q a b c cl (LGot x) s)
| st_loop_handle w q a b c cl x s w1 r :
    process_rest fuel m grow x e w = (r, w1) ->
    step fuel m grow e (mkProc w q a b c cl (LGot x) s) LoopHandle
         (mkProc w1 q a b c cl (match r with Ok _ => LCheck | _ => LCrash end) s)
| st_send_fails ok reply w q a b c cl l w1 er :
    stop_send m e w = (Ok (Some er), w1) ->
    step fuel m grow e (mkProc w q a b c cl l SIdle) (StopSend ok reply) (mkProc w1 q a b c cl l (SRet (Some er)))
| st_send ok reply w q a b c l w1 :              (* the kernel answers; when it accepts, the queue is gone *)
    stop_send m e w = (Ok None, w1) ->
    step fuel m grow e (mkProc w q a b c false l SIdle) (StopSend ok reply)
         (mkProc w1 (q ++ [reply]) (a ++ [reply]) (if ok then false else b) c false l SWait)
| st_stop_take w d q a b c cl l w1 x :
    stop_receive (gives d e) w = (Ok x, w1) ->
    step fuel m grow e (mkProc w (d :: q) a b c cl l SWait) StopTake (mkProc w1 q a b c cl l (SGot x))
| st_stop_handle w q a b c cl l x w1 r :
    stop_rest m x e w = (r, w1) ->
    step fuel m grow e (mkProc w q a b c cl l (SGot x)) StopHandle
         (mkProc w1 q a b c (match r with Ok None => true | _ => cl end) l (match r with Ok r => SRet r | _ => SCrash end)).
(* no code: finitely many steps *)
Inductive steps (fuel : nat) (m : endian) (grow : nat -> nat -> nat) (e : env) : proc -> list label -> proc -> Prop :=
| steps_nil p : steps fuel m grow e p [] p
| steps_cons p l p1 ls p2 : step fuel m grow e p l p1 -> steps fuel m grow e p1 ls p2 -> steps fuel m grow e p (l :: ls) p2.
