(** Concurrent verdicts: SetVerdict and SetVerdict2 (nfqueue/nfqueue.go:342-439)
    as sequences of atomic accesses to shared memory, interleaved arbitrarily.
    A memory access touches one byte; the system call reads the iovecs byte by
    byte before the datagram is handed over.  Values computed from arguments
    only and buffers no other goroutine can reach are thread-private.  Calls
    that would panic (no socket, empty packet) are outside this model. *)
From Verif Require Export Model.NfQueue.

(** shared memory: array, index -> byte *)
(* no code: shared memory and interleaving *)
Definition mem : Type := nat -> nat -> Z.
(* no code: shared memory and interleaving *)
Definition mset (mm : mem) (a i : nat) (b : Z) : mem :=
  fun a' i' => if ((a' =? a) && (i' =? i))%nat then b else mm a' i'.
(* no code: shared memory and interleaving *)
Definition mem_of (h : heap) : mem := fun a i => nth i (arr h a) 0.

(* no code: shared memory and interleaving *)
Inductive instr :=
| ICount (accepted : bool)        (* atomic.AddUint64, 343-347 *)
| IStore (a i : nat) (b : Z)      (* store into shared memory *)
| ICopy (a i : nat)               (* load into a private copy (append that grows) *)
| ILoad (a i : nat)               (* the system call reads a byte of an iovec *)
| IPut (l : bytes)                (* the system call reads private bytes *)
| IUse                            (* the system call reads the private copy *)
| ISend (fd : Z).                 (* the datagram is handed over *)

(** private state of a goroutine: packet copy, bytes gathered by the system call *)
(* no code: shared memory and interleaving *)
Record tstate := mkT { t_copy : bytes; t_buf : bytes }.
(* no code: shared memory and interleaving *)
Definition idle : tstate := mkT [] [].

(** ** The code of the two calls *)
(* no code: shared memory and interleaving *)
Definition store_code (a i : nat) (v : bytes) : list instr :=
  map (fun k => IStore a (i + k) (nth k v 0)) (seq 0 (length v)).
(* no code: shared memory and interleaving *)
Definition load_code (a i n : nat) : list instr := map (fun k => ILoad a (i + k)) (seq 0 n).
(* no code: shared memory and interleaving *)
Definition copy_code (a i n : nat) : list instr := map (fun k => ICopy a (i + k)) (seq 0 n).

(* append(packet, pad...), 377-380 and 430-432: in place or into a new array *)
(* nfqueue.go:376-379 and 430-432 *)
Definition fits (p : slice) (pad : bytes) : bool := (s_len p + length pad <=? s_cap p)%nat.
(* nfqueue.go:376-379 and 430-432 *)
Definition pad_code (p : slice) (pad : bytes) : list instr :=
  if fits p pad then store_code (s_arr p) (s_off p + s_len p) pad
  else copy_code (s_arr p) (s_off p) (s_len p).
(* iovec[2], 381-382 and 434-435: [n] bytes from the (appended) packet *)
(* nfqueue.go:380-381 and 434-435 *)
Definition read_code (p : slice) (pad : bytes) (n : nat) : list instr :=
  if fits p pad then load_code (s_arr p) (s_off p) n
  else [IUse; IPut (firstn (n - s_len p) pad)].

(** header of SetVerdict, 348-372: bytes of iovec[0] and iovec[1] *)
(* nfqueue.go:348-375 *)
Definition sv1_hdr (m : endian) (num verdict packetLen packetID : Z) : res (bytes * bytes) :=
  let hdr := BuildNlMsgHeader NfqnlMsgVerdict NlmFRequest 0 in
  let '(nfgen, hdr) := BuildNfgenMsg AF_UNSPEC 0 num hdr in
  let '(verdicthdr, hdr) := BuildNfAttrMsg NfqaVerdictHdr hdr SizeofNfqMsgVerdictHdr in
  let iovecLen := n_len hdr in
  let payloadnfattr := mkAttr (NfaLength (u16 packetLen)) NfqaPayload in
  let hdr := set_n_len hdr (u32 (n_len hdr + a_len payloadnfattr)) in
  let* payloadnfattrbuf := NfAttr_ToWireFormat m payloadnfattr in
  let* hb := SerializeNlMsgHdr m hdr in
  let* nb := NfqGenMsg_ToWireFormat nfgen in
  let* vb := NfAttr_ToWireFormat m verdicthdr in
  let* cb := VerdictHdr_ToWireFormat m verdict packetID in
  Ok (firstn (Z.to_nat iovecLen) (((hb ++ nb) ++ vb) ++ cb), payloadnfattrbuf).

(** one call: SetVerdict, or SetVerdict2 with its mark *)
(* no code: arguments of SetVerdict/SetVerdict2 (nfqueue.go:342, 386) *)
Record vcall := mkV { v_mark : option Z; v_verdict : Z; v_id : Z; v_pkt : slice }.

(** the handle: queue number, descriptor, the shared header buffer *)
(* no code: the fields of the handle the two calls use *)
Record vhandle := mkH { h_num : Z; h_fd : Z; h_hdr : slice }.

(* nfqueue.go:342-439 *)
Definition call_code (m : endian) (q : vhandle) (c : vcall) : list instr :=
  let p := v_pkt c in
  let pl := Z.of_nat (s_len p) in
  let pad := verdict_pad pl in
  match v_mark c with
  | None =>                                                        (* 342-383 *)
      match sv1_hdr m (h_num q) (v_verdict c) pl (v_id c) with
      | Ok (hdr, attr) =>
          [ICount (v_verdict c =? 1)] ++ pad_code p pad ++
          [IPut hdr; IPut attr] ++
          read_code p pad (Z.to_nat (NfaAlign (u16 pl))) ++ [ISend (h_fd q)]
      | _ => []
      end
  | Some mark =>                                                   (* 386-439 *)
      let '(ws, iovecLen, payloadnfattr) :=
        sv2_hdr m (h_num q) (v_verdict c) mark pl (v_id c) in
      match NfAttr_ToWireFormat m payloadnfattr with
      | Ok attr =>
          flat_map (fun ov => store_code (s_arr (h_hdr q)) (s_off (h_hdr q) + Z.to_nat (fst ov)) (snd ov)) ws
          ++ pad_code p pad ++
          load_code (s_arr (h_hdr q)) (s_off (h_hdr q)) (Z.to_nat iovecLen) ++ [IPut attr] ++
          read_code p pad (s_len p + length pad) ++ [ISend (h_fd q)]
      | _ => []
      end
  end.
(** a goroutine that makes the calls [cs] one after the other *)
(* no code: calls one after the other *)
Definition thread_code (m : endian) (q : vhandle) (cs : list vcall) : list instr :=
  flat_map (call_code m q) cs.

(** ** Interleaving *)
(** one instruction: new private state, new memory, datagram sent if any *)
(* no code: shared memory and interleaving *)
Definition exec (x : instr) (t : tstate) (mm : mem) : tstate * mem * list (Z * bytes) :=
  match x with
  | ICount _ => (t, mm, [])
  | IStore a i b => (t, mset mm a i b, [])
  | ICopy a i => (mkT (t_copy t ++ [mm a i]) (t_buf t), mm, [])
  | ILoad a i => (mkT (t_copy t) (t_buf t ++ [mm a i]), mm, [])
  | IPut l => (mkT (t_copy t) (t_buf t ++ l), mm, [])
  | IUse => (mkT (t_copy t) (t_buf t ++ t_copy t), mm, [])
  | ISend fd => (idle, mm, [(fd, t_buf t)])
  end.
(* the counters of nfqueue.go:343-347 *)
Definition counts (x : instr) (a d : Z) : Z * Z :=
  match x with
  | ICount true => (u64 (a + 1), d)
  | ICount false => (a, u64 (d + 1))
  | _ => (a, d)
  end.

(** all goroutines (private state, remaining code), memory, the two counters and
    the datagrams handed over, each with the goroutine that sent it *)
(* no code: shared memory and interleaving *)
Record conf := mkC {
  c_threads : list (tstate * list instr);
  c_mem : mem;
  c_acc : Z;
  c_drop : Z;
  c_log : list (nat * (Z * bytes)) }.
(* no code: shared memory and interleaving *)
Fixpoint set_nth {A} (i : nat) (x : A) (l : list A) : list A :=
  match l, i with
  | [], _ => []
  | _ :: l', O => x :: l'
  | y :: l', S i' => y :: set_nth i' x l'
  end.
(** goroutine [i] makes a step *)
(* no code: shared memory and interleaving *)
Definition step_thread (i : nat) (t : tstate) (x : instr) (code : list instr) (c : conf) : conf :=
  let '(t', mm, out) := exec x t (c_mem c) in
  let '(a, d) := counts x (c_acc c) (c_drop c) in
  mkC (set_nth i (t', code) (c_threads c)) mm a d (c_log c ++ map (pair i) out).
(* no code: shared memory and interleaving *)
Inductive cstep : conf -> conf -> Prop :=
| cstep_thread i t x code c :
    nth_error (c_threads c) i = Some (t, x :: code) -> cstep c (step_thread i t x code c).
(* no code: shared memory and interleaving *)
Inductive csteps : conf -> conf -> Prop :=
| csteps_refl c : csteps c c
| csteps_next c c' c'' : csteps c c' -> cstep c' c'' -> csteps c c''.
(* no code: shared memory and interleaving *)
Definition cinit (m : endian) (q : vhandle) (threads : list (list vcall)) (h : heap) (a d : Z) : conf :=
  mkC (map (fun cs => (idle, thread_code m q cs)) threads) (mem_of h) a d [].
(** run a given schedule (steps of finished goroutines are skipped) *)
(* no code: shared memory and interleaving *)
Fixpoint crun (sched : list nat) (c : conf) : conf :=
  match sched with
  | [] => c
  | i :: sched' =>
      match nth_error (c_threads c) i with
      | Some (t, x :: code) => crun sched' (step_thread i t x code c)
      | _ => crun sched' c
      end
  end.
