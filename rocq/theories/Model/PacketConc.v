(** Several goroutines looking at packets: VerifyTCPChecksum (helpers.go:39-44,
    119-160) and GetTCPBytes (packet.go:293-300) as sequences of one-byte
    accesses to shared memory, interleaved arbitrarily.  The fields of the Packet
    structures are only read by these calls and are not part of the memory.
    Calls that would panic (packet shorter than its headers) are outside this model. *)
From Verif Require Export Model.Packet.

(** shared memory: array, index -> byte *)
(* no code: shared memory and interleaving *)
Definition pmem : Type := nat -> nat -> Z.
(* no code: shared memory and interleaving *)
Definition pset (m : pmem) (a i : nat) (b : Z) : pmem :=
  fun a' i' => if ((a' =? a) && (i' =? i))%nat then b else m a' i'.
(* no code: shared memory and interleaving *)
Definition pmem_of (h : heap) : pmem := fun a i => nth i (arr h a) 0.

(* no code: shared memory and interleaving *)
Inductive pinstr :=
| PLoad (a i : nat)             (* read a byte; kept by the goroutine *)
| PZero (a i : nat)             (* buffer[i] = 0 *)
| PRestore (a i k : nat)        (* buffer[i] = the k-th byte read by this call *)
| PReturn.                      (* the call returns what it computed from the bytes read *)

(** a goroutine: results of finished calls, bytes read by the current call *)
(* no code: shared memory and interleaving *)
Record pthread := mkPT { pt_done : list bytes; pt_regs : bytes }.
(* no code: shared memory and interleaving *)
Definition pstart : pthread := mkPT [] [].

(* no code: shared memory and interleaving *)
Definition pexec (x : pinstr) (t : pthread) (m : pmem) : pthread * pmem :=
  match x with
  | PLoad a i => (mkPT (pt_done t) (pt_regs t ++ [m a i]), m)
  | PZero a i => (t, pset m a i 0)
  | PRestore a i k => (t, pset m a i (nth k (pt_regs t) 0))
  | PReturn => (mkPT (pt_done t ++ [pt_regs t]) [], m)
  end.

(** ** The code of the calls *)
(* no code: shared memory and interleaving *)
Definition load_slice (s : slice) : list pinstr := map (fun k => PLoad (s_arr s) (s_off s + k)) (seq 0 (s_len s)).
(** [n] bytes of [s] from [o] on *)
(* no code: shared memory and interleaving *)
Definition load_part (s : slice) (o n : nat) : list pinstr := map (fun k => PLoad (s_arr s) (s_off s + o + k)) (seq 0 n).
(* helpers.go:132-138 *)
Definition addr_len (v : ipver) : nat := match v with V4 => 4 | V6 => 16 end.
(* helpers.go:132-138 *)
Definition src_pos (v : ipver) : nat := match v with V4 => 12 | V6 => 8 end.
(* helpers.go:132-138 *)
Definition dst_pos (v : ipver) : nat := match v with V4 => 16 | V6 => 24 end.
(* helpers.go:122 *)
Definition hdr_len (p : packet) : nat := Z.to_nat (ipHeaderLen p).
(* helpers.go:119-160 *)
Definition verify_code (p : packet) : list pinstr :=
  let s := Buffer p in
  let cs := (s_off s + hdr_len p + 16)%nat in
  [PLoad (s_arr s) cs; PLoad (s_arr s) (cs + 1);                           (* 125-126 *)
   PZero (s_arr s) cs; PZero (s_arr s) (cs + 1)] ++                        (* 129-130 *)
  load_part s (src_pos (version p)) (addr_len (version p)) ++              (* 132-138 *)
  load_part s (dst_pos (version p)) (addr_len (version p)) ++
  load_part s (hdr_len p) (s_len s - hdr_len p) ++                         (* 149 *)
  load_slice (tcpOptions p) ++ load_slice (tcpData p) ++                   (* 150-151 *)
  [PRestore (s_arr s) cs 0; PRestore (s_arr s) (cs + 1) 1; PReturn].       (* 156-157 *)
(* packet.go:293-300 *)
Definition bytes_code (p : packet) : list pinstr :=
  load_slice (Buffer p) ++ load_slice (tcpOptions p) ++ load_slice (tcpData p) ++ [PReturn].
(** what VerifyTCPChecksum answers when the call has read [l] (the two checksum
    bytes first) *)
(* helpers.go:39-44 and 119-160 *)
Definition verify_answer (p : packet) (l : bytes) : res bool :=
  let n := addr_len (version p) in
  let seg := (s_len (Buffer p) - hdr_len p)%nat in
  let l := skipn 2 l in
  let c := partialChecksum (partialChecksum 0 (firstn n l)) (firstn n (skipn n l)) in
  let l := skipn (2 * n) l in
  let c := partialChecksum c [0; 6] in
  let c := partialChecksum c (put16 BE (u16 (Z.of_nat seg + Z.of_nat (s_len (tcpData p)) + Z.of_nat (s_len (tcpOptions p))))) in
  let c := partialChecksum c (firstn seg l) in
  let c := partialChecksum c (firstn (s_len (tcpOptions p)) (skipn seg l)) in
  let c := partialChecksum c (skipn (seg + s_len (tcpOptions p)) l) in
  let* r := finalizeChecksum c in
  Ok (r =? tcpChecksum p).

(** ** Calls and goroutines *)
(* no code: shared memory and interleaving *)
Inductive pcall := CVerify (p : packet) | CBytes (p : packet).
(* no code: shared memory and interleaving *)
Definition pcode (c : pcall) : list pinstr := match c with CVerify p => verify_code p | CBytes p => bytes_code p end.
(* no code: shared memory and interleaving *)
Definition pcode_all (l : list pcall) : list pinstr := flat_map pcode l.
(* no code: shared memory and interleaving *)
Record pconf := mkPC { pc_threads : list (pthread * list pinstr); pc_mem : pmem }.
(* no code: shared memory and interleaving *)
Fixpoint put_nth {A} (i : nat) (x : A) (l : list A) : list A :=
  match l, i with
  | [], _ => []
  | _ :: l', O => x :: l'
  | y :: l', S i' => y :: put_nth i' x l'
  end.
(** goroutine [i] makes a step *)
(* no code: shared memory and interleaving *)
Inductive pstep : pconf -> pconf -> Prop :=
| pstep_thread i t x code c :
    nth_error (pc_threads c) i = Some (t, x :: code) ->
    pstep c (mkPC (put_nth i (fst (pexec x t (pc_mem c)), code) (pc_threads c)) (snd (pexec x t (pc_mem c)))).
(* no code: shared memory and interleaving *)
Inductive psteps : pconf -> pconf -> Prop :=
| psteps_refl c : psteps c c
| psteps_next c c' c'' : psteps c c' -> pstep c' c'' -> psteps c c''.
(* no code: shared memory and interleaving *)
Definition pinit (threads : list (list pcall)) (h : heap) : pconf :=
  mkPC (map (fun cs => (pstart, pcode_all cs)) threads) (pmem_of h).
(** run a given schedule (steps of finished goroutines are skipped) *)
(* no code: shared memory and interleaving *)
Fixpoint prun (sched : list nat) (c : pconf) : pconf :=
  match sched with
  | [] => c
  | i :: sched' =>
      match nth_error (pc_threads c) i with
      | Some (t, x :: code) =>
          prun sched' (mkPC (put_nth i (fst (pexec x t (pc_mem c)), code) (pc_threads c)) (snd (pexec x t (pc_mem c))))
      | _ => prun sched' c
      end
  end.
