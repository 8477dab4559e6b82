(** A program with several parts running at the same time, each with sockets of its own:
    queues, log listeners and conntrack updates (C100). *)
From Verif Require Export Spec.CtHandle Spec.Lifecycle Spec.Requests Model.NfQueue Model.NfLog.

(** What one part does: start a queue and run its loop, listen for logs and run the reader,
    or make some conntrack updates. *)
Inductive part :=
| PQueue (queueID maxPackets packetSize : Z) (cb : callback) (ecb : bool) (priv : Z)
         (n fuel : nat) (grow : nat -> nat -> nat)
| PLogs (groups : list Z) (packetSize : Z) (ecb : bool) (n fuel : nat)
| PConntrack (cs : list ct_call).
(** its interactions when the kernel answers it as [e] does; nothing follows a failed start *)
Definition part_does (m : endian) (e : env) (p : part) (evs : list event) : Prop :=
  match p with
  | PQueue i mx sz cb ecb pd n fuel grow =>
      exists w0 : world nfq, w_tr w0 = [] /\
      let r := CreateAndStartNfQueue m i mx sz (Some cb) ecb pd e w0 in
      evs = match fst r with
            | Ok None => w_tr (snd (ProcessPackets n fuel m grow e (snd r)))
            | _ => w_tr (snd r)
            end
  | PLogs gs sz ecb n fuel =>
      exists w0 : world nflog, w_tr w0 = [] /\
      let r := BindAndListenForLogs m gs sz true ecb e w0 in
      evs = match fst r with
            | Ok None => w_tr (snd (ReadLogs n fuel e (snd r)))
            | _ => w_tr (snd r)
            end
  | PConntrack cs => exists w0 : world unit, w_tr w0 = [] /\ evs = w_tr (ct_uses m cs e w0)
  end.
(** arguments with values of their Go types, callbacks that do not stop the queue *)
Definition part_ok (p : part) : Prop :=
  match p with
  | PQueue i mx sz cb _ _ _ _ _ => is_u16 i /\ is_u32 mx /\ is_u32 sz /\ never_stops cb
  | PLogs gs sz _ _ fuel => Forall is_u16 gs /\ is_u32 sz /\ (Z.to_nat 65536 < fuel)%nat
  | PConntrack _ => True
  end.
(** what the kernel sends is bytes; a reply to a configuration request has at least 20 *)
Definition answers_ok (e : env) : Prop :=
  replies_within 20 76800 e /\ forall tr fd n fl, is_bytes (r_data (e tr (KRecvfrom fd n fl))).

(** ** Schedules *)
(** the interactions of the whole program, in order, each with the part it belongs to *)
Definition schedule := list (nat * event).
Definition of_part (i : nat) (g : schedule) : list event :=
  map snd (filter (fun x => Nat.eqb (fst x) i) g).
(** a schedule of the program: each part has got some way through what it does, answered in
    some way; the parts are interleaved anyhow *)
Definition runs_of (m : endian) (ps : list part) (g : schedule) : Prop :=
  (forall i ev, In (i, ev) g -> (i < length ps)%nat) /\
  forall i p, nth_error ps i = Some p ->
    exists e evs later, answers_ok e /\ part_does m e p evs /\ evs = of_part i g ++ later.
(** the kernel never hands out a descriptor that is open in the program *)
Definition fresh_descriptors (g : schedule) : Prop :=
  forall before i r after, g = before ++ (i, (KSocket 16 3 12, r)) :: after -> r_err r = None ->
    ~ open_at_end (map snd before) (r_val r).
(** at the end of [g] part [i] holds [fd]: it opened it, and since then all that was done
    with this number was done by part [i], was not closing it, and no other socket got it *)
Definition held_by (i : nat) (fd : Z) (g : schedule) : Prop :=
  exists g1 r g2, g = g1 ++ (i, (KSocket 16 3 12, r)) :: g2 /\ r_err r = None /\ r_val r = fd /\
    forall j c r', In (j, (c, r')) g2 ->
      (descriptor c = Some fd -> j = i /\ c <> KClose fd) /\
      ~ (c = KSocket 16 3 12 /\ r_err r' = None /\ r_val r' = fd).
