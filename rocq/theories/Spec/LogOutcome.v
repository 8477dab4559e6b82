(** Exactly what the log reader does with any bytes at all (C27). *)
From Verif Require Export Model.NfLog Spec.Netlink Spec.Inet Spec.PacketSpec Spec.LogSpec.

(** ** One attribute *)
Definition la_len (a : bytes) : Z := num LE (field a 0 2).
Definition la_type (a : bytes) : Z := num LE (field a 2 2).
(** octets of data the reader takes for a declared length [n] (header included):
    rounded up to a multiple of 4; a length of 0 counts as 65536, lengths 1 to 3
    as none *)
Definition la_room (n : Z) : Z := if n =? 0 then 65532 else if n <? 4 then 0 else (n - 4 + 3) / 4 * 4.
(** the data it sees: what is missing is zero *)
Definition la_seen (a : bytes) : bytes :=
  let got := firstn (Z.to_nat (la_room (la_len a))) (skipn 4 a) in
  got ++ repeat 0 (Z.to_nat (la_room (la_len a)) - length got).
Definition la_next (a : bytes) : bytes := skipn (Z.to_nat (la_room (la_len a))) (skipn 4 a).
(** the data without the padding *)
Definition la_data (a : bytes) : bytes := firstn (Z.to_nat ((la_len a - 4) mod 65536)) (la_seen a).
(** what the packet parser makes of a payload (C37, C38), given in a slice of exactly its length *)
Definition classify_ip (v : bytes) : parse_result :=
  if ip4_version v =? 4 then classify4 v (zlen v) false else classify6 v (zlen v) false.

(** ** How parsing ends *)
Inductive log_result := Finished | Failed (e : gerr) | Crashed | Stuck.
(** what the callback is to be shown: the prefix, the octets the headers are read
    from, and the payload *)
Notation logged := (bytes * bytes * bytes)%type (only parsing).
(** [attrs_end a prefix ps r]: reading the attributes [a] with [prefix] in force
    shows the callback [ps] and ends as [r] *)
Inductive attrs_end : bytes -> bytes -> list logged -> log_result -> Prop :=
| ae_done prefix : attrs_end [] prefix [] Finished
| ae_short a prefix : (0 < length a < 4)%nat -> attrs_end a prefix [] (Failed EShort)
| ae_prefix_crash a prefix : (4 <= length a)%nat -> la_type a = ATTR_PREFIX -> 1 <= la_len a <= 4 ->
    attrs_end a prefix [] Crashed
| ae_prefix a prefix ps r : (4 <= length a)%nat -> la_type a = ATTR_PREFIX -> ~ 1 <= la_len a <= 4 ->
    attrs_end (la_next a) (removelast (la_data a)) ps r -> attrs_end a prefix ps r
| ae_payload_crash a prefix : (4 <= length a)%nat -> la_type a = ATTR_PAYLOAD ->
    classify_ip (la_seen a) = Crashes -> attrs_end a prefix [] Crashed
| ae_payload_reject a prefix e : (4 <= length a)%nat -> la_type a = ATTR_PAYLOAD ->
    classify_ip (la_seen a) = Rejects e -> attrs_end a prefix [] (Failed e)
| ae_payload a prefix ps r : (4 <= length a)%nat -> la_type a = ATTR_PAYLOAD ->
    classify_ip (la_seen a) = Accepts ->
    attrs_end (la_next a) prefix ps r -> attrs_end a prefix ((prefix, la_seen a, la_data a) :: ps) r
| ae_other a prefix ps r : (4 <= length a)%nat -> la_type a <> ATTR_PREFIX -> la_type a <> ATTR_PAYLOAD ->
    attrs_end (la_next a) prefix ps r -> attrs_end a prefix ps r.

(** [log_ends b ps r]: parsing the datagram [b] *)
Inductive log_ends : bytes -> list logged -> log_result -> Prop :=
| le_done : log_ends [] [] Finished
| le_tail b : (0 < length b < 16)%nat -> log_ends b [] Stuck
| le_truncated b : (16 <= length b)%nat -> zlen b < num LE (field b 0 4) -> log_ends b [] (Failed ETruncated)
| le_tiny b : (16 <= length b)%nat -> num LE (field b 4 2) = LOG_PACKET -> num LE (field b 0 4) <= 16 ->
    log_ends b [] Crashed
| le_zero b : (16 <= length b)%nat -> num LE (field b 4 2) <> LOG_PACKET -> num LE (field b 0 4) = 0 ->
    log_ends b [] Stuck
| le_skip b ps r : (16 <= length b)%nat -> num LE (field b 4 2) <> LOG_PACKET -> 0 < num LE (field b 0 4) <= zlen b ->
    log_ends (skipn (Z.to_nat (num LE (field b 0 4))) b) ps r -> log_ends b ps r
| le_bad b ps r : (16 <= length b)%nat -> num LE (field b 4 2) = LOG_PACKET -> 16 < num LE (field b 0 4) <= zlen b ->
    (* nfgenmsg, attributes; the last octet of the message is not looked at *)
    attrs_end (skipn 20 (firstn (Z.to_nat (num LE (field b 0 4) - 1)) b)) [] ps r -> r <> Finished ->
    log_ends b ps (match r with Failed e => Failed (EWrapped 7 e) | _ => r end)
| le_packet b ps ps' r : (16 <= length b)%nat -> num LE (field b 4 2) = LOG_PACKET -> 16 < num LE (field b 0 4) <= zlen b ->
    attrs_end (skipn 20 (firstn (Z.to_nat (num LE (field b 0 4) - 1)) b)) [] ps Finished ->
    log_ends (skipn (Z.to_nat (num LE (field b 0 4))) b) ps' r -> log_ends b (ps ++ ps') r.

(** the ways a call can end *)
Definition ended (r : log_result) : res (option gerr) :=
  match r with Finished => Ok None | Failed e => Ok (Some e) | Crashed => Panic | Stuck => NoFuel end.
(** an invocation of the callback that shows prefix, headers and payload (with
    version number 4, C72) *)
Definition shows_log (ev : event) (x : logged) : Prop :=
  exists src dst proto total id sp dp r,
    ev = (KLogCb (fst (fst x)) (snd x) src dst 4 proto total id sp dp, r) /\
    headers_shown (snd (fst x)) src dst proto total id sp dp.

(** ** The reader loop, for every sequence of datagrams *)
Inductive exact_turn (fd : Z) (ecb : bool) : list event -> Prop :=
| et_nobufs r evs :
    r_err r = Some 105 -> reports ecb (EWrapped 8 (ESys 105)) evs ->
    exact_turn fd ecb ((KRecvfrom fd 65536 0, r) :: evs)
| et_finished r cbs ps :
    r_err r = None -> log_ends (log_received r) ps Finished -> Forall2 shows_log cbs ps ->
    exact_turn fd ecb ((KRecvfrom fd 65536 0, r) :: cbs)
| et_failed r cbs ps er evs :
    r_err r = None -> log_ends (log_received r) ps (Failed er) -> Forall2 shows_log cbs ps ->
    reports ecb (EWrapped 9 er) evs ->
    exact_turn fd ecb ((KRecvfrom fd 65536 0, r) :: cbs ++ evs).
Definition exact_stop (fd : Z) (ecb : bool) (closing : list event -> Prop) (n turns : nat) (res : res unit) (last : list event) : Prop :=
  match res with
  | Ok _ => exists r en evs cl,
      r_err r = Some en /\ en <> 105 /\ reports ecb (EWrapped 8 (ESys en)) evs /\ closing cl /\
      last = (KRecvfrom fd 65536 0, r) :: evs ++ cl
  | Panic => exists r cbs ps cl,
      r_err r = None /\ log_ends (log_received r) ps Crashed /\ Forall2 shows_log cbs ps /\ closing cl /\
      last = (KRecvfrom fd 65536 0, r) :: cbs ++ cl
  | NoFuel => (turns = n /\ last = []) \/
      exists r cbs ps, r_err r = None /\ log_ends (log_received r) ps Stuck /\ Forall2 shows_log cbs ps /\
        last = (KRecvfrom fd 65536 0, r) :: cbs
  end.
(** the socket is closed on the way out *)
Definition closed_fd (fd : Z) (cl : list event) : Prop := exists r, cl = [(KClose fd, r)].
