(** A client that answers the UDP packets of a queue: C102. *)
From Verif Require Import Proof.UdpClient Spec.Samples Spec.PktSamples Properties.P_Loop Properties.P_Client.

(** A queued UDP packet comes back to the kernel as a control packet that goes the
    other way, accepted under the id and mark of the packet it answers. *)
Theorem C102_udp_packet_answered : forall m fuel grow e w fd dg l id mark b ty tok v,
  queue_ready w fd ->
  let r := e (w_tr w) (KRecvfrom fd 76800 256) in
  r_err r = None -> r_data r = dg -> packet_datagram m dg l ->
  has_id m l id -> has_mark l mark -> has_payload l b -> (Z.to_nat 19201 < fuel)%nat ->
  udp_packet v b -> 0 <= ty < 256 -> own_token w tok ->
  zlen b <= 65531 -> Z.of_nat (ip_hdr v) + 28 + Z.of_nat (s_len tok) <= 65531 ->
  exists w' b' new, answer_udp fuel m grow ty tok e w = (Ok tt, w') /\
    w_tr w' = w_tr w ++ (KRecvfrom fd 76800 256, r) :: new /\
    sends_message m fd (verdict2_message m (q_num (w_st w)) 1 mark id b') new /\
    answers v ty (rd (w_heap w) tok) b b' /\ queue_ready w' fd.
Proof.
  intros m fuel grow e w fd dg l id mark b ty tok v Q r E D P HI HM HP HF U TY OT LE LT.
  destruct (client_answers m fuel grow e w fd dg l id mark b ty tok Q E D P HI HM HP HF v U TY OT LE LT)
    as (w' & b' & new & R & T & S & A & Q' & _). exists w', b', new. auto.
Qed.
Print Assumptions C102_udp_packet_answered.

(** a TCP packet goes through unchanged *)
Theorem C102_tcp_packet_passes : forall m fuel grow e w fd dg l id mark b ty tok v,
  queue_ready w fd ->
  let r := e (w_tr w) (KRecvfrom fd 76800 256) in
  r_err r = None -> r_data r = dg -> packet_datagram m dg l ->
  has_id m l id -> has_mark l mark -> has_payload l b -> (Z.to_nat 19201 < fuel)%nat ->
  bare_tcp v b -> zlen b <= 65531 ->
  exists w' new, answer_udp fuel m grow ty tok e w = (Ok tt, w') /\
    w_tr w' = w_tr w ++ (KRecvfrom fd 76800 256, r) :: new /\
    sends_message m fd (verdict2_message m (q_num (w_st w)) 1 mark id b) new /\ queue_ready w' fd.
Proof.
  intros m fuel grow e w fd dg l id mark b ty tok v Q r E D P HI HM HP HF BT LE.
  destruct (client_passes m fuel grow e w fd dg l id mark b ty tok Q E D P HI HM HP HF v BT LE)
    as (w' & new & R & T & S & Q' & _). exists w', new. auto.
Qed.
Print Assumptions C102_tcp_packet_passes.

(** a malformed IPv4 packet is dropped *)
Theorem C102_malformed_packet_dropped : forall m fuel grow e w fd dg l id mark b ty tok,
  queue_ready w fd ->
  let r := e (w_tr w) (KRecvfrom fd 76800 256) in
  r_err r = None -> r_data r = dg -> packet_datagram m dg l ->
  has_id m l id -> has_mark l mark -> has_payload l b -> (Z.to_nat 19201 < fuel)%nat ->
  (1 <= length b)%nat -> zlen b <= 65531 -> malformed4 b ->
  exists w' new, answer_udp fuel m grow ty tok e w = (Ok tt, w') /\
    w_tr w' = w_tr w ++ (KRecvfrom fd 76800 256, r) :: new /\
    sends_message m fd (verdict2_message m (q_num (w_st w)) 0 mark id b) new /\ queue_ready w' fd.
Proof.
  intros m fuel grow e w fd dg l id mark b ty tok Q r E D P HI HM HP HF L1 LE BAD.
  destruct (client_drops_malformed m fuel grow e w fd dg l id mark b ty tok Q E D P HI HM HP HF L1 LE BAD)
    as (w' & new & R & T & S & Q' & _). exists w', new. auto.
Qed.
Print Assumptions C102_malformed_packet_dropped.

(** Served over any number of messages, every message gets exactly one verdict,
    sent before the next message is received, and it is the right one: the answer
    to its packet if it carries a UDP packet, the packet itself if it carries a TCP
    packet, a drop if it carries no packet. *)
Theorem C103_every_message_answered_in_turn : forall n m fuel grow ty tok e w fd,
  queue_ready w fd -> held_token w tok -> zlen (rd (w_heap w) tok) <= 65463 ->
  0 <= ty < 256 -> busy_kernel m fd e -> (Z.to_nat 19201 < fuel)%nat ->
  exists w' (segs : list (resp * list event)),
    serve n fuel m grow ty tok e w = (Ok tt, w') /\ length segs = n /\
    w_tr w' = w_tr w ++ concat (map (fun s => (KRecvfrom fd 76800 256, fst s) :: snd s) segs) /\
    Forall (fun s => served m fd (q_num (w_st w)) ty (rd (w_heap w) tok) (r_data (fst s)) (snd s)) segs /\
    queue_ready w' fd.
Proof.
  intros n m fuel grow ty tok e w fd Q HT LT TY BK HF.
  destruct (serve_run m fuel grow ty tok e fd TY BK HF n w Q HT LT) as (w' & segs & R & L & T & FA & Q' & _).
  exists w', segs. auto.
Qed.
Print Assumptions C103_every_message_answered_in_turn.

(** ** A case *)
(** the message that delivers the UDP packet of Spec/PktSamples.v: id 258, mark 263 *)
Definition udp_message : bytes :=
  [76;0;0;0; 0;3; 0;0; 0;0;0;0; 0;0;0;0;  2;0;0;42;
   11;0;1;0; 2;1;0;0; 8;0;1; 0;  8;0;3;0; 0;0;1;7;  36;0;10;0] ++ udp4_sample.
(** a client with a token of its own *)
Definition with_token (w : world nfq) : world nfq := mkW (w_st w) (w_heap w ++ [[97;98;99]]) (w_tr w).
Definition own (w : world nfq) : slice := mkSl (length (w_heap w)) 0 3 3.
Lemma with_token_ready w fd : queue_ready w fd -> queue_ready (with_token w) fd /\ own_token (with_token w) (own w).
Proof.
  intros Q. split.
  { apply (queue_ready_heap w); [exact Q|reflexivity|]. intros x V. apply valid_more, V. }
  pose proof (qr_buf _ _ Q) as [B1 B2]. pose proof (qr_len _ _ Q) as LB.
  assert (A0 : arr (w_heap w ++ [[97;98;99]]) (length (w_heap w)) = [97;98;99]).
  { unfold arr. rewrite app_nth2, Nat.sub_diag by lia. reflexivity. }
  unfold own_token, own. cbn [with_token w_heap w_st].
  split. { split; cbn [s_len s_cap s_arr s_off]; [lia|right]. rewrite app_length, A0. cbn. lia. }
  cbn [s_arr s_len]. split; [right; lia|]. unfold rd. cbn [s_arr s_off s_len]. rewrite A0. bytes_tac.
Qed.
Notation ufeed := [Some udp_message].
Notation ufed := (started (guarded accept_all) true ufeed).
Example C102_hypotheses_met :
  exists fd, queue_ready (with_token ufed) fd /\
  let r := kernel_delivers ufeed (w_tr ufed) (KRecvfrom fd 76800 256) in
  r_err r = None /\ r_data r = udp_message /\
  (exists l, packet_datagram LE udp_message l /\ has_id LE l 258 /\ has_mark l 263 /\ has_payload l udp4_sample) /\
  udp_packet V4 udp4_sample /\ own_token (with_token ufed) (own ufed).
Proof.
  destruct (started_fresh (guarded accept_all) true ufeed) as (fd & priv & [Q _ _ _ _] & _). exists fd.
  destruct (with_token_ready _ _ Q) as [Q1 A]. split; [exact Q1|]. cbv zeta.
  rewrite first_delivery. cbn [nth r_err r_data]. split; [reflexivity|]. split; [reflexivity|]. split; [|split; [|exact A]].
  { eexists. split.
    { split; [bytes_tac|]. split; [cbn; lia|]. split; [unfold zlen; cbn; lia|]. split; [reflexivity|]. vm_compute. reflexivity. }
    split; [eexists; split; [reflexivity|]; split; [cbn; lia|reflexivity]|].
    split; [eexists; split; [reflexivity|]; split; [cbn; lia|reflexivity]|]. reflexivity. }
  split; [split; reflexivity|]. split; [bytes_tac|]. split; [cbn; lia|]. reflexivity.
Qed.
(** the answer to that packet, of type 32 and with token "abc" *)
Definition udp_answer : bytes :=
  [69;0;0;51; 0;7;0;0; 64;17;102;177; 10;0;0;2; 10;0;0;1; 3;232;0;53; 0;31;0;0;
   32;0; 110;51;48;110;106;120;113;55;98;109;105;119;114;54;100;116;120;113; 97;98;99].
Example C102_answers_case : answers V4 32 [97;98;99] udp4_sample udp_answer.
Proof.
  unfold answers. cbv zeta. do 6 (split; [vm_compute; reflexivity|]). split; [vm_compute; auto|].
  cbn [ip_hdr]. intros k K N. unfold reverse_bytes in N.
  do 10 (destruct k as [|k]; [first [reflexivity | exfalso; apply N; lia]|]). exfalso. apply N. lia.
Qed.

(** a kernel that delivers, in turn, that packet and one byte that is no packet *)
Definition junk_message : bytes :=
  [48;0;0;0; 0;3; 0;0; 0;0;0;0; 0;0;0;0;  2;0;0;42;
   11;0;1;0; 2;1;0;0; 8;0;1; 0;  8;0;3;0; 0;0;1;7;  5;0;10;0; 69;0;0;0].
Definition alternating : env := fun tr _ => mkResp None 0 (if Nat.even (length tr) then udp_message else junk_message) false.
Lemma alternating_busy fd : busy_kernel LE fd alternating.
Proof.
  intros tr. cbv zeta. unfold alternating. cbn [r_err r_data]. split; [reflexivity|]. exists 258, 263.
  destruct (Nat.even (length tr)).
  - exists udp4_sample. split; [|split; [|unfold zlen; cbn; lia]].
    + eexists. split.
      { split; [bytes_tac|]. split; [cbn; lia|]. split; [unfold zlen; cbn; lia|]. split; [reflexivity|]. vm_compute. reflexivity. }
      split; [eexists; split; [reflexivity|]; split; [cbn; lia|reflexivity]|].
      split; [eexists; split; [reflexivity|]; split; [cbn; lia|reflexivity]|]. reflexivity.
    + left. exists V4. split; [split; reflexivity|]. split; [bytes_tac|]. split; [cbn; lia|]. reflexivity.
  - exists [69]. split; [|split; [|unfold zlen; cbn; lia]].
    + eexists. split.
      { split; [bytes_tac|]. split; [cbn; lia|]. split; [unfold zlen; cbn; lia|]. split; [reflexivity|]. vm_compute. reflexivity. }
      split; [eexists; split; [reflexivity|]; split; [cbn; lia|reflexivity]|].
      split; [eexists; split; [reflexivity|]; split; [cbn; lia|reflexivity]|]. reflexivity.
    + right; right. split; [cbn; lia|]. split; [reflexivity|]. left. reflexivity.
Qed.
Lemma with_token_held w fd : queue_ready w fd ->
  held_token (with_token w) (own w) /\ rd (w_heap (with_token w)) (own w) = [97;98;99].
Proof.
  intros Q. destruct (with_token_ready _ _ Q) as [Q1 (V & N & IB)].
  pose proof (qr_hdr _ _ Q) as [B1 B2]. pose proof (qr_hdrlen _ _ Q) as LB.
  split. { split; [exact V|]. split; [exact IB|]. right. split; [|cbn [own s_arr with_token w_st]; lia].
    destruct N as [N|N]; [discriminate|exact N]. }
  unfold rd, own, arr. cbn [with_token w_heap s_arr s_off s_len]. rewrite app_nth2, Nat.sub_diag by lia. reflexivity.
Qed.
Example C103_hypotheses_met :
  exists fd, queue_ready (with_token ufed) fd /\ held_token (with_token ufed) (own ufed) /\
    rd (w_heap (with_token ufed)) (own ufed) = [97;98;99] /\ busy_kernel LE fd alternating.
Proof.
  destruct (started_fresh (guarded accept_all) true ufeed) as (fd & priv & [Q _ _ _ _] & _). exists fd.
  destruct (with_token_ready _ _ Q) as [Q1 _]. destruct (with_token_held _ _ Q) as [H R].
  split; [exact Q1|]. split; [exact H|]. split; [exact R|]. apply alternating_busy.
Qed.
