(** A client of the whole library: C91. *)
From Verif Require Import Proof.Client Spec.Samples Properties.P_Loop.

(** A queued TCP packet to which a client attaches options and data is given
    back to the kernel under its own id and mark, extended and otherwise
    unchanged, with right lengths and checksums; nothing else is sent. *)
Theorem C91_tagged_packet_released : forall m fuel grow e w fd dg l id mark b o d v,
  queue_ready w fd ->
  let r := e (w_tr w) (KRecvfrom fd 76800 256) in
  r_err r = None -> r_data r = dg -> packet_datagram m dg l ->
  has_id m l id -> has_mark l mark -> has_payload l b -> (Z.to_nat 19201 < fuel)%nat ->
  bare_tcp v b -> addable w v b o d ->
  exists w' b' new, tag_and_release fuel m grow o d e w = (Ok tt, w') /\
    w_tr w' = w_tr w ++ (KRecvfrom fd 76800 256, r) :: new /\
    sends_message m fd (verdict2_message m (q_num (w_st w)) 1 mark id b') new /\
    extended v b (rd (w_heap w) o) (rd (w_heap w) d) b' /\ queue_ready w' fd.
Proof. intros; eapply client_tags; eauto. Qed.
Print Assumptions C91_tagged_packet_released.

(** a malformed IPv4 packet is dropped, under its own id *)
Theorem C91_malformed_packet_dropped : forall m fuel grow e w fd dg l id mark b o d,
  queue_ready w fd ->
  let r := e (w_tr w) (KRecvfrom fd 76800 256) in
  r_err r = None -> r_data r = dg -> packet_datagram m dg l ->
  has_id m l id -> has_mark l mark -> has_payload l b -> (Z.to_nat 19201 < fuel)%nat ->
  (1 <= length b)%nat -> zlen b <= 65531 -> malformed4 b ->
  exists w' new, tag_and_release fuel m grow o d e w = (Ok tt, w') /\
    w_tr w' = w_tr w ++ (KRecvfrom fd 76800 256, r) :: new /\
    sends_message m fd (verdict2_message m (q_num (w_st w)) 0 mark id b) new /\ queue_ready w' fd.
Proof. intros; eapply client_drops; eauto. Qed.
Print Assumptions C91_malformed_packet_dropped.

(** ** A case *)
(** 10.0.0.1:1000 -> 10.0.0.2:80 ACK, no options, no data *)
Definition bare_sample : bytes :=
  [69;0;0;40; 18;52;64;0; 64;6;20;154; 10;0;0;1; 10;0;0;2;
   3;232;0;80; 0;0;0;1; 0;0;0;2; 80;16;1;0; 0;0;0;0].
(** the message that delivers it: id 258, mark 263 *)
Definition bare_packet : bytes :=
  [84;0;0;0; 0;3; 0;0; 0;0;0;0; 0;0;0;0;  2;0;0;42;
   11;0;1;0; 2;1;0;0; 8;0;1; 0;  8;0;3;0; 0;0;1;7;  44;0;10;0] ++ bare_sample.
(** a client with its own memory *)
Definition with_tags (w : world nfq) : world nfq :=
  mkW (w_st w) (w_heap w ++ [[34;4;7;9]; [97;98;99]]) (w_tr w).
Definition tag_opts (w : world nfq) : slice := mkSl (length (w_heap w)) 0 4 4.
Definition tag_data (w : world nfq) : slice := mkSl (S (length (w_heap w))) 0 3 3.
Lemma with_tags_ready w fd : queue_ready w fd ->
  queue_ready (with_tags w) fd /\ addable (with_tags w) V4 bare_sample (tag_opts w) (tag_data w).
Proof.
  intros Q. split.
  { apply (queue_ready_heap w); [exact Q|reflexivity|].
    intros x [X1 X2]. split; [exact X1|]. cbn [with_tags w_heap]. rewrite app_length.
    destruct X2 as [X2|[X2 X3]]; [now left|right]. split; [lia|]. unfold arr. rewrite app_nth1 by exact X2. exact X3. }
  pose proof (qr_buf _ _ Q) as [B1 B2]. pose proof (qr_len _ _ Q) as LB.
  unfold addable, tag_opts, tag_data. cbn [with_tags w_heap w_st].
  assert (A1 : forall t, arr (w_heap w ++ [[34;4;7;9]; [97;98;99]]) (t + length (w_heap w)) = nth t [[34;4;7;9]; [97;98;99]] []).
  { intros t. unfold arr. rewrite app_nth2 by lia. f_equal. lia. }
  pose proof (A1 0%nat) as A0. pose proof (A1 1%nat) as A2. cbn [Nat.add nth] in A0, A2.
  assert (NB : (s_arr (q_buf (w_st w)) < length (w_heap w))%nat) by lia.
  split. { split; cbn [s_len s_cap s_arr s_off]; [lia|right]. rewrite app_length, A0. cbn. lia. }
  split. { split; cbn [s_len s_cap s_arr s_off]; [lia|right]. rewrite app_length, A2. cbn. lia. }
  cbn [s_arr s_len]. split; [right; lia|]. split; [right; lia|].
  unfold rd. cbn [s_arr s_off s_len]. rewrite A0, A2. split; [bytes_tac|]. split; [bytes_tac|].
  split; [reflexivity|]. split; [vm_compute; reflexivity|]. vm_compute. discriminate.
Qed.
Notation feed := [Some bare_packet].
Notation fed := (started (guarded accept_all) true feed).
Example C91_hypotheses_met :
  exists fd, queue_ready (with_tags fed) fd /\
  let r := kernel_delivers feed (w_tr fed) (KRecvfrom fd 76800 256) in
  r_err r = None /\ r_data r = bare_packet /\
  (exists l, packet_datagram LE bare_packet l /\ has_id LE l 258 /\ has_mark l 263 /\ has_payload l bare_sample) /\
  bare_tcp V4 bare_sample /\ addable (with_tags fed) V4 bare_sample (tag_opts fed) (tag_data fed).
Proof.
  destruct (started_fresh (guarded accept_all) true feed) as (fd & priv & [Q _ _ _ _] & _). exists fd.
  destruct (with_tags_ready _ _ Q) as [Q1 A]. split; [exact Q1|]. cbv zeta.
  rewrite first_delivery. cbn [nth r_err r_data]. split; [reflexivity|]. split; [reflexivity|]. split; [|split; [|exact A]].
  { eexists. split.
    { split; [bytes_tac|]. split; [cbn; lia|]. split; [unfold zlen; cbn; lia|]. split; [reflexivity|]. vm_compute. reflexivity. }
    split; [eexists; split; [reflexivity|]; split; [cbn; lia|reflexivity]|].
    split; [eexists; split; [reflexivity|]; split; [cbn; lia|reflexivity]|]. reflexivity. }
  split; [split; [reflexivity|split; [reflexivity|vm_compute; reflexivity]]|]. split; [bytes_tac|].
  split; [cbn; lia|]. split; reflexivity.
Qed.
(** [marked_packet] of Spec/Samples.v carries five bytes of an IPv4 packet *)
Example C91_malformed_case : malformed4 [69;0;0;5;17] /\ has_payload [(10, [69;0;0;5;17])] [69;0;0;5;17].
Proof. split; [|reflexivity]. split; [reflexivity|left; reflexivity]. Qed.
