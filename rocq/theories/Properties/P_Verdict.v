(** Verdicts: C09, C10, C11, C14, C59. *)
From Verif Require Import Proof.Release Proof.VerdictBig Spec.Samples.

(** ** C09 *)
Theorem C09_SetVerdict2_sends_exactly_the_verdict : forall m grow v mark id p pkt e w fd,
  verdict_ready w fd -> packet_in w p pkt -> is_u32 v -> is_u32 mark -> is_u32 id ->
  (1 <= length pkt <= Z.to_nat 65531)%nat ->
  exists w' new,
    SetVerdict2 m grow v mark (zlen pkt) id p e w = (Ok tt, w') /\
    w_tr w' = w_tr w ++ new /\
    sends_message m fd (verdict2_message m (q_num (w_st w)) v mark id pkt) new.
Proof.
  intros. destruct (SetVerdict2_run m grow v mark id p pkt e w fd) as (w' & new & H' & ? & ? & _); auto.
  exists w', new. auto.
Qed.
Print Assumptions C09_SetVerdict2_sends_exactly_the_verdict.

(** a handle for queue 42 with a used header buffer, and a packet of five bytes
    in an array with two more bytes of somebody else's data behind it *)
Definition verdict_world : world nfq :=
  mkW (mkQ 8 42 None true 0 (Some (mkSock 7 snil)) snil [] (mkSl 0 0 40 40) 3 4 7 [])
      [repeat 171 40; [69; 0; 0; 5; 17; 201; 202; 203]] [].
Definition five_bytes : slice := mkSl 1 0 5 8.
Lemma verdict_world_ready : verdict_ready verdict_world 7.
Proof.
  split; [eexists; reflexivity|]. split.
  - split; [cbn; lia|]. right. cbn. lia.
  - split; [reflexivity|]. cbn. red. lia.
Qed.
Lemma five_bytes_in : packet_in verdict_world five_bytes [69; 0; 0; 5; 17].
Proof.
  split; [split; [cbn; lia|right; cbn; lia]|]. split; [reflexivity|]. cbn. lia.
Qed.
Example C09_hypotheses_met :
  verdict_ready verdict_world 7 /\ packet_in verdict_world five_bytes [69; 0; 0; 5; 17] /\
  map fst (w_tr (snd (SetVerdict2 LE (fun _ n => n) 1 7 5 258 five_bytes kernel_acks verdict_world))) =
    [ KSendmsg 7 [ [49;0;0;0; 1;3; 1;0; 0;0;0;0; 0;0;0;0; 0;0;0;42; 12;0;2;0; 0;0;0;1; 2;1;0;0;
                    8;0;3;0; 0;0;0;7];
                   [9;0;10;0]; [69;0;0;5;17;0;0;0] ] ].
Proof.
  split; [exact verdict_world_ready|]. split; [exact five_bytes_in|].
  vm_compute. reflexivity.
Qed.

(** ** C10 *)
(** missing: the payload read by the kernel is the packet only when its length is
    a multiple of four; otherwise zero bytes are added *)
Theorem C10_SetVerdict_sends_the_verdict_partial : forall m grow v id p pkt e w fd,
  verdict_ready w fd -> packet_in w p pkt -> is_u32 v -> is_u32 id ->
  (1 <= length pkt <= Z.to_nat 65528)%nat ->
  exists w' new,
    SetVerdict m grow v (zlen pkt) id p e w = (Ok tt, w') /\
    w_tr w' = w_tr w ++ new /\
    sends_message m fd
      (verdict1_message m (q_num (w_st w)) v id (pkt ++ repeat 0 ((4 - length pkt mod 4) mod 4))) new.
Proof.
  intros m grow v id p pkt e w fd H1 H2 H3 H4 H5.
  destruct (SetVerdict_run m grow v id p pkt e w fd) as (w' & new & H6 & H7 & H8 & _); auto.
  exists w', new. split; [exact H6|]. split; [exact H7|].
  replace (repeat 0 ((4 - length pkt mod 4) mod 4)) with (pad4 (length pkt)); [exact H8|].
  unfold pad4, al4. f_equal. lia.
Qed.
Print Assumptions C10_SetVerdict_sends_the_verdict_partial.

(** exact for every length that is a multiple of four *)
Theorem C10_SetVerdict_exact_for_multiples_of_four : forall m grow v id p pkt e w fd,
  verdict_ready w fd -> packet_in w p pkt -> is_u32 v -> is_u32 id ->
  (1 <= length pkt <= Z.to_nat 65528)%nat -> (length pkt mod 4 = 0)%nat ->
  exists w' new,
    SetVerdict m grow v (zlen pkt) id p e w = (Ok tt, w') /\
    w_tr w' = w_tr w ++ new /\
    sends_message m fd (verdict1_message m (q_num (w_st w)) v id pkt) new.
Proof.
  intros m grow v id p pkt e w fd H1 H2 H3 H4 H5 H6.
  destruct (SetVerdict_run m grow v id p pkt e w fd) as (w' & new & H7 & H8 & H9 & _); auto.
  exists w', new. split; [exact H7|]. split; [exact H8|].
  replace (pad4 (length pkt)) with (@nil Z) in H9; [now rewrite app_nil_r in H9|].
  unfold pad4, al4. replace (_ - _)%nat with 0%nat by lia. reflexivity.
Qed.
Print Assumptions C10_SetVerdict_exact_for_multiples_of_four.

(** a SetVerdict call counts itself as accepted or dropped and changes nothing
    else of the handle *)
Theorem C10_SetVerdict_counts : forall m grow v id p pkt e w fd,
  verdict_ready w fd -> packet_in w p pkt -> (1 <= length pkt <= Z.to_nat 65531)%nat ->
  exists w', SetVerdict m grow v (zlen pkt) id p e w = (Ok tt, w') /\
    let q := w_st w in let q' := w_st w' in
    (v = 1 -> q_acc q' = u64 (q_acc q + 1) /\ q_drop q' = q_drop q) /\
    (v <> 1 -> q_acc q' = q_acc q /\ q_drop q' = u64 (q_drop q + 1)) /\
    q_proc q' = q_proc q /\ q_num q' = q_num q /\ q_handle q' = q_handle q.
Proof.
  intros m grow v id p pkt e w fd H1 H2 H5.
  destruct (SetVerdict_raw m grow v id p pkt e w fd) as (w' & new & H6 & _ & _ & H7 & _); auto.
  exists w'. split; [exact H6|]. cbv zeta. rewrite H7. unfold counted.
  destruct (Z.eqb_spec v 1); cbn; repeat split; auto; congruence.
Qed.
Print Assumptions C10_SetVerdict_counts.

(** the five-byte packet is re-injected as eight bytes *)
Theorem C10_SetVerdict_changes_packet_refuted :
  exists w p pkt e,
    verdict_ready w 7 /\ packet_in w p pkt /\ length pkt = 5%nat /\
    let w' := snd (SetVerdict LE (fun _ n => n) 1 5 258 p e w) in
    sends_message LE 7 (verdict1_message LE 42 1 258 (pkt ++ [0; 0; 0])) (w_tr w').
Proof.
  exists verdict_world, five_bytes, [69; 0; 0; 5; 17], kernel_acks.
  split; [exact verdict_world_ready|]. split; [exact five_bytes_in|]. split; [reflexivity|].
  eexists. split.
  - eexists. left. split; [|vm_compute; reflexivity]. vm_compute. reflexivity.
  - vm_compute. reflexivity.
Qed.
Print Assumptions C10_SetVerdict_changes_packet_refuted.
Example C10_hypotheses_met :
  verdict_ready verdict_world 7 /\ packet_in verdict_world five_bytes [69; 0; 0; 5; 17] /\
  packet_in verdict_world (mkSl 1 0 8 8) [69; 0; 0; 5; 17; 201; 202; 203] /\
  is_u32 1 /\ is_u32 258.
Proof.
  split; [exact verdict_world_ready|]. split; [exact five_bytes_in|]. split.
  - split; [split; [cbn; lia|right; cbn; lia]|]. split; [reflexivity|]. cbn. lia.
  - unfold is_u32. lia.
Qed.

(** ** C11 *)
(** Both calls hand the kernel exactly one well-formed message for every packet of
    1..65528 bytes (SetVerdict2: up to 65531, C09), and this is the whole range:
    what happens outside it follows.  Missing: empty packets and those above. *)
Theorem C11_verdict_for_every_ordinary_packet_partial : forall m grow v mark id p pkt e w fd,
  verdict_ready w fd -> packet_in w p pkt -> is_u32 v -> is_u32 mark -> is_u32 id ->
  (1 <= length pkt <= Z.to_nat 65528)%nat ->
  (exists w' new msg, SetVerdict2 m grow v mark (zlen pkt) id p e w = (Ok tt, w') /\
     w_tr w' = w_tr w ++ new /\ sends_message m fd msg new) /\
  (exists w' new msg, SetVerdict m grow v (zlen pkt) id p e w = (Ok tt, w') /\
     w_tr w' = w_tr w ++ new /\ sends_message m fd msg new).
Proof.
  intros m grow v mark id p pkt e w fd H1 H2 H3 H4 H5 H6. split.
  - destruct (SetVerdict2_run m grow v mark id p pkt e w fd) as (w' & new & A & B & C & _); auto; [lia|].
    eauto 10.
  - destruct (SetVerdict_run m grow v id p pkt e w fd) as (w' & new & A & B & C & _); auto.
    eauto 10.
Qed.
Print Assumptions C11_verdict_for_every_ordinary_packet_partial.

Theorem C11_empty_packet_refuted : forall m grow v mark id p e w fd,
  verdict_ready w fd -> s_len p = 0%nat ->
  (exists w', SetVerdict2 m grow v mark 0 id p e w = (Panic, w') /\ w_tr w' = w_tr w) /\
  (exists w', SetVerdict m grow v 0 id p e w = (Panic, w') /\ w_tr w' = w_tr w).
Proof.
  intros m grow v mark id p e w fd H1 H2. split;
    [eapply SetVerdict2_empty|eapply SetVerdict_empty]; eauto.
Qed.
Print Assumptions C11_empty_packet_refuted.

Theorem C11_SetVerdict2_oversize_refuted : forall m grow v mark id p pkt e w fd,
  verdict_ready w fd -> packet_in w p pkt ->
  (Z.to_nat 65532 <= length pkt <= Z.to_nat 65535)%nat ->
  exists w' new iov,
    SetVerdict2 m grow v mark (zlen pkt) id p e w = (Ok tt, w') /\
    w_tr w' = w_tr w ++ new /\ sends_one fd iov new /\ read_message m (concat iov) = None.
Proof. exact SetVerdict2_oversize. Qed.
Print Assumptions C11_SetVerdict2_oversize_refuted.

Theorem C11_SetVerdict_near_64k_refuted : forall m grow v id p pkt e w fd,
  verdict_ready w fd -> packet_in w p pkt ->
  (Z.to_nat 65529 <= length pkt <= Z.to_nat 65531)%nat ->
  exists w' new iov,
    SetVerdict m grow v (zlen pkt) id p e w = (Ok tt, w') /\
    w_tr w' = w_tr w ++ new /\ sends_one fd iov new /\ read_message m (concat iov) = None.
Proof. exact SetVerdict_near_64k. Qed.
Print Assumptions C11_SetVerdict_near_64k_refuted.

(** SetVerdict on 65532 bytes sends something unreadable, and on 65533 to 65535
    bytes a well-formed message that replaces the packet by an empty one *)
Theorem C11_SetVerdict_oversize_refuted : forall m grow v id p pkt e w fd,
  verdict_ready w fd -> packet_in w p pkt -> is_u32 v -> is_u32 id ->
  (Z.to_nat 65533 <= length pkt <= Z.to_nat 65535)%nat ->
  exists w' new,
    SetVerdict m grow v (zlen pkt) id p e w = (Ok tt, w') /\
    w_tr w' = w_tr w ++ new /\
    sends_message m fd (verdict1_message m (q_num (w_st w)) v id []) new.
Proof. exact SetVerdict_truncates. Qed.
Print Assumptions C11_SetVerdict_oversize_refuted.
(** Exactly: SetVerdict hands the kernel the packet it was given when its length is a
    multiple of four up to 65528, SetVerdict2 when it is at most 65531. *)
Theorem C11_SetVerdict_exact : forall m grow v id p pkt e w fd,
  verdict_ready w fd -> packet_in w p pkt -> is_u32 v -> is_u32 id -> (1 <= length pkt <= Z.to_nat 65535)%nat ->
  exists w' new,
    SetVerdict m grow v (zlen pkt) id p e w = (Ok tt, w') /\ w_tr w' = w_tr w ++ new /\
    (sends_message m fd (verdict1_message m (q_num (w_st w)) v id pkt) new <->
     (length pkt mod 4 = 0 /\ length pkt <= Z.to_nat 65528)%nat).
Proof. exact SetVerdict_exact. Qed.
Print Assumptions C11_SetVerdict_exact.
Theorem C11_SetVerdict2_exact : forall m grow v mark id p pkt e w fd,
  verdict_ready w fd -> packet_in w p pkt -> is_u32 v -> is_u32 mark -> is_u32 id -> (1 <= length pkt <= Z.to_nat 65535)%nat ->
  exists w' new,
    SetVerdict2 m grow v mark (zlen pkt) id p e w = (Ok tt, w') /\ w_tr w' = w_tr w ++ new /\
    (sends_message m fd (verdict2_message m (q_num (w_st w)) v mark id pkt) new <-> (length pkt <= Z.to_nat 65531)%nat).
Proof. exact SetVerdict2_exact. Qed.
Print Assumptions C11_SetVerdict2_exact.

Definition big_world : world nfq :=
  mkW (w_st verdict_world) [repeat 0 40; repeat 69 (Z.to_nat 65540)] [].
Example C11_hypotheses_met :
  verdict_ready big_world 7 /\
  packet_in big_world (mkSl 1 0 (Z.to_nat 65533) (Z.to_nat 65540)) (repeat 69 (Z.to_nat 65533)) /\
  packet_in big_world (mkSl 1 0 (Z.to_nat 65530) (Z.to_nat 65540)) (repeat 69 (Z.to_nat 65530)) /\
  s_len (mkSl 1 0 0 5) = 0%nat.
Proof.
  assert (F : forall n, (n <= Z.to_nat 65540)%nat ->
     packet_in big_world (mkSl 1 0 n (Z.to_nat 65540)) (repeat 69 n)).
  { intros n H. split.
    - split; [cbn [s_len s_cap]; lia|]. right. cbn [s_arr s_off s_cap big_world w_heap arr nth length].
      rewrite repeat_length. lia.
    - split; [|cbn; lia]. unfold rd. cbn [s_arr s_off s_len big_world w_heap arr nth skipn].
      replace (Z.to_nat 65540) with (n + (Z.to_nat 65540 - n))%nat by lia.
      rewrite repeat_app. rewrite firstn_app, repeat_length, Nat.sub_diag.
      rewrite firstn_all2 by (rewrite repeat_length; lia). cbn [firstn]. apply app_nil_r. }
  split.
  - split; [eexists; reflexivity|]. split.
    + split; [cbn; lia|]. right. cbn [q_hdr w_st verdict_world big_world s_arr s_off s_cap w_heap arr nth length].
      rewrite repeat_length. lia.
    + split; [reflexivity|]. cbn. red. lia.
  - split; [apply F; lia|]. split; [apply F; lia|reflexivity].
Qed.

(** ** C14 *)
(** Receive a packet, take its id with GetPacketInfo, answer with either verdict
    call (for any buffer, for instance a modified packet): the four id bytes of
    the verdict message are the four id bytes of the kernel's message. *)
Theorem C14_verdict_releases_the_delivered_id : forall m fuel grow e w fd d l hv,
  queue_ready w fd -> slots_readable w ->
  let r := e (w_tr w) (KRecvfrom fd 76800 256) in
  r_err r = None -> r_data r = d -> packet_datagram m d l ->
  last_attr 1 l = Some hv -> (4 <= length hv)%nat ->
  (forall mv, last_attr 3 l = Some mv -> (4 <= length mv)%nat) -> (Z.to_nat 19201 < fuel)%nat ->
  exists g tbl id mark s w',
    Recv fuel m e w = (Ok (Some g, Some tbl, None), w') /\
    GetPacketInfo m (w_heap w') (Some tbl) = Ok (id, mark, s) /\
    (forall v mk p pkt, is_u32 v -> is_u32 mk -> packet_in w' p pkt ->
       (1 <= length pkt <= Z.to_nat 65531)%nat ->
       exists w'' new, SetVerdict2 m grow v mk (zlen pkt) id p e w' = (Ok tt, w'') /\
         w_tr w'' = w_tr w' ++ new /\
         sends_message m fd (verdict_message (q_num (w_st w))
            [(2, be32 v ++ field hv 0 4); (3, be32 mk); (10, pkt)]) new) /\
    (forall v p pkt, is_u32 v -> packet_in w' p pkt -> (1 <= length pkt <= Z.to_nat 65528)%nat ->
       exists w'' new, SetVerdict m grow v (zlen pkt) id p e w' = (Ok tt, w'') /\
         w_tr w'' = w_tr w' ++ new /\
         sends_message m fd (verdict_message (q_num (w_st w))
            [(2, be32 v ++ field hv 0 4); (10, pkt ++ pad4 (length pkt))]) new).
Proof. exact id_round_trip. Qed.
Print Assumptions C14_verdict_releases_the_delivered_id.

(** ** C59 *)
(** Issuing a verdict changes no memory but the handle's own header buffer and
    at most three bytes just after the packet, in the packet's own array.
    Missing: those three bytes. *)
Theorem C59_verdict_memory_partial : forall m grow v mark id p pkt e w fd,
  verdict_ready w fd -> packet_in w p pkt -> (1 <= length pkt <= Z.to_nat 65531)%nat ->
  (exists w', SetVerdict2 m grow v mark (zlen pkt) id p e w = (Ok tt, w') /\ verdict_frame w w' p) /\
  (exists w', SetVerdict m grow v (zlen pkt) id p e w = (Ok tt, w') /\ verdict_frame w w' p).
Proof.
  intros m grow v mark id p pkt e w fd H1 H2 H3. split.
  - destruct (SetVerdict2_raw m grow v mark id p pkt e w fd H1 H2) as (w' & new & A & _ & _ & _ & B).
    { destruct pkt; [cbn in H3; lia|discriminate]. }
    exists w'. auto.
  - destruct (SetVerdict_raw m grow v id p pkt e w fd H1 H2 H3) as (w' & new & A & _ & _ & _ & B).
    exists w'. auto.
Qed.
Print Assumptions C59_verdict_memory_partial.

(** The caller's array survives exactly when the packet's slice has no room for
    the padding, or what lies there is zero already (no padding: no room asked). *)
Lemma pad_untouched (B : bytes) o n cap : (n <= cap)%nat -> (o + cap <= length B)%nat ->
  (if (al4 n <=? cap)%nat then splice B (o + n) (pad4 n) else B) = B <->
  ((cap < al4 n)%nat \/ field B (o + n) (al4 n - n) = pad4 n).
Proof.
  intros L1 L2. assert (LP : length (pad4 n) = (al4 n - n)%nat) by (unfold pad4; apply repeat_length).
  assert (LA : (n <= al4 n)%nat) by (unfold al4; lia).
  destruct (Nat.leb_spec (al4 n) cap) as [H|H]; [|split; auto]. split.
  - intros E. right. rewrite <- E. unfold field. pose proof (sub_splice_same B (o + n) (pad4 n)) as D. unfold sub in D.
    rewrite LP in D. replace (o + n + (al4 n - n) - (o + n))%nat with (al4 n - n)%nat in D by lia. apply D. lia.
  - intros [X|X]; [lia|]. rewrite <- X. apply nth_ext with (d := 0) (d' := 0); [apply splice_length; unfold field; rewrite firstn_length, skipn_length; lia|].
    intros i _. rewrite nth_splice by (unfold field; rewrite firstn_length, skipn_length; lia). unfold field. rewrite firstn_length, skipn_length.
    destruct (_ && _)%bool eqn:Q; [|reflexivity]. apply andb_true_iff in Q as [Q1 Q2]. apply Nat.leb_le in Q1. apply Nat.ltb_lt in Q2.
    rewrite nth_firstn' by lia. rewrite nth_skipn'. f_equal. lia.
Qed.
Theorem C59_verdict_memory_exact : forall m grow v mark id p pkt e w fd,
  verdict_ready w fd -> packet_in w p pkt -> (1 <= length pkt <= Z.to_nat 65531)%nat ->
  let kept (w' : world nfq) := forall a, (a < length (w_heap w))%nat -> a <> s_arr (q_hdr (w_st w)) -> arr (w_heap w') a = arr (w_heap w) a in
  let harmless := (s_cap p < al4 (s_len p))%nat \/
    field (arr (w_heap w) (s_arr p)) (s_off p + s_len p) (al4 (s_len p) - s_len p) = pad4 (s_len p) in
  (exists w', SetVerdict2 m grow v mark (zlen pkt) id p e w = (Ok tt, w') /\ (kept w' <-> harmless)) /\
  (exists w', SetVerdict m grow v (zlen pkt) id p e w = (Ok tt, w') /\ (kept w' <-> harmless)).
Proof.
  intros m grow v mark id p pkt e w fd H1 H2 H3 kept harmless.
  assert (X : forall w', verdict_frame w w' p -> (kept w' <-> harmless)).
  { intros w' F. destruct H2 as (Vp & Rp & Np). pose proof (valid_len _ _ Vp) as LP. rewrite Rp in LP.
    destruct Vp as [V1 [V2|[V2 V3]]]; [lia|].
    pose proof (pad_untouched (arr (w_heap w) (s_arr p)) (s_off p) (s_len p) (s_cap p) V1 V3) as PU. unfold harmless. rewrite <- PU, <- (vf_pad _ _ _ F).
    unfold kept. split; [intros K; apply K; auto|]. intros K a A1 A2. destruct (Nat.eq_dec a (s_arr p)) as [->|N]; [exact K|].
    apply (vf_other _ _ _ F); auto. }
  destruct (C59_verdict_memory_partial m grow v mark id p pkt e w fd H1 H2 H3) as [(w1 & A1 & B1) (w2 & A2 & B2)].
  split; [exists w1|exists w2]; auto.
Qed.
Print Assumptions C59_verdict_memory_exact.

(** a verdict for the first five bytes of an eight-byte array zeroes the rest *)
Theorem C59_verdict_overwrites_neighbours_refuted :
  exists w p pkt e,
    verdict_ready w 7 /\ packet_in w p pkt /\
    arr (w_heap w) (s_arr p) = [69; 0; 0; 5; 17; 201; 202; 203] /\
    arr (w_heap (snd (SetVerdict2 LE (fun _ n => n) 1 0 (zlen pkt) 1 p e w))) (s_arr p) =
      [69; 0; 0; 5; 17; 0; 0; 0] /\
    arr (w_heap (snd (SetVerdict LE (fun _ n => n) 1 (zlen pkt) 1 p e w))) (s_arr p) =
      [69; 0; 0; 5; 17; 0; 0; 0].
Proof.
  exists verdict_world, five_bytes, [69; 0; 0; 5; 17], kernel_acks.
  split; [exact verdict_world_ready|]. split; [exact five_bytes_in|].
  repeat split; vm_compute; reflexivity.
Qed.
Print Assumptions C59_verdict_overwrites_neighbours_refuted.
Example C59_hypotheses_met :
  verdict_ready verdict_world 7 /\ packet_in verdict_world five_bytes [69; 0; 0; 5; 17].
Proof. split; [exact verdict_world_ready|exact five_bytes_in]. Qed.
