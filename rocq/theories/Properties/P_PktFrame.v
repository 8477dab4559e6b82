(** Editing a packet leaves all other memory alone: C101. *)
From Verif Require Import Proof.PktFrame Spec.PktSamples Properties.P_PktOps Properties.P_PktUdp.

(** Whatever calls are made on a packet, in whatever order and with whatever slices
    handed in (options, data, tokens), a byte that existed when the packet was made and
    that the packet was not given - another array, before the slice, or beyond the end
    of its capacity - still has its value. *)
Theorem C101_edits_stay_inside : forall grow h0 ctx s v p0 e cs h p a k x,
  New h0 ctx s v = Ok (Some p0, e) -> made grow h0 p0 cs h p -> (s_len s <= s_cap s)%nat ->
  byte_of h0 a k = Some x -> beyond s a k -> byte_of h a k = Some x.
Proof. intros grow h0 ctx s v p0 e cs h p a k x N M L E B. exact (edits_stay_inside grow h0 ctx s v p0 e cs h p a k x N M L B E). Qed.
Print Assumptions C101_edits_stay_inside.

(** two bytes of somebody else, the packet, 6 bytes of somebody else; the data to attach *)
Definition shared : heap := [ [8; 9] ++ udp4_sample ++ [1; 2; 3; 4; 5; 6]; [21; 22; 23] ].
(** the packet, with capacity for two more bytes, and the slice with its data *)
Definition lent : slice := mkSl 0 2 32 34.
Definition extra : slice := mkSl 1 0 2 3.
Example C101_hypotheses_met : exists p0 h p,
  New shared 0 lent true = Ok (Some p0, None) /\
  made (fun _ _ => 0%nat) shared p0 [DataDetach; Reverse; TokenAttach extra extra] h p /\
  (s_len lent <= s_cap lent)%nat /\
  byte_of shared 0 1 = Some 9 /\ beyond lent 0 1 /\
  byte_of shared 0 36 = Some 3 /\ beyond lent 0 36 /\
  byte_of shared 1 2 = Some 23 /\ beyond lent 1 2 /\
  (** the packet itself did change *)
  byte_of h 0 17 <> byte_of shared 0 17.
Proof.
  assert (X : exists p0 p1 h1 p2 h2 p3 h3, New shared 0 lent true = Ok (Some p0, None) /\
    make_packet_call (fun _ _ => 0%nat) DataDetach shared p0 = Ok (p1, h1) /\
    make_packet_call (fun _ _ => 0%nat) Reverse h1 p1 = Ok (p2, h2) /\
    make_packet_call (fun _ _ => 0%nat) (TokenAttach extra extra) h2 p2 = Ok (p3, h3) /\
    byte_of h3 0 17 <> byte_of shared 0 17).
  { do 7 eexists. do 4 (split; [vm_compute; reflexivity|]). vm_compute. discriminate. }
  destruct X as (p0 & p1 & h1 & p2 & h2 & p3 & h3 & N & M1 & M2 & M3 & C). exists p0, h3, p3.
  split; [exact N|]. split.
  { apply (made_call _ _ _ [DataDetach; Reverse] h2 p2); [|exact M3].
    apply (made_call _ _ _ [DataDetach] h1 p1); [|exact M2].
    apply (made_call _ _ _ [] shared p0); [apply made_start|exact M1]. }
  split; [cbn; lia|]. split; [reflexivity|]. split; [unfold beyond; cbn; lia|].
  split; [reflexivity|]. split; [unfold beyond; cbn; lia|].
  split; [reflexivity|]. split; [unfold beyond; cbn; lia|]. exact C.
Qed.

(** The bytes after the end of the slice are not safe: if its capacity reaches further,
    attaching data overwrites them, though the caller handed over only the packet. *)
Theorem C101_capacity_is_needed :
  ~ forall grow h0 ctx s v p0 e cs h p k x,
      New h0 ctx s v = Ok (Some p0, e) -> made grow h0 p0 cs h p -> (s_len s <= s_cap s)%nat ->
      byte_of h0 (s_arr s) k = Some x -> (s_off s + s_len s <= k)%nat -> byte_of h (s_arr s) k = Some x.
Proof.
  intros C.
  assert (X : exists p0 p1 h1, New shared 0 lent true = Ok (Some p0, None) /\
    make_packet_call (fun _ _ => 0%nat) (DataAttach snil extra) shared p0 = Ok (p1, h1) /\ byte_of h1 0 34 = Some 21).
  { do 3 eexists. do 2 (split; [vm_compute; reflexivity|]). vm_compute. reflexivity. }
  destruct X as (p0 & p1 & h1 & N & M1 & B).
  assert (K : byte_of h1 (s_arr lent) 34 = Some 1).
  { apply (C (fun _ _ => 0%nat) shared 0 lent true p0 None [DataAttach snil extra] h1 p1 34%nat 1); [exact N| |cbn; lia|reflexivity|cbn; lia].
    apply (made_call _ _ _ [] shared p0); [apply made_start|exact M1]. }
  cbn [s_arr lent] in K. congruence.
Qed.
Print Assumptions C101_capacity_is_needed.
