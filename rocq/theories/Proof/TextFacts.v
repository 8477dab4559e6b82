(** Packet descriptions (C74). *)
From Verif Require Export Model.PacketText Spec.TextSpec Proof.IPText Proof.PktParse.
From Coq Require Import String.
From Verif Require Import Go.Base.

Lemma hex_value_digit d : 0 <= d < 16 -> hex_value (hexdigit d) = Some d.
Proof.
  intros H. unfold hex_value, hexdigit. destruct (Z.ltb_spec d 10).
  - destruct (Z.leb_spec 48 (48 + d)); [|lia]. destruct (Z.leb_spec (48 + d) 57); [|lia]. cbn [andb]. f_equal. lia.
  - destruct (Z.leb_spec (87 + d) 57); [lia|]. rewrite andb_false_r.
    destruct (Z.leb_spec 97 (87 + d)); [|lia]. destruct (Z.leb_spec (87 + d) 102); [|lia]. cbn [andb]. f_equal. lia.
Qed.
Lemma read_hexbytes l : is_bytes l -> read_hex (hexbytes l) = Some l.
Proof.
  induction l as [|x l IH]; intros H; [reflexivity|]. inversion H; subst. unfold is_byte in *.
  change (hexbytes (x :: l)) with (hexdigit (x / 16) :: hexdigit (x mod 16) :: hexbytes l).
  cbn [read_hex]. rewrite !hex_value_digit by (clear - H2; Z.to_euclidean_division_equations; lia). rewrite IH by assumption. pose proof (Z.div_mod x 16 ltac:(lia)). rewrite <- H0. reflexivity.
Qed.
Lemma hexbytes_no l c : is_bytes l -> 102 < c -> ~ In c (hexbytes l).
Proof.
  induction l as [|x l IH]; intros H C; [intros []|]. inversion H; subst. unfold is_byte in *.
  change (hexbytes (x :: l)) with (hexdigit (x / 16) :: hexdigit (x mod 16) :: hexbytes l).
  intros [E|[E|E]]; [| |exact (IH H3 C E)].
  - destruct (hexdigit_spec (x / 16)) as [D _]; [lia|]. unfold hexchar in D. lia.
  - destruct (hexdigit_spec (x mod 16)) as [D _]; [lia|]. unfold hexchar in D. lia.
Qed.
Lemma hex_number_app s1 : forall acc s2,
  hex_number acc (s1 ++ s2) = match hex_number acc s1 with Some a => hex_number a s2 | None => None end.
Proof. induction s1 as [|c r IH]; intros acc s2; [reflexivity|]. cbn [app hex_number]. destruct (hex_value c); [apply IH|reflexivity]. Qed.
Lemma hex_number_rev fuel : forall n, 0 <= n < 16 ^ Z.of_nat fuel -> (0 < fuel)%nat -> hex_number 0 (rev (hex_rev fuel n)) = Some n.
Proof.
  induction fuel as [|f IH]; intros n H F; [lia|]. cbn [hex_rev]. destruct (Z.ltb_spec n 16).
  - cbn [rev app hex_number]. rewrite hex_value_digit by lia. try reflexivity; f_equal; lia.
  - destruct f as [|f]; [cbn in H; lia|]. rewrite Nat2Z.inj_succ, Z.pow_succ_r in H by lia.
    cbn [rev]. rewrite hex_number_app, IH by lia. cbn [hex_number]. rewrite hex_value_digit by lia. f_equal. lia.
Qed.
Lemma hexstr_number n : 0 <= n < 65536 -> hex_number 0 (hexstr n) = Some n /\ hexstr n <> [].
Proof. intros H. split; [apply hex_number_rev; cbn; lia|apply hexstr_ne; exact H]. Qed.

Lemma last_split (c : Z) l1 : forall l2 s1 s2, ~ In c s1 -> ~ In c s2 -> l1 ++ c :: s1 = l2 ++ c :: s2 -> s1 = s2.
Proof.
  induction l1 as [|x l1 IH]; intros [|y l2] s1 s2 N1 N2 E; cbn [app] in E.
  - injection E; auto.
  - injection E as -> E. exfalso. apply N1. rewrite E. apply in_or_app. right. left. reflexivity.
  - injection E as -> E. exfalso. apply N2. rewrite <- E. apply in_or_app. right. left. reflexivity.
  - injection E as -> E. exact (IH l2 s1 s2 N1 N2 E).
Qed.

Lemma emitted_ok h p : tcp_agrees h p -> attached_ok h p -> is_bytes (GetTCPBytes h p).
Proof.
  intros ((_ & B & _) & _) (_ & _ & O & D & _). unfold GetTCPBytes. rewrite !is_bytes_app. auto.
Qed.
Lemma packet_text describe h p hd : tcp_agrees h p -> attached_ok h p -> describe (rd h (Buffer p)) = Some hd ->
  let b := rd h (Buffer p) in let o := hl p in
  exists sp dp ck dt,
    PacketToStringTCP describe h p =
      hd ++ text " srcport=" ++ sp ++ text " dstport=" ++ dp ++ text " tcpcksum=0x" ++ ck ++ text " data" ++ dt /\
    is_decimal (l4_sport b o) sp /\ is_decimal (l4_dport b o) dp /\
    ck <> [] /\ hex_number 0 ck = Some (tcp_checksum b o) /\
    read_hex dt = Some (GetTCPBytes h p).
Proof.
  intros T AO E b o. pose proof (emitted_ok h p T AO) as EB. destruct T as ((_ & B & _) & _ & LB & S). fold b o in LB.
  destruct S as (S1 & S2 & _ & _ & _ & _ & S7). fold b o in S1, S2, S7.
  unfold PacketToStringTCP. rewrite E.
  assert (R : forall k, (k + 2 <= length b)%nat -> 0 <= be16f b k < 65536) by (intros k K; apply (num2_range BE b k B K)).
  exists (itoa (SourcePort p)), (itoa (DestPort p)), (hexstr (tcpChecksum p)), (hexbytes (GetTCPBytes h p)).
  split; [reflexivity|]. rewrite S1, S2, S7.
  assert (C : 0 <= tcp_checksum b o < 65536) by (apply R; lia).
  split; [apply itoa_decimal; unfold l4_sport; pose proof (R o ltac:(lia)); lia|].
  split; [apply itoa_decimal; unfold l4_dport; pose proof (R (o + 2)%nat ltac:(lia)); lia|].
  destruct (hexstr_number (tcp_checksum b o) C) as [X Y]. split; [exact Y|]. split; [exact X|].
  apply read_hexbytes. exact EB.
Qed.
Lemma text_identifies describe h1 p1 h2 p2 : tcp_agrees h1 p1 -> attached_ok h1 p1 -> tcp_agrees h2 p2 -> attached_ok h2 p2 ->
  describe (rd h1 (Buffer p1)) <> None -> describe (rd h2 (Buffer p2)) <> None ->
  PacketToStringTCP describe h1 p1 = PacketToStringTCP describe h2 p2 -> GetTCPBytes h1 p1 = GetTCPBytes h2 p2.
Proof.
  intros T1 A1 T2 A2 D1 D2 E. pose proof (emitted_ok h1 p1 T1 A1) as B1. pose proof (emitted_ok h2 p2 T2 A2) as B2.
  unfold PacketToStringTCP in E.
  destruct (describe (rd h1 (Buffer p1))) as [hd1|]; [|congruence].
  destruct (describe (rd h2 (Buffer p2))) as [hd2|]; [|congruence].
  change (text " data") with ([32; 100; 97] ++ [116; 97]) in E.
  rewrite !app_assoc in E. rewrite <- !(app_assoc _ [116; 97]) in E. cbn [app] in E.
  apply last_split in E.
  - injection E as E. pose proof (read_hexbytes _ B1) as R1. pose proof (read_hexbytes _ B2) as R2. rewrite E in R1. congruence.
  - intros [X|X]; [discriminate X|]. exact (hexbytes_no _ 116 B1 ltac:(lia) X).
  - intros [X|X]; [discriminate X|]. exact (hexbytes_no _ 116 B2 ltac:(lia) X).
Qed.
