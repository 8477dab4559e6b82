(** Address strings and IPv6 addresses in conntrack updates (C71). *)
From Verif Require Export Proof.CtFacts Model.AddrText.

Lemma itoa3 n : 0 <= n < 256 ->
  itoa n = if n <? 10 then [48 + n] else if n <? 100 then [48 + n / 10; 48 + n mod 10] else [48 + n / 100; 48 + n / 10 mod 10; 48 + n mod 10].
Proof.
  intros H. unfold itoa.
  assert (D : exists f, 20%nat = S (S (S f))) by (exists 17%nat; reflexivity). destruct D as (f & ->). cbn [digits_rev].
  destruct (Z.ltb_spec n 10); [reflexivity|].
  destruct (Z.ltb_spec (n / 10) 10), (Z.ltb_spec n 100); try lia; [reflexivity|].
  destruct (Z.ltb_spec (n / 10 / 10) 10); [|lia]. cbn [rev app]. f_equal. lia.
Qed.
Definition no_digit (s : bytes) : Prop := match s with [] => True | x :: _ => x < 48 \/ 57 < x end.
Lemma dtoi_stop r n i : no_digit r -> i <> 0%nat -> dtoi_from r n i = (n, i, true).
Proof.
  intros H I. destruct r as [|x r]; cbn [dtoi_from]; destruct (Nat.eqb_spec i 0); try contradiction; [reflexivity|].
  cbn in H. destruct (Z.leb_spec 48 x), (Z.leb_spec x 57); cbn [andb]; try lia; reflexivity.
Qed.
Lemma dtoi_digit d r n i : 0 <= d < 10 -> 0 <= n < 100000 -> dtoi_from ((48 + d) :: r) n i = dtoi_from r (n * 10 + d) (S i).
Proof.
  intros D N. cbn [dtoi_from]. destruct (Z.leb_spec 48 (48 + d)), (Z.leb_spec (48 + d) 57); try lia. cbn [andb].
  destruct (Z.leb_spec 16777215 (n * 10 + (48 + d - 48))); [lia|]. f_equal. lia.
Qed.
Lemma dtoi_itoa n r : 0 <= n < 256 -> no_digit r ->
  dtoi (itoa n ++ r) = (n, length (itoa n), true) /\ skipn (length (itoa n)) (itoa n ++ r) = r /\ exists x l, itoa n = x :: l.
Proof.
  intros H R. rewrite itoa3 by exact H. unfold dtoi.
  destruct (Z.ltb_spec n 10); [|destruct (Z.ltb_spec n 100)]; cbn [app length].
  - rewrite dtoi_digit, dtoi_stop by (auto; lia). split; [do 2 f_equal; lia|]. split; [reflexivity|eauto].
  - rewrite !dtoi_digit, dtoi_stop by (auto; lia). split; [do 2 f_equal; lia|]. split; [reflexivity|eauto].
  - rewrite !dtoi_digit, dtoi_stop by (auto; lia). split; [do 2 f_equal; lia|]. split; [reflexivity|eauto].
Qed.
Lemma parse4_first k n r p : 0 <= n < 256 -> no_digit r -> parse4 (S k) true (itoa n ++ r) p = parse4 k false r (p ++ [n]).
Proof.
  intros H R. destruct (dtoi_itoa n r H R) as (D & S & x & l & E). cbn [parse4].
  destruct (itoa n ++ r) as [|y t] eqn:EQ; [rewrite E in EQ; discriminate|]. cbn [negb andb]. rewrite D. cbn [negb orb].
  destruct (Z.ltb_spec 255 n); [lia|]. rewrite S. unfold u8. rewrite Z.mod_small by lia. reflexivity.
Qed.
Lemma parse4_next k n r p : 0 <= n < 256 -> no_digit r -> parse4 (S k) false (46 :: itoa n ++ r) p = parse4 k false r (p ++ [n]).
Proof.
  intros H R. destruct (dtoi_itoa n r H R) as (D & S & _). cbn [parse4 negb andb]. rewrite Z.eqb_refl. cbn [negb andb]. rewrite D. cbn [negb orb].
  destruct (Z.ltb_spec 255 n); [lia|]. rewrite S. unfold u8. rewrite Z.mod_small by lia. reflexivity.
Qed.
Lemma parse_dotted a b c d : is_bytes [a; b; c; d] -> parseIPv4 (dotted a b c d) = mapped [a; b; c; d].
Proof.
  intros B. unfold is_bytes in B. inversion B as [|? ? Ba B1]; subst. inversion B1 as [|? ? Bb B2]; subst.
  inversion B2 as [|? ? Bc B3]; subst. inversion B3 as [|? ? Bd _]; subst. unfold is_byte in *.
  unfold parseIPv4, dotted. cbn [app].
  rewrite parse4_first by (auto; cbn; lia). rewrite parse4_next by (auto; cbn; lia). rewrite parse4_next by (auto; cbn; lia).
  rewrite <- (app_nil_r (itoa d)). rewrite parse4_next by (auto; cbn; lia). reflexivity.
Qed.
Lemma digits_before parse6 whole n r : 0 <= n < 256 -> parse_by parse6 whole (itoa n ++ r) = parse_by parse6 whole r.
Proof.
  intros H. assert (X : forall x t, 48 <= x <= 57 -> parse_by parse6 whole (x :: t) = parse_by parse6 whole t).
  { intros x t Hx. cbn [parse_by]. destruct (Z.eqb_spec x 46); [lia|]. destruct (Z.eqb_spec x 58); [lia|reflexivity]. }
  rewrite itoa3 by exact H. destruct (Z.ltb_spec n 10); [|destruct (Z.ltb_spec n 100)]; cbn [app]; rewrite !X by lia; reflexivity.
Qed.
Lemma parse_text parse6 four : is_bytes four -> length four = 4%nat -> ParseIP parse6 (ip_string four) = mapped four.
Proof.
  intros B L. destruct four as [|a [|b [|c [|d [|x r]]]]]; try discriminate. cbn [ip_string].
  unfold ParseIP. rewrite <- parse_dotted by exact B.
  assert (Ba : 0 <= a < 256) by (inversion B; auto). unfold dotted at 2. rewrite digits_before by exact Ba. reflexivity.
Qed.
(** only the last four bytes of a 16-byte address count *)
Lemma IP2int_low a : length a = 16%nat -> IP2int a = IP2int (skipn 12 a).
Proof.
  intros L. do 17 (destruct a as [|? a]; try discriminate L). reflexivity.
Qed.
Lemma mark_low m a b p sp dp mark : length a = 16%nat -> length b = 16%nat ->
  ConntrackTableUpdateMark m a b p sp dp mark = ConntrackTableUpdateMark m (skipn 12 a) (skipn 12 b) p sp dp mark.
Proof.
  intros A B. unfold ConntrackTableUpdateMark, buildConntrackUpdateRequest. rewrite (IP2int_low a A), (IP2int_low b B). reflexivity.
Qed.
Lemma check_low fl a b p sp dp : length a = 16%nat -> length b = 16%nat ->
  checkTuplesInFlow fl a b p sp dp = checkTuplesInFlow fl (skipn 12 a) (skipn 12 b) p sp dp.
Proof.
  intros A B. unfold checkTuplesInFlow, ip_eq. rewrite (IP2int_low a A), (IP2int_low b B). reflexivity.
Qed.
Lemma text_update parse6 m t mark hi e w :
  tuple5_ok t -> length (f_src t) = 4%nat -> length (f_dst t) = 4%nat -> is_u32 mark -> replies_within 20 hi e -> sockets_open e ->
  exists res w' new b,
    UpdateMark_text parse6 m (ip_string (f_src t)) (ip_string (f_dst t)) (f_proto t) (f_sport t) (f_dport t) mark e w = (Ok res, w') /\
    w_tr w' = w_tr w ++ new /\ ct_update m t [mark_attr mark] b /\ one_update m b new res.
Proof.
  intros T L1 L2 K R O. pose proof T as (S & D & T3). apply v4_addr_len in S as (S & _). apply v4_addr_len in D as (D & _).
  unfold UpdateMark_text. rewrite !parse_text by auto. rewrite mark_low by (unfold mapped; rewrite app_length; cbn [length]; lia).
  change (skipn 12 (mapped (f_src t))) with (f_src t). change (skipn 12 (mapped (f_dst t))) with (f_dst t).
  exact (UpdateMark_run m t mark hi e w T K R O).
Qed.
