(** The text of an IPv6 address determines the address. *)
From Verif Require Export Proof.FlowHash.

(** ** Hexadecimal numerals *)
Definition hexchar (c : Z) : Prop := 48 <= c <= 57 \/ 97 <= c <= 102.
Definition unhex (c : Z) : Z := if c <=? 57 then c - 48 else c - 87.
Lemma hexdigit_spec d : 0 <= d < 16 -> hexchar (hexdigit d) /\ unhex (hexdigit d) = d.
Proof. intros H. unfold hexchar, unhex, hexdigit. destruct (Z.ltb_spec d 10); match goal with |- context [?a <=? 57] => destruct (Z.leb_spec a 57) end; lia. Qed.
Lemma hex_rev_spec fuel : forall n, 0 <= n < 16 ^ Z.of_nat fuel -> (0 < fuel)%nat ->
  hex_rev fuel n <> [] /\ Forall hexchar (hex_rev fuel n) /\
  fold_right (fun c a => a * 16 + unhex c) 0 (hex_rev fuel n) = n.
Proof.
  induction fuel as [|f IH]; intros n H F; [lia|]. cbn [hex_rev].
  destruct (Z.ltb_spec n 16).
  - destruct (hexdigit_spec n ltac:(lia)) as [D1 D2]. cbn [fold_right]. split; [discriminate|]. split; [constructor; auto|]. rewrite D2. lia.
  - destruct f as [|f]; [cbn in H; lia|]. rewrite Nat2Z.inj_succ, Z.pow_succ_r in H by lia.
    destruct (IH (n / 16)) as (I1 & I2 & I3); [lia|lia|]. destruct (hexdigit_spec (n mod 16) ltac:(lia)) as [D1 D2].
    cbn [fold_right]. split; [discriminate|]. split; [constructor; auto|]. rewrite I3, D2. lia.
Qed.
Definition grp (n : Z) : Prop := 0 <= n < 65536.
Lemma hexstr_ne n : grp n -> hexstr n <> [].
Proof.
  intros H. unfold hexstr. intros E. destruct (hex_rev_spec 8 n) as (N & _); [unfold grp in H; cbn; lia|lia|].
  apply N. rewrite <- (rev_involutive (hex_rev 8 n)), E. reflexivity.
Qed.
Lemma hexstr_no58 n : grp n -> ~ In 58 (hexstr n).
Proof.
  intros H I. unfold hexstr in I. apply in_rev in I. destruct (hex_rev_spec 8 n) as (_ & F & _); [unfold grp in H; cbn; lia|lia|].
  rewrite Forall_forall in F. apply F in I. unfold hexchar in I. lia.
Qed.
Lemma hexstr_inj m n : grp m -> grp n -> hexstr m = hexstr n -> m = n.
Proof.
  intros H1 H2 E. unfold hexstr in E.
  destruct (hex_rev_spec 8 m) as (_ & _ & V1); [unfold grp in H1; cbn; lia|lia|].
  destruct (hex_rev_spec 8 n) as (_ & _ & V2); [unfold grp in H2; cbn; lia|lia|].
  apply (f_equal (@rev Z)) in E. rewrite !rev_involutive in E. congruence.
Qed.
Lemma map_hexstr_inj l : forall l', Forall grp l -> Forall grp l' -> map hexstr l = map hexstr l' -> l = l'.
Proof.
  induction l as [|x l IH]; intros [|y l'] F F' E; cbn in E; try discriminate; [reflexivity|].
  injection E as E1 E2. inversion F; inversion F'; subst. f_equal; [apply hexstr_inj; auto|apply IH; auto].
Qed.

(** ** Splitting a text at the colons *)
Fixpoint splitc (s : bytes) : list bytes :=
  match s with
  | [] => [[]]
  | c :: r => if c =? 58 then [] :: splitc r
              else match splitc r with t :: ts => (c :: t) :: ts | [] => [[c]] end
  end.
Lemma splitc_ne s : splitc s <> [].
Proof. induction s as [|c r IH]; cbn; [discriminate|]. destruct (c =? 58); [discriminate|]. destruct (splitc r); discriminate. Qed.
Lemma splitc_app s r : splitc (s ++ 58 :: r) = splitc s ++ splitc r.
Proof.
  induction s as [|c s IH]; cbn [app splitc]; [reflexivity|]. destruct (c =? 58); [now rewrite IH|].
  rewrite IH. destruct (splitc s) as [|t ts] eqn:E; [now apply splitc_ne in E|]. reflexivity.
Qed.
Lemma splitc_plain t : ~ In 58 t -> splitc t = [t].
Proof.
  induction t as [|c t IH]; intros N; cbn [splitc]; [reflexivity|]. destruct (Z.eqb_spec c 58); [subst; exfalso; apply N; now left|].
  rewrite IH; [reflexivity|]. intros I. apply N. now right.
Qed.
Definition tokens (l : list bytes) : Prop := Forall (fun t => t <> [] /\ ~ In 58 t) l.
Lemma tokens_hex l : Forall grp l -> tokens (map hexstr l).
Proof. intros F. induction F; constructor; auto. split; [apply hexstr_ne|apply hexstr_no58]; auto. Qed.
Lemma splitc_join l : tokens l -> l <> [] -> splitc (join_colon l) = l.
Proof.
  induction l as [|t l IH]; intros T N; [congruence|]. inversion T as [|? ? [T1 T2] T3]; subst.
  destruct l as [|u l]; [apply splitc_plain; auto|]. change (join_colon (t :: u :: l)) with (t ++ [58] ++ join_colon (u :: l)).
  cbn [app]. rewrite splitc_app, splitc_plain by auto. cbn [app]. f_equal. apply IH; [auto|discriminate].
Qed.
Definition joined (l : list bytes) : list bytes := match l with [] => [[]] | _ => l end.
Lemma splitc_joined l : tokens l -> splitc (join_colon l) = joined l.
Proof. intros T. destruct l as [|t l]; [reflexivity|]. apply splitc_join; [auto|discriminate]. Qed.
Lemma joined_inj l l' : tokens l -> tokens l' -> joined l = joined l' -> l = l'.
Proof.
  intros T T' E. destruct l as [|t l], l' as [|t' l']; cbn [joined] in E; auto; exfalso.
  - injection E as E _. subst. inversion T' as [|? ? [X _]]. now apply X.
  - injection E as E _. subst. inversion T as [|? ? [X _]]. now apply X.
Qed.
(** the first empty token *)
Lemma first_empty (x y x' y' : list bytes) : tokens x -> tokens x' -> x ++ [] :: y = x' ++ [] :: y' -> x = x' /\ y = y'.
Proof.
  revert x'. induction x as [|a x IH]; intros [|a' x'] N N' E; cbn [app] in *.
  - injection E as E. auto.
  - injection E as E1 E2. exfalso. inversion N' as [|? ? [X _]]; subst. now apply X.
  - injection E as E1 E2. exfalso. inversion N as [|? ? [X _]]; subst. now apply X.
  - injection E as -> E2. inversion N; inversion N'; subst. destruct (IH x') as [-> ->]; auto.
Qed.
Lemma compressed_inj L R L' R' : tokens L -> tokens R -> tokens L' -> tokens R' ->
  joined L ++ [[]] ++ joined R = joined L' ++ [[]] ++ joined R' -> L = L' /\ R = R'.
Proof.
  intros T1 T2 T3 T4 E. destruct L as [|t L], L' as [|t' L'].
  - cbn in E. injection E as E. split; [reflexivity|]. apply joined_inj; auto.
  - cbn in E. injection E as E _. subst. inversion T3 as [|? ? [X _]]. exfalso. now apply X.
  - cbn in E. injection E as E _. subst. inversion T1 as [|? ? [X _]]. exfalso. now apply X.
  - change (joined (t :: L)) with (t :: L) in E. change (joined (t' :: L')) with (t' :: L') in E.
    change ([[]] ++ joined R) with ([] :: joined R) in E. change ([[]] ++ joined R') with ([] :: joined R') in E.
    apply first_empty in E; auto. destruct E as [E1 E2]. split; [exact E1|]. apply joined_inj; auto.
Qed.

(** ** The compressed run consists of zero groups *)
Lemma zrun_spec g : firstn (zrun g) g = repeat 0 (zrun g) /\ (zrun g <= length g)%nat.
Proof.
  induction g as [|x g IH]; [cbn; auto|]. destruct IH as [I1 I2].
  destruct x; cbn [zrun firstn repeat length]; [|split; [reflexivity|lia]..]. split; [now rewrite I1|lia].
Qed.
Definition zeros_at (g : list Z) (b : nat * nat) : Prop :=
  firstn (snd b) (skipn (fst b) g) = repeat 0 (snd b) /\ (fst b + snd b <= length g)%nat.
Lemma best_run_spec g : forall r i best, r = skipn i g -> (i <= length g)%nat -> zeros_at g best -> zeros_at g (best_run r i best).
Proof.
  induction r as [|x r IH]; intros i best E L H; cbn [best_run]; [exact H|].
  assert (Li : (i < length g)%nat).
  { destruct (Nat.eq_dec i (length g)); [|lia]. subst i. rewrite skipn_all in E. discriminate. }
  apply IH.
  - replace (S i) with (1 + i)%nat by lia. rewrite <- skipn_skipn, <- E. reflexivity.
  - lia.
  - destruct (snd best <? zrun (x :: r))%nat; [|exact H]. unfold zeros_at. cbn [fst snd]. rewrite <- E.
    destruct (zrun_spec (x :: r)) as [Z1 Z2]. split; [exact Z1|].
    assert (length (x :: r) = length g - i)%nat by (rewrite E; apply skipn_length). lia.
Qed.
Lemma run_zero g s n : best_run g 0 (O, O) = (s, n) -> firstn n (skipn s g) = repeat 0 n /\ (s + n <= length g)%nat.
Proof.
  intros E. pose proof (best_run_spec g g 0 (O, O) eq_refl ltac:(lia)) as X. rewrite E in X. apply X. split; cbn; [reflexivity|lia].
Qed.

(** ** ip6_string is injective on lists of the same number of groups *)
Lemma ip6_split g : Forall grp g -> (2 <= length g)%nat ->
  (splitc (ip6_string g) = map hexstr g) \/
  (exists s n, (2 <= n)%nat /\ firstn n (skipn s g) = repeat 0 n /\ (s + n <= length g)%nat /\
    splitc (ip6_string g) = joined (map hexstr (firstn s g)) ++ [[]] ++ joined (map hexstr (skipn (s + n) g))).
Proof.
  intros F LG. unfold ip6_string. destruct (best_run g 0 (O, O)) as [s n] eqn:E. destruct (run_zero g s n E) as [Z1 Z2].
  destruct (Nat.ltb_spec n 2).
  - left. apply splitc_join; [apply tokens_hex, F|]. destruct g; [cbn in LG; lia|discriminate].
  - right. exists s, n. split; [lia|]. split; [exact Z1|]. split; [exact Z2|].
    change ([58; 58] ++ join_colon (map hexstr (skipn (s + n) g))) with (58 :: 58 :: join_colon (map hexstr (skipn (s + n) g))).
    rewrite splitc_app. change (58 :: join_colon (map hexstr (skipn (s + n) g))) with ([] ++ 58 :: join_colon (map hexstr (skipn (s + n) g))).
    rewrite splitc_app. rewrite !splitc_joined; [reflexivity|apply tokens_hex..].
    + rewrite <- (firstn_skipn (s + n) g) in F. apply Forall_app in F. apply F.
    + rewrite <- (firstn_skipn s g) in F. apply Forall_app in F. apply F.
Qed.
Lemma tokens_no_empty l : tokens l -> ~ In [] l.
Proof. intros T I. unfold tokens in T. rewrite Forall_forall in T. apply T in I. destruct I as [I _]. now apply I. Qed.
Lemma zero_parts (g : list Z) s n : firstn n (skipn s g) = repeat 0 n -> g = firstn s g ++ repeat 0 n ++ skipn (s + n) g.
Proof.
  intros Z1. rewrite <- Z1. rewrite <- (firstn_skipn s g) at 1. f_equal.
  rewrite <- (firstn_skipn n (skipn s g)) at 1. f_equal. rewrite skipn_skipn. f_equal. lia.
Qed.
Lemma ip6_string_inj g g' : Forall grp g -> Forall grp g' -> (2 <= length g)%nat -> length g = length g' ->
  ip6_string g = ip6_string g' -> g = g'.
Proof.
  intros F F' LG LE E. apply (f_equal splitc) in E.
  assert (FS : forall l k, Forall grp l -> Forall grp (firstn k l) /\ Forall grp (skipn k l)).
  { intros l k Fl. rewrite <- (firstn_skipn k l) in Fl. apply Forall_app in Fl. exact Fl. }
  destruct (ip6_split g F LG) as [E1|(s & n & N2 & Z1 & Z2 & E1)]; destruct (ip6_split g' F' ltac:(lia)) as [E2|(s' & n' & N2' & Z1' & Z2' & E2)];
    rewrite E1, E2 in E.
  - apply map_hexstr_inj; auto.
  - exfalso. apply (tokens_no_empty (map hexstr g)); [apply tokens_hex, F|]. rewrite E. apply in_or_app. right. now left.
  - exfalso. apply (tokens_no_empty (map hexstr g')); [apply tokens_hex, F'|]. rewrite <- E. apply in_or_app. right. now left.
  - apply compressed_inj in E; [|apply tokens_hex, FS; auto..]. destruct E as [Q1 Q2].
    apply map_hexstr_inj in Q1; [|apply FS; auto..]. apply map_hexstr_inj in Q2; [|apply FS; auto..].
    assert (S1 : s = s') by (apply (f_equal (@length Z)) in Q1; rewrite !firstn_length in Q1; lia).
    assert (N1 : n = n') by (apply (f_equal (@length Z)) in Q2; rewrite !skipn_length in Q2; lia).
    subst s' n'. rewrite (zero_parts g s n Z1), (zero_parts g' s n Z1'). congruence.
Qed.

(** ** Addresses *)
Definition is_addr16 (a : bytes) : Prop := length a = 16%nat /\ is_bytes a.
Lemma groups_inj a : forall a', is_bytes a -> is_bytes a' -> length a = length a' -> Nat.even (length a) = true -> groups a = groups a' -> a = a'.
Proof.
  assert (X : forall n a a', (length a <= n)%nat -> is_bytes a -> is_bytes a' -> length a = length a' -> Nat.even (length a) = true -> groups a = groups a' -> a = a').
  { clear a. induction n as [|n IH]; intros a a' Ln B B' L EV E.
    - destruct a; [|cbn in Ln; lia]. destruct a'; [reflexivity|discriminate].
    - destruct a as [|x [|y a]]; destruct a' as [|x' [|y' a']]; try discriminate; [reflexivity|].
      cbn [groups] in E. injection E as E1 E2. inversion B as [|? ? B1 B2]; inversion B2 as [|? ? B3 B4]; inversion B' as [|? ? B1' B2']; inversion B2' as [|? ? B3' B4']; subst.
      unfold is_byte in *. assert (x = x') by lia. assert (y = y') by lia. subst. do 2 f_equal.
      apply IH; auto; cbn in *; try lia; try (now injection L); auto. }
  intros a'. apply (X (length a)). lia.
Qed.
Lemma groups_length16 a : is_addr16 a -> length (groups a) = 8%nat /\ Forall grp (groups a).
Proof.
  intros [L B]. do 17 (destruct a as [|? a]; try discriminate). cbn [groups length].
  unfold is_bytes in B. repeat match goal with H : Forall _ (_ :: _) |- _ => inversion H; subst; clear H end.
  split; [reflexivity|]. unfold is_byte, grp in *. repeat constructor; lia.
Qed.
Lemma mapped_or_not a : is_addr16 a ->
  (exists w x y z, a = [0;0;0;0;0;0;0;0;0;0;255;255;w;x;y;z] /\ ip_string a = dotted w x y z) \/ ip_string a = ip6_string (groups a).
Proof.
  intros [L B]. do 17 (destruct a as [|? a]; try discriminate). clear L B.
  unfold ip_string. change (length _ =? 16)%nat with true. cbv iota.
  repeat match goal with
  | |- context [match ?v with Z0 => _ | Zpos _ => _ | Zneg _ => _ end] => destruct v; try (right; reflexivity)
  | |- context [match ?v with xI _ => _ | xO _ => _ | xH => _ end] => destruct v; try (right; reflexivity)
  end.
  left. do 4 eexists. split; reflexivity.
Qed.
Lemma addr16_inj a b : is_addr16 a -> is_addr16 b -> ip_string a = ip_string b -> a = b.
Proof.
  intros A B E.
  assert (NM : forall c w x y z, is_addr16 c -> c = [0;0;0;0;0;0;0;0;0;0;255;255;w;x;y;z] -> small w /\ small x /\ small y /\ small z).
  { intros c w x y z [_ K] ->. unfold is_bytes in K. repeat match goal with H : Forall _ (_ :: _) |- _ => inversion H; subst; clear H end.
    unfold is_byte, small in *. lia. }
  assert (LS : forall c, is_addr16 c -> (2 <= length (splitc (ip6_string (groups c))))%nat).
  { intros c K. destruct (groups_length16 c K) as [L8 F]. destruct (ip6_split (groups c) F ltac:(lia)) as [X|(s & n & _ & _ & _ & X)]; rewrite X.
    - rewrite map_length. lia.
    - rewrite !app_length. cbn [length]. assert (forall l, (1 <= length (joined l))%nat) by (intros [|? ?]; cbn; lia).
      pose proof (H (map hexstr (firstn s (groups c)))). lia. }
  destruct (mapped_or_not a A) as [(w & x & y & z & EA & TA)|TA]; destruct (mapped_or_not b B) as [(w' & x' & y' & z' & EB & TB)|TB]; rewrite TA, TB in E.
  - destruct (NM a w x y z A EA) as (S1 & S2 & S3 & S4). destruct (NM b w' x' y' z' B EB) as (S5 & S6 & S7 & S8).
    apply dotted_inj in E; auto. destruct E as (-> & -> & -> & ->). congruence.
  - exfalso. destruct (NM a w x y z A EA) as (S1 & S2 & S3 & S4). specialize (LS b B). rewrite <- E in LS.
    rewrite splitc_plain in LS by (apply dotted_no58; auto). cbn in LS. lia.
  - exfalso. destruct (NM b w' x' y' z' B EB) as (S1 & S2 & S3 & S4). specialize (LS a A). rewrite E in LS.
    rewrite splitc_plain in LS by (apply dotted_no58; auto). cbn in LS. lia.
  - destruct (groups_length16 a A) as [L1 F1]. destruct (groups_length16 b B) as [L2 F2].
    apply ip6_string_inj in E; auto; [|lia|lia]. destruct A as [LA BA], B as [LB BB].
    apply groups_inj; auto; [lia|]. rewrite LA. reflexivity.
Qed.
(** the number of tokens of an address without adjacent zero groups *)
Lemma uncompressed_tokens a : is_addr16 a ->
  (forall i, (i < 7)%nat -> ~ (nth i (groups a) 0 = 0 /\ nth (S i) (groups a) 0 = 0)) -> length (splitc (ip_string a)) = 8%nat.
Proof.
  intros A U. destruct (groups_length16 a A) as [L8 F]. destruct (mapped_or_not a A) as [(w & x & y & z & EA & TA)|TA].
  - exfalso. apply (U 0%nat); [lia|]. rewrite EA. cbn. auto.
  - rewrite TA. destruct (ip6_split (groups a) F ltac:(lia)) as [X|(s & n & N2 & Z1 & Z2 & X)]; [rewrite X, map_length; exact L8|].
    exfalso. apply (U s); [lia|]. destruct n as [|[|n]]; try lia.
    pose proof (f_equal (fun l => nth 0 l 0) Z1) as Y0. pose proof (f_equal (fun l => nth 1 l 0) Z1) as Y1. cbn [repeat nth] in Y0, Y1.
    rewrite nth_firstn' in Y0 by lia. rewrite nth_firstn' in Y1 by lia. rewrite nth_skipn' in Y0, Y1.
    replace (s + 0)%nat with s in Y0 by lia. replace (s + 1)%nat with (S s) in Y1 by lia. auto.
Qed.
Lemma app_len_inj {A} (a b a' b' : list A) : length a = length a' -> a ++ b = a' ++ b' -> a = a' /\ b = b'.
Proof. revert a'. induction a as [|x a IH]; intros [|x' a'] L E; cbn in *; try discriminate; auto. injection E as -> E. destruct (IH a') as [-> ->]; auto. Qed.
Lemma splitc_inj s s' : splitc s = splitc s' -> s = s'.
Proof.
  assert (X : forall s, join_colon (splitc s) = s).
  { clear. induction s as [|c s IH]; [reflexivity|]. cbn [splitc]. destruct (Z.eqb_spec c 58).
    - subst c. destruct (splitc s) as [|t ts] eqn:E; [now apply splitc_ne in E|]. rewrite <- IH. reflexivity.
    - destruct (splitc s) as [|t ts] eqn:E; [now apply splitc_ne in E|]. rewrite <- IH. destruct ts; reflexivity. }
  intros E. rewrite <- (X s), <- (X s'). congruence.
Qed.

Lemma agreed_flow6 h p : tcp_agrees h p \/ udp_agrees h p -> version p = V6 ->
  is_addr16 (SourceAddress p) /\ is_addr16 (DestinationAddress p) /\ small (SourcePort p) /\ small (DestPort p).
Proof.
  intros A V. assert (I : ip_agrees h p) by (destruct A as [A|A]; apply A).
  assert (PT : (hl p + 4 <= length (rd h (Buffer p)))%nat /\ SourcePort p = l4_sport (rd h (Buffer p)) (hl p) /\ DestPort p = l4_dport (rd h (Buffer p)) (hl p)).
  { destruct A as [A|A]; destruct A as (_ & _ & L & S); destruct S as (S1 & S2 & _) || destruct S as (S1 & S2); split; auto; lia. }
  destruct PT as (PL & P1 & P2). destruct I as (VB & IB & BS & M). rewrite V in M.
  destruct M as (M1 & _ & _ & _ & _ & M7 & M8).
  assert (FB : forall o, (o + 16 <= length (rd h (Buffer p)))%nat -> is_addr16 (field (rd h (Buffer p)) o 16)).
  { intros o L. split; [apply field_length; lia|]. unfold field. apply is_bytes_firstn, is_bytes_skipn, IB. }
  assert (FP : forall o, (o + 2 <= length (rd h (Buffer p)))%nat -> small (be16f (rd h (Buffer p)) o)).
  { intros o L. unfold be16f, small. pose proof (num2_range BE (rd h (Buffer p)) o IB L) as X. unfold is_u16 in X. lia. }
  split; [rewrite M7; apply FB; lia|]. split; [rewrite M8; apply FB; lia|]. rewrite P1, P2. split; apply FP; lia.
Qed.
Lemma uncompressed_groups a : is_addr16 a -> uncompressed a ->
  forall i, (i < 7)%nat -> ~ (nth i (groups a) 0 = 0 /\ nth (S i) (groups a) 0 = 0).
Proof.
  intros [L _] U i Hi (E1 & E2). apply (U i Hi). do 17 (destruct a as [|? a]; try discriminate). clear L U.
  do 7 (destruct i as [|i]; [cbn in E1, E2 |- *; unfold be16f, field, num; cbn; lia|]). lia.
Qed.
Lemma hash6 : forall h1 p1 h2 p2,
  tcp_agrees h1 p1 \/ udp_agrees h1 p1 -> tcp_agrees h2 p2 \/ udp_agrees h2 p2 -> version p1 = V6 -> version p2 = V6 ->
  L4FlowHash p1 = l4FlowHash p1 -> L4FlowHash p2 = l4FlowHash p2 ->
  (same_flow p1 p2 -> L4FlowHash p1 = L4FlowHash p2) /\
  (L4FlowHash p1 = L4FlowHash p2 ->
     SourcePort p1 = SourcePort p2 /\ DestPort p1 = DestPort p2 /\
     (SourceAddress p1 = SourceAddress p2 -> same_flow p1 p2) /\
     (DestinationAddress p1 = DestinationAddress p2 -> same_flow p1 p2) /\
     (uncompressed (SourceAddress p1) -> uncompressed (SourceAddress p2) -> same_flow p1 p2) /\
     (uncompressed (DestinationAddress p1) -> uncompressed (DestinationAddress p2) -> same_flow p1 p2)).
Proof.
  intros h1 p1 h2 p2 A1 A2 V1 V2 H1 H2.
  destruct (agreed_flow6 h1 p1 A1 V1) as (S1 & D1 & P1 & Q1). destruct (agreed_flow6 h2 p2 A2 V2) as (S2 & D2 & P2 & Q2).
  rewrite H1, H2.
  change (l4FlowHash p1) with (flow_text (SourceAddress p1) (DestinationAddress p1) (SourcePort p1) (DestPort p1)).
  change (l4FlowHash p2) with (flow_text (SourceAddress p2) (DestinationAddress p2) (SourcePort p2) (DestPort p2)).
  split; [intros (-> & -> & -> & ->); reflexivity|]. intros E. apply hash_ports in E; auto. destruct E as (E1 & E2 & E).
  split; [exact E1|]. split; [exact E2|]. unfold same_flow. rewrite E1, E2.
  set (s1 := SourceAddress p1) in *. set (d1 := DestinationAddress p1) in *. set (s2 := SourceAddress p2) in *. set (d2 := DestinationAddress p2) in *.
  assert (TK : splitc (ip_string s1) ++ splitc (ip_string d1) = splitc (ip_string s2) ++ splitc (ip_string d2)).
  { rewrite <- !splitc_app. apply (f_equal splitc) in E. exact E. }
  assert (K : length (splitc (ip_string s1)) = length (splitc (ip_string s2)) -> s1 = s2 /\ d1 = d2).
  { intros L. apply app_len_inj in TK; [|exact L]. destruct TK as [T1 T2]. apply splitc_inj in T1. apply splitc_inj in T2.
    split; apply addr16_inj; auto. }
  assert (K2 : length (splitc (ip_string d1)) = length (splitc (ip_string d2)) -> s1 = s2 /\ d1 = d2).
  { intros L. apply K. apply (f_equal (@length bytes)) in TK. rewrite !app_length in TK. lia. }
  split; [intros X; destruct K as [-> ->]; auto; now rewrite X|].
  split; [intros X; destruct K2 as [-> ->]; auto; now rewrite X|].
  split.
  - intros U1 U2. destruct K as [-> ->]; auto.
    rewrite !uncompressed_tokens; auto using uncompressed_groups.
  - intros U1 U2. destruct K2 as [-> ->]; auto.
    rewrite !uncompressed_tokens; auto using uncompressed_groups.
Qed.

(** ** The hash, exactly: ports and the joined address texts *)
Lemma flow_text_iff s d sp dp s' d' sp' dp' : small sp -> small dp -> small sp' -> small dp' ->
  flow_text s d sp dp = flow_text s' d' sp' dp' <->
  sp = sp' /\ dp = dp' /\ ip_string s ++ [58] ++ ip_string d = ip_string s' ++ [58] ++ ip_string d'.
Proof.
  intros P1 P2 P3 P4. split; [apply hash_ports; auto|]. intros (E1 & E2 & E3). unfold flow_text. subst sp' dp'.
  assert (X : forall a b u v, ip_string a ++ [58] ++ ip_string b ++ [58] ++ u ++ [58] ++ v =
              (ip_string a ++ [58] ++ ip_string b) ++ [58] ++ u ++ [58] ++ v).
  { intros. rewrite <- !app_assoc. reflexivity. }
  rewrite !X, E3. reflexivity.
Qed.
Lemma hash6_exact : forall h1 p1 h2 p2,
  tcp_agrees h1 p1 \/ udp_agrees h1 p1 -> tcp_agrees h2 p2 \/ udp_agrees h2 p2 -> version p1 = V6 -> version p2 = V6 ->
  L4FlowHash p1 = l4FlowHash p1 -> L4FlowHash p2 = l4FlowHash p2 ->
  (L4FlowHash p1 = L4FlowHash p2 <->
     SourcePort p1 = SourcePort p2 /\ DestPort p1 = DestPort p2 /\
     ip_string (SourceAddress p1) ++ [58] ++ ip_string (DestinationAddress p1) =
     ip_string (SourceAddress p2) ++ [58] ++ ip_string (DestinationAddress p2)) /\
  (L4ReverseFlowHash p1 = L4FlowHash p2 <->
     DestPort p1 = SourcePort p2 /\ SourcePort p1 = DestPort p2 /\
     ip_string (DestinationAddress p1) ++ [58] ++ ip_string (SourceAddress p1) =
     ip_string (SourceAddress p2) ++ [58] ++ ip_string (DestinationAddress p2)).
Proof.
  intros h1 p1 h2 p2 T1 T2 V1 V2 E1 E2. rewrite E1, E2.
  destruct (agreed_flow6 h1 p1 T1 V1) as (A1 & A2 & A3 & A4). destruct (agreed_flow6 h2 p2 T2 V2) as (B1 & B2 & B3 & B4).
  rewrite (hash_text p1), (hash_text p2), (reverse_text p1). split; apply flow_text_iff; auto.
Qed.
