(** Reading messages assembled from header, nfgen and attributes. *)
From Verif Require Export Proof.CommonProps.

Lemma attrs_go_S f e b :
  attrs_go (S f) e b =
  match b with
  | [] => Some []
  | _ =>
      let l := Z.to_nat (num e (field b 0 2)) in
      if (length b <? 4)%nat || (l <? 4)%nat || (length b <? l)%nat then None
      else match attrs_go f e (skipn (al4 l) b) with
           | None => None
           | Some rest => Some ((num e (field b 2 2), field b 4 (l - 4)) :: rest)
           end
  end.
Proof. reflexivity. Qed.

Lemma attrs_go_fuel e : forall n b f g,
  (length b <= n)%nat -> (length b < f)%nat -> (length b < g)%nat -> attrs_go f e b = attrs_go g e b.
Proof.
  induction n as [|n IH]; intros b f g Hn Hf Hg;
    (destruct f as [|f]; [lia|]); (destruct g as [|g]; [lia|]); rewrite !attrs_go_S.
  - destruct b; [reflexivity|cbn in Hn; lia].
  - destruct b as [|b0 bs] eqn:Eb; [reflexivity|]. rewrite <- Eb in *.
    cbv zeta. set (l := Z.to_nat (num e (field b 0 2))).
    destruct (Nat.ltb_spec (length b) 4) as [C|C]; [reflexivity|].
    destruct (Nat.ltb_spec l 4) as [F|F]; [reflexivity|].
    destruct (Nat.ltb_spec (length b) l) as [D|D]; [reflexivity|]. cbn [orb].
    pose proof (al4_spec l).
    rewrite (IH (skipn (al4 l) b) f g); [reflexivity| | |]; rewrite skipn_length; lia.
Qed.

Lemma attr_bytes_length m a : length (attr_bytes m a) = 4%nat.
Proof. destruct m; reflexivity. Qed.
Lemma field_attr_len m l t r : is_u16 l -> num m (field (attr_bytes m (mkAttr l t) ++ r) 0 2) = l.
Proof. intros H; red in H. destruct m; cbn; lia. Qed.
Lemma field_attr_type m l t r : is_u16 t -> num m (field (attr_bytes m (mkAttr l t) ++ r) 2 2) = t.
Proof. intros H; red in H. destruct m; cbn; lia. Qed.

Lemma attrs_of_nil m : attrs_of m [] = Some [].
Proof. reflexivity. Qed.
Lemma attrs_of_cons m l t v pad rest lr :
  l = 4 + zlen v -> is_u16 l -> is_u16 t ->
  (length pad = al4 (length v) - length v)%nat ->
  attrs_of m rest = Some lr ->
  attrs_of m (attr_bytes m (mkAttr l t) ++ v ++ pad ++ rest) = Some ((t, v) :: lr).
Proof.
  intros Hl Rl Rt Hp Hr. unfold attrs_of at 1. rewrite attrs_go_S.
  set (b := attr_bytes m (mkAttr l t) ++ v ++ pad ++ rest).
  assert (Hb : length b = (4 + length v + length pad + length rest)%nat).
  { unfold b. rewrite !app_length, attr_bytes_length. lia. }
  destruct b as [|b0 bs] eqn:Eb; [cbn in Hb; lia|]. rewrite <- Eb in *.
  cbv zeta.
  assert (Hln : Z.to_nat l = (4 + length v)%nat) by (unfold zlen in Hl; lia).
  assert (Etp : num m (field b 2 2) = t) by (unfold b; apply field_attr_type, Rt).
  assert (Eln : Z.to_nat (num m (field b 0 2)) = (4 + length v)%nat).
  { unfold b. rewrite field_attr_len by exact Rl. exact Hln. }
  rewrite Eln, Etp.
  pose proof (al4_spec (length v)) as [A1 A2].
  assert (A4 : al4 (4 + length v) = (4 + al4 (length v))%nat) by (unfold al4; lia).
  destruct (Nat.ltb_spec (length b) 4) as [C|C]; [lia|].
  destruct (Nat.ltb_spec (4 + length v) 4) as [F|F]; [lia|].
  destruct (Nat.ltb_spec (length b) (4 + length v)) as [D|D]; [lia|]. cbn [orb].
  assert (Hs : skipn (al4 (4 + length v)) b = rest).
  { unfold b. rewrite A4, (app_assoc v pad rest), app_assoc. apply skipn_app_exact.
    rewrite !app_length, attr_bytes_length. lia. }
  rewrite Hs.
  rewrite (attrs_go_fuel m (length rest) rest (length b) (S (length rest))) by lia.
  unfold attrs_of in Hr. rewrite Hr.
  replace (4 + length v - 4)%nat with (length v) by lia.
  unfold b. unfold field at 1. rewrite skipn_app_exact by apply attr_bytes_length.
  rewrite firstn_app_exact by reflexivity. reflexivity.
Qed.
Lemma attrs_of_last m l t v :
  l = 4 + zlen v -> is_u16 l -> is_u16 t ->
  attrs_of m (attr_bytes m (mkAttr l t) ++ v) = Some [(t, v)].
Proof.
  intros Hl Rl Rt. unfold attrs_of at 1. rewrite attrs_go_S.
  set (b := attr_bytes m (mkAttr l t) ++ v).
  assert (Hb : length b = (4 + length v)%nat).
  { unfold b. rewrite !app_length, attr_bytes_length. lia. }
  destruct b as [|b0 bs] eqn:Eb; [cbn in Hb; lia|]. rewrite <- Eb in *.
  cbv zeta.
  assert (Eln : Z.to_nat (num m (field b 0 2)) = (4 + length v)%nat).
  { unfold b. rewrite field_attr_len by exact Rl. unfold zlen in Hl. lia. }
  assert (Etp : num m (field b 2 2) = t) by (unfold b; apply field_attr_type, Rt).
  rewrite Eln, Etp.
  destruct (Nat.ltb_spec (length b) 4) as [C|C]; [lia|].
  destruct (Nat.ltb_spec (4 + length v) 4) as [F|F]; [lia|].
  destruct (Nat.ltb_spec (length b) (4 + length v)) as [D|D]; [lia|]. cbn [orb].
  pose proof (al4_spec (4 + length v)).
  rewrite skipn_all2 by lia. rewrite Hb. cbn [attrs_go Nat.add].
  replace (S (S (S (S (length v)))) - 4)%nat with (length v) by lia.
  unfold b, field. rewrite skipn_app_exact by apply attr_bytes_length.
  rewrite firstn_all. reflexivity.
Qed.

(** the header and nfgen part of a message *)
Lemma read_message_build m hdr g body tailpad l :
  hdr_in_range hdr -> is_u8 (g_fam g) -> is_u8 (g_ver g) -> is_u16 (g_res g) ->
  n_len hdr = 20 + zlen body ->
  (length tailpad = al4 (length body) - length body)%nat ->
  attrs_of m body = Some l ->
  read_message m (hdr_bytes m hdr ++ gen_bytes g ++ body ++ tailpad) =
  Some (mkMsg (n_type hdr) (n_flags hdr) (n_seq hdr) (n_pid hdr) (g_fam g) (g_ver g) (g_res g) l).
Proof.
  intros (R1 & R2 & R3 & R4 & R5) G1 G2 G3 Hl Hp Ha.
  set (b := hdr_bytes m hdr ++ gen_bytes g ++ body ++ tailpad).
  assert (Hb : length b = (20 + length body + length tailpad)%nat).
  { unfold b. rewrite !app_length, hdr_bytes_length. cbn. lia. }
  destruct hdr as [len ty fl sq pd]. destruct g as [fa ve rs].
  cbn [n_len n_type n_flags n_seq n_pid g_fam g_ver g_res] in *.
  unfold is_u32, is_u16, is_u8 in *.
  unfold read_message.
  assert (E0 : num m (field b 0 4) = len) by (unfold b; destruct m; cbn; lia).
  assert (E1 : num m (field b 4 2) = ty) by (unfold b; destruct m; cbn; lia).
  assert (E2 : num m (field b 6 2) = fl) by (unfold b; destruct m; cbn; lia).
  assert (E3 : num m (field b 8 4) = sq) by (unfold b; destruct m; cbn; lia).
  assert (E4 : num m (field b 12 4) = pd) by (unfold b; destruct m; cbn; lia).
  assert (E5 : num m (field b 16 1) = fa) by (unfold b; destruct m; cbn; lia).
  assert (E6 : num m (field b 17 1) = ve) by (unfold b; destruct m; cbn; lia).
  assert (E7 : num BE (field b 18 2) = rs) by (unfold b; destruct m; cbn; lia).
  rewrite E0, E1, E2, E3, E4, E5, E6, E7.
  assert (EL : Z.to_nat len = (20 + length body)%nat) by (unfold zlen in Hl; lia).
  rewrite EL. cbv zeta.
  destruct (Nat.ltb_spec (20 + length body) 20); [lia|].
  destruct (Nat.eqb_spec (length b) (al4 (20 + length body))) as [_|N].
  2:{ exfalso. apply N. rewrite Hb, Hp. unfold al4. lia. }
  cbn [orb negb].
  replace (20 + length body - 20)%nat with (length body) by lia.
  assert (ES : skipn 20 b = body ++ tailpad) by (unfold b; destruct m; reflexivity).
  rewrite ES, firstn_app_exact by reflexivity. rewrite Ha. reflexivity.
Qed.
