(** SetVerdict on packets of 65532 to 65535 bytes *)
From Verif Require Export Proof.Verdict.

Lemma SetVerdict_any m grow v id p pkt e w fd :
  verdict_ready w fd -> packet_in w p pkt -> (1 <= length pkt <= Z.to_nat 65535)%nat ->
  let al := NfaLength (zlen pkt) in
  exists w' new,
    SetVerdict m grow v (zlen pkt) id p e w = (Ok tt, w') /\
    w_tr w' = w_tr w ++ new /\
    sends_one fd [sv1_bytes m (q_num (w_st w)) v al id; attr_bytes m (mkAttr al 10);
                  firstn (Z.to_nat (NfaAlign (zlen pkt))) (pkt ++ verdict_pad (zlen pkt))] new /\
    w_st w' = counted (w_st w) v.
Proof.
  intros ((buf & Hh) & Vh & Lh & N) (Vp & Rp & Np) L al.
  pose proof (valid_len _ _ Vp) as Lp. rewrite Rp in Lp.
  assert (EU : u16 (zlen pkt) = zlen pkt) by (unfold u16, zlen; lia).
  assert (HA : 0 <= al < 65536).
  { unfold al, NfaLength. rewrite NfaAlign_spec by (unfold is_u16, u16; lia).
    assert (0 <= u16 (zlen pkt + SizeofNfAttr) < 65536) by (unfold u16; lia).
    destruct (_ <=? _) eqn:E; lia. }
  unfold SetVerdict. rewrite EU. fold al. mstep. mstep. cbn [BuildNfgenMsg BuildNfAttrMsg].
  rewrite NfAttr_ToWireFormat_ok. mstep.
  rewrite SerializeNlMsgHdr_ok. mstep. rewrite NfqGenMsg_ToWireFormat_ok. mstep.
  rewrite NfAttr_ToWireFormat_ok. mstep. rewrite VerdictHdr_ok. mstep.
  match goal with |- context [m_alloc ?b 0] =>
    replace b with (sv1_bytes m (q_num (w_st w)) v al id) end.
  2:{ red in N. unfold sv1_bytes. replace (u16 (q_num (w_st w))) with (q_num (w_st w)) by (unfold u16; lia).
      cbn [set_n_len n_len a_len]. change (u32 (_ + al)) with (u32 (32 + al)).
      replace (u32 (32 + al)) with (32 + al) by (unfold u32; lia). reflexivity. }
  set (hb := sv1_bytes m (q_num (w_st w)) v al id).
  fold (counted (w_st w) v).
  change (if v =? 1 then _ else _) with (counted (w_st w) v).
  unfold m_alloc. cbn [alloc]. mstep. mstep. mstep. mstep. mstep.
  set (h1 := w_heap w ++ [hb ++ repeat 0 0]).
  assert (E0 : iov_read h1 (mkSl (length (w_heap w)) 0 (length hb) (length hb + 0)) (Z.of_nat 32) = Ok hb).
  { replace 32%nat with (s_len (mkSl (length (w_heap w)) 0 (length hb) (length hb + 0)))
      by (cbn [s_len]; unfold hb; apply sv1_bytes_length).
    rewrite iov_read_all.
    - f_equal. exact (rd_alloc_new (w_heap w) hb 0).
    - split; cbn [s_len s_cap s_arr s_off]; [lia|right]. unfold h1. rewrite app_length. cbn [length].
      split; [lia|]. unfold arr. rewrite app_nth2 by lia. rewrite Nat.sub_diag. cbn [nth].
      rewrite app_length, repeat_length. lia.
    - cbn [s_len]. unfold hb. rewrite sv1_bytes_length. lia. }
  mstep.
  match goal with |- context [iov_read h1 _ ?n] => change n with (Z.of_nat 32) end.
  rewrite E0. mstep.
  assert (R1 : rd h1 p = pkt).
  { destruct Vp as [Vp1 [Vp2|[Vp2 Vp3]]]; [lia|].
    rewrite <- Rp. exact (rd_alloc_old (w_heap w) hb 0 p Vp2). }
  assert (K1 : forall x, valid (w_heap w) x -> valid h1 x) by (intros; apply valid_app; assumption).
  destruct (append_pad_run grow p (verdict_pad (zlen pkt)) e (mkW (counted (w_st w) v) h1 (w_tr w)))
    as (h2 & p2 & EP & AP); [apply K1, Vp|lia|].
  rewrite (bind_ok _ _ _ _ _ _ EP). cbn [w_heap w_st w_tr] in *. mstep.
  assert (EL : 0 <= NfaAlign (zlen pkt) <= Z.of_nat (s_len p2)).
  { rewrite (ap_len _ _ _ _ _ AP). rewrite NfaAlign_spec by (unfold is_u16, zlen; lia).
    destruct (Z.leb_spec (zlen pkt) 65532) as [Q|Q]; [|lia].
    replace (verdict_pad (zlen pkt)) with (pad4 (length pkt)) by (symmetry; apply verdict_pad_spec; unfold zlen in Q; lia). unfold pad4. rewrite repeat_length.
    unfold zlen, al4 in *. lia. }
  destruct (Z_of_nat_complete _ (proj1 EL)) as [n En]. rewrite En in *. rewrite Nat2Z.id.
  rewrite iov_read_prefix; [|apply (ap_valid _ _ _ _ _ AP)| |lia].
  2:{ rewrite (ap_len _ _ _ _ _ AP). lia. }
  rewrite (ap_rd _ _ _ _ _ AP). cbn [w_heap]. rewrite R1. mstep.
  rewrite Hh. cbn [k_fd].
  match goal with |- context [sendmsg fd ?iov e ?w0] =>
    destruct (sendmsg_run fd iov e w0) as (new & ES & SO) end.
  eexists; exists new. split; [exact ES|]. cbn [w_tr w_st]. split; [reflexivity|].
  split; [exact SO|reflexivity].
Qed.
Lemma SetVerdict_65532 m grow v id p pkt e w fd :
  verdict_ready w fd -> packet_in w p pkt -> length pkt = Z.to_nat 65532 ->
  exists w' new iov,
    SetVerdict m grow v (zlen pkt) id p e w = (Ok tt, w') /\
    w_tr w' = w_tr w ++ new /\ sends_one fd iov new /\ read_message m (concat iov) = None.
Proof.
  intros R P L.
  assert (Z1 : zlen pkt = 65532) by (unfold zlen; lia).
  destruct (SetVerdict_any m grow v id p pkt e w fd R P) as (w' & new & H1 & H2 & H3 & _); [lia|].
  exists w', new. eexists. split; [exact H1|]. split; [exact H2|]. split; [exact H3|].
  rewrite Z1. change (NfaLength 65532) with 0. change (NfaAlign 65532) with 65532.
  cbn [concat]. rewrite app_nil_r. unfold sv1_bytes. rewrite <- !app_assoc.
  apply read_message_wrong_length; cbn [n_len]; [red; lia|].
  rewrite !app_length, firstn_length, !app_length. unfold al4. lia.
Qed.
Lemma SetVerdict_truncates m grow v id p pkt e w fd :
  verdict_ready w fd -> packet_in w p pkt -> is_u32 v -> is_u32 id ->
  (Z.to_nat 65533 <= length pkt <= Z.to_nat 65535)%nat ->
  exists w' new,
    SetVerdict m grow v (zlen pkt) id p e w = (Ok tt, w') /\
    w_tr w' = w_tr w ++ new /\
    sends_message m fd (verdict1_message m (q_num (w_st w)) v id []) new.
Proof.
  intros R P V I L.
  destruct (SetVerdict_any m grow v id p pkt e w fd R P) as (w' & new & H1 & H2 & H3 & _); [lia|].
  exists w', new. split; [exact H1|]. split; [exact H2|]. eexists. split; [exact H3|].
  destruct R as (_ & _ & _ & N).
  assert (A : NfaAlign (zlen pkt) = 0).
  { rewrite NfaAlign_spec by (unfold is_u16, zlen; lia). destruct (Z.leb_spec (zlen pkt) 65532); [unfold zlen in *; lia|reflexivity]. }
  assert (B : NfaLength (zlen pkt) = 4).
  { unfold NfaLength. assert (U : 1 <= u16 (zlen pkt + SizeofNfAttr) <= 3) by (unfold u16, SizeofNfAttr, zlen; lia).
    rewrite NfaAlign_spec by (unfold is_u16; lia). destruct (Z.leb_spec (u16 (zlen pkt + SizeofNfAttr)) 65532); lia. }
  rewrite A, B. change (Z.to_nat 0) with 0%nat. cbn [firstn concat]. rewrite !app_nil_r.
  pose proof (sv1_message m (q_num (w_st w)) v id [] N V I ltac:(cbn; lia) eq_refl) as X.
  change (4 + zlen []) with 4 in X. rewrite app_nil_r in X. exact X.
Qed.

(** ** Exactly which packets arrive as they are *)
Lemma sends_one_iov fd i1 i2 evs : sends_one fd i1 evs -> sends_one fd i2 evs -> i1 = i2.
Proof.
  intros (r & [(A & ->)|(en & r' & A & ->)]) (r2 & [(B & E)|(en2 & r2' & B & E)]); try discriminate E; congruence.
Qed.
Lemma sends_message_unique m fd m1 m2 evs : sends_message m fd m1 evs -> sends_message m fd m2 evs -> m1 = m2.
Proof. intros (i1 & A1 & B1) (i2 & A2 & B2). rewrite (sends_one_iov _ _ _ _ A1 A2) in B1. congruence. Qed.
Lemma sends_message_none m fd iov msg evs : sends_one fd iov evs -> read_message m (concat iov) = None -> sends_message m fd msg evs -> False.
Proof. intros A N (i2 & A2 & B2). rewrite (sends_one_iov _ _ _ _ A A2) in N. congruence. Qed.
Lemma SetVerdict_exact m grow v id p pkt e w fd :
  verdict_ready w fd -> packet_in w p pkt -> is_u32 v -> is_u32 id -> (1 <= length pkt <= Z.to_nat 65535)%nat ->
  exists w' new,
    SetVerdict m grow v (zlen pkt) id p e w = (Ok tt, w') /\ w_tr w' = w_tr w ++ new /\
    (sends_message m fd (verdict1_message m (q_num (w_st w)) v id pkt) new <->
     (length pkt mod 4 = 0 /\ length pkt <= Z.to_nat 65528)%nat).
Proof.
  intros R P V I L.
  destruct (le_lt_dec (length pkt) (Z.to_nat 65528)) as [A|A].
  { destruct (SetVerdict_run m grow v id p pkt e w fd R P V I ltac:(lia)) as (w' & new & H1 & H2 & H3 & _).
    exists w', new. split; [exact H1|]. split; [exact H2|]. split.
    - intros H. split; [|exact A]. pose proof (sends_message_unique _ _ _ _ _ H H3) as Q. unfold verdict1_message, verdict_message in Q.
      injection Q as Q. apply (f_equal (@length Z)) in Q. rewrite app_length in Q. unfold pad4, al4 in Q. rewrite repeat_length in Q. lia.
    - intros [Q _]. replace (pkt ++ pad4 (length pkt)) with pkt in H3; [exact H3|]. unfold pad4, al4.
      replace (_ - _)%nat with 0%nat by lia. cbn [repeat]. now rewrite app_nil_r. }
  assert (N : forall w' new iov, SetVerdict m grow v (zlen pkt) id p e w = (Ok tt, w') -> w_tr w' = w_tr w ++ new ->
    sends_one fd iov new -> read_message m (concat iov) = None ->
    exists w' new, SetVerdict m grow v (zlen pkt) id p e w = (Ok tt, w') /\ w_tr w' = w_tr w ++ new /\
    (sends_message m fd (verdict1_message m (q_num (w_st w)) v id pkt) new <->
     (length pkt mod 4 = 0 /\ length pkt <= Z.to_nat 65528)%nat)).
  { intros w' new iov H1 H2 H3 H4. exists w', new. split; [exact H1|]. split; [exact H2|]. split.
    - intros H. exfalso. eapply sends_message_none; eassumption.
    - lia. }
  destruct (le_lt_dec (length pkt) (Z.to_nat 65531)) as [B|B].
  { destruct (SetVerdict_near_64k m grow v id p pkt e w fd R P ltac:(lia)) as (w' & new & iov & H1 & H2 & H3 & H4). eauto. }
  destruct (Nat.eq_dec (length pkt) (Z.to_nat 65532)) as [C|C].
  { destruct (SetVerdict_65532 m grow v id p pkt e w fd R P C) as (w' & new & iov & H1 & H2 & H3 & H4). eauto. }
  destruct (SetVerdict_truncates m grow v id p pkt e w fd R P V I ltac:(lia)) as (w' & new & H1 & H2 & H3).
  exists w', new. split; [exact H1|]. split; [exact H2|]. split; [|lia].
  intros H. pose proof (sends_message_unique _ _ _ _ _ H H3) as Q. unfold verdict1_message, verdict_message in Q.
  injection Q as Q. rewrite Q in L. cbn in L. lia.
Qed.
Lemma SetVerdict2_exact m grow v mark id p pkt e w fd :
  verdict_ready w fd -> packet_in w p pkt -> is_u32 v -> is_u32 mark -> is_u32 id -> (1 <= length pkt <= Z.to_nat 65535)%nat ->
  exists w' new,
    SetVerdict2 m grow v mark (zlen pkt) id p e w = (Ok tt, w') /\ w_tr w' = w_tr w ++ new /\
    (sends_message m fd (verdict2_message m (q_num (w_st w)) v mark id pkt) new <-> (length pkt <= Z.to_nat 65531)%nat).
Proof.
  intros R P V M I L.
  destruct (le_lt_dec (length pkt) (Z.to_nat 65531)) as [B|B].
  - destruct (SetVerdict2_run m grow v mark id p pkt e w fd) as (w' & new & H1 & H2 & H3 & _); auto; [lia|].
    exists w', new. split; [exact H1|]. split; [exact H2|]. tauto.
  - destruct (SetVerdict2_oversize m grow v mark id p pkt e w fd R P ltac:(lia)) as (w' & new & iov & H1 & H2 & H3 & H4).
    exists w', new. split; [exact H1|]. split; [exact H2|]. split; [|lia].
    intros H. exfalso. eapply sends_message_none; eassumption.
Qed.
