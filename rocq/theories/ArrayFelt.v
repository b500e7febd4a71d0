(** * ArrayFelt.v — RlpArrayCheck on buffers whose digits behind the list are arbitrary field elements *)
From Coq Require Import ZArith List Lia Bool Arith.
From Verif Require Import ModNorm Field FieldLemmas RlpUtilModel RlpUtilProofs RlpModel RlpSpec RlpPrefixProofs RlpArrayProofs RlpArraySound.
Import ListNotations.
Open Scope Z_scope.
Open Scope circ_scope.

Ltac Zify.zify_post_hook ::= Z.div_mod_to_equations.
Section P.
Variable p : Z.
Hypothesis Hp : 2 ^ 200 < p.
Let Hp' : 1606938044258990275541962092341162602522202993782792835301376 < p := Hp.
Definition feltl (l : list Z) : Prop := forall x, In x l -> felt p x.

Lemma shift_left_f : forall M lpm r s, length r = M -> feltl r -> (0 < lpm <= 48)%nat -> 0 <= s < 2 ^ 70 ->
  r_shift_left p M 0 lpm r s = if s <? 2 ^ Z.of_nat (log_ceil lpm) then Some (rotl (Z.to_nat s) r) else None.
Proof.
  intros M lpm r s Hl Hn Hlpm Hs.
  rewrite r_shift_left_ok; auto; try zlia; [|unfold felt; zlia].
  destruct (Nat.eqb_spec 0 lpm); [zlia|]. cbn [Z.of_nat]. rewrite fsub_small by zlia.
  rewrite Z.sub_0_r, Nat.sub_0_r. reflexivity.
Qed.
Ltac fixarg_shift v := match goal with |- context [r_shift_left _ _ 0 _ _ ?s] =>
    replace s with v by (symmetry; match goal with |- fsub ?p _ _ = _ => mnorm_lhs p end; rewrite Z.mod_small; zlia) end.
Ltac fixarg_mux v := match goal with |- context [r_mux1 _ ?s _ _] =>
    replace s with v by (symmetry; match goal with |- fmul ?p _ _ = _ => mnorm_lhs p end; rewrite Z.mod_small; zlia) end.

Lemma array_field_f : forall M idx fieldNum fmax r,
  length r = M -> feltl r -> Forall nibble (firstn (2 + len_prefix_max fmax) r) -> Z.of_nat idx < fieldNum < p ->
  Z.of_nat fmax < 2 ^ 63 -> (2 + len_prefix_max fmax <= M)%nat ->
  array_field p M idx fieldNum fmax r =
  match field_shape (len_prefix_max fmax) r with
  | None => None
  | Some (h, l) => Some (rotl (Z.to_nat h) r, l, cinc_of r, h + l)
  end.
Proof.
  intros M idx fieldNum fmax r Hl Hff Hnb Hidx Hfm HM.
  pose proof (len_prefix_max_bounds fmax Hfm) as Hlpm.
  set (lpm := len_prefix_max fmax) in *.
  assert (N0 : nibble (nth 0 r 0) /\ nibble (nth 1 r 0)).
  { split; [rewrite <- (nth_firstn' _ (2 + lpm) r 0 0) by zlia|rewrite <- (nth_firstn' _ (2 + lpm) r 1 0) by zlia]; apply nth_nibble; exact Hnb. }
  destruct N0 as [N0 N1].
  assert (Hb : 0 <= byte0 r < 256) by (unfold byte0, nibble in *; zlia).
  assert (Hns : Forall nibble (firstn lpm (skipn 2 r))).
  { replace (firstn lpm (skipn 2 r)) with (skipn 2 (firstn (2 + lpm) r)) by (rewrite skipn_firstn_comm; f_equal; zlia). apply Forall_skipn. exact Hnb. }
  pose proof (classify_cases _ Hb) as Hc.
  unfold array_field. rewrite r_less_than_ok by (try zlia; unfold felt; zlia).
  replace (Z.of_nat idx <? fieldNum) with true by (symmetry; apply Z.ltb_lt; zlia). cbn [bit_of].
  rewrite field_prefix_ok by (auto; zlia). cbv zeta. fold (byte0 r).
  cbn [fp_isBig fp_isLiteral fp_hexLen fp_isValid]. fold lpm.
  replace (fsub p 1 1) with 0 by (symmetry; apply fsub_small; zlia).
  rewrite for_ok; try zlia; [|apply bit_of_bit|left; reflexivity].
  replace (bit_of (head_literal (classify (byte0 r))) =? 1) with (head_literal (classify (byte0 r)))
    by (destruct (head_literal (classify (byte0 r))); reflexivity).
  change (0 =? 1) with false. rewrite orb_false_r. cbn [obind].
  set (row := hex_prefix_vals p 0 (firstn lpm (skipn 2 r))).
  assert (Hrl : length row = lpm).
  { unfold row. rewrite hex_prefix_vals_length, firstn_length, skipn_length. zlia. }
  assert (Hrf : forall x, In x row -> felt p x) by (apply hex_prefix_vals_felt; exact Hp).
  assert (Hmux : forall sel, 0 <= sel < 200 -> r_mux1 p sel lpm row =
     if sel <? Z.of_nat lpm then Some (nth (Z.to_nat sel) row 0) else None).
  { intros sel Hs. apply r_mux1_ok; auto; unfold felt; zlia. }
  pose proof (log_ceil_2 lpm ltac:(zlia)) as Hlc.
  replace (Nat.leb (2 + lpm) (length r)) with true by (symmetry; apply Nat.leb_le; zlia).
  assert (Hci : fmul p (if byte0 r =? 192 then 2 else 1) 1 = cinc_of r).
  { unfold cinc_of. rewrite (fmul1r p); auto. unfold felt; destruct (_ =? _); zlia. }
  rewrite Hci.
  assert (Hn0 : felt p (nth 0 row 0)).
  { apply Hrf, nth_In. zlia. }
  unfold felt in Hn0.
  unfold field_shape.
  destruct (classify (byte0 r)) as [|l|k|l|k] eqn:Ec; cbn [head_hexlen head_big head_literal bit_of].
  - (* literal *)
    fixarg_shift 0. rewrite shift_left_f by (auto; zlia).
    destruct (Z.ltb_spec 0 (2 ^ Z.of_nat (log_ceil lpm))); [|zlia]. cbn [obind guard].
    fixarg_mux 0. rewrite Hmux by zlia.
    destruct (Z.ltb_spec 0 (Z.of_nat lpm)); [|zlia]. cbn [obind].
    apply some4; mnorm_lhs p; rewrite Z.mod_small; zlia.
  - (* short string *)
    fixarg_shift 2. rewrite shift_left_f by (auto; zlia).
    destruct (Z.ltb_spec 2 (2 ^ Z.of_nat (log_ceil lpm))); [|zlia]. cbn [obind guard].
    fixarg_mux 0. rewrite Hmux by zlia.
    destruct (Z.ltb_spec 0 (Z.of_nat lpm)); [|zlia]. cbn [obind].
    apply some4; mnorm_lhs p; rewrite Z.mod_small; zlia.
  - (* long string *)
    fixarg_shift (2 + 2 * k). rewrite shift_left_f by (auto; zlia).
    destruct (Z.ltb_spec (2 + 2 * k) (2 ^ Z.of_nat (log_ceil lpm))); cbn [obind guard]; [|rewrite andb_false_r; auto].
    fixarg_mux (2 * k - 1). rewrite Hmux by zlia.
    destruct (Z.ltb_spec (2 * k - 1) (Z.of_nat lpm)), (Z.leb_spec (2 * k) (Z.of_nat lpm)); try zlia;
      cbn [andb obind]; auto.
    unfold row. rewrite (hex_prefix_vals_nth p Hp).
    2: exact Hns.
    2,3: rewrite firstn_length, skipn_length; zlia.
    replace (S (Z.to_nat (2 * k - 1))) with (Z.to_nat (2 * k)) by zlia.
    rewrite firstn_skipn_firstn by zlia.
    assert (Hnk : Forall nibble (firstn (Z.to_nat (2 * k)) (skipn 2 r))) by (rewrite <- (firstn_skipn_firstn r 2 (Z.to_nat (2 * k)) lpm) by zlia; apply Forall_firstn; exact Hns).
    pose proof (hexval_bound (firstn (Z.to_nat (2 * k)) (skipn 2 r)) Hnk) as Hv.
    rewrite firstn_length in Hv.
    assert (16 ^ Z.of_nat (Nat.min (Z.to_nat (2 * k)) (length (skipn 2 r))) <= 16 ^ 16)
      by (apply Z.pow_le_mono_r; zlia).
    set (v := hexval _) in *. change (16 ^ 16) with (2 ^ 64) in *.
    apply some4; mnorm_lhs p; rewrite Z.mod_small; zlia.
  - (* short list *)
    fixarg_shift 2. rewrite shift_left_f by (auto; zlia).
    destruct (Z.ltb_spec 2 (2 ^ Z.of_nat (log_ceil lpm))); [|zlia]. cbn [obind guard].
    fixarg_mux 0. rewrite Hmux by zlia.
    destruct (Z.ltb_spec 0 (Z.of_nat lpm)); [|zlia]. cbn [obind].
    apply some4; mnorm_lhs p; rewrite Z.mod_small; zlia.
  - (* long list *)
    fixarg_shift (2 + 2 * k). rewrite shift_left_f by (auto; zlia).
    destruct (Z.ltb_spec (2 + 2 * k) (2 ^ Z.of_nat (log_ceil lpm))); cbn [obind guard]; [|rewrite andb_false_r; auto].
    fixarg_mux (2 * k - 1). rewrite Hmux by zlia.
    destruct (Z.ltb_spec (2 * k - 1) (Z.of_nat lpm)), (Z.leb_spec (2 * k) (Z.of_nat lpm)); try zlia;
      cbn [andb obind]; auto.
    unfold row. rewrite (hex_prefix_vals_nth p Hp).
    2: exact Hns.
    2,3: rewrite firstn_length, skipn_length; zlia.
    replace (S (Z.to_nat (2 * k - 1))) with (Z.to_nat (2 * k)) by zlia.
    rewrite firstn_skipn_firstn by zlia.
    assert (Hnk : Forall nibble (firstn (Z.to_nat (2 * k)) (skipn 2 r))) by (rewrite <- (firstn_skipn_firstn r 2 (Z.to_nat (2 * k)) lpm) by zlia; apply Forall_firstn; exact Hns).
    pose proof (hexval_bound (firstn (Z.to_nat (2 * k)) (skipn 2 r)) Hnk) as Hv.
    rewrite firstn_length in Hv.
    assert (16 ^ Z.of_nat (Nat.min (Z.to_nat (2 * k)) (length (skipn 2 r))) <= 16 ^ 16)
      by (apply Z.pow_le_mono_r; zlia).
    set (v := hexval _) in *. change (16 ^ 16) with (2 ^ 64) in *.
    apply some4; mnorm_lhs p; rewrite Z.mod_small; zlia.
Qed.
Lemma shift_next_f : forall M fmin fmax out l, length out = M -> feltl out -> (fmin <= fmax)%nat ->
  Z.of_nat fmax < 2 ^ 63 -> 0 <= l < 2 ^ 65 ->
  r_shift_left p M fmin fmax out l =
    if Nat.eqb fmin fmax then Some (rotl fmin out)
    else if (Z.of_nat fmin <=? l) && (l - Z.of_nat fmin <? 2 ^ Z.of_nat (log_ceil (fmax - fmin)))
         then Some (rotl (Z.to_nat l) out) else None.
Proof.
  intros M fmin fmax out l Hl Hn Hm Hb Hlb.
  rewrite r_shift_left_ok; auto; try zlia; [|unfold felt; zlia].
  destruct (Nat.eqb_spec fmin fmax); auto.
  destruct (Z.leb_spec (Z.of_nat fmin) l) as [L|L]; cbn [andb].
  - rewrite fsub_small by zlia. destruct (_ <? _); auto. do 2 f_equal. zlia.
  - destruct (Z.ltb_spec (fsub p l (Z.of_nat fmin)) (2 ^ Z.of_nat (log_ceil (fmax - fmin)))) as [L2|]; auto.
    exfalso.
    assert (E : fsub p l (Z.of_nat fmin) = p + l - Z.of_nat fmin).
    { unfold fsub. symmetry. apply (Z.mod_unique_pos _ _ (-1)); zlia. }
    rewrite E in L2.
    assert (Hlc : 2 ^ Z.of_nat (log_ceil (fmax - fmin)) <= 2 ^ 64).
    { rewrite log_ceil_spec by zlia. destruct (Nat.eqb_spec (fmax - fmin) 0); [zlia|].
      apply Z.pow_le_mono_r; [zlia|].
      assert (Z.log2 (Z.of_nat (fmax - fmin)) < 63) by (apply Z.log2_lt_pow2; zlia).
      pose proof (Z.log2_nonneg (Z.of_nat (fmax - fmin))). zlia. }
    zlia.
Qed.


Lemma feltl_app l1 l2 : feltl l1 -> feltl l2 -> feltl (l1 ++ l2).
Proof. intros H1 H2 x Hx. apply in_app_or in Hx. destruct Hx; auto. Qed.
Lemma nib_feltl l : Forall nibble l -> feltl l.
Proof. intros H x Hx. rewrite Forall_forall in H. specialize (H x Hx). unfold nibble, felt in *. zlia. Qed.

Lemma array_loop_complete_f : forall fs its d tail M idx fieldNum check lenSum,
  Forall2 item_fits fs its -> fields_ok M fs -> length (encs its ++ tail) = M -> Z.of_nat M < 2 ^ 60 -> feltl tail -> Forall nibble (encs its) ->
  Forall (fun f => (2 + len_prefix_max (snd f) <= length (enc (last its d)))%nat) fs ->
  Z.of_nat (idx + length fs) <= fieldNum -> fieldNum < 2 ^ 32 -> 0 <= check -> 0 <= lenSum -> check + Z.of_nat (length fs) < 2 ^ 70 -> lenSum + Z.of_nat (length (encs its)) < 2 ^ 70 ->
  exists outs, array_loop p M idx fieldNum fs (encs its ++ tail) check lenSum =
    Some (check + Z.of_nat (length fs), lenSum + Z.of_nat (length (encs its)), map (fun it => Z.of_nat (length (payload it))) its, outs) /\
    Forall2 (fun it out => firstn (length (payload it)) out = payload it /\ length out = M /\ feltl out) its outs.
Proof.
  induction fs as [|[fmin fmax] rest IH]; intros its d tail M idx fieldNum check lenSum HF Hf HM HMb Ft Nb HL Hidx Hfn Hc Hls Hc2 Hls2; inversion HF as [|f it fs' its' H1 H2]; subst its.
  - exists []. cbn [array_loop map length encs concat]. split; [|constructor]. change (Z.of_nat 0) with 0. rewrite !Z.add_0_r. reflexivity.
  - subst. cbn [array_loop]. destruct H1 as (A1 & A2 & A3 & A4). cbn [fst snd] in *. rewrite encs_cons in *.
    inversion Hf as [|? ? F1 F2]; subst. cbn [fst snd] in F1. destruct F1 as (B1 & B2 & B3). inversion HL as [|? ? L1 L2]; subst. cbn [snd] in L1.
    pose proof (len_prefix_max_bounds _ B2) as Hlpm. cbn [length] in Hidx, Hc2.
    apply Forall_app in Nb. destruct Nb as [Nb1 Nb2]. set (M := length ((enc it ++ encs its') ++ tail)) in *.
    assert (Hpay : Forall nibble (payload it) /\ Forall nibble (hdr it)) by (unfold enc in Nb1; apply Forall_app in Nb1; unfold payload, hdr; tauto). destruct Hpay as [Np Nh].
    assert (Fr : feltl ((enc it ++ encs its') ++ tail)) by (apply feltl_app; [apply nib_feltl; apply Forall_app; auto|auto]).
    assert (Hlast : (length (enc (last (it :: its') d)) <= length (enc it ++ encs its'))%nat).
    { rewrite app_length. destruct its' as [|i2 its']; [cbn [last]; lia|].
      assert (forall l e, l <> [] -> (length (enc (last l e)) <= length (encs l))%nat) as HH.
      { clear. induction l as [|x l IHl]; intros e NE; [easy|]. rewrite encs_cons, app_length. destruct l as [|y l]; [cbn [last]; lia|]. change (last (x :: y :: l) e) with (last (y :: l) e). specialize (IHl e ltac:(discriminate)). lia. }
      specialize (HH (it :: i2 :: its') d ltac:(discriminate)). rewrite encs_cons, app_length in HH. exact HH. }
    assert (Hnf : Forall nibble (firstn (2 + len_prefix_max fmax) ((enc it ++ encs its') ++ tail))).
    { rewrite firstn_app. replace (2 + len_prefix_max fmax - length (enc it ++ encs its'))%nat with 0%nat by lia. rewrite app_nil_r. apply Forall_firstn, Forall_app; auto. }
    rewrite array_field_f by (auto; zlia).
    rewrite <- (app_assoc (enc it)).
    destruct (item_field_shape (len_prefix_max fmax) it (encs its' ++ tail) A1 A3) as [Hs Hci]. specialize (Hci A2).
    rewrite Hs. cbn [obind].
    assert (Hr1 : rotl (Z.to_nat (Z.of_nat (length (hdr it)))) (enc it ++ encs its' ++ tail) = payload it ++ encs its' ++ tail ++ hdr it).
    { rewrite Nat2Z.id. unfold enc. fold (hdr it) (payload it). rewrite <- app_assoc, rotl_app. rewrite <- !app_assoc. auto. }
    rewrite Hr1, Hci.
    assert (Hx : length (enc it) = (length (hdr it) + length (payload it))%nat) by (unfold enc; rewrite app_length; reflexivity).
    rewrite app_length in Hls2.
    rewrite (fadd_small p check), (fadd_small p lenSum) by zlia.
    assert (Hr2 : rotl (length (payload it)) (payload it ++ encs its' ++ tail ++ hdr it) = encs its' ++ (tail ++ hdr it ++ payload it)).
    { rewrite rotl_app. rewrite <- !app_assoc. auto. }
    assert (Hfst : firstn (length (payload it)) (payload it ++ encs its' ++ tail ++ hdr it) = payload it).
    { rewrite firstn_app, firstn_all, Nat.sub_diag. cbn. apply app_nil_r. }
    assert (Hlen : length (payload it ++ encs its' ++ tail ++ hdr it) = M).
    { unfold M. rewrite !app_length, Hx. lia. }
    assert (Fo : feltl (payload it ++ encs its' ++ tail ++ hdr it)) by (repeat (apply feltl_app; auto using nib_feltl)).
    destruct rest as [|f2 rest].
    + inversion H2; subst. eexists. split.
      * cbn [length map encs concat]. rewrite app_nil_r. do 4 f_equal; lia.
      * constructor; auto.
    + rewrite shift_next_f by (auto; unfold M in *; rewrite ?app_length in *; zlia).
      assert (Hnext : (if Nat.eqb fmin fmax then Some (rotl fmin (payload it ++ encs its' ++ tail ++ hdr it))
         else if (Z.of_nat fmin <=? Z.of_nat (length (payload it))) &&
                 (Z.of_nat (length (payload it)) - Z.of_nat fmin <? 2 ^ Z.of_nat (log_ceil (fmax - fmin)))
              then Some (rotl (Z.to_nat (Z.of_nat (length (payload it)))) (payload it ++ encs its' ++ tail ++ hdr it)) else None)
         = Some (encs its' ++ (tail ++ hdr it ++ payload it))).
      { destruct (Nat.eqb_spec fmin fmax) as [e|e].
        - replace fmin with (length (payload it)) by lia. rewrite Hr2. auto.
        - destruct (Z.leb_spec (Z.of_nat fmin) (Z.of_nat (length (payload it)))); [|lia]. cbn [andb].
          pose proof (log_ceil_bound (fmax - fmin) ltac:(zlia)).
          destruct (Z.ltb_spec (Z.of_nat (length (payload it)) - Z.of_nat fmin) (2 ^ Z.of_nat (log_ceil (fmax - fmin)))); [|lia].
          rewrite Nat2Z.id, Hr2. auto. }
      rewrite Hnext. cbn [obind]. inversion H2 as [|? i2 ? its2 HH1 HH2]; subst its'.
      destruct (IH (i2 :: its2) d (tail ++ hdr it ++ payload it) M (S idx) fieldNum (check + 1) (lenSum + (Z.of_nat (length (hdr it)) + Z.of_nat (length (payload it))))) as (outs & Q1 & Q2); auto.
      { unfold M. rewrite !app_length, Hx. lia. }
      { repeat (apply feltl_app; auto using nib_feltl). }
      { cbn [length] in *. lia. } { zlia. } { zlia. } { cbn [length] in *. zlia. } { zlia. }
      rewrite Q1. cbn [obind]. eexists. split.
      * cbn [length map]. rewrite (app_length (enc it)), Hx. do 4 f_equal; lia.
      * constructor; auto.
Qed.
End P.
