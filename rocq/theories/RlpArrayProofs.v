(** * RlpArrayProofs.v — RlpArrayCheck (and its siblings) against RlpSpec.v *)
From Coq Require Import ZArith List Lia Bool Arith.
From Verif Require Import ModNorm Field FieldLemmas RlpUtilModel RlpUtilProofs RlpModel RlpSpec RlpPrefixProofs.
Import ListNotations.
Open Scope Z_scope.
Open Scope circ_scope.

Ltac Zify.zify_post_hook ::= Z.div_mod_to_equations.

Lemma hexval_snoc l d : hexval (l ++ [d]) = 16 * hexval l + d.
Proof. unfold hexval. rewrite fold_left_app. reflexivity. Qed.

Lemma hexval_bound : forall l, Forall nibble l -> 0 <= hexval l < 16 ^ Z.of_nat (length l).
Proof.
  intros l. induction l as [|d l IH] using rev_ind; intros H.
  - cbn. lia.
  - apply Forall_app in H. destruct H as [H1 H2]. inversion H2; subst.
    rewrite hexval_snoc, app_length. cbn [length]. rewrite Nat.add_1_r, Nat2Z.inj_succ, Z.pow_succ_r by lia.
    specialize (IH H1). unfold nibble in *. lia.
Qed.

Lemma Forall_firstn : forall A (P : A -> Prop) k l, Forall P l -> Forall P (firstn k l).
Proof. induction k; intros l H; cbn; auto. destruct H; auto. Qed.
Lemma Forall_skipn : forall A (P : A -> Prop) k l, Forall P l -> Forall P (skipn k l).
Proof. induction k; intros l H; cbn; auto. destruct H; auto. Qed.

Lemma pow16_pos n : 0 < 16 ^ Z.of_nat n. Proof. lia. Qed.

Section P.
Variable p : Z.
Hypothesis Hp : 2 ^ 200 < p.
Let Hp' : 1606938044258990275541962092341162602522202993782792835301376 < p := Hp.

Lemma fmul0l x : fmul p 0 x = 0. Proof. unfold fmul. rewrite Z.mul_0_l. apply Zmod_0_l. Qed.
Lemma fmul0r x : fmul p x 0 = 0. Proof. unfold fmul. rewrite Z.mul_0_r. apply Zmod_0_l. Qed.
Lemma fmul1l x : felt p x -> fmul p 1 x = x. Proof. intros. unfold fmul. rewrite Z.mul_1_l. apply felt_mod; auto. Qed.
Lemma fmul1r x : felt p x -> fmul p x 1 = x. Proof. intros. unfold fmul. rewrite Z.mul_1_r. apply felt_mod; auto. Qed.
Lemma fadd00 : fadd p 0 0 = 0. Proof. apply fadd_small; zlia. Qed.

Lemma hex_prefix_vals_length : forall l acc, length (hex_prefix_vals p acc l) = length l.
Proof. induction l; intros; cbn; auto. Qed.

Lemma hex_prefix_vals_felt : forall l acc x, In x (hex_prefix_vals p acc l) -> felt p x.
Proof.
  induction l as [|d l IH]; intros acc x H; cbn in H; [easy|].
  destruct H as [<-|H]; [apply felt_fadd; zlia|eauto].
Qed.

Lemma hex_prefix_vals_gen : forall l pre, Forall nibble (pre ++ l) -> (length (pre ++ l) <= 48)%nat ->
  hex_prefix_vals p (hexval pre) l = map (fun i => hexval (pre ++ firstn (S i) l)) (seq 0 (length l)).
Proof.
  induction l as [|d l IH]; intros pre Hn Hl; cbn [hex_prefix_vals length seq map]; auto.
  replace (pre ++ d :: l) with ((pre ++ [d]) ++ l) in * by (rewrite <- app_assoc; reflexivity).
  assert (Hv : fadd p (fmul p 16 (hexval pre)) d = hexval (pre ++ [d])).
  { rewrite hexval_snoc. mnorm_lhs p. apply Z.mod_small.
    apply Forall_app in Hn. destruct Hn as [Hn _].
    pose proof (hexval_bound (pre ++ [d]) Hn) as Hb. rewrite hexval_snoc in Hb.
    rewrite !app_length in *. cbn [length] in *.
    assert (16 ^ Z.of_nat (length pre + 1) <= 16 ^ 48) by (apply Z.pow_le_mono_r; zlia).
    change (16 ^ 48) with (2 ^ 192) in *. zlia. }
  rewrite Hv. f_equal.
  rewrite IH by (auto). rewrite <- seq_shift, map_map. apply map_ext. intros i.
  rewrite <- app_assoc. reflexivity.
Qed.

Lemma hex_prefix_vals_nth : forall l i, Forall nibble l -> (length l <= 48)%nat -> (i < length l)%nat ->
  nth i (hex_prefix_vals p 0 l) 0 = hexval (firstn (S i) l).
Proof.
  intros l i Hn Hl Hi. change 0 with (hexval []) at 1. rewrite hex_prefix_vals_gen by auto.
  rewrite nth_map_seq by auto. reflexivity.
Qed.

(** integer-level reading of one item header at the front of [r] *)
Definition byte0 (r : list Z) : Z := 16 * nth 0 r 0 + nth 1 r 0.
Definition field_shape (lpm : nat) (r : list Z) : option (Z * Z) :=
  match classify (byte0 r) with
  | HLiteral => Some (0, 2)
  | HShortString l | HShortList l => Some (2, 2 * l)
  | HLongString k | HLongList k =>
      if (2 * k <=? Z.of_nat lpm) && (2 + 2 * k <? 2 ^ Z.of_nat (log_ceil lpm))
      then Some (2 + 2 * k, 2 * hexval (firstn (Z.to_nat (2 * k)) (skipn 2 r))) else None
  end.

Lemma byte0_range r : (2 <= length r)%nat -> Forall nibble r -> 0 <= byte0 r < 256.
Proof.
  intros Hl Hn. destruct r as [|a [|b r]]; cbn in Hl; try zlia.
  inversion Hn as [|? ? Ha Hn']; subst. inversion Hn' as [|? ? Hb ?]; subst.
  unfold byte0, nibble in *. cbn [nth]. zlia.
Qed.

Lemma nibble_felt x : nibble x -> felt p x. Proof. unfold nibble, felt. zlia. Qed.
Lemma Forall_nibble_felt l : Forall nibble l -> forall x, In x l -> felt p x.
Proof. rewrite Forall_forall. intros H x Hx. apply nibble_felt; auto. Qed.
Lemma nth_nibble l i : Forall nibble l -> nibble (nth i l 0).
Proof.
  intros H. destruct (Nat.lt_ge_cases i (length l)) as [L|L].
  - rewrite Forall_forall in H. apply H, nth_In; auto.
  - rewrite nth_overflow by auto. unfold nibble. zlia.
Qed.

Lemma classify_cases b : 0 <= b < 256 ->
  match classify b with
  | HLiteral => b < 128
  | HShortString l => b = 128 + l /\ 0 <= l <= 55
  | HLongString k => b = 183 + k /\ 1 <= k <= 8
  | HShortList l => b = 192 + l /\ 0 <= l <= 55
  | HLongList k => b = 247 + k /\ 1 <= k <= 8
  end.
Proof.
  intros H. unfold classify.
  destruct (Z.leb_spec b 127); [zlia|]. destruct (Z.leb_spec b 183); [zlia|].
  destruct (Z.leb_spec b 191); [zlia|]. destruct (Z.leb_spec b 247); zlia.
Qed.

(** list header, closed form *)
Definition head_shape (n : nat) (r : list Z) : option (Z * Z * Z) :=
  match classify (byte0 r) with
  | HShortList l => Some (1, 0, 2 * l)
  | HLongList k => if 2 * k <=? Z.of_nat n
                   then Some (1, 2 * k, 2 * hexval (firstn (Z.to_nat (2 * k)) (skipn 2 r))) else None
  | _ => Some (0, 0, 0)
  end.

Lemma firstn_skipn_firstn : forall (l : list Z) a k n, (k <= n)%nat ->
  firstn k (firstn n (skipn a l)) = firstn k (skipn a l).
Proof. intros. rewrite firstn_firstn. f_equal. zlia. Qed.

Lemma array_head_ok : forall n inp, Forall nibble inp -> (2 + n <= length inp)%nat -> (0 < n <= 48)%nat ->
  array_head p n inp = head_shape n inp.
Proof.
  intros n inp Hn Hl Hpos. unfold array_head, head_shape.
  replace (Nat.leb (2 + n) (length inp)) with true by (symmetry; apply Nat.leb_le; auto).
  cbn [guard obind].
  rewrite array_prefix_ok by (try zlia; apply nth_nibble; auto). cbv zeta. fold (byte0 inp).
  pose proof (byte0_range inp ltac:(zlia) Hn) as Hb.
  pose proof (classify_cases _ Hb) as Hc.
  set (row := hex_prefix_vals p 0 (firstn n (skipn 2 inp))).
  assert (Hrl : length row = n).
  { unfold row. rewrite hex_prefix_vals_length, firstn_length, skipn_length. zlia. }
  assert (Hrf : forall x, In x row -> felt p x) by (apply hex_prefix_vals_felt).
  assert (Hmux : forall sel, 0 <= sel < 200 -> r_mux1 p sel n row =
     if sel <? Z.of_nat n then Some (nth (Z.to_nat sel) row 0) else None).
  { intros sel Hs. apply r_mux1_ok; auto; unfold felt; zlia. }
  destruct (classify (byte0 inp)) as [|l|k|l|k] eqn:Ec; cbn [head_hexlen].
  1-3: destruct (Z.leb_spec 192 (byte0 inp)); [zlia|]; destruct (Z.leb_spec 248 (byte0 inp)); [zlia|];
    cbn [bit_of]; rewrite ?fmul0l;
    rewrite Hmux by zlia;
    (destruct (Z.ltb_spec 0 (Z.of_nat n)); [|zlia]); cbn [obind]; rewrite ?fmul0l, ?fadd00; reflexivity.
  - destruct (Z.leb_spec 192 (byte0 inp)); [|zlia]. destruct (Z.leb_spec 248 (byte0 inp)); [zlia|].
    cbn [bit_of].
    rewrite ?fmul0l. rewrite Hmux by zlia. destruct (Z.ltb_spec 0 (Z.of_nat n)); [|zlia]. cbn [obind].
    rewrite ?fmul0l. do 2 f_equal.
    mnorm_lhs p. rewrite Z.mod_small; zlia.
  - destruct (Z.leb_spec 192 (byte0 inp)); [|zlia]. destruct (Z.leb_spec 248 (byte0 inp)); [|zlia].
    cbn [bit_of].
    replace (fmul p 1 (fsub p (fmul p 1 (2 * k)) 1)) with (2 * k - 1)
      by (symmetry; mnorm_lhs p; rewrite Z.mod_small; zlia).
    replace (fmul p 1 (2 * k)) with (2 * k) by (symmetry; mnorm_lhs p; rewrite Z.mod_small; zlia).
    rewrite Hmux by zlia.
    destruct (Z.ltb_spec (2 * k - 1) (Z.of_nat n)), (Z.leb_spec (2 * k) (Z.of_nat n)); try zlia; cbn [obind]; auto.
    unfold row. rewrite hex_prefix_vals_nth.
    + replace (S (Z.to_nat (2 * k - 1))) with (Z.to_nat (2 * k)) by zlia.
      rewrite firstn_skipn_firstn by zlia.
      set (v := hexval _).
      assert (Hv : 0 <= v < 16 ^ 48).
      { unfold v. pose proof (hexval_bound (firstn (Z.to_nat (2 * k)) (skipn 2 inp))
          ltac:(apply Forall_firstn, Forall_skipn; auto)) as Hh.
        rewrite firstn_length in Hh.
        assert (16 ^ Z.of_nat (Nat.min (Z.to_nat (2 * k)) (length (skipn 2 inp))) <= 16 ^ 48)
          by (apply Z.pow_le_mono_r; zlia). zlia. }
      change (16 ^ 48) with (2 ^ 192) in Hv.
      f_equal. f_equal. mnorm_lhs p. rewrite Z.mod_small; zlia.
    + apply Forall_firstn, Forall_skipn; auto.
    + rewrite firstn_length, skipn_length. zlia.
    + rewrite firstn_length, skipn_length. zlia.
Qed.

Lemma len_prefix_max_bounds : forall fmax, Z.of_nat fmax < 2 ^ 63 ->
  (2 <= len_prefix_max fmax <= 16)%nat.
Proof.
  intros fmax H. unfold len_prefix_max.
  rewrite log_ceil_spec by zlia.
  destruct (Nat.eqb_spec fmax 0); [cbn; zlia|].
  assert (Hl : Z.log2 (Z.of_nat fmax) < 63) by (apply Z.log2_lt_pow2; zlia).
  pose proof (Z.log2_nonneg (Z.of_nat fmax)).
  assert (Nat.div (S (Z.to_nat (Z.log2 (Z.of_nat fmax)))) 8 <= 7)%nat; [|zlia].
  apply Nat.lt_succ_r. apply Nat.div_lt_upper_bound; zlia.
Qed.

Lemma field_shape_bounds : forall lpm r h l, Forall nibble r -> (2 <= length r)%nat -> (lpm <= 16)%nat ->
  field_shape lpm r = Some (h, l) -> 0 <= h <= 18 /\ 0 <= l < 2 ^ 65.
Proof.
  intros lpm r h l Hn Hl Hlpm H. unfold field_shape in H.
  pose proof (classify_cases _ (byte0_range r Hl Hn)) as Hc.
  assert (Hlong : forall k, 1 <= k <= 8 ->
    0 <= 2 * hexval (firstn (Z.to_nat (2 * k)) (skipn 2 r)) < 2 ^ 65).
  { intros k Hk. pose proof (hexval_bound (firstn (Z.to_nat (2 * k)) (skipn 2 r))
          ltac:(apply Forall_firstn, Forall_skipn; auto)) as Hh.
    rewrite firstn_length in Hh.
    assert (16 ^ Z.of_nat (Nat.min (Z.to_nat (2 * k)) (length (skipn 2 r))) <= 16 ^ 16)
      by (apply Z.pow_le_mono_r; zlia).
    change (16 ^ 16) with (2 ^ 64) in *. change (2 ^ 65) with (2 * 2 ^ 64). zlia. }
  destruct (classify (byte0 r)) as [|l'|k|l'|k].
  - assert (h = 0 /\ l = 2) by (split; congruence). zlia.
  - assert (h = 2 /\ l = 2 * l') by (split; congruence). zlia.
  - destruct (_ && _); [|discriminate].
    assert (h = 2 + 2 * k) by congruence. split; [zlia|].
    replace l with (2 * hexval (firstn (Z.to_nat (2 * k)) (skipn 2 r))) by congruence. apply Hlong; zlia.
  - assert (h = 2 /\ l = 2 * l') by (split; congruence). zlia.
  - destruct (_ && _); [|discriminate].
    assert (h = 2 + 2 * k) by congruence. split; [zlia|].
    replace l with (2 * hexval (firstn (Z.to_nat (2 * k)) (skipn 2 r))) by congruence. apply Hlong; zlia.
Qed.

Lemma rotl_nibble k l : Forall nibble l -> Forall nibble (rotl k l).
Proof.
  intros H. apply Forall_forall. intros x Hx. unfold rotl in Hx. apply in_map_iff in Hx.
  destruct Hx as [j [<- _]]. apply nth_nibble; auto.
Qed.

Lemma rotl_0 : forall l, rotl 0 l = l.
Proof.
  intros l. rewrite rotl_skipn by zlia. cbn. rewrite app_nil_r. reflexivity.
Qed.

Definition cinc_of (r : list Z) : Z := if byte0 r =? 192 then 2 else 1.

(** shift_left with lower bound 0 and upper bound lpm *)
Lemma shift_left_0 : forall M lpm r s, length r = M -> Forall nibble r -> (0 < lpm <= 48)%nat -> 0 <= s < 2 ^ 70 ->
  r_shift_left p M 0 lpm r s = if s <? 2 ^ Z.of_nat (log_ceil lpm) then Some (rotl (Z.to_nat s) r) else None.
Proof.
  intros M lpm r s Hl Hn Hlpm Hs.
  rewrite r_shift_left_ok; auto; try zlia; [|apply Forall_nibble_felt; auto|unfold felt; zlia].
  destruct (Nat.eqb_spec 0 lpm); [zlia|]. cbn [Z.of_nat]. rewrite fsub_small by zlia.
  rewrite Z.sub_0_r, Nat.sub_0_r. reflexivity.
Qed.

Lemma log_ceil_2 lpm : (2 <= lpm <= 48)%nat -> 4 <= 2 ^ Z.of_nat (log_ceil lpm).
Proof.
  intros H. rewrite log_ceil_spec by zlia. destruct (Nat.eqb_spec lpm 0); [zlia|].
  assert (1 <= Z.log2 (Z.of_nat lpm)) by (change 1 with (Z.log2 2); apply Z.log2_le_mono; zlia).
  change 4 with (2 ^ 2). apply Z.pow_le_mono_r; zlia.
Qed.

Lemma some4 : forall A (o : A) (X x c Y y : Z), X = x -> Y = y -> Some (o, X, c, Y) = Some (o, x, c, y).
Proof. intros; subst; reflexivity. Qed.

(** One iteration of the loop for a field that is in use (idx < fieldNum). *)
Lemma array_field_ok : forall M idx fieldNum fmax r,
  length r = M -> Forall nibble r -> Z.of_nat idx < fieldNum < p ->
  Z.of_nat fmax < 2 ^ 63 -> (2 + len_prefix_max fmax <= M)%nat ->
  array_field p M idx fieldNum fmax r =
  match field_shape (len_prefix_max fmax) r with
  | None => None
  | Some (h, l) => Some (rotl (Z.to_nat h) r, l, cinc_of r, h + l)
  end.
Proof.
  intros M idx fieldNum fmax r Hl Hn Hidx Hfm HM.
  pose proof (len_prefix_max_bounds fmax Hfm) as Hlpm.
  set (lpm := len_prefix_max fmax) in *.
  assert (Hb := byte0_range r ltac:(zlia) Hn).
  pose proof (classify_cases _ Hb) as Hc.
  unfold array_field. rewrite r_less_than_ok by (try zlia; unfold felt; zlia).
  replace (Z.of_nat idx <? fieldNum) with true by (symmetry; apply Z.ltb_lt; zlia). cbn [bit_of].
  rewrite field_prefix_ok by (try zlia; apply nth_nibble; auto). cbv zeta. fold (byte0 r).
  cbn [fp_isBig fp_isLiteral fp_hexLen fp_isValid]. fold lpm.
  replace (fsub p 1 1) with 0 by (symmetry; apply fsub_small; zlia).
  rewrite for_ok; try zlia; [|apply bit_of_bit|left; reflexivity].
  replace (bit_of (head_literal (classify (byte0 r))) =? 1) with (head_literal (classify (byte0 r)))
    by (destruct (head_literal (classify (byte0 r))); reflexivity).
  change (0 =? 1) with false. rewrite orb_false_r. cbn [obind].
  set (row := hex_prefix_vals p 0 (firstn lpm (skipn 2 r))).
  assert (Hrl : length row = lpm).
  { unfold row. rewrite hex_prefix_vals_length, firstn_length, skipn_length. zlia. }
  assert (Hrf : forall x, In x row -> felt p x) by (apply hex_prefix_vals_felt).
  assert (Hmux : forall sel, 0 <= sel < 200 -> r_mux1 p sel lpm row =
     if sel <? Z.of_nat lpm then Some (nth (Z.to_nat sel) row 0) else None).
  { intros sel Hs. apply r_mux1_ok; auto; unfold felt; zlia. }
  pose proof (log_ceil_2 lpm ltac:(zlia)) as Hlc.
  replace (Nat.leb (2 + lpm) (length r)) with true by (symmetry; apply Nat.leb_le; zlia).
  assert (Hci : fmul p (if byte0 r =? 192 then 2 else 1) 1 = cinc_of r).
  { unfold cinc_of. rewrite fmul1r; auto. unfold felt; destruct (_ =? _); zlia. }
  rewrite Hci.
  assert (Hn0 : felt p (nth 0 row 0)).
  { apply Hrf, nth_In. zlia. }
  unfold felt in Hn0.
  unfold field_shape.
  Ltac fixarg_shift v := match goal with |- context [r_shift_left _ _ 0 _ _ ?s] =>
    replace s with v by (symmetry; match goal with |- fsub ?p _ _ = _ => mnorm_lhs p end; rewrite Z.mod_small; zlia) end.
  Ltac fixarg_mux v := match goal with |- context [r_mux1 _ ?s _ _] =>
    replace s with v by (symmetry; match goal with |- fmul ?p _ _ = _ => mnorm_lhs p end; rewrite Z.mod_small; zlia) end.
  destruct (classify (byte0 r)) as [|l|k|l|k] eqn:Ec; cbn [head_hexlen head_big head_literal bit_of].
  - (* literal *)
    fixarg_shift 0. rewrite shift_left_0 by (auto; zlia).
    destruct (Z.ltb_spec 0 (2 ^ Z.of_nat (log_ceil lpm))); [|zlia]. cbn [obind guard].
    fixarg_mux 0. rewrite Hmux by zlia.
    destruct (Z.ltb_spec 0 (Z.of_nat lpm)); [|zlia]. cbn [obind].
    apply some4; mnorm_lhs p; rewrite Z.mod_small; zlia.
  - (* short string *)
    fixarg_shift 2. rewrite shift_left_0 by (auto; zlia).
    destruct (Z.ltb_spec 2 (2 ^ Z.of_nat (log_ceil lpm))); [|zlia]. cbn [obind guard].
    fixarg_mux 0. rewrite Hmux by zlia.
    destruct (Z.ltb_spec 0 (Z.of_nat lpm)); [|zlia]. cbn [obind].
    apply some4; mnorm_lhs p; rewrite Z.mod_small; zlia.
  - (* long string *)
    fixarg_shift (2 + 2 * k). rewrite shift_left_0 by (auto; zlia).
    destruct (Z.ltb_spec (2 + 2 * k) (2 ^ Z.of_nat (log_ceil lpm))); cbn [obind guard]; [|rewrite andb_false_r; auto].
    fixarg_mux (2 * k - 1). rewrite Hmux by zlia.
    destruct (Z.ltb_spec (2 * k - 1) (Z.of_nat lpm)), (Z.leb_spec (2 * k) (Z.of_nat lpm)); try zlia;
      cbn [andb obind]; auto.
    unfold row. rewrite hex_prefix_vals_nth.
    2: apply Forall_firstn, Forall_skipn; auto.
    2,3: rewrite firstn_length, skipn_length; zlia.
    replace (S (Z.to_nat (2 * k - 1))) with (Z.to_nat (2 * k)) by zlia.
    rewrite firstn_skipn_firstn by zlia.
    pose proof (hexval_bound (firstn (Z.to_nat (2 * k)) (skipn 2 r))
          ltac:(apply Forall_firstn, Forall_skipn; auto)) as Hv.
    rewrite firstn_length in Hv.
    assert (16 ^ Z.of_nat (Nat.min (Z.to_nat (2 * k)) (length (skipn 2 r))) <= 16 ^ 16)
      by (apply Z.pow_le_mono_r; zlia).
    set (v := hexval _) in *. change (16 ^ 16) with (2 ^ 64) in *.
    apply some4; mnorm_lhs p; rewrite Z.mod_small; zlia.
  - (* short list *)
    fixarg_shift 2. rewrite shift_left_0 by (auto; zlia).
    destruct (Z.ltb_spec 2 (2 ^ Z.of_nat (log_ceil lpm))); [|zlia]. cbn [obind guard].
    fixarg_mux 0. rewrite Hmux by zlia.
    destruct (Z.ltb_spec 0 (Z.of_nat lpm)); [|zlia]. cbn [obind].
    apply some4; mnorm_lhs p; rewrite Z.mod_small; zlia.
  - (* long list *)
    fixarg_shift (2 + 2 * k). rewrite shift_left_0 by (auto; zlia).
    destruct (Z.ltb_spec (2 + 2 * k) (2 ^ Z.of_nat (log_ceil lpm))); cbn [obind guard]; [|rewrite andb_false_r; auto].
    fixarg_mux (2 * k - 1). rewrite Hmux by zlia.
    destruct (Z.ltb_spec (2 * k - 1) (Z.of_nat lpm)), (Z.leb_spec (2 * k) (Z.of_nat lpm)); try zlia;
      cbn [andb obind]; auto.
    unfold row. rewrite hex_prefix_vals_nth.
    2: apply Forall_firstn, Forall_skipn; auto.
    2,3: rewrite firstn_length, skipn_length; zlia.
    replace (S (Z.to_nat (2 * k - 1))) with (Z.to_nat (2 * k)) by zlia.
    rewrite firstn_skipn_firstn by zlia.
    pose proof (hexval_bound (firstn (Z.to_nat (2 * k)) (skipn 2 r))
          ltac:(apply Forall_firstn, Forall_skipn; auto)) as Hv.
    rewrite firstn_length in Hv.
    assert (16 ^ Z.of_nat (Nat.min (Z.to_nat (2 * k)) (length (skipn 2 r))) <= 16 ^ 16)
      by (apply Z.pow_le_mono_r; zlia).
    set (v := hexval _) in *. change (16 ^ 16) with (2 ^ 64) in *.
    apply some4; mnorm_lhs p; rewrite Z.mod_small; zlia.
Qed.


(** The loop, at integer level: one (header length, payload length, content array, validity increment)
    per field. *)
Fixpoint sem_fields (fs : list (nat * nat)) (r : list Z) : option (list (Z * Z * list Z * Z)) :=
  match fs with
  | [] => Some []
  | (fmin, fmax) :: rest =>
      match field_shape (len_prefix_max fmax) r with
      | None => None
      | Some (h, l) =>
          let out := rotl (Z.to_nat h) r in
          match rest with
          | [] => Some [(h, l, out, cinc_of r)]
          | _ :: _ =>
              let next := if Nat.eqb fmin fmax then Some (rotl fmin out)
                          else if (Z.of_nat fmin <=? l) && (l - Z.of_nat fmin <? 2 ^ Z.of_nat (log_ceil (fmax - fmin)))
                               then Some (rotl (Z.to_nat l) out) else None in
              match next with
              | None => None
              | Some r' => match sem_fields rest r' with
                           | None => None
                           | Some q => Some ((h, l, out, cinc_of r) :: q)
                           end
              end
          end
      end
  end.

Definition q_h (x : Z * Z * list Z * Z) := fst (fst (fst x)).
Definition q_l (x : Z * Z * list Z * Z) := snd (fst (fst x)).
Definition q_out (x : Z * Z * list Z * Z) := snd (fst x).
Definition q_c (x : Z * Z * list Z * Z) := snd x.
Definition zsum (l : list Z) : Z := fold_right Z.add 0 l.

Definition fields_ok (M : nat) (fs : list (nat * nat)) : Prop :=
  Forall (fun f => (fst f <= snd f)%nat /\ Z.of_nat (snd f) < 2 ^ 63 /\ (2 + len_prefix_max (snd f) <= M)%nat) fs.

Lemma cinc_bounds r : 1 <= cinc_of r <= 2.
Proof. unfold cinc_of. destruct (_ =? _); lia. Qed.

Lemma shift_next : forall M fmin fmax out l, length out = M -> Forall nibble out -> (fmin <= fmax)%nat ->
  Z.of_nat fmax < 2 ^ 63 -> 0 <= l < 2 ^ 65 ->
  r_shift_left p M fmin fmax out l =
    if Nat.eqb fmin fmax then Some (rotl fmin out)
    else if (Z.of_nat fmin <=? l) && (l - Z.of_nat fmin <? 2 ^ Z.of_nat (log_ceil (fmax - fmin)))
         then Some (rotl (Z.to_nat l) out) else None.
Proof.
  intros M fmin fmax out l Hl Hn Hm Hb Hlb.
  rewrite r_shift_left_ok; auto; try zlia; [|apply Forall_nibble_felt; auto|unfold felt; zlia].
  destruct (Nat.eqb_spec fmin fmax); auto.
  destruct (Z.leb_spec (Z.of_nat fmin) l) as [L|L]; cbn [andb].
  - rewrite fsub_small by zlia. destruct (_ <? _); auto. do 2 f_equal. zlia.
  - destruct (Z.ltb_spec (fsub p l (Z.of_nat fmin)) (2 ^ Z.of_nat (log_ceil (fmax - fmin)))) as [L2|]; auto.
    exfalso.
    assert (E : fsub p l (Z.of_nat fmin) = p + l - Z.of_nat fmin).
    { unfold fsub. symmetry. apply (Z.mod_unique_pos _ _ (-1)); zlia. }
    rewrite E in L2.
    assert (Hlc : 2 ^ Z.of_nat (log_ceil (fmax - fmin)) <= 2 ^ 64).
    { rewrite log_ceil_spec by zlia. destruct (Nat.eqb_spec (fmax - fmin) 0); [zlia|].
      apply Z.pow_le_mono_r; [zlia|].
      assert (Z.log2 (Z.of_nat (fmax - fmin)) < 63) by (apply Z.log2_lt_pow2; zlia).
      pose proof (Z.log2_nonneg (Z.of_nat (fmax - fmin))). zlia. }
    zlia.
Qed.

Lemma sem_fields_bounds : forall fs M r q, fields_ok M fs -> length r = M -> Forall nibble r -> (2 <= M)%nat ->
  sem_fields fs r = Some q ->
  length q = length fs /\ Forall (fun x => 0 <= q_h x <= 18 /\ 0 <= q_l x < 2 ^ 65 /\ 1 <= q_c x <= 2 /\
                                    length (q_out x) = M /\ Forall nibble (q_out x)) q.
Proof.
  induction fs as [|[fmin fmax] rest IH]; intros M r q Hf Hl Hn HM H; cbn [sem_fields] in H.
  - assert (q = []) by congruence. subst. split; auto.
  - inversion Hf as [|? ? H1 H2]; subst. cbn [fst snd] in H1. destruct H1 as (A1 & A2 & A3).
    pose proof (len_prefix_max_bounds _ A2).
    destruct (field_shape _ r) as [[h l]|] eqn:E; [|discriminate].
    apply field_shape_bounds in E; auto; try zlia. destruct E as [Eh El].
    assert (Hx : forall c, 1 <= c <= 2 -> let x := (h, l, rotl (Z.to_nat h) r, c) in
      0 <= q_h x <= 18 /\ 0 <= q_l x < 2 ^ 65 /\ 1 <= q_c x <= 2 /\ length (q_out x) = length r /\ Forall nibble (q_out x)).
    { intros c Hc. unfold q_h, q_l, q_out, q_c. cbn [fst snd]. rewrite rotl_length.
      repeat (split; [auto|]). apply rotl_nibble; auto. }
    destruct rest as [|f2 rest].
    + assert (q = [(h, l, rotl (Z.to_nat h) r, cinc_of r)]) by congruence. subst q. split; auto.
      constructor; auto. apply Hx, cinc_bounds.
    + destruct (if Nat.eqb fmin fmax then _ else _) as [r'|] eqn:En; [|discriminate].
      destruct (sem_fields (f2 :: rest) r') as [q'|] eqn:Eq; [|discriminate].
      assert (q = (h, l, rotl (Z.to_nat h) r, cinc_of r) :: q') by congruence. subst q.
      assert (Hr' : length r' = length r /\ Forall nibble r').
      { destruct (Nat.eqb_spec fmin fmax).
        - assert (Er : r' = rotl fmin (rotl (Z.to_nat h) r)) by congruence. rewrite Er, !rotl_length. split; auto.
          do 2 apply rotl_nibble; auto.
        - destruct (_ && _); [|discriminate].
          assert (Er : r' = rotl (Z.to_nat l) (rotl (Z.to_nat h) r)) by congruence. rewrite Er, !rotl_length. split; auto.
          do 2 apply rotl_nibble; auto. }
      destruct Hr' as [R1 R2].
      destruct (IH (length r) r' q' H2 R1 R2 HM Eq) as [L1 L2].
      split; [cbn [length] in *; zlia|]. constructor; auto. apply Hx, cinc_bounds.
Qed.

Lemma array_loop_ok : forall fs M idx fieldNum r check lenSum, fields_ok M fs -> length r = M -> Forall nibble r ->
  (2 <= M)%nat -> Z.of_nat (idx + length fs) <= fieldNum -> fieldNum < 2 ^ 32 ->
  0 <= check -> 0 <= lenSum -> check + 2 * Z.of_nat (length fs) < 2 ^ 70 ->
  lenSum + 2 ^ 67 * Z.of_nat (length fs) < 2 ^ 130 ->
  array_loop p M idx fieldNum fs r check lenSum =
  match sem_fields fs r with
  | None => None
  | Some q => Some (check + zsum (map q_c q), lenSum + zsum (map (fun x => q_h x + q_l x) q), map q_l q, map q_out q)
  end.
Proof.
  induction fs as [|[fmin fmax] rest IH]; intros M idx fieldNum r check lenSum Hf Hl Hn HM Hidx Hfn Hc Hls Hc2 Hls2;
    cbn [array_loop sem_fields].
  - cbn [map zsum fold_right]. rewrite !Z.add_0_r. reflexivity.
  - inversion Hf as [|? ? H1 H2]; subst. cbn [fst snd] in H1. destruct H1 as (A1 & A2 & A3).
    pose proof (len_prefix_max_bounds _ A2) as Hlpm. cbn [length] in Hidx, Hc2, Hls2.
    rewrite array_field_ok by (auto; zlia).
    destruct (field_shape _ r) as [[h l]|] eqn:E; cbn [obind]; auto.
    apply field_shape_bounds in E; auto; try zlia. destruct E as [Eh El].
    pose proof (cinc_bounds r) as Hcb.
    rewrite (fadd_small p check), (fadd_small p lenSum) by zlia.
    destruct rest as [|f2 rest].
    + cbn [map zsum fold_right]. unfold q_c, q_h, q_l, q_out. cbn [fst snd]. do 4 f_equal; zlia.
    + rewrite shift_next; rewrite ?rotl_length; auto; [|apply rotl_nibble; auto].
      destruct (if Nat.eqb fmin fmax then _ else _) as [r'|] eqn:En; cbn [obind]; auto.
      assert (Hr' : length r' = length r /\ Forall nibble r').
      { destruct (Nat.eqb_spec fmin fmax).
        - assert (Er : r' = rotl fmin (rotl (Z.to_nat h) r)) by congruence. rewrite Er, !rotl_length. split; auto.
          do 2 apply rotl_nibble; auto.
        - destruct (_ && _); [|discriminate].
          assert (Er : r' = rotl (Z.to_nat l) (rotl (Z.to_nat h) r)) by congruence. rewrite Er, !rotl_length. split; auto.
          do 2 apply rotl_nibble; auto. }
      destruct Hr' as [R1 R2].
      rewrite IH by (auto; cbn [length] in *; zlia).
      destruct (sem_fields (f2 :: rest) r') as [q'|]; cbn [obind]; auto.
      cbn [map]. set (x := (h, l, rotl (Z.to_nat h) r, cinc_of r)).
      change (zsum (q_c x :: map q_c q')) with (cinc_of r + zsum (map q_c q')).
      change (zsum (q_h x + q_l x :: map (fun x => q_h x + q_l x) q'))
        with ((h + l) + zsum (map (fun x => q_h x + q_l x) q')).
      change (q_l x) with l. change (q_out x) with (rotl (Z.to_nat h) r).
      rewrite !Z.add_assoc. reflexivity.
Qed.

Lemma zsum_bounds : forall A (f : A -> Z) q lo hi, Forall (fun x => lo <= f x <= hi) q ->
  lo * Z.of_nat (length q) <= zsum (map f q) <= hi * Z.of_nat (length q).
Proof.
  intros A f q lo hi H. induction H; cbn [map zsum fold_right length]; [lia|].
  unfold zsum in IHForall. lia.
Qed.

Definition params_ok (a : array_check) : Prop :=
  (0 < ac_prefixMax a <= 48)%nat /\ (2 + ac_prefixMax a <= ac_maxHexLen a)%nat /\
  ac_fields a <> [] /\ Z.of_nat (length (ac_fields a)) < 2 ^ 32 /\ fields_ok (ac_maxHexLen a) (ac_fields a).

(** Closed form of RlpArrayCheck on nibble strings. *)
Definition sem_array_check (a : array_check) (inp : list Z) : option (Z * Z * list Z * list (list Z)) :=
  match head_shape (ac_prefixMax a) inp with
  | None => None
  | Some (v, pre, total) =>
      if 2 + pre <? 16 then
        match sem_fields (ac_fields a) (rotl (Z.to_nat (2 + pre)) inp) with
        | None => None
        | Some q =>
            Some (bit_of (v + zsum (map q_c q) + bit_of (total =? zsum (map (fun x => q_h x + q_l x) q))
                          =? Z.of_nat (length (ac_fields a)) + 2),
                  2 + pre + total, map q_l q, map q_out q)
        end
      else None
  end.

Lemma head_shape_bounds : forall n r v pre t, Forall nibble r -> (2 <= length r)%nat -> (n <= 48)%nat ->
  head_shape n r = Some (v, pre, t) -> (v = 0 \/ v = 1) /\ 0 <= pre <= 16 /\ 0 <= t < 2 ^ 65.
Proof.
  intros n r v pre t Hn Hl Hn48 H. unfold head_shape in H.
  pose proof (classify_cases _ (byte0_range r Hl Hn)) as Hc.
  destruct (classify (byte0 r)) as [|l'|k|l'|k].
  1-4: assert (E : Some (v, pre, t) = Some (v, pre, t)) by reflexivity; rewrite <- H in E at 1;
       first [assert (v = 0 /\ pre = 0 /\ t = 0) by (repeat split; congruence); zlia
             |assert (v = 1 /\ pre = 0 /\ t = 2 * l') by (repeat split; congruence); zlia].
  destruct (_ <=? _) eqn:E; [|discriminate].
  assert (v = 1 /\ pre = 2 * k) by (split; congruence).
  assert (Et : t = 2 * hexval (firstn (Z.to_nat (2 * k)) (skipn 2 r))) by congruence.
  split; [zlia|]. split; [zlia|]. rewrite Et.
  pose proof (hexval_bound (firstn (Z.to_nat (2 * k)) (skipn 2 r))
          ltac:(apply Forall_firstn, Forall_skipn; auto)) as Hh.
  rewrite firstn_length in Hh.
  assert (16 ^ Z.of_nat (Nat.min (Z.to_nat (2 * k)) (length (skipn 2 r))) <= 16 ^ 16)
    by (apply Z.pow_le_mono_r; zlia).
  change (16 ^ 16) with (2 ^ 64) in *. change (2 ^ 65) with (2 * 2 ^ 64). zlia.
Qed.

Lemma rlp_array_check_ok : forall a inp, params_ok a -> length inp = ac_maxHexLen a -> Forall nibble inp ->
  rlp_array_check p a inp (Z.of_nat (length (ac_fields a))) = sem_array_check a inp.
Proof.
  intros a inp (P1 & P2 & P3 & P4 & P5) Hl Hn. unfold rlp_array_check, sem_array_check.
  rewrite array_head_ok by (auto; zlia).
  destruct (head_shape (ac_prefixMax a) inp) as [[[v pre] total]|] eqn:Eh; cbn [obind]; auto.
  apply head_shape_bounds in Eh; auto; try zlia. destruct Eh as (Ev & Ep & Et).
  rewrite Hl, Nat.leb_refl. cbn [guard obind]. rewrite firstn_all2 by zlia.
  rewrite (fadd_small p 2 pre) by zlia.
  destruct (ac_fields a) as [|f fs] eqn:Ef; [congruence|]. rewrite <- Ef in *.
  replace (match ac_fields a with [] => Some [] | _ :: _ => r_shift_left p (ac_maxHexLen a) 0 10 inp (2 + pre) end)
    with (r_shift_left p (ac_maxHexLen a) 0 10 inp (2 + pre)) by (rewrite Ef; reflexivity).
  rewrite shift_left_0 by (auto; zlia).
  replace (2 ^ Z.of_nat (log_ceil 10)) with 16 by (vm_compute; reflexivity).
  destruct (2 + pre <? 16); cbn [obind]; auto.
  rewrite array_loop_ok; rewrite ?rotl_length; auto; try zlia; [|apply rotl_nibble; auto].
  destruct (sem_fields (ac_fields a) (rotl (Z.to_nat (2 + pre)) inp)) as [q|] eqn:Eq; cbn [obind]; auto.
  apply (sem_fields_bounds _ (ac_maxHexLen a)) in Eq; auto; rewrite ?rotl_length; auto;
    [|apply rotl_nibble; auto|zlia].
  destruct Eq as [Q1 Q2].
  assert (S1 := zsum_bounds _ q_c q 1 2 ltac:(eapply Forall_impl; [|exact Q2]; cbn; tauto)).
  assert (S2 : 0 * Z.of_nat (length q) <= zsum (map (fun x => q_h x + q_l x) q) <= 2 ^ 66 * Z.of_nat (length q)).
  { apply zsum_bounds. eapply Forall_impl; [|exact Q2]. cbn. intros x Hx. zlia. }
  rewrite Q1 in *. rewrite !Z.add_0_l.
  rewrite (fis_zero_sub p ltac:(zlia) total) by (unfold felt; zlia).
  set (c := zsum (map q_c q)) in *. set (s := zsum (map (fun x => q_h x + q_l x) q)) in *.
  assert (Hb : 0 <= bit_of (total =? s) <= 1) by (destruct (total =? s); cbn; lia).
  rewrite (fadd_small p (v + c)), (fadd_small p (Z.of_nat _)) by zlia.
  rewrite (fis_zero_sub p ltac:(zlia) (v + c + _)) by (unfold felt; zlia).
  rewrite (fadd_small p (2 + pre)) by zlia. reflexivity.
Qed.

End P.
