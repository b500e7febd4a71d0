(** * RlpNestProofs.v — RlpNestArrayCheck (list-typed fields keep their header) *)
From Coq Require Import ZArith List Lia Bool Arith.
From Verif Require Import ModNorm Field FieldLemmas RlpUtilModel RlpUtilProofs RlpModel RlpSpec RlpPrefixProofs RlpArrayProofs RlpArraySound.
Import ListNotations.
Open Scope Z_scope.
Open Scope circ_scope.

Ltac Zify.zify_post_hook ::= Z.div_mod_to_equations.

(** (header length, payload length) as computed for one field *)
Definition nest_shape (lpm : nat) (r : list Z) : option (Z * Z) :=
  match classify (byte0 r) with
  | HLongList k =>
      if 2 * k <=? Z.of_nat lpm then Some (2 + 2 * k, 2 * hexval (firstn (Z.to_nat (2 * k)) (skipn 2 r))) else None
  | _ => field_shape lpm r
  end.

Definition is_array (r : list Z) : bool := 192 <=? byte0 r.
Definition nest_out (r : list Z) (h : Z) : list Z := if is_array r then r else rotl (Z.to_nat h) r.
Definition nest_pay (r : list Z) (l : Z) : Z := if byte0 r =? 0 then 0 else l.
Definition nest_len (r : list Z) (h l : Z) : Z := if is_array r then h + l else nest_pay r l.
Definition c0_of (r : list Z) : Z := bit_of (byte0 r =? 192).

Section P.
Variable p : Z.
Hypothesis Hp : 2 ^ 200 < p.
Let Hp' : 1606938044258990275541962092341162602522202993782792835301376 < p := Hp.

Lemma some4' : forall A (o o' : A) (X x c c' Y y : Z), o = o' -> X = x -> c = c' -> Y = y -> Some (o, X, c, Y) = Some (o', x, c', y).
Proof. intros; subst; reflexivity. Qed.

Lemma nest_shape_bounds : forall lpm r h l, Forall nibble r -> (2 <= length r)%nat -> (lpm <= 16)%nat ->
  nest_shape lpm r = Some (h, l) -> 0 <= h <= 18 /\ 0 <= l < 2 ^ 65.
Proof.
  intros lpm r h l Hn Hl Hlpm H. unfold nest_shape in H.
  pose proof (classify_cases _ (byte0_range r Hl Hn)) as Hc.
  destruct (classify (byte0 r)) as [|x|k|x|k] eqn:Ec; try (eapply field_shape_bounds; eauto; fail).
  destruct (_ <=? _) eqn:E; [|discriminate].
  assert (h = 2 + 2 * k) by congruence. split; [zlia|].
  replace l with (2 * hexval (firstn (Z.to_nat (2 * k)) (skipn 2 r))) by congruence.
  pose proof (hexval_bound (firstn (Z.to_nat (2 * k)) (skipn 2 r)) ltac:(apply Forall_firstn, Forall_skipn; auto)) as Hh.
  rewrite firstn_length in Hh.
  assert (16 ^ Z.of_nat (Nat.min (Z.to_nat (2 * k)) (length (skipn 2 r))) <= 16 ^ 16)
      by (apply Z.pow_le_mono_r; zlia).
  change (16 ^ 16) with (2 ^ 64) in *. change (2 ^ 65) with (2 * 2 ^ 64). zlia.
Qed.

Ltac fixarg_shift v := match goal with |- context [r_shift_left _ _ 0 _ _ ?s] =>
    replace s with v by (symmetry; match goal with |- fmul ?p _ _ = _ => mnorm_lhs p end; rewrite Z.mod_small; zlia) end.
Ltac fixarg_mux v := match goal with |- context [r_mux1 _ ?s _ _] =>
    replace s with v by (symmetry; match goal with |- fmul ?p _ _ = _ => mnorm_lhs p end; rewrite Z.mod_small; zlia) end.

Lemma nest_field_ok : forall M fmax r,
  length r = M -> Forall nibble r ->
  Z.of_nat fmax < 2 ^ 63 -> (2 + len_prefix_max fmax <= M)%nat ->
  nest_field p M fmax r =
  match nest_shape (len_prefix_max fmax) r with
  | None => None
  | Some (h, l) => Some (nest_out r h, nest_len r h l, cinc_of r, h + nest_pay r l - c0_of r)
  end.
Proof.
  intros M fmax r Hl Hn Hfm HM.
  pose proof (len_prefix_max_bounds fmax Hfm) as Hlpm.
  set (lpm := len_prefix_max fmax) in *.
  assert (Hb := byte0_range r ltac:(zlia) Hn).
  pose proof (classify_cases _ Hb) as Hc.
  unfold nest_field.
  rewrite field_prefix_ok by (try zlia; apply nth_nibble; auto). cbv zeta. fold (byte0 r).
  cbn [fp_isBig fp_isLiteral fp_hexLen fp_isValid fp_isArray fp_isEmptyList fp_isZero]. fold lpm.
  set (row := hex_prefix_vals p 0 (firstn lpm (skipn 2 r))).
  assert (Hrl : length row = lpm).
  { unfold row. rewrite hex_prefix_vals_length, firstn_length, skipn_length. zlia. }
  assert (Hrf : forall x, In x row -> felt p x) by (apply hex_prefix_vals_felt; auto).
  assert (Hmux : forall sel, 0 <= sel < 200 -> r_mux1 p sel lpm row =
     if sel <? Z.of_nat lpm then Some (nth (Z.to_nat sel) row 0) else None).
  { intros sel Hs. apply r_mux1_ok; auto; unfold felt; zlia. }
  pose proof (log_ceil_2 lpm ltac:(zlia)) as Hlc.
  replace (Nat.leb (2 + lpm) (length r)) with true by (symmetry; apply Nat.leb_le; zlia).
  change (if byte0 r =? 192 then 2 else 1) with (cinc_of r).
  assert (Hn0 : felt p (nth 0 row 0)).
  { apply Hrf, nth_In. zlia. }
  unfold felt in Hn0.
  unfold nest_shape, field_shape, nest_out, nest_len, nest_pay, is_array, c0_of.
  destruct (classify (byte0 r)) as [|l|k|l|k] eqn:Ec; cbn [head_hexlen head_big head_literal bit_of].
  - (* literal *)
    destruct (Z.leb_spec 192 (byte0 r)); [zlia|]. destruct (Z.eqb_spec (byte0 r) 192); [zlia|]. cbn [bit_of].
    fixarg_shift 0. rewrite shift_left_0 by (auto; zlia).
    destruct (Z.ltb_spec 0 (2 ^ Z.of_nat (log_ceil lpm))); [|zlia]. cbn [obind guard].
    fixarg_mux 0. rewrite Hmux by zlia.
    destruct (Z.ltb_spec 0 (Z.of_nat lpm)); [|zlia]. cbn [obind].
    destruct (Z.eqb_spec (byte0 r) 0); cbn [bit_of];
      (apply some4'; auto; mnorm_lhs p; rewrite Z.mod_small; zlia).
  - (* short string *)
    destruct (Z.leb_spec 192 (byte0 r)); [zlia|]. destruct (Z.eqb_spec (byte0 r) 192); [zlia|].
    destruct (Z.eqb_spec (byte0 r) 0); [zlia|]. cbn [bit_of].
    fixarg_shift 2. rewrite shift_left_0 by (auto; zlia).
    destruct (Z.ltb_spec 2 (2 ^ Z.of_nat (log_ceil lpm))); [|zlia]. cbn [obind guard].
    fixarg_mux 0. rewrite Hmux by zlia.
    destruct (Z.ltb_spec 0 (Z.of_nat lpm)); [|zlia]. cbn [obind].
    apply some4'; auto; mnorm_lhs p; rewrite Z.mod_small; zlia.
  - (* long string *)
    destruct (Z.leb_spec 192 (byte0 r)); [zlia|]. destruct (Z.eqb_spec (byte0 r) 192); [zlia|].
    destruct (Z.eqb_spec (byte0 r) 0); [zlia|]. cbn [bit_of].
    fixarg_shift (2 + 2 * k). rewrite shift_left_0 by (auto; zlia).
    destruct (Z.ltb_spec (2 + 2 * k) (2 ^ Z.of_nat (log_ceil lpm))); cbn [obind guard]; [|rewrite andb_false_r; auto].
    fixarg_mux (2 * k - 1). rewrite Hmux by zlia.
    destruct (Z.ltb_spec (2 * k - 1) (Z.of_nat lpm)), (Z.leb_spec (2 * k) (Z.of_nat lpm)); try zlia;
      cbn [andb obind]; auto.
    unfold row. rewrite hex_prefix_vals_nth; auto.
    2: apply Forall_firstn, Forall_skipn; auto.
    2,3: rewrite firstn_length, skipn_length; zlia.
    replace (S (Z.to_nat (2 * k - 1))) with (Z.to_nat (2 * k)) by zlia.
    rewrite firstn_skipn_firstn by zlia.
    pose proof (hexval_bound (firstn (Z.to_nat (2 * k)) (skipn 2 r))
          ltac:(apply Forall_firstn, Forall_skipn; auto)) as Hv.
    rewrite firstn_length in Hv.
    assert (16 ^ Z.of_nat (Nat.min (Z.to_nat (2 * k)) (length (skipn 2 r))) <= 16 ^ 16)
      by (apply Z.pow_le_mono_r; zlia).
    set (v := hexval _) in *. change (16 ^ 16) with (2 ^ 64) in *.
    apply some4'; auto; mnorm_lhs p; rewrite Z.mod_small; zlia.
  - (* short list *)
    destruct (Z.leb_spec 192 (byte0 r)); [|zlia].
    destruct (Z.eqb_spec (byte0 r) 0); [zlia|]. cbn [bit_of].
    fixarg_shift 0. rewrite shift_left_0 by (auto; zlia).
    destruct (Z.ltb_spec 0 (2 ^ Z.of_nat (log_ceil lpm))); [|zlia]. cbn [obind guard].
    fixarg_mux 0. rewrite Hmux by zlia.
    destruct (Z.ltb_spec 0 (Z.of_nat lpm)); [|zlia]. cbn [obind].
    destruct (Z.eqb_spec (byte0 r) 192); cbn [bit_of];
      (apply some4'; auto; [apply rotl_0|mnorm_lhs p; rewrite Z.mod_small; zlia|mnorm_lhs p; rewrite Z.mod_small; zlia]).
  - (* long list *)
    destruct (Z.leb_spec 192 (byte0 r)); [|zlia]. destruct (Z.eqb_spec (byte0 r) 192); [zlia|].
    destruct (Z.eqb_spec (byte0 r) 0); [zlia|]. cbn [bit_of].
    fixarg_shift 0. rewrite shift_left_0 by (auto; zlia).
    destruct (Z.ltb_spec 0 (2 ^ Z.of_nat (log_ceil lpm))); [|zlia]. cbn [obind guard].
    fixarg_mux (2 * k - 1). rewrite Hmux by zlia.
    destruct (Z.ltb_spec (2 * k - 1) (Z.of_nat lpm)), (Z.leb_spec (2 * k) (Z.of_nat lpm)); try zlia;
      cbn [andb obind]; auto.
    unfold row. rewrite hex_prefix_vals_nth; auto.
    2: apply Forall_firstn, Forall_skipn; auto.
    2,3: rewrite firstn_length, skipn_length; zlia.
    replace (S (Z.to_nat (2 * k - 1))) with (Z.to_nat (2 * k)) by zlia.
    rewrite firstn_skipn_firstn by zlia.
    pose proof (hexval_bound (firstn (Z.to_nat (2 * k)) (skipn 2 r))
          ltac:(apply Forall_firstn, Forall_skipn; auto)) as Hv.
    rewrite firstn_length in Hv.
    assert (16 ^ Z.of_nat (Nat.min (Z.to_nat (2 * k)) (length (skipn 2 r))) <= 16 ^ 16)
      by (apply Z.pow_le_mono_r; zlia).
    set (v := hexval _) in *. change (16 ^ 16) with (2 ^ 64) in *.
    apply some4'; auto; [apply rotl_0|mnorm_lhs p; rewrite Z.mod_small; zlia|mnorm_lhs p; rewrite Z.mod_small; zlia].
Qed.

(** loop: per field (encoded length counted into lenSum + c0, returned length, content array, c0 flag) *)
Fixpoint nsem_fields (fs : list (nat * nat)) (r : list Z) : option (list (Z * Z * list Z * Z)) :=
  match fs with
  | [] => Some []
  | (fmin, fmax) :: rest =>
      match nest_shape (len_prefix_max fmax) r with
      | None => None
      | Some (h, l) =>
          let out := nest_out r h in
          let len := nest_len r h l in
          let x := (h + nest_pay r l, len, out, c0_of r) in
          match rest with
          | [] => Some [x]
          | _ :: _ =>
              let next := if Nat.eqb fmin fmax then Some (rotl fmin out)
                          else if (Z.of_nat fmin <=? len) && (len - Z.of_nat fmin <? 2 ^ Z.of_nat (log_ceil (fmax - fmin)))
                               then Some (rotl (Z.to_nat len) out) else None in
              match next with
              | None => None
              | Some r' => match nsem_fields rest r' with
                           | None => None
                           | Some q => Some (x :: q)
                           end
              end
          end
      end
  end.

Definition n_e (x : Z * Z * list Z * Z) := fst (fst (fst x)).
Definition n_l (x : Z * Z * list Z * Z) := snd (fst (fst x)).
Definition n_out (x : Z * Z * list Z * Z) := snd (fst x).
Definition n_c (x : Z * Z * list Z * Z) := snd x.

Lemma nest_out_props r h : Forall nibble r -> length (nest_out r h) = length r /\ Forall nibble (nest_out r h).
Proof. intros. unfold nest_out. destruct (is_array r); auto. rewrite rotl_length. split; auto. apply rotl_nibble; auto. Qed.

Lemma nest_pay_bounds r l : 0 <= l < 2 ^ 65 -> 0 <= nest_pay r l < 2 ^ 65.
Proof. unfold nest_pay. destruct (_ =? _); auto. zlia. Qed.

Lemma c0_bounds r : 0 <= c0_of r <= 1.
Proof. unfold c0_of. destruct (_ =? _); cbn; lia. Qed.

Lemma c0_h lpm r h l : nest_shape lpm r = Some (h, l) -> c0_of r = 1 -> h = 2 /\ l = 0.
Proof.
  unfold c0_of, nest_shape, field_shape. destruct (Z.eqb_spec (byte0 r) 192) as [->|]; [|cbn; discriminate].
  cbn. intros. split; congruence.
Qed.

Lemma shift_next' : forall M fmin fmax out l, length out = M -> Forall nibble out -> (fmin <= fmax)%nat ->
  Z.of_nat fmax < 2 ^ 63 -> 0 <= l < 2 ^ 67 ->
  r_shift_left p M fmin fmax out l =
    if Nat.eqb fmin fmax then Some (rotl fmin out)
    else if (Z.of_nat fmin <=? l) && (l - Z.of_nat fmin <? 2 ^ Z.of_nat (log_ceil (fmax - fmin)))
         then Some (rotl (Z.to_nat l) out) else None.
Proof.
  intros M fmin fmax out l Hl Hn Hm Hb Hlb.
  rewrite r_shift_left_ok; auto; try zlia; [|apply Forall_nibble_felt; auto|unfold felt; zlia].
  destruct (Nat.eqb_spec fmin fmax); auto.
  destruct (Z.leb_spec (Z.of_nat fmin) l) as [L|L]; cbn [andb].
  - rewrite fsub_small by zlia. destruct (_ <? _); auto. do 2 f_equal. zlia.
  - destruct (Z.ltb_spec (fsub p l (Z.of_nat fmin)) (2 ^ Z.of_nat (log_ceil (fmax - fmin)))) as [L2|]; auto.
    exfalso.
    assert (E : fsub p l (Z.of_nat fmin) = p + l - Z.of_nat fmin).
    { unfold fsub. symmetry. apply (Z.mod_unique_pos _ _ (-1)); zlia. }
    rewrite E in L2.
    assert (Hlc : 2 ^ Z.of_nat (log_ceil (fmax - fmin)) <= 2 ^ 64).
    { rewrite log_ceil_spec by zlia. destruct (Nat.eqb_spec (fmax - fmin) 0); [zlia|].
      apply Z.pow_le_mono_r; [zlia|].
      assert (Z.log2 (Z.of_nat (fmax - fmin)) < 63) by (apply Z.log2_lt_pow2; zlia).
      pose proof (Z.log2_nonneg (Z.of_nat (fmax - fmin))). zlia. }
    zlia.
Qed.

Lemma nsem_bounds : forall fs M r q, fields_ok M fs -> length r = M -> Forall nibble r -> (2 <= M)%nat ->
  nsem_fields fs r = Some q ->
  length q = length fs /\ Forall (fun x => 0 <= n_e x < 2 ^ 66 /\ 0 <= n_l x < 2 ^ 66 /\ 0 <= n_c x <= 1 /\ n_c x <= n_e x) q.
Proof.
  induction fs as [|[fmin fmax] rest IH]; intros M r q Hf Hl Hn HM H; cbn [nsem_fields] in H.
  - assert (q = []) by congruence. subst. split; auto.
  - inversion Hf as [|? ? H1 H2]; subst. cbn [fst snd] in H1. destruct H1 as (A1 & A2 & A3).
    pose proof (len_prefix_max_bounds _ A2) as Hl16.
    destruct (nest_shape _ r) as [[h l]|] eqn:E; [|discriminate].
    pose proof (nest_shape_bounds _ _ _ _ Hn HM (proj2 Hl16) E) as [Eh El].
    pose proof (nest_pay_bounds r l El) as Np. pose proof (c0_bounds r) as Nc.
    destruct (nest_out_props r h Hn) as [O1 O2].
    set (x := (h + nest_pay r l, nest_len r h l, nest_out r h, c0_of r)) in *.
    assert (Hx : 0 <= n_e x < 2 ^ 66 /\ 0 <= n_l x < 2 ^ 66 /\ 0 <= n_c x <= 1 /\ n_c x <= n_e x).
    { unfold n_e, n_l, n_c, x. cbn [fst snd]. split; [zlia|]. split; [unfold nest_len; destruct (is_array r); zlia|].
      split; [auto|]. destruct (Z.eq_dec (c0_of r) 1) as [e|e]; [|zlia]. destruct (c0_h _ _ _ _ E e). zlia. }
    destruct rest as [|f2 rest].
    + assert (q = [x]) by congruence. subst q. split; auto.
    + destruct (if Nat.eqb fmin fmax then _ else _) as [r'|] eqn:En; [|discriminate].
      destruct (nsem_fields (f2 :: rest) r') as [q'|] eqn:Eq; [|discriminate].
      assert (q = x :: q') by congruence. subst q.
      assert (Hr' : length r' = length r /\ Forall nibble r').
      { destruct (Nat.eqb_spec fmin fmax).
        - assert (Er : r' = rotl fmin (nest_out r h)) by congruence. rewrite Er, rotl_length. split; auto. apply rotl_nibble; auto.
        - destruct (_ && _); [|discriminate].
          assert (Er : r' = rotl (Z.to_nat (nest_len r h l)) (nest_out r h)) by congruence. rewrite Er, !rotl_length. split; auto.
          apply rotl_nibble; auto. }
      destruct Hr' as [R1 R2].
      destruct (IH (length r) r' q' H2 R1 R2 HM Eq) as [L1 L2].
      split; [cbn [length] in *; zlia|]. constructor; auto.
Qed.

Lemma nest_loop_ok : forall fs M r check lenSum, fields_ok M fs -> length r = M -> Forall nibble r ->
  (2 <= M)%nat -> Z.of_nat (length fs) < 2 ^ 32 ->
  0 <= check -> 0 <= lenSum -> check + 2 * Z.of_nat (length fs) < 2 ^ 70 ->
  lenSum + 2 ^ 67 * Z.of_nat (length fs) < 2 ^ 130 ->
  nest_loop p M fs r check lenSum =
  match nsem_fields fs r with
  | None => None
  | Some q => Some (check + zsum (map (fun x => 1 + n_c x) q), lenSum + zsum (map (fun x => n_e x - n_c x) q),
                    map n_l q, map n_out q)
  end.
Proof.
  induction fs as [|[fmin fmax] rest IH]; intros M r check lenSum Hf Hl Hn HM Hfn Hc Hls Hc2 Hls2;
    cbn [nest_loop nsem_fields].
  - cbn [map zsum fold_right]. rewrite !Z.add_0_r. reflexivity.
  - inversion Hf as [|? ? H1 H2]; subst. cbn [fst snd] in H1. destruct H1 as (A1 & A2 & A3).
    pose proof (len_prefix_max_bounds _ A2) as Hl16. cbn [length] in Hfn, Hc2, Hls2.
    rewrite nest_field_ok by (auto; zlia).
    destruct (nest_shape _ r) as [[h l]|] eqn:E; cbn [obind]; auto.
    pose proof (nest_shape_bounds _ _ _ _ Hn HM (proj2 Hl16) E) as [Eh El].
    pose proof (nest_pay_bounds r l El) as Np. pose proof (c0_bounds r) as Nc.
    destruct (nest_out_props r h Hn) as [O1 O2].
    assert (Hcc : cinc_of r = 1 + c0_of r) by (unfold cinc_of, c0_of; destruct (_ =? _); auto).
    assert (Hce : c0_of r <= h + nest_pay r l).
    { destruct (Z.eq_dec (c0_of r) 1) as [e|e]; [|zlia]. destruct (c0_h _ _ _ _ E e). zlia. }
    rewrite Hcc. rewrite (fadd_small p check), (fadd_small p lenSum) by zlia.
    set (x := (h + nest_pay r l, nest_len r h l, nest_out r h, c0_of r)) in *.
    destruct rest as [|f2 rest].
    + cbn [map zsum fold_right]. change (n_c x) with (c0_of r). change (n_e x) with (h + nest_pay r l).
      change (n_l x) with (nest_len r h l). change (n_out x) with (nest_out r h). rewrite !Z.add_0_r. reflexivity.
    + rewrite shift_next'; auto.
      2:{ unfold nest_len. destruct (is_array r); zlia. }
      destruct (if Nat.eqb fmin fmax then _ else _) as [r'|] eqn:En; cbn [obind]; auto.
      assert (Hr' : length r' = length r /\ Forall nibble r').
      { destruct (Nat.eqb_spec fmin fmax).
        - assert (Er : r' = rotl fmin (nest_out r h)) by congruence. rewrite Er, rotl_length. split; auto. apply rotl_nibble; auto.
        - destruct (_ && _); [|discriminate].
          assert (Er : r' = rotl (Z.to_nat (nest_len r h l)) (nest_out r h)) by congruence. rewrite Er, !rotl_length. split; auto.
          apply rotl_nibble; auto. }
      destruct Hr' as [R1 R2].
      rewrite IH by (auto; cbn [length] in *; zlia).
      destruct (nsem_fields (f2 :: rest) r') as [q'|]; cbn [obind]; auto.
      cbn [map].
      change (zsum (1 + n_c x :: map (fun x => 1 + n_c x) q')) with ((1 + c0_of r) + zsum (map (fun x => 1 + n_c x) q')).
      change (zsum (n_e x - n_c x :: map (fun x => n_e x - n_c x) q'))
        with ((h + nest_pay r l - c0_of r) + zsum (map (fun x => n_e x - n_c x) q')).
      change (n_l x) with (nest_len r h l). change (n_out x) with (nest_out r h).
      rewrite !Z.add_assoc. reflexivity.
Qed.

Definition sem_nest_check (a : array_check) (inp : list Z) : option (Z * Z * list Z * list (list Z)) :=
  match head_shape (ac_prefixMax a) inp with
  | None => None
  | Some (v, pre, total) =>
      if 2 + pre <? 2 ^ Z.of_nat (log_ceil (ac_prefixMax a)) then
        match nsem_fields (ac_fields a) (rotl (Z.to_nat (2 + pre)) inp) with
        | None => None
        | Some q =>
            Some (bit_of (v + zsum (map (fun x => 1 + n_c x) q) + bit_of (total =? zsum (map (fun x => n_e x - n_c x) q))
                          =? Z.of_nat (length (ac_fields a)) + 2),
                  2 + pre + total, map n_l q, map n_out q)
        end
      else None
  end.

Lemma rlp_nest_array_check_ok : forall a inp, params_ok a -> length inp = ac_maxHexLen a -> Forall nibble inp ->
  rlp_nest_array_check p a inp = sem_nest_check a inp.
Proof.
  intros a inp (P1 & P2 & P3 & P4 & P5) Hl Hn. unfold rlp_nest_array_check, sem_nest_check.
  rewrite array_head_ok by (auto; zlia).
  destruct (head_shape (ac_prefixMax a) inp) as [[[v pre] total]|] eqn:Eh; cbn [obind]; auto.
  apply head_shape_bounds in Eh; auto; try zlia. destruct Eh as (Ev & Ep & Et).
  rewrite Hl, Nat.leb_refl. cbn [guard obind]. rewrite firstn_all2 by zlia.
  rewrite (fadd_small p 2 pre) by zlia.
  destruct (ac_fields a) as [|f fs] eqn:Ef; [congruence|]. rewrite <- Ef in *.
  replace (match ac_fields a with [] => Some [] | _ :: _ => r_shift_left p (ac_maxHexLen a) 0 (ac_prefixMax a) inp (2 + pre) end)
    with (r_shift_left p (ac_maxHexLen a) 0 (ac_prefixMax a) inp (2 + pre)) by (rewrite Ef; reflexivity).
  rewrite shift_left_0 by (auto; zlia).
  destruct (2 + pre <? _); cbn [obind]; auto.
  rewrite nest_loop_ok; rewrite ?rotl_length; auto; try zlia; [|apply rotl_nibble; auto].
  destruct (nsem_fields (ac_fields a) (rotl (Z.to_nat (2 + pre)) inp)) as [q|] eqn:Eq; cbn [obind]; auto.
  apply (nsem_bounds _ (ac_maxHexLen a)) in Eq; auto; rewrite ?rotl_length; auto;
    [|apply rotl_nibble; auto|zlia].
  destruct Eq as [Q1 Q2].
  assert (S1 := zsum_bounds _ (fun x => 1 + n_c x) q 1 2 ltac:(eapply Forall_impl; [|exact Q2]; intros x Hx; cbv beta in *; lia)).
  assert (S2 : 0 * Z.of_nat (length q) <= zsum (map (fun x => n_e x - n_c x) q) <= 2 ^ 66 * Z.of_nat (length q)).
  { apply zsum_bounds. eapply Forall_impl; [|exact Q2]. cbv beta. intros x Hx. zlia. }
  rewrite Q1 in *. rewrite !Z.add_0_l.
  set (c := zsum (map (fun x => 1 + n_c x) q)) in *. set (s := zsum (map (fun x => n_e x - n_c x) q)) in *.
  rewrite (fis_zero_sub p ltac:(zlia) total) by (unfold felt; zlia).
  assert (Hb : 0 <= bit_of (total =? s) <= 1) by (destruct (total =? s); cbn; lia).
  rewrite (fadd_small p (v + c)), (fadd_small p (Z.of_nat _)) by zlia.
  rewrite (fis_zero_sub p ltac:(zlia) (v + c + _)) by (unfold felt; zlia).
  rewrite (fadd_small p (2 + pre)) by zlia. reflexivity.
Qed.

End P.
