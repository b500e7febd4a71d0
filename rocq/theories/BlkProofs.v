(** * BlkProofs.v — BlkHeaderRlpCheck: closed form, soundness, completeness *)
From Coq Require Import ZArith List Lia Bool Arith.
From Verif Require Import ModNorm Field FieldLemmas RlpUtilModel RlpUtilProofs RlpModel RlpSpec RlpPrefixProofs RlpArrayProofs RlpArraySound.
Import ListNotations.
Open Scope Z_scope.
Open Scope circ_scope.

Ltac Zify.zify_post_hook ::= Z.div_mod_to_equations.

Section P.
Variable p : Z.
Hypothesis Hp : 2 ^ 200 < p.
Let Hp' : 1606938044258990275541962092341162602522202993782792835301376 < p := Hp.

Ltac fixarg_shift v := match goal with |- context [r_shift_left _ _ 0 _ _ ?s] =>
    replace s with v by (symmetry; match goal with |- fsub ?p _ _ = _ => mnorm_lhs p end; rewrite Z.mod_small; zlia) end.
Ltac fixarg_mux v := match goal with |- context [r_mux1 _ ?s _ _] =>
    replace s with v by (symmetry; match goal with |- fmul ?p _ _ = _ => mnorm_lhs p end; rewrite Z.mod_small; zlia) end.
(** length kept only for fields in use *)
Definition kept (used : bool) (l : Z) : Z := if used then l else 0.

Lemma blk_field_ok : forall M idx fn fmax r,
  length r = M -> Forall nibble r -> Z.of_nat idx < p -> felt p fn ->
  Z.of_nat fmax < 2 ^ 63 -> (2 + len_prefix_max fmax <= M)%nat ->
  blk_field p M idx fn fmax r =
  match field_shape (len_prefix_max fmax) r with
  | None => None
  | Some (h, l) => Some (rotl (Z.to_nat h) r, kept (Z.of_nat idx <? fn) l, cinc_of r, h + kept (Z.of_nat idx <? fn) l)
  end.
Proof.
  intros M idx fn fmax r Hl Hn Hidx Hfn Hfm HM.
  pose proof (len_prefix_max_bounds fmax Hfm) as Hlpm.
  set (lpm := len_prefix_max fmax) in *.
  assert (Hb := byte0_range r ltac:(zlia) Hn).
  pose proof (classify_cases _ Hb) as Hc.
  unfold blk_field. rewrite r_less_than_ok by (try exact Hfn; try zlia; unfold felt; zlia).
  rewrite field_prefix_ok by (try zlia; apply nth_nibble; auto). cbv zeta. fold (byte0 r).
  cbn [fp_isBig fp_isLiteral fp_hexLen fp_isValid]. fold lpm.
  set (row := hex_prefix_vals p 0 (firstn lpm (skipn 2 r))).
  assert (Hrl : length row = lpm).
  { unfold row. rewrite hex_prefix_vals_length, firstn_length, skipn_length. zlia. }
  assert (Hrf : forall x, In x row -> felt p x) by (apply hex_prefix_vals_felt; exact Hp).
  assert (Hmux : forall sel, 0 <= sel < 200 -> r_mux1 p sel lpm row =
     if sel <? Z.of_nat lpm then Some (nth (Z.to_nat sel) row 0) else None).
  { intros sel Hs. apply r_mux1_ok; auto; unfold felt; zlia. }
  pose proof (log_ceil_2 lpm ltac:(zlia)) as Hlc.
  replace (Nat.leb (2 + lpm) (length r)) with true by (symmetry; apply Nat.leb_le; zlia).
  change (if byte0 r =? 192 then 2 else 1) with (cinc_of r).
  assert (Hn0 : felt p (nth 0 row 0)).
  { apply Hrf, nth_In. zlia. }
  unfold felt in Hn0.
  unfold field_shape.
  destruct (classify (byte0 r)) as [|l|k|l|k] eqn:Ec; cbn [head_hexlen head_big head_literal bit_of].
  - (* literal *)
    fixarg_shift 0. rewrite shift_left_0 by (auto; zlia).
    destruct (Z.ltb_spec 0 (2 ^ Z.of_nat (log_ceil lpm))); [|zlia]. cbn [obind guard].
    fixarg_mux 0. rewrite Hmux by zlia.
    destruct (Z.ltb_spec 0 (Z.of_nat lpm)); [|zlia]. cbn [obind].
    destruct (Z.of_nat idx <? fn); cbn [bit_of kept]; apply some4; mnorm_lhs p; rewrite Z.mod_small; zlia.
  - (* short string *)
    fixarg_shift 2. rewrite shift_left_0 by (auto; zlia).
    destruct (Z.ltb_spec 2 (2 ^ Z.of_nat (log_ceil lpm))); [|zlia]. cbn [obind guard].
    fixarg_mux 0. rewrite Hmux by zlia.
    destruct (Z.ltb_spec 0 (Z.of_nat lpm)); [|zlia]. cbn [obind].
    destruct (Z.of_nat idx <? fn); cbn [bit_of kept]; apply some4; mnorm_lhs p; rewrite Z.mod_small; zlia.
  - (* long string *)
    fixarg_shift (2 + 2 * k). rewrite shift_left_0 by (auto; zlia).
    destruct (Z.ltb_spec (2 + 2 * k) (2 ^ Z.of_nat (log_ceil lpm))); cbn [obind guard]; [|rewrite andb_false_r; auto].
    fixarg_mux (2 * k - 1). rewrite Hmux by zlia.
    destruct (Z.ltb_spec (2 * k - 1) (Z.of_nat lpm)), (Z.leb_spec (2 * k) (Z.of_nat lpm)); try zlia;
      cbn [andb obind]; auto.
    unfold row. rewrite (hex_prefix_vals_nth p Hp).
    2: apply Forall_firstn, Forall_skipn; auto.
    2,3: rewrite firstn_length, skipn_length; zlia.
    replace (S (Z.to_nat (2 * k - 1))) with (Z.to_nat (2 * k)) by zlia.
    rewrite firstn_skipn_firstn by zlia.
    pose proof (hexval_bound (firstn (Z.to_nat (2 * k)) (skipn 2 r))
          ltac:(apply Forall_firstn, Forall_skipn; auto)) as Hv.
    rewrite firstn_length in Hv.
    assert (16 ^ Z.of_nat (Nat.min (Z.to_nat (2 * k)) (length (skipn 2 r))) <= 16 ^ 16)
      by (apply Z.pow_le_mono_r; zlia).
    set (v := hexval _) in *. change (16 ^ 16) with (2 ^ 64) in *.
    destruct (Z.of_nat idx <? fn); cbn [bit_of kept]; apply some4; mnorm_lhs p; rewrite Z.mod_small; zlia.
  - (* short list *)
    fixarg_shift 2. rewrite shift_left_0 by (auto; zlia).
    destruct (Z.ltb_spec 2 (2 ^ Z.of_nat (log_ceil lpm))); [|zlia]. cbn [obind guard].
    fixarg_mux 0. rewrite Hmux by zlia.
    destruct (Z.ltb_spec 0 (Z.of_nat lpm)); [|zlia]. cbn [obind].
    destruct (Z.of_nat idx <? fn); cbn [bit_of kept]; apply some4; mnorm_lhs p; rewrite Z.mod_small; zlia.
  - (* long list *)
    fixarg_shift (2 + 2 * k). rewrite shift_left_0 by (auto; zlia).
    destruct (Z.ltb_spec (2 + 2 * k) (2 ^ Z.of_nat (log_ceil lpm))); cbn [obind guard]; [|rewrite andb_false_r; auto].
    fixarg_mux (2 * k - 1). rewrite Hmux by zlia.
    destruct (Z.ltb_spec (2 * k - 1) (Z.of_nat lpm)), (Z.leb_spec (2 * k) (Z.of_nat lpm)); try zlia;
      cbn [andb obind]; auto.
    unfold row. rewrite (hex_prefix_vals_nth p Hp).
    2: apply Forall_firstn, Forall_skipn; auto.
    2,3: rewrite firstn_length, skipn_length; zlia.
    replace (S (Z.to_nat (2 * k - 1))) with (Z.to_nat (2 * k)) by zlia.
    rewrite firstn_skipn_firstn by zlia.
    pose proof (hexval_bound (firstn (Z.to_nat (2 * k)) (skipn 2 r))
          ltac:(apply Forall_firstn, Forall_skipn; auto)) as Hv.
    rewrite firstn_length in Hv.
    assert (16 ^ Z.of_nat (Nat.min (Z.to_nat (2 * k)) (length (skipn 2 r))) <= 16 ^ 16)
      by (apply Z.pow_le_mono_r; zlia).
    set (v := hexval _) in *. change (16 ^ 16) with (2 ^ 64) in *.
    destruct (Z.of_nat idx <? fn); cbn [bit_of kept]; apply some4; mnorm_lhs p; rewrite Z.mod_small; zlia.
Qed.

(** the loop at integer level *)
Fixpoint sem_blk (idx : nat) (fn : Z) (fs : list (nat * nat)) (r : list Z) : option (list (Z * Z * list Z * Z)) :=
  match fs with
  | [] => Some []
  | (fmin, fmax) :: rest =>
      match field_shape (len_prefix_max fmax) r with
      | None => None
      | Some (h, l0) =>
          let l := kept (Z.of_nat idx <? fn) l0 in
          let out := rotl (Z.to_nat h) r in
          match rest with
          | [] => Some [(h, l, out, cinc_of r)]
          | _ :: _ =>
              let next := if Nat.eqb fmin fmax then Some (rotl fmin out)
                          else if (Z.of_nat fmin <=? l) && (l - Z.of_nat fmin <? 2 ^ Z.of_nat (log_ceil (fmax - fmin)))
                               then Some (rotl (Z.to_nat l) out) else None in
              match next with
              | None => None
              | Some r' => match sem_blk (S idx) fn rest r' with
                           | None => None
                           | Some q => Some ((h, l, out, cinc_of r) :: q)
                           end
              end
          end
      end
  end.
Lemma kept_bounds u l : 0 <= l < 2 ^ 65 -> 0 <= kept u l < 2 ^ 65.
Proof. intros H. destruct u; cbn [kept]; zlia. Qed.
Lemma next_ok : forall fmin fmax h l r r', Forall nibble r ->
  (if Nat.eqb fmin fmax then Some (rotl fmin (rotl (Z.to_nat h) r))
   else if (Z.of_nat fmin <=? l) && (l - Z.of_nat fmin <? 2 ^ Z.of_nat (log_ceil (fmax - fmin)))
        then Some (rotl (Z.to_nat l) (rotl (Z.to_nat h) r)) else None) = Some r' -> length r' = length r /\ Forall nibble r'.
Proof.
  intros fmin fmax h l r r' Hn En. destruct (Nat.eqb fmin fmax).
  - assert (Er : r' = rotl fmin (rotl (Z.to_nat h) r)) by congruence. rewrite Er, !rotl_length. split; auto. do 2 apply rotl_nibble; auto.
  - destruct (_ && _); [|discriminate].
    assert (Er : r' = rotl (Z.to_nat l) (rotl (Z.to_nat h) r)) by congruence. rewrite Er, !rotl_length. split; auto. do 2 apply rotl_nibble; auto.
Qed.
Lemma sem_blk_bounds : forall fs M idx fn r q, fields_ok M fs -> length r = M -> Forall nibble r -> (2 <= M)%nat ->
  sem_blk idx fn fs r = Some q ->
  length q = length fs /\ Forall (fun x => 0 <= q_h x <= 18 /\ 0 <= q_l x < 2 ^ 65 /\ 1 <= q_c x <= 2 /\
                                    length (q_out x) = M /\ Forall nibble (q_out x)) q.
Proof.
  induction fs as [|[fmin fmax] rest IH]; intros M idx fn r q Hf Hl Hn HM H; cbn [sem_blk] in H.
  - assert (q = []) by congruence. subst. split; auto.
  - inversion Hf as [|? ? H1 H2]; subst. cbn [fst snd] in H1. destruct H1 as (A1 & A2 & A3).
    pose proof (len_prefix_max_bounds _ A2).
    destruct (field_shape _ r) as [[h l0]|] eqn:E; [|discriminate].
    apply field_shape_bounds in E; auto; try zlia. destruct E as [Eh El0]. cbv zeta in H.
    pose proof (kept_bounds (Z.of_nat idx <? fn) l0 El0) as El. set (l := kept _ l0) in *. clearbody l.
    assert (Hx : forall c, 1 <= c <= 2 -> let x := (h, l, rotl (Z.to_nat h) r, c) in
      0 <= q_h x <= 18 /\ 0 <= q_l x < 2 ^ 65 /\ 1 <= q_c x <= 2 /\ length (q_out x) = length r /\ Forall nibble (q_out x)).
    { intros c Hc. unfold q_h, q_l, q_out, q_c. cbn [fst snd]. rewrite rotl_length.
      repeat (split; [auto|]). apply rotl_nibble; auto. }
    destruct rest as [|f2 rest].
    + assert (q = [(h, l, rotl (Z.to_nat h) r, cinc_of r)]) by congruence. subst q. split; auto.
      constructor; auto. apply Hx, cinc_bounds.
    + destruct (if Nat.eqb fmin fmax then _ else _) as [r'|] eqn:En; [|discriminate].
      destruct (sem_blk (S idx) fn (f2 :: rest) r') as [q'|] eqn:Eq; [|discriminate].
      assert (q = (h, l, rotl (Z.to_nat h) r, cinc_of r) :: q') by congruence. subst q.
      apply next_ok in En; auto. destruct En as [R1 R2].
      destruct (IH (length r) (S idx) fn r' q' H2 R1 R2 HM Eq) as [L1 L2].
      split; [cbn [length] in *; zlia|]. constructor; auto. apply Hx, cinc_bounds.
Qed.
Lemma blk_loop_ok : forall fs M idx fn r check lenSum, fields_ok M fs -> length r = M -> Forall nibble r ->
  (2 <= M)%nat -> Z.of_nat (idx + length fs) < 2 ^ 32 -> felt p fn ->
  0 <= check -> 0 <= lenSum -> check + 2 * Z.of_nat (length fs) < 2 ^ 70 ->
  lenSum + 2 ^ 67 * Z.of_nat (length fs) < 2 ^ 130 ->
  blk_loop p M idx fn fs r check lenSum =
  match sem_blk idx fn fs r with
  | None => None
  | Some q => Some (check + zsum (map q_c q), lenSum + zsum (map (fun x => q_h x + q_l x) q), map q_l q, map q_out q)
  end.
Proof.
  induction fs as [|[fmin fmax] rest IH]; intros M idx fn r check lenSum Hf Hl Hn HM Hidx Hfn Hc Hls Hc2 Hls2;
    cbn [blk_loop sem_blk].
  - cbn [map zsum fold_right]. rewrite !Z.add_0_r. reflexivity.
  - inversion Hf as [|? ? H1 H2]; subst. cbn [fst snd] in H1. destruct H1 as (A1 & A2 & A3).
    pose proof (len_prefix_max_bounds _ A2) as Hlpm. cbn [length] in Hidx, Hc2, Hls2.
    rewrite blk_field_ok by (auto; zlia).
    destruct (field_shape _ r) as [[h l0]|] eqn:E; cbn [obind]; auto.
    apply field_shape_bounds in E; auto; try zlia. destruct E as [Eh El0].
    pose proof (kept_bounds (Z.of_nat idx <? fn) l0 El0) as El. cbv zeta. set (l := kept _ l0) in *. clearbody l.
    pose proof (cinc_bounds r) as Hcb.
    rewrite (fadd_small p check), (fadd_small p lenSum) by zlia.
    destruct rest as [|f2 rest].
    + cbn [map zsum fold_right]. unfold q_c, q_h, q_l, q_out. cbn [fst snd]. do 4 f_equal; zlia.
    + rewrite (shift_next p Hp); rewrite ?rotl_length; auto; [|apply rotl_nibble; auto].
      destruct (if Nat.eqb fmin fmax then _ else _) as [r'|] eqn:En; cbn [obind]; auto.
      apply next_ok in En; auto. destruct En as [R1 R2].
      rewrite IH by (auto; cbn [length] in *; zlia).
      destruct (sem_blk (S idx) fn (f2 :: rest) r') as [q'|]; cbn [obind]; auto.
      cbn [map]. set (x := (h, l, rotl (Z.to_nat h) r, cinc_of r)).
      change (zsum (q_c x :: map q_c q')) with (cinc_of r + zsum (map q_c q')).
      change (zsum (q_h x + q_l x :: map (fun x => q_h x + q_l x) q'))
        with ((h + l) + zsum (map (fun x => q_h x + q_l x) q')).
      change (q_l x) with l. change (q_out x) with (rotl (Z.to_nat h) r).
      rewrite !Z.add_assoc. reflexivity.
Qed.

(** closed form *)
Definition sem_blk_check (a : array_check) (inp : list Z) (fn : Z) : option (Z * Z * list Z * list (list Z)) :=
  match head_shape (ac_prefixMax a) inp with
  | None => None
  | Some (v, pre, total) =>
      if 2 + pre <? 2 ^ Z.of_nat (log_ceil (ac_prefixMax a)) then
        match sem_blk 0 fn (ac_fields a) (rotl (Z.to_nat (2 + pre)) inp) with
        | None => None
        | Some q =>
            Some (bit_of (v + zsum (map q_c q) + bit_of (total =? zsum (map (fun x => q_h x + q_l x) q))
                          =? Z.of_nat (length (ac_fields a)) + 2),
                  2 + pre + total, map q_l q, map q_out q)
        end
      else None
  end.
Lemma blk_check_ok : forall a inp fn, params_ok a -> length inp = ac_maxHexLen a -> Forall nibble inp -> felt p fn ->
  blk_header_rlp_check p a inp fn = sem_blk_check a inp fn.
Proof.
  intros a inp fn (P1 & P2 & P3 & P4 & P5) Hl Hn Hfn. unfold blk_header_rlp_check, sem_blk_check.
  rewrite (array_head_ok p Hp) by (auto; zlia).
  destruct (head_shape (ac_prefixMax a) inp) as [[[v pre] total]|] eqn:Eh; cbn [obind]; auto.
  apply head_shape_bounds in Eh; auto; try zlia. destruct Eh as (Ev & Ep & Et).
  rewrite Hl, Nat.leb_refl. cbn [guard obind]. rewrite firstn_all2 by zlia.
  rewrite (fadd_small p 2 pre) by zlia.
  destruct (ac_fields a) as [|f fs] eqn:Ef; [congruence|]. rewrite <- Ef in *.
  replace (match ac_fields a with [] => Some [] | _ :: _ => r_shift_left p (ac_maxHexLen a) 0 (ac_prefixMax a) inp (2 + pre) end)
    with (r_shift_left p (ac_maxHexLen a) 0 (ac_prefixMax a) inp (2 + pre)) by (rewrite Ef; reflexivity).
  rewrite (shift_left_0 p Hp) by (auto; zlia).
  destruct (2 + pre <? _); cbn [obind]; auto.
  rewrite blk_loop_ok; rewrite ?rotl_length; auto; try zlia; [|apply rotl_nibble; auto].
  destruct (sem_blk 0 fn (ac_fields a) (rotl (Z.to_nat (2 + pre)) inp)) as [q|] eqn:Eq; cbn [obind]; auto.
  apply (sem_blk_bounds _ (ac_maxHexLen a)) in Eq; auto; rewrite ?rotl_length; auto;
    [|apply rotl_nibble; auto|zlia].
  destruct Eq as [Q1 Q2].
  assert (S1 := zsum_bounds _ q_c q 1 2 ltac:(eapply Forall_impl; [|exact Q2]; cbn; tauto)).
  assert (S2 : 0 * Z.of_nat (length q) <= zsum (map (fun x => q_h x + q_l x) q) <= 2 ^ 66 * Z.of_nat (length q)).
  { apply zsum_bounds. eapply Forall_impl; [|exact Q2]. cbn. intros x Hx. zlia. }
  rewrite Q1 in *. rewrite !Z.add_0_l.
  rewrite (fis_zero_sub p ltac:(zlia) total) by (unfold felt; zlia).
  set (c := zsum (map q_c q)) in *. set (s := zsum (map (fun x => q_h x + q_l x) q)) in *.
  assert (Hb : 0 <= bit_of (total =? s) <= 1) by (destruct (total =? s); cbn; lia).
  rewrite (fadd_small p (v + c)), (fadd_small p (Z.of_nat _)) by zlia.
  rewrite (fis_zero_sub p ltac:(zlia) (v + c + _)) by (unfold felt; zlia).
  rewrite (fadd_small p (2 + pre)) by zlia. reflexivity.
Qed.
End P.

(** ** What the loop reads *)
Definition hdr_of (it : item) (x : Z * Z * list Z * Z) : Prop :=
  is_item it /\ Z.of_nat (length (hdr it)) = q_h x /\ q_l x = 0 /\ (q_c x = 2 <-> enc it = empty_list_enc) /\ (q_c x = 1 \/ q_c x = 2).
Definition hdrs (its : list item) : list Z := concat (map hdr its).

Lemma reads_pre : forall buf s t, reads buf (s ++ t) -> reads buf s.
Proof. intros buf s t H k Hk. rewrite <- (H k) by (rewrite app_length; lia). rewrite app_nth1 by lia. reflexivity. Qed.

Lemma sem_blk_tail : forall fs M idx fn r q, fields_ok M fs -> length r = M -> Forall nibble r -> (2 <= M)%nat -> fn <= Z.of_nat idx ->
  sem_blk idx fn fs r = Some q -> fixed_lengths_hold fs (map q_l q) ->
  exists its, Forall2 hdr_of its q /\ reads r (hdrs its).
Proof.
  induction fs as [|[fmin fmax] rest IH]; intros M idx fn r q Hf Hl Hn HM Hi H Hfix; cbn [sem_blk] in H.
  - assert (q = []) by congruence. subst. exists []. split; auto. intros k Hk. cbn in Hk. lia.
  - inversion Hf as [|? ? H1 H2]; subst. cbn [fst snd] in H1. destruct H1 as (A1 & A2 & A3).
    pose proof (len_prefix_max_bounds _ A2).
    destruct (field_shape _ r) as [[h l0]|] eqn:E; [|discriminate].
    assert (Hlpm : (len_prefix_max fmax <= 16)%nat) by lia.
    pose proof (field_shape_bounds _ _ _ _ Hn HM Hlpm E) as [Eh El].
    destruct (field_shape_item _ _ _ _ Hn A3 Hlpm E) as (it & I1 & I2 & I3 & I4 & I5 & I6).
    destruct (Z.ltb_spec (Z.of_nat idx) fn); [lia|]. cbn [kept] in H.
    assert (Hit : hdr_of it (h, 0, rotl (Z.to_nat h) r, cinc_of r)).
    { unfold hdr_of, q_h, q_l, q_out, q_c. cbn [fst snd]. split; [auto|]. split; [lia|]. split; [auto|]. split; [auto|]. unfold cinc_of. destruct (_ =? _); auto. }
    assert (Rh : reads r (hdr it)) by (eapply reads_pre; exact I4).
    destruct rest as [|f2 rest].
    + assert (q = [(h, 0, rotl (Z.to_nat h) r, cinc_of r)]) by congruence. subst q.
      exists [it]. split; [constructor; auto|]. unfold hdrs. cbn [map concat]. rewrite app_nil_r. auto.
    + destruct (if Nat.eqb fmin fmax then _ else _) as [r'|] eqn:En; [|discriminate].
      destruct (sem_blk (S idx) fn (f2 :: rest) r') as [q'|] eqn:Eq; [|discriminate].
      assert (q = (h, 0, rotl (Z.to_nat h) r, cinc_of r) :: q') by congruence. subst q.
      cbn [map fixed_lengths_hold tl] in Hfix. unfold q_l at 1 in Hfix. cbn [fst snd] in Hfix. destruct Hfix as [F1 F2].
      assert (Hr' : r' = rotl (length (hdr it)) r).
      { assert (Hr2 : r' = rotl 0 (rotl (Z.to_nat h) r)).
        { destruct (Nat.eqb_spec fmin fmax) as [e|e].
          - specialize (F1 e). replace fmin with 0%nat in En by lia. congruence.
          - destruct (_ && _); [|discriminate]. change (Z.to_nat 0) with 0%nat in En. congruence. }
        rewrite Hr2, rotl_rotl. f_equal. lia. }
      destruct (IH (length r) (S idx) fn r' q') as (its & J1 & J2); auto; [rewrite Hr', rotl_length; auto|rewrite Hr'; apply rotl_nibble; auto|lia|].
      exists (it :: its). split; [constructor; auto|]. change (hdrs (it :: its)) with (hdr it ++ hdrs its). apply reads_app; auto; [lia|].
      rewrite <- Hr'. auto.
Qed.
Lemma sem_blk_items : forall fs M idx fn r q, fields_ok M fs -> length r = M -> Forall nibble r -> (2 <= M)%nat ->
  sem_blk idx fn fs r = Some q -> fixed_lengths_hold fs (map q_l q) ->
  exists its1 its2 q1 q2, q = q1 ++ q2 /\ Forall2 (item_of M) its1 q1 /\ Forall2 hdr_of its2 q2 /\ reads r (encs its1 ++ hdrs its2) /\
    Z.of_nat (length its1) = Z.max 0 (Z.min (fn - Z.of_nat idx) (Z.of_nat (length fs))).
Proof.
  induction fs as [|[fmin fmax] rest IH]; intros M idx fn r q Hf Hl Hn HM H Hfix.
  - cbn [sem_blk] in H. assert (q = []) by congruence. subst. exists [], [], [], []. split; auto. split; auto. split; auto. split; [intros k Hk; cbn in Hk; lia|]. cbn [length]. lia.
  - destruct (Z.ltb_spec (Z.of_nat idx) fn) as [Hi|Hi].
    2:{ destruct (sem_blk_tail _ M idx fn r q Hf Hl Hn HM Hi H Hfix) as (its & J1 & J2). exists [], its, [], q. split; auto. split; auto. split; auto. split; [exact J2|]. cbn [length]. lia. }
    cbn [sem_blk] in H. inversion Hf as [|? ? H1 H2]; subst. cbn [fst snd] in H1. destruct H1 as (A1 & A2 & A3).
    pose proof (len_prefix_max_bounds _ A2).
    destruct (field_shape _ r) as [[h l]|] eqn:E; [|discriminate].
    assert (Hlpm : (len_prefix_max fmax <= 16)%nat) by lia.
    pose proof (field_shape_bounds _ _ _ _ Hn HM Hlpm E) as [Eh El].
    destruct (field_shape_item _ _ _ _ Hn A3 Hlpm E) as (it & I1 & I2 & I3 & I4 & I5 & I6).
    destruct (Z.ltb_spec (Z.of_nat idx) fn); [|lia]. cbn [kept] in H.
    assert (Hit : item_of (length r) it (h, l, rotl (Z.to_nat h) r, cinc_of r)).
    { unfold item_of, q_h, q_l, q_out, q_c. cbn [fst snd]. split; [auto|]. split.
      { unfold enc. rewrite app_length. unfold hdr, payload in *. lia. }
      split; [auto|]. split; [|split; [auto|]].
      - intros Hle. apply (nth_ext' _ _ _ 0). { rewrite firstn_length, rotl_length. lia. }
        intros i Hi'. rewrite firstn_length in Hi'. rewrite nth_firstn' by lia. rewrite I5 by lia.
        rewrite rotl_length in Hi'. rewrite Nat.mod_small by lia. auto.
      - unfold cinc_of. destruct (_ =? _); auto. }
    destruct rest as [|f2 rest].
    + assert (q = [(h, l, rotl (Z.to_nat h) r, cinc_of r)]) by congruence. subst q.
      exists [it], [], [(h, l, rotl (Z.to_nat h) r, cinc_of r)], []. split; [reflexivity|]. split; [constructor; auto|]. split; [constructor|]. split; [|cbn [length]; lia].
      unfold encs, hdrs. cbn [map concat]. rewrite !app_nil_r. auto.
    + destruct (if Nat.eqb fmin fmax then _ else _) as [r'|] eqn:En; [|discriminate].
      destruct (sem_blk (S idx) fn (f2 :: rest) r') as [q'|] eqn:Eq; [|discriminate].
      assert (q = (h, l, rotl (Z.to_nat h) r, cinc_of r) :: q') by congruence. subst q.
      cbn [map fixed_lengths_hold tl] in Hfix. unfold q_l at 1 in Hfix. cbn [fst snd] in Hfix. destruct Hfix as [F1 F2].
      assert (Hr' : r' = rotl (length (enc it)) r).
      { assert (Hr2 : r' = rotl (Z.to_nat l) (rotl (Z.to_nat h) r)).
        { destruct (Nat.eqb_spec fmin fmax) as [e|e].
          - rewrite (F1 e), Nat2Z.id. congruence.
          - destruct (_ && _); [|discriminate]. congruence. }
        rewrite Hr2, rotl_rotl. f_equal. unfold enc. rewrite app_length. unfold hdr, payload in *. lia. }
      destruct (IH (length r) (S idx) fn r' q') as (its1 & its2 & q1 & q2 & J0 & J1 & J2 & J3 & J4); auto.
      { rewrite Hr', rotl_length; auto. } { rewrite Hr'. apply rotl_nibble; auto. }
      exists (it :: its1), its2, ((h, l, rotl (Z.to_nat h) r, cinc_of r) :: q1), q2. split; [rewrite J0; reflexivity|]. split; [constructor; auto|]. split; [exact J2|]. split; [|cbn [length] in *; lia].
      rewrite encs_cons, <- app_assoc. apply reads_app; auto; [lia|]. rewrite <- Hr'. auto.
Qed.

Lemma hdrs_lens : forall its q, Forall2 hdr_of its q ->
  map q_l q = repeat 0 (length its) /\ Z.of_nat (length (hdrs its)) = zsum (map (fun x => q_h x + q_l x) q) /\
  Forall is_item its /\ Forall (fun x => q_c x = 1 \/ q_c x = 2) q /\
  (Exists (fun x => q_c x = 2) q <-> In empty_list_enc (map enc its)).
Proof.
  intros its q H. induction H as [|it x its q H1 H2 IH].
  - cbn. repeat split; auto. + intros E; inversion E. + intros [].
  - destruct H1 as (A1 & A2 & A3 & A5 & A6). destruct IH as (B1 & B2 & B3 & B4 & B5).
    cbn [map length repeat]. change (hdrs (it :: its)) with (hdr it ++ hdrs its). rewrite app_length. split; [congruence|]. split; [|split; [auto|split; [auto|]]].
    + change (zsum (q_h x + q_l x :: map (fun x => q_h x + q_l x) q)) with (q_h x + q_l x + zsum (map (fun x => q_h x + q_l x) q)). lia.
    + cbn [In]. rewrite <- B5, <- A5. split; intros E; [inversion E; auto|destruct E; auto].
Qed.
Lemma zsum_app l1 l2 : zsum (l1 ++ l2) = zsum l1 + zsum l2.
Proof. induction l1 as [|x l1 IH]; cbn [app]; [reflexivity|]. change (x + zsum (l1 ++ l2) = x + zsum l1 + zsum l2). lia. Qed.
Lemma Exists_app_iff : forall A (P : A -> Prop) l1 l2, Exists P (l1 ++ l2) <-> Exists P l1 \/ Exists P l2.
Proof. intros. rewrite Exists_app. tauto. Qed.

Theorem blk_check_sound : forall p a inp fn total lens outs, 2 ^ 200 < p -> params_ok a ->
  length inp = ac_maxHexLen a -> Forall nibble inp -> 0 <= fn < p ->
  blk_header_rlp_check p a inp fn = Some (1, total, lens, outs) ->
  fixed_lengths_hold (ac_fields a) lens ->
  exists h its1 its2,
    reads inp (h ++ encs its1 ++ hdrs its2) /\
    Z.of_nat (length its1) = Z.min fn (Z.of_nat (length (ac_fields a))) /\ (length its1 + length its2 = length (ac_fields a))%nat /\
    Forall is_item its1 /\ Forall is_item its2 /\
    lens = map (fun it => Z.of_nat (length (payload it))) its1 ++ repeat 0 (length its2) /\
    Forall2 (fun it out => (length (payload it) <= length inp)%nat -> firstn (length (payload it)) out = payload it) its1 (firstn (length its1) outs) /\
    (~ In empty_list_enc (map enc (its1 ++ its2)) ->
       list_header h /\ rlp_item (h ++ encs its1 ++ hdrs its2) h (encs its1 ++ hdrs its2) /\ total = Z.of_nat (length (h ++ encs its1 ++ hdrs its2))).
Proof.
  intros p a inp fn total lens outs Hp Ha Hl Hn Hfn H Hfix. rewrite (blk_check_ok p Hp) in H by auto.
  destruct Ha as (P1 & P2 & P3 & P4 & P5). unfold sem_blk_check in H.
  destruct (head_shape _ inp) as [[[v pre] t]|] eqn:Eh; [|discriminate].
  assert (Hl2 : (2 <= length inp)%nat) by lia.
  assert (Hl3 : (2 + ac_prefixMax a <= length inp)%nat) by lia.
  pose proof (head_shape_bounds _ _ _ _ _ Hn Hl2 (proj2 P1) Eh) as (Bv & Bp & Bt).
  destruct (head_shape_reads _ _ _ _ _ Hn Hl3 Eh) as (R1 & R2 & R3).
  destruct (2 + pre <? _); [|discriminate].
  destruct (sem_blk _ _ _ _) as [q|] eqn:Eq; [|discriminate].
  assert (E0 : bit_of (v + zsum (map q_c q) + bit_of (t =? zsum (map (fun x => q_h x + q_l x) q))
     =? Z.of_nat (length (ac_fields a)) + 2) = 1) by congruence.
  assert (Et : total = 2 + pre + t) by congruence. assert (El : lens = map q_l q) by congruence.
  assert (Eo : outs = map q_out q) by congruence. clear H. subst lens.
  assert (P5' : fields_ok (length inp) (ac_fields a)) by (rewrite Hl; auto).
  pose proof (sem_blk_bounds _ (length inp) _ _ _ _ P5' (rotl_length _ _) (rotl_nibble _ _ Hn) Hl2 Eq) as [Lq _].
  destruct (sem_blk_items _ (length inp) _ _ _ _ P5' (rotl_length _ _) (rotl_nibble _ _ Hn) Hl2 Eq Hfix) as (its1 & its2 & q1 & q2 & I0 & I1 & I2 & I3 & I4).
  rewrite Z.sub_0_r in I4.
  destruct (items_lens _ _ _ I1) as (J1 & J2 & J3 & J4 & J5 & J6). destruct (hdrs_lens _ _ I2) as (K1 & K2 & K3 & K4 & K5).
  assert (JK : Forall (fun x => q_c x = 1 \/ q_c x = 2) q) by (rewrite I0; apply Forall_app; auto).
  destruct (zsum_q_c q JK) as [C1 C2].
  pose proof (Forall2_len _ _ _ _ _ I1) as L1. pose proof (Forall2_len _ _ _ _ _ I2) as L2.
  assert (Lq' : (length its1 + length its2 = length (ac_fields a))%nat) by (rewrite <- Lq, I0, app_length; lia).
  assert (Sm : zsum (map (fun x => q_h x + q_l x) q) = Z.of_nat (length (encs its1 ++ hdrs its2))).
  { rewrite I0, map_app, zsum_app, app_length, Nat2Z.inj_add, J2, K2. reflexivity. }
  exists (firstn (Z.to_nat (2 + pre)) inp), its1, its2.
  assert (E0' : v + zsum (map q_c q) + bit_of (t =? zsum (map (fun x => q_h x + q_l x) q)) = Z.of_nat (length (ac_fields a)) + 2).
  { destruct (Z.eqb_spec (v + zsum (map q_c q) + bit_of (t =? zsum (map (fun x => q_h x + q_l x) q))) (Z.of_nat (length (ac_fields a)) + 2)); auto.
    cbn in E0. lia. }
  split; [|split; [lia|split; [exact Lq'|split; [exact J3|split; [exact K3|split; [|split]]]]]].
  - apply reads_app; [apply reads_firstn; auto|lia|]. rewrite R2. auto.
  - rewrite I0, map_app, K1, <- J1. reflexivity.
  - subst outs. rewrite I0, map_app, firstn_app, map_length, <- L1, Nat.sub_diag, L1. cbn [firstn]. rewrite app_nil_r, firstn_all2 by (rewrite map_length; lia). exact J6.
  - intros Hne. rewrite map_app in Hne. assert (Hall : Forall (fun x => q_c x = 1) q).
    { destruct (Forall_or_Exists q JK) as [?|Hex]; auto. rewrite I0 in Hex. apply Exists_app_iff in Hex. exfalso. apply Hne. apply in_or_app. tauto. }
    apply C2 in Hall. rewrite Hall, Lq in E0'.
    destruct (Z.eqb_spec t (zsum (map (fun x => q_h x + q_l x) q))) as [e|e]; cbn [bit_of] in E0'; [|lia].
    destruct R3 as [R3 R4]; [lia|]. split; auto. split; [apply R4; lia|]. rewrite app_length, R2. lia.
Qed.

(** A header whose first byte is a literal adds nothing: items read at a byte below 0x80 have an empty header *)
Lemma item_literal_hdr it b t : is_item it -> 0 <= b < 128 -> enc it = byte_nibbles b ++ t -> hdr it = [].
Proof.
  destruct it as [h pl]. unfold is_item, enc, hdr, payload. cbn [fst snd]. intros H Hb E.
  inversion H as [b' Hb' E1 E2 E3|b' len pl' Hc Hb' Hlen E1 E2 E3|b' lenlen ln pl' Hc Hb' Hll Hnb Hlen E1 E2 E3]; auto; subst; exfalso.
  - assert (B : byte0 (byte_nibbles b' ++ pl) = byte0 (byte_nibbles b ++ t)) by (rewrite E; reflexivity). rewrite !byte0_bn in B by lia. subst b'.
    unfold classify in Hc. destruct (Z.leb_spec b 127); [destruct Hc; discriminate|lia].
  - rewrite <- app_assoc in E. assert (B : byte0 (byte_nibbles b' ++ ln ++ pl) = byte0 (byte_nibbles b ++ t)) by (rewrite E; reflexivity). rewrite !byte0_bn in B by lia. subst b'.
    unfold classify in Hc. destruct (Z.leb_spec b 127); [destruct Hc; discriminate|lia].
Qed.

(** ** Completeness *)
Lemma sem_blk_tail_complete : forall fs idx fn b t, fn <= Z.of_nat idx -> 0 <= b < 128 -> Forall (fun f => fst f = 0%nat) (removelast fs) ->
  sem_blk idx fn fs (byte_nibbles b ++ t) = Some (map (fun _ => (0, 0, byte_nibbles b ++ t, 1)) fs).
Proof.
  induction fs as [|[fmin fmax] rest IH]; intros idx fn b t Hi Hb HF; [reflexivity|]. cbn [sem_blk].
  assert (Hs : field_shape (len_prefix_max fmax) (byte_nibbles b ++ t) = Some (0, 2)).
  { unfold field_shape. rewrite byte0_bn by lia. unfold classify. destruct (Z.leb_spec b 127); [reflexivity|lia]. }
  rewrite Hs. destruct (Z.ltb_spec (Z.of_nat idx) fn); [lia|]. cbn [kept]. change (Z.to_nat 0) with 0%nat.
  assert (R0 : forall l, rotl 0 l = l) by (apply rotl_0). rewrite !R0.
  assert (Hc : cinc_of (byte_nibbles b ++ t) = 1) by (unfold cinc_of; rewrite byte0_bn by lia; destruct (Z.eqb_spec b 192); [lia|reflexivity]). rewrite Hc.
  destruct rest as [|f2 rest]; [reflexivity|]. cbn [removelast] in HF. inversion HF as [|? ? F1 F2]; subst. cbn [fst] in F1. subst fmin.
  assert (Hnext : (if Nat.eqb 0 fmax then Some (rotl 0 (byte_nibbles b ++ t))
     else if (Z.of_nat 0 <=? 0) && (0 - Z.of_nat 0 <? 2 ^ Z.of_nat (log_ceil (fmax - 0))) then Some (byte_nibbles b ++ t) else None) = Some (byte_nibbles b ++ t)).
  { destruct (Nat.eqb_spec 0 fmax); [rewrite R0; reflexivity|]. change (Z.of_nat 0) with 0. cbn [Z.leb Z.compare andb Z.sub].
    destruct (Z.ltb_spec (0 - 0) (2 ^ Z.of_nat (log_ceil (fmax - 0)))); [reflexivity|]. pose proof (Z.pow_pos_nonneg 2 (Z.of_nat (log_ceil (fmax - 0))) ltac:(lia) ltac:(lia)). lia. }
  rewrite Hnext. rewrite (IH (S idx) fn b t) by (auto; lia). reflexivity.
Qed.
(** what follows the items: nothing is left to read, or a byte below 0x80 *)
Definition tail_fits (fs2 : list (nat * nat)) (rest : list Z) : Prop :=
  fs2 = [] \/ (Forall (fun f => fst f = 0%nat) (removelast fs2) /\ exists b t, 0 <= b < 128 /\ rest = byte_nibbles b ++ t).

Lemma sem_blk_complete : forall fs1 fs2 its idx fn tail, Forall2 item_fits fs1 its -> Forall (fun f => Z.of_nat (snd f) < 2 ^ 63) fs1 -> fs1 <> [] ->
  Z.of_nat idx + Z.of_nat (length fs1) <= fn -> (fs2 <> [] -> fn = Z.of_nat idx + Z.of_nat (length fs1)) -> tail_fits fs2 tail ->
  exists q, sem_blk idx fn (fs1 ++ fs2) (encs its ++ tail) = Some q /\
    map q_l q = map (fun it => Z.of_nat (length (payload it))) its ++ repeat 0 (length fs2) /\
    zsum (map (fun x => q_h x + q_l x) q) = Z.of_nat (length (encs its)) /\
    zsum (map q_c q) = Z.of_nat (length (fs1 ++ fs2)) /\
    Forall2 (fun it out => firstn (length (payload it)) out = payload it /\ length out = length (encs its ++ tail)) its (map q_out (firstn (length its) q)).
Proof.
  induction fs1 as [|[fmin fmax] rest IH]; intros fs2 its idx fn tail HF HB NE Hfn Hfn2 HT; [easy|]. inversion HF as [|f it fs' its' H1 H2]; subst.
  cbn [app sem_blk]. cbn [length] in Hfn, Hfn2. destruct H1 as (A1 & A2 & A3 & A4). cbn [fst snd] in *. rewrite encs_cons, <- app_assoc.
  destruct (item_field_shape (len_prefix_max fmax) it (encs its' ++ tail) A1 A3) as [Hs Hc]. specialize (Hc A2).
  rewrite Hs. destruct (Z.ltb_spec (Z.of_nat idx) fn); [|lia]. cbn [kept].
  assert (Hr1 : rotl (Z.to_nat (Z.of_nat (length (hdr it)))) (enc it ++ encs its' ++ tail) = payload it ++ encs its' ++ tail ++ hdr it).
  { rewrite Nat2Z.id. unfold enc. fold (hdr it) (payload it). rewrite <- app_assoc, rotl_app. rewrite <- !app_assoc. auto. }
  rewrite Hr1, Hc.
  assert (Hr2 : rotl (length (payload it)) (payload it ++ encs its' ++ tail ++ hdr it) = encs its' ++ (tail ++ hdr it ++ payload it)).
  { rewrite rotl_app. rewrite <- !app_assoc. auto. }
  assert (Hfst : firstn (length (payload it)) (payload it ++ encs its' ++ tail ++ hdr it) = payload it).
  { rewrite firstn_app, firstn_all, Nat.sub_diag. cbn. apply app_nil_r. }
  assert (Hlen : length (payload it ++ encs its' ++ tail ++ hdr it) = length (enc it ++ encs its' ++ tail)).
  { unfold enc. fold (hdr it) (payload it). rewrite !app_length. lia. }
  assert (Hx : length (enc it) = (length (hdr it) + length (payload it))%nat) by (unfold enc; rewrite app_length; reflexivity).
  inversion HB as [|? ? HB1 HB2]; subst. cbn [snd] in HB1.
  set (x := (Z.of_nat (length (hdr it)), Z.of_nat (length (payload it)), payload it ++ encs its' ++ tail ++ hdr it, 1)).
  assert (Hnext : (if Nat.eqb fmin fmax then Some (rotl fmin (payload it ++ encs its' ++ tail ++ hdr it))
       else if (Z.of_nat fmin <=? Z.of_nat (length (payload it))) &&
               (Z.of_nat (length (payload it)) - Z.of_nat fmin <? 2 ^ Z.of_nat (log_ceil (fmax - fmin)))
            then Some (rotl (Z.to_nat (Z.of_nat (length (payload it)))) (payload it ++ encs its' ++ tail ++ hdr it)) else None)
       = Some (encs its' ++ (tail ++ hdr it ++ payload it))).
  { destruct (Nat.eqb_spec fmin fmax) as [e|e].
    - replace fmin with (length (payload it)) by lia. rewrite Hr2. auto.
    - destruct (Z.leb_spec (Z.of_nat fmin) (Z.of_nat (length (payload it)))); [|lia]. cbn [andb].
      pose proof (log_ceil_bound (fmax - fmin) ltac:(zlia)).
      destruct (Z.ltb_spec (Z.of_nat (length (payload it)) - Z.of_nat fmin) (2 ^ Z.of_nat (log_ceil (fmax - fmin)))); [|lia].
      rewrite Nat2Z.id, Hr2. auto. }
  destruct rest as [|f2 rest].
  - inversion H2; subst. cbn [app]. destruct fs2 as [|g fs2].
    + exists [x]. split; [reflexivity|]. unfold x, q_l, q_h, q_c, q_out. cbn [map fst snd length repeat app firstn]. split; [reflexivity|]. split; [|split; [reflexivity|]].
      * unfold zsum. cbn [fold_right]. change (encs []) with (@nil Z). rewrite app_nil_r. lia.
      * constructor; auto.
    + rewrite Hnext. destruct HT as [HT|(T1 & b & t & T2 & T3)]; [discriminate|]. subst tail. change (encs [] ++ (byte_nibbles b ++ t) ++ hdr it ++ payload it) with ((byte_nibbles b ++ t) ++ hdr it ++ payload it). rewrite <- app_assoc.
      rewrite (sem_blk_tail_complete (g :: fs2) (S idx) fn b) by (auto; specialize (Hfn2 ltac:(discriminate)); cbn [length] in *; lia).
      eexists. split; [reflexivity|]. set (T := map _ (g :: fs2)).
      assert (T1' : map q_l T = repeat 0 (length (g :: fs2))) by (unfold T; rewrite map_map; clear; induction (g :: fs2) as [|y l IH]; [reflexivity|]; cbn [map length repeat]; rewrite IH; reflexivity).
      assert (T2' : zsum (map (fun x => q_h x + q_l x) T) = 0) by (unfold T; rewrite map_map; clear; induction (g :: fs2) as [|y l IH]; [reflexivity|]; cbn [map]; unfold zsum in *; cbn [fold_right]; rewrite IH; reflexivity).
      assert (T3' : zsum (map q_c T) = Z.of_nat (length (g :: fs2))) by (unfold T; rewrite map_map; clear; induction (g :: fs2) as [|y l IH]; [reflexivity|]; cbn [map length]; unfold zsum in *; cbn [fold_right]; rewrite IH; cbn [q_c snd]; lia).
      fold x. cbn [map app firstn length]. split; [cbn [length] in T1'; rewrite T1'; reflexivity|]. split; [|split].
      * change (zsum (q_h x + q_l x :: map (fun x => q_h x + q_l x) T)) with (q_h x + q_l x + zsum (map (fun x => q_h x + q_l x) T)). rewrite T2'. change (encs []) with (@nil Z). rewrite app_nil_r. unfold x, q_h, q_l. cbn [fst snd]. lia.
      * change (zsum (q_c x :: map q_c T)) with (1 + zsum (map q_c T)). rewrite T3'. cbn [length]. lia.
      * constructor; auto.
  - cbn [app]. rewrite Hnext.
    destruct (IH fs2 its' (S idx) fn (tail ++ hdr it ++ payload it) H2 HB2 ltac:(discriminate)) as (q & Q1 & Q2 & Q3 & Q4 & Q5); [cbn [length] in *; lia|intros N; specialize (Hfn2 N); cbn [length] in *; lia| |].
    { destruct HT as [HT|(T1 & b & t & T2 & T3)]; [left; exact HT|right]. split; [exact T1|]. exists b, (t ++ hdr it ++ payload it). split; [exact T2|]. rewrite T3, <- app_assoc. reflexivity. }
    cbn [app] in Q1. rewrite Q1. eexists; split; [reflexivity|]. fold x. cbn [map length firstn app].
    change (q_l x) with (Z.of_nat (length (payload it))). change (q_c x) with 1. change (q_h x) with (Z.of_nat (length (hdr it))).
    change (q_out x) with (payload it ++ encs its' ++ tail ++ hdr it).
    split; [congruence|]. split; [|split].
    + unfold zsum. cbn [fold_right]. fold (zsum (map (fun x => q_h x + q_l x) q)). rewrite Q3, app_length. lia.
    + unfold zsum. cbn [fold_right]. fold (zsum (map q_c q)). rewrite Q4. cbn [length app]. lia.
    + constructor; auto. eapply Forall2_impl'; [|exact Q5]. intros i o [X1 X2]. split; auto. rewrite X2. rewrite !app_length. lia.
Qed.
Theorem blk_check_complete : forall p a inp h its rest fn fs1 fs2, 2 ^ 200 < p -> params_ok a ->
  length inp = ac_maxHexLen a -> Forall nibble inp ->
  inp = h ++ encs its ++ rest ->
  list_header h -> rlp_item (h ++ encs its) h (encs its) ->
  (length h <= 2 + ac_prefixMax a)%nat -> Z.of_nat (length h) < 2 ^ Z.of_nat (log_ceil (ac_prefixMax a)) ->
  ac_fields a = fs1 ++ fs2 -> fs1 <> [] -> Forall2 item_fits fs1 its -> tail_fits fs2 rest ->
  Z.of_nat (length fs1) <= fn < p -> (fs2 <> [] -> fn = Z.of_nat (length fs1)) ->
  exists outs,
    blk_header_rlp_check p a inp fn =
      Some (1, Z.of_nat (length (h ++ encs its)), map (fun it => Z.of_nat (length (payload it))) its ++ repeat 0 (length fs2), outs) /\
    Forall2 (fun it out => firstn (length (payload it)) out = payload it /\ length out = length inp) its (firstn (length its) outs).
Proof.
  intros p a inp h its rest fn fs1 fs2 Hp Ha Hl Hn Hinp (b & hr & Hh1 & Hh2 & Hh3) Hitem Hpm Hh14 Hfs NE HF HT Hfn Hfn2.
  rewrite (blk_check_ok p Hp) by (auto; unfold felt; lia). destruct Ha as (P1 & P2 & P3 & P4 & P5). unfold sem_blk_check.
  assert (Hhs : head_shape (ac_prefixMax a) inp = Some (1, Z.of_nat (length h) - 2, Z.of_nat (length (encs its))) /\ (2 <= length h)%nat).
  { assert (Hb0 : byte0 inp = b) by (rewrite Hinp, Hh1, <- !app_assoc; apply byte0_bn; auto).
    split; [|rewrite Hh1, app_length; cbn; lia].
    unfold head_shape. rewrite Hb0.
    inversion Hitem as [b' Hb E1 E2 E3|b' len pl' Hc Hb Hlen E1 E2 E3|b' lenlen ln pl' Hc Hb Hll Hnb Hlen E1 E2 E3].
    - rewrite <- E2 in Hh1. discriminate.
    - rewrite <- E2 in Hh1.
      assert (b' = b).
      { assert (byte0 (byte_nibbles b' ++ []) = byte0 (byte_nibbles b ++ hr)) by (rewrite app_nil_r; congruence).
        rewrite !byte0_bn in * by auto. auto. }
      subst b'. destruct Hc as [Hc|Hc]; rewrite Hc in *; [discriminate|].
      rewrite <- Hlen. reflexivity.
    - assert (b' = b).
      { rewrite Hh1 in E2. assert (byte0 (byte_nibbles b' ++ ln) = byte0 (byte_nibbles b ++ hr)) by congruence.
        rewrite !byte0_bn in * by auto. auto. }
      subst b'. destruct Hc as [Hc|Hc]; rewrite Hc in *; [discriminate|].
      assert (Hlh : length h = (2 + Z.to_nat (2 * lenlen))%nat) by (rewrite <- E2, app_length; cbn [length byte_nibbles]; lia).
      pose proof (classify_cases b Hh2) as Hk. rewrite Hc in Hk.
      destruct (Z.leb_spec (2 * lenlen) (Z.of_nat (ac_prefixMax a))); [|lia].
      assert (Hfn' : firstn (Z.to_nat (2 * lenlen)) (skipn 2 inp) = ln).
      { rewrite Hinp, <- E2, <- !app_assoc. unfold byte_nibbles. cbn [app skipn].
        replace (Z.to_nat (2 * lenlen)) with (length ln + 0)%nat by lia.
        rewrite firstn_app_2. cbn [firstn]. apply app_nil_r. }
      rewrite Hfn', E2, Hlen, Hlh. do 2 f_equal. f_equal. lia. }
  destruct Hhs as [Hhs Hh2']. rewrite Hhs.
  replace (2 + (Z.of_nat (length h) - 2)) with (Z.of_nat (length h)) by lia.
  destruct (Z.ltb_spec (Z.of_nat (length h)) (2 ^ Z.of_nat (log_ceil (ac_prefixMax a)))); [|lia].
  rewrite Nat2Z.id. rewrite Hinp, rotl_app, <- app_assoc. rewrite Hfs.
  destruct (sem_blk_complete fs1 fs2 its 0 fn (rest ++ h) HF) as (q & Q1 & Q2 & Q3 & Q4 & Q5); auto.
  { unfold fields_ok in P5. rewrite Hfs in P5. apply Forall_app in P5. eapply Forall_impl; [|exact (proj1 P5)]. cbn. tauto. }
  { cbn [Z.of_nat]. lia. }
  { destruct HT as [HT|(T1 & b' & t & T2 & T3)]; [left; exact HT|right]. split; [exact T1|]. exists b', (t ++ h). split; [exact T2|]. rewrite T3, <- app_assoc. reflexivity. }
  rewrite Q1, Q2, Q3, Q4, Z.eqb_refl. cbn [bit_of].
  exists (map q_out q). split.
  - replace (1 + Z.of_nat (length (fs1 ++ fs2)) + 1) with (Z.of_nat (length (fs1 ++ fs2)) + 2) by lia.
    rewrite Z.eqb_refl. cbn [bit_of]. rewrite app_length. do 4 f_equal. lia.
  - rewrite firstn_map. eapply Forall2_impl'; [|exact Q5]. intros i o [X1 X2]. split; auto. rewrite X2, !app_length. lia.
Qed.
