(** * FeField.v — powers, equality, selection and square roots of FeModel.v in the field of 2^255-19 elements *)
From Coq Require Import ZArith Znumtheory Zpow_facts List Lia Bool Arith.
From Verif Require Import Field FieldLemmas PrimeTheory FieldZ KeccakModel SliceModel EdBytes EdCurve FeModel FeProofs.
From Verif Require EdSpec.
Import ListNotations.
Open Scope Z_scope.

(** the field element an Element denotes *)
Definition FK (v : fe) : Fq q5 := ofZ q5 (value v).
Lemma k_eqm x y : ofZ q5 x = ofZ q5 y <-> eqm x y.
Proof. unfold eqm. apply ofZ_eq. Qed.
Lemma ok_u64 v : fe_ok v -> u64fe v. Proof. intros H. apply doc_u64, ok_doc, H. Qed.
Lemma eqm_mul a b c d : eqm a b -> eqm c d -> eqm (a * c) (b * d).
Proof. unfold eqm. intros E F. rewrite Z.mul_mod, E, F, <- Z.mul_mod by discriminate. reflexivity. Qed.
Lemma eqm_pow a b n : 0 <= n -> eqm a b -> eqm (a ^ n) (b ^ n).
Proof. intros Hn E. unfold eqm in *. rewrite Zpower_mod, E, <- Zpower_mod by reflexivity. reflexivity. Qed.

(** ** powers *)
Definition pw (z : Z) (e : Z) (v : fe) : Prop := doc_ok v /\ eqm (value v) (z ^ e).
Lemma pw_mul z a b x y : 0 <= a -> 0 <= b -> pw z a x -> pw z b y -> pw z (a + b) (feMul x y).
Proof. intros Ha Hb (Dx & Ex) (Dy & Ey). destruct (feMul_ok x y Dx Dy) as (O & E). split; [apply ok_doc, O|]. unfold eqm in *. rewrite E, Z.pow_add_r by auto. apply eqm_mul; auto. Qed.
Lemma pw_sq z a x : 0 <= a -> pw z a x -> pw z (2 * a) (feSquare x).
Proof. intros Ha (Dx & Ex). destruct (feSquare_ok x Dx) as (O & E). split; [apply ok_doc, O|]. unfold eqm in *. rewrite E. replace (2 * a) with (a + a) by lia. rewrite Z.pow_add_r by auto. apply eqm_mul; auto. Qed.
Lemma pw_sqn z n : forall a x, 0 <= a -> pw z a x -> pw z (2 ^ Z.of_nat n * a) (sqn n x).
Proof.
  induction n as [|n IH]; intros a x Ha H; [cbn [sqn]; change (2 ^ Z.of_nat 0) with 1; rewrite Z.mul_1_l; exact H|].
  cbn [sqn]. rewrite Nat2Z.inj_succ, Z.pow_succ_r by lia. replace (2 * 2 ^ Z.of_nat n * a) with (2 ^ Z.of_nat n * (2 * a)) by ring. apply IH; [lia|]. apply pw_sq; auto.
Qed.
Lemma pw_1 x : doc_ok x -> pw (value x) 1 x.
Proof. intros H. split; [exact H|]. rewrite Z.pow_1_r. reflexivity. Qed.
Lemma pw_sq' z a x : pw z a x -> 0 <= a -> pw z (2 * a) (feSquare x). Proof. intros. apply pw_sq; auto. Qed.
Lemma pw_mul' z a b x y : pw z a x -> pw z b y -> 0 <= a -> 0 <= b -> pw z (a + b) (feMul x y). Proof. intros. apply pw_mul; auto. Qed.
Lemma mul_fe_ok x y : doc_ok x -> doc_ok y -> fe_ok (feMul x y). Proof. intros. apply feMul_ok; auto. Qed.
Lemma fe_invert_ok z : doc_ok z -> fe_ok (fe_invert z) /\ eqm (value (fe_invert z)) (value z ^ (q5 - 2)).
Proof.
  intros Hz. pose proof (pw_1 z Hz) as P1. unfold fe_invert.
  pose proof (pw_sq' _ _ _ P1 ltac:(lia)) as H. change (2 * 1) with 2 in H. set (z2 := feSquare z) in *. clearbody z2.
  pose proof (pw_sq' _ _ _ H ltac:(lia)) as H4. pose proof (pw_sq' _ _ _ H4 ltac:(lia)) as H8. change (2 * (2 * 2)) with 8 in H8. set (t8 := feSquare (feSquare z2)) in *. clearbody t8. clear H4.
  pose proof (pw_mul' _ _ _ _ _ H8 P1 ltac:(lia) ltac:(lia)) as H9. change (8 + 1) with 9 in H9. set (z9 := feMul t8 z) in *. clearbody z9.
  pose proof (pw_mul' _ _ _ _ _ H9 H ltac:(lia) ltac:(lia)) as H11. change (9 + 2) with 11 in H11. set (z11 := feMul z9 z2) in *. clearbody z11.
  pose proof (pw_sq' _ _ _ H11 ltac:(lia)) as H22. pose proof (pw_mul' _ _ _ _ _ H22 H9 ltac:(lia) ltac:(lia)) as H5. change (2 * 11 + 9) with (2 ^ 5 - 1) in H5. cbv zeta. set (z5 := feMul (feSquare z11) z9) in *. clearbody z5. clear H22 H8 H9 H.
  assert (E : forall n m a b x y, 0 <= a -> 0 <= b -> 2 ^ Z.of_nat n * (2 * a) + b = m -> pw (value z) a x -> pw (value z) b y -> pw (value z) m (feMul (sqn n (feSquare x)) y)).
  { intros n m a b x y Ha Hb <- Px Py. assert (0 <= 2 ^ Z.of_nat n) by (apply Z.pow_nonneg; lia). apply pw_mul; [nia|auto| |auto]. apply pw_sqn; [lia|]. apply pw_sq; auto. }
  assert (N : forall n, 0 <= n -> 0 <= 2 ^ n - 1) by (intros n Hn; pose proof (Z.pow_pos_nonneg 2 n ltac:(lia) Hn); lia).
  assert (H10 := E 4%nat (2 ^ 10 - 1) _ _ z5 z5 (N 5 ltac:(lia)) (N 5 ltac:(lia)) ltac:(reflexivity) H5 H5). set (z10 := feMul (sqn 4 (feSquare z5)) z5) in *. clearbody z10.
  assert (H20 := E 9%nat (2 ^ 20 - 1) _ _ z10 z10 (N 10 ltac:(lia)) (N 10 ltac:(lia)) ltac:(reflexivity) H10 H10). set (z20 := feMul (sqn 9 (feSquare z10)) z10) in *. clearbody z20.
  assert (H40 := E 19%nat (2 ^ 40 - 1) _ _ z20 z20 (N 20 ltac:(lia)) (N 20 ltac:(lia)) ltac:(reflexivity) H20 H20). set (z40 := feMul (sqn 19 (feSquare z20)) z20) in *. clearbody z40.
  assert (H50 := E 9%nat (2 ^ 50 - 1) _ _ z40 z10 (N 40 ltac:(lia)) (N 10 ltac:(lia)) ltac:(reflexivity) H40 H10). set (z50 := feMul (sqn 9 (feSquare z40)) z10) in *. clearbody z50.
  assert (H100 := E 49%nat (2 ^ 100 - 1) _ _ z50 z50 (N 50 ltac:(lia)) (N 50 ltac:(lia)) ltac:(reflexivity) H50 H50). set (z100 := feMul (sqn 49 (feSquare z50)) z50) in *. clearbody z100.
  assert (H200 := E 99%nat (2 ^ 200 - 1) _ _ z100 z100 (N 100 ltac:(lia)) (N 100 ltac:(lia)) ltac:(reflexivity) H100 H100). set (z200 := feMul (sqn 99 (feSquare z100)) z100) in *. clearbody z200.
  assert (H250 := E 49%nat (2 ^ 250 - 1) _ _ z200 z50 (N 200 ltac:(lia)) (N 50 ltac:(lia)) ltac:(reflexivity) H200 H50). set (z250 := feMul (sqn 49 (feSquare z200)) z50) in *. clearbody z250.
  pose proof (pw_sqn _ 5 _ _ (N 250 ltac:(lia)) H250) as H255. change (sqn 5 z250) with (feSquare (feSquare (feSquare (feSquare (feSquare z250))))) in H255.
  set (t := feSquare (feSquare (feSquare (feSquare (feSquare z250))))) in *. clearbody t.
  assert (HF := pw_mul' _ _ _ _ _ H255 H11 ltac:(vm_compute; discriminate) ltac:(lia)). destruct HF as (_ & HF).
  replace (2 ^ Z.of_nat 5 * (2 ^ 250 - 1) + 11) with (q5 - 2) in HF by reflexivity. split; [apply mul_fe_ok; [apply H255|apply H11]|exact HF].
Qed.
Lemma fe_pow22523_ok x : doc_ok x -> fe_ok (fe_pow22523 x) /\ eqm (value (fe_pow22523 x)) (value x ^ ((q5 - 5) / 8)).
Proof.
  intros Hz. pose proof (pw_1 x Hz) as P1. unfold fe_pow22523.
  pose proof (pw_sq' _ _ _ P1 ltac:(lia)) as H. change (2 * 1) with 2 in H. set (z2 := feSquare x) in *. clearbody z2.
  pose proof (pw_sq' _ _ _ H ltac:(lia)) as H4. pose proof (pw_sq' _ _ _ H4 ltac:(lia)) as H8. change (2 * (2 * 2)) with 8 in H8. set (t8 := feSquare (feSquare z2)) in *. clearbody t8. clear H4.
  pose proof (pw_mul' _ _ _ _ _ P1 H8 ltac:(lia) ltac:(lia)) as H9. change (1 + 8) with 9 in H9. set (z9 := feMul x t8) in *. clearbody z9.
  pose proof (pw_mul' _ _ _ _ _ H H9 ltac:(lia) ltac:(lia)) as H11. change (2 + 9) with 11 in H11. set (z11 := feMul z2 z9) in *. clearbody z11.
  pose proof (pw_sq' _ _ _ H11 ltac:(lia)) as H22. pose proof (pw_mul' _ _ _ _ _ H9 H22 ltac:(lia) ltac:(lia)) as H5. change (9 + 2 * 11) with (2 ^ 5 - 1) in H5. cbv zeta. set (z5 := feMul z9 (feSquare z11)) in *. clearbody z5. clear H22 H8 H9 H.
  assert (E : forall n m a b u y, 0 <= a -> 0 <= b -> 2 ^ Z.of_nat n * (2 * a) + b = m -> pw (value x) a u -> pw (value x) b y -> pw (value x) m (feMul (sqn n (feSquare u)) y)).
  { intros n m a b u y Ha Hb <- Px Py. assert (0 <= 2 ^ Z.of_nat n) by (apply Z.pow_nonneg; lia). apply pw_mul; [nia|auto| |auto]. apply pw_sqn; [lia|]. apply pw_sq; auto. }
  assert (N : forall n, 0 <= n -> 0 <= 2 ^ n - 1) by (intros n Hn; pose proof (Z.pow_pos_nonneg 2 n ltac:(lia) Hn); lia).
  assert (H10 := E 4%nat (2 ^ 10 - 1) _ _ z5 z5 (N 5 ltac:(lia)) (N 5 ltac:(lia)) ltac:(reflexivity) H5 H5). set (z10 := feMul (sqn 4 (feSquare z5)) z5) in *. clearbody z10.
  assert (H20 := E 9%nat (2 ^ 20 - 1) _ _ z10 z10 (N 10 ltac:(lia)) (N 10 ltac:(lia)) ltac:(reflexivity) H10 H10). set (z20 := feMul (sqn 9 (feSquare z10)) z10) in *. clearbody z20.
  assert (H40 := E 19%nat (2 ^ 40 - 1) _ _ z20 z20 (N 20 ltac:(lia)) (N 20 ltac:(lia)) ltac:(reflexivity) H20 H20). set (z40 := feMul (sqn 19 (feSquare z20)) z20) in *. clearbody z40.
  assert (H50 := E 9%nat (2 ^ 50 - 1) _ _ z40 z10 (N 40 ltac:(lia)) (N 10 ltac:(lia)) ltac:(reflexivity) H40 H10). set (z50 := feMul (sqn 9 (feSquare z40)) z10) in *. clearbody z50.
  assert (H100 := E 49%nat (2 ^ 100 - 1) _ _ z50 z50 (N 50 ltac:(lia)) (N 50 ltac:(lia)) ltac:(reflexivity) H50 H50). set (z100 := feMul (sqn 49 (feSquare z50)) z50) in *. clearbody z100.
  assert (H200 := E 99%nat (2 ^ 200 - 1) _ _ z100 z100 (N 100 ltac:(lia)) (N 100 ltac:(lia)) ltac:(reflexivity) H100 H100). set (z200 := feMul (sqn 99 (feSquare z100)) z100) in *. clearbody z200.
  assert (H250 := E 49%nat (2 ^ 250 - 1) _ _ z200 z50 (N 200 ltac:(lia)) (N 50 ltac:(lia)) ltac:(reflexivity) H200 H50). set (z250 := feMul (sqn 49 (feSquare z200)) z50) in *. clearbody z250.
  pose proof (pw_sqn _ 2 _ _ (N 250 ltac:(lia)) H250) as H252. change (sqn 2 z250) with (feSquare (feSquare z250)) in H252. set (t := feSquare (feSquare z250)) in *. clearbody t.
  assert (HF := pw_mul' _ _ _ _ _ H252 P1 ltac:(vm_compute; discriminate) ltac:(lia)). destruct HF as (_ & HF).
  replace (2 ^ Z.of_nat 2 * (2 ^ 250 - 1) + 1) with ((q5 - 5) / 8) in HF by reflexivity. split; [apply mul_fe_ok; [apply H252|exact Hz]|exact HF].
Qed.

(** ** comparison and selection *)
Lemma fe_equal_ok a b : u64fe a -> u64fe b -> fe_equal a b = if Fq_dec q5 (FK a) (FK b) then 1 else 0.
Proof.
  intros Ha Hb. unfold fe_equal. rewrite !fe_bytes_ok by auto. destruct (Fq_dec q5 (FK a) (FK b)) as [E|E].
  - apply k_eqm in E. unfold eqm in E. rewrite E. destruct (list_eq_dec _ _ _); [reflexivity|congruence].
  - destruct (list_eq_dec _ _ _) as [F|F]; [|reflexivity]. exfalso. apply E. apply k_eqm. apply (f_equal le_val) in F.
    assert (R : forall x, 0 <= x mod q5 < 256 ^ Z.of_nat 32) by (intros x; pose proof (Z.mod_pos_bound x q5 ltac:(reflexivity)); assert (q5 < 256 ^ Z.of_nat 32) by reflexivity; lia).
    rewrite !le_val_bytes in F by apply R. symmetry. exact F.
Qed.
Lemma mask_1 : mask64 1 = Z.ones 64. Proof. reflexivity. Qed.
Lemma mask_0 : mask64 0 = 0. Proof. reflexivity. Qed.
Lemma land_u64 a : 0 <= a < 2 ^ 64 -> Z.land (Z.ones 64) a = a.
Proof. intros H. rewrite Z.land_comm, Z.land_ones by lia. apply Z.mod_small, H. Qed.
Lemma sel64_1 a b : 0 <= a < 2 ^ 64 -> sel64 (Z.ones 64) a b = a.
Proof. intros H. unfold sel64. rewrite land_u64 by auto. change (not64 (Z.ones 64)) with 0. rewrite Z.land_0_l, Z.lor_0_r. reflexivity. Qed.
Lemma sel64_0 a b : 0 <= b < 2 ^ 64 -> sel64 0 a b = b.
Proof. intros H. unfold sel64. change (not64 0) with (Z.ones 64). rewrite land_u64 by auto. rewrite Z.land_0_l, Z.lor_0_l. reflexivity. Qed.
Lemma fe_select_1 a b : u64fe a -> fe_select a b 1 = a.
Proof. intros (A0 & A1 & A2 & A3 & A4). unfold fe_select. rewrite mask_1. cbv zeta. rewrite !sel64_1 by auto. destruct a; reflexivity. Qed.
Lemma fe_select_0 a b : u64fe b -> fe_select a b 0 = b.
Proof. intros (A0 & A1 & A2 & A3 & A4). unfold fe_select. rewrite mask_0. cbv zeta. rewrite !sel64_0 by auto. destruct b; reflexivity. Qed.
Lemma fe_swap_1 a b : u64fe a -> u64fe b -> fe_swap a b 1 = (b, a).
Proof.
  intros (A0 & A1 & A2 & A3 & A4) (B0 & B1 & B2 & B3 & B4). unfold fe_swap, swap64. rewrite mask_1.
  assert (X : forall x y, 0 <= x < 2 ^ 64 -> 0 <= y < 2 ^ 64 -> Z.lxor x (Z.land (Z.ones 64) (Z.lxor x y)) = y /\ Z.lxor y (Z.land (Z.ones 64) (Z.lxor x y)) = x).
  { intros x y Hx Hy. assert (L : Z.land (Z.ones 64) (Z.lxor x y) = Z.lxor x y).
    { rewrite <- (land_u64 x), <- (land_u64 y) by auto. apply Z.bits_inj'. intros n Hn. rewrite !Z.land_spec, Z.lxor_spec, !Z.land_spec. destruct (Z.testbit (Z.ones 64) n), (Z.testbit x n), (Z.testbit y n); reflexivity. }
    rewrite L. split; [rewrite <- Z.lxor_assoc, Z.lxor_nilpotent; reflexivity|]. rewrite (Z.lxor_comm x y), <- Z.lxor_assoc, Z.lxor_nilpotent. reflexivity. }
  destruct (X _ _ A0 B0) as (-> & ->). destruct (X _ _ A1 B1) as (-> & ->). destruct (X _ _ A2 B2) as (-> & ->). destruct (X _ _ A3 B3) as (-> & ->). destruct (X _ _ A4 B4) as (-> & ->). destruct a, b; reflexivity.
Qed.
Lemma fe_swap_0 a b : fe_swap a b 0 = (a, b).
Proof. unfold fe_swap, swap64. rewrite mask_0, !Z.land_0_l, !Z.lxor_0_r. destruct a, b; reflexivity. Qed.
Lemma fe_is_negative_ok v : u64fe v -> fe_is_negative v = (value v mod q5) mod 2.
Proof.
  intros H. unfold fe_is_negative. rewrite fe_bytes_ok by auto. rewrite nth_le_bytes by lia. change (8 * Z.of_nat 0) with 0. change (2 ^ 0) with 1. rewrite Z.div_1_r. change 1 with (Z.ones 1) at 1. rewrite Z.land_ones by lia. change (2 ^ 1) with 2.
  rewrite <- Znumtheory.Zmod_div_mod; [reflexivity|lia|lia|exists 128; reflexivity].
Qed.
Lemma fval_FK v : fval (FK v) = value v mod q5. Proof. reflexivity. Qed.
Lemma fe_absolute_ok v : fe_ok v -> fe_ok (fe_absolute v) /\ (FK (fe_absolute v) = FK v \/ FK (fe_absolute v) = qopp (FK v)) /\ Z.even (fval (FK (fe_absolute v))) = true.
Proof.
  intros H. unfold fe_absolute. rewrite fe_is_negative_ok by (apply ok_u64, H). destruct (fe_neg_ok v H) as (On & En).
  pose proof (Z.mod_pos_bound (value v mod q5) 2 ltac:(lia)) as R. assert (C : (value v mod q5) mod 2 = 0 \/ (value v mod q5) mod 2 = 1) by lia. destruct C as [C|C]; rewrite C.
  - rewrite fe_select_0 by (apply ok_u64, H). split; [exact H|]. split; [left; reflexivity|]. rewrite fval_FK. rewrite Zeven_mod, C. reflexivity.
  - rewrite fe_select_1 by (apply ok_u64, On). split; [exact On|]. assert (EN : FK (fe_neg v) = qopp (FK v)) by (unfold FK; rewrite ofZ_opp; apply ofZ_eq, En). split; [right; exact EN|].
    rewrite fval_FK. unfold eqm in En. rewrite En. pose proof (Z.mod_pos_bound (value v) q5 ltac:(reflexivity)) as Rv. assert (NZ : value v mod q5 <> 0) by (intros Z0; rewrite Z0 in C; discriminate C).
    rewrite Z.mod_opp_l_nz by (try discriminate; auto). rewrite Z.even_sub. change (Z.even q5) with false. rewrite Zeven_mod, C. reflexivity.
Qed.

(** ** homomorphism *)
Lemma FK_mul a b : doc_ok a -> doc_ok b -> FK (feMul a b) = qmul (FK a) (FK b).
Proof. intros Ha Hb. unfold FK. rewrite ofZ_mul. apply ofZ_eq. apply feMul_ok; auto. Qed.
Lemma FK_sq a : doc_ok a -> FK (feSquare a) = qmul (FK a) (FK a).
Proof. intros Ha. unfold FK. rewrite ofZ_mul. apply ofZ_eq. apply feSquare_ok; auto. Qed.
Lemma FK_add a b : doc_ok a -> doc_ok b -> FK (fe_add a b) = qadd (FK a) (FK b).
Proof. intros Ha Hb. unfold FK. rewrite ofZ_add. apply ofZ_eq. apply fe_add_ok; auto. Qed.
Lemma FK_sub a b : doc_ok a -> fe_ok b -> FK (fe_sub a b) = qsub (FK a) (FK b).
Proof. intros Ha Hb. unfold FK. rewrite ofZ_sub. apply ofZ_eq. apply fe_sub_ok; auto. Qed.
Lemma FK_neg a : fe_ok a -> FK (fe_neg a) = qopp (FK a).
Proof. intros Ha. unfold FK. rewrite ofZ_opp. apply ofZ_eq. apply fe_neg_ok; auto. Qed.
Lemma FK_mult32 a y : fe_ok a -> 0 <= y < 2 ^ 32 -> FK (fe_mult32 a y) = qmul (FK a) (ofZ q5 y).
Proof. intros Ha Hy. unfold FK. rewrite ofZ_mul. apply ofZ_eq. apply fe_mult32_ok; auto. Qed.
(** powers in the field *)
Definition kpow (x : Fq q5) (e : Z) : Fq q5 := ofZ q5 (fval x ^ e).
Lemma kpow_k z e : 0 <= e -> ofZ q5 (z ^ e) = kpow (ofZ q5 z) e.
Proof. intros He. unfold kpow. apply k_eqm. apply eqm_pow; [auto|]. unfold eqm. change (fval (ofZ q5 z)) with (z mod q5). rewrite Z.mod_mod by discriminate. reflexivity. Qed.
Lemma kpow_add x a b : 0 <= a -> 0 <= b -> kpow x (a + b) = qmul (kpow x a) (kpow x b).
Proof. intros Ha Hb. unfold kpow. rewrite ofZ_mul, Z.pow_add_r by auto. reflexivity. Qed.
Lemma kpow_1 x : kpow x 1 = x. Proof. unfold kpow. rewrite Z.pow_1_r. apply ofZ_fval. Qed.
Lemma kpow_0 e : 0 < e -> kpow (ofZ q5 0) e = ofZ q5 0.
Proof. intros He. unfold kpow. change (fval (ofZ q5 0)) with 0. rewrite Z.pow_0_l by auto. reflexivity. Qed.
Lemma kpow_mul x y e : 0 <= e -> kpow (qmul x y) e = qmul (kpow x e) (kpow y e).
Proof.
  intros He. unfold kpow. rewrite ofZ_mul, <- Z.pow_mul_l. apply k_eqm. apply eqm_pow; [auto|]. unfold eqm. unfold qmul. rewrite fval_ofZ. rewrite Z.mod_mod by discriminate. reflexivity.
Qed.
Lemma kpow_fermat x : x <> ofZ q5 0 -> kpow x (q5 - 1) = ofZ q5 1.
Proof.
  intros H. unfold kpow. apply k_eqm. unfold eqm. change (1 mod q5) with 1. apply fermat; [exact EdSpec.q_prime|]. intros D. apply H. rewrite <- (ofZ_fval q5 x). apply k_eqm. unfold eqm. change (0 mod q5) with 0. apply Zdivide_mod, D.
Qed.
Lemma FK_invert a : doc_ok a -> FK (fe_invert a) = kpow (FK a) (q5 - 2).
Proof. intros H. unfold FK at 1. rewrite (proj2 (k_eqm _ _) (proj2 (fe_invert_ok a H))). apply kpow_k. discriminate. Qed.
Lemma FK_pow22523 a : doc_ok a -> FK (fe_pow22523 a) = kpow (FK a) ((q5 - 5) / 8).
Proof. intros H. unfold FK at 1. rewrite (proj2 (k_eqm _ _) (proj2 (fe_pow22523_ok a H))). apply kpow_k. vm_compute. discriminate. Qed.
Lemma FK_invert_inv a : doc_ok a -> FK (fe_invert a) = qinv (FK a).
Proof. intros H. rewrite FK_invert by auto. unfold kpow, qinv. rewrite pow_mod_ok by (vm_compute; congruence). apply k_eqm. unfold eqm. rewrite Z.mod_mod by discriminate. reflexivity. Qed.

(** ** square roots *)
Add Ring Kr : (Fq_ring q5).
Local Infix "*" := qmul. Local Infix "-" := qsub. Local Infix "+" := qadd.
Notation K0 := (ofZ q5 0). Notation K1 := (ofZ q5 1).
Definition im' : Fq q5 := ofZ q5 19681161376707505956807079304988542015446066515923890162744021073123829784752.
Lemma im_sq : im' * im' = qopp K1. Proof. apply Fq_ext. vm_compute. reflexivity. Qed.
Lemma Kz (x y : Fq q5) : x * y = K0 -> x = K0 \/ y = K0.
Proof. exact (mul_zero _ _ _ _ _ _ _ _ _ EdSpec.FT (Fq_dec q5) x y). Qed.
Lemma K10 : K1 <> K0. Proof. intros E. apply (f_equal fval) in E. vm_compute in E. discriminate E. Qed.
Lemma K20 : K1 + K1 <> K0. Proof. intros E. apply (f_equal fval) in E. vm_compute in E. discriminate E. Qed.
Lemma K_sub (x y : Fq q5) : x - y = K0 -> x = y.
Proof. intros E. transitivity (x - y + y); [ring|rewrite E; ring]. Qed.
Lemma sq_pm (x y : Fq q5) : x * x = y * y -> x = y \/ x = qopp y.
Proof.
  intros E. assert (G : (x - y) * (x - qopp y) = K0) by (transitivity (x * x - y * y); [ring|rewrite E; ring]). destruct (Kz _ _ G) as [H|H]; [left|right]; apply K_sub; exact H.
Qed.
Lemma chi_cases (w : Fq q5) : w <> K0 -> let c := kpow w ((q5 - 1) / 4) in c = K1 \/ c = qopp K1 \/ c = im' \/ c = qopp im'.
Proof.
  intros H c. assert (E2 : kpow w ((q5 - 1) / 2) = c * c) by (unfold c; rewrite <- kpow_add by (vm_compute; congruence); f_equal).
  assert (E4 : (c * c) * (c * c) = K1 * K1).
  { rewrite <- E2, <- kpow_add by (vm_compute; congruence). replace ((q5 - 1) / 2 + (q5 - 1) / 2)%Z with (q5 - 1)%Z by reflexivity. rewrite kpow_fermat by exact H. ring. }
  destruct (sq_pm _ _ E4) as [E|E].
  - assert (E' : c * c = K1 * K1) by (rewrite E; ring). destruct (sq_pm _ _ E') as [G|G]; auto.
  - rewrite <- im_sq in E. destruct (sq_pm _ _ E) as [G|G]; auto.
Qed.
(** v r^2 for the candidate root *)
Lemma cand_check (u v : Fq q5) : let w := u * (v * v * v) * ((v * v) * (v * v)) in let r := u * (v * v * v) * kpow w ((q5 - 5) / 8) in v * (r * r) = u * kpow w ((q5 - 1) / 4).
Proof.
  intros w r. assert (E : kpow w ((q5 - 1) / 4) = w * (kpow w ((q5 - 5) / 8) * kpow w ((q5 - 5) / 8))).
  { rewrite <- kpow_add by (vm_compute; congruence). rewrite <- (kpow_1 w) at 2. rewrite <- kpow_add by (vm_compute; congruence). f_equal. }
  rewrite E. unfold r. generalize (kpow w ((q5 - 5) / 8)). intros t. unfold w. ring.
Qed.
Lemma square_chi (x : Fq q5) : x <> K0 -> kpow (x * x) ((q5 - 1) / 4) = K1 \/ kpow (x * x) ((q5 - 1) / 4) = qopp K1.
Proof.
  intros H. rewrite kpow_mul by (vm_compute; congruence). rewrite <- kpow_add by (vm_compute; congruence). replace ((q5 - 1) / 4 + (q5 - 1) / 4)%Z with ((q5 - 1) / 2)%Z by reflexivity.
  apply sq_pm. rewrite <- kpow_add by (vm_compute; congruence). replace ((q5 - 1) / 2 + (q5 - 1) / 2)%Z with (q5 - 1)%Z by reflexivity. rewrite kpow_fermat by exact H. ring.
Qed.
Lemma sqrtM1_ok : fe_ok fe_sqrtM1 /\ FK fe_sqrtM1 = im'.
Proof. split; [unfold fe_ok, limbs_below; cbn [fe_sqrtM1 l0 l1 l2 l3 l4]; lia|apply Fq_ext; vm_compute; reflexivity]. Qed.
Theorem sqrt_ratio_ok : forall u v, fe_ok u -> fe_ok v -> let r := fst (fe_sqrt_ratio u v) in let ws := snd (fe_sqrt_ratio u v) in
  fe_ok r /\ Z.even (fval (FK r)) = true /\ (ws = 0 \/ ws = 1) /\
  (ws = 1 <-> exists x, FK v * (x * x) = FK u) /\
  (ws = 1 -> FK v * (FK r * FK r) = FK u) /\
  (ws = 0 -> FK v <> K0 -> FK v * (FK r * FK r) = im' * FK u) /\
  (FK v = K0 -> FK r = K0).
Proof.
  intros u v Hu Hv. unfold fe_sqrt_ratio. cbv zeta. cbn [fst snd].
  pose proof (ok_doc _ Hu) as Du. pose proof (ok_doc _ Hv) as Dv.
  destruct (feSquare_ok v Dv) as (O1 & _). apply ok_doc in O1. pose proof (mul_fe_ok _ _ O1 Dv) as O2. apply ok_doc in O2. pose proof (mul_fe_ok _ _ Du O2) as O3. apply ok_doc in O3.
  destruct (feSquare_ok _ O1) as (O4 & _). apply ok_doc in O4. pose proof (mul_fe_ok _ _ O3 O4) as O5. apply ok_doc in O5. destruct (fe_pow22523_ok _ O5) as (O6 & _). apply ok_doc in O6.
  pose proof (mul_fe_ok _ _ O3 O6) as O7. pose proof (ok_doc _ O7) as D7.
  assert (ER : FK (feMul (feMul u (feMul (feSquare v) v)) (fe_pow22523 (feMul (feMul u (feMul (feSquare v) v)) (feSquare (feSquare v))))) =
    FK u * (FK v * FK v * FK v) * kpow (FK u * (FK v * FK v * FK v) * ((FK v * FK v) * (FK v * FK v))) ((q5 - 5) / 8)).
  { rewrite FK_mul, FK_pow22523 by auto. rewrite !FK_mul by auto. rewrite !FK_sq by auto. reflexivity. }
  set (rr := feMul (feMul u (feMul (feSquare v) v)) (fe_pow22523 (feMul (feMul u (feMul (feSquare v) v)) (feSquare (feSquare v))))) in *. clearbody rr. clear O1 O2 O3 O4 O5 O6.
  destruct (feSquare_ok rr D7) as (O8 & _). pose proof (mul_fe_ok _ _ Dv (ok_doc _ O8)) as O9. assert (EC : FK (feMul v (feSquare rr)) = FK v * (FK rr * FK rr)) by (rewrite FK_mul, FK_sq by (auto; apply ok_doc; auto); reflexivity).
  set (check := feMul v (feSquare rr)) in *. clearbody check. destruct (fe_neg_ok u Hu) as (On & _). destruct sqrtM1_ok as (Om & Em). pose proof (mul_fe_ok _ _ (ok_doc _ On) (ok_doc _ Om)) as OnI.
  assert (EnI : FK (feMul (fe_neg u) fe_sqrtM1) = qopp (FK u) * im') by (rewrite FK_mul, FK_neg, Em by (auto; apply ok_doc; auto); reflexivity).
  rewrite !fe_equal_ok by (apply ok_u64; auto). rewrite EnI. rewrite (FK_neg u Hu).
  pose proof (mul_fe_ok _ _ D7 (ok_doc _ Om)) as OP. assert (EP : FK (feMul rr fe_sqrtM1) = FK rr * im') by (rewrite FK_mul, Em by (auto; apply ok_doc; auto); reflexivity).
  set (rp := feMul rr fe_sqrtM1) in *. clearbody rp. set (U := FK u) in *. set (V := FK v) in *. set (R := FK rr) in *. set (C := FK check) in *.
  set (w := U * (V * V * V) * ((V * V) * (V * V))) in *. pose proof (cand_check U V) as CC. cbv zeta in CC. fold w in CC. rewrite <- ER in CC. rewrite <- EC in CC.
  (* the chosen candidate *)
  assert (ABS : forall x, fe_ok x -> fe_ok (fe_absolute x) /\ Z.even (fval (FK (fe_absolute x))) = true /\ FK (fe_absolute x) * FK (fe_absolute x) = FK x * FK x).
  { intros x Hx. destruct (fe_absolute_ok x Hx) as (Oa & Ea & Pa). split; [exact Oa|]. split; [exact Pa|]. destruct Ea as [E|E]; rewrite E; ring. }
  assert (SEL1 : fe_select rp rr 1 = rp) by (apply fe_select_1, ok_u64; auto). assert (SEL0 : fe_select rp rr 0 = rr) by (apply fe_select_0, ok_u64; auto).
  destruct (Fq_dec q5 V K0) as [HV|HV].
  { (* v = 0: the root is 0 *)
    assert (R0 : R = K0) by (rewrite ER; rewrite HV; ring). assert (C0 : C = K0) by (rewrite EC, HV; ring).
    assert (Z0 : forall s, s = 0 \/ s = 1 -> fe_ok (fe_absolute (fe_select rp rr s)) /\ Z.even (fval (FK (fe_absolute (fe_select rp rr s)))) = true /\ FK (fe_absolute (fe_select rp rr s)) = K0).
    { intros s Hs. assert (G : fe_ok (fe_select rp rr s) /\ FK (fe_select rp rr s) = K0) by (destruct Hs as [-> | ->]; [rewrite SEL0; split; [exact O7|exact R0]|rewrite SEL1; split; [exact OP|rewrite EP, R0; ring]]).
      destruct G as (G1 & G2). destruct (ABS _ G1) as (A1 & A2 & A3). split; [exact A1|]. split; [exact A2|]. rewrite G2 in A3. assert (A4 : FK (fe_absolute (fe_select rp rr s)) * FK (fe_absolute (fe_select rp rr s)) = K0) by (rewrite A3; ring).
      destruct (Kz _ _ A4); auto. }
    destruct (Z0 (Z.lor (if Fq_dec q5 C (qopp U) then 1 else 0) (if Fq_dec q5 C (qopp U * im') then 1 else 0))) as (Z1 & Z2 & Z3).
    { destruct (Fq_dec q5 C (qopp U)), (Fq_dec q5 C (qopp U * im')); cbn; auto. }
    split; [exact Z1|]. split; [exact Z2|]. rewrite Z3. rewrite HV.
    destruct (Fq_dec q5 U K0) as [HU|HU].
    - destruct (Fq_dec q5 C U) as [_|N]; [|congruence]. replace (Z.lor 1 (if Fq_dec q5 C (qopp U) then 1 else 0)) with 1 by (destruct (Fq_dec q5 C (qopp U)); reflexivity).
      split; [auto|]. split; [split; [intros _; exists K0; rewrite HU; ring|auto]|]. split; [intros _; rewrite HU; ring|]. split; [discriminate|auto].
    - assert (NU : C <> U) by congruence. assert (NU' : C <> qopp U) by (intros E; apply HU; transitivity (qopp (qopp U)); [ring|rewrite <- E, C0; ring]).
      destruct (Fq_dec q5 C U); [congruence|]. destruct (Fq_dec q5 C (qopp U)); [congruence|]. cbn [Z.lor]. split; [auto|]. split; [split; [discriminate|intros (x & Hx); exfalso; apply HU; rewrite <- Hx; ring]|].
      split; [discriminate|]. split; [congruence|auto]. }
  destruct (Fq_dec q5 U K0) as [HU|HU].
  { (* u = 0 *)
    assert (R0 : R = K0) by (rewrite ER, HU; ring). assert (C0 : C = K0) by (rewrite EC, R0; ring).
    destruct (Fq_dec q5 C U) as [_|N]; [|congruence]. destruct (Fq_dec q5 C (qopp U)) as [_|N]; [|exfalso; apply N; rewrite C0, HU; ring]. change (Z.lor 1 1) with 1.
    replace (Z.lor 1 (if Fq_dec q5 C (qopp U * im') then 1 else 0)) with 1 by (destruct (Fq_dec q5 C (qopp U * im')); reflexivity). rewrite SEL1. destruct (ABS _ OP) as (A1 & A2 & A3). split; [exact A1|]. split; [exact A2|]. split; [auto|].
    assert (A4 : V * (FK (fe_absolute rp) * FK (fe_absolute rp)) = U) by (rewrite A3, EP, R0, HU; ring). split; [split; [intros _; eauto|auto]|]. split; [auto|]. split; [discriminate|congruence]. }
  assert (Hw : w <> K0). { unfold w. intros E. repeat match goal with E : _ * _ = K0 |- _ => destruct (Kz _ _ E); clear E end; congruence. }
  assert (Cancel : forall a b, U * a = U * b -> a = b). { intros x y E. assert (G : U * (x - y) = K0) by (transitivity (U * x - U * y); [ring|rewrite E; ring]). destruct (Kz _ _ G) as [G'|G']; [congruence|apply K_sub, G']. }
  set (c := kpow w ((q5 - 1) / 4)) in *.
  assert (D1 : C = U <-> c = K1) by (rewrite CC; split; [intros E; apply Cancel; rewrite E; ring|intros ->; ring]).
  assert (D2 : C = qopp U <-> c = qopp K1) by (rewrite CC; split; [intros E; apply Cancel; rewrite E; ring|intros ->; ring]).
  assert (D3 : C = qopp U * im' <-> c = qopp im') by (rewrite CC; split; [intros E; apply Cancel; rewrite E; ring|intros ->; ring]).
  assert (N1 : K1 <> qopp K1) by (intros E; apply K20; rewrite E at 1; ring).
  assert (N2 : K1 <> im' /\ K1 <> qopp im' /\ qopp K1 <> im' /\ qopp K1 <> qopp im').
  { pose proof im_sq as Q. split; [|split; [|split]]; intros E; apply N1; rewrite <- Q; [rewrite <- E|transitivity (qopp im' * qopp im'); [rewrite <- E|]|rewrite <- E|transitivity (qopp im' * qopp im'); [rewrite <- E|]]; ring. }
  destruct N2 as (N2 & N3 & N4 & N5). assert (N6 : im' <> qopp im'). { intros E. assert (G : (K1 + K1) * im' = K0) by (transitivity (im' - qopp im'); [ring|rewrite <- E; ring]). destruct (Kz _ _ G) as [G'|G']; [exact (K20 G')|]. apply K10. transitivity (qopp (qopp K1)); [ring|rewrite <- im_sq, G'; ring]. }
  assert (SQ : (exists x, V * (x * x) = U) -> c = K1 \/ c = qopp K1).
  { intros (x & Hx). assert (Ew : w = (V * V * (V * V) * x) * (V * V * (V * V) * x)) by (unfold w; rewrite <- Hx; ring). unfold c. rewrite Ew. apply square_chi. intros E. apply Hw. rewrite Ew, E. ring. }
  assert (NV : V = K0 -> forall P : Prop, P) by (intros; contradiction).
  destruct (chi_cases w Hw) as [E|[E|[E|E]]]; fold c in E.
  - (* correct sign *)
    destruct (Fq_dec q5 C U) as [_|N]; [|exfalso; apply N, D1, E]. destruct (Fq_dec q5 C (qopp U)) as [F|_]; [exfalso; apply D2 in F; rewrite E in F; exact (N1 (F))|].
    destruct (Fq_dec q5 C (qopp U * im')) as [F|_]; [exfalso; apply D3 in F; rewrite E in F; exact (N3 (F))|]. cbn [Z.lor]. rewrite SEL0. destruct (ABS _ O7) as (A1 & A2 & A3). split; [exact A1|]. split; [exact A2|]. split; [auto|].
    assert (A4 : V * (FK (fe_absolute rr) * FK (fe_absolute rr)) = U) by (rewrite A3; fold R; rewrite <- EC; apply D1, E). split; [split; [intros _; eauto|auto]|]. split; [auto|]. split; [discriminate|intros HV'; contradiction].
  - (* flipped sign *)
    destruct (Fq_dec q5 C U) as [F|_]; [exfalso; apply D1 in F; rewrite E in F; exact (N1 (eq_sym F))|]. destruct (Fq_dec q5 C (qopp U)) as [_|N]; [|exfalso; apply N, D2, E].
    replace (Z.lor 1 (if Fq_dec q5 C (qopp U * im') then 1 else 0)) with 1 by (destruct (Fq_dec q5 C (qopp U * im')); reflexivity). cbn [Z.lor]. rewrite SEL1. destruct (ABS _ OP) as (A1 & A2 & A3). split; [exact A1|]. split; [exact A2|]. split; [auto|].
    assert (A4 : V * (FK (fe_absolute rp) * FK (fe_absolute rp)) = U).
    { rewrite A3, EP. transitivity ((V * (R * R)) * (im' * im')); [ring|]. rewrite <- EC, im_sq. rewrite (proj2 D2 E). ring. }
    split; [split; [intros _; eauto|auto]|]. split; [auto|]. split; [discriminate|intros HV'; contradiction].
  - (* not a square, r kept *)
    destruct (Fq_dec q5 C U) as [F|_]; [exfalso; apply D1 in F; rewrite E in F; exact (N2 (eq_sym F))|]. destruct (Fq_dec q5 C (qopp U)) as [F|_]; [exfalso; apply D2 in F; rewrite E in F; exact (N4 (eq_sym F))|].
    destruct (Fq_dec q5 C (qopp U * im')) as [F|_]; [exfalso; apply D3 in F; rewrite E in F; exact (N6 (F))|]. cbn [Z.lor]. rewrite SEL0. destruct (ABS _ O7) as (A1 & A2 & A3). split; [exact A1|]. split; [exact A2|]. split; [auto|].
    split; [split; [discriminate|intros Hx; exfalso; destruct (SQ Hx) as [G|G]; rewrite E in G; congruence]|]. split; [discriminate|]. split; [intros _ _; rewrite A3; fold R; rewrite <- EC, CC, E; ring|intros HV'; contradiction].
  - (* not a square, r times i *)
    destruct (Fq_dec q5 C U) as [F|_]; [exfalso; apply D1 in F; rewrite E in F; exact (N3 (eq_sym F))|]. destruct (Fq_dec q5 C (qopp U)) as [F|_]; [exfalso; apply D2 in F; rewrite E in F; exact (N5 (eq_sym F))|].
    destruct (Fq_dec q5 C (qopp U * im')) as [_|N]; [|exfalso; apply N, D3, E]. cbn [Z.lor]. rewrite SEL1. destruct (ABS _ OP) as (A1 & A2 & A3). split; [exact A1|]. split; [exact A2|]. split; [auto|].
    split; [split; [discriminate|intros Hx; exfalso; destruct (SQ Hx) as [G|G]; rewrite E in G; congruence]|]. split; [discriminate|].
    split; [intros _ _; rewrite A3, EP; transitivity ((V * (R * R)) * (im' * im')); [ring|]; rewrite <- EC, im_sq, CC, E; ring|intros HV'; contradiction].
Qed.
