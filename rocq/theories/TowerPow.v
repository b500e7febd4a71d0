(** * TowerPow.v — the Frobenius maps of tower.go are the p-th and p^2-th powers; conjugation is the p^6-th power *)
From Coq Require Import ZArith Znumtheory List Lia Ring.
From Verif Require Import PrimeTheory PrimeBls FieldZ TowerModel TowerSpec TowerRing TowerFrob TowerField CharP.
Open Scope Z_scope.

(** ** powers in the base field *)
Definition pow1 : Fp -> Z -> Fp := powz (fc 1) qmul.
Lemma pow1_val : forall a n, 0 <= n -> pow1 a n = fc (fval a ^ n).
Proof.
  intros a n Hn. unfold pow1, powz. rewrite <- (Z2Nat.id n) at 2 by exact Hn. generalize (Z.to_nat n) as k. clear. induction k as [| k IH]; [reflexivity |].
  unfold pown in *. cbn [Nat.iter nat_rect]. fold (Nat.iter k (qmul a) (fc 1)). change (nat_rect _ _ _ k) with (Nat.iter k (qmul a) (fc 1)). rewrite IH.
  rewrite Nat2Z.inj_succ, Z.pow_succ_r by lia. unfold fc. rewrite <- (ofZ_fval _ a) at 1. apply ofZ_mul.
Qed.
Lemma pow1_p : forall a : Fp, pow1 a pBls = a.
Proof.
  intros a. rewrite pow1_val by discriminate. rewrite <- (ofZ_fval _ a) at 2. apply ofZ_eq. pose proof p_prime as P.
  generalize (fval a) as z. intros z. destruct (Zdivide_dec pBls z) as [D | D].
  - assert (D2 : (pBls | z ^ pBls)). { replace pBls with (Z.succ (pBls - 1)) at 2 by lia. rewrite Z.pow_succ_r by discriminate. apply Z.divide_mul_l. exact D. }
    apply Z.mod_divide in D; [| discriminate]. apply Z.mod_divide in D2; [| discriminate]. congruence.
  - replace pBls with (Z.succ (pBls - 1)) at 1 by lia. rewrite Z.pow_succ_r by discriminate. rewrite Z.mul_mod by discriminate. rewrite (fermat pBls z P D). rewrite Z.mul_1_r. apply Z.mod_mod. discriminate.
Qed.

(** homomorphisms preserve powers *)
Lemma hom_pow : forall A B oA mA oB mB (f : A -> B), f oA = oB -> (forall x y, f (mA x y) = mB (f x) (f y)) -> forall x n, f (powz oA mA x n) = powz oB mB (f x) n.
Proof.
  intros A B oA mA oB mB f H1 Hm x n. unfold powz. generalize (Z.to_nat n) as k. clear n. induction k as [| k IH]; [exact H1 |].
  unfold pown in *. cbn [Nat.iter nat_rect]. rewrite Hm. apply f_equal. exact IH.
Qed.
Lemma of1_mul : forall a b, of1 (qmul a b) = mul2 (of1 a) (of1 b).
Proof. intros. rewrite mul2_def. unfold of1. cbn [A0 A1]. apply E2_eq; ring. Qed.
Lemma of1_pow : forall a n, of1 (pow1 a n) = pow2 (of1 a) n.
Proof. intros. apply hom_pow; [reflexivity | exact of1_mul]. Qed.
Definition iota (a : E2) : E12 := of6 (of2 a).
Lemma iota_mul2 : forall a b, iota (mul2 a b) = mul12 (iota a) (iota b).
Proof. intros. unfold iota. rewrite of6_mul, of2_mul. reflexivity. Qed.
Lemma iota_pow : forall a n, iota (pow2 a n) = pow12 (iota a) n.
Proof. intros. apply hom_pow; [reflexivity | exact iota_mul2]. Qed.

Lemma pow2_add : forall x m n, 0 <= m -> 0 <= n -> pow2 x (m + n) = mul2 (pow2 x m) (pow2 x n). Proof. exact (powz_add _ _ _ _ _ _ _ E2_ring). Qed.
Lemma pow2_mul : forall x m n, 0 <= m -> 0 <= n -> pow2 x (m * n) = pow2 (pow2 x m) n. Proof. exact (powz_mul _ _ _ _ _ _ _ E2_ring). Qed.
Lemma pow2_one : forall n, pow2 one2 n = one2. Proof. exact (powz_one _ _ _ _ _ _ _ E2_ring). Qed.
Lemma pow2_1 : forall x, pow2 x 1 = x. Proof. exact (powz_1 _ _ _ _ _ _ _ E2_ring). Qed.
Lemma pow2_2 : forall x, pow2 x 2 = mul2 x x. Proof. exact (powz_2 _ _ _ _ _ _ _ E2_ring). Qed.
Lemma pow2_prod : forall x y n, pow2 (mul2 x y) n = mul2 (pow2 x n) (pow2 y n). Proof. exact (powz_prod _ _ _ _ _ _ _ E2_ring). Qed.
Lemma pow12_add : forall x m n, 0 <= m -> 0 <= n -> pow12 x (m + n) = mul12 (pow12 x m) (pow12 x n). Proof. exact (powz_add _ _ _ _ _ _ _ E12_ring). Qed.
Lemma pow12_mul : forall x m n, 0 <= m -> 0 <= n -> pow12 x (m * n) = pow12 (pow12 x m) n. Proof. exact (powz_mul _ _ _ _ _ _ _ E12_ring). Qed.
Lemma pow12_one : forall n, pow12 one12 n = one12. Proof. exact (powz_one _ _ _ _ _ _ _ E12_ring). Qed.
Lemma pow12_1 : forall x, pow12 x 1 = x. Proof. exact (powz_1 _ _ _ _ _ _ _ E12_ring). Qed.
Lemma pow12_2 : forall x, pow12 x 2 = mul12 x x. Proof. exact (powz_2 _ _ _ _ _ _ _ E12_ring). Qed.
Lemma pow12_prod : forall x y n, pow12 (mul12 x y) n = mul12 (pow12 x n) (pow12 y n). Proof. exact (powz_prod _ _ _ _ _ _ _ E12_ring). Qed.

(** ** powers of u *)
Lemma u_sq : mul2 u2 u2 = opp2 one2. Proof. rewrite mul2_def, opp2_def, one2_def. unfold u2. cbn [A0 A1]. apply E2_eq; ring. Qed.
Lemma u_pow : forall n, 0 <= n -> pow2 u2 (4 * n + 3) = opp2 u2.
Proof.
  intros n Hn. rewrite pow2_add, pow2_mul by lia.
  assert (E : pow2 u2 4 = one2).
  { change 4 with (2 + 2). rewrite pow2_add by lia. rewrite pow2_2, u_sq. ring. }
  rewrite E, pow2_one. change 3 with (2 + 1). rewrite pow2_add by lia. rewrite pow2_2, u_sq, pow2_1. ring.
Qed.

(** ** characteristic p *)
Lemma nR2 : forall n, nR _ zero2 one2 add2 n = of1 (fc (Z.of_nat n)).
Proof.
  induction n as [| n IH]; [reflexivity |]. rewrite nR_S, IH. rewrite add2_def, one2_def. unfold of1. cbn [A0 A1]. rewrite Nat2Z.inj_succ. unfold Z.succ. apply E2_eq; [| ring].
  unfold fc. rewrite ofZ_add. f_equal. lia.
Qed.
Lemma nR12 : forall n, nR _ zero12 one12 add12 n = iota (nR _ zero2 one2 add2 n).
Proof.
  induction n as [| n IH]; [reflexivity |]. rewrite !nR_S, IH. unfold iota, of6, of2, one12, of6, one6, of2, add12. cbn [C0 C1]. apply E12_eq.
  - unfold add6. cbn [B0 B1 B2]. apply E6_eq; ring.
  - ring.
Qed.
Lemma char_p2 : nR _ zero2 one2 add2 (Z.to_nat pBls) = zero2.
Proof. rewrite nR2. rewrite Z2Nat.id by discriminate. rewrite zero2_def. unfold of1. apply E2_eq; [| reflexivity]. unfold fc. apply ofZ_eq. rewrite Z.mod_same by discriminate. reflexivity. Qed.
Lemma char_p12 : nR _ zero12 one12 add12 (Z.to_nat pBls) = zero12.
Proof. rewrite nR12, char_p2. reflexivity. Qed.
Lemma fresh2 : forall x y, pow2 (add2 x y) pBls = add2 (pow2 x pBls) (pow2 y pBls).
Proof. exact (freshman_z _ _ _ _ _ _ _ E2_ring pBls p_prime char_p2). Qed.
Lemma fresh12 : forall x y, pow12 (add12 x y) pBls = add12 (pow12 x pBls) (pow12 y pBls).
Proof. exact (freshman_z _ _ _ _ _ _ _ E12_ring pBls p_prime char_p12). Qed.

Global Opaque pow2 pow12.
(** ** x^p in Fp2 *)
Theorem pow2_p : forall g, pow2 g pBls = conj2 g.
Proof.
  intros [a b]. assert (E : mkE2 a b = add2 (of1 a) (mul2 (of1 b) u2)).
  { rewrite add2_def, mul2_def. unfold of1, u2. cbn [A0 A1]. apply E2_eq; ring. }
  rewrite E at 1. rewrite fresh2. rewrite pow2_prod. rewrite <- !of1_pow, !pow1_p.
  assert (U : pow2 u2 pBls = opp2 u2). { replace pBls with (4 * (3 * kBls + 1) + 3) by reflexivity. apply u_pow. discriminate. }
  rewrite U. unfold conj2. cbn [A0 A1]. rewrite add2_def, mul2_def, opp2_def. unfold of1, u2. cbn [A0 A1]. apply E2_eq; ring.
Qed.

(** ** the sixth root of xi^(p-1) *)
Definition gam : E2 := mkE2 (fc tBls) (fc (- tBls)).
Lemma xi_pow : pow2 xi (2 * kBls + 1) = gam.
Proof.
  assert (K : 0 <= kBls) by discriminate. rewrite pow2_add, pow2_mul by lia. rewrite pow2_2, pow2_1.
  assert (X : mul2 xi xi = mul2 (of1 (fc 2)) u2). { rewrite !mul2_def, xi_def. unfold of1, u2. cbn [A0 A1]. apply E2_eq; ring. }
  rewrite X, pow2_prod. rewrite <- of1_pow.
  assert (U : pow2 u2 kBls = opp2 u2). { replace kBls with (4 * (kBls / 4) + 3) by reflexivity. apply u_pow. discriminate. }
  rewrite U. assert (T : pow1 (fc 2) kBls = fc tBls).
  { rewrite pow1_val by exact K. unfold fc. apply ofZ_eq. change (fval (ofZ pBls 2)) with 2. rewrite two_pow. symmetry. apply Z.mod_small. split; [discriminate | reflexivity]. }
  rewrite T. assert (N : fc (- tBls) = qopp (fc tBls)) by (unfold fc; symmetry; apply ofZ_opp). unfold gam. rewrite N. clear.
  rewrite mul2_def, xi_def, mul2_def, opp2_def. unfold of1, u2. cbn [A0 A1]. apply E2_eq; ring.
Qed.

(** ** coordinates: x = g0 + g1 w + ... + g5 w^5 *)
Definition six (g0 g1 g2 g3 g4 g5 : E2) : E12 := mkE12 (mkE6 g0 g2 g4) (mkE6 g1 g3 g5).
Lemma six_eta : forall x, x = six (B0 (C0 x)) (B0 (C1 x)) (B1 (C0 x)) (B1 (C1 x)) (B2 (C0 x)) (B2 (C1 x)).
Proof. intros [[a b c] [d e f]]. reflexivity. Qed.
Lemma six_eq : forall a b c d e f a' b' c' d' e' f', a = a' -> b = b' -> c = c' -> d = d' -> e = e' -> f = f' -> six a b c d e f = six a' b' c' d' e' f'.
Proof. intros. subst. reflexivity. Qed.
Lemma iota_six : forall a g0 g1 g2 g3 g4 g5, mul12 (iota a) (six g0 g1 g2 g3 g4 g5) = six (mul2 a g0) (mul2 a g1) (mul2 a g2) (mul2 a g3) (mul2 a g4) (mul2 a g5).
Proof.
  intros. unfold iota, of6, six. rewrite mul12_def. assert (Z : forall x, mul6 zero6 x = zero6) by (intros; ring). rewrite !Z, !mul6_of2. cbn [B0 B1 B2].
  apply E12_eq; [transitivity (mkE6 (mul2 a g0) (mul2 a g2) (mul2 a g4)) | transitivity (mkE6 (mul2 a g1) (mul2 a g3) (mul2 a g5))]; try reflexivity; ring.
Qed.
Lemma six_add : forall a b c d e f a' b' c' d' e' f', add12 (six a b c d e f) (six a' b' c' d' e' f') = six (add2 a a') (add2 b b') (add2 c c') (add2 d d') (add2 e e') (add2 f f').
Proof. reflexivity. Qed.
Lemma w_six : forall g0 g1 g2 g3 g4 g5, mul12 w12 (six g0 g1 g2 g3 g4 g5) = six (mul2 xi g5) g0 g1 g2 g3 g4.
Proof.
  intros. unfold w12, six. rewrite mul12_def. apply E12_eq.
  - transitivity (mul6 v6 (mkE6 g1 g3 g5)); [ring |]. unfold v6. rewrite mul6_def. apply E6_eq; ring.
  - ring.
Qed.
Lemma iota_is_six : forall a, iota a = six a zero2 zero2 zero2 zero2 zero2. Proof. reflexivity. Qed.
Lemma one_six : one12 = six one2 zero2 zero2 zero2 zero2 zero2. Proof. reflexivity. Qed.
Lemma six_sum : forall g0 g1 g2 g3 g4 g5, six g0 g1 g2 g3 g4 g5 =
  add12 (iota g0) (mul12 w12 (add12 (iota g1) (mul12 w12 (add12 (iota g2) (mul12 w12 (add12 (iota g3) (mul12 w12 (add12 (iota g4) (mul12 w12 (iota g5)))))))))).
Proof. intros. rewrite !iota_is_six. repeat (rewrite ?w_six, ?six_add). apply six_eq; ring. Qed.
Lemma w6 : pow12 w12 6 = iota xi.
Proof.
  Local Transparent pow12. change (pow12 w12 6) with (mul12 w12 (mul12 w12 (mul12 w12 (mul12 w12 (mul12 w12 (mul12 w12 one12)))))). Local Opaque pow12. rewrite one_six, !w_six, iota_is_six. apply six_eq; ring.
Qed.
Lemma w_p : pow12 w12 pBls = mul12 (iota gam) w12.
Proof.
  replace pBls with (6 * (2 * kBls + 1) + 1) by reflexivity. rewrite pow12_add, pow12_mul, pow12_1 by discriminate. rewrite w6, <- iota_pow, xi_pow. reflexivity.
Qed.
Theorem pow12_p : forall g0 g1 g2 g3 g4 g5, pow12 (six g0 g1 g2 g3 g4 g5) pBls =
  six (conj2 g0) (mul2 gam (conj2 g1)) (mul2 (mul2 gam gam) (conj2 g2)) (mul2 (mul2 gam (mul2 gam gam)) (conj2 g3))
      (mul2 (mul2 (mul2 gam gam) (mul2 gam gam)) (conj2 g4)) (mul2 (mul2 gam (mul2 (mul2 gam gam) (mul2 gam gam))) (conj2 g5)).
Proof.
  intros. rewrite six_sum. repeat (rewrite ?fresh12, ?pow12_prod). rewrite w_p, <- !iota_pow, !pow2_p.
  generalize (conj2 g0) (conj2 g1) (conj2 g2) (conj2 g3) (conj2 g4) (conj2 g5) gam. clear. intros g0 g1 g2 g3 g4 g5 g.
  assert (S : forall x, mul12 (mul12 (iota g) w12) x = mul12 (iota g) (mul12 w12 x)) by (intros; ring). rewrite !S, !iota_is_six. rewrite <- !(iota_is_six g).
  repeat (rewrite ?w_six, ?six_add, ?iota_six). apply six_eq; ring.
Qed.

(** ** the constants of the table *)
Lemma fc_mod : forall a b, (a mod pBls =? b mod pBls) = true -> fc a = fc b.
Proof. intros a b H. apply ofZ_eq. apply Z.eqb_eq. exact H. Qed.
Ltac fcs := unfold gam, conj2, of1, norm2; rewrite ?mul2_def; cbn [A0 A1]; unfold fc; rewrite ?ofZ_opp, ?ofZ_mul, ?ofZ_sub, ?ofZ_add, ?ofZ_mul, ?ofZ_opp; fold (fc 0).
Lemma NR11 : nonResidues 1 1 = gam. Proof. apply E2_eq; apply fc_mod; vm_compute; reflexivity. Qed.
Ltac nr := cbn [nonResidues]; repeat (rewrite ?mul2_def; cbn [A0 A1]); unfold fc; repeat (rewrite ?ofZ_mul, ?ofZ_sub, ?ofZ_add); apply E2_eq; apply fc_mod; vm_compute; reflexivity.
Lemma NR12 : nonResidues 1 2 = mul2 gam gam. Proof. unfold gam. nr. Qed.
Lemma NR13 : nonResidues 1 3 = mul2 gam (mul2 gam gam). Proof. rewrite <- NR12. unfold gam. nr. Qed.
Lemma NR14 : nonResidues 1 4 = mul2 (mul2 gam gam) (mul2 gam gam). Proof. rewrite <- NR12. nr. Qed.
Lemma NR15 : nonResidues 1 5 = mul2 gam (mul2 (mul2 gam gam) (mul2 gam gam)). Proof. rewrite <- NR14. unfold gam. nr. Qed.
Theorem frobenius_ok : forall x, e12_frobenius x = pow12 x pBls.
Proof.
  intros x. rewrite (six_eta x) at 2. rewrite pow12_p. unfold e12_frobenius. cbv zeta. rewrite !e2_nr_k_ok, NR11, NR12, NR13, NR14, NR15. reflexivity.
Qed.
