(** * Props_Tower.v — C40, C48, C49: the extension tower of BLS12-381
    Specification (TowerSpec.v): Fp2 = Fp[u]/(u^2+1), Fp6 = Fp2[v]/(v^3-(1+u)), Fp12 = Fp6[w]/(w^2-v) with schoolbook products. *)
From Coq Require Import ZArith Znumtheory List Lia Ring.
From Verif Require Import PrimeTheory PrimeBls FieldZ TowerModel TowerSpec TowerRing TowerFrob TowerField CharP TowerPow TowerCyc FinalExp PairingModel MillerProofs.
Open Scope Z_scope.

(** ** C40: ring operations *)
Theorem C40_fp2_operations : forall x y : E2, forall a : Fp,
  e2_add x y = add2 x y /\ e2_sub x y = sub2 x y /\ e2_neg x = opp2 x /\ e2_mul x y = mul2 x y /\ e2_square x = mul2 x x /\ e2_double x = add2 x x /\
  e2_conjugate x = mkE2 (A0 x) (qopp (A1 x)) /\ e2_mul_by_element x a = mul2 x (of1 a) /\ e2_mul_by_non_residue x = mul2 xi x /\ mul2 xi (e2_mul_by_non_residue_inv x) = x /\
  e2_mul_by_b_twist x = mul2 (mkE2 (fc 4) (fc 4)) x /\ e2_one = one2 /\ e2_zero = zero2.
Proof.
  intros x y a. split; [apply e2_add_ok |]. split; [apply e2_sub_ok |]. split; [apply e2_neg_ok |]. split; [apply e2_mul_ok |]. split; [apply e2_square_ok |]. split; [apply e2_double_ok |].
  split; [reflexivity |]. split; [apply e2_el_ok |]. split; [apply e2_nr_ok |]. split; [apply e2_nr_inv_ok |]. split; [exact (b_twist_is x) |]. split; reflexivity.
Qed.
Theorem C40_fp6_operations : forall x y : E6, forall c0 c1 : E2,
  e6_add x y = add6 x y /\ e6_sub x y = sub6 x y /\ e6_neg x = opp6 x /\ e6_mul x y = mul6 x y /\ e6_square x = mul6 x x /\ e6_double x = add6 x x /\
  e6_mul_by_e2 x c0 = mul6 x (of2 c0) /\ e6_mul_by_01 x c0 c1 = mul6 x (mkE6 c0 c1 zero2) /\ e6_mul_by_1 x c1 = mul6 x (mkE6 zero2 c1 zero2) /\ e6_mul_by_non_residue x = mul6 v6 x.
Proof.
  intros x y c0 c1. split; [apply e6_add_ok |]. split; [apply e6_sub_ok |]. split; [apply e6_neg_ok |]. split; [apply e6_mul_ok |]. split; [apply e6_square_ok |]. split; [apply e6_double_ok |].
  split; [apply e6_mul_by_e2_ok |]. split; [apply e6_mul_by_01_ok |]. split; [apply e6_mul_by_1_ok |]. apply e6_nr_ok.
Qed.
Lemma mul_by_034_ok : forall z c0 c3 c4, e12_mul_by_034 z c0 c3 c4 = mul12 z (mkE12 (mkE6 c0 zero2 zero2) (mkE6 c3 c4 zero2)).
Proof.
  intros [a b] c0 c3 c4. unfold e12_mul_by_034. cbv zeta. cbn [C0 C1]. r6. rewrite mul12_def. unfold of2.
  assert (E : mkE6 (e2_add c0 c3) c4 zero2 = add6 (mkE6 c0 zero2 zero2) (mkE6 c3 c4 zero2)). { change e2_add with add2. rewrite add6_def. apply E6_eq; ring. }
  rewrite E. apply E12_eq; ring.
Qed.
Lemma mul_034_by_034_ok : forall d0 d3 d4 c0 c3 c4, e12_mul_034_by_034 d0 d3 d4 c0 c3 c4 = mul12 (mkE12 (mkE6 d0 zero2 zero2) (mkE6 d3 d4 zero2)) (mkE12 (mkE6 c0 zero2 zero2) (mkE6 c3 c4 zero2)).
Proof.
  intros. unfold e12_mul_034_by_034. cbv zeta. r2.
  change (mkE12 (mkE6 d0 zero2 zero2) (mkE6 d3 d4 zero2)) with (six d0 d3 zero2 d4 zero2 zero2). change (mkE12 (mkE6 c0 zero2 zero2) (mkE6 c3 c4 zero2)) with (six c0 c3 zero2 c4 zero2 zero2).
  rewrite six_mul. unfold six. apply E12_eq; apply E6_eq; ring.
Qed.
Theorem C40_fp12_operations : forall x y : E12,
  e12_mul x y = mul12 x y /\ e12_square x = mul12 x x /\ e12_conjugate x = mkE12 (C0 x) (opp6 (C1 x)) /\ e12_one = one12.
Proof. intros x y. split; [apply e12_mul_ok |]. split; [apply e12_square_ok |]. split; [apply e12_conj_ok | reflexivity]. Qed.
(** the sparse products used by the Miller loop: coefficients named by their position in (C0.B0, C0.B1, C0.B2, C1.B0, C1.B1, C1.B2) *)
Theorem C40_fp12_sparse : forall (z : E12) (c0 c1 c3 c4 d0 d1 d3 d4 : E2),
  e12_mul_by_034 z c0 c3 c4 = mul12 z (mkE12 (mkE6 c0 zero2 zero2) (mkE6 c3 c4 zero2)) /\
  mul_by_014 z c0 c1 c4 = mul12 z (mkE12 (mkE6 c0 c1 zero2) (mkE6 zero2 c4 zero2)) /\
  e12_mul_034_by_034 d0 d3 d4 c0 c3 c4 = mul12 (mkE12 (mkE6 d0 zero2 zero2) (mkE6 d3 d4 zero2)) (mkE12 (mkE6 c0 zero2 zero2) (mkE6 c3 c4 zero2)) /\
  mul_014_by_014 d0 d1 d4 c0 c1 c4 = mul12 (mkE12 (mkE6 d0 d1 zero2) (mkE6 zero2 d4 zero2)) (mkE12 (mkE6 c0 c1 zero2) (mkE6 zero2 c4 zero2)).
Proof. intros. split; [apply mul_by_034_ok |]. split; [apply mul_by_014_ok |]. split; [apply mul_034_by_034_ok | apply mul_014_by_014_ok]. Qed.
Theorem C40_select_and_equality : forall (s : bool) (x y : E2) (a b : E6) (c d : E12),
  e2_select s x y = (if s then x else y) /\ (e2_assert_eq x y <-> x = y) /\ (e6_assert_eq a b <-> a = b) /\ (e12_assert_eq c d <-> c = d).
Proof.
  assert (K2 : forall x y, e2_assert_eq x y <-> x = y). { intros [a b] [c d]. unfold e2_assert_eq. cbn [A0 A1]. split; [intros [-> ->]; reflexivity | intros E; injection E as -> ->; auto]. }
  assert (K6 : forall x y, e6_assert_eq x y <-> x = y). { intros [a b c] [d e f]. unfold e6_assert_eq. cbn [B0 B1 B2]. rewrite !K2. split; [intros (-> & -> & ->); reflexivity | intros E; injection E as -> -> ->; auto]. }
  intros s x y a b c d. split; [destruct s, x, y; reflexivity |]. split; [apply K2 |]. split; [apply K6 |]. destruct c as [c0 c1], d as [d0 d1]. unfold e12_assert_eq. cbn [C0 C1]. rewrite !K6. split; [intros [-> ->]; reflexivity | intros E; injection E as -> ->; auto].
Qed.
(** the specification rings are commutative rings in which every non-zero element has an inverse, i.e. fields *)
Theorem C40_fp2_is_a_field : ring_theory zero2 one2 add2 mul2 sub2 opp2 (@eq E2) /\ one2 <> zero2 /\ (forall x, x <> zero2 -> exists y, mul2 x y = one2).
Proof. split; [exact E2_ring |]. split; [exact one2_zero2 | exact inv2_exists]. Qed.
Theorem C40_fp6_is_a_field : ring_theory zero6 one6 add6 mul6 sub6 opp6 (@eq E6) /\ one6 <> zero6 /\ (forall x, x <> zero6 -> exists y, mul6 x y = one6).
Proof. split; [exact E6_ring |]. split; [| exact inv6_exists]. intros H. apply one2_zero2. exact (f_equal B0 H). Qed.
Theorem C40_fp12_is_a_field : ring_theory zero12 one12 add12 mul12 sub12 opp12 (@eq E12) /\ one12 <> zero12 /\ (forall x, x <> zero12 -> exists y, mul12 x y = one12).
Proof. split; [exact E12_ring |]. split; [exact one12_zero12 | exact inv12_exists]. Qed.
(** Inverse: the constraints accept exactly the inverse; a value exists exactly for non-zero inputs *)
Theorem C40_inverse : (forall x z, e2_inverse x z <-> mul2 x z = one2) /\ (forall x z, e6_inverse x z <-> mul6 x z = one6) /\ (forall x z, e12_inverse x z <-> mul12 x z = one12).
Proof. split; [exact e2_inverse_iff |]. split; [exact e6_inverse_iff | exact e12_inverse_iff]. Qed.
Theorem C40_inverse_satisfiable : (forall x, (exists z, e2_inverse x z) <-> x <> zero2) /\ (forall x, (exists z, e6_inverse x z) <-> x <> zero6) /\ (forall x, (exists z, e12_inverse x z) <-> x <> zero12).
Proof.
  split; [| split]; intros x; split.
  - intros [z H] ->. apply e2_inverse_iff in H. apply one2_zero2. rewrite <- H. ring.
  - intros H. destruct (inv2_exists x H) as [z Hz]. exists z. apply e2_inverse_iff. exact Hz.
  - intros [z H] ->. apply e6_inverse_iff in H. apply (proj1 (proj2 C40_fp6_is_a_field)). rewrite <- H. ring.
  - intros H. destruct (inv6_exists x H) as [z Hz]. exists z. apply e6_inverse_iff. exact Hz.
  - intros [z H] ->. apply e12_inverse_iff in H. apply one12_zero12. rewrite <- H. ring.
  - intros H. destruct (inv12_exists x H) as [z Hz]. exists z. apply e12_inverse_iff. exact Hz.
Qed.
Theorem C40_division_and_halving : forall x y z, (e2_div x y z <-> y <> zero2 /\ mul2 y z = x) /\ (e2_halve x z <-> add2 z z = x) /\ exists h, e2_halve x h.
Proof. intros x y z. split; [apply e2_div_iff |]. split; [apply halve_iff |]. destruct (half_ex x) as [h Hh]. exists h. apply halve_iff. exact Hh. Qed.
(** (1 + 2u)(3 + 4u) = -5 + 10u *)
Example C40_ex : e2_mul (mkE2 (fc 1) (fc 2)) (mkE2 (fc 3) (fc 4)) = mkE2 (fc (-5)) (fc 10).
Proof. rewrite e2_mul_ok, mul2_def. cbn [A0 A1]. apply E2_eq; ring. Qed.

(** ** C48: Frobenius maps *)
Theorem C48_frobenius : forall x, e12_frobenius x = pow12 x pBls. Proof. exact frobenius_ok. Qed.
Theorem C48_frobenius_square : forall x, e12_frobenius_square x = pow12 x (pBls * pBls). Proof. exact frobenius_square_ok. Qed.
Theorem C48_conjugate : forall x, e12_conjugate x = pow12 x (pBls ^ 6). Proof. intros. rewrite e12_conj_ok. apply conj12_pow. Qed.
Theorem C48_fp2_conjugate : forall x, e2_conjugate x = pow2 x pBls. Proof. intros. symmetry. exact (pow2_p x). Qed.
(** FrobeniusCube is NOT the third Frobenius power: it is the first one, and they differ already at w *)
Theorem C48_frobenius_cube_is_frobenius : forall x, e12_frobenius_cube x = pow12 x pBls. Proof. intros x. rewrite <- frobenius_ok. reflexivity. Qed.
Lemma zet_def : zet = mul2 gam (conj2 gam). Proof. reflexivity. Qed.
Theorem C48_frobenius_cube_refuted : e12_frobenius_cube w12 <> pow12 w12 (pBls * pBls * pBls).
Proof.
  rewrite C48_frobenius_cube_is_frobenius. rewrite pow12_mul by discriminate. change w12 with (six zero2 one2 zero2 zero2 zero2 zero2). rewrite pow12_p2, !pow12_p. intros H. apply six_inj in H. destruct H as (_ & H & _). 
  rewrite conj2_mul in H. assert (O : conj2 one2 = one2) by (rewrite one2_def; unfold conj2; cbn [A0 A1]; apply E2_eq; ring). rewrite O in H.
  assert (Z : conj2 zet = zet). { rewrite zet_def, conj2_mul, conj2_conj. ring. }
  rewrite Z in H. assert (G : mul2 gam (sub2 zet one2) = zero2) by (transitivity (sub2 (mul2 gam (mul2 zet one2)) (mul2 gam one2)); [ring | rewrite <- H; ring]).
  assert (Gn : gam <> zero2).
  { intros E. assert (E0 : zet = zero2) by (rewrite zet_def, E; ring). pose proof zet2 as Q. rewrite E0 in Q. apply one2_zero2. transitivity (sub2 zero2 (sub2 zero2 one2)); [ring |]. rewrite <- Q. ring. }
  apply dom2 in G; [| exact Gn]. apply zet_ne1. transitivity (add2 (sub2 zet one2) one2); [ring | rewrite G; ring].
Qed.

(** ** C49: the cyclotomic subgroup (elements with x^(p^4 - p^2 + 1) = 1) *)
Definition cyclotomic (x : E12) : Prop := pow12 x (pBls ^ 4 - pBls ^ 2 + 1) = one12.
Lemma cyclotomic_cyc : forall x, cyclotomic x <-> Cyc x.
Proof. intros x. unfold cyclotomic, Cyc, PhiBls. replace (pBls ^ 4 - pBls ^ 2 + 1) with (pBls * pBls * (pBls * pBls) - pBls * pBls + 1) by (generalize pBls; intros; ring). reflexivity. Qed.
Lemma easyN_def : easyN = (pBls ^ 6 - 1) * (pBls * pBls + 1). Proof. reflexivity. Qed.
(** membership is the condition phi^4(x) x = phi^2(x), and contains every x^((p^6-1)(p^2+1)) with x non-zero *)
Theorem C49_easy_part_is_cyclotomic : forall x, x <> zero12 -> cyclotomic (pow12 x ((pBls ^ 6 - 1) * (pBls * pBls + 1))).
Proof. intros x H. destruct (inv12_exists x H) as [i Hi]. rewrite <- easyN_def. exact (proj2 (cyclotomic_cyc _) (easy_cyc x i Hi)). Qed.
Theorem C49_inverse_is_conjugate : forall x, cyclotomic x -> mul12 x (e12_conjugate x) = one12.
Proof. intros x H. rewrite e12_conj_ok. apply cyc_conj. exact (proj1 (cyclotomic_cyc x) H). Qed.
Theorem C49_cyclotomic_square : forall x, cyclotomic x -> e12_cyclotomic_square x = mul12 x x.
Proof. intros x H. apply cyclotomic_square_ok. exact (proj1 (cyclotomic_cyc x) H). Qed.
(** outside the subgroup CyclotomicSquare is not squaring *)
Theorem C49_cyclotomic_square_outside : e12_cyclotomic_square zero12 = mul12 zero12 zero12 /\ e12_cyclotomic_square (mkE12 (of2 (add2 one2 one2)) zero6) <> mul12 (mkE12 (of2 (add2 one2 one2)) zero6) (mkE12 (of2 (add2 one2 one2)) zero6).
Proof.
  split.
  - unfold e12_cyclotomic_square. cbv zeta. change zero12 with (six zero2 zero2 zero2 zero2 zero2 zero2). rewrite six_mul. unfold six. cbn [B0 B1 B2 C0 C1]. r2. apply E12_eq; apply E6_eq; ring.
  - change (mkE12 (of2 (add2 one2 one2)) zero6) with (six (add2 one2 one2) zero2 zero2 zero2 zero2 zero2). rewrite six_mul. unfold e12_cyclotomic_square. cbv zeta. unfold six. cbn [B0 B1 B2 C0 C1]. r2.
    intros H. apply (f_equal (fun x => B0 (C0 x))) in H. cbn [B0 C0] in H. apply (four_ne0 one2 one2_zero2).
    match type of H with ?L = ?R => transitivity (sub2 L R); [ring | rewrite H; ring] end.
Qed.
(** n compressed squarings followed by DecompressKarabina give the 2^n-th power, for every satisfying assignment; one exists exactly
    when the coefficient C1.B0 of that power is non-zero (DecompressKarabina divides by it) *)
Theorem C49_compressed_squarings : forall x n r, cyclotomic x ->
  (e12_decompress_karabina (e12_n_square_compressed x n) r <-> B0 (C1 (pow12 x (2 ^ Z.of_nat n))) <> zero2 /\ r = pow12 x (2 ^ Z.of_nat n)).
Proof.
  intros x n r H. apply (proj1 (cyclotomic_cyc x)) in H. apply decompress_ok; [apply cyc_pow; [lia | exact H] | apply n_compressed_ok; [exact H | apply agree_refl]].
Qed.
Theorem C49_n_square : forall x n, cyclotomic x -> e12_n_square x n = pow12 x (2 ^ Z.of_nat n).
Proof. intros x n H. apply n_square_ok. exact (proj1 (cyclotomic_cyc x) H). Qed.
(** ExptHalf is the power x0/2 and Expt the power x0, x0 = -0xd201000000010000 (a negative exponent: the inverse, i.e. the conjugate) *)
Theorem C49_expt_half : forall x r, cyclotomic x ->
  (e12_expt_half x r <-> (B0 (C1 (pow12 x (2 ^ 15))) <> zero2 /\ B0 (C1 (pow12 x (2 ^ 47))) <> zero2) /\ mul12 r (pow12 x 0x6900800000008000) = one12).
Proof.
  intros x r H. apply (proj1 (cyclotomic_cyc x)) in H. rewrite (expt_half_iff x r H). unfold dec_ok. change (- x0 / 2) with 0x6900800000008000.
  assert (C : Cyc (pow12 x 0x6900800000008000)) by (apply cyc_pow; [discriminate | exact H]). split; intros [D E]; (split; [exact D |]).
  - rewrite E. transitivity (mul12 (pow12 x 0x6900800000008000) (conj12 (pow12 x 0x6900800000008000))); [ring | apply cyc_conj; exact C].
  - apply (inv12_unique (pow12 x 0x6900800000008000)); [rewrite <- E; ring | apply cyc_conj; exact C].
Qed.
Theorem C49_expt : forall x r, cyclotomic x ->
  (e12_expt x r <-> (B0 (C1 (pow12 x (2 ^ 15))) <> zero2 /\ B0 (C1 (pow12 x (2 ^ 47))) <> zero2) /\ mul12 r (pow12 x 0xd201000000010000) = one12).
Proof.
  intros x r H. apply (proj1 (cyclotomic_cyc x)) in H. rewrite <- (cp_1 x H) at 1. rewrite (expt_cp x 1 r H). unfold dec_ok. rewrite (cp_1 x H). rewrite Z.mul_1_l.
  assert (C : mul12 (cp x x0) (pow12 x 0xd201000000010000) = one12). { rewrite <- (cp_pow x 0xd201000000010000 H) by discriminate. rewrite cp_add by exact H. change (x0 + 0xd201000000010000) with 0. apply cp_0. }
  split; intros [D E]; (split; [exact D |]).
  - rewrite E. exact C.
  - apply (inv12_unique (pow12 x 0xd201000000010000)); [rewrite <- E; ring | rewrite <- C; ring].
Qed.
(** so ExptHalf and Expt reject the identity *)
Theorem C49_expt_rejects_one : forall r, ~ e12_expt one12 r /\ ~ e12_expt_half one12 r.
Proof.
  assert (K : cyclotomic one12) by exact (proj2 (cyclotomic_cyc _) cyc_one).
  intros r. split; intros H; [apply (C49_expt one12 r K) in H | apply (C49_expt_half one12 r K) in H]; destruct H as [[H _] _]; apply H; rewrite pow12_one; reflexivity.
Qed.
