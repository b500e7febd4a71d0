(** * TowerRing.v — ring structure of the tower (specification side) and the tower.go operations as ring operations *)
From Coq Require Import ZArith List Lia Ring.
From Verif Require Import PrimeTheory FieldZ TowerModel TowerSpec.
Open Scope Z_scope.

Lemma Fp_ring : @ring_theory (Fq pBls) (fc 0) (fc 1) (@qadd pBls) (@qmul pBls) (@qsub pBls) (@qopp pBls) (@eq (Fq pBls)).
Proof. exact (Fq_ring pBls). Qed.
Lemma Fp_morph : @ring_morph (Fq pBls) (fc 0) (fc 1) (@qadd pBls) (@qmul pBls) (@qsub pBls) (@qopp pBls) (@eq (Fq pBls)) Z 0 1 Z.add Z.mul Z.sub Z.opp Z.eqb fc.
Proof.
  constructor; intros; unfold fc; try reflexivity; symmetry; try apply ofZ_add; try apply ofZ_mul; try apply ofZ_sub; try apply ofZ_opp.
  apply Z.eqb_eq in H. rewrite H. reflexivity.
Qed.
Ltac fc_cst t := match t with fc ?z => match isZcst z with true => z | _ => constr:(NotConstant) end | _ => constr:(NotConstant) end.
Add Ring Fpr : Fp_ring (morphism Fp_morph, constants [fc_cst]).

Lemma E2_eq : forall a b c d, a = c -> b = d -> mkE2 a b = mkE2 c d. Proof. intros; subst; reflexivity. Qed.
Lemma E6_eq : forall a b c d e f, a = d -> b = e -> c = f -> mkE6 a b c = mkE6 d e f. Proof. intros; subst; reflexivity. Qed.
Lemma E12_eq : forall a b c d, a = c -> b = d -> mkE12 a b = mkE12 c d. Proof. intros; subst; reflexivity. Qed.
Ltac e2_all := repeat match goal with x : E2 |- _ => let a := fresh "a" in let b := fresh "b" in destruct x as [a b] end.
Ltac e6_all := repeat match goal with x : E6 |- _ => let a := fresh "a" in let b := fresh "b" in let c := fresh "c" in destruct x as [a b c] end.
Ltac e12_all := repeat match goal with x : E12 |- _ => let a := fresh "a" in let b := fresh "b" in destruct x as [a b] end.

Lemma E2_ring : ring_theory zero2 one2 add2 mul2 sub2 opp2 (@eq E2).
Proof. constructor; intros; e2_all; unfold zero2, one2, of1, add2, mul2, sub2, opp2; cbn [A0 A1]; apply E2_eq; ring. Qed.
Add Ring E2r : E2_ring.
Ltac m2 := intros; e2_all; unfold e2_mul_by_element, e2_conjugate, e2_mul, e2_mul_by_nr, e2_mul_by_non_residue, e2_mul_by_non_residue_inv, e2_add, e2_sub, e2_neg, e2_one, e2_zero, e2_square, e2_double, e2_mul_by_b_twist, zero2, one2, of1, xi, u2, add2, mul2, sub2, opp2; cbn [A0 A1]; try apply E2_eq; try ring.
Lemma e2_mul_ok : forall x y, e2_mul x y = mul2 x y. Proof. m2. Qed.
Lemma e2_add_ok : forall x y, e2_add x y = add2 x y. Proof. m2. Qed.
Lemma e2_sub_ok : forall x y, e2_sub x y = sub2 x y. Proof. m2. Qed.
Lemma e2_neg_ok : forall x, e2_neg x = opp2 x. Proof. m2. Qed.
Lemma e2_square_ok : forall x, e2_square x = mul2 x x. Proof. m2. Qed.
Lemma e2_double_ok : forall x, e2_double x = add2 x x. Proof. m2. Qed.
Lemma nr01 : nonResidues 0 1 = xi. Proof. reflexivity. Qed.
Lemma e2_nr_ok : forall x, e2_mul_by_non_residue x = mul2 xi x. Proof. intros. unfold e2_mul_by_non_residue, e2_mul_by_nr. rewrite nr01. rewrite e2_mul_ok. ring. Qed.
Lemma e2_nr_k_ok : forall x i j, e2_mul_by_nr x i j = mul2 (nonResidues i j) x.
Proof. intros. unfold e2_mul_by_nr. rewrite e2_mul_ok. ring. Qed.
Lemma e2_el_ok : forall x a, e2_mul_by_element x a = mul2 x (of1 a). Proof. m2. Qed.
Lemma e2_one_ok : e2_one = one2. Proof. reflexivity. Qed.
Lemma e2_zero_ok : e2_zero = zero2. Proof. reflexivity. Qed.
Lemma e2_twist_ok : forall x, e2_mul_by_b_twist x = mul2 (add2 (add2 xi xi) (add2 xi xi)) x. Proof. intros. unfold e2_mul_by_b_twist. rewrite !e2_double_ok. m2. Qed.
Lemma half_const : qmul (fc 2001204777610833696708894912867952078278441409969503942666029068062015825245418932221343814564507832018947136279894) (fc 2) = fc 1.
Proof. unfold fc. rewrite ofZ_mul. apply ofZ_eq. vm_compute. reflexivity. Qed.
Lemma e2_nr_inv_ok : forall x, mul2 xi (e2_mul_by_non_residue_inv x) = x.
Proof.
  intros [a b]. pose proof half_const as H. unfold e2_mul_by_non_residue_inv, e2_mul_by_nr, nonResidues, e2_mul, xi, mul2. cbn [A0 A1].
  match type of H with qmul ?h _ = _ => set (h0 := h) in * end. clearbody h0.
  apply E2_eq.
  - transitivity (qmul a (qmul h0 (fc 2))); [ring | rewrite H; ring].
  - transitivity (qmul b (qmul h0 (fc 2))); [ring | rewrite H; ring].
Qed.
Global Opaque add2 mul2 sub2 opp2 xi zero2 one2 e2_mul e2_add e2_sub e2_neg e2_square e2_double e2_mul_by_non_residue e2_one e2_zero.

Lemma E6_ring : ring_theory zero6 one6 add6 mul6 sub6 opp6 (@eq E6).
Proof. constructor; intros; e6_all; unfold zero6, one6, of2, add6, mul6, sub6, opp6; cbn [B0 B1 B2]; apply E6_eq; ring. Qed.
Add Ring E6r : E6_ring.
Global Hint Rewrite e2_mul_ok e2_square_ok e2_double_ok e2_nr_ok : tw2.
Ltac r2 := change e2_add with add2; change e2_sub with sub2; change e2_neg with opp2; change e2_one with one2; change e2_zero with zero2; autorewrite with tw2.
Ltac m6 := intros; e6_all; unfold e6_add, e6_sub, e6_neg, e6_mul, e6_double, e6_square, e6_mul_by_e2, e6_mul_by_1, e6_mul_by_01, e6_mul_by_non_residue; cbv zeta; cbn [B0 B1 B2]; r2;
  unfold v6, zero6, one6, of2, add6, mul6, sub6, opp6; cbn [B0 B1 B2]; try apply E6_eq; try ring.
Lemma e6_add_ok : forall x y, e6_add x y = add6 x y. Proof. m6. Qed.
Lemma e6_sub_ok : forall x y, e6_sub x y = sub6 x y. Proof. m6. Qed.
Lemma e6_neg_ok : forall x, e6_neg x = opp6 x. Proof. m6. Qed.
Lemma e6_mul_ok : forall x y, e6_mul x y = mul6 x y. Proof. m6. Qed.
Lemma e6_double_ok : forall x, e6_double x = add6 x x. Proof. m6. Qed.
Lemma e6_square_ok : forall x, e6_square x = mul6 x x. Proof. m6. Qed.
Lemma e6_mul_by_e2_ok : forall x y, e6_mul_by_e2 x y = mul6 x (of2 y). Proof. m6. Qed.
Lemma e6_mul_by_1_ok : forall x c1, e6_mul_by_1 x c1 = mul6 x (mkE6 zero2 c1 zero2). Proof. m6. Qed.
Lemma e6_mul_by_01_ok : forall x c0 c1, e6_mul_by_01 x c0 c1 = mul6 x (mkE6 c0 c1 zero2). Proof. m6. Qed.
Lemma e6_nr_ok : forall x, e6_mul_by_non_residue x = mul6 v6 x. Proof. m6. Qed.
Lemma add6_def : forall a b c d e f, add6 (mkE6 a b c) (mkE6 d e f) = mkE6 (add2 a d) (add2 b e) (add2 c f). Proof. reflexivity. Qed.
Lemma sub6_def : forall a b c d e f, sub6 (mkE6 a b c) (mkE6 d e f) = mkE6 (sub2 a d) (sub2 b e) (sub2 c f). Proof. reflexivity. Qed.
Lemma opp6_def : forall a b c, opp6 (mkE6 a b c) = mkE6 (opp2 a) (opp2 b) (opp2 c). Proof. reflexivity. Qed.
Lemma mul6_def : forall a b c d e f, mul6 (mkE6 a b c) (mkE6 d e f) =
  mkE6 (add2 (mul2 a d) (mul2 xi (add2 (mul2 b f) (mul2 c e)))) (add2 (add2 (mul2 a e) (mul2 b d)) (mul2 xi (mul2 c f))) (add2 (add2 (mul2 a f) (mul2 b e)) (mul2 c d)).
Proof. reflexivity. Qed.

Lemma E12_ring : ring_theory zero12 one12 add12 mul12 sub12 opp12 (@eq E12).
Proof.
  Local Opaque add6 mul6 sub6 opp6 zero6 one6 v6.
  constructor; intros; e12_all; unfold zero12, one12, of6, add12, mul12, sub12, opp12; cbn [C0 C1]; apply E12_eq; ring.
Qed.
Add Ring E12r : E12_ring.
Global Hint Rewrite e6_mul_ok e6_square_ok e6_double_ok e6_nr_ok e6_mul_by_e2_ok e6_mul_by_1_ok e6_mul_by_01_ok : tw6.
Ltac r6 := change e6_add with add6; change e6_sub with sub6; change e6_neg with opp6; autorewrite with tw6.
Ltac m12 := intros; e12_all; unfold e12_conjugate, e12_mul, e12_square, e12_mul_by_034; cbv zeta; cbn [C0 C1]; r6;
  unfold zero12, one12, of6, add12, mul12, sub12, opp12; cbn [C0 C1]; try apply E12_eq; try ring.
Lemma e12_mul_ok : forall x y, e12_mul x y = mul12 x y. Proof. m12. Qed.
Lemma e12_square_ok : forall x, e12_square x = mul12 x x. Proof. m12. Qed.
Lemma e12_one_ok : e12_one = one12. Proof. reflexivity. Qed.
