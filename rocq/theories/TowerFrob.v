(** * TowerFrob.v — inverses, Frobenius maps and the cyclotomic subgroup of Fp12 *)
From Coq Require Import ZArith Znumtheory List Lia Ring.
From Verif Require Import PrimeTheory PrimeBls FieldZ TowerModel TowerSpec TowerRing CharP.
Open Scope Z_scope.

Lemma p_prime : prime pBls. Proof. exact prime_bls. Qed.

(** ** inverses: the relation of the circuit is exactly multiplicative inversion *)
Definition norm2 (x : E2) : Fp := qadd (qmul (A0 x) (A0 x)) (qmul (A1 x) (A1 x)).
Definition conj2 (x : E2) : E2 := mkE2 (A0 x) (qopp (A1 x)).
Lemma mul2_def : forall x y, mul2 x y = mkE2 (qsub (qmul (A0 x) (A0 y)) (qmul (A1 x) (A1 y))) (qadd (qmul (A0 x) (A1 y)) (qmul (A1 x) (A0 y))).
Proof. reflexivity. Qed.
Lemma one2_def : one2 = mkE2 (fc 1) (fc 0). Proof. reflexivity. Qed.
Lemma zero2_def : zero2 = mkE2 (fc 0) (fc 0). Proof. reflexivity. Qed.
Lemma add2_def : forall x y, add2 x y = mkE2 (qadd (A0 x) (A0 y)) (qadd (A1 x) (A1 y)). Proof. reflexivity. Qed.
Lemma opp2_def : forall x, opp2 x = mkE2 (qopp (A0 x)) (qopp (A1 x)). Proof. reflexivity. Qed.
Lemma xi_def : xi = mkE2 (fc 1) (fc 1). Proof. reflexivity. Qed.
Lemma norm2_mul : forall x y, norm2 (mul2 x y) = qmul (norm2 x) (norm2 y).
Proof. intros [a b] [c d]. rewrite mul2_def. unfold norm2. cbn [A0 A1]. ring. Qed.
Lemma conj2_norm : forall x, mul2 x (conj2 x) = of1 (norm2 x).
Proof. intros [a b]. rewrite mul2_def. unfold norm2, conj2, of1. cbn [A0 A1]. apply E2_eq; ring. Qed.

Lemma e2_inverse_sound : forall x z, e2_inverse x z -> mul2 x z = one2.
Proof.
  intros [a b] z (t & H & E). cbv zeta in E. unfold ret in E. subst z. unfold fp_inverse in H. cbn [A0 A1] in *.
  rewrite mul2_def, one2_def. cbn [A0 A1]. apply E2_eq.
  - rewrite <- H. ring.
  - ring.
Qed.
Lemma inv2_unique : forall x y z, mul2 x y = one2 -> mul2 x z = one2 -> y = z.
Proof.
  intros x y z Hy Hz. transitivity (mul2 y (mul2 x z)); [rewrite Hz; ring |]. transitivity (mul2 (mul2 x y) z); [ring | rewrite Hy; ring].
Qed.
Lemma inv2_norm : forall x y, mul2 x y = one2 -> qmul (norm2 y) (norm2 x) = fc 1.
Proof. intros x y H. apply (f_equal norm2) in H. rewrite norm2_mul in H. transitivity (qmul (norm2 x) (norm2 y)); [ring |]. rewrite H. rewrite one2_def. unfold norm2. cbn [A0 A1]. ring. Qed.
Theorem e2_inverse_iff : forall x z, e2_inverse x z <-> mul2 x z = one2.
Proof.
  intros x z. split; [apply e2_inverse_sound |]. intros H. pose proof (inv2_norm x z H) as N.
  assert (S : e2_inverse x (mkE2 (qmul (A0 x) (norm2 z)) (qopp (qmul (A1 x) (norm2 z))))).
  { exists (norm2 z). split; [exact N | reflexivity]. }
  rewrite (inv2_unique x z _ H (e2_inverse_sound _ _ S)). exact S.
Qed.

(** E6 *)
Definition adj6 (x : E6) : E6 :=
  mkE6 (sub2 (mul2 (B0 x) (B0 x)) (mul2 xi (mul2 (B1 x) (B2 x)))) (sub2 (mul2 xi (mul2 (B2 x) (B2 x))) (mul2 (B0 x) (B1 x))) (sub2 (mul2 (B1 x) (B1 x)) (mul2 (B0 x) (B2 x))).
Definition norm6 (x : E6) : E2 := B0 (mul6 x (adj6 x)).
Lemma adj6_norm : forall x, mul6 x (adj6 x) = of2 (norm6 x).
Proof. intros [a b c]. unfold norm6, adj6, of2. cbn [B0 B1 B2]. rewrite mul6_def. cbn [B0]. apply E6_eq; ring. Qed.
Lemma norm6_mul : forall x y, norm6 (mul6 x y) = mul2 (norm6 x) (norm6 y).
Proof. intros [a b c] [d e f]. unfold norm6, adj6. cbn [B0 B1 B2]. rewrite !mul6_def. cbn [B0 B1 B2]. ring. Qed.
Lemma norm6_one : norm6 one6 = one2.
Proof. unfold norm6, adj6, one6, of2. cbn [B0 B1 B2]. rewrite mul6_def. cbn [B0]. ring. Qed.
Lemma mul6_of2 : forall a x, mul6 (of2 a) x = mkE6 (mul2 a (B0 x)) (mul2 a (B1 x)) (mul2 a (B2 x)).
Proof. intros a [b c d]. unfold of2. rewrite mul6_def. cbn [B0 B1 B2]. apply E6_eq; ring. Qed.
Lemma of2_mul : forall a b, mul6 (of2 a) (of2 b) = of2 (mul2 a b).
Proof. intros. rewrite mul6_of2. unfold of2. cbn [B0 B1 B2]. apply E6_eq; ring. Qed.
Lemma inv6_unique : forall x y z, mul6 x y = one6 -> mul6 x z = one6 -> y = z.
Proof.
  intros x y z Hy Hz. transitivity (mul6 y (mul6 x z)); [rewrite Hz; ring |]. transitivity (mul6 (mul6 x y) z); [ring | rewrite Hy; ring].
Qed.
Theorem e6_inverse_iff : forall x z, e6_inverse x z <-> mul6 x z = one6.
Proof.
  assert (S : forall x z, e6_inverse x z <-> exists t, mul2 (norm6 x) t = one2 /\ z = mul6 (of2 t) (adj6 x)).
  { intros [a b c] z. unfold e6_inverse, bind, ret. cbv zeta. cbn [B0 B1 B2].
    split; intros (t & H & E); exists t; rewrite e2_inverse_iff in *; revert H E; r2; intros H E.
    - split.
      + rewrite <- H. apply f_equal2; [|reflexivity]. unfold norm6, adj6. cbn [B0 B1 B2]. rewrite mul6_def. cbn [B0]. ring.
      + subst z. rewrite mul6_of2. unfold adj6. cbn [B0 B1 B2]. apply E6_eq; ring.
    - split.
      + rewrite <- H. apply f_equal2; [|reflexivity]. unfold norm6, adj6. cbn [B0 B1 B2]. rewrite mul6_def. cbn [B0]. ring.
      + subst z. rewrite mul6_of2. unfold adj6. cbn [B0 B1 B2]. apply E6_eq; ring. }
  assert (D : forall x z, e6_inverse x z -> mul6 x z = one6).
  { intros x z H. apply S in H as (t & H & E). subst z. transitivity (mul6 (of2 t) (mul6 x (adj6 x))); [ring |].
    rewrite adj6_norm, of2_mul. unfold one6. f_equal. rewrite <- H. ring. }
  intros x z. split; [apply D |]. intros H. pose proof (f_equal norm6 H) as N. rewrite norm6_mul, norm6_one in N.
  assert (I : e6_inverse x (mul6 (of2 (norm6 z)) (adj6 x))) by (apply S; exists (norm6 z); auto).
  rewrite (inv6_unique x z _ H (D _ _ I)). exact I.
Qed.

(** E12 *)
Definition conj12 (x : E12) : E12 := mkE12 (C0 x) (opp6 (C1 x)).
Definition norm12 (x : E12) : E6 := sub6 (mul6 (C0 x) (C0 x)) (mul6 v6 (mul6 (C1 x) (C1 x))).
Lemma mul12_def : forall a b c d, mul12 (mkE12 a b) (mkE12 c d) = mkE12 (add6 (mul6 a c) (mul6 v6 (mul6 b d))) (add6 (mul6 a d) (mul6 b c)).
Proof. reflexivity. Qed.
Local Opaque add6 mul6 sub6 opp6 zero6 one6 v6.
Lemma conj12_norm : forall x, mul12 x (conj12 x) = of6 (norm12 x).
Proof. intros [a b]. unfold conj12, norm12, of6. cbn [C0 C1]. rewrite mul12_def. apply E12_eq; ring. Qed.
Lemma of6_mul : forall a b, mul12 (of6 a) (of6 b) = of6 (mul6 a b).
Proof. intros. unfold of6. rewrite mul12_def. apply E12_eq; ring. Qed.
Lemma conj12_mul : forall x y, conj12 (mul12 x y) = mul12 (conj12 x) (conj12 y).
Proof. intros [a b] [c d]. unfold conj12. cbn [C0 C1]. rewrite !mul12_def. cbn [C0 C1]. apply E12_eq; ring. Qed.
Lemma norm12_mul : forall x y, norm12 (mul12 x y) = mul6 (norm12 x) (norm12 y).
Proof. intros [a b] [c d]. unfold norm12. rewrite mul12_def. cbn [C0 C1]. ring. Qed.
Lemma norm12_one : norm12 one12 = one6.
Proof. unfold norm12, one12, of6. cbn [C0 C1]. ring. Qed.
Lemma conj12_one : conj12 one12 = one12.
Proof. unfold conj12, one12, of6. cbn [C0 C1]. apply E12_eq; ring. Qed.
Lemma conj12_conj : forall x, conj12 (conj12 x) = x.
Proof. intros [a b]. unfold conj12. cbn [C0 C1]. apply E12_eq; ring. Qed.
Lemma inv12_unique : forall x y z, mul12 x y = one12 -> mul12 x z = one12 -> y = z.
Proof.
  intros x y z Hy Hz. transitivity (mul12 y (mul12 x z)); [rewrite Hz; ring |]. transitivity (mul12 (mul12 x y) z); [ring | rewrite Hy; ring].
Qed.
Lemma e12_conj_ok : forall x, e12_conjugate x = conj12 x. Proof. intros. reflexivity. Qed.
Theorem e12_inverse_iff : forall x z, e12_inverse x z <-> mul12 x z = one12.
Proof.
  assert (S : forall x z, e12_inverse x z <-> exists t, mul6 (norm12 x) t = one6 /\ z = mul12 (of6 t) (conj12 x)).
  { intros [a b] z. unfold e12_inverse, bind, ret. cbv zeta. cbn [C0 C1].
    split; intros (t & H & E); exists t; rewrite e6_inverse_iff in *; revert H E; r6; intros H E.
    - split; [exact H |]. subst z. unfold of6, conj12. cbn [C0 C1]. rewrite mul12_def. apply E12_eq; ring.
    - split; [exact H |]. subst z. unfold of6, conj12. cbn [C0 C1]. rewrite mul12_def. apply E12_eq; ring. }
  assert (D : forall x z, e12_inverse x z -> mul12 x z = one12).
  { intros x z H. apply S in H as (t & H & E). subst z. transitivity (mul12 (of6 t) (mul12 x (conj12 x))); [ring |].
    rewrite conj12_norm, of6_mul. unfold one12. f_equal. rewrite <- H. ring. }
  intros x z. split; [apply D |]. intros H. pose proof (f_equal norm12 H) as N. rewrite norm12_mul, norm12_one in N.
  assert (I : e12_inverse x (mul12 (of6 (norm12 z)) (conj12 x))) by (apply S; exists (norm12 z); auto).
  rewrite (inv12_unique x z _ H (D _ _ I)). exact I.
Qed.
