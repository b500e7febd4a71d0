(** * G2Group.v — E'(Fp2) is an abelian group (instance of WGroup), and the properties of the field Fp2 it needs *)
From Coq Require Import ZArith NArith Lia Ring.
From Verif Require Import FieldZ PrimeBls TowerModel TowerSpec TowerRing TowerFrob TowerField PairingModel PairingSpec MillerProofs WSpec WGroup G2Spec.
Open Scope Z_scope.

Lemma inv2_ok x : x <> zero2 -> mul2 x (inv2 x) = one2.
Proof.
  intros N. assert (M : norm2 x <> fc 0) by (intros E; apply N; apply norm2_zero; exact E).
  destruct x as [a c]. unfold inv2. cbn [A0 A1]. change (qadd (qmul a a) (qmul c c)) with (norm2 (mkE2 a c)). pose proof (fp_inv _ M) as I.
  rewrite mul2_def, one2_def. cbn [A0 A1]. set (n := qinv (norm2 (mkE2 a c))) in *. apply E2_eq; [|ring]. rewrite <- I. unfold norm2. cbn [A0 A1]. ring.
Qed.
Lemma two2_ne : add2 one2 one2 <> zero2.
Proof. apply add2_self. apply one2_zero2. Qed.
Lemma small_ne a c : ((a mod pBls =? 0) && (c mod pBls =? 0) = false)%bool -> mkE2 (fc a) (fc c) <> zero2.
Proof.
  intros H E. rewrite zero2_def in E. apply Bool.andb_false_iff in H. destruct H as [H|H]; apply Z.eqb_neq in H; apply H.
  - apply (f_equal A0) in E. cbn [A0] in E. apply ofZ_eq in E. exact E.
  - apply (f_equal A1) in E. cbn [A1] in E. apply ofZ_eq in E. exact E.
Qed.
Lemma three2_ne : add2 one2 (add2 one2 one2) <> zero2.
Proof.
  intros E. rewrite one2_def, !add2_def in E. cbn [A0 A1] in E. apply (small_ne 3 0); [reflexivity|]. rewrite <- E. apply E2_eq; ring.
Qed.
Lemma b2_ne : bTwist <> zero2. Proof. apply small_ne. reflexivity. Qed.

(** the group *)
Lemma gadd_on P Q : on_g2 P -> on_g2 Q -> on_g2 (gadd P Q).
Proof. apply (add_on E2 _ _ _ _ _ _ _ dec2 bTwist E2_ring inv2_ok two2_ne). Qed.
Lemma gneg_on P : on_g2 P -> on_g2 (gneg P).
Proof. apply (neg_on E2 _ _ _ _ _ _ _ E2_ring). Qed.
Lemma gneg_neg P : gneg (gneg P) = P.
Proof. apply (neg_neg E2 _ _ _ _ _ _ E2_ring). Qed.
Lemma gadd_0_l P : gadd None P = P. Proof. reflexivity. Qed.
Lemma gadd_0_r P : gadd P None = P. Proof. destruct P as [[x y]|]; reflexivity. Qed.
Lemma gadd_neg P : gadd P (gneg P) = None.
Proof. apply (add_neg E2 _ _ _ _ _ _ _ dec2 E2_ring). Qed.
Lemma gadd_comm P Q : on_g2 P -> on_g2 Q -> gadd P Q = gadd Q P.
Proof. apply (add_comm E2 _ _ _ _ _ _ _ dec2 bTwist E2_ring inv2_ok two2_ne). Qed.
Lemma gneg_add P Q : on_g2 P -> on_g2 Q -> gneg (gadd P Q) = gadd (gneg P) (gneg Q).
Proof. apply (neg_add E2 _ _ _ _ _ _ _ dec2 bTwist E2_ring inv2_ok two2_ne). Qed.
Lemma gadd_assoc P Q R : on_g2 P -> on_g2 Q -> on_g2 R -> gadd (gadd P Q) R = gadd P (gadd Q R).
Proof. apply (add_assoc E2 _ _ _ _ _ _ _ dec2 bTwist E2_ring inv2_ok two2_ne three2_ne b2_ne). Qed.
Lemma gmul_0 P : gmul 0 P = None. Proof. reflexivity. Qed.
Lemma gmul_1 P : gmul 1 P = P. Proof. apply gadd_0_r. Qed.
Lemma gmul_succ n P : gmul (N.succ n) P = gadd P (gmul n P). Proof. apply mul_succ. Qed.
Lemma gmul_on n P : on_g2 P -> on_g2 (gmul n P).
Proof. apply (mul_on E2 _ _ _ _ _ _ _ dec2 bTwist E2_ring inv2_ok two2_ne). Qed.
Lemma gmul_add n m P : on_g2 P -> gmul (n + m) P = gadd (gmul n P) (gmul m P).
Proof. apply (mul_add E2 _ _ _ _ _ _ _ dec2 bTwist E2_ring inv2_ok two2_ne three2_ne b2_ne). Qed.
Lemma gmul_mul n m P : on_g2 P -> gmul (n * m) P = gmul n (gmul m P).
Proof. apply (mul_mul E2 _ _ _ _ _ _ _ dec2 bTwist E2_ring inv2_ok two2_ne three2_ne b2_ne). Qed.
Lemma gmul_padd n P Q : on_g2 P -> on_g2 Q -> gmul n (gadd P Q) = gadd (gmul n P) (gmul n Q).
Proof. apply (mul_padd E2 _ _ _ _ _ _ _ dec2 bTwist E2_ring inv2_ok two2_ne three2_ne b2_ne). Qed.
Lemma gmul_neg n P : on_g2 P -> gmul n (gneg P) = gneg (gmul n P).
Proof. apply (mul_neg E2 _ _ _ _ _ _ _ dec2 bTwist E2_ring inv2_ok two2_ne). Qed.
Lemma gmul_None n : gmul n None = None.
Proof. apply mul_None. Qed.
Lemma on_twist_aff Q : on_twist Q <-> on_g2 (aff Q).
Proof. unfold on_twist, on_g2, on_curve, aff. split; intros H; rewrite H; ring. Qed.
(** addition, from any slope *)
Definition oc2 (x y : E2) : Prop := mul2 y y = add2 (mul2 (mul2 x x) x) bTwist.
Lemma gadd_chord x1 y1 x2 y2 l : oc2 x1 y1 -> oc2 x2 y2 -> x1 <> x2 -> mul2 l (sub2 x2 x1) = sub2 y2 y1 ->
  gadd (Some (x1, y1)) (Some (x2, y2)) = Some (x3of l x1 x2, y3of l x1 y1 (x3of l x1 x2)).
Proof.
  intros H1 H2 N L. unfold x3of, y3of.
  apply (add_slope E2 zero2 one2 add2 mul2 sub2 opp2 inv2 dec2 bTwist E2_ring inv2_ok two2_ne x1 y1 x2 y2 l); try assumption.
  - intros [E _]. exact (N E).
  - split; [exact L|].
    pose proof (curve_factor E2 zero2 one2 add2 mul2 sub2 opp2 bTwist E2_ring x1 y1 x2 y2 H1 H2) as C.
    apply (kcancel E2 zero2 one2 add2 mul2 sub2 opp2 inv2 E2_ring inv2_ok (sub2 x2 x1)).
    + intros E. apply N. symmetry. apply (ksub0 E2 zero2 one2 add2 mul2 sub2 opp2 E2_ring x2 x1 E).
    + transitivity (mul2 (mul2 l (sub2 x2 x1)) (add2 y1 y2)); [ring|]. rewrite L. exact C.
Qed.
Lemma gadd_tangent x y l : oc2 x y -> y <> zero2 -> mul2 l (add2 y y) = mul2 (add2 one2 (add2 one2 one2)) (mul2 x x) ->
  gadd (Some (x, y)) (Some (x, y)) = Some (x3of l x x, y3of l x y (x3of l x x)).
Proof.
  intros H1 N L. unfold x3of, y3of.
  apply (add_slope E2 zero2 one2 add2 mul2 sub2 opp2 inv2 dec2 bTwist E2_ring inv2_ok two2_ne x y x y l); try assumption.
  - intros [_ E]. apply N. apply (self_opp E2 zero2 one2 add2 mul2 sub2 opp2 inv2 E2_ring inv2_ok two2_ne y E).
  - split; [ring|]. rewrite L. ring.
Qed.
Lemma gadd_opp x y : gadd (Some (x, y)) (Some (x, opp2 y)) = None.
Proof. exact (gadd_neg (Some (x, y))). Qed.
Lemma same_x2 x y y' : oc2 x y -> oc2 x y' -> y = y' \/ y = opp2 y'.
Proof. intros H1 H2. exact (same_x E2 zero2 one2 add2 mul2 sub2 opp2 inv2 dec2 bTwist E2_ring inv2_ok x y x y' H1 H2 eq_refl). Qed.
Lemma opp2_opp x : opp2 (opp2 x) = x. Proof. ring. Qed.
Lemma cancel2 c x y : c <> zero2 -> mul2 c x = mul2 c y -> x = y.
Proof. apply (kcancel E2 zero2 one2 add2 mul2 sub2 opp2 inv2 E2_ring inv2_ok). Qed.
Lemma sub2_0 x y : sub2 x y = zero2 -> x = y.
Proof. apply (ksub0 E2 zero2 one2 add2 mul2 sub2 opp2 E2_ring). Qed.
