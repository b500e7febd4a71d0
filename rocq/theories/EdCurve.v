(** * EdCurve.v — the affine twisted Edwards group a x^2 + y^2 = 1 + d x^2 y^2 over any field where a is a non-zero square,
    d is not a square and 2 <> 0 (specification of ed25519's curve arithmetic and proof that it is an abelian group) *)
From Coq Require Import Setoid Field Ring List Lia Arith.
Import ListNotations.

Section Ed.
Variable F : Type.
Variables (F0 F1 : F) (fadd fmul fsub : F -> F -> F) (fopp : F -> F) (fdiv : F -> F -> F) (finv : F -> F).
Hypothesis FT : field_theory F0 F1 fadd fmul fsub fopp fdiv finv (@eq F).
Hypothesis F_dec : forall x y : F, {x = y} + {x <> y}.
Declare Scope F_scope.
Delimit Scope F_scope with F.
Local Notation "0" := F0 : F_scope. Local Notation "1" := F1 : F_scope.
Local Infix "+" := fadd : F_scope. Local Infix "*" := fmul : F_scope. Local Infix "-" := fsub : F_scope. Local Infix "/" := fdiv : F_scope.
Local Notation "- x" := (fopp x) : F_scope.
Local Open Scope F_scope.
Add Field FFld : FT.

Variables (a sa d : F).
Hypothesis a_square : sa * sa = a.
Hypothesis a_nz : a <> 0.
Hypothesis d_nonsquare : forall x, x * x <> d.
Hypothesis two_nz : 1 + 1 <> 0.

Lemma mul_zero : forall x y, x * y = 0 -> x = 0 \/ y = 0.
Proof.
  intros x y H. destruct (F_dec x 0) as [E | N]; [left; exact E | right].
  transitivity (finv x * (x * y)); [field; exact N | rewrite H; ring].
Qed.
Lemma mul_nz : forall x y, x <> 0 -> y <> 0 -> x * y <> 0.
Proof. intros x y Hx Hy H. apply mul_zero in H. tauto. Qed.
Lemma one_nz : 1 <> 0. Proof. exact (F_1_neq_0 FT). Qed.
Lemma d_nz : d <> 0. Proof. intros E. apply (d_nonsquare 0). rewrite E. ring. Qed.
Lemma mul_cancel : forall z x y, z <> 0 -> x * z = y * z -> x = y.
Proof. intros z x y Hz H. transitivity ((x * z) / z); [field; exact Hz | rewrite H; field; exact Hz]. Qed.
Lemma sub_zero : forall x y, x - y = 0 -> x = y.
Proof. intros x y H. transitivity (x - y + y); [ring | rewrite H; ring]. Qed.
(** a square root would make d a square *)
Lemma no_root : forall u v, v <> 0 -> u * u <> d * (v * v).
Proof.
  intros u v Hv H. apply (d_nonsquare (u / v)). transitivity ((u * u) / (v * v)); [field; exact Hv | rewrite H; field; exact Hv].
Qed.

Definition pt : Type := (F * F)%type.
Definition on_curve (P : pt) : Prop := let '(x, y) := P in a * (x * x) + y * y = 1 + d * (x * x) * (y * y).
(** the twisted Edwards addition law (Bernstein-Birkner-Joye-Lange-Peters) *)
Definition padd (P Q : pt) : pt :=
  let '(x1, y1) := P in let '(x2, y2) := Q in
  ((x1 * y2 + y1 * x2) / (1 + d * x1 * x2 * y1 * y2), (y1 * y2 - a * x1 * x2) / (1 - d * x1 * x2 * y1 * y2)).
Definition pzero : pt := (0, 1).
Definition popp (P : pt) : pt := let '(x, y) := P in (- x, y).
Fixpoint smul (n : nat) (P : pt) : pt := match n with O => pzero | S k => padd P (smul k P) end.

(** ** Completeness *)
Lemma eps_square : forall x1 y1 x2 y2, on_curve (x1, y1) -> on_curve (x2, y2) -> (d * x1 * x2 * y1 * y2) * (d * x1 * x2 * y1 * y2) <> 1.
Proof.
  intros x1 y1 x2 y2 H1 H2. cbn [on_curve] in H1, H2. set (e := d * x1 * x2 * y1 * y2). intros E.
  assert (NZ : e <> 0). { intros Z. rewrite Z in E. apply one_nz. rewrite <- E. ring. }
  assert (X1 : x1 <> 0) by (intros Z; apply NZ; unfold e; rewrite Z; ring). assert (Y1 : y1 <> 0) by (intros Z; apply NZ; unfold e; rewrite Z; ring).
  assert (Y2 : y2 <> 0) by (intros Z; apply NZ; unfold e; rewrite Z; ring).
  assert (Q : d * (x1 * x1) * (y1 * y1) * (a * (x2 * x2) + y2 * y2) = a * (x1 * x1) + y1 * y1).
  { rewrite H2, H1. transitivity (d * (x1 * x1) * (y1 * y1) + e * e); [unfold e; ring | rewrite E; ring]. }
  assert (P : (sa * x1 + e * y1) * (sa * x1 + e * y1) = d * ((x1 * y1 * (sa * x2 + y2)) * (x1 * y1 * (sa * x2 + y2)))).
  { transitivity ((sa * sa) * (x1 * x1) + (e * e) * (y1 * y1) + (1 + 1) * e * sa * x1 * y1); [ring |]. rewrite a_square, E.
    transitivity (a * (x1 * x1) + y1 * y1 + (1 + 1) * e * sa * x1 * y1); [ring |]. rewrite <- Q. rewrite <- a_square. unfold e. ring. }
  assert (M : (sa * x1 - e * y1) * (sa * x1 - e * y1) = d * ((x1 * y1 * (sa * x2 - y2)) * (x1 * y1 * (sa * x2 - y2)))).
  { transitivity ((sa * sa) * (x1 * x1) + (e * e) * (y1 * y1) - (1 + 1) * e * sa * x1 * y1); [ring |]. rewrite a_square, E.
    transitivity (a * (x1 * x1) + y1 * y1 - (1 + 1) * e * sa * x1 * y1); [ring |]. rewrite <- Q. rewrite <- a_square. unfold e. ring. }
  destruct (F_dec (sa * x2 + y2) 0) as [Z1 | N1].
  - destruct (F_dec (sa * x2 - y2) 0) as [Z2 | N2].
    + apply (mul_nz (1 + 1) y2 two_nz Y2). transitivity ((sa * x2 + y2) - (sa * x2 - y2)); [ring | rewrite Z1, Z2; ring].
    + apply (no_root _ (x1 * y1 * (sa * x2 - y2))) in M; [exact M |]. apply mul_nz; [apply mul_nz; auto | exact N2].
  - apply (no_root _ (x1 * y1 * (sa * x2 + y2))) in P; [exact P |]. apply mul_nz; [apply mul_nz; auto | exact N1].
Qed.
Lemma den_plus : forall x1 y1 x2 y2, on_curve (x1, y1) -> on_curve (x2, y2) -> 1 + d * x1 * x2 * y1 * y2 <> 0.
Proof.
  intros x1 y1 x2 y2 H1 H2 E. apply (eps_square x1 y1 x2 y2 H1 H2). set (e := d * x1 * x2 * y1 * y2) in *.
  assert (e = - (1)) by (transitivity (1 + e - 1); [ring | rewrite E; ring]). rewrite H. ring.
Qed.
Lemma den_minus : forall x1 y1 x2 y2, on_curve (x1, y1) -> on_curve (x2, y2) -> 1 - d * x1 * x2 * y1 * y2 <> 0.
Proof.
  intros x1 y1 x2 y2 H1 H2 E. apply (eps_square x1 y1 x2 y2 H1 H2). set (e := d * x1 * x2 * y1 * y2) in *.
  assert (e = 1) by (transitivity (1 - (1 - e)); [ring | rewrite E; ring]). rewrite H. ring.
Qed.

(** the coordinates of a sum are determined by the two division equations *)
Lemma padd_unique : forall x1 y1 x2 y2 x y, on_curve (x1, y1) -> on_curve (x2, y2) ->
  x * (1 + d * x1 * x2 * y1 * y2) = x1 * y2 + y1 * x2 -> y * (1 - d * x1 * x2 * y1 * y2) = y1 * y2 - a * x1 * x2 -> (x, y) = padd (x1, y1) (x2, y2).
Proof.
  intros x1 y1 x2 y2 x y H1 H2 Ex Ey. unfold padd. pose proof (den_plus _ _ _ _ H1 H2). pose proof (den_minus _ _ _ _ H1 H2). apply f_equal2.
  - rewrite <- Ex. field. auto.
  - rewrite <- Ey. field. auto.
Qed.
Lemma padd_eqs : forall x1 y1 x2 y2 x y, on_curve (x1, y1) -> on_curve (x2, y2) -> (x, y) = padd (x1, y1) (x2, y2) ->
  x * (1 + d * x1 * x2 * y1 * y2) = x1 * y2 + y1 * x2 /\ y * (1 - d * x1 * x2 * y1 * y2) = y1 * y2 - a * x1 * x2.
Proof.
  intros x1 y1 x2 y2 x y H1 H2 E. pose proof (den_plus _ _ _ _ H1 H2). pose proof (den_minus _ _ _ _ H1 H2). unfold padd in E.
  assert (Ex : x = (x1 * y2 + y1 * x2) / (1 + d * x1 * x2 * y1 * y2)) by congruence.
  assert (Ey : y = (y1 * y2 - a * x1 * x2) / (1 - d * x1 * x2 * y1 * y2)) by congruence. rewrite Ex, Ey. split; field; auto.
Qed.

(** the doubling formula of the code: denominators y^2 + a x^2 and 2 - (y^2 + a x^2) *)
Lemma double_eqs : forall x y x2 y2, on_curve (x, y) ->
  (x2 * (y * y + x * x * a) = (1 + 1) * (x * y) /\ y2 * ((1 + 1) - (y * y + x * x * a)) = y * y - x * x * a <-> (x2, y2) = padd (x, y) (x, y)).
Proof.
  intros x y x2 y2 H. assert (C := H). cbn [on_curve] in C.
  assert (D : y * y + x * x * a = 1 + d * x * x * y * y) by (transitivity (a * (x * x) + y * y); [ring | rewrite C; ring]).
  rewrite D. replace ((1 + 1) - (1 + d * x * x * y * y)) with (1 - d * x * x * y * y) by ring.
  replace ((1 + 1) * (x * y)) with (x * y + y * x) by ring. replace (y * y - x * x * a) with (y * y - a * x * x) by ring.
  split; [intros [E1 E2]; apply padd_unique; assumption | intros E; apply padd_eqs; assumption].
Qed.

(** ** Group laws *)
Lemma zero_on : on_curve pzero. Proof. cbn [on_curve pzero]. ring. Qed.
Lemma opp_on : forall P, on_curve P -> on_curve (popp P).
Proof. intros [x y] H. cbn [on_curve popp] in *. transitivity (a * (x * x) + y * y); [ring | rewrite H; ring]. Qed.
Lemma padd_comm : forall P Q, padd P Q = padd Q P.
Proof.
  intros [x1 y1] [x2 y2]. unfold padd. replace (d * x2 * x1 * y2 * y1) with (d * x1 * x2 * y1 * y2) by ring.
  replace (x2 * y1 + y2 * x1) with (x1 * y2 + y1 * x2) by ring. replace (y2 * y1 - a * x2 * x1) with (y1 * y2 - a * x1 * x2) by ring. reflexivity.
Qed.
Lemma padd_0_l : forall P, padd pzero P = P.
Proof. intros [x y]. unfold padd, pzero. apply f_equal2; field; [intros E; apply one_nz; rewrite <- E; ring | intros E; apply one_nz; rewrite <- E; ring]. Qed.
Lemma padd_0_r : forall P, padd P pzero = P. Proof. intros. rewrite padd_comm. apply padd_0_l. Qed.
Lemma padd_opp : forall P, on_curve P -> padd P (popp P) = pzero.
Proof.
  intros [x y] H. symmetry. apply padd_unique; [exact H | apply opp_on in H; exact H | ring |].
  cbn [on_curve] in H. transitivity (1 + d * (x * x) * (y * y)); [ring | rewrite <- H; ring].
Qed.
(** ring identities modulo the curve equations: x_i^2 y_i^2 is rewritten with 1/d *)
Lemma curve_rule : forall x y, on_curve (x, y) -> forall e, d * e = 1 -> x * x * (y * y) = e * a * (x * x) + e * (y * y) - e.
Proof.
  intros x y H e He. cbn [on_curve] in H. transitivity (e * (1 + d * (x * x) * (y * y)) - e).
  - transitivity ((d * e) * (x * x * (y * y))); [rewrite He; ring | ring].
  - rewrite <- H. ring.
Qed.
Lemma padd_on : forall P Q, on_curve P -> on_curve Q -> on_curve (padd P Q).
Proof.
  intros [x1 y1] [x2 y2] H1 H2. destruct (padd (x1, y1) (x2, y2)) as [x y] eqn:E. symmetry in E. apply padd_eqs in E as [Ex Ey]; auto.
  pose proof (den_plus _ _ _ _ H1 H2) as DP. pose proof (den_minus _ _ _ _ H1 H2) as DM. set (v := d * x1 * x2 * y1 * y2) in *.
  cbn [on_curve]. apply (mul_cancel (((1 + v) * (1 + v)) * ((1 - v) * (1 - v)))); [apply mul_nz; apply mul_nz; auto |].
  transitivity (a * ((x * (1 + v)) * (x * (1 + v))) * ((1 - v) * (1 - v)) + ((y * (1 - v)) * (y * (1 - v))) * ((1 + v) * (1 + v))); [ring |].
  transitivity (((1 + v) * (1 + v)) * ((1 - v) * (1 - v)) + d * ((x * (1 + v)) * (x * (1 + v))) * ((y * (1 - v)) * (y * (1 - v)))); [| ring].
  rewrite Ex, Ey. unfold v.
  assert (DE : d * finv d = 1) by (field; apply d_nz). set (e := finv d) in *.
  pose proof (curve_rule x1 y1 H1 e DE) as R1. pose proof (curve_rule x2 y2 H2 e DE) as R2. clearbody e.
  clear - FT DE R1 R2. ring [R1 R2 DE].
Qed.
(** numerators and denominators of a threefold sum *)
Lemma padd_assoc : forall P Q R, on_curve P -> on_curve Q -> on_curve R -> padd P (padd Q R) = padd (padd P Q) R.
Proof.
  intros [x1 y1] [x2 y2] [x3 y3] H1 H2 H3.
  pose proof (padd_on _ _ H1 H2) as H12. pose proof (padd_on _ _ H2 H3) as H23.
  destruct (padd (x1, y1) (x2, y2)) as [x12 y12] eqn:E12. destruct (padd (x2, y2) (x3, y3)) as [x23 y23] eqn:E23.
  symmetry in E12, E23. apply padd_eqs in E12 as [Ex12 Ey12]; auto. apply padd_eqs in E23 as [Ex23 Ey23]; auto.
  pose proof (den_plus _ _ _ _ H1 H2) as A1. pose proof (den_minus _ _ _ _ H1 H2) as A2.
  pose proof (den_plus _ _ _ _ H2 H3) as B1. pose proof (den_minus _ _ _ _ H2 H3) as B2.
  pose proof (den_plus _ _ _ _ H12 H3) as C1. pose proof (den_minus _ _ _ _ H12 H3) as C2.
  destruct (padd (x1, y1) (x23, y23)) as [x y] eqn:E. symmetry in E. apply padd_eqs in E as [Ex Ey]; auto.
  pose proof (den_plus _ _ _ _ H1 H23) as D1. pose proof (den_minus _ _ _ _ H1 H23) as D2.
  apply padd_unique; auto.
  - set (v := d * x1 * x2 * y1 * y2) in *. set (w := d * x2 * x3 * y2 * y3) in *.
    apply (mul_cancel ((1 + v) * (1 - v) * ((1 + d * x1 * x23 * y1 * y23) * ((1 + w) * (1 - w))))); [repeat apply mul_nz; auto |].
    transitivity ((x * (1 + d * x1 * x23 * y1 * y23)) * ((1 + w) * (1 - w)) * ((1 + v) * (1 - v) + d * (x12 * (1 + v)) * x3 * (y12 * (1 - v)) * y3)); [ring |].
    rewrite Ex.
    transitivity ((x1 * (y23 * (1 - w)) * (1 + w) + y1 * (x23 * (1 + w)) * (1 - w)) * ((1 + v) * (1 - v) + d * (x12 * (1 + v)) * x3 * (y12 * (1 - v)) * y3)); [ring |].
    transitivity (((x12 * (1 + v)) * y3 * (1 - v) + (y12 * (1 - v)) * x3 * (1 + v)) * ((1 + w) * (1 - w) + d * x1 * (x23 * (1 + w)) * y1 * (y23 * (1 - w)))); [| ring].
    rewrite Ex12, Ey12, Ex23, Ey23. unfold v, w.
    assert (DE : d * finv d = 1) by (field; apply d_nz). set (e := finv d) in *.
    pose proof (curve_rule x1 y1 H1 e DE) as R1. pose proof (curve_rule x2 y2 H2 e DE) as R2. pose proof (curve_rule x3 y3 H3 e DE) as R3. clearbody e.
    clear - FT DE R1 R2 R3. ring [R1 R2 R3 DE].
  - set (v := d * x1 * x2 * y1 * y2) in *. set (w := d * x2 * x3 * y2 * y3) in *.
    apply (mul_cancel ((1 + v) * (1 - v) * ((1 - d * x1 * x23 * y1 * y23) * ((1 + w) * (1 - w))))); [repeat apply mul_nz; auto |].
    transitivity ((y * (1 - d * x1 * x23 * y1 * y23)) * ((1 + w) * (1 - w)) * ((1 + v) * (1 - v) - d * (x12 * (1 + v)) * x3 * (y12 * (1 - v)) * y3)); [ring |].
    rewrite Ey.
    transitivity ((y1 * (y23 * (1 - w)) * (1 + w) - a * x1 * (x23 * (1 + w)) * (1 - w)) * ((1 + v) * (1 - v) - d * (x12 * (1 + v)) * x3 * (y12 * (1 - v)) * y3)); [ring |].
    transitivity (((y12 * (1 - v)) * y3 * (1 + v) - a * (x12 * (1 + v)) * x3 * (1 - v)) * ((1 + w) * (1 - w) - d * x1 * (x23 * (1 + w)) * y1 * (y23 * (1 - w)))); [| ring].
    rewrite Ex12, Ey12, Ex23, Ey23. unfold v, w.
    assert (DE : d * finv d = 1) by (field; apply d_nz). set (e := finv d) in *.
    pose proof (curve_rule x1 y1 H1 e DE) as R1. pose proof (curve_rule x2 y2 H2 e DE) as R2. pose proof (curve_rule x3 y3 H3 e DE) as R3. clearbody e.
    clear - FT DE R1 R2 R3. ring [R1 R2 R3 DE].
Qed.

(** the y coordinate determines the x coordinate up to sign *)
Lemma same_y : forall x x' y, on_curve (x, y) -> on_curve (x', y) -> x' = x \/ x' = - x.
Proof.
  intros x x' y H H'. cbn [on_curve] in H, H'.
  assert (N : a - d * (y * y) <> 0).
  { intros E. destruct (F_dec y 0) as [-> | Y].
    - apply a_nz. transitivity (a - d * (0 * 0)); [ring | exact E].
    - apply (no_root sa y Y). rewrite a_square. apply sub_zero. exact E. }
  assert (S : (x' - x) * (x' + x) * (a - d * (y * y)) = 0).
  { transitivity ((a * (x' * x') + y * y) - d * (x' * x') * (y * y) - ((a * (x * x) + y * y) - d * (x * x) * (y * y))); [ring | rewrite H, H'; ring]. }
  apply mul_zero in S as [S | S]; [| contradiction]. apply mul_zero in S as [S | S]; [left; apply sub_zero; exact S | right].
  transitivity ((x' + x) - x); [ring | rewrite S; ring].
Qed.

(** ** Projective coordinates (used to evaluate concrete multiples) *)
Definition proj_add (X1 Y1 Z1 X2 Y2 Z2 : F) : F * F * F :=
  let A := Z1 * Z2 in let B := A * A in let C := X1 * X2 in let D := Y1 * Y2 in let E := d * (C * D) in let G := B - E in let H := B + E in
  (A * G * ((X1 + Y1) * (X2 + Y2) - C - D), A * H * (D - a * C), G * H).
Definition prel (T : F * F * F) (P : pt) : Prop := let '(X, Y, Z) := T in let '(x, y) := P in Z <> 0 /\ X = x * Z /\ Y = y * Z.
Lemma proj_add_ok : forall X1 Y1 Z1 X2 Y2 Z2 P Q, on_curve P -> on_curve Q -> prel (X1, Y1, Z1) P -> prel (X2, Y2, Z2) Q -> prel (proj_add X1 Y1 Z1 X2 Y2 Z2) (padd P Q).
Proof.
  intros X1 Y1 Z1 X2 Y2 Z2 [x1 y1] [x2 y2] HP HQ (N1 & -> & ->) (N2 & -> & ->). unfold prel, proj_add.
  destruct (padd (x1, y1) (x2, y2)) as [x y] eqn:E. symmetry in E. apply padd_eqs in E as [Ex Ey]; auto.
  pose proof (den_plus _ _ _ _ HP HQ) as DP. pose proof (den_minus _ _ _ _ HP HQ) as DM. set (v := d * x1 * x2 * y1 * y2) in *.
  set (B := Z1 * Z2 * (Z1 * Z2)). assert (NB : B <> 0) by (unfold B; repeat apply mul_nz; assumption).
  replace (d * (x1 * Z1 * (x2 * Z2) * (y1 * Z1 * (y2 * Z2)))) with (v * B) by (unfold v, B; ring).
  replace (B - v * B) with (B * (1 - v)) by ring. replace (B + v * B) with (B * (1 + v)) by ring. split; [repeat apply mul_nz; assumption |]. split.
  - transitivity (B * B * (1 - v) * (x1 * y2 + y1 * x2)); [unfold B; ring | rewrite <- Ex; ring].
  - transitivity (B * B * (1 + v) * (y1 * y2 - a * x1 * x2)); [unfold B; ring | rewrite <- Ey; ring].
Qed.
(** dedicated doubling in the same coordinates *)
Definition proj_dbl (X Y Z : F) : F * F * F :=
  let C := X * X in let D := Y * Y in let E := a * C in let G := E + D in let J := G - (1 + 1) * (Z * Z) in
  (((X + Y) * (X + Y) - C - D) * J, G * (E - D), G * J).
Lemma proj_dbl_ok : forall X Y Z P, on_curve P -> prel (X, Y, Z) P -> prel (proj_dbl X Y Z) (padd P P).
Proof.
  intros X Y Z [x y] HP (N & -> & ->). unfold prel, proj_dbl.
  destruct (padd (x, y) (x, y)) as [x' y'] eqn:E. symmetry in E. apply padd_eqs in E as [Ex Ey]; auto.
  pose proof (den_plus _ _ _ _ HP HP) as DP. pose proof (den_minus _ _ _ _ HP HP) as DM.
  set (v := d * x * x * y * y) in *. set (B := Z * Z). assert (NB : B <> 0) by (unfold B; apply mul_nz; assumption).
  assert (HG : a * (x * Z * (x * Z)) + y * Z * (y * Z) = B * (1 + v)).
  { unfold on_curve in HP. transitivity (B * (a * (x * x) + y * y)); [unfold B; ring |]. replace (a * (x * x) + y * y) with (1 + v); [reflexivity |]. unfold v. transitivity (1 + d * (x * x) * (y * y)); [ring |]. rewrite <- HP. ring. }
  rewrite HG. replace (B * (1 + v) - (1 + 1) * B) with (- (B * (1 - v))) by ring.
  assert (NN : - (B * (1 - v)) <> 0). { intros Q. apply (mul_nz B (1 - v)); auto. replace (B * (1 - v)) with (- - (B * (1 - v))) by ring. rewrite Q. ring. }
  split; [repeat apply mul_nz; assumption |]. split.
  - transitivity (- (B * B) * (1 - v) * (x * y + y * x)); [unfold B; ring | rewrite <- Ex; ring].
  - transitivity (- (B * B) * (1 + v) * (y * y - a * x * x)); [unfold B; ring | rewrite <- Ey; ring].
Qed.
Lemma prel_unique : forall X Y Z x y P, prel (X, Y, Z) P -> X = x * Z -> Y = y * Z -> P = (x, y).
Proof. intros X Y Z x y [px py] (N & E1 & E2) F1' F2'. apply f_equal2; apply (mul_cancel Z); congruence. Qed.

(** ** Multiples *)
Lemma smul_on : forall n P, on_curve P -> on_curve (smul n P).
Proof. induction n as [| n IH]; intros P H; [apply zero_on |]. cbn [smul]. apply padd_on; auto. Qed.
Lemma smul_add : forall m n P, on_curve P -> smul (m + n) P = padd (smul m P) (smul n P).
Proof.
  induction m as [| m IH]; intros n P H; [symmetry; apply padd_0_l |].
  change (S m + n)%nat with (S (m + n)). cbn [smul]. rewrite IH by exact H. apply padd_assoc; auto using smul_on.
Qed.
Lemma smul_mul : forall m n P, on_curve P -> smul (m * n) P = smul m (smul n P).
Proof.
  induction m as [| m IH]; intros n P H; [reflexivity |]. change (S m * n)%nat with (n + m * n)%nat. cbn [smul]. rewrite smul_add, IH by exact H. reflexivity.
Qed.
Lemma smul_zero : forall n, smul n pzero = pzero.
Proof. induction n as [| n IH]; [reflexivity |]. cbn [smul]. rewrite IH. apply padd_0_l. Qed.
Lemma padd_swap : forall A B C D, on_curve A -> on_curve B -> on_curve C -> on_curve D -> padd (padd A B) (padd C D) = padd (padd A C) (padd B D).
Proof.
  intros A B C D HA HB HC HD. rewrite <- !padd_assoc by auto using padd_on. f_equal. rewrite !padd_assoc by auto. rewrite (padd_comm B C). reflexivity.
Qed.
Lemma smul_padd : forall n P Q, on_curve P -> on_curve Q -> smul n (padd P Q) = padd (smul n P) (smul n Q).
Proof.
  induction n as [| n IH]; intros P Q HP HQ; [symmetry; apply padd_0_l |]. cbn [smul]. rewrite IH by auto. apply padd_swap; auto using smul_on.
Qed.
Lemma popp_padd : forall P Q, on_curve P -> on_curve Q -> popp (padd P Q) = padd (popp P) (popp Q).
Proof.
  intros P Q HP HQ. pose proof (opp_on _ HP) as OP. pose proof (opp_on _ HQ) as OQ. pose proof (padd_on _ _ HP HQ) as HS. pose proof (opp_on _ HS) as OS.
  rewrite <- (padd_0_r (popp (padd P Q))). rewrite <- (padd_0_r pzero). rewrite <- (padd_opp P HP) at 1. rewrite <- (padd_opp Q HQ).
  rewrite padd_swap by auto. rewrite padd_assoc by auto using padd_on. rewrite (padd_comm (popp (padd P Q))), padd_opp by auto. apply padd_0_l.
Qed.
Lemma padd_cancel : forall P Q, on_curve P -> on_curve Q -> padd (popp P) Q = pzero -> Q = P.
Proof.
  intros P Q HP HQ E. assert (E' : padd P (padd (popp P) Q) = padd P pzero) by (rewrite E; reflexivity).
  rewrite padd_assoc, padd_opp, padd_0_l, padd_0_r in E' by auto using opp_on. exact E'.
Qed.
End Ed.
