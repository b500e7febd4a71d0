(** * PairingSpec.v — the optimal ate pairing of BLS12-381, by definition: Miller's algorithm on the curve E : y^2 = x^3 + 4 over Fp12,
    with textbook affine chords and tangents, for the point obtained by untwisting a point of E' : y^2 = x^3 + 4(1+u) over Fp2.
    Everything is a relation because slopes are quotients: no value exists where a denominator vanishes. *)
From Coq Require Import ZArith List Bool.
From Verif Require Import FieldZ TowerModel TowerSpec PairingModel.
Import ListNotations.
Open Scope Z_scope.

(** the embeddings of Fp and Fp2 into Fp12 *)
Definition em2 (a : E2) : E12 := of6 (of2 a).
Definition em1 (a : Fp) : E12 := em2 (of1 a).
(** the twisted curve: Y^2 = X^3 + 4 (1 + u) *)
Definition bTwist : E2 := mkE2 (fc 4) (fc 4).
Definition on_twist (Q : G2Affine) : Prop := mul2 (Y2 Q) (Y2 Q) = add2 (mul2 (X2 Q) (mul2 (X2 Q) (X2 Q))) bTwist.
(** points of E over Fp12 *)
Record pt := mkPt { px : E12; py : E12 }.
(** untwisting: (X, Y) goes to (X / w^2, Y / w^3) *)
Definition untwist (Q : G2Affine) (T : pt) : Prop :=
  mul12 (px T) (mul12 w12 w12) = em2 (X2 Q) /\ mul12 (py T) (mul12 w12 (mul12 w12 w12)) = em2 (Y2 Q).
Notation "a *' b" := (mul12 a b) (at level 40, left associativity).
Notation "a +' b" := (add12 a b) (at level 50, left associativity).
Notation "a -' b" := (sub12 a b) (at level 50, left associativity).
(** the line through T with slope l, evaluated at P; the third point of intersection, negated *)
Definition line (l : E12) (T : pt) (P : G1Affine) : E12 := (em1 (Y1 P) -' py T) -' l *' (em1 (X1 P) -' px T).
Definition third (l : E12) (T : pt) (x2 : E12) : pt :=
  let x3 := (l *' l -' px T) -' x2 in mkPt x3 (l *' (px T -' x3) -' py T).
(** tangent slope: 2 y l = 3 x^2; chord slope: (x2 - x1) l = y2 - y1 *)
Definition tangent (T : pt) (l : E12) : Prop := py T <> zero12 /\ (py T +' py T) *' l = px T *' px T +' (px T *' px T +' px T *' px T).
Definition chord (T Q : pt) (l : E12) : Prop := px Q -' px T <> zero12 /\ (px Q -' px T) *' l = py Q -' py T.
(** one step of Miller's algorithm for the bit b, for the point Q evaluated at P: state T, f *)
Inductive mstep (P : G1Affine) (Q : pt) : bool -> pt * E12 -> pt * E12 -> Prop :=
| mstep0 : forall T f l, tangent T l -> mstep P Q false (T, f) (third l T (px T), f *' f *' line l T P)
| mstep1 : forall T f l T' l', tangent T l -> T' = third l T (px T) -> chord T' Q l' ->
    mstep P Q true (T, f) (third l' T' (px Q), f *' f *' line l T P *' line l' T' P).
Inductive msteps (P : G1Affine) (Q : pt) : list bool -> pt * E12 -> pt * E12 -> Prop :=
| msteps_nil : forall s, msteps P Q [] s s
| msteps_cons : forall b bs s s' s'', mstep P Q b s s' -> msteps P Q bs s' s'' -> msteps P Q (b :: bs) s s''.
(** the bits of |x0| below the leading one (bit 63), most significant first *)
Definition ate_bits : list bool := map (fun i => Z.testbit (- x0) (Z.of_nat i)) (rev (seq 0 63)).
(** f is the Miller function f_{|x0|, Q} at P, with vertical lines omitted *)
Definition miller_value (P : G1Affine) (Q : G2Affine) (f : E12) : Prop := exists T R, untwist Q T /\ msteps P T ate_bits (T, one12) (R, f).
