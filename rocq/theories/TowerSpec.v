(** * TowerSpec.v — the extension fields of BLS12-381, by definition: Fp2 = Fp[u]/(u^2+1), Fp6 = Fp2[v]/(v^3-(1+u)),
    Fp12 = Fp6[w]/(w^2-v); products are schoolbook products of the representing polynomials, reduced.  The record types E2, E6,
    E12 (coefficient tuples) are those of the model. *)
From Coq Require Import ZArith.
From Verif Require Import FieldZ TowerModel.
Open Scope Z_scope.

(** (a + b u)(c + d u) = ac - bd + (ad + bc) u *)
Definition mul2 (x y : E2) : E2 :=
  mkE2 (qsub (qmul (A0 x) (A0 y)) (qmul (A1 x) (A1 y))) (qadd (qmul (A0 x) (A1 y)) (qmul (A1 x) (A0 y))).
Definition add2 (x y : E2) : E2 := mkE2 (qadd (A0 x) (A0 y)) (qadd (A1 x) (A1 y)).
Definition sub2 (x y : E2) : E2 := mkE2 (qsub (A0 x) (A0 y)) (qsub (A1 x) (A1 y)).
Definition opp2 (x : E2) : E2 := mkE2 (qopp (A0 x)) (qopp (A1 x)).
(** embedding of the base field, constants *)
Definition of1 (a : Fp) : E2 := mkE2 a (fc 0).
Definition zero2 : E2 := of1 (fc 0).
Definition one2 : E2 := of1 (fc 1).
Definition u2 : E2 := mkE2 (fc 0) (fc 1).
(** the cubic and sextic non-residue 1 + u *)
Definition xi : E2 := mkE2 (fc 1) (fc 1).

Definition add6 (x y : E6) : E6 := mkE6 (add2 (B0 x) (B0 y)) (add2 (B1 x) (B1 y)) (add2 (B2 x) (B2 y)).
Definition sub6 (x y : E6) : E6 := mkE6 (sub2 (B0 x) (B0 y)) (sub2 (B1 x) (B1 y)) (sub2 (B2 x) (B2 y)).
Definition opp6 (x : E6) : E6 := mkE6 (opp2 (B0 x)) (opp2 (B1 x)) (opp2 (B2 x)).
(** coefficients of v^0, v^1, v^2 of the product, with v^3 = xi, v^4 = xi v *)
Definition mul6 (x y : E6) : E6 :=
  mkE6 (add2 (mul2 (B0 x) (B0 y)) (mul2 xi (add2 (mul2 (B1 x) (B2 y)) (mul2 (B2 x) (B1 y)))))
       (add2 (add2 (mul2 (B0 x) (B1 y)) (mul2 (B1 x) (B0 y))) (mul2 xi (mul2 (B2 x) (B2 y))))
       (add2 (add2 (mul2 (B0 x) (B2 y)) (mul2 (B1 x) (B1 y))) (mul2 (B2 x) (B0 y))).
Definition of2 (a : E2) : E6 := mkE6 a zero2 zero2.
Definition zero6 : E6 := of2 zero2.
Definition one6 : E6 := of2 one2.
Definition v6 : E6 := mkE6 zero2 one2 zero2.

Definition add12 (x y : E12) : E12 := mkE12 (add6 (C0 x) (C0 y)) (add6 (C1 x) (C1 y)).
Definition sub12 (x y : E12) : E12 := mkE12 (sub6 (C0 x) (C0 y)) (sub6 (C1 x) (C1 y)).
Definition opp12 (x : E12) : E12 := mkE12 (opp6 (C0 x)) (opp6 (C1 x)).
Definition mul12 (x y : E12) : E12 :=
  mkE12 (add6 (mul6 (C0 x) (C0 y)) (mul6 v6 (mul6 (C1 x) (C1 y)))) (add6 (mul6 (C0 x) (C1 y)) (mul6 (C1 x) (C0 y))).
Definition of6 (a : E6) : E12 := mkE12 a zero6.
Definition zero12 : E12 := of6 zero6.
Definition one12 : E12 := of6 one6.
Definition w12 : E12 := mkE12 zero6 one6.

(** powers with a non-negative integer exponent: pow x n is the product of n copies of x *)
Section Pow.
Variable A : Type.
Variable one : A.
Variable mul : A -> A -> A.
Definition pown (x : A) (n : nat) : A := Nat.iter n (mul x) one.
Definition powz (x : A) (n : Z) : A := pown x (Z.to_nat n).
End Pow.
Arguments pown {A}. Arguments powz {A}.
Definition pow2 : E2 -> Z -> E2 := powz one2 mul2.
Definition pow12 : E12 -> Z -> E12 := powz one12 mul12.

(** the parameter of the BLS12-381 family, and the group order r *)
Definition x0 : Z := - 0xd201000000010000.
Definition rBls : Z := 0x73eda753299d7d483339d80809a1d80553bda402fffe5bfeffffffff00000001.
