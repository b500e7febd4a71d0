(** * G2Model.v — models circuits/gadgets/pairing_bls12381/g2.go and the point functions of hash2curve.go

    Values are as in TowerModel.v.  The comparisons E2NotZero, E2NotEqual, E2NotOne read the bits of emulated elements after
    emulated.Reduce: Reduce takes limbs from a hint, constrains their widths to the 381 bits of the modulus and the value to be
    congruent, and does not force it below the modulus.  So the bits are those of some representative in [0, 2^381), chosen by
    whoever supplies the hints: a comparison is a relation.  (An element that is already reduced keeps its limbs, so two
    comparisons of the same element see the same representative; the model lets every comparison choose afresh, which allows
    more assignments, never fewer.)  api.Or, And, Xor of bits are the boolean connectives; et2.Select is [sel]. *)
From Coq Require Import ZArith List Bool Arith.
From Verif Require Import FieldZ RlpEnc TowerModel PairingModel.
Import ListNotations.
Open Scope Z_scope.
Open Scope rel_scope.

(** emulated.Reduce followed by reading the limbs: a representative of 381 bits (gnark, trusted) *)
Definition fp_rep (x : Fp) : rel Z := fun r => 0 <= r < 2 ^ 381 /\ fc r = x.
(** the representative that gnark's own hint functions compute: the remainder modulo p *)
Definition fp_canon (x : Fp) : rel Z := fun r => r = fval x.
(** emulated.ToBits of a reduced element: six limbs of 64 bits (gnark, trusted) *)
Definition bits384 (r : Z) : list bool := map (fun i => Z.testbit r (Z.of_nat i)) (seq 0 384).

(** g2.go:17-19 *)
Record G2Jacobian := mkJac { JX : E2; JY : E2; JZ : E2 }.

Section Rep.
(** the representatives a comparison may see: [fp_rep] for the constraints alone (any prover), [fp_canon] for a prover that runs
    gnark's hint functions *)
Variable rep : Fp -> rel Z.
(** hash2curve.go:522-535 G1NotZero *)
Definition g1_not_zero (x : Fp) : rel bool :=
  r <- rep x ;;
  ret (fold_left (fun isNotZero b => orb isNotZero b) (bits384 r) false).
(** hash2curve.go:545-562 G1NotEqual, the loop over the bits *)
Definition bits_not_equal (xBits yBits : list bool) : bool :=
  fold_left (fun notEqual i => orb notEqual (xorb (nth i xBits false) (nth i yBits false))) (seq 0 (length xBits)) false.
(** hash2curve.go:545-562 G1NotEqual *)
Definition g1_not_equal (x y : Fp) : rel bool :=
  rx <- rep x ;;
  ry <- rep y ;;
  ret (bits_not_equal (bits384 rx) (bits384 ry)).
(** hash2curve.go:537-543 G1NotEqualOne; the constant one has the limbs 1,0,0,0,0,0, which Reduce leaves alone *)
Definition g1_not_equal_one (x : Fp) : rel bool :=
  rx <- rep x ;;
  ret (bits_not_equal (bits384 rx) (bits384 1)).
(** hash2curve.go:516-520 E2NotZero *)
Definition e2_not_zero (x : E2) : rel bool :=
  a0NotZero <- g1_not_zero (A0 x) ;;
  a1NotZero <- g1_not_zero (A1 x) ;;
  ret (orb a0NotZero a1NotZero).
(** hash2curve.go:564-569 E2NotEqual *)
Definition e2_not_equal (x y : E2) : rel bool :=
  a0NotEqual <- g1_not_equal (A0 x) (A0 y) ;;
  a1NotEqual <- g1_not_equal (A1 x) (A1 y) ;;
  ret (orb a0NotEqual a1NotEqual).
(** hash2curve.go:571-576 E2NotOne *)
Definition e2_not_one (x : E2) : rel bool :=
  a0NotOne <- g1_not_equal_one (A0 x) ;;
  a1NotZero <- g1_not_zero (A1 x) ;;
  ret (orb a0NotOne a1NotZero).

(** g2.go:126-159 G2JacobianDouble *)
Definition g2_jacobian_double (p : G2Jacobian) : G2Jacobian :=
  let XX := e2_square (JX p) in
  let YY := e2_square (JY p) in
  let YYYY := e2_square YY in
  let ZZ := e2_square (JZ p) in
  let S := e2_add (JX p) YY in
  let S := e2_square S in
  let S := e2_sub S XX in
  let S := e2_sub S YYYY in
  let S := e2_double S in
  let M := e2_double XX in
  let M := e2_add M XX in
  let pZ := e2_add (JZ p) (JY p) in
  let pZ := e2_square pZ in
  let pZ := e2_sub pZ YY in
  let pZ := e2_sub pZ ZZ in
  let T := e2_square M in
  let pX := T in
  let T := e2_double S in
  let pX := e2_sub pX T in
  let pY := e2_sub S pX in
  let pY := e2_mul pY M in
  let YYYY := e2_double YYYY in
  let YYYY := e2_double YYYY in
  let YYYY := e2_double YYYY in
  let pY := e2_sub pY YYYY in
  mkJac pX pY pZ.
(** g2.go:39-102 G2JacobianAddAssign *)
Definition g2_jacobian_add_assign (p a : G2Jacobian) : rel G2Jacobian :=
  pZNotZero <- e2_not_zero (JZ p) ;;
  let res1 := a in
  aZNotZero <- e2_not_zero (JZ a) ;;
  let res2 := p in
  let Z1Z1 := e2_square (JZ a) in
  let Z2Z2 := e2_square (JZ p) in
  let U1 := e2_mul (JX a) Z2Z2 in
  let U2 := e2_mul (JX p) Z1Z1 in
  let S1 := e2_mul (JY a) (JZ p) in
  let S1 := e2_mul S1 Z2Z2 in
  let S2 := e2_mul (JY p) (JZ a) in
  let S2 := e2_mul S2 Z1Z1 in
  U1NotEqualU2 <- e2_not_equal U1 U2 ;;
  S1NotEqualS2 <- e2_not_equal S1 S2 ;;
  let pNotEqualA := orb U1NotEqualU2 S1NotEqualS2 in
  let res3 := g2_jacobian_double p in
  let H := e2_sub U2 U1 in
  let I := e2_double H in
  let I := e2_square I in
  let J := e2_mul H I in
  let r := e2_sub S2 S1 in
  let r := e2_double r in
  let V := e2_mul U1 I in
  let pX := e2_square r in
  let pX := e2_sub pX J in
  let pX := e2_sub pX V in
  let pX := e2_sub pX V in
  let pY := e2_sub V pX in
  let pY := e2_mul pY r in
  let S1 := e2_mul S1 J in
  let S1 := e2_double S1 in
  let pY := e2_sub pY S1 in
  let pZ := e2_add (JZ p) (JZ a) in
  let pZ := e2_square pZ in
  let pZ := e2_sub pZ Z1Z1 in
  let pZ := e2_sub pZ Z2Z2 in
  let pZ := e2_mul pZ H in
  let resX := e2_select pNotEqualA pX (JX res3) in
  let resY := e2_select pNotEqualA pY (JY res3) in
  let resZ := e2_select pNotEqualA pZ (JZ res3) in
  let resX := e2_select aZNotZero resX (JX res2) in
  let resY := e2_select aZNotZero resY (JY res2) in
  let resZ := e2_select aZNotZero resZ (JZ res2) in
  let resX := e2_select pZNotZero resX (JX res1) in
  let resY := e2_select pZNotZero resY (JY res1) in
  let resZ := e2_select pZNotZero resZ (JZ res1) in
  ret (mkJac resX resY resZ).
(** g2.go:104-112 G2JacobianNeg *)
Definition g2_jacobian_neg (p : G2Jacobian) : G2Jacobian := mkJac (JX p) (e2_neg (JY p)) (JZ p).
(** g2.go:115-124 G2JacobianSubAssign *)
Definition g2_jacobian_sub_assign (p p1 : G2Jacobian) : rel G2Jacobian :=
  let p1 := mkJac (JX p1) (e2_neg (JY p1)) (JZ p1) in
  g2_jacobian_add_assign p p1.
(** g2.go:170-183, 204-214 the constants of Psi *)
Definition psi_u : E2 := mkE2 (fc 0) (fc 4002409555221667392624310435006688643935503118305586438271171395842971157480381377015405980053539358417135540939437).
Definition psi_v : E2 := mkE2 (fc 2973677408986561043442465346520108879172042883009249989176415018091420807192182638567116318576472649347015917690530)
                              (fc 1028732146235106349975324479215795277384839936929757896155643118032610843298655225875571310552543014690878354869257).
(** g2.go:161-193 G2JacobianPsi *)
Definition g2_jacobian_psi (a : G2Jacobian) : G2Jacobian :=
  let pX := e2_conjugate (JX a) in
  let pX := e2_mul pX psi_u in
  let pY := e2_conjugate (JY a) in
  let pY := e2_mul pY psi_v in
  let pZ := e2_conjugate (JZ a) in
  mkJac pX pY pZ.
(** g2.go:195-225 G2Psi *)
Definition g2_psi (a : G2Affine) : G2Affine :=
  let pX := e2_conjugate (X2 a) in
  let pX := e2_mul pX psi_u in
  let pY := e2_conjugate (Y2 a) in
  let pY := e2_mul pY psi_v in
  mkG2 pX pY.
(** g2.go:236-249 G2JacobianConstScalarMul, the body of the loop *)
Definition jac_mul_body (table0 table1 : G2Jacobian) (j : nat) (res : G2Jacobian) : rel G2Jacobian :=
  let res := g2_jacobian_double res in
  let res := g2_jacobian_double res in
  if Nat.eqb j 1 then g2_jacobian_add_assign res table0
  else if Nat.eqb j 3 then g2_jacobian_add_assign res table1
  else if Nat.eqb j 7 then g2_jacobian_add_assign res table0
  else if Nat.eqb j 23 then g2_jacobian_add_assign res table0
  else ret res.
(** a loop over indices *)
Fixpoint rel_for {S : Type} (f : nat -> S -> rel S) (l : list nat) (s : S) : rel S :=
  match l with [] => ret s | j :: r => s' <- f j s ;; rel_for f r s' end.
(** g2.go:227-251 G2JacobianConstScalarMul *)
Definition g2_jacobian_const_scalar_mul (a : G2Jacobian) : rel G2Jacobian :=
  let table0 := a in
  let table1 := g2_jacobian_double table0 in
  res <- g2_jacobian_add_assign table1 table0 ;;
  rel_for (jac_mul_body table0 table1) (seq 1 31) res.
(** g2.go:283-285, 327-329: thirdRootOneG1, and its square thirdRootOneG2 *)
Definition thirdRootOneG1 : Fp := fc 4002409555221667392624310435006688643935503118305586438271171395842971157480381377015405980053539358417135540939436.
Definition thirdRootOneG2 : Fp := qmul thirdRootOneG1 thirdRootOneG1.
(** g2.go:276-290 G2JacobianPhi *)
Definition g2_jacobian_phi (p : G2Jacobian) : G2Jacobian := mkJac (e2_mul_by_element (JX p) thirdRootOneG2) (JY p) (JZ p).
(** g2.go:294-318 G2AddAssign *)
Definition g2_add_assign (p p1 : G2Affine) : rel G2Affine :=
  let n := e2_sub (Y2 p1) (Y2 p) in
  let d := e2_sub (X2 p1) (X2 p) in
  l <- e2_div n d ;;
  let xr := e2_square l in
  let xr := e2_sub xr (X2 p1) in
  let xr := e2_sub xr (X2 p) in
  let yr := e2_sub (X2 p) xr in
  let yr := e2_mul l yr in
  let yr := e2_sub yr (Y2 p) in
  ret (mkG2 xr yr).
(** g2.go:320-334 G2Phi *)
Definition g2_phi (p : G2Affine) : G2Affine := mkG2 (e2_mul_by_element (X2 p) thirdRootOneG2) (Y2 p).
(** g2.go:337-348 G2Neg *)
Definition g2_neg (p1 : G2Affine) : G2Affine := mkG2 (X2 p1) (e2_neg (Y2 p1)).
(** g2.go:352-379 G2Double *)
Definition g2_double (p1 : G2Affine) : rel G2Affine :=
  let n := e2_square (X2 p1) in
  let n := e2_mul_by_element n (fc 3) in
  let d := e2_mul_by_element (Y2 p1) (fc 2) in
  l <- e2_div n d ;;
  let xr := e2_square l in
  let xr := e2_sub xr (X2 p1) in
  let xr := e2_sub xr (X2 p1) in
  let yr := e2_sub (X2 p1) xr in
  let yr := e2_mul l yr in
  let yr := e2_sub yr (Y2 p1) in
  ret (mkG2 xr yr).
(** g2.go:382-414 DoubleAndAdd *)
Definition double_and_add (p1 p2 : G2Affine) : rel G2Affine :=
  let n := e2_sub (Y2 p1) (Y2 p2) in
  let d := e2_sub (X2 p1) (X2 p2) in
  l1 <- e2_div n d ;;
  let x3 := e2_square l1 in
  let x3 := e2_sub x3 (X2 p1) in
  let x3 := e2_sub x3 (X2 p2) in
  let n := e2_double (Y2 p1) in
  let d := e2_sub x3 (X2 p1) in
  l2 <- e2_div n d ;;
  let l2 := e2_add l2 l1 in
  let l2 := e2_neg l2 in
  let x4 := e2_square l2 in
  let x4 := e2_sub x4 (X2 p1) in
  let x4 := e2_sub x4 x3 in
  let y4 := e2_sub (X2 p1) x4 in
  let y4 := e2_mul l2 y4 in
  let y4 := e2_sub y4 (Y2 p1) in
  ret (mkG2 x4 y4).
(** g2.go:259-272 G2ConstScalarMulV2, the body of the loop *)
Definition aff_mul_body (table0 table1 : G2Affine) (j : nat) (res : G2Affine) : rel G2Affine :=
  res <- g2_double res ;;
  res <- g2_double res ;;
  if Nat.eqb j 1 then g2_add_assign res table0
  else if Nat.eqb j 3 then g2_add_assign res table1
  else if Nat.eqb j 7 then g2_add_assign res table0
  else if Nat.eqb j 23 then g2_add_assign res table0
  else ret res.
(** g2.go:253-274 G2ConstScalarMulV2 *)
Definition g2_const_scalar_mul_v2 (a : G2Affine) : rel G2Affine :=
  let table0 := a in
  table1 <- g2_double a ;;
  res <- g2_add_assign table1 table0 ;;
  rel_for (aff_mul_body table0 table1) (seq 1 31) res.
(** g2.go:417-457 G2ConstScalarMul.  k[1] = 0, so the branch on both top bits is not taken and table[k0.Bit(i)+2*k1.Bit(i)] is
    table[0] or table[1] *)
Definition k0_scalar : Z := 15132376222941642752.
Definition g2_const_scalar_mul (Q : G2Affine) : rel G2Affine :=
  let phiQ := g2_phi Q in
  let negQ := g2_neg Q in
  let negPhiQ := g2_neg phiQ in
  table0 <- g2_add_assign negQ negPhiQ ;;
  table1 <- g2_add_assign Q negPhiQ ;;
  table2 <- g2_add_assign negQ phiQ ;;
  table3 <- g2_add_assign Q phiQ ;;
  let Acc := table3 in
  Acc <- rel_for (fun i Acc => double_and_add Acc (if Z.testbit k0_scalar (Z.of_nat i) then table1 else table0)) (rev (seq 1 63)) Acc ;;
  negQ <- g2_add_assign negQ Acc ;;
  g2_add_assign negPhiQ negQ.
(** g2.go:460-469 G2SubAssign *)
Definition g2_sub_assign (p p1 : G2Affine) : rel G2Affine :=
  let p1 := mkG2 (X2 p1) (e2_neg (Y2 p1)) in
  g2_add_assign p p1.

(** hash2curve.go:660-664 G2AffineNotInfinity *)
Definition g2_affine_not_infinity (a : G2Affine) : rel bool :=
  xNotZero <- e2_not_zero (X2 a) ;;
  yNotZero <- e2_not_zero (Y2 a) ;;
  ret (orb xNotZero yNotZero).
(** hash2curve.go:578-595 GetG2JacFromG2Affine *)
Definition get_g2_jac (Q : G2Affine) : rel G2Jacobian :=
  g2NotInfinity <- g2_affine_not_infinity Q ;;
  let z := e2_select g2NotInfinity e2_one e2_zero in
  let x := e2_select g2NotInfinity (X2 Q) e2_one in
  let y := e2_select g2NotInfinity (Y2 Q) e2_one in
  ret (mkJac x y z).
(** hash2curve.go:597-620 GetG2AffineFromG2Jac *)
Definition get_g2_affine (Q : G2Jacobian) : rel G2Affine :=
  a <- e2_inverse (JZ Q) ;;
  let b := e2_square a in
  let x := e2_mul (JX Q) b in
  let y := e2_mul (JY Q) b in
  let y := e2_mul y a in
  jacZNotZero <- e2_not_zero (JZ Q) ;;
  let x := e2_select jacZNotZero x e2_zero in
  let y := e2_select jacZNotZero y e2_zero in
  ret (mkG2 x y).
(** hash2curve.go:623-658 ClearCofactor *)
Definition clear_cofactor (a : G2Jacobian) : rel G2Jacobian :=
  xg <- g2_jacobian_const_scalar_mul a ;;
  let xg := g2_jacobian_neg xg in
  xxg <- g2_jacobian_const_scalar_mul xg ;;
  let xxg := g2_jacobian_neg xxg in
  res <- g2_jacobian_sub_assign xxg xg ;;
  res <- g2_jacobian_sub_assign res a ;;
  t <- g2_jacobian_sub_assign xg a ;;
  let t := g2_jacobian_psi t in
  res <- g2_jacobian_add_assign res t ;;
  let t := g2_jacobian_double a in
  let t := mkJac (e2_mul_by_element (JX t) thirdRootOneG1) (JY t) (JZ t) in
  g2_jacobian_sub_assign res t.
(** g2.go:472-518 G2ClearCofactor *)
Definition g2_clear_cofactor (a : G2Affine) : rel G2Affine :=
  ja <- get_g2_jac a ;;
  jxg <- g2_jacobian_const_scalar_mul ja ;;
  let jxg := g2_jacobian_neg jxg in
  jxxg <- g2_jacobian_const_scalar_mul jxg ;;
  let jxxg := g2_jacobian_neg jxxg in
  xg <- get_g2_affine jxg ;;
  xxg <- get_g2_affine jxxg ;;
  res <- g2_sub_assign xxg xg ;;
  res <- g2_sub_assign res a ;;
  t <- g2_sub_assign xg a ;;
  let t := g2_psi t in
  res <- g2_add_assign res t ;;
  t <- g2_double a ;;
  let t := mkG2 (e2_mul_by_element (X2 t) thirdRootOneG1) (Y2 t) in
  g2_sub_assign res t.
End Rep.
