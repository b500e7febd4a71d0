(** * PairingModel.v — models circuits/gadgets/pairing_bls12381/pairing.go.  Field and tower operations: TowerModel.  Pointers are
    values as there: every function builds fresh structures, and MillerLoop overwrites only its own slice qProj and the line
    structures it has just received. *)
From Coq Require Import ZArith List Bool Arith.
From Verif Require Import FieldZ TowerModel.
Import ListNotations.
Open Scope Z_scope.
Open Scope rel_scope.

(** g1.go:9 (weierstrass.AffinePoint), g2.go:13-23 *)
Record G1Affine := mkG1 { X1 : Fp; Y1 : Fp }.
Record G2Affine := mkG2 { X2 : E2; Y2 : E2 }.
Record G2Projective := mkG2P { PX : E2; PY : E2; PZ : E2 }.
(** pairing.go:205-209 *)
Record LineEvaluation := mkLine { r0 : E2; r1 : E2; r2 : E2 }.

(** pairing.go:24-67 *)
Definition double_step (p : G2Projective) : rel (G2Projective * LineEvaluation) :=
  let A := e2_mul (PX p) (PY p) in
  A <- e2_halve A ;;
  let B := e2_square (PY p) in
  let C := e2_square (PZ p) in
  let D := e2_double C in
  let D := e2_add D C in
  let E := e2_mul_by_b_twist D in
  let F := e2_double E in
  let F := e2_add F E in
  let G := e2_add B F in
  G <- e2_halve G ;;
  let H := e2_add (PY p) (PZ p) in
  let H := e2_square H in
  let t1 := e2_add B C in
  let H := e2_sub H t1 in
  let I := e2_sub E B in
  let J := e2_square (PX p) in
  let EE := e2_square E in
  let K := e2_double EE in
  let K := e2_add K EE in
  let px := e2_sub B F in
  let px := e2_mul px A in
  let py := e2_square G in
  let py := e2_sub py K in
  let pz := e2_mul B H in
  let lr0 := I in
  let lr1 := e2_double J in
  let lr1 := e2_add lr1 J in
  let lr2 := e2_neg H in
  ret (mkG2P px py pz, mkLine lr0 lr1 lr2).
(** pairing.go:69-85 *)
Definition affine_to_projective (Q : G2Affine) : G2Projective := mkG2P (X2 Q) (Y2 Q) e2_one.
(** pairing.go:87-94 *)
Definition neg_affine (a : G2Affine) : G2Affine := mkG2 (X2 a) (e2_neg (Y2 a)).
(** pairing.go:97-139 *)
Definition mul_014_by_014 (d0 d1 d4 c0 c1 c4 : E2) : E12 :=
  let x0 := e2_mul c0 d0 in
  let x1 := e2_mul c1 d1 in
  let x4 := e2_mul c4 d4 in
  let tmp := e2_add c0 c4 in
  let x04 := e2_add d0 d4 in
  let x04 := e2_mul x04 tmp in
  let x04 := e2_sub x04 x0 in
  let x04 := e2_sub x04 x4 in
  let tmp := e2_add c0 c1 in
  let x01 := e2_add d0 d1 in
  let x01 := e2_mul x01 tmp in
  let x01 := e2_sub x01 x0 in
  let x01 := e2_sub x01 x1 in
  let tmp := e2_add c1 c4 in
  let x14 := e2_add d1 d4 in
  let x14 := e2_mul x14 tmp in
  let x14 := e2_sub x14 x1 in
  let x14 := e2_sub x14 x4 in
  let z00 := e2_mul_by_non_residue x4 in
  let z00 := e2_add z00 x0 in
  let z01 := x01 in
  let z02 := x1 in
  let z10 := e2_zero in
  let z11 := x04 in
  let z12 := x14 in
  mkE12 (mkE6 z00 z01 z02) (mkE6 z10 z11 z12).
(** pairing.go:142-164 *)
Definition mul_by_014 (z : E12) (c0 c1 c4 : E2) : E12 :=
  let a := C0 z in
  let a := e6_mul_by_01 a c0 c1 in
  let b := C1 z in
  let b := e6_mul_by_1 b c4 in
  let d := e2_add c1 c4 in
  let z1 := e6_add (C1 z) (C0 z) in
  let z1 := e6_mul_by_01 z1 c0 d in
  let z1 := e6_sub z1 a in
  let z1 := e6_sub z1 b in
  let z0 := e6_mul_by_non_residue b in
  let z0 := e6_add z0 a in
  mkE12 z0 z1.
(** pairing.go:166-203 *)
Definition add_step (p : G2Projective) (a : G2Affine) : G2Projective * LineEvaluation :=
  let Y2Z1 := e2_mul (Y2 a) (PZ p) in
  let O := e2_sub (PY p) Y2Z1 in
  let X2Z1 := e2_mul (X2 a) (PZ p) in
  let L := e2_sub (PX p) X2Z1 in
  let C := e2_square O in
  let D := e2_square L in
  let E := e2_mul L D in
  let F := e2_mul (PZ p) C in
  let G := e2_mul (PX p) D in
  let t0 := e2_double G in
  let H := e2_add E F in
  let H := e2_sub H t0 in
  let t1 := e2_mul (PY p) E in
  let px := e2_mul L H in
  let py := e2_sub G H in
  let py := e2_mul py O in
  let py := e2_sub py t1 in
  let pz := e2_mul E (PZ p) in
  let t2 := e2_mul L (Y2 a) in
  let J := e2_mul (X2 a) O in
  let J := e2_sub J t2 in
  let lr0 := J in
  let lr1 := e2_neg O in
  let lr2 := L in
  (mkG2P px py pz, mkLine lr0 lr1 lr2).
(** pairing.go:211 *)
Definition loopCounter : list Z :=
  [0; 0; 0; 0; 0; 0; 0; 0; 0; 0; 0; 0; 0; 0; 0; 0; 1; 0; 0; 0; 0; 0; 0; 0; 0; 0; 0; 0; 0; 0; 0; 0; 0; 0; 0; 0; 0; 0; 0; 0; 0; 0; 0; 0; 0; 0; 0; 0; 1; 0; 0; 0; 0; 0; 0; 0; 0; 1; 0; 0; 1; 0; 1; 1].
(** the line evaluation at p[k]: pairing.go:232-233, 237-238, 253-254, 261-262 *)
Definition line_eval (l : LineEvaluation) (p : G1Affine) : LineEvaluation :=
  mkLine (r0 l) (e2_mul_by_element (r1 l) (X1 p)) (e2_mul_by_element (r2 l) (Y1 p)).
(** pairing.go:230-243: the body of the loop over k before the main loop *)
Definition first_step (p : G1Affine) (q : G2Affine) (qp : G2Projective) (result : E12) : rel (G2Projective * E12) :=
  d <- double_step qp ;;
  let '(qp, l1) := d in
  let l1 := line_eval l1 p in
  let '(qp, l2) := add_step qp q in
  let l2 := line_eval l2 p in
  let lines := mul_014_by_014 (r0 l1) (r1 l1) (r2 l1) (r0 l2) (r1 l2) (r2 l2) in
  let result := e12_mul result lines in
  ret (qp, result).
(** pairing.go:249-268: the body of the loop over k inside the main loop; c is loopCounter[i] *)
Definition loop_step (c : Z) (p : G1Affine) (q : G2Affine) (qp : G2Projective) (result : E12) : rel (G2Projective * E12) :=
  d <- double_step qp ;;
  let '(qp, l1) := d in
  let l1 := line_eval l1 p in
  if c =? 0 then
    let result := mul_by_014 result (r0 l1) (r1 l1) (r2 l1) in
    ret (qp, result)
  else
    let '(qp, l2) := add_step qp q in
    let l2 := line_eval l2 p in
    let lines := mul_014_by_014 (r0 l1) (r1 l1) (r2 l1) (r0 l2) (r1 l2) (r2 l2) in
    let result := e12_mul result lines in
    ret (qp, result).
(** for k := 0; k < n; k++ over the triples (p[k], q[k], qProj[k]): the new slice qProj and the final result *)
Fixpoint over_k (body : G1Affine -> G2Affine -> G2Projective -> E12 -> rel (G2Projective * E12)) (ks : list (G1Affine * G2Affine)) (qs : list G2Projective) (result : E12) : rel (list G2Projective * E12) :=
  match ks, qs with
  | (p, q) :: ks', qp :: qs' =>
      s <- body p q qp result ;;
      let '(qp, result) := s in
      s <- over_k body ks' qs' result ;;
      let '(qs', result) := s in
      ret (qp :: qs', result)
  | _, _ => ret ([], result)
  end.
(** pairing.go:245-269: for i := len(loopCounter) - 3; i >= 0; i--; the argument lists loopCounter[i] in that order *)
Fixpoint main_loop (cs : list Z) (ks : list (G1Affine * G2Affine)) (qs : list G2Projective) (result : E12) : rel E12 :=
  match cs with
  | [] => ret result
  | c :: cs' =>
      let result := e12_square result in
      s <- over_k (loop_step c) ks qs result ;;
      let '(qs, result) := s in
      main_loop cs' ks qs result
  end.
(** pairing.go:213-275; None is the returned error *)
Definition miller_loop (p : list G1Affine) (q : list G2Affine) : rel (option E12) :=
  let n := length p in
  if ((n =? 0) || negb (n =? length q))%nat then ret None
  else
    let qProj := map affine_to_projective q in
    let ks := combine p q in
    let result := e12_one in
    s <- over_k first_step ks qProj result ;;
    let '(qProj, result) := s in
    result <- main_loop (rev (firstn (length loopCounter - 2) loopCounter)) ks qProj result ;;
    let result := e12_conjugate result in
    ret (Some result).
(** pairing.go:277-310 *)
Definition final_exponentiation (e : E12) : rel E12 :=
  let t0 := e12_conjugate e in
  result <- e12_inverse e ;;
  let t0 := e12_mul t0 result in
  let result := e12_frobenius_square t0 in
  let result := e12_mul result t0 in
  let t0 := e12_cyclotomic_square result in
  t1 <- e12_expt_half t0 ;;
  let t2 := e12_conjugate result in
  let t1 := e12_mul t1 t2 in
  t2 <- e12_expt t1 ;;
  let t1 := e12_conjugate t1 in
  let t1 := e12_mul t1 t2 in
  t2 <- e12_expt t1 ;;
  let t1 := e12_frobenius t1 in
  let t1 := e12_mul t1 t2 in
  let result := e12_mul result t0 in
  t0 <- e12_expt t1 ;;
  t2 <- e12_expt t0 ;;
  let t0 := e12_frobenius_square t1 in
  let t1 := e12_conjugate t1 in
  let t1 := e12_mul t1 t2 in
  let t1 := e12_mul t1 t0 in
  let result := e12_mul result t1 in
  ret result.
(** pairing.go:312-319 *)
Definition pair (P : list G1Affine) (Q : list G2Affine) : rel (option E12) :=
  res <- miller_loop P Q ;;
  match res with
  | None => ret None
  | Some res =>
      res <- final_exponentiation res ;;
      ret (Some res)
  end.
