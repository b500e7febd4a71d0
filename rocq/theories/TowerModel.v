(** * TowerModel.v — models circuits/gadgets/pairing_bls12381/tower.go

    An emulated.Element[BLS12381Fp] is modelled by the residue modulo p it represents; emulated Add/Sub/Neg/MulMod/MulConst/
    Select/AssertIsEqual are the operations on residues (trusted, DESIGN.md).  emulated Inverse and Div take their result from
    a hint and constrain it, so code that uses them is a relation: [m r] holds when some assignment of the hints satisfies the
    constraints and yields [r].  Go passes pointers; the functions build new values and never write through an argument
    (CyclotomicSquareCompressed receives z and x, always the same element), so values suffice. *)
From Coq Require Import ZArith List Bool Arith.
From Verif Require Import FieldZ.
Import ListNotations.
Open Scope Z_scope.

(** params.go:13 *)
Definition pBls : Z := 0x1a0111ea397fe69a4b1ba7b6434bacd764774b84f38512bf6730d2a0f6b0f6241eabfffeb153ffffb9feffffffffaaab.
Notation Fp := (Fq pBls).
(** emulated.ValueOf, MulConst arguments, One, Zero *)
Definition fc (z : Z) : Fp := ofZ pBls z.

(** constraint relations with a result *)
Definition rel (A : Type) : Type := A -> Prop.
Definition ret {A} (a : A) : rel A := fun r => r = a.
Definition bind {A B} (m : rel A) (f : A -> rel B) : rel B := fun r => exists a, m a /\ f a r.
Declare Scope rel_scope.
Delimit Scope rel_scope with rel.
Notation "x <- m ;; k" := (bind m (fun x => k)) (at level 100, m at next level, right associativity) : rel_scope.
Open Scope rel_scope.

(** emulated Inverse: a hint r with r * x = 1 *)
Definition fp_inverse (x : Fp) : rel Fp := fun r => qmul r x = fc 1.
(** emulated Div: a hint r with r * d = n *)
Definition fp_div (n d : Fp) : rel Fp := fun r => qmul r d = n.
(** emulated Select on a boolean selector (AssertIsBoolean is the caller's duty): selector 1 takes the first *)
Definition sel {A} (s : bool) (x y : A) : A := if s then x else y.

(** tower.go:13-23 *)
Record E2 := mkE2 { A0 : Fp; A1 : Fp }.
Record E6 := mkE6 { B0 : E2; B1 : E2; B2 : E2 }.
Record E12 := mkE12 { C0 : E6; C1 : E6 }.

(** tower.go:30-55 the table nonResidues[power][coef] *)
Definition nonResidues (power coef : Z) : E2 :=
  match power, coef with
  | 0, -1 => mkE2 (fc 2001204777610833696708894912867952078278441409969503942666029068062015825245418932221343814564507832018947136279894) (fc 0)
  | 0, 1 => mkE2 (fc 1) (fc 1)
  | 1, 1 => mkE2 (fc 3850754370037169011952147076051364057158807420970682438676050522613628423219637725072182697113062777891589506424760) (fc 151655185184498381465642749684540099398075398968325446656007613510403227271200139370504932015952886146304766135027)
  | 1, 2 => mkE2 (fc 0) (fc 4002409555221667392624310435006688643935503118305586438271171395842971157480381377015405980053539358417135540939436)
  | 1, 3 => mkE2 (fc 1028732146235106349975324479215795277384839936929757896155643118032610843298655225875571310552543014690878354869257) (fc 1028732146235106349975324479215795277384839936929757896155643118032610843298655225875571310552543014690878354869257)
  | 1, 4 => mkE2 (fc 4002409555221667392624310435006688643935503118305586438271171395842971157480381377015405980053539358417135540939437) (fc 0)
  | 1, 5 => mkE2 (fc 877076961050607968509681729531255177986764537961432449499635504522207616027455086505066378536590128544573588734230) (fc 3125332594171059424908108096204648978570118281977575435832422631601824034463382777937621250592425535493320683825557)
  | 2, 1 => mkE2 (fc 793479390729215512621379701633421447060886740281060493010456487427281649075476305620758731620351) (fc 0)
  | 2, 2 => mkE2 (fc 793479390729215512621379701633421447060886740281060493010456487427281649075476305620758731620350) (fc 0)
  | 2, 3 => mkE2 (fc 4002409555221667393417789825735904156556882819939007885332058136124031650490837864442687629129015664037894272559786) (fc 0)
  | 2, 4 => mkE2 (fc 4002409555221667392624310435006688643935503118305586438271171395842971157480381377015405980053539358417135540939436) (fc 0)
  | 2, 5 => mkE2 (fc 4002409555221667392624310435006688643935503118305586438271171395842971157480381377015405980053539358417135540939437) (fc 0)
  | _, _ => mkE2 (fc 0) (fc 0)   (* Go: nil pointer, panic; no caller in the file uses another key *)
  end.

(** tower.go:84-93 *)
Definition e2_mul_by_element (x : E2) (y : Fp) : E2 :=
  let z0 := qmul (A0 x) y in
  let z1 := qmul (A1 x) y in
  mkE2 z0 z1.
(** tower.go:95-102 *)
Definition e2_conjugate (x : E2) : E2 :=
  let z0 := A0 x in
  let z1 := qopp (A1 x) in
  mkE2 z0 z1.
(** tower.go:184-198 Mul *)
Definition e2_mul (x y : E2) : E2 :=
  let a := qadd (A0 x) (A1 x) in
  let b := qadd (A0 y) (A1 y) in
  let a := qmul a b in
  let b := qmul (A0 x) (A0 y) in
  let c := qmul (A1 x) (A1 y) in
  let z1 := qsub a b in
  let z1 := qsub z1 c in
  let z0 := qsub b c in
  mkE2 z0 z1.
(** tower.go:104-108 *)
Definition e2_mul_by_nr (x : E2) (power coef : Z) : E2 := e2_mul x (nonResidues power coef).
(** tower.go:111-129 MulByNonResidue *)
Definition e2_mul_by_non_residue (x : E2) : E2 := e2_mul_by_nr x 0 1.
(** tower.go:131-138 MulByNonResidueInv *)
Definition e2_mul_by_non_residue_inv (x : E2) : E2 :=
  let z0 := qadd (A0 x) (A1 x) in
  let z1 := qsub (A1 x) (A0 x) in
  e2_mul_by_nr (mkE2 z0 z1) 0 (-1).
(** tower.go:200-207 *)
Definition e2_add (x y : E2) : E2 := mkE2 (qadd (A0 x) (A0 y)) (qadd (A1 x) (A1 y)).
(** tower.go:209-216 *)
Definition e2_select (s : bool) (x y : E2) : E2 := mkE2 (sel s (A0 x) (A0 y)) (sel s (A1 x) (A1 y)).
(** tower.go:218-225 *)
Definition e2_sub (x y : E2) : E2 := mkE2 (qsub (A0 x) (A0 y)) (qsub (A1 x) (A1 y)).
(** tower.go:227-234 *)
Definition e2_neg (x : E2) : E2 := mkE2 (qopp (A0 x)) (qopp (A1 x)).
(** tower.go:236-243 *)
Definition e2_one : E2 := mkE2 (fc 1) (fc 0).
(** tower.go:245-252 *)
Definition e2_zero : E2 := mkE2 (fc 0) (fc 0).
(** tower.go:254-268 *)
Definition e2_square (x : E2) : E2 :=
  let a := qadd (A0 x) (A1 x) in
  let b := qsub (A0 x) (A1 x) in
  let a := qmul a b in
  let b := qmul (A0 x) (A1 x) in
  let b := qmul b (fc 2) in
  mkE2 a b.
(** tower.go:278-286 *)
Definition e2_double (x : E2) : E2 := mkE2 (qmul (A0 x) (fc 2)) (qmul (A1 x) (fc 2)).
(** tower.go:288-300 *)
Definition e2_halve (x : E2) : rel E2 :=
  let one := fc 1 in
  let two := qmul one (fc 2) in
  z0 <- fp_div (A0 x) two ;;
  z1 <- fp_div (A1 x) two ;;
  ret (mkE2 z0 z1).
(** tower.go:302-315 *)
Definition e2_mul_by_b_twist (x : E2) : E2 :=
  let a0 := qsub (A0 x) (A1 x) in
  let a1 := qadd (A0 x) (A1 x) in
  let res := mkE2 a0 a1 in
  let z := e2_double res in
  e2_double z.
(** tower.go:317-330 *)
Definition e2_inverse (x : E2) : rel E2 :=
  let t0 := qmul (A0 x) (A0 x) in
  let t1 := qmul (A1 x) (A1 x) in
  let t0 := qadd t0 t1 in
  t1 <- fp_inverse t0 ;;
  let z0 := qmul (A0 x) t1 in
  let z1 := qmul (A1 x) t1 in
  let z1 := qopp z1 in
  ret (mkE2 z0 z1).
(** tower.go:270-276 *)
Definition e2_div (x y : E2) : rel E2 :=
  r <- e2_inverse y ;;
  ret (e2_mul x r).
(** tower.go:332-335 *)
Definition e2_assert_eq (x y : E2) : Prop := A0 x = A0 y /\ A1 x = A1 y.

(** tower.go:337-346 *)
Definition e6_add (x y : E6) : E6 := mkE6 (e2_add (B0 x) (B0 y)) (e2_add (B1 x) (B1 y)) (e2_add (B2 x) (B2 y)).
(** tower.go:348-357 *)
Definition e6_neg (x : E6) : E6 := mkE6 (e2_neg (B0 x)) (e2_neg (B1 x)) (e2_neg (B2 x)).
(** tower.go:359-368 *)
Definition e6_sub (x y : E6) : E6 := mkE6 (e2_sub (B0 x) (B0 y)) (e2_sub (B1 x) (B1 y)) (e2_sub (B2 x) (B2 y)).
(** tower.go:370-400 *)
Definition e6_mul (x y : E6) : E6 :=
  let t0 := e2_mul (B0 x) (B0 y) in
  let t1 := e2_mul (B1 x) (B1 y) in
  let t2 := e2_mul (B2 x) (B2 y) in
  let c0 := e2_add (B1 x) (B2 x) in
  let tmp := e2_add (B1 y) (B2 y) in
  let c0 := e2_mul c0 tmp in
  let c0 := e2_sub c0 t1 in
  let c0 := e2_sub c0 t2 in
  let c0 := e2_mul_by_non_residue c0 in
  let c0 := e2_add c0 t0 in
  let c1 := e2_add (B0 x) (B1 x) in
  let tmp := e2_add (B0 y) (B1 y) in
  let c1 := e2_mul c1 tmp in
  let c1 := e2_sub c1 t0 in
  let c1 := e2_sub c1 t1 in
  let tmp := e2_mul_by_non_residue t2 in
  let c1 := e2_add c1 tmp in
  let tmp := e2_add (B0 x) (B2 x) in
  let c2 := e2_add (B0 y) (B2 y) in
  let c2 := e2_mul c2 tmp in
  let c2 := e2_sub c2 t0 in
  let c2 := e2_sub c2 t2 in
  let c2 := e2_add c2 t1 in
  mkE6 c0 c1 c2.
(** tower.go:402-411 *)
Definition e6_double (x : E6) : E6 := mkE6 (e2_double (B0 x)) (e2_double (B1 x)) (e2_double (B2 x)).
(** tower.go:413-439 *)
Definition e6_square (x : E6) : E6 :=
  let c4 := e2_mul (B0 x) (B1 x) in
  let c4 := e2_double c4 in
  let c5 := e2_square (B2 x) in
  let c1 := e2_mul_by_non_residue c5 in
  let c1 := e2_add c1 c4 in
  let c2 := e2_sub c4 c5 in
  let c3 := e2_square (B0 x) in
  let c4 := e2_sub (B0 x) (B1 x) in
  let c4 := e2_add c4 (B2 x) in
  let c5 := e2_mul (B1 x) (B2 x) in
  let c5 := e2_double c5 in
  let c4 := e2_square c4 in
  let c0 := e2_mul_by_non_residue c5 in
  let c0 := e2_add c0 c3 in
  let z2 := e2_add c2 c4 in
  let z2 := e2_add z2 c5 in
  let z2 := e2_sub z2 c3 in
  mkE6 c0 c1 z2.
(** tower.go:441-470 *)
Definition e6_inverse (x : E6) : rel E6 :=
  let t0 := e2_square (B0 x) in
  let t1 := e2_square (B1 x) in
  let t2 := e2_square (B2 x) in
  let t3 := e2_mul (B0 x) (B1 x) in
  let t4 := e2_mul (B0 x) (B2 x) in
  let t5 := e2_mul (B1 x) (B2 x) in
  let c0 := e2_mul_by_non_residue t5 in
  let c0 := e2_neg c0 in
  let c0 := e2_add c0 t0 in
  let c1 := e2_mul_by_non_residue t2 in
  let c1 := e2_sub c1 t3 in
  let c2 := e2_sub t1 t4 in
  let t6 := e2_mul (B0 x) c0 in
  let d1 := e2_mul (B2 x) c1 in
  let d2 := e2_mul (B1 x) c2 in
  let d1 := e2_add d1 d2 in
  let d1 := e2_mul_by_non_residue d1 in
  let t6 := e2_add t6 d1 in
  t6 <- e2_inverse t6 ;;
  let z0 := e2_mul c0 t6 in
  let z1 := e2_mul c1 t6 in
  let z2 := e2_mul c2 t6 in
  ret (mkE6 z0 z1 z2).
(** tower.go:471-482 *)
Definition e6_mul_by_e2 (x : E6) (y : E2) : E6 := mkE6 (e2_mul (B0 x) y) (e2_mul (B1 x) y) (e2_mul (B2 x) y).
(** tower.go:484-506 *)
Definition e6_mul_by_1 (z : E6) (c1 : E2) : E6 :=
  let b := e2_mul (B1 z) c1 in
  let tmp := e2_add (B1 z) (B2 z) in
  let t0 := e2_mul c1 tmp in
  let t0 := e2_sub t0 b in
  let t0 := e2_mul_by_non_residue t0 in
  let tmp := e2_add (B0 z) (B1 z) in
  let t1 := e2_mul c1 tmp in
  let t1 := e2_sub t1 b in
  mkE6 t0 t1 b.
(** tower.go:508-531 *)
Definition e6_mul_by_01 (z : E6) (c0 c1 : E2) : E6 :=
  let a := e2_mul (B0 z) c0 in
  let b := e2_mul (B1 z) c1 in
  let tmp := e2_add (B1 z) (B2 z) in
  let t0 := e2_mul c1 tmp in
  let t0 := e2_sub t0 b in
  let t0 := e2_mul_by_non_residue t0 in
  let t0 := e2_add t0 a in
  let tmp := e2_add (B0 z) (B2 z) in
  let t2 := e2_mul c0 tmp in
  let t2 := e2_sub t2 a in
  let t2 := e2_add t2 b in
  let t1 := e2_add c0 c1 in
  let tmp := e2_add (B0 z) (B1 z) in
  let t1 := e2_mul t1 tmp in
  let t1 := e2_sub t1 a in
  let t1 := e2_sub t1 b in
  mkE6 t0 t1 t2.
(** tower.go:533-541 *)
Definition e6_mul_by_non_residue (x : E6) : E6 :=
  let '(z2, z1, z0) := (B1 x, B0 x, B2 x) in
  let z0 := e2_mul_by_non_residue z0 in
  mkE6 z0 z1 z2.
(** tower.go:543-547 *)
Definition e6_assert_eq (x y : E6) : Prop := e2_assert_eq (B0 x) (B0 y) /\ e2_assert_eq (B1 x) (B1 y) /\ e2_assert_eq (B2 x) (B2 y).

(** tower.go:549-555 *)
Definition e12_conjugate (x : E12) : E12 :=
  let z1 := e6_neg (C1 x) in
  mkE12 (C0 x) z1.
(** tower.go:557-571 *)
Definition e12_inverse (x : E12) : rel E12 :=
  let t0 := e6_square (C0 x) in
  let t1 := e6_square (C1 x) in
  let tmp := e6_mul_by_non_residue t1 in
  let t0 := e6_sub t0 tmp in
  t1 <- e6_inverse t0 ;;
  let z0 := e6_mul (C0 x) t1 in
  let z1 := e6_mul (C1 x) t1 in
  let z1 := e6_neg z1 in
  ret (mkE12 z0 z1).
(** tower.go:573-588 *)
Definition e12_mul (x y : E12) : E12 :=
  let a := e6_add (C0 x) (C1 x) in
  let b := e6_add (C0 y) (C1 y) in
  let a := e6_mul a b in
  let b := e6_mul (C0 x) (C0 y) in
  let c := e6_mul (C1 x) (C1 y) in
  let z1 := e6_sub a b in
  let z1 := e6_sub z1 c in
  let z0 := e6_mul_by_non_residue c in
  let z0 := e6_add z0 b in
  mkE12 z0 z1.
(** tower.go:590-647 CyclotomicSquare *)
Definition e12_cyclotomic_square (x : E12) : E12 :=
  let t0 := e2_square (B1 (C1 x)) in
  let t1 := e2_square (B0 (C0 x)) in
  let t6 := e2_add (B1 (C1 x)) (B0 (C0 x)) in
  let t6 := e2_square t6 in
  let t6 := e2_sub t6 t0 in
  let t6 := e2_sub t6 t1 in
  let t2 := e2_square (B2 (C0 x)) in
  let t3 := e2_square (B0 (C1 x)) in
  let t7 := e2_add (B2 (C0 x)) (B0 (C1 x)) in
  let t7 := e2_square t7 in
  let t7 := e2_sub t7 t2 in
  let t7 := e2_sub t7 t3 in
  let t4 := e2_square (B2 (C1 x)) in
  let t5 := e2_square (B1 (C0 x)) in
  let t8 := e2_add (B2 (C1 x)) (B1 (C0 x)) in
  let t8 := e2_square t8 in
  let t8 := e2_sub t8 t4 in
  let t8 := e2_sub t8 t5 in
  let t8 := e2_mul_by_non_residue t8 in
  let t0 := e2_mul_by_non_residue t0 in
  let t0 := e2_add t0 t1 in
  let t2 := e2_mul_by_non_residue t2 in
  let t2 := e2_add t2 t3 in
  let t4 := e2_mul_by_non_residue t4 in
  let t4 := e2_add t4 t5 in
  let z00 := e2_sub t0 (B0 (C0 x)) in
  let z00 := e2_double z00 in
  let z00 := e2_add z00 t0 in
  let z01 := e2_sub t2 (B1 (C0 x)) in
  let z01 := e2_double z01 in
  let z01 := e2_add z01 t2 in
  let z02 := e2_sub t4 (B2 (C0 x)) in
  let z02 := e2_double z02 in
  let z02 := e2_add z02 t4 in
  let z10 := e2_add t8 (B0 (C1 x)) in
  let z10 := e2_double z10 in
  let z10 := e2_add z10 t8 in
  let z11 := e2_add t6 (B1 (C1 x)) in
  let z11 := e2_double z11 in
  let z11 := e2_add z11 t6 in
  let z12 := e2_add t7 (B2 (C1 x)) in
  let z12 := e2_double z12 in
  let z12 := e2_add z12 t7 in
  mkE12 (mkE6 z00 z01 z02) (mkE6 z10 z11 z12).
(** tower.go:649-674 Frobenius (MulByNonResidue1PowerK at 140-158) *)
Definition e12_frobenius (x : E12) : E12 :=
  let t0 := e2_conjugate (B0 (C0 x)) in
  let t1 := e2_conjugate (B1 (C0 x)) in
  let t2 := e2_conjugate (B2 (C0 x)) in
  let t3 := e2_conjugate (B0 (C1 x)) in
  let t4 := e2_conjugate (B1 (C1 x)) in
  let t5 := e2_conjugate (B2 (C1 x)) in
  let t1 := e2_mul_by_nr t1 1 2 in
  let t2 := e2_mul_by_nr t2 1 4 in
  let t3 := e2_mul_by_nr t3 1 1 in
  let t4 := e2_mul_by_nr t4 1 3 in
  let t5 := e2_mul_by_nr t5 1 5 in
  mkE12 (mkE6 t0 t1 t2) (mkE6 t3 t4 t5).
(** tower.go:676-687 FrobeniusSquare (MulByNonResidue2PowerK at 160-182) *)
Definition e12_frobenius_square (x : E12) : E12 :=
  let z00 := B0 (C0 x) in
  let z01 := e2_mul_by_nr (B1 (C0 x)) 2 2 in
  let z02 := e2_mul_by_nr (B2 (C0 x)) 2 4 in
  let z10 := e2_mul_by_nr (B0 (C1 x)) 2 1 in
  let z11 := e2_mul_by_nr (B1 (C1 x)) 2 3 in
  let z12 := e2_mul_by_nr (B2 (C1 x)) 2 5 in
  mkE12 (mkE6 z00 z01 z02) (mkE6 z10 z11 z12).
(** tower.go:689-714 FrobeniusCube: the trailing comments name MulByNonResidue3PowerK, the calls are MulByNonResidue1PowerK *)
Definition e12_frobenius_cube (x : E12) : E12 :=
  let t0 := e2_conjugate (B0 (C0 x)) in
  let t1 := e2_conjugate (B1 (C0 x)) in
  let t2 := e2_conjugate (B2 (C0 x)) in
  let t3 := e2_conjugate (B0 (C1 x)) in
  let t4 := e2_conjugate (B1 (C1 x)) in
  let t5 := e2_conjugate (B2 (C1 x)) in
  let t1 := e2_mul_by_nr t1 1 2 in
  let t2 := e2_mul_by_nr t2 1 4 in
  let t3 := e2_mul_by_nr t3 1 1 in
  let t4 := e2_mul_by_nr t4 1 3 in
  let t5 := e2_mul_by_nr t5 1 5 in
  mkE12 (mkE6 t0 t1 t2) (mkE6 t3 t4 t5).
(** tower.go:716-764 DecompressKarabina *)
Definition e12_decompress_karabina (x : E12) : rel E12 :=
  let one := e2_one in
  let t0 := e2_square (B1 (C0 x)) in
  let t1 := e2_sub t0 (B2 (C0 x)) in
  let t1 := e2_double t1 in
  let t1 := e2_add t1 t0 in
  let t2 := e2_square (B2 (C1 x)) in
  let t0 := e2_mul_by_non_residue t2 in
  let t0 := e2_add t0 t1 in
  let t1 := e2_double (B0 (C1 x)) in
  let t1 := e2_double t1 in
  zc11 <- e2_div t0 t1 ;;
  let t1 := e2_mul (B2 (C0 x)) (B1 (C0 x)) in
  let t2 := e2_square zc11 in
  let t2 := e2_sub t2 t1 in
  let t2 := e2_double t2 in
  let t2 := e2_sub t2 t1 in
  let t1 := e2_mul (B0 (C1 x)) (B2 (C1 x)) in
  let t2 := e2_add t2 t1 in
  let z00 := e2_mul_by_non_residue t2 in
  let z00 := e2_add z00 one in
  ret (mkE12 (mkE6 z00 (B1 (C0 x)) (B2 (C0 x))) (mkE6 (B0 (C1 x)) zc11 (B2 (C1 x)))).
(** tower.go:820-869 CyclotomicSquareCompressed(z, x); the two untouched coefficients come from z *)
Definition e12_cyclotomic_square_compressed (z x : E12) : E12 :=
  let t0 := e2_square (B1 (C0 x)) in
  let t1 := e2_square (B2 (C1 x)) in
  let t5 := e2_add (B1 (C0 x)) (B2 (C1 x)) in
  let t2 := e2_square t5 in
  let t3 := e2_add t0 t1 in
  let t5 := e2_sub t2 t3 in
  let t6 := e2_add (B0 (C1 x)) (B2 (C0 x)) in
  let t3 := e2_square t6 in
  let t2 := e2_square (B0 (C1 x)) in
  let t6 := e2_mul_by_non_residue t5 in
  let t5 := e2_add t6 (B0 (C1 x)) in
  let t5 := e2_double t5 in
  let z10 := e2_add t5 t6 in
  let t4 := e2_mul_by_non_residue t1 in
  let t5 := e2_add t0 t4 in
  let t6 := e2_sub t5 (B2 (C0 x)) in
  let t1 := e2_square (B2 (C0 x)) in
  let t6 := e2_double t6 in
  let z02 := e2_add t6 t5 in
  let t4 := e2_mul_by_non_residue t1 in
  let t5 := e2_add t2 t4 in
  let t6 := e2_sub t5 (B1 (C0 x)) in
  let t6 := e2_double t6 in
  let z01 := e2_add t6 t5 in
  let t0 := e2_add t2 t1 in
  let t5 := e2_sub t3 t0 in
  let t6 := e2_add t5 (B2 (C1 x)) in
  let t6 := e2_double t6 in
  let z12 := e2_add t5 t6 in
  mkE12 (mkE6 (B0 (C0 z)) z01 z02) (mkE6 z10 (B1 (C1 z)) z12).
(** tower.go:806-811 nSquareCompressed and 813-818 nSquareCompressedWithoutAssert (identical bodies) *)
Definition e12_n_square_compressed (z : E12) (n : nat) : E12 := Nat.iter n (fun z => e12_cyclotomic_square_compressed z z) z.
(** tower.go:975-980 nSquare *)
Definition e12_n_square (z : E12) (n : nat) : E12 := Nat.iter n e12_cyclotomic_square z.
(** tower.go:766-799 ExptHalf *)
Definition e12_expt_half (x : E12) : rel E12 :=
  let result := x in
  let result := e12_n_square_compressed result 15 in
  let t0 := result in
  let result := e12_n_square_compressed result 32 in
  let t1 := result in
  b0 <- e12_decompress_karabina t0 ;;
  b1 <- e12_decompress_karabina t1 ;;
  let result := e12_mul b0 b1 in
  let b1 := e12_n_square b1 9 in
  let result := e12_mul result b1 in
  let b1 := e12_n_square b1 3 in
  let result := e12_mul result b1 in
  let b1 := e12_n_square b1 2 in
  let result := e12_mul result b1 in
  let b1 := e12_cyclotomic_square b1 in
  let result := e12_mul result b1 in
  ret (e12_conjugate result).
(** tower.go:801-804 Expt *)
Definition e12_expt (x : E12) : rel E12 :=
  result <- e12_expt_half x ;;
  ret (e12_cyclotomic_square result).
(** tower.go:871-886 *)
Definition e12_one : E12 :=
  let z000 := fc 1 in
  let zero := fc 0 in
  mkE12 (mkE6 (mkE2 z000 zero) (mkE2 zero zero) (mkE2 zero zero)) (mkE6 (mkE2 zero zero) (mkE2 zero zero) (mkE2 zero zero)).
(** tower.go:888-905 MulBy034 *)
Definition e12_mul_by_034 (z : E12) (c0 c3 c4 : E2) : E12 :=
  let a := e6_mul_by_e2 (C0 z) c0 in
  let b := e6_mul_by_01 (C1 z) c3 c4 in
  let c0 := e2_add c0 c3 in
  let d := e6_add (C0 z) (C1 z) in
  let d := e6_mul_by_01 d c0 c4 in
  let z1 := e6_add a b in
  let z1 := e6_neg z1 in
  let z1 := e6_add z1 d in
  let z0 := e6_mul_by_non_residue b in
  let z0 := e6_add z0 a in
  mkE12 z0 z1.
(** tower.go:907-923 *)
Definition e12_square (x : E12) : E12 :=
  let c0 := e6_sub (C0 x) (C1 x) in
  let c3 := e6_mul_by_non_residue (C1 x) in
  let c3 := e6_neg c3 in
  let c3 := e6_add (C0 x) c3 in
  let c2 := e6_mul (C0 x) (C1 x) in
  let c0 := e6_mul c0 c3 in
  let c0 := e6_add c0 c2 in
  let z1 := e6_double c2 in
  let c2 := e6_mul_by_non_residue c2 in
  let z0 := e6_add c0 c2 in
  mkE12 z0 z1.
(** tower.go:925-964 MulBy034by034 *)
Definition e12_mul_034_by_034 (d0 d3 d4 c0 c3 c4 : E2) : E12 :=
  let x0 := e2_mul c0 d0 in
  let x3 := e2_mul c3 d3 in
  let x4 := e2_mul c4 d4 in
  let tmp := e2_add c0 c4 in
  let x04 := e2_add d0 d4 in
  let x04 := e2_mul x04 tmp in
  let x04 := e2_sub x04 x0 in
  let x04 := e2_sub x04 x4 in
  let tmp := e2_add c0 c3 in
  let x03 := e2_add d0 d3 in
  let x03 := e2_mul x03 tmp in
  let x03 := e2_sub x03 x0 in
  let x03 := e2_sub x03 x3 in
  let tmp := e2_add c3 c4 in
  let x34 := e2_add d3 d4 in
  let x34 := e2_mul x34 tmp in
  let x34 := e2_sub x34 x3 in
  let x34 := e2_sub x34 x4 in
  let z00 := e2_mul_by_non_residue x4 in
  let z00 := e2_add z00 x0 in
  mkE12 (mkE6 z00 x3 x34) (mkE6 x03 x04 e2_zero).
(** tower.go:966-969 AssertIsEqual *)
Definition e12_assert_eq (x y : E12) : Prop := e6_assert_eq (C0 x) (C0 y) /\ e6_assert_eq (C1 x) (C1 y).
(** tower.go:971-973 AssertC0IsEqual *)
Definition e12_assert_c0_eq (x y : E12) : Prop := e6_assert_eq (C0 x) (C0 y).
