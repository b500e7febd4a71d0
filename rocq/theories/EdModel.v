(** * EdModel.v — models circuits/gadgets/ed25519/{params,twistededwards,curve,point,ed25519}.go

    An emulated.Element[Ed25519Fp] is modelled by the residue modulo q that it represents; emulated Add/Sub/Mul/Neg/Select/
    Lookup2/AssertIsEqual are the operations on residues (trusted, DESIGN.md).  Div and ToBits take values from hints, so
    gadgets are relations between inputs and outputs: the relation holds when some assignment satisfies the constraints. *)
From Coq Require Import ZArith List Bool Arith.
From Verif Require Import Field FieldZ ShaModel.
Import ListNotations.
Open Scope Z_scope.
Open Scope circ_scope.

(** params.go:9-12 qCurve25519 *)
Definition q25519 : Z := 0x7fffffffffffffffffffffffffffffffffffffffffffffffffffffffffffffed.
(** params.go:13 rCurve25519; twistededwards.go:56 Order *)
Definition L25519 : Z := 0x1000000000000000000000000000000014def9dea2f79cd65812631a5cf5d3ed.
(** params.go:16-19 Ed25519Fp: 5 limbs of 51 bits *)
Definition emuBits : nat := 5 * 51.
(** params.go:23-26 Ed25519Fr: bits of the modulus: a reduced element has at most that many *)
Definition rBits : nat := 253.
Definition F := Fq q25519.
Definition fz (z : Z) : F := ofZ q25519 z.
(** twistededwards.go:23-25 Point *)
Definition point : Type := (F * F)%type.
(** twistededwards.go:53-58 curve parameters *)
Definition edA : F := fz (-1).
Definition edD : F := fz 37095705934669439343138083508754565189542113879843219016388785533085940283555.
Definition edBase : point :=
  (fz 15112221349535400772501151409588531511454012693041857206046113283949847762202,
   fz 46316835694926478169428394003475163141307993866256225615783033603165251855960).

(** emulated Div(n, d): the quotient is a hint r constrained by r * d = n (any r when n = d = 0) *)
Definition e_div (n d r : F) : Prop := qmul r d = n.
(** emulated ToBits: the bits of a reduced representative; any representative of 255 bits satisfies the constraints *)
Definition rep (x : F) (r : Z) : Prop := 0 <= r < 2 ^ Z.of_nat emuBits /\ ofZ q25519 r = x.
(** emulated Lookup2(b0, b1, i0, i1, i2, i3) *)
Definition lookup2 {A} (b0 b1 : Z) (i0 i1 i2 i3 : A) : A :=
  if b1 =? 1 then (if b0 =? 1 then i3 else i2) else (if b0 =? 1 then i1 else i0).
(** Lookup2 on both coordinates, with the zero point (0, 1) as entry 0: point.go:118-119 *)
Definition lookup_pt (b0 b1 : Z) (i1 i2 i3 : point) : point :=
  (lookup2 b0 b1 (fz 0) (fst i1) (fst i2) (fst i3), lookup2 b0 b1 (fz 1) (snd i1) (snd i2) (snd i3)).

(** point.go:51-84 add *)
Definition ed_add (P1 P2 P3 : point) : Prop :=
  let u1 := qmul (fst P1) edA in
  let u1 := qsub (snd P1) u1 in
  let u2 := qadd (fst P2) (snd P2) in
  let u := qmul u1 u2 in
  let v0 := qmul (snd P2) (fst P1) in
  let v1 := qmul (fst P2) (snd P1) in
  let v0d := qmul edD v0 in
  let v2 := qmul v0d v1 in
  let px := qadd v0 v1 in
  e_div px (qadd (fz 1) v2) (fst P3) /\
  let py := qmul edA v0 in
  let py := qsub py v1 in
  let py := qadd py u in
  e_div py (qsub (fz 1) v2) (snd P3).
(** point.go:86-93 neg *)
Definition ed_neg (P : point) : point := (qopp (fst P), snd P).
(** point.go:95-119 double *)
Definition ed_double (P1 P2 : point) : Prop :=
  let u := qmul (fst P1) (snd P1) in
  let v := qmul (fst P1) (fst P1) in
  let w := qmul (snd P1) (snd P1) in
  let n1 := qmul (fz 2) u in
  let av := qmul v edA in
  let n2 := qsub w av in
  let d1 := qadd w av in
  let d2 := qsub (fz 2) d1 in
  e_div n1 d1 (fst P2) /\ e_div n2 d2 (snd P2).

(** a Go loop whose body is a relation *)
Fixpoint rel_fold {A S : Type} (f : A -> S -> S -> Prop) (l : list A) (s s' : S) : Prop :=
  match l with [] => s' = s | x :: r => exists s1, f x s s1 /\ rel_fold f r s1 s' end.

(** point.go:121-152 doubleBaseScalarMul, from the two bit lists b1, b2 on (b1 = api.ToBinary(s1), b2 = scalarField.ToBits(s2));
    Go indexes b2 by the positions of b1 and panics when it is shorter *)
Definition ed_double_base (b1 b2 : list Z) (P1 P2 res : point) : Prop :=
  let n := length b1 in
  (1 <= n <= length b2)%nat /\
  exists sum, ed_add P1 P2 sum /\
  rel_fold (fun i r r' => exists dbl, ed_double r dbl /\ ed_add dbl (lookup_pt (nth i b1 0) (nth i b2 0) P1 P2 sum) r')
    (rev (seq 0 (n - 1)))
    (lookup_pt (nth (n - 1) b1 0) (nth (n - 1) b2 0) P1 P2 sum) res.

(** point.go:154-193 scalarMul, from the bits of the scalar on; b[n-1] panics for a single bit *)
Definition ed_scalar_mul (b : list Z) (P res : point) : Prop :=
  (2 <= length b)%nat /\
  exists A B, ed_double P A /\ ed_add A P B /\
  let n := (length b - 1)%nat in
  exists r1,
  rel_fold (fun i r r' => exists d1 d2, ed_double r d1 /\ ed_double d1 d2 /\ ed_add d2 (lookup_pt (nth i b 0) (nth (i - 1) b 0) A P B) r')
    (map (fun j => n - 2 - 2 * j)%nat (seq 0 ((n - 1) / 2)))
    (lookup_pt (nth n b 0) (nth (n - 1) b 0) A P B) r1 /\
  if Nat.eqb (n mod 2) 0 then
    exists d1 tmp, ed_double r1 d1 /\ ed_add d1 P tmp /\ res = (if nth 0 b 0 =? 1 then tmp else d1)
  else res = r1.

(** point.go:195-209 assertIsOnCurve *)
Definition ed_assert_on_curve (P : point) : Prop :=
  let xx := qmul (fst P) (fst P) in
  let yy := qmul (snd P) (snd P) in
  let axx := qmul xx edA in
  let lhs := qadd axx yy in
  let dxx := qmul xx edD in
  let dxxyy := qmul dxx yy in
  let rhs := qadd dxxyy (fz 1) in
  lhs = rhs.
(** point.go:211-214 assertQ *)
Definition ed_assert_q (P : point) : Prop := fst P = fz 0 /\ snd P = fz 1.

Section Native.
(** the native field of the circuit *)
Variable p : Z.

(** curve.go:37-39 ScalarMul: api.ToBinary(scalar) *)
Definition ScalarMul (P : point) (s : Z) (res : point) : Prop :=
  exists b, to_binary p s (field_bits p) = Some b /\ ed_scalar_mul b P res.
(** curve.go:40-42 DoubleBaseScalarMul: the second scalar is an emulated scalar given by its reduced representative h *)
Definition DoubleBaseScalarMul (P1 P2 : point) (s1 h : Z) (res : point) : Prop :=
  exists b1, to_binary p s1 (field_bits p) = Some b1 /\ ed_double_base b1 (bits_le emuBits h) P1 P2 res.

(** ed25519.go:59-71 copyFieldElement, from the bits of the chosen representative on *)
Definition copy_field_element (r : Z) : option (list Z) :=
  let bits := bits_le emuBits r in
  omap (fun i => if Nat.eqb i 31 then from_binary p (skipn (i * 8) bits) else from_binary p (firstn 8 (skipn (i * 8) bits))) (seq 0 32).
(** ed25519.go:47-57 bytes *)
Definition point_bytes (rx ry : Z) : option (list Z) :=
  let* outX := copy_field_element rx in
  let* outX0Bits := to_binary p (nth 0 outX 0) 8 in
  let isNegative := nth 0 outX0Bits 0 in
  let* out := copy_field_element ry in
  let* outY31Bits := to_binary p (nth 31 out 0) 8 in
  let* b7 := for_ p (nth 7 outY31Bits 0) isNegative in
  let* last := from_binary p (firstn 7 outY31Bits ++ [b7]) in
  Some (firstn 31 out ++ [last]).
(** ed25519.go:73-100 recomposeMsg; a slice with fewer than 5 variables panics *)
Definition recompose_msg (msg : list Z) : option (list Z) :=
  guard (5 <=? length msg)%nat ;;
  let* bs := omap (fun i => if Nat.eqb i 4 then to_binary p (nth i msg 0) 176 else to_binary p (nth i msg 0) 200) (rev (seq 0 5)) in
  let msgBits := concat bs in
  let* buf := omap (fun i => if Nat.eqb i 121 then from_binary p (skipn (i * 8) msgBits) else from_binary p (firstn 8 (skipn (i * 8) msgBits))) (seq 0 122) in
  Some (map (fun i => nth (122 - i - 1) buf 0) (seq 0 122)).
(** ed25519.go:102-120 recomposePbKey *)
Definition recompose_pbkey (vbs : list Z) : option (list Z) :=
  guard (2 <=? length vbs)%nat ;;
  let* bs := omap (fun i => to_binary p (nth (1 - i) vbs 0) 128) (seq 0 2) in
  let bits := concat bs in
  let* buf := omap (fun i => from_binary p (firstn 8 (skipn (i * 8) bits))) (seq 0 32) in
  Some (map (fun i => nth (32 - i - 1) buf 0) (seq 0 32)).

(** ed25519.go:122-194 Verify.  scalarField.FromBitsOverflow then Reduce: h is any representative below 2^253, modulo the
    group order, of the number whose little-endian bits are the 512 bits of the digest. *)
Definition Verify (originPubs : list Z) (R : point) (S : Z) (msg : list Z) (A : point) : Prop :=
  exists rx ry ax ay sigBytes pubKeyBytes recomposedPbs us msgBytes dg hRam bits h Q Q1 Q2 Q3 Q4,
    rep (fst R) rx /\ rep (snd R) ry /\ point_bytes rx ry = Some sigBytes /\
    rep (fst A) ax /\ rep (snd A) ay /\ point_bytes ax ay = Some pubKeyBytes /\
    recompose_pbkey originPubs = Some recomposedPbs /\
    omap (fun i => assert_eq p (nth i pubKeyBytes 0) (nth i recomposedPbs 0)) (seq 0 32) = Some us /\
    recompose_msg msg = Some msgBytes /\
    run p sha512_code [OpWrite sigBytes; OpWrite pubKeyBytes; OpWrite msgBytes; OpSum] = Some (dg, [hRam]) /\
    omap (fun b => to_binary p b 8) hRam = Some bits /\
    0 <= h < 2 ^ Z.of_nat rBits /\ h mod L25519 = val_le (concat bits) mod L25519 /\
    DoubleBaseScalarMul edBase (ed_neg A) S h Q /\
    ed_assert_on_curve Q /\
    ed_add (ed_neg Q) R Q1 /\
    ed_double Q1 Q2 /\ ed_double Q2 Q3 /\ ed_double Q3 Q4 /\
    ed_assert_q Q4.
End Native.
