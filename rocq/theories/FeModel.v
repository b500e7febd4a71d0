(** * FeModel.v — models circuits/gadgets/ed25519/test/field/{fe,fe_generic}.go: arithmetic modulo 2^255-19 on five uint64 limbs

    A uint64 is the integer it denotes; every operation that can overflow is reduced modulo 2^64, as in Go.  The assembly
    versions of feMul, feSquare and carryPropagate (fe_amd64.s, fe_arm64.s) are not modelled: the generic ones are.
    Receivers and arguments may alias in the code; every function reads its arguments into locals before writing the receiver or
    writes limb i from limbs i only, so functions on values are returned. *)
From Coq Require Import ZArith List Bool Arith.
From Verif Require Import EdBytes.
Import ListNotations.
Open Scope Z_scope.

Definition w64 (x : Z) : Z := x mod 2 ^ 64.
Definition add64 (a b : Z) : Z := w64 (a + b).
Definition sub64 (a b : Z) : Z := w64 (a - b).
Definition mulw (a b : Z) : Z := w64 (a * b).
Definition not64 (a : Z) : Z := 2 ^ 64 - 1 - a.
(** fe.go:36 maskLow51Bits = 1<<51 - 1 *)
Definition mask51 : Z := 2251799813685247.
Definition low51 (x : Z) : Z := Z.land x mask51.
Definition shr51 (x : Z) : Z := Z.shiftr x 51.

(** fe.go:24-34 Element *)
Record fe := Fe { l0 : Z; l1 : Z; l2 : Z; l3 : Z; l4 : Z }.
(** fe.go:38, 45 feZero, feOne, and 40-43 Zero, 48-51 One; 185-188 Set is the identity *)
Definition fe_zero : fe := Fe 0 0 0 0 0.
Definition fe_one : fe := Fe 1 0 0 0 0.

(** fe_generic.go:11-13 uint128 *)
Record u128 := U128 { lo : Z; hi : Z }.
(** fe_generic.go:16-19 mul64: bits.Mul64 *)
Definition mul64 (a b : Z) : u128 := U128 (w64 (a * b)) ((a * b) / 2 ^ 64).
(** fe_generic.go:22-27 addMul64: bits.Add64 returns the sum and the carry; the second carry is dropped *)
Definition addMul64 (v : u128) (a b : Z) : u128 :=
  let m := mul64 a b in
  let s := lo m + lo v in
  U128 (w64 s) (w64 (hi m + hi v + s / 2 ^ 64)).
(** fe_generic.go:30-32 shiftRightBy51: (a.hi << 13) | (a.lo >> 51) *)
Definition shiftRightBy51 (a : u128) : Z := Z.lor (w64 (Z.shiftl (hi a) 13)) (Z.shiftr (lo a) 51).

(** fe_generic.go:250-266 carryPropagateGeneric (all five carries are read before the limbs are written) *)
Definition carryPropagate (v : fe) : fe :=
  let c0 := shr51 (l0 v) in let c1 := shr51 (l1 v) in let c2 := shr51 (l2 v) in let c3 := shr51 (l3 v) in let c4 := shr51 (l4 v) in
  Fe (add64 (low51 (l0 v)) (mulw c4 19)) (add64 (low51 (l1 v)) c0) (add64 (low51 (l2 v)) c1) (add64 (low51 (l3 v)) c2) (add64 (low51 (l4 v)) c3).

(** fe_generic.go:144-162 and 230-245, the same text: from the five wide columns to limbs *)
Definition fe_carry_wide (r0 r1 r2 r3 r4 : u128) : fe :=
  let c0 := shiftRightBy51 r0 in let c1 := shiftRightBy51 r1 in let c2 := shiftRightBy51 r2 in let c3 := shiftRightBy51 r3 in let c4 := shiftRightBy51 r4 in
  carryPropagate (Fe (add64 (low51 (lo r0)) (mulw c4 19)) (add64 (low51 (lo r1)) c0) (add64 (low51 (lo r2)) c1) (add64 (low51 (lo r3)) c2) (add64 (low51 (lo r4)) c3)).
(** fe_generic.go:34-163 feMulGeneric *)
Definition feMul (a b : fe) : fe :=
  let '(Fe a0 a1 a2 a3 a4) := a in let '(Fe b0 b1 b2 b3 b4) := b in
  let a1_19 := mulw a1 19 in let a2_19 := mulw a2 19 in let a3_19 := mulw a3 19 in let a4_19 := mulw a4 19 in
  let r0 := addMul64 (addMul64 (addMul64 (addMul64 (mul64 a0 b0) a1_19 b4) a2_19 b3) a3_19 b2) a4_19 b1 in
  let r1 := addMul64 (addMul64 (addMul64 (addMul64 (mul64 a0 b1) a1 b0) a2_19 b4) a3_19 b3) a4_19 b2 in
  let r2 := addMul64 (addMul64 (addMul64 (addMul64 (mul64 a0 b2) a1 b1) a2 b0) a3_19 b4) a4_19 b3 in
  let r3 := addMul64 (addMul64 (addMul64 (addMul64 (mul64 a0 b3) a1 b2) a2 b1) a3 b0) a4_19 b4 in
  let r4 := addMul64 (addMul64 (addMul64 (addMul64 (mul64 a0 b4) a1 b3) a2 b2) a3 b1) a4 b0 in
  fe_carry_wide r0 r1 r2 r3 r4.
(** fe_generic.go:165-246 feSquareGeneric *)
Definition feSquare (a : fe) : fe :=
  let '(Fe l0 l1 l2 l3 l4) := a in
  let l0_2 := mulw l0 2 in let l1_2 := mulw l1 2 in
  let l1_38 := mulw l1 38 in let l2_38 := mulw l2 38 in let l3_38 := mulw l3 38 in
  let l3_19 := mulw l3 19 in let l4_19 := mulw l4 19 in
  let r0 := addMul64 (addMul64 (mul64 l0 l0) l1_38 l4) l2_38 l3 in
  let r1 := addMul64 (addMul64 (mul64 l0_2 l1) l2_38 l4) l3_19 l3 in
  let r2 := addMul64 (addMul64 (mul64 l0_2 l2) l1 l1) l3_38 l4 in
  let r3 := addMul64 (addMul64 (mul64 l0_2 l3) l1_2 l2) l4_19 l4 in
  let r4 := addMul64 (addMul64 (mul64 l0_2 l4) l1_2 l3) l2 l2 in
  fe_carry_wide r0 r1 r2 r3 r4.

(** fe.go:54-84 reduce *)
Definition fe_reduce (v : fe) : fe :=
  let v := carryPropagate v in
  let c := shr51 (add64 (l0 v) 19) in
  let c := shr51 (add64 (l1 v) c) in
  let c := shr51 (add64 (l2 v) c) in
  let c := shr51 (add64 (l3 v) c) in
  let c := shr51 (add64 (l4 v) c) in
  let t0 := add64 (l0 v) (mulw 19 c) in
  let t1 := add64 (l1 v) (shr51 t0) in
  let t2 := add64 (l2 v) (shr51 t1) in
  let t3 := add64 (l3 v) (shr51 t2) in
  let t4 := add64 (l4 v) (shr51 t3) in
  Fe (low51 t0) (low51 t1) (low51 t2) (low51 t3) (low51 t4).
(** fe.go:87-98 Add *)
Definition fe_add (a b : fe) : fe :=
  carryPropagate (Fe (add64 (l0 a) (l0 b)) (add64 (l1 a) (l1 b)) (add64 (l2 a) (l2 b)) (add64 (l3 a) (l3 b)) (add64 (l4 a) (l4 b))).
(** fe.go:101-110 Subtract *)
Definition fe_sub (a b : fe) : fe :=
  carryPropagate (Fe (sub64 (add64 (l0 a) 0xFFFFFFFFFFFDA) (l0 b)) (sub64 (add64 (l1 a) 0xFFFFFFFFFFFFE) (l1 b)) (sub64 (add64 (l2 a) 0xFFFFFFFFFFFFE) (l2 b))
    (sub64 (add64 (l3 a) 0xFFFFFFFFFFFFE) (l3 b)) (sub64 (add64 (l4 a) 0xFFFFFFFFFFFFE) (l4 b))).
(** fe.go:113-115 Negate *)
Definition fe_neg (a : fe) : fe := fe_sub fe_zero a.
(** for i := 0; i < n; i++ { t.Square(t) } *)
Fixpoint sqn (n : nat) (t : fe) : fe := match n with O => t | S k => sqn k (feSquare t) end.
(** fe.go:120-182 Invert (fe.go:302-305 Multiply and 308-311 Square are feMul and feSquare) *)
Definition fe_invert (z : fe) : fe :=
  let z2 := feSquare z in
  let t := feSquare z2 in
  let t := feSquare t in
  let z9 := feMul t z in
  let z11 := feMul z9 z2 in
  let t := feSquare z11 in
  let z2_5_0 := feMul t z9 in
  let t := sqn 4 (feSquare z2_5_0) in
  let z2_10_0 := feMul t z2_5_0 in
  let t := sqn 9 (feSquare z2_10_0) in
  let z2_20_0 := feMul t z2_10_0 in
  let t := sqn 19 (feSquare z2_20_0) in
  let t := feMul t z2_20_0 in
  let t := sqn 9 (feSquare t) in
  let z2_50_0 := feMul t z2_10_0 in
  let t := sqn 49 (feSquare z2_50_0) in
  let z2_100_0 := feMul t z2_50_0 in
  let t := sqn 99 (feSquare z2_100_0) in
  let t := feMul t z2_100_0 in
  let t := sqn 49 (feSquare t) in
  let t := feMul t z2_50_0 in
  let t := feSquare t in let t := feSquare t in let t := feSquare t in let t := feSquare t in let t := feSquare t in
  feMul t z11.

(** binary.LittleEndian.Uint64(x[i:i+8]) *)
Definition le64_at (x : list Z) (i : nat) : Z := le_val (firstn 8 (skipn i x)).
(** fe.go:198-221 SetBytes (an error for a length other than 32) *)
Definition fe_set_bytes (x : list Z) : option fe :=
  if Nat.eqb (length x) 32 then
    Some (Fe (low51 (le64_at x 0)) (low51 (Z.shiftr (le64_at x 6) 3)) (low51 (Z.shiftr (le64_at x 12) 6)) (low51 (Z.shiftr (le64_at x 19) 1)) (low51 (Z.shiftr (le64_at x 24) 12)))
  else None.
(** out[off] |= b *)
Definition or_at (out : list Z) (off : nat) (b : Z) : list Z := firstn off out ++ Z.lor (nth off out 0) b :: skipn (S off) out.
(** fe.go:239-246, one limb: the inner loop breaks at the end of the array *)
Definition fe_or_limb (out : list Z) (il : nat * Z) : list Z :=
  let '(i, l) := il in
  let bitsOffset := (i * 51)%nat in
  let buf := le_bytes 8 (w64 (Z.shiftl l (Z.of_nat (bitsOffset mod 8)))) in
  fold_left (fun out '(j, bb) => let off := (bitsOffset / 8 + j)%nat in if Nat.leb 32 off then out else or_at out off bb) (combine (seq 0 8) buf) out.
(** fe.go:224-229 Bytes, 231-249 bytes *)
Definition fe_bytes (v : fe) : list Z :=
  let t := fe_reduce v in fold_left fe_or_limb (combine (seq 0 5) [l0 t; l1 t; l2 t; l3 t; l4 t]) (repeat 0 32).
(** fe.go:252-255 Equal: subtle.ConstantTimeCompare of equally long slices *)
Definition fe_equal (v u : fe) : Z := if list_eq_dec Z.eq_dec (fe_bytes u) (fe_bytes v) then 1 else 0.
(** fe.go:258 mask64Bits: ^(uint64(cond) - 1) *)
Definition mask64 (cond : Z) : Z := not64 (sub64 cond 1).
(** fe.go:261-269 Select *)
Definition sel64 (m a b : Z) : Z := Z.lor (Z.land m a) (Z.land (not64 m) b).
Definition fe_select (a b : fe) (cond : Z) : fe :=
  let m := mask64 cond in
  Fe (sel64 m (l0 a) (l0 b)) (sel64 m (l1 a) (l1 b)) (sel64 m (l2 a) (l2 b)) (sel64 m (l3 a) (l3 b)) (sel64 m (l4 a) (l4 b)).
(** fe.go:272-289 Swap *)
Definition swap64 (m a b : Z) : Z * Z := let t := Z.land m (Z.lxor a b) in (Z.lxor a t, Z.lxor b t).
Definition fe_swap (v u : fe) (cond : Z) : fe * fe :=
  let m := mask64 cond in
  let '(v0, u0) := swap64 m (l0 v) (l0 u) in let '(v1, u1) := swap64 m (l1 v) (l1 u) in let '(v2, u2) := swap64 m (l2 v) (l2 u) in
  let '(v3, u3) := swap64 m (l3 v) (l3 u) in let '(v4, u4) := swap64 m (l4 v) (l4 u) in
  (Fe v0 v1 v2 v3 v4, Fe u0 u1 u2 u3 u4).
(** fe.go:292-294 IsNegative *)
Definition fe_is_negative (v : fe) : Z := Z.land (nth 0 (fe_bytes v) 0) 1.
(** fe.go:297-299 Absolute *)
Definition fe_absolute (u : fe) : fe := fe_select (fe_neg u) u (fe_is_negative u).
(** fe.go:331-336 mul51 *)
Definition mul51 (a b : Z) : Z * Z := let m := mul64 a b in (low51 (lo m), Z.lor (w64 (Z.shiftl (hi m) 13)) (Z.shiftr (lo m) 51)).
(** fe.go:314-328 Mult32 *)
Definition fe_mult32 (x : fe) (y : Z) : fe :=
  let '(x0lo, x0hi) := mul51 (l0 x) y in let '(x1lo, x1hi) := mul51 (l1 x) y in let '(x2lo, x2hi) := mul51 (l2 x) y in
  let '(x3lo, x3hi) := mul51 (l3 x) y in let '(x4lo, x4hi) := mul51 (l4 x) y in
  Fe (add64 x0lo (mulw 19 x4hi)) (add64 x1lo x0hi) (add64 x2lo x1hi) (add64 x3lo x2hi) (add64 x4lo x3hi).
(** fe.go:339-387 Pow22523: a loop from 1 below n squares n-1 times *)
Definition fe_pow22523 (x : fe) : fe :=
  let t0 := feSquare x in
  let t1 := feSquare t0 in
  let t1 := feSquare t1 in
  let t1 := feMul x t1 in
  let t0 := feMul t0 t1 in
  let t0 := feSquare t0 in
  let t0 := feMul t1 t0 in
  let t1 := sqn 4 (feSquare t0) in
  let t0 := feMul t1 t0 in
  let t1 := sqn 9 (feSquare t0) in
  let t1 := feMul t1 t0 in
  let t2 := sqn 19 (feSquare t1) in
  let t1 := feMul t2 t1 in
  let t1 := sqn 9 (feSquare t1) in
  let t0 := feMul t1 t0 in
  let t1 := sqn 49 (feSquare t0) in
  let t1 := feMul t1 t0 in
  let t2 := sqn 99 (feSquare t1) in
  let t1 := feMul t2 t1 in
  let t1 := sqn 49 (feSquare t1) in
  let t0 := feMul t1 t0 in
  let t0 := feSquare t0 in
  let t0 := feSquare t0 in
  feMul t0 x.
(** fe.go:389-391 sqrtM1 *)
Definition fe_sqrtM1 : fe := Fe 1718705420411056 234908883556509 2233514472574048 2117202627021982 765476049583133.
(** fe.go:398-420 SqrtRatio *)
Definition fe_sqrt_ratio (u v : fe) : fe * Z :=
  let v2 := feSquare v in
  let uv3 := feMul u (feMul v2 v) in
  let uv7 := feMul uv3 (feSquare v2) in
  let rr := feMul uv3 (fe_pow22523 uv7) in
  let check := feMul v (feSquare rr) in
  let uNeg := fe_neg u in
  let correctSignSqrt := fe_equal check u in
  let flippedSignSqrt := fe_equal check uNeg in
  let flippedSignSqrtI := fe_equal check (feMul uNeg fe_sqrtM1) in
  let rPrime := feMul rr fe_sqrtM1 in
  let rr := fe_select rPrime rr (Z.lor flippedSignSqrt flippedSignSqrtI) in
  (fe_absolute rr, Z.lor correctSignSqrt flippedSignSqrt).
