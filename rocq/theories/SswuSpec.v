(** * SswuSpec.v — RFC 9380: the simplified SWU map (6.6.2) and the 3-isogeny (E.3) of the suite BLS12381G2 (8.8.2), and
    encode_to_curve / hash_to_curve (3) (specification; nothing here is taken from the code) *)
From Coq Require Import ZArith NArith List Bool.
From Verif Require Import FieldZ PrimeBls TowerModel TowerSpec PairingModel G2Model H2CSpec WSpec G2Spec.
Import ListNotations.
Open Scope Z_scope.

(** section 8.8.2: Z = -(2 + I), E' : y'^2 = x'^3 + A' x' + B', A' = 240 I, B' = 1012 (1 + I) *)
Definition mapZ : E2 := cx (-2) (-1).
Definition mapA : E2 := cx 0 240.
Definition mapB : E2 := cx 1012 1012.
Definition mapg (x : E2) : E2 := add2 (add2 (mul2 (mul2 x x) x) (mul2 mapA x)) mapB.
Definition is_square2 (a : E2) : Prop := exists s, mul2 s s = a.
(** section 6.6.2, steps 1-3: x1 *)
Definition sswu_t (u : E2) : E2 := let zu2 := mul2 mapZ (mul2 u u) in add2 (mul2 zu2 zu2) zu2.
Definition sswu_x1 (u : E2) : E2 :=
  if dec2 (sswu_t u) zero2 then mul2 mapB (inv2 (mul2 mapZ mapA))
  else mul2 (mul2 (opp2 mapB) (inv2 mapA)) (add2 one2 (inv2 (sswu_t u))).
Definition sswu_x2 (u : E2) : E2 := mul2 (mul2 mapZ (mul2 u u)) (sswu_x1 u).
(** steps 4-8: the point (x, y) *)
Definition sswu (u x y : E2) : Prop :=
  (is_square2 (mapg (sswu_x1 u)) /\ x = sswu_x1 u \/ ~ is_square2 (mapg (sswu_x1 u)) /\ x = sswu_x2 u) /\
  mul2 y y = mapg x /\ sgn0 u = sgn0 y.

(** appendix E.3: the coefficients k_(i,j), each as a + b*I *)
Definition pI (a b : Z) : E2 := cx a b.
Definition k10 := pI 0x5c759507e8e333ebb5b7a9a47d7ed8532c52d39fd3a042a88b58423c50ae15d5c2638e343d9c71c6238aaaaaaaa97d6 0x5c759507e8e333ebb5b7a9a47d7ed8532c52d39fd3a042a88b58423c50ae15d5c2638e343d9c71c6238aaaaaaaa97d6.
Definition k11 := pI 0 0x11560bf17baa99bc32126fced787c88f984f87adf7ae0c7f9a208c6b4f20a4181472aaa9cb8d555526a9ffffffffc71a.
Definition k12 := pI 0x11560bf17baa99bc32126fced787c88f984f87adf7ae0c7f9a208c6b4f20a4181472aaa9cb8d555526a9ffffffffc71e 0x8ab05f8bdd54cde190937e76bc3e447cc27c3d6fbd7063fcd104635a790520c0a395554e5c6aaaa9354ffffffffe38d.
Definition k13 := pI 0x171d6541fa38ccfaed6dea691f5fb614cb14b4e7f4e810aa22d6108f142b85757098e38d0f671c7188e2aaaaaaaa5ed1 0.
Definition k20 := pI 0 0x1a0111ea397fe69a4b1ba7b6434bacd764774b84f38512bf6730d2a0f6b0f6241eabfffeb153ffffb9feffffffffaa63.
Definition k21 := pI 0xc 0x1a0111ea397fe69a4b1ba7b6434bacd764774b84f38512bf6730d2a0f6b0f6241eabfffeb153ffffb9feffffffffaa9f.
Definition k30 := pI 0x1530477c7ab4113b59a4c18b076d11930f7da5d4a07f649bf54439d87d27e500fc8c25ebf8c92f6812cfc71c71c6d706 0x1530477c7ab4113b59a4c18b076d11930f7da5d4a07f649bf54439d87d27e500fc8c25ebf8c92f6812cfc71c71c6d706.
Definition k31 := pI 0 0x5c759507e8e333ebb5b7a9a47d7ed8532c52d39fd3a042a88b58423c50ae15d5c2638e343d9c71c6238aaaaaaaa97be.
Definition k32 := pI 0x11560bf17baa99bc32126fced787c88f984f87adf7ae0c7f9a208c6b4f20a4181472aaa9cb8d555526a9ffffffffc71c 0x8ab05f8bdd54cde190937e76bc3e447cc27c3d6fbd7063fcd104635a790520c0a395554e5c6aaaa9354ffffffffe38f.
Definition k33 := pI 0x124c9ad43b6cf79bfbf7043de3811ad0761b0f37a1e26286b0e977c69aa274524e79097a56dc4bd9e1b371c71c718b10 0.
Definition k40 := pI 0x1a0111ea397fe69a4b1ba7b6434bacd764774b84f38512bf6730d2a0f6b0f6241eabfffeb153ffffb9feffffffffa8fb 0x1a0111ea397fe69a4b1ba7b6434bacd764774b84f38512bf6730d2a0f6b0f6241eabfffeb153ffffb9feffffffffa8fb.
Definition k41 := pI 0 0x1a0111ea397fe69a4b1ba7b6434bacd764774b84f38512bf6730d2a0f6b0f6241eabfffeb153ffffb9feffffffffa9d3.
Definition k42 := pI 0x12 0x1a0111ea397fe69a4b1ba7b6434bacd764774b84f38512bf6730d2a0f6b0f6241eabfffeb153ffffb9feffffffffaa99.
(** x = x_num / x_den, y = y' * y_num / y_den; when a denominator is zero the map returns the identity *)
Definition x_num (x : E2) : E2 := add2 (add2 (add2 (mul2 k13 (mul2 x (mul2 x x))) (mul2 k12 (mul2 x x))) (mul2 k11 x)) k10.
Definition x_den (x : E2) : E2 := add2 (add2 (mul2 x x) (mul2 k21 x)) k20.
Definition y_num (x : E2) : E2 := add2 (add2 (add2 (mul2 k33 (mul2 x (mul2 x x))) (mul2 k32 (mul2 x x))) (mul2 k31 x)) k30.
Definition y_den (x : E2) : E2 := add2 (add2 (add2 (mul2 x (mul2 x x)) (mul2 k42 (mul2 x x))) (mul2 k41 x)) k40.
Definition iso_map (x y : E2) : gpoint :=
  if dec2 (x_den x) zero2 then None else if dec2 (y_den x) zero2 then None
  else Some (mul2 (x_num x) (inv2 (x_den x)), mul2 (mul2 y (y_num x)) (inv2 (y_den x))).

(** section 3: P is the result of encode_to_curve / hash_to_curve on msg *)
Definition map_to_curve (u : E2) (P : gpoint) : Prop := exists x y, sswu u x y /\ P = iso_map x y.
Definition encode_to_curve (msg : list Z) (P : gpoint) : Prop :=
  exists Q, map_to_curve (nth 0 (hash_to_field_spec msg 1) zero2) Q /\ P = clear_cofactor_spec Q.
Definition hash_to_curve (msg : list Z) (P : gpoint) : Prop :=
  exists Q0 Q1, map_to_curve (nth 0 (hash_to_field_spec msg 2) zero2) Q0 /\ map_to_curve (nth 1 (hash_to_field_spec msg 2) zero2) Q1 /\
  P = clear_cofactor_spec (gadd Q0 Q1).
