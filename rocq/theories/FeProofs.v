(** * FeProofs.v — the limb arithmetic of FeModel.v computes in the integers modulo 2^255-19 *)
From Coq Require Import ZArith List Lia Bool Arith.
From Verif Require Import Field FieldLemmas KeccakModel SliceModel EdBytes FeModel.
From Verif Require EdSpec.
Import ListNotations.
Open Scope Z_scope.

(** the modulus of RFC 8032, as in EdSpec.v *)
Notation q5 := EdSpec.q.
Lemma q5_is : q5 = 2 ^ 255 - 19. Proof. reflexivity. Qed.
(** the integer an element denotes *)
Definition value (v : fe) : Z := l0 v + l1 v * 2 ^ 51 + l2 v * 2 ^ 102 + l3 v * 2 ^ 153 + l4 v * 2 ^ 204.
Definition limbs_below (b : Z) (v : fe) : Prop := (0 <= l0 v < b) /\ (0 <= l1 v < b) /\ (0 <= l2 v < b) /\ (0 <= l3 v < b) /\ (0 <= l4 v < b).
Definition u64fe := limbs_below (2 ^ 64).
Definition doc_ok := limbs_below (2 ^ 52).
(** limbs below 2^51 + 2^38 *)
Definition fe_ok := limbs_below 2252074691592192.
Definition eqm (x y : Z) : Prop := x mod q5 = y mod q5.

Lemma low51_mod x : low51 x = x mod 2 ^ 51.
Proof. unfold low51. change mask51 with (Z.ones 51). apply Z.land_ones. lia. Qed.
Lemma shr51_div x : shr51 x = x / 2 ^ 51.
Proof. unfold shr51. apply Z.shiftr_div_pow2. lia. Qed.
Lemma lor_disjoint a b n : 0 <= n -> 0 <= b < 2 ^ n -> Z.lor (a * 2 ^ n) b = a * 2 ^ n + b.
Proof.
  intros Hn Hb. assert (E : Z.land (a * 2 ^ n) b = 0).
  { apply Z.bits_inj'. intros m Hm. rewrite Z.land_spec, Z.bits_0. destruct (Z.lt_ge_cases m n) as [G|G].
    - rewrite Z.mul_pow2_bits_low by lia. reflexivity.
    - rewrite <- (Z.mod_small b (2 ^ n)) by lia. rewrite Z.mod_pow2_bits_high by lia. apply andb_false_r. }
  rewrite <- Z.lxor_lor by exact E. symmetry. apply Z.add_nocarry_lxor. exact E.
Qed.
Ltac consts := change (2 ^ 51) with 2251799813685248 in *; change (2 ^ 52) with 4503599627370496 in *; change (2 ^ 64) with 18446744073709551616 in *; change (2 ^ 13) with 8192 in *;
  change (2 ^ 128) with 340282366920938463463374607431768211456 in *; change (2 ^ 115) with 41538374868278621028243970633760768 in *.
Lemma eqm_k x y k : x = y + k * q5 -> eqm x y.
Proof. intros ->. unfold eqm. apply Z_mod_plus_full. Qed.

(** ** carries *)
Lemma split51 x : 0 <= x < 2 ^ 64 -> exists h l, x = h * 2 ^ 51 + l /\ 0 <= l < 2 ^ 51 /\ 0 <= h < 2 ^ 13 /\ low51 x = l /\ shr51 x = h.
Proof.
  intros H. exists (x / 2 ^ 51), (x mod 2 ^ 51). rewrite low51_mod, shr51_div. split; [rewrite Z.mul_comm; apply Z.div_mod; lia|]. split; [apply Z.mod_pos_bound; lia|]. split; [|auto].
  split; [apply Z.div_pos; lia|apply Z.div_lt_upper_bound; [lia|change (2 ^ 51 * 2 ^ 13) with (2 ^ 64); lia]].
Qed.
Lemma carry_exact v : u64fe v -> exists c, 0 <= c < 2 ^ 13 /\ value (carryPropagate v) = value v - c * q5 /\
  (0 <= l0 (carryPropagate v) < 2 ^ 51 + 19 * 2 ^ 13) /\ (0 <= l1 (carryPropagate v) < 2 ^ 51 + 2 ^ 13) /\ (0 <= l2 (carryPropagate v) < 2 ^ 51 + 2 ^ 13) /\
  (0 <= l3 (carryPropagate v) < 2 ^ 51 + 2 ^ 13) /\ (0 <= l4 (carryPropagate v) < 2 ^ 51 + 2 ^ 13).
Proof.
  intros (H0 & H1 & H2 & H3 & H4). destruct v as [a0 a1 a2 a3 a4]. cbn [l0 l1 l2 l3 l4] in *.
  destruct (split51 _ H0) as (h0 & b0 & E0 & B0 & C0 & L0 & S0). destruct (split51 _ H1) as (h1 & b1 & E1 & B1 & C1 & L1 & S1).
  destruct (split51 _ H2) as (h2 & b2 & E2 & B2 & C2 & L2 & S2). destruct (split51 _ H3) as (h3 & b3 & E3 & B3 & C3 & L3 & S3).
  destruct (split51 _ H4) as (h4 & b4 & E4 & B4 & C4 & L4 & S4). exists h4. split; [auto|].
  unfold carryPropagate. cbv zeta. cbn [l0 l1 l2 l3 l4]. rewrite L0, L1, L2, L3, L4, S0, S1, S2, S3, S4. unfold add64, mulw, w64.
  rewrite (Z.mod_small (h4 * 19)) by (consts; lia). rewrite !Z.mod_small by (consts; lia). unfold value. cbn [l0 l1 l2 l3 l4].
  split; [|consts; lia]. rewrite E0, E1, E2, E3, E4. rewrite q5_is.
  change (2 ^ 255) with (2 ^ 204 * 2 ^ 51). change (2 ^ 102) with (2 ^ 51 * 2 ^ 51). change (2 ^ 153) with (2 ^ 51 * 2 ^ 51 * 2 ^ 51). change (2 ^ 204) with (2 ^ 51 * 2 ^ 51 * 2 ^ 51 * 2 ^ 51). set (X := 2 ^ 51). ring.
Qed.
Lemma carry_ok v : u64fe v -> fe_ok (carryPropagate v) /\ eqm (value (carryPropagate v)) (value v).
Proof.
  intros H. destruct (carry_exact v H) as (c & Hc & E & B0 & B1 & B2 & B3 & B4). split; [unfold fe_ok, limbs_below; consts; lia|]. apply (eqm_k _ _ (- c)). lia.
Qed.
Lemma ok_doc v : fe_ok v -> doc_ok v.
Proof. unfold fe_ok, doc_ok, limbs_below. consts. lia. Qed.
Lemma doc_u64 v : doc_ok v -> u64fe v.
Proof. unfold u64fe, doc_ok, limbs_below. consts. lia. Qed.

(** ** wide words *)
Definition wide (u : u128) : Z := lo u + 2 ^ 64 * hi u.
Definition u128_ok (u : u128) : Prop := 0 <= lo u < 2 ^ 64 /\ 0 <= hi u < 2 ^ 64.
Lemma mul64_ok a b : 0 <= a -> 0 <= b -> a * b < 2 ^ 128 -> wide (mul64 a b) = a * b /\ u128_ok (mul64 a b).
Proof.
  intros Ha Hb H. assert (Hab : 0 <= a * b) by (apply Z.mul_nonneg_nonneg; lia). set (x := a * b) in *. unfold wide, u128_ok, mul64. cbn [lo hi]. fold x. unfold w64. split.
  - pose proof (Z.div_mod x (2 ^ 64) ltac:(lia)). lia.
  - split; [apply Z.mod_pos_bound; lia|]. split; [apply Z.div_pos; lia|apply Z.div_lt_upper_bound; [lia|change (2 ^ 64 * 2 ^ 64) with (2 ^ 128); lia]].
Qed.
Lemma addMul64_ok v a b : u128_ok v -> 0 <= a -> 0 <= b -> wide v + a * b < 2 ^ 128 -> wide (addMul64 v a b) = wide v + a * b /\ u128_ok (addMul64 v a b).
Proof.
  intros (Hl & Hh) Ha Hb H. assert (Hab : 0 <= a * b) by (apply Z.mul_nonneg_nonneg; lia). unfold wide in H.
  assert (H' : a * b < 2 ^ 128) by (consts; lia). destruct (mul64_ok a b Ha Hb H') as (Em & Lm & Hm). unfold addMul64. cbv zeta. set (m := mul64 a b) in *.
  unfold wide in *. cbn [lo hi]. unfold w64. pose proof (Z.div_mod (lo m + lo v) (2 ^ 64) ltac:(lia)) as Ds. pose proof (Z.mod_pos_bound (lo m + lo v) (2 ^ 64) ltac:(lia)) as Bs.
  assert (0 <= (lo m + lo v) / 2 ^ 64) by (apply Z.div_pos; lia). set (c := (lo m + lo v) / 2 ^ 64) in *. set (r := (lo m + lo v) mod 2 ^ 64) in *.
  assert (G : 0 <= hi m + hi v + c < 2 ^ 64) by (consts; lia). rewrite (Z.mod_small (hi m + hi v + c)) by exact G. split; [lia|]. unfold u128_ok. cbn [lo hi]. fold r. auto.
Qed.
Lemma shr_wide u : u128_ok u -> wide u < 2 ^ 115 -> shiftRightBy51 u = wide u / 2 ^ 51 /\ low51 (lo u) = wide u mod 2 ^ 51.
Proof.
  intros (Hl & Hh) H. unfold wide in *. unfold shiftRightBy51, w64. rewrite Z.shiftl_mul_pow2, Z.shiftr_div_pow2, low51_mod by lia.
  assert (G : hi u < 2 ^ 51) by (consts; lia). rewrite Z.mod_small by (consts; lia). rewrite lor_disjoint; [|lia|].
  2:{ split; [apply Z.div_pos; lia|apply Z.div_lt_upper_bound; [lia|change (2 ^ 51 * 2 ^ 13) with (2 ^ 64); lia]]. }
  change (2 ^ 64) with (2 ^ 13 * 2 ^ 51). replace (lo u + 2 ^ 13 * 2 ^ 51 * hi u) with (lo u + (hi u * 2 ^ 13) * 2 ^ 51) by ring.
  rewrite Z.div_add, Z_mod_plus_full by lia. split; [ring|reflexivity].
Qed.
(** five columns to an element *)
Lemma carry_wide_ok r0 r1 r2 r3 r4 : u128_ok r0 -> u128_ok r1 -> u128_ok r2 -> u128_ok r3 -> u128_ok r4 ->
  wide r0 < 2 ^ 111 -> wide r1 < 2 ^ 111 -> wide r2 < 2 ^ 111 -> wide r3 < 2 ^ 111 -> wide r4 < 2 ^ 107 ->
  fe_ok (fe_carry_wide r0 r1 r2 r3 r4) /\
  eqm (value (fe_carry_wide r0 r1 r2 r3 r4)) (wide r0 + wide r1 * 2 ^ 51 + wide r2 * 2 ^ 102 + wide r3 * 2 ^ 153 + wide r4 * 2 ^ 204).
Proof.
  intros U0 U1 U2 U3 U4 W0 W1 W2 W3 W4. assert (T : 2 ^ 111 < 2 ^ 115) by reflexivity. assert (T' : 2 ^ 107 < 2 ^ 115) by reflexivity.
  destruct (shr_wide r0 U0 ltac:(lia)) as (S0 & L0). destruct (shr_wide r1 U1 ltac:(lia)) as (S1 & L1). destruct (shr_wide r2 U2 ltac:(lia)) as (S2 & L2).
  destruct (shr_wide r3 U3 ltac:(lia)) as (S3 & L3). destruct (shr_wide r4 U4 ltac:(lia)) as (S4 & L4). unfold fe_carry_wide. cbv zeta. rewrite S0, S1, S2, S3, S4, L0, L1, L2, L3, L4.
  assert (P : forall u, u128_ok u -> 0 <= wide u) by (intros u ((?&?)&(?&?)); unfold wide; lia). pose proof (P r0 U0). pose proof (P r1 U1). pose proof (P r2 U2). pose proof (P r3 U3). pose proof (P r4 U4).
  set (x0 := wide r0) in *. set (x1 := wide r1) in *. set (x2 := wide r2) in *. set (x3 := wide r3) in *. set (x4 := wide r4) in *. clearbody x0 x1 x2 x3 x4. clear - W0 W1 W2 W3 W4 H H0 H1 H2 H3.
  assert (D : forall x n, 0 <= x -> x < 2 ^ (n + 51) -> 0 <= n -> 0 <= x / 2 ^ 51 < 2 ^ n).
  { intros x n Hx Hl Hn. split; [apply Z.div_pos; lia|]. apply Z.div_lt_upper_bound; [lia|]. rewrite <- Z.pow_add_r by lia. replace (51 + n) with (n + 51) by lia. exact Hl. }
  pose proof (D x0 60 H W0 ltac:(lia)). pose proof (D x1 60 H0 W1 ltac:(lia)). pose proof (D x2 60 H1 W2 ltac:(lia)). pose proof (D x3 60 H2 W3 ltac:(lia)). pose proof (D x4 56 H3 W4 ltac:(lia)). clear D.
  pose proof (Z.mod_pos_bound x0 (2 ^ 51) ltac:(lia)). pose proof (Z.mod_pos_bound x1 (2 ^ 51) ltac:(lia)). pose proof (Z.mod_pos_bound x2 (2 ^ 51) ltac:(lia)). pose proof (Z.mod_pos_bound x3 (2 ^ 51) ltac:(lia)). pose proof (Z.mod_pos_bound x4 (2 ^ 51) ltac:(lia)).
  pose proof (Z.div_mod x0 (2 ^ 51) ltac:(lia)) as M0. pose proof (Z.div_mod x1 (2 ^ 51) ltac:(lia)) as M1. pose proof (Z.div_mod x2 (2 ^ 51) ltac:(lia)) as M2. pose proof (Z.div_mod x3 (2 ^ 51) ltac:(lia)) as M3. pose proof (Z.div_mod x4 (2 ^ 51) ltac:(lia)) as M4.
  set (h0 := x0 / 2 ^ 51) in *. set (b0 := x0 mod 2 ^ 51) in *. set (h1 := x1 / 2 ^ 51) in *. set (b1 := x1 mod 2 ^ 51) in *. set (h2 := x2 / 2 ^ 51) in *. set (b2 := x2 mod 2 ^ 51) in *.
  set (h3 := x3 / 2 ^ 51) in *. set (b3 := x3 mod 2 ^ 51) in *. set (h4 := x4 / 2 ^ 51) in *. set (b4 := x4 mod 2 ^ 51) in *. clearbody h0 h1 h2 h3 h4 b0 b1 b2 b3 b4.
  change (2 ^ 60) with 1152921504606846976 in *. change (2 ^ 56) with 72057594037927936 in *.
  unfold add64, mulw, w64. rewrite (Z.mod_small (h4 * 19)) by (consts; lia). rewrite !Z.mod_small by (consts; lia).
  match goal with |- fe_ok (carryPropagate ?v) /\ _ => assert (Hv : u64fe v) by (unfold u64fe, limbs_below; cbn [l0 l1 l2 l3 l4]; consts; lia); destruct (carry_ok v Hv) as (Ok & Eq) end.
  split; [exact Ok|]. unfold eqm in *. rewrite Eq. apply (eqm_k _ _ (- h4)). unfold value. cbn [l0 l1 l2 l3 l4]. rewrite M0, M1, M2, M3, M4. rewrite q5_is.
  change (2 ^ 255) with (2 ^ 51 * 2 ^ 51 * 2 ^ 51 * 2 ^ 51 * 2 ^ 51). change (2 ^ 102) with (2 ^ 51 * 2 ^ 51). change (2 ^ 153) with (2 ^ 51 * 2 ^ 51 * 2 ^ 51). change (2 ^ 204) with (2 ^ 51 * 2 ^ 51 * 2 ^ 51 * 2 ^ 51). generalize (2 ^ 51). intros X. ring.
Qed.
Lemma mul_bound a b A B : 0 <= a < A -> 0 <= b < B -> 0 <= a * b <= A * B.
Proof. intros Ha Hb. split; [apply Z.mul_nonneg_nonneg; lia|]. apply Z.mul_le_mono_nonneg; lia. Qed.
Lemma sum5 x0 x1 x2 x3 x4 B0 B1 B2 B3 B4 B : 0 <= x0 <= B0 -> 0 <= x1 <= B1 -> 0 <= x2 <= B2 -> 0 <= x3 <= B3 -> 0 <= x4 <= B4 -> B0 + B1 + B2 + B3 + B4 < B -> x0 + x1 + x2 + x3 + x4 < B.
Proof. lia. Qed.
Lemma feMul_ok a b : doc_ok a -> doc_ok b -> fe_ok (feMul a b) /\ eqm (value (feMul a b)) (value a * value b).
Proof.
  intros (A0 & A1 & A2 & A3 & A4) (B0 & B1 & B2 & B3 & B4). destruct a as [a0 a1 a2 a3 a4], b as [b0 b1 b2 b3 b4]. cbn [l0 l1 l2 l3 l4] in *. unfold feMul. cbv zeta.
  change (2 ^ 52) with 4503599627370496 in *.
  assert (W19 : forall x, 0 <= x < 4503599627370496 -> mulw x 19 = x * 19 /\ 0 <= x * 19 < 85568392920039424) by (intros x Hx; unfold mulw, w64; rewrite Z.mod_small by (consts; lia); lia).
  destruct (W19 a1 A1) as (-> & A19). destruct (W19 a2 A2) as (-> & A29). destruct (W19 a3 A3) as (-> & A39). destruct (W19 a4 A4) as (-> & A49). clear W19.
  assert (M : forall x y, 0 <= x < 4503599627370496 -> 0 <= y < 4503599627370496 -> 0 <= x * y <= 20282409603651670423947251286016) by (intros x y Hx Hy; exact (mul_bound _ _ _ _ Hx Hy)).
  assert (M9 : forall x y, 0 <= x * 19 < 85568392920039424 -> 0 <= y < 4503599627370496 -> 0 <= x * 19 * y <= 385365782469381738054997774434304) by (intros x y Hx Hy; exact (mul_bound _ _ _ _ Hx Hy)).
  assert (C : forall x0 y0 x1 y1 x2 y2 x3 y3 x4 y4 B, 0 <= x0 -> 0 <= y0 -> 0 <= x1 -> 0 <= y1 -> 0 <= x2 -> 0 <= y2 -> 0 <= x3 -> 0 <= y3 -> 0 <= x4 -> 0 <= y4 ->
    x0 * y0 + x1 * y1 + x2 * y2 + x3 * y3 + x4 * y4 < B -> B <= 2 ^ 128 ->
    let r := addMul64 (addMul64 (addMul64 (addMul64 (mul64 x0 y0) x1 y1) x2 y2) x3 y3) x4 y4 in u128_ok r /\ wide r = x0 * y0 + x1 * y1 + x2 * y2 + x3 * y3 + x4 * y4).
  { intros x0 y0 x1 y1 x2 y2 x3 y3 x4 y4 B HX0 HY0 HX1 HY1 HX2 HY2 HX3 HY3 HX4 HY4 HS HB r.
    assert (N0 : 0 <= x0 * y0) by (apply Z.mul_nonneg_nonneg; lia). assert (N1 : 0 <= x1 * y1) by (apply Z.mul_nonneg_nonneg; lia). assert (N2 : 0 <= x2 * y2) by (apply Z.mul_nonneg_nonneg; lia).
    assert (N3 : 0 <= x3 * y3) by (apply Z.mul_nonneg_nonneg; lia). assert (N4 : 0 <= x4 * y4) by (apply Z.mul_nonneg_nonneg; lia).
    destruct (mul64_ok x0 y0 HX0 HY0 ltac:(lia)) as (E0 & U0). destruct (addMul64_ok _ x1 y1 U0 HX1 HY1 ltac:(lia)) as (E1 & U1). destruct (addMul64_ok _ x2 y2 U1 HX2 HY2 ltac:(lia)) as (E2 & U2).
    destruct (addMul64_ok _ x3 y3 U2 HX3 HY3 ltac:(lia)) as (E3 & U3). destruct (addMul64_ok _ x4 y4 U3 HX4 HY4 ltac:(lia)) as (E4 & U4). split; [exact U4|]. unfold r. lia. }
  assert (T128 : 2 ^ 111 <= 2 ^ 128) by (intros Hc; discriminate Hc). assert (T107 : 2 ^ 107 <= 2 ^ 128) by (intros Hc; discriminate Hc).
  assert (P0 := C a0 b0 (a1 * 19) b4 (a2 * 19) b3 (a3 * 19) b2 (a4 * 19) b1 (2 ^ 111)). assert (P1 := C a0 b1 a1 b0 (a2 * 19) b4 (a3 * 19) b3 (a4 * 19) b2 (2 ^ 111)).
  assert (P2 := C a0 b2 a1 b1 a2 b0 (a3 * 19) b4 (a4 * 19) b3 (2 ^ 111)). assert (P3 := C a0 b3 a1 b2 a2 b1 a3 b0 (a4 * 19) b4 (2 ^ 111)). assert (P4 := C a0 b4 a1 b3 a2 b2 a3 b1 a4 b0 (2 ^ 107)). clear C. cbv zeta in *.
  change (2 ^ 111) with 2596148429267413814265248164610048 in *. change (2 ^ 107) with 162259276829213363391578010288128 in *.
  assert (S0 : a0 * b0 + a1 * 19 * b4 + a2 * 19 * b3 + a3 * 19 * b2 + a4 * 19 * b1 < 2596148429267413814265248164610048) by (apply (sum5 _ _ _ _ _ _ _ _ _ _ _ (M a0 b0 A0 B0) (M9 a1 b4 A19 B4) (M9 a2 b3 A29 B3) (M9 a3 b2 A39 B2) (M9 a4 b1 A49 B1)); reflexivity).
  assert (S1 : a0 * b1 + a1 * b0 + a2 * 19 * b4 + a3 * 19 * b3 + a4 * 19 * b2 < 2596148429267413814265248164610048) by (apply (sum5 _ _ _ _ _ _ _ _ _ _ _ (M a0 b1 A0 B1) (M a1 b0 A1 B0) (M9 a2 b4 A29 B4) (M9 a3 b3 A39 B3) (M9 a4 b2 A49 B2)); reflexivity).
  assert (S2 : a0 * b2 + a1 * b1 + a2 * b0 + a3 * 19 * b4 + a4 * 19 * b3 < 2596148429267413814265248164610048) by (apply (sum5 _ _ _ _ _ _ _ _ _ _ _ (M a0 b2 A0 B2) (M a1 b1 A1 B1) (M a2 b0 A2 B0) (M9 a3 b4 A39 B4) (M9 a4 b3 A49 B3)); reflexivity).
  assert (S3 : a0 * b3 + a1 * b2 + a2 * b1 + a3 * b0 + a4 * 19 * b4 < 2596148429267413814265248164610048) by (apply (sum5 _ _ _ _ _ _ _ _ _ _ _ (M a0 b3 A0 B3) (M a1 b2 A1 B2) (M a2 b1 A2 B1) (M a3 b0 A3 B0) (M9 a4 b4 A49 B4)); reflexivity).
  assert (S4 : a0 * b4 + a1 * b3 + a2 * b2 + a3 * b1 + a4 * b0 < 162259276829213363391578010288128) by (apply (sum5 _ _ _ _ _ _ _ _ _ _ _ (M a0 b4 A0 B4) (M a1 b3 A1 B3) (M a2 b2 A2 B2) (M a3 b1 A3 B1) (M a4 b0 A4 B0)); reflexivity).
  clear M M9.
  destruct P0 as (U0 & V0); [lia..|]. destruct P1 as (U1 & V1); [lia..|]. destruct P2 as (U2 & V2); [lia..|]. destruct P3 as (U3 & V3); [lia..|]. destruct P4 as (U4 & V4); [lia..|].
  match goal with |- fe_ok (fe_carry_wide ?x0 ?x1 ?x2 ?x3 ?x4) /\ _ => destruct (carry_wide_ok x0 x1 x2 x3 x4 U0 U1 U2 U3 U4) as (Ok & Eq);
    [change (2 ^ 111) with 2596148429267413814265248164610048; lia..|change (2 ^ 107) with 162259276829213363391578010288128; lia|] end.
  split; [exact Ok|]. unfold eqm in *. rewrite Eq. rewrite V0, V1, V2, V3, V4. symmetry.
  apply (eqm_k _ _ (a1 * b4 + a2 * b3 + a3 * b2 + a4 * b1 + (a2 * b4 + a3 * b3 + a4 * b2) * 2 ^ 51 + (a3 * b4 + a4 * b3) * 2 ^ 102 + a4 * b4 * 2 ^ 153)).
  unfold value. cbn [l0 l1 l2 l3 l4]. rewrite q5_is. clear.
  change (2 ^ 255) with (2 ^ 51 * 2 ^ 51 * 2 ^ 51 * 2 ^ 51 * 2 ^ 51). change (2 ^ 102) with (2 ^ 51 * 2 ^ 51). change (2 ^ 153) with (2 ^ 51 * 2 ^ 51 * 2 ^ 51). change (2 ^ 204) with (2 ^ 51 * 2 ^ 51 * 2 ^ 51 * 2 ^ 51). generalize (2 ^ 51). intros X. ring.
Qed.
Lemma feSquare_ok a : doc_ok a -> fe_ok (feSquare a) /\ eqm (value (feSquare a)) (value a * value a).
Proof.
  intros (A0 & A1 & A2 & A3 & A4). destruct a as [a0 a1 a2 a3 a4]. cbn [l0 l1 l2 l3 l4] in *. unfold feSquare. cbv zeta.
  change (2 ^ 52) with 4503599627370496 in *.
  assert (W : forall x c, 0 <= x < 4503599627370496 -> 0 < c <= 38 -> mulw x c = x * c /\ 0 <= x * c < 171136785840078848) by (intros x c Hx Hc; unfold mulw, w64; assert (0 <= x * c < 171136785840078848) by nia; rewrite Z.mod_small by (consts; lia); lia).
  destruct (W a0 2 A0 ltac:(lia)) as (-> & A02). destruct (W a1 2 A1 ltac:(lia)) as (-> & A12). destruct (W a1 38 A1 ltac:(lia)) as (-> & A18). destruct (W a2 38 A2 ltac:(lia)) as (-> & A28). destruct (W a3 38 A3 ltac:(lia)) as (-> & A38).
  destruct (W a3 19 A3 ltac:(lia)) as (-> & A39). destruct (W a4 19 A4 ltac:(lia)) as (-> & A49). clear W.
  assert (M : forall x y, 0 <= x < 4503599627370496 -> 0 <= y < 4503599627370496 -> 0 <= x * y <= 20282409603651670423947251286016) by (intros x y Hx Hy; exact (mul_bound _ _ _ _ Hx Hy)).
  assert (Mc : forall x y c, 0 <= c -> 0 <= x < 4503599627370496 -> 0 <= y < 4503599627370496 -> 0 <= x * c * y <= 20282409603651670423947251286016 * c).
  { intros x y c Hc Hx Hy. pose proof (M x y Hx Hy) as H. replace (x * c * y) with (x * y * c) by ring. split; [apply Z.mul_nonneg_nonneg; lia|apply Z.mul_le_mono_nonneg_r; lia]. }
  assert (C : forall x0 y0 x1 y1 x2 y2 B, 0 <= x0 -> 0 <= y0 -> 0 <= x1 -> 0 <= y1 -> 0 <= x2 -> 0 <= y2 -> x0 * y0 + x1 * y1 + x2 * y2 < B -> B <= 2 ^ 128 ->
    let r := addMul64 (addMul64 (mul64 x0 y0) x1 y1) x2 y2 in u128_ok r /\ wide r = x0 * y0 + x1 * y1 + x2 * y2).
  { intros x0 y0 x1 y1 x2 y2 B HX0 HY0 HX1 HY1 HX2 HY2 HS HB r.
    assert (N0 : 0 <= x0 * y0) by (apply Z.mul_nonneg_nonneg; lia). assert (N1 : 0 <= x1 * y1) by (apply Z.mul_nonneg_nonneg; lia). assert (N2 : 0 <= x2 * y2) by (apply Z.mul_nonneg_nonneg; lia).
    destruct (mul64_ok x0 y0 HX0 HY0 ltac:(lia)) as (E0 & U0). destruct (addMul64_ok _ x1 y1 U0 HX1 HY1 ltac:(lia)) as (E1 & U1). destruct (addMul64_ok _ x2 y2 U1 HX2 HY2 ltac:(lia)) as (E2 & U2).
    split; [exact U2|]. unfold r. lia. }
  assert (T128 : 2 ^ 111 <= 2 ^ 128) by (intros Hc; discriminate Hc). assert (T107 : 2 ^ 107 <= 2 ^ 128) by (intros Hc; discriminate Hc).
  assert (P0 := C a0 a0 (a1 * 38) a4 (a2 * 38) a3 (2 ^ 111)). assert (P1 := C (a0 * 2) a1 (a2 * 38) a4 (a3 * 19) a3 (2 ^ 111)). assert (P2 := C (a0 * 2) a2 a1 a1 (a3 * 38) a4 (2 ^ 111)).
  assert (P3 := C (a0 * 2) a3 (a1 * 2) a2 (a4 * 19) a4 (2 ^ 111)). assert (P4 := C (a0 * 2) a4 (a1 * 2) a3 a2 a2 (2 ^ 107)). clear C. cbv zeta in *.
  change (2 ^ 111) with 2596148429267413814265248164610048 in *. change (2 ^ 107) with 162259276829213363391578010288128 in *.
  assert (Z0 : 0 <= 0 <= 0) by lia. assert (H2 : 0 <= 2) by lia. assert (H19 : 0 <= 19) by lia. assert (H38 : 0 <= 38) by lia.
  assert (S0 : a0 * a0 + a1 * 38 * a4 + a2 * 38 * a3 + 0 + 0 < 2596148429267413814265248164610048) by (apply (sum5 _ _ _ _ _ _ _ _ _ _ _ (M a0 a0 A0 A0) (Mc a1 a4 38 H38 A1 A4) (Mc a2 a3 38 H38 A2 A3) Z0 Z0); reflexivity).
  assert (S1 : a0 * 2 * a1 + a2 * 38 * a4 + a3 * 19 * a3 + 0 + 0 < 2596148429267413814265248164610048) by (apply (sum5 _ _ _ _ _ _ _ _ _ _ _ (Mc a0 a1 2 H2 A0 A1) (Mc a2 a4 38 H38 A2 A4) (Mc a3 a3 19 H19 A3 A3) Z0 Z0); reflexivity).
  assert (S2 : a0 * 2 * a2 + a1 * a1 + a3 * 38 * a4 + 0 + 0 < 2596148429267413814265248164610048) by (apply (sum5 _ _ _ _ _ _ _ _ _ _ _ (Mc a0 a2 2 H2 A0 A2) (M a1 a1 A1 A1) (Mc a3 a4 38 H38 A3 A4) Z0 Z0); reflexivity).
  assert (S3 : a0 * 2 * a3 + a1 * 2 * a2 + a4 * 19 * a4 + 0 + 0 < 2596148429267413814265248164610048) by (apply (sum5 _ _ _ _ _ _ _ _ _ _ _ (Mc a0 a3 2 H2 A0 A3) (Mc a1 a2 2 H2 A1 A2) (Mc a4 a4 19 H19 A4 A4) Z0 Z0); reflexivity).
  assert (S4 : a0 * 2 * a4 + a1 * 2 * a3 + a2 * a2 + 0 + 0 < 162259276829213363391578010288128) by (apply (sum5 _ _ _ _ _ _ _ _ _ _ _ (Mc a0 a4 2 H2 A0 A4) (Mc a1 a3 2 H2 A1 A3) (M a2 a2 A2 A2) Z0 Z0); reflexivity).
  rewrite !Z.add_0_r in *. clear M Mc.
  destruct P0 as (U0 & V0); [lia..|]. destruct P1 as (U1 & V1); [lia..|]. destruct P2 as (U2 & V2); [lia..|]. destruct P3 as (U3 & V3); [lia..|]. destruct P4 as (U4 & V4); [lia..|].
  match goal with |- fe_ok (fe_carry_wide ?x0 ?x1 ?x2 ?x3 ?x4) /\ _ => destruct (carry_wide_ok x0 x1 x2 x3 x4 U0 U1 U2 U3 U4) as (Ok & Eq);
    [change (2 ^ 111) with 2596148429267413814265248164610048; lia..|change (2 ^ 107) with 162259276829213363391578010288128; lia|] end.
  split; [exact Ok|]. unfold eqm in *. rewrite Eq. rewrite V0, V1, V2, V3, V4. symmetry.
  apply (eqm_k _ _ (a1 * a4 + a2 * a3 + a3 * a2 + a4 * a1 + (a2 * a4 + a3 * a3 + a4 * a2) * 2 ^ 51 + (a3 * a4 + a4 * a3) * 2 ^ 102 + a4 * a4 * 2 ^ 153)).
  unfold value. cbn [l0 l1 l2 l3 l4]. rewrite q5_is. clear.
  change (2 ^ 255) with (2 ^ 51 * 2 ^ 51 * 2 ^ 51 * 2 ^ 51 * 2 ^ 51). change (2 ^ 102) with (2 ^ 51 * 2 ^ 51). change (2 ^ 153) with (2 ^ 51 * 2 ^ 51 * 2 ^ 51). change (2 ^ 204) with (2 ^ 51 * 2 ^ 51 * 2 ^ 51 * 2 ^ 51). generalize (2 ^ 51). intros X. ring.
Qed.
Lemma fe_add_ok a b : doc_ok a -> doc_ok b -> fe_ok (fe_add a b) /\ eqm (value (fe_add a b)) (value a + value b).
Proof.
  intros (A0 & A1 & A2 & A3 & A4) (B0 & B1 & B2 & B3 & B4). unfold fe_add, add64, w64. rewrite !Z.mod_small by (consts; lia).
  match goal with |- fe_ok (carryPropagate ?v) /\ _ => assert (Hv : u64fe v) by (unfold u64fe, limbs_below; cbn [l0 l1 l2 l3 l4]; consts; lia); destruct (carry_ok v Hv) as (Ok & Eq) end.
  split; [exact Ok|]. unfold eqm in *. rewrite Eq. f_equal. unfold value. cbn [l0 l1 l2 l3 l4]. ring.
Qed.
(** the second operand must be strictly below 2p limb by limb *)
Lemma fe_sub_ok a b : doc_ok a -> fe_ok b -> fe_ok (fe_sub a b) /\ eqm (value (fe_sub a b)) (value a - value b).
Proof.
  intros (A0 & A1 & A2 & A3 & A4) (B0 & B1 & B2 & B3 & B4). unfold fe_sub, add64, sub64, w64. rewrite !(Z.mod_small (_ + _)) by (consts; lia). rewrite !Z.mod_small by (consts; lia).
  match goal with |- fe_ok (carryPropagate ?v) /\ _ => assert (Hv : u64fe v) by (unfold u64fe, limbs_below; cbn [l0 l1 l2 l3 l4]; consts; lia); destruct (carry_ok v Hv) as (Ok & Eq) end.
  split; [exact Ok|]. unfold eqm in *. rewrite Eq. apply (eqm_k _ _ 2). unfold value. cbn [l0 l1 l2 l3 l4]. rewrite q5_is. change (2 ^ 255) with (2 ^ 51 * 2 ^ 204).
  change (0xFFFFFFFFFFFDA) with (2 * (2 ^ 51 - 19)). change (0xFFFFFFFFFFFFE) with (2 * (2 ^ 51 - 1)).
  change (2 ^ 102) with (2 ^ 51 * 2 ^ 51). change (2 ^ 153) with (2 ^ 51 * 2 ^ 51 * 2 ^ 51). change (2 ^ 204) with (2 ^ 51 * 2 ^ 51 * 2 ^ 51 * 2 ^ 51). generalize (2 ^ 51). intros X. ring.
Qed.
Lemma zero_ok : fe_ok fe_zero /\ value fe_zero = 0.
Proof. split; [|reflexivity]. unfold fe_ok, limbs_below. cbn [fe_zero l0 l1 l2 l3 l4]. lia. Qed.
Lemma one_ok : fe_ok fe_one /\ value fe_one = 1.
Proof. split; [|reflexivity]. unfold fe_ok, limbs_below. cbn [fe_one l0 l1 l2 l3 l4]. lia. Qed.
Lemma fe_neg_ok a : fe_ok a -> fe_ok (fe_neg a) /\ eqm (value (fe_neg a)) (- value a).
Proof.
  intros H. destruct (fe_sub_ok fe_zero a (ok_doc _ (proj1 zero_ok)) H) as (Ok & Eq). split; [exact Ok|]. unfold fe_neg, eqm in *. rewrite Eq. f_equal.
Qed.
Lemma mul51_ok a y : 0 <= a < 2252074691592192 -> 0 <= y < 2 ^ 32 -> exists l h, mul51 a y = (l, h) /\ l + h * 2 ^ 51 = a * y /\ 0 <= l < 2 ^ 51 /\ 0 <= h < 4295491585.
Proof.
  intros Ha Hy. change (2 ^ 32) with 4294967296 in Hy. pose proof (mul_bound _ _ _ _ Ha Hy) as M. destruct (mul64_ok a y ltac:(lia) ltac:(lia)) as (Ew & U); [consts; lia|].
  destruct (shr_wide (mul64 a y) U) as (S & L); [consts; lia|]. exists (low51 (lo (mul64 a y))), (shiftRightBy51 (mul64 a y)). split; [reflexivity|]. rewrite S, L, Ew.
  pose proof (Z.div_mod (a * y) (2 ^ 51) ltac:(lia)). pose proof (Z.mod_pos_bound (a * y) (2 ^ 51) ltac:(lia)). split; [lia|]. split; [lia|].
  split; [apply Z.div_pos; lia|apply Z.div_lt_upper_bound; [lia|consts; lia]].
Qed.
Lemma fe_mult32_ok a y : fe_ok a -> 0 <= y < 2 ^ 32 -> fe_ok (fe_mult32 a y) /\ eqm (value (fe_mult32 a y)) (value a * y).
Proof.
  intros (A0 & A1 & A2 & A3 & A4) Hy. unfold fe_mult32. destruct (mul51_ok _ y A0 Hy) as (x0 & h0 & -> & E0 & B0 & C0). destruct (mul51_ok _ y A1 Hy) as (x1 & h1 & -> & E1 & B1 & C1).
  destruct (mul51_ok _ y A2 Hy) as (x2 & h2 & -> & E2 & B2 & C2). destruct (mul51_ok _ y A3 Hy) as (x3 & h3 & -> & E3 & B3 & C3). destruct (mul51_ok _ y A4 Hy) as (x4 & h4 & -> & E4 & B4 & C4).
  unfold add64, mulw, w64. rewrite (Z.mod_small (19 * h4)) by (consts; lia). rewrite !Z.mod_small by (consts; lia). split; [unfold fe_ok, limbs_below; cbn [l0 l1 l2 l3 l4]; consts; lia|].
  apply (eqm_k _ _ (- h4)). unfold value. cbn [l0 l1 l2 l3 l4]. rewrite q5_is. rewrite !Z.mul_add_distr_r.
  replace (l1 a * 2 ^ 51 * y) with (l1 a * y * 2 ^ 51) by ring. replace (l2 a * 2 ^ 102 * y) with (l2 a * y * 2 ^ 102) by ring. replace (l3 a * 2 ^ 153 * y) with (l3 a * y * 2 ^ 153) by ring. replace (l4 a * 2 ^ 204 * y) with (l4 a * y * 2 ^ 204) by ring.
  rewrite <- E0, <- E1, <- E2, <- E3, <- E4. change (2 ^ 255) with (2 ^ 51 * 2 ^ 51 * 2 ^ 51 * 2 ^ 51 * 2 ^ 51). change (2 ^ 102) with (2 ^ 51 * 2 ^ 51). change (2 ^ 153) with (2 ^ 51 * 2 ^ 51 * 2 ^ 51). change (2 ^ 204) with (2 ^ 51 * 2 ^ 51 * 2 ^ 51 * 2 ^ 51). generalize (2 ^ 51). intros X. ring.
Qed.

(** ** canonical form *)
Lemma add_carry x c : 0 <= x < 2 ^ 52 -> 0 <= c < 2 ^ 13 -> add64 x c = x + c /\ 0 <= shr51 (x + c) < 4.
Proof.
  intros Hx Hc. unfold add64, w64. rewrite Z.mod_small by (consts; lia). split; [reflexivity|]. rewrite shr51_div. split; [apply Z.div_pos; lia|apply Z.div_lt_upper_bound; consts; lia].
Qed.
Lemma fe_reduce_ok v : u64fe v -> value (fe_reduce v) = value v mod q5 /\ limbs_below (2 ^ 51) (fe_reduce v).
Proof.
  intros H. destruct (carry_exact v H) as (c & Hc & E & B0 & B1 & B2 & B3 & B4). unfold fe_reduce. cbv zeta. set (w := carryPropagate v) in *. clearbody w. destruct w as [a0 a1 a2 a3 a4]. cbn [l0 l1 l2 l3 l4] in *.
  (* the carry of value + 19 out of 255 bits *)
  destruct (add_carry a0 19) as (-> & S0); [consts; lia|consts; lia|]. destruct (add_carry a1 (shr51 (a0 + 19))) as (-> & S1); [consts; lia|consts; lia|].
  destruct (add_carry a2 (shr51 (a1 + shr51 (a0 + 19)))) as (-> & S2); [consts; lia|consts; lia|]. destruct (add_carry a3 (shr51 (a2 + shr51 (a1 + shr51 (a0 + 19))))) as (-> & S3); [consts; lia|consts; lia|].
  destruct (add_carry a4 (shr51 (a3 + shr51 (a2 + shr51 (a1 + shr51 (a0 + 19)))))) as (-> & S4); [consts; lia|consts; lia|].
  set (V := value (Fe a0 a1 a2 a3 a4)) in *.
  assert (D : forall x, x = shr51 x * 2 ^ 51 + low51 x /\ 0 <= low51 x < 2 ^ 51) by (intros x; rewrite shr51_div, low51_mod; pose proof (Z.div_mod x (2 ^ 51) ltac:(lia)); pose proof (Z.mod_pos_bound x (2 ^ 51) ltac:(lia)); lia).
  destruct (D (a0 + 19)) as (D0 & R0). destruct (D (a1 + shr51 (a0 + 19))) as (D1 & R1). destruct (D (a2 + shr51 (a1 + shr51 (a0 + 19)))) as (D2 & R2). destruct (D (a3 + shr51 (a2 + shr51 (a1 + shr51 (a0 + 19))))) as (D3 & R3).
  destruct (D (a4 + shr51 (a3 + shr51 (a2 + shr51 (a1 + shr51 (a0 + 19)))))) as (D4 & R4).
  set (c0 := shr51 (a0 + 19)) in *. set (c1 := shr51 (a1 + c0)) in *. set (c2 := shr51 (a2 + c1)) in *. set (c3 := shr51 (a3 + c2)) in *. set (c4 := shr51 (a4 + c3)) in *.
  set (m0 := low51 (a0 + 19)) in *. set (m1 := low51 (a1 + c0)) in *. set (m2 := low51 (a2 + c1)) in *. set (m3 := low51 (a3 + c2)) in *. set (m4 := low51 (a4 + c3)) in *.
  assert (HV : V + 19 = c4 * 2 ^ 255 + (m0 + m1 * 2 ^ 51 + m2 * 2 ^ 102 + m3 * 2 ^ 153 + m4 * 2 ^ 204)).
  { unfold V, value. cbn [l0 l1 l2 l3 l4]. change (2 ^ 255) with (2 ^ 51 * 2 ^ 51 * 2 ^ 51 * 2 ^ 51 * 2 ^ 51). change (2 ^ 102) with (2 ^ 51 * 2 ^ 51) in *. change (2 ^ 153) with (2 ^ 51 * 2 ^ 51 * 2 ^ 51) in *. change (2 ^ 204) with (2 ^ 51 * 2 ^ 51 * 2 ^ 51 * 2 ^ 51) in *.
    clear - D0 D1 D2 D3 D4. clearbody c0 c1 c2 c3 c4 m0 m1 m2 m3 m4. generalize dependent (2 ^ 51). intros X D0 D1 D2 D3 D4.
    replace a0 with (c0 * X + m0 - 19) by lia. replace a1 with (c1 * X + m1 - c0) by lia. replace a2 with (c2 * X + m2 - c1) by lia. replace a3 with (c3 * X + m3 - c2) by lia. replace a4 with (c4 * X + m4 - c3) by lia. ring. }
  assert (RM : 0 <= m0 + m1 * 2 ^ 51 + m2 * 2 ^ 102 + m3 * 2 ^ 153 + m4 * 2 ^ 204 < 2 ^ 255).
  { consts. change (2 ^ 102) with 5070602400912917605986812821504. change (2 ^ 153) with 11417981541647679048466287755595961091061972992. change (2 ^ 204) with 25711008708143844408671393477458601640355247900524685364822016.
    change (2 ^ 255) with 57896044618658097711785492504343953926634992332820282019728792003956564819968. lia. }
  assert (HVb : 0 <= V < 2 ^ 255 + 2 ^ 254).
  { unfold V, value. cbn [l0 l1 l2 l3 l4]. consts. change (2 ^ 102) with 5070602400912917605986812821504. change (2 ^ 153) with 11417981541647679048466287755595961091061972992. change (2 ^ 204) with 25711008708143844408671393477458601640355247900524685364822016.
    change (2 ^ 255) with 57896044618658097711785492504343953926634992332820282019728792003956564819968. change (2 ^ 254) with 28948022309329048855892746252171976963317496166410141009864396001978282409984. lia. }
  assert (C4 : c4 = 0 \/ c4 = 1).
  { clear - HV RM HVb S4. set (M := m0 + m1 * 2 ^ 51 + m2 * 2 ^ 102 + m3 * 2 ^ 153 + m4 * 2 ^ 204) in *. change (2 ^ 255) with 57896044618658097711785492504343953926634992332820282019728792003956564819968 in *.
    change (2 ^ 254) with 28948022309329048855892746252171976963317496166410141009864396001978282409984 in *. clearbody M V. lia. }
  assert (Hmod : V mod q5 = V - c4 * q5).
  { symmetry. apply (Z.mod_unique_pos _ _ c4); [|lia]. rewrite q5_is. clear - HV RM HVb C4. set (M := m0 + m1 * 2 ^ 51 + m2 * 2 ^ 102 + m3 * 2 ^ 153 + m4 * 2 ^ 204) in *.
    change (2 ^ 255) with 57896044618658097711785492504343953926634992332820282019728792003956564819968 in *. clearbody M V. destruct C4 as [C4|C4]; rewrite C4 in *; lia. }
  assert (Hvm : value v mod q5 = V - c4 * q5) by (rewrite <- Hmod, E; symmetry; apply (eqm_k _ _ (- c)); lia). rewrite Hvm.
  assert (HR : 0 <= V - c4 * q5 < q5) by (rewrite <- Hmod; apply Z.mod_pos_bound; reflexivity).
  clear - B0 B1 B2 B3 B4 C4 D HR. clearbody c4. clear c0 c1 c2 c3.
  assert (Hm : mulw 19 c4 = 19 * c4) by (unfold mulw, w64; apply Z.mod_small; consts; lia). rewrite Hm.
  destruct (add_carry a0 (19 * c4)) as (-> & S0); [consts; lia|consts; lia|]. destruct (add_carry a1 (shr51 (a0 + 19 * c4))) as (-> & S1); [consts; lia|consts; lia|].
  destruct (add_carry a2 (shr51 (a1 + shr51 (a0 + 19 * c4)))) as (-> & S2); [consts; lia|consts; lia|]. destruct (add_carry a3 (shr51 (a2 + shr51 (a1 + shr51 (a0 + 19 * c4))))) as (-> & S3); [consts; lia|consts; lia|].
  destruct (add_carry a4 (shr51 (a3 + shr51 (a2 + shr51 (a1 + shr51 (a0 + 19 * c4)))))) as (-> & S4); [consts; lia|consts; lia|].
  destruct (D (a0 + 19 * c4)) as (D0 & R0). destruct (D (a1 + shr51 (a0 + 19 * c4))) as (D1 & R1). destruct (D (a2 + shr51 (a1 + shr51 (a0 + 19 * c4)))) as (D2 & R2). destruct (D (a3 + shr51 (a2 + shr51 (a1 + shr51 (a0 + 19 * c4))))) as (D3 & R3).
  destruct (D (a4 + shr51 (a3 + shr51 (a2 + shr51 (a1 + shr51 (a0 + 19 * c4)))))) as (D4 & R4). clear D.
  set (k0 := shr51 (a0 + 19 * c4)) in *. set (k1 := shr51 (a1 + k0)) in *. set (k2 := shr51 (a2 + k1)) in *. set (k3 := shr51 (a3 + k2)) in *. set (k4 := shr51 (a4 + k3)) in *.
  set (m0 := low51 (a0 + 19 * c4)) in *. set (m1 := low51 (a1 + k0)) in *. set (m2 := low51 (a2 + k1)) in *. set (m3 := low51 (a3 + k2)) in *. set (m4 := low51 (a4 + k3)) in *.
  assert (HV : V + 19 * c4 = k4 * 2 ^ 255 + (m0 + m1 * 2 ^ 51 + m2 * 2 ^ 102 + m3 * 2 ^ 153 + m4 * 2 ^ 204)).
  { unfold V, value. cbn [l0 l1 l2 l3 l4]. change (2 ^ 255) with (2 ^ 51 * 2 ^ 51 * 2 ^ 51 * 2 ^ 51 * 2 ^ 51). change (2 ^ 102) with (2 ^ 51 * 2 ^ 51) in *. change (2 ^ 153) with (2 ^ 51 * 2 ^ 51 * 2 ^ 51) in *. change (2 ^ 204) with (2 ^ 51 * 2 ^ 51 * 2 ^ 51 * 2 ^ 51) in *.
    clear - D0 D1 D2 D3 D4. clearbody k0 k1 k2 k3 k4 m0 m1 m2 m3 m4. generalize dependent (2 ^ 51). intros X D0 D1 D2 D3 D4.
    replace a0 with (k0 * X + m0 - 19 * c4) by lia. replace a1 with (k1 * X + m1 - k0) by lia. replace a2 with (k2 * X + m2 - k1) by lia. replace a3 with (k3 * X + m3 - k2) by lia. replace a4 with (k4 * X + m4 - k3) by lia. ring. }
  assert (RM : 0 <= m0 + m1 * 2 ^ 51 + m2 * 2 ^ 102 + m3 * 2 ^ 153 + m4 * 2 ^ 204 < 2 ^ 255).
  { consts. change (2 ^ 102) with 5070602400912917605986812821504. change (2 ^ 153) with 11417981541647679048466287755595961091061972992. change (2 ^ 204) with 25711008708143844408671393477458601640355247900524685364822016.
    change (2 ^ 255) with 57896044618658097711785492504343953926634992332820282019728792003956564819968. lia. }
  split; [|unfold limbs_below; cbn [l0 l1 l2 l3 l4]; auto]. unfold value at 1. cbn [l0 l1 l2 l3 l4].
  clear - HV RM HR C4. set (M := m0 + m1 * 2 ^ 51 + m2 * 2 ^ 102 + m3 * 2 ^ 153 + m4 * 2 ^ 204) in *. rewrite q5_is in *.
  change (2 ^ 255) with 57896044618658097711785492504343953926634992332820282019728792003956564819968 in *. clearbody M V k4. lia.
Qed.

(** ** bytes *)
Lemma bits_add a b n m : 0 <= n -> 0 <= a < 2 ^ n -> 0 <= m -> Z.testbit (a + b * 2 ^ n) m = (Z.testbit b (m - n) || Z.testbit a m)%bool.
Proof. intros Hn Ha Hm. rewrite Z.add_comm, <- lor_disjoint by auto. rewrite Z.lor_spec, Z.mul_pow2_bits by lia. reflexivity. Qed.
Lemma value_bits v n : limbs_below (2 ^ 51) v -> 0 <= n -> Z.testbit (value v) n =
  (Z.testbit (l0 v) n || Z.testbit (l1 v) (n - 51) || Z.testbit (l2 v) (n - 102) || Z.testbit (l3 v) (n - 153) || Z.testbit (l4 v) (n - 204))%bool.
Proof.
  intros (A0 & A1 & A2 & A3 & A4) Hn. unfold value. rewrite bits_add; [|lia|consts; change (2 ^ 102) with 5070602400912917605986812821504; change (2 ^ 153) with 11417981541647679048466287755595961091061972992; change (2 ^ 204) with 25711008708143844408671393477458601640355247900524685364822016; lia|auto].
  rewrite bits_add; [|lia|consts; change (2 ^ 102) with 5070602400912917605986812821504; change (2 ^ 153) with 11417981541647679048466287755595961091061972992; lia|auto].
  rewrite bits_add; [|lia|consts; change (2 ^ 102) with 5070602400912917605986812821504; lia|auto]. rewrite bits_add; [|lia|auto|auto].
  destruct (Z.testbit (l0 v) n), (Z.testbit (l1 v) (n - 51)), (Z.testbit (l2 v) (n - 102)), (Z.testbit (l3 v) (n - 153)), (Z.testbit (l4 v) (n - 204)); reflexivity.
Qed.
Lemma or_at_ok out off b : (off < length out)%nat -> length (or_at out off b) = length out /\ forall i, nth i (or_at out off b) 0 = if Nat.eqb i off then Z.lor (nth off out 0) b else nth i out 0.
Proof. intros H. unfold or_at. change (firstn off out ++ ?x :: skipn (S off) out) with (upd off x out). split; [apply upd_length; auto|intros i; apply upd_nth; auto]. Qed.
Definition or_buf (o : nat) (js : list (nat * Z)) (out : list Z) : list Z := fold_left (fun out '(j, bb) => let off := (o + j)%nat in if Nat.leb 32 off then out else or_at out off bb) js out.
Lemma inner_ok o : forall buf j out, length out = 32%nat ->
  let r := or_buf o (combine (seq j (length buf)) buf) out in
  length r = 32%nat /\ forall i, (i < 32)%nat -> nth i r 0 = Z.lor (nth i out 0) (if Nat.leb (o + j) i then nth (i - (o + j)) buf 0 else 0).
Proof.
  induction buf as [|b buf IH]; intros j out L; unfold or_buf in *; cbn [length seq combine fold_left].
  - cbv zeta. split; [exact L|]. intros i Hi. replace (if Nat.leb (o + j) i then nth (i - (o + j)) [] 0 else 0) with 0 by (destruct (Nat.leb (o + j) i), (i - (o + j))%nat; reflexivity). rewrite Z.lor_0_r. reflexivity.
  - cbv zeta. destruct (Nat.leb_spec 32 (o + j)) as [G|G].
    + destruct (IH (S j) out L) as (IL & IN). cbv zeta in IN. split; [exact IL|]. intros i Hi. rewrite IN by auto. f_equal. destruct (Nat.leb_spec (o + S j) i), (Nat.leb_spec (o + j) i); try lia; reflexivity.
    + destruct (or_at_ok out (o + j) b) as (OL & ON); [lia|]. destruct (IH (S j) (or_at out (o + j) b)) as (IL & IN); [lia|]. cbv zeta in IN. split; [exact IL|]. intros i Hi. rewrite IN, ON by auto.
      destruct (Nat.eqb_spec i (o + j)) as [->|Hne].
      * rewrite Nat.leb_refl, Nat.sub_diag. destruct (Nat.leb_spec (o + S j) (o + j)); [lia|]. rewrite Z.lor_0_r. reflexivity.
      * destruct (Nat.leb_spec (o + S j) i), (Nat.leb_spec (o + j) i); try lia. replace (i - (o + j))%nat with (S (i - (o + S j))) by lia. reflexivity.
Qed.
Lemma byte_bit l s j m : 0 <= l < 2 ^ 51 -> 0 <= s <= 12 -> 0 <= m -> Z.testbit (nth j (le_bytes 8 (w64 (Z.shiftl l s))) 0) m = ((m <? 8) && Z.testbit l (8 * Z.of_nat j + m - s))%bool.
Proof.
  intros Hl Hs Hm. assert (Hsh : 0 <= Z.shiftl l s < 2 ^ 64).
  { rewrite Z.shiftl_mul_pow2 by lia. assert (2 ^ s <= 2 ^ 12) by (apply Z.pow_le_mono_r; lia). assert (0 < 2 ^ s) by (apply Z.pow_pos_nonneg; lia). change (2 ^ 64) with (2 ^ 51 * 2 ^ 13). change (2 ^ 13) with 8192. change (2 ^ 12) with 4096 in *. nia. }
  unfold w64. rewrite Z.mod_small by exact Hsh. destruct (Nat.lt_ge_cases j 8) as [G|G].
  - rewrite nth_le_bytes by auto. change 256 with (2 ^ 8). destruct (Z.ltb_spec m 8) as [K|K].
    + rewrite Z.mod_pow2_bits_low, Z.div_pow2_bits, Z.shiftl_spec by lia. cbn [andb]. f_equal. lia.
    + rewrite Z.mod_pow2_bits_high by lia. reflexivity.
  - rewrite nth_overflow by (unfold le_bytes; rewrite map_length, seq_length; lia). rewrite Z.bits_0. symmetry. apply andb_false_iff. right.
    rewrite <- (Z.mod_small l (2 ^ 51)) by exact Hl. apply Z.mod_pow2_bits_high. lia.
Qed.
Lemma fe_or_limb_buf out i l : fe_or_limb out (i, l) = or_buf (i * 51 / 8) (combine (seq 0 (length (le_bytes 8 (w64 (Z.shiftl l (Z.of_nat ((i * 51) mod 8))))))) (le_bytes 8 (w64 (Z.shiftl l (Z.of_nat ((i * 51) mod 8)))))) out.
Proof. unfold fe_or_limb, or_buf. unfold le_bytes at 2. rewrite map_length, seq_length. reflexivity. Qed.
Lemma fe_bytes_ok v : u64fe v -> fe_bytes v = le_bytes 32 (value v mod q5).
Proof.
  intros H. destruct (fe_reduce_ok v H) as (Ev & B). rewrite <- Ev. unfold fe_bytes. cbv zeta. set (t := fe_reduce v) in *. clearbody t. clear v H Ev.
  pose proof B as (B0 & B1 & B2 & B3 & B4).
  set (b0 := le_bytes 8 (w64 (Z.shiftl (l0 t) 0))). set (b1 := le_bytes 8 (w64 (Z.shiftl (l1 t) 3))). set (b2 := le_bytes 8 (w64 (Z.shiftl (l2 t) 6))). set (b3 := le_bytes 8 (w64 (Z.shiftl (l3 t) 1))). set (b4 := le_bytes 8 (w64 (Z.shiftl (l4 t) 4))).
  cbn [seq combine fold_left]. rewrite !fe_or_limb_buf. change (0 * 51 / 8)%nat with 0%nat. change (1 * 51 / 8)%nat with 6%nat. change (2 * 51 / 8)%nat with 12%nat. change (3 * 51 / 8)%nat with 19%nat. change (4 * 51 / 8)%nat with 25%nat.
  change (Z.of_nat (0 * 51 mod 8)) with 0. change (Z.of_nat (1 * 51 mod 8)) with 3. change (Z.of_nat (2 * 51 mod 8)) with 6. change (Z.of_nat (3 * 51 mod 8)) with 1. change (Z.of_nat (4 * 51 mod 8)) with 4. fold b0 b1 b2 b3 b4.
  destruct (inner_ok 0 b0 0 (repeat 0 32) ltac:(reflexivity)) as (L0 & N0). cbv zeta in L0, N0. destruct (inner_ok 6 b1 0 _ L0) as (L1 & N1). cbv zeta in L1, N1. destruct (inner_ok 12 b2 0 _ L1) as (L2 & N2). cbv zeta in L2, N2.
  destruct (inner_ok 19 b3 0 _ L2) as (L3 & N3). cbv zeta in L3, N3. destruct (inner_ok 25 b4 0 _ L3) as (L4 & N4). cbv zeta in L4, N4.
  apply (nth_ext' _ _ _ 0); [rewrite L4; unfold le_bytes; rewrite map_length, seq_length; reflexivity|]. intros i Hi. rewrite L4 in Hi.
  rewrite N4, N3, N2, N1, N0 by exact Hi. rewrite nth_le_bytes by exact Hi. clear L0 L1 L2 L3 L4 N0 N1 N2 N3 N4. rewrite nth_repeat, Z.lor_0_l.
  apply Z.bits_inj'. intros m Hm. rewrite !Z.lor_spec.
  assert (G : forall o l s (k : Z), 0 <= l < 2 ^ 51 -> 0 <= s <= 12 -> k = 8 * Z.of_nat o + s ->
    Z.testbit (if Nat.leb (o + 0) i then nth (i - (o + 0)) (le_bytes 8 (w64 (Z.shiftl l s))) 0 else 0) m = ((m <? 8) && Z.testbit l (8 * Z.of_nat i + m - k))%bool).
  { intros o l s k Hl Hs ->. rewrite Nat.add_0_r. destruct (Nat.leb_spec o i) as [K|K].
    - rewrite byte_bit by auto. f_equal. f_equal. lia.
    - rewrite Z.bits_0. symmetry. destruct (Z.ltb_spec m 8); [|reflexivity]. cbn [andb]. apply Z.testbit_neg_r. lia. }
  unfold b0, b1, b2, b3, b4. rewrite (G 0%nat (l0 t) 0 0), (G 6%nat (l1 t) 3 51), (G 12%nat (l2 t) 6 102), (G 19%nat (l3 t) 1 153), (G 25%nat (l4 t) 4 204) by (auto; lia).
  change 256 with (2 ^ 8). destruct (Z.ltb_spec m 8) as [K|K].
  - rewrite Z.mod_pow2_bits_low, Z.div_pow2_bits by lia. rewrite value_bits by (auto; lia). cbn [andb]. replace (8 * Z.of_nat i + m - 0) with (m + 8 * Z.of_nat i) by lia.
    replace (8 * Z.of_nat i + m) with (m + 8 * Z.of_nat i) by lia. reflexivity.
  - rewrite Z.mod_pow2_bits_high by lia. reflexivity.
Qed.
Lemma le_val_app a b : le_val (a ++ b) = le_val a + 256 ^ Z.of_nat (length a) * le_val b.
Proof. induction a as [|x a IH]; [cbn [app le_val length]; change (256 ^ Z.of_nat 0) with 1; lia|]. cbn [app le_val length]. rewrite IH, Nat2Z.inj_succ, Z.pow_succ_r by lia. ring. Qed.
Definition is_bytes (l : list Z) : Prop := Forall (fun b => 0 <= b < 256) l.
Lemma le64_at_ok x i : is_bytes x -> (i + 8 <= length x)%nat -> le64_at x i = le_val x / 2 ^ (8 * Z.of_nat i) mod 2 ^ 64.
Proof.
  intros F L. unfold le64_at. assert (E : x = firstn i x ++ firstn 8 (skipn i x) ++ skipn 8 (skipn i x)) by (rewrite !firstn_skipn; reflexivity).
  assert (F1 : is_bytes (firstn i x) /\ is_bytes (firstn 8 (skipn i x))).
  { unfold is_bytes in *. rewrite E in F. apply Forall_app in F. destruct F as (Fa & F). apply Forall_app in F. tauto. }
  assert (La : length (firstn i x) = i) by (rewrite firstn_length; lia). assert (Lb : length (firstn 8 (skipn i x)) = 8%nat) by (rewrite firstn_length, skipn_length; lia).
  pose proof (le_val_range _ (proj1 F1)) as Ra. pose proof (le_val_range _ (proj2 F1)) as Rb. rewrite La in Ra. rewrite Lb in Rb. rewrite E at 2. rewrite !le_val_app, La, Lb.
  assert (P : 2 ^ (8 * Z.of_nat i) = 256 ^ Z.of_nat i) by (rewrite Z.pow_mul_r by lia; reflexivity). rewrite P. change (256 ^ Z.of_nat 8) with (2 ^ 64) in *.
  rewrite (Z.mul_comm (256 ^ Z.of_nat i)), Z.div_add, (Z.div_small (le_val (firstn i x))) by (try lia). rewrite Z.add_0_l, (Z.mul_comm (2 ^ 64)), Z_mod_plus_full, Z.mod_small by lia. reflexivity.
Qed.
Lemma limb_at x i s k : is_bytes x -> (i + 8 <= length x)%nat -> 0 <= s <= 13 -> k = 8 * Z.of_nat i + s -> low51 (Z.shiftr (le64_at x i) s) = le_val x / 2 ^ k mod 2 ^ 51.
Proof.
  intros F L Hs ->. rewrite le64_at_ok by auto. unfold low51. change mask51 with (Z.ones 51). rewrite Z.land_ones by lia. apply Z.bits_inj'. intros m Hm. destruct (Z.lt_ge_cases m 51) as [K|K].
  - rewrite !Z.mod_pow2_bits_low, Z.shiftr_spec, Z.mod_pow2_bits_low, !Z.div_pow2_bits by lia. f_equal. lia.
  - rewrite !Z.mod_pow2_bits_high by lia. reflexivity.
Qed.
Lemma fe_set_bytes_ok x : is_bytes x -> length x = 32%nat -> exists v, fe_set_bytes x = Some v /\ limbs_below (2 ^ 51) v /\ value v = le_val x mod 2 ^ 255.
Proof.
  intros F L. unfold fe_set_bytes. rewrite L. change (Nat.eqb 32 32) with true. cbv iota. eexists. split; [reflexivity|]. rewrite <- (Z.shiftr_0_r (le64_at x 0)).
  rewrite (limb_at x 0 0 0), (limb_at x 6 3 51), (limb_at x 12 6 102), (limb_at x 19 1 153), (limb_at x 24 12 204) by (auto; rewrite ?L; lia).
  set (V := le_val x). change (2 ^ 0) with 1. rewrite Z.div_1_r. split.
  { unfold limbs_below. cbn [l0 l1 l2 l3 l4]. split; [apply Z.mod_pos_bound; lia|]. split; [apply Z.mod_pos_bound; lia|]. split; [apply Z.mod_pos_bound; lia|]. split; apply Z.mod_pos_bound; lia. }
  unfold value. cbn [l0 l1 l2 l3 l4].
  change (2 ^ 255) with (2 ^ 51 * (2 ^ 51 * (2 ^ 51 * (2 ^ 51 * 2 ^ 51)))). rewrite (Z.rem_mul_r V) by lia. rewrite (Z.rem_mul_r (V / 2 ^ 51)) by lia. rewrite (Z.rem_mul_r (V / 2 ^ 51 / 2 ^ 51)) by lia. rewrite (Z.rem_mul_r (V / 2 ^ 51 / 2 ^ 51 / 2 ^ 51)) by lia.
  rewrite !Z.div_div by lia. change (2 ^ 51 * 2 ^ 51 * 2 ^ 51 * 2 ^ 51) with (2 ^ 204). change (2 ^ 51 * 2 ^ 51 * 2 ^ 51) with (2 ^ 153). change (2 ^ 51 * 2 ^ 51) with (2 ^ 102).
  replace (2 ^ 51 * (2 ^ 51 * (2 ^ 51 * 2 ^ 51))) with (2 ^ 204) by reflexivity. replace (2 ^ 51 * (2 ^ 51 * 2 ^ 51)) with (2 ^ 153) by reflexivity. replace (2 ^ 51 * 2 ^ 51) with (2 ^ 102) by reflexivity.
  change (2 ^ 204) with (2 ^ 51 * 2 ^ 153). change (2 ^ 153) with (2 ^ 51 * 2 ^ 102). change (2 ^ 102) with (2 ^ 51 * 2 ^ 51). ring.
Qed.
