(** * IsoProofs.v — G2Isogeny is the 3-isogeny of RFC 9380 and maps the SWU curve to the twist; neither curve has a point of order 2 *)
From Coq Require Import ZArith NArith Znumtheory List Bool Arith Lia Ring.
From Verif Require Import FieldZ RlpEnc PrimeBls TowerModel TowerSpec TowerRing TowerFrob TowerField TowerPow TowerCyc PairingModel PairingSpec MillerProofs G2Model H2CModel H2CSpec WSpec G2Spec G2Group CmpProofs JacProofs PsiProofs SswuSpec SswuProofs.
Import ListNotations.
Open Scope Z_scope.
Local Infix "*!" := mul2 (at level 40, left associativity).
Local Infix "+!" := add2 (at level 50, left associativity).
Local Infix "-!" := sub2 (at level 50, left associativity).

Lemma cx_eq a b c d : a = c -> b = d -> mkE2 a b = mkE2 c d. Proof. intros -> ->. reflexivity. Qed.
Ltac mc := apply cx_eq; apply mont_eq; vm_compute; reflexivity.
Lemma xn0 : nth 0 iso_xn e2_zero = k10. Proof. mc. Qed.
Lemma xn1 : nth 1 iso_xn e2_zero = k11. Proof. mc. Qed.
Lemma xn2 : nth 2 iso_xn e2_zero = k12. Proof. mc. Qed.
Lemma xn3 : nth 3 iso_xn e2_zero = k13. Proof. mc. Qed.
Lemma xd0 : nth 0 iso_xd e2_zero = k20. Proof. mc. Qed.
Lemma xd1 : nth 1 iso_xd e2_zero = k21. Proof. mc. Qed.
Lemma yn0 : nth 0 iso_yn e2_zero = k30. Proof. mc. Qed.
Lemma yn1 : nth 1 iso_yn e2_zero = k31. Proof. mc. Qed.
Lemma yn2 : nth 2 iso_yn e2_zero = k32. Proof. mc. Qed.
Lemma yn3 : nth 3 iso_yn e2_zero = k33. Proof. mc. Qed.
Lemma yd0 : nth 0 iso_yd e2_zero = k40. Proof. mc. Qed.
Lemma yd1 : nth 1 iso_yd e2_zero = k41. Proof. mc. Qed.
Lemma yd2 : nth 2 iso_yd e2_zero = k42. Proof. mc. Qed.
Local Opaque iso_xn iso_xd iso_yn iso_yd k10 k11 k12 k13 k20 k21 k30 k31 k32 k33 k40 k41 k42.
Lemma xd_ok x : g2_isogeny_x_denominator x = x_den x.
Proof. unfold g2_isogeny_x_denominator, x_den. cbv zeta. rewrite xd0, xd1. r2. ring. Qed.
Lemma xn_ok x : g2_isogeny_x_numerator x = x_num x.
Proof. unfold g2_isogeny_x_numerator, x_num. cbv zeta. rewrite xn0, xn1, xn2, xn3. r2. ring. Qed.
Lemma yd_ok x : g2_isogeny_y_denominator x = y_den x.
Proof. unfold g2_isogeny_y_denominator, y_den. cbv zeta. rewrite yd0, yd1, yd2. r2. ring. Qed.
Lemma yn_ok x y : g2_isogeny_y_numerator x y = y *! y_num x.
Proof. unfold g2_isogeny_y_numerator, y_num. cbv zeta. rewrite yn0, yn1, yn2, yn3. r2. ring. Qed.
Local Transparent k10 k11 k12 k13 k20 k21 k30 k31 k32 k33 k40 k41 k42.
(** the coefficients are small rationals: 27 x_num and 27 y_num have small integer coefficients *)
Definition XN (x : E2) : E2 := cx 912 912 +! cx 0 (-72) *! x +! cx 36 (-36) *! (x *! x) +! cx 3 0 *! (x *! (x *! x)).
Definition YN (x : E2) : E2 := cx 752 752 +! cx 0 264 *! x +! cx (-18) 18 *! (x *! x) +! cx (-1) 0 *! (x *! (x *! x)).
Definition sk (x : E2) : E2 := x +! cx 6 (-6).
Lemma sc k a b c d : k = cx c d -> ((27 * c - a) mod pBls =? 0) = true -> ((27 * d - b) mod pBls =? 0) = true -> cx 27 0 *! k = cx a b.
Proof. intros -> H1 H2. rewrite cx_mul. apply cx_mod; [rewrite <- H1|rewrite <- H2]; f_equal; f_equal; lia. Qed.
Ltac scl := eapply sc; [reflexivity|vm_compute; reflexivity|vm_compute; reflexivity].
Lemma XN_ok x : cx 27 0 *! x_num x = XN x.
Proof.
  assert (E0 : cx 27 0 *! k10 = cx 912 912) by scl. assert (E1 : cx 27 0 *! k11 = cx 0 (-72)) by scl. assert (E2' : cx 27 0 *! k12 = cx 36 (-36)) by scl. assert (E3 : cx 27 0 *! k13 = cx 3 0) by scl.
  unfold XN, x_num. rewrite <- E0, <- E1, <- E2', <- E3. ring.
Qed.
Lemma YN_ok x : cx 27 0 *! y_num x = YN x.
Proof.
  assert (E0 : cx 27 0 *! k30 = cx 752 752) by scl. assert (E1 : cx 27 0 *! k31 = cx 0 264) by scl. assert (E2' : cx 27 0 *! k32 = cx (-18) 18) by scl. assert (E3 : cx 27 0 *! k33 = cx (-1) 0) by scl.
  unfold YN, y_num. rewrite <- E0, <- E1, <- E2', <- E3. ring.
Qed.
Ltac ee := unfold cx; rewrite ?mul2_def, ?add2_def, ?opp2_def; cbn [A0 A1]; apply E2_eq; ring.
Lemma xden_s x : x_den x = sk x *! sk x.
Proof.
  assert (E0 : k20 = cx 0 (-72)) by (apply cx_mod; vm_compute; reflexivity). assert (E1 : k21 = cx 12 (-12)) by (apply cx_mod; vm_compute; reflexivity).
  unfold x_den, sk. rewrite E0, E1. destruct x as [a b]. ee.
Qed.
Lemma yden_s x : y_den x = sk x *! (sk x *! sk x).
Proof.
  assert (E0 : k40 = cx (-432) (-432)) by (apply cx_mod; vm_compute; reflexivity). assert (E1 : k41 = cx 0 (-216)) by (apply cx_mod; vm_compute; reflexivity). assert (E2' : k42 = cx 18 (-18)) by (apply cx_mod; vm_compute; reflexivity).
  unfold y_den, sk. rewrite E0, E1, E2'. destruct x as [a b]. ee.
Qed.
(** coordinates *)
Declare Scope fp_scope.
Local Notation "a + b" := (qadd a b) : fp_scope. Local Notation "a * b" := (qmul a b) : fp_scope. Local Notation "a - b" := (qsub a b) : fp_scope.
Delimit Scope fp_scope with fp.
Local Notation c_ n := (fc n) (only parsing).
Lemma sq_c p q : mkE2 p q *! mkE2 p q = mkE2 (p * p - q * q)%fp (c_ 2 * p * q)%fp. Proof. ee. Qed.
Lemma cube_c p q : mkE2 p q *! mkE2 p q *! mkE2 p q = mkE2 (p * p * p - c_ 3 * p * q * q)%fp (c_ 3 * p * p * q - q * q * q)%fp. Proof. ee. Qed.
Lemma XN_c a b : XN (mkE2 a b) =
  mkE2 (c_ 912 + c_ 72 * b + c_ 36 * (a * a - b * b) + c_ 72 * a * b + c_ 3 * (a * a * a - c_ 3 * a * b * b))%fp
       (c_ 912 - c_ 72 * a - c_ 36 * (a * a - b * b) + c_ 72 * a * b + c_ 3 * (c_ 3 * a * a * b - b * b * b))%fp.
Proof. unfold XN. ee. Qed.
Lemma YN_c a b : YN (mkE2 a b) =
  mkE2 (c_ 752 - c_ 264 * b - c_ 18 * (a * a - b * b) - c_ 36 * a * b - (a * a * a - c_ 3 * a * b * b))%fp
       (c_ 752 + c_ 264 * a + c_ 18 * (a * a - b * b) - c_ 36 * a * b - (c_ 3 * a * a * b - b * b * b))%fp.
Proof. unfold YN. ee. Qed.
Lemma g_c a b : mapg (mkE2 a b) = mkE2 (a * a * a - c_ 3 * a * b * b - c_ 240 * b + c_ 1012)%fp (c_ 3 * a * a * b - b * b * b + c_ 240 * a + c_ 1012)%fp.
Proof. unfold mapg, mapA, mapB. ee. Qed.
Lemma sk_c a b : sk (mkE2 a b) = mkE2 (a + c_ 6)%fp (b - c_ 6)%fp.
Proof. unfold sk. ee. Qed.
Lemma mul_c p q r s : mkE2 p q *! mkE2 r s = mkE2 (p * r - q * s)%fp (p * s + q * r)%fp. Proof. ee. Qed.
Lemma add_c p q r s : mkE2 p q +! mkE2 r s = mkE2 (p + r)%fp (q + s)%fp. Proof. ee. Qed.
Lemma curve_id x : cx 27 0 *! (YN x *! YN x *! mapg x) = XN x *! XN x *! XN x +! cx 78732 78732 *! ((sk x *! sk x) *! (sk x *! sk x) *! (sk x *! sk x)).
Proof.
  destruct x as [a b]. rewrite XN_c, YN_c, g_c, sk_c, cube_c, (sq_c (a + c_ 6)%fp (b - c_ 6)%fp), cube_c, sq_c. unfold cx. rewrite !mul_c, add_c. apply E2_eq; ring.
Qed.
Local Opaque XN YN sk mapg x_num y_num x_den y_den.
Lemma cx27_ne : cx 27 0 <> zero2. Proof. apply small_ne. vm_compute. reflexivity. Qed.
(** neither curve has a point of order two *)
Lemma fp_cube32 (n : Fp) : qmul n (qmul n n) <> fc 32.
Proof.
  intros E. assert (N : n <> fc 0). { intros Z. rewrite Z in E. assert (F : fc 32 = fc 0) by (rewrite <- E; ring). apply ofZ_eq in F. revert F. vm_compute. discriminate. }
  pose proof (fp_inv n N) as I. apply (two_noncube (qmul (fc 4) (qinv n))). set (m := qinv n) in *.
  assert (E32 : qmul (fc 32) (qmul m (qmul m m)) = fc 1). { rewrite <- E. transitivity (qmul (qmul n m) (qmul (qmul n m) (qmul n m))); [ring|]. rewrite I. ring. }
  transitivity (qmul (fc 2) (qmul (fc 32) (qmul m (qmul m m)))); [ring|]. rewrite E32. ring.
Qed.
Lemma no_cube c : c *! (c *! c) <> cx (-4) (-4).
Proof.
  intros E. apply (f_equal norm2) in E. rewrite !norm2_mul in E. apply (fp_cube32 (norm2 c)). rewrite E. unfold norm2, cx. cbn [A0 A1]. ring.
Qed.
Lemma g_kernel x : sk x = zero2 -> mapg x = cx 4 4.
Proof.
  intros H. assert (E : x = cx (-6) 6). { transitivity (sk x +! cx (-6) 6); [|rewrite H; ring]. Local Transparent sk. unfold sk. destruct x as [a b]. ee. }
  rewrite E. unfold cx. rewrite g_c. apply cx_eq; ring.
Qed.
Local Opaque sk.
Lemma opp44 : opp2 (cx (-4) (-4)) = cx 4 4. Proof. rewrite opp2_def. unfold cx. cbn [A0 A1]. apply cx_eq; ring. Qed.
Lemma g_no_root x : mapg x <> zero2.
Proof.
  intros H. destruct (E2_dec (sk x) zero2) as [E|N].
  - rewrite (g_kernel x E) in H. revert H. apply small_ne. vm_compute. reflexivity.
  - pose proof (curve_id x) as C. rewrite H in C. set (s := sk x) in *. set (X := XN x) in *. clearbody s X.
    assert (D : cx 27 0 *! (s *! s) <> zero2) by exact (mul2_ne0 _ _ cx27_ne (mul2_ne0 _ _ N N)). pose proof (inv2_ok _ D) as I. set (d := inv2 (cx 27 0 *! (s *! s))) in *. clearbody d.
    apply (no_cube (X *! d)). assert (K : cx 78732 78732 = opp2 (cx (-4) (-4)) *! (cx 27 0 *! cx 27 0 *! cx 27 0)) by (rewrite opp44, !cx_mul; apply cx_mod; vm_compute; reflexivity).
    transitivity (cx (-4) (-4) *! ((cx 27 0 *! (s *! s) *! d) *! (cx 27 0 *! (s *! s) *! d) *! (cx 27 0 *! (s *! s) *! d))); [|rewrite I; ring].
    transitivity ((X *! X *! X) *! (d *! d *! d)); [ring|].
    assert (E : X *! X *! X = opp2 (cx 78732 78732 *! ((s *! s) *! (s *! s) *! (s *! s)))) by (transitivity ((X *! X *! X +! cx 78732 78732 *! ((s *! s) *! (s *! s) *! (s *! s))) -! cx 78732 78732 *! ((s *! s) *! (s *! s) *! (s *! s))); [ring|rewrite <- C; ring]).
    rewrite E, K. generalize (cx 27 0) (cx (-4) (-4)). intros c1 c2. ring.
Qed.
Lemma bTwist_cx : bTwist = cx 4 4. Proof. reflexivity. Qed.
Lemma twist_no_order2 x : ~ on_g2 (Some (x, zero2)).
Proof.
  intros H. cbn [on_g2 on_curve] in H. apply (no_cube x). transitivity (x *! x *! x +! bTwist -! bTwist); [ring|]. assert (H' : zero2 *! zero2 = x *! x *! x +! bTwist) by exact H. rewrite <- H'.
  rewrite bTwist_cx. transitivity (opp2 (cx 4 4)); [ring|]. rewrite opp2_def. unfold cx. cbn [A0 A1]. apply cx_eq; ring.
Qed.
(** on the SWU curve the denominators do not vanish *)
Lemma sk_ne x y : y *! y = mapg x -> sk x <> zero2.
Proof.
  intros H E. rewrite (g_kernel x E) in H. pose proof (inv2_ok (cx 2 0)) as I. assert (N : cx 2 0 <> zero2) by (apply small_ne; vm_compute; reflexivity). specialize (I N). apply (xi_nonsquare (y *! inv2 (cx 2 0))).
  set (d := inv2 (cx 2 0)) in *. clearbody d. transitivity ((y *! y) *! (d *! d)); [ring|]. rewrite H. assert (K : cx 4 4 = (cx 2 0 *! cx 2 0) *! xi) by (rewrite xi_def; fold (cx 1 1); rewrite !cx_mul; apply cx_mod; vm_compute; reflexivity).
  rewrite K. transitivity ((cx 2 0 *! d) *! (cx 2 0 *! d) *! xi); [ring|]. rewrite I. ring.
Qed.
Lemma iso_on x y : y *! y = mapg x -> exists P, iso_map x y = Some P /\ on_g2 (Some P).
Proof.
  intros H. pose proof (sk_ne x y H) as N. unfold iso_map. pose proof (xden_s x) as EX. pose proof (yden_s x) as EY.
  assert (NX : x_den x <> zero2) by (rewrite EX; exact (mul2_ne0 _ _ N N)). assert (NY : y_den x <> zero2) by (rewrite EY; exact (mul2_ne0 _ _ N (mul2_ne0 _ _ N N))).
  destruct (dec2 (x_den x) zero2) as [Z|_]; [contradiction|]. destruct (dec2 (y_den x) zero2) as [Z|_]; [contradiction|].
  eexists. split; [reflexivity|]. change ((y *! y_num x *! inv2 (y_den x)) *! (y *! y_num x *! inv2 (y_den x)) = (x_num x *! inv2 (x_den x)) *! (x_num x *! inv2 (x_den x)) *! (x_num x *! inv2 (x_den x)) +! bTwist).
  pose proof (inv2_ok _ NX) as IX. pose proof (inv2_ok _ NY) as IY. rewrite EX in IX at 1. rewrite EY in IY at 1. set (dx := inv2 (x_den x)) in *. set (dy := inv2 (y_den x)) in *. clearbody dx dy.
  pose proof (curve_id x) as C. pose proof (XN_ok x) as CX. pose proof (YN_ok x) as CY. rewrite <- CX, <- CY in C. rewrite <- H in C. set (s := sk x) in *. set (xn := x_num x) in *. set (yn := y_num x) in *. clearbody s xn yn.
  assert (K : cx 78732 78732 = cx 27 0 *! cx 27 0 *! cx 27 0 *! bTwist) by (rewrite bTwist_cx, !cx_mul; apply cx_mod; vm_compute; reflexivity).
  rewrite K in C. apply (cancel2 (s *! s *! s *! s *! s *! s) _ _); [exact (mul2_ne0 _ _ (mul2_ne0 _ _ (mul2_ne0 _ _ (mul2_ne0 _ _ (mul2_ne0 _ _ N N) N) N) N) N)|].
  transitivity ((y *! y *! yn *! yn) *! ((s *! (s *! s) *! dy) *! (s *! (s *! s) *! dy))); [ring|]. rewrite IY.
  transitivity ((xn *! xn *! xn) *! ((s *! s *! dx) *! (s *! s *! dx) *! (s *! s *! dx)) +! bTwist *! (s *! s *! s *! s *! s *! s)); [|ring]. rewrite IX.
  apply (cancel2 (cx 27 0 *! cx 27 0 *! cx 27 0) _ _); [exact (mul2_ne0 _ _ (mul2_ne0 _ _ cx27_ne cx27_ne) cx27_ne)|].
  transitivity (cx 27 0 *! ((cx 27 0 *! yn) *! (cx 27 0 *! yn) *! (y *! y))); [ring|]. rewrite C. ring.
Qed.
Lemma inv_unique a b : a *! b = one2 -> b = inv2 a.
Proof.
  intros H. assert (N : a <> zero2) by (intros Z; apply one2_zero2; rewrite <- H, Z; ring). apply (cancel2 a _ _ N). rewrite H. symmetry. apply inv2_ok. exact N.
Qed.
Local Opaque g2_isogeny_x_denominator g2_isogeny_y_denominator g2_isogeny_x_numerator g2_isogeny_y_numerator.
Theorem isogeny_iff p r : (g2_isogeny p r <-> sk (X2 p) <> zero2 /\ aff r = iso_map (X2 p) (Y2 p)).
Proof.
  pose proof (xden_s (X2 p)) as EX. pose proof (yden_s (X2 p)) as EY. unfold g2_isogeny, bind, ret. cbv zeta. pose proof (xd_ok (X2 p)) as O1. pose proof (yd_ok (X2 p)) as O2. pose proof (xn_ok (X2 p)) as O3. pose proof (yn_ok (X2 p) (Y2 p)) as O4. rewrite O1, O2, O3, O4. clear O1 O2 O3 O4. unfold iso_map. split.
  - intros [d1 [H1 [d0 [H0 ->]]]]. apply e2_inverse_iff in H1. apply e2_inverse_iff in H0.
    assert (N : sk (X2 p) <> zero2) by (intros Z; apply one2_zero2; rewrite <- H0, EX, Z; ring). split; [exact N|].
    assert (NX : x_den (X2 p) <> zero2) by (rewrite EX; exact (mul2_ne0 _ _ N N)). assert (NY : y_den (X2 p) <> zero2) by (rewrite EY; exact (mul2_ne0 _ _ N (mul2_ne0 _ _ N N))).
    destruct (dec2 (x_den (X2 p)) zero2) as [Z|_]; [contradiction|]. destruct (dec2 (y_den (X2 p)) zero2) as [Z|_]; [contradiction|].
    apply inv_unique in H0. apply inv_unique in H1. subst d0 d1. unfold aff. cbn [X2 Y2]. apply some_eq; r2; reflexivity.
  - intros [N E]. assert (NX : x_den (X2 p) <> zero2) by (rewrite EX; exact (mul2_ne0 _ _ N N)). assert (NY : y_den (X2 p) <> zero2) by (rewrite EY; exact (mul2_ne0 _ _ N (mul2_ne0 _ _ N N))).
    destruct (dec2 (x_den (X2 p)) zero2) as [Z|_]; [contradiction|]. destruct (dec2 (y_den (X2 p)) zero2) as [Z|_]; [contradiction|].
    exists (inv2 (y_den (X2 p))). split; [apply e2_inverse_iff; exact (inv2_ok _ NY)|]. exists (inv2 (x_den (X2 p))). split; [apply e2_inverse_iff; exact (inv2_ok _ NX)|].
    destruct r as [rx ry]. unfold aff in E. cbn [X2 Y2] in E. injection E as -> ->. r2. reflexivity.
Qed.
