(** * Props_Sswu.v — properties C56 (g2SqrtRatio, MapElementToCurve2) and C57 (G2Isogeny) of
    circuits/gadgets/pairing_bls12381/hash2curve.go

    [sswu u x y] (SswuSpec.v): (x, y) is map_to_curve_simple_swu(u) of RFC 9380 6.6.2 for the curve y^2 = x^3 + 240 I x + 1012 (1 + I)
    ([mapg] is the right-hand side) with Z = -(2 + I); [sswu_t u] is the denominator Z^2 u^4 + Z u^2 (the RFC treats 0 apart);
    [iso_map] is the 3-isogeny of RFC 9380 appendix E.3.  [fp_canon] is a prover that runs gnark's hints, [fp_rep] any prover. *)
From Coq Require Import ZArith NArith List Bool Lia Ring.
From Verif Require Import FieldZ TowerModel TowerSpec TowerRing TowerFrob TowerField TowerPow PairingModel PairingSpec MillerProofs MillerWitness WSpec G2Spec G2Group G2Model H2CModel H2CSpec CmpProofs JacProofs PsiProofs ScalarProofs SswuSpec SswuProofs IsoProofs SswuMap H2GProofs H2GMono SswuEx.
Open Scope Z_scope.
Local Opaque gadd gneg gmul on_g2 gpsi iso_map mapg sswu_x1 sswu_x2 sswu_t map_element_to_curve2 g2_isogeny.

(** ** the specification determines the point *)
Theorem C56_spec_unique : forall u x y x' y', sswu u x y -> sswu u x' y' -> x = x' /\ y = y'.
Proof. exact sswu_fun. Qed.

(** ** g2SqrtRatio *)
(** with honest hints it returns a flag saying whether u / v is a non-square and a square root of u / v or of Z u / v *)
Theorem C56_sqrt_ratio_honest : forall u v, u <> zero2 -> v <> zero2 ->
  (exists z b, g2_sqrt_ratio fp_canon u v (z, b)) /\
  forall z b, g2_sqrt_ratio fp_canon u v (z, b) ->
    (b = false <-> is_square2 (mul2 u (inv2 v))) /\ mul2 z z = mul2 (if b then mul2 mapZ u else u) (inv2 v).
Proof.
  intros u v Nu Nv. split; [exact (ratio_total _ u v fp_canon_ok)|]. intros z b H. destruct (ratio_canon u v z b Nu Nv H) as [E Q]. pose proof (inv2_ok v Nv) as I. split.
  - rewrite Q. unfold is_square2. split; intros [s S]; exists s.
    + rewrite <- S. transitivity (mul2 (mul2 s s) (mul2 v (inv2 v))); [rewrite I; ring|ring].
    + rewrite S. transitivity (mul2 u (mul2 v (inv2 v))); [ring|rewrite I; ring].
  - transitivity (mul2 (mul2 (mul2 z z) v) (inv2 v)); [transitivity (mul2 (mul2 z z) (mul2 v (inv2 v))); [rewrite I; ring|ring]|]. rewrite E. destruct b; reflexivity.
Qed.
(** refuted for any prover: for u = v = 1 it accepts a square root of -1 with the flag "1 is a square" *)
Theorem C56_sqrt_ratio_refuted : exists z, g2_sqrt_ratio fp_rep one2 one2 (z, false) /\ mul2 z z <> mul2 one2 (inv2 one2).
Proof.
  pose proof one2_zero2 as N. destruct (ratio_lie one2 one2 one2 N N) as [z [H E]]; [rewrite pow2_one; ring|]. exists z. split; [exact H|]. intros C. pose proof (inv2_ok one2 N) as I. rewrite I in C.
  apply opp_ne_one. rewrite <- E, C. ring.
Qed.

(** ** MapElementToCurve2 *)
(** honest prover, every u: satisfiable unless Z^2 u^4 + Z u^2 = 0; the abscissa is the RFC's and the point is on the curve; its sign
    is the parity of the first coordinates *)
Theorem C56_map_honest : forall u,
  ((exists x y, map_element_to_curve2 fp_canon u (x, y)) <-> sswu_t u <> zero2) /\
  forall x y, map_element_to_curve2 fp_canon u (x, y) ->
    (is_square2 (mapg (sswu_x1 u)) /\ x = sswu_x1 u \/ ~ is_square2 (mapg (sswu_x1 u)) /\ x = sswu_x2 u) /\ mul2 y y = mapg x /\
    (A0 y <> fc 0 -> Z.odd (fval (A0 y)) = Z.odd (fval (A0 u))).
Proof.
  intros u. split.
  - split; [|exact (map_total _ u fp_canon_ok)]. intros [x [y H]]. exact (proj1 (map_canon u x y H)).
  - intros x y H. exact (proj2 (map_canon u x y H)).
Qed.
(** hence the RFC's map whenever the sign needs the first coordinates only, which is so for every input met in practice: u has a
    nonzero first coordinate (or an even second one) and so has the RFC's ordinate *)
Theorem C56_map_rfc : forall u, A0 u <> fc 0 \/ Z.odd (fval (A1 u)) = false -> (forall x y, sswu u x y -> A0 y <> fc 0) ->
  forall x y, map_element_to_curve2 fp_canon u (x, y) <-> sswu_t u <> zero2 /\ sswu u x y.
Proof. intros u H1 H2 x y. exact (map_rfc u x y (conj H1 H2)). Qed.
(** u = 1 meets the hypotheses *)
Example C56_example : A0 one2 <> fc 0 /\ (forall x y, sswu one2 x y -> A0 y <> fc 0) /\ sswu_t one2 <> zero2 /\ exists x y, sswu one2 x y.
Proof.
  destruct (regular_ok (1, 0) one_reg eq_refl) as [T [_ R]]. rewrite <- em_one in T, R. split; [rewrite em_one; apply A0_ne; reflexivity|]. split; [exact R|]. split; [exact T|]. eexists. eexists. exact one_sswu.
Qed.
(** refuted: the exceptional case, e.g. u = 0, where the RFC defines a point, is not satisfiable, whatever the prover *)
Theorem C56_exceptional_refuted : (forall u, sswu_t u = zero2 -> ~ exists x y, map_element_to_curve2 fp_rep u (x, y)) /\
  sswu_t zero2 = zero2 /\ exists x y, sswu zero2 x y.
Proof. split; [exact (map_unsat fp_rep)|]. split; [exact zero_t|]. eexists. eexists. exact zero_sswu. Qed.
(** refuted: inputs with first coordinate 0 and an odd second one (sgn0 = 1 in the RFC) get the opposite of the RFC's point *)
Theorem C56_sign_refuted :
  (forall u x y, A0 u = fc 0 -> Z.odd (fval (A1 u)) = true -> map_element_to_curve2 fp_canon u (x, y) -> A0 y <> fc 0 -> sswu u x (opp2 y)) /\
  exists x y, map_element_to_curve2 fp_canon (cx 0 1) (x, y) /\ ~ sswu (cx 0 1) x y.
Proof.
  split; [exact wrong_sign|]. destruct (reg_ok (0, 1) i_reg) as [T R]. destruct (map_total _ _ fp_canon_ok T) as [x [y H]]. exists x, y. split; [exact H|]. intros S.
  destruct (map_canon _ x y H) as [_ [X [E _]]]. assert (X' : x = sswu_x1 (em (0, 1)) \/ x = sswu_x2 (em (0, 1))) by (destruct X as [[_ X]|[_ X]]; auto).
  pose proof (R x y X' E) as NY. assert (W : sswu (cx 0 1) x (opp2 y)) by (apply (wrong_sign (cx 0 1) x y); [reflexivity|reflexivity|exact H|exact NY]).
  destruct (sswu_fun _ _ _ _ _ S W) as [_ C]. pose proof (y_ne x y E) as N. apply (add2_self y N). transitivity (add2 y (opp2 y)); [rewrite <- C; reflexivity|ring].
Qed.
(** any prover: the abscissa is one of the RFC's two candidates and the ordinate is right up to an eighth root of unity in its
    square (missing: the choice of the abscissa, the curve equation and the sign, see the refutations) *)
Theorem C56_map_any_partial : forall u x y, map_element_to_curve2 fp_rep u (x, y) ->
  (x = sswu_x1 u \/ x = sswu_x2 u) /\ exists e, pow2 e 8 = one2 /\ mul2 y y = mul2 e (mapg x).
Proof.
  intros u x y H. destruct (map_any fp_rep u x y fp_rep_ok H) as [X [e [R E]]]. split; [exact X|]. exists e. split; [|exact E].
  pose proof (pow2_mul e 4 2 ltac:(lia) ltac:(lia)) as F. change (4 * 2) with 8 in F. rewrite F. pose proof (pow2_4 e) as F4. rewrite F4. pose proof (pow2_2 (mul2 (mul2 e e) (mul2 e e))) as F2. rewrite F2. exact R.
Qed.
(** refuted for any prover: the point can be off the curve (for u = 1, and whenever g(x1) is an eighth power) *)
Theorem C56_map_off_curve_refuted :
  (forall u s, sswu_t u <> zero2 -> pow2 s 8 = mapg (sswu_x1 u) -> exists y, map_element_to_curve2 fp_rep u (sswu_x1 u, y) /\ mul2 y y = opp2 (mapg (sswu_x1 u))) /\
  exists x y, map_element_to_curve2 fp_rep one2 (x, y) /\ mul2 y y <> mapg x.
Proof.
  split; [exact map_lie|]. destruct (regular_ok (1, 0) one_reg eq_refl) as [T _]. rewrite <- em_one in T. destruct (map_lie one2 (em s8) T (proj1 s8_pow)) as [y [H E]]. exists (sswu_x1 one2), y. split; [exact H|].
  intros C. rewrite C in E. apply (add2_self _ (g_no_root (sswu_x1 one2))). transitivity (add2 (mapg (sswu_x1 one2)) (opp2 (mapg (sswu_x1 one2)))); [rewrite <- E; reflexivity|ring].
Qed.
(** refuted for any prover: for the u whose first coordinate is below 2^381 - p (about a quarter of them) both signs are accepted *)
Theorem C56_map_sign_refuted : forall u x y, fval (A0 u) < 2 ^ 381 - pBls -> map_element_to_curve2 fp_canon u (x, y) ->
  map_element_to_curve2 fp_rep u (x, y) /\ map_element_to_curve2 fp_rep u (x, opp2 y) /\ y <> opp2 y.
Proof.
  intros u x y L H. split; [exact (mono_map _ fp_rep_ok u x y H)|]. split; [exact (map_flip u x y L H)|]. intros C. destruct (map_canon u x y H) as [_ [_ [E _]]]. pose proof (y_ne x y E) as N.
  apply (add2_self y N). transitivity (add2 y (opp2 y)); [rewrite <- C; reflexivity|ring].
Qed.
Example C56_sign_example : fval (A0 one2) < 2 ^ 381 - pBls /\ exists x y, map_element_to_curve2 fp_canon one2 (x, y).
Proof.
  split; [rewrite em_one; reflexivity|]. destruct (regular_ok (1, 0) one_reg eq_refl) as [T _]. rewrite <- em_one in T. exact (map_total _ _ fp_canon_ok T).
Qed.

(** ** C57: G2Isogeny *)
(** it accepts exactly the image under the RFC's isogeny, whatever the prover; inputs mapped to infinity are rejected *)
Theorem C57_isogeny : forall p r, g2_isogeny p r <-> aff r = iso_map (X2 p) (Y2 p).
Proof.
  intros p r. pose proof (isogeny_iff p r) as I. split; intros H; [exact (proj2 (proj1 I H))|]. apply (proj2 I). split; [|exact H]. intros Z.
  Local Transparent iso_map. unfold iso_map in H. destruct (dec2 (x_den (X2 p)) zero2) as [E|N]; [discriminate H|]. apply N. pose proof (xden_s (X2 p)) as E. rewrite E, Z. ring.
Qed.
Local Opaque iso_map.
(** it is satisfiable on every point of the curve E'' and lands on E' *)
Theorem C57_on_curve : forall p, mul2 (Y2 p) (Y2 p) = mapg (X2 p) -> exists r, g2_isogeny p r /\ on_g2 (aff r).
Proof. intros [x y] E. cbn [X2 Y2] in E. destruct (iso_some x y E) as [Q [_ [O I]]]. exists Q. split; [exact I|exact O]. Qed.
(** together: with honest hints, map and isogeny are satisfiable unless Z^2 u^4 + Z u^2 = 0 and give a point of E' *)
Theorem C57_map_isogeny : forall u, sswu_t u <> zero2 -> exists x y r, map_element_to_curve2 fp_canon u (x, y) /\ g2_isogeny (mkG2 x y) r /\ on_g2 (aff r).
Proof.
  intros u T. destruct (map_total _ u fp_canon_ok T) as [x [y H]]. destruct (map_canon u x y H) as [_ [_ [E _]]]. destruct (C57_on_curve (mkG2 x y) E) as [r [I O]]. exists x, y, r. split; [exact H|]. split; [exact I|exact O].
Qed.
Example C57_example : exists p, mul2 (Y2 p) (Y2 p) = mapg (X2 p).
Proof. exists (mkG2 (sswu_x1 one2) (em s8_4)). exact (proj2 s8_pow). Qed.
(** E' has no point of order two, so the affine doubling of C54 is satisfiable on every point of the curve *)
Theorem C54_no_order_two : forall x, ~ on_g2 (Some (x, zero2)).
Proof. exact twist_no_order2. Qed.
Theorem C54_affine_double_complete : forall p, on_g2 (aff p) -> exists r, g2_double p r.
Proof.
  intros [x y] H. assert (N : y <> zero2). { intros ->. exact (twist_no_order2 x H). } apply (adbl_ex (mkG2 x y) H).
  pose proof (inv2_ok _ (add2_self y N)) as I. set (k := mul2 (add2 one2 (add2 one2 one2)) (mul2 x x)). assert (L : mul2 (mul2 k (inv2 (add2 y y))) (add2 y y) = k). { transitivity (mul2 k (mul2 (add2 y y) (inv2 (add2 y y)))); [ring|rewrite I; ring]. }
  pose proof (gadd_tangent x y _ H N L) as E. unfold aff. cbn [X2 Y2]. rewrite E. discriminate.
Qed.
