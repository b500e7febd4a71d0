(** * H2GProofs.v — the maps composed: EncodeToG2OnJac, HashToG2OnJac, EncodeToG2, HashToG2 *)
From Coq Require Import ZArith NArith Znumtheory List Bool Arith Lia Ring.
From Verif Require Import FieldZ RlpEnc PrimeBls TowerModel TowerSpec TowerRing TowerFrob TowerField TowerPow TowerCyc PairingModel PairingSpec MillerProofs G2Model H2CModel H2CSpec WSpec G2Spec G2Group CmpProofs JacProofs PsiProofs ScalarProofs SswuSpec SswuProofs IsoProofs SswuMap.
Import ListNotations.
Open Scope Z_scope.
Local Infix "*!" := mul2 (at level 40, left associativity).
Local Infix "+!" := add2 (at level 50, left associativity).
Local Infix "-!" := sub2 (at level 50, left associativity).
Local Opaque gadd gneg gmul on_g2 gpsi iso_map mapg sswu_x1 sswu_x2 sswu_t map_element_to_curve2 g2_isogeny clear_cofactor_spec.

(** ** signs *)
Lemma odd_opp (a : Fp) : a <> fc 0 -> Z.odd (fval (qopp a)) = negb (Z.odd (fval a)).
Proof.
  intros N. pose proof (fval_range pBls a (proj1 pBls_range)) as R. assert (Na : fval a <> 0). { intros Z. apply N. apply fc0_fval. exact Z. }
  assert (F : fval (qopp a) = pBls - fval a).
  { rewrite <- (fval_fc_id a) at 1. unfold fc. rewrite ofZ_opp. change (fval (ofZ pBls (- fval a))) with (- fval a mod pBls). symmetry. apply Z.mod_unique with (q := -1); lia. }
  rewrite F, Z.odd_sub. change (Z.odd pBls) with true. apply xorb_true_l.
Qed.
Lemma fval_0 : fval (fc 0) = 0. Proof. reflexivity. Qed.
Lemma opp_zero : qopp (fc 0) = fc 0. Proof. ring. Qed.
Lemma sgn0_opp y : y <> zero2 -> sgn0 (opp2 y) = negb (sgn0 y).
Proof.
  intros N. destruct y as [a b]. rewrite opp2_def. unfold sgn0. cbn [A0 A1]. destruct (fc_dec a (fc 0)) as [->|Na].
  - rewrite opp_zero, fval_0. cbn [Z.odd Z.eqb orb andb]. apply odd_opp. intros ->. apply N. rewrite zero2_def. reflexivity.
  - rewrite (odd_opp a Na). assert (K : forall c : Fp, c <> fc 0 -> (fval c =? 0) = false) by (intros c Nc; apply Z.eqb_neq; intros Z; apply Nc, fc0_fval, Z).
    assert (Nb : qopp a <> fc 0) by (intros Z; apply Na; transitivity (qopp (qopp a)); [ring|rewrite Z; ring]). rewrite (K a Na), (K _ Nb). cbn [andb]. rewrite !orb_false_r. reflexivity.
Qed.
Lemma sgn0_nz y : A0 y <> fc 0 -> sgn0 y = Z.odd (fval (A0 y)).
Proof. intros N. unfold sgn0. destruct (Z.eqb_spec (fval (A0 y)) 0) as [E|_]; [exfalso; apply N, fc0_fval, E|]. apply orb_false_r. Qed.
Lemma sq_pm x y : x *! x = y *! y -> x = y \/ x = opp2 y.
Proof.
  intros H. destruct (E2_dec x y) as [|N]; [left; assumption|right]. assert (E : (x -! y) *! (x +! y) = zero2) by (transitivity (x *! x -! y *! y); [ring|]; rewrite H; ring).
  apply dom2 in E; [transitivity ((x +! y) -! y); [ring|rewrite E; ring]|]. intros Z. apply N. transitivity ((x -! y) +! y); [ring|rewrite Z; ring].
Qed.
Lemma y_ne x y : y *! y = mapg x -> y <> zero2.
Proof. intros H Z. apply (g_no_root x). rewrite <- H, Z. ring. Qed.
Lemma abscissa_fun u x x' : sswu_abscissa u x -> sswu_abscissa u x' -> x = x'.
Proof. intros [[S ->]|[S ->]] [[S' ->]|[S' ->]]; try reflexivity; contradiction. Qed.
Lemma sswu_fun u x y x' y' : sswu u x y -> sswu u x' y' -> x = x' /\ y = y'.
Proof.
  intros [A [E S]] [A' [E' S']]. pose proof (abscissa_fun u x x' A A') as <-. split; [reflexivity|]. rewrite <- E' in E. destruct (sq_pm y y' E) as [|O]; [assumption|].
  exfalso. rewrite O in S. pose proof (sgn0_opp y' (y_ne x y' E')) as F. rewrite F in S. rewrite S in S'. destruct (sgn0 y'); discriminate.
Qed.
(** inputs for which the sign computed by the circuit is the sign of RFC 9380 *)
Definition regular (u : E2) : Prop := (A0 u <> fc 0 \/ Z.odd (fval (A1 u)) = false) /\ forall x y, sswu u x y -> A0 y <> fc 0.
Lemma u_sign u : A0 u <> fc 0 \/ Z.odd (fval (A1 u)) = false -> sgn0 u = Z.odd (fval (A0 u)).
Proof. intros [N|E]; [exact (sgn0_nz u N)|]. unfold sgn0. rewrite E, andb_false_r. apply orb_false_r. Qed.
Theorem map_rfc u x y : regular u -> (map_element_to_curve2 fp_canon u (x, y) <-> sswu_t u <> zero2 /\ sswu u x y).
Proof.
  intros [Ru Ry]. pose proof (u_sign u Ru) as SU.
  assert (F : forall x y, map_element_to_curve2 fp_canon u (x, y) -> sswu_t u <> zero2 /\ sswu u x y).
  { clear x y. intros x y H. destruct (map_canon u x y H) as [T [A [E S]]]. split; [exact T|]. pose proof (y_ne x y E) as NY.
    assert (N : A0 y <> fc 0).
    { intros Z. destruct (Bool.bool_dec (sgn0 u) (sgn0 y)) as [D|D].
      - exact (Ry x y (conj A (conj E D)) Z).
      - assert (D' : sgn0 u = sgn0 (opp2 y)) by (rewrite (sgn0_opp y NY); destruct (sgn0 u), (sgn0 y); auto; exfalso; apply D; reflexivity).
        apply (Ry x (opp2 y)); [split; [exact A|]; split; [rewrite <- E; ring|exact D']|]. rewrite opp2_def. cbn [A0]. rewrite Z. apply opp_zero. }
    split; [exact A|]. split; [exact E|]. rewrite SU, (sgn0_nz y N). symmetry. exact (S N). }
  split; [apply F|]. intros [T W]. destruct (map_total fp_canon u fp_canon_ok T) as [x' [y' H]]. destruct (F x' y' H) as [_ W']. destruct (sswu_fun u x y x' y' W W') as [-> ->]. exact H.
Qed.

(** ** isogeny and the rest *)
Lemma iso_some x y : y *! y = mapg x -> exists Q, iso_map x y = aff Q /\ on_g2 (aff Q) /\ g2_isogeny (mkG2 x y) Q.
Proof.
  intros E. destruct (iso_on x y E) as [[a b] [I O]]. exists (mkG2 a b). split; [exact I|]. split; [exact O|]. apply (isogeny_iff (mkG2 x y)). cbn [X2 Y2]. split; [exact (sk_ne x y E)|]. symmetry. exact I.
Qed.
Lemma iso_fun x y Q : g2_isogeny (mkG2 x y) Q -> aff Q = iso_map x y.
Proof. intros H. apply (proj1 (isogeny_iff (mkG2 x y) Q)) in H. exact (proj2 H). Qed.
(** MapElementToCurve2, then G2Isogeny *)
Definition map_iso (rep : Fp -> rel Z) (u : E2) : rel G2Affine := fun Q => exists xy, map_element_to_curve2 rep u xy /\ g2_isogeny (mkG2 (fst xy) (snd xy)) Q.
Lemma map_iso_rfc u Q : regular u -> (map_iso fp_canon u Q <-> sswu_t u <> zero2 /\ map_to_curve u (aff Q)).
Proof.
  intros R. split.
  - intros [[x y] [H I]]. cbn [fst snd] in I. apply (proj1 (map_rfc u x y R)) in H. destruct H as [T W]. split; [exact T|]. exists x, y. split; [exact W|exact (iso_fun x y Q I)].
  - intros [T [x [y [W E]]]]. exists (x, y). split; [apply (map_rfc u x y R); split; assumption|]. cbn [fst snd]. destruct (iso_some x y (proj1 (proj2 W))) as [Q' [E' [_ I]]].
    rewrite <- E in E'. apply aff_inj in E'. rewrite E'. exact I.
Qed.
Lemma map_to_curve_on u P : map_to_curve u P -> exists Q, P = aff Q /\ on_g2 (aff Q).
Proof. intros [x [y [W ->]]]. destruct (iso_some x y (proj1 (proj2 W))) as [Q [E [O _]]]. exists Q. split; [exact E|exact O]. Qed.
Lemma map_iso_on u Q : map_iso fp_canon u Q -> on_g2 (aff Q).
Proof.
  intros [[x y] [H I]]. cbn [fst snd] in I. destruct (map_canon u x y H) as [_ [_ [E _]]]. destruct (iso_some x y E) as [Q' [E' [O _]]]. rewrite (iso_fun x y Q I), E'. exact O.
Qed.
(** the tail of EncodeToG2OnJac: exact *)
Lemma tail_jac Q r : on_g2 (aff Q) -> ((exists j, get_g2_jac fp_canon Q j /\ exists k, clear_cofactor fp_canon j k /\ get_g2_affine fp_canon k r) <-> aff r = clear_cofactor_spec (aff Q)).
Proof.
  intros O. split.
  - intros [j [Hj [k [Hk Hr]]]]. pose proof (get_jac_ok fp_canon Q j fp_canon_ok O Hj) as ->. pose proof (clear_canon _ k (aff Q) O (jrep_one (X2 Q) (Y2 Q)) Hk) as R.
    apply (get_affine_iff fp_canon k r fp_canon_ok) in Hr. exact (jrep_fun k _ _ Hr R).
  - intros E. destruct (get_jac_total fp_canon Q fp_canon_ok) as [j Hj]. exists j. split; [exact Hj|]. destruct (clear_total fp_canon j fp_canon_ok) as [k Hk]. exists k. split; [exact Hk|].
    pose proof (get_jac_ok fp_canon Q j fp_canon_ok O Hj) as ->. pose proof (clear_canon _ k (aff Q) O (jrep_one (X2 Q) (Y2 Q)) Hk) as R. apply (get_affine_iff fp_canon k r fp_canon_ok). rewrite E. exact R.
Qed.
Lemma tail_jac2 Q0 Q1 r : on_g2 (aff Q0) -> on_g2 (aff Q1) ->
  ((exists j0, get_g2_jac fp_canon Q0 j0 /\ exists j1, get_g2_jac fp_canon Q1 j1 /\ exists s, g2_jacobian_add_assign fp_canon j0 j1 s /\ exists k, clear_cofactor fp_canon s k /\ get_g2_affine fp_canon k r) <->
   aff r = clear_cofactor_spec (gadd (aff Q0) (aff Q1))).
Proof.
  intros O0 O1. pose proof (gadd_on _ _ O0 O1) as OS. split.
  - intros [j0 [H0 [j1 [H1 [s [Hs [k [Hk Hr]]]]]]]]. pose proof (get_jac_ok fp_canon Q0 j0 fp_canon_ok O0 H0) as ->. pose proof (get_jac_ok fp_canon Q1 j1 fp_canon_ok O1 H1) as ->.
    pose proof (add_canon _ _ s _ _ O0 O1 (jrep_one (X2 Q0) (Y2 Q0)) (jrep_one (X2 Q1) (Y2 Q1)) Hs) as RS. pose proof (clear_canon s k _ OS RS Hk) as R.
    apply (get_affine_iff fp_canon k r fp_canon_ok) in Hr. exact (jrep_fun k _ _ Hr R).
  - intros E. destruct (get_jac_total fp_canon Q0 fp_canon_ok) as [j0 H0]. exists j0. split; [exact H0|]. destruct (get_jac_total fp_canon Q1 fp_canon_ok) as [j1 H1]. exists j1. split; [exact H1|].
    destruct (add_total _ fp_canon_ok j0 j1) as [s Hs]. exists s. split; [exact Hs|]. destruct (clear_total fp_canon s fp_canon_ok) as [k Hk]. exists k. split; [exact Hk|].
    pose proof (get_jac_ok fp_canon Q0 j0 fp_canon_ok O0 H0) as ->. pose proof (get_jac_ok fp_canon Q1 j1 fp_canon_ok O1 H1) as ->.
    pose proof (add_canon _ _ s _ _ O0 O1 (jrep_one (X2 Q0) (Y2 Q0)) (jrep_one (X2 Q1) (Y2 Q1)) Hs) as RS. pose proof (clear_canon s k _ OS RS Hk) as R. apply (get_affine_iff fp_canon k r fp_canon_ok). rewrite E. exact R.
Qed.
