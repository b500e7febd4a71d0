(** * H2GMono.v — what the honest prover is granted every prover is granted; the choice of sign open to a dishonest one *)
From Coq Require Import ZArith NArith Znumtheory List Bool Arith Lia Ring.
From Verif Require Import FieldZ RlpEnc PrimeBls TowerModel TowerSpec TowerRing TowerFrob TowerField TowerPow TowerCyc PairingModel PairingSpec MillerProofs G2Model H2CModel H2CSpec WSpec G2Spec G2Group CmpProofs JacProofs PsiProofs ScalarProofs SswuSpec SswuProofs IsoProofs SswuMap H2GProofs.
Import ListNotations.
Open Scope Z_scope.
Local Infix "*!" := mul2 (at level 40, left associativity).
Local Infix "+!" := add2 (at level 50, left associativity).
Local Infix "-!" := sub2 (at level 50, left associativity).
Local Opaque gadd gneg gmul on_g2 gpsi iso_map mapg sswu_x1 sswu_x2 sswu_t.

Section Mono.
Context (rep : Fp -> rel Z) (O : rep_ok rep).
Lemma mono_nz x b : e2_not_zero fp_canon x b -> e2_not_zero rep x b.
Proof.
  destruct b; intros H; [apply (nz_true _ O); apply nz_canon; exact H|]. apply (nz_false _ O). apply (nz_false _ fp_canon_ok). exact H.
Qed.
Lemma mono_ne x y b : e2_not_equal fp_canon x y b -> e2_not_equal rep x y b.
Proof.
  destruct b; intros H; [apply (ne_true _ O); apply ne_canon; exact H|]. apply (ne_false _ O). apply (ne_false _ fp_canon_ok). exact H.
Qed.
Lemma mono_n1 x b : e2_not_one fp_canon x b -> e2_not_one rep x b.
Proof.
  destruct b; intros H; [apply (n1_true _ O); apply n1_canon; exact H|]. apply (n1_false _ O). apply (n1_false _ fp_canon_ok). exact H.
Qed.
Lemma mono_sgn0 x b : g2_sgn0 fp_canon x b -> g2_sgn0 rep x b.
Proof. intros H. apply (sgn0_rel _ _ _ fp_canon_ok) in H. destruct H as [r [-> ->]]. apply (sgn0_rel _ _ _ O). exists (fval (A0 x)). split; [apply O|reflexivity]. Qed.
Local Opaque e2_not_zero e2_not_equal e2_not_one e2_mul e2_square e2_sub e2_double e2_select e2_add e2_neg.
Lemma mono_add p a r : g2_jacobian_add_assign fp_canon p a r -> g2_jacobian_add_assign rep p a r.
Proof.
  unfold g2_jacobian_add_assign, bind, ret. intros [b1 [H1 [b2 [H2 [b3 [H3 [b4 [H4 E]]]]]]]]. exists b1. split; [exact (mono_nz _ _ H1)|]. exists b2. split; [exact (mono_nz _ _ H2)|].
  exists b3. split; [exact (mono_ne _ _ _ H3)|]. exists b4. split; [exact (mono_ne _ _ _ H4)|exact E].
Qed.
Local Opaque g2_jacobian_add_assign.
Lemma mono_jmul a r : g2_jacobian_const_scalar_mul fp_canon a r -> g2_jacobian_const_scalar_mul rep a r.
Proof.
  assert (T : forall t0 t1 l s r, rel_for (jac_mul_body fp_canon t0 t1) l s r -> rel_for (jac_mul_body rep t0 t1) l s r).
  { intros t0 t1. induction l as [|j l IH]; intros s r' H; cbn [rel_for] in *; [exact H|]. destruct H as [s' [H1 H2]]. exists s'. split; [|exact (IH _ _ H2)].
    unfold jac_mul_body in *. repeat (destruct (Nat.eqb j _)); try exact (mono_add _ _ _ H1). exact H1. }
  unfold g2_jacobian_const_scalar_mul. intros [s [H1 H2]]. exists s. split; [exact (mono_add _ _ _ H1)|exact (T _ _ _ _ _ H2)].
Qed.
Local Opaque g2_jacobian_const_scalar_mul.
Lemma mono_clear a r : clear_cofactor fp_canon a r -> clear_cofactor rep a r.
Proof.
  unfold clear_cofactor, bind. intros [xg [H1 [xxg [H2 [s1 [H3 [s2 [H4 [t [H5 [s3 [H6 H7]]]]]]]]]]]].
  exists xg. split; [exact (mono_jmul _ _ H1)|]. exists xxg. split; [exact (mono_jmul _ _ H2)|]. exists s1. split; [exact (mono_add _ _ _ H3)|]. exists s2. split; [exact (mono_add _ _ _ H4)|].
  exists t. split; [exact (mono_add _ _ _ H5)|]. exists s3. split; [exact (mono_add _ _ _ H6)|]. exact (mono_add _ _ _ H7).
Qed.
Lemma mono_get_jac Q j : get_g2_jac fp_canon Q j -> get_g2_jac rep Q j.
Proof.
  unfold get_g2_jac, g2_affine_not_infinity, bind, ret. intros [b [[x [Hx [y [Hy E]]]] E']]. exists b. split; [|exact E']. exists x. split; [exact (mono_nz _ _ Hx)|]. exists y. split; [exact (mono_nz _ _ Hy)|exact E].
Qed.
Lemma mono_get_affine J r : get_g2_affine fp_canon J r -> get_g2_affine rep J r.
Proof. intros H. apply (get_affine_iff fp_canon J r fp_canon_ok) in H. apply (get_affine_iff rep J r O). exact H. Qed.
Lemma mono_ratio u v z b : g2_sqrt_ratio fp_canon u v (z, b) -> g2_sqrt_ratio rep u v (z, b).
Proof.
  intros H. apply (proj1 (ratio_iff fp_canon u v z b)) in H. apply (proj2 (ratio_iff rep u v z b)). cbv zeta in *. destruct H as [H1 [n [H2 [m [H3 E]]]]].
  split; [exact (mono_n1 _ _ H1)|]. exists n. split; [exact (mono_n1 _ _ H2)|]. exists m. split; [exact (mono_n1 _ _ H3)|exact E].
Qed.
Local Opaque g2_sqrt_ratio g2_sgn0.
Lemma mono_map u x y : map_element_to_curve2 fp_canon u (x, y) -> map_element_to_curve2 rep u (x, y).
Proof.
  intros H. apply (proj1 (map_iff fp_canon u x y)) in H. destruct H as (z & b & s1 & s2 & H & H1 & H2 & Hy & N4 & Hx). apply (proj2 (map_iff rep u x y)). exists z, b, s1, s2.
  split; [exact (mono_ratio _ _ _ _ H)|]. split; [exact (mono_sgn0 _ _ H1)|]. split; [exact (mono_sgn0 _ _ H2)|]. split; [exact Hy|]. split; [exact N4|exact Hx].
Qed.
End Mono.

(** ** the sign is the prover's choice when the first coordinate of u or of y is below 2^381 - p *)
Lemma sgn0_both u : fval (A0 u) < 2 ^ 381 - pBls -> forall b, g2_sgn0 fp_rep u b.
Proof.
  intros L b. apply (sgn0_rel _ _ _ fp_rep_ok). pose proof (fval_range pBls (A0 u) (proj1 pBls_range)) as R.
  assert (R1 : fp_rep (A0 u) (fval (A0 u))) by apply fp_rep_ok.
  assert (R2 : fp_rep (A0 u) (fval (A0 u) + pBls)). { split; [lia|]. pose proof (fc_p_add (fval (A0 u))) as E. rewrite fval_fc_id in E. rewrite Z.add_comm. exact E. }
  destruct (Bool.bool_dec b (Z.odd (fval (A0 u)))) as [E|E]; [exists (fval (A0 u)); split; assumption|]. exists (fval (A0 u) + pBls). split; [exact R2|].
  rewrite Z.odd_add. change (Z.odd pBls) with true. destruct b, (Z.odd (fval (A0 u))); auto; exfalso; apply E; reflexivity.
Qed.
Theorem map_flip u x y : fval (A0 u) < 2 ^ 381 - pBls -> map_element_to_curve2 fp_canon u (x, y) -> map_element_to_curve2 fp_rep u (x, opp2 y).
Proof.
  intros L H. apply (proj1 (map_iff fp_canon u x y)) in H. destruct H as (z & b & s1 & s2 & H & H1 & H2 & Hy & N4 & Hx). apply (proj2 (map_iff fp_rep u x (opp2 y))). exists z, b, (negb s1), s2.
  split; [exact (mono_ratio _ fp_rep_ok _ _ _ _ H)|]. split; [exact (sgn0_both u L _)|]. split; [exact (mono_sgn0 _ fp_rep_ok _ _ H2)|]. split; [|split; [exact N4|exact Hx]].
  rewrite Hy. destruct s1, s2; cbn [negb xorb]; ring.
Qed.
Local Transparent iso_map gneg.
Lemma iso_neg x y : iso_map x (opp2 y) = gneg (iso_map x y).
Proof.
  unfold iso_map. destruct (dec2 (x_den x) zero2); [reflexivity|]. destruct (dec2 (y_den x) zero2); [reflexivity|]. unfold gneg, WSpec.pneg. apply some_eq; [reflexivity|]. ring.
Qed.
Local Opaque iso_map gneg.
Lemma clear_neg P : on_g2 P -> clear_cofactor_spec (gneg P) = gneg (clear_cofactor_spec P).
Proof.
  intros H. pose proof (gneg_on _ H) as HN. pose proof (spec_code P H) as S1. pose proof (spec_code (gneg P) HN) as S2. rewrite S1, S2. clear S1 S2.
  pose proof (gmul_neg kx P H) as E1. rewrite E1. clear E1. pose proof (gmul_on kx P H) as HM. set (M := gmul kx P) in *. clearbody M.
  pose proof (gneg_on _ HM) as HM'. pose proof (gmul_neg kx _ HM') as E2. rewrite E2. clear E2. pose proof (gmul_on kx _ HM') as HK. set (K := gmul kx (gneg M)) in *. clearbody K.
  pose proof (gadd_on _ _ HM' HN) as HT. pose proof (gpsi_on _ HT) as HT'. pose proof (gneg_add _ _ HM' HN) as E3. pose proof (gpsi_neg (gadd (gneg M) (gneg P))) as E4. rewrite E3 in E4. rewrite E4. clear E3 E4.
  set (T := gpsi (gadd (gneg M) (gneg P))) in *. clearbody T.
  pose proof (gneg_add _ _ H H) as E5. rewrite <- E5. clear E5. pose proof (gadd_on _ _ H H) as HD. pose proof (gpsi_neg (gadd P P)) as E6. pose proof (gpsi_neg (gpsi (gadd P P))) as E7. rewrite E6, E7. clear E6 E7.
  pose proof (gpsi_on _ (gpsi_on _ HD)) as HD'. set (D := gpsi (gpsi (gadd P P))) in *. clearbody D.
  pose proof (gneg_on _ HK) as HK'. pose proof (gneg_on _ HM') as HM''. pose proof (gadd_on _ _ HK' HM'') as A1. pose proof (gadd_on _ _ A1 HN) as A2. pose proof (gadd_on _ _ A2 HT') as A3.
  pose proof (gneg_add _ _ A3 HD') as F1. pose proof (gneg_add _ _ A2 HT') as F2. pose proof (gneg_add _ _ A1 HN) as F3. pose proof (gneg_add _ _ HK' HM'') as F4. rewrite F1, F2, F3, F4. reflexivity.
Qed.
