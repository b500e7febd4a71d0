(** * Props_G2.v — properties C54 (point operations on G2) and C55 (multiplication by the curve parameter, cofactor clearing) of
    circuits/gadgets/pairing_bls12381/g2.go and hash2curve.go

    [gadd], [gneg], [gsub], [gmul] (G2Spec.v, WSpec.v) are the textbook group law of E'(Fp2): y^2 = x^3 + 4(1+u), with None the point
    at infinity.  [jrep J P]: the Jacobian triple J represents the point P.  [aff Q]: the affine pair Q as a point.  [fp_canon] is a
    prover that runs gnark's hints, [fp_rep] any prover. *)
From Coq Require Import ZArith NArith List Bool Lia.
From Verif Require Import FieldZ TowerModel TowerSpec TowerRing TowerFrob TowerField PairingModel PairingSpec MillerWitness WSpec G2Spec G2Group G2Model CmpProofs JacProofs PsiProofs ScalarProofs GenOrder GenMul.
Local Opaque gadd gneg gmul on_g2 gpsi psi_u psi_v bTwist of1 g2_gen.

(** ** the specification is a group *)
Theorem C54_group_law :
  (forall P Q, on_g2 P -> on_g2 Q -> on_g2 (gadd P Q) /\ gadd P Q = gadd Q P) /\
  (forall P Q R, on_g2 P -> on_g2 Q -> on_g2 R -> gadd (gadd P Q) R = gadd P (gadd Q R)) /\
  (forall P, gadd None P = P /\ gadd P (gneg P) = None) /\
  (forall n m P, on_g2 P -> gmul (n + m) P = gadd (gmul n P) (gmul m P)).
Proof.
  split; [intros P Q HP HQ; exact (conj (gadd_on P Q HP HQ) (gadd_comm P Q HP HQ))|]. split; [exact gadd_assoc|].
  split; [intros P; exact (conj (gadd_0_l P) (gadd_neg P))|exact gmul_add].
Qed.

(** ** C54: Jacobian operations *)
(** doubling and negation are exact for every point, infinity included, whatever the prover (there are no hints) *)
Theorem C54_double : forall J P, on_g2 P -> jrep J P -> jrep (g2_jacobian_double J) (gadd P P).
Proof. exact double_ok. Qed.
Theorem C54_neg : forall J P, jrep J P -> jrep (g2_jacobian_neg J) (gneg P).
Proof. exact neg_jac. Qed.
(** the hard-coded constants of Psi are those of RFC 9380, G.3, and both versions compute psi *)
Theorem C54_psi : (forall J P, jrep J P -> jrep (g2_jacobian_psi J) (gpsi P)) /\ (forall Q, aff (g2_psi Q) = gpsi (aff Q)) /\
  (forall P, on_g2 P -> on_g2 (gpsi P)) /\ (forall P Q, on_g2 P -> on_g2 Q -> gpsi (gadd P Q) = gadd (gpsi P) (gpsi Q)).
Proof. split; [exact psi_jac|]. split; [exact psi_aff|]. split; [exact gpsi_on|exact gpsi_add]. Qed.
(** with honest hints addition and subtraction are satisfiable and exact for every pair of points: infinity, equal and opposite
    points included *)
Theorem C54_add_honest : forall p a P Q, on_g2 P -> on_g2 Q -> jrep p P -> jrep a Q ->
  (exists r, g2_jacobian_add_assign fp_canon p a r) /\ (forall r, g2_jacobian_add_assign fp_canon p a r -> jrep r (gadd P Q)) /\
  (exists r, g2_jacobian_sub_assign fp_canon p a r) /\ (forall r, g2_jacobian_sub_assign fp_canon p a r -> jrep r (gsub P Q)).
Proof.
  intros p a P Q OP OQ HP HQ. split; [exact (add_total _ fp_canon_ok p a)|]. split; [intros r H; exact (add_canon p a r P Q OP OQ HP HQ H)|].
  split; [exact (add_total _ fp_canon_ok p _)|]. intros r H. exact (sub_canon p a r P Q OP OQ HP HQ H).
Qed.
(** any prover: exact when neither point is infinity and the points differ *)
Theorem C54_add_any_partial : forall p a r P Q, on_g2 P -> on_g2 Q -> P <> None -> Q <> None -> P <> Q -> jrep p P -> jrep a Q ->
  g2_jacobian_add_assign fp_rep p a r -> jrep r (gadd P Q).
Proof.
  intros p a r P Q OP OQ NP NQ NE HP HQ H. destruct (add_sound _ fp_rep_ok p a r P Q OP OQ HP HQ H) as [A|[[_ [E|[E|E]]]|[E _]]]; [exact A| | | |]; exfalso; auto.
Qed.
(** Refuted for any prover in the other cases: infinity + G can be accepted with the result infinity *)
Definition jac_inf : G2Jacobian := mkJac one2 one2 zero2.
Definition jac_gen : G2Jacobian := mkJac (X2 g2_gen) (Y2 g2_gen) one2.
Theorem C54_add_infinity_refuted : exists r, jrep jac_inf None /\ jrep jac_gen (aff g2_gen) /\ on_g2 (aff g2_gen) /\
  g2_jacobian_add_assign fp_rep jac_inf jac_gen r /\ jrep r None /\ ~ jrep r (gadd None (aff g2_gen)).
Proof.
  assert (N1 : e2_not_zero fp_rep (JZ jac_inf) true) by apply nz_any. assert (N2 : e2_not_zero fp_rep (JZ jac_gen) true) by apply nz_any.
  pose proof (ne_true _ fp_rep_ok) as NE. pose proof (ne_false _ fp_rep_ok) as NF.
  assert (U : e2_not_equal fp_rep (e2_mul (JX jac_gen) (e2_square (JZ jac_inf))) (e2_mul (JX jac_inf) (e2_square (JZ jac_gen))) true).
  { apply NE. unfold jac_gen, jac_inf. cbn [JX JY JZ]. r2. intros E. apply one2_zero2. transitivity (mul2 one2 (mul2 one2 one2)); [ring|]. rewrite <- E. ring. }
  assert (S : exists b, e2_not_equal fp_rep (e2_mul (e2_mul (JY jac_gen) (JZ jac_inf)) (e2_square (JZ jac_inf))) (e2_mul (e2_mul (JY jac_inf) (JZ jac_gen)) (e2_square (JZ jac_gen))) b).
  { destruct (E2_dec (e2_mul (e2_mul (JY jac_gen) (JZ jac_inf)) (e2_square (JZ jac_inf))) (e2_mul (e2_mul (JY jac_inf) (JZ jac_gen)) (e2_square (JZ jac_gen)))) as [E|E]; [exists false; apply NF; exact E|exists true; apply NE; exact E]. }
  destruct S as [b S].
  assert (A : exists r, g2_jacobian_add_assign fp_rep jac_inf jac_gen r /\ jrep r None).
  { eexists. split; [exists true; split; [exact N1|]; exists true; split; [exact N2|]; exists true; split; [exact U|]; exists b; split; [exact S|reflexivity]|].
    cbn [jrep JZ orb]. rewrite !sel2. unfold jac_gen, jac_inf. cbn [JX JY JZ]. r2. ring. }
  destruct A as [r [A R]]. exists r. split; [reflexivity|]. split; [exact (jrep_one (X2 g2_gen) (Y2 g2_gen))|]. split; [exact gen_on|]. split; [exact A|]. split; [exact R|].
  intros B. rewrite gadd_0_l in B. pose proof (jrep_fun r _ _ R B) as E. discriminate E.
Qed.

(** ** C54: conversions *)
(** Jacobian to affine accepts exactly the affine coordinates of the represented point, whatever the prover; infinity is rejected
    (the code's (0,0) for infinity is unreachable: the inverse of Z has no witness) *)
Theorem C54_to_affine : forall rep J r, rep_ok rep -> (get_g2_affine rep J r <-> jrep J (aff r)).
Proof. exact get_affine_iff. Qed.
Theorem C54_infinity_rejected : forall rep J, rep_ok rep -> jrep J None -> ~ exists r, get_g2_affine rep J r.
Proof.
  intros rep J O H [r R]. apply (get_affine_iff rep J r O) in R. pose proof (jrep_fun J _ _ H R) as E. discriminate E.
Qed.
(** both provers the theorems speak about qualify as [rep] *)
Example C54_provers : rep_ok fp_rep /\ rep_ok fp_canon.
Proof. exact (conj fp_rep_ok fp_canon_ok). Qed.
(** affine to Jacobian is exact for every point of the curve, whatever the prover *)
Theorem C54_from_affine : forall rep Q, rep_ok rep -> on_g2 (aff Q) ->
  (exists J, get_g2_jac rep Q J) /\ forall J, get_g2_jac rep Q J -> jrep J (aff Q).
Proof.
  intros rep Q O H. split; [exact (get_jac_total rep Q O)|]. intros J HJ. rewrite (get_jac_ok rep Q J O H HJ). exact (jrep_one (X2 Q) (Y2 Q)).
Qed.
(** (0,0), the encoding of infinity: infinity with honest hints; refuted for any prover, who can have the off-curve (0,0,1) *)
Theorem C54_from_affine_zero_honest : forall J, get_g2_jac fp_canon (mkG2 zero2 zero2) J -> jrep J None.
Proof.
  intros J H. unfold get_g2_jac, g2_affine_not_infinity, bind, ret in H. cbn [X2 Y2] in H. destruct H as [b [[x [Hx [y [Hy ->]]]] ->]].
  destruct x; [apply nz_canon in Hx; exfalso; apply Hx; reflexivity|]. destruct y; [apply nz_canon in Hy; exfalso; apply Hy; reflexivity|]. reflexivity.
Qed.
Theorem C54_from_affine_zero_refuted : get_g2_jac fp_rep (mkG2 zero2 zero2) (mkJac zero2 zero2 one2) /\ ~ on_g2 (Some (zero2, zero2)).
Proof.
  split.
  - unfold get_g2_jac, g2_affine_not_infinity, bind, ret. cbn [X2 Y2]. exists true. split; [|reflexivity]. exists true. split; [apply nz_any|]. exists true. split; [apply nz_any|reflexivity].
  - intros H. destruct (on_nonzero _ _ H) as [N|N]; apply N; reflexivity.
Qed.

(** ** C54: affine operations (the quotient hints are constrained: any prover) *)
Theorem C54_affine_add : forall p q r, on_g2 (aff p) -> on_g2 (aff q) -> (g2_add_assign p q r <-> X2 p <> X2 q /\ aff r = gadd (aff p) (aff q)).
Proof. exact aadd_iff. Qed.
Theorem C54_affine_sub : forall p q r, on_g2 (aff p) -> on_g2 (aff q) -> (g2_sub_assign p q r <-> X2 p <> X2 q /\ aff r = gsub (aff p) (aff q)).
Proof. exact asub_iff. Qed.
Theorem C54_affine_double : forall p r, on_g2 (aff p) -> (g2_double p r <-> Y2 p <> zero2 /\ aff r = gadd (aff p) (aff p)).
Proof. exact adbl_iff. Qed.
Theorem C54_affine_double_and_add : forall p q r, on_g2 (aff p) -> on_g2 (aff q) ->
  (double_and_add p q r <-> X2 p <> X2 q /\ exists s, aff s = gadd (aff p) (aff q) /\ X2 s <> X2 p /\ aff r = gadd (aff s) (aff p)).
Proof. exact daa_iff. Qed.
Theorem C54_affine_neg : forall Q, aff (g2_neg Q) = gneg (aff Q).
Proof. exact aneg. Qed.
(** equal points, opposite points and points of order two are the only rejected operands *)
Theorem C54_affine_add_complete : forall p q, on_g2 (aff p) -> on_g2 (aff q) -> aff p <> aff q -> gadd (aff p) (aff q) <> None ->
  exists r, g2_add_assign p q r.
Proof. exact aadd_ex. Qed.
(** the standard generator of G2 meets the hypotheses: it is on the curve, its Jacobian form represents it, 2G and 3G are finite *)
Example C54_example : on_g2 (aff g2_gen) /\ jrep jac_gen (aff g2_gen) /\ gmul 2 (aff g2_gen) <> None /\ gmul 3 (aff g2_gen) <> None /\
  exists r, g2_double g2_gen r.
Proof.
  split; [exact gen_on|]. split; [exact (jrep_one _ _)|]. assert (L2 : (0 < 2 <= 2 * kx)%N) by (split; [reflexivity|discriminate]). assert (L3 : (0 < 3 <= 2 * kx)%N) by (split; [reflexivity|discriminate]).
  split; [exact (gen_good 2 L2)|]. split; [exact (gen_good 3 L3)|]. apply (adbl_ex g2_gen gen_on). pose proof (gmul_double 1 _ gen_on) as E. rewrite (gmul_1 (aff g2_gen)) in E. rewrite E. exact (gen_good 2 L2).
Qed.

(** ** C55: multiplication by |x0| = 0xd201000000010000 *)
(** G2JacobianConstScalarMul with honest hints: satisfiable and exact for every point of the curve *)
Theorem C55_jac_mul_honest : forall a P, on_g2 P -> jrep a P ->
  (exists r, g2_jacobian_const_scalar_mul fp_canon a r) /\ forall r, g2_jacobian_const_scalar_mul fp_canon a r -> jrep r (gmul 0xd201000000010000 P).
Proof. intros a P HP Ha. split; [exact (jmul_total fp_canon a fp_canon_ok)|]. intros r H. exact (jmul_canon a r P HP Ha H). Qed.
(** any prover: exact for points none of whose multiples up to |x0| is infinity *)
Theorem C55_jac_mul_any_partial : forall a r P, on_g2 P -> (forall k, (0 < k <= 0xd201000000010000)%N -> gmul k P <> None) -> jrep a P ->
  g2_jacobian_const_scalar_mul fp_rep a r -> jrep r (gmul 0xd201000000010000 P).
Proof. intros a r P. exact (jmul_any fp_rep a r P fp_rep_ok). Qed.
(** ... in particular for every point but infinity of the subgroup where psi acts as x0 (which is G2) *)
Theorem C55_jac_mul_subgroup : forall a r P, on_g2 P -> gpsi P = gzmul x0 P -> P <> None -> jrep a P ->
  g2_jacobian_const_scalar_mul fp_rep a r -> jrep r (gmul 0xd201000000010000 P).
Proof.
  intros a r P HP E N. apply (jmul_any fp_rep a r P fp_rep_ok HP). intros k Hk. apply (small_order P k HP); [rewrite E; exact (gzmul_x0 P)|exact N|].
  change kx with 0xd201000000010000%N. lia.
Qed.
(** the affine versions: sound for every point of the curve and any prover *)
Theorem C55_affine_mul_v2 : forall a r, on_g2 (aff a) -> g2_const_scalar_mul_v2 a r -> aff r = gmul 0xd201000000010000 (aff a).
Proof. intros a r Ha H. exact (v2_sound a Ha r H). Qed.
Theorem C55_affine_mul : forall a r, on_g2 (aff a) -> g2_const_scalar_mul a r -> aff r = gmul 0xd201000000010000 (aff a).
Proof. exact cmul_sound. Qed.
(** ... and the second is satisfiable for every point but infinity of the subgroup *)
Theorem C55_affine_mul_v2_complete : forall a, on_g2 (aff a) -> gpsi (aff a) = gzmul x0 (aff a) -> exists r, g2_const_scalar_mul_v2 a r.
Proof.
  intros a Ha E. apply (v2_complete a Ha). intros k Hk. apply (small_order (aff a) k Ha); [rewrite E; exact (gzmul_x0 (aff a))|discriminate|exact Hk].
Qed.
Example C55_example : on_g2 (aff g2_gen) /\ gpsi (aff g2_gen) = gzmul x0 (aff g2_gen) /\ (exists r, g2_const_scalar_mul_v2 g2_gen r) /\
  exists r, g2_const_scalar_mul g2_gen r.
Proof.
  assert (E : gpsi (aff g2_gen) = gzmul x0 (aff g2_gen)) by (rewrite gen_psi; symmetry; exact (gzmul_x0 _)).
  split; [exact gen_on|]. split; [exact E|]. split; [exact (C55_affine_mul_v2_complete g2_gen gen_on E)|exact gen_cmul].
Qed.

(** ** C55: cofactor clearing *)
(** ClearCofactor with honest hints is clear_cofactor_bls12381_g2 of RFC 9380, satisfiable and exact for every point *)
Theorem C55_clear_honest : forall a P, on_g2 P -> jrep a P ->
  (exists r, clear_cofactor fp_canon a r) /\ forall r, clear_cofactor fp_canon a r -> jrep r (clear_cofactor_spec P) /\ on_g2 (clear_cofactor_spec P).
Proof.
  intros a P HP Ha. split; [exact (clear_total fp_canon a fp_canon_ok)|]. intros r H. split; [exact (clear_canon a r P HP Ha H)|exact (clear_spec_on P HP)].
Qed.
(** Partial: G2ClearCofactor, the affine version, is sound with honest hints.  Missing: for which points it is satisfiable. *)
Theorem C55_clear_affine_partial : forall a r, on_g2 (aff a) -> g2_clear_cofactor fp_canon a r -> aff r = clear_cofactor_spec (aff a).
Proof. exact aclear_canon. Qed.
Example C55_clear_example : exists r, g2_clear_cofactor fp_canon g2_gen r.
Proof. exact gen_clear. Qed.
