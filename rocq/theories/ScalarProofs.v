(** * ScalarProofs.v — the scalar multiplications and cofactor clearing of g2.go and hash2curve.go *)
From Coq Require Import ZArith NArith List Bool Lia Ring Permutation Mergesort.
From Verif Require Import FieldZ PrimeBls TowerModel TowerSpec TowerRing TowerFrob TowerField TowerPow TowerCyc PairingModel PairingSpec MillerProofs WSpec G2Spec G2Group G2Model CmpProofs JacProofs PsiProofs.
Import ListNotations.
Open Scope Z_scope.
Local Notation "a +! b" := (add2 a b) (at level 50, left associativity).
Local Notation "a -! b" := (sub2 a b) (at level 50, left associativity).
Local Notation "a *! b" := (mul2 a b) (at level 40, left associativity).
Local Opaque gadd gneg gmul on_g2 gpsi conj2 psi_u psi_v bTwist.

(** ** group bookkeeping *)
Lemma gmul_double n P : on_g2 P -> gadd (gmul n P) (gmul n P) = gmul (2 * n) P.
Proof. intros H. replace (2 * n)%N with (n + n)%N by lia. rewrite gmul_add by exact H. reflexivity. Qed.
Lemma gadd_swap a b c d : on_g2 a -> on_g2 b -> on_g2 c -> on_g2 d -> gadd (gadd a b) (gadd c d) = gadd (gadd a c) (gadd b d).
Proof.
  intros A B C D. rewrite (gadd_assoc a b (gadd c d)) by (try apply gadd_on; assumption). rewrite <- (gadd_assoc b c d) by assumption.
  rewrite (gadd_comm b c) by assumption. rewrite (gadd_assoc c b d) by assumption. rewrite <- (gadd_assoc a c (gadd b d)) by (try apply gadd_on; assumption). reflexivity.
Qed.
Lemma gmul_diff m d P : on_g2 P -> (d < m)%N -> gmul m P = gmul d P -> gmul (m - d) P = None.
Proof.
  intros H L E. replace m with ((m - d) + d)%N in E by lia. rewrite gmul_add in E by exact H.
  assert (F : gadd (gadd (gmul (m - d) P) (gmul d P)) (gneg (gmul d P)) = gadd (gmul d P) (gneg (gmul d P))) by (rewrite E; reflexivity).
  rewrite gadd_assoc in F by (try apply gneg_on; apply gmul_on; exact H). rewrite !gadd_neg, gadd_0_r in F. exact F.
Qed.

(** ** the loop of the Jacobian multiplication *)
Definition dig (j : nat) : N := if Nat.eqb j 1 then 1%N else if Nat.eqb j 3 then 2%N else if Nat.eqb j 7 then 1%N else if Nat.eqb j 23 then 1%N else 0%N.
Definition dstep (n : N) (j : nat) : N := (4 * n + dig j)%N.
Lemma dig_small j : (dig j <= 2)%N. Proof. unfold dig. repeat (destruct (Nat.eqb j _)); lia. Qed.
Lemma dstep_total : fold_left dstep (seq 1 31) 3%N = 0xd201000000010000%N. Proof. vm_compute. reflexivity. Qed.
Lemma dstep_mono l n : (n <= fold_left dstep l n)%N.
Proof. revert n. induction l as [|j l IH]; intros n; [apply N.le_refl|]. cbn [fold_left]. apply N.le_trans with (dstep n j); [unfold dstep; lia|apply IH]. Qed.

Section Loop.
Variable rep : Fp -> rel Z.
Hypothesis Hrep : rep_ok rep.
Variable P : gpoint.
Hypothesis HP : on_g2 P.
Variable B : N.
(** additions of distinct multiples below the bound are right *)
Hypothesis Hadd : forall m d p a r, (0 < d)%N -> (d < m)%N -> (m <= B)%N -> jrep p (gmul m P) -> jrep a (gmul d P) -> g2_jacobian_add_assign rep p a r -> jrep r (gmul (m + d) P).
Lemma jdouble n J : jrep J (gmul n P) -> jrep (g2_jacobian_double J) (gmul (2 * n) P).
Proof. intros H. rewrite <- gmul_double by exact HP. apply double_ok; [apply gmul_on; exact HP|exact H]. Qed.
Lemma body_ok a n j res r : jrep a P -> (1 <= n)%N -> (4 * n <= B)%N -> jrep res (gmul n P) -> jac_mul_body rep a (g2_jacobian_double a) j res r -> jrep r (gmul (dstep n j) P).
Proof.
  intros Ha Hn HB Hres H. unfold jac_mul_body in H. apply jdouble, jdouble in Hres. replace (2 * (2 * n))%N with (4 * n)%N in Hres by lia.
  set (q := g2_jacobian_double (g2_jacobian_double res)) in *. clearbody q.
  assert (T0 : jrep a (gmul 1 P)) by (rewrite gmul_1; exact Ha). assert (T1 : jrep (g2_jacobian_double a) (gmul 2 P)) by (apply (jdouble 1); exact T0).
  unfold dstep, dig. destruct (Nat.eqb j 1); [apply (Hadd _ 1 q a r); (exact H || exact T0 || exact Hres || lia)|].
  destruct (Nat.eqb j 3); [apply (Hadd _ 2 q (g2_jacobian_double a) r); (exact H || exact T1 || exact Hres || lia)|].
  destruct (Nat.eqb j 7); [apply (Hadd _ 1 q a r); (exact H || exact T0 || exact Hres || lia)|].
  destruct (Nat.eqb j 23); [apply (Hadd _ 1 q a r); (exact H || exact T0 || exact Hres || lia)|].
  unfold ret in H. subst r. rewrite N.add_0_r. exact Hres.
Qed.
Lemma loop_ok a l : forall n res r, jrep a P -> (1 <= n)%N -> (fold_left dstep l n <= B)%N -> jrep res (gmul n P) -> rel_for (jac_mul_body rep a (g2_jacobian_double a)) l res r -> jrep r (gmul (fold_left dstep l n) P).
Proof.
  induction l as [|j l IH]; intros n res r Ha Hn HB Hres H; cbn [rel_for fold_left] in *; [unfold ret in H; subst r; exact Hres|].
  destruct H as [s [Hs Hr]]. pose proof (dstep_mono l (dstep n j)) as M. pose proof (dig_small j).
  apply (IH (dstep n j) s r Ha); [unfold dstep; lia|exact HB| |exact Hr]. apply (body_ok a n j res s Ha Hn); [unfold dstep in *; lia|exact Hres|exact Hs].
Qed.
Lemma jmul_ok a r : (0xd201000000010000 <= B)%N -> jrep a P -> g2_jacobian_const_scalar_mul rep a r -> jrep r (gmul 0xd201000000010000 P).
Proof.
  intros HB Ha H. unfold g2_jacobian_const_scalar_mul in H. cbv zeta in H. destruct H as [s [Hs H]]. rewrite <- dstep_total.
  assert (T0 : jrep a (gmul 1 P)) by (rewrite gmul_1; exact Ha). assert (T1 : jrep (g2_jacobian_double a) (gmul 2 P)) by (apply (jdouble 1); exact T0).
  apply (loop_ok a (seq 1 31) 3 s r Ha); [lia|rewrite dstep_total; exact HB| |exact H]. apply (Hadd 2%N 1%N (g2_jacobian_double a) a s); (exact Hs || exact T1 || exact T0 || lia).
Qed.
End Loop.
Lemma jmul_total rep a : rep_ok rep -> exists r, g2_jacobian_const_scalar_mul rep a r.
Proof.
  intros Hrep. assert (T : forall t0 t1 l s, exists r, rel_for (jac_mul_body rep t0 t1) l s r).
  { intros t0 t1. induction l as [|j l IH]; intros s; cbn [rel_for]; [exists s; reflexivity|].
    assert (X : exists r, jac_mul_body rep t0 t1 j s r). { unfold jac_mul_body. repeat (destruct (Nat.eqb j _)); try apply (add_total _ Hrep). eexists. reflexivity. }
    destruct X as [r1 H1]. destruct (IH r1) as [r2 H2]. exists r2, r1. split; assumption. }
  unfold g2_jacobian_const_scalar_mul. cbv zeta. destruct (add_total _ Hrep (g2_jacobian_double a) a) as [s Hs]. destruct (T a (g2_jacobian_double a) (seq 1 31) s) as [r Hr]. exists r, s. split; assumption.
Qed.
(** a prover that runs gnark's hints *)
Theorem jmul_canon a r P : on_g2 P -> jrep a P -> g2_jacobian_const_scalar_mul fp_canon a r -> jrep r (gmul 0xd201000000010000 P).
Proof.
  intros HP Ha H. refine (jmul_ok fp_canon P HP 0xd201000000010000%N _ a r (N.le_refl _) Ha H).
  intros m d p b s H1 H2 _ Hp Hb Hs. rewrite gmul_add by exact HP. apply (add_canon p b s); (exact Hs || exact Hp || exact Hb || apply gmul_on; exact HP).
Qed.
(** any prover, for a point none of whose small multiples vanish *)
Theorem jmul_any rep a r P : rep_ok rep -> on_g2 P -> (forall k, (0 < k <= 0xd201000000010000)%N -> gmul k P <> None) -> jrep a P ->
  g2_jacobian_const_scalar_mul rep a r -> jrep r (gmul 0xd201000000010000 P).
Proof.
  intros Hrep HP G Ha H. refine (jmul_ok rep P HP 0xd201000000010000%N _ a r (N.le_refl _) Ha H).
  intros m d p b s H1 H2 H3 Hp Hb Hs. rewrite gmul_add by exact HP. destruct (add_sound rep Hrep p b s _ _ (gmul_on m P HP) (gmul_on d P HP) Hp Hb Hs) as [A|[[_ [E|[E|E]]]|[E _]]]; [exact A| | | |].
  - exfalso. apply (G m); [lia|exact E].
  - exfalso. apply (G d); [lia|exact E].
  - exfalso. apply (G (m - d)%N); [lia|]. apply gmul_diff; assumption.
  - exfalso. apply (G d); [lia|exact E].
Qed.

(** ** conversions *)
Lemma on_nonzero x y : on_g2 (Some (x, y)) -> x <> zero2 \/ y <> zero2.
Proof.
  Local Transparent on_g2. unfold on_g2, on_curve. intros H. destruct (E2_dec x zero2) as [->|N]; [|left; exact N]. right. intros ->. apply b2_ne. symmetry.
  transitivity (zero2 *! zero2); [ring|]. rewrite H. ring.
Qed.
Local Opaque on_g2.
Lemma get_jac_ok rep Q J : rep_ok rep -> on_g2 (aff Q) -> get_g2_jac rep Q J -> J = mkJac (X2 Q) (Y2 Q) one2.
Proof.
  intros Hrep HQ H. apply on_nonzero in HQ. unfold get_g2_jac, g2_affine_not_infinity, bind, ret in H. destruct H as [b [[bx [Hx [by_ [Hy ->]]]] ->]]. rewrite !sel2.
  destruct bx; [cbn [orb]; f_equal|]. destruct by_; [cbn [orb]; f_equal|]. exfalso.
  apply (nz_false _ Hrep) in Hx. apply (nz_false _ Hrep) in Hy. destruct HQ as [N|N]; apply N; assumption.
Qed.
Lemma get_jac_total rep Q : rep_ok rep -> exists J, get_g2_jac rep Q J.
Proof.
  intros Hrep. assert (T1 : forall x, exists b, e2_not_zero rep x b).
  { intros x. destruct (E2_dec x zero2) as [->|N]; [exists false; apply (nz_false _ Hrep); reflexivity|exists true; apply (nz_true _ Hrep); exact N]. }
  destruct (T1 (X2 Q)) as [bx Hx]. destruct (T1 (Y2 Q)) as [by_ Hy]. eexists. exists (bx || by_)%bool. split; [|reflexivity]. exists bx. split; [exact Hx|]. exists by_. split; [exact Hy|reflexivity].
Qed.
Lemma jrep_one x y : jrep (mkJac x y one2) (Some (x, y)).
Proof. cbn [jrep JX JY JZ]. split; [apply one2_zero2|]. split; ring. Qed.
Lemma get_affine_iff rep J r : rep_ok rep -> (get_g2_affine rep J r <-> jrep J (aff r)).
Proof.
  intros Hrep. unfold get_g2_affine, bind, ret. cbn [jrep aff]. split.
  - intros [a [Ha [b [Hb ->]]]]. apply e2_inverse_iff in Ha. assert (N : JZ J <> zero2) by (intros E; rewrite E in Ha; apply one2_zero2; rewrite <- Ha; ring).
    destruct b; [|exfalso; apply N; apply (nz_false _ Hrep) in Hb; exact Hb]. rewrite !sel2. cbn [X2 Y2]. r2. split; [exact N|]. split.
    + transitivity (JX J *! ((JZ J *! a) *! (JZ J *! a))); [rewrite Ha; ring|ring].
    + transitivity (JY J *! ((JZ J *! a) *! (JZ J *! a) *! (JZ J *! a))); [rewrite Ha; ring|ring].
  - intros (N & E1 & E2). exists (inv2 (JZ J)). pose proof (inv2_ok _ N) as I. split; [apply e2_inverse_iff; exact I|]. exists true. split; [apply (nz_true _ Hrep); exact N|].
    rewrite !sel2. r2. destruct r as [x y]. cbn [X2 Y2] in *. rewrite E1, E2. set (i := inv2 (JZ J)) in *. clearbody i. f_equal.
    + transitivity (x *! ((JZ J *! i) *! (JZ J *! i))); [rewrite I; ring|ring].
    + transitivity (y *! ((JZ J *! i) *! (JZ J *! i) *! (JZ J *! i))); [rewrite I; ring|ring].
Qed.

(** ** psi and phi *)
Lemma conj_ok x : e2_conjugate x = conj2 x. Proof. reflexivity. Qed.
Lemma psi_jac J P : jrep J P -> jrep (g2_jacobian_psi J) (gpsi P).
Proof.
  destruct P as [[x y]|]; unfold g2_jacobian_psi; cbv zeta; rewrite (conj_ok (JX J)), (conj_ok (JY J)), (conj_ok (JZ J)).
  - rewrite gpsi_eq. cbn [jrep JX JY JZ]. intros (N & E1 & E2). split; [intros E; apply N, conj_inj; rewrite conj_0; exact E|]. r2. rewrite ?(conj_ok (JZ J)), E1, E2, !conj_mul. split; ring.
  - rewrite gpsi_None. cbn [jrep JX JY JZ]. intros ->. apply conj_0.
Qed.
Lemma psi_aff Q : aff (g2_psi Q) = gpsi (aff Q).
Proof. unfold aff, g2_psi. cbv zeta. rewrite (conj_ok (X2 Q)), (conj_ok (Y2 Q)), gpsi_eq. cbn [X2 Y2]. r2. apply some_eq; ring. Qed.
Lemma oc_aff Q : on_g2 (aff Q) -> oc2 (X2 Q) (Y2 Q). Proof. intros H. exact H. Qed.
Lemma aff_inj P Q : aff P = aff Q -> P = Q.
Proof. destruct P as [x y], Q as [x' y']. unfold aff. cbn [X2 Y2]. intros E. injection E as -> ->. reflexivity. Qed.
Lemma aff_eq x y P : aff (mkG2 x y) = P <-> P = Some (x, y). Proof. unfold aff. cbn [X2 Y2]. split; auto. Qed.

(** ** affine addition and doubling *)
Lemma aadd_iff p q r : on_g2 (aff p) -> on_g2 (aff q) -> (g2_add_assign p q r <-> X2 p <> X2 q /\ aff r = gadd (aff p) (aff q)).
Proof.
  intros Hp Hq. unfold g2_add_assign, bind, ret. split.
  - intros [l [Hl ->]]. revert Hl. r2. intros Hl. apply e2_div_iff in Hl. destruct Hl as [N L].
    assert (NX : X2 p <> X2 q) by (intros E; apply N; rewrite E; ring). split; [exact NX|].
    unfold aff at 2 3. rewrite (gadd_chord (X2 p) (Y2 p) (X2 q) (Y2 q) l Hp Hq NX) by (rewrite <- L; ring). unfold aff, x3of, y3of. cbn [X2 Y2]. apply some_eq; ring.
  - intros [NX E]. assert (N : X2 q -! X2 p <> zero2) by (intros F; apply NX; symmetry; apply sub2_0; exact F).
    pose proof (inv2_ok _ N) as I. set (l := (Y2 q -! Y2 p) *! inv2 (X2 q -! X2 p)).
    assert (L : (X2 q -! X2 p) *! l = Y2 q -! Y2 p). { unfold l. transitivity ((Y2 q -! Y2 p) *! ((X2 q -! X2 p) *! inv2 (X2 q -! X2 p))); [ring|]. rewrite I. ring. }
    exists l. split; [r2; apply e2_div_iff; split; [exact N|exact L]|]. apply aff_inj. rewrite E. clearbody l.
    unfold aff at 1 2. rewrite (gadd_chord (X2 p) (Y2 p) (X2 q) (Y2 q) l Hp Hq NX) by (rewrite <- L; ring). unfold aff, x3of, y3of. cbn [X2 Y2]. r2. apply some_eq; ring.
Qed.
Lemma three_fc x : x *! of1 (fc 3) = (one2 +! (one2 +! one2)) *! x.
Proof. assert (E : of1 (fc 3) = one2 +! (one2 +! one2)). { rewrite one2_def, !add2_def. unfold of1. cbn [A0 A1]. apply E2_eq; ring. } rewrite E. ring. Qed.
Lemma two_fc x : x *! of1 (fc 2) = x +! x.
Proof. assert (E : of1 (fc 2) = one2 +! one2). { rewrite one2_def, !add2_def. unfold of1. cbn [A0 A1]. apply E2_eq; ring. } rewrite E. ring. Qed.
Lemma adbl_iff p r : on_g2 (aff p) -> (g2_double p r <-> Y2 p <> zero2 /\ aff r = gadd (aff p) (aff p)).
Proof.
  intros Hp. unfold g2_double, bind, ret. split.
  - intros [l [Hl ->]]. revert Hl. rewrite !e2_el_ok. r2. intros Hl. apply e2_div_iff in Hl. rewrite two_fc, three_fc in Hl. destruct Hl as [N L].
    assert (NY : Y2 p <> zero2) by (intros E; apply N; rewrite E; ring). split; [exact NY|].
    unfold aff at 2 3. rewrite (gadd_tangent (X2 p) (Y2 p) l Hp NY) by (rewrite <- L; ring). unfold aff, x3of, y3of. cbn [X2 Y2]. apply some_eq; ring.
  - intros [NY E]. pose proof (add2_self _ NY) as N.
    pose proof (inv2_ok _ N) as I. set (l := ((one2 +! (one2 +! one2)) *! (X2 p *! X2 p)) *! inv2 (Y2 p +! Y2 p)).
    assert (L : (Y2 p +! Y2 p) *! l = (one2 +! (one2 +! one2)) *! (X2 p *! X2 p)). { unfold l. transitivity ((one2 +! (one2 +! one2)) *! (X2 p *! X2 p) *! ((Y2 p +! Y2 p) *! inv2 (Y2 p +! Y2 p))); [ring|]. rewrite I. ring. }
    exists l. split; [rewrite !e2_el_ok; r2; rewrite two_fc, three_fc; apply e2_div_iff; split; [exact N|exact L]|]. apply aff_inj. rewrite E. clearbody l.
    unfold aff at 1 2. rewrite (gadd_tangent (X2 p) (Y2 p) l Hp NY) by (rewrite <- L; ring). unfold aff, x3of, y3of. cbn [X2 Y2]. r2. apply some_eq; ring.
Qed.
Lemma aneg Q : aff (g2_neg Q) = gneg (aff Q). Proof. reflexivity. Qed.
Lemma asub_iff p q r : on_g2 (aff p) -> on_g2 (aff q) -> (g2_sub_assign p q r <-> X2 p <> X2 q /\ aff r = gsub (aff p) (aff q)).
Proof. intros Hp Hq. unfold g2_sub_assign. exact (aadd_iff p (g2_neg q) r Hp (gneg_on _ Hq)). Qed.
(** 2 P1 + P2 *)
Lemma daa_iff p q r : on_g2 (aff p) -> on_g2 (aff q) ->
  (double_and_add p q r <-> X2 p <> X2 q /\ exists s, aff s = gadd (aff p) (aff q) /\ X2 s <> X2 p /\ aff r = gadd (aff s) (aff p)).
Proof.
  intros Hp Hq.
  assert (K : forall l1, (X2 p -! X2 q) *! l1 = Y2 p -! Y2 q -> X2 p <> X2 q -> gadd (aff p) (aff q) = Some (x3of l1 (X2 p) (X2 q), y3of l1 (X2 p) (Y2 p) (x3of l1 (X2 p) (X2 q)))).
  { intros l1 L NX. unfold aff. apply (gadd_chord (X2 p) (Y2 p) (X2 q) (Y2 q) l1 Hp Hq NX). transitivity (opp2 ((X2 p -! X2 q) *! l1)); [ring|]. rewrite L. ring. }
  assert (M : forall l1 l2, (X2 p -! X2 q) *! l1 = Y2 p -! Y2 q -> X2 p <> X2 q -> let x3 := x3of l1 (X2 p) (X2 q) in x3 <> X2 p -> (x3 -! X2 p) *! l2 = Y2 p +! Y2 p ->
    let l := opp2 (l2 +! l1) in
    gadd (Some (x3, y3of l1 (X2 p) (Y2 p) x3)) (aff p) = Some (l *! l -! X2 p -! x3, l *! (X2 p -! (l *! l -! X2 p -! x3)) -! Y2 p)).
  { intros l1 l2 L NX x3 N3 L2 l. pose proof (gadd_on _ _ Hp Hq) as OS. rewrite (K l1 L NX) in OS. fold x3 in OS.
    rewrite (gadd_comm _ _ OS Hp). unfold aff at 1. assert (N3' : X2 p <> x3) by (intros E; apply N3; symmetry; exact E).
    rewrite (gadd_chord (X2 p) (Y2 p) _ _ l Hp OS N3'); [unfold x3of, y3of; reflexivity|].
    unfold l. transitivity (opp2 ((x3 -! X2 p) *! l2) -! l1 *! (x3 -! X2 p)); [ring|]. rewrite L2. unfold y3of. ring. }
  unfold double_and_add, bind, ret. split.
  - intros [l1 [Hl1 [l2 [Hl2 ->]]]]. revert Hl1 Hl2. r2. intros Hl1 Hl2. apply e2_div_iff in Hl1. apply e2_div_iff in Hl2. destruct Hl1 as [N1 L1], Hl2 as [N2 L2].
    assert (NX : X2 p <> X2 q) by (intros E; apply N1; rewrite E; ring). split; [exact NX|]. set (x3 := x3of l1 (X2 p) (X2 q)).
    assert (N3 : x3 <> X2 p). { intros E. apply N2. unfold x3, x3of in E. rewrite E. ring. }
    exists (mkG2 x3 (y3of l1 (X2 p) (Y2 p) x3)). split; [rewrite (K l1 L1 NX); reflexivity|]. split; [exact N3|].
    assert (L2' : (x3 -! X2 p) *! l2 = Y2 p +! Y2 p) by (unfold x3, x3of; rewrite L2; ring).
    pose proof (M l1 l2 L1 NX N3 L2') as R. cbv zeta in R. unfold aff at 2. cbn [X2 Y2]. fold x3 in R. rewrite R. unfold aff. cbn [X2 Y2]. unfold x3, x3of. apply some_eq; ring.
  - intros [NX [s [Es [N3 Er]]]]. assert (N1 : X2 p -! X2 q <> zero2) by (intros F; apply NX; apply sub2_0; exact F).
    pose proof (inv2_ok _ N1) as I1. set (l1 := (Y2 p -! Y2 q) *! inv2 (X2 p -! X2 q)).
    assert (L1 : (X2 p -! X2 q) *! l1 = Y2 p -! Y2 q). { unfold l1. transitivity ((Y2 p -! Y2 q) *! ((X2 p -! X2 q) *! inv2 (X2 p -! X2 q))); [ring|]. rewrite I1. ring. }
    clearbody l1. pose proof (K l1 L1 NX) as KK. set (x3 := x3of l1 (X2 p) (X2 q)) in *. destruct s as [sx sy]. unfold aff at 1 in Es. cbn [X2 Y2] in *. rewrite KK in Es. injection Es as -> ->.
    assert (N2 : x3 -! X2 p <> zero2) by (intros F; apply N3; apply sub2_0; exact F). pose proof (inv2_ok _ N2) as I2. set (l2 := (Y2 p +! Y2 p) *! inv2 (x3 -! X2 p)).
    assert (L2 : (x3 -! X2 p) *! l2 = Y2 p +! Y2 p). { unfold l2. transitivity ((Y2 p +! Y2 p) *! ((x3 -! X2 p) *! inv2 (x3 -! X2 p))); [ring|]. rewrite I2. ring. }
    clearbody l2. pose proof (M l1 l2 L1 NX N3 L2) as R. cbv zeta in R. unfold aff at 2 in Er. cbn [X2 Y2] in Er. fold x3 in R. rewrite R in Er.
    exists l1. split; [r2; apply e2_div_iff; split; [exact N1|exact L1]|]. exists l2. split; [r2; apply e2_div_iff; split; [exact N2|]|].
    + unfold x3, x3of in L2. rewrite L2. reflexivity.
    + apply aff_inj. rewrite Er. unfold aff. cbn [X2 Y2]. r2. unfold x3, x3of. apply some_eq; ring.
Qed.

Local Opaque thirdRootOneG1 of1.
(** ** rearranging sums of curve points *)
Inductive gex := At (n : nat) | Pl (a b : gex).
Fixpoint gev (env : list gpoint) (e : gex) : gpoint := match e with At n => nth n env None | Pl a b => gadd (gev env a) (gev env b) end.
Fixpoint gfl (e : gex) : list nat := match e with At n => [n] | Pl a b => gfl a ++ gfl b end.
Definition gsum (env : list gpoint) (l : list nat) : gpoint := fold_right (fun n r => gadd (nth n env None) r) None l.
Section Perm.
Variable env : list gpoint.
Hypothesis Henv : Forall on_g2 env.
Lemma env_on n : on_g2 (nth n env None).
Proof. destruct (nth_in_or_default n env None) as [H|H]; [|rewrite H; exact I]. rewrite Forall_forall in Henv. apply Henv. exact H. Qed.
Lemma gsum_on l : on_g2 (gsum env l). Proof. induction l as [|n l IH]; [exact I|]. apply gadd_on; [apply env_on|exact IH]. Qed.
Lemma gsum_app l m : gsum env (l ++ m) = gadd (gsum env l) (gsum env m).
Proof.
  induction l as [|n l IH]; [symmetry; apply gadd_0_l|]. cbn [app]. change (gadd (nth n env None) (gsum env (l ++ m)) = gadd (gadd (nth n env None) (gsum env l)) (gsum env m)).
  rewrite IH. symmetry. apply gadd_assoc; [apply env_on|apply gsum_on|apply gsum_on].
Qed.
Lemma gev_sum e : gev env e = gsum env (gfl e).
Proof. induction e as [n|a IHa b IHb]; cbn [gev gfl]; [symmetry; apply gadd_0_r|]. rewrite IHa, IHb. symmetry. apply gsum_app. Qed.
Lemma gsum_perm l m : Permutation l m -> gsum env l = gsum env m.
Proof.
  induction 1 as [|n l m _ IH|n k l|l m q _ IH1 _ IH2]; [reflexivity| | |congruence].
  - change (gadd (nth n env None) (gsum env l) = gadd (nth n env None) (gsum env m)). rewrite IH. reflexivity.
  - change (gadd (nth k env None) (gadd (nth n env None) (gsum env l)) = gadd (nth n env None) (gadd (nth k env None) (gsum env l))).
    rewrite <- !gadd_assoc by (try apply env_on; apply gsum_on). rewrite (gadd_comm (nth k env None)) by apply env_on. reflexivity.
Qed.
Lemma gperm e f : NatSort.sort (gfl e) = NatSort.sort (gfl f) -> gev env e = gev env f.
Proof.
  intros H. rewrite !gev_sum. apply gsum_perm. apply Permutation_trans with (NatSort.sort (gfl e)); [apply NatSort.Permuted_sort|]. rewrite H. apply Permutation_sym, NatSort.Permuted_sort.
Qed.
End Perm.

(** ** psi and multiples *)
Lemma gpsi_mul n P : on_g2 P -> gpsi (gmul n P) = gmul n (gpsi P).
Proof.
  intros H. induction n as [|n IH] using N.peano_ind; [rewrite !gmul_0; apply gpsi_None|]. rewrite !gmul_succ. rewrite gpsi_add by (try apply gmul_on; exact H). rewrite IH. reflexivity.
Qed.
Definition kx : N := 0xd201000000010000%N.
Lemma gzmul_x0 P : gzmul x0 P = gneg (gmul kx P). Proof. reflexivity. Qed.
Lemma psi2_phi P : match P with None => None | Some (x, y) => Some (x *! of1 thirdRootOneG1, y) end = gneg (gpsi (gpsi P)).
Proof.
  destruct P as [[x y]|]; [|rewrite !gpsi_None; reflexivity]. pose proof (gpsi_gpsi x y) as E. rewrite E. clear E. generalize (of1 thirdRootOneG1). intros w. Local Transparent gneg. unfold gneg, pneg. rewrite opp2_opp. apply some_eq; ring.
Qed.
Local Opaque gneg.
(** ** ClearCofactor *)
Lemma spec_code P : on_g2 P ->
  clear_cofactor_spec P =
  gadd (gadd (gadd (gadd (gneg (gmul kx (gneg (gmul kx P)))) (gneg (gneg (gmul kx P)))) (gneg P)) (gpsi (gadd (gneg (gmul kx P)) (gneg P)))) (gpsi (gpsi (gadd P P))).
Proof.
  intros H. unfold clear_cofactor_spec, gsub. cbv zeta. rewrite !gzmul_x0.
  pose proof (gmul_on kx P H) as H1. pose proof (gneg_on _ H1) as H2. pose proof (gpsi_on _ H) as H3. pose proof (gmul_on kx _ H2) as H4. pose proof (gneg_on _ H4) as H5. pose proof (gneg_on _ H) as H6.
  pose proof (gneg_on _ H2) as H7. pose proof (gneg_on _ H3) as H8. pose proof (gadd_on _ _ H H) as H9. pose proof (gpsi_on _ (gpsi_on _ H9)) as H10.
  rewrite (gmul_padd kx (gneg (gmul kx P)) (gpsi P) H2 H3). rewrite (gneg_add (gmul kx (gneg (gmul kx P))) (gmul kx (gpsi P)) H4 (gmul_on _ _ H3)).
  pose proof (gpsi_add _ _ H2 H6) as E1. pose proof (gpsi_neg (gmul kx P)) as E2. pose proof (gpsi_neg P) as E3. pose proof (gpsi_mul kx P H) as E4. rewrite E2, E3, E4 in E1. rewrite E1. clear E1 E2 E3 E4. pose proof (gneg_on _ (gmul_on kx _ H3)) as H11.
  refine (gperm [gneg (gmul kx (gneg (gmul kx P))); gneg (gneg (gmul kx P)); gneg P; gneg (gmul kx (gpsi P)); gneg (gpsi P); gpsi (gpsi (gadd P P))] _
    (Pl (Pl (Pl (Pl (At 5) (At 4)) (Pl (At 0) (At 3))) (At 1)) (At 2)) (Pl (Pl (Pl (Pl (At 0) (At 1)) (At 2)) (Pl (At 3) (At 4))) (At 5)) eq_refl).
  repeat apply Forall_cons; try assumption. apply Forall_nil.
Qed.
Lemma clear_spec_on P : on_g2 P -> on_g2 (clear_cofactor_spec P).
Proof.
  intros H. rewrite spec_code by exact H. pose proof (gneg_on _ (gmul_on kx P H)) as H2.
  exact (gadd_on _ _ (gadd_on _ _ (gadd_on _ _ (gadd_on _ _ (gneg_on _ (gmul_on kx _ H2)) (gneg_on _ H2)) (gneg_on _ H)) (gpsi_on _ (gadd_on _ _ H2 (gneg_on _ H)))) (gpsi_on _ (gpsi_on _ (gadd_on _ _ H H)))).
Qed.
Lemma sub_canon p a r P Q : on_g2 P -> on_g2 Q -> jrep p P -> jrep a Q -> g2_jacobian_sub_assign fp_canon p a r -> jrep r (gadd P (gneg Q)).
Proof.
  intros OP OQ HP HQ H. unfold g2_jacobian_sub_assign in H. apply (add_canon p (g2_jacobian_neg a) r P (gneg Q) OP (gneg_on _ OQ) HP); [|exact H]. apply neg_jac. exact HQ.
Qed.
Lemma phi1_jac J P : jrep J P -> jrep (mkJac (e2_mul_by_element (JX J) thirdRootOneG1) (JY J) (JZ J)) (gneg (gpsi (gpsi P))).
Proof.
  rewrite <- psi2_phi. destruct P as [[x y]|]; cbn [jrep JX JY JZ]; [|auto]. rewrite e2_el_ok. intros (N & E1 & E2). split; [exact N|]. split; [|exact E2]. rewrite E1. ring.
Qed.
Theorem clear_canon a r P : on_g2 P -> jrep a P -> clear_cofactor fp_canon a r -> jrep r (clear_cofactor_spec P).
Proof.
  intros HP Ha H. unfold clear_cofactor, bind in H. destruct H as [xg [H1 [xxg [H2 [s1 [H3 [s2 [H4 [t [H5 [s3 [H6 H7]]]]]]]]]]]].
  pose proof (gmul_on kx P HP) as O1. pose proof (gneg_on _ O1) as O2. pose proof (gneg_on _ (gmul_on kx _ O2)) as O3.
  apply (jmul_canon _ _ P HP Ha) in H1. fold kx in H1. apply neg_jac in H1. apply (jmul_canon _ _ _ O2 H1) in H2. fold kx in H2. apply neg_jac in H2.
  apply (sub_canon _ _ _ _ _ O3 O2 H2 H1) in H3. pose proof (gadd_on _ _ O3 (gneg_on _ O2)) as O4.
  apply (sub_canon _ _ _ _ _ O4 HP H3 Ha) in H4. pose proof (gadd_on _ _ O4 (gneg_on _ HP)) as O5.
  apply (sub_canon _ _ _ _ _ O2 HP H1 Ha) in H5. apply psi_jac in H5. pose proof (gpsi_on _ (gadd_on _ _ O2 (gneg_on _ HP))) as O6.
  apply (add_canon _ _ _ _ _ O5 O6 H4 H5) in H6. pose proof (gadd_on _ _ O5 O6) as O7.
  pose proof (double_ok a P HP Ha) as D. apply phi1_jac in D. pose proof (gpsi_on _ (gpsi_on _ (gadd_on _ _ HP HP))) as O8.
  apply (sub_canon _ _ _ _ _ O7 (gneg_on _ O8) H6 D) in H7. rewrite (gneg_neg (gpsi (gpsi (gadd P P)))) in H7. rewrite spec_code by exact HP. exact H7.
Qed.
Lemma clear_total rep a : rep_ok rep -> exists r, clear_cofactor rep a r.
Proof.
  intros Hrep. unfold clear_cofactor, bind. destruct (jmul_total rep a Hrep) as [xg H1]. destruct (jmul_total rep (g2_jacobian_neg xg) Hrep) as [xxg H2].
  destruct (add_total rep Hrep (g2_jacobian_neg xxg) (g2_jacobian_neg (g2_jacobian_neg xg))) as [s1 H3]. destruct (add_total rep Hrep s1 (g2_jacobian_neg a)) as [s2 H4].
  destruct (add_total rep Hrep (g2_jacobian_neg xg) (g2_jacobian_neg a)) as [t H5]. destruct (add_total rep Hrep s2 (g2_jacobian_psi t)) as [s3 H6].
  pose (T := g2_jacobian_double a). destruct (add_total rep Hrep s3 (g2_jacobian_neg (mkJac (e2_mul_by_element (JX T) thirdRootOneG1) (JY T) (JZ T)))) as [r H7].
  exists r, xg. split; [exact H1|]. exists xxg. split; [exact H2|]. exists s1. split; [exact H3|]. exists s2. split; [exact H4|]. exists t. split; [exact H5|]. exists s3. split; [exact H6|]. exact H7.
Qed.
(** ** G2ClearCofactor *)
Theorem aclear_canon a r : on_g2 (aff a) -> g2_clear_cofactor fp_canon a r -> aff r = clear_cofactor_spec (aff a).
Proof.
  intros HP H. unfold g2_clear_cofactor, bind in H. destruct H as [ja [H0 [xg [H1 [xxg [H2 [axg [H3 [axxg [H4 [s1 [H5 [s2 [H6 [t [H7 [s3 [H8 [d [H9 H10]]]]]]]]]]]]]]]]]]]].
  apply (get_jac_ok _ _ _ fp_canon_ok HP) in H0. subst ja. pose proof (jrep_one (X2 a) (Y2 a)) as Ha. change (Some (X2 a, Y2 a)) with (aff a) in Ha. set (P := aff a) in *.
  pose proof (gmul_on kx P HP) as O1. pose proof (gneg_on _ O1) as O2. pose proof (gneg_on _ (gmul_on kx _ O2)) as O3.
  apply (jmul_canon _ _ P HP Ha) in H1. fold kx in H1. apply neg_jac in H1. apply (jmul_canon _ _ _ O2 H1) in H2. fold kx in H2. apply neg_jac in H2.
  apply (get_affine_iff _ _ _ fp_canon_ok) in H3. apply (get_affine_iff _ _ _ fp_canon_ok) in H4. pose proof (jrep_fun _ _ _ H3 H1) as E1. pose proof (jrep_fun _ _ _ H4 H2) as E2.
  assert (Oxg : on_g2 (aff axg)) by (rewrite E1; exact O2). assert (Oxxg : on_g2 (aff axxg)) by (rewrite E2; exact O3).
  apply (asub_iff _ _ _ Oxxg Oxg) in H5. destruct H5 as [_ H5]. assert (Os1 : on_g2 (aff s1)) by (rewrite H5; exact (gadd_on _ _ Oxxg (gneg_on _ Oxg))).
  apply (asub_iff _ _ _ Os1 HP) in H6. destruct H6 as [_ H6]. assert (Os2 : on_g2 (aff s2)) by (rewrite H6; exact (gadd_on _ _ Os1 (gneg_on _ HP))).
  apply (asub_iff _ _ _ Oxg HP) in H7. destruct H7 as [_ H7]. assert (Ot : on_g2 (aff (g2_psi t))) by (rewrite psi_aff, H7; exact (gpsi_on _ (gadd_on _ _ Oxg (gneg_on _ HP)))).
  apply (aadd_iff _ _ _ Os2 Ot) in H8. destruct H8 as [_ H8]. assert (Os3 : on_g2 (aff s3)) by (rewrite H8; exact (gadd_on _ _ Os2 Ot)).
  apply (adbl_iff _ _ HP) in H9. destruct H9 as [_ H9].
  assert (Ed : aff (mkG2 (e2_mul_by_element (X2 d) thirdRootOneG1) (Y2 d)) = gneg (gpsi (gpsi (gadd P P)))).
  { unfold P. rewrite <- H9, <- psi2_phi. unfold aff. cbn [X2 Y2]. rewrite e2_el_ok. reflexivity. }
  assert (Od : on_g2 (aff (mkG2 (e2_mul_by_element (X2 d) thirdRootOneG1) (Y2 d)))) by (rewrite Ed; exact (gneg_on _ (gpsi_on _ (gpsi_on _ (gadd_on _ _ HP HP))))).
  apply (asub_iff _ _ _ Os3 Od) in H10. destruct H10 as [_ H10].
  rewrite H10, Ed, H8, psi_aff, H7, H6, H5, E1, E2. unfold gsub. rewrite (gneg_neg (gpsi (gpsi (gadd P P)))). symmetry. exact (spec_code P HP).
Qed.

(** ** G2ConstScalarMulV2 *)
Lemma aadd_ex p q : on_g2 (aff p) -> on_g2 (aff q) -> aff p <> aff q -> gadd (aff p) (aff q) <> None -> exists r, g2_add_assign p q r.
Proof.
  intros Hp Hq N1 N2. destruct (gadd (aff p) (aff q)) as [[x y]|] eqn:E; [|congruence]. exists (mkG2 x y). apply (aadd_iff p q (mkG2 x y) Hp Hq). split; [|symmetry; exact E].
  intros EX. destruct p as [px py], q as [qx qy]. cbn [X2] in EX. subst qx. pose proof (same_x2 px py qy Hp Hq) as S. destruct S as [-> | ->]; [apply N1; reflexivity|]. unfold aff in E. cbn [X2 Y2] in E. pose proof (gadd_comm _ _ Hp Hq) as C. pose proof (gadd_opp px qy) as O. unfold aff in C. cbn [X2 Y2] in C. rewrite C, O in E. discriminate.
Qed.
Lemma adbl_ex p : on_g2 (aff p) -> gadd (aff p) (aff p) <> None -> exists r, g2_double p r.
Proof.
  intros Hp N. destruct (gadd (aff p) (aff p)) as [[x y]|] eqn:E; [|congruence]. exists (mkG2 x y). apply (adbl_iff p (mkG2 x y) Hp). split; [|symmetry; exact E].
  intros EY. destruct p as [px py]. cbn [Y2] in EY. subst py. unfold aff in E. cbn [X2 Y2] in E. pose proof (gadd_opp px zero2) as O. replace (opp2 zero2) with zero2 in O by ring. rewrite O in E. discriminate.
Qed.
Section Aff.
Variable a : G2Affine.
Hypothesis Ha : on_g2 (aff a).
Lemma on_mul q n : aff q = gmul n (aff a) -> on_g2 (aff q). Proof. intros E. rewrite E. apply gmul_on. exact Ha. Qed.
Lemma adbl_mul q n r : aff q = gmul n (aff a) -> g2_double q r -> aff r = gmul (2 * n) (aff a).
Proof. intros E H. apply (adbl_iff q r (on_mul q n E)) in H. destruct H as [_ H]. rewrite H, E. apply gmul_double. exact Ha. Qed.
Lemma aadd_mul q t n m r : aff q = gmul n (aff a) -> aff t = gmul m (aff a) -> g2_add_assign q t r -> aff r = gmul (n + m) (aff a).
Proof. intros E F H. apply (aadd_iff q t r (on_mul q n E) (on_mul t m F)) in H. destruct H as [_ H]. rewrite H, E, F. symmetry. apply gmul_add. exact Ha. Qed.
Lemma abody_ok t1 n j q r : aff t1 = gmul 2 (aff a) -> aff q = gmul n (aff a) -> aff_mul_body a t1 j q r -> aff r = gmul (dstep n j) (aff a).
Proof.
  intros E1 E H. unfold aff_mul_body, bind, ret in H. destruct H as [q1 [H1 [q2 [H2 H]]]]. apply (adbl_mul q n q1 E) in H1. apply (adbl_mul q1 _ q2 H1) in H2. replace (2 * (2 * n))%N with (4 * n)%N in H2 by lia.
  assert (E0 : aff a = gmul 1 (aff a)) by (symmetry; apply gmul_1).
  unfold dstep, dig. destruct (Nat.eqb j 1); [exact (aadd_mul _ _ _ _ _ H2 E0 H)|]. destruct (Nat.eqb j 3); [exact (aadd_mul _ _ _ _ _ H2 E1 H)|].
  destruct (Nat.eqb j 7); [exact (aadd_mul _ _ _ _ _ H2 E0 H)|]. destruct (Nat.eqb j 23); [exact (aadd_mul _ _ _ _ _ H2 E0 H)|]. subst r. rewrite N.add_0_r. exact H2.
Qed.
Theorem v2_sound r : g2_const_scalar_mul_v2 a r -> aff r = gmul kx (aff a).
Proof.
  intros H. unfold g2_const_scalar_mul_v2, bind in H. destruct H as [t1 [H1 [s [H2 H]]]]. assert (E0 : aff a = gmul 1 (aff a)) by (symmetry; apply gmul_1).
  apply (adbl_mul a 1 t1 E0) in H1. change (2 * 1)%N with 2%N in H1. pose proof (aadd_mul _ _ _ _ _ H1 E0 H2) as H3. change (2 + 1)%N with 3%N in H3.
  unfold kx. rewrite <- dstep_total. revert H. revert H3. generalize 3%N as n. generalize (seq 1 31) as l. clear H2. intros l. revert s. induction l as [|j l IH]; intros s n E H; cbn [rel_for fold_left] in *; [unfold ret in H; subst r; exact E|].
  destruct H as [s' [Hs H]]. apply (IH s'); [|exact H]. exact (abody_ok t1 n j s s' H1 E Hs).
Qed.
Hypothesis G : forall k, (0 < k <= 2 * kx)%N -> gmul k (aff a) <> None.
Lemma adbl_mul_ex q n : aff q = gmul n (aff a) -> (0 < n)%N -> (n <= kx)%N -> exists r, g2_double q r /\ aff r = gmul (2 * n) (aff a).
Proof.
  intros E L1 L2. destruct (adbl_ex q (on_mul q n E)) as [r H]; [rewrite E, gmul_double by exact Ha; apply G; lia|]. exists r. split; [exact H|]. exact (adbl_mul q n r E H).
Qed.
Lemma aadd_mul_ex q t n m : aff q = gmul n (aff a) -> aff t = gmul m (aff a) -> (0 < m)%N -> (m < n)%N -> (n <= kx)%N -> exists r, g2_add_assign q t r /\ aff r = gmul (n + m) (aff a).
Proof.
  intros E F L1 L2 L3. destruct (aadd_ex q t (on_mul q n E) (on_mul t m F)) as [r H].
  - rewrite E, F. intros D. apply (G (n - m)%N); [lia|]. apply gmul_diff; assumption.
  - rewrite E, F, <- gmul_add by exact Ha. apply G. lia.
  - exists r. split; [exact H|]. exact (aadd_mul q t n m r E F H).
Qed.
Lemma abody_ex t1 n j q : aff t1 = gmul 2 (aff a) -> aff q = gmul n (aff a) -> (0 < n)%N -> (4 * n <= kx)%N -> exists r, aff_mul_body a t1 j q r.
Proof.
  intros E1 E L1 L2. destruct (adbl_mul_ex q n E) as [q1 [H1 F1]]; [lia|lia|]. destruct (adbl_mul_ex q1 _ F1) as [q2 [H2 F2]]; [lia|lia|]. replace (2 * (2 * n))%N with (4 * n)%N in F2 by lia.
  assert (E0 : aff a = gmul 1 (aff a)) by (symmetry; apply gmul_1). unfold aff_mul_body, bind, ret.
  destruct (aadd_mul_ex q2 a _ _ F2 E0) as [r1 [R1 _]]; [lia|lia|lia|]. destruct (aadd_mul_ex q2 t1 _ _ F2 E1) as [r2 [R2 _]]; [lia|lia|lia|].
  destruct (Nat.eqb j 1); [exists r1, q1; split; [exact H1|]; exists q2; split; [exact H2|exact R1]|]. destruct (Nat.eqb j 3); [exists r2, q1; split; [exact H1|]; exists q2; split; [exact H2|exact R2]|].
  destruct (Nat.eqb j 7); [exists r1, q1; split; [exact H1|]; exists q2; split; [exact H2|exact R1]|]. destruct (Nat.eqb j 23); [exists r1, q1; split; [exact H1|]; exists q2; split; [exact H2|exact R1]|].
  exists q2, q1. split; [exact H1|]. exists q2. split; [exact H2|reflexivity].
Qed.
Theorem v2_complete : exists r, g2_const_scalar_mul_v2 a r.
Proof.
  assert (E0 : aff a = gmul 1 (aff a)) by (symmetry; apply gmul_1). destruct (adbl_mul_ex a 1 E0) as [t1 [H1 E1]]; [lia|unfold kx; lia|]. change (2 * 1)%N with 2%N in E1.
  destruct (aadd_mul_ex t1 a 2 1 E1 E0) as [s [H2 E2]]; [lia|lia|unfold kx; lia|]. change (2 + 1)%N with 3%N in E2.
  assert (X : forall l n q, aff q = gmul n (aff a) -> (0 < n)%N -> (fold_left dstep l n <= kx)%N -> exists r, rel_for (aff_mul_body a t1) l q r).
  { induction l as [|j l IH]; intros n q E L1 L2; cbn [rel_for fold_left] in *; [exists q; reflexivity|]. pose proof (dstep_mono l (dstep n j)) as M.
    destruct (abody_ex t1 n j q E1 E L1) as [q' Hq]; [unfold dstep in *; lia|]. pose proof (abody_ok t1 n j q q' E1 E Hq) as E'. destruct (IH _ q' E') as [r Hr]; [unfold dstep; lia|exact L2|]. exists r, q'. split; assumption. }
  destruct (X (seq 1 31) 3%N s E2) as [r Hr]; [lia|rewrite dstep_total; apply N.le_refl|]. exists r, t1. split; [exact H1|]. exists s. split; [exact H2|exact Hr].
Qed.
End Aff.
(** ** G2ConstScalarMul *)
Lemma third_cube : of1 thirdRootOneG2 *! of1 thirdRootOneG2 *! of1 thirdRootOneG2 = one2.
Proof.
  Local Transparent thirdRootOneG1 of1. unfold thirdRootOneG2. set (w := thirdRootOneG1).
  assert (E : qadd (qadd (qmul w w) w) (fc 1) = fc 0). { unfold w, thirdRootOneG1, fc. rewrite ofZ_mul, !ofZ_add. apply fc_eqz. vm_compute. reflexivity. }
  assert (E' : qmul w (qmul w w) = fc 1). { transitivity (qadd (qmul (qsub w (fc 1)) (qadd (qadd (qmul w w) w) (fc 1))) (fc 1)); [ring|]. rewrite E. ring. }
  clearbody w. unfold of1. rewrite !mul2_def, one2_def. cbn [A0 A1]. apply E2_eq; [|ring]. transitivity (qmul (qmul w (qmul w w)) (qmul w (qmul w w))); [ring|]. rewrite E'. ring.
Qed.
Local Opaque thirdRootOneG1 thirdRootOneG2 of1.
Lemma phi_on Q : on_g2 (aff Q) -> on_g2 (aff (g2_phi Q)).
Proof.
  intros H. apply oc_aff in H. destruct Q as [x y]. cbn [X2 Y2] in H. unfold g2_phi. rewrite e2_el_ok. cbn [X2 Y2]. pose proof third_cube as C. revert C. generalize (of1 thirdRootOneG2). intros w C.
  change (oc2 (x *! w) y). unfold oc2 in *. rewrite H. transitivity (x *! x *! x *! one2 +! bTwist); [ring|]. rewrite <- C. ring.
Qed.
Definition cstep (c : N) (i : nat) : N := if Z.testbit k0_scalar (Z.of_nat i) then (2 * c + 1)%N else (2 * c - 1)%N.
Lemma cstep_total : fold_left cstep (rev (seq 1 63)) 1%N = (kx + 1)%N. Proof. vm_compute. reflexivity. Qed.
Lemma gmul_pred c P : on_g2 P -> (1 <= c)%N -> gadd (gmul c P) (gneg P) = gmul (c - 1) P.
Proof.
  intros H L. replace c with ((c - 1) + 1)%N at 1 by lia. rewrite gmul_add, gmul_1 by exact H. rewrite gadd_assoc by (try apply gneg_on; try apply gmul_on; exact H). rewrite gadd_neg. apply gadd_0_r.
Qed.
Theorem cmul_sound Q r : on_g2 (aff Q) -> g2_const_scalar_mul Q r -> aff r = gmul kx (aff Q).
Proof.
  intros HQ H. unfold g2_const_scalar_mul in H. cbv zeta in H. destruct H as [t0 [H0 [t1 [H1 [t2 [_ [t3 [H3 [acc [Hacc [s [Hs Hr]]]]]]]]]]]].
  pose proof (phi_on Q HQ) as HF. set (F := aff (g2_phi Q)) in *. set (P := aff Q) in *. pose proof (gneg_on _ HQ) as HQ'. pose proof (gneg_on _ HF) as HF'.
  apply (aadd_iff (g2_neg Q) (g2_neg (g2_phi Q)) t0 HQ' HF') in H0. destruct H0 as [_ H0]. rewrite !aneg in H0. fold P F in H0.
  apply (aadd_iff Q (g2_neg (g2_phi Q)) t1 HQ HF') in H1. destruct H1 as [_ H1]. rewrite !aneg in H1. fold P F in H1.
  apply (aadd_iff Q (g2_phi Q) t3 HQ HF) in H3. destruct H3 as [_ H3]. fold P F in H3.
  assert (O0 : on_g2 (aff t0)) by (rewrite H0; exact (gadd_on _ _ HQ' HF')). assert (O1 : on_g2 (aff t1)) by (rewrite H1; exact (gadd_on _ _ HQ HF')).
  assert (X : forall l c q, (1 <= c)%N -> aff q = gadd (gmul c P) F -> rel_for (fun i Acc => double_and_add Acc (if Z.testbit k0_scalar (Z.of_nat i) then t1 else t0)) l q acc -> aff acc = gadd (gmul (fold_left cstep l c) P) F).
  { induction l as [|i l IH]; intros c q L E K; cbn [rel_for fold_left] in *; [unfold ret in K; subst acc; exact E|]. destruct K as [q' [Hq K]]. apply (IH _ q'); [unfold cstep; destruct (Z.testbit k0_scalar (Z.of_nat i)); lia| |exact K].
    pose proof (gmul_on c P HQ) as Oc. assert (Oq : on_g2 (aff q)) by (rewrite E; exact (gadd_on _ _ Oc HF)). unfold cstep. destruct (Z.testbit k0_scalar (Z.of_nat i)).
    - apply (daa_iff q t1 q' Oq O1) in Hq. destruct Hq as [_ [s' [E1 [_ E2]]]]. rewrite E2, E1, E, H1. rewrite (gadd_swap (gmul c P) F P (gneg F) Oc HF HQ HF'), gadd_neg, gadd_0_r.
      rewrite <- (gadd_assoc _ _ _ (gadd_on _ _ Oc HQ) Oc HF). f_equal. pose proof (gmul_1 P) as E3. rewrite <- E3 at 2. rewrite <- !gmul_add by exact HQ. f_equal. lia.
    - apply (daa_iff q t0 q' Oq O0) in Hq. destruct Hq as [_ [s' [E1 [_ E2]]]]. rewrite E2, E1, E, H0. rewrite (gadd_swap (gmul c P) F (gneg P) (gneg F) Oc HF HQ' HF'), gadd_neg, gadd_0_r.
      rewrite <- (gadd_assoc _ _ _ (gadd_on _ _ Oc HQ') Oc HF). f_equal. rewrite (gmul_pred c P HQ L). rewrite <- gmul_add by exact HQ. f_equal. lia. }
  assert (E3 : aff t3 = gadd (gmul 1 P) F) by (rewrite gmul_1; exact H3). pose proof (X _ 1%N t3 (N.le_refl _) E3 Hacc) as EA. rewrite cstep_total in EA. clear X.
  pose proof (gmul_on (kx + 1) P HQ) as Ok1. assert (OA : on_g2 (aff acc)) by (rewrite EA; exact (gadd_on _ _ Ok1 HF)).
  apply (aadd_iff (g2_neg Q) acc s HQ' OA) in Hs. destruct Hs as [_ Hs]. rewrite aneg, EA in Hs. fold P in Hs. rewrite <- (gadd_assoc _ _ _ HQ' Ok1 HF) in Hs.
  rewrite (gadd_comm _ _ HQ' Ok1) in Hs. rewrite (gmul_pred (kx + 1) P HQ) in Hs by lia. assert (EK : (kx + 1 - 1)%N = kx) by reflexivity. rewrite EK in Hs. pose proof (gmul_on kx P HQ) as Ok.
  assert (Os : on_g2 (aff s)) by (rewrite Hs; exact (gadd_on _ _ Ok HF)). apply (aadd_iff (g2_neg (g2_phi Q)) s r HF' Os) in Hr. destruct Hr as [_ Hr]. rewrite aneg in Hr. fold F in Hr. rewrite Hs in Hr.
  pose proof (gadd_comm (gneg F) (gadd (gmul kx P) F) HF' (gadd_on _ _ Ok HF)) as C1. pose proof (gadd_assoc (gmul kx P) F (gneg F) Ok HF HF') as C2. pose proof (gadd_neg F) as C3. pose proof (gadd_0_r (gmul kx P)) as C4.
  transitivity (gadd (gneg F) (gadd (gmul kx P) F)); [exact Hr|]. rewrite C1, C2, C3. exact C4.
Qed.
