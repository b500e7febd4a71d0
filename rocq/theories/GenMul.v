(** * GenMul.v — runs of the affine multiplications on the standard generator of G2, to show that they can be satisfied.
    Every intermediate point is a multiple of the generator; it is enough that certain integers are prime to r. *)
From Coq Require Import ZArith NArith Znumtheory List Bool Lia Ring.
From Verif Require Import FieldZ TowerModel TowerSpec TowerRing TowerFrob TowerField PairingModel PairingSpec MillerProofs MillerWitness WSpec G2Spec G2Group G2Model CmpProofs JacProofs PsiProofs ScalarProofs GenOrder.
Import ListNotations.
Local Opaque gadd gneg gmul on_g2 gpsi conj2 psi_u psi_v bTwist thirdRootOneG1 thirdRootOneG2 of1 g2_gen.
Open Scope N_scope.

Notation G := (aff g2_gen).
Definition cop (m : N) : bool := N.eqb (N.gcd m rN) 1.
Lemma gen_r : gmul rN G = None. Proof. exact (psi_order G gen_on gen_psi). Qed.
Lemma gen_ne : G <> None. Proof. discriminate. Qed.
Lemma cop_ne m : cop m = true -> gmul m G <> None.
Proof.
  intros H E. apply N.eqb_eq in H. pose proof (gmul_gcd m rN G gen_on E gen_r) as D. rewrite H, gmul_1 in D. exact (gen_ne D).
Qed.
Lemma gen_mod m : gmul (m mod rN) G = gmul m G.
Proof.
  pose proof (N.div_mod m rN ltac:(discriminate)) as E. set (q := m / rN) in *. set (s := m mod rN) in *. clearbody q s. rewrite E. pose proof (gmul_add (rN * q) s G gen_on) as A. rewrite A. pose proof (gmul_mul q rN G gen_on) as B. rewrite (N.mul_comm q rN) in B. rewrite B, gen_r, gmul_None, gadd_0_l. reflexivity.
Qed.
Definition cneg (m : N) : N := rN - m mod rN.
Lemma gen_neg m : gmul (cneg m) G = gneg (gmul m G).
Proof.
  pose proof (gen_mod m) as E. rewrite <- E. unfold cneg. set (s := m mod rN). assert (L : s < rN) by (apply N.mod_lt; discriminate). clearbody s. clear E.
  pose proof (gmul_add (rN - s) s G gen_on) as A. replace (rN - s + s) with rN in A by lia. rewrite gen_r in A.
  pose proof (gmul_on (rN - s) G gen_on) as O1. pose proof (gmul_on s G gen_on) as O2. pose proof (gneg_on _ O2) as O3.
  apply (f_equal (fun R => gadd R (gneg (gmul s G)))) in A. rewrite gadd_0_l in A. rewrite (gadd_assoc _ _ _ O1 O2 O3), gadd_neg, gadd_0_r in A. symmetry. exact A.
Qed.
Lemma cop_diff m n : cop (m + cneg n) = true -> gmul m G <> gmul n G.
Proof.
  intros H E. apply cop_ne in H. apply H. pose proof (gmul_add m (cneg n) G gen_on) as A. rewrite A, gen_neg, E. apply gadd_neg.
Qed.
(** p is the multiple m of the generator *)
Definition isg (p : G2Affine) (m : N) : Prop := aff p = gmul m G.
Lemma isg_on p m : isg p m -> on_g2 (aff p). Proof. intros E. rewrite E. apply gmul_on. exact gen_on. Qed.
Lemma isg_mod p m : isg p m -> isg p (m mod rN). Proof. unfold isg. rewrite gen_mod. auto. Qed.
Lemma isg_neg p m : isg p m -> isg (g2_neg p) (cneg m). Proof. unfold isg. intros E. rewrite gen_neg, aneg, E. reflexivity. Qed.
Lemma isg_x p q m n : isg p m -> isg q n -> cop (m + cneg n) = true -> cop (m + n) = true -> X2 p <> X2 q.
Proof.
  intros Ep Eq C1 C2 EX. apply cop_diff in C1. apply cop_ne in C2. pose proof (gmul_add m n G gen_on) as A. rewrite A in C2. unfold isg in *. rewrite <- Ep, <- Eq in *.
  assert (Hp : on_g2 (aff p)) by (rewrite Ep; apply gmul_on; exact gen_on). assert (Hq : on_g2 (aff q)) by (rewrite Eq; apply gmul_on; exact gen_on).
  destruct (aadd_ex p q Hp Hq C1 C2) as [r Hr]. apply (aadd_iff p q r Hp Hq) in Hr. destruct Hr as [N _]. exact (N EX).
Qed.
Lemma isg_add p q m n : isg p m -> isg q n -> cop (m + cneg n) && cop (m + n) = true -> exists r, g2_add_assign p q r /\ isg r ((m + n) mod rN).
Proof.
  intros Ep Eq C. apply andb_true_iff in C. destruct C as [C1 C2]. pose proof (isg_on p m Ep) as Hp. pose proof (isg_on q n Eq) as Hq.
  assert (N1 : aff p <> aff q) by (rewrite Ep, Eq; apply cop_diff; exact C1). pose proof (gmul_add m n G gen_on) as A.
  assert (N2 : gadd (aff p) (aff q) <> None) by (rewrite Ep, Eq, <- A; apply cop_ne; exact C2).
  destruct (aadd_ex p q Hp Hq N1 N2) as [r Hr]. exists r. split; [exact Hr|]. apply (aadd_iff p q r Hp Hq) in Hr. destruct Hr as [_ E]. apply isg_mod. unfold isg. rewrite E, Ep, Eq. symmetry. exact A.
Qed.
Lemma isg_dbl p m : isg p m -> cop (m + m) = true -> exists r, g2_double p r /\ isg r ((m + m) mod rN).
Proof.
  intros Ep C. pose proof (isg_on p m Ep) as Hp. pose proof (gmul_add m m G gen_on) as A.
  assert (N2 : gadd (aff p) (aff p) <> None) by (rewrite Ep, <- A; apply cop_ne; exact C).
  destruct (adbl_ex p Hp N2) as [r Hr]. exists r. split; [exact Hr|]. apply (adbl_iff p r Hp) in Hr. destruct Hr as [_ E]. apply isg_mod. unfold isg. rewrite E, Ep. symmetry. exact A.
Qed.
Definition daa_chk (m n : N) : bool := cop (m + cneg n) && cop (m + n) && cop n && cop (m + n + m).
Lemma isg_daa p q m n : isg p m -> isg q n -> daa_chk m n = true -> exists r, double_and_add p q r /\ isg r ((m + n + m) mod rN).
Proof.
  intros Ep Eq C. unfold daa_chk in C. apply andb_true_iff in C. destruct C as [C C4]. apply andb_true_iff in C. destruct C as [C C3]. pose proof (isg_on p m Ep) as Hp. pose proof (isg_on q n Eq) as Hq.
  destruct (isg_add p q m n Ep Eq C) as [s [Hs Es]]. apply andb_true_iff in C. destruct C as [C1 C2]. pose proof (isg_on _ _ Es) as Os. apply (aadd_iff p q s Hp Hq) in Hs. destruct Hs as [NX Hs]. unfold isg in Es. rewrite gen_mod in Es.
  assert (N1 : aff s <> aff p). { rewrite Hs. intros E. apply cop_ne in C3. apply C3. apply (f_equal (fun R => gadd R (gneg (aff p)))) in E. rewrite gadd_neg in E.
    rewrite (gadd_comm _ _ Hp Hq), (gadd_assoc _ _ _ Hq Hp (gneg_on _ Hp)), gadd_neg, gadd_0_r in E. rewrite <- Eq. exact E. }
  pose proof (gmul_add (m + n) m G gen_on) as A. assert (N2 : gadd (aff s) (aff p) <> None) by (rewrite Es, Ep, <- A; apply cop_ne; exact C4).
  destruct (aadd_ex s p Os Hp N1 N2) as [r Hr]. apply (aadd_iff s p r Os Hp) in Hr. destruct Hr as [NX' Hr]. exists r. split.
  - apply (daa_iff p q r Hp Hq). split; [exact NX|]. exists s. split; [exact Hs|]. split; [exact NX'|exact Hr].
  - apply isg_mod. unfold isg. rewrite Hr, Es, Ep. symmetry. exact A.
Qed.
(** phi(G) = [x^4]G *)
Lemma gen_phi : isg (g2_phi g2_gen) (kx * (kx * (kx * kx)) mod rN).
Proof.
  apply isg_mod. unfold isg. pose proof gen_psi as E. pose proof gen_on as H. set (P := G) in *.
  assert (Ek : forall n, gpsi (gmul n P) = gneg (gmul (kx * n) P)).
  { intros n. pose proof (gpsi_mul n P H) as F1. rewrite F1, E. pose proof (gmul_neg n (gmul kx P) (gmul_on kx P H)) as F2. rewrite F2. pose proof (gmul_mul n kx P H) as F3. rewrite <- F3. rewrite (N.mul_comm n kx). reflexivity. }
  assert (E2 : gpsi (gpsi P) = gmul (kx * kx) P) by (rewrite E; pose proof (gpsi_neg (gmul kx P)) as F1; pose proof (Ek kx) as F2; rewrite F1, F2; exact (gneg_neg (gmul (kx * kx) P))).
  assert (E4 : gpsi (gpsi (gpsi (gpsi P))) = gmul (kx * (kx * (kx * kx))) P). { rewrite E2. pose proof (Ek (kx * kx)%N) as F1. pose proof (gpsi_neg (gmul (kx * (kx * kx)) P)) as F2. pose proof (Ek (kx * (kx * kx))%N) as F3. rewrite F1, F2, F3. exact (gneg_neg (gmul (kx * (kx * (kx * kx))) P)). }
  rewrite <- E4. clear. unfold P, aff. pose proof (gpsi_gpsi (X2 g2_gen) (Y2 g2_gen)) as E1. rewrite E1. pose proof (gpsi_gpsi (mul2 (of1 thirdRootOneG1) (X2 g2_gen)) (opp2 (Y2 g2_gen))) as E2. rewrite E2. clear E1 E2. rewrite opp2_opp.
  unfold g2_phi. rewrite e2_el_ok. cbn [X2 Y2]. apply some_eq; [|reflexivity]. assert (T : of1 thirdRootOneG2 = mul2 (of1 thirdRootOneG1) (of1 thirdRootOneG1)). { Local Transparent thirdRootOneG2 of1. unfold thirdRootOneG2, of1. rewrite mul2_def. cbn [A0 A1]. generalize thirdRootOneG1. intros w. apply E2_eq; ring. }
  rewrite T. ring.
Qed.
Local Opaque thirdRootOneG2 of1.
(** G2ConstScalarMul on the generator *)
Definition ph : N := kx * (kx * (kx * kx)) mod rN.
Fixpoint loop_chk (t0 t1 : N) (l : list nat) (m : N) : option N :=
  match l with
  | [] => Some m
  | i :: r => let n := if Z.testbit k0_scalar (Z.of_nat i) then t1 else t0 in if daa_chk m n then loop_chk t0 t1 r ((m + n + m) mod rN) else None
  end.
Lemma loop_run t0 t1 m0 m1 : isg t0 m0 -> isg t1 m1 -> forall l m m' p, isg p m -> loop_chk m0 m1 l m = Some m' ->
  exists r, rel_for (fun i Acc => double_and_add Acc (if Z.testbit k0_scalar (Z.of_nat i) then t1 else t0)) l p r /\ isg r m'.
Proof.
  intros E0 E1. induction l as [|i l IH]; intros m m' p Ep H; cbn [loop_chk rel_for] in *; [injection H as <-; exists p; split; [reflexivity|exact Ep]|].
  destruct (Z.testbit k0_scalar (Z.of_nat i)).
  - destruct (daa_chk m m1) eqn:C; [|discriminate]. destruct (isg_daa p t1 m m1 Ep E1 C) as [q [Hq Eq]]. destruct (IH _ _ q Eq H) as [r [Hr Er]]. exists r. split; [exists q; split; assumption|exact Er].
  - destruct (daa_chk m m0) eqn:C; [|discriminate]. destruct (isg_daa p t0 m m0 Ep E0 C) as [q [Hq Eq]]. destruct (IH _ _ q Eq H) as [r [Hr Er]]. exists r. split; [exists q; split; assumption|exact Er].
Qed.
Definition add_chk2 (m n : N) : bool := cop (m + cneg n) && cop (m + n).
Definition fin_chk (nq np : N) (o : option N) : bool := match o with None => false | Some a => add_chk2 nq a && add_chk2 np ((nq + a) mod rN) end.
Definition cmul_chk : bool :=
  add_chk2 (cneg 1) (cneg ph) && add_chk2 1 (cneg ph) && add_chk2 (cneg 1) ph && add_chk2 1 ph &&
  fin_chk (cneg 1) (cneg ph) (loop_chk ((cneg 1 + cneg ph) mod rN) ((1 + cneg ph) mod rN) (rev (seq 1 63)) ((1 + ph) mod rN)).
Lemma cmul_chk_ok : cmul_chk = true. Proof. vm_compute. reflexivity. Qed.
Lemma gen_phi' : isg (g2_phi g2_gen) ph. Proof. exact gen_phi. Qed.
Lemma isg_add2 p q m n : isg p m -> isg q n -> add_chk2 m n = true -> exists r, g2_add_assign p q r /\ isg r ((m + n) mod rN).
Proof. exact (isg_add p q m n). Qed.
Local Opaque add_chk2 cneg ph rN N.modulo N.add loop_chk double_and_add g2_add_assign.
Theorem gen_cmul : exists r, g2_const_scalar_mul g2_gen r.
Proof.
  assert (EQ : isg g2_gen 1) by (unfold isg; symmetry; apply gmul_1). pose proof (isg_neg _ _ EQ) as NQ. pose proof gen_phi' as EP. pose proof (isg_neg _ _ EP) as NP.
  pose proof cmul_chk_ok as C. unfold cmul_chk in C. apply andb_true_iff in C. destruct C as [C C5]. apply andb_true_iff in C. destruct C as [C C4]. apply andb_true_iff in C. destruct C as [C C3]. apply andb_true_iff in C. destruct C as [C1 C2].
  destruct (isg_add2 _ _ _ _ NQ NP C1) as [t0 [H0 E0]]. destruct (isg_add2 _ _ _ _ EQ NP C2) as [t1 [H1 E1]]. destruct (isg_add2 _ _ _ _ NQ EP C3) as [t2 [H2 _]]. destruct (isg_add2 _ _ _ _ EQ EP C4) as [t3 [H3 E3]].
  destruct (loop_chk ((cneg 1 + cneg ph) mod rN) ((1 + cneg ph) mod rN) (rev (seq 1 63)) ((1 + ph) mod rN)) as [a|] eqn:L; [|discriminate C5]. cbn [fin_chk] in C5.
  destruct (loop_run t0 t1 _ _ E0 E1 _ _ _ t3 E3 L) as [acc [Ha Ea]]. apply andb_true_iff in C5. destruct C5 as [C5 C6].
  destruct (isg_add2 _ _ _ _ NQ Ea C5) as [s [Hs Es]]. destruct (isg_add2 _ _ _ _ NP Es C6) as [r [Hr _]].
  exists r. unfold g2_const_scalar_mul. cbv zeta. exists t0. split; [exact H0|]. exists t1. split; [exact H1|]. exists t2. split; [exact H2|]. exists t3. split; [exact H3|]. exists acc. split; [exact Ha|]. exists s. split; [exact Hs|exact Hr].
Qed.
Local Transparent add_chk2.
(** G2ClearCofactor on the generator *)
Lemma isg_sub p q m n : isg p m -> isg q n -> add_chk2 m (cneg n) = true -> exists r, g2_sub_assign p q r /\ isg r ((m + cneg n) mod rN).
Proof. intros Ep Eq C. exact (isg_add2 p (g2_neg q) m (cneg n) Ep (isg_neg q n Eq) C). Qed.
Lemma gen_psi_mul m : gpsi (gmul m G) = gmul (cneg (m * kx)) G.
Proof.
  pose proof (gpsi_mul m G gen_on) as E1. rewrite E1, gen_psi. pose proof (gmul_neg m (gmul kx G) (gmul_on kx G gen_on)) as E2. rewrite E2.
  pose proof (gmul_mul m kx G gen_on) as E3. rewrite <- E3. symmetry. apply gen_neg.
Qed.
Lemma isg_psi p m : isg p m -> isg (g2_psi p) (cneg (m * kx)).
Proof. unfold isg. intros E. pose proof (psi_aff p) as F. rewrite F, E. apply gen_psi_mul. Qed.
Lemma isg_jac J m : jrep J (gmul m G) -> cop m = true -> exists r, get_g2_affine fp_canon J r /\ isg r m.
Proof.
  intros H C. apply cop_ne in C. destruct (gmul m G) as [[x y]|] eqn:E; [|exfalso; apply C; reflexivity]. exists (mkG2 x y). split; [|unfold isg; rewrite E; reflexivity].
  apply (get_affine_iff fp_canon J (mkG2 x y) fp_canon_ok). exact H.
Qed.
Lemma isg_phi1 p m : isg p m -> isg (mkG2 (e2_mul_by_element (X2 p) thirdRootOneG1) (Y2 p)) (cneg (cneg (cneg (m * kx) * kx))).
Proof.
  intros E. pose proof (isg_psi _ _ (isg_psi _ _ E)) as H. pose proof (isg_neg _ _ H) as F. unfold isg in *. rewrite <- F, aneg.
  pose proof (psi2_phi (aff p)) as P. pose proof (psi_aff p) as A1. pose proof (psi_aff (g2_psi p)) as A2. rewrite A2, A1, <- P. unfold aff. cbn [X2 Y2]. apply some_eq; [|reflexivity]. apply e2_el_ok.
Qed.
Definition c_xg : N := cneg kx.
Definition c_xxg : N := cneg (kx * c_xg).
Definition c_r1 : N := (c_xxg + cneg c_xg) mod rN.
Definition c_r2 : N := (c_r1 + cneg 1) mod rN.
Definition c_t1 : N := (c_xg + cneg 1) mod rN.
Definition c_t2 : N := cneg (c_t1 * kx).
Definition c_r3 : N := (c_r2 + c_t2) mod rN.
Definition c_t3 : N := (1 + 1) mod rN.
Definition c_t4 : N := cneg (cneg (cneg (c_t3 * kx) * kx)).
Definition clr_chk : bool :=
  cop c_xg && cop c_xxg && add_chk2 c_xxg (cneg c_xg) && add_chk2 c_r1 (cneg 1) && add_chk2 c_xg (cneg 1) && add_chk2 c_r2 c_t2 && cop (1 + 1) && add_chk2 c_r3 (cneg c_t4).
Lemma clr_chk_ok : clr_chk = true. Proof. vm_compute. reflexivity. Qed.
Local Opaque add_chk2 c_xg c_xxg c_r1 c_r2 c_t1 c_t2 c_r3 c_t3 c_t4 cop.
Theorem gen_clear : exists r, g2_clear_cofactor fp_canon g2_gen r.
Proof.
  pose proof clr_chk_ok as C. unfold clr_chk in C. apply andb_true_iff in C. destruct C as [C C8]. apply andb_true_iff in C. destruct C as [C C7]. apply andb_true_iff in C. destruct C as [C C6].
  apply andb_true_iff in C. destruct C as [C C5]. apply andb_true_iff in C. destruct C as [C C4]. apply andb_true_iff in C. destruct C as [C C3]. apply andb_true_iff in C. destruct C as [C1 C2].
  assert (EQ : isg g2_gen 1) by (unfold isg; symmetry; apply gmul_1).
  destruct (get_jac_total fp_canon g2_gen fp_canon_ok) as [ja Hja]. pose proof (get_jac_ok fp_canon g2_gen ja fp_canon_ok gen_on Hja) as Eja.
  assert (Rja : jrep ja G) by (rewrite Eja; exact (jrep_one (X2 g2_gen) (Y2 g2_gen))).
  destruct (jmul_total fp_canon ja fp_canon_ok) as [j1 H1]. pose proof (jmul_canon ja j1 G gen_on Rja H1) as R1. apply neg_jac in R1. fold kx in R1. rewrite <- gen_neg in R1.
  destruct (jmul_total fp_canon (g2_jacobian_neg j1) fp_canon_ok) as [j2 H2]. pose proof (jmul_canon _ j2 _ (gmul_on (cneg kx) G gen_on) R1 H2) as R2.
  pose proof (gmul_mul 0xd201000000010000 (cneg kx) G gen_on) as M. rewrite <- M in R2. apply neg_jac in R2. rewrite <- gen_neg in R2.
  destruct (isg_jac _ c_xg R1 C1) as [xg [Hxg Exg]]. destruct (isg_jac _ c_xxg R2 C2) as [xxg [Hxxg Exxg]].
  destruct (isg_sub _ _ _ _ Exxg Exg C3) as [s1 [S1 E1]]. destruct (isg_sub s1 g2_gen c_r1 1 E1 EQ C4) as [s2 [S2 E2]]. destruct (isg_sub _ _ _ _ Exg EQ C5) as [t1 [T1 F1]].
  destruct (isg_add2 s2 (g2_psi t1) c_r2 c_t2 E2 (isg_psi t1 c_t1 F1) C6) as [s3 [S3 E3]]. destruct (isg_dbl g2_gen 1 EQ C7) as [t3 [T3 F3]].
  destruct (isg_sub s3 _ c_r3 c_t4 E3 (isg_phi1 t3 c_t3 F3) C8) as [s4 [S4 E4]].
  exists s4. exists ja. split; [exact Hja|]. exists j1. split; [exact H1|]. exists j2. split; [exact H2|]. exists xg. split; [exact Hxg|]. exists xxg. split; [exact Hxxg|].
  exists s1. split; [exact S1|]. exists s2. split; [exact S2|]. exists t1. split; [exact T1|]. exists s3. split; [exact S3|]. exists t3. split; [exact T3|exact S4].
Qed.
