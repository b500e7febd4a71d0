(** * TowerCyc.v — FrobeniusSquare, conjugation as powers; the cyclotomic subgroup: squaring, compressed squaring, decompression *)
From Coq Require Import ZArith Znumtheory List Lia Ring.
From Verif Require Import PrimeTheory PrimeBls FieldZ TowerModel TowerSpec TowerRing TowerFrob TowerField CharP TowerPow.
Open Scope Z_scope.

Lemma conj2_mul : forall x y, conj2 (mul2 x y) = mul2 (conj2 x) (conj2 y).
Proof. intros. rewrite !mul2_def. unfold conj2. cbn [A0 A1]. apply E2_eq; ring. Qed.
Lemma conj2_conj : forall x, conj2 (conj2 x) = x.
Proof. intros [a b]. unfold conj2. cbn [A0 A1]. apply E2_eq; ring. Qed.

Lemma lin2 : forall L R c P g, P = g -> sub2 L R = mul2 c (sub2 P g) -> L = R.
Proof. intros L R c P g H E. subst g. transitivity (add2 (sub2 L R) R); [ring | rewrite E; ring]. Qed.
Lemma lin22 : forall L R c P g c' P' g', P = g -> P' = g' -> sub2 L R = add2 (mul2 c (sub2 P g)) (mul2 c' (sub2 P' g')) -> L = R.
Proof. intros L R c P g c' P' g' H H' E. subst g g'. transitivity (add2 (sub2 L R) R); [ring | rewrite E; ring]. Qed.
(** the primitive sixth root of unity gam * conj gam *)
Global Opaque gam.
Definition zet : E2 := mul2 gam (conj2 gam).
Lemma NR21 : nonResidues 2 1 = zet.
Proof.
  unfold zet. rewrite conj2_norm. Local Transparent gam. unfold of1, norm2, gam. Local Opaque gam. cbn [nonResidues A0 A1]. unfold fc. rewrite !ofZ_mul, ofZ_add. apply E2_eq; apply fc_mod; vm_compute; reflexivity.
Qed.
Lemma NR22 : nonResidues 2 2 = mul2 zet zet. Proof. rewrite <- NR21. nr. Qed.
Lemma NR23 : nonResidues 2 3 = mul2 zet (mul2 zet zet). Proof. rewrite <- NR22, <- NR21. nr. Qed.
Lemma NR24 : nonResidues 2 4 = mul2 (mul2 zet zet) (mul2 zet zet). Proof. rewrite <- NR22. nr. Qed.
Lemma NR25 : nonResidues 2 5 = mul2 zet (mul2 (mul2 zet zet) (mul2 zet zet)). Proof. rewrite <- NR24, <- NR21. nr. Qed.
Lemma zet2 : mul2 zet zet = sub2 zet one2.
Proof. rewrite <- NR22, <- NR21. cbn [nonResidues]. Local Transparent sub2 one2. unfold sub2, one2, of1. cbn [A0 A1]. unfold fc. rewrite !ofZ_sub. apply E2_eq; apply fc_mod; vm_compute; reflexivity. Qed.
Local Opaque sub2 one2.
Global Opaque zet.
Lemma zet_ne1 : zet <> one2.
Proof.
  rewrite <- NR21. cbn [nonResidues]. intros H. apply (f_equal (fun x => fval (A0 x))) in H.
  assert (E : (fval (A0 (nonResidues 2 1)) =? fval (A0 one2)) = false) by (vm_compute; reflexivity). apply Z.eqb_neq in E. apply E. exact H.
Qed.

Lemma pow12_p2 : forall g0 g1 g2 g3 g4 g5, pow12 (six g0 g1 g2 g3 g4 g5) (pBls * pBls) =
  six g0 (mul2 zet g1) (mul2 (mul2 zet zet) g2) (mul2 (mul2 zet (mul2 zet zet)) g3)
      (mul2 (mul2 (mul2 zet zet) (mul2 zet zet)) g4) (mul2 (mul2 zet (mul2 (mul2 zet zet) (mul2 zet zet))) g5).
Proof.
  intros. rewrite pow12_mul by discriminate. rewrite pow12_p. rewrite pow12_p. Local Transparent zet. unfold zet. Local Opaque zet. generalize gam. intros g. rewrite !conj2_mul, !conj2_conj. generalize (conj2 g). intros c. apply six_eq; ring.
Qed.
Theorem frobenius_square_ok : forall x, e12_frobenius_square x = pow12 x (pBls * pBls).
Proof.
  intros x. rewrite (six_eta x) at 2. rewrite pow12_p2. unfold e12_frobenius_square. cbv zeta. rewrite !e2_nr_k_ok, NR21, NR22, NR23, NR24, NR25. reflexivity.
Qed.
Lemma pow12_p4 : forall g0 g1 g2 g3 g4 g5, pow12 (six g0 g1 g2 g3 g4 g5) (pBls * pBls * (pBls * pBls)) =
  six g0 (mul2 (sub2 zet one2) g1) (mul2 (opp2 zet) g2) g3 (mul2 (sub2 zet one2) g4) (mul2 (opp2 zet) g5).
Proof.
  intros. rewrite pow12_mul by discriminate. rewrite !pow12_p2. pose proof zet2 as Z. generalize dependent zet. intros z Z. apply six_eq; ring [Z].
Qed.
Lemma conj12_six : forall g0 g1 g2 g3 g4 g5, conj12 (six g0 g1 g2 g3 g4 g5) = six g0 (opp2 g1) g2 (opp2 g3) g4 (opp2 g5).
Proof. reflexivity. Qed.
Theorem conj12_pow : forall x, conj12 x = pow12 x (pBls ^ 6).
Proof.
  intros x. assert (E6 : pBls ^ 6 = pBls * pBls * (pBls * pBls) * (pBls * pBls)) by (vm_compute; reflexivity). rewrite E6. clear E6.
  rewrite pow12_mul by discriminate. rewrite (six_eta x). rewrite pow12_p4, pow12_p2, conj12_six.
  pose proof zet2 as Z. generalize dependent zet. intros z Z. apply six_eq; ring [Z].
Qed.

Lemma six_mul : forall a0 a1 a2 a3 a4 a5 b0 b1 b2 b3 b4 b5, mul12 (six a0 a1 a2 a3 a4 a5) (six b0 b1 b2 b3 b4 b5) =
  six (add2 (mul2 a0 b0) (mul2 xi (add2 (add2 (add2 (mul2 a1 b5) (mul2 a5 b1)) (add2 (mul2 a2 b4) (mul2 a4 b2))) (mul2 a3 b3))))
      (add2 (add2 (mul2 a0 b1) (mul2 a1 b0)) (mul2 xi (add2 (add2 (mul2 a2 b5) (mul2 a5 b2)) (add2 (mul2 a3 b4) (mul2 a4 b3)))))
      (add2 (add2 (add2 (mul2 a0 b2) (mul2 a2 b0)) (mul2 a1 b1)) (mul2 xi (add2 (add2 (mul2 a3 b5) (mul2 a5 b3)) (mul2 a4 b4))))
      (add2 (add2 (add2 (mul2 a0 b3) (mul2 a3 b0)) (add2 (mul2 a1 b2) (mul2 a2 b1))) (mul2 xi (add2 (mul2 a4 b5) (mul2 a5 b4))))
      (add2 (add2 (add2 (add2 (mul2 a0 b4) (mul2 a4 b0)) (add2 (mul2 a1 b3) (mul2 a3 b1))) (mul2 a2 b2)) (mul2 xi (mul2 a5 b5)))
      (add2 (add2 (add2 (mul2 a0 b5) (mul2 a5 b0)) (add2 (mul2 a1 b4) (mul2 a4 b1))) (add2 (mul2 a2 b3) (mul2 a3 b2))).
Proof.
  intros. unfold six. rewrite mul12_def. Local Transparent v6. unfold v6. Local Opaque v6. rewrite !mul6_def, !add6_def. apply E12_eq; apply E6_eq; ring.
Qed.
Lemma six_inj : forall a b c d e f a' b' c' d' e' f', six a b c d e f = six a' b' c' d' e' f' -> a = a' /\ b = b' /\ c = c' /\ d = d' /\ e = e' /\ f = f'.
Proof. intros. unfold six in H. inversion H. auto 10. Qed.

(** ** the cyclotomic subgroup *)
Definition PhiBls : Z := pBls * pBls * (pBls * pBls) - pBls * pBls + 1.
Definition Cyc (x : E12) : Prop := pow12 x PhiBls = one12.
Lemma Phi_pos : 0 < PhiBls. Proof. reflexivity. Qed.
Lemma cyc_frob_gen : forall x q, 1 <= q -> pow12 x (q * q - q + 1) = one12 -> mul12 (pow12 x (q * q)) x = pow12 x q.
Proof.
  intros x q Hq H. assert (0 <= q * q - q) by nia.
  transitivity (mul12 (pow12 x (q * q)) (pow12 x 1)); [rewrite pow12_1; reflexivity |]. rewrite <- pow12_add by lia.
  replace (q * q + 1) with (q * q - q + 1 + q) by lia. rewrite pow12_add by lia. rewrite H. ring.
Qed.
Lemma cyc_frob : forall x, Cyc x -> mul12 (pow12 x (pBls * pBls * (pBls * pBls))) x = pow12 x (pBls * pBls).
Proof. intros x H. exact (cyc_frob_gen x (pBls * pBls) ltac:(discriminate) H). Qed.
Lemma cyc_conj_gen : forall x q, 1 <= q -> pow12 x (q * q - q + 1) = one12 -> mul12 x (pow12 x (q * q * q)) = one12.
Proof.
  intros x q Hq H. assert (0 <= q * q - q) by nia. transitivity (mul12 (pow12 x 1) (pow12 x (q * q * q))); [rewrite pow12_1; reflexivity |]. rewrite <- pow12_add by nia.
  replace (1 + q * q * q) with ((q * q - q + 1) * (q + 1)) by nia. rewrite pow12_mul by lia. rewrite H. apply pow12_one.
Qed.
Lemma cyc_conj : forall x, Cyc x -> mul12 x (conj12 x) = one12.
Proof.
  intros x H. rewrite conj12_pow. replace (pBls ^ 6) with (pBls * pBls * (pBls * pBls) * (pBls * pBls)) by (vm_compute; reflexivity).
  exact (cyc_conj_gen x (pBls * pBls) ltac:(discriminate) H).
Qed.
(** coordinate equations *)
Lemma cyc_eqs : forall g0 g1 g2 g3 g4 g5, Cyc (six g0 g1 g2 g3 g4 g5) ->
  sub2 (add2 (mul2 g0 g0) (mul2 xi (mul2 g3 g3))) (mul2 xi (add2 (mul2 g1 g5) (mul2 g2 g4))) = g0 /\
  sub2 (add2 (mul2 g0 g1) (mul2 xi (mul2 g3 g4))) (mul2 xi (add2 (mul2 g2 g5) (mul2 g2 g5))) = g1 /\
  sub2 (add2 (mul2 g1 g1) (mul2 xi (mul2 g4 g4))) (add2 (mul2 g0 g2) (mul2 xi (mul2 g3 g5))) = g2 /\
  sub2 (add2 (mul2 g1 g2) (mul2 xi (mul2 g4 g5))) (add2 (mul2 g0 g3) (mul2 g0 g3)) = g3 /\
  sub2 (add2 (mul2 g2 g2) (mul2 xi (mul2 g5 g5))) (add2 (mul2 g0 g4) (mul2 g1 g3)) = g4 /\
  sub2 (add2 (mul2 g0 g5) (mul2 g2 g3)) (add2 (mul2 g1 g4) (mul2 g1 g4)) = g5.
Proof.
  intros g0 g1 g2 g3 g4 g5 H. apply cyc_frob in H. rewrite pow12_p4, pow12_p2, six_mul in H. apply six_inj in H. destruct H as (H0 & H1 & H2 & H3 & H4 & H5).
  pose proof zet2 as Z. generalize dependent zet. intros z H0 H1 H2 H3 H4 H5 Z.
  split; [| split; [| split; [| split; [| split]]]].
  - match type of H0 with ?L = ?R => apply (lin2 _ _ one2 L R H0) end. ring [Z].
  - match type of H1 with ?L = _ => transitivity (mul2 (sub2 one2 z) L) end; [ring [Z] | rewrite H1; ring [Z]].
  - match type of H2 with ?L = _ => transitivity (mul2 (opp2 z) L) end; [ring [Z] | rewrite H2; ring [Z]].
  - match type of H3 with ?L = _ => transitivity (opp2 L) end; [ring [Z] | rewrite H3; ring [Z]].
  - match type of H4 with ?L = _ => transitivity (mul2 (sub2 z one2) L) end; [ring [Z] | rewrite H4; ring [Z]].
  - match type of H5 with ?L = _ => transitivity (mul2 z L) end; [ring [Z] | rewrite H5; ring [Z]].
Qed.
Lemma cyc_norms : forall g0 g1 g2 g3 g4 g5, Cyc (six g0 g1 g2 g3 g4 g5) ->
  sub2 (add2 (mul2 g0 g0) (mul2 xi (add2 (mul2 g2 g4) (mul2 g2 g4)))) (mul2 xi (add2 (add2 (mul2 g1 g5) (mul2 g1 g5)) (mul2 g3 g3))) = one2 /\
  sub2 (add2 (add2 (mul2 g0 g4) (mul2 g0 g4)) (mul2 g2 g2)) (add2 (add2 (mul2 g1 g3) (mul2 g1 g3)) (mul2 xi (mul2 g5 g5))) = zero2.
Proof.
  intros g0 g1 g2 g3 g4 g5 H. apply cyc_conj in H. rewrite conj12_six, six_mul, one_six in H. apply six_inj in H. destruct H as (H0 & _ & _ & _ & H4 & _). split.
  - rewrite <- H0. ring.
  - rewrite <- H4. ring.
Qed.
Theorem cyclotomic_square_ok : forall x, Cyc x -> e12_cyclotomic_square x = mul12 x x.
Proof.
  intros x. rewrite (six_eta x). generalize (B0 (C0 x)) (B0 (C1 x)) (B1 (C0 x)) (B1 (C1 x)) (B2 (C0 x)) (B2 (C1 x)). clear x. intros g0 g1 g2 g3 g4 g5 H.
  apply cyc_eqs in H. destruct H as (H0 & H1 & H2 & H3 & H4 & H5). rewrite six_mul. unfold e12_cyclotomic_square, six at 1. cbv zeta. unfold six. cbn [B0 B1 B2 C0 C1]. r2.
  fold (six g0 g1 g2 g3 g4 g5).
  apply E12_eq; apply E6_eq.
  - apply (lin2 _ _ (add2 one2 one2) _ _ H0). ring.
  - apply (lin2 _ _ (add2 one2 one2) _ _ H2). ring.
  - apply (lin2 _ _ (add2 one2 one2) _ _ H4). ring.
  - apply (lin2 _ _ (opp2 (add2 one2 one2)) _ _ H1). ring.
  - apply (lin2 _ _ (opp2 (add2 one2 one2)) _ _ H3). ring.
  - apply (lin2 _ _ (opp2 (add2 one2 one2)) _ _ H5). ring.
Qed.

(** ** powers inside the cyclotomic subgroup *)
Lemma cyc_one : Cyc one12. Proof. unfold Cyc. apply pow12_one. Qed.
Lemma cyc_mul : forall x y, Cyc x -> Cyc y -> Cyc (mul12 x y).
Proof. unfold Cyc. intros x y Hx Hy. rewrite pow12_prod, Hx, Hy. ring. Qed.
Lemma pow12_kill : forall x n P, 0 <= n -> 0 < P -> pow12 x P = one12 -> pow12 (pow12 x n) P = one12.
Proof. intros x n P Hn HP Hx. rewrite <- pow12_mul by lia. rewrite Z.mul_comm, pow12_mul by lia. rewrite Hx. apply pow12_one. Qed.
Lemma cyc_pow : forall x n, 0 <= n -> Cyc x -> Cyc (pow12 x n).
Proof. intros x n Hn Hx. exact (pow12_kill x n PhiBls Hn Phi_pos Hx). Qed.
Lemma pow12_0 : forall x, pow12 x 0 = one12. Proof. intros. Local Transparent pow12. reflexivity. Qed.
Local Opaque pow12.
Lemma pow12_dbl : forall x m, 0 <= m -> mul12 (pow12 x m) (pow12 x m) = pow12 x (2 * m).
Proof. intros. replace (2 * m) with (m + m) by lia. rewrite pow12_add by lia. reflexivity. Qed.
Lemma n_square_ok : forall x n, Cyc x -> e12_n_square x n = pow12 x (2 ^ Z.of_nat n).
Proof.
  intros x n H. unfold e12_n_square. induction n as [| n IH].
  - cbn [Nat.iter nat_rect]. change (2 ^ Z.of_nat 0) with 1. rewrite pow12_1. reflexivity.
  - cbn [Nat.iter nat_rect]. change (nat_rect (fun _ => E12) x (fun _ => e12_cyclotomic_square) n) with (Nat.iter n e12_cyclotomic_square x). rewrite IH.
    rewrite cyclotomic_square_ok by (apply cyc_pow; [lia | exact H]). rewrite pow12_dbl by lia. rewrite Nat2Z.inj_succ, Z.pow_succ_r by lia. reflexivity.
Qed.

(** two elements share the four coordinates kept by the compressed form (g1, g2, g4, g5) *)
Definition agree (x y : E12) : Prop := B0 (C1 x) = B0 (C1 y) /\ B1 (C0 x) = B1 (C0 y) /\ B2 (C0 x) = B2 (C0 y) /\ B2 (C1 x) = B2 (C1 y).
Lemma agree_refl : forall x, agree x x. Proof. unfold agree. auto. Qed.
Lemma compressed_square_ok : forall x y, Cyc x -> agree x y -> agree (mul12 x x) (e12_cyclotomic_square_compressed y y).
Proof.
  intros x y H (E1 & E2 & E3 & E4). rewrite <- cyclotomic_square_ok by exact H. unfold agree, e12_cyclotomic_square_compressed, e12_cyclotomic_square. cbv zeta. cbn [B0 B1 B2 C0 C1].
  rewrite <- E1, <- E2, <- E3, <- E4. r2. split; [| split; [| split]]; ring.
Qed.
Lemma n_compressed_ok : forall x y n, Cyc x -> agree x y -> agree (pow12 x (2 ^ Z.of_nat n)) (e12_n_square_compressed y n).
Proof.
  intros x y n H A. unfold e12_n_square_compressed. induction n as [| n IH].
  - cbn [Nat.iter nat_rect]. change (2 ^ Z.of_nat 0) with 1. rewrite pow12_1. exact A.
  - cbn [Nat.iter nat_rect]. rewrite Nat2Z.inj_succ, Z.pow_succ_r by lia. rewrite <- pow12_dbl by lia. apply compressed_square_ok; [apply cyc_pow; [lia | exact H] | exact IH].
Qed.
Lemma four_ne0 : forall g, g <> zero2 -> add2 (add2 g g) (add2 g g) <> zero2.
Proof.
  intros g H E. apply H. apply (dom2 (of1 (fc 4))).
  - rewrite <- E. rewrite !add2_def, mul2_def. unfold of1. cbn [A0 A1]. apply E2_eq; ring.
  - intros F. apply (f_equal (fun x => fval (A0 x))) in F. assert (X : (fval (A0 (of1 (fc 4))) =? fval (A0 zero2)) = false) by (vm_compute; reflexivity). apply Z.eqb_neq in X. apply X. exact F.
Qed.
Lemma e2_div_iff : forall x y z, e2_div x y z <-> y <> zero2 /\ mul2 y z = x.
Proof.
  intros x y z. unfold e2_div, bind, ret. split.
  - intros (r & Hr & ->). apply e2_inverse_iff in Hr. split.
    + intros ->. apply one2_zero2. rewrite <- Hr. ring.
    + rewrite e2_mul_ok. transitivity (mul2 x (mul2 y r)); [ring | rewrite Hr; ring].
  - intros [H0 <-]. destruct (inv2_exists y H0) as [r Hr]. exists r. split; [apply e2_inverse_iff; exact Hr |]. rewrite e2_mul_ok. transitivity (mul2 z (mul2 y r)); [rewrite Hr; ring | ring].
Qed.
Theorem decompress_ok : forall x y r, Cyc x -> agree x y -> (e12_decompress_karabina y r <-> B0 (C1 x) <> zero2 /\ r = x).
Proof.
  intros x y r H (E1 & E2 & E3 & E4). unfold e12_decompress_karabina. cbv zeta. rewrite <- E1, <- E2, <- E3, <- E4. clear E1 E2 E3 E4 y.
  revert H. rewrite (six_eta x). generalize (B0 (C0 x)) (B0 (C1 x)) (B1 (C0 x)) (B1 (C1 x)) (B2 (C0 x)) (B2 (C1 x)). clear x. intros g0 g1 g2 g3 g4 g5 H.
  pose proof (cyc_eqs _ _ _ _ _ _ H) as (H0 & _ & _ & _ & H4 & _). pose proof (cyc_norms _ _ _ _ _ _ H) as (N0 & N4). clear H. unfold six. cbn [B0 B1 B2 C0 C1]. unfold bind, ret.
  assert (K : forall a, mul2 (e2_double (e2_double g1)) a = e2_add (e2_mul_by_non_residue (e2_square g5)) (e2_add (e2_double (e2_sub (e2_square g2) g4)) (e2_square g2)) <-> mul2 (e2_double (e2_double g1)) (sub2 a g3) = zero2).
  { intros a. r2. split; intros E.
    - apply (lin22 _ _ (add2 one2 one2) _ _ one2 _ _ H4 N4).
      match type of E with ?L = ?R => transitivity (add2 (sub2 L R) (sub2 R (mul2 (add2 (add2 g1 g1) (add2 g1 g1)) g3))); [ring | rewrite E; ring] end.
    - apply (lin22 _ _ (opp2 (add2 one2 one2)) _ _ (opp2 one2) _ _ H4 N4).
      match type of E with ?L = _ => transitivity (add2 L (sub2 (mul2 (add2 (add2 g1 g1) (add2 g1 g1)) g3) (add2 (mul2 xi (mul2 g5 g5)) (add2 (add2 (sub2 (mul2 g2 g2) g4) (sub2 (mul2 g2 g2) g4)) (mul2 g2 g2))))); [ring | rewrite E; ring] end. }
  assert (G : e2_add (e2_mul_by_non_residue (e2_add (e2_sub (e2_double (e2_sub (e2_square g3) (e2_mul g4 g2))) (e2_mul g4 g2)) (e2_mul g1 g5))) e2_one = g0).
  { r2. apply (lin22 _ _ (opp2 one2) _ _ one2 _ _ N0 H0). ring. }
  split.
  - intros (a & Ha & ->). apply e2_div_iff in Ha. destruct Ha as [Hn Ha]. apply K in Ha.
    assert (Ea : a = g3).
    { assert (Z : sub2 a g3 = zero2) by (apply (dom2 (e2_double (e2_double g1))); [exact Ha | exact Hn]). transitivity (add2 (sub2 a g3) g3); [ring | rewrite Z; ring]. }
    subst a. split.
    + intros ->. apply Hn. r2. ring.
    + rewrite G. reflexivity.
  - intros [Hn ->]. exists g3. split; [| rewrite G; reflexivity]. apply e2_div_iff. split; [r2; apply four_ne0; exact Hn |]. apply K. ring.
Qed.
