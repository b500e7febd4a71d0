(** * Props_Sgn.v — properties C41 (g2Sgn0) and C53 (E2NotZero, E2NotEqual, E2NotOne) of
    circuits/gadgets/pairing_bls12381/hash2curve.go

    [fp_canon] reads the representatives that gnark's own hints compute (a prover running the unmodified software), [fp_rep] any
    representative of 381 bits the constraints admit (any prover). *)
From Coq Require Import ZArith List Bool Arith Lia.
From Verif Require Import FieldZ PrimeBls TowerModel G2Model H2CModel H2CSpec CmpProofs.
Import ListNotations.
Open Scope Z_scope.

(** ** C53 *)
(** With honest hints each comparison is exact. *)
Theorem C53_honest : forall x y b,
  (e2_not_zero fp_canon x b <-> (b = true <-> x <> e2_zero)) /\
  (e2_not_equal fp_canon x y b <-> (b = true <-> x <> y)) /\
  (e2_not_one fp_canon x b <-> (b = true <-> x <> e2_one)).
Proof.
  assert (D : forall x y : E2, {x = y} + {x <> y}) by (intros; decide equality; apply Fq_dec).
  intros x y b. pose proof fp_canon_ok as O.
  pose proof (nz_canon x). pose proof (nz_false _ O x). pose proof (ne_canon x y). pose proof (ne_false _ O x y). pose proof (n1_canon x). pose proof (n1_false _ O x).
  destruct (D x e2_zero), (D x y), (D x e2_one), b; intuition congruence.
Qed.
(** Whatever the hints, the answer 0 (false) is right: it proves the element zero, the elements equal, the element one; and a
    truthful answer is always available. *)
Theorem C53_false_sound : forall x y,
  (e2_not_zero fp_rep x false <-> x = e2_zero) /\ (e2_not_equal fp_rep x y false <-> x = y) /\ (e2_not_one fp_rep x false <-> x = e2_one).
Proof. intros x y. pose proof fp_rep_ok as O. split; [apply nz_false, O|]. split; [apply ne_false, O|apply n1_false, O]. Qed.
(** Refuted for other hints: the answer 1 ("not zero", "not one") is available for EVERY element, zero and one included. *)
Theorem C53_true_unsound_refuted : forall x, e2_not_zero fp_rep x true /\ e2_not_one fp_rep x true.
Proof. intros x. split; [apply nz_any|apply n1_any]. Qed.
(** ... and "not equal" for equal elements exactly when a coordinate is below 2^381 - p (about 23% of the field). *)
Theorem C53_not_equal_exact : forall x y,
  e2_not_equal fp_rep x y true <-> x <> y \/ fval (A0 x) < 2 ^ 381 - pBls \/ fval (A1 x) < 2 ^ 381 - pBls.
Proof. exact ne_any. Qed.

(** ** C41 *)
(** The exact result: the parity of a representative of the real part; the imaginary part is never used. *)
Theorem C41_sgn0_exact : forall u b,
  (g2_sgn0 fp_canon u b <-> b = Z.odd (fval (A0 u))) /\
  (g2_sgn0 fp_rep u b <-> exists r, 0 <= r < 2 ^ 381 /\ r mod pBls = fval (A0 u) /\ b = Z.odd r).
Proof.
  intros u b. split.
  - rewrite (sgn0_rel _ _ _ fp_canon_ok). split; [intros [r [-> ->]]; reflexivity|intros ->; exists (fval (A0 u)); split; reflexivity].
  - rewrite (sgn0_rel _ _ _ fp_rep_ok). split.
    + intros [r [[R E] ->]]. exists r. split; [exact R|]. split; [rewrite <- E; reflexivity|reflexivity].
    + intros [r [R [E ->]]]. exists r. split; [split; [exact R|]|reflexivity]. rewrite <- (fval_fc_id (A0 u)), <- E. apply ofZ_eq. symmetry. apply Zmod_mod.
Qed.
(** Partial: with honest hints it is RFC 9380's sgn0 for every element whose real part is not zero (and for a zero real part with
    an even imaginary part).  Missing: zero real part with odd imaginary part, and other hints; both are false, see below. *)
Theorem C41_sgn0_rfc_partial : forall u b, A0 u <> fc 0 \/ Z.odd (fval (A1 u)) = false -> (g2_sgn0 fp_canon u b <-> b = sgn0 u).
Proof.
  intros u b H. rewrite (proj1 (C41_sgn0_exact u b)).
  assert (E : sgn0 u = Z.odd (fval (A0 u))); [|rewrite E; tauto]. unfold sgn0.
  destruct (Z.eqb_spec (fval (A0 u)) 0) as [E|N]; cbn [andb]; [|apply orb_false_r].
  destruct H as [H|H]; [exfalso; apply H, fc0_fval, E|]. rewrite H. apply orb_false_r.
Qed.
(** ... and any prover is forced to it when the real part is at least 2^381 - p. *)
Theorem C41_sgn0_forced_partial : forall u b, 2 ^ 381 - pBls <= fval (A0 u) -> (g2_sgn0 fp_rep u b <-> b = sgn0 u).
Proof.
  intros u b H. assert (N : fval (A0 u) <> 0) by (pose proof pBls_range; lia).
  assert (E : sgn0 u = Z.odd (fval (A0 u))). { unfold sgn0. destruct (Z.eqb_spec (fval (A0 u)) 0); [lia|]. apply orb_false_r. }
  rewrite E, (sgn0_rel _ _ _ fp_rep_ok). split.
  - intros [r [R ->]]. f_equal. destruct (Z.eq_dec r (fval (A0 u))) as [|D]; [assumption|]. pose proof (rep_two _ _ _ R (proj2 fp_rep_ok (A0 u)) D). lia.
  - intros ->. exists (fval (A0 u)). split; [apply fp_rep_ok|reflexivity].
Qed.
(** Refuted: honest result 0 for the element I, whose sign is 1. *)
Theorem C41_sgn0_zero_real_refuted : sgn0 (cx 0 1) = true /\ g2_sgn0 fp_canon (cx 0 1) false /\ ~ g2_sgn0 fp_canon (cx 0 1) true.
Proof.
  split; [reflexivity|]. split; [apply C41_sgn0_exact; reflexivity|]. intros H. apply (proj1 (C41_sgn0_exact _ _)) in H. revert H. vm_compute. discriminate.
Qed.
(** Refuted: for every element with real part below 2^381 - p a prover can have either sign. *)
Theorem C41_sgn0_ambiguous_refuted : forall u b, fval (A0 u) < 2 ^ 381 - pBls -> g2_sgn0 fp_rep u b.
Proof.
  intros u b H. apply (sgn0_rel _ _ _ fp_rep_ok). pose proof pBls_range as P. pose proof (fval_range pBls (A0 u) (proj1 P)) as F.
  destruct (Bool.bool_dec b (Z.odd (fval (A0 u)))) as [->|N].
  - exists (fval (A0 u)). split; [apply fp_rep_ok|reflexivity].
  - exists (pBls + fval (A0 u)). split; [split; [lia|rewrite fc_p_add; apply fval_fc_id]|]. rewrite Z.odd_add. change (Z.odd pBls) with true.
    rewrite xorb_true_l. destruct b, (Z.odd (fval (A0 u))); auto; exfalso; auto.
Qed.
(** The hypotheses of the three theorems above are met. *)
Example C41_example : A0 (cx 1 0) <> fc 0 /\ 2 ^ 381 - pBls <= fval (A0 (cx (-1) 0)) /\ fval (A0 (cx 1 0)) < 2 ^ 381 - pBls.
Proof. split; [intros H; apply fc0_fval in H; revert H; vm_compute; discriminate|]. split; [apply Z.leb_le|apply Z.ltb_lt]; vm_compute; reflexivity. Qed.
