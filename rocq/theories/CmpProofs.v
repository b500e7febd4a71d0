(** * CmpProofs.v — what the bitwise comparisons of emulated elements establish *)
From Coq Require Import ZArith List Bool Arith Lia.
From Verif Require Import FieldZ PrimeBls TowerModel TowerRing TowerFrob TowerField PairingModel G2Model H2CModel H2CSpec.
Import ListNotations.
Open Scope Z_scope.

(** the two admissible readings of representatives *)
Definition rep_ok (rep : Fp -> rel Z) : Prop := (forall x r, rep x r -> 0 <= r < 2 ^ 381 /\ fc r = x) /\ (forall x, rep x (fval x)).
Lemma pBls_range : 0 < pBls < 2 ^ 381. Proof. split; reflexivity. Qed.
Lemma fval_fc_id x : fc (fval x) = x. Proof. apply ofZ_fval. Qed.
Lemma fval_small (x : Fp) : 0 <= fval x < 2 ^ 381.
Proof. pose proof (fval_range pBls x (proj1 pBls_range)) as H. pose proof pBls_range. lia. Qed.
Lemma fp_rep_ok : rep_ok fp_rep.
Proof. split; [intros x r H; exact H|]. intros x. split; [apply fval_small|apply fval_fc_id]. Qed.
Lemma fp_canon_ok : rep_ok fp_canon.
Proof. split; [intros x r H|reflexivity]. unfold fp_canon in H. subst r. split; [apply fval_small|apply fval_fc_id]. Qed.

Lemma bits384_zero r : 0 <= r < 2 ^ 381 -> fold_left (fun a b => orb a b) (bits384 r) false = negb (r =? 0).
Proof.
  intros H. assert (G : forall l a, fold_left (fun a b => orb a b) l a = orb a (existsb (fun b => b) l)).
  { induction l as [|x l IH]; intros a; cbn [fold_left existsb]; [symmetry; apply orb_false_r|]. rewrite IH. symmetry. apply orb_assoc. }
  rewrite G. cbn [orb]. destruct (Z.eqb_spec r 0) as [->|N].
  - apply not_true_is_false. intros E. apply existsb_exists in E. destruct E as [b [Hb ->]]. unfold bits384 in Hb. apply in_map_iff in Hb.
    destruct Hb as [i [Hi _]]. rewrite Z.bits_0 in Hi. discriminate.
  - apply existsb_exists. exists true. split; [|reflexivity]. unfold bits384. apply in_map_iff. exists (Z.to_nat (Z.log2 r)).
    assert (L : 0 <= Z.log2 r < 381) by (split; [apply Z.log2_nonneg|apply Z.log2_lt_pow2; lia]). split.
    + rewrite Z2Nat.id by lia. apply Z.bit_log2. lia.
    + apply in_seq. lia.
Qed.
Lemma bits384_nth r i : (i < 384)%nat -> nth i (bits384 r) false = Z.testbit r (Z.of_nat i).
Proof. intros H. unfold bits384. rewrite (nth_indep _ false (Z.testbit r (Z.of_nat 0))) by (rewrite map_length, seq_length; exact H).
  rewrite (map_nth (fun i => Z.testbit r (Z.of_nat i))). rewrite seq_nth by exact H. reflexivity. Qed.
Lemma bits384_length r : length (bits384 r) = 384%nat. Proof. unfold bits384. rewrite map_length, seq_length. reflexivity. Qed.
Lemma bits_not_equal_spec r s : 0 <= r < 2 ^ 381 -> 0 <= s < 2 ^ 381 -> bits_not_equal (bits384 r) (bits384 s) = negb (r =? s).
Proof.
  intros Hr Hs. unfold bits_not_equal. rewrite bits384_length.
  set (f := fun i => xorb (nth i (bits384 r) false) (nth i (bits384 s) false)).
  assert (G : forall l a, fold_left (fun a i => orb a (f i)) l a = orb a (existsb f l)).
  { induction l as [|x l IH]; intros a; cbn [fold_left existsb]; [symmetry; apply orb_false_r|]. rewrite IH. symmetry. apply orb_assoc. }
  change (fold_left (fun a i => orb a (f i)) (seq 0 384) false = negb (r =? s)). rewrite G. rewrite orb_false_l. destruct (Z.eqb_spec r s) as [->|N]; cbn [negb].
  - apply not_true_is_false. intros E. apply existsb_exists in E. destruct E as [i [_ Hb]]. unfold f in Hb. rewrite xorb_nilpotent in Hb. discriminate.
  - destruct (existsb f (seq 0 384)) eqn:E; [reflexivity|]. exfalso. apply N. apply Z.bits_inj'. intros n Hn.
    destruct (Z_lt_dec n 384) as [L|L].
    + assert (I : In (Z.to_nat n) (seq 0 384)) by (apply in_seq; lia).
      assert (F : f (Z.to_nat n) = false).
      { destruct (f (Z.to_nat n)) eqn:F; [|reflexivity]. assert (T : existsb f (seq 0 384) = true) by (apply existsb_exists; eauto). congruence. }
      unfold f in F. rewrite !bits384_nth in F by lia. rewrite Z2Nat.id in F by lia. apply xorb_eq. exact F.
    + assert (B : forall z, 0 <= z < 2 ^ 381 -> Z.testbit z n = false).
      { intros z Hz. destruct (Z.eq_dec z 0) as [->|Z0]; [apply Z.bits_0|]. apply Z.bits_above_log2; [lia|].
        assert (Z.log2 z < 381) by (apply Z.log2_lt_pow2; lia). lia. }
      rewrite (B r Hr), (B s Hs). reflexivity.
Qed.

Section Rep.
Variable rep : Fp -> rel Z.
Hypothesis Hrep : rep_ok rep.

Lemma g1_nz x b : g1_not_zero rep x b <-> exists r, rep x r /\ b = negb (r =? 0).
Proof.
  unfold g1_not_zero, bind, ret. split; intros [r [H E]]; exists r; (split; [exact H|]); destruct (proj1 Hrep x r H) as [R _].
  - rewrite E. apply bits384_zero. exact R.
  - rewrite E. symmetry. apply bits384_zero. exact R.
Qed.
Lemma g1_ne x y b : g1_not_equal rep x y b <-> exists r s, rep x r /\ rep y s /\ b = negb (r =? s).
Proof.
  unfold g1_not_equal, bind, ret. split.
  - intros [r [H [s [K E]]]]. exists r, s. split; [exact H|split; [exact K|]]. destruct (proj1 Hrep x r H) as [R _]. destruct (proj1 Hrep y s K) as [S _].
    rewrite E. apply bits_not_equal_spec; assumption.
  - intros [r [s [H [K E]]]]. exists r. split; [exact H|]. exists s. split; [exact K|]. destruct (proj1 Hrep x r H) as [R _]. destruct (proj1 Hrep y s K) as [S _].
    rewrite E. symmetry. apply bits_not_equal_spec; assumption.
Qed.
Lemma g1_ne1 x b : g1_not_equal_one rep x b <-> exists r, rep x r /\ b = negb (r =? 1).
Proof.
  unfold g1_not_equal_one, bind, ret. split; intros [r [H E]]; exists r; (split; [exact H|]); destruct (proj1 Hrep x r H) as [R _].
  - rewrite E. apply bits_not_equal_spec; [exact R|lia].
  - rewrite E. symmetry. apply bits_not_equal_spec; [exact R|lia].
Qed.

Lemma fc0_fval x : x = fc 0 <-> fval x = 0.
Proof. split; [intros ->; reflexivity|]. intros E. rewrite <- (fval_fc_id x), E. reflexivity. Qed.
(** *** false is reliable *)
Lemma g1_nz_false x : g1_not_zero rep x false <-> x = fc 0.
Proof.
  rewrite g1_nz. split.
  - intros [r [H E]]. destruct (Z.eqb_spec r 0) as [->|]; [|discriminate]. destruct (proj1 Hrep _ _ H) as [_ <-]. reflexivity.
  - intros ->. exists 0. split; [|reflexivity]. exact (proj2 Hrep (fc 0)).
Qed.
Lemma g1_ne_false x y : g1_not_equal rep x y false <-> x = y.
Proof.
  rewrite g1_ne. split.
  - intros [r [s [H [K E]]]]. destruct (Z.eqb_spec r s) as [->|]; [|discriminate]. destruct (proj1 Hrep _ _ H) as [_ <-]. destruct (proj1 Hrep _ _ K) as [_ <-]. reflexivity.
  - intros ->. exists (fval y), (fval y). split; [apply Hrep|split; [apply Hrep|]]. rewrite Z.eqb_refl. reflexivity.
Qed.
Lemma g1_ne1_false x : g1_not_equal_one rep x false <-> x = fc 1.
Proof.
  rewrite g1_ne1. split.
  - intros [r [H E]]. destruct (Z.eqb_spec r 1) as [->|]; [|discriminate]. destruct (proj1 Hrep _ _ H) as [_ <-]. reflexivity.
  - intros ->. exists 1. split; [|reflexivity]. exact (proj2 Hrep (fc 1)).
Qed.
Lemma g1_nz_true_if x : x <> fc 0 -> g1_not_zero rep x true.
Proof. intros N. apply g1_nz. exists (fval x). split; [apply Hrep|]. destruct (Z.eqb_spec (fval x) 0) as [E|]; [|reflexivity]. exfalso. apply N, fc0_fval, E. Qed.
Lemma g1_ne_true_if x y : x <> y -> g1_not_equal rep x y true.
Proof.
  intros N. apply g1_ne. exists (fval x), (fval y). split; [apply Hrep|split; [apply Hrep|]]. destruct (Z.eqb_spec (fval x) (fval y)) as [E|]; [|reflexivity].
  exfalso. apply N, Fq_ext, E.
Qed.
Lemma g1_ne1_true_if x : x <> fc 1 -> g1_not_equal_one rep x true.
Proof. intros N. apply g1_ne1. exists (fval x). split; [apply Hrep|]. destruct (Z.eqb_spec (fval x) 1) as [E|]; [|reflexivity]. exfalso. apply N. rewrite <- (fval_fc_id x), E. reflexivity. Qed.

Lemma e2_split (x y : E2) : x = y <-> A0 x = A0 y /\ A1 x = A1 y.
Proof. destruct x, y; cbn. split; [intros E; injection E as -> ->; auto|intros [-> ->]; reflexivity]. Qed.
Lemma e2_zero_A : A0 e2_zero = fc 0 /\ A1 e2_zero = fc 0. Proof. split; reflexivity. Qed.
Lemma nz_false x : e2_not_zero rep x false <-> x = e2_zero.
Proof.
  unfold e2_not_zero, bind, ret. rewrite e2_split, (proj1 e2_zero_A), (proj2 e2_zero_A). rewrite <- !g1_nz_false. split.
  - intros [a [Ha [b [Hb E]]]]. symmetry in E. apply orb_false_iff in E. destruct E as [-> ->]. auto.
  - intros [Ha Hb]. exists false. split; [exact Ha|]. exists false. auto.
Qed.
Lemma g1_total x : exists b, g1_not_zero rep x b.
Proof. eexists. apply g1_nz. exists (fval x). split; [apply Hrep|reflexivity]. Qed.
Lemma g1_ne_total x y : exists b, g1_not_equal rep x y b.
Proof. eexists. apply g1_ne. exists (fval x), (fval y). split; [apply Hrep|split; [apply Hrep|reflexivity]]. Qed.
Lemma g1_ne1_total x : exists b, g1_not_equal_one rep x b.
Proof. eexists. apply g1_ne1. exists (fval x). split; [apply Hrep|reflexivity]. Qed.
Lemma fc_dec (x y : Fp) : {x = y} + {x <> y}. Proof. apply Fq_dec. Qed.
Lemma nz_true x : x <> e2_zero -> e2_not_zero rep x true.
Proof.
  intros N. unfold e2_not_zero, bind, ret. destruct (fc_dec (A0 x) (fc 0)) as [E0|E0].
  - destruct (fc_dec (A1 x) (fc 0)) as [E1|E1]; [exfalso; apply N, e2_split; auto|].
    destruct (g1_total (A0 x)) as [a Ha]. exists a. split; [exact Ha|]. exists true. split; [apply g1_nz_true_if, E1|symmetry; apply orb_true_r].
  - exists true. split; [apply g1_nz_true_if, E0|]. destruct (g1_total (A1 x)) as [a Ha]. exists a. split; [exact Ha|reflexivity].
Qed.
Lemma ne_false x y : e2_not_equal rep x y false <-> x = y.
Proof.
  unfold e2_not_equal, bind, ret. rewrite (e2_split x y). rewrite <- !g1_ne_false. split.
  - intros [a [Ha [b [Hb E]]]]. symmetry in E. apply orb_false_iff in E. destruct E as [-> ->]. auto.
  - intros [Ha Hb]. exists false. split; [exact Ha|]. exists false. auto.
Qed.
Lemma ne_true x y : x <> y -> e2_not_equal rep x y true.
Proof.
  intros N. unfold e2_not_equal, bind, ret. destruct (fc_dec (A0 x) (A0 y)) as [E0|E0].
  - destruct (fc_dec (A1 x) (A1 y)) as [E1|E1]; [exfalso; apply N, e2_split; auto|].
    destruct (g1_ne_total (A0 x) (A0 y)) as [a Ha]. exists a. split; [exact Ha|]. exists true. split; [apply g1_ne_true_if, E1|symmetry; apply orb_true_r].
  - exists true. split; [apply g1_ne_true_if, E0|]. destruct (g1_ne_total (A1 x) (A1 y)) as [a Ha]. exists a. split; [exact Ha|reflexivity].
Qed.
Lemma n1_false x : e2_not_one rep x false <-> x = e2_one.
Proof.
  unfold e2_not_one, bind, ret. rewrite (e2_split x e2_one). change (A0 e2_one) with (fc 1). change (A1 e2_one) with (fc 0). rewrite <- g1_ne1_false, <- g1_nz_false. split.
  - intros [a [Ha [b [Hb E]]]]. symmetry in E. apply orb_false_iff in E. destruct E as [-> ->]. auto.
  - intros [Ha Hb]. exists false. split; [exact Ha|]. exists false. auto.
Qed.
Lemma n1_true x : x <> e2_one -> e2_not_one rep x true.
Proof.
  intros N. unfold e2_not_one, bind, ret. destruct (fc_dec (A0 x) (fc 1)) as [E0|E0].
  - destruct (fc_dec (A1 x) (fc 0)) as [E1|E1]; [exfalso; apply N, e2_split; auto|].
    destruct (g1_ne1_total (A0 x)) as [a Ha]. exists a. split; [exact Ha|]. exists true. split; [apply g1_nz_true_if, E1|symmetry; apply orb_true_r].
  - exists true. split; [apply g1_ne1_true_if, E0|]. destruct (g1_total (A1 x)) as [a Ha]. exists a. split; [exact Ha|reflexivity].
Qed.
End Rep.

(** *** the honest prover: exact *)
Lemma g1_nz_canon x : g1_not_zero fp_canon x true <-> x <> fc 0.
Proof.
  split; [|apply g1_nz_true_if, fp_canon_ok]. intros H E. apply (g1_nz _ fp_canon_ok) in H. destruct H as [r [-> E']]. apply fc0_fval in E. rewrite E in E'. discriminate.
Qed.
Lemma nz_canon x : e2_not_zero fp_canon x true <-> x <> e2_zero.
Proof.
  split; [|apply nz_true, fp_canon_ok]. intros H ->. unfold e2_not_zero, bind, ret in H. destruct H as [a [Ha [b [Hb E]]]].
  symmetry in E. apply orb_true_iff in E. destruct E as [->| ->]; [apply (g1_nz_canon (A0 e2_zero)) in Ha; apply Ha|apply (g1_nz_canon (A1 e2_zero)) in Hb; apply Hb]; reflexivity.
Qed.
Lemma ne_canon x y : e2_not_equal fp_canon x y true <-> x <> y.
Proof.
  split; [|apply ne_true, fp_canon_ok]. intros H ->. unfold e2_not_equal, bind, ret in H. destruct H as [a [Ha [b [Hb E]]]].
  apply (g1_ne _ fp_canon_ok) in Ha. destruct Ha as [r [s [-> [-> ->]]]]. apply (g1_ne _ fp_canon_ok) in Hb. destruct Hb as [r [s [-> [-> ->]]]].
  rewrite !Z.eqb_refl in E. discriminate.
Qed.
Lemma n1_canon x : e2_not_one fp_canon x true <-> x <> e2_one.
Proof.
  split; [|apply n1_true, fp_canon_ok]. intros H ->. unfold e2_not_one, bind, ret in H. destruct H as [a [Ha [b [Hb E]]]].
  apply (g1_ne1 _ fp_canon_ok) in Ha. destruct Ha as [r [-> ->]]. apply (g1_nz _ fp_canon_ok) in Hb. destruct Hb as [r [-> ->]]. discriminate.
Qed.
(** *** any prover: true is always available for zero and one *)
Lemma fc_p_add z : fc (pBls + z) = fc z.
Proof. apply ofZ_eq. rewrite <- (Z.mul_1_l pBls) at 1. rewrite Z.add_comm, Z.mod_add by (pose proof pBls_range; lia). reflexivity. Qed.
Lemma g1_nz_any x : g1_not_zero fp_rep x true.
Proof.
  destruct (fc_dec x (fc 0)) as [->|N]; [|apply g1_nz_true_if; [apply fp_rep_ok|exact N]].
  apply (g1_nz _ fp_rep_ok). exists pBls. split; [|reflexivity]. split; [pose proof pBls_range; lia|]. pose proof (fc_p_add 0) as X. rewrite Z.add_0_r in X. exact X.
Qed.
Lemma nz_any x : e2_not_zero fp_rep x true.
Proof. unfold e2_not_zero, bind, ret. exists true. split; [apply g1_nz_any|]. exists true. split; [apply g1_nz_any|reflexivity]. Qed.
Lemma g1_ne1_any x : g1_not_equal_one fp_rep x true.
Proof.
  destruct (fc_dec x (fc 1)) as [->|N]; [|apply g1_ne1_true_if; [apply fp_rep_ok|exact N]].
  apply (g1_ne1 _ fp_rep_ok). exists (pBls + 1). split; [|reflexivity]. split; [split; [discriminate|reflexivity]|]. apply fc_p_add.
Qed.
Lemma n1_any x : e2_not_one fp_rep x true.
Proof. unfold e2_not_one, bind, ret. exists true. split; [apply g1_ne1_any|]. destruct (g1_total _ fp_rep_ok (A1 x)) as [b Hb]. exists b. split; [exact Hb|reflexivity]. Qed.
(** a coordinate has a second representative exactly when it is below 2^381 - p *)
Lemma rep_two (x : Fp) r s : fp_rep x r -> fp_rep x s -> r <> s -> fval x < 2 ^ 381 - pBls.
Proof.
  intros [R1 E1] [R2 E2] N. pose proof pBls_range as P. assert (X : r mod pBls = s mod pBls) by (apply ofZ_eq; unfold fc in *; congruence).
  assert (F : fval x = r mod pBls) by (rewrite <- E1; reflexivity).
  pose proof (Z.div_mod r pBls ltac:(lia)). pose proof (Z.div_mod s pBls ltac:(lia)). pose proof (Z.mod_pos_bound r pBls ltac:(lia)).
  assert (0 <= r / pBls) by (apply Z.div_pos; lia). assert (0 <= s / pBls) by (apply Z.div_pos; lia).
  destruct (Z.eq_dec (r / pBls) 0); [|nia]. destruct (Z.eq_dec (s / pBls) 0); [|nia]. exfalso. nia.
Qed.
Lemma g1_ne_any x y : g1_not_equal fp_rep x y true <-> x <> y \/ fval x < 2 ^ 381 - pBls.
Proof.
  split.
  - intros H. destruct (fc_dec x y) as [->|N]; [right|left; exact N]. apply (g1_ne _ fp_rep_ok) in H. destruct H as [r [s [H [K E]]]].
    apply (rep_two y r s H K). intros ->. rewrite Z.eqb_refl in E. discriminate.
  - intros [N|L]; [apply g1_ne_true_if; [apply fp_rep_ok|exact N]|].
    destruct (fc_dec x y) as [->|N]; [|apply g1_ne_true_if; [apply fp_rep_ok|exact N]]. apply (g1_ne _ fp_rep_ok). exists (fval y), (pBls + fval y).
    pose proof pBls_range as P. pose proof (fval_range pBls y (proj1 P)) as F. split; [apply fp_rep_ok|]. split.
    + split; [lia|]. rewrite fc_p_add. apply fval_fc_id.
    + destruct (Z.eqb_spec (fval y) (pBls + fval y)); [lia|reflexivity].
Qed.
Lemma ne_any x y : e2_not_equal fp_rep x y true <-> x <> y \/ fval (A0 x) < 2 ^ 381 - pBls \/ fval (A1 x) < 2 ^ 381 - pBls.
Proof.
  unfold e2_not_equal, bind, ret. split.
  - intros [a [Ha [b [Hb E]]]]. symmetry in E. apply orb_true_iff in E. destruct E as [->| ->].
    + apply g1_ne_any in Ha. destruct Ha as [N|L]; [left|tauto]. intros ->. auto.
    + apply g1_ne_any in Hb. destruct Hb as [N|L]; [left|tauto]. intros ->. auto.
  - intros [N|[L|L]].
    + apply (ne_true _ fp_rep_ok) in N. exact N.
    + exists true. split; [apply g1_ne_any; auto|]. destruct (g1_ne_total _ fp_rep_ok (A1 x) (A1 y)) as [b Hb]. exists b. auto.
    + destruct (g1_ne_total _ fp_rep_ok (A0 x) (A0 y)) as [b Hb]. exists b. split; [exact Hb|]. exists true. split; [apply g1_ne_any; auto|]. symmetry. apply orb_true_r.
Qed.

(** ** the sign *)
Lemma sgn0_rel rep u b : rep_ok rep -> (g2_sgn0 rep u b <-> exists r, rep (A0 u) r /\ b = Z.odd r).
Proof.
  intros Hrep. unfold g2_sgn0, bind, ret.
  assert (X : forall r r1, 0 <= r < 2 ^ 381 -> ((false || true && nth 0 (bits384 r) false) || true && fold_left (fun _ b => nth 0 (bits384 r) false || b) (bits384 r) false && Z.testbit r1 0)%bool = Z.odd r).
  { intros r r1 R. assert (N0 : nth 0 (bits384 r) false = Z.odd r) by (rewrite bits384_nth by lia; apply Z.bit0_odd). rewrite N0.
    assert (L : forall l d, l <> [] -> fold_left (fun _ b => Z.odd r || b)%bool l d = (Z.odd r || last l false)%bool).
    { induction l as [|x l IH]; intros d NE; [congruence|]. cbn [fold_left]. destruct l as [|y l]; [reflexivity|]. rewrite IH by discriminate. reflexivity. }
    rewrite L by (intros E; apply (f_equal (@length bool)) in E; rewrite bits384_length in E; discriminate).
    assert (T : last (bits384 r) false = false).
    { unfold bits384. change (seq 0 384) with (seq 0 383 ++ [383%nat]). rewrite map_app. cbn [map]. rewrite last_last. change (Z.of_nat 383) with 383.
      destruct (Z.eq_dec r 0) as [->|N]; [apply Z.bits_0|]. apply Z.bits_above_log2; [lia|]. assert (Z.log2 r < 381) by (apply Z.log2_lt_pow2; lia). lia. }
    rewrite T. cbn [orb andb]. rewrite orb_false_r. destruct (Z.odd r); reflexivity. }
  split.
  - intros [r [H [r1 [H1 E]]]]. exists r. split; [exact H|]. rewrite E. destruct (proj1 Hrep _ _ H) as [R _]. exact (X r r1 R).
  - intros [r [H ->]]. exists r. split; [exact H|]. exists (fval (A1 u)). split; [apply Hrep|]. destruct (proj1 Hrep _ _ H) as [R _]. symmetry. exact (X r _ R).
Qed.
