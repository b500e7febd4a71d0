(** * H2GComp.v — EncodeToG2OnJac, HashToG2OnJac, EncodeToG2, HashToG2 composed of their parts *)
From Coq Require Import ZArith NArith Znumtheory List Bool Arith Lia Ring.
From Verif Require Import FieldZ RlpEnc PrimeBls TowerModel TowerSpec TowerRing TowerFrob TowerField TowerPow TowerCyc PairingModel PairingSpec MillerProofs G2Model H2CModel H2CSpec WSpec G2Spec G2Group CmpProofs JacProofs PsiProofs ScalarProofs SswuSpec SswuProofs IsoProofs SswuMap H2GProofs H2GMono H2FProofs Props_H2F.
Import ListNotations.
Open Scope Z_scope.
Local Opaque gadd gneg gmul on_g2 gpsi iso_map mapg sswu_x1 sswu_x2 sswu_t map_element_to_curve2 g2_isogeny clear_cofactor_spec hash_to_field hash_to_field_spec clear_cofactor g2_clear_cofactor get_g2_jac get_g2_affine g2_jacobian_add_assign g2_add_assign.

Definition u0_1 (msg : list Z) : E2 := nth 0 (hash_to_field_spec msg 1) zero2.
Definition u0_2 (msg : list Z) : E2 := nth 0 (hash_to_field_spec msg 2) zero2.
Definition u1_2 (msg : list Z) : E2 := nth 1 (hash_to_field_spec msg 2) zero2.

Section P.
Context (p : Z) (Hp : 2 ^ 70 < p) (msg : list Z) (L : length msg = 32%nat) (F : forall b, In b msg -> 0 <= b < p).
Definition bytes_msg : Prop := forall b, In b msg -> 0 <= b < 256.

Lemma enc_jac_iff rep r : encode_to_g2_on_jac rep p msg r <->
  bytes_msg /\ exists Q, map_iso rep (u0_1 msg) Q /\ exists j, get_g2_jac rep Q j /\ exists k, clear_cofactor rep j k /\ get_g2_affine rep k r.
Proof.
  unfold encode_to_g2_on_jac, bind, map_iso. split.
  - intros [e2 [H [xy [M [Q [I [j [J [k [K R]]]]]]]]]]. apply (C52_hash_to_field p msg 1 e2 Hp L F) in H; [|lia]. destruct H as [B ->]. split; [exact B|].
    exists Q. split; [exists xy; split; [exact M|exact I]|]. exists j. split; [exact J|]. exists k. split; [exact K|exact R].
  - intros [B [Q [[xy [M I]] [j [J [k [K R]]]]]]]. exists (hash_to_field_spec msg 1). split; [apply (C52_hash_to_field p msg 1 _ Hp L F); [lia|]; split; [exact B|reflexivity]|].
    exists xy. split; [exact M|]. exists Q. split; [exact I|]. exists j. split; [exact J|]. exists k. split; [exact K|exact R].
Qed.
Lemma hash_jac_iff rep r : hash_to_g2_on_jac rep p msg r <->
  bytes_msg /\ exists Q0 Q1, map_iso rep (u0_2 msg) Q0 /\ map_iso rep (u1_2 msg) Q1 /\
  exists j0, get_g2_jac rep Q0 j0 /\ exists j1, get_g2_jac rep Q1 j1 /\ exists s, g2_jacobian_add_assign rep j0 j1 s /\ exists k, clear_cofactor rep s k /\ get_g2_affine rep k r.
Proof.
  unfold hash_to_g2_on_jac, bind, map_iso. split.
  - intros [e2 [H [q0 [M0 [q1 [M1 [Q0 [I0 [Q1 [I1 T]]]]]]]]]]. apply (C52_hash_to_field p msg 2 e2 Hp L F) in H; [|lia]. destruct H as [B ->]. split; [exact B|].
    exists Q0, Q1. split; [exists q0; split; [exact M0|exact I0]|]. split; [exists q1; split; [exact M1|exact I1]|]. exact T.
  - intros [B [Q0 [Q1 [[q0 [M0 I0]] [[q1 [M1 I1]] T]]]]]. exists (hash_to_field_spec msg 2). split; [apply (C52_hash_to_field p msg 2 _ Hp L F); [lia|]; split; [exact B|reflexivity]|].
    exists q0. split; [exact M0|]. exists q1. split; [exact M1|]. exists Q0. split; [exact I0|]. exists Q1. split; [exact I1|exact T].
Qed.
Theorem enc_jac_rfc r : regular (u0_1 msg) -> (encode_to_g2_on_jac fp_canon p msg r <-> bytes_msg /\ sswu_t (u0_1 msg) <> zero2 /\ encode_to_curve msg (aff r)).
Proof.
  intros R. pose proof (enc_jac_iff fp_canon r) as I. split.
  - intros H. destruct (proj1 I H) as [B [Q [M T]]]. split; [exact B|]. pose proof (map_iso_on _ _ M) as O. apply (proj1 (map_iso_rfc _ Q R)) in M. destruct M as [N M]. split; [exact N|].
    exists (aff Q). split; [exact M|]. exact (proj1 (tail_jac Q r O) T).
  - intros [B [N [P [M E]]]]. destruct (map_to_curve_on _ _ M) as [Q [EQ O]]. subst P. apply (proj2 I). split; [exact B|]. exists Q. split; [apply (map_iso_rfc _ Q R); split; assumption|]. exact (proj2 (tail_jac Q r O) E).
Qed.
Theorem hash_jac_rfc r : regular (u0_2 msg) -> regular (u1_2 msg) ->
  (hash_to_g2_on_jac fp_canon p msg r <-> bytes_msg /\ sswu_t (u0_2 msg) <> zero2 /\ sswu_t (u1_2 msg) <> zero2 /\ hash_to_curve msg (aff r)).
Proof.
  intros R0 R1. pose proof (hash_jac_iff fp_canon r) as I. split.
  - intros H. destruct (proj1 I H) as [B [Q0 [Q1 [M0 [M1 T]]]]]. split; [exact B|]. pose proof (map_iso_on _ _ M0) as O0. pose proof (map_iso_on _ _ M1) as O1.
    apply (proj1 (map_iso_rfc _ Q0 R0)) in M0. destruct M0 as [N0 M0]. apply (proj1 (map_iso_rfc _ Q1 R1)) in M1. destruct M1 as [N1 M1]. split; [exact N0|]. split; [exact N1|].
    exists (aff Q0), (aff Q1). split; [exact M0|]. split; [exact M1|]. exact (proj1 (tail_jac2 Q0 Q1 r O0 O1) T).
  - intros [B [N0 [N1 [P0 [P1 [M0 [M1 E]]]]]]]. destruct (map_to_curve_on _ _ M0) as [Q0 [EQ0 O0]]. destruct (map_to_curve_on _ _ M1) as [Q1 [EQ1 O1]]. subst P0 P1. apply (proj2 I). split; [exact B|].
    exists Q0, Q1. split; [apply (map_iso_rfc _ Q0 R0); split; assumption|]. split; [apply (map_iso_rfc _ Q1 R1); split; assumption|]. exact (proj2 (tail_jac2 Q0 Q1 r O0 O1) E).
Qed.
(** the affine versions: soundness *)
Theorem enc_aff_rfc r : regular (u0_1 msg) -> encode_to_g2 fp_canon p msg r -> bytes_msg /\ sswu_t (u0_1 msg) <> zero2 /\ encode_to_curve msg (aff r).
Proof.
  intros R [e2 [H [xy [M [Q [I T]]]]]]. apply (C52_hash_to_field p msg 1 e2 Hp L F) in H; [|lia]. destruct H as [B ->]. split; [exact B|].
  assert (MI : map_iso fp_canon (u0_1 msg) Q) by (exists xy; split; [exact M|exact I]). pose proof (map_iso_on _ _ MI) as O. apply (proj1 (map_iso_rfc _ Q R)) in MI. destruct MI as [N MI]. split; [exact N|].
  exists (aff Q). split; [exact MI|]. exact (aclear_canon Q r O T).
Qed.
Theorem hash_aff_rfc r : regular (u0_2 msg) -> regular (u1_2 msg) -> hash_to_g2 fp_canon p msg r ->
  bytes_msg /\ sswu_t (u0_2 msg) <> zero2 /\ sswu_t (u1_2 msg) <> zero2 /\ hash_to_curve msg (aff r).
Proof.
  intros R0 R1 [e2 [H [q0 [M0 [q1 [M1 [Q0 [I0 [Q1 [I1 [s [S T]]]]]]]]]]]]. apply (C52_hash_to_field p msg 2 e2 Hp L F) in H; [|lia]. destruct H as [B ->]. split; [exact B|].
  assert (MI0 : map_iso fp_canon (u0_2 msg) Q0) by (exists q0; split; [exact M0|exact I0]). assert (MI1 : map_iso fp_canon (u1_2 msg) Q1) by (exists q1; split; [exact M1|exact I1]).
  pose proof (map_iso_on _ _ MI0) as O0. pose proof (map_iso_on _ _ MI1) as O1.
  apply (proj1 (map_iso_rfc _ Q0 R0)) in MI0. destruct MI0 as [N0 MI0]. apply (proj1 (map_iso_rfc _ Q1 R1)) in MI1. destruct MI1 as [N1 MI1]. split; [exact N0|]. split; [exact N1|].
  apply (aadd_iff Q0 Q1 s O0 O1) in S. destruct S as [_ S]. pose proof (gadd_on _ _ O0 O1) as OS. rewrite <- S in OS. pose proof (aclear_canon s r OS T) as E. rewrite S in E.
  exists (aff Q0), (aff Q1). split; [exact MI0|]. split; [exact MI1|exact E].
Qed.
(** the dishonest prover *)
Lemma map_iso_flip u Q : fval (A0 u) < 2 ^ 381 - pBls -> map_iso fp_canon u Q -> map_iso fp_rep u (g2_neg Q).
Proof.
  intros S [[x y] [M I]]. cbn [fst snd] in I. exists (x, opp2 y). split; [exact (map_flip u x y S M)|]. cbn [fst snd]. destruct (map_canon u x y M) as [_ [_ [E _]]].
  assert (E' : mul2 (opp2 y) (opp2 y) = mapg x) by (rewrite <- E; ring). destruct (iso_some x (opp2 y) E') as [Q' [EQ [_ I']]]. pose proof (iso_neg x y) as N. rewrite N in EQ. rewrite <- (iso_fun x y Q I) in EQ. rewrite <- (aneg Q) in EQ. apply aff_inj in EQ. rewrite EQ. exact I'.
Qed.
Lemma map_iso_mono u Q : map_iso fp_canon u Q -> map_iso fp_rep u Q.
Proof. intros [[x y] [M I]]. exists (x, y). split; [exact (mono_map _ fp_rep_ok u x y M)|exact I]. Qed.
Lemma tail_mono Q r : (exists j, get_g2_jac fp_canon Q j /\ exists k, clear_cofactor fp_canon j k /\ get_g2_affine fp_canon k r) ->
  exists j, get_g2_jac fp_rep Q j /\ exists k, clear_cofactor fp_rep j k /\ get_g2_affine fp_rep k r.
Proof.
  intros [j [J [k [K R]]]]. exists j. split; [exact (mono_get_jac _ fp_rep_ok _ _ J)|]. exists k. split; [exact (mono_clear _ fp_rep_ok _ _ K)|exact (mono_get_affine _ fp_rep_ok _ _ R)].
Qed.
Theorem enc_flip r : fval (A0 (u0_1 msg)) < 2 ^ 381 - pBls -> encode_to_g2_on_jac fp_canon p msg r ->
  encode_to_g2_on_jac fp_rep p msg r /\ encode_to_g2_on_jac fp_rep p msg (g2_neg r).
Proof.
  intros S H. destruct (proj1 (enc_jac_iff fp_canon r) H) as [B [Q [M T]]]. pose proof (map_iso_on _ _ M) as O. split; apply (enc_jac_iff fp_rep); (split; [exact B|]).
  - exists Q. split; [exact (map_iso_mono _ _ M)|exact (tail_mono Q r T)].
  - exists (g2_neg Q). split; [exact (map_iso_flip _ Q S M)|]. apply tail_mono. pose proof (gneg_on _ O) as ON. rewrite <- (aneg Q) in ON. apply (proj2 (tail_jac (g2_neg Q) (g2_neg r) ON)).
    pose proof (proj1 (tail_jac Q r O) T) as E. pose proof (clear_neg (aff Q) O) as C. rewrite (aneg Q), C, (aneg r), E. reflexivity.
Qed.
Theorem hash_flip r : fval (A0 (u0_2 msg)) < 2 ^ 381 - pBls -> fval (A0 (u1_2 msg)) < 2 ^ 381 - pBls -> hash_to_g2_on_jac fp_canon p msg r ->
  hash_to_g2_on_jac fp_rep p msg r /\ hash_to_g2_on_jac fp_rep p msg (g2_neg r).
Proof.
  intros S0 S1 H. destruct (proj1 (hash_jac_iff fp_canon r) H) as [B [Q0 [Q1 [M0 [M1 T]]]]]. pose proof (map_iso_on _ _ M0) as O0. pose proof (map_iso_on _ _ M1) as O1.
  assert (TM : forall Q0 Q1 r, (exists j0, get_g2_jac fp_canon Q0 j0 /\ exists j1, get_g2_jac fp_canon Q1 j1 /\ exists s, g2_jacobian_add_assign fp_canon j0 j1 s /\ exists k, clear_cofactor fp_canon s k /\ get_g2_affine fp_canon k r) ->
    exists j0, get_g2_jac fp_rep Q0 j0 /\ exists j1, get_g2_jac fp_rep Q1 j1 /\ exists s, g2_jacobian_add_assign fp_rep j0 j1 s /\ exists k, clear_cofactor fp_rep s k /\ get_g2_affine fp_rep k r).
  { clear. intros Q0 Q1 r [j0 [J0 [j1 [J1 [s [S [k [K R]]]]]]]]. exists j0. split; [exact (mono_get_jac _ fp_rep_ok _ _ J0)|]. exists j1. split; [exact (mono_get_jac _ fp_rep_ok _ _ J1)|].
    exists s. split; [exact (mono_add _ fp_rep_ok _ _ _ S)|]. exists k. split; [exact (mono_clear _ fp_rep_ok _ _ K)|exact (mono_get_affine _ fp_rep_ok _ _ R)]. }
  split; apply (hash_jac_iff fp_rep); (split; [exact B|]).
  - exists Q0, Q1. split; [exact (map_iso_mono _ _ M0)|]. split; [exact (map_iso_mono _ _ M1)|exact (TM _ _ _ T)].
  - exists (g2_neg Q0), (g2_neg Q1). split; [exact (map_iso_flip _ Q0 S0 M0)|]. split; [exact (map_iso_flip _ Q1 S1 M1)|]. apply TM. pose proof (gneg_on _ O0) as ON0. rewrite <- (aneg Q0) in ON0. pose proof (gneg_on _ O1) as ON1. rewrite <- (aneg Q1) in ON1.
    apply (proj2 (tail_jac2 (g2_neg Q0) (g2_neg Q1) (g2_neg r) ON0 ON1)). pose proof (proj1 (tail_jac2 Q0 Q1 r O0 O1) T) as E. pose proof (gadd_on _ _ O0 O1) as OS. pose proof (clear_neg _ OS) as C. pose proof (gneg_add _ _ O0 O1) as N.
    rewrite (aneg Q0), (aneg Q1), <- N, C, (aneg r), E. reflexivity.
Qed.
End P.
