(** * SswuEx.v — concrete inputs of MapElementToCurve2, computed with Gaussian integers *)
From Coq Require Import ZArith NArith Znumtheory List Bool Arith Lia Ring.
From Verif Require Import FieldZ RlpEnc PrimeBls TowerModel TowerSpec TowerRing TowerFrob TowerField TowerPow TowerCyc PairingModel PairingSpec MillerProofs G2Model H2CModel H2CSpec WSpec G2Spec G2Group CmpProofs JacProofs PsiProofs ScalarProofs SswuSpec SswuProofs IsoProofs SswuMap H2GProofs H2GMono.
Import ListNotations.
Open Scope Z_scope.
Local Infix "*!" := mul2 (at level 40, left associativity).
Local Infix "+!" := add2 (at level 50, left associativity).
Local Infix "-!" := sub2 (at level 50, left associativity).
Local Opaque gadd gneg gmul on_g2 gpsi.

Definition em (g : Z * Z) : E2 := cx (fst g) (snd g).
Definition zm (a b : Z * Z) : Z * Z := (fst a * fst b - snd a * snd b, fst a * snd b + snd a * fst b).
Definition za (a b : Z * Z) : Z * Z := (fst a + fst b, snd a + snd b).
Definition zo (a : Z * Z) : Z * Z := (- fst a, - snd a).
Definition zc (a : Z * Z) : Z * Z := (fst a, - snd a).
Lemma em_mul a b : em a *! em b = em (zm a b). Proof. apply cx_mul. Qed.
Lemma em_add a b : em a +! em b = em (za a b).
Proof. unfold em, za, cx. cbn [fst snd]. rewrite add2_def. cbn [A0 A1]. apply E2_eq; unfold fc; apply ofZ_add. Qed.
Lemma em_opp a : opp2 (em a) = em (zo a).
Proof. unfold em, zo, cx. cbn [fst snd]. rewrite opp2_def. cbn [A0 A1]. apply E2_eq; unfold fc; apply ofZ_opp. Qed.
Lemma em_one : one2 = em (1, 0). Proof. symmetry. apply cx_one. Qed.
Lemma em_mapA : mapA = em (0, 240). Proof. reflexivity. Qed.
Lemma em_mapB : mapB = em (1012, 1012). Proof. reflexivity. Qed.
Lemma em_mapZ : mapZ = em (-2, -1). Proof. reflexivity. Qed.
Definition zw (u : Z * Z) := zm (-2, -1) (zm u u).
Definition zt (u : Z * Z) := za (zm (zw u) (zw u)) (zw u).
Definition z3 (u : Z * Z) := zm (1012, 1012) (za (zt u) (1, 0)).
Definition z4 (u : Z * Z) := zm (zo (zt u)) (0, 240).
Definition zN (u : Z * Z) := za (zm (za (zm (z3 u) (z3 u)) (zm (0, 240) (zm (z4 u) (z4 u)))) (z3 u)) (zm (1012, 1012) (zm (zm (z4 u) (z4 u)) (z4 u))).
Definition zD (u : Z * Z) := zm (zm (z4 u) (z4 u)) (z4 u).
Lemma em_w u : mw (em u) = em (zw u). Proof. unfold mw, zw. rewrite em_mapZ, !em_mul. reflexivity. Qed.
Lemma em_t u : sswu_t (em u) = em (zt u). Proof. unfold sswu_t. cbv zeta. fold (mw (em u)). rewrite em_w. unfold zt. rewrite em_mul, em_add. reflexivity. Qed.
Lemma em_N u : mN (em u) = em (zN u) /\ mD (em u) = em (zD u).
Proof.
  assert (E3 : m3 (em u) = em (z3 u)) by (unfold m3, z3; rewrite em_t, em_mapB, em_one, em_add, em_mul; reflexivity).
  assert (E4 : m4 (em u) = em (z4 u)) by (unfold m4, z4; rewrite em_t, em_mapA, em_opp, em_mul; reflexivity).
  unfold mN, mD, zN, zD. rewrite E3, E4, em_mapA, em_mapB. rewrite !em_mul, !em_add, !em_mul, !em_add. split; reflexivity.
Qed.
Definition zeqb (a b : Z * Z) : bool := ((fst a - fst b) mod pBls =? 0) && ((snd a - snd b) mod pBls =? 0).
Lemma em_eq a b : zeqb a b = true -> em a = em b.
Proof. intros H. apply andb_true_iff in H. destruct H. apply cx_mod; assumption. Qed.
Lemma em_ne0 a : (fst a mod pBls =? 0) && (snd a mod pBls =? 0) = false -> em a <> zero2.
Proof. apply small_ne. Qed.
Lemma A0_ne a : (fst a mod pBls =? 0) = false -> A0 (em a) <> fc 0.
Proof. intros H E. apply Z.eqb_neq in H. apply H. unfold em, cx in E. cbn [A0] in E. apply ofZ_eq in E. exact E. Qed.
Lemma A1_ne a : (snd a mod pBls =? 0) = false -> A1 (em a) <> fc 0.
Proof. intros H E. apply Z.eqb_neq in H. apply H. unfold em, cx in E. cbn [A1] in E. apply ofZ_eq in E. exact E. Qed.

(** a square root of a value with a nonzero imaginary part has nonzero coordinates *)
Lemma sq_A0 y v : y *! y = v -> A1 v <> fc 0 -> A0 y <> fc 0.
Proof. intros E N Z. apply N. rewrite <- E. rewrite mul2_def. cbn [A1]. rewrite Z. ring. Qed.
Lemma A1_quot d n g : em d *! g = em n -> (snd (zm n (zc d)) mod pBls =? 0) = false -> A1 g <> fc 0.
Proof.
  intros E H Z. apply (A1_ne _ H). rewrite <- em_mul, <- E. destruct g as [g0 g1]. cbn [A1] in Z. subst g1. destruct d as [d0 d1]. unfold em, zc, cx. cbn [fst snd]. rewrite !mul2_def. cbn [A0 A1].
  assert (EO : fc (- d1) = qopp (fc d1)) by (symmetry; apply ofZ_opp). rewrite EO. ring.
Qed.
Definition reg_check (u : Z * Z) : bool :=
  negb ((fst (zt u) mod pBls =? 0) && (snd (zt u) mod pBls =? 0)) &&
  negb (snd (zm (zN u) (zc (zD u))) mod pBls =? 0) &&
  negb (snd (zm (zm (zm (zm (zw u) (zw u)) (zw u)) (zN u)) (zc (zD u))) mod pBls =? 0).
Lemma reg_ok u : reg_check u = true -> sswu_t (em u) <> zero2 /\ forall x y, x = sswu_x1 (em u) \/ x = sswu_x2 (em u) -> y *! y = mapg x -> A0 y <> fc 0.
Proof.
  intros H. unfold reg_check in H. apply andb_true_iff in H. destruct H as [H H3]. apply andb_true_iff in H. destruct H as [H1 H2]. apply negb_true_iff in H1, H2, H3.
  assert (T : sswu_t (em u) <> zero2) by (rewrite em_t; apply em_ne0; exact H1). split; [exact T|]. pose proof (g_x1 _ T) as G1. destruct (em_N u) as [EN ED]. rewrite EN, ED in G1.
  intros x y [->| ->] E; apply (sq_A0 y _ E).
  - exact (A1_quot _ _ _ G1 H2).
  - apply (A1_quot (zD u) (zm (zm (zm (zw u) (zw u)) (zw u)) (zN u))); [|exact H3]. rewrite (g_x2 _ T), em_w, <- em_mul, <- G1, !em_mul. rewrite <- !em_mul. ring.
Qed.
Lemma sswu_cases u x y : sswu u x y -> (x = sswu_x1 u \/ x = sswu_x2 u) /\ y *! y = mapg x.
Proof. intros [[[_ H]|[_ H]] [E _]]; auto. Qed.
Lemma regular_ok u : reg_check u = true -> (fst u mod pBls =? 0) = false -> sswu_t (em u) <> zero2 /\ regular (em u).
Proof.
  intros H N. destruct (reg_ok u H) as [T R]. split; [exact T|]. split; [left; exact (A0_ne u N)|]. intros x y S. destruct (sswu_cases _ _ _ S) as [X E]. exact (R x y X E).
Qed.

(** u = 1: g(x1) is an eighth power *)
Definition s8 : Z * Z := (0x6cb551b82ea30c177c6a610d7e8bac3080e05b1d6d79d1a83d3540fc6a9754c1975c44666923cabb92a71936abbf37d, 0x14c1c1bdad036651638ace5aa227cf855cf2c0b8c4a39ea0b826057b157b4c4d69617942023f60ab82c86508da0e3fb5).
Definition s8_2 : Z * Z := (0x123226675a5b5f37352338bb366e8ddb772003939137738a58c4fca54b11461ae06708e5ccd20071436d9d09ed96df88, 0x15c4836783d5780246624f0610348f8953520bec27b1327f9faf4666e279c95d7f7dd1b3adcb136980d79733aa8def97).
Definition s8_4 : Z * Z := (0x16dc21bb189af29d194283c4d555551046923cfe5c2bc6fe9968e4c06b2c446d694839bb3ac7dcf6a0583f8556e8dea2, 0x9eb706b0109bee76fbb46db35ae1580d6ee90600f0eb5fd550c78ed812b746deea6014d9d06a88a933f6a3f9dfd341).
Lemma s8_ok : zeqb (zm s8 s8) s8_2 && zeqb (zm s8_2 s8_2) s8_4 && zeqb (zm (zD (1, 0)) (zm s8_4 s8_4)) (zN (1, 0)) = true.
Proof. vm_compute. reflexivity. Qed.
Lemma one_reg : reg_check (1, 0) = true. Proof. vm_compute. reflexivity. Qed.
Lemma i_reg : reg_check (0, 1) = true. Proof. vm_compute. reflexivity. Qed.
Lemma s8_pow : pow2 (em s8) 8 = mapg (sswu_x1 one2) /\ em s8_4 *! em s8_4 = mapg (sswu_x1 one2).
Proof.
  pose proof s8_ok as H. apply andb_true_iff in H. destruct H as [H H3]. apply andb_true_iff in H. destruct H as [H1 H2]. apply em_eq in H1, H2, H3. rewrite <- !em_mul in *.
  destruct (reg_ok _ one_reg) as [T _]. pose proof (g_x1 _ T) as G. destruct (em_N (1, 0)) as [EN ED]. pose proof (mD_ne _ T) as ND. rewrite EN, <- H3, <- ED in G. rewrite <- em_one in *.
  apply (cancel2 _ _ _ ND) in G. rewrite G. split; [|reflexivity].
  pose proof (pow2_mul (em s8) 4 2 ltac:(lia) ltac:(lia)) as F. change (4 * 2) with 8 in F. rewrite F. pose proof (pow2_4 (em s8)) as F4. rewrite F4. pose proof (pow2_2 (em s8 *! em s8 *! (em s8 *! em s8))) as F2. rewrite F2, H1, H2. reflexivity.
Qed.
Lemma one_sswu : sswu one2 (sswu_x1 one2) (opp2 (em s8_4)).
Proof.
  destruct s8_pow as [_ E]. split; [left; split; [exists (em s8_4); exact E|reflexivity]|]. split; [rewrite <- E; ring|].
  assert (N : em s8_4 <> zero2) by (apply em_ne0; vm_compute; reflexivity). rewrite (sgn0_opp _ N), em_one. vm_compute. reflexivity.
Qed.
(** u = 0 *)
Definition xe : Z * Z := (0x1a59d4b6bbf912a32d63b43028e2deeebe8d5d97ca64b6d66f64ac7a265a9305e1a40da5edb81b4e3ac4f5c28f5bd27, 0x15103a07f641331bb298f5ed3ba1230aa0bcc9f87d923077324df24a0f7ffa93045d3d6f94c17ae10efa11eb851e7336).
Definition ye : Z * Z := (0x1776b5d3dd70bb2ac6e46be0849209c9c47853350da878bdc14a5042102f1f01cbc75043b8d13d709dd5ca27f92cb390, 0x2c094c100c4f8a157767045bc04279dd04f207fbddc4de6675911b512cddacc0061215698453b5b11125516029e4d21).
Lemma exc_ok : zeqb (zm (zm (-2, -1) (0, 240)) xe) (1012, 1012) && zeqb (zm ye ye) (za (za (zm (zm xe xe) xe) (zm (0, 240) xe)) (1012, 1012)) = true.
Proof. vm_compute. reflexivity. Qed.
Lemma zero_t : sswu_t zero2 = zero2. Proof. unfold sswu_t. cbv zeta. ring. Qed.
Lemma zero_sswu : sswu zero2 (em xe) (em ye).
Proof.
  pose proof exc_ok as H. apply andb_true_iff in H. destruct H as [H1 H2]. apply em_eq in H1, H2. rewrite <- em_mul in H1.
  assert (EX : sswu_x1 zero2 = em xe).
  { unfold sswu_x1. destruct (dec2 (sswu_t zero2) zero2) as [_|N]; [|exfalso; apply N; exact zero_t]. pose proof (mul2_ne0 _ _ mapZ_ne mapA_ne) as NZ. apply (cancel2 _ _ _ NZ). pose proof (inv2_ok _ NZ) as I.
    transitivity ((mapZ *! mapA *! inv2 (mapZ *! mapA)) *! mapB); [ring|]. rewrite I. rewrite em_mapZ, em_mapA, em_mapB. rewrite <- em_mul in H1. rewrite H1. ring. }
  assert (E : em ye *! em ye = mapg (em xe)) by (rewrite em_mul, H2; unfold mapg; rewrite em_mapA, em_mapB, !em_mul, !em_add; reflexivity).
  split; [left; split; [exists (em ye); rewrite EX; exact E|symmetry; exact EX]|]. split; [exact E|]. assert (EZ : zero2 = em (0, 0)) by (rewrite zero2_def; reflexivity). rewrite EZ. vm_compute. reflexivity.
Qed.
(** u with first coordinate 0 and an odd second one: the honest result has the other sign *)
Lemma wrong_sign u x y : A0 u = fc 0 -> Z.odd (fval (A1 u)) = true -> map_element_to_curve2 fp_canon u (x, y) -> A0 y <> fc 0 -> sswu u x (opp2 y).
Proof.
  intros Z0 Z1 H NY. destruct (map_canon u x y H) as [_ [A [E S]]]. split; [exact A|]. split; [rewrite <- E; ring|]. assert (N : y <> zero2) by exact (y_ne x y E).
  rewrite (sgn0_opp y N), (sgn0_nz y NY), (S NY), Z0, fval_0. unfold sgn0. rewrite Z0, fval_0, Z1. reflexivity.
Qed.
