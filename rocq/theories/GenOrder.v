(** * GenOrder.v — facts about psi, and the order of the standard generator of G2 (only used to show that hypotheses are met) *)
From Coq Require Import ZArith NArith Znumtheory List Bool Lia Ring.
From Verif Require Import PrimeTheory PrimeBls FieldZ TowerModel TowerSpec TowerRing TowerFrob TowerField TowerPow TowerCyc PairingModel PairingSpec MillerProofs MillerWitness WSpec G2Spec G2Group G2Model CmpProofs JacProofs PsiProofs ScalarProofs OrderRBls.
Import ListNotations.
Open Scope Z_scope.
Local Notation "a +! b" := (add2 a b) (at level 50, left associativity).
Local Notation "a -! b" := (sub2 a b) (at level 50, left associativity).
Local Notation "a *! b" := (mul2 a b) (at level 40, left associativity).
Local Opaque gadd gneg gmul on_g2 gpsi conj2 psi_u psi_v bTwist thirdRootOneG1 of1.

(** psi^4 - psi^2 + 1 = 0 on every point: three points on a horizontal line *)
Lemma w_sum : of1 thirdRootOneG1 *! of1 thirdRootOneG1 +! of1 thirdRootOneG1 +! one2 = zero2.
Proof.
  Local Transparent thirdRootOneG1 of1. set (w := thirdRootOneG1).
  assert (E : qadd (qadd (qmul w w) w) (fc 1) = fc 0). { unfold w, thirdRootOneG1, fc. rewrite ofZ_mul, !ofZ_add. apply fc_eqz. vm_compute. reflexivity. }
  clearbody w. unfold of1. rewrite !mul2_def, !add2_def, one2_def, zero2_def. cbn [A0 A1]. apply E2_eq; [|ring]. transitivity (qadd (qadd (qmul w w) w) (fc 1)); [ring|exact E].
Qed.
Local Opaque thirdRootOneG1 of1.
Lemma w_ne1 : of1 thirdRootOneG1 <> one2.
Proof.
  intros E. pose proof w_sum as S. rewrite E in S. apply three2_ne. rewrite <- S. ring.
Qed.
Lemma phi_on1 w x y : w *! w +! w +! one2 = zero2 -> oc2 x y -> oc2 (w *! x) y.
Proof.
  unfold oc2. intros W H. rewrite H. assert (C : w *! w *! w = one2). { transitivity ((w -! one2) *! (w *! w +! w +! one2) +! one2); [ring|]. rewrite W. ring. }
  transitivity (x *! x *! x *! one2 +! bTwist); [ring|]. rewrite <- C. ring.
Qed.
Lemma three_line w x y : w *! w +! w +! one2 = zero2 -> w <> one2 -> oc2 x y -> gadd (Some (x, y)) (Some (w *! x, y)) = Some (w *! (w *! x), opp2 y).
Proof.
  intros W N1 H. pose proof (phi_on1 w x y W H) as H1. destruct (E2_dec x zero2) as [->|NX].
  - replace (w *! zero2) with zero2 by ring. replace (w *! zero2) with zero2 by ring.
    assert (NY : y <> zero2). { intros ->. apply b2_ne. symmetry. transitivity (zero2 *! zero2); [ring|]. unfold oc2 in H. rewrite H. ring. }
    rewrite (gadd_tangent zero2 y zero2 H NY) by ring. unfold x3of, y3of. apply some_eq; ring.
  - assert (ND : x <> w *! x). { intros E. apply N1. apply (cancel2 x); [exact NX|]. transitivity (w *! x); [ring|]. rewrite <- E. ring. }
    rewrite (gadd_chord x y (w *! x) y zero2 H H1 ND) by ring. unfold x3of, y3of. apply some_eq; [|ring].
    transitivity (opp2 ((w *! w +! w +! one2) *! x) +! w *! w *! x); [ring|]. rewrite W. ring.
Qed.
Lemma psi_char P : on_g2 P -> gadd (gadd (gpsi (gpsi (gpsi (gpsi P)))) P) (gneg (gpsi (gpsi P))) = None.
Proof.
  intros H. destruct P as [[x y]|]; [|rewrite !gpsi_None; reflexivity].
  pose proof (gpsi_gpsi x y) as E1. rewrite E1. pose proof (gpsi_gpsi (of1 thirdRootOneG1 *! x) (opp2 y)) as E2. rewrite E2. clear E1 E2. rewrite opp2_opp.
  pose proof w_sum as W. pose proof w_ne1 as N1. revert W N1. generalize (of1 thirdRootOneG1). intros w W N1.
  pose proof (phi_on1 w x y W H) as H1. pose proof (phi_on1 w _ y W H1) as H2.
  assert (H' : oc2 (w *! (w *! (w *! x))) y) by (apply phi_on1; assumption).
  assert (C : w *! (w *! (w *! x)) = x). { transitivity ((w -! one2) *! (w *! w +! w +! one2) *! x +! x); [ring|]. rewrite W. ring. }
  pose proof (three_line w (w *! (w *! x)) y W N1 H2) as T. rewrite C in T. rewrite T.
  Local Transparent gneg. unfold gneg, pneg. rewrite opp2_opp. pose proof (gadd_opp (w *! x) y) as O.
  pose proof (gadd_comm (Some (w *! x, y)) (Some (w *! x, opp2 y)) H1 (gneg_on (Some (w *! x, y)) H1)) as K. rewrite <- K. exact O.
Qed.
Local Opaque gneg.
(** a point with psi(P) = [x]P is killed by r *)
Definition rN : N := 0x73eda753299d7d483339d80809a1d80553bda402fffe5bfeffffffff00000001%N.
Lemma gneg_mul_neg n P : on_g2 P -> gneg (gmul n (gneg P)) = gmul n P.
Proof. intros H. rewrite gmul_neg by exact H. apply gneg_neg. Qed.
Lemma gneg_None : gneg None = None. Proof. reflexivity. Qed.
Lemma psi_order P : on_g2 P -> gpsi P = gneg (gmul kx P) -> gmul rN P = None.
Proof.
  intros H E. assert (Ek : forall n, gpsi (gmul n P) = gneg (gmul (kx * n) P)).
  { intros n. pose proof (gpsi_mul n P H) as F1. rewrite F1, E. pose proof (gmul_neg n (gmul kx P) (gmul_on kx P H)) as F2. rewrite F2. pose proof (gmul_mul n kx P H) as F3. rewrite <- F3. rewrite (N.mul_comm n kx). reflexivity. }
  assert (E2 : gpsi (gpsi P) = gmul (kx * kx) P). { rewrite E. pose proof (gpsi_neg (gmul kx P)) as F1. pose proof (Ek kx) as F2. rewrite F1, F2. exact (gneg_neg (gmul (kx * kx) P)). }
  assert (E4 : gpsi (gpsi (gpsi (gpsi P))) = gmul (kx * (kx * (kx * kx))) P). { rewrite E2. pose proof (Ek (kx * kx)%N) as F1. pose proof (gpsi_neg (gmul (kx * (kx * kx)) P)) as F2. pose proof (Ek (kx * (kx * kx))%N) as F3. rewrite F1, F2, F3. exact (gneg_neg (gmul (kx * (kx * (kx * kx))) P)). }
  pose proof (psi_char P H) as C. rewrite E4, E2 in C. pose proof (gmul_add (kx * (kx * (kx * kx))) 1 P H) as E1. rewrite gmul_1 in E1. rewrite <- E1 in C. clear E1.
  assert (S : gmul (kx * (kx * (kx * kx)) + 1) P = gmul (kx * kx) P).
  { apply (f_equal (fun R => gadd R (gmul (kx * kx) P))) in C. rewrite gadd_0_l in C. pose proof (gmul_on (kx * kx) P H) as O. pose proof (gmul_on (kx * (kx * (kx * kx)) + 1) P H) as O'.
    rewrite (gadd_assoc _ _ _ O' (gneg_on _ O) O) in C. rewrite (gadd_comm _ _ (gneg_on _ O) O) in C. pose proof (gadd_neg (gmul (kx * kx) P)) as F. rewrite F in C. pose proof (gadd_0_r (gmul (kx * (kx * (kx * kx)) + 1) P)) as F'. rewrite F' in C. exact C. }
  apply gmul_diff in S; [|exact H|reflexivity]. replace rN with (kx * (kx * (kx * kx)) + 1 - kx * kx)%N by reflexivity. exact S.
Qed.
(** then it has no small multiple at infinity, unless it is infinity *)
Lemma gmul_gcd a b P : on_g2 P -> gmul a P = None -> gmul b P = None -> gmul (N.gcd a b) P = None.
Proof.
  intros H Ha Hb. destruct (N.eq_dec a 0) as [->|Na]; [rewrite N.gcd_0_l; exact Hb|]. destruct (N.eq_dec b 0) as [->|Nb]; [rewrite N.gcd_0_r; exact Ha|].
  destruct (N.gcd_bezout_pos a b) as (u & v & E); [lia|]. 
  assert (X : gmul (u * a) P = None) by (rewrite gmul_mul by exact H; rewrite Ha; apply gmul_None). assert (Y : gmul (v * b) P = None) by (rewrite gmul_mul by exact H; rewrite Hb; apply gmul_None).
  rewrite E, gmul_add, Y, gadd_0_r in X by exact H. exact X.
Qed.
Lemma small_order P k : on_g2 P -> gpsi P = gneg (gmul kx P) -> P <> None -> (0 < k <= 2 * kx)%N -> gmul k P <> None.
Proof.
  intros H E NP Hk Ek. pose proof (psi_order P H E) as Er. pose proof (gmul_gcd k rN P H Ek Er) as G.
  assert (G1 : N.gcd k rN = 1%N).
  { destruct (N.eq_dec (N.gcd k rN) 1) as [D|D]; [exact D|exfalso]. assert (G0 : N.gcd k rN <> 0%N) by (intros Z; apply N.gcd_eq_0_l in Z; lia).
    destruct (N.gcd_divide_l k rN) as [c Ec]. destruct (N.gcd_divide_r k rN) as [d Ed]. set (g := N.gcd k rN) in *. clearbody g.
    assert (Q : exists q, prime q /\ (q | Z.of_N g)).
    { destruct (prime_dec (Z.of_N g)) as [Y|Y]; [exists (Z.of_N g); split; [exact Y|apply Z.divide_refl]|]. destruct (small_prime_divisor (Z.of_N g)) as (q & Hq & Dq & _); [lia|exact Y|]. exists q. split; assumption. }
    destruct Q as (q & Hq & Dq). pose proof (prime_ge2 q Hq) as Q2. pose proof (Z.divide_pos_le q (Z.of_N g) ltac:(lia) Dq) as Lq.
    assert (Dr : (q | 0x73eda753299d7d483339d80809a1d80553bda402fffe5bfeffffffff00000001)).
    { apply Z.divide_trans with (Z.of_N g); [exact Dq|]. exists (Z.of_N d). change 0x73eda753299d7d483339d80809a1d80553bda402fffe5bfeffffffff00000001 with (Z.of_N rN). rewrite Ed. apply N2Z.inj_mul. }
    apply r_divisors in Dr; [|exact Hq]. apply Z.divide_pos_le in Dr; [|lia]. assert (Lg : (g <= k)%N) by (apply N.divide_pos_le; [lia|exists c; exact Ec]). assert (B : (k <= 30264752445883285504)%N) by (unfold kx in Hk; lia). clear - Dr Lq Lg B. lia. }
  rewrite G1, gmul_1 in G. exact (NP G).
Qed.
(** ** the chain of multiples of the generator *)
Lemma g_dbl x0 x1 y0 y1 r P n : on_g2 P -> dbl_chk x0 x1 y0 y1 r = true -> gmul n P = Some (z2 x0 x1, z2 y0 y1) -> gmul (2 * n) P = Some (z2 (w_x0 r) (w_x1 r), z2 (w_y0 r) (w_y1 r)).
Proof.
  intros HP H E. unfold dbl_chk in H. bs H. apply third_chk_ok in H0. destruct H0 as [E1 E2]. unfold mult_p in H1, H2. apply Z.eqb_eq in H1, H2. pose proof (nz_ok _ y1 H) as Hy.
  pose proof (gmul_on n P HP) as O. rewrite E in O.
  set (la := z2 (w_l0 r) (w_l1 r)) in *. set (x := z2 x0 x1) in *. set (y := z2 y0 y1) in *.
  assert (HL : mul2 (add2 y y) la = add2 (mul2 x x) (add2 (mul2 x x) (mul2 x x))).
  { unfold x, y, la. rewrite z2_add, !z2_mul, !z2_add. eapply z2_eq; [rewrite <- H2; ring | rewrite <- H1; ring]. }
  rewrite <- gmul_double by exact HP. rewrite E. rewrite (gadd_tangent x y la O Hy) by (transitivity (mul2 (add2 y y) la); [ring|rewrite HL; ring]). rewrite E1, E2. reflexivity.
Qed.
Lemma g_add x0 x1 y0 y1 q0 q1 s0 s1 r n : on_g2 (Some (z2 q0 q1, z2 s0 s1)) -> add_chk x0 x1 y0 y1 q0 q1 s0 s1 r = true ->
  gmul n (Some (z2 q0 q1, z2 s0 s1)) = Some (z2 x0 x1, z2 y0 y1) -> gmul (n + 1) (Some (z2 q0 q1, z2 s0 s1)) = Some (z2 (w_x0 r) (w_x1 r), z2 (w_y0 r) (w_y1 r)).
Proof.
  intros HP H E. unfold add_chk in H. bs H. apply third_chk_ok in H0. destruct H0 as [E1 E2]. unfold mult_p in H1, H2. apply Z.eqb_eq in H1, H2. pose proof (nz_ok _ (q1 - x1) H) as Hx.
  rewrite <- z2_sub in Hx. pose proof (gmul_on n _ HP) as O. rewrite E in O.
  assert (HL : mul2 (sub2 (z2 q0 q1) (z2 x0 x1)) (z2 (w_l0 r) (w_l1 r)) = sub2 (z2 s0 s1) (z2 y0 y1)).
  { rewrite !z2_sub, !z2_mul. eapply z2_eq; [rewrite <- H2; ring | rewrite <- H1; ring]. }
  rewrite gmul_add by exact HP. rewrite gmul_1, E. rewrite (gadd_chord _ _ _ _ (z2 (w_l0 r) (w_l1 r)) O HP).
  - rewrite E1, E2. reflexivity.
  - intros F. apply Hx. rewrite F. ring.
  - rewrite <- HL. ring.
Qed.
Definition last_row (rs : list row) : row := last rs (mkRow 0 0 0 0 0 0 0 0 0 0 0 0).
Definition dbits (n : N) (b : bool) : N := if b then (2 * n + 1)%N else (2 * n)%N.
Lemma g_run q0 q1 s0 s1 : on_g2 (Some (z2 q0 q1, z2 s0 s1)) -> forall bits x0 x1 y0 y1 rs n, bits <> [] -> run_chk q0 q1 s0 s1 bits x0 x1 y0 y1 rs = true ->
  gmul n (Some (z2 q0 q1, z2 s0 s1)) = Some (z2 x0 x1, z2 y0 y1) -> let r := last_row rs in gmul (fold_left dbits bits n) (Some (z2 q0 q1, z2 s0 s1)) = Some (z2 (w_x0 r) (w_x1 r), z2 (w_y0 r) (w_y1 r)).
Proof.
  intros HP. assert (L1 : forall r rs, rs <> [] -> last_row (r :: rs) = last_row rs) by (intros r [|r' rs] N; [congruence|reflexivity]).
  assert (NE : forall bits x0 x1 y0 y1 rs, bits <> [] -> run_chk q0 q1 s0 s1 bits x0 x1 y0 y1 rs = true -> rs <> []). { intros [|b bits] x0 x1 y0 y1 [|r rs] N H; [congruence|congruence| |discriminate]. destruct b; discriminate. }
  induction bits as [|b bits IH]; intros x0 x1 y0 y1 rs n NB H E; [congruence|]. cbv zeta. destruct b.
  - destruct rs as [| r [| r' rs]]; try discriminate. cbn [run_chk] in H. apply andb_true_iff in H. destruct H as [H HR]. apply andb_true_iff in H. destruct H as [H1 H2].
    pose proof (g_dbl _ _ _ _ _ _ _ HP H1 E) as E1. pose proof (g_add _ _ _ _ _ _ _ _ _ _ HP H2 E1) as E2. cbn [fold_left]. rewrite (L1 r (r' :: rs)) by discriminate.
    destruct bits as [|b bits]; [destruct rs; [exact E2|discriminate]|]. rewrite (L1 r') by (eapply NE; [|exact HR]; discriminate). apply (IH _ _ _ _ _ _ ltac:(discriminate) HR). exact E2.
  - destruct rs as [| r rs]; try discriminate. cbn [run_chk] in H. apply andb_true_iff in H. destruct H as [H1 HR].
    pose proof (g_dbl _ _ _ _ _ _ _ HP H1 E) as E1. cbn [fold_left].
    destruct bits as [|b bits]; [destruct rs; [exact E1|discriminate]|]. rewrite (L1 r) by (eapply NE; [|exact HR]; discriminate). apply (IH _ _ _ _ _ _ ltac:(discriminate) HR). exact E1.
Qed.
Lemma bits_total : fold_left dbits ate_bits 1%N = kx. Proof. vm_compute. reflexivity. Qed.
Lemma gen_on : on_g2 (aff g2_gen). Proof. apply on_twist_aff. exact g2_gen_on_twist. Qed.
Lemma psi_z_u a b e f : ((4002409555221667392624310435006688643935503118305586438271171395842971157480381377015405980053539358417135540939437 * b - e) mod pBls =? 0) = true ->
  ((4002409555221667392624310435006688643935503118305586438271171395842971157480381377015405980053539358417135540939437 * a - f) mod pBls =? 0) = true -> psi_u *! conj2 (z2 a b) = z2 e f.
Proof.
  intros H1 H2. Local Transparent psi_u conj2. unfold psi_u, z2. rewrite conj2_def. assert (E : qopp (fc b) = fc (- b)) by apply ofZ_opp. rewrite E. apply mk_mul.
  - match type of H1 with ((?u mod _) =? 0) = true => match goal with |- ((?t mod _) =? 0) = true => replace t with u by ring end end. exact H1.
  - match type of H2 with ((?u mod _) =? 0) = true => match goal with |- ((?t mod _) =? 0) = true => replace t with u by ring end end. exact H2.
Qed.
Lemma psi_z_v a b e f :
  let c := 2973677408986561043442465346520108879172042883009249989176415018091420807192182638567116318576472649347015917690530 in
  let d := 1028732146235106349975324479215795277384839936929757896155643118032610843298655225875571310552543014690878354869257 in
  ((c * a + d * b + e) mod pBls =? 0) = true -> ((d * a - c * b + f) mod pBls =? 0) = true -> psi_v *! conj2 (z2 a b) = opp2 (z2 e f).
Proof.
  intros c d H1 H2. Local Transparent psi_v conj2. unfold psi_v, z2. rewrite conj2_def, opp2_def. cbn [A0 A1].
  assert (E : forall b, qopp (fc b) = fc (- b)) by (intros; apply ofZ_opp). rewrite !E. apply mk_mul.
  - match type of H1 with ((?u mod _) =? 0) = true => match goal with |- ((?t mod _) =? 0) = true => replace t with u by (unfold c, d; ring) end end. exact H1.
  - match type of H2 with ((?u mod _) =? 0) = true => match goal with |- ((?t mod _) =? 0) = true => replace t with u by (unfold c, d; ring) end end. exact H2.
Qed.
Local Opaque psi_u psi_v conj2.
Lemma gen_psi : gpsi (aff g2_gen) = gneg (gmul kx (aff g2_gen)).
Proof.
  assert (K : forall Q, Q = aff g2_gen -> gmul kx Q = Some (z2 (w_x0 (last_row gen_rows)) (w_x1 (last_row gen_rows)), z2 (w_y0 (last_row gen_rows)) (w_y1 (last_row gen_rows))) -> gpsi Q = gneg (gmul kx Q)).
  2:{ pose proof gen_on as O. pose proof (g_run _ _ _ _ O ate_bits _ _ _ _ gen_rows 1%N ltac:(discriminate) gen_rows_ok (gmul_1 _)) as R. cbv zeta in R. rewrite bits_total in R. exact (K _ eq_refl R). }
  intros Q EQ R. rewrite R. clear R. rewrite EQ. clear EQ Q. unfold aff. pose proof (gpsi_eq (X2 g2_gen) (Y2 g2_gen)) as G. rewrite G. clear G. unfold g2_gen. cbn [X2 Y2].
  Local Transparent gneg. unfold gneg, pneg. apply some_eq.
  - apply psi_z_u; vm_compute; reflexivity.
  - apply psi_z_v; vm_compute; reflexivity.
Qed.
Local Opaque gneg.
Theorem gen_good : forall k, (0 < k <= 2 * kx)%N -> gmul k (aff g2_gen) <> None.
Proof. intros k Hk. apply small_order; [exact gen_on|exact gen_psi|discriminate|exact Hk]. Qed.
