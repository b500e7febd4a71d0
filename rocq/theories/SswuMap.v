(** * SswuMap.v — g2SqrtRatio is sqrt_ratio, MapElementToCurve2 is the simplified SWU map *)
From Coq Require Import ZArith NArith Znumtheory List Bool Arith Lia Ring.
From Verif Require Import FieldZ RlpEnc PrimeBls TowerModel TowerSpec TowerRing TowerFrob TowerField TowerPow TowerCyc PairingModel PairingSpec MillerProofs G2Model H2CModel H2CSpec WSpec G2Spec G2Group CmpProofs JacProofs PsiProofs SswuSpec SswuProofs IsoProofs.
Import ListNotations.
Open Scope Z_scope.
Local Infix "*!" := mul2 (at level 40, left associativity).
Local Infix "+!" := add2 (at level 50, left associativity).
Local Infix "-!" := sub2 (at level 50, left associativity).
Local Opaque e2_exp sqrt_body pow2 e2_not_one sqrt_tv1 sqrt_c7.
Notation zeta := sqrt_tv1.

Lemma pow2_4 x : pow2 x 4 = (x *! x) *! (x *! x).
Proof. pose proof (pow2_mul x 2 2 ltac:(lia) ltac:(lia)) as E. change (2 * 2) with 4 in E. rewrite E. pose proof (pow2_2 x) as E1. rewrite E1. apply pow2_2. Qed.
Lemma pow2_neg1 x : x *! x = one2 -> x = one2 \/ x = opp2 one2.
Proof.
  intros H. destruct (E2_dec x one2) as [|N]; [left; assumption|right]. assert (E : (x -! one2) *! (x +! one2) = zero2) by (transitivity (x *! x -! one2); [ring|]; rewrite H; ring).
  apply dom2 in E; [transitivity ((x +! one2) -! one2); [ring|rewrite E; ring]|]. intros Z. apply N. transitivity ((x -! one2) +! one2); [ring|rewrite Z; ring].
Qed.
Lemma zero_pow n : 0 < n -> pow2 zero2 n = zero2.
Proof. intros H. pose proof (pow2_add zero2 1 (n - 1) ltac:(lia) ltac:(lia)) as E. replace (1 + (n - 1)) with n in E by lia. rewrite E. rewrite pow2_1. ring. Qed.
Lemma pow2_ne x n : 0 <= n -> x <> zero2 -> pow2 x n <> zero2.
Proof.
  intros Hn N E. destruct (inv2_exists x N) as [y Hy]. pose proof (pow2_prod x y n) as P. rewrite Hy, E in P. pose proof (pow2_one n) as O. rewrite O in P. apply one2_zero2. rewrite P. ring.
Qed.
(** tv4 = (u v^15)^c2, c2 = (p^2 - 1) / 8 *)
Lemma t4_pow u v : t4_0 u v = pow2 (u *! (pow2 v 7 *! pow2 v 7 *! v)) (2 * c3v + 1).
Proof.
  unfold t4_0. cbv zeta. pose proof c3_pos as C. pose proof (pow2_add (u *! (pow2 v 7 *! pow2 v 7 *! v)) (c3v + c3v) 1 ltac:(lia) ltac:(lia)) as E1. replace (c3v + c3v + 1) with (2 * c3v + 1) in E1 by lia.
  pose proof (pow2_add (u *! (pow2 v 7 *! pow2 v 7 *! v)) c3v c3v ltac:(lia) ltac:(lia)) as E2. rewrite E2 in E1. pose proof (pow2_1 (u *! (pow2 v 7 *! pow2 v 7 *! v))) as E3. rewrite E3 in E1. rewrite E1. ring.
Qed.
Lemma fermat2_1 x : x <> zero2 -> pow2 x (16 * c3v + 8) = one2.
Proof.
  intros N. pose proof (fermat2 x) as F. rewrite c3_ok in F. pose proof c3_pos as C. pose proof (pow2_add x (16 * c3v + 8) 1 ltac:(lia) ltac:(lia)) as E. replace (16 * c3v + 8 + 1) with (16 * c3v + 9) in E by lia.
  rewrite F, pow2_1 in E. apply (cancel2 x _ _ N). transitivity (pow2 x (16 * c3v + 8) *! x); [ring|]. rewrite <- E. ring.
Qed.
Lemma t4_8 u v : u <> zero2 -> v <> zero2 -> pow2 (t4_0 u v) 8 = one2.
Proof.
  intros Nu Nv. rewrite t4_pow. set (a := u *! (pow2 v 7 *! pow2 v 7 *! v)). assert (Na : a <> zero2) by (pose proof (pow2_ne v 7 ltac:(lia) Nv) as Nw; exact (mul2_ne0 _ _ Nu (mul2_ne0 _ _ (mul2_ne0 _ _ Nw Nw) Nv))).
  clearbody a. pose proof c3_pos as C. pose proof (pow2_mul a (2 * c3v + 1) 8 ltac:(lia) ltac:(lia)) as E. replace ((2 * c3v + 1) * 8) with (16 * c3v + 8) in E by lia. rewrite <- E. exact (fermat2_1 a Na).
Qed.
Lemma t4_4 u v : u <> zero2 -> v <> zero2 -> pow2 (t4_0 u v) 4 = one2 \/ pow2 (t4_0 u v) 4 = opp2 one2.
Proof.
  intros Nu Nv. apply pow2_neg1. pose proof (t4_8 u v Nu Nv) as E. pose proof (pow2_mul (t4_0 u v) 4 2 ltac:(lia) ltac:(lia)) as F. change (4 * 2) with 8 in F. rewrite E, pow2_2 in F. symmetry. exact F.
Qed.
(** the quotient is a square: tv4^4 = 1 *)
Lemma square_t4 u v s : u <> zero2 -> v <> zero2 -> s *! s *! v = u -> pow2 (t4_0 u v) 4 = one2.
Proof.
  intros Nu Nv E. assert (Ns : s <> zero2) by (intros Z; apply Nu; rewrite <- E, Z; ring). rewrite t4_pow. set (w := pow2 v 7).
  assert (Nw : w <> zero2) by (apply pow2_ne; [lia|exact Nv]).
  replace (u *! (w *! w *! v)) with ((s *! v *! w) *! (s *! v *! w)) by (rewrite <- E; ring).
  set (a := s *! v *! w). assert (Na : a <> zero2) by (exact (mul2_ne0 _ _ (mul2_ne0 _ _ Ns Nv) Nw)). clearbody a w. pose proof c3_pos as C.
  pose proof (pow2_2 a) as E2. rewrite <- E2. pose proof (pow2_mul a 2 (2 * c3v + 1) ltac:(lia) ltac:(lia)) as E3. rewrite <- E3.
  pose proof (pow2_mul a (2 * (2 * c3v + 1)) 4 ltac:(lia) ltac:(lia)) as E4. rewrite <- E4. replace (2 * (2 * c3v + 1) * 4) with (16 * c3v + 8) by lia. exact (fermat2_1 a Na).
Qed.
Definition Wv (b : bool) (u : E2) : E2 := if b then mapZ *! u else u.
Lemma opp_ne_one : opp2 one2 <> one2.
Proof. intros E. apply two2_ne. transitivity (one2 -! opp2 one2); [ring|]. rewrite E. ring. Qed.
Lemma ratio_canon u v z b : u <> zero2 -> v <> zero2 -> g2_sqrt_ratio fp_canon u v (z, b) ->
  z *! z *! v = Wv b u /\ (b = false <-> exists s, s *! s *! v = u).
Proof.
  intros Nu Nv H. apply (proj1 (ratio_iff fp_canon u v z b)) in H. destruct H as [Hb [n [Hn [m [Hm Hz]]]]]. cbv zeta in *.
  pose proof (t_inv u v) as I. pose proof (t4_4 u v Nu Nv) as T. pose proof zeta_4 as Z4. pose proof c7_sq as C7. pose proof fp_canon_ok as O.
  assert (SQ : forall s, s *! s *! v = u -> pow2 (t4_0 u v) 4 = one2) by (intros s; apply square_t4; assumption).
  set (t3 := t3_0 u v) in *. set (t4 := t4_0 u v) in *. clearbody t3 t4. rewrite pow2_4 in *.
  set (y3 := if b then t3 *! sqrt_c7 else t3) in *. set (y4 := if b then t4 *! zeta else t4) in *.
  assert (A : y3 *! y3 *! v = y4 *! Wv b u /\ (y4 *! y4) *! (y4 *! y4) = one2 /\ (b = true -> forall s, s *! s *! v <> u)).
  { unfold y3, y4, Wv. destruct b.
    - apply n1_canon in Hb. destruct T as [T|T]; [contradiction|]. split; [|split].
      + transitivity ((t3 *! t3 *! v) *! (sqrt_c7 *! sqrt_c7)); [ring|]. rewrite I, C7. ring.
      + transitivity (((t4 *! t4) *! (t4 *! t4)) *! ((zeta *! zeta) *! (zeta *! zeta))); [ring|]. rewrite T, Z4. ring.
      + intros _ s E. apply Hb. exact (SQ s E).
    - apply (n1_false _ O) in Hb. split; [exact I|]. split; [exact Hb|discriminate]. }
  clearbody y3 y4. clear I T Hb SQ C7. destruct A as [I [T Q]].
  set (x3 := if n then y3 *! zeta else y3) in *. set (x4 := if n then y4 *! (zeta *! zeta) else y4) in *. rewrite pow2_2 in Hn. apply pow2_neg1 in T.
  assert (A : x3 *! x3 *! v = x4 *! Wv b u /\ x4 *! x4 = one2).
  { unfold x3, x4. destruct n.
    - apply n1_canon in Hn. destruct T as [T|T]; [contradiction|]. split.
      + transitivity ((y3 *! y3 *! v) *! (zeta *! zeta)); [ring|]. rewrite I. ring.
      + transitivity ((y4 *! y4) *! ((zeta *! zeta) *! (zeta *! zeta))); [ring|]. rewrite T, Z4. ring.
    - apply (n1_false _ O) in Hn. split; [exact I|exact Hn]. }
  clearbody x3 x4. clear I T Hn. destruct A as [I T]. rewrite pow2_1 in Hm. apply pow2_neg1 in T.
  assert (E : z *! z *! v = Wv b u).
  { subst z. destruct m.
    - apply n1_canon in Hm. destruct T as [T|T]; [contradiction|]. transitivity ((x3 *! x3 *! v) *! ((zeta *! zeta) *! (zeta *! zeta))); [ring|]. rewrite I, T, Z4. ring.
    - apply (n1_false _ O) in Hm. change e2_one with one2 in Hm. rewrite I, Hm. ring. }
  split; [exact E|]. split.
  - intros ->. exists z. exact E.
  - intros [s Hs]. destruct b; [|reflexivity]. exfalso. exact (Q eq_refl s Hs).
Qed.
(** any prover: up to an eighth root of unity *)
Definition root8 (e : E2) : Prop := (e *! e) *! (e *! e) *! ((e *! e) *! (e *! e)) = one2.
Lemma n1_ex rep x : rep_ok rep -> exists b, e2_not_one rep x b.
Proof. intros O. destruct (E2_dec x one2) as [E|N]; [exists false; apply (n1_false _ O); exact E|exists true; apply (n1_true _ O); exact N]. Qed.
Lemma ratio_total rep u v : rep_ok rep -> exists z b, g2_sqrt_ratio rep u v (z, b).
Proof.
  intros O. destruct (n1_ex rep (pow2 (t4_0 u v) 4) O) as [b Hb]. destruct (n1_ex rep (pow2 (if b then t4_0 u v *! zeta else t4_0 u v) 2) O) as [n Hn].
  destruct (n1_ex rep (pow2 (if n then (if b then t4_0 u v *! zeta else t4_0 u v) *! (zeta *! zeta) else (if b then t4_0 u v *! zeta else t4_0 u v)) 1) O) as [m Hm].
  eexists. exists b. apply ratio_iff. split; [exact Hb|]. exists n. split; [exact Hn|]. exists m. split; [exact Hm|reflexivity].
Qed.
Lemma root8_zeta : root8 zeta.
Proof. unfold root8. pose proof zeta_4 as Z. rewrite Z. ring. Qed.
Lemma root8_mul a b : root8 a -> root8 b -> root8 (a *! b).
Proof.
  unfold root8. intros A B. transitivity (((a *! a) *! (a *! a) *! ((a *! a) *! (a *! a))) *! ((b *! b) *! (b *! b) *! ((b *! b) *! (b *! b)))); [ring|]. rewrite A, B. ring.
Qed.
Lemma ratio_any rep u v z b : rep_ok rep -> u <> zero2 -> v <> zero2 -> g2_sqrt_ratio rep u v (z, b) ->
  (exists e, root8 e /\ z *! z *! v = e *! Wv b u) /\ (b = false -> exists s, s *! s *! v = u).
Proof.
  intros O Nu Nv H. apply (proj1 (ratio_iff rep u v z b)) in H. destruct H as [Hb [n [Hn [m [Hm Hz]]]]]. cbv zeta in *.
  split.
  2:{ intros ->. apply (n1_false _ O) in Hb. destruct (ratio_total fp_canon u v fp_canon_ok) as [z' [b' H']]. destruct (ratio_canon u v z' b' Nu Nv H') as [E Q]. apply Q.
      apply (proj1 (ratio_iff fp_canon u v z' b')) in H'. destruct H' as [Hb' _]. destruct b'; [|reflexivity]. apply n1_canon in Hb'. exfalso. exact (Hb' Hb). }
  pose proof (t_inv u v) as I. pose proof (t4_8 u v Nu Nv) as T. pose proof c7_sq as C7. pose proof root8_zeta as RZ. pose proof (root8_mul _ _ RZ RZ) as RZ2.
  set (t3 := t3_0 u v) in *. set (t4 := t4_0 u v) in *.
  assert (T8 : root8 t4). { unfold root8. rewrite <- T. pose proof (pow2_mul t4 4 2 ltac:(lia) ltac:(lia)) as F. change (4 * 2) with 8 in F. rewrite F. pose proof (pow2_4 t4) as F4. rewrite F4. pose proof (pow2_2 ((t4 *! t4) *! (t4 *! t4))) as F2. rewrite F2. reflexivity. }
  clearbody t3 t4. clear Hb Hn Hm T.
  set (y3 := if b then t3 *! sqrt_c7 else t3) in *. set (y4 := if b then t4 *! zeta else t4) in *.
  assert (A : y3 *! y3 *! v = y4 *! Wv b u /\ root8 y4).
  { unfold y3, y4, Wv. destruct b; [|split; [exact I|exact T8]]. split; [|exact (root8_mul _ _ T8 RZ)]. transitivity ((t3 *! t3 *! v) *! (sqrt_c7 *! sqrt_c7)); [ring|]. rewrite I, C7. ring. }
  clearbody y3 y4. clear I T8 C7. destruct A as [I T8].
  set (x3 := if n then y3 *! zeta else y3) in *. set (x4 := if n then y4 *! (zeta *! zeta) else y4) in *.
  assert (A : x3 *! x3 *! v = x4 *! Wv b u /\ root8 x4).
  { unfold x3, x4. destruct n; [|split; [exact I|exact T8]]. split; [|exact (root8_mul _ _ T8 RZ2)]. transitivity ((y3 *! y3 *! v) *! (zeta *! zeta)); [ring|]. rewrite I. ring. }
  clearbody x3 x4. clear I T8. destruct A as [I T8]. destruct m; [|exists x4; split; [exact T8|rewrite Hz; exact I]].
  exists (x4 *! ((zeta *! zeta) *! (zeta *! zeta))). split; [exact (root8_mul _ _ T8 (root8_mul _ _ RZ2 RZ2))|]. rewrite Hz. transitivity ((x3 *! x3 *! v) *! ((zeta *! zeta) *! (zeta *! zeta))); [ring|]. rewrite I. ring.
Qed.
(** when u / v is an eighth power a prover can have z^2 v = -u *)
Lemma ratio_lie u v s : u <> zero2 -> v <> zero2 -> pow2 s 8 *! v = u -> exists z, g2_sqrt_ratio fp_rep u v (z, false) /\ z *! z *! v = opp2 u.
Proof.
  intros Nu Nv E. assert (Ns : s <> zero2). { intros Z. apply Nu. rewrite <- E, Z, zero_pow by lia. ring. }
  assert (T : t4_0 u v = one2).
  { rewrite t4_pow. set (w := pow2 v 7). assert (Ew : w *! v = pow2 v 8). { pose proof (pow2_add v 7 1 ltac:(lia) ltac:(lia)) as F. change (7 + 1) with 8 in F. rewrite F, pow2_1. reflexivity. }
    replace (u *! (w *! w *! v)) with (pow2 s 8 *! ((w *! v) *! (w *! v))) by (rewrite <- E; ring). rewrite Ew. pose proof (pow2_prod v v 8) as P1. rewrite <- P1. pose proof (pow2_prod s (v *! v) 8) as P2. rewrite <- P2.
    set (a := s *! (v *! v)). assert (Na : a <> zero2) by exact (mul2_ne0 _ _ Ns (mul2_ne0 _ _ Nv Nv)). clearbody a. pose proof c3_pos as C.
    pose proof (pow2_mul a 8 (2 * c3v + 1) ltac:(lia) ltac:(lia)) as E3. rewrite <- E3. replace (8 * (2 * c3v + 1)) with (16 * c3v + 8) by lia. exact (fermat2_1 a Na). }
  pose proof (t_inv u v) as I. pose proof fp_rep_ok as O. exists (t3_0 u v *! (zeta *! zeta)). split.
  - apply ratio_iff. rewrite T. cbv zeta. split; [apply (n1_false _ O); apply pow2_one|]. exists false. split; [apply (n1_false _ O); apply pow2_one|]. exists true. split; [apply n1_any|reflexivity].
  - rewrite T in I. transitivity ((t3_0 u v *! t3_0 u v *! v) *! ((zeta *! zeta) *! (zeta *! zeta))); [ring|]. pose proof zeta_4 as Z4. rewrite I, Z4. ring.
Qed.

(** ** MapElementToCurve2 *)
Definition mw (u : E2) : E2 := mapZ *! (u *! u).
Definition m3 (u : E2) : E2 := mapB *! (sswu_t u +! one2).
Definition m4 (u : E2) : E2 := opp2 (sswu_t u) *! mapA.
Definition mN (u : E2) : E2 := (m3 u *! m3 u +! mapA *! (m4 u *! m4 u)) *! m3 u +! mapB *! (m4 u *! m4 u *! m4 u).
Definition mD (u : E2) : E2 := m4 u *! m4 u *! m4 u.
Local Opaque sswuA sswuB tv4Z mapA mapB mapZ g2_sqrt_ratio g2_sgn0.
Lemma map_iff rep u x y : map_element_to_curve2 rep u (x, y) <->
  exists z b s1 s2, g2_sqrt_ratio rep (mN u) (mD u) (z, b) /\ g2_sgn0 rep u s1 /\ g2_sgn0 rep (if b then mw u *! u *! z else z) s2 /\
    y = (if xorb s1 s2 then opp2 (if b then mw u *! u *! z else z) else if b then mw u *! u *! z else z) /\
    m4 u <> zero2 /\ m4 u *! x = if b then mw u *! m3 u else m3 u.
Proof.
  unfold map_element_to_curve2, bind, ret. cbv zeta. rewrite sswuA_ok, sswuB_ok, tv4Z_ok.
  assert (EW : e2_mul (e2_square u) mapZ = mw u) by (unfold mw; r2; ring).
  rewrite EW. assert (ET : e2_add (e2_square (mw u)) (mw u) = sswu_t u) by (unfold sswu_t; cbv zeta; fold (mw u); r2; ring). rewrite ET.
  assert (E3 : e2_mul (e2_add (sswu_t u) e2_one) mapB = m3 u) by (unfold m3; change e2_one with one2; r2; ring). rewrite E3.
  assert (E4 : e2_mul (e2_neg (sswu_t u)) mapA = m4 u) by (unfold m4; r2; ring). rewrite E4.
  assert (EN : e2_add (e2_mul (e2_add (e2_square (m3 u)) (e2_mul (e2_square (m4 u)) mapA)) (m3 u)) (e2_mul (e2_mul (e2_square (m4 u)) (m4 u)) mapB) = mN u) by (unfold mN; r2; ring). rewrite EN.
  assert (ED : e2_mul (e2_square (m4 u)) (m4 u) = mD u) by (unfold mD; r2; ring). rewrite ED. split.
  - intros [[z b] [H [s1 [H1 [s2 [H2 [x' [H3 H4]]]]]]]]. injection H4 as -> ->. exists z, b, s1, s2. rewrite !sel2 in *. apply e2_div_iff in H3. destruct H3 as [N3 H3].
    assert (EY : (if b then e2_mul (e2_mul (mw u) u) z else z) = (if b then mw u *! u *! z else z)) by (destruct b; r2; reflexivity).
    rewrite EY in *. split; [exact H|]. split; [exact H1|]. split; [exact H2|]. split; [destruct (xorb s1 s2); r2; reflexivity|]. split; [exact N3|]. rewrite H3. destruct b; r2; reflexivity.
  - intros (z & b & s1 & s2 & H & H1 & H2 & Hy & N4 & Hx). exists (z, b). split; [exact H|]. exists s1. split; [exact H1|]. exists s2.
    assert (EY : e2_select b (e2_mul (e2_mul (mw u) u) z) z = (if b then mw u *! u *! z else z)) by (rewrite sel2; destruct b; r2; reflexivity). rewrite EY. split; [exact H2|].
    exists x. split; [apply e2_div_iff; split; [exact N4|]; rewrite Hx, sel2; destruct b; r2; reflexivity|]. rewrite Hy, sel2. destruct (xorb s1 s2); r2; reflexivity.
Qed.
Lemma mapA_ne : mapA <> zero2. Proof. Local Transparent mapA. apply small_ne. vm_compute. reflexivity. Qed.
Local Opaque mapA.
Lemma mapZ_ne : mapZ <> zero2. Proof. Local Transparent mapZ. apply small_ne. vm_compute. reflexivity. Qed.
Local Opaque mapZ.
Lemma m4_ne u : m4 u <> zero2 <-> sswu_t u <> zero2.
Proof.
  unfold m4. split; intros N E; apply N; [rewrite E; ring|]. pose proof mapA_ne as NA. apply (cancel2 mapA _ _ NA). transitivity (opp2 (opp2 (sswu_t u) *! mapA)); [ring|]. rewrite E. ring.
Qed.
Lemma x1_ok u : sswu_t u <> zero2 -> m4 u *! sswu_x1 u = m3 u.
Proof.
  intros N. unfold sswu_x1. destruct (dec2 (sswu_t u) zero2) as [Z|_]; [contradiction|]. pose proof (inv2_ok _ N) as I. pose proof (inv2_ok _ mapA_ne) as J. unfold m4, m3. set (t := sswu_t u) in *. clearbody t.
  set (a' := inv2 mapA) in *. set (t' := inv2 t) in *. clearbody a' t'.
  transitivity ((mapA *! a') *! mapB *! (t +! t *! t')); [ring|]. rewrite I, J. ring.
Qed.
Lemma x2_ok u : sswu_t u <> zero2 -> m4 u *! sswu_x2 u = mw u *! m3 u.
Proof. intros N. rewrite <- (x1_ok u N). unfold sswu_x2. fold (mw u). ring. Qed.
Lemma g_x1 u : sswu_t u <> zero2 -> mD u *! mapg (sswu_x1 u) = mN u.
Proof. intros N. unfold mN, mD, mapg. rewrite <- (x1_ok u N). ring. Qed.
Lemma g_x2 u : sswu_t u <> zero2 -> mapg (sswu_x2 u) = mw u *! mw u *! mw u *! mapg (sswu_x1 u).
Proof.
  intros N. pose proof (x1_ok u N) as E. unfold sswu_x2. fold (mw u). unfold m4, m3 in E. assert (ET : sswu_t u = mw u *! mw u +! mw u) by reflexivity. rewrite ET in *. set (w := mw u) in *. set (x1 := sswu_x1 u) in *. clearbody w x1.
  unfold mapg. apply (cancel2 (w *! w +! w) _ _ N).
  transitivity ((w *! w +! w) *! (w *! w *! w *! (x1 *! x1 *! x1) +! mapB) -! w *! (opp2 (w *! w +! w) *! mapA *! x1)); [ring|]. rewrite E.
  transitivity ((w *! w +! w) *! (w *! w *! w *! (x1 *! x1 *! x1) +! w *! w *! w *! mapB) -! w *! w *! w *! (opp2 (w *! w +! w) *! mapA *! x1)); [rewrite E|]; ring.
Qed.
Lemma mD_ne u : sswu_t u <> zero2 -> mD u <> zero2.
Proof. intros N. apply m4_ne in N. exact (mul2_ne0 _ _ (mul2_ne0 _ _ N N) N). Qed.
Lemma mN_ne u : sswu_t u <> zero2 -> mN u <> zero2.
Proof. intros N. rewrite <- (g_x1 u N). exact (mul2_ne0 _ _ (mD_ne u N) (g_no_root _)). Qed.
(** the abscissa RFC 9380 selects *)
Definition sswu_abscissa (u x : E2) : Prop :=
  is_square2 (mapg (sswu_x1 u)) /\ x = sswu_x1 u \/ ~ is_square2 (mapg (sswu_x1 u)) /\ x = sswu_x2 u.
Lemma sel_sq u z b : sswu_t u <> zero2 -> z *! z *! mD u = Wv b (mN u) -> (b = false <-> exists s, s *! s *! mD u = mN u) ->
  let x := if b then sswu_x2 u else sswu_x1 u in let y := if b then mw u *! u *! z else z in sswu_abscissa u x /\ y *! y = mapg x.
Proof.
  intros N E Q. cbv zeta. pose proof (mD_ne u N) as ND. pose proof (g_x1 u N) as G1. rewrite <- G1 in *. unfold sswu_abscissa, is_square2.
  assert (SQ : (exists s, s *! s *! mD u = mD u *! mapg (sswu_x1 u)) <-> exists s, s *! s = mapg (sswu_x1 u)).
  { split; intros [s Hs]; exists s; [apply (cancel2 (mD u) _ _ ND); rewrite <- Hs; ring|rewrite Hs; ring]. }
  rewrite SQ in Q. destruct b.
  - split; [right; split; [intros S; apply Q in S; discriminate|reflexivity]|]. rewrite (g_x2 u N). apply (cancel2 (mD u) _ _ ND). cbn [Wv] in E.
    transitivity (mw u *! mw u *! (u *! u) *! (z *! z *! mD u)); [ring|]. rewrite E. unfold mw. ring.
  - split; [left; split; [apply Q; reflexivity|reflexivity]|]. apply (cancel2 (mD u) _ _ ND). cbn [Wv] in E. transitivity (z *! z *! mD u); [ring|exact E].
Qed.
Theorem map_canon u x y : map_element_to_curve2 fp_canon u (x, y) ->
  sswu_t u <> zero2 /\ sswu_abscissa u x /\ y *! y = mapg x /\ (A0 y <> fc 0 -> Z.odd (fval (A0 y)) = Z.odd (fval (A0 u))).
Proof.
  intros H. apply (proj1 (map_iff fp_canon u x y)) in H. destruct H as (z & b & s1 & s2 & H & H1 & H2 & Hy & N4 & Hx). pose proof (proj1 (m4_ne u) N4) as N. split; [exact N|].
  destruct (ratio_canon _ _ z b (mN_ne u N) (mD_ne u N) H) as [E Q]. destruct (sel_sq u z b N E Q) as [SA SY]. cbv zeta in SA, SY.
  assert (EX : x = if b then sswu_x2 u else sswu_x1 u). { apply (cancel2 (m4 u) _ _ N4). rewrite Hx. destruct b; symmetry; [apply x2_ok|apply x1_ok]; exact N. }
  rewrite <- EX in SA, SY. set (y0 := if b then mw u *! u *! z else z) in *. clearbody y0. split; [exact SA|]. split; [rewrite Hy; destruct (xorb s1 s2); rewrite <- SY; ring|].
  intros NY. apply (sgn0_rel _ _ _ fp_canon_ok) in H1. destruct H1 as [r1 [-> ->]]. apply (sgn0_rel _ _ _ fp_canon_ok) in H2. destruct H2 as [r2 [-> ->]].
  destruct (xorb (Z.odd (fval (A0 u))) (Z.odd (fval (A0 y0)))) eqn:X; rewrite Hy in *; [|destruct (Z.odd (fval (A0 u))), (Z.odd (fval (A0 y0))); auto; discriminate].
  assert (O : Z.odd (fval (A0 (opp2 y0))) = negb (Z.odd (fval (A0 y0)))); [|rewrite O; destruct (Z.odd (fval (A0 u))), (Z.odd (fval (A0 y0))); auto; discriminate].
  rewrite opp2_def in *. cbn [A0] in *. set (a := A0 y0) in *. clearbody a. clear - NY.
  pose proof (fval_range pBls a (proj1 pBls_range)) as R. assert (Na : fval a <> 0). { intros Z. apply NY. apply fc0_fval in Z. rewrite Z. ring. }
  assert (F : fval (qopp a) = pBls - fval a).
  { rewrite <- (fval_fc_id a) at 1. unfold fc. rewrite ofZ_opp. change (fval (ofZ pBls (- fval a))) with (- fval a mod pBls). symmetry. apply Z.mod_unique with (q := -1); lia. }
  rewrite F, Z.odd_sub. change (Z.odd pBls) with true. apply xorb_true_l.
Qed.
Theorem map_total rep u : rep_ok rep -> sswu_t u <> zero2 -> exists x y, map_element_to_curve2 rep u (x, y).
Proof.
  intros O N. destruct (ratio_total rep (mN u) (mD u) O) as [z [b H]].
  assert (S : forall v, exists s, g2_sgn0 rep v s). { intros v. exists (Z.odd (fval (A0 v))). apply (sgn0_rel _ _ _ O). exists (fval (A0 v)). split; [apply O|reflexivity]. }
  destruct (S u) as [s1 H1]. destruct (S (if b then mw u *! u *! z else z)) as [s2 H2]. exists (if b then sswu_x2 u else sswu_x1 u). eexists. apply map_iff. exists z, b, s1, s2.
  split; [exact H|]. split; [exact H1|]. split; [exact H2|]. split; [reflexivity|]. split; [apply m4_ne; exact N|]. destruct b; [exact (x2_ok u N)|exact (x1_ok u N)].
Qed.
Lemma map_unsat rep u : sswu_t u = zero2 -> ~ exists x y, map_element_to_curve2 rep u (x, y).
Proof. intros E [x [y H]]. apply (proj1 (map_iff rep u x y)) in H. destruct H as (z & b & s1 & s2 & _ & _ & _ & _ & N & _). apply (proj1 (m4_ne u)) in N. exact (N E). Qed.
(** any prover: the abscissa is one of the two, the ordinate right up to an eighth root of unity *)
Theorem map_any rep u x y : rep_ok rep -> map_element_to_curve2 rep u (x, y) ->
  (x = sswu_x1 u \/ x = sswu_x2 u) /\ exists e, root8 e /\ y *! y = e *! mapg x.
Proof.
  intros O H. apply (proj1 (map_iff rep u x y)) in H. destruct H as (z & b & s1 & s2 & H & H1 & H2 & Hy & N4 & Hx). pose proof (proj1 (m4_ne u) N4) as N.
  destruct (ratio_any rep _ _ z b O (mN_ne u N) (mD_ne u N) H) as [[e [R E]] _]. pose proof (mD_ne u N) as ND. pose proof (g_x1 u N) as G1. rewrite <- G1 in E.
  assert (EX : x = if b then sswu_x2 u else sswu_x1 u). { apply (cancel2 (m4 u) _ _ N4). rewrite Hx. destruct b; symmetry; [apply x2_ok|apply x1_ok]; exact N. }
  split; [destruct b; auto|]. exists e. split; [exact R|].
  assert (SY : (if b then mw u *! u *! z else z) *! (if b then mw u *! u *! z else z) = e *! mapg x).
  { rewrite EX. apply (cancel2 (mD u) _ _ ND). destruct b; cbn [Wv] in E.
    - rewrite (g_x2 u N). transitivity (mw u *! mw u *! (u *! u) *! (z *! z *! mD u)); [ring|]. rewrite E. unfold mw. ring.
    - transitivity (z *! z *! mD u); [ring|]. rewrite E. ring. }
  rewrite Hy, <- SY. destruct (xorb s1 s2); ring.
Qed.
(** ... and it can be wrong *)
Theorem map_lie u s : sswu_t u <> zero2 -> pow2 s 8 = mapg (sswu_x1 u) -> exists y, map_element_to_curve2 fp_rep u (sswu_x1 u, y) /\ y *! y = opp2 (mapg (sswu_x1 u)).
Proof.
  intros N E. pose proof (g_x1 u N) as G1. pose proof (mD_ne u N) as ND.
  destruct (ratio_lie (mN u) (mD u) s (mN_ne u N) ND) as [z [H Z]]; [rewrite E, <- G1; ring|].
  assert (S : forall v, exists s, g2_sgn0 fp_rep v s). { intros v. exists (Z.odd (fval (A0 v))). apply (sgn0_rel _ _ _ fp_rep_ok). exists (fval (A0 v)). split; [apply fp_rep_ok|reflexivity]. }
  destruct (S u) as [s1 H1]. destruct (S z) as [s2 H2]. exists (if xorb s1 s2 then opp2 z else z). split.
  - apply map_iff. exists z, false, s1, s2. split; [exact H|]. split; [exact H1|]. split; [exact H2|]. split; [reflexivity|]. split; [apply m4_ne; exact N|exact (x1_ok u N)].
  - assert (ZZ : z *! z = opp2 (mapg (sswu_x1 u))). { apply (cancel2 (mD u) _ _ ND). transitivity (z *! z *! mD u); [ring|]. rewrite Z, <- G1. ring. }
    rewrite <- ZZ. destruct (xorb s1 s2); ring.
Qed.
