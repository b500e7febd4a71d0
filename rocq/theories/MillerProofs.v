(** * MillerProofs.v — DoubleStep, AddStep and MillerLoop against Miller's algorithm *)
From Coq Require Import ZArith Znumtheory List Bool Lia Ring.
From Verif Require Import PrimeTheory PrimeBls FieldZ TowerModel TowerSpec TowerRing TowerFrob TowerField CharP TowerPow TowerCyc PairingModel PairingSpec FinalExp.
Import ListNotations.
Open Scope Z_scope.

(** ** sparse multiplications *)
Definition sp014 (c0 c1 c4 : E2) : E12 := mkE12 (mkE6 c0 c1 zero2) (mkE6 zero2 c4 zero2).
Lemma mul_014_by_014_ok : forall d0 d1 d4 c0 c1 c4, mul_014_by_014 d0 d1 d4 c0 c1 c4 = mul12 (sp014 d0 d1 d4) (sp014 c0 c1 c4).
Proof.
  intros. unfold mul_014_by_014, sp014. cbv zeta. r2. change (mkE12 (mkE6 d0 d1 zero2) (mkE6 zero2 d4 zero2)) with (six d0 zero2 d1 d4 zero2 zero2). change (mkE12 (mkE6 c0 c1 zero2) (mkE6 zero2 c4 zero2)) with (six c0 zero2 c1 c4 zero2 zero2).
  rewrite six_mul. unfold six. apply E12_eq; apply E6_eq; ring.
Qed.
Lemma mul_by_014_ok : forall z c0 c1 c4, mul_by_014 z c0 c1 c4 = mul12 z (sp014 c0 c1 c4).
Proof.
  intros [[a b c] [d e f]] c0 c1 c4. unfold mul_by_014, sp014. cbv zeta. cbn [C0 C1]. r6. r2. rewrite mul12_def. Local Transparent v6. unfold v6. Local Opaque v6. rewrite !mul6_def. unfold add6, sub6. cbn [B0 B1 B2]. rewrite ?mul6_def. cbn [B0 B1 B2]. apply E12_eq; apply E6_eq; ring.
Qed.

(** ** embedding *)
Lemma iota_add : forall a b, iota (add2 a b) = add12 (iota a) (iota b).
Proof. intros. rewrite !iota_is_six, six_add. apply six_eq; ring. Qed.
Lemma iota_sub : forall a b, iota (sub2 a b) = sub12 (iota a) (iota b).
Proof. intros. transitivity (sub12 (add12 (iota (sub2 a b)) (iota b)) (iota b)); [ring |]. rewrite <- iota_add. replace (add2 (sub2 a b) b) with a by ring. reflexivity. Qed.
Lemma iota_inj : forall a b, iota a = iota b -> a = b.
Proof. intros a b H. exact (f_equal (fun x => B0 (C0 x)) H). Qed.
Lemma iota_0 : iota zero2 = zero12. Proof. reflexivity. Qed.
Lemma iota_1 : iota one2 = one12. Proof. reflexivity. Qed.
Lemma iota_inv : forall a, a <> zero2 -> exists b, mul12 (iota a) b = one12.
Proof. intros a H. destruct (inv2_exists a H) as [b Hb]. exists (iota b). rewrite <- iota_mul2, Hb. reflexivity. Qed.
Lemma cancel12 : forall a a' x y, mul12 a a' = one12 -> mul12 a x = mul12 a y -> x = y.
Proof. intros a a' x y H E. transitivity (mul12 a' (mul12 a x)); [transitivity (mul12 (mul12 a a') x); [rewrite H; ring | ring] |]. rewrite E. transitivity (mul12 (mul12 a a') y); [ring | rewrite H; ring]. Qed.
Definition W2 : E12 := mul12 w12 w12.
Definition W3 : E12 := mul12 w12 (mul12 w12 w12).
Lemma xi_ne0 : xi <> zero2.
Proof. intros H. assert (X : (fval (A0 xi) =? fval (A0 zero2)) = false) by (vm_compute; reflexivity). apply Z.eqb_neq in X. apply X. rewrite H. reflexivity. Qed.
Lemma w_inv : exists wi, mul12 w12 wi = one12.
Proof.
  apply inv12_exists. intros H. apply (f_equal (fun x => B0 (C1 x))) in H. change (B0 (C1 w12)) with one2 in H. apply one2_zero2. exact H.
Qed.
Lemma sp014_sum : forall c0 c1 c4, sp014 c0 c1 c4 = add12 (add12 (iota c0) (mul12 (iota c1) W2)) (mul12 (iota c4) W3).
Proof.
  intros. unfold sp014. change (mkE12 (mkE6 c0 c1 zero2) (mkE6 zero2 c4 zero2)) with (six c0 zero2 c1 c4 zero2 zero2).
  assert (E2' : W2 = six zero2 zero2 one2 zero2 zero2 zero2). { unfold W2. transitivity (mul12 w12 (mul12 w12 one12)); [ring |]. rewrite one_six, !w_six. apply six_eq; ring. }
  assert (E3' : W3 = six zero2 zero2 zero2 one2 zero2 zero2). { unfold W3. transitivity (mul12 w12 (mul12 w12 (mul12 w12 one12))); [ring |]. rewrite one_six, !w_six. apply six_eq; ring. }
  rewrite E2', E3', !iota_six, iota_is_six, !six_add. apply six_eq; ring.
Qed.
Lemma em_iota : forall a, em2 a = iota a. Proof. reflexivity. Qed.

(** ** one point, on the curve over Fp12 and on the twist *)
Lemma w4_eq : forall wi, mul12 w12 wi = one12 -> forall a b, mul12 (mul12 W2 W2) a = mul12 (mul12 W2 W2) b -> a = b.
Proof.
  intros wi H a b E. apply (cancel12 (mul12 W2 W2) (mul12 (mul12 wi wi) (mul12 wi wi))); [| exact E].
  unfold W2. transitivity (mul12 (mul12 (mul12 w12 wi) (mul12 w12 wi)) (mul12 (mul12 w12 wi) (mul12 w12 wi))); [ring | rewrite H; ring].
Qed.
Lemma W3_ne0 : forall y, mul12 y W3 = zero12 -> y = zero12.
Proof.
  intros y E. destruct w_inv as [wi H]. transitivity (mul12 (mul12 y W3) (mul12 wi (mul12 wi wi))).
  - unfold W3. transitivity (mul12 y (mul12 (mul12 w12 wi) (mul12 (mul12 w12 wi) (mul12 w12 wi)))); [rewrite H; ring | ring].
  - rewrite E. ring.
Qed.
Lemma add2_self : forall y, y <> zero2 -> add2 y y <> zero2.
Proof.
  intros y H E. apply H. apply (dom2 (of1 (fc 2))).
  - rewrite <- E. rewrite add2_def, mul2_def. unfold of1. cbn [A0 A1]. apply E2_eq; ring.
  - intros F. apply (f_equal (fun x => fval (A0 x))) in F. assert (X : (fval (A0 (of1 (fc 2))) =? fval (A0 zero2)) = false) by (vm_compute; reflexivity). apply Z.eqb_neq in X. apply X. exact F.
Qed.
Definition x3of (l x x2 : E2) : E2 := sub2 (sub2 (mul2 l l) x) x2.
Definition y3of (l x y x3 : E2) : E2 := sub2 (mul2 l (sub2 x x3)) y.
Definition nline (l x y : E2) (P : G1Affine) : E12 := sp014 (sub2 (mul2 l x) y) (opp2 (mul2 l (of1 (X1 P)))) (of1 (Y1 P)).
Lemma iota_opp : forall a, iota (opp2 a) = opp12 (iota a).
Proof. intros. transitivity (iota (sub2 zero2 a)); [f_equal; ring |]. rewrite iota_sub, iota_0. ring. Qed.
Lemma untwist_third : forall x y T l la x2 X2', untwist (mkG2 x y) T -> mul12 l w12 = iota la -> mul12 X2' W2 = iota x2 ->
  untwist (mkG2 (x3of la x x2) (y3of la x y (x3of la x x2))) (third l T X2').
Proof.
  intros x y [tx ty] l la x2 X2' [Ux Uy] Hl H2. cbn [px py X2 Y2] in *. rewrite em_iota in Ux, Uy. fold W2 in Ux. fold W3 in Uy.
  assert (E3 : mul12 (sub12 (sub12 (mul12 l l) tx) X2') W2 = iota (x3of la x x2)).
  { unfold x3of. rewrite !iota_sub, iota_mul2, <- Hl, <- Ux, <- H2. unfold W2. ring. }
  unfold untwist, third. cbn [px py X2 Y2]. rewrite !em_iota. fold W2. fold W3. split; [exact E3 |].
  unfold y3of. rewrite iota_sub, iota_mul2, iota_sub, <- E3, <- Uy, <- Ux, <- Hl. unfold W3, W2. ring.
Qed.
Lemma untwist_line : forall x y T l la P, untwist (mkG2 x y) T -> mul12 l w12 = iota la -> mul12 W3 (line l T P) = nline la x y P.
Proof.
  intros x y [tx ty] l la P [Ux Uy] Hl. cbn [px py X2 Y2] in *. rewrite em_iota in Ux, Uy. fold W2 in Ux. fold W3 in Uy. unfold line, nline, em1. cbn [px py]. change em2 with iota. rewrite sp014_sum, iota_sub, iota_opp, !iota_mul2, <- Ux, <- Uy, <- Hl. unfold W3, W2. ring.
Qed.
Lemma tangent_twist : forall x y T l, untwist (mkG2 x y) T -> tangent T l ->
  exists la, y <> zero2 /\ mul2 (add2 y y) la = add2 (mul2 x x) (add2 (mul2 x x) (mul2 x x)) /\ mul12 l w12 = iota la.
Proof.
  intros x y [tx ty] l [Ux Uy] [Hn Hl]. cbn [px py X2 Y2] in *. rewrite em_iota in Ux, Uy. fold W2 in Ux. fold W3 in Uy.
  assert (Hy : y <> zero2). { intros ->. apply Hn. apply W3_ne0. rewrite Uy. reflexivity. }
  pose proof (add2_self y Hy) as Hyy. destruct (inv2_exists _ Hyy) as [yi Hyi].
  exists (mul2 (add2 (mul2 x x) (add2 (mul2 x x) (mul2 x x))) yi).
  assert (E : mul2 (add2 y y) (mul2 (add2 (mul2 x x) (add2 (mul2 x x) (mul2 x x))) yi) = add2 (mul2 x x) (add2 (mul2 x x) (mul2 x x))).
  { transitivity (mul2 (mul2 (add2 y y) yi) (add2 (mul2 x x) (add2 (mul2 x x) (mul2 x x)))); [ring | rewrite Hyi; ring]. }
  split; [exact Hy |]. split; [exact E |]. set (la := mul2 _ yi) in *. clearbody la.
  destruct (iota_inv _ Hyy) as [b Hb]. apply (cancel12 (iota (add2 y y)) b); [exact Hb |]. rewrite <- iota_mul2, E. rewrite !iota_add, !iota_mul2, <- Ux, <- Uy.
  transitivity (mul12 (mul12 (add12 ty ty) l) (mul12 W2 W2)); [unfold W3, W2; ring |]. rewrite Hl. ring.
Qed.
Lemma chord_twist : forall x y xq yq T Q l, untwist (mkG2 x y) T -> untwist (mkG2 xq yq) Q -> chord T Q l ->
  exists la, sub2 xq x <> zero2 /\ mul2 (sub2 xq x) la = sub2 yq y /\ mul12 l w12 = iota la.
Proof.
  intros x y xq yq [tx ty] [qx qy] l [Ux Uy] [Vx Vy] [Hn Hl]. cbn [px py X2 Y2] in *. rewrite em_iota in Ux, Uy, Vx, Vy. fold W2 in Ux, Vx. fold W3 in Uy, Vy.
  assert (Hx : sub2 xq x <> zero2).
  { intros E. apply Hn. apply W3_ne0. transitivity (mul12 (iota (sub2 xq x)) w12); [rewrite iota_sub, <- Ux, <- Vx; unfold W3, W2; ring | rewrite E, iota_0; ring]. }
  destruct (inv2_exists _ Hx) as [yi Hyi]. exists (mul2 (sub2 yq y) yi).
  assert (E : mul2 (sub2 xq x) (mul2 (sub2 yq y) yi) = sub2 yq y). { transitivity (mul2 (mul2 (sub2 xq x) yi) (sub2 yq y)); [ring | rewrite Hyi; ring]. }
  split; [exact Hx |]. split; [exact E |]. set (la := mul2 _ yi) in *. clearbody la.
  destruct (iota_inv _ Hx) as [b Hb]. apply (cancel12 (iota (sub2 xq x)) b); [exact Hb |]. rewrite <- iota_mul2, E. rewrite !iota_sub, <- Ux, <- Uy, <- Vx, <- Vy.
  transitivity (mul12 (mul12 (sub12 qx tx) l) W3); [unfold W3, W2; ring |]. rewrite Hl. ring.
Qed.

(** ** DoubleStep and AddStep on the twist *)
Lemma halve_iff : forall x r, e2_halve x r <-> add2 r r = x.
Proof.
  intros [a b] [c d]. unfold e2_halve, bind, ret, fp_div. cbn [A0 A1]. rewrite add2_def. cbn [A0 A1]. split.
  - intros (z0 & H0 & z1 & H1 & E). injection E as -> ->. rewrite <- H0, <- H1. apply E2_eq; ring.
  - intros E. injection E as <- <-. exists c. split; [ring |]. exists d. split; [ring | reflexivity].
Qed.
Lemma two_cancel : forall a b, add2 a a = add2 b b -> a = b.
Proof.
  intros a b H. destruct (E2_dec (sub2 a b) zero2) as [E | E].
  - transitivity (add2 (sub2 a b) b); [ring | rewrite E; ring].
  - exfalso. apply (add2_self _ E). transitivity (sub2 (add2 a a) (add2 b b)); [ring | rewrite H; ring].
Qed.
Lemma half_ex : forall x, exists r, add2 r r = x.
Proof.
  intros x. destruct (inv2_exists (add2 one2 one2) (add2_self _ one2_zero2)) as [h Hh]. exists (mul2 h x). transitivity (mul2 (mul2 (add2 one2 one2) h) x); [ring | rewrite Hh; ring].
Qed.
Definition curve (x y : E2) : Prop := mul2 y y = add2 (mul2 x (mul2 x x)) bTwist.
Lemma b_twist_is : forall x, e2_mul_by_b_twist x = mul2 bTwist x.
Proof. intros. rewrite e2_twist_ok. f_equal. Qed.
Definition dblZ (y Z : E2) : E2 := mul2 (mul2 (mul2 y Z) (mul2 y Z)) (mul2 (add2 y y) (mul2 Z Z)).
Definition dblK (y Z : E2) : E2 := opp2 (mul2 (add2 y y) (mul2 Z Z)).
Lemma double_step_ok : forall x y Z la d, curve x y -> mul2 (add2 y y) la = add2 (mul2 x x) (add2 (mul2 x x) (mul2 x x)) ->
  let x3 := x3of la x x in let y3 := y3of la x y x3 in let Z3 := dblZ y Z in let k := dblK y Z in
  double_step (mkG2P (mul2 x Z) (mul2 y Z) Z) d <->
  d = (mkG2P (mul2 x3 Z3) (mul2 y3 Z3) Z3, mkLine (mul2 k (sub2 (mul2 la x) y)) (mul2 k (opp2 la)) k).
Proof.
  intros x y Z la d Hc Hl x3 y3 Z3 k. unfold double_step, bind, ret. cbv zeta. cbn [PX PY PZ].
  assert (Hb : bTwist = sub2 (mul2 y y) (mul2 x (mul2 x x))). { unfold curve in Hc. rewrite Hc. ring. }
  rewrite !b_twist_is. rewrite Hb. clear Hb Hc.
  assert (V : forall A G, add2 A A = mul2 (mul2 x Z) (mul2 y Z) -> add2 G G = add2 (e2_square (mul2 y Z))
      (e2_add (e2_double (mul2 (sub2 (mul2 y y) (mul2 x (mul2 x x))) (e2_add (e2_double (e2_square Z)) (e2_square Z)))) (mul2 (sub2 (mul2 y y) (mul2 x (mul2 x x))) (e2_add (e2_double (e2_square Z)) (e2_square Z)))) ->
    (mkG2P (e2_mul (e2_sub (e2_square (mul2 y Z)) (e2_add (e2_double (mul2 (sub2 (mul2 y y) (mul2 x (mul2 x x))) (e2_add (e2_double (e2_square Z)) (e2_square Z)))) (mul2 (sub2 (mul2 y y) (mul2 x (mul2 x x))) (e2_add (e2_double (e2_square Z)) (e2_square Z))))) A)
       (e2_sub (e2_square G) (e2_add (e2_double (e2_square (mul2 (sub2 (mul2 y y) (mul2 x (mul2 x x))) (e2_add (e2_double (e2_square Z)) (e2_square Z))))) (e2_square (mul2 (sub2 (mul2 y y) (mul2 x (mul2 x x))) (e2_add (e2_double (e2_square Z)) (e2_square Z))))))
       (e2_mul (e2_square (mul2 y Z)) (e2_sub (e2_square (e2_add (mul2 y Z) Z)) (e2_add (e2_square (mul2 y Z)) (e2_square Z)))),
     mkLine (e2_sub (mul2 (sub2 (mul2 y y) (mul2 x (mul2 x x))) (e2_add (e2_double (e2_square Z)) (e2_square Z))) (e2_square (mul2 y Z)))
        (e2_add (e2_double (e2_square (mul2 x Z))) (e2_square (mul2 x Z))) (e2_neg (e2_sub (e2_square (e2_add (mul2 y Z) Z)) (e2_add (e2_square (mul2 y Z)) (e2_square Z))))) =
    (mkG2P (mul2 x3 Z3) (mul2 y3 Z3) Z3, mkLine (mul2 k (sub2 (mul2 la x) y)) (mul2 k (opp2 la)) k)).
  { intros A G HA HG. revert HG. r2. intros HG. unfold y3, x3, Z3, k, x3of, y3of, dblZ, dblK.
    assert (Q : forall a b c d e f a' b' c' d' e' f', a = a' -> b = b' -> c = c' -> d = d' -> e = e' -> f = f' -> (mkG2P a b c, mkLine d e f) = (mkG2P a' b' c', mkLine d' e' f')) by (intros; subst; reflexivity).
    set (s := mul2 (add2 y y) la) in *. set (t := add2 (mul2 x x) (add2 (mul2 x x) (mul2 x x))) in *.
    assert (Hs : sub2 s t = zero2) by (rewrite Hl; ring).
    apply Q.
    - apply two_cancel. apply (lin22 _ _ (opp2 (mul2 (mul2 y (mul2 (mul2 Z Z) (mul2 Z Z))) (add2 s t))) _ _ (mul2 (mul2 Z Z) (sub2 (mul2 y y) (add2 (add2 (add2 (sub2 (mul2 y y) (mul2 x (mul2 x x))) (sub2 (mul2 y y) (mul2 x (mul2 x x)))) (sub2 (mul2 y y) (mul2 x (mul2 x x)))) (add2 (add2 (add2 (sub2 (mul2 y y) (mul2 x (mul2 x x))) (sub2 (mul2 y y) (mul2 x (mul2 x x)))) (sub2 (mul2 y y) (mul2 x (mul2 x x)))) (add2 (add2 (sub2 (mul2 y y) (mul2 x (mul2 x x))) (sub2 (mul2 y y) (mul2 x (mul2 x x)))) (sub2 (mul2 y y) (mul2 x (mul2 x x)))))))) _ _ Hl HA). unfold s, t. ring.
    - apply two_cancel. apply two_cancel.
      match type of HG with ?L = ?R => apply (lin22 _ _ (mul2 (mul2 (mul2 Z Z) (mul2 Z Z)) (sub2 (add2 (mul2 s s) (add2 (mul2 s t) (mul2 t t))) (mul2 (mul2 x (mul2 y y)) (mul2 (add2 one2 (add2 one2 one2)) (add2 (add2 one2 one2) (add2 one2 one2)))))) _ _ (add2 L R) _ _ Hl HG) end. unfold s, t. ring.
    - ring.
    - apply (lin2 _ _ (mul2 x (mul2 Z Z)) _ _ Hl). unfold s, t. ring.
    - apply (lin2 _ _ (opp2 (mul2 Z Z)) _ _ Hl). unfold s, t. ring.
    - ring. }
  split.
  - intros (A & HA & G & HG & ->). apply halve_iff in HA. apply halve_iff in HG. apply V; [rewrite <- e2_mul_ok; exact HA | exact HG].
  - intros ->. destruct (half_ex (e2_mul (mul2 x Z) (mul2 y Z))) as [A HA]. exists A. split; [apply halve_iff; exact HA |].
    match goal with |- exists a, e2_halve ?E a /\ _ => destruct (half_ex E) as [G HG] end. exists G. split; [apply halve_iff; exact HG |].
    symmetry. apply V; [rewrite <- e2_mul_ok; exact HA | exact HG].
Qed.
Definition addL (x xq Z : E2) : E2 := sub2 (mul2 x Z) (mul2 xq Z).
Lemma add_step_ok : forall x y Z xq yq la, mul2 (sub2 xq x) la = sub2 yq y ->
  let x3 := x3of la x xq in let y3 := y3of la x y x3 in let L := addL x xq Z in let Z3 := mul2 (mul2 L (mul2 L L)) Z in
  add_step (mkG2P (mul2 x Z) (mul2 y Z) Z) (mkG2 xq yq) = (mkG2P (mul2 x3 Z3) (mul2 y3 Z3) Z3, mkLine (mul2 L (sub2 (mul2 la x) y)) (mul2 L (opp2 la)) L).
Proof.
  intros x y Z xq yq la Hl x3 y3 L Z3. unfold add_step. cbv zeta. cbn [PX PY PZ X2 Y2]. r2.
  assert (EL : sub2 (mul2 x Z) (mul2 xq Z) = L) by reflexivity. 
  assert (EO : sub2 (mul2 y Z) (mul2 yq Z) = mul2 la L).
  { unfold L, addL. apply (lin2 _ _ Z _ _ Hl). ring. }
  assert (Ey : yq = add2 (mul2 (sub2 xq x) la) y) by (rewrite Hl; ring).
  rewrite EO, EL.
  assert (Q : forall a b c d e f a' b' c' d' e' f', a = a' -> b = b' -> c = c' -> d = d' -> e = e' -> f = f' -> (mkG2P a b c, mkLine d e f) = (mkG2P a' b' c', mkLine d' e' f')) by (intros; subst; reflexivity).
  unfold y3, x3, Z3, x3of, y3of. assert (Ex : mul2 xq Z = sub2 (mul2 x Z) L) by (rewrite <- EL; ring). rewrite Ey.
  apply Q.
  - match goal with |- ?A = ?B => apply (lin2 A B (mul2 L (mul2 L L)) _ _ Ex) end. ring.
  - match goal with |- ?A = ?B => apply (lin2 A B (opp2 (mul2 la (mul2 L (mul2 L L)))) _ _ Ex) end. ring.
  - ring.
  - ring.
  - ring.
  - reflexivity.
Qed.

(** ** factors removed by the final exponentiation *)
Definition killed (c : E12) : Prop := pow12 c easyN = one12.
Lemma killed_mul : forall a b, killed a -> killed b -> killed (mul12 a b).
Proof. unfold killed. intros a b Ha Hb. rewrite pow12_prod, Ha, Hb. ring. Qed.
Lemma killed_one : killed one12. Proof. apply pow12_one. Qed.
Lemma killed_gen : forall c i n q, 1 <= n -> 0 <= q -> mul12 c i = one12 -> pow12 c n = c -> pow12 c ((n - 1) * (q + 1)) = one12.
Proof. intros c i n q Hn Hq Hi Hc. rewrite pow12_mul by lia. rewrite (pow_pred c i n Hi Hn), Hc, Hi. apply pow12_one. Qed.
Lemma conj12_iota : forall a, conj12 (iota a) = iota a.
Proof. intros. rewrite iota_is_six, conj12_six. apply six_eq; ring. Qed.
Lemma killed_iota : forall a, a <> zero2 -> killed (iota a).
Proof.
  intros a H. destruct (iota_inv a H) as [i Hi]. apply (killed_gen (iota a) i); [exact p6_pos | exact p2_pos | exact Hi |]. rewrite <- conj12_pow. apply conj12_iota.
Qed.
Lemma W3_six : W3 = six zero2 zero2 zero2 one2 zero2 zero2.
Proof. unfold W3. transitivity (mul12 w12 (mul12 w12 (mul12 w12 one12))); [ring |]. rewrite one_six, !w_six. apply six_eq; ring. Qed.
Lemma conj12_W3 : conj12 W3 = opp12 W3.
Proof. rewrite W3_six, conj12_six. transitivity (mul12 (iota (opp2 one2)) (six zero2 zero2 zero2 one2 zero2 zero2)); [rewrite iota_six; apply six_eq; ring | rewrite iota_opp, iota_1; ring]. Qed.
Lemma killed_W3_gen : forall c i n q h, 1 <= n -> 0 <= h -> q + 1 = 2 * h -> mul12 c i = one12 -> pow12 c n = opp12 c -> pow12 c ((n - 1) * (q + 1)) = one12.
Proof.
  intros c i n q h Hn Hh Hq Hi Hc. rewrite Hq, pow12_mul by lia. rewrite (pow_pred c i n Hi Hn), Hc. rewrite pow12_mul by lia. rewrite pow12_2.
  replace (mul12 (mul12 (opp12 c) i) (mul12 (opp12 c) i)) with (mul12 (mul12 c i) (mul12 c i)) by ring. rewrite Hi. replace (mul12 one12 one12) with one12 by ring. apply pow12_one.
Qed.
Lemma p_odd : exists m, 0 <= m /\ pBls = 2 * m + 1. Proof. exists (Z.div2 pBls). split; [discriminate | reflexivity]. Qed.
Lemma pp_even : exists h, 0 <= h /\ pBls * pBls + 1 = 2 * h.
Proof. destruct p_odd as (m & Hm & E). rewrite E. exists (2 * m * m + 2 * m + 1). split; [nia | ring]. Qed.
Lemma killed_W3 : killed W3.
Proof.
  destruct w_inv as [wi H]. destruct pp_even as (h & Hh & Eh). apply (killed_W3_gen W3 (mul12 wi (mul12 wi wi)) (pBls ^ 6) (pBls * pBls) h).
  - exact p6_pos.
  - exact Hh.
  - exact Eh.
  - unfold W3. transitivity (mul12 (mul12 w12 wi) (mul12 (mul12 w12 wi) (mul12 w12 wi))); [ring | rewrite H; ring].
  - rewrite <- conj12_pow. exact conj12_W3.
Qed.

(** ** the invariant between the projective point and Miller's point *)
Definition inv (T : pt) (qp : G2Projective) : Prop := exists x y Z, untwist (mkG2 x y) T /\ curve x y /\ Z <> zero2 /\ qp = mkG2P (mul2 x Z) (mul2 y Z) Z.
Lemma mul2_ne0 : forall a b, a <> zero2 -> b <> zero2 -> mul2 a b <> zero2.
Proof. intros a b Ha Hb E. apply Hb. exact (dom2 a b E Ha). Qed.
Lemma opp2_ne0 : forall a, a <> zero2 -> opp2 a <> zero2.
Proof. intros a Ha E. apply Ha. transitivity (opp2 (opp2 a)); [ring | rewrite E; ring]. Qed.
Lemma curve_third : forall x y xq yq la, curve x y -> curve xq yq -> sub2 xq x <> zero2 -> mul2 (sub2 xq x) la = sub2 yq y -> curve (x3of la x xq) (y3of la x y (x3of la x xq)).
Proof.
  unfold curve. intros x y xq yq la H Hq Hn Hl.
  assert (Ey : yq = add2 y (mul2 (sub2 xq x) la)) by (rewrite Hl; ring). subst yq.
  assert (F : mul2 (sub2 xq x) (sub2 (add2 (mul2 xq xq) (add2 (mul2 xq x) (mul2 x x))) (mul2 la (add2 (add2 y y) (mul2 (sub2 xq x) la)))) = zero2).
  { apply (lin22 _ _ (opp2 one2) _ _ one2 _ _ Hq H). ring. }
  apply dom2 in F; [| exact Hn]. unfold y3of, x3of.
  apply (lin22 _ _ one2 _ _ (sub2 x (sub2 (sub2 (mul2 la la) x) xq)) _ _ H F). ring.
Qed.
Lemma curve_double : forall x y la, curve x y -> mul2 (add2 y y) la = add2 (mul2 x x) (add2 (mul2 x x) (mul2 x x)) -> curve (x3of la x x) (y3of la x y (x3of la x x)).
Proof.
  unfold curve. intros x y la H Hl. unfold y3of, x3of. apply (lin22 _ _ one2 _ _ (sub2 (sub2 (sub2 (mul2 la la) x) x) x) _ _ H Hl). ring.
Qed.
Definition lsp (l : LineEvaluation) : E12 := sp014 (r0 l) (r1 l) (r2 l).
Lemma line_eval_sp : forall k la x y P, lsp (line_eval (mkLine (mul2 k (sub2 (mul2 la x) y)) (mul2 k (opp2 la)) k) P) = mul12 (iota k) (nline la x y P).
Proof.
  intros. unfold lsp, line_eval, nline. cbn [r0 r1 r2]. rewrite !e2_el_ok. unfold sp014.
  change (mkE12 (mkE6 (sub2 (mul2 la x) y) (opp2 (mul2 la (of1 (X1 P)))) zero2) (mkE6 zero2 (of1 (Y1 P)) zero2)) with (six (sub2 (mul2 la x) y) zero2 (opp2 (mul2 la (of1 (X1 P)))) (of1 (Y1 P)) zero2 zero2).
  rewrite iota_six. unfold six. apply E12_eq; apply E6_eq; ring.
Qed.
Lemma one_double : forall T qp l P, inv T qp -> tangent T l ->
  exists qp' ln c, inv (third l T (px T)) qp' /\ killed c /\ lsp (line_eval ln P) = mul12 c (line l T P) /\ (forall d, double_step qp d <-> d = (qp', ln)).
Proof.
  intros T qp l P (x & y & Z & HU & HC & HZ & ->) HT. destruct (tangent_twist x y T l HU HT) as (la & Hy & Hl & Hw).
  exists (mkG2P (mul2 (x3of la x x) (dblZ y Z)) (mul2 (y3of la x y (x3of la x x)) (dblZ y Z)) (dblZ y Z)), (mkLine (mul2 (dblK y Z) (sub2 (mul2 la x) y)) (mul2 (dblK y Z) (opp2 la)) (dblK y Z)), (mul12 (iota (dblK y Z)) W3).
  assert (NZ : mul2 (add2 y y) (mul2 Z Z) <> zero2) by (apply mul2_ne0; [apply add2_self; exact Hy | apply mul2_ne0; exact HZ]).
  split; [| split; [| split]].
  - exists (x3of la x x), (y3of la x y (x3of la x x)), (dblZ y Z). split; [| split; [apply curve_double; assumption | split; [| reflexivity]]].
    + apply untwist_third; [exact HU | exact Hw |]. destruct HU as [Ux _]. exact Ux.
    + unfold dblZ. apply mul2_ne0; [| exact NZ]. apply mul2_ne0; apply mul2_ne0; assumption.
  - apply killed_mul; [| exact killed_W3]. apply killed_iota. unfold dblK. apply opp2_ne0. exact NZ.
  - rewrite line_eval_sp, <- (untwist_line x y T l la P HU Hw). ring.
  - intros d. exact (double_step_ok x y Z la d HC Hl).
Qed.
Lemma one_add : forall T qp Q q l P, inv T qp -> untwist q Q -> on_twist q -> chord T Q l ->
  exists qp' ln c, inv (third l T (px Q)) qp' /\ killed c /\ lsp (line_eval ln P) = mul12 c (line l T P) /\ add_step qp q = (qp', ln).
Proof.
  intros T qp Q [xq yq] l P (x & y & Z & HU & HC & HZ & ->) HQ Hon HT. destruct (chord_twist x y xq yq T Q l HU HQ HT) as (la & Hx & Hl & Hw).
  set (L := addL x xq Z). set (Z3 := mul2 (mul2 L (mul2 L L)) Z).
  exists (mkG2P (mul2 (x3of la x xq) Z3) (mul2 (y3of la x y (x3of la x xq)) Z3) Z3), (mkLine (mul2 L (sub2 (mul2 la x) y)) (mul2 L (opp2 la)) L), (mul12 (iota L) W3).
  assert (NL : L <> zero2).
  { unfold L, addL. intros E. apply (mul2_ne0 (sub2 xq x) Z Hx HZ). transitivity (opp2 (sub2 (mul2 x Z) (mul2 xq Z))); [ring | rewrite E; ring]. }
  split; [| split; [| split]].
  - exists (x3of la x xq), (y3of la x y (x3of la x xq)), Z3. split; [| split; [exact (curve_third x y xq yq la HC Hon Hx Hl) | split; [| reflexivity]]].
    + apply untwist_third; [exact HU | exact Hw |]. destruct HQ as [Ux _]. exact Ux.
    + unfold Z3. apply mul2_ne0; [| exact HZ]. apply mul2_ne0; [exact NL | apply mul2_ne0; exact NL].
  - apply killed_mul; [| exact killed_W3]. apply killed_iota. exact NL.
  - rewrite line_eval_sp, <- (untwist_line x y T l la P HU Hw). ring.
  - exact (add_step_ok x y Z xq yq la Hl).
Qed.

(** ** one pair, one bit *)
Definition zb (b : bool) : Z := if b then 1 else 0.
Lemma one_step : forall P q Q b s s' qp, untwist q Q -> on_twist q -> inv (fst s) qp -> mstep P Q b s s' ->
  exists qp' c g, inv (fst s') qp' /\ killed c /\ snd s' = mul12 (mul12 (snd s) (snd s)) g /\
   (forall res o, loop_step (zb b) P q qp res o <-> o = (qp', mul12 res (mul12 c g))).
Proof.
  intros P q Q b s s' qp HU Hon HI HM. destruct HM as [T f l HT | T f l T' l' HT ET HC]; cbn [fst snd] in *.
  - destruct (one_double T qp l P HI HT) as (qp' & ln & c & HI' & Hc & HL & HD). exists qp', c, (line l T P). split; [exact HI' |]. split; [exact Hc |]. split; [reflexivity |].
    intros res o. unfold loop_step, bind, ret. change (zb false =? 0) with true. cbv iota.
    assert (V : mul_by_014 res (r0 (line_eval ln P)) (r1 (line_eval ln P)) (r2 (line_eval ln P)) = mul12 res (mul12 c (line l T P))) by (rewrite mul_by_014_ok, <- HL; reflexivity).
    split.
    + intros (d & Hd & E). apply HD in Hd. subst d. cbv beta iota zeta in E. rewrite V in E. exact E.
    + intros ->. exists (qp', ln). split; [apply HD; reflexivity |]. cbv beta iota zeta. rewrite V. reflexivity.
  - destruct (one_double T qp l P HI HT) as (qp1 & ln & c & HI1 & Hc & HL & HD). rewrite <- ET in HI1.
    destruct (one_add T' qp1 Q q l' P HI1 HU Hon HC) as (qp' & ln' & c' & HI' & Hc' & HL' & HA).
    exists qp', (mul12 c c'), (mul12 (line l T P) (line l' T' P)). split; [exact HI' |]. split; [apply killed_mul; assumption |]. split; [ring |].
    intros res o. unfold loop_step, bind, ret. change (zb true =? 0) with false. cbv iota.
    assert (V : e12_mul res (mul_014_by_014 (r0 (line_eval ln P)) (r1 (line_eval ln P)) (r2 (line_eval ln P)) (r0 (line_eval ln' P)) (r1 (line_eval ln' P)) (r2 (line_eval ln' P))) = mul12 res (mul12 (mul12 c c') (mul12 (line l T P) (line l' T' P)))).
    { rewrite e12_mul_ok, mul_014_by_014_ok. fold (lsp (line_eval ln P)). fold (lsp (line_eval ln' P)). rewrite HL, HL'. ring. }
    split.
    + intros (d & Hd & E). apply HD in Hd. subst d. cbv beta iota zeta in E. rewrite HA in E. rewrite V in E. exact E.
    + intros ->. exists (qp1, ln). split; [apply HD; reflexivity |]. cbv beta iota zeta. rewrite HA. rewrite V. reflexivity.
Qed.

(** ** all pairs, one bit *)
Definition prods (ss : list (pt * E12)) : E12 := fold_right (fun s a => mul12 (snd s) a) one12 ss.
Definition good (ks : list (G1Affine * G2Affine)) (Qs : list pt) : Prop := Forall2 (fun k Q => untwist (snd k) Q /\ on_twist (snd k)) ks Qs.
Inductive steps_all (R : G1Affine -> pt -> pt * E12 -> pt * E12 -> Prop) : list (G1Affine * G2Affine) -> list pt -> list (pt * E12) -> list (pt * E12) -> Prop :=
| sa_nil : steps_all R [] [] [] []
| sa_cons : forall P q Q s s' ks Qs ss ss', R P Q s s' -> steps_all R ks Qs ss ss' -> steps_all R ((P, q) :: ks) (Q :: Qs) (s :: ss) (s' :: ss').
Lemma all_step : forall b ks Qs ss ss', steps_all (fun P Q => mstep P Q b) ks Qs ss ss' -> good ks Qs -> forall qs, Forall2 (fun s qp => inv (fst s) qp) ss qs ->
  exists qs' c g, Forall2 (fun s qp => inv (fst s) qp) ss' qs' /\ killed c /\ prods ss' = mul12 (mul12 (prods ss) (prods ss)) g /\
   (forall res o, over_k (loop_step (zb b)) ks qs res o <-> o = (qs', mul12 res (mul12 c g))).
Proof.
  intros b ks Qs ss ss' H. induction H as [| P q Q s s' ks Qs ss ss' HM _ IH]; intros HG qs HI.
  - inversion HI; subst. exists [], one12, one12. split; [constructor |]. split; [apply killed_one |]. split; [cbn; ring |]. intros res o. cbn [over_k]. unfold ret. replace (mul12 res (mul12 one12 one12)) with res by ring. reflexivity.
  - inversion HI as [| s0 qp ss0 qs0 HI1 HI2]; subst. inversion HG as [| k0 Q0 ks0 Qs0 HG1 HG2]; subst. cbn [snd] in HG1. destruct HG1 as [HU Hon].
    destruct (one_step P q Q b s s' qp HU Hon HI1 HM) as (qp' & c & g & HI' & Hc & HF & HS).
    destruct (IH HG2 qs0 HI2) as (qs' & c' & g' & HI'' & Hc' & HF' & HS').
    exists (qp' :: qs'), (mul12 c c'), (mul12 g g'). split; [constructor; assumption |]. split; [apply killed_mul; assumption |].
    split; [cbn [prods fold_right]; fold (prods ss') (prods ss); rewrite HF, HF'; ring |].
    intros res o. cbn [over_k]. unfold bind, ret.
    assert (V : mul12 (mul12 res (mul12 c g)) (mul12 c' g') = mul12 res (mul12 (mul12 c c') (mul12 g g'))) by ring.
    split.
    + intros (d & Hd & E). apply HS in Hd. subst d. cbv beta iota zeta in E. destruct E as (d & Hd & E). apply HS' in Hd. subst d. cbv beta iota zeta in E. rewrite V in E. exact E.
    + intros ->. exists (qp', mul12 res (mul12 c g)). split; [apply HS; reflexivity |]. cbv beta iota zeta. exists (qs', mul12 (mul12 res (mul12 c g)) (mul12 c' g')). split; [apply HS'; reflexivity |]. cbv beta iota zeta. rewrite V. reflexivity.
Qed.
Lemma msteps_split : forall b bs ks Qs ss ss'', steps_all (fun P Q => msteps P Q (b :: bs)) ks Qs ss ss'' ->
  exists ss', steps_all (fun P Q => mstep P Q b) ks Qs ss ss' /\ steps_all (fun P Q => msteps P Q bs) ks Qs ss' ss''.
Proof.
  intros b bs ks Qs ss ss'' H. induction H as [| P q Q s s'' ks Qs ss ss'' HM _ (ss' & H1 & H2)].
  - exists []. split; constructor.
  - inversion HM as [| b0 bs0 s0 s' s0'' HA HB]; subst. exists (s' :: ss'). split; constructor; assumption.
Qed.
Lemma all_steps : forall bs ks Qs ss ss', steps_all (fun P Q => msteps P Q bs) ks Qs ss ss' -> good ks Qs -> forall qs, Forall2 (fun s qp => inv (fst s) qp) ss qs ->
  forall c res, killed c -> res = mul12 c (prods ss) -> exists c', killed c' /\ (forall o, main_loop (map zb bs) ks qs res o <-> o = mul12 c' (prods ss')).
Proof.
  induction bs as [| b bs IH]; intros ks Qs ss ss' H HG qs HI c res Hc ->.
  - exists c. split; [exact Hc |]. intros o. cbn [map main_loop]. unfold ret. assert (E : ss = ss').
    { clear - H. induction H as [| P q Q s s' ks Qs ss ss' HM _ IH]; [reflexivity |]. inversion HM; subst. reflexivity. }
    rewrite E. reflexivity.
  - apply msteps_split in H. destruct H as (ss1 & H1 & H2). destruct (all_step b ks Qs ss ss1 H1 HG qs HI) as (qs1 & c1 & g & HI1 & Hc1 & HP & HS).
    assert (V : mul12 (e12_square (mul12 c (prods ss))) (mul12 c1 g) = mul12 (mul12 (mul12 c c) c1) (prods ss1)) by (rewrite e12_square_ok, HP; ring).
    destruct (IH ks Qs ss1 ss' H2 HG qs1 HI1 (mul12 (mul12 c c) c1) _ ltac:(apply killed_mul; [apply killed_mul |]; assumption) eq_refl) as (c' & Hc' & HM).
    exists c'. split; [exact Hc' |]. intros o. cbn [map main_loop]. unfold bind. split.
    + intros (d & Hd & E). apply HS in Hd. subst d. cbv beta iota zeta in E. rewrite V in E. apply HM. exact E.
    + intros E. exists (qs1, mul12 (e12_square (mul12 c (prods ss))) (mul12 c1 g)). split; [apply HS; reflexivity |]. cbv beta iota zeta. rewrite V. apply HM. exact E.
Qed.
Lemma bits_ok : map zb (tl ate_bits) = rev (firstn (length loopCounter - 2) loopCounter). Proof. vm_compute. reflexivity. Qed.
Lemma bits_hd : ate_bits = true :: tl ate_bits. Proof. vm_compute. reflexivity. Qed.
Theorem miller_loop_ok : forall Ps Qs fs, length Ps = length Qs -> Qs <> [] -> Forall on_twist Qs -> (length fs = length Qs) ->
  (forall k P Q, nth_error Ps k = Some P -> nth_error Qs k = Some Q -> exists f, nth_error fs k = Some f /\ miller_value P Q f) ->
  exists c, killed c /\ forall o, miller_loop Ps Qs o <-> o = Some (conj12 (mul12 c (fold_right mul12 one12 fs))).
Proof.
  intros Ps Qs fs HL HN Hon HLf HV.
  assert (D : exists Ts ss', good (combine Ps Qs) Ts /\ steps_all (fun P Q => msteps P Q ate_bits) (combine Ps Qs) Ts (map (fun T => (T, one12)) Ts) ss' /\ map snd ss' = fs /\ Forall2 untwist Qs Ts).
  { clear HN. revert Qs fs HL Hon HLf HV. induction Ps as [| P Ps IH]; intros [| Q Qs] [| f fs] HL Hon HLf HV; try discriminate.
    - exists [], []. split; [constructor |]. split; [constructor |]. split; [reflexivity | constructor].
    - cbn [length] in HL, HLf. destruct (IH Qs fs) as (Ts & ss' & G & S & M & U); try lia.
      + inversion Hon; assumption.
      + intros k P' Q' E1 E2. exact (HV (S k) P' Q' E1 E2).
      + destruct (HV 0%nat P Q eq_refl eq_refl) as (f' & Ef & T & R & HU & HM). cbn in Ef. injection Ef as <-. inversion Hon; subst.
        exists (T :: Ts), ((R, f) :: ss'). cbn [combine map]. split; [constructor; [split; assumption | exact G] |]. split; [constructor; assumption |]. split; [reflexivity | constructor; assumption]. }
  destruct D as (Ts & ss' & HG & HS & HM & HU). rewrite bits_hd in HS. apply msteps_split in HS. destruct HS as (ss1 & H1 & H2).
  assert (HI : Forall2 (fun s qp => inv (fst s) qp) (map (fun T => (T, one12)) Ts) (map affine_to_projective Qs)).
  { clear - HU Hon. induction HU as [| Q T Qs Ts HU _ IH]; [constructor |]. inversion Hon; subst. cbn [map]. constructor; [| apply IH; assumption]. cbn [fst].
    destruct Q as [x y]. exists x, y, one2. split; [exact HU |]. split; [assumption |]. split; [exact one2_zero2 |]. unfold affine_to_projective. cbn [X2 Y2]. change e2_one with one2.
    replace (mul2 x one2) with x by ring. replace (mul2 y one2) with y by ring. reflexivity. }
  destruct (all_step true _ Ts _ ss1 H1 HG _ HI) as (qs1 & c1 & g & HI1 & Hc1 & HP & HS1).
  assert (P1 : forall Ts, prods (map (fun T => (T, one12)) Ts) = one12). { clear. induction Ts as [| T Ts IH]; [reflexivity |]. cbn [map prods fold_right snd]. fold (prods (map (fun T => (T, one12)) Ts)). rewrite IH. ring. }
  rewrite P1 in HP.
  assert (V : mul12 e12_one (mul12 c1 g) = mul12 c1 (prods ss1)) by (rewrite HP, e12_one_ok; ring).
  destruct (all_steps (tl ate_bits) _ Ts ss1 ss' H2 HG qs1 HI1 c1 _ Hc1 eq_refl) as (c' & Hc' & HM').
  exists c'. split; [exact Hc' |]. rewrite bits_ok in HM'.
  assert (PE : prods ss' = fold_right mul12 one12 fs). { rewrite <- HM. clear. induction ss' as [| s ss IH]; [reflexivity |]. cbn [map prods fold_right]. fold (prods ss). rewrite IH. reflexivity. }
  rewrite PE in HM'. intros o. unfold miller_loop, bind, ret. cbv zeta.
  assert (B : ((length Ps =? 0) || negb (length Ps =? length Qs))%nat = false).
  { rewrite HL. rewrite Nat.eqb_refl. destruct Qs; [contradiction | reflexivity]. }
  rewrite B. change first_step with (loop_step (zb true)). split.
  - intros (d & Hd & E). apply HS1 in Hd. subst d. cbv beta iota zeta in E. rewrite V in E. destruct E as (d & Hd & ->). apply HM' in Hd. subst d. reflexivity.
  - intros ->. exists (qs1, mul12 e12_one (mul12 c1 g)). split; [apply HS1; reflexivity |]. cbv beta iota zeta. rewrite V. eexists. split; [apply HM'; reflexivity | reflexivity].
Qed.
Theorem miller_loop_err : forall Ps Qs o, Ps = [] \/ length Ps <> length Qs -> (miller_loop Ps Qs o <-> o = None).
Proof.
  intros Ps Qs o H. unfold miller_loop. cbv zeta. assert (B : ((length Ps =? 0) || negb (length Ps =? length Qs))%nat = true).
  { destruct H as [-> | H]; [reflexivity |]. apply Nat.eqb_neq in H. rewrite H. apply orb_true_r. }
  rewrite B. reflexivity.
Qed.

(** ** the pairing *)
Lemma killed_total : forall c, killed c -> pow12 c (3 * ((pBls ^ 12 - 1) / rBls)) = one12.
Proof. intros c H. rewrite <- total_num. rewrite pow12_mul by (exact easy_pos || exact co_pos). unfold killed in H. rewrite H. apply pow12_one. Qed.
Lemma killed_norm : forall x, x <> zero12 -> killed (mul12 (conj12 x) x).
Proof.
  intros x H. destruct (inv12_exists x H) as [i Hi].
  assert (Hc : mul12 (conj12 x) (conj12 i) = one12) by (rewrite <- conj12_mul, Hi; apply conj12_one).
  apply (killed_gen (mul12 (conj12 x) x) (mul12 (conj12 i) i)); [exact p6_pos | exact p2_pos | |].
  - transitivity (mul12 (mul12 (conj12 x) (conj12 i)) (mul12 x i)); [ring | rewrite Hc, Hi; ring].
  - rewrite <- conj12_pow, conj12_mul, conj12_conj. ring.
Qed.
Lemma conj12_ne0 : forall x, conj12 x <> zero12 -> x <> zero12.
Proof. intros x H ->. apply H. change zero12 with (iota zero2). apply conj12_iota. Qed.
Theorem pair_ok : forall Ps Qs fs r, length Ps = length Qs -> Qs <> [] -> Forall on_twist Qs -> length fs = length Qs ->
  (forall k P Q, nth_error Ps k = Some P -> nth_error Qs k = Some Q -> exists f, nth_error fs k = Some f /\ miller_value P Q f) ->
  pair Ps Qs r -> exists z, r = Some z /\ mul12 z (pow12 (fold_right mul12 one12 fs) (3 * ((pBls ^ 12 - 1) / rBls))) = one12.
Proof.
  intros Ps Qs fs r HL HN Hon HLf HV HP. unfold pair, bind, ret in HP. destruct HP as (m & Hm & HP). destruct (miller_loop_ok Ps Qs fs HL HN Hon HLf HV) as (c & Hc & HM). apply HM in Hm. subst m. destruct HP as (z & Hz & ->). exists z. split; [reflexivity |].
  apply final_exp_iff in Hz. destruct Hz as (H0 & _ & ->). apply conj12_ne0 in H0. pose proof (killed_total _ Hc) as Kc. pose proof (killed_total _ (killed_norm _ H0)) as Kn.
  set (F := fold_right mul12 one12 fs) in *. clearbody F. generalize dependent (3 * ((pBls ^ 12 - 1) / rBls)). intros N Kc Kn.
  rewrite !pow12_prod, Kc in Kn. rewrite <- Kn. ring.
Qed.
