(** * JacProofs.v — the Jacobian arithmetic of g2.go is the group law of E'(Fp2) *)
From Coq Require Import ZArith NArith List Bool Lia Ring.
From Verif Require Import FieldZ PrimeBls TowerModel TowerSpec TowerRing TowerFrob TowerField TowerCyc PairingModel PairingSpec MillerProofs WSpec G2Spec G2Group G2Model CmpProofs.
Import ListNotations.
Open Scope Z_scope.
Local Notation "a +! b" := (add2 a b) (at level 50, left associativity).
Local Notation "a -! b" := (sub2 a b) (at level 50, left associativity).
Local Notation "a *! b" := (mul2 a b) (at level 40, left associativity).

Lemma jrep_ex J : exists P, jrep J P.
Proof.
  destruct (E2_dec (JZ J) zero2) as [E|N]; [exists None; exact E|]. pose (i := inv2 (JZ J)). pose proof (inv2_ok _ N) as I. fold i in I.
  exists (Some (JX J *! (i *! i), JY J *! (i *! i *! i))). split; [exact N|]. split.
  - transitivity (JX J *! ((JZ J *! i) *! (JZ J *! i))); [rewrite I; ring|ring].
  - transitivity (JY J *! ((JZ J *! i) *! (JZ J *! i) *! (JZ J *! i))); [rewrite I; ring|ring].
Qed.
Lemma jrep_fun J P Q : jrep J P -> jrep J Q -> P = Q.
Proof.
  destruct P as [[x y]|], Q as [[x' y']|]; cbn [jrep]; try tauto.
  intros (N & E1 & E2) (_ & E3 & E4). assert (N2 : JZ J *! JZ J <> zero2) by (apply mul2_ne0; assumption). assert (N3 : JZ J *! JZ J *! JZ J <> zero2) by (apply mul2_ne0; assumption).
  f_equal. f_equal.
  - apply (cancel2 (JZ J *! JZ J)); [exact N2|]. transitivity (JX J); [rewrite E1; ring|rewrite E3; ring].
  - apply (cancel2 (JZ J *! JZ J *! JZ J)); [exact N3|]. transitivity (JY J); [rewrite E2; ring|rewrite E4; ring].
Qed.

Lemma double_ok J P : on_g2 P -> jrep J P -> jrep (g2_jacobian_double J) (gadd P P).
Proof.
  intros HP HJ. unfold g2_jacobian_double. cbv zeta. r2. destruct J as [X Y Z]. cbn [JX JY JZ] in *.
  destruct P as [[x y]|]; cbn [jrep JX JY JZ] in HJ.
  - destruct HJ as (N & EX & EY). destruct (E2_dec y zero2) as [->|Ny].
    + replace (Some (x, zero2)) with (Some (x, opp2 zero2)) at 2 by (f_equal; f_equal; ring). rewrite gadd_opp. cbn [jrep JZ]. rewrite EY. ring.
    + pose (l := (add2 one2 (add2 one2 one2) *! (x *! x)) *! inv2 (y +! y)). pose proof (inv2_ok _ (add2_self y Ny)) as I.
      assert (L : l *! (y +! y) = add2 one2 (add2 one2 one2) *! (x *! x)).
      { unfold l. transitivity (add2 one2 (add2 one2 one2) *! (x *! x) *! ((y +! y) *! inv2 (y +! y))); [ring|]. rewrite I. ring. }
      clearbody l. rewrite (gadd_tangent x y l HP Ny L). cbn [jrep JX JY JZ]. subst X Y.
      assert (EZ : (Z +! y *! (Z *! Z *! Z)) *! (Z +! y *! (Z *! Z *! Z)) -! y *! (Z *! Z *! Z) *! (y *! (Z *! Z *! Z)) -! Z *! Z = (y +! y) *! (Z *! Z *! Z *! Z)) by ring.
      rewrite EZ. set (X0 := x *! (Z *! Z)). set (Y0 := y *! (Z *! Z *! Z)).
      assert (EM : X0 *! X0 +! X0 *! X0 +! X0 *! X0 = l *! ((y +! y) *! (Z *! Z *! Z *! Z))).
      { transitivity (add2 one2 (add2 one2 one2) *! (x *! x) *! (Z *! Z *! Z *! Z)); [unfold X0; ring|]. rewrite <- L. ring. }
      rewrite EM. unfold X0, Y0, x3of, y3of. split; [|split; ring].
      apply mul2_ne0; [apply add2_self, Ny|]. repeat apply mul2_ne0; exact N.
  - cbn [gadd padd jrep JZ]. rewrite HJ. ring.
Qed.

(** the chord formulas, for finite operands *)
Lemma add_core X1 Y1 Z1 X2 Y2 Z2 P1 P2 : on_g2 P1 -> on_g2 P2 -> P1 <> None -> P2 <> None ->
  jrep (mkJac X1 Y1 Z1) P1 -> jrep (mkJac X2 Y2 Z2) P2 ->
  let H := X2 *! (Z1 *! Z1) -! X1 *! (Z2 *! Z2) in
  let rr := Y2 *! Z1 *! (Z1 *! Z1) -! Y1 *! Z2 *! (Z2 *! Z2) in
  let r := rr +! rr in
  let V := X1 *! (Z2 *! Z2) *! ((H +! H) *! (H +! H)) in
  let J := H *! ((H +! H) *! (H +! H)) in
  let X3 := r *! r -! J -! V -! V in
  let SJ := Y1 *! Z2 *! (Z2 *! Z2) *! J in
  let Y3 := (V -! X3) *! r -! (SJ +! SJ) in
  let Z3 := ((Z2 +! Z1) *! (Z2 +! Z1) -! Z1 *! Z1 -! Z2 *! Z2) *! H in
  (P1 <> P2 -> jrep (mkJac X3 Y3 Z3) (gadd P1 P2)) /\ (P1 = P2 -> jrep (mkJac X3 Y3 Z3) None).
Proof.
  intros O1 O2 F1 F2 R1 R2. destruct P1 as [[x1 y1]|]; [|congruence]. destruct P2 as [[x2 y2]|]; [|congruence]. cbn [jrep JX JY JZ] in R1, R2.
  destruct R1 as (N1 & -> & ->). destruct R2 as (N2 & -> & ->). intros H rr r V J X3 SJ Y3 Z3.
  assert (EH : H = (x2 -! x1) *! (Z1 *! Z1 *! (Z2 *! Z2))) by (unfold H; ring).
  destruct (E2_dec x1 x2) as [<-|N].
  - assert (EZ : Z3 = zero2) by (unfold Z3; rewrite EH; ring). split; [|intros _; exact EZ].
    intros D. destruct (same_x2 x1 y1 y2 O1 O2) as [<-|E]; [congruence|]. subst y1.
    replace (Some (x1, y2)) with (Some (x1, opp2 (opp2 y2))) by (rewrite opp2_opp; reflexivity). rewrite gadd_opp. exact EZ.
  - split; [|congruence]. intros _. pose proof (inv2_ok (x2 -! x1)) as I. assert (D : x2 -! x1 <> zero2) by (intros E; apply N; symmetry; apply sub2_0, E). specialize (I D).
    pose (l := (y2 -! y1) *! inv2 (x2 -! x1)). assert (L : l *! (x2 -! x1) = y2 -! y1).
    { unfold l. transitivity ((y2 -! y1) *! ((x2 -! x1) *! inv2 (x2 -! x1))); [ring|]. rewrite I. ring. }
    clearbody l. rewrite (gadd_chord x1 y1 x2 y2 l O1 O2 N L). cbn [jrep JX JY JZ].
    assert (EZ : Z3 = (x2 -! x1 +! (x2 -! x1)) *! (Z1 *! Z1 *! Z1 *! (Z2 *! Z2 *! Z2))) by (unfold Z3; rewrite EH; ring).
    assert (Er : r = l *! Z3).
    { rewrite EZ. transitivity (((l *! (x2 -! x1)) +! (l *! (x2 -! x1))) *! (Z1 *! Z1 *! Z1 *! (Z2 *! Z2 *! Z2))); [|ring]. rewrite L. unfold r, rr. ring. }
    assert (EJ : J = (x2 -! x1) *! (Z3 *! Z3)) by (unfold J; rewrite EZ, EH; ring).
    assert (EV : V = x1 *! (Z3 *! Z3)) by (unfold V; rewrite EZ, EH; ring).
    assert (ESJ : SJ +! SJ = y1 *! (Z3 *! Z3 *! Z3)) by (unfold SJ; rewrite EJ, EZ; ring).
    assert (EX : X3 = x3of l x1 x2 *! (Z3 *! Z3)) by (unfold X3; rewrite Er, EJ, EV; unfold x3of; ring).
    split; [|split].
    + rewrite EZ. apply mul2_ne0; [apply add2_self, D|]. repeat apply mul2_ne0; assumption.
    + exact EX.
    + unfold Y3. rewrite ESJ, EX, EV, Er. unfold y3of. ring.
Qed.
Lemma sel2 (s : bool) (x y : E2) : e2_select s x y = if s then x else y.
Proof. unfold e2_select, sel. destruct s; [destruct x|destruct y]; reflexivity. Qed.
Lemma jeta J : mkJac (JX J) (JY J) (JZ J) = J. Proof. destruct J; reflexivity. Qed.

(** equality of points in the representation used by the test *)
Lemma test_eq X1 Y1 Z1 X2 Y2 Z2 P1 P2 : P1 <> None -> P2 <> None -> jrep (mkJac X1 Y1 Z1) P1 -> jrep (mkJac X2 Y2 Z2) P2 ->
  (X1 *! (Z2 *! Z2) = X2 *! (Z1 *! Z1) /\ Y1 *! Z2 *! (Z2 *! Z2) = Y2 *! Z1 *! (Z1 *! Z1) <-> P1 = P2).
Proof.
  intros F1 F2 R1 R2. destruct P1 as [[x1 y1]|]; [|congruence]. destruct P2 as [[x2 y2]|]; [|congruence]. cbn [jrep JX JY JZ] in R1, R2.
  destruct R1 as (N1 & -> & ->). destruct R2 as (N2 & -> & ->). split.
  - intros [E F]. f_equal. f_equal.
    + apply (cancel2 (Z1 *! Z1 *! (Z2 *! Z2))); [repeat apply mul2_ne0; assumption|]. transitivity (x1 *! (Z1 *! Z1) *! (Z2 *! Z2)); [ring|]. rewrite E. ring.
    + apply (cancel2 (Z1 *! Z1 *! Z1 *! (Z2 *! Z2 *! Z2))); [repeat apply mul2_ne0; assumption|]. transitivity (y1 *! (Z1 *! Z1 *! Z1) *! Z2 *! (Z2 *! Z2)); [ring|]. rewrite F. ring.
  - intros E. injection E as -> ->. split; ring.
Qed.

Section Rep.
Variable rep : Fp -> rel Z.
Hypothesis Hrep : rep_ok rep.
(** the possible results of an addition *)
Definition add_result (P Q : gpoint) (r : G2Jacobian) : Prop :=
  jrep r (gadd P Q) \/ (jrep r None /\ (P = None \/ Q = None \/ P = Q)) \/ (Q = None /\ jrep r (gadd P P)).
Lemma add_sound p a r P Q : on_g2 P -> on_g2 Q -> jrep p P -> jrep a Q -> g2_jacobian_add_assign rep p a r -> add_result P Q r.
Proof.
  intros OP OQ HP HQ H. unfold g2_jacobian_add_assign, bind, ret in H. destruct H as [pz [Hpz [az [Haz [un [Hun [sn [Hsn ->]]]]]]]].
  rewrite !sel2 in *. revert Hun Hsn. r2. intros Hun Hsn. unfold add_result.
  destruct pz.
  2:{ apply (nz_false _ Hrep) in Hpz. left. assert (E : P = None) by (apply (jrep_fun p); [exact HP|exact Hpz]). subst P. rewrite gadd_0_l, jeta. exact HQ. }
  destruct az.
  2:{ apply (nz_false _ Hrep) in Haz. left. assert (E : Q = None) by (apply (jrep_fun a); [exact HQ|exact Haz]). subst Q. rewrite gadd_0_r, jeta. exact HP. }
  pose proof (double_ok p P OP HP) as DP.
  destruct (un || sn)%bool eqn:EU.
  2:{ rewrite jeta. apply orb_false_iff in EU. destruct EU as [-> ->]. apply (ne_false _ Hrep) in Hun. apply (ne_false _ Hrep) in Hsn.
      destruct P as [[x1 y1]|] eqn:EP; [|right; left; split; [exact DP|auto]].
      destruct Q as [[x2 y2]|] eqn:EQ; [|right; right; split; [reflexivity|exact DP]].
      left. destruct p as [Xp Yp Zp], a as [Xa Ya Za]. cbn [JX JY JZ] in *.
      assert (E : Some (x2, y2) = Some (x1, y1)) by (apply (test_eq Xa Ya Za Xp Yp Zp); [discriminate|discriminate|exact HQ|exact HP|split; [exact Hun|exact Hsn]]).
      rewrite E. exact DP. }
  destruct P as [[x1 y1]|] eqn:EP.
  2:{ right. left. split; [|auto]. cbn [jrep JZ] in *. rewrite HP. ring. }
  destruct Q as [[x2 y2]|] eqn:EQ.
  2:{ right. left. split; [|auto]. cbn [jrep JZ] in *. rewrite HQ. ring. }
  destruct p as [Xp Yp Zp], a as [Xa Ya Za]. cbn [JX JY JZ] in *.
  destruct (add_core Xa Ya Za Xp Yp Zp (Some (x2, y2)) (Some (x1, y1)) OQ OP ltac:(discriminate) ltac:(discriminate) HQ HP) as [C1 C2]. cbv zeta in C1, C2.
  assert (D : {Some (x2, y2) = Some (x1, y1)} + {Some (x2, y2) <> Some (x1, y1)}) by (decide equality; decide equality; apply E2_dec).
  destruct D as [D|D]; [right; left; split; [exact (C2 D)|auto]|]. left. rewrite (gadd_comm (Some (x1, y1))) by assumption. exact (C1 D).
Qed.
Lemma add_total p a : exists r, g2_jacobian_add_assign rep p a r.
Proof.
  assert (T1 : forall x, exists b, e2_not_zero rep x b).
  { intros x. destruct (E2_dec x zero2) as [->|N]; [exists false; apply (nz_false _ Hrep); reflexivity|exists true; apply (nz_true _ Hrep); exact N]. }
  assert (T2 : forall x y, exists b, e2_not_equal rep x y b).
  { intros x y. destruct (E2_dec x y) as [->|N]; [exists false; apply (ne_false _ Hrep); reflexivity|exists true; apply (ne_true _ Hrep); exact N]. }
  unfold g2_jacobian_add_assign, bind, ret. destruct (T1 (JZ p)) as [b1 H1]. destruct (T1 (JZ a)) as [b2 H2].
  destruct (T2 (e2_mul (JX a) (e2_square (JZ p))) (e2_mul (JX p) (e2_square (JZ a)))) as [b3 H3].
  destruct (T2 (e2_mul (e2_mul (JY a) (JZ p)) (e2_square (JZ p))) (e2_mul (e2_mul (JY p) (JZ a)) (e2_square (JZ a)))) as [b4 H4].
  eexists. exists b1. split; [exact H1|]. exists b2. split; [exact H2|]. exists b3. split; [exact H3|]. exists b4. split; [exact H4|]. reflexivity.
Qed.
End Rep.
(** the honest prover *)
Lemma add_canon p a r P Q : on_g2 P -> on_g2 Q -> jrep p P -> jrep a Q -> g2_jacobian_add_assign fp_canon p a r -> jrep r (gadd P Q).
Proof.
  intros OP OQ HP HQ H. pose proof H as H'. apply (add_sound _ fp_canon_ok p a r P Q) in H'; try assumption.
  unfold g2_jacobian_add_assign, bind, ret in H. destruct H as [pz [Hpz [az [Haz [un [Hun [sn [Hsn ->]]]]]]]]. rewrite !sel2 in *.
  destruct P as [[x1 y1]|] eqn:EP.
  2:{ destruct pz; [apply nz_canon in Hpz; exfalso; apply Hpz; exact HP|]. rewrite jeta. exact HQ. }
  destruct pz; [|apply (nz_false _ fp_canon_ok) in Hpz; destruct HP as [N _]; exfalso; apply N; exact Hpz].
  destruct Q as [[x2 y2]|] eqn:EQ.
  2:{ destruct az; [apply nz_canon in Haz; exfalso; apply Haz; exact HQ|]. rewrite jeta. exact HP. }
  destruct az; [|apply (nz_false _ fp_canon_ok) in Haz; destruct HQ as [N _]; exfalso; apply N; exact Haz].
  destruct H' as [H'|[[H' [E|[E|E]]]|[E _]]]; try discriminate; [exact H'|]. 
  destruct (un || sn)%bool eqn:EU; [|rewrite <- E, jeta; apply double_ok; [exact OP|exact HP]].
  exfalso. revert Hun Hsn. r2. intros Hun Hsn. destruct p as [Xp Yp Zp], a as [Xa Ya Za]. cbn [JX JY JZ] in *.
  symmetry in E. apply (test_eq Xa Ya Za Xp Yp Zp (Some (x2, y2)) (Some (x1, y1)) ltac:(discriminate) ltac:(discriminate) HQ HP) in E. destruct E as [E1 E2].
  apply orb_true_iff in EU. destruct EU as [->| ->]; [apply ne_canon in Hun; apply Hun; exact E1|apply ne_canon in Hsn; apply Hsn; exact E2].
Qed.
Lemma neg_jac J P : jrep J P -> jrep (g2_jacobian_neg J) (gneg P).
Proof.
  destruct P as [[x y]|]; unfold g2_jacobian_neg; cbn [jrep gneg pneg JX JY JZ]; [|auto]. intros (N & E1 & E2). split; [exact N|]. split; [exact E1|]. r2. rewrite E2. ring.
Qed.
