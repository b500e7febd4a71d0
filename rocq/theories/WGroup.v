(** * WGroup.v — the chord-and-tangent law of y^2 = x^3 + b is an abelian group law, over every field in which 2, 3 and b are not zero *)
From Coq Require Import NArith ZArith Ring Lia.
From Verif Require Import WSpec.

Section W.
Variable K : Type.
Variables (k0 k1 : K) (kadd kmul ksub : K -> K -> K) (kopp : K -> K) (kinv : K -> K).
Variable kdec : forall x y : K, {x = y} + {x <> y}.
Variable b : K.
Hypothesis Kr : ring_theory k0 k1 kadd kmul ksub kopp eq.
Hypothesis Kinv : forall x, x <> k0 -> kmul x (kinv x) = k1.
Hypothesis K1 : k1 <> k0.
Hypothesis K2 : kadd k1 k1 <> k0.
Hypothesis K3 : kadd k1 (kadd k1 k1) <> k0.
Hypothesis Kb : b <> k0.
Add Ring KR : Kr.
Infix "+" := kadd. Infix "*" := kmul. Infix "-" := ksub. Notation "- x" := (kopp x). Notation "0" := k0. Notation "1" := k1.
Notation pt := (option (K * K)).
Notation on_curve := (on_curve K kadd kmul b).
Notation neg := (pneg K kopp).
Notation add := (padd K k1 kadd kmul ksub kopp kinv kdec).
Notation slope := (slope K k1 kadd kmul ksub kinv kdec).
Notation mul := (pmul K k1 kadd kmul ksub kopp kinv kdec).

Lemma kdom x y : x * y = 0 -> x <> 0 -> y = 0.
Proof. intros H N. transitivity ((x * kinv x) * y); [rewrite Kinv by exact N; ring|]. transitivity (kinv x * (x * y)); [ring|]. rewrite H. ring. Qed.
Lemma kmul_ne x y : x <> 0 -> y <> 0 -> x * y <> 0.
Proof. intros Hx Hy H. apply Hy. exact (kdom x y H Hx). Qed.
Lemma kcancel c x y : c <> 0 -> c * x = c * y -> x = y.
Proof. intros N E. assert (D : x - y = 0) by (apply (kdom c); [|exact N]; transitivity (c * x - c * y); [ring|rewrite E; ring]). transitivity (y + (x - y)); [ring|rewrite D; ring]. Qed.
Lemma ksub0 x y : x - y = 0 -> x = y. Proof. intros D. transitivity (y + (x - y)); [ring|rewrite D; ring]. Qed.
Lemma ksub_ne x y : x <> y -> x - y <> 0. Proof. intros N D. apply N, ksub0, D. Qed.
Lemma kdouble y : y + y = 0 -> y = 0.
Proof. intros H. apply (kdom (1 + 1)); [|exact K2]. rewrite <- H. ring. Qed.
Lemma self_opp y : y = - y -> y = 0.
Proof. intros H. apply kdouble. transitivity (y - - y); [ring|]. rewrite <- H. ring. Qed.
Lemma opp_opp y : - - y = y. Proof. ring. Qed.

(** ** the slope, uniformly for chords and tangents *)
Definition is_slope (x1 y1 x2 y2 l : K) : Prop := l * (x2 - x1) = y2 - y1 /\ l * (y1 + y2) = x1 * x1 + x1 * x2 + x2 * x2.
Definition ncan (x1 y1 x2 y2 : K) : Prop := ~ (x1 = x2 /\ y1 = - y2).
Notation oc x y := (y * y = x * x * x + b).
Lemma curve_factor x1 y1 x2 y2 : oc x1 y1 -> oc x2 y2 -> (y2 - y1) * (y1 + y2) = (x2 - x1) * (x1 * x1 + x1 * x2 + x2 * x2).
Proof. intros H1 H2. transitivity (y2 * y2 - y1 * y1); [ring|]. rewrite H1, H2. ring. Qed.
Lemma same_x x1 y1 x2 y2 : oc x1 y1 -> oc x2 y2 -> x1 = x2 -> y1 = y2 \/ y1 = - y2.
Proof.
  intros H1 H2 <-. destruct (kdec (y1 + y2) 0) as [E|N].
  - right. transitivity (y1 + y2 - y2); [ring|rewrite E; ring].
  - left. symmetry. apply ksub0. apply (kdom (y1 + y2)); [|exact N]. transitivity ((y2 - y1) * (y1 + y2)); [ring|]. rewrite (curve_factor _ _ _ _ H1 H2). ring.
Qed.
Lemma sum_ne x1 y1 x2 y2 : oc x1 y1 -> oc x2 y2 -> ncan x1 y1 x2 y2 -> x1 = x2 -> y1 = y2 /\ y1 + y1 <> 0.
Proof.
  intros H1 H2 N E. destruct (same_x _ _ _ _ H1 H2 E) as [<-|F]; [|exfalso; apply N; auto]. split; [reflexivity|].
  intros D. apply N. split; [exact E|]. apply kdouble in D. rewrite D. ring.
Qed.
Lemma slope_ok x1 y1 x2 y2 : oc x1 y1 -> oc x2 y2 -> ncan x1 y1 x2 y2 -> is_slope x1 y1 x2 y2 (slope x1 y1 x2 y2).
Proof.
  intros H1 H2 N. unfold is_slope, WSpec.slope. destruct (kdec x1 x2) as [<-|D].
  - destruct (sum_ne _ _ _ _ H1 H2 N eq_refl) as [<- S]. split; [ring|].
    transitivity ((1 + 1 + 1) * (x1 * x1) * ((y1 + y1) * kinv (y1 + y1))); [ring|]. rewrite (Kinv _ S). ring.
  - assert (S : x2 - x1 <> 0) by (apply ksub_ne; auto). split.
    + transitivity ((y2 - y1) * ((x2 - x1) * kinv (x2 - x1))); [ring|]. rewrite (Kinv _ S). ring.
    + transitivity (((y2 - y1) * (y1 + y2)) * kinv (x2 - x1)); [ring|]. rewrite (curve_factor _ _ _ _ H1 H2).
      transitivity ((x2 - x1) * kinv (x2 - x1) * (x1 * x1 + x1 * x2 + x2 * x2)); [ring|]. rewrite (Kinv _ S). ring.
Qed.
Lemma slope_unique x1 y1 x2 y2 l m : oc x1 y1 -> oc x2 y2 -> ncan x1 y1 x2 y2 -> is_slope x1 y1 x2 y2 l -> is_slope x1 y1 x2 y2 m -> l = m.
Proof.
  intros H1 H2 N [L1 L2] [M1 M2]. destruct (kdec x1 x2) as [<-|D].
  - destruct (sum_ne _ _ _ _ H1 H2 N eq_refl) as [<- S]. apply (kcancel (y1 + y1)); [exact S|]. transitivity (l * (y1 + y1)); [ring|]. rewrite L2, <- M2. ring.
  - apply (kcancel (x2 - x1)); [apply ksub_ne; auto|]. transitivity (l * (x2 - x1)); [ring|]. rewrite L1, <- M1. ring.
Qed.
Definition X3 (l x1 x2 : K) : K := l * l - x1 - x2.
Definition Y3 (l x1 y1 x3 : K) : K := l * (x1 - x3) - y1.
(** addition, given any slope *)
Lemma add_slope x1 y1 x2 y2 l : oc x1 y1 -> oc x2 y2 -> ncan x1 y1 x2 y2 -> is_slope x1 y1 x2 y2 l ->
  add (Some (x1, y1)) (Some (x2, y2)) = Some (X3 l x1 x2, Y3 l x1 y1 (X3 l x1 x2)).
Proof.
  intros H1 H2 N L. assert (E : slope x1 y1 x2 y2 = l) by (apply (slope_unique x1 y1 x2 y2); auto using slope_ok).
  unfold padd. cbv zeta. rewrite E. destruct (kdec x1 x2) as [Ex|]; [|reflexivity]. destruct (kdec y1 (- y2)) as [Ey|]; [|reflexivity]. exfalso. apply N. auto.
Qed.
Lemma add_cancel x y : add (Some (x, y)) (Some (x, - y)) = None.
Proof. unfold padd. destruct (kdec x x) as [_|N]; [|congruence]. destruct (kdec y (- - y)) as [_|N]; [reflexivity|]. exfalso. apply N. ring. Qed.
Lemma add_cancel' x y : add (Some (x, - y)) (Some (x, y)) = None.
Proof. unfold padd. destruct (kdec x x) as [_|N]; [|congruence]. destruct (kdec (- y) (- y)) as [_|N]; [reflexivity|]. exfalso. apply N. reflexivity. Qed.
Lemma third_on x1 y1 x2 y2 l : oc x1 y1 -> is_slope x1 y1 x2 y2 l -> oc (X3 l x1 x2) (Y3 l x1 y1 (X3 l x1 x2)).
Proof.
  intros H1 [L1 L2]. assert (E2 : y2 = y1 + l * (x2 - x1)) by (rewrite L1; ring). rewrite E2 in L2.
  assert (L3 : (l * y1) + (l * y1) = x1 * x1 + x1 * x2 + x2 * x2 - l * l * (x2 - x1)) by (rewrite <- L2; ring).
  unfold Y3. set (s := X3 l x1 x2). transitivity (l * l * ((x1 - s) * (x1 - s)) - ((l * y1) + (l * y1)) * (x1 - s) + y1 * y1); [ring|].
  rewrite L3, H1. unfold s, X3. ring.
Qed.
Lemma sym_slope x1 y1 x2 y2 l : is_slope x1 y1 x2 y2 l -> is_slope x2 y2 x1 y1 l.
Proof. intros [A B]. split; [transitivity (- (l * (x2 - x1))); [ring|rewrite A; ring]|]. transitivity (l * (y1 + y2)); [ring|rewrite B; ring]. Qed.
Lemma ncan_sym x1 y1 x2 y2 : ncan x1 y1 x2 y2 -> ncan x2 y2 x1 y1.
Proof. intros N [E F]. apply N. split; [auto|]. rewrite F. ring. Qed.
Lemma ncan_dec x1 y1 x2 y2 : {ncan x1 y1 x2 y2} + {x1 = x2 /\ y1 = - y2}.
Proof. unfold ncan. destruct (kdec x1 x2), (kdec y1 (- y2)); auto; left; tauto. Qed.

Lemma add_on P Q : on_curve P -> on_curve Q -> on_curve (add P Q).
Proof.
  destruct P as [[x1 y1]|]; [|intros _ H; exact H]. destruct Q as [[x2 y2]|]; [|intros H _; exact H]. intros H1 H2. cbn [WSpec.on_curve] in H1, H2.
  destruct (ncan_dec x1 y1 x2 y2) as [N|[-> ->]].
  - pose proof (slope_ok _ _ _ _ H1 H2 N) as L. rewrite (add_slope _ _ _ _ _ H1 H2 N L). exact (third_on _ _ _ _ _ H1 L).
  - rewrite add_cancel'. exact I.
Qed.
Lemma neg_on P : on_curve P -> on_curve (neg P).
Proof. destruct P as [[x y]|]; [|auto]. cbn [WSpec.on_curve pneg]. intros H. transitivity (y * y); [ring|exact H]. Qed.
Lemma neg_neg P : neg (neg P) = P.
Proof. destruct P as [[x y]|]; [|reflexivity]. cbn [pneg]. rewrite opp_opp. reflexivity. Qed.
Lemma add_0_l P : add None P = P. Proof. reflexivity. Qed.
Lemma add_0_r P : add P None = P. Proof. destruct P as [[x y]|]; reflexivity. Qed.
Lemma add_neg P : add P (neg P) = None.
Proof. destruct P as [[x y]|]; [apply add_cancel|reflexivity]. Qed.
Lemma add_comm P Q : on_curve P -> on_curve Q -> add P Q = add Q P.
Proof.
  destruct P as [[x1 y1]|]; [|intros _ _; symmetry; apply add_0_r]. destruct Q as [[x2 y2]|]; [|reflexivity]. intros H1 H2. cbn [WSpec.on_curve] in H1, H2.
  destruct (ncan_dec x1 y1 x2 y2) as [N|[-> ->]].
  - pose proof (slope_ok _ _ _ _ H1 H2 N) as L. rewrite (add_slope _ _ _ _ _ H1 H2 N L). rewrite (add_slope _ _ _ _ _ H2 H1 (ncan_sym _ _ _ _ N) (sym_slope _ _ _ _ _ L)).
    set (l := slope x1 y1 x2 y2) in *. destruct L as [L _]. assert (E : X3 l x2 x1 = X3 l x1 x2) by (unfold X3; ring). rewrite E. f_equal. f_equal. unfold Y3.
    transitivity (l * (x2 - X3 l x1 x2) - l * (x2 - x1) - y1); [ring|]. rewrite L. ring.
  - rewrite add_cancel, add_cancel'. reflexivity.
Qed.
Lemma neg_slope x1 y1 x2 y2 l : is_slope x1 y1 x2 y2 l -> is_slope x1 (- y1) x2 (- y2) (- l).
Proof. intros [A B]. split; [transitivity (- (l * (x2 - x1))); [ring|rewrite A; ring]|]. transitivity (l * (y1 + y2)); [ring|exact B]. Qed.
Lemma neg_add P Q : on_curve P -> on_curve Q -> neg (add P Q) = add (neg P) (neg Q).
Proof.
  destruct P as [[x1 y1]|]; [|reflexivity]. destruct Q as [[x2 y2]|]; [|reflexivity]. intros H1 H2. cbn [pneg]. pose proof (neg_on _ H1) as H1'. pose proof (neg_on _ H2) as H2'. cbn [WSpec.on_curve pneg] in H1, H2, H1', H2'.
  destruct (ncan_dec x1 y1 x2 y2) as [N|[-> ->]].
  - pose proof (slope_ok _ _ _ _ H1 H2 N) as L. rewrite (add_slope _ _ _ _ _ H1 H2 N L).
    assert (N' : ncan x1 (- y1) x2 (- y2)). { intros [E F]. apply N. split; [exact E|]. transitivity (- - y1); [ring|]. rewrite F. ring. }
    rewrite (add_slope _ _ _ _ _ H1' H2' N' (neg_slope _ _ _ _ _ L)). cbn [pneg]. set (l := slope x1 y1 x2 y2). f_equal.
    assert (E : X3 (- l) x1 x2 = X3 l x1 x2) by (unfold X3; ring). rewrite E. f_equal. unfold Y3. ring.
  - rewrite opp_opp, add_cancel, add_cancel'. reflexivity.
Qed.
(** ** -P + (P + Q) = Q *)
Lemma add_fix x1 y1 x2 y2 l : oc x1 y1 -> oc x2 y2 -> is_slope x1 y1 x2 y2 l -> X3 l x1 x2 = x1 -> Y3 l x1 y1 (X3 l x1 x2) = y1 -> False.
Proof.
  intros H1 H2 [L1 L2] E F. rewrite E in F. unfold Y3 in F.
  assert (Y0 : y1 = 0). { apply self_opp. rewrite <- F at 1. ring. } subst y1.
  assert (LL : l * l = x1 + x1 + x2). { unfold X3 in E. transitivity ((l * l - x1 - x2) + x1 + x2); [ring|]. rewrite E. ring. }
  assert (Z3 : (1 + (1 + 1)) * (x1 * x1) = 0).
  { transitivity (x1 * x1 + x1 * x2 + x2 * x2 - (l * l) * (x2 - x1)); [rewrite LL; ring|]. rewrite <- L2.
    transitivity (l * ((0 + y2) - l * (x2 - x1))); [ring|]. rewrite L1. ring. }
  apply (fun h => kdom _ _ h K3) in Z3. destruct (kdec x1 0) as [->|N]; [|apply (fun h => kdom _ _ h N) in Z3; contradiction].
  apply Kb. transitivity (0 * 0 * 0 + b); [ring|]. rewrite <- H1. ring.
Qed.
Lemma add_assoc_neg P Q : on_curve P -> on_curve Q -> add (neg P) (add P Q) = Q.
Proof.
  destruct P as [[x1 y1]|]; [|reflexivity]. destruct Q as [[x2 y2]|]; [|intros H1 H2; rewrite add_0_r, add_comm by auto using neg_on; apply add_neg]. intros H1 H2. pose proof (neg_on _ H1) as H1'. cbn [WSpec.on_curve pneg] in *.
  destruct (ncan_dec x1 y1 x2 y2) as [N|[-> ->]].
  - pose proof (slope_ok _ _ _ _ H1 H2 N) as L. rewrite (add_slope _ _ _ _ _ H1 H2 N L). set (l := slope x1 y1 x2 y2) in *. pose proof (third_on _ _ _ _ _ H1 L) as H3.
    set (s := X3 l x1 x2) in *. set (t := Y3 l x1 y1 s) in *.
    assert (N3 : ncan x1 (- y1) s t).
    { intros [E F]. apply (add_fix x1 y1 x2 y2 l H1 H2 L); fold s; [auto|]. fold t. transitivity (- - t); [ring|]. rewrite <- F. ring. }
    assert (S3 : is_slope x1 (- y1) s t (- l)).
    { destruct L as [L1 L2]. split; unfold t, Y3; [ring|]. assert (E2 : y2 = y1 + l * (x2 - x1)) by (rewrite L1; ring). rewrite E2 in L2.
      transitivity (l * (y1 + (y1 + l * (x2 - x1))) - l * l * (x2 - s)); [ring|]. rewrite L2. unfold s, X3. ring. }
    rewrite (add_slope _ _ _ _ _ H1' H3 N3 S3). assert (E : X3 (- l) x1 s = x2) by (unfold s, X3; ring). rewrite E. f_equal. f_equal. unfold Y3. destruct L as [L1 _].
    transitivity (l * (x2 - x1) + y1); [ring|]. rewrite L1. ring.
  - rewrite add_cancel', opp_opp. apply add_0_r.
Qed.
Lemma add_neg_r P Q : on_curve P -> on_curve Q -> add (add Q P) (neg P) = Q.
Proof. intros HP HQ. rewrite add_comm by auto using add_on, neg_on. rewrite (add_comm Q P) by auto. apply add_assoc_neg; auto. Qed.

(** ** associativity *)
(** the relation between the two slopes through the middle point *)
Lemma slopes_rel x1 x2 x3 y2 l m : is_slope x1 (y2 + l * (x1 - x2)) x2 y2 l -> is_slope x2 y2 x3 (y2 + m * (x3 - x2)) m ->
  (y2 + y2) * (m - l) = x1 * x1 * l * 0 + (X3 l x1 x2 - x2) * (x1 - x2) - (X3 m x2 x3 - x2) * (x3 - x2).
Proof.
  intros [_ A] [_ B].
  transitivity (m * (y2 + (y2 + m * (x3 - x2))) - l * (y2 + l * (x1 - x2) + y2) - m * m * (x3 - x2) + l * l * (x1 - x2)); [ring|]. rewrite A, B. unfold X3. ring.
Qed.
Lemma slope_sum x1 x2 x3 y2 l m k : m - l <> 0 -> is_slope x1 (y2 + l * (x1 - x2)) x2 y2 l -> is_slope x2 y2 x3 (y2 + m * (x3 - x2)) m ->
  x3 = x1 + k * (m - l) ->
  is_slope (X3 l x1 x2) (Y3 l x1 (y2 + l * (x1 - x2)) (X3 l x1 x2)) x3 (y2 + m * (x3 - x2)) (k - l).
Proof.
  intros ML L M HX. pose proof (slopes_rel _ _ _ _ _ _ L M) as R. destruct L as [_ L]. split.
  - apply (kcancel (m - l)); [exact ML|].
    transitivity ((y2 + y2) * (m - l) + (m - l) * (m * (x3 - x2) + l * (X3 l x1 x2 - x2))); [rewrite R|unfold Y3; ring]. unfold X3. rewrite HX. ring.
  - assert (A : (m - l) * (x1 * x1 + x1 * x2 + x2 * x2 - l * l * (x1 - x2)) = l * (x1 * x1 * l * 0 + (X3 l x1 x2 - x2) * (x1 - x2) - (X3 m x2 x3 - x2) * (x3 - x2))).
    { rewrite <- R, <- L. ring. }
    apply (kcancel (m - l)); [exact ML|]. set (s := X3 l x1 x2) in *.
    transitivity ((m - l) * (s * s + s * x3 + x3 * x3) - ((m - l) * (x1 * x1 + x1 * x2 + x2 * x2 - l * l * (x1 - x2)) - l * (x1 * x1 * l * 0 + (X3 l x1 x2 - x2) * (x1 - x2) - (X3 m x2 x3 - x2) * (x3 - x2)))).
    + unfold s, Y3, X3. rewrite HX. ring.
    + rewrite A. unfold s. ring.
Qed.
Lemma assoc_generic x1 y1 x2 y2 x3 y3 : oc x1 y1 -> oc x2 y2 -> oc x3 y3 -> ncan x1 y1 x2 y2 -> ncan x2 y2 x3 y3 ->
  (forall s t, add (Some (x1, y1)) (Some (x2, y2)) = Some (s, t) -> ncan s t x3 y3) ->
  (forall s t, add (Some (x2, y2)) (Some (x3, y3)) = Some (s, t) -> ncan x1 y1 s t) ->
  add (add (Some (x1, y1)) (Some (x2, y2))) (Some (x3, y3)) = add (Some (x1, y1)) (add (Some (x2, y2)) (Some (x3, y3))).
Proof.
  intros H1 H2 H3 N12 N23 Na Nb.
  pose proof (slope_ok _ _ _ _ H1 H2 N12) as L. pose proof (slope_ok _ _ _ _ H2 H3 N23) as M.
  rewrite (add_slope _ _ _ _ _ H1 H2 N12 L) in Na |- *. rewrite (add_slope _ _ _ _ _ H2 H3 N23 M) in Nb |- *.
  set (l := slope x1 y1 x2 y2) in *. set (m := slope x2 y2 x3 y3) in *.
  pose proof (third_on _ _ _ _ _ H1 L) as H12. pose proof (third_on _ _ _ _ _ H2 M) as H23.
  specialize (Na _ _ eq_refl). specialize (Nb _ _ eq_refl).
  assert (E1 : y1 = y2 + l * (x1 - x2)). { destruct L as [L _]. transitivity (y2 - (y2 - y1)); [ring|]. rewrite <- L. ring. }
  assert (E3 : y3 = y2 + m * (x3 - x2)). { destruct M as [M _]. transitivity (y2 + (y3 - y2)); [ring|]. rewrite <- M. ring. }
  assert (R : (y2 + y2) * (m - l) = x1 * x1 * l * 0 + (X3 l x1 x2 - x2) * (x1 - x2) - (X3 m x2 x3 - x2) * (x3 - x2)).
  { apply slopes_rel; [rewrite <- E1; exact L|rewrite <- E3; exact M]. }
  destruct (kdec l m) as [EQ|NE].
  - (* one line: P1 = P3, or P3 = -(P1 + P2) *)
    rewrite <- EQ in *.
    assert (D : (x1 - x3) * (X3 l x1 x2 - x3) = 0).
    { transitivity ((X3 l x1 x2 - x2) * (x1 - x2) - (X3 l x2 x3 - x2) * (x3 - x2)); [unfold X3; ring|].
      transitivity ((y2 + y2) * (l - l)); [rewrite R; ring|ring]. }
    destruct (kdec x1 x3) as [F|F].
    + subst x3. assert (G : y3 = y1) by (rewrite E1, E3; reflexivity). clear E3. clearbody l m. clear E1. subst y3.
      assert (Ha : on_curve (Some (X3 l x1 x2, Y3 l x1 y1 (X3 l x1 x2)))) by exact H12.
      assert (EE : Some (X3 l x2 x1, Y3 l x2 y2 (X3 l x2 x1)) = Some (X3 l x1 x2, Y3 l x1 y1 (X3 l x1 x2))).
      { rewrite <- (add_slope _ _ _ _ _ H1 H2 N12 L). rewrite <- (add_slope _ _ _ _ _ H2 H1 N23 M). apply add_comm; assumption. }
      rewrite EE. apply add_comm; [exact Ha|exact H1].
    + exfalso. apply (fun h => kdom _ _ h (ksub_ne _ _ F)) in D. apply ksub0 in D. apply Na. split; [exact D|]. rewrite D. unfold Y3. rewrite E3, E1. ring.
  - assert (ML : m - l <> 0) by (apply ksub_ne; auto).
    pose (k := (x3 - x1) * kinv (m - l)). assert (HK : k * (m - l) = x3 - x1).
    { unfold k. transitivity ((x3 - x1) * ((m - l) * kinv (m - l))); [ring|]. rewrite (Kinv _ ML). ring. }
    clearbody k l m. subst y1 y3. assert (HX : x3 = x1 + k * (m - l)) by (rewrite HK; ring). assert (HX' : x1 = x3 + k * (l - m)) by (rewrite HX; ring). clear HK.
    set (s := X3 l x1 x2) in *. set (t := X3 m x2 x3) in *.
    pose proof (slope_sum _ _ _ _ _ _ k ML L M HX) as S1. fold s in S1.
    pose proof (slope_sum x3 x2 x1 y2 m l k (ksub_ne _ _ NE) (sym_slope _ _ _ _ _ M) (sym_slope _ _ _ _ _ L) HX') as S2.
    assert (Et : X3 m x3 x2 = t) by (unfold t, X3; ring). rewrite Et in S2.
    assert (Ey : Y3 m x3 (y2 + m * (x3 - x2)) t = Y3 m x2 y2 t) by (unfold Y3; ring). rewrite Ey in S2. apply sym_slope in S2.
    rewrite (add_slope _ _ _ _ _ H12 H3 Na S1). rewrite (add_slope _ _ _ _ _ H1 H23 Nb S2).
    assert (EX : X3 (k - l) s x3 = X3 (k - m) x1 t) by (unfold s, t, X3; rewrite HX; ring).
    f_equal. f_equal; [exact EX|]. destruct S1 as [S1 _]. destruct S2 as [S2 _].
    transitivity (Y3 (k - l) x3 (y2 + m * (x3 - x2)) (X3 (k - l) s x3)).
    + unfold Y3 at 1 3. apply ksub0. transitivity (y2 + m * (x3 - x2) - Y3 l x1 (y2 + l * (x1 - x2)) s - (k - l) * (x3 - s)); [ring|]. rewrite S1. ring.
    + unfold Y3. rewrite <- EX. unfold s, X3. rewrite HX. ring.
Qed.
Theorem add_assoc P Q R : on_curve P -> on_curve Q -> on_curve R -> add (add P Q) R = add P (add Q R).
Proof.
  intros HP HQ HR. destruct P as [[x1 y1]|]; [|reflexivity]. destruct Q as [[x2 y2]|]; [|rewrite add_0_r; reflexivity]. destruct R as [[x3 y3]|]; [|rewrite !add_0_r; reflexivity].
  destruct (ncan_dec x1 y1 x2 y2) as [N12|C12].
  2:{ (* P = -Q *) assert (E : Some (x1, y1) = neg (Some (x2, y2))) by (cbn [pneg]; destruct C12 as [-> ->]; reflexivity). rewrite E.
      rewrite add_assoc_neg by assumption. rewrite (add_comm (neg _)) by (try apply neg_on; assumption). rewrite add_neg. reflexivity. }
  destruct (ncan_dec x2 y2 x3 y3) as [N23|C23].
  2:{ assert (E : Some (x3, y3) = neg (Some (x2, y2))). { cbn [pneg]. destruct C23 as [-> ->]. rewrite opp_opp. reflexivity. } rewrite E.
      rewrite add_neg_r by assumption. rewrite add_neg, add_0_r. reflexivity. }
  cut (forall U V, U = add (Some (x1, y1)) (Some (x2, y2)) -> V = add (Some (x2, y2)) (Some (x3, y3)) ->
    (match U with Some (s, t) => {ncan s t x3 y3} + {U = neg (Some (x3, y3))} | None => True end) ->
    (match V with Some (s, t) => {ncan x1 y1 s t} + {V = neg (Some (x1, y1))} | None => True end) ->
    add (add (Some (x1, y1)) (Some (x2, y2))) (Some (x3, y3)) = add (Some (x1, y1)) (add (Some (x2, y2)) (Some (x3, y3)))).
  { intros C. apply (C _ _ eq_refl eq_refl).
    - destruct (add (Some (x1, y1)) (Some (x2, y2))) as [[s t]|]; [|exact I]. destruct (ncan_dec s t x3 y3) as [|[-> ->]]; [left; assumption|right; reflexivity].
    - destruct (add (Some (x2, y2)) (Some (x3, y3))) as [[s t]|]; [|exact I]. destruct (ncan_dec x1 y1 s t) as [|[-> ->]]; [left; assumption|right]. cbn [pneg]. rewrite opp_opp. reflexivity. }
  intros U V EU EV DU DV. assert (HU : on_curve U) by (rewrite EU; apply add_on; assumption). assert (HV : on_curve V) by (rewrite EV; apply add_on; assumption).
  assert (CU : U = neg (Some (x3, y3)) -> add (add (Some (x1, y1)) (Some (x2, y2))) (Some (x3, y3)) = add (Some (x1, y1)) (add (Some (x2, y2)) (Some (x3, y3)))).
  { intros E. rewrite <- EU, E. rewrite (add_comm (neg _)) by auto using neg_on. rewrite add_neg.
    assert (E3 : Some (x3, y3) = add (neg (Some (x1, y1))) (neg (Some (x2, y2)))). { rewrite <- neg_add by assumption. rewrite <- EU, E, neg_neg. reflexivity. }
    rewrite E3. rewrite (add_comm (Some (x2, y2))) by auto using add_on, neg_on.
    assert (F : add (add (neg (Some (x1, y1))) (neg (Some (x2, y2)))) (neg (neg (Some (x2, y2)))) = neg (Some (x1, y1))) by (apply add_neg_r; auto using neg_on).
    rewrite neg_neg in F. rewrite F. symmetry. apply add_neg. }
  assert (CV : V = neg (Some (x1, y1)) -> add (add (Some (x1, y1)) (Some (x2, y2))) (Some (x3, y3)) = add (Some (x1, y1)) (add (Some (x2, y2)) (Some (x3, y3)))).
  { intros E. rewrite <- EV, E. rewrite add_neg.
    assert (E1 : Some (x1, y1) = add (neg (Some (x2, y2))) (neg (Some (x3, y3)))). { rewrite <- neg_add by assumption. rewrite <- EV, E, neg_neg. reflexivity. }
    rewrite E1. rewrite (add_comm (neg (Some (x2, y2)))) by auto using neg_on.
    assert (F : add (add (neg (Some (x3, y3))) (neg (Some (x2, y2)))) (neg (neg (Some (x2, y2)))) = neg (Some (x3, y3))) by (apply add_neg_r; auto using neg_on).
    rewrite neg_neg in F. rewrite F. rewrite add_comm by auto using neg_on. apply add_neg. }
  destruct U as [[s t]|].
  2:{ exfalso. apply N12. unfold padd in EU. destruct (kdec x1 x2) as [->|]; [|discriminate]. destruct (kdec y1 (- y2)) as [->|]; [|discriminate]. auto. }
  destruct V as [[s' t']|].
  2:{ exfalso. apply N23. unfold padd in EV. destruct (kdec x2 x3) as [->|]; [|discriminate]. destruct (kdec y2 (- y3)) as [->|]; [|discriminate]. auto. }
  destruct DU as [DU|DU]; [|apply CU, DU]. destruct DV as [DV|DV]; [|apply CV, DV].
  apply assoc_generic; try assumption.
  - intros a c E. rewrite <- EU in E. injection E as <- <-. exact DU.
  - intros a c E. rewrite <- EV in E. injection E as <- <-. exact DV.
Qed.

(** ** multiples *)
Lemma mul_0 P : mul 0%N P = None. Proof. reflexivity. Qed.
Lemma mul_succ n P : mul (N.succ n) P = add P (mul n P). Proof. unfold pmul. apply N.iter_succ. Qed.
Lemma mul_1 P : mul 1%N P = P. Proof. apply add_0_r. Qed.
Lemma mul_on n P : on_curve P -> on_curve (mul n P).
Proof. intros H. induction n using N.peano_ind; [exact I|]. rewrite mul_succ. apply add_on; assumption. Qed.
Lemma mul_add n m P : on_curve P -> mul (n + m)%N P = add (mul n P) (mul m P).
Proof.
  intros H. induction n using N.peano_ind; [reflexivity|]. rewrite N.add_succ_l, !mul_succ, IHn. symmetry. apply add_assoc; auto using mul_on.
Qed.
Lemma mul_neg n P : on_curve P -> mul n (neg P) = neg (mul n P).
Proof. intros H. induction n using N.peano_ind; [reflexivity|]. rewrite !mul_succ, IHn. symmetry. apply neg_add; auto using mul_on. Qed.
Lemma mul_None n : mul n None = None.
Proof. induction n using N.peano_ind; [reflexivity|]. rewrite mul_succ, IHn. reflexivity. Qed.
Lemma mul_mul n m P : on_curve P -> mul (n * m)%N P = mul n (mul m P).
Proof.
  intros H. induction n using N.peano_ind; [reflexivity|]. rewrite N.mul_succ_l, mul_add by exact H. rewrite mul_succ, IHn. apply add_comm; auto using mul_on.
Qed.
Lemma mul_padd n P Q : on_curve P -> on_curve Q -> mul n (add P Q) = add (mul n P) (mul n Q).
Proof.
  intros HP HQ. induction n using N.peano_ind; [reflexivity|]. rewrite !mul_succ, IHn. rewrite !add_assoc by auto using mul_on, add_on. f_equal.
  rewrite <- (add_assoc Q), (add_comm Q), add_assoc by auto using mul_on, add_on. reflexivity.
Qed.
End W.
