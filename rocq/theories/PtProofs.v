(** * PtProofs.v — the limb-level points of PtModel.v represent points of the curve, and the formulas compute the group law *)
From Coq Require Import ZArith Znumtheory List Lia Bool Arith.
From Verif Require Import Field FieldLemmas PrimeTheory FieldZ KeccakModel SliceModel EdBytes EdCurve FeModel FeProofs FeField ScModel PtModel.
From Verif Require EdSpec.
Import ListNotations.
Open Scope Z_scope.
Add Ring Kr2 : (Fq_ring q5).
Local Infix "*" := qmul. Local Infix "-" := qsub. Local Infix "+" := qadd.

(** ** field elements *)
Lemma om a b : fe_ok a -> fe_ok b -> fe_ok (feMul a b). Proof. intros. apply feMul_ok; apply ok_doc; auto. Qed.
Lemma os a : fe_ok a -> fe_ok (feSquare a). Proof. intros. apply feSquare_ok; apply ok_doc; auto. Qed.
Lemma oa a b : fe_ok a -> fe_ok b -> fe_ok (fe_add a b). Proof. intros. apply fe_add_ok; apply ok_doc; auto. Qed.
Lemma ob a b : fe_ok a -> fe_ok b -> fe_ok (fe_sub a b). Proof. intros. apply fe_sub_ok; auto. apply ok_doc; auto. Qed.
Lemma on_ a : fe_ok a -> fe_ok (fe_neg a). Proof. intros. apply fe_neg_ok; auto. Qed.
Lemma oi a : fe_ok a -> fe_ok (fe_invert a). Proof. intros. apply fe_invert_ok; apply ok_doc; auto. Qed.
Lemma o0 : fe_ok fe_zero. Proof. unfold fe_ok, limbs_below; cbn [fe_zero l0 l1 l2 l3 l4]; lia. Qed.
Lemma o1 : fe_ok fe_one. Proof. unfold fe_ok, limbs_below; cbn [fe_one l0 l1 l2 l3 l4]; lia. Qed.
Lemma hm a b : fe_ok a -> fe_ok b -> FK (feMul a b) = FK a * FK b. Proof. intros. apply FK_mul; apply ok_doc; auto. Qed.
Lemma hs a : fe_ok a -> FK (feSquare a) = FK a * FK a. Proof. intros. apply FK_sq; apply ok_doc; auto. Qed.
Lemma ha a b : fe_ok a -> fe_ok b -> FK (fe_add a b) = FK a + FK b. Proof. intros. apply FK_add; apply ok_doc; auto. Qed.
Lemma hb a b : fe_ok a -> fe_ok b -> FK (fe_sub a b) = FK a - FK b. Proof. intros. apply FK_sub; auto. apply ok_doc; auto. Qed.
Lemma hn a : fe_ok a -> FK (fe_neg a) = qopp (FK a). Proof. intros. apply FK_neg; auto. Qed.
Lemma h0 : FK fe_zero = K0. Proof. reflexivity. Qed.
Lemma h1 : FK fe_one = K1. Proof. reflexivity. Qed.
Ltac okk := lazymatch goal with
  | |- fe_ok (feMul _ _) => apply om; okk | |- fe_ok (feSquare _) => apply os; okk | |- fe_ok (fe_add _ _) => apply oa; okk
  | |- fe_ok (fe_sub _ _) => apply ob; okk | |- fe_ok (fe_neg _) => apply on_; okk | |- fe_ok (fe_invert _) => apply oi; okk
  | |- fe_ok fe_zero => exact o0 | |- fe_ok fe_one => exact o1 | _ => assumption end.
Ltac ok4 := lazymatch goal with |- _ /\ _ => split; [okk|ok4] | _ => okk end.
Ltac hh := repeat first [rewrite hb by okk | rewrite ha by okk | rewrite hm by okk | rewrite hs by okk | rewrite hn by okk].
Lemma hi a : fe_ok a -> FK a <> K0 -> FK (fe_invert a) * FK a = K1.
Proof. intros H N. rewrite FK_invert_inv by (apply ok_doc; auto). apply qinv_l; [exact EdSpec.q_prime|exact N]. Qed.
Lemma Knz (x y : Fq q5) : x <> K0 -> y <> K0 -> x * y <> K0. Proof. intros H G E. destruct (Kz _ _ E); auto. Qed.
Lemma Kcancel (z x y : Fq q5) : z <> K0 -> x * z = y * z -> x = y.
Proof. intros N E. assert (G : (x - y) * z = K0) by (transitivity (x * z - y * z); [ring|rewrite E; ring]). destruct (Kz _ _ G); [apply K_sub; auto|contradiction]. Qed.
(** the constant d *)
Lemma d_ok : fe_ok fe_d /\ FK fe_d = EdSpec.d.
Proof. split; [unfold fe_ok, limbs_below; vm_compute; repeat split; congruence|rewrite EdSpec.d_val; apply Fq_ext; vm_compute; reflexivity]. Qed.
Lemma d2_ok : fe_ok fe_d2 /\ FK fe_d2 = EdSpec.d + EdSpec.d.
Proof. destruct d_ok as [H E]. unfold fe_d2. split; [okk|]. rewrite ha, E by exact H. reflexivity. Qed.
Lemma a_is : EdSpec.a = qopp K1. Proof. apply Fq_ext. vm_compute. reflexivity. Qed.

(** ** representation *)
Notation Pt := EdSpec.Pt.
Definition r1 (p : p1p1) (A : Pt) : Prop := (fe_ok (x1 p) /\ fe_ok (y1 p) /\ fe_ok (z1 p) /\ fe_ok (t1 p)) /\
  FK (z1 p) <> K0 /\ FK (t1 p) <> K0 /\ FK (x1 p) = fst A * FK (z1 p) /\ FK (y1 p) = snd A * FK (t1 p) /\ EdSpec.on A.
Definition r2 (p : projp2) (A : Pt) : Prop := (fe_ok (x2 p) /\ fe_ok (y2 p) /\ fe_ok (z2 p)) /\
  FK (z2 p) <> K0 /\ FK (x2 p) = fst A * FK (z2 p) /\ FK (y2 p) = snd A * FK (z2 p) /\ EdSpec.on A.
Definition r3 (p : point) (A : Pt) : Prop := (fe_ok (x3 p) /\ fe_ok (y3 p) /\ fe_ok (z3 p) /\ fe_ok (t3 p)) /\
  FK (z3 p) <> K0 /\ FK (x3 p) = fst A * FK (z3 p) /\ FK (y3 p) = snd A * FK (z3 p) /\ FK (t3 p) = fst A * snd A * FK (z3 p) /\ EdSpec.on A.
Definition rc (p : pcached) (A : Pt) : Prop := (fe_ok (cyp p) /\ fe_ok (cym p) /\ fe_ok (cz p) /\ fe_ok (ct p)) /\
  FK (cz p) <> K0 /\ FK (cyp p) = (snd A + fst A) * FK (cz p) /\ FK (cym p) = (snd A - fst A) * FK (cz p) /\
  FK (ct p) = (EdSpec.d + EdSpec.d) * (fst A * snd A) * FK (cz p) /\ EdSpec.on A.
Definition ra (p : acached) (A : Pt) : Prop := (fe_ok (ayp p) /\ fe_ok (aym p) /\ fe_ok (at2 p)) /\
  FK (ayp p) = snd A + fst A /\ FK (aym p) = snd A - fst A /\ FK (at2 p) = (EdSpec.d + EdSpec.d) * (fst A * snd A) /\ EdSpec.on A.

Lemma on_iff (x y : Fq q5) : EdSpec.on (x, y) <-> qopp K1 * (x * x) + y * y = K1 + EdSpec.d * (x * x) * (y * y).
Proof. unfold EdSpec.on, on_curve. rewrite a_is. change (EdSpec.k 1) with K1. reflexivity. Qed.
Lemma on_eq (x y : Fq q5) : EdSpec.on (x, y) -> y * y - x * x = K1 + EdSpec.d * (x * x) * (y * y).
Proof. intros H. rewrite <- (proj1 (on_iff x y) H). ring. Qed.
Lemma eq_on (x y : Fq q5) : y * y - x * x = K1 + EdSpec.d * (x * x) * (y * y) -> EdSpec.on (x, y).
Proof. intros H. apply (proj2 (on_iff x y)). rewrite <- H. ring. Qed.

(** ** sums *)
Definition eps (A B : Pt) : Fq q5 := EdSpec.d * fst A * fst B * snd A * snd B.
Lemma plus_eqs (A B : Pt) : EdSpec.on A -> EdSpec.on B ->
  K1 + eps A B <> K0 /\ K1 - eps A B <> K0 /\ fst (EdSpec.plus A B) * (K1 + eps A B) = fst A * snd B + snd A * fst B /\ snd (EdSpec.plus A B) * (K1 - eps A B) = snd A * snd B + fst A * fst B /\ EdSpec.on (EdSpec.plus A B).
Proof.
  destruct A as [x1 y1], B as [x2 y2]. unfold eps. cbn [fst snd]. intros H1 H2. pose proof (den_plus _ _ _ _ _ _ _ _ _ EdSpec.FT (Fq_dec q5) _ _ _ EdSpec.im_square EdSpec.d_nonsquare EdSpec.two_nz _ _ _ _ H1 H2) as D1.
  pose proof (den_minus _ _ _ _ _ _ _ _ _ EdSpec.FT (Fq_dec q5) _ _ _ EdSpec.im_square EdSpec.d_nonsquare EdSpec.two_nz _ _ _ _ H1 H2) as D2.
  set (S := EdSpec.plus (x1, y1) (x2, y2)). assert (ES : (fst S, snd S) = EdSpec.plus (x1, y1) (x2, y2)) by (symmetry; apply surjective_pairing).
  destruct (padd_eqs _ _ _ _ _ _ _ _ _ EdSpec.FT (Fq_dec q5) _ _ _ EdSpec.im_square EdSpec.d_nonsquare EdSpec.two_nz x1 y1 x2 y2 (fst S) (snd S) H1 H2 ES) as [E1 E2].
  split; [exact D1|]. split; [exact D2|]. split; [exact E1|]. split; [eapply eq_trans; [exact E2|]; rewrite a_is; clear; revert x1 x2 y1 y2; change EdSpec.K with (Fq q5); intros; ring|]. apply EdSpec.plus_on; auto.
Qed.
(** the shape of all four additions: s is twice the product of the denominators *)
Lemma add_core (A B : Pt) (s X Y Z T : Fq q5) : EdSpec.on A -> EdSpec.on B -> s <> K0 ->
  X = s * (fst A * snd B + snd A * fst B) -> Y = s * (snd A * snd B + fst A * fst B) -> Z = s * (K1 + eps A B) -> T = s * (K1 - eps A B) ->
  Z <> K0 /\ T <> K0 /\ X = fst (EdSpec.plus A B) * Z /\ Y = snd (EdSpec.plus A B) * T /\ EdSpec.on (EdSpec.plus A B).
Proof.
  intros H1 H2 Hs EX EY EZ ET. destruct (plus_eqs A B H1 H2) as (N1 & N2 & E1 & E2 & Ho). subst X Y Z T. split; [apply Knz; auto|]. split; [apply Knz; auto|]. split; [rewrite <- E1; ring|]. split; [rewrite <- E2; ring|exact Ho].
Qed.
Lemma twice_nz (x : Fq q5) : x <> K0 -> x + x <> K0.
Proof. intros H. replace (x + x) with ((K1 + K1) * x) by ring. apply Knz; [exact K20|exact H]. Qed.
Lemma opp_fst (A : Pt) : fst (EdSpec.opp A) = qopp (fst A). Proof. destruct A; reflexivity. Qed.
Lemma opp_snd (A : Pt) : snd (EdSpec.opp A) = snd A. Proof. destruct A; reflexivity. Qed.
Lemma p1_add_ok p c A B : r3 p A -> rc c B -> r1 (p1_add p c) (EdSpec.plus A B).
Proof.
  intros ((O1 & O2 & O3 & O4) & N & EX & EY & ET & HA) ((Q1 & Q2 & Q3 & Q4) & M & FP & FM & FT & HB). unfold p1_add, r1. cbn [x1 y1 z1 t1]. split; [ok4|].
  apply (add_core A B (FK (z3 p) * FK (cz c) + FK (z3 p) * FK (cz c))); [assumption|assumption|apply twice_nz, Knz; assumption|..]; unfold eps; hh; rewrite ?EX, ?EY, ?FP, ?FM, ?ET, ?FT; ring.
Qed.
Lemma p1_sub_ok p c A B : r3 p A -> rc c B -> r1 (p1_sub p c) (EdSpec.plus A (EdSpec.opp B)).
Proof.
  intros ((O1 & O2 & O3 & O4) & N & EX & EY & ET & HA) ((Q1 & Q2 & Q3 & Q4) & M & FP & FM & FT & HB). unfold p1_sub, r1. cbn [x1 y1 z1 t1]. split; [ok4|].
  apply (add_core A (EdSpec.opp B) (FK (z3 p) * FK (cz c) + FK (z3 p) * FK (cz c))); [assumption|apply EdSpec.opp_on; assumption|apply twice_nz, Knz; assumption|..]; unfold eps; rewrite ?opp_fst, ?opp_snd; hh; rewrite ?EX, ?EY, ?FP, ?FM, ?ET, ?FT; ring.
Qed.
Lemma p1_add_affine_ok p c A B : r3 p A -> ra c B -> r1 (p1_add_affine p c) (EdSpec.plus A B).
Proof.
  intros ((O1 & O2 & O3 & O4) & N & EX & EY & ET & HA) ((Q1 & Q2 & Q3) & FP & FM & FT & HB). unfold p1_add_affine, r1. cbn [x1 y1 z1 t1]. split; [ok4|].
  apply (add_core A B (FK (z3 p) + FK (z3 p))); [assumption|assumption|apply twice_nz; assumption|..]; unfold eps; hh; rewrite ?EX, ?EY, ?FP, ?FM, ?ET, ?FT; ring.
Qed.
Lemma p1_sub_affine_ok p c A B : r3 p A -> ra c B -> r1 (p1_sub_affine p c) (EdSpec.plus A (EdSpec.opp B)).
Proof.
  intros ((O1 & O2 & O3 & O4) & N & EX & EY & ET & HA) ((Q1 & Q2 & Q3) & FP & FM & FT & HB). unfold p1_sub_affine, r1. cbn [x1 y1 z1 t1]. split; [ok4|].
  apply (add_core A (EdSpec.opp B) (FK (z3 p) + FK (z3 p))); [assumption|apply EdSpec.opp_on; assumption|apply twice_nz; assumption|..]; unfold eps; rewrite ?opp_fst, ?opp_snd; hh; rewrite ?EX, ?EY, ?FP, ?FM, ?ET, ?FT; ring.
Qed.
Lemma dbl_alg (x y z : Fq q5) : EdSpec.on (x, y) -> let s := z * z in let e := EdSpec.d * x * x * y * y in
  (x * z + y * z) * (x * z + y * z) - (y * z * (y * z) + x * z * (x * z)) = s * (x * y + y * x) /\ y * z * (y * z) + x * z * (x * z) = s * (y * y + x * x) /\
  y * z * (y * z) - x * z * (x * z) = s * (K1 + e) /\ (s + s) - (y * z * (y * z) - x * z * (x * z)) = s * (K1 - e).
Proof.
  intros H s e. pose proof (on_eq x y H) as E. assert (D : y * z * (y * z) - x * z * (x * z) = s * (K1 + e)).
  { transitivity (s * (y * y - x * x)); [unfold s; ring|]. rewrite E. unfold s, e. ring. }
  split; [unfold s; ring|]. split; [unfold s; ring|]. split; [exact D|]. rewrite D. ring.
Qed.
Lemma p1_double_ok p A : r2 p A -> r1 (p1_double p) (EdSpec.plus A A).
Proof.
  intros ((O1 & O2 & O3) & N & EX & EY & HA). unfold p1_double, r1. cbn [x1 y1 z1 t1]. split; [ok4|].
  assert (HA' : EdSpec.on (fst A, snd A)) by (rewrite <- surjective_pairing; exact HA). destruct (dbl_alg (fst A) (snd A) (FK (z2 p)) HA') as (D1 & D2 & D3 & D4).
  apply (add_core A A (FK (z2 p) * FK (z2 p))); [assumption|assumption|apply Knz; assumption|..]; unfold eps; hh; rewrite ?EX, ?EY; auto.
Qed.

(** ** conversions *)
Lemma p2_from_p1_ok p A : r1 p A -> r2 (p2_from_p1 p) A.
Proof.
  intros ((O1 & O2 & O3 & O4) & N & M & EX & EY & HA). unfold p2_from_p1, r2. cbn [x2 y2 z2]. split; [ok4|]. hh. split; [apply Knz; assumption|]. rewrite EX, EY. split; [ring|]. split; [ring|exact HA].
Qed.
Lemma p2_from_p3_ok p A : r3 p A -> r2 (p2_from_p3 p) A.
Proof. intros ((O1 & O2 & O3 & O4) & N & EX & EY & ET & HA). unfold p2_from_p3, r2. cbn [x2 y2 z2]. split; [ok4|]. auto. Qed.
Lemma p3_from_p1_ok p A : r1 p A -> r3 (p3_from_p1 p) A.
Proof.
  intros ((O1 & O2 & O3 & O4) & N & M & EX & EY & HA). unfold p3_from_p1, r3. cbn [x3 y3 z3 t3]. split; [ok4|]. hh. split; [apply Knz; assumption|]. rewrite EX, EY. split; [ring|]. split; [ring|]. split; [ring|exact HA].
Qed.
Lemma p3_from_p2_ok p A : r2 p A -> r3 (p3_from_p2 p) A.
Proof.
  intros ((O1 & O2 & O3) & N & EX & EY & HA). unfold p3_from_p2, r3. cbn [x3 y3 z3 t3]. split; [ok4|]. hh. split; [apply Knz; assumption|]. rewrite EX, EY. split; [ring|]. split; [ring|]. split; [ring|exact HA].
Qed.
Lemma pc_from_p3_ok p A : r3 p A -> rc (pc_from_p3 p) A.
Proof.
  intros ((O1 & O2 & O3 & O4) & N & EX & EY & ET & HA). destruct d2_ok as [D E]. unfold pc_from_p3, rc. cbn [cyp cym cz ct]. split; [ok4|]. hh. split; [assumption|]. rewrite EX, EY, ET, E. split; [ring|]. split; [ring|]. split; [ring|exact HA].
Qed.
Lemma ac_from_p3_ok p A : r3 p A -> ra (ac_from_p3 p) A.
Proof.
  intros ((O1 & O2 & O3 & O4) & N & EX & EY & ET & HA). destruct d2_ok as [D E]. pose proof (hi _ O3 N) as I. unfold ac_from_p3, ra. cbn [ayp aym at2]. split; [ok4|]. hh. rewrite EX, EY, ET, E.
  set (i := FK (fe_invert (z3 p))) in *. set (z := FK (z3 p)) in *. split; [|split; [|split; [|exact HA]]].
  - transitivity ((snd A + fst A) * (i * z)); [ring|rewrite I; ring].
  - transitivity ((snd A - fst A) * (i * z)); [ring|rewrite I; ring].
  - transitivity ((EdSpec.d + EdSpec.d) * (fst A * snd A) * (i * z)); [ring|rewrite I; ring].
Qed.
Lemma from_extended_ok p A : r3 p A -> FK (fst (from_extended p)) = fst A /\ FK (snd (from_extended p)) = snd A.
Proof.
  intros ((O1 & O2 & O3 & O4) & N & EX & EY & ET & HA). pose proof (hi _ O3 N) as I. unfold from_extended. cbn [fst snd]. hh. rewrite EX, EY. set (i := FK (fe_invert (z3 p))) in *. set (z := FK (z3 p)) in *.
  split; [transitivity (fst A * (i * z))|transitivity (snd A * (i * z))]; try ring; rewrite I; ring.
Qed.

(** ** zero and signs *)
Lemma O_is : fst EdSpec.O = K0 /\ snd EdSpec.O = K1. Proof. split; reflexivity. Qed.
Lemma pc_zero_ok : rc pc_zero EdSpec.O.
Proof. unfold rc, pc_zero. cbn [cyp cym cz ct]. split; [ok4|]. rewrite h0, h1. destruct O_is as [E1 E2]. rewrite E1, E2. split; [exact K10|]. split; [ring|]. split; [ring|]. split; [ring|exact EdSpec.O_on]. Qed.
Lemma ac_zero_ok : ra ac_zero EdSpec.O.
Proof. unfold ra, ac_zero. cbn [ayp aym at2]. split; [ok4|]. rewrite h0, h1. destruct O_is as [E1 E2]. rewrite E1, E2. split; [ring|]. split; [ring|]. split; [ring|exact EdSpec.O_on]. Qed.
Lemma p2_zero_ok : r2 p2_zero EdSpec.O.
Proof. unfold r2, p2_zero. cbn [x2 y2 z2]. split; [ok4|]. rewrite h0, h1. destruct O_is as [E1 E2]. rewrite E1, E2. split; [exact K10|]. split; [ring|]. split; [ring|exact EdSpec.O_on]. Qed.
Lemma pc_select_1 a b A : rc a A -> pc_select a b 1 = a.
Proof. intros ((O1 & O2 & O3 & O4) & _). unfold pc_select. rewrite !fe_select_1 by (apply ok_u64; assumption). destruct a; reflexivity. Qed.
Lemma pc_select_0 a b A : rc b A -> pc_select a b 0 = b.
Proof. intros ((O1 & O2 & O3 & O4) & _). unfold pc_select. rewrite !fe_select_0 by (apply ok_u64; assumption). destruct b; reflexivity. Qed.
Lemma ac_select_1 a b A : ra a A -> ac_select a b 1 = a.
Proof. intros ((O1 & O2 & O3) & _). unfold ac_select. rewrite !fe_select_1 by (apply ok_u64; assumption). destruct a; reflexivity. Qed.
Lemma ac_select_0 a b A : ra b A -> ac_select a b 0 = b.
Proof. intros ((O1 & O2 & O3) & _). unfold ac_select. rewrite !fe_select_0 by (apply ok_u64; assumption). destruct b; reflexivity. Qed.
Lemma pc_neg_0 a A : rc a A -> rc (pc_cond_neg a 0) A.
Proof. intros H. assert (E : pc_cond_neg a 0 = a); [|rewrite E; exact H]. destruct H as ((O1 & O2 & O3 & O4) & _). unfold pc_cond_neg. rewrite fe_swap_0, fe_select_0 by (apply ok_u64; assumption). destruct a; reflexivity. Qed.
Lemma ac_neg_0 a A : ra a A -> ra (ac_cond_neg a 0) A.
Proof. intros H. assert (E : ac_cond_neg a 0 = a); [|rewrite E; exact H]. destruct H as ((O1 & O2 & O3) & _). unfold ac_cond_neg. rewrite fe_swap_0, fe_select_0 by (apply ok_u64; assumption). destruct a; reflexivity. Qed.
Lemma pc_neg_1 a A : rc a A -> rc (pc_cond_neg a 1) (EdSpec.opp A).
Proof.
  intros ((O1 & O2 & O3 & O4) & N & FP & FM & FT & HA). unfold pc_cond_neg. assert (On : fe_ok (fe_neg (ct a))) by okk. rewrite fe_swap_1, fe_select_1 by (apply ok_u64; assumption). unfold rc. cbn [cyp cym cz ct]. split; [ok4|].
  rewrite opp_fst, opp_snd, hn by assumption. rewrite FP, FM, FT. split; [assumption|]. split; [ring|]. split; [ring|]. split; [ring|apply EdSpec.opp_on; exact HA].
Qed.
Lemma ac_neg_1 a A : ra a A -> ra (ac_cond_neg a 1) (EdSpec.opp A).
Proof.
  intros ((O1 & O2 & O3) & FP & FM & FT & HA). unfold ac_cond_neg. assert (On : fe_ok (fe_neg (at2 a))) by okk. rewrite fe_swap_1, fe_select_1 by (apply ok_u64; assumption). unfold ra. cbn [ayp aym at2]. split; [ok4|].
  rewrite opp_fst, opp_snd, hn by assumption. rewrite FP, FM, FT. split; [ring|]. split; [ring|]. split; [ring|apply EdSpec.opp_on; exact HA].
Qed.

(** ** the exported operations *)
Lemma initialized_ok p A : r3 p A -> initialized p = true.
Proof.
  intros (_ & N & EX & EY & _ & HA). unfold initialized. destruct (fe_is_zero (x3 p)) eqn:E1; [|reflexivity]. destruct (fe_is_zero (y3 p)) eqn:E2; [exfalso|reflexivity].
  assert (Z : forall v, fe_is_zero v = true -> FK v = K0).
  { intros v H. unfold fe_is_zero in H. rewrite !andb_true_iff, !Z.eqb_eq in H. destruct H as ((((H0 & H1) & H2) & H3) & H4). unfold FK, value. rewrite H0, H1, H2, H3, H4. reflexivity. }
  rewrite (Z _ E1) in EX. rewrite (Z _ E2) in EY. symmetry in EX, EY. destruct (Kz _ _ EX) as [X0|X0]; [|contradiction]. destruct (Kz _ _ EY) as [Y0|Y0]; [|contradiction].
  rewrite (surjective_pairing A), X0, Y0 in HA. pose proof (on_eq _ _ HA) as E. apply K10. symmetry. transitivity (K0 * K0 - K0 * K0); [ring|]. rewrite E. ring.
Qed.
Lemma pt_add_ok p q A B : r3 p A -> r3 q B -> exists v, pt_add p q = Some v /\ r3 v (EdSpec.plus A B).
Proof. intros HA HB. unfold pt_add. rewrite (initialized_ok p A HA), (initialized_ok q B HB). eexists. split; [reflexivity|]. apply p3_from_p1_ok, p1_add_ok; [exact HA|apply pc_from_p3_ok; exact HB]. Qed.
Lemma pt_sub_ok p q A B : r3 p A -> r3 q B -> exists v, pt_sub p q = Some v /\ r3 v (EdSpec.plus A (EdSpec.opp B)).
Proof. intros HA HB. unfold pt_sub. rewrite (initialized_ok p A HA), (initialized_ok q B HB). eexists. split; [reflexivity|]. apply p3_from_p1_ok, p1_sub_ok; [exact HA|apply pc_from_p3_ok; exact HB]. Qed.
Lemma pt_neg_ok p A : r3 p A -> exists v, pt_neg p = Some v /\ r3 v (EdSpec.opp A).
Proof.
  intros H. unfold pt_neg. rewrite (initialized_ok p A H). eexists. split; [reflexivity|]. destruct H as ((O1 & O2 & O3 & O4) & N & EX & EY & ET & HA). unfold r3. cbn [x3 y3 z3 t3]. split; [ok4|]. hh.
  rewrite opp_fst, opp_snd, EX, EY, ET. split; [assumption|]. split; [ring|]. split; [ring|]. split; [ring|apply EdSpec.opp_on; exact HA].
Qed.
Lemma pt_equal_ok p q A B : r3 p A -> r3 q B -> exists b, pt_equal p q = Some b /\ (b = 0 \/ b = 1) /\ (b = 1 <-> A = B).
Proof.
  intros HA HB. unfold pt_equal. rewrite (initialized_ok p A HA), (initialized_ok q B HB). eexists. split; [reflexivity|].
  destruct HA as ((O1 & O2 & O3 & O4) & N & EX & EY & ET & HA), HB as ((Q1 & Q2 & Q3 & Q4) & M & FX & FY & FT & HB).
  rewrite !fe_equal_ok by (apply ok_u64; okk). hh. rewrite EX, EY, FX, FY. set (za := FK (z3 p)) in *. set (zb := FK (z3 q)) in *.
  assert (C : forall x y : Fq q5, x * za * zb = y * zb * za <-> x = y).
  { intros x y. split; [intros E; apply (Kcancel (za * zb)); [apply Knz; assumption|transitivity (x * za * zb); [ring|rewrite E; ring]]|intros ->; ring]. }
  assert (G : A = B <-> fst A = fst B /\ snd A = snd B).
  { split; [intros ->; auto|intros [E1 E2]; rewrite (surjective_pairing A), (surjective_pairing B), E1, E2; reflexivity]. }
  destruct (Fq_dec q5 (fst A * za * zb) (fst B * zb * za)) as [E1|E1]; destruct (Fq_dec q5 (snd A * za * zb) (snd B * zb * za)) as [E2|E2]; rewrite C in E1, E2; cbn [Z.land Pos.land]; (split; [auto|]); rewrite G; split; intros; tauto || discriminate || auto.
Qed.
