(** * EdFast.v — evaluating multiples of concrete points: projective double-and-add on integers with lazy reduction *)
From Coq Require Import ZArith Znumtheory List Lia Bool.
From Verif Require Import PrimeTheory FieldZ EdCurve.
From Verif Require EdSpec.
Import ListNotations.
Open Scope Z_scope.

(** 2^255 = 19 modulo q *)
Definition red (z : Z) : Z := let y := Z.land z (Z.ones 255) + 19 * Z.shiftr z 255 in Z.land y (Z.ones 255) + 19 * Z.shiftr y 255.
Lemma red1 : forall z, EdSpec.k (Z.land z (Z.ones 255) + 19 * Z.shiftr z 255) = EdSpec.k z.
Proof.
  intros z. apply ofZ_eq. rewrite Z.land_ones, Z.shiftr_div_pow2 by lia. pose proof (Z.div_mod z (2 ^ 255)) as E.
  rewrite E at 3 by lia. apply div_mod_eq; [reflexivity |]. exists (- (z / 2 ^ 255)). rewrite EdSpec.q_is. ring.
Qed.
Lemma red_ok : forall z, EdSpec.k (red z) = EdSpec.k z. Proof. intros. unfold red. cbv zeta. rewrite red1. apply red1. Qed.
Definition zmul (x y : Z) : Z := red (x * y).
Definition T3 : Type := (Z * Z * Z)%type.
Definition zadd3 (P Q : T3) : T3 :=
  let '(X1, Y1, Z1) := P in let '(X2, Y2, Z2) := Q in
  let A := zmul Z1 Z2 in let B := zmul A A in let C := zmul X1 X2 in let D := zmul Y1 Y2 in let E := zmul EdSpec.dval (zmul C D) in let G := B - E in let H := B + E in
  (zmul (zmul A G) (zmul (X1 + Y1) (X2 + Y2) - C - D), zmul (zmul A H) (D + C), zmul G H).
Definition zsq (x : Z) : Z := red (Z.square x).
Definition zdbl3 (P : T3) : T3 :=
  let '(X, Y, Z) := P in
  let C := zsq X in let D := zsq Y in let G := D - C in let J := G - 2 * zsq Z in
  (zmul (zsq (X + Y) - C - D) J, zmul G (- C - D), zmul G J).
(** an addition chain: D doubles, A adds the base, S subtracts it *)
Inductive step : Type := sD | sA | sS.
Fixpoint chain_val (l : list step) (n : Z) : Z :=
  match l with nil => n | cons sD r => chain_val r (2 * n) | cons sA r => chain_val r (n + 1) | cons sS r => chain_val r (n - 1) end.
Fixpoint chain (l : list step) (P N T : T3) : T3 :=
  match l with nil => T | cons sD r => chain r P N (zdbl3 T) | cons sA r => chain r P N (zadd3 T P) | cons sS r => chain r P N (zadd3 T N) end.
Fixpoint chain_pos (l : list step) (n : Z) : bool :=
  match l with nil => true | cons sD r => chain_pos r (2 * n) | cons sA r => chain_pos r (n + 1) | cons sS r => (1 <=? n) && chain_pos r (n - 1) end.
Definition krel (T : T3) (P : EdSpec.Pt) : Prop :=
  let '(X, Y, Z) := T in prel EdSpec.K (EdSpec.k 0) qmul (EdSpec.k X, EdSpec.k Y, EdSpec.k Z) P.

Lemma k_mul : forall x y, EdSpec.k (zmul x y) = qmul (EdSpec.k x) (EdSpec.k y). Proof. intros. unfold zmul. rewrite red_ok. symmetry. apply ofZ_mul. Qed.
Lemma k_add : forall x y, EdSpec.k (x + y) = qadd (EdSpec.k x) (EdSpec.k y). Proof. intros. symmetry. apply ofZ_add. Qed.
Lemma k_sub : forall x y, EdSpec.k (x - y) = qsub (EdSpec.k x) (EdSpec.k y). Proof. intros. symmetry. apply ofZ_sub. Qed.
Lemma zadd3_ok : forall T U P Q, EdSpec.on P -> EdSpec.on Q -> krel T P -> krel U Q -> krel (zadd3 T U) (EdSpec.plus P Q).
Proof.
  intros [[X1 Y1] Z1] [[X2 Y2] Z2] P Q HP HQ RP RQ. unfold krel in *.
  pose proof (proj_add_ok _ _ _ _ _ _ _ _ _ EdSpec.FT (Fq_dec _) EdSpec.a EdSpec.im EdSpec.d EdSpec.im_square EdSpec.d_nonsquare EdSpec.two_nz _ _ _ _ _ _ P Q HP HQ RP RQ) as R.
  unfold proj_add in R. unfold zadd3. rewrite !k_mul, !k_sub, !k_add, !k_mul, !k_add. rewrite <- EdSpec.d_val.
  assert (DC : qsub (qmul (EdSpec.k Y1) (EdSpec.k Y2)) (qmul EdSpec.a (qmul (EdSpec.k X1) (EdSpec.k X2))) = qadd (qmul (EdSpec.k Y1) (EdSpec.k Y2)) (qmul (EdSpec.k X1) (EdSpec.k X2))).
  { unfold EdSpec.a, EdSpec.k. rewrite !ofZ_mul, ofZ_sub, ofZ_add. f_equal. ring. }
  rewrite DC in R. exact R.
Qed.
Lemma k_sq : forall x, EdSpec.k (zsq x) = qmul (EdSpec.k x) (EdSpec.k x). Proof. intros. unfold zsq. rewrite Z.square_spec. apply k_mul. Qed.
Lemma zdbl3_ok : forall T P, EdSpec.on P -> krel T P -> krel (zdbl3 T) (EdSpec.plus P P).
Proof.
  intros [[X Y] Z] P HP RP. unfold krel in *.
  pose proof (proj_dbl_ok _ _ _ _ _ _ _ _ _ EdSpec.FT (Fq_dec _) EdSpec.a EdSpec.im EdSpec.d EdSpec.im_square EdSpec.d_nonsquare EdSpec.two_nz _ _ _ P HP RP) as R.
  unfold proj_dbl in R. unfold zdbl3. rewrite !k_mul. rewrite !k_sub, !k_sq. unfold EdSpec.a, EdSpec.k in *.
  rewrite <- !ofZ_mul, <- !ofZ_add, <- (ofZ_opp _ (zsq X)). unfold zsq. 
  assert (SQ : forall x, ofZ EdSpec.q (red (Z.square x)) = qmul (ofZ EdSpec.q x) (ofZ EdSpec.q x)) by exact k_sq. rewrite !SQ.
  revert R. generalize (ofZ EdSpec.q X) (ofZ EdSpec.q Y) (ofZ EdSpec.q Z). intros x y z.
  assert (E1 : qadd (qmul (ofZ EdSpec.q (-1)) (qmul x x)) (qmul y y) = qsub (qmul y y) (qmul x x)) by (lift x; lift y; rewrite !ofZ_mul, ofZ_add, ofZ_sub; f_equal; ring).
  assert (E2 : qsub (qmul (ofZ EdSpec.q (-1)) (qmul x x)) (qmul y y) = qsub (qopp (qmul x x)) (qmul y y)) by (clear E1; lift x; lift y; rewrite !ofZ_mul, ?ofZ_opp, !ofZ_sub; f_equal; ring).
  rewrite E1, E2. assert (E3 : qadd (ofZ EdSpec.q 1) (ofZ EdSpec.q 1) = ofZ EdSpec.q 2) by (apply Fq_ext; reflexivity). rewrite E3. intros R. exact R.
Qed.
Lemma timesZ_step : forall n P, EdSpec.on P -> 0 <= n -> EdSpec.timesZ (n + 1) P = EdSpec.plus (EdSpec.timesZ n P) P.
Proof.
  intros n P H Hn. unfold EdSpec.timesZ. rewrite <- (EdSpec.times_1 P) at 3. rewrite <- EdSpec.times_add by assumption. f_equal. lia.
Qed.
Lemma chain_ok : forall l P N T pt n, EdSpec.on pt -> krel P pt -> krel N (EdSpec.opp pt) -> 0 <= n -> krel T (EdSpec.timesZ n pt) -> chain_pos l n = true ->
  krel (chain l P N T) (EdSpec.timesZ (chain_val l n) pt).
Proof.
  induction l as [| [| |] l IH]; intros P N T pt n H RP RN Hn RT C; cbn [chain chain_val chain_pos] in *; [exact RT | | |].
  - apply IH; auto; [lia |]. assert (E : EdSpec.timesZ (2 * n) pt = EdSpec.plus (EdSpec.timesZ n pt) (EdSpec.timesZ n pt)).
    { unfold EdSpec.timesZ. rewrite <- !EdSpec.times_add by assumption. f_equal. lia. }
    rewrite E. apply zdbl3_ok; [apply EdSpec.times_on; exact H | exact RT].
  - apply IH; auto; [lia |]. rewrite timesZ_step by assumption. apply zadd3_ok; try assumption. apply EdSpec.times_on. exact H.
  - apply andb_prop in C as [C1 C]. apply Z.leb_le in C1. apply IH; auto; [lia |].
    assert (E : EdSpec.timesZ (n - 1) pt = EdSpec.plus (EdSpec.timesZ n pt) (EdSpec.opp pt)).
    { replace n with (n - 1 + 1) at 2 by lia. rewrite timesZ_step by (assumption || lia). rewrite <- EdSpec.plus_assoc by (try apply EdSpec.times_on; try apply EdSpec.opp_on; assumption).
      rewrite EdSpec.plus_opp by assumption. rewrite EdSpec.plus_O_r. reflexivity. }
    rewrite E. apply zadd3_ok; try assumption; [apply EdSpec.times_on; exact H | apply EdSpec.opp_on; exact H].
Qed.
(** one check per concrete multiple: [n](x,y) = (x',y') *)
Definition mult_check (l : list step) (n : Z) (x y x' y' : Z) : bool :=
  (chain_val l 1 =? n) && chain_pos l 1 &&
  let '(X, Y, Z) := chain l (x, y, 1) (- x, y, 1) (x, y, 1) in
  negb (Z mod EdSpec.q =? 0) && ((X - x' * Z) mod EdSpec.q =? 0) && ((Y - y' * Z) mod EdSpec.q =? 0).
Lemma mult_check_ok : forall l n x y x' y', EdSpec.on (EdSpec.k x, EdSpec.k y) -> mult_check l n x y x' y' = true ->
  EdSpec.timesZ n (EdSpec.k x, EdSpec.k y) = (EdSpec.k x', EdSpec.k y').
Proof.
  intros l n x y x' y' H C. unfold mult_check in C.
  apply andb_prop in C as [C0 C]. apply andb_prop in C0 as [CV CP]. apply Z.eqb_eq in CV.
  assert (R1 : forall u v, krel (u, v, 1) (EdSpec.k u, EdSpec.k v)).
  { intros u v. unfold krel, prel, EdSpec.k. rewrite !ofZ_mul, !Z.mul_1_r. split; [| split; reflexivity]. intros E. apply ofZ_eq in E. discriminate. }
  assert (R2 : krel (- x, y, 1) (EdSpec.opp (EdSpec.k x, EdSpec.k y))).
  { unfold EdSpec.opp, popp, EdSpec.k. rewrite ofZ_opp. apply R1. }
  assert (R : krel (chain l (x, y, 1) (- x, y, 1) (x, y, 1)) (EdSpec.timesZ (chain_val l 1) (EdSpec.k x, EdSpec.k y))).
  { apply chain_ok; auto; [lia |]. unfold EdSpec.timesZ. change (Z.to_nat 1) with 1%nat. rewrite EdSpec.times_1. apply R1. }
  rewrite CV in R. destruct (chain l (x, y, 1) (- x, y, 1) (x, y, 1)) as [[X Y] Z]. apply andb_prop in C as [C CY]. apply andb_prop in C as [CZ CX].
  apply Z.eqb_eq in CX, CY.
  assert (EQ : forall u v, (u - v) mod EdSpec.q = 0 -> EdSpec.k u = EdSpec.k v).
  { intros u v E. apply ofZ_eq. apply div_mod_eq; [reflexivity |]. apply mod_zero_div; [reflexivity | exact E]. }
  eapply (prel_unique _ _ _ _ _ _ _ _ _ EdSpec.FT).
  - exact R.
  - unfold EdSpec.k at 2. unfold EdSpec.k at 2. rewrite ofZ_mul. apply EQ. exact CX.
  - unfold EdSpec.k at 2. unfold EdSpec.k at 2. rewrite ofZ_mul. apply EQ. exact CY.
Qed.
Lemma B_val : EdSpec.B = (EdSpec.k EdSpec.Bx, EdSpec.k EdSpec.By).
Proof. unfold EdSpec.B. rewrite EdSpec.By_val. reflexivity. Qed.
Definition L_chain : list step := [sD; sD; sD; sD; sD; sD; sD; sD; sD; sD; sD; sD; sD; sD; sD; sD; sD; sD; sD; sD; sD; sD; sD; sD; sD; sD; sD; sD; sD; sD; sD; sD; sD; sD; sD; sD; sD; sD; sD; sD; sD; sD; sD; sD; sD; sD; sD; sD; sD; sD; sD; sD; sD; sD; sD; sD; sD; sD; sD; sD; sD; sD; sD; sD; sD; sD; sD; sD; sD; sD; sD; sD; sD; sD; sD; sD; sD; sD; sD; sD; sD; sD; sD; sD; sD; sD; sD; sD; sD; sD; sD; sD; sD; sD; sD; sD; sD; sD; sD; sD; sD; sD; sD; sD; sD; sD; sD; sD; sD; sD; sD; sD; sD; sD; sD; sD; sD; sD; sD; sD; sD; sD; sD; sD; sD; sD; sD; sD; sA; sD; sD; sA; sD; sD; sA; sD; sD; sD; sS; sD; sD; sD; sD; sD; sS; sD; sD; sD; sD; sD; sS; sD; sD; sA; sD; sD; sD; sD; sS; sD; sD; sD; sD; sS; sD; sD; sA; sD; sD; sA; sD; sD; sD; sA; sD; sD; sS; sD; sD; sD; sD; sD; sS; sD; sD; sD; sD; sS; sD; sD; sA; sD; sD; sD; sS; sD; sD; sA; sD; sD; sD; sS; sD; sD; sS; sD; sD; sS; sD; sD; sA; sD; sD; sS; sD; sD; sS; sD; sD; sD; sD; sD; sD; sD; sA; sD; sD; sD; sA; sD; sD; sA; sD; sD; sS; sD; sD; sD; sA; sD; sD; sS; sD; sD; sD; sA; sD; sD; sS; sD; sD; sA; sD; sD; sA; sD; sD; sS; sD; sD; sD; sS; sD; sD; sA; sD; sD; sD; sD; sD; sS; sD; sD; sS; sD; sD; sD; sS; sD; sD; sA; sD; sD; sA; sD; sD; sD; sD; sD; sD; sS; sD; sD; sS; sD; sD; sA].
Lemma L_mult : mult_check L_chain EdSpec.L EdSpec.Bx EdSpec.By 0 1 = true.
Proof. vm_compute. reflexivity. Qed.
Lemma LB_zero : EdSpec.timesZ EdSpec.L EdSpec.B = EdSpec.O.
Proof.
  pose proof EdSpec.B_on as H. rewrite B_val in *. rewrite (mult_check_ok _ _ _ _ _ _ H L_mult). reflexivity.
Qed.
