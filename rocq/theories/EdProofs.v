(** * EdProofs.v — the ed25519 gadgets compute the edwards25519 group operations *)
From Coq Require Import ZArith Znumtheory List Lia Bool Arith Field.
From Verif Require Import Field FieldLemmas PrimeTheory FieldZ EdCurve EdModel.
From Verif Require EdSpec.
Import ListNotations.
Open Scope Z_scope.

Lemma q_same : q25519 = EdSpec.q. Proof. reflexivity. Qed.
Lemma L_same : L25519 = EdSpec.L. Proof. reflexivity. Qed.
Lemma a_same : edA = EdSpec.a. Proof. reflexivity. Qed.
Lemma d_same : edD = EdSpec.d. Proof. symmetry. exact EdSpec.d_val. Qed.
Lemma two_same : fz 2 = qadd (EdSpec.k 1) (EdSpec.k 1). Proof. apply Fq_ext. reflexivity. Qed.
Lemma base_same : edBase = EdSpec.B.
Proof. unfold EdSpec.B. rewrite EdSpec.By_val. reflexivity. Qed.

Local Opaque qadd qmul qsub qopp qdiv qinv ofZ.
Add Field KFld : EdSpec.FT.
Local Notation on := EdSpec.on. Local Notation plus := EdSpec.plus. Local Notation times := EdSpec.times.
Local Notation opp := EdSpec.opp.

Lemma on_eq : forall x y : EdSpec.K, on (x, y) <-> qadd (qmul EdSpec.a (qmul x x)) (qmul y y) = qadd (EdSpec.k 1) (qmul (qmul EdSpec.d (qmul x x)) (qmul y y)).
Proof. intros. reflexivity. Qed.
Lemma den_plus : forall x1 y1 x2 y2 : EdSpec.K, on (x1, y1) -> on (x2, y2) -> qadd (EdSpec.k 1) (qmul (qmul (qmul (qmul EdSpec.d x1) x2) y1) y2) <> EdSpec.k 0.
Proof. exact (EdCurve.den_plus _ _ _ _ _ _ _ _ _ EdSpec.FT (Fq_dec _) EdSpec.a EdSpec.im EdSpec.d EdSpec.im_square EdSpec.d_nonsquare EdSpec.two_nz). Qed.
Lemma den_minus : forall x1 y1 x2 y2 : EdSpec.K, on (x1, y1) -> on (x2, y2) -> qsub (EdSpec.k 1) (qmul (qmul (qmul (qmul EdSpec.d x1) x2) y1) y2) <> EdSpec.k 0.
Proof. exact (EdCurve.den_minus _ _ _ _ _ _ _ _ _ EdSpec.FT (Fq_dec _) EdSpec.a EdSpec.im EdSpec.d EdSpec.im_square EdSpec.d_nonsquare EdSpec.two_nz). Qed.
Lemma plus_unique : forall x1 y1 x2 y2 x y : EdSpec.K, on (x1, y1) -> on (x2, y2) ->
  qmul x (qadd (EdSpec.k 1) (qmul (qmul (qmul (qmul EdSpec.d x1) x2) y1) y2)) = qadd (qmul x1 y2) (qmul y1 x2) ->
  qmul y (qsub (EdSpec.k 1) (qmul (qmul (qmul (qmul EdSpec.d x1) x2) y1) y2)) = qsub (qmul y1 y2) (qmul (qmul EdSpec.a x1) x2) -> (x, y) = plus (x1, y1) (x2, y2).
Proof. exact (EdCurve.padd_unique _ _ _ _ _ _ _ _ _ EdSpec.FT (Fq_dec _) EdSpec.a EdSpec.im EdSpec.d EdSpec.im_square EdSpec.d_nonsquare EdSpec.two_nz). Qed.
Lemma plus_eqs : forall x1 y1 x2 y2 x y : EdSpec.K, on (x1, y1) -> on (x2, y2) -> (x, y) = plus (x1, y1) (x2, y2) ->
  qmul x (qadd (EdSpec.k 1) (qmul (qmul (qmul (qmul EdSpec.d x1) x2) y1) y2)) = qadd (qmul x1 y2) (qmul y1 x2) /\
  qmul y (qsub (EdSpec.k 1) (qmul (qmul (qmul (qmul EdSpec.d x1) x2) y1) y2)) = qsub (qmul y1 y2) (qmul (qmul EdSpec.a x1) x2).
Proof. exact (EdCurve.padd_eqs _ _ _ _ _ _ _ _ _ EdSpec.FT (Fq_dec _) EdSpec.a EdSpec.im EdSpec.d EdSpec.im_square EdSpec.d_nonsquare EdSpec.two_nz). Qed.

Lemma same_y_same_square : forall x x' y : EdSpec.K, on (x, y) -> on (x', y) -> x' = x \/ x' = qopp x.
Proof. exact (EdCurve.same_y _ _ _ _ _ _ _ _ _ EdSpec.FT (Fq_dec _) EdSpec.a EdSpec.im EdSpec.d EdSpec.im_square EdSpec.a_nz EdSpec.d_nonsquare). Qed.
(** the constraints of add are the two equations of the addition law *)
Lemma ed_add_eqs : forall x1 y1 x2 y2 x y : EdSpec.K,
  ed_add (x1, y1) (x2, y2) (x, y) <->
  qmul x (qadd (EdSpec.k 1) (qmul (qmul (qmul (qmul EdSpec.d x1) x2) y1) y2)) = qadd (qmul x1 y2) (qmul y1 x2) /\
  qmul y (qsub (EdSpec.k 1) (qmul (qmul (qmul (qmul EdSpec.d x1) x2) y1) y2)) = qsub (qmul y1 y2) (qmul (qmul EdSpec.a x1) x2).
Proof.
  intros. unfold ed_add, e_div. cbn [fst snd]. cbv zeta. rewrite d_same, a_same. change (fz 1) with (EdSpec.k 1). change q25519 with EdSpec.q in *.
  change F with EdSpec.K in *. generalize EdSpec.d as dd, EdSpec.a as aa. intros.
  replace (qmul (qmul dd (qmul y2 x1)) (qmul x2 y1)) with (qmul (qmul (qmul (qmul dd x1) x2) y1) y2) by ring.
  replace (qadd (qmul y2 x1) (qmul x2 y1)) with (qadd (qmul x1 y2) (qmul y1 x2)) by ring.
  replace (qadd (qsub (qmul aa (qmul y2 x1)) (qmul x2 y1)) (qmul (qsub y1 (qmul x1 aa)) (qadd x2 y2))) with (qsub (qmul y1 y2) (qmul (qmul aa x1) x2)) by ring.
  reflexivity.
Qed.
Lemma ed_add_ok : forall P Q R, on P -> on Q -> (ed_add P Q R <-> R = plus P Q).
Proof.
  intros [x1 y1] [x2 y2] [x y] HP HQ. rewrite ed_add_eqs. split.
  - intros [Ex Ey]. apply plus_unique; assumption.
  - intros E. apply plus_eqs; assumption.
Qed.
Lemma ed_neg_ok : forall P, ed_neg P = opp P. Proof. intros [x y]. reflexivity. Qed.
Lemma ed_double_ok : forall P R, on P -> (ed_double P R <-> R = plus P P).
Proof.
  intros [x y] [x2 y2] H. unfold ed_double, e_div. cbn [fst snd]. cbv zeta. rewrite a_same.
  rewrite two_same.
  exact (EdCurve.double_eqs _ _ _ _ _ _ _ _ _ EdSpec.FT (Fq_dec _) EdSpec.a EdSpec.im EdSpec.d EdSpec.im_square EdSpec.d_nonsquare EdSpec.two_nz x y x2 y2 H).
Qed.
Lemma assert_on_ok : forall P, ed_assert_on_curve P <-> on P.
Proof.
  intros [x y]. refine (iff_trans _ (iff_sym (on_eq x y))). unfold ed_assert_on_curve. cbn [fst snd]. cbv zeta. rewrite a_same, d_same. change (fz 1) with (EdSpec.k 1). change q25519 with EdSpec.q.
  change F with EdSpec.K in *. generalize EdSpec.d as dd, EdSpec.a as aa. intros.
  replace (qadd (qmul (qmul x x) aa) (qmul y y)) with (qadd (qmul aa (qmul x x)) (qmul y y)) by ring.
  replace (qadd (qmul (qmul (qmul x x) dd) (qmul y y)) (EdSpec.k 1)) with (qadd (EdSpec.k 1) (qmul (qmul dd (qmul x x)) (qmul y y))) by ring. reflexivity.
Qed.
Lemma assert_q_ok : forall P, ed_assert_q P <-> P = EdSpec.O.
Proof. intros [x y]. unfold ed_assert_q. cbn [fst snd]. split; [intros [-> ->]; reflexivity | intros E; injection E as -> ->; split; reflexivity]. Qed.

(** ** Scalar multiplication *)
Local Notation timesZ := EdSpec.timesZ.
Lemma timesZ_on : forall n P, on P -> on (timesZ n P). Proof. intros. apply EdSpec.times_on. assumption. Qed.
Lemma timesZ_add : forall m n P, 0 <= m -> 0 <= n -> on P -> timesZ (m + n) P = plus (timesZ m P) (timesZ n P).
Proof. intros m n P Hm Hn H. unfold EdSpec.timesZ. rewrite Z2Nat.inj_add by assumption. apply EdSpec.times_add. exact H. Qed.
Lemma timesZ_double : forall n P, 0 <= n -> on P -> timesZ (2 * n) P = plus (timesZ n P) (timesZ n P).
Proof. intros n P Hn H. rewrite <- timesZ_add by assumption. f_equal. lia. Qed.
Lemma timesZ_mul : forall m n P, 0 <= m -> 0 <= n -> on P -> timesZ (m * n) P = timesZ m (timesZ n P).
Proof. intros m n P Hm Hn H. unfold EdSpec.timesZ. rewrite Z2Nat.inj_mul by assumption. apply EdSpec.times_mul. exact H. Qed.
Lemma timesZ_0 : forall P, timesZ 0 P = EdSpec.O. Proof. reflexivity. Qed.
Lemma timesZ_1 : forall P, timesZ 1 P = P. Proof. intros. apply EdSpec.times_1. Qed.
Lemma timesZ_2 : forall P, on P -> timesZ 2 P = plus P P. Proof. intros P H. change 2 with (2 * 1). rewrite timesZ_double by (lia || exact H). rewrite timesZ_1. reflexivity. Qed.
Lemma timesZ_3 : forall P, on P -> timesZ 3 P = plus (plus P P) P.
Proof. intros P H. change 3 with (2 + 1). rewrite timesZ_add by (lia || exact H). rewrite timesZ_1, timesZ_2 by exact H. reflexivity. Qed.

Lemma lookup_pt_fst : forall b0 b1 i1 i2 i3, lookup_pt b0 b1 i1 i2 i3 = lookup2 b0 b1 EdSpec.O i1 i2 i3.
Proof. intros. unfold lookup_pt, lookup2. destruct (b1 =? 1), (b0 =? 1); try (symmetry; apply surjective_pairing); reflexivity. Qed.
Lemma rel_fold_seq : forall (T : Type) (f : nat -> T -> T -> Prop) (h : nat -> nat) m (g : nat -> T) s0 s',
  (forall j r', (j < m)%nat -> (f (h (s0 + j)%nat) (g j) r' <-> r' = g (j + 1)%nat)) -> (rel_fold f (map h (seq s0 m)) (g 0%nat) s' <-> s' = g m).
Proof.
  intros T f h m. induction m as [| m IH]; intros g s0 s' H; [reflexivity |]. cbn [seq map rel_fold].
  split.
  - intros [s1 [H1 H2]]. pose proof (H 0%nat s1) as H0. rewrite Nat.add_0_r in H0. apply H0 in H1; [| lia]. subst s1. cbn [Nat.add] in H2.
    apply (IH (fun j => g (j + 1)%nat)) in H2; [rewrite H2; f_equal; lia |]. intros j r' Hj. replace (S s0 + j)%nat with (s0 + (j + 1))%nat by lia. apply H. lia.
  - intros E. exists (g 1%nat). split.
    + pose proof (H 0%nat (g 1%nat)) as H0. rewrite Nat.add_0_r in H0. apply H0; [lia | reflexivity].
    + apply (IH (fun j => g (j + 1)%nat)); [| rewrite E; f_equal; lia]. intros j r' Hj. replace (S s0 + j)%nat with (s0 + (j + 1))%nat by lia. apply H. lia.
Qed.
Lemma rel_fold_down : forall (T : Type) (f : nat -> T -> T -> Prop) (g : nat -> T) m s',
  (forall i r', (i < m)%nat -> (f i (g (i + 1)%nat) r' <-> r' = g i)) -> (rel_fold f (rev (seq 0 m)) (g m) s' <-> s' = g 0%nat).
Proof.
  intros T f g m. induction m as [| m IH]; intros s' H; [reflexivity |]. rewrite seq_S, rev_app_distr. cbn [rev app rel_fold Nat.add].
  split.
  - intros [s1 [H1 H2]]. pose proof (H m s1) as H0. rewrite Nat.add_1_r in H0. apply H0 in H1; [| lia]. subst s1. apply IH in H2; [exact H2 |]. intros i r' Hi. apply H. lia.
  - intros E. exists (g m). split; [| apply IH; [intros i r' Hi; apply H; lia | exact E]]. pose proof (H m (g m)) as H0. rewrite Nat.add_1_r in H0. apply H0; [lia | reflexivity].
Qed.
Lemma val_skipn_step : forall b i, (i < length b)%nat -> val_le (skipn i b) = nth i b 0 + 2 * val_le (skipn (i + 1) b).
Proof.
  induction b as [| x b IH]; intros i H; [cbn in H; lia |]. destruct i as [| i]; [reflexivity |]. cbn [skipn nth Nat.add]. apply IH. cbn [length] in H. lia.
Qed.
Lemma val_skipn_nonneg : forall b i, Forall is_bit b -> 0 <= val_le (skipn i b).
Proof.
  intros b i H. apply val_le_range. rewrite <- (firstn_skipn i b) in H. apply Forall_app in H. apply H.
Qed.
Lemma nth_bit : forall b i, Forall is_bit b -> nth i b 0 = 0 \/ nth i b 0 = 1.
Proof.
  intros b i H. destruct (le_lt_dec (length b) i) as [G | G]; [left; apply nth_overflow; exact G |]. rewrite Forall_forall in H. apply H. apply nth_In. exact G.
Qed.

(** [k1] P1 + [k2] P2 by joint double-and-add *)
Lemma double_base_ok : forall b1 b2 P1 P2 res, Forall is_bit b1 -> Forall is_bit b2 -> (1 <= length b1 <= length b2)%nat -> on P1 -> on P2 ->
  (ed_double_base b1 b2 P1 P2 res <-> res = plus (timesZ (val_le b1) P1) (timesZ (val_le (firstn (length b1) b2)) P2)).
Proof.
  intros b1 b2 P1 P2 res B1 B2 HL H1 H2. unfold ed_double_base. set (n := length b1) in *.
  set (c2 := firstn n b2). assert (C2 : Forall is_bit c2) by (unfold c2; rewrite <- (firstn_skipn n b2) in B2; apply Forall_app in B2; apply B2).
  assert (LC : length c2 = n) by (unfold c2; rewrite firstn_length; lia).
  assert (N2 : forall i, (i < n)%nat -> nth i b2 0 = nth i c2 0) by (intros i Hi; unfold c2; symmetry; apply nth_firstn'; exact Hi).
  set (g := fun i => plus (timesZ (val_le (skipn i b1)) P1) (timesZ (val_le (skipn i c2)) P2)).
  assert (G0 : plus (timesZ (val_le b1) P1) (timesZ (val_le c2) P2) = g 0%nat) by reflexivity. rewrite G0.
  assert (Gon : forall i, on (g i)) by (intros i; apply EdSpec.plus_on; apply timesZ_on; assumption).
  assert (LU : forall b0 b1, (b0 = 0 \/ b0 = 1) -> (b1 = 0 \/ b1 = 1) -> lookup_pt b0 b1 P1 P2 (plus P1 P2) = plus (timesZ b0 P1) (timesZ b1 P2)).
  { intros x y Hx Hy. rewrite lookup_pt_fst. unfold lookup2. destruct Hx as [-> | ->], Hy as [-> | ->]; cbn [Z.eqb Pos.eqb];
      rewrite ?timesZ_0, ?timesZ_1, ?EdSpec.plus_O_l, ?EdSpec.plus_O_r; reflexivity. }
  assert (ST : forall i, (i < n)%nat -> g i = plus (plus (g (i + 1)%nat) (g (i + 1)%nat)) (plus (timesZ (nth i b1 0) P1) (timesZ (nth i c2 0) P2))).
  { intros i Hi. unfold g at 1. rewrite (val_skipn_step b1) by (fold n; lia). rewrite (val_skipn_step c2) by lia.
    pose proof (val_skipn_nonneg b1 (i + 1) B1). pose proof (val_skipn_nonneg c2 (i + 1) C2).
    pose proof (nth_bit b1 i B1). pose proof (nth_bit c2 i C2).
    rewrite (Z.add_comm (nth i b1 0)), (Z.add_comm (nth i c2 0)). rewrite !timesZ_add, !timesZ_double by (assumption || lia).
    unfold g. rewrite (EdSpec.plus_swap (timesZ (val_le (skipn (i + 1) b1)) P1)) by (apply timesZ_on; assumption).
    apply EdSpec.plus_swap; repeat apply EdSpec.plus_on; apply timesZ_on; assumption. }
  assert (GN : g n = EdSpec.O). { unfold g. rewrite <- LC at 2. unfold n. rewrite !skipn_all. cbn [val_le]. rewrite !timesZ_0. apply EdSpec.plus_O_l. }
  assert (TOP : lookup_pt (nth (n - 1) b1 0) (nth (n - 1) b2 0) P1 P2 (plus P1 P2) = g (n - 1)%nat).
  { rewrite N2 by lia. rewrite LU by (apply nth_bit; assumption). rewrite (ST (n - 1)%nat) by lia. replace (n - 1 + 1)%nat with n by lia. rewrite GN, (EdSpec.plus_O_l EdSpec.O). symmetry. apply EdSpec.plus_O_l. }
  assert (LOOP : rel_fold (fun i r r' => exists dbl, ed_double r dbl /\ ed_add dbl (lookup_pt (nth i b1 0) (nth i b2 0) P1 P2 (plus P1 P2)) r') (rev (seq 0 (n - 1))) (g (n - 1)%nat) res <-> res = g 0%nat).
  { apply rel_fold_down. intros i r' Hi. rewrite N2 by lia. rewrite LU by (apply nth_bit; assumption). rewrite (ST i) by lia. split.
    - intros [dbl [Hd Ha]]. apply ed_double_ok in Hd; [| apply Gon]. subst dbl. apply ed_add_ok in Ha; [exact Ha | apply EdSpec.plus_on; apply Gon | apply EdSpec.plus_on; apply timesZ_on; assumption].
    - intros E. exists (plus (g (i + 1)%nat) (g (i + 1)%nat)). split; [apply ed_double_ok; [apply Gon | reflexivity] |].
      apply ed_add_ok; [apply EdSpec.plus_on; apply Gon | apply EdSpec.plus_on; apply timesZ_on; assumption | exact E]. }
  split.
  - intros [_ [sum [Hs HF]]]. apply ed_add_ok in Hs; [| assumption | assumption]. subst sum. rewrite TOP in HF. apply LOOP. exact HF.
  - intros E. split; [exact HL |]. exists (plus P1 P2). split; [apply ed_add_ok; auto |]. rewrite TOP. apply LOOP. exact E.
Qed.

(** [k] P, two bits at a time *)
Lemma scalar_mul_ok : forall b P res, Forall is_bit b -> (2 <= length b)%nat -> on P -> (ed_scalar_mul b P res <-> res = timesZ (val_le b) P).
Proof.
  intros b P res HB HL H. unfold ed_scalar_mul. set (n := (length b - 1)%nat).
  set (A := plus P P). set (B := plus A P). assert (HA : on A) by (apply EdSpec.plus_on; assumption). assert (HBo : on B) by (apply EdSpec.plus_on; assumption).
  set (v := fun i => timesZ (val_le (skipn i b)) P). assert (V : forall i, on (v i)) by (intros; apply timesZ_on; assumption).
  assert (LU : forall b0 b1, (b0 = 0 \/ b0 = 1) -> (b1 = 0 \/ b1 = 1) -> lookup_pt b0 b1 A P B = timesZ (b1 + 2 * b0) P).
  { intros x y Hx Hy. rewrite lookup_pt_fst. unfold lookup2. destruct Hx as [-> | ->], Hy as [-> | ->]; cbn [Z.eqb Pos.eqb Z.mul Z.add Pos.mul Pos.add].
    - symmetry. apply timesZ_0.
    - symmetry. apply timesZ_1.
    - symmetry. apply timesZ_2. exact H.
    - symmetry. apply timesZ_3. exact H. }
  assert (S1 : forall i, (i < length b)%nat -> v i = plus (plus (v (i + 1)%nat) (v (i + 1)%nat)) (timesZ (nth i b 0) P)).
  { intros i Hi. unfold v at 1. rewrite val_skipn_step by exact Hi. pose proof (val_skipn_nonneg b (i + 1) HB). pose proof (nth_bit b i HB).
    rewrite Z.add_comm, timesZ_add, timesZ_double by (assumption || lia). reflexivity. }
  assert (S2 : forall i, (i + 1 < length b)%nat -> v i = plus (plus (plus (v (i + 2)%nat) (v (i + 2)%nat)) (plus (v (i + 2)%nat) (v (i + 2)%nat))) (timesZ (nth i b 0 + 2 * nth (i + 1) b 0) P)).
  { intros i Hi. pose proof (val_skipn_nonneg b (i + 2) HB). pose proof (nth_bit b i HB). pose proof (nth_bit b (i + 1) HB).
    unfold v at 1. rewrite val_skipn_step by lia. rewrite (val_skipn_step b (i + 1)) by lia. replace (i + 1 + 1)%nat with (i + 2)%nat by lia.
    replace (nth i b 0 + 2 * (nth (i + 1) b 0 + 2 * val_le (skipn (i + 2) b))) with (2 * (2 * val_le (skipn (i + 2) b)) + (nth i b 0 + 2 * nth (i + 1) b 0)) by ring.
    rewrite timesZ_add by (assumption || lia). rewrite (timesZ_double (2 * _)), timesZ_double by (assumption || lia). reflexivity. }
  set (g := fun j => v (n - 1 - 2 * j)%nat).
  assert (TOP : lookup_pt (nth n b 0) (nth (n - 1) b 0) A P B = g 0%nat).
  { rewrite LU by (apply nth_bit; assumption). unfold g. replace (n - 1 - 2 * 0)%nat with (n - 1)%nat by lia. rewrite S2 by (unfold n; lia).
    replace (n - 1 + 2)%nat with (length b) by (unfold n; lia). replace (n - 1 + 1)%nat with n by (unfold n; lia).
    assert (Z0 : v (length b) = EdSpec.O) by (unfold v; rewrite skipn_all; apply timesZ_0). rewrite Z0, !(EdSpec.plus_O_l EdSpec.O). symmetry. apply EdSpec.plus_O_l. }
  assert (LOOP : forall r1, rel_fold (fun i r r' => exists d1 d2, ed_double r d1 /\ ed_double d1 d2 /\ ed_add d2 (lookup_pt (nth i b 0) (nth (i - 1) b 0) A P B) r')
     (map (fun j => n - 2 - 2 * j)%nat (seq 0 ((n - 1) / 2))) (g 0%nat) r1 <-> r1 = g ((n - 1) / 2)%nat).
  { intros r1. apply (rel_fold_seq point _ (fun j => n - 2 - 2 * j)%nat). intros j r' Hj. cbv beta. rewrite Nat.add_0_l.
    assert (J : (2 * j + 2 <= n - 1)%nat). { pose proof (Nat.div_mod (n - 1) 2). lia. }
    rewrite LU by (apply nth_bit; assumption). unfold g. replace (n - 1 - 2 * (j + 1))%nat with (n - 2 - 2 * j - 1)%nat by lia.
    rewrite (S2 (n - 2 - 2 * j - 1)%nat) by (unfold n; lia). replace (n - 2 - 2 * j - 1 + 2)%nat with (n - 1 - 2 * j)%nat by lia.
    replace (n - 2 - 2 * j - 1 + 1)%nat with (n - 2 - 2 * j)%nat by lia. set (w := v (n - 1 - 2 * j)%nat). assert (W : on w) by apply V.
    set (u := timesZ (nth (n - 2 - 2 * j - 1) b 0 + 2 * nth (n - 2 - 2 * j) b 0) P). assert (U : on u) by (apply timesZ_on; assumption).
    assert (W2 : on (plus w w)) by (apply EdSpec.plus_on; assumption). split.
    - intros [d1 [d2 [E1 [E2 E3]]]]. apply ed_double_ok in E1; [| exact W]. subst d1. apply ed_double_ok in E2; [| exact W2]. subst d2.
      apply ed_add_ok in E3; [exact E3 | apply EdSpec.plus_on; assumption | exact U].
    - intros E. exists (plus w w), (plus (plus w w) (plus w w)). split; [apply ed_double_ok; [exact W | reflexivity] |]. split; [apply ed_double_ok; [exact W2 | reflexivity] |].
      apply ed_add_ok; [apply EdSpec.plus_on; assumption | exact U | exact E]. }
  assert (R0 : timesZ (val_le b) P = v 0%nat) by reflexivity. rewrite R0.
  assert (TAIL : forall r1, r1 = g ((n - 1) / 2)%nat -> ((if Nat.eqb (n mod 2) 0 then exists d1 tmp, ed_double r1 d1 /\ ed_add d1 P tmp /\ res = (if nth 0 b 0 =? 1 then tmp else d1) else res = r1) <-> res = v 0%nat)).
  { intros r1 ->. unfold g. pose proof (Nat.div_mod n 2). pose proof (Nat.div_mod (n - 1) 2). pose proof (Nat.mod_upper_bound n 2). pose proof (Nat.mod_upper_bound (n - 1) 2).
    destruct (Nat.eqb_spec (n mod 2) 0) as [E | E].
    - replace (n - 1 - 2 * ((n - 1) / 2))%nat with 1%nat by (unfold n in *; lia). rewrite (S1 0%nat) by lia. cbn [Nat.add].
      assert (W : on (v 1%nat)) by apply V. set (w := v 1%nat) in *. assert (W2 : on (plus w w)) by (apply EdSpec.plus_on; assumption).
      assert (RS : forall d1 tmp, d1 = plus w w -> tmp = plus (plus w w) P -> (if nth 0 b 0 =? 1 then tmp else d1) = plus (plus w w) (timesZ (nth 0 b 0) P)).
      { intros d1 tmp -> ->. destruct (nth_bit b 0 HB) as [-> | ->]; cbn [Z.eqb Pos.eqb]; [rewrite timesZ_0, EdSpec.plus_O_r | rewrite timesZ_1]; reflexivity. }
      split.
      + intros [d1 [tmp [E1 [E2 ->]]]]. apply ed_double_ok in E1; [| exact W]. subst d1. apply ed_add_ok in E2; [| exact W2 | exact H]. apply RS; [reflexivity | exact E2].
      + intros ->. exists (plus w w), (plus (plus w w) P). split; [apply ed_double_ok; [exact W | reflexivity] |]. split; [apply ed_add_ok; [exact W2 | exact H | reflexivity] |].
        symmetry. apply RS; reflexivity.
    - replace (n - 1 - 2 * ((n - 1) / 2))%nat with 0%nat by (unfold n in *; lia). reflexivity. }
  split.
  - intros [_ [A' [B' [EA [EB [r1 [EF ET]]]]]]]. apply ed_double_ok in EA; [| exact H]. subst A'. apply ed_add_ok in EB; [| exact HA | exact H]. subst B'. fold A B in EF.
    rewrite TOP in EF. apply LOOP in EF. apply (TAIL r1 EF). exact ET.
  - intros E. split; [exact HL |]. exists A, B. split; [apply ed_double_ok; [exact H | reflexivity] |]. split; [apply ed_add_ok; [exact HA | exact H | reflexivity] |].
    exists (g ((n - 1) / 2)%nat). split; [rewrite TOP; apply LOOP; reflexivity |]. apply (TAIL _ eq_refl). exact E.
Qed.
