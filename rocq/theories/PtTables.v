(** * PtTables.v — encodings, lookup tables and scalar multiplications of PtModel.v *)
From Coq Require Import ZArith Znumtheory List Lia Bool Arith.
From Verif Require Import Field FieldLemmas PrimeTheory FieldZ KeccakModel SliceModel EdBytes EdCurve FeModel FeProofs FeField ScModel ScProofs ScNaf PtModel PtProofs.
From Verif Require EdSpec.
Import ListNotations.
Open Scope Z_scope.
Add Ring Kr3 : (Fq_ring q5).

(** ** integer multiples *)
Definition mulZ (n : Z) (A : Pt) : Pt := if n <? 0 then EdSpec.opp (EdSpec.times (Z.to_nat (- n)) A) else EdSpec.times (Z.to_nat n) A.
Lemma mulZ_nonneg n A : 0 <= n -> mulZ n A = EdSpec.times (Z.to_nat n) A.
Proof. intros H. unfold mulZ. destruct (Z.ltb_spec n 0); [lia|reflexivity]. Qed.
Lemma mulZ_on n A : EdSpec.on A -> EdSpec.on (mulZ n A).
Proof. intros H. unfold mulZ. destruct (n <? 0); [apply EdSpec.opp_on|]; apply EdSpec.times_on; exact H. Qed.
Lemma mulZ_opp n A : EdSpec.on A -> mulZ (- n) A = EdSpec.opp (mulZ n A).
Proof.
  intros H. unfold mulZ. destruct (Z.ltb_spec (- n) 0), (Z.ltb_spec n 0); try lia.
  - rewrite Z.opp_involutive. reflexivity.
  - rewrite EdSpec.opp_opp. reflexivity.
  - assert (n = 0) by lia. subst n. change (EdSpec.times (Z.to_nat (- 0)) A) with EdSpec.O. change (EdSpec.times (Z.to_nat 0) A) with EdSpec.O. symmetry. apply EdSpec.opp_O.
Qed.
Lemma plus_4 P Q R : EdSpec.on P -> EdSpec.on Q -> EdSpec.on R -> EdSpec.plus (EdSpec.plus P Q) (EdSpec.opp Q) = P.
Proof. intros HP HQ _. rewrite <- EdSpec.plus_assoc by auto using EdSpec.opp_on. rewrite EdSpec.plus_opp by auto. apply EdSpec.plus_O_r. Qed.
Lemma mulZ_add m n A : EdSpec.on A -> mulZ (m + n) A = EdSpec.plus (mulZ m A) (mulZ n A).
Proof.
  intros H. assert (PN : forall a b, 0 <= a -> 0 <= b -> mulZ (a + b) A = EdSpec.plus (mulZ a A) (mulZ b A)).
  { intros a b Ha Hb. rewrite !mulZ_nonneg by lia. rewrite Z2Nat.inj_add by lia. apply EdSpec.times_add, H. }
  assert (MX : forall a b, 0 <= a -> b < 0 -> mulZ (a + b) A = EdSpec.plus (mulZ a A) (mulZ b A)).
  { intros a b Ha Hb. destruct (Z_le_gt_dec 0 (a + b)).
    - transitivity (EdSpec.plus (mulZ ((a + b) + - b) A) (mulZ b A)); [|f_equal; f_equal; ring]. rewrite (PN (a + b) (- b)) by lia. rewrite (mulZ_opp b A H). set (P := mulZ (a + b) A). rewrite <- EdSpec.plus_assoc by (try apply EdSpec.opp_on; apply mulZ_on; exact H).
      rewrite (EdSpec.plus_comm (EdSpec.opp _)), EdSpec.plus_opp by (apply mulZ_on; exact H). rewrite EdSpec.plus_O_r. reflexivity.
    - transitivity (EdSpec.plus (mulZ a A) (mulZ (- (a + - (a + b))) A)); [|f_equal; f_equal; ring]. rewrite (mulZ_opp (a + - (a + b))) by exact H. rewrite (PN a (- (a + b))) by lia. rewrite EdSpec.opp_plus by (apply mulZ_on; exact H). rewrite EdSpec.plus_assoc by (try apply EdSpec.opp_on; apply mulZ_on; exact H).
      rewrite EdSpec.plus_opp by (apply mulZ_on; exact H). rewrite EdSpec.plus_O_l. rewrite <- mulZ_opp by exact H. f_equal. lia. }
  destruct (Z_le_gt_dec 0 m), (Z_le_gt_dec 0 n).
  - apply PN; lia.
  - apply MX; lia.
  - rewrite Z.add_comm, EdSpec.plus_comm. apply MX; lia.
  - replace (m + n) with (- (- m + - n)) by lia. rewrite mulZ_opp by exact H. rewrite PN by lia. rewrite EdSpec.opp_plus by (apply mulZ_on; exact H). rewrite <- !mulZ_opp by exact H. rewrite !Z.opp_involutive. reflexivity.
Qed.
Lemma mulZ_0 A : mulZ 0 A = EdSpec.O. Proof. reflexivity. Qed.
Lemma mulZ_1 A : mulZ 1 A = A. Proof. apply EdSpec.times_1. Qed.
Lemma mulZ_2 A : EdSpec.on A -> mulZ 2 A = EdSpec.plus A A.
Proof. intros H. change 2 with (1 + 1). rewrite mulZ_add, mulZ_1 by exact H. reflexivity. Qed.
Lemma mulZ_mul_nat (m : nat) n A : EdSpec.on A -> mulZ (Z.of_nat m * n) A = mulZ (Z.of_nat m) (mulZ n A).
Proof.
  intros H. induction m as [|m IH]; [reflexivity|]. rewrite Nat2Z.inj_succ. replace (Z.succ (Z.of_nat m) * n) with (Z.of_nat m * n + n) by ring. unfold Z.succ. rewrite (mulZ_add (Z.of_nat m) 1 (mulZ n A)) by (apply mulZ_on; exact H).
  rewrite mulZ_add by exact H. rewrite IH, mulZ_1. reflexivity.
Qed.
Lemma mulZ_mul m n A : 0 <= m -> EdSpec.on A -> mulZ (m * n) A = mulZ m (mulZ n A).
Proof. intros Hm H. rewrite <- (Z2Nat.id m) by exact Hm. apply mulZ_mul_nat, H. Qed.
Lemma mulZ_dbl n A : EdSpec.on A -> EdSpec.plus (mulZ n A) (mulZ n A) = mulZ (2 * n) A.
Proof. intros H. rewrite <- mulZ_add by exact H. f_equal. lia. Qed.

(** ** tables *)
Lemma table_length {C} (step : C -> C) n : forall c, length (table_of step n c) = S n.
Proof. induction n as [|n IH]; intros c; [reflexivity|]. cbn [table_of length]. rewrite IH. reflexivity. Qed.
Lemma table_nth {C} (R : C -> Z -> Prop) (step : C -> C) (s : Z) n : forall c m, R c m -> (forall c m, R c m -> R (step c) (m + s)) -> forall i, (i <= n)%nat ->
  exists c', nth_error (table_of step n c) i = Some c' /\ R c' (m + Z.of_nat i * s).
Proof.
  induction n as [|n IH]; intros c m Hc Hs i Hi; destruct i as [|i]; try lia; cbn [table_of nth_error].
  - exists c. split; [reflexivity|]. replace (m + Z.of_nat 0 * s) with m by lia. exact Hc.
  - exists c. split; [reflexivity|]. replace (m + Z.of_nat 0 * s) with m by lia. exact Hc.
  - destruct (IH (step c) (m + s) (Hs _ _ Hc) Hs i ltac:(lia)) as (c' & E & Rc). exists c'. split; [exact E|]. replace (m + Z.of_nat (S i) * s) with (m + s + Z.of_nat i * s) by lia. exact Rc.
Qed.
Lemma proj_table_ok q A : r3 q A -> forall i, (i <= 7)%nat -> exists c, nth_error (proj_table q) i = Some c /\ rc c (mulZ (Z.of_nat i + 1) A).
Proof.
  intros H i Hi. assert (HA : EdSpec.on A) by apply H. destruct (table_nth (fun c m => rc c (mulZ m A)) (fun c => pc_from_p3 (p3_from_p1 (p1_add q c))) 1 7 (pc_from_p3 q) 1) with (i := i) as (c & E & R); [rewrite mulZ_1; apply pc_from_p3_ok, H| |exact Hi|].
  - intros c m Rc. apply pc_from_p3_ok, p3_from_p1_ok. rewrite Z.add_comm, mulZ_add, mulZ_1 by exact HA. apply p1_add_ok; assumption.
  - exists c. split; [exact E|]. replace (Z.of_nat i + 1) with (1 + Z.of_nat i * 1) by lia. exact R.
Qed.
Lemma affine_table_ok q A : r3 q A -> forall i, (i <= 7)%nat -> exists c, nth_error (affine_table q) i = Some c /\ ra c (mulZ (Z.of_nat i + 1) A).
Proof.
  intros H i Hi. assert (HA : EdSpec.on A) by apply H. destruct (table_nth (fun c m => ra c (mulZ m A)) (fun c => ac_from_p3 (p3_from_p1 (p1_add_affine q c))) 1 7 (ac_from_p3 q) 1) with (i := i) as (c & E & R); [rewrite mulZ_1; apply ac_from_p3_ok, H| |exact Hi|].
  - intros c m Rc. apply ac_from_p3_ok, p3_from_p1_ok. rewrite Z.add_comm, mulZ_add, mulZ_1 by exact HA. apply p1_add_affine_ok; assumption.
  - exists c. split; [exact E|]. replace (Z.of_nat i + 1) with (1 + Z.of_nat i * 1) by lia. exact R.
Qed.
Lemma naf5_table_ok q A : r3 q A -> exists t, naf5_table q = Some t /\ forall i, (i <= 7)%nat -> exists c, nth_error t i = Some c /\ rc c (mulZ (2 * Z.of_nat i + 1) A).
Proof.
  intros H. assert (HA : EdSpec.on A) by apply H. unfold naf5_table. destruct (pt_add_ok q q A A H H) as (q2 & E2 & H2). rewrite E2. eexists. split; [reflexivity|]. intros i Hi.
  destruct (table_nth (fun c m => rc c (mulZ m A)) (fun c => pc_from_p3 (p3_from_p1 (p1_add q2 c))) 2 7 (pc_from_p3 q) 1) with (i := i) as (c & E & R); [rewrite mulZ_1; apply pc_from_p3_ok, H| |exact Hi|].
  - intros c m Rc. apply pc_from_p3_ok, p3_from_p1_ok. rewrite Z.add_comm, mulZ_add, mulZ_2 by exact HA. apply p1_add_ok; assumption.
  - exists c. split; [exact E|]. replace (2 * Z.of_nat i + 1) with (1 + Z.of_nat i * 2) by lia. exact R.
Qed.
Lemma naf8_table_ok q A : r3 q A -> exists t, naf8_table q = Some t /\ forall i, (i <= 63)%nat -> exists c, nth_error t i = Some c /\ ra c (mulZ (2 * Z.of_nat i + 1) A).
Proof.
  intros H. assert (HA : EdSpec.on A) by apply H. unfold naf8_table. destruct (pt_add_ok q q A A H H) as (q2 & E2 & H2). rewrite E2. eexists. split; [reflexivity|]. intros i Hi.
  destruct (table_nth (fun c m => ra c (mulZ m A)) (fun c => ac_from_p3 (p3_from_p1 (p1_add_affine q2 c))) 2 63 (ac_from_p3 q) 1) with (i := i) as (c & E & R); [rewrite mulZ_1; apply ac_from_p3_ok, H| |exact Hi|].
  - intros c m Rc. apply ac_from_p3_ok, p3_from_p1_ok. rewrite Z.add_comm, mulZ_add, mulZ_2 by exact HA. apply p1_add_affine_ok; assumption.
  - exists c. split; [exact E|]. replace (2 * Z.of_nat i + 1) with (1 + Z.of_nat i * 2) by lia. exact R.
Qed.
Lemma digit_abs x : -8 <= x <= 8 -> byte (Z.lxor (i8 (x + Z.shiftr x 7)) (Z.shiftr x 7)) = Z.abs x /\ Z.land (Z.shiftr x 7) 1 = (if x <? 0 then 1 else 0).
Proof.
  intros H. assert (C : In x [-8; -7; -6; -5; -4; -3; -2; -1; 0; 1; 2; 3; 4; 5; 6; 7; 8]) by (cbn [In]; lia). cbn [In] in C.
  repeat (destruct C as [C|C]; [subst x; vm_compute; auto|]). destruct C.
Qed.
Lemma mulZ_abs x A : EdSpec.on A -> mulZ x A = if x <? 0 then EdSpec.opp (mulZ (Z.abs x) A) else mulZ (Z.abs x) A.
Proof. intros H. destruct (Z.ltb_spec x 0); [rewrite <- mulZ_opp by exact H|]; f_equal; lia. Qed.
Lemma proj_select_ok t A x : EdSpec.on A -> -8 <= x <= 8 -> (forall i, (i <= 7)%nat -> exists c, nth_error t i = Some c /\ rc c (mulZ (Z.of_nat i + 1) A)) -> rc (proj_select t x) (mulZ x A).
Proof.
  intros HA Hx Ht. unfold proj_select. destruct (digit_abs x Hx) as [E1 E2]. cbv zeta. rewrite E1, E2. clear E1 E2. rewrite (mulZ_abs x A HA). set (m := Z.abs x). assert (Hm : 0 <= m <= 8) by lia.
  assert (L : forall n, (n <= 8)%nat -> rc (fold_left (fun dest j => pc_select (nth (j - 1) t pc_zero) dest (byte_eq m (Z.of_nat j))) (seq 1 n) pc_zero) (if m <=? Z.of_nat n then mulZ m A else EdSpec.O)).
  { induction n as [|n IH]; intros Hn.
    - cbn [seq fold_left]. destruct (Z.leb_spec m (Z.of_nat 0)); [replace m with 0 by lia|]; exact pc_zero_ok.
    - rewrite seq_S, fold_left_app. cbn [fold_left]. specialize (IH ltac:(lia)). set (dest := fold_left _ _ _) in *. replace (1 + n)%nat with (S n) by lia. replace (S n - 1)%nat with n by lia.
      destruct (Ht n ltac:(lia)) as (c & Ec & Rc). rewrite (nth_error_nth _ _ _ Ec). unfold byte_eq. destruct (Z.eqb_spec m (Z.of_nat (S n))) as [E|E].
      + rewrite (pc_select_1 _ _ _ Rc). destruct (Z.leb_spec m (Z.of_nat (S n))); [|lia]. replace m with (Z.of_nat n + 1) by lia. exact Rc.
      + rewrite (pc_select_0 _ _ _ IH). destruct (Z.leb_spec m (Z.of_nat n)), (Z.leb_spec m (Z.of_nat (S n))); try lia; exact IH. }
  specialize (L 8%nat ltac:(lia)). destruct (Z.leb_spec m (Z.of_nat 8)); [|lia]. destruct (x <? 0); [apply pc_neg_1|apply pc_neg_0]; exact L.
Qed.
Lemma affine_select_ok t A x : EdSpec.on A -> -8 <= x <= 8 -> (forall i, (i <= 7)%nat -> exists c, nth_error t i = Some c /\ ra c (mulZ (Z.of_nat i + 1) A)) -> ra (affine_select t x) (mulZ x A).
Proof.
  intros HA Hx Ht. unfold affine_select. destruct (digit_abs x Hx) as [E1 E2]. cbv zeta. rewrite E1, E2. clear E1 E2. rewrite (mulZ_abs x A HA). set (m := Z.abs x). assert (Hm : 0 <= m <= 8) by lia.
  assert (L : forall n, (n <= 8)%nat -> ra (fold_left (fun dest j => ac_select (nth (j - 1) t ac_zero) dest (byte_eq m (Z.of_nat j))) (seq 1 n) ac_zero) (if m <=? Z.of_nat n then mulZ m A else EdSpec.O)).
  { induction n as [|n IH]; intros Hn.
    - cbn [seq fold_left]. destruct (Z.leb_spec m (Z.of_nat 0)); [replace m with 0 by lia|]; exact ac_zero_ok.
    - rewrite seq_S, fold_left_app. cbn [fold_left]. specialize (IH ltac:(lia)). set (dest := fold_left _ _ _) in *. replace (1 + n)%nat with (S n) by lia. replace (S n - 1)%nat with n by lia.
      destruct (Ht n ltac:(lia)) as (c & Ec & Rc). rewrite (nth_error_nth _ _ _ Ec). unfold byte_eq. destruct (Z.eqb_spec m (Z.of_nat (S n))) as [E|E].
      + rewrite (ac_select_1 _ _ _ Rc). destruct (Z.leb_spec m (Z.of_nat (S n))); [|lia]. replace m with (Z.of_nat n + 1) by lia. exact Rc.
      + rewrite (ac_select_0 _ _ _ IH). destruct (Z.leb_spec m (Z.of_nat n)), (Z.leb_spec m (Z.of_nat (S n))); try lia; exact IH. }
  specialize (L 8%nat ltac:(lia)). destruct (Z.leb_spec m (Z.of_nat 8)); [|lia]. destruct (x <? 0); [apply ac_neg_1|apply ac_neg_0]; exact L.
Qed.
Lemma naf_select_ok {C} (R : C -> Pt -> Prop) t n A x : Z.odd x = true -> 0 < x <= 2 * Z.of_nat n + 1 -> (forall i, (i <= n)%nat -> exists c, nth_error t i = Some c /\ R c (mulZ (2 * Z.of_nat i + 1) A)) ->
  exists c, naf_select t x = Some c /\ R c (mulZ x A).
Proof.
  intros Ho Hx Ht. unfold naf_select. rewrite Z.quot_div_nonneg by lia. cbv zeta. assert (E : x = 2 * (x / 2) + 1).
  { pose proof (Z.div_mod x 2 ltac:(lia)) as D. rewrite Zodd_mod in Ho. apply Zeq_bool_eq in Ho. lia. }
  destruct (Z.leb_spec 0 (x / 2)); [|lia]. cbn [guard obind]. destruct (Ht (Z.to_nat (x / 2)) ltac:(lia)) as (c & Ec & Rc). exists c. split; [exact Ec|]. rewrite Z2Nat.id in Rc by lia. rewrite <- E in Rc. exact Rc.
Qed.

(** ** the base point tables *)
Lemma double_n_ok n : forall p A, r3 p A -> exists v, double_n n p = Some v /\ r3 v (mulZ (2 ^ Z.of_nat n) A).
Proof.
  induction n as [|n IH]; intros p A H.
  - exists p. split; [reflexivity|]. change (2 ^ Z.of_nat 0) with 1. rewrite mulZ_1. exact H.
  - cbn [double_n]. destruct (pt_add_ok p p A A H H) as (p2 & E2 & H2). rewrite E2. cbn [obind]. destruct (IH p2 _ H2) as (v & Ev & Hv). exists v. split; [exact Ev|]. assert (HA : EdSpec.on A) by apply H.
    rewrite <- mulZ_2, <- mulZ_mul in Hv by (try apply Z.pow_nonneg; try lia; exact HA). rewrite Nat2Z.inj_succ, Z.pow_succ_r, Z.mul_comm by lia. exact Hv.
Qed.
Lemma base_tables_ok n : forall p A, r3 p A -> exists ts, base_tables n p = Some ts /\ length ts = n /\ forall k, (k < n)%nat -> forall i, (i <= 7)%nat -> exists c, nth_error (nth k ts []) i = Some c /\ ra c (mulZ (Z.of_nat i + 1) (mulZ (256 ^ Z.of_nat k) A)).
Proof.
  induction n as [|n IH]; intros p A H.
  - exists []. split; [reflexivity|]. split; [reflexivity|]. intros k Hk. lia.
  - cbn [base_tables]. destruct (double_n_ok 8 p A H) as (p8 & E8 & H8). rewrite E8. cbn [obind]. change (2 ^ Z.of_nat 8) with 256 in H8. destruct (IH p8 _ H8) as (ts & Et & Lt & Ht). rewrite Et. cbn [obind]. eexists. split; [reflexivity|].
    split; [cbn [length]; rewrite Lt; reflexivity|]. assert (HA : EdSpec.on A) by apply H. intros [|k] Hk i Hi; cbn [nth].
    + change (256 ^ Z.of_nat 0) with 1. rewrite mulZ_1. apply affine_table_ok; assumption.
    + destruct (Ht k ltac:(lia) i Hi) as (c & Ec & Rc). exists c. split; [exact Ec|]. rewrite <- (mulZ_mul (256 ^ Z.of_nat k)) in Rc by (try apply Z.pow_nonneg; try lia; exact HA). rewrite Nat2Z.inj_succ, Z.pow_succ_r, (Z.mul_comm 256) by lia. exact Rc.
Qed.
