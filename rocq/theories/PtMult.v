(** * PtMult.v — the three scalar multiplications of PtModel.v *)
From Coq Require Import ZArith Znumtheory List Lia Bool Arith.
From Verif Require Import Field FieldLemmas PrimeTheory FieldZ KeccakModel SliceModel EdBytes EdCurve FeModel FeProofs FeField ScModel ScProofs ScNaf Props_Fe PtModel PtProofs PtTables PtBytes.
From Verif Require EdSpec.
Import ListNotations.
Open Scope Z_scope.

Lemma known_point x y0 X0 : is_bytes x -> length x = 32%nat -> le_val x / 2 ^ 255 = 0 -> ofZ q5 (le_val x mod 2 ^ 255) = y0 -> EdSpec.on (X0, y0) -> fval X0 mod 2 = 0 -> exists v, pt_set_bytes x = Some v /\ r3 v (X0, y0).
Proof.
  intros F L S Y On P. destruct (set_bytes_ok x F L) as [(v & X & E & R & _ & PX)|(E & N)]; rewrite Y in *.
  - exists v. split; [exact E|]. replace X0 with X; [exact R|]. apply (root_unique X X0 y0); [apply R|exact On|]. rewrite P, S in *. destruct PX as [-> | PX]; [reflexivity|exact PX].
  - exfalso. exact (N X0 On).
Qed.
Lemma identity_ok : exists v, pt_identity = Some v /\ r3 v EdSpec.O.
Proof.
  apply (known_point identity_bytes (ofZ q5 1) (ofZ q5 0)).
  - unfold is_bytes, identity_bytes. apply Forall_forall. intros b Hb. vm_compute in Hb. repeat (destruct Hb as [Hb|Hb]; [lia|]). destruct Hb.
  - reflexivity.
  - vm_compute. reflexivity.
  - apply Fq_ext. vm_compute. reflexivity.
  - exact EdSpec.O_on.
  - vm_compute. reflexivity.
Qed.
Lemma generator_ok : exists v, pt_generator = Some v /\ r3 v EdSpec.B.
Proof.
  unfold EdSpec.B. rewrite EdSpec.By_val. apply (known_point generator_bytes (ofZ q5 EdSpec.By) (ofZ q5 EdSpec.Bx)).
  - unfold is_bytes, generator_bytes. apply Forall_forall. intros b Hb. vm_compute in Hb. repeat (destruct Hb as [Hb|Hb]; [lia|]). destruct Hb.
  - reflexivity.
  - vm_compute. reflexivity.
  - apply Fq_ext. vm_compute. reflexivity.
  - pose proof EdSpec.B_on as H. unfold EdSpec.B in H. rewrite EdSpec.By_val in H. exact H.
  - vm_compute. reflexivity.
Qed.

Lemma r1_dbl4 p A n : EdSpec.on A -> r1 p (mulZ n A) -> r1 (p1_double (p2_from_p1 (p1_double (p2_from_p1 (p1_double (p2_from_p1 (p1_double (p2_from_p1 p)))))))) (mulZ (16 * n) A).
Proof.
  intros HA H. assert (S : forall p m, r1 p (mulZ m A) -> r1 (p1_double (p2_from_p1 p)) (mulZ (2 * m) A)).
  { intros p' m H'. rewrite <- mulZ_dbl by exact HA. apply p1_double_ok, p2_from_p1_ok, H'. }
  apply S in H. apply S in H. apply S in H. apply S in H. replace (16 * n) with (2 * (2 * (2 * (2 * n)))) by ring. exact H.
Qed.
Lemma skipn_nth n (d : list Z) : (n < length d)%nat -> skipn n d = nth n d 0 :: skipn (S n) d.
Proof. revert n. induction d as [|x d IH]; intros n H; cbn [length] in H; [lia|]. destruct n; [reflexivity|]. cbn [skipn nth]. rewrite IH by lia. reflexivity. Qed.
Lemma mult_loop t d A : EdSpec.on A -> (forall i, (i <= 7)%nat -> exists c, nth_error t i = Some c /\ rc c (mulZ (Z.of_nat i + 1) A)) -> (forall i, (i < 63)%nat -> -8 <= nth i d 0 <= 8) -> length d = 64%nat ->
  forall n tmp, (n <= 63)%nat -> r1 tmp (mulZ (pval 16 (skipn n d)) A) -> r1 (fold_left (mult_step t d) (rev (seq 0 n)) tmp) (mulZ (pval 16 d) A).
Proof.
  intros HA Ht Hd L. induction n as [|n IH]; intros tmp Hn H; [exact H|]. rewrite seq_S, rev_app_distr. cbn [rev app fold_left]. apply IH; [lia|]. replace (0 + n)%nat with n by lia. unfold mult_step. cbv zeta.
  rewrite (skipn_nth n d) by (rewrite L; lia). cbn [pval]. rewrite Z.add_comm, mulZ_add by exact HA. apply p1_add_ok; [apply p3_from_p1_ok, r1_dbl4; assumption|]. apply proj_select_ok; [exact HA|apply Hd; lia|exact Ht].
Qed.
Theorem mult_ok s q A : is_bytes s -> length s = 32%nat -> le_val s < 2 ^ 255 -> r3 q A -> exists v, pt_mult s q = Some v /\ r3 v (mulZ (le_val s) A).
Proof.
  intros F L H HQ. assert (HA : EdSpec.on A) by apply HQ. unfold pt_mult. rewrite (initialized_ok q A HQ). cbn [guard obind]. cbv zeta. destruct (radix16_ok s F L H) as (d & Ed & Ld & Vd & Bd & Td). rewrite Ed. cbn [obind]. destruct identity_ok as (i & Ei & Hi). rewrite Ei. cbn [obind].
  eexists. split; [reflexivity|]. apply p3_from_p1_ok. rewrite <- Vd. apply mult_loop; [exact HA|apply proj_table_ok; exact HQ|intros k Hk; specialize (Bd k Hk); lia|exact Ld|lia|].
  rewrite (skipn_nth 63 d) by (rewrite Ld; lia). rewrite (skipn_all2 d) by (rewrite Ld; lia). cbn [pval]. rewrite Z.mul_0_r, Z.add_0_r. rewrite <- (EdSpec.plus_O_l (mulZ _ A)). apply p1_add_ok; [exact Hi|]. apply proj_select_ok; [exact HA|lia|apply proj_table_ok; exact HQ].
Qed.

(** ** fixed base *)
Fixpoint dsum (f : nat -> nat) (d : list Z) (m : nat) : Z := match m with O => 0 | S k => dsum f d k + nth (f k) d 0 * 256 ^ Z.of_nat k end.
Lemma firstn_plus {T} m n (l : list T) : firstn (m + n) l = firstn m l ++ firstn n (skipn m l).
Proof. revert l. induction m as [|m IH]; intros l; [reflexivity|]. destruct l; [cbn; rewrite firstn_nil; reflexivity|]. cbn [Nat.add firstn skipn app]. rewrite IH. reflexivity. Qed.
Lemma dsum_pval d : forall m, (2 * m <= length d)%nat -> pval 16 (firstn (2 * m) d) = dsum (fun j => 2 * j)%nat d m + 16 * dsum (fun j => 2 * j + 1)%nat d m.
Proof.
  induction m as [|m IH]; intros H; [reflexivity|]. cbn [dsum]. assert (E : firstn (2 * S m) d = firstn (2 * m) d ++ [nth (2 * m) d 0; nth (2 * m + 1) d 0]).
  { replace (2 * S m)%nat with (2 * m + 2)%nat by lia. rewrite firstn_plus. apply f_equal. rewrite (skipn_nth (2 * m) d), (skipn_nth (S (2 * m)) d) by lia. replace (S (2 * m)) with (2 * m + 1)%nat by lia. reflexivity. }
  rewrite E, pval_app, firstn_length, Nat.min_l by lia. rewrite IH by lia. cbn [pval]. replace (16 ^ Z.of_nat (2 * m)) with (256 ^ Z.of_nat m); [ring|]. rewrite Nat2Z.inj_mul. change (Z.of_nat 2) with 2. rewrite Z.pow_mul_r by lia. reflexivity.
Qed.
Lemma base_loop ts d A (f : nat -> nat) : EdSpec.on A -> (forall k, (k < 32)%nat -> forall i, (i <= 7)%nat -> exists c, nth_error (nth k ts []) i = Some c /\ ra c (mulZ (Z.of_nat i + 1) (mulZ (256 ^ Z.of_nat k) A))) ->
  (forall i, (i < 64)%nat -> -8 <= nth i d 0 <= 8) -> (forall j, (j < 32)%nat -> (f j / 2 = j /\ f j < 64)%nat) ->
  forall m v z, (m <= 32)%nat -> r3 v (mulZ z A) -> r3 (fold_left (base_step ts d) (map f (seq 0 m)) v) (mulZ (z + dsum f d m) A).
Proof.
  intros HA Ht Hd Hf. induction m as [|m IH]; intros v z Hm H.
  - cbn [seq map fold_left dsum]. rewrite Z.add_0_r. exact H.
  - rewrite seq_S, map_app, fold_left_app. cbn [map fold_left]. replace (0 + m)%nat with m by lia. specialize (IH v z ltac:(lia) H). set (w := fold_left _ _ _) in *. unfold base_step. destruct (Hf m ltac:(lia)) as [Ef Lf]. rewrite Ef. cbn [dsum].
    rewrite Z.add_assoc, mulZ_add by exact HA. apply p3_from_p1_ok, p1_add_affine_ok; [exact IH|]. replace (mulZ (nth (f m) d 0 * 256 ^ Z.of_nat m) A) with (mulZ (nth (f m) d 0) (mulZ (256 ^ Z.of_nat m) A)).
    + apply affine_select_ok; [apply mulZ_on; exact HA|apply Hd; exact Lf|apply Ht; lia].
    + set (x := nth (f m) d 0). rewrite (mulZ_abs x) by (apply mulZ_on; exact HA). rewrite <- mulZ_mul by (try lia; exact HA). destruct (Z.ltb_spec x 0); [rewrite <- mulZ_opp by exact HA|]; f_equal; nia.
Qed.
Theorem base_mult_ok s : is_bytes s -> length s = 32%nat -> le_val s < 2 ^ 255 -> exists v, pt_base_mult s = Some v /\ r3 v (mulZ (le_val s) EdSpec.B).
Proof.
  intros F L H. unfold pt_base_mult. destruct generator_ok as (g & Eg & Hg). rewrite Eg. cbn [obind]. destruct (base_tables_ok 32 g _ Hg) as (ts & Et & Lt & Ht). rewrite Et. cbn [obind].
  destruct (radix16_ok s F L H) as (d & Ed & Ld & Vd & Bd & Td). rewrite Ed. cbn [obind]. destruct identity_ok as (i & Ei & Hi). rewrite Ei. cbn [obind]. cbv zeta. eexists. split; [reflexivity|].
  assert (HB : EdSpec.on EdSpec.B) by exact EdSpec.B_on. assert (Hd : forall i, (i < 64)%nat -> -8 <= nth i d 0 <= 8) by (intros k Hk; destruct (Nat.eq_dec k 63) as [-> |]; [lia|specialize (Bd k ltac:(lia)); lia]).
  pose proof (base_loop ts d EdSpec.B (fun j => 2 * j + 1)%nat HB Ht Hd) as L1. specialize (L1 ltac:(intros j Hj; split; [symmetry; apply (Nat.div_unique _ 2 j 1); lia|lia]) 32%nat i 0 ltac:(lia) Hi). rewrite Z.add_0_l in L1.
  assert (L2 : forall p n, r3 p (mulZ n EdSpec.B) -> r3 (p3_from_p1 (p1_double (p2_from_p1 (p1_double (p2_from_p1 (p1_double (p2_from_p1 (p1_double (p2_from_p3 p))))))))) (mulZ (16 * n) EdSpec.B)).
  { intros p n Hp. assert (S : forall p m, r1 p (mulZ m EdSpec.B) -> r1 (p1_double (p2_from_p1 p)) (mulZ (2 * m) EdSpec.B)) by (intros p' m H'; rewrite <- mulZ_dbl by exact HB; apply p1_double_ok, p2_from_p1_ok, H').
    apply p3_from_p1_ok. assert (S1 : r1 (p1_double (p2_from_p3 p)) (mulZ (2 * n) EdSpec.B)) by (rewrite <- mulZ_dbl by exact HB; apply p1_double_ok, p2_from_p3_ok, Hp). apply S in S1. apply S in S1. apply S in S1. replace (16 * n) with (2 * (2 * (2 * (2 * n)))) by ring. exact S1. }
  specialize (L2 _ _ L1). pose proof (base_loop ts d EdSpec.B (fun j => 2 * j)%nat HB Ht Hd) as L3. specialize (L3 ltac:(intros j Hj; split; [symmetry; apply (Nat.div_unique _ 2 j 0); lia|lia]) 32%nat _ _ ltac:(lia) L2).
  pose proof (dsum_pval d 32 ltac:(lia)) as D. rewrite firstn_all2 in D by lia. rewrite <- Vd, D, Z.add_comm. exact L3.
Qed.

(** ** a A + b B *)
Lemma i8_neg x : -128 < x < 128 -> i8 (- x) = - x. Proof. intros H. unfold i8. rewrite Z.mod_small by lia. lia. Qed.
Lemma odd_opp x : Z.odd (- x) = Z.odd x. Proof. apply Z.odd_opp. Qed.
Lemma vt_add_a_ok t A d tmp P : EdSpec.on A -> (forall i, (i <= 7)%nat -> exists c, nth_error t i = Some c /\ rc c (mulZ (2 * Z.of_nat i + 1) A)) -> d = 0 \/ (Z.odd d = true /\ -16 < d < 16) -> r1 tmp P ->
  exists tmp', vt_add_a t d tmp = Some tmp' /\ r1 tmp' (EdSpec.plus P (mulZ d A)).
Proof.
  intros HA Ht Hd Hp. unfold vt_add_a. destruct (Z.ltb_spec 0 d); [|destruct (Z.ltb_spec d 0)].
  - destruct Hd as [Hd|[Ho Hd]]; [lia|]. destruct (naf_select_ok rc t 7 A d Ho ltac:(lia) Ht) as (c & Ec & Rc). rewrite Ec. cbn [obind]. eexists. split; [reflexivity|]. apply p1_add_ok; [apply p3_from_p1_ok; exact Hp|exact Rc].
  - destruct Hd as [Hd|[Ho Hd]]; [lia|]. rewrite i8_neg by lia. destruct (naf_select_ok rc t 7 A (- d) ltac:(rewrite Z.odd_opp; exact Ho) ltac:(lia) Ht) as (c & Ec & Rc). rewrite Ec. cbn [obind]. eexists. split; [reflexivity|].
    replace (mulZ d A) with (EdSpec.opp (mulZ (- d) A)) by (rewrite <- mulZ_opp, Z.opp_involutive by exact HA; reflexivity). apply p1_sub_ok; [apply p3_from_p1_ok; exact Hp|exact Rc].
  - assert (d = 0) by lia. subst d. rewrite mulZ_0, EdSpec.plus_O_r. eauto.
Qed.
Lemma vt_add_b_ok t A d tmp P : EdSpec.on A -> (forall i, (i <= 63)%nat -> exists c, nth_error t i = Some c /\ ra c (mulZ (2 * Z.of_nat i + 1) A)) -> d = 0 \/ (Z.odd d = true /\ -128 < d < 128) -> r1 tmp P ->
  exists tmp', vt_add_b t d tmp = Some tmp' /\ r1 tmp' (EdSpec.plus P (mulZ d A)).
Proof.
  intros HA Ht Hd Hp. unfold vt_add_b. destruct (Z.ltb_spec 0 d); [|destruct (Z.ltb_spec d 0)].
  - destruct Hd as [Hd|[Ho Hd]]; [lia|]. destruct (naf_select_ok ra t 63 A d Ho ltac:(lia) Ht) as (c & Ec & Rc). rewrite Ec. cbn [obind]. eexists. split; [reflexivity|]. apply p1_add_affine_ok; [apply p3_from_p1_ok; exact Hp|exact Rc].
  - destruct Hd as [Hd|[Ho Hd]]; [lia|]. rewrite i8_neg by lia. destruct (naf_select_ok ra t 63 A (- d) ltac:(rewrite Z.odd_opp; exact Ho) ltac:(lia) Ht) as (c & Ec & Rc). rewrite Ec. cbn [obind]. eexists. split; [reflexivity|].
    replace (mulZ d A) with (EdSpec.opp (mulZ (- d) A)) by (rewrite <- mulZ_opp, Z.opp_involutive by exact HA; reflexivity). apply p1_sub_affine_ok; [apply p3_from_p1_ok; exact Hp|exact Rc].
  - assert (d = 0) by lia. subst d. rewrite mulZ_0, EdSpec.plus_O_r. eauto.
Qed.
Lemma vt_loop_ok ta tb A B da db : EdSpec.on A -> EdSpec.on B ->
  (forall i, (i <= 7)%nat -> exists c, nth_error ta i = Some c /\ rc c (mulZ (2 * Z.of_nat i + 1) A)) -> (forall i, (i <= 63)%nat -> exists c, nth_error tb i = Some c /\ ra c (mulZ (2 * Z.of_nat i + 1) B)) ->
  naf_digits 5 da -> naf_digits 8 db -> length da = 256%nat -> length db = 256%nat ->
  forall n tmp, (n <= 256)%nat -> r2 tmp (EdSpec.plus (mulZ (pval 2 (skipn n da)) A) (mulZ (pval 2 (skipn n db)) B)) ->
  exists r, vt_loop ta tb da db n tmp = Some r /\ r2 r (EdSpec.plus (mulZ (pval 2 da) A) (mulZ (pval 2 db) B)).
Proof.
  intros HA HB Ta Tb Na Nb La Lb. induction n as [|n IH]; intros tmp Hn H; [exists tmp; split; [reflexivity|exact H]|]. cbn [vt_loop].
  set (a := pval 2 (skipn (S n) da)) in *. set (b := pval 2 (skipn (S n) db)) in *. assert (H2 : r1 (p1_double tmp) (EdSpec.plus (mulZ (2 * a) A) (mulZ (2 * b) B))).
  { rewrite <- !mulZ_dbl by assumption. rewrite EdSpec.plus_swap by (apply mulZ_on; assumption). apply p1_double_ok, H. }
  destruct (vt_add_a_ok ta A (nth n da 0) _ _ HA Ta (Na n) H2) as (t1 & E1 & R1). rewrite E1. cbn [obind]. destruct (vt_add_b_ok tb B (nth n db 0) _ _ HB Tb (Nb n) R1) as (t2 & E2 & R2). rewrite E2. cbn [obind].
  apply IH; [lia|]. rewrite (skipn_nth n da), (skipn_nth n db) by lia. cbn [pval]. fold a b. apply p2_from_p1_ok. rewrite (Z.add_comm (nth n da 0)), (Z.add_comm (nth n db 0)). rewrite !mulZ_add by assumption. rewrite EdSpec.plus_swap by (apply mulZ_on; assumption).
  rewrite EdSpec.plus_assoc by (try apply EdSpec.plus_on; apply mulZ_on; assumption). exact R2.
Qed.
Theorem double_base_mult_ok a A b P : is_bytes a -> length a = 32%nat -> le_val a < 2 ^ 255 -> is_bytes b -> length b = 32%nat -> le_val b < 2 ^ 255 -> r3 A P ->
  exists v, pt_double_base_mult a A b = Some v /\ r3 v (EdSpec.plus (mulZ (le_val a) P) (mulZ (le_val b) EdSpec.B)).
Proof.
  intros Fa La Ha Fb Lb Hb HA. assert (HP : EdSpec.on P) by apply HA. unfold pt_double_base_mult. rewrite (initialized_ok A P HA). cbn [guard obind]. destruct generator_ok as (g & Eg & Hg). rewrite Eg. cbn [obind].
  destruct (naf8_table_ok g _ Hg) as (tb & Etb & Tb). rewrite Etb. cbn [obind]. destruct (naf5_table_ok A P HA) as (ta & Eta & Ta). rewrite Eta. cbn [obind].
  destruct (naf_ok a 5 Fa La Ha ltac:(lia)) as (da & Eda & Lda & Va & _ & Na). rewrite Eda. cbn [obind]. destruct (naf_ok b 8 Fb Lb Hb ltac:(lia)) as (db & Edb & Ldb & Vb & _ & Nb). rewrite Edb. cbn [obind].
  assert (H0 : r2 p2_zero (EdSpec.plus (mulZ (pval 2 (skipn 256 da)) P) (mulZ (pval 2 (skipn 256 db)) EdSpec.B))).
  { rewrite !skipn_all2 by lia. cbn [pval]. rewrite !mulZ_0, EdSpec.plus_O_r. exact p2_zero_ok. }
  destruct (vt_loop_ok ta tb P EdSpec.B da db HP EdSpec.B_on Ta Tb Na Nb Lda Ldb 256 p2_zero (le_n _) H0) as (r & Er & Rr). rewrite Er. cbn [obind]. eexists. split; [reflexivity|]. rewrite <- Va, <- Vb. apply p3_from_p2_ok, Rr.
Qed.
