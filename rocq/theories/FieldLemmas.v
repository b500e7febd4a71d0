(** * FieldLemmas.v — arithmetic facts about the API model of Field.v. *)
From Coq Require Import ZArith List Lia Bool.
From Verif Require Import Field.
Import ListNotations.
Open Scope Z_scope.
Open Scope circ_scope.

Ltac Zify.zify_post_hook ::= Z.div_mod_to_equations.

(* ---- lists ---- *)
Lemma nth_map_seq : forall (A : Type) (f : nat -> A) n s j d, (j < n)%nat ->
  nth j (map f (seq s n)) d = f (s + j)%nat.
Proof.
  intros A f n; induction n as [|n IH]; intros s j d Hj; [lia|].
  destruct j as [|j]; cbn; [f_equal; lia|].
  rewrite IH by lia. f_equal; lia.
Qed.

Lemma nth_map' : forall (A B : Type) (f : A -> B) l i d d', (i < length l)%nat ->
  nth i (map f l) d = f (nth i l d').
Proof.
  induction l as [|x l IH]; intros i d d' H; cbn in *; [lia|]. destruct i; auto. apply IH. lia.
Qed.

Lemma nth_skipn' : forall (A : Type) k (l : list A) i d, nth i (skipn k l) d = nth (k + i) l d.
Proof. induction k as [|k IH]; intros [|x l] i d; cbn; auto. destruct i; auto. Qed.

Lemma nth_firstn' : forall (A : Type) k (l : list A) i d, (i < k)%nat -> nth i (firstn k l) d = nth i l d.
Proof.
  induction k as [|k IH]; intros [|x l] i d H; cbn; try lia; auto. destruct i; auto. apply IH. lia.
Qed.

Lemma nth_ext' : forall (A : Type) (l1 l2 : list A) d, length l1 = length l2 ->
  (forall i, (i < length l1)%nat -> nth i l1 d = nth i l2 d) -> l1 = l2.
Proof. intros A l1 l2 d H1 H2. apply (nth_ext l1 l2 d d H1 H2). Qed.

Lemma list_as_map_seq : forall (l : list Z) n, length l = n -> l = map (fun i => nth i l 0) (seq 0 n).
Proof.
  intros l n H. apply (nth_ext' _ _ _ 0).
  - rewrite map_length, seq_length; auto.
  - intros i Hi. rewrite nth_map_seq by lia. reflexivity.
Qed.

(* ---- bits ---- *)
Lemma bits_le_length : forall n x, length (bits_le n x) = n.
Proof. induction n; intros; cbn; auto. Qed.

Lemma bits_le_nth : forall n x i, (i < n)%nat -> nth i (bits_le n x) 0 = (x / 2 ^ Z.of_nat i) mod 2.
Proof.
  induction n as [|n IH]; intros x i Hi; [lia|].
  destruct i as [|i]; cbn [bits_le nth].
  - cbn. rewrite Z.div_1_r. reflexivity.
  - rewrite IH by lia. rewrite Nat2Z.inj_succ, Z.pow_succ_r by lia.
    rewrite Z.div_div by lia. reflexivity.
Qed.

Lemma bits_le_bit : forall n x b, In b (bits_le n x) -> is_bit b.
Proof.
  induction n as [|n IH]; intros x b H; cbn in H; [easy|].
  destruct H as [H|H]; [subst; unfold is_bit; lia|eauto].
Qed.

Lemma val_bits_le : forall n x, 0 <= x < 2 ^ Z.of_nat n -> val_le (bits_le n x) = x.
Proof.
  induction n as [|n IH]; intros x Hx; cbn [bits_le val_le].
  - cbn in Hx. lia.
  - rewrite Nat2Z.inj_succ, Z.pow_succ_r in Hx by lia.
    rewrite IH by lia. lia.
Qed.

Lemma val_bits_le_mod : forall n x, val_le (bits_le n x) = x mod 2 ^ Z.of_nat n.
Proof.
  induction n as [|n IH]; intros x; cbn [bits_le val_le].
  - cbn. rewrite Z.mod_1_r. reflexivity.
  - rewrite IH. rewrite Nat2Z.inj_succ, Z.pow_succ_r by lia.
    rewrite (Zmod_eq x (2 * _)) by lia. rewrite <- Z.div_div by lia.
    set (q := 2 ^ Z.of_nat n) in *. assert (0 < q) by (subst q; lia).
    pose proof (Zmod_eq (x/2) q ltac:(lia)). lia.
Qed.

Lemma val_le_range : forall l, Forall is_bit l -> 0 <= val_le l < 2 ^ Z.of_nat (length l).
Proof.
  induction 1 as [|b l Hb Hl IH]; cbn [val_le length].
  - cbn; lia.
  - rewrite Nat2Z.inj_succ, Z.pow_succ_r by lia. unfold is_bit in Hb. lia.
Qed.

Lemma bits_val_le : forall l, Forall is_bit l -> bits_le (length l) (val_le l) = l.
Proof.
  induction 1 as [|b l Hb Hl IH]; cbn [val_le length bits_le]; auto.
  pose proof (val_le_range l Hl).
  assert (Hm : (b + 2 * val_le l) mod 2 = b) by (unfold is_bit in Hb; lia).
  assert (Hd : (b + 2 * val_le l) / 2 = val_le l) by (unfold is_bit in Hb; lia).
  rewrite Hm, Hd, IH. reflexivity.
Qed.

Lemma val_le_inj : forall l1 l2, Forall is_bit l1 -> Forall is_bit l2 -> length l1 = length l2 ->
  val_le l1 = val_le l2 -> l1 = l2.
Proof.
  intros l1 l2 H1 H2 Hl Hv. rewrite <- (bits_val_le l1 H1), <- (bits_val_le l2 H2), Hl, Hv. reflexivity.
Qed.

Lemma bits_le_Forall : forall n x, Forall is_bit (bits_le n x).
Proof. intros n x. apply Forall_forall. intros b. apply bits_le_bit. Qed.

Lemma val_le_app : forall a b, val_le (a ++ b) = val_le a + 2 ^ Z.of_nat (length a) * val_le b.
Proof.
  induction a as [|x a IH]; intros b; cbn [app val_le length].
  - change (2 ^ Z.of_nat 0) with 1. lia.
  - rewrite IH. rewrite Nat2Z.inj_succ, Z.pow_succ_r by lia. ring.
Qed.

Lemma bits_le_app : forall n m x,
  bits_le (n + m) x = bits_le n x ++ bits_le m (x / 2 ^ Z.of_nat n).
Proof.
  induction n as [|n IH]; intros m x; cbn [Nat.add bits_le app].
  - change (2 ^ Z.of_nat 0) with 1. rewrite Z.div_1_r. reflexivity.
  - rewrite IH. rewrite Nat2Z.inj_succ, Z.pow_succ_r by lia. rewrite Z.div_div by lia. reflexivity.
Qed.

(* ---- option plumbing ---- *)
Lemma obind_Some : forall A B (m : option A) (f : A -> option B) y,
  obind m f = Some y -> exists x, m = Some x /\ f x = Some y.
Proof. intros A B [x|] f y H; cbn in H; [eauto|discriminate]. Qed.

Lemma guard_Some : forall b u, guard b = Some u -> b = true.
Proof. intros [] u H; cbn in H; congruence. Qed.

Lemma omap_length : forall A B (f : A -> option B) l r, omap f l = Some r -> length r = length l.
Proof.
  induction l as [|x l IH]; intros r H; cbn in H.
  - injection H as <-. reflexivity.
  - destruct (f x) eqn:E; cbn in H; [|discriminate].
    destruct (omap f l) eqn:E2; cbn in H; [|discriminate]. injection H as <-. cbn. rewrite (IH _ eq_refl). reflexivity.
Qed.

Lemma omap_Some_nth : forall A B (f : A -> option B) l r, omap f l = Some r ->
  forall i da db, (i < length l)%nat -> f (nth i l da) = Some (nth i r db).
Proof.
  induction l as [|x l IH]; intros r H i da db Hi; cbn in *; [lia|].
  destruct (f x) eqn:E; cbn in H; [|discriminate].
  destruct (omap f l) eqn:E2; cbn in H; [|discriminate]. injection H as <-.
  destruct i; cbn; auto. apply IH; auto; lia.
Qed.

Lemma omap_total : forall A B (f : A -> option B) (g : A -> B) l,
  (forall x, In x l -> f x = Some (g x)) -> omap f l = Some (map g l).
Proof.
  induction l as [|x l IH]; intros H; cbn; auto.
  rewrite H by (left; auto). cbn. rewrite IH; auto. intros y Hy; apply H; right; auto.
Qed.

Lemma omap_None : forall A B (f : A -> option B) l x, In x l -> f x = None -> omap f l = None.
Proof.
  induction l as [|y l IH]; intros x H Hx; cbn in *; [easy|].
  destruct H as [->|H].
  - rewrite Hx. reflexivity.
  - destruct (f y); cbn; auto. erewrite IH; eauto.
Qed.

Lemma omap_map : forall A B C (f : B -> option C) (g : A -> B) l, omap f (map g l) = omap (fun x => f (g x)) l.
Proof. induction l as [|x l IH]; cbn; auto. rewrite IH. reflexivity. Qed.

Lemma omap_ext : forall A B (f g : A -> option B) l, (forall x, In x l -> f x = g x) -> omap f l = omap g l.
Proof.
  induction l as [|x l IH]; intros H; cbn; auto.
  rewrite H by (left; auto). rewrite IH; auto. intros; apply H; right; auto.
Qed.

Lemma ofold_app : forall A S (f : S -> A -> option S) l1 l2 s,
  ofold f (l1 ++ l2) s = obind (ofold f l1 s) (ofold f l2).
Proof. induction l1 as [|x l IH]; intros; cbn; auto. destruct (f s x); cbn; auto. Qed.

(* ---- field ---- *)
Section F.
Variable p : Z.
Hypothesis Hp : 2 < p.

Lemma felt_mod : forall x, felt p x -> x mod p = x.
Proof. intros x H. apply Z.mod_small. exact H. Qed.

Lemma felt_fadd a b : felt p (fadd p a b). Proof. unfold felt, fadd. apply Z.mod_pos_bound. lia. Qed.
Lemma felt_fsub a b : felt p (fsub p a b). Proof. unfold felt, fsub. apply Z.mod_pos_bound. lia. Qed.
Lemma felt_fmul a b : felt p (fmul p a b). Proof. unfold felt, fmul. apply Z.mod_pos_bound. lia. Qed.
Lemma felt_mod_p a : felt p (a mod p). Proof. unfold felt. apply Z.mod_pos_bound. lia. Qed.
Lemma felt_bit b : is_bit b -> felt p b. Proof. unfold is_bit, felt. lia. Qed.

Lemma fadd_small a b : 0 <= a + b < p -> fadd p a b = a + b.
Proof. intros. apply Z.mod_small. auto. Qed.
Lemma fsub_small a b : 0 <= a - b < p -> fsub p a b = a - b.
Proof. intros. apply Z.mod_small. auto. Qed.
Lemma fmul_small a b : 0 <= a * b < p -> fmul p a b = a * b.
Proof. intros. apply Z.mod_small. auto. Qed.

Lemma fis_zero_sub a b : felt p a -> felt p b -> fis_zero p (fsub p a b) = bit_of (a =? b).
Proof.
  unfold felt, fis_zero, fsub, bit_of. intros Ha Hb. rewrite Z.mod_mod by lia.
  destruct (Z.eqb_spec a b) as [->|N].
  - rewrite Z.sub_diag, Z.mod_0_l by lia. reflexivity.
  - destruct (Z.eqb_spec ((a - b) mod p) 0) as [E|E]; auto.
    exfalso. apply Z.mod_divide in E; [|lia]. destruct E as [k Hk].
    assert (k = 0) by nia. lia.
Qed.

Lemma fis_zero_felt a : felt p a -> fis_zero p a = bit_of (a =? 0).
Proof. intros H. unfold fis_zero. rewrite felt_mod by auto. reflexivity. Qed.

Lemma fis_zero_bit a : is_bit (fis_zero p a).
Proof. unfold fis_zero, is_bit. destruct (_ =? _); auto. Qed.

Lemma bit_of_bit b : is_bit (bit_of b). Proof. destruct b; unfold is_bit, bit_of; auto. Qed.

(** [b*(x-y)+y] is the usual arithmetic if-then-else. *)
Lemma mux2 b x y : is_bit b -> felt p x -> felt p y ->
  fadd p (fmul p b (fsub p x y)) y = if b =? 1 then x else y.
Proof.
  unfold is_bit, felt, fadd, fmul, fsub. intros [->| ->] Hx Hy.
  - rewrite Z.mul_0_l, Z.mod_0_l by lia. cbn. apply Z.mod_small; lia.
  - rewrite Z.mul_1_l, Z.mod_mod by lia. rewrite Zplus_mod_idemp_l.
    replace (x - y + y) with x by ring. cbn. apply Z.mod_small; lia.
Qed.

Lemma assert_eq_iff a b : felt p a -> felt p b -> (assert_eq p a b = Some tt <-> a = b).
Proof.
  unfold assert_eq, guard, felt. intros Ha Hb. rewrite !Z.mod_small by lia.
  destruct (Z.eqb_spec a b); split; congruence.
Qed.

Lemma assert_le_iff a b : felt p a -> felt p b -> (assert_le p a b = Some tt <-> a <= b).
Proof.
  unfold assert_le, guard, felt. intros Ha Hb. rewrite !Z.mod_small by lia.
  destruct (Z.leb_spec a b); split; try congruence; lia.
Qed.

Lemma assert_bool_iff a : felt p a -> (assert_bool p a = Some tt <-> is_bit a).
Proof.
  unfold assert_bool, guard, felt, is_bit. intros Ha. rewrite !Z.mod_small by lia.
  destruct (Z.eqb_spec a 0), (Z.eqb_spec a 1); cbn; split; intros; try congruence; lia.
Qed.

Lemma assert_bool_ok a : is_bit a -> assert_bool p a = Some tt.
Proof. intros H. apply assert_bool_iff; auto. apply felt_bit; auto. Qed.

Lemma fselect_ok b x y : is_bit b -> felt p x -> felt p y ->
  fselect p b x y = Some (if b =? 1 then x else y).
Proof.
  intros Hb Hx Hy. unfold fselect. rewrite assert_bool_ok by auto. cbn.
  rewrite (felt_mod b), (felt_mod x), (felt_mod y) by (auto using felt_bit). reflexivity.
Qed.

Lemma fand_ok a b : is_bit a -> is_bit b -> fand p a b = Some (bit_of ((a =? 1) && (b =? 1))).
Proof.
  intros Ha Hb. unfold fand. rewrite !assert_bool_ok by auto. cbn. f_equal.
  unfold fmul. destruct Ha as [->| ->], Hb as [->| ->]; cbn -[Z.modulo]; apply Z.mod_small; lia.
Qed.

Lemma for_ok a b : is_bit a -> is_bit b -> for_ p a b = Some (bit_of ((a =? 1) || (b =? 1))).
Proof.
  intros Ha Hb. unfold for_. rewrite !assert_bool_ok by auto. cbn. f_equal.
  unfold fmul, fadd, fsub.
  destruct Ha as [->| ->], Hb as [->| ->]; cbn -[Z.modulo];
    rewrite <- Zminus_mod; apply Z.mod_small; lia.
Qed.

Lemma fxor_ok a b : is_bit a -> is_bit b -> fxor p a b = Some (bit_of (negb (a =? b))).
Proof.
  intros Ha Hb. unfold fxor. rewrite !assert_bool_ok by auto. cbn. f_equal.
  unfold fmul, fadd, fsub. rewrite Zmult_mod_idemp_r, <- Zminus_mod.
  destruct Ha as [->| ->], Hb as [->| ->]; cbn -[Z.modulo]; apply Z.mod_small; lia.
Qed.

Lemma to_binary_ok x n : felt p x -> x < 2 ^ Z.of_nat n -> to_binary p x n = Some (bits_le n x).
Proof.
  intros Hx Hn. unfold to_binary. rewrite felt_mod by auto.
  destruct (Z.ltb_spec x (2 ^ Z.of_nat n)); [reflexivity|lia].
Qed.

Lemma to_binary_fail x n : felt p x -> 2 ^ Z.of_nat n <= x -> to_binary p x n = None.
Proof.
  intros Hx Hn. unfold to_binary. rewrite felt_mod by auto.
  destruct (Z.ltb_spec x (2 ^ Z.of_nat n)); [lia|reflexivity].
Qed.

Lemma to_binary_Some x n l : felt p x -> to_binary p x n = Some l ->
  x < 2 ^ Z.of_nat n /\ l = bits_le n x.
Proof.
  intros Hx H. destruct (Z_lt_dec x (2 ^ Z.of_nat n)) as [L|L].
  - rewrite to_binary_ok in H by auto. split; congruence.
  - rewrite to_binary_fail in H by (auto; lia). discriminate.
Qed.

Lemma from_binary_ok l : Forall is_bit l -> 2 ^ Z.of_nat (length l) <= p ->
  from_binary p l = Some (val_le l).
Proof.
  intros H Hl. unfold from_binary. rewrite (omap_total _ _ _ (fun _ => tt)).
  - cbn. f_equal. apply Z.mod_small. pose proof (val_le_range l H). lia.
  - intros x Hx. apply assert_bool_ok. rewrite Forall_forall in H; auto.
Qed.

Lemma field_bits_bound : p < 2 ^ Z.of_nat (field_bits p).
Proof.
  unfold field_bits. rewrite Z2Nat.id by (pose proof (Z.log2_nonneg p); lia).
  apply Z.log2_lt_pow2; lia.
Qed.

End F.

Lemma bn254_gt2 : 2 < bn254. Proof. reflexivity. Qed.
