(** * CharP.v — powers in a commutative ring; the p-th power map is additive in characteristic p (specification side) *)
From Coq Require Import ZArith Znumtheory List Lia Ring Arith.
From Verif Require Import PrimeTheory FieldZ TowerModel TowerSpec.
Open Scope nat_scope.

(** ** binomial coefficients *)
Fixpoint binom (n k : nat) : nat :=
  match n, k with
  | _, O => 1
  | O, S _ => 0
  | S n', S k' => binom n' k' + binom n' (S k')
  end.
Lemma binom_0 : forall n, binom n 0 = 1. Proof. destruct n; reflexivity. Qed.
Lemma binom_gt : forall n k, n < k -> binom n k = 0.
Proof. induction n; intros [|k] H; try lia; cbn [binom]; auto. rewrite !IHn by lia. reflexivity. Qed.
Lemma binom_diag : forall n, binom n n = 1.
Proof. induction n; cbn [binom]; auto. rewrite IHn, binom_gt by lia. reflexivity. Qed.
Lemma binom_absorb : forall n k, S k * binom (S n) (S k) = S n * binom n k.
Proof.
  induction n as [|n IH]; intros k.
  - destruct k; cbn [binom]; lia.
  - destruct k as [|k].
    + cbn [binom]. specialize (IH 0). rewrite binom_0 in IH. cbn [binom] in IH. rewrite binom_0 in *. lia.
    + pose proof (IH k) as H1. pose proof (IH (S k)) as H2.
      assert (E1 : binom (S (S n)) (S (S k)) = binom (S n) (S k) + binom (S n) (S (S k))) by reflexivity.
      assert (E2 : binom (S n) (S k) = binom n k + binom n (S k)) by reflexivity.
      rewrite E1. nia.
Qed.
Lemma prime_binom : forall p k, prime (Z.of_nat p) -> 0 < k < p -> (Z.of_nat p | Z.of_nat (binom p k))%Z.
Proof.
  intros [|p] [|k] P H; try lia. pose proof (binom_absorb p k) as A.
  destruct (prime_div_mul (Z.of_nat (S p)) (Z.of_nat (S k)) (Z.of_nat (binom (S p) (S k))) P) as [D | D].
  - rewrite <- Nat2Z.inj_mul, A, Nat2Z.inj_mul. exists (Z.of_nat (binom p k)). ring.
  - apply Z.divide_pos_le in D; lia.
  - exact D.
Qed.

Section Ring.
Variable R : Type.
Variables (rO rI : R) (radd rmul rsub : R -> R -> R) (ropp : R -> R).
Variable RT : ring_theory rO rI radd rmul rsub ropp (@eq R).
Add Ring Rr : RT.
Declare Scope R_s. Delimit Scope R_s with R_s. Notation "x + y" := (radd x y) : R_s. Notation "x * y" := (rmul x y) : R_s. Open Scope R_s.
Notation pow := (pown rI rmul).

Lemma pown_0 : forall x, pow x 0 = rI. Proof. reflexivity. Qed.
Lemma pown_S : forall x n, pow x (S n) = x * pow x n. Proof. reflexivity. Qed.
Lemma pown_add : forall x m n, pow x (m + n) = pow x m * pow x n.
Proof. intros. induction m; cbn [Nat.add]; rewrite ?pown_S, ?pown_0; [ring | rewrite IHm; ring]. Qed.
Lemma pown_mul : forall x m n, pow x (m * n) = pow (pow x m) n.
Proof. intros. induction n; [rewrite Nat.mul_0_r; reflexivity |]. rewrite Nat.mul_succ_r, pown_add, IHn, pown_S. ring. Qed.
Lemma pown_one : forall n, pow rI n = rI.
Proof. induction n; auto. rewrite pown_S, IHn. ring. Qed.
Lemma pown_prod : forall x y n, pow (x * y) n = pow x n * pow y n.
Proof. intros. induction n; rewrite ?pown_S, ?pown_0; [ring | rewrite IHn; ring]. Qed.
Lemma pown_1 : forall x, pow x 1 = x. Proof. intros. rewrite pown_S, pown_0. ring. Qed.

(** the multiple n.1 *)
Definition nR (n : nat) : R := Nat.iter n (radd rI) rO.
Lemma nR_S : forall n, nR (S n) = rI + nR n. Proof. reflexivity. Qed.
Lemma nR_add : forall m n, nR (m + n) = nR m + nR n.
Proof. induction m; intros; cbn [Nat.add]; rewrite ?nR_S; [unfold nR at 2; cbn [Nat.iter nat_rect]; ring | rewrite IHm; ring]. Qed.
Lemma nR_mul : forall m n, nR (m * n) = nR m * nR n.
Proof. induction m; intros; cbn [Nat.mul]; [unfold nR; cbn [Nat.iter nat_rect]; ring | rewrite nR_add, IHm, nR_S; ring]. Qed.

(** sum of f 0 .. f (n-1) *)
Fixpoint sum (n : nat) (f : nat -> R) : R := match n with O => rO | S k => sum k f + f k end.
Lemma sum_ext : forall n f g, (forall k, k < n -> f k = g k) -> sum n f = sum n g.
Proof. induction n; intros; cbn [sum]; auto. rewrite (IHn f g), (H n) by (intros; auto with arith). reflexivity. Qed.
Lemma sum_add : forall n f g, sum n (fun k => f k + g k) = sum n f + sum n g.
Proof. induction n; intros; cbn [sum]; [ring | rewrite IHn; ring]. Qed.
Lemma sum_mul : forall n c f, c * sum n f = sum n (fun k => c * f k).
Proof. induction n; intros; cbn [sum]; [ring | rewrite <- IHn; ring]. Qed.
Lemma sum_head : forall n f, sum (S n) f = f 0 + sum n (fun k => f (S k)).
Proof. induction n; intros; [cbn [sum]; ring |]. change (sum (S (S n)) f) with (sum (S n) f + f (S n)). rewrite IHn. cbn [sum]. ring. Qed.
Lemma sum_zero : forall n f, (forall k, k < n -> f k = rO) -> sum n f = rO.
Proof. induction n; intros; cbn [sum]; auto. rewrite IHn, (H n) by (intros; auto with arith). ring. Qed.

Lemma sum_S : forall n f, sum (S n) f = sum n f + f n. Proof. reflexivity. Qed.
Theorem binomial : forall x y n, pow (x + y) n = sum (S n) (fun k => nR (binom n k) * (pow x k * pow y (n - k))).
Proof.
  intros x y. induction n as [|n IH].
  - cbn [sum binom Nat.sub]. rewrite !pown_0. unfold nR. cbn [Nat.iter nat_rect]. ring.
  - rewrite pown_S, IH.
    transitivity (sum (S n) (fun k => nR (binom n k) * (pow x (S k) * pow y (n - k))) + sum (S n) (fun k => nR (binom n k) * (pow x k * pow y (S n - k)))).
    + replace ((x + y) * sum (S n) (fun k => nR (binom n k) * (pow x k * pow y (n - k))))
        with (x * sum (S n) (fun k => nR (binom n k) * (pow x k * pow y (n - k))) + y * sum (S n) (fun k => nR (binom n k) * (pow x k * pow y (n - k)))) by ring.
      rewrite !sum_mul. f_equal; apply sum_ext; intros k Hk.
      * rewrite pown_S. ring.
      * replace (S n - k) with (S (n - k)) by lia. rewrite pown_S. ring.
    + rewrite (sum_head (S n) (fun k => nR (binom (S n) k) * _)).
      rewrite (sum_head n (fun k => nR (binom n k) * (pow x k * pow y (S n - k)))).
      rewrite !binom_0.
      transitivity ((nR 1 * (pow x 0 * pow y (S n - 0))) + (sum (S n) (fun k => nR (binom n k) * (pow x (S k) * pow y (n - k))) + sum (S n) (fun k => nR (binom n (S k)) * (pow x (S k) * pow y (S n - S k))))).
      * rewrite (sum_S n (fun k => nR (binom n (S k)) * (pow x (S k) * pow y (S n - S k)))).
        rewrite (binom_gt n (S n)) by lia. change (nR 0) with rO. ring.
      * rewrite <- sum_add. f_equal. apply sum_ext. intros k Hk. cbn [binom Nat.sub]. rewrite nR_add. ring.
Qed.

(** in characteristic p, p prime: (x + y)^p = x^p + y^p *)
Theorem freshman : forall p, prime (Z.of_nat p) -> nR p = rO -> forall x y, pow (x + y) p = pow x p + pow y p.
Proof.
  intros p P C x y. rewrite binomial. destruct p as [|p]; [destruct P; cbn in *; lia |].
  rewrite sum_S, sum_head.
  rewrite (sum_zero p).
  - rewrite binom_0, binom_diag, Nat.sub_diag, Nat.sub_0_r, !pown_0. unfold nR. cbn [Nat.iter nat_rect]. ring.
  - intros k Hk. destruct (prime_binom (S p) (S k) P ltac:(lia)) as [q Hq].
    assert (E : binom (S p) (S k) = (Z.to_nat q * S p)%nat) by (clear - Hq; nia).
    rewrite E, nR_mul, C. ring.
Qed.

(** binary exponentiation, to evaluate powers *)
Fixpoint pow_pos (x : R) (e : positive) : R :=
  match e with
  | xH => x
  | xO e' => pow_pos (x * x) e'
  | xI e' => x * pow_pos (x * x) e'
  end.
Lemma pow_pos_ok : forall e x, pow_pos x e = pow x (Pos.to_nat e).
Proof.
  assert (D : forall x n, pow (x * x) n = pow x (2 * n)) by (intros; rewrite pown_mul; f_equal; rewrite !pown_S, pown_0; ring).
  induction e; intros; cbn [pow_pos].
  - rewrite IHe, Pos2Nat.inj_xI, pown_S, D. reflexivity.
  - rewrite IHe, Pos2Nat.inj_xO, D. reflexivity.
  - rewrite Pos2Nat.inj_1, pown_1. reflexivity.
Qed.

Local Open Scope Z_scope.
Notation powZ := (powz rI rmul).
Lemma powz_0 : forall x, powZ x 0 = rI. Proof. reflexivity. Qed.
Lemma powz_1 : forall x, powZ x 1 = x. Proof. intros. exact (pown_1 x). Qed.
Lemma powz_add : forall x m n, 0 <= m -> 0 <= n -> powZ x (m + n) = rmul (powZ x m) (powZ x n).
Proof. intros. unfold powz. rewrite Z2Nat.inj_add by lia. apply pown_add. Qed.
Lemma powz_mul : forall x m n, 0 <= m -> 0 <= n -> powZ x (m * n) = powZ (powZ x m) n.
Proof. intros. unfold powz. rewrite Z2Nat.inj_mul by lia. apply pown_mul. Qed.
Lemma powz_one : forall n, powZ rI n = rI. Proof. intros. apply pown_one. Qed.
Lemma powz_prod : forall x y n, powZ (rmul x y) n = rmul (powZ x n) (powZ y n). Proof. intros. apply pown_prod. Qed.
Lemma powz_2 : forall x, powZ x 2 = rmul x x. Proof. intros. change 2 with (1 + 1). rewrite powz_add by lia. rewrite powz_1. reflexivity. Qed.
Lemma powz_pos : forall x e, powZ x (Zpos e) = pow_pos x e.
Proof. intros. rewrite pow_pos_ok. unfold powz. rewrite Z2Nat.inj_pos. reflexivity. Qed.
Lemma freshman_z : forall p, prime p -> nR (Z.to_nat p) = rO -> forall x y, powZ (radd x y) p = radd (powZ x p) (powZ y p).
Proof. intros p P C x y. apply freshman; [|exact C]. rewrite Z2Nat.id; [exact P | destruct P; lia]. Qed.
End Ring.
