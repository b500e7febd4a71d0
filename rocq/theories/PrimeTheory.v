(** * PrimeTheory.v — Fermat's little theorem and Pocklington's criterion over Z (used to prove the moduli prime) *)
From Coq Require Import ZArith Znumtheory List Lia Permutation Bool Zpow_facts.
Import ListNotations.
Open Scope Z_scope.

Lemma prime_ge2 : forall p, prime p -> 2 <= p. Proof. intros p H. destruct H. lia. Qed.
Lemma prime_div_mul : forall p a b, prime p -> (p | a * b) -> (p | a) \/ (p | b).
Proof. intros. apply prime_mult; auto. Qed.
Lemma mod_zero_div : forall a p, 0 < p -> a mod p = 0 -> (p | a).
Proof. intros a p Hp H. apply Z.mod_divide; lia. Qed.
Lemma mod_eq_div : forall a b p, 0 < p -> a mod p = b mod p -> (p | a - b).
Proof. intros a b p Hp H. apply mod_zero_div; [exact Hp |]. rewrite Zminus_mod, H, Z.sub_diag. apply Z.mod_0_l. lia. Qed.
Lemma div_mod_eq : forall a b p, 0 < p -> (p | a - b) -> a mod p = b mod p.
Proof. intros a b p Hp [k H]. replace a with (b + k * p) by lia. apply Z.mod_add. lia. Qed.

(** ** Fermat *)
Definition prod (l : list Z) : Z := fold_right Z.mul 1 l.
Lemma prod_perm : forall l l', Permutation l l' -> prod l = prod l'.
Proof. induction 1; cbn [prod fold_right] in *; unfold prod in *; cbn; try lia. Qed.
Lemma prod_map_mod : forall a p l, 0 < p -> prod (map (fun i => (a * i) mod p) l) mod p = (a ^ Z.of_nat (length l) * prod l) mod p.
Proof.
  intros a p l Hp. induction l as [| x l IH]; [reflexivity |]. cbn [map length]. change (prod (?y :: ?r)) with (y * prod r).
  rewrite Z.mul_mod_idemp_l by lia. rewrite <- Z.mul_mod_idemp_r, IH, Z.mul_mod_idemp_r by lia.
  f_equal. change (prod (x :: l)) with (x * prod l). rewrite Nat2Z.inj_succ, Z.pow_succ_r by lia. ring.
Qed.
Lemma prod_nondiv : forall p l, prime p -> (forall x, In x l -> ~ (p | x)) -> ~ (p | prod l).
Proof.
  intros p l Hp. induction l as [| x l IH]; intros H D.
  - cbn in D. pose proof (prime_ge2 p Hp). apply Z.divide_pos_le in D; lia.
  - change (prod (x :: l)) with (x * prod l) in D. apply prime_div_mul in D; [| exact Hp]. destruct D as [D | D]; [apply (H x); [left; reflexivity | exact D] |].
    apply IH; [| exact D]. intros y Hy. apply H. right. exact Hy.
Qed.
Lemma NoDup_map_inj : forall (A B : Type) (f : A -> B) l, (forall x y, In x l -> In y l -> f x = f y -> x = y) -> NoDup l -> NoDup (map f l).
Proof.
  intros A B f l. induction l as [| x l IH]; intros H N; [constructor |]. apply NoDup_cons_iff in N as [N1 N2]. cbn [map]. constructor.
  - intros I. apply in_map_iff in I as (y & E & I). apply N1. rewrite (H x y); [exact I | left; reflexivity | right; exact I | congruence].
  - apply IH; auto. intros a b Ia Ib. apply H; right; auto.
Qed.
Definition upto (p : Z) : list Z := map Z.of_nat (seq 1 (Z.to_nat (p - 1))).
Lemma upto_in : forall p x, 1 < p -> (In x (upto p) <-> 1 <= x < p).
Proof.
  intros p x Hp. unfold upto. rewrite in_map_iff. split.
  - intros (n & <- & I). apply in_seq in I. lia.
  - intros H. exists (Z.to_nat x). split; [lia |]. apply in_seq. lia.
Qed.
Theorem fermat : forall p a, prime p -> ~ (p | a) -> a ^ (p - 1) mod p = 1.
Proof.
  intros p a Hp Ha. pose proof (prime_ge2 p Hp) as P2. set (l := upto p). set (l' := map (fun i => (a * i) mod p) l).
  assert (ND : forall x, In x l -> ~ (p | x)). { intros x I D. apply upto_in in I; [| lia]. apply Z.divide_pos_le in D; lia. }
  assert (N : NoDup l). { unfold l, upto. apply NoDup_map_inj; [intros; lia | apply seq_NoDup]. }
  assert (N' : NoDup l').
  { apply NoDup_map_inj; [| exact N]. intros x y Ix Iy E. apply mod_eq_div in E; [| lia].
    replace (a * x - a * y) with (a * (x - y)) in E by ring. apply prime_div_mul in E as [E | E]; [contradiction | | exact Hp].
    apply upto_in in Ix; [| lia]. apply upto_in in Iy; [| lia]. destruct (Z.eq_dec x y) as [-> | NE]; [reflexivity |].
    destruct (Z.lt_trichotomy x y) as [L | [L | L]]; [| lia |].
    - replace (x - y) with (- (y - x)) in E by ring. apply Z.divide_opp_r in E. apply Z.divide_pos_le in E; lia.
    - apply Z.divide_pos_le in E; lia. }
  assert (P : Permutation l' l).
  { apply NoDup_Permutation_bis; [exact N' | unfold l'; rewrite map_length; apply Nat.le_refl |].
    intros y I. apply in_map_iff in I as (x & <- & I). apply upto_in; [lia |].
    assert (R : 0 <= (a * x) mod p < p) by (apply Z.mod_pos_bound; lia).
    assert ((a * x) mod p <> 0); [| lia]. intros E. apply mod_zero_div in E; [| lia]. apply prime_div_mul in E as [E | E]; [contradiction | | exact Hp].
    exact (ND x I E). }
  apply prod_perm in P. assert (E : prod l' mod p = prod l mod p) by (rewrite P; reflexivity). unfold l' in E. rewrite prod_map_mod in E by lia.
  assert (L : Z.of_nat (length l) = p - 1) by (unfold l, upto; rewrite map_length, seq_length; lia). rewrite L in E.
  apply mod_eq_div in E; [| lia]. replace (a ^ (p - 1) * prod l - prod l) with ((a ^ (p - 1) - 1) * prod l) in E by ring.
  apply prime_div_mul in E as [E | E]; [| exfalso; exact (prod_nondiv p l Hp ND E) | exact Hp].
  rewrite (div_mod_eq _ 1 p) by (auto; lia). apply Z.mod_small. lia.
Qed.

(** ** Pocklington *)
Lemma pow_mod_one : forall a e k p, 1 < p -> 0 <= e -> 0 <= k -> a ^ e mod p = 1 -> a ^ (e * k) mod p = 1.
Proof.
  intros a e k p Hp He Hk H. rewrite Z.pow_mul_r by lia. rewrite <- (Z2Nat.id k) by lia. induction (Z.to_nat k) as [| n IH].
  - cbn [Z.of_nat]. rewrite Z.pow_0_r. apply Z.mod_small. lia.
  - rewrite Nat2Z.inj_succ, Z.pow_succ_r by lia. rewrite Z.mul_mod, H, IH by lia. rewrite Z.mul_1_l. apply Z.mod_small. lia.
Qed.
(** a^e1 = 1, a^e2 = 1 and e = u e1 + v e2: a^e = 1 *)
Lemma pow_mod_comb : forall a e1 e2 e u v p, 1 < p -> 0 <= e1 -> 0 <= e2 -> 0 <= e -> a ^ e1 mod p = 1 -> a ^ e2 mod p = 1 -> e = u * e1 + v * e2 -> a ^ e mod p = 1.
Proof.
  assert (P : forall a e1 e2 e u v p, 1 < p -> 0 <= e1 -> 0 <= e2 -> 0 <= e -> 0 <= u -> v <= 0 -> a ^ e1 mod p = 1 -> a ^ e2 mod p = 1 -> e = u * e1 + v * e2 -> a ^ e mod p = 1).
  { intros a e1 e2 e u v p Hp H1 H2 He Hu Hv E1 E2 E.
    assert (S : a ^ (e + e2 * (- v)) mod p = 1) by (replace (e + e2 * - v) with (e1 * u) by nia; apply pow_mod_one; auto; lia).
    rewrite Z.pow_add_r in S by nia. rewrite <- Z.mul_mod_idemp_r, (pow_mod_one a e2 (- v) p) in S by lia. rewrite Z.mul_1_r in S. exact S. }
  intros a e1 e2 e u v p Hp H1 H2 He E1 E2 E.
  destruct (Z.le_gt_cases 0 u) as [Hu | Hu], (Z.le_gt_cases v 0) as [Hv | Hv].
  - eapply (P a e1 e2 e u v); eauto.
  - rewrite E, Z.pow_add_r by nia. rewrite Z.mul_mod by lia. rewrite (Z.mul_comm u), (Z.mul_comm v).
    rewrite (pow_mod_one a e1 u), (pow_mod_one a e2 v) by (auto; lia). rewrite Z.mul_1_l. apply Z.mod_small. lia.
  - assert (e = 0) by nia. subst e. rewrite H. rewrite Z.pow_0_r. apply Z.mod_small. lia.
  - eapply (P a e2 e1 e v u); eauto; lia.
Qed.
(** one prime factor f of N - 1 and a base a: f divides r - 1 for every prime divisor r of N *)
Lemma pock_factor : forall N f a r, 1 < N -> prime f -> (f | N - 1) -> a ^ (N - 1) mod N = 1 -> Z.gcd (a ^ ((N - 1) / f) - 1) N = 1 ->
  prime r -> (r | N) -> (f | r - 1).
Proof.
  intros N f a r HN Hf [R ER] HA HG Hr Hd. pose proof (prime_ge2 r Hr) as R2. pose proof (prime_ge2 f Hf) as F2.
  destruct (Zdivide_dec f (r - 1)) as [D | ND]; [exact D | exfalso].
  assert (EQ : (N - 1) / f = R) by (rewrite ER; apply Z.div_mul; lia). rewrite EQ in HG.
  assert (R0 : 0 <= R) by nia.
  assert (Ar : a ^ (N - 1) mod r = 1).
  { destruct Hd as [k Ek]. assert (M : (r | a ^ (N - 1) - 1)).
    { apply Z.divide_trans with N; [exists k; exact Ek |]. apply mod_eq_div; [lia |]. rewrite HA. symmetry. apply Z.mod_small. lia. }
    rewrite (div_mod_eq _ 1 r) by (auto; lia). apply Z.mod_small. lia. }
  assert (NA : ~ (r | a)).
  { intros D. assert (D' : (r | a ^ (N - 1))). { replace (N - 1) with (Z.succ (N - 2)) by lia. rewrite Z.pow_succ_r by lia. apply Z.divide_mul_l. exact D. }
    destruct D' as [k Ek]. rewrite Ek in Ar. rewrite Z.mod_mul in Ar by lia. lia. }
  pose proof (fermat r a Hr NA) as Fr.
  assert (RP : rel_prime f (r - 1)) by (apply prime_rel_prime; auto).
  apply rel_prime_bezout in RP. destruct RP as [u v B].
  assert (A1 : a ^ R mod r = 1).
  { apply (pow_mod_comb a (N - 1) (r - 1) R u (v * R) r); try lia; auto. rewrite ER. nia. }
  assert (D1 : (r | a ^ R - 1)). { apply mod_eq_div; [lia |]. rewrite A1. symmetry. apply Z.mod_small. lia. }
  assert (D2 : (r | Z.gcd (a ^ R - 1) N)) by (apply Z.gcd_greatest; auto). rewrite HG in D2. apply Z.divide_pos_le in D2; lia.
Qed.
Lemma distinct_primes_prod : forall l x, Forall prime l -> NoDup l -> Forall (fun f => (f | x)) l -> (prod l | x).
Proof.
  induction l as [| f l IH]; intros x P N D; [exists x; cbn; lia |].
  apply Forall_cons_iff in P as [P1 P2]. apply NoDup_cons_iff in N as [N1 N2]. apply Forall_cons_iff in D as [D1 D2].
  change (prod (f :: l)) with (f * prod l). destruct (IH x P2 N2 D2) as [k Ek].
  destruct D1 as [j Ej]. assert (RP : rel_prime f (prod l)).
  { apply prime_rel_prime; [exact P1 |]. apply prod_nondiv; [exact P1 |]. intros y Iy D. rewrite Forall_forall in P2. specialize (P2 y Iy).
    assert (f = y); [| subst; contradiction]. apply prime_div_prime; auto. }
  assert (DK : (f | k)). { apply (Gauss f (prod l) k); [exists j; rewrite Z.mul_comm; lia | exact RP]. }
  destruct DK as [i Ei]. exists i. rewrite Ek, Ei. ring.
Qed.
(** every composite number has a prime divisor not above its square root *)
Lemma small_prime_divisor : forall N, 1 < N -> ~ prime N -> exists r, prime r /\ (r | N) /\ r * r <= N.
Proof.
  assert (G : forall n N, (Z.to_nat N <= n)%nat -> 1 < N -> exists r, prime r /\ (r | N)).
  { induction n as [| n IH]; intros N HL HN; [lia |].
    destruct (prime_dec N) as [P | NP]; [exists N; split; [exact P | apply Z.divide_refl] |].
    destruct (not_prime_divide N HN NP) as (d & Hd & D). destruct (IH d) as (r & Hr & Dr); [lia | lia |].
    exists r. split; [exact Hr |]. apply Z.divide_trans with d; auto. }
  intros N HN NP. destruct (not_prime_divide N HN NP) as (d & Hd & [k Ek]).
  assert (K : 1 < k < N) by nia.
  destruct (Z.le_gt_cases (d * d) N) as [L | L].
  - destruct (G (Z.to_nat d) d) as (r & Hr & Dr); [lia | lia |]. exists r. pose proof (prime_ge2 r Hr). apply Z.divide_pos_le in Dr as Lr; [| lia].
    split; [exact Hr |]. split; [apply Z.divide_trans with d; [exact Dr | exists k; exact Ek] | nia].
  - destruct (G (Z.to_nat k) k) as (r & Hr & Dr); [lia | lia |]. exists r. pose proof (prime_ge2 r Hr). apply Z.divide_pos_le in Dr as Lr; [| lia].
    split; [exact Hr |]. split; [apply Z.divide_trans with k; [exact Dr | exists d; rewrite Z.mul_comm; exact Ek] | assert (k < d) by nia; nia].
Qed.

(** modular exponentiation by squaring *)
Fixpoint pow_mod_pos (a : Z) (e : positive) (n : Z) : Z :=
  match e with
  | xH => a mod n
  | xO e' => let x := pow_mod_pos a e' n in (x * x) mod n
  | xI e' => let x := pow_mod_pos a e' n in (((x * x) mod n) * a) mod n
  end.
Definition pow_mod (a e n : Z) : Z := match e with Z0 => 1 mod n | Zpos e' => pow_mod_pos a e' n | Zneg _ => 0 end.
Lemma pow_mod_pos_ok : forall a e n, 0 < n -> pow_mod_pos a e n = a ^ Zpos e mod n.
Proof.
  intros a e n Hn. induction e as [e IH | e IH |]; cbn [pow_mod_pos].
  - cbv zeta. rewrite IH. rewrite Pos2Z.inj_xI. rewrite Z.pow_add_r, Z.pow_twice_r, Z.pow_1_r by lia.
    rewrite Z.mul_mod_idemp_l by lia. rewrite (Z.mul_mod (_ * _) a n), <- (Z.mul_mod (a ^ Zpos e) (a ^ Zpos e) n), <- Z.mul_mod by lia. reflexivity.
  - cbv zeta. rewrite IH. rewrite Pos2Z.inj_xO, Z.pow_twice_r. rewrite Z.mul_mod_idemp_l, Z.mul_mod_idemp_r by lia. reflexivity.
  - rewrite Z.pow_1_r. reflexivity.
Qed.
Lemma pow_mod_ok : forall a e n, 0 < n -> 0 <= e -> pow_mod a e n = a ^ e mod n.
Proof. intros a [| e | e] n Hn He; [reflexivity | apply pow_mod_pos_ok; exact Hn | lia]. Qed.

(** exponentiation with the reduction quotients supplied as hints: whatever the hints are, the result is congruent to a^e modulo n,
    so a certificate may carry them (they only keep the intermediate values small) *)
Fixpoint powh (a : Z) (e : positive) (n : Z) (h : list Z) : Z * list Z :=
  match e with
  | xH => (a, h)
  | xO e' => let '(x, h') := powh a e' n h in (Z.square x - hd 0 h' * n, tl h')
  | xI e' => let '(x, h') := powh a e' n h in (a * Z.square x - hd 0 h' * n, tl h')
  end.
Lemma mod_sub_mul : forall t q n, (t - q * n) mod n = t mod n.
Proof. intros. replace (t - q * n) with (t + (- q) * n) by ring. apply Z_mod_plus_full. Qed.
Lemma powh_pos_ok : forall a e n h, 0 < n -> fst (powh a e n h) mod n = a ^ Zpos e mod n.
Proof.
  intros a e n h Hn. induction e as [e IH | e IH |]; cbn [powh]; [| | cbn [fst]; rewrite Z.pow_1_r; reflexivity]; destruct (powh a e n h) as [x h']; cbn [fst] in *; rewrite mod_sub_mul, Z.square_spec.
  - rewrite Pos2Z.inj_xI. rewrite Z.pow_add_r, Z.pow_twice_r, Z.pow_1_r by lia. rewrite (Z.mul_comm a (x * x)).
    rewrite <- Z.mul_mod_idemp_l by lia. rewrite (Z.mul_mod x x), IH, <- Z.mul_mod by lia. rewrite Z.mul_mod_idemp_l by lia. reflexivity.
  - rewrite Pos2Z.inj_xO, Z.pow_twice_r. rewrite (Z.mul_mod x x), IH, <- Z.mul_mod by lia. reflexivity.
Qed.
Definition pow_h (a e n : Z) (h : list Z) : Z := match e with Zpos e' => fst (powh a e' n h) | _ => 1 end.
Lemma pow_h_ok : forall a e n h, 0 < n -> 0 <= e -> pow_h a e n h mod n = a ^ e mod n.
Proof. intros a [| e | e] n h Hn He; [reflexivity | apply powh_pos_ok; exact Hn | lia]. Qed.

(** the executable certificate check for one level: N - 1 is divisible by the listed factors f and, with the base a,
    a^(N-1) = 1 and gcd (a^((N-1)/f) - 1, N) = 1 (the two lists are the quotient hints of the two powers) *)
Definition pock_check (N : Z) (l : list (Z * (Z * list Z * list Z))) : bool :=
  (1 <? N) && (N <? (prod (map fst l) + 1) * (prod (map fst l) + 1)) &&
  forallb (fun fa => let '(f, (a, h1, h2)) := fa in ((N - 1) mod f =? 0) && (pow_h a (N - 1) N h1 =? 1) && (Z.gcd (pow_h a ((N - 1) / f) N h2 - 1) N =? 1)) l.
Fixpoint no_dup (l : list Z) : bool := match l with [] => true | x :: r => negb (existsb (Z.eqb x) r) && no_dup r end.
Lemma no_dup_ok : forall l, no_dup l = true -> NoDup l.
Proof.
  induction l as [| x l IH]; intros H; [constructor |]. cbn [no_dup] in H. apply andb_true_iff in H as [H1 H2]. constructor; [| auto].
  intros I. apply negb_true_iff in H1. assert (existsb (Z.eqb x) l = true) by (apply existsb_exists; exists x; split; [exact I | apply Z.eqb_refl]). congruence.
Qed.
Theorem pocklington : forall N l, Forall prime (map fst l) -> no_dup (map fst l) = true -> pock_check N l = true -> prime N.
Proof.
  intros N l P D C. apply no_dup_ok in D. unfold pock_check in C. apply andb_true_iff in C as [C C3]. apply andb_true_iff in C as [C1 C2].
  apply Z.ltb_lt in C1. apply Z.ltb_lt in C2. destruct (prime_dec N) as [Y | NP]; [exact Y | exfalso].
  destruct (small_prime_divisor N C1 NP) as (r & Hr & Dr & Lr). pose proof (prime_ge2 r Hr).
  assert (F : Forall (fun f => (f | r - 1)) (map fst l)).
  { apply Forall_forall. intros f I. apply in_map_iff in I as ([f' [[a h1] h2]] & <- & I). cbn [fst]. rewrite forallb_forall in C3. specialize (C3 _ I). cbv beta iota zeta in C3.
    apply andb_true_iff in C3 as [C3 E3]. apply andb_true_iff in C3 as [E1 E2]. apply Z.eqb_eq in E1, E2, E3.
    assert (Pf : prime f') by (rewrite Forall_forall in P; apply P; apply in_map_iff; exists (f', (a, h1, h2)); auto). pose proof (prime_ge2 f' Pf).
    assert (Hq : 0 <= (N - 1) / f') by (apply Z.div_pos; lia).
    pose proof (pow_h_ok a ((N - 1) / f') N h2 ltac:(lia) Hq) as Eb. set (b := pow_h a ((N - 1) / f') N h2) in *. clearbody b.
    apply (pock_factor N f' a r); auto.
    - apply mod_zero_div; [lia | exact E1].
    - rewrite <- (pow_h_ok a (N - 1) N h1) by lia. rewrite E2. apply Z.mod_small. lia.
    - transitivity (Z.gcd (b - 1) N); [| exact E3]. rewrite (Z.gcd_comm (a ^ _ - 1) N), (Z.gcd_comm (b - 1) N). rewrite <- (Z.gcd_mod (a ^ ((N - 1) / f') - 1) N), <- (Z.gcd_mod (b - 1) N) by lia. rewrite <- (Zminus_mod_idemp_l (a ^ _)). rewrite <- Eb. rewrite Zminus_mod_idemp_l. reflexivity. }
  apply distinct_primes_prod in F; auto.
  assert (PP : 0 < prod (map fst l)).
  { clear - P. induction (map fst l) as [| f r IH]; [reflexivity |]. apply Forall_cons_iff in P as [P1 P2]. change (prod (f :: r)) with (f * prod r).
    pose proof (prime_ge2 f P1). specialize (IH P2). nia. }
  apply Z.divide_pos_le in F; [| lia]. nia.
Qed.
(** primality of small numbers by trial division *)
Definition trial (n : Z) : bool := (1 <? n) && forallb (fun d => negb (n mod (Z.of_nat d) =? 0)) (seq 2 (Z.to_nat (Z.sqrt n) - 1)).
Lemma trial_ok : forall n, trial n = true -> prime n.
Proof.
  intros n H. unfold trial in H. apply andb_true_iff in H as [H1 H2]. apply Z.ltb_lt in H1. destruct (prime_dec n) as [Y | NP]; [exact Y | exfalso].
  destruct (small_prime_divisor n H1 NP) as (r & Hr & Dr & Lr). pose proof (prime_ge2 r Hr). rewrite forallb_forall in H2.
  assert (SQ : r <= Z.sqrt n) by (apply Z.sqrt_le_square; lia).
  specialize (H2 (Z.to_nat r)). rewrite Z2Nat.id in H2 by lia. apply Z.mod_divide in Dr; [| lia]. rewrite Dr in H2. cbn in H2.
  assert (false = true); [| discriminate]. apply H2. apply in_seq. lia.
Qed.
