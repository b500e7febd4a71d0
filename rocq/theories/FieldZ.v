(** * FieldZ.v — the prime field Z/qZ as a type with Leibniz equality (specification-level; used as the meaning of gnark's
    emulated.Element[Ed25519Fp]) *)
From Coq Require Import ZArith Znumtheory Zpow_facts List Lia Bool Eqdep_dec Field.
From Verif Require Import PrimeTheory.
Open Scope Z_scope.

(** canonical residues modulo [q] *)
Record Fq (q : Z) : Type := mkFq { fval : Z; fcanon : (fval =? fval mod q) = true }.
Arguments mkFq {q}. Arguments fval {q}. Arguments fcanon {q}.
Lemma canon_ok : forall q z, (z mod q =? (z mod q) mod q) = true.
Proof. intros. apply Z.eqb_eq. symmetry. apply Zmod_mod. Qed.
(** the residue of an integer *)
Definition ofZ (q z : Z) : Fq q := mkFq (z mod q) (canon_ok q z).
Lemma Fq_ext : forall q (x y : Fq q), fval x = fval y -> x = y.
Proof. intros q [x Hx] [y Hy] E. cbn [fval] in E. subst y. apply f_equal. apply UIP_dec. apply bool_dec. Qed.
Lemma fval_mod : forall q (x : Fq q), fval x mod q = fval x.
Proof. intros q [x Hx]. cbn [fval]. apply Z.eqb_eq in Hx. auto. Qed.
Lemma fval_ofZ : forall q z, fval (ofZ q z) = z mod q. Proof. reflexivity. Qed.
Lemma ofZ_fval : forall q (x : Fq q), ofZ q (fval x) = x. Proof. intros. apply Fq_ext. apply fval_mod. Qed.
Lemma fval_range : forall q (x : Fq q), 0 < q -> 0 <= fval x < q.
Proof. intros q x H. rewrite <- (fval_mod q x). apply Z.mod_pos_bound. exact H. Qed.
Lemma ofZ_eq : forall q a b, ofZ q a = ofZ q b <-> a mod q = b mod q.
Proof. intros. split; [intros E; apply (f_equal fval) in E; exact E | intros E; apply Fq_ext; exact E]. Qed.

Definition qadd {q} (x y : Fq q) : Fq q := ofZ q (fval x + fval y).
Definition qmul {q} (x y : Fq q) : Fq q := ofZ q (fval x * fval y).
Definition qsub {q} (x y : Fq q) : Fq q := ofZ q (fval x - fval y).
Definition qopp {q} (x : Fq q) : Fq q := ofZ q (- fval x).
Definition qinv {q} (x : Fq q) : Fq q := ofZ q (pow_mod (fval x) (q - 2) q).
Definition qdiv {q} (x y : Fq q) : Fq q := qmul x (qinv y).

Lemma ofZ_add : forall q a b, qadd (ofZ q a) (ofZ q b) = ofZ q (a + b).
Proof. intros. apply Fq_ext. cbn [fval qadd ofZ]. symmetry. apply Zplus_mod. Qed.
Lemma ofZ_mul : forall q a b, qmul (ofZ q a) (ofZ q b) = ofZ q (a * b).
Proof. intros. apply Fq_ext. cbn [fval qmul ofZ]. symmetry. apply Zmult_mod. Qed.
Lemma ofZ_sub : forall q a b, qsub (ofZ q a) (ofZ q b) = ofZ q (a - b).
Proof. intros. apply Fq_ext. cbn [fval qsub ofZ]. symmetry. apply Zminus_mod. Qed.
Lemma ofZ_opp : forall q a, qopp (ofZ q a) = ofZ q (- a).
Proof. intros. apply Fq_ext. cbn [fval qopp ofZ]. change (- (a mod q)) with (0 - a mod q). change (- a) with (0 - a). rewrite Zminus_mod_idemp_r. reflexivity. Qed.
Lemma Fq_dec : forall q (x y : Fq q), {x = y} + {x <> y}.
Proof.
  intros q x y. destruct (Z.eq_dec (fval x) (fval y)) as [E | N]; [left; apply Fq_ext; exact E | right; intros E; apply N; rewrite E; reflexivity].
Qed.
(** lift a statement on residues to integers *)
Ltac lift x := rewrite <- (ofZ_fval _ x); generalize (fval x); clear x; intros x.

Lemma Fq_ring : forall q, ring_theory (ofZ q 0) (ofZ q 1) qadd qmul qsub qopp (@eq (Fq q)).
Proof.
  intros q. constructor; intros; repeat match goal with x : Fq q |- _ => lift x end; rewrite ?ofZ_add, ?ofZ_mul, ?ofZ_opp, ?ofZ_sub, ?ofZ_add, ?ofZ_mul, ?ofZ_add; apply (f_equal (ofZ q)); ring.
Qed.
Lemma qinv_l : forall q (x : Fq q), prime q -> x <> ofZ q 0 -> qmul (qinv x) x = ofZ q 1.
Proof.
  intros q x P N. pose proof (prime_ge2 q P) as G. apply Fq_ext. unfold qmul, qinv. cbn [fval ofZ].
  rewrite pow_mod_ok by lia. rewrite Zmod_mod. rewrite Zmult_mod_idemp_l.
  replace (fval x ^ (q - 2) * fval x) with (fval x ^ (q - 1)).
  - rewrite fermat; [symmetry; apply Z.mod_small; lia | exact P |]. intros D. apply N. apply Fq_ext. cbn [fval ofZ].
    rewrite Z.mod_0_l by lia. rewrite <- (fval_mod q x). apply Z.mod_divide; [lia | exact D].
  - replace (q - 1) with (Z.succ (q - 2)) by lia. rewrite Z.pow_succ_r by lia. ring.
Qed.
Theorem Fq_field : forall q, prime q -> field_theory (ofZ q 0) (ofZ q 1) qadd qmul qsub qopp qdiv qinv (@eq (Fq q)).
Proof.
  intros q P. pose proof (prime_ge2 q P) as G. constructor.
  - apply Fq_ring.
  - intros E. apply ofZ_eq in E. rewrite !Z.mod_small in E by lia. discriminate.
  - reflexivity.
  - intros x N. apply qinv_l; assumption.
Qed.
(** a quotient is characterised by its product with the denominator *)
Lemma qdiv_check : forall q (x y z : Fq q), prime q -> y <> ofZ q 0 -> qmul z y = x -> qdiv x y = z.
Proof.
  intros q x y z P N <-. unfold qdiv. pose proof (Fq_ring q) as RT. rewrite <- (Rmul_assoc RT), (Rmul_comm RT y), (qinv_l q y P N), (Rmul_comm RT z), (Rmul_1_l RT). reflexivity.
Qed.
(** Euler's criterion, the direction that refutes squares *)
Lemma euler_nonsquare : forall q a, prime q -> Z.odd q = true -> a mod q <> 0 -> pow_mod a ((q - 1) / 2) q <> 1 -> forall x : Fq q, qmul x x <> ofZ q a.
Proof.
  intros q a P O NZ N x E. pose proof (prime_ge2 q P) as G. apply N. rewrite pow_mod_ok by (try apply Z.div_pos; lia).
  apply (f_equal fval) in E. cbn [fval qmul ofZ] in E.
  assert (Q : a ^ ((q - 1) / 2) mod q = (fval x * fval x) ^ ((q - 1) / 2) mod q).
  { rewrite (Zpower_mod a) by lia. rewrite <- E. rewrite <- (Zpower_mod _ ((q - 1) / 2) q) by lia. reflexivity. }
  rewrite Q. rewrite <- Z.pow_2_r. rewrite <- Z.pow_mul_r by (try apply Z.div_pos; lia).
  replace (2 * ((q - 1) / 2)) with (q - 1).
  - apply fermat; [exact P |]. intros D. apply NZ. rewrite <- E. apply Z.mod_divide; [lia |]. apply Z.divide_mul_l. exact D.
  - apply Z.odd_spec in O as [k O]. rewrite O. replace (2 * k + 1 - 1) with (k * 2) by lia. rewrite Z.div_mul by lia. lia.
Qed.
(** the same with the power given by hints *)
Lemma euler_nonsquare_h : forall q a h, prime q -> Z.odd q = true -> (a mod q =? 0) = false -> ((pow_h a ((q - 1) / 2) q h - 1) mod q =? 0) = false -> forall x : Fq q, qmul x x <> ofZ q a.
Proof.
  intros q a h P O NZ N. pose proof (prime_ge2 q P) as G. apply Z.eqb_neq in NZ, N. apply euler_nonsquare; try assumption.
  rewrite pow_mod_ok by (try apply Z.div_pos; lia). rewrite <- (pow_h_ok a ((q - 1) / 2) q h) by (try apply Z.div_pos; lia). set (r := pow_h _ _ _ _) in *. clearbody r.
  intros E. apply N. rewrite <- Zminus_mod_idemp_l, E. apply Z.mod_0_l. lia.
Qed.
