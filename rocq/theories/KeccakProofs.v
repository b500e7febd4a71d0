(** * KeccakProofs.v — the in-circuit permutation is Keccak-f[1600] *)
From Coq Require Import ZArith List Bool Arith Lia.
From Verif Require Import Field FieldLemmas ModNorm RlpUtilModel RlpUtilProofs KeccakSpec KeccakModel.
Import ListNotations.
Open Scope Z_scope.
Open Scope circ_scope.

(** A lane of bits as 64 field elements, a state as 25 lanes. *)
Definition E (f : nat -> bool) : list Z := map (fun i => bit_of (f i)) (seq 0 64).
Definition Em (A : state) : list (list Z) := map (fun l => E (A (l mod 5)%nat (l / 5)%nat)) (seq 0 25).

Definition eqS (A B : state) : Prop := forall x y z, (x < 5)%nat -> (y < 5)%nat -> (z < 64)%nat -> A x y z = B x y z.

Lemma E_ext : forall f g, (forall z, (z < 64)%nat -> f z = g z) -> E f = E g.
Proof. intros f g H. unfold E. apply map_ext_in. intros i Hi. apply in_seq in Hi. rewrite H; auto. lia. Qed.
Lemma Em_ext : forall A B, eqS A B -> Em A = Em B.
Proof.
  intros A B H. unfold Em. apply map_ext_in. intros l Hl. apply in_seq in Hl. apply E_ext. intros z Hz.
  apply H; auto. apply Nat.mod_upper_bound. lia. apply Nat.div_lt_upper_bound; lia.
Qed.
Lemma E_length : forall f, length (E f) = 64%nat. Proof. reflexivity. Qed.
Lemma E_nth : forall f i, (i < 64)%nat -> nth i (E f) 0 = bit_of (f i).
Proof. intros f i H. unfold E. rewrite nth_map_seq by lia. reflexivity. Qed.

Section P.
Variable p : Z.
Hypothesis Hp : 2 < p.

Lemma bit_of_eq1 b : (bit_of b =? 1) = b. Proof. destruct b; reflexivity. Qed.
Lemma fxor_bits a b : fxor p (bit_of a) (bit_of b) = Some (bit_of (xorb a b)).
Proof. rewrite fxor_ok by (auto using bit_of_bit). destruct a, b; reflexivity. Qed.
Lemma fand_bits a b : fand p (bit_of a) (bit_of b) = Some (bit_of (a && b)).
Proof. rewrite fand_ok by (auto using bit_of_bit). destruct a, b; reflexivity. Qed.

Lemma u_xor_E : forall fs, u_xor p (map E fs) = Some (E (fun z => fold_left xorb (map (fun f => f z) fs) false)).
Proof.
  intros fs. unfold u_xor. unfold E at 2. apply omap_total. intros i Hi. apply in_seq in Hi.
  cut (forall b, ofold (fun r v => fxor p r (nth i v 0)) (map E fs) (bit_of b) = Some (bit_of (fold_left xorb (map (fun f => f i) fs) b))); [intros H; apply (H false)|].
  induction fs as [|f fs IH]; intros b; [reflexivity|]. cbn [map ofold fold_left].
  rewrite E_nth by lia. rewrite fxor_bits. cbn [obind]. apply IH.
Qed.
Lemma u_and_E : forall fs, u_and p (map E fs) = Some (E (fun z => fold_left andb (map (fun f => f z) fs) true)).
Proof.
  intros fs. unfold u_and. unfold E at 2. apply omap_total. intros i Hi. apply in_seq in Hi.
  cut (forall b, ofold (fun r v => fand p r (nth i v 0)) (map E fs) (bit_of b) = Some (bit_of (fold_left andb (map (fun f => f i) fs) b))); [intros H; apply (H true)|].
  induction fs as [|f fs IH]; intros b; [reflexivity|]. cbn [map ofold fold_left].
  rewrite E_nth by lia. rewrite fand_bits. cbn [obind]. apply IH.
Qed.
Lemma u_not_E : forall f, u_not p (E f) = Some (E (fun z => negb (f z))).
Proof.
  intros f. unfold u_not. unfold E at 2. apply omap_total. intros i Hi. apply in_seq in Hi.
  rewrite E_nth by lia. change 1 with (bit_of true). rewrite fxor_bits. rewrite xorb_true_r. reflexivity.
Qed.
Lemma u_lrot_E : forall f s, u_lrot (E f) s = E (fun z => f ((z + 64 - s) mod 64)%nat).
Proof.
  intros f s. unfold u_lrot. unfold E at 2. apply map_ext_in. intros i Hi. apply in_seq in Hi.
  rewrite E_nth; auto. apply Nat.mod_upper_bound. lia.
Qed.
Lemma u_xor2 f g : u_xor p [E f; E g] = Some (E (fun z => xorb (f z) (g z))).
Proof. change [E f; E g] with (map E [f; g]). rewrite u_xor_E. f_equal; apply E_ext; intros; cbn [map fold_left]; now rewrite xorb_false_l. Qed.
Lemma u_xor5 f g h i j : u_xor p [E f; E g; E h; E i; E j] = Some (E (fun z => xorb (xorb (xorb (xorb (f z) (g z)) (h z)) (i z)) (j z))).
Proof. change [E f; E g; E h; E i; E j] with (map E [f; g; h; i; j]). rewrite u_xor_E. f_equal; apply E_ext; intros; cbn [map fold_left]; now rewrite xorb_false_l. Qed.
Lemma u_and2 f g : u_and p [E f; E g] = Some (E (fun z => f z && g z)).
Proof. change [E f; E g] with (map E [f; g]). rewrite u_and_E. f_equal; apply E_ext; intros; cbn [map fold_left]; reflexivity. Qed.

(** 25 explicit lanes *)
Lemma Em_explicit : forall A, Em A = [E (A 0 0); E (A 1 0); E (A 2 0); E (A 3 0); E (A 4 0);
  E (A 0 1); E (A 1 1); E (A 2 1); E (A 3 1); E (A 4 1); E (A 0 2); E (A 1 2); E (A 2 2); E (A 3 2); E (A 4 2);
  E (A 0 3); E (A 1 3); E (A 2 3); E (A 3 3); E (A 4 3); E (A 0 4); E (A 1 4); E (A 2 4); E (A 3 4); E (A 4 4)]%nat.
Proof. intros A. reflexivity. Qed.

Lemma theta_E : forall A, kf_theta p (Em A) = Some (Em (theta A)).
Proof.
  intros A. rewrite (Em_explicit A). rewrite Em_explicit. unfold kf_theta.
  cbn [seq omap nth Nat.add obind].
  rewrite !u_xor5. cbn [obind nth ofold Nat.add].
  cbn [nth Nat.modulo Nat.divmod Nat.sub fst snd].
  do 5 (rewrite u_lrot_E, u_xor2; cbn [obind];
    do 5 (rewrite u_xor2; cbn [obind upd firstn skipn app nth])).
  reflexivity.
Qed.

Lemma rho_pi_E : forall A, kf_rho_pi (Em A) = Em (pi (rho A)).
Proof.
  intros A. rewrite (Em_explicit A). rewrite Em_explicit. unfold kf_rho_pi, kf_piln, kf_rotc.
  lazy beta iota zeta delta [seq fold_left nth upd firstn skipn app snd]. rewrite !u_lrot_E.
  apply f_equal2; [apply E_ext; intros z Hz; unfold pi, rho|].
  { change (A 0%nat 0%nat z = A 0%nat 0%nat ((z + 64 - 0) mod 64)%nat). f_equal. rewrite Nat.sub_0_r.
    replace (z + 64)%nat with (z + 1 * 64)%nat by lia. rewrite Nat.mod_add by lia. symmetry. apply Nat.mod_small; auto. }
  repeat (apply f_equal2; [apply (f_equal E); unfold pi, rho; reflexivity|]).
  reflexivity.
Qed.

Lemma chi_E : forall A, kf_chi p (Em A) = Some (Em (chi A)).
Proof.
  intros A. rewrite (Em_explicit A). rewrite Em_explicit. unfold kf_chi.
  cbn [seq map ofold Nat.add].
  do 5 (cbn [nth]; do 5 (cbn [nth Nat.modulo Nat.divmod Nat.sub fst snd]; rewrite u_not_E; cbn [obind]; rewrite u_and2; cbn [obind];
     rewrite u_xor2; cbn [obind upd firstn skipn app nth])).
  reflexivity.
Qed.

Lemma const_E : forall a, const_u64 a = E (fun z => Z.testbit a (Z.of_nat z)).
Proof.
  intros a. unfold const_u64, E. apply map_ext. intros i. change 1 with (Z.ones 1). rewrite Z.land_ones by lia.
  change (2 ^ 1) with 2. rewrite <- Z.bit0_mod. rewrite Z.shiftr_spec by lia. reflexivity.
Qed.

(** the round constants are those the LFSR generates *)
Lemma rc_table : forall r, (r < 24)%nat -> forall z, (z < 64)%nat ->
  Z.testbit (nth r kf_rc 0) (Z.of_nat z) = round_const r z.
Proof.
  assert (H : forallb (fun r => forallb (fun z => Bool.eqb (Z.testbit (nth r kf_rc 0) (Z.of_nat z)) (round_const r z)) (seq 0 64)) (seq 0 24) = true)
    by (vm_compute; reflexivity).
  intros r Hr z Hz. rewrite forallb_forall in H. specialize (H r ltac:(apply in_seq; lia)).
  rewrite forallb_forall in H. specialize (H z ltac:(apply in_seq; lia)). apply eqb_prop in H. exact H.
Qed.

Lemma iota_E : forall r A, (r < 24)%nat -> kf_iota p r (Em A) = Some (Em (iota r A)).
Proof.
  intros r A Hr. unfold kf_iota. rewrite const_E. rewrite (Em_explicit A), (Em_explicit (iota r A)). cbn [nth].
  rewrite u_xor2. cbn [obind upd firstn skipn app]. f_equal. unfold iota. cbn [Nat.eqb andb].
  apply f_equal2; [|reflexivity]. apply E_ext. intros z Hz. rewrite rc_table; auto.
Qed.

Lemma rounds_E : forall n A, (n <= 24)%nat ->
  ofold (fun st r => let* st1 := kf_theta p st in let st2 := kf_rho_pi st1 in let* st3 := kf_chi p st2 in kf_iota p r st3)
        (seq 0 n) (Em A) = Some (Em (rounds n A)).
Proof.
  induction n as [|n IH]; intros A Hn; [reflexivity|].
  replace (S n) with (n + 1)%nat at 1 by lia. rewrite seq_app, ofold_app, IH by lia. cbn [obind seq ofold Nat.add].
  rewrite theta_E. cbn [obind]. rewrite rho_pi_E, chi_E. cbn [obind]. rewrite iota_E by lia. reflexivity.
Qed.

Theorem permute_E : forall A, kf_permute p (Em A) = Some (Em (keccak_f A)).
Proof. intros A. apply rounds_E. lia. Qed.

(** congruence of the specification for pointwise equality inside the 5 x 5 x 64 array *)
Lemma m5 x : (x mod 5 < 5)%nat. Proof. apply Nat.mod_upper_bound. lia. Qed.
Lemma m64 x : (x mod 64 < 64)%nat. Proof. apply Nat.mod_upper_bound. lia. Qed.
Lemma rnd_ext : forall r A B, eqS A B -> eqS (rnd r A) (rnd r B).
Proof.
  intros r A B H x y z Hx Hy Hz. unfold rnd.
  assert (H1 : eqS (theta A) (theta B)).
  { intros x' y' z' ? ? ?. unfold theta. rewrite !H by (auto using m5, m64; lia). reflexivity. }
  assert (H2 : eqS (rho (theta A)) (rho (theta B))).
  { intros x' y' z' ? ? ?. unfold rho. apply H1; auto using m64. }
  assert (H3 : eqS (pi (rho (theta A))) (pi (rho (theta B)))).
  { intros x' y' z' ? ? ?. unfold pi. apply H2; auto using m5. }
  assert (H4 : eqS (chi (pi (rho (theta A)))) (chi (pi (rho (theta B))))).
  { intros x' y' z' ? ? ?. unfold chi. rewrite !H3 by (auto using m5). reflexivity. }
  unfold iota. rewrite H4 by auto. reflexivity.
Qed.
Lemma rounds_ext : forall n A B, eqS A B -> eqS (rounds n A) (rounds n B).
Proof. induction n as [|n IH]; intros A B H; [exact H|]. cbn [rounds]. apply rnd_ext. auto. Qed.
Lemma keccak_f_ext : forall A B, eqS A B -> eqS (keccak_f A) (keccak_f B).
Proof. intros. apply rounds_ext; auto. Qed.

(** flat bit strings *)
Definition zbits (l : list bool) : list Z := map bit_of l.

Lemma string_concat : forall A, concat (Em A) = zbits (string_of A).
Proof.
  intros A. unfold Em, string_of, zbits. rewrite flat_map_concat_map. rewrite concat_map. rewrite map_map.
  apply (f_equal (@concat Z)). apply map_ext. intros l. unfold E. rewrite map_map. reflexivity.
Qed.

Lemma lanes_of_bits : forall l, length l = 1600%nat ->
  map (fun i => firstn 64 (skipn (i * 64) (zbits l))) (seq 0 25) = Em (state_of l).
Proof.
  intros l Hl. unfold Em. apply map_ext_in. intros i Hi. apply in_seq in Hi.
  assert (Hlen : length (zbits l) = 1600%nat) by (unfold zbits; rewrite map_length; auto).
  apply nth_ext' with (d := 0).
  - rewrite firstn_length, skipn_length, E_length, Hlen. lia.
  - intros k Hk. rewrite firstn_length, skipn_length, Hlen in Hk.
    rewrite nth_firstn', nth_skipn' by lia. rewrite E_nth by lia. unfold zbits.
    rewrite nth_map' with (d' := false) by lia. f_equal. unfold state_of. f_equal.
    pose proof (Nat.div_mod i 5 ltac:(lia)). lia.
Qed.

Theorem permute_bits_E : forall l, length l = 1600%nat ->
  kf_permute_bits p (zbits l) = Some (zbits (string_of (keccak_f (state_of l)))).
Proof.
  intros l Hl. unfold kf_permute_bits. rewrite lanes_of_bits by auto. rewrite permute_E. cbn [obind].
  rewrite string_concat. reflexivity.
Qed.

End P.
