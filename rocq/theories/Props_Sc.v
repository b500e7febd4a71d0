(** * Props_Sc.v — C73 to C75: circuits/gadgets/ed25519/test/scalar.go *)
From Coq Require Import ZArith List Lia Bool Arith.
From Verif Require Import FieldLemmas EdBytes FeProofs ScModel ScProofs ScNaf.
Import ListNotations.
Open Scope Z_scope.

(** ** Specification: integers modulo l, encoded little-endian in 32 bytes *)
Definition ell : Z := 2 ^ 252 + 27742317777372353535851937790883648493.
Definition encode (n : Z) : list Z := le_bytes 32 (n mod ell).
Definition bytes_of (k : nat) (x : list Z) : Prop := Forall (fun b => 0 <= b < 256) x /\ length x = k.
(** RFC 8032, 5.1.5: the buffer with bits 0, 1, 2 and 255 cleared and bit 254 set *)
Definition pruned (n m : Z) : Prop := forall i, 0 <= i -> Z.testbit m i = if i <? 3 then false else if i =? 254 then true else if i <? 254 then Z.testbit n i else false.
(** every way to make a Scalar with the package's functions, and the integer it is to be *)
Inductive sexp :=
| SNew | SUniform (x : list Z) | SCanonical (x : list Z) | SClamped (x : list Z)
| SAdd (a b : sexp) | SSub (a b : sexp) | SNeg (a : sexp) | SMul (a b : sexp) | SMulAdd (a b c : sexp).
Definition ob {A B} (x : option A) (f : A -> option B) : option B := match x with Some a => f a | None => None end.
Fixpoint run (e : sexp) : option (list Z) :=
  match e with
  | SNew => Some scZero | SUniform x => sc_set_uniform x | SCanonical x => sc_set_canonical x | SClamped x => sc_set_clamped x
  | SAdd a b => ob (run a) (fun x => ob (run b) (fun y => Some (sc_add x y)))
  | SSub a b => ob (run a) (fun x => ob (run b) (fun y => Some (sc_subtract x y)))
  | SNeg a => ob (run a) (fun x => Some (sc_negate x))
  | SMul a b => ob (run a) (fun x => ob (run b) (fun y => Some (sc_multiply x y)))
  | SMulAdd a b c => ob (run a) (fun x => ob (run b) (fun y => ob (run c) (fun z => Some (sc_multiply_add x y z))))
  end.
Fixpoint means (e : sexp) (n : Z) : Prop :=
  match e with
  | SNew => n = 0 | SUniform x | SCanonical x => n = le_val x | SClamped x => pruned (le_val x) n
  | SAdd a b => exists i j, means a i /\ means b j /\ n = i + j
  | SSub a b => exists i j, means a i /\ means b j /\ n = i - j
  | SNeg a => exists i, means a i /\ n = - i
  | SMul a b => exists i j, means a i /\ means b j /\ n = i * j
  | SMulAdd a b c => exists i j k, means a i /\ means b j /\ means c k /\ n = i * j + k
  end.
Fixpoint wf (e : sexp) : Prop :=
  match e with
  | SNew => True | SUniform x => bytes_of 64 x | SCanonical x => bytes_of 32 x /\ le_val x < ell | SClamped x => bytes_of 32 x
  | SAdd a b | SSub a b | SMul a b => wf a /\ wf b | SNeg a => wf a | SMulAdd a b c => wf a /\ wf b /\ wf c
  end.

Lemma ell_L : ell = Lq. Proof. reflexivity. Qed.
Lemma enc_bytes n : is_bytes (encode n) /\ length (encode n) = 32%nat /\ le_val (encode n) = n mod ell.
Proof.
  unfold encode. split; [apply le_bytes_byte|]. split; [unfold le_bytes; rewrite map_length, seq_length; reflexivity|]. apply le_val_bytes. pose proof (Z.mod_pos_bound n ell ltac:(reflexivity)) as R. pose proof L_bounds as B. rewrite <- ell_L in B.
  change (256 ^ Z.of_nat 32) with (2 ^ 256). assert (2 ^ 253 < 2 ^ 256) by reflexivity. lia.
Qed.
Lemma enc_eq n m : n mod ell = m mod ell -> encode n = encode m. Proof. unfold encode. intros ->. reflexivity. Qed.
Lemma mul_add_enc a b c : bytes_of 32 a -> bytes_of 32 b -> bytes_of 32 c -> scMulAdd a b c = encode (le_val a * le_val b + le_val c).
Proof. intros [Fa La] [Fb Lb] [Fc Lc]. apply scMulAdd_ok; auto. Qed.
Lemma bytes_enc n : bytes_of 32 (encode n). Proof. destruct (enc_bytes n) as (A & B & _). split; assumption. Qed.
Lemma bytes_one : bytes_of 32 scOne /\ le_val scOne = 1. Proof. split; [split; [|reflexivity]|reflexivity]. unfold scOne. cbn [repeat]. repeat (apply Forall_cons; [lia|]). apply Forall_nil. Qed.
Lemma bytes_zero : bytes_of 32 scZero /\ le_val scZero = 0. Proof. split; [split; [|reflexivity]|reflexivity]. unfold scZero. cbn [repeat]. repeat (apply Forall_cons; [lia|]). apply Forall_nil. Qed.
Lemma bytes_minus : bytes_of 32 scMinusOne /\ le_val scMinusOne = ell - 1. Proof. split; [split; [exact minus_one_bytes|reflexivity]|exact minus_one_val]. Qed.
Lemma encode_id x : bytes_of 32 x -> le_val x < ell -> x = encode (le_val x).
Proof.
  intros [F L] H. destruct (enc_bytes (le_val x)) as (Fe & Le & Ve). pose proof (le_val_range x F) as R. rewrite Z.mod_small in Ve by lia.
  assert (INJ : forall l m, is_bytes l -> is_bytes m -> length l = length m -> le_val l = le_val m -> l = m).
  { induction l as [|a l IH]; intros [|b m] Fl Fm E V; try (cbn in E; lia); [reflexivity|]. inversion Fl; inversion Fm; subst. cbn [le_val length] in *. assert (a = b) by lia. subst b. f_equal. apply IH; auto; lia. }
  apply INJ; auto; lia.
Qed.
Lemma clamp_pruned n m : 0 <= n < 2 ^ 256 -> (pruned n m /\ 0 <= m <-> m = clamp n).
Proof.
  intros Hn. assert (P : pruned n (clamp n) /\ 0 <= clamp n).
  { assert (E : clamp n = 2 ^ 254 + n mod 2 ^ 254 / 8 * 8).
    { unfold clamp. pose proof (Z.div_mod (n mod 2 ^ 254) 8 ltac:(lia)) as D. assert (n mod 2 ^ 254 mod 8 = n mod 8). { change (2 ^ 254) with (8 * 2 ^ 251). rewrite Z.rem_mul_r by lia. rewrite (Z.mul_comm 8), Z_mod_plus_full, Z.mod_mod by lia. reflexivity. } lia. }
    pose proof (Z.mod_pos_bound n (2 ^ 254) ltac:(lia)) as B. set (k := n mod 2 ^ 254 / 8 * 8) in *. pose proof (Z.div_mod (n mod 2 ^ 254) 8 ltac:(lia)) as D. pose proof (Z.mod_pos_bound (n mod 2 ^ 254) 8 ltac:(lia)) as B8.
    assert (Hk : 0 <= k < 2 ^ 254) by (unfold k; lia). split; [|lia]. intros i Hi. rewrite E. rewrite <- (Z.mul_1_l (2 ^ 254)). rewrite <- lor_disjoint by lia. rewrite Z.lor_spec, Z.mul_1_l.
    assert (K : Z.testbit k i = if i <? 3 then false else if i <? 254 then Z.testbit n i else false).
    { unfold k. change 8 with (2 ^ 3). destruct (Z.ltb_spec i 3); [apply Z.mul_pow2_bits_low; lia|]. rewrite Z.mul_pow2_bits, Z.div_pow2_bits by lia. replace (i - 3 + 3) with i by lia. destruct (Z.ltb_spec i 254); [apply Z.mod_pow2_bits_low; lia|apply Z.mod_pow2_bits_high; lia]. }
    rewrite K. destruct (Z.eqb_spec i 254) as [->|N]; [rewrite Z.pow2_bits_true by lia; destruct (Z.ltb_spec 254 3); [lia|reflexivity]|]. rewrite Z.pow2_bits_false by lia. rewrite orb_false_l. reflexivity. }
  split; [|intros ->; exact P]. intros [Q H0]. apply Z.bits_inj'. intros i Hi. rewrite (Q i Hi). symmetry. apply (proj1 P i Hi).
Qed.

(** ** C73: every program over the package computes modulo l, with canonical results *)
Theorem C73_programs : forall e, wf e -> exists n, means e n /\ run e = Some (encode n).
Proof.
  assert (M : forall i j k, (i mod ell * (j mod ell) + k mod ell) mod ell = (i * j + k) mod ell) by (intros; rewrite Z.add_mod_idemp_r, <- Z.add_mod_idemp_l, <- Z.mul_mod, Z.add_mod_idemp_l by discriminate; reflexivity).
  destruct bytes_one as [O1 O2]. destruct bytes_zero as [Z1 Z2]. destruct bytes_minus as [M1 M2].
  assert (V : forall n, le_val (encode n) = n mod ell) by (intros n; apply enc_bytes).
  induction e as [|x|x|x|a IHa b IHb|a IHa b IHb|a IHa|a IHa b IHb|a IHa b IHb c IHc]; cbn [wf means run]; intros W.
  - exists 0. split; [reflexivity|]. apply (f_equal Some). rewrite <- Z2. apply encode_id; [exact Z1|rewrite Z2; reflexivity].
  - exists (le_val x). split; [reflexivity|]. destruct W as [F L]. unfold sc_set_uniform. rewrite L. cbn [Nat.eqb negb]. f_equal. apply scReduce_ok; auto.
  - exists (le_val x). split; [reflexivity|]. destruct W as [[F L] R]. unfold sc_set_canonical. rewrite isReduced_ok, L by auto. rewrite ell_L in R. apply Z.ltb_lt in R as R'. rewrite R'. cbn [Nat.eqb negb]. f_equal. apply encode_id; [split; assumption|exact R].
  - destruct W as [F L]. exists (clamp (le_val x)). pose proof (le_val_range x F) as R. rewrite L in R. split; [apply (proj2 (clamp_pruned (le_val x) _ R) eq_refl)|]. apply clamped_ok; auto.
  - destruct W as [Wa Wb]. destruct (IHa Wa) as (i & Mi & Ei). destruct (IHb Wb) as (j & Mj & Ej). exists (i + j). split; [exists i, j; auto|]. rewrite Ei, Ej. cbn [ob]. f_equal. unfold sc_add. rewrite mul_add_enc by auto using bytes_enc. apply enc_eq. rewrite O2, !V.
    rewrite Z.mul_1_l, <- Z.add_mod by discriminate. reflexivity.
  - destruct W as [Wa Wb]. destruct (IHa Wa) as (i & Mi & Ei). destruct (IHb Wb) as (j & Mj & Ej). exists (i - j). split; [exists i, j; auto|]. rewrite Ei, Ej. cbn [ob]. f_equal. unfold sc_subtract. rewrite mul_add_enc by auto using bytes_enc. apply enc_eq. rewrite M2, !V.
    rewrite <- (Z.mod_small (ell - 1) ell) by (split; [discriminate|reflexivity]). rewrite M. replace ((ell - 1) * j + i) with (i - j + j * ell) by ring. apply Z_mod_plus_full.
  - destruct (IHa W) as (i & Mi & Ei). exists (- i). split; [exists i; auto|]. rewrite Ei. cbn [ob]. f_equal. unfold sc_negate. rewrite mul_add_enc by auto using bytes_enc. apply enc_eq. rewrite M2, Z2, !V.
    rewrite <- (Z.mod_small (ell - 1) ell) by (split; [discriminate|reflexivity]). change 0 with (0 mod ell). rewrite M. replace ((ell - 1) * i + 0) with (- i + i * ell) by ring. apply Z_mod_plus_full.
  - destruct W as [Wa Wb]. destruct (IHa Wa) as (i & Mi & Ei). destruct (IHb Wb) as (j & Mj & Ej). exists (i * j). split; [exists i, j; auto|]. rewrite Ei, Ej. cbn [ob]. f_equal. unfold sc_multiply. rewrite mul_add_enc by auto using bytes_enc. apply enc_eq. rewrite Z2, !V.
    change 0 with (0 mod ell). rewrite M. f_equal. ring.
  - destruct W as (Wa & Wb & Wc). destruct (IHa Wa) as (i & Mi & Ei). destruct (IHb Wb) as (j & Mj & Ej). destruct (IHc Wc) as (k & Mk & Ek). exists (i * j + k). split; [exists i, j, k; auto|]. rewrite Ei, Ej, Ek. cbn [ob]. f_equal. unfold sc_multiply_add. rewrite mul_add_enc by auto using bytes_enc. apply enc_eq. rewrite !V. apply M.
Qed.
(** also for byte arrays that are not reduced: the 64-bit arithmetic never overflows *)
Theorem C73_multiply_add : forall x y z, bytes_of 32 x -> bytes_of 32 y -> bytes_of 32 z -> sc_multiply_add x y z = encode (le_val x * le_val y + le_val z).
Proof. exact mul_add_enc. Qed.
Example C73_case : wf (SSub (SMul (SUniform (repeat 255 64)) (SClamped (repeat 7 32))) SNew) /\ sc_multiply (encode 5) (encode (-3)) = encode (-15).
Proof.
  split. - cbn [wf]. split; [split|exact I]; (split; [apply Forall_forall; intros b Hb; apply repeat_spec in Hb; lia|apply repeat_length]).
  - unfold sc_multiply. rewrite mul_add_enc by (try apply bytes_enc; apply bytes_zero). apply enc_eq. rewrite (proj2 bytes_zero), !(fun n => proj2 (proj2 (enc_bytes n))). reflexivity.
Qed.

(** ** C74: encodings *)
Theorem C74_uniform : forall x, Forall (fun b => 0 <= b < 256) x -> sc_set_uniform x = if Nat.eqb (length x) 64 then Some (encode (le_val x)) else None.
Proof. intros x F. unfold sc_set_uniform. destruct (Nat.eqb_spec (length x) 64) as [L|L]; [cbn [negb]; f_equal; apply scReduce_ok; auto|reflexivity]. Qed.
Theorem C74_canonical : forall x, Forall (fun b => 0 <= b < 256) x -> forall s, sc_set_canonical x = Some s <-> (length x = 32%nat /\ le_val x < ell /\ s = x).
Proof.
  intros x F s. unfold sc_set_canonical. destruct (Nat.eqb_spec (length x) 32) as [L|L]; cbn [negb]; [|split; [discriminate|tauto]]. rewrite isReduced_ok by auto. rewrite <- ell_L. destruct (Z.ltb_spec (le_val x) ell) as [H|H]; cbn [negb].
  - split; [intros E; injection E as <-; auto|intros (_ & _ & ->); reflexivity].
  - split; [discriminate|intros (_ & G & _); lia].
Qed.
(** the accepted encodings are exactly the results of Bytes, one for each residue *)
Theorem C74_bytes_unique : forall n m, encode n = encode m <-> n mod ell = m mod ell.
Proof. intros n m. split; [|apply enc_eq]. intros E. apply (f_equal le_val) in E. rewrite !(fun n => proj2 (proj2 (enc_bytes n))) in E. exact E. Qed.
Theorem C74_round_trip : forall n, sc_set_canonical (sc_bytes (encode n)) = Some (encode n).
Proof. intros n. destruct (enc_bytes n) as (F & L & V). apply C74_canonical; [exact F|]. split; [exact L|]. split; [|reflexivity]. unfold sc_bytes. rewrite V. apply Z.mod_pos_bound. reflexivity. Qed.
Theorem C74_equal : forall n m, (sc_equal (encode n) (encode m) = 1 <-> n mod ell = m mod ell) /\ (sc_equal (encode n) (encode m) = 0 <-> n mod ell <> m mod ell).
Proof. intros n m. rewrite <- C74_bytes_unique. unfold sc_equal. destruct (list_eq_dec Z.eq_dec (encode n) (encode m)); split; split; intros; auto; congruence. Qed.
(** clamping *)
Theorem C74_clamped : forall x, Forall (fun b => 0 <= b < 256) x -> (length x = 32%nat -> exists m, pruned (le_val x) m /\ 0 <= m /\ sc_set_clamped x = Some (encode m)) /\ (length x <> 32%nat -> sc_set_clamped x = None).
Proof.
  intros x F. split; intros L.
  - pose proof (le_val_range x F) as R. rewrite L in R. exists (clamp (le_val x)). destruct (proj2 (clamp_pruned (le_val x) _ R) eq_refl) as [P H0]. split; [exact P|]. split; [exact H0|]. apply clamped_ok; auto.
  - unfold sc_set_clamped. apply Nat.eqb_neq in L. rewrite L. reflexivity.
Qed.
(** as the comment in the code warns, the reduction loses the clamped bits: the result need not be a multiple of 8 *)
Theorem C74_clamp_lost_refuted : exists x s, bytes_of 32 x /\ sc_set_clamped x = Some s /\ le_val s mod 8 <> 0.
Proof.
  set (x := repeat 255 32). assert (B : bytes_of 32 x) by (split; [apply Forall_forall; intros b Hb; apply repeat_spec in Hb; lia|apply repeat_length]). destruct B as [F L].
  exists x, (encode (clamp (le_val x))). split; [split; assumption|]. split; [apply clamped_ok; auto|]. rewrite (proj2 (proj2 (enc_bytes _))). assert (V : le_val x = 2 ^ 256 - 1) by reflexivity. rewrite V. vm_compute. discriminate.
Qed.
Example C74_case : exists x, bytes_of 32 x /\ sc_set_canonical x = Some x /\ le_val x = ell - 1.
Proof. exists scMinusOne. destruct bytes_minus as [[F L] V]. split; [split; assumption|]. split; [|exact V]. apply C74_canonical; [exact F|]. split; [exact L|]. split; [rewrite V; lia|reflexivity]. Qed.

(** ** C75: signed digits *)
Fixpoint digits_value (b : Z) (d : list Z) : Z := match d with [] => 0 | x :: r => x + b * digits_value b r end.
(** nonAdjacentForm(w): 256 digits, zero or odd and below 2^(w-1) in absolute value, of any w consecutive ones at most one not 0; it panics exactly for w outside 2..8 or numbers from 2^255 *)
Theorem C75_naf : forall s w, bytes_of 32 s -> ((2 <= w <= 8)%nat /\ le_val s < 2 ^ 255 ->
    exists d, sc_naf s w = Some d /\ length d = 256%nat /\ digits_value 2 d = le_val s /\
      (forall j, nth j d 0 = 0 \/ (Z.odd (nth j d 0) = true /\ Z.abs (nth j d 0) < 2 ^ (Z.of_nat w - 1))) /\
      (forall j k, (j < k < j + w)%nat -> nth j d 0 <> 0 -> nth k d 0 = 0)) /\
  (~ ((2 <= w <= 8)%nat /\ le_val s < 2 ^ 255) -> sc_naf s w = None).
Proof.
  intros s w [F L]. split; [intros [Hw Hs]|intros N].
  - destruct (naf_ok s w F L Hs Hw) as (d & E & Ld & V & Sp & Di). exists d. split; [exact E|]. split; [exact Ld|]. split; [exact V|]. split; [|exact Sp]. intros j. destruct (Di j) as [Z0|[O B]]; [left; exact Z0|right; split; [exact O|apply Z.abs_lt; exact B]].
  - unfold sc_naf. destruct (nth 31 s 0 >? 127) eqn:T; [reflexivity|]. apply (top_bit s F L) in T. destruct (Nat.ltb_spec w 2); [reflexivity|]. destruct (Nat.ltb_spec 8 w); [reflexivity|]. exfalso. apply N. split; [lia|exact T].
Qed.
(** signedRadix16: 64 digits from -8 to 7, the last from 0 to 8 *)
Theorem C75_radix16 : forall s, bytes_of 32 s -> (le_val s < 2 ^ 255 ->
    exists d, sc_radix16 s = Some d /\ length d = 64%nat /\ digits_value 16 d = le_val s /\ (forall i, (i < 63)%nat -> -8 <= nth i d 0 < 8) /\ 0 <= nth 63 d 0 <= 8) /\
  (2 ^ 255 <= le_val s -> sc_radix16 s = None).
Proof.
  intros s [F L]. split; intros H.
  - exact (radix16_ok s F L H).
  - unfold sc_radix16. destruct (nth 31 s 0 >? 127) eqn:T; [reflexivity|]. apply (top_bit s F L) in T. lia.
Qed.
(** every Scalar of the package qualifies *)
Theorem C75_scalars_qualify : forall e, wf e -> exists s, run e = Some s /\ bytes_of 32 s /\ le_val s < 2 ^ 255.
Proof.
  intros e W. destruct (C73_programs e W) as (n & _ & E). exists (encode n). split; [exact E|]. split; [apply bytes_enc|]. rewrite (proj2 (proj2 (enc_bytes n))). pose proof (Z.mod_pos_bound n ell ltac:(reflexivity)). pose proof L_bounds as B. rewrite <- ell_L in B. assert (2 ^ 253 < 2 ^ 255) by reflexivity. lia.
Qed.
Example C75_case : exists d, sc_naf (encode (-1)) 5 = Some d /\ digits_value 2 d = ell - 1.
Proof.
  destruct (enc_bytes (-1)) as (F & L & V). destruct (C75_naf (encode (-1)) 5 (conj F L)) as [H _]. assert (E : -1 mod ell = ell - 1) by reflexivity. rewrite E in V.
  destruct H as (d & Ed & _ & Vd & _); [split; [lia|rewrite V; reflexivity]|]. exists d. split; [exact Ed|]. rewrite Vd. exact V.
Qed.
