(** * Props_Utils.v — C25-C29: slices, hex, bit packing, start blocks; C42: bit grouping *)
From Coq Require Import ZArith List Bool Arith Lia Permutation.
From Verif Require Import Field FieldLemmas KeccakModel SliceModel GoUtilModel GoUtilProofs ConvModel.
Import ListNotations.
Open Scope Z_scope.
Open Scope circ_scope.

(** ** C25 slice helpers *)
Theorem C25_flip_reverses : forall (A : Type) (d : A) (l : list A), flip d l = rev l /\ flip d (flip d l) = l.
Proof. intros. rewrite !flip_spec. split; [reflexivity|apply rev_involutive]. Qed.
Theorem C25_reverse : forall (A : Type) (d : A) (l : list A), reverse d l = rev l /\ reverse d (reverse d l) = l.
Proof. intros. rewrite !reverse_spec. split; [reflexivity|apply rev_involutive]. Qed.

Lemma flat_map_rev_length A n c : forall l : list A, length l = (n * c)%nat -> length (flat_map (@rev A) (chunks n c l)) = (n * c)%nat.
Proof.
  induction n as [|n IH]; intros l Hl; [reflexivity|]. cbn [chunks flat_map]. rewrite app_length, rev_length, firstn_length, IH by (rewrite skipn_length; lia). lia.
Qed.
Lemma flat_map_rev_nth A (d : A) n c : forall l i j, length l = (n * c)%nat -> (i < n)%nat -> (j < c)%nat ->
  nth (i * c + j) (flat_map (@rev A) (chunks n c l)) d = nth (i * c + (c - 1 - j)) l d.
Proof.
  induction n as [|n IH]; intros l i j Hl Hi Hj; [lia|]. cbn [chunks flat_map].
  assert (L1 : length (rev (firstn c l)) = c) by (rewrite rev_length, firstn_length; lia).
  assert (Lf : length (firstn c l) = c) by (rewrite firstn_length; lia).
  destruct i as [|i].
  - cbn [Nat.mul Nat.add]. rewrite app_nth1 by lia. rewrite rev_nth by lia. rewrite Lf, nth_firstn' by lia. f_equal. lia.
  - rewrite app_nth2 by lia. rewrite L1. replace (S i * c + j - c)%nat with (i * c + j)%nat by lia.
    rewrite IH; [|rewrite skipn_length; lia|lia|lia]. rewrite nth_skipn'. f_equal. lia.
Qed.
(** FlipSubSlice(l, c) reverses each group of c elements in place, panics exactly when c does not divide len(l), and is
    an involution *)
Theorem C25_flip_sub : forall (A : Type) (d : A) (l : list A) n c, (0 < c)%nat -> length l = (n * c)%nat ->
  exists r, flip_sub d l c = Some r /\ length r = length l /\
    (forall i j, (i < n)%nat -> (j < c)%nat -> nth (i * c + j) r d = nth (i * c + (c - 1 - j)) l d) /\
    flip_sub d r c = Some l.
Proof.
  intros A d l n c Hc Hl. exists (flat_map (@rev A) (chunks n c l)). split; [apply flip_sub_spec; auto|].
  pose proof (flat_map_rev_length A n c l Hl) as L. split; [lia|]. split; [intros; apply flat_map_rev_nth; auto|].
  rewrite (flip_sub_spec A d n c) by auto. f_equal. apply nth_ext' with (d := d); [rewrite flat_map_rev_length; lia|].
  rewrite flat_map_rev_length by auto. intros t Ht. pose proof (Nat.div_mod t c ltac:(lia)) as D. pose proof (Nat.mod_upper_bound t c ltac:(lia)) as M.
  assert (t / c < n)%nat by (apply Nat.div_lt_upper_bound; lia). set (q := (t / c)%nat) in *. set (r := (t mod c)%nat) in *. clearbody q r.
  replace t with (q * c + r)%nat by lia. rewrite !flat_map_rev_nth by lia. f_equal. lia.
Qed.
Theorem C25_flip_sub_panics : forall (A : Type) (d : A) (l : list A) c, flip_sub d l c = None <-> (c = 0 \/ length l mod c <> 0)%nat.
Proof.
  intros A d l c. unfold flip_sub. destruct (Nat.eqb_spec c 0) as [->|Hc]; [tauto|]. destruct (Nat.eqb_spec (length l mod c) 0) as [E|E].
  - split; [discriminate|]. intros [H|H]; contradiction.
  - tauto.
Qed.
Example C25_flip_sub_example : flip_sub 0 [1; 2; 3; 4; 5; 6] 3 = Some [3; 2; 1; 6; 5; 4]. Proof. reflexivity. Qed.

(** FlipByGroups(l, g) reverses the order of the groups of g elements, and keeps the order inside a group *)
Theorem C25_flip_by_groups : forall (A : Type) (d : A) (l : list A) n g, (0 < g)%nat -> length l = (n * g)%nat ->
  exists r, flip_by_groups d l g = Some r /\ length r = length l /\
    (forall i j, (i < n)%nat -> (j < g)%nat -> nth (i * g + j) r d = nth ((n - 1 - i) * g + j) l d).
Proof.
  intros A d l n g Hg Hl. rewrite flip_groups_swaps by auto. eexists. split; [reflexivity|].
  destruct (gsig_ok (length l) g Hg) as (G1 & G2 & G3). set (m := (length l / g / 2 * g)%nat) in *.
  destruct (swaps_inv A d l m (gsig (length l) g) G1 G2 G3 m (le_n _)) as (L & P & U). split; [exact L|].
  intros i j Hi Hj. assert (Em : m = (n / 2 * g)%nat) by (unfold m; rewrite Hl, Nat.div_mul by lia; reflexivity).
  pose proof (Nat.div_mod n 2 ltac:(lia)) as D. pose proof (Nat.mod_upper_bound n 2 ltac:(lia)) as M.
  assert (Sg : forall i' j', (i' < n)%nat -> (j' < g)%nat -> gsig (length l) g (i' * g + j') = ((n - 1 - i') * g + j')%nat).
  { intros i' j' Hi' Hj'. unfold gsig. rewrite (Nat.add_comm (i' * g)), Nat.div_add, Nat.mod_add, Nat.div_small, Nat.mod_small by lia. rewrite Hl. cbn [Nat.add].
    replace (n * g)%nat with ((n - 1 - i') * g + (i' + 1) * g)%nat; [rewrite Nat.add_sub; reflexivity|]. rewrite <- Nat.mul_add_distr_r. f_equal. lia. }
  set (h := (n / 2)%nat) in *. destruct (Nat.lt_ge_cases i h) as [Hlt|Hge].
  - rewrite (proj1 (P (i * g + j)%nat ltac:(rewrite Em; assert ((i + 1) * g <= h * g)%nat by (apply Nat.mul_le_mono_r; lia); lia))). rewrite Sg by lia. reflexivity.
  - destruct (Nat.lt_ge_cases (n - 1 - i) h) as [Hlt2|Hge2].
    + pose proof (proj2 (P ((n - 1 - i) * g + j)%nat ltac:(rewrite Em; assert ((n - 1 - i + 1) * g <= h * g)%nat by (apply Nat.mul_le_mono_r; lia); lia))) as Q.
      rewrite Sg in Q by lia. replace (n - 1 - (n - 1 - i))%nat with i in Q by lia. exact Q.
    + rewrite U; [do 3 f_equal; lia|]. intros a Ha. assert (n - 1 - i = h /\ i = h)%nat as [E1 E2] by lia.
      rewrite Em in Ha. assert (Da : (a = a / g * g + a mod g)%nat) by (pose proof (Nat.div_mod a g ltac:(lia)); lia). pose proof (Nat.mod_upper_bound a g ltac:(lia)) as Ma.
      assert (a / g < h)%nat by (apply Nat.div_lt_upper_bound; lia). set (q := (a / g)%nat) in *. set (s := (a mod g)%nat) in *. clearbody q s. subst a.
      rewrite Sg by lia. split; [nia|]. intros E. assert ((n - 1 - q) * g >= (h + 1) * g)%nat by (apply Nat.mul_le_mono_r; lia). rewrite E2 in E. lia.
Qed.
(** it is an involution on every slice, and panics only for g = 0 *)
Theorem C25_flip_by_groups_involutive : forall (A : Type) (d : A) (l : list A) g, (0 < g)%nat ->
  exists r, flip_by_groups d l g = Some r /\ flip_by_groups d r g = Some l.
Proof.
  intros A d l g Hg. rewrite flip_groups_swaps by auto. eexists. split; [reflexivity|].
  destruct (gsig_ok (length l) g Hg) as (G1 & G2 & G3). set (m := (length l / g / 2 * g)%nat) in *.
  destruct (swaps_inv A d l m (gsig (length l) g) G1 G2 G3 m (le_n _)) as (L & _ & _).
  rewrite flip_groups_swaps, L by auto. fold m. f_equal. apply swaps_twice; auto.
Qed.
Theorem C25_flip_by_groups_zero : forall (A : Type) (d : A) (l : list A), flip_by_groups d l 0 = None.
Proof. reflexivity. Qed.
Example C25_flip_by_groups_example : flip_by_groups 0 [1; 2; 3; 4; 5; 6; 7; 8; 9; 10] 2 = Some [9; 10; 7; 8; 5; 6; 3; 4; 1; 2]. Proof. reflexivity. Qed.

(** Partition *)
Section P.
Variables (K V : Type) (eqb : K -> K -> bool).
Hypothesis eqb_ok : forall a b, eqb a b = true <-> a = b.
Lemma lookup_append (m : list (K * list V)) k v k' : lookup eqb (map_append eqb m k v) k' =
  if eqb k' k then Some (match lookup eqb m k with Some vs => vs ++ [v] | None => [v] end) else lookup eqb m k'.
Proof.
  induction m as [|[k0 vs] m IH]; cbn [map_append lookup]; [destruct (eqb k' k); reflexivity|].
  destruct (eqb k k0) eqn:E; cbn [lookup].
  - apply eqb_ok in E. subst k0. destruct (eqb k' k); reflexivity.
  - rewrite IH. destruct (eqb k' k0) eqn:E1; destruct (eqb k' k) eqn:E2; try reflexivity.
    apply eqb_ok in E1, E2. subst. assert (eqb k0 k0 = true) by (apply eqb_ok; reflexivity). congruence.
Qed.
Definition group (m : list (K * list V)) (k : K) : list V := match lookup eqb m k with Some vs => vs | None => [] end.
Lemma group_append m k v k' : group (map_append eqb m k v) k' = if eqb k' k then group m k ++ [v] else group m k'.
Proof. unfold group. rewrite lookup_append. destruct (eqb k' k); [|reflexivity]. destruct (lookup eqb m k); reflexivity. Qed.
Lemma group_inner (f : K -> V -> bool) v : forall keys m k, NoDup keys ->
  group (fold_left (fun m k => if f k v then map_append eqb m k v else m) keys m) k =
  group m k ++ (if f k v then if existsb (eqb k) keys then [v] else [] else []).
Proof.
  induction keys as [|x keys IH]; intros m k ND; cbn [fold_left existsb]; [destruct (f k v); rewrite app_nil_r; reflexivity|].
  inversion ND as [|? ? Hn ND']; subst. rewrite IH by auto.
  assert (Hx : existsb (eqb x) keys = false).
  { destruct (existsb (eqb x) keys) eqn:E; [|reflexivity]. apply existsb_exists in E. destruct E as [y [Hy E]]. apply eqb_ok in E. subst. contradiction. }
  destruct (eqb k x) eqn:E.
  - apply eqb_ok in E. subst k. rewrite Hx. cbn [orb]. destruct (f x v); [|reflexivity]. rewrite app_nil_r, group_append. rewrite (proj2 (eqb_ok x x) eq_refl). reflexivity.
  - cbn [orb]. f_equal. destruct (f x v); [|reflexivity]. rewrite group_append, E. reflexivity.
Qed.
Lemma group_outer (f : K -> V -> bool) keys : NoDup keys -> forall vs m k, In k keys ->
  group (fold_left (fun m v => fold_left (fun m k => if f k v then map_append eqb m k v else m) keys m) vs m) k = group m k ++ filter (f k) vs.
Proof.
  intros ND. induction vs as [|v vs IH]; intros m k Hk; cbn [fold_left filter]; [rewrite app_nil_r; reflexivity|].
  rewrite IH, group_inner by auto. assert (Hx : existsb (eqb k) keys = true) by (apply existsb_exists; exists k; split; [auto|apply eqb_ok; reflexivity]).
  rewrite Hx. destruct (f k v); [rewrite <- app_assoc; reflexivity|rewrite app_nil_r; reflexivity].
Qed.
End P.
(** With distinct keys the group of a key is, in order, the values the predicate accepts for it *)
Theorem C25_partition_groups : forall (K V : Type) (eqb : K -> K -> bool), (forall a b, eqb a b = true <-> a = b) ->
  forall (vs : list V) keys f k, NoDup keys -> In k keys ->
  match lookup eqb (partition eqb vs keys f) k with Some g => g | None => [] end = filter (f k) vs.
Proof. intros K V eqb H vs keys f k ND Hk. apply (group_outer K V eqb H f keys ND vs [] k Hk). Qed.
(** if every value matches exactly one key, the groups together are a permutation of the values *)
Theorem C25_partition_exact : forall (K V : Type) (eqb : K -> K -> bool), (forall a b, eqb a b = true <-> a = b) ->
  forall (vs : list V) keys f, NoDup keys ->
  (forall v, In v vs -> exists k, In k keys /\ f k v = true /\ forall k', In k' keys -> f k' v = true -> k' = k) ->
  Permutation (flat_map (fun k => match lookup eqb (partition eqb vs keys f) k with Some g => g | None => [] end) keys) vs.
Proof.
  intros K V eqb H vs keys f ND Hex.
  assert (E : flat_map (fun k => match lookup eqb (partition eqb vs keys f) k with Some g => g | None => [] end) keys = flat_map (fun k => filter (f k) vs) keys).
  { assert (G : forall ks, incl ks keys -> flat_map (fun k => match lookup eqb (partition eqb vs keys f) k with Some g => g | None => [] end) ks = flat_map (fun k => filter (f k) vs) ks).
    { induction ks as [|k ks IH]; intros Hi; [reflexivity|]. cbn [flat_map]. rewrite IH by (intros x Hx; apply Hi; right; auto).
      rewrite C25_partition_groups by (auto; apply Hi; left; reflexivity). reflexivity. }
    apply G. apply incl_refl. }
  rewrite E. clear E. induction vs as [|v vs IH]; [clear; induction keys; cbn; auto|].
  destruct (Hex v (or_introl eq_refl)) as (k & Hk & Hf & Hu). specialize (IH (fun v' Hv' => Hex v' (or_intror Hv'))).
  rewrite <- IH. clear IH Hex. revert Hk ND Hu. clear -Hf. induction keys as [|x keys IH]; intros Hk ND Hu; [destruct Hk|].
  inversion ND as [|? ? Hn ND']; subst. cbn [flat_map filter]. destruct Hk as [->|Hk].
  - rewrite Hf. cbn [app]. constructor. apply Permutation_app_head.
    assert (G : forall ks, incl ks keys -> flat_map (fun k => if f k v then v :: filter (f k) vs else filter (f k) vs) ks = flat_map (fun k => filter (f k) vs) ks).
    { induction ks as [|y ks IHk]; intros Hi; [reflexivity|]. cbn [flat_map]. rewrite IHk by (intros z Hz; apply Hi; right; auto).
      destruct (f y v) eqn:Ey; [|reflexivity]. assert (Hy : In y keys) by (apply Hi; left; reflexivity). rewrite (Hu y (or_intror Hy) Ey) in Hy. contradiction. }
    rewrite (G keys (incl_refl _)). apply Permutation_refl.
  - destruct (f x v) eqn:Ex. { rewrite (Hu x (or_introl eq_refl) Ex) in Hn. contradiction. }
    eapply Permutation_trans; [apply Permutation_app_head; apply IH; auto; intros k' Hk'; apply Hu; right; auto|]. apply Permutation_sym, Permutation_middle.
Qed.
(** with a repeated key the values of that key are duplicated *)
Theorem C25_partition_duplicate_keys_refuted : exists (vs : list nat) keys f,
  lookup Nat.eqb (partition Nat.eqb vs keys f) 7%nat = Some [1; 1]%nat /\ vs = [1]%nat.
Proof. exists [1]%nat, [7; 7]%nat, (fun _ _ => true). split; reflexivity. Qed.
Theorem C25_contains : forall (K : Type) (eqb : K -> K -> bool), (forall a b, eqb a b = true <-> a = b) ->
  forall l t, contains eqb l t = true <-> In t l.
Proof.
  intros K eqb H l t. unfold contains. rewrite existsb_exists. split.
  - intros [x [Hx E]]. apply H in E. subst. auto.
  - intros Hi. exists t. split; [auto|]. apply H. reflexivity.
Qed.
Example C25_partition_example : partition Nat.eqb [5; 2; 3; 4]%nat [0; 1]%nat (fun k v => Nat.eqb (v mod 2) k) = [(1, [5; 3]); (0, [2; 4])]%nat. Proof. reflexivity. Qed.

(** ** C26 hex *)
Definition byte (x : Z) : Prop := 0 <= x < 256.
Definition hex_char (c : Z) : Prop := 48 <= c <= 57 \/ 97 <= c <= 102 \/ 65 <= c <= 70.
Theorem C26_round_trip : forall b, Forall byte b -> hex2bytes (bytes2hex b) = b /\ hex2bytes (bytes2hex0x b) = b.
Proof.
  intros b F. assert (O : Nat.odd (length (bytes2hex b)) = false) by (rewrite bytes2hex_length, Nat.odd_mul; reflexivity).
  split; unfold hex2bytes.
  - rewrite (bytes2hex_no_0x b F), O. apply hex_decode_encode; exact F.
  - change (has_0x (bytes2hex0x b)) with true. cbv iota. change (skipn 2 (bytes2hex0x b)) with (bytes2hex b). cbv zeta. rewrite O. apply hex_decode_encode; exact F.
Qed.
(** a string of odd length is read as if a zero digit stood before it *)
Theorem C26_odd_length : forall s, Nat.odd (length s) = true -> has_0x s = false -> has_0x (48 :: s) = false -> hex2bytes s = hex2bytes (48 :: s).
Proof.
  intros s O H1 H2. unfold hex2bytes. rewrite H1, H2, O. cbn [length]. rewrite Nat.odd_succ. rewrite <- Nat.negb_odd, O. reflexivity.
Qed.
(** the prefix is optional *)
Theorem C26_prefix_optional : forall s x, x = 120 \/ x = 88 -> has_0x s = false -> hex2bytes (48 :: x :: s) = hex2bytes s.
Proof.
  intros s x Hx H. unfold hex2bytes. rewrite H. assert (E : has_0x (48 :: x :: s) = true) by (destruct Hx as [-> | ->]; reflexivity). rewrite E. reflexivity.
Qed.
Definition digit_value (c v : Z) : Prop := (48 <= c <= 57 /\ v = c - 48) \/ (97 <= c <= 102 /\ v = c - 87) \/ (65 <= c <= 70 /\ v = c - 55).
Lemma hex_val_spec c v : hex_val c = Some v <-> digit_value c v.
Proof.
  unfold hex_val, digit_value. destruct (Z.leb_spec 48 c), (Z.leb_spec c 57), (Z.leb_spec 97 c), (Z.leb_spec c 102), (Z.leb_spec 65 c), (Z.leb_spec c 70);
    cbn [andb]; split; intros HH; try (injection HH as <-); try discriminate HH; try lia; try (f_equal; lia).
Qed.
Lemma hex_val_none c : hex_val c = None <-> ~ hex_char c.
Proof.
  unfold hex_val, hex_char. destruct (Z.leb_spec 48 c), (Z.leb_spec c 57), (Z.leb_spec 97 c), (Z.leb_spec c 102), (Z.leb_spec 65 c), (Z.leb_spec c 70);
    cbn [andb]; split; intros HH; try discriminate HH; try lia; try reflexivity.
Qed.
(** upper and lower case digits: every even-length string of hex digits is decoded digit by digit *)
Theorem C26_decode_digits : forall s, Nat.even (length s) = true -> Forall hex_char s -> has_0x s = false ->
  length (hex2bytes s) = (length s / 2)%nat /\
  forall i, (2 * i + 1 < length s)%nat -> exists a b, digit_value (nth (2 * i) s 0) a /\ digit_value (nth (2 * i + 1) s 0) b /\ nth i (hex2bytes s) 0 = 16 * a + b.
Proof.
  intros s Ev F N. unfold hex2bytes. rewrite N, <- Nat.negb_even, Ev. cbn [negb]. clear N. revert Ev F. induction s as [|x|x y s IH] using pair_ind; intros Ev F.
  - split; [reflexivity|]. intros i Hi. cbn in Hi. lia.
  - discriminate Ev.
  - apply Forall_cons_iff in F. destruct F as [Fx F]. apply Forall_cons_iff in F. destruct F as [Fy F]. cbn [hex_decode].
    destruct (hex_val x) as [a|] eqn:Ea; [|apply hex_val_none in Ea; contradiction]. destruct (hex_val y) as [b|] eqn:Eb; [|apply hex_val_none in Eb; contradiction].
    destruct (IH Ev F) as [L H]. split.
    + cbn [length]. rewrite L. replace (S (S (length s))) with (length s + 1 * 2)%nat by lia. rewrite Nat.div_add by lia. lia.
    + intros [|i] Hi.
      * exists a, b. cbn [Nat.mul Nat.add nth]. split; [apply hex_val_spec; auto|]. split; [apply hex_val_spec; auto|reflexivity].
      * cbn [length] in Hi. destruct (H i ltac:(lia)) as (a' & b' & H1 & H2 & H3). exists a', b'. replace (2 * S i)%nat with (S (S (2 * i))) by lia. cbn [Nat.add nth]. auto.
Qed.
(** what an invalid digit does: everything from its byte on is dropped, silently *)
Theorem C26_malformed_truncates : forall s c t, Forall hex_char s -> Nat.even (length s) = true -> ~ hex_char c -> has_0x (s ++ c :: t) = false -> Nat.odd (length (s ++ c :: t)) = false ->
  has_0x s = false -> hex2bytes (s ++ c :: t) = hex2bytes s.
Proof.
  intros s c t F Ev Hc H0 O Hs. unfold hex2bytes. rewrite H0, O, Hs, <- Nat.negb_even, Ev. cbn [negb]. clear H0 O Hs. revert Ev F.
  induction s as [|x|x y s IH] using pair_ind; intros Ev F.
  - cbn [app hex_decode]. apply hex_val_none in Hc. destruct t; [reflexivity|]. rewrite Hc. reflexivity.
  - discriminate Ev.
  - apply Forall_cons_iff in F. destruct F as [Fx F]. apply Forall_cons_iff in F. destruct F as [Fy F]. cbn [app hex_decode]. rewrite (IH Ev F).
    destruct (hex_val x); [|reflexivity]. destruct (hex_val y); reflexivity.
Qed.
(** IsValidTxHash accepts exactly an optional 0x / 0X followed by 64 hex digits *)
Theorem C26_valid_tx_hash : forall s, is_valid_tx_hash s = true <->
  exists d, (s = d \/ s = 48 :: 120 :: d \/ s = 48 :: 88 :: d) /\ length d = 64%nat /\ Forall hex_char d.
Proof.
  assert (HC : forall d, forallb is_hex_char d = true <-> Forall hex_char d).
  { intros d. rewrite forallb_forall, Forall_forall. split; intros H x Hx; specialize (H x Hx).
    - rewrite is_hex_char_val in H. destruct (hex_val x) eqn:E; [|discriminate H]. apply hex_val_spec in E. unfold digit_value, hex_char in *. lia.
    - rewrite is_hex_char_val. destruct (hex_val x) eqn:E; [reflexivity|]. apply hex_val_none in E. contradiction. }
  assert (E64 : forall d, (Nat.eqb (length d) 64 && is_hex d)%bool = true <-> length d = 64%nat /\ Forall hex_char d).
  { intros d. unfold is_hex. rewrite !andb_true_iff, Nat.eqb_eq, HC. split; [tauto|]. intros [-> F]. auto. }
  intros s. unfold is_valid_tx_hash. destruct s as [|x s].
  - split; [discriminate|]. intros (d & [E|[E|E]] & L & _); try discriminate E. subst d. discriminate L.
  - rewrite E64. destruct (has_0x (x :: s)) eqn:H0.
    + destruct s as [|y s]; [discriminate H0|]. cbn [has_0x] in H0. apply andb_true_iff in H0. destruct H0 as [X0 Y0]. apply Z.eqb_eq in X0. apply orb_true_iff in Y0. rewrite !Z.eqb_eq in Y0. cbn [skipn]. subst x. split.
      * intros [L F]. exists s. split; [|auto]. destruct Y0 as [-> | ->]; auto.
      * intros (d & H & L & F). destruct H as [E|[E|E]].
        -- subst d. apply Forall_cons_iff in F. destruct F as [_ F]. apply Forall_cons_iff in F. destruct F as [F _]. unfold hex_char in F. lia.
        -- assert (d = s) by congruence. subst; auto.
        -- assert (d = s) by congruence. subst; auto.
    + split; [intros HH; exists (x :: s); tauto|]. intros (d & [E|[E|E]] & L & F); [subst; auto| |]; rewrite E in H0; discriminate H0.
Qed.
Lemma to_fixed_length n b : length (to_fixed n b) = n.
Proof.
  unfold to_fixed. destruct (Nat.ltb_spec n (length b)); rewrite app_length, repeat_length, ?skipn_length; lia.
Qed.
(** Hex2Addr / Hex2Hash: the value is kept modulo 256^n: last n bytes, or zero padding on the left *)
Theorem C26_fixed_width : forall s,
  (forall n, (n = 20%nat \/ n = 32%nat) -> let f := if Nat.eqb n 20 then hex2addr else hex2hash in
     length (f s) = n /\ (forall a, hex2bytes s = a -> (length a <= n)%nat -> f s = repeat 0 (n - length a) ++ a) /\
     (forall a b, hex2bytes s = a ++ b -> length b = n -> f s = b)).
Proof.
  intros s n Hn f. assert (Ef : f s = to_fixed n (hex2bytes s)) by (unfold f; destruct Hn as [-> | ->]; reflexivity). rewrite Ef. split; [apply to_fixed_length|]. split.
  - intros a -> L. unfold to_fixed. destruct (Nat.ltb_spec n (length a)); [lia|reflexivity].
  - intros a b -> L. unfold to_fixed. rewrite app_length. destruct (Nat.ltb_spec n (length a + length b)).
    + rewrite skipn_app. replace (length a + length b - n)%nat with (length a) by lia. rewrite skipn_all, Nat.sub_diag. cbn [skipn app]. replace (n - length b)%nat with 0%nat by lia. reflexivity.
    + assert (a = []) by (apply length_zero_iff_nil; lia). subst a. cbn [app]. rewrite L, Nat.sub_diag. reflexivity.
Qed.
(** Pad20Bytes / Pad32Bytes *)
Theorem C26_pad : forall n b, (length b <= n)%nat -> pad_bytes n b = Some (repeat 0 (n - length b) ++ b).
Proof.
  intros n b L. unfold pad_bytes. destruct (Nat.eqb_spec (length b) n) as [->|Hne]; [rewrite Nat.sub_diag; reflexivity|].
  rewrite (proj2 (Nat.leb_le _ _) L). reflexivity.
Qed.
Theorem C26_pad_too_long : forall n b, (n < length b)%nat -> pad_bytes n b = None.
Proof.
  intros n b L. unfold pad_bytes. rewrite (proj2 (Nat.eqb_neq _ _)) by lia. rewrite (proj2 (Nat.leb_gt _ _)) by lia. reflexivity.
Qed.
(** Hex2BigInt: the number whose base-16 digits the string lists *)
Fixpoint num16 (a : Z) (ds : list Z) : Z := match ds with [] => a | x :: r => num16 (16 * a + x) r end.
Theorem C26_bigint : forall s ds, has_0x s = false -> Forall2 digit_value s ds -> hex2bigint s = num16 0 ds.
Proof.
  assert (G : forall s ds, Nat.even (length s) = true -> Forall2 digit_value s ds -> forall a, fold_left (fun a b => 256 * a + b) (hex_decode s) a = num16 a ds).
  { induction s as [|x|x y s IH] using pair_ind; intros ds Ev F a.
    - inversion F; subst. reflexivity.
    - discriminate Ev.
    - inversion F as [|? u ? ds1 Hx F1]; subst. inversion F1 as [|? v ? ds2 Hy F2]; subst. cbn [hex_decode num16].
      apply hex_val_spec in Hx, Hy. rewrite Hx, Hy. cbn [fold_left]. rewrite (IH ds2 Ev F2). f_equal. lia. }
  intros s ds H0 F. unfold hex2bigint, be_val, hex2bytes. rewrite H0. destruct (Nat.odd (length s)) eqn:O.
  - rewrite (G (48 :: s) (0 :: ds)); [reflexivity| |constructor; [left; lia|auto]]. cbn [length]. rewrite Nat.even_succ. exact O.
  - apply G; [|exact F]. rewrite <- Nat.negb_odd, O. reflexivity.
Qed.
Example C26_hex_example : hex2bytes [48; 120; 65; 98; 99] = [10; 188] /\ bytes2hex [10; 188] = [48; 97; 98; 99]. Proof. split; reflexivity. Qed.

(** ** C27 packing *)
(** DecomposeBits(x, n) gives the n binary digits of x, least significant first; it panics when x has more *)
Theorem C27_decompose_bits : forall x n, 0 <= x ->
  (x < 2 ^ Z.of_nat n -> exists l, decompose_bits x n = Some l /\ length l = n /\ forall i, (i < n)%nat -> nth i l 0 = (x / 2 ^ Z.of_nat i) mod 2) /\
  (2 ^ Z.of_nat n <= x -> decompose_bits x n = None).
Proof.
  intros x n Hx. rewrite decompose_bits_ok by auto. split; intros H.
  - rewrite (proj2 (Z.ltb_lt _ _) H). exists (bits_le n x). split; [reflexivity|]. split; [apply bits_le_length|apply bits_le_nth].
  - rewrite (proj2 (Z.ltb_ge _ _) H). reflexivity.
Qed.
(** PackBitsToInt: different bit strings of the same length give different integers *)
Theorem C27_pack_bits_injective : forall l1 l2, Forall is_bit l1 -> Forall is_bit l2 -> length l1 = length l2 ->
  pack_bits_to_int l1 = pack_bits_to_int l2 -> l1 = l2.
Proof.
  intros l1 l2 F1 F2 L. unfold pack_bits_to_int. apply (split_every_inj Z Z 253 recompose is_bit); auto; [lia|].
  intros a b Lab La Fa Fb H. rewrite !recompose_small in H by (auto; lia). apply val_le_inj; auto.
Qed.
(** ... and each integer is a field element that fits in 253 bits *)
Theorem C27_pack_bits_range : forall l x, Forall is_bit l -> In x (pack_bits_to_int l) -> 0 <= x < 2 ^ 253.
Proof.
  intros l x F H. unfold pack_bits_to_int in H. apply in_map_iff in H. destruct H as (c & <- & Hc).
  destruct (split_every_length Z 253 l c ltac:(lia) Hc) as [L _].
  assert (Fc : Forall is_bit c) by (apply Forall_forall; intros y Hy; rewrite Forall_forall in F; apply F; eapply split_every_In; eauto).
  rewrite recompose_small by auto. pose proof (val_le_range c Fc). assert (2 ^ Z.of_nat (length c) <= 2 ^ 253) by (apply Z.pow_le_mono_r; lia). lia.
Qed.
Example C27_pack_example : pack_bits_to_int (repeat 1 254) = [2 ^ 253 - 1; 1]. Proof. vm_compute. reflexivity. Qed.

(** ParseBytes32 / Byte32ToFrBits, for every split point between 3 and 253: the parts are the low and the high bits, and
    Byte32ToFrBits gives the 256 bits of the word back *)
Theorem C27_bytes32_round_trip : forall data fr, (length data <= 32)%nat -> Forall byte data -> (3 <= fr <= 253)%nat ->
  exists v0 v1, parse_bytes32 data fr = Some (v0, v1) /\ be_val data = v0 + 2 ^ Z.of_nat fr * v1 /\
    0 <= v0 < 2 ^ Z.of_nat fr /\ 0 <= v1 < 2 ^ Z.of_nat (256 - fr) /\
    byte32_to_fr_bits v0 v1 fr = Some (bits_le 256 (be_val data)) /\
    byte32_to_bits bn254 v0 v1 fr = Some (bits_le 256 (be_val data)).
Proof.
  intros data fr L F Hfr. pose proof (be_val_range data F) as R. assert (R256 : 256 ^ Z.of_nat (length data) <= 2 ^ Z.of_nat 256).
  { replace (2 ^ Z.of_nat 256) with (256 ^ 32) by reflexivity. apply Z.pow_le_mono_r; lia. }
  unfold parse_bytes32. rewrite (proj2 (Nat.leb_le _ _) L). cbn [guard obind]. rewrite decompose_bits_ok by lia. rewrite (proj2 (Z.ltb_lt _ _)) by lia. cbn [obind].
  assert (Hle : (fr <= 256)%nat) by lia. rewrite (proj2 (Nat.leb_le _ _) Hle). cbn [guard obind]. set (x := be_val data) in *. clearbody x.
  assert (S1 : bits_le 256 x = bits_le fr x ++ bits_le (256 - fr) (x / 2 ^ Z.of_nat fr)) by (rewrite <- bits_le_app; f_equal; lia).
  assert (Ef : firstn fr (bits_le 256 x) = bits_le fr x).
  { rewrite S1, firstn_app, bits_le_length, Nat.sub_diag, firstn_O, app_nil_r. apply firstn_all2. rewrite bits_le_length. lia. }
  assert (Es : skipn fr (bits_le 256 x) = bits_le (256 - fr) (x / 2 ^ Z.of_nat fr)).
  { rewrite S1, skipn_app, bits_le_length, Nat.sub_diag. rewrite (skipn_all2 (bits_le fr x)) by (rewrite bits_le_length; lia). reflexivity. }
  rewrite Ef, Es. rewrite !recompose_small by (rewrite ?bits_le_length; auto using bits_le_Forall; lia).
  assert (P0 : 0 < 2 ^ Z.of_nat fr) by (apply Z.pow_pos_nonneg; lia).
  assert (Hhi : 0 <= x / 2 ^ Z.of_nat fr < 2 ^ Z.of_nat (256 - fr)).
  { split; [apply Z.div_pos; lia|]. apply Z.div_lt_upper_bound; [auto|]. rewrite <- Z.pow_add_r by lia. replace (Z.of_nat fr + Z.of_nat (256 - fr)) with (Z.of_nat 256) by lia. lia. }
  assert (Hlo : 0 <= x mod 2 ^ Z.of_nat fr < 2 ^ Z.of_nat fr) by (apply Z.mod_pos_bound; auto).
  rewrite val_bits_le_mod, (val_bits_le (256 - fr)) by auto.
  set (v0 := x mod 2 ^ Z.of_nat fr) in *. set (v1 := x / 2 ^ Z.of_nat fr) in *.
  assert (Eb : bits_le fr v0 = bits_le fr x) by (rewrite <- (bits_val_le (bits_le fr x)) by apply bits_le_Forall; rewrite bits_le_length, val_bits_le_mod; reflexivity).
  pose proof bn254_253 as B. assert (P1 : 2 ^ Z.of_nat fr <= 2 ^ 253) by (apply Z.pow_le_mono_r; lia). assert (P2 : 2 ^ Z.of_nat (256 - fr) <= 2 ^ 253) by (apply Z.pow_le_mono_r; lia).
  exists v0, v1. split; [reflexivity|]. split; [unfold v0, v1; pose proof (Z.div_mod x (2 ^ Z.of_nat fr)); lia|]. split; [exact Hlo|]. split; [exact Hhi|]. split.
  - unfold byte32_to_fr_bits. rewrite !decompose_bits_ok by lia. rewrite (proj2 (Z.ltb_lt v0 _)), (proj2 (Z.ltb_lt v1 _)) by lia. cbn [obind]. rewrite Eb, S1. reflexivity.
  - unfold byte32_to_bits. rewrite !to_binary_ok by (unfold felt; try reflexivity; lia). cbn [obind]. rewrite Eb, S1. reflexivity.
Qed.
(** outside of that range of split points a part can exceed the field and is silently reduced: the word is lost *)
Theorem C27_bytes32_wide_split_refuted : exists data, length data = 32%nat /\ Forall byte data /\
  parse_bytes32 data 254 = Some (0, 0) /\ be_val data <> 0 /\ byte32_to_fr_bits 0 0 254 <> Some (bits_le 256 (be_val data)).
Proof.
  exists (rev (map (fun i => (bn254 / 256 ^ Z.of_nat i) mod 256) (seq 0 32))).
  split; [reflexivity|]. split; [repeat (apply Forall_cons; [vm_compute; split; congruence|]); apply Forall_nil|].
  split; [vm_compute; reflexivity|]. split; vm_compute; discriminate.
Qed.
Theorem C27_bytes32_too_long : forall data fr, (32 < length data)%nat -> parse_bytes32 data fr = None.
Proof. intros data fr L. unfold parse_bytes32. rewrite (proj2 (Nat.leb_gt _ _)) by lia. reflexivity. Qed.
Example C27_bytes32_example : parse_bytes32 [1; 0] 8 = Some (0, 1). Proof. vm_compute. reflexivity. Qed.

(** *** recomposition to nibbles: nibble i of an n-nibble word is its i-th hex digit from the left *)
Definition hex_digits (n : nat) (x : Z) (l : list Z) : Prop := length l = n /\ forall i, (i < n)%nat -> nth i l 0 = (x / 16 ^ Z.of_nat (n - 1 - i)) mod 16.
Lemma nib_digits n x : hex_digits n x (map (nib n x) (seq 0 n)).
Proof. split; [rewrite map_length, seq_length; reflexivity|]. intros i Hi. rewrite nth_map_seq by auto. reflexivity. Qed.
(** value of limbs of w bits, most significant first *)
Fixpoint limbs_be (w : Z) (a : Z) (l : list Z) : Z := match l with [] => a | x :: r => limbs_be w (a * 2 ^ w + x) r end.
Lemma limbs_be_rev w l : forall a, 0 <= w -> limbs_be w a l = a * (2 ^ w) ^ Z.of_nat (length l) + fold_right (fun x a => x + 2 ^ w * a) 0 (rev l).
Proof.
  assert (FR : forall l y, 0 <= w -> fold_right (fun x a => x + 2 ^ w * a) 0 (l ++ [y]) = fold_right (fun x a => x + 2 ^ w * a) 0 l + (2 ^ w) ^ Z.of_nat (length l) * y).
  { intros l0 y Hw. induction l0 as [|x l0 IH]; cbn [app fold_right length]; [change ((2 ^ w) ^ Z.of_nat 0) with 1; ring|]. rewrite IH, Nat2Z.inj_succ, Z.pow_succ_r by lia. ring. }
  induction l as [|x l IH]; intros a Hw; cbn [limbs_be rev length]; [change ((2 ^ w) ^ Z.of_nat 0) with 1; cbn [fold_right]; ring|].
  rewrite IH, FR by auto. rewrite rev_length, Nat2Z.inj_succ, Z.pow_succ_r by lia. ring.
Qed.
Theorem C27_recompose_32 : forall p trunk, 16 <= p -> (0 < length trunk)%nat -> (256 mod length trunk = 0)%nat ->
  Forall (fun x => felt p x /\ x < 2 ^ Z.of_nat (256 / length trunk)) trunk ->
  exists r, recompose_32 p trunk = Some r /\ hex_digits 64 (limbs_be (Z.of_nat (256 / length trunk)) 0 trunk) r.
Proof.
  intros p trunk Hp HL HM F. unfold recompose_32. rewrite (proj2 (Nat.eqb_neq _ _)) by lia. rewrite HM. cbn [negb guard obind Nat.eqb].
  set (w := (256 / length trunk)%nat) in *. assert (Ew : (w * length trunk = 256)%nat) by (pose proof (Nat.div_mod 256 (length trunk) ltac:(lia)); unfold w; lia).
  rewrite Forall_forall in F.
  rewrite (omap_total _ _ _ (fun i => bits_le w (nth (length trunk - i - 1) trunk 0))).
  2:{ intros i Hi. apply in_seq in Hi. destruct (F (nth (length trunk - i - 1) trunk 0)) as [F1 F2]; [apply nth_In; lia|]. apply to_binary_ok; auto; lia. }
  cbn [obind]. rewrite <- (map_map (fun i => nth (length trunk - i - 1) trunk 0) (bits_le w)).
  assert (Er : map (fun i => nth (length trunk - i - 1) trunk 0) (seq 0 (length trunk)) = rev trunk).
  { apply nth_ext' with (d := 0); [rewrite map_length, seq_length, rev_length; reflexivity|]. rewrite map_length, seq_length. intros i Hi.
    rewrite nth_map_seq, rev_nth by auto. f_equal. lia. }
  rewrite Er, bits_concat. 2:{ apply Forall_forall. intros x Hx. apply in_rev in Hx. destruct (F x Hx) as [F1 F2]. unfold felt in F1. lia. }
  rewrite rev_length, Ew. eexists. split; [apply (nibbles_of_ok p 64); lia|]. rewrite limbs_be_rev by lia. rewrite Z.mul_0_l, Z.add_0_l. apply nib_digits.
Qed.
Theorem C27_recompose_32_panics : forall p trunk, (length trunk = 0 \/ 256 mod length trunk <> 0)%nat -> recompose_32 p trunk = None.
Proof.
  intros p trunk H. unfold recompose_32. destruct (Nat.eqb_spec (length trunk) 0) as [E|E]; [reflexivity|]. destruct H as [H|H]; [contradiction|].
  rewrite (proj2 (Nat.eqb_neq _ _) H). reflexivity.
Qed.
Theorem C27_recompose_6 : forall p d, 2 ^ 48 < p -> felt p d -> d < 2 ^ 48 -> exists r, recompose_6 p d = Some r /\ hex_digits 12 d r.
Proof.
  intros p d Hp Hd Hl. unfold recompose_6. rewrite to_binary_ok by (auto; lia). cbn [obind]. eexists. split; [apply (nibbles_of_ok p 12); lia|apply nib_digits].
Qed.
(** an SDK word is (low 248 bits, high 8 bits) *)
Theorem C27_recompose_sdk : forall p v0 v1, 2 ^ 248 <= p -> felt p v0 -> felt p v1 -> v0 < 2 ^ 248 -> v1 < 2 ^ 8 ->
  (exists r, recompose_sdk_nibbles p v0 v1 = Some r /\ hex_digits 64 (v0 + 2 ^ 248 * v1) r) /\
  recompose_sdk_2fr p v0 v1 = Some ((v0 + 2 ^ 248 * v1) / 2 ^ 128, (v0 + 2 ^ 248 * v1) mod 2 ^ 128).
Proof.
  intros p v0 v1 Hp F0 F1 H0 H1. unfold recompose_sdk_nibbles, recompose_sdk_2fr.
  assert (Hp2 : 2 < p) by (assert (2 ^ 3 <= 2 ^ 248) by (apply Z.pow_le_mono_r; lia); lia).
  change (2 ^ 248) with (2 ^ Z.of_nat 248) in *. change (2 ^ 8) with (2 ^ Z.of_nat 8) in *.
  rewrite !to_binary_ok by (auto; lia). cbn [obind]. set (x := v0 + 2 ^ Z.of_nat 248 * v1).
  unfold felt in *.
  assert (E : bits_le 248 v0 ++ bits_le 8 v1 = bits_le 256 x).
  { change 256%nat with (248 + 8)%nat. rewrite bits_le_app. apply f_equal2.
    - rewrite <- (bits_val_le (bits_le 248 x)) by apply bits_le_Forall. rewrite bits_le_length, val_bits_le_mod. f_equal. unfold x. rewrite Z.mul_comm, Z_mod_plus_full, Z.mod_small; lia.
    - f_equal. unfold x. rewrite Z.mul_comm, Z.div_add, Z.div_small by lia. reflexivity. }
  rewrite E. split; [eexists; split; [apply (nibbles_of_ok p 64); lia|apply nib_digits]|].
  assert (Ef : firstn 128 (bits_le 256 x) = bits_le 128 x) by (pose proof (bits_le_slice x 256 0 128 ltac:(lia)) as Q; change (2 ^ Z.of_nat 0) with 1 in Q; rewrite Z.div_1_r in Q; exact Q).
  assert (Es : skipn 128 (bits_le 256 x) = bits_le 128 (x / 2 ^ Z.of_nat 128)).
  { pose proof (bits_le_slice x 256 128 128 ltac:(lia)) as Q. rewrite firstn_all2 in Q; [exact Q|]. rewrite skipn_length, bits_le_length. lia. }
  rewrite Ef, Es. assert (2 ^ Z.of_nat 128 <= p) by (assert (2 ^ Z.of_nat 128 <= 2 ^ Z.of_nat 248) by (apply Z.pow_le_mono_r; lia); lia).
  rewrite !from_binary_ok by (rewrite ?bits_le_length; auto using bits_le_Forall). cbn [obind]. rewrite !val_bits_le_mod. f_equal. f_equal. apply Z.mod_small.
  assert (Ep : 2 ^ Z.of_nat 128 * 2 ^ Z.of_nat 128 = 2 ^ Z.of_nat 248 * 2 ^ Z.of_nat 8) by reflexivity.
  assert (Hx : 0 <= x < 2 ^ Z.of_nat 248 * 2 ^ Z.of_nat 8) by (unfold x; split; [|assert (2 ^ Z.of_nat 248 * v1 <= 2 ^ Z.of_nat 248 * (2 ^ Z.of_nat 8 - 1)) by (apply Z.mul_le_mono_nonneg_l; lia)]; lia).
  split; [apply Z.div_pos; lia|]. apply Z.div_lt_upper_bound; lia.
Qed.
Example C27_recompose_example : recompose_6 bn254 0x123456789abc = Some [1; 2; 3; 4; 5; 6; 7; 8; 9; 10; 11; 12]. Proof. vm_compute. reflexivity. Qed.

(** MiMCBlockPad0: left padding with zeros, keeping the last bytes of longer data *)
Theorem C27_mimc_pad : forall data n, let r := mimc_block_pad0 data n in length r = n /\
  ((length data <= n)%nat -> r = repeat 0 (n - length data) ++ data) /\ ((n <= length data)%nat -> r = skipn (length data - n) data).
Proof.
  intros data n r. assert (L : length r = n) by (unfold r, mimc_block_pad0; rewrite map_length, seq_length; reflexivity). split; [exact L|]. split; intros H.
  - apply nth_ext' with (d := 0); [rewrite app_length, repeat_length; lia|]. rewrite L. intros i Hi. unfold r, mimc_block_pad0. rewrite nth_map_seq by auto. cbn [Nat.add].
    destruct (Nat.ltb_spec i (n - length data)).
    + rewrite app_nth1 by (rewrite repeat_length; auto). rewrite nth_repeat. reflexivity.
    + rewrite app_nth2 by (rewrite repeat_length; auto). rewrite repeat_length. f_equal. lia.
  - apply nth_ext' with (d := 0); [rewrite skipn_length; lia|]. rewrite L. intros i Hi. unfold r, mimc_block_pad0. rewrite nth_map_seq by auto. cbn [Nat.add].
    destruct (Nat.ltb_spec i (n - length data)); [lia|]. rewrite nth_skipn'. f_equal. lia.
Qed.
(** GenerateBls12377Hash feeds different field elements to MiMC for different inputs of the same length *)
Theorem C27_bls_inputs_injective : forall a b, Forall byte a -> Forall byte b -> length a = length b -> bls_hash_inputs a = bls_hash_inputs b -> a = b.
Proof.
  assert (FB : forall a, Forall is_bit (flat_map decode_byte a)).
  { induction a as [|x a IH]; [constructor|]. cbn [flat_map]. apply Forall_app. split; [|exact IH]. rewrite decode_byte_ok. apply Forall_rev, bits_le_Forall. }
  assert (FL : forall a, length (flat_map decode_byte a) = (8 * length a)%nat).
  { induction a as [|x a IH]; [reflexivity|]. cbn [flat_map length]. rewrite app_length, IH, decode_byte_ok, rev_length, bits_le_length. lia. }
  intros a b Fa Fb L H. unfold bls_hash_inputs in H. apply (split_every_inj Z Z 253 (fun c => bits_to_fr c bn254) is_bit) in H; auto; try lia.
  - clear -Fa Fb L H. revert b Fb L H. induction Fa as [|x a Hx Fa IH]; intros b Fb L H; destruct Fb as [|y b Hy Fb]; try discriminate L; [reflexivity|].
    cbn [flat_map] in H. assert (H1 : decode_byte x = decode_byte y /\ flat_map decode_byte a = flat_map decode_byte b).
    { assert (Ld : length (decode_byte x) = length (decode_byte y)) by (rewrite !decode_byte_ok, !rev_length, !bits_le_length; reflexivity).
      split; [apply (f_equal (firstn (length (decode_byte x)))) in H; rewrite Ld in H at 2; rewrite !firstn_app, !firstn_all, !Nat.sub_diag, !firstn_O, !app_nil_r in H; exact H|].
      apply (f_equal (skipn (length (decode_byte x)))) in H. rewrite Ld in H at 2. rewrite !skipn_app, !skipn_all, !Nat.sub_diag in H. exact H. }
    destruct H1 as [H1 H2]. rewrite !decode_byte_ok in H1. assert (E : bits_le 8 x = bits_le 8 y) by (rewrite <- (rev_involutive (bits_le 8 x)), H1, rev_involutive; reflexivity).
    unfold byte in *. rewrite <- (val_bits_le 8 x), <- (val_bits_le 8 y), E by (change (2 ^ Z.of_nat 8) with 256; lia). rewrite (IH b) by auto. reflexivity.
  - intros c e Lc Lc2 Fc Fe E. pose proof bn254_253 as B.
    destruct (bits_to_fr_ok c bn254 ltac:(lia)) as (_ & _ & X1). destruct (bits_to_fr_ok e bn254 ltac:(lia)) as (_ & _ & X2).
    assert (Rc : set_bits c < 2 ^ 253) by (pose proof (set_bits_range c); assert (2 ^ Z.of_nat (length c) <= 2 ^ 253) by (apply Z.pow_le_mono_r; lia); lia).
    assert (Re : set_bits e < 2 ^ 253) by (pose proof (set_bits_range e); assert (2 ^ Z.of_nat (length e) <= 2 ^ 253) by (apply Z.pow_le_mono_r; lia); lia).
    rewrite X1, X2 in E by lia. apply set_bits_inj; auto.
  - rewrite !FL. lia.
Qed.
(** PackBitsToFr in the circuit: the chunks of 253 bits, as numbers; with BN254 no chunk wraps *)
Theorem C27_pack_bits_to_fr : forall bits, Forall is_bit bits -> pack_bits_to_fr bn254 bits = Some (pack_bits_to_int bits).
Proof.
  intros bits F. unfold pack_bits_to_fr, pack_bits_to_int. replace (field_bits bn254 - 1)%nat with 253%nat by (vm_compute; reflexivity).
  apply omap_total. intros c Hc. destruct (split_every_length Z 253 bits c ltac:(lia) Hc) as [L _].
  assert (Fc : Forall is_bit c) by (apply Forall_forall; intros y Hy; rewrite Forall_forall in F; apply F; eapply split_every_In; eauto).
  rewrite recompose_small by auto. apply from_binary_ok; auto; [reflexivity|]. pose proof bn254_253. assert (2 ^ Z.of_nat (length c) <= 2 ^ 253) by (apply Z.pow_le_mono_r; lia). lia.
Qed.

(** ** C28 BitsToFrBigInt: congruent to the value of the bits (most significant first), between 0 and m included, and
    exact whenever the value does not exceed m *)
Definition bits_value (b : list Z) : Z := fold_left (fun a x => 2 * a + (if x =? 0 then 0 else 1)) b 0.
Theorem C28_bits_to_fr : forall b m, 0 < m -> bits_to_fr b m mod m = bits_value b mod m /\ 0 <= bits_to_fr b m <= m /\ (bits_value b <= m -> bits_to_fr b m = bits_value b).
Proof. exact bits_to_fr_ok. Qed.
(** the result is canonical for up to 253 bits ... *)
Theorem C28_canonical_253 : forall b, (length b <= 253)%nat -> 0 <= bits_to_fr b bn254 < bn254 /\ bits_to_fr b bn254 = bits_value b.
Proof.
  intros b L. pose proof bn254_253 as B. destruct (bits_to_fr_ok b bn254 ltac:(lia)) as (_ & _ & X). pose proof (set_bits_range b) as R.
  assert (2 ^ Z.of_nat (length b) <= 2 ^ 253) by (apply Z.pow_le_mono_r; lia). unfold bits_value. fold (set_bits b). rewrite X by lia. lia.
Qed.
(** ... but not for every string: the modulus itself is returned as is *)
Theorem C28_canonical_refuted : exists b, length b = 254%nat /\ Forall is_bit b /\ bits_to_fr b bn254 = bn254.
Proof.
  exists (rev (bits_le 254 bn254)). split; [reflexivity|]. split; [apply Forall_rev, bits_le_Forall|]. vm_compute. reflexivity.
Qed.
Theorem C28_decode_byte : forall x, length (decode_byte x) = 8%nat /\ forall i, (i < 8)%nat -> nth i (decode_byte x) 0 = (x / 2 ^ Z.of_nat (7 - i)) mod 2.
Proof.
  intros x. rewrite decode_byte_ok. split; [rewrite rev_length, bits_le_length; reflexivity|]. intros i Hi. rewrite rev_nth by (rewrite bits_le_length; lia). rewrite bits_le_length, bits_le_nth by lia. reflexivity.
Qed.
Example C28_example : bits_to_fr [1; 0; 1; 1] 7 = 4. Proof. reflexivity. Qed.

(** ** C29 start blocks: the index is always the floor of BlockNumber / 128, the chain id is echoed, and unknown chains
    get block 0 instead of an error *)
Theorem C29_index_is_floor : forall c, let '(b, i, c') := start_block_info c in i = b / 128 /\ c' = c /\ 0 <= b.
Proof. intros c. unfold start_block_info. destruct (c =? 42161), (c =? 10), (c =? 97), (c =? 56); split; try reflexivity; split; try reflexivity; lia. Qed.
Theorem C29_aligned : forall c, c = 42161 \/ c = 10 -> let '(b, i, _) := start_block_info c in b = 128 * i /\ 0 < b.
Proof. intros c [-> | ->]; split; reflexivity. Qed.
Theorem C29_unknown : forall c, c <> 42161 -> c <> 10 -> c <> 97 -> c <> 56 -> start_block_info c = (0, 0, c).
Proof.
  intros c H1 H2 H3 H4. unfold start_block_info. rewrite (proj2 (Z.eqb_neq c 42161)), (proj2 (Z.eqb_neq c 10)), (proj2 (Z.eqb_neq c 97)), (proj2 (Z.eqb_neq c 56)) by auto. reflexivity.
Qed.
Theorem C29_alignment_refuted : (let '(b, i, _) := start_block_info 97 in b = 128 * i + 56) /\ (let '(b, i, _) := start_block_info 56 in b = 128 * i + 88).
Proof. split; reflexivity. Qed.

(** ** C42 grouping of bits.  A group of bits b_0, b_1, ... has the value sum b_k 2^k ([val_le]). *)
Definition bit_at (bits : list Z) (i : nat) : Z := nth i bits 0.
Definition byte_val (f : nat -> Z) : Z := f 0%nat + 2 * f 1%nat + 4 * f 2%nat + 8 * f 3%nat + 16 * f 4%nat + 32 * f 5%nat + 64 * f 6%nat + 128 * f 7%nat.
Lemma list8 (l : list Z) : length l = 8%nat -> val_le l = byte_val (fun k => nth k l 0).
Proof. destruct l as [|a [|b [|c [|d [|e [|f [|g [|h [|]]]]]]]]]; try discriminate. intros _. unfold byte_val. cbn [val_le nth]. lia. Qed.
Lemma slice_bits n k (bits : list Z) : Forall is_bit bits -> Forall is_bit (firstn n (skipn k bits)).
Proof. intros F. apply Forall_forall. intros x Hx. rewrite Forall_forall in F. apply F. rewrite <- (firstn_skipn k bits). apply in_or_app. right. rewrite <- (firstn_skipn n (skipn k bits)). apply in_or_app. auto. Qed.
Lemma div8 n (bits : list Z) : length bits = (8 * n)%nat -> (length bits mod 8 = 0)%nat /\ (length bits / 8 = n)%nat.
Proof. intros ->. rewrite Nat.mul_comm, Nat.mod_mul, Nat.div_mul by lia. auto. Qed.
(** Bits2Bytes: byte i has the value of bits 8i .. 8i+7, least significant first *)
Theorem C42_bits2bytes : forall p bits n, 256 <= p -> Forall is_bit bits -> length bits = (8 * n)%nat ->
  exists r, bits2bytes p bits = Some r /\ length r = n /\ forall i, (i < n)%nat -> nth i r 0 = byte_val (fun k => bit_at bits (8 * i + k)).
Proof.
  intros p bits n Hp F L. unfold bits2bytes. destruct (div8 n bits L) as [E1 E2]. rewrite E1, E2. cbn [Nat.eqb guard obind].
  assert (LG : forall i, (i < n)%nat -> length (firstn 8 (skipn (8 * i) bits)) = 8%nat) by (intros i Hi; rewrite firstn_length, skipn_length; lia).
  exists (map (fun i => val_le (firstn 8 (skipn (8 * i) bits))) (seq 0 n)). split.
  - apply omap_total. intros i Hi. apply in_seq in Hi. apply from_binary_ok; [lia|apply slice_bits; auto|]. rewrite LG by lia. exact Hp.
  - split; [rewrite map_length, seq_length; reflexivity|]. intros i Hi. rewrite nth_map_seq by auto. cbn [Nat.add]. rewrite list8 by auto. unfold byte_val, bit_at.
    rewrite !nth_firstn', !nth_skipn' by lia. reflexivity.
Qed.
(** Bits2Bytes2: the same groups, most significant bit first *)
Theorem C42_bits2bytes2 : forall p bits n, 256 <= p -> Forall is_bit bits -> length bits = (8 * n)%nat ->
  exists r, bits2bytes2 p bits = Some r /\ length r = n /\ forall i, (i < n)%nat -> nth i r 0 = byte_val (fun k => bit_at bits (8 * i + (7 - k))).
Proof.
  intros p bits n Hp F L. unfold bits2bytes2. destruct (div8 n bits L) as [E1 E2]. rewrite E1, E2. cbn [Nat.eqb guard obind].
  assert (LG : forall i, (i < n)%nat -> length (firstn 8 (skipn (8 * i) bits)) = 8%nat) by (intros i Hi; rewrite firstn_length, skipn_length; lia).
  exists (map (fun i => val_le (rev (firstn 8 (skipn (8 * i) bits)))) (seq 0 n)). split.
  - apply omap_total. intros i Hi. apply in_seq in Hi. rewrite flip_spec. apply from_binary_ok; [lia|apply Forall_rev, slice_bits; auto|]. rewrite rev_length, LG by lia. exact Hp.
  - split; [rewrite map_length, seq_length; reflexivity|]. intros i Hi. rewrite nth_map_seq by auto. cbn [Nat.add]. rewrite list8 by (rewrite rev_length; auto). unfold byte_val, bit_at.
    rewrite !rev_nth by (rewrite LG; auto; lia). rewrite LG by auto. rewrite !nth_firstn', !nth_skipn' by lia. reflexivity.
Qed.
(** Bits2BytesArray: the bytes of Bits2Bytes, last one first *)
Theorem C42_bits2bytes_array : forall p bits n, 256 <= p -> Forall is_bit bits -> length bits = (8 * n)%nat ->
  exists r, bits2bytes_array p bits = Some r /\ length r = n /\ forall i, (i < n)%nat -> nth i r 0 = byte_val (fun k => bit_at bits (8 * (n - 1 - i) + k)).
Proof.
  intros p bits n Hp F L. unfold bits2bytes_array. destruct (div8 n bits L) as [E1 E2]. rewrite E1, E2. cbn [Nat.eqb guard obind].
  assert (LG : forall i, (i < n)%nat -> length (firstn 8 (skipn (length bits - 8 * i - 8) bits)) = 8%nat) by (intros i Hi; rewrite firstn_length, skipn_length; lia).
  exists (map (fun i => val_le (firstn 8 (skipn (length bits - 8 * i - 8) bits))) (seq 0 n)). split.
  - apply omap_total. intros i Hi. apply in_seq in Hi. apply from_binary_ok; [lia|apply slice_bits; auto|]. rewrite LG by lia. exact Hp.
  - split; [rewrite map_length, seq_length; reflexivity|]. intros i Hi. rewrite nth_map_seq by auto. cbn [Nat.add]. rewrite list8 by auto. unfold byte_val, bit_at.
    rewrite !nth_firstn', !nth_skipn' by lia. replace (length bits - 8 * i - 8)%nat with (8 * (n - 1 - i))%nat by lia. reflexivity.
Qed.
(** all three panic on a length that is not a multiple of 8 and reject entries that are not bits *)
Theorem C42_bits2bytes_panics : forall p bits, (length bits mod 8 <> 0)%nat -> bits2bytes p bits = None /\ bits2bytes2 p bits = None /\ bits2bytes_array p bits = None.
Proof. intros p bits H. unfold bits2bytes, bits2bytes2, bits2bytes_array. rewrite (proj2 (Nat.eqb_neq _ _) H). auto. Qed.
Theorem C42_bits2bytes_rejects : forall p bits, 2 < p -> Forall (felt p) bits -> bits2bytes p bits <> None -> Forall is_bit bits.
Proof.
  intros p bits Hp F H. unfold bits2bytes in H. destruct (Nat.eqb_spec (length bits mod 8) 0) as [E|E]; [|cbn in H; congruence]. cbn [guard obind] in H.
  destruct (omap _ _) as [r|] eqn:R; [|congruence]. clear H. apply Forall_forall. intros x Hx. destruct (In_nth bits x 0 Hx) as [j [Hj <-]].
  pose proof (Nat.div_mod (length bits) 8 ltac:(lia)) as D. pose proof (Nat.div_mod j 8 ltac:(lia)) as Dj. pose proof (Nat.mod_upper_bound j 8 ltac:(lia)) as Mj.
  assert (Hi : (j / 8 < length bits / 8)%nat) by (apply Nat.div_lt_upper_bound; lia).
  destruct (from_binary p (firstn 8 (skipn (8 * (j / 8)) bits))) as [v|] eqn:V.
  - unfold from_binary in V. apply obind_Some in V. destruct V as [u [V _]].
    assert (Hin : In (nth j bits 0) (firstn 8 (skipn (8 * (j / 8)) bits))).
    { replace (nth j bits 0) with (nth (j mod 8) (firstn 8 (skipn (8 * (j / 8)) bits)) 0) by (rewrite nth_firstn', nth_skipn' by lia; f_equal; lia). apply nth_In. rewrite firstn_length, skipn_length. lia. }
    destruct (assert_bool p (nth j bits 0)) as [[]|] eqn:A; [|rewrite (omap_None _ _ _ _ _ Hin A) in V; discriminate V]. apply assert_bool_iff in A; auto.
    rewrite Forall_forall in F. apply F. exact Hx.
  - rewrite (omap_None _ _ _ _ (j / 8)%nat) in R; [discriminate R| |exact V]. apply in_seq. lia.
Qed.
(** Bits2Uint128s reads 256 bits, grouped in 32 bytes least significant bit first, as two big-endian 128-bit numbers *)
Fixpoint be_bytes (a : Z) (l : list Z) : Z := match l with [] => a | x :: r => be_bytes (256 * a + x) r end.
Lemma val_le_rev_chunks : forall n l a, length l = (n * 8)%nat -> val_le (rev (flat_map (@rev Z) (chunks n 8 l)) ) + a * 2 ^ Z.of_nat (n * 8) = be_bytes a (map val_le (chunks n 8 l)).
Proof.
  induction n as [|n IH]; intros l a L; cbn [chunks flat_map map be_bytes]; [change (rev []) with (@nil Z); change (val_le []) with 0; change (2 ^ Z.of_nat (0 * 8)) with 1; lia|].
  rewrite <- IH by (rewrite skipn_length; lia). rewrite rev_app_distr, rev_involutive, val_le_app, rev_length, flat_map_rev_length by (rewrite skipn_length; lia).
  replace (Z.of_nat (S n * 8)) with (8 + Z.of_nat (n * 8)) by lia. rewrite Z.pow_add_r by lia. change (2 ^ 8) with 256. ring.
Qed.
Lemma chunks_split A n m c : forall l : list A, length l = ((n + m) * c)%nat -> chunks (n + m) c l = chunks n c (firstn (n * c) l) ++ chunks m c (skipn (n * c) l).
Proof.
  intros l L. rewrite <- (firstn_skipn (n * c) l) at 1. apply chunks_app. rewrite firstn_length. lia.
Qed.
Theorem C42_bits2uint128s : forall p bits, 2 ^ 128 <= p -> Forall is_bit bits -> length bits = 256%nat ->
  bits2uint128s p bits = Some (be_bytes 0 (map (fun i => byte_val (fun k => bit_at bits (8 * i + k))) (seq 0 16)),
                               be_bytes 0 (map (fun i => byte_val (fun k => bit_at bits (8 * i + k))) (seq 16 16))).
Proof.
  intros p bits Hp F L. unfold bits2uint128s. rewrite (flip_sub_spec Z 0 (16 + 16) 8) by (rewrite ?L; lia). cbn [obind].
  rewrite chunks_split by (rewrite L; reflexivity). rewrite flat_map_app. change (16 * 8)%nat with 128%nat.
  assert (L1 : length (firstn 128 bits) = (16 * 8)%nat) by (rewrite firstn_length, L; reflexivity). assert (L2 : length (skipn 128 bits) = (16 * 8)%nat) by (rewrite skipn_length, L; reflexivity).
  pose proof (flat_map_rev_length Z 16 8 _ L1) as M1. pose proof (flat_map_rev_length Z 16 8 _ L2) as M2.
  set (h1 := flat_map _ (chunks 16 8 (firstn 128 bits))) in *. set (h2 := flat_map _ (chunks 16 8 (skipn 128 bits))) in *.
  assert (Ef : firstn 128 (h1 ++ h2) = h1) by (rewrite firstn_app, M1; change (128 - 16 * 8)%nat with 0%nat; rewrite firstn_O, app_nil_r; apply firstn_all2; rewrite M1; reflexivity).
  assert (Es : skipn 128 (h1 ++ h2) = h2) by (rewrite skipn_app, M1; change (128 - 16 * 8)%nat with 0%nat; rewrite skipn_all2 by (rewrite M1; reflexivity); reflexivity).
  rewrite Ef, Es, !flip_spec.
  assert (FC : forall n l, Forall is_bit l -> Forall is_bit (flat_map (@rev Z) (chunks n 8 l))).
  { induction n as [|n IH]; intros l Fl; [constructor|]. cbn [chunks flat_map]. rewrite <- (firstn_skipn 8 l) in Fl. apply Forall_app in Fl. apply Forall_app. split; [apply Forall_rev; tauto|apply IH; tauto]. }
  assert (F12 : Forall is_bit (firstn 128 bits) /\ Forall is_bit (skipn 128 bits)) by (apply Forall_app; rewrite firstn_skipn; auto).
  rewrite !from_binary_ok; try (assert (2 ^ 3 <= 2 ^ 128) by (apply Z.pow_le_mono_r; lia); lia); try (apply Forall_rev, FC; tauto); try (rewrite rev_length, ?M1, ?M2; exact Hp).
  cbn [obind].
  pose proof (val_le_rev_chunks 16 _ 0 L1) as V1. pose proof (val_le_rev_chunks 16 _ 0 L2) as V2. rewrite Z.mul_0_l, Z.add_0_r in V1, V2. fold h1 in V1. fold h2 in V2. rewrite V1, V2.
  assert (CH : forall off n l, length l = (n * 8)%nat -> (forall i, (i < n * 8)%nat -> nth i l 0 = bit_at bits (off * 8 + i)) ->
     map val_le (chunks n 8 l) = map (fun i => byte_val (fun k => bit_at bits (8 * i + k))) (seq off n)).
  { intros off n. revert off. induction n as [|n IH]; intros off l Ll Hl; [reflexivity|]. cbn [chunks map seq]. apply f_equal2.
    - rewrite list8 by (rewrite firstn_length; lia). unfold byte_val. rewrite !nth_firstn' by lia. rewrite !Hl by lia. rewrite (Nat.mul_comm 8 off). reflexivity.
    - apply IH; [rewrite skipn_length; lia|]. intros i Hi. rewrite nth_skipn', Hl by lia. f_equal. lia. }
  rewrite (CH 0%nat 16%nat _ L1), (CH 16%nat 16%nat _ L2); [reflexivity| |].
  - intros i Hi. rewrite nth_skipn'. reflexivity.
  - intros i Hi. rewrite nth_firstn' by lia. reflexivity.
Qed.
(** Bits2Nibbles cannot be used: it passes each group of bits as one variable *)
Theorem C42_bits2nibbles_refuted : forall bits, bits <> [] -> bits2nibbles bits = None.
Proof. intros [|]; [congruence|reflexivity]. Qed.
Example C42_example : bits2bytes bn254 [1; 0; 0; 0; 0; 0; 0; 0; 0; 1; 0; 0; 0; 0; 0; 1] = Some [1; 130] /\ bits2bytes2 bn254 [1; 0; 0; 0; 0; 0; 0; 0; 0; 1; 0; 0; 0; 0; 0; 1] = Some [128; 65].
Proof. split; vm_compute; reflexivity. Qed.
