(** * Props_Merkle.v — C34, C35: Merkle paths and roots *)
From Coq Require Import ZArith List Bool Arith Lia.
From Verif Require Import Field FieldLemmas RlpUtilModel RlpUtilProofs KeccakModel KeccakSpec KeccakProofs MerkleModel Props_Keccak.
Import ListNotations.
Open Scope Z_scope.
Open Scope circ_scope.

(** ** Specification *)
(** Climbing a path: at each level the value is the left child when the bit is 0 and the right child when it is 1. *)
Fixpoint climb {N : Type} (h : N -> N -> N) (v : N) (path : list (Z * N)) : N :=
  match path with
  | [] => v
  | (b, s) :: r => climb h (if b =? 0 then h v s else h s v) r
  end.
(** Root of a perfect binary tree of depth d over 2^d leaves *)
Fixpoint tree_root {N : Type} (h : N -> N -> N) (dflt : N) (d : nat) (leaves : list N) : N :=
  match d with
  | O => nth 0 leaves dflt
  | S k => h (tree_root h dflt k (firstn (2 ^ k) leaves)) (tree_root h dflt k (skipn (2 ^ k) leaves))
  end.
(** the subtree of depth k number j, and the path of leaf i: at level k the other child of the parent of the ancestor of i *)
Definition subtree {N : Type} (h : N -> N -> N) (dflt : N) (leaves : list N) (k j : nat) : N := tree_root h dflt k (firstn (2 ^ k) (skipn (j * 2 ^ k) leaves)).
Definition sibling (j : nat) : nat := if Nat.even j then j + 1 else j - 1.
Definition leaf_path {N : Type} (h : N -> N -> N) (dflt : N) (leaves : list N) (d i : nat) : list (Z * N) :=
  map (fun k => (Z.of_nat ((i / 2 ^ k) mod 2), subtree h dflt leaves k (sibling (i / 2 ^ k)))) (seq 0 d).

(** ** Facts about the specification *)
Lemma subtree_node {N} (h : N -> N -> N) dflt leaves k j : (length leaves >= (j + 1) * 2 ^ S k)%nat ->
  subtree h dflt leaves (S k) j = h (subtree h dflt leaves k (2 * j)) (subtree h dflt leaves k (2 * j + 1)).
Proof.
  intros L. unfold subtree. cbn [tree_root]. assert (P : (2 ^ S k = 2 * 2 ^ k)%nat) by reflexivity. set (w := (2 ^ k)%nat) in *. rewrite P in *. clearbody w.
  replace (j * (2 * w))%nat with (2 * j * w)%nat by lia. apply f_equal2; f_equal.
  - rewrite firstn_firstn. f_equal. lia.
  - rewrite skipn_firstn_comm. f_equal; [lia|]. clear. replace ((2 * j + 1) * w)%nat with (w + 2 * j * w)%nat by lia. generalize (2 * j * w)%nat as a. intros a.
    revert leaves. induction a as [|a IH]; intros leaves; [rewrite Nat.add_0_r; reflexivity|]. destruct leaves as [|x leaves].
    + rewrite !skipn_nil. reflexivity.
    + replace (w + S a)%nat with (S (w + a)) by lia. cbn [skipn]. apply IH.
Qed.
Lemma climb_app {N} (h : N -> N -> N) v a b : climb h v (a ++ b) = climb h (climb h v a) b.
Proof. revert v. induction a as [|[x s] a IH]; intros v; [reflexivity|]. cbn [app climb]. apply IH. Qed.
Lemma path_climb {N} (h : N -> N -> N) dflt leaves d i : length leaves = (2 ^ d)%nat -> (i < 2 ^ d)%nat ->
  forall k, (k <= d)%nat -> climb h (nth i leaves dflt) (firstn k (leaf_path h dflt leaves d i)) = subtree h dflt leaves k (i / 2 ^ k).
Proof.
  intros L Hi. induction k as [|k IH]; intros Hk.
  - cbn [firstn climb]. unfold subtree. cbn [tree_root Nat.pow]. rewrite Nat.div_1_r, Nat.mul_1_r. rewrite nth_firstn', nth_skipn' by lia. f_equal. lia.
  - assert (Lp : length (leaf_path h dflt leaves d i) = d) by (unfold leaf_path; rewrite map_length, seq_length; reflexivity).
    assert (E : firstn (S k) (leaf_path h dflt leaves d i) = firstn k (leaf_path h dflt leaves d i) ++ [(Z.of_nat ((i / 2 ^ k) mod 2), subtree h dflt leaves k (sibling (i / 2 ^ k)))]).
    { apply nth_ext' with (d := (0, dflt)); [rewrite app_length, !firstn_length, Lp; cbn [length]; lia|]. rewrite firstn_length, Lp, Nat.min_l by lia. intros j Hj.
      rewrite nth_firstn' by lia. destruct (Nat.lt_ge_cases j k) as [Hlt|Hge].
      - rewrite app_nth1 by (rewrite firstn_length; lia). rewrite nth_firstn' by lia. reflexivity.
      - assert (j = k) by lia. subst j. rewrite app_nth2; rewrite firstn_length, Lp, Nat.min_l by lia; [|lia]. rewrite Nat.sub_diag. unfold leaf_path. rewrite nth_map_seq by lia. reflexivity. }
    rewrite E, climb_app, IH by lia. cbn [climb]. set (j := (i / 2 ^ k)%nat).
    assert (Ej : (i / 2 ^ S k = j / 2)%nat) by (unfold j; rewrite Nat.div_div; [f_equal; cbn [Nat.pow]; lia|apply Nat.pow_nonzero; lia|lia]).
    assert (Pk : (2 ^ S k <> 0)%nat) by (apply Nat.pow_nonzero; lia).
    assert (Hj : ((j / 2 + 1) * 2 ^ S k <= 2 ^ d)%nat).
    { rewrite <- Ej. assert (Pd : (2 ^ d = 2 ^ (d - S k) * 2 ^ S k)%nat) by (rewrite <- Nat.pow_add_r; f_equal; lia).
      assert (i / 2 ^ S k < 2 ^ (d - S k))%nat by (apply Nat.div_lt_upper_bound; [auto|]; rewrite Nat.mul_comm, <- Pd; exact Hi).
      rewrite Pd. apply Nat.mul_le_mono_r. lia. }
    rewrite Ej, subtree_node by lia. pose proof (Nat.div_mod j 2 ltac:(lia)) as D. pose proof (Nat.mod_upper_bound j 2 ltac:(lia)) as M.
    unfold sibling. destruct (Nat.even j) eqn:Ev.
    + apply Nat.even_spec in Ev. destruct Ev as [q Eq]. assert (j mod 2 = 0)%nat by (rewrite Eq, Nat.mul_comm, Nat.mod_mul; lia). rewrite H. cbn [Z.of_nat Z.eqb].
      replace (2 * (j / 2))%nat with j by lia. reflexivity.
    + rewrite <- Nat.negb_odd in Ev. apply negb_false_iff in Ev. apply Nat.odd_spec in Ev. destruct Ev as [q Eq].
      assert (j mod 2 = 1)%nat by lia. rewrite H. change (Z.of_nat 1 =? 0) with false. cbv iota. replace (2 * (j / 2))%nat with (j - 1)%nat by lia. replace (j - 1 + 1)%nat with j by lia. reflexivity.
Qed.
Lemma path_climb_root {N} (h : N -> N -> N) dflt leaves d i : length leaves = (2 ^ d)%nat -> (i < 2 ^ d)%nat ->
  climb h (nth i leaves dflt) (leaf_path h dflt leaves d i) = tree_root h dflt d leaves.
Proof.
  intros L Hi. pose proof (path_climb h dflt leaves d i L Hi d (le_n _)) as E. rewrite firstn_all2 in E by (unfold leaf_path; rewrite map_length, seq_length; lia).
  rewrite E. unfold subtree. rewrite Nat.div_small by auto. cbn [Nat.mul skipn]. rewrite firstn_all2 by lia. reflexivity.
Qed.
(** The pairs that are hashed on the way up, and those of a whole tree: binding is stated relative to the absence of a
    collision among them (no hash into a finite field is injective on all inputs). *)
Fixpoint climb_pairs {N : Type} (h : N -> N -> N) (v : N) (path : list (Z * N)) : list (N * N) :=
  match path with
  | [] => []
  | (b, s) :: r => let x := if b =? 0 then (v, s) else (s, v) in x :: climb_pairs h (h (fst x) (snd x)) r
  end.
Fixpoint tree_pairs {N : Type} (h : N -> N -> N) (dflt : N) (d : nat) (leaves : list N) : list (N * N) :=
  match d with
  | O => []
  | S k => (tree_root h dflt k (firstn (2 ^ k) leaves), tree_root h dflt k (skipn (2 ^ k) leaves)) ::
           tree_pairs h dflt k (firstn (2 ^ k) leaves) ++ tree_pairs h dflt k (skipn (2 ^ k) leaves)
  end.
Definition no_collision {N : Type} (h : N -> N -> N) (l1 l2 : list (N * N)) : Prop :=
  forall x y, In x l1 -> In y l2 -> h (fst x) (snd x) = h (fst y) (snd y) -> x = y.
Lemma tree_root_inj {N} (h : N -> N -> N) dflt :
  forall d l1 l2, no_collision h (tree_pairs h dflt d l1) (tree_pairs h dflt d l2) -> length l1 = (2 ^ d)%nat -> length l2 = (2 ^ d)%nat -> tree_root h dflt d l1 = tree_root h dflt d l2 -> l1 = l2.
Proof.
  induction d as [|d IH]; intros l1 l2 NC L1 L2 E.
  - destruct l1 as [|x [|]], l2 as [|y [|]]; try discriminate. cbn in E. congruence.
  - cbn [tree_root] in E. cbn [tree_pairs] in NC. pose proof (NC _ _ (or_introl eq_refl) (or_introl eq_refl) E) as P. cbn [Nat.pow] in L1, L2. set (w := (2 ^ d)%nat) in *.
    assert (E1 : tree_root h dflt d (firstn w l1) = tree_root h dflt d (firstn w l2)) by congruence. assert (E2 : tree_root h dflt d (skipn w l1) = tree_root h dflt d (skipn w l2)) by congruence.
    apply IH in E1; try (rewrite firstn_length; lia); [|intros x y Hx Hy; apply NC; right; apply in_or_app; auto].
    apply IH in E2; try (rewrite skipn_length; lia); [|intros x y Hx Hy; apply NC; right; apply in_or_app; auto].
    rewrite <- (firstn_skipn w l1), <- (firstn_skipn w l2), E1, E2. reflexivity.
Qed.
Lemma climb_binding {N} (h : N -> N -> N) :
  forall p1 p2 v1 v2, no_collision h (climb_pairs h v1 p1) (climb_pairs h v2 p2) -> map fst p1 = map fst p2 -> climb h v1 p1 = climb h v2 p2 -> v1 = v2 /\ p1 = p2.
Proof.
  induction p1 as [|[b s] p1 IH]; intros [|[b' s'] p2] v1 v2 NC M E; try discriminate M; [auto|]. cbn [map fst] in M. assert (b = b') by congruence. subst b'.
  cbn [climb climb_pairs] in E, NC. 
  assert (X : forall v s0, h (fst (if b =? 0 then (v, s0) else (s0, v))) (snd (if b =? 0 then (v, s0) else (s0, v))) = if b =? 0 then h v s0 else h s0 v) by (intros; destruct (b =? 0); reflexivity).
  apply IH in E; [|intros x y Hx Hy; apply NC; right; rewrite X; assumption|congruence]. destruct E as [E ->].
  assert (Q : (if b =? 0 then (v1, s) else (s, v1)) = (if b =? 0 then (v2, s') else (s', v2))) by (apply NC; [left; reflexivity|left; reflexivity|rewrite !X; exact E]).
  destruct (b =? 0); injection Q as -> ->; auto.
Qed.

(** ** C34, paths *)
Lemma hash_on_index_ok p H v0 v1 i : 2 < p -> (forall l, felt p (H l)) -> felt p i ->
  mimc_hash_on_index p H v0 v1 i = if i =? 0 then Some (H [v0; v1]) else if i =? 1 then Some (H [v1; v0]) else None.
Proof.
  intros Hp HF Hi. unfold mimc_hash_on_index. rewrite r_mux1_ok; auto; [|intros x [<-|[<-|[]]]; apply HF]. unfold assert_le. unfold felt in Hi. rewrite !Z.mod_small by lia.
  destruct (Z.eqb_spec i 0) as [->|N0]; [reflexivity|]. destruct (Z.eqb_spec i 1) as [->|N1]; [reflexivity|]. rewrite (proj2 (Z.leb_gt i 1)) by lia. reflexivity.
Qed.
Lemma merkle_up_ok p H v indexes branches : 2 < p -> (forall l, felt p (H l)) -> Forall (felt p) indexes -> (length branches <= length indexes)%nat ->
  merkle_up p H v indexes branches =
  if forallb (fun b => (b =? 0) || (b =? 1)) (firstn (length branches) indexes) then Some (climb (fun a b => H [a; b]) v (combine indexes branches)) else None.
Proof.
  intros Hp HF. unfold merkle_up. revert v branches. induction indexes as [|i indexes IH]; intros v branches FI L.
  - destruct branches; [reflexivity|cbn in L; lia].
  - destruct branches as [|b branches]; [reflexivity|]. cbn [length seq ofold nth firstn forallb combine climb]. apply Forall_cons_iff in FI. destruct FI as [Fi FI].
    rewrite hash_on_index_ok by auto. 
    assert (SH : forall s, ofold (fun v j => mimc_hash_on_index p H v (nth j (b :: branches) 0) (nth j (i :: indexes) 0)) (seq 1 (length branches)) s =
                           ofold (fun v j => mimc_hash_on_index p H v (nth j branches 0) (nth j indexes 0)) (seq 0 (length branches)) s).
    { rewrite <- seq_shift. generalize (seq 0 (length branches)). intros l. induction l as [|j l IHl]; intros s; [reflexivity|]. cbn [map ofold nth].
      destruct (mimc_hash_on_index _ _ _ _ _); cbn [obind]; [apply IHl|reflexivity]. }
    destruct (Z.eqb_spec i 0) as [->|N0]; [|destruct (Z.eqb_spec i 1) as [->|N1]]; cbn [obind orb andb]; try reflexivity;
      rewrite SH, IH by (auto; cbn [length] in L; lia); reflexivity.
Qed.
(** MerkleRootWithLeaveHash accepts exactly boolean indexes (as many as there are branches; more are ignored) and returns
    the value obtained by climbing from the leaf hash; MerkleRootBasedOnMiMCHash first hashes the leaf *)
Theorem C34_path_root_exact : forall p H indexes branches, 2 < p -> (forall l, felt p (H l)) -> Forall (felt p) indexes ->
  (forall v r, merkle_root_with_leaf_hash p H v indexes branches = Some r <->
    (length branches <= length indexes)%nat /\ Forall is_bit (firstn (length branches) indexes) /\ r = climb (fun a b => H [a; b]) v (combine indexes branches)) /\
  (forall v r, merkle_root_mimc p H v indexes branches = Some r <->
    (length branches <= length indexes)%nat /\ Forall is_bit (firstn (length branches) indexes) /\ r = climb (fun a b => H [a; b]) (H [v]) (combine indexes branches)).
Proof.
  intros p H indexes branches Hp HF FI.
  assert (B : forall l, forallb (fun b => (b =? 0) || (b =? 1)) l = true <-> Forall is_bit l).
  { intros l. rewrite forallb_forall, Forall_forall. split; intros HH x Hx; specialize (HH x Hx); [apply orb_true_iff in HH; rewrite !Z.eqb_eq in HH; exact HH|].
    apply orb_true_iff. rewrite !Z.eqb_eq. exact HH. }
  assert (G : forall v r, (guard (Nat.leb (length branches) (length indexes)) ;; merkle_up p H v indexes branches) = Some r <->
    (length branches <= length indexes)%nat /\ Forall is_bit (firstn (length branches) indexes) /\ r = climb (fun a b => H [a; b]) v (combine indexes branches)).
  { intros v r. destruct (Nat.leb_spec (length branches) (length indexes)) as [Hl|Hl]; cbn [guard obind].
    - rewrite merkle_up_ok by auto. rewrite <- B. destruct (forallb _ _).
      + split; [intros E; repeat split; auto; congruence|intros (_ & _ & ->); reflexivity].
      + split; [discriminate|]. intros (_ & X & _). discriminate X.
    - split; [discriminate|]. intros [X _]. lia. }
  split; intros v r; apply G.
Qed.
(** Binding: two accepted openings of the same root with the same index bits and the same number of levels have the same
    leaf and the same siblings, unless the hash has a collision between an input hashed in the first and one hashed in the second *)
Definition path_inputs (H : list Z -> Z) (leaf : Z) (path : list (Z * Z)) : list (list Z) :=
  [leaf] :: map (fun x => [fst x; snd x]) (climb_pairs (fun a b => H [a; b]) (H [leaf]) path).
Definition no_hash_collision (H : list Z -> Z) (l1 l2 : list (list Z)) : Prop := forall a b, In a l1 -> In b l2 -> H a = H b -> a = b.
Lemma combine_parts (A B : Type) (ix : list A) : forall b : list B, (length b <= length ix)%nat -> map fst (combine ix b) = firstn (length b) ix /\ map snd (combine ix b) = b.
Proof.
  induction ix as [|i ix IH]; intros [|x b] Hb; try (cbn in Hb; lia); try (split; reflexivity). cbn [combine map length firstn fst snd].
  destruct (IH b) as [A1 B1]; [cbn in Hb; lia|]. rewrite A1, B1. auto.
Qed.
Theorem C34_path_binding : forall p H indexes b1 b2 v1 v2 r, 2 < p -> (forall l, felt p (H l)) -> Forall (felt p) indexes -> length b1 = length b2 ->
  no_hash_collision H (path_inputs H v1 (combine indexes b1)) (path_inputs H v2 (combine indexes b2)) ->
  merkle_root_mimc p H v1 indexes b1 = Some r -> merkle_root_mimc p H v2 indexes b2 = Some r -> v1 = v2 /\ b1 = b2.
Proof.
  intros p H indexes b1 b2 v1 v2 r Hp HF FI L CF R1 R2.
  apply (proj2 (C34_path_root_exact p H indexes b1 Hp HF FI)) in R1. apply (proj2 (C34_path_root_exact p H indexes b2 Hp HF FI)) in R2.
  destruct R1 as (L1 & _ & E1). destruct R2 as (L2 & _ & E2). rewrite E1 in E2.
  destruct (combine_parts _ _ indexes b1 L1) as [A1 B1]. destruct (combine_parts _ _ indexes b2 L2) as [A2 B2].
  apply climb_binding in E2; [| |rewrite A1, A2, L; reflexivity].
  - destruct E2 as [Ev Ep]. assert (Q : [v1] = [v2]) by (apply CF; [left; reflexivity|left; reflexivity|exact Ev]). split; [congruence|]. rewrite <- B1, <- B2, Ep. reflexivity.
  - intros [x1 x2] [y1 y2] Hx Hy HH. cbn [fst snd] in HH. assert (Q : [x1; x2] = [y1; y2]); [|congruence].
    apply CF; [right; apply in_map_iff; exists (x1, x2); auto|right; apply in_map_iff; exists (y1, y2); auto|exact HH].
Qed.
(** with a leaf hash given, the same without the leaf hashing *)
Theorem C34_path_binding_leaf_hash : forall p H indexes b1 b2 v1 v2 r, 2 < p -> (forall l, felt p (H l)) -> Forall (felt p) indexes -> length b1 = length b2 ->
  no_collision (fun a b => H [a; b]) (climb_pairs (fun a b => H [a; b]) v1 (combine indexes b1)) (climb_pairs (fun a b => H [a; b]) v2 (combine indexes b2)) ->
  merkle_root_with_leaf_hash p H v1 indexes b1 = Some r -> merkle_root_with_leaf_hash p H v2 indexes b2 = Some r -> v1 = v2 /\ b1 = b2.
Proof.
  intros p H indexes b1 b2 v1 v2 r Hp HF FI L CF R1 R2.
  apply (proj1 (C34_path_root_exact p H indexes b1 Hp HF FI)) in R1. apply (proj1 (C34_path_root_exact p H indexes b2 Hp HF FI)) in R2.
  destruct R1 as (L1 & _ & E1). destruct R2 as (L2 & _ & E2). rewrite E1 in E2.
  destruct (combine_parts _ _ indexes b1 L1) as [A1 B1]. destruct (combine_parts _ _ indexes b2 L2) as [A2 B2].
  apply climb_binding in E2; [|exact CF|rewrite A1, A2, L; reflexivity]. destruct E2 as [Ev Ep]. split; [congruence|]. rewrite <- B1, <- B2, Ep. reflexivity.
Qed.
(** the hypothesis is met, for instance, by these two different openings of two different roots *)
Example C34_path_binding_example : let H := fun l : list Z => match l with [a; b] => (1000 * a + b) mod bn254 | [a] => a mod bn254 | _ => 0 end in
  no_hash_collision H (path_inputs H 7 (combine [1; 0] [3; 5])) (path_inputs H 8 (combine [1; 0] [3; 6])).
Proof. intros H a b Ha Hb. cbn in Ha, Hb. destruct Ha as [<-|[<-|[<-|[]]]], Hb as [<-|[<-|[<-|[]]]]; vm_compute; congruence. Qed.
(** For every perfect tree: the sibling path of leaf i, with the bits of i as indexes, is accepted and gives the root *)
Theorem C34_path_of_tree : forall p H d leaves i, 2 < p -> (forall l, felt p (H l)) -> length leaves = (2 ^ d)%nat -> (i < 2 ^ d)%nat ->
  let path := leaf_path (fun a b => H [a; b]) 0 leaves d i in
  merkle_root_with_leaf_hash p H (nth i leaves 0) (map fst path) (map snd path) = Some (tree_root (fun a b => H [a; b]) 0 d leaves).
Proof.
  intros p H d leaves i Hp HF L Hi path. assert (Fb : Forall is_bit (map fst path)).
  { apply Forall_forall. intros x Hx. apply in_map_iff in Hx. destruct Hx as [[b s] [<- Hx]]. unfold path, leaf_path in Hx. apply in_map_iff in Hx. destruct Hx as [k [E _]].
    apply (f_equal fst) in E. cbn [fst] in *. subst b. pose proof (Nat.mod_upper_bound (i / 2 ^ k) 2 ltac:(lia)) as Mb. revert Mb. generalize ((i / 2 ^ k) mod 2)%nat. intros m Mb. unfold is_bit. lia. }
  apply (proj1 (C34_path_root_exact p H (map fst path) (map snd path) Hp HF ltac:(eapply Forall_impl; [|exact Fb]; intros; apply felt_bit; auto))).
  split; [rewrite !map_length; lia|]. split; [rewrite firstn_all2 by (rewrite !map_length; lia); exact Fb|].
  assert (E : combine (map fst path) (map snd path) = path) by (generalize path; intros l; induction l as [|[b s] l IH]; [reflexivity|]; cbn [map combine fst snd]; rewrite IH; reflexivity).
  rewrite E. symmetry. apply path_climb_root; auto.
Qed.
(** RestoreMimcRoot, with any hash of two elements: same climbing; other selectors than bits and unequal lengths fail *)
Theorem C34_restore_root_exact : forall (E : Type) p (H2 : E -> E -> E) leaf path lr d r, 2 < p -> Forall (felt p) lr ->
  (restore_mimc_root p H2 leaf path lr d = Some r <-> length path = length lr /\ Forall is_bit lr /\ r = climb H2 leaf (combine lr path)).
Proof.
  intros E p H2 leaf path lr d r Hp F. unfold restore_mimc_root. destruct (Nat.eqb_spec (length path) (length lr)) as [L|L]; cbn [guard obind].
  2:{ split; [discriminate|]. intros [X _]. contradiction. }
  revert leaf path L F. induction lr as [|b lr IH]; intros leaf path L F.
  - destruct path; [|discriminate L]. cbn. split; [intros X; repeat split; auto; congruence|intros (_ & _ & ->); reflexivity].
  - destruct path as [|n path]; [discriminate L|]. apply Forall_cons_iff in F. destruct F as [Fb F]. cbn [length seq ofold nth combine climb].
    assert (SH : forall s, ofold (fun h i => let node := nth i (n :: path) d in assert_bool p (nth i (b :: lr) 0) ;; Some (if nth i (b :: lr) 0 mod p =? 1 then H2 node h else H2 h node)) (seq 1 (length path)) s =
                           ofold (fun h i => let node := nth i path d in assert_bool p (nth i lr 0) ;; Some (if nth i lr 0 mod p =? 1 then H2 node h else H2 h node)) (seq 0 (length path)) s).
    { rewrite <- seq_shift. generalize (seq 0 (length path)). intros l. induction l as [|j l IHl]; intros s; [reflexivity|]. cbn [map ofold nth].
      match goal with |- obind ?x _ = _ => destruct x end; cbn [obind]; [apply IHl|reflexivity]. }
    destruct (assert_bool p b) as [[]|] eqn:A.
    + apply assert_bool_iff in A; auto. cbn [obind]. rewrite SH, IH by (auto; cbn in L; lia).
      assert (Eb : (if b mod p =? 1 then H2 n leaf else H2 leaf n) = (if b =? 0 then H2 leaf n else H2 n leaf)) by (destruct A as [-> | ->]; rewrite Z.mod_small by lia; reflexivity).
      rewrite Eb. rewrite Forall_cons_iff. cbn [length] in L. split; [intros (X & Y & Z); auto|intros (X & (Y & Z) & W); split; [lia|auto]].
    + cbn [obind]. split; [discriminate|]. intros (_ & X & _). apply Forall_cons_iff in X. destruct X as [X _]. apply (assert_bool_iff p) in X; auto. congruence.
Qed.

(** ** C34, whole trees *)
Lemma pair_up_ok {N} (node : N -> N -> option N) (h : N -> N -> N) (P : N -> Prop) dflt : (forall a b, P a -> P b -> node a b = Some (h a b) /\ P (h a b)) ->
  forall m l, length l = (2 * m)%nat -> Forall P l -> exists t, pair_up node l = Some t /\ length t = m /\ Forall P t /\
    forall j, (j < m)%nat -> nth j t dflt = h (nth (2 * j) l dflt) (nth (2 * j + 1) l dflt).
Proof.
  intros Hn. induction m as [|m IH]; intros l L F.
  - destruct l; [|discriminate L]. exists []. repeat split; auto. intros; lia.
  - destruct l as [|x [|y l]]; [cbn in L; lia|cbn in L; lia|]. apply Forall_cons_iff in F. destruct F as [Fx F]. apply Forall_cons_iff in F. destruct F as [Fy F].
    destruct (Hn x y Fx Fy) as [E Ph]. destruct (IH l) as (t & Et & Lt & Ft & Nt); [cbn [length] in L; lia|auto|]. cbn [pair_up]. rewrite E. cbn [obind]. rewrite Et. cbn [obind].
    exists (h x y :: t). split; [reflexivity|]. split; [cbn; lia|]. split; [constructor; auto|]. intros [|j] Hj; [reflexivity|].
    replace (2 * S j)%nat with (S (S (2 * j))) by lia. cbn [Nat.add nth]. rewrite Nt by lia. reflexivity.
Qed.
Lemma tree_root_pairs {N} (h : N -> N -> N) dflt : forall d l t, length l = (2 ^ S d)%nat -> length t = (2 ^ d)%nat ->
  (forall j, (j < 2 ^ d)%nat -> nth j t dflt = h (nth (2 * j) l dflt) (nth (2 * j + 1) l dflt)) -> tree_root h dflt (S d) l = tree_root h dflt d t.
Proof.
  induction d as [|d IH]; intros l t Ll Lt Hj.
  - cbn [tree_root Nat.pow]. rewrite (Hj 0%nat) by (cbn; lia). rewrite nth_firstn', nth_skipn' by lia. reflexivity.
  - cbn [Nat.pow] in Ll, Lt, Hj. cbn [tree_root] in *. set (w := (2 ^ d)%nat) in *. 
    change (2 ^ S d)%nat with (2 * w)%nat. apply f_equal2.
    + apply (IH (firstn (2 * w) l) (firstn w t)); [change (2 ^ S d)%nat with (2 * w)%nat; rewrite firstn_length; lia|rewrite firstn_length; lia|].
      intros j Hlt. rewrite !nth_firstn' by lia. apply Hj. lia.
    + apply (IH (skipn (2 * w) l) (skipn w t)); [change (2 ^ S d)%nat with (2 * w)%nat; rewrite skipn_length; lia|rewrite skipn_length; lia|].
      intros j Hlt. rewrite !nth_skipn'. rewrite Hj by lia. f_equal; f_equal; lia.
Qed.
Lemma root_loop_ok {N} (node : N -> N -> option N) (h : N -> N -> N) (P : N -> Prop) dflt : (forall a b, P a -> P b -> node a b = Some (h a b) /\ P (h a b)) ->
  forall d l fuel, length l = (2 ^ d)%nat -> (d <= fuel)%nat -> Forall P l -> root_loop node fuel l = Some (tree_root h dflt d l) /\ P (tree_root h dflt d l).
Proof.
  intros Hn. induction d as [|d IH]; intros l fuel L Hf F.
  - destruct l as [|x [|]]; try discriminate L. destruct fuel; cbn; inversion F; auto.
  - destruct fuel as [|fuel]; [lia|]. cbn [Nat.pow] in L. assert (0 < 2 ^ d)%nat by (apply Nat.neq_0_lt_0, Nat.pow_nonzero; lia).
    destruct (pair_up_ok node h P dflt Hn (2 ^ d) l) as (t & Et & Lt & Ft & Nt); [lia|auto|].
    destruct l as [|x [|y l]]; [cbn in L; lia|cbn in L; lia|]. set (l' := x :: y :: l) in *. change (root_loop node (S fuel) l') with (let* t := pair_up node l' in root_loop node fuel t).
    rewrite Et. cbn [obind]. rewrite (tree_root_pairs h dflt d l' t); [apply IH; auto; lia|cbn [Nat.pow]; lia|auto|auto].
Qed.
Lemma pair_up_length {N} (node : N -> N -> option N) l t : pair_up node l = Some t -> length l = (2 * length t)%nat.
Proof.
  assert (G : forall n l t, (length l <= n)%nat -> pair_up node l = Some t -> length l = (2 * length t)%nat).
  { clear. induction n as [|n IH]; intros l t L E.
    - destruct l; [|cbn in L; lia]. cbn in E. injection E as <-. reflexivity.
    - destruct l as [|x [|y l]]; [cbn in E; injection E as <-; reflexivity|discriminate E|]. cbn [pair_up] in E. apply obind_Some in E. destruct E as [h [_ E]].
      apply obind_Some in E. destruct E as [t' [E1 E2]]. assert (t = h :: t') by congruence. subst t. apply IH in E1; [|cbn [length] in L; lia]. cbn [length]. lia. }
  apply (G (length l)). auto.
Qed.
Lemma root_loop_pow2 {N} (node : N -> N -> option N) : forall fuel l r, root_loop node fuel l = Some r -> exists d, length l = (2 ^ d)%nat.
Proof.
  induction fuel as [|fuel IH]; intros l r E.
  - destruct l as [|x [|]]; try discriminate E. exists 0%nat. reflexivity.
  - destruct l as [|x [|y l]].
    + cbn [root_loop pair_up obind] in E. apply IH in E. exact E.
    + exists 0%nat. reflexivity.
    + cbn [root_loop] in E. apply obind_Some in E. destruct E as [t [E1 E2]]. apply IH in E2. destruct E2 as [d Ed]. apply pair_up_length in E1. exists (S d). cbn [Nat.pow]. lia.
Qed.
(** MimcRoot of the emulated API: the root of the perfect tree on 2^d leaves; any other number of leaves fails *)
Theorem C34_emulated_root : forall (E : Type) (H2 : E -> E -> E) (dflt : E) leaves,
  (forall d, length leaves = (2 ^ d)%nat -> bottom_up_root (fun a b => Some (H2 a b)) leaves = Some (tree_root H2 dflt d leaves)) /\
  ((forall d, length leaves <> (2 ^ d)%nat) -> bottom_up_root (fun a b => Some (H2 a b)) leaves = None).
Proof.
  intros E H2 dflt leaves. split.
  - intros d L. unfold bottom_up_root. apply (root_loop_ok _ H2 (fun _ => True) dflt); auto; [rewrite L; apply Nat.lt_le_incl, Nat.pow_gt_lin_r; lia|apply Forall_forall; auto].
  - intros H. destruct (bottom_up_root _ leaves) eqn:R; [|reflexivity]. apply root_loop_pow2 in R. destruct R as [d Ed]. destruct (H d Ed).
Qed.
Lemma is_power_of_two_spec n : is_power_of_two n = true <-> exists d, n = (2 ^ d)%nat.
Proof.
  unfold is_power_of_two. rewrite andb_true_iff, negb_true_iff, Nat.eqb_neq, Z.eqb_eq. split.
  - intros [N0 L]. set (z := Z.of_nat n) in *. assert (Hz : 0 < z) by lia. pose proof (Z.log2_spec z Hz) as [S1 S2]. pose proof (Z.log2_nonneg z) as LN.
    exists (Z.to_nat (Z.log2 z)). apply Nat2Z.inj. rewrite Nat2Z.inj_pow, Z2Nat.id by lia. fold z. change (Z.of_nat 2) with 2.
    destruct (Z.eq_dec z (2 ^ Z.log2 z)) as [E|E]; [exact E|]. exfalso.
    assert (T1 : Z.testbit z (Z.log2 z) = true) by (apply Z.bit_log2; auto).
    assert (T2 : Z.testbit (z - 1) (Z.log2 z) = true).
    { replace (Z.log2 z) with (Z.log2 (z - 1)); [apply Z.bit_log2; lia|]. apply Z.log2_unique; lia. }
    assert (T : Z.testbit (Z.land z (z - 1)) (Z.log2 z) = true) by (rewrite Z.land_spec, T1, T2; reflexivity). rewrite L, Z.testbit_0_l in T. discriminate T.
  - intros [d ->]. split; [apply Nat.pow_nonzero; lia|]. rewrite Nat2Z.inj_pow. change (Z.of_nat 2) with 2. replace (2 ^ Z.of_nat d - 1) with (Z.ones (Z.of_nat d)) by (rewrite Z.ones_equiv; lia).
    rewrite Z.land_ones, Z.mod_same by lia. reflexivity.
Qed.
(** MimcRoot of the fabric package, whose hasher refuses some leaves ([ok]): same root, and a panic on any other length *)
Theorem C34_fabric_root : forall (B : Type) (ok : B -> bool) (H2 : B -> B -> B) (dflt : B) leaves, (forall a b, ok (H2 a b) = true) ->
  let node := fun a b => guard (ok a) ;; guard (ok b) ;; Some (H2 a b) in
  (forall d, length leaves = (2 ^ d)%nat -> Forall (fun b => ok b = true) leaves -> checked_root node leaves = Some (tree_root H2 dflt d leaves)) /\
  ((forall d, length leaves <> (2 ^ d)%nat) -> checked_root node leaves = None).
Proof.
  intros B ok H2 dflt leaves Hok node. split.
  - intros d L F. assert (G : forall d l fuel, length l = (2 ^ d)%nat -> checked_root_loop node fuel l = root_loop node fuel l).
    { clear -H2. induction d as [|d IH]; intros l fuel L; assert (PT : is_power_of_two (length l) = true) by (apply is_power_of_two_spec; eexists; exact L).
      - destruct l as [|x [|]]; try discriminate L. destruct fuel; reflexivity.
      - destruct l as [|x [|y l]]; [cbn [length] in L; symmetry in L; apply Nat.pow_nonzero in L; [destruct L|lia]|cbn [length Nat.pow] in L; lia|].
        destruct fuel as [|fuel]; cbn [checked_root_loop root_loop]; rewrite PT; cbn [guard obind]; [reflexivity|]. destruct (pair_up node (x :: y :: l)) as [t|] eqn:E; [|reflexivity]. cbn [obind].
        apply IH. apply pair_up_length in E. cbn [length Nat.pow] in *. lia. }
    unfold checked_root. rewrite (G d) by auto. apply (root_loop_ok node H2 (fun b => ok b = true) dflt); auto; [|rewrite L; apply Nat.lt_le_incl, Nat.pow_gt_lin_r; lia].
    intros a b Ha Hb. unfold node. rewrite Ha, Hb. auto.
  - intros H. unfold checked_root. assert (PT : is_power_of_two (length leaves) = false).
    { destruct (is_power_of_two (length leaves)) eqn:E; [|reflexivity]. apply is_power_of_two_spec in E. destruct E as [d E]. destruct (H d E). }
    generalize (length leaves) at 1. intros fuel. destruct fuel; cbn [checked_root_loop]; rewrite PT; reflexivity.
Qed.
(** Two lists of leaves of the same length with the same root are equal, unless two of the hashed pairs collide *)
Theorem C34_root_binding : forall (E : Type) (H2 : E -> E -> E) (dflt : E) d l1 l2 r, length l1 = (2 ^ d)%nat -> length l2 = (2 ^ d)%nat ->
  no_collision H2 (tree_pairs H2 dflt d l1) (tree_pairs H2 dflt d l2) ->
  bottom_up_root (fun a b => Some (H2 a b)) l1 = Some r -> bottom_up_root (fun a b => Some (H2 a b)) l2 = Some r -> l1 = l2.
Proof.
  intros E H2 dflt d l1 l2 r D1 D2 NC R1 R2. rewrite (proj1 (C34_emulated_root E H2 dflt l1) d D1) in R1.
  rewrite (proj1 (C34_emulated_root E H2 dflt l2) d D2) in R2. apply (tree_root_inj H2 dflt d); auto. congruence.
Qed.
(** RestoreMimcRoot is binding in the same sense *)
Theorem C34_restore_binding : forall (E : Type) p (H2 : E -> E -> E) v1 v2 b1 b2 lr d r, 2 < p -> Forall (felt p) lr ->
  no_collision H2 (climb_pairs H2 v1 (combine lr b1)) (climb_pairs H2 v2 (combine lr b2)) ->
  restore_mimc_root p H2 v1 b1 lr d = Some r -> restore_mimc_root p H2 v2 b2 lr d = Some r -> v1 = v2 /\ b1 = b2.
Proof.
  intros E p H2 v1 v2 b1 b2 lr d r Hp F NC R1 R2. apply C34_restore_root_exact in R1; auto. apply C34_restore_root_exact in R2; auto.
  destruct R1 as (L1 & _ & E1). destruct R2 as (L2 & _ & E2). rewrite E1 in E2.
  destruct (combine_parts _ _ lr b1 ltac:(lia)) as [A1 B1]. destruct (combine_parts _ _ lr b2 ltac:(lia)) as [A2 B2].
  apply climb_binding in E2; [|exact NC|rewrite A1, A2, L1, L2; reflexivity]. destruct E2 as [Ev Ep]. split; [exact Ev|]. rewrite <- B1, <- B2, Ep. reflexivity.
Qed.

(** KeccakMerkleRoot: [keccak_of_bits s] is Keccak-256 of the bit string s (C34_keccak_of_bits: of a byte string m when s
    is its bits); nodes are Keccak-256 of the 512 bits of the children *)
Definition keccak_of_bits (s : list bool) : list bool := let q := pad101 s in firstn 256 (string_of (sponge (blocks_of (length q / 1088) q))).
Theorem C34_keccak_of_bits : forall m, keccak_of_bits (bytes_bits m) = keccak256 m.
Proof. reflexivity. Qed.
Lemma keccak_node_ok p a b : 2 < p -> length a = 256%nat -> length b = 256%nat -> keccak_node p (zbits a) (zbits b) = Some (zbits (keccak_of_bits (a ++ b))).
Proof.
  intros Hp La Lb. unfold keccak_node. assert (E : keccak_pad (zbits a ++ zbits b) = zbits (pad101 (a ++ b))).
  { unfold keccak_pad, pad101. rewrite app_length, La, Lb. replace ((1088 - (256 + 256 + 2) mod 1088) mod 1088)%nat with 574%nat by (vm_compute; reflexivity).
    unfold zbits. rewrite !map_app. apply (f_equal2 (@app Z)); [reflexivity|]. apply (f_equal2 (@app Z)); [reflexivity|]. apply (f_equal2 (@app Z)); [|reflexivity].
    generalize 574%nat. intros n. induction n as [|n IH]; [reflexivity|]. cbn [repeat map]. rewrite <- IH. reflexivity. }
  assert (L : length (pad101 (a ++ b)) = 1088%nat).
  { unfold pad101. rewrite !app_length, repeat_length, La, Lb. vm_compute. reflexivity. }
  rewrite E. apply (C18_keccak256_bits_one_block p 0); auto.
  - apply Forall_forall. intros x Hx. apply in_map_iff in Hx. destruct Hx as [y [<- _]]. apply felt_bit; auto using bit_of_bit.
  - exists (pad101 (a ++ b)). split; [reflexivity|]. split; [exact L|]. unfold keccak_of_bits. rewrite L. reflexivity.
Qed.
Lemma keccak_of_bits_length s : length (keccak_of_bits s) = 256%nat.
Proof.
  unfold keccak_of_bits. rewrite firstn_length. apply Nat.min_l. unfold string_of.
  assert (G : forall (A : state) c n s, length (flat_map (fun l => map (fun z => A (l mod 5)%nat (l / 5)%nat z) (seq 0 c)) (seq s n)) = (c * n)%nat).
  { intros A c n. induction n as [|n IH]; intros s0; [cbn; lia|]. cbn [seq flat_map]. rewrite app_length, map_length, seq_length, IH. lia. }
  rewrite G. apply Nat.leb_le. reflexivity.
Qed.
Theorem C34_keccak_root : forall p d (leaves : list (list bool)), 2 < p -> length leaves = (2 ^ d)%nat -> Forall (fun l => length l = 256%nat) leaves ->
  keccak_merkle_root p (map zbits leaves) = Some (zbits (tree_root (fun a b => keccak_of_bits (a ++ b)) [] d leaves)).
Proof.
  intros p d leaves Hp L F. unfold keccak_merkle_root. rewrite map_length. rewrite (proj2 (is_power_of_two_spec (length leaves))) by (exists d; auto). cbn [guard obind].
  set (unz := fun l : list Z => map (fun x => x =? 1) l).
  assert (UZ : forall l, unz (zbits l) = l) by (intros l; unfold unz, zbits; rewrite map_map; rewrite <- (map_id l) at 2; apply map_ext; intros []; reflexivity).
  destruct (root_loop_ok (keccak_node p) (fun a b => zbits (keccak_of_bits (unz a ++ unz b))) (fun l => exists s, l = zbits s /\ length s = 256%nat) []) with (d := d) (l := map zbits leaves) (fuel := length (map zbits leaves)) as [R _].
  - intros a b (sa & -> & La) (sb & -> & Lb). rewrite !UZ. split; [apply keccak_node_ok; auto|]. exists (keccak_of_bits (sa ++ sb)). split; [reflexivity|apply keccak_of_bits_length].
  - rewrite map_length; auto.
  - rewrite map_length, L. apply Nat.lt_le_incl, Nat.pow_gt_lin_r. lia.
  - apply Forall_forall. intros x Hx. apply in_map_iff in Hx. destruct Hx as [s [<- Hs]]. rewrite Forall_forall in F. exists s. auto.
  - unfold bottom_up_root. rewrite R. f_equal. clear R F. revert leaves L. induction d as [|d IH]; intros leaves L; cbn [tree_root].
    + destruct leaves as [|x leaves]; [discriminate L|]. reflexivity.
    + cbn [Nat.pow] in L. set (w := (2 ^ d)%nat) in *. rewrite firstn_map, skipn_map, !IH by (rewrite ?firstn_length, ?skipn_length; lia). rewrite !UZ. reflexivity.
Qed.
Theorem C34_keccak_root_panics : forall p leaves, (forall d, length leaves <> (2 ^ d)%nat) -> keccak_merkle_root p leaves = None.
Proof.
  intros p leaves H. unfold keccak_merkle_root. destruct (is_power_of_two (length leaves)) eqn:E; [|reflexivity]. apply is_power_of_two_spec in E. destruct E as [d E]. destruct (H d E).
Qed.
Example C34_example : let H := fun l : list Z => match l with [a; b] => (1000 * a + b) mod bn254 | [a] => a | _ => 0 end in
  merkle_root_mimc bn254 H 7 [1; 0] [3; 5] = Some 3007005 /\ bottom_up_root (fun a b => Some (H [a; b])) [1; 2; 3; 4] = Some 1005004.
Proof. split; vm_compute; reflexivity. Qed.

(** ** C35 CheckSMTInclusion *)
(** the result is 1 exactly when the root is the one obtained by climbing from the hash of the leaf value, itself
    obtained by climbing the leaf-value tree; otherwise it is 0; selectors must be bits *)
Theorem C35_smt_inclusion_exact : forall p H depth tree tidx indexes branches root r, 2 < p -> (forall l, felt p (H l)) -> Forall (felt p) tidx -> Forall (felt p) indexes -> felt p root ->
  (check_smt_inclusion p H depth tree tidx indexes branches root = Some r <->
   exists leaf rest, tree = leaf :: rest /\ length rest = length tidx /\ Forall is_bit tidx /\
     (length branches <= length indexes)%nat /\ Forall is_bit (firstn (length branches) indexes) /\
     let hh := fun a b => H [a; b] in
     let leafValue := climb hh (H [leaf]) (combine tidx rest) in
     r = if root =? climb hh (H [leafValue]) (combine indexes branches) then 1 else 0).
Proof.
  intros p H depth tree tidx indexes branches root r Hp HF Ft Fi Fr. unfold check_smt_inclusion, leaf_value_hash.
  assert (CF : forall v pa, felt p v -> felt p (climb (fun a b => H [a; b]) v pa)).
  { intros v pa. revert v. induction pa as [|[b s] pa IH]; intros v Fv; cbn [climb]; auto. apply IH. destruct (b =? 0); apply HF. }
  destruct tree as [|leaf rest].
  { cbn [length Nat.eqb guard obind]. split; [discriminate|]. intros (x & y & X & _). discriminate X. }
  cbn [length Nat.eqb nth skipn]. destruct (Nat.eqb_spec (length rest) (length tidx)) as [E|E]; cbn [guard obind].
  2:{ split; [discriminate|]. intros (x & y & X & Y & _). assert (rest = y) by congruence. subst y. contradiction. }
  pose proof (fun v r => proj2 (C34_path_root_exact p H tidx rest Hp HF Ft) v r) as X1. pose proof (fun v r => proj2 (C34_path_root_exact p H indexes branches Hp HF Fi) v r) as X2.
  destruct (merkle_root_mimc p H leaf tidx rest) as [lv|] eqn:E1; cbn [obind].
  - apply X1 in E1. destruct E1 as (L1 & B1 & ->). rewrite firstn_all2 in B1 by lia.
    destruct (merkle_root_mimc p H _ indexes branches) as [h|] eqn:E2; cbn [obind].
    + apply X2 in E2. destruct E2 as (L2 & B2 & ->). unfold r_equal. rewrite fis_zero_sub by auto. split.
      * intros Q. exists leaf, rest. do 5 (split; [auto|]). cbv zeta. unfold bit_of in Q. assert (QQ : forall x, Some x = Some r -> r = x) by (intros; congruence). apply QQ. exact Q.
      * intros (x & y & X & Y & _ & _ & _ & Z). assert (x = leaf) by congruence. assert (y = rest) by congruence. subst x y. cbv zeta in Z. rewrite Z. reflexivity.
    + split; [discriminate|]. intros (x & y & X & Y & _ & L2 & B2 & _). assert (x = leaf) by congruence. assert (y = rest) by congruence. subst x y.
      assert (Q : merkle_root_mimc p H (climb (fun a b => H [a; b]) (H [leaf]) (combine tidx rest)) indexes branches = Some (climb (fun a b => H [a; b]) (H [climb (fun a b => H [a; b]) (H [leaf]) (combine tidx rest)]) (combine indexes branches))) by (apply X2; auto).
      congruence.
  - split; [discriminate|]. intros (x & y & X & Y & B1 & _). assert (x = leaf) by congruence. assert (y = rest) by congruence. subst x y.
    assert (Q : merkle_root_mimc p H leaf tidx rest = Some (climb (fun a b => H [a; b]) (H [leaf]) (combine tidx rest))) by (apply X1; split; [lia|]; split; [rewrite firstn_all2 by lia; exact B1|reflexivity]).
    congruence.
Qed.
(** soundness: two inclusions under the same root, with the same selectors and shapes, have the same leaf values and
    siblings, unless the hash has a collision among the inputs of the two computations *)
Definition smt_inputs (H : list Z -> Z) (tree tidx indexes branches : list Z) : list (list Z) :=
  let low := combine tidx (skipn 1 tree) in
  path_inputs H (nth 0 tree 0) low ++
  path_inputs H (climb (fun a b => H [a; b]) (H [nth 0 tree 0]) low) (combine indexes branches).
Theorem C35_smt_binding : forall p H d1 d2 t1 t2 tidx indexes b1 b2 root, 2 < p -> (forall l, felt p (H l)) -> Forall (felt p) tidx -> Forall (felt p) indexes -> felt p root -> length b1 = length b2 ->
  no_hash_collision H (smt_inputs H t1 tidx indexes b1) (smt_inputs H t2 tidx indexes b2) ->
  check_smt_inclusion p H d1 t1 tidx indexes b1 root = Some 1 -> check_smt_inclusion p H d2 t2 tidx indexes b2 root = Some 1 -> t1 = t2 /\ b1 = b2.
Proof.
  intros p H d1 d2 t1 t2 tidx indexes b1 b2 root Hp HF Ft Fi Fr L CF R1 R2.
  apply C35_smt_inclusion_exact in R1; auto. apply C35_smt_inclusion_exact in R2; auto.
  destruct R1 as (l1 & s1 & E1 & M1 & B1 & N1 & D1 & Q1). destruct R2 as (l2 & s2 & E2 & M2 & B2 & N2 & D2 & Q2). cbv zeta in Q1, Q2. subst t1 t2. unfold smt_inputs in CF. cbn [nth skipn] in CF. cbv zeta in CF.
  destruct (Z.eqb_spec root (climb (fun a b => H [a; b]) (H [climb (fun a b => H [a; b]) (H [l1]) (combine tidx s1)]) (combine indexes b1))) as [Z1|]; [|discriminate Q1].
  destruct (Z.eqb_spec root (climb (fun a b => H [a; b]) (H [climb (fun a b => H [a; b]) (H [l2]) (combine tidx s2)]) (combine indexes b2))) as [Z2|]; [|discriminate Q2].
  assert (A : merkle_root_mimc p H (climb (fun a b => H [a; b]) (H [l1]) (combine tidx s1)) indexes b1 = Some root) by (apply (proj2 (C34_path_root_exact p H indexes b1 Hp HF Fi)); auto).
  assert (B : merkle_root_mimc p H (climb (fun a b => H [a; b]) (H [l2]) (combine tidx s2)) indexes b2 = Some root) by (apply (proj2 (C34_path_root_exact p H indexes b2 Hp HF Fi)); auto).
  assert (CFu : no_hash_collision H (path_inputs H (climb (fun a b => H [a; b]) (H [l1]) (combine tidx s1)) (combine indexes b1)) (path_inputs H (climb (fun a b => H [a; b]) (H [l2]) (combine tidx s2)) (combine indexes b2)))
    by (intros x y Hx Hy; apply CF; apply in_or_app; auto).
  assert (CFl : no_hash_collision H (path_inputs H l1 (combine tidx s1)) (path_inputs H l2 (combine tidx s2))) by (intros x y Hx Hy; apply CF; apply in_or_app; auto).
  destruct (C34_path_binding p H indexes b1 b2 _ _ root Hp HF Fi L CFu A B) as [Ev Eb]. split; [|exact Eb].
  assert (C : merkle_root_mimc p H l1 tidx s1 = Some (climb (fun a b => H [a; b]) (H [l1]) (combine tidx s1))) by (apply (proj2 (C34_path_root_exact p H tidx s1 Hp HF Ft)); split; [lia|]; split; [rewrite firstn_all2 by lia; auto|reflexivity]).
  assert (D : merkle_root_mimc p H l2 tidx s2 = Some (climb (fun a b => H [a; b]) (H [l1]) (combine tidx s1))) by (apply (proj2 (C34_path_root_exact p H tidx s2 Hp HF Ft)); split; [lia|]; split; [rewrite firstn_all2 by lia; auto|exact Ev]).
  assert (Ls : length s1 = length s2) by lia. destruct (C34_path_binding p H tidx s1 s2 l1 l2 _ Hp HF Ft Ls CFl C D) as [-> ->]. reflexivity.
Qed.
(** maxDepth is ignored: the number of levels is the number of branches given *)
Theorem C35_depth_is_ignored : forall p H d1 d2 tree tidx indexes branches root,
  check_smt_inclusion p H d1 tree tidx indexes branches root = check_smt_inclusion p H d2 tree tidx indexes branches root.
Proof. reflexivity. Qed.
Example C35_example : let H := fun l : list Z => match l with [a; b] => (1000 * a + b) mod bn254 | [a] => (a + 1) mod bn254 | _ => 0 end in
  check_smt_inclusion bn254 H 2 [7; 9] [0] [1] [3] 11010 = Some 1 /\ check_smt_inclusion bn254 H 2 [7; 9] [0] [1] [3] 5 = Some 0.
Proof. split; vm_compute; reflexivity. Qed.
