(** * Props_TxProof.v — C45: transaction / receipt Merkle proofs and the split of the leaf *)
From Coq Require Import ZArith List Lia Bool Arith.
From Verif Require Import Field FieldLemmas RlpEnc ProofModel TxModel.
Import ListNotations.
Open Scope Z_scope.

(** ** Specification: [holds n key v leaf]: the trie [n] stores [v] under [key], in the leaf node [leaf] *)
Inductive holds : tnode -> list Z -> list Z -> tnode -> Prop :=
| holds_leaf : forall key v, key <> [] -> holds (TShort key (TValue v)) key v (TShort key (TValue v))
| holds_ext : forall k c key v leaf, k <> [] -> holds c key v leaf -> holds (TShort k c) (k ++ key) v leaf
| holds_branch : forall cs i c key v leaf, 0 <= i -> nth_error cs (Z.to_nat i) = Some c -> holds c key v leaf -> holds (TFull cs) (i :: key) v leaf.

Section S.
Variable K : list Z -> list Z.
Local Notation enc n := (rlp (node_tree K n)).

Lemma has_prefix_app : forall k key, has_prefix (k ++ key) k = true.
Proof. induction k as [| x k IH]; intros key; [destruct key; reflexivity |]. cbn [app has_prefix]. rewrite Z.eqb_refl. apply IH. Qed.
Lemma skipn_app_len : forall (A : Type) (a b : list A), skipn (length a) (a ++ b) = b.
Proof. induction a as [| x a IH]; intros b; [reflexivity | apply IH]. Qed.

Lemma holds_key : forall n key v leaf, holds n key v leaf -> key <> [].
Proof. intros n key v leaf H. destruct H; auto; [destruct k; [congruence | discriminate] | discriminate]. Qed.
Lemma holds_leaf_shape : forall n key v leaf, holds n key v leaf -> exists k, leaf = TShort k (TValue v).
Proof. induction 1; eauto. Qed.

Lemma prove_holds : forall n key v leaf, holds n key v leaf -> forall fuel, (length key < fuel)%nat ->
  exists pre, prove_nodes fuel n key = pre ++ [leaf] /\ (n = leaf /\ pre = [] \/ exists pre', pre = n :: pre').
Proof.
  induction 1 as [key v Hk | k c key v leaf Hk H IH | cs i c key v leaf Hi Hc H IH]; intros fuel Hf.
  - destruct fuel as [| f]; [lia |]. destruct key as [| k0 rest]; [congruence |]. cbn [prove_nodes]. exists [].
    assert (E : has_prefix (k0 :: rest) (k0 :: rest) = true) by (rewrite <- (app_nil_r (k0 :: rest)) at 1; apply has_prefix_app).
    rewrite E, skipn_all. split; [| left; auto]. destruct f; reflexivity.
  - destruct fuel as [| f]; [lia |]. destruct k as [| k0 k]; [congruence |]. cbn [app prove_nodes].
    change (k0 :: k ++ key) with ((k0 :: k) ++ key). rewrite has_prefix_app, skipn_app_len.
    destruct (IH f) as (pre & E & _); [cbn [app length] in Hf; rewrite app_length in Hf; lia |].
    exists (TShort (k0 :: k) c :: pre). rewrite E. split; [reflexivity | right; eauto].
  - destruct fuel as [| f]; [lia |]. cbn [prove_nodes]. rewrite (nth_error_nth cs _ TNil Hc).
    destruct (IH f) as (pre & E & _); [cbn [length] in Hf; lia |]. exists (TFull cs :: pre). rewrite E. split; [reflexivity | right; eauto].
Qed.

Lemma key_fits : forall b, (length (key_nibbles b) < S (length (key_nibbles b)))%nat. Proof. intros; lia. Qed.

Lemma leaf_tree : forall k v, node_tree K (TShort k (TValue v)) = RList [RStr (compact k); RStr v].
Proof. reflexivity. Qed.

Lemma two_strings_suffix : forall k v, exists pre, rlp (RList [RStr k; RStr v]) = pre ++ v.
Proof.
  intros k v. cbn [rlp map concat]. cbv zeta. destruct (rlp_str_suffix v) as [p E]. rewrite E. eexists. rewrite app_nil_r, !app_assoc. reflexivity.
Qed.
Lemma split_suffix : forall (A : Type) (pre v : list A), firstn (length (pre ++ v) - length v) (pre ++ v) = pre.
Proof. intros A pre v. rewrite app_length. replace (length pre + length v - length v)%nat with (length pre) by lia. rewrite firstn_app, Nat.sub_diag, firstn_all, firstn_O, app_nil_r. reflexivity. Qed.

(** Whatever is returned without error: the last node is a pair of strings, and the returned prefix followed by the second one
    is exactly that node. *)
Theorem C45_leaf_split : forall root sr index nodes key pre, get_proof K root sr index = Ok (nodes, key, pre) ->
  sr = true /\ key = rlp_uint index /\ exists k v, last nodes [] = rlp (RList [RStr k; RStr v]) /\ pre ++ v = last nodes [].
Proof.
  intros root sr index nodes key pre H. unfold get_proof in H. destruct sr; [| discriminate H]. cbn [negb] in H. split; [reflexivity |].
  set (ns := prove K root (key_nibbles (rlp_uint index))) in *.
  destruct (rev ns) as [| leaf r] eqn:R; [discriminate H |].
  assert (En : ns = rev r ++ [leaf]) by (rewrite <- (rev_involutive ns), R; reflexivity).
  destruct (node_tree K leaf) as [s | l] eqn:T; [discriminate H |]. cbn [decode_strings] in H.
  destruct (all_strings l) as [[| k [| v [| x y]]] |] eqn:A; try discriminate H.
  assert (El : l = [RStr k; RStr v]).
  { destruct l as [| [s1 | l1] [| [s2 | l2] [| [s3 | l3] l]]]; cbn [all_strings obind] in A; try discriminate A.
    - assert (s1 = k) by congruence. assert (s2 = v) by congruence. subst. reflexivity.
    - destruct (all_strings l); discriminate A. }
  subst l. split; [congruence |]. exists k, v.
  assert (Em : nodes = map (fun n => enc n) ns) by congruence.
  assert (Ep : pre = firstn (length (rlp (RList [RStr k; RStr v])) - length v) (rlp (RList [RStr k; RStr v]))) by congruence.
  assert (EL : last nodes [] = rlp (RList [RStr k; RStr v])).
  { rewrite Em, En, map_app. cbn [map]. rewrite last_last, T. reflexivity. }
  split; [exact EL |]. rewrite EL, Ep. destruct (two_strings_suffix k v) as [q Eq]. rewrite Eq, split_suffix. reflexivity.
Qed.

(** If the header's root matches and the trie stores a value under the index's key, in a leaf of 32 bytes or more (or in the
    root), the proof is returned: it starts with the root node, ends with that leaf, and the prefix followed by the value is the leaf. *)
Theorem C45_proof_of_stored : forall root index v leaf, holds root (key_nibbles (rlp_uint index)) v leaf ->
  (root = leaf \/ (32 <= length (enc leaf))%nat) ->
  exists nodes pre, get_proof K root true index = Ok (nodes, rlp_uint index, pre) /\
    hd [] nodes = enc root /\ last nodes [] = enc leaf /\ pre ++ v = enc leaf /\
    (forall n, In n nodes -> n = enc root \/ (32 <= length n)%nat).
Proof.
  intros root index v leaf H HL. unfold get_proof. cbn [negb]. unfold prove.
  destruct (prove_holds _ _ _ _ H _ (key_fits (rlp_uint index))) as (pre & E & D).
  set (key := key_nibbles (rlp_uint index)) in *. clearbody key.
  destruct (holds_leaf_shape _ _ _ _ H) as [k Ek].
  set (keep := fun m => negb (Nat.ltb (length (enc m)) 32)).
  assert (N : exists mid, (match prove_nodes (S (length key)) root key with [] => [] | n :: r => n :: filter keep r end) = mid ++ [leaf] /\ (mid = [] /\ root = leaf \/ exists m', mid = root :: filter keep m')).
  { rewrite E. destruct D as [[-> ->] | [pre' ->]].
    - exists []. split; [reflexivity | left; auto].
    - cbn [app]. destruct (Nat.ltb_spec (length (enc leaf)) 32) as [L | L].
      + destruct HL as [-> | HL]; [| lia]. exfalso. (* a leaf has a single node on its path *)
        rewrite Ek in E. clear - E H Ek K. rewrite Ek in H. inversion H as [key' v' Hk | k' c key' v' leaf' Hk Hc |]; subst.
        * destruct key as [| k0 rest]; [congruence |]. cbn [prove_nodes] in E.
          assert (P : has_prefix (k0 :: rest) (k0 :: rest) = true) by (rewrite <- (app_nil_r (k0 :: rest)) at 1; apply has_prefix_app).
          rewrite P, skipn_all in E. cbn [length prove_nodes] in E. cbn [app] in E. assert (E' : [] = pre' ++ [TShort (k0 :: rest) (TValue v)]) by (apply (f_equal (@tl tnode)) in E; exact E).
          destruct pre'; discriminate E'.
        * inversion Hc.
      + exists (root :: filter keep pre'). rewrite filter_app. cbn [filter]. unfold keep at 2. rewrite (proj2 (Nat.ltb_ge _ _) L). cbn [negb].
        split; [reflexivity | right; eauto]. }
  destruct N as (mid & N & ND). rewrite N. rewrite rev_app_distr. cbn [rev app]. subst leaf. rewrite leaf_tree. cbn [decode_strings all_strings obind].
  eexists. eexists. split; [reflexivity |].
  split; [| split; [| split]].
  - destruct ND as [[-> ->] | [m' ->]]; reflexivity.
  - rewrite map_app. cbn [map]. rewrite last_last. reflexivity.
  - change (node_tree K (TShort k (TValue v))) with (RList [RStr (compact k); RStr v]) in *. destruct (two_strings_suffix (compact k) v) as [q Eq]. rewrite Eq, split_suffix. reflexivity.
  - intros n Hn. apply in_map_iff in Hn as (m & <- & Hm). apply in_app_or in Hm as [Hm | [<- | []]].
    + destruct ND as [[-> _] | [m' ->]]; [destruct Hm |]. destruct Hm as [<- | Hm]; [left; reflexivity | right].
      apply filter_In in Hm as [_ Hm]. unfold keep in Hm. destruct (Nat.ltb_spec (length (enc m)) 32); [discriminate Hm | lia].
    + destruct HL as [-> | HL]; [left; reflexivity | right; exact HL].
Qed.

(** A mismatching root is an error. *)
Theorem C45_root_mismatch : forall root index, get_proof K root false index = Err.
Proof. reflexivity. Qed.
(** The empty trie (a block without transactions, whose root matches) panics. *)
Theorem C45_empty_block_panics : forall index, get_proof K TNil true index = Panic.
Proof.
  intros index. unfold get_proof. cbn [negb]. unfold prove. set (key := key_nibbles (rlp_uint index)). clearbody key. destruct key; reflexivity.
Qed.
End S.

(** An index that is not in the trie is not rejected: for a block with a single transaction, the proof for index 1 is
    returned without error and its leaf is the one of transaction 0. *)
Definition one_tx_trie : tnode := TShort (key_nibbles (rlp_uint 0)) (TValue [1; 2; 3]).
Theorem C45_absent_index_refuted : forall K, exists nodes pre,
  get_proof K one_tx_trie true 1 = Ok (nodes, rlp_uint 1, pre) /\ last nodes [] = pre ++ [1; 2; 3] /\ ~ (exists v leaf, holds one_tx_trie (key_nibbles (rlp_uint 1)) v leaf).
Proof.
  intros K. eexists. eexists. split; [reflexivity |]. split; [reflexivity |]. intros (v & leaf & H).
  change (key_nibbles (rlp_uint 1)) with [0; 1; 16] in H. unfold one_tx_trie in H. change (key_nibbles (rlp_uint 0)) with [8; 0; 16] in H.
  inversion H.
Qed.
(** Non-vacuity: a trie with two transactions below a branch. *)
Definition two_tx_trie : tnode :=
  TFull ([TShort [1%Z; 16%Z] (TValue (repeat 5%Z 40))] ++ repeat TNil 7 ++ [TShort [0%Z; 16%Z] (TValue (repeat 6%Z 50))] ++ repeat TNil 8).
Example C45_nonvacuous : holds two_tx_trie (key_nibbles (rlp_uint 0)) (repeat 6%Z 50) (TShort [0%Z; 16%Z] (TValue (repeat 6%Z 50))) /\
  holds two_tx_trie (key_nibbles (rlp_uint 1)) (repeat 5%Z 40) (TShort [1%Z; 16%Z] (TValue (repeat 5%Z 40))) /\
  (32 <= length (rlp (node_tree (fun x => x) (TShort [1%Z; 16%Z] (TValue (repeat 5%Z 40))))))%nat.
Proof.
  split; [| split].
  - eapply (holds_branch _ 8); [lia | reflexivity |]. apply holds_leaf. discriminate.
  - eapply (holds_branch _ 0); [lia | reflexivity |]. apply holds_leaf. discriminate.
  - vm_compute. lia.
Qed.

(** The proof writer keeps every written pair in order, and deletions change nothing. *)
Theorem C45_writer : forall ops w, fold_left (fun w op => match op with inl (k, v) => put w k v | inr k => delete w k end) ops w =
  (fst w ++ flat_map (fun op : (list Z * list Z) + list Z => match op with inl (k, v) => [k] | inr _ => [] end) ops,
   snd w ++ flat_map (fun op : (list Z * list Z) + list Z => match op with inl (k, v) => [v] | inr _ => [] end) ops).
Proof.
  induction ops as [| [[k v] | k] ops IH]; intros w; cbn [fold_left flat_map].
  - rewrite !app_nil_r. destruct w; reflexivity.
  - rewrite IH. unfold put. cbn [fst snd]. rewrite <- !app_assoc. reflexivity.
  - rewrite IH. reflexivity.
Qed.

(** ** the keys in the encoded trie nodes: hex-prefix encoding (yellow paper, appendix C) *)
(** Written out as nibbles, the encoding of a key is a flag nibble (2 for a terminated key, plus 1 for an odd number of nibbles), a zero
    nibble when the number is even, and the nibbles of the key *)
Theorem C45_compact : forall ks (t : bool), Forall (fun n => 0 <= n < 16) ks ->
  let b := compact (ks ++ if t then [16] else []) in
  flat_map (fun x => [x / 16; x mod 16]) b = (if Nat.odd (length ks) then [2 * Z.b2z t + 1] else [2 * Z.b2z t; 0]) ++ ks /\ Forall (fun x => 0 <= x < 256) b.
Proof.
  intros ks t F b.
  assert (EB : b = let base := if t then 32 else 0 in
    let pairs := fix pairs (l : list Z) : list Z := match l with a :: b :: r => 16 * a + b :: pairs r | _ => [] end in
    match Nat.odd (length ks), ks with true, a :: r => base + 16 + a :: pairs r | _, _ => base :: pairs ks end).
  { unfold b, compact. destruct t.
    - rewrite rev_app_distr. cbn [rev app]. rewrite removelast_last. reflexivity.
    - rewrite app_nil_r. destruct (rev ks) as [|x r] eqn:E; [reflexivity|]. assert (H : 0 <= x < 16) by (rewrite Forall_forall in F; apply F; apply in_rev; rewrite E; left; reflexivity).
      assert (T : match x :: r with 16 :: _ => true | _ => false end = false). { destruct (Z.eq_dec x 16) as [->|N]; [lia|]. destruct x as [|q|q]; try reflexivity. do 5 (destruct q as [q|q|]; try reflexivity). exfalso; apply N; reflexivity. }
      rewrite T. reflexivity. }
  set (pairs := fix pairs (l : list Z) : list Z := match l with a :: b :: r => 16 * a + b :: pairs r | _ => [] end) in EB. cbv zeta in EB.
  assert (N2 : forall a c, 0 <= c < 16 -> (16 * a + c) / 16 = a /\ (16 * a + c) mod 16 = c).
  { intros a c Hc. rewrite (Z.mul_comm 16 a), Z.div_add_l, Z.div_small by lia. rewrite (Z.add_comm (a * 16)), Z_mod_plus_full, Z.mod_small by lia. lia. }
  assert (PP : forall n l, (length l <= n)%nat -> Nat.odd (length l) = false -> Forall (fun n => 0 <= n < 16) l -> flat_map (fun x => [x / 16; x mod 16]) (pairs l) = l /\ Forall (fun x => 0 <= x < 256) (pairs l)).
  { induction n as [|n IH]; intros l L O Fl; destruct l as [|a [|c l]]; try (cbn in L; lia); try (cbn; auto; fail); try discriminate O.
    inversion_clear Fl as [|? ? Ha Fl']. inversion_clear Fl' as [|? ? Hc Fl]. destruct (IH l) as [E1 E2]; [cbn in L; lia|exact O|exact Fl|].
    change (pairs (a :: c :: l)) with (16 * a + c :: pairs l). cbn [flat_map app]. rewrite E1. destruct (N2 a c Hc) as [-> ->]. split; [reflexivity|]. constructor; [lia|exact E2]. }
  rewrite EB. destruct (Nat.odd (length ks)) eqn:O.
  - destruct ks as [|a ks]; [discriminate O|]. inversion_clear F as [|? ? Ha Fk]. assert (O' : Nat.odd (length ks) = false). { cbn [length] in O. rewrite Nat.odd_succ in O. rewrite <- Nat.negb_even, O. reflexivity. }
    destruct (PP _ ks (le_n _) O' Fk) as [E1 E2]. cbn [flat_map app]. rewrite E1.
    replace ((if t then 32 else 0) + 16 + a) with (16 * (2 * Z.b2z t + 1) + a) by (destruct t; cbn [Z.b2z]; lia). destruct (N2 (2 * Z.b2z t + 1) a Ha) as [-> ->]. split; [reflexivity|].
    constructor; [destruct t; cbn [Z.b2z]; lia|exact E2].
  - destruct (PP _ ks (le_n _) O F) as [E1 E2]. assert (EQ : match ks with [] => (if t then 32 else 0) :: pairs ks | _ => (if t then 32 else 0) :: pairs ks end = (if t then 32 else 0) :: pairs ks) by (destruct ks; reflexivity).
    cbn [flat_map app]. rewrite E1. split; [destruct t; reflexivity|]. constructor; [destruct t; lia|exact E2].
Qed.
(** hence the encoding determines the key *)
Corollary C45_compact_injective : forall k1 k2 (t1 t2 : bool), Forall (fun n => 0 <= n < 16) k1 -> Forall (fun n => 0 <= n < 16) k2 ->
  compact (k1 ++ if t1 then [16] else []) = compact (k2 ++ if t2 then [16] else []) -> k1 = k2 /\ t1 = t2.
Proof.
  intros k1 k2 t1 t2 F1 F2 E. destruct (C45_compact k1 t1 F1) as [H1 _]. destruct (C45_compact k2 t2 F2) as [H2 _]. rewrite E, H2 in H1.
  destruct (Nat.odd (length k1)), (Nat.odd (length k2)), t1, t2; cbn [Z.b2z app] in H1; try discriminate H1; injection H1; intros; subst; auto.
Qed.
Example C45_compact_example : compact [1; 2; 3; 16] = [0x31; 0x23] /\ compact [1; 2; 16] = [0x20; 0x12] /\ compact [1; 2] = [0; 0x12].
Proof. repeat split. Qed.
