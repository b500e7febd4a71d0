(** * MerkleModel.v — models circuits/gadgets/merkle/*.go, circuits/gadgets/smt/smt.go and MimcRoot of
    circuits/fabric/smt/utils.go *)
From Coq Require Import ZArith List Bool Arith.
From Verif Require Import Field RlpUtilModel KeccakModel.
Import ListNotations.
Open Scope Z_scope.
Open Scope circ_scope.

Section Path.
Variable p : Z.
(** gnark's std/hash/mimc after Reset; Write(xs...); Sum: a function of the written elements.  Nothing else is assumed. *)
Variable H : list Z -> Z.

(** mimc_root.go:46-67 MiMCHashBasedOnIndex *)
Definition mimc_hash_on_index (v0 v1 index : Z) : option Z :=
  assert_le p index 1 ;; r_mux1 p index 2 [H [v0; v1]; H [v1; v0]].
(** the loop of mimc_root.go:19-21 and 39-41 *)
Definition merkle_up (v : Z) (indexes branches : list Z) : option Z :=
  ofold (fun v i => mimc_hash_on_index v (nth i branches 0) (nth i indexes 0)) (seq 0 (length branches)) v.
(** mimc_root.go:9-24 MerkleRootWithLeaveHash (the comparison is between two constants) *)
Definition merkle_root_with_leaf_hash (leafHash : Z) (indexes branches : list Z) : option Z :=
  guard (Nat.leb (length branches) (length indexes)) ;; merkle_up leafHash indexes branches.
(** mimc_root.go:26-44 MerkleRootBasedOnMiMCHash *)
Definition merkle_root_mimc (leaf : Z) (indexes branches : list Z) : option Z :=
  guard (Nat.leb (length branches) (length indexes)) ;; merkle_up (H [leaf]) indexes branches.
(** smt.go:33-41 CalculateLeafValueHash; an empty leafValueTree fails the assertion (and would panic) *)
Definition leaf_value_hash (leafValueTree idx : list Z) : option Z :=
  guard (Nat.eqb (length leafValueTree) (S (length idx))) ;;
  merkle_root_mimc (nth 0 leafValueTree 0) idx (skipn 1 leafValueTree).
(** smt.go:11-31 CheckSMTInclusion; maxDepth is not used *)
Definition check_smt_inclusion (maxDepth : nat) (leafValueTree leafIdx indexes branches : list Z) (rootHash : Z) : option Z :=
  let* leafValue := leaf_value_hash leafValueTree leafIdx in
  let* h := merkle_root_mimc leafValue indexes branches in
  Some (r_equal p rootHash h).
End Path.

(** ** Bottom-up roots.  [node l r] hashes two children ([None]: panic or unsatisfiable). *)
Section Root.
Variables (N : Type) (node : N -> N -> option N).
(** for i := 0; i < len(leaves); i += 2 { ... leaves[i], leaves[i+1] ... }: an odd count panics *)
Fixpoint pair_up (l : list N) : option (list N) :=
  match l with
  | [] => Some []
  | [_] => None
  | x :: y :: r => let* h := node x y in let* t := pair_up r in Some (h :: t)
  end.
(** emulated_mimc_root.go:54-66 MimcRoot (also keccak_root.go:23-40 keccakMerkleRoot): without leaves the Go function
    recurses for ever, which is [None] here *)
Fixpoint root_loop (fuel : nat) (l : list N) : option N :=
  match l with
  | [x] => Some x
  | _ => match fuel with O => None | S f => let* t := pair_up l in root_loop f t end
  end.
Definition bottom_up_root (l : list N) : option N := root_loop (length l) l.
(** keccak_root.go:50-52 isPowerOfTwo, fabric/smt/utils.go:128 *)
Definition is_power_of_two (n : nat) : bool := negb (Nat.eqb n 0) && (Z.land (Z.of_nat n) (Z.of_nat n - 1) =? 0).
(** fabric/smt/utils.go:123-146 MimcRoot: the check is made at each level *)
Fixpoint checked_root_loop (fuel : nat) (l : list N) : option N :=
  guard (is_power_of_two (length l)) ;;
  match l with
  | [x] => Some x
  | _ => match fuel with O => None | S f => let* t := pair_up l in checked_root_loop f t end
  end.
Definition checked_root (l : list N) : option N := checked_root_loop (length l) l.
End Root.
Arguments pair_up {N}. Arguments root_loop {N}. Arguments bottom_up_root {N}. Arguments checked_root_loop {N}. Arguments checked_root {N}.

(** emulated_mimc_root.go:30-50 RestoreMimcRoot: leftRight[i] = 1 puts the path node on the left.  [H2] is Hash of two
    elements; leftRight is a native variable, f.Select asserts that it is boolean. *)
Definition restore_mimc_root {E : Type} (p : Z) (H2 : E -> E -> E) (leaf : E) (path : list E) (leftRight : list Z) (d : E) : option E :=
  guard (Nat.eqb (length path) (length leftRight)) ;;
  ofold (fun h i => let node := nth i path d in assert_bool p (nth i leftRight 0) ;;
                    Some (if nth i leftRight 0 mod p =? 1 then H2 node h else H2 h node)) (seq 0 (length path)) leaf.

(** keccak_root.go:42-48 pad *)
Definition keccak_pad (data : list Z) : list Z := data ++ [1] ++ repeat 0 574 ++ [1].
(** keccak_root.go:28-38: one node *)
Definition keccak_node (p : Z) (l r : list Z) : option (list Z) := keccak256_bits p 1 0 (keccak_pad (l ++ r)).
(** keccak_root.go:14-20 KeccakMerkleRoot *)
Definition keccak_merkle_root (p : Z) (leaves : list (list Z)) : option (list Z) :=
  guard (is_power_of_two (length leaves)) ;; bottom_up_root (keccak_node p) leaves.
