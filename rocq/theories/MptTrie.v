(** * MptTrie.v — specification: a Merkle-Patricia path from a root digest to the leaf of a key, at byte level, and the
    circuit inputs an honest prover derives from it (used by Props_MptPathComplete.v). *)
From Coq Require Import ZArith List Lia Bool Arith.
From Verif Require Import RlpSpec RlpEnc RlpBridge MptModel MptSpec.
Import ListNotations.
Open Scope Z_scope.

(** One inner node: its (padded) nibble buffer, the round index of its digest, and the digits an extension consumes
    ([None] for a branch, which consumes one). *)
Record hop := Hop { h_buf : list Z; h_round : Z; h_frag : option (list Z) }.
Definition consumed (h : hop) : nat := match h_frag h with None => 1%nat | Some f => length f end.

(** Read at key digit [s], the node refers to the child whose digest is [d]: a branch of sixteen byte strings of at most
    32 bytes without a value whose child at that digit is [d]; or an extension over exactly the next digits. *)
Definition refers (key : list Z) (s : nat) (h : hop) (d : list Z) : Prop :=
  match h_frag h with
  | None => exists children rest, length children = 16%nat /\ (forall c, In c children -> Forall is_byte c /\ (length c <= 32)%nat) /\
      h_buf h = nib (rlp (RList (map RStr (children ++ [[]])))) ++ rest /\ nib (nth (Z.to_nat (nth s key 0)) children []) = d
  | Some f => f <> [] /\ firstn (length f) (skipn s key) = f /\ exists kb vb rest, Forall is_byte kb /\ Forall is_byte vb /\
      h_buf h = nib (rlp (RList [RStr kb; RStr vb])) ++ rest /\ nib kb = hex_prefix 0 f /\ nib vb = d
  end.

(** [trie_path digest key s d hops buf round value] ([digest buf round d]: the node in buffer [buf] has digest [d]): from digit [s] on, the node with digest [d] is the first of [hops] (or
    the leaf when there are none), each node refers to the next one's digest, and [buf] is the leaf holding the remaining
    digits of [key] and [value]. *)
Inductive trie_path (digest : list Z -> Z -> list Z -> Prop) (key : list Z) : nat -> list Z -> list hop -> list Z -> Z -> list Z -> Prop :=
| tp_leaf : forall s d buf r kb value rest, (s < length key)%nat -> digest buf r d -> Forall is_byte kb ->
    buf = nib (rlp (RList [RStr kb; RStr value])) ++ rest -> nib kb = hex_prefix 1 (skipn s key) ->
    trie_path digest key s d [] buf r value
| tp_hop : forall s d h d' hops buf r value, digest (h_buf h) (h_round h) d -> refers key s h d' ->
    trie_path digest key (s + consumed h) d' hops buf r value -> trie_path digest key s d (h :: hops) buf r value.

(** The same walk up to a node in [buf] about which nothing is said (absence proofs end in a leaf of another key or in a
    branch without a child). *)
Inductive trie_to (digest : list Z -> Z -> list Z -> Prop) (key : list Z) : nat -> list Z -> list hop -> list Z -> Z -> Prop :=
| tt_end : forall s d buf r, (s < length key)%nat -> digest buf r d -> trie_to digest key s d [] buf r
| tt_hop : forall s d h d' hops buf r, digest (h_buf h) (h_round h) d -> refers key s h d' ->
    trie_to digest key (s + consumed h) d' hops buf r -> trie_to digest key s d (h :: hops) buf r.

(** The honest inputs for [maxDepth] layers, unused layers filled with [fill]: fragment starts (64 once the key is used
    up), node buffers, round indices, hex-prefix flag lengths, node types (0 branch, 1 extension) and the depth. *)
Fixpoint starts_from (s : nat) (hops : list hop) : list nat :=
  match hops with [] => [s] | h :: t => s :: starts_from (s + consumed h) t end.
Definition hop_pref (h : hop) : Z := match h_frag h with None => 0 | Some f => if Nat.even (length f) then 2 else 1 end.
Definition hop_type (h : hop) : Z := match h_frag h with None => 0 | Some _ => 1 end.
Definition honest (maxDepth : nat) (key fill : list Z) (hops : list hop) : layers_in :=
  let n := (maxDepth - S (length hops))%nat in
  LayersIn key (map Z.of_nat (starts_from 0 hops) ++ repeat 64 n) (map h_buf hops ++ repeat fill n) (map h_round hops ++ repeat 0 n)
    (map hop_pref hops ++ repeat 0 n) (map hop_type hops ++ repeat 1 n) (Z.of_nat (S (length hops))).
(** digits consumed before the leaf, and the length of the leaf's hex-prefix flag *)
Definition digits_used (hops : list hop) : nat := list_sum (map consumed hops).
Definition leaf_flag (key : list Z) (hops : list hop) : Z := if Nat.even (length key - digits_used hops) then 2 else 1.
