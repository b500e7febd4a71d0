(** * MptSpec.v — independent specification of Merkle-Patricia trie nodes on nibble buffers
    (Ethereum yellow paper, appendices C and D), using the RLP specification of RlpSpec.v. *)
From Coq Require Import ZArith List Lia Bool Arith.
From Verif Require Import RlpSpec.
Import ListNotations.
Open Scope Z_scope.

(** Hex-prefix encoding (appendix C) as nibbles; [t] is 1 for a leaf, 0 for an extension. *)
Definition hex_prefix (t : Z) (path : list Z) : list Z :=
  if Nat.even (length path) then [2 * t; 0] ++ path else [2 * t + 1] ++ path.

(** Digits [from, to) of a key. *)
Definition slice (from to : Z) (key : list Z) : list Z :=
  firstn (Z.to_nat (to - from)) (skipn (Z.to_nat from) key).

(** The front of buffer [buf] holds the RLP items [its] behind a header announcing a total of [total] nibbles.
    Unless one of the items is the empty list 0xc0 the front of the buffer is one well-formed RLP list. *)
Definition list_node (buf : list Z) (its : list item) (total : Z) : Prop :=
  exists h, reads buf (h ++ encs its) /\ Forall is_item its /\
    (~ In empty_list_enc (map enc its) ->
       list_header h /\ rlp_item (h ++ encs its) h (encs its) /\ total = Z.of_nat (length (h ++ encs its))).

Definition leaf_node (buf : list Z) (total : Z) (path value : list Z) : Prop :=
  exists k v, list_node buf [k; v] total /\ payload k = hex_prefix 1 path /\ payload v = value.
Definition ext_node (buf : list Z) (total : Z) (frag ref : list Z) : Prop :=
  exists k v, list_node buf [k; v] total /\ payload k = hex_prefix 0 frag /\ payload v = ref.
Definition branch_node (buf : list Z) (total : Z) (nib : Z) (ref : list Z) : Prop :=
  exists its, list_node buf its total /\ length its = 17%nat /\ 0 <= nib < 16 /\
    payload (nth (Z.to_nat nib) its ([], [])) = ref.

(** How a parent refers to a child whose announced RLP length is [total] nibbles and whose digest is [d]. *)
Definition ref_of (total : Z) (d : list Z) : list Z := firstn (Z.to_nat (if total <? 63 then total else 64)) d.

(** Number of front nibbles of a node buffer that are read when it is parsed as an extension (4 header, 66 path,
    2 + 64 reference) or as a branch. *)
Definition ext_window : nat := 136.
Definition branch_window : nat := 1064.

(** [walk hashed key last_ok s d t nodes]: reading [key] from digit [s] on, the node buffers [nodes] form a connected
    trie path: every node hashes to the digest its parent's reference is taken from, the parent is a branch that
    refers to it at the key digit (one digit consumed) or an extension that refers to it behind exactly the key digits
    consumed, and the last node satisfies [last_ok] at the digit reached.  [d], [t]: digest of the first node and the
    length it announces (the buffer length for the last one). *)
Inductive walk (hashed : list Z -> list Z -> Prop) (key : list Z) (last_ok : Z -> list Z -> Prop)
  : Z -> list Z -> Z -> list (list Z) -> Prop :=
| walk_last : forall s d buf, hashed buf d -> last_ok s buf ->
    walk hashed key last_ok s d (Z.of_nat (length buf)) [buf]
| walk_branch : forall s d t buf d' t' rest, hashed buf d ->
    branch_node (firstn branch_window buf) t (nth (Z.to_nat s) key 0) (ref_of t' d') ->
    walk hashed key last_ok (s + 1) d' t' rest -> walk hashed key last_ok s d t (buf :: rest)
| walk_ext : forall s s' d t buf d' t' rest, hashed buf d -> s < s' ->
    ext_node (firstn ext_window buf) t (slice s s' key) (ref_of t' d') ->
    walk hashed key last_ok s' d' t' rest -> walk hashed key last_ok s d t (buf :: rest).

(** What a value of [value] entries that starts with 0x80 followed by 64 zero digits stands for: "empty". *)
Definition zero_value (value : list Z) : Prop := firstn 2 value = [8; 0] /\ firstn 64 (skipn 2 value) = repeat 0 64.

(** The last node is the leaf of [key] holding [vlen] digits of [value], or [value] is the empty value and the node
    is a leaf of another key. *)
Definition last_leaf (window : nat) (key value : list Z) (vlen : Z) (s : Z) (buf : list Z) : Prop :=
  exists total,
    leaf_node (firstn window buf) total (slice s 64 key) (firstn (Z.to_nat vlen) value) \/
    (zero_value value /\ exists path v, leaf_node (firstn window buf) total path v /\ path <> slice s 64 key).

(** The extension absence test: behind the list header that the first byte of [window] announces (which is not checked
    against the length of the items) stands one RLP item, the hex-prefix form of an extension path other than [rest]. *)
Definition announced_header (window : list Z) : nat :=
  match classify (16 * nth 0 window 0 + nth 1 window 0) with HLongList k => (2 + 2 * Z.to_nat k)%nat | _ => 2%nat end.
Definition foreign_ext (window rest : list Z) : Prop :=
  exists k frag tail, skipn (announced_header window) window = enc k ++ tail /\ is_item k /\ payload k = hex_prefix 0 frag /\ frag <> rest.
