(** * Props_MptComplete.v — C10-C12, the other direction: the node checks accept every well-formed node that fits.

    Specification: the RLP encoder [rlp] and nibble expansion [nib] of RlpEnc.v / RlpBridge.v and the hex-prefix
    encoding [hex_prefix] of MptSpec.v (flag digit 0/1 for extensions, 2/3 for leaves).  A node is the two-item list
    [path; payload] or the seventeen-item list of a branch; its nibbles stand at the front of the buffer and anything may follow. *)
From Coq Require Import ZArith List Lia Bool Arith.
From Verif Require Import Field FieldLemmas RlpUtilModel RlpModel RlpSpec RlpEnc RlpBridge MptModel MptSpec MptProofs MptPathProofs MptComplete.
Import ListNotations.
Open Scope Z_scope.

(** C10: CheckLeaf gives the full score 4 (with the node's length and the value's length in nibbles) on every leaf
    node whose path is the front of the given key part and whose value is the front of the given value. *)
Theorem C10_check_leaf_complete : forall p, 2 ^ 200 < p -> forall maxValue key value buf kb vb path rest,
  (66 <= maxValue <= 255)%nat -> length key = 64%nat -> (forall x, In x key -> felt p x) ->
  length value = maxValue -> (forall x, In x value -> felt p x) ->
  Forall nibble buf -> (74 + maxValue <= length buf)%nat ->
  Forall is_byte kb -> Forall is_byte vb ->
  buf = nib (rlp (RList [RStr kb; RStr vb])) ++ rest ->
  nib kb = hex_prefix 1 path -> (length path <= 64)%nat -> firstn (length path) key = path ->
  (2 * length vb <= maxValue)%nat -> (length vb < 56 \/ 128 <= maxValue)%nat -> firstn (2 * length vb) value = nib vb ->
  (2 * length (rlp (RList [RStr kb; RStr vb])) <= 74 + maxValue)%nat ->
  check_leaf p 64 maxValue (Z.of_nat (length path)) key value buf (if Nat.even (length path) then 2 else 1) =
    Some (4, Z.of_nat (2 * length (rlp (RList [RStr kb; RStr vb]))), Z.of_nat (2 * length vb)).
Proof. intros. eapply leaf_complete; eauto. Qed.

(** C11: CheckExtension gives the full score 4 on every extension node with the given path and child reference. *)
Theorem C11_check_extension_complete : forall p, 2 ^ 200 < p -> forall key refs buf kb vb path rest,
  length key = 64%nat -> (forall x, In x key -> felt p x) -> length refs = 64%nat -> (forall x, In x refs -> felt p x) ->
  Forall nibble buf -> (136 <= length buf)%nat -> Forall is_byte kb -> Forall is_byte vb ->
  buf = nib (rlp (RList [RStr kb; RStr vb])) ++ rest ->
  nib kb = hex_prefix 0 path -> (length path <= 64)%nat -> firstn (length path) key = path ->
  (length vb <= 32)%nat -> firstn (2 * length vb) refs = nib vb ->
  (length (rlp (RList [RStr kb; RStr vb])) <= 68)%nat ->
  check_extension p 64 64 (Z.of_nat (length path)) key (Z.of_nat (2 * length vb)) refs buf (if Nat.even (length path) then 2 else 1) =
    Some (4, Z.of_nat (2 * length (rlp (RList [RStr kb; RStr vb])))).
Proof. intros. eapply ext_complete; eauto. Qed.

(** C12: CheckBranch gives the full score 4 on every branch node of sixteen children (byte strings of at most 32
    bytes, empty = absent) without a value, when the reference is the child selected by the key nibble. *)
Theorem C12_check_branch_complete : forall p, 2 ^ 200 < p -> forall keyNibble refs buf children rest,
  length refs = 64%nat -> (forall x, In x refs -> felt p x) -> Forall nibble buf -> (1064 <= length buf)%nat ->
  length children = 16%nat -> (forall c, In c children -> Forall is_byte c /\ (length c <= 32)%nat) ->
  buf = nib (rlp (RList (map RStr (children ++ [[]])))) ++ rest ->
  0 <= keyNibble < 16 ->
  firstn (2 * length (nth (Z.to_nat keyNibble) children [])) refs = nib (nth (Z.to_nat keyNibble) children []) ->
  check_branch p 64 keyNibble (Z.of_nat (2 * length (nth (Z.to_nat keyNibble) children []))) refs buf =
    Some (4, Z.of_nat (2 * length (rlp (RList (map RStr (children ++ [[]])))))).
Proof.
  intros p Hp kn refs buf cs rest L F N LB LC HC E K R.
  apply (branch_complete p Hp kn refs buf cs rest L F N LB E LC); try assumption. apply Forall_forall. exact HC.
Qed.

(** Non-vacuity: an odd leaf path of three nibbles, an even extension path of four, and a branch whose only children are 5 and 11. *)
Definition cx_p : Z := 2 ^ 253 + 1.
Lemma cx_big : 2 ^ 200 < cx_p. Proof. reflexivity. Qed.
Lemma cx_in b l : forallb (fun x => (0 <=? x) && (x <? b)) l = true -> forall x, In x l -> 0 <= x < b.
Proof. intros H x I. apply (proj1 (forallb_forall _ l) H) in I. apply andb_true_iff in I. destruct I as [A B]. apply Z.leb_le in A. apply Z.ltb_lt in B. lia. Qed.
Lemma cx_felts l : forallb (fun x => (0 <=? x) && (x <? 16)) l = true -> forall x, In x l -> felt cx_p x.
Proof. intros H x I. apply (cx_in 16 l H) in I. unfold felt. assert (16 < cx_p) by reflexivity. lia. Qed.
Lemma cx_nibs l : forallb (fun x => (0 <=? x) && (x <? 16)) l = true -> Forall nibble l.
Proof. intros H. apply Forall_forall. intros x I. apply (cx_in 16 l H) in I. unfold nibble. lia. Qed.
Lemma cx_bytes l : forallb (fun x => (0 <=? x) && (x <? 256)) l = true -> Forall is_byte l.
Proof. intros H. apply Forall_forall. intros x I. apply (cx_in 256 l H) in I. unfold is_byte. lia. Qed.
Definition cx_leaf : list Z := nib (rlp (RList [RStr [58; 188]; RStr [7; 8; 9]])).
Definition cx_value : list Z := nib [7; 8; 9] ++ repeat 1 60.
Example C10_complete_case : check_leaf cx_p 64 66 3 ([10; 11; 12] ++ repeat 15 61) cx_value (cx_leaf ++ repeat 9 126) 1 = Some (4, 16, 6).
Proof.
  apply (C10_check_leaf_complete cx_p cx_big 66 ([10; 11; 12] ++ repeat 15 61) cx_value (cx_leaf ++ repeat 9 126) [58; 188] [7; 8; 9] [10; 11; 12] (repeat 9 126)); try reflexivity; try (cbn; lia).
  - apply cx_felts. reflexivity.
  - apply cx_felts. reflexivity.
  - apply cx_nibs. reflexivity.
  - apply cx_bytes. reflexivity.
  - apply cx_bytes. reflexivity.
Qed.
Definition cx_child : list Z := repeat 171 32.
Definition cx_ext : list Z := nib (rlp (RList [RStr [0; 18; 52]; RStr cx_child])).
Example C11_complete_case : check_extension cx_p 64 64 4 ([1; 2; 3; 4] ++ repeat 15 60) 64 (nib cx_child) (cx_ext ++ repeat 9 100) 2 = Some (4, 76).
Proof.
  apply (C11_check_extension_complete cx_p cx_big ([1; 2; 3; 4] ++ repeat 15 60) (nib cx_child) (cx_ext ++ repeat 9 100) [0; 18; 52] cx_child [1; 2; 3; 4] (repeat 9 100)); try reflexivity; try (cbn; lia).
  - apply cx_felts. reflexivity.
  - apply cx_felts. reflexivity.
  - apply cx_nibs. reflexivity.
  - apply cx_bytes. reflexivity.
  - apply cx_bytes. reflexivity.
Qed.
Definition cx_children : list (list Z) := repeat [] 5 ++ [cx_child] ++ repeat [] 5 ++ [[1; 2; 3]] ++ repeat [] 4.
Example C12_complete_case : check_branch cx_p 64 5 64 (nib cx_child) (nib (rlp (RList (map RStr (cx_children ++ [[]])))) ++ repeat 9 1000) = Some (4, 106).
Proof.
  apply (C12_check_branch_complete cx_p cx_big 5 (nib cx_child) (nib (rlp (RList (map RStr (cx_children ++ [[]])))) ++ repeat 9 1000) cx_children (repeat 9 1000)); try reflexivity; try (cbn; lia).
  - apply cx_felts. reflexivity.
  - apply Forall_app. split; [apply cx_nibs; reflexivity|]. apply Forall_forall. intros x I. apply repeat_spec in I. subst. unfold nibble. lia.
  - intros c I. apply in_app_or in I. destruct I as [I|I]; [apply repeat_spec in I; subst; cbn; split; [constructor|lia]|].
    cbn [app] in I. destruct I as [<-|I]; [split; [apply Forall_forall; intros x J; apply repeat_spec in J; subst; unfold is_byte; lia|cbn; lia]|].
    repeat (destruct I as [<-|I]; [cbn; split; [repeat (constructor; [unfold is_byte; lia|]); constructor|lia]|]). destruct I.
Qed.
