(** * Props_MptCases.v — concrete cases and refutations for C12, C13 and C14 (evaluated by the kernel) *)
From Coq Require Import ZArith List Lia Bool Arith.
From Verif Require Import ModNorm Field FieldLemmas RlpUtilModel RlpUtilProofs RlpModel RlpSpec RlpPrefixProofs RlpArrayProofs RlpArraySound MptModel MptSpec MptProofs MptPathProofs.
Import ListNotations.
Open Scope Z_scope.

(** a branch with the child 77..77 at nibble [n] and no other *)
Definition ex_branch (n : nat) (ref : list Z) : list Z :=
  let node := [15; 8; 3; 1] ++ concat (repeat [8; 0] n) ++ [10; 0] ++ ref ++ concat (repeat [8; 0] (16 - n)) in
  node ++ repeat 0 (1088 - length node).
Example C12_example : check_branch bn254 64 5 64 (repeat 7 64) (ex_branch 5 (repeat 7 64)) = Some (4, 102).
Proof. vm_compute. reflexivity. Qed.


(** ** C13 *)
(** A stand-in digest gadget for the concrete cases: range-checks its input and returns digits 12..75 of the buffer. *)
Definition toy_hash (buf : list Z) (round : Z) : option (list Z) :=
  if forallb (fun x => (0 <=? x) && (x <? 16)) buf then Some (firstn 64 (skipn 12 (buf ++ repeat 0 76))) else None.
Lemma toy_hash_ok p : hash_ok p toy_hash.
Proof.
  intros buf r d _ _ _ H. unfold toy_hash in H. destruct (forallb _ buf) eqn:E; [|discriminate]. assert (d = firstn 64 (skipn 12 (buf ++ repeat 0 76))) as -> by congruence.
  assert (N : Forall nibble buf).
  { apply Forall_forall. intros x Hx. rewrite forallb_forall in E. specialize (E x Hx). apply andb_true_iff in E. rewrite Z.leb_le, Z.ltb_lt in E. exact E. }
  split; [auto|]. split.
  - rewrite firstn_length, skipn_length, app_length, repeat_length. lia.
  - apply Forall_firstn. apply Forall_forall. intros x Hx.
    assert (Hx' : In x (buf ++ repeat 0 76)) by (rewrite <- (firstn_skipn 12 (buf ++ _)); apply in_or_app; auto).
    apply in_app_or in Hx'. destruct Hx' as [Hx'|Hx']; [rewrite Forall_forall in N; auto|]. apply repeat_spec in Hx'. subst. unfold nibble. lia.
Qed.

Definition ex_key : list Z := [5] ++ repeat 9 63.
Definition ex_value : list Z := [0; 7] ++ repeat 0 64.
Definition ex_leaf_odd : list Z := [14; 2; 10; 0; 3] ++ repeat 9 63 ++ [0; 7] ++ repeat 0 74.
Definition ex_leaf_even : list Z := [14; 2; 10; 0; 2; 0] ++ repeat 9 62 ++ [0; 7] ++ repeat 0 74.
Definition digest_of (b : list Z) : list Z := match toy_hash b 0 with Some d => d | None => [] end.
Definition ex_root : list Z := ex_branch 5 (digest_of ex_leaf_odd).
Definition ex_in (key : list Z) (starts : list Z) (root : list Z) (ty pref depth : Z) : layers_in :=
  LayersIn key starts [root] [0] [pref] [ty] depth.

(** an honest two-node proof is accepted *)
Example C13_example :
  check_mpt_fixed bn254 toy_hash 2 64 66 ex_value (digest_of ex_root) ex_leaf_odd 0 1 (ex_in ex_key [0; 1] ex_root 0 0 2) false = Some (1, 2).
Proof. vm_compute. reflexivity. Qed.
Example C13_example_hypotheses : aligned ex_leaf_odd /\ aligned ex_root /\ Forall (felt bn254) (ex_key ++ ex_value ++ ex_leaf_odd ++ ex_root).
Proof. split; [reflexivity|]. split; [reflexivity|]. apply Forall_forall. intros x Hx. assert (nibble x). 2:{ unfold nibble, felt in *. assert (16 < bn254) by reflexivity. lia. }
  assert (Q : forallb (fun x => (0 <=? x) && (x <? 16)) (ex_key ++ ex_value ++ ex_leaf_odd ++ ex_root) = true) by (vm_compute; reflexivity).
  rewrite forallb_forall in Q. specialize (Q x Hx). apply andb_true_iff in Q. rewrite Z.leb_le, Z.ltb_lt in Q. exact Q.
Qed.

(** (a) keyFragmentStarts[0] is not forced to be 0: the first digit of the key is never looked at, so the leaf of key
    digits 5 9 9 .. 9 is accepted as the value of every 64-digit key c 5 9 9 .. 9, here c = 3. *)
Definition ex_root2 : list Z := ex_branch 5 (digest_of ex_leaf_even).
Theorem C13_first_fragment_start_unconstrained_refuted :
  let key := [3; 5] ++ repeat 9 62 in
  check_mpt_fixed bn254 toy_hash 2 64 66 ex_value (digest_of ex_root2) ex_leaf_even 0 2 (ex_in key [1; 2] ex_root2 0 0 2) false = Some (1, 2) /\
  (* the root is a branch whose child at key digit 0 (= 3) is empty *)
  ex_root2 = [15; 8; 3; 1] ++ concat (repeat [8; 0] 5) ++ [10; 0] ++ digest_of ex_leaf_even ++ concat (repeat [8; 0] 11) ++ repeat 0 986.
Proof. split; vm_compute; reflexivity. Qed.

(** (b) depth = 1: the claimed root is compared with the digest of nodeRlp[0] and the leaf is not linked to it at all,
    so any key and value can be "proved" against any root node.  Here the root node refers to no child equal to the
    digest of the leaf. *)
Theorem C13_depth_one_leaf_unlinked_refuted :
  let key := [5; 1] ++ repeat 1 62 in
  let forged := [14; 3; 10; 1; 2; 0] ++ key ++ [0; 7] ++ repeat 0 72 in
  check_mpt_fixed bn254 toy_hash 2 64 66 ex_value (digest_of ex_root) forged 0 2 (ex_in key [0; 1] ex_root 0 0 1) false = Some (1, 2) /\
  digest_of forged <> digest_of ex_leaf_odd /\ digest_of forged <> digest_of ex_root.
Proof. split; [vm_compute; reflexivity|split; vm_compute; discriminate]. Qed.

(** (c) isStorageProof: the absence test of a branch looks at digit depth-1 of the key, not at the digit the path
    reached, and once it succeeds the claimed value is not compared with anything.  Here the path reaches digit 2 of
    the key 1 1 5 9 9 .. (behind an extension of two digits) where the branch has a child at 5; the test looks at digit
    1 (= 1), finds no child there and the gadget accepts the claimed value 07. *)
Definition ex_ext : list Z := [14; 4; 8; 2; 0; 0; 1; 1; 10; 0] ++ digest_of ex_root ++ repeat 0 1014.
Theorem C46_storage_absence_wrong_digit_refuted :
  let key := [1; 1; 5] ++ repeat 9 61 in
  check_mpt_fixed bn254 toy_hash 2 64 66 ex_value (digest_of ex_ext) ex_root 0 0 (ex_in key [0; 2] ex_ext 1 2 2) true = Some (1, 0).
Proof. vm_compute. reflexivity. Qed.
(** (d) isStorageProof: the absence test of an extension ignores that its buffer is not RLP: the header announces
    0x21 bytes, the fields have 0x24. *)
Theorem C46_storage_absence_not_rlp_refuted :
  let bad := [14; 1; 8; 2; 0; 0; 1; 1; 10; 0] ++ repeat 7 64 ++ repeat 0 1014 in
  let root := ex_branch 5 (digest_of bad) in
  let key := [5; 2] ++ repeat 9 62 in
  check_mpt_fixed bn254 toy_hash 2 64 66 ex_value (digest_of root) bad 0 2 (ex_in key [0; 1] root 0 0 2) true = Some (1, 64) /\
  exists t lens outs, rlp_array_check bn254 (ext_params 64 64) bad 2 = Some (0, t, lens, outs).
Proof. split; [vm_compute; reflexivity|]. do 3 eexists. vm_compute. reflexivity. Qed.

(** ** C14 *)
(** A proof with full marks is rejected, and accepted once its root hash is replaced by a wrong one. *)
Definition ex_nb_leaf : list Z := repeat 7 64.
Definition ex_nb_in : layers_in := LayersIn [5; 0; 0; 0; 0; 0; 0] [0; 1] [ex_branch 5 ex_nb_leaf] [0] [0] [0] 2.
Theorem C14_wrong_root_accepted_refuted :
  check_mpt_no_branch_term bn254 toy_hash 2 7 7 (digest_of (ex_branch 5 ex_nb_leaf)) ex_nb_leaf ex_nb_in = Some (0, 0) /\
  check_mpt_no_branch_term bn254 toy_hash 2 7 7 (repeat 1 64) ex_nb_leaf ex_nb_in = Some (1, 0) /\
  digest_of (ex_branch 5 ex_nb_leaf) <> repeat 1 64.
Proof. split; [|split]; [vm_compute; reflexivity|vm_compute; reflexivity|vm_compute; discriminate]. Qed.

