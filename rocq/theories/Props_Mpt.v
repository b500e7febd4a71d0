(** * Props_Mpt.v — properties C10 to C14 (Merkle-Patricia inclusion gadgets)

    [hash] is the digest gadget (buffer nibbles, round index); every theorem holds for any gadget that range-checks
    its input digits and returns 64 digits ([hash_ok]; Props_MptKeccak.v proves it of the repository's gadget). *)
From Coq Require Import ZArith List Lia Bool Arith.
From Verif Require Import ModNorm Field FieldLemmas RlpUtilModel RlpUtilProofs RlpModel RlpSpec RlpPrefixProofs RlpArrayProofs RlpArraySound MptModel MptSpec MptProofs MptPathProofs MptPathSound MptNoBranch.
Import ListNotations.
Open Scope Z_scope.

(** ** C10 — a full CheckLeaf score means: leaf of that key with that value; or the claimed value is the "empty" value
    0x80 00..00 and the node is a leaf of another key. *)
Theorem C10_check_leaf_sound : forall p maxKey maxValue keyLen key value leafRlp prefLen total vlen, 2 ^ 200 < p ->
  Z.of_nat maxKey < 2 ^ 60 -> Z.of_nat maxValue < 2 ^ 60 ->
  (forall x, In x key -> felt p x) -> (forall x, In x value -> felt p x) -> Z.of_nat (length key) < p -> Z.of_nat (length value) < p ->
  felt p keyLen -> felt p prefLen ->
  (10 + maxKey + maxValue <= length leafRlp)%nat -> Forall nibble leafRlp ->
  check_leaf p maxKey maxValue keyLen key value leafRlp prefLen = Some (4, total, vlen) ->
  length key = maxKey /\ length value = maxValue /\ 0 <= vlen <= Z.of_nat maxValue /\
  ((0 <= keyLen <= Z.of_nat maxKey /\
    leaf_node (firstn (10 + maxKey + maxValue) leafRlp) total (firstn (Z.to_nat keyLen) key) (firstn (Z.to_nat vlen) value)) \/
   (zero_value value /\ exists path v,
      leaf_node (firstn (10 + maxKey + maxValue) leafRlp) total path v /\
      (length path <= maxKey)%nat /\ firstn (length path) key <> path)).
Proof.
  intros p maxKey maxValue keyLen key value leafRlp prefLen total vlen Hp B1 B2 F1 F2 L1 L2 F3 F4 Hl Hn H.
  assert (E : ac_maxHexLen (leaf_params maxKey maxValue) = (10 + maxKey + maxValue)%nat) by (unfold leaf_params; cbn [ac_maxHexLen]; lia).
  rewrite <- E in *. apply check_leaf_ok in H; auto.
  destruct H as (A1 & A2 & A3 & A4 & A5 & A6 & A7). split; [auto|]. split; [auto|]. split; [auto|]. apply A7. reflexivity.
Qed.

(** the score never exceeds 4 *)
Theorem C10_check_leaf_score : forall p maxKey maxValue keyLen key value leafRlp prefLen o total vlen, 2 ^ 200 < p ->
  Z.of_nat maxKey < 2 ^ 60 -> Z.of_nat maxValue < 2 ^ 60 ->
  (forall x, In x key -> felt p x) -> (forall x, In x value -> felt p x) -> Z.of_nat (length key) < p -> Z.of_nat (length value) < p ->
  felt p keyLen -> felt p prefLen ->
  (10 + maxKey + maxValue <= length leafRlp)%nat -> Forall nibble leafRlp ->
  check_leaf p maxKey maxValue keyLen key value leafRlp prefLen = Some (o, total, vlen) -> 0 <= o <= 4.
Proof.
  intros p maxKey maxValue keyLen key value leafRlp prefLen o total vlen Hp B1 B2 F1 F2 L1 L2 F3 F4 Hl Hn H.
  assert (E : ac_maxHexLen (leaf_params maxKey maxValue) = (10 + maxKey + maxValue)%nat) by (unfold leaf_params; cbn [ac_maxHexLen]; lia).
  rewrite <- E in *. apply check_leaf_ok in H; auto. tauto.
Qed.

(** the leaf 0xc4 82 20 ab 05: key remainder a b, value 05 *)
Example C10_example :
  check_leaf bn254 4 66 2 [10; 11; 0; 0] ([0; 5] ++ repeat 0 64) ([12; 4; 8; 2; 2; 0; 10; 11; 0; 5] ++ repeat 0 70) 2 = Some (4, 10, 2).
Proof. vm_compute. reflexivity. Qed.
(** wrong value / wrong key / wrong flag *)
Example C10_example_reject :
  check_leaf bn254 4 66 2 [10; 11; 0; 0] ([0; 6] ++ repeat 0 64) ([12; 4; 8; 2; 2; 0; 10; 11; 0; 5] ++ repeat 0 70) 2 = Some (3, 10, 2) /\
  check_leaf bn254 4 66 2 [10; 12; 0; 0] ([0; 5] ++ repeat 0 64) ([12; 4; 8; 2; 2; 0; 10; 11; 0; 5] ++ repeat 0 70) 2 = Some (3, 10, 2) /\
  check_leaf bn254 4 66 2 [10; 11; 0; 0] ([0; 5] ++ repeat 0 64) ([12; 4; 8; 2; 0; 0; 10; 11; 0; 5] ++ repeat 0 70) 2 = Some (3, 10, 2).
Proof. vm_compute. auto. Qed.

(** ** C11 *)
Theorem C11_check_extension_sound : forall p maxKey maxRef keyLen key refLen refs nodeRlp prefLen total, 2 ^ 200 < p ->
  Z.of_nat maxKey < 2 ^ 60 -> Z.of_nat maxRef < 2 ^ 60 -> (16 <= maxKey + maxRef)%nat ->
  length key = maxKey -> length refs = maxRef -> (forall x, In x key -> felt p x) -> (forall x, In x refs -> felt p x) ->
  felt p keyLen -> felt p refLen -> felt p prefLen ->
  (8 + maxKey + maxRef <= length nodeRlp)%nat -> Forall nibble nodeRlp ->
  check_extension p maxKey maxRef keyLen key refLen refs nodeRlp prefLen = Some (4, total) ->
  0 <= keyLen <= Z.of_nat maxKey /\ 0 <= refLen <= Z.of_nat maxRef /\
  ext_node (firstn (8 + maxKey + maxRef) nodeRlp) total (firstn (Z.to_nat keyLen) key) (firstn (Z.to_nat refLen) refs).
Proof.
  intros p maxKey maxRef keyLen key refLen refs nodeRlp prefLen total Hp B1 B2 B3 L1 L2 F1 F2 F3 F4 F5 Hl Hn H.
  assert (E : ac_maxHexLen (ext_params maxKey maxRef) = (8 + maxKey + maxRef)%nat) by (unfold ext_params; cbn [ac_maxHexLen]; lia).
  rewrite <- E in *. apply check_extension_ok in H; auto. apply H. reflexivity.
Qed.
(** the extension 0xe2 11 a0 77..77 *)
Example C11_example :
  check_extension bn254 4 64 1 [1; 0; 0; 0] 64 (repeat 7 64) ([14; 2; 1; 1; 10; 0] ++ repeat 7 64 ++ repeat 0 10) 1 = Some (4, 70).
Proof. vm_compute. reflexivity. Qed.
Example C11_example_reject :
  check_extension bn254 4 64 1 [2; 0; 0; 0] 64 (repeat 7 64) ([14; 2; 1; 1; 10; 0] ++ repeat 7 64 ++ repeat 0 10) 1 = Some (3, 70) /\
  check_extension bn254 4 64 1 [1; 0; 0; 0] 64 (repeat 7 63 ++ [8]) ([14; 2; 1; 1; 10; 0] ++ repeat 7 64 ++ repeat 0 10) 1 = Some (3, 70).
Proof. vm_compute. auto. Qed.

(** ** C12 *)
Theorem C12_check_branch_sound : forall p keyNibble refLen refs nodeRlp total, 2 ^ 200 < p ->
  length refs = 64%nat -> (forall x, In x refs -> felt p x) -> felt p keyNibble -> felt p refLen ->
  (1064 <= length nodeRlp)%nat -> Forall nibble nodeRlp ->
  check_branch p 64 keyNibble refLen refs nodeRlp = Some (4, total) ->
  0 <= refLen <= 64 /\ branch_node (firstn 1064 nodeRlp) total keyNibble (firstn (Z.to_nat refLen) refs).
Proof.
  intros p kn refLen refs nodeRlp total Hp L F1 F2 F3 Hl Hn H. apply check_branch_ok in H; auto. apply H. reflexivity.
Qed.
(** a child nibble of 16 or more is unsatisfiable *)
Theorem C12_check_branch_nibble : forall p keyNibble refLen refs nodeRlp o total, 2 ^ 200 < p ->
  length refs = 64%nat -> (forall x, In x refs -> felt p x) -> felt p keyNibble -> felt p refLen ->
  (1064 <= length nodeRlp)%nat -> Forall nibble nodeRlp ->
  check_branch p 64 keyNibble refLen refs nodeRlp = Some (o, total) -> 0 <= keyNibble < 16 /\ 0 <= o <= 4.
Proof.
  intros p kn refLen refs nodeRlp o total Hp L F1 F2 F3 Hl Hn H. apply check_branch_ok in H; auto. tauto.
Qed.
(** ** C13 — CheckMPTInclusionFixedKeyLength with isStorageProof = false.
    [walk] and [last_leaf] are defined in MptSpec.v.  The walk starts at the digit keyFragmentStarts[0] and the claim
    needs depth >= 2; both restrictions are necessary, see the refutations in Props_MptCases.v. *)
Theorem C13_mpt_inclusion_sound : forall p hash maxDepth keyLen maxValue value rootHash lastRlp lastRound leafPref i vlen, 2 ^ 200 < p ->
  hash_ok p hash ->
  Z.of_nat maxValue < 2 ^ 60 -> Z.of_nat (length lastRlp) < 2 ^ 60 -> Z.of_nat (length value) < 2 ^ 60 -> (keyLen <= 64)%nat -> (maxDepth <= 100)%nat ->
  length rootHash = 64%nat -> felts p value -> felts p rootHash -> felts p lastRlp -> aligned lastRlp -> felt p lastRound -> felt p leafPref -> layers_felts p i ->
  check_mpt_fixed p hash maxDepth keyLen maxValue value rootHash lastRlp lastRound leafPref i false = Some (1, vlen) ->
  2 <= li_depth i ->
  keyLen = 64%nat /\ 0 <= vlen <= Z.of_nat maxValue /\ li_depth i <= Z.of_nat maxDepth /\
  exists t, walk (hashed p hash) (li_key i) (last_leaf (74 + maxValue) (li_key i) value vlen)
    (nth 0 (li_starts i) 0) rootHash t (firstn (Z.to_nat (li_depth i) - 1) (li_nodes i) ++ [lastRlp]).
Proof.
  intros p hash maxDepth keyLen maxValue value rootHash lastRlp lastRound leafPref i vlen Hp Hh B1 B2 B3 B4 B5 L1 F1 F2 F3 F6 F7 F4 F5 H HD.
  destruct (mpt_fixed_sound p Hp hash Hh _ _ _ _ _ _ _ _ _ _ _ B1 B2 B3 B4 B5 L1 F1 F2 F3 F6 F7 F4 F5 H HD) as (A1 & A2 & A3 & A4 & t & W).
  split; [auto|]. split; [auto|]. split; [auto|]. exists t.
  assert (M : forall l1 l2 : Z -> list Z -> Prop, (forall s b, l1 s b -> l2 s b) -> forall s d t ns, walk (hashed p hash) (li_key i) l1 s d t ns -> walk (hashed p hash) (li_key i) l2 s d t ns).
  { intros l1 l2 Hl s d t0 ns W0. induction W0; [apply walk_last; auto|eapply walk_branch; eauto|eapply walk_ext; eauto]. }
  eapply M; [|exact W]. cbv beta. intros s b [Q|[Q _]]; [exact Q|discriminate].
Qed.

(** With isStorageProof = true the last node may instead show absence.  [foreign_ext] (MptSpec.v) is all the extension
    test establishes: it looks at the first item only and compares its path with the whole remaining key. *)
Theorem C46_mpt_storage_inclusion_sound : forall p hash maxDepth keyLen maxValue value rootHash lastRlp lastRound leafPref i vlen, 2 ^ 200 < p ->
  hash_ok p hash ->
  Z.of_nat maxValue < 2 ^ 60 -> Z.of_nat (length lastRlp) < 2 ^ 60 -> Z.of_nat (length value) < 2 ^ 60 -> (keyLen <= 64)%nat -> (maxDepth <= 100)%nat ->
  length rootHash = 64%nat -> felts p value -> felts p rootHash -> felts p lastRlp -> aligned lastRlp -> felt p lastRound -> felt p leafPref -> layers_felts p i ->
  check_mpt_fixed p hash maxDepth keyLen maxValue value rootHash lastRlp lastRound leafPref i true = Some (1, vlen) ->
  2 <= li_depth i ->
  keyLen = 64%nat /\ 0 <= vlen <= Z.of_nat maxValue /\ li_depth i <= Z.of_nat maxDepth /\
  exists t, walk (hashed p hash) (li_key i)
      (fun s buf => last_leaf (74 + maxValue) (li_key i) value vlen s buf \/
         (exists its total, list_node (firstn branch_window buf) its total /\ length its = 17%nat /\
            let nib := nth (Z.to_nat (li_depth i - 1)) (li_key i) 0 in 0 <= nib < 17 /\ payload (nth (Z.to_nat nib) its ([], [])) = []) \/
         foreign_ext (firstn ext_window buf) (slice s 64 (li_key i)))
    (nth 0 (li_starts i) 0) rootHash t (firstn (Z.to_nat (li_depth i) - 1) (li_nodes i) ++ [lastRlp]).
Proof.
  intros p hash maxDepth keyLen maxValue value rootHash lastRlp lastRound leafPref i vlen Hp Hh B1 B2 B3 B4 B5 L1 F1 F2 F3 F6 F7 F4 F5 H HD.
  destruct (mpt_fixed_sound p Hp hash Hh _ _ _ _ _ _ _ _ _ _ _ B1 B2 B3 B4 B5 L1 F1 F2 F3 F6 F7 F4 F5 H HD) as (A1 & A2 & A3 & A4 & t & W).
  split; [auto|]. split; [auto|]. split; [auto|]. exists t.
  assert (M : forall l1 l2 : Z -> list Z -> Prop, (forall s b, l1 s b -> l2 s b) -> forall s d t ns, walk (hashed p hash) (li_key i) l1 s d t ns -> walk (hashed p hash) (li_key i) l2 s d t ns).
  { intros l1 l2 Hl s d t0 ns W0. induction W0; [apply walk_last; auto|eapply walk_branch; eauto|eapply walk_ext; eauto]. }
  eapply M; [|exact W]. cbv beta. intros s b [Q|[_ Q]]; [left; exact Q|right]. exact Q.
Qed.

(** ** C14 — CheckMPTInclusionNoBranchTermination.
    The score is compared with 4 depth + 1 although 4 depth + 2 is what a valid proof reaches: the answer is 1 exactly
    when one point is missing. *)
Theorem C14_no_branch_termination_score : forall p hash maxDepth maxKey keyLength rootHash leafHash i out vl, 2 ^ 200 < p -> hash_ok p hash ->
  (maxDepth <= 100)%nat -> (1 <= maxKey)%nat -> 0 <= keyLength < 2 ^ 60 ->
  length rootHash = 64%nat -> length leafHash = 64%nat -> Forall nibble leafHash -> felts p rootHash -> layers_felts p i ->
  check_mpt_no_branch_term p hash maxDepth maxKey keyLength rootHash leafHash i = Some (out, vl) ->
  exists fv rs root,
    frags_valid p (fun k => fsub p 1 (nth k (li_types i) 0)) maxDepth keyLength (li_starts i) (li_depth i) = Some fv /\
    layers_loop p hash maxKey (nb_sub p maxKey i) i (leafHash, 64) (maxDepth - 1) 0 = Some (rs, Some root) /\
    is_bit fv /\ 1 <= li_depth i <= Z.of_nat maxDepth /\
    (forall k, (k < maxDepth - 1)%nat -> 0 <= layer_score i rs k <= 4) /\
    out = bit_of ((if list_eq_dec Z.eq_dec rootHash (fst root) then 1 else 0) + fv
             + zsum (map (layer_score i rs) (seq 0 (Z.to_nat (li_depth i) - 1))) =? 4 * (li_depth i - 1) + 1).
Proof. intros p hash maxDepth maxKey keyLength rootHash leafHash i out vl Hp Hh. apply no_branch_score; auto. Qed.

(** so a proof with full marks — right root, valid path, every layer perfect — is always rejected ... *)
Theorem C14_valid_proof_rejected_refuted : forall p hash maxDepth maxKey keyLength rootHash leafHash i out vl, 2 ^ 200 < p -> hash_ok p hash ->
  (maxDepth <= 100)%nat -> (1 <= maxKey)%nat -> 0 <= keyLength < 2 ^ 60 ->
  length rootHash = 64%nat -> length leafHash = 64%nat -> Forall nibble leafHash -> felts p rootHash -> layers_felts p i ->
  check_mpt_no_branch_term p hash maxDepth maxKey keyLength rootHash leafHash i = Some (out, vl) ->
  frags_valid p (fun k => fsub p 1 (nth k (li_types i) 0)) maxDepth keyLength (li_starts i) (li_depth i) = Some 1 ->
  (forall rs root, layers_loop p hash maxKey (nb_sub p maxKey i) i (leafHash, 64) (maxDepth - 1) 0 = Some (rs, Some root) ->
     rootHash = fst root /\ forall k, Z.of_nat k < li_depth i - 1 -> layer_score i rs k = 4) ->
  out = 0.
Proof. intros p hash maxDepth maxKey keyLength rootHash leafHash i out vl Hp Hh. eapply no_branch_full_score_rejected; eauto. Qed.

(** The path rule (nodeTypes 1 = extension, 0 = branch).  Fixed-length variant: a branch consumes one digit. *)
Theorem C14_path_rule_fixed : forall p types maxDepth keyLength starts depth, 2 ^ 200 < p ->
  (1 <= maxDepth <= 100)%nat -> felts p starts -> (forall k, felt p (nth k types 0)) -> 0 <= keyLength < 2 ^ 60 -> felt p depth ->
  frags_valid p (fun k => nth k types 0) maxDepth keyLength starts depth = Some 1 ->
  forall k, Z.of_nat k < depth -> (S k < maxDepth)%nat ->
    nth k starts 0 < nth (S k) starts 0 /\ nth k starts 0 < keyLength /\
    (nth k types 0 = 0 -> nth (S k) starts 0 = nth k starts 0 + 1).
Proof.
  intros p types maxDepth keyLength starts depth Hp B1 F1 F2 B2 F3 H k K1 K2. apply frags_valid_ok in H; auto.
  destruct H as (_ & _ & _ & H). destruct (H eq_refl k K1) as [A B]. destruct (B K2) as [C D]. split; [auto|]. split; [auto|]. intros E. destruct D as [D|D]; [auto|lia].
Qed.
(** No-branch-termination variant: it is the extension that is forced to consume one digit, and a branch may skip
    any number of digits. *)
Theorem C14_path_rule_no_branch_refuted : forall p types maxDepth keyLength starts depth, 2 ^ 200 < p ->
  (1 <= maxDepth <= 100)%nat -> felts p starts -> 0 <= keyLength < 2 ^ 60 -> felt p depth ->
  frags_valid p (fun k => fsub p 1 (nth k types 0)) maxDepth keyLength starts depth = Some 1 ->
  forall k, Z.of_nat k < depth -> (S k < maxDepth)%nat -> nth k types 0 = 1 -> nth (S k) starts 0 = nth k starts 0 + 1.
Proof.
  intros p types maxDepth keyLength starts depth Hp B1 F1 B2 F3 H k K1 K2 T. apply frags_valid_ok in H; auto.
  2:{ intros; apply felt_fsub; zlia. }
  destruct H as (_ & _ & _ & H). destruct (H eq_refl k K1) as [A B]. destruct (B K2) as [C D]. destruct D as [D|D]; [auto|].
  rewrite T in D. unfold fsub in D. rewrite Zmod_0_l in D. discriminate.
Qed.
Example C14_path_rule_example :
  frags_valid bn254 (fun k => nth k [1; 0] 0) 3 6 [0; 2; 3] 2 = Some 1 /\
  frags_valid bn254 (fun k => fsub bn254 1 (nth k [1; 0] 0)) 3 6 [0; 2; 3] 2 = Some 0 /\
  frags_valid bn254 (fun k => fsub bn254 1 (nth k [0; 0] 0)) 3 6 [0; 2; 3] 2 = Some 1.
Proof. vm_compute. auto. Qed.
