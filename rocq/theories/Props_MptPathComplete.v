(** * Props_MptPathComplete.v — C80: the fixed-key-length inclusion gadget accepts every Merkle-Patricia path.

    Specification (MptTrie.v): [trie_path digest key s d hops buf round value] — a path of byte-level RLP nodes (branches
    with sixteen byte strings of at most 32 bytes, extensions) linked by their digests from [d] down to the leaf in [buf]
    that holds the rest of [key] and [value]; [honest] — the layer inputs computed from it. *)
From Coq Require Import ZArith List Lia Bool Arith.
From Verif Require Import Field FieldLemmas RlpUtilModel RlpUtilProofs RlpSpec RlpPrefixProofs RlpArrayProofs RlpEnc RlpBridge KeccakSpec KeccakModel KeccakWords KeccakNibbles KeccakPadModel KeccakPad MptModel MptSpec MptTrie MptPathProofs MptPathSound MptComplete MptPathComplete MptPathComplete2 Props_Keccak Props_MptKeccak.
Import ListNotations.
Open Scope Z_scope.

(** The sizes the gadget is compiled for: nibble buffers of whole 16-digit words, at least 1064 digits for inner nodes
    and 74 + maxValue for the leaf, and a value buffer of 66 to 255 digits. *)
Definition hops_ok (p : Z) (hops : list hop) : Prop :=
  forall h, In h hops -> Forall nibble (h_buf h) /\ aligned (h_buf h) /\ (1064 <= length (h_buf h))%nat /\ felt p (h_round h).
Definition leaf_ok (p : Z) (maxValue : nat) (buf : list Z) (round : Z) (value v : list Z) : Prop :=
  Forall nibble buf /\ aligned buf /\ Z.of_nat (length buf) < 2 ^ 60 /\ felt p round /\ (66 <= maxValue <= 255)%nat /\ (74 + maxValue <= length buf)%nat /\
  length value = maxValue /\ (forall x, In x value -> felt p x) /\
  Forall is_byte v /\ (2 * length v <= maxValue)%nat /\ (length v < 56 \/ 128 <= maxValue)%nat /\ firstn (2 * length v) value = nib v.

(** C80: with the honest inputs of a path of two or more nodes the gadget is satisfiable, outputs 1 and returns the
    value's length, whatever digest gadget is used. *)
Theorem C80_mpt_inclusion_complete : forall p hash maxDepth maxValue W key hops root buf round value v, 2 ^ 200 < p -> hash_ok p hash ->
  (maxDepth <= 10)%nat -> (1 <= length hops < maxDepth)%nat -> length key = 64%nat -> Forall nibble key ->
  (1064 <= W)%nat -> aligned (repeat 0 W) -> (exists d, hash (repeat 0 W) 0 = Some d) ->
  hops_ok p hops -> leaf_ok p maxValue buf round value v ->
  trie_path (fun b r d => hash b r = Some d) key 0 root hops buf round v ->
  check_mpt_fixed p hash maxDepth 64 maxValue value root buf round (leaf_flag key hops) (honest maxDepth key (repeat 0 W) hops) false
    = Some (1, Z.of_nat (2 * length v)).
Proof.
  intros p hash maxDepth maxValue W key hops root buf round value v Hp Hh H1 H2 H3 H4 H5 H6 H7 H8 (L1 & L2 & L3 & L4 & L5 & L6 & L7 & L8 & L9 & L10 & L11 & L12) H9.
  apply (mpt_complete p Hp hash Hh); assumption.
Qed.

(** The Keccak-256 digest of a node whose Keccak padding stands at the front of the buffer. *)
Definition node_keccak (buf : list Z) (round : Z) (d : list Z) : Prop :=
  exists m rest, nibble_bytes buf = pad101_bytes m ++ rest /\ round = keccak_round_for_padded (pad101_bytes m) /\
    length d = 64%nat /\ Forall nibble d /\ bytes_bits (nibble_bytes d) = keccak256 m.
Lemma trie_path_mono : forall (P : list Z -> Z -> Prop) (D1 D2 : list Z -> Z -> list Z -> Prop) key s d hops buf r v,
  (forall b k x, P b k -> D1 b k x -> D2 b k x) -> (forall h, In h hops -> P (h_buf h) (h_round h)) -> P buf r ->
  trie_path D1 key s d hops buf r v -> trie_path D2 key s d hops buf r v.
Proof.
  intros P D1 D2 key s d hops buf r v HD HI HL T. induction T as [s d buf r kb value rest A B C E F|s d h d' hops buf r value A B T IH].
  - eapply tp_leaf; eauto.
  - eapply tp_hop; [apply HD; [apply HI; left; reflexivity|exact A]|exact B|]. apply IH; [|exact HL]. intros x I. apply HI. right. exact I.
Qed.
Lemma nibble_bytes_inj : forall n a b, length a = (2 * n)%nat -> length b = (2 * n)%nat -> Forall nibble a -> Forall nibble b -> nibble_bytes a = nibble_bytes b -> a = b.
Proof.
  induction n as [|n IH]; intros a b La Lb Na Nb E.
  - destruct a; [|discriminate]. destruct b; [reflexivity|discriminate].
  - destruct a as [|x [|y a]]; try (cbn in La; lia). destruct b as [|z [|w b]]; try (cbn in Lb; lia). cbn [nibble_bytes] in E. assert (E1 : 16 * x + y = 16 * z + w) by congruence. assert (E2 : nibble_bytes a = nibble_bytes b) by congruence. clear E.
    inversion Na as [|? ? N1 Na']; subst. inversion Na' as [|? ? N2 Na'']; subst. inversion Nb as [|? ? N3 Nb']; subst. inversion Nb' as [|? ? N4 Nb'']; subst. unfold nibble in *.
    assert (x = z) by lia. assert (y = w) by lia. subst. f_equal. f_equal. apply IH; auto; cbn in La, Lb; lia.
Qed.
Lemma nibble_bytes_byte : forall n a, length a = (2 * n)%nat -> Forall nibble a -> Forall byte (nibble_bytes a).
Proof.
  induction n as [|n IH]; intros a La Na; [destruct a; [constructor|discriminate]|]. destruct a as [|x [|y a]]; try (cbn in La; lia).
  inversion Na as [|? ? N1 Na']; subst. inversion Na' as [|? ? N2 Na'']; subst. unfold nibble in *. cbn [nibble_bytes]. constructor; [unfold byte; lia|]. apply IH; [cbn in La; lia|exact Na''].
Qed.

(** C80 with Keccak: buffers of at most ten blocks (2720 digits) that hold Keccak-padded nodes. *)
Theorem C80_mpt_inclusion_keccak_complete : forall p perm maxDepth maxValue key hops root buf round value v, 2 ^ 200 < p -> perm_ok perm ->
  (maxDepth <= 10)%nat -> (1 <= length hops < maxDepth)%nat -> length key = 64%nat -> Forall nibble key ->
  hops_ok p hops -> leaf_ok p maxValue buf round value v ->
  (forall h, In h hops -> (length (h_buf h) <= 2720)%nat /\ h_round h < 10) -> (length buf <= 2720)%nat -> round < 10 ->
  trie_path node_keccak key 0 root hops buf round v ->
  check_mpt_fixed p (keccak_nibbles p perm 10) maxDepth 64 maxValue value root buf round (leaf_flag key hops) (honest maxDepth key (repeat 0 1088) hops) false
    = Some (1, Z.of_nat (2 * length v)).
Proof.
  intros p perm maxDepth maxValue key hops root buf round value v Hp Hperm H1 H2 H3 H4 H5 H6 H7 H8 H8' H9.
  assert (Hp65 : 2 ^ 65 < p) by (eapply Z.lt_trans; [|exact Hp]; reflexivity). assert (Hp10 : Z.of_nat 10 < p) by (eapply Z.lt_trans; [|exact Hp]; reflexivity).
  assert (KC : forall b r, Forall nibble b -> (length b <= 2720)%nat -> felt p r -> r < 10 -> exists d, keccak_nibbles p perm 10 b r = Some d).
  { intros b r Nb Lb Fr Hr. apply (keccak_nibbles_complete p Hp65 perm Hperm 10 b r Fr Hp10); [|apply Forall_firstn; exact Nb|exact Hr]. change (10 * 17)%nat with 170%nat. apply Nat.div_le_upper_bound; lia. }
  apply C80_mpt_inclusion_complete; auto; try lia.
  - apply C13_keccak_gadget_hash_ok; assumption.
  - reflexivity.
  - apply KC; [apply Forall_forall; intros x I; apply repeat_spec in I; subst; unfold nibble; lia|rewrite repeat_length; lia|unfold felt; lia|lia].
  - apply (trie_path_mono (fun b r => Forall nibble b /\ aligned b /\ (length b <= 2720)%nat /\ felt p r /\ r < 10) node_keccak); [| | |exact H9].
    + intros b r d (Nb & Ab & Lb & Fr & Hr) (m & rest & E1 & E2 & E3 & E4 & E5). destruct (KC b r Nb Lb Fr Hr) as (d' & Ed). rewrite Ed. f_equal.
      destruct (C18_keccak_nibbles_of_message p perm 10 b m rest r d' Hp65 Hperm Hp10 Fr ltac:(apply Forall_forall; apply (Forall_nibble_felt p Hp); exact Nb) Ab E1 E2 Ed) as (G1 & G2 & G3).
      apply (nibble_bytes_inj 32); auto. apply bytes_bits_inj; [apply (nibble_bytes_byte 32); auto..|]. rewrite G3, E5. reflexivity.
    + intros h I. destruct (H5 h I) as (B1 & B2 & B3 & B4). destruct (H7 h I) as (B5 & B6). auto.
    + destruct H6 as (L1 & L2 & L3 & L4 & _). auto.
Qed.

(** Non-vacuity: a path branch -> extension over three digits -> branch -> leaf for a toy digest (64 digits 10 for every
    buffer of hexadecimal digits), p = 2^253 + 1. *)
Definition toy (b : list Z) (_ : Z) : option (list Z) := if forallb (fun x => (0 <=? x) && (x <=? 15)) b then Some (repeat 10 64) else None.
Definition toy_p : Z := 2 ^ 253 + 1.
Definition toy_child : list Z := repeat 170 32.
Definition toy_pad (l : list Z) : list Z := l ++ repeat 0 (1088 - length l).
Definition toy_branch (n : nat) : list Z := toy_pad (nib (rlp (RList (map RStr ((repeat [] n ++ [toy_child] ++ repeat [] (15 - n)) ++ [[]]))))).
Definition toy_ext : list Z := toy_pad (nib (rlp (RList [RStr [17; 35]; RStr toy_child]))).
Definition toy_key : list Z := [7; 1; 2; 3; 4] ++ repeat 5 59.
Definition toy_leaf : list Z := toy_pad (nib (rlp (RList [RStr (53 :: repeat 85 29); RStr [1; 2; 3]]))).
Definition toy_hops : list hop := [Hop (toy_branch 7) 0 None; Hop toy_ext 0 (Some [1; 2; 3]); Hop (toy_branch 4) 0 None].
Lemma toy_big : 2 ^ 200 < toy_p. Proof. reflexivity. Qed.
Lemma toy_ok : hash_ok toy_p toy.
Proof.
  intros b r d _ _ _ H. unfold toy in H. destruct (forallb _ b) eqn:E; [|discriminate]. assert (d = repeat 10 64) by congruence. subst d.
  split; [|split; [reflexivity|apply Forall_forall; intros x I; apply repeat_spec in I; subst; unfold nibble; lia]].
  apply Forall_forall. intros x I. apply (proj1 (forallb_forall _ b) E) in I. apply andb_true_iff in I. destruct I as [A B]. apply Z.leb_le in A, B. unfold nibble. lia.
Qed.
Lemma toy_nibs l : forallb (fun x => (0 <=? x) && (x <=? 15)) l = true -> Forall nibble l.
Proof. intros E. apply Forall_forall. intros x I. apply (proj1 (forallb_forall _ l) E) in I. apply andb_true_iff in I. destruct I as [A B]. apply Z.leb_le in A, B. unfold nibble. lia. Qed.
Lemma toy_bytes l : forallb (fun x => (0 <=? x) && (x <=? 255)) l = true -> Forall is_byte l.
Proof. intros E. apply Forall_forall. intros x I. apply (proj1 (forallb_forall _ l) E) in I. apply andb_true_iff in I. destruct I as [A B]. apply Z.leb_le in A, B. unfold is_byte. lia. Qed.
Example C80_path_case : trie_path (fun b r d => toy b r = Some d) toy_key 0 (repeat 10 64) toy_hops toy_leaf 0 [1; 2; 3].
Proof.
  assert (CH : forall n c, (n < 16)%nat -> In c (repeat [] n ++ [toy_child] ++ repeat [] (15 - n)) -> Forall is_byte c /\ (length c <= 32)%nat).
  { intros n c _ I. assert (c = [] \/ c = toy_child) as [-> | ->]; [|split; [constructor|cbn; lia]|split; [apply toy_bytes; reflexivity|cbn; lia]].
    apply in_app_or in I. destruct I as [I|I]; [left; exact (repeat_spec _ _ _ I)|]. apply in_app_or in I. destruct I as [[<-|[]]|I]; [right; reflexivity|left; exact (repeat_spec _ _ _ I)]. }
  apply tp_hop with (d' := repeat 10 64); [reflexivity| |].
  { exists (repeat [] 7 ++ [toy_child] ++ repeat [] 8), (repeat 0 (1088 - length (nib (rlp (RList (map RStr ((repeat [] 7 ++ [toy_child] ++ repeat [] 8) ++ [[]]))))))). split; [reflexivity|]. split; [intros c I; exact (CH 7%nat c ltac:(lia) I)|]. split; reflexivity. }
  apply tp_hop with (d' := repeat 10 64); [reflexivity| |].
  { split; [discriminate|]. split; [reflexivity|]. exists [17; 35], toy_child, (repeat 0 (1088 - length (nib (rlp (RList [RStr [17; 35]; RStr toy_child]))))). split; [apply toy_bytes; reflexivity|]. split; [apply toy_bytes; reflexivity|]. repeat split; reflexivity. }
  apply tp_hop with (d' := repeat 10 64); [reflexivity| |].
  { exists (repeat [] 4 ++ [toy_child] ++ repeat [] 11), (repeat 0 (1088 - length (nib (rlp (RList (map RStr ((repeat [] 4 ++ [toy_child] ++ repeat [] 11) ++ [[]]))))))). split; [reflexivity|]. split; [intros c I; exact (CH 4%nat c ltac:(lia) I)|]. split; reflexivity. }
  apply tp_leaf with (kb := 53 :: repeat 85 29) (rest := repeat 0 (1088 - length (nib (rlp (RList [RStr (53 :: repeat 85 29); RStr [1; 2; 3]]))))); [cbn; lia|reflexivity|apply toy_bytes; reflexivity|reflexivity|reflexivity].
Qed.
Example C80_case : check_mpt_fixed toy_p toy 6 64 66 (nib [1; 2; 3] ++ repeat 9 60) (repeat 10 64) toy_leaf 0 (leaf_flag toy_key toy_hops)
    (honest 6 toy_key (repeat 0 1088) toy_hops) false = Some (1, 6).
Proof.
  apply (C80_mpt_inclusion_complete toy_p toy 6 66 1088 toy_key toy_hops (repeat 10 64) toy_leaf 0 (nib [1; 2; 3] ++ repeat 9 60) [1; 2; 3]).
  - exact toy_big.
  - exact toy_ok.
  - lia.
  - cbn; lia.
  - reflexivity.
  - apply toy_nibs. reflexivity.
  - lia.
  - reflexivity.
  - eexists. reflexivity.
  - intros h [<-|[<-|[<-|[]]]]; (split; [apply toy_nibs; reflexivity|split; [reflexivity|split; [apply Nat.leb_le; reflexivity|split; reflexivity || (cbn; lia)]]]).
  - split; [apply toy_nibs; reflexivity|]. split; [reflexivity|]. split; [reflexivity|]. split; [split; [cbn; lia|reflexivity]|]. split; [lia|]. split; [apply Nat.leb_le; reflexivity|]. split; [reflexivity|].
    split; [apply (Forall_nibble_felt toy_p toy_big), toy_nibs; reflexivity|]. split; [apply toy_bytes; reflexivity|]. split; [cbn; lia|]. split; [left; cbn; lia|reflexivity].
  - exact C80_path_case.
Qed.
