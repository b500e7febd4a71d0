(** * Props_MptKeccak.v — C13 for the digest gadget the circuits really use (Keccak256AsNibbles, ten blocks) *)
From Coq Require Import ZArith List Lia Bool Arith.
From Verif Require Import ModNorm Field FieldLemmas RlpUtilModel RlpSpec MptModel MptSpec MptPathProofs MptPathSound KeccakSpec KeccakModel KeccakProofs KeccakSponge KeccakWords KeccakNibbles KeccakPadModel KeccakPad Props_Mpt Props_Keccak.
Import ListNotations.
Open Scope Z_scope.

(** The digits [d] spell the Keccak-256 sponge output (256 bits) after absorbing the first [k] blocks of 136 bytes of
    the bytes spelt by the digits [buf], followed by zero bytes. *)
Definition keccak_digest (buf d : list Z) : Prop :=
  Forall nibble buf /\ length d = 64%nat /\ Forall nibble d /\
  exists k, (1 <= k <= 10)%nat /\
    bytes_bits (nibble_bytes d) = firstn 256 (string_of (sponge (blocks_of k (bytes_bits (nibble_bytes buf) ++ repeat false (10 * 1088 - 4 * length buf))))).

Lemma keccak_gadget_digest : forall p perm buf r d, 2 ^ 200 < p -> perm_ok perm -> felts p buf -> aligned buf -> felt p r ->
  keccak_nibbles p perm 10 buf r = Some d -> keccak_digest buf d.
Proof.
  intros p perm buf r d Hp Hperm F A Fr H.
  assert (Hp65 : 2 ^ 65 < p) by (eapply Z.lt_trans; [|exact Hp]; reflexivity).
  apply (keccak_nibbles_sound p Hp65 perm Hperm) in H; auto.
  2:{ apply Forall_forall. exact F. } 2:{ eapply Z.lt_trans; [|exact Hp]; reflexivity. }
  destruct H as (G1 & G2 & G3 & G4 & G5 & G6). unfold aligned in A.
  assert (E16 : (16 * (length buf / 16) = length buf)%nat) by (pose proof (Nat.div_mod (length buf) 16 ltac:(lia)); lia).
  unfold padded_bits in G6. rewrite E16, firstn_all in *. unfold keccak_digest. split; [exact G2|]. split; [exact G4|]. split; [exact G5|].
  unfold felt in Fr. exists (Z.to_nat r + 1)%nat. split; [lia|].
  replace (10 * 1088 - 4 * length buf)%nat with (10 * 1088 - 64 * (length buf / 16))%nat by lia. exact G6.
Qed.
Theorem C13_keccak_gadget_hash_ok : forall p perm, 2 ^ 200 < p -> perm_ok perm -> hash_ok p (keccak_nibbles p perm 10).
Proof.
  intros p perm Hp Hperm buf r d F A Fr H. apply keccak_gadget_digest in H; auto. destruct H as (H1 & H2 & H3 & _). auto.
Qed.

Lemma walk_hashed_mono : forall (h1 h2 : list Z -> list Z -> Prop) key last, (forall b d, h1 b d -> h2 b d) ->
  forall ns s d t, walk h1 key last s d t ns -> walk h2 key last s d t ns.
Proof.
  intros h1 h2 key last Hh ns s d t W. induction W; [apply walk_last; auto|eapply walk_branch; eauto|eapply walk_ext; eauto].
Qed.
Lemma walk_hashed_in : forall (h1 h2 : list Z -> list Z -> Prop) key last (P : list Z -> Prop), (forall b d, P b -> h1 b d -> h2 b d) ->
  forall ns s d t, Forall P ns -> walk h1 key last s d t ns -> walk h2 key last s d t ns.
Proof.
  intros h1 h2 key last P Hh ns s d t F W. induction W; inversion F; subst; [apply walk_last; auto|eapply walk_branch; eauto|eapply walk_ext; eauto].
Qed.

(** C13 with Keccak: acceptance exhibits a connected path of nodes, each node being linked by its Keccak digest, from
    the claimed root down to the leaf holding the value. *)
Theorem C13_mpt_inclusion_keccak_sound : forall p perm maxDepth keyLen maxValue value rootHash lastRlp lastRound leafPref i vlen, 2 ^ 200 < p ->
  perm_ok perm ->
  Z.of_nat maxValue < 2 ^ 60 -> Z.of_nat (length lastRlp) < 2 ^ 60 -> Z.of_nat (length value) < 2 ^ 60 -> (keyLen <= 64)%nat -> (maxDepth <= 100)%nat ->
  length rootHash = 64%nat -> felts p value -> felts p rootHash -> felts p lastRlp -> aligned lastRlp -> felt p lastRound -> felt p leafPref -> layers_felts p i ->
  check_mpt_fixed p (keccak_nibbles p perm 10) maxDepth keyLen maxValue value rootHash lastRlp lastRound leafPref i false = Some (1, vlen) ->
  2 <= li_depth i ->
  keyLen = 64%nat /\ 0 <= vlen <= Z.of_nat maxValue /\ li_depth i <= Z.of_nat maxDepth /\
  exists t, walk keccak_digest (li_key i) (last_leaf (74 + maxValue) (li_key i) value vlen)
    (nth 0 (li_starts i) 0) rootHash t (firstn (Z.to_nat (li_depth i) - 1) (li_nodes i) ++ [lastRlp]).
Proof.
  intros p perm maxDepth keyLen maxValue value rootHash lastRlp lastRound leafPref i vlen Hp Hperm B1 B2 B3 B4 B5 L1 F1 F2 F3 Al Flr F4 F5 H HD.
  destruct (C13_mpt_inclusion_sound p (keccak_nibbles p perm 10) maxDepth keyLen maxValue value rootHash lastRlp lastRound leafPref i vlen
    Hp (C13_keccak_gadget_hash_ok p perm Hp Hperm) B1 B2 B3 B4 B5 L1 F1 F2 F3 Al Flr F4 F5 H HD) as (A1 & A2 & A3 & t & W).
  split; [exact A1|]. split; [exact A2|]. split; [exact A3|]. exists t.
  destruct F5 as (_ & _ & Fn & _ & Fal & _).
  apply walk_hashed_in with (h1 := hashed p (keccak_nibbles p perm 10)) (P := fun b => felts p b /\ aligned b); [|  |exact W].
  - intros b d [Fb Ab] (r & Fr & Hr). eapply keccak_gadget_digest; eauto.
  - apply Forall_app. split.
    + apply Forall_forall. intros b Hb. assert (In b (li_nodes i)) by (rewrite <- (firstn_skipn (Z.to_nat (li_depth i) - 1) (li_nodes i)); apply in_or_app; auto).
      split; [apply Fn; auto|apply Fal; auto].
    + constructor; [split; [exact F3|exact Al]|constructor].
Qed.

(** A buffer that starts with the Keccak padding of a message has that message's Keccak-256 among its digests, at the
    round index len/136; any other digest of it is the sponge cut at another block. *)
Theorem C13_padded_node_digest : forall buf m rest, Forall nibble buf -> nibble_bytes buf = pad101_bytes m ++ rest -> (length m < 1360)%nat ->
  forall d, length d = 64%nat -> Forall nibble d -> bytes_bits (nibble_bytes d) = keccak256 m -> keccak_digest buf d.
Proof.
  intros buf m rest N E L d Ld Nd Hd. split; [exact N|]. split; [exact Ld|]. split; [exact Nd|].
  exists (length m / 136 + 1)%nat. split.
  - assert (length m / 136 < 10)%nat by (apply Nat.div_lt_upper_bound; lia). lia.
  - rewrite Hd, E, bytes_bits_app, pad101_bytes_bits, <- app_assoc. symmetry. apply sponge256_keccak256.
Qed.
