(** * Props_H2F.v — property C52 of HashToField (circuits/gadgets/pairing_bls12381/hash2curve.go) *)
From Coq Require Import ZArith List Bool Arith Lia.
From Verif Require Import FieldZ PrimeBls TowerModel H2CModel H2CSpec H2FProofs.
Import ListNotations.
Open Scope Z_scope.

(** For a native field above 2^70, 32 field elements as message and 1 <= n <= 63 (the range in which RFC 9380 does not abort):
    the circuit with count = 2n is satisfiable exactly when the message consists of bytes, and its n results are hash_to_field
    of RFC 9380 with expand_message_xmd and SHA-256. *)
Theorem C52_hash_to_field : forall p msg n us, 2 ^ 70 < p -> length msg = 32%nat -> (forall b, In b msg -> 0 <= b < p) -> (1 <= n <= 63)%nat ->
  (hash_to_field p msg (2 * n) = Some us <-> (forall b, In b msg -> 0 <= b < 256) /\ us = hash_to_field_spec msg n).
Proof.
  intros p msg n us Hp L F Hn. split.
  - intros H. assert (B : forall b, In b msg -> 0 <= b < 256).
    { intros b Hb. split; [apply F, Hb|]. destruct (Z_lt_dec b 256) as [|G]; [assumption|].
      rewrite (hash_to_field_bad p Hp msg (2 * n) L F) in H; [discriminate|]. exists b. split; [exact Hb|lia]. }
    split; [exact B|]. rewrite (hash_to_field_ok p Hp msg n L) in H; [congruence|apply Forall_forall; exact B|lia].
  - intros [B ->]. apply (hash_to_field_ok p Hp msg n L); [apply Forall_forall; exact B|lia].
Qed.
(** The two uses: two field elements for HashToG2, one for EncodeToG2. *)
Corollary C52_hash_to_g2_inputs : forall p msg, 2 ^ 70 < p -> length msg = 32%nat -> (forall b, In b msg -> 0 <= b < 256) ->
  hash_to_field p msg 4 = Some (hash_to_field_spec msg 2) /\ hash_to_field p msg 2 = Some (hash_to_field_spec msg 1).
Proof.
  intros p msg Hp L B. split; [apply (C52_hash_to_field p msg 2)|apply (C52_hash_to_field p msg 1)]; try assumption; try lia; try (split; [exact B|reflexivity]);
  intros b Hb; specialize (B b Hb); lia.
Qed.
(** Beyond the RFC's bound (ell > 255, n >= 64), where the RFC aborts, the circuit is still satisfied by every byte message. *)
Theorem C52_no_abort : forall p msg n, 2 ^ 70 < p -> length msg = 32%nat -> (forall b, In b msg -> 0 <= b < 256) -> (64 <= n)%nat ->
  exists us, hash_to_field p msg (2 * n) = Some us.
Proof.
  intros p msg n Hp L B Hn. eexists. apply (hash_to_field_ok p Hp msg n L); [apply Forall_forall; exact B|lia].
Qed.
(** The hypotheses are met by the zero message over the scalar field of BN254. *)
Example C52_example : 2 ^ 70 < 21888242871839275222246405745257275088548364400416034343698204186575808495617 /\ length (repeat 0 32) = 32%nat /\ (forall b, In b (repeat 0 32) -> 0 <= b < 256).
Proof. split; [reflexivity|]. split; [reflexivity|]. intros b Hb. apply repeat_spec in Hb. subst b. lia. Qed.
