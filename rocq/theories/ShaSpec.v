(** * ShaSpec.v — independent specification of SHA-256 and SHA-512 (FIPS 180-4) on byte strings.
    Words are integers 0 <= x < 2^w; section numbers refer to FIPS 180-4. *)
From Coq Require Import ZArith List Bool Arith.
Import ListNotations.
Open Scope Z_scope.

(** 4.2, 5.3: the constants are the first w bits of the fractional parts of the cube (square) roots of the first
    primes: floor(root * 2^w) mod 2^w. *)
Fixpoint cbrt_bisect (fuel : nat) (lo hi x : Z) : Z :=
  match fuel with
  | O => lo
  | S f => let mid := (lo + hi) / 2 in if mid * mid * mid <=? x then cbrt_bisect f mid hi x else cbrt_bisect f lo mid x
  end.
(** the largest n with n^3 <= x, for x < 2^300 *)
Definition cbrt (x : Z) : Z := cbrt_bisect 101 0 (2 ^ 100) x.
Definition cbrt_frac (w q : Z) : Z := cbrt (q * 2 ^ (3 * w)) mod 2 ^ w.
Definition sqrt_frac (w q : Z) : Z := Z.sqrt (q * 2 ^ (2 * w)) mod 2 ^ w.
Definition is_primeb (n : nat) : bool :=
  (2 <=? n)%nat && forallb (fun d => negb (Nat.eqb (n mod d) 0)) (seq 2 (n - 2)).
(** the first 80 primes are the primes below 410 *)
Definition primes : list Z := map Z.of_nat (filter is_primeb (seq 0 410)).

Record sha2 := Sha2 {
  sp_w : Z;                       (* word size *)
  sp_rounds : nat;
  sp_S0 : Z * Z * Z; sp_S1 : Z * Z * Z;   (* rotations of Sigma_0, Sigma_1 *)
  sp_s0 : Z * Z * Z; sp_s1 : Z * Z * Z;   (* rotation, rotation, shift of sigma_0, sigma_1 *)
  sp_lenbytes : nat }.            (* bytes of the length field *)
(** 4.1.2 and 4.1.3 *)
Definition sha256p : sha2 := Sha2 32 64 (2, 13, 22) (6, 11, 25) (7, 18, 3) (17, 19, 10) 8.
Definition sha512p : sha2 := Sha2 64 80 (28, 34, 39) (14, 18, 41) (1, 8, 7) (19, 61, 6) 16.

Section S.
Variable c : sha2.
Let w := sp_w c.
Definition rotr (n x : Z) : Z := Z.lor (Z.shiftr x n) (Z.shiftl x (w - n) mod 2 ^ w).
Definition not_ (x : Z) : Z := Z.lxor x (Z.ones w).
Definition Ch (x y z : Z) : Z := Z.lxor (Z.land x y) (Z.land (not_ x) z).
Definition Maj (x y z : Z) : Z := Z.lxor (Z.lxor (Z.land x y) (Z.land x z)) (Z.land y z).
Definition Sigma (r : Z * Z * Z) (x : Z) : Z := let '(a, b, d) := r in Z.lxor (Z.lxor (rotr a x) (rotr b x)) (rotr d x).
Definition sigma (r : Z * Z * Z) (x : Z) : Z := let '(a, b, d) := r in Z.lxor (Z.lxor (rotr a x) (rotr b x)) (Z.shiftr x d).
Definition K (t : nat) : Z := cbrt_frac w (nth t primes 0).
Definition H0 : list Z := map (sqrt_frac w) (firstn 8 primes).

(** 6.2.2 / 6.4.2 step 1: message schedule *)
Fixpoint schedule (n : nat) (m : list Z) : list Z :=
  match n with
  | O => m
  | S k => let ws := schedule k m in let t := (16 + k)%nat in
      ws ++ [(sigma (sp_s1 c) (nth (t - 2) ws 0) + nth (t - 7) ws 0 + sigma (sp_s0 c) (nth (t - 15) ws 0) + nth (t - 16) ws 0) mod 2 ^ w]
  end.
(** step 3 *)
Definition round (ws : list Z) (t : nat) (st : list Z) : list Z :=
  match st with
  | [a; b; cc; d; e; f; g; h] =>
      let T1 := (h + Sigma (sp_S1 c) e + Ch e f g + K t + nth t ws 0) mod 2 ^ w in
      let T2 := (Sigma (sp_S0 c) a + Maj a b cc) mod 2 ^ w in
      [(T1 + T2) mod 2 ^ w; a; b; cc; (d + T1) mod 2 ^ w; e; f; g]
  | _ => st
  end.
Fixpoint rounds (n : nat) (ws st : list Z) : list Z :=
  match n with O => st | S k => round ws k (rounds k ws st) end.
Definition wbytes : nat := Z.to_nat (w / 8).
(** big-endian value of bytes *)
Definition be (l : list Z) : Z := fold_left (fun a b => 256 * a + b) l 0.
Definition words_of (blk : list Z) : list Z := map (fun i => be (firstn wbytes (skipn (wbytes * i) blk))) (seq 0 16).
Definition compress (h blk : list Z) : list Z :=
  let ws := schedule (sp_rounds c - 16) (words_of blk) in
  let st := rounds (sp_rounds c) ws h in
  map (fun ab => (fst ab + snd ab) mod 2 ^ w) (combine h st).

(** 5.1: append 0x80, the smallest number of zero bytes, and the bit length *)
Definition block_bytes : nat := 16 * wbytes.
Definition be_bytes (n : nat) (x : Z) : list Z := map (fun i => (x / 2 ^ (8 * Z.of_nat (n - 1 - i))) mod 256) (seq 0 n).
Definition pad (m : list Z) : list Z :=
  let B := block_bytes in
  m ++ [0x80] ++ repeat 0 ((B - (length m + 1 + sp_lenbytes c) mod B) mod B) ++ be_bytes (sp_lenbytes c) (8 * Z.of_nat (length m)).
Fixpoint blocks (n : nat) (l : list Z) : list (list Z) :=
  match n with O => [] | S k => firstn block_bytes l :: blocks k (skipn block_bytes l) end.
Definition hash_words (m : list Z) : list Z :=
  fold_left compress (blocks (length (pad m) / block_bytes) (pad m)) H0.
Definition sha (m : list Z) : list Z := flat_map (be_bytes wbytes) (hash_words m).
End S.
Definition sha256 (m : list Z) : list Z := sha sha256p m.
Definition sha512 (m : list Z) : list Z := sha sha512p m.

(** known answers (FIPS 180-4 examples: "abc") *)
Example sha256_abc : sha256 [0x61; 0x62; 0x63] =
  [0xba;0x78;0x16;0xbf;0x8f;0x01;0xcf;0xea;0x41;0x41;0x40;0xde;0x5d;0xae;0x22;0x23;0xb0;0x03;0x61;0xa3;0x96;0x17;0x7a;0x9c;0xb4;0x10;0xff;0x61;0xf2;0x00;0x15;0xad].
Proof. vm_compute. reflexivity. Qed.
Example sha512_abc : firstn 8 (sha512 [0x61; 0x62; 0x63]) = [0xdd;0xaf;0x35;0xa1;0x93;0x61;0x7a;0xba] /\ length (sha512 []) = 64%nat.
Proof. split; vm_compute; reflexivity. Qed.
Example primes_80 : length primes = 80%nat. Proof. vm_compute. reflexivity. Qed.
