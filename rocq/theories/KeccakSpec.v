(** * KeccakSpec.v — independent specification of Keccak-f[1600] (FIPS 202, section 3) and of the Keccak-256 sponge
    (rate 1088, capacity 512, original Keccak padding 10*1, i.e. FIPS 202 without the SHA-3 suffix bits). *)
From Coq Require Import ZArith List Bool Arith.
Import ListNotations.

(** The state array A[x,y,z] (FIPS 202, 3.1). *)
Definition state : Type := nat -> nat -> nat -> bool.

(** 3.2.1 theta *)
Definition theta (A : state) : state :=
  let C := fun x z => xorb (xorb (xorb (xorb (A x 0%nat z) (A x 1%nat z)) (A x 2%nat z)) (A x 3%nat z)) (A x 4%nat z) in
  let D := fun x z => xorb (C ((x + 4) mod 5) z) (C ((x + 1) mod 5) ((z + 63) mod 64)) in
  fun x y z => xorb (A x y z) (D x z).

(** 3.2.2 rho: the offset of lane (x,y), found by walking (1,0), (y, 2x+3y), ... *)
Fixpoint rho_offset_from (fuel t x y tx ty : nat) : nat :=
  match fuel with
  | O => 0
  | S f => if Nat.eqb x tx && Nat.eqb y ty then ((t + 1) * (t + 2) / 2) mod 64
           else rho_offset_from f (t + 1) y ((2 * x + 3 * y) mod 5) tx ty
  end.
Definition rho_offset (x y : nat) : nat :=
  if Nat.eqb x 0 && Nat.eqb y 0 then 0 else rho_offset_from 24 0 1 0 x y.
Definition rho (A : state) : state := fun x y z => A x y ((z + 64 - rho_offset x y) mod 64).

(** 3.2.3 pi *)
Definition pi (A : state) : state := fun x y z => A ((x + 3 * y) mod 5) x z.

(** 3.2.4 chi *)
Definition chi (A : state) : state := fun x y z =>
  xorb (A x y z) (negb (A ((x + 1) mod 5) y z) && A ((x + 2) mod 5) y z).

(** 3.2.5 iota: Algorithm 5 (LFSR) and Algorithm 6 *)
Definition lfsr_step (R : list bool) : list bool :=
  match R with
  | [r0; r1; r2; r3; r4; r5; r6; r7] => [r7; r0; r1; r2; xorb r3 r7; xorb r4 r7; xorb r5 r7; r6]
  | _ => R
  end.
Fixpoint iterate {A : Type} (n : nat) (f : A -> A) (x : A) : A :=
  match n with O => x | S k => f (iterate k f x) end.
Definition rc_bit (t : nat) : bool :=
  nth 0 (iterate (t mod 255) lfsr_step [true; false; false; false; false; false; false; false]) false.
Definition round_const (ir z : nat) : bool :=
  existsb (fun j => Nat.eqb z (2 ^ j - 1) && rc_bit (j + 7 * ir)) (seq 0 7).
Definition iota (ir : nat) (A : state) : state := fun x y z =>
  if Nat.eqb x 0 && Nat.eqb y 0 then xorb (A x y z) (round_const ir z) else A x y z.

(** 3.3: rounds 0..n-1; Keccak-f[1600] has 24 *)
Definition rnd (ir : nat) (A : state) : state := iota ir (chi (pi (rho (theta A)))).
Fixpoint rounds (n : nat) (A : state) : state :=
  match n with O => A | S k => rnd k (rounds k A) end.
Definition keccak_f (A : state) : state := rounds 24 A.

(** 3.1.2: bit i of the state string is A[x,y,z] with i = 64 (5 y + x) + z *)
Definition state_of (s : list bool) : state := fun x y z => nth (64 * (5 * y + x) + z) s false.
Definition string_of (A : state) : list bool :=
  flat_map (fun l => map (fun z => A (l mod 5) (l / 5) z) (seq 0 64)) (seq 0 25).

(** Sponge (FIPS 202, section 4, rate 1088): absorb the block [b] of 1088 bits. *)
Definition absorb_block (A : state) (b : list bool) : state :=
  keccak_f (fun x y z => xorb (A x y z) (nth (64 * (5 * y + x) + z) b false)).
Definition sponge (blocks : list (list bool)) : state := fold_left absorb_block blocks (fun _ _ _ => false).

(** Bits of a byte string, least significant bit of each byte first (FIPS 202, B.1). *)
Definition byte_bits (b : Z) : list bool := map (fun i => Z.testbit b (Z.of_nat i)) (seq 0 8).
Definition bytes_bits (m : list Z) : list bool := flat_map byte_bits m.

(** pad10*1 to a multiple of 1088 *)
Definition pad101 (s : list bool) : list bool :=
  s ++ [true] ++ repeat false ((1088 - (length s + 2) mod 1088) mod 1088) ++ [true].

(** Cut into blocks of 1088 bits. *)
Fixpoint blocks_of (n : nat) (s : list bool) : list (list bool) :=
  match n with O => [] | S k => firstn 1088 s :: blocks_of k (skipn 1088 s) end.

(** Keccak-256 of a byte string, as 256 bits. *)
Definition keccak256 (m : list Z) : list bool :=
  let s := pad101 (bytes_bits m) in
  firstn 256 (string_of (sponge (blocks_of (length s / 1088) s))).
