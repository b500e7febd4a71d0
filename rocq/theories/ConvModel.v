(** * ConvModel.v — models circuits/gadgets/conv/bits.go *)
From Coq Require Import ZArith List Bool Arith.
From Verif Require Import Field KeccakModel SliceModel.
Import ListNotations.
Open Scope Z_scope.
Open Scope circ_scope.

(** bits.go:17-23 Bits2Bytes: bits[i:i+8] for i = 0, 8, ...; a short last group is a slice-bounds panic (the capacity of
    the slice is taken to be its length) *)
Definition bits2bytes (p : Z) (bits : list Z) : option (list Z) :=
  guard (Nat.eqb (length bits mod 8) 0) ;;
  omap (fun i => from_binary p (firstn 8 (skipn (8 * i) bits))) (seq 0 (length bits / 8)).
(** bits.go:9-15 Bits2Bytes2: the same on reversed groups *)
Definition bits2bytes2 (p : Z) (bits : list Z) : option (list Z) :=
  guard (Nat.eqb (length bits mod 8) 0) ;;
  omap (fun i => from_binary p (flip 0 (firstn 8 (skipn (8 * i) bits)))) (seq 0 (length bits / 8)).
(** bits.go:25-31 Bits2BytesArray: bits[i-8:i] for i = len, len-8, ... > 0; a short last group has a negative lower bound *)
Definition bits2bytes_array (p : Z) (bits : list Z) : option (list Z) :=
  guard (Nat.eqb (length bits mod 8) 0) ;;
  omap (fun i => from_binary p (firstn 8 (skipn (length bits - 8 * i - 8) bits))) (seq 0 (length bits / 8)).
(** bits.go:42-48 Bits2Uint128s *)
Definition bits2uint128s (p : Z) (bits : list Z) : option (Z * Z) :=
  let* h := flip_sub 0 bits 8 in
  let* a := from_binary p (flip 0 (firstn 128 h)) in let* b := from_binary p (flip 0 (skipn 128 h)) in Some (a, b).
(** bits.go:50-56 Bits2Nibbles: api.FromBinary(bits[i:i+4]) passes the slice itself as the only variable, which is not a
    field element: gnark panics on the first iteration, so that only the empty input returns *)
Definition bits2nibbles (bits : list Z) : option (list Z) := match bits with [] => Some [] | _ :: _ => None end.
