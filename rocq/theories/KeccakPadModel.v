(** * KeccakPadModel.v — models keccak/periphery.go (padding, packing) and keccak/pad.go *)
From Coq Require Import ZArith List Bool Arith.
From Verif Require Import Field RlpUtilModel KeccakModel SliceModel.
Import ListNotations.
Open Scope Z_scope.
Open Scope circ_scope.

(** periphery.go:22-33 Pad101Bytes (the returned slice; the memory effects are modelled in HostModel.v).  common/circuits/keccak.go
    has the same bodies: Pad101 3-5, Pad101Bytes 7-18, Bytes2BlockBits 20-25, Bytes2Uint64 27-36, Bytes2Bits 38-46 *)
Definition pad101_bytes (data : list Z) : list Z :=
  let miss := if Nat.eqb (length data mod 136) 0 then 136%nat else (136 - length data mod 136)%nat in
  let d := data ++ [1] ++ repeat 0 (miss - 1) in
  upd (length d - 1) (Z.lxor (nth (length d - 1) d 0) 0x80) d.
(** periphery.go:35-37, 39-41 *)
Definition keccak_round_for_padded (data : list Z) : Z := Z.of_nat (length data) / 136 - 1.
Definition get_round_index (bitsLen : Z) : Z := (bitsLen + 8) / 1088.
(** periphery.go:61-66 byte2Bits, 50-58 Bytes2Bits, 43-48 Bytes2BlockBits (bytes are 0..255) *)
Definition byte2bits (b : Z) : list Z := map (fun i => Z.land (Z.shiftr b (Z.of_nat i)) 1) (seq 0 8).
Definition bytes2bits (bytes : list Z) : option (list Z) :=
  guard (Nat.eqb (length bytes mod 8) 0) ;; Some (flat_map byte2bits bytes).
Definition bytes2block_bits (bytes : list Z) : option (list Z) :=
  guard (Nat.eqb (length bytes mod 136) 0) ;; bytes2bits bytes.
(** periphery.go:68-77 Bytes2Uint64: ret |= uint64(b) << 8i *)
Definition bytes2uint64 (bytes : list Z) : option Z :=
  guard (Nat.eqb (length bytes) 8) ;;
  Some (fold_left (fun r i => Z.lor r (Z.shiftl (nth i bytes 0) (8 * Z.of_nat i) mod 2 ^ 64)) (seq 0 8) 0).
(** periphery.go:79-88 Bytes2Uint64s *)
Definition bytes2uint64s (bytes : list Z) : option (list Z) :=
  guard (Nat.eqb (length bytes mod 8) 0) ;;
  omap (fun i => bytes2uint64 (firstn 8 (skipn (8 * i) bytes))) (seq 0 (length bytes / 8)).
(** periphery.go:18-20 Pad101 *)
Definition pad101_words (data : list Z) : option (list Z) := bytes2uint64s (pad101_bytes data).
(** periphery.go:7-16 Uint64s2Blocks: MAX_ROUNDS = 10 rows of 17; more words panic *)
Definition uint64s2blocks (padded : list Z) : option (list (list Z)) :=
  guard (Nat.leb (length padded) 170) ;;
  let all := padded ++ repeat 0 (170 - length padded) in
  Some (map (fun r => firstn 17 (skipn (r * 17) all)) (seq 0 10)).

Section P.
Variable p : Z.

(** api.Div by the constant 2^k (k = 0..3) in a field of odd characteristic: multiplication by (1/2)^k *)
Definition fdiv_pow2 (a : Z) (k : nat) : Z := (a * ((p + 1) / 2) ^ Z.of_nat k) mod p.

(** pad.go:104-108 checkLen *)
Definition check_len (length inBits : nat) : option unit := guard (Nat.eqb (length mod (8 / inBits)) 0).

(** one row of the selection matrix, pad.go:71-98: data bits, seven 0, 1, zeros, 1, zeros *)
Definition pad_row (bits : list Z) (actualLen outBitsLen : nat) : list Z :=
  let rounds := ((actualLen + 8) / 1088 + 1)%nat in
  firstn actualLen bits ++ repeat 0 7 ++ [1] ++ repeat 0 (rounds * 1088 - 8 - (actualLen + 8)) ++ [1] ++
  repeat 0 (outBitsLen - (rounds * 1088 - 7)).

(** pad.go:39-102 Pad101Bits.  [logc] with 8/inBits = 2^logc: inBits is 8, 4, 2 or 1. *)
Definition pad101_bits (logc inLenMin inLenMax : nat) (input : list Z) (inLen : Z) : option (list Z) :=
  let inBits := (8 / 2 ^ logc)%nat in
  guard (Nat.eqb (length input) inLenMax) ;;
  let outBitsLen := (((inLenMax * inBits + 8) / 1088 + 1) * 1088)%nat in
  check_len (length input) inBits ;; check_len inLenMin inBits ;; check_len inLenMax inBits ;; check_len outBitsLen 1 ;;
  let* bs := omap (fun e => let* b := to_binary p e inBits in Some (rev b)) input in
  let bits := concat bs in
  guard (Nat.leb inLenMin inLenMax) ;; (* otherwise rows <= 0 and transpose panics *)
  let rows := ((inLenMax - inLenMin) * inBits / 8 + 1)%nat in
  let padded := map (fun i => pad_row bits (inLenMin * inBits + i * 8) outBitsLen) (seq 0 rows) in
  let sel := fdiv_pow2 (fsub p inLen (Z.of_nat inLenMin)) logc in
  let* out := m_multiplex p sel outBitsLen rows (transpose_n outBitsLen padded) in
  flip_sub 0 out 8.

(** periphery.go:243-263 PadBits101: a negative zeroBitLen or padZeroLen appends nothing *)
Definition pad_bits101 (data : list Z) (maxRound : nat) : option (list Z) :=
  let missed := (1088 - length data mod 1088)%nat in
  let* one := to_binary p 1 8 in
  let* last := to_binary p 128 8 in
  let pb := data ++ one ++ repeat 0 (missed - 16) ++ last in
  Some (pb ++ repeat 0 (maxRound * 1088 - length pb)).
End P.
