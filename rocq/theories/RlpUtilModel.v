(** * RlpUtilModel.v — models circuits/gadgets/mux/multiplexer.go and the generic helpers of
    circuits/gadgets/rlp/util.go and rlp.go (comparison, prefix equality, barrel shifters, hex values).
    Slices are lists; reading past the end of a Go slice panics, which the models render by a
    [guard] on lengths at the top of the function. *)
From Coq Require Import ZArith List Lia Bool.
From Verif Require Import Field.
Import ListNotations.
Open Scope Z_scope.
Open Scope circ_scope.

Section M.
Variable p : Z.

(** mux/multiplexer.go:48-50 isEqual; rlp/util.go:162-164 Equal *)
Definition r_equal (a b : Z) : Z := fis_zero p (fsub p a b).

(** rlp/util.go:166-168 LessThan *)
Definition r_less_than (a b : Z) : Z := fis_zero p (fadd p (fcmp p a b) 1).

(** mux/multiplexer.go:26-35 decode; rlp/util.go:33-42 Decoder.  Returns the mask and the sum of the mask. *)
Definition r_decoder (width : nat) (input : Z) : option (list Z * Z) :=
  let mask := map (fun i => r_equal (Z.of_nat i) input) (seq 0 width) in
  let success := fold_left (fun acc v => fadd p acc v) mask 0 in
  assert_bool p success ;; Some (mask, success).

(** rlp/util.go:44-50 EscalarProduct: only the first [width] entries are used. *)
Definition r_escalar (width : nat) (a b : list Z) : Z :=
  fold_left (fun acc i => fadd p acc (fmul p (nth i a 0) (nth i b 0))) (seq 0 width) 0.

(** mux/multiplexer.go:37-46 dotProduct: as EscalarProduct, but panics on different lengths. *)
Definition m_dot_product (width : nat) (a b : list Z) : option Z :=
  guard (Nat.eqb (length a) (length b)) ;; Some (r_escalar width a b).

(** mux/multiplexer.go:8-22 Multiplex.  [input] is the list of rows; a table with fewer than wIn rows panics. *)
Definition m_multiplex (sel : Z) (wIn nIn : nat) (input : list (list Z)) : option (list Z) :=
  let* '(mask, success) := r_decoder nIn sel in
  guard (Nat.leb wIn (length input)) ;;
  let* out := omap (fun i => m_dot_product nIn (nth i input []) mask) (seq 0 wIn) in
  assert_eq p success 1 ;; Some out.

(** rlp/util.go:15-31 Multiplexer: rows may be longer than nIn, shorter rows panic. *)
Definition r_multiplexer (sel : Z) (wIn nIn : nat) (input : list (list Z)) : option (list Z) :=
  let* '(mask, success) := r_decoder nIn sel in
  guard (Nat.leb wIn (length input)) ;;
  let* out := omap (fun i => guard (Nat.leb nIn (length (nth i input []))) ;;
                             Some (r_escalar nIn (nth i input []) mask)) (seq 0 wIn) in
  assert_eq p success 1 ;; Some out.

(** The one-row use [Multiplexer(api, sel, 1, n, [][]{row})[0]] that the RLP code makes everywhere. *)
Definition r_mux1 (sel : Z) (n : nat) (row : list Z) : option Z :=
  let* out := r_multiplexer sel 1 n [row] in Some (nth 0 out 0).

(** rlp/util.go:170-191 ArrayEqual *)
Definition r_prefix_sums (a b : list Z) (maxLength : nat) : list Z :=
  map (fun i => fold_left (fun acc j => fadd p acc (r_equal (nth j a 0) (nth j b 0))) (seq 1 i)
                  (r_equal (nth 0 a 0) (nth 0 b 0)))
      (seq 0 maxLength).
Definition r_array_equal (a b : list Z) (maxLength : nat) (targetLength : Z) : option Z :=
  assert_le p (Z.of_nat maxLength) (Z.of_nat (length a)) ;;
  assert_le p (Z.of_nat maxLength) (Z.of_nat (length b)) ;;
  let* m := r_mux1 targetLength (maxLength + 1) (0 :: r_prefix_sums a b maxLength) in
  Some (r_equal targetLength m).

End M.

(** rlp/util.go:193-202 LogCeil (n >= 0; the loop runs at most 254 times) *)
Fixpoint log_ceil_loop (fuel i : nat) (n : nat) : nat :=
  match fuel with
  | O => 254
  | S f => if Nat.eqb n 0 then i else log_ceil_loop f (S i) (Nat.div2 n)
  end.
Definition log_ceil (n : nat) : nat := log_ceil_loop 254 0 n.

Section S.
Variable p : Z.

(** The n entries prev[(j+off) mod n], j = 0..n-1 (lemma cyc_nth). *)
Definition cyc (n off : nat) (prev : list Z) : list Z :=
  let k := (off mod n)%nat in skipn k (firstn n prev) ++ firstn k (firstn n prev).

(** One level of a rotating barrel shifter: entry j becomes
    bit * (prev[(j+off) mod n] - prev[j]) + prev[j].
    (util.go:237-250, rlp.go:299-317) *)
Definition rot_level (n : nat) (bit : Z) (off : nat) (prev : list Z) : list Z :=
  map (fun xy => fadd p (fmul p bit (fsub p (snd xy) (fst xy))) (fst xy))
      (combine (firstn n prev) (cyc n off prev)).

(** Levels i, i+1, ... driven by the bits list. *)
Fixpoint rot_levels (n : nat) (bits : list Z) (i : nat) (prev : list Z) : list Z :=
  match bits with
  | [] => prev
  | b :: r => rot_levels n r (S i) (rot_level n b (2 ^ i) prev)
  end.

(** rlp/util.go:204-257 SubArray.SubArray with fields nIn, maxSelect, nInBits.  The Go table [shifts] has 7
    columns, so nInBits > 7 panics; nInBits = 0 panics when an output is read; maxSelect > nIn panics. *)
Definition r_sub_array (nIn maxSelect nInBits : nat) (inp : list Z) (from end_ : Z) : option (list Z * Z) :=
  assert_le p from end_ ;;
  assert_le p end_ (Z.of_nat nIn) ;;
  assert_le p (fsub p end_ from) (Z.of_nat maxSelect) ;;
  let outLength := fsub p end_ from in
  let* n2b := to_binary p from (field_bits p) in
  guard (Nat.leb nIn (length inp)) ;;
  guard (Nat.leb nInBits 7 && Nat.leb nInBits (field_bits p)) ;;
  guard (Nat.eqb maxSelect 0 || (Nat.leb maxSelect nIn && Nat.ltb 0 nInBits)) ;;
  let final := rot_levels nIn (firstn nInBits n2b) 0 (firstn nIn inp) in
  Some (firstn maxSelect final, outLength).

(** rlp/rlp.go:279-324 ShiftLeft.  In level 0 Go reads in[(j+minShift+1) % nIn] and in[(j+minShift) % nIn]
    directly: that is a rot_level with offset 1 of the input rotated by minShift. *)
Definition r_shift_left (nIn minShift maxShift : nat) (inp : list Z) (shift : Z) : option (list Z) :=
  guard (Nat.leb nIn (length inp)) ;;
  guard (Nat.leb minShift maxShift) ;; (* rlp.go:281: with max < min the bit count is meaningless; not used *)
  let base := cyc nIn minShift inp in
  if Nat.eqb minShift maxShift then Some base
  else
    let shiftBits := log_ceil (maxShift - minShift) in
    let* bn := to_binary p (fsub p shift (Z.of_nat minShift)) shiftBits in
    Some (rot_levels nIn bn 0 base).

(** rlp/rlp.go:326-371 ShiftRight; one level fills the first 2^idx entries with prev - bit*prev. *)
Definition shr_level (n : nat) (bit : Z) (off : nat) (prev : list Z) : list Z :=
  map (fun j => if Nat.ltb j off
                then fsub p (nth j prev 0) (fmul p bit (nth j prev 0))
                else fadd p (fmul p bit (fsub p (nth (j - off) prev 0) (nth j prev 0))) (nth j prev 0))
      (seq 0 n).
Fixpoint shr_levels (n : nat) (bits : list Z) (i : nat) (prev : list Z) : list Z :=
  match bits with
  | [] => prev
  | b :: r => shr_levels n r (S i) (shr_level n b (2 ^ i) prev)
  end.
Definition r_shift_right (nIn nInBits : nat) (inp : list Z) (shift : Z) : option (list Z) :=
  guard (Nat.leb nIn (length inp)) ;;
  let* bits := to_binary p shift nInBits in
  guard (Nat.eqb nIn 0 || Nat.ltb 0 nInBits) ;; (* shifts[nInBits-1] panics when nInBits = 0 *)
  Some (shr_levels nIn bits 0 (firstn nIn inp)).

(** rlp/rlp.go:147-151 etc.: running values temp = 16*temp + in[idx] of a nibble string *)
Fixpoint hex_prefix_vals (acc : Z) (l : list Z) : list Z :=
  match l with
  | [] => []
  | d :: r => let acc' := fadd p (fmul p 16 acc) d in acc' :: hex_prefix_vals acc' r
  end.

(** rlp/rlp.go:145-159 HexToDecimal *)
Definition r_hex_to_decimal (inp : list Z) (maxLen : nat) (realLen : Z) : option Z :=
  guard (Nat.leb maxLen (length inp)) ;;
  let resultArr := hex_prefix_vals 0 (firstn maxLen inp) in
  let* sel := fselect p (r_less_than p realLen 1) 1 (fsub p realLen 1) in
  let* sel := fselect p (r_less_than p (Z.of_nat maxLen) sel) (Z.of_nat maxLen - 1) sel in
  let* res := smux p sel resultArr in
  fselect p (fis_zero p realLen) 0 res.

(** rlp/rlp.go:162-182 Hex64To2Fr: result (low, high) *)
Definition r_hex64_to_2fr (inp : list Z) (realLen : Z) : option (Z * Z) :=
  guard (Nat.leb 64 (length inp)) ;;
  let hi := fadd p (fmul p (nth 0 inp 0) 16) (nth 1 inp 0) in
  let resultArr := hex_prefix_vals 0 (firstn 62 (skipn 2 inp)) in
  let* loSel := fselect p (r_less_than p realLen 3) 1 (fsub p realLen 3) in
  let* loSel := fselect p (r_less_than p realLen 1) 1 loSel in
  let* lo := smux p loSel resultArr in
  let isShort := r_less_than p realLen 63 in
  let* d := r_hex_to_decimal inp 64 realLen in
  let* r0 := fselect p isShort d lo in
  let* r1 := fselect p isShort 0 hi in
  Some (r0, r1).

End S.
