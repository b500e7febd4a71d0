(** * ScModel.v — models circuits/gadgets/ed25519/test/scalar.go: integers modulo l = 2^252 + 27742317777372353535851937790883648493

    A Scalar is the list of its 32 bytes.  An int64 is the integer it denotes; every operation that can overflow is wrapped.
    The bodies of scMulAdd and scReduce are straight-line code of three shapes on 24 int64 variables s0 ... s23; they are written
    here as lists of instructions with an interpreter.  The lists were read off the source mechanically, line by line.
    Receivers may alias arguments: the code reads all arguments before it writes the receiver. *)
From Coq Require Import ZArith List Bool Arith.
From Verif Require Import EdBytes KeccakModel SliceModel.
Import ListNotations.
Open Scope Z_scope.

Definition i64 (x : Z) : Z := (x + 2 ^ 63) mod 2 ^ 64 - 2 ^ 63.
(** byte(x) *)
Definition byte (x : Z) : Z := x mod 256.
Definition i8 (x : Z) : Z := (x + 128) mod 256 - 128.

(** scalar.go:26-33 scZero, scOne, scMinusOne; 37-39 NewScalar *)
Definition scZero : list Z := repeat 0 32.
Definition scOne : list Z := 1 :: repeat 0 31.
Definition scMinusOne : list Z := [236; 211; 245; 92; 26; 99; 18; 88; 214; 156; 247; 162; 222; 249; 222; 20; 0; 0; 0; 0; 0; 0; 0; 0; 0; 0; 0; 0; 0; 0; 0; 16].

(** scalar.go:170-175 load3 and 177-183 load4: the first bytes of a slice *)
Definition load3 (x : list Z) : Z := Z.lor (Z.lor (nth 0 x 0) (Z.shiftl (nth 1 x 0) 8)) (Z.shiftl (nth 2 x 0) 16).
Definition load4 (x : list Z) : Z := Z.lor (load3 x) (Z.shiftl (nth 3 x 0) 24).

(** scalar.go:196-207: a0 ... a11, and the same lines for b and c *)
Definition limbs12 (x : list Z) : list Z :=
  [Z.land 2097151 (load3 (skipn 0 x));
   Z.land 2097151 (Z.shiftr (load4 (skipn 2 x)) 5);
   Z.land 2097151 (Z.shiftr (load3 (skipn 5 x)) 2);
   Z.land 2097151 (Z.shiftr (load4 (skipn 7 x)) 7);
   Z.land 2097151 (Z.shiftr (load4 (skipn 10 x)) 4);
   Z.land 2097151 (Z.shiftr (load3 (skipn 13 x)) 1);
   Z.land 2097151 (Z.shiftr (load4 (skipn 15 x)) 6);
   Z.land 2097151 (Z.shiftr (load3 (skipn 18 x)) 3);
   Z.land 2097151 (load3 (skipn 21 x));
   Z.land 2097151 (Z.shiftr (load4 (skipn 23 x)) 5);
   Z.land 2097151 (Z.shiftr (load3 (skipn 26 x)) 2);
   Z.shiftr (load4 (skipn 28 x)) 7].
(** scalar.go:629-652: s0 ... s23 of scReduce *)
Definition limbs24 (x : list Z) : list Z :=
  [Z.land 2097151 (load3 (skipn 0 x));
   Z.land 2097151 (Z.shiftr (load4 (skipn 2 x)) 5);
   Z.land 2097151 (Z.shiftr (load3 (skipn 5 x)) 2);
   Z.land 2097151 (Z.shiftr (load4 (skipn 7 x)) 7);
   Z.land 2097151 (Z.shiftr (load4 (skipn 10 x)) 4);
   Z.land 2097151 (Z.shiftr (load3 (skipn 13 x)) 1);
   Z.land 2097151 (Z.shiftr (load4 (skipn 15 x)) 6);
   Z.land 2097151 (Z.shiftr (load3 (skipn 18 x)) 3);
   Z.land 2097151 (load3 (skipn 21 x));
   Z.land 2097151 (Z.shiftr (load4 (skipn 23 x)) 5);
   Z.land 2097151 (Z.shiftr (load3 (skipn 26 x)) 2);
   Z.land 2097151 (Z.shiftr (load4 (skipn 28 x)) 7);
   Z.land 2097151 (Z.shiftr (load4 (skipn 31 x)) 4);
   Z.land 2097151 (Z.shiftr (load3 (skipn 34 x)) 1);
   Z.land 2097151 (Z.shiftr (load4 (skipn 36 x)) 6);
   Z.land 2097151 (Z.shiftr (load3 (skipn 39 x)) 3);
   Z.land 2097151 (load3 (skipn 42 x));
   Z.land 2097151 (Z.shiftr (load4 (skipn 44 x)) 5);
   Z.land 2097151 (Z.shiftr (load3 (skipn 47 x)) 2);
   Z.land 2097151 (Z.shiftr (load4 (skipn 49 x)) 7);
   Z.land 2097151 (Z.shiftr (load4 (skipn 52 x)) 4);
   Z.land 2097151 (Z.shiftr (load3 (skipn 55 x)) 1);
   Z.land 2097151 (Z.shiftr (load4 (skipn 57 x)) 6);
   Z.shiftr (load4 (skipn 60 x)) 3].

(** scalar.go:234-257: s0 ... s22 := c + the products a_i * b_(k-i), summed from the left; s23 := 0 *)
Definition column (a b : list Z) (acc : Z) (k : nat) : Z :=
  fold_left (fun acc i => i64 (acc + i64 (nth i a 0 * nth (k - i) b 0))) (seq (k - 11) (Nat.min k 11 + 1 - (k - 11))) acc.
Definition columns (a b c : list Z) : list Z := map (fun k => column a b (nth k c 0) k) (seq 0 23) ++ [0].

(** the three shapes of straight-line code, e.g. lines 259-261, 507-509 and 330-336:
      CarryR i:  carry[i] = (s_i + (1 << 20)) >> 21; s_(i+1) += carry[i]; s_i -= carry[i] << 21
      Carry i:   carry[i] = s_i >> 21;               s_(i+1) += carry[i]; s_i -= carry[i] << 21
      Fold i:    s_(i-12) += s_i * 666643; s_(i-11) += s_i * 470296; ... s_(i-7) -= s_i * 683901; s_i = 0 *)
Inductive ins := CarryR (i : nat) | Carry (i : nat) | Fold (i : nat).
Definition carry_step (r : Z) (i : nat) (s : list Z) : list Z :=
  let c := Z.shiftr (i64 (nth i s 0 + r)) 21 in
  let s := upd (i + 1) (i64 (nth (i + 1) s 0 + c)) s in
  upd i (i64 (nth i s 0 - i64 (Z.shiftl c 21))) s.
Definition fold_coeffs : list Z := [666643; 470296; 654183; -997805; 136657; -683901].
Definition fold_step (i : nat) (s : list Z) : list Z :=
  let x := nth i s 0 in
  upd i 0 (fold_left (fun s j => upd (i - 12 + j) (i64 (nth (i - 12 + j) s 0 + i64 (x * nth j fold_coeffs 0))) s) (seq 0 6) s).
Definition exec (p : ins) (s : list Z) : list Z :=
  match p with CarryR i => carry_step (2 ^ 20) i s | Carry i => carry_step 0 i s | Fold i => fold_step i s end.
Definition exec_all (ps : list ins) (s : list Z) : list Z := fold_left (fun s p => exec p s) ps s.

(** scalar.go:259-328: the first carries of scMulAdd *)
Definition prog_mul : list ins := [CarryR 0; CarryR 2; CarryR 4; CarryR 6; CarryR 8; CarryR 10; CarryR 12; CarryR 14; CarryR 16; CarryR 18; CarryR 20; CarryR 22; CarryR 1; CarryR 3; CarryR 5; CarryR 7; CarryR 9; CarryR 11; CarryR 13; CarryR 15; CarryR 17; CarryR 19; CarryR 21].
(** scalar.go:330-505 in scMulAdd and 654-831 in scReduce: the same lines *)
Definition prog_fold : list ins :=
  [Fold 23; Fold 22; Fold 21; Fold 20; Fold 19; Fold 18; CarryR 6; CarryR 8; CarryR 10; CarryR 12; CarryR 14; CarryR 16; CarryR 7; CarryR 9; CarryR 11; CarryR 13; CarryR 15; Fold 17; Fold 16; Fold 15; Fold 14; Fold 13; Fold 12; CarryR 0; CarryR 2; CarryR 4; CarryR 6; CarryR 8; CarryR 10; CarryR 1; CarryR 3; CarryR 5; CarryR 7; CarryR 9; CarryR 11; Fold 12].
(** scalar.go:507-584 and 833-910 *)
Definition prog_exact : list ins :=
  [Carry 0; Carry 1; Carry 2; Carry 3; Carry 4; Carry 5; Carry 6; Carry 7; Carry 8; Carry 9; Carry 10; Carry 11; Fold 12; Carry 0; Carry 1; Carry 2; Carry 3; Carry 4; Carry 5; Carry 6; Carry 7; Carry 8; Carry 9; Carry 10].

(** scalar.go:586-617 in scMulAdd and 912-943 in scReduce: the 32 bytes *)
Definition pack (s : list Z) : list Z :=

  [byte (Z.shiftr (nth 0 s 0) 0);
   byte (Z.shiftr (nth 0 s 0) 8);
   byte (Z.lor (Z.shiftr (nth 0 s 0) 16) (i64 (Z.shiftl (nth 1 s 0) 5)));
   byte (Z.shiftr (nth 1 s 0) 3);
   byte (Z.shiftr (nth 1 s 0) 11);
   byte (Z.lor (Z.shiftr (nth 1 s 0) 19) (i64 (Z.shiftl (nth 2 s 0) 2)));
   byte (Z.shiftr (nth 2 s 0) 6);
   byte (Z.lor (Z.shiftr (nth 2 s 0) 14) (i64 (Z.shiftl (nth 3 s 0) 7)));
   byte (Z.shiftr (nth 3 s 0) 1);
   byte (Z.shiftr (nth 3 s 0) 9);
   byte (Z.lor (Z.shiftr (nth 3 s 0) 17) (i64 (Z.shiftl (nth 4 s 0) 4)));
   byte (Z.shiftr (nth 4 s 0) 4);
   byte (Z.shiftr (nth 4 s 0) 12);
   byte (Z.lor (Z.shiftr (nth 4 s 0) 20) (i64 (Z.shiftl (nth 5 s 0) 1)));
   byte (Z.shiftr (nth 5 s 0) 7);
   byte (Z.lor (Z.shiftr (nth 5 s 0) 15) (i64 (Z.shiftl (nth 6 s 0) 6)));
   byte (Z.shiftr (nth 6 s 0) 2);
   byte (Z.shiftr (nth 6 s 0) 10);
   byte (Z.lor (Z.shiftr (nth 6 s 0) 18) (i64 (Z.shiftl (nth 7 s 0) 3)));
   byte (Z.shiftr (nth 7 s 0) 5);
   byte (Z.shiftr (nth 7 s 0) 13);
   byte (Z.shiftr (nth 8 s 0) 0);
   byte (Z.shiftr (nth 8 s 0) 8);
   byte (Z.lor (Z.shiftr (nth 8 s 0) 16) (i64 (Z.shiftl (nth 9 s 0) 5)));
   byte (Z.shiftr (nth 9 s 0) 3);
   byte (Z.shiftr (nth 9 s 0) 11);
   byte (Z.lor (Z.shiftr (nth 9 s 0) 19) (i64 (Z.shiftl (nth 10 s 0) 2)));
   byte (Z.shiftr (nth 10 s 0) 6);
   byte (Z.lor (Z.shiftr (nth 10 s 0) 14) (i64 (Z.shiftl (nth 11 s 0) 7)));
   byte (Z.shiftr (nth 11 s 0) 1);
   byte (Z.shiftr (nth 11 s 0) 9);
   byte (Z.shiftr (nth 11 s 0) 17)].

(** scalar.go:195-618 scMulAdd *)
Definition scMulAdd (a b c : list Z) : list Z :=
  pack (exec_all prog_exact (exec_all prog_fold (exec_all prog_mul (columns (limbs12 a) (limbs12 b) (limbs12 c))))).
(** scalar.go:628-944 scReduce *)
Definition scReduce (x : list Z) : list Z := pack (exec_all prog_exact (exec_all prog_fold (limbs24 x))).

(** scalar.go:43-46 MultiplyAdd, 49-53 Add, 56-60 Subtract, 63-67 Negate, 70-74 Multiply *)
Definition sc_multiply_add (x y z : list Z) : list Z := scMulAdd x y z.
Definition sc_add (x y : list Z) : list Z := scMulAdd scOne x y.
Definition sc_subtract (x y : list Z) : list Z := scMulAdd scMinusOne y x.
Definition sc_negate (x : list Z) : list Z := scMulAdd scMinusOne x scZero.
Definition sc_multiply (x y : list Z) : list Z := scMulAdd x y scZero.

(** scalar.go:88-96 SetUniformBytes *)
Definition sc_set_uniform (x : list Z) : option (list Z) :=
  if negb (Nat.eqb (length x) 64) then None else Some (scReduce x).
(** scalar.go:115-125 isReduced: the bytes from the last to the first, against those of scMinusOne *)
Fixpoint reduced_from (n : nat) (s : list Z) : bool :=
  match n with
  | O => true
  | S i => if nth i s 0 >? nth i scMinusOne 0 then false else if nth i s 0 <? nth i scMinusOne 0 then true else reduced_from i s
  end.
Definition isReduced (s : list Z) : bool := reduced_from (length s) s.
(** scalar.go:101-112 SetCanonicalBytes *)
Definition sc_set_canonical (x : list Z) : option (list Z) :=
  if negb (Nat.eqb (length x) 32) then None else if negb (isReduced x) then None else Some x.
(** scalar.go:138-153 SetBytesWithClamping *)
Definition sc_set_clamped (x : list Z) : option (list Z) :=
  if negb (Nat.eqb (length x) 32) then None
  else let w := x ++ repeat 0 32 in
       let w := upd 0 (Z.land (nth 0 w 0) 248) w in
       let w := upd 31 (Z.land (nth 31 w 0) 63) w in
       let w := upd 31 (Z.lor (nth 31 w 0) 64) w in
       Some (scReduce w).
(** scalar.go:156-160 Bytes is a copy; 163-165 Equal: subtle.ConstantTimeCompare *)
Definition sc_bytes (s : list Z) : list Z := s.
Definition sc_equal (s t : list Z) : Z := if list_eq_dec Z.eq_dec s t then 1 else 0.

(** scalar.go:949-1011 nonAdjacentForm: the loop "for pos < 256", with fuel; a panic is None *)
Definition u64 (x : Z) : Z := x mod 2 ^ 64.
Definition le64 (x : list Z) (i : nat) : Z := le_val (firstn 8 (skipn i x)).
Fixpoint naf_loop (fuel : nat) (digits : list Z) (w : nat) (pos : nat) (carry : Z) (naf : list Z) : list Z :=
  match fuel with
  | O => naf
  | S f =>
    if Nat.ltb pos 256 then
      let indexU64 := (pos / 64)%nat in
      let indexBit := (pos mod 64)%nat in
      let bitBuf := if Nat.ltb indexBit (64 - w) then Z.shiftr (nth indexU64 digits 0) (Z.of_nat indexBit)
                    else Z.lor (Z.shiftr (nth indexU64 digits 0) (Z.of_nat indexBit)) (u64 (Z.shiftl (nth (1 + indexU64) digits 0) (64 - Z.of_nat indexBit))) in
      let window := u64 (carry + Z.land bitBuf (2 ^ Z.of_nat w - 1)) in
      if Z.land window 1 =? 0 then naf_loop f digits w (pos + 1) carry naf
      else if window <? 2 ^ Z.of_nat w / 2 then naf_loop f digits w (pos + w) 0 (upd pos (i8 window) naf)
      else naf_loop f digits w (pos + w) 1 (upd pos (i8 (i8 window - i8 (2 ^ Z.of_nat w))) naf)
    else naf
  end.
Definition sc_naf (s : list Z) (w : nat) : option (list Z) :=
  if nth 31 s 0 >? 127 then None
  else if Nat.ltb w 2 then None else if Nat.ltb 8 w then None
  else Some (naf_loop 256 (map (fun i => le64 s (8 * i)) (seq 0 4) ++ [0]) w 0 0 (repeat 0 256)).
(** scalar.go:1013-1034 signedRadix16 *)
Definition sc_radix16 (s : list Z) : option (list Z) :=
  if nth 31 s 0 >? 127 then None
  else let digits := concat (map (fun b => [i8 (Z.land b 15); i8 (Z.land (Z.shiftr b 4) 15)]) s) in
       Some (fold_left (fun d i =>
         let carry := Z.shiftr (i8 (nth i d 0 + 8)) 4 in
         let d := upd i (i8 (nth i d 0 - i8 (Z.shiftl carry 4))) d in
         upd (i + 1) (i8 (nth (i + 1) d 0 + carry)) d) (seq 0 63) digits).
