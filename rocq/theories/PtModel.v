(** * PtModel.v — models circuits/gadgets/ed25519/test/{edwards25519,tables,scalarmult}.go: points of edwards25519 on limbs

    A panic is None; SetBytes' error is None too.  Receivers may alias arguments: every method below reads what it needs of its
    arguments before it writes the receiver's fields, or writes a field only from values computed before, so functions on values
    are returned.  sync.Once memoises the two base point tables: they are constants here. *)
From Coq Require Import ZArith List Bool Arith.
From Verif Require Import Field EdBytes KeccakModel SliceModel FeModel ScModel.
Import ListNotations.
Open Scope Z_scope.
Open Scope circ_scope.

(** edwards25519.go:15-17 projP1xP1, 19-21 projP2, 29-37 Point, 39-41 PointAffine, 61-63 projCached, 65-67 affineCached *)
Record p1p1 := P1 { x1 : fe; y1 : fe; z1 : fe; t1 : fe }.
Record projp2 := P2 { x2 : fe; y2 : fe; z2 : fe }.
Record point := P3 { x3 : fe; y3 : fe; z3 : fe; t3 : fe }.
Record pcached := PC { cyp : fe; cym : fe; cz : fe; ct : fe }.
Record acached := AC { ayp : fe; aym : fe; at2 : fe }.

(** edwards25519.go:43-49 PointAffine.FromExtended *)
Definition from_extended (p : point) : fe * fe := let i := fe_invert (z3 p) in (feMul (x3 p) i, feMul (y3 p) i).
(** edwards25519.go:53-59 checkInitialized: the comparison is of the limbs *)
Definition fe_is_zero (v : fe) : bool := (l0 v =? 0) && (l1 v =? 0) && (l2 v =? 0) && (l3 v =? 0) && (l4 v =? 0).
Definition initialized (p : point) : bool := negb (fe_is_zero (x3 p) && fe_is_zero (y3 p)).
(** edwards25519.go:71-76, 101-107, 109-114: the three Zero methods *)
Definition p2_zero : projp2 := P2 fe_zero fe_one fe_one.
Definition pc_zero : pcached := PC fe_one fe_one fe_one fe_zero.
Definition ac_zero : acached := AC fe_one fe_one fe_zero.

(** edwards25519.go:239-244 d and d2 *)
Definition d_bytes : list Z := [0xa3; 0x78; 0x59; 0x13; 0xca; 0x4d; 0xeb; 0x75; 0xab; 0xd8; 0x41; 0x41; 0x4d; 0x0a; 0x70; 0x00;
  0x98; 0xe8; 0x79; 0x77; 0x79; 0x40; 0xc7; 0x8c; 0x73; 0xfe; 0x6f; 0x2b; 0xee; 0x6c; 0x03; 0x52].
Definition fe_d : fe := match fe_set_bytes d_bytes with Some v => v | None => fe_zero end.
Definition fe_d2 : fe := fe_add fe_d fe_d.

(** edwards25519.go:128-146 Bytes, bytes; 201-204 copyFieldElement *)
Definition pt_bytes (v : point) : option (list Z) :=
  guard (initialized v) ;;
  let zInv := fe_invert (z3 v) in
  let x := feMul (x3 v) zInv in
  let y := feMul (y3 v) zInv in
  let out := fe_bytes y in
  Some (upd 31 (Z.lor (nth 31 out 0) (byte (Z.shiftl (fe_is_negative x) 7))) out).
(** edwards25519.go:157-199 SetBytes *)
Definition pt_set_bytes (x : list Z) : option point :=
  let* y := fe_set_bytes x in
  let yy := feSquare y in
  let u := fe_sub yy fe_one in
  let vv := fe_add (feMul yy fe_d) fe_one in
  let '(xx, wasSquare) := fe_sqrt_ratio u vv in
  if wasSquare =? 0 then None
  else let xxNeg := fe_neg xx in
       let xx := fe_select xxNeg xx (Z.shiftr (nth 31 x 0) 7) in
       Some (P3 xx y fe_one (feMul xx y)).
(** edwards25519.go:79-86 identity, NewIdentityPoint; 90-99 generator, NewGeneratorPoint *)
Definition identity_bytes : list Z := 1 :: repeat 0 31.
Definition generator_bytes : list Z := 0x58 :: repeat 0x66 31.
Definition pt_identity : option point := pt_set_bytes identity_bytes.
Definition pt_generator : option point := pt_set_bytes generator_bytes.

(** edwards25519.go:208-213 projP2.FromP1xP1, 215-220 projP2.FromP3, 222-228 fromP1xP1, 230-236 fromP2 *)
Definition p2_from_p1 (p : p1p1) : projp2 := P2 (feMul (x1 p) (t1 p)) (feMul (y1 p) (z1 p)) (feMul (z1 p) (t1 p)).
Definition p2_from_p3 (p : point) : projp2 := P2 (x3 p) (y3 p) (z3 p).
Definition p3_from_p1 (p : p1p1) : point := P3 (feMul (x1 p) (t1 p)) (feMul (y1 p) (z1 p)) (feMul (z1 p) (t1 p)) (feMul (x1 p) (y1 p)).
Definition p3_from_p2 (p : projp2) : point := P3 (feMul (x2 p) (z2 p)) (feMul (y2 p) (z2 p)) (feSquare (z2 p)) (feMul (x2 p) (y2 p)).
(** edwards25519.go:246-252 projCached.FromP3, 254-265 affineCached.FromP3 *)
Definition pc_from_p3 (p : point) : pcached := PC (fe_add (y3 p) (x3 p)) (fe_sub (y3 p) (x3 p)) (z3 p) (feMul (t3 p) fe_d2).
Definition ac_from_p3 (p : point) : acached :=
  let i := fe_invert (z3 p) in
  AC (feMul (fe_add (y3 p) (x3 p)) i) (feMul (fe_sub (y3 p) (x3 p)) i) (feMul (feMul (t3 p) fe_d2) i).

(** edwards25519.go:285-303 projP1xP1.Add *)
Definition p1_add (p : point) (q : pcached) : p1p1 :=
  let pp := feMul (fe_add (y3 p) (x3 p)) (cyp q) in
  let mm := feMul (fe_sub (y3 p) (x3 p)) (cym q) in
  let tt2d := feMul (t3 p) (ct q) in
  let zz := feMul (z3 p) (cz q) in
  let zz2 := fe_add zz zz in
  P1 (fe_sub pp mm) (fe_add pp mm) (fe_add zz2 tt2d) (fe_sub zz2 tt2d).
(** edwards25519.go:305-323 projP1xP1.Sub *)
Definition p1_sub (p : point) (q : pcached) : p1p1 :=
  let pp := feMul (fe_add (y3 p) (x3 p)) (cym q) in
  let mm := feMul (fe_sub (y3 p) (x3 p)) (cyp q) in
  let tt2d := feMul (t3 p) (ct q) in
  let zz := feMul (z3 p) (cz q) in
  let zz2 := fe_add zz zz in
  P1 (fe_sub pp mm) (fe_add pp mm) (fe_sub zz2 tt2d) (fe_add zz2 tt2d).
(** edwards25519.go:325-342 AddAffine *)
Definition p1_add_affine (p : point) (q : acached) : p1p1 :=
  let pp := feMul (fe_add (y3 p) (x3 p)) (ayp q) in
  let mm := feMul (fe_sub (y3 p) (x3 p)) (aym q) in
  let tt2d := feMul (t3 p) (at2 q) in
  let zz2 := fe_add (z3 p) (z3 p) in
  P1 (fe_sub pp mm) (fe_add pp mm) (fe_add zz2 tt2d) (fe_sub zz2 tt2d).
(** edwards25519.go:344-361 SubAffine *)
Definition p1_sub_affine (p : point) (q : acached) : p1p1 :=
  let pp := feMul (fe_add (y3 p) (x3 p)) (aym q) in
  let mm := feMul (fe_sub (y3 p) (x3 p)) (ayp q) in
  let tt2d := feMul (t3 p) (at2 q) in
  let zz2 := fe_add (z3 p) (z3 p) in
  P1 (fe_sub pp mm) (fe_add pp mm) (fe_sub zz2 tt2d) (fe_add zz2 tt2d).
(** edwards25519.go:365-381 projP1xP1.Double *)
Definition p1_double (p : projp2) : p1p1 :=
  let xx := feSquare (x2 p) in
  let yy := feSquare (y2 p) in
  let zz := feSquare (z2 p) in
  let zz2 := fe_add zz zz in
  let xy := feSquare (fe_add (x2 p) (y2 p)) in
  let vy := fe_add yy xx in
  let vz := fe_sub yy xx in
  P1 (fe_sub xy vy) vy vz (fe_sub zz2 vz).

(** edwards25519.go:270-275 Add, 278-283 Subtract, 386-393 Negate *)
Definition pt_add (p q : point) : option point :=
  guard (initialized p) ;; guard (initialized q) ;; Some (p3_from_p1 (p1_add p (pc_from_p3 q))).
Definition pt_sub (p q : point) : option point :=
  guard (initialized p) ;; guard (initialized q) ;; Some (p3_from_p1 (p1_sub p (pc_from_p3 q))).
Definition pt_neg (p : point) : option point :=
  guard (initialized p) ;; Some (P3 (fe_neg (x3 p)) (y3 p) (z3 p) (fe_neg (t3 p))).
(** edwards25519.go:396-406 Equal *)
Definition pt_equal (v u : point) : option Z :=
  guard (initialized v) ;; guard (initialized u) ;;
  Some (Z.land (fe_equal (feMul (x3 v) (z3 u)) (feMul (x3 u) (z3 v))) (fe_equal (feMul (y3 v) (z3 u)) (feMul (y3 u) (z3 v)))).
(** edwards25519.go:408-410 UnpackPoint *)
Definition unpack_point (v : point) : fe * fe * fe := (x3 v, y3 v, z3 v).

(** edwards25519.go:415-421, 424-429 Select; 432-436, 439-443 CondNeg *)
Definition pc_select (a b : pcached) (c : Z) : pcached := PC (fe_select (cyp a) (cyp b) c) (fe_select (cym a) (cym b) c) (fe_select (cz a) (cz b) c) (fe_select (ct a) (ct b) c).
Definition ac_select (a b : acached) (c : Z) : acached := AC (fe_select (ayp a) (ayp b) c) (fe_select (aym a) (aym b) c) (fe_select (at2 a) (at2 b) c).
Definition pc_cond_neg (v : pcached) (c : Z) : pcached := let '(a, b) := fe_swap (cyp v) (cym v) c in PC a b (cz v) (fe_select (fe_neg (ct v)) (ct v) c).
Definition ac_cond_neg (v : acached) (c : Z) : acached := let '(a, b) := fe_swap (ayp v) (aym v) c in AC a b (fe_select (fe_neg (at2 v)) (at2 v) c).

(** the loops of tables.go:34-85: points[0] = c and points[i+1] = step points[i] *)
Fixpoint table_of {C} (step : C -> C) (n : nat) (c : C) : list C := c :: match n with O => [] | S m => table_of step m (step c) end.
(** tables.go:34-46 projLookupTable.FromP3, 49-59 affineLookupTable.FromP3, 62-73 nafLookupTable5.FromP3, 76-85 nafLookupTable8.FromP3 *)
Definition proj_table (q : point) : list pcached := table_of (fun c => pc_from_p3 (p3_from_p1 (p1_add q c))) 7 (pc_from_p3 q).
Definition affine_table (q : point) : list acached := table_of (fun c => ac_from_p3 (p3_from_p1 (p1_add_affine q c))) 7 (ac_from_p3 q).
Definition naf5_table (q : point) : option (list pcached) :=
  let* q2 := pt_add q q in Some (table_of (fun c => pc_from_p3 (p3_from_p1 (p1_add q2 c))) 7 (pc_from_p3 q)).
Definition naf8_table (q : point) : option (list acached) :=
  let* q2 := pt_add q q in Some (table_of (fun c => ac_from_p3 (p3_from_p1 (p1_add_affine q2 c))) 63 (ac_from_p3 q)).
(** tables.go:90-103, 106-119 SelectInto; subtle.ConstantTimeByteEq *)
Definition byte_eq (a b : Z) : Z := if a =? b then 1 else 0.
Definition proj_select (t : list pcached) (x : Z) : pcached :=
  let xmask := Z.shiftr x 7 in
  let xabs := byte (Z.lxor (i8 (x + xmask)) xmask) in
  let dest := fold_left (fun dest j => pc_select (nth (j - 1) t pc_zero) dest (byte_eq xabs (Z.of_nat j))) (seq 1 8) pc_zero in
  pc_cond_neg dest (Z.land xmask 1).
Definition affine_select (t : list acached) (x : Z) : acached :=
  let xmask := Z.shiftr x 7 in
  let xabs := byte (Z.lxor (i8 (x + xmask)) xmask) in
  let dest := fold_left (fun dest j => ac_select (nth (j - 1) t ac_zero) dest (byte_eq xabs (Z.of_nat j))) (seq 1 8) ac_zero in
  ac_cond_neg dest (Z.land xmask 1).
(** tables.go:122-124, 127-129 SelectInto: x/2 truncates; a negative index panics *)
Definition naf_select {C} (t : list C) (x : Z) : option C := let i := Z.quot x 2 in guard (0 <=? i) ;; nth_error t (Z.to_nat i).

(** scalarmult.go:11-22 basepointTable: the tables of p, 256 p, 256^2 p, ... *)
Fixpoint double_n (n : nat) (p : point) : option point := match n with O => Some p | S m => let* p := pt_add p p in double_n m p end.
Fixpoint base_tables (n : nat) (p : point) : option (list (list acached)) :=
  match n with O => Some [] | S m => let t := affine_table p in let* p := double_n 8 p in let* r := base_tables m p in Some (t :: r) end.
(** scalarmult.go:33-80 ScalarBaseMult *)
Definition base_step (ts : list (list acached)) (ds : list Z) (v : point) (i : nat) : point :=
  p3_from_p1 (p1_add_affine v (affine_select (nth (i / 2) ts []) (nth i ds 0))).
Definition pt_base_mult (x : list Z) : option point :=
  let* g := pt_generator in
  let* ts := base_tables 32 g in
  let* digits := sc_radix16 x in
  let* v := pt_identity in
  let v := fold_left (base_step ts digits) (map (fun j => 2 * j + 1)%nat (seq 0 32)) v in
  let tmp := p1_double (p2_from_p3 v) in
  let tmp := p1_double (p2_from_p1 tmp) in
  let tmp := p1_double (p2_from_p1 tmp) in
  let tmp := p1_double (p2_from_p1 tmp) in
  let v := p3_from_p1 tmp in
  Some (fold_left (base_step ts digits) (map (fun j => 2 * j)%nat (seq 0 32)) v).
(** scalarmult.go:85-123 ScalarMult *)
Definition mult_step (t : list pcached) (ds : list Z) (tmp : p1p1) (i : nat) : p1p1 :=
  let tmp := p1_double (p2_from_p1 tmp) in
  let tmp := p1_double (p2_from_p1 tmp) in
  let tmp := p1_double (p2_from_p1 tmp) in
  let tmp := p1_double (p2_from_p1 tmp) in
  p1_add (p3_from_p1 tmp) (proj_select t (nth i ds 0)).
Definition pt_mult (x : list Z) (q : point) : option point :=
  guard (initialized q) ;;
  let t := proj_table q in
  let* digits := sc_radix16 x in
  let* v := pt_identity in
  let tmp := p1_add v (proj_select t (nth 63 digits 0)) in
  Some (p3_from_p1 (fold_left (mult_step t digits) (rev (seq 0 63)) tmp)).
(** scalarmult.go:127-132 basepointNafTable, 143-214 VarTimeDoubleScalarBaseMult.  The loop of lines 170-174 only breaks: i stays 255. *)
Definition vt_add_a (t : list pcached) (d : Z) (tmp : p1p1) : option p1p1 :=
  if 0 <? d then let* m := naf_select t d in Some (p1_add (p3_from_p1 tmp) m)
  else if d <? 0 then let* m := naf_select t (i8 (- d)) in Some (p1_sub (p3_from_p1 tmp) m)
  else Some tmp.
Definition vt_add_b (t : list acached) (d : Z) (tmp : p1p1) : option p1p1 :=
  if 0 <? d then let* m := naf_select t d in Some (p1_add_affine (p3_from_p1 tmp) m)
  else if d <? 0 then let* m := naf_select t (i8 (- d)) in Some (p1_sub_affine (p3_from_p1 tmp) m)
  else Some tmp.
Fixpoint vt_loop (ta : list pcached) (tb : list acached) (da db : list Z) (n : nat) (tmp2 : projp2) : option projp2 :=
  match n with
  | O => Some tmp2
  | S i => let* tmp := vt_add_a ta (nth i da 0) (p1_double tmp2) in
           let* tmp := vt_add_b tb (nth i db 0) tmp in
           vt_loop ta tb da db i (p2_from_p1 tmp)
  end.
Definition pt_double_base_mult (a : list Z) (A : point) (b : list Z) : option point :=
  guard (initialized A) ;;
  let* g := pt_generator in
  let* tb := naf8_table g in
  let* ta := naf5_table A in
  let* da := sc_naf a 5 in
  let* db := sc_naf b 8 in
  let* r := vt_loop ta tb da db 256 p2_zero in
  Some (p3_from_p2 r).
