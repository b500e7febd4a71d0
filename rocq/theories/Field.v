(** * Field.v — semantics given to gnark's [frontend.API] (trusted, see DESIGN.md section 2).

    A [frontend.Variable] is modelled by an integer; the canonical ones satisfy [0 <= x < p].  Operations
    that merely compute return [Z]; operations that add a constraint return [option _]: [None] means that
    no assignment satisfies the constraints. *)
From Coq Require Import ZArith List Lia Bool.
Import ListNotations.
Open Scope Z_scope.

Declare Scope circ_scope.
Delimit Scope circ_scope with circ.

(** Sequencing of gadgets: the conjunction of the constraints emitted by both. *)
Definition obind {A B} (m : option A) (f : A -> option B) : option B :=
  match m with Some x => f x | None => None end.
Notation "'let*' x ':=' m 'in' k" := (obind m (fun x => k))
  (at level 200, x name, m at level 100, k at level 200) : circ_scope.
Notation "'let*' ' x ':=' m 'in' k" := (obind m (fun v => match v with x => k end))
  (at level 200, x strict pattern, m at level 100, k at level 200) : circ_scope.
Notation "m ';;' k" := (obind m (fun _ : unit => k)) (at level 190, right associativity) : circ_scope.
Open Scope circ_scope.

(** A Go loop whose body emits constraints: all iterations must be satisfiable. *)
Fixpoint omap {A B} (f : A -> option B) (l : list A) : option (list B) :=
  match l with
  | [] => Some []
  | x :: r => let* y := f x in let* ys := omap f r in Some (y :: ys)
  end.

(** A Go loop that threads an accumulator and emits constraints. *)
Fixpoint ofold {A S} (f : S -> A -> option S) (l : list A) (s : S) : option S :=
  match l with
  | [] => Some s
  | x :: r => let* s' := f s x in ofold f r s'
  end.

(** A guard: a Go panic at circuit construction, or an unsatisfiable assertion, when [b] is false. *)
Definition guard (b : bool) : option unit := if b then Some tt else None.

(** [n] little-endian binary digits of [x]. *)
Fixpoint bits_le (n : nat) (x : Z) : list Z :=
  match n with O => [] | S k => x mod 2 :: bits_le k (x / 2) end.

(** Value of a little-endian digit list. *)
Fixpoint val_le (l : list Z) : Z :=
  match l with [] => 0 | b :: r => b + 2 * val_le r end.

Definition is_bit (x : Z) : Prop := x = 0 \/ x = 1.
Definition bit_of (b : bool) : Z := if b then 1 else 0.

Section Api.
Variable p : Z.

(** canonical field element *)
Definition felt (x : Z) : Prop := 0 <= x < p.
(** api.Add / api.Sub / api.Mul / api.Neg *)
Definition fadd (a b : Z) : Z := (a + b) mod p.
Definition fsub (a b : Z) : Z := (a - b) mod p.
Definition fmul (a b : Z) : Z := (a * b) mod p.
Definition fneg (a : Z) : Z := (- a) mod p.
(** api.IsZero *)
Definition fis_zero (a : Z) : Z := if a mod p =? 0 then 1 else 0.
(** api.Cmp: compares canonical representatives, result -1, 0, 1 as field elements *)
Definition fcmp (a b : Z) : Z :=
  match (a mod p ?= b mod p) with Lt => (-1) mod p | Eq => 0 | Gt => 1 end.
(** api.AssertIsEqual *)
Definition assert_eq (a b : Z) : option unit := guard (a mod p =? b mod p).
(** api.AssertIsLessOrEqual: compares canonical representatives *)
Definition assert_le (a b : Z) : option unit := guard (a mod p <=? b mod p).
(** api.AssertIsBoolean *)
Definition assert_bool (a : Z) : option unit := guard ((a mod p =? 0) || (a mod p =? 1)).
(** api.Select(b,x,y): x if b=1 else y; gnark asserts that b is boolean *)
Definition fselect (b x y : Z) : option Z :=
  assert_bool b ;; Some (if b mod p =? 1 then x mod p else y mod p).
(** api.And, api.Or, api.Xor: assert boolean inputs *)
Definition fand (a b : Z) : option Z := assert_bool a ;; assert_bool b ;; Some (fmul a b).
Definition for_ (a b : Z) : option Z :=
  assert_bool a ;; assert_bool b ;; Some (fsub (fadd a b) (fmul a b)).
Definition fxor (a b : Z) : option Z :=
  assert_bool a ;; assert_bool b ;; Some (fsub (fadd a b) (fmul 2 (fmul a b))).
(** api.ToBinary(x, n): n little-endian bits; unsatisfiable when x does not fit *)
Definition to_binary (x : Z) (n : nat) : option (list Z) :=
  guard (x mod p <? 2 ^ Z.of_nat n) ;; Some (bits_le n (x mod p)).
(** api.FromBinary(bits...): constrains every input to be a bit, then packs little-endian *)
Definition from_binary (l : list Z) : option Z :=
  let* _ := omap assert_bool l in Some (val_le l mod p).
(** selector.Mux(sel, inputs...): unsatisfiable when sel is out of range *)
Definition smux (sel : Z) (l : list Z) : option Z :=
  guard (sel mod p <? Z.of_nat (length l)) ;; Some (nth (Z.to_nat (sel mod p)) l 0).

End Api.

(** Width of api.ToBinary(x) with no explicit width: the bit length of the modulus.  It is also the
    number of bits that the canonical representative always fits in. *)
Definition field_bits (p : Z) : nat := Z.to_nat (Z.log2 p + 1).

(** BN254 scalar field modulus, the field the tests of the repository use ([ecc.BN254.ScalarField()]). *)
Definition bn254 : Z :=
  21888242871839275222246405745257275088548364400416034343698204186575808495617.
