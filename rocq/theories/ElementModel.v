(** * ElementModel.v — models circuits/gadgets/emulated/element.go (conversions between digit strings and emulated elements)

    An emulated element is the list of its limbs, least significant first, as in gnark.  gnark itself is trusted:
    Field.NewElement on a slice keeps the limbs and range-checks each of them ([new_element]). *)
From Coq Require Import ZArith List Bool Arith.
From Verif Require Import Field LimbsModel SliceModel.
Import ListNotations.
Open Scope Z_scope.
Open Scope circ_scope.

(** emulated.FieldParams: NbLimbs, BitsPerLimb, Modulus *)
Record fparams := FParams { fp_nb : nat; fp_bits : Z; fp_modulus : Z }.
(** width of the most significant limb: (Modulus.BitLen() - 1) mod BitsPerLimb + 1 *)
Definition top_bits (f : fparams) : Z := Z.log2 (fp_modulus f) mod fp_bits f + 1.
(** gnark Field.NewElement([]Variable): every limb is range-checked to BitsPerLimb bits, the last one to [top_bits] *)
Fixpoint new_element (f : fparams) (limbs : list Z) : option (list Z) :=
  match limbs with
  | [] => Some []
  | [x] => guard ((0 <=? x) && (x <? 2 ^ top_bits f)) ;; Some [x]
  | x :: r => guard ((0 <=? x) && (x <? 2 ^ fp_bits f)) ;; let* r' := new_element f r in Some (x :: r')
  end.

(** limbs/limbapi.go:19-25 NewLimbs, 27-33 Values *)
Definition new_limbs (vs : list Z) (size : Z) : list limb := map (fun v => Limb v size) vs.
Definition values (ls : list limb) : list Z := map lval ls.

Section M.
Variable p : Z.
Variable hint : Z -> Z -> Z -> Z -> list Z.
Variable f : fparams.

(** element.go:12-18 FromElement *)
Definition from_element (el : list Z) (k : Z) : option (list Z) :=
  let* ls := flip_sub (Limb 0 0) (new_limbs el (fp_bits f)) (fp_nb f) in
  let* out := resplit p hint ls k in
  Some (values out).
(** element.go:20-31 ToElement *)
Definition to_element (inp : list Z) (s : Z) : option (list Z) :=
  let* ls := resplit p hint (new_limbs inp s) (fp_bits f) in
  new_element f (values (flip (Limb 0 0) ls)).
(** element.go:33-55 ToElements *)
Definition to_elements (inp : list Z) (s : Z) : option (list (list Z)) :=
  guard (0 <? s) ;; (* division by zero; negative sizes are not modelled *)
  let inBits := Z.of_nat (length inp) * s in
  let varsPerLimb := Z.to_nat (fp_bits f / s) in
  let ls := new_limbs inp s in
  let* elLimbs := omap (fun i => let* m := merge p (firstn varsPerLimb (skipn (i * varsPerLimb) ls)) in Some (lval m))
                       (seq 0 (Z.to_nat (inBits / fp_bits f))) in
  let* elLimbs := flip_sub 0 elLimbs (fp_nb f) in
  omap (new_element f) (chunks (length elLimbs / fp_nb f) (fp_nb f) elLimbs).
End M.
