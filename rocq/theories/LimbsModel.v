(** * LimbsModel.v — models circuits/gadgets/limbs/limbapi.go *)
From Coq Require Import ZArith List Bool Arith.
From Verif Require Import Field.
Import ListNotations.
Open Scope Z_scope.
Open Scope circ_scope.

(** limbapi.go:12-15 Limb; sizes are Go ints, modelled by Z (no overflow) *)
Record limb := Limb { lval : Z; lsize : Z }.
(** limbapi.go:41-47 TotalSize *)
Definition total_size (ws : list limb) : Z := fold_left (fun t w => t + lsize w) ws 0.
(** limbapi.go:185-189 exp2: big.Int.Exp with a nil modulus returns 1 for a non-positive exponent *)
Definition exp2 (n : Z) : Z := if n <=? 0 then 1 else 2 ^ n.

(** limbapi.go:191-212 SplitHint(val, size, limbSize, nbLimbs): the outputs an honest prover assigns.  The last output is
    the remainder; Split allots it only when remSize > 0. *)
Fixpoint split_hint_loop (n : nat) (rem remSize lsz : Z) : list Z * (Z * Z) :=
  match n with
  | O => ([], (rem, remSize))
  | S k => let remSize' := remSize - lsz in
           let zeros := exp2 remSize' in
           let quo := rem / zeros in
           let '(r, fin) := split_hint_loop k (rem - quo * zeros) remSize' lsz in (quo :: r, fin)
  end.
Definition split_hint (v size lsz nb : Z) : list Z :=
  let '(outs, (rem, remSize)) := split_hint_loop (Z.to_nat nb) v size lsz in
  if 0 <? remSize then outs ++ [rem] else outs.

Section M.
Variable p : Z.
(** What the prover assigns to the hint outputs of a Split call, as a function of the call's inputs
    (value, size, limb size, number of limbs); [split_hint] is the honest choice. *)
Variable hint : Z -> Z -> Z -> Z -> list Z.

(** limbapi.go:62-98 Split (NewHint returns nbTotal values).  Simplification: a non-positive limb size is a panic (0 is a
    division by zero in Go; negative sizes are not modelled). *)
Definition split (l : limb) (lsz : Z) (nbOpt : option Z) : option (list limb) :=
  if lsize l =? lsz then Some [l] else
  guard (0 <? lsz) ;;
  let nb := match nbOpt with Some n => n | None => lsize l / lsz end in
  guard ((0 <? nb) && (nb <=? lsize l)) ;;
  let rem := lsize l - nb * lsz in
  let out := hint (lval l) (lsize l) lsz nb in
  guard (Nat.eqb (length out) (Z.to_nat (if 0 <? rem then nb + 1 else nb))) ;;
  let acc := fold_left (fun a i => (a + nth i out 0 * exp2 (lsize l - Z.of_nat (S i) * lsz)) mod p) (seq 0 (Z.to_nat nb)) 0 in
  let acc' := if 0 <? rem then fadd p acc (last out 0) else acc in
  assert_eq p acc' (lval l) ;;
  Some (map (fun i => Limb (nth i out 0) lsz) (seq 0 (Z.to_nat nb)) ++ (if 0 <? rem then [Limb (last out 0) rem] else [])).
(** limbapi.go:100-122 Merge *)
Definition merge (ws : list limb) : option limb :=
  match ws with
  | [] => None
  | [w] => Some w
  | _ => Some (Limb (fst (fold_left (fun '(a, z) w => let z' := z - lsize w in ((a + lval w * exp2 z') mod p, z')) ws (0, total_size ws)))
                    (total_size ws))
  end.
(** limbapi.go:125-145 Resplit *)
Fixpoint merge_groups (fuel : nat) (bits : list limb) (n : nat) : option (list limb) :=
  match bits, fuel with
  | [], _ => Some []
  | _, O => None
  | _, S f => guard (Nat.leb n (length bits)) ;;   (* slice bounds: bits[i:i+newLimbSize] *)
              let* g := merge (firstn n bits) in
              let* r := merge_groups f (skipn n bits) n in Some (g :: r)
  end.
Definition resplit (ws : list limb) (lsz : Z) : option (list limb) :=
  match ws with
  | [_] => Some ws
  | _ =>
    if total_size ws <=? Z.of_nat (field_bits p) then
      let* m := merge ws in split m lsz None
    else
      guard (0 <? lsz) ;;
      let* bits := omap (fun w => split w 1 None) ws in
      merge_groups (length (concat bits)) (concat bits) (Z.to_nat lsz)
  end.
(** limbapi.go:155-163: position of the split *)
Fixpoint find_split (ws : list limb) (rem : Z) : nat * Z :=
  match ws with
  | [] => (O, rem)
  | w :: r => if rem <? lsize w then (O, rem) else let '(i, rem') := find_split r (rem - lsize w) in (S i, rem')
  end.
(** limbapi.go:152-183 LrotMerge *)
Definition lrot_merge (ws : list limb) (amount : Z) : option limb :=
  let '(i, rem) := find_split ws amount in
  let rotated := skipn i ws ++ firstn i ws in
  if 0 <? rem then
    guard (Nat.ltb i (length ws)) ;;  (* index out of range *)
    let* parts := split (nth i ws (Limb 0 0)) rem (Some 1) in
    match parts with
    | [a; b] => merge ((b :: skipn 1 rotated) ++ [a])
    | _ => None
    end
  else merge rotated.
(** limbapi.go:147-150 Lrot *)
Definition lrot (ws : list limb) (amount lsz : Z) : option (list limb) := let* w := lrot_merge ws amount in split w lsz None.
End M.
