(** * WSpec.v — the group law of a curve y^2 = x^3 + b over a field (specification): the textbook chord-and-tangent addition with
    the point at infinity, and multiples as iterated addition *)
From Coq Require Import NArith.

Section W.
Variable K : Type.
Variables (k0 k1 : K) (kadd kmul ksub : K -> K -> K) (kopp : K -> K) (kinv : K -> K).
Variable kdec : forall x y : K, {x = y} + {x <> y}.
Variable b : K.
Infix "+" := kadd. Infix "*" := kmul. Infix "-" := ksub.

(** points: None is the point at infinity *)
Definition point : Type := option (K * K).
Definition on_curve (P : point) : Prop := match P with None => True | Some (x, y) => y * y = x * x * x + b end.
Definition pneg (P : point) : point := match P with None => None | Some (x, y) => Some (x, kopp y) end.
(** the slope of the chord, or of the tangent when the abscissae agree *)
Definition slope (x1 y1 x2 y2 : K) : K :=
  if kdec x1 x2 then ((k1 + k1 + k1) * (x1 * x1)) * kinv (y1 + y1) else (y2 - y1) * kinv (x2 - x1).
Definition padd (P Q : point) : point :=
  match P, Q with
  | None, _ => Q
  | _, None => P
  | Some (x1, y1), Some (x2, y2) =>
      if kdec x1 x2 then
        if kdec y1 (kopp y2) then None
        else let l := slope x1 y1 x2 y2 in let x3 := l * l - x1 - x2 in Some (x3, l * (x1 - x3) - y1)
      else let l := slope x1 y1 x2 y2 in let x3 := l * l - x1 - x2 in Some (x3, l * (x1 - x3) - y1)
  end.
(** n-fold sum *)
Definition pmul (n : N) (P : point) : point := N.iter n (padd P) None.
End W.
