(** * G2Spec.v — the group E'(Fp2), E' : y^2 = x^3 + 4(1+u), with the point at infinity (specification) *)
From Coq Require Import ZArith NArith.
From Verif Require Import FieldZ PrimeBls TowerModel TowerSpec PairingSpec WSpec PairingModel G2Model.

(** the inverse in Fp2: (a - bu) / (a^2 + b^2) *)
Definition inv2 (x : E2) : E2 :=
  let n := qinv (qadd (qmul (A0 x) (A0 x)) (qmul (A1 x) (A1 x))) in mkE2 (qmul (A0 x) n) (qopp (qmul (A1 x) n)).
Definition dec2 (x y : E2) : {x = y} + {x <> y}. Proof. decide equality; apply Fq_dec. Defined.
Definition gpoint : Type := option (E2 * E2).
Definition on_g2 : gpoint -> Prop := on_curve E2 add2 mul2 bTwist.
Definition gneg : gpoint -> gpoint := pneg E2 opp2.
Definition gadd : gpoint -> gpoint -> gpoint := padd E2 one2 add2 mul2 sub2 opp2 inv2 dec2.
Definition gsub (P Q : gpoint) : gpoint := gadd P (gneg Q).
Definition gmul : N -> gpoint -> gpoint := pmul E2 one2 add2 mul2 sub2 opp2 inv2 dec2.
(** an affine point of the circuit as a point *)
Definition aff (Q : G2Affine) : gpoint := Some (X2 Q, Y2 Q).
(** a Jacobian triple J represents the point P: Z = 0 for infinity, otherwise X = x Z^2, Y = y Z^3 *)
Definition jrep (J : G2Jacobian) (P : gpoint) : Prop :=
  match P with
  | None => JZ J = zero2
  | Some (x, y) => JZ J <> zero2 /\ JX J = mul2 x (mul2 (JZ J) (JZ J)) /\ JY J = mul2 y (mul2 (mul2 (JZ J) (JZ J)) (JZ J))
  end.
Open Scope Z_scope.
(** integer multiples *)
Definition gzmul (n : Z) (P : gpoint) : gpoint := if n <? 0 then gneg (gmul (Z.to_N (- n)) P) else gmul (Z.to_N n) P.
(** RFC 9380 appendix G.3: the endomorphism psi(x, y) = (c1 * x^p, c2 * y^p), c1 = 1 / (1+I)^((p-1)/3), c2 = 1 / (1+I)^((p-1)/2) *)
Definition gpsi (P : gpoint) : gpoint :=
  match P with
  | None => None
  | Some (x, y) => Some (mul2 (inv2 (pow2 xi ((pBls - 1) / 3))) (pow2 x pBls), mul2 (inv2 (pow2 xi ((pBls - 1) / 2))) (pow2 y pBls))
  end.
(** RFC 9380 appendix G.3, clear_cofactor_bls12381_g2, with c1 = x0 the (negative) parameter of the curve *)
Definition clear_cofactor_spec (P : gpoint) : gpoint :=
  let t1 := gzmul x0 P in
  let t2 := gpsi P in
  let t3 := gadd P P in
  let t3 := gpsi (gpsi t3) in
  let t3 := gsub t3 t2 in
  let t2 := gadd t1 t2 in
  let t2 := gzmul x0 t2 in
  let t3 := gadd t3 t2 in
  let t3 := gsub t3 t1 in
  gsub t3 P.
