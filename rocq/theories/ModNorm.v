(** * ModNorm.v — a reflective tactic that removes nested reductions mod p *)
From Coq Require Import ZArith List Lia Bool.
From Verif Require Import Field.
Open Scope Z_scope.

Inductive mexp : Set := MA (z : Z) | MAdd (a b : mexp) | MSub (a b : mexp) | MMul (a b : mexp) | MNeg (a : mexp) | MMod (a : mexp).

Fixpoint meval (p : Z) (e : mexp) : Z :=
  match e with
  | MA z => z | MAdd a b => meval p a + meval p b | MSub a b => meval p a - meval p b
  | MMul a b => meval p a * meval p b | MNeg a => - meval p a | MMod a => (meval p a) mod p
  end.
Fixpoint mstrip (e : mexp) : Z :=
  match e with
  | MA z => z | MAdd a b => mstrip a + mstrip b | MSub a b => mstrip a - mstrip b
  | MMul a b => mstrip a * mstrip b | MNeg a => - mstrip a | MMod a => mstrip a
  end.

Lemma mstrip_ok : forall p e, (meval p e) mod p = (mstrip e) mod p.
Proof.
  intros p e. destruct (Z.eq_dec p 0) as [->|Hp].
  - rewrite !Zmod_0_r. induction e; cbn; rewrite ?Zmod_0_r; congruence.
  - induction e as [z|a IHa b IHb|a IHa b IHb|a IHa b IHb|a IHa|a IHa]; cbn [meval mstrip]; auto.
    + rewrite Zplus_mod, IHa, IHb, <- Zplus_mod. reflexivity.
    + rewrite Zminus_mod, IHa, IHb, <- Zminus_mod. reflexivity.
    + rewrite Zmult_mod, IHa, IHb, <- Zmult_mod. reflexivity.
    + rewrite <- !Z.sub_0_l, Zminus_mod, IHa, <- Zminus_mod. reflexivity.
    + rewrite Z.mod_mod by auto. exact IHa.
Qed.

Ltac mreify p t :=
  lazymatch t with
  | fadd p ?a ?b => let x := mreify p a in let y := mreify p b in constr:(MMod (MAdd x y))
  | fsub p ?a ?b => let x := mreify p a in let y := mreify p b in constr:(MMod (MSub x y))
  | fmul p ?a ?b => let x := mreify p a in let y := mreify p b in constr:(MMod (MMul x y))
  | fneg p ?a => let x := mreify p a in constr:(MMod (MNeg x))
  | ?a mod p => let x := mreify p a in constr:(MMod x)
  | ?a + ?b => let x := mreify p a in let y := mreify p b in constr:(MAdd x y)
  | ?a - ?b => let x := mreify p a in let y := mreify p b in constr:(MSub x y)
  | ?a * ?b => let x := mreify p a in let y := mreify p b in constr:(MMul x y)
  | - ?a => let x := mreify p a in constr:(MNeg x)
  | _ => constr:(MA t)
  end.

(** [mnorm_term p t]: t is [fadd p _ _], [fsub p _ _], [fmul p _ _] or [_ mod p]; rewrites it to
    [poly mod p] where poly has no inner reductions. *)
Ltac mnorm_term p t :=
  let e := mreify p t in
  lazymatch e with
  | MMod ?e' =>
    let H := fresh in
    pose proof (mstrip_ok p e') as H; cbn [meval mstrip] in H;
    lazymatch type of H with _ = ?rhs => change t with (meval p e); cbn [meval]; try rewrite H; clear H end
  end.

(** normalise the left-hand side of an equation whose head is a field operation *)
Ltac mnorm_lhs p :=
  lazymatch goal with |- ?t = _ => mnorm_term p t end.

(** evaluate closed powers [a ^ n] with literal arguments, everywhere *)
Ltac is_Zlit t := lazymatch t with Z0 => idtac | Zpos ?q => is_pos_lit q | Zneg ?q => is_pos_lit q end
with is_pos_lit q := lazymatch q with xH => idtac | xO ?r => is_pos_lit r | xI ?r => is_pos_lit r end.
Ltac zpow :=
  repeat match goal with
  | |- context [Z.pow ?a ?n] => is_Zlit a; is_Zlit n; let v := eval vm_compute in (Z.pow a n) in change (Z.pow a n) with v
  | H : context [Z.pow ?a ?n] |- _ => is_Zlit a; is_Zlit n; let v := eval vm_compute in (Z.pow a n) in change (Z.pow a n) with v in H
  end.
Ltac zlia := zpow; lia.
