(** * Props_Fe.v — C70 to C72: circuits/gadgets/ed25519/test/field *)
From Coq Require Import ZArith List Lia Bool Arith.
From Verif Require Import Field FieldLemmas FieldZ EdBytes FeModel FeProofs FeField.
From Verif Require EdSpec.
Import ListNotations.
Open Scope Z_scope.

(** ** Specification: p = 2^255-19, the field F_p, and what each operation is to compute *)
Definition p25519 : Z := 2 ^ 255 - 19.
Definition Fp := Fq p25519.
Definition el (z : Z) : Fp := ofZ p25519 z.
(** the field element of an Element: its limbs in base 2^51 *)
Definition denotes (v : fe) : Fp := el (l0 v + l1 v * 2 ^ 51 + l2 v * 2 ^ 102 + l3 v * 2 ^ 153 + l4 v * 2 ^ 204).
(** "negative": the canonical integer is odd *)
Definition nonneg (x : Fp) : Prop := Z.even (fval x) = true.
(** a square root of -1 *)
Definition i25519 : Fp := el 19681161376707505956807079304988542015446066515923890162744021073123829784752.
Theorem C70_i_square : qmul i25519 i25519 = el (-1). Proof. apply Fq_ext. vm_compute. reflexivity. Qed.
(** every way to make an Element with the package's functions *)
Inductive fexp :=
| EZero | EOne | EBytes (x : list Z) | EAdd (a b : fexp) | ESub (a b : fexp) | ENeg (a : fexp) | EMul (a b : fexp) | ESq (a : fexp) | EMul32 (a : fexp) (y : Z)
| EInv (a : fexp) | EPow (a : fexp) | ESel (a b : fexp) (c : bool) | ESwap (a b : fexp) (c second : bool) | EAbs (a : fexp) | ESqrt (a b : fexp).
(** what the code computes *)
Definition ob {A B} (x : option A) (f : A -> option B) : option B := match x with Some a => f a | None => None end.
Fixpoint run (e : fexp) : option fe :=
  match e with
  | EZero => Some fe_zero | EOne => Some fe_one | EBytes x => fe_set_bytes x
  | EAdd a b => ob (run a) (fun x => ob (run b) (fun y => Some (fe_add x y)))
  | ESub a b => ob (run a) (fun x => ob (run b) (fun y => Some (fe_sub x y)))
  | ENeg a => ob (run a) (fun x => Some (fe_neg x))
  | EMul a b => ob (run a) (fun x => ob (run b) (fun y => Some (feMul x y)))
  | ESq a => ob (run a) (fun x => Some (feSquare x))
  | EMul32 a y => ob (run a) (fun x => Some (fe_mult32 x y))
  | EInv a => ob (run a) (fun x => Some (fe_invert x))
  | EPow a => ob (run a) (fun x => Some (fe_pow22523 x))
  | ESel a b c => ob (run a) (fun x => ob (run b) (fun y => Some (fe_select x y (if c then 1 else 0))))
  | ESwap a b c second => ob (run a) (fun x => ob (run b) (fun y => let s := fe_swap x y (if c then 1 else 0) in Some (if second then snd s else fst s)))
  | EAbs a => ob (run a) (fun x => Some (fe_absolute x))
  | ESqrt a b => ob (run a) (fun x => ob (run b) (fun y => Some (fst (fe_sqrt_ratio x y))))
  end.
(** what it is to mean, in the field *)
Fixpoint means (e : fexp) (x : Fp) : Prop :=
  match e with
  | EZero => x = el 0 | EOne => x = el 1 | EBytes l => x = el (le_val l mod 2 ^ 255)
  | EAdd a b => exists y z, means a y /\ means b z /\ x = qadd y z
  | ESub a b => exists y z, means a y /\ means b z /\ x = qsub y z
  | ENeg a => exists y, means a y /\ x = qopp y
  | EMul a b => exists y z, means a y /\ means b z /\ x = qmul y z
  | ESq a => exists y, means a y /\ x = qmul y y
  | EMul32 a n => exists y, means a y /\ x = qmul y (el n)
  | EInv a => exists y, means a y /\ (y = el 0 -> x = el 0) /\ (y <> el 0 -> qmul x y = el 1)
  | EPow a => exists y, means a y /\ x = el (fval y ^ (2 ^ 252 - 3))
  | ESel a b c => exists y z, means a y /\ means b z /\ x = if c then y else z
  | ESwap a b c second => exists y z, means a y /\ means b z /\ x = if xorb c second then z else y
  | EAbs a => exists y, means a y /\ nonneg x /\ (x = y \/ x = qopp y)
  | ESqrt a b => exists u v, means a u /\ means b v /\ nonneg x /\
      ((v <> el 0 /\ qmul v (qmul x x) = u) \/ (v <> el 0 /\ (forall y, qmul v (qmul y y) <> u) /\ qmul v (qmul x x) = qmul i25519 u) \/ (v = el 0 /\ x = el 0))
  end.
(** the arguments Go's types and the comments allow *)
Fixpoint wf (e : fexp) : Prop :=
  match e with
  | EZero | EOne => True
  | EBytes x => is_bytes x /\ length x = 32%nat
  | EMul32 a y => wf a /\ 0 <= y < 2 ^ 32
  | EAdd a b | ESub a b | EMul a b | ESel a b _ | ESwap a b _ _ | ESqrt a b => wf a /\ wf b
  | ENeg a | ESq a | EInv a | EPow a | EAbs a => wf a
  end.

Lemma denotes_FK v : denotes v = FK v. Proof. reflexivity. Qed.
Lemma invert_spec x : doc_ok x -> (FK x = el 0 -> FK (fe_invert x) = el 0) /\ (FK x <> el 0 -> qmul (FK (fe_invert x)) (FK x) = el 1).
Proof.
  intros H. split; intros E.
  - rewrite FK_invert by auto. rewrite E. apply kpow_0. reflexivity.
  - rewrite FK_invert_inv by auto. apply (qinv_l EdSpec.q); [exact EdSpec.q_prime|exact E].
Qed.
Lemma sqrt_spec u v : fe_ok u -> fe_ok v -> let x := FK (fst (fe_sqrt_ratio u v)) in nonneg x /\
  ((FK v <> el 0 /\ qmul (FK v) (qmul x x) = FK u) \/ (FK v <> el 0 /\ (forall y, qmul (FK v) (qmul y y) <> FK u) /\ qmul (FK v) (qmul x x) = qmul i25519 (FK u)) \/ (FK v = el 0 /\ x = el 0)).
Proof.
  intros Hu Hv x. destruct (sqrt_ratio_ok u v Hu Hv) as (_ & N & W & Ws & W1 & W0 & V0). fold x in N, W1, W0, V0. split; [exact N|]. destruct (Fq_dec EdSpec.q (FK v) (ofZ EdSpec.q 0)) as [E|E]; [right; right; split; [exact E|exact (V0 E)]|].
  destruct W as [W|W]; [right; left|left; split; [exact E|exact (W1 W)]]. split; [exact E|]. split; [|exact (W0 W E)]. intros y Hy. assert (snd (fe_sqrt_ratio u v) = 1) as C by (apply Ws; exists y; exact Hy). rewrite W in C. discriminate C.
Qed.
(** ** C70: every program over the package: the limbs stay below 2^51 + 2^38, nothing overflows, and the result is right *)
Theorem C70_programs : forall e, wf e -> exists v, run e = Some v /\ fe_ok v /\ means e (denotes v).
Proof.
  assert (A2 : forall (a b : fexp) (f : fe -> fe -> fe) (P : Fp -> Fp -> Fp -> Prop), (exists v, run a = Some v /\ fe_ok v /\ means a (FK v)) -> (exists v, run b = Some v /\ fe_ok v /\ means b (FK v)) ->
    (forall x y, fe_ok x -> fe_ok y -> fe_ok (f x y) /\ P (FK x) (FK y) (FK (f x y))) ->
    exists v, ob (run a) (fun x => ob (run b) (fun y => Some (f x y))) = Some v /\ fe_ok v /\ exists y z, means a y /\ means b z /\ P y z (FK v)).
  { intros a b f P (x & Ex & Ox & Mx) (y & Ey & Oy & My) H. exists (f x y). rewrite Ex. cbn [ob]. rewrite Ey. cbn [ob]. destruct (H x y Ox Oy) as (H1 & H2). split; [reflexivity|]. split; [exact H1|]. exists (FK x), (FK y). auto. }
  assert (A1 : forall (a : fexp) (f : fe -> fe) (P : Fp -> Fp -> Prop), (exists v, run a = Some v /\ fe_ok v /\ means a (FK v)) ->
    (forall x, fe_ok x -> fe_ok (f x) /\ P (FK x) (FK (f x))) -> exists v, ob (run a) (fun x => Some (f x)) = Some v /\ fe_ok v /\ exists y, means a y /\ P y (FK v)).
  { intros a f P (x & Ex & Ox & Mx) H. exists (f x). rewrite Ex. cbn [ob]. destruct (H x Ox) as (H1 & H2). split; [reflexivity|]. split; [exact H1|]. exists (FK x). auto. }
  assert (D := ok_doc). assert (U := ok_u64).
  induction e as [| |x|a IHa b IHb|a IHa b IHb|a IHa|a IHa b IHb|a IHa|a IHa y|a IHa|a IHa|a IHa b IHb c|a IHa b IHb c s|a IHa|a IHa b IHb]; cbn [wf run means]; intros W.
  - exists fe_zero. split; [reflexivity|]. split; [apply zero_ok|reflexivity].
  - exists fe_one. split; [reflexivity|]. split; [apply one_ok|reflexivity].
  - destruct (fe_set_bytes_ok x (proj1 W) (proj2 W)) as (v & E & L & Ev). exists v. split; [exact E|]. split; [unfold fe_ok; unfold limbs_below in *; consts; lia|]. unfold denotes. fold (value v). rewrite Ev. reflexivity.
  - apply (A2 a b fe_add (fun y z r => r = qadd y z)); [apply IHa, W|apply IHb, W|]. intros x y Hx Hy. split; [apply fe_add_ok; auto|apply FK_add; auto].
  - apply (A2 a b fe_sub (fun y z r => r = qsub y z)); [apply IHa, W|apply IHb, W|]. intros x y Hx Hy. split; [apply fe_sub_ok; auto|apply FK_sub; auto].
  - apply (A1 a fe_neg (fun y r => r = qopp y)); [apply IHa, W|]. intros x Hx. split; [apply fe_neg_ok; auto|apply FK_neg; auto].
  - apply (A2 a b feMul (fun y z r => r = qmul y z)); [apply IHa, W|apply IHb, W|]. intros x y Hx Hy. split; [apply feMul_ok; auto|apply FK_mul; auto].
  - apply (A1 a feSquare (fun y r => r = qmul y y)); [apply IHa, W|]. intros x Hx. split; [apply feSquare_ok; auto|apply FK_sq; auto].
  - apply (A1 a (fun x => fe_mult32 x y) (fun u r => r = qmul u (el y))); [apply IHa, W|]. intros x Hx. split; [apply fe_mult32_ok; [auto|apply W]|apply FK_mult32; [auto|apply W]].
  - apply (A1 a fe_invert (fun y r => (y = el 0 -> r = el 0) /\ (y <> el 0 -> qmul r y = el 1))); [apply IHa, W|]. intros x Hx. split; [apply fe_invert_ok; auto|apply invert_spec; auto].
  - apply (A1 a fe_pow22523 (fun y r => r = el (fval y ^ (2 ^ 252 - 3)))); [apply IHa, W|]. intros x Hx. split; [apply fe_pow22523_ok; auto|]. rewrite FK_pow22523 by auto. reflexivity.
  - apply (A2 a b (fun x y => fe_select x y (if c then 1 else 0)) (fun y z r => r = if c then y else z)); [apply IHa, W|apply IHb, W|]. intros x y Hx Hy. destruct c; [rewrite fe_select_1 by auto|rewrite fe_select_0 by auto]; auto.
  - apply (A2 a b (fun x y => if s then snd (fe_swap x y (if c then 1 else 0)) else fst (fe_swap x y (if c then 1 else 0))) (fun y z r => r = if xorb c s then z else y)); [apply IHa, W|apply IHb, W|].
    intros x y Hx Hy. destruct c; [rewrite fe_swap_1 by auto|rewrite fe_swap_0]; destruct s; cbn [fst snd xorb]; auto.
  - apply (A1 a fe_absolute (fun y r => nonneg r /\ (r = y \/ r = qopp y))); [apply IHa, W|]. intros x Hx. destruct (fe_absolute_ok x Hx) as (Oa & Ea & Na). split; [exact Oa|]. split; [exact Na|exact Ea].
  - apply (A2 a b (fun x y => fst (fe_sqrt_ratio x y)) (fun u v x => nonneg x /\ ((v <> el 0 /\ qmul v (qmul x x) = u) \/ (v <> el 0 /\ (forall y, qmul v (qmul y y) <> u) /\ qmul v (qmul x x) = qmul i25519 u) \/ (v = el 0 /\ x = el 0)))); [apply IHa, W|apply IHb, W|].
    intros x y Hx Hy. split; [exact (proj1 (sqrt_ratio_ok x y Hx Hy))|]. apply sqrt_spec; auto.
Qed.
(** The documented bound "limbs lower than 2^52" is enough for Add, Multiply, Square, Invert and the first operand of Subtract... *)
Theorem C70_documented_bound : forall a b, doc_ok a -> doc_ok b ->
  denotes (fe_add a b) = qadd (denotes a) (denotes b) /\ denotes (feMul a b) = qmul (denotes a) (denotes b) /\ denotes (feSquare a) = qmul (denotes a) (denotes a) /\
  fe_ok (fe_add a b) /\ fe_ok (feMul a b) /\ fe_ok (feSquare a) /\ fe_ok (fe_invert a).
Proof.
  intros a b Ha Hb. split; [apply FK_add; auto|]. split; [apply FK_mul; auto|]. split; [apply FK_sq; auto|]. split; [apply fe_add_ok; auto|]. split; [apply feMul_ok; auto|]. split; [apply feSquare_ok; auto|apply fe_invert_ok; auto].
Qed.
(** ... but not for its second operand: the limbs of 2p are 2^52-38 and 2^52-2, and a larger limb wraps around. *)
Theorem C70_subtract_bound_refuted : exists b, doc_ok b /\ denotes (fe_sub fe_zero b) <> qsub (denotes fe_zero) (denotes b) /\ denotes (fe_neg b) <> qopp (denotes b).
Proof.
  exists (Fe (2 ^ 52 - 1) 0 0 0 0). split; [unfold doc_ok, limbs_below; cbn [l0 l1 l2 l3 l4]; lia|]. split; intros E; apply (f_equal fval) in E; vm_compute in E; discriminate E.
Qed.
(** No program of the package can make such an Element (C70_programs keeps every limb below 2^51 + 2^38). *)
Theorem C70_reachable_bound : forall e v, wf e -> run e = Some v -> l0 v < 2 ^ 52 - 38 /\ l1 v < 2 ^ 52 - 38 /\ l2 v < 2 ^ 52 - 38 /\ l3 v < 2 ^ 52 - 38 /\ l4 v < 2 ^ 52 - 38.
Proof. intros e v W E. destruct (C70_programs e W) as (v' & E' & (A & B & C & D & F) & _). rewrite E in E'. injection E' as <-. consts. lia. Qed.
Lemma mul_swap3 (a t z : Fq q5) : qmul (qmul a t) z = qmul a (qmul z t). Proof. ring. Qed.
Lemma mul_1r3 (a : Fq q5) : qmul a (ofZ q5 1) = a. Proof. ring. Qed.
Example C70_case : let e := EMul (ESub EZero EOne) (EInv (EAdd EOne EOne)) in wf e /\ exists v, run e = Some v /\ denotes v = el ((p25519 - 1) / 2).
Proof.
  cbv zeta. assert (W : wf (EMul (ESub EZero EOne) (EInv (EAdd EOne EOne)))) by (cbn [wf]; tauto). split; [exact W|]. destruct (C70_programs _ W) as (v & E & _ & M). exists v. split; [exact E|].
  cbn [means] in M. destruct M as (y & z & (y1 & y2 & -> & -> & Ey) & (t & (t1 & t2 & -> & -> & Et) & _ & Nz) & Ev).
  assert (T2 : t = el 2) by (rewrite Et; apply Fq_ext; reflexivity). assert (N2 : t <> el 0) by (rewrite T2; intros C; apply (f_equal fval) in C; discriminate C). specialize (Nz N2). rewrite T2 in Nz.
  assert (Y : y = qmul (el ((p25519 - 1) / 2)) (el 2)) by (rewrite Ey; apply Fq_ext; vm_compute; reflexivity).
  rewrite Ev, Y. change (qmul (qmul (el ((p25519 - 1) / 2)) (el 2)) z = el ((p25519 - 1) / 2)). unfold el in *. change p25519 with q5 in *. 
  rewrite mul_swap3. rewrite Nz. apply mul_1r3.
Qed.

(** ** C71: encodings *)
(** Bytes is the little-endian encoding of the canonical integer, whatever the limbs *)
Theorem C71_bytes : forall v, u64fe v -> fe_bytes v = le_bytes 32 (fval (denotes v)).
Proof. intros v H. rewrite fe_bytes_ok by exact H. reflexivity. Qed.
Lemma range32 x : 0 <= x mod EdSpec.q < 256 ^ Z.of_nat 32.
Proof. pose proof (Z.mod_pos_bound x EdSpec.q ltac:(reflexivity)). assert (EdSpec.q < 256 ^ Z.of_nat 32) by reflexivity. lia. Qed.
(** so two Elements have the same encoding iff they denote the same field element, which is what Equal tests *)
Theorem C71_bytes_equal : forall v w, u64fe v -> u64fe w -> (fe_bytes v = fe_bytes w <-> denotes v = denotes w) /\ (fe_equal v w = 1 <-> denotes v = denotes w) /\ (fe_equal v w = 0 \/ fe_equal v w = 1).
Proof.
  intros v w Hv Hw. rewrite fe_equal_ok by auto. rewrite !C71_bytes by auto. change (denotes v) with (FK v). change (denotes w) with (FK w). split.
  - split; [|congruence]. intros E. apply (f_equal le_val) in E. rewrite !le_val_bytes in E by (apply range32). apply Fq_ext. exact E.
  - destruct (Fq_dec EdSpec.q (FK v) (FK w)) as [E|E]; split; auto; split; auto; try discriminate. intros F. destruct (E F).
Qed.
(** SetBytes reads the low 255 bits; other lengths are refused *)
Theorem C71_set_bytes : forall x, is_bytes x -> (length x = 32%nat -> exists v, fe_set_bytes x = Some v /\ denotes v = el (le_val x mod 2 ^ 255) /\ limbs_below (2 ^ 51) v) /\ (length x <> 32%nat -> fe_set_bytes x = None).
Proof.
  intros x F. split; intros L.
  - destruct (fe_set_bytes_ok x F L) as (v & E & B & V). exists v. split; [exact E|]. split; [|exact B]. unfold denotes. fold (value v). rewrite V. reflexivity.
  - unfold fe_set_bytes. destruct (Nat.eqb_spec (length x) 32); [contradiction|reflexivity].
Qed.
Theorem C71_round_trip : forall v, u64fe v -> exists w, fe_set_bytes (fe_bytes v) = Some w /\ denotes w = denotes v.
Proof.
  intros v H. rewrite C71_bytes by auto. destruct (fe_set_bytes_ok (le_bytes 32 (fval (denotes v)))) as (w & E & B & V); [apply le_bytes_byte|unfold le_bytes; rewrite map_length, seq_length; reflexivity|].
  exists w. split; [exact E|]. unfold denotes at 1. fold (value w). rewrite V, le_val_bytes by apply range32. unfold denotes. rewrite fval_ofZ. fold (value v). apply ofZ_eq.
  pose proof (Z.mod_pos_bound (value v) EdSpec.q ltac:(reflexivity)) as R. rewrite (Z.mod_small (value v mod p25519) (2 ^ 255)) by (change p25519 with EdSpec.q; assert (EdSpec.q < 2 ^ 255) by reflexivity; lia). apply Z.mod_mod. discriminate.
Qed.
Lemma le_val_inj : forall l m, is_bytes l -> is_bytes m -> length l = length m -> le_val l = le_val m -> l = m.
Proof.
  induction l as [|a l IH]; intros [|b m] Fl Fm L E; try (cbn in L; lia); [reflexivity|]. inversion Fl as [|? ? Ha Fl']; inversion Fm as [|? ? Hb Fm']; subst. cbn [le_val] in E. cbn [length] in L.
  assert (a = b) by lia. subst b. f_equal. apply IH; auto; lia.
Qed.
(** the other way round exactly for canonical encodings: numbers below p (so the top bit is 0) *)
Theorem C71_canonical : forall x v, is_bytes x -> fe_set_bytes x = Some v -> (fe_bytes v = x <-> le_val x < p25519).
Proof.
  intros x v F E. assert (L : length x = 32%nat) by (destruct (Nat.eq_dec (length x) 32) as [L|L]; [exact L|rewrite (proj2 (C71_set_bytes x F) L) in E; discriminate E]).
  destruct (fe_set_bytes_ok x F L) as (v' & E' & B & V). rewrite E in E'. injection E' as <-. rewrite fe_bytes_ok by (unfold u64fe; unfold limbs_below in *; consts; lia). rewrite V.
  pose proof (le_val_range x F) as R. rewrite L in R. set (n := le_val x) in *. split; intros H.
  - apply (f_equal le_val) in H. rewrite le_val_bytes in H by apply range32. fold n in H. rewrite <- H. apply Z.mod_pos_bound. reflexivity.
  - rewrite (Z.mod_small n (2 ^ 255)) by (unfold p25519 in H; lia). rewrite Z.mod_small by (change EdSpec.q with p25519; lia). unfold n.
    apply le_val_inj; [apply le_bytes_byte|exact F|unfold le_bytes; rewrite map_length, seq_length, L; reflexivity|]. apply le_val_bytes. exact R.
Qed.
(** IsNegative is the parity of the canonical integer *)
Theorem C71_is_negative : forall v, u64fe v -> fe_is_negative v = fval (denotes v) mod 2.
Proof. intros v H. apply fe_is_negative_ok. exact H. Qed.
(** non-canonical encodings and the top bit are accepted: two 32-byte strings for 0 *)
Theorem C71_malleable_refuted : exists x y vx vy, is_bytes x /\ is_bytes y /\ x <> y /\ fe_set_bytes x = Some vx /\ fe_set_bytes y = Some vy /\ denotes vx = denotes vy.
Proof.
  destruct (proj1 (C71_set_bytes (le_bytes 32 0) (le_bytes_byte _ _)) eq_refl) as (vx & Ex & Dx & _). destruct (proj1 (C71_set_bytes (le_bytes 32 p25519) (le_bytes_byte _ _)) eq_refl) as (vy & Ey & Dy & _).
  exists (le_bytes 32 0), (le_bytes 32 p25519), vx, vy. split; [apply le_bytes_byte|]. split; [apply le_bytes_byte|].
  assert (R : 0 <= 0 < 256 ^ Z.of_nat 32) by (split; [lia|vm_compute; reflexivity]). assert (Rp : 0 <= p25519 < 256 ^ Z.of_nat 32) by (split; [unfold p25519; lia|vm_compute; reflexivity]).
  rewrite (le_val_bytes 32 0 R) in Dx. rewrite (le_val_bytes 32 p25519 Rp) in Dy. split; [|split; [exact Ex|split; [exact Ey|]]].
  - intros E. apply (f_equal le_val) in E. rewrite (le_val_bytes 32 0 R), (le_val_bytes 32 p25519 Rp) in E. unfold p25519 in E. lia.
  - rewrite Dx, Dy. apply Fq_ext. reflexivity.
Qed.
Example C71_case : u64fe (Fe (2 ^ 64 - 1) (2 ^ 64 - 1) 5 6 (2 ^ 64 - 1)) /\ le_val (fe_bytes (Fe (2 ^ 64 - 1) 0 0 0 0)) = 2 ^ 64 - 1.
Proof. 
  split; [unfold u64fe, limbs_below; cbn [l0 l1 l2 l3 l4]; lia|]. rewrite C71_bytes by (unfold u64fe, limbs_below; cbn [l0 l1 l2 l3 l4]; lia). rewrite le_val_bytes; [apply Z.mod_small; vm_compute; split; [discriminate|reflexivity]|].
  unfold denotes. cbn [l0 l1 l2 l3 l4]. unfold el. rewrite fval_ofZ. vm_compute. split; [discriminate|reflexivity].
Qed.

(** ** C72: inverses and square roots *)
Lemma inv_cast : forall v w, ((FK v = el 0 -> FK w = el 0) /\ (FK v <> el 0 -> qmul (FK w) (FK v) = el 1)) ->
  (denotes v = el 0 -> denotes w = el 0) /\ (denotes v <> el 0 -> qmul (denotes w) (denotes v) = el 1).
Proof. intros v w H. exact H. Qed.
Theorem C72_invert : forall v, doc_ok v -> (denotes v = el 0 -> denotes (fe_invert v) = el 0) /\ (denotes v <> el 0 -> qmul (denotes (fe_invert v)) (denotes v) = el 1).
Proof. intros v H. apply inv_cast, invert_spec, H. Qed.
(** wasSquare says whether u/v is a square; the root is the non-negative one, of u/v or else of i u/v *)
Theorem C72_sqrt_ratio : forall u v r ws, fe_ok u -> fe_ok v -> fe_sqrt_ratio u v = (r, ws) ->
  nonneg (denotes r) /\ (ws = 0 \/ ws = 1) /\
  (ws = 1 <-> exists x, qmul (denotes v) (qmul x x) = denotes u) /\
  (ws = 1 -> qmul (denotes v) (qmul (denotes r) (denotes r)) = denotes u) /\
  (ws = 0 -> denotes v <> el 0 -> qmul (denotes v) (qmul (denotes r) (denotes r)) = qmul i25519 (denotes u)) /\
  (denotes v = el 0 -> denotes r = el 0).
Proof.
  intros u v r ws Hu Hv E. destruct (sqrt_ratio_ok u v Hu Hv) as (_ & N & W & Ws & W1 & W0 & V0). rewrite E in *. cbn [fst snd] in *. split; [exact N|]. split; [exact W|]. split; [exact Ws|]. split; [exact W1|]. split; [exact W0|exact V0].
Qed.
(** the non-negative root is unique *)
Theorem C72_root_unique : forall x y : Fp, nonneg x -> nonneg y -> qmul x x = qmul y y -> x = y.
Proof.
  intros x y Nx Ny E. destruct (sq_pm x y E) as [H|H]; [exact H|]. destruct (Z.eq_dec (fval y) 0) as [Z0|Z0].
  - subst x. apply Fq_ext. unfold qopp. rewrite fval_ofZ. transitivity ((- 0) mod q5); [f_equal; f_equal; exact Z0|symmetry; exact Z0].
  - exfalso. unfold nonneg in *. rewrite H in Nx. unfold qopp in Nx. rewrite fval_ofZ in Nx. pose proof (fval_range EdSpec.q y ltac:(reflexivity)) as R. rewrite Z.mod_opp_l_nz in Nx; [|discriminate|rewrite Z.mod_small by exact R; exact Z0].
    rewrite Z.mod_small in Nx by exact R. rewrite Z.even_sub in Nx. change (Z.even (@fval q5 y) = true) in Ny. change (Bool.eqb (Z.even q5) (Z.even (@fval q5 y)) = true) in Nx. rewrite Ny in Nx. vm_compute in Nx. discriminate Nx.
Qed.
Example C72_case : exists r, fe_sqrt_ratio (Fe 4 0 0 0 0) fe_one = (r, 1) /\ denotes r = el 2.
Proof.
  assert (O1 : fe_ok fe_one) by (unfold fe_ok, fe_one, limbs_below; cbn [l0 l1 l2 l3 l4]; consts; lia). assert (O4 : fe_ok (Fe 4 0 0 0 0)) by (unfold fe_ok, limbs_below; cbn [l0 l1 l2 l3 l4]; consts; lia).
  destruct (fe_sqrt_ratio (Fe 4 0 0 0 0) fe_one) as [r ws] eqn:E. destruct (C72_sqrt_ratio _ _ _ _ O4 O1 E) as (N & W & Ws & W1 & _ & _).
  assert (ws = 1) as -> by (apply Ws; exists (el 2); apply Fq_ext; reflexivity). exists r. split; [reflexivity|]. specialize (W1 eq_refl). apply C72_root_unique; [exact N|reflexivity|].
  transitivity (denotes (Fe 4 0 0 0 0)); [rewrite <- W1|apply Fq_ext; reflexivity]. assert (denotes fe_one = ofZ q5 1) as -> by (apply Fq_ext; reflexivity). symmetry. apply (Rmul_1_l (Fq_ring q5)).
Qed.
