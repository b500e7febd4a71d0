(** * Props_Pt.v — C76 to C78: points, encodings and scalar multiplications of circuits/gadgets/ed25519/test *)
From Coq Require Import ZArith List Lia Bool Arith.
From Verif Require Import Field FieldLemmas FieldZ KeccakModel EdBytes FeModel FeProofs FeField ScModel ScProofs ScNaf PtModel PtProofs PtTables PtBytes PtMult.
From Verif Require EdSpec Props_Fe Props_Sc Props_Ed.
Import ListNotations.
Open Scope Z_scope.

(** ** Specification.  The curve, its points and their group are those of EdSpec.v; [Props_Fe.denotes] is the field element of an Element *)
Notation Pt := EdSpec.Pt.
Definition den (v : fe) : EdSpec.K := Props_Fe.denotes v.
(** X/Z, Y/Z are the affine coordinates and T/Z their product *)
Definition stands_for (p : point) (A : Pt) : Prop :=
  EdSpec.on A /\ den (z3 p) <> EdSpec.k 0 /\ den (x3 p) = qmul (fst A) (den (z3 p)) /\ den (y3 p) = qmul (snd A) (den (z3 p)) /\
  den (t3 p) = qmul (qmul (fst A) (snd A)) (den (z3 p)).
(** a byte string of 32 bytes: y in the low 255 bits, the parity of x in the top bit; for x = 0 the top bit is ignored *)
Definition decodes (x : list Z) (A : Pt) : Prop :=
  length x = 32%nat /\ EdSpec.on A /\ snd A = EdSpec.k (le_val x mod 2 ^ 255) /\ (fst A = EdSpec.k 0 \/ fval (fst A) mod 2 = le_val x / 2 ^ 255).
Definition encoding (A : Pt) : list Z := le_bytes 32 (fval (snd A) + 2 ^ 255 * (fval (fst A) mod 2)).
(** every way to make a Point with the package's functions; scalars are given by their bytes *)
Inductive pexp :=
| PIdentity | PGenerator | PBytes (x : list Z) | PAdd (a b : pexp) | PSub (a b : pexp) | PNeg (a : pexp)
| PMult (s : list Z) (a : pexp) | PBaseMult (s : list Z) | PDoubleMult (s : list Z) (a : pexp) (u : list Z).
(** a Scalar: all those the package makes are like this (C75_scalars_qualify) *)
Definition scalar (s : list Z) : Prop := Props_Sc.bytes_of 32 s /\ le_val s < 2 ^ 255.
Fixpoint wf (e : pexp) : Prop :=
  match e with
  | PIdentity | PGenerator => True
  | PBytes x => Forall (fun b => 0 <= b < 256) x
  | PAdd a b | PSub a b => wf a /\ wf b
  | PNeg a => wf a
  | PMult s a => scalar s /\ wf a
  | PBaseMult s => scalar s
  | PDoubleMult s a u => scalar s /\ scalar u /\ wf a
  end.
(** what the code computes *)
Definition ob {A B} (x : option A) (f : A -> option B) : option B := match x with Some a => f a | None => None end.
Fixpoint run (e : pexp) : option point :=
  match e with
  | PIdentity => pt_identity | PGenerator => pt_generator | PBytes x => pt_set_bytes x
  | PAdd a b => ob (run a) (fun x => ob (run b) (fun y => pt_add x y))
  | PSub a b => ob (run a) (fun x => ob (run b) (fun y => pt_sub x y))
  | PNeg a => ob (run a) pt_neg
  | PMult s a => ob (run a) (pt_mult s)
  | PBaseMult s => pt_base_mult s
  | PDoubleMult s a u => ob (run a) (fun x => pt_double_base_mult s x u)
  end.
(** what it is to mean *)
Fixpoint means (e : pexp) (A : Pt) : Prop :=
  match e with
  | PIdentity => A = EdSpec.O
  | PGenerator => A = EdSpec.B
  | PBytes x => decodes x A
  | PAdd a b => exists P Q, means a P /\ means b Q /\ A = EdSpec.plus P Q
  | PSub a b => exists P Q, means a P /\ means b Q /\ A = EdSpec.plus P (EdSpec.opp Q)
  | PNeg a => exists P, means a P /\ A = EdSpec.opp P
  | PMult s a => exists P, means a P /\ A = EdSpec.timesZ (le_val s) P
  | PBaseMult s => A = EdSpec.timesZ (le_val s) EdSpec.B
  | PDoubleMult s a u => exists P, means a P /\ A = EdSpec.plus (EdSpec.timesZ (le_val s) P) (EdSpec.timesZ (le_val u) EdSpec.B)
  end.

(** ** lemmas *)
Lemma r3_stands p A : r3 p A -> stands_for p A.
Proof. intros (_ & N & EX & EY & ET & HA). split; [exact HA|]. split; [exact N|]. split; [exact EX|]. split; [exact EY|exact ET]. Qed.
Lemma mulZ_timesZ n A : 0 <= n -> mulZ n A = EdSpec.timesZ n A. Proof. intros H. apply mulZ_nonneg, H. Qed.
Lemma scalar_facts s : scalar s -> is_bytes s /\ length s = 32%nat /\ le_val s < 2 ^ 255 /\ 0 <= le_val s.
Proof. intros [[F L] H]. split; [exact F|]. split; [exact L|]. split; [exact H|apply le_val_range; exact F]. Qed.
Lemma set_bytes_spec x : is_bytes x -> (exists v A, pt_set_bytes x = Some v /\ r3 v A /\ decodes x A) \/ (pt_set_bytes x = None /\ forall A, ~ decodes x A).
Proof.
  intros F. destruct (Nat.eq_dec (length x) 32) as [L|L].
  - destruct (set_bytes_ok x F L) as [(v & X & E & R & _ & P)|(E & N)].
    + left. exists v, (X, ofZ q5 (le_val x mod 2 ^ 255)). split; [exact E|]. split; [exact R|]. split; [exact L|]. split; [apply R|]. split; [reflexivity|exact P].
    + right. split; [exact E|]. intros [X Y] (_ & On & EY & _). cbn [snd] in EY. subst Y. exact (N X On).
  - right. split; [|intros A (L' & _); contradiction]. unfold pt_set_bytes, fe_set_bytes. rewrite (proj2 (Nat.eqb_neq _ _) L). reflexivity.
Qed.
Lemma run_ok e : wf e -> (exists p A, run e = Some p /\ r3 p A /\ means e A) \/ (run e = None /\ forall A, ~ means e A).
Proof.
  induction e as [| |x|a IHa b IHb|a IHa b IHb|a IHa|s a IHa|s|s a IHa u]; cbn [wf run means]; intros W.
  - left. destruct identity_ok as (v & E & R). eauto.
  - left. destruct generator_ok as (v & E & R). eauto.
  - apply set_bytes_spec, W.
  - destruct W as [Wa Wb]. destruct (IHa Wa) as [(p & A & Ep & Rp & Mp)|(Ep & Np)]; rewrite Ep; cbn [ob]; [|right; split; [reflexivity|intros A (P & Q & M & _); exact (Np P M)]].
    destruct (IHb Wb) as [(q & B & Eq & Rq & Mq)|(Eq & Nq)]; rewrite Eq; cbn [ob]; [|right; split; [reflexivity|intros B (P & Q & _ & M & _); exact (Nq Q M)]].
    left. destruct (pt_add_ok p q A B Rp Rq) as (v & Ev & Rv). exists v, (EdSpec.plus A B). split; [exact Ev|]. split; [exact Rv|]. exists A, B. auto.
  - destruct W as [Wa Wb]. destruct (IHa Wa) as [(p & A & Ep & Rp & Mp)|(Ep & Np)]; rewrite Ep; cbn [ob]; [|right; split; [reflexivity|intros A (P & Q & M & _); exact (Np P M)]].
    destruct (IHb Wb) as [(q & B & Eq & Rq & Mq)|(Eq & Nq)]; rewrite Eq; cbn [ob]; [|right; split; [reflexivity|intros B (P & Q & _ & M & _); exact (Nq Q M)]].
    left. destruct (pt_sub_ok p q A B Rp Rq) as (v & Ev & Rv). exists v, (EdSpec.plus A (EdSpec.opp B)). split; [exact Ev|]. split; [exact Rv|]. exists A, B. auto.
  - destruct (IHa W) as [(p & A & Ep & Rp & Mp)|(Ep & Np)]; rewrite Ep; cbn [ob]; [|right; split; [reflexivity|intros A (P & M & _); exact (Np P M)]].
    left. destruct (pt_neg_ok p A Rp) as (v & Ev & Rv). exists v, (EdSpec.opp A). split; [exact Ev|]. split; [exact Rv|]. exists A. auto.
  - destruct W as [Ws Wa]. destruct (scalar_facts s Ws) as (F & L & H & N). destruct (IHa Wa) as [(p & A & Ep & Rp & Mp)|(Ep & Np)]; rewrite Ep; cbn [ob]; [|right; split; [reflexivity|intros A (P & M & _); exact (Np P M)]].
    left. destruct (mult_ok s p A F L H Rp) as (v & Ev & Rv). rewrite mulZ_timesZ in Rv by exact N. exists v, (EdSpec.timesZ (le_val s) A). split; [exact Ev|]. split; [exact Rv|]. exists A. auto.
  - destruct (scalar_facts s W) as (F & L & H & N). left. destruct (base_mult_ok s F L H) as (v & Ev & Rv). rewrite mulZ_timesZ in Rv by exact N. eauto.
  - destruct W as (Ws & Wu & Wa). destruct (scalar_facts s Ws) as (F & L & H & N). destruct (scalar_facts u Wu) as (Fu & Lu & Hu & Nu).
    destruct (IHa Wa) as [(p & A & Ep & Rp & Mp)|(Ep & Np)]; rewrite Ep; cbn [ob]; [|right; split; [reflexivity|intros A (P & M & _); exact (Np P M)]].
    left. destruct (double_base_mult_ok s p u A F L H Fu Lu Hu Rp) as (v & Ev & Rv). rewrite !mulZ_timesZ in Rv by assumption. eexists. eexists. split; [exact Ev|]. split; [exact Rv|]. exists A. auto.
Qed.
Lemma k_parity (A B : Pt) s : EdSpec.on A -> EdSpec.on B -> snd A = snd B -> (fst A = EdSpec.k 0 \/ fval (fst A) mod 2 = s) -> (fst B = EdSpec.k 0 \/ fval (fst B) mod 2 = s) -> A = B.
Proof.
  destruct A as [x y], B as [x' y']. cbn [fst snd]. intros H1 H2 E P1 P2. subst y'. destruct (EdCurve.same_y _ _ _ _ _ _ _ _ _ EdSpec.FT (Fq_dec q5) _ _ _ EdSpec.im_square EdSpec.a_nz EdSpec.d_nonsquare _ _ _ H1 H2) as [Q|Q]; [rewrite Q; reflexivity|].
  assert (Z : forall z : EdSpec.K, z = EdSpec.k 0 -> qopp z = EdSpec.k 0) by (intros z ->; exact opp0).
  destruct P1 as [P1|P1]; [rewrite (Z x P1) in Q; congruence|]. destruct P2 as [P2|P2].
  - assert (x = EdSpec.k 0); [|congruence]. rewrite <- (opp_invol x), <- Q. apply Z, P2.
  - f_equal. apply (root_unique x x' y); congruence.
Qed.
Lemma means_unique e : wf e -> forall A B, means e A -> means e B -> A = B.
Proof.
  induction e as [| |x|a IHa b IHb|a IHa b IHb|a IHa|s a IHa|s|s a IHa u]; cbn [wf means]; intros W A B MA MB.
  - congruence.
  - congruence.
  - destruct MA as (L & O1 & Y1 & P1), MB as (_ & O2 & Y2 & P2). apply (k_parity A B (le_val x / 2 ^ 255)); try assumption. congruence.
  - destruct W as [Wa Wb], MA as (P & Q & M1 & M2 & ->), MB as (P' & Q' & M1' & M2' & ->). rewrite (IHa Wa P P' M1 M1'), (IHb Wb Q Q' M2 M2'). reflexivity.
  - destruct W as [Wa Wb], MA as (P & Q & M1 & M2 & ->), MB as (P' & Q' & M1' & M2' & ->). rewrite (IHa Wa P P' M1 M1'), (IHb Wb Q Q' M2 M2'). reflexivity.
  - destruct MA as (P & M1 & ->), MB as (P' & M1' & ->). rewrite (IHa W P P' M1 M1'). reflexivity.
  - destruct W as [_ Wa], MA as (P & M1 & ->), MB as (P' & M1' & ->). rewrite (IHa Wa P P' M1 M1'). reflexivity.
  - congruence.
  - destruct W as (_ & _ & Wa), MA as (P & M1 & ->), MB as (P' & M1' & ->). rewrite (IHa Wa P P' M1 M1'). reflexivity.
Qed.
Lemma run_some e p A : wf e -> run e = Some p -> means e A -> r3 p A.
Proof.
  intros W E M. destruct (run_ok e W) as [(p' & A' & E' & R & M')|(E' & _)]; [|congruence]. rewrite (means_unique e W A A' M M'). congruence.
Qed.
Lemma run_exists e p : wf e -> run e = Some p -> exists A, means e A /\ r3 p A.
Proof. intros W E. destruct (run_ok e W) as [(p' & A' & E' & R & M')|(E' & _)]; [|congruence]. exists A'. split; [exact M'|congruence]. Qed.

(** ** C76: programs over points *)
(** every program either yields the one curve point its expression means, or reports an error, and then it means none *)
Theorem C76_programs : forall e, wf e ->
  (exists p A, run e = Some p /\ means e A /\ (forall B, means e B -> B = A) /\ stands_for p A) \/ (run e = None /\ forall A, ~ means e A).
Proof.
  intros e W. destruct (run_ok e W) as [(p & A & E & R & M)|N]; [left|right; exact N]. exists p, A. split; [exact E|]. split; [exact M|]. split; [intros B MB; apply (means_unique e W); assumption|apply r3_stands, R].
Qed.
(** a point stands for at most one curve point *)
Theorem C76_well_defined : forall p A B, stands_for p A -> stands_for p B -> A = B.
Proof.
  intros p [x y] [x' y'] (_ & N & EX & EY & _) (_ & _ & EX' & EY' & _). cbn [fst snd] in *. rewrite EX in EX'. rewrite EY in EY'. f_equal; eapply Kcancel; eauto.
Qed.
(** Equal is equality of curve points, whatever the representatives *)
Theorem C76_equal : forall e f p q A B, wf e -> wf f -> run e = Some p -> run f = Some q -> means e A -> means f B ->
  exists b, pt_equal p q = Some b /\ (b = 1 <-> A = B) /\ (b = 0 <-> A <> B).
Proof.
  intros e f p q A B We Wf Ep Eq MA MB. destruct (pt_equal_ok p q A B (run_some e p A We Ep MA) (run_some f q B Wf Eq MB)) as (b & Eb & Hb & Ib). exists b. split; [exact Eb|]. split; [exact Ib|]. split.
  - intros -> E. apply Ib in E. discriminate.
  - intros N. destruct Hb as [Hb|Hb]; [exact Hb|]. exfalso. apply N, Ib, Hb.
Qed.
(** FromExtended gives the affine coordinates, UnpackPoint projective ones *)
Theorem C76_affine : forall e p A, wf e -> run e = Some p -> means e A ->
  den (fst (from_extended p)) = fst A /\ den (snd (from_extended p)) = snd A /\
  (let '(X, Y, Z) := unpack_point p in den Z <> EdSpec.k 0 /\ den X = qmul (fst A) (den Z) /\ den Y = qmul (snd A) (den Z)).
Proof.
  intros e p A W E M. pose proof (run_some e p A W E M) as R. destruct (from_extended_ok p A R) as [Ex Ey]. split; [exact Ex|]. split; [exact Ey|]. apply r3_stands in R. destruct R as (_ & N & EX & EY & _). cbn [unpack_point]. auto.
Qed.
(** the zero value is refused by every operation *)
Definition zero_value : point := P3 fe_zero fe_zero fe_zero fe_zero.
Theorem C76_uninitialised : forall p s u, pt_add zero_value p = None /\ pt_add p zero_value = None /\ pt_sub zero_value p = None /\ pt_sub p zero_value = None /\ pt_neg zero_value = None /\
  pt_equal zero_value p = None /\ pt_equal p zero_value = None /\ pt_bytes zero_value = None /\ pt_mult s zero_value = None /\ pt_double_base_mult s zero_value u = None.
Proof. intros p s u. unfold pt_add, pt_sub, pt_equal. destruct (initialized p); repeat split; reflexivity. Qed.
(** no operation panics on a point of the package *)
Theorem C76_no_panic : forall e p, wf e -> run e = Some p -> initialized p = true.
Proof. intros e p W E. destruct (run_exists e p W E) as (A & _ & R). exact (initialized_ok p A R). Qed.
Lemma ell_L : Props_Sc.ell = EdSpec.L. Proof. vm_compute. reflexivity. Qed.
Lemma mulZ_L : mulZ EdSpec.L EdSpec.B = EdSpec.O. Proof. rewrite mulZ_timesZ by (vm_compute; congruence). exact (proj1 Props_Ed.C38_base_order). Qed.
Lemma mulZ_qL q : mulZ (q * EdSpec.L) EdSpec.B = EdSpec.O.
Proof.
  assert (P : forall m, 0 <= m -> mulZ (m * EdSpec.L) EdSpec.B = EdSpec.O).
  { intros m H. rewrite (mulZ_mul m EdSpec.L EdSpec.B H EdSpec.B_on), mulZ_L, (mulZ_nonneg m _ H). apply EdSpec.times_O. }
  destruct (Z.le_gt_cases 0 q) as [H|H]; [apply P, H|]. replace (q * EdSpec.L) with (- (- q * EdSpec.L)) by (clear; generalize EdSpec.L; intros; ring).
  rewrite mulZ_opp by exact EdSpec.B_on. rewrite P by (clear - H; lia). apply EdSpec.opp_O.
Qed.
Lemma base_mod n : mulZ (n mod EdSpec.L) EdSpec.B = mulZ n EdSpec.B.
Proof.
  rewrite (Z.div_mod n EdSpec.L) at 2 by (vm_compute; congruence). rewrite mulZ_add by exact EdSpec.B_on. rewrite (Z.mul_comm EdSpec.L), mulZ_qL. symmetry. apply EdSpec.plus_O_l.
Qed.
Lemma base_enc n : EdSpec.timesZ (le_val (Props_Sc.encode n)) EdSpec.B = mulZ n EdSpec.B.
Proof.
  rewrite (proj2 (proj2 (Props_Sc.enc_bytes n))), ell_L. rewrite <- mulZ_timesZ by (apply Z.mod_pos_bound; vm_compute; reflexivity). apply base_mod.
Qed.
Example C76_case : exists p, run (PAdd (PNeg PGenerator) (PDoubleMult (Props_Sc.encode 5) (PSub PGenerator PIdentity) (Props_Sc.encode (-4)))) = Some p /\ stands_for p EdSpec.O.
Proof.
  set (e := PAdd _ _). assert (S : forall n, scalar (Props_Sc.encode n)).
  { intros n. split; [apply Props_Sc.bytes_enc|]. rewrite (proj2 (proj2 (Props_Sc.enc_bytes n))). pose proof (Z.mod_pos_bound n Props_Sc.ell eq_refl). eapply Z.lt_trans; [apply H|vm_compute; reflexivity]. }
  assert (W : wf e) by (unfold e; cbn [wf]; auto 10). assert (MG : means (PSub PGenerator PIdentity) EdSpec.B).
  { exists EdSpec.B, EdSpec.O. cbn [means]. rewrite EdSpec.opp_O, EdSpec.plus_O_r. auto. }
  assert (M : means e EdSpec.O).
  { exists (EdSpec.opp EdSpec.B), EdSpec.B. split; [exists EdSpec.B; split; reflexivity|]. split; [|rewrite EdSpec.plus_comm; symmetry; apply EdSpec.plus_opp, EdSpec.B_on]. exists EdSpec.B. split; [exact MG|].
    rewrite (base_enc 5), (base_enc (-4)), <- mulZ_add by exact EdSpec.B_on. symmetry. apply mulZ_1. }
  destruct (C76_programs e W) as [(p & A & E & MA & U & St)|(E & N)]; [|exfalso; exact (N _ M)]. exists p. split; [exact E|]. rewrite (U _ M). exact St.
Qed.

(** ** C77: encodings *)
Theorem C77_bytes : forall e p A, wf e -> run e = Some p -> means e A -> pt_bytes p = Some (encoding A).
Proof. intros e p A W E M. exact (bytes_ok p A (run_some e p A W E M)). Qed.
Lemma encoding_facts A : is_bytes (encoding A) /\ length (encoding A) = 32%nat /\ le_val (encoding A) = fval (snd A) + 2 ^ 255 * (fval (fst A) mod 2) /\ 0 <= fval (snd A) < 2 ^ 255 - 19 /\ (fval (fst A) mod 2 = 0 \/ fval (fst A) mod 2 = 1).
Proof.
  assert (R : 0 <= fval (snd A) < 2 ^ 255 - 19) by exact (fval_range q5 (snd A) eq_refl). pose proof (Z.mod_pos_bound (fval (fst A)) 2 ltac:(lia)) as S. split; [apply le_bytes_byte|]. split; [apply le_len|]. split; [|split; [exact R|lia]].
  apply le_val_bytes. change (256 ^ Z.of_nat 32) with (2 * 2 ^ 255). revert R S. generalize (fval (snd A)), (fval (fst A) mod 2). clear. intros a b R S. lia.
Qed.
Theorem C77_encoding_unique : forall A B, EdSpec.on A -> EdSpec.on B -> (encoding A = encoding B <-> A = B).
Proof.
  intros A B HA HB. split; [|congruence]. intros E. destruct (encoding_facts A) as (_ & _ & VA & RA & SA), (encoding_facts B) as (_ & _ & VB & RB & SB). rewrite E, VB in VA.
  assert (Es : fval (fst A) mod 2 = fval (fst B) mod 2) by lia. assert (Ey : fval (snd A) = fval (snd B)) by lia. apply (k_parity A B (fval (fst B) mod 2)); auto. apply Fq_ext, Ey.
Qed.
Theorem C77_set_bytes : forall x, Forall (fun b => 0 <= b < 256) x ->
  (forall A, decodes x A -> exists p, pt_set_bytes x = Some p /\ stands_for p A /\ den (z3 p) = EdSpec.k 1) /\ ((forall A, ~ decodes x A) -> pt_set_bytes x = None) /\
  (length x <> 32%nat -> pt_set_bytes x = None) /\ (length x = 32%nat -> (exists p, pt_set_bytes x = Some p) <-> exists X, EdSpec.on (X, EdSpec.k (le_val x mod 2 ^ 255))).
Proof.
  intros x F. destruct (set_bytes_spec x F) as [(v & A & E & R & D)|(E & N)].
  - split; [|split; [|split]].
    + intros B DB. assert (A = B) by (apply (means_unique (PBytes x) F); assumption). subst B. exists v. split; [exact E|]. split; [apply r3_stands, R|]. destruct D as (L & _). destruct (set_bytes_ok x F L) as [(v' & X & E' & _ & Z1 & _)|(E' & _)]; [|congruence]. assert (v' = v) by congruence. subst v'. exact Z1.
    + intros N. exfalso. exact (N A D).
    + intros L. destruct D as (L' & _). contradiction.
    + intros _. split; [intros _|eauto]. exists (fst A). destruct D as (_ & On & Y & _). rewrite <- Y, <- surjective_pairing. exact On.
  - split; [intros A D; exfalso; exact (N A D)|]. split; [auto|]. split; [auto|]. intros L. split; [intros (p & Ep); congruence|]. intros (X & On). exfalso.
    destruct (set_bytes_ok x F L) as [(v' & X' & E' & _)|(_ & N')]; [congruence|exact (N' X On)].
Qed.
Theorem C77_round_trip : forall e p A, wf e -> run e = Some p -> means e A -> exists x v, pt_bytes p = Some x /\ pt_set_bytes x = Some v /\ stands_for v A.
Proof.
  intros e p A W E M. exists (encoding A). destruct (encoding_facts A) as (F & L & V & R & S). assert (On : EdSpec.on A) by apply (run_some e p A W E M).
  assert (D : decodes (encoding A) A).
  { split; [exact L|]. split; [exact On|]. rewrite V. split.
    - rewrite Z.mul_comm, Z_mod_plus_full, Z.mod_small by lia. symmetry. apply ofZ_fval.
    - right. rewrite Z.mul_comm, Z_div_plus_full by lia. rewrite Z.div_small by lia. reflexivity. }
  destruct (proj1 (C77_set_bytes _ F) A D) as (v & Ev & St & _). exists v. split; [exact (C77_bytes e p A W E M)|]. auto.
Qed.
(** an accepted string is reproduced exactly if it is canonical: y below the prime, and no sign bit for x = 0 *)
Theorem C77_canonical : forall x p A, Forall (fun b => 0 <= b < 256) x -> decodes x A -> pt_set_bytes x = Some p ->
  (pt_bytes p = Some x <-> (le_val x mod 2 ^ 255 < 2 ^ 255 - 19 /\ (fst A = EdSpec.k 0 -> le_val x < 2 ^ 255))).
Proof.
  intros x p A F D E. rewrite (C77_bytes (PBytes x) p A F E D). destruct (encoding_facts A) as (Fe & Le & V & R & S). destruct D as (L & On & Y & P).
  pose proof (le_val_range x F) as Rx. rewrite L in Rx. change (256 ^ Z.of_nat 32) with (2 * 2 ^ 255) in Rx. set (n := le_val x) in *. pose proof (Z.div_mod n (2 ^ 255) ltac:(lia)) as DM. pose proof (Z.mod_pos_bound n (2 ^ 255) ltac:(lia)) as Rm.
  assert (Y' : fval (snd A) = (n mod 2 ^ 255) mod (2 ^ 255 - 19)) by (rewrite Y; reflexivity). split.
  - intros G. assert (G' : encoding A = x) by congruence. rewrite G' in V. fold n in V. split.
    + rewrite V, Z.mul_comm, Z_mod_plus_full, Z.mod_small by lia. lia.
    + intros Z0. rewrite V, Z0. change (fval (EdSpec.k 0) mod 2) with 0. lia.
  - intros (C1 & C2). apply (f_equal Some). apply Props_Fe.le_val_inj; [exact Fe|exact F|congruence|]. rewrite V, Y', (Z.mod_small (n mod 2 ^ 255)) by lia. fold n. destruct P as [P|P].
    + rewrite P. change (fval (EdSpec.k 0) mod 2) with 0. rewrite (Z.mod_small n) by (split; [lia|apply C2, P]). lia.
    + rewrite P. lia.
Qed.
(** not guaranteed: accepted strings are not unique (as the comment says) *)
Theorem C77_unique_refuted : exists x y p q A, Forall (fun b => 0 <= b < 256) x /\ Forall (fun b => 0 <= b < 256) y /\ x <> y /\ pt_set_bytes x = Some p /\ pt_set_bytes y = Some q /\ stands_for p A /\ stands_for q A.
Proof.
  set (x := 1 :: repeat 0 31). set (y := 1 :: repeat 0 30 ++ [128]). assert (Fx : is_bytes x) by (unfold x, is_bytes; cbn [repeat]; repeat (apply Forall_cons; [lia|]); apply Forall_nil).
  assert (Fy : is_bytes y) by (unfold y, is_bytes; cbn [repeat app]; repeat (apply Forall_cons; [lia|]); apply Forall_nil).
  assert (Dx : decodes x EdSpec.O) by (split; [reflexivity|]; split; [exact EdSpec.O_on|]; split; [apply Fq_ext; vm_compute; reflexivity|left; reflexivity]).
  assert (Dy : decodes y EdSpec.O) by (split; [reflexivity|]; split; [exact EdSpec.O_on|]; split; [apply Fq_ext; vm_compute; reflexivity|left; reflexivity]).
  destruct (proj1 (C77_set_bytes x Fx) _ Dx) as (p & Ep & Sp & _). destruct (proj1 (C77_set_bytes y Fy) _ Dy) as (q & Eq & Sq & _). exists x, y, p, q, EdSpec.O. repeat (split; [assumption|]). split; [unfold x, y; cbn [repeat app]; congruence|]. auto.
Qed.
Example C77_case : exists p, pt_generator = Some p /\ pt_bytes p = Some generator_bytes.
Proof.
  destruct generator_ok as (g & Eg & Rg). exists g. split; [exact Eg|]. rewrite (bytes_ok g _ Rg). apply (f_equal Some). unfold EdSpec.B. rewrite EdSpec.By_val. cbn [fst snd]. vm_compute. reflexivity.
Qed.

(** ** C78: multiplication by scalars *)
(** ScalarMult, ScalarBaseMult and VarTimeDoubleScalarBaseMult on any 32 bytes and any point made with the package: the exact integer multiple below 2^255, a panic from 2^255 *)
Theorem C78_mult : forall s e p A, Props_Sc.bytes_of 32 s -> wf e -> run e = Some p -> means e A ->
  (le_val s < 2 ^ 255 -> exists v, pt_mult s p = Some v /\ stands_for v (EdSpec.timesZ (le_val s) A)) /\ (2 ^ 255 <= le_val s -> pt_mult s p = None).
Proof.
  intros s e p A B W E M. pose proof (run_some e p A W E M) as R. split; intros H.
  - destruct (scalar_facts s (conj B H)) as (F & L & _ & N). destruct (mult_ok s p A F L H R) as (v & Ev & Rv). exists v. split; [exact Ev|]. rewrite <- mulZ_timesZ by exact N. apply r3_stands, Rv.
  - unfold pt_mult. destruct (initialized p); cbn [guard]; [|reflexivity]. cbv zeta. rewrite (proj2 (Props_Sc.C75_radix16 s B) H). reflexivity.
Qed.
Theorem C78_base_mult : forall s, Props_Sc.bytes_of 32 s ->
  (le_val s < 2 ^ 255 -> exists v, pt_base_mult s = Some v /\ stands_for v (EdSpec.timesZ (le_val s) EdSpec.B)) /\ (2 ^ 255 <= le_val s -> pt_base_mult s = None).
Proof.
  intros s B. split; intros H.
  - destruct (scalar_facts s (conj B H)) as (F & L & _ & N). destruct (base_mult_ok s F L H) as (v & Ev & Rv). exists v. split; [exact Ev|]. rewrite <- mulZ_timesZ by exact N. apply r3_stands, Rv.
  - unfold pt_base_mult. rewrite (proj2 (Props_Sc.C75_radix16 s B) H). destruct pt_generator as [g|]; cbn [obind]; [|reflexivity]. destruct (base_tables 32 g); reflexivity.
Qed.
Theorem C78_double_mult : forall s u e p A, Props_Sc.bytes_of 32 s -> Props_Sc.bytes_of 32 u -> wf e -> run e = Some p -> means e A ->
  (le_val s < 2 ^ 255 -> le_val u < 2 ^ 255 -> exists v, pt_double_base_mult s p u = Some v /\ stands_for v (EdSpec.plus (EdSpec.timesZ (le_val s) A) (EdSpec.timesZ (le_val u) EdSpec.B))) /\
  (2 ^ 255 <= le_val s \/ 2 ^ 255 <= le_val u -> pt_double_base_mult s p u = None).
Proof.
  intros s u e p A B Bu W E M. pose proof (run_some e p A W E M) as R. split; [intros H Hu|intros H].
  - destruct (scalar_facts s (conj B H)) as (F & L & _ & N), (scalar_facts u (conj Bu Hu)) as (Fu & Lu & _ & Nu). destruct (double_base_mult_ok s p u A F L H Fu Lu Hu R) as (v & Ev & Rv). exists v. split; [exact Ev|]. rewrite <- !mulZ_timesZ by assumption. apply r3_stands, Rv.
  - unfold pt_double_base_mult. destruct (initialized p); cbn [guard]; [|reflexivity]. destruct pt_generator as [g|]; cbn [obind]; [|reflexivity]. destruct (naf8_table g) as [tb|]; cbn [obind]; [|reflexivity]. destruct (naf5_table p) as [ta|]; cbn [obind]; [|reflexivity].
    destruct H as [H|H].
    + rewrite (proj2 (Props_Sc.C75_naf s 5 B)) by (clear - H; lia). reflexivity.
    + destruct (sc_naf s 5) as [da|]; cbn [obind]; [|reflexivity]. rewrite (proj2 (Props_Sc.C75_naf u 8 Bu)) by (clear - H; lia). reflexivity.
Qed.
(** the three agree, in Equal and in their bytes: ScalarBaseMult(s) with ScalarMult(s, generator) and with VarTimeDoubleScalarBaseMult(0, P, s); VarTimeDoubleScalarBaseMult(s, P, 0) with ScalarMult(s, P) *)
Definition same (p q : point) : Prop := pt_equal p q = Some 1 /\ exists x, pt_bytes p = Some x /\ pt_bytes q = Some x.
Lemma same_ok p q A : r3 p A -> r3 q A -> same p q.
Proof.
  intros Rp Rq. split.
  - destruct (pt_equal_ok p q A A Rp Rq) as (b & Eb & Hb & Ib). rewrite Eb, (proj2 Ib eq_refl). reflexivity.
  - exists (encoding A). split; [exact (bytes_ok p A Rp)|exact (bytes_ok q A Rq)].
Qed.
Lemma scalar_enc n : scalar (Props_Sc.encode n).
Proof. split; [apply Props_Sc.bytes_enc|]. rewrite (proj2 (proj2 (Props_Sc.enc_bytes n))). pose proof (Z.mod_pos_bound n Props_Sc.ell eq_refl). eapply Z.lt_trans; [apply H|vm_compute; reflexivity]. Qed.
Lemma times_enc0 A : EdSpec.timesZ (le_val (Props_Sc.encode 0)) A = EdSpec.O. Proof. rewrite (proj2 (proj2 (Props_Sc.enc_bytes 0))). reflexivity. Qed.
Theorem C78_agree : forall s e p, scalar s -> wf e -> run e = Some p ->
  exists g v1 v2 v3 v4 v5, pt_generator = Some g /\ pt_base_mult s = Some v1 /\ pt_mult s g = Some v2 /\ pt_double_base_mult (Props_Sc.encode 0) p s = Some v3 /\
    pt_mult s p = Some v4 /\ pt_double_base_mult s p (Props_Sc.encode 0) = Some v5 /\ same v1 v2 /\ same v1 v3 /\ same v4 v5.
Proof.
  intros s e p Ss W E. destruct (run_exists e p W E) as (A & M & R). assert (HA : EdSpec.on A) by apply R. destruct (scalar_facts s Ss) as (F & L & H & N). destruct (scalar_facts _ (scalar_enc 0)) as (F0 & L0 & H0 & N0).
  destruct generator_ok as (g & Eg & Rg). destruct (base_mult_ok s F L H) as (v1 & E1 & R1). destruct (mult_ok s g _ F L H Rg) as (v2 & E2 & R2). destruct (double_base_mult_ok _ p s A F0 L0 H0 F L H R) as (v3 & E3 & R3).
  destruct (mult_ok s p A F L H R) as (v4 & E4 & R4). destruct (double_base_mult_ok s p _ A F L H F0 L0 H0 R) as (v5 & E5 & R5).
  rewrite (mulZ_timesZ (le_val (Props_Sc.encode 0))), times_enc0, EdSpec.plus_O_l in R3 by exact N0. rewrite (mulZ_timesZ (le_val (Props_Sc.encode 0))), times_enc0, EdSpec.plus_O_r in R5 by exact N0.
  exists g, v1, v2, v3, v4, v5. repeat (split; [assumption|]). split; [|split]; eapply same_ok; eassumption.
Qed.
(** the base point has order l: ScalarBaseMult of two residues is the same point exactly when they are congruent, and is the identity exactly for multiples of l *)
Lemma base_inj m n : mulZ m EdSpec.B = mulZ n EdSpec.B <-> (EdSpec.L | m - n).
Proof.
  assert (Z0 : forall k, mulZ k EdSpec.B = EdSpec.O <-> (EdSpec.L | k)).
  { intros k. rewrite <- (base_mod k). pose proof (Z.mod_pos_bound k EdSpec.L eq_refl) as [P _]. rewrite (mulZ_timesZ _ _ P), (proj2 Props_Ed.C38_base_order _ P). rewrite <- !Z.mod_divide by (vm_compute; congruence). rewrite Z.mod_mod by (vm_compute; congruence). reflexivity. }
  rewrite <- Z0. unfold Z.sub. rewrite mulZ_add, mulZ_opp by exact EdSpec.B_on. split.
  - intros ->. apply EdSpec.plus_opp, mulZ_on, EdSpec.B_on.
  - intros E. assert (mulZ m EdSpec.B = EdSpec.plus (EdSpec.plus (mulZ m EdSpec.B) (EdSpec.opp (mulZ n EdSpec.B))) (mulZ n EdSpec.B)) as ->; [|rewrite E; apply EdSpec.plus_O_l].
    rewrite <- mulZ_opp, <- !mulZ_add by exact EdSpec.B_on. f_equal. clear. ring.
Qed.
Lemma base_mult_enc n : exists p, pt_base_mult (Props_Sc.encode n) = Some p /\ r3 p (mulZ n EdSpec.B).
Proof.
  destruct (scalar_facts _ (scalar_enc n)) as (F & L & H & N). destruct (base_mult_ok _ F L H) as (p & E & R). exists p. split; [exact E|]. rewrite mulZ_timesZ, base_enc in R by exact N. exact R.
Qed.
Lemma cong_L m n : (EdSpec.L | m - n) <-> m mod Props_Sc.ell = n mod Props_Sc.ell.
Proof.
  rewrite ell_L. assert (P : EdSpec.L <> 0) by (vm_compute; congruence). revert P. generalize EdSpec.L. clear. intros l P. split.
  - intros (q & H). replace m with (n + q * l) by lia. apply Z_mod_plus_full.
  - intros H. exists (m / l - n / l). rewrite (Z.div_mod m l P), (Z.div_mod n l P) at 1. rewrite H. ring.
Qed.
Theorem C78_base_order : forall m n, exists p q b, pt_base_mult (Props_Sc.encode m) = Some p /\ pt_base_mult (Props_Sc.encode n) = Some q /\ pt_equal p q = Some b /\
  (b = 1 <-> m mod Props_Sc.ell = n mod Props_Sc.ell) /\ (stands_for p EdSpec.O <-> m mod Props_Sc.ell = 0).
Proof.
  intros m n. destruct (base_mult_enc m) as (p & Ep & Rp), (base_mult_enc n) as (q & Eq & Rq). destruct (pt_equal_ok p q _ _ Rp Rq) as (b & Eb & _ & Ib). exists p, q, b. split; [exact Ep|]. split; [exact Eq|]. split; [exact Eb|]. split.
  - rewrite Ib, base_inj. apply cong_L.
  - rewrite <- (Z.mod_0_l Props_Sc.ell) by (vm_compute; congruence). rewrite <- cong_L, <- base_inj, mulZ_0. split.
    + intros S. exact (C76_well_defined p _ _ (r3_stands _ _ Rp) S).
    + intros E. rewrite <- E. apply r3_stands, Rp.
Qed.
(** it turns the ring of scalars into the group: sums to sums, products to repeated multiplications *)
Theorem C78_homomorphism : forall m n, exists p q s v w x, pt_base_mult (Props_Sc.encode m) = Some p /\ pt_base_mult (Props_Sc.encode n) = Some q /\
  pt_base_mult (Props_Sc.encode (m + n)) = Some s /\ pt_add p q = Some v /\ same s v /\ pt_base_mult (Props_Sc.encode (m * n)) = Some w /\ pt_mult (Props_Sc.encode m) q = Some x /\ same w x.
Proof.
  intros m n. destruct (base_mult_enc m) as (p & Ep & Rp), (base_mult_enc n) as (q & Eq & Rq), (base_mult_enc (m + n)) as (s & Es & Rs), (base_mult_enc (m * n)) as (w & Ew & Rw). destruct (pt_add_ok p q _ _ Rp Rq) as (v & Ev & Rv).
  destruct (scalar_facts _ (scalar_enc m)) as (F & L & H & N). destruct (mult_ok _ q _ F L H Rq) as (x & Ex & Rx).
  exists p, q, s, v, w, x. do 4 (split; [assumption|]). split; [|do 2 (split; [assumption|])].
  - rewrite <- mulZ_add in Rv by exact EdSpec.B_on. eapply same_ok; eassumption.
  - rewrite <- mulZ_mul in Rx by (try exact EdSpec.B_on; exact N). eapply same_ok; [|exact Rx]. replace (mulZ (le_val (Props_Sc.encode m) * n) EdSpec.B) with (mulZ (m * n) EdSpec.B); [exact Rw|]. apply base_inj.
    rewrite (proj2 (proj2 (Props_Sc.enc_bytes m))), cong_L. rewrite Z.mul_mod_idemp_l by (vm_compute; congruence). reflexivity.
Qed.
(** the verification equation of a signature: for public key A = ScalarBaseMult(a) and R = ScalarBaseMult(r), the bytes of VarTimeDoubleScalarBaseMult(k, -A, s) are those of R exactly when s = r + k a (mod l) *)
Theorem C78_signature : forall a r k s, exists A R N V b, pt_base_mult (Props_Sc.encode a) = Some A /\ pt_base_mult (Props_Sc.encode r) = Some R /\ pt_neg A = Some N /\
  pt_double_base_mult (Props_Sc.encode k) N (Props_Sc.encode s) = Some V /\ pt_bytes R = Some b /\ (pt_bytes V = Some b <-> s mod Props_Sc.ell = (r + k * a) mod Props_Sc.ell).
Proof.
  intros a r k s. destruct (base_mult_enc a) as (A & EA & RA), (base_mult_enc r) as (R & ER & RR). destruct (pt_neg_ok A _ RA) as (N & EN & RN).
  destruct (scalar_facts _ (scalar_enc k)) as (F & L & H & Nk), (scalar_facts _ (scalar_enc s)) as (F' & L' & H' & Ns). destruct (double_base_mult_ok _ N _ _ F L H F' L' H' RN) as (V & EV & RV).
  exists A, R, N, V, (encoding (mulZ r EdSpec.B)). do 4 (split; [assumption|]). split; [exact (bytes_ok R _ RR)|]. rewrite (bytes_ok V _ RV).
  assert (X : EdSpec.plus (mulZ (le_val (Props_Sc.encode k)) (EdSpec.opp (mulZ a EdSpec.B))) (mulZ (le_val (Props_Sc.encode s)) EdSpec.B) = mulZ (s - k * a) EdSpec.B).
  { rewrite <- mulZ_opp, <- mulZ_mul, <- mulZ_add by (try exact EdSpec.B_on; exact Nk). apply base_inj. rewrite (proj2 (proj2 (Props_Sc.enc_bytes k))), (proj2 (proj2 (Props_Sc.enc_bytes s))), cong_L.
    rewrite Z.add_mod_idemp_r, Z.add_mod, Z.mul_mod_idemp_l, <- Z.add_mod by (vm_compute; congruence). f_equal. clear. ring. }
  rewrite X. transitivity (mulZ (s - k * a) EdSpec.B = mulZ r EdSpec.B).
  - split; [intros E|intros ->; reflexivity]. apply C77_encoding_unique; [apply mulZ_on, EdSpec.B_on|apply mulZ_on, EdSpec.B_on|]. unfold encoding in *. congruence.
  - rewrite base_inj, <- cong_L. replace (s - k * a - r) with (s - (r + k * a)) by (clear; ring). reflexivity.
Qed.
Example C78_case : exists A R N V b, pt_base_mult (Props_Sc.encode 3) = Some A /\ pt_base_mult (Props_Sc.encode 5) = Some R /\ pt_neg A = Some N /\
  pt_double_base_mult (Props_Sc.encode 7) N (Props_Sc.encode 26) = Some V /\ pt_bytes R = Some b /\ pt_bytes V = Some b.
Proof.
  destruct (C78_signature 3 5 7 26) as (A & R & N & V & b & H1 & H2 & H3 & H4 & H5 & H6). exists A, R, N, V, b. repeat (split; [assumption|]). apply H6. reflexivity.
Qed.
Example C78_case_bad : exists A R N V b, pt_base_mult (Props_Sc.encode 3) = Some A /\ pt_base_mult (Props_Sc.encode 5) = Some R /\ pt_neg A = Some N /\
  pt_double_base_mult (Props_Sc.encode 7) N (Props_Sc.encode 25) = Some V /\ pt_bytes R = Some b /\ pt_bytes V <> Some b.
Proof.
  destruct (C78_signature 3 5 7 25) as (A & R & N & V & b & H1 & H2 & H3 & H4 & H5 & H6). exists A, R, N, V, b. repeat (split; [assumption|]). intros E. apply H6 in E. vm_compute in E. discriminate.
Qed.
Example C78_case_panic : pt_base_mult (repeat 255 32) = None.
Proof.
  apply (proj2 (C78_base_mult (repeat 255 32) ltac:(split; [apply Forall_forall; intros b I; apply repeat_spec in I; subst b; lia|reflexivity]))). vm_compute. discriminate.
Qed.
