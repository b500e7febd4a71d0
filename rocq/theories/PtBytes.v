(** * PtBytes.v — encodings of points *)
From Coq Require Import ZArith Znumtheory List Lia Bool Arith.
From Verif Require Import Field FieldLemmas PrimeTheory FieldZ KeccakModel SliceModel EdBytes EdCurve FeModel FeProofs FeField ScModel ScProofs ScNaf Props_Fe PtModel PtProofs.
From Verif Require EdSpec.
Import ListNotations.
Open Scope Z_scope.
Add Ring Kr4 : (Fq_ring q5).

Lemma sign_bit s : is_bytes s -> length s = 32%nat -> Z.shiftr (nth 31 s 0) 7 = le_val s / 2 ^ 255 /\ (le_val s / 2 ^ 255 = 0 \/ le_val s / 2 ^ 255 = 1).
Proof.
  intros F L. rewrite top_byte by auto. rewrite Z.shiftr_div_pow2, Z.div_div by lia. change (2 ^ 248 * 2 ^ 7) with (2 ^ 255). split; [reflexivity|]. pose proof (le_val_range s F) as R. rewrite L in R. change (256 ^ Z.of_nat 32) with (2 * 2 ^ 255) in R.
  pose proof (Z.div_pos (le_val s) (2 ^ 255)). pose proof (Z.div_lt_upper_bound (le_val s) (2 ^ 255) 2). lia.
Qed.
Lemma on_root (X y : Fq q5) : EdSpec.on (X, y) <-> qmul (qadd (qmul (qmul y y) EdSpec.d) (ofZ q5 1)) (qmul X X) = qsub (qmul y y) (ofZ q5 1).
Proof.
  split; intros H.
  - apply on_eq in H. transitivity (qsub (qadd (ofZ q5 1) (qmul (qmul EdSpec.d (qmul X X)) (qmul y y))) (qsub (ofZ q5 1) (qmul X X))); [ring|]. rewrite <- H. ring.
  - apply eq_on. transitivity (qsub (qadd (qsub (qmul y y) (ofZ q5 1)) (ofZ q5 1)) (qmul X X)); [ring|]. rewrite <- H. ring.
Qed.
(** the encoding of a sign: the even or odd representative *)
Lemma opp_parity (x : Fq q5) : Z.even (fval x) = true -> x = ofZ q5 0 \/ fval (qopp x) mod 2 = 1.
Proof.
  intros H. destruct (Z.eq_dec (fval x) 0) as [E|E]; [left; apply Fq_ext; exact E|right]. unfold qopp. rewrite fval_ofZ. pose proof (fval_range q5 x ltac:(reflexivity)) as R. rewrite Z.mod_opp_l_nz; [|discriminate|rewrite Z.mod_small by exact R; assumption]. rewrite (Z.mod_small (fval x)) by exact R. rewrite Zmod_odd, Z.odd_sub. rewrite <- (Z.negb_even (fval x)), H. reflexivity.
Qed.
Lemma m1 (x : Fq q5) : x = qmul x (ofZ q5 1). Proof. ring. Qed.
Lemma opp0 : qopp (ofZ q5 0) = ofZ q5 0. Proof. ring. Qed.
Lemma on_opp (X y : Fq q5) : EdSpec.on (X, y) -> EdSpec.on (qopp X, y). Proof. exact (EdSpec.opp_on (X, y)). Qed.
Lemma le_len n x : length (le_bytes n x) = n. Proof. unfold le_bytes. rewrite map_length, seq_length. reflexivity. Qed.
Lemma opp_invol (x : Fq q5) : qopp (qopp x) = x. Proof. ring. Qed.
Lemma even_mod2 z : Z.even z = true <-> z mod 2 = 0. Proof. rewrite Zmod_even. destruct (Z.even z); split; intros; congruence. Qed.
Theorem set_bytes_ok x : is_bytes x -> length x = 32%nat -> let y := ofZ q5 (le_val x mod 2 ^ 255) in
  (exists v X, pt_set_bytes x = Some v /\ r3 v (X, y) /\ FK (z3 v) = ofZ q5 1 /\ (X = ofZ q5 0 \/ fval X mod 2 = le_val x / 2 ^ 255)) \/
  (pt_set_bytes x = None /\ forall X, ~ EdSpec.on (X, y)).
Proof.
  intros F L y. unfold pt_set_bytes. destruct (fe_set_bytes_ok x F L) as (v & E & B & V). rewrite E. cbn [obind].
  assert (Ov : fe_ok v) by (unfold fe_ok, limbs_below in *; lia). assert (Ey : FK v = y) by (unfold FK, y; rewrite V; reflexivity). destruct d_ok as [Dd Ed].
  set (u := fe_sub (feSquare v) fe_one). set (w := fe_add (feMul (feSquare v) fe_d) fe_one). cbv zeta. assert (Ou : fe_ok u) by (unfold u; okk). assert (Ow : fe_ok w) by (unfold w; okk).
  assert (Eu : FK u = qsub (qmul y y) (ofZ q5 1)) by (unfold u; hh; rewrite Ey, h1; reflexivity).
  assert (Ew : FK w = qadd (qmul (qmul y y) EdSpec.d) (ofZ q5 1)) by (unfold w; hh; rewrite Ey, h1, Ed; reflexivity).
  pose proof (sqrt_ratio_ok u w Ou Ow) as S. cbv zeta in S. destruct (fe_sqrt_ratio u w) as [r ws]. cbn [fst snd] in S. destruct S as (Or & Pr & W & Wi & W1 & _ & _). rewrite Eu, Ew in Wi, W1.
  destruct W as [W|W]; subst ws; cbn [Z.eqb].
  - right. split; [reflexivity|]. intros X HX. apply on_root in HX. assert (0 = 1) by (apply Wi; exists X; exact HX). discriminate.
  - left. specialize (W1 eq_refl). apply on_root in W1. destruct (sign_bit x F L) as [Es Sb]. rewrite Es. assert (On : fe_ok (fe_neg r)) by okk.
    destruct Sb as [Sb|Sb]; rewrite Sb.
    + rewrite fe_select_0 by (apply ok_u64; exact Or). eexists. exists (FK r). split; [reflexivity|]. split; [|split; [reflexivity|right; apply even_mod2; exact Pr]].
      unfold r3. cbn [x3 y3 z3 t3 fst snd]. split; [ok4|]. rewrite hm by okk. rewrite Ey, h1. split; [exact K10|]. split; [exact (m1 _)|]. split; [exact (m1 _)|]. split; [exact (m1 _)|exact W1].
    + rewrite fe_select_1 by (apply ok_u64; exact On). eexists. exists (qopp (FK r)). split; [reflexivity|]. split.
      * unfold r3. cbn [x3 y3 z3 t3 fst snd]. split; [ok4|]. rewrite hm by okk. rewrite hn by exact Or. rewrite Ey, h1. split; [exact K10|]. split; [exact (m1 _)|]. split; [exact (m1 _)|]. split; [exact (m1 _)|]. apply on_opp. exact W1.
      * split; [reflexivity|]. destruct (opp_parity (FK r) Pr) as [Z0|Z0]; [left; rewrite Z0; exact opp0|right; exact Z0].
Qed.
Theorem bytes_ok p A : r3 p A -> pt_bytes p = Some (le_bytes 32 (fval (snd A) + 2 ^ 255 * (fval (fst A) mod 2))).
Proof.
  intros H. unfold pt_bytes. rewrite (initialized_ok p A H). cbn [guard obind]. cbv zeta. destruct (from_extended_ok p A H) as [Ex Ey]. unfold from_extended in Ex, Ey. cbn [fst snd] in Ex, Ey.
  destruct H as ((O1 & O2 & O3 & O4) & _). set (x := feMul (x3 p) (fe_invert (z3 p))) in *. set (y := feMul (y3 p) (fe_invert (z3 p))) in *. assert (Ox : fe_ok x) by (unfold x; okk). assert (Oy : fe_ok y) by (unfold y; okk).
  rewrite fe_is_negative_ok, fe_bytes_ok by (apply ok_u64; assumption). rewrite <- !fval_FK, Ex, Ey. clear Ex Ey. apply (f_equal Some).
  set (Y := fval (snd A)). assert (RY : 0 <= Y < q5) by (apply fval_range; reflexivity). set (sg := fval (fst A) mod 2). assert (Rs : sg = 0 \/ sg = 1) by (pose proof (Z.mod_pos_bound (fval (fst A)) 2); unfold sg; lia).
  set (out := le_bytes 32 Y). assert (Lo : length out = 32%nat) by (apply le_len). assert (Bo : is_bytes out) by apply le_bytes_byte.
  assert (Vo : le_val out = Y) by (apply le_val_bytes; change (256 ^ Z.of_nat 32) with (2 ^ 256); change q5 with (2 ^ 255 - 19) in RY; lia).
  assert (N31 : 0 <= nth 31 out 0 < 128).
  { rewrite top_byte by assumption. rewrite Vo. change q5 with (2 ^ 255 - 19) in RY. split; [apply Z.div_pos; lia|apply Z.div_lt_upper_bound; [lia|]]. change (2 ^ 248 * 128) with (2 ^ 255). lia. }
  assert (El : Z.lor (nth 31 out 0) (byte (Z.shiftl sg 7)) = nth 31 out 0 + 128 * sg).
  { destruct Rs as [-> | ->]; [change (byte (Z.shiftl 0 7)) with 0; rewrite Z.lor_0_r; lia|]. change (byte (Z.shiftl 1 7)) with (1 * 2 ^ 7). rewrite Z.lor_comm, lor_disjoint by lia. lia. }
  rewrite El. apply le_val_inj; [apply upd_bytes; [exact Bo|lia|rewrite Lo; lia]|apply le_bytes_byte|rewrite upd_length by (rewrite Lo; lia); rewrite Lo, le_len; reflexivity|].
  rewrite le_val_upd by (rewrite Lo; lia). rewrite Vo, le_val_bytes by (change (256 ^ Z.of_nat 32) with (2 ^ 256); change q5 with (2 ^ 255 - 19) in RY; lia). change (256 ^ Z.of_nat 31) with (2 ^ 248). lia.
Qed.
Lemma root_unique (x y Y : Fq q5) : EdSpec.on (x, Y) -> EdSpec.on (y, Y) -> fval x mod 2 = fval y mod 2 -> x = y.
Proof.
  intros H1 H2 P. destruct (same_y _ _ _ _ _ _ _ _ _ EdSpec.FT (Fq_dec q5) _ _ _ EdSpec.im_square EdSpec.a_nz EdSpec.d_nonsquare _ _ _ H1 H2) as [E|E]; [symmetry; exact E|].
  destruct (Z.even (fval x)) eqn:Ev.
  - destruct (opp_parity x Ev) as [Z0|Z0]; [subst; ring|]. rewrite <- E in Z0. apply even_mod2 in Ev. lia.
  - assert (E' : x = qopp y) by (rewrite E; ring). assert (Hy : Z.even (fval y) = false) by (rewrite Zmod_even, Ev in P; rewrite Zmod_even in P; destruct (Z.even (fval y)); congruence).
    exfalso. assert (Q : Z.even (fval (qopp y)) = true).
    { unfold qopp. rewrite fval_ofZ. pose proof (fval_range q5 y ltac:(reflexivity)) as R. assert (fval y <> 0) by (intros Z0; rewrite Z0 in Hy; discriminate). rewrite Z.mod_opp_l_nz; [|discriminate|rewrite Z.mod_small by exact R; assumption]. rewrite Z.mod_small by exact R. rewrite Z.even_sub, Hy. reflexivity. }
    rewrite <- E' in Q. congruence.
Qed.
