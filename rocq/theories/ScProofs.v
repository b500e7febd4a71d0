(** * ScProofs.v — scMulAdd and scReduce compute modulo l and never overflow *)
From Coq Require Import ZArith List Lia Bool Arith.
From Verif Require Import FieldLemmas EdBytes KeccakModel SliceModel FeProofs ScModel.
From Verif Require EdSpec.
Import ListNotations.
Open Scope Z_scope.
Notation Lq := EdSpec.L.

(** ** int64 and limbs of 21 bits *)
Lemma i64_ok x : - 2 ^ 63 <= x < 2 ^ 63 -> i64 x = x.
Proof. intros H. unfold i64. rewrite Z.mod_small by lia. lia. Qed.
Fixpoint lval (s : list Z) : Z := match s with [] => 0 | x :: r => x + 2 ^ 21 * lval r end.
Lemma lval_app a b : lval (a ++ b) = lval a + 2 ^ (21 * Z.of_nat (length a)) * lval b.
Proof.
  induction a as [|x a IH]; [cbn [app lval length]; change (2 ^ (21 * Z.of_nat 0)) with 1; lia|].
  cbn [app lval length]. rewrite IH, Nat2Z.inj_succ. replace (21 * Z.succ (Z.of_nat (length a))) with (21 + 21 * Z.of_nat (length a)) by lia. rewrite Z.pow_add_r by lia. ring.
Qed.
Lemma skipn_S_tl {A} : forall i (s : list A), skipn (S i) s = tl (skipn i s).
Proof. induction i as [|i IH]; intros [|a s]; try reflexivity. exact (IH s). Qed.
Lemma lval_split i s : (i < length s)%nat -> lval s = lval (firstn i s) + 2 ^ (21 * Z.of_nat i) * (nth i s 0 + 2 ^ 21 * lval (skipn (S i) s)).
Proof.
  intros H. rewrite <- (firstn_skipn i s) at 1. rewrite lval_app, firstn_length, Nat.min_l by lia. f_equal. f_equal.
  rewrite <- (firstn_skipn i s) at 2. rewrite app_nth2; rewrite firstn_length, Nat.min_l by lia; [|lia]. rewrite Nat.sub_diag.
  assert (skipn (S i) s = tl (skipn i s)) as -> by (apply skipn_S_tl).
  destruct (skipn i s) eqn:E; [|reflexivity]. apply (f_equal (@length Z)) in E. rewrite skipn_length in E. cbn [length] in E. lia.
Qed.
Lemma lval_upd i x s : (i < length s)%nat -> lval (upd i x s) = lval s + (x - nth i s 0) * 2 ^ (21 * Z.of_nat i).
Proof.
  intros H. rewrite (lval_split i s) by auto. unfold upd. rewrite lval_app, firstn_length, Nat.min_l by lia. cbn [lval]. ring.
Qed.

Lemma inj_some {A} (x y : A) : Some x = Some y -> x = y. Proof. intros H. injection H. auto. Qed.
(** ** Intervals *)
Definition box := list (Z * Z).
Definition bl (i : nat) (B : box) : Z := fst (nth i B (0, 0)).
Definition bh (i : nat) (B : box) : Z := snd (nth i B (0, 0)).
Definition inb (s : list Z) (B : box) : Prop := length s = 24%nat /\ length B = 24%nat /\ forall i, bl i B <= nth i s 0 <= bh i B.
Definition ok (l h : Z) : bool := (- 2 ^ 63 <=? l) && (h <? 2 ^ 63).
Lemma ok_ok l h : ok l h = true -> - 2 ^ 63 <= l /\ h < 2 ^ 63.
Proof. unfold ok. rewrite andb_true_iff, Z.leb_le, Z.ltb_lt. auto. Qed.
Lemma inb_upd s B i x lo hi : inb s B -> (i < 24)%nat -> lo <= x <= hi -> inb (upd i x s) (upd i (lo, hi) B).
Proof.
  intros (A & C & D) Hi Hx. split; [rewrite upd_length; lia|]. split; [rewrite upd_length; lia|]. intros j. unfold bl, bh. rewrite !upd_nth by lia.
  destruct (Nat.eqb j i); [exact Hx|apply D].
Qed.

Definition acarry (r : Z) (i : nat) (B : box) : option box :=
  let cl := (bl i B + r) / 2 ^ 21 in let ch := (bh i B + r) / 2 ^ 21 in
  if Nat.ltb (i + 1) 24 && ok (bl i B) (bh i B + r) && ok (cl * 2 ^ 21) (ch * 2 ^ 21) && ok (bl (i + 1) B + cl) (bh (i + 1) B + ch)
  then Some (upd i (- r, 2 ^ 21 - 1 - r) (upd (i + 1) (bl (i + 1) B + cl, bh (i + 1) B + ch) B)) else None.
Lemma acarry_ok r i s B B' : 0 <= r < 2 ^ 21 -> inb s B -> acarry r i B = Some B' -> inb (carry_step r i s) B' /\ lval (carry_step r i s) = lval s.
Proof.
  intros Hr I E. unfold acarry in E. cbv zeta in E.
  destruct (Nat.ltb (i + 1) 24 && ok (bl i B) (bh i B + r) && ok ((bl i B + r) / 2 ^ 21 * 2 ^ 21) ((bh i B + r) / 2 ^ 21 * 2 ^ 21) && ok (bl (i + 1) B + (bl i B + r) / 2 ^ 21) (bh (i + 1) B + (bh i B + r) / 2 ^ 21)) eqn:C; [|discriminate E].
  apply inj_some in E; subst B'. rewrite !andb_true_iff, Nat.ltb_lt in C. destruct C as [[[C1 C2] C3] C4]. apply ok_ok in C2, C3, C4.
  destruct I as (A & A' & D). pose proof (D i) as Di. pose proof (D (i + 1)%nat) as Dj. unfold carry_step. cbv zeta.
  set (x := nth i s 0) in *. set (y := nth (i + 1) s 0) in *. rewrite (i64_ok (x + r)) by lia. rewrite Z.shiftr_div_pow2 by lia. set (c := (x + r) / 2 ^ 21).
  assert (Hc : (bl i B + r) / 2 ^ 21 <= c <= (bh i B + r) / 2 ^ 21) by (split; apply Z.div_le_mono; lia).
  rewrite Z.shiftl_mul_pow2 by lia. rewrite (i64_ok (c * 2 ^ 21)) by lia. rewrite (i64_ok (y + c)) by lia.
  assert (E1 : nth i (upd (i + 1) (y + c) s) 0 = x) by (rewrite upd_nth by lia; destruct (Nat.eqb_spec i (i + 1)); [lia|reflexivity]). rewrite E1.
  assert (Hm : x - c * 2 ^ 21 = (x + r) mod 2 ^ 21 - r) by (pose proof (Z.div_mod (x + r) (2 ^ 21) ltac:(lia)) as M; fold c in M; lia).
  pose proof (Z.mod_pos_bound (x + r) (2 ^ 21) ltac:(lia)) as Mb. rewrite (i64_ok (x - c * 2 ^ 21)) by lia.
  split.
  - apply inb_upd; [|lia|lia]. apply inb_upd; [split; [exact A|split; [exact A'|exact D]]|lia|lia].
  - rewrite lval_upd by (rewrite upd_length; lia). rewrite E1, lval_upd by lia. fold y. replace (21 * Z.of_nat (i + 1)) with (21 + 21 * Z.of_nat i) by lia. rewrite Z.pow_add_r by lia. ring.
Qed.

Definition afold_j (i : nat) (lo hi : Z) (B : box) (j : nat) : option box :=
  let k := nth j fold_coeffs 0 in
  let m := Z.min (lo * k) (hi * k) in let M := Z.max (lo * k) (hi * k) in let t := (i - 12 + j)%nat in
  if ok m M && ok (bl t B + m) (bh t B + M) then Some (upd t (bl t B + m, bh t B + M) B) else None.
Fixpoint afold_js (i : nat) (lo hi : Z) (js : list nat) (B : box) : option box :=
  match js with [] => Some B | j :: js => match afold_j i lo hi B j with Some B' => afold_js i lo hi js B' | None => None end end.
Fixpoint sumk (js : list nat) : Z := match js with [] => 0 | j :: js => nth j fold_coeffs 0 * 2 ^ (21 * Z.of_nat j) + sumk js end.
Definition afold (i : nat) (B : box) : option box :=
  if Nat.leb 12 i && Nat.ltb i 24 then match afold_js i (bl i B) (bh i B) (seq 0 6) B with Some B' => Some (upd i (0, 0) B') | None => None end else None.
Lemma afold_js_ok i x lo hi : (12 <= i < 24)%nat -> lo <= x <= hi -> forall js s B B', Forall (fun j => (j < 6)%nat) js -> inb s B -> afold_js i lo hi js B = Some B' ->
  let s' := fold_left (fun s j => upd (i - 12 + j) (i64 (nth (i - 12 + j) s 0 + i64 (x * nth j fold_coeffs 0))) s) js s in
  inb s' B' /\ nth i s' 0 = nth i s 0 /\ lval s' = lval s + x * 2 ^ (21 * Z.of_nat (i - 12)) * sumk js.
Proof.
  intros Hi Hx. induction js as [|j js IH]; intros s B B' F I E; cbn [afold_js sumk fold_left] in *.
  - apply inj_some in E; subst B'. split; [exact I|]. split; [reflexivity|]. ring.
  - apply Forall_cons_iff in F as [Fj F]. destruct (afold_j i lo hi B j) as [B1|] eqn:Ej; [|discriminate E]. unfold afold_j in Ej. cbv zeta in Ej.
    set (k := nth j fold_coeffs 0) in *. set (t := (i - 12 + j)%nat) in *. assert (Ht : (t < 24)%nat) by (unfold t; lia). assert (Nt : t <> i) by (unfold t; lia).
    destruct (ok (Z.min (lo * k) (hi * k)) (Z.max (lo * k) (hi * k)) && ok (bl t B + Z.min (lo * k) (hi * k)) (bh t B + Z.max (lo * k) (hi * k))) eqn:C; [|discriminate Ej]. apply inj_some in Ej; subst B1.
    apply andb_true_iff in C as [C1 C2]. apply ok_ok in C1, C2.
    assert (Hxk : Z.min (lo * k) (hi * k) <= x * k <= Z.max (lo * k) (hi * k)).
    { destruct (Z_le_gt_dec 0 k); [split; [transitivity (lo * k); [apply Z.le_min_l|nia]|transitivity (hi * k); [nia|apply Z.le_max_r]]|split; [transitivity (hi * k); [apply Z.le_min_r|nia]|transitivity (lo * k); [nia|apply Z.le_max_l]]]. }
    destruct I as (A & A' & D). pose proof (D t) as Dt. rewrite (i64_ok (x * k)) by lia. rewrite (i64_ok (nth t s 0 + x * k)) by lia.
    set (s1 := upd t (nth t s 0 + x * k) s). assert (I1 : inb s1 (upd t (bl t B + Z.min (lo * k) (hi * k), bh t B + Z.max (lo * k) (hi * k)) B)).
    { unfold s1. apply inb_upd; [split; [exact A|split; [exact A'|exact D]]|exact Ht|lia]. }
    destruct (IH s1 _ _ F I1 E) as (I2 & N2 & V2). split; [exact I2|]. split.
    + rewrite N2. unfold s1. rewrite upd_nth by lia. destruct (Nat.eqb_spec i t); [lia|reflexivity].
    + rewrite V2. unfold s1. rewrite lval_upd by lia. replace (21 * Z.of_nat t) with (21 * Z.of_nat (i - 12) + 21 * Z.of_nat j) by (unfold t; lia). rewrite Z.pow_add_r by lia. ring.
Qed.
Lemma sumk_L : sumk (seq 0 6) - 2 ^ 252 = - Lq. Proof. vm_compute. reflexivity. Qed.
Lemma afold_ok i s B B' : inb s B -> afold i B = Some B' -> inb (fold_step i s) B' /\ lval (fold_step i s) = lval s - nth i s 0 * 2 ^ (21 * Z.of_nat (i - 12)) * Lq.
Proof.
  intros I E. unfold afold in E. destruct (Nat.leb 12 i && Nat.ltb i 24) eqn:C; [|discriminate E]. apply andb_true_iff in C as [C1 C2]. apply Nat.leb_le in C1. apply Nat.ltb_lt in C2.
  destruct (afold_js i (bl i B) (bh i B) (seq 0 6) B) as [B1|] eqn:E1; [|discriminate E]. apply inj_some in E; subst B'.
  assert (F : Forall (fun j => (j < 6)%nat) (seq 0 6)) by (apply Forall_forall; intros j Hj; apply in_seq in Hj; lia).
  destruct (afold_js_ok i (nth i s 0) (bl i B) (bh i B) (conj C1 C2) (proj2 (proj2 I) i) _ s B B1 F I E1) as (I1 & N1 & V1).
  unfold fold_step. cbv zeta. set (s1 := fold_left _ (seq 0 6) s) in *. split; [apply inb_upd; [exact I1|exact C2|lia]|].
  rewrite lval_upd by (rewrite (proj1 I1); lia). rewrite N1, V1. assert (E2 : 2 ^ (21 * Z.of_nat i) = 2 ^ (21 * Z.of_nat (i - 12)) * 2 ^ 252) by (rewrite <- Z.pow_add_r by lia; f_equal; lia).
  rewrite E2. pose proof sumk_L as S. assert (S' : sumk (seq 0 6) = 2 ^ 252 - Lq) by lia. rewrite S'. ring.
Qed.

Definition aexec (p : ins) (B : box) : option box := match p with CarryR i => acarry (2 ^ 20) i B | Carry i => acarry 0 i B | Fold i => afold i B end.
Fixpoint aexec_all (ps : list ins) (B : box) : option box := match ps with [] => Some B | p :: ps => match aexec p B with Some B' => aexec_all ps B' | None => None end end.
Lemma aexec_all_ok : forall ps s B B', inb s B -> aexec_all ps B = Some B' -> inb (exec_all ps s) B' /\ exists t, lval (exec_all ps s) = lval s - t * Lq.
Proof.
  induction ps as [|p ps IH]; intros s B B' I E; cbn [aexec_all] in E.
  - apply inj_some in E; subst B'. split; [exact I|]. exists 0. unfold exec_all. cbn [fold_left]. ring.
  - destruct (aexec p B) as [B1|] eqn:E1; [|discriminate E].
    assert (S : inb (exec p s) B1 /\ exists t, lval (exec p s) = lval s - t * Lq).
    { destruct p as [i|i|i]; cbn [aexec exec] in *.
      - destruct (acarry_ok (2 ^ 20) i s B B1 ltac:(lia) I E1) as [I1 V1]. split; [exact I1|]. exists 0. rewrite V1. ring.
      - destruct (acarry_ok 0 i s B B1 ltac:(lia) I E1) as [I1 V1]. split; [exact I1|]. exists 0. rewrite V1. ring.
      - destruct (afold_ok i s B B1 I E1) as [I1 V1]. split; [exact I1|]. eexists. exact V1. }
    destruct S as (I1 & t & V1). destruct (IH _ _ _ I1 E) as (I2 & t2 & V2). split; [exact I2|]. exists (t + t2). unfold exec_all in *. cbn [fold_left]. rewrite V2, V1. ring.
Qed.
(** carries alone keep the value *)
Definition is_carry (p : ins) : bool := match p with Fold _ => false | _ => true end.
Lemma carries_ok : forall ps s B B', forallb is_carry ps = true -> inb s B -> aexec_all ps B = Some B' -> inb (exec_all ps s) B' /\ lval (exec_all ps s) = lval s.
Proof.
  induction ps as [|p ps IH]; intros s B B' F I E; cbn [aexec_all forallb] in *.
  - apply inj_some in E; subst B'. split; [exact I|reflexivity].
  - apply andb_true_iff in F as [F1 F]. destruct (aexec p B) as [B1|] eqn:E1; [|discriminate E].
    assert (S : inb (exec p s) B1 /\ lval (exec p s) = lval s).
    { destruct p as [i|i|i]; cbn [aexec exec] in *; [apply (acarry_ok (2 ^ 20) i s B B1); auto; lia|apply (acarry_ok 0 i s B B1); auto; lia|discriminate F1]. }
    destruct S as (I1 & V1). destruct (IH _ _ _ F I1 E) as (I2 & V2). split; [exact I2|]. unfold exec_all in *. cbn [fold_left]. rewrite V2, V1. reflexivity.
Qed.
(** bounds of the value *)
Definition lows (B : box) := map fst B.
Definition highs (B : box) := map snd B.
Lemma box_val : forall s B, length s = length B -> (forall i, bl i B <= nth i s 0 <= bh i B) -> lval (lows B) <= lval s <= lval (highs B).
Proof.
  induction s as [|x s IH]; intros [|[l h] B] E D; cbn [length] in E; try lia; [cbn [lows highs map lval]; lia|]. cbn [lows highs map lval fst snd].
  pose proof (D 0%nat) as D0. cbn in D0. assert (lval (lows B) <= lval s <= lval (highs B)) by (apply IH; [lia|intros i; exact (D (S i))]). unfold lows, highs in *. lia.
Qed.
(** ** Loads *)
Lemma cons_eq {A} (x y : A) l m : x = y -> l = m -> x :: l = y :: m. Proof. intros -> ->. reflexivity. Qed.
Lemma le_slice x o n : is_bytes x -> (o + n <= length x)%nat -> le_val (firstn n (skipn o x)) = le_val x / 2 ^ (8 * Z.of_nat o) mod 2 ^ (8 * Z.of_nat n).
Proof.
  intros F L. assert (E : x = firstn o x ++ firstn n (skipn o x) ++ skipn n (skipn o x)) by (rewrite !firstn_skipn; reflexivity).
  assert (F1 : is_bytes (firstn o x) /\ is_bytes (firstn n (skipn o x))).
  { unfold is_bytes in *. rewrite E in F. apply Forall_app in F. destruct F as (Fa & F). apply Forall_app in F. tauto. }
  assert (La : length (firstn o x) = o) by (rewrite firstn_length; lia). assert (Lb : length (firstn n (skipn o x)) = n) by (rewrite firstn_length, skipn_length; lia).
  pose proof (le_val_range _ (proj1 F1)) as Ra. pose proof (le_val_range _ (proj2 F1)) as Rb. rewrite La in Ra. rewrite Lb in Rb. rewrite E at 2. rewrite !le_val_app, La, Lb.
  assert (P : forall k, 2 ^ (8 * Z.of_nat k) = 256 ^ Z.of_nat k) by (intros k; rewrite Z.pow_mul_r by lia; reflexivity). rewrite !P.
  assert (256 ^ Z.of_nat o <> 0 /\ 256 ^ Z.of_nat n <> 0) as [N1 N2] by (split; apply Z.pow_nonzero; lia).
  rewrite (Z.mul_comm (256 ^ Z.of_nat o)), Z.div_add, (Z.div_small (le_val (firstn o x))) by assumption. rewrite Z.add_0_l, (Z.mul_comm (256 ^ Z.of_nat n)), Z_mod_plus_full, Z.mod_small by assumption. reflexivity.
Qed.
Lemma nth_byte x i : is_bytes x -> 0 <= nth i x 0 < 256.
Proof. intros F. destruct (Nat.lt_ge_cases i (length x)) as [H|H]; [unfold is_bytes in F; rewrite Forall_forall in F; apply F, nth_In, H|rewrite nth_overflow by lia; lia]. Qed.
Lemma skipn_bytes x o : is_bytes x -> is_bytes (skipn o x).
Proof. intros F. unfold is_bytes in *. rewrite <- (firstn_skipn o x) in F. apply Forall_app in F. tauto. Qed.
Lemma load3_val y : is_bytes y -> (3 <= length y)%nat -> load3 y = le_val (firstn 3 y).
Proof.
  intros F L. pose proof (nth_byte y 0 F) as H0. pose proof (nth_byte y 1 F) as H1. pose proof (nth_byte y 2 F) as H2. destruct y as [|a [|b [|c y]]]; cbn [length] in L; try lia.
  unfold load3. cbn [nth firstn le_val] in *. rewrite !Z.shiftl_mul_pow2 by lia. rewrite (Z.lor_comm a), lor_disjoint by lia. rewrite Z.lor_comm, lor_disjoint by lia. lia.
Qed.
Lemma load4_val y : is_bytes y -> (4 <= length y)%nat -> load4 y = le_val (firstn 4 y).
Proof.
  intros F L. unfold load4. rewrite load3_val by (auto; lia). pose proof (nth_byte y 0 F) as H0. pose proof (nth_byte y 1 F) as H1. pose proof (nth_byte y 2 F) as H2. pose proof (nth_byte y 3 F) as H3.
  destruct y as [|a [|b [|c [|d y]]]]; cbn [length] in L; try lia. cbn [nth firstn le_val] in *. rewrite !Z.shiftl_mul_pow2 by lia. rewrite Z.lor_comm, lor_disjoint by lia. lia.
Qed.
Lemma mask21 x : Z.land 2097151 x = x mod 2 ^ 21.
Proof. rewrite Z.land_comm. change 2097151 with (Z.ones 21). apply Z.land_ones. lia. Qed.
Lemma digit_of V a n r : 0 <= a -> 0 <= r -> r + 21 <= n -> (V / 2 ^ a mod 2 ^ n / 2 ^ r) mod 2 ^ 21 = V / 2 ^ (a + r) mod 2 ^ 21.
Proof.
  intros Ha Hr Hn. apply Z.bits_inj'. intros m Hm. destruct (Z.lt_ge_cases m 21) as [K|K].
  - rewrite !Z.mod_pow2_bits_low by lia. rewrite Z.div_pow2_bits, Z.mod_pow2_bits_low, !Z.div_pow2_bits by lia. f_equal. lia.
  - rewrite !Z.mod_pow2_bits_high by lia. reflexivity.
Qed.
Lemma ld3 x o r k : is_bytes x -> (o + 3 <= length x)%nat -> 0 <= r <= 3 -> 8 * Z.of_nat o + r = k -> Z.land 2097151 (Z.shiftr (load3 (skipn o x)) r) = le_val x / 2 ^ k mod 2 ^ 21.
Proof.
  intros F L Hr <-. rewrite mask21, load3_val by (auto using skipn_bytes; rewrite skipn_length; lia). rewrite le_slice by (auto; lia). rewrite Z.shiftr_div_pow2 by lia. apply digit_of; lia.
Qed.
Lemma ld30 x o k : is_bytes x -> (o + 3 <= length x)%nat -> 8 * Z.of_nat o = k -> Z.land 2097151 (load3 (skipn o x)) = le_val x / 2 ^ k mod 2 ^ 21.
Proof. intros F L E. rewrite <- (Z.shiftr_0_r (load3 _)). apply ld3; auto; lia. Qed.
Lemma ld4 x o r k : is_bytes x -> (o + 4 <= length x)%nat -> 0 <= r <= 11 -> 8 * Z.of_nat o + r = k -> Z.land 2097151 (Z.shiftr (load4 (skipn o x)) r) = le_val x / 2 ^ k mod 2 ^ 21.
Proof.
  intros F L Hr <-. rewrite mask21, load4_val by (auto using skipn_bytes; rewrite skipn_length; lia). rewrite le_slice by (auto; lia). rewrite Z.shiftr_div_pow2 by lia. apply digit_of; lia.
Qed.
Lemma ld4_last x o r k : is_bytes x -> (o + 4 = length x)%nat -> 0 <= r -> 8 * Z.of_nat o + r = k -> Z.shiftr (load4 (skipn o x)) r = le_val x / 2 ^ k.
Proof.
  intros F L Hr <-. rewrite load4_val by (auto using skipn_bytes; rewrite skipn_length; lia). rewrite le_slice by (auto; lia). rewrite Z.shiftr_div_pow2 by lia.
  pose proof (le_val_range x F) as R. rewrite Z.mod_small. { rewrite Z.div_div by (try apply Z.pow_nonzero; try apply Z.pow_pos_nonneg; lia). rewrite <- Z.pow_add_r by lia. reflexivity. }
  split; [apply Z.div_pos; [lia|apply Z.pow_pos_nonneg; lia]|]. apply Z.div_lt_upper_bound; [apply Z.pow_pos_nonneg; lia|]. rewrite <- Z.pow_add_r by lia. replace (8 * Z.of_nat o + 8 * Z.of_nat 4) with (8 * Z.of_nat (length x)) by lia.
  rewrite Z.pow_mul_r by lia. apply R.
Qed.
Definition digits21 (n : nat) (V : Z) : list Z := map (fun k => V / 2 ^ (21 * Z.of_nat k) mod 2 ^ 21) (seq 0 n) ++ [V / 2 ^ (21 * Z.of_nat n)].
Lemma digits21_val : forall n V, lval (digits21 n V) = V.
Proof.
  induction n as [|n IH]; intros V.
  - unfold digits21. cbn [seq map app lval]. change (2 ^ (21 * Z.of_nat 0)) with 1. rewrite Z.div_1_r. lia.
  - unfold digits21. rewrite <- cons_seq, <- seq_shift. cbn [map app lval]. rewrite map_map.
    assert (D : forall k, V / 2 ^ (21 * Z.of_nat (S k)) = V / 2 ^ 21 / 2 ^ (21 * Z.of_nat k)).
    { intros k. rewrite Z.div_div by (try apply Z.pow_nonzero; try apply Z.pow_pos_nonneg; lia). rewrite <- Z.pow_add_r by lia. f_equal. f_equal. lia. }
    rewrite (map_ext _ (fun k => V / 2 ^ 21 / 2 ^ (21 * Z.of_nat k) mod 2 ^ 21)) by (intros k; rewrite D; reflexivity). rewrite D. specialize (IH (V / 2 ^ 21)). unfold digits21 in IH. rewrite IH.
    change (2 ^ (21 * Z.of_nat 0)) with 1. rewrite Z.div_1_r. pose proof (Z.div_mod V (2 ^ 21) ltac:(lia)). lia.
Qed.
Lemma limbs12_digits x : is_bytes x -> length x = 32%nat -> limbs12 x = digits21 11 (le_val x).
Proof.
  intros F H. unfold limbs12, digits21. cbn [seq map app]. rewrite <- (Z.shiftr_0_r (load3 (skipn 0 x))) at 1.
  apply cons_eq; [apply (ld30 x 0 (21 * Z.of_nat 0)); auto; rewrite ?H; lia|].
  apply cons_eq; [apply (ld4 x 2 5 (21 * Z.of_nat 1)); auto; rewrite ?H; lia|].
  apply cons_eq; [apply (ld3 x 5 2 (21 * Z.of_nat 2)); auto; rewrite ?H; lia|].
  apply cons_eq; [apply (ld4 x 7 7 (21 * Z.of_nat 3)); auto; rewrite ?H; lia|].
  apply cons_eq; [apply (ld4 x 10 4 (21 * Z.of_nat 4)); auto; rewrite ?H; lia|].
  apply cons_eq; [apply (ld3 x 13 1 (21 * Z.of_nat 5)); auto; rewrite ?H; lia|].
  apply cons_eq; [apply (ld4 x 15 6 (21 * Z.of_nat 6)); auto; rewrite ?H; lia|].
  apply cons_eq; [apply (ld3 x 18 3 (21 * Z.of_nat 7)); auto; rewrite ?H; lia|].
  apply cons_eq; [apply (ld30 x 21 (21 * Z.of_nat 8)); auto; rewrite ?H; lia|].
  apply cons_eq; [apply (ld4 x 23 5 (21 * Z.of_nat 9)); auto; rewrite ?H; lia|].
  apply cons_eq; [apply (ld3 x 26 2 (21 * Z.of_nat 10)); auto; rewrite ?H; lia|].
  apply cons_eq; [apply (ld4_last x 28 7 (21 * Z.of_nat 11)); auto; rewrite ?H; lia|].
  reflexivity.
Qed.
Lemma limbs24_digits x : is_bytes x -> length x = 64%nat -> limbs24 x = digits21 23 (le_val x).
Proof.
  intros F H. unfold limbs24, digits21. cbn [seq map app]. rewrite <- (Z.shiftr_0_r (load3 (skipn 0 x))) at 1.
  apply cons_eq; [apply (ld30 x 0 (21 * Z.of_nat 0)); auto; rewrite ?H; lia|].
  apply cons_eq; [apply (ld4 x 2 5 (21 * Z.of_nat 1)); auto; rewrite ?H; lia|].
  apply cons_eq; [apply (ld3 x 5 2 (21 * Z.of_nat 2)); auto; rewrite ?H; lia|].
  apply cons_eq; [apply (ld4 x 7 7 (21 * Z.of_nat 3)); auto; rewrite ?H; lia|].
  apply cons_eq; [apply (ld4 x 10 4 (21 * Z.of_nat 4)); auto; rewrite ?H; lia|].
  apply cons_eq; [apply (ld3 x 13 1 (21 * Z.of_nat 5)); auto; rewrite ?H; lia|].
  apply cons_eq; [apply (ld4 x 15 6 (21 * Z.of_nat 6)); auto; rewrite ?H; lia|].
  apply cons_eq; [apply (ld3 x 18 3 (21 * Z.of_nat 7)); auto; rewrite ?H; lia|].
  apply cons_eq; [apply (ld30 x 21 (21 * Z.of_nat 8)); auto; rewrite ?H; lia|].
  apply cons_eq; [apply (ld4 x 23 5 (21 * Z.of_nat 9)); auto; rewrite ?H; lia|].
  apply cons_eq; [apply (ld3 x 26 2 (21 * Z.of_nat 10)); auto; rewrite ?H; lia|].
  apply cons_eq; [apply (ld4 x 28 7 (21 * Z.of_nat 11)); auto; rewrite ?H; lia|].
  apply cons_eq; [apply (ld4 x 31 4 (21 * Z.of_nat 12)); auto; rewrite ?H; lia|].
  apply cons_eq; [apply (ld3 x 34 1 (21 * Z.of_nat 13)); auto; rewrite ?H; lia|].
  apply cons_eq; [apply (ld4 x 36 6 (21 * Z.of_nat 14)); auto; rewrite ?H; lia|].
  apply cons_eq; [apply (ld3 x 39 3 (21 * Z.of_nat 15)); auto; rewrite ?H; lia|].
  apply cons_eq; [apply (ld30 x 42 (21 * Z.of_nat 16)); auto; rewrite ?H; lia|].
  apply cons_eq; [apply (ld4 x 44 5 (21 * Z.of_nat 17)); auto; rewrite ?H; lia|].
  apply cons_eq; [apply (ld3 x 47 2 (21 * Z.of_nat 18)); auto; rewrite ?H; lia|].
  apply cons_eq; [apply (ld4 x 49 7 (21 * Z.of_nat 19)); auto; rewrite ?H; lia|].
  apply cons_eq; [apply (ld4 x 52 4 (21 * Z.of_nat 20)); auto; rewrite ?H; lia|].
  apply cons_eq; [apply (ld3 x 55 1 (21 * Z.of_nat 21)); auto; rewrite ?H; lia|].
  apply cons_eq; [apply (ld4 x 57 6 (21 * Z.of_nat 22)); auto; rewrite ?H; lia|].
  apply cons_eq; [apply (ld4_last x 60 3 (21 * Z.of_nat 23)); auto; rewrite ?H; lia|].
  reflexivity.
Qed.
Lemma nth_map_seq (f : nat -> Z) n i : (i < n)%nat -> nth i (map f (seq 0 n)) 0 = f i.
Proof. intros H. rewrite (nth_indep _ 0 (f 0%nat)) by (rewrite map_length, seq_length; lia). rewrite (map_nth f), seq_nth by lia. reflexivity. Qed.
Lemma digits21_nth n V i : 0 <= V < 2 ^ (21 * Z.of_nat n + 29) -> 0 <= nth i (digits21 n V) 0 < 2 ^ 29 /\ ((i < n)%nat -> nth i (digits21 n V) 0 < 2 ^ 21).
Proof.
  intros HV. unfold digits21. destruct (Nat.lt_trichotomy i n) as [G|[G|G]].
  - rewrite app_nth1 by (rewrite map_length, seq_length; lia). rewrite nth_map_seq by lia.
    pose proof (Z.mod_pos_bound (V / 2 ^ (21 * Z.of_nat i)) (2 ^ 21) ltac:(lia)). lia.
  - rewrite app_nth2 by (rewrite map_length, seq_length; lia). rewrite map_length, seq_length, G, Nat.sub_diag. cbn [nth]. split; [|lia]. split; [apply Z.div_pos; [lia|apply Z.pow_pos_nonneg; lia]|].
    apply Z.div_lt_upper_bound; [apply Z.pow_pos_nonneg; lia|]. rewrite <- Z.pow_add_r by lia. lia.
  - rewrite nth_overflow by (rewrite app_length, map_length, seq_length; cbn [length]; lia). lia.
Qed.

(** ** Stores *)
Definition tidy (s : list Z) : Prop := length s = 24%nat /\ (forall i, (i < 11)%nat -> 0 <= nth i s 0 < 2 ^ 21) /\ 0 <= nth 11 s 0 < 2 ^ 25 /\ (forall i, (12 <= i)%nat -> nth i s 0 = 0).
Lemma lval_zero : forall s, (forall i, nth i s 0 = 0) -> lval s = 0.
Proof. induction s as [|x s IH]; intros H; [reflexivity|]. cbn [lval]. pose proof (H 0%nat) as H0. cbn in H0. rewrite IH by (intros i; exact (H (S i))). lia. Qed.
Lemma lval_low : forall n s, (forall i, (i < n)%nat -> 0 <= nth i s 0 < 2 ^ 21) -> 0 <= lval (firstn n s) < 2 ^ (21 * Z.of_nat n).
Proof.
  induction n as [|n IH]; intros s H; [cbn; lia|]. assert (P0 : 0 < 2 ^ (21 * Z.of_nat n)) by (apply Z.pow_pos_nonneg; lia). replace (21 * Z.of_nat (S n)) with (21 + 21 * Z.of_nat n) by lia. rewrite Z.pow_add_r by lia.
  destruct s as [|x s]; [cbn [firstn lval]; lia|]. cbn [firstn lval]. pose proof (H 0%nat ltac:(lia)) as H0. cbn in H0. assert (0 <= lval (firstn n s) < 2 ^ (21 * Z.of_nat n)) by (apply IH; intros i Hi; apply (H (S i)); lia). lia.
Qed.
Lemma nth_skipn_ k : forall (s : list Z) i, nth i (skipn k s) 0 = nth (k + i) s 0.
Proof. induction k as [|k IH]; intros s i; [reflexivity|]. destruct s as [|x s]; [destruct i; reflexivity|]. cbn [skipn Nat.add nth]. apply IH. Qed.
Lemma tidy_split s i : tidy s -> (i <= 11)%nat -> exists A T, lval s = A + 2 ^ (21 * Z.of_nat i) * (nth i s 0 + 2 ^ 21 * T) /\ 0 <= A < 2 ^ (21 * Z.of_nat i) /\ T = lval (skipn (S i) s) /\ (i = 11%nat -> T = 0).
Proof.
  intros (L & D & D11 & D12) Hi. exists (lval (firstn i s)), (lval (skipn (S i) s)). split; [apply lval_split; lia|]. split; [apply lval_low; intros j Hj; apply D; lia|]. split; [reflexivity|].
  intros ->. apply lval_zero. intros j. rewrite nth_skipn_. apply D12. lia.
Qed.
Lemma div_shift A X a r : 0 <= a -> 0 <= r -> 0 <= A < 2 ^ a -> (A + 2 ^ a * X) / 2 ^ (a + r) = X / 2 ^ r.
Proof.
  intros Ha Hr HA. rewrite Z.pow_add_r by lia. assert (0 < 2 ^ a) by (apply Z.pow_pos_nonneg; lia). assert (0 < 2 ^ r) by (apply Z.pow_pos_nonneg; lia). rewrite <- Z.div_div by lia.
  f_equal. rewrite (Z.mul_comm (2 ^ a)), Z.div_add by lia. rewrite Z.div_small by lia. lia.
Qed.
Lemma byte1 s i r m : tidy s -> (i <= 11)%nat -> 0 <= r -> (r + 8 <= 21 \/ i = 11%nat) -> 21 * Z.of_nat i + r = m -> byte (Z.shiftr (nth i s 0) r) = (lval s / 2 ^ m) mod 256.
Proof.
  intros T Hi Hr C <-. destruct (tidy_split s i T Hi) as (A & t & E & HA & _ & Z0). rewrite E, div_shift by lia. unfold byte. rewrite Z.shiftr_div_pow2 by lia.
  destruct C as [C|C]; [|rewrite (Z0 C); f_equal; f_equal; lia]. replace (2 ^ 21 * t) with (t * 2 ^ (13 - r) * 256 * 2 ^ r) by (change 256 with (2 ^ 8); rewrite <- !Z.mul_assoc, <- !Z.pow_add_r by lia; replace (13 - r + (8 + r)) with 21 by lia; lia).
  rewrite Z.div_add by (apply Z.pow_nonzero; lia). rewrite Z_mod_plus_full. reflexivity.
Qed.
Lemma byte2 s i r t m : tidy s -> (i <= 10)%nat -> 13 <= r <= 21 -> t = 21 - r -> 21 * Z.of_nat i + r = m ->
  byte (Z.lor (Z.shiftr (nth i s 0) r) (i64 (Z.shiftl (nth (S i) s 0) t))) = (lval s / 2 ^ m) mod 256.
Proof.
  intros T Hi Hr -> <-. destruct (tidy_split s i T ltac:(lia)) as (A & t & E & HA & Et & _). rewrite E, div_shift by lia. pose proof T as (L & D & D11 & D12).
  assert (R : 0 <= nth (S i) s 0 < 2 ^ 25) by (destruct (Nat.eq_dec i 10) as [->|]; [exact D11|pose proof (D (S i) ltac:(lia)); lia]). pose proof (D i ltac:(lia)) as Ri.
  assert (Pt : 1 <= 2 ^ (21 - r) <= 2 ^ 8) by (split; [change 1 with (2 ^ 0)|]; apply Z.pow_le_mono_r; lia).
  rewrite Z.shiftl_mul_pow2, Z.shiftr_div_pow2 by lia. rewrite i64_ok by nia.
  assert (Sk : skipn (S i) s = nth (S i) s 0 :: skipn (S (S i)) s). { rewrite (skipn_S_tl (S i)). pose proof (nth_skipn_ (S i) s 0) as N. rewrite Nat.add_0_r in N. destruct (skipn (S i) s) eqn:Q; [apply (f_equal (@length Z)) in Q; rewrite skipn_length in Q; cbn [length] in Q; lia|]. cbn [nth tl] in *. rewrite N. reflexivity. }
  rewrite Sk in Et. cbn [lval] in Et. set (x := nth i s 0) in *. set (y := nth (S i) s 0) in *. set (u := lval (skipn (S (S i)) s)) in *. subst t.
  assert (Q : 2 ^ 21 = 2 ^ (21 - r) * 2 ^ r) by (rewrite <- Z.pow_add_r by lia; f_equal; lia).
  assert (Hx : 0 <= x / 2 ^ r < 2 ^ (21 - r)) by (split; [apply Z.div_pos; lia|apply Z.div_lt_upper_bound; lia]).
  rewrite Z.lor_comm, lor_disjoint by lia. unfold byte.
  replace (x + 2 ^ 21 * (y + 2 ^ 21 * u)) with (x + (2 ^ (21 - r) * y + 2 ^ (21 - r) * 2 ^ 13 * u * 256) * 2 ^ r) by (rewrite Q at 1; change (2 ^ 21) with (2 ^ 13 * 256); ring).
  rewrite Z.div_add by (apply Z.pow_nonzero; lia). rewrite Z.add_assoc, Z_mod_plus_full. f_equal. lia.
Qed.
Lemma pack_ok s : tidy s -> pack s = le_bytes 32 (lval s).
Proof.
  intros T. unfold pack, le_bytes. cbn [seq map].
  apply cons_eq; [apply (byte1 s 0 0 (8 * Z.of_nat 0)); auto; lia|].
  apply cons_eq; [apply (byte1 s 0 8 (8 * Z.of_nat 1)); auto; lia|].
  apply cons_eq; [apply (byte2 s 0 16 5 (8 * Z.of_nat 2)); auto; lia|].
  apply cons_eq; [apply (byte1 s 1 3 (8 * Z.of_nat 3)); auto; lia|].
  apply cons_eq; [apply (byte1 s 1 11 (8 * Z.of_nat 4)); auto; lia|].
  apply cons_eq; [apply (byte2 s 1 19 2 (8 * Z.of_nat 5)); auto; lia|].
  apply cons_eq; [apply (byte1 s 2 6 (8 * Z.of_nat 6)); auto; lia|].
  apply cons_eq; [apply (byte2 s 2 14 7 (8 * Z.of_nat 7)); auto; lia|].
  apply cons_eq; [apply (byte1 s 3 1 (8 * Z.of_nat 8)); auto; lia|].
  apply cons_eq; [apply (byte1 s 3 9 (8 * Z.of_nat 9)); auto; lia|].
  apply cons_eq; [apply (byte2 s 3 17 4 (8 * Z.of_nat 10)); auto; lia|].
  apply cons_eq; [apply (byte1 s 4 4 (8 * Z.of_nat 11)); auto; lia|].
  apply cons_eq; [apply (byte1 s 4 12 (8 * Z.of_nat 12)); auto; lia|].
  apply cons_eq; [apply (byte2 s 4 20 1 (8 * Z.of_nat 13)); auto; lia|].
  apply cons_eq; [apply (byte1 s 5 7 (8 * Z.of_nat 14)); auto; lia|].
  apply cons_eq; [apply (byte2 s 5 15 6 (8 * Z.of_nat 15)); auto; lia|].
  apply cons_eq; [apply (byte1 s 6 2 (8 * Z.of_nat 16)); auto; lia|].
  apply cons_eq; [apply (byte1 s 6 10 (8 * Z.of_nat 17)); auto; lia|].
  apply cons_eq; [apply (byte2 s 6 18 3 (8 * Z.of_nat 18)); auto; lia|].
  apply cons_eq; [apply (byte1 s 7 5 (8 * Z.of_nat 19)); auto; lia|].
  apply cons_eq; [apply (byte1 s 7 13 (8 * Z.of_nat 20)); auto; lia|].
  apply cons_eq; [apply (byte1 s 8 0 (8 * Z.of_nat 21)); auto; lia|].
  apply cons_eq; [apply (byte1 s 8 8 (8 * Z.of_nat 22)); auto; lia|].
  apply cons_eq; [apply (byte2 s 8 16 5 (8 * Z.of_nat 23)); auto; lia|].
  apply cons_eq; [apply (byte1 s 9 3 (8 * Z.of_nat 24)); auto; lia|].
  apply cons_eq; [apply (byte1 s 9 11 (8 * Z.of_nat 25)); auto; lia|].
  apply cons_eq; [apply (byte2 s 9 19 2 (8 * Z.of_nat 26)); auto; lia|].
  apply cons_eq; [apply (byte1 s 10 6 (8 * Z.of_nat 27)); auto; lia|].
  apply cons_eq; [apply (byte2 s 10 14 7 (8 * Z.of_nat 28)); auto; lia|].
  apply cons_eq; [apply (byte1 s 11 1 (8 * Z.of_nat 29)); auto; lia|].
  apply cons_eq; [apply (byte1 s 11 9 (8 * Z.of_nat 30)); auto; lia|].
  apply cons_eq; [apply (byte1 s 11 17 (8 * Z.of_nat 31)); auto; lia|].
  reflexivity.
Qed.

(** ** The reduction *)
Definition c12 : list ins := map Carry (seq 0 12).
Definition c11 : list ins := map Carry (seq 0 11).
Lemma exact_split : prog_exact = c12 ++ [Fold 12] ++ c11. Proof. reflexivity. Qed.
Lemma exec_app a b s : exec_all (a ++ b) s = exec_all b (exec_all a s).
Proof. unfold exec_all. apply fold_left_app. Qed.
(** the checks made on intervals, by computation *)
Definition within (l h : Z) (x : Z * Z) : bool := (l <=? fst x) && (snd x <=? h).
Definition check (B0 : box) (ps : list ins) : bool :=
  match aexec_all ps B0 with None => false | Some B1 =>
  (- 2 ^ 252 <=? lval (lows B1)) && (lval (highs B1) <? 2 ^ 252) &&
  match aexec_all c12 B1 with None => false | Some B2 =>
  forallb (within 0 (2 ^ 21 - 1)) (firstn 12 B2) && forallb (within 0 0) (skipn 13 B2) &&
  match afold 12 B2 with None => false | Some B3 =>
  match aexec_all c11 B3 with None => false | Some B4 =>
  forallb (within 0 (2 ^ 21 - 1)) (firstn 11 B4) && forallb (within 0 0) (skipn 12 B4) && (bh 11 B4 <? 2 ^ 25)
  end end end end.
Lemma within_first l h n B : forallb (within l h) (firstn n B) = true -> (n <= length B)%nat -> forall i, (i < n)%nat -> l <= bl i B /\ bh i B <= h.
Proof.
  intros F L i Hi. assert (E : nth i B (0, 0) = nth i (firstn n B) (0, 0)) by (rewrite <- (firstn_skipn n B) at 1; apply app_nth1; rewrite firstn_length; lia). unfold bl, bh. rewrite E.
  rewrite forallb_forall in F. assert (In (nth i (firstn n B) (0, 0)) (firstn n B)) as I by (apply nth_In; rewrite firstn_length; lia). apply F in I. unfold within in I. rewrite andb_true_iff, !Z.leb_le in I. exact I.
Qed.
Lemma within_rest n B : forallb (within 0 0) (skipn n B) = true -> forall i, (n <= i)%nat -> 0 <= bl i B /\ bh i B <= 0.
Proof.
  intros F i Hi. destruct (Nat.lt_ge_cases i (length B)) as [G|G]; [|unfold bl, bh; rewrite nth_overflow by lia; cbn [fst snd]; lia]. rewrite forallb_forall in F.
  assert (In (nth i B (0, 0)) (skipn n B)) as I. { rewrite <- (firstn_skipn n B) at 1. rewrite app_nth2 by (rewrite firstn_length; lia). apply nth_In. rewrite firstn_length, skipn_length. lia. }
  apply F in I. unfold within in I. rewrite andb_true_iff, !Z.leb_le in I. exact I.
Qed.
Lemma L_bounds : 2 ^ 252 < Lq < 2 ^ 253. Proof. split; reflexivity. Qed.
Lemma reorder a t h l : a - t * l - h * 1 * l = a + (- t - h) * l. Proof. ring. Qed.
Theorem check_ok B0 ps s : check B0 ps = true -> inb s B0 -> pack (exec_all prog_exact (exec_all ps s)) = le_bytes 32 (lval s mod Lq).
Proof.
  intros C I. unfold check in C. destruct (aexec_all ps B0) as [B1|] eqn:E1; [|discriminate C]. rewrite !andb_true_iff in C. destruct C as [[C1 C2] C]. apply Z.leb_le in C1. apply Z.ltb_lt in C2.
  destruct (aexec_all c12 B1) as [B2|] eqn:E2; [|discriminate C]. rewrite !andb_true_iff in C. destruct C as [[C3 C4] C].
  destruct (afold 12 B2) as [B3|] eqn:E3; [|discriminate C]. destruct (aexec_all c11 B3) as [B4|] eqn:E4; [|discriminate C]. rewrite !andb_true_iff in C. destruct C as [[C5 C6] C7]. apply Z.ltb_lt in C7.
  destruct (aexec_all_ok ps s B0 B1 I E1) as (I1 & t & V1). set (s1 := exec_all ps s) in *.
  pose proof (box_val s1 B1 ltac:(rewrite (proj1 I1), (proj1 (proj2 I1)); reflexivity) (proj2 (proj2 I1))) as Bv.
  destruct (carries_ok c12 s1 B1 B2 eq_refl I1 E2) as (I2 & V2). set (s2 := exec_all c12 s1) in *.
  destruct (afold_ok 12 s2 B2 B3 I2 E3) as (I3 & V3). set (s3 := fold_step 12 s2) in *.
  destruct (carries_ok c11 s3 B3 B4 eq_refl I3 E4) as (I4 & V4). set (s4 := exec_all c11 s3) in *.
  rewrite exact_split, !exec_app. change (exec_all c11 (exec_all [Fold 12] (exec_all c12 s1))) with s4.
  (* the quotient *)
  destruct I2 as (L2 & LB2 & D2). assert (D2' : forall i, (i < 12)%nat -> 0 <= nth i s2 0 < 2 ^ 21) by (intros i Hi; pose proof (within_first _ _ 12 B2 C3 ltac:(lia) i Hi); pose proof (D2 i); lia).
  assert (Z2 : lval (skipn 13 s2) = 0). { apply lval_zero. intros i. rewrite nth_skipn_. pose proof (within_rest 13 B2 C4 (13 + i) ltac:(lia)). pose proof (D2 (13 + i)%nat). lia. }
  pose proof (lval_split 12 s2 ltac:(lia)) as S2. rewrite Z2 in S2. pose proof (lval_low 12 s2 D2') as R2. change (2 ^ (21 * Z.of_nat 12)) with (2 ^ 252) in *. set (h := nth 12 s2 0) in *. set (A := lval (firstn 12 s2)) in *.
  change (2 ^ (21 * Z.of_nat (12 - 12))) with 1 in V3. pose proof L_bounds as HL.
  assert (Hh : h = -1 \/ h = 0) by (rewrite V2 in S2; lia).
  assert (R4 : 0 <= lval s4 < Lq) by (rewrite V4, V3; destruct Hh as [Hh|Hh]; rewrite Hh in *; lia).
  (* the limbs *)
  destruct I4 as (L4 & LB4 & D4). assert (D4' : forall i, (i < 11)%nat -> 0 <= nth i s4 0 < 2 ^ 21) by (intros i Hi; pose proof (within_first _ _ 11 B4 C5 ltac:(lia) i Hi); pose proof (D4 i); lia).
  assert (Z4 : forall i, (12 <= i)%nat -> nth i s4 0 = 0). { intros i Hi. pose proof (within_rest 12 B4 C6 i Hi). pose proof (D4 i). lia. }
  assert (Z4' : lval (skipn 12 s4) = 0) by (apply lval_zero; intros i; rewrite nth_skipn_; apply Z4; lia).
  pose proof (lval_split 11 s4 ltac:(lia)) as S4. rewrite Z4' in S4. pose proof (lval_low 11 s4 D4') as R4'. pose proof (D4 11%nat) as D11.
  assert (T4 : tidy s4). { split; [exact L4|]. split; [exact D4'|]. split; [|exact Z4]. assert (0 < 2 ^ (21 * Z.of_nat 11)) by reflexivity. set (P := 2 ^ (21 * Z.of_nat 11)) in *. split; [nia|lia]. }
  rewrite (pack_ok s4 T4). f_equal. rewrite V4, V3, V2, V1 in *. rewrite <- (Z.mod_small (lval s - t * Lq - h * 1 * Lq) Lq) by exact R4.
  rewrite reorder. apply Z_mod_plus_full.
Qed.

(** ** Products *)
Lemma column_sum a b : (forall i, 0 <= nth i a 0 < 2 ^ 25) -> (forall i, 0 <= nth i b 0 < 2 ^ 25) -> forall k l acc, 0 <= acc -> acc + Z.of_nat (length l) * 2 ^ 50 < 2 ^ 63 ->
  let r := fold_left (fun acc i => i64 (acc + i64 (nth i a 0 * nth (k - i) b 0))) l acc in
  r = acc + fold_right (fun i t => nth i a 0 * nth (k - i) b 0 + t) 0 l /\ 0 <= r <= acc + Z.of_nat (length l) * 2 ^ 50.
Proof.
  intros Ha Hb k. induction l as [|i l IH]; intros acc H0 H1; cbn [fold_left fold_right length] in *; [lia|]. rewrite Nat2Z.inj_succ in *. pose proof (Ha i) as Hi. pose proof (Hb (k - i)%nat) as Hj.
  assert (P : 0 <= nth i a 0 * nth (k - i) b 0 <= 2 ^ 50) by (change (2 ^ 50) with (2 ^ 25 * 2 ^ 25); nia). set (x := nth i a 0 * nth (k - i) b 0) in *.
  rewrite (i64_ok x) by lia. rewrite (i64_ok (acc + x)) by lia. destruct (IH (acc + x) ltac:(lia) ltac:(lia)) as [E R]. cbv zeta in *. rewrite E. split; [ring|]. rewrite <- E. lia.
Qed.
Definition pcolumn (a b : list Z) (acc : Z) (k : nat) : Z := acc + fold_right (fun i t => nth i a 0 * nth (k - i) b 0 + t) 0 (seq (k - 11) (Nat.min k 11 + 1 - (k - 11))).
Lemma columns_val a b c : length a = 12%nat -> length b = 12%nat -> length c = 12%nat -> lval (map (fun k => pcolumn a b (nth k c 0) k) (seq 0 23) ++ [0]) = lval a * lval b + lval c.
Proof.
  intros La Lb Lc.
  do 12 (destruct a as [|? a]; [cbn [length] in La; lia|]). destruct a; [|cbn [length] in La; lia].
  do 12 (destruct b as [|? b]; [cbn [length] in Lb; lia|]). destruct b; [|cbn [length] in Lb; lia].
  do 12 (destruct c as [|? c]; [cbn [length] in Lc; lia|]). destruct c; [|cbn [length] in Lc; lia].
  clear. unfold pcolumn. cbn [seq map app lval nth Nat.sub Nat.min Nat.add fold_right]. ring.
Qed.
Lemma column_ok a b acc k : (forall i, 0 <= nth i a 0 < 2 ^ 25) -> (forall i, 0 <= nth i b 0 < 2 ^ 25) -> 0 <= acc < 2 ^ 25 -> column a b acc k = pcolumn a b acc k /\ 0 <= column a b acc k <= 2 ^ 25 + 12 * 2 ^ 50.
Proof.
  intros Ha Hb Hc. unfold column, pcolumn. set (l := seq (k - 11) (Nat.min k 11 + 1 - (k - 11))). assert (Ll : (length l <= 12)%nat) by (unfold l; rewrite seq_length; lia).
  destruct (column_sum a b Ha Hb k l acc ltac:(lia) ltac:(lia)) as [E R]. cbv zeta in *. split; [exact E|]. lia.
Qed.
Definition box_mul : box := repeat (0, 2 ^ 25 + 12 * 2 ^ 50) 23 ++ [(0, 0)].
Definition box_red : box := repeat (0, 2 ^ 29 - 1) 24.
Lemma check_mul : check box_mul (prog_mul ++ prog_fold) = true. Proof. vm_compute. reflexivity. Qed.
Lemma check_red : check box_red prog_fold = true. Proof. vm_compute. reflexivity. Qed.

Theorem scMulAdd_ok a b c : is_bytes a -> is_bytes b -> is_bytes c -> length a = 32%nat -> length b = 32%nat -> length c = 32%nat ->
  scMulAdd a b c = le_bytes 32 ((le_val a * le_val b + le_val c) mod Lq).
Proof.
  intros Fa Fb Fc La Lb Lc. unfold scMulAdd. rewrite <- (exec_app prog_mul prog_fold). rewrite !limbs12_digits by auto.
  assert (N : forall x, is_bytes x -> length x = 32%nat -> forall i, 0 <= nth i (digits21 11 (le_val x)) 0 < 2 ^ 25).
  { intros x F L i. pose proof (le_val_range x F) as R. rewrite L in R. change (256 ^ Z.of_nat 32) with (2 ^ 256) in R. unfold digits21. destruct (Nat.lt_trichotomy i 11) as [G|[G|G]].
    - rewrite app_nth1 by (rewrite map_length, seq_length; lia). rewrite nth_map_seq by lia.
      pose proof (Z.mod_pos_bound (le_val x / 2 ^ (21 * Z.of_nat i)) (2 ^ 21) ltac:(lia)). lia.
    - rewrite app_nth2 by (rewrite map_length, seq_length; lia). rewrite map_length, seq_length, G. change (21 * Z.of_nat 11) with 231. cbn [Nat.sub nth]. split; [apply Z.div_pos; lia|apply Z.div_lt_upper_bound; lia].
    - rewrite nth_overflow by (rewrite app_length, map_length, seq_length; cbn [length]; lia). lia. }
  set (A := digits21 11 (le_val a)). set (B := digits21 11 (le_val b)). set (C := digits21 11 (le_val c)).
  assert (NA : forall i, 0 <= nth i A 0 < 2 ^ 25) by (apply N; auto). assert (NB : forall i, 0 <= nth i B 0 < 2 ^ 25) by (apply N; auto). assert (NC : forall i, 0 <= nth i C 0 < 2 ^ 25) by (apply N; auto).
  assert (LA : length A = 12%nat /\ length B = 12%nat /\ length C = 12%nat) by (unfold A, B, C, digits21; rewrite !app_length, !map_length, !seq_length; auto).
  assert (EC : columns A B C = map (fun k => pcolumn A B (nth k C 0) k) (seq 0 23) ++ [0]). { unfold columns. f_equal. apply map_ext. intros k. apply column_ok; auto. }
  rewrite (check_ok box_mul); [|exact check_mul|].
  - rewrite EC, columns_val by tauto. unfold A, B, C. rewrite !digits21_val. reflexivity.
  - split; [unfold columns; rewrite app_length, map_length, seq_length; reflexivity|]. split; [reflexivity|]. intros i. unfold bl, bh, columns, box_mul. destruct (Nat.lt_trichotomy i 23) as [G|[G|G]].
    + rewrite !app_nth1 by (rewrite ?map_length, ?seq_length, ?repeat_length; lia). rewrite nth_map_seq by lia.
      rewrite (nth_indep (repeat _ _) (0, 0) (0, 2 ^ 25 + 12 * 2 ^ 50)) by (rewrite repeat_length; lia). rewrite nth_repeat. cbn [fst snd]. apply column_ok; auto.
    + rewrite G. rewrite !app_nth2 by (rewrite ?map_length, ?seq_length, ?repeat_length; lia). rewrite map_length, seq_length, repeat_length. cbn. lia.
    + rewrite !nth_overflow by (rewrite app_length, ?map_length, ?seq_length, ?repeat_length; cbn [length]; lia). cbn. lia.
Qed.
Theorem scReduce_ok x : is_bytes x -> length x = 64%nat -> scReduce x = le_bytes 32 (le_val x mod Lq).
Proof.
  intros F L. unfold scReduce. rewrite limbs24_digits by auto. rewrite (check_ok box_red); [rewrite digits21_val; reflexivity|exact check_red|].
  split; [unfold digits21; rewrite app_length, map_length, seq_length; reflexivity|]. split; [reflexivity|]. intros i. pose proof (le_val_range x F) as R. rewrite L in R.
  destruct (digits21_nth 23 (le_val x) i) as [D _]; [exact R|]. unfold bl, bh, box_red. destruct (Nat.lt_ge_cases i 24) as [G|G].
  - rewrite (nth_indep (repeat _ _) (0, 0) (0, 2 ^ 29 - 1)) by (rewrite repeat_length; lia). rewrite nth_repeat. cbn [fst snd]. lia.
  - rewrite (nth_overflow (repeat _ _)) by (rewrite repeat_length; lia). rewrite nth_overflow by (unfold digits21; rewrite app_length, map_length, seq_length; cbn [length]; lia). cbn. lia.
Qed.
