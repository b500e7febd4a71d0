(** * ScNaf.v — the signed digit forms of scalar.go *)
From Coq Require Import ZArith List Lia Bool Arith.
From Verif Require Import FieldLemmas EdBytes KeccakModel SliceModel FeProofs ScModel ScProofs.
Import ListNotations.
Open Scope Z_scope.

Fixpoint pval (b : Z) (s : list Z) : Z := match s with [] => 0 | x :: r => x + b * pval b r end.
Lemma pval_app b x y : pval b (x ++ y) = pval b x + b ^ Z.of_nat (length x) * pval b y.
Proof. induction x as [|a x IH]; [cbn [app pval length]; change (b ^ Z.of_nat 0) with 1; lia|]. cbn [app pval length]. rewrite IH, Nat2Z.inj_succ, Z.pow_succ_r by lia. ring. Qed.
Lemma pval_split b i s : (i < length s)%nat -> pval b s = pval b (firstn i s) + b ^ Z.of_nat i * (nth i s 0 + b * pval b (skipn (S i) s)).
Proof.
  intros H. rewrite <- (firstn_skipn i s) at 1. rewrite pval_app, firstn_length, Nat.min_l by lia. f_equal. f_equal.
  pose proof (nth_skipn_ i s 0) as N. rewrite Nat.add_0_r in N. rewrite skipn_S_tl. destruct (skipn i s) eqn:E; [apply (f_equal (@length Z)) in E; rewrite skipn_length in E; cbn [length] in E; lia|]. cbn [nth tl pval] in *. rewrite N. reflexivity.
Qed.
Lemma pval_upd b i x s : (i < length s)%nat -> pval b (upd i x s) = pval b s + (x - nth i s 0) * b ^ Z.of_nat i.
Proof. intros H. rewrite (pval_split b i s) by auto. unfold upd. rewrite pval_app, firstn_length, Nat.min_l by lia. cbn [pval]. ring. Qed.
Lemma pval_zero b : forall s, (forall i, nth i s 0 = 0) -> pval b s = 0.
Proof. induction s as [|x s IH]; intros H; [reflexivity|]. cbn [pval]. pose proof (H 0%nat) as H0. cbn in H0. rewrite IH by (intros i; exact (H (S i))). lia. Qed.

(** ** Radix 16 *)
Lemma i8_ok x : -128 <= x < 128 -> i8 x = x.
Proof. intros H. unfold i8. rewrite Z.mod_small by lia. lia. Qed.
Lemma nibbles s : is_bytes s -> let d := concat (map (fun b => [i8 (Z.land b 15); i8 (Z.land (Z.shiftr b 4) 15)]) s) in
  length d = (2 * length s)%nat /\ pval 16 d = le_val s /\ Forall (fun x => 0 <= x < 16) d /\ (forall i, nth (2 * i + 1) d 0 = nth i s 0 / 16).
Proof.
  intros F. induction s as [|b s IH]; [split; [reflexivity|]; split; [reflexivity|]; split; [constructor|]; intros i; cbn [map concat]; rewrite !nth_overflow by (cbn [length]; lia); reflexivity|]. apply Forall_cons_iff in F as [Fb F]. specialize (IH F). cbv zeta in *. destruct IH as (L & V & B & N).
  assert (E1 : i8 (Z.land b 15) = b mod 16) by (change 15 with (Z.ones 4); rewrite Z.land_ones by lia; change (2 ^ 4) with 16; apply i8_ok; pose proof (Z.mod_pos_bound b 16 ltac:(lia)); lia).
  assert (D : 0 <= b / 16 < 16) by (split; [apply Z.div_pos; lia|apply Z.div_lt_upper_bound; lia]).
  assert (E2 : i8 (Z.land (Z.shiftr b 4) 15) = b / 16) by (change 15 with (Z.ones 4); rewrite Z.land_ones, Z.shiftr_div_pow2 by lia; change (2 ^ 4) with 16; rewrite Z.mod_small by exact D; apply i8_ok; lia).
  cbn [map concat app]. rewrite E1, E2. set (d := concat _) in *. cbn [length pval le_val]. split; [lia|]. split; [rewrite V; pose proof (Z.div_mod b 16 ltac:(lia)); lia|]. split.
  - constructor; [apply Z.mod_pos_bound; lia|]. constructor; [exact D|exact B].
  - intros [|i]; [reflexivity|]. replace (2 * S i + 1)%nat with (S (S (2 * i + 1))) by lia. cbn [nth]. apply N.
Qed.
Lemma radix_loop n d0 : length d0 = 64%nat -> Forall (fun x => 0 <= x < 16) d0 -> (n <= 63)%nat ->
  let d := fold_left (fun d i => let carry := Z.shiftr (i8 (nth i d 0 + 8)) 4 in let d := upd i (i8 (nth i d 0 - i8 (Z.shiftl carry 4))) d in upd (i + 1) (i8 (nth (i + 1) d 0 + carry)) d) (seq 0 n) d0 in
  length d = 64%nat /\ pval 16 d = pval 16 d0 /\ (forall i, (i < n)%nat -> -8 <= nth i d 0 < 8) /\ (nth n d0 0 <= nth n d 0 <= nth n d0 0 + 1) /\ (forall i, (n < i)%nat -> nth i d 0 = nth i d0 0).
Proof.
  intros L F. induction n as [|n IH]; intros Hn; [cbn [seq fold_left]; repeat split; auto; try lia|]. rewrite seq_S, fold_left_app. cbn [fold_left]. rewrite Nat.add_0_l.
  cbv zeta in IH. specialize (IH ltac:(lia)). set (d := fold_left _ (seq 0 n) d0) in *. destruct IH as (Ld & V & B & T & R). cbv zeta.
  assert (Nb : forall i, 0 <= nth i d0 0 < 16) by (intros i; destruct (Nat.lt_ge_cases i 64) as [G|G]; [rewrite Forall_forall in F; apply F, nth_In; lia|rewrite nth_overflow by lia; lia]).
  pose proof (Nb n) as Bn. pose proof (Nb (S n)) as Bs. set (x := nth n d 0) in *. rewrite (i8_ok (x + 8)) by lia. rewrite Z.shiftr_div_pow2 by lia. change (2 ^ 4) with 16. set (c := (x + 8) / 16).
  assert (Hc : c = 0 \/ c = 1) by (unfold c; pose proof (Z.div_mod (x + 8) 16 ltac:(lia)); pose proof (Z.mod_pos_bound (x + 8) 16 ltac:(lia)); lia).
  assert (Hx : -8 <= x - c * 16 < 8) by (unfold c in *; pose proof (Z.div_mod (x + 8) 16 ltac:(lia)); pose proof (Z.mod_pos_bound (x + 8) 16 ltac:(lia)); lia).
  rewrite Z.shiftl_mul_pow2 by lia. change (2 ^ 4) with 16. rewrite (i8_ok (c * 16)) by lia. rewrite (i8_ok (x - c * 16)) by lia. replace (n + 1)%nat with (S n) by lia.
  assert (E1 : nth (S n) (upd n (x - c * 16) d) 0 = nth (S n) d0 0) by (rewrite upd_nth by lia; destruct (Nat.eqb_spec (S n) n); [lia|apply R; lia]). rewrite E1. set (y := nth (S n) d0 0) in *. rewrite (i8_ok (y + c)) by lia.
  split; [rewrite !upd_length; rewrite ?upd_length; lia|]. split.
  { rewrite pval_upd by (rewrite upd_length; lia). rewrite E1, pval_upd by lia. fold x. rewrite Nat2Z.inj_succ, Z.pow_succ_r by lia. rewrite V. ring. }
  split; [intros i Hi; rewrite upd_nth by (rewrite upd_length; lia); destruct (Nat.eqb_spec i (S n)); [lia|]; rewrite upd_nth by lia; destruct (Nat.eqb_spec i n); [exact Hx|apply B; lia]|].
  split; [rewrite upd_nth by (rewrite upd_length; lia); rewrite Nat.eqb_refl; lia|]. intros i Hi. rewrite upd_nth by (rewrite upd_length; lia). destruct (Nat.eqb_spec i (S n)); [lia|]. rewrite upd_nth by lia. destruct (Nat.eqb_spec i n); [lia|apply R; lia].
Qed.
Lemma top_byte s : is_bytes s -> length s = 32%nat -> nth 31 s 0 = le_val s / 2 ^ 248.
Proof.
  intros F L. pose proof (le_slice s 31 1 F ltac:(lia)) as E. assert (firstn 1 (skipn 31 s) = [nth 31 s 0]) as E1. { pose proof (nth_skipn_ 31 s 0) as N. assert (LS : length (skipn 31 s) = 1%nat) by (rewrite skipn_length; lia). destruct (skipn 31 s) as [|a [|b r]]; cbn [length] in LS; try lia. cbn in N. rewrite <- N. reflexivity. }
  rewrite E1 in E. cbn [le_val] in E. change (8 * Z.of_nat 31) with 248 in E. change (8 * Z.of_nat 1) with 8 in E. pose proof (le_val_range s F) as R. rewrite L in R. change (256 ^ Z.of_nat 32) with (2 ^ 248 * 2 ^ 8) in R.
  rewrite Z.mod_small in E by (split; [apply Z.div_pos; lia|apply Z.div_lt_upper_bound; lia]). lia.
Qed.
Lemma top_bit s : is_bytes s -> length s = 32%nat -> (nth 31 s 0 >? 127) = false <-> le_val s < 2 ^ 255.
Proof.
  intros F L. rewrite Z.gtb_ltb, Z.ltb_ge, top_byte by auto. change (2 ^ 255) with (2 ^ 248 * 128). split; intros H.
  - pose proof (Z.div_mod (le_val s) (2 ^ 248) ltac:(lia)). pose proof (Z.mod_pos_bound (le_val s) (2 ^ 248) ltac:(lia)). lia.
  - apply Z.lt_succ_r. apply Z.div_lt_upper_bound; lia.
Qed.
Theorem radix16_ok s : is_bytes s -> length s = 32%nat -> le_val s < 2 ^ 255 -> exists d, sc_radix16 s = Some d /\ length d = 64%nat /\ pval 16 d = le_val s /\
  (forall i, (i < 63)%nat -> -8 <= nth i d 0 < 8) /\ 0 <= nth 63 d 0 <= 8.
Proof.
  intros F L H. unfold sc_radix16. rewrite (proj2 (top_bit s F L) H). cbv zeta. destruct (nibbles s F) as (Ln & Vn & Bn & Nn). set (d0 := concat _) in *. rewrite L in Ln.
  destruct (radix_loop 63 d0 Ln Bn ltac:(lia)) as (Ld & Vd & Bd & Td & _). cbv zeta in *. eexists. split; [reflexivity|]. split; [exact Ld|]. split; [rewrite Vd; exact Vn|]. split; [exact Bd|].
  pose proof (Nn 31%nat) as N31. change (2 * 31 + 1)%nat with 63%nat in N31. rewrite N31 in Td. rewrite top_byte in Td by auto. rewrite Z.div_div in Td by lia. pose proof (le_val_range s F) as R.
  assert (0 <= le_val s / (2 ^ 248 * 16) < 8) by (split; [apply Z.div_pos; lia|apply Z.div_lt_upper_bound; lia]). lia.
Qed.

(** ** Non-adjacent form *)
Lemma naf_bits V digits w pos : 0 <= V < 2 ^ 256 -> (forall i, (i <= 4)%nat -> nth i digits 0 = V / 2 ^ (64 * Z.of_nat i) mod 2 ^ 64) -> (2 <= w <= 8)%nat -> (pos < 256)%nat ->
  Z.land (if Nat.ltb (pos mod 64) (64 - w) then Z.shiftr (nth (pos / 64) digits 0) (Z.of_nat (pos mod 64))
          else Z.lor (Z.shiftr (nth (pos / 64) digits 0) (Z.of_nat (pos mod 64))) (u64 (Z.shiftl (nth (1 + pos / 64) digits 0) (64 - Z.of_nat (pos mod 64))))) (2 ^ Z.of_nat w - 1)
  = (V / 2 ^ Z.of_nat pos) mod 2 ^ Z.of_nat w.
Proof.
  intros HV Hd Hw Hp. rewrite Z.sub_1_r, <- Z.ones_equiv, Z.land_ones by lia. pose proof (Nat.div_mod pos 64 ltac:(lia)) as DM. pose proof (Nat.mod_upper_bound pos 64 ltac:(lia)) as MB.
  assert (Hi : (pos / 64 < 4)%nat) by (apply Nat.div_lt_upper_bound; lia). set (i := (pos / 64)%nat) in *. set (b := (pos mod 64)%nat) in *. rewrite (Hd i) by lia. rewrite (Hd (1 + i)%nat) by lia.
  apply Z.bits_inj'. intros m Hm. destruct (Z.lt_ge_cases m (Z.of_nat w)) as [K|K]; [|rewrite !Z.mod_pow2_bits_high by lia; reflexivity].
  rewrite !Z.mod_pow2_bits_low by lia. rewrite Z.div_pow2_bits by lia. destruct (Nat.ltb_spec b (64 - w)) as [C|C].
  - rewrite Z.shiftr_spec, Z.mod_pow2_bits_low, Z.div_pow2_bits by lia. f_equal. lia.
  - rewrite Z.lor_spec, Z.shiftr_spec by lia. unfold u64. rewrite (Z.mod_pow2_bits_low (Z.shiftl _ _) 64 m) by lia. rewrite Z.shiftl_spec by lia. destruct (Z.lt_ge_cases (m + Z.of_nat b) 64) as [G|G].
    + rewrite Z.mod_pow2_bits_low, Z.div_pow2_bits by lia. rewrite (Z.testbit_neg_r _ (m - (64 - Z.of_nat b))) by lia. rewrite orb_false_r. f_equal. lia.
    + rewrite Z.mod_pow2_bits_high by lia. rewrite orb_false_l. rewrite Z.mod_pow2_bits_low, Z.div_pow2_bits by lia. f_equal. lia.
Qed.
Definition sparse (w : nat) (naf : list Z) : Prop := forall j k, (j < k < j + w)%nat -> nth j naf 0 <> 0 -> nth k naf 0 = 0.
Definition naf_digits (w : nat) (naf : list Z) : Prop := forall j, nth j naf 0 = 0 \/ (Z.odd (nth j naf 0) = true /\ - 2 ^ (Z.of_nat w - 1) < nth j naf 0 < 2 ^ (Z.of_nat w - 1)).
Lemma i8_sub a b : i8 (i8 a - i8 b) = i8 (a - b).
Proof. unfold i8. f_equal. replace ((a + 128) mod 256 - 128 - ((b + 128) mod 256 - 128) + 128) with ((a + 128) mod 256 - (b + 128) mod 256 + 128) by ring. rewrite <- (Z.add_mod_idemp_l _ 128), <- Zminus_mod, Z.add_mod_idemp_l by lia. f_equal. lia. Qed.
Lemma land_1 x : Z.land x 1 = x mod 2.
Proof. change 1 with (Z.ones 1) at 1. rewrite Z.land_ones by lia. reflexivity. Qed.
Lemma half_pow w : (2 <= w <= 8)%nat -> 2 ^ Z.of_nat w = 2 * 2 ^ (Z.of_nat w - 1) /\ 2 ^ (Z.of_nat w - 1) = 2 * 2 ^ (Z.of_nat w - 2) /\ 1 <= 2 ^ (Z.of_nat w - 2) <= 64.
Proof.
  intros H. split; [|split]. - rewrite <- Z.pow_succ_r by lia. f_equal. lia. - rewrite <- Z.pow_succ_r by lia. f_equal. lia.
  - split; [change 1 with (2 ^ 0)|change 64 with (2 ^ 6)]; apply Z.pow_le_mono_r; lia.
Qed.
Ltac nd := repeat match goal with x := _ : Z |- _ => clearbody x end; repeat match goal with H : context [Z.div _ _] |- _ => clear H | H : context [Z.modulo _ _] |- _ => clear H end; lia.
Lemma naf_loop_ok V digits w : 0 <= V < 2 ^ 255 -> (forall i, (i <= 4)%nat -> nth i digits 0 = V / 2 ^ (64 * Z.of_nat i) mod 2 ^ 64) -> (2 <= w <= 8)%nat -> forall fuel pos carry naf,
  (256 <= pos + fuel)%nat -> length naf = 256%nat -> (carry = 0 \/ (carry = 1 /\ (pos <= 255)%nat)) -> (forall k, (pos <= k)%nat -> nth k naf 0 = 0) -> (forall j, nth j naf 0 <> 0 -> (j + w <= pos)%nat) ->
  sparse w naf -> naf_digits w naf -> pval 2 naf + 2 ^ Z.of_nat pos * (V / 2 ^ Z.of_nat pos + carry) = V ->
  let r := naf_loop fuel digits w pos carry naf in length r = 256%nat /\ pval 2 r = V /\ sparse w r /\ naf_digits w r.
Proof.
  intros HV Hd Hw. destruct (half_pow w Hw) as (P1 & P2 & P3). set (h := 2 ^ (Z.of_nat w - 1)) in *. set (q := 2 ^ (Z.of_nat w - 2)) in *.
  assert (END : forall pos carry naf, (256 <= pos)%nat -> (carry = 0 \/ (carry = 1 /\ (pos <= 255)%nat)) -> pval 2 naf + 2 ^ Z.of_nat pos * (V / 2 ^ Z.of_nat pos + carry) = V -> pval 2 naf = V).
  { intros pos carry naf Hp [->|[_ C]] E; [|lia]. rewrite Z.div_small in E by (split; [lia|]; apply Z.lt_le_trans with (2 ^ 255); [lia|apply Z.pow_le_mono_r; lia]). lia. }
  induction fuel as [|fuel IH]; intros pos carry naf Hf Ln Hc Z0 Hj Sp Di E; cbn [naf_loop].
  - split; [exact Ln|]. split; [apply (END pos carry naf); [nd|exact Hc|exact E]|auto].
  - destruct (Nat.ltb_spec pos 256) as [Hp|Hp]; [|split; [exact Ln|]; split; [apply (END pos carry naf); [nd|exact Hc|exact E]|auto]]. cbv zeta.
    rewrite (naf_bits V digits w pos) by (auto; nd). set (X := V / 2 ^ Z.of_nat pos) in *. set (m := X mod 2 ^ Z.of_nat w).
    assert (HX : 0 <= X) by (apply Z.div_pos; [nd|apply Z.pow_pos_nonneg; nd]).
    assert (Hm : 0 <= m < 2 ^ Z.of_nat w) by (apply Z.mod_pos_bound; nd). assert (EX : X = 2 ^ Z.of_nat w * (X / 2 ^ Z.of_nat w) + m) by (apply Z.div_mod; nd).
    assert (Dw : V / 2 ^ Z.of_nat (pos + w) = X / 2 ^ Z.of_nat w) by (rewrite Nat2Z.inj_add, Z.pow_add_r by nd; rewrite <- Z.div_div by (try apply Z.pow_nonzero; try apply Z.pow_pos_nonneg; nd); reflexivity).
    assert (D1 : V / 2 ^ Z.of_nat (pos + 1) = X / 2) by (rewrite Nat2Z.inj_add, Z.pow_add_r by nd; rewrite <- Z.div_div by (try apply Z.pow_nonzero; try apply Z.pow_pos_nonneg; nd); reflexivity).
    assert (Pw : 2 ^ Z.of_nat (pos + w) = 2 ^ Z.of_nat pos * 2 ^ Z.of_nat w) by (rewrite Nat2Z.inj_add, Z.pow_add_r by nd; reflexivity).
    assert (Pq : 2 ^ Z.of_nat (pos + 1) = 2 ^ Z.of_nat pos * 2) by (rewrite Nat2Z.inj_add, Z.pow_add_r by nd; reflexivity).
    assert (PAR : X mod 2 = m mod 2). { rewrite EX, P1, (Z.mul_comm (2 * h)), Z.mul_assoc, (Z.mul_comm _ 2), <- (Z.mul_assoc 2), Z.add_comm, (Z.mul_comm 2), Z_mod_plus_full. reflexivity. }
    assert (TOP : h <= m -> (pos + w <= 255)%nat).
    { intros G. destruct (Nat.le_gt_cases (pos + w) 255) as [Q|Q]; [exact Q|exfalso]. assert (X < h).
      { unfold X. apply Z.div_lt_upper_bound; [apply Z.pow_pos_nonneg; nd|]. unfold h. rewrite <- Z.pow_add_r by nd. apply Z.lt_le_trans with (2 ^ 255); [nd|apply Z.pow_le_mono_r; nd]. }
      assert (m <= X) by (apply Z.mod_le; [exact HX|nd]). nd. }
    assert (Hc01 : carry = 0 \/ carry = 1) by tauto. unfold u64. rewrite (Z.mod_small (carry + m)) by nd. rewrite land_1.
    destruct (Z.eqb_spec ((carry + m) mod 2) 0) as [Ev|Od].
    + apply IH; auto; try nd.
      * destruct Hc as [->|[-> C]]; [auto|]. right. split; [reflexivity|]. destruct (Nat.eq_dec pos 255) as [->|]; [exfalso|nd]. assert (X0 : X = 0) by (apply Z.div_small; split; [nd|apply HV]). unfold m in Ev. rewrite X0 in Ev. rewrite Z.mod_0_l in Ev by nd. discriminate Ev.
      * intros k Hk. apply Z0. nd.
      * intros j Hj0. specialize (Hj j Hj0). nd.
      * rewrite D1, Pq. transitivity (pval 2 naf + 2 ^ Z.of_nat pos * (X + carry)); [|exact E]. rewrite <- Z.mul_assoc. f_equal. f_equal.
        assert (M2 : (carry + X) mod 2 = 0) by (rewrite <- Z.add_mod_idemp_r, PAR, Z.add_mod_idemp_r by nd; exact Ev).
        pose proof (Z.div_mod X 2 ltac:(lia)) as DX. pose proof (Z.mod_pos_bound X 2 ltac:(lia)) as BX. pose proof (Z.div_mod (carry + X) 2 ltac:(lia)) as DC. clear - DX BX DC M2 Hc01; clearbody X; destruct Hc01 as [C0|C0]; rewrite C0 in *; lia.
    + assert (W1 : (carry + m) mod 2 = 1) by (pose proof (Z.mod_pos_bound (carry + m) 2 ltac:(lia)) as MB; clear - MB Od; lia).
      assert (OD : Z.odd (carry + m) = true) by (rewrite Zmod_odd in W1; destruct (Z.odd (carry + m)); [reflexivity|discriminate W1]).
      assert (STEP : forall d c', d = carry + m - c' * 2 ^ Z.of_nat w -> - h < d < h -> (c' = 0 \/ (c' = 1 /\ (pos + w <= 255)%nat)) ->
        let r := naf_loop fuel digits w (pos + w) c' (upd pos d naf) in length r = 256%nat /\ pval 2 r = V /\ sparse w r /\ naf_digits w r).
      { intros d c' Ed Bd Hc'. assert (ODd : Z.odd d = true). { rewrite Ed, Z.odd_sub, OD, P1, Z.mul_comm, <- Z.mul_assoc, Z.odd_mul. reflexivity. }
        apply IH; auto; try nd.
        - rewrite upd_length; nd.
        - intros k Hk. rewrite upd_nth by nd. destruct (Nat.eqb_spec k pos); [nd|apply Z0; nd].
        - intros j. rewrite upd_nth by nd. destruct (Nat.eqb_spec j pos) as [->|]; [nd|]. intros G. specialize (Hj j G). nd.
        - intros j k Hjk. rewrite !upd_nth by nd. destruct (Nat.eqb_spec j pos) as [->|]; [destruct (Nat.eqb_spec k pos); [nd|intros _; apply Z0; nd]|]. destruct (Nat.eqb_spec k pos) as [->|]; [intros G; specialize (Hj j G); nd|apply Sp; exact Hjk].
        - intros j. rewrite upd_nth by nd. destruct (Nat.eqb_spec j pos); [right; split; [exact ODd|exact Bd]|apply Di].
        - rewrite pval_upd by nd. rewrite (Z0 pos) by nd. rewrite Dw, Pw. transitivity (pval 2 naf + 2 ^ Z.of_nat pos * ((2 ^ Z.of_nat w * (X / 2 ^ Z.of_nat w) + m) + carry)); [rewrite Ed; ring|rewrite <- EX; exact E]. }
      replace (2 ^ Z.of_nat w / 2) with h by (rewrite P1, Z.mul_comm, Z.div_mul by nd; reflexivity). destruct (Z.ltb_spec (carry + m) h) as [G|G].
      * rewrite i8_ok by nd. apply STEP; [nd|nd|auto].
      * rewrite i8_sub. assert (NE : carry + m <> h) by (intros C; rewrite C, P2 in OD; rewrite Z.odd_mul in OD; discriminate OD).
        assert (LT : carry + m < 2 ^ Z.of_nat w) by (assert (carry + m <> 2 ^ Z.of_nat w) by (intros C; rewrite C, P1, Z.odd_mul in OD; discriminate OD); nd).
        rewrite i8_ok by nd. apply STEP; [nd|nd|]. right. split; [reflexivity|]. apply TOP. nd.
Qed.
Theorem naf_ok s w : is_bytes s -> length s = 32%nat -> le_val s < 2 ^ 255 -> (2 <= w <= 8)%nat -> exists naf, sc_naf s w = Some naf /\ length naf = 256%nat /\ pval 2 naf = le_val s /\ sparse w naf /\ naf_digits w naf.
Proof.
  intros F L H Hw. unfold sc_naf. rewrite (proj2 (top_bit s F L) H). destruct (Nat.ltb_spec w 2); [lia|]. destruct (Nat.ltb_spec 8 w); [lia|]. eexists. split; [reflexivity|].
  assert (Zr : forall k, nth k (repeat 0 256) 0 = 0) by (intros k; apply nth_repeat). pose proof (le_val_range s F) as R. rewrite L in R.
  apply (naf_loop_ok (le_val s)); [lia| |exact Hw|lia|apply repeat_length|left; reflexivity|intros k _; apply Zr|intros j G; rewrite Zr in G; lia|intros j k _ _; apply Zr|intros j; left; apply Zr|].
  - intros i Hi. destruct (Nat.eq_dec i 4) as [->|].
    + rewrite app_nth2 by (rewrite map_length, seq_length; lia). rewrite map_length, seq_length. change (nth (4 - 4) [0] 0) with 0. change (64 * Z.of_nat 4) with 256. rewrite Z.div_small by exact R. reflexivity.
    + rewrite app_nth1 by (rewrite map_length, seq_length; lia). rewrite nth_map_seq by lia. unfold le64. rewrite le_slice by (auto; lia). change (8 * Z.of_nat 8) with 64. f_equal. f_equal. f_equal. lia.
  - rewrite pval_zero by exact Zr. change (2 ^ Z.of_nat 0) with 1. rewrite Z.div_1_r. lia.
Qed.

(** ** isReduced and clamping *)
Lemma reduced_from_ok : forall n s t, is_bytes s -> is_bytes t -> length s = n -> length t = n ->
  (fix r k := match k with O => true | S i => if nth i s 0 >? nth i t 0 then false else if nth i s 0 <? nth i t 0 then true else r i end) n = (le_val s <=? le_val t).
Proof.
  induction n as [|n IH]; intros s t Fs Ft Ls Lt; [destruct s, t; cbn [length] in *; try lia; reflexivity|].
  assert (DEC : forall x, is_bytes x -> length x = S n -> x = firstn n x ++ [nth n x 0] /\ is_bytes (firstn n x) /\ length (firstn n x) = n).
  { intros x F L. assert (Lf : length (firstn n x) = n) by (rewrite firstn_length; lia). split; [|split; [|exact Lf]].
    - rewrite <- (firstn_skipn n x) at 1. f_equal. pose proof (nth_skipn_ n x 0) as N. rewrite Nat.add_0_r in N. assert (LS : length (skipn n x) = 1%nat) by (rewrite skipn_length; lia). destruct (skipn n x) as [|a [|b r]]; cbn [length] in LS; try lia. cbn in N. rewrite <- N. reflexivity.
    - unfold is_bytes in *. rewrite <- (firstn_skipn n x) in F. apply Forall_app in F. tauto. }
  destruct (DEC s Fs Ls) as (Es & Fs' & Ls'). destruct (DEC t Ft Lt) as (Et & Ft' & Lt'). specialize (IH _ _ Fs' Ft' Ls' Lt').
  assert (Vs : le_val s = le_val (firstn n s) + 256 ^ Z.of_nat n * nth n s 0) by (rewrite Es at 1; rewrite le_val_app, Ls'; cbn [le_val]; ring).
  assert (Vt : le_val t = le_val (firstn n t) + 256 ^ Z.of_nat n * nth n t 0) by (rewrite Et at 1; rewrite le_val_app, Lt'; cbn [le_val]; ring).
  pose proof (le_val_range _ Fs') as Rs. pose proof (le_val_range _ Ft') as Rt. rewrite Ls' in Rs. rewrite Lt' in Rt.
  rewrite Z.gtb_ltb. destruct (Z.ltb_spec (nth n t 0) (nth n s 0)) as [G|G]; [symmetry; apply Z.leb_gt; rewrite Vs, Vt; nia|]. destruct (Z.ltb_spec (nth n s 0) (nth n t 0)) as [G2|G2]; [symmetry; apply Z.leb_le; rewrite Vs, Vt; nia|].
  assert (EQ : nth n s 0 = nth n t 0) by lia. transitivity (le_val (firstn n s) <=? le_val (firstn n t)); [|rewrite Vs, Vt, EQ; destruct (Z.leb_spec (le_val (firstn n s)) (le_val (firstn n t))), (Z.leb_spec (le_val (firstn n s) + 256 ^ Z.of_nat n * nth n t 0) (le_val (firstn n t) + 256 ^ Z.of_nat n * nth n t 0)); auto; lia].
  rewrite <- IH. assert (NF : forall x i, (i < n)%nat -> nth i (firstn n x) 0 = nth i x 0) by (intros x i Hi; apply nth_firstn'; exact Hi).
  assert (GEN : forall k, (k <= n)%nat -> (fix r k := match k with O => true | S i => if nth i s 0 >? nth i t 0 then false else if nth i s 0 <? nth i t 0 then true else r i end) k = (fix r k := match k with O => true | S i => if nth i (firstn n s) 0 >? nth i (firstn n t) 0 then false else if nth i (firstn n s) 0 <? nth i (firstn n t) 0 then true else r i end) k).
  { induction k as [|k IHk]; intros Hk; [reflexivity|]. rewrite !NF by lia. rewrite IHk by lia. reflexivity. }
  apply GEN. lia.
Qed.
Lemma minus_one_val : le_val scMinusOne = Lq - 1. Proof. vm_compute. reflexivity. Qed.
Lemma minus_one_bytes : is_bytes scMinusOne. Proof. unfold is_bytes, scMinusOne. repeat (apply Forall_cons; [lia|]). apply Forall_nil. Qed.
Lemma isReduced_ok s : is_bytes s -> length s = 32%nat -> isReduced s = (le_val s <? Lq).
Proof.
  intros F L. unfold isReduced. rewrite L. transitivity (le_val s <=? le_val scMinusOne); [|rewrite minus_one_val; destruct (Z.leb_spec (le_val s) (Lq - 1)), (Z.ltb_spec (le_val s) Lq); auto; lia].
  rewrite <- (reduced_from_ok 32 s scMinusOne F minus_one_bytes L eq_refl). unfold reduced_from. reflexivity.
Qed.
Lemma le_val_upd i x s : (i < length s)%nat -> le_val (upd i x s) = le_val s + (x - nth i s 0) * 256 ^ Z.of_nat i.
Proof. intros H. assert (E : forall l, le_val l = pval 256 l) by (induction l as [|a l IH]; cbn [le_val pval]; congruence). rewrite !E. apply pval_upd, H. Qed.
Lemma upd_bytes i x s : is_bytes s -> 0 <= x < 256 -> (i < length s)%nat -> is_bytes (upd i x s).
Proof.
  intros F Hx Hi. unfold is_bytes, upd in *. apply Forall_app. rewrite <- (firstn_skipn i s) in F. apply Forall_app in F as [F1 F2]. split; [exact F1|]. constructor; [exact Hx|]. rewrite skipn_S_tl. destruct (skipn i s); [constructor|]. inversion F2; assumption.
Qed.
(** RFC 8032, 5.1.5: clear bits 0, 1, 2 and 255, set bit 254 *)
Definition clamp (n : Z) : Z := n mod 2 ^ 254 - n mod 8 + 2 ^ 254.
Lemma land_lowbits a k : 0 <= k -> forall b, 0 <= b < 2 ^ k -> Z.land (a * 2 ^ k + b) (2 ^ k - 1) = b.
Proof. intros Hk b Hb. rewrite Z.sub_1_r, <- Z.ones_equiv, Z.land_ones by lia. rewrite Z.add_comm, Z_mod_plus_full, Z.mod_small by lia. reflexivity. Qed.
Theorem clamped_ok x : is_bytes x -> length x = 32%nat -> sc_set_clamped x = Some (le_bytes 32 (clamp (le_val x) mod Lq)).
Proof.
  intros F L. unfold sc_set_clamped. rewrite L. change (negb (Nat.eqb 32 32)) with false. cbv iota zeta. f_equal.
  set (w0 := x ++ repeat 0 32). assert (Lw : length w0 = 64%nat) by (unfold w0; rewrite app_length, repeat_length, L; reflexivity).
  assert (Fw : is_bytes w0) by (unfold w0, is_bytes; apply Forall_app; split; [exact F|]; apply Forall_forall; intros b Hb; apply repeat_spec in Hb; lia).
  assert (N0 : nth 0 w0 0 = nth 0 x 0) by (unfold w0; apply app_nth1; lia). assert (N31 : nth 31 w0 0 = nth 31 x 0) by (unfold w0; apply app_nth1; lia).
  pose proof (nth_byte x 0 F) as B0. pose proof (nth_byte x 31 F) as B31.
  assert (E0 : Z.land (nth 0 x 0) 248 = nth 0 x 0 - nth 0 x 0 mod 8).
  { set (b := nth 0 x 0) in *. assert (T : forall b, 0 <= b < 256 -> (Z.land b 248 =? b - b mod 8) = true). { intros c Hc. assert (A : forallb (fun c => Z.land c 248 =? c - c mod 8) (map Z.of_nat (seq 0 256)) = true) by (vm_compute; reflexivity). rewrite forallb_forall in A. apply A. apply in_map_iff. exists (Z.to_nat c). split; [lia|]. apply in_seq. lia. } apply Z.eqb_eq, T. exact B0. }
  assert (E1 : Z.lor (Z.land (nth 31 x 0) 63) 64 = nth 31 x 0 mod 64 + 64).
  { set (b := nth 31 x 0) in *. assert (T : forall b, 0 <= b < 256 -> (Z.lor (Z.land b 63) 64 =? b mod 64 + 64) = true). { intros c Hc. assert (A : forallb (fun c => Z.lor (Z.land c 63) 64 =? c mod 64 + 64) (map Z.of_nat (seq 0 256)) = true) by (vm_compute; reflexivity). rewrite forallb_forall in A. apply A. apply in_map_iff. exists (Z.to_nat c). split; [lia|]. apply in_seq. lia. } apply Z.eqb_eq, T. exact B31. }
  set (w1 := upd 0 (Z.land (nth 0 w0 0) 248) w0). assert (L1 : length w1 = 64%nat) by (unfold w1; rewrite upd_length; lia).
  assert (M31 : nth 31 w1 0 = nth 31 x 0) by (unfold w1; rewrite upd_nth by lia; exact N31). rewrite M31.
  set (w2 := upd 31 (Z.land (nth 31 x 0) 63) w1). assert (L2 : length w2 = 64%nat) by (unfold w2; rewrite upd_length; lia).
  assert (M2 : nth 31 w2 0 = Z.land (nth 31 x 0) 63) by (unfold w2; rewrite upd_nth by lia; reflexivity). rewrite M2, E1.
  pose proof (Z.mod_pos_bound (nth 0 x 0) 8 ltac:(lia)) as Q8. pose proof (Z.mod_le (nth 0 x 0) 8 ltac:(lia) ltac:(lia)) as Q8'. pose proof (Z.mod_pos_bound (nth 31 x 0) 64 ltac:(lia)) as Q64.
  assert (L63 : 0 <= Z.land (nth 31 x 0) 63 < 256) by (change 63 with (Z.ones 6); rewrite Z.land_ones by lia; pose proof (Z.mod_pos_bound (nth 31 x 0) (2 ^ 6) ltac:(lia)); lia).
  assert (F1 : is_bytes w1) by (unfold w1; apply upd_bytes; [exact Fw|rewrite N0, E0; lia|lia]). assert (F2 : is_bytes w2) by (unfold w2; apply upd_bytes; [exact F1|exact L63|lia]).
  rewrite scReduce_ok; [|apply upd_bytes; [exact F2|lia|lia]|rewrite upd_length; lia]. f_equal. f_equal.
  rewrite le_val_upd by lia. rewrite M2. unfold w2. rewrite le_val_upd by lia. rewrite M31. unfold w1. rewrite le_val_upd by lia. rewrite N0, E0. change (256 ^ Z.of_nat 0) with 1. change (256 ^ Z.of_nat 31) with (2 ^ 248).
  assert (V0 : le_val w0 = le_val x). { unfold w0. rewrite le_val_app. assert (le_val (repeat 0 32) = 0) as -> by reflexivity. lia. } rewrite V0. unfold clamp.
  assert (Q1 : le_val x mod 8 = nth 0 x 0 mod 8). { destruct x as [|b y]; [cbn [length] in L; lia|]. cbn [le_val nth]. replace (b + 256 * le_val y) with (b + 32 * le_val y * 8) by ring. apply Z_mod_plus_full. }
  rewrite Q1. pose proof (top_byte x F L) as TB. pose proof (le_val_range x F) as R. rewrite L in R. set (V := le_val x) in *. set (t := nth 31 x 0) in *. rewrite TB in *.
  assert (QT : V mod 2 ^ 254 = V mod 2 ^ 248 + 2 ^ 248 * ((V / 2 ^ 248) mod 64)) by (change (2 ^ 254) with (2 ^ 248 * 64); apply Z.rem_mul_r; lia). rewrite QT.
  pose proof (Z.div_mod V (2 ^ 248) ltac:(lia)) as DV. change (2 ^ 254) with (64 * 2 ^ 248). rewrite DV at 1. ring.
Qed.
