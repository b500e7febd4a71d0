(** * Props_Host.v — C66 strings and times, C67 verification-key digests, C68 Poseidon hasher, C69 memory effects of padding *)
From Coq Require Import ZArith List Bool Arith Lia.
From Verif Require Import Field FieldLemmas RlpUtilProofs RlpEnc KeccakModel SliceModel KeccakPadModel GoUtilModel Props_Utils HostModel.
Import ListNotations.
Open Scope Z_scope.
Open Scope circ_scope.

(** ** C66 *)
(** decimal numerals: the value of a string of characters '0'..'9' *)
Definition is_dec (c : Z) : Prop := 48 <= c <= 57.
Definition dec (s : list Z) : Z := fold_left (fun a c => a * 10 + (c - 48)) s 0.
(** a numeral with an optional sign *)
Definition numeral (s : list Z) : Prop := exists sg d, s = sg ++ d /\ (sg = [] \/ sg = [43] \/ sg = [45]) /\ d <> [] /\ Forall is_dec d.

Lemma dec_fold s : forall n, fold_left (fun a c => a * 10 + (c - 48)) s n = n * 10 ^ Z.of_nat (length s) + dec s.
Proof.
  unfold dec. induction s as [|c s IH]; intros n; cbn [fold_left length]; [change (10 ^ Z.of_nat 0) with 1; lia|]. rewrite IH, (IH (0 * 10 + (c - 48))), Nat2Z.inj_succ, Z.pow_succ_r by lia. ring.
Qed.
Lemma dec_bounds s : Forall is_dec s -> 0 <= dec s < 10 ^ Z.of_nat (length s).
Proof.
  induction 1 as [|c s Hc F IH]; [cbn; lia|]. unfold dec. cbn [fold_left length]. rewrite dec_fold, Nat2Z.inj_succ, Z.pow_succ_r by lia. unfold is_dec in Hc. nia.
Qed.
Lemma is_dec_b c : ((48 <=? c) && (c <=? 57))%bool = true <-> is_dec c.
Proof. unfold is_dec. rewrite andb_true_iff, !Z.leb_le. reflexivity. Qed.
Lemma atoi_fast_ok s : forall n, Forall is_dec s -> atoi_fast n s = Some (n * 10 ^ Z.of_nat (length s) + dec s).
Proof.
  intros n F. revert n. induction F as [|c s Hc F IH]; intros n; cbn [atoi_fast]; [f_equal; change (dec []) with 0; change (10 ^ Z.of_nat (length (@nil Z))) with 1; lia|].
  rewrite (proj2 (is_dec_b c) Hc), IH. f_equal. unfold dec at 2. cbn [fold_left]. rewrite dec_fold. cbn [length]. rewrite Nat2Z.inj_succ, Z.pow_succ_r by lia. ring.
Qed.
Lemma atoi_fast_bad s : forall n, ~ Forall is_dec s -> atoi_fast n s = None.
Proof.
  induction s as [|c s IH]; intros n H; [exfalso; apply H; constructor|]. cbn [atoi_fast]. destruct ((48 <=? c) && (c <=? 57))%bool eqn:E; [|reflexivity].
  apply is_dec_b in E. apply IH. intros F. apply H. constructor; auto.
Qed.
Lemma parse_digits_ok s : forall n, 0 <= n -> Forall is_dec s ->
  parse_digits n s = if 2 ^ 64 <=? n * 10 ^ Z.of_nat (length s) + dec s then (if 2 ^ 64 <=? n then match s with [] => Val n | _ => RangeErr end else RangeErr) else Val (n * 10 ^ Z.of_nat (length s) + dec s).
Proof.
  intros n Hn F. revert n Hn. induction F as [|c s Hc F IH]; intros n Hn.
  - cbn [parse_digits length]. change (dec []) with 0. change (10 ^ Z.of_nat 0) with 1. replace (n * 1 + 0) with n by lia. destruct (2 ^ 64 <=? n); reflexivity.
  - cbn [parse_digits]. rewrite (proj2 (is_dec_b c) Hc). assert (E : n * 10 ^ Z.of_nat (length (c :: s)) + dec (c :: s) = (n * 10 + (c - 48)) * 10 ^ Z.of_nat (length s) + dec s).
    { unfold dec at 1. cbn [fold_left length]. rewrite dec_fold, Nat2Z.inj_succ, Z.pow_succ_r by lia. ring. }
    rewrite E. pose proof (dec_bounds s F) as Bs. assert (P1 : 1 <= 10 ^ Z.of_nat (length s)) by (apply Z.lt_pred_le; cbn; apply Z.pow_pos_nonneg; lia). unfold is_dec in Hc.
    destruct (Z.leb_spec ((2 ^ 64 - 1) / 10 + 1) n) as [H1|H1].
    + change ((2 ^ 64 - 1) / 10 + 1) with 1844674407370955162 in H1. rewrite (proj2 (Z.leb_le (2 ^ 64) _)) by (change (2 ^ 64) with 18446744073709551616; nia).
      destruct (2 ^ 64 <=? n); reflexivity.
    + change ((2 ^ 64 - 1) / 10 + 1) with 1844674407370955162 in H1. assert (Hn64 : n < 2 ^ 64) by (change (2 ^ 64) with 18446744073709551616; lia).
      rewrite (proj2 (Z.leb_gt (2 ^ 64) n) Hn64). destruct (Z.leb_spec (2 ^ 64) (n * 10 + (c - 48))) as [H2|H2].
      * rewrite (proj2 (Z.leb_le (2 ^ 64) _)) by nia. reflexivity.
      * rewrite IH by lia. rewrite (proj2 (Z.leb_gt (2 ^ 64) (n * 10 + (c - 48))) H2). destruct (2 ^ 64 <=? (n * 10 + (c - 48)) * 10 ^ Z.of_nat (length s) + dec s); reflexivity.
Qed.
Lemma parse_uint_ok s : s <> [] -> Forall is_dec s -> parse_uint s = if 2 ^ 64 <=? dec s then RangeErr else Val (dec s).
Proof.
  intros Hn F. unfold parse_uint. destruct s as [|c s]; [congruence|]. rewrite (parse_digits_ok (c :: s) 0 ltac:(lia) F). rewrite Z.mul_0_l, Z.add_0_l. reflexivity.
Qed.
(** a bad character among at most 20: a syntax error *)
Lemma parse_digits_bad s : forall n k, ~ Forall is_dec s -> 0 <= n < 10 ^ Z.of_nat k -> (k + length s <= 20)%nat -> parse_digits n s = SyntaxErr.
Proof.
  induction s as [|c s IH]; intros n k H Hn Hk; [exfalso; apply H; constructor|]. cbn [parse_digits]. destruct ((48 <=? c) && (c <=? 57))%bool eqn:E; [|reflexivity].
  pose proof (proj1 (is_dec_b c) E) as Hc. assert (Hs : ~ Forall is_dec s) by (intros F; apply H; constructor; auto).
  assert (Ls : (1 <= length s)%nat) by (destruct s; [exfalso; apply Hs; constructor|cbn; lia]). cbn [length] in Hk.
  assert (B : n < 10 ^ 18). { apply Z.lt_le_trans with (10 ^ Z.of_nat k); [lia|]. apply Z.pow_le_mono_r; lia. }
  change (10 ^ 18) with 1000000000000000000 in B. rewrite (proj2 (Z.leb_gt ((2 ^ 64 - 1) / 10 + 1) n)) by (change ((2 ^ 64 - 1) / 10 + 1) with 1844674407370955162; lia).
  unfold is_dec in Hc. rewrite (proj2 (Z.leb_gt (2 ^ 64) _)) by (change (2 ^ 64) with 18446744073709551616; lia).
  apply (IH _ (S k)); [exact Hs| |lia]. rewrite Nat2Z.inj_succ, Z.pow_succ_r by lia. nia.
Qed.

Lemma atoi_pos s : s <> [] -> Forall is_dec s -> atoi s = Z.min (dec s) (2 ^ 63 - 1).
Proof.
  intros Hn F. pose proof (dec_bounds s F) as B. destruct s as [|c s]; [congruence|]. pose proof (Forall_inv F) as Hc. unfold is_dec in Hc.
  unfold atoi. rewrite (proj2 (Nat.ltb_lt 0 _)) by (cbn; lia). cbn [andb].
  assert (E1 : (c =? 45) = false) by (apply Z.eqb_neq; lia). assert (E2 : (c =? 43) = false) by (apply Z.eqb_neq; lia).
  destruct (Nat.ltb_spec (length (c :: s)) 19) as [L|L].
  - rewrite E1, E2. cbn [orb]. rewrite (atoi_fast_ok (c :: s) 0 F). rewrite Z.mul_0_l, Z.add_0_l. symmetry. apply Z.min_l.
    assert (10 ^ Z.of_nat (length (c :: s)) <= 10 ^ 18) by (apply Z.pow_le_mono_r; lia). change (2 ^ 63 - 1) with 9223372036854775807. change (10 ^ 18) with 1000000000000000000 in *. lia.
  - unfold parse_int. rewrite E1, E2. cbn [orb]. rewrite (parse_uint_ok (c :: s)) by (auto; discriminate). destruct (Z.leb_spec (2 ^ 64) (dec (c :: s))) as [H|H].
    + change (2 ^ 63 <=? 2 ^ 64 - 1) with true. cbv iota. symmetry. apply Z.min_r. change (2 ^ 63) with 9223372036854775808. change (2 ^ 64) with 18446744073709551616 in H. lia.
    + destruct (Z.leb_spec (2 ^ 63) (dec (c :: s))); [symmetry; apply Z.min_r; lia|symmetry; apply Z.min_l; lia].
Qed.
Lemma atoi_signed sg s : sg = 43 \/ sg = 45 -> s <> [] -> Forall is_dec s -> atoi (sg :: s) = if sg =? 45 then - Z.min (dec s) (2 ^ 63) else Z.min (dec s) (2 ^ 63 - 1).
Proof.
  intros Hsg Hn F. pose proof (dec_bounds s F) as B. unfold atoi. rewrite (proj2 (Nat.ltb_lt 0 _)) by (cbn; lia). cbn [andb].
  assert (E : ((sg =? 43) || (sg =? 45))%bool = true) by (destruct Hsg; subst; reflexivity).
  destruct (Nat.ltb_spec (length (sg :: s)) 19) as [L|L].
  - rewrite E. destruct s as [|c s]; [congruence|]. rewrite (atoi_fast_ok (c :: s) 0 F). rewrite Z.mul_0_l, Z.add_0_l.
    assert (10 ^ Z.of_nat (length (c :: s)) <= 10 ^ 18) by (cbn [length] in L; apply Z.pow_le_mono_r; [lia|cbn [length]; lia]). change (2 ^ 63) with 9223372036854775808. change (10 ^ 18) with 1000000000000000000 in *.
    rewrite !Z.min_l by lia. reflexivity.
  - unfold parse_int. rewrite E. rewrite (parse_uint_ok s Hn F). destruct (Z.leb_spec (2 ^ 64) (dec s)) as [H|H].
    + change (2 ^ 63 <? 2 ^ 64 - 1) with true. change (2 ^ 63 <=? 2 ^ 64 - 1) with true. cbv iota. change (2 ^ 63) with 9223372036854775808. change (2 ^ 64) with 18446744073709551616 in H.
      rewrite !Z.min_r by lia. reflexivity.
    + destruct (sg =? 45).
      * destruct (Z.ltb_spec (2 ^ 63) (dec s)); [rewrite Z.min_r by lia|rewrite Z.min_l by lia]; reflexivity.
      * destruct (Z.leb_spec (2 ^ 63) (dec s)); [rewrite Z.min_r by lia|rewrite Z.min_l by lia]; reflexivity.
Qed.
(** Str2Uint64 of a decimal numeral: its value, but everything from 2^63-1 upwards collapses to 2^63-1. *)
Theorem C66_str2uint64 : forall s, s <> [] -> Forall is_dec s -> str2uint64 s = Z.min (dec s) (2 ^ 63 - 1) /\ str2uint64 (43 :: s) = Z.min (dec s) (2 ^ 63 - 1).
Proof.
  intros s Hn F. pose proof (dec_bounds s F) as B. unfold str2uint64, str2int, u64. rewrite atoi_pos by auto. rewrite atoi_signed by auto. change (43 =? 45) with false. cbv iota.
  assert (0 <= Z.min (dec s) (2 ^ 63 - 1) < 2 ^ 64) by (change (2 ^ 63) with 9223372036854775808; change (2 ^ 64) with 18446744073709551616; lia).
  rewrite Z.mod_small by lia. auto.
Qed.
Theorem C66_str2uint64_negative : forall s, s <> [] -> Forall is_dec s -> str2uint64 (45 :: s) = (- Z.min (dec s) (2 ^ 63)) mod 2 ^ 64.
Proof. intros s Hn F. unfold str2uint64, str2int, u64. rewrite atoi_signed by auto. reflexivity. Qed.
(** Str2Int is exact on the int64 range. *)
Theorem C66_str2int : forall s, s <> [] -> Forall is_dec s -> (dec s < 2 ^ 63 -> str2int s = dec s) /\ (dec s <= 2 ^ 63 -> str2int (45 :: s) = - dec s).
Proof.
  intros s Hn F. unfold str2int. rewrite atoi_pos, atoi_signed by auto. change (45 =? 45) with true. cbv iota. split; intros H; [rewrite Z.min_l by lia|rewrite Z.min_l by lia]; reflexivity.
Qed.
(** Anything else of at most 20 characters after the sign reads 0, indistinguishable from "0". *)
Theorem C66_str2int_malformed : forall s, ~ numeral s -> (length s <= 20)%nat -> str2int s = 0.
Proof.
  intros s Hnum L. unfold str2int, atoi. destruct (Nat.ltb 0 (length s) && Nat.ltb (length s) 19)%bool.
  - destruct s as [|c r]; [reflexivity|]. destruct ((c =? 43) || (c =? 45))%bool eqn:E.
    + destruct r as [|d r]; [reflexivity|]. rewrite atoi_fast_bad; [reflexivity|]. intros F. apply Hnum. exists [c], (d :: r).
      split; [reflexivity|]. split; [apply orb_true_iff in E; rewrite !Z.eqb_eq in E; destruct E; subst; auto|]. split; [discriminate|exact F].
    + rewrite atoi_fast_bad; [reflexivity|]. intros F. apply Hnum. exists [], (c :: r). split; [reflexivity|]. split; [auto|]. split; [discriminate|exact F].
  - unfold parse_int. destruct s as [|c r]; [reflexivity|]. cbn [length] in L. destruct ((c =? 43) || (c =? 45))%bool eqn:E.
    + assert (Q : parse_uint r = SyntaxErr).
      { unfold parse_uint. destruct r as [|d r]; [reflexivity|]. apply (parse_digits_bad _ 0 0%nat); [|cbn; lia|cbn [length] in *; lia]. intros F. apply Hnum. exists [c], (d :: r).
        split; [reflexivity|]. split; [apply orb_true_iff in E; rewrite !Z.eqb_eq in E; destruct E; subst; auto|]. split; [discriminate|exact F]. }
      rewrite Q. reflexivity.
    + assert (Q : parse_uint (c :: r) = SyntaxErr).
      { unfold parse_uint. apply (parse_digits_bad _ 0 0%nat); [|cbn; lia|cbn [length] in *; lia]. intros F. apply Hnum. exists [], (c :: r).
        split; [reflexivity|]. split; [auto|]. split; [discriminate|exact F]. }
      rewrite Q. reflexivity.
Qed.
(** "18446744073709551615", the largest uint64, is not read back; "-1" reads as the largest uint64; and a long malformed
    string ("99999999999999999999x") is not 0. *)
Theorem C66_str2uint64_refuted : 
  (exists s, Forall is_dec s /\ dec s = 2 ^ 64 - 1 /\ str2uint64 s = 2 ^ 63 - 1) /\ str2uint64 [45; 49] = 2 ^ 64 - 1 /\
  (exists s, ~ numeral s /\ str2uint64 s = 2 ^ 63 - 1).
Proof.
  split; [exists [49; 56; 52; 52; 54; 55; 52; 52; 48; 55; 51; 55; 48; 57; 53; 53; 49; 54; 49; 53]|].
  - split; [apply Forall_forall; intros c Hc; apply is_dec_b; revert c Hc; apply forallb_forall; vm_compute; reflexivity|]. split; vm_compute; reflexivity.
  - split; [vm_compute; reflexivity|]. exists (repeat 57 20 ++ [120]). split; [|vm_compute; reflexivity].
    intros (sg & d & E & Hsg & _ & F). assert (In 120 d).
    { destruct Hsg as [Q|[Q|Q]]; subst sg; cbn [app] in E; [rewrite <- E; vm_compute; tauto|discriminate E|discriminate E]. }
    rewrite Forall_forall in F. specialize (F 120 H). unfold is_dec in F. lia.
Qed.
Example C66_str2uint64_case : str2uint64 [49; 50; 51] = 123 /\ str2int [45; 52; 50] = -42 /\ str2int [120] = 0.
Proof. repeat split; vm_compute; reflexivity. Qed.

(** Times: exact milliseconds and exact inverse in the range where the product fits in 64 bits. *)
Theorem C66_ts_milli : forall t, 0 <= t < 2 ^ 63 -> ts_milli t = t / 1000000.
Proof.
  intros t Ht. unfold ts_milli, u64, i64. assert (E : 2 ^ 64 = 2 ^ 63 + 2 ^ 63) by reflexivity. rewrite (Z.mod_small (t + 2 ^ 63)) by lia.
  replace (t + 2 ^ 63 - 2 ^ 63) with t by lia. rewrite Z.mod_small by lia. reflexivity.
Qed.
Theorem C66_ts_milli_to_time : forall ts, 0 <= ts < 2 ^ 64 -> (ts_milli_to_time ts = ts * 1000000 <-> ts * 1000000 < 2 ^ 63).
Proof.
  intros ts Hts. unfold ts_milli_to_time, u64, i64. assert (E : 2 ^ 64 = 2 ^ 63 + 2 ^ 63) by reflexivity.
  set (x := ts * 1000000) in *. assert (0 <= x) by (unfold x; lia). pose proof (Z.mod_pos_bound (x mod 2 ^ 64 + 2 ^ 63) (2 ^ 64) ltac:(lia)). split; intros Q; [lia|].
  rewrite (Z.mod_small x) by lia. rewrite Z.mod_small by lia. lia.
Qed.
Theorem C66_ts_round_trip : forall ts, 0 <= ts -> (ts_milli (ts_milli_to_time ts) = ts <-> ts * 1000000 < 2 ^ 64).
Proof.
  intros ts Hts. unfold ts_milli, ts_milli_to_time, u64. assert (E : 2 ^ 64 = 2 ^ 63 + 2 ^ 63) by reflexivity. set (x := ts * 1000000 mod 2 ^ 64).
  pose proof (Z.mod_pos_bound (ts * 1000000) (2 ^ 64) ltac:(lia)) as Hx. fold x in Hx.
  assert (Ei : i64 (i64 x) mod 2 ^ 64 = x).
  { assert (Hi : forall y, i64 y mod 2 ^ 64 = y mod 2 ^ 64).
    { intros y. unfold i64. rewrite <- Zminus_mod_idemp_l, Z.mod_mod, Zminus_mod_idemp_l by lia. f_equal. lia. }
    rewrite !Hi. apply Z.mod_small. exact Hx. }
  rewrite Ei. unfold x. split; intros Q.
  - rewrite <- Q. pose proof (Z.mul_div_le (ts * 1000000 mod 2 ^ 64) 1000000 ltac:(lia)). fold x in H |- *. lia.
  - rewrite Z.mod_small by lia. apply Z.div_mul. lia.
Qed.
Theorem C66_ts_sec_to_time : forall ts, 0 <= ts < 2 ^ 63 -> ts_sec_to_time ts = ts * 1000000000.
Proof.
  intros ts Hts. unfold ts_sec_to_time, i64. assert (E : 2 ^ 64 = 2 ^ 63 + 2 ^ 63) by reflexivity. rewrite Z.mod_small by lia. f_equal. lia.
Qed.
(** Times before 1970 are read as far in the future. *)
Theorem C66_ts_milli_refuted : forall t, - 2 ^ 63 <= t < 0 -> ts_milli t >= 2 ^ 63 / 1000000.
Proof.
  intros t Ht. unfold ts_milli, u64, i64. assert (E : 2 ^ 64 = 2 ^ 63 + 2 ^ 63) by reflexivity. rewrite (Z.mod_small (t + 2 ^ 63)) by lia.
  replace (t + 2 ^ 63 - 2 ^ 63) with t by lia. apply Z.le_ge. apply Z.div_le_mono; [lia|].
  replace t with (t + 2 ^ 64 + (-1) * 2 ^ 64) by lia. rewrite Z.mod_add, Z.mod_small by lia. lia.
Qed.

(** ** C67 *)
(** ranges: canonical field elements and 64-bit numbers fit in 48 bytes; Kzg.G2 is a 2-element array, S a 3-element array *)
Definition word48 (x : Z) : Prop := 0 <= x < 256 ^ 48.
Definition vk_ok (v : plonk_vk) : Prop := Forall word48 (vk_words v) /\ length (vk_kzg_g2 v) = 2%nat /\ length (vk_s v) = 3%nat.

Lemma fill48_ok x : word48 x -> exists b, fill48 x = Some b /\ length b = 48%nat /\ be_value b = x.
Proof.
  intros Hx. unfold fill48. rewrite (proj2 (Z.ltb_lt _ _)) by apply Hx. cbn [guard obind]. eexists. split; [reflexivity|]. pose proof (be_bytes_length x 48 Hx) as L.
  split; [rewrite app_length, repeat_length; lia|]. rewrite be_value_app, be_bytes_value by apply Hx.
  assert (Z0 : forall m, be_value (repeat 0 m) = 0) by (induction m as [|m IH]; [reflexivity|]; cbn [repeat]; unfold be_value in *; cbn [fold_left]; exact IH).
  rewrite Z0. reflexivity.
Qed.
Lemma fill48_all ws : Forall word48 ws -> exists bs, omap fill48 ws = Some bs /\ Forall (fun b => length b = 48%nat) bs /\ map be_value bs = ws.
Proof.
  induction 1 as [|w ws Hw F (bs & E & L & V)]; [exists []; cbn; auto|]. destruct (fill48_ok w Hw) as (b & Eb & Lb & Vb).
  exists (b :: bs). cbn [omap map]. rewrite Eb, E. cbn [obind]. rewrite Vb, V. auto.
Qed.
Lemma concat48_inj a b : Forall (fun x : list Z => length x = 48%nat) a -> Forall (fun x : list Z => length x = 48%nat) b -> concat a = concat b -> a = b.
Proof.
  intros Fa. revert b. induction Fa as [|x a Hx Fa IH]; intros b Fb E.
  - destruct Fb as [|y b Hy Fb]; [reflexivity|]. cbn [concat] in E. apply (f_equal (@length Z)) in E. rewrite app_length in E. cbn [length] in E. lia.
  - destruct Fb as [|y b Hy Fb].
    + cbn [concat] in E. apply (f_equal (@length Z)) in E. rewrite app_length in E. cbn [length] in E. lia.
    + cbn [concat] in E. assert (Exy : x = y).
      { apply (f_equal (firstn 48)) in E. rewrite !firstn_app, Hx, Hy in E. rewrite (firstn_all2 x), (firstn_all2 y) in E by lia. cbn [Nat.sub] in E. rewrite !firstn_O, !app_nil_r in E. exact E. }
      subst y. apply app_inv_head in E. f_equal. apply IH; auto.
Qed.
(** The digest's input exists and is made of whole 48-byte blocks. *)
Theorem C67_preimage_total : forall v, vk_ok v -> exists b, vk_preimage v = Some b /\ length b = (48 * (27 + length (vk_coset v)))%nat.
Proof.
  intros v (F & L2 & L3). destruct (fill48_all _ F) as (bs & E & L & V). unfold vk_preimage. rewrite E. cbn [obind]. eexists. split; [reflexivity|].
  assert (Lb : length (concat bs) = (48 * length bs)%nat) by (clear - L; induction L as [|x l Hx L IH]; [reflexivity|]; cbn [concat length]; rewrite app_length, IH, Hx; lia).
  rewrite Lb. f_equal. rewrite <- (map_length be_value), V. unfold vk_words. rewrite !app_length.
  destruct (vk_kzg_g2 v) as [|a [|b [|? ?]]]; try discriminate L2. destruct (vk_s v) as [|s0 [|s1 [|s2 [|? ?]]]]; try discriminate L3. cbn [length flat_map app g1_words g2_words]. lia.
Qed.
(** Two keys with the same digest input agree on everything it covers. *)
Theorem C67_preimage_injective : forall v w b, vk_ok v -> vk_ok w -> vk_preimage v = Some b -> vk_preimage w = Some b ->
  vk_nb_public v = vk_nb_public w /\ vk_coset v = vk_coset w /\ vk_kzg_g1 v = vk_kzg_g1 w /\ vk_kzg_g2 v = vk_kzg_g2 w /\ vk_s v = vk_s w /\
  vk_ql v = vk_ql w /\ vk_qr v = vk_qr w /\ vk_qm v = vk_qm w /\ vk_qo v = vk_qo w /\ vk_qk v = vk_qk w.
Proof.
  intros v w b (Fv & Lv2 & Lv3) (Fw & Lw2 & Lw3) Ev Ew. destruct (fill48_all _ Fv) as (bv & E1 & L1 & V1). destruct (fill48_all _ Fw) as (bw & E2 & L2 & V2).
  unfold vk_preimage in *. rewrite E1 in Ev. rewrite E2 in Ew. cbn [obind] in *.
  assert (Ec : concat bv = concat bw) by congruence. apply concat48_inj in Ec; auto. assert (W : vk_words v = vk_words w) by (rewrite <- V1, <- V2, Ec; reflexivity).
  clear - W Lv2 Lv3 Lw2 Lw3.
  destruct (vk_kzg_g2 v) as [|g0 [|g1 [|? ?]]] eqn:Gv; try discriminate Lv2. destruct (vk_s v) as [|s0 [|s1 [|s2 [|? ?]]]] eqn:Sv; try discriminate Lv3.
  destruct (vk_kzg_g2 w) as [|h0 [|h1 [|? ?]]] eqn:Gw; try discriminate Lw2. destruct (vk_s w) as [|t0 [|t1 [|t2 [|? ?]]]] eqn:Sw; try discriminate Lw3.
  unfold vk_words in W. rewrite Gv, Sv, Gw, Sw in W. cbn [flat_map app g1_words g2_words] in W.
  injection W as Wn Wt. assert (Lc : length (vk_coset v) = length (vk_coset w)).
  { apply (f_equal (@length Z)) in Wt. rewrite !app_length in Wt. cbn [length flat_map app g1_words g2_words] in Wt. rewrite ?app_length in Wt. cbn [length flat_map app g1_words g2_words] in Wt. lia. }
  assert (Wc : vk_coset v = vk_coset w).
  { apply (f_equal (firstn (length (vk_coset v)))) in Wt. rewrite firstn_app, firstn_all, Nat.sub_diag, firstn_O, app_nil_r in Wt.
    rewrite Lc, firstn_app, firstn_all, Nat.sub_diag, firstn_O, app_nil_r in Wt. exact Wt. }
  rewrite Wc in Wt. apply app_inv_head in Wt.
  destruct (vk_kzg_g1 v), (vk_kzg_g1 w), (vk_ql v), (vk_ql w), (vk_qr v), (vk_qr w), (vk_qm v), (vk_qm w), (vk_qo v), (vk_qo w), (vk_qk v), (vk_qk w), g0, g1, h0, h1, s0, s1, s2, t0, t1, t2.
  cbn in Wt. injection Wt; intros. subst. repeat split; auto.
Qed.
(** The domain size, the generator and the commitment polynomials are not covered: keys that differ only there have the same
    digest. *)
Theorem C67_uncovered_refuted : forall v size inv gen qcp idx, 
  let w := VK (vk_nb_public v) (vk_coset v) (vk_kzg_g1 v) (vk_kzg_g2 v) (vk_s v) (vk_ql v) (vk_qr v) (vk_qm v) (vk_qo v) (vk_qk v) size inv gen qcp idx in
  vk_preimage w = vk_preimage v.
Proof. reflexivity. Qed.
(** The second digest: distinct 48-byte digests give distinct pairs of blocks, each below the BN254 modulus (so MiMC accepts
    them). *)
Lemma pad0_24 l : length l = 24%nat -> mimc_block_pad0 l 32 = repeat 0 8 ++ l.
Proof. intros L. destruct (C27_mimc_pad l 32) as (_ & H & _). rewrite H by lia. rewrite L. reflexivity. Qed.
Theorem C67_app_vk_blocks : forall h, Forall is_byte h -> length h = 48%nat -> exists b0 b1, app_vk_blocks h = Some (b0, b1) /\
  length b0 = 32%nat /\ length b1 = 32%nat /\ be_value b0 = be_value h / 2 ^ 192 /\ be_value b1 = be_value h mod 2 ^ 192 /\ be_value b0 < bn254 /\ be_value b1 < bn254.
Proof.
  intros h F L. unfold app_vk_blocks. rewrite (proj2 (Nat.leb_le _ _)) by lia. cbn [guard obind]. assert (L0 : length (firstn 24 h) = 24%nat) by (rewrite firstn_length; lia).
  assert (L1 : length (skipn 24 h) = 24%nat) by (rewrite skipn_length; lia). rewrite !pad0_24 by auto. exists (repeat 0 8 ++ firstn 24 h), (repeat 0 8 ++ skipn 24 h). split; [reflexivity|].
  split; [rewrite app_length, repeat_length; lia|]. split; [rewrite app_length, repeat_length; lia|].
  rewrite <- (firstn_skipn 24 h) in F. apply Forall_app in F. destruct F as [F0 F1]. pose proof (be_value_range _ F0) as R0. pose proof (be_value_range _ F1) as R1. rewrite L0 in R0. rewrite L1 in R1.
  rewrite <- (firstn_skipn 24 h) at 2 4. rewrite !be_value_app, L0, L1. change (256 ^ Z.of_nat 24) with (2 ^ 192) in *. change (be_value (repeat 0 8)) with 0.
  rewrite !Z.mul_0_l, !Z.add_0_l. rewrite Z.div_add_l, Z.div_small, Z.add_0_r by lia. split; [reflexivity|].
  split; [rewrite Z.add_comm, Z_mod_plus_full, Z.mod_small by lia; reflexivity|].
  assert (2 ^ 192 < bn254) by (vm_compute; reflexivity). lia.
Qed.
Theorem C67_app_vk_blocks_injective : forall a b, length a = 48%nat -> length b = 48%nat -> app_vk_blocks a = app_vk_blocks b -> a = b.
Proof.
  intros a b La Lb E. unfold app_vk_blocks in E. rewrite La, Lb in E. change (Nat.leb 24 48) with true in E. cbn [guard obind] in E.
  rewrite !pad0_24 in E by (rewrite ?firstn_length, ?skipn_length; lia). assert (E9 : forall (x y : list Z * list Z), Some x = Some y -> x = y) by (intros ? ? e; injection e; auto). apply E9 in E. clear E9. pose proof (f_equal fst E) as E0. pose proof (f_equal snd E) as E1. cbn [fst snd] in E0, E1. apply app_inv_head in E0. apply app_inv_head in E1.
  rewrite <- (firstn_skipn 24 a), <- (firstn_skipn 24 b), E0, E1. reflexivity.
Qed.
(** Longer inputs are only warned about, and then bytes are lost. *)
Theorem C67_app_vk_blocks_long_refuted : exists a b, length a = 57%nat /\ length b = 57%nat /\ a <> b /\ app_vk_blocks a = app_vk_blocks b /\ app_vk_blocks a <> None.
Proof.
  exists (repeat 0 24 ++ [1] ++ repeat 0 32), (repeat 0 24 ++ [2] ++ repeat 0 32). split; [reflexivity|]. split; [reflexivity|]. split; [discriminate|]. split; [vm_compute; reflexivity|]. vm_compute. discriminate.
Qed.
Example C67_case : exists v b, vk_ok v /\ vk_preimage v = Some b /\ length b = 1488%nat.
Proof.
  set (g := G1P 3 4). set (h := G2P 1 2 3 4). exists (VK 5 [1; 2; 3; 4] g [h; h] [g; g; g] g g g g g 64 0 0 [] []). eexists. split; [|split; [vm_compute; reflexivity|reflexivity]].
  split; [|split; reflexivity]. apply Forall_forall. intros x Hx. unfold word48. assert (G : ((0 <=? x) && (x <? 100))%bool = true).
  { revert x Hx. apply forallb_forall. vm_compute. reflexivity. }
  apply andb_true_iff in G. rewrite Z.leb_le, Z.ltb_lt in G. split; [lia|]. apply Z.lt_trans with 100; [lia|reflexivity].
Qed.

(** ** C68 *)
(** the pointers written since the last reset, in order; the value a pointer has at the end *)
Fixpoint written (ops : list pop) : list nat :=
  match ops with [] => [] | o :: r => if existsb (fun o => match o with PReset => true | _ => false end) r then written r
    else match o with PWrite a => a :: written r | _ => written r end end.
Fixpoint final (ops : list pop) (h : heap) : heap := match ops with [] => h | PStore a v :: r => final r (hstore h a v) | _ :: r => final r h end.
Lemma prun_gen ops : forall l h, fold_left pstep ops (l, h) = ((if existsb (fun o => match o with PReset => true | _ => false end) ops then written ops else l ++ written ops), final ops h).
Proof.
  induction ops as [|o ops IH]; intros l h; [cbn; rewrite app_nil_r; reflexivity|].
  destruct o as [a| |a v]; cbn [fold_left pstep fst snd existsb written final orb]; rewrite IH; destruct (existsb _ ops); auto.
  rewrite <- app_assoc. reflexivity.
Qed.
(** Sum after any history is the Poseidon digest of the numbers written since the last Reset, as they are at the time of Sum. *)
Theorem C68_sum : forall poseidon h ops, psum poseidon (prun h ops) = poseidon (map (final ops h) (written ops)).
Proof. intros poseidon h ops. unfold psum, prun. rewrite prun_gen. cbn [fst snd app]. destruct (existsb _ ops); reflexivity. Qed.
(** What happened before a Reset does not matter (given the same heap). *)
Theorem C68_reset : forall poseidon h before after, psum poseidon (prun h (before ++ PReset :: after)) = psum poseidon (prun (final before h) after).
Proof.
  intros poseidon h before after. unfold prun. rewrite fold_left_app. rewrite (prun_gen before). reflexivity.
Qed.
(** If the program leaves the numbers alone, Sum is the digest of the values written. *)
Theorem C68_sum_unchanged : forall poseidon h ops, (forall a v, In (PStore a v) ops -> ~ In a (written ops)) -> psum poseidon (prun h ops) = poseidon (map h (written ops)).
Proof.
  intros poseidon h ops H. rewrite C68_sum. f_equal. apply map_ext_in. intros a Ha. assert (G : forall ops h, (forall b v, In (PStore b v) ops -> b <> a) -> final ops h a = h a).
  { clear. induction ops as [|o ops IH]; intros h H; [reflexivity|]. destruct o as [b| |b v]; cbn [final]; try (apply IH; intros; eapply H; right; eauto).
    rewrite IH by (intros; eapply H; right; eauto). unfold hstore. destruct (Nat.eqb_spec a b) as [E|E]; [|reflexivity]. exfalso. apply (H b v); [left; reflexivity|congruence]. }
  apply G. intros b v Hb E. subst b. exact (H a v Hb Ha).
Qed.
(** A number changed after Write changes the digest: Write does not copy. *)
Theorem C68_copy_refuted : exists h a v, forall poseidon : list Z -> option Z, poseidon [v] <> poseidon [h a] ->
  psum poseidon (prun h [PWrite a; PStore a v]) <> psum poseidon (prun h [PWrite a]).
Proof. exists (fun _ => 1), 0%nat, 2. intros poseidon H. exact H. Qed.
Example C68_case : written [PWrite 1; PReset; PWrite 2; PStore 2 7; PWrite 3; PWrite 2] = [2; 3; 2]%nat.
Proof. reflexivity. Qed.

(** ** C69 *)
(** a slice the program can hold: inside an allocated backing array *)
Definition slice_ok (st : gstate) (s : slice) : Prop :=
  (s_arr s < g_next st)%nat /\ (s_len s <= s_cap s)%nat /\ (s_off s + s_cap s <= length (g_mem st (s_arr s)))%nat.
(** number of padding bytes: up to the next multiple of 136, at least one *)
Definition pad_missing (n : nat) : nat := (136 * (n / 136 + 1) - n)%nat.
Lemma pad_missing_eq n : (if Nat.eqb (n mod 136) 0 then 136 else 136 - n mod 136)%nat = pad_missing n.
Proof. unfold pad_missing. pose proof (Nat.div_mod n 136 ltac:(lia)). pose proof (Nat.mod_upper_bound n 136 ltac:(lia)). destruct (Nat.eqb_spec (n mod 136) 0); lia. Qed.
Lemma pad_missing_pos n : (1 <= pad_missing n)%nat.
Proof. rewrite <- pad_missing_eq. pose proof (Nat.mod_upper_bound n 136 ltac:(lia)). destruct (Nat.eqb (n mod 136) 0); lia. Qed.
Lemma contents_length st s : slice_ok st s -> length (contents (g_mem st) s) = s_len s.
Proof. intros (A & B & C). unfold contents. rewrite firstn_length, skipn_length. lia. Qed.
Lemma nth_contents m s i d : (i < s_len s)%nat -> nth i (contents m s) d = nth (s_off s + i) (m (s_arr s)) d.
Proof. intros H. unfold contents. rewrite nth_firstn' by auto. apply nth_skipn'. Qed.
Lemma go_append_ok grow st s x st' d : slice_ok st s -> go_append grow st s x = (st', d) ->
  slice_ok st' d /\ (g_next st <= g_next st')%nat /\ s_len d = S (s_len s) /\ contents (g_mem st') d = contents (g_mem st) s ++ [x] /\
  ((s_len s < s_cap s)%nat -> s_arr d = s_arr s /\ s_off d = s_off s /\ s_cap d = s_cap s /\ g_next st' = g_next st /\
     (forall b, b <> s_arr s -> g_mem st' b = g_mem st b) /\ length (g_mem st' (s_arr s)) = length (g_mem st (s_arr s)) /\
     (forall i v, i <> (s_off s + s_len s)%nat -> nth i (g_mem st' (s_arr s)) v = nth i (g_mem st (s_arr s)) v)) /\
  ((s_cap s <= s_len s)%nat -> s_arr d = g_next st /\ (forall b, b <> g_next st -> g_mem st' b = g_mem st b)).
Proof.
  intros Ok E. pose proof (contents_length _ _ Ok) as Lc. destruct Ok as (A & B & C). unfold go_append in E. destruct (Nat.ltb_spec (s_len s) (s_cap s)) as [H|H].
  - injection E as E1 E2. subst st' d. unfold slice_ok. cbn [s_arr s_off s_len s_cap g_mem g_next]. unfold mem_upd at 1. rewrite Nat.eqb_refl, upd_length by lia.
    split; [lia|]. split; [lia|]. split; [reflexivity|]. split.
    { apply (nth_ext' _ _ _ 0).
      - rewrite app_length, Lc. cbn [length]. unfold contents. cbn [s_arr s_off s_len s_cap]. unfold mem_upd. rewrite Nat.eqb_refl, firstn_length, skipn_length, upd_length by lia. lia.
      - intros i Hi. assert (Hi' : (i < S (s_len s))%nat).
        { unfold contents in Hi. cbn [s_arr s_off s_len s_cap] in Hi. rewrite firstn_length in Hi. lia. }
        rewrite nth_contents by exact Hi'. cbn [s_arr s_off]. unfold mem_upd. rewrite Nat.eqb_refl, upd_nth by lia. destruct (Nat.eqb_spec (s_off s + i) (s_off s + s_len s)) as [G|G].
        + replace i with (length (contents (g_mem st) s)) by lia. rewrite nth_middle. reflexivity.
        + rewrite app_nth1 by lia. rewrite nth_contents by lia. reflexivity. }
    split; [|lia]. intros _. split; [reflexivity|]. split; [reflexivity|]. split; [reflexivity|]. split; [reflexivity|].
    split; [intros b Hb; unfold mem_upd; destruct (Nat.eqb_spec b (s_arr s)); [congruence|reflexivity]|].
    split; [unfold mem_upd; rewrite Nat.eqb_refl, upd_length by lia; reflexivity|].
    intros i v Hi. unfold mem_upd. rewrite Nat.eqb_refl, upd_nth by lia. destruct (Nat.eqb_spec i (s_off s + s_len s)); [congruence|reflexivity].
  - set (cap := Nat.max (S (s_len s)) (grow (s_len s))) in E. assert (Hcap : (S (s_len s) <= cap)%nat) by lia. clearbody cap. injection E as E1 E2. subst st' d.
    unfold slice_ok. cbn [s_arr s_off s_len s_cap g_mem g_next]. unfold mem_upd at 1. rewrite Nat.eqb_refl, !app_length, Lc. cbn [length app]. rewrite repeat_length.
    split; [lia|]. split; [lia|]. split; [reflexivity|]. split.
    { unfold contents at 1. cbn [s_arr s_off s_len s_cap skipn]. unfold mem_upd. rewrite Nat.eqb_refl. rewrite firstn_app, Lc. rewrite firstn_all2 by lia. replace (S (s_len s) - s_len s)%nat with 1%nat by lia. reflexivity. }
    split; [lia|]. intros _. split; [reflexivity|]. intros b Hb. unfold mem_upd. destruct (Nat.eqb_spec b (g_next st)); [congruence|reflexivity].
Qed.
(** [d] in [st] is what [k] appends made of [s] in [st0] *)
Definition grown (st0 : gstate) (s : slice) (k : nat) (st : gstate) (d : slice) (added : list Z) : Prop :=
  slice_ok st d /\ (g_next st0 <= g_next st)%nat /\ s_len d = (s_len s + k)%nat /\ contents (g_mem st) d = contents (g_mem st0) s ++ added /\
  (forall b, (b < g_next st0)%nat -> b <> s_arr s -> g_mem st b = g_mem st0 b) /\ length (g_mem st (s_arr s)) = length (g_mem st0 (s_arr s)) /\
  (forall i v, (i < s_off s + s_len s)%nat \/ (s_off s + s_cap s <= i)%nat -> nth i (g_mem st (s_arr s)) v = nth i (g_mem st0 (s_arr s)) v) /\
  ((s_len s + k <= s_cap s)%nat -> s_arr d = s_arr s /\ s_off d = s_off s /\ s_cap d = s_cap s /\ g_next st = g_next st0) /\
  ((s_cap s < s_len s + k)%nat -> (g_next st0 <= s_arr d)%nat).
Lemma grown_step grow st0 s k st d added x st' d' : slice_ok st0 s -> grown st0 s k st d added -> go_append grow st d x = (st', d') -> grown st0 s (S k) st' d' (added ++ [x]).
Proof.
  intros (A & B & C) (Ok & N & L & Cn & Fo & Fl & Fi & Hin & Hout) E. destruct (go_append_ok _ _ _ _ _ _ Ok E) as (Ok' & N' & L' & Cn' & In' & Out'). unfold grown.
  split; [exact Ok'|]. split; [lia|]. split; [lia|]. split; [rewrite Cn', Cn, <- app_assoc; reflexivity|].
  destruct Ok as (Oa & Ob & Oc).
  destruct (Nat.lt_ge_cases (s_len d) (s_cap d)) as [H|H].
  - specialize (In' H). clear Out'. destruct In' as (I1 & I2 & I3 & I4 & I5 & I6 & I7).
    destruct (Nat.le_gt_cases (s_len s + k) (s_cap s)) as [G|G].
    + destruct (Hin G) as (H1 & H2 & H3 & H4). rewrite H1 in *. rewrite H2, H3 in *. split; [intros b Hb Hn; rewrite I5 by auto; auto|]. split; [lia|].
      split; [intros i v Hi; rewrite I7 by lia; apply Fi; auto|]. split; [intros; repeat split; congruence|]. lia.
    + specialize (Hout G). assert (Hne : s_arr s <> s_arr d) by lia. split; [intros b Hb Hn; rewrite I5 by lia; auto|]. rewrite I5 by auto. split; [auto|].
      split; [auto|]. split; [lia|]. lia.
  - specialize (Out' H). clear In'. destruct Out' as (O1 & O2). split; [intros b Hb Hn; rewrite O2 by lia; auto|]. rewrite O2 by lia. split; [auto|]. split; [auto|].
    split; [|lia]. intros G. exfalso. destruct (Hin ltac:(lia)) as (_ & _ & H3 & _). lia.
Qed.
Lemma grown_fold grow st0 s js : slice_ok st0 s -> forall k st d added st' d', grown st0 s k st d added ->
  fold_left (fun '(st, d) (_ : nat) => go_append grow st d 0) js (st, d) = (st', d') -> grown st0 s (k + length js) st' d' (added ++ repeat 0 (length js)).
Proof.
  intros Ok. induction js as [|j js IH]; intros k st d added st' d' G E.
  - cbn [fold_left] in E. injection E as E1 E2. subst. cbn [length repeat]. rewrite Nat.add_0_r, app_nil_r. exact G.
  - cbn [fold_left] in E. destruct (go_append grow st d 0) as [st1 d1] eqn:E1. pose proof (grown_step _ _ _ _ _ _ _ _ _ _ Ok G E1) as G1.
    pose proof (IH _ _ _ _ _ _ G1 E) as G2. cbn [length repeat]. replace (k + S (length js))%nat with (S k + length js)%nat by lia. rewrite <- app_assoc in G2. exact G2.
Qed.
Lemma pad101_grown grow st s st' d : slice_ok st s -> pad101_mem grow st s = (st', d) -> exists st2, grown st s (pad_missing (s_len s)) st2 d ([1] ++ repeat 0 (pad_missing (s_len s) - 1)) /\
  st' = go_xor_at st2 d (s_len d - 1) 0x80.
Proof.
  intros Ok E. unfold pad101_mem in E. rewrite pad_missing_eq in E. pose proof (pad_missing_pos (s_len s)) as Mp. set (k := pad_missing (s_len s)) in *. clearbody k.
  destruct (go_append grow st s 1) as [st1 d1] eqn:E1. destruct (fold_left _ (seq 0 (k - 1)) (st1, d1)) as [st2 d2] eqn:E2. injection E as E3 E4. subst d2. exists st2. split; [|auto].
  assert (G0 : grown st s 0 st s []).
  { unfold grown. rewrite app_nil_r. split; [exact Ok|]. split; [lia|]. split; [lia|]. split; [reflexivity|]. split; [auto|]. split; [auto|]. split; [auto|]. split; [auto|].
    destruct Ok as (_ & B & _). lia. }
  pose proof (grown_step _ _ _ _ _ _ _ _ _ _ Ok G0 E1) as G1. pose proof (grown_fold grow st s _ Ok _ _ _ _ _ _ G1 E2) as G2. rewrite seq_length in G2.
  replace (1 + (k - 1))%nat with k in G2 by lia. exact G2.
Qed.
Lemma xor_contents st d v : slice_ok st d -> (1 <= s_len d)%nat ->
  contents (g_mem (go_xor_at st d (s_len d - 1) v)) d = upd (s_len d - 1) (Z.lxor (nth (s_len d - 1) (contents (g_mem st) d) 0) v) (contents (g_mem st) d).
Proof.
  intros Ok H. pose proof (contents_length _ _ Ok) as Lc. destruct Ok as (A & B & C). unfold go_xor_at. cbn [g_mem]. apply (nth_ext' _ _ _ 0).
  - rewrite upd_length by lia. rewrite Lc. unfold contents, mem_upd. rewrite Nat.eqb_refl, firstn_length, skipn_length, upd_length by lia. lia.
  - intros i Hi. assert (Hi' : (i < s_len d)%nat) by (unfold contents in Hi; rewrite firstn_length in Hi; lia).
    rewrite nth_contents by exact Hi'. unfold mem_upd. rewrite Nat.eqb_refl, upd_nth by lia. rewrite upd_nth by lia. rewrite !nth_contents by lia.
    destruct (Nat.eqb_spec i (s_len d - 1)) as [->|G]; [rewrite Nat.eqb_refl; reflexivity|]. destruct (Nat.eqb_spec (s_off d + i) (s_off d + (s_len d - 1))); [lia|reflexivity].
Qed.
(** For every input slice, whatever its spare capacity, and every growth policy: the bytes returned are the padding of the
    input's bytes. *)
Theorem C69_result : forall grow st s st' d, slice_ok st s -> pad101_mem grow st s = (st', d) ->
  contents (g_mem st') d = pad101_bytes (contents (g_mem st) s) /\ slice_ok st' d.
Proof.
  intros grow st s st' d Ok E. destruct (pad101_grown _ _ _ _ _ Ok E) as (st2 & (Ok2 & N & L & Cn & _) & ->). pose proof (pad_missing_pos (s_len s)) as Mp. pose proof (contents_length _ _ Ok) as Ls. split.
  - rewrite xor_contents by (auto; lia). unfold pad101_bytes. rewrite Ls, pad_missing_eq. rewrite <- Cn. rewrite (contents_length _ _ Ok2). reflexivity.
  - destruct Ok2 as (A & B & C). unfold slice_ok, go_xor_at. cbn [g_mem g_next]. unfold mem_upd. rewrite Nat.eqb_refl, upd_length by lia. auto.
Qed.
(** What it may write: of the arrays that existed, only the input's own, and there only the spare capacity after the input.  So
    the input slice still holds the same bytes. *)
Theorem C69_frame : forall grow st s st' d, slice_ok st s -> pad101_mem grow st s = (st', d) ->
  (forall b, (b < g_next st)%nat -> b <> s_arr s -> g_mem st' b = g_mem st b) /\
  length (g_mem st' (s_arr s)) = length (g_mem st (s_arr s)) /\
  (forall i v, (i < s_off s + s_len s)%nat \/ (s_off s + s_cap s <= i)%nat -> nth i (g_mem st' (s_arr s)) v = nth i (g_mem st (s_arr s)) v) /\
  contents (g_mem st') s = contents (g_mem st) s.
Proof.
  intros grow st s st' d Ok E. destruct (pad101_grown _ _ _ _ _ Ok E) as (st2 & (Ok2 & N & L & Cn & Fo & Fl & Fi & Hin & Hout) & ->). pose proof (pad_missing_pos (s_len s)) as Mp.
  set (k := pad_missing (s_len s)) in *. clearbody k. destruct Ok as (A & B & C). destruct Ok2 as (A2 & B2 & C2).
  assert (Q : (forall b, (b < g_next st)%nat -> b <> s_arr s -> g_mem (go_xor_at st2 d (s_len d - 1) 128) b = g_mem st b) /\
    length (g_mem (go_xor_at st2 d (s_len d - 1) 128) (s_arr s)) = length (g_mem st (s_arr s)) /\
    (forall i v, (i < s_off s + s_len s)%nat \/ (s_off s + s_cap s <= i)%nat -> nth i (g_mem (go_xor_at st2 d (s_len d - 1) 128) (s_arr s)) v = nth i (g_mem st (s_arr s)) v)).
  { unfold go_xor_at. cbn [g_mem]. destruct (Nat.le_gt_cases (s_len s + k) (s_cap s)) as [G|G].
    - destruct (Hin G) as (H1 & H2 & H3 & H4). rewrite H1 in *. rewrite H2, H3 in *. unfold mem_upd. rewrite Nat.eqb_refl. split.
      + intros b Hb Hn. destruct (Nat.eqb_spec b (s_arr s)); [congruence|auto].
      + rewrite upd_length by lia. split; [auto|]. intros i v Hi. rewrite upd_nth by lia. destruct (Nat.eqb_spec i (s_off s + (s_len d - 1))); [lia|]. apply Fi; auto.
    - specialize (Hout G). unfold mem_upd. split.
      + intros b Hb Hn. destruct (Nat.eqb_spec b (s_arr d)); [lia|auto].
      + destruct (Nat.eqb_spec (s_arr s) (s_arr d)); [lia|]. split; auto. }
  destruct Q as (Q1 & Q2 & Q3). split; [exact Q1|]. split; [exact Q2|]. split; [exact Q3|].
  unfold contents. apply (nth_ext' _ _ _ 0).
  - rewrite !firstn_length, !skipn_length, Q2. reflexivity.
  - intros i Hi. rewrite firstn_length in Hi. rewrite !nth_firstn', !nth_skipn' by lia. apply Q3. lia.
Qed.
(** Where the result lives: in the caller's array exactly when the padding fits its capacity, else in a new array. *)
Theorem C69_where : forall grow st s st' d, slice_ok st s -> pad101_mem grow st s = (st', d) ->
  ((s_len s + pad_missing (s_len s) <= s_cap s)%nat -> s_arr d = s_arr s /\ s_off d = s_off s) /\
  ((s_cap s < s_len s + pad_missing (s_len s))%nat -> (g_next st <= s_arr d)%nat).
Proof.
  intros grow st s st' d Ok E. destruct (pad101_grown _ _ _ _ _ Ok E) as (st2 & (Ok2 & N & L & Cn & Fo & Fl & Fi & Hin & Hout) & ->). split; [intros G; destruct (Hin G) as (H1 & H2 & _); auto|exact Hout].
Qed.
(** A full slice (capacity = length, as most Go byte slices passed around) is never written around: no existing array changes. *)
Theorem C69_full_slice : forall grow st s st' d, slice_ok st s -> s_cap s = s_len s -> pad101_mem grow st s = (st', d) ->
  forall b, (b < g_next st)%nat -> g_mem st' b = g_mem st b.
Proof.
  intros grow st s st' d Ok Hc E b Hb. destruct (C69_frame _ _ _ _ _ Ok E) as (F1 & F2 & F3 & _). destruct (Nat.eq_dec b (s_arr s)) as [->|]; [|auto].
  apply (nth_ext' _ _ _ 0); [auto|]. intros i Hi. apply F3. lia.
Qed.
(** But a sub-slice with spare capacity is padded in place: for every such slice whose padding fits, another slice of the same
    array right after the input is overwritten, starting with 1 or 0x81. *)
Theorem C69_neighbour_refuted : forall grow st s st' d, slice_ok st s -> (s_len s + pad_missing (s_len s) <= s_cap s)%nat -> pad101_mem grow st s = (st', d) ->
  let neighbour := Slice (s_arr s) (s_off s + s_len s) (s_cap s - s_len s) (s_cap s - s_len s) in
  slice_ok st neighbour /\ hd 0 (contents (g_mem st') neighbour) = if Nat.eqb (pad_missing (s_len s)) 1 then 0x81 else 1.
Proof.
  intros grow st s st' d Ok G E neighbour. pose proof (C69_where _ _ _ _ _ Ok E) as (W & _). destruct (W G) as (W1 & W2). pose proof (C69_result _ _ _ _ _ Ok E) as (R & Ok'). pose proof (pad_missing_pos (s_len s)) as Mp.
  pose proof (contents_length _ _ Ok) as Ls. pose proof (contents_length _ _ Ok') as Ld. destruct (pad101_grown _ _ _ _ _ Ok E) as (st2 & (_ & _ & L & _) & _). destruct Ok as (A & B & C).
  split; [unfold slice_ok, neighbour; cbn [s_arr s_off s_len s_cap]; lia|].
  assert (Hd : forall l : list Z, hd 0 l = nth 0 l 0) by (intros [|]; reflexivity). rewrite Hd. rewrite nth_contents by (unfold neighbour; cbn [s_len]; lia).
  unfold neighbour. cbn [s_arr s_off]. rewrite <- W1, <- W2. rewrite Nat.add_0_r. rewrite <- (nth_contents (g_mem st') d (s_len s) 0) by lia. rewrite R.
  unfold pad101_bytes. rewrite Ls, pad_missing_eq. set (k := pad_missing (s_len s)) in *. clearbody k. rewrite !app_length, repeat_length, Ls. cbn [length].
  rewrite upd_nth by (rewrite !app_length, repeat_length, Ls; cbn [length]; lia).
  destruct (Nat.eqb_spec k 1) as [->|Hk].
  - replace (s_len s + (1 + (1 - 1)) - 1)%nat with (s_len s) by lia. rewrite Nat.eqb_refl. rewrite app_nth2, Ls, Nat.sub_diag by lia. reflexivity.
  - destruct (Nat.eqb_spec (s_len s) (s_len s + (1 + (k - 1)) - 1)); [lia|]. rewrite app_nth2, Ls, Nat.sub_diag by lia. reflexivity.
Qed.
(** three bytes at the front of a 300-byte buffer full of 9s *)
Example C69_case : let st := GState (fun _ => repeat 9 300) 1 in let s := Slice 0 0 3 300 in slice_ok st s /\
  let '(st', d) := pad101_mem (fun n => 2 * n)%nat st s in s_arr d = 0%nat /\ contents (g_mem st') (Slice 0 3 4 4) = [1; 0; 0; 0] /\ contents (g_mem st) (Slice 0 3 4 4) = [9; 9; 9; 9].
Proof. split; [vm_compute; repeat constructor|]. vm_compute. repeat split; reflexivity. Qed.
