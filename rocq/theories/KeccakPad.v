(** * KeccakPad.v — padding and packing *)
From Coq Require Import ZArith List Bool Arith Lia.
From Verif Require Import Field FieldLemmas ModNorm RlpUtilModel RlpUtilProofs RlpSpec KeccakSpec KeccakModel KeccakProofs KeccakSponge KeccakWords KeccakNibbles SliceModel KeccakPadModel.
Import ListNotations.
Open Scope Z_scope.
Open Scope circ_scope.

Lemma upd_app {A} (a : list A) x y b : upd (length a) x (a ++ y :: b) = a ++ x :: b.
Proof.
  unfold upd. rewrite firstn_app, Nat.sub_diag, firstn_O, app_nil_r, firstn_all. f_equal. f_equal.
  rewrite skipn_app. rewrite skipn_all2 by lia. replace (S (length a) - length a)%nat with 1%nat by lia. reflexivity.
Qed.

Definition miss_of (n : nat) : nat := (136 - n mod 136)%nat.
Lemma miss_range n : (1 <= miss_of n <= 136)%nat.
Proof. unfold miss_of. pose proof (Nat.mod_upper_bound n 136 ltac:(lia)). lia. Qed.

Lemma pad101_bytes_shape : forall m, pad101_bytes m =
  m ++ (if Nat.eqb (miss_of (length m)) 1 then [0x81] else [1] ++ repeat 0 (miss_of (length m) - 2) ++ [0x80]).
Proof.
  intros m. unfold pad101_bytes.
  replace (if Nat.eqb (length m mod 136) 0 then 136%nat else (136 - length m mod 136)%nat) with (miss_of (length m)).
  2:{ unfold miss_of. destruct (Nat.eqb_spec (length m mod 136) 0) as [->|]; reflexivity. }
  pose proof (miss_range (length m)) as R. set (k := miss_of (length m)) in *. clearbody k.
  destruct (Nat.eqb_spec k 1) as [->|Hk].
  - cbn [Nat.sub repeat app]. rewrite app_length. cbn [length]. replace (length m + 1 - 1)%nat with (length m) by lia.
    rewrite app_nth2, Nat.sub_diag by lia. cbn [nth]. apply upd_app.
  - assert (E : [1] ++ repeat 0 (k - 1) = (1 :: repeat 0 (k - 2)) ++ [0]).
    { cbn [app]. f_equal. replace (k - 1)%nat with (k - 2 + 1)%nat by lia. apply repeat_app. }
    rewrite E. rewrite app_assoc. rewrite app_length. cbn [length].
    set (a := m ++ 1 :: repeat 0 (k - 2)). replace (length a + 1 - 1)%nat with (length a) by lia.
    rewrite app_nth2, Nat.sub_diag by lia. cbn [nth]. rewrite upd_app. unfold a. rewrite <- app_assoc. reflexivity.
Qed.

Lemma pad101_bytes_length m : length (pad101_bytes m) = (length m + miss_of (length m))%nat.
Proof.
  rewrite pad101_bytes_shape, app_length. f_equal. pose proof (miss_range (length m)).
  destruct (Nat.eqb_spec (miss_of (length m)) 1) as [->|]; [reflexivity|]. cbn [app length]. rewrite app_length, repeat_length. cbn [length]. lia.
Qed.
Lemma pad101_bytes_blocks m : length (pad101_bytes m) = (136 * (length m / 136 + 1))%nat.
Proof. rewrite pad101_bytes_length. unfold miss_of. pose proof (Nat.div_mod (length m) 136 ltac:(lia)). pose proof (Nat.mod_upper_bound (length m) 136 ltac:(lia)). lia. Qed.

Lemma bytes_bits_app a b : bytes_bits (a ++ b) = bytes_bits a ++ bytes_bits b.
Proof. apply flat_map_app. Qed.
Lemma bytes_bits_zeros n : bytes_bits (repeat 0 n) = repeat false (8 * n).
Proof.
  induction n as [|n IH]; [reflexivity|]. cbn [repeat]. change (bytes_bits (0 :: repeat 0 n)) with (byte_bits 0 ++ bytes_bits (repeat 0 n)).
  rewrite IH. replace (8 * S n)%nat with (8 + 8 * n)%nat by lia. rewrite repeat_app. reflexivity.
Qed.

Lemma pad_count n : ((1088 - (8 * n + 2) mod 1088) mod 1088 = 8 * miss_of n - 2)%nat.
Proof.
  unfold miss_of. pose proof (Nat.div_mod n 136 ltac:(lia)) as H. pose proof (Nat.mod_upper_bound n 136 ltac:(lia)) as Hb.
  set (q := (n / 136)%nat) in *. set (r := (n mod 136)%nat) in *.
  replace (8 * n + 2)%nat with ((8 * r + 2) + q * 1088)%nat by lia. rewrite Nat.mod_add by lia.
  rewrite (Nat.mod_small (8 * r + 2)) by lia. rewrite Nat.mod_small by lia. lia.
Qed.

Theorem pad101_bytes_bits : forall m, bytes_bits (pad101_bytes m) = pad101 (bytes_bits m).
Proof.
  intros m. unfold pad101. rewrite bytes_bits_length, pad_count. rewrite pad101_bytes_shape, bytes_bits_app. f_equal.
  pose proof (miss_range (length m)) as R. set (k := miss_of (length m)) in *. clearbody k.
  destruct (Nat.eqb_spec k 1) as [->|Hk]; [reflexivity|].
  rewrite !bytes_bits_app, bytes_bits_zeros.
  change (bytes_bits [1]) with ([true] ++ repeat false 7). change (bytes_bits [0x80]) with (repeat false 7 ++ [true]).
  rewrite <- app_assoc. f_equal. rewrite !app_assoc. f_equal. rewrite <- !repeat_app. f_equal. lia.
Qed.

(** the bit padding is injective *)
Lemma repeat_false_true : forall a b (s t : list bool), repeat false a ++ true :: s = repeat false b ++ true :: t -> s = t.
Proof. induction a as [|a IH]; intros [|b] s t H; cbn in H; try discriminate; [congruence|]. injection H as H. eauto. Qed.
Lemma rev_repeat {A} (x : A) n : rev (repeat x n) = repeat x n.
Proof. induction n as [|n IH]; [reflexivity|]. cbn [repeat rev]. rewrite IH. change [x] with (repeat x 1). rewrite <- repeat_app. rewrite Nat.add_comm. reflexivity. Qed.
Theorem pad101_inj : forall s t, pad101 s = pad101 t -> s = t.
Proof.
  intros s t H. unfold pad101 in H. apply (f_equal (@rev bool)) in H.
  rewrite !rev_app_distr in H. cbn [rev app] in H. rewrite !rev_repeat, <- !app_assoc in H. cbn [app] in H.
  apply (f_equal (@tl bool)) in H. unfold tl in H. apply repeat_false_true in H. apply (f_equal (@rev bool)) in H. rewrite !rev_involutive in H. exact H.
Qed.

Definition byte (b : Z) : Prop := 0 <= b < 256.
Lemma byte_bits_inj a b : byte a -> byte b -> byte_bits a = byte_bits b -> a = b.
Proof.
  intros Ha Hb H. rewrite !byte_bits_le in H.
  assert (E : bits_le 8 a = bits_le 8 b).
  { apply nth_ext' with (d := 0); [now rewrite !bits_le_length|]. intros i Hi. rewrite bits_le_length in Hi.
    assert (nth i (map (Z.eqb 1) (bits_le 8 a)) false = nth i (map (Z.eqb 1) (bits_le 8 b)) false) as E by now rewrite H.
    rewrite !nth_map' with (d' := 0) in E by (rewrite bits_le_length; auto).
    rewrite !bits_le_nth in * by auto. pose proof (Z.mod_pos_bound (a / 2 ^ Z.of_nat i) 2 ltac:(lia)). pose proof (Z.mod_pos_bound (b / 2 ^ Z.of_nat i) 2 ltac:(lia)).
    destruct (Z.eqb_spec 1 ((a / 2 ^ Z.of_nat i) mod 2)), (Z.eqb_spec 1 ((b / 2 ^ Z.of_nat i) mod 2)); try discriminate; lia. }
  rewrite <- (val_bits_le 8 a Ha), <- (val_bits_le 8 b Hb), E. reflexivity.
Qed.
Lemma bytes_bits_inj : forall a b, Forall byte a -> Forall byte b -> bytes_bits a = bytes_bits b -> a = b.
Proof.
  induction a as [|x a IH]; intros [|y b] Fa Fb H; auto.
  - discriminate.
  - discriminate.
  - inversion Fa; inversion Fb; subst. change (byte_bits x ++ bytes_bits a = byte_bits y ++ bytes_bits b) in H.
    assert (E : byte_bits x = byte_bits y).
    { apply (f_equal (firstn 8)) in H. rewrite !firstn_app, !byte_bits_length, !Nat.sub_diag, !firstn_O, !app_nil_r in H.
      rewrite !firstn_all2 in H by (rewrite byte_bits_length; lia). exact H. }
    rewrite E in H. apply app_inv_head in H. f_equal; [apply byte_bits_inj; auto|apply IH; auto].
Qed.
Theorem pad101_bytes_inj : forall a b, Forall byte a -> Forall byte b -> pad101_bytes a = pad101_bytes b -> a = b.
Proof.
  intros a b Fa Fb H. apply bytes_bits_inj; auto. apply pad101_inj. rewrite <- !pad101_bytes_bits. now rewrite H.
Qed.

(** packing *)
Lemma byte2bits_ok b : byte2bits b = zbits (byte_bits b).
Proof.
  unfold byte2bits, byte_bits, zbits. rewrite map_map. apply map_ext. intros i. change 1 with (Z.ones 1). rewrite Z.land_ones by lia.
  change (2 ^ 1) with 2. rewrite <- Z.bit0_mod, Z.shiftr_spec by lia. reflexivity.
Qed.
Lemma bytes2bits_ok l : (length l mod 8 = 0)%nat -> bytes2bits l = Some (zbits (bytes_bits l)).
Proof.
  intros H. unfold bytes2bits. rewrite H. cbn [Nat.eqb guard obind]. f_equal. unfold zbits, bytes_bits.
  rewrite !flat_map_concat_map, concat_map, map_map. f_equal. apply map_ext. intros. apply byte2bits_ok.
Qed.

Lemma bytes2uint64_ok : forall l, length l = 8%nat -> Forall byte l ->
  exists w, bytes2uint64 l = Some w /\ word64 w /\ word_bits w = bytes_bits l.
Proof.
  intros l L F. unfold bytes2uint64. rewrite L. cbn [Nat.eqb guard obind]. eexists. split; [reflexivity|].
  rewrite Forall_forall in F.
  set (w := fold_left (fun r i => Z.lor r (Z.shiftl (nth i l 0) (8 * Z.of_nat i) mod 2 ^ 64)) (seq 0 8) 0).
  assert (Hbit : forall z, 0 <= z -> Z.testbit w z = (z <? 64) && Z.testbit (nth (Z.to_nat (z / 8)) l 0) (z mod 8)).
  { intros z Hz. unfold w.
    assert (G : forall n, (n <= 8)%nat -> Z.testbit (fold_left (fun r i => Z.lor r (Z.shiftl (nth i l 0) (8 * Z.of_nat i) mod 2 ^ 64)) (seq 0 n) 0) z
        = (z <? 8 * Z.of_nat n) && Z.testbit (nth (Z.to_nat (z / 8)) l 0) (z mod 8)).
    { induction n as [|n IH]; intros Hn; [cbn [seq fold_left]; rewrite Z.testbit_0_l; destruct (Z.ltb_spec z (8 * Z.of_nat 0)); [lia|reflexivity]|].
      replace (S n) with (n + 1)%nat at 1 by lia. rewrite seq_app, fold_left_app. cbn [seq fold_left Nat.add]. rewrite Z.lor_spec, IH by lia.
      assert (Hb : byte (nth n l 0)) by (apply F, nth_In; lia).
      assert (Hs : Z.testbit (Z.shiftl (nth n l 0) (8 * Z.of_nat n) mod 2 ^ 64) z = Z.testbit (nth n l 0) (z - 8 * Z.of_nat n)).
      { rewrite Z.mod_small. - apply Z.shiftl_spec; lia.
        - rewrite Z.shiftl_mul_pow2 by lia. unfold byte in Hb. split; [apply Z.mul_nonneg_nonneg; [lia|apply Z.pow_nonneg; lia]|].
          apply Z.lt_le_trans with (2 ^ 8 * 2 ^ (8 * Z.of_nat n)).
          + apply Z.mul_lt_mono_pos_r; [apply Z.pow_pos_nonneg; lia|change (2 ^ 8) with 256; lia].
          + rewrite <- Z.pow_add_r by lia. apply Z.pow_le_mono_r; lia. }
      rewrite Hs. clear Hs.
      destruct (Z.ltb_spec z (8 * Z.of_nat n)).
      - rewrite (Z.testbit_neg_r _ (z - 8 * Z.of_nat n)) by lia. rewrite orb_false_r.
        replace (z <? 8 * Z.of_nat (S n)) with true by (symmetry; apply Z.ltb_lt; lia). reflexivity.
      - cbn [andb orb]. destruct (Z.ltb_spec z (8 * Z.of_nat (S n))) as [Hlt|Hge]; cbn [andb].
        + replace (z / 8) with (Z.of_nat n) by (Z.div_mod_to_equations; lia). rewrite Nat2Z.id. f_equal. Z.div_mod_to_equations; lia.
        + assert (Hz8 : nth n l 0 < 2 ^ (z - 8 * Z.of_nat n)).
          { unfold byte in Hb. apply Z.lt_le_trans with (2 ^ 8); [change (2 ^ 8) with 256; lia|]. apply Z.pow_le_mono_r; lia. }
          destruct (Z.eq_dec (nth n l 0) 0) as [->|Hne]; [apply Z.testbit_0_l|]. unfold byte in Hb.
          apply Z.bits_above_log2; [lia|]. apply Z.log2_lt_pow2; lia. }
    rewrite G by lia. reflexivity. }
  assert (Hw0 : 0 <= w).
  { unfold w. assert (G : forall s r, 0 <= r -> 0 <= fold_left (fun r i => Z.lor r (Z.shiftl (nth i l 0) (8 * Z.of_nat i) mod 2 ^ 64)) s r).
    { clear. induction s as [|i s IH]; intros r Hr; [exact Hr|]. cbn [fold_left]. apply IH. apply Z.lor_nonneg. split; auto. apply Z.mod_pos_bound. reflexivity. }
    apply G. lia. }
  split.
  - split; [auto|]. destruct (Z.lt_ge_cases w (2 ^ 64)) as [|Hge]; auto. exfalso.
    assert (Hlog : 64 <= Z.log2 w) by (apply Z.log2_le_pow2; lia).
    assert (Hb : Z.testbit w (Z.log2 w) = true) by (apply Z.bit_log2; lia).
    rewrite Hbit in Hb by lia. destruct (Z.ltb_spec (Z.log2 w) 64); [lia|discriminate].
  - apply nth_ext' with (d := false).
    { rewrite bytes_bits_length, L. reflexivity. }
    intros i Hi. assert (Hi' : (i < 64)%nat) by exact Hi. unfold word_bits. rewrite nth_map_seq by auto. rewrite Nat.add_0_l.
    rewrite Hbit by lia. replace (Z.of_nat i <? 64) with true by (symmetry; apply Z.ltb_lt; lia). cbn [andb].
    pose proof (Nat.div_mod i 8 ltac:(lia)) as Hm. pose proof (Nat.mod_upper_bound i 8 ltac:(lia)) as Hu.
    rewrite Hm at 3. unfold bytes_bits. rewrite (flat_map_nth_list Z bool byte_bits 8 false 0); auto.
    + unfold byte_bits. rewrite nth_map_seq by auto. rewrite Nat.add_0_l.
      replace (Z.to_nat (Z.of_nat i / 8)) with (i / 8)%nat.
      2:{ change 8 with (Z.of_nat 8). rewrite <- Nat2Z.inj_div, Nat2Z.id. auto. }
      f_equal. change 8 with (Z.of_nat 8). rewrite <- Nat2Z.inj_mod. auto.
    + apply Nat.div_lt_upper_bound; lia.
Qed.

Lemma bytes2uint64s_ok : forall k l, length l = (8 * k)%nat -> Forall byte l ->
  exists ws, bytes2uint64s l = Some ws /\ length ws = k /\ Forall word64 ws /\ words_bits ws = bytes_bits l.
Proof.
  intros k l L F. unfold bytes2uint64s. rewrite L. rewrite Nat.mul_comm, Nat.mod_mul, Nat.div_mul by lia. cbn [Nat.eqb guard obind].
  revert l L F. induction k as [|k IH]; intros l L F.
  - destruct l; [|cbn in L; lia]. exists []. split; [reflexivity|]. split; [reflexivity|]. split; [constructor|reflexivity].
  - assert (Fh : Forall byte (firstn 8 l) /\ Forall byte (skipn 8 l)).
    { rewrite <- (firstn_skipn 8 l) in F. apply Forall_app in F. exact F. }
    destruct Fh as [F1 F2].
    destruct (bytes2uint64_ok (firstn 8 l)) as [w [E [W B]]]; auto. { rewrite firstn_length. lia. }
    destruct (IH (skipn 8 l)) as [ws [E2 [L2 [W2 B2]]]]; auto. { rewrite skipn_length. lia. }
    exists (w :: ws). change (seq 0 (S k)) with (0%nat :: seq 1 k). cbn [omap]. change (8 * 0)%nat with 0%nat. rewrite skipn_O, E. cbn [obind].
    rewrite <- seq_shift, omap_map.
    rewrite (omap_ext _ _ _ (fun i => bytes2uint64 (firstn 8 (skipn (8 * i) (skipn 8 l))))).
    2:{ intros i _. rewrite skipn_skipn'. do 3 f_equal. lia. }
    rewrite E2. cbn [obind]. split; [reflexivity|]. split; [cbn; lia|]. split; [constructor; auto|].
    change (words_bits (w :: ws)) with (word_bits w ++ words_bits ws). rewrite B, B2, <- bytes_bits_app, firstn_skipn. reflexivity.
Qed.

(** Uint64s2Blocks lays the words out in ten rows *)
Lemma uint64s2blocks_ok : forall ws, (length ws <= 170)%nat -> Forall word64 ws ->
  exists blocks, uint64s2blocks ws = Some blocks /\ length blocks = 10%nat /\
    Forall (fun b => length b = 17%nat /\ Forall word64 b) blocks /\
    forall k, (k <= 10)%nat -> map words_bits (firstn k blocks) = blocks_of k (words_bits ws ++ repeat false (64 * (170 - length ws))).
Proof.
  intros ws L F. unfold uint64s2blocks. replace (Nat.leb (length ws) 170) with true by (symmetry; apply Nat.leb_le; auto). cbn [guard obind].
  set (all := ws ++ repeat 0 (170 - length ws)).
  assert (La : length all = 170%nat) by (unfold all; rewrite app_length, repeat_length; lia).
  assert (Fa : Forall word64 all).
  { unfold all. apply Forall_app. split; auto. apply Forall_forall. intros x Hx. apply repeat_spec in Hx. subst. split; [lia|reflexivity]. }
  eexists. split; [reflexivity|]. split; [now rewrite map_length, seq_length|]. split.
  - apply Forall_forall. intros b Hb. apply in_map_iff in Hb. destruct Hb as [r [<- Hr]]. apply in_seq in Hr.
    split; [rewrite firstn_length, skipn_length; lia|]. apply Forall_forall. intros x Hx. rewrite Forall_forall in Fa. apply Fa.
    rewrite <- (firstn_skipn (r * 17) all). apply in_or_app. right. rewrite <- (firstn_skipn 17 (skipn (r * 17) all)). apply in_or_app. auto.
  - intros j Hj. rewrite firstn_map_seq by auto. rewrite rows_blocks by lia. f_equal.
    unfold all. unfold words_bits at 1. rewrite flat_map_app. fold (words_bits ws). f_equal. apply words_bits_zero.
Qed.

(** cutting a string into blocks only looks at the part that is cut *)
Lemma blocks_of_firstn : forall k s t, blocks_of k (firstn (1088 * k) s ++ t) = blocks_of k s \/ (length s < 1088 * k)%nat.
Proof.
  intros k s t. destruct (Nat.lt_ge_cases (length s) (1088 * k)) as [|H]; [right; auto|left].
  revert s t H. induction k as [|k IH]; intros s t H; [reflexivity|]. cbn [blocks_of].
  replace (1088 * S k)%nat with (1088 + 1088 * k)%nat in * by lia.
  assert (E : firstn (1088 + 1088 * k) s = firstn 1088 s ++ firstn (1088 * k) (skipn 1088 s)).
  { rewrite <- (firstn_skipn 1088 s) at 1. rewrite firstn_app. rewrite firstn_length, Nat.min_l by lia.
    rewrite firstn_firstn. rewrite Nat.min_r by lia. f_equal. f_equal. lia. }
  rewrite E, <- app_assoc. rewrite firstn_app, skipn_app. rewrite firstn_length, Nat.min_l by lia. rewrite Nat.sub_diag.
  rewrite firstn_firstn, Nat.min_id, firstn_O, app_nil_r. apply f_equal2; [reflexivity|].
  rewrite (skipn_all2 (firstn 1088 s)) by (rewrite firstn_length; lia). rewrite app_nil_l, skipn_O. apply IH. rewrite skipn_length. lia.
Qed.
Lemma blocks_of_app_l : forall k s t, length s = (1088 * k)%nat -> blocks_of k (s ++ t) = blocks_of k s.
Proof.
  intros k s t H. destruct (blocks_of_firstn k s t) as [E|E]; [|lia]. rewrite <- E. rewrite firstn_all2 by lia. reflexivity.
Qed.

(** hashing a padded message, whatever follows it *)
Lemma sponge256_keccak256 : forall m rest, sponge256 (length m / 136 + 1) (pad101 (bytes_bits m) ++ rest) = keccak256 m.
Proof.
  intros m rest. unfold sponge256, keccak256.
  assert (L : length (pad101 (bytes_bits m)) = (1088 * (length m / 136 + 1))%nat).
  { rewrite <- pad101_bytes_bits, bytes_bits_length, pad101_bytes_blocks. lia. }
  rewrite blocks_of_app_l by auto. rewrite L. rewrite (Nat.mul_comm 1088), Nat.div_mul by lia. reflexivity.
Qed.

(** ** Pad101Bits *)
Section P.
Variable p : Z.
Hypothesis Hp : 2 ^ 65 < p.
Let Hp2 : 2 < p. Proof. assert (2 < 2 ^ 65) by reflexivity. lia. Qed.

Lemma pad_bits101_ok : forall d maxRound, (length d mod 1088 <= 1072)%nat ->
  pad_bits101 p (zbits d) maxRound = Some (zbits (pad101 d ++ repeat false (maxRound * 1088 - length (pad101 d)))).
Proof.
  intros d maxRound H. unfold pad_bits101.
  rewrite !to_binary_ok; auto; try reflexivity; try (unfold felt; assert (128 < 2 ^ 65) by reflexivity; lia).
  cbn [obind].
  assert (L : length (zbits d) = length d) by (unfold zbits; apply map_length). rewrite L.
  assert (E : zbits d ++ bits_le 8 1 ++ repeat 0 (1088 - length d mod 1088 - 16) ++ bits_le 8 128 = zbits (pad101 d)).
  { unfold pad101, zbits. rewrite !map_app. f_equal.
    change (bits_le 8 1) with ([1] ++ repeat 0 7). change (bits_le 8 128) with (repeat 0 7 ++ [1]).
    change (map bit_of [true]) with [1]. rewrite <- app_assoc. f_equal. rewrite !app_assoc. f_equal.
    pose proof zbits_repeat as Zr. unfold zbits in Zr. rewrite <- Zr. rewrite <- !repeat_app. f_equal.
    assert (length d + 2 = (length d mod 1088 + 2) + (length d / 1088) * 1088)%nat as ->.
    { pose proof (Nat.div_mod (length d) 1088 ltac:(lia)). lia. }
    rewrite Nat.mod_add by lia. rewrite (Nat.mod_small (_ + 2)) by lia. rewrite (Nat.mod_small (1088 - _)) by lia. lia. }
  rewrite E. replace (length (zbits (pad101 d))) with (length (pad101 d)) by (unfold zbits; now rewrite map_length).
  unfold zbits. rewrite map_app. rewrite <- zbits_repeat. reflexivity.
Qed.

Hypothesis Hodd : p mod 2 = 1.

Lemma fdiv_pow2_ok : forall a k, (fdiv_pow2 p a k * 2 ^ Z.of_nat k) mod p = a mod p.
Proof.
  intros a k. unfold fdiv_pow2. rewrite Z.mul_mod_idemp_l by lia. rewrite <- Z.mul_assoc, <- Z.pow_mul_l.
  assert (E : (p + 1) / 2 * 2 = p + 1) by (Z.div_mod_to_equations; lia). rewrite E.
  assert (G : exists t, (p + 1) ^ Z.of_nat k = 1 + t * p).
  { clear -Hp. induction k as [|k [t IH]]; [exists 0; reflexivity|]. rewrite Nat2Z.inj_succ, Z.pow_succ_r, IH by lia. exists (1 + t * p + t). ring. }
  destruct G as [t ->]. replace (a * (1 + t * p)) with (a + (a * t) * p) by ring. apply Z.mod_add. lia.
Qed.
Lemma fdiv_pow2_felt a k : felt p (fdiv_pow2 p a k). Proof. unfold fdiv_pow2. apply felt_mod_p. lia. Qed.

(** big-endian value of digits of [w] bits *)
Definition be_val (w : nat) (l : list Z) : Z := fold_left (fun acc d => acc * 2 ^ Z.of_nat w + d) l 0.
(** the bytes spelled by digits of [w] bits, [c] digits per byte *)
Definition digit_bytes (n c w : nat) (l : list Z) : list Z := map (be_val w) (chunks n c l).

Lemma bits_le_shift : forall w k acc d, 0 <= acc -> 0 <= d < 2 ^ Z.of_nat w ->
  bits_le (w + k) (acc * 2 ^ Z.of_nat w + d) = bits_le w d ++ bits_le k acc.
Proof.
  intros w k acc d Ha Hd. rewrite bits_le_app. f_equal.
  - apply nth_ext' with (d := 0); [now rewrite !bits_le_length|]. intros i Hi. rewrite bits_le_length in Hi.
    rewrite !bits_le_nth by auto.
    replace (acc * 2 ^ Z.of_nat w) with ((acc * 2 ^ (Z.of_nat w - 1 - Z.of_nat i) * 2) * 2 ^ Z.of_nat i).
    2:{ rewrite <- !Z.mul_assoc. f_equal. rewrite Z.mul_assoc. rewrite <- (Z.pow_add_r 2 _ 1) at 1 by lia. rewrite <- Z.pow_add_r by lia. f_equal. lia. }
    rewrite Z.div_add_l by (apply Z.pow_nonzero; lia). rewrite Z.add_comm, Z.mod_add by lia. reflexivity.
  - f_equal. rewrite Z.div_add_l by (apply Z.pow_nonzero; lia). rewrite Z.div_small by auto. lia.
Qed.

Lemma be_bits : forall w l, Forall (fun d => 0 <= d < 2 ^ Z.of_nat w) l ->
  0 <= be_val w l /\ rev (flat_map (fun d => rev (bits_le w d)) l) = bits_le (w * length l) (be_val w l).
Proof.
  intros w l. induction l as [|d l IH] using rev_ind; intros F.
  - split; [unfold be_val; cbn; lia|]. cbn [flat_map rev length]. rewrite Nat.mul_0_r. reflexivity.
  - apply Forall_app in F. destruct F as [F1 F2]. inversion F2; subst. destruct (IH F1) as [P1 P2].
    assert (Ev : be_val w (l ++ [d]) = be_val w l * 2 ^ Z.of_nat w + d) by (unfold be_val; rewrite fold_left_app; reflexivity).
    rewrite Ev. pose proof (Z.pow_pos_nonneg 2 (Z.of_nat w) ltac:(lia) ltac:(lia)). split; [nia|].
    rewrite app_length. cbn [length]. replace (w * (length l + 1))%nat with (w + w * length l)%nat by lia.
    rewrite bits_le_shift by auto. rewrite flat_map_app. cbn [flat_map]. rewrite app_nil_r, rev_app_distr, rev_involutive, P2. reflexivity.
Qed.

Lemma chunks_flat_map : forall (g : Z -> list Z) w c n l, (forall d, length (g d) = w) -> length l = (n * c)%nat ->
  chunks n (w * c) (flat_map g l) = map (flat_map g) (chunks n c l).
Proof.
  intros g w c n. induction n as [|n IH]; intros l Hg L; [reflexivity|]. cbn [chunks map].
  assert (E : flat_map g l = flat_map g (firstn c l) ++ flat_map g (skipn c l)).
  { rewrite <- flat_map_app, firstn_skipn. reflexivity. }
  assert (Lf : length (flat_map g (firstn c l)) = (w * c)%nat).
  { rewrite (flat_map_length_const _ _ g w) by auto. rewrite firstn_length. f_equal. lia. }
  rewrite E. rewrite firstn_app, skipn_app, Lf, Nat.sub_diag. cbn [firstn skipn]. rewrite app_nil_r.
  rewrite firstn_all2 by lia. rewrite skipn_all2 by lia. cbn [app]. f_equal. apply IH; auto. rewrite skipn_length. lia.
Qed.

Lemma Forall_chunks : forall (P : Z -> Prop) n c l, Forall P l -> Forall (Forall P) (chunks n c l).
Proof.
  intros P n c. induction n as [|n IH]; intros l F; [constructor|]. cbn [chunks].
  rewrite <- (firstn_skipn c l) in F. apply Forall_app in F. destruct F. constructor; auto.
Qed.
Lemma chunks_len : forall (A : Type) n c (l : list A), length l = (n * c)%nat -> Forall (fun x => length x = c) (chunks n c l).
Proof.
  intros A n c. induction n as [|n IH]; intros l L; [constructor|]. cbn [chunks]. constructor; [rewrite firstn_length; lia|].
  apply IH. rewrite skipn_length. lia.
Qed.

Lemma flipped_digits : forall w c n l, (w * c = 8)%nat -> length l = (n * c)%nat -> Forall (fun d => 0 <= d < 2 ^ Z.of_nat w) l ->
  flat_map (@rev Z) (chunks n 8 (flat_map (fun d => rev (bits_le w d)) l)) = zbits (bytes_bits (digit_bytes n c w l)).
Proof.
  intros w c n l Hwc L F. rewrite <- Hwc. rewrite chunks_flat_map; auto. 2:{ intros; now rewrite rev_length, bits_le_length. }
  unfold zbits, bytes_bits, digit_bytes. rewrite !flat_map_concat_map, concat_map, !map_map.
  apply (f_equal (@concat Z)). apply map_ext_in. intros ch Hch.
  pose proof (Forall_chunks _ n c l F) as Fc. rewrite Forall_forall in Fc. pose proof (chunks_len _ n c l L) as Lc. rewrite Forall_forall in Lc.
  destruct (be_bits w ch (Fc _ Hch)) as [_ B]. rewrite B, (Lc _ Hch), Hwc. rewrite zbits_word. unfold byte_bits. rewrite map_map. reflexivity.
Qed.

Definition pad_rounds (n : nat) : nat := ((8 * n + 8) / 1088 + 1)%nat.
(** what Pad101Bits produces for a message of n bytes *)
Definition pad_out (outLen : nat) (m : list Z) : list bool :=
  bytes_bits m ++ [true] ++ repeat false (pad_rounds (length m) * 1088 - 8 * length m - 2) ++ [true] ++
  repeat false (outLen - pad_rounds (length m) * 1088).

Lemma pad_rounds_bounds n : (8 * n + 16 <= pad_rounds n * 1088)%nat.
Proof. unfold pad_rounds. pose proof (Nat.div_mod (8 * n + 8) 1088 ltac:(lia)). pose proof (Nat.mod_upper_bound (8 * n + 8) 1088 ltac:(lia)).
  set (q := ((8 * n + 8) / 1088)%nat) in *. assert ((8 * n + 8) mod 1088 <= 1080)%nat; [|lia].
  assert (E : (8 * n + 8 = 8 * (n + 1))%nat) by lia. rewrite E. change 1088%nat with (8 * 136)%nat. rewrite Nat.mul_mod_distr_l by lia.
  pose proof (Nat.mod_upper_bound (n + 1) 136 ltac:(lia)). lia.
Qed.

Lemma flat_map_rev_zeros n : flat_map (@rev Z) (chunks n 8 (repeat 0 (8 * n))) = repeat 0 (8 * n).
Proof.
  induction n as [|n IH]; [reflexivity|]. replace (8 * S n)%nat with (8 + 8 * n)%nat by lia. rewrite repeat_app.
  change (S n) with (1 + n)%nat. rewrite chunks_app by reflexivity. rewrite flat_map_app, IH. reflexivity.
Qed.

Lemma pad_row_flip : forall w c n l outLen, (w * c = 8)%nat -> (n * c <= length l)%nat -> Forall (fun d => 0 <= d < 2 ^ Z.of_nat w) l ->
  (pad_rounds n * 1088 <= outLen)%nat -> (outLen mod 1088 = 0)%nat ->
  length (pad_row (flat_map (fun d => rev (bits_le w d)) l) (8 * n) outLen) = outLen /\
  flip_sub 0 (pad_row (flat_map (fun d => rev (bits_le w d)) l) (8 * n) outLen) 8 =
    Some (zbits (pad_out outLen (digit_bytes n c w (firstn (n * c) l)))).
Proof.
  intros w c n l outLen Hwc L F Hr Ho. unfold pad_row. fold (pad_rounds n).
  set (g := fun d => rev (bits_le w d)).
  assert (Hg : forall d, length (g d) = w) by (intros; unfold g; now rewrite rev_length, bits_le_length).
  assert (E1 : firstn (8 * n) (flat_map g l) = flat_map g (firstn (n * c) l)).
  { rewrite <- (firstn_skipn (n * c) l) at 1. rewrite flat_map_app, firstn_app.
    rewrite (flat_map_length_const _ _ g w (firstn (n * c) l)) by auto. rewrite firstn_length, Nat.min_l by lia.
    replace (8 * n - w * (n * c))%nat with 0%nat by (rewrite <- Hwc; lia). rewrite firstn_O, app_nil_r. apply firstn_all2.
    rewrite (flat_map_length_const _ _ g w) by auto. rewrite firstn_length, Nat.min_l by lia. rewrite <- Hwc. lia. }
  rewrite E1. set (D := flat_map g (firstn (n * c) l)).
  assert (LD : length D = (n * 8)%nat).
  { unfold D. rewrite (flat_map_length_const _ _ g w) by auto. rewrite firstn_length, Nat.min_l by lia. rewrite <- Hwc. lia. }
  pose proof (pad_rounds_bounds n) as Hb.
  assert (Ho8 : (outLen = 8 * (outLen / 8))%nat).
  { apply Nat.mod_divides in Ho; [|lia]. destruct Ho as [q ->]. replace (1088 * q)%nat with (136 * q * 8)%nat by lia. rewrite Nat.div_mul by lia. lia. }
  set (a := (pad_rounds n * 136 - n - 2)%nat). set (b := (outLen / 8 - pad_rounds n * 136)%nat).
  assert (Ea : (pad_rounds n * 1088 - 8 - (8 * n + 8) = 8 * a)%nat) by (unfold a; lia).
  assert (Eb : (outLen - (pad_rounds n * 1088 - 7) = 7 + 8 * b)%nat) by (unfold b; lia).
  rewrite Ea, Eb.
  assert (Erow : D ++ repeat 0 7 ++ [1] ++ repeat 0 (8 * a) ++ [1] ++ repeat 0 (7 + 8 * b) =
     D ++ (repeat 0 7 ++ [1]) ++ repeat 0 (8 * a) ++ ([1] ++ repeat 0 7) ++ repeat 0 (8 * b)).
  { rewrite (repeat_app 0 7 (8 * b)). rewrite <- !app_assoc. reflexivity. }
  rewrite Erow. clear Erow.
  assert (Lrow : length (D ++ (repeat 0 7 ++ [1]) ++ repeat 0 (8 * a) ++ ([1] ++ repeat 0 7) ++ repeat 0 (8 * b)) = ((n + (1 + (a + (1 + b)))) * 8)%nat).
  { rewrite !app_length, !repeat_length, LD. cbn [length]. lia. }
  assert (Htot : ((n + (1 + (a + (1 + b)))) * 8 = outLen)%nat) by (unfold a, b; lia).
  split; [rewrite Lrow; auto|].
  rewrite (flip_sub_spec _ 0 (n + (1 + (a + (1 + b))))) by (auto; lia).
  rewrite chunks_app by auto. rewrite flat_map_app.
  rewrite chunks_app by reflexivity. rewrite flat_map_app.
  rewrite chunks_app by (rewrite repeat_length; lia). rewrite flat_map_app.
  rewrite chunks_app by reflexivity. rewrite flat_map_app.
  rewrite !flat_map_rev_zeros. unfold D, g. rewrite flipped_digits with (c := c); auto.
  2:{ rewrite firstn_length. lia. }
  2:{ rewrite <- (firstn_skipn (n * c) l) in F. apply Forall_app in F. tauto. }
  set (m := digit_bytes n c w (firstn (n * c) l)).
  assert (Lm : length m = n). { unfold m, digit_bytes. rewrite map_length. clear. generalize (firstn (n * c) l). induction n; intros; cbn; auto. }
  unfold pad_out. rewrite Lm. f_equal. unfold zbits. rewrite !map_app. pose proof zbits_repeat as Zr. unfold zbits in Zr. rewrite <- !Zr.
  f_equal. change (flat_map (@rev Z) (chunks 1 8 (repeat 0 7 ++ [1]))) with ([1] ++ repeat 0 7).
  change (flat_map (@rev Z) (chunks 1 8 ([1] ++ repeat 0 7))) with (repeat 0 7 ++ [1]). change (map bit_of [true]) with [1].
  rewrite <- !app_assoc. f_equal. rewrite !app_assoc. f_equal; [|f_equal; unfold b; lia]. f_equal.
  rewrite <- !repeat_app. f_equal. unfold a. lia.
Qed.

Lemma log_cases logc : (logc <= 3)%nat -> (8 / 2 ^ logc * 2 ^ logc = 8)%nat /\ (8 / (8 / 2 ^ logc) = 2 ^ logc)%nat /\ (0 < 2 ^ logc)%nat.
Proof. intros H. do 4 (destruct logc as [|logc]; [cbn; lia|]). lia. Qed.

Theorem pad101_bits_ok : forall logc mn mx input inLen out, (logc <= 3)%nat -> Forall (felt p) input -> felt p inLen ->
  Z.of_nat mx < 2 ^ 60 ->
  let c := (2 ^ logc)%nat in let w := (8 / c)%nat in
  let outLen := (((mx * w + 8) / 1088 + 1) * 1088)%nat in
  (pad101_bits p logc mn mx input inLen = Some out <->
   length input = mx /\ (mn mod c = 0)%nat /\ (mx mod c = 0)%nat /\ Forall (fun d => 0 <= d < 2 ^ Z.of_nat w) input /\
   exists n, inLen = Z.of_nat (n * c) /\ (mn <= n * c <= mx)%nat /\
             out = zbits (pad_out outLen (digit_bytes n c w (firstn (n * c) input)))).
Proof.
  intros logc mn mx input inLen out Hlog F Hin Hmx c w outLen.
  destruct (log_cases logc Hlog) as [Hwc [Hc8 Hc0]]. fold c in Hwc, Hc8, Hc0. fold w in Hwc, Hc8.
  assert (Hbig : 2 ^ 60 + 2 ^ 60 < p) by (assert (2 ^ 60 + 2 ^ 60 < 2 ^ 65) by reflexivity; lia).
  assert (Hc8le : (c <= 8)%nat) by (unfold c; clear -Hlog; do 4 (destruct logc as [|logc]; [cbn; lia|]); lia).
  unfold pad101_bits. fold c. fold w. unfold check_len. rewrite Hc8. fold outLen.
  assert (Ho : (outLen mod 1088 = 0)%nat) by (unfold outLen; apply Nat.mod_mul; lia).
  assert (Ho8 : (outLen mod (8 / 1) = 0)%nat).
  { change (8 / 1)%nat with 8%nat. unfold outLen. replace 1088%nat with (136 * 8)%nat at 2 by lia. rewrite Nat.mul_assoc. apply Nat.mod_mul. lia. }
  rewrite Ho8.
  assert (Hcp : Z.of_nat c = 2 ^ Z.of_nat logc) by (unfold c; rewrite Nat2Z.inj_pow; reflexivity).
  assert (Hp0 : p <> 0) by lia.
  assert (Houtv : outLen = (((mx * w + 8) / 1088 + 1) * 1088)%nat) by reflexivity.
  assert (Core : length input = mx -> (mn <= mx)%nat -> (mn mod c = 0)%nat -> (mx mod c = 0)%nat -> Forall (fun d => 0 <= d < 2 ^ Z.of_nat w) input ->
    (let bits := flat_map (fun d => rev (bits_le w d)) input in
     let rows := ((mx - mn) * w / 8 + 1)%nat in
     let padded := map (fun i => pad_row bits (mn * w + i * 8) outLen) (seq 0 rows) in
     let sel := fdiv_pow2 p (fsub p inLen (Z.of_nat mn)) logc in
     let* o := m_multiplex p sel outLen rows (transpose_n outLen padded) in flip_sub 0 o 8) = Some out <->
    exists n, inLen = Z.of_nat (n * c) /\ (mn <= n * c <= mx)%nat /\ out = zbits (pad_out outLen (digit_bytes n c w (firstn (n * c) input)))).
  { intros Hl Hle Hmn Hmxc Fd. cbv zeta. clearbody outLen w c. clear Hc8 Ho8 Hlog.
    set (bits := flat_map (fun d => rev (bits_le w d)) input). set (rows := ((mx - mn) * w / 8 + 1)%nat).
    apply Nat.mod_divides in Hmn; [|lia]. apply Nat.mod_divides in Hmxc; [|lia]. destruct Hmn as [n0 Hn0]. destruct Hmxc as [n1 Hn1].
    assert (Hrows : rows = (n1 - n0 + 1)%nat).
    { unfold rows. f_equal. rewrite Hn0, Hn1. rewrite <- Nat.mul_sub_distr_l. replace (c * (n1 - n0) * w)%nat with ((n1 - n0) * 8)%nat by (rewrite <- Hwc; ring). apply Nat.div_mul. lia. }
    assert (Hn01 : (n0 <= n1)%nat) by nia.
    assert (Hrow : forall i, (i < rows)%nat -> (mn * w + i * 8 = 8 * (n0 + i))%nat) by (intros i Hi; rewrite Hn0; replace 8%nat with (w * c)%nat by lia; ring).
    assert (Hmono : forall n, (n <= n1)%nat -> (pad_rounds n * 1088 <= outLen)%nat).
    { intros n Hn. unfold pad_rounds. rewrite Houtv. apply Nat.mul_le_mono_r. apply Nat.add_le_mono_r. apply Nat.div_le_mono; [lia|].
      rewrite Hn1. replace (c * n1 * w)%nat with (8 * n1)%nat by (rewrite <- Hwc; ring). lia. }
    assert (Hpr : forall i, (i < rows)%nat -> length (pad_row bits (mn * w + i * 8) outLen) = outLen /\
        flip_sub 0 (pad_row bits (mn * w + i * 8) outLen) 8 = Some (zbits (pad_out outLen (digit_bytes (n0 + i) c w (firstn ((n0 + i) * c) input))))).
    { intros i Hi. rewrite (Hrow i Hi). apply pad_row_flip; auto. - nia. - apply Hmono. lia. }
    assert (Hbitrow : forall i x, (i < rows)%nat -> In x (pad_row bits (mn * w + i * 8) outLen) -> felt p x).
    { intros i x Hi Hx. apply felt_bit; auto.
      assert (Fb : Forall is_bit bits).
      { unfold bits. apply Forall_flat_map. apply Forall_forall. intros d _. apply Forall_rev. apply bits_le_Forall. }
      rewrite Forall_forall in Fb. unfold pad_row in Hx.
      repeat (apply in_app_or in Hx; destruct Hx as [Hx|Hx]);
        try (apply repeat_spec in Hx; subst; left; reflexivity); try (cbn in Hx; destruct Hx as [<-|[]]; right; reflexivity).
      apply Fb. rewrite <- (firstn_skipn (mn * w + i * 8) bits). apply in_or_app. auto. }
    set (sel := fdiv_pow2 p (fsub p inLen (Z.of_nat mn)) logc).
    assert (Hsel : felt p sel) by apply fdiv_pow2_felt.
    assert (Hselv : (sel * Z.of_nat c) mod p = (inLen - Z.of_nat mn) mod p).
    { pose proof (fdiv_pow2_ok (fsub p inLen (Z.of_nat mn)) logc) as E. fold sel in E.
      rewrite Hcp. rewrite E. unfold fsub. apply Z.mod_mod. lia. }
    unfold felt in Hin, Hsel.
    assert (Hmux : m_multiplex p sel outLen rows (transpose_n outLen (map (fun i => pad_row bits (mn * w + i * 8) outLen) (seq 0 rows))) =
      if sel <? Z.of_nat rows then Some (pad_row bits (mn * w + Z.to_nat sel * 8) outLen) else None).
    { rewrite m_multiplex_ok; auto.
      - destruct (Z.ltb_spec sel (Z.of_nat rows)) as [Hlt|Hge]; auto. f_equal. unfold transpose_n. rewrite map_map.
        apply nth_ext' with (d := 0); [rewrite map_length, seq_length; symmetry; apply Hpr; lia|].
        intros j Hj. rewrite map_length, seq_length in Hj. rewrite nth_map_seq by auto.
        rewrite (nth_map' _ _ (fun r => nth (0 + j) r 0)) with (d' := []) by (rewrite map_length, seq_length; lia).
        rewrite nth_map_seq by lia. reflexivity.
      - nia.
      - unfold transpose_n. now rewrite map_length, seq_length.
      - intros row Hr. unfold transpose_n in Hr. apply in_map_iff in Hr. destruct Hr as [j [<- Hj]]. apply in_seq in Hj.
        split; [now rewrite !map_length, seq_length|]. intros x Hx. rewrite map_map in Hx. apply in_map_iff in Hx. destruct Hx as [i [<- Hi]]. apply in_seq in Hi.
        apply (Hbitrow i); [lia|]. apply nth_In. destruct (Hpr i ltac:(lia)) as [-> _]. lia. }
    rewrite Hmux. split.
    - intros H. destruct (Z.ltb_spec sel (Z.of_nat rows)) as [Hlt|Hge]; [|discriminate]. cbn [obind] in H.
      destruct (Hpr (Z.to_nat sel) ltac:(lia)) as [_ E]. rewrite E in H. exists (n0 + Z.to_nat sel)%nat.
      assert (Heq : inLen = Z.of_nat ((n0 + Z.to_nat sel) * c)).
      { assert (Hsmall : 0 <= sel * Z.of_nat c + Z.of_nat mn < p) by nia.
        assert ((sel * Z.of_nat c + Z.of_nat mn) mod p = inLen mod p) as Hm.
        { rewrite Z.add_mod, Hselv, <- Z.add_mod by lia. f_equal. lia. }
        rewrite !Z.mod_small in Hm by lia. rewrite <- Hm. rewrite Hn0. nia. }
      split; [exact Heq|]. split; [nia|]. congruence.
    - intros [n [Hn [Hrng Hout]]].
      assert (Hs : sel = Z.of_nat (n - n0)).
      { assert (E2 : (sel * Z.of_nat c) mod p = (Z.of_nat (n - n0) * Z.of_nat c) mod p).
        { rewrite Hselv, Hn. f_equal. rewrite Hn0. nia. }
        assert (E3 : (Z.of_nat c * ((p + 1) / 2) ^ Z.of_nat logc) mod p = 1).
        { pose proof (fdiv_pow2_ok 1 logc) as E3. unfold fdiv_pow2 in E3. rewrite Z.mul_1_l, Z.mul_mod_idemp_l in E3 by lia.
          rewrite Hcp. rewrite Z.mul_comm, E3. apply Z.mod_small. lia. }
        assert (E4 : forall x, 0 <= x < p -> ((x * Z.of_nat c) mod p * ((p + 1) / 2) ^ Z.of_nat logc) mod p = x).
        { intros x Hx. rewrite Z.mul_mod_idemp_l by exact Hp0. rewrite <- Z.mul_assoc. rewrite <- Z.mul_mod_idemp_r by exact Hp0. rewrite E3, Z.mul_1_r. apply Z.mod_small; auto. }
        rewrite <- (E4 sel) by auto. rewrite E2. apply E4. assert (n <= n * c)%nat by (clear -Hc0; nia). lia. }
      rewrite Hs. replace (Z.of_nat (n - n0) <? Z.of_nat rows) with true by (symmetry; apply Z.ltb_lt; nia). cbn [obind]. rewrite Nat2Z.id.
      destruct (Hpr (n - n0)%nat ltac:(nia)) as [_ E]. rewrite E. replace (n0 + (n - n0))%nat with n by nia. congruence. }
  split.
  - intros H. apply obind_Some in H. destruct H as [u1 [G1 H]]. apply guard_Some in G1. apply Nat.eqb_eq in G1.
    apply obind_Some in H. destruct H as [u2 [G2 H]]. apply obind_Some in H. destruct H as [u3 [G3 H]]. apply obind_Some in H. destruct H as [u4 [G4 H]].
    apply obind_Some in H. destruct H as [u5 [G5 H]]. apply obind_Some in H. destruct H as [bs [Hbs H]].
    apply obind_Some in H. destruct H as [u6 [G6 H]]. apply guard_Some in G3, G4, G6. apply Nat.eqb_eq in G3, G4. apply Nat.leb_le in G6.
    assert (Fd : Forall (fun d => 0 <= d < 2 ^ Z.of_nat w) input).
    { apply Forall_forall. intros x Hx. rewrite Forall_forall in F. pose proof (F x Hx) as Fx.
      apply In_nth with (d := 0) in Hx. destruct Hx as [i [Hi <-]]. pose proof (omap_Some_nth _ _ _ _ _ Hbs i 0 [] Hi) as E.
      apply obind_Some in E. destruct E as [b [E _]]. destruct (Z.lt_ge_cases (nth i input 0) (2 ^ Z.of_nat w)); [unfold felt in Fx; lia|].
      rewrite to_binary_fail in E; auto. discriminate. }
    assert (Ebs : bs = map (fun d => rev (bits_le w d)) input).
    { rewrite (omap_total _ _ _ (fun d => rev (bits_le w d))) in Hbs; [congruence|].
      intros x Hx. rewrite Forall_forall in F, Fd. rewrite to_binary_ok by (auto; apply Fd; auto). reflexivity. }
    subst bs. rewrite <- flat_map_concat_map in H. repeat (split; [assumption|]). apply Core; auto.
  - intros [G1 [G3 [G4 [Fd [n [Hn [Hr Hout]]]]]]]. rewrite G1, Nat.eqb_refl. cbn [guard obind]. rewrite G3, G4. cbn [Nat.eqb guard obind].
    rewrite (omap_total _ _ _ (fun d => rev (bits_le w d))).
    2:{ intros x Hx. rewrite Forall_forall in F, Fd. rewrite to_binary_ok by (auto; apply Fd; auto). reflexivity. }
    cbn [obind]. replace (Nat.leb mn mx) with true by (symmetry; apply Nat.leb_le; lia). cbn [guard obind].
    rewrite <- flat_map_concat_map. apply Core; auto; [lia|]. exists n. auto.
Qed.

(** Whenever the message length is not 135 modulo 136 this is the Keccak padding... *)
Lemma pad_out_good : forall outLen m, (length m mod 136 <> 135)%nat ->
  pad_out outLen m = pad101 (bytes_bits m) ++ repeat false (outLen - 1088 * (length m / 136 + 1)).
Proof.
  intros outLen m H. unfold pad_out, pad101. rewrite bytes_bits_length, pad_count. unfold pad_rounds, miss_of.
  pose proof (Nat.div_mod (length m) 136 ltac:(lia)) as Hd. pose proof (Nat.mod_upper_bound (length m) 136 ltac:(lia)) as Hu.
  assert (E : ((8 * length m + 8) / 1088 = length m / 136)%nat).
  { replace (8 * length m + 8)%nat with (8 * (length m + 1))%nat by lia. change 1088%nat with (8 * 136)%nat. rewrite Nat.div_mul_cancel_l by lia.
    rewrite Hd at 1. replace (136 * (length m / 136) + length m mod 136 + 1)%nat with ((length m mod 136 + 1) + (length m / 136) * 136)%nat by lia.
    rewrite Nat.div_add by lia. rewrite Nat.div_small by lia. reflexivity. }
  rewrite E. rewrite <- !app_assoc. apply f_equal. apply f_equal. apply f_equal2.
  - apply f_equal. lia.
  - apply f_equal. apply f_equal. lia.
Qed.
(** ... and when it is, the first blocks are not the Keccak padding. *)
Lemma pad_out_bad : forall outLen m rest, (length m mod 136 = 135)%nat -> pad_out outLen m <> pad101 (bytes_bits m) ++ rest.
Proof.
  intros outLen m rest H. unfold pad_out, pad101. rewrite bytes_bits_length, pad_count. unfold miss_of. rewrite H.
  pose proof (Nat.div_mod (length m) 136 ltac:(lia)) as Hd. set (q := (length m / 136)%nat) in *.
  assert (E : pad_rounds (length m) = (q + 2)%nat).
  { unfold pad_rounds. replace (8 * length m + 8)%nat with ((q + 1) * 1088)%nat by lia. rewrite Nat.div_mul by lia. lia. }
  rewrite E. intros Heq. rewrite <- !app_assoc in Heq. apply app_inv_head in Heq.
  replace ((q + 2) * 1088 - 8 * length m - 2)%nat with (7 + (1087))%nat in Heq by lia.
  apply (f_equal (fun l => nth 7 l false)) in Heq. discriminate Heq.
Qed.
End P.
