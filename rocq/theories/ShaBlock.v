(** * ShaBlock.v — blockGeneric computes the FIPS 180-4 compression of every block *)
From Coq Require Import ZArith List Bool Arith Lia.
From Verif Require Import Field FieldLemmas KeccakModel KeccakWords ShaModel ShaSpec ShaWords.
Import ListNotations.
Open Scope Z_scope.
Open Scope circ_scope.

Definition byte8 (b : Z) : Prop := 0 <= b < 256.
Definition bb (l : list Z) : list (list Z) := map (bits_le 8) l.

Lemma upd_len {A} i (x : A) l : (i < length l)%nat -> length (upd i x l) = length l.
Proof. intros H. unfold upd. rewrite app_length, firstn_length. cbn [length]. rewrite skipn_length. lia. Qed.
Lemma upd_nth {A} i j (x d : A) l : (i < length l)%nat -> nth j (upd i x l) d = if Nat.eqb j i then x else nth j l d.
Proof.
  intros H. unfold upd. destruct (Nat.eqb_spec j i) as [->|N].
  - rewrite app_nth2; rewrite firstn_length, Nat.min_l by lia; [|lia]. rewrite Nat.sub_diag. reflexivity.
  - destruct (Nat.lt_ge_cases j i).
    + rewrite app_nth1 by (rewrite firstn_length; lia). apply nth_firstn'. auto.
    + rewrite app_nth2; rewrite firstn_length, Nat.min_l by lia; [|lia].
      destruct (j - i)%nat as [|k] eqn:E; [lia|]. cbn [nth]. rewrite nth_skipn'. f_equal. lia.
Qed.
Lemma seq_snoc n : seq 0 (S n) = seq 0 n ++ [n].
Proof. replace (S n) with (n + 1)%nat by lia. rewrite seq_app. reflexivity. Qed.
Lemma seq_snoc' a n : seq a (S n) = seq a n ++ [(a + n)%nat].
Proof. replace (S n) with (n + 1)%nat by lia. rewrite seq_app. reflexivity. Qed.

Lemma be_app : forall l a, fold_left (fun a b => 256 * a + b) l a = a * 256 ^ Z.of_nat (length l) + be l.
Proof.
  unfold be. induction l as [|x l IH]; intros a; cbn [fold_left length]; [change (256 ^ Z.of_nat 0) with 1; lia|].
  rewrite IH, (IH (256 * 0 + x)). rewrite Nat2Z.inj_succ, Z.pow_succ_r by lia. ring.
Qed.
Lemma be_cons b l : be (b :: l) = b * 256 ^ Z.of_nat (length l) + be l.
Proof. unfold be. cbn [fold_left]. rewrite be_app. unfold be. ring. Qed.
Lemma be_range l : Forall byte8 l -> 0 <= be l < 256 ^ Z.of_nat (length l).
Proof.
  induction 1 as [|b l Hb F IH]; [cbn; lia|]. rewrite be_cons. cbn [length]. rewrite Nat2Z.inj_succ, Z.pow_succ_r by lia. unfold byte8 in Hb. nia.
Qed.
Lemma lor_byte q b : 0 <= q -> byte8 b -> Z.lor (Z.shiftl q 8) b = 256 * q + b.
Proof.
  intros Hq Hb. assert (Hl : Z.land (Z.shiftl q 8) b = 0).
  { apply Z.bits_inj'. intros i Hi. rewrite Z.land_spec, Z.testbit_0_l. destruct (Z.lt_ge_cases i 8).
    - rewrite Z.shiftl_spec_low by lia. reflexivity.
    - replace (Z.testbit b i) with false; [apply andb_false_r|]. symmetry. unfold byte8 in Hb.
      destruct (Z.eq_dec b 0) as [->|]; [apply Z.testbit_0_l|]. apply Z.bits_above_log2; [lia|]. apply Z.log2_lt_pow2; [lia|].
      apply Z.lt_le_trans with (2 ^ 8); [change (2 ^ 8) with 256; lia|]. apply Z.pow_le_mono_r; lia. }
  rewrite <- Z.lxor_lor by auto. rewrite <- Z.add_nocarry_lxor by auto. rewrite Z.shiftl_mul_pow2 by lia. change (2 ^ 8) with 256. lia.
Qed.
Fixpoint terms (l : list Z) : list Z := match l with [] => [] | b :: r => Z.shiftl b (8 * Z.of_nat (length r)) :: terms r end.
Lemma terms_or : forall l q, 0 <= q -> Forall byte8 l -> fold_left Z.lor (terms l) (Z.shiftl q (8 * Z.of_nat (length l))) = q * 256 ^ Z.of_nat (length l) + be l.
Proof.
  induction l as [|b l IH]; intros q Hq F.
  - cbn [terms fold_left length]. change (8 * Z.of_nat 0) with 0. rewrite Z.shiftl_0_r. change (256 ^ Z.of_nat 0) with 1. unfold be. cbn [fold_left]. lia.
  - inversion F as [|? ? Hb F']; subst. cbn [terms fold_left length].
    replace (8 * Z.of_nat (S (length l))) with (8 + 8 * Z.of_nat (length l)) by lia.
    rewrite <- Z.shiftl_shiftl by lia. rewrite <- Z.shiftl_lor, lor_byte by auto. rewrite IH by (auto; unfold byte8 in Hb; lia).
    rewrite be_cons, Nat2Z.inj_succ, Z.pow_succ_r by lia. ring.
Qed.
Lemma terms_map : forall l, terms l = map (fun k => Z.shiftl (nth k l 0) (8 * Z.of_nat (length l - 1 - k))) (seq 0 (length l)).
Proof.
  induction l as [|b l IH]; [reflexivity|]. cbn [terms length seq map nth]. apply f_equal2; [do 2 f_equal; lia|].
  rewrite IH, <- seq_shift, map_map. apply map_ext. intros k. cbn [nth]. do 3 f_equal. lia.
Qed.

Section P.
Variable p : Z.
Hypothesis Hp : 2 ^ 70 < p.
Let Hp2 : 2 < p. Proof. assert (2 < 2 ^ 70) by reflexivity. lia. Qed.
Variable c : sha_code.
Variable s : sha2.
Hypothesis Hag : agree c s.
Notation W := (cW c).
Notation B := (B c).
Notation word := (word c).
Definition n8 : nat := (W / 8)%nat.

Lemma n8_W : (W = 8 * n8)%nat.
Proof. unfold n8. destruct (ag_w8 c s Hag) as [b [-> _]]. rewrite Nat.mul_comm, Nat.div_mul by lia. lia. Qed.
Lemma n8_wbytes : wbytes s = n8.
Proof.
  unfold wbytes. rewrite <- (ag_w c s Hag). rewrite n8_W. rewrite Nat2Z.inj_mul. rewrite Z.mul_comm, Z.div_mul by lia. apply Nat2Z.id.
Qed.
Lemma chunk_16 : cChunk c = (16 * n8)%nat. Proof. apply (ag_chunk c s Hag). Qed.
Lemma chunk_bb : block_bytes s = cChunk c. Proof. unfold block_bytes. rewrite n8_wbytes, chunk_16. reflexivity. Qed.
Lemma n8_range : (4 <= n8 <= 8)%nat.
Proof. destruct (ag_w8 c s Hag) as [b [E H]]. pose proof n8_W. lia. Qed.
Lemma pow256 : 256 ^ Z.of_nat n8 = 2 ^ Z.of_nat W.
Proof. rewrite n8_W, Nat2Z.inj_mul. rewrite Z.pow_mul_r by lia. reflexivity. Qed.
Lemma two_w : 2 ^ sp_w s = 2 ^ Z.of_nat W. Proof. rewrite (ag_w c s Hag). reflexivity. Qed.

Lemma word_of_bits x : 0 <= x -> (forall i, Z.of_nat W <= i -> Z.testbit x i = false) -> word x.
Proof.
  intros Hx H. split; auto. destruct (Z.eq_dec x 0) as [->|]; [apply pow_pos|]. apply Z.log2_lt_pow2; [lia|].
  destruct (Z.lt_ge_cases (Z.log2 x) (Z.of_nat W)) as [|Hge]; [auto|]. pose proof (Z.bit_log2 x ltac:(lia)) as Ht. rewrite H in Ht by auto. discriminate.
Qed.
Lemma word_high x i : word x -> Z.of_nat W <= i -> Z.testbit x i = false.
Proof. intros H Hi. rewrite <- (Z2Nat.id i) by lia. apply (testbit_high c); auto. lia. Qed.
Lemma lxor_word a b : word a -> word b -> word (Z.lxor a b).
Proof.
  intros Ha Hb. apply word_of_bits.
  - unfold ShaWords.word in *. apply Z.lxor_nonneg. lia.
  - intros i Hi. rewrite Z.lxor_spec, !word_high by auto. reflexivity.
Qed.
Lemma land_word_l a b : word a -> 0 <= b -> word (Z.land a b).
Proof.
  intros Ha Hb. apply word_of_bits; [apply Z.land_nonneg; auto|]. intros i Hi. rewrite Z.land_spec, (word_high a) by auto. reflexivity.
Qed.
Lemma not_word a : word a -> word (not_ s a).
Proof.
  intros Ha. unfold not_. rewrite <- (ag_w c s Hag). apply lxor_word; auto. unfold ShaWords.word. rewrite Z.ones_equiv. pose proof (pow_pos c). lia.
Qed.
Lemma shiftr_word a r : word a -> 0 <= r -> word (Z.shiftr a r).
Proof.
  intros Ha Hr. apply word_of_bits; [apply Z.shiftr_nonneg; apply Ha|]. intros i Hi. rewrite Z.shiftr_spec by lia. apply word_high; auto. lia.
Qed.
Lemma rotr_word' a r : word a -> word (rotr s (Z.of_nat r) a).
Proof. intros Ha. destruct (rotr_word c s Hag a (Z.of_nat r) Ha); [auto|lia]. Qed.

Lemma xor3 a b d : w_xor p c [B a; B b; B d] = Some (B (Z.lxor (Z.lxor a b) d)).
Proof. change [B a; B b; B d] with (map B [a; b; d]). rewrite w_xor_ok by auto. cbn [fold_left]. rewrite Z.lxor_0_l. reflexivity. Qed.
Lemma xor2 a b : w_xor p c [B a; B b] = Some (B (Z.lxor a b)).
Proof. change [B a; B b] with (map B [a; b]). rewrite w_xor_ok by auto. cbn [fold_left]. rewrite Z.lxor_0_l. reflexivity. Qed.
Lemma and2 a b : w_and p c [B a; B b] = Some (B (Z.land a b)).
Proof. change [B a; B b] with (map B [a; b]). rewrite w_and_ok by auto. cbn [fold_left]. rewrite Z.land_m1_l. reflexivity. Qed.
Lemma add_n ws : Forall word ws -> (2 <= length ws <= 5)%nat -> w_add p c (map B ws) = Some (B (sumZ ws mod 2 ^ sp_w s)).
Proof. intros. rewrite two_w. apply (w_add_ok p Hp c s Hag); auto. Qed.

(** loading a block *)
Lemma load_word_ok blk i : length blk = cChunk c -> Forall byte8 blk -> (i < 16)%nat ->
  load_word p c (bb blk) i = Some (B (be (firstn n8 (skipn (n8 * i) blk)))).
Proof.
  intros L F Hi. pose proof n8_range as Hn. pose proof n8_W as HW. rewrite chunk_16 in L. unfold load_word. fold n8.
  set (bs := firstn n8 (skipn (n8 * i) blk)).
  assert (Lb : length bs = n8) by (unfold bs; rewrite firstn_length, skipn_length; nia).
  assert (Fb : Forall byte8 bs).
  { unfold bs. apply Forall_forall. intros x Hx. rewrite Forall_forall in F. apply F.
    assert (In x (skipn (n8 * i) blk)) by (rewrite <- (firstn_skipn n8); apply in_or_app; auto).
    rewrite <- (firstn_skipn (n8 * i) blk). apply in_or_app. auto. }
  assert (E : map (fun k => w_lshift c (to_word c (nth (n8 * i + k) (bb blk) [])) (W - 8 - 8 * k)) (seq 0 n8) = map B (terms bs)).
  { rewrite terms_map, Lb, map_map. apply map_ext_in. intros k Hk. apply in_seq in Hk.
    assert (Hx : nth (n8 * i + k) (bb blk) [] = bits_le 8 (nth k bs 0)).
    { unfold bb. rewrite nth_map' with (d' := 0) by nia. unfold bs. rewrite nth_firstn', nth_skipn' by lia. reflexivity. }
    rewrite Hx. rewrite (to_word_ok c s Hag).
    2:{ rewrite Forall_forall in Fb. apply Fb. apply nth_In. lia. }
    rewrite w_lshift_ok by lia. do 2 f_equal. lia. }
  rewrite E, w_or_ok by auto. pose proof (terms_or bs 0 ltac:(lia) Fb) as T. rewrite Z.shiftl_0_l, Z.mul_0_l, Z.add_0_l in T. rewrite T. reflexivity.
Qed.
Lemma be_word blk i : length blk = cChunk c -> Forall byte8 blk -> (i < 16)%nat -> word (be (firstn n8 (skipn (n8 * i) blk))).
Proof.
  intros L F Hi. rewrite chunk_16 in L. pose proof n8_range.
  set (bs := firstn n8 (skipn (n8 * i) blk)).
  assert (Lb : length bs = n8) by (unfold bs; rewrite firstn_length, skipn_length; nia).
  assert (Fb : Forall byte8 bs).
  { unfold bs. apply Forall_forall. intros x Hx. rewrite Forall_forall in F. apply F.
    assert (In x (skipn (n8 * i) blk)) by (rewrite <- (firstn_skipn n8); apply in_or_app; auto).
    rewrite <- (firstn_skipn (n8 * i) blk). apply in_or_app. auto. }
  pose proof (be_range bs Fb) as R. rewrite Lb, pow256 in R. exact R.
Qed.
Definition agrees (w : list (list Z)) (ws : list Z) : Prop :=
  length w = cWArr c /\ (length ws <= length w)%nat /\ Forall word ws /\ forall j, (j < length ws)%nat -> nth j w [] = B (nth j ws 0).
Lemma agrees_snoc w ws x : agrees w ws -> (length ws < cWArr c)%nat -> word x -> agrees (upd (length ws) (B x) w) (ws ++ [x]).
Proof.
  intros (L & Le & F & N) Hl Hx. unfold agrees. rewrite upd_len by lia. rewrite app_length. cbn [length]. split; [auto|]. split; [lia|]. split.
  - apply Forall_app. auto.
  - intros j Hj. rewrite upd_nth by lia. destruct (Nat.eqb_spec j (length ws)) as [->|].
    + rewrite app_nth2, Nat.sub_diag by lia. reflexivity.
    + rewrite app_nth1 by lia. apply N. lia.
Qed.
Lemma load_ok blk w : length blk = cChunk c -> Forall byte8 blk -> length w = cWArr c ->
  exists w1, ofold (fun w i => let* x := load_word p c (bb blk) i in Some (upd i x w)) (seq 0 16) w = Some w1 /\ agrees w1 (words_of s blk).
Proof.
  intros L F Lw. pose proof (ag_16 c s Hag). pose proof (ag_warr c s Hag). unfold words_of. rewrite n8_wbytes.
  assert (G : forall n, (n <= 16)%nat -> exists w1, ofold (fun w i => let* x := load_word p c (bb blk) i in Some (upd i x w)) (seq 0 n) w = Some w1 /\
     agrees w1 (map (fun i => be (firstn n8 (skipn (n8 * i) blk))) (seq 0 n))).
  { induction n as [|n IH]; intros Hn.
    - exists w. split; [reflexivity|]. repeat split; auto; cbn; try lia; try constructor.
    - destruct IH as [w1 [E A]]; [lia|]. exists (upd n (B (be (firstn n8 (skipn (n8 * n) blk)))) w1). rewrite seq_snoc, ofold_app, E. cbn [obind ofold].
      rewrite load_word_ok by (auto; lia). cbn [obind]. split; [reflexivity|]. rewrite map_app. cbn [map].
      pose proof (agrees_snoc w1 _ (be (firstn n8 (skipn (n8 * n) blk))) A) as G. rewrite map_length, seq_length in G. apply G; [lia|]. apply be_word; auto; lia. }
  apply (G 16%nat). lia.
Qed.

Lemma sigma_code r t x : word x -> (let '(a, b, d) := r in a < W /\ b < W /\ d < W)%nat -> t = (let '(a, b, d) := r in (Z.of_nat a, Z.of_nat b, Z.of_nat d)) ->
  (let '(a, b, d) := r in w_xor p c [w_rotr c (B x) a; w_rotr c (B x) b; w_rshift c (B x) d]) = Some (B (sigma s t x)) /\ word (sigma s t x).
Proof.
  intros Hx Hr ->. destruct r as [[a b] d]. destruct Hr as (Ha & Hb & Hd). rewrite !(w_rotr_ok c s Hag) by auto. rewrite w_rshift_ok by (auto; lia). rewrite xor3.
  split; [reflexivity|]. unfold sigma. repeat apply lxor_word; auto using rotr_word'. apply shiftr_word; auto; lia.
Qed.
Lemma Sigma_code r t x : word x -> (let '(a, b, d) := r in a < W /\ b < W /\ d < W)%nat -> t = (let '(a, b, d) := r in (Z.of_nat a, Z.of_nat b, Z.of_nat d)) ->
  (let '(a, b, d) := r in w_xor p c [w_rotr c (B x) a; w_rotr c (B x) b; w_rotr c (B x) d]) = Some (B (Sigma s t x)) /\ word (Sigma s t x).
Proof.
  intros Hx Hr ->. destruct r as [[a b] d]. destruct Hr as (Ha & Hb & Hd). rewrite !(w_rotr_ok c s Hag) by auto. rewrite xor3.
  split; [reflexivity|]. unfold Sigma. repeat apply lxor_word; auto using rotr_word'.
Qed.

Lemma schedule_length n m : length (schedule s n m) = (length m + n)%nat.
Proof. induction n as [|n IH]; cbn [schedule]; [lia|]. rewrite app_length, IH. cbn. lia. Qed.

Lemma sched_ok m w : length m = 16%nat -> agrees w m -> forall n, (16 + n <= cRounds c)%nat ->
  exists w2, ofold (sched_step p c) (seq 16 n) w = Some w2 /\ agrees w2 (schedule s n m).
Proof.
  intros Lm A n. induction n as [|n IH]; intros Hn.
  - exists w. split; [reflexivity|exact A].
  - destruct IH as [w2 [E A2]]; [lia|]. rewrite seq_snoc', ofold_app, E. cbn [obind ofold schedule]. set (ws := schedule s n m) in *.
    assert (Lws : length ws = (16 + n)%nat) by (unfold ws; rewrite schedule_length; lia).
    destruct A2 as (L2 & Le & F & N).
    assert (Fw : forall j, (j < 16 + n)%nat -> word (nth j ws 0)). { intros j Hj. rewrite Forall_forall in F. apply F, nth_In. lia. }
    unfold sched_step. rewrite !(N (16 + n - 2)%nat), !(N (16 + n - 15)%nat), !(N (16 + n - 7)%nat), !(N (16 + n - 16)%nat) by lia.
    destruct (ag_V1 c s Hag) as [V1a V1b]. destruct (ag_V2 c s Hag) as [V2a V2b].
    destruct (sigma_code (cV1 c) (sp_s1 s) (nth (16 + n - 2) ws 0)) as [S1 S1w]; auto. { apply Fw; lia. }
    destruct (sigma_code (cV2 c) (sp_s0 s) (nth (16 + n - 15) ws 0)) as [S2 S2w]; auto. { apply Fw; lia. }
    destruct (cV1 c) as [[a1 a2] a3]. destruct (cV2 c) as [[b1 b2] b3]. rewrite S1. cbn [obind]. rewrite S2. cbn [obind].
    match goal with |- context [w_add p c ?l] => change l with (map B [sigma s (sp_s1 s) (nth (16 + n - 2) ws 0); nth (16 + n - 7) ws 0; sigma s (sp_s0 s) (nth (16 + n - 15) ws 0); nth (16 + n - 16) ws 0]) end.
    rewrite add_n; [|repeat (apply Forall_cons; [auto; apply Fw; lia|]); constructor|cbn [length]; lia].
    cbn [obind]. eexists. split; [reflexivity|]. unfold sumZ. cbn [fold_left]. rewrite Z.add_0_l.
    pose proof (ag_warr c s Hag).
    rewrite <- Lws. apply agrees_snoc; [|lia|rewrite two_w; apply word_mod].
    split; [auto|]. split; [auto|]. split; [exact F|exact N].
Qed.

Lemma round_ok w ws st t : agrees w ws -> length st = 8%nat -> Forall word st -> (t < cRounds c)%nat -> (t < length ws)%nat ->
  round_step p c w (map B st) t = Some (map B (round s ws t st)) /\ length (round s ws t st) = 8%nat /\ Forall word (round s ws t st).
Proof.
  intros A L F Ht Hl. destruct st as [|a [|b [|cc [|d [|e [|f [|g [|h [|? ?]]]]]]]]]; try discriminate L.
  inversion F as [|? ? Wa F1]; subst. inversion F1 as [|? ? Wb F2]; subst. inversion F2 as [|? ? Wc F3]; subst. inversion F3 as [|? ? Wd F4]; subst.
  inversion F4 as [|? ? We F5]; subst. inversion F5 as [|? ? Wf F6]; subst. inversion F6 as [|? ? Wg F7]; subst. inversion F7 as [|? ? Wh _]; subst. clear F F1 F2 F3 F4 F5 F6 F7.
  cbn [map]. unfold round_step.
  destruct (ag_E c s Hag) as [Ea Eb]. destruct (ag_A c s Hag) as [Aa Ab].
  destruct (Sigma_code (cE c) (sp_S1 s) e) as [S1 S1w]; auto. destruct (Sigma_code (cA c) (sp_S0 s) a) as [S2 S2w]; auto.
  destruct (cE c) as [[e1 e2] e3]. destruct (cA c) as [[a1 a2] a3].
  rewrite S1. cbn [obind]. rewrite and2. cbn [obind]. rewrite (w_not_ok p Hp c s Hag). cbn [obind]. rewrite and2. cbn [obind]. rewrite xor2. cbn [obind].
  fold (Ch s e f g). rewrite const_word_ok. fold (B (nth t (cK c) 0)). rewrite (ag_K c s Hag) by auto.
  destruct A as (L2 & Le & F & N). rewrite N by auto.
  assert (Wt : word (nth t ws 0)) by (rewrite Forall_forall in F; apply F, nth_In; auto).
  assert (Wk : word (ShaSpec.K s t)).
  { unfold ShaSpec.K, cbrt_frac. rewrite two_w. apply word_mod. }
  assert (Wch : word (Ch s e f g)).
  { unfold Ch. apply lxor_word; apply land_word_l; auto; try (unfold ShaWords.word in *; lia). apply not_word; auto. }
  match goal with |- context [w_add p c [B h; ?x; ?y; ?z; ?u]] => change [B h; x; y; z; u] with (map B [h; Sigma s (sp_S1 s) e; Ch s e f g; ShaSpec.K s t; nth t ws 0]) end.
  rewrite add_n; [|repeat (apply Forall_cons; [assumption|]); constructor|cbn [length]; lia]. cbn [obind].
  set (T1 := sumZ [h; Sigma s (sp_S1 s) e; Ch s e f g; ShaSpec.K s t; nth t ws 0] mod 2 ^ sp_w s).
  assert (WT1 : word T1) by (unfold T1; rewrite two_w; apply word_mod).
  rewrite S2. cbn [obind]. rewrite !and2. cbn [obind]. rewrite xor3. cbn [obind]. fold (Maj a b cc).
  assert (Wmj : word (Maj a b cc)).
  { unfold Maj. repeat apply lxor_word; apply land_word_l; auto; unfold ShaWords.word in *; lia. }
  change [B (Sigma s (sp_S0 s) a); B (Maj a b cc)] with (map B [Sigma s (sp_S0 s) a; Maj a b cc]).
  rewrite add_n; [|repeat (apply Forall_cons; [assumption|]); constructor|cbn [length]; lia]. cbn [obind].
  set (T2 := sumZ [Sigma s (sp_S0 s) a; Maj a b cc] mod 2 ^ sp_w s).
  assert (WT2 : word T2) by (unfold T2; rewrite two_w; apply word_mod).
  change [B d; B T1] with (map B [d; T1]). rewrite add_n; [|repeat (apply Forall_cons; [assumption|]); constructor|cbn [length]; lia]. cbn [obind].
  change [B T1; B T2] with (map B [T1; T2]). rewrite add_n; [|repeat (apply Forall_cons; [assumption|]); constructor|cbn [length]; lia]. cbn [obind].
  assert (ET1 : T1 = (h + Sigma s (sp_S1 s) e + Ch s e f g + ShaSpec.K s t + nth t ws 0) mod 2 ^ sp_w s) by reflexivity.
  assert (ET2 : T2 = (Sigma s (sp_S0 s) a + Maj a b cc) mod 2 ^ sp_w s) by reflexivity.
  cbn [round]. rewrite <- ET1, <- ET2. unfold sumZ. cbn [fold_left]. rewrite !Z.add_0_l. split; [reflexivity|]. split; [reflexivity|].
  repeat (apply Forall_cons; [first [assumption|rewrite two_w; apply word_mod]|]). constructor.
Qed.
Lemma rounds_ok w ws st : agrees w ws -> length st = 8%nat -> Forall word st -> forall n, (n <= cRounds c)%nat -> (n <= length ws)%nat ->
  ofold (round_step p c w) (seq 0 n) (map B st) = Some (map B (rounds s n ws st)) /\ length (rounds s n ws st) = 8%nat /\ Forall word (rounds s n ws st).
Proof.
  intros A L F n. induction n as [|n IH]; intros H1 H2.
  - cbn. auto.
  - destruct IH as (E & L1 & F1); [lia|lia|]. rewrite seq_snoc, ofold_app, E. cbn [obind ofold rounds].
    destruct (round_ok w ws (rounds s n ws st) n A L1 F1 ltac:(lia) ltac:(lia)) as (E2 & L2 & F2). rewrite E2. cbn [obind]. auto.
Qed.

Lemma block_step_ok h w blk : length h = 8%nat -> Forall word h -> length w = cWArr c -> length blk = cChunk c -> Forall byte8 blk ->
  exists w', block_step p c (map B h, w) (bb blk) = Some (map B (compress s h blk), w') /\ length w' = cWArr c /\
    length (compress s h blk) = 8%nat /\ Forall word (compress s h blk).
Proof.
  intros Lh Fh Lw Lb Fb. unfold block_step.
  destruct (load_ok blk w Lb Fb Lw) as [w1 [E1 A1]]. rewrite E1. cbn [obind].
  assert (Lm : length (words_of s blk) = 16%nat) by (unfold words_of; rewrite map_length, seq_length; auto).
  pose proof (ag_16 c s Hag) as H16.
  destruct (sched_ok (words_of s blk) w1 Lm A1 (cRounds c - 16) ltac:(lia)) as [w2 [E2 A2]]. rewrite E2. cbn [obind].
  destruct (rounds_ok w2 _ h A2 Lh Fh (cRounds c)) as (E3 & L3 & F3); [lia|rewrite schedule_length; lia|]. rewrite E3. cbn [obind].
  unfold compress. rewrite <- (ag_rounds c s Hag). set (st := rounds s (cRounds c) (schedule s (cRounds c - 16) (words_of s blk)) h) in *.
  set (R := map (fun ab => (fst ab + snd ab) mod 2 ^ sp_w s) (combine h st)).
  assert (LR : length R = 8%nat) by (unfold R; rewrite map_length, combine_length; lia).
  assert (NR : forall j, (j < 8)%nat -> nth j R 0 = (nth j h 0 + nth j st 0) mod 2 ^ sp_w s).
  { intros j Hj. unfold R. rewrite (nth_map' _ _ _ _ _ _ (0, 0)) by (rewrite combine_length; lia). rewrite combine_nth by lia. reflexivity. }
  assert (E4 : omap (fun j => w_add p c [nth j (map B h) []; nth j (map B st) []]) (seq 0 8) = Some (map B R)).
  { transitivity (Some (map (fun j => B (nth j R 0)) (seq 0 8))).
    - apply omap_total. intros j Hj. apply in_seq in Hj. rewrite !(nth_map' _ _ B _ _ _ 0) by lia.
      change [B (nth j h 0); B (nth j st 0)] with (map B [nth j h 0; nth j st 0]).
      assert (W1 : word (nth j h 0)) by (rewrite Forall_forall in Fh; apply Fh, nth_In; lia).
      assert (W2 : word (nth j st 0)) by (rewrite Forall_forall in F3; apply F3, nth_In; lia).
      rewrite add_n; [|apply Forall_cons; [exact W1|apply Forall_cons; [exact W2|constructor]]|cbn [length]; lia].
      rewrite NR by lia. unfold sumZ. cbn [fold_left]. rewrite Z.add_0_l. reflexivity.
    - f_equal. rewrite <- (map_map (fun j => nth j R 0) B). f_equal. symmetry. apply list_as_map_seq. auto. }
  rewrite E4. cbn [obind]. exists w2. split; [reflexivity|]. split; [apply A2|]. split; [exact LR|].
  unfold R. apply Forall_forall. intros x Hx. apply in_map_iff in Hx. destruct Hx as [ab [<- _]]. rewrite two_w. apply word_mod.
Qed.

(** blockGeneric on the bytes of n whole blocks *)
Definition absorb (h m : list Z) : list Z := fold_left (compress s) (blocks s (length m / cChunk c) m) h.
Lemma chunk_pos : (0 < cChunk c)%nat. Proof. rewrite chunk_16. pose proof n8_range. lia. Qed.

Lemma blocks_app n m a b : length a = (n * cChunk c)%nat -> blocks s (n + m) (a ++ b) = blocks s n a ++ blocks s m b.
Proof.
  revert a. induction n as [|n IH]; intros a L.
  - destruct a; [reflexivity|discriminate].
  - cbn [Nat.add blocks]. rewrite chunk_bb. cbn [app]. rewrite firstn_app, skipn_app.
    replace (cChunk c - length a)%nat with 0%nat by nia. rewrite firstn_O, app_nil_r. cbn [skipn]. apply f_equal. apply IH. rewrite skipn_length. lia.
Qed.
Lemma blocks_map : forall n l, length l = (n * cChunk c)%nat -> blocks s n l = map (fun j => firstn (cChunk c) (skipn (cChunk c * j) l)) (seq 0 n).
Proof.
  induction n as [|n IH]; intros l L; [reflexivity|]. cbn [blocks seq map]. rewrite chunk_bb, Nat.mul_0_r. apply f_equal2; [reflexivity|].
  rewrite IH by (rewrite skipn_length; lia). rewrite <- seq_shift, map_map. apply map_ext. intros j.
  assert (Q : forall (l : list Z) a b, skipn a (skipn b l) = skipn (b + a) l).
  { clear. intros l a b. revert l. induction b as [|b IH]; intros [|x l]; cbn [skipn Nat.add]; auto. apply skipn_nil. }
  rewrite Q. do 2 f_equal. lia.
Qed.
Lemma absorb_words h m : length h = 8%nat -> Forall word h -> Forall byte8 m -> (length m mod cChunk c = 0)%nat ->
  block_generic p c (map B h) (bb m) = Some (map B (absorb h m)) /\ length (absorb h m) = 8%nat /\ Forall word (absorb h m).
Proof.
  intros Lh Fh Fm Hm. pose proof chunk_pos as Hc.
  pose proof (Nat.div_mod (length m) (cChunk c) ltac:(lia)) as Hd. rewrite Hm, Nat.add_0_r in Hd.
  unfold block_generic, absorb. unfold bb at 1 2. rewrite map_length. set (n := (length m / cChunk c)%nat) in *.
  rewrite blocks_map by lia.
  rewrite to_binary_ok; [|unfold felt; lia|apply pow_pos]. cbn [obind].
  assert (G : forall k w, (k <= n)%nat -> length w = cWArr c -> exists w',
     ofold (fun hw j => block_step p c hw (firstn (cChunk c) (skipn (cChunk c * j) (bb m)))) (seq 0 k) (map B h, w) =
       Some (map B (fold_left (compress s) (map (fun j => firstn (cChunk c) (skipn (cChunk c * j) m)) (seq 0 k)) h), w') /\ length w' = cWArr c /\
     length (fold_left (compress s) (map (fun j => firstn (cChunk c) (skipn (cChunk c * j) m)) (seq 0 k)) h) = 8%nat /\
     Forall word (fold_left (compress s) (map (fun j => firstn (cChunk c) (skipn (cChunk c * j) m)) (seq 0 k)) h)).
  { induction k as [|k IH]; intros w Hk Hw.
    - exists w. cbn. auto.
    - destruct (IH w) as (w' & E & Lw' & L8 & F8); [lia|auto|]. rewrite seq_snoc, ofold_app, E, map_app, fold_left_app. cbn [obind ofold map fold_left].
      set (hh := fold_left _ _ h) in *. set (blk := firstn (cChunk c) (skipn (cChunk c * k) m)).
      assert (Eb : firstn (cChunk c) (skipn (cChunk c * k) (bb m)) = bb blk).
      { unfold blk, bb. rewrite skipn_map, firstn_map. reflexivity. }
      rewrite Eb. destruct (block_step_ok hh w' blk) as (w2 & E2 & Lw2 & L82 & F82); auto.
      + unfold blk. rewrite firstn_length, skipn_length. nia.
      + unfold blk. apply Forall_forall. intros x Hx. rewrite Forall_forall in Fm. apply Fm.
        assert (In x (skipn (cChunk c * k) m)) by (rewrite <- (firstn_skipn (cChunk c)); apply in_or_app; auto).
        rewrite <- (firstn_skipn (cChunk c * k) m). apply in_or_app. auto.
      + rewrite E2. cbn [obind]. exists w2. auto. }
  destruct (G n (repeat (bits_le W 0) (cWArr c)) (le_n _)) as (w' & E & _ & L8 & F8); [apply repeat_length|].
  fold (bb m). rewrite E. cbn [obind fst]. auto.
Qed.
Lemma absorb_app h a b : (length a mod cChunk c = 0)%nat -> absorb h (a ++ b) = absorb (absorb h a) b.
Proof.
  intros Hm. pose proof chunk_pos as Hc. pose proof (Nat.div_mod (length a) (cChunk c) ltac:(lia)) as Hd. rewrite Hm, Nat.add_0_r in Hd.
  unfold absorb. rewrite <- fold_left_app. f_equal. rewrite app_length.
  replace ((length a + length b) / cChunk c)%nat with (length a / cChunk c + length b / cChunk c)%nat.
  - apply blocks_app. lia.
  - rewrite Hd at 2. rewrite (Nat.mul_comm (cChunk c)), Nat.div_add_l by lia. reflexivity.
Qed.
Lemma absorb_short h m : (length m < cChunk c)%nat -> absorb h m = h.
Proof. intros H. unfold absorb. rewrite Nat.div_small by auto. reflexivity. Qed.
End P.
