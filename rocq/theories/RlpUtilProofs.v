(** * RlpUtilProofs.v — lemmas about RlpUtilModel.v *)
From Coq Require Import ZArith List Lia Bool Arith.
From Verif Require Import Field FieldLemmas RlpUtilModel.
Import ListNotations.
Open Scope Z_scope.
Open Scope circ_scope.

Ltac Zify.zify_post_hook ::= Z.div_mod_to_equations.

Section P.
Variable p : Z.
Hypothesis Hp : 2 < p.

Lemma r_equal_ok a b : felt p a -> felt p b -> r_equal p a b = bit_of (a =? b).
Proof. apply fis_zero_sub; auto. Qed.

Lemma r_less_than_ok a b : felt p a -> felt p b -> r_less_than p a b = bit_of (a <? b).
Proof.
  intros Ha Hb. unfold r_less_than, fcmp. rewrite !felt_mod by auto.
  unfold fis_zero, fadd, bit_of, Z.ltb.
  destruct (a ?= b) eqn:E.
  - cbn [Z.add]. rewrite !Z.mod_small by (rewrite ?Z.mod_small; lia). reflexivity.
  - rewrite Zplus_mod_idemp_l. cbn [Z.add]. rewrite !Z.mod_0_l by lia. reflexivity.
  - replace (1 + 1) with 2 by ring. rewrite !Z.mod_small by (rewrite ?Z.mod_small; lia). reflexivity.
Qed.

Lemma r_equal_bit a b : is_bit (r_equal p a b). Proof. apply fis_zero_bit. Qed.
Lemma r_less_than_bit a b : is_bit (r_less_than p a b). Proof. apply fis_zero_bit. Qed.

(* one-hot mask *)
Lemma fold_mask_sum : forall w s acc sel, felt p sel -> Z.of_nat (s + w) < p -> 0 <= acc -> acc + 1 < p ->
  fold_left (fun a v => fadd p a v) (map (fun i => r_equal p (Z.of_nat i) sel) (seq s w)) acc
  = acc + bit_of ((Z.of_nat s <=? sel) && (sel <? Z.of_nat (s + w))).
Proof.
  induction w as [|w IH]; intros s acc sel Hs Hw Ha Hb; cbn [seq map fold_left].
  - replace (s + 0)%nat with s by lia.
    destruct (Z.leb_spec (Z.of_nat s) sel), (Z.ltb_spec sel (Z.of_nat s)); cbn; lia.
  - rewrite r_equal_ok by (auto; unfold felt; lia).
    destruct (Z.eqb_spec (Z.of_nat s) sel) as [E|E]; cbn [bit_of].
    + rewrite fadd_small by lia.
      assert (Hz : forall w' s' a, Z.of_nat s < Z.of_nat s' -> Z.of_nat (s' + w') < p -> 0 <= a < p ->
        fold_left (fun a v => fadd p a v) (map (fun i => r_equal p (Z.of_nat i) sel) (seq s' w')) a = a).
      { clear IH Ha Hb Hw acc. induction w' as [|w' IH']; intros s' a Hs' Hw' Ha; cbn [seq map fold_left]; auto.
        rewrite r_equal_ok by (auto; unfold felt; lia).
        destruct (Z.eqb_spec (Z.of_nat s') sel); [lia|]. cbn [bit_of]. rewrite fadd_small by lia.
        rewrite IH'; lia. }
      rewrite Hz by lia.
      destruct (Z.leb_spec (Z.of_nat s) sel), (Z.ltb_spec sel (Z.of_nat (s + S w))); cbn; lia.
    + rewrite fadd_small by lia. rewrite IH by (auto; lia).
      replace (S s + w)%nat with (s + S w)%nat by lia.
      destruct (Z.leb_spec (Z.of_nat s) sel), (Z.leb_spec (Z.of_nat (S s)) sel); cbn [andb]; try lia.
Qed.

Lemma r_decoder_ok : forall w sel, felt p sel -> Z.of_nat w < p ->
  r_decoder p w sel = Some (map (fun i => bit_of (Z.of_nat i =? sel)) (seq 0 w), bit_of (sel <? Z.of_nat w)).
Proof.
  intros w sel Hs Hw. unfold r_decoder.
  rewrite fold_mask_sum by (auto; lia). cbn [Nat.add].
  replace (Z.of_nat 0 <=? sel) with true by (unfold felt in Hs; symmetry; apply Z.leb_le; lia).
  cbn [andb]. rewrite Z.add_0_l.
  rewrite assert_bool_ok by (auto using bit_of_bit). cbn. f_equal. f_equal.
  apply map_ext_in. intros i Hi. apply in_seq in Hi. apply r_equal_ok; auto. unfold felt; lia.
Qed.

Lemma escalar_onehot : forall w (a : list Z) sel, felt p sel -> (forall x, In x a -> felt p x) ->
  Z.of_nat w < p -> (w <= length a)%nat ->
  r_escalar p w a (map (fun i => bit_of (Z.of_nat i =? sel)) (seq 0 w))
  = if sel <? Z.of_nat w then nth (Z.to_nat sel) a 0 else 0.
Proof.
  intros w a sel Hs Ha Hw Hl. unfold r_escalar.
  set (mask := map _ _).
  assert (Hmask : forall i, (i < w)%nat -> nth i mask 0 = bit_of (Z.of_nat i =? sel)).
  { intros i Hi. unfold mask. rewrite nth_map_seq by auto. reflexivity. }
  assert (H : forall k, (k <= w)%nat ->
    fold_left (fun acc i => fadd p acc (fmul p (nth i a 0) (nth i mask 0))) (seq 0 k) 0
    = if sel <? Z.of_nat k then nth (Z.to_nat sel) a 0 else 0).
  { induction k as [|k IH]; intros Hk.
    - cbn. destruct (Z.ltb_spec sel 0); auto. unfold felt in Hs; lia.
    - rewrite seq_S, fold_left_app. cbn [fold_left Nat.add]. rewrite IH by lia. rewrite Hmask by lia.
      assert (Hnk : felt p (nth k a 0)) by (apply Ha; apply nth_In; lia).
      unfold felt in *.
      destruct (Z.ltb_spec sel (Z.of_nat k)), (Z.ltb_spec sel (Z.of_nat (S k))), (Z.eqb_spec (Z.of_nat k) sel);
        try lia; cbn [bit_of]; unfold fadd, fmul.
      + rewrite Z.mul_0_r, Z.mod_0_l, Z.add_0_r by lia. apply Z.mod_small.
        pose proof (Ha (nth (Z.to_nat sel) a 0) ltac:(apply nth_In; lia)). lia.
      + subst sel. rewrite Nat2Z.id, Z.mul_1_r, Z.add_0_l, Z.mod_mod by lia. apply Z.mod_small; lia.
      + rewrite Z.mul_0_r, Zmod_0_l. reflexivity. }
  apply H. lia.
Qed.

Lemma m_multiplex_ok : forall sel wIn nIn input, felt p sel -> Z.of_nat nIn < p ->
  length input = wIn -> (forall row, In row input -> length row = nIn /\ forall x, In x row -> felt p x) ->
  m_multiplex p sel wIn nIn input =
    if sel <? Z.of_nat nIn then Some (map (fun row => nth (Z.to_nat sel) row 0) input) else None.
Proof.
  intros sel wIn nIn input Hs Hn Hl Hrows. unfold m_multiplex.
  rewrite r_decoder_ok by auto. cbn [obind]. rewrite Hl, Nat.leb_refl. cbn [guard obind].
  rewrite (omap_total _ _ _ (fun i => if sel <? Z.of_nat nIn then nth (Z.to_nat sel) (nth i input []) 0 else 0)).
  - cbn [obind]. destruct (Z.ltb_spec sel (Z.of_nat nIn)); cbn [bit_of].
    + unfold assert_eq. rewrite !Z.mod_small by lia. cbn. f_equal.
      apply (nth_ext' _ _ _ 0); [rewrite !map_length, seq_length; auto|].
      intros i Hi. rewrite map_length, seq_length in Hi. rewrite nth_map_seq by auto. cbn.
      rewrite (nth_map' _ _ _ _ _ _ []) by lia. reflexivity.
    + unfold assert_eq. rewrite Z.mod_0_l, Z.mod_small by lia. reflexivity.
  - intros i Hi. apply in_seq in Hi. unfold m_dot_product.
    assert (Hin : In (nth i input []) input) by (apply nth_In; lia).
    destruct (Hrows _ Hin) as [Hlr Hfr].
    rewrite map_length, seq_length, Hlr, Nat.eqb_refl. cbn [guard obind]. f_equal.
    apply escalar_onehot; auto. lia.
Qed.

Lemma r_multiplexer_ok : forall sel wIn nIn input, felt p sel -> Z.of_nat nIn < p ->
  (wIn <= length input)%nat -> (forall row, In row input -> (nIn <= length row)%nat /\ forall x, In x row -> felt p x) ->
  r_multiplexer p sel wIn nIn input =
    if sel <? Z.of_nat nIn then Some (map (fun row => nth (Z.to_nat sel) row 0) (firstn wIn input)) else None.
Proof.
  intros sel wIn nIn input Hs Hn Hl Hrows. unfold r_multiplexer.
  rewrite r_decoder_ok by auto. cbn [obind].
  replace (Nat.leb wIn (length input)) with true by (symmetry; apply Nat.leb_le; auto). cbn [guard obind].
  rewrite (omap_total _ _ _ (fun i => if sel <? Z.of_nat nIn then nth (Z.to_nat sel) (nth i input []) 0 else 0)).
  - cbn [obind]. destruct (Z.ltb_spec sel (Z.of_nat nIn)); cbn [bit_of].
    + unfold assert_eq. rewrite !Z.mod_small by lia. cbn. f_equal.
      apply (nth_ext' _ _ _ 0); [rewrite !map_length, seq_length, firstn_length; lia|].
      intros i Hi. rewrite map_length, seq_length in Hi. rewrite nth_map_seq by auto. cbn.
      rewrite (nth_map' _ _ _ (firstn wIn input) _ _ []) by (rewrite firstn_length; lia).
      rewrite <- (firstn_skipn wIn input) at 1. rewrite app_nth1 by (rewrite firstn_length; lia). reflexivity.
    + unfold assert_eq. rewrite Z.mod_0_l, Z.mod_small by lia. reflexivity.
  - intros i Hi. apply in_seq in Hi.
    assert (Hin : In (nth i input []) input) by (apply nth_In; lia).
    destruct (Hrows _ Hin) as [Hlr Hfr].
    replace (Nat.leb nIn (length (nth i input []))) with true by (symmetry; apply Nat.leb_le; auto).
    cbn [guard obind]. f_equal. apply escalar_onehot; auto.
Qed.

Lemma r_mux1_ok : forall sel n row, felt p sel -> Z.of_nat n < p -> (n <= length row)%nat ->
  (forall x, In x row -> felt p x) ->
  r_mux1 p sel n row = if sel <? Z.of_nat n then Some (nth (Z.to_nat sel) row 0) else None.
Proof.
  intros sel n row Hs Hn Hl Hf. unfold r_mux1.
  rewrite r_multiplexer_ok; auto.
  - destruct (sel <? Z.of_nat n); reflexivity.
  - intros r [<-|[]]. auto.
Qed.

(* ArrayEqual *)
Fixpoint matches (a b : list Z) : nat :=
  match a, b with
  | x :: a', y :: b' => (if (x =? y)%Z then 1 else 0) + matches a' b'
  | _, _ => 0
  end%nat.

Lemma matches_le : forall a b, (matches a b <= length a)%nat.
Proof. induction a as [|x a IH]; intros [|y b]; cbn; try lia. specialize (IH b). destruct (x =? y); lia. Qed.

Lemma matches_full : forall a b, length a = length b -> (matches a b = length a <-> a = b).
Proof.
  induction a as [|x a IH]; intros [|y b] H; cbn in *; try lia; try easy.
  injection H as H. pose proof (matches_le a b). destruct (Z.eqb_spec x y); split; intros E.
  - subst. f_equal. apply IH; [auto|lia].
  - injection E as _ E. apply IH in E; [lia|auto].
  - lia.
  - injection E as E _. lia.
Qed.

Lemma matches_app : forall a1 b1 a2 b2, length a1 = length b1 ->
  matches (a1 ++ a2) (b1 ++ b2) = (matches a1 b1 + matches a2 b2)%nat.
Proof.
  induction a1 as [|x a1 IH]; intros [|y b1] a2 b2 H; cbn in *; try lia.
  rewrite IH by lia. lia.
Qed.

Lemma firstn_S_snoc : forall k (l : list Z), (k < length l)%nat -> firstn (S k) l = firstn k l ++ [nth k l 0].
Proof.
  induction k as [|k IH]; intros [|x l] H; cbn in *; try lia; auto.
  f_equal. apply (IH l). lia.
Qed.

Lemma prefix_sum_ok : forall a b n i,
  (forall x, In x a -> felt p x) -> (forall x, In x b -> felt p x) ->
  (n <= length a)%nat -> (n <= length b)%nat -> Z.of_nat n < p -> (i < n)%nat ->
  fold_left (fun acc j => fadd p acc (r_equal p (nth j a 0) (nth j b 0))) (seq 1 i)
            (r_equal p (nth 0 a 0) (nth 0 b 0))
  = Z.of_nat (matches (firstn (S i) a) (firstn (S i) b)).
Proof.
  intros a b n i Ha Hb Hla Hlb Hn. induction i as [|i IH]; intros Hi.
  - cbn [seq fold_left]. rewrite r_equal_ok by (first [apply Ha, nth_In; lia | apply Hb, nth_In; lia]).
    rewrite !firstn_S_snoc by lia. cbn. destruct (_ =? _); reflexivity.
  - rewrite seq_S, fold_left_app. cbn [fold_left Nat.add]. rewrite IH by lia.
    rewrite r_equal_ok by (first [apply Ha, nth_In; lia | apply Hb, nth_In; lia]).
    rewrite (firstn_S_snoc (S i) a), (firstn_S_snoc (S i) b) by lia.
    rewrite matches_app by (rewrite !firstn_length; lia). cbn [matches].
    pose proof (matches_le (firstn (S i) a) (firstn (S i) b)). rewrite firstn_length in H.
    destruct (Z.eqb_spec (nth (S i) a 0) (nth (S i) b 0)); cbn [bit_of]; rewrite fadd_small by lia; lia.
Qed.

Definition prefix_eqb (k : nat) (a b : list Z) : bool :=
  if list_eq_dec Z.eq_dec (firstn k a) (firstn k b) then true else false.

Lemma r_array_equal_ok : forall a b n t,
  (forall x, In x a -> felt p x) -> (forall x, In x b -> felt p x) -> felt p t ->
  (n <= length a)%nat -> (n <= length b)%nat -> Z.of_nat (length a) < p -> Z.of_nat (length b) < p ->
  Z.of_nat n + 1 < p ->
  r_array_equal p a b n t =
    if t <=? Z.of_nat n then Some (bit_of (prefix_eqb (Z.to_nat t) a b)) else None.
Proof.
  intros a b n t Ha Hb Ht Hla Hlb Hpa Hpb Hn. unfold r_array_equal, assert_le.
  rewrite !Z.mod_small by lia.
  replace (Z.of_nat n <=? Z.of_nat (length a)) with true by (symmetry; apply Z.leb_le; lia).
  replace (Z.of_nat n <=? Z.of_nat (length b)) with true by (symmetry; apply Z.leb_le; lia).
  cbn [guard obind].
  assert (Hrow : forall i, (i < n)%nat -> nth i (r_prefix_sums p a b n) 0 = Z.of_nat (matches (firstn (S i) a) (firstn (S i) b))).
  { intros i Hi. unfold r_prefix_sums. rewrite nth_map_seq by auto. cbn [Nat.add].
    apply (prefix_sum_ok a b n); auto. lia. }
  assert (Hlen : length (r_prefix_sums p a b n) = n) by (unfold r_prefix_sums; rewrite map_length, seq_length; auto).
  rewrite r_mux1_ok; auto; try (cbn; lia).
  2:{ intros x [<-|Hx]; [unfold felt; lia|]. apply In_nth with (d:=0) in Hx. destruct Hx as [i [Hi <-]].
      rewrite Hlen in Hi. rewrite Hrow by auto. pose proof (matches_le (firstn (S i) a) (firstn (S i) b)).
      rewrite firstn_length in H. unfold felt. lia. }
  replace (Z.of_nat (n + 1)) with (Z.of_nat n + 1) by lia.
  unfold felt in Ht.
  destruct (Z.ltb_spec t (Z.of_nat n + 1)), (Z.leb_spec t (Z.of_nat n)); try lia; auto.
  cbn [obind]. f_equal.
  set (k := Z.to_nat t). assert (Hk : t = Z.of_nat k) by (subst k; lia).
  assert (Hv : nth k (0 :: r_prefix_sums p a b n) 0 = Z.of_nat (matches (firstn k a) (firstn k b))).
  { destruct k as [|k]; cbn [nth]; [reflexivity|]. apply Hrow. lia. }
  rewrite Hv. pose proof (matches_le (firstn k a) (firstn k b)) as Hm. rewrite firstn_length in Hm.
  rewrite r_equal_ok by (unfold felt; lia). f_equal.
  unfold prefix_eqb.
  assert (Hl2 : length (firstn k a) = length (firstn k b)) by (rewrite !firstn_length; lia).
  pose proof (matches_full _ _ Hl2) as Hmf. rewrite firstn_length in Hmf.
  destruct (list_eq_dec _ _ _) as [E|E].
  - apply Hmf in E. apply Z.eqb_eq. lia.
  - apply Z.eqb_neq. intros E'. apply E. apply Hmf. lia.
Qed.

(* LogCeil *)
Lemma log_ceil_loop_spec : forall fuel i n, Z.of_nat n < 2 ^ Z.of_nat fuel -> (i + fuel = 254)%nat ->
  log_ceil_loop fuel i n = (i + if Nat.eqb n 0 then 0 else S (Z.to_nat (Z.log2 (Z.of_nat n))))%nat.
Proof.
  induction fuel as [|f IH]; intros i n Hn Hi; cbn [log_ceil_loop].
  - cbn in Hn. assert (n = 0)%nat by lia. subst. cbn [Nat.eqb]. lia.
  - destruct (Nat.eqb_spec n 0) as [->|N].
    + lia.
    + rewrite Nat2Z.inj_succ, Z.pow_succ_r in Hn by lia.
      pose proof (Nat.div2_odd n) as Hd.
      assert (Hb : (Nat.b2n (Nat.odd n) <= 1)%nat) by (destruct (Nat.odd n); cbn; lia).
      rewrite IH by lia.
      destruct (Nat.eqb_spec (Nat.div2 n) 0) as [E|E].
      * assert (n = 1)%nat by lia. subst n. cbn. lia.
      * assert (Hl : Z.log2 (Z.of_nat n) = Z.succ (Z.log2 (Z.of_nat (Nat.div2 n)))).
        { destruct (Nat.odd n); cbn [Nat.b2n] in Hd.
          - replace (Z.of_nat n) with (2 * Z.of_nat (Nat.div2 n) + 1) by lia.
            apply Z.log2_succ_double. lia.
          - replace (Z.of_nat n) with (2 * Z.of_nat (Nat.div2 n)) by lia.
            apply Z.log2_double. lia. }
        rewrite Hl. pose proof (Z.log2_nonneg (Z.of_nat (Nat.div2 n))). lia.
Qed.

Lemma log_ceil_spec : forall n, Z.of_nat n < 2 ^ 254 ->
  log_ceil n = if Nat.eqb n 0 then 0%nat else S (Z.to_nat (Z.log2 (Z.of_nat n))).
Proof. intros n Hn. unfold log_ceil. rewrite log_ceil_loop_spec; auto. Qed.

Lemma log_ceil_bound : forall n, Z.of_nat n < 2 ^ 254 -> Z.of_nat n < 2 ^ Z.of_nat (log_ceil n).
Proof.
  intros n Hn. rewrite log_ceil_spec by auto. destruct (Nat.eqb_spec n 0) as [->|N]; [reflexivity|].
  pose proof (Z.log2_nonneg (Z.of_nat n)).
  rewrite Nat2Z.inj_succ, Z2Nat.id by lia.
  apply Z.log2_lt_pow2; lia.
Qed.

Lemma log_ceil_pos : forall n, Z.of_nat n < 2 ^ 254 -> (0 < n)%nat -> (0 < log_ceil n)%nat.
Proof.
  intros n Hn Hp'. rewrite log_ceil_spec by auto. destruct (Nat.eqb_spec n 0); lia.
Qed.

(* barrel shifters *)
Lemma cyc_length : forall n o l, (n <= length l)%nat -> length (cyc n o l) = n.
Proof.
  intros n o l H. unfold cyc. rewrite app_length, skipn_length, !firstn_length.
  destruct n as [|n]; [lia|]. assert (o mod S n < S n)%nat by (apply Nat.mod_upper_bound; lia). lia.
Qed.
Lemma cyc_nth : forall n o l j, (n <= length l)%nat -> (j < n)%nat -> nth j (cyc n o l) 0 = nth ((j + o) mod n) l 0.
Proof.
  intros n o l j H Hj. unfold cyc. set (k := (o mod n)%nat).
  assert (Hk : (k < n)%nat) by (apply Nat.mod_upper_bound; lia).
  assert (E : ((j + o) mod n = (j + k) mod n)%nat) by (unfold k; rewrite Nat.add_mod_idemp_r by lia; auto).
  rewrite E. destruct (Nat.lt_ge_cases j (n - k)) as [L|L].
  - rewrite app_nth1 by (rewrite skipn_length, firstn_length; lia). rewrite nth_skipn', nth_firstn' by lia.
    rewrite Nat.mod_small by lia. f_equal. lia.
  - rewrite app_nth2 by (rewrite skipn_length, firstn_length; lia). rewrite skipn_length, firstn_length, Nat.min_l by lia.
    rewrite !nth_firstn' by lia. f_equal. rewrite <- (Nat.mod_small (j - (n - k)) n) by lia.
    replace (j + k)%nat with ((j - (n - k)) + 1 * n)%nat by lia. symmetry. apply Nat.mod_add. lia.
Qed.
Lemma cyc_map : forall n o l, (n <= length l)%nat -> cyc n o l = map (fun j => nth ((j + o) mod n) l 0) (seq 0 n).
Proof.
  intros n o l H. apply (nth_ext' _ _ _ 0).
  - rewrite cyc_length, map_length, seq_length; auto.
  - intros i Hi. rewrite cyc_length in Hi by auto. rewrite cyc_nth, nth_map_seq by auto. reflexivity.
Qed.
Lemma rot_level_map : forall n b o l, (n <= length l)%nat -> rot_level p n b o l =
  map (fun j => fadd p (fmul p b (fsub p (nth ((j + o) mod n) l 0) (nth j l 0))) (nth j l 0)) (seq 0 n).
Proof.
  intros n b o l H. unfold rot_level. apply (nth_ext' _ _ _ 0).
  - rewrite map_length, combine_length, cyc_length, firstn_length, map_length, seq_length by auto. lia.
  - intros i Hi. rewrite map_length, combine_length, cyc_length, firstn_length in Hi by auto.
    rewrite (nth_map' _ _ _ _ _ 0 (0, 0)) by (rewrite combine_length, cyc_length, firstn_length by auto; lia).
    rewrite combine_nth by (rewrite cyc_length, firstn_length by auto; lia).
    cbn [fst snd]. rewrite nth_firstn', cyc_nth, nth_map_seq by lia. reflexivity.
Qed.
Lemma rot_level_length : forall n b o l, (n <= length l)%nat -> length (rot_level p n b o l) = n.
Proof. intros. rewrite rot_level_map by auto. rewrite map_length, seq_length. auto. Qed.

Lemma rot_level_nth : forall n b o l j, is_bit b -> (forall x, In x l -> felt p x) -> length l = n -> (j < n)%nat ->
  nth j (rot_level p n b o l) 0 = nth ((j + Z.to_nat b * o) mod n) l 0.
Proof.
  intros n b o l j Hb Hf Hl Hj. rewrite rot_level_map by lia. rewrite nth_map_seq by auto. cbn [Nat.add].
  rewrite mux2; auto.
  - destruct Hb as [->| ->]; cbn [Z.eqb].
    + change (Z.to_nat 0) with 0%nat. rewrite Nat.mul_0_l, Nat.add_0_r, Nat.mod_small by auto. reflexivity.
    + change (Z.to_nat 1) with 1%nat. rewrite Nat.mul_1_l. reflexivity.
  - apply Hf, nth_In. rewrite Hl. apply Nat.mod_upper_bound. lia.
  - apply Hf, nth_In. lia.
Qed.

Lemma rot_level_felt : forall n b o l x, In x (rot_level p n b o l) -> felt p x.
Proof.
  intros n b o l x H. unfold rot_level in H. apply in_map_iff in H. destruct H as [j [<- _]].
  apply felt_fadd; lia.
Qed.

Lemma rot_levels_ok : forall n bits i l, Forall is_bit bits -> (forall x, In x l -> felt p x) -> length l = n ->
  length (rot_levels p n bits i l) = n /\ (forall x, In x (rot_levels p n bits i l) -> felt p x) /\
  (forall j, (j < n)%nat -> nth j (rot_levels p n bits i l) 0 = nth ((j + 2 ^ i * Z.to_nat (val_le bits)) mod n) l 0).
Proof.
  intros n bits. induction bits as [|b bits IH]; intros i l Hb Hf Hl; cbn [rot_levels].
  - split; [auto|split; [auto|]]. intros j Hj. cbn [val_le]. change (Z.to_nat 0) with 0%nat.
    rewrite Nat.mul_0_r, Nat.add_0_r, Nat.mod_small by auto. reflexivity.
  - inversion Hb; subst. 
    destruct (IH (S i) (rot_level p (length l) b (2 ^ i) l)) as (H3 & H4 & H5); auto.
    + apply rot_level_felt.
    + apply rot_level_length; auto.
    + split; [auto|split; [auto|]]. intros j Hj. rewrite H5 by auto.
      assert (Hn : (length l <> 0)%nat) by lia.
      rewrite rot_level_nth; auto; [|apply Nat.mod_upper_bound; auto].
      f_equal. rewrite Nat.add_mod_idemp_l by auto. f_equal.
      pose proof (val_le_range bits H2). unfold is_bit in H1.
      replace (Z.to_nat (val_le (b :: bits))) with (Z.to_nat b + 2 * Z.to_nat (val_le bits))%nat
        by (cbn [val_le]; lia).
      cbn [Nat.pow]. ring.
Qed.

Lemma firstn_bits_le : forall k n x, (k <= n)%nat -> firstn k (bits_le n x) = bits_le k x.
Proof.
  induction k as [|k IH]; intros [|n] x H; cbn; try lia; auto. f_equal. apply IH. lia.
Qed.

Definition rotl (k : nat) (l : list Z) : list Z :=
  map (fun j => nth ((j + k) mod length l) l 0) (seq 0 (length l)).

Lemma rotl_length k l : length (rotl k l) = length l.
Proof. unfold rotl. rewrite map_length, seq_length. auto. Qed.

Lemma rotl_nth k l j : (j < length l)%nat -> nth j (rotl k l) 0 = nth ((j + k) mod length l) l 0.
Proof. intros H. unfold rotl. rewrite nth_map_seq by auto. reflexivity. Qed.

Lemma rotl_skipn : forall k l, (k <= length l)%nat -> rotl k l = skipn k l ++ firstn k l.
Proof.
  intros k l Hk. apply (nth_ext' _ _ _ 0).
  - rewrite rotl_length, app_length, skipn_length, firstn_length. lia.
  - intros i Hi. rewrite rotl_length in Hi. rewrite rotl_nth by auto.
    destruct (Nat.lt_ge_cases i (length l - k)) as [L|L].
    + rewrite app_nth1 by (rewrite skipn_length; lia). rewrite Nat.mod_small by lia.
      rewrite nth_skipn'. f_equal. lia.
    + rewrite app_nth2 by (rewrite skipn_length; lia). rewrite skipn_length.
      assert (E : ((i + k) mod length l = i - (length l - k))%nat).
      { rewrite <- (Nat.mod_small (i - (length l - k)) (length l)) by lia.
        replace (i + k)%nat with ((i - (length l - k)) + 1 * length l)%nat by lia.
        apply Nat.mod_add. lia. }
      rewrite E. rewrite nth_firstn' by lia. reflexivity.
Qed.

Lemma rotl_rotl : forall a b l, rotl a (rotl b l) = rotl (a + b) l.
Proof.
  intros a b l. apply (nth_ext' _ _ _ 0).
  - rewrite !rotl_length. auto.
  - intros i Hi. rewrite !rotl_length in Hi.
    rewrite !rotl_nth; rewrite ?rotl_length; auto.
    + f_equal. rewrite Nat.add_mod_idemp_l by lia. f_equal. lia.
    + apply Nat.mod_upper_bound. lia.
Qed.

Lemma rotl_felt k l : (forall x, In x l -> felt p x) -> forall x, In x (rotl k l) -> felt p x.
Proof.
  intros H x Hx. unfold rotl in Hx. apply in_map_iff in Hx. destruct Hx as [j [<- Hj]].
  apply in_seq in Hj. apply H, nth_In. apply Nat.mod_upper_bound. lia.
Qed.

Lemma rot_levels_rotl : forall n bits l, Forall is_bit bits -> (forall x, In x l -> felt p x) -> length l = n ->
  rot_levels p n bits 0 l = rotl (Z.to_nat (val_le bits)) l.
Proof.
  intros n bits l Hb Hf Hl. destruct (rot_levels_ok n bits 0 l Hb Hf Hl) as (H1 & _ & H3).
  apply (nth_ext' _ _ _ 0).
  - rewrite rotl_length. lia.
  - intros i Hi. rewrite H3 by lia. rewrite rotl_nth by lia. cbn [Nat.pow]. rewrite Nat.mul_1_l.
    subst n. reflexivity.
Qed.

Lemma r_shift_left_ok : forall nIn minS maxS inp shift,
  length inp = nIn -> (forall x, In x inp -> felt p x) -> felt p shift ->
  (minS <= maxS)%nat -> Z.of_nat maxS < 2 ^ 254 -> Z.of_nat maxS < p ->
  r_shift_left p nIn minS maxS inp shift =
    if Nat.eqb minS maxS then Some (rotl minS inp)
    else if fsub p shift (Z.of_nat minS) <? 2 ^ Z.of_nat (log_ceil (maxS - minS))
         then Some (rotl (minS + Z.to_nat (fsub p shift (Z.of_nat minS))) inp) else None.
Proof.
  intros nIn minS maxS inp shift Hl Hf Hs Hm Hb Hpm. unfold r_shift_left.
  subst nIn. rewrite Nat.leb_refl. cbn [guard obind].
  replace (Nat.leb minS maxS) with true by (symmetry; apply Nat.leb_le; auto). cbn [guard obind].
  rewrite cyc_map by auto. fold (rotl minS inp).
  destruct (Nat.eqb_spec minS maxS) as [E|E]; auto.
  set (d := fsub p shift (Z.of_nat minS)).
  assert (Hd : felt p d) by (apply felt_fsub; lia).
  destruct (Z.ltb_spec d (2 ^ Z.of_nat (log_ceil (maxS - minS)))) as [L|L].
  - rewrite to_binary_ok by auto. cbn [obind]. f_equal.
    rewrite rot_levels_rotl; rewrite ?rotl_length; auto using bits_le_Forall.
    + rewrite val_bits_le by (unfold felt in Hd; lia). rewrite rotl_rotl. f_equal. lia.
    + apply rotl_felt; auto.
  - rewrite to_binary_fail by auto. reflexivity.
Qed.

(** The usable form: a shift inside the declared range rotates by exactly that amount. *)
Lemma r_shift_left_in_range : forall nIn minS maxS inp shift,
  length inp = nIn -> (forall x, In x inp -> felt p x) ->
  Z.of_nat minS <= shift <= Z.of_nat maxS -> Z.of_nat maxS < 2 ^ 254 -> Z.of_nat maxS < p ->
  r_shift_left p nIn minS maxS inp shift = Some (rotl (Z.to_nat shift) inp).
Proof.
  intros nIn minS maxS inp shift Hl Hf Hs Hb Hpm.
  rewrite r_shift_left_ok; auto; try (unfold felt; lia); try lia.
  destruct (Nat.eqb_spec minS maxS) as [E|E]; [f_equal; f_equal; lia|].
  rewrite fsub_small by lia.
  pose proof (log_ceil_bound (maxS - minS) ltac:(lia)).
  destruct (Z.ltb_spec (shift - Z.of_nat minS) (2 ^ Z.of_nat (log_ceil (maxS - minS)))); [|lia].
  f_equal. f_equal. lia.
Qed.

Lemma r_sub_array_ok : forall nIn maxSelect nInBits inp from end_,
  (nIn <= length inp)%nat -> (forall x, In x inp -> felt p x) -> felt p from -> felt p end_ ->
  (0 < nInBits <= 7)%nat -> (nInBits <= field_bits p)%nat -> Z.of_nat nIn < 2 ^ Z.of_nat nInBits ->
  (maxSelect <= nIn)%nat -> Z.of_nat nIn < p ->
  r_sub_array p nIn maxSelect nInBits inp from end_ =
    if (from <=? end_) && (end_ <=? Z.of_nat nIn) && (end_ - from <=? Z.of_nat maxSelect)
    then Some (firstn maxSelect (rotl (Z.to_nat from) (firstn nIn inp)), end_ - from) else None.
Proof.
  intros nIn maxSelect nInBits inp from end_ Hl Hf Hfr Hen Hb Hfb Hn Hms Hnp.
  unfold r_sub_array. unfold felt in Hfr, Hen.
  unfold assert_le. rewrite (Z.mod_small from), (Z.mod_small end_), (Z.mod_small (Z.of_nat nIn)) by lia.
  destruct (Z.leb_spec from end_) as [L1|L1]; cbn [guard obind andb]; auto.
  destruct (Z.leb_spec end_ (Z.of_nat nIn)) as [L2|L2]; cbn [guard obind andb]; auto.
  rewrite fsub_small by lia. rewrite (Z.mod_small (end_ - from)), (Z.mod_small (Z.of_nat maxSelect)) by lia.
  destruct (Z.leb_spec (end_ - from) (Z.of_nat maxSelect)) as [L3|L3]; cbn [guard obind andb]; auto.
  rewrite to_binary_ok.
  2: unfold felt; lia.
  2: { pose proof (field_bits_bound p Hp). lia. }
  cbn [obind].
  replace (Nat.leb nIn (length inp)) with true by (symmetry; apply Nat.leb_le; auto). cbn [guard obind].
  replace (Nat.leb nInBits 7) with true by (symmetry; apply Nat.leb_le; lia).
  replace (Nat.leb nInBits (field_bits p)) with true by (symmetry; apply Nat.leb_le; lia). cbn [andb guard obind].
  replace (Nat.leb maxSelect nIn) with true by (symmetry; apply Nat.leb_le; lia).
  replace (Nat.ltb 0 nInBits) with true by (symmetry; apply Nat.ltb_lt; lia).
  cbn [andb]. rewrite orb_true_r. cbn [guard obind].
  rewrite firstn_bits_le by auto.
  rewrite rot_levels_rotl; auto using bits_le_Forall.
  - rewrite val_bits_le by lia. reflexivity.
  - intros x Hx. apply Hf. rewrite <- (firstn_skipn nIn inp). apply in_or_app. auto.
  - rewrite firstn_length. lia.
Qed.

(* ShiftRight *)
Definition shr (k : nat) (l : list Z) : list Z :=
  map (fun j => if Nat.ltb j k then 0 else nth (j - k) l 0) (seq 0 (length l)).

Lemma shr_length k l : length (shr k l) = length l.
Proof. unfold shr. rewrite map_length, seq_length. auto. Qed.

Lemma shr_nth k l j : (j < length l)%nat -> nth j (shr k l) 0 = if Nat.ltb j k then 0 else nth (j - k) l 0.
Proof. intros H. unfold shr. rewrite nth_map_seq by auto. reflexivity. Qed.

Lemma shr_felt k l : (forall x, In x l -> felt p x) -> forall x, In x (shr k l) -> felt p x.
Proof.
  intros H x Hx. unfold shr in Hx. apply in_map_iff in Hx. destruct Hx as [j [<- Hj]].
  apply in_seq in Hj. destruct (Nat.ltb j k); [unfold felt; lia|]. apply H, nth_In. lia.
Qed.

Lemma shr_shr : forall a b l, shr a (shr b l) = shr (a + b) l.
Proof.
  intros a b l. apply (nth_ext' _ _ _ 0); [rewrite !shr_length; auto|].
  intros i Hi. rewrite !shr_length in Hi. rewrite (shr_nth a) by (rewrite shr_length; auto).
  rewrite (shr_nth (a + b)) by auto.
  destruct (Nat.ltb_spec i a).
  - destruct (Nat.ltb_spec i (a + b)); [auto|lia].
  - rewrite shr_nth by lia. destruct (Nat.ltb_spec (i - a) b), (Nat.ltb_spec i (a + b)); try lia; auto.
    f_equal. lia.
Qed.

Lemma shr_level_ok : forall b o l, is_bit b -> (forall x, In x l -> felt p x) ->
  shr_level p (length l) b o l = shr (Z.to_nat b * o) l.
Proof.
  intros b o l Hb Hf. unfold shr_level, shr. apply map_ext_in. intros j Hj. apply in_seq in Hj.
  assert (Hj' : felt p (nth j l 0)) by (apply Hf, nth_In; lia).
  assert (Hj2 : felt p (nth (j - o) l 0)) by (apply Hf, nth_In; lia).
  destruct (Nat.ltb_spec j o) as [L|L].
  - unfold fsub, fmul. rewrite Zminus_mod_idemp_r. unfold felt in *.
    destruct Hb as [->| ->].
    + change (Z.to_nat 0 * o)%nat with 0%nat. rewrite Nat.sub_0_r. cbn [Nat.ltb Nat.leb].
      rewrite Z.mul_0_l, Z.sub_0_r. apply Z.mod_small; lia.
    + change (Z.to_nat 1) with 1%nat. rewrite Nat.mul_1_l.
      destruct (Nat.ltb_spec j o); [|lia]. rewrite Z.mul_1_l, Z.sub_diag. apply Z.mod_0_l. lia.
  - rewrite mux2; auto. destruct Hb as [->| ->].
    + change (Z.to_nat 0 * o)%nat with 0%nat. rewrite Nat.sub_0_r. reflexivity.
    + change (Z.to_nat 1) with 1%nat. rewrite Nat.mul_1_l.
      destruct (Nat.ltb_spec j o); [lia|]. reflexivity.
Qed.

Lemma shr_levels_ok : forall n bits i l, Forall is_bit bits -> (forall x, In x l -> felt p x) -> length l = n ->
  shr_levels p n bits i l = shr (2 ^ i * Z.to_nat (val_le bits)) l.
Proof.
  intros n bits. induction bits as [|b bits IH]; intros i l Hb Hf Hl; cbn [shr_levels].
  - cbn [val_le]. change (Z.to_nat 0) with 0%nat. rewrite Nat.mul_0_r.
    apply (nth_ext' _ _ _ 0); [rewrite shr_length; auto|]. intros j Hj. rewrite shr_nth by auto.
    rewrite Nat.sub_0_r. reflexivity.
  - inversion Hb; subst. rewrite shr_level_ok by auto.
    rewrite IH; auto using shr_length.
    + rewrite shr_shr. f_equal.
      pose proof (val_le_range bits H2). unfold is_bit in H1.
      replace (Z.to_nat (val_le (b :: bits))) with (Z.to_nat b + 2 * Z.to_nat (val_le bits))%nat
        by (cbn [val_le]; lia).
      cbn [Nat.pow]. ring.
    + apply shr_felt; auto.
Qed.

Lemma r_shift_right_ok : forall nIn nInBits inp shift,
  length inp = nIn -> (forall x, In x inp -> felt p x) -> felt p shift -> (0 < nInBits)%nat ->
  r_shift_right p nIn nInBits inp shift =
    if shift <? 2 ^ Z.of_nat nInBits then Some (shr (Z.to_nat shift) inp) else None.
Proof.
  intros nIn nInBits inp shift Hl Hf Hs Hb. unfold r_shift_right. subst nIn.
  rewrite Nat.leb_refl. cbn [guard obind].
  destruct (Z.ltb_spec shift (2 ^ Z.of_nat nInBits)).
  - rewrite to_binary_ok by auto. cbn [obind].
    replace (Nat.ltb 0 nInBits) with true by (symmetry; apply Nat.ltb_lt; auto).
    rewrite orb_true_r. cbn [guard obind]. rewrite firstn_all.
    rewrite shr_levels_ok; auto using bits_le_Forall.
    cbn [Nat.pow]. rewrite Nat.mul_1_l. rewrite val_bits_le by (unfold felt in Hs; lia). reflexivity.
  - rewrite to_binary_fail by auto. reflexivity.
Qed.

End P.
