(** * KeccakWords.v — the word gadget Keccak256, its nibble front end and Keccak256AsNibbles *)
From Coq Require Import ZArith List Bool Arith Lia.
From Verif Require Import Field FieldLemmas ModNorm RlpUtilModel RlpUtilProofs KeccakSpec KeccakModel KeccakProofs KeccakSponge RlpSpec.
Import ListNotations.
Open Scope Z_scope.
Open Scope circ_scope.

(** the 64 bits of a word, least significant first (FIPS 202: lane bit z has weight 2^z) *)
Definition word_bits (w : Z) : list bool := map (fun i => Z.testbit w (Z.of_nat i)) (seq 0 64).
Definition word64 (w : Z) : Prop := 0 <= w < 2 ^ 64.
Definition words_bits (ws : list Z) : list bool := flat_map word_bits ws.

(** What the external dependency gnark keccakf.PermuteOld is assumed to do: Keccak-f[1600] on 25 words. *)
Definition perm_ok (perm : list Z -> option (list Z)) : Prop :=
  forall ws, length ws = 25%nat -> Forall word64 ws ->
  exists out, perm ws = Some out /\ length out = 25%nat /\ Forall word64 out /\
              words_bits out = string_of (keccak_f (state_of (words_bits ws))).

Lemma words_bits_length ws : length (words_bits ws) = (64 * length ws)%nat.
Proof. unfold words_bits. apply flat_map_length_const. intros. unfold word_bits. now rewrite map_length, seq_length. Qed.

Lemma flat_map_nth_list : forall (A B : Type) (f : A -> list B) w d da l k z, (forall i, length (f i) = w) -> (k < length l)%nat -> (z < w)%nat ->
  nth (w * k + z) (flat_map f l) d = nth z (f (nth k l da)) d.
Proof.
  intros A B f w d da l. induction l as [|x l IH]; intros k z Hw Hk Hz; [cbn in Hk; lia|]. cbn [flat_map].
  destruct k as [|k].
  - rewrite Nat.mul_0_r, Nat.add_0_l. rewrite app_nth1; auto. rewrite Hw. auto.
  - rewrite app_nth2 by (rewrite Hw; nia). rewrite Hw. replace (w * S k + z - w)%nat with (w * k + z)%nat by nia.
    cbn [nth]. apply IH; auto. cbn in Hk. lia.
Qed.

Lemma words_bits_nth : forall ws k z, (k < length ws)%nat -> (z < 64)%nat ->
  nth (64 * k + z) (words_bits ws) false = Z.testbit (nth k ws 0) (Z.of_nat z).
Proof.
  intros ws k z Hk Hz. unfold words_bits. rewrite (flat_map_nth_list Z bool) with (da := 0); auto.
  unfold word_bits. rewrite nth_map_seq by lia. reflexivity.
Qed.

Lemma zbits_word : forall w n, bits_le n w = map (fun i => bit_of (Z.testbit w (Z.of_nat i))) (seq 0 n).
Proof.
  intros w n. apply nth_ext' with (d := 0).
  - rewrite bits_le_length, map_length, seq_length. auto.
  - intros i Hi. rewrite bits_le_length in Hi. rewrite bits_le_nth by auto. rewrite nth_map_seq by auto.
    rewrite Nat.add_0_l. rewrite <- Z.testbit_spec' by lia. reflexivity.
Qed.

Lemma testbit_val_le : forall l i, Forall is_bit l -> (i < length l)%nat -> Z.testbit (val_le l) (Z.of_nat i) = (nth i l 0 =? 1).
Proof.
  intros l i Hl Hi. pose proof (bits_val_le l Hl) as H.
  assert (nth i (bits_le (length l) (val_le l)) 0 = nth i l 0) as H1 by now rewrite H.
  rewrite zbits_word, nth_map_seq, Nat.add_0_l in H1 by auto. rewrite <- H1. destruct (Z.testbit _ _); reflexivity.
Qed.

Lemma word64_ext a b : word64 a -> word64 b -> (forall z, (z < 64)%nat -> Z.testbit a (Z.of_nat z) = Z.testbit b (Z.of_nat z)) -> a = b.
Proof.
  intros Ha Hb H. rewrite <- (val_bits_le 64 a Ha), <- (val_bits_le 64 b Hb). f_equal. rewrite !zbits_word.
  apply map_ext_in. intros i Hi. apply in_seq in Hi. rewrite H by lia. auto.
Qed.

Lemma words_bits_inj : forall a b, Forall word64 a -> Forall word64 b -> words_bits a = words_bits b -> a = b.
Proof.
  intros a b Ha Hb H.
  assert (Hl : length a = length b).
  { pose proof (words_bits_length a). pose proof (words_bits_length b). rewrite H in H0. lia. }
  apply nth_ext' with (d := 0); auto. intros i Hi.
  rewrite Forall_forall in Ha, Hb. apply word64_ext; [apply Ha, nth_In; auto|apply Hb, nth_In; lia|].
  intros z Hz. rewrite <- !words_bits_nth by lia. rewrite H. auto.
Qed.

Lemma words_bits_firstn : forall ws k, firstn (64 * k) (words_bits ws) = words_bits (firstn k ws).
Proof.
  induction ws as [|w ws IH]; intros k; [now rewrite !firstn_nil|]. destruct k as [|k]; [reflexivity|].
  change (words_bits (w :: ws)) with (word_bits w ++ words_bits ws).
  change (words_bits (firstn (S k) (w :: ws))) with (word_bits w ++ words_bits (firstn k ws)).
  rewrite firstn_app. assert (L : length (word_bits w) = 64%nat) by (unfold word_bits; now rewrite map_length, seq_length).
  rewrite L. replace (64 * S k - 64)%nat with (64 * k)%nat by lia. rewrite IH. rewrite firstn_all2; [reflexivity|lia].
Qed.

Section P.
Variable p : Z.
Hypothesis Hp : 2 ^ 65 < p.
Let Hp2 : 2 < p. Proof. assert (2 < 2 ^ 65) by reflexivity. lia. Qed.

Lemma word_felt w : word64 w -> felt p w.
Proof. unfold word64, felt. assert (2 ^ 64 < 2 ^ 65) by reflexivity. lia. Qed.

Lemma xor_word : forall a b, word64 a -> word64 b ->
  (let* rb := to_binary p a 64 in let* bb := to_binary p b 64 in
   let* xs := omap (fun j => fxor p (nth j rb 0) (nth j bb 0)) (seq 0 64) in from_binary p xs) = Some (Z.lxor a b).
Proof.
  intros a b Ha Hb. rewrite !to_binary_ok by (try apply word_felt; auto; apply Ha || apply Hb). cbn [obind].
  rewrite omap_total with (g := fun i => bit_of (Z.testbit (Z.lxor a b) (Z.of_nat i))).
  - cbn [obind]. rewrite <- zbits_word. rewrite (from_binary_ok p); auto; try apply bits_le_Forall.
    + rewrite val_bits_le; auto. split.
      * apply Z.lxor_nonneg. unfold word64 in *. lia.
      * change (Z.of_nat 64) with 64. unfold word64 in *.
        destruct (Z.eq_dec (Z.lxor a b) 0) as [->|Hne]; [reflexivity|].
        apply Z.log2_lt_pow2. pose proof (proj2 (Z.lxor_nonneg a b)). lia.
        eapply Z.le_lt_trans; [apply Z.log2_lxor; lia|].
        assert (forall w, 0 <= w < 2 ^ 64 -> Z.log2 w < 64).
        { intros w Hw. destruct (Z.eq_dec w 0) as [->|]; [reflexivity|]. apply Z.log2_lt_pow2; lia. }
        apply Z.max_lub_lt; auto.
    + rewrite bits_le_length. change (Z.of_nat 64) with 64. assert (2 ^ 64 < 2 ^ 65) by reflexivity. lia.
  - intros i Hi. apply in_seq in Hi. rewrite !zbits_word, !nth_map_seq by lia. rewrite fxor_bits by auto.
    rewrite Z.lxor_spec. reflexivity.
Qed.

Lemma lxor_word a b : word64 a -> word64 b -> word64 (Z.lxor a b).
Proof.
  intros Ha Hb. pose proof (xor_word a b Ha Hb) as H.
  apply obind_Some in H. destruct H as [x [_ H]]. apply obind_Some in H. destruct H as [y [_ H]].
  apply obind_Some in H. destruct H as [xs [Hxs H]]. unfold from_binary in H. apply obind_Some in H. destruct H as [l [Hl H]].
  unfold word64. split. apply Z.lxor_nonneg. unfold word64 in *; lia.
  destruct (Z.eq_dec (Z.lxor a b) 0) as [->|Hne]; [reflexivity|]. unfold word64 in *.
  apply Z.log2_lt_pow2. pose proof (proj2 (Z.lxor_nonneg a b)). lia.
  eapply Z.le_lt_trans; [apply Z.log2_lxor; lia|].
  assert (forall w, 0 <= w < 2 ^ 64 -> Z.log2 w < 64).
  { intros w Hw. destruct (Z.eq_dec w 0) as [->|]; [reflexivity|]. apply Z.log2_lt_pow2; lia. }
  apply Z.max_lub_lt; auto.
Qed.

Variable perm : list Z -> option (list Z).
Hypothesis Hperm : perm_ok perm.

Lemma absorb_words_ok : forall s block, length s = 25%nat -> Forall word64 s -> length block = 17%nat -> Forall word64 block ->
  exists out, absorb_words p perm s block = Some out /\ length out = 25%nat /\ Forall word64 out /\
     words_bits out = string_of (absorb_block (state_of (words_bits s)) (words_bits block)).
Proof.
  intros s block Ls Fs Lb Fb. unfold absorb_words.
  rewrite Forall_forall in Fs, Fb.
  rewrite omap_total with (g := fun i => Z.lxor (nth i s 0) (nth i block 0)).
  2:{ intros i Hi. apply in_seq in Hi. apply xor_word; [apply Fs|apply Fb]; apply nth_In; lia. }
  cbn [obind].
  set (ws := map (fun i => Z.lxor (nth i s 0) (nth i block 0)) (seq 0 17) ++ skipn 17 s).
  assert (Lw : length ws = 25%nat) by (unfold ws; rewrite app_length, map_length, seq_length, skipn_length; lia).
  assert (Fw : Forall word64 ws).
  { apply Forall_forall. intros x Hx. unfold ws in Hx. apply in_app_or in Hx. destruct Hx as [Hx|Hx].
    - apply in_map_iff in Hx. destruct Hx as [i [<- Hi]]. apply in_seq in Hi. apply lxor_word; [apply Fs|apply Fb]; apply nth_In; lia.
    - apply Fs. rewrite <- (firstn_skipn 17 s). apply in_or_app. auto. }
  destruct (Hperm ws Lw Fw) as [out [Ho [Lo [Fo Bo]]]]. exists out. split; [exact Ho|]. split; [exact Lo|]. split; [exact Fo|].
  rewrite Bo. apply string_of_ext. apply keccak_f_ext. intros x y z Hx Hy Hz. unfold state_of.
  rewrite !words_bits_nth by lia.
  destruct (Nat.lt_ge_cases (5 * y + x) 17) as [H|H].
  - unfold ws. rewrite words_bits_nth by lia. rewrite app_nth1 by (rewrite map_length, seq_length; auto).
    rewrite nth_map_seq by auto. apply Z.lxor_spec.
  - rewrite (nth_overflow (words_bits block)) by (rewrite words_bits_length; lia). rewrite xorb_false_r.
    unfold ws. rewrite app_nth2 by (rewrite map_length, seq_length; auto). rewrite map_length, seq_length, nth_skipn'.
    do 2 f_equal. lia.
Qed.

Lemma absorb_words_inv : forall s block out, absorb_words p perm s block = Some out -> Forall (felt p) block -> length block = 17%nat -> Forall word64 block.
Proof.
  intros s block out H Fb Lb. unfold absorb_words in H. apply obind_Some in H. destruct H as [x [Hx _]].
  apply Forall_forall. intros w Hw. apply In_nth with (d := 0) in Hw. destruct Hw as [i [Hi <-]].
  pose proof (omap_Some_nth _ _ _ _ _ Hx i 0%nat 0 ltac:(rewrite seq_length; lia)) as Hn. rewrite seq_nth in Hn by lia.
  apply obind_Some in Hn. destruct Hn as [rb [_ Hn]]. apply obind_Some in Hn. destruct Hn as [bb [Hbb _]].
  rewrite Forall_forall in Fb. rewrite Nat.add_0_l in Hbb.
  pose proof (Fb (nth i block 0) ltac:(apply nth_In; auto)) as Hf.
  destruct (Z.lt_ge_cases (nth i block 0) (2 ^ 64)) as [Hlt|Hge].
  - unfold word64. unfold felt in Hf. lia.
  - rewrite to_binary_fail in Hbb; auto. discriminate.
Qed.

Lemma word_states_ok : forall blocks s, length s = 25%nat -> Forall word64 s ->
  Forall (fun b => length b = 17%nat /\ Forall word64 b) blocks ->
  exists sts, word_states p perm blocks s = Some sts /\ length sts = length blocks /\
    forall k, (k < length blocks)%nat -> length (nth k sts []) = 25%nat /\ Forall word64 (nth k sts []) /\
      words_bits (nth k sts []) = string_of (fold_left absorb_block (map words_bits (firstn (S k) blocks)) (state_of (words_bits s))).
Proof.
  induction blocks as [|b blocks IH]; intros s Ls Fs Fb.
  - exists []. split; [reflexivity|]. split; [reflexivity|]. intros k Hk. cbn in Hk. lia.
  - inversion Fb as [|? ? [Lb Fb1] Fb2]; subst. cbn [word_states].
    destruct (absorb_words_ok s b Ls Fs Lb Fb1) as [s' [E1 [L1 [F1 B1]]]]. rewrite E1. cbn [obind].
    destruct (IH s' L1 F1 Fb2) as [sts [E2 [L2 H2]]]. rewrite E2. cbn [obind]. exists (s' :: sts).
    split; [reflexivity|]. split; [cbn [length]; lia|]. intros k Hk. destruct k as [|k].
    + change (nth 0 (s' :: sts) []) with s'. split; [exact L1|]. split; [exact F1|exact B1].
    + change (nth (S k) (s' :: sts) []) with (nth k sts []). destruct (H2 k ltac:(cbn in Hk; lia)) as [A [B C]].
      split; [exact A|]. split; [exact B|]. rewrite C. apply string_of_ext.
      change (firstn (S (S k)) (b :: blocks)) with (b :: firstn (S k) blocks). cbn [map fold_left].
      assert (G : forall bs A B, eqS A B -> eqS (fold_left absorb_block bs A) (fold_left absorb_block bs B)).
      { clear. induction bs as [|x bs IH]; intros A B H; [exact H|]. cbn [fold_left]. apply IH. apply absorb_block_ext; auto. }
      apply G. intros x y z Hx Hy Hz. rewrite B1. exact (state_of_string p Hp2 _ x y z Hx Hy Hz).
Qed.

Lemma word_states_inv : forall blocks s sts, word_states p perm blocks s = Some sts ->
  Forall (fun b => length b = 17%nat /\ Forall (felt p) b) blocks -> Forall (fun b => length b = 17%nat /\ Forall word64 b) blocks.
Proof.
  induction blocks as [|b blocks IH]; intros s sts H F; [constructor|]. inversion F as [|? ? [Lb Fb] F2]; subst. cbn [word_states] in H.
  apply obind_Some in H. destruct H as [s' [Hs H]]. apply obind_Some in H. destruct H as [rest [Hr _]].
  constructor; [|eapply IH; eauto]. split; auto. eapply absorb_words_inv; eauto.
Qed.

Lemma keccak256_words_main : forall blocks ri, felt p ri -> Z.of_nat (length blocks) < p ->
  Forall (fun b => length b = 17%nat /\ Forall word64 b) blocks ->
     (ri < Z.of_nat (length blocks) -> exists o, keccak256_words p perm blocks ri = Some o /\ length o = 4%nat /\ Forall word64 o /\
        words_bits o = firstn 256 (string_of (sponge (map words_bits (firstn (Z.to_nat ri + 1) blocks))))) /\
     (Z.of_nat (length blocks) <= ri -> keccak256_words p perm blocks ri = None).
Proof.
  intros blocks ri Hri Hlen. intros Hw. unfold keccak256_words.
    destruct (word_states_ok blocks (repeat 0 25)) as [sts [E1 [L1 H1]]]; auto.
    { apply Forall_forall. intros x Hx. apply repeat_spec in Hx. subst. unfold word64. split; [lia|reflexivity]. }
    rewrite E1. cbn [obind].
    assert (Hmux : m_multiplex p ri 25 (length blocks) (transpose_n 25 sts) =
       if ri <? Z.of_nat (length blocks) then Some (nth (Z.to_nat ri) sts []) else None).
    { rewrite m_multiplex_ok; auto.
      - destruct (Z.ltb_spec ri (Z.of_nat (length blocks))) as [H|H]; auto. f_equal. unfold transpose_n. rewrite map_map.
        unfold felt in Hri. destruct (H1 (Z.to_nat ri) ltac:(lia)) as [A _].
        apply nth_ext' with (d := 0); [rewrite map_length, seq_length; auto|].
        intros i Hi. rewrite map_length, seq_length in Hi. rewrite nth_map_seq by auto.
        rewrite (nth_map' _ _ (fun r => nth (0 + i) r 0)) with (d' := []) by lia. reflexivity.
      - intros row Hrow. unfold transpose_n in Hrow. apply in_map_iff in Hrow. destruct Hrow as [i [<- Hi]]. apply in_seq in Hi.
        split; [rewrite map_length; auto|]. intros x Hx. apply in_map_iff in Hx. destruct Hx as [r [<- Hr]].
        apply In_nth with (d := []) in Hr. destruct Hr as [k [Hk <-]]. destruct (H1 k ltac:(lia)) as [A [B _]].
        rewrite Forall_forall in B. apply word_felt, B, nth_In. lia. }
    rewrite Hmux. split; intros H.
    - replace (ri <? Z.of_nat (length blocks)) with true by (symmetry; apply Z.ltb_lt; auto). cbn [obind].
      unfold felt in Hri. destruct (H1 (Z.to_nat ri) ltac:(lia)) as [A [B C]]. eexists. split; [reflexivity|].
      set (st := nth (Z.to_nat ri) sts []) in *. split; [rewrite firstn_length; lia|]. split.
      { apply Forall_forall. intros x Hx. rewrite Forall_forall in B. apply B. rewrite <- (firstn_skipn 4 st). apply in_or_app; auto. }
      replace (Z.to_nat ri + 1)%nat with (S (Z.to_nat ri)) by lia. 
      assert (Esp : words_bits st = string_of (sponge (map words_bits (firstn (S (Z.to_nat ri)) blocks)))).
      { rewrite C. apply string_of_ext. unfold sponge.
        assert (G : forall bs A B, eqS A B -> eqS (fold_left absorb_block bs A) (fold_left absorb_block bs B)).
        { clear. induction bs as [|x bs IH]; intros A B H; [exact H|]. cbn [fold_left]. apply IH. apply absorb_block_ext; auto. }
        apply G. intros x y z Hx Hy Hz. unfold state_of. rewrite words_bits_nth by (rewrite ?repeat_length; lia).
        replace (nth (5 * y + x) (repeat 0 25) 0) with 0. apply Z.testbit_0_l.
        destruct (nth_in_or_default (5 * y + x) (repeat 0 25) 0) as [Hq|Hq]; auto. apply repeat_spec in Hq. auto. }
      rewrite <- Esp. change (256)%nat with (64 * 4)%nat. symmetry. apply words_bits_firstn.
    - replace (ri <? Z.of_nat (length blocks)) with false by (symmetry; apply Z.ltb_ge; auto). reflexivity. 
Qed.
(** Keccak256 and the two ForNormal/ForMaxTransaction variants *)
Theorem keccak256_words_ok : forall blocks ri out, felt p ri -> Z.of_nat (length blocks) < p ->
  Forall (fun b => length b = 17%nat /\ Forall (felt p) b) blocks ->
  (keccak256_words p perm blocks ri = Some out <->
   Forall (Forall word64) blocks /\ ri < Z.of_nat (length blocks) /\ length out = 4%nat /\ Forall word64 out /\
   words_bits out = firstn 256 (string_of (sponge (map words_bits (firstn (Z.to_nat ri + 1) blocks))))).
Proof.
  intros blocks ri out Hri Hlen Hb.
  pose proof (keccak256_words_main blocks ri Hri Hlen) as Main.
  split.
  - intros H. assert (Hw : Forall (fun b => length b = 17%nat /\ Forall word64 b) blocks).
    { unfold keccak256_words in H. apply obind_Some in H. destruct H as [sts [Hs _]]. eapply word_states_inv; eauto. }
    destruct (Main Hw) as [M1 M2]. split.
    { eapply Forall_impl; [|exact Hw]. intros b [_ Hx]. exact Hx. }
    destruct (Z.lt_ge_cases ri (Z.of_nat (length blocks))) as [Hlt|Hge].
    + destruct (M1 Hlt) as [o [E R]]. assert (o = out) by congruence. subst o. tauto.
    + rewrite M2 in H by auto. discriminate.
  - intros [Fw [Hlt [Lo [Fo Bo]]]]. destruct Main as [M1 _].
    { rewrite Forall_forall in *. intros b Hbb. split; [apply Hb; auto|apply Fw; auto]. }
    destruct (M1 Hlt) as [o [E [L1 [F1 B1]]]]. rewrite E. f_equal. apply words_bits_inj; auto. congruence.
Qed.
Lemma keccak_words_exists : forall blocks ri, felt p ri -> Z.of_nat (length blocks) < p ->
  Forall (fun b => length b = 17%nat) blocks -> Forall (Forall word64) blocks -> ri < Z.of_nat (length blocks) ->
  exists out, keccak256_words p perm blocks ri = Some out.
Proof.
  intros blocks ri Hri Hlen H17 Hw Hlt. destruct (keccak256_words_main blocks ri Hri Hlen) as [M _].
  - rewrite Forall_forall in *. intros b Hb. split; [apply H17; auto|apply Hw; auto].
  - destruct (M Hlt) as [o [E _]]. eauto.
Qed.
End P.
