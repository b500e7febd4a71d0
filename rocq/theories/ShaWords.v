(** * ShaWords.v — the word operations of the SHA gadgets compute the FIPS 180-4 word operations *)
From Coq Require Import ZArith List Bool Arith Lia.
From Verif Require Import Field FieldLemmas KeccakModel KeccakWords ShaModel ShaSpec.
Import ListNotations.
Open Scope Z_scope.
Open Scope circ_scope.

(** The parameters of the code and of the standard agree. *)
Record agree (c : sha_code) (s : sha2) : Prop := Agree {
  ag_w : Z.of_nat (cW c) = sp_w s;
  ag_w8 : exists b, cW c = (8 * b)%nat /\ (4 <= b <= 8)%nat;
  ag_chunk : cChunk c = (16 * (cW c / 8))%nat;
  ag_rounds : cRounds c = sp_rounds s;
  ag_16 : (16 <= cRounds c)%nat;
  ag_warr : (cRounds c <= cWArr c)%nat;
  ag_K : forall t, (t < cRounds c)%nat -> nth t (cK c) 0 = ShaSpec.K s t;
  ag_init : cInit c = H0 s;
  ag_E : sp_S1 s = (let '(x, y, z) := cE c in (Z.of_nat x, Z.of_nat y, Z.of_nat z)) /\ (let '(x, y, z) := cE c in x < cW c /\ y < cW c /\ z < cW c)%nat;
  ag_A : sp_S0 s = (let '(x, y, z) := cA c in (Z.of_nat x, Z.of_nat y, Z.of_nat z)) /\ (let '(x, y, z) := cA c in x < cW c /\ y < cW c /\ z < cW c)%nat;
  ag_V1 : sp_s1 s = (let '(x, y, z) := cV1 c in (Z.of_nat x, Z.of_nat y, Z.of_nat z)) /\ (let '(x, y, z) := cV1 c in x < cW c /\ y < cW c /\ z < cW c)%nat;
  ag_V2 : sp_s0 s = (let '(x, y, z) := cV2 c in (Z.of_nat x, Z.of_nat y, Z.of_nat z)) /\ (let '(x, y, z) := cV2 c in x < cW c /\ y < cW c /\ z < cW c)%nat;
  ag_add : forall n, (n <= 3)%nat -> (cW c <= cAddDigits c n)%nat /\ Z.of_nat (n + 2) * 2 ^ Z.of_nat (cW c) <= 2 ^ Z.of_nat (cAddDigits c n);
  ag_len : (cLenPos c + sp_lenbytes s = cChunk c)%nat;
  ag_len8 : (8 <= sp_lenbytes s)%nat;
  ag_lenp : (sp_lenbytes s < cChunk c)%nat }.

Section P.
Variable p : Z.
Hypothesis Hp : 2 ^ 70 < p.
Let Hp2 : 2 < p. Proof. assert (2 < 2 ^ 70) by reflexivity. lia. Qed.
Variable c : sha_code.
Variable s : sha2.
Hypothesis Hag : agree c s.
Notation W := (cW c).
Definition B (x : Z) : list Z := bits_le W x.
Definition word (x : Z) : Prop := 0 <= x < 2 ^ Z.of_nat W.

Lemma W_range : (32 <= W <= 64)%nat.
Proof. destruct (ag_w8 c s Hag) as [b [E H]]. lia. Qed.
Lemma pow_pos : 0 < 2 ^ Z.of_nat W. Proof. apply Z.pow_pos_nonneg; lia. Qed.
Lemma B_map x : B x = map (fun i => bit_of (Z.testbit x (Z.of_nat i))) (seq 0 W).
Proof. apply zbits_word. Qed.
Lemma B_length x : length (B x) = W. Proof. apply bits_le_length. Qed.
Lemma B_nth x i : (i < W)%nat -> nth i (B x) 0 = bit_of (Z.testbit x (Z.of_nat i)).
Proof. intros H. rewrite B_map, nth_map_seq by auto. reflexivity. Qed.
Lemma B_ext x y : (forall i, (i < W)%nat -> Z.testbit x (Z.of_nat i) = Z.testbit y (Z.of_nat i)) -> B x = B y.
Proof. intros H. rewrite !B_map. apply map_ext_in. intros i Hi. apply in_seq in Hi. rewrite H by lia. reflexivity. Qed.
Lemma B_mod x : B (x mod 2 ^ Z.of_nat W) = B x.
Proof. apply B_ext. intros i Hi. apply Z.mod_pow2_bits_low. lia. Qed.
Lemma B_inj x y : word x -> word y -> B x = B y -> x = y.
Proof. intros Hx Hy H. rewrite <- (val_bits_le W x), <- (val_bits_le W y) by auto. unfold B in H. rewrite H. reflexivity. Qed.
Lemma word_mod x : word (x mod 2 ^ Z.of_nat W).
Proof. unfold word. apply Z.mod_pos_bound. apply pow_pos. Qed.
Lemma bit_of_eqb b : (bit_of b =? 1) = b. Proof. destruct b; reflexivity. Qed.

Lemma fold_bits : forall (f : Z -> Z -> option Z) (g : bool -> bool -> bool) (op : Z -> Z -> Z),
  (forall x y, f (bit_of x) (bit_of y) = Some (bit_of (g x y))) ->
  (forall a b i, 0 <= i -> Z.testbit (op a b) i = g (Z.testbit a i) (Z.testbit b i)) ->
  forall i ws acc, (i < W)%nat ->
  ofold (fun r v => f r (nth i v 0)) (map B ws) (bit_of (Z.testbit acc (Z.of_nat i))) = Some (bit_of (Z.testbit (fold_left op ws acc) (Z.of_nat i))).
Proof.
  intros f g op Hf Ht i ws. induction ws as [|x ws IH]; intros acc Hi; [reflexivity|].
  cbn [map ofold fold_left]. rewrite B_nth by auto. rewrite Hf. cbn [obind]. rewrite <- Ht by lia. apply IH. auto.
Qed.
Lemma omap_B : forall (f : nat -> option Z) x, (forall i, (i < W)%nat -> f i = Some (bit_of (Z.testbit x (Z.of_nat i)))) -> omap f (seq 0 W) = Some (B x).
Proof. intros f x H. rewrite B_map. apply omap_total. intros i Hi. apply in_seq in Hi. apply H. lia. Qed.

Lemma w_xor_ok ws : w_xor p c (map B ws) = Some (B (fold_left Z.lxor ws 0)).
Proof.
  apply omap_B. intros i Hi.
  pose proof (fold_bits (fxor p) xorb Z.lxor) as G. specialize (fun a b => G a b i ws 0 Hi). rewrite Z.testbit_0_l in G. apply G.
  - intros x y. rewrite fxor_ok by auto using bit_of_bit. destruct x, y; reflexivity.
  - intros. apply Z.lxor_spec.
Qed.
Lemma w_or_ok ws : w_or p c (map B ws) = Some (B (fold_left Z.lor ws 0)).
Proof.
  apply omap_B. intros i Hi.
  pose proof (fold_bits (for_ p) orb Z.lor) as G. specialize (fun a b => G a b i ws 0 Hi). rewrite Z.testbit_0_l in G. apply G.
  - intros x y. rewrite for_ok by auto using bit_of_bit. destruct x, y; reflexivity.
  - intros. apply Z.lor_spec.
Qed.
Lemma w_and_ok ws : w_and p c (map B ws) = Some (B (fold_left Z.land ws (-1))).
Proof.
  apply omap_B. intros i Hi.
  pose proof (fold_bits (fand p) andb Z.land) as G. specialize (fun a b => G a b i ws (-1) Hi). rewrite Z.bits_m1 in G by lia. apply G.
  - intros x y. rewrite fand_ok by auto using bit_of_bit. destruct x, y; reflexivity.
  - intros. apply Z.land_spec.
Qed.
Lemma w_not_ok x : w_not p c (B x) = Some (B (not_ s x)).
Proof.
  apply omap_B. intros i Hi. rewrite B_nth by auto.
  assert (Hw := ag_w c s Hag).
  rewrite fxor_ok by (auto using bit_of_bit; unfold is_bit; auto). f_equal. f_equal. unfold not_. rewrite Z.lxor_spec, <- Hw, Z.ones_spec_low by lia.
  destruct (Z.testbit x (Z.of_nat i)); reflexivity.
Qed.
Lemma testbit_high x i : word x -> (W <= i)%nat -> Z.testbit x (Z.of_nat i) = false.
Proof.
  intros H Hi. destruct (Z.eq_dec x 0) as [->|]; [apply Z.testbit_0_l|]. unfold word in H.
  apply Z.bits_above_log2; [lia|]. apply Z.log2_lt_pow2; [lia|]. apply Z.lt_le_trans with (2 ^ Z.of_nat W); [lia|]. apply Z.pow_le_mono_r; lia.
Qed.
Lemma w_rotr_ok x r : word x -> (r < W)%nat -> w_rotr c (B x) r = B (rotr s (Z.of_nat r) x).
Proof.
  intros Hx Hr. rewrite (B_map (rotr _ _ _)). unfold w_rotr. apply map_ext_in. intros i Hi. apply in_seq in Hi. pose proof W_range as HW.
  assert (Hw := ag_w c s Hag).
  assert (Hm : ((i + r + W) mod W = if Nat.ltb (i + r) W then i + r else i + r - W)%nat).
  { destruct (Nat.ltb_spec (i + r) W).
    - replace (i + r + W)%nat with (i + r + 1 * W)%nat by lia. rewrite Nat.mod_add by lia. apply Nat.mod_small. lia.
    - replace (i + r + W)%nat with ((i + r - W) + 2 * W)%nat by lia. rewrite Nat.mod_add by lia. apply Nat.mod_small. lia. }
  rewrite B_nth by (apply Nat.mod_upper_bound; lia). rewrite Hm. f_equal.
  unfold rotr. rewrite Z.lor_spec, Z.shiftr_spec, <- Hw, Z.mod_pow2_bits_low by lia.
  rewrite Z.shiftl_spec by lia. destruct (Nat.ltb_spec (i + r) W).
  - rewrite (Z.testbit_neg_r _ (Z.of_nat i - _)) by lia. rewrite orb_false_r. f_equal. lia.
  - replace (Z.of_nat i + Z.of_nat r) with (Z.of_nat (i + r)) by lia. rewrite (testbit_high x (i + r)) by (auto; lia). cbn [orb]. f_equal. lia.
Qed.
Lemma rotr_word x r : word x -> word (rotr s r x) \/ r < 0.
Proof.
  intros Hx. destruct (Z.lt_ge_cases r 0) as [|Hr]; [auto|left]. assert (Hw := ag_w c s Hag). unfold rotr. rewrite <- Hw. pose proof pow_pos.
  assert (A : 0 <= Z.shiftr x r) by (unfold word in Hx; apply Z.shiftr_nonneg; lia).
  assert (Bd : 0 <= Z.shiftl x (Z.of_nat W - r) mod 2 ^ Z.of_nat W) by (apply Z.mod_pos_bound; lia).
  assert (N : 0 <= Z.lor (Z.shiftr x r) (Z.shiftl x (Z.of_nat W - r) mod 2 ^ Z.of_nat W)) by (apply Z.lor_nonneg; auto).
  unfold word. split; [exact N|].
  destruct (Z.eq_dec (Z.lor (Z.shiftr x r) (Z.shiftl x (Z.of_nat W - r) mod 2 ^ Z.of_nat W)) 0) as [->|Hne]; [lia|].
  apply Z.log2_lt_pow2; [lia|].
  destruct (Z.lt_ge_cases (Z.log2 (Z.lor (Z.shiftr x r) (Z.shiftl x (Z.of_nat W - r) mod 2 ^ Z.of_nat W))) (Z.of_nat W)) as [|Hge]; [lia|].
  assert (Ht := Z.bit_log2 (Z.lor (Z.shiftr x r) (Z.shiftl x (Z.of_nat W - r) mod 2 ^ Z.of_nat W)) ltac:(lia)).
  exfalso. revert Ht. set (L := Z.log2 _) in *. rewrite Z.lor_spec, Z.mod_pow2_bits_high by lia. rewrite orb_false_r, Z.shiftr_spec by lia.
  replace (L + r) with (Z.of_nat (Z.to_nat (L + r))) by lia. rewrite testbit_high by (auto; lia). discriminate.
Qed.
Lemma w_rshift_ok x r : word x -> (r <= W)%nat -> w_rshift c (B x) r = B (Z.shiftr x (Z.of_nat r)).
Proof.
  intros Hx Hr. rewrite (B_map (Z.shiftr _ _)). unfold w_rshift. replace W with ((W - r) + r)%nat at 2 by lia. rewrite seq_app, map_app. f_equal.
  - apply map_ext_in. intros i Hi. apply in_seq in Hi. rewrite B_nth by lia. rewrite Z.shiftr_spec by lia. do 2 f_equal. lia.
  - apply nth_ext' with (d := 0); [rewrite repeat_length, map_length, seq_length; auto|]. rewrite repeat_length. intros i Hi.
    rewrite nth_map_seq by auto. rewrite nth_repeat, Z.shiftr_spec by lia.
    replace (Z.of_nat (0 + (W - r) + i) + Z.of_nat r) with (Z.of_nat (W + i)) by lia. rewrite testbit_high by (auto; lia). reflexivity.
Qed.
Lemma w_lshift_ok x r : (r <= W)%nat -> w_lshift c (B x) r = B (Z.shiftl x (Z.of_nat r)).
Proof.
  intros Hr. rewrite (B_map (Z.shiftl _ _)). unfold w_lshift. replace W with (r + (W - r))%nat at 2 by lia. rewrite seq_app, map_app. f_equal.
  - apply nth_ext' with (d := 0); [rewrite repeat_length, map_length, seq_length; auto|]. rewrite repeat_length. intros i Hi.
    rewrite nth_map_seq by auto. rewrite nth_repeat, Z.shiftl_spec_low by lia. reflexivity.
  - cbn [Nat.add]. apply map_ext_in. intros i Hi. apply in_seq in Hi. rewrite B_nth by lia. rewrite Z.shiftl_spec by lia. do 2 f_equal. lia.
Qed.

Definition sumZ (ws : list Z) : Z := fold_left Z.add ws 0.
Lemma from_word_B x : word x -> from_word p (B x) = x.
Proof.
  intros H. unfold from_word, B. rewrite val_bits_le by exact H. apply Z.mod_small. unfold word in H. pose proof W_range as HW.
  assert (2 ^ Z.of_nat W <= 2 ^ 64) by (apply Z.pow_le_mono_r; lia). assert (2 ^ 64 < 2 ^ 70) by reflexivity. lia.
Qed.
Lemma fold_add_bound : forall ws acc, Forall word ws -> acc <= fold_left Z.add ws acc <= acc + Z.of_nat (length ws) * 2 ^ Z.of_nat W.
Proof.
  induction ws as [|x ws IH]; intros acc F; cbn [fold_left length]; [lia|]. inversion F; subst. specialize (IH (acc + x) H2). unfold word in H1. pose proof pow_pos. lia.
Qed.
Lemma w_add_gen ws : Forall word ws -> ws <> [] -> (W <= cAddDigits c (length ws - 2))%nat ->
  Z.of_nat (length ws) * 2 ^ Z.of_nat W <= 2 ^ Z.of_nat (cAddDigits c (length ws - 2)) -> Z.of_nat (length ws) * 2 ^ Z.of_nat W <= p ->
  w_add p c (map B ws) = Some (B (sumZ ws mod 2 ^ Z.of_nat W)).
Proof.
  intros F L D1 D2 Hlp. pose proof pow_pos as Hpp.
  assert (Hsum : forall ws acc, Forall word ws -> 0 <= acc -> acc + Z.of_nat (length ws) * (2 ^ Z.of_nat W - 1) < p ->
     fold_left (fun a v => fadd p a (from_word p v)) (map B ws) acc = fold_left Z.add ws acc).
  { clear ws F L D1 D2 Hlp. induction ws as [|x ws IH]; intros acc F Ha Hb; [reflexivity|]. inversion F as [|? ? Hx F']; subst. cbn [map fold_left length] in *.
    assert (Hz : 0 <= Z.of_nat (length ws) * (2 ^ Z.of_nat W - 1)) by (apply Z.mul_nonneg_nonneg; lia).
    rewrite from_word_B by auto. unfold word in Hx. rewrite fadd_small by lia. apply IH; auto; lia. }
  pose proof (fold_add_bound ws 0 F) as Hb. fold (sumZ ws) in Hb. destruct F as [|x ws' Hx F']; [congruence|].
  set (ws := x :: ws') in *.
  assert (Hl1 : (1 <= length ws)%nat) by (unfold ws; cbn; lia).
  unfold w_add. rewrite Hsum; [|constructor; auto|lia|lia]. fold (sumZ ws). rewrite map_length.
  assert (Hlt : sumZ ws < Z.of_nat (length ws) * 2 ^ Z.of_nat W).
  { unfold sumZ, ws. cbn [fold_left length]. pose proof (fold_add_bound ws' (0 + x) F'). unfold word in Hx. lia. }
  rewrite to_binary_ok.
  - cbn [obind]. f_equal. rewrite B_mod. unfold B.
    replace (cAddDigits c (length ws - 2)) with (W + (cAddDigits c (length ws - 2) - W))%nat by lia.
    rewrite bits_le_app, firstn_app, bits_le_length, Nat.sub_diag, firstn_O, app_nil_r. apply firstn_all2. rewrite bits_le_length. lia.
  - unfold felt. lia.
  - lia.
Qed.
Lemma w_add_ok ws : Forall word ws -> (2 <= length ws <= 5)%nat -> w_add p c (map B ws) = Some (B (sumZ ws mod 2 ^ Z.of_nat W)).
Proof.
  intros F L. pose proof W_range as HW. pose proof pow_pos as Hpp.
  assert (P64 : 2 ^ Z.of_nat W <= 2 ^ 64) by (apply Z.pow_le_mono_r; lia).
  assert (P70 : 2 ^ 64 * 64 = 2 ^ 70) by reflexivity.
  assert (H5 : Z.of_nat (length ws) * 2 ^ Z.of_nat W <= 5 * 2 ^ Z.of_nat W) by (apply Z.mul_le_mono_nonneg_r; lia).
  destruct (ag_add c s Hag (length ws - 2)%nat ltac:(lia)) as [D1 D2]. replace (length ws - 2 + 2)%nat with (length ws) in D2 by lia.
  apply w_add_gen; auto; [destruct ws; [cbn in L; lia|congruence]|lia].
Qed.
Lemma const_word_ok n a : const_word n a = bits_le n a.
Proof.
  unfold const_word. rewrite zbits_word. apply map_ext. intros i.
  rewrite Z.land_comm. change 1 with (Z.ones 1). rewrite Z.land_comm, Z.land_ones, <- Z.bit0_mod, Z.shiftr_spec, Z.add_0_l by lia.
  destruct (Z.testbit _ _); reflexivity.
Qed.
Lemma to_word_ok b : 0 <= b < 256 -> to_word c (bits_le 8 b) = B b.
Proof.
  intros Hb. pose proof W_range. unfold to_word, B. replace (bits_le W b) with (bits_le (8 + (W - 8)) b) by (f_equal; lia). rewrite bits_le_app. apply f_equal2.
  - symmetry. apply list_as_map_seq. apply bits_le_length.
  - change (2 ^ Z.of_nat 8) with 256. rewrite Z.div_small by lia. induction (W - 8)%nat; cbn [repeat bits_le]; [reflexivity|]. rewrite IHn. reflexivity.
Qed.
Lemma to_byte_ok x : to_byte (B x) = bits_le 8 x.
Proof.
  pose proof W_range. unfold to_byte, B. replace (bits_le W x) with (bits_le (8 + (W - 8)) x) by (f_equal; lia). rewrite bits_le_app.
  transitivity (map (fun i => nth i (bits_le 8 x) 0) (seq 0 8)); [|symmetry; apply list_as_map_seq; apply bits_le_length].
  apply map_ext_in. intros i Hi. apply in_seq in Hi. apply app_nth1. rewrite bits_le_length. lia.
Qed.
End P.
