(** * KeccakSponge.v — Keccak256Bits and its variant return the sponge digest *)
From Coq Require Import ZArith List Bool Arith Lia.
From Verif Require Import Field FieldLemmas ModNorm RlpUtilModel RlpUtilProofs KeccakSpec KeccakModel KeccakProofs.
Import ListNotations.
Open Scope Z_scope.
Open Scope circ_scope.

(** [injection] without simplification *)
Ltac some_inj H := match type of H with Some ?a = Some ?b => let E := fresh in assert (E : b = a) by congruence; clear H; subst b end.

Section P.
Variable p : Z.
Hypothesis Hp : 2 < p.

Lemma flat_map_nth : forall (A : Type) (f : nat -> list A) w d n s k z, (forall i, length (f i) = w) -> (k < n)%nat -> (z < w)%nat ->
  nth (w * k + z) (flat_map f (seq s n)) d = nth z (f (s + k)%nat) d.
Proof.
  intros A f w d n. induction n as [|n IH]; intros s k z Hw Hk Hz; [lia|]. cbn [seq flat_map].
  destruct k as [|k].
  - rewrite Nat.mul_0_r, Nat.add_0_l, Nat.add_0_r. rewrite app_nth1; auto. rewrite Hw. auto.
  - rewrite app_nth2 by (rewrite Hw; nia). rewrite Hw. replace (w * S k + z - w)%nat with (w * k + z)%nat by nia.
    rewrite IH by (auto; lia). f_equal. f_equal. lia.
Qed.
Lemma flat_map_length_const : forall (A B : Type) (f : A -> list B) w l, (forall i, length (f i) = w) -> length (flat_map f l) = (w * length l)%nat.
Proof. intros A B f w l H. induction l as [|x l IH]; [cbn; lia|]. cbn [flat_map length]. rewrite app_length, H, IH. lia. Qed.

Lemma string_of_length A : length (string_of A) = 1600%nat.
Proof. unfold string_of. rewrite flat_map_length_const with (w := 64%nat); [|intros; now rewrite map_length, seq_length]. reflexivity. Qed.
Lemma string_of_nth A x y z : (x < 5)%nat -> (y < 5)%nat -> (z < 64)%nat -> nth (64 * (5 * y + x) + z) (string_of A) false = A x y z.
Proof.
  intros Hx Hy Hz. unfold string_of. rewrite (flat_map_nth bool) by (try lia; intros; now rewrite map_length, seq_length).
  rewrite nth_map_seq by lia. rewrite Nat.add_0_l. f_equal.
  - rewrite Nat.add_comm, Nat.mul_comm, Nat.mod_add by lia. apply Nat.mod_small; auto.
  - rewrite Nat.add_comm, Nat.mul_comm, Nat.div_add by lia. rewrite Nat.div_small; auto.
Qed.
Lemma state_of_string A : eqS (state_of (string_of A)) A.
Proof. intros x y z Hx Hy Hz. unfold state_of. apply string_of_nth; auto. Qed.
Lemma string_of_ext A B : eqS A B -> string_of A = string_of B.
Proof.
  intros H. unfold string_of. rewrite !flat_map_concat_map. f_equal. apply map_ext_in. intros l Hl. apply in_seq in Hl.
  apply map_ext_in. intros z Hz. apply in_seq in Hz. apply H; try lia. apply m5. apply Nat.div_lt_upper_bound; lia.
Qed.
Lemma absorb_block_ext A B b : eqS A B -> eqS (absorb_block A b) (absorb_block B b).
Proof. intros H. apply keccak_f_ext. intros x y z Hx Hy Hz. rewrite H; auto. Qed.

(** absorbing one block of bits *)
Lemma absorb_bits_E : forall s b, length s = 1600%nat -> length b = 1088%nat ->
  absorb_bits p (zbits s) (zbits b) = Some (zbits (string_of (absorb_block (state_of s) b))).
Proof.
  intros s b Hs Hb. unfold absorb_bits.
  rewrite omap_total with (g := fun i => bit_of (xorb (nth i s false) (nth i b false))).
  2:{ intros i Hi. apply in_seq in Hi. unfold zbits. rewrite !nth_map' with (d' := false) by lia. apply fxor_bits; auto. }
  cbn [obind].
  replace (map (fun i => bit_of (xorb (nth i s false) (nth i b false))) (seq 0 1088) ++ skipn 1088 (zbits s))
    with (zbits (map (fun i => xorb (nth i s false) (nth i b false)) (seq 0 1088) ++ skipn 1088 s)).
  2:{ unfold zbits. rewrite map_app, map_map, skipn_map. reflexivity. }
  rewrite (permute_bits_E p Hp).
  2:{ rewrite app_length, map_length, seq_length, skipn_length. lia. }
  apply (f_equal (@Some _)). apply (f_equal zbits). apply string_of_ext. apply keccak_f_ext. intros x y z Hx Hy Hz. unfold state_of.
  set (k := (64 * (5 * y + x) + z)%nat). assert (Hk : (k < 1600)%nat) by (unfold k; lia). clearbody k.
  destruct (Nat.lt_ge_cases k 1088) as [H|H].
  - rewrite app_nth1 by (rewrite map_length, seq_length; auto). rewrite nth_map_seq by auto. reflexivity.
  - rewrite app_nth2 by (rewrite map_length, seq_length; auto). rewrite map_length, seq_length, nth_skipn'.
    rewrite (nth_overflow b) by lia. rewrite xorb_false_r. f_equal. lia.
Qed.

Lemma skipn_skipn' : forall (A : Type) n m (l : list A), skipn n (skipn m l) = skipn (m + n) l.
Proof. intros A n m. induction m as [|m IH]; intros l; [reflexivity|]. destruct l; cbn [skipn Nat.add]; [apply skipn_nil|apply IH]. Qed.
Lemma sponge_snoc bs b : sponge (bs ++ [b]) = absorb_block (sponge bs) b.
Proof. unfold sponge. rewrite fold_left_app. reflexivity. Qed.

Lemma blocks_of_app : forall n m s, blocks_of (n + m) s = blocks_of n s ++ blocks_of m (skipn (n * 1088) s).
Proof.
  induction n as [|n IH]; intros m s; [reflexivity|]. cbn [Nat.add blocks_of app]. apply f_equal. rewrite IH. apply f_equal. rewrite skipn_skipn'.
  apply (f_equal (fun k => blocks_of m (skipn k s))). lia.
Qed.

(** the states after blocks r+1, ..., r+n *)
Lemma bit_states_E : forall d n r s, length s = 1600%nat ->
  eqS (state_of s) (sponge (blocks_of r d)) -> ((r + n) * 1088 <= length d)%nat ->
  bit_states p (zbits d) n r (zbits s) = Some (map (fun k => zbits (string_of (sponge (blocks_of k d)))) (seq (S r) n)).
Proof.
  intros d n. induction n as [|n IH]; intros r s Hs Heq Hl; [reflexivity|]. cbn [bit_states seq map].
  unfold round_bits. replace (length (zbits d)) with (length d) by (unfold zbits; now rewrite map_length).
  replace (Nat.leb ((r + 1) * 1088) (length d)) with true by (symmetry; apply Nat.leb_le; lia). cbn [guard obind].
  replace (firstn 1088 (skipn (r * 1088) (zbits d))) with (zbits (firstn 1088 (skipn (r * 1088) d)))
    by (unfold zbits; now rewrite skipn_map, firstn_map).
  rewrite absorb_bits_E; auto. 2:{ rewrite firstn_length, skipn_length. lia. }
  cbn [obind].
  assert (He : eqS (absorb_block (state_of s) (firstn 1088 (skipn (r * 1088) d))) (sponge (blocks_of (S r) d))).
  { replace (S r) with (r + 1)%nat by lia. rewrite blocks_of_app. cbn [blocks_of]. rewrite sponge_snoc. apply absorb_block_ext; auto. }
  rewrite IH; try lia.
  - cbn [obind]. apply (f_equal (@Some _)). apply f_equal2; [|reflexivity]. apply (f_equal zbits). apply string_of_ext. exact He.
  - apply string_of_length.
  - intros x y z Hx Hy Hz. rewrite state_of_string by auto. apply He; auto.
Qed.

Lemma zbits_repeat n : repeat 0 n = zbits (repeat false n).
Proof. unfold zbits. induction n; cbn; congruence. Qed.

Lemma all_states : forall d n, length d = (n * 1088)%nat ->
  bit_states p (zbits d) n 0 (repeat 0 1600) = Some (map (fun k => zbits (string_of (sponge (blocks_of k d)))) (seq 1 n)).
Proof.
  intros d n Hl. rewrite zbits_repeat. apply bit_states_E.
  - apply repeat_length.
  - intros x y z Hx Hy Hz. unfold state_of. cbn [blocks_of sponge fold_left]. unfold sponge. cbn [fold_left].
    destruct (nth_in_or_default (64 * (5 * y + x) + z) (repeat false 1600) false) as [H|H]; auto.
    apply repeat_spec in H. auto.
  - lia.
Qed.

(** what the selected digest is *)
Definition sponge256 (k : nat) (d : list bool) : list bool := firstn 256 (string_of (sponge (blocks_of k d))).

Lemma m_multiplex_firstn : forall sel wIn nIn input, (wIn <= length input)%nat ->
  m_multiplex p sel wIn nIn input = m_multiplex p sel wIn nIn (firstn wIn input).
Proof.
  intros sel wIn nIn input H. unfold m_multiplex. destruct (r_decoder p nIn sel) as [[mask succ]|]; [|reflexivity]. cbn [obind].
  rewrite firstn_length, Nat.min_l by auto.
  replace (Nat.leb wIn (length input)) with true by (symmetry; apply Nat.leb_le; auto). rewrite Nat.leb_refl. cbn [guard obind].
  erewrite omap_ext; [reflexivity|]. intros i Hi. apply in_seq in Hi. cbv beta. rewrite nth_firstn' by lia. reflexivity.
Qed.

Lemma mux_states : forall sel n lo d, felt p sel -> Z.of_nat n < p ->
  m_multiplex p sel 256 n (transpose_n 1600 (map (fun k => zbits (string_of (sponge (blocks_of k d)))) (seq lo n))) =
  if sel <? Z.of_nat n then Some (zbits (sponge256 (lo + Z.to_nat sel) d)) else None.
Proof.
  intros sel n lo d Hs Hn. rewrite m_multiplex_firstn by (unfold transpose_n; rewrite map_length, seq_length; lia).
  unfold transpose_n. rewrite firstn_map.
  replace (firstn 256 (seq 0 1600)) with (seq 0 256) by reflexivity.
  set (sts := map (fun k => zbits (string_of (sponge (blocks_of k d)))) (seq lo n)).
  assert (Hl : length sts = n) by (unfold sts; rewrite map_length, seq_length; auto).
  assert (Hbits : forall r x, In r sts -> In x r -> is_bit x).
  { intros r x Hr Hx. unfold sts in Hr. apply in_map_iff in Hr. destruct Hr as [k [<- _]]. unfold zbits in Hx.
    apply in_map_iff in Hx. destruct Hx as [b [<- _]]. apply bit_of_bit. }
  rewrite (m_multiplex_ok p Hp); auto.
  - destruct (Z.ltb_spec sel (Z.of_nat n)) as [H|H]; auto. apply (f_equal (@Some _)). rewrite map_map.
    unfold sponge256, zbits. rewrite <- firstn_map. unfold felt in Hs.
    set (S0 := map bit_of (string_of (sponge (blocks_of (lo + Z.to_nat sel) d)))).
    assert (HS : length S0 = 1600%nat) by (unfold S0; rewrite map_length; apply string_of_length).
    apply nth_ext' with (d := 0).
    + rewrite map_length, seq_length, firstn_length. lia.
    + intros i Hi. rewrite map_length, seq_length in Hi. rewrite nth_map_seq by auto.
      rewrite nth_firstn' by auto. rewrite (nth_map' _ _ (fun r => nth (0 + i) r 0)) with (d' := []) by lia.
      unfold sts. rewrite nth_map_seq by lia. reflexivity.
  - intros row Hrow. apply in_map_iff in Hrow. destruct Hrow as [i [<- Hi]]. split; [rewrite map_length; auto|].
    intros x Hx. apply in_map_iff in Hx. destruct Hx as [r [<- Hr]]. apply felt_bit; auto.
    destruct (nth_in_or_default i r 0) as [H|H]; [eapply Hbits; eauto|rewrite H; left; auto].
Qed.

(** non-boolean data is refused: every data element goes through api.Xor *)
Lemma fxor_Some_bit a b x : fxor p a b = Some x -> is_bit (a mod p) /\ is_bit (b mod p).
Proof.
  unfold fxor, assert_bool. intros H.
  destruct ((a mod p =? 0) || (a mod p =? 1)) eqn:Ha; [|discriminate]. cbn [guard obind] in H.
  destruct ((b mod p =? 0) || (b mod p =? 1)) eqn:Hb; [|discriminate].
  apply orb_true_iff in Ha, Hb. rewrite !Z.eqb_eq in Ha, Hb. split; unfold is_bit; tauto.
Qed.

Lemma bit_states_bits : forall data n r s sts, bit_states p data n r s = Some sts ->
  forall i, (r * 1088 <= i < (r + n) * 1088)%nat -> is_bit (nth i data 0 mod p).
Proof.
  intros data n. induction n as [|n IH]; intros r s sts H i Hi; [lia|]. cbn [bit_states] in H.
  apply obind_Some in H. destruct H as [b [Hb H]]. apply obind_Some in H. destruct H as [s' [Hs H]].
  apply obind_Some in H. destruct H as [rest [Hrest _]].
  destruct (Nat.lt_ge_cases i ((r + 1) * 1088)) as [Hlt|Hge].
  2:{ eapply IH; eauto. lia. }
  unfold round_bits in Hb. apply obind_Some in Hb. destruct Hb as [u [Hg Hb]]. apply guard_Some in Hg. apply Nat.leb_le in Hg.
  unfold absorb_bits in Hs. apply obind_Some in Hs. destruct Hs as [x [Hx _]].
  pose proof (omap_Some_nth _ _ _ _ _ Hx (i - r * 1088) 0%nat 0) as Hn. clear Hx.
  rewrite seq_length in Hn. specialize (Hn ltac:(lia)). rewrite seq_nth in Hn by lia.
  apply fxor_Some_bit in Hn. destruct Hn as [_ Hn]. some_inj Hb.
  rewrite nth_firstn', nth_skipn' in Hn by lia. replace (r * 1088 + (0 + (i - r * 1088)))%nat with i in Hn by lia. exact Hn.
Qed.

Lemma zbits_of : forall l, Forall is_bit l -> l = zbits (map (Z.eqb 1) l).
Proof.
  intros l H. unfold zbits. rewrite map_map. induction H as [|x l Hx _ IH]; [reflexivity|]. cbn [map]. rewrite <- IH.
  f_equal. destruct Hx; subst; reflexivity.
Qed.

Lemma zbits_inj : forall a b, zbits a = zbits b -> a = b.
Proof.
  induction a as [|x a IH]; intros [|y b] H; try discriminate; auto. cbn in H. injection H as H1 H2.
  f_equal; [destruct x, y; auto; discriminate|auto].
Qed.

(** what satisfiability of the common part of the two gadgets means *)
Lemma states_inv : forall n data sts, Forall (felt p) data -> (1 <= n)%nat -> (length data <= n * 1088)%nat ->
  bit_states p data n 0 (repeat 0 1600) = Some sts ->
  exists d, data = zbits d /\ length d = (n * 1088)%nat /\
            sts = map (fun k => zbits (string_of (sponge (blocks_of k d)))) (seq 1 n).
Proof.
  intros n data sts Hd H1 Hle Hsts.
  assert (Hlen : length data = (n * 1088)%nat).
  { destruct n as [|n']; [lia|].
    assert (G : forall k r s sts, bit_states p data (S k) r s = Some sts -> exists b, round_bits data (r + k) = Some b).
    { clear. induction k as [|k IH]; intros r s sts H; cbn [bit_states] in H;
        apply obind_Some in H; destruct H as [b [Hb H]]; apply obind_Some in H; destruct H as [s' [Hs H]];
        apply obind_Some in H; destruct H as [rest [Hr _]].
      - exists b. rewrite Nat.add_0_r. exact Hb.
      - apply IH in Hr. destruct Hr as [b' Hb']. exists b'. rewrite <- Hb'. f_equal. lia. }
    apply G in Hsts. destruct Hsts as [b Hb]. unfold round_bits in Hb. apply obind_Some in Hb. destruct Hb as [w [Hw _]].
    apply guard_Some in Hw. apply Nat.leb_le in Hw. lia. }
  assert (Hbits : Forall is_bit data).
  { apply Forall_forall. intros x Hx. apply In_nth with (d := 0) in Hx. destruct Hx as [i [Hi <-]].
    pose proof (bit_states_bits _ _ _ _ _ Hsts i ltac:(lia)) as Hb.
    rewrite Z.mod_small in Hb; auto. rewrite Forall_forall in Hd. apply Hd. apply nth_In. auto. }
  exists (map (Z.eqb 1) data). rewrite <- zbits_of by auto. split; [auto|]. split; [rewrite map_length; auto|].
  rewrite (zbits_of _ Hbits) in Hsts. rewrite all_states in Hsts by (rewrite map_length; auto). some_inj Hsts. reflexivity.
Qed.

(** Keccak256Bits, complete characterisation for a canonical witness *)
Theorem keccak256_bits_ok : forall maxRounds ri data out, felt p ri -> Forall (felt p) data -> Z.of_nat maxRounds < p ->
  (2 <= maxRounds)%nat ->
  (keccak256_bits p maxRounds ri data = Some out <->
   exists d, data = zbits d /\ length d = (maxRounds * 1088)%nat /\ ri < Z.of_nat maxRounds /\
             out = zbits (sponge256 (Z.to_nat ri + 1) d)).
Proof.
  intros n ri data out Hri Hd Hn H2. unfold keccak256_bits. split.
  - intros H. apply obind_Some in H. destruct H as [u [Hg H]]. apply guard_Some in Hg. apply Nat.leb_le in Hg.
    apply obind_Some in H. destruct H as [u' [Hm H]]. apply guard_Some in Hm. apply Nat.eqb_eq in Hm.
    apply obind_Some in H. destruct H as [sts [Hsts H]].
    apply states_inv in Hsts; auto; [|lia]. destruct Hsts as [d [-> [Hl ->]]].
    replace (Nat.eqb n 1) with false in H by (symmetry; apply Nat.eqb_neq; lia).
    rewrite mux_states in H by auto. exists d.
    split; [auto|]. split; [auto|].
    destruct (Z.ltb_spec ri (Z.of_nat n)); [|discriminate]. split; auto.
    rewrite Nat.add_comm. congruence.
  - intros [d [-> [Hl [Hlt ->]]]].
    replace (length (zbits d)) with (n * 1088)%nat by (unfold zbits; rewrite map_length; auto).
    rewrite Nat.leb_refl, Nat.mod_mul by lia. cbn [guard obind Nat.eqb].
    rewrite all_states by auto. cbn [obind].
    replace (Nat.eqb n 1) with false by (symmetry; apply Nat.eqb_neq; lia).
    rewrite mux_states by auto. replace (ri <? Z.of_nat n) with true by (symmetry; apply Z.ltb_lt; auto).
    rewrite Nat.add_comm. reflexivity.
Qed.

(** one block: roundIndex is ignored *)
Theorem keccak256_bits_one : forall ri data out, Forall (felt p) data ->
  (keccak256_bits p 1 ri data = Some out <-> exists d, data = zbits d /\ length d = 1088%nat /\ out = zbits (sponge256 1 d)).
Proof.
  intros ri data out Hd. unfold keccak256_bits. change (1 * 1088)%nat with 1088%nat. split.
  - intros H. apply obind_Some in H. destruct H as [u [Hg H]]. apply guard_Some in Hg. apply Nat.leb_le in Hg.
    apply obind_Some in H. destruct H as [u' [Hm H]]. apply obind_Some in H. destruct H as [sts [Hsts H]].
    apply states_inv in Hsts; auto. destruct Hsts as [d [-> [Hl ->]]]. exists d. split; [auto|]. split; [exact Hl|].
    cbn [Nat.eqb map seq nth] in H. unfold sponge256, zbits. rewrite <- firstn_map. unfold zbits in H. congruence.
  - intros [d [-> [Hl ->]]]. replace (length (zbits d)) with 1088%nat by (unfold zbits; rewrite map_length; auto).
    rewrite Nat.leb_refl. change (1088 mod 1088)%nat with 0%nat. cbn [guard obind Nat.eqb].
    rewrite all_states by auto. cbn [obind map seq nth]. unfold sponge256, zbits. rewrite <- firstn_map. reflexivity.
Qed.

Lemma sponge0 : zbits (string_of (sponge (blocks_of 0 []))) = repeat 0 1600.
Proof. reflexivity. Qed.

(** Keccak256BitsOptimized selects among the states after minRounds, ..., maxRounds blocks *)
Theorem keccak256_bits_optimized_ok : forall minRounds maxRounds ri data out, felt p ri -> Forall (felt p) data ->
  Z.of_nat maxRounds + 1 < p -> (2 <= maxRounds)%nat -> (1 <= minRounds <= maxRounds)%nat ->
  (keccak256_bits_optimized p minRounds maxRounds ri data = Some out <->
   exists d, data = zbits d /\ length d = (maxRounds * 1088)%nat /\ Z.of_nat minRounds - 1 <= ri < Z.of_nat maxRounds /\
             out = zbits (sponge256 (Z.to_nat ri + 1) d)).
Proof.
  intros m n ri data out Hri Hd Hn H2 Hm'. unfold keccak256_bits_optimized.
  assert (Hsel : felt p (fsub p ri (Z.of_nat m - 1))) by (apply felt_fsub; lia).
  unfold felt in Hri.
  assert (Hcase : fsub p ri (Z.of_nat m - 1) = if ri <? Z.of_nat m - 1 then ri - (Z.of_nat m - 1) + p else ri - (Z.of_nat m - 1)).
  { unfold fsub. destruct (Z.ltb_spec ri (Z.of_nat m - 1)).
    - rewrite <- (Z.mod_add _ 1) by lia. rewrite Z.mod_small; lia.
    - rewrite Z.mod_small; lia. }
  assert (Hskip : forall (X : list Z) (f : nat -> list Z), skipn m (X :: map f (seq 1 n)) = map f (seq m (n - m + 1))).
  { intros X f. destruct m as [|m']; [lia|]. cbn [skipn]. rewrite skipn_map. f_equal.
    replace (S m')%nat with (1 + m')%nat at 1 by lia. 
    replace n with (m' + (n - m'))%nat at 1 by lia. rewrite seq_app. rewrite skipn_app, seq_length, Nat.sub_diag.
    rewrite skipn_all2 by (rewrite seq_length; lia). cbn [skipn app]. f_equal. lia. }
  split.
  - intros H. apply obind_Some in H. destruct H as [u [Hg H]]. apply guard_Some in Hg. apply Nat.leb_le in Hg.
    apply obind_Some in H. destruct H as [u' [Hm H]]. apply guard_Some in Hm. apply Nat.eqb_eq in Hm.
    apply obind_Some in H. destruct H as [sts [Hsts H]].
    apply states_inv in Hsts; auto; [|lia]. destruct Hsts as [d [-> [Hl ->]]].
    replace (Nat.eqb n 1) with false in H by (symmetry; apply Nat.eqb_neq; lia).
    replace (Nat.leb m n) with true in H by (symmetry; apply Nat.leb_le; lia). unfold guard in H. unfold obind in H.
    rewrite Hskip in H. rewrite mux_states in H by (auto; lia). exists d.
    split; [auto|]. split; [auto|].
    destruct (Z.ltb_spec (fsub p ri (Z.of_nat m - 1)) (Z.of_nat (n - m + 1))) as [Hlt|]; [|discriminate].
    destruct (Z.ltb_spec ri (Z.of_nat m - 1)); rewrite Hcase in Hlt, H; [lia|]. split; [lia|].
    replace (Z.to_nat ri + 1)%nat with (m + Z.to_nat (ri - (Z.of_nat m - 1)))%nat by lia. congruence.
  - intros [d [-> [Hl [Hlt ->]]]].
    replace (length (zbits d)) with (n * 1088)%nat by (unfold zbits; rewrite map_length; auto).
    rewrite Nat.leb_refl, Nat.mod_mul by lia. cbn [guard obind Nat.eqb].
    rewrite all_states by auto. cbn [obind].
    replace (Nat.eqb n 1) with false by (symmetry; apply Nat.eqb_neq; lia).
    replace (Nat.leb m n) with true by (symmetry; apply Nat.leb_le; lia). unfold guard, obind. rewrite Hskip.
    rewrite mux_states by (auto; lia). rewrite Hcase.
    replace (ri <? Z.of_nat m - 1) with false by (symmetry; apply Z.ltb_ge; lia).
    replace (ri - (Z.of_nat m - 1) <? Z.of_nat (n - m + 1)) with true by (symmetry; apply Z.ltb_lt; lia).
    replace (m + Z.to_nat (ri - (Z.of_nat m - 1)))%nat with (Z.to_nat ri + 1)%nat by lia. reflexivity.
Qed.
End P.
