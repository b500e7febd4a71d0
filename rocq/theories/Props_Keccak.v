(** * Props_Keccak.v — C15..C19.  [perm_ok] (KeccakWords.v) is what is assumed of gnark's external permutation; it is
    used only for the word gadget, the bit gadget has its own permutation, proved here. *)
From Coq Require Import ZArith List Bool Arith Lia.
From Verif Require Import Field FieldLemmas RlpSpec RlpUtilModel KeccakSpec KeccakModel KeccakProofs KeccakSponge KeccakWords KeccakNibbles SliceModel KeccakPadModel KeccakPad.
Import ListNotations.
Open Scope Z_scope.
Open Scope circ_scope.

(** ** C15 *)
Theorem C15_pad101_bytes_is_keccak_padding : forall m, bytes_bits (pad101_bytes m) = pad101 (bytes_bits m).
Proof. exact pad101_bytes_bits. Qed.
Theorem C15_pad101_bytes_length : forall m, (length (pad101_bytes m) mod 136 = 0 /\ length m < length (pad101_bytes m) <= length m + 136)%nat.
Proof.
  intros m. split.
  - rewrite pad101_bytes_blocks, Nat.mul_comm. apply Nat.mod_mul. lia.
  - rewrite pad101_bytes_length. pose proof (miss_range (length m)). lia.
Qed.
Theorem C15_pad101_bytes_injective : forall a b, Forall byte a -> Forall byte b -> pad101_bytes a = pad101_bytes b -> a = b.
Proof. exact pad101_bytes_inj. Qed.
Example C15_case : pad101_bytes (repeat 7 135) = repeat 7 135 ++ [0x81] /\ length (pad101_bytes (repeat 7 136)) = 272%nat.
Proof. split; vm_compute; reflexivity. Qed.

(** ** C16 *)
Theorem C16_round_of_padded_bytes : forall m, keccak_round_for_padded (pad101_bytes m) = Z.of_nat (length m / 136).
Proof.
  intros m. unfold keccak_round_for_padded. rewrite pad101_bytes_blocks. rewrite Nat2Z.inj_mul, Z.mul_comm, Z.div_mul by lia. lia.
Qed.
(** GetRoundIndex is right for exactly the lengths that are not 135 modulo 136. *)
Theorem C16_round_index_exact : forall m,
  get_round_index (8 * Z.of_nat (length m)) + 1 = Z.of_nat (length (pad101_bytes m) / 136) <-> (length m mod 136 <> 135)%nat.
Proof.
  intros m. rewrite pad101_bytes_blocks, Nat.mul_comm, Nat.div_mul by lia. unfold get_round_index.
  pose proof (Nat.div_mod (length m) 136 ltac:(lia)) as Hd. pose proof (Nat.mod_upper_bound (length m) 136 ltac:(lia)) as Hu.
  set (q := (length m / 136)%nat) in *. set (r := (length m mod 136)%nat) in *.
  assert (E : (8 * Z.of_nat (length m) + 8) / 1088 = Z.of_nat q + (if Nat.eqb r 135 then 1 else 0)).
  { rewrite Hd. destruct (Nat.eqb_spec r 135) as [->|Hr].
    - replace (8 * Z.of_nat (136 * q + 135) + 8) with ((Z.of_nat q + 1) * 1088) by lia. apply Z.div_mul. lia.
    - symmetry. apply (Z.div_unique _ _ _ (8 * Z.of_nat r + 8)); lia. }
  rewrite E. destruct (Nat.eqb_spec r 135); split; intros; lia.
Qed.
Theorem C16_round_index_refuted : exists m, get_round_index (8 * Z.of_nat (length m)) + 1 <> Z.of_nat (length (pad101_bytes m) / 136).
Proof. exists (repeat 0 135). vm_compute. discriminate. Qed.

(** Pad101Bits for digits of w = 8, 4, 2 or 1 bits (c = 8/w digits per byte): which inputs it accepts. *)
Theorem C16_pad101_bits_accepts : forall p logc mn mx input inLen, 2 ^ 65 < p -> p mod 2 = 1 -> (logc <= 3)%nat ->
  Forall (felt p) input -> felt p inLen -> Z.of_nat mx < 2 ^ 60 ->
  ((exists out, pad101_bits p logc mn mx input inLen = Some out) <->
   let c := (2 ^ logc)%nat in
   length input = mx /\ (mn mod c = 0)%nat /\ (mx mod c = 0)%nat /\ Forall (fun d => 0 <= d < 2 ^ Z.of_nat (8 / c)) input /\
   exists n, inLen = Z.of_nat (n * c) /\ (mn <= n * c <= mx)%nat).
Proof.
  intros p logc mn mx input inLen Hp Ho Hl F Fi Hm. cbv zeta. split.
  - intros [out H]. apply pad101_bits_ok in H; auto. destruct H as [A [B [C [D [n [E [G _]]]]]]].
    repeat (split; [assumption|]). exists n. auto.
  - intros [A [B [C [D [n [E G]]]]]]. eexists. apply pad101_bits_ok; auto. repeat (split; [assumption|]). exists n. split; [exact E|]. split; [exact G|reflexivity].
Qed.
(** For messages whose length is not 135 modulo 136 the output is the Keccak padding of the message, then zeros. *)
Theorem C16_pad101_bits_correct : forall p logc mn mx input inLen out, 2 ^ 65 < p -> p mod 2 = 1 -> (logc <= 3)%nat ->
  Forall (felt p) input -> felt p inLen -> Z.of_nat mx < 2 ^ 60 ->
  pad101_bits p logc mn mx input inLen = Some out ->
  let c := (2 ^ logc)%nat in let n := (Z.to_nat inLen / c)%nat in
  let m := digit_bytes n c (8 / c) (firstn (Z.to_nat inLen) input) in
  length m = n /\
  ((n mod 136 <> 135)%nat -> exists k, out = zbits (pad101 (bytes_bits m) ++ repeat false k)).
Proof.
  intros p logc mn mx input inLen out Hp Ho Hl F Fi Hm H. cbv zeta. apply pad101_bits_ok in H; auto.
  destruct H as [A [B [C [D [n [E [G ->]]]]]]]. subst inLen. rewrite Nat2Z.id.
  assert (Hc : (2 ^ logc <> 0)%nat) by (apply Nat.pow_nonzero; lia). rewrite Nat.div_mul by exact Hc.
  assert (L : length (digit_bytes n (2 ^ logc) (8 / 2 ^ logc) (firstn (n * 2 ^ logc) input)) = n).
  { unfold digit_bytes. rewrite map_length. clear. generalize (firstn (n * 2 ^ logc) input). induction n; intros; cbn [chunks length]; auto. }
  split; [exact L|]. intros Hn. rewrite (pad_out_good p) by (rewrite L; exact Hn). eexists. reflexivity.
Qed.
(** For every message whose length is 135 modulo 136 the output is not the padding of that message. *)
Theorem C16_pad101_bits_refuted : forall p logc mn mx input inLen out, 2 ^ 65 < p -> p mod 2 = 1 -> (logc <= 3)%nat ->
  Forall (felt p) input -> felt p inLen -> Z.of_nat mx < 2 ^ 60 ->
  pad101_bits p logc mn mx input inLen = Some out ->
  let c := (2 ^ logc)%nat in let n := (Z.to_nat inLen / c)%nat in
  let m := digit_bytes n c (8 / c) (firstn (Z.to_nat inLen) input) in
  (n mod 136 = 135)%nat -> forall rest, out <> zbits (pad101 (bytes_bits m) ++ rest).
Proof.
  intros p logc mn mx input inLen out Hp Ho Hl F Fi Hm H. cbv zeta. apply pad101_bits_ok in H; auto.
  destruct H as [A [B [C [D [n [E [G ->]]]]]]]. subst inLen. rewrite Nat2Z.id.
  assert (Hc : (2 ^ logc <> 0)%nat) by (apply Nat.pow_nonzero; lia). rewrite Nat.div_mul by exact Hc.
  assert (L : length (digit_bytes n (2 ^ logc) (8 / 2 ^ logc) (firstn (n * 2 ^ logc) input)) = n).
  { unfold digit_bytes. rewrite map_length. clear. generalize (firstn (n * 2 ^ logc) input). induction n; intros; cbn [chunks length]; auto. }
  intros Hn rest Heq. apply zbits_inj in Heq. revert Heq. apply (pad_out_bad p). rewrite L. exact Hn.
Qed.
(** digit_bytes is what one expects for bytes and for hexadecimal digits *)
Theorem C16_digits_are_bytes : forall n l, length l = n -> digit_bytes n 1 8 l = l.
Proof.
  induction n as [|n IH]; intros l L; destruct l; try discriminate; auto. unfold digit_bytes. cbn [chunks map firstn skipn].
  f_equal. apply IH. cbn in L. lia.
Qed.
Theorem C16_digits_are_nibbles : forall n l, length l = (2 * n)%nat -> digit_bytes n 2 4 l = nibble_bytes l.
Proof.
  induction n as [|n IH]; intros l L.
  - destruct l; [reflexivity|discriminate].
  - destruct l as [|a [|b l]]; cbn [length] in L; try lia. unfold digit_bytes. cbn [chunks map firstn skipn nibble_bytes].
    apply f_equal2; [unfold be_val; cbn [fold_left]; change (2 ^ Z.of_nat 4) with 16; lia|]. apply IH. lia.
Qed.
Example C16_bits_case : exists out, pad101_bits bn254 1 4 8 [1; 2; 3; 4; 5; 6; 7; 8] 6 = Some out /\
  out = zbits (pad101 (bytes_bits [0x12; 0x34; 0x56])).
Proof. eexists. split; vm_compute; reflexivity. Qed.

(** PadBits101 *)
Theorem C16_pad_bits101_correct : forall p d maxRound, 2 ^ 65 < p -> (length d mod 1088 <= 1072)%nat ->
  pad_bits101 p (zbits d) maxRound = Some (zbits (pad101 d ++ repeat false (maxRound * 1088 - length (pad101 d)))).
Proof. intros. apply pad_bits101_ok; auto. Qed.
Theorem C16_pad_bits101_refuted : forall p, 2 ^ 65 < p -> exists d out, (length d mod 8 = 0)%nat /\ pad_bits101 p (zbits d) 2 = Some out /\
  forall rest, out <> zbits (pad101 d ++ rest).
Proof.
  intros p Hp. exists (repeat false 1080). eexists. split; [reflexivity|]. split.
  - unfold pad_bits101. rewrite !to_binary_ok; try lia; try (unfold felt; assert (128 < 2 ^ 65) by reflexivity; lia); try reflexivity.
  - intros rest H. apply (f_equal (fun l => nth 1087 l 0)) in H. vm_compute in H. discriminate.
Qed.

(** ** C17 *)
Theorem C17_permute_is_keccak_f : forall p s, 2 < p -> length s = 1600%nat ->
  kf_permute_bits p (zbits s) = Some (zbits (string_of (keccak_f (state_of s)))).
Proof. intros. apply permute_bits_E; auto. Qed.

Lemma ofold_fxor_bits : forall p i ins r x, ofold (fun r v => fxor p r (nth i v 0)) ins r = Some x ->
  forall v, In v ins -> is_bit (nth i v 0 mod p).
Proof.
  intros p i ins. induction ins as [|w ins IH]; intros r x H v Hv; [destruct Hv|]. cbn [ofold] in H.
  apply obind_Some in H. destruct H as [r' [H1 H2]]. destruct Hv as [->|Hv]; [apply (fxor_Some_bit p) in H1; tauto|eapply IH; eauto].
Qed.
Theorem C17_permute_refuses_non_bits : forall p a out, 2 < p -> length a = 1600%nat -> Forall (felt p) a ->
  kf_permute_bits p a = Some out -> exists s, a = zbits s.
Proof.
  intros p a out Hp L F H. exists (map (Z.eqb 1) a). apply zbits_of. apply Forall_forall. intros x Hx.
  apply In_nth with (d := 0) in Hx. destruct Hx as [j [Hj <-]].
  unfold kf_permute_bits in H. apply obind_Some in H. destruct H as [res [H _]]. unfold kf_permute in H.
  change (seq 0 24) with (0%nat :: seq 1 23) in H. cbn [ofold] in H. apply obind_Some in H. destruct H as [s1 [H _]].
  apply obind_Some in H. destruct H as [st1 [H _]]. unfold kf_theta in H. apply obind_Some in H. destruct H as [bc [H _]].
  set (st := map (fun i => firstn 64 (skipn (i * 64) a)) (seq 0 25)) in H.
  assert (Hlane : forall l z, (l < 25)%nat -> (z < 64)%nat -> nth z (nth l st []) 0 = nth (64 * l + z) a 0).
  { intros l z Hl Hz. unfold st. rewrite nth_map_seq by auto. rewrite nth_firstn', nth_skipn' by auto. f_equal. lia. }
  set (l := (j / 64)%nat). set (z := (j mod 64)%nat).
  assert (Hjm : j = (64 * l + z)%nat) by (unfold l, z; apply Nat.div_mod; lia).
  assert (Hz : (z < 64)%nat) by (unfold z; apply Nat.mod_upper_bound; lia).
  assert (Hl : (l < 25)%nat) by lia.
  pose proof (omap_Some_nth _ _ _ _ _ H (l mod 5) 0%nat []) as Hn. rewrite seq_length in Hn.
  assert (H5 : (l mod 5 < 5)%nat) by (apply Nat.mod_upper_bound; lia). specialize (Hn H5). rewrite seq_nth, Nat.add_0_l in Hn by auto.
  unfold u_xor in Hn. pose proof (omap_Some_nth _ _ _ _ _ Hn z 0%nat 0) as Hz'. rewrite seq_length in Hz'. specialize (Hz' Hz). rewrite seq_nth, Nat.add_0_l in Hz' by auto.
  pose proof (ofold_fxor_bits _ _ _ _ _ Hz' (nth l st [])) as Hb.
  rewrite Hlane in Hb by auto. rewrite <- Hjm in Hb.
  assert (Hfelt : felt p (nth j a 0)) by (rewrite Forall_forall in F; apply F, nth_In; lia). unfold felt in Hfelt.
  rewrite Z.mod_small in Hb by auto. apply Hb. clear -Hl.
  pose proof (Nat.div_mod l 5 ltac:(lia)) as Hd. assert (Hq : (l / 5 < 5)%nat) by (apply Nat.div_lt_upper_bound; lia).
  set (q := (l / 5)%nat) in *. set (r := (l mod 5)%nat) in *. rewrite Hd.
  destruct q as [|[|[|[|[|q]]]]]; [| | | | |lia]; cbn [In].
  - left. f_equal; lia. 
  - right; left. f_equal; lia.
  - right; right; left. f_equal; lia.
  - do 3 right; left. f_equal; lia.
  - do 4 right; left. f_equal; lia.
Qed.

(** ** C18 — [sponge256 k d] is the first 256 bits of the sponge after the first k blocks of d *)
Theorem C18_keccak256_bits_exact : forall p maxRounds ri data out, 2 < p -> felt p ri -> Forall (felt p) data -> Z.of_nat maxRounds < p ->
  (2 <= maxRounds)%nat ->
  (keccak256_bits p maxRounds ri data = Some out <->
   exists d, data = zbits d /\ length d = (maxRounds * 1088)%nat /\ ri < Z.of_nat maxRounds /\
             out = zbits (firstn 256 (string_of (sponge (blocks_of (Z.to_nat ri + 1) d))))).
Proof. intros. apply keccak256_bits_ok; auto. Qed.
(** With maxRounds = 1 the round index is not looked at. *)
Theorem C18_keccak256_bits_one_block : forall p ri data out, 2 < p -> Forall (felt p) data ->
  (keccak256_bits p 1 ri data = Some out <->
   exists d, data = zbits d /\ length d = 1088%nat /\ out = zbits (firstn 256 (string_of (sponge (blocks_of 1 d))))).
Proof. intros. apply keccak256_bits_one; auto. Qed.
Theorem C18_keccak256_bits_optimized_exact : forall p minRounds maxRounds ri data out, 2 < p -> felt p ri -> Forall (felt p) data ->
  Z.of_nat maxRounds + 1 < p -> (2 <= maxRounds)%nat -> (1 <= minRounds <= maxRounds)%nat ->
  (keccak256_bits_optimized p minRounds maxRounds ri data = Some out <->
   exists d, data = zbits d /\ length d = (maxRounds * 1088)%nat /\ Z.of_nat minRounds - 1 <= ri < Z.of_nat maxRounds /\
             out = zbits (firstn 256 (string_of (sponge (blocks_of (Z.to_nat ri + 1) d))))).
Proof. intros. apply keccak256_bits_optimized_ok; auto. Qed.
(** Blocks after the selected one have no influence. *)
Theorem C18_later_blocks_do_not_matter : forall p maxRounds ri d d' out, 2 < p -> felt p ri -> Z.of_nat maxRounds < p -> (2 <= maxRounds)%nat ->
  length d = length d' -> firstn (1088 * (Z.to_nat ri + 1)) d = firstn (1088 * (Z.to_nat ri + 1)) d' ->
  keccak256_bits p maxRounds ri (zbits d) = Some out -> keccak256_bits p maxRounds ri (zbits d') = Some out.
Proof.
  intros p n ri d d' out Hp Hri Hn H2 Hl Hpre H.
  assert (Fz : forall l, Forall (felt p) (zbits l)).
  { intros l. apply Forall_forall. intros x Hx. apply in_map_iff in Hx. destruct Hx as [b [<- _]]. apply felt_bit; auto using bit_of_bit. }
  apply (keccak256_bits_ok p Hp) in H; auto. destruct H as [e [E [L [Hlt ->]]]]. apply zbits_inj in E. subst e.
  apply (keccak256_bits_ok p Hp); auto. exists d'. split; [reflexivity|]. split; [congruence|]. split; [exact Hlt|]. unfold sponge256.
  unfold felt in Hri.
  destruct (blocks_of_firstn (Z.to_nat ri + 1) d []) as [E1|E1]; [|lia]. destruct (blocks_of_firstn (Z.to_nat ri + 1) d' []) as [E2|E2]; [|lia].
  rewrite <- E1, <- E2, Hpre. reflexivity.
Qed.
Theorem C18_keccak256_words_exact : forall p perm blocks ri out, 2 ^ 65 < p -> perm_ok perm -> felt p ri -> Z.of_nat (length blocks) < p ->
  Forall (fun b => length b = 17%nat /\ Forall (felt p) b) blocks ->
  (keccak256_words p perm blocks ri = Some out <->
   Forall (Forall word64) blocks /\ ri < Z.of_nat (length blocks) /\ length out = 4%nat /\ Forall word64 out /\
   words_bits out = firstn 256 (string_of (sponge (map words_bits (firstn (Z.to_nat ri + 1) blocks))))).
Proof. intros. apply keccak256_words_ok; auto. Qed.

(** End to end, bit gadget: message -> Pad101Bytes -> Bytes2BlockBits -> Keccak256Bits is Keccak-256 of the message,
    whatever follows the padded message. *)
Theorem C18_keccak256_bits_of_message : forall p m rest maxRounds ri bits, 2 < p -> Z.of_nat maxRounds < p -> (2 <= maxRounds)%nat ->
  bytes2block_bits (pad101_bytes m) = Some bits ->
  length (bits ++ zbits rest) = (maxRounds * 1088)%nat -> ri = keccak_round_for_padded (pad101_bytes m) ->
  keccak256_bits p maxRounds ri (bits ++ zbits rest) = Some (zbits (keccak256 m)).
Proof.
  intros p m rest maxRounds ri bits Hp Hn H2 Hb Hl Hri.
  assert (L8 : (length (pad101_bytes m) mod 8 = 0)%nat).
  { rewrite pad101_bytes_blocks. replace (136 * (length m / 136 + 1))%nat with (17 * (length m / 136 + 1) * 8)%nat by lia. apply Nat.mod_mul. lia. }
  unfold bytes2block_bits in Hb. apply obind_Some in Hb. destruct Hb as [u [_ Hb]]. rewrite bytes2bits_ok in Hb by auto.
  assert (bits = zbits (bytes_bits (pad101_bytes m))) by congruence. subst bits. rewrite pad101_bytes_bits in *.
  replace (zbits (pad101 (bytes_bits m)) ++ zbits rest) with (zbits (pad101 (bytes_bits m) ++ rest)) in * by (unfold zbits; apply map_app).
  rewrite C16_round_of_padded_bytes in Hri. subst ri.
  unfold zbits at 1 in Hl. rewrite map_length in Hl.
  assert (Hlt : (length m / 136 < maxRounds)%nat).
  { rewrite app_length in Hl. assert (L : length (pad101 (bytes_bits m)) = (1088 * (length m / 136 + 1))%nat).
    { rewrite <- pad101_bytes_bits, bytes_bits_length, pad101_bytes_blocks. lia. } lia. }
  apply (keccak256_bits_ok p Hp); auto.
  - unfold felt. lia.
  - apply Forall_forall. intros x Hx. apply in_map_iff in Hx. destruct Hx as [b [<- _]]. apply felt_bit; auto using bit_of_bit.
  - exists (pad101 (bytes_bits m) ++ rest). split; [reflexivity|]. split; [exact Hl|]. split; [lia|]. rewrite Nat2Z.id, sponge256_keccak256. reflexivity.
Qed.

(** End to end, word gadget: Pad101, Uint64s2Blocks and Keccak256 on every message of at most 1359 bytes. *)
Theorem C18_keccak256_words_of_message : forall p perm m, 2 ^ 65 < p -> perm_ok perm -> Forall byte m -> (length m < 1360)%nat ->
  exists ws blocks out, pad101_words m = Some ws /\ uint64s2blocks ws = Some blocks /\
    keccak256_words p perm blocks (keccak_round_for_padded (pad101_bytes m)) = Some out /\ words_bits out = keccak256 m.
Proof.
  intros p perm m Hp Hperm F L.
  assert (Fp : Forall byte (pad101_bytes m)).
  { rewrite pad101_bytes_shape. apply Forall_app. split; auto. destruct (Nat.eqb _ _).
    - constructor; [unfold byte; lia|constructor].
    - cbn [app]. constructor; [unfold byte; lia|]. apply Forall_app. split.
      + apply Forall_forall. intros x Hx. apply repeat_spec in Hx. subst. unfold byte; lia.
      + constructor; [unfold byte; lia|constructor]. }
  set (k := (length m / 136)%nat). assert (Hk : (k < 10)%nat) by (apply Nat.div_lt_upper_bound; lia).
  assert (Lp : length (pad101_bytes m) = (8 * (17 * (k + 1)))%nat) by (rewrite pad101_bytes_blocks; fold k; lia).
  destruct (bytes2uint64s_ok _ _ Lp Fp) as [ws [E1 [L1 [W1 B1]]]].
  destruct (uint64s2blocks_ok ws) as [blocks [E2 [L2 [W2 B2]]]]; auto; [lia|].
  exists ws, blocks. rewrite C16_round_of_padded_bytes. fold k.
  assert (Hwf : Forall (fun b => length b = 17%nat /\ Forall (felt p) b) blocks).
  { eapply Forall_impl; [|exact W2]. intros b [A1 A2]. split; auto. eapply Forall_impl; [|exact A2]. intros w Hw. apply (word_felt p Hp); auto. }
  assert (Hfk : felt p (Z.of_nat k)) by (unfold felt; assert (10 < 2 ^ 65) by reflexivity; lia).
  assert (Hlb : Z.of_nat (length blocks) < p) by (rewrite L2; assert (10 < 2 ^ 65) by reflexivity; lia).
  assert (Hspec : firstn 256 (string_of (sponge (map words_bits (firstn (Z.to_nat (Z.of_nat k) + 1) blocks)))) = keccak256 m).
  { rewrite Nat2Z.id. rewrite B2 by lia. rewrite B1, pad101_bytes_bits. apply sponge256_keccak256. }
  destruct (keccak_words_exists p Hp perm Hperm blocks (Z.of_nat k)) as [out Ho]; auto.
  { eapply Forall_impl; [|exact W2]. intros b [A _]. exact A. }
  { eapply Forall_impl; [|exact W2]. intros b [_ A]. exact A. }
  { rewrite L2. lia. }
  exists out. split; [exact E1|]. split; [exact E2|]. split; [exact Ho|].
  apply (keccak256_words_ok p Hp perm Hperm) in Ho; auto. destruct Ho as [_ [_ [_ [_ B]]]]. rewrite B. exact Hspec.
Qed.

(** The assumption on the external permutation can be met: pack the bits of Keccak-f into words. *)
Definition word_perm (ws : list Z) : option (list Z) :=
  let s := string_of (keccak_f (state_of (words_bits ws))) in
  Some (map (fun i => val_le (zbits (firstn 64 (skipn (64 * i) s)))) (seq 0 25)).
Example C18_perm_ok_met : perm_ok word_perm.
Proof.
  intros ws L F. unfold word_perm. eexists. split; [reflexivity|]. cbv zeta. set (s := string_of _).
  assert (Ls : length s = 1600%nat) by apply string_of_length. clearbody s.
  assert (Fb : forall i, Forall is_bit (zbits (firstn 64 (skipn (64 * i) s)))).
  { intros i. unfold zbits. apply Forall_forall. intros x Hx. apply in_map_iff in Hx. destruct Hx as [b [<- _]]. apply bit_of_bit. }
  assert (Lb : forall i, (i < 25)%nat -> length (zbits (firstn 64 (skipn (64 * i) s))) = 64%nat).
  { intros i Hi. unfold zbits. rewrite map_length, firstn_length, skipn_length, Ls. lia. }
  split; [reflexivity|]. split.
  - apply Forall_forall. intros x Hx. apply in_map_iff in Hx. destruct Hx as [i [<- Hi]]. apply in_seq in Hi. apply bits64_words; auto. apply Lb. lia.
  - apply nth_ext' with (d := false).
    + rewrite words_bits_length, Ls. reflexivity.
    + intros i Hi. rewrite words_bits_length in Hi. rewrite map_length, seq_length in Hi.
      pose proof (Nat.div_mod i 64 ltac:(lia)) as Hm. pose proof (Nat.mod_upper_bound i 64 ltac:(lia)) as Hu.
      rewrite Hm. rewrite words_bits_nth; [|rewrite map_length, seq_length; lia|auto].
      rewrite nth_map_seq by lia. rewrite Nat.add_0_l. rewrite testbit_val_le by (auto; rewrite Lb; lia).
      unfold zbits. rewrite nth_map' with (d' := false) by (rewrite firstn_length, skipn_length, Ls; lia).
      rewrite nth_firstn', nth_skipn' by lia. destruct (nth _ s false); reflexivity.
Qed.

(** Keccak256AsNibbles (hexadecimal digits in and out) on digits spelling a padded message. *)
Theorem C18_keccak_nibbles_of_message : forall p perm width nibs m rest ri d, 2 ^ 65 < p -> perm_ok perm -> Z.of_nat width < p -> felt p ri ->
  Forall (felt p) nibs -> (length nibs mod 16 = 0)%nat ->
  nibble_bytes nibs = pad101_bytes m ++ rest -> ri = keccak_round_for_padded (pad101_bytes m) ->
  keccak_nibbles p perm width nibs ri = Some d ->
  length d = 64%nat /\ Forall nibble d /\ bytes_bits (nibble_bytes d) = keccak256 m.
Proof.
  intros p perm width nibs m rest ri d Hp Hperm Hw Hri F L16 Hm Hr H.
  apply (keccak_nibbles_sound p Hp perm Hperm) in H; auto. destruct H as [A [B [C [D [E G]]]]]. split; [exact D|]. split; [exact E|].
  rewrite G. rewrite C16_round_of_padded_bytes in Hr. subst ri. rewrite Nat2Z.id. unfold padded_bits.
  assert (E16 : (16 * (length nibs / 16) = length nibs)%nat) by (pose proof (Nat.div_mod (length nibs) 16 ltac:(lia)); lia).
  rewrite E16, firstn_all, Hm, bytes_bits_app, pad101_bytes_bits, <- app_assoc. apply sponge256_keccak256.
Qed.

(** ** C19 *)
Theorem C19_bytes2bits : forall l out, bytes2bits l = Some out <-> (length l mod 8 = 0)%nat /\ out = zbits (bytes_bits l).
Proof.
  intros l out. split.
  - intros H. assert (Hm : (length l mod 8 = 0)%nat).
    { unfold bytes2bits in H. apply obind_Some in H. destruct H as [u [G _]]. apply guard_Some in G. apply Nat.eqb_eq in G. exact G. }
    split; auto. rewrite bytes2bits_ok in H by auto. congruence.
  - intros [H ->]. apply bytes2bits_ok. auto.
Qed.
(** Byte k of the message is bits 8(k mod 8).. of word k/8: unpacking the words restores the bytes' bits. *)
Theorem C19_bytes2uint64s : forall l, Forall byte l -> (length l mod 8 = 0)%nat ->
  exists ws, bytes2uint64s l = Some ws /\ length ws = (length l / 8)%nat /\ Forall word64 ws /\
    words_bits ws = bytes_bits l /\
    forall k, (k < length l)%nat -> (nth (k / 8) ws 0 / 2 ^ (8 * Z.of_nat (k mod 8))) mod 256 = nth k l 0.
Proof.
  intros l F Hm. destruct (bytes2uint64s_ok (length l / 8) l) as [ws [E [L [W B]]]]; auto.
  { pose proof (Nat.div_mod (length l) 8 ltac:(lia)). lia. }
  exists ws. split; [exact E|]. split; [exact L|]. split; [exact W|]. split; [exact B|].
  intros k Hk. pose proof (Nat.div_mod k 8 ltac:(lia)) as Hd. pose proof (Nat.mod_upper_bound k 8 ltac:(lia)) as Hu.
  pose proof (Nat.div_mod (length l) 8 ltac:(lia)) as Hdl. assert (Hq : (k / 8 < length l / 8)%nat) by (apply Nat.div_lt_upper_bound; lia).
  rewrite Forall_forall in F. assert (Hb : byte (nth k l 0)) by (apply F, nth_In; auto). unfold byte in Hb.
  change 256 with (2 ^ 8).
  apply Z.bits_inj'. intros z Hz.
  destruct (Z.lt_ge_cases z 8) as [Hlt|Hge].
  - rewrite Z.mod_pow2_bits_low by lia. rewrite <- Z.shiftr_div_pow2 by lia. rewrite Z.shiftr_spec by lia.
    replace (z + 8 * Z.of_nat (k mod 8)) with (Z.of_nat (8 * (k mod 8) + Z.to_nat z)) by lia.
    rewrite <- words_bits_nth by lia. rewrite B.
    replace (64 * (k / 8) + (8 * (k mod 8) + Z.to_nat z))%nat with (8 * k + Z.to_nat z)%nat by lia.
    unfold bytes_bits. rewrite (flat_map_nth_list Z bool byte_bits 8 false 0) by (auto; lia). unfold byte_bits. rewrite nth_map_seq by lia.
    rewrite Nat.add_0_l, Z2Nat.id by lia. reflexivity.
  - rewrite Z.mod_pow2_bits_high by lia. destruct (Z.eq_dec (nth k l 0) 0) as [->|Hne]; [symmetry; apply Z.testbit_0_l|].
    symmetry. apply Z.bits_above_log2; [lia|]. apply Z.log2_lt_pow2; [lia|]. apply Z.lt_le_trans with (2 ^ 8); [change (2 ^ 8) with 256; lia|]. apply Z.pow_le_mono_r; lia.
Qed.
Theorem C19_uint64s2blocks : forall ws, Forall word64 ws ->
  ((170 < length ws)%nat -> uint64s2blocks ws = None) /\
  ((length ws <= 170)%nat -> exists blocks, uint64s2blocks ws = Some blocks /\ length blocks = 10%nat /\
     Forall (fun b => length b = 17%nat) blocks /\ concat blocks = ws ++ repeat 0 (170 - length ws)).
Proof.
  intros ws F. split; intros H.
  - unfold uint64s2blocks. replace (Nat.leb (length ws) 170) with false by (symmetry; apply Nat.leb_gt; lia). reflexivity.
  - unfold uint64s2blocks. replace (Nat.leb (length ws) 170) with true by (symmetry; apply Nat.leb_le; lia). cbn [guard obind].
    eexists. split; [reflexivity|]. split; [reflexivity|].
    set (all := ws ++ repeat 0 (170 - length ws)). assert (L : length all = (10 * 17)%nat) by (unfold all; rewrite app_length, repeat_length; lia).
    split.
    + apply Forall_forall. intros b Hb. apply in_map_iff in Hb. destruct Hb as [r [<- Hr]]. apply in_seq in Hr. rewrite firstn_length, skipn_length. lia.
    + transitivity (concat (chunks 10 17 all)); [|apply chunks_concat; exact L]. apply (f_equal (@concat Z)).
      assert (G : forall n (l : list Z), map (fun r => firstn 17 (skipn (r * 17) l)) (seq 0 n) = chunks n 17 l).
      { clear. induction n as [|n IH]; intros l; [reflexivity|]. change (seq 0 (S n)) with (0%nat :: seq 1 n). cbn [map chunks].
        apply f_equal2; [reflexivity|]. rewrite <- IH, <- seq_shift, map_map. apply map_ext. intros r. rewrite skipn_skipn'. do 2 f_equal. }
      apply G.
Qed.
(** Sixteen hexadecimal digits become one word, first digit pair = lowest byte; longer inputs drop an incomplete last group. *)
Theorem C19_nibbles_to_words : forall p width nibs blocks, 2 ^ 65 < p -> Forall (felt p) nibs -> nibbles_to_words p width nibs = Some blocks ->
  let whole := firstn (16 * (length nibs / 16)) nibs in
  Forall nibble whole /\ length blocks = width /\ Forall (fun b => length b = 17%nat /\ Forall word64 b) blocks /\
  flat_map words_bits blocks = bytes_bits (nibble_bytes whole) ++ repeat false (width * 1088 - 64 * (length nibs / 16)).
Proof.
  intros p width nibs blocks Hp F H. cbv zeta. destruct (nibbles_to_words_inv p _ _ _ F H) as [G N].
  destruct (nibbles_to_words_ok p Hp _ _ G N) as [b' [E [L [W B]]]]. assert (b' = blocks) by congruence. subst b'.
  split; [exact N|]. split; [exact L|]. split; [exact W|].
  specialize (B width (le_n _)). rewrite firstn_all2 in B by lia. rewrite flat_map_concat_map, B.
  assert (Hc : forall n s, length s = (1088 * n)%nat -> concat (blocks_of n s) = s).
  { clear. induction n as [|n IH]; intros s L; [destruct s; [reflexivity|cbn in L; lia]|]. cbn [blocks_of concat].
    rewrite IH by (rewrite skipn_length; lia). apply firstn_skipn. }
  apply Hc. unfold padded_bits. rewrite app_length, bytes_bits_length, repeat_length.
  rewrite (nibble_bytes_length (8 * (length nibs / 16))) by (rewrite firstn_16k by auto; lia). lia.
Qed.

(** The specification is the real function: the digest of the empty message, computed through the circuit model. *)
Definition empty_digest : list Z :=
  [0xc5;0xd2;0x46;0x01;0x86;0xf7;0x23;0x3c;0x92;0x7e;0x7d;0xb2;0xdc;0xc7;0x03;0xc0;
   0xe5;0x00;0xb6;0x53;0xca;0x82;0x27;0x3b;0x7b;0xfa;0xd8;0x04;0x5d;0x85;0xa4;0x70].
Example C18_empty_message : keccak256 [] = bytes_bits empty_digest.
Proof.
  assert (H : keccak256_bits 101 1 0 (zbits (pad101 [])) = Some (zbits (bytes_bits empty_digest))) by (vm_compute; reflexivity).
  apply keccak256_bits_one in H; [|lia|].
  - destruct H as [d [E [L Ho]]]. apply zbits_inj in E. apply zbits_inj in Ho. subst d. rewrite Ho. reflexivity.
  - apply Forall_forall. intros x Hx. apply in_map_iff in Hx. destruct Hx as [b [<- _]]. destruct b; unfold felt; cbn; lia.
Qed.
