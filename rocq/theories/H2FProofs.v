(** * H2FProofs.v — the circuit HashToField computes RFC 9380 hash_to_field *)
From Coq Require Import ZArith List Bool Arith Lia.
From Verif Require Import Field FieldLemmas FieldZ KeccakModel KeccakProofs RlpEnc PrimeBls TowerModel ShaModel ShaSpec ShaBlock ShaStream EdBytes Props_Sha PairingModel G2Model H2CModel H2CSpec.
Import ListNotations.
Open Scope Z_scope.
Open Scope circ_scope.

Definition isb (b : Z) : Prop := 0 <= b < 256.

(** ** digests are 32 bytes *)
Lemma be_bytes_length n x : length (ShaSpec.be_bytes n x) = n.
Proof. unfold ShaSpec.be_bytes. rewrite map_length, seq_length. reflexivity. Qed.
Lemma be_bytes_isb n x : Forall isb (ShaSpec.be_bytes n x).
Proof. unfold ShaSpec.be_bytes. apply Forall_forall. intros b H. apply in_map_iff in H. destruct H as [i [<- _]]. apply Z.mod_pos_bound. lia. Qed.
Lemma round_length s ws t st : length (round s ws t st) = length st.
Proof. unfold round. do 9 (destruct st as [|? st]; try reflexivity). Qed.
Lemma rounds_length s ws st n : length (rounds s n ws st) = length st.
Proof. induction n; cbn [rounds]; [reflexivity|]. rewrite round_length. exact IHn. Qed.
Lemma compress_length s h b : length (compress s h b) = length h.
Proof. unfold compress. rewrite map_length, combine_length, rounds_length. lia. Qed.
Lemma hash_words_length s m : length (H0 s) = 8%nat -> length (hash_words s m) = 8%nat.
Proof.
  intros H. unfold hash_words. revert H. generalize (H0 s) as h. induction (blocks s _ _) as [|b l IH]; intros h H; cbn [fold_left]; [exact H|].
  apply IH. rewrite compress_length. exact H.
Qed.
Lemma flat_map_length_const {A} (f : A -> list Z) k l : (forall x, length (f x) = k) -> length (flat_map f l) = (k * length l)%nat.
Proof. intros H. induction l as [|x l IH]; cbn [flat_map length]; [lia|]. rewrite app_length, H, IH. lia. Qed.
Lemma H0_len : length (H0 sha256p) = 8%nat.
Proof. unfold H0. rewrite map_length. vm_compute. reflexivity. Qed.
Lemma sha256_length m : length (sha256 m) = 32%nat.
Proof.
  unfold sha256, ShaSpec.sha. rewrite (flat_map_length_const _ 4).
  - rewrite hash_words_length by exact H0_len. reflexivity.
  - intros x. change (wbytes sha256p) with 4%nat. apply be_bytes_length.
Qed.
Lemma sha256_isb m : Forall isb (sha256 m).
Proof.
  unfold sha256, ShaSpec.sha. generalize (hash_words sha256p m) as l. induction l as [|x l IH]; cbn [flat_map]; [constructor|].
  apply Forall_app. split; [apply be_bytes_isb|exact IH].
Qed.
#[global] Opaque sha256.

Section P.
Variable p : Z.
Hypothesis Hp : 2 ^ 70 < p.
Let Hp256 : 256 <= p. Proof. lia. Qed.
Let Hp2 : 2 < p. Proof. lia. Qed.

Lemma sha_outputs m : H2CModel.sha p m = let* r := outputs p sha256_code [OpWrite m; OpSum] in Some (nth 0 r []).
Proof. unfold H2CModel.sha, outputs. destruct (run p sha256_code [OpWrite m; OpSum]) as [[s o]|]; reflexivity. Qed.
Lemma sha_ok m : Forall isb m -> Z.of_nat (length m) < 2 ^ 61 -> H2CModel.sha p m = Some (sha256 m).
Proof.
  intros F L. rewrite sha_outputs, C21_sha256_fips; [reflexivity|exact Hp| |exact L]. rewrite Forall_forall in F. exact F.
Qed.
Lemma sha_bad m : (forall b, In b m -> 0 <= b < p) -> Z.of_nat (length m) < 2 ^ 61 -> (exists b, In b m /\ 256 <= b) -> H2CModel.sha p m = None.
Proof.
  intros F L E. rewrite sha_outputs. destruct (C21_non_byte_rejected p m Hp F L E) as [-> _]. reflexivity.
Qed.

(** ** bytes *)
Lemma isb_lxor a b : isb a -> isb b -> isb (Z.lxor a b).
Proof.
  unfold isb. intros Ha Hb. destruct (Z.lxor_nonneg a b) as [_ N]. specialize (N ltac:(tauto || lia)). split; [exact N|].
  destruct (Z.eq_dec (Z.lxor a b) 0) as [->|Z0]; [lia|]. apply (Z.log2_lt_pow2 _ 8); [lia|].
  eapply Z.le_lt_trans; [apply Z.log2_lxor; lia|].
  apply Z.max_lub_lt; [destruct (Z.eq_dec a 0) as [->|]|destruct (Z.eq_dec b 0) as [->|]]; try (cbn; lia); apply Z.log2_lt_pow2; lia.
Qed.
Lemma bits_le_nth k : forall x j, (j < k)%nat -> nth j (bits_le k x) 0 = bit_of (Z.testbit x (Z.of_nat j)).
Proof.
  induction k as [|k IH]; intros x j H; [lia|]. cbn [bits_le]. destruct j as [|j].
  - cbn [nth]. rewrite Z.bit0_odd, Zmod_odd. destruct (Z.odd x); reflexivity.
  - cbn [nth]. rewrite IH by lia. f_equal. rewrite Nat2Z.inj_succ. rewrite <- Z.div2_div, Z.div2_spec, Z.shiftr_spec by lia. f_equal.
Qed.
Lemma xor_byte_ok a b : isb a -> isb b -> xor_byte p a b = Some (Z.lxor a b).
Proof.
  intros Ha Hb. unfold xor_byte. unfold isb in *.
  rewrite (to_binary_ok p a 8) by (unfold felt; change (2 ^ Z.of_nat 8) with 256; lia).
  rewrite (to_binary_ok p b 8) by (unfold felt; change (2 ^ Z.of_nat 8) with 256; lia). cbn [obind].
  rewrite (omap_total _ _ _ (fun j => nth j (bits_le 8 (Z.lxor a b)) 0)).
  - cbn [obind]. rewrite <- (list_as_map_seq (bits_le 8 (Z.lxor a b)) 8) by (apply bits_le_length).
    rewrite (from_binary_bits p Hp256) by lia. f_equal. apply Z.mod_small. change (2 ^ Z.of_nat 8) with 256. apply (isb_lxor a b Ha Hb).
  - intros j Hj. apply in_seq in Hj. rewrite !bits_le_nth by lia. rewrite (fxor_bits p Hp2). rewrite Z.lxor_spec. reflexivity.
Qed.
Lemma nth_isb l i : Forall isb l -> isb (nth i l 0).
Proof. intros F. destruct (nth_in_or_default i l 0) as [H| ->]; [rewrite Forall_forall in F; apply F, H|unfold isb; lia]. Qed.
Lemma strxor_nth : forall a b, length a = length b -> strxor a b = map (fun j => Z.lxor (nth j a 0) (nth j b 0)) (seq 0 (length a)).
Proof.
  unfold strxor. induction a as [|x a IH]; intros [|y b] L; try discriminate; [reflexivity|]. cbn [combine map length seq nth fst snd].
  f_equal. rewrite IH by (cbn in L; lia). rewrite <- seq_shift, map_map. reflexivity.
Qed.
Lemma strxor_ok a b : length a = 32%nat -> length b = 32%nat -> Forall isb a -> Forall isb b ->
  omap (fun j => xor_byte p (nth j a 0) (nth j b 0)) (seq 0 32) = Some (strxor a b).
Proof.
  intros La Lb Fa Fb. rewrite (omap_total _ _ _ (fun j => Z.lxor (nth j a 0) (nth j b 0))).
  - rewrite strxor_nth by congruence. rewrite La. reflexivity.
  - intros j _. apply xor_byte_ok; apply nth_isb; assumption.
Qed.
Lemma strxor_isb a b : Forall isb a -> Forall isb b -> Forall isb (strxor a b).
Proof.
  intros Fa Fb. unfold strxor. apply Forall_forall. intros x H. apply in_map_iff in H. destruct H as [[u v] [<- H]].
  rewrite Forall_forall in Fa, Fb. cbn [fst snd]. apply isb_lxor; [apply Fa; eapply in_combine_l; eauto|apply Fb; eapply in_combine_r; eauto].
Qed.
Lemma strxor_length a b : length (strxor a b) = Nat.min (length a) (length b).
Proof. unfold strxor. rewrite map_length. apply combine_length. Qed.

(** ** expand_message_xmd *)
Lemma DST_dst : DST ++ [43] = dst_prime.
Proof. vm_compute. reflexivity. Qed.
Lemma dst_prime_isb : Forall isb dst_prime.
Proof. rewrite <- DST_dst. unfold DST, isb. cbn [app]. repeat (apply Forall_cons; [lia|]). constructor. Qed.
Lemma dst_prime_length : length dst_prime = 44%nat.
Proof. rewrite <- DST_dst. reflexivity. Qed.
Lemma I2OSP_1 i : I2OSP i 1 = [i mod 256].
Proof. unfold I2OSP, ShaSpec.be_bytes. cbn [seq map]. change (2 ^ (8 * Z.of_nat (1 - 1 - 0))) with 1. rewrite Z.div_1_r. reflexivity. Qed.
Lemma I2OSP_2 i : I2OSP i 2 = [Z.shiftr i 8 mod 256; i mod 256].
Proof.
  unfold I2OSP, ShaSpec.be_bytes. cbn [seq map]. change (2 ^ (8 * Z.of_nat (2 - 1 - 1))) with 1. rewrite Z.div_1_r.
  rewrite Z.shiftr_div_pow2 by lia. reflexivity.
Qed.
Lemma preimage_spec f i : xmd_preimage f i = f ++ I2OSP i 1 ++ dst_prime.
Proof. unfold xmd_preimage. rewrite <- DST_dst, I2OSP_1. reflexivity. Qed.
Lemma preimage_isb f i : Forall isb f -> Forall isb (f ++ I2OSP i 1 ++ dst_prime).
Proof. intros F. apply Forall_app. split; [exact F|]. apply Forall_app. split; [apply be_bytes_isb|apply dst_prime_isb]. Qed.
Lemma preimage_len f i : length f = 32%nat -> Z.of_nat (length (f ++ I2OSP i 1 ++ dst_prime)) < 2 ^ 61.
Proof. intros L. rewrite !app_length, L, dst_prime_length. unfold I2OSP. rewrite be_bytes_length. lia. Qed.

Lemma b_S_length msg len k : length (b_S msg len k) = 32%nat.
Proof. destruct k; cbn [b_S]; apply sha256_length. Qed.
Lemma b_S_isb msg len k : Forall isb (b_S msg len k).
Proof. destruct k; cbn [b_S]; apply sha256_isb. Qed.
Lemma b0_spec msg len : repeat 0 64 ++ msg ++ [Z.shiftr (Z.of_nat len) 8 mod 256; Z.of_nat len mod 256; 0] ++ DST ++ [43] = msg_prime msg len.
Proof. unfold msg_prime. rewrite I2OSP_2, <- DST_dst. f_equal. Qed.

Lemma xmd_loop_ok msg len (k : nat) : forall j pre, length pre = (32 * (j + 1))%nat -> (32 * (j + 1 + k))%nat = len ->
  xmd_loop p (b_0 msg len) (b_S msg len j) len (seq (j + 2) k) (pre ++ repeat 0 (len - 32 * (j + 1))) =
  Some (pre ++ flat_map (b_S msg len) (seq (j + 1) k)).
Proof.
  induction k as [|k IH]; intros j pre L E.
  - cbn [seq xmd_loop flat_map]. replace (len - 32 * (j + 1))%nat with 0%nat by lia. reflexivity.
  - change (seq (j + 2) (S k)) with ((j + 2)%nat :: seq (S (j + 2)) k). change (seq (j + 1) (S k)) with ((j + 1)%nat :: seq (S (j + 1)) k).
    cbn [xmd_loop flat_map].
    assert (L0 : length (b_0 msg len) = 32%nat) by apply sha256_length. assert (F0 : Forall isb (b_0 msg len)) by apply sha256_isb.
    rewrite (strxor_ok _ _ L0 (b_S_length msg len j) F0 (b_S_isb msg len j)). cbn [obind]. rewrite preimage_spec.
    rewrite sha_ok.
    2:{ apply preimage_isb. apply strxor_isb; [exact F0|apply b_S_isb]. }
    2:{ apply preimage_len. rewrite strxor_length, b_S_length, L0. reflexivity. }
    cbn [obind].
    assert (B : sha256 (strxor (b_0 msg len) (b_S msg len j) ++ I2OSP (Z.of_nat (j + 2)) 1 ++ dst_prime) = b_S msg len (j + 1)).
    { replace (j + 1)%nat with (S j) by lia. cbn [b_S]. replace (S j + 1)%nat with (j + 2)%nat by lia. reflexivity. }
    rewrite B. set (b := b_S msg len (j + 1)). assert (Lb : length b = 32%nat) by apply b_S_length. rewrite Lb.
    replace (32 * (j + 2 - 1))%nat with (length pre) by lia.
    replace (Nat.min (Nat.min (32 * (j + 2)) len - length pre) 32) with 32%nat by lia.
    rewrite firstn_app, firstn_all, Nat.sub_diag, firstn_O, app_nil_r. rewrite (firstn_all2 b) by lia.
    rewrite skipn_app. rewrite (skipn_all2 pre) by lia. cbn [app]. replace (length pre + 32 - length pre)%nat with 32%nat by lia.
    replace (len - 32 * (j + 1))%nat with (32 + (len - 32 * (j + 1 + 1)))%nat by lia. rewrite repeat_app. rewrite (skipn_app 32 (repeat 0 32)), repeat_length.
    rewrite (skipn_all2 (repeat 0 32)) by (rewrite repeat_length; lia). rewrite Nat.sub_diag, skipn_O. cbn [app].
    rewrite app_assoc. replace (S (j + 2)) with (j + 1 + 2)%nat by lia.
    unfold b at 1. rewrite (IH (j + 1)%nat); [|rewrite app_length; lia|lia]. rewrite <- app_assoc. replace (S (j + 1)) with (j + 1 + 1)%nat by lia. reflexivity.
Qed.

Definition xlen (count : nat) : nat := (count * 64)%nat.
Lemma expand_spec msg count : (1 <= count)%nat ->
  expand_message_xmd msg (xlen count) = flat_map (b_S msg (xlen count)) (seq 0 (2 * count)).
Proof.
  intros H. unfold expand_message_xmd. replace ((xlen count + 31) / 32)%nat with (2 * count)%nat.
  - apply firstn_all2. rewrite (flat_map_length_const _ 32) by (intros; apply b_S_length). rewrite seq_length. unfold xlen. lia.
  - unfold xlen. apply (Nat.div_unique _ 32 _ 31); lia.
Qed.
Lemma expand_ok msg count : length msg = 32%nat -> Forall isb msg -> (1 <= count)%nat ->
  expand_msg_xmd p msg count = Some (expand_message_xmd msg (xlen count)).
Proof.
  intros L F H. rewrite expand_spec by exact H. unfold expand_msg_xmd. fold (xlen count).
  replace ((xlen count + 32 - 1) / 32)%nat with (2 * count)%nat by (unfold xlen; apply (Nat.div_unique _ 32 _ 31); lia).
  set (len := xlen count). rewrite b0_spec. rewrite sha_ok.
  2:{ unfold msg_prime. rewrite !Forall_app. pose proof dst_prime_isb. pose proof be_bytes_isb. unfold I2OSP. auto. }
  2:{ unfold msg_prime. rewrite !app_length, dst_prime_length, L. unfold I2OSP. rewrite !be_bytes_length. lia. }
  cbn [obind]. rewrite preimage_spec. rewrite sha_ok.
  2:{ apply preimage_isb. apply sha256_isb. }
  2:{ apply preimage_len. apply sha256_length. }
  cbn [obind]. change (sha256 (msg_prime msg len)) with (b_0 msg len). change (sha256 (b_0 msg len ++ I2OSP 1 1 ++ dst_prime)) with (b_S msg len 0).
  assert (G : Nat.leb 32 len = true) by (apply Nat.leb_le; unfold len, xlen; lia). rewrite G. cbn [guard obind].
  pose proof (xmd_loop_ok msg len (2 * count - 1) 0 (b_S msg len 0)) as X. cbn [Nat.add] in X. change (32 * 1)%nat with 32%nat in X.
  rewrite firstn_all2 by (rewrite b_S_length; lia). rewrite X; [|apply b_S_length|unfold len, xlen; lia].
  replace (2 * count)%nat with (S (2 * count - 1)) at 2 by lia. cbn [seq flat_map]. reflexivity.
Qed.
Lemma expand_bad msg count : length msg = 32%nat -> (forall b, In b msg -> 0 <= b < p) -> (exists b, In b msg /\ 256 <= b) ->
  expand_msg_xmd p msg count = None.
Proof.
  intros L F [b [Hb Hge]]. unfold expand_msg_xmd. fold (xlen count). rewrite b0_spec. rewrite sha_bad; [reflexivity| | |].
  - intros x Hx. unfold msg_prime in Hx. rewrite !in_app_iff in Hx.
    assert (G : isb x -> 0 <= x < p) by (unfold isb; lia).
    destruct Hx as [Hx|[Hx|[Hx|[Hx|Hx]]]]; [| apply F, Hx| | |]; apply G.
    + revert Hx. apply Forall_forall. apply be_bytes_isb.
    + revert Hx. apply Forall_forall. apply be_bytes_isb.
    + revert Hx. apply Forall_forall. apply be_bytes_isb.
    + revert Hx. apply Forall_forall. apply dst_prime_isb.
  - unfold msg_prime. rewrite !app_length, dst_prime_length, L. unfold I2OSP. rewrite !be_bytes_length. lia.
  - exists b. split; [|exact Hge]. unfold msg_prime. rewrite !in_app_iff. tauto.
Qed.

(** ** field elements from bytes *)
Lemma uint64_ok v : length v = 8%nat -> Forall isb v -> get_uint64_from_8_bytes p v = Some (OS2IP v).
Proof.
  intros L F. unfold get_uint64_from_8_bytes. rewrite (omap_total _ _ _ (fun j => bits_le 8 (nth j v 0))).
  2:{ intros j _. pose proof (nth_isb v j F) as B. unfold isb in B. apply to_binary_ok; [unfold felt; lia|change (2 ^ Z.of_nat 8) with 256; lia]. }
  cbn [obind]. do 8 (destruct v as [|? v]; [discriminate|]). destruct v; [|discriminate]. cbn [seq map nth rev app concat]. rewrite app_nil_r.
  repeat match goal with H : Forall isb (_ :: _) |- _ => apply Forall_cons_iff in H; destruct H as [? H] end. unfold isb in *. clear F.
  rewrite !bits_le_cat by (change (2 ^ Z.of_nat 8) with 256; lia). cbn [Nat.add]. change (2 ^ Z.of_nat 8) with 256.
  rewrite from_binary_ok; [|exact Hp2|apply bits_le_Forall|rewrite bits_le_length; change (2 ^ Z.of_nat 64) with (2 ^ 64); lia].
  rewrite val_bits_le_mod. change (2 ^ Z.of_nat 64) with 18446744073709551616. unfold OS2IP. cbn [fold_left]. f_equal. rewrite Z.mod_small; [ring|lia].
Qed.
Lemma raw_limbs_ok c : length c = 64%nat ->
  get_raw_limbs (map (fun j => OS2IP (firstn 8 (skipn (64 - 8 * (j + 1)) c))) (seq 0 8)) = fc (OS2IP c).
Proof.
  intros L. unfold get_raw_limbs. f_equal. cbn [seq map]. cbn [Nat.sub Nat.mul Nat.add]. do 64 (destruct c as [|? c]; [discriminate|]). destruct c; [|discriminate].
  cbn [firstn skipn fold_right]. unfold OS2IP. cbn [fold_left]. change (2 ^ 64) with 18446744073709551616. ring.
Qed.
Lemma skipn_skipn' {A} a b (l : list A) : skipn a (skipn b l) = skipn (a + b) l.
Proof. revert b l. induction b as [|b IH]; intros l; [rewrite Nat.add_0_r; reflexivity|]. destruct l; [rewrite !skipn_nil; reflexivity|]. rewrite Nat.add_succ_r. cbn [skipn]. apply IH. Qed.
Lemma Forall_sub {A} (P : A -> Prop) l a b : Forall P l -> Forall P (firstn a (skipn b l)).
Proof. intros F. rewrite Forall_forall in *. intros x Hx. apply F. rewrite <- (firstn_skipn b l), in_app_iff. right. rewrite <- (firstn_skipn a (skipn b l)), in_app_iff. auto. Qed.
Lemma elem_ok emx i : Forall isb emx -> (64 * (i + 1) <= length emx)%nat ->
  (let* limbs := omap (fun j => get_uint64_from_8_bytes p (firstn 8 (skipn (64 * (i + 1) - 8 * (j + 1)) emx))) (seq 0 8) in Some (get_raw_limbs limbs)) =
  Some (fc (OS2IP (firstn 64 (skipn (64 * i) emx)))).
Proof.
  intros F L. set (c := firstn 64 (skipn (64 * i) emx)).
  assert (Lc : length c = 64%nat) by (unfold c; rewrite firstn_length, skipn_length; lia).
  rewrite (omap_total _ _ _ (fun j => OS2IP (firstn 8 (skipn (64 - 8 * (j + 1)) c)))).
  - cbn [obind]. rewrite raw_limbs_ok by exact Lc. reflexivity.
  - intros j Hj. apply in_seq in Hj.
    assert (E : firstn 8 (skipn (64 * (i + 1) - 8 * (j + 1)) emx) = firstn 8 (skipn (64 - 8 * (j + 1)) c)).
    { unfold c. rewrite skipn_firstn_comm, firstn_firstn. replace (Nat.min 8 (64 - (64 - 8 * (j + 1)))) with 8%nat by lia.
      rewrite skipn_skipn'. replace (64 - 8 * (j + 1) + 64 * i)%nat with (64 * (i + 1) - 8 * (j + 1))%nat by lia. reflexivity. }
    rewrite E. apply uint64_ok; [rewrite firstn_length, skipn_length; lia|]. apply Forall_sub. apply Forall_sub. exact F.
Qed.
Lemma hash_to_field_ok msg n : length msg = 32%nat -> Forall isb msg -> (1 <= n)%nat ->
  hash_to_field p msg (2 * n) = Some (hash_to_field_spec msg n).
Proof.
  intros L F H. unfold hash_to_field. rewrite expand_ok by (assumption || lia). cbn [obind]. unfold hash_to_field_spec.
  replace (n * 2 * 64)%nat with (xlen (2 * n)) by (unfold xlen; lia).
  set (emx := expand_message_xmd msg (xlen (2 * n))).
  assert (E : emx = flat_map (b_S msg (xlen (2 * n))) (seq 0 (2 * (2 * n)))) by (apply expand_spec; lia).
  assert (Le : length emx = (64 * (2 * n))%nat).
  { rewrite E. rewrite (flat_map_length_const _ 32) by (intros; apply b_S_length). rewrite seq_length. lia. }
  assert (Fe : Forall isb emx).
  { rewrite E. generalize (seq 0 (2 * (2 * n))) as l. induction l as [|x l IH]; cbn [flat_map]; [constructor|]. apply Forall_app. split; [apply b_S_isb|exact IH]. }
  clearbody emx. rewrite (omap_total _ _ _ (fun i => fc (OS2IP (firstn 64 (skipn (64 * i) emx))))).
  2:{ intros i Hi. apply in_seq in Hi. apply elem_ok; [exact Fe|lia]. }
  cbn [obind]. f_equal. replace (2 * n / 2)%nat with n by (rewrite Nat.mul_comm, Nat.div_mul; lia). apply map_ext_in. intros i Hi. apply in_seq in Hi.
  rewrite !nth_map_seq by lia. rewrite !Nat.add_0_l. replace (i * 2)%nat with (2 * i)%nat by lia. replace (1 + 2 * i)%nat with (2 * i + 1)%nat by lia. reflexivity.
Qed.
Lemma hash_to_field_bad msg n : length msg = 32%nat -> (forall b, In b msg -> 0 <= b < p) -> (exists b, In b msg /\ 256 <= b) ->
  hash_to_field p msg n = None.
Proof. intros L F E. unfold hash_to_field. rewrite expand_bad by assumption. reflexivity. Qed.
End P.
