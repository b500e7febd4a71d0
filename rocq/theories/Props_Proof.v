(** * Props_Proof.v — C30 (ABI encoding of chunk proofs), C31 (query identifiers), C33 (S3 keys) *)
From Coq Require Import ZArith List Lia Bool Arith.
From Verif Require Import Field FieldLemmas GoUtilModel GoUtilProofs Props_Utils RlpEnc ProofModel.
Import ListNotations.
Open Scope Z_scope.
Open Scope circ_scope.

(** * C30 *)
(** ** Specification: an ABI word is the 32-byte big-endian representation of a number *)
Definition abi_word (n : Z) : list Z := map (fun i => (n / 256 ^ (31 - Z.of_nat i)) mod 256) (seq 0 32).

Lemma pad_word : forall l k, Forall is_byte l -> (length l <= k)%nat ->
  repeat 0 (k - length l) ++ l = map (fun i => (be_value l / 256 ^ Z.of_nat (k - 1 - i)) mod 256) (seq 0 k).
Proof.
  intros l k F L. pose proof (be_value_range l F) as R.
  assert (R2 : 0 <= be_value l < 256 ^ Z.of_nat k).
  { split; [lia |]. eapply Z.lt_le_trans; [apply R |]. apply Z.pow_le_mono_r; lia. }
  rewrite <- (be_bytes_pad _ _ R2). apply be_value_inj.
  - apply Forall_app. split; [| auto]. apply Forall_forall. intros x Hx. apply repeat_spec in Hx. subst. unfold is_byte. lia.
  - apply Forall_app. split; [| apply be_bytes_bytes; lia]. apply Forall_forall. intros x Hx. apply repeat_spec in Hx. subst. unfold is_byte. lia.
  - rewrite !app_length, !repeat_length. pose proof (be_bytes_length _ _ R2). lia.
  - assert (Z0 : forall m, be_value (repeat 0 m) = 0).
    { induction m as [| m IH]; [reflexivity |]. cbn [repeat]. unfold be_value in *. cbn [fold_left]. exact IH. }
    rewrite !be_value_app, !Z0, be_bytes_value by lia. reflexivity.
Qed.
Lemma pad32_word : forall l, Forall is_byte l -> (length l <= 32)%nat -> pad_bytes 32 l = Some (abi_word (be_value l)).
Proof.
  intros l F L. rewrite C26_pad by auto. f_equal. rewrite pad_word by auto. unfold abi_word. apply map_ext_in.
  intros i Hi. apply in_seq in Hi. do 3 f_equal. lia.
Qed.
Lemma abi_word_length : forall n, length (abi_word n) = 32%nat.
Proof. intros. unfold abi_word. rewrite map_length, seq_length. reflexivity. Qed.
Lemma abi_word_value : forall n, 0 <= n < 2 ^ 256 -> be_value (abi_word n) = n.
Proof.
  intros n Hn. assert (H : 0 <= n < 256 ^ Z.of_nat 32) by (change (256 ^ Z.of_nat 32) with (2 ^ 256); lia).
  pose proof (be_bytes_pad n 32 H) as E.
  assert (E2 : abi_word n = map (fun i => (n / 256 ^ Z.of_nat (32 - 1 - i)) mod 256) (seq 0 32)).
  { unfold abi_word. apply map_ext_in. intros i Hi. apply in_seq in Hi. do 3 f_equal. lia. }
  rewrite E2, <- E, be_value_app, be_bytes_value by lia.
  assert (Z0 : forall m, be_value (repeat 0 m) = 0).
  { induction m as [| m IH]; [reflexivity |]. cbn [repeat]. unfold be_value in *. cbn [fold_left]. exact IH. }
  rewrite Z0. reflexivity.
Qed.
Lemma hex2bytes_bytes : forall s, Forall is_byte (hex2bytes s).
Proof. intros s. unfold hex2bytes. apply hex_decode_bytes. Qed.
Lemma hex2hash_bytes : forall s, Forall is_byte (hex2hash s) /\ length (hex2hash s) = 32%nat.
Proof.
  intros s. split.
  - unfold hex2hash, to_fixed. apply Forall_app. split.
    + apply Forall_forall. intros x Hx. apply repeat_spec in Hx. subst. unfold is_byte. lia.
    + destruct (Nat.ltb 32 (length (hex2bytes s))); [| apply hex2bytes_bytes].
      pose proof (hex2bytes_bytes s) as F. rewrite <- (firstn_skipn (length (hex2bytes s) - 32)) in F. apply Forall_app in F. apply F.
  - pose proof (C26_fixed_width s 32%nat ltac:(auto)) as H. apply H.
Qed.

(** the strings of a proof that are encoded as full words *)
Definition coords (g : groth16) : list (list Z) :=
  [fst (gA g); snd (gA g); fst (fst (gB g)); snd (fst (gB g)); fst (snd (gB g)); snd (snd (gB g)); fst (gC g); snd (gC g)].
Definition coords_fit (c : chunk_proof) : Prop := Forall (fun s => (length (hex2bytes s) <= 32)%nat) (coords (cp_proof c)).
(** the two halves of a 32-byte hash *)
Definition hash_hi (s : list Z) : Z := be_value (hex2hash s) / 2 ^ 128.
Definition hash_lo (s : list Z) : Z := be_value (hex2hash s) mod 2 ^ 128.
(** the numbers, in the order of the contract's arguments *)
Definition abi_numbers (c : chunk_proof) (start_word end_word : Z) : list Z :=
  map hex2bigint (coords (cp_proof c)) ++ [0; 0] ++
  [hash_hi (cp_root c); hash_lo (cp_root c); hash_hi (cp_prev c); hash_lo (cp_prev c); hash_hi (cp_end c); hash_lo (cp_end c)] ++
  [start_word; end_word].

Lemma hash_halves : forall s, be_value (firstn 16 (hex2hash s)) = hash_hi s /\ be_value (skipn 16 (hex2hash s)) = hash_lo s.
Proof.
  intros s. destruct (hex2hash_bytes s) as [F L]. unfold hash_hi, hash_lo. set (h := hex2hash s) in *. clearbody h.
  pose proof (firstn_skipn 16 h) as E. rewrite <- E in F. apply Forall_app in F as [F1 F2].
  assert (L2 : length (skipn 16 h) = 16%nat) by (rewrite skipn_length; lia).
  assert (V : be_value h = be_value (firstn 16 h) * 2 ^ 128 + be_value (skipn 16 h)).
  { rewrite <- E at 1. rewrite be_value_app, L2. reflexivity. }
  pose proof (be_value_range _ F2) as R. rewrite L2 in R. change (256 ^ Z.of_nat 16) with (2 ^ 128) in R.
  rewrite V. split.
  - rewrite Z.div_add_l by (intros Q; discriminate Q). rewrite (Z.div_small _ (2 ^ 128) R). lia.
  - rewrite Z.add_comm, Z_mod_plus_full. rewrite Z.mod_small; auto.
Qed.

Lemma int64_word : forall u, 0 <= u < 2 ^ 64 -> 0 <= Z.abs (to_int64 u) <= 2 ^ 63.
Proof. intros u Hu. unfold to_int64. destruct (Z.ltb_spec u (2 ^ 63)); lia. Qed.

Lemma encode_abi_ok : forall c, coords_fit c -> 0 <= cp_start_block c < 2 ^ 64 -> 0 <= cp_end_block c < 2 ^ 64 ->
  encode_abi c = Some (concat (map abi_word (abi_numbers c (Z.abs (to_int64 (cp_start_block c))) (Z.abs (to_int64 (cp_end_block c)))))).
Proof.
  intros c HC HS HE.
  assert (BIG : forall u, 0 <= u < 2 ^ 64 -> pad_bytes 32 (big_bytes (to_int64 u)) = Some (abi_word (Z.abs (to_int64 u)))).
  { intros u Hu. pose proof (int64_word u Hu). unfold big_bytes. rewrite pad32_word.
    - rewrite be_bytes_value by lia. reflexivity.
    - apply be_bytes_bytes; lia.
    - apply be_bytes_length. change (256 ^ Z.of_nat 32) with (2 ^ 256). split; [lia |].
      apply Z.le_lt_trans with (2 ^ 63); [lia | reflexivity]. }
  assert (HX : forall s, (length (hex2bytes s) <= 32)%nat -> pad_bytes 32 (hex2bytes s) = Some (abi_word (hex2bigint s))).
  { intros s Hs. rewrite pad32_word by (auto using hex2bytes_bytes). reflexivity. }
  assert (HH : forall s, pad_bytes 32 (firstn 16 (hex2hash s)) = Some (abi_word (hash_hi s)) /\ pad_bytes 32 (skipn 16 (hex2hash s)) = Some (abi_word (hash_lo s))).
  { intros s. destruct (hex2hash_bytes s) as [F L]. destruct (hash_halves s) as [<- <-].
    pose proof (firstn_skipn 16 (hex2hash s)) as E. rewrite <- E in F. apply Forall_app in F as [F1 F2].
    split; apply pad32_word; auto; rewrite ?firstn_length, ?skipn_length; lia. }
  assert (N : pad_bytes 32 [] = Some (abi_word 0)) by (apply (pad32_word []); [apply Forall_nil | cbn; lia]).
  unfold coords_fit, coords in HC.
  apply Forall_cons_iff in HC as [C1 HC]. apply Forall_cons_iff in HC as [C2 HC]. apply Forall_cons_iff in HC as [C3 HC].
  apply Forall_cons_iff in HC as [C4 HC]. apply Forall_cons_iff in HC as [C5 HC]. apply Forall_cons_iff in HC as [C6 HC].
  apply Forall_cons_iff in HC as [C7 HC]. apply Forall_cons_iff in HC as [C8 HC]. clear HC.
  unfold encode_abi. cbv zeta. unfold abi_numbers, coords. cbn [map app].
  cbn [omap].
  rewrite (HX _ C1), (HX _ C2), (HX _ C3), (HX _ C4), (HX _ C5), (HX _ C6), (HX _ C7), (HX _ C8), N.
  rewrite (proj1 (HH (cp_root c))), (proj2 (HH (cp_root c))), (proj1 (HH (cp_prev c))), (proj2 (HH (cp_prev c))), (proj1 (HH (cp_end c))), (proj2 (HH (cp_end c))).
  rewrite (BIG _ HS), (BIG _ HE).
  cbn [obind]. reflexivity.
Qed.

(** Block numbers below 2^63: the encoding is the sequence of eighteen words of the fields' numbers. *)
Theorem C30_encode_abi : forall c, coords_fit c -> 0 <= cp_start_block c < 2 ^ 63 -> 0 <= cp_end_block c < 2 ^ 63 ->
  encode_abi c = Some (concat (map abi_word (abi_numbers c (cp_start_block c) (cp_end_block c)))) /\
  length (concat (map abi_word (abi_numbers c (cp_start_block c) (cp_end_block c)))) = 576%nat.
Proof.
  intros c HC HS HE. split.
  - rewrite encode_abi_ok by (auto; lia).
    assert (E : forall u, 0 <= u < 2 ^ 63 -> Z.abs (to_int64 u) = u) by (intros u Hu; unfold to_int64; rewrite (proj2 (Z.ltb_lt _ _)) by lia; lia).
    rewrite !E by auto. reflexivity.
  - assert (G : forall l, length (concat (map abi_word l)) = (32 * length l)%nat).
    { induction l as [| x l IH]; [reflexivity |]. cbn [map concat]. rewrite app_length, abi_word_length, IH. cbn [length]. lia. }
    rewrite G. reflexivity.
Qed.

(** A coordinate longer than 32 bytes makes it panic. *)
Theorem C30_long_coordinate_panics : forall c, ~ coords_fit c -> encode_abi c = None.
Proof.
  intros c H. unfold encode_abi. cbv zeta.
  match goal with |- obind (omap _ ?l) _ = _ => set (args := l) end.
  assert (E : exists s, In s (coords (cp_proof c)) /\ (32 < length (hex2bytes s))%nat).
  { unfold coords_fit in H. destruct (Exists_dec (fun s => (32 < length (hex2bytes s))%nat) (coords (cp_proof c))) as [X | X].
    - intros s. apply lt_dec.
    - apply Exists_exists in X as (s & H1 & H2). eauto.
    - exfalso. apply H. apply Forall_forall. intros s Hs. destruct (Nat.le_gt_cases (length (hex2bytes s)) 32); auto.
      exfalso. apply X. apply Exists_exists. eauto. }
  destruct E as (s & Hin & Hlen).
  rewrite (omap_None _ _ _ args (hex2bytes s)); [reflexivity | | apply C26_pad_too_long; exact Hlen].
  unfold args. clear - Hin. unfold coords in Hin. cbn [In] in Hin. cbn [In].
  destruct Hin as [<- | [<- | [<- | [<- | [<- | [<- | [<- | [<- | []]]]]]]]]; tauto.
Qed.

Lemma words_inj : forall l1 l2, length l1 = length l2 -> Forall (fun n => 0 <= n < 2 ^ 256) l1 -> Forall (fun n => 0 <= n < 2 ^ 256) l2 ->
  concat (map abi_word l1) = concat (map abi_word l2) -> l1 = l2.
Proof.
  induction l1 as [| x l1 IH]; intros [| y l2] L F1 F2 E; try discriminate L; [reflexivity |].
  apply Forall_cons_iff in F1 as [Hx F1]. apply Forall_cons_iff in F2 as [Hy F2]. cbn [map concat] in E.
  apply app_len_inj in E as [E1 E2]; [| rewrite !abi_word_length; reflexivity].
  apply (f_equal be_value) in E1. rewrite !abi_word_value in E1 by auto. subst y. f_equal. apply IH; auto.
Qed.
Lemma hash_hi_lo_range : forall s, 0 <= hash_hi s < 2 ^ 256 /\ 0 <= hash_lo s < 2 ^ 256.
Proof.
  intros s. destruct (hex2hash_bytes s) as [F L]. pose proof (be_value_range _ F) as R. rewrite L in R. change (256 ^ Z.of_nat 32) with (2 ^ 256) in R.
  unfold hash_hi, hash_lo. split.
  - split; [apply Z.div_pos; [lia | reflexivity] |]. apply Z.div_lt_upper_bound; [reflexivity |]. lia.
  - pose proof (Z.mod_pos_bound (be_value (hex2hash s)) (2 ^ 128) ltac:(reflexivity)). split; [lia |]. apply Z.lt_trans with (2 ^ 128); [lia | reflexivity].
Qed.
Lemma numbers_range : forall c x y, coords_fit c -> 0 <= x < 2 ^ 64 -> 0 <= y < 2 ^ 64 -> Forall (fun n => 0 <= n < 2 ^ 256) (abi_numbers c x y).
Proof.
  intros c x y HC Hx Hy. unfold abi_numbers.
  assert (B64 : 2 ^ 64 < 2 ^ 256) by reflexivity.
  apply Forall_app. split; [| apply Forall_app; split; [| apply Forall_app; split]].
  - apply Forall_forall. intros n Hn. apply in_map_iff in Hn as (s & <- & Hs). unfold coords_fit in HC. rewrite Forall_forall in HC. specialize (HC s Hs).
    cbv beta in HC. unfold hex2bigint. pose proof (be_value_range _ (hex2bytes_bytes s)) as R. unfold be_value in R. unfold be_val. split; [lia |].
    eapply Z.lt_le_trans; [apply R |]. change (2 ^ 256) with (256 ^ 32). apply Z.pow_le_mono_r; lia.
  - apply Forall_cons; [| apply Forall_cons; [| apply Forall_nil]]; split; (discriminate || reflexivity).
  - destruct (hash_hi_lo_range (cp_root c)), (hash_hi_lo_range (cp_prev c)), (hash_hi_lo_range (cp_end c)).
    repeat (apply Forall_cons; [assumption |]). apply Forall_nil.
  - apply Forall_cons; [lia | apply Forall_cons; [lia | apply Forall_nil]].
Qed.

(** The encoding determines every field: coordinates, hashes and block numbers (below 2^63). *)
Theorem C30_encode_injective : forall c d m, 0 <= cp_start_block c < 2 ^ 63 -> 0 <= cp_end_block c < 2 ^ 63 ->
  0 <= cp_start_block d < 2 ^ 63 -> 0 <= cp_end_block d < 2 ^ 63 ->
  encode_abi c = Some m -> encode_abi d = Some m ->
  map hex2bigint (coords (cp_proof c)) = map hex2bigint (coords (cp_proof d)) /\
  hex2hash (cp_root c) = hex2hash (cp_root d) /\ hex2hash (cp_prev c) = hex2hash (cp_prev d) /\ hex2hash (cp_end c) = hex2hash (cp_end d) /\
  cp_start_block c = cp_start_block d /\ cp_end_block c = cp_end_block d.
Proof.
  intros c d m S1 E1 S2 E2 Hc Hd.
  assert (D : forall x, encode_abi x = Some m -> coords_fit x).
  { intros x Hx. destruct (Forall_dec (fun s => (length (hex2bytes s) <= 32)%nat) (fun s => le_dec _ 32) (coords (cp_proof x))) as [Y | Y]; [exact Y |].
    rewrite C30_long_coordinate_panics in Hx by exact Y. discriminate. }
  assert (Fc := D c Hc). assert (Fd := D d Hd).
  destruct (C30_encode_abi c Fc S1 E1) as [Xc _]. destruct (C30_encode_abi d Fd S2 E2) as [Xd _].
  rewrite Hc in Xc. rewrite Hd in Xd.
  assert (E : concat (map abi_word (abi_numbers c (cp_start_block c) (cp_end_block c))) = concat (map abi_word (abi_numbers d (cp_start_block d) (cp_end_block d)))) by congruence.
  apply words_inj in E; [| reflexivity | apply numbers_range; auto; lia | apply numbers_range; auto; lia].
  unfold abi_numbers in E.
  apply app_len_inj in E as [EA E]; [| reflexivity].
  apply app_len_inj in E as [_ E]; [| reflexivity].
  apply app_len_inj in E as [EH E]; [| reflexivity].
  assert (HQ : forall s t, hash_hi s = hash_hi t -> hash_lo s = hash_lo t -> hex2hash s = hex2hash t).
  { intros s t A B. destruct (hex2hash_bytes s) as [F L], (hex2hash_bytes t) as [F' L']. apply be_value_inj; auto; [congruence |].
    unfold hash_hi, hash_lo in *. rewrite (Z.div_mod (be_value (hex2hash s)) (2 ^ 128)) by discriminate.
    rewrite (Z.div_mod (be_value (hex2hash t)) (2 ^ 128)) by discriminate. rewrite A, B. reflexivity. }
  split; [exact EA |].
  split; [apply HQ; congruence |]. split; [apply HQ; congruence |]. split; [apply HQ; congruence |]. split; congruence.
Qed.

(** From 2^63 on, the number is converted to a negative int64 and its absolute value is encoded. *)
Theorem C30_large_block_number : forall c u, coords_fit c -> 0 <= cp_end_block c < 2 ^ 63 -> cp_start_block c = u -> 2 ^ 63 <= u < 2 ^ 64 ->
  encode_abi c = Some (concat (map abi_word (abi_numbers c (2 ^ 64 - u) (cp_end_block c)))).
Proof.
  intros c u HC HE <- Hu. rewrite encode_abi_ok by (auto; lia).
  assert (E1 : Z.abs (to_int64 (cp_start_block c)) = 2 ^ 64 - cp_start_block c) by (unfold to_int64; rewrite (proj2 (Z.ltb_ge _ _)) by lia; lia).
  assert (E2 : Z.abs (to_int64 (cp_end_block c)) = cp_end_block c) by (unfold to_int64; rewrite (proj2 (Z.ltb_lt _ _)) by lia; lia).
  rewrite E1, E2. reflexivity.
Qed.
Definition zero_groth16 : groth16 := {| gA := ([], []); gB := (([], []), ([], [])); gC := ([], []); gCommitment := ([], []); gPok := ([], []) |}.
Definition chunk_at (s : Z) : chunk_proof := {| cp_root := []; cp_prev := []; cp_end := []; cp_start_block := s; cp_end_block := 5; cp_proof := zero_groth16 |}.
(** So the encoding of all uint64 values is not injective: block 2^64 - 7 is encoded like block 7. *)
Theorem C30_large_block_number_refuted : encode_abi (chunk_at 7) = encode_abi (chunk_at (2 ^ 64 - 7)) /\ encode_abi (chunk_at 7) <> None.
Proof. split; vm_compute; [reflexivity | discriminate]. Qed.
Example C30_nonvacuous : coords_fit (chunk_at 7) /\ coords_fit {| cp_root := [97; 98]; cp_prev := []; cp_end := []; cp_start_block := 1; cp_end_block := 2;
  cp_proof := {| gA := ([48; 120; 49; 50], [55]); gB := (([], []), ([], [])); gC := ([], []); gCommitment := ([], []); gPok := ([], []) |} |}.
Proof. split; unfold coords_fit, coords; cbn; repeat (apply Forall_cons; [cbn; lia |]); apply Forall_nil. Qed.

(** The conversion for the contract binding keeps every coordinate; a nil committee proof becomes zeros. *)
Theorem C30_beacon_proof : forall g, ssz_get_proof (Some g) =
  ((hex2bigint (fst (gA g)), hex2bigint (snd (gA g))),
   ((hex2bigint (fst (fst (gB g))), hex2bigint (snd (fst (gB g)))), (hex2bigint (fst (snd (gB g))), hex2bigint (snd (snd (gB g))))),
   (hex2bigint (fst (gC g)), hex2bigint (snd (gC g))), (hex2bigint (fst (gCommitment g)), hex2bigint (snd (gCommitment g)))) /\
  ssz_get_proof None = ((0, 0), ((0, 0), (0, 0)), (0, 0), (0, 0)).
Proof. intros g. split; reflexivity. Qed.

(** * C33 *)
Lemma dec_fuel_digits : forall f n, 0 <= n -> Forall (fun c => 48 <= c <= 57) (dec_fuel f n).
Proof.
  induction f as [| f IH]; intros n Hn; [apply Forall_nil |]. cbn [dec_fuel]. apply Forall_app. split.
  - destruct (n <? 10); [apply Forall_nil | apply IH; apply Z.div_pos; lia].
  - apply Forall_cons; [| apply Forall_nil]. pose proof (Z.mod_pos_bound n 10). lia.
Qed.
Definition dec_value (l : list Z) : Z := fold_left (fun a c => 10 * a + (c - 48)) l 0.
Lemma dec_fuel_value : forall f n, 0 <= n < 10 ^ Z.of_nat f -> (0 < f)%nat -> dec_value (dec_fuel f n) = n.
Proof.
  induction f as [| f IH]; intros n Hn Hf; [lia |]. cbn [dec_fuel]. unfold dec_value. rewrite fold_left_app. cbn [fold_left].
  fold (dec_value (if n <? 10 then [] else dec_fuel f (n / 10))).
  destruct (Z.ltb_spec n 10) as [L | L].
  - cbn [dec_value fold_left]. unfold dec_value. cbn [fold_left]. rewrite (Z.mod_small n 10) by lia. lia.
  - rewrite Nat2Z.inj_succ, Z.pow_succ_r in Hn by lia.
    assert (Hd : 0 <= n / 10 < 10 ^ Z.of_nat f) by (split; [apply Z.div_pos; lia | apply Z.div_lt_upper_bound; lia]).
    rewrite IH; [pose proof (Z.div_mod n 10); lia | exact Hd |].
    destruct f; [| lia]. change (10 ^ Z.of_nat 0) with 1 in Hn. lia.
Qed.
Lemma dec_string_value : forall n, 0 <= n -> dec_value (dec_string n) = n.
Proof.
  intros n Hn. unfold dec_string. apply dec_fuel_value; [| lia]. split; [lia |].
  destruct (Z.eq_dec n 0) as [-> | N]; [reflexivity |]. pose proof (Z.log2_spec n ltac:(lia)) as [_ H]. pose proof (Z.log2_nonneg n).
  eapply Z.lt_le_trans; [exact H |]. replace (Z.of_nat (S (Z.to_nat (Z.log2 n)))) with (Z.succ (Z.log2 n)) by lia. apply Z.pow_le_mono_l. lia.
Qed.
Lemma split_last_slash : forall a b c d, ~ In 47 b -> ~ In 47 d -> a ++ 47 :: b = c ++ 47 :: d -> a = c /\ b = d.
Proof.
  induction a as [| x a IH]; intros b [| y c] d Hb Hd E.
  - cbn [app] in E. split; [reflexivity | congruence].
  - exfalso. cbn in E. assert (E2 : b = c ++ 47 :: d) by congruence. apply Hb. rewrite E2. apply in_or_app. right. left. reflexivity.
  - exfalso. cbn in E. assert (E2 : a ++ 47 :: b = d) by congruence. apply Hd. rewrite <- E2. apply in_or_app. right. left. reflexivity.
  - cbn in E. assert (E1 : x = y) by congruence. assert (E2 : a ++ 47 :: b = c ++ 47 :: d) by congruence.
    destruct (IH b c d Hb Hd E2) as [-> ->]. subst. auto.
Qed.
(** Different (prefix, slot) pairs get different object keys, whatever characters the prefix contains. *)
Theorem C33_object_key_injective : forall p1 p2 s1 s2, 0 <= s1 -> 0 <= s2 -> object_key p1 s1 = object_key p2 s2 -> p1 = p2 /\ s1 = s2.
Proof.
  intros p1 p2 s1 s2 H1 H2 E. unfold object_key in E.
  assert (ND : forall n, 0 <= n -> ~ In 47 (dec_string n ++ [46; 106; 115; 111; 110])).
  { intros n Hn Hin. apply in_app_or in Hin as [Hin | Hin].
    - pose proof (dec_fuel_digits (S (Z.to_nat (Z.log2 n))) n Hn) as F. rewrite Forall_forall in F. specialize (F 47 Hin). lia.
    - cbn [In] in Hin. lia. }
  apply split_last_slash in E; auto. destruct E as [-> E]. split; [reflexivity |].
  assert (E' : dec_string s1 = dec_string s2) by (eapply app_inv_tail; exact E).
  rewrite <- (dec_string_value s1), <- (dec_string_value s2) by auto. rewrite E'. reflexivity.
Qed.
Example C33_object_key_example : object_key [97; 47; 98] 120 = [97; 47; 98; 47; 49; 50; 48; 46; 106; 115; 111; 110]. Proof. vm_compute. reflexivity. Qed.
(** The sub-proof identifiers are listed receipts first, then storage slots, then transactions, each in the given order. *)
Theorem C33_sub_proof_paths : forall r s t, sub_proof_paths r s t = r ++ s ++ t.
Proof.
  intros r s t. unfold sub_proof_paths. assert (G : forall (l a : list (list Z)), fold_left (fun ids x => ids ++ [x]) l a = a ++ l).
  { induction l as [| x l IH]; intros a; cbn [fold_left]; [rewrite app_nil_r; reflexivity |]. rewrite IH, <- app_assoc. reflexivity. }
  rewrite !G. rewrite <- app_assoc. reflexivity.
Qed.
(** ** GenerateBatchProofAndPublicInputs *)
(** strings.Split(s, ",") *)
Fixpoint split_comma (s : list Z) : list (list Z) :=
  match s with
  | [] => [[]]
  | c :: r => if c =? 44 then [] :: split_comma r else match split_comma r with f :: fs => (c :: f) :: fs | [] => [[c]] end
  end.
Lemma split_comma_app : forall f s, ~ In 44 f -> split_comma (f ++ [44] ++ s) = f :: split_comma s.
Proof.
  induction f as [|c f IH]; intros s H; [reflexivity|]. cbn [app split_comma]. destruct (Z.eqb_spec c 44) as [E|N]; [exfalso; apply H; left; exact E|].
  change (f ++ 44 :: s) with (f ++ [44] ++ s). rewrite IH by (intros C; apply H; right; exact C). reflexivity.
Qed.
Lemma hexutil_no_comma : forall b, Forall (fun x => 0 <= x < 256) b -> ~ In 44 (hexutil_encode b).
Proof.
  intros b F [H|[H|H]]; [lia|lia|]. unfold bytes2hex in H. apply in_flat_map in H. destruct H as [x [Hx H]]. rewrite Forall_forall in F. specialize (F x Hx).
  assert (D : forall d, 0 <= d < 16 -> hex_digit d <> 44) by (intros d Hd; unfold hex_digit; destruct (d <? 10) eqn:E; lia).
  destruct H as [H|[H|[]]]; revert H; apply D; [split; [apply Z.div_pos; lia|apply Z.div_lt_upper_bound; lia]|apply Z.mod_pos_bound; lia].
Qed.
Lemma hexutil_value : forall x, 0 <= x -> hex2bigint (hexutil_encode (big_bytes x)) = x.
Proof.
  intros x Hx. unfold hex2bigint, hexutil_encode, big_bytes. rewrite Z.abs_eq by exact Hx. rewrite (proj2 (C26_round_trip (be_bytes x) (be_bytes_bytes x Hx))). exact (be_bytes_value x Hx).
Qed.
(** Splitting the result at the commas gives back, in this order, the twelve proof numbers in hexadecimal and the seven public input
    strings (query id, two roots, aggregation key hash, two output words, application key hash), then an empty string *)
Theorem C33_batch_string : forall a0 a1 b00 b01 b10 b11 c0 c1 m0 m1 k0 k1 pubs,
  Forall (fun x => 0 <= x) [a0; a1; b00; b01; b10; b11; c0; c1; m0; m1; k0; k1] ->
  Forall (fun s => ~ In 44 s) [ap_query pubs; ap_smt0 pubs; ap_smt1 pubs; ap_agg_vk pubs; ap_out0 pubs; ap_out1 pubs; ap_app_vk pubs] ->
  exists hexes, split_comma (batch_string a0 a1 b00 b01 b10 b11 c0 c1 m0 m1 k0 k1 pubs) =
      hexes ++ [ap_query pubs; ap_smt0 pubs; ap_smt1 pubs; ap_agg_vk pubs; ap_out0 pubs; ap_out1 pubs; ap_app_vk pubs; []] /\
    map hex2bigint hexes = [a0; a1; b00; b01; b10; b11; c0; c1; m0; m1; k0; k1] /\ Forall (fun h => has_0x h = true) hexes.
Proof.
  intros a0 a1 b00 b01 b10 b11 c0 c1 m0 m1 k0 k1 pubs HN HC. exists (map (fun x => hexutil_encode (big_bytes x)) [a0; a1; b00; b01; b10; b11; c0; c1; m0; m1; k0; k1]).
  rewrite Forall_forall in HN, HC. split; [|split].
  - unfold batch_string. cbv zeta. rewrite <- !app_assoc.
    assert (NH : forall x, 0 <= x -> ~ In 44 (hexutil_encode (big_bytes x))). { intros x Hx. apply hexutil_no_comma. unfold big_bytes. exact (be_bytes_bytes (Z.abs x) (Z.abs_nonneg x)). }
    do 12 (rewrite split_comma_app by (apply NH; apply HN; cbn [In]; tauto)).
    do 6 (rewrite split_comma_app by (apply HC; cbn [In]; tauto)).
    replace (ap_app_vk pubs ++ [44]) with (ap_app_vk pubs ++ [44] ++ []) by reflexivity. rewrite split_comma_app by (apply HC; cbn [In]; tauto). reflexivity.
  - rewrite map_map. rewrite <- (map_id [a0; a1; b00; b01; b10; b11; c0; c1; m0; m1; k0; k1]) at 2. apply map_ext_in. intros x Hx. apply hexutil_value. apply HN. exact Hx.
  - apply Forall_forall. intros h Hh. apply in_map_iff in Hh. destruct Hh as [x [<- _]]. reflexivity.
Qed.
Example C33_batch_example : split_comma (batch_string 1 2 3 4 5 6 7 8 9 10 11 256 {| ap_agg_vk := [97]; ap_smt0 := [98]; ap_smt1 := [99]; ap_app_vk := [100]; ap_out0 := [101]; ap_out1 := [102]; ap_query := [103] |}) =
  map (fun d => [48; 120; 48; d]) [49; 50; 51; 52; 53; 54; 55; 56; 57; 97; 98] ++ [[48; 120; 48; 49; 48; 48]; [103]; [98]; [99]; [97]; [101]; [102]; [100]; []].
Proof. vm_compute. reflexivity. Qed.
