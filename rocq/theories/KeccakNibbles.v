(** * KeccakNibbles.v — NibblesToU64Array, Keccak256, digest nibbles: hexadecimal digits in, hexadecimal digits out *)
From Coq Require Import ZArith List Bool Arith Lia.
From Verif Require Import Field FieldLemmas ModNorm RlpUtilModel RlpUtilProofs RlpSpec KeccakSpec KeccakModel KeccakProofs KeccakSponge KeccakWords.
Import ListNotations.
Open Scope Z_scope.
Open Scope circ_scope.

(** two hexadecimal digits per byte, high digit first *)
Fixpoint nibble_bytes (l : list Z) : list Z :=
  match l with a :: b :: r => 16 * a + b :: nibble_bytes r | _ => [] end.

Lemma nibble_bytes_map : forall k l, length l = (2 * k)%nat ->
  nibble_bytes l = map (fun j => 16 * nth (2 * j) l 0 + nth (2 * j + 1) l 0) (seq 0 k).
Proof.
  induction k as [|k IH]; intros l Hl.
  - destruct l; [reflexivity|cbn in Hl; lia].
  - destruct l as [|a [|b l]]; cbn in Hl; try lia. cbn [nibble_bytes seq map]. f_equal.
    rewrite IH by lia. rewrite <- seq_shift, map_map. apply map_ext. intros j.
    replace (2 * S j)%nat with (S (S (2 * j))) by lia. cbn [nth Nat.add]. reflexivity.
Qed.
Lemma nibble_bytes_app : forall a b, Nat.even (length a) = true -> nibble_bytes (a ++ b) = nibble_bytes a ++ nibble_bytes b.
Proof.
  intros a b. remember (length a) as n eqn:Hn. revert a Hn. induction n as [n IH] using lt_wf_ind. intros a Hn He.
  destruct a as [|x [|y a]]; [reflexivity|cbn in Hn; subst; discriminate|].
  cbn [app nibble_bytes]. f_equal. cbn [length] in Hn. subst n. apply (IH (length a)); auto.
Qed.

Lemma byte_bits_le b : byte_bits b = map (Z.eqb 1) (bits_le 8 b).
Proof. unfold byte_bits. rewrite zbits_word, map_map. apply map_ext. intros i. destruct (Z.testbit b (Z.of_nat i)); reflexivity. Qed.
Lemma word_bits_le w : word_bits w = map (Z.eqb 1) (bits_le 64 w).
Proof. unfold word_bits. rewrite zbits_word, map_map. apply map_ext. intros i. destruct (Z.testbit w (Z.of_nat i)); reflexivity. Qed.
Lemma byte_bits_length b : length (byte_bits b) = 8%nat.
Proof. reflexivity. Qed.
Lemma bytes_bits_length m : length (bytes_bits m) = (8 * length m)%nat.
Proof. unfold bytes_bits. apply flat_map_length_const. intros. apply byte_bits_length. Qed.

Lemma bits_le_hex hi lo : 0 <= lo < 16 -> bits_le 8 (16 * hi + lo) = bits_le 4 lo ++ bits_le 4 hi.
Proof.
  intros H. change 8%nat with (4 + 4)%nat. rewrite bits_le_app. change (2 ^ Z.of_nat 4) with 16.
  f_equal.
  - cbn [bits_le]. repeat (apply f_equal2; [Z.div_mod_to_equations; lia|]). reflexivity.
  - f_equal. Z.div_mod_to_equations. lia.
Qed.

Lemma bits64_words l : Forall is_bit l -> length l = 64%nat -> word64 (val_le l) /\ word_bits (val_le l) = map (Z.eqb 1) l.
Proof.
  intros H L. split.
  - pose proof (val_le_range l H) as R. rewrite L in R. exact R.
  - rewrite word_bits_le. f_equal. rewrite <- L. apply bits_val_le; auto.
Qed.

Section P.
Variable p : Z.
Hypothesis Hp : 2 ^ 65 < p.
Let Hp2 : 2 < p. Proof. assert (2 < 2 ^ 65) by reflexivity. lia. Qed.

Lemma nibble_to_binary x : felt p x -> forall l, to_binary p x 4 = Some l -> nibble x.
Proof.
  intros Hx l H. destruct (Z.lt_ge_cases x (2 ^ Z.of_nat 4)) as [Hlt|Hge].
  - unfold nibble. unfold felt in Hx. change (2 ^ Z.of_nat 4) with 16 in Hlt. lia.
  - rewrite to_binary_fail in H; auto. discriminate.
Qed.
Lemma nibble_felt x : nibble x -> felt p x.
Proof. unfold nibble, felt. assert (16 < 2 ^ 65) by reflexivity. lia. Qed.

Lemma nibble_word_ok : forall n, length n = 16%nat -> Forall nibble n ->
  exists w, nibble_word p n = Some w /\ word64 w /\ word_bits w = bytes_bits (nibble_bytes n).
Proof.
  intros n L F. rewrite Forall_forall in F. unfold nibble_word.
  rewrite omap_total with (g := fun j => bits_le 8 (16 * nth (2 * j) n 0 + nth (2 * j + 1) n 0)).
  2:{ intros j Hj. apply in_seq in Hj.
      assert (N1 : nibble (nth (2 * j) n 0)) by (apply F, nth_In; lia).
      assert (N2 : nibble (nth (2 * j + 1) n 0)) by (apply F, nth_In; lia).
      rewrite !to_binary_ok by (try apply nibble_felt; auto; try apply N1; apply N2). cbn [obind].
      rewrite bits_le_hex; auto. }
  cbn [obind].
  set (l := concat (map (fun j => bits_le 8 (16 * nth (2 * j) n 0 + nth (2 * j + 1) n 0)) (seq 0 8))).
  assert (Fl : Forall is_bit l).
  { unfold l. apply Forall_concat. apply Forall_forall. intros x Hx. apply in_map_iff in Hx. destruct Hx as [j [<- _]]. apply bits_le_Forall. }
  assert (Ll : length l = 64%nat).
  { unfold l. rewrite <- flat_map_concat_map. rewrite (flat_map_length_const _ _ _ 8%nat); [reflexivity|]. intros. apply bits_le_length. }
  destruct (bits64_words l Fl Ll) as [W B]. exists (val_le l).
  split; [|split; auto].
  - apply from_binary_ok; auto. rewrite Ll. change (Z.of_nat 64) with 64. assert (2 ^ 64 < 2 ^ 65) by reflexivity. lia.
  - rewrite B. unfold l. rewrite concat_map, map_map. unfold bytes_bits. rewrite flat_map_concat_map.
    rewrite (nibble_bytes_map 8) by auto. rewrite map_map. apply (f_equal (@concat bool)). apply map_ext. intros j.
    symmetry. apply byte_bits_le.
Qed.

Lemma nibble_word_inv : forall n w, length n = 16%nat -> Forall (felt p) n -> nibble_word p n = Some w -> Forall nibble n.
Proof.
  intros n w L F H. rewrite Forall_forall in F. unfold nibble_word in H. apply obind_Some in H. destruct H as [b [Hb _]].
  apply Forall_forall. intros x Hx. apply In_nth with (d := 0) in Hx. destruct Hx as [i [Hi <-]].
  pose proof (omap_Some_nth _ _ _ _ _ Hb (i / 2) 0%nat []) as Hn. rewrite seq_length in Hn.
  assert (Hd : (i / 2 < 8)%nat) by (apply Nat.div_lt_upper_bound; lia). specialize (Hn Hd).
  rewrite seq_nth, Nat.add_0_l in Hn by auto.
  apply obind_Some in Hn. destruct Hn as [hi [Hhi Hn]]. apply obind_Some in Hn. destruct Hn as [lo [Hlo _]].
  pose proof (Nat.div_mod i 2 ltac:(lia)) as Hm. pose proof (Nat.mod_upper_bound i 2 ltac:(lia)) as Hu.
  assert (Hf : felt p (nth i n 0)) by (apply F, nth_In; auto).
  destruct (Nat.eq_dec (i mod 2) 0) as [E|E].
  - assert (Ei : i = (2 * (i / 2))%nat) by lia. rewrite <- Ei in Hhi. eapply nibble_to_binary; eauto.
  - assert (Ei : i = (2 * (i / 2) + 1)%nat) by lia. rewrite <- Ei in Hlo. eapply nibble_to_binary; eauto.
Qed.

(** the 16 digits of one output word *)
Lemma word_nibbles_ok : forall w, word64 w ->
  exists d, word_nibbles p w = Some d /\ length d = 16%nat /\ Forall nibble d /\ bytes_bits (nibble_bytes d) = word_bits w.
Proof.
  intros w Hw. unfold word_nibbles. rewrite to_binary_ok by (auto; try apply (word_felt p Hp); auto; apply Hw). cbn [obind].
  set (b := bits_le 64 w).
  assert (Lb : length b = 64%nat) by apply bits_le_length.
  assert (Fb : Forall is_bit b) by apply bits_le_Forall.
  assert (Fg : forall i, Forall is_bit (firstn 4 (skipn (4 * i) b))).
  { intros i. apply Forall_forall. intros x Hx. rewrite Forall_forall in Fb. apply Fb.
    rewrite <- (firstn_skipn (4 * i) b). apply in_or_app. right. rewrite <- (firstn_skipn 4 (skipn (4 * i) b)). apply in_or_app. auto. }
  rewrite omap_total with (g := fun i => val_le (firstn 4 (skipn (4 * i) b))).
  2:{ intros i Hi. apply in_seq in Hi. apply from_binary_ok; auto. rewrite firstn_length, skipn_length, Lb.
      assert (2 ^ Z.of_nat (Nat.min 4 (64 - 4 * i)) <= 2 ^ 4) by (apply Z.pow_le_mono_r; lia). assert (2 ^ 4 < 2 ^ 65) by reflexivity. lia. }
  cbn [obind]. set (v := fun i => val_le (firstn 4 (skipn (4 * i) b))).
  assert (Nv : forall i, (i < 16)%nat -> nibble (v i)).
  { intros i Hi. pose proof (val_le_range _ (Fg i)) as R. rewrite firstn_length, skipn_length, Lb, Nat.min_l in R by lia. exact R. }
  eexists. split; [reflexivity|].
  assert (Eq : flat_map (fun i => [nth (2 * i + 1) (map v (seq 0 16)) 0; nth (2 * i) (map v (seq 0 16)) 0]) (seq 0 8) =
               flat_map (fun i => [v (2 * i + 1)%nat; v (2 * i)%nat]) (seq 0 8)).
  { rewrite !flat_map_concat_map. apply (f_equal (@concat Z)). apply map_ext_in. intros i Hi. apply in_seq in Hi.
    rewrite !nth_map_seq by lia. reflexivity. }
  rewrite Eq. clear Eq. split; [reflexivity|]. split.
  { apply Forall_forall. intros x Hx. apply in_flat_map in Hx. destruct Hx as [i [Hi Hx]]. apply in_seq in Hi.
    cbn [In] in Hx. destruct Hx as [<-|[<-|[]]]; apply Nv; lia. }
  cbn [flat_map seq app nibble_bytes Nat.mul Nat.add]. unfold bytes_bits. cbn [flat_map].
  assert (Hbb : forall i, (2 * i + 1 < 16)%nat -> byte_bits (16 * v (2 * i + 1)%nat + v (2 * i)%nat) = map (Z.eqb 1) (firstn 8 (skipn (8 * i) b))).
  { intros i Hi. rewrite byte_bits_le. f_equal. rewrite bits_le_hex by (apply Nv; lia).
    assert (E4 : forall k, (k < 16)%nat -> bits_le 4 (v k) = firstn 4 (skipn (4 * k) b)).
    { intros k Hk. unfold v. rewrite <- (bits_val_le _ (Fg k)) at 2. f_equal. rewrite firstn_length, skipn_length, Lb. lia. }
    rewrite !E4 by lia.
    apply nth_ext' with (d := 0). { rewrite app_length, !firstn_length, !skipn_length, Lb. lia. }
    intros j Hj. rewrite app_length, !firstn_length, !skipn_length, Lb in Hj. rewrite nth_firstn', nth_skipn' by lia.
    destruct (Nat.lt_ge_cases j 4).
    - rewrite app_nth1 by (rewrite firstn_length, skipn_length, Lb; lia). rewrite nth_firstn', nth_skipn' by lia. f_equal. lia.
    - rewrite app_nth2 by (rewrite firstn_length, skipn_length, Lb; lia). rewrite firstn_length, skipn_length, Lb.
      rewrite nth_firstn', nth_skipn' by lia. f_equal. lia. }
  pose proof (Hbb 0%nat) as h0. pose proof (Hbb 1%nat) as h1. pose proof (Hbb 2%nat) as h2. pose proof (Hbb 3%nat) as h3.
  pose proof (Hbb 4%nat) as h4. pose proof (Hbb 5%nat) as h5. pose proof (Hbb 6%nat) as h6. pose proof (Hbb 7%nat) as h7.
  cbn [Nat.mul Nat.add] in *.
  rewrite h0, h1, h2, h3, h4, h5, h6, h7 by lia.
  rewrite word_bits_le. fold b. rewrite app_nil_r. rewrite <- !map_app. reflexivity.
Qed.

Variable perm : list Z -> option (list Z).
Hypothesis Hperm : perm_ok perm.

Lemma nibble_bytes_length : forall k l, length l = (2 * k)%nat -> length (nibble_bytes l) = k.
Proof. intros k l H. rewrite (nibble_bytes_map k) by auto. now rewrite map_length, seq_length. Qed.

Definition group16 (k : nat) (l : list Z) : list (list Z) := map (fun i => firstn 16 (skipn (i * 16) l)) (seq 0 k).

Lemma words_of_nibbles : forall k l, length l = (16 * k)%nat -> Forall nibble l ->
  exists ws, omap (nibble_word p) (group16 k l) = Some ws /\ length ws = k /\ Forall word64 ws /\
    words_bits ws = bytes_bits (nibble_bytes l).
Proof.
  induction k as [|k IH]; intros l L F.
  - destruct l; [|cbn in L; lia]. exists []. split; [reflexivity|]. split; [reflexivity|]. split; [constructor|reflexivity].
  - assert (Fh : Forall nibble (firstn 16 l) /\ Forall nibble (skipn 16 l)).
    { rewrite <- (firstn_skipn 16 l) in F. apply Forall_app in F. exact F. }
    destruct Fh as [F1 F2].
    destruct (nibble_word_ok (firstn 16 l)) as [w [E [W B]]]; auto. { rewrite firstn_length. lia. }
    destruct (IH (skipn 16 l)) as [ws [E2 [L2 [W2 B2]]]]; auto. { rewrite skipn_length. lia. }
    exists (w :: ws).
    assert (Eg : group16 (S k) l = firstn 16 l :: group16 k (skipn 16 l)).
    { unfold group16. cbn [seq map]. apply f_equal2; [reflexivity|]. rewrite <- seq_shift, map_map. apply map_ext. intros i.
      rewrite skipn_skipn'. do 2 f_equal. }
    rewrite Eg. cbn [omap]. rewrite E. cbn [obind]. rewrite E2. split; [reflexivity|]. split; [cbn; lia|]. split; [constructor; auto|].
    change (words_bits (w :: ws)) with (word_bits w ++ words_bits ws). rewrite B, B2.
    rewrite <- (firstn_skipn 16 l) at 3. rewrite nibble_bytes_app.
    + unfold bytes_bits. rewrite flat_map_app. reflexivity.
    + rewrite firstn_length. replace (Nat.min 16 (length l)) with 16%nat by lia. reflexivity.
Qed.

Lemma rows_blocks : forall k all, (17 * k <= length all)%nat ->
  map words_bits (map (fun r => firstn 17 (skipn (r * 17) all)) (seq 0 k)) = blocks_of k (words_bits all).
Proof.
  induction k as [|k IH]; intros all L; [reflexivity|]. cbn [blocks_of].
  change (seq 0 (S k)) with (0%nat :: seq 1 k). cbn [map].
  apply f_equal2.
  - change 1088%nat with (64 * 17)%nat. symmetry. apply words_bits_firstn.
  - rewrite <- seq_shift. rewrite (map_map S).
    assert (Es : skipn 1088 (words_bits all) = words_bits (skipn 17 all)).
    { assert (A : words_bits all = words_bits (firstn 17 all) ++ words_bits (skipn 17 all)).
      { rewrite <- (firstn_skipn 17 all) at 1. unfold words_bits. apply flat_map_app. }
      rewrite A. rewrite skipn_app.
      assert (Lf : length (words_bits (firstn 17 all)) = 1088%nat).
      { rewrite words_bits_length, firstn_length. lia. }
      rewrite Lf, Nat.sub_diag. rewrite skipn_all2 by lia. reflexivity. }
    rewrite Es. rewrite <- IH by (rewrite skipn_length; lia). f_equal. apply map_ext. intros r.
    rewrite skipn_skipn'. do 2 f_equal.
Qed.

Lemma firstn_map_seq : forall (A : Type) (f : nat -> A) k n, (k <= n)%nat -> firstn k (map f (seq 0 n)) = map f (seq 0 k).
Proof.
  intros A f k n H. rewrite firstn_map. f_equal. replace n with (k + (n - k))%nat by lia. rewrite seq_app.
  rewrite firstn_app, seq_length, Nat.sub_diag, firstn_O, app_nil_r. apply firstn_all2. rewrite seq_length; lia.
Qed.

(** the bit string hashed: the digits that fill whole words, then zeros up to [width] blocks *)
Definition padded_bits (width : nat) (nibs : list Z) : list bool :=
  let k := (length nibs / 16)%nat in
  bytes_bits (nibble_bytes (firstn (16 * k) nibs)) ++ repeat false (width * 1088 - 64 * k).

Lemma div_64_16 n : (n * 4 / 64 = n / 16)%nat.
Proof. change 64%nat with (16 * 4)%nat. apply Nat.div_mul_cancel_r; lia. Qed.
Lemma firstn_16k : forall (l : list Z), (length (firstn (16 * (length l / 16)) l) = 16 * (length l / 16))%nat.
Proof. intros l. rewrite firstn_length. pose proof (Nat.div_mod (length l) 16 ltac:(lia)). lia. Qed.

Lemma group16_prefix : forall k l, group16 k l = group16 k (firstn (16 * k) l).
Proof.
  intros k l. unfold group16. apply map_ext_in. intros i Hi. apply in_seq in Hi.
  rewrite skipn_firstn_comm, firstn_firstn. f_equal. lia.
Qed.

Lemma words_bits_zero n : words_bits (repeat 0 n) = repeat false (64 * n).
Proof.
  induction n as [|n IH]; [reflexivity|]. cbn [repeat]. change (words_bits (0 :: repeat 0 n)) with (word_bits 0 ++ words_bits (repeat 0 n)).
  rewrite IH. replace (64 * S n)%nat with (64 + 64 * n)%nat by lia. rewrite repeat_app. reflexivity.
Qed.

Lemma nibbles_to_words_ok : forall width nibs, (length nibs / 16 <= width * 17)%nat -> Forall nibble (firstn (16 * (length nibs / 16)) nibs) ->
  exists blocks, nibbles_to_words p width nibs = Some blocks /\ length blocks = width /\
     Forall (fun b => length b = 17%nat /\ Forall word64 b) blocks /\
     forall k, (k <= width)%nat -> map words_bits (firstn k blocks) = blocks_of k (padded_bits width nibs).
Proof.
  intros width nibs Hw F. unfold nibbles_to_words. rewrite div_64_16. set (k := (length nibs / 16)%nat) in *.
  destruct (words_of_nibbles k (firstn (16 * k) nibs)) as [ws [E [L [W B]]]]; auto. { apply firstn_16k. }
  rewrite <- group16_prefix in E. unfold group16 in E. rewrite omap_map in E. rewrite E. cbn [obind].
  replace (Nat.leb k (width * 17)) with true by (symmetry; apply Nat.leb_le; auto). cbn [guard obind].
  set (all := ws ++ repeat 0 (width * 17 - k)).
  assert (La : length all = (width * 17)%nat) by (unfold all; rewrite app_length, repeat_length; lia).
  assert (Fa : Forall word64 all).
  { unfold all. apply Forall_app. split; auto. apply Forall_forall. intros x Hx. apply repeat_spec in Hx. subst. split; [lia|reflexivity]. }
  eexists. split; [reflexivity|]. split; [now rewrite map_length, seq_length|]. split.
  - apply Forall_forall. intros b Hb. apply in_map_iff in Hb. destruct Hb as [r [<- Hr]]. apply in_seq in Hr.
    split; [rewrite firstn_length, skipn_length; lia|]. apply Forall_forall. intros x Hx. rewrite Forall_forall in Fa. apply Fa.
    rewrite <- (firstn_skipn (r * 17) all). apply in_or_app. right. rewrite <- (firstn_skipn 17 (skipn (r * 17) all)). apply in_or_app. auto.
  - intros j Hj. rewrite firstn_map_seq by auto. rewrite rows_blocks by lia. f_equal.
    unfold all, padded_bits. fold k. rewrite <- B. unfold words_bits at 1. rewrite flat_map_app. fold (words_bits ws). f_equal.
    change (flat_map word_bits (repeat 0 (width * 17 - k))) with (words_bits (repeat 0 (width * 17 - k))).
    rewrite words_bits_zero. f_equal. lia.
Qed.

Lemma nibbles_to_words_inv : forall width nibs blocks, Forall (felt p) nibs -> nibbles_to_words p width nibs = Some blocks ->
  (length nibs / 16 <= width * 17)%nat /\ Forall nibble (firstn (16 * (length nibs / 16)) nibs).
Proof.
  intros width nibs blocks F H. unfold nibbles_to_words in H. rewrite div_64_16 in H. set (k := (length nibs / 16)%nat) in *.
  apply obind_Some in H. destruct H as [ws [E H]]. apply obind_Some in H. destruct H as [u [G _]]. apply guard_Some in G. apply Nat.leb_le in G.
  split; auto. apply Forall_forall. intros x Hx. apply In_nth with (d := 0) in Hx. destruct Hx as [i [Hi <-]].
  pose proof (firstn_16k nibs) as Lk. fold k in Lk. rewrite Lk in Hi. rewrite nth_firstn' by lia.
  pose proof (omap_Some_nth _ _ _ _ _ E (i / 16) 0%nat 0) as Hn. rewrite seq_length in Hn.
  assert (Hd : (i / 16 < k)%nat) by (apply Nat.div_lt_upper_bound; lia). specialize (Hn Hd). rewrite seq_nth, Nat.add_0_l in Hn by auto.
  pose proof (Nat.div_mod i 16 ltac:(lia)) as Hm. pose proof (Nat.mod_upper_bound i 16 ltac:(lia)) as Hu.
  pose proof (Nat.div_mod (length nibs) 16 ltac:(lia)) as Hm2. fold k in Hm2.
  apply nibble_word_inv in Hn.
  - rewrite Forall_forall in Hn. replace (nth i nibs 0) with (nth (i mod 16) (firstn 16 (skipn (i / 16 * 16) nibs)) 0).
    + apply Hn. apply nth_In. rewrite firstn_length, skipn_length. nia.
    + rewrite nth_firstn', nth_skipn' by lia. f_equal. lia.
  - rewrite firstn_length, skipn_length. nia.
  - apply Forall_forall. intros x Hx. rewrite Forall_forall in F. apply F.
    rewrite <- (firstn_skipn (i / 16 * 16) nibs). apply in_or_app. right. rewrite <- (firstn_skipn 16 (skipn _ _)). apply in_or_app. left. exact Hx.
Qed.

Lemma digest_nibbles : forall ws, Forall word64 ws ->
  exists ds, omap (word_nibbles p) ws = Some ds /\ length (concat ds) = (16 * length ws)%nat /\ Forall nibble (concat ds) /\
    bytes_bits (nibble_bytes (concat ds)) = words_bits ws.
Proof.
  induction ws as [|w ws IH]; intros F.
  - exists []. split; [reflexivity|]. split; [reflexivity|]. split; [constructor|reflexivity].
  - inversion F; subst. destruct (word_nibbles_ok w) as [d [E [L [N B]]]]; auto. destruct IH as [ds [E2 [L2 [N2 B2]]]]; auto.
    exists (d :: ds). cbn [omap]. rewrite E. cbn [obind]. rewrite E2. split; [reflexivity|]. cbn [concat].
    split; [rewrite app_length, L, L2; cbn [length]; lia|]. split; [apply Forall_app; auto|].
    rewrite nibble_bytes_app by (rewrite L; reflexivity). unfold bytes_bits. rewrite flat_map_app.
    fold (bytes_bits (nibble_bytes d)). fold (bytes_bits (nibble_bytes (concat ds))). rewrite B, B2. reflexivity.
Qed.

(** Keccak256AsNibbles, digest part *)
Theorem keccak_nibbles_sound : forall width nibs ri d, felt p ri -> Forall (felt p) nibs -> Z.of_nat width < p ->
  keccak_nibbles p perm width nibs ri = Some d ->
  (length nibs / 16 <= width * 17)%nat /\ Forall nibble (firstn (16 * (length nibs / 16)) nibs) /\ ri < Z.of_nat width /\
  length d = 64%nat /\ Forall nibble d /\ bytes_bits (nibble_bytes d) = sponge256 (Z.to_nat ri + 1) (padded_bits width nibs).
Proof.
  intros width nibs ri d Hri F Hw H. unfold keccak_nibbles in H.
  apply obind_Some in H. destruct H as [blocks [Hb H]]. apply obind_Some in H. destruct H as [out [Ho H]].
  apply obind_Some in H. destruct H as [ns [Hns H]].
  destruct (nibbles_to_words_inv _ _ _ F Hb) as [G N]. split; [exact G|]. split; [exact N|].
  destruct (nibbles_to_words_ok _ _ G N) as [blocks' [E [L [W B]]]]. assert (blocks' = blocks) by congruence. subst blocks'.
  apply (keccak256_words_ok p Hp perm Hperm) in Ho; auto.
  2:{ rewrite L; auto. }
  2:{ eapply Forall_impl; [|exact W]. intros b [A1 A2]. split; auto. eapply Forall_impl; [|exact A2]. intros w Hx. apply (word_felt p Hp); auto. }
  destruct Ho as [_ [Hlt [Lo [Fo Bo]]]]. rewrite L in Hlt. split; [exact Hlt|].
  destruct (digest_nibbles out Fo) as [ds [E2 [L2 [N2 B2]]]]. rewrite E2 in Hns.
  assert (d = concat ds) by congruence. subst d. split; [rewrite L2, Lo; reflexivity|]. split; [exact N2|].
  rewrite B2, Bo. unfold felt in Hri. rewrite B by lia. reflexivity.
Qed.

Theorem keccak_nibbles_complete : forall width nibs ri, felt p ri -> Z.of_nat width < p ->
  (length nibs / 16 <= width * 17)%nat -> Forall nibble (firstn (16 * (length nibs / 16)) nibs) -> ri < Z.of_nat width ->
  exists d, keccak_nibbles p perm width nibs ri = Some d.
Proof.
  intros width nibs ri Hri Hw G N Hlt. unfold keccak_nibbles.
  destruct (nibbles_to_words_ok _ _ G N) as [blocks [E [L [W B]]]]. rewrite E. cbn [obind].
  assert (Hex : exists ow, length ow = 4%nat /\ Forall word64 ow /\
     words_bits ow = firstn 256 (string_of (sponge (map words_bits (firstn (Z.to_nat ri + 1) blocks))))).
  { set (s := string_of (sponge (map words_bits (firstn (Z.to_nat ri + 1) blocks)))).
    assert (Ls : length s = 1600%nat) by apply string_of_length.
    exists (map (fun i => val_le (zbits (firstn 64 (skipn (64 * i) s)))) (seq 0 4)).
    assert (Fb : forall i, Forall is_bit (zbits (firstn 64 (skipn (64 * i) s)))).
    { intros i. unfold zbits. apply Forall_forall. intros x Hx. apply in_map_iff in Hx. destruct Hx as [b [<- _]]. apply bit_of_bit. }
    assert (Lb : forall i, (i < 4)%nat -> length (zbits (firstn 64 (skipn (64 * i) s))) = 64%nat).
    { intros i Hi. unfold zbits. rewrite map_length, firstn_length, skipn_length, Ls. lia. }
    split; [reflexivity|]. split.
    - apply Forall_forall. intros x Hx. apply in_map_iff in Hx. destruct Hx as [i [<- Hi]]. apply in_seq in Hi. apply bits64_words; auto. apply Lb. lia.
    - apply nth_ext' with (d := false).
      + rewrite words_bits_length, firstn_length, Ls. reflexivity.
      + intros i Hi. rewrite words_bits_length in Hi. rewrite map_length, seq_length in Hi. rewrite nth_firstn' by lia.
        pose proof (Nat.div_mod i 64 ltac:(lia)) as Hm. pose proof (Nat.mod_upper_bound i 64 ltac:(lia)) as Hu.
        rewrite Hm. rewrite words_bits_nth; [|rewrite map_length, seq_length; lia|auto].
        rewrite nth_map_seq by lia. rewrite Nat.add_0_l. rewrite testbit_val_le by (auto; rewrite Lb; lia).
        unfold zbits. rewrite nth_map' with (d' := false) by (rewrite firstn_length, skipn_length, Ls; lia).
        rewrite nth_firstn', nth_skipn' by lia. destruct (nth _ s false); reflexivity. }
  destruct Hex as [ow [Lo [Fo Bo]]].
  assert (Ho : keccak256_words p perm blocks ri = Some ow).
  { apply (keccak256_words_ok p Hp perm Hperm); auto.
    - rewrite L; auto.
    - eapply Forall_impl; [|exact W]. intros b [A1 A2]. split; auto. eapply Forall_impl; [|exact A2]. intros w Hx. apply (word_felt p Hp); auto.
    - split; [eapply Forall_impl; [|exact W]; intros b [_ A2]; exact A2|]. split; [rewrite L; auto|]. split; [exact Lo|]. split; [exact Fo|exact Bo]. }
  rewrite Ho. cbn [obind]. destruct (digest_nibbles ow Fo) as [ds [E2 _]]. rewrite E2. cbn [obind]. eauto.
Qed.
End P.
