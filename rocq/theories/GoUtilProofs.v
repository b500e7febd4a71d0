(** * GoUtilProofs.v — lemmas about common/utils *)
From Coq Require Import ZArith List Bool Arith Lia.
From Verif Require Import Field FieldLemmas KeccakModel SliceModel GoUtilModel.
Import ListNotations.
Open Scope Z_scope.
Open Scope circ_scope.

(** ** disjoint swaps *)
Section Swaps.
Variables (A : Type) (d : A) (l : list A) (m : nat) (sg : nat -> nat).
Local Notation n := (length l).
Hypothesis Hm : (m <= n)%nat.
Hypothesis Hge : forall a, (a < m)%nat -> (m <= sg a < n)%nat.
Hypothesis Hinj : forall a b, (a < m)%nat -> (b < m)%nat -> sg a = sg b -> a = b.
Definition swaps (k : nat) : list A := fold_left (fun r a => swap d r (a, sg a)) (seq 0 k) l.
Lemma swaps_inv : forall k, (k <= m)%nat -> length (swaps k) = n /\
  (forall a, (a < k)%nat -> nth a (swaps k) d = nth (sg a) l d /\ nth (sg a) (swaps k) d = nth a l d) /\
  (forall t, (forall a, (a < k)%nat -> t <> a /\ t <> sg a) -> nth t (swaps k) d = nth t l d).
Proof.
  induction k as [|k IH]; intros Hk.
  - unfold swaps. cbn. repeat split; intros; lia.
  - destruct IH as (L & P & U); [lia|]. unfold swaps. replace (S k) with (k + 1)%nat by lia. rewrite seq_app, fold_left_app. cbn [seq fold_left Nat.add]. fold (swaps k).
    pose proof (Hge k ltac:(lia)) as Hk2. unfold swap. cbn [fst snd].
    assert (L1 : length (upd k (nth (sg k) (swaps k) d) (swaps k)) = n) by (rewrite upd_length; lia).
    assert (Vk : nth k (swaps k) d = nth k l d) by (apply U; intros a Ha; pose proof (Hge a ltac:(lia)); lia).
    assert (Vs : nth (sg k) (swaps k) d = nth (sg k) l d).
    { apply U. intros a Ha. pose proof (Hge a ltac:(lia)). split; [lia|]. intros E. apply Hinj in E; lia. }
    assert (N : forall t, nth t (upd (sg k) (nth k (swaps k) d) (upd k (nth (sg k) (swaps k) d) (swaps k))) d =
       if Nat.eqb t (sg k) then nth k l d else if Nat.eqb t k then nth (sg k) l d else nth t (swaps k) d).
    { intros t. rewrite upd_nth by lia. rewrite upd_nth by lia. rewrite Vk, Vs. reflexivity. }
    split; [rewrite upd_length; lia|]. split.
    + intros a Ha. rewrite !N. destruct (Nat.eq_dec a k) as [->|Hne].
      * rewrite (proj2 (Nat.eqb_neq k (sg k))) by lia. rewrite !Nat.eqb_refl. auto.
      * pose proof (Hge a ltac:(lia)). destruct (P a ltac:(lia)) as [P1 P2].
        rewrite (proj2 (Nat.eqb_neq a (sg k))), (proj2 (Nat.eqb_neq a k)), (proj2 (Nat.eqb_neq (sg a) k)) by lia.
        rewrite (proj2 (Nat.eqb_neq (sg a) (sg k))) by (intros E; apply Hinj in E; lia). auto.
    + intros t Ht. rewrite N. destruct (Ht k ltac:(lia)) as [T1 T2]. rewrite (proj2 (Nat.eqb_neq t (sg k))), (proj2 (Nat.eqb_neq t k)) by auto.
      apply U. intros a Ha. apply Ht. lia.
Qed.
End Swaps.
Lemma swaps_twice A d (l : list A) m sg : (m <= length l)%nat -> (forall a, (a < m)%nat -> (m <= sg a < length l)%nat) ->
  (forall a b, (a < m)%nat -> (b < m)%nat -> sg a = sg b -> a = b) -> swaps A d (swaps A d l sg m) sg m = l.
Proof.
  intros Hm Hge Hinj. destruct (swaps_inv A d l m sg Hm Hge Hinj m (le_n _)) as (L & P & U). set (r := swaps A d l sg m) in *.
  assert (Hge' : forall a, (a < m)%nat -> (m <= sg a < length r)%nat) by (intros; rewrite L; auto).
  destruct (swaps_inv A d r m sg ltac:(lia) Hge' Hinj m (le_n _)) as (L2 & P2 & U2).
  apply nth_ext' with (d := d); [lia|]. intros t Ht. rewrite L2, L in Ht.
  destruct (Nat.lt_ge_cases t m) as [Hlt|Hge2]; [destruct (P2 t Hlt) as [-> _]; apply (proj2 (P t Hlt))|].
  destruct (existsb (fun a => Nat.eqb t (sg a)) (seq 0 m)) eqn:E.
  - apply existsb_exists in E. destruct E as [a [Ha E]]. apply Nat.eqb_eq in E. apply in_seq in Ha. subst t.
    destruct (P2 a ltac:(lia)) as [_ ->]. apply (proj1 (P a ltac:(lia))).
  - assert (Hn : forall a, (a < m)%nat -> t <> a /\ t <> sg a).
    { intros a Ha. split; [lia|]. intros Et. assert (existsb (fun a => Nat.eqb t (sg a)) (seq 0 m) = true); [|congruence].
      apply existsb_exists. exists a. split; [apply in_seq; lia|apply Nat.eqb_eq; exact Et]. }
    rewrite U2, U by auto. reflexivity.
Qed.

Lemma reverse_loop_swaps A (d : A) n : forall fuel i s, (n - 1 - 2 * i < fuel)%nat -> (2 * i <= n)%nat ->
  reverse_loop d fuel i (n - 1 - i) s = fold_left (fun r a => swap d r (a, (n - 1 - a)%nat)) (seq i (n / 2 - i)) s.
Proof.
  pose proof (Nat.div_mod n 2 ltac:(lia)) as Hd. pose proof (Nat.mod_upper_bound n 2 ltac:(lia)) as Hmb.
  induction fuel as [|fuel IH]; intros i s Hf Hi; [lia|]. cbn [reverse_loop]. destruct (Nat.ltb_spec i (n - 1 - i)) as [Hlt|Hge].
  - replace (n - 1 - i - 1)%nat with (n - 1 - S i)%nat by lia. rewrite IH by lia. replace (n / 2 - i)%nat with (S (n / 2 - S i)) by lia. reflexivity.
  - replace (n / 2 - i)%nat with 0%nat by lia. reflexivity.
Qed.
Lemma reverse_spec : forall (A : Type) (d : A) s, reverse d s = rev s.
Proof.
  intros A d s. unfold reverse. set (n := length s).
  pose proof (Nat.div_mod n 2 ltac:(lia)) as Hd. pose proof (Nat.mod_upper_bound n 2 ltac:(lia)) as Hmb.
  destruct (Nat.eq_dec n 0) as [E|E]. { destruct s; [reflexivity|discriminate E]. }
  replace (n - 1)%nat with (n - 1 - 0)%nat by lia. rewrite reverse_loop_swaps by lia. rewrite Nat.sub_0_r.
  destruct (swaps_inv A d s (n / 2) (fun a => n - 1 - a)%nat) with (k := (n / 2)%nat) as (L & P & U); try (fold n; lia); try (intros; fold n; lia).
  unfold swaps in *. set (r := fold_left _ _ s) in *. apply nth_ext' with (d := d); [rewrite rev_length; exact L|].
  rewrite L. fold n. intros t Ht. rewrite rev_nth by auto. fold n. destruct (Nat.lt_ge_cases t (n / 2)) as [Hlt|Hge].
  - rewrite (proj1 (P t Hlt)). f_equal. lia.
  - destruct (Nat.lt_ge_cases (n - 1 - t) (n / 2)) as [Hlt2|Hge2].
    + destruct (P (n - 1 - t)%nat Hlt2) as [_ P2]. replace (n - 1 - (n - 1 - t))%nat with t in P2 by lia. rewrite P2. f_equal. lia.
    + rewrite U by (intros a Ha; lia). f_equal. lia.
Qed.

(** FlipByGroups *)
Definition gsig (n g a : nat) : nat := (n - (a / g + 1) * g + a mod g)%nat.
Lemma flip_groups_swaps A (d : A) l g : (0 < g)%nat -> flip_by_groups d l g = Some (swaps A d l (gsig (length l) g) (length l / g / 2 * g)).
Proof.
  intros Hg. unfold flip_by_groups. rewrite (proj2 (Nat.eqb_neq g 0)) by lia. apply f_equal.
  set (n := length l). set (k := (n / g / 2)%nat). unfold swaps.
  assert (Hk : (2 * k * g <= n)%nat).
  { pose proof (Nat.div_mod (n / g) 2 ltac:(lia)). pose proof (Nat.div_mod n g ltac:(lia)). unfold k. nia. }
  assert (G : forall k', (k' <= k)%nat -> let r := fold_left (fun r a => swap d r (a, gsig n g a)) (seq 0 (k' * g)) l in
     fold_left (fun res i => fold_left (fun res j => swap d res (i * g + j, length res - (i + 1) * g + j)%nat) (seq 0 g) res) (seq 0 k') l = r /\ length r = n).
  { induction k' as [|k' IH]; intros Hk' r; [split; reflexivity|]. destruct IH as [E L]; [lia|]. unfold r. clear r.
    replace (S k') with (k' + 1)%nat at 1 by lia. rewrite seq_app, fold_left_app, E. cbn [seq fold_left Nat.add].
    replace (S k' * g)%nat with (k' * g + g)%nat by lia. rewrite (seq_app (k' * g) g), fold_left_app. cbn [Nat.add].
    set (r0 := fold_left _ (seq 0 (k' * g)) l) in *. clearbody r0.
    assert (Q : forall g', (g' <= g)%nat -> fold_left (fun res j => swap d res (k' * g + j, length res - (k' + 1) * g + j)%nat) (seq 0 g') r0 =
       fold_left (fun r a => swap d r (a, gsig n g a)) (seq (k' * g) g') r0 /\ length (fold_left (fun r a => swap d r (a, gsig n g a)) (seq (k' * g) g') r0) = n).
    { induction g' as [|g' IHg]; intros Hg'; [split; [reflexivity|exact L]|]. destruct IHg as [E1 L1]; [lia|].
      replace (S g') with (g' + 1)%nat by lia. rewrite !seq_app, !fold_left_app, E1. cbn [seq fold_left Nat.add].
      set (r1 := fold_left _ (seq (k' * g) g') r0) in *. clearbody r1.
      assert (Es : gsig n g (k' * g + g') = (n - (k' + 1) * g + g')%nat).
      { unfold gsig. rewrite (Nat.add_comm (k' * g) g'), Nat.div_add, Nat.mod_add, Nat.div_small, Nat.mod_small by lia. lia. }
      rewrite L1, Es. split; [reflexivity|]. unfold swap. cbn [fst snd]. rewrite !upd_length; rewrite ?upd_length; nia. }
    apply (Q g (le_n _)). }
  apply (G k (le_n _)).
Qed.
Lemma gsig_ok n g : (0 < g)%nat -> let m := (n / g / 2 * g)%nat in (m <= n)%nat /\ (forall a, (a < m)%nat -> (m <= gsig n g a < n)%nat) /\
  (forall a b, (a < m)%nat -> (b < m)%nat -> gsig n g a = gsig n g b -> a = b).
Proof.
  intros Hg m. set (k := (n / g / 2)%nat) in *.
  assert (Hk : (2 * k * g <= n)%nat).
  { pose proof (Nat.div_mod (n / g) 2 ltac:(lia)). pose proof (Nat.div_mod n g ltac:(lia)). unfold k. nia. }
  assert (D : forall a, (a < m)%nat -> (a = g * (a / g) + a mod g)%nat /\ (a mod g < g)%nat /\ (a / g < k)%nat).
  { intros a Ha. split; [apply Nat.div_mod; lia|]. split; [apply Nat.mod_upper_bound; lia|]. apply Nat.div_lt_upper_bound; [lia|]. unfold m in Ha. lia. }
  split; [unfold m; nia|]. split.
  - intros a Ha. destruct (D a Ha) as (D1 & D2 & D3). unfold gsig. set (q := (a / g)%nat) in *. set (r := (a mod g)%nat) in *. unfold m.
    assert ((q + 1) * g <= k * g)%nat by (apply Nat.mul_le_mono_r; lia). lia.
  - intros a b Ha Hb H. destruct (D a Ha) as (A1 & A2 & A3). destruct (D b Hb) as (B1 & B2 & B3). unfold gsig in H.
    set (q := (a / g)%nat) in *. set (r := (a mod g)%nat) in *. set (q' := (b / g)%nat) in *. set (r' := (b mod g)%nat) in *. clearbody q r q' r'.
    assert ((q + 1) * g <= k * g)%nat by (apply Nat.mul_le_mono_r; lia). assert ((q' + 1) * g <= k * g)%nat by (apply Nat.mul_le_mono_r; lia).
    assert (q = q') by nia. subst q'. lia.
Qed.

(** ** hex *)
Lemma hex_val_digit x : 0 <= x < 16 -> hex_val (hex_digit x) = Some x.
Proof.
  intros H. unfold hex_digit, hex_val. destruct (Z.ltb_spec x 10).
  - rewrite (proj2 (Z.leb_le 48 (48 + x))), (proj2 (Z.leb_le (48 + x) 57)) by lia. cbn [andb]. f_equal. lia.
  - rewrite (proj2 (Z.leb_le 48 (87 + x))), (proj2 (Z.leb_gt (87 + x) 57)) by lia. cbn [andb].
    rewrite (proj2 (Z.leb_le 97 (87 + x))), (proj2 (Z.leb_le (87 + x) 102)) by lia. cbn [andb]. f_equal. lia.
Qed.
Lemma hex_decode_encode b : Forall (fun x => 0 <= x < 256) b -> hex_decode (bytes2hex b) = b.
Proof.
  induction 1 as [|x b Hx F IH]; [reflexivity|]. cbn [bytes2hex flat_map app hex_decode]. fold (bytes2hex b). rewrite !hex_val_digit, IH by lia. f_equal. lia.
Qed.
Lemma bytes2hex_length b : length (bytes2hex b) = (2 * length b)%nat.
Proof. induction b as [|x b IH]; [reflexivity|]. cbn [bytes2hex flat_map app length]. fold (bytes2hex b). lia. Qed.
Lemma hex_digit_not_x x : 0 <= x < 16 -> hex_digit x <> 120 /\ hex_digit x <> 88.
Proof. intros H. unfold hex_digit. destruct (Z.ltb_spec x 10); lia. Qed.
Lemma bytes2hex_no_0x b : Forall (fun x => 0 <= x < 256) b -> has_0x (bytes2hex b) = false.
Proof.
  intros F. destruct F as [|x b Hx F]; [reflexivity|]. cbn [bytes2hex flat_map app has_0x]. destruct (hex_digit_not_x (x mod 16)) as [N1 N2]; [lia|].
  rewrite (proj2 (Z.eqb_neq _ _) N1), (proj2 (Z.eqb_neq _ _) N2). apply andb_false_r.
Qed.
Lemma is_hex_char_val c : is_hex_char c = match hex_val c with Some _ => true | None => false end.
Proof.
  unfold is_hex_char, hex_val. destruct ((48 <=? c) && (c <=? 57)); [reflexivity|]. destruct ((97 <=? c) && (c <=? 102)); [reflexivity|].
  destruct ((65 <=? c) && (c <=? 70)); reflexivity.
Qed.
Lemma hex_val_range c x : hex_val c = Some x -> 0 <= x < 16.
Proof.
  unfold hex_val. intros H. destruct (Z.leb_spec 48 c), (Z.leb_spec c 57); cbn [andb] in H; try (injection H as <-; lia);
  destruct (Z.leb_spec 97 c), (Z.leb_spec c 102); cbn [andb] in H; try (injection H as <-; lia);
  destruct (Z.leb_spec 65 c), (Z.leb_spec c 70); cbn [andb] in H; try discriminate H; try (injection H as <-; lia).
Qed.
Lemma pair_ind (P : list Z -> Prop) : P [] -> (forall x, P [x]) -> (forall a b r, P r -> P (a :: b :: r)) -> forall l, P l.
Proof.
  intros H0 H1 H2. assert (G : forall n l, (length l <= n)%nat -> P l).
  { induction n as [|n IH]; intros l Hl; [destruct l; [auto|cbn in Hl; lia]|]. destruct l as [|a [|b r]]; auto. apply H2. apply IH. cbn in Hl. lia. }
  intros l. apply (G (length l)). auto.
Qed.
Lemma hex_decode_bytes l : Forall (fun x => 0 <= x < 256) (hex_decode l).
Proof.
  induction l as [|x|a b r IH] using pair_ind; cbn [hex_decode]; try constructor.
  destruct (hex_val a) eqn:Ea; [|constructor]. destruct (hex_val b) eqn:Eb; constructor; auto.
  apply hex_val_range in Ea, Eb. lia.
Qed.

(** ** bits *)
Lemma bits_le_slice x : forall n k m, (k + m <= n)%nat -> firstn m (skipn k (bits_le n x)) = bits_le m (x / 2 ^ Z.of_nat k).
Proof.
  intros n k m H. replace n with (k + (m + (n - k - m)))%nat by lia. rewrite !bits_le_app. rewrite skipn_app, bits_le_length, Nat.sub_diag.
  rewrite (skipn_all2 (bits_le k x)) by (rewrite bits_le_length; lia). cbn [skipn app]. rewrite firstn_app, bits_le_length, Nat.sub_diag, firstn_O, app_nil_r.
  apply firstn_all2. rewrite bits_le_length. lia.
Qed.
Lemma bits_concat w : forall ds, Forall (fun x => 0 <= x < 2 ^ Z.of_nat w) ds ->
  concat (map (bits_le w) ds) = bits_le (w * length ds) (fold_right (fun x a => x + 2 ^ Z.of_nat w * a) 0 ds).
Proof.
  induction 1 as [|x ds Hx F IH]; [rewrite Nat.mul_0_r; reflexivity|]. cbn [map concat length fold_right]. rewrite IH.
  replace (w * S (length ds))%nat with (w + w * length ds)%nat by lia. rewrite bits_le_app. apply f_equal2.
  - set (a := fold_right _ 0 ds). clearbody a. clear. revert x a. induction w as [|w IHw]; intros x a; [reflexivity|].
    rewrite Nat2Z.inj_succ, Z.pow_succ_r by lia. cbn [bits_le].
    assert (E1 : (x + 2 * 2 ^ Z.of_nat w * a) mod 2 = x mod 2) by (rewrite <- Z.mul_assoc, (Z.mul_comm 2), Z_mod_plus_full; reflexivity).
    assert (E2 : (x + 2 * 2 ^ Z.of_nat w * a) / 2 = x / 2 + 2 ^ Z.of_nat w * a) by (rewrite <- Z.mul_assoc, (Z.mul_comm 2), Z.div_add by lia; reflexivity).
    rewrite E1, E2. apply (f_equal (cons (x mod 2))). apply IHw.
  - f_equal. rewrite Z.mul_comm, Z.div_add, Z.div_small by lia. reflexivity.
Qed.
Definition nib (n : nat) (x : Z) (i : nat) : Z := x / 16 ^ Z.of_nat (n - 1 - i) mod 16.
Lemma nibbles_of_ok p n x : 2 < p -> 16 <= p -> nibbles_of p n (bits_le (4 * n) x) = Some (map (nib n x) (seq 0 n)).
Proof.
  intros Hp Hp16. unfold nibbles_of.
  rewrite (omap_total _ _ _ (fun i => (x / 16 ^ Z.of_nat i) mod 16)).
  - cbn [obind]. f_equal. rewrite reverse_spec. apply nth_ext' with (d := 0); [rewrite rev_length, !map_length; auto|]. rewrite rev_length, map_length, seq_length. intros i Hi.
    rewrite rev_nth by (rewrite map_length, seq_length; auto). rewrite map_length, seq_length. rewrite !nth_map_seq by lia. unfold nib. do 4 f_equal. lia.
  - intros i Hi. apply in_seq in Hi. rewrite bits_le_slice by lia. rewrite from_binary_ok; auto using bits_le_Forall.
    + rewrite val_bits_le_mod. change (2 ^ Z.of_nat 4) with 16. do 3 f_equal. replace (Z.of_nat (4 * i)) with (4 * Z.of_nat i) by lia. rewrite Z.pow_mul_r by lia. reflexivity.
Qed.

(** ** chunks *)
Lemma split_every_concat A s (l : list A) : (0 < s)%nat -> concat (split_every s l) = l.
Proof.
  intros Hs. unfold split_every. assert (G : forall f (l : list A), (length l <= f)%nat -> concat (chunk_loop f s l) = l).
  { induction f as [|f IH]; intros [|x t] Hl; cbn [chunk_loop concat]; try reflexivity; [cbn in Hl; lia|].
    rewrite IH by (rewrite skipn_length; cbn [length] in *; lia). apply firstn_skipn. }
  apply G. lia.
Qed.
Lemma split_every_length A s (l : list A) c : (0 < s)%nat -> In c (split_every s l) -> (length c <= s)%nat /\ c <> [].
Proof.
  intros Hs. unfold split_every. generalize (length l). intros f. revert l. induction f as [|f IH]; intros [|x t] Hin; cbn [chunk_loop] in Hin; try destruct Hin as [<-|Hin]; try destruct Hin.
  - split; [apply firstn_le_length|]. destruct s; [lia|discriminate].
  - eapply IH; eauto.
Qed.
Lemma split_every_In A s (l : list A) c x : In c (split_every s l) -> In x c -> In x l.
Proof.
  unfold split_every. generalize (length l). intros f. revert l. induction f as [|f IH]; intros [|y t] Hin Hx; cbn [chunk_loop] in Hin; try destruct Hin as [<-|Hin]; try destruct Hin.
  - rewrite <- (firstn_skipn s (y :: t)). apply in_or_app. auto.
  - pose proof (IH _ Hin Hx) as H. rewrite <- (firstn_skipn s (y :: t)). apply in_or_app. auto.
Qed.
Lemma split_every_inj A B s (F : list A -> B) (P : A -> Prop) : (0 < s)%nat ->
  (forall a b, length a = length b -> (length a <= s)%nat -> Forall P a -> Forall P b -> F a = F b -> a = b) ->
  forall l1 l2, length l1 = length l2 -> Forall P l1 -> Forall P l2 -> map F (split_every s l1) = map F (split_every s l2) -> l1 = l2.
Proof.
  intros Hs HF l1 l2 HL. unfold split_every. rewrite <- HL. assert (G : forall f l1 l2, length l1 = length l2 -> (length l1 <= f)%nat -> Forall P l1 -> Forall P l2 ->
    map F (chunk_loop f s l1) = map F (chunk_loop f s l2) -> l1 = l2).
  { clear l1 l2 HL. induction f as [|f IH]; intros l1 l2 HL Hf P1 P2 H.
    - destruct l1, l2; try discriminate HL; [reflexivity|cbn in Hf; lia].
    - destruct l1 as [|x t], l2 as [|y u]; try discriminate HL; [reflexivity|].
      assert (E1 : map F (chunk_loop (S f) s (x :: t)) = F (firstn s (x :: t)) :: map F (chunk_loop f s (skipn s (x :: t)))) by reflexivity.
      assert (E2 : map F (chunk_loop (S f) s (y :: u)) = F (firstn s (y :: u)) :: map F (chunk_loop f s (skipn s (y :: u)))) by reflexivity.
      rewrite E1, E2 in H. clear E1 E2. set (a := x :: t) in *. set (b := y :: u) in *.
      assert (H1 : F (firstn s a) = F (firstn s b)) by congruence. assert (H2 : map F (chunk_loop f s (skipn s a)) = map F (chunk_loop f s (skipn s b))) by congruence.
      assert (Pa : Forall P (firstn s a) /\ Forall P (skipn s a)) by (apply Forall_app; rewrite firstn_skipn; auto).
      assert (Pb : Forall P (firstn s b) /\ Forall P (skipn s b)) by (apply Forall_app; rewrite firstn_skipn; auto).
      rewrite <- (firstn_skipn s a), <- (firstn_skipn s b). apply f_equal2.
      + apply HF; try tauto; [rewrite !firstn_length; lia|apply firstn_le_length].
      + assert (La : (0 < length a)%nat) by (unfold a; cbn; lia). apply IH; try tauto; rewrite ?skipn_length; lia. }
  apply G; auto.
Qed.

(** ** compose.go *)
Lemma recompose_ok data : recompose data = val_le data mod bn254.
Proof.
  unfold recompose. assert (G : forall k, (k <= length data)%nat -> fold_left (fun r i => (r + Z.shiftl (nth i data 0) (Z.of_nat i)) mod bn254) (seq 0 k) 0 = val_le (firstn k data) mod bn254).
  { induction k as [|k IH]; intros Hk; [reflexivity|]. replace (S k) with (k + 1)%nat at 1 by lia. rewrite seq_app, fold_left_app, IH by lia. cbn [seq fold_left Nat.add].
    rewrite Zplus_mod_idemp_l. f_equal.
    assert (E : firstn (S k) data = firstn k data ++ [nth k data 0]).
    { clear -Hk. revert k Hk. induction data as [|x data IH]; intros k Hk; [cbn in Hk; lia|]. destruct k as [|k]; [reflexivity|]. cbn [length] in Hk. cbn [firstn nth app].
      apply f_equal2; [reflexivity|]. apply IH. lia. }
    rewrite E, val_le_app, firstn_length, Nat.min_l by lia. cbn [val_le]. rewrite Z.shiftl_mul_pow2 by lia. ring. }
  rewrite (G (length data) (le_n _)), firstn_all. reflexivity.
Qed.
Lemma bn254_253 : 2 ^ 253 < bn254 < 2 ^ 254. Proof. split; reflexivity. Qed.
Lemma recompose_small data : Forall is_bit data -> (length data <= 253)%nat -> recompose data = val_le data.
Proof.
  intros F L. rewrite recompose_ok. apply Z.mod_small. pose proof (val_le_range data F) as R. pose proof bn254_253.
  assert (2 ^ Z.of_nat (length data) <= 2 ^ 253) by (apply Z.pow_le_mono_r; lia). lia.
Qed.
Lemma bit_len_le x n : 0 <= x -> bit_len x <= Z.of_nat n <-> x < 2 ^ Z.of_nat n.
Proof.
  intros Hx. unfold bit_len. destruct (Z.eqb_spec x 0) as [->|Hn]; [split; intros; [apply Z.pow_pos_nonneg; lia|lia]|]. rewrite Z.abs_eq by lia.
  split; intros H.
  - apply Z.log2_lt_pow2; lia.
  - apply Z.log2_lt_pow2 in H; lia.
Qed.
Lemma decompose_bits_ok x n : 0 <= x -> decompose_bits x n = if x <? 2 ^ Z.of_nat n then Some (bits_le n x) else None.
Proof.
  intros Hx. unfold decompose_bits. pose proof (bit_len_le x n Hx). destruct (Z.ltb_spec x (2 ^ Z.of_nat n)).
  - rewrite (proj2 (Z.leb_le _ _)) by tauto. reflexivity.
  - rewrite (proj2 (Z.leb_gt _ _)); [reflexivity|]. destruct (Z.le_gt_cases (bit_len x) (Z.of_nat n)); [|auto]. lia.
Qed.
Lemma be_val_range l : Forall (fun x => 0 <= x < 256) l -> 0 <= be_val l < 256 ^ Z.of_nat (length l).
Proof.
  intros F. unfold be_val. assert (G : forall l a, Forall (fun x => 0 <= x < 256) l -> 0 <= a ->
    a * 256 ^ Z.of_nat (length l) <= fold_left (fun a b => 256 * a + b) l a < (a + 1) * 256 ^ Z.of_nat (length l)).
  { clear. induction l as [|x l IH]; intros a F Ha; cbn [fold_left length]; [change (256 ^ Z.of_nat 0) with 1; lia|]. inversion F as [|? ? Hx F']; subst.
    specialize (IH (256 * a + x) F' ltac:(lia)). rewrite Nat2Z.inj_succ, Z.pow_succ_r by lia. assert (0 < 256 ^ Z.of_nat (length l)) by (apply Z.pow_pos_nonneg; lia). nia. }
  specialize (G l 0 F ltac:(lia)). lia.
Qed.

(** ** binary.go *)
Definition set_bits (b : list Z) : Z := fold_left (fun a x => 2 * a + (if x =? 0 then 0 else 1)) b 0.
Lemma set_bits_app a b : set_bits (a ++ b) = set_bits a * 2 ^ Z.of_nat (length b) + set_bits b.
Proof.
  unfold set_bits. rewrite fold_left_app. generalize (fold_left (fun a x => 2 * a + (if x =? 0 then 0 else 1)) a 0). clear a. revert b.
  assert (G : forall b z, fold_left (fun a x => 2 * a + (if x =? 0 then 0 else 1)) b z = z * 2 ^ Z.of_nat (length b) + fold_left (fun a x => 2 * a + (if x =? 0 then 0 else 1)) b 0).
  { induction b as [|x b' IH]; intros z; cbn [fold_left length]; [change (2 ^ Z.of_nat 0) with 1; ring|]. rewrite IH, (IH (2 * 0 + _)). rewrite Nat2Z.inj_succ, Z.pow_succ_r by lia. ring. }
  intros b z. apply G.
Qed.
Lemma set_bits_one x : set_bits [x] = if x =? 0 then 0 else 1. Proof. unfold set_bits. cbn [fold_left]. destruct (x =? 0); reflexivity. Qed.
Lemma set_bits_range b : 0 <= set_bits b < 2 ^ Z.of_nat (length b).
Proof.
  induction b as [|x b IH] using rev_ind; [cbn; lia|]. rewrite set_bits_app, app_length. cbn [length]. rewrite Nat2Z.inj_add, Z.pow_add_r by lia. change (2 ^ Z.of_nat 1) with 2.
  rewrite set_bits_one. destruct (x =? 0); lia.
Qed.
Lemma bits_to_fr_inv b m : 0 < m -> forall k, (k <= length b)%nat ->
  let r := fold_left (fun res i => if nth i b 0 =? 0 then res else let r := res + 2 ^ (Z.of_nat (length b) - Z.of_nat i - 1) in if m <? r then r mod m else r) (seq 0 k) 0 in
  let v := set_bits (firstn k b) * 2 ^ Z.of_nat (length b - k) in
  r mod m = v mod m /\ 0 <= r <= m /\ (v <= m -> r = v).
Proof.
  intros Hm. induction k as [|k IH]; intros Hk r v; [unfold r, v; cbn [seq fold_left firstn]; change (set_bits []) with 0; rewrite Z.mul_0_l; repeat split; lia|].
  destruct IH as (H1 & H2 & H3); [lia|]. unfold r. replace (S k) with (k + 1)%nat by lia. rewrite seq_app, fold_left_app. cbn [seq fold_left Nat.add].
  set (r0 := fold_left _ (seq 0 k) 0) in *. clear r.
  assert (E : firstn (S k) b = firstn k b ++ [nth k b 0]).
  { clear -Hk. revert k Hk. induction b as [|x data IH]; intros k Hk; [cbn in Hk; lia|]. destruct k as [|k]; [reflexivity|]. cbn [length] in Hk. cbn [firstn nth app].
    apply f_equal2; [reflexivity|]. apply IH. lia. }
  assert (Ev : v = set_bits (firstn k b) * 2 ^ Z.of_nat (length b - k) + (if nth k b 0 =? 0 then 0 else 2 ^ (Z.of_nat (length b) - Z.of_nat k - 1))).
  { unfold v. rewrite E, set_bits_app. cbn [length]. rewrite set_bits_one. replace (Z.of_nat (length b - k)) with (Z.succ (Z.of_nat (length b - S k))) by lia.
    rewrite Z.pow_succ_r by lia. replace (Z.of_nat (length b) - Z.of_nat k - 1) with (Z.of_nat (length b - S k)) by lia. change (2 ^ Z.of_nat 1) with 2.
    destruct (nth k b 0 =? 0); ring. }
  rewrite Ev. set (v0 := set_bits (firstn k b) * 2 ^ Z.of_nat (length b - k)) in *. clear v Ev.
  destruct (nth k b 0 =? 0); [rewrite Z.add_0_r; auto|]. cbv zeta. set (e := 2 ^ (Z.of_nat (length b) - Z.of_nat k - 1)).
  assert (He : 0 <= e) by (apply Z.pow_nonneg; lia). assert (Hv0 : 0 <= v0) by (unfold v0; pose proof (set_bits_range (firstn k b)); apply Z.mul_nonneg_nonneg; [lia|apply Z.pow_nonneg; lia]).
  assert (Hc : (r0 + e) mod m = (v0 + e) mod m) by (rewrite (Z.add_mod r0), H1, <- Z.add_mod by lia; reflexivity).
  destruct (Z.ltb_spec m (r0 + e)).
  - rewrite Zmod_mod. pose proof (Z.mod_pos_bound (r0 + e) m Hm). split; [exact Hc|]. split; [lia|]. intros Hle. rewrite H3 in H by lia. lia.
  - split; [exact Hc|]. split; [lia|]. intros Hle. rewrite H3 by lia. reflexivity.
Qed.
Lemma bits_to_fr_ok b m : 0 < m -> bits_to_fr b m mod m = set_bits b mod m /\ 0 <= bits_to_fr b m <= m /\ (set_bits b <= m -> bits_to_fr b m = set_bits b).
Proof.
  intros Hm. pose proof (bits_to_fr_inv b m Hm (length b) (le_n _)) as H. cbv zeta in H. rewrite firstn_all, Nat.sub_diag, Z.mul_1_r in H. exact H.
Qed.
Lemma decode_byte_ok x : decode_byte x = rev (bits_le 8 x).
Proof.
  unfold decode_byte. rewrite reverse_spec. f_equal. apply nth_ext' with (d := 0); [rewrite bits_le_length; reflexivity|]. rewrite map_length, seq_length. intros i Hi.
  rewrite nth_map_seq, bits_le_nth by auto. cbn [Nat.add].
  assert (E : Z.land x (Z.shiftl 1 (Z.of_nat i)) = if Z.testbit x (Z.of_nat i) then 2 ^ Z.of_nat i else 0).
  { apply Z.bits_inj'. intros j Hj. rewrite Z.land_spec, Z.shiftl_1_l. destruct (Z.eq_dec j (Z.of_nat i)) as [->|Hne].
    - rewrite Z.pow2_bits_true by lia. rewrite andb_true_r. destruct (Z.testbit x (Z.of_nat i)); [rewrite Z.pow2_bits_true by lia; reflexivity|rewrite Z.testbit_0_l; reflexivity].
    - rewrite Z.pow2_bits_false by lia. rewrite andb_false_r. destruct (Z.testbit x (Z.of_nat i)); [rewrite Z.pow2_bits_false by lia; reflexivity|rewrite Z.testbit_0_l; reflexivity]. }
  rewrite E. rewrite <- Z.shiftr_div_pow2, <- Z.bit0_mod, Z.shiftr_spec, Z.add_0_l by lia. assert (0 < 2 ^ Z.of_nat i) by (apply Z.pow_pos_nonneg; lia).
  destruct (Z.testbit x (Z.of_nat i)); [|reflexivity]. rewrite (proj2 (Z.eqb_neq _ _)) by lia. reflexivity.
Qed.
Lemma set_bits_inj a b : Forall is_bit a -> Forall is_bit b -> length a = length b -> set_bits a = set_bits b -> a = b.
Proof.
  revert b. induction a as [|x a IH] using rev_ind; intros b Fa Fb L H.
  - destruct b; [reflexivity|discriminate L].
  - destruct b as [|y b _] using rev_ind; [rewrite app_length in L; cbn in L; lia|]. rewrite !app_length in L. cbn [length] in L.
    apply Forall_app in Fa, Fb. destruct Fa as [Fa Fx], Fb as [Fb Fy]. inversion Fx as [|? ? Hx _]; subst. inversion Fy as [|? ? Hy _]; subst.
    rewrite !set_bits_app in H. cbn [length] in H. change (2 ^ Z.of_nat 1) with 2 in H. rewrite !set_bits_one in H.
    assert (Ex : (if x =? 0 then 0 else 1) = x) by (destruct Hx as [-> | ->]; reflexivity). assert (Ey : (if y =? 0 then 0 else 1) = y) by (destruct Hy as [-> | ->]; reflexivity).
    rewrite Ex, Ey in H. assert (x = y) by (destruct Hx, Hy; lia). subst y. rewrite (IH b) by (auto; lia). reflexivity.
Qed.
