(** * MptPathComplete2.v — the inclusion gadget accepts the honest inputs of every trie path: loop and score *)
From Coq Require Import ZArith List Lia Bool Arith.
From Verif Require Import ModNorm Field FieldLemmas RlpUtilModel RlpUtilProofs RlpModel RlpSpec RlpPrefixProofs RlpArrayProofs RlpArraySound RlpEnc RlpBridge MptModel MptSpec MptTrie MptProofs MptPathProofs MptPathSound MptComplete MptZero MptPathComplete.
Import ListNotations.
Open Scope Z_scope.

Definition hop0 : hop := Hop [] 0 None.
Lemma starts_len hops : forall s, length (starts_from s hops) = S (length hops).
Proof. induction hops as [|h t IH]; intros s; cbn [starts_from length]; [reflexivity|rewrite IH; reflexivity]. Qed.
Lemma starts_0 s hops : nth 0 (starts_from s hops) 0%nat = s.
Proof. destruct hops; reflexivity. Qed.
Lemma used_cons h t : digits_used (h :: t) = (consumed h + digits_used t)%nat.
Proof. reflexivity. Qed.
Lemma starts_last hops : forall s, nth (length hops) (starts_from s hops) 0%nat = (s + digits_used hops)%nat.
Proof. induction hops as [|h t IH]; intros s; cbn [starts_from length nth]; [unfold digits_used; cbn; lia|]. rewrite IH, used_cons. lia. Qed.

Definition chain hash key (hops : list hop) (starts : list nat) (ds : list (list Z)) : Prop :=
  forall k, (k < length hops)%nat -> hash (h_buf (nth k hops hop0)) (h_round (nth k hops hop0)) = Some (nth k ds []) /\
    refers key (nth k starts 0%nat) (nth k hops hop0) (nth (S k) ds []) /\ nth (S k) starts 0%nat = (nth k starts 0 + consumed (nth k hops hop0))%nat.
Lemma path_chain hash key s d hops buf r v : trie_path (fun b r d => hash b r = Some d) key s d hops buf r v -> exists ds kb rest,
  length ds = S (length hops) /\ nth 0 ds [] = d /\ chain hash key hops (starts_from s hops) ds /\ (s + digits_used hops < length key)%nat /\
  hash buf r = Some (nth (length hops) ds []) /\ Forall is_byte kb /\ buf = nib (rlp (RList [RStr kb; RStr v])) ++ rest /\ nib kb = hex_prefix 1 (skipn (s + digits_used hops) key).
Proof.
  induction 1 as [s d buf r kb v rest Ls Eh Fk Eb Ek|s d h d' hops buf r v Eh Er _ IH].
  - exists [d], kb, rest. change (digits_used []) with 0%nat. cbn [length nth]. rewrite Nat.add_0_r. split; [reflexivity|]. split; [reflexivity|]. split; [intros k Hk; cbn in Hk; lia|]. auto.
  - destruct IH as (ds & kb & rest & L & D0 & C & Q). exists (d :: ds), kb, rest.
    replace (s + digits_used (h :: hops))%nat with (s + consumed h + digits_used hops)%nat by (rewrite used_cons; lia).
    split; [cbn [length]; lia|]. split; [reflexivity|]. split; [|exact Q].
    intros [|k] Hk; cbn [length] in Hk.
    + cbn [nth starts_from]. rewrite D0, starts_0. auto.
    + cbn [starts_from]. change (nth (S k) (h :: hops) hop0) with (nth k hops hop0). change (nth (S k) (d :: ds) []) with (nth k ds []). change (nth (S (S k)) (d :: ds) []) with (nth (S k) ds []).
      change (nth (S k) (s :: starts_from (s + consumed h) hops) 0%nat) with (nth k (starts_from (s + consumed h) hops) 0%nat). change (nth (S (S k)) (s :: starts_from (s + consumed h) hops) 0%nat) with (nth (S k) (starts_from (s + consumed h) hops) 0%nat). apply C. lia.
Qed.
Lemma refers_pos key s h d : refers key s h d -> (1 <= consumed h)%nat.
Proof. unfold refers, consumed. destruct (h_frag h) as [f|]; [|lia]. intros [H _]. destruct f; [contradiction|cbn; lia]. Qed.
Lemma chain_mono hash key hops starts ds k : chain hash key hops starts ds -> (k <= length hops)%nat -> forall j, (j <= k)%nat -> (nth j starts 0 + (k - j) <= nth k starts 0)%nat.
Proof.
  intros C. induction k as [|k IH]; intros Hk j Hj; [assert (j = 0)%nat by lia; subst; lia|].
  destruct (Nat.eq_dec j (S k)) as [->|]; [lia|]. specialize (IH ltac:(lia) j ltac:(lia)). destruct (C k ltac:(lia)) as (_ & R & E). apply refers_pos in R. lia.
Qed.

Lemma nth_In_rep {B} (x b : B) n k : (k < n)%nat -> nth k (repeat x n) b = x.
Proof. intros H. apply (repeat_spec n x). apply nth_In. rewrite repeat_length. exact H. Qed.

Lemma nth_map_app {A B} (f : A -> B) (l : list A) (r : list B) k a b : (k < length l)%nat -> nth k (map f l ++ r) b = f (nth k l a).
Proof. intros H. rewrite app_nth1 by (rewrite map_length; exact H). rewrite nth_indep with (d' := f a) by (rewrite map_length; exact H). apply map_nth. Qed.
Lemma nth_map_rep {A B} (f : A -> B) (l : list A) (x : B) n k b : (length l <= k)%nat -> (k < length l + n)%nat -> nth k (map f l ++ repeat x n) b = x.
Proof. intros H1 H2. rewrite app_nth2 by (rewrite map_length; exact H1). rewrite map_length. apply nth_In_rep. lia. Qed.

Lemma head_len2 n : (n < 256)%nat -> (length (rlp_head_bytes 192 n) <= 2)%nat /\ (length (rlp_head_bytes 128 n) <= 2)%nat.
Proof.
  intros H. assert (T : forallb (fun n => Nat.leb (length (rlp_head_bytes 192 n)) 2 && Nat.leb (length (rlp_head_bytes 128 n)) 2) (seq 0 256) = true) by (vm_compute; reflexivity).
  rewrite forallb_forall in T. specialize (T n ltac:(apply in_seq; lia)). apply andb_true_iff in T. destruct T as [T1 T2]. apply Nat.leb_le in T1, T2. auto.
Qed.
Lemma leaf_len kb vb : Forall is_byte kb -> Forall is_byte vb -> (length kb <= 32)%nat -> (length vb <= 127)%nat -> (length (rlp (RList [RStr kb; RStr vb])) <= 37 + length vb)%nat.
Proof.
  intros F1 F2 L1 L2. pose proof (str_len33 kb F1 L1).
  assert (Sv : (length (rlp (RStr vb)) <= 2 + length vb)%nat).
  { assert (rlp (RStr vb) = rlp_head_bytes 128 (length vb) ++ vb \/ rlp (RStr vb) = vb) as [E|E] by (cbn [rlp]; unfold rlp_str; destruct vb as [|a [|b vb]]; auto; destruct (a <? 128); auto).
    - rewrite E, app_length. pose proof (head_len2 (length vb) ltac:(lia)). lia.
    - rewrite E. lia. }
  change (rlp (RList [RStr kb; RStr vb])) with (rlp_head_bytes 192 (length (rlp (RStr kb) ++ rlp (RStr vb) ++ [])) ++ (rlp (RStr kb) ++ rlp (RStr vb) ++ [])).
  rewrite app_nil_r, app_length. assert (L : length (rlp (RStr kb) ++ rlp (RStr vb)) = (length (rlp (RStr kb)) + length (rlp (RStr vb)))%nat) by apply app_length. pose proof (head_len2 (length (rlp (RStr kb) ++ rlp (RStr vb))) ltac:(lia)). lia.
Qed.

Section P.
Variable p : Z.
Hypothesis Hp : 2 ^ 200 < p.
Let Hp2 : 2 < p. Proof. eapply Z.lt_trans; [|exact Hp]; reflexivity. Qed.
Let Hpb : 2 ^ 70 < p. Proof. eapply Z.lt_trans; [|exact Hp]; reflexivity. Qed.
Let H70 : 2 ^ 70 = 1180591620717411303424. Proof. reflexivity. Qed.

Lemma frags_fwd orArg maxDepth starts N : (maxDepth <= 100)%nat -> (N < maxDepth)%nat -> (forall k, 0 <= nth k starts 0 <= 64) -> (forall k, (k < maxDepth - 1)%nat -> is_bit (orArg k)) ->
  (forall k, (k <= N)%nat -> nth k starts 0 < 64) -> (forall k, (k <= N)%nat -> (S k < maxDepth)%nat -> nth k starts 0 < nth (S k) starts 0 /\ (nth (S k) starts 0 = nth k starts 0 + 1 \/ orArg k = 1)) ->
  frags_valid p orArg maxDepth 64 starts (Z.of_nat (S N)) = Some 1.
Proof.
  intros HM HN Hs Ho Hr Hm. unfold frags_valid, frag_terms.
  assert (Fs : forall k, felt p (nth k starts 0)) by (intros k; specialize (Hs k); unfold felt; lia).
  set (tm := fun k => fadd p (fadd p (bit_of ((r_equal p (fadd p (nth k starts 0) 1) (nth (S k) starts 0) =? 1) || (orArg k =? 1))) (r_less_than p (nth k starts 0) (nth (S k) starts 0))) (r_less_than p (nth k starts 0) 64)).
  rewrite (omap_total _ _ _ tm).
  2:{ intros k Ik. apply in_seq in Ik. rewrite for_ok by (auto using r_equal_bit; apply Ho; lia). reflexivity. }
  cbn [obind].
  assert (B : forall a b c, is_bit a -> is_bit b -> is_bit c -> fadd p (fadd p a b) c = a + b + c). { intros a b c A1 A2 A3. unfold is_bit in *. rewrite (fadd_small p a b) by lia. apply fadd_small. lia. }
  set (last := fadd p 2 (r_less_than p (nth (maxDepth - 1) starts 0) 64)).
  assert (TB : forall k, 0 <= tm k <= 3). { intros k. unfold tm. rewrite B by (auto using bit_of_bit, r_less_than_bit). pose proof (bit_of_bit ((r_equal p (fadd p (nth k starts 0) 1) (nth (S k) starts 0) =? 1) || (orArg k =? 1))). pose proof (r_less_than_bit p (nth k starts 0) (nth (S k) starts 0)). pose proof (r_less_than_bit p (nth k starts 0) 64). unfold is_bit in *. lia. }
  assert (LB : last = 2 + r_less_than p (nth (maxDepth - 1) starts 0) 64) by (pose proof (r_less_than_bit p (nth (maxDepth - 1) starts 0) 64) as U; unfold is_bit in U; apply fadd_small; lia).
  pose proof (r_less_than_bit p (nth (maxDepth - 1) starts 0) 64) as U.
  set (row := map tm (seq 0 (maxDepth - 1)) ++ [last]). assert (Lr : length row = maxDepth) by (unfold row; rewrite app_length, map_length, seq_length; cbn [length]; lia).
  assert (Fr : Forall (fun x => 0 <= x <= 1000) row). { apply Forall_app. split; [apply Forall_forall; intros x I; apply in_map_iff in I; destruct I as (k & <- & _); specialize (TB k); lia|constructor; [unfold is_bit in U; lia|constructor]]. }
  assert (R3 : forall k, (k <= N)%nat -> nth k row 0 = 3).
  { intros k Hk. unfold row. destruct (Nat.lt_ge_cases k (maxDepth - 1)) as [L|L].
    - rewrite app_nth1 by (rewrite map_length, seq_length; lia). rewrite nth_indep with (d' := tm 0%nat) by (rewrite map_length, seq_length; lia). rewrite map_nth, seq_nth by lia. cbn [Nat.add].
      unfold tm. rewrite B by (auto using bit_of_bit, r_less_than_bit). rewrite !(r_less_than_ok p Hp2) by (auto; unfold felt; lia). destruct (Hm k Hk ltac:(lia)) as [M1 M2]. specialize (Hr k Hk).
      destruct (Z.ltb_spec (nth k starts 0) (nth (S k) starts 0)); [|lia]. destruct (Z.ltb_spec (nth k starts 0) 64); [|lia]. cbn [bit_of].
      assert (X : (r_equal p (fadd p (nth k starts 0) 1) (nth (S k) starts 0) =? 1) || (orArg k =? 1) = true). { apply orb_true_iff. destruct M2 as [M2|M2]; [left|right; apply Z.eqb_eq, M2]. specialize (Hs k). rewrite fadd_small by lia. rewrite (r_equal_ok p Hp2) by (try apply Fs; unfold felt; lia). rewrite M2, Z.eqb_refl. reflexivity. }
      rewrite X. reflexivity.
    - assert (k = maxDepth - 1)%nat by lia. subst k. rewrite app_nth2 by (rewrite map_length, seq_length; lia). rewrite map_length, seq_length, Nat.sub_diag. cbn [nth]. rewrite LB. rewrite (r_less_than_ok p Hp2) by (auto; unfold felt; lia). specialize (Hr (maxDepth - 1)%nat Hk). destruct (Z.ltb_spec (nth (maxDepth - 1) starts 0) 64); [reflexivity|lia]. }
  rewrite (fsub_small p) by lia. rewrite (r_mux1_ok p Hp2); [|unfold felt; lia|lia|rewrite run_sums_length; lia|intros x I; eapply run_sums_felt; eauto].
  destruct (Z.ltb_spec (Z.of_nat (S N) - 1) (Z.of_nat maxDepth)); [|lia]. cbn [obind]. replace (Z.to_nat (Z.of_nat (S N) - 1)) with N by lia.
  rewrite (run_sums_nth p Hp) by (first [assumption | lia]).
  assert (ZS : zsum (firstn (S N) row) = 3 * Z.of_nat (S N)).
  { assert (G : forall n, (n <= S N)%nat -> zsum (firstn n row) = 3 * Z.of_nat n). { induction n as [|n IHn]; intros Hn; [reflexivity|]. rewrite (firstn_S_snoc n row) by lia. unfold zsum in *. rewrite fold_right_app. cbn [fold_right]. rewrite R3 by lia.
      assert (SH : forall l a, fold_right Z.add a l = fold_right Z.add 0 l + a) by (clear; induction l as [|x l IH]; intros a; cbn [fold_right]; [lia|rewrite IH; lia]). rewrite SH, IHn by lia. lia. } apply G. lia. }
  rewrite ZS. rewrite (fmul_small p) by lia. rewrite (r_equal_ok p Hp2) by (unfold felt; lia). rewrite Z.add_0_l, Z.eqb_refl. reflexivity.
Qed.

Variable hash : list Z -> Z -> option (list Z).
Hypothesis Hhash : hash_ok p hash.

Section H.
Variables (maxDepth W : nat) (key : list Z) (hops : list hop) (ds : list (list Z)) (leaf : list Z * Z).
Notation N := (length hops).
Notation i := (honest maxDepth key (repeat 0 W) hops).
Notation st := (starts_from 0 hops).
Hypothesis HM : (2 <= maxDepth <= 10)%nat.
Hypothesis HN : (1 <= N < maxDepth)%nat.
Hypothesis Hkey : length key = 64%nat /\ Forall nibble key.
Hypothesis HW : (1064 <= W)%nat /\ aligned (repeat 0 W) /\ exists d, hash (repeat 0 W) 0 = Some d.
Hypothesis Hbufs : forall h, In h hops -> Forall nibble (h_buf h) /\ aligned (h_buf h) /\ (1064 <= length (h_buf h))%nat /\ felt p (h_round h).
Hypothesis Hch : chain hash key hops st ds.
Hypothesis Hend : (nth N st 0 < 64)%nat.
Hypothesis Hds : (length ds = S N).
Hypothesis Hleaf : leaf = (nth N ds [], 64) /\ length (fst leaf) = 64%nat /\ Forall nibble (fst leaf).


Lemma st_small k : (k <= N)%nat -> (nth k st 0 < 64)%nat.
Proof. intros H. pose proof (chain_mono _ _ _ _ _ N Hch ltac:(lia) k H). lia. Qed.
Lemma start_in k : (k <= N)%nat -> nth k (li_starts i) 0 = Z.of_nat (nth k st 0%nat).
Proof. intros H. cbn [honest li_starts]. apply nth_map_app. rewrite starts_len. lia. Qed.
Lemma start_out k : (N < k < maxDepth)%nat -> nth k (li_starts i) 0 = 64.
Proof. intros H. cbn [honest li_starts]. apply nth_map_rep; rewrite starts_len; lia. Qed.
Lemma start_rng k : 0 <= nth k (li_starts i) 0 <= 64.
Proof.
  destruct (Nat.le_gt_cases k N) as [L|L]; [rewrite start_in by exact L; pose proof (st_small k L); lia|].
  destruct (Nat.lt_ge_cases k maxDepth) as [L2|L2]; [rewrite start_out by lia; lia|]. rewrite nth_overflow; [lia|]. cbn [honest li_starts]. rewrite app_length, map_length, starts_len, repeat_length. lia.
Qed.
Lemma types_len : length (li_types i) = (maxDepth - 1)%nat.
Proof. cbn [honest li_types]. rewrite app_length, map_length, repeat_length. lia. Qed.
Lemma types_bit : Forall is_bit (li_types i).
Proof.
  cbn [honest li_types]. apply Forall_app. split; apply Forall_forall; intros x I.
  - apply in_map_iff in I. destruct I as (h & <- & _). unfold hop_type, is_bit. destruct (h_frag h); auto.
  - apply repeat_spec in I. subst. unfold is_bit. auto.
Qed.

(** one layer of the path *)
Lemma hop_layer k nxt : (k < N)%nat -> match nxt with Some n => good_ref n | None => True end -> ((S k < N)%nat -> nxt = Some (nth (S k) ds [], 64)) ->
  exists r, layer_check p hash 64 (sub_ p i) i leaf k nxt = Some (r, (nth k ds [], 64)) /\ (if nth k (li_types i) 0 =? 1 then fst r else snd r) = 4.
Proof.
  intros Hk Hn Hn2. destruct Hleaf as (El & L1 & L2). destruct (Hch k Hk) as (Ch1 & Ch2 & Ch3). set (h := nth k hops hop0) in *.
  assert (Ih : In h hops) by (apply nth_In; exact Hk). destruct (Hbufs h Ih) as (B1 & B2 & B3 & B4).
  assert (Ex : expected i leaf k nxt = (nth (S k) ds [], 64)).
  { unfold expected. cbn [honest li_depth]. destruct (Z.eqb_spec (Z.of_nat (S N)) (Z.of_nat k + 2)) as [Q|Q]; [rewrite El; repeat f_equal; lia|]. rewrite Hn2 by lia. reflexivity. }
  assert (Eb : buf_ i k = h_buf h) by (unfold buf_; cbn [honest li_nodes]; apply nth_map_app; exact Hk).
  assert (Er : nth k (li_rounds i) 0 = h_round h) by (cbn [honest li_rounds]; apply nth_map_app; exact Hk).
  assert (Ep : nth k (li_prefs i) 0 = hop_pref h) by (cbn [honest li_prefs]; apply nth_map_app; exact Hk).
  assert (Et : nth k (li_types i) 0 = hop_type h) by (cbn [honest li_types]; apply nth_map_app; exact Hk).
  assert (E0 : s0_ i k = Z.of_nat (nth k st 0%nat)) by (apply start_in; lia). assert (E1 : s1_ i k = Z.of_nat (nth (S k) st 0%nat)) by (apply start_in; lia).
  pose proof (st_small k ltac:(lia)) as S0. pose proof (st_small (S k) ltac:(lia)) as S1.
  assert (Hs : 0 <= s0_ i k <= s1_ i k /\ s1_ i k <= 64) by (rewrite E0, E1; lia). assert (Hs0 : Z.of_nat k < li_depth i -> s0_ i k < 64) by (intros _; rewrite E0; lia).
  assert (Hb : Forall nibble (buf_ i k) /\ (1064 <= length (buf_ i k))%nat) by (rewrite Eb; auto).
  assert (Hd : 0 <= li_depth i < 1000) by (cbn [honest li_depth]; lia). assert (Hl : length (fst leaf) = 64%nat /\ Forall nibble (fst leaf) /\ 0 <= snd leaf <= 64) by (rewrite El in *; cbn [fst snd] in *; split; [exact L1|split; [exact L2|lia]]).
  unfold refers in Ch2. destruct (h_frag h) as [f|] eqn:Ef.
  - destruct Ch2 as (Fne & Fk & kb & vb & rest & K1 & K2 & K3 & K4 & K5).
    destruct (layer_ext p Hp hash key i leaf Hkey eq_refl Hl Hd k nxt ltac:(lia) Hn Hs Hs0 Hb (nth k ds []) f kb vb rest) as (b & LE); auto.
    + rewrite Et. unfold hop_type. rewrite Ef. reflexivity.
    + rewrite Ep. unfold hop_pref. rewrite Ef. reflexivity.
    + rewrite Eb, Er. exact Ch1.
    + rewrite Ex. reflexivity.
    + rewrite E0, E1, Ch3. unfold consumed. rewrite Ef. lia.
    + rewrite E1. lia.
    + rewrite E0, Nat2Z.id. exact Fk.
    + rewrite Eb. exact K3.
    + rewrite Ex. exact K5.
    + exists (4, b). split; [exact LE|]. rewrite Et. unfold hop_type. rewrite Ef. reflexivity.
  - destruct Ch2 as (cs & rest & K1 & K2 & K3 & K4).
    destruct (layer_branch p Hp hash key i leaf Hkey eq_refl Hl Hd k nxt ltac:(lia) Hn Hs Hs0 Hb (nth k ds []) cs rest) as (e & LE); auto.
    + rewrite Et. unfold hop_type. rewrite Ef. reflexivity.
    + rewrite Ep. unfold hop_pref. rewrite Ef. reflexivity.
    + cbn [honest li_depth]. lia.
    + rewrite Eb, Er. exact Ch1.
    + rewrite Ex. reflexivity.
    + apply Forall_forall. exact K2.
    + rewrite Eb. exact K3.
    + rewrite Ex, E0, Nat2Z.id. exact K4.
    + exists (e, 4). split; [exact LE|]. rewrite Et. unfold hop_type. rewrite Ef. reflexivity.
Qed.

(** an unused layer *)
Lemma pad_layer k nxt : (N <= k < maxDepth - 1)%nat -> match nxt with Some n => good_ref n | None => True end ->
  exists r h, layer_check p hash 64 (sub_ p i) i leaf k nxt = Some (r, h) /\ good_ref h.
Proof.
  intros Hk Hn. destruct Hleaf as (El & L1 & L2). destruct HW as (W1 & W2 & d & Ed).
  assert (Eb : buf_ i k = repeat 0 W) by (unfold buf_; cbn [honest li_nodes]; apply nth_map_rep; lia).
  assert (Er : nth k (li_rounds i) 0 = 0) by (cbn [honest li_rounds]; apply nth_map_rep; lia).
  assert (Ep : nth k (li_prefs i) 0 = 0) by (cbn [honest li_prefs]; apply nth_map_rep; lia).
  assert (Et : nth k (li_types i) 0 = 1) by (cbn [honest li_types]; apply nth_map_rep; lia).
  assert (E1 : s1_ i k = 64) by (apply start_out; lia). pose proof (start_rng k) as R0. fold (s0_ i k) in R0.
  assert (Hs : 0 <= s0_ i k <= s1_ i k /\ s1_ i k <= 64) by (rewrite E1; lia).
  assert (Hs0 : Z.of_nat k < li_depth i -> s0_ i k < 64) by (cbn [honest li_depth]; intros Q; assert (k = N) by lia; unfold s0_; rewrite start_in by lia; pose proof (st_small k ltac:(lia)); lia).
  assert (Hb : Forall nibble (buf_ i k) /\ (1064 <= length (buf_ i k))%nat) by (rewrite Eb, repeat_length; split; [apply nib0|exact W1]).
  assert (Hd : 0 <= li_depth i < 1000) by (cbn [honest li_depth]; lia). assert (Hl : length (fst leaf) = 64%nat /\ Forall nibble (fst leaf) /\ 0 <= snd leaf <= 64) by (rewrite El in *; cbn [fst snd] in *; split; [exact L1|split; [exact L2|lia]]).
  destruct (layer_pad p Hp hash key i leaf Hkey eq_refl Hl Hd k nxt ltac:(lia) Hn Hs Hs0 Hb d Et Ep) as (r & LE); [exists W; exact Eb|rewrite Eb, Er; exact Ed|].
  exists r, (d, 2). split; [exact LE|]. destruct (Hhash (repeat 0 W) 0 d (felt0 p Hp W) W2 ltac:(unfold felt; lia) Ed) as (_ & G1 & G2). split; [exact G1|]. split; [exact G2|cbn; lia].
Qed.

Lemma digest_good k : (k < N)%nat -> good_ref (nth k ds [], 64).
Proof.
  intros Hk. destruct (Hch k Hk) as (C1 & _). destruct (Hbufs (nth k hops hop0) ltac:(apply nth_In; exact Hk)) as (B1 & B2 & _ & B4).
  destruct (Hhash _ _ _ ltac:(apply Forall_nibble_felt; [lia|exact B1]) B2 B4 C1) as (_ & G1 & G2). split; [exact G1|]. split; [exact G2|cbn; lia].
Qed.

Lemma loop_fwd n : forall layer, (layer + n = maxDepth - 1)%nat -> exists rs h0, layers_loop p hash 64 (sub_ p i) i leaf n layer = Some (rs, h0) /\ length rs = n /\
  match h0 with Some h => good_ref h | None => True end /\ ((layer < N)%nat -> h0 = Some (nth layer ds [], 64)) /\
  (forall j, (j < n)%nat -> (layer + j < N)%nat -> (if nth (layer + j) (li_types i) 0 =? 1 then fst (nth j rs (0, 0)) else snd (nth j rs (0, 0))) = 4).
Proof.
  induction n as [|n IH]; intros layer HL; cbn [layers_loop].
  - exists [], None. split; [reflexivity|]. split; [reflexivity|]. split; [exact I|]. split; [lia|]. intros; lia.
  - destruct (IH (S layer) ltac:(lia)) as (rs & nxt & E & L & G & F & S4). rewrite E. cbn [obind].
    destruct (Nat.lt_ge_cases layer N) as [Q|Q].
    + destruct (hop_layer layer nxt Q G F) as (r & E2 & S0). rewrite E2. cbn [obind]. exists (r :: rs), (Some (nth layer ds [], 64)). split; [reflexivity|]. split; [cbn; lia|]. split; [apply digest_good, Q|]. split; [reflexivity|].
      intros [|j] Hj Hjn; [rewrite Nat.add_0_r in *; exact S0|]. cbn [nth]. replace (layer + S j)%nat with (S layer + j)%nat by lia. apply S4; lia.
    + destruct (pad_layer layer nxt ltac:(lia) G) as (r & h & E2 & Gh). rewrite E2. cbn [obind]. exists (r :: rs), (Some h). split; [reflexivity|]. split; [cbn; lia|]. split; [exact Gh|]. split; [lia|]. intros; lia.
Qed.
End H.

Lemma zsum_const (f : nat -> Z) c n : (forall j, (j < n)%nat -> f j = c) -> zsum (map f (seq 0 n)) = c * Z.of_nat n.
Proof.
  intros H. assert (G : forall m a, (forall j, (a <= j < a + m)%nat -> f j = c) -> zsum (map f (seq a m)) = c * Z.of_nat m).
  { induction m as [|m IH]; intros a Ha; [cbn; lia|]. cbn [seq map]. unfold zsum in *. cbn [fold_right]. rewrite (Ha a) by lia. rewrite IH by (intros; apply Ha; lia). lia. }
  apply G. intros; apply H; lia.
Qed.

Lemma mpt_complete_gen (st : bool) maxDepth W key hops root buf r maxValue value ds pref o t vl :
  check_leaf p 64 maxValue (Z.of_nat (64 - digits_used hops)) (rotl (digits_used hops) key) value buf pref = Some (o, t, vl) ->
  (if st then storage_override p 64 key buf (rotl (digits_used hops) key) (Z.of_nat (64 - digits_used hops)) pref (Z.of_nat (S (length hops))) o else Some o) = Some 4 ->
  (maxDepth <= 10)%nat -> (1 <= length hops < maxDepth)%nat -> length key = 64%nat -> Forall nibble key ->
  (1064 <= W)%nat -> aligned (repeat 0 W) -> (exists d, hash (repeat 0 W) 0 = Some d) ->
  (forall h, In h hops -> Forall nibble (h_buf h) /\ aligned (h_buf h) /\ (1064 <= length (h_buf h))%nat /\ felt p (h_round h)) ->
  length ds = S (length hops) -> nth 0 ds [] = root -> chain hash key hops (starts_from 0 hops) ds -> (digits_used hops < length key)%nat -> hash buf r = Some (nth (length hops) ds []) ->
  Forall nibble buf -> aligned buf -> (64 <= length buf)%nat -> Z.of_nat (length buf) < 2 ^ 60 -> felt p r ->
  check_mpt_fixed p hash maxDepth 64 maxValue value root buf r pref (honest maxDepth key (repeat 0 W) hops) st = Some (1, vl).
Proof.
  intros LC Hst HM HN Lk Nk W1 W2 W3 Hb D1 D2 Ch U Eh Nb Ab L64 Lb Fr.
  set (N := length hops) in *. set (i := honest maxDepth key (repeat 0 W) hops).
  assert (Hend : (nth N (starts_from 0 hops) 0 < 64)%nat) by (unfold N; rewrite starts_last; lia).
  destruct (Hhash buf r (nth N ds []) ltac:(apply Forall_nibble_felt; [lia|exact Nb]) Ab Fr Eh) as (_ & G1 & G2).
  set (leaf := (nth N ds [], 64)).
  assert (HM' : (2 <= maxDepth <= 10)%nat) by lia. assert (HK := conj Lk Nk). assert (HWW := conj W1 (conj W2 W3)). assert (HL : leaf = (nth N ds [], 64) /\ length (fst leaf) = 64%nat /\ Forall nibble (fst leaf)) by (split; [reflexivity|split; assumption]).
  pose proof (start_rng maxDepth W key hops ds leaf HM' HN HK HWW Ch Hend D1 HL) as RNG. pose proof (st_small maxDepth W key hops ds leaf HM' HN HK HWW Ch Hend D1 HL) as SSM.
  pose proof (start_in maxDepth W key hops ds leaf HM' HN HK HWW Hend D1 HL) as SI. pose proof (start_out maxDepth W key hops ds leaf HM' HN HK HWW Hend D1 HL) as SO. pose proof (types_len maxDepth W key hops ds leaf HM' HN HK HWW Hend D1 HL) as TL. pose proof (types_bit maxDepth W key hops) as TB.
  destruct (loop_fwd maxDepth W key hops ds leaf HM' HN HK HWW Hb Ch Hend D1 HL (maxDepth - 1) 0%nat ltac:(lia)) as (rs & h0 & EL & Lrs & _ & H0 & S4). fold i in EL, S4, RNG, SI, SO, TL, TB. fold N in SI, SO, SSM.
  specialize (H0 ltac:(fold N; lia)). subst h0. rewrite D2 in EL.
  assert (Dep : li_depth i = Z.of_nat (S N)) by reflexivity.
  assert (Key : li_key i = key) by reflexivity.
  unfold check_mpt_fixed. unfold assert_le. rewrite !Z.mod_small by lia. destruct (Z.leb_spec (Z.of_nat maxDepth) 10); [|lia]. cbn [guard obind].
  assert (Sz : sizes_ok maxDepth i = true).
  { unfold sizes_ok, i. cbn [honest li_starts li_nodes li_rounds li_prefs li_types]. rewrite !app_length, !map_length, !repeat_length, starts_len. fold N. rewrite !andb_true_iff. repeat split; apply Nat.leb_le; lia. }
  rewrite Sz. cbn [guard obind]. rewrite Dep.
  assert (FV : frags_valid p (fun k => nth k (li_types i) 0) maxDepth (Z.of_nat 64) (li_starts i) (Z.of_nat (S N)) = Some 1).
  { change (Z.of_nat 64) with 64. apply frags_fwd; [lia|lia|exact RNG|..].
    - intros k Hk. rewrite Forall_forall in TB. apply TB, nth_In. rewrite TL. exact Hk.
    - intros k Hk. rewrite SI by exact Hk. pose proof (SSM k Hk). lia.
    - intros k Hk Hk2. rewrite SI by exact Hk. pose proof (SSM k Hk) as SS. destruct (Nat.eq_dec k N) as [->|Ne].
      + rewrite SO by lia. split; [lia|]. right. unfold i. cbn [honest li_types]. apply nth_map_rep; fold N; lia.
      + rewrite SI by lia. destruct (Ch k ltac:(fold N; lia)) as (_ & R & E). pose proof (refers_pos _ _ _ _ R). rewrite E. split; [lia|]. unfold i.
        cbn [honest li_types]. rewrite (nth_map_app hop_type hops _ k hop0) by (fold N; lia). unfold hop_type, consumed. destruct (h_frag (nth k hops hop0)); [right; reflexivity|left; lia]. }
  rewrite FV. cbn [obind].
  assert (Fst : forall x, In x (li_starts i) -> felt p x).
  { intros x I. apply In_nth with (d := 0) in I. destruct I as (k & _ & <-). pose proof (RNG k). unfold felt. lia. }
  assert (Lst : length (li_starts i) = maxDepth) by (unfold i; cbn [honest li_starts]; rewrite app_length, map_length, repeat_length, starts_len; fold N; lia).
  assert (SN : nth N (li_starts i) 0 = Z.of_nat (digits_used hops)) by (rewrite SI by lia; unfold N; rewrite starts_last; reflexivity).
  rewrite (fsub_small p) by lia. replace (Z.of_nat (S N) - 1) with (Z.of_nat N) by lia.
  rewrite (firstn_all2 (li_starts i)) by lia. rewrite (r_mux1_ok p Hp2); [|unfold felt; lia|lia|lia|exact Fst].
  destruct (Z.ltb_spec (Z.of_nat N) (Z.of_nat maxDepth)); [|lia]. cbn [obind]. rewrite Nat2Z.id, SN.
  rewrite Key. destruct (Nat.leb_spec 64 (length key)); [|lia]. cbn [guard obind].
  set (dg := digits_used hops) in *.
  assert (HLF : length (fst leaf) = 64%nat /\ Forall nibble (fst leaf) /\ 0 <= snd leaf <= 64) by (split; [exact G1|split; [exact G2|cbn [leaf snd]; lia]]).
  assert (SF := sub_fwd p Hp hash key i leaf HK eq_refl HLF (Z.of_nat dg) (Z.of_nat 64) ltac:(lia) ltac:(lia)). unfold sub_ in SF. rewrite Key in SF. rewrite SF. cbn [obind]. rewrite Nat2Z.id.
  destruct (rot_fwd p Hp hash key leaf HK HLF dg) as [Q1 Q2].
  replace (Z.of_nat 64 - Z.of_nat dg) with (Z.of_nat (64 - dg)) by lia. rewrite LC. cbn [obind].
  rewrite Hst. cbn [obind].
  rewrite (keccak_fwd p Hp hash (Z.of_nat (length buf)) buf r (nth N ds [])) by (auto; change (2 ^ 66) with 73786976294838206464; change (2 ^ 60) with 1152921504606846976 in Lb; lia). cbn [obind]. fold leaf.
  unfold sub_ in EL. rewrite Key in EL. rewrite EL. cbn [obind fst].
  assert (GR : good_ref (root, 64)) by (rewrite <- D2; apply (digest_good maxDepth W key hops ds leaf HM' HN HK HWW Hb Ch Hend D1 HL 0); fold N; lia). destruct GR as (R1 & R2 & _). cbn [fst] in R1, R2.
  assert (FR : forall x, In x root -> felt p x) by (apply Forall_nibble_felt; [lia|exact R2]).
  rewrite (r_array_equal_ok p Hp2) by (first [exact FR | unfold felt; lia | lia]). change (64 <=? Z.of_nat 64) with true. cbv iota. rewrite prefix_eqb_true by reflexivity. cbn [obind bit_of].
  assert (BS : fadd p (fadd p 1 4) 1 = 6) by (rewrite (fadd_small p 1 4) by lia; apply fadd_small; lia). rewrite BS.
  assert (FR6 : Forall (fun r => 0 <= fst r <= 4 /\ 0 <= snd r <= 4) rs).
  { assert (B0 : forall l, In l (li_nodes i) -> Forall nibble l /\ aligned l).
    { intros l I. unfold i in I. cbn [honest li_nodes] in I. apply in_app_or in I. destruct I as [I|I]; [apply in_map_iff in I; destruct I as (h & <- & I); split; apply (Hb h I)|apply repeat_spec in I; subst l; split; [apply nib0|exact W2]]. }
    assert (B1 : forall l x, In l (li_nodes i) -> In x l -> felt p x) by (intros l x I; apply Forall_nibble_felt; [lia|apply (B0 l I)]).
    assert (B2 : forall x, In x (li_rounds i) -> felt p x).
    { intros x I. unfold i in I. cbn [honest li_rounds] in I. apply in_app_or in I. destruct I as [I|I]; [apply in_map_iff in I; destruct I as (h & <- & I); apply (Hb h I)|apply repeat_spec in I; rewrite I; unfold felt; lia]. }
    assert (B3 : forall x, In x (li_prefs i) -> felt p x).
    { intros x I. unfold i in I. cbn [honest li_prefs] in I. apply in_app_or in I. destruct I as [I|I]; [apply in_map_iff in I; destruct I as (h & <- & I); unfold hop_pref, felt; destruct (h_frag h) as [f|]; [destruct (Nat.even _)|]; lia|apply repeat_spec in I; rewrite I; unfold felt; lia]. }
    assert (B4 : forall s0 s1 sel l, felt p s0 -> felt p s1 -> r_sub_array p 64 64 7 (firstn 64 key) s0 s1 = Some (sel, l) -> s0 <= s1 <= Z.of_nat 64 /\ length sel = 64%nat /\ (forall x, In x sel -> felt p x) /\ firstn (Z.to_nat (s1 - s0)) sel = slice s0 s1 (li_key i)).
    { intros s0 s1 sel l F0 F1 E. destruct (sub64_ok p Hp key s0 s1 sel l (Forall_nibble_felt p ltac:(lia) key Nk) ltac:(lia) F0 F1 E) as (T1 & T2 & T3 & T4 & _). auto. }
    assert (LOK := layers_loop_ok p Hp hash Hhash 64 _ i leaf ltac:(lia) (Forall_nibble_felt p ltac:(lia) key Nk) Fst B1 (fun l I => proj2 (B0 l I)) B2 B3 ltac:(unfold felt; rewrite Dep; lia) B4 HLF (maxDepth - 1) 0%nat rs (Some (root, 64))).
    destruct LOK as (hs & _ & _ & _ & _ & LOK); [intros k Hk; rewrite Forall_forall in TB; apply TB, nth_In; rewrite TL; lia|lia|exact EL|].
    apply Forall_forall. intros x I. apply In_nth with (d := (0, 0)) in I. destruct I as (j & Hj & <-). specialize (LOK j ltac:(lia)). destruct (nth j rs (0, 0)) as [e b]. unfold layer_fact in LOK. cbn [fst snd]. tauto. }
  assert (FLS : forall x, In x (6 :: layer_sums p 6 (li_types i) rs) -> felt p x).
  { intros x [<-|Hx]; [unfold felt; lia|]. revert Hx. generalize 6. generalize (li_types i). clear - Hp2. induction rs as [|[e b] rs' IH]; intros ts acc Hx; destruct ts; cbn in Hx; try easy.
    destruct Hx as [<-|Hx]; [apply felt_fadd; lia|eapply IH; eauto]. }
  assert (LLS : forall ts rs acc, length (layer_sums p acc ts rs) = Nat.min (length ts) (length rs)) by (clear; induction ts as [|t ts IH]; intros [|[e b] rs] acc; cbn; auto).
  rewrite (r_mux1_ok p Hp2); [|unfold felt; lia|lia|cbn [length]; rewrite LLS, TL, Lrs; lia|exact FLS].
  destruct (Z.ltb_spec (Z.of_nat N) (Z.of_nat maxDepth)); [|lia]. cbn [obind]. rewrite Nat2Z.id.
  rewrite (layer_sums_ok p Hp) by (first [assumption | lia]). rewrite (zsum_const _ 4 N) by (intros j Hj; specialize (S4 j ltac:(lia)); cbn [Nat.add] in S4; apply S4; exact Hj).
  rewrite (fmul_small p) by lia. rewrite fadd_small by lia. rewrite (r_equal_ok p Hp2) by (unfold felt; lia).
  replace (6 + 4 * Z.of_nat N =? Z.of_nat (S N) * 4 + 2) with true by (symmetry; apply Z.eqb_eq; lia). reflexivity.
Qed.
Theorem mpt_complete_st st maxDepth W key hops root buf r v maxValue value :
  (st = true -> storage_override p 64 key buf (rotl (digits_used hops) key) (Z.of_nat (64 - digits_used hops)) (leaf_flag key hops) (Z.of_nat (S (length hops))) 4 = Some 4) ->
  (maxDepth <= 10)%nat -> (1 <= length hops < maxDepth)%nat -> length key = 64%nat -> Forall nibble key ->
  (1064 <= W)%nat -> aligned (repeat 0 W) -> (exists d, hash (repeat 0 W) 0 = Some d) ->
  (forall h, In h hops -> Forall nibble (h_buf h) /\ aligned (h_buf h) /\ (1064 <= length (h_buf h))%nat /\ felt p (h_round h)) ->
  trie_path (fun b r d => hash b r = Some d) key 0 root hops buf r v ->
  Forall nibble buf -> aligned buf -> Z.of_nat (length buf) < 2 ^ 60 -> felt p r ->
  (66 <= maxValue <= 255)%nat -> (74 + maxValue <= length buf)%nat -> length value = maxValue -> (forall x, In x value -> felt p x) ->
  Forall is_byte v -> (2 * length v <= maxValue)%nat -> (length v < 56 \/ 128 <= maxValue)%nat -> firstn (2 * length v) value = nib v ->
  check_mpt_fixed p hash maxDepth 64 maxValue value root buf r (leaf_flag key hops) (honest maxDepth key (repeat 0 W) hops) st = Some (1, Z.of_nat (2 * length v)).
Proof.
  intros Hst HM HN Lk Nk W1 W2 W3 Hb Ht Nb Ab Lb Fr Hm Lw Lval Fval Fv V1 V2 V3.
  destruct (path_chain _ _ _ _ _ _ _ _ Ht) as (ds & kb & rest & D1 & D2 & Ch & U & Eh & Fk & Eb & Ek). rewrite Nat.add_0_l in *.
  set (N := length hops) in *. set (dg := digits_used hops) in *.
  destruct (Hhash buf r (nth N ds []) ltac:(apply Forall_nibble_felt; [lia|exact Nb]) Ab Fr Eh) as (_ & G1 & G2).
  assert (HLF : length (fst (nth N ds [], 64)) = 64%nat /\ Forall nibble (fst (nth N ds [], 64)) /\ 0 <= snd (nth N ds [], 64) <= 64) by (split; [exact G1|split; [exact G2|cbn [snd]; lia]]).
  destruct (rot_fwd p Hp hash key _ (conj Lk Nk) HLF dg) as [Q1 Q2].
  assert (LC := leaf_complete p Hp maxValue (rotl dg key) value buf kb v (skipn dg key) rest Hm Q1 Q2 Lval Fval Nb Lw Eb Fk Fv Ek ltac:(rewrite skipn_length; lia)).
  rewrite skipn_length, Lk, firstn_rotl_prefix in LC by lia. rewrite firstn_all2 in LC by (rewrite skipn_length; lia). assert (V4 : (2 * length (rlp (RList [RStr kb; RStr v])) <= 74 + maxValue)%nat).
  { assert (DG1 : (1 <= dg)%nat) by (pose proof (chain_mono _ _ _ _ _ N Ch ltac:(fold N; lia) 0%nat ltac:(lia)) as M; unfold N in M at 2; rewrite starts_last in M; fold dg in M; lia).
    assert (Lkb : (length kb <= 32)%nat) by (assert (X := hex_prefix_len 1 (skipn dg key)); rewrite <- Ek, nib_length in X; unfold flag_len in X; rewrite skipn_length in X; destruct (Nat.even (length key - dg)) eqn:Ev; [apply Nat.even_spec in Ev; destruct Ev as [m Ev]; lia|lia]).
    pose proof (leaf_len kb v Fk Fv Lkb ltac:(lia)). lia. }
  specialize (LC eq_refl V1 V2 V3 V4).
  assert (FL : flag_len (skipn dg key) = leaf_flag key hops) by (unfold flag_len, leaf_flag; rewrite skipn_length; reflexivity). rewrite FL in LC.
  replace (64 - Z.of_nat dg) with (Z.of_nat (64 - dg)) in LC by lia.
  apply (mpt_complete_gen st maxDepth W key hops root buf r maxValue value ds (leaf_flag key hops) 4 _ _ LC); try assumption; try lia.
  destruct st; [apply Hst; reflexivity|reflexivity].
Qed.
Theorem mpt_complete maxDepth W key hops root buf r v maxValue value :
  (maxDepth <= 10)%nat -> (1 <= length hops < maxDepth)%nat -> length key = 64%nat -> Forall nibble key ->
  (1064 <= W)%nat -> aligned (repeat 0 W) -> (exists d, hash (repeat 0 W) 0 = Some d) ->
  (forall h, In h hops -> Forall nibble (h_buf h) /\ aligned (h_buf h) /\ (1064 <= length (h_buf h))%nat /\ felt p (h_round h)) ->
  trie_path (fun b r d => hash b r = Some d) key 0 root hops buf r v ->
  Forall nibble buf -> aligned buf -> Z.of_nat (length buf) < 2 ^ 60 -> felt p r ->
  (66 <= maxValue <= 255)%nat -> (74 + maxValue <= length buf)%nat -> length value = maxValue -> (forall x, In x value -> felt p x) ->
  Forall is_byte v -> (2 * length v <= maxValue)%nat -> (length v < 56 \/ 128 <= maxValue)%nat -> firstn (2 * length v) value = nib v ->
  check_mpt_fixed p hash maxDepth 64 maxValue value root buf r (leaf_flag key hops) (honest maxDepth key (repeat 0 W) hops) false = Some (1, Z.of_nat (2 * length v)).
Proof. apply mpt_complete_st. discriminate. Qed.
End P.
