(** * MptPathSound.v — CheckMPTInclusionFixedKeyLength: Output = 1 only for a connected trie path *)
From Coq Require Import ZArith List Lia Bool Arith.
From Verif Require Import ModNorm Field FieldLemmas RlpUtilModel RlpUtilProofs RlpModel RlpSpec RlpPrefixProofs RlpArrayProofs RlpArraySound MptModel MptSpec MptProofs MptPathProofs.
Import ListNotations.
Open Scope Z_scope.
Open Scope circ_scope.

Ltac Zify.zify_post_hook ::= Z.div_mod_to_equations.

(** The assignment consists of canonical field elements. *)
Definition felts (p : Z) (l : list Z) : Prop := forall x, In x l -> felt p x.
Definition layers_felts (p : Z) (i : layers_in) : Prop :=
  felts p (li_key i) /\ felts p (li_starts i) /\ (forall l, In l (li_nodes i) -> felts p l) /\ felts p (li_prefs i) /\
  (forall l, In l (li_nodes i) -> aligned l) /\ felts p (li_rounds i) /\ felts p (li_types i) /\ felt p (li_depth i).

Section P.
Variable p : Z.
Hypothesis Hp : 2 ^ 200 < p.
Let Hp' : 1606938044258990275541962092341162602522202993782792835301376 < p := Hp.
Let Hp2 : 2 < p. Proof. zlia. Qed.
Variable hash : list Z -> Z -> option (list Z).
Hypothesis Hhash : hash_ok p hash.

Definition hashed (buf d : list Z) : Prop := exists r, felt p r /\ hash buf r = Some d.

Lemma field_bits_200 : (200 <= field_bits p)%nat.
Proof.
  unfold field_bits. assert (200 <= Z.log2 p). { apply Z.log2_le_pow2; zlia. } lia.
Qed.

Lemma slice_rotl : forall (key : list Z) s n, length key = 64%nat -> 0 <= s -> s + Z.of_nat n <= 64 ->
  firstn n (firstn 64 (rotl (Z.to_nat s) key)) = slice s (s + Z.of_nat n) key.
Proof.
  intros key s n L H1 H2. rewrite firstn_firstn, Nat.min_l by lia. rewrite firstn_rotl_prefix by lia. unfold slice.
  f_equal. lia.
Qed.

Lemma slice_firstn64 : forall key a b, 0 <= a -> b <= 64 -> slice a b (firstn 64 key) = slice a b key.
Proof.
  intros key a b H1 H2. unfold slice. rewrite skipn_firstn_comm, firstn_firstn. f_equal. lia.
Qed.

Lemma sub64_ok : forall key s0 s1 sel l, felts p key -> (64 <= length key)%nat -> felt p s0 -> felt p s1 ->
  r_sub_array p 64 64 7 (firstn 64 key) s0 s1 = Some (sel, l) ->
  s0 <= s1 <= 64 /\ length sel = 64%nat /\ felts p sel /\ firstn (Z.to_nat (s1 - s0)) sel = slice s0 s1 key /\ l = s1 - s0.
Proof.
  intros key s0 s1 sel l Fk Lk F0 F1 H.
  assert (L64 : length (firstn 64 key) = 64%nat) by (rewrite firstn_length; lia).
  assert (Fk' : forall x, In x (firstn 64 key) -> felt p x).
  { intros x Hx. apply Fk. rewrite <- (firstn_skipn 64 key). apply in_or_app; auto. }
  pose proof field_bits_200.
  rewrite r_sub_array_ok in H; auto; try lia; try zlia.
  destruct (Z.leb_spec s0 s1); cbn [andb] in H; [|discriminate].
  destruct (Z.leb_spec s1 (Z.of_nat 64)); cbn [andb] in H; [|discriminate].
  destruct (Z.leb_spec (s1 - s0) (Z.of_nat 64)); cbn [andb] in H; [|discriminate].
  assert (sel = firstn 64 (rotl (Z.to_nat s0) (firstn 64 (firstn 64 key))) /\ l = s1 - s0) as [-> ->] by (split; congruence).
  rewrite (firstn_firstn key). change (Nat.min 64 64) with 64%nat. unfold felt in F0.
  split; [lia|]. split; [rewrite firstn_length, rotl_length, L64; reflexivity|]. split.
  { intros x Hx. apply (rotl_felt p (Z.to_nat s0) (firstn 64 key)); auto.
    rewrite <- (firstn_skipn 64 (rotl _ _)). apply in_or_app; auto. }
  split; auto.
  replace (Z.to_nat (s1 - s0)) with (Z.to_nat (Z.of_nat (Z.to_nat (s1 - s0)))) by lia. rewrite Nat2Z.id.
  rewrite slice_rotl by (auto; lia). rewrite slice_firstn64 by lia. f_equal. lia.
Qed.

Section W.
Variables (i : layers_in) (leaf : list Z * Z) (lastRlp : list Z) (lastRound : Z) (hs : list (list Z * Z)) (rs : list (Z * Z)).
Variable last_ok : Z -> list Z -> Prop.
Variables (maxDepth : nat).
Let D : nat := Z.to_nat (li_depth i).
Hypothesis HD : (2 <= D <= maxDepth)%nat.
Hypothesis Hleafr : felt p lastRound.
Hypothesis Hleafh : hash lastRlp lastRound = Some (fst leaf).
Hypothesis Hleafl : snd leaf = if Z.of_nat (length lastRlp) <? 63 then Z.of_nat (length lastRlp) else 64.
Hypothesis Hlast : last_ok (start i (D - 1)) lastRlp.
Hypothesis Hnodes : (maxDepth - 1 <= length (li_nodes i))%nat.
Hypothesis Lh : length hs = (maxDepth - 1)%nat.
Hypothesis Hfacts : forall k, (k < maxDepth - 1)%nat ->
  layer_fact p hash 64 i leaf k (nth_error hs (S k)) (nth k rs (0, 0)) (nth k hs ([], 0)).
Hypothesis Hty : forall k, (k < maxDepth - 1)%nat -> is_bit (nodetype i k).
Hypothesis Hmax : forall k, (k < D - 1)%nat -> (if nodetype i k =? 1 then fst (nth k rs (0, 0)) else snd (nth k rs (0, 0))) = 4.
Hypothesis Hmono : forall k, (k < D - 1)%nat -> start i k < start i (S k) /\ (nodetype i k = 0 -> start i (S k) = start i k + 1).

Definition refk (k : nat) : list Z * Z := if Nat.eqb k (D - 1) then leaf else nth k hs ([], 0).

Lemma walk_from : forall n k, (k + n = D - 1)%nat -> exists t,
  walk hashed (li_key i) last_ok (start i k) (fst (refk k)) t (firstn n (skipn k (li_nodes i)) ++ [lastRlp]) /\
  snd (refk k) = if t <? 63 then t else 64.
Proof.
  induction n as [|n IH]; intros k Hk.
  - assert (k = D - 1)%nat by lia. subst k. exists (Z.of_nat (length lastRlp)). unfold refk. rewrite Nat.eqb_refl. cbn [firstn app].
    split; [|auto]. apply walk_last; [exists lastRound; auto|auto].
  - destruct (IH (S k)) as (t' & W & Et'); [lia|].
    assert (Hk1 : (k < maxDepth - 1)%nat) by lia.
    pose proof (Hfacts k Hk1) as F. pose proof (Hmax k ltac:(lia)) as M. pose proof (Hmono k ltac:(lia)) as [Mo1 Mo2].
    pose proof (Hty k Hk1) as T. destruct (nth k rs (0, 0)) as [e b]. cbn [fst snd] in M.
    destruct F as (_ & _ & t & Bt & Hr & Hh & Hs & Hl & S1 & S2 & Fb & Fe).
    assert (Er : refk k = nth k hs ([], 0)). { unfold refk. destruct (Nat.eqb_spec k (D - 1)); [lia|auto]. }
    assert (Ex : ref_digits (expected i leaf k (nth_error hs (S k))) = ref_of t' (fst (refk (S k)))).
    { assert (expected i leaf k (nth_error hs (S k)) = refk (S k)) as ->.
      { unfold expected, refk. destruct (Nat.eqb_spec (S k) (D - 1)) as [E|E].
        - replace (li_depth i =? Z.of_nat k + 2) with true; [auto|]. symmetry. apply Z.eqb_eq. unfold D in *. lia.
        - replace (li_depth i =? Z.of_nat k + 2) with false; [|symmetry; apply Z.eqb_neq; unfold D in *; lia].
          rewrite (nth_error_nth' hs ([], 0)) by lia. auto. }
      unfold ref_digits, ref_of. rewrite Et'. reflexivity. }
    exists t. rewrite Er. split; [|auto].
    assert (En : firstn (S n) (skipn k (li_nodes i)) = nodebuf i k :: firstn n (skipn (S k) (li_nodes i))).
    { unfold nodebuf. assert (Q : (k < length (li_nodes i))%nat) by lia. clear - Q. revert Q. generalize (li_nodes i) as l. induction k as [|k IH]; intros l Q; destruct l; cbn in *; try lia; auto. apply IH; lia. }
    rewrite En. cbn [app]. destruct T as [T|T]; rewrite T in *; cbn [Z.eqb Pos.eqb] in M.
    + eapply walk_branch; [exists (nth k (li_rounds i) 0); eauto| |].
      * rewrite Ex in Fb. apply Fb; auto. unfold D in *. lia.
      * rewrite <- Mo2 by auto. exact W.
    + eapply walk_ext; [exists (nth k (li_rounds i) 0); eauto|exact Mo1| |exact W].
      rewrite Ex in Fe. apply Fe; auto.
Qed.
End W.

Definition leaf_window (maxValue : nat) : nat := (4 + 66 + 4 + maxValue)%nat.

(** the storage variant: the node shows absence *)
Definition last_absent (i : layers_in) (leafPref : Z) (s : Z) (buf : list Z) : Prop :=
  (exists its total, list_node (firstn branch_window buf) its total /\ length its = 17%nat /\
     let nib := nth (Z.to_nat (li_depth i - 1)) (li_key i) 0 in 0 <= nib < 17 /\
     payload (nth (Z.to_nat nib) its ([], [])) = []) \/
  foreign_ext (firstn ext_window buf) (slice s 64 (li_key i)).

(** checkExtensionNodeNonExistence *)
Lemma ext_nonexistence_ok : forall sel kl buf pref, length sel = 64%nat -> felts p sel -> 0 <= kl <= 64 -> felt p pref ->
  (ext_window <= length buf)%nat -> Forall nibble buf -> ext_nonexistence p 64 64 sel kl buf pref = Some 1 ->
  foreign_ext (firstn ext_window buf) (firstn (Z.to_nat kl) sel).
Proof.
  intros sel kl buf pref Ls Fs Hk Fp Hlen Hn H. set (a := ext_params 64 64) in *.
  assert (Pa : params_ok a) by (apply ext_params_ok; try zlia).
  assert (Ma : ac_maxHexLen a = ext_window) by reflexivity. assert (Mp : ac_prefixMax a = 4%nat) by reflexivity.
  assert (Mf : ac_fields a = [(0, 66); (0, 64)]%nat) by reflexivity.
  unfold ext_nonexistence in H. fold a in H. rewrite rlp_array_check_firstn in H by (rewrite ?Ma; auto; apply Pa). rewrite Ma in H.
  set (inp := firstn ext_window buf) in *.
  assert (Li : length inp = ac_maxHexLen a) by (unfold inp; rewrite firstn_length, Ma; lia).
  assert (Ni : Forall nibble inp) by (apply Forall_firstn; auto). clearbody inp.
  destruct (rlp_array_check p a inp 2) as [[[[rlpout t] lens] outs]|] eqn:Ec; [ostep H|discriminate].
  destruct (two_fields_shape p Hp a inp _ _ _ _ Pa eq_refl Li Ni Ec) as (l0 & l1 & f0 & f1 & El & Eo & Ho & Ht & Hl0 & Hl1 & Hf0 & Hf1 & N0 & N1).
  subst lens outs. cbn [nth] in H.
  destruct (r_shift_left p ext_window 0 2 f0 pref) as [kfr|] eqn:Es; [ostep H|discriminate].
  destruct (r_array_equal p sel kfr 64 _) as [mt|] eqn:Em; [ostep H|discriminate].
  destruct (path_compare p Hp 64 ext_window sel f0 l0 pref mt) as (C1 & C2 & C3 & C4 & C5 & C6 & C7); auto; try (rewrite ?Hf0, ?Li; unfold ext_window; zlia).
  { rewrite Hf0, Li. exact Ma. } { rewrite Es. rewrite obind_some. exact Em. }
  rewrite C6 in H. rewrite (r_equal_ok p Hp2 kl) in H by (unfold felt; zlia).
  rewrite (fand_ok p Hp2) in H by (auto; apply bit_of_bit). ostep H.
  rewrite (prefix_check_ok p Hp 1 0 f0 pref) in H by (auto; unfold nibble; lia).
  set (pc := ((pref =? 1) && (nth 0 f0 0 =? 1)) || ((pref =? 2) && (nth 0 f0 0 =? 0) && (nth 1 f0 0 =? 0))) in *.
  set (both := (mt =? 1) && (bit_of (kl =? l0 - pref) =? 1)) in *.
  assert (E1 : pc = true /\ both = false).
  { assert (E : r_equal p (fadd p (bit_of pc) (fsub p 1 (bit_of both))) 2 = 1) by congruence. clear H.
    rewrite (one_minus_bit p) in E by zlia. rewrite (fadd_small p) in E by (destruct pc, both; cbn [bit_of negb]; zlia).
    rewrite (r_equal_ok p Hp2) in E by (destruct pc, both; unfold felt; cbn [bit_of negb]; zlia). destruct pc, both; cbn in E; try discriminate. auto. }
  destruct E1 as [E1 E2]. clear H.
  (* the first item *)
  assert (Ec' : rlp_array_check p a inp (Z.of_nat (length (ac_fields a))) = Some (rlpout, t, [l0; l1], [f0; f1])) by exact Ec. clear Ec.
  rewrite (rlp_array_check_ok p Hp) in Ec' by auto. unfold sem_array_check in Ec'. rewrite Mp, Mf in Ec'.
  destruct (head_shape 4 inp) as [[[v pre] tot]|] eqn:Eh; [|discriminate].
  destruct (2 + pre <? 16) eqn:E16; [|discriminate].
  assert (Hah : announced_header inp = Z.to_nat (2 + pre) /\ 0 <= pre <= 4).
  { unfold announced_header. unfold head_shape, byte0 in Eh. assert (Hby : 0 <= 16 * nth 0 inp 0 + nth 1 inp 0 < 256).
    { assert (Y0 := nth_nibble inp 0 Ni). assert (Y1 := nth_nibble inp 1 Ni). unfold nibble in *. zlia. }
    pose proof (classify_cases _ Hby) as Hc. destruct (classify (16 * nth 0 inp 0 + nth 1 inp 0)) as [| | | |k] eqn:Ek.
    1-4: assert (pre = 0) by congruence; subst pre; split; [reflexivity|lia].
    destruct (Z.leb_spec (2 * k) (Z.of_nat 4)); [|discriminate]. assert (pre = 2 * k) by congruence. split; lia. }
  destruct Hah as [Hah Hpre].
  destruct (sem_fields [(0, 66); (0, 64)]%nat (rotl (Z.to_nat (2 + pre)) inp)) as [q|] eqn:Eq; [|discriminate].
  set (r := rotl (Z.to_nat (2 + pre)) inp) in *.
  assert (Nr : Forall nibble r) by (apply rotl_nibble; auto). assert (Lr : length r = ext_window) by (unfold r; rewrite rotl_length, Li; exact Ma).
  remember [(0, 64)]%nat as rest eqn:Erest. cbn [sem_fields] in Eq. destruct (field_shape (len_prefix_max 66) r) as [[h l]|] eqn:Efs; [|discriminate].
  assert (Hlp : (len_prefix_max 66 <= 16)%nat) by (change (len_prefix_max 66) with 2%nat; lia).
  assert (Hl2 : (2 <= length r)%nat) by (rewrite Lr; unfold ext_window; lia).
  destruct (field_shape_bounds _ _ _ _ Nr Hl2 Hlp Efs) as [Bh Bl].
  assert (Hw : (2 + len_prefix_max 66 <= length r)%nat) by (change (len_prefix_max 66) with 2%nat; rewrite Lr; unfold ext_window; lia).
  destruct (field_shape_item _ _ _ _ Nr Hw Hlp Efs) as (it & I1 & I2 & I3 & I4 & I5 & _).
  assert (Hq : l0 = l /\ f0 = rotl (Z.to_nat h) r).
  { subst rest. destruct (if Nat.eqb 0 66 then _ else _) as [r'|]; [|discriminate]. destruct (sem_fields _ r') as [q'|]; [|discriminate].
    assert (Eq2 : q = (h, l, rotl (Z.to_nat h) r, cinc_of r) :: q') by congruence. 
    assert (Ml : map q_l q = [l0; l1]) by congruence. assert (Mo : map q_out q = [f0; f1]) by congruence. rewrite Eq2 in Ml, Mo. cbn [map] in Ml, Mo. unfold q_l at 1 in Ml. unfold q_out at 1 in Mo. cbn [fst snd] in Ml, Mo. split; congruence. }
  destruct Hq as [Hq1 Hq2]. subst l.
  assert (Hpl : (length (payload it) <= 68)%nat) by lia.
  assert (Henc : (length (enc it) <= 86)%nat) by (unfold enc; rewrite app_length; fold (hdr it) (payload it); lia).
  destruct (reads_prefix r (enc it)) as [tl Htl]; [rewrite Lr; unfold ext_window; lia|exact I4|].
  assert (Efst : firstn (length (payload it)) f0 = payload it).
  { apply (nth_ext' _ _ _ 0). { rewrite firstn_length, Hf0, Li, Ma. unfold ext_window. lia. }
    intros j Hj. rewrite firstn_length in Hj. rewrite nth_firstn' by lia. rewrite I5 by lia. rewrite Nat.mod_small by (rewrite Lr; unfold ext_window; lia). rewrite Hq2. reflexivity. }
  exists it, (firstn (Z.to_nat (l0 - pref)) (rotl (Z.to_nat pref) f0)), (firstn (length inp - announced_header inp - length (enc it)) tl).
  split; [|split; [exact I1|split]].
  - rewrite Hah. unfold r in Htl. rewrite rotl_skipn in Htl by (rewrite Li, Ma; unfold ext_window; lia).
    assert (E : firstn (length inp - Z.to_nat (2 + pre)) (skipn (Z.to_nat (2 + pre)) inp ++ firstn (Z.to_nat (2 + pre)) inp) = firstn (length inp - Z.to_nat (2 + pre)) (enc it ++ tl)) by (rewrite Htl; reflexivity).
    rewrite firstn_app, skipn_length, Nat.sub_diag in E. cbn [firstn] in E. rewrite app_nil_r, firstn_all2 in E by (rewrite skipn_length; lia). rewrite E.
    rewrite firstn_app. rewrite firstn_all2 by (rewrite Li, Ma; unfold ext_window; lia). reflexivity.
  - apply (key_item_path 0 (rotl (Z.to_nat pref) f0) f0 it ext_window l0 pref); auto; try lia; try (unfold ext_window; lia).
  - intros Ef. unfold both in E2. assert (Elen : l0 - pref = kl).
    { apply (f_equal (@length Z)) in Ef. rewrite !firstn_length, rotl_length, Hf0, Li, Ls, Ma in Ef. unfold ext_window in Ef. lia. }
    rewrite Elen in *. rewrite Z.eqb_refl in E2. cbn [bit_of Z.eqb Pos.eqb] in E2. rewrite andb_true_r in E2. apply Z.eqb_neq in E2. apply E2. apply C7. symmetry. exact Ef.
Qed.


Lemma rlp_array_check_length : forall a inp n r, rlp_array_check p a inp n = Some r -> (ac_maxHexLen a <= length inp)%nat.
Proof.
  intros a inp n r H. unfold rlp_array_check in H.
  destruct (array_head p (ac_prefixMax a) inp) as [[[? ?] ?]|]; [ostep H|discriminate].
  destruct (Nat.leb_spec (ac_maxHexLen a) (length inp)); [auto|]. cbn [guard] in H. discriminate.
Qed.

Lemma branch_nonexistence_ok : forall nib buf, felt p nib -> Forall nibble buf -> branch_nonexistence p nib buf = Some 1 ->
  exists its total, list_node (firstn branch_window buf) its total /\ length its = 17%nat /\ 0 <= nib < 17 /\
    payload (nth (Z.to_nat nib) its ([], [])) = [].
Proof.
  intros nib buf Fn Nb H. unfold branch_nonexistence in H.
  destruct (rlp_array_check p branch_params buf 17) as [[[[v t] lens] outs]|] eqn:Ec; [ostep H|discriminate].
  pose proof (rlp_array_check_length _ _ _ _ Ec) as L. change (ac_maxHexLen branch_params) with 1064%nat in L.
  destruct (branch_shape p Hp _ _ _ _ _ L Nb Ec) as (Ho & Ht & L1 & L2 & F1 & F2 & Hits).
  unfold smux in H. rewrite felt_mod in H by auto. rewrite L1 in H. unfold felt in Fn.
  destruct (Z.ltb_spec nib (Z.of_nat 17)) as [L17|]; cbn [guard] in H; [ostep H|discriminate].
  rewrite obind_some in H.
  set (l := nth (Z.to_nat nib) lens 0) in *.
  assert (Bl : 0 <= l < 2 ^ 65). { rewrite Forall_forall in F1. apply F1. apply nth_In. lia. }
  rewrite (fis_zero_felt p l) in H by (unfold felt; zlia).
  pose proof (bit_of_bit (l =? 0)) as U.
  assert (Ez : fadd p v (bit_of (l =? 0)) = v + bit_of (l =? 0)) by (unfold is_bit in *; rewrite fadd_small; zlia).
  rewrite Ez, fis_zero_sub in H by (auto; unfold is_bit, felt in *; zlia).
  assert (E1 : bit_of (v + bit_of (l =? 0) =? 2) = 1) by congruence.
  destruct (Z.eqb_spec (v + bit_of (l =? 0)) 2) as [E2|]; [|cbn in E1; lia].
  assert (v = 1) as -> by (unfold is_bit in *; lia).
  destruct (Z.eqb_spec l 0) as [El|]; [|cbn in E2; lia].
  destruct (Hits eq_refl) as (its & I1 & I2 & I3 & I4).
  exists its, t. split; [auto|]. split; [auto|]. split; [lia|].
  unfold l in El. rewrite I3 in El.
  erewrite (nth_map' item Z) with (d' := ([], [])) in El by lia.
  destruct (payload (nth (Z.to_nat nib) its ([], []))); [auto|cbn in El; lia].
Qed.

Theorem mpt_fixed_sound : forall maxDepth keyLen maxValue value rootHash lastRlp lastRound leafPref i isStorage vlen,
  Z.of_nat maxValue < 2 ^ 60 -> Z.of_nat (length lastRlp) < 2 ^ 60 -> Z.of_nat (length value) < 2 ^ 60 -> (keyLen <= 64)%nat -> (maxDepth <= 100)%nat ->
  length rootHash = 64%nat -> felts p value -> felts p rootHash -> felts p lastRlp -> aligned lastRlp -> felt p lastRound -> felt p leafPref -> layers_felts p i ->
  check_mpt_fixed p hash maxDepth keyLen maxValue value rootHash lastRlp lastRound leafPref i isStorage = Some (1, vlen) ->
  2 <= li_depth i ->
  keyLen = 64%nat /\ length value = maxValue /\ 0 <= vlen <= Z.of_nat maxValue /\ li_depth i <= Z.of_nat maxDepth /\
  exists t,
    walk hashed (li_key i)
      (fun s buf => last_leaf (leaf_window maxValue) (li_key i) value vlen s buf \/ (isStorage = true /\ last_absent i leafPref s buf))
      (nth 0 (li_starts i) 0) rootHash t (firstn (Z.to_nat (li_depth i) - 1) (li_nodes i) ++ [lastRlp]).
Proof.
  intros maxDepth keyLen maxValue value rootHash lastRlp lastRound leafPref i isStorage vlen
    Bv Bl Bvl Bk Bd Lr Fv Fr Fl Al Flr Fpf (Fk & Fs & Fn & Fp & Fal & Frd & Ft & Fd) H HD.
  unfold check_mpt_fixed in H.
  destruct (assert_le p (Z.of_nat maxDepth) 10) as [[]|] eqn:E0; [ostep H|discriminate].
  destruct (sizes_ok maxDepth i) eqn:Esz; cbn [guard] in H; [ostep H|discriminate].
  unfold sizes_ok in Esz. rewrite !andb_true_iff, !Nat.leb_le in Esz. destruct Esz as (((((Z1 & Z2) & Z3) & Z4) & Z5) & Z6).
  apply assert_le_iff in E0; auto; try (unfold felt; zlia).
  destruct (frags_valid p _ _ _ _ _) as [fv|] eqn:Efv; [ostep H|discriminate].
  apply frags_valid_ok in Efv; auto; try zlia.
  2:{ intros k. destruct (Nat.lt_ge_cases k (length (li_types i))); [apply Ft, nth_In; auto|]. rewrite nth_overflow by auto. unfold felt; zlia. }
  destruct Efv as (Bfv & Bdep & Tb & Hfv).
  destruct (r_mux1 p _ maxDepth (firstn maxDepth (li_starts i))) as [leafStart|] eqn:Els; [ostep H|discriminate].
  rewrite fsub_small in * by zlia.
  rewrite r_mux1_ok in Els; auto; try zlia.
  2:{ unfold felt; zlia. } 2:{ rewrite firstn_length; lia. }
  2:{ intros x Hx. apply Fs. rewrite <- (firstn_skipn maxDepth (li_starts i)). apply in_or_app; auto. }
  destruct (Z.ltb_spec (li_depth i - 1) (Z.of_nat maxDepth)); [|discriminate].
  assert (leafStart = start i (Z.to_nat (li_depth i) - 1)) as ->.
  { unfold start. replace (Z.to_nat (li_depth i) - 1)%nat with (Z.to_nat (li_depth i - 1)) by lia.
    rewrite nth_firstn' in Els by lia. congruence. }
  clear Els. set (D := Z.to_nat (li_depth i)) in *.
  destruct (Nat.leb_spec 64 (length (li_key i))) as [L64|]; cbn [guard] in H; [ostep H|discriminate].
  destruct (r_sub_array p 64 64 7 (firstn 64 (li_key i)) (start i (D - 1)) (Z.of_nat keyLen)) as [[leafSel leafSelLen]|] eqn:Esub; [ostep H|discriminate].
  assert (Fst : forall k, felt p (start i k)) by (intros k; unfold start; destruct (Nat.lt_ge_cases k (length (li_starts i))); [apply Fs, nth_In; auto|rewrite nth_overflow by auto; unfold felt; zlia]).
  assert (FkL : felt p (Z.of_nat keyLen)) by (unfold felt; zlia).
  destruct (sub64_ok _ _ _ _ _ Fk L64 (Fst (D - 1)%nat) FkL Esub) as (Sb1 & Sb2 & Sb3 & Sb4 & ->).
  destruct (check_leaf p keyLen maxValue _ leafSel value lastRlp leafPref) as [[[out0 tl] vl]|] eqn:Ecl; [ostep H|discriminate].
  destruct (if isStorage then _ else _) as [out|] eqn:Eout; [ostep H|discriminate].
  destruct (keccak_or_len p hash _ lastRlp lastRound) as [leaf|] eqn:Ekl; [ostep H|discriminate].
  destruct (keccak_or_len_ok p Hp _ (Z.of_nat (length lastRlp)) lastRlp lastRound leaf ltac:(zlia) Ekl) as [K1 K2].
  destruct (Hhash _ _ _ Fl Al Flr K1) as (Nl & K3 & K4).
  destruct (layers_loop p hash keyLen _ i leaf (maxDepth - 1) 0) as [[rs h0]|] eqn:Ell; [ostep H|discriminate].
  (* the leaf *)
  assert (Lwin : (ac_maxHexLen (leaf_params keyLen maxValue) <= length lastRlp)%nat).
  { unfold check_leaf in Ecl.
    repeat match type of Ecl with obind ?m _ = _ => match m with rlp_array_check _ _ _ _ => fail 1 | _ => destruct m as [?|]; [ostep Ecl|discriminate] end end.
    destruct (rlp_array_check p (leaf_params keyLen maxValue) lastRlp 2) eqn:Ec; [|discriminate].
    apply rlp_array_check_length in Ec. auto. }
  assert (Fdiff : felt p (Z.of_nat keyLen - start i (D - 1))) by (pose proof (Fst (D - 1)%nat) as Q; unfold felt in *; zlia).
  apply check_leaf_ok in Ecl; auto; try zlia.
  destruct Ecl as (C1 & C2 & C3 & C4 & C5 & C6 & C7).
  assert (EK : keyLen = 64%nat) by lia. clear C1. subst keyLen.
  assert (Hsub : forall s0 s1 sel l, felt p s0 -> felt p s1 -> r_sub_array p 64 64 7 (firstn 64 (li_key i)) s0 s1 = Some (sel, l) ->
     s0 <= s1 <= Z.of_nat 64 /\ length sel = 64%nat /\ (forall x, In x sel -> felt p x) /\ firstn (Z.to_nat (s1 - s0)) sel = slice s0 s1 (li_key i)).
  { intros s0 s1 sel l G0 G1 G2. destruct (sub64_ok _ _ _ _ _ Fk L64 G0 G1 G2) as (Y1 & Y2 & Y3 & Y4 & _). split; [exact Y1|]. split; [exact Y2|]. split; [exact Y3|exact Y4]. }
  assert (Gleaf : length (fst leaf) = 64%nat /\ Forall nibble (fst leaf) /\ 0 <= snd leaf <= 64).
  { split; [auto|]. split; [auto|]. rewrite K2. destruct (Z.ltb_spec (Z.of_nat (length lastRlp)) 63); lia. }
  assert (Hout : 0 <= out <= 4 /\ (out = 4 -> out0 = 4 \/ (isStorage = true /\ last_absent i leafPref (start i (D - 1)) lastRlp))).
  { destruct isStorage; [|assert (out = out0) as -> by congruence; auto].
    unfold storage_override in Eout.
    destruct (smux p _ (li_key i)) as [nib|] eqn:E1; [ostep Eout|discriminate].
    destruct (branch_nonexistence p nib lastRlp) as [b|] eqn:E2; [ostep Eout|discriminate].
    destruct (ext_nonexistence p 64 64 leafSel _ lastRlp leafPref) as [e|] eqn:E3; [ostep Eout|discriminate].
    assert (Bb : is_bit b).
    { unfold branch_nonexistence in E2. destruct (rlp_array_check p branch_params lastRlp 17) as [[[[? ?] ?] ?]|]; [ostep E2|discriminate].
      destruct (smux p nib _); [ostep E2|discriminate]. injection E2 as <-. apply fis_zero_bit. }
    assert (Be : is_bit e).
    { clear - E3. unfold ext_nonexistence in E3. destruct (rlp_array_check p _ lastRlp 2) as [[[[? ?] ?] ?]|]; [ostep E3|discriminate].
      destruct (r_shift_left p _ 0 2 _ _); [ostep E3|discriminate].
      destruct (r_array_equal p leafSel _ _ _); [ostep E3|discriminate].
      destruct (fand p _ _); [ostep E3|discriminate]. injection E3 as <-. apply r_equal_bit. }
    rewrite for_ok in Eout by auto. ostep Eout.
    rewrite (fselect_ok p Hp2 _ 4 out0 (bit_of_bit _) ltac:(unfold felt; zlia) ltac:(unfold felt; zlia)) in Eout.
    assert (Hbo : forall x, (bit_of x =? 1) = x) by (intros []; reflexivity). rewrite Hbo in Eout.
    destruct (Z.eqb_spec b 1) as [Eb|Eb]; cbn [orb] in Eout.
    { assert (out = 4) by congruence. split; [lia|]. intros _. right. split; [auto|]. left.
      assert (En : nib = nth (Z.to_nat (li_depth i - 1)) (li_key i) 0).
      { unfold smux in E1. rewrite ?(fsub_small p (li_depth i) 1), ?(Z.mod_small (li_depth i - 1)) in E1 by zlia. destruct (_ <? _); cbn [guard] in E1; [ostep E1; congruence|discriminate]. }
      subst b. destruct (branch_nonexistence_ok nib lastRlp) as (its & tt & X1 & X2 & X3 & X4); auto.
      { rewrite En. destruct (Nat.lt_ge_cases (Z.to_nat (li_depth i - 1)) (length (li_key i))); [apply Fk, nth_In; auto|rewrite nth_overflow by auto; unfold felt; zlia]. }
      exists its, tt. cbv zeta. rewrite <- En. auto. }
    destruct (Z.eqb_spec e 1) as [Ee|Ee].
    { assert (out = 4) by congruence. split; [lia|]. intros _. right. split; [auto|]. right. subst e.
      assert (Lw : (ext_window <= length lastRlp)%nat).
      { clear - E3. unfold ext_nonexistence in E3. destruct (rlp_array_check p _ lastRlp 2) eqn:Ec; [|discriminate]. apply rlp_array_check_length in Ec. exact Ec. }
      pose proof (Fst (D - 1)%nat) as Q5. unfold felt in Q5.
      assert (Hkl : 0 <= Z.of_nat 64 - start i (D - 1) <= 64) by lia.
      pose proof (ext_nonexistence_ok leafSel _ lastRlp leafPref Sb2 Sb3 Hkl Fpf Lw Nl E3) as FE. rewrite Sb4 in FE. exact FE. }
    assert (out = out0) as -> by congruence. auto. }
  destruct Hout as [Bout Hout].
  apply (layers_loop_ok p Hp hash Hhash 64 _ i leaf ltac:(lia) Fk Fs (fun l x a b => Fn l a x b) Fal Frd Fp Fd Hsub Gleaf) in Ell; [|intros k Hk; apply Tb; lia|lia].
  destruct Ell as (hs & A1 & A2 & A3 & A4 & A5).
  destruct h0 as [root|]; [|discriminate].
  assert (Ehd : nth 0 hs ([], 0) = root). { destruct hs; cbn in *; congruence. }
  assert (Groot : good_ref root). { rewrite <- Ehd. rewrite Forall_forall in A4. apply A4, nth_In. lia. }
  destruct Groot as (G1 & G2 & G3).
  rewrite r_array_equal_ok in H; auto; try zlia.
  2:{ apply Forall_nibble_felt; auto. }
  change (64 <=? Z.of_nat 64) with true in H. cbv iota in H. ostep H.
  change (Z.to_nat 64) with 64%nat in H.
  set (rc := bit_of (prefix_eqb 64 rootHash (fst root))) in *.
  assert (Brc : is_bit rc) by apply bit_of_bit.
  assert (Ebase : fadd p (fadd p rc out) fv = rc + out + fv) by (unfold is_bit in *; mnorm_lhs p; rewrite Z.mod_small; zlia).
  rewrite Ebase in H.
  set (types' := firstn (maxDepth - 1) (li_types i)).
  assert (Lt' : length types' = (maxDepth - 1)%nat) by (unfold types'; rewrite firstn_length; lia).
  assert (Els : forall acc, layer_sums p acc (li_types i) rs = layer_sums p acc types' rs).
  { clear - A1 Z6. unfold types'. revert A1 Z6. generalize (maxDepth - 1)%nat as n. generalize (li_types i) as ts. induction rs as [|[e b] rs' IH]; intros ts n A1 Z6 acc.
    - destruct ts, n; reflexivity.
    - destruct ts; [cbn in *; lia|]. destruct n; [cbn in *; lia|]. cbn [firstn layer_sums]. f_equal. apply IH; cbn in *; lia. }
  rewrite Els in H.
  assert (Ft' : Forall is_bit types').
  { apply Forall_forall. intros x Hx. apply In_nth with (d := 0) in Hx. destruct Hx as (k & Hk & <-). unfold types'. rewrite nth_firstn' by lia. apply Tb. lia. }
  assert (Frs : Forall (fun r => 0 <= fst r <= 4 /\ 0 <= snd r <= 4) rs).
  { apply Forall_forall. intros x Hx. apply In_nth with (d := (0, 0)) in Hx. destruct Hx as (k & Hk & <-).
    specialize (A5 k ltac:(lia)). cbn [Nat.add] in A5. destruct (nth k rs (0, 0)) as [e b]. cbn [fst snd]. unfold layer_fact in A5. tauto. }
  rewrite r_mux1_ok in H; auto; try zlia.
  2:{ unfold felt; zlia. }
  2:{ cbn [length]. assert (Q : forall ts rs acc, length (layer_sums p acc ts rs) = Nat.min (length ts) (length rs)).
      { clear. induction ts as [|t ts IH]; intros [|[e b] rs] acc; cbn; auto. }
      rewrite Q. lia. }
  2:{ intros x [<-|Hx]; [unfold felt, is_bit in *; zlia|].
      revert Hx. generalize (rc + out + fv). clear - Hp'. generalize types'. induction rs as [|[e b] rs' IH]; intros ts acc Hx; destruct ts; cbn in Hx; try easy.
      destruct Hx as [<-|Hx]; [apply felt_fadd; zlia|eapply IH; eauto]. }
  destruct (Z.ltb_spec (li_depth i - 1) (Z.of_nat maxDepth)); [|lia]. ostep H.
  rewrite layer_sums_ok in H by (auto; unfold is_bit in *; try lia).
  set (terms := map (fun j => if nth j types' 0 =? 1 then fst (nth j rs (0, 0)) else snd (nth j rs (0, 0))) (seq 0 (Z.to_nat (li_depth i - 1)))) in *.
  assert (Lterms : Z.of_nat (length terms) = li_depth i - 1) by (unfold terms; rewrite map_length, seq_length; lia).
  assert (Fterms : Forall (fun x => 0 <= x <= 4) terms).
  { apply Forall_forall. intros x Hx. unfold terms in Hx. apply in_map_iff in Hx. destruct Hx as (j & <- & Hj). apply in_seq in Hj.
    rewrite Forall_forall in Frs. assert (Hin : In (nth j rs (0, 0)) rs) by (apply nth_In; lia). apply Frs in Hin. destruct (_ =? 1); tauto. }
  assert (Ub : zsum terms <= 4 * Z.of_nat (length terms)) by (apply zsum_ub; eapply Forall_impl; [|exact Fterms]; cbv beta; intros; lia).
  assert (Lb : 0 <= zsum terms) by (apply zsum_lb; eapply Forall_impl; [|exact Fterms]; cbv beta; intros; lia).
  assert (E2 : fadd p (fmul p (li_depth i) 4) 2 = 4 * li_depth i + 2) by (mnorm_lhs p; rewrite Z.mod_small; zlia).
  rewrite E2 in H. rewrite r_equal_ok in H by (unfold felt, is_bit in *; zlia).
  assert (Eo : bit_of (rc + out + fv + zsum terms =? 4 * li_depth i + 2) = 1 /\ vl = vlen) by (split; congruence).
  destruct Eo as [Eo ->]. clear H.
  destruct (Z.eqb_spec (rc + out + fv + zsum terms) (4 * li_depth i + 2)) as [Esum|]; [|cbn in Eo; lia].
  assert (rc = 1 /\ out = 4 /\ fv = 1 /\ zsum terms = 4 * Z.of_nat (length terms)) as (Rc & Ro & Rf & Rt) by (unfold is_bit in *; lia).
  assert (Fmax : Forall (fun x => x = 4) terms).
  { apply zsum_all_max; auto. eapply Forall_impl; [|exact Fterms]; cbv beta; intros; lia. }
  split; [auto|]. split; [auto|]. split; [lia|]. split; [lia|].
  assert (Hlast : last_leaf (leaf_window maxValue) (li_key i) value vlen (start i (D - 1)) lastRlp \/ (isStorage = true /\ last_absent i leafPref (start i (D - 1)) lastRlp)).
  { destruct (Hout Ro) as [Ho|Ho]; [left|right; exact Ho]. exists tl.
    assert (Wn : ac_maxHexLen (leaf_params 64 maxValue) = leaf_window maxValue) by (unfold leaf_params, leaf_window; cbn [ac_maxHexLen]; lia).
    change (Z.of_nat 64) with 64 in Sb4, C7.
    rewrite Wn in C7. destruct (C7 Ho) as [[_ Q]|(Q1 & path & v & Q2 & Q3 & Q4)].
    - left. rewrite <- Sb4. exact Q.
    - right. split; [auto|]. exists path, v. split; [auto|]. intros ->. apply Q4. rewrite <- Sb4 at 1 2. 
      rewrite firstn_length. pose proof (Fst (D - 1)%nat) as Q5. unfold felt in Q5. rewrite Nat.min_l by lia. reflexivity. }
  destruct (walk_from i leaf lastRlp lastRound hs rs
     (fun s buf => last_leaf (leaf_window maxValue) (li_key i) value vlen s buf \/ (isStorage = true /\ last_absent i leafPref s buf)) maxDepth) with (n := (D - 1)%nat) (k := 0%nat) as (t & W & _); auto; try lia.
  { intros k Hk. destruct (Nat.lt_ge_cases k (D - 1)) as [Hk2|]; [|lia].
    assert (In4 : In (nth k terms 0) terms) by (apply nth_In; lia). rewrite Forall_forall in Fmax. apply Fmax in In4.
    unfold terms in In4. rewrite nth_map_seq in In4 by lia. cbn [Nat.add] in In4. unfold types' in In4. rewrite nth_firstn' in In4 by lia. exact In4. }
  { intros k Hk. destruct (Hfv Rf k ltac:(lia)) as [_ Hf2]. destruct (Hf2 ltac:(lia)) as [M1 M2]. split; [exact M1|].
    intros T0. unfold nodetype in T0. destruct M2 as [M2|M2]; [exact M2|]. lia. }
  exists t. unfold refk in W. rewrite skipn_O in W. 
  replace (Nat.eqb 0 (Z.to_nat (li_depth i) - 1)) with false in W by (symmetry; apply Nat.eqb_neq; lia). rewrite Ehd in W.
  assert (rootHash = fst root) as ->.
  { unfold rc, prefix_eqb in Rc. destruct (list_eq_dec Z.eq_dec (firstn 64 rootHash) (firstn 64 (fst root))) as [e|]; [|cbn in Rc; lia].
    rewrite !firstn_all2 in e by lia. exact e. }
  exact W.
Qed.
End P.
