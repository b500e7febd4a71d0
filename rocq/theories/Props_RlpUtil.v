(** * Props_RlpUtil.v — properties C01-C07 (statements only; proofs are in RlpUtilProofs/RlpPrefixProofs).
    [p] is the modulus of the native field; [felt p x] says that x is a canonical field element (0 <= x < p);
    a gadget model returns [None] exactly when the circuit is unsatisfiable (or the Go code panics). *)
From Coq Require Import ZArith List Lia Bool Arith.
From Verif Require Import ModNorm Field FieldLemmas RlpUtilModel RlpUtilProofs RlpModel RlpSpec RlpPrefixProofs.
Import ListNotations.
Open Scope Z_scope.

Definition all_felt (p : Z) (l : list Z) : Prop := forall x, In x l -> felt p x.

(** ** C01 *)
Theorem C01_mux_multiplex : forall p sel wIn nIn table,
  2 < p -> felt p sel -> Z.of_nat nIn < p ->
  length table = wIn -> (forall row, In row table -> length row = nIn /\ all_felt p row) ->
  (Z.of_nat nIn <= sel -> m_multiplex p sel wIn nIn table = None) /\
  (sel < Z.of_nat nIn -> exists out, m_multiplex p sel wIn nIn table = Some out /\ length out = wIn /\
     forall i, (i < wIn)%nat -> nth i out 0 = nth (Z.to_nat sel) (nth i table []) 0).
Proof.
  intros p sel wIn nIn table Hp Hs Hn Hl Hr. rewrite m_multiplex_ok by auto. split; intros H.
  - destruct (Z.ltb_spec sel (Z.of_nat nIn)); [lia|reflexivity].
  - destruct (Z.ltb_spec sel (Z.of_nat nIn)); [|lia].
    eexists; split; [reflexivity|]. rewrite map_length. split; [auto|]. intros i Hi.
    rewrite (nth_map' _ _ _ _ _ _ []) by lia. reflexivity.
Qed.
Theorem C01_rlp_multiplexer : forall p sel wIn nIn table,
  2 < p -> felt p sel -> Z.of_nat nIn < p ->
  (wIn <= length table)%nat -> (forall row, In row table -> (nIn <= length row)%nat /\ all_felt p row) ->
  (Z.of_nat nIn <= sel -> r_multiplexer p sel wIn nIn table = None) /\
  (sel < Z.of_nat nIn -> exists out, r_multiplexer p sel wIn nIn table = Some out /\ length out = wIn /\
     forall i, (i < wIn)%nat -> nth i out 0 = nth (Z.to_nat sel) (nth i table []) 0).
Proof.
  intros p sel wIn nIn table Hp Hs Hn Hl Hr. rewrite r_multiplexer_ok by auto. split; intros H.
  - destruct (Z.ltb_spec sel (Z.of_nat nIn)); [lia|reflexivity].
  - destruct (Z.ltb_spec sel (Z.of_nat nIn)); [|lia].
    eexists; split; [reflexivity|]. rewrite map_length, firstn_length. split; [lia|]. intros i Hi.
    rewrite (nth_map' _ _ _ _ _ _ []) by (rewrite firstn_length; lia). rewrite nth_firstn' by lia. reflexivity.
Qed.
Example C01_example : m_multiplex bn254 2 2 3 [[10; 11; 12]; [20; 21; 22]] = Some [12; 22]
  /\ m_multiplex bn254 3 2 3 [[10; 11; 12]; [20; 21; 22]] = None.
Proof. split; vm_compute; reflexivity. Qed.

(** ** C02 *)
Theorem C02_equal : forall p a b, 2 < p -> felt p a -> felt p b ->
  (a = b -> r_equal p a b = 1) /\ (a <> b -> r_equal p a b = 0).
Proof.
  intros p a b Hp Ha Hb. rewrite r_equal_ok by auto. destruct (Z.eqb_spec a b); cbn; split; intros; auto; contradiction.
Qed.
Theorem C02_less_than : forall p a b, 2 < p -> felt p a -> felt p b ->
  (a < b -> r_less_than p a b = 1) /\ (b <= a -> r_less_than p a b = 0).
Proof. intros p a b Hp Ha Hb. rewrite r_less_than_ok by auto. destruct (Z.ltb_spec a b); cbn; split; intros; auto; lia. Qed.
Example C02_example : r_less_than bn254 (bn254 - 1) 0 = 0 /\ r_less_than bn254 0 (bn254 - 1) = 1
  /\ r_equal bn254 (bn254 - 1) 0 = 0.
Proof. vm_compute. auto. Qed.

(** ** C03 *)
Theorem C03_array_equal : forall p a b n t,
  2 < p -> all_felt p a -> all_felt p b -> felt p t ->
  (n <= length a)%nat -> (n <= length b)%nat -> Z.of_nat (length a) < p -> Z.of_nat (length b) < p ->
  Z.of_nat n + 1 < p ->
  (Z.of_nat n < t -> r_array_equal p a b n t = None) /\
  (t <= Z.of_nat n ->
     (firstn (Z.to_nat t) a = firstn (Z.to_nat t) b -> r_array_equal p a b n t = Some 1) /\
     (firstn (Z.to_nat t) a <> firstn (Z.to_nat t) b -> r_array_equal p a b n t = Some 0)).
Proof.
  intros p a b n t Hp Ha Hb Ht Hla Hlb Hpa Hpb Hn. rewrite r_array_equal_ok by auto.
  destruct (Z.leb_spec t (Z.of_nat n)); split; intros H1; try lia; auto.
  unfold prefix_eqb. destruct (list_eq_dec _ _ _); cbn; split; intros; auto; contradiction.
Qed.
(** maxLength larger than one of the arrays is rejected. *)
Theorem C03_array_equal_too_long : forall p a b n t,
  2 < p -> Z.of_nat n < p -> Z.of_nat (length a) < p -> Z.of_nat (length b) < p ->
  (length a < n \/ length b < n)%nat -> r_array_equal p a b n t = None.
Proof.
  intros p a b n t Hp Hn Ha Hb H. unfold r_array_equal, assert_le. rewrite !Z.mod_small by lia.
  destruct (Z.leb_spec (Z.of_nat n) (Z.of_nat (length a))); cbn; auto.
  destruct (Z.leb_spec (Z.of_nat n) (Z.of_nat (length b))); cbn; auto. lia.
Qed.
Example C03_example : r_array_equal bn254 [1; 2; 3] [1; 2; 4] 3 2 = Some 1
  /\ r_array_equal bn254 [1; 2; 3] [1; 2; 4] 3 3 = Some 0 /\ r_array_equal bn254 [1; 2; 3] [1; 2; 4] 3 4 = None.
Proof. vm_compute. auto. Qed.

(** ** C04 *)
Theorem C04_sub_array : forall p nIn maxSelect nInBits inp from end_,
  2 < p -> (nIn <= length inp)%nat -> all_felt p inp -> felt p from -> felt p end_ ->
  (0 < nInBits <= 7)%nat -> (nInBits <= field_bits p)%nat -> Z.of_nat nIn < 2 ^ Z.of_nat nInBits ->
  (maxSelect <= nIn)%nat -> Z.of_nat nIn < p ->
  (from <= end_ /\ end_ <= Z.of_nat nIn /\ end_ - from <= Z.of_nat maxSelect ->
     exists out, r_sub_array p nIn maxSelect nInBits inp from end_ = Some (out, end_ - from) /\
       length out = maxSelect /\
       forall k, (k < maxSelect)%nat -> nth k out 0 = nth ((k + Z.to_nat from) mod nIn) inp 0) /\
  (~ (from <= end_ /\ end_ <= Z.of_nat nIn /\ end_ - from <= Z.of_nat maxSelect) ->
     r_sub_array p nIn maxSelect nInBits inp from end_ = None).
Proof.
  intros p nIn ms nb inp from en Hp Hl Hf Hfr Hen Hb Hfb Hn Hms Hnp.
  rewrite r_sub_array_ok by auto.
  destruct (Z.leb_spec from en), (Z.leb_spec en (Z.of_nat nIn)), (Z.leb_spec (en - from) (Z.of_nat ms));
    cbn [andb]; split; intros H'; try lia; auto.
  eexists; split; [reflexivity|]. rewrite firstn_length, rotl_length, firstn_length. split; [lia|].
  intros k Hk. rewrite nth_firstn' by lia. rewrite rotl_nth; rewrite firstn_length, Nat.min_l by lia; try lia.
  apply nth_firstn'. apply Nat.mod_upper_bound. lia.
Qed.
(** In particular, within the requested range the slice is returned without wrap-around. *)
Theorem C04_sub_array_slice : forall p nIn maxSelect nInBits inp from end_ out len,
  2 < p -> (nIn <= length inp)%nat -> all_felt p inp -> felt p from -> felt p end_ ->
  (0 < nInBits <= 7)%nat -> (nInBits <= field_bits p)%nat -> Z.of_nat nIn < 2 ^ Z.of_nat nInBits ->
  (maxSelect <= nIn)%nat -> Z.of_nat nIn < p ->
  r_sub_array p nIn maxSelect nInBits inp from end_ = Some (out, len) ->
  len = end_ - from /\
  firstn (Z.to_nat len) out = firstn (Z.to_nat len) (skipn (Z.to_nat from) inp).
Proof.
  intros p nIn ms nb inp from en out len Hp Hl Hf Hfr Hen Hb Hfb Hn Hms Hnp H.
  destruct (C04_sub_array p nIn ms nb inp from en Hp Hl Hf Hfr Hen Hb Hfb Hn Hms Hnp) as [H1 H2].
  destruct (Z.le_gt_cases from en) as [A|A]; [|rewrite H2 in H by lia; discriminate].
  destruct (Z.le_gt_cases en (Z.of_nat nIn)) as [B|B]; [|rewrite H2 in H by lia; discriminate].
  destruct (Z.le_gt_cases (en - from) (Z.of_nat ms)) as [C|C]; [|rewrite H2 in H by lia; discriminate].
  destruct (H1 (conj A (conj B C))) as (o & Ho & Hlo & Hk). rewrite Ho in H.
  assert (o = out) by congruence. assert (len = en - from) by congruence. subst. split; auto.
  unfold felt in *.
  apply (nth_ext' _ _ _ 0).
  - rewrite !firstn_length, skipn_length. lia.
  - intros i Hi. rewrite firstn_length in Hi. rewrite !nth_firstn' by lia. rewrite Hk by lia.
    rewrite nth_skipn'. rewrite Nat.mod_small by lia. f_equal. lia.
Qed.
Example C04_example : r_sub_array bn254 5 3 3 [10; 11; 12; 13; 14] 1 4 = Some ([11; 12; 13], 3)
  /\ r_sub_array bn254 5 3 3 [10; 11; 12; 13; 14] 1 5 = None.
Proof. split; vm_compute; reflexivity. Qed.

(** ** C05 *)
Theorem C05_shift_left : forall p nIn minS maxS inp shift,
  2 < p -> length inp = nIn -> all_felt p inp ->
  Z.of_nat minS <= shift <= Z.of_nat maxS -> Z.of_nat maxS < 2 ^ 254 -> Z.of_nat maxS < p ->
  exists out, r_shift_left p nIn minS maxS inp shift = Some out /\ length out = nIn /\
    forall j, (j < nIn)%nat -> nth j out 0 = nth ((j + Z.to_nat shift) mod nIn) inp 0.
Proof.
  intros p nIn minS maxS inp shift Hp Hl Hf Hs Hb Hpm.
  rewrite r_shift_left_in_range by auto. eexists; split; [reflexivity|]. rewrite rotl_length. split; auto.
  intros j Hj. rewrite rotl_nth by lia. subst; reflexivity.
Qed.
(** Any other shift whose distance to minShift does not fit LogCeil(max-min) bits is rejected — provided the
    window is not degenerate. *)
Theorem C05_shift_left_rejects : forall p nIn minS maxS inp shift,
  2 < p -> length inp = nIn -> all_felt p inp -> felt p shift ->
  (minS < maxS)%nat -> Z.of_nat maxS < 2 ^ 254 -> Z.of_nat maxS < p ->
  2 ^ Z.of_nat (log_ceil (maxS - minS)) <= (shift - Z.of_nat minS) mod p ->
  r_shift_left p nIn minS maxS inp shift = None.
Proof.
  intros p nIn minS maxS inp shift Hp Hl Hf Hs Hm Hb Hpm H.
  rewrite r_shift_left_ok by (auto; lia). destruct (Nat.eqb_spec minS maxS); [lia|].
  unfold fsub. destruct (Z.ltb_spec ((shift - Z.of_nat minS) mod p) (2 ^ Z.of_nat (log_ceil (maxS - minS)))); [lia|auto].
Qed.
(** With minShift = maxShift the requested amount is not looked at: the array is always rotated by minShift.
    (So "the amount is enforced" is false for degenerate windows; RlpArrayCheck uses such windows.) *)
Theorem C05_degenerate_window_ignores_shift : forall p nIn minS inp shift,
  2 < p -> length inp = nIn -> all_felt p inp -> felt p shift -> Z.of_nat minS < 2 ^ 254 -> Z.of_nat minS < p ->
  exists out, r_shift_left p nIn minS minS inp shift = Some out /\ length out = nIn /\
    forall j, (j < nIn)%nat -> nth j out 0 = nth ((j + minS) mod nIn) inp 0.
Proof.
  intros p nIn minS inp shift Hp Hl Hf Hs Hb Hpm. rewrite r_shift_left_ok by (auto; lia).
  rewrite Nat.eqb_refl. eexists; split; [reflexivity|]. rewrite rotl_length. split; auto.
  intros j Hj. rewrite rotl_nth by lia. subst; reflexivity.
Qed.
Example C05_example : r_shift_left bn254 4 0 3 [1; 2; 3; 4] 3 = Some [4; 1; 2; 3]
  /\ r_shift_left bn254 4 0 3 [1; 2; 3; 4] 4 = None /\ r_shift_left bn254 4 2 2 [1; 2; 3; 4] 1 = Some [3; 4; 1; 2].
Proof. repeat split; vm_compute; reflexivity. Qed.

(** ** C06 *)
Theorem C06_shift_right : forall p nIn nInBits inp shift,
  2 < p -> length inp = nIn -> all_felt p inp -> felt p shift -> (0 < nInBits)%nat ->
  (2 ^ Z.of_nat nInBits <= shift -> r_shift_right p nIn nInBits inp shift = None) /\
  (shift < 2 ^ Z.of_nat nInBits -> exists out, r_shift_right p nIn nInBits inp shift = Some out /\
     length out = nIn /\
     forall j, (j < nIn)%nat -> nth j out 0 = if Z.of_nat j <? shift then 0 else nth (j - Z.to_nat shift) inp 0).
Proof.
  intros p nIn nb inp shift Hp Hl Hf Hs Hb. rewrite r_shift_right_ok by auto. split; intros H.
  - destruct (Z.ltb_spec shift (2 ^ Z.of_nat nb)); [lia|auto].
  - destruct (Z.ltb_spec shift (2 ^ Z.of_nat nb)); [|lia].
    eexists; split; [reflexivity|]. rewrite shr_length. split; auto. intros j Hj. rewrite shr_nth by lia.
    unfold felt in Hs. destruct (Nat.ltb_spec j (Z.to_nat shift)), (Z.ltb_spec (Z.of_nat j) shift); try lia; auto.
Qed.
Example C06_example : r_shift_right bn254 4 3 [1; 2; 3; 4] 3 = Some [0; 0; 0; 1]
  /\ r_shift_right bn254 4 3 [1; 2; 3; 4] 8 = None.
Proof. split; vm_compute; reflexivity. Qed.

(** ** C07 *)
Theorem C07_array_prefix : forall p a b, 4096 < p -> nibble a -> nibble b ->
  rlp_array_prefix p a b =
    match classify (16 * a + b) with
    | HShortList len => (0, 2 * len, 1)
    | HLongList lenlen => (1, 2 * lenlen, 1)
    | _ => (0, 0, 0)
    end.
Proof.
  intros p a b Hp Ha Hb. rewrite array_prefix_ok by auto. cbv zeta. unfold nibble in *.
  set (x := 16 * a + b). assert (0 <= x < 256) by lia. unfold classify.
  destruct (Z.leb_spec 248 x), (Z.leb_spec 192 x), (Z.leb_spec x 127), (Z.leb_spec x 183), (Z.leb_spec x 191), (Z.leb_spec x 247);
    try lia; reflexivity.
Qed.
(** The field decoder agrees with the specification on every first byte, except for the validity flag, which
    is 2 instead of 1 for the empty list 0xc0. *)
Theorem C07_field_prefix : forall p a b, 4096 < p -> nibble a -> nibble b ->
  let fp := rlp_field_prefix p a b in
  (fp_isLiteral fp, fp_isBig fp, fp_isArray fp, fp_hexLen fp) =
    match classify (16 * a + b) with
    | HLiteral => (1, 0, 0, 0)
    | HShortString len => (0, 0, 0, 2 * len)
    | HLongString lenlen => (0, 1, 0, 2 * lenlen)
    | HShortList len => (0, 0, 1, 2 * len)
    | HLongList lenlen => (0, 1, 1, 2 * lenlen)
    end /\
  fp_isEmptyList fp = (if 16 * a + b =? 0xc0 then 1 else 0) /\
  fp_isZero fp = (if 16 * a + b =? 0 then 1 else 0) /\
  fp_isValid fp = (if 16 * a + b =? 0xc0 then 2 else 1).
Proof.
  intros p a b Hp Ha Hb. rewrite field_prefix_ok by auto. cbv zeta. unfold nibble in *.
  set (x := 16 * a + b). assert (0 <= x < 256) by lia. unfold classify. cbn [fp_isLiteral fp_isBig fp_isArray fp_hexLen fp_isEmptyList fp_isZero fp_isValid].
  split; [|auto].
  destruct (Z.leb_spec 192 x), (Z.leb_spec x 127), (Z.leb_spec x 183), (Z.leb_spec x 191), (Z.leb_spec x 247);
    try lia; reflexivity.
Qed.
(** The claim that the validity flag is boolean is false of the code: byte 0xc0. *)
Theorem C07_validity_flag_boolean_refuted : forall p, 4096 < p ->
  ~ (forall a b, nibble a -> nibble b -> fp_isValid (rlp_field_prefix p a b) = 0 \/ fp_isValid (rlp_field_prefix p a b) = 1).
Proof.
  intros p Hp H. destruct (C07_field_prefix p 12 0 Hp) as (_ & _ & _ & E); [unfold nibble; lia|unfold nibble; lia|].
  specialize (H 12 0 ltac:(unfold nibble; lia) ltac:(unfold nibble; lia)). rewrite E in H. cbn in H. lia.
Qed.
Example C07_example : rlp_array_prefix bn254 15 9 = (1, 4, 1) /\ fp_hexLen (rlp_field_prefix bn254 11 9) = 4.
Proof. split; vm_compute; reflexivity. Qed.
