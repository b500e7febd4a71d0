(** * Props_QueryId.v — C31: the bit strings hashed into query identifiers *)
From Coq Require Import ZArith List Lia Bool Arith.
From Verif Require Import Field FieldLemmas GoUtilModel GoUtilProofs Props_Utils RlpEnc ProofModel Props_Proof.
Import ListNotations.
Open Scope Z_scope.
Open Scope circ_scope.

(** ** Specification: a layout is a list of (width, number); its bits are the little-endian bits of each number in turn *)
Definition layout : Type := list (nat * Z).
Definition layout_bits (l : layout) : list Z := flat_map (fun wx => bits_le (fst wx) (snd wx)) l.
Definition fits (l : layout) : Prop := Forall (fun wx => 0 <= snd wx < 2 ^ Z.of_nat (fst wx)) l.

(** the parameters of one log field: contract address, log index, first six bytes of topic 0, flag, value index, value *)
Definition log_layout (f : log_info) (l : layout) : Prop :=
  exists a t v, hexutil_decode (li_contract f) = Some a /\ hexutil_decode (li_topic0 f) = Some t /\ (6 <= length t)%nat /\
    hexutil_decode (li_value f) = Some v /\ (length v <= 32)%nat /\
    l = [(160%nat, be_val a); (16%nat, li_index f); (48%nat, be_val (firstn 6 t)); (1%nat, if li_from_topic f then 1 else 0);
         (7%nat, li_value_index f); (256%nat, be_val v)].
Definition receipt_layout (r : receipt_info) (l : layout) : Prop :=
  exists fee key logs, set_string 0 (ri_fee r) = Some fee /\ set_string 0 (ri_key r) = Some key /\ Forall2 log_layout (ri_logs r) logs /\
    l = [(32%nat, ri_block r); (128%nat, fee); (32%nat, key)] ++ concat logs ++ [(64%nat, ri_time r)].
Definition storage_layout (s : storage_info) (l : layout) : Prop :=
  exists fee acc value, set_string 0 (si_fee s) = Some fee /\ set_string 0 (si_account s) = Some acc /\ set_string 10 (si_value s) = Some value /\
    (length (hex2bytes (si_slot s)) <= 32)%nat /\
    l = [(32%nat, si_block s); (128%nat, fee); (160%nat, acc); (256%nat, hex2bigint (si_slot s)); (256%nat, value); (64%nat, si_time s)].
Definition tx_layout (t : tx_info) (l : layout) : Prop :=
  exists fee key, set_string 0 (ti_fee t) = Some fee /\ set_string 0 (ti_key t) = Some key /\ (length (hex2bytes (ti_leaf t)) <= 32)%nat /\
    l = [(32%nat, ti_block t); (128%nat, fee); (32%nat, key); (256%nat, hex2bigint (ti_leaf t)); (64%nat, ti_time t)].
(** the numbers given as text are not negative *)
Definition text_nonneg (base : Z) (s : list Z) : Prop := forall x, set_string base s = Some x -> 0 <= x.
Definition receipt_nonneg (r : receipt_info) : Prop := 0 <= ri_block r /\ 0 <= ri_time r /\ text_nonneg 0 (ri_fee r) /\ text_nonneg 0 (ri_key r) /\
  Forall (fun f => 0 <= li_index f /\ 0 <= li_value_index f) (ri_logs r).
Definition storage_nonneg (s : storage_info) : Prop := 0 <= si_block s /\ 0 <= si_time s /\ text_nonneg 0 (si_fee s) /\ text_nonneg 0 (si_account s) /\ text_nonneg 10 (si_value s).
Definition tx_nonneg (t : tx_info) : Prop := 0 <= ti_block t /\ 0 <= ti_time t /\ text_nonneg 0 (ti_fee t) /\ text_nonneg 0 (ti_key t).

(** ** Lemmas *)
Lemma dec_iff : forall x n b, 0 <= x -> (decompose_bits x n = Some b <-> 0 <= x < 2 ^ Z.of_nat n /\ b = bits_le n x).
Proof.
  intros x n b Hx. rewrite decompose_bits_ok by auto. destruct (Z.ltb_spec x (2 ^ Z.of_nat n)); split; intros H1.
  - split; [lia | congruence]. - destruct H1 as [_ ->]. reflexivity. - discriminate. - lia.
Qed.
Lemma word_iff : forall data b, Forall (fun x => 0 <= x < 256) data ->
  ((exists v, parse_bytes32 data 248 = Some v /\ byte32_to_fr_bits (fst v) (snd v) 248 = Some b) <-> (length data <= 32)%nat /\ b = bits_le 256 (be_val data)).
Proof.
  intros data b F. split.
  - intros (v & H1 & H2). destruct (Nat.le_gt_cases (length data) 32) as [L | L].
    + split; [exact L |]. assert (FR : (3 <= 248 <= 253)%nat) by lia.
      destruct (C27_bytes32_round_trip data 248 L F FR) as (v0 & v1 & E & _ & _ & _ & E2 & _).
      rewrite E in H1. assert (v = (v0, v1)) by congruence. subst v. cbn [fst snd] in H2. congruence.
    + rewrite C27_bytes32_too_long in H1 by exact L. discriminate.
  - intros [L ->]. assert (FR : (3 <= 248 <= 253)%nat) by lia.
    destruct (C27_bytes32_round_trip data 248 L F FR) as (v0 & v1 & E & _ & _ & _ & E2 & _). exists (v0, v1). split; [exact E | exact E2].
Qed.
Lemma word_fits : forall data, Forall (fun x => 0 <= x < 256) data -> (length data <= 32)%nat -> 0 <= be_val data < 2 ^ Z.of_nat 256.
Proof.
  intros data F L. pose proof (be_val_range data F). split; [lia |]. eapply Z.lt_le_trans; [apply H |].
  change (2 ^ Z.of_nat 256) with (256 ^ 32). apply Z.pow_le_mono_r; lia.
Qed.
Lemma be_val_nonneg : forall data, Forall (fun x => 0 <= x < 256) data -> 0 <= be_val data.
Proof. intros data F. pose proof (be_val_range data F). lia. Qed.
Lemma hexutil_bytes : forall s b, hexutil_decode s = Some b -> Forall (fun x => 0 <= x < 256) b.
Proof.
  intros s b H. unfold hexutil_decode in H. apply obind_Some in H as (u & _ & H). apply obind_Some in H as (u' & _ & H).
  assert (E : b = hex_decode (skipn 2 s)) by congruence. rewrite E. apply hex_decode_bytes.
Qed.
Lemma firstn_Forall : forall (A : Type) (P : A -> Prop) n l, Forall P l -> Forall P (firstn n l).
Proof. intros A P n l F. rewrite <- (firstn_skipn n l) in F. apply Forall_app in F. apply F. Qed.
Lemma layout_app : forall a b, layout_bits (a ++ b) = layout_bits a ++ layout_bits b.
Proof. intros. apply flat_map_app. Qed.
Lemma fits_app : forall a b, fits (a ++ b) <-> fits a /\ fits b.
Proof. intros. apply Forall_app. Qed.

Lemma log_iff : forall f b, 0 <= li_index f -> 0 <= li_value_index f -> (log_bits f = Some b <-> exists l, log_layout f l /\ fits l /\ b = layout_bits l).
Proof.
  intros f b HI HV. split.
  - intros H. unfold log_bits in H.
    apply obind_Some in H as (a & Ha & H). apply obind_Some in H as (b1 & H1 & H). apply obind_Some in H as (b2 & H2 & H).
    apply obind_Some in H as (t & Ht & H). apply obind_Some in H as (u & Hu & H). apply obind_Some in H as (b3 & H3 & H).
    apply obind_Some in H as (b4 & H4 & H). apply obind_Some in H as (b5 & H5 & H). apply obind_Some in H as (v & Hv & H).
    apply obind_Some in H as (vv & H6 & H). apply obind_Some in H as (b6 & H7 & H).
    apply guard_Some in Hu. apply Nat.leb_le in Hu.
    assert (Fa := hexutil_bytes _ _ Ha). assert (Ft := hexutil_bytes _ _ Ht). assert (Fv := hexutil_bytes _ _ Hv).
    apply dec_iff in H1 as [R1 E1]; [| apply be_val_nonneg; auto]. apply dec_iff in H2 as [R2 E2]; [| auto].
    apply dec_iff in H3 as [R3 E3]; [| apply be_val_nonneg; apply firstn_Forall; auto].
    apply dec_iff in H4 as [R4 E4]; [| destruct (li_from_topic f); lia]. apply dec_iff in H5 as [R5 E5]; [| auto].
    assert (W : (length v <= 32)%nat /\ b6 = bits_le 256 (be_val v)) by (apply word_iff; [auto | exists vv; auto]). destruct W as [W E6].
    eexists. split; [exists a, t, v; split; [exact Ha |]; split; [exact Ht |]; split; [exact Hu |]; split; [exact Hv |]; split; [exact W | reflexivity] |].
    split.
    + repeat (apply Forall_cons; [cbn [fst snd]; assumption |]). apply Forall_cons; [cbn [fst snd]; apply word_fits; auto | apply Forall_nil].
    + change (8 * 20)%nat with 160%nat in *. change (8 * 2)%nat with 16%nat in *. change (8 * 6)%nat with 48%nat in *.
      unfold layout_bits. cbn [flat_map fst snd]. rewrite app_nil_r. rewrite <- E1, <- E2, <- E3, <- E4, <- E5, <- E6. congruence.
  - intros (l & (a & t & v & Ha & Ht & Hu & Hv & W & ->) & F & ->). unfold log_bits.
    assert (Fa := hexutil_bytes _ _ Ha). assert (Ft := hexutil_bytes _ _ Ht). assert (Fv := hexutil_bytes _ _ Hv).
    unfold fits in F. apply Forall_cons_iff in F as [R1 F]. apply Forall_cons_iff in F as [R2 F]. apply Forall_cons_iff in F as [R3 F].
    apply Forall_cons_iff in F as [R4 F]. apply Forall_cons_iff in F as [R5 F]. cbn [fst snd] in *.
    assert (D : forall x n, 0 <= x < 2 ^ Z.of_nat n -> decompose_bits x n = Some (bits_le n x)) by (intros x n H; apply dec_iff; [lia | auto]).
    rewrite Ha. cbn [obind]. change (8 * 20)%nat with 160%nat. rewrite (D _ _ R1). cbn [obind]. change (8 * 2)%nat with 16%nat. rewrite (D _ _ R2). cbn [obind].
    rewrite Ht. cbn [obind]. rewrite (proj2 (Nat.leb_le _ _) Hu). cbn [guard obind]. change (8 * 6)%nat with 48%nat. rewrite (D _ _ R3). cbn [obind].
    rewrite (D _ _ R4). cbn [obind]. rewrite (D _ _ R5). cbn [obind]. rewrite Hv. cbn [obind].
    destruct (proj2 (word_iff v (bits_le 256 (be_val v)) Fv) (conj W eq_refl)) as (vv & P1 & P2). rewrite P1. cbn [obind]. rewrite P2. cbn [obind].
    unfold layout_bits. cbn [flat_map fst snd]. rewrite app_nil_r. reflexivity.
Qed.

Lemma logs_iff : forall fs bs, Forall (fun f => 0 <= li_index f /\ 0 <= li_value_index f) fs ->
  (omap log_bits fs = Some bs <-> exists ls, Forall2 log_layout fs ls /\ fits (concat ls) /\ bs = map layout_bits ls).
Proof.
  induction fs as [| f fs IH]; intros bs F.
  - cbn [omap]. split.
    + intros H. exists []. split; [apply Forall2_nil |]. split; [apply Forall_nil | cbn; congruence].
    + intros (ls & H & _ & ->). inversion H. reflexivity.
  - apply Forall_cons_iff in F as [[HI HV] F]. cbn [omap]. split.
    + intros H. apply obind_Some in H as (b & H1 & H). apply obind_Some in H as (bs' & H2 & H).
      apply log_iff in H1 as (l & L1 & F1 & E1); auto. apply IH in H2 as (ls & L2 & F2 & E2); auto.
      exists (l :: ls). split; [apply Forall2_cons; auto |]. split; [cbn [concat]; apply fits_app; auto |]. cbn [map]. congruence.
    + intros (ls & L & FI & ->). inversion L as [| f' l fs' ls' L1 L2]; subst. cbn [concat] in FI. apply fits_app in FI as [F1 F2].
      assert (X : log_bits f = Some (layout_bits l)) by (apply log_iff; eauto).
      assert (Y : omap log_bits fs = Some (map layout_bits ls')) by (apply IH; eauto).
      rewrite X. cbn [obind]. rewrite Y. reflexivity.
Qed.
Lemma concat_layouts : forall ls, concat (map layout_bits ls) = layout_bits (concat ls).
Proof. induction ls as [| l ls IH]; [reflexivity |]. cbn [map concat]. rewrite layout_app, IH. reflexivity. Qed.

(** ** Layout theorems: the gadget succeeds exactly when every parameter fits its field, and the bits are the layout's *)
Theorem C31_receipt_layout : forall r b, receipt_nonneg r ->
  (receipt_bits r = Some b <-> exists l, receipt_layout r l /\ fits l /\ b = layout_bits l).
Proof.
  intros r b (HB & HT & HF & HK & HL). split.
  - intros H. unfold receipt_bits in H.
    apply obind_Some in H as (b1 & H1 & H). apply obind_Some in H as (fee & Hf & H). apply obind_Some in H as (b2 & H2 & H).
    apply obind_Some in H as (key & Hk & H). apply obind_Some in H as (b3 & H3 & H). apply obind_Some in H as (ls & Hls & H). apply obind_Some in H as (b4 & H4 & H).
    apply dec_iff in H1 as [R1 E1]; auto. apply dec_iff in H2 as [R2 E2]; [| apply HF; auto]. apply dec_iff in H3 as [R3 E3]; [| apply HK; auto].
    apply dec_iff in H4 as [R4 E4]; auto. apply logs_iff in Hls as (L & L1 & L2 & L3); auto.
    eexists. split; [exists fee, key, L; split; [exact Hf |]; split; [exact Hk |]; split; [exact L1 | reflexivity] |]. split.
    + apply fits_app. split; [repeat (apply Forall_cons; [cbn [fst snd]; assumption |]); apply Forall_nil |]. apply fits_app. split; [auto |].
      apply Forall_cons; [cbn [fst snd]; assumption | apply Forall_nil].
    + rewrite !layout_app, <- concat_layouts, <- L3. unfold layout_bits. cbn [flat_map fst snd]. rewrite !app_nil_r, <- !app_assoc.
      change (8 * 4)%nat with 32%nat in *. change (8 * 16)%nat with 128%nat in *. change (8 * 8)%nat with 64%nat in *.
      rewrite <- E1, <- E2, <- E3, <- E4. congruence.
  - intros (l & (fee & key & logs & Hf & Hk & L1 & ->) & F & ->). apply fits_app in F as [F0 F]. apply fits_app in F as [L2 F3].
    apply Forall_cons_iff in F0 as [R1 F0]. apply Forall_cons_iff in F0 as [R2 F0]. apply Forall_cons_iff in F0 as [R3 F0]. apply Forall_cons_iff in F3 as [R4 _]. cbn [fst snd] in *.
    assert (D : forall x n, 0 <= x < 2 ^ Z.of_nat n -> decompose_bits x n = Some (bits_le n x)) by (intros x n H; apply dec_iff; [lia | auto]).
    unfold receipt_bits. change (8 * 4)%nat with 32%nat. change (8 * 16)%nat with 128%nat. change (8 * 8)%nat with 64%nat.
    rewrite (D _ _ R1). cbn [obind]. rewrite Hf. cbn [obind]. rewrite (D _ _ R2). cbn [obind]. rewrite Hk. cbn [obind]. rewrite (D _ _ R3). cbn [obind].
    assert (Y : omap log_bits (ri_logs r) = Some (map layout_bits logs)) by (apply logs_iff; eauto). rewrite Y. cbn [obind]. rewrite (D _ _ R4). cbn [obind].
    rewrite !layout_app, <- concat_layouts. unfold layout_bits. cbn [flat_map fst snd]. rewrite !app_nil_r, <- !app_assoc. reflexivity.
Qed.

Lemma slot_padded : forall s, (length (hex2bytes s) <= 32)%nat -> be_val (repeat 0 (32 - length (hex2bytes s)) ++ hex2bytes s) = hex2bigint s.
Proof.
  intros s L. change be_val with be_value. rewrite be_value_app.
  assert (Z0 : forall m, be_value (repeat 0 m) = 0).
  { induction m as [| m IH]; [reflexivity |]. cbn [repeat]. unfold be_value in *. cbn [fold_left]. exact IH. }
  rewrite Z0. reflexivity.
Qed.

Theorem C31_storage_layout : forall s b, storage_nonneg s ->
  (storage_bits s = Some b <-> exists l, storage_layout s l /\ fits l /\ b = layout_bits l).
Proof.
  intros s b (HB & HT & HF & HA & HV).
  assert (FS : (length (hex2bytes (si_slot s)) <= 32)%nat -> Forall (fun x => 0 <= x < 256) (repeat 0 (32 - length (hex2bytes (si_slot s))) ++ hex2bytes (si_slot s))).
  { intros _. apply Forall_app. split; [| apply hex2bytes_bytes]. apply Forall_forall. intros x Hx. apply repeat_spec in Hx. lia. }
  assert (LS : (length (hex2bytes (si_slot s)) <= 32)%nat -> length (repeat 0 (32 - length (hex2bytes (si_slot s))) ++ hex2bytes (si_slot s)) = 32%nat).
  { intros L. rewrite app_length, repeat_length. lia. }
  assert (VB : forall v, 0 <= v -> be_val (big_bytes v) = v).
  { intros v Hv. unfold big_bytes. rewrite Z.abs_eq by lia. apply be_bytes_value. lia. }
  assert (VL : forall v, 0 <= v -> (length (big_bytes v) <= 32)%nat <-> v < 2 ^ Z.of_nat 256).
  { intros v Hv. unfold big_bytes. rewrite Z.abs_eq by lia. split; intros H.
    - rewrite <- (be_bytes_value v) by lia. pose proof (be_value_range _ (be_bytes_bytes v Hv)) as R. eapply Z.lt_le_trans; [apply R |].
      change (2 ^ Z.of_nat 256) with (256 ^ 32). apply Z.pow_le_mono_r; lia.
    - apply be_bytes_length. change (256 ^ Z.of_nat 32) with (2 ^ Z.of_nat 256). lia. }
  assert (FV : forall v, 0 <= v -> Forall (fun x => 0 <= x < 256) (big_bytes v)).
  { intros v Hv. unfold big_bytes. apply be_bytes_bytes. lia. }
  split.
  - intros H. unfold storage_bits in H.
    apply obind_Some in H as (b1 & H1 & H). apply obind_Some in H as (fee & Hf & H). apply obind_Some in H as (b2 & H2 & H).
    apply obind_Some in H as (acc & Ha & H). apply obind_Some in H as (b3 & H3 & H). apply obind_Some in H as (slot & Hs & H).
    apply obind_Some in H as (sv & Hsv & H). apply obind_Some in H as (b4 & H4 & H). apply obind_Some in H as (value & Hv & H).
    apply obind_Some in H as (vv & Hvv & H). apply obind_Some in H as (b5 & H5 & H). apply obind_Some in H as (b6 & H6 & H).
    unfold padded_slot in Hs. apply obind_Some in Hs as (u & Hu & Hs). apply guard_Some in Hu. apply Nat.leb_le in Hu.
    assert (Es : slot = repeat 0 (32 - length (hex2bytes (si_slot s))) ++ hex2bytes (si_slot s)) by congruence.
    apply dec_iff in H1 as [R1 E1]; auto. apply dec_iff in H2 as [R2 E2]; [| apply HF; auto]. apply dec_iff in H3 as [R3 E3]; [| apply HA; auto].
    apply dec_iff in H6 as [R6 E6]; auto.
    assert (V0 : 0 <= value) by (apply HV; auto).
    assert (W4 : (length slot <= 32)%nat /\ b4 = bits_le 256 (be_val slot)) by (apply word_iff; [rewrite Es; auto | exists sv; auto]).
    assert (W5 : (length (big_bytes value) <= 32)%nat /\ b5 = bits_le 256 (be_val (big_bytes value))) by (apply word_iff; [auto | exists vv; auto]).
    destruct W4 as [_ E4]. destruct W5 as [L5 E5]. rewrite Es, slot_padded in E4 by auto. rewrite VB in E5 by auto.
    eexists. split; [exists fee, acc, value; split; [exact Hf |]; split; [exact Ha |]; split; [exact Hv |]; split; [exact Hu | reflexivity] |]. split.
    + apply Forall_cons; [exact R1 |]. apply Forall_cons; [exact R2 |]. apply Forall_cons; [exact R3 |].
      apply Forall_cons; [cbn [fst snd]; apply word_fits; [apply hex2bytes_bytes | exact Hu] |].
      apply Forall_cons; [cbn [fst snd]; split; [auto | apply VL; auto] |]. apply Forall_cons; [exact R6 | apply Forall_nil].
    + unfold layout_bits. cbn [flat_map fst snd]. rewrite app_nil_r.
      change (8 * 4)%nat with 32%nat in *. change (8 * 16)%nat with 128%nat in *. change (8 * 8)%nat with 64%nat in *. change (8 * 20)%nat with 160%nat in *.
      rewrite <- E1, <- E2, <- E3, <- E4, <- E5, <- E6. congruence.
  - intros (l & (fee & acc & value & Hf & Ha & Hv & Hu & ->) & F & ->).
    apply Forall_cons_iff in F as [R1 F]. apply Forall_cons_iff in F as [R2 F]. apply Forall_cons_iff in F as [R3 F].
    apply Forall_cons_iff in F as [R4 F]. apply Forall_cons_iff in F as [R5 F]. apply Forall_cons_iff in F as [R6 _]. cbn [fst snd] in *.
    assert (V0 : 0 <= value) by lia.
    assert (D : forall x n, 0 <= x < 2 ^ Z.of_nat n -> decompose_bits x n = Some (bits_le n x)) by (intros x n H; apply dec_iff; [lia | auto]).
    unfold storage_bits. change (8 * 4)%nat with 32%nat. change (8 * 16)%nat with 128%nat. change (8 * 8)%nat with 64%nat. change (8 * 20)%nat with 160%nat.
    rewrite (D _ _ R1). cbn [obind]. rewrite Hf. cbn [obind]. rewrite (D _ _ R2). cbn [obind]. rewrite Ha. cbn [obind]. rewrite (D _ _ R3). cbn [obind].
    unfold padded_slot. rewrite (proj2 (Nat.leb_le _ _) Hu). cbn [guard obind].
    assert (L32 := LS Hu).
    destruct (proj2 (word_iff _ (bits_le 256 (hex2bigint (si_slot s))) (FS Hu))) as (sv & P1 & P2).
    { split; [rewrite L32; apply le_n | rewrite slot_padded by auto; reflexivity]. }
    rewrite P1. cbn [obind]. rewrite P2. cbn [obind]. rewrite Hv. cbn [obind].
    destruct (proj2 (word_iff _ (bits_le 256 value) (FV value V0))) as (vv & Q1 & Q2).
    { split; [apply VL; [auto | apply R5] | rewrite VB by auto; reflexivity]. }
    rewrite Q1. cbn [obind]. rewrite Q2. cbn [obind]. rewrite (D _ _ R6). cbn [obind].
    unfold layout_bits. cbn [flat_map fst snd]. rewrite app_nil_r. reflexivity.
Qed.

Theorem C31_tx_layout : forall t b, tx_nonneg t ->
  (tx_bits t = Some b <-> exists l, tx_layout t l /\ fits l /\ b = layout_bits l).
Proof.
  intros t b (HB & HT & HF & HK). split.
  - intros H. unfold tx_bits in H.
    apply obind_Some in H as (b1 & H1 & H). apply obind_Some in H as (fee & Hf & H). apply obind_Some in H as (b2 & H2 & H).
    apply obind_Some in H as (key & Hk & H). apply obind_Some in H as (b3 & H3 & H). apply obind_Some in H as (lv & Hl & H).
    apply obind_Some in H as (b4 & H4 & H). apply obind_Some in H as (b5 & H5 & H).
    apply dec_iff in H1 as [R1 E1]; auto. apply dec_iff in H2 as [R2 E2]; [| apply HF; auto]. apply dec_iff in H3 as [R3 E3]; [| apply HK; auto].
    apply dec_iff in H5 as [R5 E5]; auto.
    assert (W4 : (length (hex2bytes (ti_leaf t)) <= 32)%nat /\ b4 = bits_le 256 (be_val (hex2bytes (ti_leaf t)))) by (apply word_iff; [apply hex2bytes_bytes | exists lv; auto]).
    destruct W4 as [L4 E4].
    eexists. split; [exists fee, key; split; [exact Hf |]; split; [exact Hk |]; split; [exact L4 | reflexivity] |]. split.
    + apply Forall_cons; [exact R1 |]. apply Forall_cons; [exact R2 |]. apply Forall_cons; [exact R3 |].
      apply Forall_cons; [cbn [fst snd]; apply word_fits; [apply hex2bytes_bytes | exact L4] |]. apply Forall_cons; [exact R5 | apply Forall_nil].
    + unfold layout_bits. cbn [flat_map fst snd]. rewrite app_nil_r.
      change (8 * 4)%nat with 32%nat in *. change (8 * 16)%nat with 128%nat in *. change (8 * 8)%nat with 64%nat in *.
      unfold hex2bigint. rewrite <- E1, <- E2, <- E3, <- E4, <- E5. congruence.
  - intros (l & (fee & key & Hf & Hk & Hu & ->) & F & ->).
    apply Forall_cons_iff in F as [R1 F]. apply Forall_cons_iff in F as [R2 F]. apply Forall_cons_iff in F as [R3 F].
    apply Forall_cons_iff in F as [R4 F]. apply Forall_cons_iff in F as [R5 _]. cbn [fst snd] in *.
    assert (D : forall x n, 0 <= x < 2 ^ Z.of_nat n -> decompose_bits x n = Some (bits_le n x)) by (intros x n H; apply dec_iff; [lia | auto]).
    unfold tx_bits. change (8 * 4)%nat with 32%nat. change (8 * 16)%nat with 128%nat. change (8 * 8)%nat with 64%nat.
    rewrite (D _ _ R1). cbn [obind]. rewrite Hf. cbn [obind]. rewrite (D _ _ R2). cbn [obind]. rewrite Hk. cbn [obind]. rewrite (D _ _ R3). cbn [obind].
    destruct (proj2 (word_iff _ (bits_le 256 (hex2bigint (ti_leaf t))) (hex2bytes_bytes (ti_leaf t)))) as (sv & P1 & P2).
    { split; [exact Hu | reflexivity]. }
    rewrite P1. cbn [obind]. rewrite P2. cbn [obind]. rewrite (D _ _ R5). cbn [obind].
    unfold layout_bits. cbn [flat_map fst snd]. rewrite app_nil_r. reflexivity.
Qed.

(** ** Injectivity *)
Lemma layout_inj : forall l1 l2, map fst l1 = map fst l2 -> fits l1 -> fits l2 -> layout_bits l1 = layout_bits l2 -> l1 = l2.
Proof.
  induction l1 as [| [w x] l1 IH]; intros [| [v y] l2] M F1 F2 E; try discriminate M; [reflexivity |].
  cbn [map fst] in M. assert (w = v) by congruence. subst v. assert (M' : map fst l1 = map fst l2) by congruence.
  apply Forall_cons_iff in F1 as [R1 F1]. apply Forall_cons_iff in F2 as [R2 F2]. cbn [fst snd] in *.
  unfold layout_bits in E. cbn [flat_map fst snd] in E. apply app_len_inj in E as [E1 E2]; [| rewrite !bits_le_length; reflexivity].
  apply (f_equal val_le) in E1. rewrite !val_bits_le in E1 by auto. subst y. f_equal. apply IH; auto.
Qed.
Lemma layout_bit : forall l, Forall is_bit (layout_bits l).
Proof. induction l as [| [w x] l IH]; [apply Forall_nil |]. unfold layout_bits. cbn [flat_map]. apply Forall_app. split; [apply bits_le_Forall | exact IH]. Qed.
Lemma layout_length : forall l, length (layout_bits l) = list_sum (map fst l).
Proof. induction l as [| [w x] l IH]; [reflexivity |]. unfold layout_bits. cbn [flat_map map fst snd list_sum fold_right]. rewrite app_length, bits_le_length. f_equal. exact IH. Qed.

Lemma chunk_count : forall (A : Type) s (l : list A), (0 < s)%nat -> length (split_every s l) = ((length l + (s - 1)) / s)%nat.
Proof.
  intros A s l Hs. unfold split_every. assert (G : forall f (l : list A), (length l <= f)%nat -> length (chunk_loop f s l) = ((length l + (s - 1)) / s)%nat).
  { induction f as [| f IH]; intros [| x t] Hl.
    - cbn. symmetry. apply Nat.div_small. lia.
    - cbn in Hl. lia.
    - cbn. symmetry. apply Nat.div_small. lia.
    - cbn [chunk_loop length]. rewrite IH by (rewrite skipn_length; cbn [length] in *; lia). rewrite skipn_length. cbn [length].
      destruct (Nat.le_gt_cases (S (length t)) s) as [L | L].
      + replace (S (length t) - s)%nat with 0%nat by lia. rewrite (Nat.div_small (0 + (s - 1))) by lia.
        apply Nat.div_unique with (length t); lia.
      + replace (S (length t) + (s - 1))%nat with (S (length t) - s + (s - 1) + 1 * s)%nat by lia. rewrite Nat.div_add by lia. lia. }
  apply G. apply le_n.
Qed.
Lemma pack_length : forall l, length (pack_bits_to_int l) = ((length l + 252) / 253)%nat.
Proof. intros l. unfold pack_bits_to_int. rewrite map_length, chunk_count by lia. reflexivity. Qed.

Lemma log_widths : forall f l, log_layout f l -> map fst l = [160; 16; 48; 1; 7; 256]%nat.
Proof. intros f l (a & t & v & _ & _ & _ & _ & _ & ->). reflexivity. Qed.
Lemma logs_widths : forall fs ls, Forall2 log_layout fs ls -> list_sum (map fst (concat ls)) = (488 * length fs)%nat.
Proof.
  induction 1 as [| f l fs ls H HF IH]; [reflexivity |]. cbn [concat]. rewrite map_app, list_sum_app, IH, (log_widths f l H). cbn [length].
  change (list_sum [160; 16; 48; 1; 7; 256]%nat) with 488%nat. lia.
Qed.
(** size of the pre-image: 256 bits and 488 bits per log field; 896 bits; 512 bits *)
Theorem C31_sizes : (forall r b, receipt_nonneg r -> receipt_bits r = Some b -> length b = (256 + 488 * length (ri_logs r))%nat) /\
  (forall s b, storage_nonneg s -> storage_bits s = Some b -> length b = 896%nat) /\ (forall t b, tx_nonneg t -> tx_bits t = Some b -> length b = 512%nat).
Proof.
  split; [| split].
  - intros r b N H. apply C31_receipt_layout in H as (l & (fee & key & logs & _ & _ & L1 & ->) & _ & ->); auto.
    rewrite layout_length, !map_app, !list_sum_app, (logs_widths _ _ L1). cbn [map fst].
    change (list_sum [32; 128; 32]%nat) with 192%nat. change (list_sum [64]%nat) with 64%nat. lia.
  - intros s b N H. apply C31_storage_layout in H as (l & (fee & acc & v & _ & _ & _ & _ & ->) & _ & ->); [| exact N]. rewrite layout_length. reflexivity.
  - intros t b N H. apply C31_tx_layout in H as (l & (fee & key & _ & _ & _ & ->) & _ & ->); [| exact N]. rewrite layout_length. reflexivity.
Qed.

(** what two log fields with the same bits have in common *)
Definition same_log (f g : log_info) : Prop :=
  (exists a b, hexutil_decode (li_contract f) = Some a /\ hexutil_decode (li_contract g) = Some b /\ be_val a = be_val b) /\
  li_index f = li_index g /\
  (exists a b, hexutil_decode (li_topic0 f) = Some a /\ hexutil_decode (li_topic0 g) = Some b /\ firstn 6 a = firstn 6 b) /\
  li_from_topic f = li_from_topic g /\ li_value_index f = li_value_index g /\
  (exists a b, hexutil_decode (li_value f) = Some a /\ hexutil_decode (li_value g) = Some b /\ be_val a = be_val b).

Lemma same_log_of_layout : forall f g l, log_layout f l -> log_layout g l -> same_log f g.
Proof.
  intros f g l (a & t & v & Ha & Ht & Lt & Hv & _ & E) (a' & t' & v' & Ha' & Ht' & Lt' & Hv' & _ & E').
  assert (Q : [(160%nat, be_val a); (16%nat, li_index f); (48%nat, be_val (firstn 6 t)); (1%nat, if li_from_topic f then 1 else 0); (7%nat, li_value_index f); (256%nat, be_val v)] =
   [(160%nat, be_val a'); (16%nat, li_index g); (48%nat, be_val (firstn 6 t')); (1%nat, if li_from_topic g then 1 else 0); (7%nat, li_value_index g); (256%nat, be_val v')]) by congruence.
  clear E E'. assert (Q1 : be_val a = be_val a') by congruence. assert (Q2 : li_index f = li_index g) by congruence.
  assert (Q3 : be_val (firstn 6 t) = be_val (firstn 6 t')) by congruence. assert (Q4 : (if li_from_topic f then 1 else 0) = (if li_from_topic g then 1 else 0)) by congruence.
  assert (Q5 : li_value_index f = li_value_index g) by congruence. assert (Q6 : be_val v = be_val v') by congruence.
  split; [exists a, a'; auto |]. split; [exact Q2 |]. split.
  { exists t, t'. split; [auto |]. split; [auto |]. apply be_value_inj; [apply firstn_Forall; exact (hexutil_bytes _ _ Ht) | apply firstn_Forall; exact (hexutil_bytes _ _ Ht') | rewrite !firstn_length; lia | exact Q3]. }
  split; [destruct (li_from_topic f), (li_from_topic g); auto; lia |]. split; [exact Q5 |]. exists v, v'; auto.
Qed.

(** Receipt queries: the packed pre-image (the numbers handed to Poseidon) determines every parameter and the number of log fields. *)
Theorem C31_receipt_injective : forall r1 r2 b1 b2, receipt_nonneg r1 -> receipt_nonneg r2 ->
  receipt_bits r1 = Some b1 -> receipt_bits r2 = Some b2 -> pack_bits_to_int b1 = pack_bits_to_int b2 ->
  ri_block r1 = ri_block r2 /\ set_string 0 (ri_fee r1) = set_string 0 (ri_fee r2) /\ set_string 0 (ri_key r1) = set_string 0 (ri_key r2) /\
  ri_time r1 = ri_time r2 /\ Forall2 same_log (ri_logs r1) (ri_logs r2).
Proof.
  intros r1 r2 b1 b2 N1 N2 H1 H2 E.
  pose proof (proj1 C31_sizes r1 b1 N1 H1) as S1. pose proof (proj1 C31_sizes r2 b2 N2 H2) as S2.
  assert (LE : length (ri_logs r1) = length (ri_logs r2)).
  { pose proof (f_equal (@length Z) E) as EL. rewrite !pack_length, S1, S2 in EL. clear - EL.
    set (k := length (ri_logs r1)) in *. set (m := length (ri_logs r2)) in *. clearbody k m.
    pose proof (Nat.div_mod (256 + 488 * k + 252) 253 ltac:(lia)). pose proof (Nat.div_mod (256 + 488 * m + 252) 253 ltac:(lia)).
    pose proof (Nat.mod_upper_bound (256 + 488 * k + 252) 253 ltac:(lia)). pose proof (Nat.mod_upper_bound (256 + 488 * m + 252) 253 ltac:(lia)). lia. }
  apply C31_receipt_layout in H1 as (l1 & (fee1 & key1 & logs1 & Hf1 & Hk1 & L1 & E1) & F1 & B1); auto.
  apply C31_receipt_layout in H2 as (l2 & (fee2 & key2 & logs2 & Hf2 & Hk2 & L2 & E2) & F2 & B2); auto.
  assert (EB : b1 = b2).
  { apply C27_pack_bits_injective; auto; [rewrite B1; apply layout_bit | rewrite B2; apply layout_bit | rewrite S1, S2, LE; reflexivity]. }
  assert (EW : map fst (concat logs1) = map fst (concat logs2)).
  { clear - L1 L2 LE. revert LE logs2 L2. generalize (ri_logs r2). induction L1 as [| f l fs ls H HF IH]; intros [| g gs] LE logs2 L2; try discriminate LE.
    - inversion L2. reflexivity.
    - inversion L2 as [| g' l' gs' ls' H' HF']; subst. cbn [concat]. rewrite !map_app, (log_widths _ _ H), (log_widths _ _ H'). f_equal. apply (IH gs); auto. }
  assert (EL : l1 = l2).
  { apply layout_inj; auto; [| congruence]. rewrite E1, E2, !map_app, EW. reflexivity. }
  rewrite E1, E2 in EL. apply app_len_inj in EL as [A1 EL]; [| reflexivity].
  assert (LC : length (concat logs1) = length (concat logs2)) by (rewrite <- (map_length fst (concat logs1)), <- (map_length fst (concat logs2)), EW; reflexivity).
  apply app_len_inj in EL as [A2 A3]; [| exact LC].
  assert (Q1 : ri_block r1 = ri_block r2) by congruence. assert (Q2 : fee1 = fee2) by congruence. assert (Q3 : key1 = key2) by congruence. assert (Q4 : ri_time r1 = ri_time r2) by congruence.
  split; [exact Q1 |]. split; [congruence |]. split; [congruence |]. split; [exact Q4 |].
  clear - L1 L2 LE A2. revert LE logs2 L2 A2. generalize (ri_logs r2). induction L1 as [| f l fs ls H HF IH]; intros [| g gs] LE logs2 L2 A2; try discriminate LE.
  - apply Forall2_nil.
  - inversion L2 as [| g' l' gs' ls' H' HF']; subst. cbn [concat] in A2.
    apply app_len_inj in A2 as [A A2]; [| rewrite <- (map_length fst l), <- (map_length fst l'), (log_widths _ _ H), (log_widths _ _ H'); reflexivity].
    subst l'. apply Forall2_cons; [eapply same_log_of_layout; eauto |]. apply (IH gs) with ls'; auto.
Qed.

Theorem C31_storage_injective : forall s1 s2 b1 b2, storage_nonneg s1 -> storage_nonneg s2 ->
  storage_bits s1 = Some b1 -> storage_bits s2 = Some b2 -> pack_bits_to_int b1 = pack_bits_to_int b2 ->
  si_block s1 = si_block s2 /\ set_string 0 (si_fee s1) = set_string 0 (si_fee s2) /\ set_string 0 (si_account s1) = set_string 0 (si_account s2) /\
  hex2bigint (si_slot s1) = hex2bigint (si_slot s2) /\ set_string 10 (si_value s1) = set_string 10 (si_value s2) /\ si_time s1 = si_time s2.
Proof.
  intros s1 s2 b1 b2 N1 N2 H1 H2 E.
  pose proof (proj1 (proj2 C31_sizes) s1 b1 N1 H1) as S1. pose proof (proj1 (proj2 C31_sizes) s2 b2 N2 H2) as S2.
  apply C31_storage_layout in H1 as (l1 & (fee1 & key1 & v1 & Hf1 & Hk1 & Hv1 & _ & E1) & F1 & B1); auto.
  apply C31_storage_layout in H2 as (l2 & (fee2 & key2 & v2 & Hf2 & Hk2 & Hv2 & _ & E2) & F2 & B2); auto.
  assert (EB : b1 = b2).
  { apply C27_pack_bits_injective; auto; [rewrite B1; apply layout_bit | rewrite B2; apply layout_bit | congruence]. }
  assert (EL : l1 = l2) by (apply layout_inj; auto; [rewrite E1, E2; reflexivity | congruence]).
  rewrite E1, E2 in EL. rewrite Hf1, Hf2, Hk1, Hk2, Hv1, Hv2.
  split; [congruence |]. split; [congruence |]. split; [congruence |]. split; [congruence |]. split; congruence.
Qed.

Theorem C31_tx_injective : forall t1 t2 b1 b2, tx_nonneg t1 -> tx_nonneg t2 ->
  tx_bits t1 = Some b1 -> tx_bits t2 = Some b2 -> pack_bits_to_int b1 = pack_bits_to_int b2 ->
  ti_block t1 = ti_block t2 /\ set_string 0 (ti_fee t1) = set_string 0 (ti_fee t2) /\ set_string 0 (ti_key t1) = set_string 0 (ti_key t2) /\
  hex2bigint (ti_leaf t1) = hex2bigint (ti_leaf t2) /\ ti_time t1 = ti_time t2.
Proof.
  intros s1 s2 b1 b2 N1 N2 H1 H2 E.
  pose proof (proj2 (proj2 C31_sizes) s1 b1 N1 H1) as S1. pose proof (proj2 (proj2 C31_sizes) s2 b2 N2 H2) as S2.
  apply C31_tx_layout in H1 as (l1 & (fee1 & key1 & Hf1 & Hk1 & _ & E1) & F1 & B1); auto.
  apply C31_tx_layout in H2 as (l2 & (fee2 & key2 & Hf2 & Hk2 & _ & E2) & F2 & B2); auto.
  assert (EB : b1 = b2).
  { apply C27_pack_bits_injective; auto; [rewrite B1; apply layout_bit | rewrite B2; apply layout_bit | congruence]. }
  assert (EL : l1 = l2) by (apply layout_inj; auto; [rewrite E1, E2; reflexivity | congruence]).
  rewrite E1, E2 in EL. rewrite Hf1, Hf2, Hk1, Hk2.
  split; [congruence |]. split; [congruence |]. split; [congruence |]. split; congruence.
Qed.

(** A receipt query is accepted by the hash iff it has at most seven log fields; storage and transaction queries always are. *)
Theorem C31_log_limit : forall P r b, receipt_nonneg r -> receipt_bits r = Some b ->
  ((exists id, receipt_query_id P r = Some id) <-> (length (ri_logs r) <= 7)%nat).
Proof.
  intros P r b N H. unfold receipt_query_id. rewrite H. cbn [obind]. unfold query_hash. rewrite pack_length, (proj1 C31_sizes r b N H).
  set (k := length (ri_logs r)). clearbody k.
  assert (A : (1 <= (256 + 488 * k + 252) / 253)%nat) by (apply Nat.div_le_lower_bound; lia).
  rewrite (proj2 (Nat.leb_le _ _) A). cbn [andb].
  destruct (Nat.le_gt_cases k 7) as [L | L].
  - assert (B : ((256 + 488 * k + 252) / 253 <= 16)%nat) by (apply Nat.lt_succ_r; apply Nat.div_lt_upper_bound; lia).
    rewrite (proj2 (Nat.leb_le _ _) B). cbn [guard obind]. split; eauto.
  - assert (B : (16 < (256 + 488 * k + 252) / 253)%nat) by (apply Nat.div_le_lower_bound; lia).
    rewrite (proj2 (Nat.leb_gt _ _) B). cbn [guard obind]. split; [intros [id X]; discriminate X | lia].
Qed.
Theorem C31_always_hashed : forall P s b t c, storage_nonneg s -> storage_bits s = Some b -> tx_nonneg t -> tx_bits t = Some c ->
  storage_query_id P s = Some (big_bytes (P (pack_bits_to_int b))) /\ tx_query_id P t = Some (big_bytes (P (pack_bits_to_int c))).
Proof.
  intros P s b t c N H M G. unfold storage_query_id, tx_query_id. rewrite H, G. cbn [obind]. unfold query_hash.
  rewrite !pack_length, (proj1 (proj2 C31_sizes) s b N H), (proj2 (proj2 C31_sizes) t c M G). split; reflexivity.
Qed.
(** The identifier is the same for two receipt queries iff the hash of the packed numbers is; with C31_receipt_injective:
    equal identifiers of different queries exhibit a Poseidon collision. *)
Theorem C31_id_collision : forall P r1 r2 b1 b2 id, (forall l, 0 <= P l) -> receipt_nonneg r1 -> receipt_nonneg r2 -> receipt_bits r1 = Some b1 -> receipt_bits r2 = Some b2 ->
  receipt_query_id P r1 = Some id -> receipt_query_id P r2 = Some id ->
  pack_bits_to_int b1 = pack_bits_to_int b2 \/ (pack_bits_to_int b1 <> pack_bits_to_int b2 /\ P (pack_bits_to_int b1) = P (pack_bits_to_int b2)).
Proof.
  intros P r1 r2 b1 b2 id HP N1 N2 H1 H2 I1 I2. unfold receipt_query_id in *. rewrite H1 in I1. rewrite H2 in I2. cbn [obind] in *. unfold query_hash in *.
  apply obind_Some in I1 as (u & _ & I1). apply obind_Some in I2 as (u' & _ & I2).
  destruct (list_eq_dec Z.eq_dec (pack_bits_to_int b1) (pack_bits_to_int b2)) as [E | E]; [left; exact E | right]. split; [exact E |].
  assert (Q : big_bytes (P (pack_bits_to_int b1)) = big_bytes (P (pack_bits_to_int b2))) by congruence.
  unfold big_bytes in Q. rewrite !Z.abs_eq in Q by apply HP. apply be_bytes_inj in Q; auto.
Qed.

(** ** What does not hold *)
(** Different kinds of queries are not separated: a receipt query with one log field can have the same pre-image as a
    transaction query. *)
Definition str0 : list Z := [48].
Definition zeros_hex (n : nat) : list Z := 48 :: 120 :: repeat 48 n.
Definition ex_receipt : receipt_info := {| ri_logs := [{| li_contract := zeros_hex 40; li_index := 0; li_topic0 := zeros_hex 64; li_from_topic := false; li_value_index := 0; li_value := zeros_hex 64 |}];
   ri_block := 5; ri_fee := str0; ri_key := str0; ri_time := 0 |}.
Definition ex_tx : tx_info := {| ti_block := 5; ti_fee := str0; ti_key := str0; ti_leaf := zeros_hex 64; ti_time := 0 |}.
Theorem C31_kinds_collide_refuted : exists b c, receipt_bits ex_receipt = Some b /\ tx_bits ex_tx = Some c /\ pack_bits_to_int b = pack_bits_to_int c.
Proof. eexists. eexists. split; [vm_compute; reflexivity |]. split; [vm_compute; reflexivity |]. vm_compute. reflexivity. Qed.
(** A negative base fee is accepted and encoded like a large positive one. *)
Theorem C31_negative_fee_refuted : exists t1 t2 b, tx_bits t1 = Some b /\ tx_bits t2 = Some b /\ set_string 0 (ti_fee t1) = Some (-1) /\ set_string 0 (ti_fee t2) = Some (2 ^ 128 - 1).
Proof.
  exists {| ti_block := 5; ti_fee := [45; 49]; ti_key := str0; ti_leaf := zeros_hex 64; ti_time := 0 |}.
  exists {| ti_block := 5; ti_fee := dec_string (2 ^ 128 - 1); ti_key := str0; ti_leaf := zeros_hex 64; ti_time := 0 |}.
  eexists. split; [vm_compute; reflexivity |]. split; [vm_compute; reflexivity |]. split; vm_compute; reflexivity.
Qed.
(** A negative storage value is hashed like its absolute value. *)
Theorem C31_negative_value_refuted : exists s1 s2 b, storage_bits s1 = Some b /\ storage_bits s2 = Some b /\ set_string 10 (si_value s1) = Some (-7) /\ set_string 10 (si_value s2) = Some 7.
Proof.
  exists {| si_account := str0; si_slot := []; si_value := [45; 55]; si_block := 1; si_fee := str0; si_time := 2 |}.
  exists {| si_account := str0; si_slot := []; si_value := [55]; si_block := 1; si_fee := str0; si_time := 2 |}.
  eexists. split; [vm_compute; reflexivity |]. split; [vm_compute; reflexivity |]. split; vm_compute; reflexivity.
Qed.
Example C31_nonvacuous : receipt_nonneg ex_receipt /\ tx_nonneg ex_tx /\ exists b, receipt_bits ex_receipt = Some b.
Proof.
  assert (T : text_nonneg 0 str0) by (intros x H; vm_compute in H; assert (x = 0) by congruence; lia).
  split; [| split].
  - split; [cbn; lia |]. split; [cbn; lia |]. split; [exact T |]. split; [exact T |]. apply Forall_cons; [cbn; lia | apply Forall_nil].
  - split; [cbn; lia |]. split; [cbn; lia |]. split; exact T.
  - eexists. vm_compute. reflexivity.
Qed.

(** ** The text of numbers: decimal and 0x-prefixed hexadecimal text is read as the number it denotes *)
Lemma scan_ok : forall b sep s acc count prev, Forall (fun c => digit_val c < b /\ c <> 95) s -> prev <> 2 ->
  scan_digits b sep s acc count prev false = Some (fold_left (fun a c => a * b + digit_val c) s acc, (count + length s)%nat).
Proof.
  induction s as [| c s IH]; intros acc count prev F Hp.
  - cbn [scan_digits fold_left length]. rewrite (proj2 (Z.eqb_neq _ _) Hp). cbn [orb negb guard obind]. rewrite Nat.add_0_r. reflexivity.
  - apply Forall_cons_iff in F as [[Hc Hu] F]. cbn [scan_digits fold_left length]. rewrite (proj2 (Z.eqb_neq _ _) Hu). cbn [andb].
    rewrite (proj2 (Z.ltb_lt _ _) Hc). rewrite IH by (auto; lia). f_equal. f_equal. lia.
Qed.
Lemma dec_digit : forall c, 48 <= c <= 57 -> digit_val c = c - 48.
Proof. intros c Hc. unfold digit_val. rewrite (proj2 (Z.leb_le _ _)), (proj2 (Z.leb_le _ _)) by lia. reflexivity. Qed.
Lemma dec_fold : forall s a, Forall (fun c => 48 <= c <= 57) s -> fold_left (fun a c => a * 10 + digit_val c) s a = fold_left (fun a c => 10 * a + (c - 48)) s a.
Proof. induction s as [| c s IH]; intros a F; [reflexivity |]. apply Forall_cons_iff in F as [Hc F]. cbn [fold_left]. rewrite dec_digit by auto. rewrite IH by auto. f_equal. lia. Qed.
Lemma dec_nonempty : forall n, exists c r, dec_string n = c :: r.
Proof. intros n. unfold dec_string. cbn [dec_fuel]. destruct (if n <? 10 then [] else dec_fuel (Z.to_nat (Z.log2 n)) (n / 10)) as [| c r]; [eexists _, _; reflexivity | eexists _, _; reflexivity]. Qed.
Lemma dec_no_leading_zero : forall f n c r, 0 < n < 10 ^ Z.of_nat f -> dec_fuel f n = c :: r -> c <> 48.
Proof.
  induction f as [| f IH]; intros n c r Hn E; [discriminate E |]. cbn [dec_fuel] in E. destruct (Z.ltb_spec n 10) as [L | L].
  - cbn [app] in E. assert (Ec : c = 48 + n mod 10) by congruence. rewrite Z.mod_small in Ec by lia. lia.
  - rewrite Nat2Z.inj_succ, Z.pow_succ_r in Hn by lia.
    assert (Hd : 0 < n / 10 < 10 ^ Z.of_nat f) by (split; [assert (1 <= n / 10) by (apply Z.div_le_lower_bound; lia); lia | apply Z.div_lt_upper_bound; lia]).
    destruct (dec_fuel f (n / 10)) as [| c' r'] eqn:Ed.
    + exfalso. destruct f; [change (10 ^ Z.of_nat 0) with 1 in Hd; lia |]. cbn [dec_fuel] in Ed. apply app_eq_nil in Ed as [_ Ed]. discriminate Ed.
    + cbn [app] in E. assert (Ec : c = c') by congruence. subst c'. eapply IH; eauto.
Qed.
Lemma set_string_digits : forall base c r, c <> 45 -> c <> 43 -> set_string base (c :: r) = scan_number base (c :: r).
Proof.
  intros base c r H1 H2. unfold set_string. destruct c as [| q | q]; try reflexivity.
  destruct q as [[[[[[|[]|]|[|[]|]|]|[[|[]|]|[]|]|]|[[[|[]|]|[]|]|[]|]|]|[[[[]|[]|]|[]|]|[]|]|]|[[[[]|[]|]|[]|]|[]|]|]; try reflexivity; try lia;
  repeat match goal with |- context [match ?x with _ => _ end] => is_var x; destruct x end; try reflexivity; exfalso; lia.
Qed.
Theorem C31_decimal_text : forall n, 0 <= n -> set_string 10 (dec_string n) = Some n /\ set_string 0 (dec_string n) = Some n.
Proof.
  intros n Hn. pose proof (dec_fuel_digits (S (Z.to_nat (Z.log2 n))) n Hn) as F. fold (dec_string n) in F.
  pose proof (dec_string_value n Hn) as V. unfold dec_value in V.
  assert (F10 : Forall (fun c => digit_val c < 10 /\ c <> 95) (dec_string n)).
  { eapply Forall_impl; [| exact F]. intros c Hc. cbv beta in Hc. rewrite dec_digit by auto. lia. }
  destruct (dec_nonempty n) as (c & r & E).
  assert (Hc : 48 <= c <= 57) by (rewrite E in F; apply Forall_cons_iff in F; apply F).
  assert (S10 : forall sep, scan_digits 10 sep (dec_string n) 0 0 0 false = Some (n, length (dec_string n))).
  { intros sep. rewrite scan_ok by (auto; lia). rewrite dec_fold by auto. rewrite V. reflexivity. }
  assert (NZ : Nat.eqb (length (dec_string n)) 0 = false) by (rewrite E; reflexivity).
  split.
  - rewrite E, set_string_digits by lia. rewrite <- E. unfold scan_number. cbn [Z.eqb]. rewrite S10. cbn [obind]. rewrite NZ. reflexivity.
  - destruct (Z.eq_dec n 0) as [-> | N0]; [reflexivity |].
    assert (N48 : c <> 48).
    { eapply (dec_no_leading_zero (S (Z.to_nat (Z.log2 n))) n); [| exact E]. split; [lia |].
      pose proof (Z.log2_spec n ltac:(lia)) as [_ H]. pose proof (Z.log2_nonneg n). eapply Z.lt_le_trans; [exact H |].
      replace (Z.of_nat (S (Z.to_nat (Z.log2 n)))) with (Z.succ (Z.log2 n)) by lia. apply Z.pow_le_mono_l. lia. }
    rewrite E, set_string_digits by lia. unfold scan_number. cbn [Z.eqb].
    assert (D : forall (X : Type) (x y : X) (z : Z -> list Z -> X), c <> 48 -> match c :: r with 48 :: [] => x | 48 :: c0 :: r0 => z c0 r0 | _ => y end = y).
    { intros X x y z Hne. destruct (Z.eqb_spec c 49), (Z.eqb_spec c 50), (Z.eqb_spec c 51), (Z.eqb_spec c 52), (Z.eqb_spec c 53), (Z.eqb_spec c 54), (Z.eqb_spec c 55), (Z.eqb_spec c 56), (Z.eqb_spec c 57); subst; try lia; reflexivity. }
    rewrite D by auto. rewrite <- E, S10. cbn [obind]. rewrite NZ. reflexivity.
Qed.
Lemma hex_digit_val : forall x, 0 <= x < 16 -> digit_val (hex_digit x) = x /\ hex_digit x <> 95.
Proof.
  intros x Hx. unfold hex_digit. destruct (Z.ltb_spec x 10).
  - split; [rewrite dec_digit by lia; lia | lia].
  - split; [| lia]. unfold digit_val. rewrite (proj2 (Z.leb_gt (87 + x) 57)) by lia. rewrite andb_false_r.
    rewrite (proj2 (Z.leb_le 97 (87 + x))), (proj2 (Z.leb_le (87 + x) 122)) by lia. cbn [andb]. lia.
Qed.
Lemma hex_fold : forall b a, Forall (fun x => 0 <= x < 256) b -> fold_left (fun a c => a * 16 + digit_val c) (bytes2hex b) a = fold_left (fun a x => 256 * a + x) b a.
Proof.
  induction b as [| x b IH]; intros a F; [reflexivity |]. apply Forall_cons_iff in F as [Hx F]. unfold bytes2hex. cbn [flat_map app fold_left]. fold (bytes2hex b).
  assert (H1 : 0 <= x / 16 < 16) by (split; [apply Z.div_pos; lia | apply Z.div_lt_upper_bound; lia]). assert (H2 : 0 <= x mod 16 < 16) by (apply Z.mod_pos_bound; lia).
  rewrite (proj1 (hex_digit_val _ H1)), (proj1 (hex_digit_val _ H2)). rewrite IH by auto. f_equal. pose proof (Z.div_mod x 16). lia.
Qed.
Theorem C31_hex_text : forall b, Forall (fun x => 0 <= x < 256) b -> b <> [] -> set_string 0 (bytes2hex0x b) = Some (be_val b).
Proof.
  intros b F N. unfold bytes2hex0x. cbn [set_string].
  assert (F16 : Forall (fun c => digit_val c < 16 /\ c <> 95) (bytes2hex b)).
  { clear N. induction F as [| x b Hx F IH]; [apply Forall_nil |]. unfold bytes2hex. cbn [flat_map app]. fold (bytes2hex b).
    assert (H1 : 0 <= x / 16 < 16) by (split; [apply Z.div_pos; lia | apply Z.div_lt_upper_bound; lia]). assert (H2 : 0 <= x mod 16 < 16) by (apply Z.mod_pos_bound; lia).
    apply Forall_cons; [destruct (hex_digit_val _ H1); lia |]. apply Forall_cons; [destruct (hex_digit_val _ H2); lia | exact IH]. }
  unfold scan_number. cbn [Z.eqb]. cbn [orb Pos.eqb Z.eqb].
  rewrite scan_ok by (auto; lia). cbn [obind]. rewrite hex_fold by auto. fold (be_val b).
  assert (L : (0 + length (bytes2hex b))%nat <> 0%nat) by (rewrite bytes2hex_length; destruct b; [congruence | cbn [length]; lia]).
  rewrite (proj2 (Nat.eqb_neq _ _) L). reflexivity.
Qed.
Example C31_octal_text : set_string 0 [48; 49; 48] = Some 8. Proof. reflexivity. Qed.
