(** * MptProofs.v — the node gadgets of MptModel.v against MptSpec.v *)
From Coq Require Import ZArith List Lia Bool Arith.
From Verif Require Import ModNorm Field FieldLemmas RlpUtilModel RlpUtilProofs RlpModel RlpSpec RlpPrefixProofs RlpArrayProofs RlpArraySound MptModel MptSpec.
Import ListNotations.
Open Scope Z_scope.
Open Scope circ_scope.

Ltac Zify.zify_post_hook ::= Z.div_mod_to_equations.

Lemma obind_some : forall A B (x : A) (f : A -> option B), obind (Some x) f = f x.
Proof. reflexivity. Qed.
(** one step of a satisfiable gadget sequence, without asking the kernel to convert big terms *)
Ltac ostep H := rewrite obind_some in H; cbv beta iota in H.

(** Only the first MaxHexLen digits are looked at. *)
Lemma nth_firstn_lt : forall (l : list Z) k n, (k < n)%nat -> nth k (firstn n l) 0 = nth k l 0.
Proof. intros. apply nth_firstn'; auto. Qed.

Lemma rlp_array_check_firstn : forall p a inp n, (2 + ac_prefixMax a <= ac_maxHexLen a)%nat ->
  (ac_maxHexLen a <= length inp)%nat ->
  rlp_array_check p a inp n = rlp_array_check p a (firstn (ac_maxHexLen a) inp) n.
Proof.
  intros p a inp n H1 H2. unfold rlp_array_check.
  assert (E : array_head p (ac_prefixMax a) inp = array_head p (ac_prefixMax a) (firstn (ac_maxHexLen a) inp)).
  { unfold array_head. rewrite firstn_length, !nth_firstn_lt by lia.
    replace (Nat.leb (2 + ac_prefixMax a) (length inp)) with true by (symmetry; apply Nat.leb_le; lia).
    replace (Nat.leb (2 + ac_prefixMax a) (Nat.min (ac_maxHexLen a) (length inp))) with true by (symmetry; apply Nat.leb_le; lia).
    rewrite skipn_firstn_comm, firstn_firstn. rewrite Nat.min_l by lia. reflexivity. }
  rewrite E. rewrite firstn_length, firstn_firstn, !Nat.min_l by lia.
  replace (Nat.leb (ac_maxHexLen a) (length inp)) with true by (symmetry; apply Nat.leb_le; lia).
  rewrite Nat.leb_refl. reflexivity.
Qed.

(** Facts that hold whenever the check is satisfiable. *)
Lemma array_check_shape : forall p a inp o total lens outs, 2 ^ 200 < p -> params_ok a ->
  length inp = ac_maxHexLen a -> Forall nibble inp ->
  rlp_array_check p a inp (Z.of_nat (length (ac_fields a))) = Some (o, total, lens, outs) ->
  is_bit o /\ 0 <= total < 2 ^ 66 /\ length lens = length (ac_fields a) /\ length outs = length (ac_fields a) /\
  Forall (fun l => 0 <= l < 2 ^ 65) lens /\ Forall (fun out => length out = length inp /\ Forall nibble out) outs.
Proof.
  intros p a inp o total lens outs Hp Ha Hl Hn H. rewrite rlp_array_check_ok in H by auto.
  destruct Ha as (P1 & P2 & P3 & P4 & P5). unfold sem_array_check in H.
  destruct (head_shape _ inp) as [[[v pre] t]|] eqn:Eh; [|discriminate].
  assert (Hl2 : (2 <= length inp)%nat) by lia.
  pose proof (head_shape_bounds _ _ _ _ _ Hn Hl2 (proj2 P1) Eh) as (Bv & Bp & Bt).
  destruct (2 + pre <? 16); [|discriminate].
  destruct (sem_fields _ _) as [q|] eqn:Eq; [|discriminate].
  assert (P5' : fields_ok (length inp) (ac_fields a)) by (rewrite Hl; auto).
  pose proof (sem_fields_bounds _ (length inp) _ _ P5' (rotl_length _ _) (rotl_nibble _ _ Hn) Hl2 Eq) as [Lq Fq].
  assert (o = bit_of (v + zsum (map q_c q) + bit_of (t =? zsum (map (fun x => q_h x + q_l x) q)) =? Z.of_nat (length (ac_fields a)) + 2)) by congruence.
  assert (total = 2 + pre + t) by congruence.
  assert (lens = map q_l q) by congruence. assert (outs = map q_out q) by congruence. subst.
  split; [apply bit_of_bit|]. split; [zlia|]. rewrite !map_length.
  split; [auto|]. split; [auto|]. split; apply Forall_map; eapply Forall_impl; try exact Fq; cbv beta; intros x Hx; tauto.
Qed.

Lemma leaf_params_ok : forall k v, Z.of_nat k < 2 ^ 60 -> Z.of_nat v < 2 ^ 60 -> (16 <= k + v)%nat -> params_ok (leaf_params k v).
Proof.
  intros k v Hk Hv Hkv. unfold params_ok, leaf_params, fields_ok. cbn [ac_prefixMax ac_maxHexLen ac_fields].
  set (m := (4 + (k + 2) + 4 + v)%nat). assert (Hm : Z.of_nat m < 2 ^ 62) by (subst m; zlia).
  assert (Hlc : (log_ceil m < 64)%nat).
  { rewrite log_ceil_spec by zlia. destruct (Nat.eqb_spec m 0); [zlia|].
    assert (Z.log2 (Z.of_nat m) < 62) by (apply Z.log2_lt_pow2; zlia).
    pose proof (Z.log2_nonneg (Z.of_nat m)). zlia. }
  assert (log_ceil m / 8 < 8)%nat by (apply Nat.div_lt_upper_bound; zlia).
  split; [zlia|]. split; [unfold m in *; zlia|]. split; [discriminate|]. split; [cbn; zlia|].
  assert (B1 := len_prefix_max_bounds (k + 2) ltac:(zlia)). assert (B2 := len_prefix_max_bounds v ltac:(zlia)).
  constructor; [|constructor; [|constructor]]; cbn [fst snd]; unfold m; (split; [|split]); zlia.
Qed.

Lemma ext_params_ok : forall k v, Z.of_nat k < 2 ^ 60 -> Z.of_nat v < 2 ^ 60 -> (16 <= k + v)%nat -> params_ok (ext_params k v).
Proof.
  intros k v Hk Hv Hkv. unfold params_ok, ext_params, fields_ok. cbn [ac_prefixMax ac_maxHexLen ac_fields].
  set (m := (4 + (k + 2) + 2 + v)%nat). assert (Hm : Z.of_nat m < 2 ^ 62) by (subst m; zlia).
  assert (Hlc : (log_ceil m < 64)%nat).
  { rewrite log_ceil_spec by zlia. destruct (Nat.eqb_spec m 0); [zlia|].
    assert (Z.log2 (Z.of_nat m) < 62) by (apply Z.log2_lt_pow2; zlia).
    pose proof (Z.log2_nonneg (Z.of_nat m)). zlia. }
  assert (log_ceil m / 8 < 8)%nat by (apply Nat.div_lt_upper_bound; zlia).
  split; [zlia|]. split; [unfold m in *; zlia|]. split; [discriminate|]. split; [cbn; zlia|].
  assert (B1 := len_prefix_max_bounds (k + 2) ltac:(zlia)). assert (B2 := len_prefix_max_bounds v ltac:(zlia)).
  constructor; [|constructor; [|constructor]]; cbn [fst snd]; unfold m; (split; [|split]); zlia.
Qed.

Lemma branch_params_ok : params_ok branch_params.
Proof.
  unfold params_ok, branch_params, fields_ok. cbn [ac_prefixMax ac_maxHexLen ac_fields].
  split; [lia|]. split; [lia|]. split; [discriminate|]. split; [cbn; zlia|].
  apply Forall_app. split; [|constructor; [|constructor]; cbn [fst snd]; (split; [|split]); try zlia; vm_compute; lia].
  apply Forall_forall. intros x Hx. apply repeat_spec in Hx. subst x. cbn [fst snd].
  split; [lia|]. split; [zlia|]. vm_compute; lia.
Qed.

(** payloads are whole bytes *)
Lemma payload_even : forall it, is_item it -> Nat.even (length (payload it)) = true.
Proof.
  intros it H. unfold is_item in H. remember (enc it) as e. remember (hdr it) as h. remember (payload it) as pl.
  destruct H; try reflexivity; apply Nat.even_spec.
  - exists (Z.to_nat len). lia.
  - exists (Z.to_nat (hexval ln)). lia.
Qed.

Lemma firstn_rotl_prefix : forall k n (l : list Z), (k + n <= length l)%nat -> firstn n (rotl k l) = firstn n (skipn k l).
Proof.
  intros k n l H. rewrite rotl_skipn by lia. rewrite firstn_app, skipn_length.
  replace (n - (length l - k))%nat with 0%nat by lia. cbn [firstn]. apply app_nil_r.
Qed.

Section P.
Variable p : Z.
Hypothesis Hp : 2 ^ 200 < p.
Let Hp' : 1606938044258990275541962092341162602522202993782792835301376 < p := Hp.
Let Hp2 : 2 < p. Proof. zlia. Qed.

Lemma bits_sum4 : forall a b c d, is_bit a -> is_bit b -> is_bit c -> is_bit d ->
  fadd p (fadd p (fadd p a b) c) d = a + b + c + d.
Proof.
  intros a b c d Ha Hb Hc Hd. unfold is_bit in *. rewrite (fadd_small p a b), (fadd_small p (a + b) c), fadd_small; zlia.
Qed.
Lemma fmul_bits a b : is_bit a -> is_bit b -> fmul p a b = a * b /\ is_bit (a * b).
Proof. unfold is_bit. intros [->| ->] [->| ->]; split; auto; rewrite fmul_small; zlia. Qed.

Lemma prefix_check_ok : forall odd even f0 prefLen, nibble odd -> nibble even -> Forall nibble f0 -> felt p prefLen ->
  prefix_check p odd even f0 prefLen =
   bit_of (((prefLen =? 1) && (nth 0 f0 0 =? odd)) || ((prefLen =? 2) && (nth 0 f0 0 =? even) && (nth 1 f0 0 =? 0))).
Proof.
  intros odd even f0 prefLen Ho He Hf Hpl. unfold prefix_check.
  assert (N0 := nth_nibble f0 0 Hf). assert (N1 := nth_nibble f0 1 Hf).
  rewrite !r_equal_ok by (auto; try (unfold felt, nibble in *; zlia)).
  destruct (Z.eqb_spec prefLen 1) as [->|]; cbn [bit_of andb orb].
  - change (1 =? 2) with false. cbn [bit_of andb]. rewrite !fmul0l.
    destruct (_ =? odd); cbn [bit_of orb]; unfold fmul, fadd; rewrite !Z.mod_small; try zlia. 
  - rewrite fmul0l. destruct (prefLen =? 2); cbn [bit_of andb]; [|rewrite !fmul0l; unfold fadd; rewrite Z.mod_small; zlia].
    destruct (_ =? even); cbn [bit_of andb]; [|rewrite !fmul0r, !fmul0l; unfold fadd; rewrite Z.mod_small; zlia].
    destruct (_ =? 0); cbn [bit_of]; unfold fmul, fadd; repeat (rewrite Z.mod_small; try zlia).
Qed.

(** The two-item node (leaf or extension) seen through the RLP check: contents of the two fields. *)
Lemma two_items : forall a inp total lens outs, params_ok a -> (exists m1 m2, ac_fields a = [(0, m1); m2]%nat /\ m1 <> 0%nat) ->
  length inp = ac_maxHexLen a -> Forall nibble inp ->
  rlp_array_check p a inp 2 = Some (1, total, lens, outs) ->
  exists k v, list_node inp [k; v] total /\
    lens = [Z.of_nat (length (payload k)); Z.of_nat (length (payload v))] /\
    exists o0 o1, outs = [o0; o1] /\
    ((length (payload k) <= length inp)%nat -> firstn (length (payload k)) o0 = payload k) /\
    ((length (payload v) <= length inp)%nat -> firstn (length (payload v)) o1 = payload v).
Proof.
  intros a inp total lens outs Ha (m1 & m2 & Hf & Hm) Hl Hn H.
  assert (Hlf : length (ac_fields a) = 2%nat) by (rewrite Hf; auto).
  assert (H' : rlp_array_check p a inp (Z.of_nat (length (ac_fields a))) = Some (1, total, lens, outs)) by (rewrite Hlf; exact H).
  destruct (array_check_sound p a inp total lens outs Hp Ha Hl Hn H') as (h & its & A1 & A2 & A3 & A4 & A5 & A6 & A7).
  { rewrite Hf. destruct (array_check_shape p a inp _ _ _ _ Hp Ha Hl Hn H') as (_ & _ & L & _). rewrite Hlf in L.
    destruct lens as [|l0 [|l1 [|]]]; try discriminate. cbn. destruct m2. split; auto. lia. }
  rewrite Hlf in A2. destruct its as [|k [|v [|]]]; try discriminate.
  exists k, v. split; [exists h; auto|]. split; [exact A4|].
  inversion A5 as [|? o0 ? r0 B1 B2]; subst. inversion B2 as [|? o1 ? r1 B3 B4]; subst. inversion B4; subst.
  exists o0, o1. auto.
Qed.

Lemma hex_prefix_intro : forall t k path plen, is_item k -> 
  (plen = 1%nat /\ nth 0 (payload k) 0 = 2 * t + 1 \/ plen = 2%nat /\ nth 0 (payload k) 0 = 2 * t /\ nth 1 (payload k) 0 = 0) ->
  (plen <= length (payload k))%nat -> path = skipn plen (payload k) -> payload k = hex_prefix t path.
Proof.
  intros t k path plen Hi H Hle ->. unfold hex_prefix. pose proof (payload_even k Hi) as He.
  rewrite skipn_length. destruct H as [[-> H0]|[-> [H0 H1]]].
  - destruct (payload k) as [|x r]; [cbn in Hle; lia|]. cbn [nth skipn length] in *. subst x.
    replace (S (length r) - 1)%nat with (length r) by lia.
    rewrite Nat.even_succ in He. rewrite <- Nat.negb_odd, He. reflexivity.
  - destruct (payload k) as [|x [|y r]]; [cbn in Hle; lia|cbn in Hle; lia|]. cbn [nth skipn length] in *. subst x y.
    replace (S (S (length r)) - 2)%nat with (length r) by lia. change (Nat.even (length r) = true) in He. rewrite He. reflexivity.
Qed.

(** comparison with a prefix of the key, shared by leaf and extension *)
Lemma path_compare : forall maxKey M key f0 l0 prefLen r,
  length key = maxKey -> (forall x, In x key -> felt p x) -> Forall nibble f0 -> length f0 = M ->
  (maxKey <= M)%nat -> Z.of_nat M < 2 ^ 62 -> felt p prefLen -> 0 <= l0 < 2 ^ 65 ->
  (let* kfr := r_shift_left p M 0 2 f0 prefLen in r_array_equal p key kfr maxKey (fsub p l0 prefLen)) = Some r ->
  0 <= prefLen < 4 /\ prefLen <= l0 <= prefLen + Z.of_nat maxKey /\ is_bit r /\
  r_shift_left p M 0 2 f0 prefLen = Some (rotl (Z.to_nat prefLen) f0) /\
  r_array_equal p key (rotl (Z.to_nat prefLen) f0) maxKey (fsub p l0 prefLen) = Some r /\
  fsub p l0 prefLen = l0 - prefLen /\
  (r = 1 <-> firstn (Z.to_nat (l0 - prefLen)) key = firstn (Z.to_nat (l0 - prefLen)) (rotl (Z.to_nat prefLen) f0)).
Proof.
  intros maxKey M key f0 l0 prefLen r Hlk Hfk Hn Hl HM HMb Hpl Hl0 H.
  assert (Hff : forall x, In x f0 -> felt p x) by (apply Forall_nibble_felt; auto).
  rewrite r_shift_left_ok in H by (auto; zlia). cbn [Nat.eqb] in H.
  change (2 ^ Z.of_nat (log_ceil (2 - 0))) with 4 in H. cbn [Z.of_nat] in H.
  assert (E0 : fsub p prefLen 0 = prefLen) by (rewrite fsub_small; unfold felt in Hpl; zlia).
  rewrite E0 in H. destruct (Z.ltb_spec prefLen 4) as [L|]; cbn [obind] in H; [|discriminate].
  rewrite Nat.add_0_l in H.
  assert (Hr : forall x, In x (rotl (Z.to_nat prefLen) f0) -> felt p x) by (apply rotl_felt; auto; zlia).
  pose proof H as H2.
  rewrite r_array_equal_ok in H; rewrite ?rotl_length; auto; try zlia; [|apply felt_fsub; zlia].
  destruct (Z.leb_spec (fsub p l0 prefLen) (Z.of_nat maxKey)) as [L1|]; [|discriminate].
  assert (Hge : prefLen <= l0).
  { destruct (Z_le_gt_dec prefLen l0); auto. exfalso. unfold felt in Hpl.
    assert (fsub p l0 prefLen = p + l0 - prefLen) by (unfold fsub; symmetry; apply (Z.mod_unique_pos _ _ (-1)); zlia). zlia. }
  assert (E1 : fsub p l0 prefLen = l0 - prefLen) by (apply fsub_small; unfold felt in Hpl; zlia).
  unfold felt in Hpl. rewrite E1 in *.
  split; [lia|]. split; [lia|]. assert (Er : r = bit_of (prefix_eqb (Z.to_nat (l0 - prefLen)) key (rotl (Z.to_nat prefLen) f0))) by congruence.
  split; [subst r; apply bit_of_bit|]. split.
  { rewrite r_shift_left_ok by (auto; zlia). cbn [Nat.eqb]. change (2 ^ Z.of_nat (log_ceil (2 - 0))) with 4. cbn [Z.of_nat].
    rewrite E0. destruct (Z.ltb_spec prefLen 4); [reflexivity|lia]. }
  split; [exact H2|]. split; [auto|].
  rewrite Er. unfold prefix_eqb. destruct (list_eq_dec _ _ _); cbn [bit_of]; split; intros; auto; try lia; try contradiction.
Qed.

Lemma key_item_path : forall t key f0 k M l0 prefLen, is_item k -> l0 = Z.of_nat (length (payload k)) ->
  firstn (length (payload k)) f0 = payload k -> length f0 = M -> 0 <= prefLen <= l0 -> (Z.to_nat l0 <= M)%nat ->
  ((prefLen =? 1) && (nth 0 f0 0 =? 2 * t + 1)) || ((prefLen =? 2) && (nth 0 f0 0 =? 2 * t) && (nth 1 f0 0 =? 0)) = true ->
  firstn (Z.to_nat (l0 - prefLen)) key = firstn (Z.to_nat (l0 - prefLen)) (rotl (Z.to_nat prefLen) f0) ->
  payload k = hex_prefix t (firstn (Z.to_nat (l0 - prefLen)) key).
Proof.
  intros t key f0 k M l0 prefLen Hi Hl0 Hf Hlf Hpl HM Hpc Hk.
  apply (hex_prefix_intro t k _ (Z.to_nat prefLen)); auto; try lia.
  - apply orb_true_iff in Hpc. rewrite !andb_true_iff, !Z.eqb_eq in Hpc.
    rewrite <- Hf. destruct Hpc as [[-> H]|[[-> H] H']]; [left|right]; rewrite !nth_firstn' by lia; auto.
  - rewrite Hk. rewrite firstn_rotl_prefix by lia. rewrite <- Hf. rewrite skipn_firstn_comm. f_equal. lia.
Qed.

Lemma two_fields_shape : forall a inp o total lens outs, params_ok a -> length (ac_fields a) = 2%nat ->
  length inp = ac_maxHexLen a -> Forall nibble inp ->
  rlp_array_check p a inp 2 = Some (o, total, lens, outs) ->
  exists l0 l1 f0 f1, lens = [l0; l1] /\ outs = [f0; f1] /\ is_bit o /\ 0 <= total < 2 ^ 66 /\
    0 <= l0 < 2 ^ 65 /\ 0 <= l1 < 2 ^ 65 /\ length f0 = length inp /\ length f1 = length inp /\
    Forall nibble f0 /\ Forall nibble f1.
Proof.
  intros a inp o total lens outs Ha Hlf Hl Hn H.
  assert (H' : rlp_array_check p a inp (Z.of_nat (length (ac_fields a))) = Some (o, total, lens, outs)) by (rewrite Hlf; exact H).
  destruct (array_check_shape p a inp _ _ _ _ Hp Ha Hl Hn H') as (B1 & B2 & B3 & B4 & B5 & B6).
  rewrite Hlf in *. destruct lens as [|l0 [|l1 [|]]]; try discriminate. destruct outs as [|f0 [|f1 [|]]]; try discriminate.
  inversion B5 as [|? ? C1 C2]; subst. inversion C2 as [|? ? C3 C4]; subst.
  inversion B6 as [|? ? D1 D2]; subst. inversion D2 as [|? ? D3 D4]; subst.
  exists l0, l1, f0, f1. intuition.
Qed.

Theorem check_extension_ok : forall maxKey maxRef keyLen key refLen refs nodeRlp prefLen o total,
  Z.of_nat maxKey < 2 ^ 60 -> Z.of_nat maxRef < 2 ^ 60 -> (16 <= maxKey + maxRef)%nat ->
  length key = maxKey -> length refs = maxRef -> (forall x, In x key -> felt p x) -> (forall x, In x refs -> felt p x) ->
  felt p keyLen -> felt p refLen -> felt p prefLen ->
  (ac_maxHexLen (ext_params maxKey maxRef) <= length nodeRlp)%nat -> Forall nibble nodeRlp ->
  check_extension p maxKey maxRef keyLen key refLen refs nodeRlp prefLen = Some (o, total) ->
  0 <= o <= 4 /\ 0 <= total < 2 ^ 66 /\
  (o = 4 -> 0 <= keyLen <= Z.of_nat maxKey /\ 0 <= refLen <= Z.of_nat maxRef /\
     ext_node (firstn (ac_maxHexLen (ext_params maxKey maxRef)) nodeRlp) total
       (firstn (Z.to_nat keyLen) key) (firstn (Z.to_nat refLen) refs)).
Proof.
  intros maxKey maxRef keyLen key refLen refs nodeRlp prefLen o total B1 B2 B3 Lk Lr Fk Fr FkL FrL Fpl Hlen Hn H.
  set (a := ext_params maxKey maxRef) in *.
  assert (Pa : params_ok a) by (apply ext_params_ok; auto).
  unfold check_extension in H. fold a in H.
  rewrite rlp_array_check_firstn in H by (auto; apply Pa).
  set (inp := firstn (ac_maxHexLen a) nodeRlp) in *.
  assert (Li : length inp = ac_maxHexLen a) by (unfold inp; rewrite firstn_length; lia).
  assert (Ni : Forall nibble inp) by (apply Forall_firstn; auto).
  destruct (rlp_array_check p a inp 2) as [[[[rlpout t] lens] outs]|] eqn:Ec; cbn [obind] in H; [|discriminate].
  destruct (two_fields_shape a inp _ _ _ _ Pa eq_refl Li Ni Ec) as (l0 & l1 & f0 & f1 & -> & -> & Ho & Ht & Hl0 & Hl1 & Hf0 & Hf1 & N0 & N1).
  cbn [nth] in H.
  destruct (r_shift_left p _ 0 2 f0 prefLen) as [kfr|] eqn:Es; cbn [obind] in H; [|discriminate].
  destruct (r_array_equal p key kfr maxKey _) as [mt|] eqn:Em; cbn [obind] in H; [|discriminate].
  assert (HM : ac_maxHexLen a = (4 + (maxKey + 2) + 2 + maxRef)%nat) by reflexivity.
  destruct (path_compare maxKey (ac_maxHexLen a) key f0 l0 prefLen mt) as (C1 & C2 & C3 & C4 & C5 & C6 & C7);
    auto; try zlia; try congruence. { rewrite Es. cbn [obind]. auto. }
  destruct (r_array_equal p refs f1 maxRef l1) as [rm|] eqn:Er; cbn [obind] in H; [|discriminate].
  rewrite C6 in H.
  assert (Hrm : l1 <= Z.of_nat maxRef /\ rm = bit_of (prefix_eqb (Z.to_nat l1) refs f1)).
  { rewrite r_array_equal_ok in Er; auto; try zlia; try (unfold felt; zlia); [|apply Forall_nibble_felt; auto].
    destruct (Z.leb_spec l1 (Z.of_nat maxRef)); [|discriminate]. split; [auto|congruence]. }
  destruct Hrm as [Hrm1 Hrm2].
  rewrite (r_equal_ok p Hp2 keyLen), (r_equal_ok p Hp2 refLen) in H by (unfold felt; zlia || auto).
  assert (Brm : is_bit rm) by (subst rm; apply bit_of_bit).
  destruct (fmul_bits mt (bit_of (keyLen =? l0 - prefLen)) C3 (bit_of_bit _)) as [M1 M2].
  destruct (fmul_bits rm (bit_of (refLen =? l1)) Brm (bit_of_bit _)) as [M3 M4].
  rewrite M1, M3 in H.
  rewrite (prefix_check_ok 1 0 f0 prefLen) in H by (auto; unfold nibble; lia).
  set (pc := ((prefLen =? 1) && (nth 0 f0 0 =? 1)) || ((prefLen =? 2) && (nth 0 f0 0 =? 0) && (nth 1 f0 0 =? 0))) in *.
  rewrite bits_sum4 in H by (auto; apply bit_of_bit).
  assert (Eo : o = rlpout + bit_of pc + mt * bit_of (keyLen =? l0 - prefLen) + rm * bit_of (refLen =? l1)) by congruence.
  assert (Et : total = t) by congruence. clear H.
  assert (Bpc := bit_of_bit pc).
  unfold is_bit in Ho, Bpc, M2, M4.
  split; [lia|]. split; [lia|]. intros Ho4.
  assert (E1 : rlpout = 1) by lia. assert (E2 : bit_of pc = 1) by lia.
  assert (E3 : mt * bit_of (keyLen =? l0 - prefLen) = 1) by lia. assert (E4 : rm * bit_of (refLen =? l1) = 1) by lia.
  assert (E3a : mt = 1) by (destruct C3 as [->| ->]; auto; lia).
  assert (E3b : keyLen = l0 - prefLen) by (destruct (Z.eqb_spec keyLen (l0 - prefLen)); auto; cbn in E3; lia).
  assert (E4a : rm = 1) by (destruct Brm as [->| ->]; auto; lia).
  assert (E4b : refLen = l1) by (destruct (Z.eqb_spec refLen l1); auto; cbn in E4; lia).
  subst rlpout. apply C7 in E3a.
  destruct (two_items a inp t _ _ Pa ltac:(do 2 eexists; split; [reflexivity|lia]) Li Ni Ec) as (k & v & D1 & D2 & o0 & o1 & D3 & D4 & D5).
  assert (o0 = f0 /\ o1 = f1) as [-> ->] by (split; congruence).
  assert (D2a : l0 = Z.of_nat (length (payload k))) by congruence.
  assert (D2b : l1 = Z.of_nat (length (payload v))) by congruence.
  split; [lia|]. split; [lia|].
  exists k, v. rewrite Et. split; [exact D1|].
  assert (Ik : is_item k) by (destruct D1 as (h & _ & F & _); inversion F; auto).
  split.
  - rewrite E3b. apply (key_item_path 0 key f0 k (ac_maxHexLen a)); auto; try lia.
    + apply D4. lia.
    + subst pc. destruct (_ || _); [reflexivity|cbn in E2; lia].
  - rewrite E4b. assert (G := D5 ltac:(lia)). rewrite <- G.
    rewrite Hrm2 in E4a. unfold prefix_eqb in E4a. destruct (list_eq_dec _ _ _) as [e|]; [|cbn in E4a; lia].
    rewrite e. f_equal. lia.
Qed.

Lemma branch_shape : forall nodeRlp o total lens outs, (1064 <= length nodeRlp)%nat -> Forall nibble nodeRlp ->
  rlp_array_check p branch_params nodeRlp 17 = Some (o, total, lens, outs) ->
  is_bit o /\ 0 <= total < 2 ^ 66 /\ length lens = 17%nat /\ length outs = 17%nat /\
  Forall (fun l => 0 <= l < 2 ^ 65) lens /\ Forall (fun out => length out = 1064%nat /\ Forall nibble out) outs /\
  (o = 1 -> exists its, list_node (firstn 1064 nodeRlp) its total /\ length its = 17%nat /\
     lens = map (fun it => Z.of_nat (length (payload it))) its /\
     Forall2 (fun it out => (length (payload it) <= 1064)%nat -> firstn (length (payload it)) out = payload it) its outs).
Proof.
  intros nodeRlp o total lens outs Hlen Hn H.
  rewrite rlp_array_check_firstn in H by (cbn [branch_params ac_prefixMax ac_maxHexLen]; lia).
  change (ac_maxHexLen branch_params) with 1064%nat in H.
  set (inp := firstn 1064 nodeRlp) in *.
  assert (Li : length inp = 1064%nat) by (unfold inp; rewrite firstn_length; lia).
  assert (Ni : Forall nibble inp) by (apply Forall_firstn; auto).
  assert (Lf : length (ac_fields branch_params) = 17%nat) by reflexivity.
  assert (H' : rlp_array_check p branch_params inp (Z.of_nat (length (ac_fields branch_params))) = Some (o, total, lens, outs)) by (rewrite Lf; exact H).
  pose proof (array_check_shape p _ inp _ _ _ _ Hp branch_params_ok Li Ni H') as (B1 & B2 & B3 & B4 & B5 & B6).
  rewrite Lf in *. rewrite Li in B6. repeat (split; [auto|]). intros ->.
  destruct (array_check_sound p branch_params inp total lens outs Hp branch_params_ok Li Ni) as (h & its & A1 & A2 & A3 & A4 & A5 & A6 & A7).
  { rewrite Lf. exact H. }
  { do 18 (destruct lens as [|? lens]; try discriminate).
    unfold branch_params. cbn [ac_fields repeat app fixed_lengths_hold tl]. repeat split; auto; lia. }
  exists its. rewrite Li in A5. split; [exists h; auto|]. auto.
Qed.

Lemma branch_rows_mux : forall fields keyNibble, length fields = 17%nat -> Forall (fun out => length out = 1064%nat /\ Forall nibble out) fields ->
  felt p keyNibble ->
  r_multiplexer p keyNibble 64 16 (branch_rows fields) =
    if keyNibble <? 16 then Some (firstn 64 (nth (Z.to_nat keyNibble) fields [])) else None.
Proof.
  intros fields kn Hl Hf Hk. unfold felt in Hk. unfold branch_rows.
  rewrite r_multiplexer_ok; auto; try zlia; rewrite ?map_length, ?seq_length; auto.
  - change (Z.of_nat 16) with 16. destruct (Z.ltb_spec kn 16) as [L|]; auto. f_equal.
    rewrite firstn_all2 by (rewrite map_length, seq_length; auto).
    set (c := nth (Z.to_nat kn) fields []).
    assert (Hc : length c = 1064%nat).
    { rewrite Forall_forall in Hf. apply Hf. apply nth_In. lia. }
    apply (nth_ext' _ _ _ 0). { rewrite firstn_length, !map_length, seq_length, Hc. reflexivity. }
    intros i Hi. rewrite !map_length, seq_length in Hi. rewrite map_map, nth_map_seq by auto.
    rewrite nth_map_seq by lia. rewrite nth_firstn' by auto. reflexivity.
  - intros row Hr. apply in_map_iff in Hr. destruct Hr as (j & <- & Hj). rewrite map_length, seq_length. split; auto.
    intros x Hx. apply in_map_iff in Hx. destruct Hx as (i & <- & Hi). apply in_seq in Hi.
    apply nibble_felt; auto. apply nth_nibble. rewrite Forall_forall in Hf. apply Hf. apply nth_In. lia.
Qed.

Theorem check_branch_ok : forall keyNibble refLen refs nodeRlp o total,
  length refs = 64%nat -> (forall x, In x refs -> felt p x) -> felt p keyNibble -> felt p refLen ->
  (1064 <= length nodeRlp)%nat -> Forall nibble nodeRlp ->
  check_branch p 64 keyNibble refLen refs nodeRlp = Some (o, total) ->
  0 <= keyNibble < 16 /\ 0 <= o <= 4 /\ 0 <= total < 2 ^ 66 /\
  (o = 4 -> 0 <= refLen <= 64 /\ branch_node (firstn 1064 nodeRlp) total keyNibble (firstn (Z.to_nat refLen) refs)).
Proof.
  intros kn refLen refs nodeRlp o total Lr Fr Fk FrL Hlen Hn H. unfold check_branch in H.
  destruct (rlp_array_check p branch_params nodeRlp 17) as [[[[rlpout t] lens] outs]|] eqn:Ec; [ostep H|discriminate].
  destruct (branch_shape _ _ _ _ _ Hlen Hn Ec) as (Ho & Ht & L1 & L2 & F1 & F2 & Hits).
  rewrite branch_rows_mux in H by auto. destruct (Z.ltb_spec kn 16) as [Lk|]; [ostep H|discriminate].
  unfold felt in Fk, FrL. set (f := nth (Z.to_nat kn) outs []) in *.
  assert (Hf : length f = 1064%nat /\ Forall nibble f).
  { rewrite Forall_forall in F2. apply F2. apply nth_In. lia. }
  destruct Hf as [Hf1 Hf2].
  destruct (r_array_equal p refs (firstn 64 f) 64 refLen) as [rc|] eqn:Er; [ostep H|discriminate].
  rewrite r_array_equal_ok in Er; rewrite ?firstn_length; auto; try zlia; try (unfold felt; zlia);
    [|apply Forall_nibble_felt; auto; apply Forall_firstn; auto].
  change (Z.of_nat 64) with 64 in Er. destruct (Z.leb_spec refLen 64) as [Lre|]; [|discriminate].
  assert (Erc : rc = bit_of (prefix_eqb (Z.to_nat refLen) refs (firstn 64 f))) by congruence. clear Er.
  assert (Hn17 : nth (Z.to_nat kn) (firstn 16 lens) 0 = nth (Z.to_nat kn) lens 0) by (apply nth_firstn'; lia).
  set (len := nth (Z.to_nat kn) lens 0) in *.
  assert (Hlenb : 0 <= len < 2 ^ 65).
  { rewrite Forall_forall in F1. apply F1. apply nth_In. lia. }
  rewrite r_mux1_ok in H; auto; try zlia.
  2:{ rewrite firstn_length; lia. }
  2:{ intros x Hx. rewrite Forall_forall in F1. assert (0 <= x < 2 ^ 65); [|unfold felt; zlia].
      apply F1. rewrite <- (firstn_skipn 16 lens). apply in_or_app; auto. }
  change (Z.of_nat 16) with 16 in H. destruct (Z.ltb_spec kn 16); [|lia]. ostep H. rewrite Hn17 in H.
  rewrite r_equal_ok in H by (auto; unfold felt; zlia).
  assert (B1 : is_bit rc) by (subst rc; apply bit_of_bit). assert (B2 := bit_of_bit (len =? refLen)).
  rewrite bits_sum4 in H by (auto; right; auto).
  assert (Eo : o = rlpout + rc + bit_of (len =? refLen) + 1) by congruence. assert (Et : total = t) by congruence.
  unfold is_bit in *. split; [lia|]. split; [lia|]. split; [lia|]. intros Ho4.
  assert (E1 : rlpout = 1) by lia. assert (E2 : rc = 1) by lia. assert (E3 : bit_of (len =? refLen) = 1) by lia.
  destruct (Z.eqb_spec len refLen) as [E3'|]; [|cbn in E3; lia].
  split; [lia|]. destruct (Hits E1) as (its & I1 & I2 & I3 & I4).
  exists its. rewrite Et. split; [auto|]. split; [auto|]. split; [lia|].
  set (it := nth (Z.to_nat kn) its ([], [])).
  assert (Hit : Z.of_nat (length (payload it)) = len).
  { unfold len. rewrite I3. rewrite (nth_map' _ _ _ its _ 0 ([], [])) by lia. reflexivity. }
  assert (Hfi : firstn (length (payload it)) f = payload it).
  { assert (Hx : forall (its : list item) outs i, Forall2 (fun it out => (length (payload it) <= 1064)%nat -> firstn (length (payload it)) out = payload it) its outs ->
       (i < length its)%nat -> (length (payload (nth i its ([], []))) <= 1064)%nat ->
       firstn (length (payload (nth i its ([], [])))) (nth i outs []) = payload (nth i its ([], []))).
    { clear. intros its outs i HF. revert i. induction HF; intros i Hi Hl; cbn in Hi; [lia|]. destruct i; cbn [nth] in *; auto. apply IHHF; auto. lia. }
    apply Hx; auto; [lia|]. fold it. lia. }
  rewrite <- Hfi. rewrite Erc in E2. unfold prefix_eqb in E2. destruct (list_eq_dec _ _ _) as [e|]; [|cbn in E2; lia].
  rewrite e, firstn_firstn. f_equal. lia.
Qed.

(** Leaf *)

Theorem check_leaf_ok : forall maxKey maxValue keyLen key value leafRlp prefLen o total vlen,
  Z.of_nat maxKey < 2 ^ 60 -> Z.of_nat maxValue < 2 ^ 60 ->
  (forall x, In x key -> felt p x) -> (forall x, In x value -> felt p x) -> Z.of_nat (length key) < p -> Z.of_nat (length value) < p ->
  felt p keyLen -> felt p prefLen ->
  (ac_maxHexLen (leaf_params maxKey maxValue) <= length leafRlp)%nat -> Forall nibble leafRlp ->
  check_leaf p maxKey maxValue keyLen key value leafRlp prefLen = Some (o, total, vlen) ->
  length key = maxKey /\ length value = maxValue /\ (66 <= maxValue)%nat /\ 0 <= o <= 4 /\ 0 <= total < 2 ^ 66 /\ 0 <= vlen <= Z.of_nat maxValue /\
  (o = 4 ->
    (0 <= keyLen <= Z.of_nat maxKey /\
     leaf_node (firstn (ac_maxHexLen (leaf_params maxKey maxValue)) leafRlp) total
       (firstn (Z.to_nat keyLen) key) (firstn (Z.to_nat vlen) value)) \/
    (zero_value value /\ exists path v,
       leaf_node (firstn (ac_maxHexLen (leaf_params maxKey maxValue)) leafRlp) total path v /\
       (length path <= maxKey)%nat /\ firstn (length path) key <> path)).
Proof.
  intros maxKey maxValue keyLen key value leafRlp prefLen o total vlen B1 B2 Fk Fv Lkp Lvp FkL Fpl Hlen Hn H.
  set (a := leaf_params maxKey maxValue) in *.
  unfold check_leaf in H. fold a in H.
  unfold assert_eq in H. rewrite !(Z.mod_small (Z.of_nat _)) in H by zlia.
  destruct (Z.eqb_spec (Z.of_nat (length key)) (Z.of_nat maxKey)) as [Lk|]; cbn [guard] in H; [ostep H|discriminate].
  destruct (Z.eqb_spec (Z.of_nat (length value)) (Z.of_nat maxValue)) as [Lv|]; cbn [guard] in H; [ostep H|discriminate].
  apply Nat2Z.inj in Lk. apply Nat2Z.inj in Lv.
  destruct (Nat.leb_spec 2 (length value)) as [L2|]; cbn [guard] in H; [ostep H|discriminate].
  assert (Fv2 : forall x, In x (firstn 2 value) -> felt p x).
  { intros x Hx. apply Fv. rewrite <- (firstn_skipn 2 value). apply in_or_app; auto. }
  assert (Fvs : forall x, In x (skipn 2 value) -> felt p x).
  { intros x Hx. apply Fv. rewrite <- (firstn_skipn 2 value). apply in_or_app; auto. }
  rewrite (r_array_equal_ok p Hp2 (firstn 2 value)) in H; rewrite ?firstn_length; cbn [length]; auto; try zlia; try (unfold felt; zlia).
  2:{ intros x [<-|[<-|[]]]; unfold felt; zlia. }
  change (2 <=? Z.of_nat 2) with true in H. cbv iota in H. ostep H.
  destruct (r_array_equal p (skipn 2 value) (repeat 0 64) 64 64) as [za|] eqn:Ez; [ostep H|discriminate].
  assert (L66 : (64 <= length (skipn 2 value))%nat).
  { unfold r_array_equal, assert_le in Ez. rewrite !(Z.mod_small (Z.of_nat _)) in Ez by (rewrite ?skipn_length; zlia).
    destruct (Z.leb_spec (Z.of_nat 64) (Z.of_nat (length (skipn 2 value)))); [lia|discriminate]. }
  rewrite r_array_equal_ok in Ez; rewrite ?repeat_length; auto; try zlia; try (unfold felt; zlia).
  2:{ intros x Hx. apply repeat_spec in Hx. subst; unfold felt; zlia. }
  2:{ rewrite skipn_length; zlia. }
  change (64 <=? Z.of_nat 64) with true in Ez.
  assert (Eza : za = bit_of (prefix_eqb (Z.to_nat 64) (skipn 2 value) (repeat 0 64))) by congruence. clear Ez.
  rewrite skipn_length in L66.
  set (sg := prefix_eqb (Z.to_nat 2) (firstn 2 value) [8; 0]) in *.
  set (zz := prefix_eqb (Z.to_nat 64) (skipn 2 value) (repeat 0 64)) in *.
  rewrite Eza in H. rewrite (fand_ok p Hp2) in H by apply bit_of_bit. ostep H.
  assert (Hbt : forall b, (bit_of b =? 1) = b) by (intros []; reflexivity). rewrite !Hbt in H.
  assert (Pa : params_ok a) by (apply leaf_params_ok; auto; lia).
  rewrite rlp_array_check_firstn in H by (auto; apply Pa).
  set (inp := firstn (ac_maxHexLen a) leafRlp) in *.
  assert (Li : length inp = ac_maxHexLen a) by (unfold inp; rewrite firstn_length; lia).
  assert (Ni : Forall nibble inp) by (apply Forall_firstn; auto).
  destruct (rlp_array_check p a inp 2) as [[[[rlpout t] lens] outs]|] eqn:Ec; [ostep H|discriminate].
  destruct (two_fields_shape a inp _ _ _ _ Pa eq_refl Li Ni Ec) as (l0 & l1 & f0 & f1 & -> & -> & Ho & Ht & Hl0 & Hl1 & Hf0 & Hf1 & N0 & N1).
  cbn [nth] in H.
  destruct (r_shift_left p _ 0 2 f0 prefLen) as [kfr|] eqn:Es; [ostep H|discriminate].
  destruct (r_array_equal p key kfr maxKey _) as [mt|] eqn:Em; [ostep H|discriminate].
  assert (HM : ac_maxHexLen a = (4 + (maxKey + 2) + 4 + maxValue)%nat) by reflexivity.
  destruct (path_compare maxKey (ac_maxHexLen a) key f0 l0 prefLen mt) as (C1 & C2 & C3 & C4 & C5 & C6 & C7);
    auto; try zlia; try congruence. { rewrite Es. cbn [obind]. auto. }
  assert (Bn : is_bit (fsub p 1 mt) /\ (fsub p 1 mt =? 1) = (mt =? 0)).
  { destruct C3 as [->| ->]; (rewrite fsub_small by zlia); cbn; split; auto; [right|left]; auto. }
  destruct Bn as [Bn1 Bn2].
  rewrite (fand_ok p Hp2) in H by (auto; apply bit_of_bit). ostep H. rewrite Hbt, Bn2 in H.
  destruct (r_array_equal p value f1 maxValue l1) as [vm|] eqn:Er; [ostep H|discriminate].
  rewrite C6 in H.
  assert (Hvm : l1 <= Z.of_nat maxValue /\ vm = bit_of (prefix_eqb (Z.to_nat l1) value f1)).
  { rewrite r_array_equal_ok in Er; auto; try zlia; try (unfold felt; zlia); [|apply Forall_nibble_felt; auto].
    destruct (Z.leb_spec l1 (Z.of_nat maxValue)); [|discriminate]. split; [auto|congruence]. }
  destruct Hvm as [Hvm1 Hvm2].
  rewrite (r_equal_ok p Hp2 keyLen) in H by (unfold felt; zlia || auto).
  assert (Bvm : is_bit vm) by (subst vm; apply bit_of_bit).
  destruct (fmul_bits mt (bit_of (keyLen =? l0 - prefLen)) C3 (bit_of_bit _)) as [M1 M2].
  rewrite M1 in H.
  rewrite (prefix_check_ok 3 2 f0 prefLen) in H by (auto; unfold nibble; lia).
  set (pc := ((prefLen =? 1) && (nth 0 f0 0 =? 3)) || ((prefLen =? 2) && (nth 0 f0 0 =? 2) && (nth 1 f0 0 =? 0))) in *.
  rewrite bits_sum4 in H by (auto; apply bit_of_bit).
  assert (Bpc := bit_of_bit pc). unfold is_bit in Ho, Bpc, M2, Bvm.
  rewrite (fadd_small p rlpout) in H by zlia. rewrite (fadd_small p (rlpout + _)) in H by zlia.
  rewrite (fselect_ok p Hp2) in H; [|apply bit_of_bit|unfold felt; zlia|unfold felt; zlia].
  ostep H. rewrite Hbt in H.
  assert (Eo : o = if (sg && zz) && (mt =? 0) then rlpout + bit_of pc + 2 else rlpout + bit_of pc + mt * bit_of (keyLen =? l0 - prefLen) + vm) by congruence.
  assert (Et : total = t) by congruence. assert (Ev : vlen = l1) by congruence. clear H.
  split; [auto|]. split; [auto|]. split; [lia|].
  split; [destruct ((sg && zz) && (mt =? 0)); lia|]. split; [lia|]. split; [lia|]. intros Ho4. rewrite Ho4 in Eo.
  assert (E12 : rlpout = 1 /\ bit_of pc = 1) by (destruct ((sg && zz) && (mt =? 0)); lia). destruct E12 as [E1 E2].
  subst rlpout.
  destruct (two_items a inp t _ _ Pa ltac:(do 2 eexists; split; [reflexivity|lia]) Li Ni Ec) as (k & v & D1 & D2 & o0 & o1 & D3 & D4 & D5).
  assert (o0 = f0 /\ o1 = f1) as [-> ->] by (split; congruence).
  assert (D2a : l0 = Z.of_nat (length (payload k))) by congruence.
  assert (D2b : l1 = Z.of_nat (length (payload v))) by congruence.
  assert (Ik : is_item k) by (destruct D1 as (h & _ & F & _); inversion F; auto).
  assert (Epc : pc = true) by (destruct pc; auto; cbn in E2; lia).
  assert (Dk : firstn (length (payload k)) f0 = payload k) by (apply D4; lia).
  destruct ((sg && zz) && (mt =? 0)) eqn:Es2.
  - right. apply andb_true_iff in Es2. destruct Es2 as [Es2 Em0]. apply andb_true_iff in Es2. destruct Es2 as [Esg Ezz].
    apply Z.eqb_eq in Em0. split.
    { unfold sg, zz, prefix_eqb in Esg, Ezz. destruct (list_eq_dec _ _ _) as [e1|]; [|discriminate]. clear Esg.
      destruct (list_eq_dec _ _ _) as [e2|]; [|discriminate]. split.
      - rewrite firstn_firstn in e1. exact e1.
      - rewrite firstn_all2 with (l := repeat 0 64) in e2 by (rewrite repeat_length; auto). exact e2. }
    set (path := firstn (Z.to_nat (l0 - prefLen)) (rotl (Z.to_nat prefLen) f0)).
    assert (Lp : length path = Z.to_nat (l0 - prefLen)) by (unfold path; rewrite firstn_length, rotl_length; lia).
    exists path, (payload v). split; [|split].
    + exists k, v. rewrite Et. split; [auto|]. split; auto.
      assert (G : firstn (Z.to_nat (l0 - prefLen)) path = path) by (apply firstn_all2; lia). rewrite <- G at 1.
      apply (key_item_path 1 path f0 k (ac_maxHexLen a)); auto; try lia.
    + lia.
    + rewrite Lp. intros e. apply C7 in e. lia.
  - left. assert (E3 : mt * bit_of (keyLen =? l0 - prefLen) = 1) by lia. assert (E4 : vm = 1) by lia.
    assert (E3a : mt = 1) by (destruct C3 as [->| ->]; auto; lia).
    assert (E3b : keyLen = l0 - prefLen) by (destruct (Z.eqb_spec keyLen (l0 - prefLen)); auto; cbn in E3; lia).
    apply C7 in E3a. split; [lia|].
    exists k, v. rewrite Et. split; [exact D1|]. split.
    + rewrite E3b. apply (key_item_path 1 key f0 k (ac_maxHexLen a)); auto; try lia.
    + rewrite Ev. assert (G := D5 ltac:(lia)). rewrite <- G.
      rewrite Hvm2 in E4. unfold prefix_eqb in E4. destruct (list_eq_dec _ _ _) as [e|]; [|cbn in E4; lia].
      rewrite e. f_equal. lia.
Qed.
End P.
