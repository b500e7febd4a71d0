(** * Props_EthAbsence.v — C82: storage proofs of absent slots are accepted, and below a branch without the child for every claimed value.

    Walks of nodes, honest layer inputs and size conditions as in C80 (MptTrie.v, Props_MptPathComplete.v). *)
From Coq Require Import ZArith List Lia Bool Arith.
From Verif Require Import ModNorm Field FieldLemmas RlpUtilModel RlpUtilProofs RlpModel RlpSpec RlpPrefixProofs RlpArrayProofs RlpArraySound BlkProofs ArrayFelt HexProofs
  RlpEnc RlpBridge MptModel MptSpec MptTrie MptProofs MptPathProofs MptPathSound MptComplete MptPathComplete MptPathComplete2 MptStorage MptAbsence EthModel EthProofs EthSpec EthItems EthSound
  Props_Mpt Props_Eth Props_EthCases Props_MptPathComplete Props_EthComplete.
Import ListNotations.
Open Scope Z_scope.

(** the buffer of the node a walk ends in *)
Definition last_ok (p : Z) (buf : list Z) (round : Z) : Prop :=
  Forall nibble buf /\ aligned buf /\ (1064 <= length buf)%nat /\ Z.of_nat (length buf) < 2 ^ 60 /\ felt p round.
(** a branch of sixteen byte strings of at most 32 bytes without a value, the one at [digit] empty *)
Definition branch_without (buf : list Z) (digit : Z) : Prop := exists children rest, length children = 16%nat /\
  (forall c, In c children -> Forall is_byte c /\ (length c <= 32)%nat) /\ buf = nib (rlp (RList (map RStr (children ++ [[]])))) ++ rest /\ nth (Z.to_nat digit) children [] = [].
(** a padded leaf (as [padded_leaf]) whose key part encodes [path] *)
Definition padded_leaf_of (buf : list Z) (path : list Z) : Prop := exists kb v bs t, Forall is_byte kb /\ (1 <= length kb <= 32)%nat /\ nib kb = hex_prefix 1 path /\
  Forall is_byte v /\ (length v <= 33)%nat /\ length bs = 15%nat /\ Forall (fun b => 0 <= b <= 128) bs /\ buf = nib (rlp (RList [RStr kb; RStr v])) ++ nib bs ++ t.

Lemma branches_used hops : (forall h, In h hops -> h_frag h = None) -> digits_used hops = length hops.
Proof.
  induction hops as [|h t IH]; intros F; [reflexivity|]. rewrite used_cons, IH by (intros; apply F; right; assumption). cbn [length]. unfold consumed. rewrite (F h (or_introl eq_refl)). lia.
Qed.

(** at a branch without a child at digit number [length hops] of the key: accepted with leaf flag length 0, for every claimed
    value. Below branches only that digit is the key's next one ([branches_used]), so the key is absent; below an extension
    it is an earlier one (see C82_present_key_other_digit). *)
Theorem C82_absent_child_any_value : forall p hash maxDepth W key hops root buf round value, 2 ^ 200 < p -> hash_ok p hash ->
  (maxDepth <= 10)%nat -> (1 <= length hops < maxDepth)%nat -> length key = 64%nat -> Forall nibble key ->
  (1064 <= W)%nat -> aligned (repeat 0 W) -> (exists d, hash (repeat 0 W) 0 = Some d) ->
  hops_ok p hops -> last_ok p buf round -> branch_without buf (nth (length hops) key 0) ->
  trie_to (fun b r d => hash b r = Some d) key 0 root hops buf round ->
  length value = 66%nat -> (forall x, In x value -> felt p x) ->
  exists vl, check_mpt_fixed p hash maxDepth 64 66 value root buf round 0 (honest maxDepth key (repeat 0 W) hops) true = Some (1, vl).
Proof.
  intros p hash maxDepth W key hops root buf round value Hp Hh H1 H2 H3 H4 H5 H6 H7 H8 (B1 & B2 & B3 & B4 & B5) (cs & rest & C1 & C2 & C3 & C4) Ht V1 V2.
  destruct (to_chain _ _ _ _ _ _ _ Ht) as (ds & D1 & D2 & Ch & U & Eh). rewrite Nat.add_0_l in U.
  assert (Fc : Forall child_ok cs) by (apply Forall_forall; intros c I; exact (C2 c I)).
  assert (Fk : forall x, In x key -> felt p x) by (apply (Forall_nibble_felt p Hp); exact H4).
  assert (Fr : forall x, In x (rotl (digits_used hops) key) -> felt p x) by (intros x I; apply (rotl_felt p (digits_used hops) key Fk); exact I).
  assert (Q : 1000 < p) by (assert (1000 < 2 ^ 200) by reflexivity; lia).
  assert (Fkl : felt p (Z.of_nat (64 - digits_used hops))) by (unfold felt; lia).
  assert (Lr : length (rotl (digits_used hops) key) = 64%nat) by (rewrite rotl_length; exact H3).
  destruct (branch_leaf_total p Hp cs rest buf (rotl (digits_used hops) key) (Z.of_nat (64 - digits_used hops)) value C3 C1 Fc B3 B1 Lr Fr V1 V2 Fkl) as (o & t & l1 & LC & Fo).
  exists l1. apply (mpt_complete_gen p Hp hash Hh true maxDepth W key hops root buf round 66 value ds 0 o t l1 LC); try assumption; try lia.
  apply (branch_override p Hp cs rest buf key _ _ (length hops) o C3 C1 Fc B3 B1 H3 H4 Lr Fr); [lia|exact C4|exact Fo].
Qed.

(** the same for CheckEthStorageProof: an absent slot is proved to hold any value of 1 to 32 bytes *)
Theorem C82_absent_child_storage_any_value : forall p hash maxDepth W key hops root buf round valueRlp d rest, 2 ^ 248 < p -> hash_ok p hash ->
  (maxDepth <= 10)%nat -> (1 <= length hops < maxDepth)%nat -> length key = 64%nat -> Forall nibble key -> length root = 64%nat ->
  (1064 <= W)%nat -> aligned (repeat 0 W) -> (exists d, hash (repeat 0 W) 0 = Some d) ->
  hops_ok p hops -> last_ok p buf round -> branch_without buf (nth (length hops) key 0) ->
  trie_to (fun b r d => hash b r = Some d) key 0 root hops buf round ->
  length valueRlp = 66%nat -> (forall x, In x valueRlp -> felt p x) -> valueRlp = enc (str d) ++ rest -> bytes_between 1 32 d ->
  exists res, check_eth_storage p hash maxDepth root valueRlp buf round 0 (honest maxDepth key (repeat 0 W) hops) = Some res /\
    es_output res = 1 /\ es_slotValue res = (hexval d mod 2 ^ 248, hexval d / 2 ^ 248).
Proof.
  intros p hash maxDepth W key hops root buf round valueRlp d rest Hp Hh H1 H2 H3 H4 Lroot H5 H6 H7 H8 H9 H10 H11 V1 V2 Ev Hd.
  assert (Hp2 : 2 ^ 200 < p) by (eapply Z.lt_trans; [|exact Hp]; reflexivity).
  destruct (C82_absent_child_any_value p hash maxDepth W key hops root buf round valueRlp Hp2 Hh H1 H2 H3 H4 H5 H6 H7 H8 H9 H10 H11 V1 V2) as (vl & C).
  destruct (slot_total p valueRlp d rest Hp V1 V2 Ev Hd) as (sv & SV).
  eassert (E : check_eth_storage p hash maxDepth root valueRlp buf round 0 (honest maxDepth key (repeat 0 W) hops) = Some _).
  { unfold check_eth_storage. cbn [honest li_key] in *. rewrite Lroot, H3, V1. cbn [Nat.eqb andb guard obind]. rewrite C. cbn [obind]. rewrite SV. reflexivity. }
  eexists. split; [exact E|]. split; [reflexivity|]. exact (C63_slot_value p hash maxDepth root valueRlp buf round _ _ _ d rest Hp V2 E Ev Hd).
Qed.

(** at a leaf of another key, with the claimed value 0x80 (zero-padded): accepted with the leaf's own flag length *)
Theorem C82_absent_leaf_accepted : forall p hash maxDepth W key hops root buf round path, 2 ^ 200 < p -> hash_ok p hash ->
  (maxDepth <= 10)%nat -> (1 <= length hops < maxDepth)%nat -> length key = 64%nat -> Forall nibble key ->
  (1064 <= W)%nat -> aligned (repeat 0 W) -> (exists d, hash (repeat 0 W) 0 = Some d) ->
  hops_ok p hops -> last_ok p buf round ->
  padded_leaf_of buf path -> (digits_used hops + length path = 64)%nat -> path <> skipn (digits_used hops) key ->
  trie_to (fun b r d => hash b r = Some d) key 0 root hops buf round ->
  exists vl, check_mpt_fixed p hash maxDepth 64 66 ([8; 0] ++ repeat 0 64) root buf round (flag_len path) (honest maxDepth key (repeat 0 W) hops) true = Some (1, vl).
Proof.
  intros p hash maxDepth W key hops root buf round path Hp Hh H1 H2 H3 H4 H5 H6 H7 H8 (B1 & B2 & B3 & B4 & B5) (kb & v & bs & tl & K1 & K2 & K3 & K4 & K5 & K6 & K7 & K8) Lp Np Ht.
  destruct (to_chain _ _ _ _ _ _ _ Ht) as (ds & D1 & D2 & Ch & U & Eh). rewrite Nat.add_0_l in U.
  assert (Fk : forall x, In x key -> felt p x) by (apply (Forall_nibble_felt p Hp); exact H4).
  assert (Fr : forall x, In x (rotl (digits_used hops) key) -> felt p x) by (intros x I; apply (rotl_felt p (digits_used hops) key Fk); exact I).
  assert (Q : 1000 < p) by (assert (1000 < 2 ^ 200) by reflexivity; lia).
  assert (Fkl : felt p (Z.of_nat (64 - digits_used hops))) by (unfold felt; lia).
  assert (Lr : length (rotl (digits_used hops) key) = 64%nat) by (rewrite rotl_length; exact H3).
  assert (LT : (2 * length (rlp (RList [RStr kb; RStr v])) <= 140)%nat) by (pose proof (leaf_len kb v K1 K4 ltac:(lia) ltac:(lia)); lia).
  assert (Np' : firstn (length path) (rotl (digits_used hops) key) <> path).
  { rewrite firstn_rotl_prefix by lia. rewrite firstn_all2 by (rewrite skipn_length; lia). congruence. }
  assert (LC := leaf_other p Hp (rotl (digits_used hops) key) (Z.of_nat (64 - digits_used hops)) buf kb v path (nib bs ++ tl) Lr Fr Fkl B1 ltac:(lia) K8 K1 K4 K3 ltac:(lia) Np' K5 LT). cbv zeta in LC.
  eexists. apply (mpt_complete_gen p Hp hash Hh true maxDepth W key hops root buf round 66 _ ds (flag_len path) 4 _ _ LC); try assumption; try lia.
  apply (override_total p Hp); try assumption; try lia.
  - unfold flag_len. destruct (Nat.even _); auto.
  - exists kb, v, bs, tl. auto 10.
Qed.

Lemma slot_empty : forall p, 2 ^ 248 < p -> slot_value p ([8; 0] ++ repeat 0 64) = Some (0, 0).
Proof.
  intros p Hp. assert (Hp2 : 2 < p) by (assert (2 < 2 ^ 248) by reflexivity; lia). assert (Hp200 : 2 ^ 200 < p) by (assert (2 ^ 200 < 2 ^ 248) by reflexivity; lia). assert (Q : 1000 < p) by (assert (1000 < 2 ^ 200) by reflexivity; lia).
  unfold slot_value. change (nth 0 ([8; 0] ++ repeat 0 64) 0) with 8. change (nth 1 ([8; 0] ++ repeat 0 64) 0) with 0.
  rewrite field_prefix_ok by (auto; unfold nibble; lia). cbv zeta. change (16 * 8 + 0) with 128. change (classify 128) with (HShortString 0). cbn [fp_isBig fp_isLiteral fp_hexLen head_hexlen head_big head_literal bit_of].
  assert (Fv : feltl p ([8; 0] ++ repeat 0 64)).
  { intros x I. unfold felt. apply in_app_or in I. destruct I as [I|I]; [destruct I as [<-|[<-|[]]]; lia|apply repeat_spec in I; subst; lia]. }
  match goal with |- context [r_shift_left _ _ 0 _ _ ?s] => replace s with 2 end.
  2:{ unfold fsub, fadd, fmul. rewrite ?Z.mul_0_l, ?Z.mul_0_r, ?Z.mod_0_l, ?Z.add_0_r by lia. rewrite !(Z.mod_small) by (rewrite ?Z.mod_small; lia). reflexivity. }
  rewrite (shift_left_f p Hp200) by (auto; cbn; unfold felt; lia).
  assert (B : (2 <? 2 ^ Z.of_nat (log_ceil ((log_ceil (66 / 8) + 1) * 2))) = true) by reflexivity. rewrite B. cbn [obind].
  set (inp := rotl (Z.to_nat 2) ([8; 0] ++ repeat 0 64)). assert (Ei : inp = repeat 0 64 ++ [8; 0]) by reflexivity. assert (Li : length inp = 66%nat) by (rewrite Ei; reflexivity).
  assert (Fi : feltl p inp) by (rewrite Ei; intros x I; apply Fv; apply in_app_or in I; apply in_or_app; tauto).
  rewrite (hex64_ok p Hp2) by (try lia; unfold felt; lia).
  rewrite (hex_to_decimal_ok p Hp2) by (rewrite ?Li; try lia; unfold felt; lia).
  unfold hex_dec_spec, hex64_spec. cbn [Z.mul]. change (0 <=? 62) with true. change (2 =? 0) with false. change (2 <=? Z.of_nat 2) with true. cbv iota. cbn [obind].
  change (hexval (firstn (Z.to_nat 2) inp)) with 0. change (hexval (firstn (Z.to_nat 0) inp)) with 0. assert (fis_zero p 0 = 1) as -> by (unfold fis_zero; rewrite Z.mod_small by lia; reflexivity).
  rewrite Z.mod_small by lia. rewrite (fselect_ok p Hp2) by (first [right; reflexivity | unfold felt; lia]). reflexivity.
Qed.

(** the same for CheckEthStorageProof: the slot's value is 0 *)
Theorem C82_absent_leaf_storage : forall p hash maxDepth W key hops root buf round path, 2 ^ 248 < p -> hash_ok p hash ->
  (maxDepth <= 10)%nat -> (1 <= length hops < maxDepth)%nat -> length key = 64%nat -> Forall nibble key -> length root = 64%nat ->
  (1064 <= W)%nat -> aligned (repeat 0 W) -> (exists d, hash (repeat 0 W) 0 = Some d) ->
  hops_ok p hops -> last_ok p buf round ->
  padded_leaf_of buf path -> (digits_used hops + length path = 64)%nat -> path <> skipn (digits_used hops) key ->
  trie_to (fun b r d => hash b r = Some d) key 0 root hops buf round ->
  exists res, check_eth_storage p hash maxDepth root ([8; 0] ++ repeat 0 64) buf round (flag_len path) (honest maxDepth key (repeat 0 W) hops) = Some res /\
    es_output res = 1 /\ es_slotValue res = (0, 0).
Proof.
  intros p hash maxDepth W key hops root buf round path Hp Hh H1 H2 H3 H4 Lroot H5 H6 H7 H8 H9 H10 H11 H12 H13.
  assert (Hp2 : 2 ^ 200 < p) by (eapply Z.lt_trans; [|exact Hp]; reflexivity).
  destruct (C82_absent_leaf_accepted p hash maxDepth W key hops root buf round path Hp2 Hh H1 H2 H3 H4 H5 H6 H7 H8 H9 H10 H11 H12 H13) as (vl & C).
  eexists. split.
  { unfold check_eth_storage. cbn [honest li_key] in *. rewrite Lroot, H3. change (length ([8; 0] ++ repeat 0 64)) with 66%nat. cbn [Nat.eqb andb guard obind]. rewrite C. cbn [obind]. rewrite (slot_empty p Hp). reflexivity. }
  split; reflexivity.
Qed.

(** an extension node over [frag] (child reference of at most 32 bytes), followed by bytes up to 0x80 *)
Definition padded_ext (buf : list Z) (frag : list Z) : Prop := exists kb v bs t, Forall is_byte kb /\ (1 <= length kb <= 32)%nat /\ nib kb = hex_prefix 0 frag /\
  Forall is_byte v /\ (length v <= 32)%nat /\ length bs = 15%nat /\ Forall (fun b => 0 <= b <= 128) bs /\ buf = nib (rlp (RList [RStr kb; RStr v])) ++ nib bs ++ t.

(** at an extension whose digits are not all that is left of the key (they may be a prefix of it): accepted with the
    extension's flag length, for every claimed value *)
Theorem C82_absent_ext_any_value : forall p hash maxDepth W key hops root buf round frag value, 2 ^ 200 < p -> hash_ok p hash ->
  (maxDepth <= 10)%nat -> (1 <= length hops < maxDepth)%nat -> length key = 64%nat -> Forall nibble key ->
  (1064 <= W)%nat -> aligned (repeat 0 W) -> (exists d, hash (repeat 0 W) 0 = Some d) ->
  hops_ok p hops -> last_ok p buf round -> padded_ext buf frag -> frag <> skipn (digits_used hops) key ->
  trie_to (fun b r d => hash b r = Some d) key 0 root hops buf round ->
  length value = 66%nat -> (forall x, In x value -> felt p x) ->
  exists vl, check_mpt_fixed p hash maxDepth 64 66 value root buf round (flag_len frag) (honest maxDepth key (repeat 0 W) hops) true = Some (1, vl).
Proof.
  intros p hash maxDepth W key hops root buf round frag value Hp Hh H1 H2 H3 H4 H5 H6 H7 H8 (B1 & B2 & B3 & B4 & B5) (kb & v & bs & tl & K1 & K2 & K3 & K4 & K5 & K6 & K7 & K8) Np Ht V1 V2.
  destruct (to_chain _ _ _ _ _ _ _ Ht) as (ds & D1 & D2 & Ch & U & Eh). rewrite Nat.add_0_l in U.
  assert (Fk : forall x, In x key -> felt p x) by (apply (Forall_nibble_felt p Hp); exact H4).
  assert (Fr : forall x, In x (rotl (digits_used hops) key) -> felt p x) by (intros x I; apply (rotl_felt p (digits_used hops) key Fk); exact I).
  assert (Q : 1000 < p) by (assert (1000 < 2 ^ 200) by reflexivity; lia).
  assert (Fkl : felt p (Z.of_nat (64 - digits_used hops))) by (unfold felt; lia).
  assert (Lr : length (rotl (digits_used hops) key) = 64%nat) by (rewrite rotl_length; exact H3).
  assert (LT : (2 * length (rlp (RList [RStr kb; RStr v])) <= 136)%nat) by (pose proof (ext_len kb v K1 K4 ltac:(lia) K5); lia).
  assert (Fl : flag_len frag = 1 \/ flag_len frag = 2) by (unfold flag_len; destruct (Nat.even _); auto).
  assert (Lf : Z.of_nat (2 * length kb) = flag_len frag + Z.of_nat (length frag)) by (rewrite <- nib_length, K3; apply hex_prefix_len).
  destruct (node2_window kb v (nib bs ++ tl) buf 140 (ac_prefixMax (leaf_params 64 66)) K8 K1 ltac:(lia) K4 K5 ltac:(lia) ltac:(lia) ltac:(vm_compute; lia)) as (x & Wx & Px).
  destruct (leaf_total_w p Hp x buf (rotl (digits_used hops) key) (Z.of_nat (64 - digits_used hops)) value (flag_len frag) Wx ltac:(lia) B1 ltac:(lia) ltac:(rewrite Px, nib_length; lia) Lr Fr V1 V2 Fkl) as (o & t & l1 & LC & Fo).
  exists l1. apply (mpt_complete_gen p Hp hash Hh true maxDepth W key hops root buf round 66 value ds (flag_len frag) o t l1 LC); try assumption; try lia.
  apply (ext_override p Hp key _ _ buf frag (nib bs ++ tl) kb v); try assumption; try lia.
  - exists kb, v, bs, tl. auto 10.
  - intros Ef El. apply Np. rewrite firstn_rotl_prefix in Ef by lia. rewrite firstn_all2 in Ef by (rewrite skipn_length; lia). congruence.
Qed.

(** the same for CheckEthStorageProof *)
Theorem C82_absent_ext_storage_any_value : forall p hash maxDepth W key hops root buf round frag valueRlp d rest, 2 ^ 248 < p -> hash_ok p hash ->
  (maxDepth <= 10)%nat -> (1 <= length hops < maxDepth)%nat -> length key = 64%nat -> Forall nibble key -> length root = 64%nat ->
  (1064 <= W)%nat -> aligned (repeat 0 W) -> (exists d, hash (repeat 0 W) 0 = Some d) ->
  hops_ok p hops -> last_ok p buf round -> padded_ext buf frag -> frag <> skipn (digits_used hops) key ->
  trie_to (fun b r d => hash b r = Some d) key 0 root hops buf round ->
  length valueRlp = 66%nat -> (forall x, In x valueRlp -> felt p x) -> valueRlp = enc (str d) ++ rest -> bytes_between 1 32 d ->
  exists res, check_eth_storage p hash maxDepth root valueRlp buf round (flag_len frag) (honest maxDepth key (repeat 0 W) hops) = Some res /\
    es_output res = 1 /\ es_slotValue res = (hexval d mod 2 ^ 248, hexval d / 2 ^ 248).
Proof.
  intros p hash maxDepth W key hops root buf round frag valueRlp d rest Hp Hh H1 H2 H3 H4 Lroot H5 H6 H7 H8 H9 H10 H11 H12 V1 V2 Ev Hd.
  assert (Hp2 : 2 ^ 200 < p) by (eapply Z.lt_trans; [|exact Hp]; reflexivity).
  destruct (C82_absent_ext_any_value p hash maxDepth W key hops root buf round frag valueRlp Hp2 Hh H1 H2 H3 H4 H5 H6 H7 H8 H9 H10 H11 H12 V1 V2) as (vl & C).
  destruct (slot_total p valueRlp d rest Hp V1 V2 Ev Hd) as (sv & SV).
  eassert (E : check_eth_storage p hash maxDepth root valueRlp buf round (flag_len frag) (honest maxDepth key (repeat 0 W) hops) = Some _).
  { unfold check_eth_storage. cbn [honest li_key] in *. rewrite Lroot, H3, V1. cbn [Nat.eqb andb guard obind]. rewrite C. cbn [obind]. rewrite SV. reflexivity. }
  eexists. split; [exact E|]. split; [reflexivity|]. exact (C63_slot_value p hash maxDepth root valueRlp buf round _ _ _ d rest Hp V2 E Ev Hd).
Qed.

Lemma path_cut digest key hops1 h frag hops2 : forall s root buf round value, trie_path digest key s root (hops1 ++ h :: hops2) buf round value -> h_frag h = Some frag ->
  trie_to digest key s root hops1 (h_buf h) (h_round h) /\ (s + digits_used hops1 + length frag < length key)%nat.
Proof.
  assert (TL : forall s root hops buf round value, trie_path digest key s root hops buf round value -> (s + digits_used hops < length key)%nat).
  { intros s root hops buf round value T. induction T as [s d buf r kb value rest Hs|s d h' d' hops buf r value Dg Rf T IH]; [cbn; lia|rewrite used_cons; lia]. }
  induction hops1 as [|g t IH]; intros s root buf round value T Hf; cbn [app] in T; inversion T as [|? ? ? ? ? ? ? ? Dg Rf Tt]; subst.
  - apply TL in Tt. unfold consumed in Tt. rewrite Hf in Tt. split; [|cbn; lia]. apply tt_end; [lia|exact Dg].
  - destruct (IH _ _ _ _ _ Tt Hf) as [T1 L]. split; [|rewrite used_cons; lia]. eapply tt_hop; eauto.
Qed.

(** so a key that IS in the trie, below an extension that is not the root, can be proved to hold any value: the proof is cut
    at that extension *)
Theorem C82_present_key_any_value : forall p hash maxDepth W key hops1 h frag hops2 root buf round present d valueRlp rest, 2 ^ 248 < p -> hash_ok p hash ->
  (maxDepth <= 10)%nat -> (1 <= length hops1 < maxDepth)%nat -> length key = 64%nat -> Forall nibble key -> length root = 64%nat ->
  (1064 <= W)%nat -> aligned (repeat 0 W) -> (exists d, hash (repeat 0 W) 0 = Some d) ->
  hops_ok p (hops1 ++ h :: hops2) -> Z.of_nat (length (h_buf h)) < 2 ^ 60 -> h_frag h = Some frag -> padded_ext (h_buf h) frag ->
  trie_path (fun b r d => hash b r = Some d) key 0 root (hops1 ++ h :: hops2) buf round present ->
  length valueRlp = 66%nat -> (forall x, In x valueRlp -> felt p x) -> valueRlp = enc (str d) ++ rest -> bytes_between 1 32 d ->
  exists res, check_eth_storage p hash maxDepth root valueRlp (h_buf h) (h_round h) (flag_len frag) (honest maxDepth key (repeat 0 W) hops1) = Some res /\
    es_output res = 1 /\ es_slotValue res = (hexval d mod 2 ^ 248, hexval d / 2 ^ 248).
Proof.
  intros p hash maxDepth W key hops1 h frag hops2 root buf round present d valueRlp rest Hp Hh H1 H2 H3 H4 Lroot H5 H6 H7 H8 Lb Hf Pe T V1 V2 Ev Hd.
  destruct (path_cut _ _ _ _ _ _ _ _ _ _ _ T Hf) as [Tt L]. rewrite Nat.add_0_l in L.
  destruct (H8 h ltac:(apply in_or_app; right; left; reflexivity)) as (B1 & B2 & B3 & B4).
  apply (C82_absent_ext_storage_any_value p hash maxDepth W key hops1 root (h_buf h) (h_round h) frag valueRlp d rest); try assumption.
  - intros g I. apply H8. apply in_or_app. left. exact I.
  - unfold last_ok. auto.
  - intros E. assert (X : length frag = length (skipn (digits_used hops1) key)) by congruence. rewrite skipn_length in X. lia.
Qed.

Lemma path_cut_any digest key hops1 h hops2 : forall s root buf round value, trie_path digest key s root (hops1 ++ h :: hops2) buf round value ->
  trie_to digest key s root hops1 (h_buf h) (h_round h).
Proof.
  assert (TL : forall s root hops buf round value, trie_path digest key s root hops buf round value -> (s + digits_used hops < length key)%nat).
  { intros s root hops buf round value T. induction T as [s d buf r kb value rest Hs|s d h' d' hops buf r value Dg Rf T IH]; [cbn; lia|rewrite used_cons; lia]. }
  induction hops1 as [|g t IH]; intros s root buf round value T; cbn [app] in T; inversion T as [|? ? ? ? ? ? ? ? Dg Rf Tt]; subst.
  - apply TL in Tt. apply tt_end; [lia|exact Dg].
  - eapply tt_hop; [exact Dg|exact Rf|exact (IH _ _ _ _ _ Tt)].
Qed.

(** a key that IS in the trie, through a branch [h] that has no child at digit number [length hops1] of the key (not the
    digit the branch is read at, when there is an extension above it): the proof cut at that branch, any value *)
Theorem C82_present_key_other_digit : forall p hash maxDepth W key hops1 h hops2 root buf round present d valueRlp rest, 2 ^ 248 < p -> hash_ok p hash ->
  (maxDepth <= 10)%nat -> (1 <= length hops1 < maxDepth)%nat -> length key = 64%nat -> Forall nibble key -> length root = 64%nat ->
  (1064 <= W)%nat -> aligned (repeat 0 W) -> (exists d, hash (repeat 0 W) 0 = Some d) ->
  hops_ok p (hops1 ++ h :: hops2) -> Z.of_nat (length (h_buf h)) < 2 ^ 60 -> branch_without (h_buf h) (nth (length hops1) key 0) ->
  trie_path (fun b r d => hash b r = Some d) key 0 root (hops1 ++ h :: hops2) buf round present ->
  length valueRlp = 66%nat -> (forall x, In x valueRlp -> felt p x) -> valueRlp = enc (str d) ++ rest -> bytes_between 1 32 d ->
  exists res, check_eth_storage p hash maxDepth root valueRlp (h_buf h) (h_round h) 0 (honest maxDepth key (repeat 0 W) hops1) = Some res /\
    es_output res = 1 /\ es_slotValue res = (hexval d mod 2 ^ 248, hexval d / 2 ^ 248).
Proof.
  intros p hash maxDepth W key hops1 h hops2 root buf round present d valueRlp rest Hp Hh H1 H2 H3 H4 Lroot H5 H6 H7 H8 Lb Hb T V1 V2 Ev Hd.
  destruct (H8 h ltac:(apply in_or_app; right; left; reflexivity)) as (B1 & B2 & B3 & B4).
  apply (C82_absent_child_storage_any_value p hash maxDepth W key hops1 root (h_buf h) (h_round h) valueRlp d rest); try assumption.
  - intros g I. apply H8. apply in_or_app. left. exact I.
  - unfold last_ok. auto.
  - exact (path_cut_any _ _ _ _ _ _ _ _ _ _ T).
Qed.

(** CheckEthAddressStorageProof accepts whatever its storage part accepts: under an honest header and account proof, any
    storage arguments that CheckEthStorageProof accepts below the account's storage root *)
Theorem C82_address_storage_from_slot : forall p hash storDepth blockHash blockRlp header restB blockRound
    Wa keyA hopsA addrLeaf addrLeafRound addressRlp va account restA storLeaf storLeafRound storPref iS valueRlp slot, 2 ^ 248 < p -> hash_ok p hash ->
  (* the header *)
  felt p blockRound -> length blockRlp = 2176%nat -> Forall nibble blockRlp -> blockRlp = list_of header ++ restB -> eth_header header ->
  ((length header < 17)%nat -> exists b t, 0 <= b < 128 /\ restB = byte_nibbles b ++ t) -> hash blockRlp blockRound = Some blockHash ->
  (2 <= length (nth 8 header []) <= 8)%nat ->
  (* the account, under the header's state root *)
  (1 <= length hopsA < 10)%nat -> length keyA = 64%nat -> Forall nibble keyA ->
  (1064 <= Wa)%nat -> aligned (repeat 0 Wa) -> (exists d, hash (repeat 0 Wa) 0 = Some d) ->
  hops_ok p hopsA -> leaf_ok p 228 addrLeaf addrLeafRound addressRlp va ->
  trie_path (fun b r d => hash b r = Some d) keyA 0 (nth 3 header []) hopsA addrLeaf addrLeafRound va ->
  addressRlp = list_of account ++ restA -> eth_account account -> nib va = list_of account ->
  (* the slot, under the account's storage root *)
  check_eth_storage p hash storDepth (nth 2 account []) valueRlp storLeaf storLeafRound storPref iS = Some slot -> es_output slot = 1 ->
  exists res, check_eth_address_storage p hash 10 storDepth blockHash blockRlp (Z.of_nat (length header)) blockRound
      addressRlp addrLeaf addrLeafRound (leaf_flag keyA hopsA) (honest 10 keyA (repeat 0 Wa) hopsA)
      valueRlp storLeaf storLeafRound storPref iS = Some res /\
    as_output res = 1 /\ as_blockNumber res = hexval (nth 8 header []) /\ as_slotValue res = es_slotValue slot.
Proof.
  intros p hash SD bh blk header restB brd Wa kA hA al ar av va acct restA sl sr sp iS sv s Hp248 Hh
    B1 B2 B3 B4 B5 B6 B7 B8 A1 A2 A3 A4 A5 A6 A7 A8 A9 A10 A11 A12 Es Os.
  assert (Hp : 2 ^ 200 < p) by (assert (2 ^ 200 < 2 ^ 248) by reflexivity; lia).
  assert (Q : 1000 < p) by (assert (1000 < 2 ^ 200) by reflexivity; lia).
  destruct (C61_block_header_accepted p hash blk header restB brd bh Hp B1 B2 B3 B4 B5 B6 B7) as (b & Eb & Ob & Hb).
  assert (NF : forall l, Forall nibble l -> felts p l).
  { intros l Hl x Hx. rewrite Forall_forall in Hl. specialize (Hl x Hx). unfold nibble, felt in *. lia. }
  assert (Ffn : felt p (Z.of_nat (length header))). { pose proof B5 as [[X1 X2] _]. unfold felt. cbn in X1, X2. lia. }
  destruct (block_sound p Hp hash Hh blk (Z.of_nat (length header)) brd b (NF _ B3) Ffn B1 Eb) as (_ & _ & _ & _ & R).
  destruct (R header restB B4 B5) as (R1 & R2 & R3 & R4 & R5 & R6).
  destruct (header_field header 3 32 32 B5 eq_refl ltac:(lia)) as (_ & _ & Lr).
  destruct (C81_account_proof_complete p hash 10 Wa kA hA (nth 3 header []) al ar av va acct restA Hp Hh (le_n 10) A1 A2 A3 ltac:(lia) A4 A5 A6 A7 A8 A9 A10 A11 A12)
    as (a & Ea & Oa & _ & _ & _ & _ & Sa & _).
  assert (Lsr : length (nth 2 acct []) = 64%nat).
  { pose proof (Forall2_nth_ _ _ _ _ _ 2 (0%nat, 0%nat) [] A11 ltac:(cbn; lia)) as X. destruct X as (_ & _ & X). cbn in X. lia. }
  destruct (number_shape p hash blk _ brd b Hp B2 B3 Ffn Eb) as (Nn & Ln & _).
  destruct (shr_total p (eb_number b) (8 - length (nth 8 header [])) Hp Ln (NF _ Nn) ltac:(lia)) as (dg & Ed).
  replace (8 - (8 - length (nth 8 header [])))%nat with (length (nth 8 header [])) in Ed by lia.
  assert (Lbh : length bh = 64%nat /\ Forall nibble bh).
  { destruct (Hh blk brd bh (NF _ B3)) as (_ & X & Y); auto. unfold aligned. rewrite B2. reflexivity. }
  destruct Lbh as [Lbh Nbh].
  assert (Eq : r_array_equal p bh (eb_hash b) 64 64 = Some 1).
  { rewrite Hb, r_array_equal_ok; [|lia|apply NF; exact Nbh|apply NF; exact Nbh|unfold felt; lia|lia|lia|lia|lia|lia].
    change (64 <=? Z.of_nat 64) with true. cbv iota. f_equal. unfold prefix_eqb. destruct (list_eq_dec Z.eq_dec _ _); [reflexivity|congruence]. }
  destruct (number_ok p (nth 8 header []) (eb_number b) dg Hp ltac:(lia) Nn ltac:(lia) R5 Ed) as [_ Nv].
  eexists. split.
  { unfold check_eth_address_storage. rewrite Lbh.
    assert (length (li_rounds (honest 10 kA (repeat 0 Wa) hA)) = 9%nat) as ->.
    { cbn [honest li_rounds]. rewrite app_length, map_length, repeat_length. lia. }
    cbn [Nat.eqb andb guard]. rewrite Eb. cbn [obind]. rewrite Eq. cbn [obind]. rewrite R1, Ea. cbn [obind]. rewrite Sa, Es. cbn [obind]. rewrite R4, Ed. cbn [obind]. reflexivity. }
  cbn [as_output as_blockNumber as_slotValue]. rewrite Oa, Os. split; [|split; [exact Nv|reflexivity]].
  assert (fadd p (fadd p 1 1) 1 = 3) as ->.
  { unfold fadd. rewrite (Z.mod_small (1 + 1)) by lia. rewrite Z.mod_small by lia. reflexivity. }
  rewrite r_equal_ok by (unfold felt; lia). reflexivity.
Qed.

(** so, for a slot that IS in the storage trie below an extension other than its root, any value can be proved to be in it *)
Theorem C82_address_storage_present_any_value : forall p hash storDepth blockHash blockRlp header restB blockRound
    Wa keyA hopsA addrLeaf addrLeafRound addressRlp va account restA W key hops1 h frag hops2 leaf leafRound present valueRlp d rest, 2 ^ 248 < p -> hash_ok p hash ->
  felt p blockRound -> length blockRlp = 2176%nat -> Forall nibble blockRlp -> blockRlp = list_of header ++ restB -> eth_header header ->
  ((length header < 17)%nat -> exists b t, 0 <= b < 128 /\ restB = byte_nibbles b ++ t) -> hash blockRlp blockRound = Some blockHash ->
  (2 <= length (nth 8 header []) <= 8)%nat ->
  (1 <= length hopsA < 10)%nat -> length keyA = 64%nat -> Forall nibble keyA ->
  (1064 <= Wa)%nat -> aligned (repeat 0 Wa) -> (exists d, hash (repeat 0 Wa) 0 = Some d) ->
  hops_ok p hopsA -> leaf_ok p 228 addrLeaf addrLeafRound addressRlp va ->
  trie_path (fun b r d => hash b r = Some d) keyA 0 (nth 3 header []) hopsA addrLeaf addrLeafRound va ->
  addressRlp = list_of account ++ restA -> eth_account account -> nib va = list_of account ->
  (* the slot [key] holds [present] *)
  (storDepth <= 10)%nat -> (1 <= length hops1 < storDepth)%nat -> length key = 64%nat -> Forall nibble key ->
  (1064 <= W)%nat -> aligned (repeat 0 W) -> (exists d, hash (repeat 0 W) 0 = Some d) ->
  hops_ok p (hops1 ++ h :: hops2) -> Z.of_nat (length (h_buf h)) < 2 ^ 60 -> h_frag h = Some frag -> padded_ext (h_buf h) frag ->
  trie_path (fun b r d => hash b r = Some d) key 0 (nth 2 account []) (hops1 ++ h :: hops2) leaf leafRound present ->
  length valueRlp = 66%nat -> (forall x, In x valueRlp -> felt p x) -> valueRlp = enc (str d) ++ rest -> bytes_between 1 32 d ->
  exists res, check_eth_address_storage p hash 10 storDepth blockHash blockRlp (Z.of_nat (length header)) blockRound
      addressRlp addrLeaf addrLeafRound (leaf_flag keyA hopsA) (honest 10 keyA (repeat 0 Wa) hopsA)
      valueRlp (h_buf h) (h_round h) (flag_len frag) (honest storDepth key (repeat 0 W) hops1) = Some res /\
    as_output res = 1 /\ as_blockNumber res = hexval (nth 8 header []) /\ as_slotValue res = (hexval d mod 2 ^ 248, hexval d / 2 ^ 248).
Proof.
  intros p hash SD bh blk header restB brd Wa kA hA al ar av va acct restA W key hops1 h frag hops2 leaf lr present vr d rest Hp Hh
    B1 B2 B3 B4 B5 B6 B7 B8 A1 A2 A3 A4 A5 A6 A7 A8 A9 A10 A11 A12 S1 S2 S3 S4 S5 S6 S7 S8 S9 S10 S11 S12 V1 V2 Ev Hd.
  assert (Lsr : length (nth 2 acct []) = 64%nat).
  { pose proof (Forall2_nth_ _ _ _ _ _ 2 (0%nat, 0%nat) [] A11 ltac:(cbn; lia)) as X. destruct X as (_ & _ & X). cbn in X. lia. }
  destruct (C82_present_key_any_value p hash SD W key hops1 h frag hops2 (nth 2 acct []) leaf lr present d vr rest Hp Hh S1 S2 S3 S4 Lsr S5 S6 S7 S8 S9 S10 S11 S12 V1 V2 Ev Hd) as (s & Es & Os & Vs).
  rewrite <- Vs. eapply (C82_address_storage_from_slot p hash SD bh blk header restB brd Wa kA hA al ar av va acct restA); eassumption.
Qed.

(** Non-vacuity: the toy digest of Props_MptPathComplete.v; under a branch (digit 7) a branch whose only child is at digit 4
    (the key's next digit is 1), and a leaf whose digits are all 5. *)
Definition toy_top : list hop := [Hop (toy_branch 7) 0 None].
Lemma toy_top_walk buf : forallb (fun x => (0 <=? x) && (x <=? 15)) buf = true -> trie_to (fun b r d => toy b r = Some d) toy_key 0 (repeat 10 64) toy_top buf 0.
Proof.
  intros E. pose proof C80_path_case as T. inversion T as [|? ? ? ? ? ? ? ? D1 R1 T1]; subst. inversion T1 as [|? ? ? ? ? ? ? ? D2 R2 T2]; subst.
  apply tt_hop with (d' := d'); [exact D1|exact R1|]. apply tt_end; [cbn; lia|]. rewrite <- D2. unfold toy. rewrite E. reflexivity.
Qed.
Lemma toy_last buf : forallb (fun x => (0 <=? x) && (x <=? 15)) buf = true -> length buf = 1088%nat -> last_ok toy_p buf 0.
Proof.
  intros E L. split; [apply toy_nibs; exact E|]. split; [unfold aligned; rewrite L; reflexivity|]. split; [rewrite L; apply Nat.leb_le; reflexivity|]. split; [rewrite L; reflexivity|]. split; [cbn; lia|reflexivity].
Qed.
Lemma toy_top_ok : hops_ok toy_p toy_top.
Proof. intros h [<-|[]]. apply toy_hops_ok. left. reflexivity. Qed.
Example C82_case_child : exists res, check_eth_storage toy_p toy 6 (repeat 10 64) (enc (str [0; 1; 0; 2]) ++ repeat 0 60) (toy_branch 4) 0 0 (honest 6 toy_key (repeat 0 1088) toy_top) = Some res /\
    es_output res = 1 /\ es_slotValue res = (258, 0).
Proof.
  change (258, 0) with (hexval [0; 1; 0; 2] mod 2 ^ 248, hexval [0; 1; 0; 2] / 2 ^ 248).
  apply (C82_absent_child_storage_any_value toy_p toy 6 1088 toy_key toy_top (repeat 10 64) (toy_branch 4) 0 (enc (str [0; 1; 0; 2]) ++ repeat 0 60) [0; 1; 0; 2] (repeat 0 60)).
  - reflexivity.
  - exact toy_ok.
  - lia.
  - cbn; lia.
  - reflexivity.
  - apply toy_nibs. reflexivity.
  - reflexivity.
  - lia.
  - reflexivity.
  - eexists. reflexivity.
  - exact toy_top_ok.
  - apply toy_last; reflexivity.
  - exists (repeat [] 4 ++ [toy_child] ++ repeat [] 11), (repeat 0 (1088 - length (nib (rlp (RList (map RStr ((repeat [] 4 ++ [toy_child] ++ repeat [] 11) ++ [[]]))))))).
    split; [reflexivity|]. split; [|split; reflexivity]. intros c I. assert (c = [] \/ c = toy_child) as [-> | ->]; [|split; [constructor|cbn; lia]|split; [apply toy_bytes; reflexivity|cbn; lia]].
    apply in_app_or in I. destruct I as [I|I]; [left; exact (repeat_spec _ _ _ I)|]. apply in_app_or in I. destruct I as [[<-|[]]|I]; [right; reflexivity|left; exact (repeat_spec _ _ _ I)].
  - apply toy_top_walk. reflexivity.
  - reflexivity.
  - apply (Forall_nibble_felt toy_p toy_big), toy_nibs. reflexivity.
  - reflexivity.
  - split; [apply toy_nibs; reflexivity|]. split; [exists 2%nat; reflexivity|cbn; lia].
Qed.
Definition toy_other : list Z := toy_pad (nib (rlp (RList [RStr (53 :: repeat 85 31); RStr [1; 2; 3]]))).
Example C82_case_leaf : exists res, check_eth_storage toy_p toy 6 (repeat 10 64) ([8; 0] ++ repeat 0 64) toy_other 0 1 (honest 6 toy_key (repeat 0 1088) toy_top) = Some res /\
    es_output res = 1 /\ es_slotValue res = (0, 0).
Proof.
  apply (C82_absent_leaf_storage toy_p toy 6 1088 toy_key toy_top (repeat 10 64) toy_other 0 (repeat 5 63)).
  - reflexivity.
  - exact toy_ok.
  - lia.
  - cbn; lia.
  - reflexivity.
  - apply toy_nibs. reflexivity.
  - reflexivity.
  - lia.
  - reflexivity.
  - eexists. reflexivity.
  - exact toy_top_ok.
  - apply toy_last; reflexivity.
  - exists (53 :: repeat 85 31), [1; 2; 3], (repeat 0 15), (repeat 0 (1088 - length (nib (rlp (RList [RStr (53 :: repeat 85 31); RStr [1; 2; 3]]))) - 30)).
    split; [apply toy_bytes; reflexivity|]. split; [cbn; lia|]. split; [reflexivity|]. split; [apply toy_bytes; reflexivity|]. split; [cbn; lia|]. split; [reflexivity|].
    split; [apply Forall_forall; intros x I; apply repeat_spec in I; subst; lia|reflexivity].
  - reflexivity.
  - discriminate.
  - apply toy_top_walk. reflexivity.
Qed.
(** the present key of C80's case (value [1; 2; 3]), proved to hold 258: the proof stops at the extension below the root *)
Example C82_case_present : exists res, check_eth_storage toy_p toy 6 (repeat 10 64) (enc (str [0; 1; 0; 2]) ++ repeat 0 60) toy_ext 0 1 (honest 6 toy_key (repeat 0 1088) toy_top) = Some res /\
    es_output res = 1 /\ es_slotValue res = (258, 0).
Proof.
  change (258, 0) with (hexval [0; 1; 0; 2] mod 2 ^ 248, hexval [0; 1; 0; 2] / 2 ^ 248).
  apply (C82_present_key_any_value toy_p toy 6 1088 toy_key toy_top (Hop toy_ext 0 (Some [1; 2; 3])) [1; 2; 3] [Hop (toy_branch 4) 0 None] (repeat 10 64) toy_leaf 0 [1; 2; 3] [0; 1; 0; 2] (enc (str [0; 1; 0; 2]) ++ repeat 0 60) (repeat 0 60)).
  - reflexivity.
  - exact toy_ok.
  - lia.
  - cbn; lia.
  - reflexivity.
  - apply toy_nibs. reflexivity.
  - reflexivity.
  - lia.
  - reflexivity.
  - eexists. reflexivity.
  - exact toy_hops_ok.
  - reflexivity.
  - reflexivity.
  - exists [17; 35], toy_child, (repeat 0 15), (repeat 0 (1088 - length (nib (rlp (RList [RStr [17; 35]; RStr toy_child]))) - 30)).
    split; [apply toy_bytes; reflexivity|]. split; [cbn; lia|]. split; [reflexivity|]. split; [apply toy_bytes; reflexivity|]. split; [cbn; lia|]. split; [reflexivity|].
    split; [apply Forall_forall; intros x I; apply repeat_spec in I; subst; lia|reflexivity].
  - exact C80_path_case.
  - reflexivity.
  - apply (Forall_nibble_felt toy_p toy_big), toy_nibs. reflexivity.
  - reflexivity.
  - split; [apply toy_nibs; reflexivity|]. split; [exists 2%nat; reflexivity|cbn; lia].
Qed.
(** the same key: its second branch (below the extension) is read at digit 4 of the key but tested at digit 2, where it has no child *)
Example C82_case_other_digit : exists res, check_eth_storage toy_p toy 6 (repeat 10 64) (enc (str [0; 1; 0; 2]) ++ repeat 0 60) (toy_branch 4) 0 0 (honest 6 toy_key (repeat 0 1088) (firstn 2 toy_hops)) = Some res /\
    es_output res = 1 /\ es_slotValue res = (258, 0).
Proof.
  change (258, 0) with (hexval [0; 1; 0; 2] mod 2 ^ 248, hexval [0; 1; 0; 2] / 2 ^ 248).
  apply (C82_present_key_other_digit toy_p toy 6 1088 toy_key (firstn 2 toy_hops) (Hop (toy_branch 4) 0 None) [] (repeat 10 64) toy_leaf 0 [1; 2; 3] [0; 1; 0; 2] (enc (str [0; 1; 0; 2]) ++ repeat 0 60) (repeat 0 60)).
  - reflexivity.
  - exact toy_ok.
  - lia.
  - cbn; lia.
  - reflexivity.
  - apply toy_nibs. reflexivity.
  - reflexivity.
  - lia.
  - reflexivity.
  - eexists. reflexivity.
  - exact toy_hops_ok.
  - reflexivity.
  - exists (repeat [] 4 ++ [toy_child] ++ repeat [] 11), (repeat 0 (1088 - length (nib (rlp (RList (map RStr ((repeat [] 4 ++ [toy_child] ++ repeat [] 11) ++ [[]]))))))).
    split; [reflexivity|]. split; [|split; reflexivity]. intros c I. assert (c = [] \/ c = toy_child) as [-> | ->]; [|split; [constructor|cbn; lia]|split; [apply toy_bytes; reflexivity|cbn; lia]].
    apply in_app_or in I. destruct I as [I|I]; [left; exact (repeat_spec _ _ _ I)|]. apply in_app_or in I. destruct I as [[<-|[]]|I]; [right; reflexivity|left; exact (repeat_spec _ _ _ I)].
  - exact C80_path_case.
  - reflexivity.
  - apply (Forall_nibble_felt toy_p toy_big), toy_nibs. reflexivity.
  - reflexivity.
  - split; [apply toy_nibs; reflexivity|]. split; [exists 2%nat; reflexivity|cbn; lia].
Qed.

(** the address and storage gadgets together: the present slot (value [1; 2; 3]) proved to hold 258 *)
Example C82_case_address_storage :
  exists res, check_eth_address_storage toy_p toy 10 6 (repeat 10 64) (list_of toy_header ++ toy_rest) 15 0
      (list_of toy_account ++ repeat 0 88) (toy_leaf_of toy_va) 0 (leaf_flag toy_key toy_hops) (honest 10 toy_key (repeat 0 1088) toy_hops)
      (enc (str [0; 1; 0; 2]) ++ repeat 0 60) toy_ext 0 1 (honest 6 toy_key (repeat 0 1088) toy_top) = Some res /\
    as_output res = 1 /\ as_blockNumber res = 42 /\ as_slotValue res = (258, 0).
Proof.
  change (258, 0) with (hexval [0; 1; 0; 2] mod 2 ^ 248, hexval [0; 1; 0; 2] / 2 ^ 248). change 42 with (hexval (nth 8 toy_header [])). change 15 with (Z.of_nat (length toy_header)).
  apply (C82_address_storage_present_any_value toy_p toy 6 (repeat 10 64) (list_of toy_header ++ toy_rest) toy_header toy_rest 0
    1088 toy_key toy_hops (toy_leaf_of toy_va) 0 (list_of toy_account ++ repeat 0 88) toy_va toy_account (repeat 0 88)
    1088 toy_key toy_top (Hop toy_ext 0 (Some [1; 2; 3])) [1; 2; 3] [Hop (toy_branch 4) 0 None] toy_leaf 0 [1; 2; 3] (enc (str [0; 1; 0; 2]) ++ repeat 0 60) [0; 1; 0; 2] (repeat 0 60)).
  - reflexivity.
  - exact toy_ok.
  - split; [cbn; lia|reflexivity].
  - reflexivity.
  - apply toy_nibs. reflexivity.
  - reflexivity.
  - split; [cbn; lia|apply sizes_all_ok; [reflexivity|vm_compute; reflexivity]].
  - intros _. exists 1, (repeat 0 (2176 - length (list_of toy_header) - 2)). split; [lia|reflexivity].
  - reflexivity.
  - cbn; lia.
  - cbn; lia.
  - reflexivity.
  - apply toy_nibs. reflexivity.
  - lia.
  - reflexivity.
  - eexists. reflexivity.
  - exact toy_hops_ok.
  - apply (toy_leaf_ok toy_va 228); [lia|apply Nat.leb_le; reflexivity|right; lia|reflexivity|reflexivity|reflexivity].
  - apply toy_path_of. reflexivity.
  - reflexivity.
  - apply sizes_all_ok; [reflexivity|vm_compute; reflexivity].
  - reflexivity.
  - lia.
  - cbn; lia.
  - reflexivity.
  - apply toy_nibs. reflexivity.
  - lia.
  - reflexivity.
  - eexists. reflexivity.
  - exact toy_hops_ok.
  - reflexivity.
  - reflexivity.
  - exists [17; 35], toy_child, (repeat 0 15), (repeat 0 (1088 - length (nib (rlp (RList [RStr [17; 35]; RStr toy_child]))) - 30)).
    split; [apply toy_bytes; reflexivity|]. split; [cbn; lia|]. split; [reflexivity|]. split; [apply toy_bytes; reflexivity|]. split; [cbn; lia|]. split; [reflexivity|].
    split; [apply Forall_forall; intros x I; apply repeat_spec in I; subst; lia|reflexivity].
  - exact C80_path_case.
  - reflexivity.
  - apply (Forall_nibble_felt toy_p toy_big), toy_nibs. reflexivity.
  - reflexivity.
  - split; [apply toy_nibs; reflexivity|]. split; [exists 2%nat; reflexivity|cbn; lia].
Qed.
