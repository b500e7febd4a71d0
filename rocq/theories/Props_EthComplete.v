(** * Props_EthComplete.v — C81: honest account, storage and combined proofs are accepted.

    Paths, honest layer inputs and size conditions as in C80 (MptTrie.v, Props_MptPathComplete.v); RLP objects as in EthSpec.v. *)
From Coq Require Import ZArith List Lia Bool Arith.
From Verif Require Import ModNorm Field FieldLemmas RlpUtilModel RlpUtilProofs RlpModel RlpSpec RlpPrefixProofs RlpArrayProofs RlpArraySound BlkProofs ArrayFelt HexProofs
  RlpEnc RlpBridge MptModel MptSpec MptTrie MptProofs MptPathProofs MptPathSound MptComplete MptPathComplete MptPathComplete2 MptStorage EthModel EthProofs EthSpec EthItems EthSound
  Props_Mpt Props_Eth Props_EthCases Props_MptPathComplete.
Import ListNotations.
Open Scope Z_scope.

(** the leaf stands at the front of the buffer and at least fifteen bytes, each at most 0x80, follow it (as they do when
    the buffer holds a Keccak-padded node); key part of 1 to 32 bytes, value of at most 33 *)
Definition padded_leaf (buf : list Z) : Prop := exists kb v bs t, Forall is_byte kb /\ (1 <= length kb <= 32)%nat /\ Forall is_byte v /\ (length v <= 33)%nat /\
  length bs = 15%nat /\ Forall (fun b => 0 <= b <= 128) bs /\ buf = nib (rlp (RList [RStr kb; RStr v])) ++ nib bs ++ t.

(** the storage variant of the inclusion gadget accepts an inclusion proof as well *)
Theorem C81_storage_inclusion_complete : forall p hash maxDepth maxValue W key hops root buf round value v, 2 ^ 200 < p -> hash_ok p hash ->
  (maxDepth <= 10)%nat -> (1 <= length hops < maxDepth)%nat -> length key = 64%nat -> Forall nibble key ->
  (1064 <= W)%nat -> aligned (repeat 0 W) -> (exists d, hash (repeat 0 W) 0 = Some d) ->
  hops_ok p hops -> leaf_ok p maxValue buf round value v -> (1064 <= length buf)%nat -> padded_leaf buf ->
  trie_path (fun b r d => hash b r = Some d) key 0 root hops buf round v ->
  check_mpt_fixed p hash maxDepth 64 maxValue value root buf round (leaf_flag key hops) (honest maxDepth key (repeat 0 W) hops) true
    = Some (1, Z.of_nat (2 * length v)).
Proof.
  intros p hash maxDepth maxValue W key hops root buf round value v Hp Hh H1 H2 H3 H4 H5 H6 H7 H8 (L1 & L2 & L3 & L4 & L5 & L6 & L7 & L8 & L9 & L10 & L11 & L12) H9 H10 H11.
  apply (mpt_complete_st p Hp hash Hh true); try assumption. intros _.
  assert (Fk : forall x, In x key -> felt p x) by (apply (Forall_nibble_felt p Hp); exact H4).
  apply (override_total p Hp); auto; try lia.
  - rewrite rotl_length. exact H3.
  - intros x I. apply (rotl_felt p (digits_used hops) key Fk). exact I.
  - unfold leaf_flag. destruct (Nat.even _); auto.
Qed.

Lemma slot_total : forall p valueRlp d rest, 2 ^ 248 < p -> length valueRlp = 66%nat -> (forall x, In x valueRlp -> felt p x) -> valueRlp = enc (str d) ++ rest -> bytes_between 1 32 d ->
  exists sv, slot_value p valueRlp = Some sv.
Proof.
  intros p valueRlp d rest Hp L7 L8 Ev Hd.
  destruct Hd as (Nd & Ed & Ld). assert (Fr : feltl p rest) by (intros x Hx; apply L8; rewrite Ev; apply in_or_app; auto).
    pose proof (nbytes_even d Ed) as Hnb. unfold str in Ev. destruct (Nat.eqb (length d) 2 && (hexval d <? 128)) eqn:Ec.
    - apply andb_true_iff in Ec. rewrite Nat.eqb_eq, Z.ltb_lt in Ec. destruct Ec as [C1 C2]. destruct d as [|a [|b [|]]]; try discriminate C1.
      inversion Nd as [|? ? N1 N2]; subst. inversion N2 as [|? ? N3 N4]; subst. unfold nibble in *. change (hexval [a; b]) with (16 * (16 * 0 + a) + b) in C2.
      set (n := 16 * a + b) in *. assert (Hn : 0 <= n < 128) by (unfold n in *; lia).
      assert (Eb : enc ([], [a; b]) ++ rest = byte_nibbles n ++ rest).
      { unfold enc, byte_nibbles, n. cbn [fst snd app]. f_equal; [|f_equal].
        - symmetry. replace (16 * a + b) with (b + a * 16) by lia. rewrite Z.div_add, Z.div_small by lia. lia.
        - symmetry. replace (16 * a + b) with (b + a * 16) by lia. rewrite Z.mod_add, Z.mod_small by lia. lia. }
      rewrite Eb. eexists. apply (slot_literal p Hp n rest Hn); [|exact Fr]. unfold enc in L7. cbn [fst snd app length] in L7. lia.
    - unfold enc in Ev. cbn [fst snd] in Ev. unfold rlp_hdr in Ev. destruct (Z.ltb_spec (nbytes d) 56); [|lia]. rewrite <- app_assoc in Ev. rewrite Ev in *.
      eexists. apply (slot_short p Hp (nbytes d) d rest); [lia|lia|exact Nd| |exact Fr].
      rewrite app_length in L7. change (length (byte_nibbles (128 + nbytes d))) with 2%nat in L7. lia.
Qed.

(** CheckEthStorageProof: the value is the RLP item of a string [d] of 1 to 32 bytes. *)
Theorem C81_storage_proof_complete : forall p hash maxDepth W key hops root buf round valueRlp v d rest, 2 ^ 248 < p -> hash_ok p hash ->
  (maxDepth <= 10)%nat -> (1 <= length hops < maxDepth)%nat -> length key = 64%nat -> Forall nibble key -> length root = 64%nat ->
  (1064 <= W)%nat -> aligned (repeat 0 W) -> (exists d, hash (repeat 0 W) 0 = Some d) ->
  hops_ok p hops -> leaf_ok p 66 buf round valueRlp v -> (1064 <= length buf)%nat -> padded_leaf buf ->
  trie_path (fun b r d => hash b r = Some d) key 0 root hops buf round v ->
  valueRlp = enc (str d) ++ rest -> bytes_between 1 32 d -> nib v = enc (str d) ->
  exists res, check_eth_storage p hash maxDepth root valueRlp buf round (leaf_flag key hops) (honest maxDepth key (repeat 0 W) hops) = Some res /\
    es_output res = 1 /\ es_slotValue res = (hexval d mod 2 ^ 248, hexval d / 2 ^ 248).
Proof.
  intros p hash maxDepth W key hops root buf round valueRlp v d rest Hp Hh H1 H2 H3 H4 Lroot H5 H6 H7 H8 H9 H10 H11 H12 Ev Hd Enib.
  assert (Hp2 : 2 ^ 200 < p) by (eapply Z.lt_trans; [|exact Hp]; reflexivity).
  pose proof (C81_storage_inclusion_complete p hash maxDepth 66 W key hops root buf round valueRlp v Hp2 Hh H1 H2 H3 H4 H5 H6 H7 H8 H9 H10 H11 H12) as C.
  destruct H9 as (L1 & L2 & L3 & L4 & L5 & L6 & L7 & L8 & L9 & L10 & L11 & L12).
  assert (SV := slot_total p valueRlp d rest Hp L7 L8 Ev Hd).
  destruct SV as (sv & SV).
  assert (E : check_eth_storage p hash maxDepth root valueRlp buf round (leaf_flag key hops) (honest maxDepth key (repeat 0 W) hops) = Some (StorageResult 1 sv (fsub p (Z.of_nat (2 * length v)) 2))).
  { unfold check_eth_storage. cbn [honest li_key] in *. rewrite Lroot, H3, L7. cbn [Nat.eqb andb guard obind]. rewrite C. cbn [obind]. rewrite SV. reflexivity. }
  eexists. split; [exact E|]. split; [reflexivity|]. exact (C63_slot_value p hash maxDepth root valueRlp buf round _ _ _ d rest Hp L8 E Ev Hd).
Qed.

(** CheckEthAccountProof *)
Theorem C81_account_proof_complete : forall p hash maxDepth W key hops root buf round addressRlp v account rest, 2 ^ 200 < p -> hash_ok p hash ->
  (maxDepth <= 10)%nat -> (1 <= length hops < maxDepth)%nat -> length key = 64%nat -> Forall nibble key -> length root = 64%nat ->
  (1064 <= W)%nat -> aligned (repeat 0 W) -> (exists d, hash (repeat 0 W) 0 = Some d) ->
  hops_ok p hops -> leaf_ok p 228 buf round addressRlp v ->
  trie_path (fun b r d => hash b r = Some d) key 0 root hops buf round v ->
  addressRlp = list_of account ++ rest -> eth_account account -> nib v = list_of account ->
  exists res, check_eth_account p hash maxDepth root addressRlp buf round (leaf_flag key hops) (honest maxDepth key (repeat 0 W) hops) = Some res /\
    ea_output res = 1 /\
    ea_nonceLen res = Z.of_nat (length (nth 0 account [])) /\ firstn (length (nth 0 account [])) (ea_nonce res) = nth 0 account [] /\
    ea_balanceLen res = Z.of_nat (length (nth 1 account [])) /\ firstn (length (nth 1 account [])) (ea_balance res) = nth 1 account [] /\
    ea_storageRoot res = nth 2 account [] /\ ea_codeHash res = nth 3 account [].
Proof.
  intros p hash maxDepth W key hops root buf round av v acct rest Hp Hh H1 H2 H3 H4 Lroot H5 H6 H7 H8 H9 H10 Ev Ha Enib.
  assert (C := C80_mpt_inclusion_complete p hash maxDepth 228 W key hops root buf round av v Hp Hh H1 H2 H3 H4 H5 H6 H7 H8 H9 H10).
  destruct H9 as (L1 & L2 & L3 & L4 & L5 & L6 & L7 & L8 & L9 & L10 & L11 & L12).
  assert (AC : exists t lens outs, rlp_array_check p account_params av 4 = Some (1, t, lens, outs)).
  { pose proof (account_fits_table acct Ha) as FT. assert (IT : Forall is_item (map str acct)) by (exact (fits_items _ _ FT)).
    destruct (list_of_split acct rest 228 av Ev ltac:(lia) ltac:(reflexivity) IT) as (h & E' & Lh & Hi & Hh6).
    assert (Nh : Forall nibble (h ++ encs (map str acct))).
    { assert (X : Forall nibble (list_of acct)).
      { apply (list_of_nibbles p Hp acct _ Ha). unfold nbytes. apply Z.div_lt_upper_bound; [lia|]. assert (length (encs (map str acct)) <= length av)%nat by (rewrite E', !app_length; lia). lia. }
      assert (Q : (h ++ encs (map str acct)) ++ rest = list_of acct ++ rest) by (rewrite <- app_assoc; congruence). apply app_inv_tail in Q. rewrite Q. exact X. }
    destruct (account_decode p Hp av h (map str acct) rest L7 L8 E' Nh Lh Hi Hh6 FT) as (outs' & Er' & _). eauto. }
  destruct AC as (t & lens & outs & AC).
  eassert (E : check_eth_account p hash maxDepth root av buf round (leaf_flag key hops) (honest maxDepth key (repeat 0 W) hops) = Some _).
  { unfold check_eth_account. cbn [honest li_key] in *. rewrite Lroot, H3, L7. cbn [Nat.eqb andb guard obind]. rewrite AC. cbn [obind]. rewrite C. cbn [obind]. reflexivity. }
  eexists. split; [exact E|]. split; [cbn [ea_output]; rewrite fmul_small; assert (1 < 2 ^ 200) by reflexivity; lia|].
  apply (C62_account_fields p hash maxDepth root av buf round (leaf_flag key hops) (honest maxDepth key (repeat 0 W) hops) _ (length (list_of acct)) acct Hp L8 E); [|exact Ha].
  rewrite Ev, firstn_app, Nat.sub_diag, firstn_all. cbn [firstn]. apply app_nil_r.
Qed.

Lemma shr_total : forall p xs k, 2 ^ 200 < p -> length xs = 8%nat -> (forall x, In x xs -> felt p x) -> (k < 8)%nat ->
  exists out, r_shift_right p 8 3 xs (fsub p 8 (Z.of_nat (8 - k))) = Some out.
Proof.
  intros p xs k Hp L F Hk. assert (Q : 1000 < p) by (assert (1000 < 2 ^ 200) by reflexivity; lia).
  assert (E : fsub p 8 (Z.of_nat (8 - k)) = Z.of_nat k) by (unfold fsub; rewrite Z.mod_small; lia).
  rewrite E. rewrite r_shift_right_ok; [|lia|exact L|exact F|unfold felt; lia|lia]. destruct (Z.ltb_spec (Z.of_nat k) (2 ^ Z.of_nat 3)) as [l|l]; [eauto|]. change (2 ^ Z.of_nat 3) with 8 in l. lia.
Qed.

(** CheckEthAddressStorageProof (its account proof has ten layers): the header's number has 1 to 4 bytes. *)
Theorem C81_address_storage_complete : forall p hash storDepth blockHash blockRlp header restB blockRound
    Wa keyA hopsA addrLeaf addrLeafRound addressRlp va account restA Ws keyS hopsS storLeaf storLeafRound valueRlp vs d restS, 2 ^ 248 < p -> hash_ok p hash ->
  (* the header *)
  felt p blockRound -> length blockRlp = 2176%nat -> Forall nibble blockRlp -> blockRlp = list_of header ++ restB -> eth_header header ->
  ((length header < 17)%nat -> exists b t, 0 <= b < 128 /\ restB = byte_nibbles b ++ t) -> hash blockRlp blockRound = Some blockHash ->
  (2 <= length (nth 8 header []) <= 8)%nat ->
  (* the account, under the header's state root *)
  (1 <= length hopsA < 10)%nat -> length keyA = 64%nat -> Forall nibble keyA ->
  (1064 <= Wa)%nat -> aligned (repeat 0 Wa) -> (exists d, hash (repeat 0 Wa) 0 = Some d) ->
  hops_ok p hopsA -> leaf_ok p 228 addrLeaf addrLeafRound addressRlp va ->
  trie_path (fun b r d => hash b r = Some d) keyA 0 (nth 3 header []) hopsA addrLeaf addrLeafRound va ->
  addressRlp = list_of account ++ restA -> eth_account account -> nib va = list_of account ->
  (* the slot, under the account's storage root *)
  (storDepth <= 10)%nat -> (1 <= length hopsS < storDepth)%nat -> length keyS = 64%nat -> Forall nibble keyS ->
  (1064 <= Ws)%nat -> aligned (repeat 0 Ws) -> (exists d, hash (repeat 0 Ws) 0 = Some d) ->
  hops_ok p hopsS -> leaf_ok p 66 storLeaf storLeafRound valueRlp vs -> (1064 <= length storLeaf)%nat -> padded_leaf storLeaf ->
  trie_path (fun b r d => hash b r = Some d) keyS 0 (nth 2 account []) hopsS storLeaf storLeafRound vs ->
  valueRlp = enc (str d) ++ restS -> bytes_between 1 32 d -> nib vs = enc (str d) ->
  exists res, check_eth_address_storage p hash 10 storDepth blockHash blockRlp (Z.of_nat (length header)) blockRound
      addressRlp addrLeaf addrLeafRound (leaf_flag keyA hopsA) (honest 10 keyA (repeat 0 Wa) hopsA)
      valueRlp storLeaf storLeafRound (leaf_flag keyS hopsS) (honest storDepth keyS (repeat 0 Ws) hopsS) = Some res /\
    as_output res = 1 /\ as_blockNumber res = hexval (nth 8 header []) /\ as_slotValue res = (hexval d mod 2 ^ 248, hexval d / 2 ^ 248).
Proof.
  intros p hash SD bh blk header restB brd Wa kA hA al ar av va acct restA Ws kS hS sl sr sv vs d restS Hp248 Hh
    B1 B2 B3 B4 B5 B6 B7 B8 A1 A2 A3 A4 A5 A6 A7 A8 A9 A10 A11 A12 S1 S2 S3 S4 S5 S6 S7 S8 S9 S10 S11 S12 S13 S14 S15.
  assert (Hp : 2 ^ 200 < p) by (assert (2 ^ 200 < 2 ^ 248) by reflexivity; lia).
  assert (Q : 1000 < p) by (assert (1000 < 2 ^ 200) by reflexivity; lia).
  destruct (C61_block_header_accepted p hash blk header restB brd bh Hp B1 B2 B3 B4 B5 B6 B7) as (b & Eb & Ob & Hb).
  assert (NF : forall l, Forall nibble l -> felts p l).
  { intros l Hl x Hx. rewrite Forall_forall in Hl. specialize (Hl x Hx). unfold nibble, felt in *. lia. }
  assert (Ffn : felt p (Z.of_nat (length header))). { pose proof B5 as [[X1 X2] _]. unfold felt. cbn in X1, X2. lia. }
  destruct (block_sound p Hp hash Hh blk (Z.of_nat (length header)) brd b (NF _ B3) Ffn B1 Eb) as (_ & _ & _ & _ & R).
  destruct (R header restB B4 B5) as (R1 & R2 & R3 & R4 & R5 & R6).
  destruct (header_field header 3 32 32 B5 eq_refl ltac:(lia)) as (_ & _ & Lr).
  destruct (C81_account_proof_complete p hash 10 Wa kA hA (nth 3 header []) al ar av va acct restA Hp Hh (le_n 10) A1 A2 A3 ltac:(lia) A4 A5 A6 A7 A8 A9 A10 A11 A12)
    as (a & Ea & Oa & _ & _ & _ & _ & Sa & _).
  assert (Lsr : length (nth 2 acct []) = 64%nat).
  { pose proof (Forall2_nth_ _ _ _ _ _ 2 (0%nat, 0%nat) [] A11 ltac:(cbn; lia)) as X. destruct X as (_ & _ & X). cbn in X. lia. }
  destruct (C81_storage_proof_complete p hash SD Ws kS hS (nth 2 acct []) sl sr sv vs d restS Hp248 Hh S1 S2 S3 S4 Lsr S5 S6 S7 S8 S9 S10 S11 S12 S13 S14 S15)
    as (s & Es & Os & Vs).
  destruct (number_shape p hash blk _ brd b Hp B2 B3 Ffn Eb) as (Nn & Ln & _).
  destruct (shr_total p (eb_number b) (8 - length (nth 8 header [])) Hp Ln (NF _ Nn) ltac:(lia)) as (dg & Ed).
  replace (8 - (8 - length (nth 8 header [])))%nat with (length (nth 8 header [])) in Ed by lia.
  assert (Lbh : length bh = 64%nat /\ Forall nibble bh).
  { destruct (Hh blk brd bh (NF _ B3)) as (_ & X & Y); auto. unfold aligned. rewrite B2. reflexivity. }
  destruct Lbh as [Lbh Nbh].
  assert (Eq : r_array_equal p bh (eb_hash b) 64 64 = Some 1).
  { rewrite Hb, r_array_equal_ok; [|lia|apply NF; exact Nbh|apply NF; exact Nbh|unfold felt; lia|lia|lia|lia|lia|lia].
    change (64 <=? Z.of_nat 64) with true. cbv iota. f_equal. unfold prefix_eqb. destruct (list_eq_dec Z.eq_dec _ _); [reflexivity|congruence]. }
  destruct (number_ok p (nth 8 header []) (eb_number b) dg Hp ltac:(lia) Nn ltac:(lia) R5 Ed) as [_ Nv].
  eexists. split.
  { unfold check_eth_address_storage. rewrite Lbh.
    assert (length (li_rounds (honest 10 kA (repeat 0 Wa) hA)) = 9%nat) as ->.
    { cbn [honest li_rounds]. rewrite app_length, map_length, repeat_length. lia. }
    cbn [Nat.eqb andb guard]. rewrite Eb. cbn [obind]. rewrite Eq. cbn [obind]. rewrite R1, Ea. cbn [obind]. rewrite Sa, Es. cbn [obind]. rewrite R4, Ed. cbn [obind]. reflexivity. }
  cbn [as_output as_blockNumber as_slotValue]. rewrite Oa, Os. split; [|split; [exact Nv|exact Vs]].
  assert (fadd p (fadd p 1 1) 1 = 3) as ->.
  { unfold fadd. rewrite (Z.mod_small (1 + 1)) by lia. rewrite Z.mod_small by lia. reflexivity. }
  rewrite r_equal_ok by (unfold felt; lia). reflexivity.
Qed.

(** Non-vacuity: the toy digest and path of Props_MptPathComplete.v under a 15-field header with number 42. *)
Definition toy_header : list (list Z) :=
  [repeat 1 64; repeat 2 64; repeat 3 40; repeat 10 64; repeat 4 64; repeat 5 64; repeat 0 512; [0; 2]; [2; 10]; [15; 15; 15; 15]; []; [5; 15; 0; 0; 0; 0; 0; 0];
   [8; 8; 9; 9]; repeat 6 64; repeat 0 16].
Definition toy_rest : list Z := [0; 1] ++ repeat 0 (2176 - length (list_of toy_header) - 2).
Definition toy_account : list (list Z) := [[0; 1]; []; repeat 10 64; repeat 12 64].
Definition toy_va : list Z := [248; 68; 1; 128; 160] ++ repeat 170 32 ++ [160] ++ repeat 204 32.
Definition toy_vs : list Z := [130; 1; 2].
Definition toy_leaf_of (v : list Z) : list Z := toy_pad (nib (rlp (RList [RStr (53 :: repeat 85 29); RStr v]))).
Lemma toy_path_of v : forallb (fun x => (0 <=? x) && (x <=? 15)) (toy_leaf_of v) = true ->
  trie_path (fun b r d => toy b r = Some d) toy_key 0 (repeat 10 64) toy_hops (toy_leaf_of v) 0 v.
Proof.
  intros E. pose proof C80_path_case as T.
  inversion T as [|? ? ? ? ? ? ? ? D1 R1 T1]; subst. inversion T1 as [|? ? ? ? ? ? ? ? D2 R2 T2]; subst. inversion T2 as [|? ? ? ? ? ? ? ? D3 R3 T3]; subst.
  eapply tp_hop; [exact D1|exact R1|]. eapply tp_hop; [exact D2|exact R2|]. apply tp_hop with (d' := repeat 10 64); [exact D3| |].
  { assert (repeat 10 64 = d'1) as ->; [|exact R3]. inversion T3 as [? ? ? ? ? ? ? _ D4 _ _ _|]; subst. unfold toy in D4. destruct (forallb _ toy_leaf); congruence. }
  apply tp_leaf with (kb := 53 :: repeat 85 29) (rest := repeat 0 (1088 - length (nib (rlp (RList [RStr (53 :: repeat 85 29); RStr v])))));
    [cbn; lia|unfold toy; rewrite E; reflexivity|apply toy_bytes; reflexivity|reflexivity|reflexivity].
Qed.
Lemma toy_hops_ok : hops_ok toy_p toy_hops.
Proof. intros h [<-|[<-|[<-|[]]]]; (split; [apply toy_nibs; reflexivity|split; [reflexivity|split; [apply Nat.leb_le; reflexivity|split; reflexivity || (cbn; lia)]]]). Qed.
Lemma toy_leaf_ok : forall v mv, (66 <= mv <= 255)%nat -> (2 * length v <= mv)%nat -> (length v < 56 \/ 128 <= mv)%nat ->
  forallb (fun x => (0 <=? x) && (x <=? 15)) (toy_leaf_of v) = true -> length (toy_leaf_of v) = 1088%nat -> forallb (fun x => (0 <=? x) && (x <=? 255)) v = true ->
  leaf_ok toy_p mv (toy_leaf_of v) 0 (nib v ++ repeat 0 (mv - length (nib v))) v.
Proof.
  intros v mv H1 H2 H3 H4 H5 H6. assert (Lv : length (nib v) = (2 * length v)%nat) by apply nib_length.
  split; [apply toy_nibs; exact H4|]. split; [unfold aligned; rewrite H5; reflexivity|]. split; [rewrite H5; reflexivity|]. split; [split; [cbn; lia|reflexivity]|]. split; [exact H1|]. split; [lia|].
  split; [rewrite app_length, repeat_length; lia|]. split.
  { apply (Forall_nibble_felt toy_p toy_big). apply Forall_app. split; [|apply Forall_forall; intros x I; apply repeat_spec in I; subst; unfold nibble; lia].
    apply nib_nibble. apply toy_bytes. exact H6. }
  split; [apply toy_bytes; exact H6|]. split; [exact H2|]. split; [exact H3|]. rewrite <- Lv, firstn_app, Nat.sub_diag, firstn_all. apply app_nil_r.
Qed.
Example C81_case :
  exists res, check_eth_address_storage toy_p toy 10 6 (repeat 10 64) (list_of toy_header ++ toy_rest) 15 0
      (list_of toy_account ++ repeat 0 88) (toy_leaf_of toy_va) 0 (leaf_flag toy_key toy_hops) (honest 10 toy_key (repeat 0 1088) toy_hops)
      (enc (str [0; 1; 0; 2]) ++ repeat 0 60) (toy_leaf_of toy_vs) 0 (leaf_flag toy_key toy_hops) (honest 6 toy_key (repeat 0 1088) toy_hops) = Some res /\
    as_output res = 1 /\ as_blockNumber res = 42 /\ as_slotValue res = (258, 0).
Proof.
  change (258, 0) with (hexval [0; 1; 0; 2] mod 2 ^ 248, hexval [0; 1; 0; 2] / 2 ^ 248). change 42 with (hexval (nth 8 toy_header [])). change 15 with (Z.of_nat (length toy_header)).
  apply (C81_address_storage_complete toy_p toy 6 (repeat 10 64) (list_of toy_header ++ toy_rest) toy_header toy_rest 0
    1088 toy_key toy_hops (toy_leaf_of toy_va) 0 (list_of toy_account ++ repeat 0 88) toy_va toy_account (repeat 0 88)
    1088 toy_key toy_hops (toy_leaf_of toy_vs) 0 (enc (str [0; 1; 0; 2]) ++ repeat 0 60) toy_vs [0; 1; 0; 2] (repeat 0 60)).
  - reflexivity.
  - exact toy_ok.
  - split; [cbn; lia|reflexivity].
  - reflexivity.
  - apply toy_nibs. reflexivity.
  - reflexivity.
  - split; [cbn; lia|apply sizes_all_ok; [reflexivity|vm_compute; reflexivity]].
  - intros _. exists 1, (repeat 0 (2176 - length (list_of toy_header) - 2)). split; [lia|reflexivity].
  - reflexivity.
  - cbn; lia.
  - cbn; lia.
  - reflexivity.
  - apply toy_nibs. reflexivity.
  - lia.
  - reflexivity.
  - eexists. reflexivity.
  - exact toy_hops_ok.
  - apply (toy_leaf_ok toy_va 228); [lia|apply Nat.leb_le; reflexivity|right; lia|reflexivity|reflexivity|reflexivity].
  - apply toy_path_of. reflexivity.
  - reflexivity.
  - apply sizes_all_ok; [reflexivity|vm_compute; reflexivity].
  - reflexivity.
  - lia.
  - cbn; lia.
  - reflexivity.
  - apply toy_nibs. reflexivity.
  - lia.
  - reflexivity.
  - eexists. reflexivity.
  - exact toy_hops_ok.
  - apply (toy_leaf_ok toy_vs 66); [lia|apply Nat.leb_le; reflexivity|left; cbn; lia|reflexivity|reflexivity|reflexivity].
  - apply Nat.leb_le. reflexivity.
  - exists (53 :: repeat 85 29), toy_vs, (repeat 0 15), (repeat 0 (1088 - length (nib (rlp (RList [RStr (53 :: repeat 85 29); RStr toy_vs]))) - 30)).
    split; [apply toy_bytes; reflexivity|]. split; [cbn; lia|]. split; [apply toy_bytes; reflexivity|]. split; [cbn; lia|]. split; [reflexivity|].
    split; [apply Forall_forall; intros x I; apply repeat_spec in I; subst; lia|reflexivity].
  - apply toy_path_of. reflexivity.
  - reflexivity.
  - split; [apply toy_nibs; reflexivity|]. split; [exists 2%nat; reflexivity|cbn; lia].
  - reflexivity.
Qed.
