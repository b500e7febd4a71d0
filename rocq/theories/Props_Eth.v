(** * Props_Eth.v — properties C61 to C64 (eth_proof.go: block header, account, storage slot, and the three combined).

    [hash] is the digest gadget, [hash_ok] as in C13 (Props_MptKeccak.v proves it of Keccak256AsNibbles); [hashed p hash buf d]: the
    gadget returns [d] for [buf] at some round index; [walk] is defined in MptSpec.v, the RLP objects in EthSpec.v. *)
From Coq Require Import ZArith List Lia Bool Arith.
From Verif Require Import ModNorm Field FieldLemmas RlpUtilModel RlpUtilProofs RlpModel RlpSpec RlpPrefixProofs RlpArrayProofs RlpArraySound BlkProofs ArrayFelt HexProofs
  MptModel MptSpec MptProofs MptPathProofs MptPathSound Props_Mpt Props_MptCases EthModel EthProofs EthSpec EthItems EthSound.
Import ListNotations.
Open Scope Z_scope.
Open Scope circ_scope.

(** ** C61 — CheckEthBlockHash.  Whatever the verdict Output and the claimed number of fields, of which there must be at least 15: the
    buffer is what was hashed, and if it starts with the RLP of a header the reported roots, number and time are that header's. *)
Theorem C61_block_header_fields : forall p hash blockRlp fieldsNum round res, 2 ^ 200 < p -> hash_ok p hash ->
  felts p blockRlp -> felt p fieldsNum -> felt p round ->
  check_eth_block p hash blockRlp fieldsNum round = Some res ->
  15 <= fieldsNum /\ length blockRlp = 2176%nat /\ Forall nibble blockRlp /\ hash blockRlp round = Some (eb_hash res) /\
  forall fields rest, blockRlp = list_of fields ++ rest -> eth_header fields ->
    eb_stateRoot res = nth 3 fields [] /\ eb_txRoot res = nth 4 fields [] /\ eb_receiptsRoot res = nth 5 fields [] /\
    eb_numberLen res = Z.of_nat (length (nth 8 fields [])) /\
    firstn (length (nth 8 fields [])) (eb_number res) = firstn 8 (nth 8 fields []) /\
    firstn (length (nth 11 fields [])) (eb_time res) = nth 11 fields [].
Proof. intros p hash blk fn round res Hp Hh F1 F2 F3 H. exact (block_sound p Hp hash Hh blk fn round res F1 F2 F3 H). Qed.

(** A header followed, unless it has all 17 fields, by a padding byte below 0x80 is accepted with Output 1. *)
Theorem C61_block_header_accepted : forall p hash blockRlp fields rest round d, 2 ^ 200 < p -> felt p round ->
  length blockRlp = 2176%nat -> Forall nibble blockRlp -> blockRlp = list_of fields ++ rest -> eth_header fields ->
  ((length fields < 17)%nat -> exists b t, 0 <= b < 128 /\ rest = byte_nibbles b ++ t) ->
  hash blockRlp round = Some d ->
  exists res, check_eth_block p hash blockRlp (Z.of_nat (length fields)) round = Some res /\ eb_output res = 1 /\ eb_hash res = d.
Proof. intros p hash blk fields rest round d Hp Fr L N E Hhd Hr Eh. exact (block_complete p Hp hash blk fields rest round d Fr L N E Hhd Hr Eh). Qed.

(** ** C62 — CheckEthAccountProof *)
Theorem C62_account_proof_sound : forall p hash maxDepth stateRoot addressRlp leafRlp leafRound leafPref i res, 2 ^ 200 < p -> hash_ok p hash ->
  (maxDepth <= 100)%nat -> Z.of_nat (length leafRlp) < 2 ^ 60 ->
  felts p stateRoot -> felts p addressRlp -> felts p leafRlp -> aligned leafRlp -> felt p leafRound -> felt p leafPref -> layers_felts p i ->
  check_eth_account p hash maxDepth stateRoot addressRlp leafRlp leafRound leafPref i = Some res -> ea_output res = 1 -> 2 <= li_depth i ->
  exists vlen t, 0 <= vlen <= 228 /\ li_depth i <= Z.of_nat maxDepth /\
    walk (hashed p hash) (li_key i)
      (fun s buf => exists total, leaf_node (firstn 302 buf) total (slice s 64 (li_key i)) (firstn (Z.to_nat vlen) addressRlp))
      (nth 0 (li_starts i) 0) stateRoot t (firstn (Z.to_nat (li_depth i) - 1) (li_nodes i) ++ [leafRlp]).
Proof.
  intros p hash D sr v leaf lrd pf i res Hp Hh HD Hl F1 F2 F3 Al F4 F5 F6 H Ho Hd.
  exact (account_walk p Hp hash Hh D sr v leaf lrd pf i res HD Hl F1 F2 F3 Al F4 F5 F6 H Ho Hd).
Qed.
(** the reported fields are those of the account, whatever the verdict *)
Theorem C62_account_fields : forall p hash maxDepth stateRoot addressRlp leafRlp leafRound leafPref i res vlen account, 2 ^ 200 < p -> felts p addressRlp ->
  check_eth_account p hash maxDepth stateRoot addressRlp leafRlp leafRound leafPref i = Some res ->
  firstn vlen addressRlp = list_of account -> eth_account account ->
  ea_nonceLen res = Z.of_nat (length (nth 0 account [])) /\ firstn (length (nth 0 account [])) (ea_nonce res) = nth 0 account [] /\
  ea_balanceLen res = Z.of_nat (length (nth 1 account [])) /\ firstn (length (nth 1 account [])) (ea_balance res) = nth 1 account [] /\
  ea_storageRoot res = nth 2 account [] /\ ea_codeHash res = nth 3 account [].
Proof.
  intros p hash D sr v leaf lrd pf i res n acct Hp F H E Ha. exact (account_fields p Hp hash D sr v leaf lrd pf i res n acct F H E Ha).
Qed.

(** ** C63 — CheckEthStorageProof *)
Theorem C63_storage_proof_sound : forall p hash maxDepth storageRoot valueRlp leafRlp leafRound leafPref i res, 2 ^ 200 < p -> hash_ok p hash ->
  (maxDepth <= 100)%nat -> Z.of_nat (length leafRlp) < 2 ^ 60 ->
  felts p storageRoot -> felts p valueRlp -> felts p leafRlp -> aligned leafRlp -> felt p leafRound -> felt p leafPref -> layers_felts p i ->
  check_eth_storage p hash maxDepth storageRoot valueRlp leafRlp leafRound leafPref i = Some res -> es_output res = 1 -> 2 <= li_depth i ->
  exists vlen t, es_valueLen res = (vlen - 2) mod p /\ 0 <= vlen <= 66 /\ li_depth i <= Z.of_nat maxDepth /\
    walk (hashed p hash) (li_key i)
      (fun s buf => last_leaf 140 (li_key i) valueRlp vlen s buf \/
         (exists its total, list_node (firstn branch_window buf) its total /\ length its = 17%nat /\
            let nib := nth (Z.to_nat (li_depth i - 1)) (li_key i) 0 in 0 <= nib < 17 /\ payload (nth (Z.to_nat nib) its ([], [])) = []) \/
         foreign_ext (firstn ext_window buf) (slice s 64 (li_key i)))
      (nth 0 (li_starts i) 0) storageRoot t (firstn (Z.to_nat (li_depth i) - 1) (li_nodes i) ++ [leafRlp]).
Proof.
  intros p hash D sr v leaf lrd pf i res Hp Hh HD Hl F1 F2 F3 Al F4 F5 F6 H Ho Hd.
  destruct (storage_walk p Hp hash Hh D sr v leaf lrd pf i res HD Hl F1 F2 F3 Al F4 F5 F6 H Ho Hd) as (_ & _ & W). exact W.
Qed.

Lemma pair_bytes (d : list Z) : Nat.Even (length d) -> (length d = 2)%nat -> exists a b, d = [a; b].
Proof. intros _ H. destruct d as [|a [|b [|]]]; try discriminate. eauto. Qed.
(** the slot value: low 248 bits, high 8 bits of the number whose RLP encoding valueRlp starts with *)
Theorem C63_slot_value : forall p hash maxDepth storageRoot valueRlp leafRlp leafRound leafPref i res d rest, 2 ^ 248 < p -> felts p valueRlp ->
  check_eth_storage p hash maxDepth storageRoot valueRlp leafRlp leafRound leafPref i = Some res ->
  valueRlp = enc (str d) ++ rest -> bytes_between 1 32 d ->
  es_slotValue res = (hexval d mod 2 ^ 248, hexval d / 2 ^ 248).
Proof.
  intros p hash D sr v leaf lrd pf i res d rest Hp Fv H Ev (Nd & Ed & Ld). unfold check_eth_storage in H.
  destruct (Nat.eqb (length sr) 64 && Nat.eqb (length (li_key i)) 64 && Nat.eqb (length v) 66) eqn:El; cbn [guard] in H; [ostep H|discriminate].
  do 2 rewrite andb_true_iff in El. do 3 rewrite Nat.eqb_eq in El. destruct El as [[L1 L2] L3].
  destruct (check_mpt_fixed p hash D 64 66 v sr leaf lrd pf i true) as [[mo vl]|]; [ostep H|discriminate].
  destruct (slot_value p v) as [sv|] eqn:Es; [ostep H|discriminate]. apply some_inj in H. subst res. cbn [es_slotValue].
  assert (Fr : feltl p rest) by (intros x Hx; apply Fv; rewrite Ev; apply in_or_app; auto).
  pose proof (nbytes_even d Ed) as Hnb. unfold str in Ev. destruct (Nat.eqb (length d) 2 && (hexval d <? 128)) eqn:Ec.
  - apply andb_true_iff in Ec. rewrite Nat.eqb_eq, Z.ltb_lt in Ec. destruct Ec as [C1 C2]. destruct (pair_bytes d Ed C1) as (a & b & ->).
    change (hexval [a; b]) with (16 * (16 * 0 + a) + b) in *. cbn [enc fst snd app] in Ev. inversion Nd as [|? ? N1 N2]; subst. inversion N2 as [|? ? N3 N4]; subst.
    unfold nibble in *. set (n := 16 * (16 * 0 + a) + b) in *. assert (Hn : 0 <= n < 128) by (unfold n in *; lia).
    assert (Eb : a :: b :: rest = byte_nibbles n ++ rest).
    { unfold byte_nibbles, n. cbn [app]. f_equal; [|f_equal].
      - symmetry. replace (16 * (16 * 0 + a) + b) with (b + a * 16) by lia. rewrite Z.div_add, Z.div_small by lia. lia.
      - symmetry. replace (16 * (16 * 0 + a) + b) with (b + a * 16) by lia. rewrite Z.mod_add, Z.mod_small by lia. lia. }
    change (slot_value p (a :: b :: rest) = Some sv) in Es. rewrite Eb, (slot_literal p Hp n rest Hn) in Es; [|cbn [length app] in L3; lia|exact Fr].
    apply some_inj in Es. rewrite Es. assert (128 < 2 ^ 248) by reflexivity. rewrite Z.mod_small, Z.div_small by lia. reflexivity.
  - unfold enc in Ev. cbn [fst snd] in Ev. unfold rlp_hdr in Ev. destruct (Z.ltb_spec (nbytes d) 56); [|lia]. rewrite <- app_assoc in Ev. rewrite Ev in Es.
    rewrite (slot_short p Hp (nbytes d) d rest) in Es; [apply some_inj in Es; exact Es|lia|lia|exact Nd| |exact Fr].
    rewrite Ev in L3. rewrite app_length in L3. change (length (byte_nibbles (128 + nbytes d))) with 2%nat in L3. lia.
Qed.

(** ** C64 — CheckEthAddressStorageProof: Output 1 ties the slot value to the block hash *)
Lemma bits3 p a b c : 2 ^ 200 < p -> (a = 0 \/ a = 1) -> (b = 0 \/ b = 1) -> (c = 0 \/ c = 1) -> r_equal p (fadd p (fadd p a b) c) 3 = 1 -> a = 1 /\ b = 1 /\ c = 1.
Proof.
  intros Hp Ha Hb Hc H. assert (Q : 3 < p) by (assert (3 < 2 ^ 200) by reflexivity; lia). clear Hp.
  rewrite (fadd_small p a b), (fadd_small p (a + b) c) in H by lia. unfold r_equal in H. rewrite fis_zero_sub in H by (unfold felt; lia).
  destruct (Z.eqb_spec (a + b + c) 3); cbn [bit_of] in H; lia.
Qed.
Lemma blk_outs : forall p inp fn o t lens outs, 2 ^ 200 < p -> length inp = 2176%nat -> Forall nibble inp -> felt p fn ->
  blk_header_rlp_check p header_params inp fn = Some (o, t, lens, outs) -> length outs = 17%nat /\ Forall (fun x => length x = 2176%nat /\ Forall nibble x) outs.
Proof.
  intros p inp fn o t lens outs Hp Hl Hn Hf H. rewrite (blk_check_ok p Hp) in H by (auto; apply header_params_ok). unfold sem_blk_check in H.
  destruct (head_shape _ inp) as [[[v pre] total]|]; [|discriminate]. destruct (_ <? _); [|discriminate].
  destruct (sem_blk 0 fn (ac_fields header_params) _) as [q|] eqn:Eq; [|discriminate]. assert (outs = map q_out q) as -> by congruence. clear H.
  destruct header_params_ok as (P1 & P2 & P3 & P4 & P5).
  destruct (sem_blk_bounds _ 2176%nat _ _ _ _ P5 (eq_trans (rotl_length _ _) Hl) (rotl_nibble _ _ Hn) ltac:(lia) Eq) as [B1 B2].
  split; [rewrite map_length; exact B1|]. clear -B2. induction B2 as [|x q Hx B2 IH]; cbn [map]; constructor; auto. tauto.
Qed.
Lemma number_value : forall p l, 2 ^ 100 < p -> length l = 8%nat -> Forall nibble l -> block_number_value p l = hexval l.
Proof.
  intros p l Hp Hl Hn. assert (Hp' : 1267650600228229401496703205376 < p) by exact Hp. clear Hp. do 8 (destruct l as [|? l]; [discriminate|]). destruct l; [|discriminate].
  repeat match goal with H : Forall nibble (_ :: _) |- _ => inversion H; subst; clear H end. unfold nibble in *. clear Hl.
  unfold block_number_value. cbn [seq fold_left nth].
  change (16 ^ (7 - Z.of_nat 0)) with 268435456. change (16 ^ (7 - Z.of_nat 1)) with 16777216. change (16 ^ (7 - Z.of_nat 2)) with 1048576. change (16 ^ (7 - Z.of_nat 3)) with 65536.
  change (16 ^ (7 - Z.of_nat 4)) with 4096. change (16 ^ (7 - Z.of_nat 5)) with 256. change (16 ^ (7 - Z.of_nat 6)) with 16. change (16 ^ (7 - Z.of_nat 7)) with 1.
  unfold hexval. cbn [fold_left]. assert (St : forall x a b, fadd p (x mod p) (fmul p a b) = (x + a * b) mod p) by (intros; unfold fadd, fmul; rewrite <- Z.add_mod by lia; reflexivity).
  replace (fadd p 0) with (fadd p (0 mod p)) by (rewrite Z.mod_0_l by lia; reflexivity). rewrite !St. rewrite Z.mod_small by lia. ring.
Qed.
Lemma number_ok : forall p number digits out, 2 ^ 200 < p -> (length digits <= 8)%nat -> Forall nibble digits -> (length number <= 16)%nat ->
  firstn (length number) digits = firstn 8 number ->
  r_shift_right p 8 3 digits (fsub p 8 (Z.of_nat (length number))) = Some out ->
  (1 <= length number <= 8)%nat /\ block_number_value p out = hexval number.
Proof.
  intros p number digits out Hp Hl Nd Ln E H. assert (Q : 2 ^ 100 < p) by (assert (2 ^ 100 < 2 ^ 200) by reflexivity; lia). clear Hp. assert (Q' : 1267650600228229401496703205376 < p) by exact Q.
  assert (L8 : length digits = 8%nat). { unfold r_shift_right in H. destruct (Nat.leb_spec 8 (length digits)); cbn [guard obind] in H; [lia|discriminate]. }
  rewrite r_shift_right_ok in H; [|lia|exact L8| |unfold felt, fsub; apply Z.mod_pos_bound; lia|lia].
  2:{ intros x Hx. rewrite Forall_forall in Nd. specialize (Nd x Hx). unfold nibble, felt in *. lia. }
  destruct (Z.ltb_spec (fsub p 8 (Z.of_nat (length number))) (2 ^ Z.of_nat 3)) as [L|L]; [|discriminate]. apply some_inj in H. change (2 ^ Z.of_nat 3) with 8 in L.
  unfold fsub in *. assert (Hlen : (1 <= length number <= 8)%nat).
  { destruct (Nat.lt_ge_cases 8 (length number)) as [G|G].
    - exfalso. replace (8 - Z.of_nat (length number)) with (p - (Z.of_nat (length number) - 8) + (-1) * p) in L by lia. rewrite Z.mod_add, Z.mod_small in L by lia. lia.
    - destruct (length number) eqn:En; [|lia]. exfalso. change (8 - Z.of_nat 0) with 8 in L. rewrite Z.mod_small in L by lia. lia. }
  split; [exact Hlen|]. rewrite (firstn_all2 number) in E by lia. rewrite Z.mod_small in H by lia.
  replace (Z.to_nat (8 - Z.of_nat (length number))) with (8 - length number)%nat in H by lia.
  rewrite <- E. subst out. clear E L. set (n := length number) in *. clearbody n. clear Ln.
  assert (Ns : Forall nibble (shr (8 - n) digits)).
  { unfold shr. apply Forall_forall. intros x Hx. apply in_map_iff in Hx as (k & <- & Hk). apply in_seq in Hk. destruct (Nat.ltb_spec k (8 - n)); [unfold nibble; lia|].
    rewrite Forall_forall in Nd. apply Nd. apply nth_In. lia. }
  rewrite (number_value p _ Q (eq_trans (shr_length _ _) L8) Ns).
  do 8 (destruct digits as [|? digits]; [discriminate|]). destruct digits; [|discriminate].
  assert (n = 1 \/ n = 2 \/ n = 3 \/ n = 4 \/ n = 5 \/ n = 6 \/ n = 7 \/ n = 8)%nat as Hn by lia.
  destruct Hn as [Hn|[Hn|[Hn|[Hn|[Hn|[Hn|[Hn|Hn]]]]]]]; subst n; unfold shr, hexval; cbn [length seq map Nat.sub Nat.ltb Nat.leb nth fold_left firstn]; ring.
Qed.

Lemma number_shape : forall p hash blk fn brd b, 2 ^ 200 < p -> length blk = 2176%nat -> Forall nibble blk -> felt p fn ->
  check_eth_block p hash blk fn brd = Some b -> Forall nibble (eb_number b) /\ length (eb_number b) = 8%nat /\ length (eb_time b) = 8%nat.
Proof.
  intros p hash blk fn brd b Hp B2 B3 Ffn Ebk. unfold check_eth_block in Ebk. rewrite B2, Nat.eqb_refl in Ebk. cbn [guard] in Ebk. ostep Ebk.
  destruct (blk_header_rlp_check p header_params blk fn) as [[[[o t] lens] outs]|] eqn:Eb; [ostep Ebk|discriminate]. destruct (hash blk brd); [ostep Ebk|discriminate].
  apply some_inj in Ebk. subst b. cbn [eb_number eb_time]. destruct (blk_outs p blk fn o t lens outs Hp B2 B3 Ffn Eb) as [Lo Fo].
  rewrite Forall_forall in Fo. destruct (Fo (nth 8 outs [])) as [F1 F2]; [apply nth_In; lia|].
  destruct (Fo (nth 11 outs [])) as [F3 _]; [apply nth_In; lia|].
  split; [apply Forall_firstn; exact F2|]. split; rewrite firstn_length, ?F1, ?F3; reflexivity.
Qed.

Theorem C64_address_storage_sound : forall p hash addrDepth storDepth blockHash blockRlp fieldsNum blockRound
    addressRlp addrLeaf addrLeafRound addrLeafPref ai valueRlp storLeaf storLeafRound storLeafPref si res header rest, 2 ^ 248 < p -> hash_ok p hash ->
  (addrDepth <= 100)%nat -> (storDepth <= 100)%nat -> Z.of_nat (length addrLeaf) < 2 ^ 60 -> Z.of_nat (length storLeaf) < 2 ^ 60 ->
  felts p blockHash -> felts p blockRlp -> felt p fieldsNum -> felt p blockRound ->
  felts p addressRlp -> felts p addrLeaf -> aligned addrLeaf -> felt p addrLeafRound -> felt p addrLeafPref -> layers_felts p ai ->
  felts p valueRlp -> felts p storLeaf -> aligned storLeaf -> felt p storLeafRound -> felt p storLeafPref -> layers_felts p si ->
  check_eth_address_storage p hash addrDepth storDepth blockHash blockRlp fieldsNum blockRound addressRlp addrLeaf addrLeafRound addrLeafPref ai
    valueRlp storLeaf storLeafRound storLeafPref si = Some res ->
  as_output res = 1 -> 2 <= li_depth ai -> 2 <= li_depth si ->
  blockRlp = list_of header ++ rest -> eth_header header ->
  (* the block *)
  hash blockRlp blockRound = Some blockHash /\ (1 <= length (nth 8 header []) <= 8)%nat /\ as_blockNumber res = hexval (nth 8 header []) /\
  (* the account, under the header's state root *)
  exists vlen t, 0 <= vlen <= 228 /\
    walk (hashed p hash) (li_key ai)
      (fun s buf => exists total, leaf_node (firstn 302 buf) total (slice s 64 (li_key ai)) (firstn (Z.to_nat vlen) addressRlp))
      (nth 0 (li_starts ai) 0) (nth 3 header []) t (firstn (Z.to_nat (li_depth ai) - 1) (li_nodes ai) ++ [addrLeaf]) /\
  (* the slot, under that account's storage root *)
  forall account, firstn (Z.to_nat vlen) addressRlp = list_of account -> eth_account account ->
    exists slen t', 0 <= slen <= 66 /\
      walk (hashed p hash) (li_key si)
        (fun s buf => last_leaf 140 (li_key si) valueRlp slen s buf \/
           (exists its total, list_node (firstn branch_window buf) its total /\ length its = 17%nat /\
              let nib := nth (Z.to_nat (li_depth si - 1)) (li_key si) 0 in 0 <= nib < 17 /\ payload (nth (Z.to_nat nib) its ([], [])) = []) \/
           foreign_ext (firstn ext_window buf) (slice s 64 (li_key si)))
        (nth 0 (li_starts si) 0) (nth 2 account []) t' (firstn (Z.to_nat (li_depth si) - 1) (li_nodes si) ++ [storLeaf]) /\
      forall d tl, valueRlp = enc (str d) ++ tl -> bytes_between 1 32 d -> as_slotValue res = (hexval d mod 2 ^ 248, hexval d / 2 ^ 248).
Proof.
  intros p hash AD SD bh blk fn brd av al ard apf ai sv sl srd spf si res header rest Hp248 Hh HAD HSD Hal Hsl Fbh Fblk Ffn Fbrd Fav Fal Aal Fard Fapf Fai Fsv Fsl Asl Fsrd Fspf Fsi
    H Ho Hda Hds Eb Hhd.
  assert (Hp : 2 ^ 200 < p) by (assert (2 ^ 200 < 2 ^ 248) by reflexivity; lia).
  unfold check_eth_address_storage in H.
  destruct (Nat.eqb (length bh) 64 && Nat.eqb (length (li_rounds ai)) 9) eqn:El; cbn [guard] in H; [ostep H|discriminate].
  apply andb_true_iff in El. destruct El as [Lbh _]. apply Nat.eqb_eq in Lbh.
  destruct (check_eth_block p hash blk fn brd) as [b|] eqn:Ebk; [ostep H|discriminate].
  destruct (r_array_equal p bh (eb_hash b) 64 64) as [heq|] eqn:Eq; [ostep H|discriminate].
  destruct (check_eth_account p hash AD (eb_stateRoot b) av al ard apf ai) as [a|] eqn:Ea; [ostep H|discriminate].
  destruct (check_eth_storage p hash SD (ea_storageRoot a) sv sl srd spf si) as [s|] eqn:Es; [ostep H|discriminate].
  destruct (r_shift_right p 8 3 (eb_number b) (fsub p 8 (eb_numberLen b))) as [dg|] eqn:Ed; [ostep H|discriminate].
  apply some_inj in H. subst res. cbn [as_output as_blockNumber as_slotValue] in *.
  destruct (block_sound p Hp hash Hh blk fn brd b Fblk Ffn Fbrd Ebk) as (B1 & B2 & B3 & B4 & B5).
  destruct (B5 header rest Eb Hhd) as (R1 & R2 & R3 & R4 & R5 & R6).
  assert (Abk : aligned blk) by (unfold aligned; rewrite B2; reflexivity).
  destruct (Hh blk brd (eb_hash b) Fblk Abk Fbrd B4) as (_ & Lh & Nh).
  assert (Q100 : 1000 < p) by (clear -Hp; assert (1000 < 2 ^ 200) by reflexivity; lia).
  rewrite r_array_equal_ok in Eq; [|lia|exact Fbh| |unfold felt; lia|lia|lia|lia|lia|lia].
  2:{ intros x Hx. rewrite Forall_forall in Nh. specialize (Nh x Hx). unfold nibble, felt in *. lia. }
  change (64 <=? Z.of_nat 64) with true in Eq. cbv iota in Eq. apply some_inj in Eq.
  assert (Bo : heq = 0 \/ heq = 1) by (rewrite Eq; destruct (prefix_eqb _ _ _); cbn; auto).
  assert (Ba : ea_output a = 0 \/ ea_output a = 1).
  { clear -Ea Q100. unfold check_eth_account in Ea. destruct (_ && _); cbn [guard] in Ea; [ostep Ea|discriminate].
    destruct (rlp_array_check p account_params av 4) as [[[[ro rt] lens] outs]|] eqn:Er; [ostep Ea|discriminate].
    destruct (check_mpt_fixed p hash AD 64 228 av _ al ard apf ai false) as [[mo vl]|] eqn:Em; [ostep Ea|discriminate]. apply some_inj in Ea. subst a. cbn [ea_output].
    apply array_check_bit in Er. apply mpt_fixed_bit in Em. unfold fmul. destruct Er; subst ro; destruct Em; subst mo; cbn [Z.mul Pos.mul]; rewrite Z.mod_small by lia; auto. }
  assert (Bs : es_output s = 0 \/ es_output s = 1).
  { clear -Es. unfold check_eth_storage in Es. destruct (_ && _); cbn [guard] in Es; [ostep Es|discriminate].
    destruct (check_mpt_fixed p hash SD 64 66 sv _ sl srd spf si true) as [[mo vl]|] eqn:Em; [ostep Es|discriminate].
    destruct (slot_value p sv); [ostep Es|discriminate]. apply some_inj in Es. subst s. cbn [es_output]. exact (mpt_fixed_bit _ _ _ _ _ _ _ _ _ _ _ _ _ _ Em). }
  destruct (bits3 p heq (ea_output a) (es_output s) Hp Bo Ba Bs Ho) as (O1 & O2 & O3).
  assert (Ebh : eb_hash b = bh).
  { rewrite O1 in Eq. unfold prefix_eqb in Eq. destruct (list_eq_dec Z.eq_dec _ _) as [e|e]; [|discriminate]. change (Z.to_nat 64) with 64%nat in e.
    rewrite !firstn_all2 in e by lia. auto. }
  split; [rewrite <- Ebh; exact B4|].
  destruct (number_shape p hash blk fn brd b Hp B2 B3 Ffn Ebk) as (Nnum1 & Nnum2 & _).
  destruct (header_field header 8 0 8 Hhd eq_refl ltac:(lia)) as (Nn & _ & Ln).
  rewrite R4 in Ed. destruct (number_ok p (nth 8 header []) (eb_number b) dg Hp ltac:(lia) Nnum1 ltac:(lia) R5 Ed) as [N1 N2].
  split; [exact N1|]. split; [exact N2|].
  rewrite R1 in Ea. destruct (header_field header 3 32 32 Hhd eq_refl ltac:(lia)) as (Nr & _ & Lr).
  assert (NF : forall l, Forall nibble l -> felts p l).
  { intros l Hl x Hx. rewrite Forall_forall in Hl. specialize (Hl x Hx). unfold nibble, felt in *. lia. }
  destruct (account_walk p Hp hash Hh AD (nth 3 header []) av al ard apf ai a HAD Hal (NF _ Nr) Fav Fal Aal Fard Fapf Fai Ea O2 Hda) as (vlen & t & V1 & V2 & W).
  exists vlen, t. split; [exact V1|]. split; [exact W|].
  intros acct Eacct Hacct.
  destruct (account_fields p Hp hash AD _ av al ard apf ai a _ acct Fav Ea Eacct Hacct) as (_ & _ & _ & _ & SR & _).
  assert (Nsr : Forall nibble (nth 2 acct [])).
  { pose proof (Forall2_nth_ _ _ _ _ _ 2 (0%nat, 0%nat) [] Hacct ltac:(cbn; lia)) as X. exact (proj1 X). }
  rewrite SR in Es.
  destruct (storage_walk p Hp hash Hh SD (nth 2 acct []) sv sl srd spf si s HSD Hsl (NF _ Nsr) Fsv Fsl Asl Fsrd Fspf Fsi Es O3 Hds) as (_ & _ & slen & t' & _ & S1 & S2 & W2).
  exists slen, t'. split; [exact S1|]. split; [exact W2|]. intros d tl Ev Hd.
  exact (C63_slot_value p hash SD _ sv sl srd spf si s d tl Hp248 Fsv Es Ev Hd).
Qed.
