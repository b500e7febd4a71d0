(** * EthSound.v — what the header, account and storage gadgets of eth_proof.go return, from the lemmas of EthProofs.v / EthItems.v *)
From Coq Require Import ZArith List Lia Bool Arith.
From Verif Require Import ModNorm Field FieldLemmas RlpUtilModel RlpUtilProofs RlpModel RlpSpec RlpPrefixProofs RlpArrayProofs RlpArraySound BlkProofs ArrayFelt
  MptModel MptSpec MptProofs MptPathProofs MptPathSound Props_Mpt EthModel EthProofs EthSpec EthItems.
Import ListNotations.
Open Scope Z_scope.
Open Scope circ_scope.

Lemma header_params_ok : params_ok header_params.
Proof.
  unfold params_ok, header_params, fields_ok. cbn [ac_prefixMax ac_maxHexLen ac_fields]. split; [lia|]. split; [lia|]. split; [discriminate|]. split; [reflexivity|].
  repeat (constructor; [cbn [fst snd]; split; [lia|split; [reflexivity|vm_compute; lia]]|]). constructor.
Qed.
Lemma Forall2_nth_ : forall A B (R : A -> B -> Prop) l1 l2 k d1 d2, Forall2 R l1 l2 -> (k < length l1)%nat -> R (nth k l1 d1) (nth k l2 d2).
Proof. intros A B R l1 l2 k d1 d2 H. revert k. induction H as [|x y l1 l2 H0 H IH]; intros [|k] Hk; cbn [length nth] in *; try lia; auto. apply IH. lia. Qed.
Lemma nth_firstn_gen : forall A (l : list A) k n d, (k < n)%nat -> nth k (firstn n l) d = nth k l d.
Proof. intros A l k n. revert l k. induction n as [|n IH]; intros l k d Hk; [lia|]. destruct l, k; cbn; auto. apply IH. lia. Qed.
Lemma str_nth : forall fields k, nth k (map str fields) (str []) = str (nth k fields []).
Proof. intros. apply map_nth. Qed.

Lemma list_of_split : forall fields rest M blk, blk = list_of fields ++ rest -> (length blk <= M)%nat -> Z.of_nat M < 65536 -> Forall is_item (map str fields) ->
  exists h, blk = h ++ encs (map str fields) ++ rest /\ list_header h /\ rlp_item (h ++ encs (map str fields)) h (encs (map str fields)) /\ (length h <= 6)%nat.
Proof.
  intros fields rest M blk E HM HM' Hi.
  destruct (list_of_parts fields Hi) as (P1 & P2 & P3 & P4).
  { unfold nbytes. apply Z.div_lt_upper_bound; [lia|]. assert (length (encs (map str fields)) <= length blk)%nat.
    { rewrite E. unfold list_of. rewrite !app_length. lia. } lia. }
  exists (rlp_hdr 192 (nbytes (encs (map str fields)))). split; [|auto]. rewrite E, P1, <- app_assoc. reflexivity.
Qed.

Lemma header_field : forall fields k lo hi, eth_header fields -> nth_error header_sizes k = Some (lo, hi) -> (k < 15)%nat -> bytes_between lo hi (nth k fields []).
Proof.
  intros fields k lo hi [[Hl1 Hl2] HF] Hk Hk'. pose proof (Forall2_nth_ _ _ _ _ _ k (0%nat, 0%nat) [] HF) as X. cbv beta in X.
  rewrite firstn_length in X. specialize (X ltac:(change (length header_sizes) with 17%nat; lia)).
  rewrite nth_firstn_gen in X by lia. rewrite (nth_error_nth _ _ _ Hk) in X. exact X.
Qed.

Section S.
Variable p : Z.
Hypothesis Hp : 2 ^ 200 < p.
Variable hash : list Z -> Z -> option (list Z).
Hypothesis Hh : hash_ok p hash.

Lemma block_sound : forall blk fn round res, felts p blk -> felt p fn -> felt p round ->
  check_eth_block p hash blk fn round = Some res ->
  15 <= fn /\ length blk = 2176%nat /\ Forall nibble blk /\ hash blk round = Some (eb_hash res) /\
  forall fields rest, blk = list_of fields ++ rest -> eth_header fields ->
    eb_stateRoot res = nth 3 fields [] /\ eb_txRoot res = nth 4 fields [] /\ eb_receiptsRoot res = nth 5 fields [] /\
    eb_numberLen res = Z.of_nat (length (nth 8 fields [])) /\
    firstn (length (nth 8 fields [])) (eb_number res) = firstn 8 (nth 8 fields []) /\
    firstn (length (nth 11 fields [])) (eb_time res) = nth 11 fields [].
Proof.
  intros blk fn round res Fb Ff Fr H. unfold check_eth_block in H.
  destruct (Nat.eqb (length blk) 2176) eqn:El; cbn [guard] in H; [ostep H|discriminate]. apply Nat.eqb_eq in El.
  destruct (blk_header_rlp_check p header_params blk fn) as [[[[out total] lens] outs]|] eqn:Eb; [ostep H|discriminate].
  destruct (hash blk round) as [d|] eqn:Eh; [ostep H|discriminate].
  assert (Al : aligned blk) by (unfold aligned; rewrite El; reflexivity).
  destruct (Hh blk round d Fb Al Fr Eh) as (Nb & Ld & Nd).
  apply some_inj in H. subst res. cbn [eb_hash eb_stateRoot eb_txRoot eb_receiptsRoot eb_numberLen eb_number eb_time].
  assert (F15 : 15 <= fn).
  { pose proof (blk_check_unused p header_params blk fn _ 14%nat (16, 18)%nat Hp header_params_ok El Nb Ff Eb eq_refl) as X.
    specialize (X ltac:(cbn; lia) ltac:(cbn; lia) ltac:(discriminate)). lia. }
  split; [exact F15|]. split; [exact El|]. split; [exact Nb|]. split; [reflexivity|].
  intros fields rest E Hhd. pose proof (header_fits_table fields Hhd) as HF.
  destruct (list_of_split fields rest 2176 blk E ltac:(lia) ltac:(reflexivity) (fits_items _ _ HF)) as (h & E' & Lh & Hi & Hh6).
  set (its := map str fields) in *.
  assert (Lits : (15 <= length its)%nat) by (unfold its; rewrite map_length; destruct Hhd; lia).
  assert (F1 : Forall2 item_fits (firstn 15 (ac_fields header_params)) (firstn 15 its)).
  { pose proof (Forall2_firstn _ _ _ 15 _ _ HF) as X. rewrite firstn_firstn in X. destruct Hhd as [[? ?] _]. rewrite Nat.min_l in X by lia. exact X. }
  pose proof (blk_check_prefix p header_params blk h (firstn 15 its) (encs (skipn 15 its) ++ rest) fn (firstn 15 (ac_fields header_params)) (skipn 15 (ac_fields header_params))
    out total lens outs Hp header_params_ok El Nb) as X.
  assert (Eenc : encs (firstn 15 its) ++ encs (skipn 15 its) = encs its).
  { unfold encs. rewrite <- concat_app, <- map_app, firstn_skipn. reflexivity. }
  assert (A1 : blk = h ++ encs (firstn 15 its) ++ encs (skipn 15 its) ++ rest) by (rewrite (app_assoc (encs _)), Eenc; exact E').
  assert (A2 : exists pl tl, encs (firstn 15 its) ++ encs (skipn 15 its) ++ rest = pl ++ tl /\ rlp_item (h ++ pl) h pl).
  { exists (encs its), rest. rewrite app_assoc, Eenc. auto. }
  assert (A3 : (length h <= 2 + ac_prefixMax header_params)%nat) by (cbn; lia).
  assert (A4 : Z.of_nat (length (firstn 15 (ac_fields header_params))) <= fn < p) by (change (Z.of_nat (length (firstn 15 (ac_fields header_params)))) with 15; destruct Ff; lia).
  specialize (X A1 Lh A2 A3 (eq_sym (firstn_skipn 15 _)) F1 A4 Eb). destruct X as [X1 X2].
  assert (L15 : length (firstn 15 its) = 15%nat) by (rewrite firstn_length; lia). rewrite L15 in X1, X2.
  assert (GL : forall k, (k < 15)%nat -> nth k lens 0 = Z.of_nat (length (nth k fields []))).
  { intros k Hk. pose proof (Forall2_nth_ _ _ _ _ _ k (str []) 0 X1 ltac:(lia)) as Y. cbv beta in Y. rewrite !nth_firstn_gen in Y by lia.
    unfold its in Y. rewrite str_nth, str_payload in Y. exact Y. }
  assert (GO : forall k, (k < 15)%nat -> firstn (length (nth k fields [])) (nth k outs []) = nth k fields []).
  { intros k Hk. pose proof (Forall2_nth_ _ _ _ _ _ k (str []) [] X2 ltac:(lia)) as Y. cbv beta in Y. rewrite !nth_firstn_gen in Y by lia.
    unfold its in Y. rewrite str_nth, str_payload in Y. exact Y. }
  assert (G64 : forall k, (k < 15)%nat -> nth_error header_sizes k = Some (32, 32)%nat -> firstn 64 (nth k outs []) = nth k fields []).
  { intros k Hk Hs. destruct (header_field fields k _ _ Hhd Hs Hk) as (_ & _ & B). replace 64%nat with (length (nth k fields [])) at 1 by lia. apply GO; auto. }
  split; [apply G64; [lia|reflexivity]|]. split; [apply G64; [lia|reflexivity]|]. split; [apply G64; [lia|reflexivity]|]. split; [apply GL; lia|]. split.
  - rewrite firstn_firstn, Nat.min_comm, <- firstn_firstn, GO by lia. reflexivity.
  - destruct (header_field fields 11 _ _ Hhd eq_refl ltac:(lia)) as (_ & _ & B). rewrite firstn_firstn, Nat.min_l by lia. apply GO; lia.
Qed.

(** when the RLP verdict is 1 and every field of the table is in use, or the byte behind the list is below 0x80 *)
Lemma block_complete : forall blk fields rest round d, felt p round -> length blk = 2176%nat -> Forall nibble blk ->
  blk = list_of fields ++ rest -> eth_header fields ->
  ((length fields < 17)%nat -> exists b t, 0 <= b < 128 /\ rest = byte_nibbles b ++ t) ->
  hash blk round = Some d ->
  exists res, check_eth_block p hash blk (Z.of_nat (length fields)) round = Some res /\ eb_output res = 1 /\ eb_hash res = d.
Proof.
  intros blk fields rest round d Fr El Nb E Hhd Hrest Eh. pose proof (header_fits_table fields Hhd) as HF.
  destruct (list_of_split fields rest 2176 blk E ltac:(lia) ltac:(reflexivity) (fits_items _ _ HF)) as (h & E' & Lh & Hi & Hh6).
  pose proof Hhd as [[L1 L2] _].
  destruct (blk_check_complete p header_params blk h (map str fields) rest (Z.of_nat (length fields)) (firstn (length fields) (ac_fields header_params)) (skipn (length fields) (ac_fields header_params)))
    as (outs & Eb & _); auto.
  - apply header_params_ok.
  - cbn; lia.
  - symmetry. apply firstn_skipn.
  - destruct fields; [cbn [length] in L1; lia|]. discriminate.
  - destruct (Nat.lt_ge_cases (length fields) 17) as [L|L].
    + right. split; [|apply Hrest; auto]. assert (length fields = 15%nat \/ length fields = 16%nat) as [Q|Q] by lia; rewrite Q; repeat constructor.
    + left. assert (Q : length fields = 17%nat) by lia. rewrite Q. reflexivity.
  - rewrite firstn_length. change (length (ac_fields header_params)) with 17%nat. assert (100 < 2 ^ 200) by reflexivity. lia.
  - intros _. rewrite firstn_length. change (length (ac_fields header_params)) with 17%nat. lia.
  - unfold check_eth_block. rewrite El, Nat.eqb_refl. cbn [guard]. rewrite obind_some, Eb, obind_some. cbv beta iota. rewrite Eh, obind_some. eexists. split; [reflexivity|]. split; reflexivity.
Qed.

Lemma is_bit_fis_zero x : fis_zero p x = 0 \/ fis_zero p x = 1.
Proof. unfold fis_zero. destruct (_ =? _); auto. Qed.
Lemma array_check_bit : forall a inp n o t ls os, rlp_array_check p a inp n = Some (o, t, ls, os) -> o = 0 \/ o = 1.
Proof.
  intros a inp n o t ls os H. unfold rlp_array_check in H. destruct (array_head _ _ _) as [[[v pre] tt]|]; [ostep H|discriminate].
  destruct (Nat.leb _ _); cbn [guard] in H; [ostep H|discriminate]. destruct (match ac_fields a with [] => _ | _ => _ end) as [r|]; [ostep H|discriminate].
  destruct (array_loop _ _ _ _ _ _ _ _) as [[[[c s] l1] o1]|]; [ostep H|discriminate]. apply some_inj in H. assert (o = fis_zero p (fsub p (fadd p c (fis_zero p (fsub p tt s))) (fadd p n 2))) as -> by congruence. apply is_bit_fis_zero.
Qed.
Lemma mpt_fixed_bit : forall D K M v rh lr lrd pf i st o vl, check_mpt_fixed p hash D K M v rh lr lrd pf i st = Some (o, vl) -> o = 0 \/ o = 1.
Proof.
  intros D K M v rh lr lrd pf i st o vl H. unfold check_mpt_fixed in H.
  destruct (assert_le p (Z.of_nat D) 10) as [[]|]; [ostep H|discriminate].
  destruct (sizes_ok D i); cbn [guard] in H; [ostep H|discriminate].
  destruct (frags_valid p _ _ _ _ _) as [fv|]; [ostep H|discriminate].
  destruct (r_mux1 p _ D _) as [ls|]; [ostep H|discriminate].
  destruct (Nat.leb 64 _); cbn [guard] in H; [ostep H|discriminate].
  destruct (r_sub_array p 64 64 7 _ ls _) as [[sel sell]|]; [ostep H|discriminate].
  destruct (check_leaf p _ _ _ _ _ _ _) as [[[o0 t0] vl0]|]; [ostep H|discriminate].
  destruct (if st then _ else _) as [ov|]; [ostep H|discriminate].
  destruct (keccak_or_len p hash _ _ _) as [lh|]; [ostep H|discriminate].
  destruct (layers_loop p hash _ _ _ _ _ _) as [[rs h0]|]; [ostep H|discriminate].
  destruct h0 as [root|]; [|discriminate].
  destruct (r_array_equal p _ _ _ _) as [rc|]; [ostep H|discriminate].
  destruct (r_mux1 p _ D (_ :: _)) as [tot|]; [ostep H|discriminate].
  apply some_inj in H. assert (o = r_equal p tot (fadd p (fmul p (li_depth i) 4) 2)) as -> by congruence. apply is_bit_fis_zero.
Qed.
Lemma bit_product a b : a = 0 \/ a = 1 -> b = 0 \/ b = 1 -> fmul p a b = 1 -> a = 1 /\ b = 1.
Proof. intros Ha Hb H. unfold fmul in H. destruct Ha as [Ha|Ha], Hb as [Hb|Hb]; subst; rewrite ?Z.mul_0_l, ?Z.mul_0_r, ?Z.mul_1_l in H; auto; rewrite Z.mod_0_l in H by lia; lia. Qed.

Lemma Forall_concat_nib : forall ls, Forall (Forall nibble) ls -> Forall nibble (concat ls).
Proof. intros ls H. induction H; cbn [concat]; [constructor|]. apply Forall_app; auto. Qed.
Lemma list_of_nibbles : forall ds lens, Forall2 (fun s d => bytes_between (fst s) (snd s) d) lens ds -> nbytes (encs (map str ds)) < 65536 -> Forall nibble (list_of ds).
Proof.
  intros ds lens HF Hb. unfold list_of. cbv zeta.
  assert (Hnn : forall n, 0 <= n -> 0 <= n) by auto.
  assert (N : Forall nibble (encs (map str ds))).
  { unfold encs. apply Forall_concat_nib. rewrite map_map. apply Forall_forall. intros e He. apply in_map_iff in He as (d & <- & Hd).
    assert (Hlen : (length d <= length (encs (map str ds)))%nat).
    { clear -Hd. induction ds as [|x ds IH]; [easy|]. cbn [map]. rewrite encs_cons, app_length. destruct Hd as [->|Hd].
      - unfold enc. rewrite app_length. change (snd (str d)) with (payload (str d)). rewrite str_payload. lia.
      - specialize (IH Hd). lia. }
    assert (Nd : Forall nibble d). { clear -HF Hd. induction HF as [|s x ls ds (B & _) HF IH]; [easy|]. destruct Hd as [->|Hd]; auto. }
    unfold enc, str. destruct (_ && _); cbn [fst snd app]; [exact Nd|]. apply Forall_app. split; [|exact Nd]. apply rlp_hdr_nibbles; [lia|].
    unfold nbytes in *. split; [apply Z.div_pos; lia|]. eapply Z.le_lt_trans; [|exact Hb]. apply Z.div_le_mono; lia. }
  apply Forall_app. split; [|exact N]. apply rlp_hdr_nibbles; [lia|]. split; [|exact Hb]. unfold nbytes. apply Z.div_pos; lia.
Qed.

Definition account_leaf (key addressRlp : list Z) (vlen : Z) (s : Z) (buf : list Z) : Prop :=
  exists total, leaf_node (firstn 302 buf) total (slice s 64 key) (firstn (Z.to_nat vlen) addressRlp).

Lemma account_fields : forall D sr v leaf lrd pf i res n acct, felts p v -> check_eth_account p hash D sr v leaf lrd pf i = Some res ->
  firstn n v = list_of acct -> eth_account acct ->
  ea_nonceLen res = Z.of_nat (length (nth 0 acct [])) /\ firstn (length (nth 0 acct [])) (ea_nonce res) = nth 0 acct [] /\
  ea_balanceLen res = Z.of_nat (length (nth 1 acct [])) /\ firstn (length (nth 1 acct [])) (ea_balance res) = nth 1 acct [] /\
  ea_storageRoot res = nth 2 acct [] /\ ea_codeHash res = nth 3 acct [].
Proof.
  intros D sr v leaf lrd pf i res n acct Fv H E Ha. unfold check_eth_account in H.
  destruct (Nat.eqb (length sr) 64 && Nat.eqb (length (li_key i)) 64 && Nat.eqb (length v) 228) eqn:El; cbn [guard] in H; [ostep H|discriminate].
  do 2 rewrite andb_true_iff in El. do 3 rewrite Nat.eqb_eq in El. destruct El as [[L1 L2] L3].
  destruct (rlp_array_check p account_params v 4) as [[[[ro rt] lens] outs]|] eqn:Er; [ostep H|discriminate].
  destruct (check_mpt_fixed p hash D 64 228 v sr leaf lrd pf i false) as [[mo vl]|]; [ostep H|discriminate]. apply some_inj in H. subst res.
  cbn [ea_nonceLen ea_nonce ea_balanceLen ea_balance ea_storageRoot ea_codeHash].
  pose proof (account_fits_table acct Ha) as HF. assert (Ev : v = list_of acct ++ skipn n v) by (rewrite <- E; symmetry; apply firstn_skipn).
  destruct (list_of_split acct (skipn n v) 228 v Ev ltac:(lia) ltac:(reflexivity) (fits_items _ _ HF)) as (h & E' & Lh & Hi & Hh6).
  assert (Nh : Forall nibble (h ++ encs (map str acct))).
  { assert (X : Forall nibble (list_of acct)).
    { apply (list_of_nibbles acct _ Ha). unfold nbytes. apply Z.div_lt_upper_bound; [lia|]. assert (length (encs (map str acct)) <= length v)%nat by (rewrite E', !app_length; lia). lia. }
    assert (Q : (h ++ encs (map str acct)) ++ skipn n v = list_of acct ++ skipn n v) by (rewrite <- app_assoc; congruence). apply app_inv_tail in Q. rewrite Q. exact X. }
  destruct (account_decode p Hp v h (map str acct) (skipn n v) L3 Fv E' Nh Lh Hi Hh6 HF) as (outs' & Er' & HO).
  rewrite Er in Er'. assert (lens = map (fun it => Z.of_nat (length (payload it))) (map str acct)) as -> by congruence. assert (outs = outs') as -> by congruence. clear Er' Er.
  assert (L4 : length acct = 4%nat) by (apply Forall2_len in Ha; cbn in Ha; lia).
  do 5 (destruct acct as [|? acct]; try discriminate). cbn [map nth] in *.
  inversion HO as [|? ? ? ? O1 HO1]; subst. inversion HO1 as [|? ? ? ? O2 HO2]; subst. inversion HO2 as [|? ? ? ? O3 HO3]; subst. inversion HO3 as [|? ? ? ? O4 HO4]; subst.
  rewrite str_payload in *. cbn [nth].
  inversion Ha as [|? ? ? ? B1 Ha1]; subst. inversion Ha1 as [|? ? ? ? B2 Ha2]; subst. inversion Ha2 as [|? ? ? ? B3 Ha3]; subst. inversion Ha3 as [|? ? ? ? B4 Ha4]; subst.
  cbn [fst snd] in *. destruct B1 as (_ & _ & B1), B2 as (_ & _ & B2), B3 as (_ & _ & B3), B4 as (_ & _ & B4).
  split; [reflexivity|]. split; [rewrite firstn_firstn, Nat.min_l by lia; exact O1|]. split; [rewrite ?str_payload; reflexivity|].
  split; [rewrite firstn_firstn, Nat.min_l by lia; exact O2|].
  split; [replace 64%nat with (length l1) by lia; exact O3|replace 64%nat with (length l2) by lia; exact O4].
Qed.

Lemma account_walk : forall D sr v leaf lrd pf i res, (D <= 100)%nat -> Z.of_nat (length leaf) < 2 ^ 60 ->
  felts p sr -> felts p v -> felts p leaf -> aligned leaf -> felt p lrd -> felt p pf -> layers_felts p i ->
  check_eth_account p hash D sr v leaf lrd pf i = Some res -> ea_output res = 1 -> 2 <= li_depth i ->
  exists vlen t, 0 <= vlen <= 228 /\ li_depth i <= Z.of_nat D /\
    walk (hashed p hash) (li_key i) (account_leaf (li_key i) v vlen) (nth 0 (li_starts i) 0) sr t (firstn (Z.to_nat (li_depth i) - 1) (li_nodes i) ++ [leaf]).
Proof.
  intros D sr v leaf lrd pf i res HD Hleaf F1 F2 F3 Al F4 F5 F6 H Ho Hd. unfold check_eth_account in H.
  destruct (Nat.eqb (length sr) 64 && Nat.eqb (length (li_key i)) 64 && Nat.eqb (length v) 228) eqn:El; cbn [guard] in H; [ostep H|discriminate].
  do 2 rewrite andb_true_iff in El. do 3 rewrite Nat.eqb_eq in El. destruct El as [[L1 L2] L3].
  destruct (rlp_array_check p account_params v 4) as [[[[ro rt] lens] outs]|] eqn:Er; [ostep H|discriminate].
  destruct (check_mpt_fixed p hash D 64 228 v sr leaf lrd pf i false) as [[mo vl]|] eqn:Em; [ostep H|discriminate]. apply some_inj in H. subst res. cbn [ea_output] in Ho.
  destruct (bit_product ro mo (array_check_bit _ _ _ _ _ _ _ Er) (mpt_fixed_bit _ _ _ _ _ _ _ _ _ _ _ _ Em) Ho) as [Q1 Q2]; subst.
  assert (C1 : Z.of_nat 228 < 2 ^ 60) by reflexivity. assert (C2 : Z.of_nat (length v) < 2 ^ 60) by (rewrite L3; reflexivity).
  destruct (C13_mpt_inclusion_sound p hash D 64 228 v sr leaf lrd pf i vl Hp Hh C1 Hleaf C2 ltac:(lia) HD L1 F2 F1 F3 Al F4 F5 F6 Em Hd) as (_ & B1 & B2 & t & W).
  exists vl, t. split; [exact B1|]. split; [exact B2|]. eapply walk_mono; [|exact W]. intros s b (total & [Q|[Q _]]); [exists total; exact Q|].
  exfalso. assert (1 = 0); [|lia]. exact (account_zero_rejected p Hp v 1 rt lens outs L3 F2 Q Er).
Qed.

Lemma storage_walk : forall D sr v leaf lrd pf i res, (D <= 100)%nat -> Z.of_nat (length leaf) < 2 ^ 60 ->
  felts p sr -> felts p v -> felts p leaf -> aligned leaf -> felt p lrd -> felt p pf -> layers_felts p i ->
  check_eth_storage p hash D sr v leaf lrd pf i = Some res -> es_output res = 1 -> 2 <= li_depth i ->
  length v = 66%nat /\ slot_value p v = Some (es_slotValue res) /\
  exists vlen t, es_valueLen res = fsub p vlen 2 /\ 0 <= vlen <= 66 /\ li_depth i <= Z.of_nat D /\
    walk (hashed p hash) (li_key i)
      (fun s buf => last_leaf 140 (li_key i) v vlen s buf \/
         (exists its total, list_node (firstn branch_window buf) its total /\ length its = 17%nat /\
            let nib := nth (Z.to_nat (li_depth i - 1)) (li_key i) 0 in 0 <= nib < 17 /\ payload (nth (Z.to_nat nib) its ([], [])) = []) \/
         foreign_ext (firstn ext_window buf) (slice s 64 (li_key i)))
      (nth 0 (li_starts i) 0) sr t (firstn (Z.to_nat (li_depth i) - 1) (li_nodes i) ++ [leaf]).
Proof.
  intros D sr v leaf lrd pf i res HD Hleaf F1 F2 F3 Al F4 F5 F6 H Ho Hd. unfold check_eth_storage in H.
  destruct (Nat.eqb (length sr) 64 && Nat.eqb (length (li_key i)) 64 && Nat.eqb (length v) 66) eqn:El; cbn [guard] in H; [ostep H|discriminate].
  do 2 rewrite andb_true_iff in El. do 3 rewrite Nat.eqb_eq in El. destruct El as [[L1 L2] L3].
  destruct (check_mpt_fixed p hash D 64 66 v sr leaf lrd pf i true) as [[mo vl]|] eqn:Em; [ostep H|discriminate].
  destruct (slot_value p v) as [sv|] eqn:Es; [ostep H|discriminate]. apply some_inj in H. subst res. cbn [es_output es_slotValue es_valueLen] in *. subst mo.
  split; [exact L3|]. split; [reflexivity|].
  assert (C1 : Z.of_nat 66 < 2 ^ 60) by reflexivity. assert (C2 : Z.of_nat (length v) < 2 ^ 60) by (rewrite L3; reflexivity).
  destruct (C46_mpt_storage_inclusion_sound p hash D 64 66 v sr leaf lrd pf i vl Hp Hh C1 Hleaf C2 ltac:(lia) HD L1 F2 F1 F3 Al F4 F5 F6 Em Hd) as (_ & B1 & B2 & t & W).
  exists vl, t. split; [reflexivity|]. split; [exact B1|]. split; [exact B2|]. exact W.
Qed.
End S.
