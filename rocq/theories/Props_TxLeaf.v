(** * Props_TxLeaf.v — C79: DecodeTxLeafRlp (rlp.go); completeness of RlpNestArrayCheck (C09) *)
From Coq Require Import ZArith List Lia Bool Arith.
From Verif Require Import Field FieldLemmas RlpUtilModel RlpUtilProofs RlpModel RlpSpec RlpPrefixProofs RlpArrayProofs RlpArraySound RlpNestProofs RlpNestSound RlpNestComplete HexProofs TxLeafModel.
From Verif Require Props_Hex Props_Header.
Import ListNotations.
Open Scope Z_scope.

(** ** lemmas *)
Lemma leafZ : Z.of_nat leaf_max = 4352. Proof. vm_compute. reflexivity. Qed.
Lemma valueZ : Z.of_nat leaf_value_max = 4346. Proof. vm_compute. reflexivity. Qed.
Lemma dataZ : Z.of_nat calldata_max = 4030. Proof. vm_compute. reflexivity. Qed.
Ltac szs := pose proof leafZ; pose proof valueZ; pose proof dataZ.
Lemma nest_check_firstn p a inp : (2 + ac_prefixMax a <= ac_maxHexLen a <= length inp)%nat -> rlp_nest_array_check p a inp = rlp_nest_array_check p a (firstn (ac_maxHexLen a) inp).
Proof.
  intros H. unfold rlp_nest_array_check. assert (L : length (firstn (ac_maxHexLen a) inp) = ac_maxHexLen a) by (rewrite firstn_length; lia).
  assert (E : array_head p (ac_prefixMax a) inp = array_head p (ac_prefixMax a) (firstn (ac_maxHexLen a) inp)).
  { unfold array_head. rewrite L. destruct (Nat.leb_spec (2 + ac_prefixMax a) (length inp)); [|lia]. destruct (Nat.leb_spec (2 + ac_prefixMax a) (ac_maxHexLen a)); [|lia].
    rewrite !nth_firstn' by lia. rewrite skipn_firstn_comm, firstn_firstn, Nat.min_l by lia. reflexivity. }
  rewrite <- E, L. destruct (array_head p (ac_prefixMax a) inp) as [[[v pre] t]|]; cbn [obind]; [|reflexivity]. destruct (Nat.leb_spec (ac_maxHexLen a) (length inp)); [|lia]. rewrite Nat.leb_refl. cbn [guard obind].
  rewrite firstn_firstn, Nat.min_id. reflexivity.
Qed.
Lemma nsem_outs : forall fs r q, Forall nibble r -> nsem_fields fs r = Some q -> Forall (fun x => length (n_out x) = length r /\ Forall nibble (n_out x)) q.
Proof.
  induction fs as [|[fmin fmax] rest IH]; intros r q N H; cbn [nsem_fields] in H.
  - assert (q = []) by congruence. subst q. constructor.
  - destruct (nest_shape _ r) as [[h l]|]; [|discriminate]. cbv zeta in H. destruct (nest_out_props r h N) as [O1 O2]. set (x := (h + nest_pay r l, nest_len r h l, nest_out r h, c0_of r)) in *.
    assert (X : length (n_out x) = length r /\ Forall nibble (n_out x)) by (split; assumption). destruct rest as [|f2 rest].
    + assert (q = [x]) by congruence. subst q. constructor; [exact X|constructor].
    + destruct (if Nat.eqb fmin fmax then _ else _) as [r'|] eqn:En; [|discriminate]. destruct (nsem_fields (f2 :: rest) r') as [q'|] eqn:Eq; [|discriminate]. assert (q = x :: q') by congruence. subst q.
      assert (R : length r' = length r /\ Forall nibble r').
      { destruct (Nat.eqb fmin fmax).
        - assert (r' = rotl fmin (nest_out r h)) by congruence. subst r'. rewrite rotl_length. split; [exact O1|apply rotl_nibble, O2].
        - destruct (_ && _); [|discriminate]. assert (r' = rotl (Z.to_nat (nest_len r h l)) (nest_out r h)) by congruence. subst r'. rewrite rotl_length. split; [exact O1|apply rotl_nibble, O2]. }
      destruct R as [R1 R2]. constructor; [exact X|]. specialize (IH r' q' R2 Eq). rewrite R1 in IH. exact IH.
Qed.
Lemma nest_outs p a inp o t lens outs : 2 ^ 200 < p -> params_ok a -> length inp = ac_maxHexLen a -> Forall nibble inp -> rlp_nest_array_check p a inp = Some (o, t, lens, outs) ->
  length lens = length (ac_fields a) /\ length outs = length (ac_fields a) /\ Forall (fun l => 0 <= l < 2 ^ 66) lens /\ Forall (fun x => length x = length inp /\ Forall nibble x) outs /\ (o = 0 \/ o = 1).
Proof.
  intros Hp Ha Hl Hn H. rewrite rlp_nest_array_check_ok in H by auto. destruct Ha as (P1 & P2 & P3 & P4 & P5). unfold sem_nest_check in H. destruct (head_shape _ inp) as [[[v pre] tt]|] eqn:Eh; [|discriminate].
  destruct (2 + pre <? _); [|discriminate]. destruct (nsem_fields _ _) as [q|] eqn:Eq; [|discriminate].
  assert (El : lens = map n_l q) by congruence. assert (Eo : outs = map n_out q) by congruence. assert (Ez : o = bit_of (v + zsum (map (fun x => 1 + n_c x) q) + bit_of (tt =? zsum (map (fun x => n_e x - n_c x) q)) =? Z.of_nat (length (ac_fields a)) + 2)) by congruence. clear H.
  assert (Hl2 : (2 <= length inp)%nat) by lia. assert (P5' : fields_ok (length inp) (ac_fields a)) by (rewrite Hl; exact P5).
  destruct (nsem_bounds _ (length inp) _ _ P5' (rotl_length _ _) (rotl_nibble _ _ Hn) Hl2 Eq) as [Lq Bq]. pose proof (nsem_outs _ _ _ (rotl_nibble _ _ Hn) Eq) as Oq. rewrite rotl_length in Oq.
  subst lens outs o. rewrite !map_length. split; [exact Lq|]. split; [exact Lq|]. split; [|split].
  - apply Forall_forall. intros x I. apply in_map_iff in I. destruct I as (y & <- & I). rewrite Forall_forall in Bq. apply (Bq y I).
  - apply Forall_forall. intros x I. apply in_map_iff in I. destruct I as (y & <- & I). rewrite Forall_forall in Oq. apply (Oq y I).
  - destruct (_ =? _); cbn [bit_of]; auto.
Qed.
Lemma leaf_ok : params_ok tx_leaf_params.
Proof.
  szs. unfold params_ok, fields_ok, tx_leaf_params. cbn [ac_prefixMax ac_maxHexLen ac_fields length]. assert (L : len_prefix_max leaf_value_max = 4%nat) by (vm_compute; reflexivity).
  split; [lia|]. split; [lia|]. split; [discriminate|]. split; [lia|]. constructor; cbn [fst snd]; [change (len_prefix_max 2) with 2%nat; lia|]. constructor; cbn [fst snd]; [rewrite L; lia|constructor].
Qed.
Lemma signed_ok : params_ok signed_tx_params.
Proof.
  szs. unfold params_ok, fields_ok, signed_tx_params. cbn [ac_prefixMax ac_maxHexLen ac_fields length]. assert (L : len_prefix_max calldata_max = 4%nat) by (vm_compute; reflexivity).
  split; [lia|]. split; [lia|]. split; [discriminate|]. split; [lia|].
  repeat (apply Forall_cons; [cbn [fst snd]; rewrite ?L; change (len_prefix_max 16) with 2%nat; change (len_prefix_max 8) with 2%nat; change (len_prefix_max 40) with 2%nat; change (len_prefix_max 64) with 2%nat; change (len_prefix_max 2) with 2%nat; lia|]). apply Forall_nil.
Qed.

(** ** Specification: EIP-1559 transactions.  [rlp] (RlpEnc.v) is the encoder of the yellow paper; strings are byte strings *)
From Verif Require Import RlpEnc RlpBridge.
Record eip1559 := E1559 { e_chain : list Z; e_nonce : list Z; e_prio : list Z; e_fee : list Z; e_gas : list Z; e_to : list Z; e_value : list Z; e_data : list Z; e_v : list Z; e_r : list Z; e_s : list Z }.
(** signed transaction with the empty access list *)
Definition signed_tree (t : eip1559) : rtree :=
  RList [RStr (e_chain t); RStr (e_nonce t); RStr (e_prio t); RStr (e_fee t); RStr (e_gas t); RStr (e_to t); RStr (e_value t); RStr (e_data t); RList []; RStr (e_v t); RStr (e_r t); RStr (e_s t)].
(** the leaf node of the transaction trie: path, type byte followed by the transaction *)
Definition leaf_tree (path : list Z) (ty : Z) (t : eip1559) : rtree := RList [RStr path; RStr (ty :: rlp (signed_tree t))].
(** a field of at most n bytes; the single byte 0x00 is excluded (it is not the encoding of an integer) *)
Definition sized (n : nat) (s : list Z) : Prop := Forall is_byte s /\ (length s <= n)%nat /\ s <> [0].
Definition sized_tx (t : eip1559) : Prop :=
  sized 8 (e_chain t) /\ sized 8 (e_nonce t) /\ sized 8 (e_prio t) /\ sized 8 (e_fee t) /\ sized 4 (e_gas t) /\ sized 20 (e_to t) /\ sized 32 (e_value t) /\ sized 2015 (e_data t) /\ sized 1 (e_v t) /\ sized 32 (e_r t) /\ sized 32 (e_s t).
(** a buffer of hex digits starts with those of a byte string *)
Definition shows (d : list Z) (s : list Z) : Prop := firstn (2 * length s) d = nib s.
(** a number as two field elements: 248 low bits, 8 high bits *)
Definition limbs_of (x : Z * Z) (s : list Z) : Prop := 0 <= fst x < 2 ^ 248 /\ 0 <= snd x < 256 /\ fst x + 2 ^ 248 * snd x = be_value s.

Definition hlen (s : list Z) : Z := Z.of_nat (2 * length s).
(** ** lemmas *)
Lemma small_lt n m : (n <= m)%nat -> Z.of_nat m < 2 ^ 64 -> small n. Proof. unfold small. lia. Qed.
Lemma fits_str k n s : sized n s -> Z.of_nat n < 65536 -> (2 * n <= k)%nat -> (n < 56)%nat \/ (len_prefix_max k = 4%nat) ->
  exists hd, rlp (RStr s) = hd ++ s /\ nest_item_fits (0%nat, k) (nib hd, nib s) (nib s) /\ enc (nib hd, nib s) <> empty_list_enc.
Proof.
  intros (F & L & Z0) Hn Hk Hh. assert (S : small (length s)) by (apply (small_lt _ n L); lia). destruct (str_item s F S) as (hd & E & I & NL & Fh & L1 & L3). exists hd. split; [exact E|].
  assert (NE : enc (nib hd, nib s) <> empty_list_enc). { intros X. destruct (item_byte _ [] I) as (b & _ & _ & LB & EB & _). apply NL, LB. apply EB in X. lia. }
  split; [|exact NE]. split; [exact I|]. split; [right; split; [exact NL|reflexivity]|]. split.
  { intros X. unfold enc in X. cbn [fst snd] in X. rewrite <- nib_app in X. change zero_byte_enc with (nib [0]) in X. assert (B0 : Forall is_byte [0]) by (constructor; [unfold is_byte; lia|constructor]).
    apply nib_inj in X; [|apply Forall_app; split; assumption|exact B0]. rewrite <- E in X. change [0] with (rlp (RStr [0])) in X. apply rlp_injective in X; [congruence|split; assumption|split; [exact B0|vm_compute; reflexivity]]. }
  split; [|cbn [fst snd]; rewrite nib_length; lia]. left. unfold header_fits, hdr. cbn [fst snd]. rewrite nib_length. destruct Hh as [Hh|Hh].
  - left. specialize (L1 ltac:(lia)). lia.
  - rewrite Hh. specialize (L3 ltac:(lia)). destruct (Nat.le_gt_cases (length hd) 1); [left; lia|right]. split; [lia|]. change (2 ^ Z.of_nat (log_ceil 4)) with 8. lia.
Qed.
Lemma fits_c0 : nest_item_fits (0%nat, 2%nat) (nib [192], []) (nib [192]) /\ rlp (RList []) = [192].
Proof.
  split; [|reflexivity]. assert (I : is_item (nib [192], [])) by (apply (item_short 192 0); [right; reflexivity|lia|reflexivity]). split; [exact I|]. split; [left; split; [|reflexivity]|].
  - exists 192, []. split; [reflexivity|]. split; [lia|reflexivity].
  - split; [discriminate|]. split; [left; left; cbn; lia|]. cbn. lia.
Qed.
Lemma hex_limbs p d s : 2 ^ 248 < p -> Forall nibble d -> (64 <= length d)%nat -> Forall is_byte s -> (length s <= 32)%nat -> shows d s -> exists x, r_hex64_to_2fr p d (hlen s) = Some x /\ limbs_of x s.
Proof.
  intros Hp N L F Ls Sh. assert (I : forall x, In x d -> 0 <= x < 16) by (apply Forall_forall; exact N). unfold hlen. assert (B64 : 64 < 2 ^ 248) by reflexivity.
  destruct (Props_Hex.C59_hex64 p d (Z.of_nat (2 * length s)) Hp L I ltac:(lia)) as (H1 & H2 & _). assert (V : hexval (firstn (Z.to_nat (Z.of_nat (2 * length s))) d) = be_value s) by (rewrite Nat2Z.id, Sh; apply nib_value).
  pose proof (be_value_range s F) as R. destruct (Z.le_gt_cases (Z.of_nat (2 * length s)) 62) as [G|G].
  - rewrite (H1 G). eexists. split; [reflexivity|]. rewrite V. split; [|cbn [fst snd]; lia]. cbn [fst]. split; [lia|]. assert (256 ^ Z.of_nat (length s) <= 256 ^ 31) by (apply Z.pow_le_mono_r; lia). change (256 ^ 31) with (2 ^ 248) in *. lia.
  - destruct (H2 ltac:(lia)) as (lo & hi & E & Bh & Bl & _ & Ev). rewrite E. exists (lo, hi). split; [reflexivity|]. rewrite V in Ev. replace (Z.of_nat (2 * length s) - 2) with 62 in * by lia. change (16 ^ 62) with (2 ^ 248) in *. split; [exact Bl|]. split; [exact Bh|]. cbn [fst snd]. lia.
Qed.
Lemma hex_v p d s : 2 ^ 248 < p -> Forall nibble d -> (2 <= length d)%nat -> Forall is_byte s -> (length s <= 1)%nat -> shows d s -> r_hex_to_decimal p d 2 (hlen s) = Some (be_value s).
Proof.
  intros Hp N L F Ls Sh. assert (B64 : 256 < 2 ^ 248) by reflexivity. destruct s as [|x [|y s]]; [|clear Ls|cbn in Ls; lia].
  - apply Props_Hex.C59_hex_to_decimal_empty; lia.
  - unfold hlen. rewrite (Props_Hex.C59_hex_to_decimal_exact p d 2 (2 * length [x])) by (try apply Forall_forall; try exact N; cbn [length]; try lia; change (16 ^ Z.of_nat (2 * 1)) with 256; lia). unfold shows in Sh. rewrite Sh. f_equal. apply nib_value.
Qed.
Lemma shows_firstn n d s : (2 * length s <= n)%nat -> shows d s -> shows (firstn n d) s.
Proof. intros L H. unfold shows in *. rewrite firstn_firstn, Nat.min_l by exact L. exact H. Qed.
Lemma empties_none its : Forall (fun it => enc it <> empty_list_enc) its -> empties its = 0.
Proof. induction 1 as [|it its H _ IH]; [reflexivity|]. rewrite empties_cons, IH. destruct (list_eq_dec Z.eq_dec (enc it) empty_list_enc); [contradiction|reflexivity]. Qed.
Lemma empties_app a b : empties (a ++ b) = empties a + empties b.
Proof. induction a as [|it a IH]; [reflexivity|]. cbn [app]. rewrite !empties_cons, IH. lia. Qed.

(** the signed transaction, read from a buffer *)
Lemma signed_decodes p t buf rest : 2 ^ 248 < p -> sized_tx t -> length buf = leaf_value_max -> Forall nibble buf -> buf = nib (rlp (signed_tree t)) ++ rest ->
  exists total lens outs, rlp_nest_array_check p signed_tx_params buf = Some (1, total, lens, outs) /\
    lens = [hlen (e_chain t); hlen (e_nonce t); hlen (e_prio t); hlen (e_fee t); hlen (e_gas t); hlen (e_to t); hlen (e_value t); hlen (e_data t); 2; hlen (e_v t); hlen (e_r t); hlen (e_s t)] /\
    Forall2 (fun s out => shows out s /\ length out = leaf_value_max) [e_chain t; e_nonce t; e_prio t; e_fee t; e_gas t; e_to t; e_value t; e_data t; [192]; e_v t; e_r t; e_s t] outs.
Proof.
  intros Hp (S1 & S2 & S3 & S4 & S5 & S6 & S7 & S8 & S9 & S10 & S11) Lb Nb Eb. szs. assert (Hp2 : 2 ^ 200 < p) by (eapply Z.lt_trans; [|exact Hp]; reflexivity).
  destruct (fits_str 16 8 _ S1) as (h1 & E1 & F1 & N1); [lia|lia|lia|]. destruct (fits_str 16 8 _ S2) as (h2 & E2 & F2 & N2); [lia|lia|lia|]. destruct (fits_str 16 8 _ S3) as (h3 & E3 & F3 & N3); [lia|lia|lia|].
  destruct (fits_str 16 8 _ S4) as (h4 & E4 & F4 & N4); [lia|lia|lia|]. destruct (fits_str 8 4 _ S5) as (h5 & E5 & F5 & N5); [lia|lia|lia|]. destruct (fits_str 40 20 _ S6) as (h6 & E6 & F6 & N6); [lia|lia|lia|].
  destruct (fits_str 64 32 _ S7) as (h7 & E7 & F7 & N7); [lia|lia|lia|]. destruct (fits_str calldata_max 2015 _ S8) as (h8 & E8 & F8 & N8); [lia|lia|right; vm_compute; reflexivity|].
  destruct (fits_str 2 1 _ S9) as (h9 & E9 & F9 & N9); [lia|lia|lia|]. destruct (fits_str 64 32 _ S10) as (h10 & E10 & F10 & N10); [lia|lia|lia|]. destruct (fits_str 64 32 _ S11) as (h11 & E11 & F11 & N11); [lia|lia|lia|].
  destruct fits_c0 as [F0 E0].
  set (its := [(nib h1, nib (e_chain t)); (nib h2, nib (e_nonce t)); (nib h3, nib (e_prio t)); (nib h4, nib (e_fee t)); (nib h5, nib (e_gas t)); (nib h6, nib (e_to t)); (nib h7, nib (e_value t)); (nib h8, nib (e_data t)); (nib [192], []); (nib h9, nib (e_v t)); (nib h10, nib (e_r t)); (nib h11, nib (e_s t))]).
  set (cs := map nib [e_chain t; e_nonce t; e_prio t; e_fee t; e_gas t; e_to t; e_value t; e_data t; [192]; e_v t; e_r t; e_s t]).
  assert (NF : nest_fits (ac_fields signed_tx_params) its cs).
  { unfold signed_tx_params, its, cs. cbn [ac_fields map]. apply nf_cons; [exact F1|]. apply nf_cons; [exact F2|]. apply nf_cons; [exact F3|]. apply nf_cons; [exact F4|]. apply nf_cons; [exact F5|]. apply nf_cons; [exact F6|]. apply nf_cons; [exact F7|]. apply nf_cons; [exact F8|].
    apply nf_cons; [exact F0|]. apply nf_cons; [exact F9|]. apply nf_cons; [exact F10|]. apply nf_cons; [exact F11|]. apply nf_nil. }
  assert (EM : empties its = 1).
  { change its with ([(nib h1, nib (e_chain t)); (nib h2, nib (e_nonce t)); (nib h3, nib (e_prio t)); (nib h4, nib (e_fee t)); (nib h5, nib (e_gas t)); (nib h6, nib (e_to t)); (nib h7, nib (e_value t)); (nib h8, nib (e_data t))] ++ [(nib [192], [])] ++ [(nib h9, nib (e_v t)); (nib h10, nib (e_r t)); (nib h11, nib (e_s t))]).
    rewrite !empties_app. rewrite (empties_none [_; _; _; _; _; _; _; _]) by (repeat (apply Forall_cons; [assumption|]); apply Forall_nil). rewrite (empties_none [_; _; _]) by (repeat (apply Forall_cons; [assumption|]); apply Forall_nil). reflexivity. }
  assert (Ec : encs its = nib (concat (map rlp [RStr (e_chain t); RStr (e_nonce t); RStr (e_prio t); RStr (e_fee t); RStr (e_gas t); RStr (e_to t); RStr (e_value t); RStr (e_data t); RList []; RStr (e_v t); RStr (e_r t); RStr (e_s t)]))).
  { cbn [map]. rewrite E1, E2, E3, E4, E5, E6, E7, E8, E0, E9, E10, E11. unfold encs, its. rewrite nib_concat. cbn [map concat enc fst snd]. rewrite !nib_app. change (nib [192] ++ []) with (nib [192]). reflexivity. }
  set (l := [RStr (e_chain t); RStr (e_nonce t); RStr (e_prio t); RStr (e_fee t); RStr (e_gas t); RStr (e_to t); RStr (e_value t); RStr (e_data t); RList []; RStr (e_v t); RStr (e_r t); RStr (e_s t)]) in *.
  assert (Lr : (length (nib (rlp (signed_tree t))) <= leaf_value_max)%nat) by (rewrite <- Lb, Eb, app_length; lia). rewrite nib_length in Lr.
  assert (Lbody : Z.of_nat (length (concat (map rlp l))) < 2173). { unfold signed_tree in Lr. fold l in Lr. cbn [rlp] in Lr. fold (map rlp l) in Lr. rewrite app_length in Lr. pose proof (head_nonempty 192 (length (concat (map rlp l)))) as HN. destruct (rlp_head_bytes 192 (length (concat (map rlp l)))); [congruence|]. cbn [length] in Lr. lia. }
  destruct (list_item l) as (hd & Eh & Ih & Lh & _ & _ & _ & L3); [unfold small; lia|]. specialize (L3 ltac:(lia)).
  destruct (nest_check_complete p signed_tx_params buf (nib hd) its cs rest Hp2 signed_ok) as (outs & C1 & C2).
  - rewrite Lb. reflexivity.
  - exact Nb.
  - rewrite Eb. change (rlp (signed_tree t)) with (rlp (RList l)). rewrite Eh, nib_app, Ec, <- app_assoc. reflexivity.
  - exact Lh.
  - rewrite Ec. exact Ih.
  - rewrite nib_length. cbn [ac_prefixMax signed_tx_params]. lia.
  - rewrite nib_length. change (2 ^ Z.of_nat (log_ceil (ac_prefixMax signed_tx_params))) with 8. lia.
  - exact NF.
  - rewrite EM in C1. do 3 eexists. split; [exact C1|]. split.
    + unfold cs. cbn [map]. rewrite !nib_length. reflexivity.
    + unfold cs in C2. clear - C2 Lb. remember [e_chain t; e_nonce t; e_prio t; e_fee t; e_gas t; e_to t; e_value t; e_data t; [192]; e_v t; e_r t; e_s t] as ss eqn:Ess. clear Ess. revert outs C2. induction ss as [|s ss IH]; intros outs C; inversion C as [|c o cc oo X Y]; subst; constructor; [|apply IH, Y].
      destruct X as [X1 X2]. rewrite nib_length in X1. split; [exact X1|congruence].
Qed.

Lemma head_len base n : (1 <= length (rlp_head_bytes base n))%nat. Proof. pose proof (head_nonempty base n). destruct (rlp_head_bytes base n); [congruence|cbn [length]; lia]. Qed.
Lemma list_len l : (1 + length (concat (map rlp l)) <= length (rlp (RList l)))%nat.
Proof. change (rlp (RList l)) with (rlp_head_bytes 192 (length (concat (map rlp l))) ++ concat (map rlp l)). rewrite app_length. pose proof (head_len 192 (length (concat (map rlp l)))). lia. Qed.
Lemma str_len s : (2 <= length s)%nat -> (1 + length s <= length (rlp (RStr s)))%nat.
Proof. intros L. destruct s as [|a [|b w]]; cbn [length] in L; [lia|lia|]. set (s := a :: b :: w). change (rlp (RStr s)) with (rlp_head_bytes 128 (length s) ++ s). rewrite app_length. pose proof (head_len 128 (length s)). lia. Qed.
Lemma rlp_len t : (1 <= length (rlp t))%nat. Proof. pose proof (rlp_nonempty t). destruct (rlp t); [congruence|cbn [length]; lia]. Qed.
Lemma Forall2_nth {A B} (P : A -> B -> Prop) l m a b i : Forall2 P l m -> (i < length l)%nat -> P (nth i l a) (nth i m b).
Proof. intros H. revert i. induction H as [|x y l m H1 H2 IH]; intros i L; cbn [length] in L; [lia|]. destruct i as [|i]; [exact H1|]. cbn [nth]. apply IH. lia. Qed.

(** ** C09: what RlpNestArrayCheck does on a well-formed list whose members fit the table *)
(** it accepts exactly if at most one member is the empty list, and hands out the contents *)
Theorem C09_rlp_nest_array_check_complete : forall p a inp h its cs rest, 2 ^ 200 < p -> params_ok a -> length inp = ac_maxHexLen a -> Forall nibble inp ->
  inp = h ++ encs its ++ rest -> list_header h -> rlp_item (h ++ encs its) h (encs its) -> (length h <= 2 + ac_prefixMax a)%nat -> Z.of_nat (length h) < 2 ^ Z.of_nat (log_ceil (ac_prefixMax a)) ->
  nest_fits (ac_fields a) its cs ->
  exists outs, rlp_nest_array_check p a inp = Some ((if empties its <=? 1 then 1 else 0), Z.of_nat (length (h ++ encs its)), map (fun c => Z.of_nat (length c)) cs, outs) /\
    Forall2 (fun c out => firstn (length c) out = c /\ length out = length inp) cs outs.
Proof. exact nest_check_complete. Qed.

(** ** C79 *)
Definition tx_items (t : eip1559) : list rtree := match signed_tree t with RList l => l | _ => [] end.
Lemma tx_wf t : sized_tx t -> Forall wf (tx_items t).
Proof.
  intros (S1 & S2 & S3 & S4 & S5 & S6 & S7 & S8 & S9 & S10 & S11). assert (W : forall n s, Z.of_nat n < 65536 -> sized n s -> wf (RStr s)) by (intros n s Hn (F & L & _); split; [exact F|unfold small; lia]).
  unfold tx_items, signed_tree. repeat (apply Forall_cons; [first [eapply W; [|eassumption]; vm_compute; reflexivity | cbn [wf]; split; [exact I|vm_compute; reflexivity]]|]). apply Forall_nil.
Qed.
(** every leaf of an EIP-1559 transaction that fits the buffers is decoded: the digits, the numbers V, R, S and the lengths are those of the transaction *)
Theorem C79_decodes : forall p data path ty t pad, 2 ^ 248 < p -> sized 1 path -> is_byte ty -> sized_tx t ->
  data = nib (rlp (leaf_tree path ty t)) ++ pad -> Forall nibble pad -> (length (rlp (leaf_tree path ty t)) <= 2176)%nat -> (4352 <= length data)%nat ->
  exists x signed, decode_tx_leaf p data = Some (x, signed, [hlen (e_chain t); hlen (e_nonce t); hlen (e_prio t); hlen (e_fee t); hlen (e_gas t); hlen (e_to t); hlen (e_value t); 40]) /\
    shows signed (ty :: rlp (signed_tree t)) /\
    shows (t_chain x) (e_chain t) /\ shows (t_nonce x) (e_nonce t) /\ shows (t_prio x) (e_prio t) /\ shows (t_fee x) (e_fee t) /\ shows (t_gas x) (e_gas t) /\ shows (t_to x) (e_to t) /\ shows (t_value x) (e_value t) /\
    t_v x = be_value (e_v t) /\ limbs_of (t_r x) (e_r t) /\ limbs_of (t_s x) (e_s t).
Proof.
  intros p data path ty t pad Hp Sp Ht St Ed Np Ll Ld. change 4352%nat with leaf_max in Ld. szs. assert (Hp2 : 2 ^ 200 < p) by (eapply Z.lt_trans; [|exact Hp]; reflexivity).
  set (v := ty :: rlp (signed_tree t)) in *. set (l := [RStr path; RStr v]).
  assert (Lv1 : (2 <= length v)%nat) by (unfold v; cbn [length]; pose proof (rlp_len (signed_tree t)); lia).
  assert (Lr : (length (rlp (RList l)) <= 2176)%nat) by exact Ll.
  assert (Lbody : (length (concat (map rlp l)) <= 2175)%nat) by (pose proof (list_len l); lia).
  assert (Lv : (length v <= 2173)%nat) by (unfold l in Lbody; cbn [map concat] in Lbody; rewrite !app_length in Lbody; pose proof (rlp_len (RStr path)); pose proof (str_len v Lv1); lia).
  assert (Lst : (length (rlp (RList (tx_items t))) <= 2172)%nat) by (unfold v in Lv; cbn [length] in Lv; apply le_S_n in Lv; exact Lv).
  assert (Fst : Forall is_byte (rlp (RList (tx_items t)))) by (apply Props_Header.rlp_bytes, wf_list; split; [apply tx_wf, St|]; pose proof (list_len (tx_items t)); unfold small; lia).
  assert (Fv : Forall is_byte v) by (constructor; assumption).
  assert (Sv : sized 2173 v) by (split; [exact Fv|]; split; [exact Lv|]; destruct v as [|a [|b w]]; cbn [length] in Lv1; [lia|lia|congruence]).
  destruct (fits_str 2 1 _ Sp) as (h1 & E1 & F1 & N1); [lia|lia|lia|]. destruct (fits_str leaf_value_max 2173 _ Sv) as (h2 & E2 & F2 & N2); [lia|lia|right; vm_compute; reflexivity|].
  set (its := [(nib h1, nib path); (nib h2, nib v)]). set (cs := [nib path; nib v]).
  assert (NF : nest_fits (ac_fields tx_leaf_params) its cs) by (apply nf_cons; [exact F1|]; apply nf_cons; [exact F2|]; apply nf_nil).
  assert (EM : empties its = 0) by (apply empties_none; repeat (apply Forall_cons; [assumption|]); apply Forall_nil).
  assert (Ec : encs its = nib (concat (map rlp l))).
  { unfold l. cbn [map]. rewrite E1, E2. unfold encs, its. rewrite nib_concat. cbn [map concat enc fst snd]. rewrite !nib_app. reflexivity. }
  destruct (list_item l) as (hd & Eh & Ih & Lh & Fh & _ & _ & L3); [unfold small; lia|]. specialize (L3 ltac:(lia)).
  assert (Fl : Forall is_byte (rlp (RList l))) by (apply Props_Header.rlp_bytes, wf_list; split; [|unfold small; lia]; destruct Sp as (Sp1 & Sp2 & _); repeat (apply Forall_cons; [split; [assumption|unfold small; lia]|]); apply Forall_nil).
  assert (Nd : Forall nibble data) by (rewrite Ed; apply Forall_app; split; [apply nib_nibble, Fl|exact Np]).
  unfold decode_tx_leaf. rewrite (nest_check_firstn p tx_leaf_params data) by (cbn [ac_prefixMax ac_maxHexLen tx_leaf_params]; lia). cbn [ac_maxHexLen tx_leaf_params].
  set (buf := firstn leaf_max data). assert (Lb : length buf = leaf_max) by (unfold buf; rewrite firstn_length; lia).
  assert (Nb : Forall nibble buf) by (apply Forall_forall; intros z I; rewrite Forall_forall in Nd; apply Nd; unfold buf in I; rewrite <- (firstn_skipn leaf_max data); apply in_or_app; left; exact I).
  destruct (nest_check_complete p tx_leaf_params buf (nib hd) its cs (firstn (leaf_max - length (nib (rlp (RList l)))) pad) Hp2 leaf_ok) as (outs & C1 & C2).
  - exact Lb.
  - exact Nb.
  - unfold buf. rewrite Ed. change (leaf_tree path ty t) with (RList l). rewrite firstn_app, firstn_all2 by (rewrite nib_length; lia). rewrite Eh at 1. rewrite nib_app, Ec, <- app_assoc. reflexivity.
  - exact Lh.
  - rewrite Ec. exact Ih.
  - rewrite nib_length. cbn [ac_prefixMax tx_leaf_params]. lia.
  - rewrite nib_length. change (2 ^ Z.of_nat (log_ceil (ac_prefixMax tx_leaf_params))) with 8. lia.
  - exact NF.
  - rewrite EM in C1. change (if 0 <=? 1 then 1 else 0) with 1 in C1. rewrite C1. destruct (nest_outs _ _ _ _ _ _ _ Hp2 leaf_ok Lb Nb C1) as (_ & LO1 & _ & Oq & _).
    cbn [obind]. unfold assert_eq. rewrite Z.eqb_refl. cbn [guard obind]. set (signed := nth 1 outs []).
    assert (X : shows signed v /\ length signed = leaf_max). { destruct (Forall2_nth _ _ _ [] [] 1%nat C2 ltac:(unfold cs; cbn [length]; lia)) as [X2 X3]. unfold cs in X2. cbn [nth] in X2. rewrite nib_length in X2. fold signed in X2, X3. split; [exact X2|congruence]. }
    destruct X as [X1 X2].
    assert (Ns : Forall nibble signed). { rewrite Forall_forall in Oq. apply (Oq signed). unfold signed. apply nth_In. rewrite LO1. cbn [ac_fields tx_leaf_params length]. lia. }
    assert (Nsk : Forall nibble (skipn 2 signed)) by (apply Forall_forall; intros z I; rewrite Forall_forall in Ns; apply Ns; rewrite <- (firstn_skipn 2 signed); apply in_or_app; right; exact I).
    assert (Lsk : length (skipn 2 signed) = (leaf_max - 2)%nat) by (rewrite skipn_length; lia).
    rewrite (nest_check_firstn p signed_tx_params (skipn 2 signed)) by (cbn [ac_prefixMax ac_maxHexLen signed_tx_params]; lia). cbn [ac_maxHexLen signed_tx_params].
    set (buf2 := firstn leaf_value_max (skipn 2 signed)). assert (Lb2 : length buf2 = leaf_value_max) by (unfold buf2; rewrite firstn_length; lia).
    assert (Nb2 : Forall nibble buf2) by (apply Forall_forall; intros z I; rewrite Forall_forall in Nsk; apply Nsk; unfold buf2 in I; rewrite <- (firstn_skipn leaf_value_max (skipn 2 signed)); apply in_or_app; left; exact I).
    assert (Eb2 : exists rest2, buf2 = nib (rlp (signed_tree t)) ++ rest2).
    { assert (Es : signed = nib v ++ skipn (2 * length v) signed) by (unfold shows in X1; rewrite <- X1; symmetry; apply firstn_skipn).
      assert (Es2 : skipn 2 signed = nib (rlp (signed_tree t)) ++ skipn (2 * length v) signed) by (rewrite Es at 1; unfold v at 1; change (nib (ty :: rlp (signed_tree t))) with (nib [ty] ++ nib (rlp (signed_tree t))); rewrite <- app_assoc; reflexivity).
      exists (firstn (leaf_value_max - length (nib (rlp (signed_tree t)))) (skipn (2 * length v) signed)). unfold buf2. rewrite Es2, firstn_app. rewrite firstn_all2; [reflexivity|]. rewrite nib_length. change (rlp (signed_tree t)) with (rlp (RList (tx_items t))). lia. }
    destruct Eb2 as [rest2 Eb2]. destruct (signed_decodes p t buf2 rest2 Hp St Lb2 Nb2 Eb2) as (total & lens & lf & D1 & D2 & D3).
    rewrite D1. cbn [obind]. unfold assert_eq. rewrite Z.eqb_refl. cbn [guard obind]. destruct (nest_outs _ _ _ _ _ _ _ Hp2 signed_ok Lb2 Nb2 D1) as (_ & LO & _ & Oq2 & _).
    assert (Q : forall i, (i < 12)%nat -> shows (nth i lf []) (nth i [e_chain t; e_nonce t; e_prio t; e_fee t; e_gas t; e_to t; e_value t; e_data t; [192]; e_v t; e_r t; e_s t] []) /\ length (nth i lf []) = leaf_value_max /\ Forall nibble (nth i lf [])).
    { intros i Hi. destruct (Forall2_nth _ _ _ [] [] i D3 Hi) as [Q1 Q2]. split; [exact Q1|]. split; [exact Q2|]. rewrite Forall_forall in Oq2. apply (Oq2 (nth i lf [])), nth_In. rewrite LO. exact Hi. }
    clear D1 D3 Oq2 LO Oq C1 C2. pose proof St as (S1 & S2 & S3 & S4 & S5 & S6 & S7 & S8 & S9 & S10 & S11). assert (W9 : nth 9 lens 0 = hlen (e_v t)) by (rewrite D2; reflexivity). assert (W10 : nth 10 lens 0 = hlen (e_r t)) by (rewrite D2; reflexivity). assert (W11 : nth 11 lens 0 = hlen (e_s t)) by (rewrite D2; reflexivity).
    assert (W7 : firstn 7 lens ++ [40] = [hlen (e_chain t); hlen (e_nonce t); hlen (e_prio t); hlen (e_fee t); hlen (e_gas t); hlen (e_to t); hlen (e_value t); 40]) by (rewrite D2; reflexivity). rewrite W9, W10, W11, W7. clear D2 W9 W10 W11 W7.
    destruct (Q 9%nat ltac:(lia)) as (V1 & V2 & V3). destruct (Q 10%nat ltac:(lia)) as (R1 & R2 & R3). destruct (Q 11%nat ltac:(lia)) as (T1 & T2 & T3). cbn [nth] in V1, R1, T1.
    destruct S9 as (S9a & S9b & _). destruct S10 as (S10a & S10b & _). destruct S11 as (S11a & S11b & _).
    rewrite (hex_v p (nth 9 lf []) (e_v t)) by (try assumption; lia). cbn [obind].
    destruct (hex_limbs p (nth 10 lf []) (e_r t) Hp R3 ltac:(lia) S10a S10b R1) as (r & Er & Hr). rewrite Er. cbn [obind].
    destruct (hex_limbs p (nth 11 lf []) (e_s t) Hp T3 ltac:(lia) S11a S11b T1) as (s & Es & Hs). rewrite Es. cbn [obind].
    do 2 eexists. split; [reflexivity|]. cbn [t_chain t_nonce t_prio t_fee t_gas t_to t_value t_r t_s t_v]. split; [exact X1|].
    destruct S1 as (_ & G1 & _). destruct S2 as (_ & G2 & _). destruct S3 as (_ & G3 & _). destruct S4 as (_ & G4 & _). destruct S5 as (_ & G5 & _). destruct S6 as (_ & G6 & _). destruct S7 as (_ & G7 & _).
    split; [apply shows_firstn; [lia|apply (Q 0%nat); lia]|]. split; [apply shows_firstn; [lia|apply (Q 1%nat); lia]|]. split; [apply shows_firstn; [lia|apply (Q 2%nat); lia]|]. split; [apply shows_firstn; [lia|apply (Q 3%nat); lia]|].
    split; [apply shows_firstn; [lia|apply (Q 4%nat); lia]|]. split; [apply shows_firstn; [lia|apply (Q 5%nat); lia]|]. split; [apply shows_firstn; [lia|apply (Q 6%nat); lia]|].
    split; [reflexivity|]. split; [exact Hr|exact Hs].
Qed.

(** ** soundness *)
Lemma some_inj {A} (x y : A) : Some x = Some y -> x = y. Proof. congruence. Qed.
(** a number as two field elements, from hex digits *)
Definition limbs_of_digits (x : Z * Z) (c : list Z) : Prop := 0 <= fst x < 2 ^ 248 /\ 0 <= snd x < 256 /\ fst x + 2 ^ 248 * snd x = hexval c.
Lemma nsem_lens : forall fs r q, nsem_fields fs r = Some q -> forall i, (S i < length fs)%nat -> fst (nth i fs (0, 0)%nat) <> snd (nth i fs (0, 0)%nat) ->
  nth i (map n_l q) 0 < Z.of_nat (fst (nth i fs (0, 0)%nat)) + 2 ^ Z.of_nat (log_ceil (snd (nth i fs (0, 0)%nat) - fst (nth i fs (0, 0)%nat))).
Proof.
  induction fs as [|[fmin fmax] rest IH]; intros r q H i Hi Hd; cbn [length] in Hi; [lia|]. cbn [nsem_fields] in H.
  destruct (nest_shape _ r) as [[h l]|]; [|discriminate]. cbv zeta in H. set (x := (h + nest_pay r l, nest_len r h l, nest_out r h, c0_of r)) in *. destruct rest as [|f2 rest]; [cbn [length] in Hi; lia|].
  destruct (if Nat.eqb fmin fmax then _ else _) as [r'|] eqn:En; [|discriminate]. destruct (nsem_fields (f2 :: rest) r') as [q'|] eqn:Eq; [|discriminate]. assert (q = x :: q') by congruence. subst q. destruct i as [|i].
  - cbn [nth map fst snd] in *. destruct (Nat.eqb_spec fmin fmax); [contradiction|]. destruct (Z.leb_spec (Z.of_nat fmin) (nest_len r h l)); [|discriminate]. destruct (Z.ltb_spec (nest_len r h l - Z.of_nat fmin) (2 ^ Z.of_nat (log_ceil (fmax - fmin)))); [|discriminate].
    change (n_l x) with (nest_len r h l). lia.
  - cbn [map]. change (nth (S i) (n_l x :: map n_l q') 0) with (nth i (map n_l q') 0). change (nth (S i) ((fmin, fmax) :: f2 :: rest) (0, 0)%nat) with (nth i (f2 :: rest) (0, 0)%nat) in *. apply (IH r' q' Eq); [|exact Hd]. cbn [length] in *. lia.
Qed.
Lemma nest_lens p a inp o t lens outs : 2 ^ 200 < p -> params_ok a -> length inp = ac_maxHexLen a -> Forall nibble inp -> rlp_nest_array_check p a inp = Some (o, t, lens, outs) ->
  forall i, (S i < length (ac_fields a))%nat -> fst (nth i (ac_fields a) (0, 0)%nat) <> snd (nth i (ac_fields a) (0, 0)%nat) ->
  nth i lens 0 < Z.of_nat (fst (nth i (ac_fields a) (0, 0)%nat)) + 2 ^ Z.of_nat (log_ceil (snd (nth i (ac_fields a) (0, 0)%nat) - fst (nth i (ac_fields a) (0, 0)%nat))).
Proof.
  intros Hp Ha Hl Hn H. rewrite rlp_nest_array_check_ok in H by auto. unfold sem_nest_check in H. destruct (head_shape _ inp) as [[[v pre] tt]|] eqn:Eh; [|discriminate].
  destruct (2 + pre <? _); [|discriminate]. destruct (nsem_fields _ _) as [q|] eqn:Eq; [|discriminate]. assert (El : lens = map n_l q) by congruence. subst lens. exact (nsem_lens _ _ _ Eq).
Qed.
Lemma item_even it c : is_item it -> nest_content it c -> Nat.Even (length c).
Proof.
  intros I C. assert (E : Nat.Even (length (payload it)) /\ Nat.Even (length (hdr it))).
  { destruct it as [h pl]. unfold is_item, enc, hdr, payload in *. cbn [fst snd] in *. inversion I as [b B|b len q B1 B2 B3|b k ln q B1 B2 B3 B4 B5]; subst; rewrite ?app_length.
    - split; [exists 1%nat|exists 0%nat]; reflexivity.
    - split; [exists (Z.to_nat len); lia|exists 1%nat; reflexivity].
    - split; [exists (Z.to_nat (hexval ln)); lia|]. exists (S (Z.to_nat k)). change (length (byte_nibbles b)) with 2%nat. lia. }
  destruct E as [E1 E2]. destruct C as [[_ C]|[_ C]]; subst c; [|exact E1]. unfold enc. rewrite app_length. apply Nat.Even_Even_add; assumption.
Qed.
Lemma limbs_digits p d c x : 2 ^ 248 < p -> Forall nibble d -> (64 <= length d)%nat -> Nat.Even (length c) -> Z.of_nat (length c) < 2 ^ 66 -> ((length c <= length d)%nat -> firstn (length c) d = c) ->
  r_hex64_to_2fr p d (Z.of_nat (length c)) = Some x -> limbs_of_digits x c /\ (length c <= 64)%nat.
Proof.
  intros Hp N L [k Ek] B Hd H. assert (I : forall x, In x d -> 0 <= x < 16) by (apply Forall_forall; exact N). assert (B64 : 2 ^ 66 < 2 ^ 248) by reflexivity.
  destruct (Props_Hex.C59_hex64 p d (Z.of_nat (length c)) Hp L I ltac:(lia)) as (H1 & H2 & H3). destruct (Z.le_gt_cases (Z.of_nat (length c)) 64) as [G|G]; [|rewrite H3 in H by lia; discriminate].
  assert (Lc : (length c <= 64)%nat) by lia. specialize (Hd ltac:(lia)). split; [|exact Lc]. rewrite Nat2Z.id, Hd in H1, H2.
  assert (Nc : Forall nibble c). { rewrite <- Hd. apply Forall_forall. intros z Iz. rewrite Forall_forall in N. apply N. rewrite <- (firstn_skipn (length c) d). apply in_or_app. left. exact Iz. } pose proof (hexval_bound _ Nc) as Bc.
  destruct (Z.le_gt_cases (Z.of_nat (length c)) 62) as [G2|G2].
  - rewrite (H1 G2) in H. apply some_inj in H. subst x. split; cbn [fst snd]; [|lia]. assert (16 ^ Z.of_nat (length c) <= 16 ^ 62) by (apply Z.pow_le_mono_r; lia). change (16 ^ 62) with (2 ^ 248) in *. lia.
  - destruct (H2 ltac:(lia)) as (lo & hi & E & Bh & Bl & _ & Ev). rewrite E in H. apply some_inj in H. subst x. replace (Z.of_nat (length c) - 2) with 62 in * by lia. change (16 ^ 62) with (2 ^ 248) in *. split; [exact Bl|]. split; [exact Bh|]. cbn [fst snd]. lia.
Qed.
Lemma firstn_agree n (out c : list Z) : firstn (length c) out = c -> firstn (length (firstn n c)) (firstn n out) = firstn n c.
Proof. intros H. rewrite firstn_length, firstn_firstn. replace (Nat.min (Nat.min n (length c)) n) with (Nat.min n (length c)) by lia. rewrite <- firstn_firstn, H. reflexivity. Qed.

(** if the decoder accepts then the buffer holds two RLP items after a header, the second one is handed out, and behind its first byte there are twelve RLP items after a header;
    the outputs are the contents of the twelve items (the first digits, for a field longer than the output array).
    Exception, twice: the parse stops at a byte 00 and rereads it (C09_zero_byte_reread_refuted). *)
Theorem C79_sound : forall p data x signed ls, 2 ^ 248 < p -> Forall nibble data -> (4352 <= length data)%nat -> decode_tx_leaf p data = Some (x, signed, ls) ->
  exists h1 its1 h2 its2, reads (firstn 4352 data) (h1 ++ encs its1) /\ Forall is_item its1 /\ reads (firstn 4346 (skipn 2 signed)) (h2 ++ encs its2) /\ Forall is_item its2 /\
  (((length its1 < 2)%nat /\ reads (firstn 4352 data) (h1 ++ encs its1 ++ zero_byte_enc)) \/
   ((length its2 < 12)%nat /\ reads (firstn 4346 (skipn 2 signed)) (h2 ++ encs its2 ++ zero_byte_enc)) \/
   exists path v cs, Forall2 nest_content its1 [path; v] /\ ((length v <= 4352)%nat -> firstn (length v) signed = v) /\
     Forall2 nest_content its2 cs /\ length cs = 12%nat /\ ls = map (fun c => Z.of_nat (length c)) (firstn 7 cs) ++ [40] /\
     (forall i n out, nth_error [(16%nat, t_chain x); (16%nat, t_nonce x); (16%nat, t_prio x); (16%nat, t_fee x); (8%nat, t_gas x); (40%nat, t_to x); (64%nat, t_value x)] i = Some (n, out) ->
        firstn (length (firstn n (nth i cs []))) out = firstn n (nth i cs [])) /\
     t_v x = hexval (nth 9 cs []) /\ limbs_of_digits (t_r x) (nth 10 cs []) /\ limbs_of_digits (t_s x) (nth 11 cs [])).
Proof.
  intros p data x signed ls Hp Nd Ld H. change 4352%nat with leaf_max in *. change 4346%nat with leaf_value_max. szs. assert (Hp2 : 2 ^ 200 < p) by (eapply Z.lt_trans; [|exact Hp]; reflexivity). assert (B64 : 2 ^ 66 < 2 ^ 248) by reflexivity. assert (B1 : 1 < 2 ^ 66) by reflexivity.
  unfold decode_tx_leaf in H. rewrite (nest_check_firstn p tx_leaf_params data) in H by (cbn [ac_prefixMax ac_maxHexLen tx_leaf_params]; lia). cbn [ac_maxHexLen tx_leaf_params] in H.
  set (buf := firstn leaf_max data) in *. assert (Lb : length buf = leaf_max) by (unfold buf; rewrite firstn_length; lia).
  assert (Nb : Forall nibble buf) by (apply Forall_forall; intros z I; rewrite Forall_forall in Nd; apply Nd; unfold buf in I; rewrite <- (firstn_skipn leaf_max data); apply in_or_app; left; exact I).
  destruct (rlp_nest_array_check p tx_leaf_params buf) as [[[[o1 t1] lens1] outs1]|] eqn:E1; [|discriminate]. cbn [obind] in H.
  destruct (nest_outs _ _ _ _ _ _ _ Hp2 leaf_ok Lb Nb E1) as (LL1 & LO1 & BL1 & Oq1 & O1). unfold assert_eq in H. destruct (Z.eqb_spec (o1 mod p) (1 mod p)) as [G|]; [|discriminate]. cbn [guard obind] in H.
  assert (o1 = 1) by (destruct O1; subst o1; [rewrite !Z.mod_small in G by lia; lia|reflexivity]). subst o1. clear G O1.
  set (sg := nth 1 outs1 []) in *. assert (Xs : length sg = leaf_max /\ Forall nibble sg) by (rewrite Forall_forall in Oq1; rewrite <- Lb; apply (Oq1 sg); apply nth_In; rewrite LO1; cbn [ac_fields tx_leaf_params length]; lia). destruct Xs as [Ls Ns].
  assert (Nsk : Forall nibble (skipn 2 sg)) by (apply Forall_forall; intros z I; rewrite Forall_forall in Ns; apply Ns; rewrite <- (firstn_skipn 2 sg); apply in_or_app; right; exact I).
  assert (Lsk : length (skipn 2 sg) = (leaf_max - 2)%nat) by (rewrite skipn_length; lia).
  rewrite (nest_check_firstn p signed_tx_params (skipn 2 sg)) in H by (cbn [ac_prefixMax ac_maxHexLen signed_tx_params]; lia). cbn [ac_maxHexLen signed_tx_params] in H.
  set (buf2 := firstn leaf_value_max (skipn 2 sg)) in *. assert (Lb2 : length buf2 = leaf_value_max) by (unfold buf2; rewrite firstn_length; lia).
  assert (Nb2 : Forall nibble buf2) by (apply Forall_forall; intros z I; rewrite Forall_forall in Nsk; apply Nsk; unfold buf2 in I; rewrite <- (firstn_skipn leaf_value_max (skipn 2 sg)); apply in_or_app; left; exact I).
  destruct (rlp_nest_array_check p signed_tx_params buf2) as [[[[o2 t2] lens2] lf]|] eqn:E2; [|discriminate]. cbn [obind] in H.
  destruct (nest_outs _ _ _ _ _ _ _ Hp2 signed_ok Lb2 Nb2 E2) as (LL2 & LO2 & BL2 & Oq2 & O2). unfold assert_eq in H. destruct (Z.eqb_spec (o2 mod p) (1 mod p)) as [G|]; [|discriminate]. cbn [guard obind] in H.
  assert (o2 = 1) by (destruct O2; subst o2; [rewrite !Z.mod_small in G by lia; lia|reflexivity]). subst o2. clear G O2.
  pose proof (nest_lens _ _ _ _ _ _ _ Hp2 signed_ok Lb2 Nb2 E2) as NL.
  assert (X1 : fixed_lengths_hold (ac_fields tx_leaf_params) lens1). { destruct lens1 as [|a1 [|a2 [|]]]; try discriminate LL1. split; [intros D; discriminate D|exact I]. }
  assert (X2 : fixed_lengths_hold (ac_fields signed_tx_params) lens2). { destruct lens2 as [|a1 [|a2 [|a3 [|a4 [|a5 [|a6 [|a7 [|a8 [|a9 [|a10 [|a11 [|a12 [|]]]]]]]]]]]]]; try discriminate LL2. repeat (split; [intros D; discriminate D|]). exact I. }
  destruct (nest_check_sound _ _ _ _ _ _ Hp2 leaf_ok Lb Nb E1 X1) as (h1 & its1 & R1 & I1 & D1). destruct (nest_check_sound _ _ _ _ _ _ Hp2 signed_ok Lb2 Nb2 E2 X2) as (h2 & its2 & R2 & I2 & D2).
  destruct (r_hex_to_decimal p (nth 9 lf []) 2 (nth 9 lens2 0)) as [v|] eqn:Ev; [|discriminate]. cbn [obind] in H. destruct (r_hex64_to_2fr p (nth 10 lf []) (nth 10 lens2 0)) as [r|] eqn:Er; [|discriminate]. cbn [obind] in H.
  destruct (r_hex64_to_2fr p (nth 11 lf []) (nth 11 lens2 0)) as [s|] eqn:Es; [|discriminate]. cbn [obind] in H. apply some_inj in H.
  assert (Hsg : signed = sg) by congruence. assert (Hls : ls = firstn 7 lens2 ++ [40]) by congruence. apply (f_equal fst) in H. apply (f_equal fst) in H. cbn [fst] in H. subst signed ls.
  exists h1, its1, h2, its2. split; [exact R1|]. split; [exact I1|]. split; [exact R2|]. split; [exact I2|].
  destruct D1 as [D1|(Li1 & (cs1 & C1a & C1b & C1c) & _)]; [left; exact D1|]. destruct D2 as [D2|(Li2 & (cs & C2a & C2b & C2c) & _)]; [right; left; exact D2|]. right; right.
  assert (Lc1 : length cs1 = 2%nat) by (rewrite <- (map_length (fun c : list Z => Z.of_nat (length c)) cs1), <- C1b; exact LL1). destruct cs1 as [|path [|w [|]]]; try discriminate Lc1.
  exists path, w, cs. split; [exact C1a|]. split. { pose proof (Forall2_nth _ _ _ [] [] 1%nat C1c ltac:(cbn [length]; lia)) as Y. cbn [nth] in Y. rewrite Lb in Y. exact Y. }
  split; [exact C2a|]. assert (Lc : length cs = 12%nat) by (rewrite <- (map_length (fun c : list Z => Z.of_nat (length c)) cs), <- C2b; exact LL2). split; [exact Lc|]. split; [rewrite C2b, firstn_map; reflexivity|].
  assert (LN : forall i, (i < 12)%nat -> nth i lens2 0 = Z.of_nat (length (nth i cs []))) by (intros i Hi; rewrite C2b; change 0 with (Z.of_nat (length (@nil Z))); apply (map_nth (fun c : list Z => Z.of_nat (length c)))).
  assert (P : forall i, (i < 12)%nat -> ((length (nth i cs []) <= leaf_value_max)%nat -> firstn (length (nth i cs [])) (nth i lf []) = nth i cs []) /\ length (nth i lf []) = leaf_value_max /\ Forall nibble (nth i lf []) /\ Nat.Even (length (nth i cs [])) /\ Z.of_nat (length (nth i cs [])) < 2 ^ 66).
  { intros i Hi. split; [pose proof (Forall2_nth _ _ _ [] [] i C2c ltac:(lia)) as Y; rewrite Lb2 in Y; exact Y|]. rewrite Forall_forall in Oq2. destruct (Oq2 (nth i lf [])) as [Y1 Y2]; [apply nth_In; rewrite LO2; exact Hi|]. split; [congruence|]. split; [exact Y2|]. split.
    - assert (Hi2 : (i < length its2)%nat) by (rewrite Li2; exact Hi). pose proof (Forall2_nth _ _ _ ([], []) [] i C2a Hi2) as Y. apply (item_even (nth i its2 ([], []))); [|exact Y]. rewrite Forall_forall in I2. apply I2, nth_In. rewrite Li2. exact Hi.
    - rewrite <- LN by exact Hi. rewrite Forall_forall in BL2. apply BL2, nth_In. rewrite LL2. exact Hi. }
  split; [|split; [|split]].
  - assert (T : forall i k, (i < 7)%nat -> (Z.of_nat (length (nth i cs [])) < 4096) -> firstn (length (firstn k (nth i cs []))) (firstn k (nth i lf [])) = firstn k (nth i cs [])) by (intros i k Hi Hk; apply firstn_agree, (P i); lia).
    assert (Bd : forall i, (i < 7)%nat -> Z.of_nat (length (nth i cs [])) < 4096).
    { intros i Hi. rewrite <- LN by lia. destruct i as [|[|[|[|[|[|[|]]]]]]]; [..|lia]; (eapply Z.lt_trans; [apply NL; [cbn; lia|discriminate]|vm_compute; reflexivity]). }
    intros i n out Ei. subst x. destruct i as [|[|[|[|[|[|[|i]]]]]]]; [..|destruct i; discriminate Ei]; apply some_inj in Ei; assert (En := f_equal fst Ei); assert (Eo := f_equal snd Ei); cbn [fst snd t_chain t_nonce t_prio t_fee t_gas t_to t_value] in En, Eo; subst n out; (apply T; [lia|apply Bd; lia]).
  - subst x. cbn [t_v]. destruct (P 9%nat ltac:(lia)) as (Y1 & Y2 & Y3 & [k Y4] & _). rewrite LN in Ev by lia. assert (Bv : nth 9 lens2 0 < 4) by (apply (Z.lt_le_trans _ _ _ (NL 9%nat ltac:(cbn; lia) ltac:(discriminate))); vm_compute; discriminate). rewrite LN in Bv by lia. specialize (Y1 ltac:(lia)).
    destruct (Nat.eq_dec k 0) as [K|K].
    + assert (Z0 : length (nth 9 cs []) = 0%nat) by lia. rewrite Z0 in Ev. change (Z.of_nat 0) with 0 in Ev. rewrite Props_Hex.C59_hex_to_decimal_empty in Ev by lia. apply some_inj in Ev. apply length_zero_iff_nil in Z0. rewrite Z0. symmetry. exact Ev.
    + assert (Z2 : length (nth 9 cs []) = 2%nat) by lia. rewrite Z2 in Ev, Y1. rewrite (Props_Hex.C59_hex_to_decimal_exact p _ 2 2) in Ev; [apply some_inj in Ev; congruence|lia|lia|lia|lia|change (16 ^ Z.of_nat 2) with 256; assert (256 < 2 ^ 66) by reflexivity; lia|apply Forall_forall, Y3].
  - subst x. cbn [t_r]. destruct (P 10%nat ltac:(lia)) as (Y1 & Y2 & Y3 & Y4 & Y5). rewrite LN in Er by lia. apply (limbs_digits p (nth 10 lf [])); try assumption; [lia|]. intros Y. apply Y1. lia.
  - subst x. cbn [t_s]. destruct (P 11%nat ltac:(lia)) as (Y1 & Y2 & Y3 & Y4 & Y5). rewrite LN in Es by lia. apply (limbs_digits p (nth 11 lf [])); try assumption; [lia|]. intros Y. apply Y1. lia.
Qed.

(** ** cases *)
(** a transfer on chain 1: nonce 7, tip 0x3b9aca00, fee 0x0ba43b7400, gas 21000, value 10^18, calldata a9059cbb, v = 1 *)
Definition ex_tx : eip1559 := E1559 [1] [7] [59; 154; 202; 0] [11; 164; 59; 116; 0] [82; 8] (repeat 17 20) [13; 224; 182; 179; 167; 100; 0; 0] [169; 5; 156; 187] [1] (repeat 171 32) (repeat 5 31).
Definition ex_leaf (ty : Z) : list Z := nib (rlp (leaf_tree [32] ty ex_tx)).
Lemma ex_sized : sized_tx ex_tx /\ sized 1 [32].
Proof.
  assert (B : forall l, forallb (fun b => (0 <=? b) && (b <? 256)) l = true -> Forall is_byte l).
  { intros l H. apply Forall_forall. intros b I. rewrite forallb_forall in H. specialize (H b I). apply andb_true_iff in H. destruct H as [H1 H2]. apply Z.leb_le in H1. apply Z.ltb_lt in H2. unfold is_byte. lia. }
  assert (G : forall n l, forallb (fun b => (0 <=? b) && (b <? 256)) l = true -> (length l <= n)%nat -> l <> [0] -> sized n l) by (intros n l H1 H2 H3; split; [apply B, H1|split; assumption]).
  split; [|apply G; [reflexivity|cbn; lia|discriminate]]. unfold sized_tx, ex_tx. cbn [e_chain e_nonce e_prio e_fee e_gas e_to e_value e_data e_v e_r e_s].
  repeat (split; [apply G; [reflexivity|cbn [length repeat]; lia|discriminate]|]). apply G; [reflexivity|cbn [length repeat]; lia|discriminate].
Qed.
Lemma ex_len ty : length (rlp (leaf_tree [32] ty ex_tx)) = 126%nat. Proof. vm_compute. reflexivity. Qed.
Lemma ex_decodes ty : is_byte ty -> exists x signed, decode_tx_leaf bn254 (ex_leaf ty ++ repeat 0 leaf_max) = Some (x, signed, [2; 2; 8; 10; 4; 40; 16; 40]) /\ t_v x = 1 /\ shows (t_to x) (repeat 17 20) /\ shows (t_gas x) [82; 8].
Proof.
  intros Ht. destruct ex_sized as [S1 S2]. assert (Np : Forall nibble (repeat 0 leaf_max)) by (apply Forall_forall; intros z I; apply repeat_spec in I; subst z; unfold nibble; lia).
  destruct (C79_decodes bn254 (ex_leaf ty ++ repeat 0 leaf_max) [32] ty ex_tx (repeat 0 leaf_max) ltac:(vm_compute; reflexivity) S2 Ht S1 eq_refl Np) as (x & signed & D & _ & _ & _ & _ & _ & X5 & X6 & _ & X7 & _).
  - rewrite ex_len. pose proof leafZ. lia.
  - change 4352%nat with leaf_max. rewrite app_length, repeat_length. lia.
  - exists x, signed. split; [exact D|]. split; [exact X7|]. split; [exact X6|exact X5].
Qed.
(** the hypotheses of C79_decodes and C79_sound hold for a real leaf *)
Example C79_example : exists x signed, decode_tx_leaf bn254 (ex_leaf 2 ++ repeat 0 leaf_max) = Some (x, signed, [2; 2; 8; 10; 4; 40; 16; 40]) /\ t_v x = 1 /\ shows (t_to x) (repeat 17 20) /\ shows (t_gas x) [82; 8].
Proof. apply ex_decodes. unfold is_byte. lia. Qed.
(** the claim "an accepted leaf holds an EIP-1559 transaction (type byte 2)" is false: the type byte is not looked at, the same list behind any other byte is decoded the same way *)
Theorem C79_type_byte_refuted : forall ty, is_byte ty -> exists x signed, decode_tx_leaf bn254 (ex_leaf ty ++ repeat 0 leaf_max) = Some (x, signed, [2; 2; 8; 10; 4; 40; 16; 40]) /\ t_v x = 1 /\ shows (t_to x) (repeat 17 20) /\ shows (t_gas x) [82; 8].
Proof. exact ex_decodes. Qed.

(** C09: a three-member list with two empty lists is not accepted although it is well-formed, with one it is *)
Example C09_complete_example : let a := ArrayCheck 40 4 [(0, 8); (0, 8); (0, 8)]%nat in
  (exists outs, rlp_nest_array_check bn254 a ([12; 3; 12; 0; 0; 5; 0; 6] ++ repeat 0 32) = Some (1, 8, [2; 2; 2], outs)) /\ (exists outs, rlp_nest_array_check bn254 a ([12; 3; 12; 0; 12; 0; 0; 6] ++ repeat 0 32) = Some (0, 8, [2; 2; 2], outs)).
Proof. split; eexists; vm_compute; reflexivity. Qed.
