(** * Props_EthCases.v — concrete cases and refutations for C61 to C64 *)
From Coq Require Import ZArith List Lia Bool Arith.
From Verif Require Import ModNorm Field FieldLemmas RlpUtilModel RlpUtilProofs RlpModel RlpSpec RlpPrefixProofs RlpArrayProofs RlpArraySound BlkProofs ArrayFelt HexProofs
  MptModel MptSpec MptProofs MptPathProofs MptPathSound Props_Mpt Props_MptCases EthModel EthProofs EthSpec EthItems EthSound Props_Eth.
Import ListNotations.
Open Scope Z_scope.
Open Scope circ_scope.

(** ** C63: values that start with 0x80.  The "value" is then the byte behind the prefix, which nothing constrains unless the value is
    the whole zero value. *)
Theorem C63_empty_value_reads_next_byte_refuted : forall p rest, 2 ^ 248 < p -> length rest = 64%nat -> felts p rest ->
  slot_value p ([8; 0] ++ rest) = Some (hexval (firstn 2 rest) mod p, 0).
Proof.
  intros p rest Hp Lr Fr. assert (Hp' : 452312848583266388373324160190187140051835877600158453279131187530910662656 < p) by exact Hp.
  assert (Hp200 : 2 ^ 200 < p) by zlia. assert (Hp2 : 2 < p) by zlia. assert (Hp3 : 4096 < p) by zlia. clear Hp. unfold slot_value.
  change (nth 0 ([8; 0] ++ rest) 0) with 8. change (nth 1 ([8; 0] ++ rest) 0) with 0.
  rewrite field_prefix_ok by (auto; unfold nibble; zlia). cbv zeta. change (classify (16 * 8 + 0)) with (HShortString 0).
  cbn [fp_isBig fp_isLiteral fp_hexLen head_hexlen head_big head_literal bit_of]. change (2 * 0) with 0.
  assert (Lv : length ([8; 0] ++ rest) = 66%nat) by (rewrite app_length, Lr; reflexivity).
  assert (Fv : feltl p ([8; 0] ++ rest)) by (apply feltl_app; auto; intros x [<-|[<-|[]]]; unfold felt; zlia).
  match goal with |- context [r_shift_left _ _ 0 _ _ ?s] => replace s with 2 by (symmetry; mnorm_lhs p; rewrite Z.mod_small; zlia) end.
  rewrite (shift_left_f p Hp200) by (auto; cbn; zlia).
  assert (B : (2 <? 2 ^ Z.of_nat (log_ceil ((log_ceil (66 / 8) + 1) * 2))) = true) by reflexivity. rewrite B.
  change (Z.to_nat 2) with (length [8; 0]). rewrite rotl_app. cbn [obind].
  set (inp := rest ++ [8; 0]). assert (Li : length inp = 66%nat) by (unfold inp; rewrite app_length, Lr; reflexivity).
  rewrite (hex64_ok p Hp2) by (try lia; unfold felt; zlia). unfold hex64_spec. change (0 <=? 62) with true. cbv iota. cbn [obind].
  rewrite (hex_to_decimal_ok p Hp2) by (rewrite ?Li; try lia; unfold felt; zlia). unfold hex_dec_spec. change (2 =? 0) with false. cbv iota. change (2 <=? Z.of_nat 2) with true. cbv iota.
  cbn [obind]. assert (Z0 : fis_zero p 0 = bit_of true) by (rewrite (is_zero_bit p) by (unfold felt; zlia); reflexivity). rewrite Z0.
  rewrite !(bit_sel p Hp2) by (unfold felt; try zlia; apply Z.mod_pos_bound; zlia). cbn [obind].
  unfold inp. rewrite firstn_app. replace (Z.to_nat 2 - length rest)%nat with 0%nat by lia. cbn [firstn]. rewrite app_nil_r. reflexivity.
Qed.
(** the zero value reads 0 *)
Corollary C63_zero_value : forall p v, 2 ^ 248 < p -> length v = 66%nat -> zero_value v -> slot_value p v = Some (0, 0).
Proof.
  intros p v Hp Lv [Z1 Z2]. destruct v as [|a [|b rest]]; try discriminate. change (firstn 2 (a :: b :: rest)) with [a; b] in Z1. change (skipn 2 (a :: b :: rest)) with rest in Z2.
  assert (Lr : length rest = 64%nat) by (cbn [length] in Lv; lia). rewrite firstn_all2 in Z2 by lia. subst rest. assert (a = 8 /\ b = 0) as [-> ->] by (split; congruence).
  change (8 :: 0 :: repeat 0 64) with ([8; 0] ++ repeat 0 64). rewrite C63_empty_value_reads_next_byte_refuted; [|exact Hp|exact Lr|].
  - change (hexval (firstn 2 (repeat 0 64))) with 0. rewrite Z.mod_0_l by (assert (0 < 2 ^ 248) by reflexivity; lia). reflexivity.
  - intros x Hx. apply repeat_spec in Hx. subst x. unfold felt. assert (0 < 2 ^ 248) by reflexivity. lia.
Qed.

(** A storage proof cut off at an extension node whose path AGREES with the key is accepted with any value: the absence test compares the
    fragment with the whole remaining key.  Here the key is 5 2 9 9 .. 9; the root branch refers at 5 to the extension 2 9, below which
    the slot may well exist; the claimed value is 7 and its leaf is never shown. *)
Definition agree_ext : list Z := [14; 4; 8; 2; 0; 0; 2; 9; 10; 0] ++ repeat 7 64 ++ repeat 0 1014.
Definition agree_root : list Z := ex_branch 5 (digest_of agree_ext).
Definition agree_key : list Z := [5; 2] ++ repeat 9 62.
Theorem C63_truncated_at_extension_refuted :
  check_eth_storage bn254 toy_hash 2 (digest_of agree_root) ex_value agree_ext 0 2 (ex_in agree_key [0; 1] agree_root 0 0 2) = Some (StorageResult 1 (7, 0) 62) /\
  firstn 2 (slice 1 64 agree_key) = [2; 9] /\ firstn 10 agree_ext = [14; 4; 8; 2] ++ hex_prefix 0 [2; 9] ++ [10; 0].
Proof. split; [vm_compute; reflexivity|split; reflexivity]. Qed.

(** ** honest proofs *)
Definition st_leaf : list Z := ex_leaf_odd ++ repeat 0 944.
Definition st_root : list Z := ex_branch 5 (digest_of st_leaf).
Example C63_example :
  check_eth_storage bn254 toy_hash 2 (digest_of st_root) ex_value st_leaf 0 1 (ex_in ex_key [0; 1] st_root 0 0 2) = Some (StorageResult 1 (7, 0) 0).
Proof. vm_compute. reflexivity. Qed.

(** nonce 1, balance 0 *)
Definition ex_account : list (list Z) := [[0; 1]; []; digest_of st_root; repeat 12 64].
Definition ac_rlp : list Z := list_of ex_account ++ repeat 0 88.
Definition ac_leaf : list Z := [15; 8; 6; 9; 10; 0; 3] ++ repeat 9 63 ++ [11; 8; 4; 6] ++ list_of ex_account ++ repeat 0 90.
Definition ac_root : list Z := ex_branch 5 (digest_of ac_leaf).
Definition ac_in : layers_in := LayersIn ex_key [0; 1] [ac_root] (repeat 0 9) [0] [0] 2.
Definition sizes_b (sz : nat * nat) (d : list Z) : bool :=
  forallb (fun x => (0 <=? x) && (x <? 16)) d && Nat.even (length d) && Nat.leb (2 * fst sz) (length d) && Nat.leb (length d) (2 * snd sz).
Lemma sizes_b_ok sz d : sizes_b sz d = true -> bytes_between (fst sz) (snd sz) d.
Proof.
  unfold sizes_b, bytes_between. do 3 rewrite andb_true_iff. do 2 rewrite Nat.leb_le. rewrite Nat.even_spec. intros [[[N E] L1] L2]. split; [|split; [exact E|lia]].
  rewrite forallb_forall in N. apply Forall_forall. intros x Hx. specialize (N x Hx). apply andb_true_iff in N. rewrite Z.leb_le, Z.ltb_lt in N. exact N.
Qed.
Lemma sizes_all_ok : forall szs ds, length szs = length ds -> forallb (fun x => sizes_b (fst x) (snd x)) (combine szs ds) = true -> Forall2 (fun s d => bytes_between (fst s) (snd s) d) szs ds.
Proof.
  induction szs as [|s szs IH]; intros [|d ds] L H; try discriminate; [constructor|]. cbn [combine forallb fst snd] in H. apply andb_true_iff in H as [H1 H2].
  constructor; [apply sizes_b_ok; exact H1|apply IH; [cbn [length] in L; lia|exact H2]].
Qed.
Example C62_example_account : eth_account ex_account /\ length ac_rlp = 228%nat /\ firstn 140 ac_rlp = list_of ex_account /\ aligned ac_leaf.
Proof. split; [apply sizes_all_ok; [reflexivity|vm_compute; reflexivity]|split; [vm_compute; reflexivity|split; vm_compute; reflexivity]]. Qed.
Example C62_example :
  check_eth_account bn254 toy_hash 2 (digest_of ac_root) ac_rlp ac_leaf 0 1 ac_in
    = Some (AccountResult 1 2 ([0; 1; 8; 0; 10; 0] ++ firstn 58 (digest_of st_root)) 0 ([10; 0] ++ firstn 22 (digest_of st_root)) (digest_of st_root) (repeat 12 64)).
Proof. vm_compute. reflexivity. Qed.

(** a 15-field header (before London) of block 0x2a, padded to 8 Keccak blocks *)
Definition ex_header : list (list Z) :=
  [repeat 1 64; repeat 2 64; repeat 3 40; digest_of ac_root; repeat 4 64; repeat 5 64; repeat 0 512; [0; 2]; [2; 10]; [15; 15; 15; 15]; []; [5; 15; 0; 0; 0; 0; 0; 0];
   [8; 8; 9; 9]; repeat 6 64; repeat 0 16].
Definition ex_block : list Z := let r := list_of ex_header in r ++ [0; 1] ++ repeat 0 (2176 - length r - 2).
Definition ex_rest : list Z := [0; 1] ++ repeat 0 (2176 - length (list_of ex_header) - 2).
Lemma ex_block_eq : ex_block = list_of ex_header ++ ex_rest.
Proof. reflexivity. Qed.
Definition ex_block_hash : list Z := digest_of ex_block.
Example C61_example_header : eth_header ex_header /\ length ex_block = 2176%nat /\ Forall nibble ex_block /\ toy_hash ex_block 0 = Some ex_block_hash.
Proof.
  split; [split; [cbn; lia|apply sizes_all_ok; [reflexivity|vm_compute; reflexivity]]|]. split; [vm_compute; reflexivity|]. split; [|vm_compute; reflexivity].
  assert (N : forallb (fun x => (0 <=? x) && (x <? 16)) ex_block = true) by (vm_compute; reflexivity).
  rewrite forallb_forall in N. apply Forall_forall. intros x Hx. specialize (N x Hx). apply andb_true_iff in N. rewrite Z.leb_le, Z.ltb_lt in N. exact N.
Qed.
Example C61_example : exists res, check_eth_block bn254 toy_hash ex_block 15 0 = Some res /\ eb_output res = 1 /\ eb_hash res = ex_block_hash /\
  eb_stateRoot res = digest_of ac_root /\ eb_numberLen res = 2 /\ firstn 2 (eb_number res) = [2; 10] /\ eb_time res = [5; 15; 0; 0; 0; 0; 0; 0].
Proof.
  destruct C61_example_header as (H1 & H2 & H3 & H4). assert (Hb : 2 ^ 200 < bn254) by reflexivity.
  destruct (C61_block_header_accepted bn254 toy_hash ex_block ex_header ex_rest 0 ex_block_hash Hb) as (res & E & O1 & O2);
    auto; [split; reflexivity|intros _; exists 1, (repeat 0 (2176 - length (list_of ex_header) - 2)); split; [lia|reflexivity]|].
  exists res. change (Z.of_nat (length ex_header)) with 15 in E. split; [exact E|]. split; [exact O1|]. split; [exact O2|].
  assert (Fb : felts bn254 ex_block). { intros x Hx. rewrite Forall_forall in H3. specialize (H3 x Hx). unfold nibble, felt in *. assert (16 < bn254) by reflexivity. lia. }
  destruct (C61_block_header_fields bn254 toy_hash ex_block 15 0 res Hb (toy_hash_ok _) Fb ltac:(split; [lia|reflexivity]) ltac:(split; [lia|reflexivity]) E) as (_ & _ & _ & _ & R).
  destruct (R ex_header ex_rest ex_block_eq H1) as (R1 & _ & _ & R4 & R5 & R6). split; [exact R1|]. split; [exact R4|]. split; [exact R5|].
  change (length (nth 11 ex_header [])) with 8%nat in R6. change (nth 11 ex_header []) with [5; 15; 0; 0; 0; 0; 0; 0] in R6. rewrite <- R6. symmetry. apply firstn_all2.
  destruct (number_shape bn254 toy_hash ex_block 15 0 res Hb H2 H3 ltac:(split; [lia|reflexivity]) E) as (_ & _ & N3). rewrite N3. apply Nat.le_refl.
Qed.

(** all three combined *)
Example C64_example :
  check_eth_address_storage bn254 toy_hash 2 2 ex_block_hash ex_block 15 0 ac_rlp ac_leaf 0 1 ac_in ex_value st_leaf 0 1 (ex_in ex_key [0; 1] st_root 0 0 2)
    = Some (AddressStorageResult 1 42 (7, 0)).
Proof.
  destruct C61_example as (b & E & O1 & O2 & R1 & R2 & R3 & R4). unfold check_eth_address_storage.
  change (Nat.eqb (length ex_block_hash) 64 && Nat.eqb (length (li_rounds ac_in)) 9) with true. cbn [guard]. rewrite obind_some, E, obind_some, O2.
  assert (Q : r_array_equal bn254 ex_block_hash ex_block_hash 64 64 = Some 1) by (vm_compute; reflexivity). rewrite Q, obind_some, R1, C62_example, obind_some.
  cbn [ea_storageRoot ea_output]. rewrite C63_example, obind_some. cbn [es_output es_slotValue]. rewrite R2.
  destruct C61_example_header as (H1 & H2 & H3 & H4). assert (Hb : 2 ^ 200 < bn254) by reflexivity.
  destruct (number_shape bn254 toy_hash ex_block 15 0 b Hb H2 H3 ltac:(split; [lia|reflexivity]) E) as (N1 & N2 & _).
  assert (P2 : 2 < bn254) by reflexivity. change (fsub bn254 8 2) with 6.
  rewrite (r_shift_right_ok bn254 P2 8 3 (eb_number b) 6 N2); [|intros x Hx; rewrite Forall_forall in N1; specialize (N1 x Hx); unfold nibble, felt in *; assert (16 < bn254) by reflexivity; lia|split; [lia|reflexivity]|lia].
  change (6 <? 2 ^ Z.of_nat 3) with true. cbv iota. rewrite obind_some. change (Z.to_nat 6) with 6%nat. remember (eb_number b) as l eqn:El. clear El E O1 O2 R1 R2 R4.
  clear H1 H2 H3 H4 Q. destruct l as [|z [|z0 [|z1 [|z2 [|z3 [|z4 [|z5 [|z6 [|]]]]]]]]]; try discriminate N2.
  change (firstn 2 [z; z0; z1; z2; z3; z4; z5; z6]) with [z; z0] in R3. assert (z = 2 /\ z0 = 10) as [-> ->] by (split; congruence).
  change (shr 6 [2; 10; z1; z2; z3; z4; z5; z6]) with [0; 0; 0; 0; 0; 0; 2; 10].
  assert (Q1 : block_number_value bn254 [0; 0; 0; 0; 0; 0; 2; 10] = 42) by (vm_compute; reflexivity). rewrite Q1.
  assert (Q2 : r_equal bn254 (fadd bn254 (fadd bn254 1 1) 1) 3 = 1) by (vm_compute; reflexivity). rewrite Q2. reflexivity.
Qed.
