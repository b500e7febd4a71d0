(** * Props_Header.v — C43: header encoding for the Keccak circuit, header generation, hash splitting *)
From Coq Require Import ZArith List Lia Bool Arith.
Lemma nth_error_Some_lt : forall (A : Type) (l : list A) i x, nth_error l i = Some x -> (i < length l)%nat.
Proof. intros A l i x E. apply nth_error_Some. congruence. Qed.
From Verif Require Import Field FieldLemmas RlpEnc ProofModel KeccakSpec KeccakModel KeccakPadModel KeccakPad KeccakNibbles RlpArrayProofs KeccakProofs KeccakSponge Props_Keccak TxModel HeaderModel.
Import ListNotations.
Open Scope Z_scope.

(** ** Specification *)
Definition bytes_of_len (n : nat) (l : list Z) : Prop := length l = n /\ Forall is_byte l.
Definition opt_ok {A : Type} (P : A -> Prop) (o : option A) : Prop := match o with None => True | Some a => P a end.
(** the sizes and types Go guarantees for a header's fields *)
Definition header_typed (h : header) : Prop :=
  bytes_of_len 32 (h_parent h) /\ bytes_of_len 32 (h_uncle h) /\ bytes_of_len 20 (h_coinbase h) /\ bytes_of_len 32 (h_root h) /\
  bytes_of_len 32 (h_tx h) /\ bytes_of_len 32 (h_receipt h) /\ bytes_of_len 256 (h_bloom h) /\ Forall is_byte (h_extra h) /\
  bytes_of_len 32 (h_mix h) /\ bytes_of_len 8 (h_nonce h) /\
  0 <= h_gas_limit h < 2 ^ 64 /\ 0 <= h_gas_used h < 2 ^ 64 /\ 0 <= h_time h < 2 ^ 64 /\
  opt_ok (bytes_of_len 32) (h_withdrawals h) /\ opt_ok (fun n => 0 <= n < 2 ^ 64) (h_blob_used h) /\
  opt_ok (fun n => 0 <= n < 2 ^ 64) (h_excess_blob h) /\ opt_ok (bytes_of_len 32) (h_beacon_root h).
(** the dynamic fields have the admitted widths *)
Definition dynamic_ok (h : header) (difficulty number fee : Z) : Prop :=
  h_difficulty h = Some difficulty /\ h_number h = Some number /\ h_base_fee h = Some fee /\
  - 2 ^ 56 < difficulty < 2 ^ 56 /\ - 2 ^ 64 < number < 2 ^ 64 /\ - 2 ^ 56 < fee < 2 ^ 56 /\
  h_gas_limit h < 2 ^ 32 /\ h_gas_used h < 2 ^ 32 /\ h_time h < 2 ^ 32.

(** ** Byte lengths *)
Lemma be_fuel_len_ge : forall f n k, 256 ^ Z.of_nat k <= n < 256 ^ Z.of_nat f -> (k < length (be_fuel f n))%nat.
Proof.
  induction f as [| f IH]; intros n k Hn.
  - change (256 ^ Z.of_nat 0) with 1 in Hn. pose proof (Z.pow_pos_nonneg 256 (Z.of_nat k)). lia.
  - assert (P0 : 0 < 256 ^ Z.of_nat k) by (apply Z.pow_pos_nonneg; lia).
    cbn [be_fuel]. destruct (Z.eqb_spec n 0); [lia |]. rewrite app_length. cbn [length].
    destruct k as [| k]; [lia |]. assert (k < length (be_fuel f (n / 256)))%nat; [| lia].
    apply IH. rewrite !Nat2Z.inj_succ, !Z.pow_succ_r in Hn by lia.
    split; [apply Z.div_le_lower_bound; lia | apply Z.div_lt_upper_bound; lia].
Qed.
Lemma be_bytes_len_iff : forall n k, 0 <= n -> ((length (be_bytes n) <= k)%nat <-> n < 256 ^ Z.of_nat k).
Proof.
  intros n k Hn. split; intros H.
  - destruct (Z.lt_ge_cases n (256 ^ Z.of_nat k)) as [L | L]; [exact L |]. exfalso.
    pose proof (be_fuel_len_ge (S (Z.to_nat (Z.log2 n))) n k (conj L (be_bytes_fuel_ok n Hn))) as G. unfold be_bytes in H. lia.
  - apply be_bytes_length. lia.
Qed.
Lemma uint_len_loop_ok : forall f n i, 0 <= n < 256 ^ Z.of_nat f -> uint_len_loop f n i = i + Z.of_nat (length (be_fuel f n)).
Proof.
  induction f as [| f IH]; intros n i Hn; [cbn; lia |]. cbn [uint_len_loop be_fuel].
  destruct (Z.eqb_spec n 0) as [-> | N]; [cbn; lia |]. destruct (Z.ltb_spec 0 n); [| lia].
  rewrite Nat2Z.inj_succ, Z.pow_succ_r in Hn by lia.
  rewrite IH by (split; [apply Z.div_pos; lia | apply Z.div_lt_upper_bound; lia]). rewrite app_length. cbn [length]. lia.
Qed.
Lemma be_fuel_enough : forall f n, 0 <= n < 256 ^ Z.of_nat f -> be_fuel f n = be_bytes n.
Proof.
  assert (G : forall f g n, 0 <= n < 256 ^ Z.of_nat f -> n < 256 ^ Z.of_nat g -> be_fuel f n = be_fuel g n).
  { induction f as [| f IH]; intros g n Hn Hg.
    - change (256 ^ Z.of_nat 0) with 1 in Hn. assert (n = 0) by lia. subst. destruct g; reflexivity.
    - destruct g as [| g]; [change (256 ^ Z.of_nat 0) with 1 in Hg; assert (n = 0) by lia; subst; reflexivity |].
      cbn [be_fuel]. destruct (Z.eqb_spec n 0); [reflexivity |]. f_equal.
      rewrite !Nat2Z.inj_succ, !Z.pow_succ_r in * by lia.
      apply IH; [split; [apply Z.div_pos; lia |] |]; apply Z.div_lt_upper_bound; lia. }
  intros f n Hn. apply G; [exact Hn | apply be_bytes_fuel_ok; lia].
Qed.
(** getUintByteLen is the number of bytes of the minimal big-endian representation *)
Theorem C43_uint_byte_len : forall x, 0 <= x < 2 ^ 64 -> get_uint_byte_len x = Z.of_nat (length (be_bytes x)).
Proof.
  intros x Hx. unfold get_uint_byte_len.
  assert (x < 256 ^ Z.of_nat 64) by (change (256 ^ Z.of_nat 64) with (2 ^ 512); assert (2 ^ 64 < 2 ^ 512) by reflexivity; lia).
  rewrite uint_len_loop_ok, be_fuel_enough by lia. lia.
Qed.
Lemma check_len_spec : forall a m, check_len a m = 0 /\ a <= m \/ check_len a m = 1 /\ m < a.
Proof. intros a m. unfold check_len. rewrite Z.gtb_ltb. destruct (Z.ltb_spec m a); [right | left]; split; auto; lia. Qed.

(** The check passes exactly for the admitted widths; a missing number, difficulty or base fee is a nil dereference. *)
Theorem C43_field_check : forall h, header_typed h ->
  (check_dynamic_field_len h = Ok true <-> exists d n f, dynamic_ok h d n f) /\
  (check_dynamic_field_len h = Panic <-> h_difficulty h = None \/ h_number h = None \/ h_base_fee h = None) /\
  check_dynamic_field_len h <> Err.
Proof.
  intros h (_ & _ & _ & _ & _ & _ & _ & _ & _ & _ & Tl & Tu & Tt & _).
  unfold check_dynamic_field_len, big_len, dynamic_ok.
  destruct (h_difficulty h) as [d |]; [| split; [| split; [tauto | discriminate]]; split; [discriminate | intros (? & ? & ? & E & _); discriminate E]].
  destruct (h_number h) as [n |]; [| split; [| split; [tauto | discriminate]]; split; [discriminate | intros (? & ? & ? & _ & E & _); discriminate E]].
  destruct (h_base_fee h) as [f |]; [| split; [| split; [tauto | discriminate]]; split; [discriminate | intros (? & ? & ? & _ & _ & E & _); discriminate E]].
  split; [| split; [split; [discriminate | intros [E | [E | E]]; discriminate E] | discriminate]].
  rewrite !C43_uint_byte_len by lia. unfold big_bytes.
  pose proof (be_bytes_len_iff (Z.abs d) 7 (Z.abs_nonneg d)) as B1. pose proof (be_bytes_len_iff (Z.abs n) 8 (Z.abs_nonneg n)) as B2.
  pose proof (be_bytes_len_iff (Z.abs f) 7 (Z.abs_nonneg f)) as B3.
  pose proof (be_bytes_len_iff (h_gas_limit h) 4 (proj1 Tl)) as B4. pose proof (be_bytes_len_iff (h_gas_used h) 4 (proj1 Tu)) as B5.
  pose proof (be_bytes_len_iff (h_time h) 4 (proj1 Tt)) as B6.
  change (256 ^ Z.of_nat 7) with (2 ^ 56) in *. change (256 ^ Z.of_nat 8) with (2 ^ 64) in *. change (256 ^ Z.of_nat 4) with (2 ^ 32) in *.
  pose proof (check_len_spec (Z.of_nat (length (be_bytes (Z.abs d)))) 7) as S1.
  pose proof (check_len_spec (Z.of_nat (length (be_bytes (Z.abs n)))) 8) as S2.
  pose proof (check_len_spec (Z.of_nat (length (be_bytes (Z.abs f)))) 7) as S3.
  pose proof (check_len_spec (Z.of_nat (length (be_bytes (h_gas_limit h)))) 4) as S4.
  pose proof (check_len_spec (Z.of_nat (length (be_bytes (h_gas_used h)))) 4) as S5.
  pose proof (check_len_spec (Z.of_nat (length (be_bytes (h_time h)))) 4) as S6.
  cbv zeta. set (c1 := check_len _ 7) in *. set (c2 := check_len _ 8) in *. set (c4 := check_len (Z.of_nat (length (be_bytes (h_gas_limit h)))) 4) in *.
  set (c5 := check_len (Z.of_nat (length (be_bytes (h_gas_used h)))) 4) in *. set (c6 := check_len (Z.of_nat (length (be_bytes (h_time h)))) 4) in *.
  set (c3 := check_len (Z.of_nat (length (be_bytes (Z.abs f)))) 7) in *.
  clearbody c1 c2 c3 c4 c5 c6.
  split.
  - intros E. assert (E' : c1 + c2 + c4 + c5 + c6 + c3 = 0) by (apply Z.eqb_eq; congruence).
    exists d, n, f. repeat (split; [reflexivity |]). clear E. lia.
  - intros (d' & n' & f' & E1 & E2 & E3 & R1 & R2 & R3 & R4 & R5 & R6).
    assert (d' = d) by congruence. assert (n' = n) by congruence. assert (f' = f) by congruence. subst d' n' f'.
    f_equal. apply Z.eqb_eq. lia.
Qed.

(** ** Size of the encoding *)
Lemma rlp_str_short : forall s, (length s < 56)%nat -> (length (rlp (RStr s)) <= S (length s))%nat.
Proof.
  intros s H. cbn [rlp]. unfold rlp_str, rlp_head_bytes. destruct s as [| x [| y s]].
  - cbn. lia.
  - destruct (x <? 128); cbn [length app Nat.ltb Nat.leb]; lia.
  - destruct (Nat.ltb_spec (length (x :: y :: s)) 56); [| lia]. rewrite app_length. cbn [length]. lia.
Qed.
Lemma rlp_str_bloom : forall s, length s = 256%nat -> length (rlp (RStr s)) = 259%nat.
Proof.
  intros s H. cbn [rlp]. unfold rlp_str. destruct s as [| x [| y s]]; [discriminate H | discriminate H |].
  rewrite app_length, H. reflexivity.
Qed.
Lemma concat_rlp_cons : forall t l, length (concat (map rlp (t :: l))) = (length (rlp t) + length (concat (map rlp l)))%nat.
Proof. intros. cbn [map concat]. apply app_length. Qed.
Lemma concat_rlp_nil : length (concat (map rlp [])) = 0%nat. Proof. reflexivity. Qed.
Lemma num_item : forall n k, (k < 56)%nat -> 0 <= n < 256 ^ Z.of_nat k -> (length (rlp (RStr (be_bytes n))) <= S k)%nat.
Proof. intros n k Hk Hn. pose proof (be_bytes_length n k Hn). pose proof (rlp_str_short (be_bytes n) ltac:(lia)). lia. Qed.
Lemma hash_item : forall s k, (k < 56)%nat -> bytes_of_len k s -> (length (rlp (RStr s)) <= S k)%nat.
Proof. intros s k Hk [L _]. pose proof (rlp_str_short s ltac:(lia)). lia. Qed.
Lemma opt_items_len : forall l, (length (concat (map rlp (opt_items l))) <= fold_right (fun o n => (match o with None => 1 | Some t => length (rlp t) end + n)%nat) 0%nat l)%nat.
Proof.
  induction l as [| [t |] l IH]; [cbn; lia | |].
  - cbn [opt_items fold_right]. rewrite concat_rlp_cons. lia.
  - cbn [opt_items fold_right]. destruct (opt_items l) as [| y r]; [cbn; lia |]. rewrite concat_rlp_cons. assert (length (rlp (RStr [])) = 1%nat) by reflexivity. lia.
Qed.

Section Enc.
Variables (h : header) (d n f : Z).
Hypothesis T : header_typed h.
Hypothesis D : dynamic_ok h d n f.
Hypothesis (Pd : 0 <= d) (Pn : 0 <= n) (Pf : 0 <= f).
Lemma header_tree_ok : header_tree h = Some (RList ([RStr (h_parent h); RStr (h_uncle h); RStr (h_coinbase h); RStr (h_root h); RStr (h_tx h); RStr (h_receipt h);
                RStr (h_bloom h); RStr (be_bytes d); RStr (be_bytes n); RStr (be_bytes (h_gas_limit h)); RStr (be_bytes (h_gas_used h));
                RStr (be_bytes (h_time h)); RStr (h_extra h); RStr (h_mix h); RStr (h_nonce h)] ++
               opt_items [Some (RStr (be_bytes f)); option_map RStr (h_withdrawals h); option_map (fun n => RStr (be_bytes n)) (h_blob_used h);
                          option_map (fun n => RStr (be_bytes n)) (h_excess_blob h); option_map RStr (h_beacon_root h)])).
Proof.
  destruct D as (Ed & En & Ef & _). unfold header_tree. rewrite Ed, En, Ef. cbn [big_item].
  rewrite (proj2 (Z.ltb_ge d 0) Pd), (proj2 (Z.ltb_ge n 0) Pn), (proj2 (Z.ltb_ge f 0) Pf). cbn [obind option_map]. reflexivity.
Qed.
Hypothesis X : (length (h_extra h) <= 32)%nat.
Lemma header_rlp_fits : exists r, header_rlp h = Some r /\ (length r <= 647)%nat.
Proof.
  unfold header_rlp. rewrite header_tree_ok. cbn [option_map]. eexists. split; [reflexivity |].
  destruct T as (T1 & T2 & T3 & T4 & T5 & T6 & T7 & T8 & T9 & T10 & T11 & T12 & T13 & T14 & T15 & T16 & T17).
  destruct D as (_ & _ & _ & D1 & D2 & D3 & D4 & D5 & D6).
  pose proof (hash_item _ 32 ltac:(lia) T1). pose proof (hash_item _ 32 ltac:(lia) T2). pose proof (hash_item _ 20 ltac:(lia) T3).
  pose proof (hash_item _ 32 ltac:(lia) T4). pose proof (hash_item _ 32 ltac:(lia) T5). pose proof (hash_item _ 32 ltac:(lia) T6).
  pose proof (rlp_str_bloom _ (proj1 T7)). pose proof (rlp_str_short (h_extra h) ltac:(lia)).
  pose proof (hash_item _ 32 ltac:(lia) T9). pose proof (hash_item _ 8 ltac:(lia) T10).
  assert (length (rlp (RStr (be_bytes d))) <= 8)%nat by (apply (num_item d 7); [lia | change (256 ^ Z.of_nat 7) with (2 ^ 56); lia]).
  assert (length (rlp (RStr (be_bytes n))) <= 9)%nat by (apply (num_item n 8); [lia | change (256 ^ Z.of_nat 8) with (2 ^ 64); lia]).
  assert (length (rlp (RStr (be_bytes f))) <= 8)%nat by (apply (num_item f 7); [lia | change (256 ^ Z.of_nat 7) with (2 ^ 56); lia]).
  assert (length (rlp (RStr (be_bytes (h_gas_limit h)))) <= 5)%nat by (apply (num_item _ 4); [lia | change (256 ^ Z.of_nat 4) with (2 ^ 32); lia]).
  assert (length (rlp (RStr (be_bytes (h_gas_used h)))) <= 5)%nat by (apply (num_item _ 4); [lia | change (256 ^ Z.of_nat 4) with (2 ^ 32); lia]).
  assert (length (rlp (RStr (be_bytes (h_time h)))) <= 5)%nat by (apply (num_item _ 4); [lia | change (256 ^ Z.of_nat 4) with (2 ^ 32); lia]).
  pose proof (opt_items_len [Some (RStr (be_bytes f)); option_map RStr (h_withdrawals h); option_map (fun n => RStr (be_bytes n)) (h_blob_used h);
                          option_map (fun n => RStr (be_bytes n)) (h_excess_blob h); option_map RStr (h_beacon_root h)]) as O.
  set (os := opt_items _) in *. clearbody os. cbn [fold_right] in O.
  assert (O1 : (match option_map RStr (h_withdrawals h) with None => 1 | Some t => length (rlp t) end <= 33)%nat).
  { destruct (h_withdrawals h); cbn [option_map]; [apply hash_item; [lia | exact T14] | lia]. }
  assert (O2 : (match option_map (fun n => RStr (be_bytes n)) (h_blob_used h) with None => 1 | Some t => length (rlp t) end <= 9)%nat).
  { destruct (h_blob_used h); cbn [option_map]; [apply (num_item _ 8); [lia | exact T15] | lia]. }
  assert (O3 : (match option_map (fun n => RStr (be_bytes n)) (h_excess_blob h) with None => 1 | Some t => length (rlp t) end <= 9)%nat).
  { destruct (h_excess_blob h); cbn [option_map]; [apply (num_item _ 8); [lia | exact T16] | lia]. }
  assert (O4 : (match option_map RStr (h_beacon_root h) with None => 1 | Some t => length (rlp t) end <= 33)%nat).
  { destruct (h_beacon_root h); cbn [option_map]; [apply hash_item; [lia | exact T17] | lia]. }
  assert (OS : (length (concat (map rlp os)) <= 92)%nat) by lia. clear O O1 O2 O3 O4.
  remember ([RStr (h_parent h); RStr (h_uncle h); RStr (h_coinbase h); RStr (h_root h); RStr (h_tx h); RStr (h_receipt h);
                RStr (h_bloom h); RStr (be_bytes d); RStr (be_bytes n); RStr (be_bytes (h_gas_limit h)); RStr (be_bytes (h_gas_used h));
                RStr (be_bytes (h_time h)); RStr (h_extra h); RStr (h_mix h); RStr (h_nonce h)] ++ os) as items eqn:EI.
  assert (L : (length (concat (map rlp items)) <= 644)%nat).
  { subst items. rewrite map_app, concat_app, app_length. rewrite !concat_rlp_cons, concat_rlp_nil. lia. }
  change (rlp (RList items)) with (rlp_head_bytes 192 (length (concat (map rlp items))) ++ concat (map rlp items)). rewrite app_length.
  assert (length (rlp_head_bytes 192 (length (concat (map rlp items)))) <= 3)%nat; [| lia].
  set (len := length (concat (map rlp items))) in *. unfold rlp_head_bytes. destruct (Nat.ltb len 56); [cbn; lia |]. cbn [length].
  assert (length (be_bytes (Z.of_nat len)) <= 2)%nat; [| lia]. apply be_bytes_length. change (256 ^ Z.of_nat 2) with 65536. lia.
Qed.
End Enc.

Lemma block_bits_ok : forall r, bytes2block_bits (pad101_bytes r) = Some (zbits (bytes_bits (pad101_bytes r))) /\ length (zbits (bytes_bits (pad101_bytes r))) = (1088 * (length r / 136 + 1))%nat.
Proof.
  intros r. split.
  - unfold bytes2block_bits. rewrite pad101_bytes_blocks.
    assert (E : ((136 * (length r / 136 + 1)) mod 136 = 0)%nat) by (rewrite Nat.mul_comm; apply Nat.mod_mul; lia). rewrite E. cbn [Nat.eqb guard obind].
    apply C19_bytes2bits. split; [| reflexivity]. rewrite pad101_bytes_blocks.
    replace (136 * (length r / 136 + 1))%nat with (17 * (length r / 136 + 1) * 8)%nat by lia. apply Nat.mod_mul. lia.
  - unfold zbits. rewrite map_length, bytes_bits_length, pad101_bytes_blocks. lia.
Qed.
Lemma zeros_bits : forall k, repeat 0 k = zbits (repeat false k).
Proof. intros k. induction k as [| k IH]; [reflexivity |]. cbn [repeat zbits map]. f_equal. exact IH. Qed.

(** A header with admitted fields and at most 32 bytes of extra data: exactly 5 * 1088 bits and the round index for which the
    Keccak circuit returns Keccak-256 of the header's RLP. *)
Theorem C43_encode_header : forall p h d n f, 5 < p -> header_typed h -> dynamic_ok h d n f -> 0 <= d -> 0 <= n -> 0 <= f -> (length (h_extra h) <= 32)%nat ->
  exists r bits idx, header_rlp h = Some r /\ encode_headers [h] = Ok ([bits], [idx]) /\ length bits = (5 * 1088)%nat /\ 0 <= idx < 5 /\
    keccak256_bits p 5 idx bits = Some (zbits (keccak256 r)).
Proof.
  intros p h d n f Hp T D Pd Pn Pf X. destruct (header_rlp_fits h d n f T D Pd Pn Pf X) as (r & Er & Lr).
  destruct (block_bits_ok r) as [B BL].
  exists r, (zbits (bytes_bits (pad101_bytes r)) ++ repeat 0 (5 * 1088 - 1088 * (length r / 136 + 1))), (Z.of_nat (length r / 136)).
  assert (Q : (length r / 136 <= 4)%nat) by (assert (length r / 136 < 5)%nat; [apply Nat.div_lt_upper_bound; lia | lia]).
  set (k := (length r / 136)%nat) in *.
  assert (L : length (zbits (bytes_bits (pad101_bytes r)) ++ repeat 0 (5 * 1088 - 1088 * (k + 1))) = (5 * 1088)%nat).
  { rewrite app_length, BL, repeat_length. lia. }
  split; [exact Er |]. split; [| split; [exact L |]]; [| split; [lia |]].
  - cbn [encode_headers]. unfold encode_header.
    assert (C : check_dynamic_field_len h = Ok true) by (apply C43_field_check; [exact T | eauto]).
    rewrite C, Er, B. cbv zeta. rewrite BL. fold k.
    replace (Z.to_nat (5 * 1088 - Z.of_nat (1088 * (k + 1)))) with (5 * 1088 - 1088 * (k + 1))%nat by lia.
    replace (Z.quot (Z.of_nat (1088 * (k + 1))) 1088 - 1) with (Z.of_nat k); [reflexivity |].
    rewrite Nat2Z.inj_mul, Z.mul_comm, Z.quot_mul by lia. lia.
  - rewrite zeros_bits. apply (C18_keccak256_bits_of_message p r); [lia | lia | lia | exact B | | ].
    + rewrite <- zeros_bits. exact L.
    + rewrite C16_round_of_padded_bytes. reflexivity.
Qed.

(** A list of headers is encoded header by header; one that is refused makes the whole call fail. *)
Theorem C43_encode_list : forall hs, 
  (forall es is, encode_headers hs = Ok (es, is) -> length es = length hs /\ length is = length hs /\
     forall k h, nth_error hs k = Some h -> exists e i, nth_error es k = Some e /\ nth_error is k = Some i /\ encode_headers [h] = Ok ([e], [i])) /\
  ((forall h, In h hs -> exists e i, encode_headers [h] = Ok ([e], [i])) -> exists es is, encode_headers hs = Ok (es, is)).
Proof.
  assert (S1 : forall h e i, encode_headers [h] = Ok ([e], [i]) <-> encode_header h = Ok (e, i)).
  { intros h e i. cbn [encode_headers]. destruct (encode_header h) as [[e' i'] | |]; split; intros E; try discriminate E; congruence. }
  induction hs as [| h hs [IH1 IH2]].
  - split; [| intros _; do 2 eexists; reflexivity]. intros es is E. assert (es = []) by (cbn in E; congruence). assert (is = []) by (cbn in E; congruence). subst.
    split; [reflexivity | split; [reflexivity |]]. intros [| k] h E'; discriminate E'.
  - split.
    + intros es is E. cbn [encode_headers] in E. destruct (encode_header h) as [[e i] | |] eqn:H; try discriminate E.
      destruct (encode_headers hs) as [[es' is'] | |] eqn:H'; try discriminate E.
      assert (es = e :: es') by congruence. assert (is = i :: is') by congruence. subst.
      destruct (IH1 _ _ eq_refl) as (L1 & L2 & N). split; [cbn; congruence |]. split; [cbn; congruence |].
      intros [| k] h' E'; cbn [nth_error] in *; [| apply N; exact E'].
      assert (h' = h) by congruence. subst. exists e, i. split; [reflexivity |]. split; [reflexivity |]. apply S1. exact H.
    + intros A. destruct IH2 as (es & is & E); [intros h' I; apply A; right; exact I |].
      destruct (A h (or_introl eq_refl)) as (e & i & Eh). apply S1 in Eh. cbn [encode_headers]. rewrite Eh, E. eauto.
Qed.
(** A too wide dynamic field or a negative number is an error (for a header without nil numbers). *)
Theorem C43_rejects : forall h d n f, header_typed h -> h_difficulty h = Some d -> h_number h = Some n -> h_base_fee h = Some f ->
  (2 ^ 56 <= d \/ 2 ^ 64 <= n \/ 2 ^ 56 <= f \/ d < 0 \/ n < 0 \/ f < 0 \/ 2 ^ 32 <= h_gas_limit h \/ 2 ^ 32 <= h_gas_used h \/ 2 ^ 32 <= h_time h) ->
  forall pre post, (forall x, In x pre -> encode_headers [x] <> Panic) -> encode_headers (pre ++ h :: post) = Err.
Proof.
  intros h d n f T Ed En Ef W pre post NP.
  assert (E : encode_header h = Err).
  { destruct (C43_field_check h T) as (C1 & C2 & C3). unfold encode_header.
    destruct (check_dynamic_field_len h) as [[|] | |] eqn:C; [| reflexivity | reflexivity |].
    - destruct C1 as [C1 _]. destruct (C1 eq_refl) as (d' & n' & f' & D1 & D2 & D3 & R1 & R2 & R3 & R4 & R5 & R6).
      assert (d' = d) by congruence. assert (n' = n) by congruence. assert (f' = f) by congruence. subst d' n' f'.
      unfold header_rlp, header_tree. rewrite Ed, En, Ef. cbn [big_item].
      destruct (Z.ltb_spec d 0); [reflexivity |]. destruct (Z.ltb_spec n 0); [reflexivity |]. destruct (Z.ltb_spec f 0); [reflexivity |]. exfalso. lia.
    - destruct C2 as [C2 _]. destruct (C2 eq_refl) as [E | [E | E]]; congruence. }
  induction pre as [| x pre IH]; cbn [app encode_headers]; [rewrite E; reflexivity |].
  assert (NPx : encode_headers [x] <> Panic) by (apply NP; left; reflexivity). cbn [encode_headers] in NPx.
  destruct (encode_header x) as [[e i] | |]; [| reflexivity | congruence].
  rewrite IH; [reflexivity |]. intros y Hy. apply NP. right. exact Hy.
Qed.
(** Headers without a base fee (before London) are not refused but crash the caller. *)
Theorem C43_nil_base_fee_panics : forall h d n rest, h_difficulty h = Some d -> h_number h = Some n -> h_base_fee h = None -> encode_headers (h :: rest) = Panic.
Proof. intros h d n rest Ed En Ef. cbn [encode_headers]. unfold encode_header, check_dynamic_field_len, big_len. rewrite Ed, En, Ef. reflexivity. Qed.

(** The length of the extra data is not checked: a long one gives more than 5 * 1088 bits, without an error. *)
Definition long_extra_header : header := let g := gen_header (repeat 7 32) 1 in
  {| h_parent := h_parent g; h_uncle := h_uncle g; h_coinbase := h_coinbase g; h_root := h_root g; h_tx := h_tx g; h_receipt := h_receipt g;
     h_bloom := h_bloom g; h_difficulty := h_difficulty g; h_number := h_number g; h_gas_limit := h_gas_limit g; h_gas_used := h_gas_used g;
     h_time := h_time g; h_extra := repeat 9 200; h_mix := h_mix g; h_nonce := h_nonce g; h_base_fee := h_base_fee g; h_withdrawals := h_withdrawals g;
     h_blob_used := None; h_excess_blob := None; h_beacon_root := None |}.
Theorem C43_long_extra_refuted : exists bits, encode_headers [long_extra_header] = Ok ([bits], [5]) /\ length bits = (6 * 1088)%nat.
Proof.
  eexists. split; [vm_compute; reflexivity |]. vm_compute. reflexivity.
Qed.

(** ** Injectivity: two admitted headers with the same encoding are equal *)
(** optional fields are set without gaps (as in every fork) *)
Definition no_gap (h : header) : Prop :=
  (h_withdrawals h = None -> h_blob_used h = None) /\ (h_blob_used h = None -> h_excess_blob h = None) /\ (h_excess_blob h = None -> h_beacon_root h = None).
Definition admitted (h : header) : Prop := header_typed h /\ no_gap h /\ (length (h_extra h) <= 32)%nat /\ exists d n f, dynamic_ok h d n f /\ 0 <= d /\ 0 <= n /\ 0 <= f.
Lemma wf_str : forall s, Forall is_byte s -> (length s <= 256)%nat -> wf (RStr s).
Proof. intros s F L. cbn [wf]. split; [exact F |]. unfold small. assert (256 < 2 ^ 64) by reflexivity. lia. Qed.
Lemma wf_num : forall n k, 0 <= n < 256 ^ Z.of_nat k -> (k <= 256)%nat -> wf (RStr (be_bytes n)).
Proof. intros n k Hn Hk. apply wf_str; [apply be_bytes_bytes; lia |]. pose proof (be_bytes_length n k Hn). lia. Qed.
Lemma wf_opt : forall l, Forall (fun o => match o with None => True | Some t => wf t end) l -> Forall wf (opt_items l).
Proof.
  induction l as [| [t |] l IH]; intros F; [apply Forall_nil | |]; apply Forall_cons_iff in F as [Ft F]; cbn [opt_items].
  - apply Forall_cons; auto.
  - specialize (IH F). destruct (opt_items l); [apply Forall_nil |]. apply Forall_cons; [apply wf_str; [apply Forall_nil | cbn; lia] | exact IH].
Qed.
Lemma header_tree_wf : forall h d n f, header_typed h -> (length (h_extra h) <= 32)%nat -> dynamic_ok h d n f -> 0 <= d -> 0 <= n -> 0 <= f ->
     forall t r, header_tree h = Some t -> header_rlp h = Some r -> (length r <= 647)%nat -> wf t.
Proof.
  intros h d n f T X D P Q R t r Et Er L. rewrite (header_tree_ok h d n f D P Q R) in Et.
    assert (Et' : t = RList ([RStr (h_parent h); RStr (h_uncle h); RStr (h_coinbase h); RStr (h_root h); RStr (h_tx h); RStr (h_receipt h);
                RStr (h_bloom h); RStr (be_bytes d); RStr (be_bytes n); RStr (be_bytes (h_gas_limit h)); RStr (be_bytes (h_gas_used h));
                RStr (be_bytes (h_time h)); RStr (h_extra h); RStr (h_mix h); RStr (h_nonce h)] ++
               opt_items [Some (RStr (be_bytes f)); option_map RStr (h_withdrawals h); option_map (fun n => RStr (be_bytes n)) (h_blob_used h);
                          option_map (fun n => RStr (be_bytes n)) (h_excess_blob h); option_map RStr (h_beacon_root h)])) by congruence.
    unfold header_rlp in Er. rewrite (header_tree_ok h d n f D P Q R) in Er. rewrite <- Et' in Er. cbn [option_map] in Er. assert (Er' : r = rlp t) by congruence. clear Er Et.
    subst r. rewrite Et' in *. clear Et'. apply wf_list. 
    destruct T as (T1 & T2 & T3 & T4 & T5 & T6 & T7 & T8 & T9 & T10 & T11 & T12 & T13 & T14 & T15 & T16 & T17).
    destruct D as (_ & _ & _ & D1 & D2 & D3 & D4 & D5 & D6).
    assert (B : forall k s, bytes_of_len k s -> (k <= 256)%nat -> wf (RStr s)) by (intros k s [Lk Fk] Hk; apply wf_str; [exact Fk | lia]).
    split.
    - apply Forall_app. split.
      + repeat (apply Forall_cons; [first [solve [eapply B; eauto; lia] | solve [apply wf_str; [exact T8 | lia]]
          | solve [apply (wf_num _ 8); [change (256 ^ Z.of_nat 8) with (2 ^ 64); lia | lia]]] |]). apply Forall_nil.
      + apply wf_opt. apply Forall_cons; [apply (wf_num _ 8); [change (256 ^ Z.of_nat 8) with (2 ^ 64); lia | lia] |].
        apply Forall_cons; [destruct (h_withdrawals h); cbn [option_map]; [eapply B; eauto; lia | exact I] |].
        apply Forall_cons; [destruct (h_blob_used h); cbn [option_map]; [apply (wf_num _ 8); [exact T15 | lia] | exact I] |].
        apply Forall_cons; [destruct (h_excess_blob h); cbn [option_map]; [apply (wf_num _ 8); [exact T16 | lia] | exact I] |].
        apply Forall_cons; [destruct (h_beacon_root h); cbn [option_map]; [eapply B; eauto; lia | exact I] |]. apply Forall_nil.
    - unfold small. remember (_ ++ opt_items _) as items. change (rlp (RList items)) with (rlp_head_bytes 192 (length (concat (map rlp items))) ++ concat (map rlp items)) in L.
      rewrite app_length in L. assert (647 < 2 ^ 64) by reflexivity. lia.
Qed.
Lemma head_bytes_bytes : forall base n, (base = 0x80 \/ base = 0xc0) -> small n -> Forall is_byte (rlp_head_bytes base n).
Proof.
  intros base n Hb Hn. unfold rlp_head_bytes. destruct (Nat.ltb_spec n 56).
  - apply Forall_cons; [unfold is_byte; lia | apply Forall_nil].
  - pose proof (len_bytes n Hn). apply Forall_cons; [unfold is_byte; lia | apply be_bytes_bytes; lia].
Qed.
Lemma rlp_bytes : forall t, wf t -> Forall is_byte (rlp t).
Proof.
  induction t as [s | l IH] using rtree_ind'; intros W.
  - cbn [wf] in W. destruct W as [F S]. cbn [rlp]. destruct (str_shape s F S) as [(b & -> & Hb & E) | (E & _)]; rewrite E.
    + apply Forall_cons; [unfold is_byte; lia | apply Forall_nil].
    + apply Forall_app. split; [apply head_bytes_bytes; auto | exact F].
  - apply wf_list in W as [F S]. cbn [rlp]. cbv zeta. apply Forall_app. split; [apply head_bytes_bytes; auto |].
    clear S. induction l as [| t l IHl]; [apply Forall_nil |]. apply Forall_cons_iff in IH as [I1 I2]. apply Forall_cons_iff in F as [F1 F2].
    cbn [map concat]. apply Forall_app. auto.
Qed.
Lemma header_rlp_inj : forall h1 h2, admitted h1 -> admitted h2 -> header_rlp h1 = header_rlp h2 -> h1 = h2.
Proof.
  intros h1 h2 (T1 & G1 & X1 & d1 & n1 & f1 & D1 & P1 & Q1 & R1) (T2 & G2 & X2 & d2 & n2 & f2 & D2 & P2 & Q2 & R2) E.
  destruct (header_rlp_fits h1 d1 n1 f1 T1 D1 P1 Q1 R1 X1) as (r1 & Er1 & L1).
  destruct (header_rlp_fits h2 d2 n2 f2 T2 D2 P2 Q2 R2 X2) as (r2 & Er2 & L2).
  pose proof header_tree_wf as W.
  destruct (header_tree h1) as [t1 |] eqn:Et1; [| unfold header_rlp in Er1; rewrite Et1 in Er1; discriminate Er1].
  destruct (header_tree h2) as [t2 |] eqn:Et2; [| unfold header_rlp in Er2; rewrite Et2 in Er2; discriminate Er2].
  pose proof (W h1 d1 n1 f1 T1 X1 D1 P1 Q1 R1 t1 r1 Et1 Er1 L1) as W1. pose proof (W h2 d2 n2 f2 T2 X2 D2 P2 Q2 R2 t2 r2 Et2 Er2 L2) as W2. clear W.
  assert (Et : t1 = t2).
  { unfold header_rlp in E. rewrite Et1, Et2 in E. cbn [option_map] in E. assert (E' : rlp t1 = rlp t2) by congruence.
    destruct (rlp_prefix_free t1 t2 [] [] W1 W2) as [Q _]; [rewrite !app_nil_r; exact E' | exact Q]. }
  rewrite (header_tree_ok h1 d1 n1 f1 D1 P1 Q1 R1) in Et1. rewrite (header_tree_ok h2 d2 n2 f2 D2 P2 Q2 R2) in Et2.
  assert (S : forall x y, RStr x = RStr y -> x = y) by (intros; congruence).
  assert (EQ : RList ([RStr (h_parent h1); RStr (h_uncle h1); RStr (h_coinbase h1); RStr (h_root h1); RStr (h_tx h1); RStr (h_receipt h1);
                RStr (h_bloom h1); RStr (be_bytes d1); RStr (be_bytes n1); RStr (be_bytes (h_gas_limit h1)); RStr (be_bytes (h_gas_used h1));
                RStr (be_bytes (h_time h1)); RStr (h_extra h1); RStr (h_mix h1); RStr (h_nonce h1)] ++
               opt_items [Some (RStr (be_bytes f1)); option_map RStr (h_withdrawals h1); option_map (fun n => RStr (be_bytes n)) (h_blob_used h1);
                          option_map (fun n => RStr (be_bytes n)) (h_excess_blob h1); option_map RStr (h_beacon_root h1)])
             = RList ([RStr (h_parent h2); RStr (h_uncle h2); RStr (h_coinbase h2); RStr (h_root h2); RStr (h_tx h2); RStr (h_receipt h2);
                RStr (h_bloom h2); RStr (be_bytes d2); RStr (be_bytes n2); RStr (be_bytes (h_gas_limit h2)); RStr (be_bytes (h_gas_used h2));
                RStr (be_bytes (h_time h2)); RStr (h_extra h2); RStr (h_mix h2); RStr (h_nonce h2)] ++
               opt_items [Some (RStr (be_bytes f2)); option_map RStr (h_withdrawals h2); option_map (fun n => RStr (be_bytes n)) (h_blob_used h2);
                          option_map (fun n => RStr (be_bytes n)) (h_excess_blob h2); option_map RStr (h_beacon_root h2)])) by congruence.
  clear Et1 Et2 Er1 Er2 W1 W2 Et E L1 L2.
  apply (f_equal (fun t => match t with RList l => l | RStr _ => [] end)) in EQ. cbv beta iota in EQ.
  apply app_len_inj in EQ; [| reflexivity]. destruct EQ as [EQ EO].
  destruct T1 as (_ & _ & _ & _ & _ & _ & _ & _ & _ & _ & A1 & A2 & A3 & _ & A4 & A5 & _).
  destruct T2 as (_ & _ & _ & _ & _ & _ & _ & _ & _ & _ & B1 & B2 & B3 & _ & B4 & B5 & _).
  destruct D1 as (U1 & U2 & U3 & _). destruct D2 as (V1 & V2 & V3 & _). destruct G1 as (g1 & g2 & g3). destruct G2 as (k1 & k2 & k3).
  destruct h1 as [a1 a2 a3 a4 a5 a6 a7 a8 a9 a10 a11 a12 a13 a14 a15 a16 a17 a18 a19 a20].
  destruct h2 as [b1 b2 b3 b4 b5 b6 b7 b8 b9 b10 b11 b12 b13 b14 b15 b16 b17 b18 b19 b20].
  cbn [h_parent h_uncle h_coinbase h_root h_tx h_receipt h_bloom h_difficulty h_number h_gas_limit h_gas_used h_time h_extra h_mix h_nonce h_base_fee h_withdrawals h_blob_used h_excess_blob h_beacon_root] in *.
  subst a8 a9 a16 b8 b9 b16.
  assert (d1 = d2) by (apply be_bytes_inj; auto; congruence). assert (n1 = n2) by (apply be_bytes_inj; auto; congruence).
  assert (a10 = b10) by (apply be_bytes_inj; [lia | lia | congruence]). assert (a11 = b11) by (apply be_bytes_inj; [lia | lia | congruence]).
  assert (a12 = b12) by (apply be_bytes_inj; [lia | lia | congruence]).
  assert (O : f1 = f2 /\ a17 = b17 /\ a18 = b18 /\ a19 = b19 /\ a20 = b20).
  { clear EQ. assert (BI : forall x y, 0 <= x < 2 ^ 64 -> 0 <= y < 2 ^ 64 -> be_bytes x = be_bytes y -> x = y) by (intros; apply be_bytes_inj; auto; lia).
    assert (f1 = f2) by (apply be_bytes_inj; auto; cbn [opt_items] in EO; congruence). split; [exact H4 |].
    assert (N1 : a17 = None -> a18 = None /\ a19 = None /\ a20 = None) by tauto. assert (N2 : a18 = None -> a19 = None /\ a20 = None) by tauto.
    assert (M1 : b17 = None -> b18 = None /\ b19 = None /\ b20 = None) by tauto. assert (M2 : b18 = None -> b19 = None /\ b20 = None) by tauto.
    clear g1 g2 k1 k2.
    destruct a17 as [a17 |]; [| destruct (N1 eq_refl) as (-> & -> & ->)]; (destruct b17 as [b17 |]; [| destruct (M1 eq_refl) as (-> & -> & ->)]);
    cbn [option_map opt_items opt_ok] in *; [| exfalso; congruence | exfalso | auto].
    2:{ destruct b18, b19, b20; cbn [option_map opt_items] in EO; congruence. }
    destruct a18 as [a18 |]; [| destruct (N2 eq_refl) as (-> & ->)]; (destruct b18 as [b18 |]; [| destruct (M2 eq_refl) as (-> & ->)]);
    cbn [option_map opt_items opt_ok] in *; [| exfalso; congruence | exfalso; congruence | assert (a17 = b17) by congruence; subst; auto].
    destruct a19 as [a19 |]; [| pose proof (g3 eq_refl); subst a20]; (destruct b19 as [b19 |]; [| pose proof (k3 eq_refl); subst b20]);
    cbn [option_map opt_items opt_ok] in *; [| exfalso; congruence | exfalso; congruence |
      assert (a17 = b17) by congruence; assert (a18 = b18) by (apply BI; auto; congruence); subst; auto].
    destruct a20 as [a20 |]; destruct b20 as [b20 |]; cbn [option_map opt_items opt_ok] in *; [| exfalso; congruence | exfalso; congruence |].
    - assert (a17 = b17) by congruence; assert (a18 = b18) by (apply BI; auto; congruence); assert (a19 = b19) by (apply BI; auto; congruence).
      assert (a20 = b20) by congruence. subst; auto.
    - assert (a17 = b17) by congruence; assert (a18 = b18) by (apply BI; auto; congruence); assert (a19 = b19) by (apply BI; auto; congruence). subst; auto. }
  destruct O as (-> & -> & -> & -> & ->). subst d2 n2 b10 b11 b12.
  assert (NE : forall k, nth k [RStr a1; RStr a2; RStr a3; RStr a4; RStr a5; RStr a6; RStr a7; RStr (be_bytes d1); RStr (be_bytes n1); RStr (be_bytes a10);
       RStr (be_bytes a11); RStr (be_bytes a12); RStr a13; RStr a14; RStr a15] (RStr []) = nth k [RStr b1; RStr b2; RStr b3; RStr b4; RStr b5; RStr b6; RStr b7; RStr (be_bytes d1); RStr (be_bytes n1); RStr (be_bytes a10);
       RStr (be_bytes a11); RStr (be_bytes a12); RStr b13; RStr b14; RStr b15] (RStr [])) by (intros k; rewrite EQ; reflexivity).
  clear EQ EO.
  rewrite (S _ _ (NE 0%nat)), (S _ _ (NE 1%nat)), (S _ _ (NE 2%nat)), (S _ _ (NE 3%nat)), (S _ _ (NE 4%nat)), (S _ _ (NE 5%nat)), (S _ _ (NE 6%nat)),
    (S _ _ (NE 12%nat)), (S _ _ (NE 13%nat)), (S _ _ (NE 14%nat)). reflexivity.
Qed.
Theorem C43_encode_injective : forall h1 h2 e i, admitted h1 -> admitted h2 -> encode_headers [h1] = Ok ([e], [i]) -> encode_headers [h2] = Ok ([e], [i]) -> h1 = h2.
Proof.
  intros h1 h2 e i A1 A2 E1 E2. apply header_rlp_inj; auto.
  assert (G : forall h, admitted h -> encode_headers [h] = Ok ([e], [i]) -> exists r, header_rlp h = Some r /\ Forall is_byte r /\
             i = Z.of_nat (length r / 136) /\ firstn (1088 * (Z.to_nat i + 1)) e = zbits (bytes_bits (pad101_bytes r))).
  { intros h (T & _ & X & d & n & f & D & P & Q & R) E. destruct (header_rlp_fits h d n f T D P Q R X) as (r & Er & Lr). exists r. split; [exact Er |].
    split.
    { destruct (header_tree h) as [t |] eqn:Et; [| unfold header_rlp in Er; rewrite Et in Er; discriminate Er].
      pose proof (header_tree_wf h d n f T X D P Q R t r Et Er Lr) as Wt. unfold header_rlp in Er. rewrite Et in Er. cbn [option_map] in Er.
      assert (r = rlp t) by congruence. subst r. apply rlp_bytes. exact Wt. }
    { cbn [encode_headers] in E. unfold encode_header in E.
        assert (C : check_dynamic_field_len h = Ok true) by (apply C43_field_check; [exact T | eauto]).
        destruct (block_bits_ok r) as [B BL]. rewrite C, Er, B in E. cbv zeta in E. rewrite BL in E.
        assert (Ei : i = Z.quot (Z.of_nat (1088 * (length r / 136 + 1))) 1088 - 1) by congruence.
        rewrite Nat2Z.inj_mul, Z.mul_comm, Z.quot_mul in Ei by lia. split; [lia |].
        assert (Ee : e = zbits (bytes_bits (pad101_bytes r)) ++ repeat 0 (Z.to_nat (5 * 1088 - Z.of_nat (1088 * (length r / 136 + 1))))) by congruence.
        rewrite Ee. rewrite firstn_app. replace (1088 * (Z.to_nat i + 1))%nat with (length (zbits (bytes_bits (pad101_bytes r)))) by (rewrite BL; lia).
        rewrite firstn_all, Nat.sub_diag, firstn_O, app_nil_r. reflexivity. }
  }
  destruct (G h1 A1 E1) as (r1 & R1 & F1 & _ & B1). destruct (G h2 A2 E2) as (r2 & R2 & F2 & _ & B2). rewrite R1, R2. f_equal.
  rewrite B1 in B2. apply zbits_inj in B2. rewrite !pad101_bytes_bits in B2. apply pad101_inj in B2. apply bytes_bits_inj; auto.
Qed.

(** ** Generated header chains *)
Section G.
Variable hash : header -> list Z.
Definition chain_step (start : Z) (hs : list header) (i : nat) : list header :=
  hs ++ [gen_header (hash (nth (i - 1) hs (gen_header [] 0))) (Z.of_nat i + start)].
Lemma gen_chain : forall k start prev, let hs := fold_left (chain_step start) (seq 1 k) [gen_header prev start] in
  length hs = S k /\ nth_error hs 0 = Some (gen_header prev start) /\
  forall i h, nth_error hs i = Some h -> (0 < i)%nat -> exists q, nth_error hs (i - 1) = Some q /\ h = gen_header (hash q) (start + Z.of_nat i).
Proof.
  induction k as [| k IH]; intros start prev.
  - cbn [seq fold_left]. cbv zeta. split; [reflexivity | split; [reflexivity |]]. intros i h E Hi. destruct i as [| [| i]]; [lia | discriminate E | discriminate E].
  - cbv zeta. rewrite seq_S, fold_left_app. cbn [fold_left]. destruct (IH start prev) as (L & H0 & N). set (hs := fold_left (chain_step start) (seq 1 k) [gen_header prev start]) in *. clearbody hs.
    unfold chain_step. change (1 + k)%nat with (S k). split; [rewrite app_length, L; cbn; lia |].
    split; [rewrite nth_error_app1 by lia; exact H0 |].
    intros i h E Hi. destruct (Nat.lt_ge_cases i (length hs)) as [Li | Li].
    + rewrite nth_error_app1 in E by lia. destruct (N i h E Hi) as (q & Eq & ->). exists q. split; [| reflexivity]. rewrite nth_error_app1 by lia. exact Eq.
    + rewrite nth_error_app2 in E by lia. assert (i = S k) by (assert (i - length hs < 1)%nat; [apply nth_error_Some_lt in E; exact E | lia]). subst i.
      replace (S k - length hs)%nat with 0%nat in E by lia. cbn [nth_error] in E.
      exists (nth (S k - 1) hs (gen_header [] 0)). split.
      * rewrite nth_error_app1 by lia. apply nth_error_nth'. lia.
      * rewrite Z.add_comm. congruence.
Qed.
(** GenHeaders: max(1, count) headers with consecutive numbers, the first one on top of prevHash, each other one on its predecessor. *)
Theorem C43_gen_headers : forall count start prev, let hs := gen_headers hash count start prev in
  Z.of_nat (length hs) = Z.max 1 count /\
  (exists h0, nth_error hs 0 = Some h0 /\ h_parent h0 = prev /\ h_number h0 = Some start) /\
  (forall i h, nth_error hs i = Some h -> h_number h = Some (start + Z.of_nat i)) /\
  (forall i q h, nth_error hs i = Some q -> nth_error hs (S i) = Some h -> h_parent h = hash q).
Proof.
  intros count start prev hs. destruct (gen_chain (Z.to_nat (count - 1)) start prev) as (L & H0 & N). fold (gen_headers hash count start prev) in L, H0, N.
  unfold gen_headers in hs. fold (chain_step start) in hs. 
  change (fold_left _ _ _) with hs in L, H0, N. clearbody hs.
  split; [lia |]. split; [eexists; split; [exact H0 | split; reflexivity] |]. split.
  - intros [| i] h E.
    + assert (h = gen_header prev start) by congruence. subst. cbn [h_number gen_header]. f_equal. lia.
    + destruct (N (S i) h E ltac:(lia)) as (q & _ & ->). reflexivity.
  - intros i q h Eq E. destruct (N (S i) h E ltac:(lia)) as (q' & Eq' & ->). replace (S i - 1)%nat with i in Eq' by lia. assert (q' = q) by congruence. subst. reflexivity.
Qed.
Lemma gen_header_admitted : forall parent n, bytes_of_len 32 parent -> 0 <= n < 2 ^ 64 -> admitted (gen_header parent n).
Proof.
  intros parent n Hp Hn. assert (B : forall v k, 0 <= v < 256 -> bytes_of_len k (repeat v k)).
  { intros v k Hv. split; [apply repeat_length |]. apply Forall_forall. intros x Hx. apply repeat_spec in Hx. subst. exact Hv. }
  assert (N7 : be_value [255; 255; 255; 255; 255; 255; 255] = 2 ^ 56 - 1) by reflexivity.
  split; [| split; [| split]].
  - unfold header_typed, gen_header. cbn [h_parent h_uncle h_coinbase h_root h_tx h_receipt h_bloom h_difficulty h_number h_gas_limit h_gas_used h_time h_extra h_mix h_nonce h_base_fee h_withdrawals h_blob_used h_excess_blob h_beacon_root].
    split; [exact Hp |]. split; [apply B; lia |]. split; [apply B; lia |]. split; [apply B; lia |]. split; [apply B; lia |]. split; [apply B; lia |].
    split; [apply B; lia |]. split; [apply B; lia |]. split; [apply B; lia |]. split; [apply B; lia |]. split; [lia |]. split; [lia |]. split; [lia |].
    split; [apply B; lia |]. split; [exact I |]. split; exact I.
  - split; [discriminate | split; reflexivity].
  - cbn [h_extra gen_header]. rewrite repeat_length. lia.
  - exists (2 ^ 56 - 1), n, (2 ^ 56 - 1). unfold dynamic_ok. cbn [h_difficulty h_number h_base_fee h_gas_limit h_gas_used h_time gen_header]. rewrite N7.
    repeat split; lia.
Qed.
(** Every generated chain (32-byte hashes, block numbers below 2^63) is accepted by EncodeHeaders. *)
Theorem C43_generated_headers_encode : forall count start prev, (forall h, bytes_of_len 32 (hash h)) -> bytes_of_len 32 prev -> 0 <= start -> start + Z.max 1 count <= 2 ^ 63 ->
  (forall h, In h (gen_headers hash count start prev) -> admitted h) /\
  exists es is, encode_headers (gen_headers hash count start prev) = Ok (es, is).
Proof.
  intros count start prev Hh Hp Hs Hc. destruct (gen_chain (Z.to_nat (count - 1)) start prev) as (L & H0 & N).
  fold (gen_headers hash count start prev) in L, H0, N. unfold gen_headers. fold (chain_step start).
  set (hs := fold_left (chain_step start) (seq 1 (Z.to_nat (count - 1))) [gen_header prev start]) in *. clearbody hs.
  assert (A : forall h, In h hs -> admitted h).
  { intros h Hin. apply In_nth_error in Hin as (i & E). assert (Li : (i < length hs)%nat) by (apply nth_error_Some_lt in E; exact E).
    destruct i as [| i].
    - assert (h = gen_header prev start) by congruence. subst. apply gen_header_admitted; [exact Hp | lia].
    - destruct (N (S i) h E ltac:(lia)) as (q & _ & ->). apply gen_header_admitted; [apply Hh | lia]. }
  split; [exact A |]. apply C43_encode_list. intros h Hin. destruct (A h Hin) as (T & _ & X & d & n & f & D & P & Q & R).
  destruct (C43_encode_header 7 h d n f ltac:(lia) T D P Q R X) as (r & bits & idx & _ & E & _). eauto.
Qed.
End G.
(** Non-vacuity: a generated chain of three headers over a (toy) hash. *)
Example C43_nonvacuous : exists es is, encode_headers (gen_headers (fun h => repeat (Z.of_nat (length (h_parent h))) 32) 3 100 (repeat 5 32)) = Ok (es, is) /\
  map (@length Z) es = repeat (5 * 1088)%nat 3 /\ is = [4; 4; 4].
Proof. eexists. eexists. split; [vm_compute; reflexivity |]. split; vm_compute; reflexivity. Qed.

(** ** NewHash: the two 128-bit halves of 32 big-endian bytes *)
Theorem C43_new_hash : forall bs, Forall is_byte bs ->
  (length bs = 32%nat -> exists hi lo, new_hash bs = Some (hi, lo) /\ 0 <= hi < 2 ^ 128 /\ 0 <= lo < 2 ^ 128 /\ hi = be_value (firstn 16 bs) /\ lo = be_value (skipn 16 bs)) /\
  (length bs <> 32%nat -> new_hash bs = None).
Proof.
  intros bs F. unfold new_hash. split; intros L.
  - rewrite L. cbn [Nat.eqb]. do 2 eexists. split; [reflexivity |].
    pose proof (be_value_app (firstn 16 bs) (skipn 16 bs)) as E. rewrite firstn_skipn in E. rewrite skipn_length, L in E. change (256 ^ Z.of_nat (32 - 16)) with (2 ^ 128) in E.
    pose proof (be_value_range (firstn 16 bs) (Forall_firstn _ _ _ _ F)) as R1. pose proof (be_value_range (skipn 16 bs) (Forall_skipn _ _ _ _ F)) as R2.
    rewrite firstn_length, L in R1. rewrite skipn_length, L in R2. change (256 ^ Z.of_nat (Nat.min 16 32)) with (2 ^ 128) in R1. change (256 ^ Z.of_nat (32 - 16)) with (2 ^ 128) in R2.
    rewrite E. set (a := be_value (firstn 16 bs)) in *. set (b := be_value (skipn 16 bs)) in *. clearbody a b.
    assert (P : 0 < 2 ^ 128) by reflexivity. set (M := 2 ^ 128) in *. clearbody M.
    assert (Q : Z.quot (a * M + b) M = a). { rewrite Z.quot_div_nonneg by nia. rewrite Z.add_comm, Z.div_add by lia. rewrite Z.div_small; lia. }
    assert (R : Z.rem (a * M + b) M = b). { rewrite Z.rem_mod_nonneg by nia. rewrite Z.add_comm, Z.mod_add by lia. apply Z.mod_small. lia. }
    rewrite Q, R. lia.
  - destruct (Nat.eqb_spec (length bs) 32); [congruence | reflexivity].
Qed.
Theorem C43_new_hash_injective : forall a b h, Forall is_byte a -> Forall is_byte b -> new_hash a = Some h -> new_hash b = Some h -> a = b.
Proof.
  intros a b [hi lo] Fa Fb Ea Eb.
  destruct (C43_new_hash a Fa) as [A1 A2]. destruct (C43_new_hash b Fb) as [B1 B2].
  destruct (Nat.eq_dec (length a) 32) as [La |]; [| rewrite A2 in Ea by auto; discriminate Ea].
  destruct (Nat.eq_dec (length b) 32) as [Lb |]; [| rewrite B2 in Eb by auto; discriminate Eb].
  destruct (A1 La) as (h1 & l1 & E1 & _ & _ & Eh1 & El1). destruct (B1 Lb) as (h2 & l2 & E2 & _ & _ & Eh2 & El2).
  rewrite <- (firstn_skipn 16 a), <- (firstn_skipn 16 b). f_equal; apply be_value_inj; try apply Forall_firstn; try apply Forall_skipn; auto.
  - rewrite !firstn_length, La, Lb. reflexivity.
  - congruence.
  - rewrite !skipn_length, La, Lb. reflexivity.
  - congruence.
Qed.

(** ** MimcHashBytes32: two different 32-byte inputs with the same hash collide in MiMC *)
Theorem C43_mimc_bytes32 : forall r mimc a b h, 2 ^ 128 <= r < 2 ^ 256 -> bytes_of_len 32 a -> bytes_of_len 32 b ->
  mimc_hash_bytes32 r mimc a = Some h -> mimc_hash_bytes32 r mimc b = Some h ->
  a = b \/ exists x y, x <> y /\ mimc x = mimc y.
Proof.
  intros r mimc a b h Hr [La Fa] [Lb Fb] Ea Eb. unfold mimc_hash_bytes32 in Ea, Eb. rewrite La in Ea. rewrite Lb in Eb. cbn [Nat.ltb Nat.leb] in Ea, Eb.
  set (xa := [fr_bytes r (pad_left 16 (firstn 16 a)); fr_bytes r (pad_left 16 (skipn 16 a))]) in *.
  set (xb := [fr_bytes r (pad_left 16 (firstn 16 b)); fr_bytes r (pad_left 16 (skipn 16 b))]) in *.
  assert (Em : mimc xa = mimc xb) by congruence.
  assert (FB : forall l, length l = 16%nat -> Forall is_byte l -> be_value (fr_bytes r (pad_left 16 l)) = be_value l).
  { intros l L F. unfold fr_bytes, pad_left. assert (Z0 : forall m, be_value (repeat 0 m) = 0).
    { induction m as [| m IH]; [reflexivity |]. cbn [repeat]. unfold be_value in *. cbn [fold_left]. exact IH. }
    cbv zeta. rewrite !be_value_app, !Z0, !Z.mul_0_l, !Z.add_0_l. pose proof (be_value_range l F) as R. rewrite L in R. change (256 ^ Z.of_nat 16) with (2 ^ 128) in R.
    rewrite Z.mod_small by lia. apply be_bytes_value. lia. }
  destruct (list_eq_dec (list_eq_dec Z.eq_dec) xa xb) as [E | N]; [left | right; exists xa, xb; auto].
  assert (E1 : fr_bytes r (pad_left 16 (firstn 16 a)) = fr_bytes r (pad_left 16 (firstn 16 b))) by (apply (f_equal (hd [])) in E; exact E).
  assert (E2 : fr_bytes r (pad_left 16 (skipn 16 a)) = fr_bytes r (pad_left 16 (skipn 16 b))) by (apply (f_equal (fun l => hd [] (tl l))) in E; exact E).
  apply (f_equal be_value) in E1. apply (f_equal be_value) in E2.
  assert (L1 : length (firstn 16 a) = 16%nat) by (rewrite firstn_length, La; reflexivity). assert (L2 : length (firstn 16 b) = 16%nat) by (rewrite firstn_length, Lb; reflexivity).
  assert (L3 : length (skipn 16 a) = 16%nat) by (rewrite skipn_length, La; reflexivity). assert (L4 : length (skipn 16 b) = 16%nat) by (rewrite skipn_length, Lb; reflexivity).
  rewrite !FB in E1 by (auto using Forall_firstn). rewrite !FB in E2 by (auto using Forall_skipn).
  rewrite <- (firstn_skipn 16 a), <- (firstn_skipn 16 b). f_equal; apply be_value_inj; auto using Forall_firstn, Forall_skipn; congruence.
Qed.

(** ChunkIndexFound is list membership. *)
Theorem C43_chunk_index_found : forall t l, chunk_index_found t l = true <-> In t l.
Proof.
  intros t. induction l as [| v l IH]; cbn [chunk_index_found In]; [split; [discriminate | tauto] |].
  destruct (Z.eqb_spec v t); [subst; tauto |]. rewrite IH. tauto.
Qed.
