(** * Props_Index.v — C37: the transaction/receipt index gadget yields RLP(index) *)
From Coq Require Import ZArith List Lia Bool.
From Verif Require Import Field FieldLemmas ModNorm RlpUtilModel RlpUtilProofs RlpSpec RlpEnc IndexModel.
Import ListNotations.
Open Scope Z_scope.
Open Scope circ_scope.

(** ** Specification: [rlp_uint i] of RlpEnc.v is the RLP of a number (yellow paper, appendix B): the big-endian
    bytes of the number without leading zeros, as a byte string. *)
(** padding on the right with zeros *)
Definition pad_to (n : nat) (l : list Z) : list Z := l ++ repeat 0 (n - length l).
Definition nibbles_of (bytes : list Z) : list Z := flat_map byte_nibbles bytes.

Section S.
Variable p : Z.
Hypothesis Hp : 65536 < p.
Local Notation felt := (felt p).

Lemma sum_nibble_bits : forall k x, 0 <= x -> sum_nibble p (firstn 4 (skipn k (bits_le (k + 4) x))) = (x / 2 ^ Z.of_nat k) mod 16.
Proof.
  intros k x Hx.
  assert (E : forall j, (j < 4)%nat -> nth j (firstn 4 (skipn k (bits_le (k + 4) x))) 0 = ((x / 2 ^ Z.of_nat k) / 2 ^ Z.of_nat j) mod 2).
  { intros j Hj. rewrite nth_firstn', nth_skipn', bits_le_nth by lia.
    rewrite Z.div_div by (try (apply Z.pow_nonzero; lia); apply Z.pow_pos_nonneg; lia).
    rewrite <- Z.pow_add_r by lia. replace (Z.of_nat k + Z.of_nat j) with (Z.of_nat (k + j)) by lia. reflexivity. }
  unfold sum_nibble. rewrite !E by lia.
  set (y := x / 2 ^ Z.of_nat k). assert (Hy : 0 <= y) by (apply Z.div_pos; [lia | apply Z.pow_pos_nonneg; lia]). clearbody y.
  change (2 ^ Z.of_nat 0) with 1; change (2 ^ Z.of_nat 1) with 2; change (2 ^ Z.of_nat 2) with 4; change (2 ^ Z.of_nat 3) with 8.
  mnorm_lhs p. rewrite Z.mod_small; zify; Z.to_euclidean_division_equations; lia.
Qed.

Lemma firstn_bits : forall n m x, (n <= m)%nat -> firstn n (bits_le m x) = bits_le n x.
Proof.
  intros n m x H. apply nth_ext' with (d := 0).
  - rewrite firstn_length, !bits_le_length. lia.
  - intros i Hi. rewrite firstn_length, bits_le_length in Hi. rewrite nth_firstn', !bits_le_nth by lia. reflexivity.
Qed.
Lemma skipn_bits : forall n m x, 0 <= x -> skipn n (bits_le (n + m) x) = bits_le m (x / 2 ^ Z.of_nat n).
Proof.
  intros n m x H. apply nth_ext' with (d := 0).
  - rewrite skipn_length, !bits_le_length. lia.
  - intros i Hi. rewrite skipn_length, bits_le_length in Hi. rewrite nth_skipn', !bits_le_nth by lia.
    rewrite Z.div_div by (try (apply Z.pow_nonzero; lia); apply Z.pow_pos_nonneg; lia).
    rewrite <- Z.pow_add_r by lia. f_equal. f_equal. f_equal. lia.
Qed.

Lemma byte_sums_bits : forall x, 0 <= x -> byte_sums p (bits_le 8 x) = byte_nibbles (x mod 256).
Proof.
  intros x Hx. unfold byte_sums, byte_nibbles.
  pose proof (sum_nibble_bits 4 x Hx) as A. change (4 + 4)%nat with 8%nat in A. rewrite A.
  pose proof (sum_nibble_bits 0 x Hx) as B. cbn [skipn] in B. change (0 + 4)%nat with 4%nat in B.
  rewrite firstn_bits in B by lia. rewrite firstn_bits by lia. rewrite B.
  change (2 ^ Z.of_nat 4) with 16. change (2 ^ Z.of_nat 0) with 1.
  f_equal; [| f_equal]; Z.to_euclidean_division_equations; lia.
Qed.

Lemma field_bits_17 : (16 < field_bits p)%nat.
Proof.
  unfold field_bits. assert (16 <= Z.log2 p) by (apply Z.log2_le_pow2; [lia | change (2 ^ 16) with 65536; lia]). lia.
Qed.

(** the value, with the flags resolved *)
Definition index_nibbles (i : Z) : list Z :=
  if i =? 0 then [8; 0; 0; 0; 0; 0; 0]
  else if i <? 128 then [i / 16; i mod 16; 0; 0; 0; 0; 0]
  else if i <? 256 then [8; 1; i / 16; i mod 16; 0; 0; 0]
  else [8; 2; i / 4096; (i / 256) mod 16; (i / 16) mod 16; i mod 16; 0].

Lemma cal_ok : forall i, 0 <= i < 65536 -> cal_index_rlp p i = Some (index_nibbles i).
Proof.
  intros i Hi. unfold cal_index_rlp.
  assert (Fi : felt i) by (unfold Field.felt; lia).
  rewrite fis_zero_felt by auto.
  rewrite !r_less_than_ok by (auto; unfold Field.felt; lia).
  assert (A : assert_le p i 65535 = Some tt) by (apply assert_le_iff; [auto | unfold Field.felt; lia | lia]).
  rewrite A. cbn [obind].
  pose proof field_bits_17 as FB.
  pose proof (field_bits_bound p ltac:(lia)) as FB2.
  rewrite !to_binary_ok by (try lia; unfold Field.felt; lia). cbn [obind].
  rewrite (firstn_bits 8 _ i) by lia.
  replace (field_bits p) with (8 + (field_bits p - 8))%nat by lia.
  rewrite skipn_bits by lia. rewrite !firstn_bits by lia.
  change (2 ^ Z.of_nat 8) with 256.
  assert (Hd : 0 <= i / 256 < 256) by (split; [apply Z.div_pos | apply Z.div_lt_upper_bound]; lia).
  rewrite !byte_sums_bits by lia. rewrite (Z.mod_small (i / 256) 256) by lia.
  unfold byte_nibbles at 1 2 3 4 5 6 7 8 9 10 11 12 13 14 15 16. 
  cbn [nth].
  assert (R : forall z, 0 <= z < 256 -> 0 <= z / 16 < 16 /\ 0 <= z mod 16 < 16).
  { intros z Hz. split; [split; [apply Z.div_pos | apply Z.div_lt_upper_bound]; lia | apply Z.mod_pos_bound; lia]. }
  assert (H0 : 0 <= i mod 256 < 256) by (apply Z.mod_pos_bound; lia).
  pose proof (R _ Hd) as [R1 R2]. pose proof (R _ H0) as [R3 R4].
  unfold byte_nibbles; cbn [nth].
  rewrite (fis_zero_felt p (i / 256 / 16)), (fis_zero_felt p ((i / 256) mod 16)) by (try lia; unfold Field.felt; lia).
  assert (Ez : fadd p (bit_of (i / 256 / 16 =? 0)) (bit_of ((i / 256) mod 16 =? 0)) = bit_of (i / 256 / 16 =? 0) + bit_of ((i / 256) mod 16 =? 0)).
  { apply fadd_small. destruct (i / 256 / 16 =? 0), ((i / 256) mod 16 =? 0); cbn; lia. }
  rewrite Ez.
  rewrite r_less_than_ok by (unfold Field.felt; try lia; destruct (i / 256 / 16 =? 0), ((i / 256) mod 16 =? 0); cbn; lia).
  assert (Ex : (1 <? bit_of (i / 256 / 16 =? 0) + bit_of ((i / 256) mod 16 =? 0)) = (i <? 256)).
  { destruct (Z.ltb_spec i 256).
    - rewrite (Z.div_small i 256) by lia. reflexivity.
    - assert (1 <= i / 256) by (apply Z.div_le_lower_bound; lia).
      destruct (Z.eqb_spec (i / 256 / 16) 0), (Z.eqb_spec ((i / 256) mod 16) 0); cbn; try reflexivity.
      exfalso. pose proof (Z.div_mod (i / 256) 16). lia. }
  rewrite Ex. rewrite fis_zero_felt by (try lia; apply felt_bit; [lia | apply bit_of_bit]).
  rewrite !fselect_ok by (try lia; try apply bit_of_bit; unfold Field.felt; lia). cbn [obind].
  apply f_equal. unfold index_nibbles.
  destruct (Z.eqb_spec i 0) as [-> | N0].
  { cbn [Z.ltb Z.compare Pos.compare Pos.compare_cont bit_of Z.eqb]. unfold fis_zero.
    repeat match goal with |- _ :: _ = _ :: _ => apply f_equal2 end; try reflexivity;
    mnorm_lhs p; rewrite Z.mod_small; try reflexivity; cbn; lia. }
  assert (FZ0 : fis_zero p 0 = 1) by (unfold fis_zero; rewrite Z.mod_0_l by lia; reflexivity).
  assert (FZ1 : fis_zero p 1 = 0) by (unfold fis_zero; rewrite Z.mod_small by lia; reflexivity).
  destruct (Z.ltb_spec i 128) as [L7 | L7].
  { replace (i <? 256) with true by (symmetry; apply Z.ltb_lt; lia).
    replace (i <? 65536) with true by (symmetry; apply Z.ltb_lt; lia).
    cbn [bit_of Z.eqb].
    rewrite (Z.mod_small i 256) by lia. rewrite (Z.mod_small i 256) in * by lia.
    replace (fsub p 1 0) with 1 by (unfold fsub; rewrite Z.mod_small; lia). rewrite FZ1.
    repeat match goal with |- _ :: _ = _ :: _ => apply f_equal2 end; try reflexivity;
    mnorm_lhs p; rewrite Z.mod_small; try lia. }
  replace (i <? 65536) with true by (symmetry; apply Z.ltb_lt; lia).
  cbn [bit_of]. replace (fsub p 0 0) with 0 by (unfold fsub; rewrite Z.mod_small; lia). rewrite FZ0.
  destruct (Z.ltb_spec i 256) as [L8 | L8]; cbn [bit_of Z.eqb].
  - rewrite (Z.div_small i 256) by lia. rewrite (Z.mod_small i 256) in * by lia.
    cbn [Z.div Z.div_eucl Z.modulo] in *. change (0 / 16) with 0. change (0 mod 16) with 0.
    repeat match goal with |- _ :: _ = _ :: _ => apply f_equal2 end; try reflexivity;
    mnorm_lhs p; rewrite Z.mod_small; try lia.
  - assert (E1 : i / 256 / 16 = i / 4096) by (rewrite Z.div_div by lia; reflexivity).
    assert (E2 : (i mod 256) / 16 = (i / 16) mod 16) by (Z.to_euclidean_division_equations; lia).
    assert (E3 : (i mod 256) mod 16 = i mod 16) by (Z.to_euclidean_division_equations; lia).
    rewrite E1, E2, E3 in *.
    repeat match goal with |- _ :: _ = _ :: _ => apply f_equal2 end; try reflexivity;
    mnorm_lhs p; rewrite Z.mod_small; cbn [Pos.eqb]; lia.
Qed.

Lemma cal_fail : forall i, 65536 <= i < p -> cal_index_rlp p i = None.
Proof.
  intros i Hi. unfold cal_index_rlp, assert_le.
  rewrite !Z.mod_small by lia. replace (i <=? 65535) with false by (symmetry; apply Z.leb_gt; lia). reflexivity.
Qed.
End S.

Lemma rlp_uint_cases : forall i, 0 <= i < 65536 -> pad_to 7 (nibbles_of (rlp_uint i)) = index_nibbles i.
Proof.
  intros i Hi. unfold index_nibbles, rlp_uint. cbn [rlp].
  destruct (Z.eqb_spec i 0) as [-> | N0]. { reflexivity. }
  assert (LG : Z.log2 i < 16) by (apply Z.log2_lt_pow2; [lia | change (2 ^ 16) with 65536; lia]).
  pose proof (Z.log2_nonneg i).
  destruct (Z.ltb_spec i 256) as [L8 | L8].
  - assert (B : be_bytes i = [i]).
    { unfold be_bytes. cbn [be_fuel]. destruct (Z.eqb_spec i 0); [lia |]. rewrite (Z.div_small i 256), (Z.mod_small i 256) by lia.
      destruct (Z.to_nat (Z.log2 i)); reflexivity. }
    rewrite B. cbn [rlp_str]. destruct (Z.ltb_spec i 128); reflexivity.
  - assert (L : 8 <= Z.log2 i) by (apply Z.log2_le_pow2; [lia | change (2 ^ 8) with 256; lia]).
    assert (B : be_bytes i = [i / 256; i mod 256]).
    { unfold be_bytes. destruct (Z.to_nat (Z.log2 i)) as [| [| f]] eqn:E; [lia | lia |]. cbn [be_fuel].
      assert (1 <= i / 256 < 256) by (split; [apply Z.div_le_lower_bound | apply Z.div_lt_upper_bound]; lia).
      destruct (Z.eqb_spec i 0); [lia |]. destruct (Z.eqb_spec (i / 256) 0); [lia |].
      rewrite (Z.div_small (i / 256) 256), (Z.mod_small (i / 256) 256) by lia.
      destruct f; reflexivity. }
    rewrite B. replace (i <? 128) with false by (symmetry; apply Z.ltb_ge; lia).
    unfold rlp_str. change (rlp_head_bytes 128 (length [i / 256; i mod 256])) with [130]. unfold nibbles_of, byte_nibbles, pad_to. cbn [length Z.of_nat flat_map app repeat Nat.sub].
    assert (E1 : i / 256 / 16 = i / 4096) by (rewrite Z.div_div by lia; reflexivity).
    assert (E2 : (i mod 256) / 16 = (i / 16) mod 16) by (Z.to_euclidean_division_equations; lia).
    assert (E3 : (i mod 256) mod 16 = i mod 16) by (Z.to_euclidean_division_equations; lia).
    rewrite E1, E2, E3. reflexivity.
Qed.

(** ** Theorems *)

(** For every index below 2^16 the gadget returns the nibbles of RLP(index), padded with zeros to seven. *)
Theorem C37_index_rlp : forall p i, 65536 < p -> 0 <= i < 65536 -> cal_index_rlp p i = Some (pad_to 7 (nibbles_of (rlp_uint i))).
Proof. intros p i Hp Hi. rewrite rlp_uint_cases by auto. apply cal_ok; auto. Qed.

(** Every other field element makes the circuit unsatisfiable. *)
Theorem C37_index_out_of_range : forall p i, 65536 < p -> felt p i -> (65536 <= i) -> cal_index_rlp p i = None.
Proof. intros p i Hp [H1 H2] Hi. apply cal_fail; lia. Qed.

(** The checking circuit accepts exactly the padded RLP string of the public index. *)
Theorem C37_index_check : forall p i s, 65536 < p -> felt p i -> Forall (felt p) s ->
  (index_check p i s = Some tt <-> 0 <= i < 65536 /\ s = pad_to 7 (nibbles_of (rlp_uint i))).
Proof.
  intros p i s Hp Fi Fs. unfold index_check.
  destruct (Z.lt_ge_cases i 65536) as [L | L].
  2:{ rewrite C37_index_out_of_range by (auto; lia).
      destruct (Nat.eqb (length s) 7); cbn; split; intros H; try discriminate; exfalso; lia. }
  rewrite C37_index_rlp by (auto; destruct Fi; lia).
  assert (Hlen : length (pad_to 7 (nibbles_of (rlp_uint i))) = 7%nat).
  { rewrite rlp_uint_cases by (destruct Fi; lia). unfold index_nibbles.
    destruct (i =? 0); [reflexivity |]. destruct (i <? 128); [reflexivity |]. destruct (i <? 256); reflexivity. }
  assert (Hfe : Forall (felt p) (pad_to 7 (nibbles_of (rlp_uint i)))).
  { rewrite rlp_uint_cases by (destruct Fi; lia). unfold index_nibbles. destruct Fi as [F1 F2].
    assert (0 <= i mod 16 < 16) by (apply Z.mod_pos_bound; lia).
    assert (0 <= (i / 16) mod 16 < 16) by (apply Z.mod_pos_bound; lia).
    assert (0 <= (i / 256) mod 16 < 16) by (apply Z.mod_pos_bound; lia).
    assert (0 <= i / 16 <= i) by (split; [apply Z.div_pos; lia | apply Z.div_le_upper_bound; lia]).
    assert (0 <= i / 4096 <= i) by (split; [apply Z.div_pos; lia | apply Z.div_le_upper_bound; lia]).
    destruct (i =? 0); [| destruct (i <? 128); [| destruct (i <? 256)]]; repeat (apply Forall_cons; [unfold felt; lia |]); apply Forall_nil. }
  revert Hlen Hfe. generalize (pad_to 7 (nibbles_of (rlp_uint i))). intros t Hlen Hfe.
  assert (K : forall a b, Forall (felt p) a -> Forall (felt p) b -> length a = length b ->
      ((exists r, omap (fun ab => assert_eq p (fst ab) (snd ab)) (combine a b) = Some r) <-> a = b)).
  { induction a as [| x a IH]; intros [| y b] Fa Fb Hab; try discriminate.
    - split; [auto | exists []; reflexivity].
    - apply Forall_cons_iff in Fa as [Fx Fa]. apply Forall_cons_iff in Fb as [Fy Fb].
      injection Hab as Hab. specialize (IH b Fa Fb Hab).
      cbn [combine omap fst snd]. split.
      + intros [r Hr]. apply obind_Some in Hr as (u & E & Hr). destruct u.
        apply assert_eq_iff in E; auto.
        apply obind_Some in Hr as (ys & E2 & Hr). rewrite E. f_equal. apply IH. eauto.
      + intros E. assert (x = y /\ a = b) as [-> ->] by (injection E; auto).
        destruct (proj2 IH eq_refl) as [r Hr].
        assert (assert_eq p y y = Some tt) as -> by (apply assert_eq_iff; auto).
        cbn [obind]. rewrite Hr. cbn [obind]. eauto. }
  split.
  - intros H. apply obind_Some in H as (u & E & H). apply guard_Some in E. apply Nat.eqb_eq in E.
    cbn [obind] in H. apply obind_Some in H as (r & E2 & _).
    split; [destruct Fi; lia |]. symmetry. apply K; auto; [lia | eauto].
  - intros [_ ->]. rewrite Hlen. cbn [Nat.eqb guard obind].
    destruct (proj2 (K t t Hfe Hfe eq_refl) eq_refl) as [r ->]. reflexivity.
Qed.

(** Different indices get different keys. *)
Theorem C37_index_injective : forall p i j r, 65536 < p -> felt p i -> felt p j ->
  cal_index_rlp p i = Some r -> cal_index_rlp p j = Some r -> i = j.
Proof.
  intros p i j r Hp Fi Fj Hi Hj.
  assert (Li : 0 <= i < 65536). { destruct Fi. destruct (Z.lt_ge_cases i 65536); [lia |]. rewrite cal_fail in Hi; [discriminate | lia..]. }
  assert (Lj : 0 <= j < 65536). { destruct Fj. destruct (Z.lt_ge_cases j 65536); [lia |]. rewrite cal_fail in Hj; [discriminate | lia..]. }
  rewrite cal_ok in Hi, Hj by auto.
  assert (E : index_nibbles i = index_nibbles j) by congruence. clear Hi Hj Fi Fj.
  unfold index_nibbles in E.
  destruct (Z.eqb_spec i 0), (Z.eqb_spec j 0); try lia;
  destruct (Z.ltb_spec i 128), (Z.ltb_spec j 128); try lia;
  destruct (Z.ltb_spec i 256), (Z.ltb_spec j 256); try lia;
  injection E; intros; Z.to_euclidean_division_equations; lia.
Qed.

(** The seven nibbles, read up to the length announced by the first byte, are one RLP item (RlpSpec.v) whose
    payload is the big-endian number. *)
Theorem C37_index_is_rlp_item : forall p i, 65536 < p -> 0 < i < 65536 -> exists s h pay pad,
  cal_index_rlp p i = Some (s ++ pad) /\ rlp_item s h pay /\ hexval pay = i /\ Forall (eq 0) pad.
Proof.
  intros p i Hp Hi. rewrite cal_ok by lia. unfold index_nibbles. destruct (Z.eqb_spec i 0); [lia |].
  destruct (Z.ltb_spec i 128).
  { exists (byte_nibbles i), [], (byte_nibbles i), [0; 0; 0; 0; 0]. split; [reflexivity |].
    split; [apply item_literal; lia |]. split; [| repeat constructor].
    unfold hexval, byte_nibbles. cbn [fold_left]. pose proof (Z.div_mod i 16). lia. }
  destruct (Z.ltb_spec i 256).
  { exists (byte_nibbles 0x81 ++ byte_nibbles i), (byte_nibbles 0x81), (byte_nibbles i), [0; 0; 0]. split; [reflexivity |].
    split; [apply (item_short 0x81 1); [left; reflexivity | lia | reflexivity] |]. split; [| repeat constructor].
    unfold hexval, byte_nibbles. cbn [fold_left]. pose proof (Z.div_mod i 16). lia. }
  exists (byte_nibbles 0x82 ++ [i / 4096; (i / 256) mod 16; (i / 16) mod 16; i mod 16]), (byte_nibbles 0x82),
    [i / 4096; (i / 256) mod 16; (i / 16) mod 16; i mod 16], [0]. split; [reflexivity |].
  split; [apply (item_short 0x82 2); [left; reflexivity | lia | reflexivity] |]. split; [| repeat constructor].
  unfold hexval. cbn [fold_left]. Z.to_euclidean_division_equations; lia.
Qed.

Example C37_ex0 : cal_index_rlp bn254 0 = Some [8; 0; 0; 0; 0; 0; 0]. Proof. vm_compute. reflexivity. Qed.
Example C37_ex1 : cal_index_rlp bn254 127 = Some [7; 15; 0; 0; 0; 0; 0]. Proof. vm_compute. reflexivity. Qed.
Example C37_ex2 : cal_index_rlp bn254 128 = Some [8; 1; 8; 0; 0; 0; 0]. Proof. vm_compute. reflexivity. Qed.
Example C37_ex3 : cal_index_rlp bn254 65535 = Some [8; 2; 15; 15; 15; 15; 0]. Proof. vm_compute. reflexivity. Qed.
Example C37_ex4 : cal_index_rlp bn254 65536 = None. Proof. vm_compute. reflexivity. Qed.
Example C37_ex5 : index_check bn254 256 [8; 2; 0; 1; 0; 0; 0] = Some tt. Proof. vm_compute. reflexivity. Qed.
