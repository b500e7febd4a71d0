(** * HexProofs.v — lemmas on HexToDecimal and Hex64To2Fr (circuits/gadgets/rlp/rlp.go) *)
From Coq Require Import ZArith List Lia Bool Arith.
From Verif Require Import ModNorm Field FieldLemmas RlpUtilModel RlpUtilProofs RlpSpec RlpArrayProofs.
Import ListNotations.
Open Scope Z_scope.

Section H.
Context (p : Z) (Hp : 2 < p).
(** running values, modulo p *)
Lemma hpv_nth : forall l acc i, (i < length l)%nat ->
  nth i (hex_prefix_vals p acc l) 0 = (16 ^ Z.of_nat (S i) * acc + hexval (firstn (S i) l)) mod p.
Proof.
  assert (S0 : forall l a, fold_left (fun acc d => 16 * acc + d) l a = 16 ^ Z.of_nat (length l) * a + hexval l).
  { induction l as [|d l IH] using rev_ind; intros a; [cbn [fold_left length]; change (hexval []) with 0; change (16 ^ Z.of_nat 0) with 1; lia|]. rewrite fold_left_app. cbn [fold_left]. rewrite IH, hexval_snoc, app_length. cbn [length].
    rewrite Nat.add_1_r, Nat2Z.inj_succ, Z.pow_succ_r by lia. ring. }
  induction l as [|d l IH]; intros acc i Hi; [cbn in Hi; lia|]. cbn [hex_prefix_vals].
  assert (EF : forall k, (k <= length l)%nat -> hexval (firstn (S k) (d :: l)) = 16 ^ Z.of_nat k * d + hexval (firstn k l)).
  { intros k Hk. cbn [firstn]. unfold hexval at 1. cbn [fold_left]. rewrite S0. replace (length (firstn k l)) with k by (rewrite firstn_length; lia). rewrite Z.mul_0_r, Z.add_0_l. reflexivity. }
  cbn [length] in Hi. destruct i as [|i].
  - cbn [nth]. rewrite EF by lia. change (firstn 0 l) with (@nil Z). unfold fadd, fmul. rewrite Zplus_mod_idemp_l. f_equal. change (hexval []) with 0. change (16 ^ Z.of_nat 1) with 16. change (16 ^ Z.of_nat 0) with 1. lia.
  - cbn [nth]. rewrite IH by lia. rewrite EF by lia. unfold fadd, fmul. rewrite Zplus_mod_idemp_l.
    rewrite Z.add_mod, Zmult_mod_idemp_r, <- Z.add_mod by lia. f_equal. rewrite (Nat2Z.inj_succ (S i)), Z.pow_succ_r by lia. ring.
Qed.
Lemma smux_ok sel l : felt p sel -> smux p sel l = if sel <? Z.of_nat (length l) then Some (nth (Z.to_nat sel) l 0) else None.
Proof. intros F. unfold smux. rewrite felt_mod by auto. destruct (sel <? _); reflexivity. Qed.
Lemma bit_sel (b : bool) x y : felt p x -> felt p y -> fselect p (bit_of b) x y = Some (if b then x else y).
Proof. intros Hx Hy. rewrite fselect_ok; auto; destruct b; cbn; auto; unfold is_bit; lia. Qed.
Lemma is_zero_bit x : felt p x -> fis_zero p x = bit_of (x =? 0).
Proof. intros F. unfold fis_zero. rewrite felt_mod by auto. destruct (x =? 0); reflexivity. Qed.

Definition hex_dec_spec (inp : list Z) (maxLen : nat) (realLen : Z) : option Z :=
  if realLen =? 0 then (if Nat.eqb maxLen 1 then None else Some 0)
  else if realLen <=? Z.of_nat maxLen then Some (hexval (firstn (Z.to_nat realLen) inp) mod p)
  else if realLen =? Z.of_nat maxLen + 1 then None
  else Some (hexval (firstn maxLen inp) mod p).
Lemma hex_to_decimal_ok inp maxLen realLen : (1 <= maxLen <= length inp)%nat -> Z.of_nat maxLen < p -> felt p realLen ->
  r_hex_to_decimal p inp maxLen realLen = hex_dec_spec inp maxLen realLen.
Proof.
  intros Hm Hmp Hr. assert (Fl : forall x, 0 <= x < p -> felt p x) by (intros; assumption). pose proof Hr as [R0 R1].
  unfold r_hex_to_decimal. destruct (Nat.leb_spec maxLen (length inp)); [|lia]. cbn [guard obind].
  set (row := hex_prefix_vals p 0 (firstn maxLen inp)). assert (Lr : length row = maxLen) by (unfold row; rewrite hex_prefix_vals_length, firstn_length; lia).
  rewrite r_less_than_ok by (auto; apply Fl; lia). rewrite bit_sel by (auto using felt_fsub; apply Fl; lia). cbn [obind].
  set (s0 := if realLen <? 1 then 1 else fsub p realLen 1).
  assert (S0 : s0 = if realLen =? 0 then 1 else realLen - 1).
  { unfold s0. destruct (Z.ltb_spec realLen 1); destruct (Z.eqb_spec realLen 0); try lia. apply fsub_small. lia. }
  clearbody s0. assert (F0 : felt p s0) by (rewrite S0; apply Fl; destruct (realLen =? 0) eqn:E; [lia|apply Z.eqb_neq in E; lia]).
  rewrite r_less_than_ok by (auto; apply Fl; lia). rewrite bit_sel by (auto; apply Fl; lia). cbn [obind].
  set (s1 := if Z.of_nat maxLen <? s0 then _ else s0). assert (F1 : felt p s1) by (unfold s1; destruct (_ <? _); [apply Fl; lia|exact F0]).
  rewrite smux_ok by auto. rewrite Lr. rewrite is_zero_bit by auto. unfold hex_dec_spec.
  assert (V : forall k, (1 <= k <= maxLen)%nat -> nth (k - 1) row 0 = hexval (firstn k inp) mod p).
  { intros k Hk. unfold row. rewrite hpv_nth by (rewrite firstn_length; lia). replace (S (k - 1)) with k by lia. rewrite firstn_firstn, Nat.min_l by lia. rewrite Z.mul_0_r. reflexivity. }
  assert (FV : forall k, felt p (nth k row 0)).
  { intros k. destruct (lt_dec k (length row)) as [L|G]; [|rewrite nth_overflow by lia; apply Fl; lia]. unfold row in *. rewrite hex_prefix_vals_length in L. rewrite hpv_nth by exact L. apply felt_mod_p. lia. }
  destruct (Z.eqb_spec realLen 0) as [->|NZ].
  - subst s0. unfold s1 in *. destruct (Z.ltb_spec (Z.of_nat maxLen) 1); [lia|]. destruct (Nat.eqb_spec maxLen 1) as [->|N1]; [reflexivity|].
    destruct (Z.ltb_spec 1 (Z.of_nat maxLen)); [|lia]. cbn [obind]. rewrite bit_sel; [reflexivity|apply Fl; lia|apply FV].
  - subst s0. destruct (Z.leb_spec realLen (Z.of_nat maxLen)) as [L|G].
    + unfold s1 in *. destruct (Z.ltb_spec (Z.of_nat maxLen) (realLen - 1)); [lia|]. destruct (Z.ltb_spec (realLen - 1) (Z.of_nat maxLen)); [|lia]. cbn [obind].
      rewrite bit_sel; [|apply Fl; lia|apply FV]. rewrite <- V by lia. do 2 f_equal. lia.
    + destruct (Z.eqb_spec realLen (Z.of_nat maxLen + 1)) as [E|NE].
      * unfold s1 in *. destruct (Z.ltb_spec (Z.of_nat maxLen) (realLen - 1)); [lia|]. destruct (Z.ltb_spec (realLen - 1) (Z.of_nat maxLen)); [lia|]. reflexivity.
      * unfold s1 in *. destruct (Z.ltb_spec (Z.of_nat maxLen) (realLen - 1)); [|lia]. destruct (Z.ltb_spec (Z.of_nat maxLen - 1) (Z.of_nat maxLen)); [|lia]. cbn [obind].
        rewrite bit_sel; [|apply Fl; lia|apply FV]. rewrite <- V by lia. do 2 f_equal. lia.
Qed.

Definition hex64_spec (inp : list Z) (realLen : Z) : option (Z * Z) :=
  if realLen <=? 62 then Some (hexval (firstn (Z.to_nat realLen) inp) mod p, 0)
  else if realLen <=? 64 then Some (hexval (firstn (Z.to_nat realLen - 2) (skipn 2 inp)) mod p, hexval (firstn 2 inp) mod p)
  else None.
Lemma hex64_ok inp realLen : (64 <= length inp)%nat -> 70 < p -> felt p realLen -> r_hex64_to_2fr p inp realLen = hex64_spec inp realLen.
Proof.
  intros Hl Hmp Hr. assert (Fl : forall x, 0 <= x < p -> felt p x) by (intros; assumption). pose proof Hr as [R0 R1].
  unfold r_hex64_to_2fr. destruct (Nat.leb_spec 64 (length inp)); [|lia]. cbn [guard obind].
  set (row := hex_prefix_vals p 0 (firstn 62 (skipn 2 inp))). assert (Lr : length row = 62%nat) by (unfold row; rewrite hex_prefix_vals_length, firstn_length, skipn_length; lia).
  rewrite !r_less_than_ok by (auto; apply Fl; lia). rewrite bit_sel by (auto using felt_fsub; apply Fl; lia). cbn [obind].
  set (s0 := if realLen <? 3 then 1 else fsub p realLen 3).
  assert (S0 : s0 = if realLen <? 3 then 1 else realLen - 3).
  { unfold s0. destruct (Z.ltb_spec realLen 3); [reflexivity|]. apply fsub_small. lia. }
  clearbody s0. assert (F0 : felt p s0) by (rewrite S0; apply Fl; destruct (Z.ltb_spec realLen 3); lia).
  rewrite bit_sel by (auto; apply Fl; lia). cbn [obind].
  set (s1 := if realLen <? 1 then 1 else s0). assert (S1 : s1 = if realLen <? 3 then 1 else realLen - 3).
  { unfold s1. rewrite S0. destruct (Z.ltb_spec realLen 1); destruct (Z.ltb_spec realLen 3); lia. }
  clearbody s1. clear S0 F0 s0. assert (F1 : felt p s1) by (rewrite S1; apply Fl; destruct (Z.ltb_spec realLen 3); lia).
  rewrite smux_ok by auto. rewrite Lr.
  assert (FV : forall k, felt p (nth k row 0)).
  { intros k. destruct (lt_dec k (length row)) as [L|G]; [|rewrite nth_overflow by lia; apply Fl; lia]. unfold row in *. rewrite hex_prefix_vals_length in L. rewrite hpv_nth by exact L. apply felt_mod_p. lia. }
  rewrite hex_to_decimal_ok by (auto; lia). unfold hex64_spec, hex_dec_spec. cbn [Nat.eqb].
  assert (FM : forall x, felt p (x mod p)) by (intros; apply felt_mod_p; lia). assert (FA : forall a b, felt p (fadd p a b)) by (intros; apply felt_fadd; lia).
  change (Z.of_nat 62) with 62. change (Z.of_nat 64) with 64.
  destruct (Z.leb_spec realLen 62) as [L|G].
  - destruct (Z.ltb_spec s1 62) as [|C]; [|rewrite S1 in C; destruct (Z.ltb_spec realLen 3); lia]. cbn [obind].
    destruct (Z.ltb_spec realLen 63); [|lia]. destruct (Z.eqb_spec realLen 0) as [->|NZ].
    + cbn [obind]. rewrite bit_sel by (auto; apply Fl; lia). cbn [obind]. rewrite bit_sel by (auto; apply Fl; lia). cbn [obind Z.to_nat firstn]. rewrite Z.mod_0_l by lia. reflexivity.
    + destruct (Z.leb_spec realLen 64); [|lia]. cbn [obind]. rewrite bit_sel by auto. cbn [obind]. rewrite bit_sel by (auto; apply Fl; lia). reflexivity.
  - destruct (Z.leb_spec realLen 64) as [L2|G2].
    + destruct (Z.ltb_spec s1 62) as [|C]; [|rewrite S1 in C; destruct (Z.ltb_spec realLen 3); lia]. cbn [obind].
      destruct (Z.ltb_spec realLen 63); [lia|]. destruct (Z.eqb_spec realLen 0) as [->|NZ]; [lia|]. cbn [obind].
      rewrite bit_sel by auto. cbn [obind]. rewrite bit_sel by (auto; apply Fl; lia). cbn [obind]. f_equal. f_equal.
      * rewrite S1. destruct (Z.ltb_spec realLen 3); [lia|]. unfold row. rewrite hpv_nth by (rewrite firstn_length, skipn_length; lia). rewrite Z.mul_0_r, Z.add_0_l. f_equal.
        rewrite firstn_firstn, Nat.min_l by lia. do 2 f_equal. lia.
      * destruct inp as [|a [|b inp]]; [cbn in Hl; lia|cbn in Hl; lia|]. cbn [nth firstn]. unfold hexval. cbn [fold_left]. unfold fadd, fmul. rewrite Zplus_mod_idemp_l. f_equal. lia.
    + destruct (Z.ltb_spec s1 62) as [C|]; [rewrite S1 in C; destruct (Z.ltb_spec realLen 3); lia|]. reflexivity.
Qed.
End H.
