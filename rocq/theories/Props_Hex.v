(** * Props_Hex.v — property C59: HexToDecimal and Hex64To2Fr (circuits/gadgets/rlp/rlp.go)
    [hexval l] (RlpSpec.v) is the integer whose hexadecimal digits, most significant first, are l. *)
From Coq Require Import ZArith List Lia Bool Arith.
From Verif Require Import ModNorm Field FieldLemmas RlpUtilModel RlpUtilProofs RlpSpec RlpArrayProofs HexProofs.
Import ListNotations.
Open Scope Z_scope.
Local Lemma in_firstn : forall (l : list Z) n d, In d (firstn n l) -> In d l.
Proof. intros l n d H. rewrite <- (firstn_skipn n l). apply in_or_app. left. exact H. Qed.
Local Lemma in_skipn : forall (l : list Z) n d, In d (skipn n l) -> In d l.
Proof. intros l n d H. rewrite <- (firstn_skipn n l). apply in_or_app. right. exact H. Qed.

(** HexToDecimal with a length between 1 and maxLen returns the value of the first realLen digits, reduced modulo p; with length 0 it
    returns 0 *)
Theorem C59_hex_to_decimal : forall p digits maxLen realLen, 2 < p -> (1 <= maxLen <= length digits)%nat -> Z.of_nat maxLen < p ->
  (1 <= realLen <= maxLen)%nat -> r_hex_to_decimal p digits maxLen (Z.of_nat realLen) = Some (hexval (firstn realLen digits) mod p).
Proof.
  intros p digits maxLen realLen Hp Hm Hmp Hr. rewrite (hex_to_decimal_ok p Hp) by (auto; unfold felt; lia). unfold hex_dec_spec.
  destruct (Z.eqb_spec (Z.of_nat realLen) 0); [lia|]. destruct (Z.leb_spec (Z.of_nat realLen) (Z.of_nat maxLen)); [|lia]. rewrite Nat2Z.id. reflexivity.
Qed.
Theorem C59_hex_to_decimal_empty : forall p digits maxLen, 2 < p -> (2 <= maxLen <= length digits)%nat -> Z.of_nat maxLen < p ->
  r_hex_to_decimal p digits maxLen 0 = Some 0.
Proof.
  intros p digits maxLen Hp Hm Hmp. rewrite (hex_to_decimal_ok p Hp) by (auto; try lia; unfold felt; lia). unfold hex_dec_spec. cbn [Z.eqb].
  destruct (Nat.eqb_spec maxLen 1); [lia|]. reflexivity.
Qed.
(** the exact integer when the digits are nibbles and the field is large enough *)
Corollary C59_hex_to_decimal_exact : forall p digits maxLen realLen, 2 < p -> (1 <= maxLen <= length digits)%nat -> Z.of_nat maxLen < p ->
  (1 <= realLen <= maxLen)%nat -> 16 ^ Z.of_nat realLen <= p -> (forall d, In d digits -> 0 <= d < 16) ->
  r_hex_to_decimal p digits maxLen (Z.of_nat realLen) = Some (hexval (firstn realLen digits)).
Proof.
  intros p digits maxLen realLen Hp Hm Hmp Hr Hb Hn. rewrite C59_hex_to_decimal by auto. f_equal. apply Z.mod_small.
  assert (N : Forall nibble (firstn realLen digits)) by (apply Forall_forall; intros d Hd; apply Hn; exact (in_firstn _ _ _ Hd)).
  pose proof (hexval_bound _ N) as B. rewrite firstn_length in B. replace (Nat.min realLen (length digits)) with realLen in B by lia. lia.
Qed.
(** a length above maxLen is not handled uniformly: maxLen + 1 is unsatisfiable, anything larger is silently truncated to maxLen digits *)
Theorem C59_overlong_refuted : forall p digits maxLen, 2 < p -> (1 <= maxLen <= length digits)%nat -> Z.of_nat maxLen + 1 < p ->
  r_hex_to_decimal p digits maxLen (Z.of_nat maxLen + 1) = None /\
  forall realLen, Z.of_nat maxLen + 1 < realLen < p -> r_hex_to_decimal p digits maxLen realLen = Some (hexval (firstn maxLen digits) mod p).
Proof.
  intros p digits maxLen Hp Hm Hmp. split; [|intros realLen Hr]; (rewrite (hex_to_decimal_ok p Hp) by (auto; try lia; unfold felt; lia)); unfold hex_dec_spec.
  - destruct (Z.eqb_spec (Z.of_nat maxLen + 1) 0); [lia|]. destruct (Z.leb_spec (Z.of_nat maxLen + 1) (Z.of_nat maxLen)); [lia|]. rewrite Z.eqb_refl. reflexivity.
  - destruct (Z.eqb_spec realLen 0); [lia|]. destruct (Z.leb_spec realLen (Z.of_nat maxLen)); [lia|]. destruct (Z.eqb_spec realLen (Z.of_nat maxLen + 1)); [lia|]. reflexivity.
Qed.
(** Hex64To2Fr on nibbles over a field above 2^248: up to 62 digits, (value, 0); 63 or 64 digits, the value of the digits after the
    second and the value of the first two; 65 and more, unsatisfiable *)
Theorem C59_hex64 : forall p digits realLen, 2 ^ 248 < p -> (64 <= length digits)%nat -> (forall d, In d digits -> 0 <= d < 16) -> 0 <= realLen < p ->
  (realLen <= 62 -> r_hex64_to_2fr p digits realLen = Some (hexval (firstn (Z.to_nat realLen) digits), 0)) /\
  (63 <= realLen <= 64 -> exists lo hi, r_hex64_to_2fr p digits realLen = Some (lo, hi) /\ 0 <= hi < 256 /\ 0 <= lo < 16 ^ (realLen - 2) /\
     hi = hexval (firstn 2 digits) /\ hexval (firstn (Z.to_nat realLen) digits) = hi * 16 ^ (realLen - 2) + lo) /\
  (65 <= realLen -> r_hex64_to_2fr p digits realLen = None).
Proof.
  intros p digits realLen Hp Hl Hn Hr. assert (P2 : 1000 < p) by (assert (1000 < 2 ^ 248) by reflexivity; lia).
  rewrite (hex64_ok p) by (auto; lia). unfold hex64_spec.
  assert (NB : forall n k, (k + n <= length digits)%nat -> (n <= 62)%nat -> 0 <= hexval (firstn n (skipn k digits)) < p /\ hexval (firstn n (skipn k digits)) < 16 ^ Z.of_nat n).
  { intros n k Hk H62. assert (N : Forall nibble (firstn n (skipn k digits))). { apply Forall_forall; intros d Hd; apply Hn. exact (in_skipn _ _ _ (in_firstn _ _ _ Hd)). }
    pose proof (hexval_bound _ N) as B. rewrite firstn_length, skipn_length in B. replace (Nat.min n (length digits - k)) with n in B by lia.
    assert (16 ^ Z.of_nat n <= 16 ^ 62) by (apply Z.pow_le_mono_r; lia). assert (16 ^ 62 = 2 ^ 248) by reflexivity. lia. }
  split; [|split]; intros H.
  - destruct (Z.leb_spec realLen 62); [|lia]. pose proof (NB (Z.to_nat realLen) 0%nat ltac:(lia) ltac:(lia)) as [B _]. cbn [skipn] in B. rewrite Z.mod_small by exact B. reflexivity.
  - destruct (Z.leb_spec realLen 62); [lia|]. destruct (Z.leb_spec realLen 64); [|lia].
    pose proof (NB (Z.to_nat realLen - 2)%nat 2%nat ltac:(lia) ltac:(lia)) as [B1 B1']. pose proof (NB 2%nat 0%nat ltac:(lia) ltac:(lia)) as [B2 B2']. change (skipn 0 digits) with digits in *.
    rewrite (Z.mod_small (hexval (firstn (Z.to_nat realLen - 2) _))), (Z.mod_small (hexval (firstn 2 digits))) by lia.
    replace (Z.of_nat (Z.to_nat realLen - 2)) with (realLen - 2) in B1' by lia.
    eexists; eexists. split; [reflexivity|]. split; [change (16 ^ Z.of_nat 2) with 256 in B2'; lia|]. split; [lia|]. split; [reflexivity|].
    assert (S0 : forall l a, fold_left (fun acc d => 16 * acc + d) l a = 16 ^ Z.of_nat (length l) * a + hexval l).
    { induction l as [|d l IH] using rev_ind; intros a; [cbn [fold_left length]; change (hexval []) with 0; change (16 ^ Z.of_nat 0) with 1; lia|].
      rewrite fold_left_app. cbn [fold_left]. rewrite IH, hexval_snoc, app_length. cbn [length]. rewrite Nat.add_1_r, Nat2Z.inj_succ, Z.pow_succ_r by lia. ring. }
    assert (E : firstn (Z.to_nat realLen) digits = firstn 2 digits ++ firstn (Z.to_nat realLen - 2) (skipn 2 digits)).
    { replace (Z.to_nat realLen) with (2 + (Z.to_nat realLen - 2))%nat at 1 by lia. clear. generalize (Z.to_nat realLen - 2)%nat. intros n. destruct digits as [|a [|b l]]; cbn; [destruct n; reflexivity|destruct n; reflexivity|reflexivity]. }
    rewrite E. unfold hexval at 1. rewrite fold_left_app, S0. rewrite firstn_length, skipn_length.
    replace (Z.of_nat (Nat.min (Z.to_nat realLen - 2) (length digits - 2))) with (realLen - 2) by lia. fold (hexval (firstn 2 digits)). lia.
  - destruct (Z.leb_spec realLen 62); [lia|]. destruct (Z.leb_spec realLen 64); [lia|]. reflexivity.
Qed.
(** the hypotheses are met over the scalar field of BN254 by 64 digits 0xa; the two pieces of a 64-digit and of a 3-digit value *)
Example C59_example :
  2 ^ 248 < bn254 /\ r_hex64_to_2fr bn254 (1 :: repeat 10 63) 64 = Some (hexval (repeat 10 62), 26) /\
  r_hex64_to_2fr bn254 (1 :: repeat 10 63) 3 = Some (0x1aa, 0) /\ r_hex_to_decimal bn254 [7; 15; 3] 2 2 = Some 127.
Proof. split; [reflexivity|]. split; [vm_compute; reflexivity|]. split; vm_compute; reflexivity. Qed.
