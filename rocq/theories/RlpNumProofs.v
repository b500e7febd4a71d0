(** * RlpNumProofs.v — RlpArrayCheck with an explicit number of fields *)
From Coq Require Import ZArith List Lia Bool Arith.
From Verif Require Import ModNorm Field FieldLemmas RlpUtilModel RlpUtilProofs RlpModel.
Import ListNotations.
Open Scope Z_scope.

Section N.
Context (p : Z) (Hp : 2 < p).
Lemma less_bit a b : felt p a -> felt p b -> r_less_than p a b = if a <? b then 1 else 0.
Proof. intros Ha Hb. rewrite r_less_than_ok by auto. destruct (a <? b); reflexivity. Qed.
(** below both bounds the bound does not matter *)
Lemma array_field_num M idx k k' fmax rlps : (Z.of_nat idx < k < p) -> (Z.of_nat idx < k' < p) ->
  array_field p M idx k fmax rlps = array_field p M idx k' fmax rlps.
Proof.
  intros H H'. unfold array_field. rewrite !less_bit by (unfold felt; lia). destruct (Z.ltb_spec (Z.of_nat idx) k); [|lia]. destruct (Z.ltb_spec (Z.of_nat idx) k'); [|lia]. reflexivity.
Qed.
(** at or above the bound the field has length 0, counts for nothing and consumes nothing *)
Lemma array_field_off M idx k fmax rlps out len ci li : 0 <= k <= Z.of_nat idx -> Z.of_nat idx < p ->
  array_field p M idx k fmax rlps = Some (out, len, ci, li) -> len = 0 /\ ci = 0 /\ li = 0.
Proof.
  intros H Hi E. unfold array_field in E. rewrite less_bit in E by (unfold felt; lia). destruct (Z.ltb_spec (Z.of_nat idx) k); [lia|].
  set (fp := rlp_field_prefix p _ _) in E. clearbody fp.
  destruct (for_ p (fp_isLiteral fp) (fsub p 1 0)) as [lit|] eqn:EL; [|discriminate E].
  assert (L1 : lit = 1).
  { unfold for_ in EL. destruct (assert_bool p (fp_isLiteral fp)) as [[]|]; [|discriminate]. destruct (assert_bool p (fsub p 1 0)) as [[]|]; [|discriminate]. cbn [obind] in EL. injection EL as <-.
    assert (E1 : fsub p 1 0 = 1) by (apply fsub_small; lia). rewrite E1. unfold fsub, fadd, fmul. rewrite <- Zminus_mod. replace (fp_isLiteral fp + 1 - fp_isLiteral fp * 1) with 1 by ring. apply Z.mod_small. lia. }
  cbn [obind] in E. destruct (r_shift_left _ _ _ _ _ _) as [o|]; [|discriminate E]. cbn [obind] in E. destruct (guard _) as [[]|]; [|discriminate E]. cbn [obind] in E.
  destruct (r_mux1 _ _ _ _) as [v|]; [|discriminate E]. cbn [obind] in E. subst lit.
  assert (Z0 : forall x, fmul p x 0 = 0) by (intros x; unfold fmul; rewrite Z.mul_0_r; apply Z.mod_0_l; lia). rewrite !Z0 in E.
  assert (EI : fadd p (fsub p 2 (fmul p 2 1)) (fadd p 0 0) = 0). { unfold fmul. change (2 * 1) with 2. rewrite (Z.mod_small 2 p) by lia. rewrite (fsub_small p 2 2) by lia. unfold fadd. change (0 + 0) with 0. assert (M0 : 0 mod p = 0) by (apply Z.mod_0_l; lia). rewrite M0. exact M0. }
  rewrite EI in E. injection E as _ <- <- <-. auto.
Qed.
Lemma array_loop_off M k : forall fs idx rlps c s c' s' lens outs, 0 <= k <= Z.of_nat idx -> Z.of_nat idx + Z.of_nat (length fs) <= p -> felt p c -> felt p s ->
  array_loop p M idx k fs rlps c s = Some (c', s', lens, outs) -> c' = c /\ s' = s /\ lens = repeat 0 (length fs) /\ length outs = length fs.
Proof.
  induction fs as [|[fmin fmax] fs IH]; intros idx rlps c s c' s' lens outs Hk Hi Fc Fs E.
  - cbn in E. injection E as <- <- <- <-. auto.
  - cbn [array_loop] in E. cbn [length] in Hi. destruct (array_field p M idx k fmax rlps) as [[[[o l] ci] li]|] eqn:EF; [|discriminate E]. cbn [obind] in E.
    apply array_field_off in EF; [|lia|lia]. destruct EF as [-> [-> ->]].
    assert (A0 : forall x, felt p x -> fadd p x 0 = x) by (intros x Fx; unfold fadd; rewrite Z.add_0_r; apply felt_mod; auto). rewrite !A0 in E by auto.
    destruct fs as [|f2 fs].
    + injection E as <- <- <- <-. auto.
    + destruct (r_shift_left _ _ _ _ _ _) as [r'|]; [|discriminate E]. cbn [obind] in E.
      destruct (array_loop p M (S idx) k (f2 :: fs) r' c s) as [[[[c1 s1] ls] os]|] eqn:EL; [|discriminate E]. cbn [obind] in E. injection E as <- <- <- <-.
      apply IH in EL; [|lia|cbn [length] in *; lia|auto|auto]. destruct EL as [-> [-> [-> L]]]. cbn [length repeat]. auto.
Qed.
Lemma array_loop_num M k : forall fs1 fs2 idx rlps c s c' s' lens outs, fs1 <> [] -> k = Z.of_nat idx + Z.of_nat (length fs1) -> k + Z.of_nat (length fs2) < p ->
  array_loop p M idx k (fs1 ++ fs2) rlps c s = Some (c', s', lens, outs) ->
  exists lens1 outs1 outs2, array_loop p M idx k fs1 rlps c s = Some (c', s', lens1, outs1) /\ lens = lens1 ++ repeat 0 (length fs2) /\ outs = outs1 ++ outs2 /\ length outs2 = length fs2.
Proof.
  induction fs1 as [|[fmin fmax] fs1 IH]; intros fs2 idx rlps c s c' s' lens outs NE Hk Hb E; [easy|].
  cbn [app array_loop] in E |- *. destruct (array_field p M idx k fmax rlps) as [[[[o l] ci] li]|] eqn:EF; [|discriminate E]. cbn [obind] in E |- *.
  destruct fs1 as [|f1 fs1].
  - cbn [app length] in *. destruct fs2 as [|f2 fs2].
    + injection E as <- <- <- <-. do 3 eexists. split; [reflexivity|]. split; [reflexivity|]. split; [symmetry; apply app_nil_r|reflexivity].
    + destruct (r_shift_left _ _ _ _ _ _) as [r'|]; [|discriminate E]. cbn [obind] in E.
      destruct (array_loop p M (S idx) k (f2 :: fs2) r' _ _) as [[[[c1 s1] ls] os]|] eqn:EL; [|discriminate E]. cbn [obind] in E. injection E as <- <- <- <-.
      apply array_loop_off in EL; [|lia|cbn [length] in *; lia|apply felt_fadd; lia|apply felt_fadd; lia]. destruct EL as [-> [-> [-> L]]].
      exists [l], [o], os. repeat split. exact L.
  - cbn [app] in E. destruct (r_shift_left _ _ _ _ _ _) as [r'|]; [|discriminate E]. cbn [obind] in E |- *.
    destruct (array_loop p M (S idx) k (f1 :: fs1 ++ fs2) r' _ _) as [[[[c1 s1] ls] os]|] eqn:EL; [|discriminate E]. cbn [obind] in E. injection E as <- <- <- <-.
    change (f1 :: fs1 ++ fs2) with ((f1 :: fs1) ++ fs2) in EL. apply IH in EL; [|discriminate|cbn [length] in *; lia|exact Hb].
    destruct EL as [l1 [o1 [o2 [E1 [-> [-> L]]]]]]. rewrite E1. cbn [obind]. exists (l :: l1), (o :: o1), o2. repeat split. exact L.
Qed.
Theorem array_check_num a inp k out total lens outs : (1 <= k <= length (ac_fields a))%nat -> Z.of_nat (length (ac_fields a)) < p ->
  rlp_array_check p a inp (Z.of_nat k) = Some (out, total, lens, outs) ->
  exists lens1 outs1 outs2,
    rlp_array_check p (ArrayCheck (ac_maxHexLen a) (ac_prefixMax a) (firstn k (ac_fields a))) inp (Z.of_nat k) = Some (out, total, lens1, outs1) /\
    lens = lens1 ++ repeat 0 (length (ac_fields a) - k) /\ outs = outs1 ++ outs2 /\ length outs2 = (length (ac_fields a) - k)%nat.
Proof.
  intros Hk Hb E. unfold rlp_array_check in *. cbn [ac_prefixMax ac_maxHexLen ac_fields].
  destruct (array_head p (ac_prefixMax a) inp) as [[[iv p1] tt]|]; [|discriminate E]. cbn [obind] in E |- *.
  destruct (guard _) as [[]|]; [|discriminate E]. cbn [obind] in E |- *.
  destruct (ac_fields a) as [|f0 fs] eqn:EFs; [cbn in Hk; lia|]. destruct k as [|k]; [lia|]. change (firstn (S k) (f0 :: fs)) with (f0 :: firstn k fs). cbv iota beta.
  destruct (r_shift_left p (ac_maxHexLen a) 0 10 _ _) as [r0|]; [|discriminate E]. cbn [obind] in E |- *.
  destruct (array_loop p (ac_maxHexLen a) 0 (Z.of_nat (S k)) (f0 :: fs) r0 iv 0) as [[[[c s] ls] os]|] eqn:EL; [|discriminate E]. cbn [obind] in E. injection E as <- <- <- <-.
  assert (SP : f0 :: fs = (f0 :: firstn k fs) ++ skipn k fs) by (cbn [app]; rewrite firstn_skipn; reflexivity). rewrite SP in EL.
  cbn [length] in Hk, Hb. assert (L1 : length (firstn k fs) = k) by (rewrite firstn_length; lia). assert (L2 : length (skipn k fs) = (length fs - k)%nat) by apply skipn_length.
  apply array_loop_num in EL; [|discriminate|cbn [length]; lia|lia]. destruct EL as [l1 [o1 [o2 [E1 [-> [-> L]]]]]]. rewrite E1. cbn [obind]. exists l1, o1, o2.
  rewrite L2 in *. cbn [length]. replace (S (length fs) - S k)%nat with (length fs - k)%nat by lia. auto.
Qed.
Lemma array_loop_lens M k : forall fs idx rlps c s c' s' lens outs, array_loop p M idx k fs rlps c s = Some (c', s', lens, outs) -> length lens = length fs /\ length outs = length fs.
Proof.
  clear Hp. induction fs as [|[fmin fmax] fs IH]; intros idx rlps c s c' s' lens outs E.
  - cbn in E. injection E as <- <- <- <-. auto.
  - cbn [array_loop] in E. destruct (array_field p M idx k fmax rlps) as [[[[o l] ci] li]|]; [|discriminate E]. cbn [obind] in E. destruct fs as [|f2 fs].
    + injection E as <- <- <- <-. auto.
    + destruct (r_shift_left _ _ _ _ _ _) as [r'|]; [|discriminate E]. cbn [obind] in E.
      destruct (array_loop p M (S idx) k (f2 :: fs) r' _ _) as [[[[c1 s1] ls] os]|] eqn:EL; [|discriminate E]. cbn [obind] in E. injection E as <- <- <- <-.
      apply IH in EL. destruct EL. cbn [length] in *. lia.
Qed.
Lemma array_lens a inp k out total lens outs : rlp_array_check p a inp k = Some (out, total, lens, outs) -> length lens = length (ac_fields a) /\ length outs = length (ac_fields a).
Proof.
  clear Hp. intros E. unfold rlp_array_check in E. destruct (array_head p (ac_prefixMax a) inp) as [[[iv p1] tt]|]; [|discriminate E]. cbn [obind] in E.
  destruct (guard _) as [[]|]; [|discriminate E]. cbn [obind] in E. destruct (match ac_fields a with [] => Some [] | _ => _ end) as [r0|]; [|discriminate E]. cbn [obind] in E.
  destruct (array_loop _ _ _ _ _ _ _ _) as [[[[c s] ls] os]|] eqn:EL; [|discriminate E]. cbn [obind] in E. injection E as <- <- <- <-. exact (array_loop_lens _ _ _ _ _ _ _ _ _ _ _ EL).
Qed.
End N.
