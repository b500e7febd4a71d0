(** * MptZero.v — the node checks on an all-zero buffer (the other node type's input) are satisfiable *)
From Coq Require Import ZArith List Lia Bool Arith.
From Verif Require Import ModNorm Field FieldLemmas RlpUtilModel RlpUtilProofs RlpModel RlpSpec RlpPrefixProofs RlpArrayProofs RlpArraySound MptModel MptSpec MptProofs MptPathProofs.
Import ListNotations.
Open Scope Z_scope.

Lemma rotl_zero k M : (k <= M)%nat -> rotl k (repeat 0 M) = repeat 0 M.
Proof.
  intros _. unfold rotl. rewrite repeat_length. apply nth_ext with (d := 0) (d' := 0); [rewrite map_length, seq_length, repeat_length; reflexivity|].
  intros n L.
  rewrite (map_ext _ (fun _ => 0)) by (intros; apply nth_repeat). rewrite nth_repeat. clear L. revert n. generalize (seq 0 M). induction l as [|x l IH]; intros [|n]; cbn; auto.
Qed.
Lemma byte0_zero M : byte0 (repeat 0 M) = 0.
Proof. destruct M as [|[|M]]; reflexivity. Qed.
Definition zq (M : nat) : Z * Z * list Z * Z := (0, 2, repeat 0 M, cinc_of (repeat 0 M)).
Lemma sem_fields_zero M : (2 <= M)%nat -> forall fs, Forall (fun f : nat * nat => fst f = 0%nat /\ (snd f = 0%nat \/ 2 < 2 ^ Z.of_nat (log_ceil (snd f)))) fs ->
  sem_fields fs (repeat 0 M) = Some (map (fun _ => zq M) fs).
Proof.
  intros HM. induction fs as [|[fmin fmax] fs IH]; intros F; cbn [sem_fields map]; [reflexivity|].
  inversion F as [|? ? [F1 F2] F3]; subst. cbn [fst snd] in F1, F2. subst fmin.
  assert (E : field_shape (len_prefix_max fmax) (repeat 0 M) = Some (0, 2)) by (unfold field_shape; rewrite byte0_zero; reflexivity). rewrite E.
  cbv zeta. rewrite rotl_zero by lia. destruct fs as [|f2 fs]; [reflexivity|].
  destruct (Nat.eqb_spec 0 fmax) as [|Ne].
  - rewrite rotl_zero by lia. rewrite IH by exact F3. reflexivity.
  - destruct F2 as [F2|F2]; [lia|]. rewrite Nat.sub_0_r. change (Z.of_nat 0) with 0. change (2 - 0) with 2. destruct (Z.ltb_spec 2 (2 ^ Z.of_nat (log_ceil fmax))); [|lia]. change (0 <=? 2) with true. cbn [andb].
    rewrite rotl_zero by (change (Z.to_nat 2) with 2%nat; lia). rewrite IH by exact F3. reflexivity.
Qed.
Lemma sem_zero a : (18 <= ac_maxHexLen a)%nat -> Forall (fun f : nat * nat => fst f = 0%nat /\ (snd f = 0%nat \/ 2 < 2 ^ Z.of_nat (log_ceil (snd f)))) (ac_fields a) ->
  exists o, sem_array_check a (repeat 0 (ac_maxHexLen a)) = Some (o, 2, map (fun _ => 2) (ac_fields a), map (fun _ => repeat 0 (ac_maxHexLen a)) (ac_fields a)).
Proof.
  intros H F. unfold sem_array_check, head_shape. rewrite byte0_zero. change (classify 0) with (classify 0).
  replace (classify 0) with HLiteral by reflexivity. change (2 + 0 <? 16) with true. cbv iota. rewrite rotl_zero by (change (Z.to_nat (2 + 0)) with 2%nat; lia).
  rewrite sem_fields_zero by (auto; lia). eexists. f_equal. f_equal; [f_equal|]; rewrite map_map; reflexivity.
Qed.

Section P.
Variable p : Z.
Hypothesis Hp : 2 ^ 200 < p.
Let Hp2 : 2 < p. Proof. eapply Z.lt_trans; [|exact Hp]; reflexivity. Qed.
Let Hpb : 2 ^ 70 < p. Proof. eapply Z.lt_trans; [|exact Hp]; reflexivity. Qed.
Let H70 : 2 ^ 70 = 1180591620717411303424. Proof. reflexivity. Qed.
Lemma nib0 M : Forall nibble (repeat 0 M).
Proof. apply Forall_forall. intros x I. apply repeat_spec in I. subst. unfold nibble. lia. Qed.
Lemma felt0 M : forall x, In x (repeat 0 M) -> felt p x.
Proof. intros x I. apply repeat_spec in I. subst. unfold felt. lia. Qed.

Lemma ext_zero keyLen key refLen refs : length key = 64%nat -> (forall x, In x key -> felt p x) -> length refs = 64%nat -> (forall x, In x refs -> felt p x) ->
  exists o, check_extension p 64 64 keyLen key refLen refs (repeat 0 136) 0 = Some (o, 2).
Proof.
  intros Lk Fk Lr Fr. set (a := ext_params 64 64). assert (Pa : params_ok a) by (apply ext_params_ok; vm_compute; (reflexivity || lia)).
  unfold check_extension. fold a. change (repeat 0 136) with (repeat 0 (ac_maxHexLen a)).
  change 2 with (Z.of_nat (length (ac_fields a))) at 1. rewrite (rlp_array_check_ok p Hp) by (auto using nib0; rewrite repeat_length; reflexivity).
  destruct (sem_zero a) as (o & ->); [cbn; lia| |]. { repeat constructor; right; reflexivity. }
  cbn [obind]. change (ac_fields a) with [(0, 66); (0, 64)]%nat. cbn [map nth]. change (ac_maxHexLen a) with 136%nat.
  rewrite (r_shift_left_in_range p Hp2) by (first [apply felt0 | rewrite ?repeat_length; lia]). cbn [obind]. change (Z.to_nat 0) with 0%nat. rewrite rotl_zero by lia.
  replace (fsub p 2 0) with 2 by (rewrite fsub_small; lia).
  rewrite !(r_array_equal_ok p Hp2) by (first [assumption | apply felt0 | rewrite ?repeat_length; lia | unfold felt; lia]). change (2 <=? Z.of_nat 64) with true. cbv iota. cbn [obind]. eexists. reflexivity.
Qed.

Lemma branch_zero kn refLen refs : 0 <= kn < 16 -> 0 <= refLen <= 64 -> length refs = 64%nat -> (forall x, In x refs -> felt p x) ->
  exists o, check_branch p 64 kn refLen refs (repeat 0 1064) = Some (o, 2).
Proof.
  intros Hk Hr Lr Fr. pose proof branch_params_ok as Pa. unfold check_branch.
  assert (E : exists o, rlp_array_check p branch_params (repeat 0 1064) 17 = Some (o, 2, repeat 2 17, repeat (repeat 0 1064) 17)).
  { change 17 with (Z.of_nat (length (ac_fields branch_params))) at 1. change (repeat 0 1064) with (repeat 0 (ac_maxHexLen branch_params)).
    rewrite (rlp_array_check_ok p Hp) by (auto using nib0; rewrite repeat_length; reflexivity).
    destruct (sem_zero branch_params) as (o & ->); [cbn [branch_params ac_maxHexLen]; lia| |]. { unfold branch_params. cbn [ac_fields]. apply Forall_app. split; [apply Forall_forall; intros x I; apply repeat_spec in I; subst; split; [reflexivity|right; reflexivity]|repeat constructor]. }
    exists o. reflexivity. }
  destruct E as (o & E). pose proof E as E'. rewrite E. cbn [obind].
  destruct (branch_shape p Hp (repeat 0 1064) _ _ _ _ ltac:(rewrite repeat_length; lia) (nib0 _) E') as (_ & _ & L1 & L2 & B5 & B6 & _).
  rewrite (branch_rows_mux p Hp) by (auto; unfold felt; lia). destruct (Z.ltb_spec kn 16); [|lia]. cbn [obind].
  set (c := nth _ _ _). assert (Hc : c = repeat 0 1064). { unfold c. clear - Hk. assert (K : (Z.to_nat kn < 17)%nat) by lia. revert K. generalize (Z.to_nat kn). intros n K. do 17 (destruct n as [|n]; [reflexivity|]). lia. }
  rewrite Hc. rewrite (r_array_equal_ok p Hp2); [|exact Fr|intros x I; apply (felt0 1064); rewrite <- (firstn_skipn 64 (repeat 0 1064)); apply in_or_app; left; exact I|unfold felt; lia|lia|rewrite firstn_length, repeat_length; lia|lia|rewrite firstn_length, repeat_length; lia|lia].
  destruct (Z.leb_spec refLen (Z.of_nat 64)); [|lia]. cbn [obind].
  rewrite (r_mux1_ok p Hp2); [|unfold felt; lia|lia|cbn [repeat firstn length]; lia|intros x I; apply (repeat_spec 16 2) in I; subst; unfold felt; lia].
  destruct (Z.ltb_spec kn (Z.of_nat 16)); [|lia]. cbn [obind]. eexists. reflexivity.
Qed.
End P.
