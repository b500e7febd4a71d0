(** * MptNoBranch.v — CheckMPTInclusionNoBranchTermination: what Output = 1 means *)
From Coq Require Import ZArith List Lia Bool Arith.
From Verif Require Import ModNorm Field FieldLemmas RlpUtilModel RlpUtilProofs RlpModel RlpSpec RlpPrefixProofs RlpArrayProofs RlpArraySound MptModel MptSpec MptProofs MptPathProofs MptPathSound.
Import ListNotations.
Open Scope Z_scope.
Open Scope circ_scope.

Ltac Zify.zify_post_hook ::= Z.div_mod_to_equations.

Section P.
Variable p : Z.
Hypothesis Hp : 2 ^ 200 < p.
Let Hp' : 1606938044258990275541962092341162602522202993782792835301376 < p := Hp.
Let Hp2 : 2 < p. Proof. zlia. Qed.
Variable hash : list Z -> Z -> option (list Z).
Hypothesis Hhash : hash_ok p hash.

(** the sub-array gadget of this variant *)
Lemma sub_small_ok : forall n key s0 s1 sel l, felts p key -> (n <= length key)%nat -> (0 < n <= 7)%nat -> felt p s0 -> felt p s1 ->
  r_sub_array p n n (log_ceil n) (firstn 7 key) s0 s1 = Some (sel, l) ->
  s0 <= s1 <= Z.of_nat n /\ length sel = n /\ felts p sel /\ firstn (Z.to_nat (s1 - s0)) sel = slice s0 s1 key.
Proof.
  intros n key s0 s1 sel l Fk Lk Hn F0 F1 H.
  assert (L7 : (n <= length (firstn 7 key))%nat) by (rewrite firstn_length; lia).
  assert (Fk' : forall x, In x (firstn 7 key) -> felt p x).
  { intros x Hx. apply Fk. rewrite <- (firstn_skipn 7 key). apply in_or_app; auto. }
  pose proof (field_bits_200 p Hp) as FB.
  assert (Hlog : (0 < log_ceil n <= 7)%nat /\ Z.of_nat n < 2 ^ Z.of_nat (log_ceil n)).
  { split; [split|].
    - apply log_ceil_pos; zlia.
    - do 8 (destruct n as [|n]; [vm_compute; lia|]). lia.
    - apply log_ceil_bound; zlia. }
  rewrite r_sub_array_ok in H; auto; try lia; try zlia.
  destruct (Z.leb_spec s0 s1); cbn [andb] in H; [|discriminate].
  destruct (Z.leb_spec s1 (Z.of_nat n)); cbn [andb] in H; [|discriminate].
  destruct (Z.leb_spec (s1 - s0) (Z.of_nat n)); cbn [andb] in H; [|discriminate].
  assert (sel = firstn n (rotl (Z.to_nat s0) (firstn n (firstn 7 key)))) as -> by congruence.
  rewrite (firstn_firstn key), Nat.min_l by lia. unfold felt in F0.
  assert (Ln : length (firstn n key) = n) by (rewrite firstn_length; lia).
  split; [lia|]. split; [rewrite firstn_length, rotl_length, Ln; lia|]. split.
  { intros x Hx. apply (rotl_felt p (Z.to_nat s0) (firstn n key)).
    - intros y Hy. apply Fk. rewrite <- (firstn_skipn n key). apply in_or_app; auto.
    - rewrite <- (firstn_skipn n (rotl _ _)). apply in_or_app; auto. }
  rewrite firstn_firstn, Nat.min_l by lia. rewrite firstn_rotl_prefix by lia.
  unfold slice. rewrite skipn_firstn_comm, firstn_firstn. f_equal. lia.
Qed.

(** Score of layer k: what the gadget adds for that layer. *)
Definition layer_score (i : layers_in) (rs : list (Z * Z)) (k : nat) : Z :=
  if nth k (li_types i) 0 =? 1 then fst (nth k rs (0, 0)) else snd (nth k rs (0, 0)).

Definition nb_sub (maxKey : nat) (i : layers_in) : Z -> Z -> option (list Z * Z) :=
  fun from end_ => r_sub_array p maxKey maxKey (log_ceil maxKey) (firstn 7 (li_key i)) from end_.

Theorem no_branch_score : forall maxDepth maxKey keyLength rootHash leafHash i out vl,
  (maxDepth <= 100)%nat -> (1 <= maxKey)%nat -> 0 <= keyLength < 2 ^ 60 ->
  length rootHash = 64%nat -> length leafHash = 64%nat -> Forall nibble leafHash -> felts p rootHash -> layers_felts p i ->
  check_mpt_no_branch_term p hash maxDepth maxKey keyLength rootHash leafHash i = Some (out, vl) ->
  exists fv rs root,
    frags_valid p (fun k => fsub p 1 (nth k (li_types i) 0)) maxDepth keyLength (li_starts i) (li_depth i) = Some fv /\
    layers_loop p hash maxKey (nb_sub maxKey i) i (leafHash, 64) (maxDepth - 1) 0 = Some (rs, Some root) /\
    is_bit fv /\ 1 <= li_depth i <= Z.of_nat maxDepth /\
    (forall k, (k < maxDepth - 1)%nat -> 0 <= layer_score i rs k <= 4) /\
    out = bit_of ((if list_eq_dec Z.eq_dec rootHash (fst root) then 1 else 0) + fv
             + zsum (map (layer_score i rs) (seq 0 (Z.to_nat (li_depth i) - 1))) =? 4 * (li_depth i - 1) + 1).
Proof.
  intros maxDepth maxKey keyLength rootHash leafHash i out vl Bd Bmk Bk Lr Ll Nl Fr (Fk & Fs & Fn & Fp & Fal & Frd & Ft & Fd) H.
  unfold check_mpt_no_branch_term in H.
  destruct (assert_le p (Z.of_nat maxDepth) 10) as [[]|] eqn:E0; [ostep H|discriminate].
  destruct (sizes_ok maxDepth i) eqn:Esz; cbn [guard] in H; [ostep H|discriminate].
  unfold sizes_ok in Esz. rewrite !andb_true_iff, !Nat.leb_le in Esz. destruct Esz as (((((Z1 & Z2) & Z3) & Z4) & Z5) & Z6).
  destruct (frags_valid p _ _ _ _ _) as [fv|] eqn:Efv; [ostep H|discriminate].
  pose proof Efv as Efv'. apply frags_valid_ok in Efv'; auto; try zlia.
  2:{ intros k. apply felt_fsub; zlia. }
  destruct Efv' as (Bfv & Bdep & Tb & _).
  assert (Tb' : forall k, (k < maxDepth - 1)%nat -> is_bit (nth k (li_types i) 0)).
  { intros k Hk. specialize (Tb k Hk). assert (felt p (nth k (li_types i) 0)) as Q by (apply Ft, nth_In; lia).
    unfold felt in Q. unfold is_bit, fsub in *. destruct (Z.eq_dec (nth k (li_types i) 0) 0); [auto|right].
    destruct (Z.eq_dec (nth k (li_types i) 0) 1) as [|N1]; [auto|].
    assert ((1 - nth k (li_types i) 0) mod p = 1 - nth k (li_types i) 0 + p). { symmetry. apply Z.mod_unique with (q := -1); zlia. }
    zlia. }
  destruct (r_mux1 p _ maxDepth (firstn maxDepth (li_starts i))) as [leafStart|] eqn:Els; [ostep H|discriminate].
  destruct (_ && _) eqn:Eg; cbn [guard] in H; [ostep H|discriminate]. apply andb_true_iff in Eg. rewrite !Nat.leb_le in Eg. destruct Eg as [G7 Gm].
  fold (nb_sub maxKey i) in H.
  destruct (layers_loop p hash maxKey (nb_sub maxKey i) i (leafHash, 64) (maxDepth - 1) 0) as [[rs h0]|] eqn:Ell; [ostep H|discriminate].
  pose proof Ell as Ell'.
  assert (Hsub : forall s0 s1 sel l, felt p s0 -> felt p s1 -> nb_sub maxKey i s0 s1 = Some (sel, l) ->
     s0 <= s1 <= Z.of_nat maxKey /\ length sel = maxKey /\ (forall x, In x sel -> felt p x) /\ firstn (Z.to_nat (s1 - s0)) sel = slice s0 s1 (li_key i)).
  { intros s0 s1 sel l Q0 Q1 Q2. unfold nb_sub in Q2. apply sub_small_ok in Q2; auto; lia. }
  apply (layers_loop_ok p Hp hash Hhash maxKey _ i (leafHash, 64) ltac:(lia) Fk Fs (fun l x a b => Fn l a x b) Fal Frd Fp Fd Hsub) in Ell'; [|repeat split; cbn [fst snd]; auto; lia|intros k Hk; apply Tb'; lia|lia].
  destruct Ell' as (hs & A1 & A2 & A3 & A4 & A5).
  destruct h0 as [root|]; [|discriminate].
  assert (Ehd : nth 0 hs ([], 0) = root). { destruct hs; cbn in *; congruence. }
  assert (Groot : good_ref root). { rewrite <- Ehd. rewrite Forall_forall in A4. apply A4, nth_In. lia. }
  destruct Groot as (G1 & G2 & G3).
  exists fv, rs, root. split; [reflexivity|]. split; [reflexivity|]. split; [auto|]. split; [lia|].
  assert (Frs : Forall (fun r => 0 <= fst r <= 4 /\ 0 <= snd r <= 4) rs).
  { apply Forall_forall. intros x Hx. apply In_nth with (d := (0, 0)) in Hx. destruct Hx as (k & Hk & <-).
    specialize (A5 k ltac:(lia)). cbn [Nat.add] in A5. destruct (nth k rs (0, 0)) as [e b]. cbn [fst snd]. unfold layer_fact in A5. tauto. }
  assert (Bsc : forall k, (k < maxDepth - 1)%nat -> 0 <= layer_score i rs k <= 4).
  { intros k Hk. rewrite Forall_forall in Frs. assert (Hin : In (nth k rs (0, 0)) rs) by (apply nth_In; lia). apply Frs in Hin.
    unfold layer_score. destruct (_ =? 1); tauto. }
  split; [auto|].
  rewrite r_array_equal_ok in H; auto; try zlia.
  2:{ apply Forall_nibble_felt; auto. } 2:{ unfold felt; zlia. }
  change (64 <=? Z.of_nat 64) with true in H. cbv iota in H. ostep H.
  change (Z.to_nat 64) with 64%nat in H.
  assert (Erc : bit_of (prefix_eqb 64 rootHash (fst root)) = if list_eq_dec Z.eq_dec rootHash (fst root) then 1 else 0).
  { unfold prefix_eqb. rewrite !firstn_all2 by lia. destruct (list_eq_dec _ _ _); reflexivity. }
  rewrite Erc in H. set (rc := if list_eq_dec Z.eq_dec rootHash (fst root) then 1 else 0) in *.
  assert (Brc : is_bit rc) by (rewrite <- Erc; apply bit_of_bit).
  assert (Ebase : fadd p (fadd p rc 4) fv = rc + 4 + fv) by (unfold is_bit in *; mnorm_lhs p; rewrite Z.mod_small; zlia).
  rewrite Ebase in H.
  rewrite fsub_small in * by zlia.
  set (types' := firstn (maxDepth - 1) (li_types i)).
  assert (Lt' : length types' = (maxDepth - 1)%nat) by (unfold types'; rewrite firstn_length; lia).
  assert (Elsum : forall acc, layer_sums p acc (li_types i) rs = layer_sums p acc types' rs).
  { clear - A1 Z6. unfold types'. revert A1 Z6. generalize (maxDepth - 1)%nat as n. generalize (li_types i) as ts. induction rs as [|[e b] rs' IH]; intros ts n A1 Z6 acc.
    - destruct ts, n; reflexivity.
    - destruct ts; [cbn in *; lia|]. destruct n; [cbn in *; lia|]. cbn [firstn layer_sums]. f_equal. apply IH; cbn in *; lia. }
  rewrite Elsum in H.
  assert (Ft' : Forall is_bit types').
  { apply Forall_forall. intros x Hx. apply In_nth with (d := 0) in Hx. destruct Hx as (k & Hk & <-). unfold types'. rewrite nth_firstn' by lia. apply Tb'. lia. }
  rewrite r_mux1_ok in H; auto; try zlia.
  2:{ unfold felt; zlia. }
  2:{ cbn [length]. assert (Q : forall ts rs acc, length (layer_sums p acc ts rs) = Nat.min (length ts) (length rs)).
      { clear. induction ts as [|t ts IH]; intros [|[e b] rs] acc; cbn; auto. }
      rewrite Q. lia. }
  2:{ intros x [<-|Hx]; [unfold felt, is_bit in *; zlia|].
      revert Hx. generalize (rc + 4 + fv). clear - Hp'. generalize types'. induction rs as [|[e b] rs' IH]; intros ts acc Hx; destruct ts; cbn in Hx; try easy.
      destruct Hx as [<-|Hx]; [apply felt_fadd; zlia|eapply IH; eauto]. }
  destruct (Z.ltb_spec (li_depth i - 1) (Z.of_nat maxDepth)); [|lia]. ostep H.
  rewrite layer_sums_ok in H by (auto; unfold is_bit in *; try lia).
  replace (Z.to_nat (li_depth i) - 1)%nat with (Z.to_nat (li_depth i - 1)) by lia.
  assert (Et : map (fun j => if nth j types' 0 =? 1 then fst (nth j rs (0, 0)) else snd (nth j rs (0, 0))) (seq 0 (Z.to_nat (li_depth i - 1)))
    = map (layer_score i rs) (seq 0 (Z.to_nat (li_depth i - 1)))).
  { apply map_ext_in. intros j Hj. apply in_seq in Hj. unfold layer_score, types'. rewrite nth_firstn' by lia. reflexivity. }
  rewrite Et in H. set (terms := map (layer_score i rs) (seq 0 (Z.to_nat (li_depth i - 1)))) in *.
  assert (Lterms : Z.of_nat (length terms) = li_depth i - 1) by (unfold terms; rewrite map_length, seq_length; lia).
  assert (Fterms : Forall (fun x => 0 <= x <= 4) terms).
  { apply Forall_forall. intros x Hx. unfold terms in Hx. apply in_map_iff in Hx. destruct Hx as (j & <- & Hj). apply in_seq in Hj. apply Bsc. lia. }
  assert (Ub : zsum terms <= 4 * Z.of_nat (length terms)) by (apply zsum_ub; eapply Forall_impl; [|exact Fterms]; cbv beta; intros; lia).
  assert (Lb : 0 <= zsum terms) by (apply zsum_lb; eapply Forall_impl; [|exact Fterms]; cbv beta; intros; lia).
  assert (E2 : fadd p (fmul p (li_depth i) 4) 1 = 4 * li_depth i + 1) by (mnorm_lhs p; rewrite Z.mod_small; zlia).
  rewrite E2 in H. rewrite r_equal_ok in H by (unfold felt, is_bit in *; zlia).
  assert (out = bit_of (rc + 4 + fv + zsum terms =? 4 * li_depth i + 1)) as -> by congruence.
  f_equal. destruct (Z.eqb_spec (rc + 4 + fv + zsum terms) (4 * li_depth i + 1)), (Z.eqb_spec (rc + fv + zsum terms) (4 * (li_depth i - 1) + 1)); auto; lia.
Qed.

(** Full marks everywhere — right root, valid path, every layer perfect — are rejected. *)
Corollary no_branch_full_score_rejected : forall maxDepth maxKey keyLength rootHash leafHash i out vl,
  (maxDepth <= 100)%nat -> (1 <= maxKey)%nat -> 0 <= keyLength < 2 ^ 60 ->
  length rootHash = 64%nat -> length leafHash = 64%nat -> Forall nibble leafHash -> felts p rootHash -> layers_felts p i ->
  check_mpt_no_branch_term p hash maxDepth maxKey keyLength rootHash leafHash i = Some (out, vl) ->
  frags_valid p (fun k => fsub p 1 (nth k (li_types i) 0)) maxDepth keyLength (li_starts i) (li_depth i) = Some 1 ->
  (forall rs root, layers_loop p hash maxKey (nb_sub maxKey i) i (leafHash, 64) (maxDepth - 1) 0 = Some (rs, Some root) ->
     rootHash = fst root /\ forall k, Z.of_nat k < li_depth i - 1 -> layer_score i rs k = 4) ->
  out = 0.
Proof.
  intros maxDepth maxKey keyLength rootHash leafHash i out vl Bd Bmk Bk Lr Ll Nl Fr FF H Hf Hs.
  destruct (no_branch_score _ _ _ _ _ _ _ _ Bd Bmk Bk Lr Ll Nl Fr FF H) as (fv & rs & root & E1 & E2 & B1 & B2 & B3 & ->).
  destruct (Hs _ _ E2) as [Er Ek]. rewrite Hf in E1. assert (fv = 1) as -> by congruence.
  destruct (list_eq_dec Z.eq_dec rootHash (fst root)); [|contradiction].
  assert (Esum : zsum (map (layer_score i rs) (seq 0 (Z.to_nat (li_depth i) - 1))) = 4 * (li_depth i - 1)).
  { assert (Q : forall l, (forall k, In k l -> layer_score i rs k = 4) -> zsum (map (layer_score i rs) l) = 4 * Z.of_nat (length l)).
    { induction l as [|k l IH]; intros Hl; [reflexivity|]. cbn [map zsum fold_right length]. unfold zsum in *. rewrite IH by (intros; apply Hl; right; auto). rewrite Hl by (left; auto). lia. }
    rewrite Q; [rewrite seq_length; lia|]. intros k Hk. apply in_seq in Hk. apply Ek. lia. }
  rewrite Esum. destruct (Z.eqb_spec (1 + 1 + 4 * (li_depth i - 1)) (4 * (li_depth i - 1) + 1)); [lia|reflexivity].
Qed.
End P.
