(** * EthProofs.v — what the block-hash, account and storage gadgets read *)
From Coq Require Import ZArith List Lia Bool Arith.
From Verif Require Import ModNorm Field FieldLemmas RlpUtilModel RlpUtilProofs RlpModel RlpSpec RlpPrefixProofs RlpArrayProofs RlpArraySound BlkProofs ArrayFelt
  HexProofs MptModel MptSpec MptPathProofs MptPathSound EthModel.
Import ListNotations.
Open Scope Z_scope.
Open Scope circ_scope.

Ltac Zify.zify_post_hook ::= Z.div_mod_to_equations.

(** ** BlkHeaderRlpCheck: every field that is not last and has 0 < min <> max must be in use *)
Lemma sem_blk_unused : forall fs idx fn r q k f, sem_blk idx fn fs r = Some q -> nth_error fs k = Some f -> (S k < length fs)%nat ->
  (0 < fst f)%nat -> fst f <> snd f -> Z.of_nat (idx + k) < fn.
Proof.
  induction fs as [|[fmin fmax] rest IH]; intros idx fn r q k f H Hk Hl H0 Hne; [destruct k; discriminate|].
  cbn [sem_blk] in H. destruct (field_shape _ r) as [[h l]|]; [|discriminate].
  destruct rest as [|f2 rest]; [cbn [length] in Hl; lia|].
  destruct (if Nat.eqb fmin fmax then _ else _) as [r'|] eqn:En; [|discriminate].
  destruct (sem_blk (S idx) fn (f2 :: rest) r') as [q'|] eqn:Eq; [|discriminate].
  destruct k as [|k].
  - cbn [nth_error] in Hk. assert (f = (fmin, fmax)) by congruence. subst f. cbn [fst snd] in *.
    destruct (Nat.eqb_spec fmin fmax); [lia|]. rewrite Nat.add_0_r.
    destruct (Z.ltb_spec (Z.of_nat idx) fn); [auto|]. cbn [kept] in En.
    destruct (Z.leb_spec (Z.of_nat fmin) 0); [lia|]. cbn [andb] in En. discriminate.
  - cbn [nth_error] in Hk. cbn [length] in Hl. pose proof (IH (S idx) fn r' q' k f Eq Hk ltac:(cbn [length]; lia) H0 Hne) as B.
    replace (idx + S k)%nat with (S idx + k)%nat by lia. exact B.
Qed.

(** ** The fields in use are read right whatever follows *)
Lemma sem_blk_prefix : forall fs1 fs2 its idx fn tail q, Forall2 item_fits fs1 its -> Forall (fun f => Z.of_nat (snd f) < 2 ^ 63) fs1 ->
  Z.of_nat (idx + length fs1) <= fn -> sem_blk idx fn (fs1 ++ fs2) (encs its ++ tail) = Some q ->
  Forall2 (fun it x => q_l x = Z.of_nat (length (payload it)) /\ firstn (length (payload it)) (q_out x) = payload it /\ length (q_out x) = length (encs its ++ tail))
    its (firstn (length its) q).
Proof.
  induction fs1 as [|[fmin fmax] rest IH]; intros fs2 its idx fn tail q HF HB Hfn H.
  { inversion HF; subst. cbn [length firstn]. constructor. }
  inversion HF as [|f it fs' its' H1 H2]; subst.
  cbn [app sem_blk] in H. cbn [length] in Hfn. destruct H1 as (A1 & A2 & A3 & A4). cbn [fst snd] in *. rewrite encs_cons, <- app_assoc in *.
  destruct (item_field_shape (len_prefix_max fmax) it (encs its' ++ tail) A1 A3) as [Hs _].
  rewrite Hs in H. destruct (Z.ltb_spec (Z.of_nat idx) fn); [|lia]. cbn [kept] in H.
  assert (Hr1 : rotl (Z.to_nat (Z.of_nat (length (hdr it)))) (enc it ++ encs its' ++ tail) = payload it ++ encs its' ++ tail ++ hdr it).
  { rewrite Nat2Z.id. unfold enc. fold (hdr it) (payload it). rewrite <- app_assoc, rotl_app. rewrite <- !app_assoc. auto. }
  rewrite Hr1 in H.
  assert (Hr2 : rotl (length (payload it)) (payload it ++ encs its' ++ tail ++ hdr it) = encs its' ++ (tail ++ hdr it ++ payload it)).
  { rewrite rotl_app. rewrite <- !app_assoc. auto. }
  assert (Hfst : firstn (length (payload it)) (payload it ++ encs its' ++ tail ++ hdr it) = payload it).
  { rewrite firstn_app, firstn_all, Nat.sub_diag. cbn. apply app_nil_r. }
  assert (Hlen : length (payload it ++ encs its' ++ tail ++ hdr it) = length (enc it ++ encs its' ++ tail)).
  { unfold enc. fold (hdr it) (payload it). rewrite !app_length. lia. }
  set (c := cinc_of (enc it ++ encs its' ++ tail)) in *.
  set (x := (Z.of_nat (length (hdr it)), Z.of_nat (length (payload it)), payload it ++ encs its' ++ tail ++ hdr it, c)) in *.
  assert (Hx : q_l x = Z.of_nat (length (payload it)) /\ firstn (length (payload it)) (q_out x) = payload it /\ length (q_out x) = length (enc it ++ encs its' ++ tail)).
  { unfold x, q_l, q_out. cbn [fst snd]. auto. }
  destruct (rest ++ fs2) as [|f2 r2] eqn:Er.
  - destruct rest; [|discriminate]. inversion H2; subst. cbn [length firstn]. assert (q = [x]) by congruence. subst q. cbn [firstn]. constructor; auto.
  - assert (Hnext : (if Nat.eqb fmin fmax then Some (rotl fmin (payload it ++ encs its' ++ tail ++ hdr it))
       else if (Z.of_nat fmin <=? Z.of_nat (length (payload it))) &&
               (Z.of_nat (length (payload it)) - Z.of_nat fmin <? 2 ^ Z.of_nat (log_ceil (fmax - fmin)))
            then Some (rotl (Z.to_nat (Z.of_nat (length (payload it)))) (payload it ++ encs its' ++ tail ++ hdr it)) else None)
       = Some (encs its' ++ (tail ++ hdr it ++ payload it))).
    { inversion HB as [|? ? HB1 HB2]; subst. cbn [snd] in HB1. destruct (Nat.eqb_spec fmin fmax) as [e|e].
      - replace fmin with (length (payload it)) by lia. rewrite Hr2. auto.
      - destruct (Z.leb_spec (Z.of_nat fmin) (Z.of_nat (length (payload it)))); [|lia]. cbn [andb].
        pose proof (log_ceil_bound (fmax - fmin) ltac:(zlia)).
        destruct (Z.ltb_spec (Z.of_nat (length (payload it)) - Z.of_nat fmin) (2 ^ Z.of_nat (log_ceil (fmax - fmin)))); [|lia].
        rewrite Nat2Z.id, Hr2. auto. }
    rewrite Hnext in H. destruct (sem_blk (S idx) fn (f2 :: r2) _) as [q'|] eqn:Eq; [|discriminate].
    assert (q = x :: q') by congruence. subst q. rewrite <- Er in Eq.
    inversion HB as [|? ? HB1 HB2]; subst.
    pose proof (IH fs2 its' (S idx) fn (tail ++ hdr it ++ payload it) q' H2 HB2 ltac:(lia) Eq) as B. cbn [length firstn]. constructor; [exact Hx|].
    eapply Forall2_impl'; [|exact B]. intros i o (X1 & X2 & X3). split; [auto|]. split; [auto|]. rewrite X3. unfold enc. fold (hdr it) (payload it). rewrite !app_length. lia.
Qed.

Lemma head_shape_item : forall n inp h pl rest, inp = h ++ pl ++ rest -> list_header h -> rlp_item (h ++ pl) h pl -> (length h <= 2 + n)%nat ->
  head_shape n inp = Some (1, Z.of_nat (length h) - 2, Z.of_nat (length pl)) /\ (2 <= length h)%nat.
Proof.
  intros n inp h pl rest Hinp (b & hr & Hh1 & Hh2 & Hh3) Hitem Hpm.
  assert (Hb0 : byte0 inp = b) by (rewrite Hinp, Hh1, <- !app_assoc; apply byte0_bn; auto).
  split; [|rewrite Hh1, app_length; cbn; lia].
  unfold head_shape. rewrite Hb0.
  inversion Hitem as [b' Hb E1 E2 E3|b' len pl' Hc Hb Hlen E1 E2 E3|b' lenlen ln pl' Hc Hb Hll Hnb Hlen E1 E2 E3].
  - rewrite <- E2 in Hh1. discriminate.
  - rewrite <- E2 in Hh1.
    assert (b' = b).
    { assert (byte0 (byte_nibbles b' ++ []) = byte0 (byte_nibbles b ++ hr)) by (rewrite app_nil_r; congruence).
      rewrite !byte0_bn in * by auto. auto. }
    subst b'. destruct Hc as [Hc|Hc]; rewrite Hc in *; [discriminate|].
    rewrite <- Hlen. reflexivity.
  - assert (b' = b).
    { rewrite Hh1 in E2. assert (byte0 (byte_nibbles b' ++ ln) = byte0 (byte_nibbles b ++ hr)) by congruence.
      rewrite !byte0_bn in * by auto. auto. }
    subst b'. destruct Hc as [Hc|Hc]; rewrite Hc in *; [discriminate|].
    assert (Hlh : length h = (2 + Z.to_nat (2 * lenlen))%nat) by (rewrite <- E2, app_length; cbn [length byte_nibbles]; lia).
    pose proof (classify_cases b Hh2) as Hk. rewrite Hc in Hk.
    destruct (Z.leb_spec (2 * lenlen) (Z.of_nat n)); [|lia].
    assert (Hfn' : firstn (Z.to_nat (2 * lenlen)) (skipn 2 inp) = ln).
    { rewrite Hinp, <- E2, <- !app_assoc. unfold byte_nibbles. cbn [app skipn].
      replace (Z.to_nat (2 * lenlen)) with (length ln + 0)%nat by lia.
      rewrite firstn_app_2. cbn [firstn]. apply app_nil_r. }
    rewrite Hfn', E2, Hlen, Hlh. do 2 f_equal. f_equal. lia.
Qed.

(** BlkHeaderRlpCheck on a buffer that starts with the items of [fs1]: whenever it is satisfiable with at least those fields in use,
    their lengths and contents are reported, whatever stands behind them and whatever the verdict *)
Theorem blk_check_prefix : forall p a inp h its rest fn fs1 fs2 out total lens outs, 2 ^ 200 < p -> params_ok a ->
  length inp = ac_maxHexLen a -> Forall nibble inp -> inp = h ++ encs its ++ rest ->
  list_header h -> (exists pl tl, encs its ++ rest = pl ++ tl /\ rlp_item (h ++ pl) h pl) -> (length h <= 2 + ac_prefixMax a)%nat ->
  ac_fields a = fs1 ++ fs2 -> Forall2 item_fits fs1 its -> Z.of_nat (length fs1) <= fn < p ->
  blk_header_rlp_check p a inp fn = Some (out, total, lens, outs) ->
  Forall2 (fun it l => l = Z.of_nat (length (payload it))) its (firstn (length its) lens) /\
  Forall2 (fun it o => firstn (length (payload it)) o = payload it) its (firstn (length its) outs).
Proof.
  intros p a inp h its rest fn fs1 fs2 out total lens outs Hp Ha Hl Hn Hinp Lh (pl & tl & Epl & Hitem) Hpm Hfs HF Hfn H.
  rewrite (blk_check_ok p Hp) in H by (auto; unfold felt; lia). unfold sem_blk_check in H.
  destruct (head_shape_item (ac_prefixMax a) inp h pl tl) as [Hhs Hh2']; auto. { rewrite <- Epl. exact Hinp. }
  rewrite Hhs in H. replace (2 + (Z.of_nat (length h) - 2)) with (Z.of_nat (length h)) in H by lia.
  destruct (Z.ltb_spec (Z.of_nat (length h)) (2 ^ Z.of_nat (log_ceil (ac_prefixMax a)))); [|discriminate].
  rewrite Nat2Z.id, Hinp, rotl_app, <- app_assoc, Hfs in H.
  destruct (sem_blk 0 fn (fs1 ++ fs2) (encs its ++ rest ++ h)) as [q|] eqn:Eq; [|discriminate].
  assert (El : lens = map q_l q) by congruence. assert (Eo : outs = map q_out q) by congruence. subst lens outs.
  assert (HB : Forall (fun f => Z.of_nat (snd f) < 2 ^ 63) fs1).
  { destruct Ha as (_ & _ & _ & _ & P5). unfold fields_ok in P5. rewrite Hfs in P5. apply Forall_app in P5. eapply Forall_impl; [|exact (proj1 P5)]. cbn. tauto. }
  pose proof (sem_blk_prefix fs1 fs2 its 0 fn (rest ++ h) q HF HB ltac:(lia) Eq) as B. rewrite !firstn_map.
  split; [clear -B|clear -B]; induction B as [|it x its0 q0 (X1 & X2 & X3)]; cbn [map]; constructor; auto.
Qed.
Theorem blk_check_unused : forall p a inp fn r k f, 2 ^ 200 < p -> params_ok a -> length inp = ac_maxHexLen a -> Forall nibble inp -> 0 <= fn < p ->
  blk_header_rlp_check p a inp fn = Some r -> nth_error (ac_fields a) k = Some f -> (S k < length (ac_fields a))%nat -> (0 < fst f)%nat -> fst f <> snd f ->
  Z.of_nat k < fn.
Proof.
  intros p a inp fn r k f Hp Ha Hl Hn Hfn H Hk Hlt H0 Hne. rewrite (blk_check_ok p Hp) in H by (auto; unfold felt; lia). unfold sem_blk_check in H.
  destruct (head_shape _ inp) as [[[v pre] total]|]; [|discriminate]. destruct (_ <? _); [|discriminate].
  destruct (sem_blk 0 fn (ac_fields a) _) as [q|] eqn:Eq; [|discriminate].
  exact (sem_blk_unused _ 0 fn _ q k f Eq Hk Hlt H0 Hne).
Qed.

Lemma some_inj : forall A (x y : A), Some x = Some y -> y = x.
Proof. intros A x y H. congruence. Qed.

Section A.
Variable p : Z.
Hypothesis Hp : 2 ^ 200 < p.
Let Hp' : 1606938044258990275541962092341162602522202993782792835301376 < p := Hp.
Let Hp3 : 4096 < p. Proof. zlia. Qed.
Let Hp2 : 2 < p. Proof. zlia. Qed.

Lemma nth_felt_ : forall (l : list Z) k, feltl p l -> felt p (nth k l 0).
Proof. intros l k F. destruct (Nat.lt_ge_cases k (length l)); [apply F, nth_In; auto|]. rewrite nth_overflow by auto. unfold felt. zlia. Qed.
(** the validity count of a field on arbitrary field elements *)
Lemma field_valid_any : forall a b, felt p a -> felt p b ->
  fp_isValid (rlp_field_prefix p a b) = if (a =? 12) && (b =? 0) then 2 else 1.
Proof.
  intros a b Fa Fb. unfold rlp_field_prefix, rlp_array_prefix. cbv zeta. cbn [fp_isValid].
  assert (F12 : felt p 12) by (unfold felt; zlia).
  rewrite !r_less_than_ok, !fis_zero_sub by (auto; unfold felt; zlia). rewrite (fis_zero_felt p b) by auto.
  rewrite (one_minus_bit p Hp3), (mul_bits p Hp3), (mul_bits p Hp3).
  destruct (Z.ltb_spec a 12), (Z.eqb_spec a 12), (Z.eqb_spec b 0); cbn [negb andb bit_of]; try zlia; mnorm_lhs p; rewrite Z.mod_small; zlia.
Qed.
Lemma array_field_any : forall M idx fieldNum fmax r out l c s, length r = M -> feltl p r -> Z.of_nat idx < fieldNum < p -> (2 <= M)%nat ->
  array_field p M idx fieldNum fmax r = Some (out, l, c, s) ->
  c = 1 \/ (c = 2 /\ s = 2).
Proof.
  intros M idx fieldNum fmax r out l c s Hl Hf Hi HM H.
  assert (Fa := nth_felt_ r 0 Hf). assert (Fb := nth_felt_ r 1 Hf).
  pose proof (field_valid_any _ _ Fa Fb) as Hv.
  unfold array_field in H. rewrite r_less_than_ok in H by (try zlia; unfold felt; zlia).
  replace (Z.of_nat idx <? fieldNum) with true in H by (symmetry; apply Z.ltb_lt; zlia). cbn [bit_of] in H. cbv zeta in H.
  apply obind_Some in H as (lit & E1 & H). apply obind_Some in H as (o & E2 & H). apply obind_Some in H as (u & E3 & H). apply obind_Some in H as (v & E4 & H).
  assert (Ec : c = fmul p (fp_isValid (rlp_field_prefix p (nth 0 r 0) (nth 1 r 0))) 1) by congruence.
  rewrite Hv in Ec. rewrite fmul1r in Ec by (unfold felt; destruct (_ && _); zlia).
  destruct (Z.eqb_spec (nth 0 r 0) 12) as [Ea|Ea]; cbn [andb] in Ec; [|left; exact Ec].
  destruct (Z.eqb_spec (nth 1 r 0) 0) as [Eb|Eb]; [|left; exact Ec]. right. split; [exact Ec|].
  match type of H with Some (_, _, _, ?x) = _ => assert (Es : s = x) by congruence end.
  rewrite Ea, Eb in E1, Es. rewrite field_prefix_ok in E1, Es by (auto; unfold nibble; zlia). cbv zeta in E1, Es.
  change (16 * 12 + 0) with 192 in *. cbn [fp_isBig fp_isLiteral fp_hexLen fp_isValid] in E1, Es.
  change (classify 192) with (HShortList 0) in *. cbn [head_hexlen head_big head_literal bit_of] in E1, Es.
  replace (fsub p 1 1) with 0 in E1 by (symmetry; apply fsub_small; zlia).
  rewrite for_ok in E1; try zlia; [|left; reflexivity|left; reflexivity]. cbn in E1. assert (lit = 0) by congruence. subst lit.
  change (2 * 0) with 0 in Es. rewrite Es. mnorm_lhs p. rewrite Z.mod_small; zlia.
Qed.

Lemma array_head_firstn : forall n inp, (2 + n <= length inp)%nat -> array_head p n inp = array_head p n (firstn (2 + n) inp).
Proof.
  intros n inp Hl. unfold array_head. rewrite firstn_length_le by auto. rewrite Nat.leb_refl. destruct (Nat.leb_spec (2 + n) (length inp)); [|lia].
  rewrite !(nth_firstn' _ (2 + n)) by lia. rewrite skipn_firstn_comm. replace (2 + n - 2)%nat with n by lia. rewrite firstn_firstn, Nat.min_id. reflexivity.
Qed.
Lemma array_head_f : forall n inp, Forall nibble (firstn (2 + n) inp) -> (2 + n <= length inp)%nat -> (0 < n <= 48)%nat ->
  array_head p n inp = head_shape n (firstn (2 + n) inp).
Proof. intros n inp Hn Hl H. rewrite array_head_firstn by auto. apply (array_head_ok p Hp); auto. rewrite firstn_length_le by auto. lia. Qed.

Lemma array_field_zero : forall M idx fieldNum fmax t, len_prefix_max fmax = 2%nat -> length (0 :: 0 :: 0 :: 0 :: t) = M -> feltl p t ->
  Z.of_nat idx < fieldNum < p -> Z.of_nat fmax < 2 ^ 63 ->
  array_field p M idx fieldNum fmax (0 :: 0 :: 0 :: 0 :: t) = Some (0 :: 0 :: 0 :: 0 :: t, 2, 1, 0 + 2).
Proof.
  intros M idx fieldNum fmax t Hm Hl Ft Hi Hb.
  assert (F : feltl p (0 :: 0 :: 0 :: 0 :: t)) by (intros x [<-|[<-|[<-|[<-|Hx]]]]; [unfold felt; zlia ..|auto]).
  rewrite (array_field_f p Hp); rewrite ?Hm; auto; [|repeat constructor; unfold nibble; zlia|rewrite <- Hl; cbn [length]; lia].
  change (field_shape 2 (0 :: 0 :: 0 :: 0 :: t)) with (Some (0, 2)). change (cinc_of (0 :: 0 :: 0 :: 0 :: t)) with 1. cbv iota. change (Z.to_nat 0) with 0%nat. rewrite rotl_0. reflexivity.
Qed.
Lemma array_loop_zero : forall M idx fieldNum fmin fmax f2 rest t c s c' s' ls os, len_prefix_max fmax = 2%nat -> length (0 :: 0 :: 0 :: 0 :: t) = M -> feltl p t ->
  Z.of_nat idx < fieldNum < p -> Z.of_nat fmax < 2 ^ 63 -> (fmin <= fmax)%nat ->
  array_loop p M idx fieldNum ((fmin, fmax) :: f2 :: rest) (0 :: 0 :: 0 :: 0 :: t) c s = Some (c', s', ls, os) ->
  exists r ls' os', (if Nat.eqb fmin fmax then r = rotl fmin (0 :: 0 :: 0 :: 0 :: t) else r = 0 :: 0 :: t ++ [0; 0]) /\
    array_loop p M (S idx) fieldNum (f2 :: rest) r (fadd p c 1) (fadd p s (0 + 2)) = Some (c', s', ls', os').
Proof.
  intros M idx fieldNum fmin fmax f2 rest t c s c' s' ls os Hm Hl Ft Hi Hb Hle H.
  assert (F : feltl p (0 :: 0 :: 0 :: 0 :: t)) by (intros x [<-|[<-|[<-|[<-|Hx]]]]; [unfold felt; zlia ..|auto]).
  remember (f2 :: rest) as fs eqn:Efs. cbn [array_loop] in H. rewrite array_field_zero in H by auto.
  apply obind_Some in H as (x & Ex & H). apply some_inj in Ex. subst x. subst fs.
  apply obind_Some in H as (r & Er & H). apply obind_Some in H as ([[[c1 s1] ls1] os1] & E1 & H).
  assert (Ecs : c' = c1 /\ s' = s1) by (split; congruence). destruct Ecs; subst c1 s1. exists r, ls1, os1. split; [|exact E1].
  rewrite (shift_next_f p Hp) in Er by (auto; zlia). destruct (Nat.eqb_spec fmin fmax); [congruence|].
  destruct (_ && _); [|discriminate]. apply some_inj in Er. rewrite Er. change (Z.to_nat 2) with (length [0; 0]).
  change (0 :: 0 :: 0 :: 0 :: t) with ([0; 0] ++ (0 :: 0 :: t)). rewrite rotl_app. reflexivity.
Qed.
(** a value that reads as "empty" is never an account *)
Lemma account_zero_rejected : forall v out total lens outs, length v = 228%nat -> feltl p v -> zero_value v ->
  rlp_array_check p account_params v 4 = Some (out, total, lens, outs) -> out = 0.
Proof.
  intros v out total lens outs Hl Hf [Z1 Z2] H.
  assert (Ev : exists w, v = 8 :: 0 :: 0 :: 0 :: 0 :: 0 :: 0 :: 0 :: 0 :: 0 :: w).
  { clear -Z1 Z2 Hl. do 11 (destruct v as [|? v]; [discriminate|]). cbn [firstn skipn repeat] in Z1, Z2. exists (z9 :: v). congruence. }
  destruct Ev as (w & Ev). clear Z1 Z2.
  assert (Fw : feltl p w) by (intros x Hx; apply Hf; rewrite Ev; do 10 right; exact Hx).
  assert (Lw : length w = 218%nat) by (rewrite Ev in Hl; cbn [length] in Hl; lia).
  unfold rlp_array_check in H. cbn [account_params ac_prefixMax ac_maxHexLen ac_fields] in H.
  rewrite array_head_f in H; [|rewrite Ev; cbn [firstn Nat.add]; repeat constructor; unfold nibble; zlia|lia|lia].
  replace (head_shape 4 (firstn (2 + 4) v)) with (Some (0, 0, 0)) in H by (rewrite Ev; reflexivity).
  apply obind_Some in H as (hd & E0 & H). apply some_inj in E0. subst hd.
  apply obind_Some in H as (u & E1 & H). rewrite firstn_all2 in H by lia.
  rewrite (fadd_small p 2 0) in H by zlia. rewrite Z.add_0_r in H. rewrite (shift_left_f p Hp) in H by (auto; zlia).
  destruct (2 <? 2 ^ Z.of_nat (log_ceil 10)); [|discriminate]. apply obind_Some in H as (r0 & E2 & H). apply some_inj in E2.
  assert (Er0 : r0 = 0 :: 0 :: 0 :: 0 :: (0 :: 0 :: 0 :: 0 :: w ++ [8; 0])).
  { rewrite E2, Ev. change (Z.to_nat 2) with (length [8; 0]). change (8 :: 0 :: 0 :: 0 :: 0 :: 0 :: 0 :: 0 :: 0 :: 0 :: w) with ([8; 0] ++ (0 :: 0 :: 0 :: 0 :: 0 :: 0 :: 0 :: 0 :: w)). rewrite rotl_app. reflexivity. }
  clear E2. subst r0. apply obind_Some in H as ([[[c s] ls] os] & E3 & H).
  assert (Hout : out = fis_zero p (fsub p (fadd p c (fis_zero p (fsub p 0 s))) (fadd p 4 2))) by congruence. clear H E1.
  assert (F0 : felt p 0) by (unfold felt; zlia). assert (F8 : felt p 8) by (unfold felt; zlia).
  assert (FZ : forall l, (forall x, In x l -> x = 0 \/ x = 8 \/ In x w) -> feltl p l).
  { intros l HH x Hx. destruct (HH x Hx) as [->|[->|Hw]]; auto. }
  apply array_loop_zero in E3; [|reflexivity|cbn [length]; rewrite app_length, Lw; reflexivity|apply FZ; intros x Hx; cbn [In app] in Hx; rewrite in_app_iff in Hx; cbn [In] in Hx; intuition|zlia|zlia|lia].
  destruct E3 as (r1 & ls1 & os1 & Er1 & E3). change (Nat.eqb 0 64) with false in Er1. cbv iota in Er1. subst r1.
  cbn [app] in E3. rewrite <- app_assoc in E3. cbn [app] in E3.
  apply array_loop_zero in E3; [|reflexivity|cbn [length]; rewrite app_length, Lw; reflexivity|apply FZ; intros x Hx; cbn [In app] in Hx; rewrite in_app_iff in Hx; cbn [In] in Hx; intuition|zlia|zlia|lia].
  destruct E3 as (r2 & ls2 & os2 & Er2 & E3). change (Nat.eqb 0 24) with false in Er2. cbv iota in Er2. subst r2.
  cbn [app] in E3. rewrite <- app_assoc in E3. cbn [app] in E3.
  apply array_loop_zero in E3; [|reflexivity|cbn [length]; rewrite app_length, Lw; reflexivity|apply FZ; intros x Hx; cbn [In app] in Hx; rewrite in_app_iff in Hx; cbn [In] in Hx; intuition|zlia|zlia|lia].
  destruct E3 as (r3 & ls3 & os3 & Er3 & E3). change (Nat.eqb 64 64) with true in Er3. cbv iota in Er3.
  assert (L3 : length r3 = 228%nat) by (rewrite Er3, rotl_length; cbn [length]; rewrite app_length, Lw; reflexivity).
  assert (F3 : feltl p r3).
  { rewrite Er3. match goal with |- feltl p (rotl 64 ?l) => set (l0 := l) end.
    assert (Fl : feltl p l0) by (apply FZ; intros x Hx; unfold l0 in Hx; cbn [In app] in Hx; rewrite in_app_iff in Hx; cbn [In] in Hx; intuition).
    assert (Ll : (64 <= length l0)%nat) by (rewrite Er3, rotl_length in L3; unfold l0; rewrite L3; lia).
    rewrite rotl_skipn by exact Ll. intros x Hx. apply Fl. apply in_app_or in Hx. rewrite <- (firstn_skipn 64 l0). apply in_or_app. tauto. }
  clear Er3. cbn [array_loop] in E3. apply obind_Some in E3 as ([[[o3 l3] c3] s3] & E8 & E7).
  assert (Hc : c = fadd p (fadd p (fadd p (fadd p 0 1) 1) 1) c3) by congruence.
  assert (Hs : s = fadd p (fadd p (fadd p (fadd p 0 (0 + 2)) (0 + 2)) (0 + 2)) s3) by congruence.
  destruct (array_field_any 228 3 4 64 r3 o3 l3 c3 s3 L3 F3 ltac:(zlia) ltac:(lia) E8) as [Ec|[Ec Es]]; clear E8 E7; rewrite Ec in Hc.
  - assert (Hc4 : c = 4) by (rewrite Hc; mnorm_lhs p; rewrite Z.mod_small; zlia). rewrite Hc4 in Hout. rewrite Hout.
    assert (B : fis_zero p (fsub p 0 s) = 0 \/ fis_zero p (fsub p 0 s) = 1) by (unfold fis_zero; destruct (_ =? 0); auto).
    destruct B as [-> | ->]; rewrite (fadd_small p 4 2) by zlia; rewrite fadd_small by zlia; rewrite fis_zero_sub by (auto; unfold felt; zlia); reflexivity.
  - rewrite Es in Hs. assert (Hc5 : c = 5) by (rewrite Hc; mnorm_lhs p; rewrite Z.mod_small; zlia).
    assert (Hs8 : s = 8) by (rewrite Hs; mnorm_lhs p; rewrite Z.mod_small; zlia). rewrite Hc5, Hs8 in Hout.
    rewrite (fis_zero_sub p Hp2 0 8) in Hout by (unfold felt; zlia). change (bit_of (0 =? 8)) with 0 in Hout.
    rewrite Hout. rewrite (fadd_small p 4 2), (fadd_small p 5 0) by zlia. rewrite fis_zero_sub by (auto; unfold felt; zlia). reflexivity.
Qed.

(** an account list is read right even when arbitrary field elements stand behind it *)
Lemma account_decode : forall v h its rest, length v = 228%nat -> feltl p v -> v = h ++ encs its ++ rest -> Forall nibble (h ++ encs its) ->
  list_header h -> rlp_item (h ++ encs its) h (encs its) -> (length h <= 6)%nat -> Forall2 item_fits (ac_fields account_params) its ->
  exists outs, rlp_array_check p account_params v 4 = Some (1, Z.of_nat (length (h ++ encs its)), map (fun it => Z.of_nat (length (payload it))) its, outs) /\
    Forall2 (fun it o => firstn (length (payload it)) o = payload it) its outs.
Proof.
  intros v h its rest Hl Hf Hv Hn Lh Hi Hh HF. apply Forall_app in Hn as [Hn1 Hn2].
  assert (Hlen : length its = 4%nat) by (apply Forall2_len in HF; cbn in HF; lia).
  unfold rlp_array_check. cbn [account_params ac_prefixMax ac_maxHexLen].
  assert (Fr : feltl p rest) by (intros x Hx; apply Hf; rewrite Hv; apply in_or_app; right; apply in_or_app; auto).
  destruct its as [|i0 [|i1 [|i2 [|i3 [|]]]]]; try discriminate.
  assert (L3 : length (payload i3) = 64%nat) by (inversion HF as [|? ? ? ? _ X1]; inversion X1 as [|? ? ? ? _ X2]; inversion X2 as [|? ? ? ? _ X3]; inversion X3 as [|? ? ? ? (_ & _ & _ & Y) _]; cbn in Y; lia).
  assert (Le3 : (64 <= length (enc i3))%nat) by (unfold enc; fold (payload i3); rewrite app_length; unfold payload in *; lia).
  assert (Lenc : (64 <= length (encs [i0; i1; i2; i3]))%nat) by (rewrite !encs_cons, !app_length; lia).
  assert (N6 : Forall nibble (firstn (2 + 4) v)).
  { rewrite Hv, app_assoc, firstn_app. replace (2 + 4 - length (h ++ encs [i0; i1; i2; i3]))%nat with 0%nat by (rewrite app_length; lia).
    rewrite app_nil_r. apply Forall_firstn, Forall_app; auto. }
  rewrite array_head_f by (auto; lia).
  assert (E6 : firstn (2 + 4) v = h ++ firstn (6 - length h) (encs [i0; i1; i2; i3]) ++ []).
  { rewrite app_nil_r, Hv. rewrite firstn_app, firstn_all2 by lia. f_equal. rewrite firstn_app. replace (2 + 4 - length h - length (encs [i0; i1; i2; i3]))%nat with 0%nat by lia.
    rewrite app_nil_r. reflexivity. }
  assert (Hhs : head_shape 4 (firstn (2 + 4) v) = head_shape 4 v).
  { unfold head_shape. assert (Eb : byte0 (firstn (2 + 4) v) = byte0 v) by (unfold byte0; rewrite !(nth_firstn' _ (2 + 4)) by lia; reflexivity). rewrite Eb.
    destruct (classify (byte0 v)) as [| | | |k] eqn:Ek; auto. destruct (Z.leb_spec (2 * k) (Z.of_nat 4)); auto. do 3 f_equal.
    rewrite skipn_firstn_comm. rewrite firstn_firstn. f_equal. f_equal. lia. }
  rewrite Hhs. destruct (head_shape_item 4 v h (encs [i0; i1; i2; i3]) rest Hv Lh Hi ltac:(lia)) as [Es Eh2]. rewrite Es. cbn [obind].
  destruct (Nat.leb_spec 228 (length v)); [|lia]. cbn [guard obind].
  replace (fadd p 2 (Z.of_nat (length h) - 2)) with (Z.of_nat (length h)) by (rewrite fadd_small by zlia; zlia).
  rewrite firstn_all2 by lia. rewrite (shift_left_f p Hp) by (auto; zlia).
  destruct (Z.ltb_spec (Z.of_nat (length h)) (2 ^ Z.of_nat (log_ceil 10))) as [_|B]; [|change (2 ^ Z.of_nat (log_ceil 10)) with 16 in B; lia].
  cbn [obind ac_fields]. rewrite Nat2Z.id.
  assert (Er : rotl (length h) v = encs [i0; i1; i2; i3] ++ (rest ++ h)) by (rewrite Hv, rotl_app, <- app_assoc; reflexivity).
  rewrite Er.
  assert (Lv : (length h + length (encs [i0; i1; i2; i3]) + length rest = 228)%nat) by (rewrite <- Hl, Hv, !app_length; lia).
  destruct (array_loop_complete_f p Hp (ac_fields account_params) [i0; i1; i2; i3] i3 (rest ++ h) 228 0 4 1 0 HF) as (outs & Q1 & Q2); try zlia; auto.
  { cbn [account_params ac_fields]. unfold fields_ok. repeat constructor; cbn; lia. }
  { rewrite !app_length. lia. }
  { apply feltl_app; auto. apply nib_feltl; auto. }
  { cbn [account_params ac_fields last]. repeat constructor; cbn; lia. }
  { cbn. lia. } { cbn. lia. }
  exists outs.
  assert (Ef : match ac_fields account_params with [] => Some [] | _ :: _ => Some (encs [i0; i1; i2; i3] ++ rest ++ h) end = Some (encs [i0; i1; i2; i3] ++ rest ++ h)) by reflexivity.
  rewrite Ef. cbn [obind]. rewrite Q1. cbn [obind]. split.
  - change (Z.of_nat (length (ac_fields account_params))) with 4. rewrite (fis_zero_sub p Hp2 (Z.of_nat (length (encs [i0; i1; i2; i3])))) by (unfold felt; zlia).
    rewrite Z.add_0_l, Z.eqb_refl. cbn [bit_of]. 
    rewrite (fadd_small p (1 + _) 1), (fadd_small p 4 2) by zlia. rewrite fis_zero_sub by (unfold felt; zlia).
    rewrite fadd_small by zlia. do 4 f_equal. rewrite app_length. lia.
  - eapply Forall2_impl'; [|exact Q2]. cbn. tauto.
Qed.
End A.

(** ** The slot value *)
Lemma hexval_app : forall a b, hexval (a ++ b) = hexval a * 16 ^ Z.of_nat (length b) + hexval b.
Proof.
  intros a b. induction b as [|d b IH] using rev_ind; [rewrite app_nil_r; cbn [length]; change (hexval []) with 0; change (16 ^ Z.of_nat 0) with 1; lia|].
  rewrite app_assoc, !hexval_snoc, IH, app_length. cbn [length]. rewrite Nat.add_1_r, Nat2Z.inj_succ, Z.pow_succ_r by lia. ring.
Qed.
Lemma hexval_byte b : hexval (byte_nibbles b) = b.
Proof. unfold hexval, byte_nibbles. cbn [fold_left]. lia. Qed.

Section V.
Variable p : Z.
Hypothesis Hp : 2 ^ 248 < p.
Let Hp' : 452312848583266388373324160190187140051835877600158453279131187530910662656 < p := Hp.
Let Hp200 : 2 ^ 200 < p. Proof. zlia. Qed.
Let Hp3 : 4096 < p. Proof. zlia. Qed.
Let Hp2 : 2 < p. Proof. zlia. Qed.

Lemma slot_literal : forall b rest, 0 <= b < 128 -> length rest = 64%nat -> feltl p rest -> slot_value p (byte_nibbles b ++ rest) = Some (b, 0).
Proof.
  intros b rest Hb Lr Fr. unfold slot_value. change (nth 0 (byte_nibbles b ++ rest) 0) with (b / 16). change (nth 1 (byte_nibbles b ++ rest) 0) with (b mod 16).
  rewrite field_prefix_ok by (auto; unfold nibble; zlia). cbv zeta. replace (16 * (b / 16) + b mod 16) with b by zlia.
  cbn [fp_isBig fp_isLiteral fp_hexLen]. assert (Ec : classify b = HLiteral) by (unfold classify; destruct (Z.leb_spec b 127); [reflexivity|lia]). rewrite Ec.
  cbn [head_hexlen head_big head_literal bit_of].
  assert (Lv : length (byte_nibbles b ++ rest) = 66%nat) by (rewrite app_length, Lr; reflexivity).
  assert (Fv : feltl p (byte_nibbles b ++ rest)) by (apply feltl_app; auto; apply nib_feltl; auto; apply byte_nibbles_nibble; lia).
  match goal with |- context [r_shift_left _ _ 0 _ _ ?s] => replace s with 0 by (symmetry; mnorm_lhs p; rewrite Z.mod_small; zlia) end.
  rewrite (shift_left_f p Hp200) by (auto; cbn; zlia).
  destruct (Z.ltb_spec 0 (2 ^ Z.of_nat (log_ceil ((log_ceil (66 / 8) + 1) * 2)))) as [_|B]; [|pose proof (Z.pow_pos_nonneg 2 (Z.of_nat (log_ceil ((log_ceil (66 / 8) + 1) * 2))) ltac:(lia) ltac:(lia)); lia].
  change (Z.to_nat 0) with 0%nat. rewrite rotl_0. cbn [obind].
  rewrite (hex64_ok p Hp2) by (try lia; unfold felt; zlia). unfold hex64_spec. cbn [Z.leb Z.compare obind].
  rewrite (hex_to_decimal_ok p Hp2) by (rewrite ?Lv; try lia; unfold felt; zlia). unfold hex_dec_spec. change (2 =? 0) with false. cbv iota. change (2 <=? Z.of_nat 2) with true. cbv iota.
  change (firstn (Z.to_nat 2) (byte_nibbles b ++ rest)) with (byte_nibbles b). rewrite hexval_byte. cbn [obind].
  assert (Z0 : fis_zero p 0 = bit_of true) by (rewrite (is_zero_bit p) by (unfold felt; zlia); reflexivity). rewrite Z0.
  rewrite !(bit_sel p Hp2) by (unfold felt; try zlia; apply Z.mod_pos_bound; zlia). cbn [obind]. rewrite Z.mod_small by zlia. reflexivity.
Qed.
Lemma slot_short : forall n d rest, 1 <= n <= 32 -> Z.of_nat (length d) = 2 * n -> Forall nibble d -> length (d ++ rest) = 64%nat -> feltl p rest ->
  slot_value p (byte_nibbles (128 + n) ++ d ++ rest) = Some (hexval d mod 2 ^ 248, hexval d / 2 ^ 248).
Proof.
  intros n d rest Hn Ld Nd Lr Fr. set (b := 128 + n) in *. assert (Hb : 0 <= b < 256) by (unfold b; zlia). unfold slot_value.
  change (nth 0 (byte_nibbles b ++ d ++ rest) 0) with (b / 16). change (nth 1 (byte_nibbles b ++ d ++ rest) 0) with (b mod 16).
  rewrite field_prefix_ok by (auto; unfold nibble; zlia). cbv zeta. replace (16 * (b / 16) + b mod 16) with b by zlia.
  cbn [fp_isBig fp_isLiteral fp_hexLen].
  assert (Ec : classify b = HShortString n) by (unfold classify, b; destruct (Z.leb_spec (128 + n) 127); [lia|]; destruct (Z.leb_spec (128 + n) 183); [f_equal; lia|lia]). rewrite Ec.
  cbn [head_hexlen head_big head_literal bit_of].
  assert (Lv : length (byte_nibbles b ++ d ++ rest) = 66%nat) by (rewrite app_length, Lr; reflexivity).
  assert (Fv : feltl p (byte_nibbles b ++ d ++ rest)) by (apply feltl_app; [apply nib_feltl; auto; apply byte_nibbles_nibble; lia|apply feltl_app; auto; apply nib_feltl; auto]).
  match goal with |- context [r_shift_left _ _ 0 _ _ ?s] => replace s with 2 by (symmetry; mnorm_lhs p; rewrite Z.mod_small; zlia) end.
  rewrite (shift_left_f p Hp200) by (auto; cbn; zlia).
  assert (B : (2 <? 2 ^ Z.of_nat (log_ceil ((log_ceil (66 / 8) + 1) * 2))) = true) by reflexivity. rewrite B.
  change (Z.to_nat 2) with (length (byte_nibbles b)). rewrite rotl_app. cbn [obind].
  set (inp := (d ++ rest) ++ byte_nibbles b). assert (Li : length inp = 66%nat) by (unfold inp; rewrite app_length, Lr; reflexivity).
  rewrite (hex64_ok p Hp2) by (try lia; unfold felt; zlia).
  rewrite (hex_to_decimal_ok p Hp2) by (rewrite ?Li; try lia; unfold felt; zlia). unfold hex_dec_spec. change (2 =? 0) with false. cbv iota. change (2 <=? Z.of_nat 2) with true. cbv iota.
  assert (Z0 : fis_zero p (2 * n) = bit_of false) by (rewrite (is_zero_bit p) by (unfold felt; zlia); destruct (Z.eqb_spec (2 * n) 0); [lia|reflexivity]). rewrite Z0.
  pose proof (hexval_bound d Nd) as Hd. assert (Lrd : (length d + length rest = 64)%nat) by (rewrite app_length in Lr; lia).
  unfold hex64_spec. destruct (Z.leb_spec (2 * n) 62) as [L|L].
  - cbn [obind]. assert (Ef : firstn (Z.to_nat (2 * n)) inp = d).
    { unfold inp. rewrite <- app_assoc. replace (Z.to_nat (2 * n)) with (length d + 0)%nat by lia. rewrite firstn_app_2. cbn [firstn]. apply app_nil_r. }
    rewrite Ef. assert (16 ^ Z.of_nat (length d) <= 16 ^ 62) by (apply Z.pow_le_mono_r; zlia). change (16 ^ 62) with (2 ^ 248) in *.
    rewrite !(bit_sel p Hp2) by (unfold felt; try zlia; apply Z.mod_pos_bound; zlia). cbn [obind].
    rewrite (Z.mod_small (hexval d) p) by zlia. rewrite (Z.mod_small (hexval d) (2 ^ 248)) by lia. rewrite Z.div_small by lia. reflexivity.
  - destruct (Z.leb_spec (2 * n) 64); [|lia]. assert (rest = []) by (destruct rest; [reflexivity|cbn [length] in Lrd; lia]). subst rest. cbn [obind].
    assert (En : n = 32) by lia. subst n. rewrite app_nil_r in *.
    assert (E2 : firstn 2 inp = firstn 2 d) by (unfold inp; rewrite app_nil_r, firstn_app; replace (2 - length d)%nat with 0%nat by lia; apply app_nil_r).
    assert (E62 : firstn (Z.to_nat (2 * 32) - 2) (skipn 2 inp) = skipn 2 d).
    { unfold inp. rewrite app_nil_r. rewrite skipn_app. replace (2 - length d)%nat with 0%nat by lia. rewrite firstn_app. rewrite skipn_length.
      replace (Z.to_nat (2 * 32) - 2 - (length d - 2))%nat with 0%nat by lia. rewrite app_nil_r. apply firstn_all2. rewrite skipn_length. lia. }
    rewrite E2, E62. assert (Nlo : Forall nibble (skipn 2 d)) by (apply Forall_skipn; exact Nd). assert (Nhi : Forall nibble (firstn 2 d)) by (apply Forall_firstn; exact Nd).
    pose proof (hexval_bound _ Nlo) as Hlo. pose proof (hexval_bound _ Nhi) as Hhi.
    rewrite skipn_length in Hlo. rewrite firstn_length in Hhi. replace (Z.of_nat (length d - 2)) with 62 in Hlo by lia. replace (Z.of_nat (Nat.min 2 (length d))) with 2 in Hhi by lia.
    assert (Ed : hexval d = hexval (firstn 2 d) * 2 ^ 248 + hexval (skipn 2 d)).
    { rewrite <- (firstn_skipn 2 d) at 1. rewrite hexval_app, skipn_length. replace (Z.of_nat (length d - 2)) with 62 by lia. reflexivity. }
    change (16 ^ 62) with (2 ^ 248) in Hlo. change (16 ^ 2) with 256 in Hhi.
    rewrite !(bit_sel p Hp2) by (unfold felt; try zlia; apply Z.mod_pos_bound; zlia). cbn [obind]. rewrite (Z.mod_small (hexval (skipn 2 d)) p), (Z.mod_small (hexval (firstn 2 d)) p) by zlia.
    rewrite Ed. rewrite Z.div_add_l, Z.div_small by lia. rewrite Z.add_comm, Z.mod_add, Z.mod_small by lia. do 2 f_equal. lia.
Qed.
End V.

(** ** Paths *)
Lemma walk_mono : forall hs key (l1 l2 : Z -> list Z -> Prop), (forall s b, l1 s b -> l2 s b) -> forall s d t ns, walk hs key l1 s d t ns -> walk hs key l2 s d t ns.
Proof. intros hs key l1 l2 Hl s d t0 ns W0. induction W0; [apply walk_last; auto|eapply walk_branch; eauto|eapply walk_ext; eauto]. Qed.
Lemma walk_last_ok : forall hs key lo s d t ns, walk hs key lo s d t ns -> exists s' d' b, lo s' b /\ hs b d' /\ last ns [] = b.
Proof.
  intros hs key lo s d t ns W. induction W as [s d buf H1 H2|s d t buf d' t' rest H1 H2 W IH|s s' d t buf d' t' rest H1 Hs H2 W IH].
  - exists s, d, buf. auto.
  - destruct IH as (x & y & b & A & B & C). exists x, y, b. split; [auto|]. split; [auto|]. destruct rest; [inversion W|exact C].
  - destruct IH as (x & y & b & A & B & C). exists x, y, b. split; [auto|]. split; [auto|]. destruct rest; [inversion W|exact C].
Qed.
Lemma reads_in : forall buf s, reads buf s -> (0 < length buf)%nat -> forall x, In x s -> In x buf.
Proof.
  intros buf s R Hl x Hx. apply (In_nth s x 0) in Hx as (k & Hk & <-). rewrite (R k Hk). apply nth_In. apply Nat.mod_upper_bound. lia.
Qed.
Lemma leaf_value_nibbles : forall buf total path value, leaf_node buf total path value -> Forall nibble buf -> (0 < length buf)%nat -> Forall nibble value.
Proof.
  intros buf total path value (k & v & (h & R & _) & _ & <-) Hn Hl. apply Forall_forall. intros x Hx. rewrite Forall_forall in Hn. apply Hn.
  apply (reads_in buf _ R Hl). apply in_or_app. right. rewrite !encs_cons. apply in_or_app. right. apply in_or_app. left. unfold enc. apply in_or_app. right. exact Hx.
Qed.
