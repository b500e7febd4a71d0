(** * RlpNestComplete.v — what RlpNestArrayCheck computes on well-formed lists (completeness of C09) *)
From Coq Require Import ZArith List Lia Bool Arith.
From Verif Require Import ModNorm Field FieldLemmas RlpUtilModel RlpUtilProofs RlpModel RlpSpec RlpPrefixProofs RlpArrayProofs RlpArraySound RlpNestProofs RlpNestSound.
Import ListNotations.
Open Scope Z_scope.

(** the header fits the field's table: short ones always; long lists by length alone; long strings also need the shift *)
Definition nest_header_fits (lpm : nat) (it : item) : Prop := header_fits lpm (hdr it) \/ (is_list_item it /\ (length (hdr it) <= 2 + lpm)%nat).
Definition nest_item_fits (f : nat * nat) (it : item) (c : list Z) : Prop :=
  is_item it /\ nest_content it c /\ enc it <> zero_byte_enc /\ nest_header_fits (len_prefix_max (snd f)) it /\ (fst f <= length c <= snd f)%nat.
Inductive nest_fits : list (nat * nat) -> list item -> list (list Z) -> Prop :=
| nf_nil : nest_fits [] [] []
| nf_cons : forall f fs it its c cs, nest_item_fits f it c -> nest_fits fs its cs -> nest_fits (f :: fs) (it :: its) (c :: cs).
(** number of members that are the empty list *)
Definition empties (its : list item) : Z := Z.of_nat (count_occ (list_eq_dec Z.eq_dec) (map enc its) empty_list_enc).

Lemma bn_inj a b : 0 <= a -> 0 <= b -> byte_nibbles a = byte_nibbles b -> a = b.
Proof. unfold byte_nibbles. intros Ha Hb E. assert (E1 : a / 16 = b / 16) by congruence. assert (E2 : a mod 16 = b mod 16) by congruence. rewrite (Z.div_mod a 16), (Z.div_mod b 16), E1, E2 by lia. reflexivity. Qed.
Lemma list_byte b : 0 <= b < 256 -> is_list_head (classify b) = (192 <=? b).
Proof. intros H. unfold classify. destruct (Z.leb_spec b 127), (Z.leb_spec b 183), (Z.leb_spec b 191), (Z.leb_spec b 247), (Z.leb_spec 192 b); try reflexivity; lia. Qed.
Lemma item_byte it t : is_item it -> exists b, 0 <= b < 256 /\ byte0 (enc it ++ t) = b /\ (is_list_item it <-> 192 <= b) /\ (enc it = empty_list_enc <-> b = 192) /\ (enc it = zero_byte_enc <-> b = 0).
Proof.
  destruct it as [h pl]. unfold is_item, is_list_item, enc, hdr, payload. cbn [fst snd]. intros H. remember (h ++ pl) as e eqn:Ee.
  inversion H as [b Hb E1 E2 E3|b len pl' Hc Hb Hlen E1 E2 E3|b lenlen ln pl' Hc Hb Hll Hnb Hlen E1 E2 E3]; subst h pl; exists b.
  - split; [lia|]. split; [apply byte0_bn; lia|]. split; [|split].
    + split; [intros (b' & r & X & _); discriminate|lia].
    + split; [intros X; change empty_list_enc with (byte_nibbles 192) in X; apply bn_inj in X; lia|lia].
    + split; [intros X; change zero_byte_enc with (byte_nibbles 0) in X; apply bn_inj in X; lia|intros ->; reflexivity].
  - split; [lia|]. split; [rewrite <- app_assoc; apply byte0_bn; lia|].
    assert (Ne : forall x, 0 <= x < 256 -> byte_nibbles b ++ pl' = byte_nibbles x -> b = x).
    { intros x Hx X. apply (f_equal (fun l => byte0 (l ++ []))) in X. rewrite <- app_assoc, !byte0_bn in X by lia. exact X. }
    split; [|split].
    + split.
      * intros (b' & r & X & Hb' & Hl). apply (f_equal (fun l => byte0 (l ++ []))) in X. rewrite <- app_assoc, !byte0_bn in X by lia. subst b'. rewrite list_byte in Hl by lia. apply Z.leb_le, Hl.
      * intros X. exists b, []. rewrite app_nil_r. split; [reflexivity|]. split; [lia|]. rewrite list_byte by lia. apply Z.leb_le, X.
    + split; [apply (Ne 192); lia|]. intros ->. assert (len = 0) by (destruct Hc as [Hc|Hc]; cbn in Hc; congruence). subst len. destruct pl'; [reflexivity|cbn in Hlen; lia].
    + split; [apply (Ne 0); lia|]. intros ->. destruct Hc as [Hc|Hc]; cbn in Hc; discriminate.
  - split; [lia|]. split; [rewrite <- app_assoc; apply byte0_bn; lia|].
    assert (Ne : forall x, 0 <= x < 256 -> byte_nibbles b ++ ln ++ pl' = byte_nibbles x -> b = x).
    { intros x Hx X. apply (f_equal (fun l => byte0 (l ++ []))) in X. rewrite <- app_assoc, !byte0_bn in X by lia. exact X. }
    split; [|split].
    + split.
      * intros (b' & r & X & Hb' & Hl). apply (f_equal (fun l => byte0 (l ++ []))) in X. rewrite <- !app_assoc, !byte0_bn in X by lia. subst b'. rewrite list_byte in Hl by lia. apply Z.leb_le, Hl.
      * intros X. exists b, ln. split; [reflexivity|]. split; [lia|]. rewrite list_byte by lia. apply Z.leb_le, X.
    + split; [apply (Ne 192); lia|]. intros ->. destruct Hc as [Hc|Hc]; cbn in Hc; discriminate.
    + split; [apply (Ne 0); lia|]. intros ->. destruct Hc as [Hc|Hc]; cbn in Hc; discriminate.
Qed.
Lemma item_nest_shape lpm it t : is_item it -> nest_header_fits lpm it -> nest_shape lpm (enc it ++ t) = Some (Z.of_nat (length (hdr it)), Z.of_nat (length (payload it))).
Proof.
  intros I F. unfold nest_shape. destruct (item_byte it t I) as (b & Hb & B0 & LB & _). rewrite B0.
  assert (FS : header_fits lpm (hdr it) -> field_shape lpm (enc it ++ t) = Some (Z.of_nat (length (hdr it)), Z.of_nat (length (payload it)))) by (intros G; apply item_field_shape; assumption).
  assert (L : forall k, classify b = HLongList k -> 1 <= k <= 8 /\ length (hdr it) = (2 + Z.to_nat (2 * k))%nat /\ 2 * hexval (firstn (Z.to_nat (2 * k)) (skipn 2 (enc it ++ t))) = Z.of_nat (length (payload it))).
  { intros k Hk. pose proof (classify_cases b Hb) as C. rewrite Hk in C. split; [lia|]. destruct it as [h pl]. unfold is_item, enc, hdr, payload in *. cbn [fst snd] in *.
    inversion I as [b' Hb' E1 E2 E3|b' len pl' Hc Hb' Hlen E1 E2 E3|b' lenlen ln pl' Hc Hb' Hll Hnb Hlen E1 E2 E3]; subst h pl.
    - cbn [app] in B0. rewrite byte0_bn in B0 by lia. lia.
    - rewrite <- app_assoc, byte0_bn in B0 by lia. subst b'. destruct Hc; congruence.
    - rewrite <- !app_assoc, byte0_bn in B0 by lia. subst b'. assert (lenlen = k) by (destruct Hc; congruence). subst lenlen. split.
      + rewrite app_length. change (length (byte_nibbles b)) with 2%nat. lia.
      + cbn [app skipn]. rewrite <- !app_assoc. replace (Z.to_nat (2 * k)) with (length ln + 0)%nat by lia. rewrite firstn_app_2. cbn [firstn]. rewrite app_nil_r. lia. }
  destruct (classify b) as [|x|k|x|k] eqn:Ec.
  5:{ destruct (L k eq_refl) as (Hk & Lh & Lp). assert (2 * k <= Z.of_nat lpm) by (destruct F as [[F|[F _]]|[_ F]]; lia). destruct (Z.leb_spec (2 * k) (Z.of_nat lpm)); [|lia]. rewrite Lp, Lh. do 2 f_equal. lia. }
  all: apply FS; destruct F as [F|[F1 F2]]; [exact F|]; apply LB in F1; pose proof (classify_cases b Hb) as C; rewrite Ec in C; try lia.
  left. destruct it as [h pl]. unfold is_item, enc, hdr, payload in *. cbn [fst snd] in *.
  inversion I as [b' Hb' E1 E2 E3|b' len pl' Hc Hb' Hlen E1 E2 E3|b' lenlen ln pl' Hc Hb' Hll Hnb Hlen E1 E2 E3]; subst h pl; [cbn; lia|cbn; lia|].
  rewrite <- !app_assoc, byte0_bn in B0 by lia. subst b'. destruct Hc; congruence.
Qed.
Lemma empties_cons it its : empties (it :: its) = (if list_eq_dec Z.eq_dec (enc it) empty_list_enc then 1 else 0) + empties its.
Proof. unfold empties. cbn [map count_occ]. destruct (list_eq_dec Z.eq_dec (enc it) empty_list_enc); lia. Qed.
Lemma nest_step it c t : is_item it -> nest_content it c -> enc it <> zero_byte_enc ->
  let h := Z.of_nat (length (hdr it)) in let l := Z.of_nat (length (payload it)) in let r := enc it ++ t in
  nest_len r h l = Z.of_nat (length c) /\ h + nest_pay r l = Z.of_nat (length (enc it)) /\ c0_of r = (if list_eq_dec Z.eq_dec (enc it) empty_list_enc then 1 else 0) /\
  firstn (length c) (nest_out r h) = c /\ length (nest_out r h) = length r /\ exists t', rotl (length c) (nest_out r h) = t ++ t' /\ length (t ++ t') = length r.
Proof.
  intros I C Z0. cbv zeta. destruct (item_byte it t I) as (b & Hb & B0 & LB & EB & ZB). assert (Hb0 : b <> 0) by tauto.
  assert (Le : length (enc it) = (length (hdr it) + length (payload it))%nat) by (unfold enc; apply app_length).
  assert (Np : nest_pay (enc it ++ t) (Z.of_nat (length (payload it))) = Z.of_nat (length (payload it))).
  { unfold nest_pay. rewrite B0. destruct (Z.eqb_spec b 0); [contradiction|reflexivity]. }
  unfold nest_len, nest_out, is_array. rewrite Np, B0. split; [|split; [rewrite Le; lia|split]].
  - destruct C as [[Li ->]|[Li ->]]; destruct (Z.leb_spec 192 b) as [G|G]; try (exfalso; apply LB in Li; lia); try (exfalso; apply Li, LB; lia); [rewrite Le; lia|reflexivity].
  - unfold c0_of. rewrite B0. destruct (list_eq_dec Z.eq_dec (enc it) empty_list_enc) as [e|e]; destruct (Z.eqb_spec b 192) as [g|g]; tauto.
  - destruct C as [[Li ->]|[Li ->]]; destruct (Z.leb_spec 192 b) as [G|G]; try (exfalso; apply LB in Li; lia); try (exfalso; apply Li, LB; lia).
    + split; [rewrite firstn_app, firstn_all, Nat.sub_diag; cbn [firstn]; apply app_nil_r|]. split; [reflexivity|]. exists (enc it). rewrite rotl_app. split; [reflexivity|rewrite !app_length; lia].
    + rewrite Nat2Z.id. assert (R : rotl (length (hdr it)) (enc it ++ t) = payload it ++ t ++ hdr it).
      { unfold enc. fold (hdr it) (payload it). rewrite <- app_assoc, rotl_app, <- app_assoc. reflexivity. }
      rewrite R. split; [rewrite firstn_app, firstn_all, Nat.sub_diag; cbn [firstn]; apply app_nil_r|]. split; [rewrite !app_length; lia|]. exists (hdr it ++ payload it). rewrite rotl_app, <- app_assoc. split; [reflexivity|]. rewrite !app_length. lia.
Qed.
Lemma nsem_fields_complete : forall fs its cs tail, nest_fits fs its cs -> Forall (fun f => Z.of_nat (snd f) < 2 ^ 63) fs ->
  exists q, nsem_fields fs (encs its ++ tail) = Some q /\ length q = length fs /\ map n_l q = map (fun c => Z.of_nat (length c)) cs /\
    zsum (map n_e q) = Z.of_nat (length (encs its)) /\ zsum (map n_c q) = empties its /\
    Forall2 (fun c out => firstn (length c) out = c /\ length out = length (encs its ++ tail)) cs (map n_out q).
Proof.
  induction fs as [|[fmin fmax] rest IH]; intros its cs tail HF HB; inversion HF as [|f fs' it its' c cs' H1 H2]; subst.
  - exists []. cbn. repeat split; auto.
  - inversion HB as [|? ? HB1 HB2]; subst. cbn [snd] in HB1. destruct H1 as (A1 & A2 & A3 & A4 & A5). cbn [fst snd] in *. rewrite encs_cons, <- app_assoc.
    cbn [nsem_fields]. rewrite (item_nest_shape _ it _ A1 A4). cbv zeta. destruct (nest_step it c (encs its' ++ tail) A1 A2 A3) as (N1 & N2 & N3 & N4 & N5 & t' & N6 & N7).
    rewrite N1, N2, N3. set (out := nest_out _ _) in *. destruct rest as [|f2 rest].
    + inversion H2; subst. eexists. split; [reflexivity|]. unfold n_l, n_e, n_c, n_out. cbn [map fst snd length]. rewrite empties_cons. unfold zsum, empties, encs. cbn [fold_right map count_occ concat]. rewrite !app_nil_r.
      split; [reflexivity|]. split; [reflexivity|]. split; [lia|]. split; [lia|]. constructor; [|constructor]. split; [exact N4|]. rewrite N5. unfold encs. cbn. reflexivity.
    + rewrite Nat2Z.id, N6.
      assert (Hn : (if Nat.eqb fmin fmax then Some (rotl fmin out) else if (Z.of_nat fmin <=? Z.of_nat (length c)) && (Z.of_nat (length c) - Z.of_nat fmin <? 2 ^ Z.of_nat (log_ceil (fmax - fmin))) then Some ((encs its' ++ tail) ++ t') else None) = Some (encs its' ++ (tail ++ t'))).
      { destruct (Nat.eqb_spec fmin fmax) as [e|e].
        - replace fmin with (length c) by lia. rewrite N6, app_assoc. reflexivity.
        - destruct (Z.leb_spec (Z.of_nat fmin) (Z.of_nat (length c))); [|lia]. cbn [andb]. pose proof (log_ceil_bound (fmax - fmin) ltac:(lia)).
          destruct (Z.ltb_spec (Z.of_nat (length c) - Z.of_nat fmin) (2 ^ Z.of_nat (log_ceil (fmax - fmin)))); [|lia]. rewrite app_assoc. reflexivity. }
      rewrite Hn. destruct (IH its' cs' (tail ++ t') H2 HB2) as (q & Q1 & Q2 & Q3 & Q4 & Q5 & Q6). rewrite Q1. eexists. split; [reflexivity|]. unfold zsum in *. cbn [map length fold_right].
      split; [rewrite Q2; reflexivity|]. split; [rewrite Q3; reflexivity|]. rewrite Q4, Q5. unfold n_e, n_c, n_out. cbn [fst snd]. rewrite app_length, empties_cons. split; [lia|]. split; [lia|]. constructor; [split; [exact N4|rewrite N5; reflexivity]|].
      eapply Forall2_impl'; [|exact Q6]. intros i o [X1 X2]. split; [exact X1|]. rewrite X2. rewrite <- N7. rewrite !app_length. lia.
Qed.
Lemma zsum_add (f g : Z * Z * list Z * Z -> Z) q : zsum (map (fun x => f x + g x) q) = zsum (map f q) + zsum (map g q).
Proof. unfold zsum. induction q as [|x q IH]; cbn [map fold_right]; lia. Qed.
Lemma zsum_one (q : list (Z * Z * list Z * Z)) : zsum (map (fun _ => 1) q) = Z.of_nat (length q).
Proof. unfold zsum. induction q as [|x q IH]; cbn [map fold_right length]; lia. Qed.
Lemma zsum_opp (f : Z * Z * list Z * Z -> Z) q : zsum (map (fun x => - f x) q) = - zsum (map f q).
Proof. unfold zsum. induction q as [|x q IH]; cbn [map fold_right]; lia. Qed.
Lemma list_head_shape n inp h pl rest : inp = h ++ pl ++ rest -> list_header h -> rlp_item (h ++ pl) h pl -> (length h <= 2 + n)%nat ->
  head_shape n inp = Some (1, Z.of_nat (length h) - 2, Z.of_nat (length pl)) /\ (2 <= length h)%nat.
Proof.
  intros Hinp (b & hr & Hh1 & Hh2 & Hh3) Hitem Hpm.
  assert (Hb0 : byte0 inp = b) by (rewrite Hinp, Hh1, <- !app_assoc; apply byte0_bn; auto).
  split; [|rewrite Hh1, app_length; cbn; lia].
  unfold head_shape. rewrite Hb0.
  inversion Hitem as [b' Hb E1 E2 E3|b' len pl' Hc Hb Hlen E1 E2 E3|b' lenlen ln pl' Hc Hb Hll Hnb Hlen E1 E2 E3].
  - rewrite <- E2 in Hh1. discriminate.
  - rewrite <- E2 in Hh1.
    assert (b' = b).
    { assert (byte0 (byte_nibbles b' ++ []) = byte0 (byte_nibbles b ++ hr)) by (rewrite app_nil_r; congruence).
      rewrite !byte0_bn in * by auto. auto. }
    subst b'. destruct Hc as [Hc|Hc]; rewrite Hc in *; [discriminate|].
    rewrite <- Hlen. reflexivity.
  - assert (b' = b).
    { rewrite Hh1 in E2. assert (byte0 (byte_nibbles b' ++ ln) = byte0 (byte_nibbles b ++ hr)) by congruence.
      rewrite !byte0_bn in * by auto. auto. }
    subst b'. destruct Hc as [Hc|Hc]; rewrite Hc in *; [discriminate|].
    assert (Hlh : length h = (2 + Z.to_nat (2 * lenlen))%nat) by (rewrite <- E2, app_length; cbn [length byte_nibbles]; lia).
    pose proof (classify_cases b Hh2) as Hk. rewrite Hc in Hk.
    destruct (Z.leb_spec (2 * lenlen) (Z.of_nat n)); [|lia].
    assert (Hfn : firstn (Z.to_nat (2 * lenlen)) (skipn 2 inp) = ln).
    { rewrite Hinp, <- E2, <- !app_assoc. unfold byte_nibbles. cbn [app skipn].
      replace (Z.to_nat (2 * lenlen)) with (length ln + 0)%nat by lia.
      rewrite firstn_app_2. cbn [firstn]. apply app_nil_r. }
    rewrite Hfn, E2, Hlen, Hlh. do 2 f_equal. f_equal. lia.
Qed.
Theorem nest_check_complete : forall p a inp h its cs rest, 2 ^ 200 < p -> params_ok a -> length inp = ac_maxHexLen a -> Forall nibble inp ->
  inp = h ++ encs its ++ rest -> list_header h -> rlp_item (h ++ encs its) h (encs its) -> (length h <= 2 + ac_prefixMax a)%nat -> Z.of_nat (length h) < 2 ^ Z.of_nat (log_ceil (ac_prefixMax a)) ->
  nest_fits (ac_fields a) its cs ->
  exists outs, rlp_nest_array_check p a inp = Some ((if empties its <=? 1 then 1 else 0), Z.of_nat (length (h ++ encs its)), map (fun c => Z.of_nat (length c)) cs, outs) /\
    Forall2 (fun c out => firstn (length c) out = c /\ length out = length inp) cs outs.
Proof.
  intros p a inp h its cs rest Hp Ha Hl Hn Hinp Hh Hitem Hpm Hlog HF. rewrite rlp_nest_array_check_ok by auto. destruct Ha as (P1 & P2 & P3 & P4 & P5). unfold sem_nest_check.
  destruct (list_head_shape (ac_prefixMax a) inp h (encs its) rest Hinp Hh Hitem Hpm) as [Hhs Hh2]. rewrite Hhs. replace (2 + (Z.of_nat (length h) - 2)) with (Z.of_nat (length h)) by lia.
  destruct (Z.ltb_spec (Z.of_nat (length h)) (2 ^ Z.of_nat (log_ceil (ac_prefixMax a)))); [|lia]. rewrite Nat2Z.id, Hinp, rotl_app, <- app_assoc.
  destruct (nsem_fields_complete (ac_fields a) its cs (rest ++ h) HF) as (q & Q1 & Q2 & Q3 & Q4 & Q5 & Q6).
  { unfold fields_ok in P5. eapply Forall_impl; [|exact P5]. intros f (_ & G & _). exact G. }
  rewrite Q1, Q3. exists (map n_out q). split.
  - rewrite (zsum_add (fun _ => 1) n_c), zsum_one, Q2, Q5. change (fun x => n_e x - n_c x) with (fun x => n_e x + - n_c x). rewrite (zsum_add n_e (fun x => - n_c x)), zsum_opp, Q4, Q5, app_length.
    assert (E0 : 0 <= empties its) by (unfold empties; lia). assert (X : forall (u v w x : Z) (y : list Z) (z : list (list Z)), u = w -> v = x -> Some (u, v, y, z) = Some (w, x, y, z)) by (intros; subst; reflexivity). apply X; [|lia].
    destruct (Z.eqb_spec (Z.of_nat (length (encs its))) (Z.of_nat (length (encs its)) + - empties its)); cbn [bit_of];
      match goal with |- bit_of (?x =? ?y) = _ => destruct (Z.eqb_spec x y) end; cbn [bit_of]; destruct (Z.leb_spec (empties its) 1); lia.
  - eapply Forall2_impl'; [|exact Q6]. intros i o [X1 X2]. split; [exact X1|]. rewrite X2, !app_length. lia.
Qed.
