(** * MptStorage.v — the absence tests of storage proofs are satisfiable on the leaf of an honest inclusion proof *)
From Coq Require Import ZArith List Lia Bool Arith.
From Verif Require Import ModNorm Field FieldLemmas RlpUtilModel RlpUtilProofs RlpModel RlpSpec RlpPrefixProofs RlpArrayProofs RlpArraySound RlpNestComplete RlpEnc RlpBridge MptModel MptSpec MptTrie MptProofs MptPathProofs MptPathSound MptComplete MptZero MptPathComplete MptPathComplete2.
Import ListNotations.
Open Scope Z_scope.

(** items of one header byte and fewer than 64 payload bytes *)
Definition short_item (it : item) : Prop := is_item it /\ (length (hdr it) <= 2)%nat /\ (length (payload it) < 128)%nat.

Lemma field_small lpm r : 0 <= byte0 r <= 183 -> exists h l, field_shape lpm r = Some (h, l) /\ 0 <= h <= 2 /\ 0 <= l <= 110.
Proof.
  intros B. unfold field_shape, classify. destruct (Z.leb_spec (byte0 r) 127); [exists 0, 2; split; [reflexivity|lia]|].
  destruct (Z.leb_spec (byte0 r) 183); [|lia]. eexists _, _. split; [reflexivity|]. lia.
Qed.

Lemma sem_total m last : (m <> 0)%nat -> 128 <= 2 ^ Z.of_nat (log_ceil m) -> forall its tail, Forall short_item its -> 0 <= byte0 (tail ++ encs its) <= 183 ->
  exists q, sem_fields (repeat (0%nat, m) (length its) ++ [last]) (encs its ++ tail) = Some q /\
    firstn (length its) (map q_l q) = map (fun it => Z.of_nat (length (payload it))) its /\ length q = S (length its).
Proof.
  intros M0 M1. induction its as [|it its IH]; intros tail F B.
  - cbn [length repeat app sem_fields encs map concat]. destruct last as [f0 f1]. cbn [encs map concat] in B. rewrite app_nil_r in B.
    destruct (field_small (len_prefix_max f1) tail B) as (h & l & -> & _). eexists. split; [reflexivity|]. split; reflexivity.
  - inversion F as [|? ? (I1 & I2 & I3) F']; subst.
    assert (EE : encs (it :: its) = enc it ++ encs its) by reflexivity. rewrite EE in *. rewrite <- app_assoc.
    assert (B' : 0 <= byte0 ((tail ++ enc it) ++ encs its) <= 183) by (rewrite <- app_assoc; exact B).
    destruct (IH (tail ++ enc it) F' B') as (q & Q1 & Q2 & Q3).
    destruct (item_field_shape (len_prefix_max m) it (encs its ++ tail) I1 (or_introl I2)) as [FS _].
    assert (EI : enc it = hdr it ++ payload it) by (destruct it; reflexivity).
    cbn [length repeat app sem_fields]. rewrite FS.
    destruct (repeat (0%nat, m) (length its) ++ [last]) as [|f fs] eqn:Ef; [destruct (repeat (0%nat, m) (length its)); discriminate|].
    destruct (Nat.eqb_spec 0 m); [lia|]. rewrite Nat.sub_0_r, !Nat2Z.id. rewrite EI, <- app_assoc, rotl_app, <- app_assoc, rotl_app.
    destruct (Z.leb_spec (Z.of_nat 0) (Z.of_nat (length (payload it)))); [|lia]. change (Z.of_nat 0) with 0. rewrite Z.sub_0_r.
    destruct (Z.ltb_spec (Z.of_nat (length (payload it))) (2 ^ Z.of_nat (log_ceil m))); [|lia]. cbn [andb].
    rewrite EI, app_assoc in Q1. rewrite <- !app_assoc in *. rewrite Q1. eexists. split; [reflexivity|]. cbn [map firstn length]. rewrite Q2, Q3. split; reflexivity.
Qed.

Lemma short_str s : Forall is_byte s -> (length s < 56)%nat -> exists hd, rlp (RStr s) = hd ++ s /\ short_item (nib hd, nib s).
Proof.
  intros F L. destruct (str_item s F ltac:(unfold small; lia)) as (hd & E & I & _ & Fh & L1 & _). exists hd. split; [exact E|]. split; [exact I|]. unfold hdr, payload. cbn [fst snd]. rewrite !nib_length. specialize (L1 L). lia.
Qed.

Lemma head_shape_cut n h x y tot : (2 <= length h)%nat -> head_shape n (h ++ x) = Some (1, Z.of_nat (length h) - 2, tot) -> head_shape n (h ++ y) = Some (1, Z.of_nat (length h) - 2, tot).
Proof.
  intros L. destruct h as [|h0 [|h1 h]]; cbn [length] in L; try lia. unfold head_shape. replace (byte0 ((h0 :: h1 :: h) ++ y)) with (byte0 ((h0 :: h1 :: h) ++ x)) by reflexivity.
  set (c := classify (byte0 ((h0 :: h1 :: h) ++ x))). destruct c as [|z|z|z|z]; intros E; try congruence. destruct (_ <=? Z.of_nat n); [|discriminate].
  assert (E2 : 2 * z = Z.of_nat (length (h0 :: h1 :: h)) - 2) by congruence. assert (E3 : Z.to_nat (2 * z) = length h) by (rewrite E2; cbn [length]; lia). rewrite E3 in *. rewrite <- E.
  cbn [app skipn]. rewrite !firstn_app, Nat.sub_diag, !firstn_O, !app_nil_r. reflexivity.
Qed.

(** a buffer that starts with the leaf of [kb] and [v], followed by bytes up to 0x80 (as Keccak padding is) *)
Definition tame_leaf (buf : list Z) : Prop := exists kb v bs t, Forall is_byte kb /\ (1 <= length kb <= 32)%nat /\ Forall is_byte v /\ (length v <= 33)%nat /\
  length bs = 15%nat /\ Forall (fun b => 0 <= b <= 128) bs /\ buf = nib (rlp (RList [RStr kb; RStr v])) ++ nib bs ++ t.

Lemma pad_items : forall bs, Forall (fun b => 0 <= b <= 128) bs -> exists its, nib bs = encs its /\ length its = length bs /\ Forall short_item its.
Proof.
  induction 1 as [|b bs Hb _ (its & E & L & F)]; [exists []; repeat split; constructor|].
  destruct (Z.eq_dec b 128) as [->|Ne].
  - exists ((nib [128], nib []) :: its). split; [cbn [nib flat_map]; unfold encs in *; cbn [map concat]; rewrite <- E; reflexivity|]. split; [cbn; lia|]. constructor; [|exact F].
    destruct (short_str [] ltac:(constructor) ltac:(cbn; lia)) as (hd & Eh & S). assert (hd = [128]) by (rewrite app_nil_r in Eh; rewrite <- Eh; reflexivity). subst hd. exact S.
  - exists ((nib [], nib [b]) :: its). split; [unfold encs in *; cbn [map concat]; rewrite <- E; cbn [nib flat_map]; rewrite app_nil_r; reflexivity|]. split; [cbn; lia|]. constructor; [|exact F].
    destruct (short_str [b] ltac:(constructor; [unfold is_byte; lia|constructor]) ltac:(cbn; lia)) as (hd & Eh & S). assert (hd = []); [|subst hd; exact S].
    assert (Er : rlp (RStr [b]) = [b]). { cbn [rlp rlp_str]. unfold rlp_str. destruct (Z.ltb_spec b 128); [reflexivity|lia]. }
    rewrite Er in Eh. destruct hd as [|x hd]; [reflexivity|]. assert (length [b] = length ((x :: hd) ++ [b])) by (rewrite <- Eh; reflexivity). rewrite app_length in H. cbn in H. lia.
Qed.

Section P.
Variable p : Z.
Hypothesis Hp : 2 ^ 200 < p.
Let Hp2 : 2 < p. Proof. eapply Z.lt_trans; [|exact Hp]; reflexivity. Qed.
Let Hpb : 2 ^ 70 < p. Proof. eapply Z.lt_trans; [|exact Hp]; reflexivity. Qed.
Let H70 : 2 ^ 70 = 1180591620717411303424. Proof. reflexivity. Qed.

(** the buffer as items of one header byte *)
Lemma tame_items buf : tame_leaf buf -> exists hd kbi vi its b t kb, buf = nib hd ++ encs (kbi :: vi :: its) ++ byte_nibbles b ++ t /\ length its = 14%nat /\ Forall short_item (kbi :: vi :: its) /\ 0 <= b <= 128 /\
  (length (nib hd) <= 6)%nat /\ (forall n tl, (length (nib hd) <= 2 + n)%nat -> exists tot, head_shape n (nib hd ++ encs [kbi; vi] ++ tl) = Some (1, Z.of_nat (length (nib hd)) - 2, tot)) /\ (2 <= length (nib hd))%nat /\
  (length (encs (kbi :: vi :: its)) <= 162)%nat /\ payload kbi = nib kb /\ (1 <= length kb <= 32)%nat /\ (exists hk, kbi = (nib hk, nib kb) /\ (length hk <= 1)%nat) /\ 0 <= byte0 (enc vi ++ nib []) <= 183 /\ (2 <= length (enc vi))%nat.
Proof.
  intros (kb & v & bs & t & Fk & Lk & Fv & Lv & L15 & Fb & Eb).
  destruct (short_str kb Fk ltac:(lia)) as (hk & Ek & Sk). destruct (short_str v Fv ltac:(lia)) as (hv & Ev & Sv).
  destruct (exists_last (l := bs) ltac:(intros ->; discriminate)) as (bs' & b & ->). rewrite app_length in L15. cbn [length] in L15. apply Forall_app in Fb. destruct Fb as [Fb Fl].
  destruct (pad_items bs' Fb) as (its & Ei & Li & Fi).
  assert (LL : (length hk <= 1 /\ length hv <= 1)%nat). { destruct Sk as (_ & A & _), Sv as (_ & B & _). unfold hdr in A, B. cbn [fst] in A, B. rewrite nib_length in A, B. lia. }
  set (body := concat (map rlp [RStr kb; RStr v])) in *.
  assert (EB : body = (hk ++ kb) ++ (hv ++ v)) by (unfold body; cbn [map concat]; rewrite Ek, Ev, app_nil_r; reflexivity).
  assert (LB : (length body <= 67)%nat) by (rewrite EB, !app_length; lia).
  destruct (list_item [RStr kb; RStr v]) as (hd & Eh & Ih & Lh & _ & Lh1 & _ & L3); [fold body; unfold small; lia|]. fold body in Eh, Ih, L3. specialize (L3 ltac:(lia)).
  pose (ki := (nib hk, nib kb) : item). pose (wi := (nib hv, nib v) : item).
  assert (E2 : encs [ki; wi] = nib body). { rewrite EB, !nib_app. unfold encs, enc. cbn [map concat fst snd]. rewrite app_nil_r. reflexivity. }
  assert (E3 : encs (ki :: wi :: its) = nib body ++ nib bs'). { rewrite <- E2, Ei. unfold encs. cbn [map concat]. rewrite app_nil_r, app_assoc. reflexivity. }
  exists hd, ki, wi, its, b, t, kb. split; [rewrite E3, Eb, Eh, !nib_app, <- !app_assoc; cbn [nib flat_map]; rewrite app_nil_r; reflexivity|].
  split; [lia|]. split; [constructor; [exact Sk|constructor; [exact Sv|exact Fi]]|]. split; [inversion Fl; assumption|]. split; [rewrite nib_length; lia|]. split.
  { intros n tl Hn. exists (Z.of_nat (length (nib body))). apply (list_head_shape n _ (nib hd) (nib body) tl); [rewrite E2; reflexivity|exact Lh|exact Ih|exact Hn]. }
  split; [rewrite nib_length; lia|]. split; [rewrite E3, app_length, !nib_length; lia|]. split; [reflexivity|]. split; [exact Lk|]. split; [exists hk; split; [reflexivity|lia]|].
  assert (Ewi : enc wi = nib (rlp (RStr v))) by (rewrite Ev, nib_app; reflexivity). rewrite Ewi, nib_length. cbn [nib flat_map]. rewrite app_nil_r.
  assert (HB : exists x r, rlp (RStr v) = x :: r /\ 0 <= x <= 183).
  { cbn [rlp]. unfold rlp_str. destruct v as [|x [|y r]].
    - eexists _, _. split; [reflexivity|lia].
    - inversion Fv as [|? ? Hx _]; subst. unfold is_byte in Hx. destruct (Z.ltb_spec x 128); [eexists _, _; split; [reflexivity|lia]|eexists _, _; split; [reflexivity|lia]].
    - unfold rlp_head_bytes. destruct (Nat.ltb_spec (length (x :: y :: r)) 56); [|lia]. eexists _, _. split; [reflexivity|]. lia. }
  destruct HB as (x & r & -> & Hx). cbn [nib flat_map length]. split; [|lia]. rewrite byte0_bn by lia. exact Hx.
Qed.

Lemma branch_nonexist_total kn buf : 0 <= kn < 16 -> Forall nibble buf -> (1064 <= length buf)%nat -> tame_leaf buf ->
  exists b, branch_nonexistence p kn buf = Some b /\ is_bit b.
Proof.
  intros Hk Nb Lb T. pose proof branch_params_ok as Pa. destruct (tame_items buf T) as (hd & kbi & vi & its & b & t & kb & Eb & Li & Fi & Hb & Lhd & HS & Lhd2 & Le & _).
  set (w := firstn 1064 buf). assert (Lw : length w = 1064%nat) by (unfold w; rewrite firstn_length; lia). assert (Nw : Forall nibble w) by (apply Forall_firstn; exact Nb).
  assert (Ew : exists t', w = nib hd ++ encs (kbi :: vi :: its) ++ byte_nibbles b ++ t').
  { exists (firstn (1064 - length (nib hd ++ encs (kbi :: vi :: its) ++ byte_nibbles b)) t). unfold w. rewrite Eb, (app_assoc (encs _)), (app_assoc (nib hd)). rewrite firstn_app, firstn_all2; [rewrite <- !app_assoc; reflexivity|]. rewrite !app_length. cbn [byte_nibbles length]. lia. }
  destruct Ew as (t' & Ew).
  assert (ES : exists r, rlp_array_check p branch_params w 17 = Some r).
  { change 17 with (Z.of_nat (length (ac_fields branch_params))). rewrite (rlp_array_check_ok p Hp) by (first [exact Pa | exact Nw | exact Lw]).
    unfold sem_array_check. change (ac_prefixMax branch_params) with 8%nat.
    destruct (HS 8%nat (encs its ++ byte_nibbles b ++ t') ltac:(lia)) as (tot & HS'). assert (X : nib hd ++ encs [kbi; vi] ++ encs its ++ byte_nibbles b ++ t' = w).
    { rewrite Ew. f_equal. unfold encs. cbn [map concat]. rewrite app_nil_r, <- !app_assoc. reflexivity. }
    rewrite X in HS'. rewrite HS'. destruct (Z.ltb_spec (2 + (Z.of_nat (length (nib hd)) - 2)) 16); [|lia]. replace (2 + (Z.of_nat (length (nib hd)) - 2)) with (Z.of_nat (length (nib hd))) by lia. rewrite Nat2Z.id, Ew, rotl_app, <- !app_assoc.
    destruct (sem_total 64 (0%nat, 0%nat) ltac:(lia) ltac:(vm_compute; discriminate) (kbi :: vi :: its) (byte_nibbles b ++ t' ++ nib hd) Fi) as (q & Q & _).
    { rewrite <- !app_assoc, byte0_bn by lia. lia. }
    cbn [length] in Q. rewrite Li in Q. change (ac_fields branch_params) with (repeat (0%nat, 64%nat) 16 ++ [(0%nat, 0%nat)]). rewrite Q. eexists. reflexivity. }
  destruct ES as ([[[v0 tot] lens] outs] & ES). unfold branch_nonexistence.
  rewrite rlp_array_check_firstn by (change (ac_maxHexLen branch_params) with 1064%nat; change (ac_prefixMax branch_params) with 8%nat; lia). change (ac_maxHexLen branch_params) with 1064%nat. fold w. rewrite ES. cbn [obind].
  destruct (branch_shape p Hp w _ _ _ _ ltac:(lia) Nw ES) as (_ & _ & L1 & _). unfold smux. rewrite Z.mod_small by lia. rewrite L1. destruct (Z.ltb_spec kn (Z.of_nat 17)); [|lia]. cbn [guard obind].
  eexists. split; [reflexivity|]. apply fis_zero_bit.
Qed.

Lemma ext_nonexist_total sel kl buf pref : length sel = 64%nat -> (forall x, In x sel -> felt p x) -> 0 <= kl <= 64 -> pref = 1 \/ pref = 2 -> Forall nibble buf -> (136 <= length buf)%nat -> tame_leaf buf ->
  exists e, ext_nonexistence p 64 64 sel kl buf pref = Some e /\ is_bit e.
Proof.
  intros Ls Fs Hk Hpr Nb Lb T. set (a := ext_params 64 64). assert (Pa : params_ok a) by (apply ext_params_ok; vm_compute; (reflexivity || lia)).
  destruct (tame_items buf T) as (hd & kbi & vi & its & b & t & kb & Eb & Li & Fi & Hb & Lhd & HS & Lhd2 & Le & Ek & Lk & (hk & Ekb & Lhk) & Bv & Lv).
  set (w := firstn 136 buf). assert (Lw : length w = 136%nat) by (unfold w; rewrite firstn_length; lia). assert (Nw : Forall nibble w) by (apply Forall_firstn; exact Nb).
  assert (EE : encs (kbi :: vi :: its) = enc kbi ++ enc vi ++ encs its) by reflexivity.
  assert (Lkb : (length (enc kbi) <= 66)%nat) by (rewrite Ekb; unfold enc; cbn [fst snd]; rewrite app_length, !nib_length; lia).
  assert (Ew : exists t', w = nib hd ++ enc kbi ++ firstn 2 (enc vi) ++ t').
  { assert (X : firstn 2 (enc vi) ++ skipn 2 (enc vi) = enc vi) by apply firstn_skipn.
    set (pre := nib hd ++ enc kbi ++ firstn 2 (enc vi)). exists (firstn (136 - length pre) (skipn 2 (enc vi) ++ encs its ++ byte_nibbles b ++ t)).
    assert (Y : buf = pre ++ skipn 2 (enc vi) ++ encs its ++ byte_nibbles b ++ t) by (rewrite Eb, EE; rewrite <- X at 1; unfold pre; rewrite <- !app_assoc; reflexivity).
    unfold w. rewrite Y, firstn_app, firstn_all2; [unfold pre; rewrite <- !app_assoc; reflexivity|]. unfold pre. rewrite !app_length, firstn_length. lia. }
  destruct Ew as (t' & Ew).
  assert (HSW : exists tot, head_shape 4 w = Some (1, Z.of_nat (length (nib hd)) - 2, tot)).
  { destruct (HS 4%nat (encs its ++ byte_nibbles b ++ t) ltac:(lia)) as (tot & H). exists tot. rewrite Ew. exact (head_shape_cut _ _ _ _ _ Lhd2 H). }
  destruct HSW as (tot & HSW). unfold ext_nonexistence. fold a.
  rewrite rlp_array_check_firstn by (change (ac_maxHexLen a) with 136%nat; change (ac_prefixMax a) with 4%nat; lia). change (ac_maxHexLen a) with 136%nat. fold w.
  assert (ES : exists r, rlp_array_check p a w 2 = Some r /\ nth 0 (snd (fst r)) 0 = Z.of_nat (2 * length kb)).
  { change 2 with (Z.of_nat (length (ac_fields a))) at 1. rewrite (rlp_array_check_ok p Hp) by (first [exact Pa | exact Nw | exact Lw]).
    unfold sem_array_check. change (ac_prefixMax a) with 4%nat. rewrite HSW.
    destruct (Z.ltb_spec (2 + (Z.of_nat (length (nib hd)) - 2)) 16); [|lia]. replace (2 + (Z.of_nat (length (nib hd)) - 2)) with (Z.of_nat (length (nib hd))) by lia. rewrite Nat2Z.id, Ew, rotl_app, <- !app_assoc.
    destruct (sem_total 66 (0%nat, 64%nat) ltac:(lia) ltac:(vm_compute; discriminate) [kbi] (firstn 2 (enc vi) ++ t' ++ nib hd)) as (q & Q & Q2 & Q3).
    { inversion Fi; subst. constructor; [assumption|constructor]. }
    { destruct (enc vi) as [|x0 [|x1 r]]; try (cbn in Lv; lia). exact Bv. }
    change (repeat (0%nat, 66%nat) (length [kbi]) ++ [(0%nat, 64%nat)]) with [(0%nat, 66%nat); (0%nat, 64%nat)] in Q. change (ac_fields a) with [(0%nat, 66%nat); (0%nat, 64%nat)].
    assert (EK : encs [kbi] = enc kbi) by (unfold encs; cbn [map concat]; apply app_nil_r). rewrite EK in Q. rewrite Q. eexists. split; [reflexivity|]. cbn [fst snd].
    destruct q as [|q0 [|q1 [|]]]; try discriminate Q3. cbn [map length firstn] in Q2. cbn [map nth]. rewrite Ek, nib_length in Q2. congruence. }
  destruct ES as ([[[v0 tt] lens] outs] & ES & L0). cbn [fst snd] in L0. rewrite ES. cbn [obind].
  destruct (two_fields_shape p Hp a w _ _ _ _ Pa eq_refl Lw Nw ES) as (l0 & l1 & f0 & f1 & -> & -> & _ & _ & _ & _ & Hf0 & _ & N0 & _). cbn [nth] in *. subst l0.
  assert (Ff : forall x, In x f0 -> felt p x) by (apply Forall_nibble_felt; [lia|exact N0]).
  change (ac_maxHexLen a) with 136%nat. rewrite (r_shift_left_in_range p Hp2) by (first [exact Ff | rewrite ?Hf0; lia]). cbn [obind].
  rewrite (fsub_small p) by lia.
  rewrite (r_array_equal_ok p Hp2); [|exact Fs|intros x I; apply (rotl_felt p (Z.to_nat pref) f0 Ff); exact I|unfold felt; lia|lia|rewrite rotl_length, Hf0; lia|lia|rewrite rotl_length, Hf0; lia|lia].
  destruct (Z.leb_spec (Z.of_nat (2 * length kb) - pref) (Z.of_nat 64)); [|lia]. cbn [obind].
  rewrite (fand_ok p Hp2) by (first [apply bit_of_bit | apply r_equal_bit]). cbn [obind]. eexists. split; [reflexivity|]. apply r_equal_bit.
Qed.

(** with both tests satisfiable the override keeps a full score *)
Lemma override_total key buf sel kl pref N : length key = 64%nat -> Forall nibble key -> length sel = 64%nat -> (forall x, In x sel -> felt p x) -> 0 <= kl <= 64 -> pref = 1 \/ pref = 2 ->
  Forall nibble buf -> (1064 <= length buf)%nat -> tame_leaf buf -> 1 <= N <= 64 -> storage_override p 64 key buf sel kl pref N 4 = Some 4.
Proof.
  intros Lk Nk Ls Fs Hk Hpr Nb Lb T HN. unfold storage_override. rewrite fsub_small by lia. unfold smux at 1. rewrite Z.mod_small by lia. rewrite Lk. destruct (Z.ltb_spec (N - 1) (Z.of_nat 64)); [|lia]. cbn [guard obind].
  assert (Kn : nibble (nth (Z.to_nat (N - 1)) key 0)) by (rewrite Forall_forall in Nk; apply Nk, nth_In; lia). unfold nibble in Kn.
  destruct (branch_nonexist_total (nth (Z.to_nat (N - 1)) key 0) buf ltac:(lia) Nb Lb T) as (b & -> & Bb). cbn [obind].
  destruct (ext_nonexist_total sel kl buf pref Ls Fs Hk Hpr Nb ltac:(lia) T) as (e & -> & Be). cbn [obind].
  rewrite for_ok by assumption. cbn [obind]. rewrite (fselect_ok p Hp2) by (first [apply bit_of_bit | unfold felt; lia]). destruct (_ =? 1); reflexivity.
Qed.
End P.
