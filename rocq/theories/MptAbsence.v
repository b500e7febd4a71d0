(** * MptAbsence.v — the inclusion gadget on honest absence proofs: a leaf of another key, a branch without the child *)
From Coq Require Import ZArith List Lia Bool Arith.
From Verif Require Import ModNorm Field FieldLemmas RlpUtilModel RlpUtilProofs RlpModel RlpSpec RlpPrefixProofs RlpArrayProofs RlpArraySound RlpNestComplete RlpEnc RlpBridge MptModel MptSpec MptTrie MptProofs MptPathProofs MptPathSound MptComplete MptPathComplete MptPathComplete2 MptStorage.
Import ListNotations.
Open Scope Z_scope.

Lemma to_chain hash key s d hops buf r : trie_to (fun b r d => hash b r = Some d) key s d hops buf r -> exists ds,
  length ds = S (length hops) /\ nth 0 ds [] = d /\ chain hash key hops (starts_from s hops) ds /\ (s + digits_used hops < length key)%nat /\
  hash buf r = Some (nth (length hops) ds []).
Proof.
  induction 1 as [s d buf r Ls Eh|s d h d' hops buf r Eh Er _ IH].
  - exists [d]. change (digits_used []) with 0%nat. cbn [length nth]. rewrite Nat.add_0_r. split; [reflexivity|]. split; [reflexivity|]. split; [intros k Hk; cbn in Hk; lia|]. auto.
  - destruct IH as (ds & L & D0 & C & Q). exists (d :: ds).
    replace (s + digits_used (h :: hops))%nat with (s + consumed h + digits_used hops)%nat by (rewrite used_cons; lia).
    split; [cbn [length]; lia|]. split; [reflexivity|]. split; [|exact Q].
    intros [|k] Hk; cbn [length] in Hk.
    + cbn [nth starts_from]. rewrite D0, starts_0. auto.
    + cbn [starts_from]. change (nth (S k) (h :: hops) hop0) with (nth k hops hop0). change (nth (S k) (d :: ds) []) with (nth k ds []). change (nth (S (S k)) (d :: ds) []) with (nth (S k) ds []).
      change (nth (S k) (s :: starts_from (s + consumed h) hops) 0%nat) with (nth k (starts_from (s + consumed h) hops) 0%nat). change (nth (S (S k)) (s :: starts_from (s + consumed h) hops) 0%nat) with (nth (S k) (starts_from (s + consumed h) hops) 0%nat). apply C. lia.
Qed.

Lemma sem_two m2 x tail : short_item x -> (length (payload x) <= 64)%nat -> (2 <= length tail)%nat -> 0 <= byte0 tail <= 160 ->
  exists q0 q1, sem_fields [(0%nat, 66%nat); (0%nat, m2)] (enc x ++ tail) = Some [q0; q1] /\ q_l q0 = Z.of_nat (length (payload x)) /\ 0 <= q_l q1 <= 64.
Proof.
  intros (I1 & I2 & I3) L Lt B.
  destruct (item_field_shape (len_prefix_max 66) x tail I1 (or_introl I2)) as [FS _]. cbn [sem_fields]. rewrite FS.
  assert (EI : enc x = hdr x ++ payload x) by (destruct x; reflexivity). rewrite EI, <- app_assoc, Nat2Z.id, rotl_app, <- app_assoc. change (Nat.eqb 0 66) with false. cbv iota.
  change (Z.of_nat 0) with 0. rewrite Z.sub_0_r. change (2 ^ Z.of_nat (log_ceil (66 - 0))) with 128. destruct (Z.leb_spec 0 (Z.of_nat (length (payload x)))); [|lia]. destruct (Z.ltb_spec (Z.of_nat (length (payload x))) 128); [|lia]. cbn [andb].
  rewrite Nat2Z.id, rotl_app, <- app_assoc.
  assert (B' : 0 <= byte0 (tail ++ hdr x ++ payload x) <= 160) by (destruct tail as [|t0 [|t1 tail]]; cbn [length] in Lt; try lia; exact B).
  unfold field_shape at 1, classify. set (b := byte0 (tail ++ hdr x ++ payload x)) in *. clearbody b.
  destruct (Z.leb_spec b 127); [eexists _, _; split; [reflexivity|]; split; [reflexivity|cbn; lia]|].
  destruct (Z.leb_spec b 183); [|lia]. eexists _, _. split; [reflexivity|]. split; [reflexivity|]. unfold q_l. cbn [fst snd]. lia.
Qed.

Section P.
Variable p : Z.
Hypothesis Hp : 2 ^ 200 < p.
Let Hp2 : 2 < p. Proof. eapply Z.lt_trans; [|exact Hp]; reflexivity. Qed.
Let Hpb : 2 ^ 70 < p. Proof. eapply Z.lt_trans; [|exact Hp]; reflexivity. Qed.
Let H70 : 2 ^ 70 = 1180591620717411303424. Proof. reflexivity. Qed.

(** a two-item check on a list whose items are short strings *)
Lemma two_total a m2 w hd x tail tot : params_ok a -> ac_fields a = [(0%nat, 66%nat); (0%nat, m2)] -> length w = ac_maxHexLen a -> Forall nibble w ->
  w = nib hd ++ enc x ++ tail -> (2 <= length tail)%nat -> 0 <= byte0 tail <= 160 -> short_item x -> (length (payload x) <= 64)%nat ->
  head_shape (ac_prefixMax a) w = Some (1, Z.of_nat (length (nib hd)) - 2, tot) -> (2 <= length (nib hd) <= 6)%nat ->
  exists o t l1 f0 f1, rlp_array_check p a w 2 = Some (o, t, [Z.of_nat (length (payload x)); l1], [f0; f1]) /\ is_bit o /\ 0 <= l1 <= 64 /\
    length f0 = length w /\ length f1 = length w /\ Forall nibble f0 /\ Forall nibble f1.
Proof.
  intros Pa Ea Lw Nw Ew Lt Bt Sx Lx HS Lh.
  assert (ES : exists r, rlp_array_check p a w 2 = Some r /\ exists l1, snd (fst r) = [Z.of_nat (length (payload x)); l1] /\ 0 <= l1 <= 64).
  { change 2 with (Z.of_nat (length [(0%nat, 66%nat); (0%nat, m2)])) at 1. rewrite <- Ea. rewrite (rlp_array_check_ok p Hp) by (first [exact Pa | exact Nw | exact Lw]).
    unfold sem_array_check. rewrite HS, Ea.
    destruct (Z.ltb_spec (2 + (Z.of_nat (length (nib hd)) - 2)) 16); [|lia]. replace (2 + (Z.of_nat (length (nib hd)) - 2)) with (Z.of_nat (length (nib hd))) by lia. rewrite Nat2Z.id, Ew, rotl_app, <- !app_assoc.
    destruct (sem_two m2 x (tail ++ nib hd) Sx Lx) as (q0 & q1 & Q & Q0 & Q1).
    { rewrite app_length. lia. }
    { destruct tail as [|t0 [|t1 tl]]; cbn [length] in Lt; try lia. exact Bt. }
    rewrite Q. eexists. split; [reflexivity|]. cbn [fst snd map]. exists (q_l q1). split; [rewrite <- Q0; reflexivity|exact Q1]. }
  destruct ES as ([[[o t] lens] outs] & ES & l1 & El & Hl1). cbn [fst snd] in El. subst lens.
  destruct (two_fields_shape p Hp a w _ _ _ _ Pa ltac:(rewrite Ea; reflexivity) Lw Nw ES) as (l0' & l1' & f0 & f1 & E1 & E2 & Bo & _ & _ & _ & Hf0 & Hf1 & N0 & N1).
  subst outs. exists o, t, l1, f0, f1. auto 10.
Qed.

Lemma branch_window cs rest buf M n : buf = nib (rlp (branch_tree cs)) ++ rest -> length cs = 16%nat -> Forall child_ok cs -> (136 <= M)%nat -> (M <= length buf)%nat -> (4 <= n)%nat ->
  exists hd x tail tot, firstn M buf = nib hd ++ enc x ++ tail /\ (2 <= length tail)%nat /\ 0 <= byte0 tail <= 160 /\ short_item x /\ (length (payload x) <= 64)%nat /\
    head_shape n (firstn M buf) = Some (1, Z.of_nat (length (nib hd)) - 2, tot) /\ (2 <= length (nib hd) <= 6)%nat.
Proof.
  intros Eb Lc Fc HM LM Hn. destruct cs as [|c0 [|c1 cs]]; try discriminate Lc.
  inversion Fc as [|? ? [F0 L0] Fc1]; subst. inversion Fc1 as [|? ? [F1 L1] _]; subst.
  pose proof (branch_len (c0 :: c1 :: cs) Lc Fc) as BL. unfold branch_tree in *. set (l := map RStr ((c0 :: c1 :: cs) ++ [[]])) in *.
  assert (SB : (length (concat (map rlp l)) <= 532)%nat) by (pose proof (rlp_list_len l); lia).
  destruct (list_item l) as (hd & Eh & Ih & Lh & Fh & Lh1 & _ & L3); [unfold small; lia|]. specialize (L3 ltac:(lia)). set (body := concat (map rlp l)) in *.
  destruct (short_str c0 F0 ltac:(lia)) as (h0 & E0 & S0). assert (LE0 : (length h0 <= 1)%nat) by (destruct S0 as (_ & A & _); unfold hdr in A; cbn [fst] in A; rewrite nib_length in A; lia).
  pose (x := (nib h0, nib c0) : item).
  assert (HB : exists y0 y, rlp (RStr c1) = y0 :: y /\ 0 <= y0 <= 160).
  { cbn [rlp]. unfold rlp_str. destruct c1 as [|z [|z1 r]].
    - eexists _, _. split; [reflexivity|lia].
    - inversion F1 as [|? ? Hx _]; subst. unfold is_byte in Hx. destruct (Z.ltb_spec z 128); [eexists _, _; split; [reflexivity|lia]|eexists _, _; split; [reflexivity|lia]].
    - unfold rlp_head_bytes. destruct (Nat.ltb_spec (length (z :: z1 :: r)) 56); [|lia]. eexists _, _. split; [reflexivity|]. lia. }
  destruct HB as (y0 & y & E1 & Hy). set (tb := y ++ concat (map rlp (map RStr (cs ++ [[]])))).
  assert (EB : body = (h0 ++ c0) ++ y0 :: tb) by (unfold body, l, tb; cbn [app map concat]; rewrite E0, E1; reflexivity).
  assert (Ex : enc x = nib (h0 ++ c0)) by (unfold x, enc; cbn [fst snd]; rewrite nib_app; reflexivity).
  set (pre := nib hd ++ enc x ++ byte_nibbles y0). assert (Lp : (length pre <= 136)%nat) by (unfold pre; rewrite Ex, !app_length, !nib_length, app_length; cbn [length byte_nibbles]; lia).
  set (big := nib hd ++ enc x ++ byte_nibbles y0 ++ nib tb ++ rest). assert (Ebg : nib (rlp (RList l)) ++ rest = big) by (unfold big; rewrite Eh, EB, nib_app, nib_app, nib_cons, <- Ex, <- !app_assoc; reflexivity). rewrite Ebg. assert (EG : big = pre ++ nib tb ++ rest) by (unfold big, pre; rewrite <- !app_assoc; reflexivity).
  exists hd, x, (byte_nibbles y0 ++ firstn (M - length pre) (nib tb ++ rest)), (Z.of_nat (length (nib body))).
  assert (EW : firstn M big = nib hd ++ enc x ++ byte_nibbles y0 ++ firstn (M - length pre) (nib tb ++ rest)).
  { rewrite EG, firstn_app, firstn_all2 by lia. unfold pre. rewrite <- !app_assoc. reflexivity. }
  split; [exact EW|]. split; [rewrite app_length; cbn [length byte_nibbles]; lia|]. split; [rewrite byte0_bn by lia; lia|]. split; [exact S0|]. split; [unfold x, payload; cbn [snd]; rewrite nib_length; lia|].
  split; [|rewrite nib_length; lia]. rewrite EW. apply head_shape_cut with (x := enc x ++ byte_nibbles y0 ++ nib tb ++ rest); [rewrite nib_length; lia|].
  fold big. apply (list_head_shape n big (nib hd) (nib body) rest); [|exact Lh|exact Ih|rewrite nib_length; lia].
  unfold big. rewrite EB, nib_app, nib_cons, <- Ex, <- !app_assoc. reflexivity.
Qed.

(** [firstn M buf] starts with a list header and a short item [x], followed by an item of at most 32 bytes *)
Definition window2 (buf : list Z) (M n : nat) (x : item) : Prop := exists hd tail tot, firstn M buf = nib hd ++ enc x ++ tail /\ (2 <= length tail)%nat /\ 0 <= byte0 tail <= 160 /\
  short_item x /\ (length (payload x) <= 64)%nat /\ head_shape n (firstn M buf) = Some (1, Z.of_nat (length (nib hd)) - 2, tot) /\ (2 <= length (nib hd) <= 6)%nat.

Lemma leaf_total_w x buf key kl value pref : window2 buf 140 (ac_prefixMax (leaf_params 64 66)) x -> (140 <= length buf)%nat -> Forall nibble buf -> 0 <= pref <= 2 -> pref <= Z.of_nat (length (payload x)) ->
  length key = 64%nat -> (forall x, In x key -> felt p x) -> length value = 66%nat -> (forall x, In x value -> felt p x) -> felt p kl ->
  exists o t l1, check_leaf p 64 66 kl key value buf pref = Some (o, t, l1) /\ felt p o.
Proof.
  intros HW Lb Nb Hp0 Hp1 Lk Fk Lv Fv Fkl. set (a := leaf_params 64 66). assert (Pa : params_ok a) by (apply leaf_params_ok; vm_compute; (reflexivity || lia)).
  destruct HW as (hd & tail & tot & Ew & T1 & T2 & T3 & T4 & T5 & T6). fold a in T5.
  set (w := firstn 140 buf) in *. assert (Lw : length w = 140%nat) by (unfold w; rewrite firstn_length; lia). assert (Nw : Forall nibble w) by (apply Forall_firstn; exact Nb).
  destruct (two_total a 66 w hd x tail tot Pa eq_refl Lw Nw Ew T1 T2 T3 T4 T5 T6) as (o & t & l1 & f0 & f1 & EA & Bo & Hl1 & Hf0 & Hf1 & N0 & N1).
  unfold check_leaf. rewrite Lk, Lv. unfold assert_eq. rewrite !Z.eqb_refl. cbn [guard obind]. change (Nat.leb 2 66) with true. cbn [guard obind].
  assert (F80 : forall x, In x [8; 0] -> felt p x) by (intros y [<-|[<-|[]]]; unfold felt; lia). assert (F64 : forall x, In x (repeat 0 64) -> felt p x) by (intros y I; apply repeat_spec in I; subst y; unfold felt; lia).
  assert (Fv2 : forall x, In x (firstn 2 value) -> felt p x) by (intros y I; apply Fv; rewrite <- (firstn_skipn 2 value); apply in_or_app; left; exact I).
  assert (Fs2 : forall x, In x (skipn 2 value) -> felt p x) by (intros y I; apply Fv; rewrite <- (firstn_skipn 2 value); apply in_or_app; right; exact I).
  rewrite (r_array_equal_ok p Hp2 (firstn 2 value)) by (auto; rewrite ?firstn_length; cbn [length]; try lia; unfold felt; lia). change (2 <=? Z.of_nat 2) with true. cbv iota. cbn [obind].
  rewrite (r_array_equal_ok p Hp2 (skipn 2 value)) by (auto; rewrite ?skipn_length, ?repeat_length; try lia; unfold felt; lia). change (64 <=? Z.of_nat 64) with true. cbv iota. cbn [obind].
  rewrite fand_ok by (auto; apply bit_of_bit). cbn [obind]. fold a.
  rewrite rlp_array_check_firstn by (change (ac_maxHexLen a) with 140%nat; try (vm_compute; lia); lia). change (ac_maxHexLen a) with 140%nat. fold w. rewrite EA. cbn [obind nth].
  assert (Ff0 : forall y, In y f0 -> felt p y) by (apply Forall_nibble_felt; [lia|exact N0]). assert (Ff1 : forall y, In y f1 -> felt p y) by (apply Forall_nibble_felt; [lia|exact N1]).
  rewrite (r_shift_left_in_range p Hp2) by (first [exact Ff0 | rewrite ?Hf0; lia]). cbn [obind].
  rewrite (fsub_small p) by lia.
  rewrite (r_array_equal_ok p Hp2); [|exact Fk|intros y I; apply (rotl_felt p (Z.to_nat pref) f0 Ff0); exact I|unfold felt; lia|lia|rewrite rotl_length, Hf0; lia|lia|rewrite rotl_length, Hf0; lia|lia].
  destruct (Z.leb_spec (Z.of_nat (length (payload x)) - pref) (Z.of_nat 64)); [|lia]. cbn [obind].
  set (m := bit_of (prefix_eqb _ key _)). assert (Bm : is_bit m) by apply bit_of_bit. clearbody m.
  assert (Bm' : is_bit (fsub p 1 m)) by (unfold is_bit, fsub in *; destruct Bm; subst m; [right; rewrite Z.mod_small; lia|left; rewrite Z.mod_small; lia]).
  rewrite fand_ok by (auto; apply bit_of_bit). cbn [obind].
  rewrite (r_array_equal_ok p Hp2 value f1); [|exact Fv|exact Ff1|unfold felt; lia|lia|lia|lia|lia|lia].
  destruct (Z.leb_spec l1 (Z.of_nat 66)); [|lia]. cbn [obind].
  rewrite fselect_ok; [|lia|apply bit_of_bit|apply felt_fadd; lia|apply felt_fadd; lia]. cbn [obind]. eexists _, _, _. split; [reflexivity|].
  destruct (_ =? 1); apply felt_fadd; lia.
Qed.

Lemma branch_leaf_total cs rest buf key kl value : buf = nib (rlp (branch_tree cs)) ++ rest -> length cs = 16%nat -> Forall child_ok cs -> (1064 <= length buf)%nat -> Forall nibble buf ->
  length key = 64%nat -> (forall x, In x key -> felt p x) -> length value = 66%nat -> (forall x, In x value -> felt p x) -> felt p kl ->
  exists o t l1, check_leaf p 64 66 kl key value buf 0 = Some (o, t, l1) /\ felt p o.
Proof.
  intros Eb Lc Fc Lb Nb Lk Fk Lv Fv Fkl.
  destruct (branch_window cs rest buf 140 (ac_prefixMax (leaf_params 64 66)) Eb Lc Fc ltac:(lia) ltac:(lia) ltac:(vm_compute; lia)) as (hd & x & tail & tot & W).
  apply (leaf_total_w x); try assumption; try lia. exists hd, tail, tot. exact W.
Qed.

Lemma branch_ext_total cs rest buf key kl : buf = nib (rlp (branch_tree cs)) ++ rest -> length cs = 16%nat -> Forall child_ok cs -> (1064 <= length buf)%nat -> Forall nibble buf ->
  length key = 64%nat -> (forall x, In x key -> felt p x) -> exists e, ext_nonexistence p 64 64 key kl buf 0 = Some e /\ is_bit e.
Proof.
  intros Eb Lc Fc Lb Nb Lk Fk. set (a := ext_params 64 64). assert (Pa : params_ok a) by (apply ext_params_ok; vm_compute; (reflexivity || lia)).
  destruct (branch_window cs rest buf 136 (ac_prefixMax a) Eb Lc Fc ltac:(lia) ltac:(lia) ltac:(vm_compute; lia)) as (hd & x & tail & tot & Ew & T1 & T2 & T3 & T4 & T5 & T6).
  set (w := firstn 136 buf) in *. assert (Lw : length w = 136%nat) by (unfold w; rewrite firstn_length; lia). assert (Nw : Forall nibble w) by (apply Forall_firstn; exact Nb).
  destruct (two_total a 64 w hd x tail tot Pa eq_refl Lw Nw Ew T1 T2 T3 T4 T5 T6) as (o & t & l1 & f0 & f1 & EA & Bo & Hl1 & Hf0 & Hf1 & N0 & N1).
  unfold ext_nonexistence. fold a.
  rewrite rlp_array_check_firstn by (change (ac_maxHexLen a) with 136%nat; try (vm_compute; lia); lia). change (ac_maxHexLen a) with 136%nat. fold w. rewrite EA. cbn [obind nth].
  assert (Ff0 : forall y, In y f0 -> felt p y) by (apply Forall_nibble_felt; [lia|exact N0]).
  rewrite (r_shift_left_in_range p Hp2) by (first [exact Ff0 | rewrite ?Hf0; lia]). cbn [obind].
  rewrite (fsub_small p) by lia. rewrite Z.sub_0_r.
  rewrite (r_array_equal_ok p Hp2); [|exact Fk|intros y I; apply (rotl_felt p (Z.to_nat 0) f0 Ff0); exact I|unfold felt; lia|lia|rewrite rotl_length, Hf0; lia|lia|rewrite rotl_length, Hf0; lia|lia].
  destruct (Z.leb_spec (Z.of_nat (length (payload x))) (Z.of_nat 64)); [|lia]. cbn [obind].
  rewrite (fand_ok p Hp2) by (first [apply bit_of_bit | apply r_equal_bit]). cbn [obind]. eexists. split; [reflexivity|]. apply r_equal_bit.
Qed.

Lemma branch_empty_child kn cs rest buf : buf = nib (rlp (branch_tree cs)) ++ rest -> length cs = 16%nat -> Forall child_ok cs -> (1064 <= length buf)%nat -> Forall nibble buf ->
  0 <= kn < 16 -> nth (Z.to_nat kn) cs [] = [] -> branch_nonexistence p kn buf = Some 1.
Proof.
  intros En Lc Fc Ln Nn Hk Ek. pose proof (branch_len cs Lc Fc) as Lt. pose proof branch_params_ok as Pa.
  assert (EQ := rlp_array_check_firstn p branch_params buf 17 ltac:(cbn [branch_params ac_prefixMax ac_maxHexLen]; lia) Ln). change (ac_maxHexLen branch_params) with 1064%nat in EQ.
  set (w := firstn 1064 buf) in *. assert (Lb : length w = 1064%nat) by (unfold w; rewrite firstn_length; lia). assert (Nb : Forall nibble w) by (apply Forall_firstn; exact Nn).
  assert (HF : Forall2 str_fits (ac_fields branch_params) (cs ++ [[]])).
  { change (ac_fields branch_params) with (repeat (0, 64)%nat 16 ++ [(0, 0)%nat]). apply Forall2_app.
    - rewrite <- Lc. apply Forall2_repeat. apply Forall_forall. intros c I. rewrite Forall_forall in Fc. destruct (Fc c I) as [F1 F2]. split; [exact F1|]. split; [reflexivity|]. split; [cbn [snd]; lia|left; lia].
    - constructor; [|constructor]. split; [constructor|]. split; [reflexivity|]. split; [cbn; lia|left; cbn; lia]. }
  destruct (arr_complete p branch_params (cs ++ [[]]) w _ Hp Pa Lb Nb (window _ _ _ 1064 En ltac:(lia)) HF ltac:(cbn; lia) ltac:(vm_compute; reflexivity)) as (outs & C1 & _).
  change (Z.of_nat (length (ac_fields branch_params))) with 17 in C1. rewrite <- EQ in C1.
  unfold branch_nonexistence. rewrite C1. cbn [obind]. unfold smux. rewrite Z.mod_small by lia. rewrite map_length, app_length, Lc. cbn [length Nat.add]. destruct (Z.ltb_spec kn (Z.of_nat 17)); [|lia]. cbn [guard obind].
  change 0 with (hlen []) at 1. rewrite map_nth, app_nth1 by lia. rewrite Ek.
  assert (fis_zero p (hlen []) = 1) as -> by (change (hlen (@nil Z)) with 0; unfold fis_zero; rewrite Z.mod_small by lia; reflexivity).
  assert (fadd p 1 1 = 2) as -> by (unfold fadd; apply Z.mod_small; lia). assert (fsub p 2 2 = 0) as -> by (unfold fsub; change (2 - 2) with 0; apply Z.mod_small; lia).
  unfold fis_zero. rewrite Z.mod_small by lia. reflexivity.
Qed.

(** a branch without the child: full score, whatever value is claimed (flag length 0) *)
Lemma branch_override cs rest buf key sel kl N o : buf = nib (rlp (branch_tree cs)) ++ rest -> length cs = 16%nat -> Forall child_ok cs -> (1064 <= length buf)%nat -> Forall nibble buf ->
  length key = 64%nat -> Forall nibble key -> length sel = 64%nat -> (forall x, In x sel -> felt p x) -> (N < 64)%nat -> nth (Z.to_nat (nth N key 0)) cs [] = [] -> felt p o ->
  storage_override p 64 key buf sel kl 0 (Z.of_nat (S N)) o = Some 4.
Proof.
  intros Eb Lc Fc Lb Nb Lk Nk Ls Fs HN Ec Fo. unfold storage_override. rewrite fsub_small by lia. unfold smux at 1. rewrite Z.mod_small by lia. rewrite Lk. destruct (Z.ltb_spec (Z.of_nat (S N) - 1) (Z.of_nat 64)); [|lia]. cbn [guard obind].
  replace (Z.to_nat (Z.of_nat (S N) - 1)) with N by lia.
  assert (Kn : nibble (nth N key 0)) by (rewrite Forall_forall in Nk; apply Nk, nth_In; lia). unfold nibble in Kn.
  rewrite (branch_empty_child (nth N key 0) cs rest buf Eb Lc Fc Lb Nb ltac:(lia) Ec). cbn [obind].
  destruct (branch_ext_total cs rest buf sel kl Eb Lc Fc Lb Nb Ls Fs) as (e & -> & Be). cbn [obind].
  rewrite for_ok by (first [assumption | right; reflexivity]). cbn [obind]. change (1 =? 1) with true. cbn [orb bit_of].
  rewrite (fselect_ok p Hp2) by (first [right; reflexivity | exact Fo | unfold felt; lia]). reflexivity.
Qed.

(** a leaf of another key, claimed value 0x80 *)
Lemma leaf_other key kl leafRlp kb vb path rest : let value := [8; 0] ++ repeat 0 64 in
  length key = 64%nat -> (forall x, In x key -> felt p x) -> felt p kl -> Forall nibble leafRlp -> (140 <= length leafRlp)%nat ->
  leafRlp = nib (rlp (RList [RStr kb; RStr vb])) ++ rest -> Forall is_byte kb -> Forall is_byte vb -> nib kb = hex_prefix 1 path -> (length path <= 64)%nat -> firstn (length path) key <> path ->
  (length vb <= 33)%nat -> (2 * length (rlp (RList [RStr kb; RStr vb])) <= 140)%nat ->
  check_leaf p 64 66 kl key value leafRlp (flag_len path) = Some (4, hlen (rlp (RList [RStr kb; RStr vb])), hlen vb).
Proof.
  intros value Lk Fk Fkl Nn Ln En Fkb Fvb Ek Lp Ekey Lv Lt.
  set (a := leaf_params 64 66) in *. assert (Ma : ac_maxHexLen a = 140%nat) by reflexivity. assert (Pa : params_ok a) by (apply leaf_params_ok; vm_compute; (reflexivity || lia)).
  assert (Fr : forall x, In x value -> felt p x) by (apply Forall_nibble_felt; [lia|]; apply Forall_forall; intros x I; apply in_app_or in I; destruct I as [I|I]; [destruct I as [<-|[<-|[]]]; unfold nibble; lia|apply repeat_spec in I; subst; unfold nibble; lia]).
  assert (Lr : length value = 66%nat) by reflexivity.
  assert (Lkb : (length kb <= 33)%nat) by (assert (X := hex_prefix_len 1 path); rewrite <- Ek, nib_length in X; unfold flag_len in X; destruct (Nat.even _); lia).
  unfold check_leaf. rewrite Lk, Lr. unfold assert_eq. rewrite !Z.eqb_refl. cbn [guard obind]. change (Nat.leb 2 66) with true. cbn [guard obind].
  assert (F80 : forall x, In x [8; 0] -> felt p x) by (intros x [<-|[<-|[]]]; unfold felt; lia). assert (F64 : forall x, In x (repeat 0 64) -> felt p x) by (intros x I; apply repeat_spec in I; subst x; unfold felt; lia).
  change (firstn 2 value) with [8; 0]. change (skipn 2 value) with (repeat 0 64).
  rewrite (r_array_equal_ok p Hp2 [8; 0]) by (auto; cbn [length]; try lia; unfold felt; lia). change (2 <=? Z.of_nat 2) with true. cbv iota. rewrite prefix_eqb_true by reflexivity. cbn [obind].
  rewrite (r_array_equal_ok p Hp2 (repeat 0 64)) by (auto; rewrite ?repeat_length; try lia; unfold felt; lia). change (64 <=? Z.of_nat 64) with true. cbv iota. rewrite prefix_eqb_true by reflexivity. cbn [obind bit_of].
  rewrite fand_ok by (auto; right; reflexivity). change (1 =? 1) with true. cbn [andb obind bit_of]. fold a.
  rewrite rlp_array_check_firstn by (try apply Pa; rewrite ?Ma; lia). rewrite Ma.
  set (buf := firstn 140 leafRlp). assert (Lb : length buf = ac_maxHexLen a) by (unfold buf; rewrite firstn_length; lia). assert (Nb : Forall nibble buf) by (apply Forall_firstn; exact Nn).
  assert (HF : Forall2 str_fits (ac_fields a) [kb; vb]). { constructor; [split; [exact Fkb|]; split; [reflexivity|]; split; [cbn; lia|left; lia]|]. constructor; [split; [exact Fvb|]; split; [reflexivity|]; split; [cbn [snd]; lia|left; lia]|constructor]. }
  destruct (arr_complete p a [kb; vb] buf _ Hp Pa Lb Nb (window _ _ _ 140%nat En ltac:(cbn [map]; lia)) HF ltac:(vm_compute; lia) ltac:(rewrite Ma; lia)) as (outs & C1 & C2).
  change (Z.of_nat (length (ac_fields a))) with 2 in C1. cbn [map] in C1. rewrite C1. cbn [obind].
  destruct (two_fields_shape p Hp a buf _ _ _ _ Pa eq_refl Lb Nb C1) as (l0 & l1 & f0 & f1 & _ & -> & _ & _ & _ & _ & _ & _ & N0 & N1).
  inversion C2 as [|? ? ? ? [D1 D2] C3]; subst. inversion C3 as [|? ? ? ? [D3 D4] C4]; subst. clear C2 C3 C4. rewrite Lb, Ma in D2, D4. cbn [nth].
  pose (key' := path ++ repeat 0 (64 - length path)).
  assert (Np : Forall nibble path).
  { rewrite <- (hex_prefix_skip 1 path), <- Ek. apply Forall_skipn. apply nib_nibble. exact Fkb. }
  assert (Fk' : forall x, In x key' -> felt p x).
  { apply Forall_nibble_felt; [lia|]. apply Forall_app. split; [exact Np|apply Forall_forall; intros x I; apply repeat_spec in I; subst; unfold nibble; lia]. }
  destruct (path_part p Hp 1 key' 140 kb f0 path ltac:(unfold key'; rewrite app_length, repeat_length; lia) Fk' N0 D2 ltac:(lia) ltac:(lia) Ek Lp D1 ltac:(unfold key'; rewrite firstn_app, Nat.sub_diag, firstn_all; apply app_nil_r) (or_intror eq_refl)) as (P1 & P2 & _ & P4).
  rewrite P1. cbn [obind]. rewrite P2.
  assert (Ff : forall x, In x f0 -> felt p x) by (apply Forall_nibble_felt; [lia|exact N0]).
  assert (P3 : r_array_equal p key (rotl (Z.to_nat (flag_len path)) f0) 64 (Z.of_nat (length path)) = Some 0).
  { assert (B : flag_len path = 1 \/ flag_len path = 2) by (unfold flag_len; destruct (Nat.even _); auto).
    assert (Lkb' : hlen kb = flag_len path + Z.of_nat (length path)) by (unfold hlen; rewrite <- nib_length, Ek; apply hex_prefix_len). unfold hlen in Lkb'.
    rewrite (r_array_equal_ok p Hp2); rewrite ?rotl_length; auto; try lia; [|intros x I; apply (rotl_felt p (Z.to_nat (flag_len path)) f0 Ff); exact I|unfold felt; lia]. destruct (Z.leb_spec (Z.of_nat (length path)) (Z.of_nat 64)); [|lia].
    assert (G : firstn (length path) (rotl (Z.to_nat (flag_len path)) f0) = path).
    { rewrite firstn_rotl_prefix by lia. etransitivity; [|apply (hex_prefix_skip 1 path)]. rewrite <- Ek, <- D1. rewrite skipn_firstn_comm. f_equal. lia. }
    unfold prefix_eqb. rewrite Nat2Z.id, G. destruct (list_eq_dec Z.eq_dec (firstn (length path) key) path); [contradiction|reflexivity]. }
  rewrite P3. cbn [obind]. change (2 * 1 + 1) with 3 in P4. change (2 * 1) with 2 in P4. rewrite P4.
  assert (S1 : fsub p 1 0 = 1) by (unfold fsub; apply Z.mod_small; lia). rewrite S1.
  rewrite fand_ok by (auto; right; reflexivity). change (1 =? 1) with true. cbn [andb obind bit_of].
  rewrite (r_array_equal_ok p Hp2 value f1); [|exact Fr|apply Forall_nibble_felt; auto; lia|unfold hlen, felt; lia|lia|lia|lia|lia|lia]. destruct (Z.leb_spec (hlen vb) (Z.of_nat 66)) as [|X]; [|unfold hlen in X; lia]. cbn [obind].
  rewrite fselect_ok; [|lia|right; reflexivity|apply felt_fadd; lia|apply felt_fadd; lia]. change (1 =? 1) with true. cbv iota. cbn [obind].
  assert (E4 : fadd p (fadd p 1 1) 2 = 4) by (unfold fadd; rewrite (Z.mod_small (1 + 1)) by lia; apply Z.mod_small; lia). rewrite E4. reflexivity.
Qed.

(** a node of two strings, the second of at most 32 bytes *)
Lemma node2_window kb v rest buf M n : buf = nib (rlp (RList [RStr kb; RStr v])) ++ rest -> Forall is_byte kb -> (length kb <= 32)%nat -> Forall is_byte v -> (length v <= 32)%nat ->
  (136 <= M)%nat -> (M <= length buf)%nat -> (4 <= n)%nat -> exists x, window2 buf M n x /\ payload x = nib kb.
Proof.
  intros Eb F0 L0 F1 L1 HM LM Hn. set (l := [RStr kb; RStr v]) in *.
  destruct (short_str kb F0 ltac:(lia)) as (h0 & E0 & S0). assert (LE0 : (length h0 <= 1)%nat) by (destruct S0 as (_ & A & _); unfold hdr in A; cbn [fst] in A; rewrite nib_length in A; lia).
  destruct (short_str v F1 ltac:(lia)) as (h1 & E1' & S1). assert (LE1 : (length h1 <= 1)%nat) by (destruct S1 as (_ & A & _); unfold hdr in A; cbn [fst] in A; rewrite nib_length in A; lia).
  assert (SB : (length (concat (map rlp l)) <= 66)%nat) by (unfold l; cbn [map concat]; rewrite E0, E1', !app_length; cbn [length]; lia).
  destruct (list_item l) as (hd & Eh & Ih & Lh & Fh & Lh1 & _ & L3); [unfold small; lia|]. specialize (L3 ltac:(lia)). set (body := concat (map rlp l)) in *.
  pose (x := (nib h0, nib kb) : item).
  assert (HB : exists y0 y, rlp (RStr v) = y0 :: y /\ 0 <= y0 <= 160).
  { cbn [rlp]. unfold rlp_str. destruct v as [|z [|z1 r]].
    - eexists _, _. split; [reflexivity|lia].
    - inversion F1 as [|? ? Hx _]; subst. unfold is_byte in Hx. destruct (Z.ltb_spec z 128); [eexists _, _; split; [reflexivity|lia]|eexists _, _; split; [reflexivity|lia]].
    - unfold rlp_head_bytes. destruct (Nat.ltb_spec (length (z :: z1 :: r)) 56); [|lia]. eexists _, _. split; [reflexivity|]. lia. }
  destruct HB as (y0 & y & E1 & Hy).
  assert (EB : body = (h0 ++ kb) ++ y0 :: y) by (unfold body, l; cbn [map concat]; rewrite E0, E1, app_nil_r; reflexivity).
  assert (Ex : enc x = nib (h0 ++ kb)) by (unfold x, enc; cbn [fst snd]; rewrite nib_app; reflexivity).
  set (pre := nib hd ++ enc x ++ byte_nibbles y0). assert (Lp : (length pre <= 136)%nat) by (unfold pre; rewrite Ex, !app_length, !nib_length, app_length; cbn [length byte_nibbles]; lia).
  set (big := nib hd ++ enc x ++ byte_nibbles y0 ++ nib y ++ rest). assert (Ebg : buf = big) by (unfold big; rewrite Eb, Eh, EB, nib_app, nib_app, nib_cons, <- Ex, <- !app_assoc; reflexivity). rewrite Ebg in *. clear Ebg.
  assert (EG : big = pre ++ nib y ++ rest) by (unfold big, pre; rewrite <- !app_assoc; reflexivity).
  exists x. split; [|reflexivity]. exists hd, (byte_nibbles y0 ++ firstn (M - length pre) (nib y ++ rest)), (Z.of_nat (length (nib body))).
  assert (EW : firstn M big = nib hd ++ enc x ++ byte_nibbles y0 ++ firstn (M - length pre) (nib y ++ rest)).
  { rewrite EG, firstn_app, firstn_all2 by lia. unfold pre. rewrite <- !app_assoc. reflexivity. }
  split; [exact EW|]. split; [rewrite app_length; cbn [length byte_nibbles]; lia|]. split; [rewrite byte0_bn by lia; lia|]. split; [exact S0|]. split; [unfold x, payload; cbn [snd]; rewrite nib_length; lia|].
  split; [|rewrite nib_length; lia]. rewrite EW. apply head_shape_cut with (x := enc x ++ byte_nibbles y0 ++ nib y ++ rest); [rewrite nib_length; lia|].
  fold big. apply (list_head_shape n big (nib hd) (nib body) rest); [|exact Lh|exact Ih|rewrite nib_length; lia].
  unfold big. rewrite EB, nib_app, nib_cons, <- Ex, <- !app_assoc. reflexivity.
Qed.

(** an extension whose fragment is not the whole rest of the key *)
Lemma ext_absent key kl buf kb vb frag rest :
  length key = 64%nat -> (forall x, In x key -> felt p x) -> felt p kl -> Forall nibble buf -> (136 <= length buf)%nat ->
  buf = nib (rlp (RList [RStr kb; RStr vb])) ++ rest -> Forall is_byte kb -> (length kb <= 32)%nat -> Forall is_byte vb -> (length vb <= 32)%nat -> nib kb = hex_prefix 0 frag -> (length frag <= 64)%nat ->
  (firstn (length frag) key = frag -> kl <> Z.of_nat (length frag)) -> (2 * length (rlp (RList [RStr kb; RStr vb])) <= 136)%nat ->
  ext_nonexistence p 64 64 key kl buf (flag_len frag) = Some 1.
Proof.
  intros Lk Fk Fkl Nn Ln En Fkb Lkb Fvb Lv Ek Lp Hne Lt.
  set (a := ext_params 64 64) in *. assert (Ma : ac_maxHexLen a = 136%nat) by reflexivity. assert (Pa : params_ok a) by (apply ext_params_ok; vm_compute; (reflexivity || lia)).
  unfold ext_nonexistence. fold a.
  rewrite rlp_array_check_firstn by (try apply Pa; rewrite ?Ma; lia). rewrite Ma.
  set (w := firstn 136 buf). assert (Lb : length w = ac_maxHexLen a) by (unfold w; rewrite firstn_length; lia). assert (Nb : Forall nibble w) by (apply Forall_firstn; exact Nn).
  assert (HF : Forall2 str_fits (ac_fields a) [kb; vb]). { constructor; [split; [exact Fkb|]; split; [reflexivity|]; split; [cbn; lia|left; lia]|]. constructor; [split; [exact Fvb|]; split; [reflexivity|]; split; [cbn [snd]; lia|left; lia]|constructor]. }
  destruct (arr_complete p a [kb; vb] w _ Hp Pa Lb Nb (window _ _ _ 136%nat En ltac:(cbn [map]; lia)) HF ltac:(vm_compute; lia) ltac:(rewrite Ma; lia)) as (outs & C1 & C2).
  change (Z.of_nat (length (ac_fields a))) with 2 in C1. cbn [map] in C1. rewrite C1. cbn [obind].
  destruct (two_fields_shape p Hp a w _ _ _ _ Pa eq_refl Lb Nb C1) as (l0 & l1 & f0 & f1 & _ & -> & _ & _ & _ & _ & _ & _ & N0 & N1).
  inversion C2 as [|? ? ? ? [D1 D2] C3]; subst. clear C2 C3. rewrite Lb, Ma in D2. cbn [nth].
  pose (key' := frag ++ repeat 0 (64 - length frag)).
  assert (Np : Forall nibble frag).
  { rewrite <- (hex_prefix_skip 0 frag), <- Ek. apply Forall_skipn. apply nib_nibble. exact Fkb. }
  assert (Fk' : forall x, In x key' -> felt p x).
  { apply Forall_nibble_felt; [lia|]. apply Forall_app. split; [exact Np|apply Forall_forall; intros x I; apply repeat_spec in I; subst; unfold nibble; lia]. }
  destruct (path_part p Hp 0 key' 136 kb f0 frag ltac:(unfold key'; rewrite app_length, repeat_length; lia) Fk' N0 D2 ltac:(lia) ltac:(lia) Ek Lp D1 ltac:(unfold key'; rewrite firstn_app, Nat.sub_diag, firstn_all; apply app_nil_r) (or_introl eq_refl)) as (P1 & P2 & _ & P4).
  rewrite P1. cbn [obind]. rewrite P2.
  assert (Ff : forall x, In x f0 -> felt p x) by (apply Forall_nibble_felt; [lia|exact N0]).
  assert (B : flag_len frag = 1 \/ flag_len frag = 2) by (unfold flag_len; destruct (Nat.even _); auto).
  assert (Lkb' : hlen kb = flag_len frag + Z.of_nat (length frag)) by (unfold hlen; rewrite <- nib_length, Ek; apply hex_prefix_len). unfold hlen in Lkb'.
  rewrite (r_array_equal_ok p Hp2); rewrite ?rotl_length; auto; try lia; [|intros x I; apply (rotl_felt p (Z.to_nat (flag_len frag)) f0 Ff); exact I|unfold felt; lia]. destruct (Z.leb_spec (Z.of_nat (length frag)) (Z.of_nat 64)); [|lia].
  assert (G : firstn (length frag) (rotl (Z.to_nat (flag_len frag)) f0) = frag).
  { rewrite firstn_rotl_prefix by lia. etransitivity; [|apply (hex_prefix_skip 0 frag)]. rewrite <- Ek, <- D1. rewrite skipn_firstn_comm. f_equal. lia. }
  cbn [obind]. rewrite (r_equal_ok p Hp2) by (unfold felt in *; lia).
  set (m := prefix_eqb _ key _). set (lm := kl =? Z.of_nat (length frag)).
  rewrite (fand_ok p Hp2) by apply bit_of_bit. cbn [obind].
  assert (ML : m && lm = false).
  { apply andb_false_iff. unfold m, lm, prefix_eqb. rewrite Nat2Z.id, G. destruct (list_eq_dec Z.eq_dec (firstn (length frag) key) frag) as [e|e]; [right; apply Z.eqb_neq; exact (Hne e)|left; reflexivity]. }
  assert (MB : (bit_of m =? 1) && (bit_of lm =? 1) = m && lm) by (destruct m, lm; reflexivity). rewrite MB, ML. cbn [bit_of].
  change (2 * 0 + 1) with 1 in P4. change (2 * 0) with 0 in P4. rewrite P4.
  assert (fsub p 1 0 = 1) as -> by (unfold fsub; apply Z.mod_small; lia). assert (fadd p 1 1 = 2) as -> by (unfold fadd; apply Z.mod_small; lia).
  rewrite (r_equal_ok p Hp2) by (unfold felt; lia). reflexivity.
Qed.

Lemma ext_override key sel kl buf frag rest kb vb N o :
  length key = 64%nat -> Forall nibble key -> length sel = 64%nat -> (forall x, In x sel -> felt p x) -> 0 <= kl <= 64 -> Forall nibble buf -> (1064 <= length buf)%nat -> tame_leaf buf -> 1 <= N <= 64 ->
  buf = nib (rlp (RList [RStr kb; RStr vb])) ++ rest -> Forall is_byte kb -> (length kb <= 32)%nat -> Forall is_byte vb -> (length vb <= 32)%nat -> nib kb = hex_prefix 0 frag -> (length frag <= 64)%nat ->
  (firstn (length frag) sel = frag -> kl <> Z.of_nat (length frag)) -> (2 * length (rlp (RList [RStr kb; RStr vb])) <= 136)%nat -> felt p o ->
  storage_override p 64 key buf sel kl (flag_len frag) N o = Some 4.
Proof.
  intros Lk Nk Ls Fs Hk Nb Lb T HN Eb F0 L0 F1 L1 Ek Lp Hne Lt Fo. unfold storage_override. rewrite fsub_small by lia. unfold smux at 1. rewrite Z.mod_small by lia. rewrite Lk. destruct (Z.ltb_spec (N - 1) (Z.of_nat 64)); [|lia]. cbn [guard obind].
  assert (Kn : nibble (nth (Z.to_nat (N - 1)) key 0)) by (rewrite Forall_forall in Nk; apply Nk, nth_In; lia). unfold nibble in Kn.
  destruct (branch_nonexist_total p Hp (nth (Z.to_nat (N - 1)) key 0) buf ltac:(lia) Nb Lb T) as (b & -> & Bb). cbn [obind].
  rewrite (ext_absent sel kl buf kb vb frag rest) by (first [assumption | lia | unfold felt; lia]). cbn [obind].
  rewrite for_ok by (first [assumption | right; reflexivity]). cbn [obind]. change (1 =? 1) with true. rewrite orb_true_r. cbn [bit_of].
  rewrite (fselect_ok p Hp2) by (first [right; reflexivity | exact Fo | unfold felt; lia]). reflexivity.
Qed.
End P.
