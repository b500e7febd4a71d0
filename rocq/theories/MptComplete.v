(** * MptComplete.v — the node checks accept every node that fits (completeness of CheckLeaf, CheckExtension, CheckBranch) *)
From Coq Require Import ZArith List Lia Bool Arith.
From Verif Require Import ModNorm Field FieldLemmas RlpUtilModel RlpUtilProofs RlpModel RlpSpec RlpPrefixProofs RlpArrayProofs RlpArraySound RlpNestSound RlpNestComplete RlpEnc RlpBridge MptModel MptSpec MptProofs MptPathProofs.
Import ListNotations.
Open Scope Z_scope.

Definition hlen (s : list Z) : Z := Z.of_nat (2 * length s).
Definition str_fits (f : nat * nat) (s : list Z) : Prop :=
  Forall is_byte s /\ fst f = 0%nat /\ (2 * length s <= snd f)%nat /\ ((length s < 56)%nat \/ Z.of_nat (length s) < 65536 /\ len_prefix_max (snd f) = 4%nat).
Lemma str_fits_item f s : str_fits f s -> exists hd, rlp (RStr s) = hd ++ s /\ item_fits f (nib hd, nib s).
Proof.
  intros (F & F0 & L & Hh). assert (S : small (length s)) by (unfold small; destruct Hh as [Hh|[Hh _]]; lia). destruct (str_item s F S) as (hd & E & I & NL & Fh & L1 & L3). exists hd. split; [exact E|].
  split; [exact I|]. split. { intros X. destruct (item_byte _ [] I) as (b & _ & _ & LB & EB & _). apply NL, LB. apply EB in X. lia. }
  split; [|cbn [payload snd]; rewrite nib_length; lia]. unfold header_fits, hdr. cbn [fst snd]. rewrite nib_length. destruct Hh as [Hh|[Hs Hh]].
  - left. specialize (L1 Hh). lia.
  - rewrite Hh. specialize (L3 Hs). destruct (Nat.le_gt_cases (length hd) 1); [left; lia|right]. split; [lia|]. change (2 ^ Z.of_nat (log_ceil 4)) with 8. lia.
Qed.
Lemma strs_items : forall fs ss, Forall2 str_fits fs ss -> exists its, Forall2 item_fits fs its /\ encs its = nib (concat (map rlp (map RStr ss))) /\ map payload its = map nib ss.
Proof.
  induction 1 as [|f s fs ss H _ (its & I1 & I2 & I3)]; [exists []; split; [constructor|split; reflexivity]|]. destruct (str_fits_item f s H) as (hd & E & I). exists ((nib hd, nib s) :: its). split; [constructor; assumption|]. split.
  - unfold encs in *. cbn [map concat]. rewrite I2, E, !nib_app. unfold enc. cbn [fst snd]. reflexivity.
  - cbn [map]. rewrite I3. reflexivity.
Qed.
Lemma rlp_list_len l : (1 + length (concat (map rlp l)) <= length (rlp (RList l)))%nat.
Proof. change (rlp (RList l)) with (rlp_head_bytes 192 (length (concat (map rlp l))) ++ concat (map rlp l)). rewrite app_length. pose proof (head_nonempty 192 (length (concat (map rlp l)))). destruct (rlp_head_bytes 192 (length (concat (map rlp l)))); [congruence|cbn [length]; lia]. Qed.
Lemma arr_complete p a ss buf rest : 2 ^ 200 < p -> params_ok a -> length buf = ac_maxHexLen a -> Forall nibble buf -> buf = nib (rlp (RList (map RStr ss))) ++ rest ->
  Forall2 str_fits (ac_fields a) ss -> (4 <= ac_prefixMax a)%nat -> Z.of_nat (ac_maxHexLen a) < 65536 ->
  exists outs, rlp_array_check p a buf (Z.of_nat (length (ac_fields a))) = Some (1, hlen (rlp (RList (map RStr ss))), map hlen ss, outs) /\
    Forall2 (fun s out => firstn (2 * length s) out = nib s /\ length out = length buf) ss outs.
Proof.
  intros Hp Ha Lb Nb Eb HF Hpm Hm. destruct (strs_items _ _ HF) as (its & I1 & I2 & I3). set (l := map RStr ss) in *.
  assert (Lr : (2 * length (rlp (RList l)) <= ac_maxHexLen a)%nat) by (rewrite <- Lb, Eb, app_length, nib_length; lia). pose proof (rlp_list_len l) as RL.
  destruct (list_item l) as (hd & Eh & Ih & Lh & _ & _ & _ & L3); [unfold small; lia|]. specialize (L3 ltac:(lia)). rewrite <- I2 in Ih.
  destruct (array_check_complete p a buf (nib hd) its rest Hp Ha Lb Nb) as (outs & C1 & C2); auto.
  - rewrite Eb, Eh, nib_app, I2, <- app_assoc. reflexivity.
  - rewrite nib_length. lia.
  - rewrite nib_length. lia.
  - exists outs. split.
    + rewrite C1. assert (T : Z.of_nat (length (nib hd ++ encs its)) = hlen (rlp (RList l))) by (rewrite I2, <- nib_app, <- Eh, nib_length; reflexivity). rewrite T.
      assert (M : map (fun it => Z.of_nat (length (payload it))) its = map hlen ss). { rewrite <- (map_map payload (fun x => Z.of_nat (length x))), I3, map_map. apply map_ext. intros s. rewrite nib_length. reflexivity. } rewrite M. reflexivity.
    + clear - C2 I3. revert ss I3. induction C2 as [|it out its outs [H1 H2] _ IH]; intros [|s ss] I3; try discriminate I3; constructor.
      * cbn [map] in I3. assert (E : payload it = nib s) by congruence. rewrite E, nib_length in H1. split; assumption.
      * apply IH. cbn [map] in I3. congruence.
Qed.

(** length of the hex-prefix flag *)
Definition flag_len (path : list Z) : Z := if Nat.even (length path) then 2 else 1.
Lemma hex_prefix_len t path : Z.of_nat (length (hex_prefix t path)) = flag_len path + Z.of_nat (length path).
Proof. unfold hex_prefix, flag_len. destruct (Nat.even _); rewrite app_length; cbn [length]; lia. Qed.
Lemma hex_prefix_skip t path : skipn (Z.to_nat (flag_len path)) (hex_prefix t path) = path.
Proof. unfold hex_prefix, flag_len. destruct (Nat.even _); reflexivity. Qed.
Lemma prefix_eqb_true k a b : firstn k a = firstn k b -> prefix_eqb k a b = true.
Proof. intros H. unfold prefix_eqb. destruct (list_eq_dec _ _ _); [reflexivity|contradiction]. Qed.

Section P.
Variable p : Z.
Hypothesis Hp : 2 ^ 200 < p.
Let Hp2 : 2 < p. Proof. eapply Z.lt_trans; [|exact Hp]; reflexivity. Qed.
Let Hpb : 2 ^ 70 < p. Proof. eapply Z.lt_trans; [|exact Hp]; reflexivity. Qed.
Let H70 : 2 ^ 70 = 1180591620717411303424. Proof. reflexivity. Qed.

(** the key part of a two-item node *)
Lemma path_part t key M kb f0 path : length key = 64%nat -> (forall x, In x key -> felt p x) -> Forall nibble f0 -> length f0 = M -> (66 <= M)%nat -> Z.of_nat M < 65536 -> nib kb = hex_prefix t path -> (length path <= 64)%nat ->
  firstn (2 * length kb) f0 = nib kb -> firstn (length path) key = path -> (t = 0 \/ t = 1) ->
  r_shift_left p M 0 2 f0 (flag_len path) = Some (rotl (Z.to_nat (flag_len path)) f0) /\ fsub p (hlen kb) (flag_len path) = Z.of_nat (length path) /\
  r_array_equal p key (rotl (Z.to_nat (flag_len path)) f0) 64 (Z.of_nat (length path)) = Some 1 /\ prefix_check p (2 * t + 1) (2 * t) f0 (flag_len path) = 1.
Proof.
  intros Lk Fk N Lf HM HMb Ek Lp Ef Ekey Ht. assert (B : flag_len path = 1 \/ flag_len path = 2) by (unfold flag_len; destruct (Nat.even _); auto).
  assert (Lkb : hlen kb = flag_len path + Z.of_nat (length path)) by (unfold hlen; rewrite <- nib_length, Ek; apply hex_prefix_len).
  assert (Ff : forall x, In x f0 -> felt p x) by (apply Forall_nibble_felt; auto; lia). unfold hlen in Lkb.
  split; [apply (r_shift_left_in_range p Hp2); auto; lia|]. split; [unfold hlen; rewrite fsub_small; lia|]. split.
  - rewrite (r_array_equal_ok p Hp2); rewrite ?rotl_length; auto; try lia; [|apply rotl_felt; auto; lia|unfold felt; lia]. destruct (Z.leb_spec (Z.of_nat (length path)) (Z.of_nat 64)); [|lia].
    rewrite prefix_eqb_true; [reflexivity|]. rewrite Nat2Z.id. rewrite Ekey. rewrite firstn_rotl_prefix by lia. 
    rewrite <- (hex_prefix_skip t path) at 1. rewrite <- Ek, <- Ef. rewrite skipn_firstn_comm. f_equal. lia.
  - rewrite prefix_check_ok by (auto; unfold nibble, felt; lia). assert (N0 : nth 0 f0 0 = nth 0 (hex_prefix t path) 0) by (rewrite <- Ek, <- Ef, nth_firstn'; [reflexivity|lia]).
    assert (N1 : (2 <= 2 * length kb)%nat -> nth 1 f0 0 = nth 1 (hex_prefix t path) 0) by (intros; rewrite <- Ek, <- Ef, nth_firstn'; [reflexivity|lia]). rewrite N0. unfold flag_len, hex_prefix in *. destruct (Nat.even (length path)); cbn [app nth] in *.
    + rewrite N1 by lia. rewrite !Z.eqb_refl. reflexivity.
    + rewrite !Z.eqb_refl. reflexivity.
Qed.

Lemma felt_nib s : Forall is_byte s -> forall x, In x (nib s) -> felt p x.
Proof. intros F. apply Forall_nibble_felt; [lia|apply nib_nibble, F]. Qed.
Lemma window buf s rest W : buf = nib s ++ rest -> (2 * length s <= W)%nat -> firstn W buf = nib s ++ firstn (W - 2 * length s) rest.
Proof. intros -> L. rewrite firstn_app, firstn_all2 by (rewrite nib_length; exact L). rewrite nib_length. reflexivity. Qed.

Theorem ext_complete key refs nodeRlp kb vb path rest :
  length key = 64%nat -> (forall x, In x key -> felt p x) -> length refs = 64%nat -> (forall x, In x refs -> felt p x) -> Forall nibble nodeRlp -> (136 <= length nodeRlp)%nat ->
  nodeRlp = nib (rlp (RList [RStr kb; RStr vb])) ++ rest -> Forall is_byte kb -> Forall is_byte vb -> nib kb = hex_prefix 0 path -> (length path <= 64)%nat -> firstn (length path) key = path ->
  (length vb <= 32)%nat -> firstn (2 * length vb) refs = nib vb -> (length (rlp (RList [RStr kb; RStr vb])) <= 68)%nat ->
  check_extension p 64 64 (Z.of_nat (length path)) key (hlen vb) refs nodeRlp (flag_len path) = Some (4, hlen (rlp (RList [RStr kb; RStr vb]))).
Proof.
  intros Lk Fk Lr Fr Nn Ln En Fkb Fvb Ek Lp Ekey Lv Ev Lt. set (a := ext_params 64 64). assert (Pa : params_ok a) by (apply ext_params_ok; vm_compute; (reflexivity || lia)).
  assert (Lkb : (length kb <= 33)%nat) by (assert (X := hex_prefix_len 0 path); rewrite <- Ek, nib_length in X; unfold flag_len in X; destruct (Nat.even _); lia).
  unfold check_extension. fold a. rewrite rlp_array_check_firstn by (try apply Pa; change (ac_maxHexLen a) with 136%nat; lia). change (ac_maxHexLen a) with 136%nat.
  set (buf := firstn 136 nodeRlp). assert (Lb : length buf = 136%nat) by (unfold buf; rewrite firstn_length; lia). assert (Nb : Forall nibble buf) by (apply Forall_firstn; exact Nn).
  assert (HF : Forall2 str_fits (ac_fields a) [kb; vb]). { constructor; [split; [exact Fkb|]; split; [reflexivity|]; split; [cbn; lia|left; lia]|]. constructor; [split; [exact Fvb|]; split; [reflexivity|]; split; [cbn; lia|left; lia]|constructor]. }
  destruct (arr_complete p a [kb; vb] buf _ Hp Pa Lb Nb (window _ _ _ 136 En ltac:(cbn [map]; lia)) HF ltac:(vm_compute; lia) ltac:(vm_compute; reflexivity)) as (outs & C1 & C2).
  change (Z.of_nat (length (ac_fields a))) with 2 in C1. cbn [map] in C1. rewrite C1. cbn [obind].
  destruct (two_fields_shape p Hp a buf _ _ _ _ Pa eq_refl Lb Nb C1) as (l0 & l1 & f0 & f1 & _ & -> & _ & _ & _ & _ & _ & _ & N0 & N1).
  inversion C2 as [|? ? ? ? [D1 D2] C3]; subst. inversion C3 as [|? ? ? ? [D3 D4] C4]; subst. clear C2 C3 C4. rewrite Lb in D2, D4. cbn [nth].
  destruct (path_part 0 key 136 kb f0 path Lk Fk N0 D2 ltac:(lia) ltac:(lia) Ek Lp D1 Ekey (or_introl eq_refl)) as (P1 & P2 & P3 & P4).
  rewrite P1. cbn [obind]. rewrite P2, P3. cbn [obind]. change (2 * 0 + 1) with 1 in P4. change (2 * 0) with 0 in P4. rewrite P4.
  rewrite (r_array_equal_ok p Hp2); auto; try lia; [|apply Forall_nibble_felt; auto; lia|unfold hlen, felt; lia]. destruct (Z.leb_spec (hlen vb) (Z.of_nat 64)) as [|X]; [|unfold hlen in X; lia]. rewrite prefix_eqb_true by (unfold hlen; rewrite Nat2Z.id; congruence). cbn [obind bit_of].
  rewrite !(r_equal_ok p Hp2) by (unfold hlen, felt; lia). rewrite !Z.eqb_refl. cbn [bit_of]. change (fmul p 1 1) with ((1 * 1) mod p). rewrite !(Z.mod_small (1 * 1)) by lia. change (1 * 1) with 1. rewrite bits_sum4; [reflexivity|exact Hp|unfold is_bit; lia..].
Qed.

Lemma pow60 n : Z.of_nat n < 65536 -> Z.of_nat n < 2 ^ 60. Proof. intros. assert (65536 < 2 ^ 60) by reflexivity. lia. Qed.
Lemma leaf_prefix_max m : (66 <= m <= 255)%nat -> (4 <= ac_prefixMax (leaf_params 64 m))%nat /\ ((128 <= m)%nat -> len_prefix_max m = 4%nat).
Proof.
  intros H. assert (T : forallb (fun m => Nat.leb 4 (ac_prefixMax (leaf_params 64 m)) && (Nat.ltb m 128 || Nat.eqb (len_prefix_max m) 4)) (seq 66 190) = true) by (vm_compute; reflexivity).
  rewrite forallb_forall in T. specialize (T m ltac:(apply in_seq; lia)). apply andb_true_iff in T. destruct T as [T1 T2]. apply Nat.leb_le in T1. split; [exact T1|]. intros G. apply orb_true_iff in T2. destruct T2 as [T2|T2]; [apply Nat.ltb_lt in T2; lia|apply Nat.eqb_eq in T2; exact T2].
Qed.
Theorem leaf_complete maxValue key value leafRlp kb vb path rest :
  (66 <= maxValue <= 255)%nat -> length key = 64%nat -> (forall x, In x key -> felt p x) -> length value = maxValue -> (forall x, In x value -> felt p x) -> Forall nibble leafRlp -> (74 + maxValue <= length leafRlp)%nat ->
  leafRlp = nib (rlp (RList [RStr kb; RStr vb])) ++ rest -> Forall is_byte kb -> Forall is_byte vb -> nib kb = hex_prefix 1 path -> (length path <= 64)%nat -> firstn (length path) key = path ->
  (2 * length vb <= maxValue)%nat -> (length vb < 56 \/ 128 <= maxValue)%nat -> firstn (2 * length vb) value = nib vb -> (2 * length (rlp (RList [RStr kb; RStr vb])) <= 74 + maxValue)%nat ->
  check_leaf p 64 maxValue (Z.of_nat (length path)) key value leafRlp (flag_len path) = Some (4, hlen (rlp (RList [RStr kb; RStr vb])), hlen vb).
Proof.
  intros Hm Lk Fk Lr Fr Nn Ln En Fkb Fvb Ek Lp Ekey Lv Lv2 Ev Lt. destruct (leaf_prefix_max maxValue Hm) as [PM1 PM2].
  set (a := leaf_params 64 maxValue) in *. assert (Ma : ac_maxHexLen a = (74 + maxValue)%nat) by (unfold a, leaf_params; cbn [ac_maxHexLen]; lia). assert (Pa : params_ok a) by (apply leaf_params_ok; [apply pow60; lia|apply pow60; lia|lia]).
  assert (Lkb : (length kb <= 33)%nat) by (assert (X := hex_prefix_len 1 path); rewrite <- Ek, nib_length in X; unfold flag_len in X; destruct (Nat.even _); lia).
  unfold check_leaf. rewrite Lk, Lr. unfold assert_eq. rewrite !Z.eqb_refl. cbn [guard obind]. destruct (Nat.leb_spec 2 maxValue); [|lia]. cbn [guard obind].
  assert (F80 : forall x, In x [8; 0] -> felt p x) by (intros x [<-|[<-|[]]]; unfold felt; lia). assert (F64 : forall x, In x (repeat 0 64) -> felt p x) by (intros x I; apply repeat_spec in I; subst x; unfold felt; lia).
  assert (Fv2 : forall x, In x (firstn 2 value) -> felt p x) by (intros x I; apply Fr; rewrite <- (firstn_skipn 2 value); apply in_or_app; left; exact I).
  assert (Fs2 : forall x, In x (skipn 2 value) -> felt p x) by (intros x I; apply Fr; rewrite <- (firstn_skipn 2 value); apply in_or_app; right; exact I).
  rewrite (r_array_equal_ok p Hp2 (firstn 2 value)) by (auto; rewrite ?firstn_length; cbn [length]; try lia; unfold felt; lia). change (2 <=? Z.of_nat 2) with true. cbv iota. cbn [obind].
  rewrite (r_array_equal_ok p Hp2 (skipn 2 value)) by (auto; rewrite ?skipn_length, ?repeat_length; try lia; unfold felt; lia). change (64 <=? Z.of_nat 64) with true. cbv iota. cbn [obind].
  set (z1 := prefix_eqb _ (firstn 2 value) _). set (z2 := prefix_eqb _ (skipn 2 value) _).
  assert (A1 : exists z, fand p (bit_of z1) (bit_of z2) = Some z /\ is_bit z).
  { rewrite fand_ok by (auto; apply bit_of_bit). eexists. split; [reflexivity|apply bit_of_bit]. }
  destruct A1 as (z & -> & Bz). cbn [obind]. fold a.
  rewrite rlp_array_check_firstn by (try apply Pa; rewrite ?Ma; lia). rewrite Ma.
  set (buf := firstn (74 + maxValue) leafRlp). assert (Lb : length buf = ac_maxHexLen a) by (unfold buf; rewrite firstn_length; lia). assert (Nb : Forall nibble buf) by (apply Forall_firstn; exact Nn).
  assert (HF : Forall2 str_fits (ac_fields a) [kb; vb]). { constructor; [split; [exact Fkb|]; split; [reflexivity|]; split; [cbn; lia|left; lia]|]. constructor; [split; [exact Fvb|]; split; [reflexivity|]; split; [cbn [snd]; lia|destruct Lv2 as [Lv2|Lv2]; [left; lia|right; split; [lia|apply PM2, Lv2]]]|constructor]. }
  destruct (arr_complete p a [kb; vb] buf _ Hp Pa Lb Nb (window _ _ _ (74 + maxValue)%nat En ltac:(cbn [map]; lia)) HF PM1 ltac:(rewrite Ma; lia)) as (outs & C1 & C2).
  change (Z.of_nat (length (ac_fields a))) with 2 in C1. cbn [map] in C1. rewrite C1. cbn [obind].
  destruct (two_fields_shape p Hp a buf _ _ _ _ Pa eq_refl Lb Nb C1) as (l0 & l1 & f0 & f1 & _ & -> & _ & _ & _ & _ & _ & _ & N0 & N1).
  inversion C2 as [|? ? ? ? [D1 D2] C3]; subst. inversion C3 as [|? ? ? ? [D3 D4] C4]; subst. clear C2 C3 C4. rewrite Lb, Ma in D2, D4. cbn [nth].
  destruct (path_part 1 key (74 + length value) kb f0 path Lk Fk N0 D2 ltac:(lia) ltac:(lia) Ek Lp D1 Ekey (or_intror eq_refl)) as (P1 & P2 & P3 & P4).
  rewrite P1. cbn [obind]. rewrite P2, P3. cbn [obind]. change (2 * 1 + 1) with 3 in P4. change (2 * 1) with 2 in P4. rewrite P4.
  assert (A2 : fand p z (fsub p 1 1) = Some 0). { replace (fsub p 1 1) with 0 by (unfold fsub; rewrite Z.mod_small; lia). rewrite fand_ok by (auto; unfold is_bit; lia). rewrite andb_false_r. reflexivity. }
  rewrite A2. cbn [obind].
  rewrite (r_array_equal_ok p Hp2 value f1); [|exact Fr|apply Forall_nibble_felt; auto; lia|unfold hlen, felt; lia|lia|lia|lia|lia|lia]. destruct (Z.leb_spec (hlen vb) (Z.of_nat (length value))) as [|X]; [|unfold hlen in X; lia]. rewrite prefix_eqb_true by (unfold hlen; rewrite Nat2Z.id; congruence). cbn [obind bit_of].
  rewrite !(r_equal_ok p Hp2) by (unfold hlen, felt; lia). rewrite !Z.eqb_refl. cbn [bit_of]. change (fmul p 1 1) with ((1 * 1) mod p). rewrite !(Z.mod_small (1 * 1)) by lia. change (1 * 1) with 1. rewrite bits_sum4; [|exact Hp|unfold is_bit; lia..].
  rewrite fselect_ok; [reflexivity|lia|unfold is_bit; lia|apply felt_fadd; lia|unfold felt; lia].
Qed.

Definition child_ok (c : list Z) : Prop := Forall is_byte c /\ (length c <= 32)%nat.
Definition branch_tree (cs : list (list Z)) : rtree := RList (map RStr (cs ++ [[]])).
Lemma concat_len (l : list (list Z)) b : Forall (fun x => (length x <= b)%nat) l -> (length (concat l) <= b * length l)%nat.
Proof. induction 1; cbn [concat length]; [lia|]. rewrite app_length. lia. Qed.
Lemma branch_len cs : length cs = 16%nat -> Forall child_ok cs -> (length (rlp (branch_tree cs)) <= 532)%nat.
Proof.
  intros L F. unfold branch_tree. rewrite map_app. cbn [map]. set (l := map RStr cs ++ [RStr []]).
  assert (B : (length (concat (map rlp l)) <= 529)%nat).
  { unfold l. rewrite map_app, concat_app, app_length. change (length (concat (map rlp [RStr []]))) with 1%nat. assert (G := concat_len (map rlp (map RStr cs)) 33). rewrite !map_length, L in G. specialize (G ltac:(
      apply Forall_forall; intros x I; rewrite map_map in I; apply in_map_iff in I; destruct I as (c & <- & I); rewrite Forall_forall in F; destruct (F c I) as [Fb Lc]; destruct (str_item c Fb ltac:(unfold small; lia)) as (hd & E & _ & _ & _ & L1 & _); rewrite E, app_length; specialize (L1 ltac:(lia)); lia)). lia. }
  destruct (list_item l) as (hd & Eh & _ & _ & _ & _ & _ & L3); [unfold small; lia|]. specialize (L3 ltac:(lia)). rewrite Eh, app_length. lia.
Qed.
Lemma Forall2_repeat {A B} (P : A -> B -> Prop) a l : Forall (P a) l -> Forall2 P (repeat a (length l)) l.
Proof. induction 1; cbn [length repeat]; constructor; assumption. Qed.
Lemma Forall2_nth' {A B} (P : A -> B -> Prop) l m a b i : Forall2 P l m -> (i < length l)%nat -> P (nth i l a) (nth i m b).
Proof. intros H. revert i. induction H as [|x y l m H1 H2 IH]; intros i L; cbn [length] in L; [lia|]. destruct i as [|i]; [exact H1|]. cbn [nth]. apply IH. lia. Qed.

Theorem branch_complete kn refs nodeRlp cs rest :
  length refs = 64%nat -> (forall x, In x refs -> felt p x) -> Forall nibble nodeRlp -> (1064 <= length nodeRlp)%nat -> nodeRlp = nib (rlp (branch_tree cs)) ++ rest -> length cs = 16%nat -> Forall child_ok cs ->
  0 <= kn < 16 -> firstn (2 * length (nth (Z.to_nat kn) cs [])) refs = nib (nth (Z.to_nat kn) cs []) ->
  check_branch p 64 kn (hlen (nth (Z.to_nat kn) cs [])) refs nodeRlp = Some (4, hlen (rlp (branch_tree cs))).
Proof.
  intros Lr Fr Nn Ln En Lc Fc Hk Ev. pose proof (branch_len cs Lc Fc) as Lt. pose proof branch_params_ok as Pa.
  assert (HcK : child_ok (nth (Z.to_nat kn) cs [])) by (rewrite Forall_forall in Fc; apply Fc, nth_In; lia). destruct HcK as [Fk Lk].
  assert (EQ := rlp_array_check_firstn p branch_params nodeRlp 17 ltac:(cbn [branch_params ac_prefixMax ac_maxHexLen]; lia) Ln). change (ac_maxHexLen branch_params) with 1064%nat in EQ.
  set (buf := firstn 1064 nodeRlp) in *. assert (Lb : length buf = 1064%nat) by (unfold buf; rewrite firstn_length; lia). assert (Nb : Forall nibble buf) by (apply Forall_firstn; exact Nn).
  assert (HF : Forall2 str_fits (ac_fields branch_params) (cs ++ [[]])).
  { change (ac_fields branch_params) with (repeat (0, 64)%nat 16 ++ [(0, 0)%nat]). apply Forall2_app.
    - rewrite <- Lc. apply Forall2_repeat. apply Forall_forall. intros c I. rewrite Forall_forall in Fc. destruct (Fc c I) as [F1 F2]. split; [exact F1|]. split; [reflexivity|]. split; [cbn [snd]; lia|left; lia].
    - constructor; [|constructor]. split; [constructor|]. split; [reflexivity|]. split; [cbn; lia|left; cbn; lia]. }
  destruct (arr_complete p branch_params (cs ++ [[]]) buf _ Hp Pa Lb Nb (window _ _ _ 1064 En ltac:(lia)) HF ltac:(cbn; lia) ltac:(vm_compute; reflexivity)) as (outs & C1 & C2).
  change (Z.of_nat (length (ac_fields branch_params))) with 17 in C1. rewrite <- EQ in C1. fold (branch_tree cs) in C1.
  destruct (branch_shape p Hp nodeRlp _ _ _ _ Ln Nn C1) as (_ & _ & L1 & L2 & B5 & B6 & _).
  unfold check_branch. rewrite C1. cbn [obind]. rewrite (branch_rows_mux p Hp) by (auto; unfold felt; lia). destruct (Z.ltb_spec kn 16); [|lia]. cbn [obind].
  assert (Li : (Z.to_nat kn < length (cs ++ [[]]))%nat) by (rewrite app_length, Lc; lia). destruct (Forall2_nth' _ _ _ [] [] _ C2 Li) as [D1 D2]. rewrite app_nth1 in D1 by lia. rewrite Lb in D2.
  set (c := nth (Z.to_nat kn) cs []) in *. set (out := nth (Z.to_nat kn) outs []) in *.
  assert (No : Forall nibble out) by (rewrite Forall_forall in B6; apply (B6 out), nth_In; lia).
  rewrite (r_array_equal_ok p Hp2 refs (firstn 64 out)); [|exact Fr|apply Forall_nibble_felt; [lia|apply Forall_firstn, No]|unfold hlen, felt; lia|lia|rewrite firstn_length; lia|lia|rewrite firstn_length; lia|lia].
  destruct (Z.leb_spec (hlen c) (Z.of_nat 64)) as [|X]; [|unfold hlen in X; lia]. rewrite prefix_eqb_true by (unfold hlen; rewrite Nat2Z.id, firstn_firstn, Nat.min_l by lia; congruence). cbn [obind bit_of].
  assert (Lm : map hlen (cs ++ [[]]) = map hlen cs ++ [0]) by (rewrite map_app; reflexivity). rewrite Lm. rewrite (r_mux1_ok p Hp2).
  - destruct (Z.ltb_spec kn (Z.of_nat 16)); [|lia]. cbn [obind]. rewrite nth_firstn' by lia. rewrite app_nth1 by (rewrite map_length; lia). change 0 with (hlen []) at 1. rewrite map_nth. fold c. rewrite (r_equal_ok p Hp2) by (unfold hlen, felt; lia). rewrite Z.eqb_refl. cbn [bit_of].
    rewrite bits_sum4; [reflexivity|exact Hp|unfold is_bit; lia..].
  - unfold felt; lia.
  - lia.
  - rewrite firstn_length, app_length, map_length. cbn [length]. lia.
  - intros x I. apply In_nth with (d := 0) in I. destruct I as (j & Hj & <-). rewrite firstn_length, app_length, map_length in Hj. cbn [length] in Hj. rewrite nth_firstn' by lia. rewrite app_nth1 by (rewrite map_length; lia). change 0 with (hlen []) at 1. rewrite map_nth.
    assert (Cj : child_ok (nth j cs [])) by (rewrite Forall_forall in Fc; apply Fc, nth_In; lia). destruct Cj as [_ Cj]. unfold hlen, felt. lia.
Qed.
End P.
