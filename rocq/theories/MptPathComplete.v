(** * MptPathComplete.v — the inclusion gadget accepts the honest inputs of every trie path *)
From Coq Require Import ZArith List Lia Bool Arith.
From Verif Require Import ModNorm Field FieldLemmas RlpUtilModel RlpUtilProofs RlpModel RlpSpec RlpPrefixProofs RlpArrayProofs RlpArraySound RlpEnc RlpBridge MptModel MptSpec MptTrie MptProofs MptPathProofs MptPathSound MptComplete MptZero.
Import ListNotations.
Open Scope Z_scope.

Lemma map_mul0 p (l : list Z) : map (fun x => fmul p 0 x) l = repeat 0 (length l).
Proof. induction l as [|x l IH]; cbn [map length repeat]; [reflexivity|]. rewrite fmul0l, IH. reflexivity. Qed.
Lemma map_sub1 p (l : list Z) : 2 < p -> (forall x, In x l -> felt p x) -> map (fun x => fsub p x (fmul p 1 x)) l = repeat 0 (length l).
Proof.
  intros Hp. induction l as [|x l IH]; intros F; cbn [map length repeat]; [reflexivity|]. rewrite IH by (intros; apply F; right; assumption).
  f_equal. rewrite fmul1l by (apply F; left; reflexivity). unfold fsub. rewrite Z.sub_diag. apply Z.mod_0_l. lia.
Qed.
Lemma map_mul1 p (l : list Z) : (forall x, In x l -> felt p x) -> map (fun x => fmul p 1 x) l = l.
Proof. induction l as [|x l IH]; intros F; cbn [map]; [reflexivity|]. rewrite IH by (intros; apply F; right; assumption). f_equal. apply fmul1l. apply F. left. reflexivity. Qed.
Lemma map_sub0 p (l : list Z) : 2 < p -> (forall x, In x l -> felt p x) -> map (fun x => fsub p x (fmul p 0 x)) l = l.
Proof. intros Hp. induction l as [|x l IH]; intros F; cbn [map]; [reflexivity|]. rewrite IH by (intros; apply F; right; assumption). f_equal. rewrite fmul0l. assert (G := F x (or_introl eq_refl)). unfold felt in G. rewrite fsub_small; lia. Qed.
Lemma rlp_str_ge s : (length s <= length (rlp (RStr s)))%nat.
Proof. cbn [rlp]. unfold rlp_str. destruct s as [|a [|b s]]; try (cbn; lia); repeat (match goal with |- context [if ?b then _ else _] => destruct b end); rewrite ?app_length; cbn [length]; lia. Qed.
Lemma concat_in_len (l : list (list Z)) x : In x l -> (length x <= length (concat l))%nat.
Proof. induction l as [|y l IH]; intros I; [destruct I|]; destruct I as [->|I]; cbn [concat]; rewrite app_length; [lia|specialize (IH I); lia]. Qed.
Lemma rlp_list_ge l s : In (RStr s) l -> (1 + length s <= length (rlp (RList l)))%nat.
Proof. intros I. pose proof (rlp_list_len l). pose proof (rlp_str_ge s). pose proof (concat_in_len (map rlp l) (rlp (RStr s)) (in_map _ _ _ I)). lia. Qed.

Lemma head_len n : (n <= 66)%nat -> (length (rlp_head_bytes 192 n) <= 2)%nat.
Proof.
  intros H. assert (T : forallb (fun n => Nat.leb (length (rlp_head_bytes 192 n)) 2) (seq 0 67) = true) by (vm_compute; reflexivity).
  rewrite forallb_forall in T. specialize (T n ltac:(apply in_seq; lia)). apply Nat.leb_le in T. exact T.
Qed.
Lemma str_len33 s : Forall is_byte s -> (length s <= 32)%nat -> (length (rlp (RStr s)) <= 33)%nat.
Proof. intros F L. destruct (str_item s F ltac:(unfold small; lia)) as (hd & E & _ & _ & _ & L1 & _). rewrite E, app_length. specialize (L1 ltac:(lia)). lia. Qed.
Lemma ext_len kb vb : Forall is_byte kb -> Forall is_byte vb -> (length kb <= 32)%nat -> (length vb <= 32)%nat -> (length (rlp (RList [RStr kb; RStr vb])) <= 68)%nat.
Proof.
  intros F1 F2 L1 L2. pose proof (str_len33 kb F1 L1). pose proof (str_len33 vb F2 L2).
  change (rlp (RList [RStr kb; RStr vb])) with (rlp_head_bytes 192 (length (rlp (RStr kb) ++ rlp (RStr vb) ++ [])) ++ (rlp (RStr kb) ++ rlp (RStr vb) ++ [])).
  rewrite app_nil_r, app_length. assert (L : (length (rlp (RStr kb) ++ rlp (RStr vb)) <= 66)%nat) by (rewrite app_length; lia). pose proof (head_len _ L). lia.
Qed.

Section P.
Variable p : Z.
Hypothesis Hp : 2 ^ 200 < p.
Let Hp2 : 2 < p. Proof. eapply Z.lt_trans; [|exact Hp]; reflexivity. Qed.
Let Hpb : 2 ^ 70 < p. Proof. eapply Z.lt_trans; [|exact Hp]; reflexivity. Qed.
Let H70 : 2 ^ 70 = 1180591620717411303424. Proof. reflexivity. Qed.
Variable hash : list Z -> Z -> option (list Z).

Lemma keccak_fwd inLen buf r d : 63 <= inLen < 2 ^ 66 -> hash buf r = Some d -> keccak_or_len p hash inLen buf r = Some (d, 64).
Proof.
  intros H E. unfold keccak_or_len. rewrite E. cbn [obind]. change (2 ^ 66) with 73786976294838206464 in H. rewrite (r_less_than_ok p Hp2) by (unfold felt; lia).
  destruct (Z.ltb_spec inLen 63); [lia|]. cbn [bit_of]. rewrite fmul0l, fadd_small by lia. reflexivity.
Qed.
Lemma keccak_fwd_any inLen buf r d : hash buf r = Some d -> exists l, keccak_or_len p hash inLen buf r = Some (d, l).
Proof. intros E. unfold keccak_or_len. rewrite E. cbn [obind]. eexists. reflexivity. Qed.

Section L.
Variables (key : list Z) (i : layers_in) (leaf : list Z * Z).
Hypothesis Hkey : length key = 64%nat /\ Forall nibble key.
Hypothesis Hi : li_key i = key.
Hypothesis Hleaf : length (fst leaf) = 64%nat /\ Forall nibble (fst leaf) /\ 0 <= snd leaf <= 64.
Hypothesis Hdepth : 0 <= li_depth i < 1000.
Definition sub_ : Z -> Z -> option (list Z * Z) := fun from end_ => r_sub_array p 64 64 7 (firstn 64 (li_key i)) from end_.
Lemma sub_fwd s0 s1 : 0 <= s0 <= s1 -> s1 <= 64 -> sub_ s0 s1 = Some (rotl (Z.to_nat s0) key, s1 - s0).
Proof.
  intros A B. destruct Hkey as [Lk Nk]. unfold sub_. rewrite Hi. rewrite (firstn_all2 key) by lia.
  pose proof (field_bits_200 p Hp) as FB. rewrite (r_sub_array_ok p Hp2); [|lia|apply Forall_nibble_felt; [lia|exact Nk]|unfold felt; lia|unfold felt; lia|lia|lia|reflexivity|lia|lia].
  destruct (Z.leb_spec s0 s1); [|lia]. destruct (Z.leb_spec s1 (Z.of_nat 64)); [|lia]. destruct (Z.leb_spec (s1 - s0) (Z.of_nat 64)); [|lia]. cbn [andb].
  rewrite (firstn_all2 key) by lia. rewrite firstn_all2 by (rewrite rotl_length; lia). reflexivity.
Qed.
Lemma key_fwd : forall x, In x key -> felt p x.
Proof. apply Forall_nibble_felt; [lia|apply Hkey]. Qed.
Lemma rot_fwd s : length (rotl s key) = 64%nat /\ forall x, In x (rotl s key) -> felt p x.
Proof. split; [rewrite rotl_length; apply Hkey|]. apply rotl_felt; exact key_fwd. Qed.
Lemma key_nib s : 0 <= s < 64 -> 0 <= nth (Z.to_nat s) key 0 < 16.
Proof. intros H. destruct Hkey as [Lk Nk]. rewrite Forall_forall in Nk. apply (Nk (nth (Z.to_nat s) key 0)), nth_In. lia. Qed.

(** what the layer of index [k] reads *)
Variables (k : nat) (nxt : option (list Z * Z)).
Hypothesis Hk : (k < 100)%nat.
Hypothesis Hnxt : match nxt with Some n => good_ref n | None => True end.
Definition s0_ := nth k (li_starts i) 0.
Definition s1_ := nth (S k) (li_starts i) 0.
Definition buf_ := nth k (li_nodes i) [].
Hypothesis Hs : 0 <= s0_ <= s1_ /\ s1_ <= 64.
Hypothesis Hs0 : Z.of_nat k < li_depth i -> s0_ < 64.
Hypothesis Hbuf : Forall nibble buf_ /\ (1064 <= length buf_)%nat.

(** the layer in terms of its two node checks *)
Lemma layer_fwd ty refs refLen : nth k (li_types i) 0 = ty -> expected i leaf k nxt = (refs, refLen) ->
  layer_check p hash 64 sub_ i leaf k nxt =
   obind (check_extension p 64 64 (s1_ - s0_) (rotl (Z.to_nat s0_) key) refLen refs (map (fun x => fmul p ty x) (firstn 136 buf_)) (nth k (li_prefs i) 0)) (fun '(extOut, extTotal) =>
   obind (check_branch p 64 (nth (Z.to_nat (if Z.of_nat k <? li_depth i then s0_ else 0)) key 0) refLen refs (map (fun x => fsub p x (fmul p ty x)) (firstn 1064 buf_))) (fun '(brOut, brTotal) =>
   obind (keccak_or_len p hash (fadd p (fmul p ty (fsub p extTotal brTotal)) brTotal) buf_ (nth k (li_rounds i) 0)) (fun h => Some ((extOut, brOut), h)))).
Proof.
  intros Ety Eref. unfold layer_check. fold s0_ s1_ buf_. rewrite sub_fwd by lia. cbn [obind].
  rewrite (r_equal_ok p Hp2) by (unfold felt; lia). replace (Z.of_nat (S k) + 1) with (Z.of_nat k + 2) by lia.
  destruct Hleaf as (L1 & L2 & L3). rewrite (node_ref_ok p Hp) by (auto using bit_of_bit).
  assert (Hbt : forall x, (bit_of x =? 1) = x) by (intros []; reflexivity). rewrite Hbt.
  change (if li_depth i =? Z.of_nat k + 2 then leaf else match nxt with Some n => n | None => (repeat 0 64, 0) end) with (expected i leaf k nxt). rewrite Eref.
  destruct Hbuf as [Nb Lb]. destruct (Nat.leb_spec 1064 (length buf_)); [|lia]. cbn [guard obind]. change (4 + 2 + 64 + 2 + 64)%nat with 136%nat. rewrite Ety.
  rewrite (fsub_small p s1_ s0_) by lia. destruct (check_extension _ _ _ _ _ _ _ _ _) as [[eo et]|]; [|reflexivity]. cbn [obind].
  rewrite Hi. destruct Hkey as [Lk Nk]. destruct (Nat.leb_spec 64 (length key)); [|lia]. cbn [guard obind]. rewrite (firstn_all2 key) by lia.
  rewrite (r_less_than_ok p Hp2) by (unfold felt; lia).
  assert (EQ : fmul p (bit_of (Z.of_nat k <? li_depth i)) s0_ = if Z.of_nat k <? li_depth i then s0_ else 0). { destruct (_ <? _); cbn [bit_of]; [apply fmul1l; unfold felt; lia|apply fmul0l]. }
  rewrite EQ. set (j := if Z.of_nat k <? li_depth i then s0_ else 0). assert (Hj : 0 <= j < 64) by (unfold j; destruct (Z.ltb_spec (Z.of_nat k) (li_depth i)) as [X|X]; [specialize (Hs0 X); lia|lia]).
  rewrite (r_mux1_ok p Hp2); [|unfold felt; lia|lia|lia|exact key_fwd]. destruct (Z.ltb_spec j (Z.of_nat 64)); [|lia]. cbn [obind]. destruct (check_branch _ _ _ _ _ _) as [[bo bt]|]; reflexivity.
Qed.

Lemma felts_firstn n : forall x, In x (firstn n buf_) -> felt p x.
Proof. apply Forall_nibble_felt; [lia|]. apply Forall_firstn, Hbuf. Qed.
Lemma exp_good refs refLen : expected i leaf k nxt = (refs, refLen) -> length refs = 64%nat /\ (forall x, In x refs -> felt p x) /\ 0 <= refLen <= 64.
Proof.
  intros E. assert (G : good_ref (expected i leaf k nxt)).
  { unfold expected. destruct (_ =? _); [exact Hleaf|]. destruct nxt; [exact Hnxt|]. split; [reflexivity|]. split; [apply nib0|cbn; lia]. }
  rewrite E in G. destruct G as (G1 & G2 & G3). split; [exact G1|]. split; [apply Forall_nibble_felt; [lia|exact G2]|exact G3].
Qed.

Lemma layer_branch d cs rest : nth k (li_types i) 0 = 0 -> nth k (li_prefs i) 0 = 0 -> Z.of_nat k < li_depth i -> hash buf_ (nth k (li_rounds i) 0) = Some d ->
  snd (expected i leaf k nxt) = 64 -> length cs = 16%nat -> Forall child_ok cs -> buf_ = nib (rlp (branch_tree cs)) ++ rest -> nib (nth (Z.to_nat (nth (Z.to_nat s0_) key 0)) cs []) = fst (expected i leaf k nxt) ->
  exists e, layer_check p hash 64 sub_ i leaf k nxt = Some ((e, 4), (d, 64)).
Proof.
  intros Ety Epr Hd Eh E64 Lc Fc Eb Er. destruct (expected i leaf k nxt) as [refs refLen] eqn:Ex. cbn [fst snd] in E64, Er. subst refLen.
  destruct (exp_good _ _ Ex) as (R1 & R2 & _). rewrite (layer_fwd 0 refs 64 Ety Ex). destruct Hbuf as [Nb Lb]. destruct (rot_fwd (Z.to_nat s0_)) as [Q1 Q2].
  rewrite map_mul0, firstn_length, Nat.min_l by lia. rewrite Epr. destruct (ext_zero p Hp (s1_ - s0_) _ 64 refs Q1 Q2 R1 R2) as (e & ->). cbn [obind].
  rewrite map_sub0 by (try apply felts_firstn; lia). destruct (Z.ltb_spec (Z.of_nat k) (li_depth i)); [|lia].
  specialize (Hs0 Hd). assert (Hn := key_nib s0_ ltac:(lia)). set (kn := nth (Z.to_nat s0_) key 0) in *.
  assert (Lc32 : (2 * length (nth (Z.to_nat kn) cs []) = 64)%nat) by (rewrite <- nib_length, Er; exact R1).
  assert (Wn : firstn 1064 buf_ = nib (rlp (branch_tree cs)) ++ firstn (1064 - 2 * length (rlp (branch_tree cs))) rest) by (apply window; [exact Eb|pose proof (branch_len cs Lc Fc); lia]).
  assert (BC := branch_complete p Hp kn refs (firstn 1064 buf_) cs _ R1 R2 ltac:(apply Forall_firstn, Nb) ltac:(rewrite firstn_length; lia) Wn Lc Fc Hn).
  rewrite Er, Lc32, (firstn_all2 refs) in BC by lia. specialize (BC eq_refl). unfold hlen in BC at 1. rewrite Lc32 in BC. change (Z.of_nat 64) with 64 in BC. rewrite BC. cbn [obind].
  assert (LL : (33 <= length (rlp (branch_tree cs)))%nat). { pose proof (rlp_list_ge (map RStr (cs ++ [[]])) (nth (Z.to_nat kn) cs [])) as G. unfold branch_tree. assert (In (RStr (nth (Z.to_nat kn) cs [])) (map RStr (cs ++ [[]]))) by (apply in_map, in_or_app; left; apply nth_In; lia). specialize (G H0). lia. }
  pose proof (branch_len cs Lc Fc) as LU. rewrite fmul0l. unfold hlen. rewrite fadd_small by lia. rewrite (keccak_fwd _ _ _ d) by (auto; change (2 ^ 66) with 73786976294838206464; lia). cbn [obind]. eexists. reflexivity.
Qed.

Lemma layer_ext d f kb vb rest : nth k (li_types i) 0 = 1 -> nth k (li_prefs i) 0 = flag_len f -> hash buf_ (nth k (li_rounds i) 0) = Some d ->
  snd (expected i leaf k nxt) = 64 -> s1_ = s0_ + Z.of_nat (length f) -> s1_ < 64 -> firstn (length f) (skipn (Z.to_nat s0_) key) = f ->
  Forall is_byte kb -> Forall is_byte vb -> buf_ = nib (rlp (RList [RStr kb; RStr vb])) ++ rest -> nib kb = hex_prefix 0 f -> nib vb = fst (expected i leaf k nxt) ->
  exists b, layer_check p hash 64 sub_ i leaf k nxt = Some ((4, b), (d, 64)).
Proof.
  intros Ety Epr Eh E64 Es Es1 Ef Fk Fv Eb Ek Er. destruct (expected i leaf k nxt) as [refs refLen] eqn:Ex. cbn [fst snd] in E64, Er. subst refLen.
  destruct (exp_good _ _ Ex) as (R1 & R2 & _). rewrite (layer_fwd 1 refs 64 Ety Ex). destruct Hbuf as [Nb Lb]. destruct (rot_fwd (Z.to_nat s0_)) as [Q1 Q2].
  assert (Lv : (2 * length vb = 64)%nat) by (rewrite <- nib_length, Er; exact R1).
  assert (Lkb : (length kb <= 32)%nat) by (assert (X := hex_prefix_len 0 f); rewrite <- Ek, nib_length in X; unfold flag_len in X; destruct (Nat.even (length f)) eqn:Ev; [apply Nat.even_spec in Ev; destruct Ev as [m Ev]; lia|lia]).
  assert (LU : (length (rlp (RList [RStr kb; RStr vb])) <= 68)%nat) by (apply ext_len; auto; lia).
  assert (LL : (33 <= length (rlp (RList [RStr kb; RStr vb])))%nat) by (pose proof (rlp_list_ge [RStr kb; RStr vb] vb ltac:(right; left; reflexivity)); lia).
  rewrite map_mul1 by apply felts_firstn. rewrite Epr. replace (s1_ - s0_) with (Z.of_nat (length f)) by lia.
  assert (Wn : firstn 136 buf_ = nib (rlp (RList [RStr kb; RStr vb])) ++ firstn (136 - 2 * length (rlp (RList [RStr kb; RStr vb]))) rest) by (apply window; [exact Eb|lia]).
  assert (EC := ext_complete p Hp (rotl (Z.to_nat s0_) key) refs (firstn 136 buf_) kb vb f _ Q1 Q2 R1 R2 ltac:(apply Forall_firstn, Nb) ltac:(rewrite firstn_length; lia) Wn Fk Fv Ek ltac:(lia)).
  rewrite firstn_rotl_prefix in EC by (destruct Hkey; lia). specialize (EC Ef ltac:(lia)). rewrite Er, Lv, (firstn_all2 refs) in EC by lia. specialize (EC eq_refl LU). unfold hlen in EC at 1. rewrite Lv in EC. change (Z.of_nat 64) with 64 in EC. rewrite EC. cbn [obind].
  rewrite map_sub1, firstn_length, Nat.min_l by (try apply felts_firstn; lia).
  set (j := if Z.of_nat k <? li_depth i then s0_ else 0). assert (Hj : 0 <= j < 64) by (unfold j; destruct (Z.ltb_spec (Z.of_nat k) (li_depth i)) as [X|X]; [specialize (Hs0 X); lia|lia]).
  destruct (branch_zero p Hp (nth (Z.to_nat j) key 0) 64 refs (key_nib j Hj) ltac:(lia) R1 R2) as (b & ->). cbn [obind].
  assert (ET : fadd p (fmul p 1 (fsub p (hlen (rlp (RList [RStr kb; RStr vb]))) 2)) 2 = hlen (rlp (RList [RStr kb; RStr vb]))). { unfold hlen. rewrite fsub_small by lia. rewrite fmul1l by (unfold felt; lia). rewrite fadd_small by lia. lia. }
  rewrite ET. unfold hlen. rewrite (keccak_fwd _ _ _ d) by (auto; change (2 ^ 66) with 73786976294838206464; lia). cbn [obind]. eexists. reflexivity.
Qed.

Lemma layer_pad d : nth k (li_types i) 0 = 1 -> nth k (li_prefs i) 0 = 0 -> (exists W, buf_ = repeat 0 W) -> hash buf_ (nth k (li_rounds i) 0) = Some d ->
  exists r, layer_check p hash 64 sub_ i leaf k nxt = Some (r, (d, 2)).
Proof.
  intros Ety Epr (W & EW) Eh. destruct (expected i leaf k nxt) as [refs refLen] eqn:Ex.
  destruct (exp_good _ _ Ex) as (R1 & R2 & R3). rewrite (layer_fwd 1 refs refLen Ety Ex). destruct Hbuf as [Nb Lb]. destruct (rot_fwd (Z.to_nat s0_)) as [Q1 Q2].
  rewrite map_mul1 by apply felts_firstn. rewrite Epr. assert (E136 : firstn 136 buf_ = repeat 0 136).
  { rewrite EW in *. rewrite repeat_length in Lb. replace W with (136 + (W - 136))%nat by lia. rewrite repeat_app, firstn_app, repeat_length, Nat.sub_diag, firstn_all2 by (rewrite repeat_length; lia). apply app_nil_r. }
  rewrite E136. destruct (ext_zero p Hp (s1_ - s0_) _ refLen refs Q1 Q2 R1 R2) as (e & ->). cbn [obind].
  rewrite map_sub1, firstn_length, Nat.min_l by (try apply felts_firstn; lia).
  set (j := if Z.of_nat k <? li_depth i then s0_ else 0). assert (Hj : 0 <= j < 64) by (unfold j; destruct (Z.ltb_spec (Z.of_nat k) (li_depth i)) as [X|X]; [specialize (Hs0 X); lia|lia]).
  destruct (branch_zero p Hp (nth (Z.to_nat j) key 0) refLen refs (key_nib j Hj) ltac:(lia) R1 R2) as (b & ->). cbn [obind].
  assert (E2 : fadd p (fmul p 1 (fsub p 2 2)) 2 = 2) by (rewrite fsub_small by lia; rewrite fmul1l by (unfold felt; lia); apply fadd_small; lia). rewrite E2.
  destruct (keccak_fwd_any 2 _ _ _ Eh) as (l & El). destruct (keccak_or_len_ok p Hp hash 2 _ _ _ ltac:(split; [lia|reflexivity]) El) as [_ X]. cbn [snd] in X. change (2 <? 63) with true in X. cbv iota in X. subst l. rewrite El. cbn [obind]. eexists. reflexivity.
Qed.
End L.
End P.
