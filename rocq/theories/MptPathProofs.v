(** * MptPathProofs.v — the inclusion gadgets of mpt.go: what acceptance means *)
From Coq Require Import ZArith List Lia Bool Arith.
From Verif Require Import ModNorm Field FieldLemmas RlpUtilModel RlpUtilProofs RlpModel RlpSpec RlpPrefixProofs RlpArrayProofs RlpArraySound MptModel MptSpec MptProofs.
Import ListNotations.
Open Scope Z_scope.
Open Scope circ_scope.

Ltac Zify.zify_post_hook ::= Z.div_mod_to_equations.

(** Buffers are whole numbers of 16-digit words (the circuits of the repository use 17*16*k digits). *)
Definition aligned (buf : list Z) : Prop := (length buf mod 16 = 0)%nat.
(** What the digest gadget guarantees (proved for Keccak256AsNibbles in Props_MptKeccak.v): the digits of an aligned
    input are range-checked and it returns 64 hexadecimal digits. *)
Definition hash_ok (p : Z) (hash : list Z -> Z -> option (list Z)) : Prop :=
  forall buf r d, (forall x, In x buf -> felt p x) -> aligned buf -> felt p r -> hash buf r = Some d -> Forall nibble buf /\ length d = 64%nat /\ Forall nibble d.

Lemma zsum_all_max : forall l c, Forall (fun x => x <= c) l -> zsum l = c * Z.of_nat (length l) -> Forall (fun x => x = c) l.
Proof.
  induction l as [|x l IH]; intros c F H; constructor; inversion F; subst.
  - assert (zsum l <= c * Z.of_nat (length l)).
    { clear - H3. induction l as [|y l IH]; cbn [zsum fold_right length]; [lia|]. inversion H3; subst. specialize (IH H2). unfold zsum in *. lia. }
    cbn [zsum fold_right length] in H. unfold zsum in *. lia.
  - apply IH; auto.
    assert (Hub : zsum l <= c * Z.of_nat (length l)).
    { clear - H3. induction l as [|y l IH]; cbn [zsum fold_right length]; [lia|]. inversion H3; subst. specialize (IH H2). unfold zsum in *. lia. }
    cbn [zsum fold_right length] in H. unfold zsum in *. lia.
Qed.
Lemma zsum_ub : forall l c, Forall (fun x => x <= c) l -> zsum l <= c * Z.of_nat (length l).
Proof. induction l as [|y l IH]; intros c F; cbn [zsum fold_right length]; [lia|]. inversion F; subst. specialize (IH c H2). unfold zsum in *. lia. Qed.
Lemma zsum_lb : forall l, Forall (fun x => 0 <= x) l -> 0 <= zsum l.
Proof. induction l as [|y l IH]; intros F; cbn [zsum fold_right]; [lia|]. inversion F; subst. specialize (IH H2). unfold zsum in *. lia. Qed.

Section P.
Variable p : Z.
Hypothesis Hp : 2 ^ 200 < p.
Let Hp' : 1606938044258990275541962092341162602522202993782792835301376 < p := Hp.
Let Hp2 : 2 < p. Proof. zlia. Qed.

Lemma run_sums_length : forall l acc, length (run_sums p acc l) = length l.
Proof. induction l; intros; cbn; auto. Qed.
Lemma run_sums_felt : forall l acc x, In x (run_sums p acc l) -> felt p x.
Proof. induction l; intros acc x H; cbn in H; [easy|]. destruct H as [<-|H]; [apply felt_fadd; zlia|eauto]. Qed.
Lemma run_sums_nth : forall l acc k, Forall (fun x => 0 <= x <= 1000) l -> (length l <= 1000)%nat -> 0 <= acc < 2 ^ 100 -> (k < length l)%nat ->
  nth k (run_sums p acc l) 0 = acc + zsum (firstn (S k) l).
Proof.
  intros l acc k F L Ha Hk. 
  assert (G : forall l acc k, Forall (fun x => 0 <= x <= 1000) l -> 0 <= acc -> acc + 1000 * Z.of_nat (length l) < 2 ^ 110 -> (k < length l)%nat ->
     nth k (run_sums p acc l) 0 = acc + zsum (firstn (S k) l)).
  { clear - Hp'. induction l as [|x l IH]; intros acc k F A1 A2 Hk; cbn [length] in *; [lia|].
    inversion F; subst. cbn [run_sums]. rewrite fadd_small by zlia. destruct k as [|k]; cbn [nth firstn].
    - unfold zsum. cbn. lia.
    - rewrite IH by (auto; try zlia). cbn [zsum fold_right firstn]. unfold zsum. lia. }
  apply G; auto; zlia.
Qed.

(** keccak_or_len *)
Lemma keccak_or_len_ok : forall hash inLen buf r h, 0 <= inLen < 2 ^ 66 -> keccak_or_len p hash inLen buf r = Some h ->
  hash buf r = Some (fst h) /\ snd h = (if inLen <? 63 then inLen else 64).
Proof.
  intros hash inLen buf r h Hi H. unfold keccak_or_len in H.
  destruct (hash buf r) as [d|] eqn:E; [ostep H|discriminate].
  rewrite r_less_than_ok in H by (unfold felt; zlia).
  destruct (Z.ltb_spec inLen 63); cbn [bit_of] in H.
  - assert (h = (d, inLen)).
    { assert (E1 : fadd p (fmul p 1 (fsub p inLen 64)) 64 = inLen) by (mnorm_lhs p; rewrite Z.mod_small; zlia). congruence. }
    subst h. auto.
  - rewrite fmul0l in H. rewrite fadd_small in H by zlia. change (0 + 64) with 64 in H. assert (h = (d, 64)) by congruence. subst. auto.
Qed.

(** digits and length the parent must hold *)
Definition ref_digits (rl : list Z * Z) : list Z := firstn (Z.to_nat (snd rl)) (fst rl).

Lemma node_ref_ok : forall depthEq leaf nxt, is_bit depthEq -> length (fst leaf) = 64%nat -> Forall nibble (fst leaf) -> 0 <= snd leaf <= 64 ->
  (match nxt with Some n => length (fst n) = 64%nat /\ Forall nibble (fst n) /\ 0 <= snd n <= 64 | None => True end) ->
  node_ref p depthEq leaf nxt =
    (if depthEq =? 1 then leaf else match nxt with Some n => n | None => (repeat 0 64, 0) end).
Proof.
  intros depthEq [ld ll] nxt Hb L F R Hn. cbn [fst snd] in *. unfold node_ref. cbn [fst snd].
  assert (Fi : forall (l : list Z) i, Forall nibble l -> felt p (nth i l 0)) by (intros; apply nibble_felt; auto; apply nth_nibble; auto).
  destruct nxt as [[nd nl]|]; cbn [fst snd] in *.
  - destruct Hn as (N1 & N2 & N3).
    destruct Hb as [-> | ->]; cbn [Z.eqb Pos.eqb]; f_equal.
    + transitivity (map (fun i => nth i nd 0) (seq 0 64)); [|symmetry; apply list_as_map_seq; auto]. apply map_ext. intros i. rewrite fmul0l. rewrite fadd_small by (specialize (Fi nd i N2); unfold felt in Fi; zlia). lia.
    + rewrite fmul0l, fadd_small; zlia.
    + transitivity (map (fun i => nth i ld 0) (seq 0 64)); [|symmetry; apply list_as_map_seq; auto]. apply map_ext. intros i.
      pose proof (Fi nd i N2). pose proof (Fi ld i F). unfold felt in *. mnorm_lhs p. rewrite Z.mod_small; zlia.
    + mnorm_lhs p. rewrite Z.mod_small; zlia.
  - destruct Hb as [-> | ->]; cbn [Z.eqb Pos.eqb]; [reflexivity|f_equal].
    + transitivity (map (fun i => nth i ld 0) (seq 0 64)); [|symmetry; apply list_as_map_seq; auto]. apply map_ext. intros i. apply fmul1l; auto.
    + apply fmul1l; unfold felt; zlia.
Qed.

Variable hash : list Z -> Z -> option (list Z).
Hypothesis Hhash : hash_ok p hash.

Section L.
Variables (keyLen : nat) (sub : Z -> Z -> option (list Z * Z)) (i : layers_in) (leaf : list Z * Z).
Hypothesis HkeyLen : (keyLen <= 64)%nat.
Hypothesis Hkey : forall x, In x (li_key i) -> felt p x.
Hypothesis Hstarts : forall x, In x (li_starts i) -> felt p x.
Hypothesis Hnodes : forall l x, In l (li_nodes i) -> In x l -> felt p x.
Hypothesis Haligned : forall l, In l (li_nodes i) -> aligned l.
Hypothesis Hrounds : forall x, In x (li_rounds i) -> felt p x.
Hypothesis Hprefs : forall x, In x (li_prefs i) -> felt p x.
Hypothesis Hdepth : felt p (li_depth i).
Hypothesis Hsub : forall s0 s1 sel l, felt p s0 -> felt p s1 -> sub s0 s1 = Some (sel, l) ->
  s0 <= s1 <= Z.of_nat keyLen /\ length sel = keyLen /\ (forall x, In x sel -> felt p x) /\
  firstn (Z.to_nat (s1 - s0)) sel = slice s0 s1 (li_key i).
Hypothesis Hleaf : length (fst leaf) = 64%nat /\ Forall nibble (fst leaf) /\ 0 <= snd leaf <= 64.

Definition good_ref (n : list Z * Z) : Prop := length (fst n) = 64%nat /\ Forall nibble (fst n) /\ 0 <= snd n <= 64.
Definition start (k : nat) : Z := nth k (li_starts i) 0.
Definition nodebuf (k : nat) : list Z := nth k (li_nodes i) [].
Definition nodetype (k : nat) : Z := nth k (li_types i) 0.

(** the reference expected in the node of layer k *)
Definition expected (k : nat) (nxt : option (list Z * Z)) : list Z * Z :=
  if li_depth i =? Z.of_nat k + 2 then leaf else match nxt with Some n => n | None => (repeat 0 64, 0) end.

Definition layer_fact (k : nat) (nxt : option (list Z * Z)) (r : Z * Z) (h : list Z * Z) : Prop :=
  let '(e, b) := r in
  0 <= e <= 4 /\ 0 <= b <= 4 /\
  exists total, 0 <= total < 2 ^ 66 /\
    felt p (nth k (li_rounds i) 0) /\ hash (nodebuf k) (nth k (li_rounds i) 0) = Some (fst h) /\ snd h = (if total <? 63 then total else 64) /\
    (1064 <= length (nodebuf k))%nat /\
    0 <= start k <= start (S k) /\ start (S k) <= Z.of_nat keyLen /\
    (nodetype k = 0 -> b = 4 -> Z.of_nat k < li_depth i ->
       branch_node (firstn 1064 (nodebuf k)) total (nth (Z.to_nat (start k)) (li_key i) 0) (ref_digits (expected k nxt))) /\
    (nodetype k = 1 -> e = 4 ->
       ext_node (firstn (4 + (keyLen + 2) + 2 + 64) (nodebuf k)) total (slice (start k) (start (S k)) (li_key i))
         (ref_digits (expected k nxt))).

Lemma start_felt k : felt p (start k).
Proof.
  unfold start. destruct (Nat.lt_ge_cases k (length (li_starts i))); [apply Hstarts, nth_In; auto|].
  rewrite nth_overflow by auto. unfold felt. zlia.
Qed.
Lemma key_felt k : felt p (nth k (li_key i) 0).
Proof.
  destruct (Nat.lt_ge_cases k (length (li_key i))); [apply Hkey, nth_In; auto|].
  rewrite nth_overflow by auto. unfold felt. zlia.
Qed.

Lemma node_felt k x : In x (nodebuf k) -> felt p x.
Proof.
  unfold nodebuf. destruct (Nat.lt_ge_cases k (length (li_nodes i))); [intros; eapply Hnodes; eauto; apply nth_In; auto|].
  rewrite nth_overflow by auto. easy.
Qed.

Lemma node_aligned k : aligned (nodebuf k).
Proof.
  unfold nodebuf. destruct (Nat.lt_ge_cases k (length (li_nodes i))); [apply Haligned, nth_In; auto|].
  rewrite nth_overflow by auto. reflexivity.
Qed.
Lemma round_felt k : felt p (nth k (li_rounds i) 0).
Proof.
  destruct (Nat.lt_ge_cases k (length (li_rounds i))); [apply Hrounds, nth_In; auto|].
  rewrite nth_overflow by auto. unfold felt. zlia.
Qed.
Lemma layer_check_ok : forall k nxt r h, is_bit (nodetype k) -> (k < 100)%nat ->
  match nxt with Some n => good_ref n | None => True end ->
  layer_check p hash keyLen sub i leaf k nxt = Some (r, h) ->
  layer_fact k nxt r h /\ good_ref h.
Proof.
  intros k nxt [e b] h Hty Hk Hnxt H. unfold layer_check in H.
  fold (start k) (start (S k)) (nodetype k) (nodebuf k) in H.
  pose proof (start_felt k) as Fs0. pose proof (start_felt (S k)) as Fs1.
  destruct (sub (start k) (start (S k))) as [[sel sl]|] eqn:Es; [ostep H|discriminate].
  destruct (Hsub _ _ _ _ Fs0 Fs1 Es) as (S1 & S2 & S3 & S4).
  assert (Hde : r_equal p (li_depth i) (Z.of_nat (S k) + 1) = bit_of (li_depth i =? Z.of_nat k + 2)).
  { rewrite r_equal_ok by (auto; unfold felt; zlia). f_equal. f_equal. zlia. }
  rewrite Hde in H. destruct Hleaf as (L1 & L2 & L3).
  rewrite node_ref_ok in H by (auto using bit_of_bit).
  assert (Hbt : forall x, (bit_of x =? 1) = x) by (intros []; reflexivity). rewrite Hbt in H.
  fold (expected k nxt) in H.
  assert (Gx : good_ref (expected k nxt)).
  { unfold expected. destruct (_ =? _); [repeat split; auto; lia|]. destruct nxt; auto.
    split; [reflexivity|]. split; [|cbn; lia]. apply Forall_forall. intros x Hx. apply repeat_spec in Hx. subst; unfold nibble; lia. }
  destruct (expected k nxt) as [refs refLen] eqn:Eref. destruct Gx as (G1 & G2 & G3). cbn [fst snd] in G1, G2, G3. cbv iota in H.
  destruct (Nat.leb_spec 1064 (length (nodebuf k))) as [Hl|]; cbn [guard] in H; [ostep H|discriminate].
  set (extRlp := map (fun x => fmul p (nodetype k) x) (firstn (4 + 2 + keyLen + 2 + 64) (nodebuf k))) in *.
  destruct (check_extension p keyLen 64 (fsub p (start (S k)) (start k)) sel refLen refs extRlp (nth k (li_prefs i) 0)) as [[eo et]|] eqn:Ee; [ostep H|discriminate].
  destruct (Nat.leb keyLen (length (li_key i))) eqn:Elk; cbn [guard] in H; [ostep H|discriminate]. apply Nat.leb_le in Elk.
  destruct (r_mux1 p _ keyLen _) as [nib|] eqn:En; [ostep H|discriminate].
  set (brRlp := map (fun x => fsub p x (fmul p (nodetype k) x)) (firstn 1064 (nodebuf k))) in *.
  destruct (check_branch p 64 nib refLen refs brRlp) as [[bo bt]|] eqn:Eb; [ostep H|discriminate].
  destruct (keccak_or_len p hash _ (nodebuf k) _) as [hh|] eqn:Eh; [ostep H|discriminate].
  assert (e = eo /\ b = bo /\ h = hh) as (-> & -> & ->) by (repeat split; congruence). clear H.
  assert (Fnb : forall x, In x (nodebuf k) -> felt p x) by (intros x; apply node_felt).
  assert (Nb : Forall nibble (nodebuf k)).
  { unfold keccak_or_len in Eh. destruct (hash _ _) as [d|] eqn:E; [|discriminate]. apply Hhash in E; auto using node_aligned, round_felt. apply E. }
  assert (Fn : forall x, nibble x -> felt p x) by (intros; apply nibble_felt; auto).
  assert (Hm1 : forall l, Forall nibble l -> map (fun x => fmul p (nodetype k) x) l = if nodetype k =? 1 then l else repeat 0 (length l)).
  { intros l F. destruct Hty as [-> | ->]; cbn [Z.eqb Pos.eqb].
    - induction F; cbn [map length repeat]; [auto|]. rewrite fmul0l. f_equal. auto.
    - induction F; cbn [map]; [auto|]. rewrite fmul1l by auto. f_equal. auto. }
  assert (Hm2 : forall l, Forall nibble l -> map (fun x => fsub p x (fmul p (nodetype k) x)) l = if nodetype k =? 1 then repeat 0 (length l) else l).
  { intros l F. destruct Hty as [-> | ->]; cbn [Z.eqb Pos.eqb].
    - induction F as [|x l Hx]; cbn [map]; [auto|]. rewrite fmul0l. apply Fn in Hx. unfold felt in Hx. rewrite fsub_small by lia. f_equal; [lia|auto].
    - induction F as [|x l Hx]; cbn [map length repeat]; [auto|]. rewrite fmul1l by auto. apply Fn in Hx. unfold felt in Hx. rewrite fsub_small by lia. f_equal; [lia|auto]. }
  assert (Rep : forall n, Forall nibble (repeat 0 n)).
  { intros n. apply Forall_forall. intros x Hx. apply repeat_spec in Hx. subst; unfold nibble; lia. }
  assert (Hext : extRlp = if nodetype k =? 1 then firstn (4 + 2 + keyLen + 2 + 64) (nodebuf k) else repeat 0 (length (firstn (4 + 2 + keyLen + 2 + 64) (nodebuf k)))).
  { apply Hm1. apply Forall_firstn; auto. }
  assert (Hbr : brRlp = if nodetype k =? 1 then repeat 0 (length (firstn 1064 (nodebuf k))) else firstn 1064 (nodebuf k)).
  { apply Hm2. apply Forall_firstn; auto. }
  assert (Lext : length extRlp = (4 + 2 + keyLen + 2 + 64)%nat) by (unfold extRlp; rewrite map_length, firstn_length; lia).
  assert (Lbr : length brRlp = 1064%nat) by (unfold brRlp; rewrite map_length, firstn_length; lia).
  assert (Next : Forall nibble extRlp) by (rewrite Hext; destruct (_ =? 1); auto; apply Forall_firstn; auto).
  assert (Nbr : Forall nibble brRlp) by (rewrite Hbr; destruct (_ =? 1); auto; apply Forall_firstn; auto).
  assert (Fpref : felt p (nth k (li_prefs i) 0)).
  { destruct (Nat.lt_ge_cases k (length (li_prefs i))); [apply Hprefs, nth_In; auto|]. rewrite nth_overflow by auto. unfold felt. zlia. }
  unfold felt in Fs0, Fs1.
  assert (Esub : fsub p (start (S k)) (start k) = start (S k) - start k) by (apply fsub_small; zlia).
  assert (Mx : ac_maxHexLen (ext_params keyLen 64) = (4 + (keyLen + 2) + 2 + 64)%nat) by reflexivity.
  destruct (check_extension_ok p Hp keyLen 64 (fsub p (start (S k)) (start k)) sel refLen refs extRlp (nth k (li_prefs i) 0) eo et)
    as (X1 & X2 & X3); auto; try zlia.
  { apply Forall_nibble_felt; auto. } { rewrite Esub. unfold felt. zlia. } { unfold felt. zlia. }
  assert (Fsel : felt p (fmul p (r_less_than p (Z.of_nat k) (li_depth i)) (start k))) by (apply felt_fmul; zlia).
  rewrite r_mux1_ok in En; auto; try zlia.
  2:{ rewrite firstn_length; lia. }
  2:{ intros x Hx. apply Hkey. rewrite <- (firstn_skipn keyLen (li_key i)). apply in_or_app; auto. }
  destruct (Z.ltb_spec (fmul p (r_less_than p (Z.of_nat k) (li_depth i)) (start k)) (Z.of_nat keyLen)) as [Lsel|]; [|discriminate].
  assert (Enib : nib = nth (Z.to_nat (fmul p (r_less_than p (Z.of_nat k) (li_depth i)) (start k))) (firstn keyLen (li_key i)) 0) by congruence.
  unfold felt in Fsel.
  rewrite nth_firstn' in Enib by zlia.
  destruct (check_branch_ok p Hp nib refLen refs brRlp bo bt) as (Y0 & Y1 & Y2 & Y3); auto; try zlia.
  { apply Forall_nibble_felt; auto. } { rewrite Enib. apply key_felt. } { unfold felt. zlia. }
  set (total := if nodetype k =? 1 then et else bt).
  assert (Etot : fadd p (fmul p (nodetype k) (fsub p et bt)) bt = total).
  { unfold total. destruct Hty as [-> | ->]; cbn [Z.eqb Pos.eqb]; [rewrite fmul0l, fadd_small; zlia|]. mnorm_lhs p. rewrite Z.mod_small; zlia. }
  rewrite Etot in Eh. assert (Bt : 0 <= total < 2 ^ 66) by (unfold total; destruct (_ =? 1); zlia).
  destruct (keccak_or_len_ok _ _ _ _ _ Bt Eh) as [K1 K2].
  destruct (Hhash _ _ _ Fnb (node_aligned k) (round_felt k) K1) as (_ & K3 & K4).
  split; [|split; [auto|]; split; [auto|]; rewrite K2; destruct (Z.ltb_spec total 63); lia].
  unfold layer_fact. split; [lia|]. split; [lia|]. exists total. split; [auto|]. split; [apply round_felt|]. split; [auto|]. split; [auto|]. split; [auto|].
  split; [lia|]. split; [lia|]. rewrite Eref. unfold ref_digits. cbn [fst snd]. split.
  - intros Ht0 Hb4 Hkd. destruct (Y3 Hb4) as [_ Hbn]. unfold total. rewrite Ht0 in *. cbn [Z.eqb Pos.eqb] in *.
    rewrite Hbr in Hbn. rewrite firstn_firstn in Hbn. rewrite Nat.min_id in Hbn.
    assert (Elt : r_less_than p (Z.of_nat k) (li_depth i) = 1).
    { rewrite r_less_than_ok by (auto; unfold felt; zlia). destruct (Z.ltb_spec (Z.of_nat k) (li_depth i)); [auto|lia]. }
    rewrite Elt, fmul1l in Enib by (unfold felt; zlia). rewrite <- Enib. exact Hbn.
  - intros Ht1 He4. destruct (X3 He4) as (_ & _ & Hen). unfold total. rewrite Ht1 in *. cbn [Z.eqb Pos.eqb] in *.
    rewrite Esub, S4, Mx, Hext in Hen. rewrite firstn_firstn in Hen. 
    replace (Nat.min (4 + (keyLen + 2) + 2 + 64) (4 + 2 + keyLen + 2 + 64)) with (4 + (keyLen + 2) + 2 + 64)%nat in Hen by lia. exact Hen.
Qed.

Lemma layers_loop_ok : forall n layer rs h0, (forall k, (k < layer + n)%nat -> is_bit (nodetype k)) -> (layer + n <= 100)%nat ->
  layers_loop p hash keyLen sub i leaf n layer = Some (rs, h0) ->
  exists hs, length rs = n /\ length hs = n /\ h0 = hd_error hs /\ Forall good_ref hs /\
    forall j, (j < n)%nat -> layer_fact (layer + j) (nth_error hs (S j)) (nth j rs (0, 0)) (nth j hs ([], 0)).
Proof.
  induction n as [|n IH]; intros layer rs h0 Ht Hb H; cbn [layers_loop] in H.
  - exists []. assert (rs = [] /\ h0 = None) as [-> ->] by (split; congruence). repeat (split; [auto|]). intros; lia.
  - destruct (layers_loop p hash keyLen sub i leaf n (S layer)) as [[rs' nxt]|] eqn:E1; [ostep H|discriminate].
    destruct (layer_check p hash keyLen sub i leaf layer nxt) as [[r h]|] eqn:E2; [ostep H|discriminate].
    assert (rs = r :: rs' /\ h0 = Some h) as [-> ->] by (split; congruence).
    destruct (IH (S layer) rs' nxt) as (hs & A1 & A2 & A3 & A4 & A5); auto; try lia. { intros k Hk. apply Ht. lia. }
    apply layer_check_ok in E2; [|apply Ht; lia|lia|].
    2:{ subst nxt. destruct hs; cbn; auto. inversion A4; auto. }
    destruct E2 as [F G]. exists (h :: hs). cbn [length hd_error]. repeat (split; [auto|]).
    { intros j Hj. destruct j as [|j].
      - rewrite Nat.add_0_r. cbn [nth nth_error]. subst nxt. destruct hs; exact F.
      - cbn [nth nth_error]. replace (layer + S j)%nat with (S layer + j)%nat by lia. apply A5. lia. }
Qed.

(** the digest chain below layer k, for a proof of depth d *)
End L.

(** frag_terms / frags_valid *)
Lemma frags_valid_ok : forall orArg maxDepth keyLength starts depth fv,
  (1 <= maxDepth <= 100)%nat -> (forall x, In x starts -> felt p x) -> (forall k, felt p (orArg k)) -> 0 <= keyLength < 2 ^ 60 -> felt p depth ->
  frags_valid p orArg maxDepth keyLength starts depth = Some fv ->
  is_bit fv /\ 1 <= depth <= Z.of_nat maxDepth /\ (forall k, (k < maxDepth - 1)%nat -> is_bit (orArg k)) /\
  (fv = 1 -> forall k, Z.of_nat k < depth -> nth k starts 0 < keyLength /\
     ((S k < maxDepth)%nat -> nth k starts 0 < nth (S k) starts 0 /\
        (nth (S k) starts 0 = nth k starts 0 + 1 \/ orArg k = 1))).
Proof.
  intros orArg maxDepth keyLength starts depth fv Hm Fs Fo Hk Fd H. unfold frags_valid in H.
  destruct (frag_terms p orArg keyLength starts (maxDepth - 1)) as [terms|] eqn:Et; [ostep H|discriminate].
  assert (Fst : forall k, felt p (nth k starts 0)).
  { intros k. destruct (Nat.lt_ge_cases k (length starts)); [apply Fs, nth_In; auto|]. rewrite nth_overflow by auto. unfold felt; zlia. }
  unfold frag_terms in Et. pose proof (omap_length _ _ _ _ _ Et) as Lt. rewrite seq_length in Lt.
  assert (Hterm : forall k, (k < maxDepth - 1)%nat -> is_bit (orArg k) /\
     exists a b c, is_bit a /\ is_bit b /\ is_bit c /\ nth k terms 0 = a + b + c /\
       (a = 1 -> nth (S k) starts 0 = fadd p (nth k starts 0) 1 \/ orArg k = 1) /\
       (b = 1 -> nth k starts 0 < nth (S k) starts 0) /\ (c = 1 -> nth k starts 0 < keyLength)).
  { intros k Hkk. pose proof (omap_Some_nth _ _ _ _ _ Et k 0%nat 0) as Hn. rewrite seq_length in Hn. specialize (Hn Hkk).
    rewrite seq_nth in Hn by auto. cbn [Nat.add] in Hn.
    assert (Hob : is_bit (orArg k)).
    { unfold for_ in Hn. destruct (assert_bool p (r_equal p _ _)); [|discriminate]. ostep Hn.
      destruct (assert_bool p (orArg k)) as [[]|] eqn:E; [|discriminate]. apply assert_bool_iff in E; auto. }
    split; auto. rewrite for_ok in Hn by (auto using r_equal_bit). ostep Hn.
    exists (bit_of ((r_equal p (fadd p (nth k starts 0) 1) (nth (S k) starts 0) =? 1) || (orArg k =? 1))),
      (r_less_than p (nth k starts 0) (nth (S k) starts 0)), (r_less_than p (nth k starts 0) keyLength).
    split; [apply bit_of_bit|]. split; [apply r_less_than_bit|]. split; [apply r_less_than_bit|].
    split.
    { pose proof (bit_of_bit ((r_equal p (fadd p (nth k starts 0) 1) (nth (S k) starts 0) =? 1) || (orArg k =? 1))) as U1.
      pose proof (r_less_than_bit p (nth k starts 0) (nth (S k) starts 0)) as U2. pose proof (r_less_than_bit p (nth k starts 0) keyLength) as U3.
      assert (Hn2 : nth k terms 0 = fadd p (fadd p (bit_of ((r_equal p (fadd p (nth k starts 0) 1) (nth (S k) starts 0) =? 1) || (orArg k =? 1))) (r_less_than p (nth k starts 0) (nth (S k) starts 0))) (r_less_than p (nth k starts 0) keyLength)) by congruence.
      rewrite Hn2. clear - U1 U2 U3 Hp'. unfold is_bit in *. mnorm_lhs p. rewrite Z.mod_small; zlia. }
    split; [|split].
    - intros E. destruct (Z.eqb_spec (orArg k) 1) as [|]; [auto|]. rewrite orb_false_r in E.
      left. rewrite r_equal_ok in E by (auto; apply felt_fadd; zlia). destruct (Z.eqb_spec (fadd p (nth k starts 0) 1) (nth (S k) starts 0)); [auto|cbn in E; lia].
    - intros E. rewrite r_less_than_ok in E by auto. destruct (Z.ltb_spec (nth k starts 0) (nth (S k) starts 0)); [auto|cbn in E; lia].
    - intros E. rewrite r_less_than_ok in E by (auto; unfold felt; zlia). destruct (Z.ltb_spec (nth k starts 0) keyLength); [auto|cbn in E; lia]. }
  set (last := fadd p 2 (r_less_than p (nth (maxDepth - 1) starts 0) keyLength)) in *.
  assert (Hlast : exists c, is_bit c /\ last = 2 + c /\ (c = 1 -> nth (maxDepth - 1) starts 0 < keyLength)).
  { exists (r_less_than p (nth (maxDepth - 1) starts 0) keyLength). pose proof (r_less_than_bit p (nth (maxDepth - 1) starts 0) keyLength) as U.
    split; [auto|]. split. { unfold last. unfold is_bit in U. rewrite fadd_small; zlia. }
    intros E. rewrite r_less_than_ok in E by (auto; unfold felt; zlia). destruct (Z.ltb_spec (nth (maxDepth - 1) starts 0) keyLength); [auto|cbn in E; lia]. }
  set (row := terms ++ [last]) in *.
  assert (Lrow : length row = maxDepth) by (unfold row; rewrite app_length; cbn; lia).
  assert (Frow : Forall (fun x => 0 <= x <= 3) row).
  { apply Forall_app. split; [|constructor; [|constructor]].
    - apply Forall_forall. intros x Hx. apply In_nth with (d := 0) in Hx. destruct Hx as (k & Hk1 & <-).
      destruct (Hterm k) as (_ & a & b & c & A & B & C & -> & _); [lia|]. unfold is_bit in *. lia.
    - destruct Hlast as (c & C & -> & _). unfold is_bit in C. lia. }
  assert (Fsub : felt p (fsub p depth 1)) by (apply felt_fsub; zlia).
  rewrite r_mux1_ok in H; auto; try zlia.
  2:{ rewrite run_sums_length. lia. } 2:{ intros x Hx. eapply run_sums_felt; eauto. }
  destruct (Z.ltb_spec (fsub p depth 1) (Z.of_nat maxDepth)) as [Ls|]; [ostep H|discriminate].
  unfold felt in Fd, Fsub.
  assert (Hd1 : 1 <= depth).
  { destruct (Z.eq_dec depth 0) as [->|]; [|lia]. exfalso. assert (fsub p 0 1 = p - 1). { unfold fsub. rewrite <- (Z.mod_add (0 - 1) 1 p) by zlia. rewrite Z.mod_small; zlia. } zlia. }
  rewrite fsub_small in * by zlia.
  rewrite run_sums_nth in H; try zlia.
  2:{ eapply Forall_impl; [|exact Frow]. cbv beta; intros; lia. }
  set (F := firstn (S (Z.to_nat (depth - 1))) row) in *.
  assert (LF : Z.of_nat (length F) = depth) by (unfold F; rewrite firstn_length; lia).
  assert (FF : Forall (fun x => 0 <= x <= 3) F) by (apply Forall_firstn; auto).
  assert (FU : zsum F <= 3 * Z.of_nat (length F)) by (apply zsum_ub; eapply Forall_impl; [|exact FF]; cbv beta; intros; lia).
  assert (FL : 0 <= zsum F) by (apply zsum_lb; eapply Forall_impl; [|exact FF]; cbv beta; intros; lia).
  rewrite (fmul_small p) in H by zlia. rewrite r_equal_ok in H by (unfold felt; zlia).
  assert (fv = bit_of (0 + zsum F =? 3 * depth)) by congruence. subst fv. clear H.
  split; [apply bit_of_bit|]. split; [lia|]. split; [intros k Hk1; apply Hterm; auto|].
  intros E k Hkd. destruct (Z.eqb_spec (0 + zsum F) (3 * depth)) as [Es|]; [|cbn in E; lia].
  assert (Fall : Forall (fun x => x = 3) F).
  { apply zsum_all_max. { eapply Forall_impl; [|exact FF]. cbv beta; intros; lia. } lia. }
  assert (Hk3 : nth k row 0 = 3).
  { rewrite Forall_forall in Fall. apply Fall. unfold F. rewrite <- (nth_firstn' _ (S (Z.to_nat (depth - 1)))) by lia. apply nth_In. rewrite firstn_length. lia. }
  assert (Klt : (k < maxDepth)%nat) by lia.
  destruct (Nat.lt_ge_cases k (maxDepth - 1)) as [Hk1|Hk1].
  - unfold row in Hk3. rewrite app_nth1 in Hk3 by lia. destruct (Hterm k Hk1) as (_ & a & b & c & A & B & C & E3 & H1 & H2 & H3).
    unfold is_bit in *. rewrite E3 in Hk3. split; [apply H3; lia|]. intros _.
    assert (M := H2 ltac:(lia)). split; [exact M|]. destruct (H1 ltac:(lia)) as [G|G]; [left|right; auto].
    rewrite G. pose proof (Fst k). pose proof (Fst (S k)). unfold felt in *. rewrite fadd_small by zlia. lia.
  - assert (k = maxDepth - 1)%nat by lia. subst k. unfold row in Hk3. rewrite app_nth2 in Hk3 by lia. rewrite Lt, Nat.sub_diag in Hk3. cbn [nth] in Hk3.
    destruct Hlast as (c & C & E3 & H3). unfold is_bit in C. split; [apply H3; lia|]. intros. lia.
Qed.

Lemma layer_sums_ok : forall types rs acc k,
  Forall is_bit types -> Forall (fun r => 0 <= fst r <= 4 /\ 0 <= snd r <= 4) rs -> (length rs <= length types)%nat -> (length rs <= 1000)%nat ->
  0 <= acc <= 10000 -> (k <= length rs)%nat ->
  nth k (acc :: layer_sums p acc types rs) 0 =
   acc + zsum (map (fun j => if nth j types 0 =? 1 then fst (nth j rs (0, 0)) else snd (nth j rs (0, 0))) (seq 0 k)).
Proof.
  assert (G : forall types rs acc k, Forall is_bit types -> Forall (fun r => 0 <= fst r <= 4 /\ 0 <= snd r <= 4) rs -> (length rs <= length types)%nat ->
    0 <= acc -> acc + 4 * Z.of_nat (length rs) <= 100000 -> (k <= length rs)%nat ->
    nth k (acc :: layer_sums p acc types rs) 0 =
     acc + zsum (map (fun j => if nth j types 0 =? 1 then fst (nth j rs (0, 0)) else snd (nth j rs (0, 0))) (seq 0 k))).
  { induction types as [|t types IH]; intros rs acc k Ft Fr L A1 A2 Hk.
    - destruct rs; [|cbn in L; lia]. destruct k; [cbn; lia|cbn in Hk; lia].
    - destruct rs as [|[e b] rs]. { destruct k; [cbn; lia|cbn in Hk; lia]. }
      inversion Ft as [|? ? Bt Ft']; subst. inversion Fr as [|? ? Br Fr']; subst. cbn [fst snd] in Br.
      destruct k as [|k]. { cbn. lia. }
      cbn [length] in *. cbn [layer_sums].
      match goal with |- nth (S k) (_ :: ?l) 0 = _ => change (nth (S k) (acc :: l) 0) with (nth k l 0) end.
      assert (Ea : fadd p (fadd p acc b) (fmul p t (fsub p e b)) = acc + (if t =? 1 then e else b)).
      { destruct Bt as [-> | ->]; cbn [Z.eqb Pos.eqb]; mnorm_lhs p; rewrite Z.mod_small; zlia. }
      rewrite Ea. rewrite IH; auto; try (destruct (t =? 1); lia).
      cbn [seq map]. rewrite <- seq_shift, map_map. cbn [nth fst snd]. unfold zsum. cbn [fold_right]. lia. }
  intros. apply G; auto; lia.
Qed.
End P.
