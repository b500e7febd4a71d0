(** * Props_Limbs.v — properties C23 and C24: the limb gadgets of circuits/gadgets/limbs

    A limb list denotes the big-endian concatenation of its limbs ([wval], [wsize] in LimbsProofs.v); [hint] is what the
    prover assigns to the hint outputs, [split_hint] the honest assignment. *)
From Coq Require Import ZArith List Bool Arith Lia.
From Verif Require Import Field FieldLemmas LimbsModel LimbsProofs.
Import ListNotations.
Open Scope Z_scope.
Open Scope circ_scope.

(** ** C23 *)
(** The honest prover satisfies Split, and the limbs are the base-2^k digits of the value: in range, of the requested
    sizes, concatenating to the value. *)
Theorem C23_split_honest : forall p l k nbOpt, 2 < p -> in_range l -> 2 ^ lsize l <= p -> 0 < k -> lsize l <> k ->
  let nb := match nbOpt with Some n => n | None => lsize l / k end in
  0 < nb -> nb * k <= lsize l ->
  exists ls, split p split_hint l k nbOpt = Some ls /\ Forall in_range ls /\ wval ls = lval l /\
    map lsize ls = repeat k (Z.to_nat nb) ++ (if 0 <? lsize l - nb * k then [lsize l - nb * k] else []).
Proof.
  intros p l k o Hp Rl Hb Hk Hne nb Hnb0 Hnb. destruct (split_honest p Hp l k o Rl Hb Hk) as (ls & E & F & M & _ & V); [right; exact Hnb0|exact Hnb|].
  exists ls. split; [exact E|]. split; [exact F|]. split; [exact V|]. rewrite M. unfold plan. rewrite (proj2 (Z.eqb_neq _ _) Hne). reflexivity.
Qed.
(** Whatever the prover does, the limbs concatenate to the value modulo p, and Merge gives the value back. *)
Theorem C23_merge_inverts_split : forall p hint l k nbOpt ls, 2 < p -> 0 < k -> 0 <= lval l < p ->
  (match nbOpt with Some n => n | None => lsize l / k end) * k <= lsize l ->
  split p hint l k nbOpt = Some ls -> ls <> [] -> Forall (fun w => 0 <= lval w < p) ls ->
  exists m, merge p ls = Some m /\ lval m = lval l /\ lsize m = lsize l.
Proof.
  intros p hint l k o ls Hp Hk Hl Hnb H Hn Hf. destruct (split_sound p Hp hint l k o ls Hk Hnb H) as (M & S & V).
  assert (Fs : Forall (fun w => 0 <= lsize w) ls).
  { apply Forall_forall. intros w Hw. apply (in_map lsize) in Hw. rewrite M in Hw. unfold plan in Hw. destruct (Z.eqb_spec (lsize l) k).
    - destruct Hw as [<-|[]]. lia.
    - apply in_app_or in Hw. destruct Hw as [Hw|Hw]; [apply repeat_spec in Hw; lia|]. destruct (Z.ltb_spec 0 (lsize l - nb_of l k o * k)); [destruct Hw as [<-|[]]; lia|destruct Hw]. }
  destruct (merge_ok p ls Hn Fs) as (m & E & Es & Ev). exists m. split; [exact E|]. split; [|lia].
  assert (Fm : 0 <= lval m < p).
  { destruct ls as [|x [|y t]]; [congruence| |].
    - cbn [merge] in E. assert (x = m) by congruence. subst x. inversion Hf; auto.
    - assert (Q : forall x : limb, Some x = Some m -> x = m) by (intros x0 Hx; congruence). unfold merge in E. apply Q in E. rewrite <- E. cbn [lval].
      apply fold_mod_felt; [|discriminate]. intros [a z] w. cbn [fst]. apply Z.mod_pos_bound. lia. }
  rewrite V in Ev. rewrite !Z.mod_small in Ev by lia. exact Ev.
Qed.
(** If, in addition, the limbs are range checked, the prover has no choice: the limbs are the honest ones. *)
Theorem C23_split_unique_if_range_checked : forall p hint l k nbOpt ls, 2 < p -> in_range l -> 2 ^ lsize l <= p -> 0 < k ->
  (match nbOpt with Some n => n | None => lsize l / k end) * k <= lsize l -> (lsize l = k \/ 0 < match nbOpt with Some n => n | None => lsize l / k end) ->
  split p hint l k nbOpt = Some ls -> Forall in_range ls -> split p split_hint l k nbOpt = Some ls.
Proof.
  intros p hint l k o ls Hp Rl Hb Hk Hnb Hnb0 H F. destruct (split_honest p Hp l k o Rl Hb Hk Hnb0 Hnb) as (ls' & E & F' & M' & S' & V').
  destruct (split_sound p Hp hint l k o ls Hk Hnb H) as (M & S & V). rewrite E. f_equal. apply wval_inj; auto; [congruence|].
  pose proof (wval_range ls F) as R. destruct Rl as [_ Rl]. rewrite S in R. rewrite V'. rewrite !Z.mod_small in V by lia. lia.
Qed.
(** But Split range checks nothing: an 8-bit value splits into 4-bit "limbs" the honest prover does not produce, one of
    which does not fit 4 bits.  So the uniqueness part of C23 does not hold of the code. *)
Theorem C23_split_unique_refuted : exists hint l k ls, in_range l /\ 2 ^ lsize l <= bn254 /\ 0 < k /\
  split bn254 hint l k None = Some ls /\ Forall (fun w => 0 <= lval w < bn254) ls /\ split bn254 split_hint l k None <> Some ls /\ ~ Forall in_range ls.
Proof.
  exists (fun _ _ _ _ => [0; 165]), (Limb 165 8), 4, [Limb 0 4; Limb 165 4].
  split; [unfold in_range; cbn; lia|]. split; [vm_compute; congruence|]. split; [lia|]. split; [vm_compute; reflexivity|]. split.
  { repeat constructor; vm_compute; congruence. }
  split; [vm_compute; congruence|].
  intros F. apply Forall_cons_iff in F. destruct F as [_ F]. apply Forall_cons_iff in F. destruct F as [[_ F] _]. cbn in F. lia.
Qed.
(** Merge is concatenation (injective on in-range limbs of given sizes as long as the total fits the field). *)
Theorem C23_merge_value : forall p ws, 2 < p -> Forall in_range ws -> ws <> [] -> 2 ^ wsize ws <= p ->
  exists m, merge p ws = Some m /\ lval m = wval ws /\ lsize m = wsize ws /\ in_range m.
Proof.
  intros p ws Hp F Hn Hb. destruct (merge_ok p ws Hn (in_range_sizes ws F)) as (m & E & Es & _). exists m. split; [exact E|].
  destruct (merge_value p Hp ws m F Hb E) as [V S]. split; [exact V|]. split; [exact S|]. unfold in_range. rewrite V, S. split; [|apply wval_range; auto].
  destruct F as [|w ws [Hw _] F]; [congruence|]. cbn [wsize]. pose proof (wsize_nonneg ws (in_range_sizes ws F)). lia.
Qed.
Theorem C23_merge_injective : forall p a b m, 2 < p -> Forall in_range a -> Forall in_range b -> map lsize a = map lsize b -> 2 ^ wsize a <= p ->
  merge p a = Some m -> merge p b = Some m -> a = b.
Proof.
  intros p a b m Hp Fa Fb Hs Hb Ha Hb'. assert (Ew : wsize a = wsize b).
  { clear - Hs. revert b Hs. induction a as [|x a IH]; intros [|y b] H; try discriminate H; [reflexivity|]. cbn [map wsize] in *. injection H as H1 H2. rewrite (IH b H2). lia. }
  destruct (merge_value p Hp a m Fa Hb Ha) as [V1 _]. rewrite Ew in Hb. destruct (merge_value p Hp b m Fb Hb Hb') as [V2 _]. apply wval_inj; auto. lia.
Qed.

(** Resplit, honest prover: the new limbs have the requested size and denote the same word. *)
Lemma concat_bits p : 2 < p -> forall ws, Forall in_range ws -> Forall (fun w => 2 ^ lsize w <= p) ws ->
  exists bits, omap (fun w => split p split_hint w 1 None) ws = Some bits /\ Forall in_range (concat bits) /\ Forall (fun w => lsize w = 1) (concat bits) /\
    wsize (concat bits) = wsize ws /\ wval (concat bits) = wval ws.
Proof.
  intros Hp ws F. induction F as [|w ws Rw F IH]; intros Fp.
  - exists []. cbn. repeat split; auto.
  - inversion Fp as [|? ? Pw Fp']; subst. destruct (IH Fp') as (bits & E & Fb & F1 & S & V). pose proof Rw as [Hs _].
    destruct (split_honest p Hp w 1 None Rw Pw) as (ls & E1 & Fl & M & Sl & Vl); [lia|cbn [nb_of]; rewrite Z.div_1_r; lia|cbn [nb_of]; rewrite Z.div_1_r; lia|].
    exists (ls :: bits). cbn [omap]. rewrite E1. cbn [obind]. rewrite E. cbn [obind concat]. split; [reflexivity|]. split; [apply Forall_app; auto|].
    split.
    { apply Forall_app. split; auto. apply Forall_forall. intros x Hx. apply (in_map lsize) in Hx. rewrite M in Hx. unfold plan in Hx. cbn [nb_of] in Hx. rewrite Z.div_1_r in Hx.
      destruct (lsize w =? 1) eqn:E1w; [apply Z.eqb_eq in E1w; destruct Hx as [<-|[]]; lia|]. replace (lsize w - lsize w * 1) with 0 in Hx by lia. change (0 <? 0) with false in Hx. cbv iota in Hx. rewrite app_nil_r in Hx.
      apply repeat_spec in Hx. exact Hx. }
    split; [rewrite wsize_app; cbn [wsize]; lia|]. rewrite wval_app by auto using in_range_sizes. cbn [wval]. rewrite S, V, Vl. reflexivity.
Qed.
Lemma wsize_ones l : Forall (fun w => lsize w = 1) l -> wsize l = Z.of_nat (length l).
Proof. induction 1 as [|w l Hw F IH]; [reflexivity|]. cbn [wsize length]. lia. Qed.
Lemma merge_groups_ok p k : 2 < p -> 0 < k -> 2 ^ k <= p -> forall n bits fuel, Forall in_range bits -> Forall (fun w => lsize w = 1) bits ->
  length bits = (n * Z.to_nat k)%nat -> (n <= fuel)%nat -> exists ls, merge_groups p fuel bits (Z.to_nat k) = Some ls /\ map lsize ls = repeat k n /\ Forall in_range ls /\ wval ls = wval bits.
Proof.
  intros Hp Hk Hb. induction n as [|n IH]; intros bits fuel F F1 L Hf.
  - destruct bits; [|cbn in L; lia]. exists []. destruct fuel; cbn; auto.
  - destruct fuel as [|fuel]; [lia|]. destruct bits as [|b0 bits0]; [cbn in L; lia|]. remember (b0 :: bits0) as bits eqn:Eb.
    assert (Emg : merge_groups p (S fuel) bits (Z.to_nat k) = (guard (Nat.leb (Z.to_nat k) (length bits)) ;; let* g := merge p (firstn (Z.to_nat k) bits) in let* r := merge_groups p fuel (skipn (Z.to_nat k) bits) (Z.to_nat k) in Some (g :: r)))
      by (rewrite Eb; reflexivity). rewrite Emg. clear Emg.
    rewrite (proj2 (Nat.leb_le _ _)) by lia. cbn [guard obind].
    pose proof (firstn_skipn (Z.to_nat k) bits) as Es. set (A := firstn (Z.to_nat k) bits) in *. set (T := skipn (Z.to_nat k) bits) in *.
    assert (FA : Forall in_range A /\ Forall in_range T) by (apply Forall_app; rewrite Es; auto). destruct FA as [FA FT].
    assert (F1A : Forall (fun w => lsize w = 1) A /\ Forall (fun w => lsize w = 1) T) by (apply Forall_app; rewrite Es; auto). destruct F1A as [F1A F1T].
    assert (LA : length A = Z.to_nat k) by (unfold A; rewrite firstn_length; lia).
    assert (LT : length T = (n * Z.to_nat k)%nat) by (unfold T; rewrite skipn_length; lia).
    assert (SA : wsize A = k) by (rewrite wsize_ones by auto; lia).
    destruct (C23_merge_value p A Hp FA) as (m & Em & Vm & Sm & Rm); [destruct A; [cbn in LA; lia|discriminate]|rewrite SA; exact Hb|].
    rewrite Em. cbn [obind]. destruct (IH T fuel FT F1T LT ltac:(lia)) as (ls & El & Ml & Fl & Vl). rewrite El. cbn [obind].
    exists (m :: ls). split; [reflexivity|]. split; [cbn [map repeat]; rewrite Ml; f_equal; lia|]. split; [constructor; auto|].
    cbn [wval]. rewrite Vl, Vm. rewrite <- Es, wval_app by auto using in_range_sizes. f_equal. f_equal. f_equal.
    rewrite (wsize_ones T F1T), LT. clear - Ml Hk.
    assert (G : forall ls n, map lsize ls = repeat k n -> wsize ls = Z.of_nat n * k).
    { clear. induction ls as [|x ls IH]; intros [|n] H; try discriminate H; [reflexivity|]. cbn [map repeat] in H. injection H as H1 H2. cbn [wsize]. rewrite (IH n H2). lia. }
    rewrite (G ls n Ml). nia.
Qed.
Theorem C23_resplit_honest : forall p ws k, 2 < p -> Forall in_range ws -> Forall (fun w => 2 ^ lsize w <= p) ws -> (2 <= length ws)%nat ->
  0 < k <= wsize ws -> 2 ^ k <= p ->
  (if wsize ws <=? Z.of_nat (field_bits p) then 2 ^ wsize ws <= p else wsize ws mod k = 0) ->
  exists ls, resplit p split_hint ws k = Some ls /\ Forall in_range ls /\ wval ls = wval ws /\
    map lsize ls = repeat k (Z.to_nat (wsize ws / k)) ++ (if 0 <? wsize ws mod k then [wsize ws mod k] else []).
Proof.
  intros p ws k Hp F Fp L Hk Hkp Hc. unfold resplit. destruct ws as [|w [|w2 t]]; [cbn in L; lia|cbn in L; lia|]. set (ws := w :: w2 :: t) in *.
  rewrite total_size_ok. pose proof (Z.div_mod (wsize ws) k ltac:(lia)) as Hdm. pose proof (Z.mod_pos_bound (wsize ws) k ltac:(lia)) as Hmb.
  assert (1 <= wsize ws / k) by (apply Z.div_le_lower_bound; lia).
  destruct (wsize ws <=? Z.of_nat (field_bits p)).
  - destruct (C23_merge_value p ws Hp F) as (m & Em & Vm & Sm & Rm); [discriminate|exact Hc|]. rewrite Em. cbn [obind].
    destruct (split_honest p Hp m k None Rm) as (ls & E & Fl & M & _ & V); [rewrite Sm; exact Hc|lia|right; cbn [nb_of]; rewrite Sm; lia|cbn [nb_of]; rewrite Sm; lia|].
    exists ls. split; [exact E|]. split; [exact Fl|]. split; [congruence|]. rewrite M. unfold plan. cbn [nb_of]. rewrite Sm.
    replace (wsize ws - wsize ws / k * k) with (wsize ws mod k) by lia. destruct (Z.eqb_spec (wsize ws) k) as [E1|E1]; [|reflexivity].
    rewrite E1. rewrite Z.div_same, Z_mod_same_full by lia. reflexivity.
  - replace (0 <? k) with true by (symmetry; apply Z.ltb_lt; lia). cbn [guard obind].
    destruct (concat_bits p Hp ws F Fp) as (bits & E & Fb & F1 & S & V). rewrite E. cbn [obind]. rewrite (wsize_ones _ F1) in S.
    destruct (merge_groups_ok p k Hp ltac:(lia) Hkp (Z.to_nat (wsize ws / k)) (concat bits) (length (concat bits)) Fb F1) as (ls & El & Ml & Fl & Vl).
    + apply Nat2Z.inj. rewrite Nat2Z.inj_mul, !Z2Nat.id by lia. lia.
    + apply Nat2Z.inj_le. rewrite Z2Nat.id by lia. nia.
    + exists ls. split; [exact El|]. split; [exact Fl|]. split; [congruence|]. rewrite Ml, Hc. change (0 <? 0) with false. cbv iota. rewrite app_nil_r. reflexivity.
Qed.
(** Resplit of a single limb returns it unsplit whatever the requested size. *)
Theorem C23_resplit_single_refuted : forall p hint l k, resplit p hint [l] k = Some [l].
Proof. reflexivity. Qed.

(** ** C24 *)
(** With an honest prover, LrotMerge is satisfiable and is the left rotation of the concatenated word. *)
Theorem C24_lrot_honest : forall p ws r, 2 < p -> Forall in_range ws -> ws <> [] -> 2 ^ wsize ws <= p -> 0 <= r <= wsize ws ->
  exists m, lrot_merge p split_hint ws r = Some m /\ lsize m = wsize ws /\ lval m mod p = rotl (wsize ws) r (wval ws) mod p.
Proof.
  intros p ws r Hp F Hn Hb Hr.
  assert (Fp : Forall (fun w => 2 ^ lsize w <= p) ws).
  { apply Forall_forall. intros w Hw. apply Z.le_trans with (2 ^ wsize ws); [|exact Hb]. apply Z.pow_le_mono_r; [lia|]. clear - F Hw.
    induction F as [|x ws Rx F IH]; [destruct Hw|]. pose proof (wsize_nonneg ws (in_range_sizes ws F)). cbn [wsize]. destruct Rx as [Rx _].
    destruct Hw as [->|Hw]; [lia|]. specialize (IH Hw). lia. }
  destruct (lrot_complete p Hp ws r F Fp Hn Hr) as (m & E). exists m. split; [exact E|]. apply (lrot_sound p Hp split_hint ws r m F Hr); [|exact E].
  intros w rem parts Hin Hrem Hs. rewrite Forall_forall in F, Fp.
  destruct (split_honest p Hp w rem (Some 1) (F w Hin) (Fp w Hin)) as (ls & E1 & F1 & _ & _ & V1); [lia|right; cbn [nb_of]; lia|cbn [nb_of]; lia|].
  rewrite E1 in Hs. assert (parts = ls) by congruence. subst parts. auto.
Qed.
(** No hint is involved when the amount falls on a limb boundary: then the result holds for every prover. *)
Theorem C24_lrot_aligned : forall p hint a b r, 2 < p -> Forall in_range (a ++ b) -> a ++ b <> [] -> r = wsize a ->
  exists m, lrot_merge p hint (a ++ b) r = Some m /\ lsize m = wsize (a ++ b) /\ lval m mod p = rotl (wsize (a ++ b)) r (wval (a ++ b)) mod p.
Proof.
  intros p hint a b r Hp F Hn ->. apply Forall_app in F. destruct F as [Fa Fb].
  assert (E : find_split (a ++ b) (wsize a) = (length a, 0)).
  { clear Hn. induction Fa as [|w a [Hw _] Fa IH].
    - cbn [app wsize length]. destruct Fb as [|x b [Hx _] _]; [reflexivity|]. cbn [find_split]. rewrite (proj2 (Z.ltb_lt _ _) Hx). reflexivity.
    - cbn [app find_split wsize length]. pose proof (wsize_nonneg a (in_range_sizes a Fa)). rewrite (proj2 (Z.ltb_ge _ _)) by lia.
      replace (lsize w + wsize a - lsize w) with (wsize a) by lia. rewrite IH. reflexivity. }
  unfold lrot_merge. rewrite E. change (0 <? 0) with false. cbv iota.
  rewrite skipn_app, firstn_app, Nat.sub_diag, skipn_all, firstn_all, firstn_O, app_nil_r. cbn [skipn app].
  destruct (merge_ok p (b ++ a)) as (m & Em & Es & Ev).
  - intros H. apply app_eq_nil in H. destruct H as [-> ->]. apply Hn. reflexivity.
  - apply Forall_app. auto using in_range_sizes.
  - exists m. split; [exact Em|]. rewrite Es, Ev, !wsize_app. split; [lia|]. rewrite !wval_app by auto using in_range_sizes.
    rewrite (rotl_split p Hp) by auto using wsize_nonneg, in_range_sizes, wval_range. reflexivity.
Qed.
(** When a limb has to be cut, a malicious prover can make LrotMerge return something else: rotating the byte 0x01 left
    by 4 bits may return 1 instead of 16. *)
Theorem C24_lrot_sound_refuted : exists hint ws r m, Forall in_range ws /\ 2 ^ wsize ws <= bn254 /\ 0 <= r <= wsize ws /\
  lrot_merge bn254 hint ws r = Some m /\ lval m mod bn254 <> rotl (wsize ws) r (wval ws) mod bn254.
Proof.
  exists (fun _ _ _ _ => [1; bn254 - 15]), [Limb 1 8], 4. eexists. split; [constructor; [unfold in_range; cbn; lia|constructor]|].
  split; [vm_compute; congruence|]. split; [cbn; lia|]. split; [vm_compute; reflexivity|]. vm_compute. congruence.
Qed.
(** Rotating by more than the word size is a panic. *)
Theorem C24_lrot_too_far : forall p hint ws r, Forall in_range ws -> wsize ws < r -> lrot_merge p hint ws r = None.
Proof.
  intros p hint ws r F Hr. unfold lrot_merge.
  assert (E : find_split ws r = (length ws, r - wsize ws)).
  { revert r Hr. induction F as [|w ws Rw F IH]; intros r Hr; cbn [find_split wsize length] in *; [f_equal; lia|].
    pose proof (wsize_nonneg ws (in_range_sizes ws F)). rewrite (proj2 (Z.ltb_ge _ _)) by lia. rewrite IH by lia. f_equal. lia. }
  rewrite E. rewrite (proj2 (Z.ltb_lt 0 _)) by lia. rewrite Nat.ltb_irrefl. reflexivity.
Qed.

(** Instances: the word of the repository's own test, 0x8954cd as three bytes *)
Definition ws_ex : list limb := [Limb 137 8; Limb 84 8; Limb 205 8].
Example C23_example : Forall in_range ws_ex /\ 2 ^ wsize ws_ex <= bn254 /\
  split bn254 split_hint (Limb 10 4) 1 (Some 2) = Some [Limb 1 1; Limb 0 1; Limb 2 2] /\
  resplit bn254 split_hint ws_ex 12 = Some [Limb 0x895 12; Limb 0x4cd 12].
Proof.
  split; [repeat (constructor; [unfold in_range; cbn; lia|]); constructor|]. split; [vm_compute; congruence|]. split; vm_compute; reflexivity.
Qed.
Example C24_example : lrot_merge bn254 split_hint ws_ex 4 = Some (Limb 0x954cd8 24) /\ rotl 24 4 (wval ws_ex) = 0x954cd8.
Proof. split; vm_compute; reflexivity. Qed.
