(** * LimbsProofs.v — lemmas about the limb gadgets *)
From Coq Require Import ZArith List Bool Arith Lia.
From Verif Require Import Field FieldLemmas LimbsModel.
Import ListNotations.
Open Scope Z_scope.
Open Scope circ_scope.

(** ** Specification: a limb list denotes the big-endian concatenation of its limbs *)
Fixpoint wsize (ws : list limb) : Z := match ws with [] => 0 | w :: r => lsize w + wsize r end.
Fixpoint wval (ws : list limb) : Z := match ws with [] => 0 | w :: r => lval w * 2 ^ wsize r + wval r end.
Definition in_range (w : limb) : Prop := 0 < lsize w /\ 0 <= lval w < 2 ^ lsize w.
(** left rotation by r of an n-bit word *)
Definition rotl (n r v : Z) : Z := (v * 2 ^ r) mod 2 ^ n + v / 2 ^ (n - r).

Lemma total_wsize : forall ws t, fold_left (fun t w => t + lsize w) ws t = t + wsize ws.
Proof. induction ws as [|w ws IH]; intros t; cbn [fold_left wsize]; [lia|]. rewrite IH. lia. Qed.
Lemma total_size_ok ws : total_size ws = wsize ws. Proof. unfold total_size. rewrite total_wsize. lia. Qed.
Lemma exp2_ok n : 0 <= n -> exp2 n = 2 ^ n.
Proof. intros H. unfold exp2. destruct (Z.leb_spec n 0); [replace n with 0 by lia; reflexivity|reflexivity]. Qed.
Lemma wsize_app a b : wsize (a ++ b) = wsize a + wsize b.
Proof. induction a as [|w a IH]; cbn [app wsize]; lia. Qed.
Lemma wsize_nonneg ws : Forall (fun w => 0 <= lsize w) ws -> 0 <= wsize ws.
Proof. induction 1; cbn [wsize]; lia. Qed.
Lemma in_range_size w : in_range w -> 0 <= lsize w. Proof. unfold in_range. lia. Qed.
Lemma in_range_sizes ws : Forall in_range ws -> Forall (fun w => 0 <= lsize w) ws.
Proof. intros H. eapply Forall_impl; [|exact H]. apply in_range_size. Qed.
Lemma wval_app a b : Forall (fun w => 0 <= lsize w) a -> Forall (fun w => 0 <= lsize w) b -> wval (a ++ b) = wval a * 2 ^ wsize b + wval b.
Proof.
  intros Ha Hb. induction Ha as [|w a Hw Ha IH]; cbn [app wval]; [lia|]. rewrite IH, wsize_app, Z.pow_add_r by auto using wsize_nonneg. ring.
Qed.
Lemma wval_range ws : Forall in_range ws -> 0 <= wval ws < 2 ^ wsize ws.
Proof.
  induction 1 as [|w ws [Hs Hw] F IH]; cbn [wsize wval]; [lia|]. pose proof (wsize_nonneg ws (in_range_sizes ws F)). rewrite Z.pow_add_r by lia.
  assert (0 < 2 ^ wsize ws) by (apply Z.pow_pos_nonneg; lia). nia.
Qed.
Lemma wval_inj : forall a b, Forall in_range a -> Forall in_range b -> map lsize a = map lsize b -> wval a = wval b -> a = b.
Proof.
  induction a as [|x a IH]; intros [|y b] Fa Fb Hs Hv; try discriminate Hs; [reflexivity|].
  inversion Fa as [|? ? Rx Fa']; subst. inversion Fb as [|? ? Ry Fb']; subst. cbn [map] in Hs. injection Hs as Hs1 Hs2. cbn [wval] in Hv.
  assert (Ew : wsize a = wsize b).
  { clear - Hs2. revert b Hs2. induction a as [|x a IH]; intros [|y b] H; try discriminate H; [reflexivity|]. cbn [map wsize] in *. injection H as H1 H2. rewrite (IH b H2). lia. }
  rewrite Ew in Hv. pose proof (wval_range a Fa') as Ra. pose proof (wval_range b Fb') as Rb. rewrite Ew in Ra.
  assert (E : lval x = lval y).
  { clear - Hv Ra Rb. set (q := 2 ^ wsize b) in *. nia. }
  rewrite E in Hv. rewrite (IH b Fa' Fb' Hs2) by lia. destruct x, y. cbn in *. subst. reflexivity.
Qed.

Section P.
Variable p : Z.
Hypothesis Hp : 2 < p.

(** ** Merge *)
Lemma merge_fold : forall ws a z, Forall (fun w => 0 <= lsize w) ws -> wsize ws <= z ->
  fst (fold_left (fun '(a, z) w => let z' := z - lsize w in ((a + lval w * exp2 z') mod p, z')) ws (a, z)) mod p = (a + wval ws * 2 ^ (z - wsize ws)) mod p.
Proof.
  induction ws as [|w ws IH]; intros a z F Hz; cbn [fold_left wsize wval fst] in *; [f_equal; lia|]. inversion F as [|? ? Hw F']; subst.
  pose proof (wsize_nonneg ws F').
  cbv zeta. rewrite IH by (auto; lia). rewrite exp2_ok by lia. rewrite Zplus_mod_idemp_l. f_equal.
  replace (z - (lsize w + wsize ws)) with (z - lsize w - wsize ws) by lia. rewrite Z.mul_add_distr_r, <- Z.mul_assoc, <- Z.pow_add_r by lia.
  replace (wsize ws + (z - lsize w - wsize ws)) with (z - lsize w) by lia. lia.
Qed.
Lemma merge_ok ws : ws <> [] -> Forall (fun w => 0 <= lsize w) ws -> exists r, merge p ws = Some r /\ lsize r = wsize ws /\ lval r mod p = wval ws mod p.
Proof.
  intros Hn F. destruct ws as [|w [|w2 ws]]; [congruence| |].
  - exists w. cbn [merge wsize wval]. split; [reflexivity|]. split; [lia|]. change (2 ^ 0) with 1. f_equal. lia.
  - eexists. unfold merge. split; [reflexivity|]. cbn [lsize lval]. rewrite total_size_ok. split; [reflexivity|].
    set (l := w :: w2 :: ws) in *. rewrite merge_fold by (auto; lia). rewrite Z.sub_diag. change (2 ^ 0) with 1. f_equal. lia.
Qed.
Lemma fold_mod_felt {A} (f : Z * Z -> A -> Z * Z) : (forall s a, 0 <= fst (f s a) < p) -> forall l s, l <> [] -> 0 <= fst (fold_left f l s) < p.
Proof.
  intros Hf l. induction l as [|a l IH]; intros s Hn; [congruence|]. cbn [fold_left]. destruct l as [|b l]; [cbn; apply Hf|]. apply IH. discriminate.
Qed.
Lemma merge_value ws r : Forall in_range ws -> 2 ^ wsize ws <= p -> merge p ws = Some r -> lval r = wval ws /\ lsize r = wsize ws.
Proof.
  intros F Hb H. pose proof (wval_range ws F) as R. pose proof (in_range_sizes ws F) as Fs. destruct ws as [|w [|w2 ws]]; [discriminate H| |].
  - cbn [merge] in H. injection H as <-. cbn [wval wsize]. change (2 ^ 0) with 1. lia.
  - destruct (merge_ok (w :: w2 :: ws)) as (r' & E & Es & Ev); [congruence|auto|]. rewrite H in E. injection E as <-. split; [|auto].
    assert (Fr : 0 <= lval r < p).
    { assert (Q : forall x : limb, Some x = Some r -> x = r) by (intros x Hx; congruence). unfold merge in H. apply Q in H. rewrite <- H. cbn [lval]. apply fold_mod_felt; [|discriminate]. intros [a z] x. cbn [fst]. apply Z.mod_pos_bound. lia. }
    rewrite !Z.mod_small in Ev by lia. exact Ev.
Qed.

(** ** Split *)
Definition uni (f : nat -> Z) (lsz : Z) (l : list nat) : list limb := map (fun i => Limb (f i) lsz) l.
Lemma uni_sizes f lsz l : 0 <= lsz -> Forall (fun w => 0 <= lsize w) (uni f lsz l).
Proof. intros H. apply Forall_forall. intros w Hw. apply in_map_iff in Hw. destruct Hw as [i [<- _]]. exact H. Qed.
Lemma uni_wsize f lsz l : wsize (uni f lsz l) = Z.of_nat (length l) * lsz.
Proof. induction l as [|i l IH]; [reflexivity|]. cbn [uni map wsize lsize length]. unfold uni in IH. rewrite IH. lia. Qed.
Lemma uni_lsize f lsz n : forall k, map lsize (uni f lsz (seq k n)) = repeat lsz n.
Proof. induction n as [|n IH]; intros k; [reflexivity|]. cbn [seq uni map repeat lsize]. unfold uni in IH. rewrite IH. reflexivity. Qed.
Lemma split_fold f lsz T : 0 < lsz -> forall n s a, 0 <= T - Z.of_nat (s + n) * lsz ->
  fold_left (fun a i => (a + f i * exp2 (T - Z.of_nat (S i) * lsz)) mod p) (seq s n) a mod p = (a + wval (uni f lsz (seq s n)) * 2 ^ (T - Z.of_nat (s + n) * lsz)) mod p.
Proof.
  intros Hl. induction n as [|n IH]; intros s a Ht; cbn [seq fold_left uni map wval]; [f_equal; lia|].
  rewrite IH by (replace (S s + n)%nat with (s + S n)%nat by lia; lia). rewrite exp2_ok by nia. rewrite Zplus_mod_idemp_l. f_equal.
  replace (S s + n)%nat with (s + S n)%nat by lia. cbn [lval]. fold (uni f lsz (seq (S s) n)).
  rewrite uni_wsize, seq_length, Z.mul_add_distr_r, <- Z.mul_assoc, <- Z.pow_add_r by nia.
  replace (Z.of_nat n * lsz + (T - Z.of_nat (s + S n) * lsz)) with (T - Z.of_nat (S s) * lsz) by lia. lia.
Qed.
Definition plan (l : limb) (lsz nb : Z) : list Z := if lsize l =? lsz then [lsz] else repeat lsz (Z.to_nat nb) ++ (if 0 <? lsize l - nb * lsz then [lsize l - nb * lsz] else []).
Definition nb_of (l : limb) (lsz : Z) (o : option Z) : Z := match o with Some n => n | None => lsize l / lsz end.

Lemma split_sound hint l lsz o ls : 0 < lsz -> nb_of l lsz o * lsz <= lsize l -> split p hint l lsz o = Some ls ->
  map lsize ls = plan l lsz (nb_of l lsz o) /\ wsize ls = lsize l /\ wval ls mod p = lval l mod p.
Proof.
  intros Hl Hnb H. unfold split in H. unfold plan. destruct (Z.eqb_spec (lsize l) lsz) as [E|E].
  - injection H as <-. cbn [map wsize wval]. change (2 ^ 0) with 1. rewrite E. split; [reflexivity|]. split; [lia|]. f_equal. lia.
  - fold (nb_of l lsz o) in H. set (nb := nb_of l lsz o) in *. apply obind_Some in H. destruct H as [[] [_ H]].
    apply obind_Some in H. destruct H as [[] [H1 H]]. apply guard_Some in H1. apply andb_true_iff in H1. destruct H1 as [H1 _]. apply Z.ltb_lt in H1.
    apply obind_Some in H. destruct H as [[] [H2 H]]. apply guard_Some in H2. apply Nat.eqb_eq in H2.
    set (out := hint (lval l) (lsize l) lsz nb) in *. set (rem := lsize l - nb * lsz) in *.
    apply obind_Some in H. destruct H as [[] [H3 H]]. injection H as <-. unfold assert_eq in H3. apply guard_Some in H3. apply Z.eqb_eq in H3.
    pose proof (split_fold (fun i => nth i out 0) lsz (lsize l) Hl (Z.to_nat nb) 0 0) as SF. cbv beta in SF.
    rewrite Nat.add_0_l, Z2Nat.id in SF by lia. fold rem in SF. specialize (SF ltac:(lia)). rewrite Z.add_0_l in SF.
    fold (uni (fun i => nth i out 0) lsz (seq 0 (Z.to_nat nb))). set (U := uni (fun i => nth i out 0) lsz (seq 0 (Z.to_nat nb))) in *.
    assert (SU : wsize U = nb * lsz) by (unfold U; rewrite uni_wsize, seq_length, Z2Nat.id by lia; reflexivity).
    assert (FU : Forall (fun w => 0 <= lsize w) U) by (apply uni_sizes; lia).
    assert (MU : map lsize U = repeat lsz (Z.to_nat nb)).
    { apply uni_lsize. }
    destruct (Z.ltb_spec 0 rem).
    + rewrite map_app, MU. cbn [map lsize]. split; [reflexivity|]. split; [rewrite wsize_app, SU; cbn [wsize lsize]; lia|].
      rewrite wval_app by (auto; repeat constructor; cbn; lia). cbn [wsize wval lsize lval]. rewrite Z.pow_0_r, Z.mul_1_r, !Z.add_0_r.
      rewrite <- H3. unfold fadd. rewrite Zmod_mod. rewrite (Z.add_mod (fold_left _ _ _)), SF, <- Z.add_mod by lia. reflexivity.
    + rewrite !app_nil_r, MU. split; [reflexivity|]. split; [rewrite SU; lia|].
      rewrite <- H3, SF. replace rem with 0 by lia. change (2 ^ 0) with 1. f_equal. lia.
Qed.

Lemma hint_loop_ok lsz : 0 < lsz -> forall n v size, 0 <= v < 2 ^ size -> Z.of_nat n * lsz <= size ->
  exists outs r, split_hint_loop n v size lsz = (outs, (r, size - Z.of_nat n * lsz)) /\ length outs = n /\
    0 <= r < 2 ^ (size - Z.of_nat n * lsz) /\ Forall in_range (map (fun x => Limb x lsz) outs) /\
    v = wval (map (fun x => Limb x lsz) outs) * 2 ^ (size - Z.of_nat n * lsz) + r.
Proof.
  intros Hl. induction n as [|n IH]; intros v size Hv Hn.
  - exists [], v. cbn [split_hint_loop map wval length]. replace (size - Z.of_nat 0 * lsz) with size by lia. repeat split; auto; try lia. 
  - cbn [split_hint_loop]. rewrite exp2_ok by nia. set (q := 2 ^ (size - lsz)). set (d := v / q).
    assert (Hq : 0 < q) by (apply Z.pow_pos_nonneg; nia).
    assert (Hd : v = d * q + v mod q) by (unfold d; rewrite (Z.div_mod v q) at 1; lia).
    pose proof (Z.mod_pos_bound v q Hq) as Hm.
    destruct (IH (v - d * q) (size - lsz)) as (outs & r & E & L & Hr & F & Hw); [fold q; lia|nia|].
    rewrite E. exists (d :: outs), r. replace (size - lsz - Z.of_nat n * lsz) with (size - Z.of_nat (S n) * lsz) in * by lia.
    split; [reflexivity|]. split; [cbn [length]; lia|]. split; [exact Hr|].
    assert (Hsz : 2 ^ size = 2 ^ lsz * q) by (unfold q; rewrite <- Z.pow_add_r by nia; f_equal; lia).
    assert (Hdr : 0 <= d < 2 ^ lsz). { split; [apply Z.div_pos; lia|]. apply Z.div_lt_upper_bound; lia. }
    split; [constructor; [unfold in_range; cbn [lsize lval]; lia|exact F]|].
    cbn [map wval lval].
    assert (Sw : wsize (map (fun x => Limb x lsz) outs) = Z.of_nat n * lsz).
    { rewrite <- L. clear. induction outs as [|x outs IH]; [reflexivity|]. cbn [map wsize lsize length]. lia. }
    rewrite Sw, Z.mul_add_distr_r, <- Z.mul_assoc, <- Z.pow_add_r by nia.
    replace (Z.of_nat n * lsz + (size - Z.of_nat (S n) * lsz)) with (size - lsz) by lia. fold q. lia.
Qed.

Lemma split_honest l lsz o : in_range l -> 2 ^ lsize l <= p -> 0 < lsz -> (lsize l = lsz \/ 0 < nb_of l lsz o) -> nb_of l lsz o * lsz <= lsize l ->
  exists ls, split p split_hint l lsz o = Some ls /\ Forall in_range ls /\ map lsize ls = plan l lsz (nb_of l lsz o) /\ wsize ls = lsize l /\ wval ls = lval l.
Proof.
  intros Rl Hb Hl Hnb0 Hnb.
  assert (G : exists ls, split p split_hint l lsz o = Some ls /\ Forall in_range ls).
  { unfold split. destruct (Z.eqb_spec (lsize l) lsz) as [E|E]; [exists [l]; split; [reflexivity|constructor; auto]|].
    destruct Hnb0 as [|Hnb0]; [contradiction|].
    replace (0 <? lsz) with true by (symmetry; apply Z.ltb_lt; lia). cbn [guard obind].
    fold (nb_of l lsz o). set (nb := nb_of l lsz o) in *.
    replace ((0 <? nb) && (nb <=? lsize l)) with true by (symmetry; apply andb_true_iff; split; [apply Z.ltb_lt; lia|apply Z.leb_le; nia]). cbn [guard obind].
    set (rem := lsize l - nb * lsz).
    destruct Rl as [_ Rl]. destruct (hint_loop_ok lsz Hl (Z.to_nat nb) (lval l) (lsize l) Rl) as (outs & r & E1 & L & Hr & F & Hw); [rewrite Z2Nat.id by lia; exact Hnb|].
    rewrite Z2Nat.id in * by lia. fold rem in E1, Hr, Hw.
    assert (Eo : split_hint (lval l) (lsize l) lsz nb = if 0 <? rem then outs ++ [r] else outs) by (unfold split_hint; rewrite E1; reflexivity).
    rewrite Eo.
    assert (EU : forall tl, map (fun i => Limb (nth i (outs ++ tl) 0) lsz) (seq 0 (Z.to_nat nb)) = map (fun x => Limb x lsz) outs).
    { intros tl. transitivity (map (fun x => Limb x lsz) (map (fun i => nth i outs 0) (seq 0 (Z.to_nat nb)))).
      - rewrite map_map. apply map_ext_in. intros i Hi. apply in_seq in Hi. rewrite app_nth1 by lia. reflexivity.
      - rewrite <- (list_as_map_seq outs (Z.to_nat nb) L). reflexivity. }
    pose proof (split_fold (fun i => nth i (if 0 <? rem then outs ++ [r] else outs) 0) lsz (lsize l) Hl (Z.to_nat nb) 0 0) as SF. cbv beta in SF.
    rewrite Nat.add_0_l, Z2Nat.id in SF by lia. fold rem in SF. specialize (SF ltac:(lia)). rewrite Z.add_0_l in SF.
    unfold uni in SF. destruct (Z.ltb_spec 0 rem) as [Hr0|Hr0].
    - replace (Nat.eqb (length (outs ++ [r])) (Z.to_nat (nb + 1))) with true by (symmetry; apply Nat.eqb_eq; rewrite app_length; cbn [length]; lia). cbn [guard obind].
      rewrite EU in SF. rewrite last_last.
      assert (A : assert_eq p (fadd p (fold_left (fun a i => (a + nth i (outs ++ [r]) 0 * exp2 (lsize l - Z.of_nat (S i) * lsz)) mod p) (seq 0 (Z.to_nat nb)) 0) r) (lval l) = Some tt).
      { unfold assert_eq, guard. rewrite (proj2 (Z.eqb_eq _ _)); [reflexivity|]. unfold fadd. rewrite Zmod_mod, Z.add_mod, SF, <- Z.add_mod by lia. f_equal. lia. }
      rewrite A. cbn [obind]. rewrite EU. eexists. split; [reflexivity|]. apply Forall_app. split; [exact F|]. constructor; [|constructor]. unfold in_range. cbn [lsize lval]. lia.
    - replace (Nat.eqb (length outs) (Z.to_nat nb)) with true by (symmetry; apply Nat.eqb_eq; exact L). cbn [guard obind].
      specialize (EU []). rewrite app_nil_r in EU. rewrite EU in SF.
      assert (rem = 0) by lia.
      assert (A : assert_eq p (fold_left (fun a i => (a + nth i outs 0 * exp2 (lsize l - Z.of_nat (S i) * lsz)) mod p) (seq 0 (Z.to_nat nb)) 0) (lval l) = Some tt).
      { unfold assert_eq, guard. rewrite (proj2 (Z.eqb_eq _ _)); [reflexivity|]. rewrite SF. f_equal. rewrite Hw. replace rem with 0 in * by lia. rewrite Z.pow_0_r in *. lia. }
      rewrite A. cbn [obind]. rewrite EU, app_nil_r. eauto. }
  destruct G as (ls & E & F). exists ls. split; [exact E|]. split; [exact F|]. destruct (split_sound split_hint l lsz o ls Hl Hnb E) as (M & S & V).
  split; [exact M|]. split; [exact S|]. pose proof (wval_range ls F) as R. destruct Rl as [_ Rl]. rewrite S in R. rewrite !Z.mod_small in V by lia. exact V.
Qed.

(** ** LrotMerge *)
Lemma find_split_ok : forall ws amount i rem, Forall (fun w => 0 <= lsize w) ws -> 0 <= amount -> find_split ws amount = (i, rem) ->
  (i <= length ws)%nat /\ wsize (firstn i ws) + rem = amount /\ 0 <= rem /\ ((i < length ws)%nat -> rem < lsize (nth i ws (Limb 0 0))).
Proof.
  induction ws as [|w ws IH]; intros amount i rem F Ha H; cbn [find_split] in H.
  - injection H as <- <-. cbn. repeat split; lia.
  - inversion F as [|? ? Hw F']; subst. destruct (Z.ltb_spec amount (lsize w)).
    + injection H as <- <-. cbn [length firstn wsize nth]. repeat split; lia.
    + destruct (find_split ws (amount - lsize w)) as [i' r'] eqn:E. injection H as <- <-. assert (Ha' : 0 <= amount - lsize w) by lia. destruct (IH _ _ _ F' Ha' E) as (A & B & C & D).
      cbn [length firstn wsize nth]. repeat split; try lia; intros; apply D; lia.
Qed.
Lemma rotl_split a b sa sb : 0 <= sa -> 0 <= sb -> 0 <= a < 2 ^ sa -> 0 <= b < 2 ^ sb -> rotl (sa + sb) sa (a * 2 ^ sb + b) = b * 2 ^ sa + a.
Proof.
  intros Hsa Hsb Ha Hb. unfold rotl. replace (sa + sb - sa) with sb by lia. assert (Pa : 0 < 2 ^ sa) by (apply Z.pow_pos_nonneg; lia). assert (Pb : 0 < 2 ^ sb) by (apply Z.pow_pos_nonneg; lia).
  assert (E1 : (a * 2 ^ sb + b) / 2 ^ sb = a) by (rewrite Z.div_add_l by lia; rewrite (Z.div_small b) by lia; lia). rewrite E1. f_equal.
  rewrite Z.pow_add_r by lia. rewrite Z.mul_add_distr_r. replace (a * 2 ^ sb * 2 ^ sa) with (a * (2 ^ sa * 2 ^ sb)) by ring.
  rewrite Z.add_comm, Z_mod_plus_full. apply Z.mod_small. nia.
Qed.
Lemma lrot_sound hint ws amount r : Forall in_range ws -> 0 <= amount <= wsize ws ->
  (forall w rem parts, In w ws -> 0 < rem < lsize w -> split p hint w rem (Some 1) = Some parts -> Forall in_range parts /\ wval parts = lval w) ->
  lrot_merge p hint ws amount = Some r -> lsize r = wsize ws /\ lval r mod p = rotl (wsize ws) amount (wval ws) mod p.
Proof.
  intros F Ha Hh H. pose proof (in_range_sizes ws F) as Fs. unfold lrot_merge in H. destruct (find_split ws amount) as [i rem] eqn:E.
  destruct (find_split_ok ws amount i rem Fs ltac:(lia) E) as (Hi & Hs & Hr & Hlt).
  pose proof (firstn_skipn i ws) as Es. set (A := firstn i ws) in *. set (T := skipn i ws) in *.
  assert (FA : Forall in_range A /\ Forall in_range T) by (apply Forall_app; rewrite Es; auto). destruct FA as [FA FT].
  pose proof (in_range_sizes A FA) as SA. pose proof (in_range_sizes T FT) as ST.
  pose proof (wval_range A FA) as RA. pose proof (wval_range T FT) as RT.
  destruct (Z.ltb_spec 0 rem) as [Hp0|Hp0].
  - apply obind_Some in H. destruct H as [[] [H1 H]]. apply guard_Some in H1. apply Nat.ltb_lt in H1. specialize (Hlt H1).
    apply obind_Some in H. destruct H as [parts [H2 H]].
    assert (ET : T = nth i ws (Limb 0 0) :: skipn 1 T).
    { unfold T. assert (Ln : (0 < length (skipn i ws))%nat) by (rewrite skipn_length; lia). pose proof (nth_skipn' limb i ws 0 (Limb 0 0)) as Hn. rewrite Nat.add_0_r in Hn.
      destruct (skipn i ws) as [|x t]; [cbn in Ln; lia|]. cbn in Hn |- *. congruence. }
    set (w := nth i ws (Limb 0 0)) in *. set (T' := skipn 1 T) in *. clearbody T'.
    assert (Iw : In w ws) by (unfold w; apply nth_In; auto).
    destruct (Hh w rem parts Iw ltac:(lia) H2) as [Fp Vp].
    destruct (split_sound hint w rem (Some 1) parts Hp0 ltac:(cbn [nb_of]; lia) H2) as (M & Sz & _).
    unfold plan in M. cbn [nb_of] in M. replace (lsize w =? rem) with false in M by (symmetry; apply Z.eqb_neq; lia).
    replace (0 <? lsize w - 1 * rem) with true in M by (symmetry; apply Z.ltb_lt; lia). change (Z.to_nat 1) with 1%nat in M. cbn [repeat app] in M.
    destruct parts as [|a [|b [|? ?]]]; try discriminate M. cbn [map] in M. injection M as Ma Mb.
    apply Forall_cons_iff in Fp. destruct Fp as [Fpa Fp']. apply Forall_cons_iff in Fp'. destruct Fp' as [Fpb _].
    assert (Hrot : skipn 1 (T ++ A) = T' ++ A) by (rewrite ET; reflexivity). rewrite Hrot in H.
    assert (FT' : Forall in_range T') by (rewrite ET in FT; inversion FT; auto).
    pose proof (in_range_sizes T' FT') as ST'.
    assert (FR : Forall in_range ((b :: T' ++ A) ++ [a])) by (repeat (apply Forall_app; split); auto; constructor; auto; apply Forall_app; auto).
    destruct (merge_ok ((b :: T' ++ A) ++ [a])) as (r' & Er & Esr & Evr); [discriminate|apply in_range_sizes; auto|]. rewrite H in Er. injection Er as <-.
    cbn [wsize wval] in Sz, Vp. rewrite Z.pow_0_r in Vp.
    assert (Swz : wsize ws = wsize A + (lsize w + wsize T')) by (rewrite <- Es, wsize_app, ET; reflexivity).
    assert (W1 : wsize ((b :: T' ++ A) ++ [a]) = wsize ws).
    { rewrite Swz, wsize_app. cbn [wsize]. rewrite wsize_app. lia. }
    split; [lia|]. rewrite Evr. f_equal.
    pose proof (wsize_nonneg A SA). pose proof (wsize_nonneg T' ST').
    (* the top part is A a, the bottom part is b T' *)
    assert (Vws : wval ws = wval (A ++ [a]) * 2 ^ wsize (b :: T') + wval (b :: T')).
    { rewrite <- Es, ET. assert (Q1 : Forall (fun w => 0 <= lsize w) (w :: T')) by (constructor; [apply in_range_size; rewrite Forall_forall in F; apply F; exact Iw|exact ST']).
      assert (Q2 : Forall (fun w => 0 <= lsize w) [a]) by (constructor; [apply in_range_size; exact Fpa|constructor]).
      rewrite !wval_app by assumption. cbn [wval wsize].
      rewrite Z.pow_0_r, <- Vp. rewrite !Z.add_0_r. rewrite Z.mul_1_r.
      replace (lsize w + wsize T') with (lsize a + (lsize b + wsize T')) by lia. rewrite !Z.pow_add_r by (destruct Fpa, Fpb; lia). ring. }
    assert (V2 : wval ((b :: T' ++ A) ++ [a]) = wval (b :: T') * 2 ^ wsize (A ++ [a]) + wval (A ++ [a])).
    { rewrite <- wval_app.
      - rewrite app_comm_cons, <- app_assoc. reflexivity.
      - constructor; auto using in_range_size.
      - apply Forall_app. split; auto. constructor; auto using in_range_size. }
    rewrite V2, Vws. assert (Wa : wsize (A ++ [a]) = amount) by (rewrite wsize_app; cbn [wsize]; lia).
    replace (wsize ws) with (amount + wsize (b :: T')) by (cbn [wsize]; lia). rewrite <- Wa. rewrite rotl_split; [reflexivity| | | |].
    + lia.
    + cbn [wsize]. destruct Fpb. lia.
    + apply wval_range. apply Forall_app. auto.
    + apply wval_range. auto.
  - assert (rem = 0) by lia. subst rem. rewrite Z.add_0_r in Hs.
    destruct ws as [|w0 ws0] eqn:Ews. { unfold A, T in H. destruct i; discriminate H. } rewrite <- Ews in *.
    destruct (merge_ok (T ++ A)) as (r' & Er & Esr & Evr).
    { intros HH. apply app_eq_nil in HH. destruct HH as [HT HA]. rewrite HT, HA in Es. cbn in Es. congruence. }
    { apply Forall_app. auto. }
    rewrite H in Er. injection Er as <-. rewrite Esr, Evr, wsize_app, <- Es, wsize_app. split; [lia|]. f_equal.
    rewrite !wval_app by auto. rewrite <- Hs. rewrite rotl_split; auto using wsize_nonneg.
Qed.
Lemma lrot_complete ws amount : Forall in_range ws -> Forall (fun w => 2 ^ lsize w <= p) ws -> ws <> [] -> 0 <= amount <= wsize ws ->
  exists r, lrot_merge p split_hint ws amount = Some r.
Proof.
  intros F Fp Hn Ha. pose proof (in_range_sizes ws F) as Fs. unfold lrot_merge. destruct (find_split ws amount) as [i rem] eqn:E.
  destruct (find_split_ok ws amount i rem Fs ltac:(lia) E) as (Hi & Hs & Hr & Hlt).
  pose proof (firstn_skipn i ws) as Es.
  destruct (Z.ltb_spec 0 rem) as [Hp0|Hp0].
  - destruct (Nat.eq_dec i (length ws)) as [->|Hne].
    { rewrite firstn_all in Hs. lia. }
    assert (H1 : (i < length ws)%nat) by lia. specialize (Hlt H1). rewrite (proj2 (Nat.ltb_lt _ _) H1). cbn [guard obind].
    set (w := nth i ws (Limb 0 0)) in *. assert (Iw : In w ws) by (apply nth_In; auto).
    rewrite Forall_forall in F, Fp.
    destruct (split_honest w rem (Some 1) (F w Iw) (Fp w Iw) Hp0) as (ls & E1 & _ & M & _).
    { right. cbn [nb_of]. lia. } { cbn [nb_of]. lia. }
    rewrite E1. cbn [obind]. unfold plan in M. cbn [nb_of] in M. replace (lsize w =? rem) with false in M by (symmetry; apply Z.eqb_neq; lia).
    replace (0 <? lsize w - 1 * rem) with true in M by (symmetry; apply Z.ltb_lt; lia). change (Z.to_nat 1) with 1%nat in M. cbn [repeat app] in M.
    destruct ls as [|a [|b [|? ?]]]; try discriminate M. unfold merge. destruct ((b :: skipn 1 (skipn i ws ++ firstn i ws)) ++ [a]) as [|x [|y l]] eqn:El; [discriminate| |]; eauto.
  - unfold merge. destruct (skipn i ws ++ firstn i ws) as [|x [|y l]] eqn:El; eauto.
    apply app_eq_nil in El. destruct El as [HT HA]. rewrite HT, HA in Es. cbn in Es. congruence.
Qed.
End P.
