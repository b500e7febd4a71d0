(** * Props_Element.v — C65: conversions between digit strings and emulated field elements *)
From Coq Require Import ZArith List Bool Arith Lia.
From Verif Require Import Field FieldLemmas LimbsModel LimbsProofs Props_Limbs SliceModel KeccakPad ElementModel.
Import ListNotations.
Open Scope Z_scope.
Open Scope circ_scope.

(** ** Specification *)
(** the number written by the digits [ds] in base 2^s, most significant digit first *)
Definition digits_val (s : Z) (ds : list Z) : Z := fold_left (fun a d => a * 2 ^ s + d) ds 0.
Definition is_digit (s d : Z) : Prop := 0 <= d < 2 ^ s.
(** the integer denoted by little-endian limbs *)
Fixpoint limbs_val (b : Z) (el : list Z) : Z := match el with [] => 0 | x :: r => x + 2 ^ b * limbs_val b r end.
(** a sensible parameter set: at least one limb, the modulus needs all limbs, and limbs fit in the native field *)
Definition params_fit (p : Z) (f : fparams) : Prop :=
  (0 < fp_nb f)%nat /\ 0 < fp_bits f /\ 2 ^ fp_bits f <= p /\ 0 < fp_modulus f /\
  (Z.of_nat (fp_nb f) - 1) * fp_bits f <= Z.log2 (fp_modulus f) < Z.of_nat (fp_nb f) * fp_bits f.

(** ** Lemmas *)
Lemma digits_fold s ds : forall a, 0 <= s -> fold_left (fun a d => a * 2 ^ s + d) ds a = a * 2 ^ (s * Z.of_nat (length ds)) + digits_val s ds.
Proof.
  unfold digits_val. induction ds as [|d ds IH]; intros a Hs; cbn [fold_left length]; [rewrite Z.mul_0_r; change (2 ^ 0) with 1; lia|].
  rewrite IH by auto. rewrite (IH (0 * 2 ^ s + d)) by auto. rewrite Nat2Z.inj_succ. replace (s * Z.succ (Z.of_nat (length ds))) with (s + s * Z.of_nat (length ds)) by lia.
  rewrite Z.pow_add_r by lia. ring.
Qed.
Lemma digits_cons s d ds : 0 <= s -> digits_val s (d :: ds) = d * 2 ^ (s * Z.of_nat (length ds)) + digits_val s ds.
Proof. intros Hs. unfold digits_val at 1. cbn [fold_left]. rewrite digits_fold by auto. ring. Qed.
Lemma digits_app s a b : 0 <= s -> digits_val s (a ++ b) = digits_val s a * 2 ^ (s * Z.of_nat (length b)) + digits_val s b.
Proof. intros Hs. unfold digits_val at 1. rewrite fold_left_app, digits_fold by auto. reflexivity. Qed.
Lemma new_limbs_wsize ds s : wsize (new_limbs ds s) = s * Z.of_nat (length ds).
Proof. induction ds as [|d ds IH]; cbn [new_limbs map wsize lsize length]; [lia|]. unfold new_limbs in IH. rewrite IH. lia. Qed.
Lemma new_limbs_wval ds s : 0 <= s -> wval (new_limbs ds s) = digits_val s ds.
Proof.
  intros Hs. induction ds as [|d ds IH]; [reflexivity|]. rewrite digits_cons by auto. pose proof (new_limbs_wsize ds s) as E.
  cbn [new_limbs map wval lval]. unfold new_limbs in *. rewrite E, IH. reflexivity.
Qed.
Lemma new_limbs_sizes ds s : 0 <= s -> Forall (fun w => 0 <= lsize w) (new_limbs ds s).
Proof. intros Hs. apply Forall_forall. intros w Hw. apply in_map_iff in Hw. destruct Hw as (v & E & _). subst w. exact Hs. Qed.
Lemma new_limbs_range ds s : 0 < s -> Forall (is_digit s) ds -> Forall in_range (new_limbs ds s).
Proof. intros Hs F. apply Forall_map. eapply Forall_impl; [|exact F]. intros d Hd. split; [exact Hs|exact Hd]. Qed.
Lemma digits_range s ds : 0 < s -> Forall (is_digit s) ds -> 0 <= digits_val s ds < 2 ^ (s * Z.of_nat (length ds)).
Proof. intros Hs F. rewrite <- new_limbs_wval, <- new_limbs_wsize by lia. apply wval_range, new_limbs_range; auto. Qed.
Lemma limbs_val_app b x y : 0 <= b -> limbs_val b (x ++ y) = limbs_val b x + 2 ^ (b * Z.of_nat (length x)) * limbs_val b y.
Proof.
  intros Hb. induction x as [|a x IH]; cbn [app limbs_val length]; [rewrite Z.mul_0_r; change (2 ^ 0) with 1; lia|].
  rewrite IH, Nat2Z.inj_succ. replace (b * Z.succ (Z.of_nat (length x))) with (b + b * Z.of_nat (length x)) by lia. rewrite Z.pow_add_r by lia. ring.
Qed.
Lemma limbs_val_rev b ds : 0 <= b -> limbs_val b (rev ds) = digits_val b ds.
Proof.
  intros Hb. induction ds as [|d ds IH]; [reflexivity|]. cbn [rev]. rewrite limbs_val_app, IH, rev_length, digits_cons by auto. cbn [limbs_val]. ring.
Qed.
Lemma values_new_limbs ds s : values (new_limbs ds s) = ds.
Proof. unfold values, new_limbs. rewrite map_map. apply map_id. Qed.
Lemma new_limbs_values ls s : Forall (fun w => lsize w = s) ls -> new_limbs (values ls) s = ls.
Proof. unfold values, new_limbs. induction 1 as [|w ls Hw F IH]; [reflexivity|]. cbn [map]. rewrite IH. destruct w as [v z]. cbn in *. subst. reflexivity. Qed.
Lemma sizes_repeat ls k n : map lsize ls = repeat k n -> Forall (fun w => lsize w = k) ls /\ length ls = n.
Proof.
  intros H. split; [|apply (f_equal (@length Z)) in H; rewrite map_length, repeat_length in H; exact H].
  apply Forall_forall. intros w Hw. apply (in_map lsize) in Hw. rewrite H in Hw. apply repeat_spec in Hw. exact Hw.
Qed.

(** what NewElement accepts *)
Lemma new_element_ok f : forall el r, new_element f el = Some r <->
  r = el /\ Forall (is_digit (fp_bits f)) (removelast el) /\ (el = [] \/ is_digit (top_bits f) (last el 0)).
Proof.
  induction el as [|x el IH]; intros r.
  - cbn. split; [intros H; injection H as <-; auto|]. intros (E & _). subst; reflexivity.
  - destruct el as [|y el].
    + cbn [new_element removelast last]. unfold is_digit, guard, obind. destruct (Z.leb_spec 0 x), (Z.ltb_spec x (2 ^ top_bits f)); cbn [andb]; split; intros Q;
        try discriminate Q; try (destruct Q as (_ & _ & [Q|Q]); [discriminate Q|lia]).
      * injection Q as <-. split; [reflexivity|]. split; [constructor|]. right. lia.
      * destruct Q as (E & _). subst; reflexivity.
    + change (new_element f (x :: y :: el)) with (guard ((0 <=? x) && (x <? 2 ^ fp_bits f)) ;; let* r' := new_element f (y :: el) in Some (x :: r')).
      change (removelast (x :: y :: el)) with (x :: removelast (y :: el)). change (last (x :: y :: el) 0) with (last (y :: el) 0).
      assert (Hg : guard ((0 <=? x) && (x <? 2 ^ fp_bits f)) = Some tt <-> is_digit (fp_bits f) x).
      { unfold is_digit, guard. destruct (Z.leb_spec 0 x), (Z.ltb_spec x (2 ^ fp_bits f)); cbn [andb]; split; intros Q; auto; try discriminate Q; lia. }
      split.
      * intros H. apply obind_Some in H. destruct H as ([] & G & H). apply obind_Some in H. destruct H as (r' & Er & H). injection H as <-.
        apply IH in Er. destruct Er as (E1 & F & [Q|T]); [discriminate Q|]. subst r'. split; [reflexivity|]. split; [constructor; [apply Hg; exact G|exact F]|]. right. exact T.
      * intros (E & F & T). subst r. inversion F as [|? ? Fx F']; subst. rewrite (proj2 Hg Fx). cbn [obind].
        assert (E : new_element f (y :: el) = Some (y :: el)). { apply IH. split; [reflexivity|]. split; [exact F'|]. right. destruct T as [T|T]; [discriminate T|exact T]. }
        rewrite E. reflexivity.
Qed.
Lemma top_bits_eq p f : params_fit p f -> top_bits f = Z.log2 (fp_modulus f) + 1 - (Z.of_nat (fp_nb f) - 1) * fp_bits f /\ 0 < top_bits f <= fp_bits f.
Proof.
  intros (Hn & Hb & _ & _ & Hl). unfold top_bits. set (L := Z.log2 (fp_modulus f)) in *. set (n := Z.of_nat (fp_nb f)) in *.
  assert (E : L mod fp_bits f = L - (n - 1) * fp_bits f). { symmetry. apply Zmod_unique with (n - 1); nia. }
  rewrite E. nia.
Qed.
(** for a full-size list of in-range limbs, NewElement accepts iff the number has at most the bit length of the modulus *)
Lemma new_element_full p f el : params_fit p f -> length el = fp_nb f -> Forall (is_digit (fp_bits f)) el ->
  (new_element f el = Some el <-> limbs_val (fp_bits f) el < 2 ^ (Z.log2 (fp_modulus f) + 1)).
Proof.
  intros Hf Hl F. destruct (top_bits_eq p f Hf) as [Et Rt]. destruct Hf as (Hn & Hb & _ & _ & HL).
  assert (Hne : el <> []) by (intros ->; cbn in Hl; lia).
  rewrite new_element_ok. pose proof (app_removelast_last 0 Hne) as Ea. set (a := removelast el) in *. set (x := last el 0) in *.
  assert (La : Z.of_nat (length a) = Z.of_nat (fp_nb f) - 1). { apply (f_equal (@length Z)) in Ea. rewrite app_length in Ea. cbn [length] in Ea. lia. }
  rewrite Ea in F. apply Forall_app in F. destruct F as [Fa Fx]. pose proof (Forall_inv Fx) as Hx. clear Fx.
  assert (Ev : limbs_val (fp_bits f) el = limbs_val (fp_bits f) a + 2 ^ (fp_bits f * (Z.of_nat (fp_nb f) - 1)) * x).
  { rewrite Ea. rewrite limbs_val_app by lia. cbn [limbs_val]. rewrite La. ring. } rewrite Ev. clear Ev.
  replace (Z.log2 (fp_modulus f) + 1) with (fp_bits f * (Z.of_nat (fp_nb f) - 1) + top_bits f) by lia. rewrite Z.pow_add_r by nia.
  assert (Ra : 0 <= limbs_val (fp_bits f) a < 2 ^ (fp_bits f * (Z.of_nat (fp_nb f) - 1))).
  { rewrite <- (rev_involutive a), limbs_val_rev by lia. rewrite <- La, <- (rev_length a). apply digits_range; auto. apply Forall_rev; auto. }
  set (A := limbs_val (fp_bits f) a) in *. set (W := 2 ^ (fp_bits f * (Z.of_nat (fp_nb f) - 1))) in *. set (T := 2 ^ top_bits f) in *.
  unfold is_digit in *. fold T. clear Ea. clearbody A W T x a. split.
  - intros (_ & _ & [Q|Q]); [congruence|]. nia.
  - intros H. split; [reflexivity|]. split; [exact Fa|]. right. nia.
Qed.

(** regrouping digits *)
Lemma chunk_digit s c n ds : 0 < s -> Forall (is_digit s) ds -> length ds = (n * c)%nat -> Forall (is_digit (s * Z.of_nat c)) (map (digits_val s) (chunks n c ds)).
Proof.
  intros Hs. revert ds. induction n as [|n IH]; intros ds F L; cbn [chunks map]; [constructor|].
  pose proof F as F'. rewrite <- (firstn_skipn c ds) in F'. apply Forall_app in F'. destruct F' as [Fa Fb]. constructor.
  - assert (La : length (firstn c ds) = c) by (rewrite firstn_length; lia). pose proof (digits_range s _ Hs Fa) as R. rewrite La in R. exact R.
  - apply IH; auto. rewrite skipn_length. lia.
Qed.
Lemma chunks_length {A} n c (l : list A) : length (chunks n c l) = n.
Proof. revert l. induction n as [|n IH]; intros l; cbn [chunks length]; auto. Qed.
Lemma digits_chunks s c n ds : 0 < s -> length ds = (n * c)%nat -> digits_val (s * Z.of_nat c) (map (digits_val s) (chunks n c ds)) = digits_val s ds.
Proof.
  intros Hs. revert ds. induction n as [|n IH]; intros ds L; cbn [chunks map]; [destruct ds; [reflexivity|cbn in L; lia]|].
  rewrite digits_cons by nia. rewrite IH by (rewrite skipn_length; lia). rewrite map_length, chunks_length.
  rewrite <- (firstn_skipn c ds) at 3. rewrite digits_app by lia. f_equal. f_equal. f_equal. rewrite skipn_length. nia.
Qed.
Lemma digits_inj s a b : 0 < s -> length a = length b -> Forall (is_digit s) a -> Forall (is_digit s) b -> digits_val s a = digits_val s b -> a = b.
Proof.
  intros Hs L Fa Fb E. rewrite <- (values_new_limbs a s), <- (values_new_limbs b s). f_equal. apply wval_inj; auto using new_limbs_range.
  - unfold new_limbs. rewrite !map_map. cbn [lsize]. clear - L. revert b L. induction a as [|x a IH]; intros [|y b] L; try discriminate L; cbn [map]; [reflexivity|]. f_equal. auto.
  - rewrite !new_limbs_wval by lia. exact E.
Qed.
Lemma limbs_inj b x y : 0 < b -> length x = length y -> Forall (is_digit b) x -> Forall (is_digit b) y -> limbs_val b x = limbs_val b y -> x = y.
Proof.
  intros Hb L Fx Fy E. rewrite <- (rev_involutive x), <- (rev_involutive y) in *. rewrite !limbs_val_rev in E by lia. f_equal.
  rewrite !rev_involutive in *. apply digits_inj with b; auto; [rewrite !rev_length; auto|apply Forall_rev; auto|apply Forall_rev; auto].
Qed.

(** splitting into one-bit limbs, for any prover *)
Lemma split1_any p hint w ls : 2 < p -> 0 < lsize w -> split p hint w 1 None = Some ls ->
  Forall (fun x => lsize x = 1) ls /\ Z.of_nat (length ls) = lsize w /\ wval ls mod p = lval w mod p.
Proof.
  intros Hp Hw H. destruct (split_sound p Hp hint w 1 None ls) as (M & S & V); [lia|cbn [nb_of]; rewrite Z.div_1_r; lia|exact H|].
  cbn [nb_of] in M. rewrite Z.div_1_r in M.
  assert (F : Forall (fun x => lsize x = 1) ls).
  { apply Forall_forall. intros x Hx. apply (in_map lsize) in Hx. rewrite M in Hx. unfold plan in Hx.
    destruct (lsize w =? 1) eqn:E1w; [destruct Hx as [Hx|[]]; lia|]. replace (lsize w - lsize w * 1) with 0 in Hx by lia. change (0 <? 0) with false in Hx. cbv iota in Hx. rewrite app_nil_r in Hx.
    apply repeat_spec in Hx. exact Hx. }
  split; [exact F|]. split; [rewrite (wsize_ones ls F) in S; exact S|exact V].
Qed.
(** the bits of a block of digits *)
Lemma bits_any p hint s : 2 < p -> 0 < s -> forall ds bits, omap (fun w => split p hint w 1 None) (new_limbs ds s) = Some bits ->
  Forall (fun x => lsize x = 1) (concat bits) /\ Z.of_nat (length (concat bits)) = s * Z.of_nat (length ds) /\ wval (concat bits) mod p = digits_val s ds mod p.
Proof.
  intros Hp Hs. induction ds as [|d ds IH]; intros bits H.
  - cbn in H. injection H as <-. cbn. split; [constructor|]. split; lia.
  - cbn [new_limbs map omap] in H. apply obind_Some in H. destruct H as (ls & E & H). apply obind_Some in H. destruct H as (r & Er & H). injection H as <-.
    destruct (IH r Er) as (F & L & V). destruct (split1_any p hint (Limb d s) ls Hp Hs E) as (F1 & L1 & V1). cbn [lsize lval] in *.
    cbn [concat]. split; [apply Forall_app; auto|]. split; [rewrite app_length; cbn [length]; nia|].
    assert (P : forall l, Forall (fun x => lsize x = 1) l -> Forall (fun x => 0 <= lsize x) l) by (intros l Hl; eapply Forall_impl; [|exact Hl]; cbn; intros; lia).
    rewrite wval_app by auto. rewrite (wsize_ones _ F), L, digits_cons by lia.
    rewrite <- (Z.add_mod_idemp_r _ (wval (concat r))), V, Z.add_mod_idemp_r by lia.
    rewrite <- (Z.add_mod_idemp_l (wval ls * _)) by lia. rewrite <- Z.mul_mod_idemp_l, V1, Z.mul_mod_idemp_l, Z.add_mod_idemp_l by lia. reflexivity.
Qed.
Lemma omap_app {A B} (g : A -> option B) a b r : omap g (a ++ b) = Some r -> exists ra rb, omap g a = Some ra /\ omap g b = Some rb /\ r = ra ++ rb.
Proof.
  revert r. induction a as [|x a IH]; intros r H; cbn [app omap] in *; [exists [], r; auto|].
  apply obind_Some in H. destruct H as (y & E & H). apply obind_Some in H. destruct H as (t & Et & H). injection H as <-.
  destruct (IH t Et) as (ra & rb & E1 & E2 & ->). rewrite E, E1. cbn [obind]. exists (y :: ra), rb. auto.
Qed.
Lemma groups_any p hint s c : 2 < p -> 0 < s -> (0 < c)%nat -> forall n ds bits fuel, length ds = (n * c)%nat ->
  omap (fun w => split p hint w 1 None) (new_limbs ds s) = Some bits -> (n <= fuel)%nat ->
  exists ls, merge_groups p fuel (concat bits) (Z.to_nat (s * Z.of_nat c)) = Some ls /\ map lsize ls = repeat (s * Z.of_nat c) n /\
    map (fun w => lval w mod p) ls = map (fun ch => digits_val s ch mod p) (chunks n c ds).
Proof.
  intros Hp Hs Hc. induction n as [|n IH]; intros ds bits fuel L H Hf.
  - destruct ds; [|cbn in L; lia]. cbn in H. injection H as <-. exists []. destruct fuel; cbn; auto.
  - rewrite <- (firstn_skipn c ds) in H. unfold new_limbs in H. rewrite map_app in H. apply omap_app in H. destruct H as (ra & rb & Ea & Eb & ->).
    destruct (bits_any p hint s Hp Hs _ _ Ea) as (Fa & La & Va). destruct (bits_any p hint s Hp Hs _ _ Eb) as (Fb & Lb & _).
    rewrite firstn_length, Nat.min_l in La by lia. rewrite skipn_length in Lb.
    destruct fuel as [|fuel]; [lia|]. rewrite concat_app. set (A := concat ra) in *. set (T := concat rb) in *.
    assert (LA : length A = Z.to_nat (s * Z.of_nat c)) by lia. set (k := Z.to_nat (s * Z.of_nat c)) in *.
    assert (Hk : (0 < k)%nat) by nia.
    assert (Emg : merge_groups p (S fuel) (A ++ T) k = (guard (Nat.leb k (length (A ++ T))) ;; let* g := merge p (firstn k (A ++ T)) in let* r := merge_groups p fuel (skipn k (A ++ T)) k in Some (g :: r))).
    { destruct (A ++ T) eqn:E; [|reflexivity]. apply app_eq_nil in E. destruct E as [E _]. rewrite E in LA. cbn in LA. lia. }
    rewrite Emg, (proj2 (Nat.leb_le _ _)) by (rewrite app_length; lia). cbn [guard obind].
    rewrite firstn_app, skipn_app, LA, Nat.sub_diag, firstn_O, app_nil_r. cbn [skipn]. rewrite (firstn_all2 A), (skipn_all2 A) by lia. cbn [app].
    assert (Sa : Forall (fun x => 0 <= lsize x) A) by (eapply Forall_impl; [|exact Fa]; cbn; intros; lia).
    destruct (merge_ok p A) as (m & Em & Sm & Vm); [intros Q; rewrite Q in LA; cbn in LA; lia|exact Sa|]. rewrite Em. cbn [obind].
    destruct (IH (skipn c ds) rb fuel) as (ls & El & Ml & Vl); [rewrite skipn_length; lia|exact Eb|lia|]. fold T in El. rewrite El. cbn [obind].
    exists (m :: ls). split; [reflexivity|]. split; [cbn [map repeat]; rewrite Ml, Sm, (wsize_ones A Fa), La; reflexivity|].
    cbn [map chunks]. rewrite Vl, Vm, Va. reflexivity.
Qed.

Lemma pow_le_field p k : 2 < p -> 0 <= k -> k < Z.of_nat (field_bits p) -> 2 ^ k <= p.
Proof.
  intros Hp Hk H. unfold field_bits in H. rewrite Z2Nat.id in H by (pose proof (Z.log2_nonneg p); lia).
  destruct (Z.log2_spec p) as [H1 _]; [lia|]. apply Z.le_trans with (2 ^ Z.log2 p); [|exact H1]. apply Z.pow_le_mono_r; lia.
Qed.
Lemma mod_eq_map p l xs : Forall (fun w => 0 <= lval w < p) l -> map (fun w => lval w mod p) l = map (fun x => x mod p) xs -> values l = map (fun x => x mod p) xs.
Proof.
  intros F E. rewrite <- E. unfold values. apply map_ext_in. intros w Hw. rewrite Forall_forall in F. rewrite Z.mod_small by auto. reflexivity.
Qed.
(** Resplit to limbs made of whole digits, for any prover: the new limbs are congruent to the digit groups *)
Lemma resplit_whole p hint s c n ds ls : 2 < p -> 0 < s -> (0 < c)%nat -> (0 < n)%nat -> length ds = (n * c)%nat -> Z.of_nat (field_bits p) < s * Z.of_nat (length ds) ->
  (2 <= length ds)%nat -> resplit p hint (new_limbs ds s) (s * Z.of_nat c) = Some ls ->
  map lsize ls = repeat (s * Z.of_nat c) n /\ map (fun w => lval w mod p) ls = map (fun ch => digits_val s ch mod p) (chunks n c ds).
Proof.
  intros Hp Hs Hc Hn L Ht L2 H. destruct ds as [|d [|d2 t]]; [cbn in L2; lia|cbn in L2; lia|]. set (ds := d :: d2 :: t) in *.
  assert (E : resplit p hint (new_limbs ds s) (s * Z.of_nat c) = if total_size (new_limbs ds s) <=? Z.of_nat (field_bits p) then
      let* m := merge p (new_limbs ds s) in split p hint m (s * Z.of_nat c) None
    else guard (0 <? s * Z.of_nat c) ;; let* bits := omap (fun w => split p hint w 1 None) (new_limbs ds s) in
      merge_groups p (length (concat bits)) (concat bits) (Z.to_nat (s * Z.of_nat c))) by reflexivity.
  rewrite E, total_size_ok, new_limbs_wsize in H. clear E. rewrite (proj2 (Z.leb_gt _ _)) in H by exact Ht.
  rewrite (proj2 (Z.ltb_lt 0 _)) in H by nia. cbn [guard obind] in H. apply obind_Some in H. destruct H as (bits & Eb & H).
  destruct (bits_any p hint s Hp Hs _ _ Eb) as (_ & Lb & _).
  destruct (groups_any p hint s c Hp Hs Hc n ds bits (length (concat bits)) L Eb) as (ls' & E' & M & V); [nia|].
  rewrite E' in H. injection H as <-. auto.
Qed.

(** ** C65 *)
(** ToElement, any prover: if the digits fill the limbs exactly, the element's limbs are in range and it denotes the number
    written by the digits, which has at most the bit length of the modulus. *)
Theorem C65_to_element_sound : forall p hint f s c ds el, 2 < p -> params_fit p f -> 0 < s -> s * Z.of_nat c = fp_bits f ->
  length ds = (fp_nb f * c)%nat -> Forall (is_digit s) ds -> Z.of_nat (fp_nb f) * fp_bits f <> Z.of_nat (field_bits p) ->
  to_element p hint f ds s = Some el ->
  length el = fp_nb f /\ Forall (is_digit (fp_bits f)) el /\ limbs_val (fp_bits f) el = digits_val s ds /\ digits_val s ds < 2 ^ (Z.log2 (fp_modulus f) + 1).
Proof.
  intros p hint f s c ds el Hp Hf Hs Hsc L F Ht H. unfold to_element in H. apply obind_Some in H. destruct H as (ls & Er & H). rewrite flip_spec in H.
  destruct (top_bits_eq p f Hf) as [Et Rt]. pose proof Hf as (Hn & Hb & Hbp & _ & HL). assert (Hc : (0 < c)%nat) by (destruct c; [cbn in Hsc; lia|lia]).
  assert (Main : length ls = fp_nb f /\ (new_element f (values (rev ls)) = Some el -> digits_val (fp_bits f) (values ls) = digits_val s ds)).
  2:{ destruct Main as [Ll Main]. specialize (Main H). pose proof H as H'. apply new_element_ok in H'. destruct H' as (E & Fr & Tl).
      assert (Fe : Forall (is_digit (fp_bits f)) el).
      { subst el. unfold values in *. rewrite map_rev in *. assert (Hne : rev (map lval ls) <> []) by (intros Q; apply (f_equal (@length Z)) in Q; rewrite rev_length, map_length in Q; cbn in Q; lia).
        destruct Tl as [Q|Tl]; [congruence|]. rewrite (app_removelast_last 0 Hne). apply Forall_app. split; [exact Fr|]. constructor; [|constructor].
        unfold is_digit in *. assert (2 ^ top_bits f <= 2 ^ fp_bits f) by (apply Z.pow_le_mono_r; lia). lia. }
      assert (Le : length el = fp_nb f) by (subst el; unfold values; rewrite map_length, rev_length; exact Ll).
      assert (Ev : limbs_val (fp_bits f) el = digits_val s ds).
      { subst el. unfold values. rewrite map_rev, limbs_val_rev by lia. exact Main. }
      split; [exact Le|]. split; [exact Fe|]. split; [exact Ev|]. rewrite <- Ev. apply (new_element_full p f el Hf Le Fe). rewrite <- E in H. exact H. }
  assert (Hval : new_element f (values (rev ls)) = Some el -> Forall in_range (map (fun w => Limb (lval w) (fp_bits f)) ls)).
  { intros H'. apply new_element_ok in H'. destruct H' as (E & Fr & Tl). destruct ls as [|l0 ls0]; [constructor|]. set (ls' := l0 :: ls0) in *.
    assert (Hne : values (rev ls') <> []) by (unfold ls'; cbn; intros Q; apply (f_equal (@length Z)) in Q; unfold values in Q; rewrite map_app, app_length in Q; cbn in Q; lia).
    destruct Tl as [Q|Tl]; [congruence|].
    assert (G : Forall (is_digit (fp_bits f)) (values (rev ls'))).
    { rewrite (app_removelast_last 0 Hne). apply Forall_app. split; [exact Fr|]. constructor; [|constructor].
      unfold is_digit in *. assert (2 ^ top_bits f <= 2 ^ fp_bits f) by (apply Z.pow_le_mono_r; lia). lia. }
    unfold values in G. rewrite map_rev in G. apply Forall_rev in G. rewrite rev_involutive in G. apply Forall_map. rewrite Forall_map in G.
    eapply Forall_impl; [|exact G]. intros w Hw. split; [exact Hb|exact Hw]. }
  clear H. destruct (Nat.eq_dec (length ds) 1) as [L1|L1].
  - assert (c = 1%nat /\ fp_nb f = 1%nat) as [-> En] by nia. destruct ds as [|d [|? ?]]; try discriminate L1. cbn [new_limbs map resplit] in Er. injection Er as <-.
    split; [rewrite En; reflexivity|]. intros _. replace (fp_bits f) with s by lia. reflexivity.
  - destruct (Z_lt_le_dec (Z.of_nat (field_bits p)) (s * Z.of_nat (length ds))) as [Hbig|Hsmall].
    + rewrite <- Hsc in Er. destruct (resplit_whole p hint s c (fp_nb f) ds ls Hp Hs Hc Hn L Hbig ltac:(nia) Er) as [M V].
      split; [apply (sizes_repeat _ _ _ M)|]. intros H'. specialize (Hval H').
      rewrite <- (map_map (digits_val s) (fun x => x mod p)) in V. apply mod_eq_map in V.
      2:{ rewrite Forall_map in Hval. eapply Forall_impl; [|exact Hval]. intros w [_ Hw]. cbn [lval lsize] in Hw. lia. }
      rewrite V. rewrite <- Hsc. rewrite <- (digits_chunks s c (fp_nb f) ds Hs L). f_equal.
      pose proof (chunk_digit s c (fp_nb f) ds Hs F L) as Fc. rewrite map_ext_in with (g := fun x => x); [apply map_id|].
      intros x Hx. rewrite Forall_forall in Fc. specialize (Fc x Hx). unfold is_digit in Fc. rewrite Hsc in Fc. apply Z.mod_small. lia.
    + assert (Ht' : s * Z.of_nat (length ds) < Z.of_nat (field_bits p)) by nia.
      assert (Hpw : 2 ^ (s * Z.of_nat (length ds)) <= p) by (apply pow_le_field; lia).
      destruct ds as [|d [|d2 t]]; [cbn in L; nia|cbn in L1; lia|]. set (ds := d :: d2 :: t) in *.
      assert (E : resplit p hint (new_limbs ds s) (fp_bits f) = if total_size (new_limbs ds s) <=? Z.of_nat (field_bits p) then
          let* m := merge p (new_limbs ds s) in split p hint m (fp_bits f) None
        else guard (0 <? fp_bits f) ;; let* bits := omap (fun w => split p hint w 1 None) (new_limbs ds s) in
          merge_groups p (length (concat bits)) (concat bits) (Z.to_nat (fp_bits f))) by reflexivity.
      rewrite E, total_size_ok, new_limbs_wsize in Er. clear E. rewrite (proj2 (Z.leb_le _ _)) in Er by exact Hsmall.
      destruct (C23_merge_value p (new_limbs ds s) Hp (new_limbs_range ds s Hs F)) as (m & Em & Vm & Sm & Rm); [discriminate|rewrite new_limbs_wsize; exact Hpw|].
      rewrite Em in Er. cbn [obind] in Er. rewrite new_limbs_wsize in Sm. rewrite new_limbs_wval in Vm by lia.
      assert (Sz : lsize m = Z.of_nat (fp_nb f) * fp_bits f) by nia.
      assert (Enb : lsize m / fp_bits f = Z.of_nat (fp_nb f)) by (rewrite Sz; apply Z.div_mul; lia).
      assert (Hnb : nb_of m (fp_bits f) None * fp_bits f <= lsize m) by (cbn [nb_of]; rewrite Enb; lia).
      destruct (split_sound p Hp hint m (fp_bits f) None ls Hb Hnb Er) as (M & S & V). cbn [nb_of] in M. rewrite Enb in M.
      assert (M' : map lsize ls = repeat (fp_bits f) (fp_nb f)).
      { rewrite M. unfold plan. destruct (Z.eqb_spec (lsize m) (fp_bits f)) as [Q|Q].
        - assert (En : fp_nb f = 1%nat) by nia. rewrite En. reflexivity.
        - rewrite Sz, Z.sub_diag. change (0 <? 0) with false. cbv iota. rewrite app_nil_r, Nat2Z.id. reflexivity. }
      destruct (sizes_repeat _ _ _ M') as [Fsz Ll]. split; [exact Ll|]. intros H'. specialize (Hval H').
      assert (Ee : map (fun w => Limb (lval w) (fp_bits f)) ls = ls).
      { change (map (fun w => Limb (lval w) (fp_bits f)) ls) with (map (fun w => (fun v => Limb v (fp_bits f)) (lval w)) ls). rewrite <- map_map. apply (new_limbs_values ls (fp_bits f) Fsz). }
      rewrite Ee in Hval. pose proof (wval_range ls Hval) as R. rewrite S in R.
      rewrite <- new_limbs_wval by lia. rewrite new_limbs_values by exact Fsz. destruct Rm as [_ Rm]. rewrite Sm in *.
      rewrite !Z.mod_small in V by lia. lia.
Qed.
(** ToElement, honest prover: every digit string whose number has at most the bit length of the modulus is accepted. *)
Lemma honest_shape p ws k : 2 < p -> Forall in_range ws -> Forall (fun w => 2 ^ lsize w <= p) ws -> (2 <= length ws)%nat ->
  0 < k <= wsize ws -> 2 ^ k <= p -> wsize ws mod k = 0 -> wsize ws <> Z.of_nat (field_bits p) ->
  exists ls, resplit p split_hint ws k = Some ls /\ Forall in_range ls /\ wval ls = wval ws /\ map lsize ls = repeat k (Z.to_nat (wsize ws / k)).
Proof.
  intros Hp F Fp L Hk Hkp Hm Hne. destruct (C23_resplit_honest p ws k Hp F Fp L Hk Hkp) as (ls & E & Fl & V & M).
  - destruct (Z.leb_spec (wsize ws) (Z.of_nat (field_bits p))); [|exact Hm]. apply pow_le_field; lia.
  - exists ls. rewrite Hm in M. change (0 <? 0) with false in M. cbv iota in M. rewrite app_nil_r in M. auto.
Qed.
Theorem C65_to_element_accepts : forall p f s c ds, 2 < p -> params_fit p f -> 0 < s -> s * Z.of_nat c = fp_bits f ->
  length ds = (fp_nb f * c)%nat -> Forall (is_digit s) ds -> Z.of_nat (fp_nb f) * fp_bits f <> Z.of_nat (field_bits p) ->
  digits_val s ds < 2 ^ (Z.log2 (fp_modulus f) + 1) ->
  exists el, to_element p split_hint f ds s = Some el.
Proof.
  intros p f s c ds Hp Hf Hs Hsc L F Ht Hv. pose proof Hf as (Hn & Hb & Hbp & _ & HL). assert (Hc : (0 < c)%nat) by (destruct c; [cbn in Hsc; lia|lia]).
  assert (G : exists ls, resplit p split_hint (new_limbs ds s) (fp_bits f) = Some ls /\ Forall in_range ls /\ wval ls = digits_val s ds /\ map lsize ls = repeat (fp_bits f) (fp_nb f)).
  { destruct (Nat.eq_dec (length ds) 1) as [L1|L1].
    - assert (c = 1%nat /\ fp_nb f = 1%nat) as [Q1 Q2] by nia. subst c. destruct ds as [|d [|? ?]]; try discriminate L1. exists (new_limbs [d] s).
      split; [reflexivity|]. split; [apply new_limbs_range; auto|]. split; [apply new_limbs_wval; lia|]. rewrite Q2. cbn. f_equal. lia.
    - destruct (honest_shape p (new_limbs ds s) (fp_bits f) Hp) as (ls & E & Fl & V & M).
      + apply new_limbs_range; auto.
      + apply Forall_forall. intros w Hw. apply in_map_iff in Hw. destruct Hw as (v & Q & _). subst w. cbn [lsize].
        apply Z.le_trans with (2 ^ fp_bits f); [apply Z.pow_le_mono_r; nia|lia].
      + unfold new_limbs. rewrite map_length. nia.
      + rewrite new_limbs_wsize. nia.
      + lia.
      + rewrite new_limbs_wsize, L. replace (s * Z.of_nat (fp_nb f * c)) with (Z.of_nat (fp_nb f) * fp_bits f) by nia. apply Z_mod_mult.
      + rewrite new_limbs_wsize, L. nia.
      + exists ls. split; [exact E|]. split; [exact Fl|]. split; [rewrite V; apply new_limbs_wval; lia|]. rewrite M. f_equal.
        rewrite new_limbs_wsize, L. replace (s * Z.of_nat (fp_nb f * c)) with (Z.of_nat (fp_nb f) * fp_bits f) by nia. rewrite Z.div_mul by lia. apply Nat2Z.id. }
  destruct G as (ls & E & Fl & V & M). unfold to_element. rewrite E. cbn [obind]. rewrite flip_spec. exists (values (rev ls)).
  destruct (sizes_repeat _ _ _ M) as [Fsz Ll].
  apply (new_element_full p f); [exact Hf|unfold values; rewrite map_length, rev_length; exact Ll| |].
  - unfold values. apply Forall_map. apply Forall_rev. rewrite Forall_forall in *. intros w Hw. destruct (Fl w Hw) as [_ R]. rewrite (Fsz w Hw) in R. exact R.
  - unfold values. rewrite map_rev, limbs_val_rev by lia. fold (values ls). rewrite <- new_limbs_wval, new_limbs_values by (auto; lia). lia.
Qed.

(** the parameters of the repository's own use: BLS12-377's scalar field in four 64-bit limbs, over BN254 *)
Definition bls12377_fr : fparams := FParams 4 64 8444461749428370424248824938781546531375899335154063827935233455917409239041.
Lemma bls12377_fits : params_fit bn254 bls12377_fr.
Proof. unfold params_fit. split; [cbn; lia|]. split; [reflexivity|]. split; [vm_compute; discriminate|]. split; [vm_compute; reflexivity|]. vm_compute. split; [discriminate|reflexivity]. Qed.
(** 32 bytes *)
Definition ex_bytes : list Z := [16; 255; 3; 4; 5; 6; 7; 8; 9; 10; 11; 12; 13; 14; 15; 16; 17; 18; 19; 20; 21; 22; 23; 24; 25; 26; 27; 28; 29; 30; 31; 32].
Example C65_to_element_case : exists el, to_element bn254 split_hint bls12377_fr ex_bytes 8 = Some el /\ limbs_val 64 el = digits_val 8 ex_bytes.
Proof. eexists. split; [vm_compute; reflexivity|]. vm_compute; reflexivity. Qed.
(** The element need not be reduced: a string denoting a number between the modulus and the next power of two is accepted,
    so two different strings give the same field element. *)
Theorem C65_to_element_injective_refuted : exists a b ea eb, Forall (is_digit 8) a /\ Forall (is_digit 8) b /\ length a = 32%nat /\ length b = 32%nat /\ a <> b /\
  to_element bn254 split_hint bls12377_fr a 8 = Some ea /\ to_element bn254 split_hint bls12377_fr b 8 = Some eb /\
  limbs_val 64 ea mod fp_modulus bls12377_fr = limbs_val 64 eb mod fp_modulus bls12377_fr.
Proof.
  exists (repeat 0 31 ++ [5]).
  exists (map (fun i => (fp_modulus bls12377_fr + 5) / 2 ^ (8 * (31 - Z.of_nat i)) mod 256) (seq 0 32)).
  eexists. eexists.
  split; [apply Forall_forall; intros x Hx; apply in_app_or in Hx; destruct Hx as [Hx|[Hx|[]]]; [apply repeat_spec in Hx|]; subst; unfold is_digit; lia|].
  split; [apply Forall_forall; intros x Hx; apply in_map_iff in Hx; destruct Hx as (i & Q & _); subst; unfold is_digit; apply (Z.mod_pos_bound _ 256); lia|].
  split; [reflexivity|]. split; [reflexivity|]. split; [vm_compute; discriminate|]. split; [vm_compute; reflexivity|]. split; [vm_compute; reflexivity|]. vm_compute; reflexivity.
Qed.

(** FromElement, honest prover: the base-2^k digits, most significant first, of the integer the limbs denote. *)
Lemma flip_all {A} (d : A) l n : (0 < n)%nat -> length l = n -> flip_sub d l n = Some (rev l).
Proof. intros Hn L. rewrite (flip_sub_spec A d 1 n l) by lia. cbn [chunks flat_map]. rewrite firstn_all2 by lia. rewrite app_nil_r. reflexivity. Qed.
Theorem C65_from_element_honest : forall p f el k, 2 < p -> params_fit p f -> (2 <= fp_nb f)%nat -> length el = fp_nb f -> Forall (is_digit (fp_bits f)) el ->
  let total := Z.of_nat (fp_nb f) * fp_bits f in
  0 < k -> 2 ^ k <= p -> total mod k = 0 -> total <> Z.of_nat (field_bits p) ->
  exists out, from_element p split_hint f el k = Some out /\ Forall (is_digit k) out /\ Z.of_nat (length out) * k = total /\ digits_val k out = limbs_val (fp_bits f) el.
Proof.
  intros p f el k Hp (Hn & Hb & Hbp & _ & HL) Hn2 L F total Hk Hkp Hm Hne. unfold from_element.
  rewrite flip_all by (auto; unfold new_limbs; rewrite map_length; exact L). cbn [obind].
  unfold new_limbs. rewrite <- map_rev. fold (new_limbs (rev el) (fp_bits f)). assert (Fr : Forall (is_digit (fp_bits f)) (rev el)) by (apply Forall_rev; auto).
  assert (Tp : k <= total) by (destruct (Z_lt_le_dec total k); [rewrite Z.mod_small in Hm by (unfold total in *; nia); unfold total in *; nia|auto]).
  assert (Ew : wsize (new_limbs (rev el) (fp_bits f)) = total) by (rewrite new_limbs_wsize, rev_length, L; unfold total; lia).
  destruct (honest_shape p (new_limbs (rev el) (fp_bits f)) k Hp) as (ls & E & Fl & V & M).
  - apply new_limbs_range; auto.
  - apply Forall_forall. intros w Hw. apply in_map_iff in Hw. destruct Hw as (v & Q & _). subst w. exact Hbp.
  - unfold new_limbs. rewrite map_length, rev_length. lia.
  - lia.
  - exact Hkp.
  - rewrite Ew; exact Hm.
  - rewrite Ew; exact Hne.
  - rewrite Ew in M. rewrite E. cbn [obind]. exists (values ls). destruct (sizes_repeat _ _ _ M) as [Fsz Ll]. split; [reflexivity|]. split.
    { unfold values. apply Forall_map. rewrite Forall_forall in *. intros w Hw. destruct (Fl w Hw) as [_ R]. rewrite (Fsz w Hw) in R. exact R. }
    split. { unfold values. rewrite map_length, Ll, Z2Nat.id by (apply Z.div_pos; lia). pose proof (Z.div_mod total k ltac:(lia)). lia. }
    rewrite <- new_limbs_wval, new_limbs_values by (auto; lia). rewrite V, new_limbs_wval by lia. rewrite <- (rev_involutive el) at 2. rewrite limbs_val_rev by lia. reflexivity.
Qed.
(** ToElement and back is the identity on digit strings. *)
Theorem C65_round_trip : forall p f s c ds el, 2 < p -> params_fit p f -> (2 <= fp_nb f)%nat -> 0 < s -> s * Z.of_nat c = fp_bits f ->
  length ds = (fp_nb f * c)%nat -> Forall (is_digit s) ds -> Z.of_nat (fp_nb f) * fp_bits f <> Z.of_nat (field_bits p) ->
  to_element p split_hint f ds s = Some el -> from_element p split_hint f el s = Some ds.
Proof.
  intros p f s c ds el Hp Hf Hn2 Hs Hsc L F Ht H. destruct (C65_to_element_sound p split_hint f s c ds el Hp Hf Hs Hsc L F Ht H) as (Le & Fe & Ve & _).
  pose proof Hf as (Hn & Hb & Hbp & _ & HL). assert (Hc : (0 < c)%nat) by (destruct c; [cbn in Hsc; lia|lia]).
  destruct (C65_from_element_honest p f el s Hp Hf Hn2 Le Fe) as (out & E & Fo & Lo & Vo).
  - exact Hs.
  - apply Z.le_trans with (2 ^ fp_bits f); [apply Z.pow_le_mono_r; nia|lia].
  - rewrite <- Hsc. replace (Z.of_nat (fp_nb f) * (s * Z.of_nat c)) with (Z.of_nat (fp_nb f) * Z.of_nat c * s) by ring. apply Z_mod_mult.
  - exact Ht.
  - rewrite E. f_equal. apply digits_inj with s; auto; [nia|lia].
Qed.

(** FromElement, any prover.  The split bits are not constrained to be bits, so the digits are forced only if the caller
    range-checks them. *)
Lemma mg_block p k : 2 < p -> (0 < k)%nat -> forall n A, Forall (fun w => lsize w = 1) A -> length A = (n * k)%nat ->
  exists la, map lsize la = repeat (Z.of_nat k) n /\ wval la mod p = wval A mod p /\
    forall T fuel, merge_groups p (n + fuel) (A ++ T) k = let* lt := merge_groups p fuel T k in Some (la ++ lt).
Proof.
  intros Hp Hk. induction n as [|n IH]; intros A F L.
  - destruct A; [|cbn in L; lia]. exists []. split; [reflexivity|]. split; [reflexivity|]. intros T fuel. cbn [app Nat.add]. destruct (merge_groups p fuel T k); reflexivity.
  - pose proof F as F'. rewrite <- (firstn_skipn k A) in F'. apply Forall_app in F'. destruct F' as [F1 F2].
    assert (L1 : length (firstn k A) = k) by (rewrite firstn_length; lia). assert (L2 : length (skipn k A) = (n * k)%nat) by (rewrite skipn_length; lia).
    destruct (IH _ F2 L2) as (la & M & V & G). pose proof (firstn_skipn k A) as EA. set (B := firstn k A) in *. set (C := skipn k A) in *. clearbody B C. subst A.
    assert (SB : Forall (fun x => 0 <= lsize x) B) by (eapply Forall_impl; [|exact F1]; cbn; intros; lia).
    assert (SC : Forall (fun x => 0 <= lsize x) C) by (eapply Forall_impl; [|exact F2]; cbn; intros; lia).
    destruct (merge_ok p B) as (m & Em & Sm & Vm); [intros Q; rewrite Q in L1; cbn in L1; lia|exact SB|].
    exists (m :: la). split; [cbn [map repeat]; rewrite M, Sm, (wsize_ones B F1), L1; reflexivity|]. split.
    + cbn [wval]. rewrite wval_app by auto. assert (Es : wsize la = wsize C).
      { rewrite (wsize_ones C F2), L2. destruct (sizes_repeat _ _ _ M) as [Fz Lz]. rewrite <- Lz. clear - Fz. induction Fz as [|w l Hw Fz IHz]; cbn [wsize length]; [lia|]. rewrite IHz. lia. }
      rewrite Es. rewrite <- (Z.add_mod_idemp_r _ (wval la)), V, Z.add_mod_idemp_r by lia.
      rewrite <- (Z.add_mod_idemp_l (lval m * _)) by lia. rewrite <- Z.mul_mod_idemp_l, Vm, Z.mul_mod_idemp_l, Z.add_mod_idemp_l by lia. reflexivity.
    + intros T fuel. rewrite <- app_assoc. cbn [Nat.add].
      assert (Emg : merge_groups p (S (n + fuel)) (B ++ C ++ T) k = (guard (Nat.leb k (length (B ++ C ++ T))) ;; let* g := merge p (firstn k (B ++ C ++ T)) in let* r := merge_groups p (n + fuel) (skipn k (B ++ C ++ T)) k in Some (g :: r))).
      { destruct (B ++ C ++ T) eqn:E; [|reflexivity]. apply app_eq_nil in E. destruct E as [E _]. rewrite E in L1. cbn in L1. lia. }
      rewrite Emg, (proj2 (Nat.leb_le _ _)) by (rewrite app_length; lia). cbn [guard obind].
      rewrite firstn_app, skipn_app, L1, Nat.sub_diag, firstn_O, app_nil_r. cbn [skipn]. rewrite (firstn_all2 B), (skipn_all2 B) by lia. cbn [app].
      rewrite Em. cbn [obind]. rewrite G. destruct (merge_groups p fuel T k); reflexivity.
Qed.
Lemma parts_any p hint k c : 2 < p -> 0 < k -> (0 < c)%nat -> forall el bits fuel,
  omap (fun w => split p hint w 1 None) (new_limbs el (k * Z.of_nat c)) = Some bits -> (length el * c <= fuel)%nat ->
  exists ls, merge_groups p fuel (concat bits) (Z.to_nat k) = Some ls /\ map lsize ls = repeat k (length el * c) /\
    Forall2 (fun x ch => wval ch mod p = x mod p) el (chunks (length el) c ls).
Proof.
  intros Hp Hk Hc. induction el as [|x el IH]; intros bits fuel H Hf.
  - cbn in H. injection H as <-. exists []. destruct fuel; cbn; auto.
  - cbn [new_limbs map omap] in H. apply obind_Some in H. destruct H as (b & Eb & H). apply obind_Some in H. destruct H as (r & Er & H). injection H as <-.
    assert (Hkc : 0 < k * Z.of_nat c) by nia. destruct (split1_any p hint (Limb x (k * Z.of_nat c)) b Hp Hkc Eb) as (F1 & L1 & V1). cbn [lsize lval] in *.
    assert (Lb : length b = (c * Z.to_nat k)%nat) by nia.
    destruct (mg_block p (Z.to_nat k) Hp ltac:(lia) c b F1 Lb) as (la & M & V & G). rewrite Z2Nat.id in M by lia.
    cbn [length] in *. destruct (IH r (fuel - c)%nat Er ltac:(lia)) as (ls & El & Ml & Fl).
    exists (la ++ ls). cbn [concat]. replace fuel with (c + (fuel - c))%nat by lia. rewrite G, El. cbn [obind]. split; [reflexivity|].
    destruct (sizes_repeat _ _ _ M) as [_ Lla]. split; [rewrite map_app, M, Ml; cbn [Nat.mul]; rewrite repeat_app; reflexivity|].
    cbn [chunks]. rewrite firstn_app, skipn_app, Lla, Nat.sub_diag, firstn_O, app_nil_r. cbn [skipn]. rewrite (firstn_all2 la), (skipn_all2 la) by lia. cbn [app].
    constructor; [congruence|exact Fl].
Qed.
Theorem C65_from_element_forced : forall p hint f el k c out, 2 < p -> params_fit p f -> (2 <= fp_nb f)%nat -> length el = fp_nb f -> Forall (is_digit (fp_bits f)) el ->
  0 < k -> k * Z.of_nat c = fp_bits f -> Z.of_nat (fp_nb f) * fp_bits f <> Z.of_nat (field_bits p) ->
  from_element p hint f el k = Some out -> Forall (is_digit k) out ->
  length out = (fp_nb f * c)%nat /\ digits_val k out = limbs_val (fp_bits f) el.
Proof.
  intros p hint f el k c out Hp (Hn & Hb & Hbp & _ & HL) Hn2 L F Hk Hkc Hne H Fo. unfold from_element in H.
  rewrite flip_all in H by (auto; unfold new_limbs; rewrite map_length; exact L). cbn [obind] in H.
  unfold new_limbs in H. rewrite <- map_rev in H. fold (new_limbs (rev el) (fp_bits f)) in H. assert (Fr : Forall (is_digit (fp_bits f)) (rev el)) by (apply Forall_rev; auto).
  apply obind_Some in H. destruct H as (ls & Er & H). injection H as <-. assert (Hc : (0 < c)%nat) by (destruct c; [cbn in Hkc; lia|lia]).
  assert (Ev : limbs_val (fp_bits f) el = digits_val (fp_bits f) (rev el)) by (rewrite <- limbs_val_rev by lia; rewrite rev_involutive; reflexivity).
  rewrite Ev. clear Ev. rewrite <- (rev_length el) in L. set (re := rev el) in *. clearbody re. clear el F.
  destruct re as [|d [|d2 t]]; [cbn in L; lia|cbn in L; lia|]. set (re := d :: d2 :: t) in *.
  assert (E : resplit p hint (new_limbs re (fp_bits f)) k = if total_size (new_limbs re (fp_bits f)) <=? Z.of_nat (field_bits p) then
      let* m := merge p (new_limbs re (fp_bits f)) in split p hint m k None
    else guard (0 <? k) ;; let* bits := omap (fun w => split p hint w 1 None) (new_limbs re (fp_bits f)) in
      merge_groups p (length (concat bits)) (concat bits) (Z.to_nat k)) by reflexivity.
  rewrite E, total_size_ok, new_limbs_wsize in Er. clear E.
  destruct (Z.leb_spec (fp_bits f * Z.of_nat (length re)) (Z.of_nat (field_bits p))) as [Hs|Hs].
  - assert (Hpw : 2 ^ (fp_bits f * Z.of_nat (length re)) <= p) by (apply pow_le_field; nia).
    destruct (C23_merge_value p (new_limbs re (fp_bits f)) Hp (new_limbs_range re _ Hb Fr)) as (m & Em & Vm & Sm & Rm); [discriminate|rewrite new_limbs_wsize; exact Hpw|].
    rewrite Em in Er. cbn [obind] in Er. rewrite new_limbs_wsize in Sm. rewrite new_limbs_wval in Vm by lia.
    assert (Sz : lsize m = Z.of_nat (fp_nb f * c) * k) by nia. assert (Enb : lsize m / k = Z.of_nat (fp_nb f * c)) by (rewrite Sz; apply Z.div_mul; lia).
    destruct (split_sound p Hp hint m k None ls Hk) as (M & S & V); [cbn [nb_of]; rewrite Enb; lia|exact Er|]. cbn [nb_of] in M. rewrite Enb in M.
    assert (M' : map lsize ls = repeat k (fp_nb f * c)).
    { rewrite M. unfold plan. assert (Hg : 2 <= Z.of_nat (fp_nb f * c)) by (clear - Hn2 Hc; nia). assert (Hq : lsize m <> k) by (rewrite Sz; clear - Hg Hk; set (q := Z.of_nat (fp_nb f * c)) in *; clearbody q; nia).
      rewrite (proj2 (Z.eqb_neq _ _) Hq). rewrite Sz, Z.sub_diag. change (0 <? 0) with false. cbv iota. rewrite app_nil_r, Nat2Z.id. reflexivity. }
    destruct (sizes_repeat _ _ _ M') as [Fsz Ll]. split; [unfold values; rewrite map_length; exact Ll|].
    rewrite <- new_limbs_wval, new_limbs_values by (auto; lia).
    assert (Fi : Forall in_range ls) by (rewrite <- (new_limbs_values ls k Fsz); apply new_limbs_range; auto).
    pose proof (wval_range ls Fi) as R. destruct Rm as [_ Rm]. rewrite S, Sm in R. rewrite Sm in Rm. rewrite !Z.mod_small in V by lia. lia.
  - rewrite (proj2 (Z.ltb_lt 0 _)) in Er by lia. cbn [guard obind] in Er. apply obind_Some in Er. destruct Er as (bits & Eb & Em).
    destruct (bits_any p hint (fp_bits f) Hp Hb _ _ Eb) as (_ & Lb & _). rewrite <- Hkc in Eb.
    destruct (parts_any p hint k c Hp Hk Hc re bits (length (concat bits)) Eb) as (ls' & E' & M & V); [nia|].
    rewrite Em in E'. injection E' as <-. destruct (sizes_repeat _ _ _ M) as [Fsz Ll]. split; [unfold values; rewrite map_length, Ll, L; reflexivity|].
    rewrite <- (digits_chunks k c (length re)) by (auto; unfold values; rewrite map_length; exact Ll). rewrite Hkc. f_equal.
    assert (Ech : map (digits_val k) (chunks (length re) c (values ls)) = map wval (chunks (length re) c ls)).
    { clear - Fsz Hk. generalize (length re) as n. intros n. revert ls Fsz. induction n as [|n IH]; intros ls Fsz; [reflexivity|].
      pose proof Fsz as F'. rewrite <- (firstn_skipn c ls) in F'. apply Forall_app in F'. destruct F' as [F1 F2]. cbn [chunks map]. f_equal.
      - unfold values. rewrite firstn_map. rewrite <- (new_limbs_values _ _ F1) at 2. symmetry. apply new_limbs_wval. lia.
      - unfold values. rewrite skipn_map. apply IH. exact F2. }
    rewrite Ech. assert (Fd : Forall (fun x => 0 <= x < 2 ^ fp_bits f) (map wval (chunks (length re) c ls))).
    { rewrite <- Ech. rewrite <- Hkc. apply chunk_digit; auto. unfold values. rewrite map_length. exact Ll. }
    clear - V Fd Fr Hbp. revert Fd Fr. induction V as [|x ch l cl E V IH]; intros Fd Fr; [reflexivity|].
    cbn [map] in *. inversion Fd as [|? ? R1 Fd']; subst. inversion Fr as [|? ? R2 Fr']; subst. unfold is_digit in R2. f_equal; [|apply IH; auto].
    rewrite !Z.mod_small in E by lia. exact E.
Qed.
(** Without those checks they are not: a prover can put the whole limb into its last digit. *)
Theorem C65_from_element_forced_refuted : exists hint el out honest, Forall (is_digit 64) el /\ length el = 4%nat /\
  from_element bn254 hint bls12377_fr el 8 = Some out /\ from_element bn254 split_hint bls12377_fr el 8 = Some honest /\
  out <> honest /\ ~ Forall (is_digit 8) out /\ Forall (is_digit 8) honest.
Proof.
  exists (fun v size _ _ => repeat 0 (Z.to_nat size - 1) ++ [v]), [256; 1; 2; 3]. eexists. eexists.
  split; [repeat (apply Forall_cons; [split; [lia|reflexivity]|]); constructor|]. split; [reflexivity|]. split; [vm_compute; reflexivity|]. split; [vm_compute; reflexivity|].
  split; [discriminate|]. split.
  - intros F. rewrite Forall_forall in F. specialize (F 256). unfold is_digit in F. assert (0 <= 256 < 2 ^ 8) by (apply F; vm_compute; tauto). lia.
  - repeat (apply Forall_cons; [split; [lia|reflexivity]|]); constructor.
Qed.

(** ToElements: no hint at all.  If the digits fill m elements exactly, the call succeeds iff each group of digits denotes a
    number of at most the bit length of the modulus, and then the m elements denote these numbers, in order. *)
Lemma chunks_nth_range {A} c n : forall (l : list A), length l = (n * c)%nat -> chunks n c l = map (fun i => firstn c (skipn (i * c) l)) (seq 0 n).
Proof.
  induction n as [|n IH]; intros l L; [reflexivity|]. cbn [chunks seq map]. f_equal.
  rewrite <- seq_shift, map_map, IH by (rewrite skipn_length; lia). apply map_ext. intros i. f_equal. cbn [Nat.mul]. clear. revert l. generalize (i * c)%nat as j. intros j.
  induction c as [|c IHc]; intros l; [reflexivity|]. destruct l as [|x l]; [rewrite !skipn_nil; reflexivity|]. cbn [Nat.add skipn]. apply IHc.
Qed.
Lemma Forall_fn {A} (P : A -> Prop) n l : Forall P l -> Forall P (firstn n l).
Proof. intros F. rewrite <- (firstn_skipn n l) in F. apply Forall_app in F. tauto. Qed.
Lemma Forall_sn {A} (P : A -> Prop) n l : Forall P l -> Forall P (skipn n l).
Proof. intros F. rewrite <- (firstn_skipn n l) in F. apply Forall_app in F. tauto. Qed.
Lemma chunks_map {A B} (g : A -> B) n c l : chunks n c (map g l) = map (map g) (chunks n c l).
Proof. revert l. induction n as [|n IH]; intros l; [reflexivity|]. cbn [chunks map]. rewrite firstn_map, skipn_map, IH. reflexivity. Qed.
Lemma chunks_chunks {A} m n c : forall (l : list A), length l = (m * (n * c))%nat -> chunks m n (chunks (m * n) c l) = map (chunks n c) (chunks m (n * c) l).
Proof.
  induction m as [|m IH]; intros l L; [reflexivity|]. cbn [Nat.mul chunks map]. rewrite <- (firstn_skipn (n * c) l) at 1 2.
  rewrite chunks_app by (rewrite firstn_length; lia). rewrite firstn_app, skipn_app, chunks_length, Nat.sub_diag, firstn_O, app_nil_r. cbn [skipn].
  rewrite (firstn_all2 (chunks n c _)), (skipn_all2 (chunks n c _)) by (rewrite chunks_length; lia). cbn [app]. rewrite IH by (rewrite skipn_length; lia). reflexivity.
Qed.
Lemma chunks_rev_flat {A} m n : forall (l : list A), length l = (m * n)%nat -> chunks m n (flat_map (@rev A) (chunks m n l)) = map (@rev A) (chunks m n l).
Proof.
  induction m as [|m IH]; intros l L; [reflexivity|]. cbn [chunks flat_map map]. assert (Lr : length (rev (firstn n l)) = n) by (rewrite rev_length, firstn_length; lia).
  rewrite firstn_app, skipn_app, Lr, Nat.sub_diag, firstn_O, app_nil_r. cbn [skipn]. rewrite (firstn_all2 (rev _)), (skipn_all2 (rev _)) by lia. cbn [app].
  rewrite IH by (rewrite skipn_length; lia). reflexivity.
Qed.
Lemma flat_rev_length {A} m n : forall (l : list A), length l = (m * n)%nat -> length (flat_map (@rev A) (chunks m n l)) = (m * n)%nat.
Proof. induction m as [|m IH]; intros l L; [reflexivity|]. cbn [chunks flat_map]. rewrite app_length, rev_length, firstn_length, IH by (rewrite skipn_length; lia). lia. Qed.
Lemma omap_iff {A B} (g : A -> option B) : forall l r, omap g l = Some r <-> Forall2 (fun x y => g x = Some y) l r.
Proof.
  induction l as [|x l IH]; intros r; cbn [omap].
  - split; intros H; [injection H as <-; constructor|inversion H; reflexivity].
  - split; intros H.
    + apply obind_Some in H. destruct H as (y & E & H). apply obind_Some in H. destruct H as (t & Et & H). injection H as <-. constructor; [exact E|]. apply IH. exact Et.
    + inversion H as [|? y ? t E F]; subst. rewrite E. cbn [obind]. rewrite (proj2 (IH t) F). reflexivity.
Qed.
Theorem C65_to_elements_exact : forall p f s c m ds els, 2 < p -> params_fit p f -> 0 < s -> s * Z.of_nat c = fp_bits f ->
  length ds = (m * (fp_nb f * c))%nat -> Forall (is_digit s) ds ->
  (to_elements p f ds s = Some els <->
   Forall2 (fun ch el => length el = fp_nb f /\ Forall (is_digit (fp_bits f)) el /\ limbs_val (fp_bits f) el = digits_val s ch /\
                         digits_val s ch < 2 ^ (Z.log2 (fp_modulus f) + 1)) (chunks m (fp_nb f * c) ds) els).
Proof.
  intros p f s c m ds els Hp Hf Hs Hsc L F. pose proof Hf as (Hn & Hb & Hbp & _ & HL). assert (Hc : (0 < c)%nat) by (destruct c; [cbn in Hsc; lia|lia]).
  unfold to_elements. set (n := fp_nb f) in *. rewrite (proj2 (Z.ltb_lt 0 s) Hs). cbn [guard obind].
  assert (Ec : Z.to_nat (fp_bits f / s) = c) by (rewrite <- Hsc, Z.mul_comm, Z.div_mul by lia; apply Nat2Z.id). rewrite Ec.
  assert (En : Z.to_nat (Z.of_nat (length ds) * s / fp_bits f) = (m * n)%nat).
  { rewrite L. replace (Z.of_nat (m * (n * c)) * s) with (Z.of_nat (m * n) * fp_bits f) by nia. rewrite Z.div_mul by lia. apply Nat2Z.id. }
  rewrite En. assert (L' : length ds = (m * n * c)%nat) by lia.
  assert (Eo : omap (fun i => let* w := merge p (firstn c (skipn (i * c) (new_limbs ds s))) in Some (lval w)) (seq 0 (m * n)) = Some (map (digits_val s) (chunks (m * n) c ds))).
  { rewrite (chunks_nth_range c (m * n) ds L'), map_map. apply omap_total. intros i Hi. apply in_seq in Hi. unfold new_limbs. rewrite skipn_map, firstn_map. set (ch := firstn c (skipn (i * c) ds)).
    assert (Lc : length ch = c) by (unfold ch; rewrite firstn_length, skipn_length; assert (S i * c <= m * n * c)%nat by (apply Nat.mul_le_mono_r; lia); cbn [Nat.mul] in *; lia).
    assert (Fc : Forall (is_digit s) ch) by (unfold ch; apply Forall_fn, Forall_sn; exact F). fold (new_limbs ch s).
    destruct (C23_merge_value p (new_limbs ch s) Hp (new_limbs_range ch s Hs Fc)) as (w & Ew & Vw & _); [destruct ch; [cbn in Lc; lia|discriminate]|rewrite new_limbs_wsize, Lc, Hsc; exact Hbp|].
    rewrite Ew. cbn [obind]. rewrite Vw, new_limbs_wval by lia. reflexivity. }
  rewrite Eo. cbn [obind]. set (V := map (digits_val s) (chunks (m * n) c ds)). assert (LV : length V = (m * n)%nat) by (unfold V; rewrite map_length; apply chunks_length).
  rewrite (flip_sub_spec Z 0 m n V) by lia. cbn [obind]. rewrite flat_rev_length by exact LV. rewrite Nat.div_mul by lia. rewrite chunks_rev_flat by exact LV.
  unfold V. rewrite chunks_map, chunks_chunks by exact L. rewrite !map_map. rewrite omap_map, omap_iff.
  assert (FF : Forall (fun ch => length ch = (n * c)%nat /\ Forall (is_digit s) ch) (chunks m (n * c) ds)).
  { clear - L F. revert ds L F. induction m as [|m IH]; intros ds L F; [constructor|]. cbn [chunks]. constructor; [split; [rewrite firstn_length; lia|apply Forall_fn; auto]|]. apply IH; [rewrite skipn_length; lia|apply Forall_sn; auto]. }
  assert (G : forall ch el, length ch = (n * c)%nat -> Forall (is_digit s) ch ->
     (new_element f (rev (map (digits_val s) (chunks n c ch))) = Some el <->
      length el = n /\ Forall (is_digit (fp_bits f)) el /\ limbs_val (fp_bits f) el = digits_val s ch /\ digits_val s ch < 2 ^ (Z.log2 (fp_modulus f) + 1))).
  { intros ch el Lch Fch. set (r := rev (map (digits_val s) (chunks n c ch))).
    assert (Lr : length r = n) by (unfold r; rewrite rev_length, map_length; apply chunks_length).
    assert (Fr : Forall (is_digit (fp_bits f)) r) by (unfold r; apply Forall_rev; rewrite <- Hsc; apply chunk_digit; auto).
    assert (Vr : limbs_val (fp_bits f) r = digits_val s ch) by (unfold r; rewrite limbs_val_rev by lia; rewrite <- Hsc; apply digits_chunks; auto).
    pose proof (new_element_full p f r Hf Lr Fr) as Q. rewrite Vr in Q. split.
    - intros H. assert (el = r) by (apply new_element_ok in H; tauto). subst el. rewrite Vr. tauto.
    - intros (Le & Fe & Ve & B). assert (el = r) by (apply (limbs_inj (fp_bits f)); auto; congruence). subst el. tauto. }
  clear - FF G. revert els. induction FF as [|ch l [Lc Fc] FF IH]; intros els.
  - split; intros H; inversion H; constructor.
  - split; intros H; inversion H as [|? y ? t E F2]; subst; constructor; [apply G; auto|apply IH; auto|apply G; auto|apply IH; auto].
Qed.

(** two elements of 32 bytes each *)
Example C65_to_elements_case : exists a b, to_elements bn254 bls12377_fr (ex_bytes ++ rev ex_bytes) 8 = None /\ to_elements bn254 bls12377_fr (ex_bytes ++ ex_bytes) 8 = Some [a; b] /\ limbs_val 64 a = digits_val 8 ex_bytes.
Proof. eexists. eexists. split; [vm_compute; reflexivity|]. split; [vm_compute; reflexivity|]. vm_compute; reflexivity. Qed.
(** Digits beyond a whole number of limbs are silently ignored. *)
Theorem C65_to_elements_tail_refuted : exists a b el, a <> b /\ Forall (is_digit 8) a /\ Forall (is_digit 8) b /\ to_elements bn254 bls12377_fr a 8 = Some [el] /\ to_elements bn254 bls12377_fr b 8 = Some [el].
Proof.
  exists (ex_bytes ++ [1]), (ex_bytes ++ [2]). eexists. split; [discriminate|].
  split; [repeat (apply Forall_cons; [split; [lia|reflexivity]|]); constructor|]. split; [repeat (apply Forall_cons; [split; [lia|reflexivity]|]); constructor|].
  split; vm_compute; reflexivity.
Qed.
(** If the digit size does not divide the limb size the element does not denote the number: 48-bit digits are taken as
    64-bit limbs, and the last digits are dropped. *)
Theorem C65_to_elements_radix_refuted : exists ds el, Forall (is_digit 48) ds /\ to_elements bn254 bls12377_fr ds 48 = Some [el] /\ limbs_val 64 el <> digits_val 48 ds.
Proof.
  exists [0; 1; 2; 3; 4; 5]. eexists. split; [repeat (apply Forall_cons; [split; [lia|reflexivity]|]); constructor|].
  split; [vm_compute; reflexivity|]. vm_compute. discriminate.
Qed.
