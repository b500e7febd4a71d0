(** * ShaStream.v — the streaming interface (Write, Sum, Reset) computes FIPS 180-4 of the bytes written since the last Reset *)
From Coq Require Import ZArith List Bool Arith Lia.
From Verif Require Import Field FieldLemmas KeccakModel KeccakWords ShaModel ShaSpec ShaWords ShaBlock.
Import ListNotations.
Open Scope Z_scope.
Open Scope circ_scope.

Lemma bb_app a b : bb (a ++ b) = bb a ++ bb b. Proof. apply map_app. Qed.
Lemma bb_length a : length (bb a) = length a. Proof. apply map_length. Qed.
Lemma bb_firstn n a : firstn n (bb a) = bb (firstn n a). Proof. apply firstn_map. Qed.
Lemma bb_skipn n a : skipn n (bb a) = bb (skipn n a). Proof. apply skipn_map. Qed.
Lemma Forall_firstn' {A} (P : A -> Prop) n l : Forall P l -> Forall P (firstn n l).
Proof. intros H. apply Forall_forall. intros x Hx. rewrite Forall_forall in H. apply H. rewrite <- (firstn_skipn n l). apply in_or_app. auto. Qed.
Lemma Forall_skipn' {A} (P : A -> Prop) n l : Forall P l -> Forall P (skipn n l).
Proof. intros H. apply Forall_forall. intros x Hx. rewrite Forall_forall in H. apply H. rewrite <- (firstn_skipn n l). apply in_or_app. auto. Qed.
Lemma mod0_add a b n : (n <> 0 -> a mod n = 0 -> b mod n = 0 -> (a + b) mod n = 0)%nat.
Proof. intros Hn Ha Hb. rewrite Nat.add_mod, Ha, Hb by auto. apply Nat.mod_0_l. auto. Qed.

Section P.
Variable p : Z.
Hypothesis Hp : 2 ^ 70 < p.
Let Hp2 : 2 < p. Proof. assert (2 < 2 ^ 70) by reflexivity. lia. Qed.
Variable c : sha_code.
Variable s : sha2.
Hypothesis Hag : agree c s.
Notation W := (cW c).
Notation C := (cChunk c).
Notation B := (B c).
Notation word := (word c).
Notation absorb := (absorb c s).

Let Cpos : (0 < C)%nat. Proof. apply (chunk_pos c s Hag). Qed.

Lemma H0_ok : length (H0 s) = 8%nat /\ Forall word (H0 s).
Proof.
  unfold H0. split; [reflexivity|]. apply Forall_forall. intros x Hx. apply in_map_iff in Hx. destruct Hx as [q [<- _]].
  unfold sqrt_frac. rewrite (two_w c s Hag). apply word_mod.
Qed.
(** whole blocks m0 absorbed, then r pending in the first |r| entries of x *)
Definition mid (h x : list (list Z)) (nx : nat) (m0 r : list Z) : Prop :=
  (length m0 mod C = 0)%nat /\ (length r < C)%nat /\ Forall byte8 m0 /\ Forall byte8 r /\
  h = map B (absorb (H0 s) m0) /\ nx = length r /\ firstn nx x = bb r /\ length x = C.
Lemma absorb_init m0 : Forall byte8 m0 -> (length m0 mod C = 0)%nat -> length (absorb (H0 s) m0) = 8%nat /\ Forall word (absorb (H0 s) m0).
Proof.
  intros F M. destruct H0_ok as [L8 F8]. destruct (absorb_words p Hp c s Hag (H0 s) m0 L8 F8 F M) as (_ & L & Fw). auto.
Qed.
Lemma absorb_more m0 l : Forall byte8 m0 -> (length m0 mod C = 0)%nat -> Forall byte8 l -> (length l mod C = 0)%nat ->
  block_generic p c (map B (absorb (H0 s) m0)) (bb l) = Some (map B (absorb (H0 s) (m0 ++ l))).
Proof.
  intros F M Fl Ml. destruct (absorb_init m0 F M) as [L8 F8]. destruct (absorb_words p Hp c s Hag _ l L8 F8 Fl Ml) as (E & _).
  rewrite E, (absorb_app p Hp c s Hag) by auto. reflexivity.
Qed.
Definition repr (d : digest) (m : list Z) : Prop :=
  exists m0 r, m = m0 ++ r /\ mid (dh d) (dx d) (dnx d) m0 r /\ dlen d = Z.of_nat (length m) mod 2 ^ 64.

Lemma write_ok d m l : repr d m -> Forall byte8 l -> exists d', write p c d (bb l) = Some d' /\ repr d' (m ++ l).
Proof.
  intros (m0 & r & -> & (M0 & Lr & F0 & Fr & Eh & En & Ex & Lx) & El) Fl.
  unfold write. set (len' := (dlen d + Z.of_nat (length (bb l))) mod 2 ^ 64).
  assert (Elen : len' = Z.of_nat (length ((m0 ++ r) ++ l)) mod 2 ^ 64).
  { unfold len'. rewrite El, bb_length, (app_length (m0 ++ r)), Nat2Z.inj_add. apply Zplus_mod_idemp_l. }
  clearbody len'.
  (* phase 1 *)
  match goal with |- exists d', obind ?e _ = _ /\ _ =>
    assert (P1 : exists h1 x1 nx1 m1 r1 l1, e = Some (h1, x1, nx1, bb l1) /\ mid h1 x1 nx1 m1 r1 /\ Forall byte8 l1 /\
                 (m0 ++ r) ++ l = m1 ++ r1 ++ l1 /\ (r1 = [] \/ l1 = [])) end.
  { destruct (Nat.ltb_spec 0 (dnx d)) as [Hn|Hn].
    - rewrite bb_length. rewrite En in *. set (n := Nat.min (C - length r) (length l)).
      rewrite bb_firstn, bb_skipn, Ex.
      assert (Ln : length (firstn n l) = n) by (rewrite firstn_length; lia).
      destruct (Nat.eqb_spec (length r + n) C) as [Hc|Hc].
      + rewrite (skipn_all2 (dx d)) by lia. rewrite app_nil_r, <- bb_app.
        assert (Mr : (length (r ++ firstn n l) mod C = 0)%nat) by (rewrite app_length, Ln, Hc; apply Nat.mod_same; lia).
        assert (Frn : Forall byte8 (r ++ firstn n l)) by (apply Forall_app; auto using Forall_firstn').
        rewrite Eh, absorb_more by auto. cbn [obind].
        exists (map B (absorb (H0 s) (m0 ++ r ++ firstn n l))), (bb (r ++ firstn n l)), 0%nat, (m0 ++ r ++ firstn n l), [], (skipn n l).
        split; [reflexivity|]. split; [|split; [auto using Forall_skipn'|split; [|auto]]].
        * split; [rewrite app_length; apply mod0_add; auto; lia|]. split; [cbn; lia|]. split; [apply Forall_app; auto|]. split; [constructor|].
          split; [reflexivity|]. split; [reflexivity|]. split; [reflexivity|]. rewrite bb_length, app_length, Ln. exact Hc.
        * cbn [app]. rewrite <- !app_assoc. rewrite firstn_skipn. reflexivity.
      + assert (n = length l) by lia. assert (Hsk : skipn n l = []) by (apply skipn_all2; lia). rewrite Hsk.
        assert (Hfn : firstn n l = l) by (apply firstn_all2; lia). rewrite Hfn.
        eexists _, _, _, m0, (r ++ l), []. split; [reflexivity|]. split; [|split; [constructor|split; [rewrite app_nil_r, app_assoc; reflexivity|auto]]].
        split; [auto|]. split; [rewrite app_length; lia|]. split; [auto|]. split; [apply Forall_app; auto|]. split; [auto|].
        split; [rewrite app_length; lia|]. split.
        * rewrite app_assoc, <- bb_app. rewrite firstn_app.
          replace (length r + n - length (bb (r ++ l)))%nat with 0%nat by (rewrite bb_length, app_length; lia).
          rewrite firstn_O, app_nil_r. apply firstn_all2. rewrite bb_length, app_length. lia.
        * rewrite !app_length, !bb_length, skipn_length. lia.
    - exists (dh d), (dx d), (dnx d), m0, r, l. split; [reflexivity|]. split; [|split; [auto|split; [rewrite app_assoc; reflexivity|]]].
      + unfold mid. repeat (split; [assumption|]). assumption.
      + left. destruct r; [reflexivity|]. cbn in En. lia. }
  destruct P1 as (h1 & x1 & nx1 & m1 & r1 & l1 & E1 & (M1 & Lr1 & Fm1 & Fr1 & Eh1 & En1 & Ex1 & Lx1) & Fl1 & Em & Hd). rewrite E1. cbn [obind]. clear E1.
  rewrite bb_length. rewrite Em. rewrite Em in Elen. clear Em.
  destruct (Nat.leb_spec C (length l1)) as [Hc|Hc].
  - destruct Hd as [-> | ->]; [|cbn in Hc; lia]. cbn [length] in *. subst nx1.
    set (n := (length l1 - length l1 mod C)%nat).
    pose proof (Nat.div_mod (length l1) C ltac:(lia)) as Hdm. pose proof (Nat.mod_upper_bound (length l1) C ltac:(lia)) as Hub.
    assert (Hn : (n = length l1 / C * C)%nat) by (unfold n; lia).
    assert (Ln : length (firstn n l1) = n) by (rewrite firstn_length; lia).
    rewrite bb_firstn, bb_skipn, Eh1, absorb_more; auto using Forall_firstn'.
    2:{ rewrite Ln, Hn. apply Nat.mod_mul. lia. }
    cbn [obind]. rewrite bb_length.
    assert (Lsk : (length (skipn n l1) < C)%nat) by (rewrite skipn_length; lia).
    assert (Mm : (length (m1 ++ firstn n l1) mod C = 0)%nat).
    { rewrite app_length, Ln. apply mod0_add; auto; [lia|]. rewrite Hn. apply Nat.mod_mul. lia. }
    destruct (Nat.ltb_spec 0 (length (skipn n l1))) as [Hk|Hk].
    + rewrite Nat.min_r by lia. eexists. split; [reflexivity|]. exists (m1 ++ firstn n l1), (skipn n l1). cbn [dh dx dnx dlen app].
      split; [rewrite <- app_assoc, firstn_skipn; reflexivity|]. split; [|exact Elen].
      split; [exact Mm|]. split; [auto|]. split; [apply Forall_app; auto using Forall_firstn'|]. split; [auto using Forall_skipn'|]. split; [reflexivity|].
      split; [reflexivity|]. rewrite (firstn_all2 (bb (skipn n l1))) by (rewrite bb_length; lia). split.
      * rewrite firstn_app. replace (length (skipn n l1) - length (bb (skipn n l1)))%nat with 0%nat by (rewrite bb_length; lia).
        rewrite firstn_O, app_nil_r. apply firstn_all2. rewrite bb_length. lia.
      * rewrite app_length, bb_length, !skipn_length. lia.
    + eexists. split; [reflexivity|]. exists (m1 ++ firstn n l1), []. cbn [dh dx dnx dlen app].
      assert (Hsk : skipn n l1 = []) by (destruct (skipn n l1); [reflexivity|cbn in Hk; lia]).
      split; [rewrite app_nil_r; rewrite <- (firstn_skipn n l1) at 1; rewrite Hsk, app_nil_r; reflexivity|]. split; [|exact Elen].
      split; [exact Mm|]. split; [auto|]. split; [apply Forall_app; auto using Forall_firstn'|]. split; [constructor|]. split; [reflexivity|].
      split; [reflexivity|]. split; [reflexivity|]. auto.
  - cbn [obind]. rewrite bb_length. destruct (Nat.ltb_spec 0 (length l1)) as [Hk|Hk].
    + destruct Hd as [-> | ->]; [|cbn in Hk; lia]. cbn [length] in *.
      rewrite Nat.min_r by lia. eexists. split; [reflexivity|]. exists m1, l1. cbn [dh dx dnx dlen app].
      split; [reflexivity|]. split; [|exact Elen].
      split; [exact M1|]. split; [auto|]. split; [auto|]. split; [auto|]. split; [auto|].
      split; [reflexivity|]. rewrite (firstn_all2 (bb l1)) by (rewrite bb_length; lia). split.
      * rewrite firstn_app. replace (length l1 - length (bb l1))%nat with 0%nat by (rewrite bb_length; lia).
        rewrite firstn_O, app_nil_r. apply firstn_all2. rewrite bb_length. lia.
      * rewrite app_length, bb_length, skipn_length. lia.
    + assert (l1 = []) by (destruct l1; [reflexivity|cbn in Hk; lia]). subst l1.
      eexists. split; [reflexivity|]. exists m1, r1. cbn [dh dx dnx dlen app]. rewrite app_nil_r.
      split; [reflexivity|]. split; [|rewrite app_nil_r in Elen; exact Elen].
      unfold mid. repeat (split; [assumption|]). assumption.
Qed.

Lemma repr_bytes d m : repr d m -> Forall byte8 m.
Proof. intros (m0 & r & -> & (_ & _ & F0 & Fr & _) & _). apply Forall_app. auto. Qed.
Lemma reset_ok d m : repr d m -> repr (reset c d) [].
Proof.
  intros (m0 & r & _ & (_ & _ & _ & _ & _ & _ & _ & Lx) & _). exists [], []. split; [reflexivity|]. split; [|reflexivity].
  unfold reset. cbn [dh dx dnx dlen]. split; [apply Nat.mod_0_l; lia|]. split; [auto|]. split; [constructor|]. split; [constructor|].
  split; [|split; [reflexivity|split; [reflexivity|exact Lx]]].
  rewrite (absorb_short c s) by auto. rewrite (ag_init c s Hag). apply map_ext. intros a. apply const_word_ok.
Qed.
Lemma new_ok : repr (new c) [].
Proof.
  unfold new, reset. exists [], []. split; [reflexivity|]. split; [|reflexivity].
  cbn [dh dx dnx dlen]. split; [apply Nat.mod_0_l; lia|]. split; [auto|]. split; [constructor|]. split; [constructor|].
  split; [|split; [reflexivity|split; [reflexivity|apply repeat_length]]].
  rewrite (absorb_short c s) by auto. rewrite (ag_init c s Hag). apply map_ext. intros a. apply const_word_ok.
Qed.

(** padding *)
Lemma be_bytes_high k n x : 0 <= x < 256 ^ Z.of_nat n -> be_bytes (k + n) x = repeat 0 k ++ be_bytes n x.
Proof.
  intros Hx. unfold be_bytes. rewrite seq_app, map_app. apply f_equal2.
  - apply nth_ext' with (d := 0); [rewrite map_length, seq_length, repeat_length; auto|]. rewrite map_length, seq_length. intros i Hi.
    rewrite nth_map_seq by auto. rewrite nth_repeat. rewrite Z.div_small; [reflexivity|]. split; [lia|]. apply Z.lt_le_trans with (256 ^ Z.of_nat n); [lia|].
    change 256 with (2 ^ 8). rewrite <- Z.pow_mul_r by lia. apply Z.pow_le_mono_r; lia.
  - apply nth_ext' with (d := 0); [rewrite !map_length, !seq_length; auto|]. rewrite map_length, seq_length. intros i Hi.
    rewrite !nth_map_seq by auto. do 4 f_equal. lia.
Qed.
Lemma bb_repeat n : bb (repeat 0 n) = repeat (const_word 8 0) n.
Proof. rewrite const_word_ok. induction n; [reflexivity|]. cbn [repeat bb map]. unfold bb in IHn. rewrite IHn. reflexivity. Qed.
Lemma bits8_mod x : bits_le 8 (x mod 256) = bits_le 8 x.
Proof. rewrite !zbits_word. apply map_ext_in. intros i Hi. apply in_seq in Hi. f_equal. change 256 with (2 ^ 8). apply Z.mod_pow2_bits_low. lia. Qed.
Lemma bb_be_bytes n x : bb (be_bytes n x) = map (fun k => bits_le 8 (Z.shiftr x (8 * Z.of_nat (n - 1 - k)))) (seq 0 n).
Proof. unfold bb, be_bytes. rewrite map_map. apply map_ext. intros k. rewrite bits8_mod, Z.shiftr_div_pow2 by lia. reflexivity. Qed.
Lemma be_bytes_byte n x : Forall byte8 (be_bytes n x).
Proof. apply Forall_forall. intros y Hy. apply in_map_iff in Hy. destruct Hy as [i [<- _]]. apply Z.mod_pos_bound. lia. Qed.
Lemma be_bytes_length n x : length (be_bytes n x) = n. Proof. unfold be_bytes. rewrite map_length, seq_length. reflexivity. Qed.

Lemma check_sum_ok d m : repr d m -> Z.of_nat (length m) < 2 ^ 61 -> check_sum p c d = Some (sha s m).
Proof.
  intros R Hm. pose proof (repr_bytes d m R) as Fm. destruct R as (m0 & r & Em & M & El). pose proof M as (M0 & Lr & F0 & Fr & Eh & En & Ex & Lx).
  assert (P61 : 2 ^ 61 * 8 = 2 ^ 64) by reflexivity.
  rewrite Z.mod_small in El by lia.
  assert (R : repr d m). { exists m0, r. rewrite Z.mod_small by lia. auto. }
  pose proof (ag_len c s Hag) as Hlen. pose proof (ag_len8 c s Hag) as Hlen8. pose proof (ag_lenp c s Hag) as Hlenp.
  unfold check_sum. rewrite El.
  assert (Hr : Z.to_nat (Z.of_nat (length m) mod Z.of_nat C) = length r).
  { rewrite <- Nat2Z.inj_mod, Nat2Z.id. rewrite Em, app_length. rewrite Nat.add_mod, M0, Nat.add_0_l, Nat.mod_mod by lia. apply Nat.mod_small. auto. }
  rewrite Hr. set (n := if Nat.ltb (length r) (cLenPos c) then (cLenPos c - length r)%nat else (C + cLenPos c - length r)%nat).
  set (z := ((C - (length m + 1 + sp_lenbytes s) mod C) mod C)%nat).
  assert (Hz : n = S z /\ (z < C)%nat /\ ((length m + S z + sp_lenbytes s) mod C = 0)%nat).
  { pose proof (Nat.mod_upper_bound (C - (length m + 1 + sp_lenbytes s) mod C) C ltac:(lia)) as Hub. fold z in Hub.
    pose proof (Nat.div_mod (length m) C ltac:(lia)) as Dm.
    assert (Hmr : (length m mod C = length r)%nat).
    { rewrite Em, app_length. rewrite Nat.add_mod, M0, Nat.add_0_l, Nat.mod_mod by lia. apply Nat.mod_small. auto. }
    rewrite Hmr in Dm. set (q := (length m / C)%nat) in *.
    assert (Hx : ((length m + 1 + sp_lenbytes s) mod C = (length r + 1 + sp_lenbytes s) mod C)%nat).
    { replace (length m + 1 + sp_lenbytes s)%nat with ((length r + 1 + sp_lenbytes s) + q * C)%nat by lia. apply Nat.mod_add. lia. }
    unfold n. destruct (Nat.ltb_spec (length r) (cLenPos c)) as [Hlt|Hge].
    - assert (Hzv : z = (cLenPos c - length r - 1)%nat).
      { unfold z. rewrite Hx. destruct (Nat.eq_dec (length r + 1 + sp_lenbytes s) C) as [E|E].
        - rewrite E, Nat.mod_same, Nat.sub_0_r, Nat.mod_same by lia. lia.
        - rewrite (Nat.mod_small (length r + 1 + sp_lenbytes s)) by lia. rewrite Nat.mod_small by lia. lia. }
      split; [lia|]. split; [lia|]. replace (length m + S z + sp_lenbytes s)%nat with ((q + 1) * C)%nat by lia. apply Nat.mod_mul. lia.
    - assert (Hzv : z = (C + cLenPos c - length r - 1)%nat).
      { unfold z. rewrite Hx.
        assert (E2 : ((length r + 1 + sp_lenbytes s) mod C = length r + 1 + sp_lenbytes s - C)%nat).
        { replace (length r + 1 + sp_lenbytes s)%nat with ((length r + 1 + sp_lenbytes s - C) + 1 * C)%nat at 1 by lia.
          rewrite Nat.mod_add by lia. apply Nat.mod_small. lia. }
        rewrite E2. rewrite Nat.mod_small by lia. lia. }
      split; [lia|]. split; [lia|]. replace (length m + S z + sp_lenbytes s)%nat with ((q + 2) * C)%nat by lia. apply Nat.mod_mul. lia. }
  destruct Hz as (Hn & Hzc & Hmod). clearbody n. subst n.
  assert (Et : firstn (S z) (const_word 8 128 :: repeat (const_word 8 0) (C - 1)) = bb (128 :: repeat 0 z)).
  { cbn [firstn bb map]. rewrite const_word_ok. apply f_equal. fold (bb (repeat 0 z)). rewrite bb_repeat, const_word_ok.
    replace (C - 1)%nat with (z + (C - 1 - z))%nat by lia. rewrite repeat_app, firstn_app, repeat_length, Nat.sub_diag, firstn_O, app_nil_r.
    apply firstn_all2. rewrite repeat_length. lia. }
  rewrite Et.
  destruct (write_ok d m (128 :: repeat 0 z) R) as (d1 & E1 & R1).
  { constructor; [unfold byte8; lia|]. apply Forall_forall. intros y Hy. apply repeat_spec in Hy. subst y. unfold byte8. lia. }
  rewrite E1. cbn [obind].
  rewrite (Z.mod_small (8 * Z.of_nat (length m))) by lia.
  rewrite to_binary_ok. 2:{ unfold felt. assert (2 ^ 64 < 2 ^ 70) by reflexivity. lia. } 2:{ change (Z.of_nat 64) with 64. lia. }
  cbn [obind]. set (L := 8 * Z.of_nat (length m)) in *.
  assert (Etail : repeat (const_word 8 0) (C - cLenPos c - 8) ++ map (fun k => map (fun i => nth (i + (56 - 8 * k)) (bits_le 64 L) 0) (seq 0 8)) (seq 0 8)
     = bb (be_bytes (sp_lenbytes s) L)).
  { replace (sp_lenbytes s) with ((C - cLenPos c - 8) + 8)%nat by lia. rewrite be_bytes_high.
    2:{ change (256 ^ Z.of_nat 8) with (2 ^ 64). lia. }
    rewrite bb_app, bb_repeat. apply f_equal2; [reflexivity|]. rewrite bb_be_bytes. apply map_ext_in. intros k Hk. apply in_seq in Hk.
    rewrite (zbits_word _ 8). apply map_ext_in. intros i Hi. apply in_seq in Hi. rewrite zbits_word, nth_map_seq by lia.
    rewrite Z.shiftr_spec by lia. do 2 f_equal. lia. }
  rewrite Etail.
  destruct (write_ok d1 _ (be_bytes (sp_lenbytes s) L) R1 (be_bytes_byte _ _)) as (d2 & E2 & R2). rewrite E2. cbn [obind].
  assert (Epad : (m ++ 128 :: repeat 0 z) ++ be_bytes (sp_lenbytes s) L = pad s m).
  { unfold pad. rewrite (chunk_bb c s Hag). fold z. fold L. rewrite <- app_assoc. reflexivity. }
  rewrite Epad in R2. destruct R2 as (m2 & r2 & Em2 & (M2 & Lr2 & F2 & Fr2 & Eh2 & En2 & _ & _) & _).
  assert (Hr2 : r2 = []).
  { assert (Hl : (length (pad s m) mod C = 0)%nat).
    { rewrite <- Epad. rewrite !app_length. cbn [length]. rewrite repeat_length, be_bytes_length. exact Hmod. }
    rewrite Em2, app_length, Nat.add_mod, M2, Nat.add_0_l, Nat.mod_mod, Nat.mod_small in Hl by lia. destruct r2; [reflexivity|discriminate Hl]. }
  subst r2. rewrite app_nil_r in Em2. subst m2. rewrite En2. cbn [length Nat.eqb guard obind]. rewrite Eh2.
  destruct (absorb_init (pad s m) F2 M2) as [L8 F8].
  unfold sha, hash_words. rewrite (chunk_bb c s Hag). change (fold_left (compress s) (blocks s (length (pad s m) / C) (pad s m)) (H0 s)) with (absorb (H0 s) (pad s m)).
  set (hw := absorb (H0 s) (pad s m)) in *.
  rewrite firstn_all2 by (rewrite map_length; lia). rewrite (n8_wbytes c s Hag). f_equal. clear - F8 Hp Hag Hp2 Cpos.
  induction F8 as [|x l Hx F IH]; [reflexivity|]. cbn [map flat_map]. rewrite map_app, IH. apply f_equal2; [|reflexivity].
  assert (Ep : put_word c (B x) = bb (be_bytes (n8 c) x)).
  { rewrite bb_be_bytes. unfold put_word. fold (n8 c). apply map_ext_in. intros k Hk. apply in_seq in Hk. pose proof (n8_W c s Hag) as HW.
    rewrite (w_rshift_ok c x) by (auto; lia). rewrite (to_byte_ok c s Hag). do 2 f_equal. lia. }
  rewrite Ep. unfold bb. rewrite map_map. rewrite <- (map_id (be_bytes _ _)) at 2. apply map_ext_in. intros y Hy.
  pose proof (be_bytes_byte (n8 c) x) as Fy. rewrite Forall_forall in Fy. specialize (Fy y Hy). unfold byte8 in Fy.
  unfold from_word. rewrite val_bits_le by exact Fy. apply Z.mod_small. assert (256 < 2 ^ 70) by reflexivity. lia.
Qed.

(** histories *)
Definition op_bytes (o : op) : Prop := match o with OpWrite vs => Forall byte8 vs | _ => True end.
Definition op_felts (o : op) : Prop := match o with OpWrite vs => Forall (felt p) vs | _ => True end.
Definition spec_step (st : list Z * list (list Z)) (o : op) : list Z * list (list Z) :=
  let '(m, outs) := st in
  match o with OpWrite vs => (m ++ vs, outs) | OpReset => ([], outs) | OpSum => (m, outs ++ [sha s m]) end.
Definition written (o : op) : nat := match o with OpWrite vs => length vs | _ => 0%nat end.

Lemma write_vars_ok d vs : Forall byte8 vs -> write_vars p c d vs = write p c d (bb vs).
Proof.
  intros F. unfold write_vars. rewrite (omap_total _ _ _ (bits_le 8)); [reflexivity|]. intros v Hv. rewrite Forall_forall in F. specialize (F v Hv). unfold byte8 in F.
  apply to_binary_ok; [|exact (proj2 F)]. unfold felt. assert (256 < 2 ^ 70) by reflexivity. lia.
Qed.
Lemma write_vars_inv d vs d' : Forall (felt p) vs -> write_vars p c d vs = Some d' -> Forall byte8 vs.
Proof.
  intros F H. unfold write_vars in H. apply obind_Some in H. destruct H as [bs [H _]]. clear d d'. revert bs H. induction F as [|v vs Hv F IH]; intros bs H; [constructor|].
  cbn [omap] in H. apply obind_Some in H. destruct H as [b [H1 H]]. apply obind_Some in H. destruct H as [bs' [H2 _]]. constructor; [|eapply IH; eauto].
  unfold to_binary in H1. apply obind_Some in H1. destruct H1 as [[] [H1 _]]. unfold guard in H1. destruct (Z.ltb_spec (v mod p) (2 ^ Z.of_nat 8)) as [Hlt|]; [|discriminate].
  unfold felt in Hv. rewrite Z.mod_small in Hlt by lia. split; [lia|exact Hlt].
Qed.
Lemma run_ok : forall ops d m outs, repr d m -> Forall op_felts ops -> Z.of_nat (length m + fold_right (fun o n => written o + n)%nat 0%nat ops) < 2 ^ 61 ->
  (Forall op_bytes ops -> exists d', ofold (step p c) ops (d, outs) = Some (d', snd (fold_left spec_step ops (m, outs))) /\ repr d' (fst (fold_left spec_step ops (m, outs)))) /\
  (forall r, ofold (step p c) ops (d, outs) = Some r -> Forall op_bytes ops).
Proof.
  induction ops as [|o ops IH]; intros d m outs R F Hb.
  - split; [intros _; exists d; cbn; auto|constructor].
  - inversion F as [|? ? Fo F']; subst. cbn [ofold fold_left fold_right] in *. destruct o as [vs| |]; cbn [step spec_step written] in *.
    + split.
      * intros Fb. inversion Fb as [|? ? Fv Fb']; subst. cbn [op_bytes] in Fv. rewrite write_vars_ok by auto.
        destruct (write_ok d m vs R Fv) as (d1 & E & R1). rewrite E. cbn [obind].
        destruct (IH d1 (m ++ vs) outs R1 F') as [G _]; [rewrite app_length; lia|]. apply G. auto.
      * intros rr H. apply obind_Some in H. destruct H as [[d1 o1] [H1 H]]. apply obind_Some in H1. destruct H1 as [d2 [H1 H2]]. injection H2 as -> ->.
        pose proof (write_vars_inv d vs d1 Fo H1) as Fv. constructor; [exact Fv|]. rewrite write_vars_ok in H1 by auto.
        destruct (write_ok d m vs R Fv) as (d3 & E & R1). rewrite E in H1. injection H1 as ->.
        destruct (IH d1 (m ++ vs) o1 R1 F') as [_ G]; [rewrite app_length; lia|]. eapply G. eauto.
    + pose proof (reset_ok d m R) as R1. destruct (IH (reset c d) [] outs R1 F') as [G1 G2]; [cbn [length]; lia|]. cbn [obind]. split.
      * intros Fb. inversion Fb; subst. auto.
      * intros rr H. constructor; [exact I|]. eapply G2. eauto.
    + unfold sum. rewrite (check_sum_ok d m R) by lia. cbn [obind].
      destruct (IH d m (outs ++ [sha s m]) R F') as [G1 G2]; [lia|]. split.
      * intros Fb. inversion Fb; subst. auto.
      * intros rr H. constructor; [exact I|]. eapply G2. eauto.
Qed.
End P.
