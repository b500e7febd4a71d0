(** * RlpArraySound.v — RlpArrayCheck: soundness and completeness with respect to RlpSpec.v *)
From Coq Require Import ZArith List Lia Bool Arith.
From Verif Require Import ModNorm Field FieldLemmas RlpUtilModel RlpUtilProofs RlpModel RlpSpec RlpPrefixProofs RlpArrayProofs.
Import ListNotations.
Open Scope Z_scope.

Ltac Zify.zify_post_hook ::= Z.div_mod_to_equations.

Lemma reads_prefix : forall buf s, (length s <= length buf)%nat -> reads buf s -> exists rest, buf = s ++ rest.
Proof.
  intros buf s Hl H. exists (skipn (length s) buf).
  rewrite <- (firstn_skipn (length s) buf) at 1. f_equal.
  apply (nth_ext' _ _ _ 0). { rewrite firstn_length. lia. }
  intros i Hi. rewrite firstn_length in Hi. rewrite nth_firstn' by lia. rewrite H by lia.
  rewrite Nat.mod_small by lia. reflexivity.
Qed.

Lemma reads_app : forall buf s t, reads buf s -> (0 < length buf)%nat -> reads (rotl (length s) buf) t -> reads buf (s ++ t).
Proof.
  intros buf s t Hs Hb Ht k Hk. rewrite app_length in Hk.
  destruct (Nat.lt_ge_cases k (length s)).
  - rewrite app_nth1 by auto. apply Hs; auto.
  - rewrite app_nth2 by auto. rewrite Ht by lia. rewrite rotl_length.
    rewrite rotl_nth by (apply Nat.mod_upper_bound; lia). f_equal.
    rewrite Nat.add_mod_idemp_l by lia. f_equal. lia.
Qed.

Definition cread (buf : list Z) (off n : nat) : list Z := map (fun k => nth ((off + k) mod length buf) buf 0) (seq 0 n).
Lemma cread_length buf off n : length (cread buf off n) = n.
Proof. unfold cread. rewrite map_length, seq_length. auto. Qed.
Lemma cread_nth buf off n k : (k < n)%nat -> nth k (cread buf off n) 0 = nth ((off + k) mod length buf) buf 0.
Proof. intros. unfold cread. rewrite nth_map_seq by auto. reflexivity. Qed.

Lemma byte_nibbles_byte0 r : (2 <= length r)%nat -> Forall nibble r -> firstn 2 r = byte_nibbles (byte0 r).
Proof.
  intros Hl Hn. destruct r as [|a [|b r]]; cbn in Hl; try lia. inversion Hn as [|? ? Ha Hn']; inversion Hn'; subst.
  unfold byte_nibbles, byte0, nibble in *. cbn [firstn nth]. f_equal; [|f_equal]; lia.
Qed.

Lemma reads_firstn : forall r n, (n <= length r)%nat -> reads r (firstn n r).
Proof.
  intros r n Hn k Hk. rewrite firstn_length in Hk. rewrite nth_firstn' by lia. rewrite Nat.mod_small by lia. auto.
Qed.
Lemma reads_cread : forall r n m, (n <= length r)%nat -> (0 < length r)%nat -> reads r (firstn n r ++ cread r n m).
Proof.
  intros r n m Hn H0 k Hk. rewrite app_length, firstn_length, cread_length, Nat.min_l in Hk by lia.
  destruct (Nat.lt_ge_cases k n).
  - rewrite app_nth1 by (rewrite firstn_length; lia). rewrite nth_firstn' by lia. rewrite Nat.mod_small by lia. auto.
  - rewrite app_nth2 by (rewrite firstn_length; lia). rewrite firstn_length, Nat.min_l by lia.
    rewrite cread_nth by lia. do 2 f_equal. lia.
Qed.

(** The shape computed by the gadget describes an RLP item at the front of r. *)
Lemma field_shape_item : forall lpm r h l, Forall nibble r -> (2 + lpm <= length r)%nat -> (lpm <= 16)%nat ->
  field_shape lpm r = Some (h, l) ->
  exists it, is_item it /\ length (hdr it) = Z.to_nat h /\ Z.of_nat (length (payload it)) = l /\ reads r (enc it) /\
    (forall k, (k < length (payload it))%nat ->
       nth k (payload it) 0 = nth (k mod length r) (rotl (Z.to_nat h) r) 0) /\
    (cinc_of r = 2 <-> enc it = empty_list_enc).
Proof.
  intros lpm r h l Hn Hl Hlpm H.
  assert (H2 : (2 <= length r)%nat) by lia.
  pose proof (byte0_range r H2 Hn) as Hb. pose proof (classify_cases _ Hb) as Hc.
  pose proof (field_shape_bounds lpm r h l Hn H2 Hlpm H) as [Bh Bl].
  assert (Hh : (Z.to_nat h <= length r)%nat).
  { unfold field_shape in H. destruct (classify (byte0 r)) as [|x|k|x|k];
    try (destruct (_ && _) eqn:E; [|discriminate]; apply andb_prop in E; destruct E as [E1 E2]; apply Z.leb_le in E1).
    all: first [assert (h = 0) by congruence; lia | assert (h = 2) by congruence; lia
      | assert (h = 2 + 2 * k) by congruence; lia]. }
  exists (firstn (Z.to_nat h) r, cread r (Z.to_nat h) (Z.to_nat l)).
  unfold is_item, enc, hdr, payload. cbn [fst snd].
  assert (Hlp : length (cread r (Z.to_nat h) (Z.to_nat l)) = Z.to_nat l) by apply cread_length.
  assert (Hlh : length (firstn (Z.to_nat h) r) = Z.to_nat h) by (rewrite firstn_length; lia).
  assert (Hrd : reads r (firstn (Z.to_nat h) r ++ cread r (Z.to_nat h) (Z.to_nat l))) by (apply reads_cread; lia).
  split; [|split; [auto|split; [rewrite Hlp; lia|split; [auto|split]]]].
  - (* is an item *)
    unfold field_shape in H. destruct (classify (byte0 r)) as [|x|k|x|k] eqn:Ec.
    + assert (h = 0 /\ l = 2) as [-> ->] by (split; congruence).
      change (Z.to_nat 0) with 0%nat. change (Z.to_nat 2) with 2%nat. cbn [firstn app].
      replace (cread r 0 2) with (byte_nibbles (byte0 r)); [constructor; lia|].
      rewrite <- byte_nibbles_byte0 by auto. apply (nth_ext' _ _ _ 0); [rewrite firstn_length, cread_length; lia|].
      intros i Hi. rewrite firstn_length in Hi. rewrite nth_firstn', cread_nth by lia. rewrite Nat.mod_small by lia. auto.
    + assert (h = 2 /\ l = 2 * x) as [-> ->] by (split; congruence).
      change (Z.to_nat 2) with 2%nat in *. rewrite byte_nibbles_byte0 by auto. apply item_short with (len := x); auto. lia.
    + destruct (_ && _) eqn:E; [|discriminate]. apply andb_prop in E; destruct E as [E1 E2]. apply Z.leb_le in E1.
      assert (h = 2 + 2 * k) by congruence.
      assert (El : l = 2 * hexval (firstn (Z.to_nat (2 * k)) (skipn 2 r))) by congruence.
      replace (firstn (Z.to_nat h) r) with (byte_nibbles (byte0 r) ++ firstn (Z.to_nat (2 * k)) (skipn 2 r)).
      2:{ rewrite <- byte_nibbles_byte0 by auto. replace (Z.to_nat h) with (2 + Z.to_nat (2 * k))%nat by lia.
          destruct r as [|a [|b r']]; cbn in H2; try lia. reflexivity. }
      rewrite <- app_assoc. apply item_long with (lenlen := k); auto.
      * rewrite firstn_length, skipn_length. lia.
      * apply Forall_firstn, Forall_skipn; auto.
      * rewrite cread_length. lia.
    + assert (h = 2 /\ l = 2 * x) as [-> ->] by (split; congruence).
      change (Z.to_nat 2) with 2%nat in *. rewrite byte_nibbles_byte0 by auto. apply item_short with (len := x); auto. lia.
    + destruct (_ && _) eqn:E; [|discriminate]. apply andb_prop in E; destruct E as [E1 E2]. apply Z.leb_le in E1.
      assert (h = 2 + 2 * k) by congruence.
      assert (El : l = 2 * hexval (firstn (Z.to_nat (2 * k)) (skipn 2 r))) by congruence.
      replace (firstn (Z.to_nat h) r) with (byte_nibbles (byte0 r) ++ firstn (Z.to_nat (2 * k)) (skipn 2 r)).
      2:{ rewrite <- byte_nibbles_byte0 by auto. replace (Z.to_nat h) with (2 + Z.to_nat (2 * k))%nat by lia.
          destruct r as [|a [|b r']]; cbn in H2; try lia. reflexivity. }
      rewrite <- app_assoc. apply item_long with (lenlen := k); auto.
      * rewrite firstn_length, skipn_length. lia.
      * apply Forall_firstn, Forall_skipn; auto.
      * rewrite cread_length. lia.
  - intros k Hk. rewrite Hlp in Hk. rewrite cread_nth by lia. rewrite rotl_nth by (apply Nat.mod_upper_bound; lia).
    f_equal. rewrite Nat.add_mod_idemp_l by lia. f_equal. lia.
  - unfold cinc_of. unfold field_shape in H. split.
    + destruct (Z.eqb_spec (byte0 r) 192) as [E|E]; [intros _|lia].
      rewrite E in H. cbn in H. assert (h = 2 /\ l = 0) as [-> ->] by (split; congruence).
      change (Z.to_nat 2) with 2%nat. change (Z.to_nat 0) with 0%nat. rewrite byte_nibbles_byte0 by auto.
      rewrite E. reflexivity.
    + intros E.
      assert (E' : byte0 r = 192).
      { unfold byte0. assert (L : length (firstn (Z.to_nat h) r ++ cread r (Z.to_nat h) (Z.to_nat l)) = 2%nat) by (rewrite E; auto).
        pose proof (Hrd 0%nat ltac:(lia)) as R0. pose proof (Hrd 1%nat ltac:(lia)) as R1. rewrite E in R0, R1.
        rewrite Nat.mod_small in R0 by lia. rewrite Nat.mod_small in R1 by lia. cbn in R0, R1. lia. }
      rewrite E'. reflexivity.
Qed.

(** Fixed-size fields (min = max) that are followed by another field really have their declared length. *)
Fixpoint fixed_lengths_hold (fs : list (nat * nat)) (lens : list Z) : Prop :=
  match fs, lens with
  | (fmin, fmax) :: (_ :: _) as rest, l :: lens' => (fmin = fmax -> l = Z.of_nat fmin) /\ fixed_lengths_hold (tl fs) lens'
  | _, _ => True
  end.

Definition item_of (M : nat) (it : item) (x : Z * Z * list Z * Z) : Prop :=
  is_item it /\ Z.of_nat (length (enc it)) = q_h x + q_l x /\ Z.of_nat (length (payload it)) = q_l x /\
  ((length (payload it) <= M)%nat -> firstn (length (payload it)) (q_out x) = payload it) /\
  (q_c x = 2 <-> enc it = empty_list_enc) /\ (q_c x = 1 \/ q_c x = 2).

Lemma encs_cons it its : encs (it :: its) = enc it ++ encs its.
Proof. reflexivity. Qed.

Lemma sem_fields_items : forall fs M r q, fields_ok M fs -> length r = M -> Forall nibble r -> (2 <= M)%nat ->
  sem_fields fs r = Some q -> fixed_lengths_hold fs (map q_l q) ->
  exists its, Forall2 (item_of M) its q /\ reads r (encs its).
Proof.
  induction fs as [|[fmin fmax] rest IH]; intros M r q Hf Hl Hn HM H Hfix; cbn [sem_fields] in H.
  - assert (q = []) by congruence. subst. exists []. split; auto. intros k Hk. cbn in Hk. lia.
  - inversion Hf as [|? ? H1 H2]; subst. cbn [fst snd] in H1. destruct H1 as (A1 & A2 & A3).
    pose proof (len_prefix_max_bounds _ A2).
    destruct (field_shape _ r) as [[h l]|] eqn:E; [|discriminate].
    assert (Hlpm : (len_prefix_max fmax <= 16)%nat) by lia.
    pose proof (field_shape_bounds _ _ _ _ Hn HM Hlpm E) as [Eh El].
    destruct (field_shape_item _ _ _ _ Hn A3 Hlpm E) as (it & I1 & I2 & I3 & I4 & I5 & I6).
    assert (Hit : item_of (length r) it (h, l, rotl (Z.to_nat h) r, cinc_of r)).
    { unfold item_of, q_h, q_l, q_out, q_c. cbn [fst snd]. split; [auto|]. split.
      { unfold enc. rewrite app_length. unfold hdr, payload in *. lia. }
      split; [auto|]. split; [|split; [auto|]].
      - intros Hle. apply (nth_ext' _ _ _ 0). { rewrite firstn_length, rotl_length. lia. }
        intros i Hi. rewrite firstn_length in Hi. rewrite nth_firstn' by lia. rewrite I5 by lia.
        rewrite rotl_length in Hi. rewrite Nat.mod_small by lia. auto.
      - unfold cinc_of. destruct (_ =? _); auto. }
    destruct rest as [|f2 rest].
    + assert (q = [(h, l, rotl (Z.to_nat h) r, cinc_of r)]) by congruence. subst q.
      exists [it]. split; [constructor; auto|]. unfold encs. cbn [map concat]. rewrite app_nil_r. auto.
    + destruct (if Nat.eqb fmin fmax then _ else _) as [r'|] eqn:En; [|discriminate].
      destruct (sem_fields (f2 :: rest) r') as [q'|] eqn:Eq; [|discriminate].
      assert (q = (h, l, rotl (Z.to_nat h) r, cinc_of r) :: q') by congruence. subst q.
      cbn [map fixed_lengths_hold tl] in Hfix. unfold q_l at 1 in Hfix. cbn [fst snd] in Hfix. destruct Hfix as [F1 F2].
      assert (Hr' : r' = rotl (length (enc it)) r).
      { assert (Hr2 : r' = rotl (Z.to_nat l) (rotl (Z.to_nat h) r)).
        { destruct (Nat.eqb_spec fmin fmax) as [e|e].
          - rewrite (F1 e), Nat2Z.id. congruence.
          - destruct (_ && _); [|discriminate]. congruence. }
        rewrite Hr2, rotl_rotl. f_equal. unfold enc. rewrite app_length. unfold hdr, payload in *. lia. }
      destruct (IH (length r) r' q') as (its & J1 & J2); auto.
      { rewrite Hr', rotl_length; auto. } { rewrite Hr'. apply rotl_nibble; auto. }
      exists (it :: its). split; [constructor; auto|]. rewrite encs_cons. apply reads_app; auto; [lia|].
      rewrite <- Hr'. auto.
Qed.

(** List header read at the front. *)
Lemma head_shape_reads : forall n r v pre t, Forall nibble r -> (2 + n <= length r)%nat ->
  head_shape n r = Some (v, pre, t) ->
  (Z.to_nat (2 + pre) <= length r)%nat /\ length (firstn (Z.to_nat (2 + pre)) r) = Z.to_nat (2 + pre) /\
  (v = 1 -> list_header (firstn (Z.to_nat (2 + pre)) r) /\
     forall pl, Z.of_nat (length pl) = t -> rlp_item (firstn (Z.to_nat (2 + pre)) r ++ pl) (firstn (Z.to_nat (2 + pre)) r) pl).
Proof.
  intros n r v pre t Hn Hl H. assert (H2 : (2 <= length r)%nat) by lia.
  pose proof (byte0_range r H2 Hn) as Hb. pose proof (classify_cases _ Hb) as Hc.
  unfold head_shape in H. destruct (classify (byte0 r)) as [|x|k|x|k] eqn:Ec.
  1-3: assert (v = 0 /\ pre = 0) as [-> ->] by (split; congruence); change (Z.to_nat (2 + 0)) with 2%nat;
       rewrite firstn_length; split; [lia|split; [lia|intros; discriminate]].
  - assert (v = 1 /\ pre = 0 /\ t = 2 * x) as (-> & -> & ->) by (repeat split; congruence).
    change (Z.to_nat (2 + 0)) with 2%nat. rewrite firstn_length. split; [lia|split; [lia|]]. intros _.
    rewrite byte_nibbles_byte0 by auto. split.
    + exists (byte0 r), []. rewrite app_nil_r, Ec. auto.
    + intros pl Hpl. apply item_short with (len := x); auto.
  - destruct (Z.leb_spec (2 * k) (Z.of_nat n)); [|discriminate].
    assert (v = 1 /\ pre = 2 * k) as (-> & ->) by (split; congruence).
    assert (Et : t = 2 * hexval (firstn (Z.to_nat (2 * k)) (skipn 2 r))) by congruence.
    rewrite firstn_length. split; [lia|split; [lia|]]. intros _.
    replace (firstn (Z.to_nat (2 + 2 * k)) r) with (byte_nibbles (byte0 r) ++ firstn (Z.to_nat (2 * k)) (skipn 2 r)).
    2:{ rewrite <- byte_nibbles_byte0 by auto. replace (Z.to_nat (2 + 2 * k)) with (2 + Z.to_nat (2 * k))%nat by lia.
        destruct r as [|a [|b r']]; cbn in H2; try lia. reflexivity. }
    split.
    + exists (byte0 r), (firstn (Z.to_nat (2 * k)) (skipn 2 r)). rewrite Ec. auto.
    + intros pl Hpl. rewrite <- app_assoc. apply item_long with (lenlen := k); auto.
      * rewrite firstn_length, skipn_length. lia.
      * apply Forall_firstn, Forall_skipn; auto.
      * lia.
Qed.

Lemma zsum_q_c : forall q, Forall (fun x => q_c x = 1 \/ q_c x = 2) q ->
  Z.of_nat (length q) <= zsum (map q_c q) /\ (zsum (map q_c q) = Z.of_nat (length q) <-> Forall (fun x => q_c x = 1) q).
Proof.
  induction q as [|x q IH]; intros H; cbn [map zsum fold_right length]; [split; [lia|split; auto; lia]|].
  inversion H; subst. destruct (IH H3) as [I1 I2]. fold (zsum (map q_c q)) in *. split; [lia|]. split.
  - intros E. constructor; [lia|apply I2; lia].
  - intros E. inversion E; subst. apply I2 in H5. lia.
Qed.

Lemma items_lens : forall M its q, Forall2 (item_of M) its q ->
  map (fun it => Z.of_nat (length (payload it))) its = map q_l q /\
  Z.of_nat (length (encs its)) = zsum (map (fun x => q_h x + q_l x) q) /\
  Forall is_item its /\ Forall (fun x => q_c x = 1 \/ q_c x = 2) q /\
  (Exists (fun x => q_c x = 2) q <-> In empty_list_enc (map enc its)) /\
  Forall2 (fun it out => (length (payload it) <= M)%nat -> firstn (length (payload it)) out = payload it) its (map q_out q).
Proof.
  intros M its q H. induction H as [|it x its q H1 H2 IH].
  - cbn. repeat split; auto. + intros E; inversion E. + intros [].
  - destruct H1 as (A1 & A2 & A3 & A4 & A5 & A6). destruct IH as (B1 & B2 & B3 & B4 & B5 & B6).
    cbn [map]. rewrite encs_cons, app_length. split; [congruence|]. split; [|split; [auto|split; [auto|split]]].
    + change (zsum (q_h x + q_l x :: map (fun x => q_h x + q_l x) q)) with (q_h x + q_l x + zsum (map (fun x => q_h x + q_l x) q)).
      lia.
    + cbn [In]. rewrite <- B5, <- A5. split; intros E; [inversion E; auto|destruct E; auto].
    + constructor; auto.
Qed.

Lemma Forall_or_Exists : forall q, Forall (fun x => q_c x = 1 \/ q_c x = 2) q -> 
  Forall (fun x => q_c x = 1) q \/ Exists (fun x => q_c x = 2) q.
Proof. induction q as [|x q IH]; intros H; [left; auto|]. inversion H; subst. destruct H2; [|right; auto]. destruct IH; auto. Qed.

Lemma Forall2_len : forall A B (R : A -> B -> Prop) l1 l2, Forall2 R l1 l2 -> length l1 = length l2.
Proof. intros A B R l1 l2 H. induction H; cbn; auto. Qed.

Theorem array_check_sound : forall p a inp total lens outs, 2 ^ 200 < p -> params_ok a ->
  length inp = ac_maxHexLen a -> Forall nibble inp ->
  rlp_array_check p a inp (Z.of_nat (length (ac_fields a))) = Some (1, total, lens, outs) ->
  fixed_lengths_hold (ac_fields a) lens ->
  exists h its,
    reads inp (h ++ encs its) /\ length its = length (ac_fields a) /\ Forall is_item its /\
    lens = map (fun it => Z.of_nat (length (payload it))) its /\
    Forall2 (fun it out => (length (payload it) <= length inp)%nat -> firstn (length (payload it)) out = payload it) its outs /\
    (~ In empty_list_enc (map enc its) ->
       list_header h /\ rlp_item (h ++ encs its) h (encs its) /\ total = Z.of_nat (length (h ++ encs its))) /\
    (In empty_list_enc (map enc its) ->
       ~ (list_header h /\ total = Z.of_nat (length (h ++ encs its)))).
Proof.
  intros p a inp total lens outs Hp Ha Hl Hn H Hfix. rewrite rlp_array_check_ok in H by auto.
  destruct Ha as (P1 & P2 & P3 & P4 & P5). unfold sem_array_check in H.
  destruct (head_shape _ inp) as [[[v pre] t]|] eqn:Eh; [|discriminate].
  assert (Hl2 : (2 <= length inp)%nat) by lia.
  assert (Hl3 : (2 + ac_prefixMax a <= length inp)%nat) by lia.
  pose proof (head_shape_bounds _ _ _ _ _ Hn Hl2 (proj2 P1) Eh) as (Bv & Bp & Bt).
  destruct (head_shape_reads _ _ _ _ _ Hn Hl3 Eh) as (R1 & R2 & R3).
  destruct (2 + pre <? 16); [|discriminate].
  destruct (sem_fields _ _) as [q|] eqn:Eq; [|discriminate].
  assert (E0 : bit_of (v + zsum (map q_c q) + bit_of (t =? zsum (map (fun x => q_h x + q_l x) q))
     =? Z.of_nat (length (ac_fields a)) + 2) = 1) by congruence.
  assert (Et : total = 2 + pre + t) by congruence. assert (El : lens = map q_l q) by congruence.
  assert (Eo : outs = map q_out q) by congruence. clear H. subst lens.
  destruct (sem_fields_items (ac_fields a) (length inp) (rotl (Z.to_nat (2 + pre)) inp) q) as (its & I1 & I2);
    rewrite ?rotl_length; auto; try lia. { rewrite Hl; auto. } { apply rotl_nibble; auto. }
  assert (P5' : fields_ok (length inp) (ac_fields a)) by (rewrite Hl; auto).
  pose proof (sem_fields_bounds _ (length inp) _ _ P5' (rotl_length _ _) (rotl_nibble _ _ Hn) Hl2 Eq) as [Lq _].
  destruct (items_lens _ _ _ I1) as (J1 & J2 & J3 & J4 & J5 & J6).
  destruct (zsum_q_c q J4) as [C1 C2].
  exists (firstn (Z.to_nat (2 + pre)) inp), its.
  assert (Hlh : Z.of_nat (length (firstn (Z.to_nat (2 + pre)) inp ++ encs its)) = 2 + pre + zsum (map (fun x => q_h x + q_l x) q)).
  { rewrite app_length, R2. lia. }
  assert (E0' : v + zsum (map q_c q) + bit_of (t =? zsum (map (fun x => q_h x + q_l x) q)) = Z.of_nat (length (ac_fields a)) + 2).
  { destruct (Z.eqb_spec (v + zsum (map q_c q) + bit_of (t =? zsum (map (fun x => q_h x + q_l x) q))) (Z.of_nat (length (ac_fields a)) + 2)); auto.
    cbn in E0. lia. }
  split; [|split; [|split; [auto|split; [auto|split; [subst outs; auto|split]]]]].
  - apply reads_app; [apply reads_firstn; auto|lia|]. rewrite R2. auto.
  - apply Forall2_len in I1. lia.
  - intros Hne. assert (Hall : Forall (fun x => q_c x = 1) q).
    { destruct (Forall_or_Exists q J4) as [?|Hex]; auto. apply J5 in Hex. contradiction. }
    apply C2 in Hall. rewrite Hall, Lq in E0'.
    destruct (Z.eqb_spec t (zsum (map (fun x => q_h x + q_l x) q))) as [e|e]; cbn [bit_of] in E0'; [|lia].
    destruct R3 as [R3 R4]; [lia|]. split; auto. split; [apply R4; lia|]. lia.
  - intros Hin [Hlist Htot].
    assert (Hv : v = 1).
    { destruct Bv as [->| ->]; auto. exfalso. destruct Hlist as (b & rest & Hb1 & Hb2 & Hb3).
      assert (Hb0 : byte0 inp = b).
      { unfold byte0. assert (G0 := reads_firstn inp _ R1 0%nat ltac:(lia)). assert (G1 := reads_firstn inp _ R1 1%nat ltac:(lia)).
        rewrite Hb1 in G0, G1. rewrite Nat.mod_small in G0, G1 by lia. unfold byte_nibbles in *. cbn [app nth] in G0, G1. lia. }
      unfold head_shape in Eh. rewrite Hb0 in Eh. destruct (classify b); try discriminate.
      destruct (_ <=? _); discriminate. }
    assert (Hgt : zsum (map q_c q) <> Z.of_nat (length q)).
    { intros e. apply C2 in e. apply J5 in Hin. rewrite Exists_exists in Hin. destruct Hin as (x & X1 & X2).
      rewrite Forall_forall in e. apply e in X1. lia. }
    assert (e : t = zsum (map (fun x => q_h x + q_l x) q)) by lia. rewrite e, Z.eqb_refl in E0'. cbn [bit_of] in E0'. lia.
Qed.

(** ** Completeness *)
Lemma Forall2_impl' : forall A B (R S : A -> B -> Prop) l1 l2, (forall a b, R a b -> S a b) -> Forall2 R l1 l2 -> Forall2 S l1 l2.
Proof. intros A B R S l1 l2 H H2. induction H2; constructor; auto. Qed.

Lemma byte_nibbles_nibble b : 0 <= b < 256 -> Forall nibble (byte_nibbles b).
Proof. intros. unfold byte_nibbles, nibble. repeat constructor; lia. Qed.

Definition header_fits (lpm : nat) (h : list Z) : Prop :=
  (length h <= 2)%nat \/ ((length h <= 2 + lpm)%nat /\ Z.of_nat (length h) < 2 ^ Z.of_nat (log_ceil lpm)).

Lemma byte0_bn b t : 0 <= b < 256 -> byte0 (byte_nibbles b ++ t) = b.
Proof. intros. unfold byte0, byte_nibbles. cbn [app nth]. lia. Qed.

Lemma rlp_item_app e h pl : rlp_item e h pl -> e = h ++ pl.
Proof. intros H. inversion H; subst; rewrite <- ?app_assoc; auto. Qed.

Lemma item_field_shape : forall lpm it tail, is_item it -> header_fits lpm (hdr it) ->
  field_shape lpm (enc it ++ tail) = Some (Z.of_nat (length (hdr it)), Z.of_nat (length (payload it))) /\
  (enc it <> empty_list_enc -> cinc_of (enc it ++ tail) = 1).
Proof.
  intros lpm [h pl] tail H Hfit. unfold is_item, enc, hdr, payload in *. cbn [fst snd] in *.
  assert (Hcl : forall b, 0 <= b < 256 -> b <> 192 -> cinc_of (byte_nibbles b ++ tail) = 1 /\
     forall t, cinc_of ((byte_nibbles b ++ t) ++ tail) = 1).
  { intros b Hb Hne. unfold cinc_of. split; [|intros t]; rewrite <- ?app_assoc; rewrite byte0_bn by auto;
      destruct (Z.eqb_spec b 192); auto; lia. }
  remember (h ++ pl) as e eqn:Ee.
  inversion H as [b Hb E1 E2 E3|b len pl' Hc Hb Hlen E1 E2 E3|b lenlen ln pl' Hc Hb Hll Hnb Hlen E1 E2 E3]; subst h pl.
  - cbn [app] in Ee. subst e. unfold field_shape. rewrite byte0_bn by lia.
    assert (classify b = HLiteral) as -> by (unfold classify; destruct (Z.leb_spec b 127); auto; lia).
    split; [reflexivity|]. intros _. apply Hcl; lia.
  - clear E1. unfold field_shape. rewrite <- app_assoc, byte0_bn by lia.
    assert (Hf : match classify b with HShortString l | HShortList l => Some (2, 2 * l) | _ => None end = Some (2, 2 * len))
      by (destruct Hc as [-> | ->]; auto).
    split.
    + destruct (classify b); try (destruct Hc; discriminate); rewrite Hf; do 2 f_equal; rewrite Hlen; auto.
    + intros Hne. rewrite app_assoc. apply Hcl; auto. intros ->. apply Hne. 
      assert (len = 0) by (destruct Hc as [Hc|Hc]; cbn in Hc; congruence). subst len.
      destruct pl'; [|cbn in Hlen; lia]. reflexivity.
  - clear E1. unfold field_shape. rewrite <- !app_assoc, byte0_bn by lia.
    assert (Hk : 1 <= lenlen <= 8).
    { pose proof (classify_cases b Hb) as Hcc. destruct Hc as [Hc|Hc]; rewrite Hc in Hcc; lia. }
    assert (Hlh : length (byte_nibbles b ++ ln) = (2 + Z.to_nat (2 * lenlen))%nat).
    { rewrite app_length. cbn [length byte_nibbles]. lia. }
    assert (Hfn : firstn (Z.to_nat (2 * lenlen)) (skipn 2 (byte_nibbles b ++ ln ++ pl' ++ tail)) = ln).
    { unfold byte_nibbles. cbn [app skipn]. replace (Z.to_nat (2 * lenlen)) with (length ln + 0)%nat by lia.
      rewrite firstn_app_2. cbn [firstn]. apply app_nil_r. }
    destruct Hfit as [Hfit|[F1 F2]]; [lia|].
    assert (Ha : (2 * lenlen <=? Z.of_nat lpm) && (2 + 2 * lenlen <? 2 ^ Z.of_nat (log_ceil lpm)) = true).
    { apply andb_true_intro. split; [apply Z.leb_le; lia|apply Z.ltb_lt; lia]. }
    split.
    + destruct Hc as [Hc|Hc]; rewrite Hc, Ha, Hfn; do 2 f_equal; lia.
    + intros _. rewrite <- ?app_assoc. unfold cinc_of. rewrite byte0_bn by auto.
      destruct (Z.eqb_spec b 192) as [->|]; auto. cbn in Hc. destruct Hc; discriminate.
Qed.

Definition item_fits (f : nat * nat) (it : item) : Prop :=
  is_item it /\ enc it <> empty_list_enc /\ header_fits (len_prefix_max (snd f)) (hdr it) /\
  (fst f <= length (payload it) <= snd f)%nat.

Lemma rotl_app : forall a b, rotl (length a) (a ++ b) = b ++ a.
Proof.
  intros. rewrite rotl_skipn by (rewrite app_length; lia).
  rewrite skipn_app, firstn_app, skipn_all, firstn_all, Nat.sub_diag. cbn. rewrite app_nil_r. auto.
Qed.

Lemma sem_fields_complete : forall fs its tail, Forall2 item_fits fs its -> Forall (fun f => Z.of_nat (snd f) < 2 ^ 63) fs ->
  exists q, sem_fields fs (encs its ++ tail) = Some q /\
    map q_l q = map (fun it => Z.of_nat (length (payload it))) its /\
    zsum (map (fun x => q_h x + q_l x) q) = Z.of_nat (length (encs its)) /\
    zsum (map q_c q) = Z.of_nat (length fs) /\
    Forall2 (fun it out => firstn (length (payload it)) out = payload it /\ length out = length (encs its ++ tail)) its (map q_out q).
Proof.
  induction fs as [|[fmin fmax] rest IH]; intros its tail HF HB; inversion HF as [|f it fs' its' H1 H2]; subst.
  - exists []. cbn. repeat split; auto.
  - cbn [sem_fields]. destruct H1 as (A1 & A2 & A3 & A4). cbn [fst snd] in *. rewrite encs_cons, <- app_assoc.
    destruct (item_field_shape (len_prefix_max fmax) it (encs its' ++ tail) A1 A3) as [Hs Hc]. specialize (Hc A2).
    rewrite Hs.
    assert (Hr1 : rotl (Z.to_nat (Z.of_nat (length (hdr it)))) (enc it ++ encs its' ++ tail) = payload it ++ encs its' ++ tail ++ hdr it).
    { rewrite Nat2Z.id. unfold enc. fold (hdr it) (payload it). rewrite <- app_assoc, rotl_app. rewrite <- !app_assoc. auto. }
    rewrite Hr1, Hc.
    assert (Hr2 : rotl (length (payload it)) (payload it ++ encs its' ++ tail ++ hdr it) = encs its' ++ (tail ++ hdr it ++ payload it)).
    { rewrite rotl_app. rewrite <- !app_assoc. auto. }
    assert (Hfst : firstn (length (payload it)) (payload it ++ encs its' ++ tail ++ hdr it) = payload it).
    { rewrite firstn_app, firstn_all, Nat.sub_diag. cbn. apply app_nil_r. }
    assert (Hlen : length (payload it ++ encs its' ++ tail ++ hdr it) = length (enc it ++ encs its' ++ tail)).
    { unfold enc. fold (hdr it) (payload it). rewrite !app_length. lia. }
    inversion HB as [|? ? HB1 HB2]; subst. cbn [snd] in HB1.
    destruct rest as [|f2 rest].
    + inversion H2; subst. cbn [encs map concat app] in *. rewrite app_nil_r.
      eexists; split; [reflexivity|]. unfold q_l, q_h, q_c, q_out. cbn [map fst snd zsum fold_right length].
      repeat split; try lia.
      * unfold enc. fold (hdr it) (payload it). rewrite app_length. lia.
      * constructor; auto.
    + assert (Hnext : (if Nat.eqb fmin fmax then Some (rotl fmin (payload it ++ encs its' ++ tail ++ hdr it))
         else if (Z.of_nat fmin <=? Z.of_nat (length (payload it))) &&
                 (Z.of_nat (length (payload it)) - Z.of_nat fmin <? 2 ^ Z.of_nat (log_ceil (fmax - fmin)))
              then Some (rotl (Z.to_nat (Z.of_nat (length (payload it)))) (payload it ++ encs its' ++ tail ++ hdr it)) else None)
         = Some (encs its' ++ (tail ++ hdr it ++ payload it))).
      { destruct (Nat.eqb_spec fmin fmax) as [e|e].
        - replace fmin with (length (payload it)) by lia. rewrite Hr2. auto.
        - destruct (Z.leb_spec (Z.of_nat fmin) (Z.of_nat (length (payload it)))); [|lia]. cbn [andb].
          pose proof (log_ceil_bound (fmax - fmin) ltac:(zlia)).
          destruct (Z.ltb_spec (Z.of_nat (length (payload it)) - Z.of_nat fmin) (2 ^ Z.of_nat (log_ceil (fmax - fmin)))); [|lia].
          rewrite Nat2Z.id, Hr2. auto. }
      rewrite Hnext.
      destruct (IH its' (tail ++ hdr it ++ payload it) H2 HB2) as (q & Q1 & Q2 & Q3 & Q4 & Q5).
      rewrite Q1. eexists; split; [reflexivity|]. cbn [map].
      set (x := (Z.of_nat (length (hdr it)), Z.of_nat (length (payload it)), payload it ++ encs its' ++ tail ++ hdr it, 1)).
      change (q_l x) with (Z.of_nat (length (payload it))). change (q_c x) with 1. change (q_h x) with (Z.of_nat (length (hdr it))).
      change (q_out x) with (payload it ++ encs its' ++ tail ++ hdr it).
      split; [congruence|]. split; [|split].
      * cbn [zsum fold_right]. fold (zsum (map (fun x => q_h x + q_l x) q)). rewrite Q3, app_length. unfold enc at 1.
        fold (hdr it) (payload it). rewrite app_length. lia.
      * cbn [zsum fold_right]. fold (zsum (map q_c q)). rewrite Q4. cbn [length]. lia.
      * constructor; auto. eapply Forall2_impl'; [|exact Q5]. intros i o [X1 X2]. split; auto. rewrite X2.
        unfold enc. fold (hdr it) (payload it). rewrite !app_length. lia.
Qed.

Theorem array_check_complete : forall p a inp h its rest, 2 ^ 200 < p -> params_ok a ->
  length inp = ac_maxHexLen a -> Forall nibble inp ->
  inp = h ++ encs its ++ rest ->
  list_header h -> rlp_item (h ++ encs its) h (encs its) ->
  (length h <= 2 + ac_prefixMax a)%nat -> (length h <= 14)%nat ->
  Forall2 item_fits (ac_fields a) its ->
  exists outs,
    rlp_array_check p a inp (Z.of_nat (length (ac_fields a))) =
      Some (1, Z.of_nat (length (h ++ encs its)), map (fun it => Z.of_nat (length (payload it))) its, outs) /\
    Forall2 (fun it out => firstn (length (payload it)) out = payload it /\ length out = length inp) its outs.
Proof.
  intros p a inp h its rest Hp Ha Hl Hn Hinp (b & hr & Hh1 & Hh2 & Hh3) Hitem Hpm Hh14 HF.
  rewrite rlp_array_check_ok by auto. destruct Ha as (P1 & P2 & P3 & P4 & P5). unfold sem_array_check.
  assert (Hhs : head_shape (ac_prefixMax a) inp = Some (1, Z.of_nat (length h) - 2, Z.of_nat (length (encs its))) /\ (2 <= length h)%nat).
  { assert (Hb0 : byte0 inp = b) by (rewrite Hinp, Hh1, <- !app_assoc; apply byte0_bn; auto).
    split; [|rewrite Hh1, app_length; cbn; lia].
    unfold head_shape. rewrite Hb0.
    inversion Hitem as [b' Hb E1 E2 E3|b' len pl' Hc Hb Hlen E1 E2 E3|b' lenlen ln pl' Hc Hb Hll Hnb Hlen E1 E2 E3].
    - rewrite <- E2 in Hh1. discriminate.
    - rewrite <- E2 in Hh1.
      assert (b' = b).
      { assert (byte0 (byte_nibbles b' ++ []) = byte0 (byte_nibbles b ++ hr)) by (rewrite app_nil_r; congruence).
        rewrite !byte0_bn in * by auto. auto. }
      subst b'. destruct Hc as [Hc|Hc]; rewrite Hc in *; [discriminate|].
      rewrite <- Hlen. reflexivity.
    - assert (b' = b).
      { rewrite Hh1 in E2. assert (byte0 (byte_nibbles b' ++ ln) = byte0 (byte_nibbles b ++ hr)) by congruence.
        rewrite !byte0_bn in * by auto. auto. }
      subst b'. destruct Hc as [Hc|Hc]; rewrite Hc in *; [discriminate|].
      assert (Hlh : length h = (2 + Z.to_nat (2 * lenlen))%nat) by (rewrite <- E2, app_length; cbn [length byte_nibbles]; lia).
      pose proof (classify_cases b Hh2) as Hk. rewrite Hc in Hk.
      destruct (Z.leb_spec (2 * lenlen) (Z.of_nat (ac_prefixMax a))); [|lia].
      assert (Hfn : firstn (Z.to_nat (2 * lenlen)) (skipn 2 inp) = ln).
      { rewrite Hinp, <- E2, <- !app_assoc. unfold byte_nibbles. cbn [app skipn].
        replace (Z.to_nat (2 * lenlen)) with (length ln + 0)%nat by lia.
        rewrite firstn_app_2. cbn [firstn]. apply app_nil_r. }
      rewrite Hfn, E2, Hlen, Hlh. do 2 f_equal. f_equal. lia. }
  destruct Hhs as [Hhs Hh2']. rewrite Hhs.
  replace (2 + (Z.of_nat (length h) - 2)) with (Z.of_nat (length h)) by lia.
  destruct (Z.ltb_spec (Z.of_nat (length h)) 16); [|lia].
  rewrite Nat2Z.id. rewrite Hinp, rotl_app, <- app_assoc.
  destruct (sem_fields_complete (ac_fields a) its (rest ++ h) HF) as (q & Q1 & Q2 & Q3 & Q4 & Q5).
  { unfold fields_ok in P5. eapply Forall_impl; [|exact P5]. cbn. tauto. }
  rewrite Q1, Q2, Q3, Q4, Z.eqb_refl. cbn [bit_of].
  exists (map q_out q). split.
  - replace (1 + Z.of_nat (length (ac_fields a)) + 1) with (Z.of_nat (length (ac_fields a)) + 2) by lia.
    rewrite Z.eqb_refl. cbn [bit_of]. rewrite app_length. do 4 f_equal. lia.
  - eapply Forall2_impl'; [|exact Q5]. intros i o [X1 X2]. split; auto. rewrite X2, !app_length. lia.
Qed.
