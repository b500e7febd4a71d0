(** * RlpNestSound.v — soundness of RlpNestArrayCheck *)
From Coq Require Import ZArith List Lia Bool Arith.
From Verif Require Import ModNorm Field FieldLemmas RlpUtilModel RlpUtilProofs RlpModel RlpSpec RlpPrefixProofs RlpArrayProofs RlpArraySound RlpNestProofs.
Import ListNotations.
Open Scope Z_scope.

Ltac Zify.zify_post_hook ::= Z.div_mod_to_equations.

Definition is_list_item (it : item) : Prop := list_header (hdr it).
Definition zero_byte_enc : list Z := [0; 0].

(** What RlpNestArrayCheck hands out for a field: the whole encoding for list items, the payload otherwise. *)
Definition nest_content (it : item) (c : list Z) : Prop :=
  (is_list_item it /\ c = enc it) \/ (~ is_list_item it /\ c = payload it).

Lemma list_item_byte0 it r : is_item it -> reads r (enc it) -> (2 <= length r)%nat -> Forall nibble r ->
  (is_list_item it <-> is_array r = true).
Proof.
  intros H Hr Hl Hn. unfold is_list_item, is_array.
  assert (Hb : forall b t, enc it = byte_nibbles b ++ t -> 0 <= b < 256 -> byte0 r = b).
  { intros b t He Hb. unfold byte0. assert (G0 := Hr 0%nat). assert (G1 := Hr 1%nat). rewrite He in G0, G1.
    rewrite app_length in G0, G1. cbn [length byte_nibbles] in G0, G1.
    specialize (G0 ltac:(lia)). specialize (G1 ltac:(lia)). rewrite Nat.mod_small in G0, G1 by lia.
    unfold byte_nibbles in *. cbn [app nth] in G0, G1. lia. }
  rewrite Z.leb_le.
  destruct it as [h pl]. unfold is_item, enc, hdr, payload in *. cbn [fst snd] in *.
  remember (h ++ pl) as e eqn:Ee. 
  assert (Hhead : forall b, list_header (byte_nibbles b) -> 0 <= b < 256 -> is_list_head (classify b) = true).
  { intros b (b' & rest & E1 & E2 & E3) Hbr.
    assert (b = b'). { assert (byte0 (byte_nibbles b ++ []) = byte0 (byte_nibbles b' ++ rest)) by (rewrite app_nil_r; congruence).
      rewrite !byte0_bn in * by auto. auto. } subst; auto. }
  assert (Hhead2 : forall b t, list_header (byte_nibbles b ++ t) -> 0 <= b < 256 -> is_list_head (classify b) = true).
  { intros b t (b' & rest & E1 & E2 & E3) Hbr.
    assert (b = b'). { assert (byte0 (byte_nibbles b ++ t) = byte0 (byte_nibbles b' ++ rest)) by congruence.
      rewrite !byte0_bn in * by auto. auto. } subst; auto. }
  assert (Hcl : forall b, 0 <= b < 256 -> (is_list_head (classify b) = true <-> 192 <= b)).
  { intros b Hbr. pose proof (classify_cases b Hbr) as Hc. destruct (classify b); cbn; split; intros; auto; try discriminate; lia. }
  inversion H as [b Hbr E1 E2 E3|b len pl' Hc Hbr Hlen E1 E2 E3|b lenlen ln pl' Hc Hbr Hll Hnb Hlen E1 E2 E3]; subst h pl.
  - rewrite (Hb b []) by (try lia; rewrite app_nil_r; congruence). split; [|lia].
    intros (b' & rest & X & _). discriminate.
  - rewrite (Hb b pl') by (try lia; congruence). rewrite <- Hcl by auto. split; [intros X; apply Hhead; auto|].
    intros X. exists b, []. rewrite app_nil_r. auto.
  - rewrite (Hb b (ln ++ pl')) by (try lia; congruence). rewrite <- Hcl by auto. split; [intros X; eapply Hhead2; eauto|].
    intros X. exists b, ln. auto.
Qed.

(** shape => item *)
Lemma nest_shape_item : forall lpm r h l, Forall nibble r -> (2 + lpm <= length r)%nat -> (2 <= lpm <= 16)%nat ->
  nest_shape lpm r = Some (h, l) ->
  exists it, is_item it /\ length (hdr it) = Z.to_nat h /\ Z.of_nat (length (payload it)) = l /\ reads r (enc it) /\
    (forall k, (k < length (payload it))%nat ->
       nth k (payload it) 0 = nth (k mod length r) (rotl (Z.to_nat h) r) 0) /\
    (cinc_of r = 2 <-> enc it = empty_list_enc).
Proof.
  intros lpm r h l Hn Hl Hlpm H. unfold nest_shape in H.
  destruct (classify (byte0 r)) as [|x|k|x|k] eqn:Ec; try (eapply field_shape_item; eauto; lia).
  destruct (Z.leb_spec (2 * k) (Z.of_nat lpm)); [|discriminate].
  assert (h = 2 + 2 * k) by congruence.
  assert (El : l = 2 * hexval (firstn (Z.to_nat (2 * k)) (skipn 2 r))) by congruence.
  assert (H2 : (2 <= length r)%nat) by lia.
  pose proof (byte0_range r H2 Hn) as Hb. pose proof (classify_cases _ Hb) as Hc. rewrite Ec in Hc.
  pose proof (hexval_bound (firstn (Z.to_nat (2 * k)) (skipn 2 r)) ltac:(apply Forall_firstn, Forall_skipn; auto)) as Hh.
  exists (firstn (Z.to_nat h) r, cread r (Z.to_nat h) (Z.to_nat l)).
  unfold is_item, enc, hdr, payload. cbn [fst snd].
  assert (Hlp : length (cread r (Z.to_nat h) (Z.to_nat l)) = Z.to_nat l) by apply cread_length.
  assert (Hlh : length (firstn (Z.to_nat h) r) = Z.to_nat h) by (rewrite firstn_length; lia).
  assert (Hrd : reads r (firstn (Z.to_nat h) r ++ cread r (Z.to_nat h) (Z.to_nat l))) by (apply reads_cread; lia).
  split; [|split; [auto|split; [rewrite Hlp; lia|split; [auto|split]]]].
  - replace (firstn (Z.to_nat h) r) with (byte_nibbles (byte0 r) ++ firstn (Z.to_nat (2 * k)) (skipn 2 r)).
    2:{ rewrite <- byte_nibbles_byte0 by auto. replace (Z.to_nat h) with (2 + Z.to_nat (2 * k))%nat by lia.
        destruct r as [|a [|b r']]; cbn in H2; try lia. reflexivity. }
    rewrite <- app_assoc. apply item_long with (lenlen := k); auto.
    * rewrite firstn_length, skipn_length. lia.
    * apply Forall_firstn, Forall_skipn; auto.
    * rewrite cread_length. lia.
  - intros j Hj. rewrite Hlp in Hj. rewrite cread_nth by lia. rewrite rotl_nth by (apply Nat.mod_upper_bound; lia).
    f_equal. rewrite Nat.add_mod_idemp_l by lia. f_equal. lia.
  - unfold cinc_of. destruct (Z.eqb_spec (byte0 r) 192) as [E|E]; [lia|]. split; [lia|]. intros E2.
    assert (L : length (firstn (Z.to_nat h) r ++ cread r (Z.to_nat h) (Z.to_nat l)) = 2%nat) by (rewrite E2; auto).
    rewrite app_length, Hlh in L. lia.
Qed.

Definition nitem_of (M : nat) (it : item) (x : Z * Z * list Z * Z) : Prop :=
  is_item it /\ Z.of_nat (length (enc it)) = n_e x /\
  (exists c, nest_content it c /\ Z.of_nat (length c) = n_l x /\ ((length c <= M)%nat -> firstn (length c) (n_out x) = c)) /\
  (n_c x = 1 <-> enc it = empty_list_enc) /\ (n_c x = 0 \/ n_c x = 1).

Lemma reads_firstn_eq : forall r c, reads r c -> (length c <= length r)%nat -> firstn (length c) r = c.
Proof.
  intros r c H Hl. apply (nth_ext' _ _ _ 0). { rewrite firstn_length. lia. }
  intros i Hi. rewrite firstn_length in Hi. rewrite nth_firstn' by lia. rewrite H by lia. rewrite Nat.mod_small by lia. auto.
Qed.

(** Either all fields were parsed as consecutive items, or the parse got stuck at a zero byte after fewer items. *)
Lemma nsem_fields_items : forall fs M r q, fields_ok M fs -> length r = M -> Forall nibble r -> (2 <= M)%nat ->
  nsem_fields fs r = Some q -> fixed_lengths_hold fs (map n_l q) ->
  (exists its, Forall2 (nitem_of M) its q /\ reads r (encs its)) \/
  (exists its, (length its < length fs)%nat /\ Forall is_item its /\ reads r (encs its ++ zero_byte_enc)).
Proof.
  induction fs as [|[fmin fmax] rest IH]; intros M r q Hf Hl Hn HM H Hfix; cbn [nsem_fields] in H.
  - assert (q = []) by congruence. subst. left. exists []. split; auto. intros k Hk. cbn in Hk. lia.
  - inversion Hf as [|? ? H1 H2]; subst. cbn [fst snd] in H1. destruct H1 as (A1 & A2 & A3).
    pose proof (len_prefix_max_bounds _ A2) as Hlpm.
    destruct (nest_shape _ r) as [[h l]|] eqn:E; [|discriminate].
    pose proof (nest_shape_bounds _ _ _ _ Hn HM (proj2 Hlpm) E) as [Eh El].
    destruct (nest_shape_item _ _ _ _ Hn A3 Hlpm E) as (it & I1 & I2 & I3 & I4 & I5 & I6).
    destruct (Z.eq_dec (byte0 r) 0) as [Ez|Ez].
    { right. exists []. split; [cbn; lia|]. split; auto. intros k Hk. cbn in Hk.
      unfold byte0 in Ez. pose proof (nth_nibble r 0 Hn). pose proof (nth_nibble r 1 Hn). unfold nibble in *.
      rewrite Nat.mod_small by lia. cbn [encs map concat app]. destruct k as [|[|k]]; cbn [nth zero_byte_enc]; lia. }
    pose proof (list_item_byte0 it r I1 I4 HM Hn) as Hla.
    assert (Hpay : nest_pay r l = l) by (unfold nest_pay; destruct (Z.eqb_spec (byte0 r) 0); auto; lia).
    assert (Henc : Z.of_nat (length (enc it)) = h + l).
    { unfold enc. rewrite app_length. unfold hdr, payload in *. lia. }
    set (x := (h + nest_pay r l, nest_len r h l, nest_out r h, c0_of r)) in *.
    assert (Hit : nitem_of (length r) it x).
    { unfold nitem_of. change (n_e x) with (h + nest_pay r l). change (n_l x) with (nest_len r h l).
      change (n_out x) with (nest_out r h). change (n_c x) with (c0_of r).
      split; [auto|]. split; [lia|]. split; [|split].
      - unfold nest_content, nest_len, nest_out. destruct (is_array r) eqn:Ea.
        + exists (enc it). split; [left; split; auto; apply Hla; auto|]. split; [auto|]. intros. apply reads_firstn_eq; auto.
        + exists (payload it). split; [right; split; auto; rewrite Hla; discriminate|]. split; [lia|].
          intros Hle. apply (nth_ext' _ _ _ 0). { rewrite firstn_length, rotl_length. lia. }
          intros i Hi. rewrite firstn_length in Hi. rewrite nth_firstn' by lia. rewrite I5 by lia.
          rewrite rotl_length in Hi. rewrite Nat.mod_small by lia. auto.
      - rewrite <- I6. unfold c0_of, cinc_of. destruct (_ =? _); cbn; split; intros; auto; discriminate.
      - unfold c0_of. destruct (_ =? _); cbn; auto. }
    destruct rest as [|f2 rest].
    + assert (q = [x]) by congruence. subst q. left.
      exists [it]. split; [constructor; auto|]. unfold encs. cbn [map concat]. rewrite app_nil_r. auto.
    + destruct (if Nat.eqb fmin fmax then _ else _) as [r'|] eqn:En; [|discriminate].
      destruct (nsem_fields (f2 :: rest) r') as [q'|] eqn:Eq; [|discriminate].
      assert (q = x :: q') by congruence. subst q.
      cbn [map fixed_lengths_hold tl] in Hfix. destruct Hfix as [F1 F2].
      change (n_l x) with (nest_len r h l) in F1.
      assert (Hr' : r' = rotl (length (enc it)) r).
      { assert (Hr2 : r' = rotl (Z.to_nat (nest_len r h l)) (nest_out r h)).
        { destruct (Nat.eqb_spec fmin fmax) as [e|e].
          - rewrite (F1 e), Nat2Z.id. congruence.
          - destruct (_ && _); [|discriminate]. congruence. }
        rewrite Hr2. unfold nest_len, nest_out. destruct (is_array r).
        - f_equal. lia.
        - rewrite rotl_rotl. f_equal. lia. }
      destruct (IH (length r) r' q') as [(its & J1 & J2)|(its & J1 & J2 & J3)]; auto.
      { rewrite Hr', rotl_length; auto. } { rewrite Hr'. apply rotl_nibble; auto. }
      * left. exists (it :: its). split; [constructor; auto|]. rewrite encs_cons. apply reads_app; auto; [lia|].
        rewrite <- Hr'. auto.
      * right. exists (it :: its). split; [cbn [length] in *; lia|]. split; auto. rewrite encs_cons, <- app_assoc.
        apply reads_app; auto; [lia|]. rewrite <- Hr'. auto.
Qed.

Lemma nitems_lens : forall M its q, Forall2 (nitem_of M) its q ->
  Z.of_nat (length (encs its)) = zsum (map n_e q) /\
  Forall is_item its /\ Forall (fun x => n_c x = 0 \/ n_c x = 1) q /\
  (Exists (fun x => n_c x = 1) q <-> In empty_list_enc (map enc its)).
Proof.
  intros M its q H. induction H as [|it x its q H1 H2 IH].
  - cbn. repeat split; auto. + intros E; inversion E. + intros [].
  - destruct H1 as (A1 & A2 & A3 & A4 & A5). destruct IH as (B1 & B2 & B3 & B4).
    cbn [map]. rewrite encs_cons, app_length. split; [|split; [auto|split; [auto|]]].
    + change (zsum (n_e x :: map n_e q)) with (n_e x + zsum (map n_e q)). lia.
    + cbn [In]. rewrite <- B4, <- A4. split; intros E; [inversion E; auto|destruct E; auto].
Qed.

Lemma zsum_no_c0 : forall q, Forall (fun x => n_c x = 0 \/ n_c x = 1) q -> ~ Exists (fun x => n_c x = 1) q ->
  zsum (map (fun x => 1 + n_c x) q) = Z.of_nat (length q) /\ zsum (map (fun x => n_e x - n_c x) q) = zsum (map n_e q).
Proof.
  induction q as [|x q IH]; intros H Hn; [split; auto|]. inversion H; subst.
  destruct IH as [I1 I2]; auto.
  assert (n_c x = 0) by (destruct H2; auto; exfalso; apply Hn; auto).
  cbn [map zsum fold_right length]. unfold zsum in *. rewrite I1, I2. lia.
Qed.

Theorem nest_check_sound : forall p a inp total lens outs, 2 ^ 200 < p -> params_ok a ->
  length inp = ac_maxHexLen a -> Forall nibble inp ->
  rlp_nest_array_check p a inp = Some (1, total, lens, outs) ->
  fixed_lengths_hold (ac_fields a) lens ->
  exists h its, reads inp (h ++ encs its) /\ Forall is_item its /\
   (((length its < length (ac_fields a))%nat /\ reads inp (h ++ encs its ++ zero_byte_enc)) \/
    (length its = length (ac_fields a) /\
     (exists cs, Forall2 nest_content its cs /\ lens = map (fun c => Z.of_nat (length c)) cs /\
       Forall2 (fun c out => (length c <= length inp)%nat -> firstn (length c) out = c) cs outs) /\
     (~ In empty_list_enc (map enc its) ->
       list_header h /\ rlp_item (h ++ encs its) h (encs its) /\ total = Z.of_nat (length (h ++ encs its))))).
Proof.
  intros p a inp total lens outs Hp Ha Hl Hn H Hfix. rewrite rlp_nest_array_check_ok in H by auto.
  destruct Ha as (P1 & P2 & P3 & P4 & P5). unfold sem_nest_check in H.
  destruct (head_shape _ inp) as [[[v pre] t]|] eqn:Eh; [|discriminate].
  assert (Hl2 : (2 <= length inp)%nat) by lia.
  assert (Hl3 : (2 + ac_prefixMax a <= length inp)%nat) by lia.
  pose proof (head_shape_bounds _ _ _ _ _ Hn Hl2 (proj2 P1) Eh) as (Bv & Bp & Bt).
  destruct (head_shape_reads _ _ _ _ _ Hn Hl3 Eh) as (R1 & R2 & R3).
  destruct (2 + pre <? _); [|discriminate].
  destruct (nsem_fields _ _) as [q|] eqn:Eq; [|discriminate].
  assert (E0 : bit_of (v + zsum (map (fun x => 1 + n_c x) q) + bit_of (t =? zsum (map (fun x => n_e x - n_c x) q))
     =? Z.of_nat (length (ac_fields a)) + 2) = 1) by congruence.
  assert (Et : total = 2 + pre + t) by congruence. assert (El : lens = map n_l q) by congruence.
  assert (Eo : outs = map n_out q) by congruence. clear H. subst lens.
  assert (P5' : fields_ok (length inp) (ac_fields a)) by (rewrite Hl; auto).
  pose proof (nsem_bounds _ (length inp) _ _ P5' (rotl_length _ _) (rotl_nibble _ _ Hn) Hl2 Eq) as [Lq _].
  exists (firstn (Z.to_nat (2 + pre)) inp).
  destruct (nsem_fields_items (ac_fields a) (length inp) (rotl (Z.to_nat (2 + pre)) inp) q) as [(its & I1 & I2)|(its & I1 & I2 & I3)];
    rewrite ?rotl_length; auto; try lia. { apply rotl_nibble; auto. }
  2:{ exists its. assert (Hr : reads inp (firstn (Z.to_nat (2 + pre)) inp ++ encs its ++ zero_byte_enc)).
      { apply reads_app; [apply reads_firstn; auto|lia|]. rewrite R2. auto. }
      split; [|split; [auto|left; auto]].
      intros k Hk. specialize (Hr k). rewrite !app_length in *. specialize (Hr ltac:(lia)).
      rewrite app_assoc, app_nth1 in Hr by (rewrite app_length; lia). auto. }
  exists its.
  destruct (nitems_lens _ _ _ I1) as (J1 & J2 & J3 & J4).
  split. { apply reads_app; [apply reads_firstn; auto|lia|]. rewrite R2. auto. }
  split; [auto|]. right. split; [apply Forall2_len in I1; lia|]. split.
  - subst outs. clear - I1. induction I1 as [|it x its q H1 H2 IH].
    + exists []. cbn. auto.
    + destruct IH as (cs & C1 & C2 & C3). destruct H1 as (_ & _ & (c & D1 & D2 & D3) & _).
      exists (c :: cs). cbn [map]. split; [auto|]. split; [congruence|]. auto.
  - intros Hne. destruct (zsum_no_c0 q J3) as [Z1 Z2]; [rewrite J4; auto|].
    rewrite Z1, Z2, Lq in E0.
    destruct (Z.eqb_spec (v + Z.of_nat (length (ac_fields a)) + bit_of (t =? zsum (map n_e q))) (Z.of_nat (length (ac_fields a)) + 2)) as [e0|e0];
      [|cbn in E0; lia].
    destruct (Z.eqb_spec t (zsum (map n_e q))) as [e|e]; cbn [bit_of] in e0; [|lia].
    destruct R3 as [R3 R4]; [lia|]. split; auto. split; [apply R4; lia|]. rewrite app_length, R2. lia.
Qed.
