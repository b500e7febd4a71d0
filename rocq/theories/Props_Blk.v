(** * Props_Blk.v — property C60 (BlkHeaderRlpCheck: an RLP list whose last fields may be absent) *)
From Coq Require Import ZArith List Lia Bool Arith.
From Verif Require Import ModNorm Field FieldLemmas RlpUtilModel RlpUtilProofs RlpModel RlpSpec RlpPrefixProofs RlpArrayProofs RlpArraySound BlkProofs EthProofs.
Import ListNotations.
Open Scope Z_scope.

(** ** C60
    [params_ok], [reads] as in C08.  An accepted buffer starts with a list header and min fieldNum n items; behind them only the
    headers of the unused fields are read — their payloads have no length — and those header digits are part of what the list
    header counts. *)
Theorem C60_header_rlp_sound : forall p a inp fn total lens outs, 2 ^ 200 < p -> params_ok a ->
  length inp = ac_maxHexLen a -> Forall nibble inp -> 0 <= fn < p ->
  blk_header_rlp_check p a inp fn = Some (1, total, lens, outs) ->
  fixed_lengths_hold (ac_fields a) lens ->
  exists h its unused, let tail := concat (map hdr unused) in
    reads inp (h ++ encs its ++ tail) /\
    Z.of_nat (length its) = Z.min fn (Z.of_nat (length (ac_fields a))) /\ (length its + length unused = length (ac_fields a))%nat /\
    Forall is_item its /\ Forall is_item unused /\
    lens = map (fun it => Z.of_nat (length (payload it))) its ++ repeat 0 (length unused) /\
    Forall2 (fun it out => (length (payload it) <= length inp)%nat -> firstn (length (payload it)) out = payload it) its (firstn (length its) outs) /\
    (~ In empty_list_enc (map enc (its ++ unused)) ->
       list_header h /\ rlp_item (h ++ encs its ++ tail) h (encs its ++ tail) /\ total = Z.of_nat (length (h ++ encs its ++ tail))).
Proof. exact blk_check_sound. Qed.

(** with at least as many fields as the table: exactly one list of n items, as RlpArrayCheck *)
Theorem C60_header_rlp_all_fields : forall p a inp fn total lens outs, 2 ^ 200 < p -> params_ok a ->
  length inp = ac_maxHexLen a -> Forall nibble inp -> Z.of_nat (length (ac_fields a)) <= fn < p ->
  blk_header_rlp_check p a inp fn = Some (1, total, lens, outs) ->
  fixed_lengths_hold (ac_fields a) lens ->
  exists h its,
    reads inp (h ++ encs its) /\ length its = length (ac_fields a) /\ Forall is_item its /\
    lens = map (fun it => Z.of_nat (length (payload it))) its /\
    Forall2 (fun it out => (length (payload it) <= length inp)%nat -> firstn (length (payload it)) out = payload it) its (firstn (length its) outs) /\
    (~ In empty_list_enc (map enc its) -> list_header h /\ rlp_item (h ++ encs its) h (encs its) /\ total = Z.of_nat (length (h ++ encs its))).
Proof.
  intros p a inp fn total lens outs Hp Ha Hl Hn Hfn H Hfix.
  destruct (blk_check_sound p a inp fn total lens outs Hp Ha Hl Hn) as (h & its & un & A1 & A2 & A3 & A4 & A5 & A6 & A7 & A8); auto; [lia|].
  assert (un = []) as -> by (destruct un; [reflexivity|cbn [length] in A3; lia]). change (hdrs []) with (@nil Z) in *. cbn [length repeat] in *. rewrite !app_nil_r in *.
  exists h, its. rewrite Nat.add_0_r in A3. auto 10.
Qed.

Lemma hdr_bytes it : is_item it -> hdr it = [] \/ exists b t, hdr it = byte_nibbles b ++ t /\ 128 <= b < 256.
Proof.
  intros H. unfold is_item in H. inversion H as [b Hb E1 E2 E3|b len pl Hc Hb Hlen E1 E2 E3|b ll ln pl Hc Hb H1 H2 H3 E1 E2 E3]; [left; auto| |]; right; exists b.
  - exists []. rewrite app_nil_r. split; [auto|]. unfold classify in Hc. destruct (Z.leb_spec b 127); [destruct Hc; discriminate|]. lia.
  - exists ln. split; [auto|]. unfold classify in Hc. destruct (Z.leb_spec b 127); [destruct Hc; discriminate|]. lia.
Qed.
Lemma hdrs_bytes : forall its, Forall is_item its -> hdrs its = [] \/ exists b t, hdrs its = byte_nibbles b ++ t /\ 128 <= b < 256.
Proof.
  intros its H. induction H as [|it its Hi H IH]; [left; reflexivity|]. change (hdrs (it :: its)) with (hdr it ++ hdrs its).
  destruct (hdr_bytes it Hi) as [E|(b & t & E & Hb)]; rewrite E; [exact IH|]. right. exists b, (t ++ hdrs its). rewrite app_assoc. auto.
Qed.
(** with fewer: when no byte of 0x80 or more stands behind the items, the buffer starts with exactly one list of fieldNum items *)
Theorem C60_header_rlp_some_fields : forall p a inp fn total lens outs, 2 ^ 200 < p -> params_ok a ->
  length inp = ac_maxHexLen a -> Forall nibble inp -> 0 <= fn <= Z.of_nat (length (ac_fields a)) ->
  blk_header_rlp_check p a inp fn = Some (1, total, lens, outs) ->
  fixed_lengths_hold (ac_fields a) lens ->
  exists h its,
    reads inp (h ++ encs its) /\ Z.of_nat (length its) = fn /\ Forall is_item its /\
    lens = map (fun it => Z.of_nat (length (payload it))) its ++ repeat 0 (length (ac_fields a) - length its) /\
    Forall2 (fun it out => (length (payload it) <= length inp)%nat -> firstn (length (payload it)) out = payload it) its (firstn (length its) outs) /\
    forall b, reads inp (h ++ encs its ++ byte_nibbles b) -> 0 <= b < 128 ->
      (~ In empty_list_enc (map enc its) -> list_header h /\ rlp_item (h ++ encs its) h (encs its) /\ total = Z.of_nat (length (h ++ encs its))).
Proof.
  intros p a inp fn total lens outs Hp Ha Hl Hn Hfn H Hfix.
  assert (Hlt : Z.of_nat (length (ac_fields a)) < 2 ^ 32) by (destruct Ha as (_ & _ & _ & ? & _); auto).
  destruct (blk_check_sound p a inp fn total lens outs Hp Ha Hl Hn) as (h & its & un & A1 & A2 & A3 & A4 & A5 & A6 & A7 & A8); auto.
  { assert (2 ^ 32 < 2 ^ 200) by (apply Z.pow_lt_mono_r; lia). lia. }
  exists h, its. split; [|split; [lia|split; [auto|split; [|split; [auto|]]]]].
  - rewrite app_assoc in A1. exact (reads_pre _ _ _ A1).
  - replace (length (ac_fields a) - length its)%nat with (length un) by lia. exact A6.
  - intros b Rb Hb Hne.
    assert (Hun : ~ exists b' t, hdrs un = byte_nibbles b' ++ t /\ 128 <= b' < 256).
    { intros (b' & t & E & Hb'). rewrite E in A1. set (pre := h ++ encs its).
      assert (N : forall k, (k < 2)%nat -> nth k (byte_nibbles b') 0 = nth k (byte_nibbles b) 0).
      { intros k Hk. rewrite app_assoc in Rb. fold pre in Rb. rewrite (app_assoc h) in A1. fold pre in A1. rewrite app_assoc in A1.
        pose proof (reads_pre _ _ _ A1) as R'. pose proof (Rb (length pre + k)%nat) as X. pose proof (R' (length pre + k)%nat) as Y.
        rewrite !app_length in X, Y. change (length (byte_nibbles b)) with 2%nat in X. change (length (byte_nibbles b')) with 2%nat in Y.
        specialize (X ltac:(lia)). specialize (Y ltac:(lia)). rewrite app_nth2 in X, Y by lia. replace (length pre + k - length pre)%nat with k in * by lia. congruence. }
      pose proof (N 0%nat ltac:(lia)) as N0. pose proof (N 1%nat ltac:(lia)) as N1. cbn [byte_nibbles nth] in N0, N1.
      pose proof (Z.div_mod b 16 ltac:(lia)). pose proof (Z.div_mod b' 16 ltac:(lia)). lia. }
    assert (Hd0 : hdrs un = []) by (destruct (hdrs_bytes un A5); [auto|contradiction]).
    assert (Hu : ~ In empty_list_enc (map enc (its ++ un))).
    { rewrite map_app. intros Hin. apply in_app_or in Hin as [Hin|Hin]; [auto|]. apply in_map_iff in Hin as (it & E & Hit).
      assert (Ei : is_item it) by (rewrite Forall_forall in A5; auto).
      assert (hdr it = []). { clear -Hd0 Hit. induction un as [|x un IH]; [easy|]. change (hdr x ++ hdrs un = []) in Hd0. apply app_eq_nil in Hd0 as [? ?]. destruct Hit as [->|?]; auto. }
      unfold is_item in Ei. rewrite E in Ei. unfold empty_list_enc in *. inversion Ei as [b1 Hb1 E1 E2 E3|b1 len pl Hc Hb1 Hlen E1 E2 E3|b1 ll ln pl Hc Hb1 Hx1 Hx2 Hx3 E1 E2 E3].
      - unfold byte_nibbles in E1. assert (b1 / 16 = 12 /\ b1 mod 16 = 0) as [? ?] by (split; congruence). pose proof (Z.div_mod b1 16 ltac:(lia)). lia.
      - rewrite H0 in E2. discriminate.
      - rewrite H0 in E2. discriminate. }
    specialize (A8 Hu). rewrite Hd0, app_nil_r in A8. exact A8.
Qed.

(** completeness: the list of the first fields of the table, followed — when some are unused — by a byte below 0x80 *)
Theorem C60_header_rlp_complete : forall p a inp h its rest fn fs1 fs2, 2 ^ 200 < p -> params_ok a ->
  length inp = ac_maxHexLen a -> Forall nibble inp ->
  inp = h ++ encs its ++ rest ->
  list_header h -> rlp_item (h ++ encs its) h (encs its) ->
  (length h <= 2 + ac_prefixMax a)%nat -> Z.of_nat (length h) < 2 ^ Z.of_nat (log_ceil (ac_prefixMax a)) ->
  ac_fields a = fs1 ++ fs2 -> fs1 <> [] -> Forall2 item_fits fs1 its -> tail_fits fs2 rest ->
  Z.of_nat (length fs1) <= fn < p -> (fs2 <> [] -> fn = Z.of_nat (length fs1)) ->
  exists outs,
    blk_header_rlp_check p a inp fn =
      Some (1, Z.of_nat (length (h ++ encs its)), map (fun it => Z.of_nat (length (payload it))) its ++ repeat 0 (length fs2), outs) /\
    Forall2 (fun it out => firstn (length (payload it)) out = payload it /\ length out = length inp) its (firstn (length its) outs).
Proof. exact blk_check_complete. Qed.

(** whatever the verdict: an entry that is not the last one and whose length may vary but is at least 1 must be in use *)
Theorem C60_variable_field_in_use : forall p a inp fn r k f, 2 ^ 200 < p -> params_ok a -> length inp = ac_maxHexLen a -> Forall nibble inp -> 0 <= fn < p ->
  blk_header_rlp_check p a inp fn = Some r -> nth_error (ac_fields a) k = Some f -> (S k < length (ac_fields a))%nat -> (0 < fst f)%nat -> fst f <> snd f ->
  Z.of_nat k < fn.
Proof. exact blk_check_unused. Qed.

Definition two_fields : array_check := ArrayCheck 16 4 [(0, 8); (0, 8)]%nat.
Example C60_example_params : params_ok two_fields.
Proof. unfold params_ok, two_fields, fields_ok. cbn [ac_prefixMax ac_maxHexLen ac_fields length fst snd]. split; [lia|]. split; [lia|]. split; [discriminate|]. split; [reflexivity|]. repeat constructor; cbn; lia. Qed.
(** 0xc2 05 06 with two fields, 0xc1 05 with one *)
Example C60_example :
  (exists outs, blk_header_rlp_check bn254 two_fields ([12; 2; 0; 5; 0; 6] ++ repeat 0 10) 2 = Some (1, 6, [2; 2], outs) /\ map (firstn 2) outs = [[0; 5]; [0; 6]]) /\
  (exists outs, blk_header_rlp_check bn254 two_fields ([12; 1; 0; 5] ++ repeat 0 12) 1 = Some (1, 4, [2; 0], outs) /\ map (firstn 2) (firstn 1 outs) = [[0; 5]]) /\
  (exists outs, blk_header_rlp_check bn254 two_fields ([12; 2; 0; 5] ++ repeat 0 12) 1 = Some (0, 6, [2; 0], outs)).
Proof. split; [|split]; eexists; vm_compute; eauto. Qed.
(** With one field in use: 0xc2 05 85 is accepted although it is no RLP list — the payload of 0x85 is missing — and the list
    0xc1 05 followed by the byte 0x81 (the Keccak padding of a message that fills its block but for one byte) is rejected. *)
Theorem C60_unused_header_bytes_refuted :
  (exists outs, blk_header_rlp_check bn254 two_fields ([12; 2; 0; 5; 8; 5] ++ repeat 0 10) 1 = Some (1, 6, [2; 0], outs)) /\
  (exists outs, blk_header_rlp_check bn254 two_fields ([12; 1; 0; 5; 8; 1] ++ repeat 0 10) 1 = Some (0, 4, [2; 0], outs)).
Proof. split; eexists; vm_compute; reflexivity. Qed.
