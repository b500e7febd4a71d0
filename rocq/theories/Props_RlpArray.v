(** * Props_RlpArray.v — properties C08 and C09 *)
From Coq Require Import ZArith List Lia Bool Arith.
From Verif Require Import ModNorm Field FieldLemmas RlpUtilModel RlpUtilProofs RlpModel RlpSpec RlpPrefixProofs RlpArrayProofs RlpArraySound RlpNestProofs RlpNestSound RlpNumProofs.
Import ListNotations.
Open Scope Z_scope.

(** ** C08
    [params_ok] (RlpArrayProofs.v) bounds the parameter table: header table of 1..48 nibbles that fits the buffer,
    at least one and fewer than 2^32 fields, min <= max < 2^63 and room for each length prefix in the buffer.
    [reads buf s] (RlpSpec.v): s is read from the front of buf (cyclically if longer). *)
Theorem C08_rlp_array_check_sound : forall p a inp total lens outs, 2 ^ 200 < p -> params_ok a ->
  length inp = ac_maxHexLen a -> Forall nibble inp ->
  rlp_array_check p a inp (Z.of_nat (length (ac_fields a))) = Some (1, total, lens, outs) ->
  fixed_lengths_hold (ac_fields a) lens ->
  exists h its,
    reads inp (h ++ encs its) /\ length its = length (ac_fields a) /\ Forall is_item its /\
    lens = map (fun it => Z.of_nat (length (payload it))) its /\
    Forall2 (fun it out => (length (payload it) <= length inp)%nat -> firstn (length (payload it)) out = payload it) its outs /\
    (~ In empty_list_enc (map enc its) ->
       list_header h /\ rlp_item (h ++ encs its) h (encs its) /\ total = Z.of_nat (length (h ++ encs its))) /\
    (In empty_list_enc (map enc its) ->
       ~ (list_header h /\ total = Z.of_nat (length (h ++ encs its)))).
Proof. exact array_check_sound. Qed.

(** When the announced total fits the buffer: the buffer starts with the list, literally. *)
Theorem C08_rlp_array_check_sound_prefix : forall p a inp total lens outs, 2 ^ 200 < p -> params_ok a ->
  length inp = ac_maxHexLen a -> Forall nibble inp ->
  rlp_array_check p a inp (Z.of_nat (length (ac_fields a))) = Some (1, total, lens, outs) ->
  fixed_lengths_hold (ac_fields a) lens -> total <= Z.of_nat (length inp) ->
  exists h its,
    (In empty_list_enc (map enc its) /\ reads inp (h ++ encs its)) \/
    (firstn (Z.to_nat total) inp = h ++ encs its /\ list_header h /\ rlp_item (firstn (Z.to_nat total) inp) h (encs its) /\
     Forall is_item its /\ lens = map (fun it => Z.of_nat (length (payload it))) its /\
     Forall2 (fun it out => firstn (length (payload it)) out = payload it) its outs).
Proof.
  intros p a inp total lens outs Hp Ha Hl Hn H Hfix Ht.
  destruct (array_check_sound p a inp total lens outs Hp Ha Hl Hn H Hfix) as (h & its & A1 & A2 & A3 & A4 & A5 & A6 & A7).
  exists h, its. destruct (in_dec (list_eq_dec Z.eq_dec) empty_list_enc (map enc its)) as [Hin|Hin]; [left; auto|right].
  destruct (A6 Hin) as (B1 & B2 & B3).
  destruct (reads_prefix inp (h ++ encs its)) as [rest Hrest]; [lia|auto|].
  assert (Hf : firstn (Z.to_nat total) inp = h ++ encs its).
  { replace (Z.to_nat total) with (length (h ++ encs its) + 0)%nat by lia.
    rewrite Hrest at 1. rewrite firstn_app_2. cbn. apply app_nil_r. }
  rewrite Hf. repeat (split; [auto|]).
  assert (Hall : Forall (fun it => (length (payload it) <= length inp)%nat) its).
  { apply Forall_forall. intros it Hit. assert (length (payload it) <= length (encs its))%nat.
    { clear - Hit. induction its as [|i its IH]; [easy|]. rewrite encs_cons, app_length. destruct Hit as [->|Hit].
      - unfold enc, payload. rewrite app_length. lia.
      - specialize (IH Hit). lia. }
    rewrite app_length in B3. lia. }
  clear - A5 Hall. induction A5; constructor; inversion Hall; subst; auto.
Qed.

Theorem C08_rlp_array_check_complete : forall p a inp h its rest, 2 ^ 200 < p -> params_ok a ->
  length inp = ac_maxHexLen a -> Forall nibble inp ->
  inp = h ++ encs its ++ rest ->
  list_header h -> rlp_item (h ++ encs its) h (encs its) ->
  (length h <= 2 + ac_prefixMax a)%nat -> (length h <= 14)%nat ->
  Forall2 item_fits (ac_fields a) its ->
  exists outs,
    rlp_array_check p a inp (Z.of_nat (length (ac_fields a))) =
      Some (1, Z.of_nat (length (h ++ encs its)), map (fun it => Z.of_nat (length (payload it))) its, outs) /\
    Forall2 (fun it out => firstn (length (payload it)) out = payload it /\ length out = length inp) its outs.
Proof. exact array_check_complete. Qed.

(** With an explicit number of fields k below the size of the parameter table, the check is the check for the table's first k fields:
    same verdict and total; the lengths of the other fields are reported as 0. *)
Theorem C08_field_number : forall p a inp k out total lens outs, 2 < p -> (1 <= k <= length (ac_fields a))%nat -> Z.of_nat (length (ac_fields a)) < p ->
  rlp_array_check p a inp (Z.of_nat k) = Some (out, total, lens, outs) ->
  exists lens1 outs1 outs2,
    rlp_array_check p (ArrayCheck (ac_maxHexLen a) (ac_prefixMax a) (firstn k (ac_fields a))) inp (Z.of_nat k) = Some (out, total, lens1, outs1) /\
    lens = lens1 ++ repeat 0 (length (ac_fields a) - k) /\ outs = outs1 ++ outs2 /\ length outs2 = (length (ac_fields a) - k)%nat.
Proof. intros p a inp k out total lens outs Hp. exact (array_check_num p Hp a inp k out total lens outs). Qed.
(** hence an accepted buffer holds a list of exactly k items, whose lengths and contents are the first k results *)
Theorem C08_field_number_sound : forall p a inp k total lens outs, 2 ^ 200 < p -> params_ok a ->
  length inp = ac_maxHexLen a -> Forall nibble inp -> (1 <= k <= length (ac_fields a))%nat ->
  rlp_array_check p a inp (Z.of_nat k) = Some (1, total, lens, outs) ->
  fixed_lengths_hold (firstn k (ac_fields a)) (firstn k lens) ->
  exists h its,
    reads inp (h ++ encs its) /\ length its = k /\ Forall is_item its /\
    lens = map (fun it => Z.of_nat (length (payload it))) its ++ repeat 0 (length (ac_fields a) - k) /\
    Forall2 (fun it out => (length (payload it) <= length inp)%nat -> firstn (length (payload it)) out = payload it) its (firstn k outs) /\
    (~ In empty_list_enc (map enc its) ->
       list_header h /\ rlp_item (h ++ encs its) h (encs its) /\ total = Z.of_nat (length (h ++ encs its))).
Proof.
  intros p a inp k total lens outs Hp Ha Hl Hn Hk H Hfix. assert (P2 : 2 ^ 32 < 2 ^ 200) by reflexivity. pose proof Ha as (A1 & A2 & A3 & A4 & A5).
  destruct (array_check_num p ltac:(lia) a inp k 1 total lens outs Hk ltac:(lia) H) as (l1 & o1 & o2 & E & -> & -> & L2).
  set (a' := ArrayCheck (ac_maxHexLen a) (ac_prefixMax a) (firstn k (ac_fields a))) in *. assert (Lk : length (firstn k (ac_fields a)) = k) by (rewrite firstn_length; lia).
  assert (Ha' : params_ok a').
  { split; [exact A1|]. split; [exact A2|]. cbn [a' ac_fields ac_maxHexLen]. split; [intros C; rewrite C in Lk; cbn in Lk; lia|]. split; [lia|]. unfold fields_ok in *. apply Forall_firstn. exact A5. }
  assert (E' : rlp_array_check p a' inp (Z.of_nat (length (ac_fields a'))) = Some (1, total, l1, o1)) by (cbn [a' ac_fields]; rewrite Lk; exact E).
  assert (LL : length l1 = k /\ length o1 = k). { destruct (array_lens p a' inp _ _ _ _ _ E') as [Q1 Q2]. cbn [a' ac_fields] in Q1, Q2. lia. }
  destruct LL as [LL1 LL2]. assert (F1 : firstn k (l1 ++ repeat 0 (length (ac_fields a) - k)) = l1) by (rewrite firstn_app, LL1, Nat.sub_diag, <- LL1, firstn_all; apply app_nil_r).
  assert (F2 : firstn k (o1 ++ o2) = o1) by (rewrite firstn_app, LL2, Nat.sub_diag, <- LL2, firstn_all; apply app_nil_r). rewrite F1 in Hfix.
  destruct (array_check_sound p a' inp total l1 o1 Hp Ha' Hl Hn E' Hfix) as (h & its & B1 & B2 & B3 & B4 & B5 & B6 & B7).
  exists h, its. rewrite F2. cbn [a' ac_fields] in B2. split; [exact B1|]. split; [lia|]. split; [exact B3|]. split; [rewrite <- B4; reflexivity|]. split; [exact B5|exact B6].
Qed.
(** a concrete list [0x0507, 0x09] in a 40-nibble buffer meets the hypotheses *)
Definition ex_params : array_check := ArrayCheck 40 4 [(0, 8); (0, 8)]%nat.
Definition ex_buf : list Z := [12; 4; 8; 2; 0; 5; 0; 7; 0; 9] ++ repeat 0 30.
Lemma ex_params_ok : params_ok ex_params.
Proof.
  unfold params_ok, fields_ok, ex_params. cbn [ac_prefixMax ac_maxHexLen ac_fields length].
  repeat split; try lia; try discriminate. repeat constructor; cbn [fst snd]; try lia; vm_compute; lia.
Qed.
Example C08_example : exists outs, rlp_array_check bn254 ex_params ex_buf 2 = Some (1, 10, [4; 2], outs).
Proof. eexists. vm_compute. reflexivity. Qed.
Example C08_example_complete :
  let its := [([8; 2], [0; 5; 0; 7]); ([], [0; 9])] in
  ex_buf = [12; 4] ++ encs its ++ repeat 0 30 /\ list_header [12; 4] /\
  rlp_item ([12; 4] ++ encs its) [12; 4] (encs its) /\ Forall2 item_fits (ac_fields ex_params) its.
Proof.
  split; [reflexivity|]. split; [exists 196, []; repeat split; auto; lia|]. split.
  - apply (item_short 196 4); auto. lia.
  - constructor; [|constructor; [|constructor]].
    + split; [apply (item_short 130 2); auto; lia|]. split; [discriminate|]. split; [left; cbn; lia|cbn; lia].
    + split; [apply (item_literal 9); lia|]. split; [discriminate|]. split; [left; cbn; lia|cbn; lia].
Qed.

(** The unconditional claim is false of the code, in three independent ways. *)
(** (a) a field that is the empty list 0xc0 makes a well-formed list rejected ... *)
Theorem C08_empty_list_field_rejected_refuted :
  let its := [([12; 0], []); ([], [0; 5])] in
  let inp := [12; 2] ++ encs its ++ repeat 0 34 in
  Forall is_item its /\ rlp_item ([12; 2] ++ encs its) [12; 2] (encs its) /\
  exists total lens outs, rlp_array_check bn254 ex_params inp 2 = Some (0, total, lens, outs).
Proof.
  split; [|split].
  - repeat constructor; [apply (item_short 192 0); auto; lia|apply (item_literal 5); lia].
  - apply (item_short 194 2); auto. lia.
  - do 3 eexists. vm_compute. reflexivity.
Qed.
(** ... and a list whose announced length (9 bytes) is not the length of its fields (2 bytes) accepted. *)
Theorem C08_empty_list_field_wrong_length_accepted_refuted :
  let inp := [12; 9; 12; 0; 0; 5] ++ repeat 0 34 in
  exists lens outs, rlp_array_check bn254 ex_params inp 2 = Some (1, 20, lens, outs) /\ lens = [0; 2].
Proof. do 2 eexists. split; [vm_compute; reflexivity|reflexivity]. Qed.
(** (b) the length of a fixed-size (min = max) field is not enforced: the bytes 0xc2 0x05 0xff 0x07 are accepted
    as the list [0x05; 0x07] although the list there is [0x05; 0xff...]. *)
Theorem C08_fixed_field_length_not_enforced_refuted :
  let a := ArrayCheck 40 4 [(4, 4); (0, 8)]%nat in
  let inp := [12; 2; 0; 5; 15; 15; 0; 7] ++ repeat 0 32 in
  params_ok a /\ exists o1 o2, rlp_array_check bn254 a inp 2 = Some (1, 6, [2; 2], [o1; o2]) /\
  firstn 2 o1 = [0; 5] /\ firstn 2 o2 = [0; 7].
Proof.
  split.
  - unfold params_ok, fields_ok. cbn [ac_prefixMax ac_maxHexLen ac_fields length].
    repeat split; try lia; try discriminate. repeat constructor; cbn [fst snd]; try lia; vm_compute; lia.
  - do 2 eexists. split; [vm_compute; reflexivity|]. split; reflexivity.
Qed.
(** (c) a 56-byte string field within the declared bound (0..126 nibbles) is rejected: its 1-byte length prefix
    does not fit the shifter, which has only LogCeil(2) = 2 bits for a shift of 4. *)
Theorem C08_long_field_in_bounds_rejected_refuted :
  let a := ArrayCheck 160 4 [(0, 126)]%nat in
  let its := [([11; 8; 3; 8], repeat 1 112)] in
  let inp := [15; 8; 3; 10] ++ encs its ++ repeat 0 40 in
  params_ok a /\ Forall is_item its /\ rlp_item ([15; 8; 3; 10] ++ encs its) [15; 8; 3; 10] (encs its) /\
  length inp = 160%nat /\ rlp_array_check bn254 a inp 1 = None.
Proof.
  assert (N : Forall nibble [3; 8] /\ Forall nibble [3; 10]) by (split; repeat constructor; unfold nibble; lia).
  destruct N as [N1 N2].
  split; [|split; [|split; [|split]]].
  - unfold params_ok, fields_ok. cbn [ac_prefixMax ac_maxHexLen ac_fields length].
    repeat split; try lia; try discriminate. repeat constructor; cbn [fst snd]; try lia; vm_compute; lia.
  - repeat constructor. apply (item_long 184 1 [3; 8] (repeat 1 112)); auto; lia.
  - apply (item_long 248 1 [3; 10]); auto; lia.
  - reflexivity.
  - vm_compute. reflexivity.
Qed.

(** three fields in the table, two announced *)
Example C08_field_number_example : exists outs, rlp_array_check bn254 (ArrayCheck 40 4 [(0, 8); (0, 8); (0, 8)]%nat) ex_buf 2 = Some (1, 10, [4; 2; 0], outs).
Proof. eexists. vm_compute. reflexivity. Qed.

(** ** C09 *)
(** RlpNestArrayCheck: list-typed fields are handed out with their header ([nest_content]).  If the check
    accepts, then either the parse got stuck on a zero byte (0x00 literal, whose length is taken as 0) after
    fewer items, or all fields are consecutive items and — unless one of them is the empty list — the list
    header announces exactly their total length. *)
Theorem C09_rlp_nest_array_check_sound : forall p a inp total lens outs, 2 ^ 200 < p -> params_ok a ->
  length inp = ac_maxHexLen a -> Forall nibble inp ->
  rlp_nest_array_check p a inp = Some (1, total, lens, outs) ->
  fixed_lengths_hold (ac_fields a) lens ->
  exists h its, reads inp (h ++ encs its) /\ Forall is_item its /\
   (((length its < length (ac_fields a))%nat /\ reads inp (h ++ encs its ++ zero_byte_enc)) \/
    (length its = length (ac_fields a) /\
     (exists cs, Forall2 nest_content its cs /\ lens = map (fun c => Z.of_nat (length c)) cs /\
       Forall2 (fun c out => (length c <= length inp)%nat -> firstn (length c) out = c) cs outs) /\
     (~ In empty_list_enc (map enc its) ->
       list_header h /\ rlp_item (h ++ encs its) h (encs its) /\ total = Z.of_nat (length (h ++ encs its))))).
Proof. exact nest_check_sound. Qed.
Example C09_example :
  (* [0x0507, [0x01]]: second field is a list and keeps its header *)
  exists outs, rlp_nest_array_check bn254 (ArrayCheck 40 4 [(0, 8); (0, 8)]%nat)
    ([12; 5; 8; 2; 0; 5; 0; 7; 12; 1; 0; 1] ++ repeat 0 28) = Some (1, 12, [4; 4], outs)
  /\ firstn 4 (nth 1 outs []) = [12; 1; 0; 1].
Proof. eexists. split; [vm_compute; reflexivity|reflexivity]. Qed.

(** The unconditional claim is false: with one empty-list field the announced length is not verified — the
    correct list and one announcing 8 extra bytes are both accepted. *)
Theorem C09_empty_list_total_unverified_refuted :
  let inp1 := [12; 2; 12; 0; 0; 5] ++ repeat 0 34 in
  let inp2 := [12; 10; 12; 0; 0; 5] ++ repeat 0 34 in
  (exists outs, rlp_nest_array_check bn254 ex_params inp1 = Some (1, 6, [2; 2], outs)) /\
  (exists outs, rlp_nest_array_check bn254 ex_params inp2 = Some (1, 22, [2; 2], outs)).
Proof. split; eexists; vm_compute; reflexivity. Qed.
(** A 0x00 literal field gets length 0 and is read again as the next field: the one-byte payload list 0xc0-announced
    header with two "fields" 0x00, 0x00 that are the same byte is accepted with total length 2 nibbles. *)
Theorem C09_zero_byte_reread_refuted :
  let inp := [12; 0; 0; 0] ++ repeat 7 36 in
  exists outs, rlp_nest_array_check bn254 ex_params inp = Some (1, 2, [0; 0], outs).
Proof. eexists. vm_compute. reflexivity. Qed.
