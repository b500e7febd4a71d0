(** * EthItems.v — the encodings of EthSpec.v satisfy the size limits of the shipped parameter tables *)
From Coq Require Import ZArith List Lia Bool Arith.
From Verif Require Import ModNorm RlpUtilModel RlpUtilProofs RlpModel RlpSpec RlpPrefixProofs RlpArrayProofs RlpArraySound EthModel EthSpec EthProofs.
Import ListNotations.
Open Scope Z_scope.
Ltac Zify.zify_post_hook ::= Z.div_mod_to_equations.

Lemma nbytes_even d : Nat.Even (length d) -> Z.of_nat (length d) = 2 * nbytes d.
Proof. intros [k Hk]. unfold nbytes. lia. Qed.

Lemma rlp_hdr_item : forall base pl, base = 128 \/ base = 192 -> Nat.Even (length pl) -> nbytes pl < 65536 ->
  rlp_item (rlp_hdr base (nbytes pl) ++ pl) (rlp_hdr base (nbytes pl)) pl.
Proof.
  intros base pl Hb He Hn. pose proof (nbytes_even pl He) as Hl. set (n := nbytes pl) in *. assert (H0 : 0 <= n) by lia. clearbody n.
  unfold rlp_hdr. destruct (Z.ltb_spec n 56) as [L|L]; [|destruct (Z.ltb_spec n 256) as [L2|L2]].
  - apply (item_short (base + n) n pl); [|lia|lia]. unfold classify. destruct Hb as [->| ->].
    + left. destruct (Z.leb_spec (128 + n) 127); [lia|]. destruct (Z.leb_spec (128 + n) 183); [f_equal; lia|lia].
    + right. destruct (Z.leb_spec (192 + n) 127); [lia|]. destruct (Z.leb_spec (192 + n) 183); [lia|]. destruct (Z.leb_spec (192 + n) 191); [lia|]. destruct (Z.leb_spec (192 + n) 247); [f_equal; lia|lia].
  - rewrite <- app_assoc. apply (item_long (base + 56) 1 (byte_nibbles n) pl); [destruct Hb as [->| ->]; [left|right]; reflexivity|lia|reflexivity|apply byte_nibbles_nibble; lia|].
    rewrite hexval_byte. exact Hl.
  - rewrite <- app_assoc. apply (item_long (base + 57) 2 (byte_nibbles (n / 256) ++ byte_nibbles (n mod 256)) pl); [destruct Hb as [->| ->]; [left|right]; reflexivity|lia|reflexivity|apply Forall_app; split; apply byte_nibbles_nibble; lia|].
    rewrite hexval_app, !hexval_byte. change (16 ^ Z.of_nat (length (byte_nibbles (n mod 256)))) with 256. lia.
Qed.
Lemma rlp_hdr_length base n : (length (rlp_hdr base n) <= 6)%nat /\ (n < 56 -> (length (rlp_hdr base n) = 2)%nat) /\ (2 <= length (rlp_hdr base n))%nat.
Proof. unfold rlp_hdr. destruct (Z.ltb_spec n 56); [|destruct (Z.ltb_spec n 256)]; cbn [app length byte_nibbles]; lia. Qed.
Lemma rlp_hdr_nibbles base n : 0 <= base <= 192 -> 0 <= n < 65536 -> Forall nibble (rlp_hdr base n).
Proof. intros. unfold rlp_hdr. destruct (Z.ltb_spec n 56); [|destruct (Z.ltb_spec n 256)]; repeat (apply Forall_app; split); apply byte_nibbles_nibble; lia. Qed.
Lemma str_payload d : payload (str d) = d.
Proof. unfold str. destruct (_ && _); reflexivity. Qed.
Lemma enc_even it : is_item it -> Nat.Even (length (enc it)).
Proof.
  intros H. assert (E : exists k : Z, 0 <= k /\ Z.of_nat (length (enc it)) = 2 * k).
  { unfold is_item in H. set (e := enc it) in *. clearbody e. inversion H as [b Hb E1 E2 E3|b len pl' Hc Hb Hlen E1 E2 E3|b lenlen ln pl' Hc Hb Hll Hnb Hlen E1 E2 E3].
    - exists 1. unfold byte_nibbles. cbn. lia.
    - exists (1 + len). rewrite app_length. cbn [length byte_nibbles]. lia.
    - exists (1 + lenlen + hexval ln). rewrite !app_length. cbn [length byte_nibbles]. pose proof (hexval_bound ln Hnb). lia. }
  destruct E as (k & K0 & K). exists (Z.to_nat k). lia.
Qed.
Lemma str_item d : Forall nibble d -> Nat.Even (length d) -> nbytes d < 65536 -> is_item (str d).
Proof.
  intros Hn He Hb. unfold is_item, str. destruct (Nat.eqb_spec (length d) 2) as [L|L]; cbn [andb].
  - destruct (Z.ltb_spec (hexval d) 128) as [V|V].
    + assert (Ed : d = byte_nibbles (hexval d)).
      { destruct d as [|a [|b [|]]]; try discriminate. inversion Hn as [|? ? N1 N2]; subst. inversion N2 as [|? ? N3 _]; subst. unfold nibble in *. unfold hexval, byte_nibbles. cbn [fold_left]. f_equal; [lia|f_equal; lia]. }
      unfold enc, hdr, payload. cbn [fst snd app]. pose proof (hexval_bound d Hn) as [V0 _]. assert (HL : rlp_item (byte_nibbles (hexval d)) [] (byte_nibbles (hexval d))) by (apply item_literal; lia). rewrite <- Ed in HL. exact HL.
    + unfold enc, hdr, payload. cbn [fst snd]. apply rlp_hdr_item; auto.
  - unfold enc, hdr, payload. cbn [fst snd]. apply rlp_hdr_item; auto.
Qed.
Lemma str_not_empty_list d : Nat.Even (length d) -> nbytes d < 65536 -> Forall nibble d -> enc (str d) <> empty_list_enc.
Proof.
  intros He Hb Hn E. unfold str in E. destruct (Nat.eqb_spec (length d) 2) as [L|L]; cbn [andb] in E.
  - destruct (Z.ltb_spec (hexval d) 128) as [V|V].
    + unfold enc in E. cbn [fst snd app] in E. rewrite E in V. cbn in V. lia.
    + unfold enc in E. cbn [fst snd] in E. apply (f_equal (@length Z)) in E. rewrite app_length, L in E. pose proof (proj2 (proj2 (rlp_hdr_length 128 (nbytes d)))). cbn in E. lia.
  - unfold enc in E. cbn [fst snd] in E.
    assert (length d = 0)%nat. { apply (f_equal (@length Z)) in E. rewrite app_length in E. pose proof (proj2 (proj2 (rlp_hdr_length 128 (nbytes d)))). cbn in E. lia. }
    destruct d; [|discriminate]. discriminate.
Qed.
(** what a table entry must provide for strings of its size *)
Definition entry_ok (f : nat * nat) : Prop :=
  (Z.of_nat (snd f) < 131072) /\ ((112 <= snd f)%nat -> len_prefix_max (snd f) = 4%nat).
Lemma str_fits : forall f lo hi d, bytes_between lo hi d -> (fst f <= 2 * lo)%nat -> (2 * hi <= snd f)%nat -> entry_ok f -> item_fits f (str d).
Proof.
  intros f lo hi d (B1 & B2 & B3) H1 H2 [E1 E2]. pose proof (nbytes_even d B2) as Hl. assert (Hb : nbytes d < 65536) by lia.
  split; [apply str_item; auto|]. split; [apply str_not_empty_list; auto|]. split; [|rewrite str_payload; lia].
  destruct (Z.ltb_spec (nbytes d) 56) as [L|L].
  - left. unfold str. destruct (_ && _); cbn [hdr fst]; [cbn; lia|]. pose proof (proj1 (proj2 (rlp_hdr_length 128 (nbytes d))) L). lia.
  - right. rewrite E2 by lia. unfold str. destruct (Nat.eqb_spec (length d) 2); [lia|]. cbn [andb hdr fst].
    pose proof (proj1 (rlp_hdr_length 128 (nbytes d))). split; [lia|]. change (2 ^ Z.of_nat (log_ceil 4)) with 8. lia.
Qed.
Lemma strs_fit : forall sizes fs ds, Forall2 (fun s d => bytes_between (fst s) (snd s) d) sizes ds ->
  Forall2 (fun f s => (fst f <= 2 * fst s)%nat /\ (2 * snd s <= snd f)%nat /\ entry_ok f) fs sizes -> Forall2 item_fits fs (map str ds).
Proof.
  induction sizes as [|s sizes IH]; intros fs ds H1 H2; inversion H1; subst; inversion H2; subst; cbn [map]; constructor.
  - match goal with H : _ /\ _ /\ entry_ok _ |- _ => destruct H as (A & B & C) end. eapply str_fits; eauto.
  - apply IH; auto.
Qed.
Lemma header_table : Forall2 (fun f s => (fst f <= 2 * fst s)%nat /\ (2 * snd s <= snd f)%nat /\ entry_ok f) (ac_fields header_params) header_sizes.
Proof. unfold header_params, header_sizes. cbn [ac_fields]. repeat (constructor; [split; [cbn [fst snd]; lia|split; [cbn [fst snd]; lia|split; [cbn [fst snd]; lia|cbn [snd]; intros; try (exfalso; lia); reflexivity]]]|]). constructor. Qed.
Lemma account_table : Forall2 (fun f s => (fst f <= 2 * fst s)%nat /\ (2 * snd s <= snd f)%nat /\ entry_ok f) (ac_fields account_params) [(0, 32); (0, 12); (32, 32); (32, 32)]%nat.
Proof. unfold account_params. cbn [ac_fields]. repeat (constructor; [split; [cbn [fst snd]; lia|split; [cbn [fst snd]; lia|split; [cbn [fst snd]; lia|cbn [snd]; intros; try (exfalso; lia); reflexivity]]]|]). constructor. Qed.
Lemma Forall2_firstn : forall A B (R : A -> B -> Prop) n l1 l2, Forall2 R l1 l2 -> Forall2 R (firstn n l1) (firstn n l2).
Proof. intros A B R n. induction n as [|n IH]; intros l1 l2 H; [constructor|]. destruct H; cbn [firstn]; [constructor|]. constructor; auto. Qed.
Lemma header_fits_table : forall fields, eth_header fields -> Forall2 item_fits (firstn (length fields) (ac_fields header_params)) (map str fields).
Proof.
  intros fields [Hl HF]. apply (strs_fit (firstn (length fields) header_sizes)); auto. apply Forall2_firstn. apply header_table.
Qed.
Lemma account_fits_table : forall fields, eth_account fields -> Forall2 item_fits (ac_fields account_params) (map str fields).
Proof. intros fields HF. exact (strs_fit _ _ _ HF account_table). Qed.

Lemma encs_even : forall its, Forall is_item its -> Nat.Even (length (encs its)).
Proof.
  induction its as [|it its IH]; intros H; [exists 0%nat; reflexivity|]. inversion H; subst. rewrite encs_cons, app_length. destruct (enc_even it) as [a Ha]; auto. destruct (IH) as [b Hb]; auto. exists (a + b)%nat. lia.
Qed.
Lemma fits_items : forall fs its, Forall2 item_fits fs its -> Forall is_item its.
Proof. intros fs its H. induction H as [|f it fs its (A & _) H IH]; constructor; auto. Qed.
Lemma list_of_parts : forall ds, Forall is_item (map str ds) -> nbytes (encs (map str ds)) < 65536 ->
  let h := rlp_hdr 192 (nbytes (encs (map str ds))) in
  list_of ds = h ++ encs (map str ds) /\ list_header h /\ rlp_item (h ++ encs (map str ds)) h (encs (map str ds)) /\ (length h <= 6)%nat.
Proof.
  intros ds Hi Hb h. split; [reflexivity|]. split; [|split; [apply rlp_hdr_item; auto; apply encs_even; auto|apply rlp_hdr_length]].
  unfold h, rlp_hdr, list_header. set (n := nbytes (encs (map str ds))) in *. assert (0 <= n) by (unfold n, nbytes; lia).
  destruct (Z.ltb_spec n 56) as [L|L]; [|destruct (Z.ltb_spec n 256)].
  - exists (192 + n), []. rewrite app_nil_r. split; [reflexivity|]. split; [lia|]. unfold classify. destruct (Z.leb_spec (192 + n) 127); [lia|]. destruct (Z.leb_spec (192 + n) 183); [lia|]. destruct (Z.leb_spec (192 + n) 191); [lia|]. destruct (Z.leb_spec (192 + n) 247); [reflexivity|lia].
  - exists 248, (byte_nibbles n). split; [reflexivity|]. split; [lia|reflexivity].
  - exists 249, (byte_nibbles (n / 256) ++ byte_nibbles (n mod 256)). split; [reflexivity|]. split; [lia|reflexivity].
Qed.
