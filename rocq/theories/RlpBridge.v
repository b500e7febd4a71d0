(** * RlpBridge.v — the RLP encoder (RlpEnc.v, bytes) against the RLP parser's specification (RlpSpec.v, nibbles) *)
From Coq Require Import ZArith List Lia Bool Arith.
From Verif Require Import RlpSpec RlpEnc RlpArraySound EthProofs.
From Verif Require RlpNestSound RlpArrayProofs.
Import ListNotations.
Open Scope Z_scope.

(** the nibbles of a byte string, high one first *)
Definition nib (l : list Z) : list Z := flat_map byte_nibbles l.
Lemma nib_app a b : nib (a ++ b) = nib a ++ nib b. Proof. apply flat_map_app. Qed.
Lemma nib_cons a b : nib (a :: b) = byte_nibbles a ++ nib b. Proof. reflexivity. Qed.
Lemma nib_length l : length (nib l) = (2 * length l)%nat. Proof. induction l as [|x l IH]; [reflexivity|]. rewrite nib_cons, app_length, IH. cbn [length byte_nibbles]. lia. Qed.
Lemma nib_nibble l : Forall is_byte l -> Forall nibble (nib l).
Proof. induction 1 as [|x l H _ IH]; [constructor|]. rewrite nib_cons. apply Forall_app. split; [apply byte_nibbles_nibble; exact H|exact IH]. Qed.
Lemma nib_value l : hexval (nib l) = be_value l.
Proof.
  induction l as [|x l IH] using rev_ind; [reflexivity|]. rewrite nib_app, hexval_app, IH, be_value_app. unfold nib at 1 2. cbn [flat_map]. rewrite app_nil_r, hexval_byte. cbn [length byte_nibbles]. change (16 ^ Z.of_nat 2) with (256 ^ Z.of_nat 1). unfold be_value. cbn [fold_left]. lia.
Qed.
Lemma classify_short_s n : 0 <= n < 56 -> classify (0x80 + n) = HShortString n. Proof. intros H. unfold classify. destruct (Z.leb_spec (128 + n) 127); [lia|]. destruct (Z.leb_spec (128 + n) 183); [|lia]. f_equal. lia. Qed.
Lemma classify_short_l n : 0 <= n < 56 -> classify (0xc0 + n) = HShortList n.
Proof. intros H. unfold classify. destruct (Z.leb_spec (192 + n) 127); [lia|]. destruct (Z.leb_spec (192 + n) 183); [lia|]. destruct (Z.leb_spec (192 + n) 191); [lia|]. destruct (Z.leb_spec (192 + n) 247); [|lia]. f_equal. lia. Qed.
Lemma classify_long_s n : 1 <= n <= 8 -> classify (0x80 + 55 + n) = HLongString n.
Proof. intros H. unfold classify. destruct (Z.leb_spec (128 + 55 + n) 127); [lia|]. destruct (Z.leb_spec (128 + 55 + n) 183); [lia|]. destruct (Z.leb_spec (128 + 55 + n) 191); [|lia]. f_equal. lia. Qed.
Lemma classify_long_l n : 1 <= n <= 8 -> classify (0xc0 + 55 + n) = HLongList n.
Proof. intros H. unfold classify. destruct (Z.leb_spec (192 + 55 + n) 127); [lia|]. destruct (Z.leb_spec (192 + 55 + n) 183); [lia|]. destruct (Z.leb_spec (192 + 55 + n) 191); [lia|]. destruct (Z.leb_spec (192 + 55 + n) 247); [lia|]. f_equal. lia. Qed.
(** an encoder header and a payload of the announced size are an item *)
Lemma head_item base pl : base = 0x80 \/ base = 0xc0 -> small (length pl) ->
  rlp_item (nib (rlp_head_bytes base (length pl)) ++ nib pl) (nib (rlp_head_bytes base (length pl))) (nib pl) /\
  (list_header (nib (rlp_head_bytes base (length pl))) <-> base = 0xc0) /\
  ((length pl < 56)%nat -> length (rlp_head_bytes base (length pl)) = 1%nat) /\ (Z.of_nat (length pl) < 65536 -> (length (rlp_head_bytes base (length pl)) <= 3)%nat) /\ Forall is_byte (rlp_head_bytes base (length pl)).
Proof.
  intros B S. unfold rlp_head_bytes. destruct (Nat.ltb_spec (length pl) 56) as [L|L].
  - set (b := base + Z.of_nat (length pl)). assert (Hb : 0 <= b < 256) by (unfold b; lia). change (nib [b]) with (byte_nibbles b). split; [|split; [|split; [reflexivity|split; [cbn [length]; lia|constructor; [exact Hb|constructor]]]]].
    + apply (item_short b (Z.of_nat (length pl))); [|exact Hb|rewrite nib_length; lia]. destruct B as [-> | ->]; [left; apply classify_short_s; lia|right; apply classify_short_l; lia].
    + split.
      * intros (b' & r & E & Hb' & Li). apply (f_equal (fun l => RlpArrayProofs.byte0 (l ++ []))) in E. rewrite <- app_assoc, !byte0_bn in E by lia. subst b'. destruct B as [-> | ->]; [|reflexivity]. unfold b in Li. rewrite classify_short_s in Li by lia. discriminate.
      * intros ->. exists b, []. rewrite app_nil_r. split; [reflexivity|]. split; [exact Hb|]. unfold b. rewrite classify_short_l by lia. reflexivity.
  - set (lb := be_bytes (Z.of_nat (length pl))). pose proof (len_bytes _ S) as L8. fold lb in L8. assert (L1 : (1 <= length lb)%nat) by (apply be_bytes_nonempty; lia).
    set (b := base + 55 + Z.of_nat (length lb)). assert (Hb : 0 <= b < 256) by (unfold b; lia). assert (Fb : Forall is_byte lb) by (apply be_bytes_bytes; lia). rewrite nib_cons, <- app_assoc. split; [|split; [|split; [lia|split]]].
    + apply (item_long b (Z.of_nat (length lb)) (nib lb)); [|exact Hb|rewrite nib_length; lia|apply nib_nibble, Fb|].
      * destruct B as [-> | ->]; [left; apply classify_long_s; lia|right; apply classify_long_l; lia].
      * rewrite nib_length, nib_value. unfold lb. rewrite be_bytes_value by lia. lia.
    + split.
      * intros (b' & r & E & Hb' & Li). apply (f_equal (fun l => RlpArrayProofs.byte0 (l ++ []))) in E. rewrite <- !app_assoc, !byte0_bn in E by lia. subst b'. destruct B as [-> | ->]; [|reflexivity]. unfold b in Li. rewrite classify_long_s in Li by lia. discriminate.
      * intros ->. exists b, (nib lb). split; [reflexivity|]. split; [exact Hb|]. unfold b. rewrite classify_long_l by lia. reflexivity.
    + intros H. cbn [length]. assert (length lb <= 2)%nat; [|lia]. apply be_bytes_length. change (256 ^ Z.of_nat 2) with 65536. lia.
    + constructor; [exact Hb|exact Fb].
Qed.
(** the item of an encoded tree *)
Lemma str_item s : Forall is_byte s -> small (length s) -> exists hd, rlp (RStr s) = hd ++ s /\ is_item (nib hd, nib s) /\ ~ RlpNestSound.is_list_item (nib hd, nib s) /\ Forall is_byte hd /\
  ((length s < 56)%nat -> (length hd <= 1)%nat) /\ (Z.of_nat (length s) < 65536 -> (length hd <= 3)%nat).
Proof.
  intros F S. destruct (str_shape s F S) as [(b & -> & Hb & E)|(E & _)].
  - exists []. split; [exact E|]. split; [apply item_literal; exact Hb|]. split; [intros (b' & r & X & _); discriminate|]. split; [constructor|]. cbn [length]. lia.
  - destruct (head_item 0x80 s (or_introl eq_refl) S) as (I & Li & L1 & L3 & Fh). exists (rlp_head_bytes 128 (length s)). split; [exact E|]. split; [exact I|]. split; [intros X; apply Li in X; discriminate|]. split; [exact Fh|]. split; [intros X; rewrite L1 by exact X; lia|exact L3].
Qed.
Lemma list_item l : let body := concat (map rlp l) in small (length body) -> exists hd, rlp (RList l) = hd ++ body /\ rlp_item (nib hd ++ nib body) (nib hd) (nib body) /\ list_header (nib hd) /\ Forall is_byte hd /\
  (1 <= length hd)%nat /\ ((length body < 56)%nat -> (length hd <= 1)%nat) /\ (Z.of_nat (length body) < 65536 -> (length hd <= 3)%nat).
Proof.
  intros body S. destruct (head_item 0xc0 body (or_intror eq_refl) S) as (I & Li & L1 & L3 & Fh). exists (rlp_head_bytes 192 (length body)). split; [reflexivity|]. split; [exact I|]. split; [apply Li; reflexivity|]. split; [exact Fh|].
  split; [pose proof (head_nonempty 192 (length body)) as N; destruct (rlp_head_bytes 192 (length body)); [congruence|cbn [length]; lia]|]. split; [intros X; rewrite L1 by exact X; lia|exact L3].
Qed.
Lemma nib_concat (l : list (list Z)) : nib (concat l) = concat (map nib l).
Proof. induction l as [|x l IH]; [reflexivity|]. cbn [concat map]. rewrite nib_app, IH. reflexivity. Qed.
Lemma nib_inj a b : Forall is_byte a -> Forall is_byte b -> nib a = nib b -> a = b.
Proof.
  intros Fa Fb E. apply be_value_inj; [exact Fa|exact Fb| |].
  - pose proof (f_equal (@length Z) E) as L. rewrite !nib_length in L. lia.
  - rewrite <- !nib_value, E. reflexivity.
Qed.
