(** * Props_Tx.v — C32 (sender recovery) and C45 (transaction / receipt Merkle proofs) *)
From Coq Require Import ZArith List Lia Bool Arith.
From Verif Require Import Field FieldLemmas RlpEnc ProofModel TxModel.
Import ListNotations.
Open Scope Z_scope.
Open Scope circ_scope.

(** * C32 *)
(** ** Specification: signing payloads of EIP-155 and EIP-1559 and the 65-byte signature r || s || recovery id *)
Definition num (x : Z) : rtree := RStr (be_bytes x).
Definition to_item (a : option (list Z)) : rtree := RStr (match a with Some x => x | None => [] end).
Definition access_item (l : list (list Z * list (list Z))) : rtree := RList (map (fun e => RList [RStr (fst e); RList (map RStr (snd e))]) l).
Definition eip155_payload (t : tx) (chain : Z) : list Z :=
  rlp (RList [num (tx_nonce t); num (tx_gas_price t); num (tx_gas t); to_item (tx_to t); num (tx_value t); RStr (tx_data t); num chain; RStr []; RStr []]).
Definition eip1559_payload (t : tx) : list Z :=
  2 :: rlp (RList [num (tx_chain t); num (tx_nonce t); num (tx_tip t); num (tx_fee_cap t); num (tx_gas t); to_item (tx_to t); num (tx_value t); RStr (tx_data t); access_item (tx_access t)]).
Definition word32 (n : Z) : list Z := map (fun i => (n / 256 ^ (31 - Z.of_nat i)) mod 256) (seq 0 32).
Definition nonneg_tx (t : tx) : Prop :=
  0 <= tx_nonce t /\ 0 <= tx_gas_price t /\ 0 <= tx_tip t /\ 0 <= tx_fee_cap t /\ 0 <= tx_gas t /\ 0 <= tx_value t /\ 0 <= tx_chain t /\ 0 <= tx_v t.
Definition rs_fit (t : tx) : Prop := 0 <= tx_r t < 2 ^ 256 /\ 0 <= tx_s t < 2 ^ 256.

Lemma fill32_ok : forall x, 0 <= x < 2 ^ 256 -> fill32 x = Some (word32 x).
Proof.
  intros x Hx. unfold fill32, big_bytes. rewrite Z.abs_eq by lia.
  assert (H : 0 <= x < 256 ^ Z.of_nat 32) by (change (256 ^ Z.of_nat 32) with (2 ^ 256); lia).
  cbv zeta. rewrite (proj2 (Nat.leb_le _ _) (be_bytes_length _ _ H)). cbn [guard obind]. rewrite be_bytes_pad by auto. unfold word32. f_equal.
Qed.
Lemma fill32_fail : forall x, 2 ^ 256 <= x -> fill32 x = None.
Proof.
  intros x Hx. unfold fill32, big_bytes. rewrite Z.abs_eq by lia. cbv zeta. destruct (Nat.leb_spec (length (be_bytes x)) 32) as [L | L]; [| reflexivity].
  exfalso. pose proof (be_value_range _ (be_bytes_bytes x ltac:(lia))) as R. rewrite be_bytes_value in R by lia.
  assert (256 ^ Z.of_nat (length (be_bytes x)) <= 256 ^ 32) by (apply Z.pow_le_mono_r; lia). change (256 ^ 32) with (2 ^ 256) in H. lia.
Qed.
Lemma rlp_num_ok : forall x, 0 <= x -> rlp_num x = Some (num x).
Proof. intros x Hx. unfold rlp_num. rewrite (proj2 (Z.leb_le _ _) Hx). reflexivity. Qed.
Lemma big_bytes_small : forall x, 0 < x < 256 -> big_bytes x = [x].
Proof.
  intros x Hx. unfold big_bytes. rewrite Z.abs_eq by lia. unfold be_bytes. cbn [be_fuel]. destruct (Z.eqb_spec x 0); [lia |].
  rewrite (Z.div_small x 256), (Z.mod_small x 256) by lia. destruct (Z.to_nat (Z.log2 x)); reflexivity.
Qed.

Lemma derive_eip155 : forall c y, 0 <= c -> (y = 0 \/ y = 1) -> derive_chain_id (35 + 2 * c + y) = c.
Proof.
  intros c y Hc Hy. unfold derive_chain_id. assert (E : (35 + 2 * c + y - 35) / 2 = c) by (symmetry; apply Z.div_unique with y; lia).
  destruct (Z.ltb_spec (35 + 2 * c + y) (2 ^ 64)) as [L | L].
  - rewrite (proj2 (Z.eqb_neq _ 27)), (proj2 (Z.eqb_neq _ 28)) by lia. cbn [orb]. rewrite (Z.mod_small (35 + 2 * c + y - 35)) by lia. exact E.
  - exact E.
Qed.
Lemma recid_eip155 : forall c y, 0 <= c -> (y = 0 \/ y = 1) -> (low64 (35 + 2 * c + y) - 35 - low64 c * 2) mod 2 ^ 64 = y.
Proof.
  intros c y Hc Hy. unfold low64.
  pose proof (Z.div_mod (35 + 2 * c + y) (2 ^ 64) ltac:(discriminate)) as A. pose proof (Z.div_mod c (2 ^ 64) ltac:(discriminate)) as B.
  set (q1 := (35 + 2 * c + y) / 2 ^ 64) in *. set (q2 := c / 2 ^ 64) in *.
  symmetry. apply Z.mod_unique with (2 * q2 - q1); lia.
Qed.

(** EIP-155 transactions, for every chain id (of any size): the payload is the one of EIP-155 with that chain id and the
    recovery id is the parity bit of v. *)
Theorem C32_eip155 : forall K E t c y, nonneg_tx t -> rs_fit t -> tx_type t = 0 -> 0 <= c -> (y = 0 \/ y = 1) -> tx_v t = 35 + 2 * c + y ->
  recover_signer K E t = E (K (eip155_payload t c)) (word32 (tx_r t) ++ word32 (tx_s t) ++ [y]).
Proof.
  intros K E t c y (N1 & N2 & N3 & N4 & N5 & N6 & N7 & N8) [HR HS] HT Hc Hy HV. unfold recover_signer, sign_payload, unsigned_rlp, unsigned_tree, sig_bytes.
  assert (CH : chain_id t = c) by (unfold chain_id; rewrite HT, HV; cbn [Z.eqb]; apply derive_eip155; auto).
  rewrite CH, HT, HV. cbn [Z.eqb]. rewrite !rlp_num_ok by lia. cbn [obind]. rewrite !fill32_ok by auto. cbn [obind]. rewrite recid_eip155 by auto.
  cbn [app]. change (num 0) with (RStr []). unfold eip155_payload. f_equal. f_equal. f_equal.
  destruct Hy as [-> | ->]; reflexivity.
Qed.

(** EIP-1559 transactions with a one-byte v: payload of EIP-1559, recovery id v. *)
Theorem C32_eip1559 : forall K E t, nonneg_tx t -> rs_fit t -> tx_type t = 2 -> tx_v t < 256 ->
  recover_signer K E t = E (K (eip1559_payload t)) (word32 (tx_r t) ++ word32 (tx_s t) ++ [tx_v t]).
Proof.
  intros K E t (N1 & N2 & N3 & N4 & N5 & N6 & N7 & N8) [HR HS] HT HV. unfold recover_signer, sign_payload, unsigned_rlp, unsigned_tree, sig_bytes.
  assert (CH : chain_id t = tx_chain t) by (unfold chain_id; rewrite HT; reflexivity).
  rewrite CH, HT. cbn [Z.eqb Pos.eqb]. rewrite !rlp_num_ok by lia. cbn [obind]. rewrite !fill32_ok by auto. cbn [obind].
  unfold eip1559_payload. cbn [app]. f_equal. f_equal. f_equal.
  unfold low64. rewrite (Z.mod_small (tx_v t)) by lia. destruct (Z.eqb_spec (tx_v t) 0) as [-> | N]; [reflexivity |]. apply big_bytes_small. lia.
Qed.

(** Other transaction types are errors. *)
Theorem C32_unsupported_type : forall K E t, tx_type t <> 0 -> tx_type t <> 2 -> recover_signer K E t = None.
Proof.
  intros K E t H0 H2. unfold recover_signer, sign_payload, unsigned_rlp, unsigned_tree.
  rewrite (proj2 (Z.eqb_neq _ _) H0), (proj2 (Z.eqb_neq _ _) H2). reflexivity.
Qed.

(** Signature values r, s of 2^256 or more make it panic (no address is returned). *)
Theorem C32_oversized_signature : forall K E t, 2 ^ 256 <= tx_r t \/ 2 ^ 256 <= tx_s t -> recover_signer K E t = None.
Proof.
  intros K E t H. unfold recover_signer. destruct (sign_payload t) as [m |]; [| reflexivity]. cbn [obind]. unfold sig_bytes.
  destruct H as [H | H].
  - rewrite fill32_fail by auto. reflexivity.
  - destruct (fill32 (tx_r t)); [| reflexivity]. cbn [obind]. rewrite fill32_fail by auto. reflexivity.
Qed.

(** Pre-EIP-155 transactions (v = 27 or 28) are never recovered, provided Ecrecover rejects signatures that are not 65 bytes. *)
Theorem C32_unprotected_rejected : forall K E t, (forall h s, length s <> 65%nat -> E h s = None) ->
  tx_type t = 0 -> tx_v t = 27 \/ tx_v t = 28 -> recover_signer K E t = None.
Proof.
  intros K E t HE HT HV. unfold recover_signer. destruct (sign_payload t) as [m |]; [| reflexivity]. cbn [obind]. unfold sig_bytes.
  destruct (fill32 (tx_r t)) as [r |] eqn:Er; [| reflexivity]. cbn [obind]. destruct (fill32 (tx_s t)) as [s |] eqn:Es; [| reflexivity]. cbn [obind].
  apply HE.
  assert (L : forall x b, fill32 x = Some b -> length b = 32%nat).
  { intros x b H. unfold fill32 in H. cbv zeta in H. apply obind_Some in H as (u & Hu & H). apply guard_Some in Hu. apply Nat.leb_le in Hu.
    assert (Eb : b = repeat 0 (32 - length (big_bytes x)) ++ big_bytes x) by congruence. rewrite Eb, app_length, repeat_length. lia. }
  rewrite !app_length, (L _ _ Er), (L _ _ Es). unfold chain_id. rewrite HT. cbn [Z.eqb].
  destruct HV as [-> | ->]; vm_compute; lia.
Qed.

(** The payload determines the signed fields: two transactions of the same type with the same payload agree on all of them. *)
Definition payload_ok (t : tx) : Prop := Forall is_byte (tx_data t) /\ small (length (tx_data t)) /\
  (forall a, tx_to t = Some a -> length a = 20%nat /\ Forall is_byte a) /\
  (forall x, In x [tx_nonce t; tx_gas_price t; tx_tip t; tx_fee_cap t; tx_gas t; tx_value t; tx_chain t; tx_v t] -> 0 <= x < 256 ^ 256) /\
  wf (access_item (tx_access t)).
Lemma num_wf : forall x, 0 <= x < 256 ^ 256 -> wf (num x).
Proof.
  intros x Hx. split; [apply be_bytes_bytes; lia |]. assert (L : (length (be_bytes x) <= 256)%nat) by (apply be_bytes_length; change (Z.of_nat 256) with 256; exact Hx).
  unfold small. apply Z.le_lt_trans with 256; [lia | reflexivity].
Qed.
Lemma to_wf : forall t, payload_ok t -> wf (to_item (tx_to t)).
Proof.
  intros t (_ & _ & H & _). unfold to_item. destruct (tx_to t) as [a |]; [| split; [apply Forall_nil | reflexivity]].
  destruct (H a eq_refl) as [L F]. split; [exact F |]. unfold small. rewrite L. reflexivity.
Qed.
Lemma to_inj : forall t u, payload_ok t -> payload_ok u -> to_item (tx_to t) = to_item (tx_to u) -> tx_to t = tx_to u.
Proof.
  intros t u (_ & _ & H & _) (_ & _ & G & _) E. unfold to_item in E.
  destruct (tx_to t) as [a |], (tx_to u) as [b |]; try reflexivity.
  - congruence.
  - destruct (H a eq_refl) as [L _]. assert (a = []) by congruence. subst. discriminate L.
  - destruct (G b eq_refl) as [L _]. assert (b = []) by congruence. subst. discriminate L.
Qed.
Lemma strs_inj : forall a b : list (list Z), map RStr a = map RStr b -> a = b.
Proof. induction a as [| x a IH]; intros [| y b] E; try discriminate; [reflexivity |]. cbn [map] in E. assert (x = y) by congruence. assert (map RStr a = map RStr b) by congruence. f_equal; auto. Qed.
Lemma access_inj : forall a b, access_item a = access_item b -> a = b.
Proof.
  intros a b E. unfold access_item in E.
  assert (E' : map (fun e : list Z * list (list Z) => RList [RStr (fst e); RList (map RStr (snd e))]) a = map (fun e => RList [RStr (fst e); RList (map RStr (snd e))]) b) by congruence.
  clear E. revert b E'. induction a as [| [x k] a IH]; intros [| [y l] b] E; try discriminate; [reflexivity |]. cbn [map fst snd] in E.
  assert (x = y) by congruence. assert (map RStr k = map RStr l) by congruence. apply strs_inj in H0. subst. f_equal. apply IH. congruence.
Qed.
Lemma num_inj : forall x y, 0 <= x -> 0 <= y -> num x = num y -> x = y.
Proof. intros x y Hx Hy E. apply be_bytes_inj; auto. unfold num in E. congruence. Qed.

Theorem C32_payload_binding_1559 : forall t u, payload_ok t -> payload_ok u ->
  small (length (eip1559_payload t)) -> small (length (eip1559_payload u)) -> eip1559_payload t = eip1559_payload u ->
  tx_chain t = tx_chain u /\ tx_nonce t = tx_nonce u /\ tx_tip t = tx_tip u /\ tx_fee_cap t = tx_fee_cap u /\ tx_gas t = tx_gas u /\
  tx_to t = tx_to u /\ tx_value t = tx_value u /\ tx_data t = tx_data u /\ tx_access t = tx_access u.
Proof.
  intros t u Pt Pu St Su E. unfold eip1559_payload in *.
  assert (W : forall t, payload_ok t -> small (length (2 :: rlp (RList [num (tx_chain t); num (tx_nonce t); num (tx_tip t); num (tx_fee_cap t); num (tx_gas t); to_item (tx_to t); num (tx_value t); RStr (tx_data t); access_item (tx_access t)]))) ->
     wf (RList [num (tx_chain t); num (tx_nonce t); num (tx_tip t); num (tx_fee_cap t); num (tx_gas t); to_item (tx_to t); num (tx_value t); RStr (tx_data t); access_item (tx_access t)])).
  { intros x Px Sx. pose proof (to_wf x Px) as Wt. destruct Px as (D1 & D2 & D3 & D4 & D5). apply wf_list. split.
    - repeat (apply Forall_cons; [first [apply num_wf; apply D4; cbn [In]; tauto | exact Wt | exact D5 | split; assumption] |]). apply Forall_nil.
    - clear - Sx. unfold small in *. cbn [rlp] in Sx. cbv zeta in Sx. change (fun t => rlp t) with rlp in *.
      match goal with |- Z.of_nat (length ?c) < _ => set (pl := c) in * end.
      cbn [length] in Sx. rewrite app_length in Sx. lia. }
  assert (E2 : RList [num (tx_chain t); num (tx_nonce t); num (tx_tip t); num (tx_fee_cap t); num (tx_gas t); to_item (tx_to t); num (tx_value t); RStr (tx_data t); access_item (tx_access t)] =
     RList [num (tx_chain u); num (tx_nonce u); num (tx_tip u); num (tx_fee_cap u); num (tx_gas u); to_item (tx_to u); num (tx_value u); RStr (tx_data u); access_item (tx_access u)]).
  { apply rlp_injective; [apply W; auto | apply W; auto |]. apply (f_equal (@tl Z)) in E. exact E. }
  clear E. assert (Nt := proj1 (proj2 (proj2 (proj2 Pt)))). assert (Nu := proj1 (proj2 (proj2 (proj2 Pu)))).
  assert (IJ : forall x y, num x = num y -> In x [tx_nonce t; tx_gas_price t; tx_tip t; tx_fee_cap t; tx_gas t; tx_value t; tx_chain t; tx_v t] -> In y [tx_nonce u; tx_gas_price u; tx_tip u; tx_fee_cap u; tx_gas u; tx_value u; tx_chain u; tx_v u] -> x = y).
  { intros x y H1 H2 H3. apply num_inj; [apply Nt; auto | apply Nu; auto | auto]. }
  assert (E3 : num (tx_chain t) = num (tx_chain u)) by congruence. assert (E4 : num (tx_nonce t) = num (tx_nonce u)) by congruence.
  assert (E5 : num (tx_tip t) = num (tx_tip u)) by congruence. assert (E6 : num (tx_fee_cap t) = num (tx_fee_cap u)) by congruence.
  assert (E7 : num (tx_gas t) = num (tx_gas u)) by congruence. assert (E8 : to_item (tx_to t) = to_item (tx_to u)) by congruence.
  assert (E9 : num (tx_value t) = num (tx_value u)) by congruence. assert (E10 : tx_data t = tx_data u) by congruence.
  assert (E11 : access_item (tx_access t) = access_item (tx_access u)) by congruence.
  split; [apply IJ; [exact E3 | cbn [In]; tauto..] |]. split; [apply IJ; [exact E4 | cbn [In]; tauto..] |]. split; [apply IJ; [exact E5 | cbn [In]; tauto..] |].
  split; [apply IJ; [exact E6 | cbn [In]; tauto..] |]. split; [apply IJ; [exact E7 | cbn [In]; tauto..] |]. split; [apply to_inj; auto |].
  split; [apply IJ; [exact E9 | cbn [In]; tauto..] |]. split; [exact E10 |]. apply access_inj. exact E11.
Qed.

Theorem C32_payload_binding_155 : forall t u c d, payload_ok t -> payload_ok u -> 0 <= c < 256 ^ 256 -> 0 <= d < 256 ^ 256 ->
  small (length (eip155_payload t c)) -> small (length (eip155_payload u d)) -> eip155_payload t c = eip155_payload u d ->
  tx_nonce t = tx_nonce u /\ tx_gas_price t = tx_gas_price u /\ tx_gas t = tx_gas u /\ tx_to t = tx_to u /\ tx_value t = tx_value u /\ tx_data t = tx_data u /\ c = d.
Proof.
  intros t u c d Pt Pu Hc Hd St Su E. unfold eip155_payload in *.
  assert (W : forall t c, payload_ok t -> 0 <= c < 256 ^ 256 -> small (length (rlp (RList [num (tx_nonce t); num (tx_gas_price t); num (tx_gas t); to_item (tx_to t); num (tx_value t); RStr (tx_data t); num c; RStr []; RStr []]))) ->
     wf (RList [num (tx_nonce t); num (tx_gas_price t); num (tx_gas t); to_item (tx_to t); num (tx_value t); RStr (tx_data t); num c; RStr []; RStr []])).
  { intros x e Px He Sx. pose proof (to_wf x Px) as Wt. destruct Px as (D1 & D2 & D3 & D4 & D5). apply wf_list. split.
    - assert (Wn : wf (RStr [])) by (split; [apply Forall_nil | reflexivity]).
      repeat (apply Forall_cons; [first [exact Wn | apply num_wf; apply D4; cbn [In]; tauto | exact Wt | apply num_wf; exact He | split; assumption] |]). apply Forall_nil.
    - clear - Sx. unfold small in *. cbn [rlp] in Sx. cbv zeta in Sx. change (fun t => rlp t) with rlp in *.
      match goal with |- Z.of_nat (length ?c) < _ => set (pl := c) in * end. rewrite app_length in Sx. lia. }
  apply rlp_injective in E; [| apply W; auto | apply W; auto].
  assert (Nt := proj1 (proj2 (proj2 (proj2 Pt)))). assert (Nu := proj1 (proj2 (proj2 (proj2 Pu)))).
  assert (IJ : forall x y, num x = num y -> In x [tx_nonce t; tx_gas_price t; tx_tip t; tx_fee_cap t; tx_gas t; tx_value t; tx_chain t; tx_v t] -> In y [tx_nonce u; tx_gas_price u; tx_tip u; tx_fee_cap u; tx_gas u; tx_value u; tx_chain u; tx_v u] -> x = y).
  { intros x y H1 H2 H3. apply num_inj; [apply Nt; auto | apply Nu; auto | auto]. }
  assert (E4 : num (tx_nonce t) = num (tx_nonce u)) by congruence. assert (E5 : num (tx_gas_price t) = num (tx_gas_price u)) by congruence.
  assert (E7 : num (tx_gas t) = num (tx_gas u)) by congruence. assert (E8 : to_item (tx_to t) = to_item (tx_to u)) by congruence.
  assert (E9 : num (tx_value t) = num (tx_value u)) by congruence. assert (E10 : tx_data t = tx_data u) by congruence. assert (E11 : num c = num d) by congruence.
  split; [apply IJ; [exact E4 | cbn [In]; tauto..] |]. split; [apply IJ; [exact E5 | cbn [In]; tauto..] |]. split; [apply IJ; [exact E7 | cbn [In]; tauto..] |].
  split; [apply to_inj; auto |]. split; [apply IJ; [exact E9 | cbn [In]; tauto..] |]. split; [exact E10 |]. apply num_inj; [lia | lia | exact E11].
Qed.

(** Not every invalid v is rejected: a typed transaction whose v is a multiple of 2^64 is treated as v = 0, and a legacy
    v below 35 other than 27, 28 still yields a 65-byte signature with the parity of v - 35. *)
Definition ex_tx (ty v : Z) : tx := {| tx_type := ty; tx_nonce := 1; tx_gas_price := 2; tx_tip := 3; tx_fee_cap := 4; tx_gas := 21000; tx_to := Some (repeat 7 20);
  tx_value := 10 ^ 18; tx_data := [1; 2; 3]; tx_access := [(repeat 9 20, [repeat 1 32])]; tx_chain := 1; tx_v := v; tx_r := 5; tx_s := 6 |}.
Theorem C32_invalid_v_refuted : (exists s, sig_bytes (ex_tx 2 (2 ^ 64)) = Some s /\ sig_bytes (ex_tx 2 0) = Some s /\ length s = 65%nat) /\
  (exists s, sig_bytes (ex_tx 0 0) = Some s /\ length s = 65%nat /\ nth 64 s 9 = 1).
Proof. split; eexists; (split; [vm_compute; reflexivity |]); split; vm_compute; reflexivity. Qed.
Example C32_nonvacuous : nonneg_tx (ex_tx 0 (35 + 2 * 1 + 1)) /\ rs_fit (ex_tx 0 38) /\ payload_ok (ex_tx 2 1) /\ small (length (eip1559_payload (ex_tx 2 1))).
Proof.
  split; [unfold nonneg_tx; cbn [ex_tx tx_nonce tx_gas_price tx_tip tx_fee_cap tx_gas tx_value tx_chain tx_v]; assert (0 <= 10 ^ 18) by discriminate; lia |].
  split; [unfold rs_fit; cbn [ex_tx tx_r tx_s]; lia |]. split.
  - unfold payload_ok. cbn [ex_tx tx_data tx_to tx_nonce tx_gas_price tx_tip tx_fee_cap tx_gas tx_value tx_chain tx_v tx_access].
    split; [repeat (apply Forall_cons; [unfold is_byte; lia |]); apply Forall_nil |]. split; [reflexivity |]. split.
    + intros a Ha. assert (a = repeat 7 20) by congruence. subst a. split; [reflexivity |]. apply Forall_forall. intros x Hx. apply repeat_spec in Hx. unfold is_byte. lia.
    + split.
      * intros x Hx. assert (B : 2 ^ 64 < 256 ^ 256) by reflexivity. cbn [In] in Hx. assert (10 ^ 18 < 2 ^ 64) by reflexivity.
        destruct Hx as [<- | [<- | [<- | [<- | [<- | [<- | [<- | [<- | []]]]]]]]]; lia.
      * unfold access_item. cbn [map fst snd]. apply wf_list. split; [| vm_compute; reflexivity]. apply Forall_cons; [| apply Forall_nil].
        apply wf_list. split; [| vm_compute; reflexivity]. apply Forall_cons; [split; [| vm_compute; reflexivity] |].
        -- apply Forall_forall. intros x Hx. apply repeat_spec in Hx. unfold is_byte. lia.
        -- apply Forall_cons; [| apply Forall_nil]. apply wf_list. split; [| vm_compute; reflexivity]. apply Forall_cons; [| apply Forall_nil].
           split; [| vm_compute; reflexivity]. apply Forall_forall. intros x Hx. apply repeat_spec in Hx. unfold is_byte. lia.
  - vm_compute. reflexivity.
Qed.
