(** * Props_H2G.v — property C58: EncodeToG2OnJac, HashToG2OnJac, EncodeToG2, HashToG2
    (circuits/gadgets/pairing_bls12381/hash2curve.go) against RFC 9380

    [encode_to_curve msg P], [hash_to_curve msg P] (SswuSpec.v): P is the RFC's result for msg, with hash_to_field over expand_message_xmd
    and SHA-256, the simplified SWU map, the 3-isogeny and clear_cofactor ([h_eff] by psi).  [aff r] is the affine point r.
    [fp_canon] is a prover that runs gnark's hints, [fp_rep] any prover. *)
From Coq Require Import ZArith NArith List Bool Lia Ring.
From Verif Require Import FieldZ TowerModel TowerSpec TowerRing TowerFrob TowerField PairingModel PairingSpec MillerProofs WSpec G2Spec G2Group G2Model H2CModel H2CSpec CmpProofs JacProofs PsiProofs ScalarProofs SswuSpec SswuProofs IsoProofs SswuMap H2GProofs H2GMono SswuEx H2GComp H2GEx.
Import ListNotations.
Open Scope Z_scope.
Local Opaque gadd gneg gmul on_g2 gpsi iso_map mapg sswu_x1 sswu_x2 sswu_t map_element_to_curve2 g2_isogeny clear_cofactor_spec hash_to_field_spec encode_to_g2_on_jac hash_to_g2_on_jac encode_to_g2 hash_to_g2.

(** The inputs of the simplified SWU map on which the circuit's sign rule (first coordinates only) agrees with the RFC's: u has a nonzero
    first coordinate or an even second one, and the RFC's ordinate has a nonzero first coordinate; and Z^2 u^4 + Z u^2 is not zero.
    (All but a fraction of about 2^-380 of the inputs.) *)
Definition ordinary (u : E2) : Prop :=
  (A0 u <> fc 0 \/ Z.odd (fval (A1 u)) = false) /\ (forall x y, sswu u x y -> A0 y <> fc 0) /\ sswu_t u <> zero2.
Lemma ord_reg u : ordinary u -> regular u /\ sswu_t u <> zero2. Proof. intros [A [B C]]. split; [split; assumption|exact C]. Qed.

(** ** the specification determines the point *)
Lemma mtc_fun u P Q : map_to_curve u P -> map_to_curve u Q -> P = Q.
Proof. intros [x [y [S E]]] [x' [y' [S' E']]]. destruct (sswu_fun _ _ _ _ _ S S') as [-> ->]. rewrite E, E'. reflexivity. Qed.
Theorem C58_spec_unique : forall msg P Q, (encode_to_curve msg P -> encode_to_curve msg Q -> P = Q) /\ (hash_to_curve msg P -> hash_to_curve msg Q -> P = Q).
Proof.
  intros msg P Q. split.
  - intros [A [HA EA]] [B [HB EB]]. rewrite (mtc_fun _ _ _ HA HB) in EA. rewrite EA, EB. reflexivity.
  - intros [A [A' [HA [HA' EA]]]] [B [B' [HB [HB' EB]]]]. rewrite (mtc_fun _ _ _ HA HB), (mtc_fun _ _ _ HA' HB') in EA. rewrite EA, EB. reflexivity.
Qed.

(** ** EncodeToG2OnJac and HashToG2OnJac: exact for an honest prover *)
(** For 32 native field elements as message whose field elements are ordinary, the honest prover's circuit is satisfied exactly by byte
    messages and the RFC's point *)
Theorem C58_encode_jac : forall p msg r, 2 ^ 70 < p -> length msg = 32%nat -> (forall b, In b msg -> 0 <= b < p) ->
  ordinary (nth 0 (hash_to_field_spec msg 1) zero2) ->
  (encode_to_g2_on_jac fp_canon p msg r <-> (forall b, In b msg -> 0 <= b < 256) /\ encode_to_curve msg (aff r)).
Proof.
  intros p msg r Hp L F O. destruct (ord_reg _ O) as [R T]. pose proof (enc_jac_rfc p Hp msg L F r R) as I. split.
  - intros H. destruct (proj1 I H) as [B [_ E]]. split; [exact B|exact E].
  - intros [B E]. apply (proj2 I). split; [exact B|]. split; [exact T|exact E].
Qed.
Theorem C58_hash_jac : forall p msg r, 2 ^ 70 < p -> length msg = 32%nat -> (forall b, In b msg -> 0 <= b < p) ->
  ordinary (nth 0 (hash_to_field_spec msg 2) zero2) -> ordinary (nth 1 (hash_to_field_spec msg 2) zero2) ->
  (hash_to_g2_on_jac fp_canon p msg r <-> (forall b, In b msg -> 0 <= b < 256) /\ hash_to_curve msg (aff r)).
Proof.
  intros p msg r Hp L F O0 O1. destruct (ord_reg _ O0) as [R0 T0]. destruct (ord_reg _ O1) as [R1 T1]. pose proof (hash_jac_rfc p Hp msg L F r R0 R1) as I. split.
  - intros H. destruct (proj1 I H) as [B [_ [_ E]]]. split; [exact B|exact E].
  - intros [B E]. apply (proj2 I). split; [exact B|]. split; [exact T0|]. split; [exact T1|exact E].
Qed.
(** hence satisfiable on every such byte message, unless the RFC's point is the point at infinity, which the circuit's affine result
    cannot hold *)
Lemma mtc_ex u : ordinary u -> exists Q, map_to_curve u (aff Q) /\ on_g2 (aff Q).
Proof.
  intros O. destruct (ord_reg _ O) as [R T]. destruct (map_total _ u fp_canon_ok T) as [x [y H]]. destruct (map_canon u x y H) as [_ [_ [E _]]].
  destruct (iso_some x y E) as [Q [EQ [OQ _]]]. exists Q. split; [|exact OQ]. exists x, y. split; [exact (proj2 (proj1 (map_rfc u x y R) H))|]. symmetry. exact EQ.
Qed.
Lemma aff_some P : P <> None -> exists r, aff r = P.
Proof. destruct P as [[x y]|]; intros N; [exists (mkG2 x y); reflexivity|exfalso; apply N; reflexivity]. Qed.
Theorem C58_complete : forall p msg, 2 ^ 70 < p -> length msg = 32%nat -> (forall b, In b msg -> 0 <= b < 256) ->
  (ordinary (nth 0 (hash_to_field_spec msg 1) zero2) -> exists P, encode_to_curve msg P /\ on_g2 P /\
    (P <> None <-> exists r, encode_to_g2_on_jac fp_canon p msg r)) /\
  (ordinary (nth 0 (hash_to_field_spec msg 2) zero2) -> ordinary (nth 1 (hash_to_field_spec msg 2) zero2) -> exists P, hash_to_curve msg P /\ on_g2 P /\
    (P <> None <-> exists r, hash_to_g2_on_jac fp_canon p msg r)).
Proof.
  intros p msg Hp L B. assert (F : forall b, In b msg -> 0 <= b < p) by (intros b Hb; specialize (B b Hb); lia). split.
  - intros O. destruct (mtc_ex _ O) as [Q [M OQ]]. exists (clear_cofactor_spec (aff Q)). assert (E : encode_to_curve msg (clear_cofactor_spec (aff Q))) by (exists (aff Q); split; [exact M|reflexivity]).
    split; [exact E|]. split; [exact (clear_spec_on _ OQ)|]. split.
    + intros N. destruct (aff_some _ N) as [r Er]. exists r. apply (C58_encode_jac p msg r Hp L F O). split; [exact B|]. rewrite Er. exact E.
    + intros [r H]. apply (C58_encode_jac p msg r Hp L F O) in H. destruct H as [_ H]. rewrite (proj1 (C58_spec_unique msg _ _) E H). discriminate.
  - intros O0 O1. destruct (mtc_ex _ O0) as [Q0 [M0 OQ0]]. destruct (mtc_ex _ O1) as [Q1 [M1 OQ1]]. exists (clear_cofactor_spec (gadd (aff Q0) (aff Q1))).
    assert (E : hash_to_curve msg (clear_cofactor_spec (gadd (aff Q0) (aff Q1)))) by (exists (aff Q0), (aff Q1); split; [exact M0|split; [exact M1|reflexivity]]).
    split; [exact E|]. split; [exact (clear_spec_on _ (gadd_on _ _ OQ0 OQ1))|]. split.
    + intros N. destruct (aff_some _ N) as [r Er]. exists r. apply (C58_hash_jac p msg r Hp L F O0 O1). split; [exact B|]. rewrite Er. exact E.
    + intros [r H]. apply (C58_hash_jac p msg r Hp L F O0 O1) in H. destruct H as [_ H]. rewrite (proj2 (C58_spec_unique msg _ _) E H). discriminate.
Qed.

(** ** EncodeToG2 and HashToG2 (affine arithmetic): sound for an honest prover (missing: that they are satisfiable whenever the RFC's
    point is not at infinity; the affine formulas reject intermediate coincidences) *)
Theorem C58_encode_affine_partial : forall p msg r, 2 ^ 70 < p -> length msg = 32%nat -> (forall b, In b msg -> 0 <= b < p) ->
  ordinary (nth 0 (hash_to_field_spec msg 1) zero2) ->
  encode_to_g2 fp_canon p msg r -> (forall b, In b msg -> 0 <= b < 256) /\ encode_to_curve msg (aff r).
Proof.
  intros p msg r Hp L F O H. destruct (ord_reg _ O) as [R T]. destruct (enc_aff_rfc p Hp msg L F r R H) as [B [_ E]]. split; [exact B|exact E].
Qed.
Theorem C58_hash_affine_partial : forall p msg r, 2 ^ 70 < p -> length msg = 32%nat -> (forall b, In b msg -> 0 <= b < p) ->
  ordinary (nth 0 (hash_to_field_spec msg 2) zero2) -> ordinary (nth 1 (hash_to_field_spec msg 2) zero2) ->
  hash_to_g2 fp_canon p msg r -> (forall b, In b msg -> 0 <= b < 256) /\ hash_to_curve msg (aff r).
Proof.
  intros p msg r Hp L F O0 O1 H. destruct (ord_reg _ O0) as [R0 T0]. destruct (ord_reg _ O1) as [R1 T1]. destruct (hash_aff_rfc p Hp msg L F r R0 R1 H) as [B [_ [_ E]]]. split; [exact B|exact E].
Qed.

Lemma neg_ne r : on_g2 (aff r) -> g2_neg r <> r.
Proof.
  intros O E. assert (E' : gneg (aff r) = aff r) by (rewrite <- aneg, E; reflexivity). destruct r as [x y]. unfold aff in *. cbn [X2 Y2] in *. Local Transparent gneg. unfold gneg, pneg in E'. Local Opaque gneg.
  assert (Y : opp2 y = y) by congruence. destruct (E2_dec y zero2) as [->|N]; [exact (twist_no_order2 x O)|]. apply (add2_self y N). transitivity (add2 y (opp2 y)); [rewrite Y; reflexivity|ring].
Qed.
(** ** refuted for any prover: the circuit does not fix the hash.  When the first coordinates of the field elements are below 2^381 - p
    (about a quarter of the messages for encode, a sixteenth for hash), the negated point is accepted as well *)
Theorem C58_sign_refuted : forall p msg, 2 ^ 70 < p -> length msg = 32%nat -> (forall b, In b msg -> 0 <= b < p) ->
  (fval (A0 (nth 0 (hash_to_field_spec msg 1) zero2)) < 2 ^ 381 - pBls -> forall r, encode_to_g2_on_jac fp_canon p msg r ->
    encode_to_g2_on_jac fp_rep p msg r /\ encode_to_g2_on_jac fp_rep p msg (g2_neg r) /\ aff (g2_neg r) = gneg (aff r) /\ (on_g2 (aff r) -> g2_neg r <> r)) /\
  (fval (A0 (nth 0 (hash_to_field_spec msg 2) zero2)) < 2 ^ 381 - pBls -> fval (A0 (nth 1 (hash_to_field_spec msg 2) zero2)) < 2 ^ 381 - pBls ->
    forall r, hash_to_g2_on_jac fp_canon p msg r ->
    hash_to_g2_on_jac fp_rep p msg r /\ hash_to_g2_on_jac fp_rep p msg (g2_neg r) /\ aff (g2_neg r) = gneg (aff r) /\ (on_g2 (aff r) -> g2_neg r <> r)).
Proof.
  intros p msg Hp L F. split.
  - intros S r H. destruct (enc_flip p Hp msg L F r S H) as [A B]. split; [exact A|]. split; [exact B|]. split; [exact (aneg r)|exact (neg_ne r)].
  - intros S0 S1 r H. destruct (hash_flip p Hp msg L F r S0 S1 H) as [A B]. split; [exact A|]. split; [exact B|]. split; [exact (aneg r)|exact (neg_ne r)].
Qed.

(** ** a message that meets the hypotheses: 32 bytes 0xf0 (its hash_to_field is computed in H2GEx.v) *)
Lemma reg_ord u w t a b s d n w2 w3 v : reg_h u w t a b s d n w2 w3 v = true -> ordinary (em u).
Proof. intros H. destruct (reg_h_ok _ _ _ _ _ _ _ _ _ _ _ H) as [T [A B]]. split; [exact A|]. split; [exact B|exact T]. Qed.
Example C58_example : length exmsg = 32%nat /\ (forall b, In b exmsg -> 0 <= b < 256) /\
  ordinary (nth 0 (hash_to_field_spec exmsg 1) zero2) /\ fval (A0 (nth 0 (hash_to_field_spec exmsg 1) zero2)) < 2 ^ 381 - pBls /\
  ordinary (nth 0 (hash_to_field_spec exmsg 2) zero2) /\ fval (A0 (nth 0 (hash_to_field_spec exmsg 2) zero2)) < 2 ^ 381 - pBls /\
  ordinary (nth 1 (hash_to_field_spec exmsg 2) zero2) /\ fval (A0 (nth 1 (hash_to_field_spec exmsg 2) zero2)) < 2 ^ 381 - pBls.
Proof.
  split; [reflexivity|]. split; [intros b Hb; apply repeat_spec in Hb; subst b; lia|]. rewrite e1_field, e2_field. cbn [nth].
  split; [exact (reg_ord _ _ _ _ _ _ _ _ _ _ _ e1_u0_reg)|]. split; [vm_compute; reflexivity|].
  split; [exact (reg_ord _ _ _ _ _ _ _ _ _ _ _ e2_u0_reg)|]. split; [vm_compute; reflexivity|].
  split; [exact (reg_ord _ _ _ _ _ _ _ _ _ _ _ e2_u1_reg)|]. vm_compute; reflexivity.
Qed.
