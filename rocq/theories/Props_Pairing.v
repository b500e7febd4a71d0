(** * Props_Pairing.v — the pairing of circuits/gadgets/pairing_bls12381/pairing.go: C50 (final exponentiation), C51 (Miller loop and Pair).
    Field tower: TowerSpec.  Miller's algorithm: PairingSpec.  Model: PairingModel; [final_exponentiation e r] and [pair P Q r] say that
    an assignment of the hint values satisfying all constraints exists in which r is returned. *)
From Coq Require Import ZArith Znumtheory List Bool Lia Ring.
From Verif Require Import PrimeTheory PrimeBls FieldZ TowerModel TowerSpec TowerRing TowerFrob TowerField CharP TowerPow TowerCyc FinalExp PairingModel PairingSpec MillerProofs MillerWitness.
Import ListNotations.
Open Scope Z_scope.

Lemma easyN_def : easyN = (pBls ^ 6 - 1) * (pBls * pBls + 1). Proof. reflexivity. Qed.
(** ** C50 *)
(** whatever the hints, a result is the power 3 (p^12 - 1) / r of a non-zero argument *)
Theorem C50_final_exponentiation_sound : forall e z, final_exponentiation e z -> e <> zero12 /\ z = pow12 e (3 * ((pBls ^ 12 - 1) / rBls)).
Proof. intros e z H. apply (proj1 (final_exp_iff e z)) in H. destruct H as (H0 & _ & H). split; assumption. Qed.
(** the division is exact, so z^r = 1 *)
Lemma rBls_divides : (pBls ^ 12 - 1) = rBls * ((pBls ^ 12 - 1) / rBls).
Proof.
  assert (K : forall p e P r c, 0 < r -> e * P = p ^ 6 * p ^ 6 - 1 -> P = r * c -> p ^ 12 - 1 = r * ((p ^ 12 - 1) / r)).
  { intros p e P r c Hr HE HP. replace (p ^ 12 - 1) with (r * (e * c)) by (replace (p ^ 12) with (p ^ 6 * p ^ 6) by ring; rewrite <- HE, HP; ring). assert (X : r * (e * c) / r = e * c) by (rewrite (Z.mul_comm r); apply Z.div_mul; lia). rewrite X. reflexivity. }
  exact (K pBls easyN PhiBls rBls coBls eq_refl easy_num co_ok).
Qed.
Lemma pow12_nonneg : forall e n, n < 0 -> pow12 e n = one12.
Proof. intros e n H. Local Transparent pow12. unfold pow12, powz. destruct n; try lia. reflexivity. Qed.
Local Opaque pow12.
Theorem C50_result_has_order_r : forall e z, final_exponentiation e z -> pow12 z rBls = one12.
Proof.
  intros e z H. apply C50_final_exponentiation_sound in H. destruct H as [H0 ->]. destruct (inv12_exists e H0) as [i Hi]. pose proof (fermat12 e i Hi) as F.
  assert (K : forall P r q, 0 <= r -> 0 <= q -> P ^ 12 - 1 = r * q -> pow12 e (P ^ 6 * P ^ 6 - 1) = one12 -> pow12 (pow12 e (3 * q)) r = one12).
  { intros P r q Hr Hq E F'. rewrite <- pow12_mul by lia. replace (3 * q * r) with ((P ^ 12 - 1) * 3) by (rewrite E; ring). replace (P ^ 12) with (P ^ 6 * P ^ 6) by ring.
    assert (0 <= P ^ 6 * P ^ 6 - 1) by (replace (P ^ 6 * P ^ 6) with (P ^ 12) by ring; rewrite E; lia). rewrite pow12_mul by lia. rewrite F'. apply pow12_one. }
  apply (K pBls rBls); [discriminate | | exact rBls_divides | exact F].
  apply Z.div_pos; [| reflexivity]. assert (0 < pBls ^ 12) by (apply Z.pow_pos_nonneg; [reflexivity | discriminate]). lia.
Qed.
(** exactly when a result exists: with f = e^((p^6-1)(p^2+1)), the coefficient C1.B0 must be non-zero in the ten powers
    f^(m 2^15), f^(m 2^47) (exponents modulo the order p^4 - p^2 + 1 of the cyclotomic subgroup) that DecompressKarabina divides by *)
Definition decompressible (f : E12) (m : Z) : Prop :=
  let Phi := pBls ^ 4 - pBls ^ 2 + 1 in
  B0 (C1 (pow12 (pow12 f (m mod Phi)) (2 ^ 15))) <> zero2 /\ B0 (C1 (pow12 (pow12 f (m mod Phi)) (2 ^ 47))) <> zero2.
Lemma Phi_eq : pBls ^ 4 - pBls ^ 2 + 1 = PhiBls. Proof. unfold PhiBls. generalize pBls. intros. ring. Qed.
Lemma decompressible_iff : forall f m, decompressible f m <-> dec_ok (cp f m).
Proof. intros. unfold decompressible, dec_ok, cp. rewrite Phi_eq. reflexivity. Qed.
Theorem C50_final_exponentiation : forall e z, final_exponentiation e z <->
  e <> zero12 /\ z = pow12 e (3 * ((pBls ^ 12 - 1) / rBls)) /\
  let f := pow12 e ((pBls ^ 6 - 1) * (pBls * pBls + 1)) in
  decompressible f 2 /\ decompressible f (x0 - 1) /\ decompressible f ((x0 - 1) * (x0 - 1)) /\
  decompressible f ((x0 - 1) * (x0 - 1) * (x0 + pBls)) /\ decompressible f ((x0 - 1) * (x0 - 1) * (x0 + pBls) * x0).
Proof.
  intros e z. rewrite final_exp_iff. unfold fe_sat. cbv zeta. rewrite <- easyN_def. generalize (pow12 e easyN). intros f.
  pose proof (decompressible_iff f 2) as D1. pose proof (decompressible_iff f (x0 - 1)) as D2. pose proof (decompressible_iff f ((x0 - 1) * (x0 - 1))) as D3.
  pose proof (decompressible_iff f ((x0 - 1) * (x0 - 1) * (x0 + pBls))) as D4. pose proof (decompressible_iff f ((x0 - 1) * (x0 - 1) * (x0 + pBls) * x0)) as D5.
  revert D1 D2 D3 D4 D5. generalize (3 * ((pBls ^ 12 - 1) / rBls)) (x0 - 1) (x0 + pBls). intros n a b. generalize (a * a) (a * a * b) (a * a * b * x0). intros c d d'.
  generalize (decompressible f 2) (decompressible f a) (decompressible f c) (decompressible f d) (decompressible f d') (dec_ok (cp f 2)) (dec_ok (cp f a)) (dec_ok (cp f c)) (dec_ok (cp f d)) (dec_ok (cp f d')).
  generalize (z = pow12 e n) (e <> zero12). intros. tauto.
Qed.
(** so no result exists for 0, for 1 and for any element fixed by the conjugation, i.e. any element of Fp6; the pairing value 1 that such
    arguments should give cannot be produced this way *)
Lemma killed_rejected : forall e z, killed e -> ~ final_exponentiation e z.
Proof.
  intros e z K H. apply (proj1 (final_exp_iff e z)) in H. destruct H as (_ & [[H _] _] & _). unfold killed in K. rewrite K in H. unfold cp in H. rewrite !pow12_one in H. apply H. reflexivity.
Qed.
Lemma fixed_killed : forall e, e <> zero12 -> conj12 e = e -> killed e.
Proof.
  intros e H E. destruct (inv12_exists e H) as [i Hi]. apply (killed_gen e i); [exact p6_pos | exact p2_pos | exact Hi |]. rewrite <- conj12_pow. exact E.
Qed.
Theorem C50_rejects_fp6 : forall (a : E6) z, ~ final_exponentiation (of6 a) z.
Proof.
  intros a z H. assert (N := proj1 (C50_final_exponentiation_sound _ _ H)). revert H. apply killed_rejected. apply fixed_killed; [exact N |].
  unfold conj12, of6. cbn [C0 C1]. f_equal.
Qed.
Theorem C50_rejects_zero_and_one : forall z, ~ final_exponentiation zero12 z /\ ~ final_exponentiation one12 z.
Proof. intros z. split; [exact (C50_rejects_fp6 zero6 z) | exact (C50_rejects_fp6 one6 z)]. Qed.
Theorem C50_deterministic : forall e z z', final_exponentiation e z -> final_exponentiation e z' -> z = z'.
Proof. intros e z z' H H'. apply C50_final_exponentiation_sound in H, H'. destruct H as [_ ->]. destruct H' as [_ ->]. reflexivity. Qed.

(** ** C51 *)
(** MillerLoop returns, up to a factor that the final exponentiation removes, the conjugate (the inverse after the final
    exponentiation, because x0 is negative) of the product of the Miller values f_{|x0|,Q_k}(P_k); no freedom is left to the hints.
    Hypotheses: every Q_k is on the twist and has a Miller value (its multiples met on the way avoid infinity). *)
Theorem C51_miller_loop : forall Ps Qs fs, length Ps = length Qs -> Qs <> [] -> Forall on_twist Qs -> length fs = length Qs ->
  (forall k P Q, nth_error Ps k = Some P -> nth_error Qs k = Some Q -> exists f, nth_error fs k = Some f /\ miller_value P Q f) ->
  exists c, pow12 c ((pBls ^ 6 - 1) * (pBls * pBls + 1)) = one12 /\ forall o, miller_loop Ps Qs o <-> o = Some (conj12 (mul12 c (fold_right mul12 one12 fs))).
Proof.
  intros Ps Qs fs HL HN Hon HLf HV. destruct (miller_loop_ok Ps Qs fs HL HN Hon HLf HV) as (c & Hc & HM). exists c. split; [| exact HM]. rewrite <- easyN_def. exact Hc.
Qed.
(** an empty or unequal pair of slices is an error, for MillerLoop and for Pair *)
Theorem C51_errors : forall Ps Qs o, Ps = [] \/ length Ps <> length Qs -> (miller_loop Ps Qs o <-> o = None) /\ (pair Ps Qs o <-> o = None).
Proof.
  intros Ps Qs o H. split; [apply miller_loop_err; exact H |]. unfold pair, bind, ret. split.
  - intros (m & Hm & E). apply (proj1 (miller_loop_err Ps Qs m H)) in Hm. subst m. exact E.
  - intros ->. exists None. split; [apply (proj2 (miller_loop_err Ps Qs None H)); reflexivity | reflexivity].
Qed.
(** Pair: any result is z with z (f_1 ... f_n)^(3 (p^12-1)/r) = 1, i.e. the cube of the product of the optimal ate pairings
    f_{x0,Q}(P)^((p^12-1)/r) with f_{x0,Q} = 1/f_{|x0|,Q} *)
Theorem C51_pair : forall Ps Qs fs r, length Ps = length Qs -> Qs <> [] -> Forall on_twist Qs -> length fs = length Qs ->
  (forall k P Q, nth_error Ps k = Some P -> nth_error Qs k = Some Q -> exists f, nth_error fs k = Some f /\ miller_value P Q f) ->
  pair Ps Qs r -> exists z, r = Some z /\ mul12 z (pow12 (fold_right mul12 one12 fs) (3 * ((pBls ^ 12 - 1) / rBls))) = one12.
Proof. exact pair_ok. Qed.
(** a Miller value is unique, so the result of Pair is *)
Lemma tangent_unique : forall T l l', tangent T l -> tangent T l' -> l = l'.
Proof.
  intros T l l' [H E] [_ E']. assert (N : py T +' py T <> zero12).
  { intros F. apply H. assert (Tw : em2 (add2 one2 one2) <> zero12) by (change em2 with iota; rewrite <- iota_0; intros X; apply iota_inj in X; exact (add2_self one2 one2_zero2 X)).
    destruct (inv12_exists _ Tw) as [i Hi]. change em2 with iota in Hi. rewrite iota_add, iota_1 in Hi. transitivity (mul12 (mul12 (one12 +' one12) i) (py T)); [rewrite Hi; ring |]. transitivity (mul12 i (py T +' py T)); [ring | rewrite F; ring]. }
  destruct (inv12_exists _ N) as [i Hi]. apply (cancel12 (py T +' py T) i); [exact Hi | rewrite E, E'; reflexivity].
Qed.
Lemma chord_unique : forall T Q l l', chord T Q l -> chord T Q l' -> l = l'.
Proof. intros T Q l l' [H E] [_ E']. destruct (inv12_exists _ H) as [i Hi]. apply (cancel12 _ i _ _ Hi). rewrite E, E'. reflexivity. Qed.
Lemma mstep_unique : forall P Q b s s' s'', mstep P Q b s s' -> mstep P Q b s s'' -> s' = s''.
Proof.
  intros P Q b s s' s'' H H'. destruct H as [T f l Ht | T f l T' l' Ht E Hc].
  - inversion H' as [T0 f0 l0 Ht0 E1 E2 E3 |]; subst. rewrite (tangent_unique T l l0 Ht Ht0). reflexivity.
  - inversion H' as [| T0 f0 l0 T0' l0' Ht0 E0 Hc0 E1 E2 E3]. subst. pose proof (tangent_unique T l l0 Ht Ht0) as ->. pose proof (chord_unique _ _ l' l0' Hc Hc0) as ->. reflexivity.
Qed.
Lemma msteps_unique : forall P Q bs s s' s'', msteps P Q bs s s' -> msteps P Q bs s s'' -> s' = s''.
Proof.
  intros P Q bs s s' s'' H. revert s''. induction H as [s | b bs s s' s1 H1 _ IH]; intros s'' H'; inversion H'; subst; [reflexivity |].
  apply IH. rewrite (mstep_unique P Q b s s' s'0); assumption.
Qed.
Theorem C51_miller_value_unique : forall P Q f f', miller_value P Q f -> miller_value P Q f' -> f = f'.
Proof.
  intros P Q f f' (T & R & [Ux Uy] & H) (T' & R' & [Ux' Uy'] & H'). assert (E : T = T').
  { destruct w_inv as [wi Hwi]. destruct T as [tx ty], T' as [tx' ty']. cbn [px py] in *. f_equal.
    - apply (cancel12 (mul12 w12 w12) (mul12 wi wi)); [transitivity (mul12 (mul12 w12 wi) (mul12 w12 wi)); [ring | rewrite Hwi; ring] |]. transitivity (mul12 tx (mul12 w12 w12)); [ring | rewrite Ux, <- Ux'; ring].
    - apply (cancel12 (mul12 w12 (mul12 w12 w12)) (mul12 wi (mul12 wi wi))); [transitivity (mul12 (mul12 w12 wi) (mul12 (mul12 w12 wi) (mul12 w12 wi))); [ring | rewrite Hwi; ring] |].
      transitivity (mul12 ty (mul12 w12 (mul12 w12 w12))); [ring | rewrite Uy, <- Uy'; ring]. }
  subst T'. pose proof (msteps_unique _ _ _ _ _ _ H H') as X. injection X as _ X. exact X.
Qed.
(** a concrete case meeting the hypotheses: the generator of G2, with every P *)
Example C51_witness : on_twist g2_gen /\ forall P, exists f, miller_value P g2_gen f.
Proof. split; [exact g2_gen_on_twist | exact g2_gen_value]. Qed.

(** Pair is incomplete for honest inputs: the product of a pair and its opposite, whose pairing is 1, has no satisfying assignment *)
Definition neg1 (P : G1Affine) : G1Affine := mkG1 (X1 P) (qopp (Y1 P)).
Lemma conj12_add : forall a b, conj12 (add12 a b) = add12 (conj12 a) (conj12 b).
Proof. intros [a b] [c d]. unfold conj12, add12. cbn [C0 C1]. f_equal. unfold opp6, add6. cbn [B0 B1 B2]. apply E6_eq; ring. Qed.
Lemma conj12_sub : forall a b, conj12 (sub12 a b) = sub12 (conj12 a) (conj12 b).
Proof. intros [a b] [c d]. unfold conj12, sub12. cbn [C0 C1]. f_equal. unfold opp6, sub6. cbn [B0 B1 B2]. apply E6_eq; ring. Qed.
Lemma conj12_w : conj12 w12 = opp12 w12.
Proof. unfold conj12, opp12, w12. cbn [C0 C1]. reflexivity. Qed.
Lemma conj_slope : forall l la, mul12 l w12 = iota la -> conj12 l = opp12 l.
Proof.
  intros l la H. destruct w_inv as [wi Hwi]. apply (cancel12 w12 wi _ _ Hwi). assert (E : conj12 (mul12 l w12) = mul12 l w12) by (rewrite H; apply conj12_iota).
  rewrite conj12_mul, conj12_w in E. transitivity (opp12 (mul12 (conj12 l) (opp12 w12))); [ring | rewrite E; ring].
Qed.
Lemma conj_pt : forall x y T, untwist (mkG2 x y) T -> conj12 (px T) = px T /\ conj12 (py T) = opp12 (py T).
Proof.
  intros x y [tx ty] [Ux Uy]. cbn [px py X2 Y2] in *. change em2 with iota in *. fold W2 in Ux. fold W3 in Uy. destruct w_inv as [wi Hwi].
  assert (E2 : conj12 (mul12 tx W2) = mul12 tx W2) by (rewrite Ux; apply conj12_iota). assert (E3 : conj12 (mul12 ty W3) = mul12 ty W3) by (rewrite Uy; apply conj12_iota).
  rewrite conj12_mul in E2, E3. rewrite conj12_W3 in E3. unfold W2 in E2 at 1. rewrite conj12_mul, conj12_w in E2. split.
  - apply (cancel12 W2 (mul12 wi wi)); [transitivity (mul12 (mul12 w12 wi) (mul12 w12 wi)); [unfold W2; ring | rewrite Hwi; ring] |]. transitivity (mul12 (conj12 tx) (mul12 (opp12 w12) (opp12 w12))); [unfold W2; ring | rewrite E2; ring].
  - apply (cancel12 W3 (mul12 wi (mul12 wi wi))); [transitivity (mul12 (mul12 w12 wi) (mul12 (mul12 w12 wi) (mul12 w12 wi))); [unfold W3; ring | rewrite Hwi; ring] |].
    transitivity (opp12 (mul12 (conj12 ty) (opp12 W3))); [ring | rewrite E3; ring].
Qed.
Lemma line_neg : forall l la x y T P, untwist (mkG2 x y) T -> mul12 l w12 = iota la -> line l T (neg1 P) = opp12 (conj12 (line l T P)).
Proof.
  intros l la x y T P U Hl. destruct (conj_pt x y T U) as [Ex Ey]. pose proof (conj_slope l la Hl) as El. unfold line, neg1. cbn [X1 Y1]. rewrite !conj12_sub, conj12_mul, conj12_sub, Ex, Ey, El. unfold em1. change em2 with iota. rewrite !conj12_iota.
  assert (E : of1 (qopp (Y1 P)) = opp2 (of1 (Y1 P))). { change (opp2 (of1 (Y1 P))) with (mkE2 (qopp (Y1 P)) (qopp (fc 0))). unfold of1. apply E2_eq; ring. }
  rewrite E, iota_opp. ring.
Qed.
Definition pm_conj (g f : E12) : Prop := g = conj12 f \/ g = opp12 (conj12 f).
Lemma pm_square : forall g f, pm_conj g f -> mul12 g g = conj12 (mul12 f f).
Proof. intros g f [-> | ->]; rewrite conj12_mul; ring. Qed.
Lemma msteps_neg : forall P q Q, untwist q Q -> forall bs s s', msteps P Q bs s s' -> forall g, (exists x y, untwist (mkG2 x y) (fst s)) -> pm_conj g (snd s) ->
  exists g', pm_conj g' (snd s') /\ msteps (neg1 P) Q bs (fst s, g) (fst s', g').
Proof.
  intros P [xq yq] Q UQ bs s s' H. induction H as [s | b bs s s1 s2 H1 _ IH]; intros g (x & y & U) Hg.
  - exists g. split; [exact Hg | constructor].
  - destruct H1 as [T f l Ht | T f l T' l' Ht E Hc]; cbn [fst snd] in *.
    + destruct (tangent_twist x y T l U Ht) as (la & _ & _ & Hl). destruct (IH (g *' g *' line l T (neg1 P))) as (g' & Hg' & HM).
      * do 2 eexists. eapply untwist_third; [exact U | exact Hl | destruct U as [Ux _]; exact Ux].
      * right. rewrite (pm_square g f Hg), (line_neg l la x y T P U Hl), !conj12_mul. ring.
      * exists g'. split; [exact Hg' |]. econstructor; [| exact HM]. apply mstep0. exact Ht.
    + destruct (tangent_twist x y T l U Ht) as (la & _ & _ & Hl). assert (U' : exists x' y', untwist (mkG2 x' y') T'). { subst T'. do 2 eexists. eapply untwist_third; [exact U | exact Hl | destruct U as [Ux _]; exact Ux]. }
      destruct U' as (x' & y' & U'). destruct (chord_twist x' y' xq yq T' Q l' U' UQ Hc) as (la' & _ & _ & Hl').
      destruct (IH (g *' g *' line l T (neg1 P) *' line l' T' (neg1 P))) as (g' & Hg' & HM).
      * do 2 eexists. eapply untwist_third; [exact U' | exact Hl' | destruct UQ as [Ux _]; exact Ux].
      * left. rewrite (pm_square g f Hg), (line_neg l la x y T P U Hl), (line_neg l' la' x' y' T' P U' Hl'), !conj12_mul. ring.
      * exists g'. split; [exact Hg' |]. econstructor; [| exact HM]. eapply mstep1; [exact Ht | exact E | exact Hc].
Qed.
Lemma miller_value_neg : forall P Q f, miller_value P Q f -> exists g, pm_conj g f /\ miller_value (neg1 P) Q g.
Proof.
  intros P [x y] f (T & R & U & H). destruct (msteps_neg P _ T U _ _ _ H one12) as (g & Hg & HM); [exists x, y; exact U | left; symmetry; apply conj12_one |].
  exists g. split; [exact Hg |]. exists T, R. split; [exact U | exact HM].
Qed.
Theorem C51_cancelling_pair_rejected : forall P Q f r, on_twist Q -> miller_value P Q f -> ~ pair [P; neg1 P] [Q; Q] r.
Proof.
  intros P Q f r HQ HV HP. destruct (miller_value_neg P Q f HV) as (g & Hg & HV').
  destruct (miller_loop_ok [P; neg1 P] [Q; Q] [f; g] eq_refl ltac:(discriminate) ltac:(constructor; [exact HQ | constructor; [exact HQ | constructor]]) eq_refl) as (c & Hc & HM).
  { intros [| [| k]] P' Q' E E'; cbn in E, E'; [| | destruct k; discriminate]; injection E as <-; injection E' as <-; eexists; (split; [reflexivity | assumption]). }
  unfold pair, bind, ret in HP. destruct HP as (m & Hm & HP). apply HM in Hm. subst m. destruct HP as (z & Hz & _).
  assert (N := proj1 (C50_final_exponentiation_sound _ _ Hz)). revert Hz. apply killed_rejected. cbn [fold_right] in *.
  assert (Nf : f <> zero12). { intros ->. apply N. transitivity (conj12 zero12); [f_equal; ring | change zero12 with (iota zero2); apply conj12_iota]. }
  assert (K : killed (mul12 c (mul12 f (mul12 g one12)))).
  { apply killed_mul; [exact Hc |]. destruct Hg as [-> | ->].
    - replace (mul12 f (mul12 (conj12 f) one12)) with (mul12 (conj12 f) f) by ring. apply killed_norm. exact Nf.
    - replace (mul12 f (mul12 (opp12 (conj12 f)) one12)) with (mul12 (iota (opp2 one2)) (mul12 (conj12 f) f)) by (rewrite iota_opp, iota_1; ring). apply killed_mul; [| apply killed_norm; exact Nf].
      apply killed_iota. apply opp2_ne0. exact one2_zero2. }
  unfold killed in *. rewrite conj12_pow. revert K. generalize (mul12 c (mul12 f (mul12 g one12))). intros e K.
  assert (S : forall a b, 0 <= a -> 0 <= b -> pow12 e a = one12 -> pow12 (pow12 e b) a = one12). { intros a b Ha Hb E. rewrite <- pow12_mul by assumption. rewrite Z.mul_comm. rewrite pow12_mul by assumption. rewrite E. apply pow12_one. }
  apply S; [exact easy_pos | pose proof p6_pos; lia | exact K].
Qed.
