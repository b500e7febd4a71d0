(** * FinalExp.v — ExptHalf, Expt and FinalExponentiation as powers *)
From Coq Require Import ZArith Znumtheory List Lia Ring.
From Verif Require Import PrimeTheory PrimeBls FieldZ TowerModel TowerSpec TowerRing TowerFrob TowerField CharP TowerPow TowerCyc PairingModel.
Open Scope Z_scope.

(** ** integer exponents in the cyclotomic subgroup, reduced modulo its order *)
Definition cp (x : E12) (n : Z) : E12 := pow12 x (n mod PhiBls).
Lemma pow12_red : forall x n P, 0 < P -> 0 <= n -> pow12 x P = one12 -> pow12 x (n mod P) = pow12 x n.
Proof.
  intros x n P HP Hn H. rewrite (Z.div_mod n P) at 2 by lia. pose proof (Z.div_pos n P Hn HP). pose proof (Z.mod_pos_bound n P HP).
  rewrite pow12_add by nia. rewrite pow12_mul by lia. rewrite H, pow12_one. ring.
Qed.
Lemma cp_pow : forall x n, Cyc x -> 0 <= n -> cp x n = pow12 x n.
Proof. intros x n H Hn. unfold cp. exact (pow12_red x n PhiBls Phi_pos Hn H). Qed.
Lemma cp_cong : forall x m n, m mod PhiBls = n mod PhiBls -> cp x m = cp x n.
Proof. intros x m n H. unfold cp. rewrite H. reflexivity. Qed.
Lemma cp_gen : forall x, Cyc x -> exists P, PhiBls = P /\ 0 < P /\ pow12 x P = one12 /\ (forall n, cp x n = pow12 x (n mod P)).
Proof. intros x H. exists PhiBls. split; [reflexivity |]. split; [exact Phi_pos |]. split; [exact H |]. reflexivity. Qed.
Lemma cp_add : forall x m n, Cyc x -> mul12 (cp x m) (cp x n) = cp x (m + n).
Proof.
  intros x m n H. destruct (cp_gen x H) as (P & _ & HP & HK & E). rewrite !E. pose proof (Z.mod_pos_bound m P HP). pose proof (Z.mod_pos_bound n P HP).
  rewrite <- pow12_add by lia. rewrite <- (pow12_red x (m mod P + n mod P) P) by (lia || exact HK). rewrite <- Zplus_mod. reflexivity.
Qed.
Lemma cp_mul : forall x m n, Cyc x -> 0 <= n -> pow12 (cp x m) n = cp x (m * n).
Proof.
  intros x m n H Hn. destruct (cp_gen x H) as (P & _ & HP & HK & E). rewrite !E. pose proof (Z.mod_pos_bound m P HP).
  rewrite <- pow12_mul by lia. rewrite <- (pow12_red x (m mod P * n) P) by (nia || exact HK). rewrite Zmult_mod_idemp_l. reflexivity.
Qed.
Lemma cp_cyc : forall x m, Cyc x -> Cyc (cp x m).
Proof. intros x m H. unfold cp. apply cyc_pow; [apply Z.mod_pos_bound; exact Phi_pos | exact H]. Qed.
Lemma cp_0 : forall x, cp x 0 = one12. Proof. intros. unfold cp. rewrite Z.mod_0_l by (intros E; pose proof Phi_pos; rewrite E in *; lia). apply pow12_0. Qed.
Lemma cp_1 : forall x, Cyc x -> cp x 1 = x. Proof. intros. rewrite cp_pow by (assumption || lia). apply pow12_1. Qed.
Lemma cp_conj : forall x m, Cyc x -> conj12 (cp x m) = cp x (- m).
Proof.
  intros x m H. apply (inv12_unique (cp x m)); [apply cyc_conj; apply cp_cyc; exact H |]. rewrite cp_add by exact H. replace (m + - m) with 0 by lia. apply cp_0.
Qed.

(** ** ExptHalf and Expt *)
Definition dec_ok (x : E12) : Prop := B0 (C1 (pow12 x (2 ^ 15))) <> zero2 /\ B0 (C1 (pow12 x (2 ^ 47))) <> zero2.
Theorem expt_half_iff : forall x r, Cyc x -> (e12_expt_half x r <-> dec_ok x /\ r = conj12 (pow12 x (- x0 / 2))).
Proof.
  intros x r H. unfold e12_expt_half, bind, ret. cbv zeta.
  pose proof (n_compressed_ok x x 15 H (agree_refl x)) as A1. change (2 ^ Z.of_nat 15) with (2 ^ 15) in A1.
  assert (C1' : Cyc (pow12 x (2 ^ 15))) by (apply cyc_pow; [discriminate | exact H]).
  pose proof (n_compressed_ok _ _ 32 C1' A1) as A2. change (2 ^ Z.of_nat 32) with (2 ^ 32) in A2. rewrite <- pow12_mul in A2 by discriminate. change (2 ^ 15 * 2 ^ 32) with (2 ^ 47) in A2.
  assert (C2' : Cyc (pow12 x (2 ^ 47))) by (apply cyc_pow; [discriminate | exact H]).
  set (y1 := e12_n_square_compressed x 15) in *. set (y2 := e12_n_square_compressed y1 32) in *. clearbody y1 y2.
  assert (V : forall b0 b1, b0 = pow12 x (2 ^ 15) -> b1 = pow12 x (2 ^ 47) ->
    e12_conjugate (e12_mul (e12_mul (e12_mul (e12_mul (e12_mul b0 b1) (e12_n_square b1 9)) (e12_n_square (e12_n_square b1 9) 3)) (e12_n_square (e12_n_square (e12_n_square b1 9) 3) 2))
       (e12_cyclotomic_square (e12_n_square (e12_n_square (e12_n_square b1 9) 3) 2))) = conj12 (pow12 x (- x0 / 2))).
  { intros b0 b1 -> ->. rewrite e12_conj_ok. f_equal. rewrite !e12_mul_ok.
    rewrite (n_square_ok (pow12 x (2 ^ 47)) 9 C2'). change (2 ^ Z.of_nat 9) with (2 ^ 9). rewrite <- (pow12_mul x (2 ^ 47) (2 ^ 9)) by discriminate. change (2 ^ 47 * 2 ^ 9) with (2 ^ 56).
    assert (C3' : Cyc (pow12 x (2 ^ 56))) by (apply cyc_pow; [discriminate | exact H]).
    rewrite (n_square_ok (pow12 x (2 ^ 56)) 3 C3'). change (2 ^ Z.of_nat 3) with (2 ^ 3). rewrite <- (pow12_mul x (2 ^ 56) (2 ^ 3)) by discriminate. change (2 ^ 56 * 2 ^ 3) with (2 ^ 59).
    assert (C4' : Cyc (pow12 x (2 ^ 59))) by (apply cyc_pow; [discriminate | exact H]).
    rewrite (n_square_ok (pow12 x (2 ^ 59)) 2 C4'). change (2 ^ Z.of_nat 2) with (2 ^ 2). rewrite <- (pow12_mul x (2 ^ 59) (2 ^ 2)) by discriminate. change (2 ^ 59 * 2 ^ 2) with (2 ^ 61).
    assert (C5' : Cyc (pow12 x (2 ^ 61))) by (apply cyc_pow; [discriminate | exact H]).
    rewrite (cyclotomic_square_ok _ C5'), pow12_dbl by discriminate.
    rewrite <- !(pow12_add x) by discriminate. reflexivity. }
  split.
  - intros (b0 & D0 & b1 & D1 & ->). apply (decompress_ok _ _ _ C1' A1) in D0. apply (decompress_ok _ _ _ C2' A2) in D1. destruct D0 as [N0 E0], D1 as [N1 E1].
    split; [split; assumption | exact (V b0 b1 E0 E1)].
  - intros [[N0 N1] ->]. exists (pow12 x (2 ^ 15)). split; [apply (decompress_ok _ _ _ C1' A1); split; [exact N0 | reflexivity] |].
    exists (pow12 x (2 ^ 47)). split; [apply (decompress_ok _ _ _ C2' A2); split; [exact N1 | reflexivity] |]. symmetry. apply V; reflexivity.
Qed.
Lemma expt_half_cp : forall x m r, Cyc x -> (e12_expt_half (cp x m) r <-> dec_ok (cp x m) /\ r = cp x (m * (x0 / 2))).
Proof.
  intros x m r H. rewrite expt_half_iff by (apply cp_cyc; exact H). rewrite cp_mul by (exact H || discriminate). rewrite cp_conj by exact H.
  replace (- (m * (- x0 / 2))) with (m * (x0 / 2)) by (change (- x0 / 2) with (- (x0 / 2)); lia). reflexivity.
Qed.
Lemma expt_cp : forall x m r, Cyc x -> (e12_expt (cp x m) r <-> dec_ok (cp x m) /\ r = cp x (m * x0)).
Proof.
  intros x m r H. unfold e12_expt, bind, ret.
  assert (E : e12_cyclotomic_square (cp x (m * (x0 / 2))) = cp x (m * x0)).
  { rewrite cyclotomic_square_ok by (apply cp_cyc; exact H). rewrite cp_add by exact H. f_equal. change x0 with (x0 / 2 + x0 / 2) at 3. lia. }
  split.
  - intros (a & Ha & ->). apply (expt_half_cp x m a H) in Ha. destruct Ha as [D ->]. split; [exact D | exact E].
  - intros [D ->]. exists (cp x (m * (x0 / 2))). split; [apply expt_half_cp; [exact H | split; [exact D | reflexivity]] | symmetry; exact E].
Qed.

(** ** the easy part *)
Lemma pow_pred : forall e i n, mul12 e i = one12 -> 1 <= n -> pow12 e (n - 1) = mul12 (pow12 e n) i.
Proof.
  intros e i n H Hn. replace n with (n - 1 + 1) at 2 by lia. rewrite pow12_add, pow12_1 by lia. transitivity (mul12 (pow12 e (n - 1)) (mul12 e i)); [rewrite H; ring | ring].
Qed.
Lemma p6_pos : 1 <= pBls ^ 6. Proof. discriminate. Qed.
Lemma p2_pos : 0 <= pBls * pBls. Proof. discriminate. Qed.
Definition easyN : Z := (pBls ^ 6 - 1) * (pBls * pBls + 1).
Lemma easy_ok : forall e i, mul12 e i = one12 -> mul12 (pow12 (mul12 (conj12 e) i) (pBls * pBls)) (mul12 (conj12 e) i) = pow12 e easyN.
Proof.
  intros e i H. rewrite conj12_pow. rewrite <- (pow_pred e i (pBls ^ 6) H p6_pos). unfold easyN. pose proof p6_pos as P6. pose proof p2_pos as P2. generalize dependent (pBls ^ 6). generalize dependent (pBls * pBls). intros q Hq n Hn.
  rewrite pow12_mul by lia. generalize (pow12 e (n - 1)). intros t. transitivity (mul12 (pow12 t q) (pow12 t 1)); [rewrite pow12_1; reflexivity |].
  rewrite <- pow12_add by lia. reflexivity.
Qed.
Lemma fermat12 : forall e i, mul12 e i = one12 -> pow12 e (pBls ^ 6 * pBls ^ 6 - 1) = one12.
Proof.
  intros e i H. pose proof p6_pos as P6. assert (P : 1 <= pBls ^ 6 * pBls ^ 6) by nia. rewrite (pow_pred e i _ H P). rewrite pow12_mul by lia. rewrite <- !conj12_pow, conj12_conj. exact H.
Qed.
Lemma easy_num_gen : forall p, (p ^ 6 - 1) * (p * p + 1) * (p * p * (p * p) - p * p + 1) = p ^ 6 * p ^ 6 - 1. Proof. intros. ring. Qed.
Lemma easy_num : easyN * PhiBls = pBls ^ 6 * pBls ^ 6 - 1. Proof. exact (easy_num_gen pBls). Qed.
Lemma easy_pos : 0 <= easyN. Proof. discriminate. Qed.
Lemma easy_cyc : forall e i, mul12 e i = one12 -> Cyc (pow12 e easyN).
Proof.
  intros e i H. unfold Cyc. rewrite <- pow12_mul; [| exact easy_pos | apply Z.lt_le_incl; exact Phi_pos]. rewrite easy_num. exact (fermat12 e i H).
Qed.
(** the cofactor of the group order in the cyclotomic subgroup *)
Definition coBls : Z := 0xf686b3d807d01c0bd38c3195c899ed3cde88eeb996ca394506632528d6a9a2f230063cf081517f68f7764c28b6f8ae5a72bce8d63cb9f827eca0ba621315b2076995003fc77a17988f8761bdc51dc2378b9039096d1b767f17fcbde783765915c97f36c6f18212ed0b283ed237db421d160aeb6a1e79983774940996754c8c71a2629b0dea236905ce937335d5b68fa9912aae208ccf1e516c3f438e3ba79.
Lemma co_ok : PhiBls = rBls * coBls. Proof. vm_compute. reflexivity. Qed.
Lemma co_pos : 0 <= 3 * coBls. Proof. discriminate. Qed.
Lemma hard_num : 3 + (x0 - 1) * (x0 - 1) * (x0 + pBls) * (x0 * x0 + pBls * pBls - 1) = 3 * coBls. Proof. vm_compute. reflexivity. Qed.
Lemma total_num_gen : forall p e P r c, 0 < r -> e * P = p ^ 6 * p ^ 6 - 1 -> P = r * c -> e * (3 * c) = 3 * ((p ^ 12 - 1) / r).
Proof.
  intros p e P r c Hr He HP. assert (E : p ^ 12 - 1 = (e * c) * r) by (transitivity (p ^ 6 * p ^ 6 - 1); [ring | rewrite <- He, HP; ring]). rewrite E, Z.div_mul by lia. ring.
Qed.
Lemma total_num : easyN * (3 * coBls) = 3 * ((pBls ^ 12 - 1) / rBls). Proof. exact (total_num_gen pBls easyN PhiBls rBls coBls ltac:(reflexivity) easy_num co_ok). Qed.

(** the inputs of the five calls of ExptHalf *)
Definition fe_sat (f : E12) : Prop :=
  dec_ok (cp f 2) /\ dec_ok (cp f (x0 - 1)) /\ dec_ok (cp f ((x0 - 1) * (x0 - 1))) /\
  dec_ok (cp f ((x0 - 1) * (x0 - 1) * (x0 + pBls))) /\ dec_ok (cp f ((x0 - 1) * (x0 - 1) * (x0 + pBls) * x0)).
Lemma p_pos0 : 0 <= pBls. Proof. discriminate. Qed.
Lemma pp_pos0 : 0 <= pBls * pBls. Proof. discriminate. Qed.
Lemma one12_zero12 : one12 <> zero12.
Proof. intros H. apply one2_zero2. exact (f_equal (fun x => B0 (C0 x)) H). Qed.
(** the hard part, on abstract exponents *)
Lemma hard_gen : forall (c : Z -> E12) p x xh k (D : E12 -> Prop) r,
  (forall m, e12_conjugate (c m) = c (- m)) -> (forall m n, e12_mul (c m) (c n) = c (m + n)) -> (forall m, e12_cyclotomic_square (c m) = c (m + m)) ->
  (forall m, e12_frobenius (c m) = c (m * p)) -> (forall m, e12_frobenius_square (c m) = c (m * (p * p))) ->
  (forall m r, e12_expt_half (c m) r <-> D (c m) /\ r = c (m * xh)) -> (forall m r, e12_expt (c m) r <-> D (c m) /\ r = c (m * x)) ->
  2 * xh = x -> 3 + (x - 1) * (x - 1) * (x + p) * (x * x + p * p - 1) = k ->
  ((exists t1, e12_expt_half (e12_cyclotomic_square (c 1)) t1 /\
    exists t2, e12_expt (e12_mul t1 (e12_conjugate (c 1))) t2 /\
    exists t3, e12_expt (e12_mul (e12_conjugate (e12_mul t1 (e12_conjugate (c 1)))) t2) t3 /\
    exists t4, e12_expt (e12_mul (e12_frobenius (e12_mul (e12_conjugate (e12_mul t1 (e12_conjugate (c 1)))) t2)) t3) t4 /\
    exists t5, e12_expt t4 t5 /\
       r = e12_mul (e12_mul (c 1) (e12_cyclotomic_square (c 1)))
            (e12_mul (e12_mul (e12_conjugate (e12_mul (e12_frobenius (e12_mul (e12_conjugate (e12_mul t1 (e12_conjugate (c 1)))) t2)) t3)) t5)
               (e12_frobenius_square (e12_mul (e12_frobenius (e12_mul (e12_conjugate (e12_mul t1 (e12_conjugate (c 1)))) t2)) t3))))
   <-> (D (c 2) /\ D (c (x - 1)) /\ D (c ((x - 1) * (x - 1))) /\ D (c ((x - 1) * (x - 1) * (x + p))) /\ D (c ((x - 1) * (x - 1) * (x + p) * x))) /\ r = c k).
Proof.
  intros c p x xh k D r Mc Mm Ms Mf Mg Xh X Hx Hk. rewrite Ms, Mc. change (1 + 1) with 2. subst k.
  assert (R : forall m n, m = n -> c m = c n) by (intros; subst; reflexivity).
  assert (R1 : c (x + - (1)) = c (x - 1)) by (apply R; ring). assert (R2 : c (- (x - 1) + (x - 1) * x) = c ((x - 1) * (x - 1))) by (apply R; ring).
  assert (R3 : c ((x - 1) * (x - 1) * p + (x - 1) * (x - 1) * x) = c ((x - 1) * (x - 1) * (x + p))) by (apply R; ring).
  split.
  - intros (t1 & D1 & t2 & D2 & t3 & D3 & t4 & D4 & t5 & D5 & Er).
    apply Xh in D1. destruct D1 as [D1 ->]. rewrite Hx in D2, D3, D4, Er. rewrite (Mm x (- (1))), R1 in D2, D3, D4, Er.
    apply X in D2. destruct D2 as [D2 ->]. rewrite (Mc (x - 1)), (Mm (- (x - 1)) ((x - 1) * x)), R2 in D3, D4, Er.
    apply X in D3. destruct D3 as [D3 ->]. rewrite (Mf ((x - 1) * (x - 1))), (Mm ((x - 1) * (x - 1) * p) ((x - 1) * (x - 1) * x)), R3 in D4, Er.
    apply X in D4. destruct D4 as [D4 ->]. apply X in D5. destruct D5 as [D5 ->].
    split; [auto 6 |]. rewrite Er. rewrite Mc, Mg, !Mm. apply R. ring.
  - intros [(D1 & D2 & D3 & D4 & D5) Er].
    eexists. split; [apply Xh; split; [exact D1 | reflexivity] |]. rewrite Hx, (Mm x (- (1))), R1.
    eexists. split; [apply X; split; [exact D2 | reflexivity] |]. rewrite (Mc (x - 1)), (Mm (- (x - 1)) ((x - 1) * x)), R2.
    eexists. split; [apply X; split; [exact D3 | reflexivity] |]. rewrite (Mf ((x - 1) * (x - 1))), (Mm ((x - 1) * (x - 1) * p) ((x - 1) * (x - 1) * x)), R3.
    eexists. split; [apply X; split; [exact D4 | reflexivity] |]. eexists. split; [apply X; split; [exact D5 | reflexivity] |].
    rewrite Er. rewrite Mc, Mg, !Mm. apply R. ring.
Qed.
Theorem final_exp_iff : forall e r, final_exponentiation e r <-> e <> zero12 /\ fe_sat (pow12 e easyN) /\ r = pow12 e (3 * ((pBls ^ 12 - 1) / rBls)).
Proof.
  intros e r. unfold final_exponentiation, bind, ret. cbv zeta.
  assert (L : forall i, mul12 e i = one12 -> e12_mul (e12_frobenius_square (e12_mul (e12_conjugate e) i)) (e12_mul (e12_conjugate e) i) = cp (pow12 e easyN) 1).
  { intros i H. rewrite frobenius_square_ok, !e12_mul_ok, e12_conj_ok, (easy_ok e i H). symmetry. apply cp_1. exact (easy_cyc e i H). }
  assert (V : forall i, mul12 e i = one12 -> cp (pow12 e easyN) (3 * coBls) = pow12 e (3 * ((pBls ^ 12 - 1) / rBls))).
  { intros i H. rewrite (cp_pow _ _ (easy_cyc e i H) co_pos). rewrite <- pow12_mul by (exact easy_pos || exact co_pos). rewrite total_num. reflexivity. }
  assert (S : forall f, Cyc f -> _) by (intros f Hf; exact (hard_gen (cp f) pBls x0 (x0 / 2) (3 * coBls) dec_ok r
    ltac:(intros; rewrite e12_conj_ok; apply cp_conj; exact Hf) ltac:(intros; rewrite e12_mul_ok; apply cp_add; exact Hf)
    ltac:(intros; rewrite cyclotomic_square_ok by (apply cp_cyc; exact Hf); apply cp_add; exact Hf)
    ltac:(intros; rewrite frobenius_ok; apply cp_mul; [exact Hf | exact p_pos0]) ltac:(intros; rewrite frobenius_square_ok; apply cp_mul; [exact Hf | exact pp_pos0])
    (fun m r => expt_half_cp f m r Hf) (fun m r => expt_cp f m r Hf) eq_refl hard_num)).
  split.
  - intros (i & Hi & K). apply e12_inverse_iff in Hi. rewrite (L i Hi) in K. apply (S _ (easy_cyc e i Hi)) in K. destruct K as [K ->].
    split; [| split; [exact K | exact (V i Hi)]]. intros ->. apply one12_zero12. rewrite <- Hi. ring.
  - intros (H0 & K & ->). destruct (inv12_exists e H0) as [i Hi]. exists i. split; [apply e12_inverse_iff; exact Hi |]. rewrite (L i Hi). apply (S _ (easy_cyc e i Hi)). split; [exact K | symmetry; exact (V i Hi)].
Qed.
