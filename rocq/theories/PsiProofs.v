(** * PsiProofs.v — the endomorphism psi of E' and the constants of g2.go *)
From Coq Require Import ZArith NArith Bool Lia Ring.
From Verif Require Import FieldZ PrimeBls TowerModel TowerSpec TowerRing TowerFrob TowerField TowerPow PairingModel PairingSpec MillerProofs WSpec WGroup G2Spec G2Group G2Model.
Open Scope Z_scope.
Local Notation "a +! b" := (add2 a b) (at level 50, left associativity).
Local Notation "a -! b" := (sub2 a b) (at level 50, left associativity).
Local Notation "a *! b" := (mul2 a b) (at level 40, left associativity).

Lemma conj_add a b : conj2 (a +! b) = conj2 a +! conj2 b.
Proof. destruct a as [u v], b as [w z]. rewrite !add2_def. unfold conj2. cbn [A0 A1]. apply E2_eq; ring. Qed.
Lemma conj_mul a b : conj2 (a *! b) = conj2 a *! conj2 b.
Proof. destruct a as [u v], b as [w z]. rewrite !mul2_def. unfold conj2. cbn [A0 A1]. apply E2_eq; ring. Qed.
Lemma conj_conj a : conj2 (conj2 a) = a.
Proof. destruct a as [u v]. unfold conj2. cbn [A0 A1]. apply E2_eq; ring. Qed.
Lemma conj_opp a : conj2 (opp2 a) = opp2 (conj2 a).
Proof. destruct a as [u v]. rewrite !opp2_def. unfold conj2. cbn [A0 A1]. apply E2_eq; ring. Qed.
Lemma conj_sub a b : conj2 (a -! b) = conj2 a -! conj2 b.
Proof. replace (a -! b) with (a +! opp2 b) by ring. rewrite conj_add, conj_opp. ring. Qed.
Lemma conj_0 : conj2 zero2 = zero2. Proof. rewrite zero2_def. unfold conj2. cbn [A0 A1]. apply E2_eq; ring. Qed.
Lemma conj_1 : conj2 one2 = one2. Proof. rewrite one2_def. unfold conj2. cbn [A0 A1]. apply E2_eq; ring. Qed.
Lemma conj_inj a b : conj2 a = conj2 b -> a = b. Proof. intros E. rewrite <- (conj_conj a), E. apply conj_conj. Qed.
Lemma inv2_unique a b : a *! b = one2 -> inv2 a = b.
Proof.
  intros H. assert (N : a <> zero2) by (intros ->; apply one2_zero2; rewrite <- H; ring). apply (cancel2 a); [exact N|]. rewrite inv2_ok by exact N. symmetry. exact H.
Qed.

(** the constants: psi_u = gam^-2, psi_v = gam^-3 *)
Lemma fc_eqz x y : ((x - y) mod pBls =? 0) = true -> fc x = fc y.
Proof.
  intros H. apply Z.eqb_eq in H. apply ofZ_eq. replace x with (y + (x - y)) by ring. rewrite Zplus_mod, H, Z.add_0_r, Zmod_mod. reflexivity.
Qed.
Lemma mk_mul a b c d e f : ((a * c - b * d - e) mod pBls =? 0) = true -> ((a * d + b * c - f) mod pBls =? 0) = true ->
  mkE2 (fc a) (fc b) *! mkE2 (fc c) (fc d) = mkE2 (fc e) (fc f).
Proof.
  intros H1 H2. rewrite mul2_def. cbn [A0 A1]. apply E2_eq.
  - rewrite <- (fc_eqz _ _ H1). unfold fc. rewrite !ofZ_mul, ofZ_sub. reflexivity.
  - rewrite <- (fc_eqz _ _ H2). unfold fc. rewrite !ofZ_mul, ofZ_add. reflexivity.
Qed.
Lemma gam_def : gam = mkE2 (fc tBls) (fc (- tBls)). Proof. reflexivity. Qed.
Lemma psi_u_gam : gam *! gam *! psi_u = one2.
Proof.
  assert (E : gam *! psi_u = mkE2 (fc 877076961050607968509681729531255177986764537961432449499635504522207616027455086505066378536590128544573588734230) (fc 877076961050607968509681729531255177986764537961432449499635504522207616027455086505066378536590128544573588734230)) by (rewrite gam_def; unfold psi_u; apply mk_mul; vm_compute; reflexivity).
  transitivity (gam *! (gam *! psi_u)); [ring|]. rewrite E, one2_def; rewrite gam_def; apply mk_mul; vm_compute; reflexivity.
Qed.

Lemma psi_v_gam1 : gam *! psi_v = psi_u.
Proof. rewrite gam_def; unfold psi_u, psi_v; apply mk_mul; vm_compute; reflexivity. Qed.
Lemma psi_v_gam : gam *! gam *! gam *! psi_v = one2.
Proof. transitivity (gam *! gam *! (gam *! psi_v)); [ring|]. rewrite psi_v_gam1. exact psi_u_gam. Qed.
Lemma psi_u_norm : psi_u *! conj2 psi_u = of1 thirdRootOneG1.
Proof.
  unfold of1, thirdRootOneG1. assert (E : conj2 psi_u = mkE2 (fc 0) (fc (-4002409555221667392624310435006688643935503118305586438271171395842971157480381377015405980053539358417135540939437))).
  { unfold conj2, psi_u. cbn [A0 A1]. apply E2_eq; ring. }
  rewrite E; unfold psi_u; apply mk_mul; vm_compute; reflexivity.
Qed.
Lemma psi_v_norm : psi_v *! conj2 psi_v = opp2 one2.
Proof.
  assert (E : conj2 psi_v = mkE2 (fc 2973677408986561043442465346520108879172042883009249989176415018091420807192182638567116318576472649347015917690530)
                              (fc (-1028732146235106349975324479215795277384839936929757896155643118032610843298655225875571310552543014690878354869257))).
  { unfold conj2, psi_v. cbn [A0 A1]. apply E2_eq; ring. }
  assert (F : opp2 one2 = mkE2 (fc (-1)) (fc 0)). { rewrite opp2_def, one2_def. cbn [A0 A1]. apply E2_eq; ring. }
  rewrite E, F; unfold psi_v; apply mk_mul; vm_compute; reflexivity.
Qed.
Lemma gam6_xi : gam *! gam *! gam *! gam *! gam *! gam *! xi = conj2 xi.
Proof.
  assert (K : 0 <= kBls) by discriminate. pose proof (pow2_p xi) as PP. rewrite <- PP. pose proof xi_pow as X. rewrite <- X. clear X PP. replace pBls with (6 * (2 * kBls + 1) + 1) by reflexivity. generalize dependent kBls. intros k K.
  rewrite (pow2_add xi (6 * (2 * k + 1)) 1), pow2_1 by lia. replace (6 * (2 * k + 1)) with ((2 * k + 1) + ((2 * k + 1) + ((2 * k + 1) + ((2 * k + 1) + ((2 * k + 1) + (2 * k + 1)))))) by ring.
  rewrite !(pow2_add xi (2 * k + 1)) by lia. ring.
Qed.
Lemma c1_inv : inv2 (pow2 xi ((pBls - 1) / 3)) = psi_u.
Proof.
  assert (K : 0 <= kBls) by discriminate. assert (E : (pBls - 1) / 3 = (2 * kBls + 1) + (2 * kBls + 1)) by (symmetry; apply Z.div_unique with 0; [lia|reflexivity]).
  rewrite E. apply inv2_unique. pose proof xi_pow as X. pose proof psi_u_gam as G. clear E. generalize dependent kBls. intros k K X. rewrite pow2_add, X by lia. exact G.
Qed.
Lemma c2_inv : inv2 (pow2 xi ((pBls - 1) / 2)) = psi_v.
Proof.
  assert (K : 0 <= kBls) by discriminate. assert (E : (pBls - 1) / 2 = (2 * kBls + 1) + ((2 * kBls + 1) + (2 * kBls + 1))) by (symmetry; apply Z.div_unique with 0; [lia|reflexivity]).
  rewrite E. apply inv2_unique. pose proof xi_pow as X. pose proof psi_v_gam as G. clear E. generalize dependent kBls. intros k K X. rewrite (pow2_add xi (2 * k + 1) (2 * k + 1 + (2 * k + 1))), (pow2_add xi (2 * k + 1) (2 * k + 1)), X by lia. rewrite <- G. ring.
Qed.
Lemma bTwist_def : bTwist = mkE2 (fc 4) (fc 4). Proof. reflexivity. Qed.
Lemma conj2_def a b : conj2 (mkE2 a b) = mkE2 a (qopp b). Proof. reflexivity. Qed.
Local Opaque psi_u psi_v gadd gpsi conj2 bTwist.
(** psi, in coordinates *)
Lemma gpsi_eq x y : gpsi (Some (x, y)) = Some (psi_u *! conj2 x, psi_v *! conj2 y).
Proof. Local Transparent gpsi. unfold gpsi. pose proof (pow2_p x) as E1. pose proof (pow2_p y) as E2. rewrite c1_inv, c2_inv, E1, E2. reflexivity. Qed.
Lemma gpsi_None : gpsi None = None. Proof. reflexivity. Qed.
Local Opaque gpsi.
Lemma some_eq (a b c d : E2) : a = c -> b = d -> Some (a, b) = Some (c, d). Proof. intros -> ->. reflexivity. Qed.
(** psi_u = g^2, psi_v = g^3 with g = psi_u^-1 * psi_v *)
Lemma psi_ug : exists g, psi_u = g *! g /\ psi_v = g *! g *! g /\ g <> zero2 /\ g *! g *! g *! g *! g *! g *! conj2 bTwist = bTwist.
Proof.
  pose proof psi_u_gam as Hu. pose proof psi_v_gam as Hv. pose proof gam6_xi as H6.
  assert (N : gam <> zero2) by (intros E; rewrite E in Hu; apply one2_zero2; rewrite <- Hu; ring).
  pose proof (inv2_ok _ N) as I. set (g := inv2 gam) in *. exists g.
  assert (Eu : psi_u = g *! g). { transitivity (gam *! g *! (gam *! g) *! psi_u); [rewrite I; ring|]. transitivity (gam *! gam *! psi_u *! (g *! g)); [ring|]. rewrite Hu. ring. }
  assert (Ev : psi_v = g *! g *! g). { transitivity (gam *! g *! (gam *! g) *! (gam *! g) *! psi_v); [rewrite I; ring|]. transitivity (gam *! gam *! gam *! psi_v *! (g *! g *! g)); [ring|]. rewrite Hv. ring. }
  split; [exact Eu|]. split; [exact Ev|]. split.
  - intros E. rewrite E in I. apply one2_zero2. rewrite <- I. ring.
  - assert (B : bTwist = mkE2 (fc 4) (fc 0) *! xi). { rewrite mul2_def, xi_def, bTwist_def. cbn [A0 A1]. apply E2_eq; ring. }
    assert (C : conj2 (mkE2 (fc 4) (fc 0)) = mkE2 (fc 4) (fc 0)). { rewrite conj2_def. apply E2_eq; ring. }
    revert B C. generalize (mkE2 (fc 4) (fc 0)). intros c B C. assert (D : conj2 bTwist = c *! conj2 xi) by (rewrite B, (conj_mul c xi), C; reflexivity). rewrite D, B, <- H6.
    transitivity (gam *! g *! (gam *! g) *! (gam *! g) *! (gam *! g) *! (gam *! g) *! (gam *! g) *! (c *! xi)); [ring|]. rewrite I. ring.
Qed.
Lemma gpsi_on P : on_g2 P -> on_g2 (gpsi P).
Proof.
  destruct P as [[x y]|]; [|auto]. rewrite gpsi_eq. unfold on_g2, on_curve. intros H. destruct psi_ug as (g & -> & -> & N & HB).
  apply (f_equal conj2) in H. rewrite conj_add, !conj_mul in H.
  transitivity (g *! g *! g *! g *! g *! g *! (conj2 y *! conj2 y)); [ring|]. rewrite H. rewrite <- HB at 2. ring.
Qed.
Lemma gpsi_neg P : gpsi (gneg P) = gneg (gpsi P).
Proof.
  destruct P as [[x y]|]; [|reflexivity]. unfold gneg, pneg. rewrite !gpsi_eq. rewrite conj_opp. apply some_eq; ring.
Qed.
Lemma gpsi_add P Q : on_g2 P -> on_g2 Q -> gpsi (gadd P Q) = gadd (gpsi P) (gpsi Q).
Proof.
  intros HP HQ. pose proof (gpsi_on P HP) as HP'. pose proof (gpsi_on Q HQ) as HQ'.
  destruct P as [[x1 y1]|]; [|rewrite gpsi_None, !gadd_0_l; reflexivity]. destruct Q as [[x2 y2]|]; [|rewrite gpsi_None, !gadd_0_r; reflexivity].
  destruct (E2_dec x1 x2) as [<-|NX].
  - destruct (same_x2 x1 y1 y2 HP HQ) as [<-|EY].
    + destruct (E2_dec y1 zero2) as [->|NY].
      * assert (Z : forall P, P = gneg P -> gadd P P = None) by (intros P E; rewrite E at 2; apply gadd_neg).
        pose proof (Z (Some (x1, zero2))) as Z1. pose proof (Z (gpsi (Some (x1, zero2)))) as Z2. rewrite Z1, Z2; [apply gpsi_None| |].
        -- rewrite gpsi_eq, conj_0. unfold gneg, pneg. apply some_eq; ring.
        -- unfold gneg, pneg. apply some_eq; ring.
      * pose proof (add2_self y1 NY) as N2. pose (l := (one2 +! (one2 +! one2)) *! (x1 *! x1) *! inv2 (y1 +! y1)).
        assert (L : l *! (y1 +! y1) = (one2 +! (one2 +! one2)) *! (x1 *! x1)). { unfold l. pose proof (inv2_ok _ N2) as I. transitivity ((one2 +! (one2 +! one2)) *! (x1 *! x1) *! ((y1 +! y1) *! inv2 (y1 +! y1))); [ring|]. rewrite I. ring. }
        clearbody l. rewrite (gadd_tangent x1 y1 l HP NY L). rewrite !gpsi_eq. rewrite !gpsi_eq in HP'. destruct psi_ug as (g & Eu & Ev & N & HB). rewrite Eu, Ev in *.
        assert (NY' : g *! g *! g *! conj2 y1 <> zero2). { repeat apply mul2_ne0; try assumption. intros E. apply NY. apply conj_inj. rewrite conj_0. exact E. }
        rewrite (gadd_tangent _ _ (g *! conj2 l) HP' NY').
        -- unfold x3of, y3of. apply some_eq; rewrite ?conj_sub, ?conj_mul, ?conj_sub, ?conj_mul, ?conj_sub, ?conj_mul; ring.
        -- apply (f_equal conj2) in L. rewrite !conj_mul, !conj_add, conj_1 in L. transitivity (g *! g *! g *! g *! (conj2 l *! (conj2 y1 +! conj2 y1))); [ring|]. rewrite L. ring.
    + subst y1. rewrite (gadd_comm _ _ HP HQ), gadd_opp. change (Some (x1, opp2 y2)) with (gneg (Some (x1, y2))). rewrite gpsi_neg. rewrite (gadd_comm (gneg (gpsi (Some (x1, y2)))) (gpsi (Some (x1, y2))) (gneg_on _ HQ') HQ'). rewrite gadd_neg. apply gpsi_None.
  - assert (ND : x2 -! x1 <> zero2) by (intros E; apply NX; symmetry; apply sub2_0; exact E). pose (l := (y2 -! y1) *! inv2 (x2 -! x1)).
    assert (L : l *! (x2 -! x1) = y2 -! y1). { unfold l. pose proof (inv2_ok _ ND) as I. transitivity ((y2 -! y1) *! ((x2 -! x1) *! inv2 (x2 -! x1))); [ring|]. rewrite I. ring. }
    clearbody l. rewrite (gadd_chord _ _ _ _ l HP HQ NX L). rewrite !gpsi_eq. rewrite gpsi_eq in HP', HQ'. destruct psi_ug as (g & Eu & Ev & N & HB). rewrite Eu, Ev in *.
    rewrite (gadd_chord _ _ _ _ (g *! conj2 l) HP' HQ').
    + unfold x3of, y3of. apply some_eq; rewrite ?conj_sub, ?conj_mul, ?conj_sub, ?conj_mul, ?conj_sub, ?conj_mul; ring.
    + intros E. apply NX. apply conj_inj. apply (cancel2 (g *! g)); [apply mul2_ne0; assumption|exact E].
    + apply (f_equal conj2) in L. rewrite conj_mul, !conj_sub in L. transitivity (g *! g *! g *! (conj2 l *! (conj2 x2 -! conj2 x1))); [ring|]. rewrite L. ring.
Qed.
(** psi twice *)
Lemma gpsi_gpsi x y : gpsi (gpsi (Some (x, y))) = Some (of1 thirdRootOneG1 *! x, opp2 y).
Proof.
  rewrite !gpsi_eq. rewrite !conj_mul, !conj_conj. rewrite <- psi_u_norm. apply some_eq; [ring|].
  transitivity (psi_v *! conj2 psi_v *! y); [ring|]. rewrite psi_v_norm. ring.
Qed.
