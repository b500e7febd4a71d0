(** * SswuProofs.v — g2SqrtRatio and MapElementToCurve2 *)
From Coq Require Import ZArith NArith Znumtheory List Bool Arith Lia Ring.
From Verif Require Import FieldZ RlpEnc PrimeBls TowerModel TowerSpec TowerRing TowerFrob TowerField TowerPow TowerCyc PairingModel PairingSpec G2Model H2CModel H2CSpec WSpec G2Spec G2Group CmpProofs JacProofs PsiProofs SswuSpec.
Import ListNotations.
Open Scope Z_scope.
Local Infix "*!" := mul2 (at level 40, left associativity).
Local Infix "+!" := add2 (at level 50, left associativity).
Local Infix "-!" := sub2 (at level 50, left associativity).

(** ** constants *)
Lemma montRinv_ok : (2 ^ 384 * montRinv) mod pBls = 1. Proof. vm_compute. reflexivity. Qed.
Lemma mont_eq l v : ((fold_right (fun l a => l + 2 ^ 64 * a) 0 l * montRinv) mod pBls =? v mod pBls) = true -> mont l = fc v.
Proof. intros H. unfold mont. transitivity (fc (fold_right (fun l a => l + 2 ^ 64 * a) 0 l * montRinv)); [apply ofZ_mul|]. apply fc_mod. exact H. Qed.
Lemma sswuA_ok : sswuA = mapA. Proof. apply E2_eq; apply mont_eq; vm_compute; reflexivity. Qed.
Lemma sswuB_ok : sswuB = mapB. Proof. apply E2_eq; apply mont_eq; vm_compute; reflexivity. Qed.
Lemma tv4Z_ok : tv4Z = mapZ. Proof. apply E2_eq; apply mont_eq; vm_compute; reflexivity. Qed.
Definition z0 : Z := 0x6af0e0437ff400b6831e36d6bd17ffe48395dabc2d3435e77f76e17009241c5ee67992f72ec05f4c81084fbede3cc09.
Definition c70 : Z := 0x13dc0969311e2ba565924cb0b6f7bb9857f157e17f0c8db4e484fcb27b8be0b36dfa0340c422fb7efe9d9a3234336d5e.
Definition c71 : Z := 0x71d42ac9c54001a21acf9187d469d919a830a2c969128d22659dc2f8263f1ca73c5b0e02c05ec381b8684a676a81381.
Lemma tv1_ok : sqrt_tv1 = cx z0 z0. Proof. apply E2_eq; apply mont_eq; vm_compute; reflexivity. Qed.
Lemma c7_ok : sqrt_c7 = cx c70 c71. Proof. apply E2_eq; apply mont_eq; vm_compute; reflexivity. Qed.
Lemma cx_mul a b c d : cx a b *! cx c d = cx (a * c - b * d) (a * d + b * c).
Proof. unfold cx. rewrite mul2_def. cbn [A0 A1]. apply E2_eq; unfold fc; rewrite <- ?ofZ_sub, <- ?ofZ_add, <- !ofZ_mul; fold (fc a) (fc b) (fc c) (fc d); ring. Qed.
Lemma cx_mod a b c d : ((a - c) mod pBls =? 0) = true -> ((b - d) mod pBls =? 0) = true -> cx a b = cx c d.
Proof.
  intros H1 H2. apply Z.eqb_eq in H1, H2. apply E2_eq; apply ofZ_eq; apply Z.mod_divide in H1; apply Z.mod_divide in H2; try discriminate.
  - destruct H1 as [k H1]. replace a with (c + k * pBls) by lia. apply Z_mod_plus_full.
  - destruct H2 as [k H2]. replace b with (d + k * pBls) by lia. apply Z_mod_plus_full.
Qed.
Lemma cx_one : cx 1 0 = one2. Proof. rewrite one2_def. reflexivity. Qed.
Lemma cx_m1 : cx (-1) 0 = opp2 one2. Proof. rewrite opp2_def, one2_def. apply E2_eq; apply fc_mod; vm_compute; reflexivity. Qed.
Lemma zeta_4 : (sqrt_tv1 *! sqrt_tv1) *! (sqrt_tv1 *! sqrt_tv1) = opp2 one2.
Proof. rewrite tv1_ok, <- cx_m1, !cx_mul. apply cx_mod; vm_compute; reflexivity. Qed.
Lemma c7_sq : sqrt_c7 *! sqrt_c7 = mapZ *! sqrt_tv1.
Proof. rewrite tv1_ok, c7_ok. unfold mapZ. rewrite !cx_mul. apply cx_mod; vm_compute; reflexivity. Qed.

(** ** E2Exp *)
Lemma exp_step (x r acc : E2) (b : bool) m n : 0 <= m -> 0 <= n -> acc = pow2 r m *! pow2 x n ->
  (if b then e2_mul (e2_square acc) x else e2_square acc) = pow2 r (2 * m) *! pow2 x (2 * n + Z.b2z b).
Proof.
  intros Hm Hn ->. pose proof (pow2_mul r m 2 Hm ltac:(lia)) as E1. rewrite (Z.mul_comm m 2), pow2_2 in E1. rewrite E1.
  pose proof (pow2_mul x n 2 Hn ltac:(lia)) as E2. rewrite (Z.mul_comm n 2), pow2_2 in E2.
  pose proof (pow2_add x (2 * n) (Z.b2z b) ltac:(lia) ltac:(destruct b; cbn; lia)) as E3. rewrite E3, E2.
  destruct b; cbn [Z.b2z].
  - pose proof (pow2_1 x) as E4. rewrite E4. r2. ring.
  - change (pow2 x 0) with one2. r2. ring.
Qed.
Definition tb (w : Z) (j : nat) : bool := negb (Z.land w (Z.shiftr 128 (Z.of_nat j)) =? 0).
Definition byte_of (w : Z) : Z := fold_left (fun a j => 2 * a + Z.b2z (tb w j)) (seq 0 8) 0.
Lemma byte_of_ok w : 0 <= w < 256 -> byte_of w = w.
Proof.
  intros H. assert (F : forallb (fun i => byte_of (Z.of_nat i) =? Z.of_nat i) (seq 0 256) = true) by (vm_compute; reflexivity).
  rewrite forallb_forall in F. specialize (F (Z.to_nat w)). rewrite Z2Nat.id in F by lia. apply Z.eqb_eq. apply F. apply in_seq. lia.
Qed.
Lemma exp_bits x r w : forall l acc m n, 0 <= m -> 0 <= n -> acc = pow2 r m *! pow2 x n ->
  fold_left (fun res j => let res := e2_square res in if tb w j then e2_mul res x else res) l acc =
  pow2 r (fold_left (fun a _ => 2 * a) l m) *! pow2 x (fold_left (fun a j => 2 * a + Z.b2z (tb w j)) l n).
Proof.
  induction l as [|j l IH]; intros acc m n Hm Hn E; [exact E|]. cbn [fold_left]. apply IH; [lia|destruct (tb w j); cbn [Z.b2z]; lia|]. exact (exp_step x r acc (tb w j) m n Hm Hn E).
Qed.
Lemma exp_bytes x : forall b r n, Forall is_byte b -> 0 <= n -> r = pow2 x n ->
  fold_left (fun res w => fold_left (fun res j => let res := e2_square res in if negb (Z.land w (Z.shiftr 128 (Z.of_nat j)) =? 0) then e2_mul res x else res) (seq 0 8) res) b r =
  pow2 x (fold_left (fun a b => 256 * a + b) b n).
Proof.
  induction b as [|w b IH]; intros r n F Hn E; [exact E|]. apply Forall_cons_iff in F. destruct F as [Fw F]. cbn [fold_left]. apply IH; [exact F|unfold is_byte in Fw; lia|].
  pose proof (exp_bits x r w (seq 0 8) r 1 0 ltac:(lia) ltac:(lia)) as H. unfold tb at 1 in H. rewrite H.
  - change (fold_left (fun a _ => 2 * a) (seq 0 8) 1) with 256. change (fold_left (fun a j => 2 * a + Z.b2z (tb w j)) (seq 0 8) 0) with (byte_of w). rewrite byte_of_ok by exact Fw.
    rewrite E. pose proof (pow2_mul x n 256 Hn ltac:(lia)) as E1. rewrite <- E1. rewrite (Z.mul_comm 256 n). pose proof (pow2_add x (n * 256) w ltac:(lia) ltac:(unfold is_byte in Fw; lia)) as E2. rewrite E2. reflexivity.
  - rewrite pow2_1. change (pow2 x 0) with one2. ring.
Qed.
Lemma e2_exp_ok x k r : 0 < k -> (e2_exp x k r <-> r = pow2 x k).
Proof.
  intros Hk. unfold e2_exp, ret. destruct (Z.eqb_spec k 0) as [|_]; [lia|]. destruct (Z.ltb_spec k 0) as [|_]; [lia|].
  pose proof (exp_bytes x (be_bytes k) e2_one 0 (be_bytes_bytes k ltac:(lia)) (Z.le_refl 0) eq_refl) as H. unfold is_byte in H.
  pose proof (be_bytes_value k ltac:(lia)) as E. unfold be_value in E. rewrite E in H. unfold e2_exp_bytes. rewrite H. tauto.
Qed.

(** ** g2SqrtRatio *)
Lemma body_iff rep e t1 t3 t4 s : 0 < e ->
  (sqrt_body rep e (t1, t3, t4) s <-> exists n, e2_not_one rep (pow2 t4 e) n /\ s = (t1 *! t1, if n then t3 *! t1 else t3, if n then t4 *! (t1 *! t1) else t4)).
Proof.
  intros He. unfold sqrt_body, bind, ret. split.
  - intros [t5 [H5 [n [Hn ->]]]]. apply (e2_exp_ok t4 e t5 He) in H5. subst t5. exists n. split; [exact Hn|]. rewrite !sel2. destruct n; r2; reflexivity.
  - intros [n [Hn ->]]. exists (pow2 t4 e). split; [apply (e2_exp_ok _ _ _ He); reflexivity|]. exists n. split; [exact Hn|]. rewrite !sel2. destruct n; r2; reflexivity.
Qed.
Definition c3v : Z := be_value sqrt_c3.
Lemma c3_ok : pBls * pBls = 16 * c3v + 9. Proof. vm_compute. reflexivity. Qed.
Lemma c3_pos : 0 < c3v. Proof. reflexivity. Qed.
Lemma fermat2 x : pow2 x (pBls * pBls) = x.
Proof.
  pose proof (pow2_mul x pBls pBls ltac:(discriminate) ltac:(discriminate)) as E. rewrite E. pose proof (pow2_p x) as E1. rewrite E1. pose proof (pow2_p (conj2 x)) as E2. rewrite E2.
  destruct x as [a b]. unfold conj2. cbn [A0 A1]. apply E2_eq; ring.
Qed.
Global Opaque c3v.
Local Opaque e2_exp sqrt_body pow2 e2_not_one sqrt_tv1 sqrt_c7.
(** tv4 before the first selection *)
Definition t4_0 (u v : E2) : E2 := let s := pow2 (u *! (pow2 v 7 *! pow2 v 7 *! v)) c3v *! pow2 v 7 in s *! u *! (s *! v).
Definition t3_0 (u v : E2) : E2 := pow2 (u *! (pow2 v 7 *! pow2 v 7 *! v)) c3v *! pow2 v 7 *! u.
Lemma t_inv u v : t3_0 u v *! t3_0 u v *! v = t4_0 u v *! u.
Proof. unfold t3_0, t4_0. cbv zeta. ring. Qed.
Lemma ratio_iff rep u v z b : g2_sqrt_ratio rep u v (z, b) <->
  e2_not_one rep (pow2 (t4_0 u v) 4) b /\
  let t3 := if b then t3_0 u v *! sqrt_c7 else t3_0 u v in
  let t4 := if b then t4_0 u v *! sqrt_tv1 else t4_0 u v in
  exists n, e2_not_one rep (pow2 t4 2) n /\
  let t3 := if n then t3 *! sqrt_tv1 else t3 in
  let t4 := if n then t4 *! (sqrt_tv1 *! sqrt_tv1) else t4 in
  exists m, e2_not_one rep (pow2 t4 1) m /\ z = if m then t3 *! (sqrt_tv1 *! sqrt_tv1) else t3.
Proof.
  unfold g2_sqrt_ratio, bind, ret. cbv zeta. change (be_value sqrt_c3) with c3v. split.
  - intros (t2 & H2 & t5 & H5 & t5' & H5' & q & Hq & s1 & Hs1 & s2 & Hs2 & Hr). apply e2_exp_ok in H2; [|lia]. pose proof (proj1 (e2_exp_ok _ c3v _ c3_pos) H5) as K5. clear H5. apply e2_exp_ok in H5'; [|lia]. subst t2 t5 t5'.
    apply body_iff in Hs1; [|lia]. destruct Hs1 as [n [Hn ->]]. apply body_iff in Hs2; [|lia]. destruct Hs2 as [m [Hm ->]]. injection Hr as -> ->. rewrite !sel2 in *. revert Hq Hn Hm. r2.
    intros Hq Hn Hm. split; [unfold t4_0; cbv zeta; exact Hq|]. exists n. split; [unfold t4_0; cbv zeta; exact Hn|]. exists m. split; [unfold t4_0; cbv zeta; exact Hm|]. unfold t3_0. reflexivity.
  - intros [Hq [n [Hn [m [Hm ->]]]]]. exists (pow2 v 7). split; [apply e2_exp_ok; [lia|reflexivity]|]. eexists. split; [apply e2_exp_ok; [exact c3_pos|reflexivity]|]. eexists. split; [apply e2_exp_ok; [lia|reflexivity]|].
    exists b. split; [revert Hq; unfold t4_0; cbv zeta; r2; intros Hq; exact Hq|]. eexists. split; [apply body_iff; [lia|]; exists n; split; [rewrite sel2; revert Hn; unfold t4_0; cbv zeta; r2; intros Hn; exact Hn|reflexivity]|].
    eexists. split; [apply body_iff; [lia|]; exists m; split; [rewrite sel2; revert Hm; unfold t4_0; cbv zeta; r2; intros Hm; exact Hm|reflexivity]|]. cbn beta iota. rewrite !sel2. unfold t3_0. r2. reflexivity.
Qed.
