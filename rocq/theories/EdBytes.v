(** * EdBytes.v — the byte encodings of ed25519.go: points, public key halves, message words *)
From Coq Require Import ZArith List Lia Bool Arith.
From Verif Require Import Field FieldLemmas FieldZ ShaModel ShaSpec EdModel.
Import ListNotations.
Open Scope Z_scope.

(** the n little-endian bytes of x, and the number with given little-endian bytes *)
Definition le_bytes (n : nat) (x : Z) : list Z := map (fun i => (x / 2 ^ (8 * Z.of_nat i)) mod 256) (seq 0 n).
Fixpoint le_val (l : list Z) : Z := match l with [] => 0 | b :: r => b + 256 * le_val r end.

Lemma bits_le_skipn : forall k m x, (k <= m)%nat -> skipn k (bits_le m x) = bits_le (m - k) (x / 2 ^ Z.of_nat k).
Proof.
  induction k as [| k IH]; intros m x H; [rewrite Nat.sub_0_r; cbn [skipn]; change (2 ^ Z.of_nat 0) with 1; rewrite Z.div_1_r; reflexivity |].
  destruct m as [| m]; [lia |]. cbn [bits_le skipn]. rewrite IH by lia. rewrite Nat2Z.inj_succ, Z.pow_succ_r by lia. rewrite Z.div_div by lia. reflexivity.
Qed.
Lemma bits_le_firstn : forall k m x, (k <= m)%nat -> firstn k (bits_le m x) = bits_le k x.
Proof. induction k as [| k IH]; intros m x H; [reflexivity |]. destruct m as [| m]; [lia |]. cbn [bits_le firstn]. rewrite IH by lia. reflexivity. Qed.
Lemma bits_le_slice : forall k n m x, (k + n <= m)%nat -> firstn n (skipn k (bits_le m x)) = bits_le n (x / 2 ^ Z.of_nat k).
Proof. intros. rewrite bits_le_skipn by lia. apply bits_le_firstn. lia. Qed.
Lemma bits_le_cat : forall n m x y, 0 <= x < 2 ^ Z.of_nat n -> bits_le n x ++ bits_le m y = bits_le (n + m) (x + 2 ^ Z.of_nat n * y).
Proof.
  induction n as [| n IH]; intros m x y H.
  - change (2 ^ Z.of_nat 0) with 1 in *. cbn [bits_le app Nat.add]. f_equal. lia.
  - rewrite Nat2Z.inj_succ, Z.pow_succ_r in * by lia. cbn [bits_le app Nat.add].
    rewrite IH by (split; [apply Z.div_pos; lia | apply Z.div_lt_upper_bound; lia]).
    replace (x + 2 * 2 ^ Z.of_nat n * y) with (x + (2 ^ Z.of_nat n * y) * 2) by ring. rewrite Z.mod_add, Z.div_add by lia. reflexivity.
Qed.

Section P.
Variable p : Z.
Hypothesis Hp : 256 <= p.

Lemma from_binary_bits : forall n x, (n <= 8)%nat -> from_binary p (bits_le n x) = Some (x mod 2 ^ Z.of_nat n).
Proof.
  intros n x H. rewrite from_binary_ok; [rewrite val_bits_le_mod; reflexivity | lia | apply bits_le_Forall |].
  rewrite bits_le_length. transitivity (2 ^ 8); [apply Z.pow_le_mono_r; lia | lia].
Qed.
Lemma copy_field_ok : forall r, 0 <= r < 2 ^ 255 -> copy_field_element p r = Some (le_bytes 32 r).
Proof.
  intros r H. unfold copy_field_element, le_bytes. apply omap_total. intros i Hi. apply in_seq in Hi. change emuBits with 255%nat.
  destruct (Nat.eqb_spec i 31) as [-> | N].
  - rewrite bits_le_skipn by lia. rewrite from_binary_bits by lia. f_equal. change (Z.of_nat (31 * 8)) with 248. change (8 * Z.of_nat 31) with 248.
    change (2 ^ Z.of_nat (255 - 31 * 8)) with 128. assert (0 <= r / 2 ^ 248 < 128) by (split; [apply Z.div_pos; lia | apply Z.div_lt_upper_bound; lia]).
    rewrite !Z.mod_small by lia. reflexivity.
  - rewrite bits_le_slice by lia. rewrite from_binary_bits by lia. f_equal. rewrite Nat2Z.inj_mul, Z.mul_comm. reflexivity.
Qed.
Lemma nth_le_bytes : forall n x i, (i < n)%nat -> nth i (le_bytes n x) 0 = (x / 2 ^ (8 * Z.of_nat i)) mod 256.
Proof. intros. unfold le_bytes. rewrite (nth_map_seq Z) by assumption. reflexivity. Qed.
(** ed25519.go:47-57: the y coordinate in 255 bits and the parity of x in the top bit *)
Lemma point_bytes_ok : forall rx ry, 0 <= rx < 2 ^ 255 -> 0 <= ry < 2 ^ 255 -> point_bytes p rx ry = Some (le_bytes 32 (ry + 2 ^ 255 * (rx mod 2))).
Proof.
  intros rx ry Hx Hy. unfold point_bytes. rewrite (copy_field_ok rx Hx), (copy_field_ok ry Hy). cbn [obind].
  rewrite !nth_le_bytes by lia. change (8 * Z.of_nat 0) with 0. change (2 ^ 0) with 1. rewrite Z.div_1_r.
  assert (M : forall z, 0 <= z mod 256 < 256) by (intros; apply Z.mod_pos_bound; lia).
  rewrite to_binary_ok; [| unfold felt; pose proof (M rx); lia | apply M]. cbn [obind].
  rewrite to_binary_ok; [| unfold felt; pose proof (M (ry / 2 ^ (8 * Z.of_nat 31))); lia | apply M]. cbn [obind].
  rewrite !bits_le_nth by lia. change (Z.of_nat 0) with 0. change (2 ^ 0) with 1. rewrite Z.div_1_r.
  assert (T : 0 <= ry / 2 ^ (8 * Z.of_nat 31) < 128) by (split; [apply Z.div_pos; lia | apply Z.div_lt_upper_bound; lia]).
  set (t := ry / 2 ^ (8 * Z.of_nat 31)) in *. rewrite (Z.mod_small t) by lia. replace (t / 2 ^ Z.of_nat 7) with 0 by (symmetry; apply Z.div_small; change (2 ^ Z.of_nat 7) with 128; lia).
  change (0 mod 2) with 0. rewrite <- Znumtheory.Zmod_div_mod; [| lia | lia | exists 128; reflexivity].
  set (s := rx mod 2). assert (SB : s = 0 \/ s = 1) by (pose proof (Z.mod_pos_bound rx 2); lia).
  rewrite for_ok; [| lia | left; reflexivity | exact SB]. cbn [obind Z.eqb orb].
  replace (bit_of (s =? 1)) with s by (destruct SB as [-> | ->]; reflexivity).
  rewrite bits_le_firstn by lia. replace [s] with (bits_le 1 s) by (cbn [bits_le]; destruct SB as [-> | ->]; reflexivity).
  rewrite bits_le_cat by (change (2 ^ Z.of_nat 7) with 128; lia). rewrite from_binary_bits by lia. cbn [obind]. f_equal.
  change (2 ^ Z.of_nat 7) with 128. change (2 ^ Z.of_nat (7 + 1)) with 256. rewrite (Z.mod_small (t + 128 * s)) by (destruct SB as [-> | ->]; lia).
  apply (nth_ext' Z _ _ 0).
  - rewrite app_length, firstn_length. unfold le_bytes. rewrite !map_length, !seq_length. reflexivity.
  - rewrite app_length, firstn_length. unfold le_bytes at 1. rewrite map_length, seq_length. cbn [length Nat.min Nat.add]. intros i Hi.
    assert (HS : 0 <= s <= 1) by (destruct SB as [-> | ->]; lia).
    destruct (Nat.eq_dec i 31) as [-> | N].
    + rewrite app_nth2 by (rewrite firstn_length; unfold le_bytes; rewrite map_length, seq_length; cbn; lia).
      rewrite firstn_length. unfold le_bytes at 1. rewrite map_length, seq_length. cbn [Nat.min Nat.sub nth]. rewrite nth_le_bytes by lia.
      change (8 * Z.of_nat 31) with 248 in *. replace (ry + 2 ^ 255 * s) with (ry + (128 * s) * 2 ^ 248) by (change (2 ^ 255) with (128 * 2 ^ 248); ring).
      rewrite Z.div_add by lia. fold t. symmetry. apply Z.mod_small. destruct SB as [-> | ->]; lia.
    + assert (I : (i < 31)%nat) by lia. clear N Hi. rewrite app_nth1 by (rewrite firstn_length; unfold le_bytes; rewrite map_length, seq_length; cbn; lia).
      rewrite nth_firstn' by exact I. rewrite !nth_le_bytes by lia.
      assert (SP : 2 ^ 255 = 2 ^ (255 - 8 * Z.of_nat i) * 2 ^ (8 * Z.of_nat i)) by (rewrite <- Z.pow_add_r by lia; f_equal; lia).
      rewrite SP. replace (ry + 2 ^ (255 - 8 * Z.of_nat i) * 2 ^ (8 * Z.of_nat i) * s) with (ry + (2 ^ (255 - 8 * Z.of_nat i) * s) * 2 ^ (8 * Z.of_nat i)) by ring.
      rewrite Z.div_add by (apply Z.pow_nonzero; lia).
      replace (255 - 8 * Z.of_nat i) with (8 + (247 - 8 * Z.of_nat i)) by lia. rewrite Z.pow_add_r by lia. change (2 ^ 8) with 256.
      replace (256 * 2 ^ (247 - 8 * Z.of_nat i) * s) with ((2 ^ (247 - 8 * Z.of_nat i) * s) * 256) by ring. rewrite Z.mod_add by lia. reflexivity.
Qed.

Lemma chunks_ok : forall n x, omap (fun i => from_binary p (firstn 8 (skipn (i * 8) (bits_le (8 * n) x)))) (seq 0 n) = Some (le_bytes n x).
Proof.
  intros n x. unfold le_bytes. apply omap_total. intros i Hi. apply in_seq in Hi. rewrite bits_le_slice by lia. rewrite from_binary_bits by lia. f_equal.
  rewrite Nat2Z.inj_mul, Z.mul_comm. reflexivity.
Qed.
Lemma rev_bytes : forall n x, map (fun i => nth (n - i - 1) (le_bytes n x) 0) (seq 0 n) = be_bytes n x.
Proof.
  intros n x. unfold be_bytes. apply map_ext_in. intros i Hi. apply in_seq in Hi. rewrite nth_le_bytes by lia. replace (n - i - 1)%nat with (n - 1 - i)%nat by lia. reflexivity.
Qed.
Lemma pbkey_ok : forall v0 v1 out, felt p v0 -> felt p v1 ->
  (recompose_pbkey p [v0; v1] = Some out <-> v0 < 2 ^ 128 /\ v1 < 2 ^ 128 /\ out = be_bytes 32 (v0 * 2 ^ 128 + v1)).
Proof.
  intros v0 v1 out F0 F1. unfold recompose_pbkey. cbn [length Nat.leb guard obind]. change (seq 0 2) with [0; 1]%nat. cbn [omap]. change (1 - 0)%nat with 1%nat. change (1 - 1)%nat with 0%nat. cbn [nth].
  destruct (Z_lt_dec v1 (2 ^ 128)) as [L1 | L1].
  - rewrite (to_binary_ok p v1 128) by assumption. cbn [obind]. destruct (Z_lt_dec v0 (2 ^ 128)) as [L0 | L0].
    + rewrite (to_binary_ok p v0 128) by assumption. cbn [obind concat]. rewrite app_nil_r. rewrite bits_le_cat by (unfold felt in *; change (2 ^ Z.of_nat 128) with (2 ^ 128); lia).
      change (2 ^ Z.of_nat 128) with (2 ^ 128). replace (v1 + 2 ^ 128 * v0) with (v0 * 2 ^ 128 + v1) by ring. change (128 + 128)%nat with (8 * 32)%nat.
      rewrite chunks_ok. cbn [obind]. rewrite rev_bytes. split; [intros E; split; [assumption | split; [assumption | congruence]] | intros (_ & _ & ->); reflexivity].
    + rewrite (to_binary_fail p v0 128) by (assumption || (change (2 ^ Z.of_nat 128) with (2 ^ 128); lia)). cbn [obind]. split; [discriminate | intros (H & _); lia].
  - rewrite (to_binary_fail p v1 128) by (assumption || (change (2 ^ Z.of_nat 128) with (2 ^ 128); lia)). cbn [obind]. split; [discriminate | intros (_ & H & _); lia].
Qed.
Lemma msg_ok : forall m0 m1 m2 m3 m4 out, felt p m0 -> felt p m1 -> felt p m2 -> felt p m3 -> felt p m4 ->
  (recompose_msg p [m0; m1; m2; m3; m4] = Some out <-> (m0 < 2 ^ 200 /\ m1 < 2 ^ 200 /\ m2 < 2 ^ 200 /\ m3 < 2 ^ 200 /\ m4 < 2 ^ 176) /\
     out = be_bytes 122 ((((m0 * 2 ^ 200 + m1) * 2 ^ 200 + m2) * 2 ^ 200 + m3) * 2 ^ 176 + m4)).
Proof.
  intros m0 m1 m2 m3 m4 out F0 F1 F2 F3 F4. unfold recompose_msg. cbn [length Nat.leb guard obind]. change (rev (seq 0 5)) with [4; 3; 2; 1; 0]%nat. cbn [omap Nat.eqb nth].
  change (2 ^ 200) with (2 ^ Z.of_nat 200) in *. change (2 ^ 176) with (2 ^ Z.of_nat 176) in *.
  destruct (Z_lt_dec m4 (2 ^ Z.of_nat 176)) as [L4 | L4].
  2: { rewrite (to_binary_fail p m4 176) by (assumption || lia). cbn [obind]. split; [discriminate | intros ((_ & _ & _ & _ & H) & _); contradiction]. }
  rewrite (to_binary_ok p m4 176) by assumption. cbn [obind].
  destruct (Z_lt_dec m3 (2 ^ Z.of_nat 200)) as [L3 | L3].
  2: { rewrite (to_binary_fail p m3 200) by (assumption || lia). cbn [obind]. split; [discriminate | intros ((_ & _ & _ & H & _) & _); contradiction]. }
  rewrite (to_binary_ok p m3 200) by assumption. cbn [obind].
  destruct (Z_lt_dec m2 (2 ^ Z.of_nat 200)) as [L2 | L2].
  2: { rewrite (to_binary_fail p m2 200) by (assumption || lia). cbn [obind]. split; [discriminate | intros ((_ & _ & H & _ & _) & _); contradiction]. }
  rewrite (to_binary_ok p m2 200) by assumption. cbn [obind].
  destruct (Z_lt_dec m1 (2 ^ Z.of_nat 200)) as [L1 | L1].
  2: { rewrite (to_binary_fail p m1 200) by (assumption || lia). cbn [obind]. split; [discriminate | intros ((_ & H & _ & _ & _) & _); contradiction]. }
  rewrite (to_binary_ok p m1 200) by assumption. cbn [obind].
  destruct (Z_lt_dec m0 (2 ^ Z.of_nat 200)) as [L0 | L0].
  2: { rewrite (to_binary_fail p m0 200) by (assumption || lia). cbn [obind]. split; [discriminate | intros ((H & _ & _ & _ & _) & _); contradiction]. }
  rewrite (to_binary_ok p m0 200) by assumption. cbn [obind concat]. rewrite app_nil_r. unfold felt in *.
  rewrite (bits_le_cat 200 200 m1 m0) by lia. rewrite (bits_le_cat 200 (200 + 200) m2) by lia. rewrite (bits_le_cat 200 (200 + (200 + 200)) m3) by lia. rewrite (bits_le_cat 176 (200 + (200 + (200 + 200))) m4) by lia.
  change (176 + (200 + (200 + (200 + 200))))%nat with (8 * 122)%nat.
  set (x := (((m0 * 2 ^ Z.of_nat 200 + m1) * 2 ^ Z.of_nat 200 + m2) * 2 ^ Z.of_nat 200 + m3) * 2 ^ Z.of_nat 176 + m4).
  replace (m4 + _) with x by (unfold x; ring).
  assert (E : omap (fun i => if Nat.eqb i 121 then from_binary p (skipn (i * 8) (bits_le (8 * 122) x)) else from_binary p (firstn 8 (skipn (i * 8) (bits_le (8 * 122) x)))) (seq 0 122) = Some (le_bytes 122 x)).
  { rewrite <- (chunks_ok 122 x). apply omap_ext. intros i Hi. apply in_seq in Hi. destruct (Nat.eqb_spec i 121) as [-> | N]; [| reflexivity].
    rewrite bits_le_slice by lia. rewrite bits_le_skipn by lia. reflexivity. }
  rewrite E. cbn [obind]. rewrite rev_bytes. split; [intros G; split; [| congruence] | intros (_ & ->); reflexivity]. split; [exact L0 |]. split; [exact L1 |]. split; [exact L2 |]. split; [exact L3 | exact L4].
Qed.
Lemma hash_bits_ok : forall l bits, Forall (fun b => 0 <= b < 256) l -> omap (fun b => to_binary p b 8) l = Some bits -> val_le (concat bits) = le_val l.
Proof.
  induction l as [| b l IH]; intros bits H E; [injection E as <-; reflexivity |]. apply Forall_cons_iff in H as [Hb H]. cbn [omap] in E.
  rewrite to_binary_ok in E; [| unfold felt; lia | exact (proj2 Hb)]. apply obind_Some in E as [x [Ex E]]. apply obind_Some in E as [ys [Ey E]].
  assert (X : x = bits_le 8 b) by congruence. assert (Y : bits = x :: ys) by congruence. rewrite Y, X. cbn [concat le_val]. rewrite val_le_app, bits_le_length, val_bits_le by exact Hb. rewrite (IH ys H Ey). reflexivity.
Qed.
Lemma hash_bits_total : forall l, Forall (fun b => 0 <= b < 256) l -> exists bits, omap (fun b => to_binary p b 8) l = Some bits.
Proof.
  intros l H. exists (map (bits_le 8) l). apply omap_total. intros b Hb. rewrite Forall_forall in H. apply H in Hb. apply to_binary_ok; [unfold felt; lia | exact (proj2 Hb)].
Qed.
Lemma le_val_range : forall l, Forall (fun b => 0 <= b < 256) l -> 0 <= le_val l < 256 ^ Z.of_nat (length l).
Proof.
  induction l as [| b l IH]; intros H; [cbn; lia |]. apply Forall_cons_iff in H as [Hb H]. specialize (IH H). cbn [le_val length]. rewrite Nat2Z.inj_succ, Z.pow_succ_r by lia. lia.
Qed.
Lemma le_val_bytes : forall n x, 0 <= x < 256 ^ Z.of_nat n -> le_val (le_bytes n x) = x.
Proof.
  induction n as [| n IH]; intros x H; [cbn in *; lia |]. unfold le_bytes. rewrite <- cons_seq, <- seq_shift. cbn [map le_val]. rewrite map_map.
  replace (map (fun i => (x / 2 ^ (8 * Z.of_nat (S i))) mod 256) (seq 0 n)) with (le_bytes n (x / 256)).
  - rewrite Nat2Z.inj_succ, Z.pow_succ_r in H by lia. rewrite IH by (split; [apply Z.div_pos; lia | apply Z.div_lt_upper_bound; lia]).
    change (8 * Z.of_nat 0) with 0. change (2 ^ 0) with 1. rewrite Z.div_1_r. pose proof (Z.div_mod x 256). lia.
  - unfold le_bytes. apply map_ext. intros i. rewrite Z.div_div by (try apply Z.pow_pos_nonneg; lia). rewrite Nat2Z.inj_succ. replace (8 * Z.succ (Z.of_nat i)) with (8 + 8 * Z.of_nat i) by lia.
    rewrite Z.pow_add_r by lia. reflexivity.
Qed.
Lemma le_bytes_byte : forall n x, Forall (fun b => 0 <= b < 256) (le_bytes n x).
Proof. intros. apply Forall_forall. intros b Hb. apply in_map_iff in Hb as [i [<- _]]. apply Z.mod_pos_bound. lia. Qed.
Lemma be_bytes_byte : forall n x, Forall (fun b => 0 <= b < 256) (be_bytes n x).
Proof. intros. apply Forall_forall. intros b Hb. apply in_map_iff in Hb as [i [<- _]]. apply Z.mod_pos_bound. lia. Qed.
Lemma bytes_eq_iff : forall l m n, length l = n -> length m = n -> Forall (fun b => 0 <= b < 256) l -> Forall (fun b => 0 <= b < 256) m ->
  ((exists us, omap (fun i => assert_eq p (nth i l 0) (nth i m 0)) (seq 0 n) = Some us) <-> l = m).
Proof.
  intros l m n Ll Lm Fl Fm. split.
  - intros [us E]. apply (nth_ext' Z _ _ 0); [congruence |]. rewrite Ll. intros i Hi. assert (E' := omap_Some_nth _ _ _ _ _ E).
    assert (G : assert_eq p (nth i l 0) (nth i m 0) = Some (nth i us tt)).
    { pose proof (E' i 0%nat tt) as E2. rewrite seq_length in E2. rewrite seq_nth in E2 by exact Hi. exact (E2 Hi). }
    unfold assert_eq in G. destruct ((nth i l 0) mod p =? (nth i m 0) mod p) eqn:Q; [| discriminate]. apply Z.eqb_eq in Q.
    rewrite Forall_forall in Fl, Fm. assert (In (nth i l 0) l) as Il by (apply nth_In; lia). assert (In (nth i m 0) m) as Im by (apply nth_In; lia).
    apply Fl in Il. apply Fm in Im. rewrite !Z.mod_small in Q by lia. exact Q.
  - intros ->. eexists. apply (omap_total _ _ _ (fun _ => tt)). intros i _. unfold assert_eq. rewrite Z.eqb_refl. reflexivity.
Qed.
End P.
