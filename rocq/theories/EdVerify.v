(** * EdVerify.v — what the Verify gadget of ed25519.go accepts *)
From Coq Require Import ZArith List Lia Bool Arith.
From Verif Require Import Field FieldLemmas FieldZ ShaModel ShaSpec Props_Sha EdModel EdBytes EdProofs.
From Verif Require EdSpec.
Import ListNotations.
Open Scope Z_scope.

Local Notation on := EdSpec.on. Local Notation plus := EdSpec.plus. Local Notation times := EdSpec.times. Local Notation timesZ := EdSpec.timesZ.
Local Notation opp := EdSpec.opp.

(** r is a 255-bit integer representing the coordinate x *)
Definition repr (x : EdSpec.K) (r : Z) : Prop := 0 <= r < 2 ^ 255 /\ EdSpec.k r = x.
(** the RFC 8032 encoding of a point whose coordinates are written rx, ry *)
Definition encode (rx ry : Z) : list Z := le_bytes 32 (ry + 2 ^ 255 * (rx mod 2)).
(** the 122 message bytes packed in 5 circuit variables, and the public key bytes packed in two *)
Definition msg_ranges (m : list Z) : Prop := exists m0 m1 m2 m3 m4, m = [m0; m1; m2; m3; m4] /\ m0 < 2 ^ 200 /\ m1 < 2 ^ 200 /\ m2 < 2 ^ 200 /\ m3 < 2 ^ 200 /\ m4 < 2 ^ 176.
Definition msg_bytes (m : list Z) : list Z := be_bytes 122 ((((nth 0 m 0 * 2 ^ 200 + nth 1 m 0) * 2 ^ 200 + nth 2 m 0) * 2 ^ 200 + nth 3 m 0) * 2 ^ 176 + nth 4 m 0).
Definition key_bytes (v0 v1 : Z) : list Z := be_bytes 32 (v0 * 2 ^ 128 + v1).
(** h represents the challenge SHA-512(R || A || M) read as a little-endian number, modulo L *)
Definition challenge (encR encA m : list Z) (h : Z) : Prop := 0 <= h < 2 ^ 253 /\ h mod EdSpec.L = le_val (sha512 (encR ++ encA ++ m)) mod EdSpec.L.

Lemma sha512_bytes : forall m, Forall (fun b => 0 <= b < 256) (sha512 m).
Proof.
  intros m. unfold sha512, sha. apply Forall_flat_map. apply Forall_forall. intros w _. apply be_bytes_byte.
Qed.
Lemma rep_repr : forall x r, rep x r <-> repr x r. Proof. intros. reflexivity. Qed.
Lemma run_outputs : forall p c ops o, (exists dg, run p c ops = Some (dg, [o])) <-> outputs p c ops = Some [o].
Proof.
  intros p c ops o. unfold outputs. destruct (run p c ops) as [[dg outs] |]; cbn [obind snd].
  - split; [intros [dg' E]; congruence | intros E; exists dg; congruence].
  - split; [intros [dg' E]; discriminate | discriminate].
Qed.

(** the checks Verify makes on the group elements: Q is the computed point *)
Definition group_check (p : Z) (S h : Z) (A R : point) : Prop :=
  exists Q Q1 Q2 Q3 Q4, DoubleBaseScalarMul p edBase (ed_neg A) S h Q /\ on Q /\ ed_add (opp Q) R Q1 /\ ed_double Q1 Q2 /\ ed_double Q2 Q3 /\ ed_double Q3 Q4 /\ Q4 = EdSpec.O.

(** Verify = byte encodings + group check, for every assignment *)
Lemma verify_split : forall p v0 v1 R S m A, 2 ^ 253 < p -> felt p v0 -> felt p v1 -> length m = 5%nat -> Forall (felt p) m ->
  (Verify p [v0; v1] R S m A <->
   exists rx ry ax ay h, repr (fst R) rx /\ repr (snd R) ry /\ repr (fst A) ax /\ repr (snd A) ay /\
     v0 < 2 ^ 128 /\ v1 < 2 ^ 128 /\ encode ax ay = key_bytes v0 v1 /\ msg_ranges m /\
     challenge (encode rx ry) (encode ax ay) (msg_bytes m) h /\ group_check p S h A R).
Proof.
  intros p v0 v1 R S m A Hp F0 F1 Lm Fm.
  destruct m as [| m0 [| m1 [| m2 [| m3 [| m4 [| ]]]]]]; cbn [length] in Lm; try discriminate Lm. clear Lm.
  apply Forall_cons_iff in Fm as [M0 Fm]. apply Forall_cons_iff in Fm as [M1 Fm]. apply Forall_cons_iff in Fm as [M2 Fm]. apply Forall_cons_iff in Fm as [M3 Fm]. apply Forall_cons_iff in Fm as [M4 _].
  assert (P256 : 256 <= p) by (transitivity (2 ^ 253); [discriminate | lia]). assert (P70 : 2 ^ 70 < p) by (transitivity (2 ^ 253); [reflexivity | exact Hp]).
  assert (LB : forall n x, length (le_bytes n x) = n) by (intros; unfold le_bytes; rewrite map_length, seq_length; reflexivity).
  assert (BB : forall n x, length (be_bytes n x) = n) by (intros; unfold be_bytes; rewrite map_length, seq_length; reflexivity).
  assert (RUN : forall l1 l2 l3 o, Forall (fun b => 0 <= b < 256) l1 -> Forall (fun b => 0 <= b < 256) l2 -> Forall (fun b => 0 <= b < 256) l3 ->
     (length l1 = 32 /\ length l2 = 32 /\ length l3 = 122)%nat ->
     ((exists dg, run p sha512_code [OpWrite l1; OpWrite l2; OpWrite l3; OpSum] = Some (dg, [o])) <-> o = sha512 (l1 ++ l2 ++ l3))).
  { intros l1 l2 l3 o Q1 Q2 Q3 (N1 & N2 & N3). rewrite run_outputs. pose proof (split_gen p sha512_code sha512p P70 agree512 [l1; l2; l3]) as G. cbn [writes map app concat] in G. rewrite app_nil_r in G.
    rewrite G; [split; [intros E; unfold sha512; congruence | intros ->; reflexivity] | |].
    - intros b Hb. apply in_app_or in Hb as [Hb | Hb]; [rewrite Forall_forall in Q1; auto |]. apply in_app_or in Hb as [Hb | Hb]; [rewrite Forall_forall in Q2; auto | rewrite Forall_forall in Q3; auto].
    - rewrite !app_length, N1, N2, N3. reflexivity. }
  split.
  - intros (rx & ry & ax & ay & sB & pB & rP & us & mB & dg & hR & bits & h & Q & Q1 & Q2 & Q3 & Q4 & RX & RY & ES & AX & AY & EP & ER & EU & EM & EH & EB & HB & HC & DB & ON & AD & D1 & D2 & D3 & AQ).
    exists rx, ry, ax, ay, h. rewrite (point_bytes_ok p P256) in ES by (apply RX || apply RY). rewrite (point_bytes_ok p P256) in EP by (apply AX || apply AY).
    assert (ES' : sB = encode rx ry) by (unfold encode; congruence). assert (EP' : pB = encode ax ay) by (unfold encode; congruence). subst sB pB.
    apply (pbkey_ok p P256) in ER; [| exact F0 | exact F1]. destruct ER as (V0 & V1 & ->).
    apply (msg_ok p P256) in EM; [| exact M0 | exact M1 | exact M2 | exact M3 | exact M4]. destruct EM as (MR & ->).
    assert (EK : encode ax ay = key_bytes v0 v1).
    { apply (bytes_eq_iff p P256 _ _ 32); [apply LB | apply BB | apply le_bytes_byte | apply be_bytes_byte | exists us; exact EU]. }
    assert (HH : hR = sha512 (encode rx ry ++ encode ax ay ++ msg_bytes [m0; m1; m2; m3; m4])).
    { apply RUN; [apply le_bytes_byte | apply le_bytes_byte | apply be_bytes_byte | split; [apply LB | split; [apply LB | apply BB]] | exists dg; exact EH]. }
    split; [exact RX |]. split; [exact RY |]. split; [exact AX |]. split; [exact AY |]. split; [exact V0 |]. split; [exact V1 |]. split; [exact EK |].
    split; [exists m0, m1, m2, m3, m4; split; [reflexivity | exact MR] |]. split.
    + split; [exact HB |]. rewrite <- HH. rewrite (hash_bits_ok p P256 hR bits) in HC; [exact HC | rewrite HH; apply sha512_bytes | exact EB].
    + exists Q, Q1, Q2, Q3, Q4. split; [exact DB |]. split; [apply assert_on_ok; exact ON |]. split; [rewrite <- ed_neg_ok; exact AD |]. split; [exact D1 |]. split; [exact D2 |]. split; [exact D3 |]. apply assert_q_ok. exact AQ.
  - intros (rx & ry & ax & ay & h & RX & RY & AX & AY & V0 & V1 & EK & MR & (HB & HC) & (Q & Q1 & Q2 & Q3 & Q4 & DB & ON & AD & D1 & D2 & D3 & AQ)).
    destruct MR as (n0 & n1 & n2 & n3 & n4 & EN & MR). assert (n0 = m0 /\ n1 = m1 /\ n2 = m2 /\ n3 = m3 /\ n4 = m4) as (-> & -> & -> & -> & ->) by (injection EN; intuition congruence). clear EN.
    destruct (hash_bits_total p P256 (sha512 (encode rx ry ++ encode ax ay ++ msg_bytes [m0; m1; m2; m3; m4]))) as [bits EB]; [apply sha512_bytes |].
    assert (EU : exists us, omap (fun i => assert_eq p (nth i (encode ax ay) 0) (nth i (key_bytes v0 v1) 0)) (seq 0 32) = Some us).
    { apply (bytes_eq_iff p P256); [apply LB | apply BB | apply le_bytes_byte | apply be_bytes_byte | exact EK]. }
    destruct EU as [us EU].
    assert (EH : exists dg, run p sha512_code [OpWrite (encode rx ry); OpWrite (encode ax ay); OpWrite (msg_bytes [m0; m1; m2; m3; m4]); OpSum] = Some (dg, [sha512 (encode rx ry ++ encode ax ay ++ msg_bytes [m0; m1; m2; m3; m4])])).
    { apply RUN; [apply le_bytes_byte | apply le_bytes_byte | apply be_bytes_byte | split; [apply LB | split; [apply LB | apply BB]] | reflexivity]. }
    destruct EH as [dg EH].
    exists rx, ry, ax, ay, (encode rx ry), (encode ax ay), (key_bytes v0 v1), us, (msg_bytes [m0; m1; m2; m3; m4]), dg, (sha512 (encode rx ry ++ encode ax ay ++ msg_bytes [m0; m1; m2; m3; m4])), bits, h, Q, Q1, Q2, Q3, Q4.
    split; [exact RX |]. split; [exact RY |]. split; [apply (point_bytes_ok p P256); [apply RX | apply RY] |].
    split; [exact AX |]. split; [exact AY |]. split; [apply (point_bytes_ok p P256); [apply AX | apply AY] |].
    split; [apply (pbkey_ok p P256); [exact F0 | exact F1 | split; [exact V0 | split; [exact V1 | reflexivity]]] |].
    split; [exact EU |]. split; [apply (msg_ok p P256); [exact M0 | exact M1 | exact M2 | exact M3 | exact M4 | split; [exact MR | reflexivity]] |].
    split; [exact EH |]. split; [exact EB |]. split; [exact HB |]. split; [rewrite (hash_bits_ok p P256 _ bits (sha512_bytes _) EB); exact HC |].
    split; [exact DB |]. split; [apply assert_on_ok; exact ON |]. split; [rewrite ed_neg_ok; exact AD |]. split; [exact D1 |]. split; [exact D2 |]. split; [exact D3 |]. apply assert_q_ok. exact AQ.
Qed.

(** S and h as bit strings: for curve points the joint multiplication is [S]B - [h]A *)
Lemma double_base_scalar : forall p A S h Q, 2 ^ 253 < p < 2 ^ 255 -> felt p S -> 0 <= h < 2 ^ 253 -> on A ->
  (DoubleBaseScalarMul p edBase (ed_neg A) S h Q <-> Q = plus (timesZ S EdSpec.B) (opp (timesZ h A))).
Proof.
  intros p A S h Q Hp FS Hh HA. unfold DoubleBaseScalarMul. rewrite base_same, ed_neg_ok.
  assert (N : field_bits p = 254%nat \/ field_bits p = 255%nat).
  { unfold field_bits. assert (253 <= Z.log2 p <= 254); [| lia]. split.
    - replace 253 with (Z.log2 (2 ^ 253)) by (apply Z.log2_pow2; lia). apply Z.log2_le_mono. lia.
    - apply Z.lt_succ_r. apply Z.log2_lt_pow2; [lia |]. change (Z.succ 254) with 255. lia. }
  assert (P2 : 2 < p) by (assert (2 < 2 ^ 253) by reflexivity; lia).
  assert (TB : to_binary p S (field_bits p) = Some (bits_le (field_bits p) S)).
  { apply to_binary_ok; [exact FS |]. unfold felt in FS. pose proof (field_bits_bound p P2). lia. }
  assert (VS : val_le (bits_le (field_bits p) S) = S).
  { apply val_bits_le. unfold felt in FS. pose proof (field_bits_bound p P2). lia. }
  assert (VH : val_le (firstn (length (bits_le (field_bits p) S)) (bits_le emuBits h)) = h).
  { rewrite bits_le_length, bits_le_firstn by (change emuBits with 255%nat; lia). apply val_bits_le. split; [lia |]. apply Z.lt_le_trans with (2 ^ 253); [lia |]. apply Z.pow_le_mono_r; lia. }
  assert (LE : (1 <= length (bits_le (field_bits p) S) <= length (bits_le emuBits h))%nat) by (rewrite !bits_le_length; change emuBits with 255%nat; lia).
  pose proof (double_base_ok (bits_le (field_bits p) S) (bits_le emuBits h) EdSpec.B (opp A) Q (bits_le_Forall _ _) (bits_le_Forall _ _) LE EdSpec.B_on (EdSpec.opp_on A HA)) as DB.
  rewrite VS, VH in DB. unfold EdSpec.timesZ at 2 in DB. rewrite EdSpec.times_opp in DB by exact HA. fold (timesZ h A) in DB.
  split.
  - intros [b1 [E1 E2]]. assert (b1 = bits_le (field_bits p) S) by congruence. subst b1. apply DB. exact E2.
  - intros E. exists (bits_le (field_bits p) S). split; [exact TB | apply DB; exact E].
Qed.
Lemma times_8 : forall P, on P -> times 8 P = plus (plus (plus P P) (plus P P)) (plus (plus P P) (plus P P)).
Proof.
  intros P H. assert (T2 : plus P P = times 2 P) by (change 2%nat with (1 + 1)%nat; rewrite EdSpec.times_add, EdSpec.times_1 by exact H; reflexivity).
  rewrite T2, <- !EdSpec.times_add by exact H. reflexivity.
Qed.
Lemma plus_move : forall X Y W, on X -> on Y -> on W -> (X = plus Y (opp W) <-> Y = plus X W).
Proof.
  intros X Y W HX HY HW. pose proof (EdSpec.opp_on W HW). split.
  - intros ->. rewrite <- EdSpec.plus_assoc by assumption. rewrite (EdSpec.plus_comm (opp W)), EdSpec.plus_opp by assumption. symmetry. apply EdSpec.plus_O_r.
  - intros ->. rewrite <- EdSpec.plus_assoc by assumption. rewrite EdSpec.plus_opp by assumption. symmetry. apply EdSpec.plus_O_r.
Qed.
(** the cofactored equation *)
Lemma group_check_ok : forall p A R S h, 2 ^ 253 < p < 2 ^ 255 -> felt p S -> 0 <= h < 2 ^ 253 -> on A -> on R ->
  (group_check p S h A R <-> times 8 (timesZ S EdSpec.B) = plus (times 8 R) (times 8 (timesZ h A))).
Proof.
  intros p A R S h Hp FS Hh HA HR. set (SB := timesZ S EdSpec.B). set (HH := timesZ h A).
  assert (OSB : on SB) by (apply EdSpec.times_on; apply EdSpec.B_on). assert (OH : on HH) by (apply EdSpec.times_on; exact HA).
  set (Q := plus SB (opp HH)). assert (OQ : on Q) by (apply EdSpec.plus_on; [exact OSB | apply EdSpec.opp_on; exact OH]).
  set (D := plus (opp Q) R). assert (OD : on D) by (apply EdSpec.plus_on; [apply EdSpec.opp_on; exact OQ | exact HR]).
  assert (CORE : times 8 D = EdSpec.O <-> times 8 SB = plus (times 8 R) (times 8 HH)).
  { unfold D. rewrite EdSpec.times_plus, EdSpec.times_opp by (try apply EdSpec.opp_on; assumption).
    assert (E1 : plus (opp (times 8 Q)) (times 8 R) = EdSpec.O <-> times 8 R = times 8 Q).
    { split; [apply EdSpec.plus_cancel; apply EdSpec.times_on; assumption | intros ->; rewrite EdSpec.plus_comm; apply EdSpec.plus_opp; apply EdSpec.times_on; assumption]. }
    rewrite E1. unfold Q. rewrite EdSpec.times_plus, EdSpec.times_opp by (try apply EdSpec.opp_on; assumption). apply plus_move; apply EdSpec.times_on; assumption. }
  rewrite <- CORE. rewrite times_8 by exact OD. assert (O2 : on (plus D D)) by (apply EdSpec.plus_on; exact OD).
  assert (O4 : on (plus (plus D D) (plus D D))) by (apply EdSpec.plus_on; exact O2). split.
  - intros (Q' & Q1 & Q2 & Q3 & Q4 & DB & ON & AD & D1 & D2 & D3 & AQ). apply (double_base_scalar p A S h Q' Hp FS Hh HA) in DB. fold SB HH Q in DB. subst Q'.
    apply ed_add_ok in AD; [| apply EdSpec.opp_on; exact OQ | exact HR]. fold D in AD. subst Q1.
    apply ed_double_ok in D1; [| exact OD]. subst Q2. apply ed_double_ok in D2; [| exact O2]. subst Q3. apply ed_double_ok in D3; [| exact O4]. congruence.
  - intros E. exists Q, D, (plus D D), (plus (plus D D) (plus D D)), EdSpec.O.
    split; [apply (double_base_scalar p A S h Q Hp FS Hh HA); reflexivity |]. split; [exact OQ |].
    split; [apply ed_add_ok; [apply EdSpec.opp_on; exact OQ | exact HR | reflexivity] |]. split; [apply ed_double_ok; [exact OD | reflexivity] |].
    split; [apply ed_double_ok; [exact O2 | reflexivity] |]. split; [apply ed_double_ok; [exact O4 | symmetry; exact E] | reflexivity].
Qed.
(** an off-curve Q1 = (x, i x) with i^2 = -1 also passes the three doublings *)
Lemma isotropic_passes : forall x : EdSpec.K, exists Q2 Q3 Q4, ed_double (x, qmul EdSpec.im x) Q2 /\ ed_double Q2 Q3 /\ ed_double Q3 Q4 /\ Q4 = EdSpec.O.
Proof.
  intros x. exists (qopp EdSpec.im, EdSpec.k 0), (EdSpec.k 0, EdSpec.k (-1)), EdSpec.O.
  assert (I : qmul EdSpec.im EdSpec.im = EdSpec.k (-1)) by exact EdSpec.im_square.
  split; [| split; [| split; [| reflexivity]]].
  - unfold ed_double, e_div. cbn [fst snd]. change edA with (EdSpec.k (-1)). change fz with EdSpec.k. generalize dependent EdSpec.im. intros i I. change q25519 with EdSpec.q.
    assert (Y : qmul (qmul i x) (qmul i x) = qmul (EdSpec.k (-1)) (qmul x x)) by (rewrite <- I; clear; lift x; lift i; rewrite !ofZ_mul; f_equal; ring).
    rewrite Y. clear Y I. unfold EdSpec.k. lift x. lift i. rewrite ?ofZ_opp, !ofZ_mul, ?ofZ_opp, ?ofZ_add, ?ofZ_sub, ?ofZ_mul. split; f_equal; ring.
  - unfold ed_double, e_div. cbn [fst snd]. split; apply Fq_ext; vm_compute; reflexivity.
  - unfold ed_double, e_div. cbn [fst snd]. split; apply Fq_ext; vm_compute; reflexivity.
Qed.
