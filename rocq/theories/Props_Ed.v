(** * Props_Ed.v — properties C38 (point formulas), C39 (scalar multiplication) and C47 (signature verification) of
    circuits/gadgets/ed25519

    EdSpec is edwards25519 as RFC 8032 defines it (prime 2^255-19 proved prime, d = -121665/121666 proved a non-square,
    addition law, base point (x even, 4/5), order L); [EdSpec.on], [EdSpec.plus], [EdSpec.opp], [EdSpec.times] are curve
    membership, sum, negation and multiples.  A gadget is a relation: it holds of its inputs and outputs when some
    assignment of the remaining circuit variables satisfies the constraints. *)
From Coq Require Import ZArith Znumtheory List Lia Bool Arith.
From Verif Require Import Field FieldLemmas PrimeTheory PrimeL25519 FieldZ ShaSpec ShaFast EdCurve EdModel EdBytes EdProofs EdFast EdVerify.
From Verif Require EdSpec.
Import ListNotations.
Open Scope Z_scope.

(** ** C38: the constants and the group operations *)
Theorem C38_parameters : q25519 = 2 ^ 255 - 19 /\ prime q25519 /\ L25519 = 2 ^ 252 + 27742317777372353535851937790883648493 /\ prime L25519 /\
  edA = ofZ q25519 (-1) /\ qmul edD (ofZ q25519 121666) = ofZ q25519 (-121665) /\ (forall x : F, qmul x x <> edD) /\
  edBase = EdSpec.B /\ EdSpec.on EdSpec.B.
Proof.
  split; [reflexivity |]. split; [exact EdSpec.q_prime |]. split; [reflexivity |]. split; [exact prime_L25519 |]. split; [reflexivity |].
  split; [apply Fq_ext; vm_compute; reflexivity |]. split; [rewrite d_same; exact EdSpec.d_nonsquare |]. split; [exact base_same | exact EdSpec.B_on].
Qed.
(** The reference operations form an abelian group on the points of the curve. *)
Theorem C38_abelian_group :
  EdSpec.on EdSpec.O /\
  (forall P Q, EdSpec.on P -> EdSpec.on Q -> EdSpec.on (EdSpec.plus P Q)) /\ (forall P, EdSpec.on P -> EdSpec.on (EdSpec.opp P)) /\
  (forall P Q R, EdSpec.on P -> EdSpec.on Q -> EdSpec.on R -> EdSpec.plus P (EdSpec.plus Q R) = EdSpec.plus (EdSpec.plus P Q) R) /\
  (forall P Q, EdSpec.plus P Q = EdSpec.plus Q P) /\ (forall P, EdSpec.plus P EdSpec.O = P) /\
  (forall P, EdSpec.on P -> EdSpec.plus P (EdSpec.opp P) = EdSpec.O).
Proof.
  split; [exact EdSpec.O_on |]. split; [exact EdSpec.plus_on |]. split; [exact EdSpec.opp_on |]. split; [exact EdSpec.plus_assoc |]. split; [exact EdSpec.plus_comm |].
  split; [exact EdSpec.plus_O_r | exact EdSpec.plus_opp].
Qed.
(** The constraints of Add determine exactly the sum of two curve points (no exceptional pair, no freedom from the division
    hints); likewise Double, Neg and AssertIsOnCurve. *)
Theorem C38_add : forall P Q R, EdSpec.on P -> EdSpec.on Q -> (ed_add P Q R <-> R = EdSpec.plus P Q).
Proof. exact ed_add_ok. Qed.
Theorem C38_double : forall P R, EdSpec.on P -> (ed_double P R <-> R = EdSpec.plus P P).
Proof. exact ed_double_ok. Qed.
Theorem C38_neg : forall P, ed_neg P = EdSpec.opp P.
Proof. exact ed_neg_ok. Qed.
Theorem C38_assertions : forall P, (ed_assert_on_curve P <-> EdSpec.on P) /\ (ed_assert_q P <-> P = EdSpec.O).
Proof. intros P. split; [apply assert_on_ok | apply assert_q_ok]. Qed.
(** Off the curve a doubling is not determined: the gadget itself does not check its operand. *)
Theorem C38_double_off_curve_refuted : exists P R R', R <> R' /\ ed_double P R /\ ed_double P R'.
Proof.
  exists (fz 0, fz 0), (fz 0, fz 0), (fz 1, fz 0). split; [intros E; apply (f_equal (fun P => fval (fst P))) in E; vm_compute in E; discriminate |].
  unfold ed_double, e_div. cbn [fst snd]. split; (split; apply Fq_ext; vm_compute; reflexivity).
Qed.
(** The base point has order exactly L. *)
Theorem C38_base_order : EdSpec.timesZ EdSpec.L EdSpec.B = EdSpec.O /\ forall n, 0 <= n -> (EdSpec.timesZ n EdSpec.B = EdSpec.O <-> (EdSpec.L | n)).
Proof.
  split; [exact LB_zero |]. intros n Hn. assert (HB := EdSpec.B_on). assert (HL : 0 <= EdSpec.L) by discriminate.
  assert (NO : EdSpec.B <> EdSpec.O). { rewrite B_val. intros E. apply (f_equal (fun P => fval (fst P))) in E. vm_compute in E. discriminate. }
  split.
  - intros E. destruct (Zdivide_dec EdSpec.L n) as [D | D]; [exact D | exfalso].
    assert (RP : rel_prime EdSpec.L n) by (apply prime_rel_prime; [exact prime_L25519 | exact D]).
    apply rel_prime_bezout in RP. destruct RP as [u v EU].
    (* v*n = 1 modulo L *)
    assert (Hv : EdSpec.timesZ ((v mod EdSpec.L) * n) EdSpec.B = EdSpec.O).
    { rewrite timesZ_mul by (try (apply Z.mod_pos_bound; reflexivity); assumption). rewrite E. apply EdSpec.times_O. }
    assert (LP : 0 < EdSpec.L) by reflexivity. pose proof (Z.mod_pos_bound v EdSpec.L LP) as VB. pose proof (Z.div_mod v EdSpec.L) as DV.
    assert (EQ : (v mod EdSpec.L) * n = 1 + EdSpec.L * (- u - n * (v / EdSpec.L))) by nia.
    set (w := - u - n * (v / EdSpec.L)) in *. destruct (Z_le_dec 0 w) as [W | W].
    + rewrite EQ in Hv. rewrite timesZ_add, (Z.mul_comm EdSpec.L), timesZ_mul, LB_zero in Hv by (assumption || lia).
      rewrite timesZ_1 in Hv. unfold EdSpec.timesZ in Hv. rewrite EdSpec.times_O, EdSpec.plus_O_r in Hv. exact (NO Hv).
    + assert (0 <= (v mod EdSpec.L) * n) by (apply Z.mul_nonneg_nonneg; lia). assert (1 < EdSpec.L) by reflexivity. nia.
  - intros [c ->]. assert (0 <= c). { assert (0 < EdSpec.L) by reflexivity. nia. }
    rewrite timesZ_mul by assumption. rewrite LB_zero. apply EdSpec.times_O.
Qed.

(** ** C39: scalar multiplication, for every scalar and every curve point *)
Theorem C39_scalar_mul : forall p P s R, 2 < p -> 0 <= s < p -> EdSpec.on P -> (ScalarMul p P s R <-> R = EdSpec.timesZ s P).
Proof.
  intros p P s R Hp Hs H. unfold ScalarMul. pose proof (field_bits_bound p Hp) as FB.
  assert (N : (2 <= field_bits p)%nat). { unfold field_bits. assert (1 <= Z.log2 p); [| lia]. change 1 with (Z.log2 2). apply Z.log2_le_mono. lia. }
  assert (TB : to_binary p s (field_bits p) = Some (bits_le (field_bits p) s)) by (apply to_binary_ok; [exact Hs | lia]).
  assert (G : forall b, b = bits_le (field_bits p) s -> (ed_scalar_mul b P R <-> R = EdSpec.timesZ s P)).
  { intros b ->. rewrite scalar_mul_ok; [rewrite val_bits_le by lia; reflexivity | apply bits_le_Forall | rewrite bits_le_length; exact N | exact H]. }
  split; [intros [b [E1 E2]]; apply (G b); congruence | intros E; exists (bits_le (field_bits p) s); split; [exact TB | apply G; [reflexivity | exact E]]].
Qed.
(** The second scalar is an emulated one, given by the representative h that ToBits exposes; the loop runs over the bits of the
    native scalar, so h has to fit in them and the native field in 255 bits (otherwise Go indexes out of range). *)
Theorem C39_double_base : forall p P1 P2 s h R, 2 < p < 2 ^ 255 -> 0 <= s < p -> 0 <= h < p -> EdSpec.on P1 -> EdSpec.on P2 ->
  (DoubleBaseScalarMul p P1 P2 s h R <-> R = EdSpec.plus (EdSpec.timesZ s P1) (EdSpec.timesZ h P2)).
Proof.
  intros p P1 P2 s h R Hp Hs Hh H1 H2. unfold DoubleBaseScalarMul. pose proof (field_bits_bound p (proj1 Hp)) as FB.
  assert (N : (2 <= field_bits p <= 255)%nat).
  { unfold field_bits. assert (1 <= Z.log2 p < 255); [| lia]. split; [change 1 with (Z.log2 2); apply Z.log2_le_mono; lia | apply Z.log2_lt_pow2; lia]. }
  assert (TB : to_binary p s (field_bits p) = Some (bits_le (field_bits p) s)) by (apply to_binary_ok; [exact Hs | lia]).
  assert (G : forall b, b = bits_le (field_bits p) s -> (ed_double_base b (bits_le emuBits h) P1 P2 R <-> R = EdSpec.plus (EdSpec.timesZ s P1) (EdSpec.timesZ h P2))).
  { intros b ->. rewrite double_base_ok; [| apply bits_le_Forall | apply bits_le_Forall | rewrite !bits_le_length; change emuBits with 255%nat; lia | exact H1 | exact H2].
    rewrite bits_le_length, bits_le_firstn by (change emuBits with 255%nat; lia). rewrite !val_bits_le by lia. reflexivity. }
  split; [intros [b [E1 E2]]; apply (G b); congruence | intros E; exists (bits_le (field_bits p) s); split; [exact TB | apply G; [reflexivity | exact E]]].
Qed.
(** A larger native field makes circuit construction fail. *)
Theorem C39_wide_field_rejected : forall p P1 P2 s h R, 2 ^ 255 <= p -> ~ DoubleBaseScalarMul p P1 P2 s h R.
Proof.
  intros p P1 P2 s h R Hp [b [E [HL _]]]. unfold to_binary in E. apply obind_Some in E as [u [_ E]].
  assert (LE : length b = field_bits p) by (assert (b = bits_le (field_bits p) (s mod p)) by congruence; subst b; apply bits_le_length).
  rewrite bits_le_length, LE in HL. change emuBits with 255%nat in HL. unfold field_bits in HL.
  assert (255 <= Z.log2 p) by (replace 255 with (Z.log2 (2 ^ 255)) by (apply Z.log2_pow2; lia); apply Z.log2_le_mono; exact Hp). lia.
Qed.

(** ** C47: Verify *)
(** Point bytes are the RFC 8032 encoding of the representatives exposed by the emulated field. *)
Theorem C47_point_encoding : forall p rx ry, 256 <= p -> 0 <= rx < 2 ^ 255 -> 0 <= ry < 2 ^ 255 ->
  exists out, point_bytes p rx ry = Some out /\ length out = 32%nat /\ le_val out = ry + 2 ^ 255 * (rx mod 2).
Proof.
  intros p rx ry Hp Hx Hy. exists (encode rx ry). split; [apply point_bytes_ok; assumption |]. split; [unfold encode, le_bytes; rewrite map_length, seq_length; reflexivity |].
  apply le_val_bytes. pose proof (Z.mod_pos_bound rx 2). change (256 ^ Z.of_nat 32) with (2 ^ 255 + 2 ^ 255). lia.
Qed.
(** For a public key and an R that are on the curve, Verify is satisfiable exactly when the message variables are in range, the key
    bytes are an encoding of A, and the cofactored RFC 8032 equation 8[S]B = 8R + 8[h]A holds for a challenge
    h = SHA-512(enc R || enc A || M) mod L. *)
Theorem C47_verify : forall p v0 v1 R S m A, 2 ^ 253 < p < 2 ^ 255 -> 0 <= v0 < p -> 0 <= v1 < p -> 0 <= S < p -> length m = 5%nat -> Forall (fun x => 0 <= x < p) m ->
  EdSpec.on A -> EdSpec.on R ->
  (Verify p [v0; v1] R S m A <->
   v0 < 2 ^ 128 /\ v1 < 2 ^ 128 /\ msg_ranges m /\
   exists rx ry ax ay h, repr (fst R) rx /\ repr (snd R) ry /\ repr (fst A) ax /\ repr (snd A) ay /\ encode ax ay = key_bytes v0 v1 /\
     challenge (encode rx ry) (encode ax ay) (msg_bytes m) h /\
     EdSpec.times 8 (EdSpec.timesZ S EdSpec.B) = EdSpec.plus (EdSpec.times 8 R) (EdSpec.times 8 (EdSpec.timesZ h A))).
Proof.
  intros p v0 v1 R S m A Hp F0 F1 FS Lm Fm HA HR. rewrite (verify_split p v0 v1 R S m A (proj1 Hp) F0 F1 Lm Fm). split.
  - intros (rx & ry & ax & ay & h & RX & RY & AX & AY & V0 & V1 & EK & MR & CH & GC). split; [exact V0 |]. split; [exact V1 |]. split; [exact MR |].
    exists rx, ry, ax, ay, h. split; [exact RX |]. split; [exact RY |]. split; [exact AX |]. split; [exact AY |]. split; [exact EK |]. split; [exact CH |].
    apply (group_check_ok p A R S h Hp FS (proj1 CH) HA HR). exact GC.
  - intros (V0 & V1 & MR & rx & ry & ax & ay & h & RX & RY & AX & AY & EK & CH & GC).
    exists rx, ry, ax, ay, h. split; [exact RX |]. split; [exact RY |]. split; [exact AX |]. split; [exact AY |]. split; [exact V0 |]. split; [exact V1 |]. split; [exact EK |]. split; [exact MR |]. split; [exact CH |].
    apply (group_check_ok p A R S h Hp FS (proj1 CH) HA HR). exact GC.
Qed.
(** When the key has order dividing 8L (every honestly generated key has order L), the choice of representative of the challenge is
    immaterial: the equation is the one for h mod L. *)
Theorem C47_challenge_reduced : forall A h h', EdSpec.on A -> EdSpec.times 8 (EdSpec.timesZ EdSpec.L A) = EdSpec.O -> 0 <= h -> 0 <= h' -> h mod EdSpec.L = h' mod EdSpec.L ->
  EdSpec.times 8 (EdSpec.timesZ h A) = EdSpec.times 8 (EdSpec.timesZ h' A).
Proof.
  assert (G : forall A h, EdSpec.on A -> EdSpec.times 8 (EdSpec.timesZ EdSpec.L A) = EdSpec.O -> 0 <= h -> EdSpec.times 8 (EdSpec.timesZ h A) = EdSpec.times 8 (EdSpec.timesZ (h mod EdSpec.L) A)).
  { intros A h HA HO Hh. assert (LP : 0 < EdSpec.L) by reflexivity. rewrite (Z.div_mod h EdSpec.L) at 1 by lia. pose proof (Z.mod_pos_bound h EdSpec.L LP). pose proof (Z.div_pos h EdSpec.L Hh LP).
    rewrite timesZ_add by (assumption || (apply Z.mul_nonneg_nonneg; lia) || lia). rewrite EdSpec.times_plus by (apply timesZ_on; assumption).
    rewrite Z.mul_comm, timesZ_mul by (assumption || lia). change 8%nat with (Z.to_nat 8) in *.
    change (EdSpec.times (Z.to_nat 8)) with (EdSpec.timesZ 8) in *.
    rewrite <- (timesZ_mul 8 (h / EdSpec.L)) by (try apply timesZ_on; assumption || lia). rewrite (Z.mul_comm 8), timesZ_mul by (try apply timesZ_on; assumption || lia). rewrite HO.
    unfold EdSpec.timesZ at 1. rewrite EdSpec.times_O. apply EdSpec.plus_O_l. }
  intros A h h' HA HO Hh Hh' E. rewrite (G A h HA HO Hh), (G A h' HA HO Hh'), E. reflexivity.
Qed.
(** The key bytes determine the curve point up to sign, and completely when the x coordinate is written canonically. *)
Theorem C47_key_binding : forall A A' ax ay ax' ay', EdSpec.on A -> EdSpec.on A' -> repr (fst A) ax -> repr (snd A) ay -> repr (fst A') ax' -> repr (snd A') ay' ->
  encode ax ay = encode ax' ay' ->
  (A' = A \/ A' = EdSpec.opp A) /\ (ax < 2 ^ 255 - 19 -> ax' < 2 ^ 255 - 19 -> A' = A).
Proof.
  intros [x y] [x' y'] ax ay ax' ay' H H' [AX EAX] [AY EAY] [AX' EAX'] [AY' EAY'] E. cbn [fst snd] in *. subst x y x' y'.
  assert (EV : ay + 2 ^ 255 * (ax mod 2) = ay' + 2 ^ 255 * (ax' mod 2)).
  { apply (f_equal le_val) in E. unfold encode in E. pose proof (Z.mod_pos_bound ax 2). pose proof (Z.mod_pos_bound ax' 2).
    rewrite !le_val_bytes in E by (change (256 ^ Z.of_nat 32) with (2 ^ 255 + 2 ^ 255); lia). exact E. }
  assert (EY : ay = ay' /\ ax mod 2 = ax' mod 2) by (pose proof (Z.mod_pos_bound ax 2); pose proof (Z.mod_pos_bound ax' 2); lia). destruct EY as [<- EP].
  assert (SQ := same_y_same_square _ _ _ H H'). split.
  - destruct SQ as [-> | ->]; [left; reflexivity | right; reflexivity].
  - intros CX CX'. apply f_equal2; [| reflexivity]. destruct SQ as [SQ | SQ]; [exact SQ |].
    unfold EdSpec.k in SQ. rewrite ofZ_opp in SQ. apply ofZ_eq in SQ. rewrite <- EdSpec.q_is in CX, CX'. rewrite (Z.mod_small ax') in SQ by lia.
    destruct (Z.eq_dec ax 0) as [-> | NZ]; [rewrite SQ; reflexivity |].
    rewrite Z.mod_opp_l_nz, (Z.mod_small ax) in SQ by (rewrite ?Z.mod_small; lia || discriminate).
    exfalso. subst ax'. clear - EP. change EdSpec.q with (1 + 28948022309329048855892746252171976963317496166410141009864396001978282409974 * 2) in EP.
    replace (1 + 28948022309329048855892746252171976963317496166410141009864396001978282409974 * 2 - ax) with ((1 - ax) + 28948022309329048855892746252171976963317496166410141009864396001978282409974 * 2) in EP by ring.
    rewrite Z.mod_add in EP by lia. pose proof (Z.div_mod ax 2). pose proof (Z.div_mod (1 - ax) 2). pose proof (Z.mod_pos_bound ax 2). lia.
Qed.
(** S is not range checked: an accepted signature stays accepted with S + L, so signatures are malleable (RFC 8032 requires S < L). *)
Theorem C47_S_range_refuted : forall p v0 v1 R S m A, 2 ^ 253 < p < 2 ^ 255 -> 0 <= v0 < p -> 0 <= v1 < p -> length m = 5%nat -> Forall (fun x => 0 <= x < p) m ->
  EdSpec.on A -> EdSpec.on R -> 0 <= S -> S + EdSpec.L < p -> Verify p [v0; v1] R S m A -> Verify p [v0; v1] R (S + EdSpec.L) m A.
Proof.
  intros p v0 v1 R S m A Hp F0 F1 Lm Fm HA HR S0 SL V. assert (LP : 0 < EdSpec.L) by reflexivity.
  apply C47_verify in V; try assumption; [| lia]. apply C47_verify; try assumption; [lia |].
  destruct V as (V0 & V1 & MR & rx & ry & ax & ay & h & RX & RY & AX & AY & EK & CH & GC).
  split; [exact V0 |]. split; [exact V1 |]. split; [exact MR |]. exists rx, ry, ax, ay, h.
  split; [exact RX |]. split; [exact RY |]. split; [exact AX |]. split; [exact AY |]. split; [exact EK |]. split; [exact CH |].
  rewrite timesZ_add by (exact EdSpec.B_on || lia). rewrite LB_zero, EdSpec.plus_O_r. exact GC.
Qed.

(** R is never asserted to be on the curve.  Whenever -Q + R has the form (x, i x) with i^2 = -1 the final check passes, whatever Q is:
    the three doublings send such a (non-curve) point to the neutral element. *)
Theorem C47_isotropic_R_accepted : forall p v0 v1 R S m A rx ry ax ay h x, 2 ^ 253 < p < 2 ^ 255 -> 0 <= v0 < 2 ^ 128 -> 0 <= v1 < 2 ^ 128 -> 0 <= S < p ->
  length m = 5%nat -> Forall (fun x => 0 <= x < p) m -> msg_ranges m -> EdSpec.on A ->
  repr (fst R) rx -> repr (snd R) ry -> repr (fst A) ax -> repr (snd A) ay -> encode ax ay = key_bytes v0 v1 -> challenge (encode rx ry) (encode ax ay) (msg_bytes m) h ->
  ed_add (EdSpec.plus (EdSpec.timesZ h A) (EdSpec.opp (EdSpec.timesZ S EdSpec.B))) R (x, qmul EdSpec.im x) ->
  Verify p [v0; v1] R S m A.
Proof.
  intros p v0 v1 R S m A rx ry ax ay h x Hp V0 V1 FS Lm Fm MR HA RX RY AX AY EK CH AD. assert (P128 : 2 ^ 128 < 2 ^ 253) by reflexivity.
  assert (F0 : felt p v0) by (unfold felt; lia). assert (F1 : felt p v1) by (unfold felt; lia).
  apply (verify_split p v0 v1 R S m A (proj1 Hp) F0 F1 Lm Fm).
  exists rx, ry, ax, ay, h. split; [exact RX |]. split; [exact RY |]. split; [exact AX |]. split; [exact AY |]. split; [apply V0 |]. split; [apply V1 |]. split; [exact EK |]. split; [exact MR |]. split; [exact CH |].
  set (SB := EdSpec.timesZ S EdSpec.B) in *. set (HH := EdSpec.timesZ h A) in *.
  assert (OSB : EdSpec.on SB) by (apply EdSpec.times_on; apply EdSpec.B_on). assert (OH : EdSpec.on HH) by (apply EdSpec.times_on; exact HA).
  destruct (isotropic_passes x) as (Q2 & Q3 & Q4 & D2 & D3 & D4 & E).
  exists (EdSpec.plus SB (EdSpec.opp HH)), (x, qmul EdSpec.im x), Q2, Q3, Q4.
  split; [apply (double_base_scalar p A S h _ Hp FS (proj1 CH) HA); reflexivity |]. split; [apply EdSpec.plus_on; [exact OSB | apply EdSpec.opp_on; exact OH] |].
  split; [| split; [exact D2 | split; [exact D3 | split; [exact D4 | exact E]]]].
  rewrite EdSpec.opp_plus, EdSpec.opp_opp, EdSpec.plus_comm by (try apply EdSpec.opp_on; assumption). exact AD.
Qed.

(** A forgery: the public key of RFC 8032 section 7.1 TEST 1 (d75a9801...f707511a), a message its owner never signed
    ("forged: transfer everything....") and a signature (R, S = 0) found without the secret key. *)
Definition rfc_key : Z * Z := (286254408856960046490690341027990210362, 19779790248966045498811381270379450650).
Definition rfc_ax : Z := 38815646466658113194383306759739515082307681141926459231621296960732224964046.
Definition rfc_ay : Z := 11903303657706407974989296177215005343713679411332034699907763981919547054807.
Definition forged_msg : list Z :=
  [642997046805806959841001931635548228076003608203217725581417; 693011166746697858249530026741477143257075107991829538025006;
   289879019748680598725216691167425410651064069466699884015150; 289879019748680598725216691167425410651064069466699884015150;
   17278135999958550854040187070812309423152450887364142].
Definition forged_rx : Z := 3122967527744435848902396685876927931196576588048754643459171833850635144016.
Definition forged_ry : Z := 20.
Definition forged_h : Z := 4185389456265547618477459060140111750873534099003934865582411002890118762442.
Definition forged_q : Z * Z := (40682973894405249219763496128690427984552811747364955160293438976288102087669, 18429392580769176536142267411103790711246612028578282268163888335520401224054).
Definition forged_x : Z := 46236803826360639345055803989571863955553803614532608982917222302353600692702.
Lemma rfc_on : EdSpec.on (EdSpec.k rfc_ax, EdSpec.k rfc_ay).
Proof. unfold EdSpec.on, on_curve. rewrite EdSpec.d_val. apply Fq_ext. vm_compute. reflexivity. Qed.
Definition forged_chain : list step := [sD; sD; sD; sA; sD; sD; sA; sD; sD; sD; sD; sD; sD; sA; sD; sD; sD; sS; sD; sD; sS; sD; sD; sD; sA; sD; sD; sS; sD; sD; sS; sD; sD; sA; sD; sD; sS; sD; sD; sD; sA; sD; sD; sD; sA; sD; sD; sD; sA; sD; sD; sS; sD; sD; sD; sS; sD; sD; sD; sD; sS; sD; sD; sD; sS; sD; sD; sD; sD; sD; sD; sD; sD; sS; sD; sD; sS; sD; sD; sD; sA; sD; sD; sD; sA; sD; sD; sS; sD; sD; sS; sD; sD; sD; sA; sD; sD; sS; sD; sD; sA; sD; sD; sS; sD; sD; sD; sA; sD; sD; sD; sS; sD; sD; sA; sD; sD; sD; sD; sA; sD; sD; sD; sD; sS; sD; sD; sS; sD; sD; sA; sD; sD; sA; sD; sD; sD; sS; sD; sD; sS; sD; sD; sD; sD; sS; sD; sD; sS; sD; sD; sA; sD; sD; sD; sS; sD; sD; sS; sD; sD; sD; sD; sD; sD; sS; sD; sD; sD; sS; sD; sD; sD; sD; sA; sD; sD; sD; sD; sS; sD; sD; sD; sS; sD; sD; sD; sD; sD; sA; sD; sD; sD; sD; sA; sD; sD; sS; sD; sD; sA; sD; sD; sS; sD; sD; sD; sA; sD; sD; sA; sD; sD; sS; sD; sD; sS; sD; sD; sD; sD; sD; sS; sD; sD; sS; sD; sD; sD; sD; sS; sD; sD; sD; sS; sD; sD; sS; sD; sD; sA; sD; sD; sA; sD; sD; sA; sD; sD; sS; sD; sD; sA; sD; sD; sA; sD; sD; sD; sD; sD; sD; sA; sD; sD; sD; sA; sD; sD; sA; sD; sD; sD; sS; sD; sD; sD; sD; sD; sD; sS; sD; sD; sD; sS; sD; sD; sA; sD; sD; sA; sD; sD; sA; sD; sD; sD; sD; sA; sD; sD; sS; sD; sD; sD; sA; sD; sD; sD; sA; sD; sD; sA; sD; sD; sD; sD; sD; sD; sD; sA; sD; sD; sD; sD; sD; sD; sS; sD; sD; sD; sA; sD; sD; sA; sD].
Lemma forged_off : ~ EdSpec.on (EdSpec.k forged_rx, EdSpec.k forged_ry).
Proof.
  unfold EdSpec.on, on_curve. rewrite EdSpec.d_val. match goal with |- ?a <> ?b => assert (E : (fval a =? fval b) = false) by (vm_compute; reflexivity) end.
  apply Z.eqb_neq in E. intros C. exact (E (f_equal fval C)).
Qed.
Lemma forged_mult : mult_check forged_chain forged_h rfc_ax rfc_ay (fst forged_q) (snd forged_q) = true.
Proof. vm_compute. reflexivity. Qed.
Lemma forged_challenge : forged_h = le_val (sha512 (encode forged_rx forged_ry ++ encode rfc_ax rfc_ay ++ msg_bytes forged_msg)) mod EdSpec.L.
Proof. rewrite <- sha512_t_ok. unfold encode, le_bytes, msg_bytes. rewrite <- !le_fast_ok, <- be_fast_ok. vm_compute. reflexivity. Qed.
Theorem C47_forgery_refuted :
  key_bytes (fst rfc_key) (snd rfc_key) = [215; 90; 152; 1; 130; 177; 10; 183; 213; 75; 254; 211; 201; 100; 7; 58; 14; 225; 114; 243; 218; 166; 35; 37; 175; 2; 26; 104; 247; 7; 81; 26] /\
  exists A R, EdSpec.on A /\ ~ EdSpec.on R /\ Verify bn254 [fst rfc_key; snd rfc_key] R 0 forged_msg A.
Proof.
  split; [unfold key_bytes; rewrite <- be_fast_ok; vm_compute; reflexivity |].
  exists (EdSpec.k rfc_ax, EdSpec.k rfc_ay), (EdSpec.k forged_rx, EdSpec.k forged_ry). split; [exact rfc_on |]. split.
  - exact forged_off.
  - apply (C47_isotropic_R_accepted bn254 _ _ _ 0 forged_msg _ forged_rx forged_ry rfc_ax rfc_ay forged_h (EdSpec.k forged_x)).
    + split; reflexivity.
    + split; [discriminate | reflexivity].
    + split; [discriminate | reflexivity].
    + split; [discriminate | reflexivity].
    + reflexivity.
    + unfold forged_msg. repeat (apply Forall_cons; [split; [discriminate | reflexivity] |]). apply Forall_nil.
    + unfold forged_msg, msg_ranges. do 5 eexists. split; [reflexivity |]. split; [reflexivity |]. split; [reflexivity |]. split; [reflexivity |]. split; reflexivity.
    + exact rfc_on.
    + split; [split; [discriminate | reflexivity] | reflexivity].
    + split; [split; [discriminate | reflexivity] | reflexivity].
    + split; [split; [discriminate | reflexivity] | reflexivity].
    + split; [split; [discriminate | reflexivity] | reflexivity].
    + unfold encode, le_bytes, key_bytes. rewrite <- !le_fast_ok, <- be_fast_ok. vm_compute. reflexivity.
    + split; [split; [discriminate | reflexivity] |]. rewrite forged_challenge at 1. apply Zmod_mod.
    + change (EdSpec.timesZ 0 EdSpec.B) with EdSpec.O. rewrite EdSpec.opp_O, EdSpec.plus_O_r.
      rewrite (mult_check_ok _ _ _ _ _ _ rfc_on forged_mult).
      unfold ed_add, e_div. cbn [fst snd]. split; apply Fq_ext; vm_compute; reflexivity.
Qed.

(** ** The hypotheses are met: an honest signature.  Secret 2, nonce 3: A = [2]B, R = [3]B, S = 3 + 2h. *)
Definition hon_A : Z * Z := (24727413235106541002554574571675588834622768167397638456726423682521233608206, 15549675580280190176352668710449542251549572066445060580507079593062643049417).
Definition hon_R : Z * Z := (46896733464454938657123544595386787789046198280132665686241321779790909858396, 8324843778533443976490377120369201138301417226297555316741202210403726505172).
Definition hon_h : Z := 2882535948601500695320634760545587120799423542629072745833605292077472637997.
Definition hon_msg : list Z :=
  [611579164549390255719672913658249671663201128712486320483886; 289879019748680598725216691167425410651064069466699884015150;
   289879019748680598725216691167425410651064069466699884015150; 289879019748680598725216691167425410651064069466699884015150;
   17278135999958550854040187070812309423152450887364142].
Definition kk (P : Z * Z) : EdSpec.Pt := (EdSpec.k (fst P), EdSpec.k (snd P)).
Lemma hon_A_val : EdSpec.timesZ 2 EdSpec.B = kk hon_A.
Proof. pose proof EdSpec.B_on as H. rewrite B_val in *. apply (mult_check_ok [sD] 2 _ _ _ _ H). vm_compute. reflexivity. Qed.
Lemma hon_R_val : EdSpec.timesZ 3 EdSpec.B = kk hon_R.
Proof. pose proof EdSpec.B_on as H. rewrite B_val in *. apply (mult_check_ok [sD; sA] 3 _ _ _ _ H). vm_compute. reflexivity. Qed.
Lemma hon_challenge : hon_h = le_val (sha512 (encode (fst hon_R) (snd hon_R) ++ encode (fst hon_A) (snd hon_A) ++ msg_bytes hon_msg)) mod EdSpec.L.
Proof. rewrite <- sha512_t_ok. unfold encode, le_bytes, msg_bytes. rewrite <- !le_fast_ok, <- be_fast_ok. vm_compute. reflexivity. Qed.
Example C47_honest_accepted : EdSpec.on (kk hon_A) /\ EdSpec.on (kk hon_R) /\ 3 + 2 * hon_h < EdSpec.L /\
  Verify bn254 [268026210030411664888977784064443365783; 114477870587248728541864774677086167074] (kk hon_R) (3 + 2 * hon_h) hon_msg (kk hon_A).
Proof.
  assert (OA : EdSpec.on (kk hon_A)) by (rewrite <- hon_A_val; apply timesZ_on; exact EdSpec.B_on).
  assert (OR : EdSpec.on (kk hon_R)) by (rewrite <- hon_R_val; apply timesZ_on; exact EdSpec.B_on).
  split; [exact OA |]. split; [exact OR |]. split; [reflexivity |].
  apply C47_verify; [split; reflexivity | split; [discriminate | reflexivity] | split; [discriminate | reflexivity] | split; [discriminate | reflexivity] | reflexivity | | exact OA | exact OR |].
  - unfold hon_msg. repeat (apply Forall_cons; [split; [discriminate | reflexivity] |]). apply Forall_nil.
  - split; [reflexivity |]. split; [reflexivity |]. split.
    { unfold hon_msg, msg_ranges. do 5 eexists. split; [reflexivity |]. split; [reflexivity |]. split; [reflexivity |]. split; [reflexivity |]. split; reflexivity. }
    exists (fst hon_R), (snd hon_R), (fst hon_A), (snd hon_A), hon_h.
    split; [split; [split; [discriminate | reflexivity] | reflexivity] |]. split; [split; [split; [discriminate | reflexivity] | reflexivity] |].
    split; [split; [split; [discriminate | reflexivity] | reflexivity] |]. split; [split; [split; [discriminate | reflexivity] | reflexivity] |].
    split; [unfold encode, le_bytes, key_bytes; rewrite <- !le_fast_ok, <- be_fast_ok; vm_compute; reflexivity |]. split; [split; [split; [discriminate | reflexivity] | rewrite hon_challenge at 1; apply Zmod_mod] |].
    assert (HH : 0 <= hon_h) by discriminate. set (h := hon_h) in *. clearbody h.
    rewrite timesZ_add by (exact EdSpec.B_on || lia). rewrite (Z.mul_comm 2), timesZ_mul by (exact EdSpec.B_on || lia). rewrite hon_A_val, hon_R_val.
    apply EdSpec.times_plus; [exact OR | apply timesZ_on; exact OA].
Qed.
