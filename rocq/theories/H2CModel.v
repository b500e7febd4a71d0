(** * H2CModel.v — models circuits/gadgets/pairing_bls12381/hash2curve.go: hash_to_field, the simplified SWU map, the 3-isogeny, and
    the two hashes to G2.  Values, relations and representatives are as in G2Model.v. *)
From Coq Require Import ZArith List Bool Arith.
From Verif Require Import Field FieldZ RlpEnc ShaModel TowerModel PairingModel G2Model.
Import ListNotations.
Open Scope Z_scope.
Open Scope rel_scope.

(** an fp.Element literal holds six 64-bit limbs, little-endian, in Montgomery form x * 2^384 mod p (gnark-crypto); emulated.ValueOf
    takes the value x.  [montRinv] is the inverse of 2^384 modulo p (checked in H2CProofs.mont_spec). *)
Definition montRinv : Z := 3231460744492646417066832100176244795738767926513225105051837195607029917124509527734802654356338138714468589979680.
Definition mont (limbs : list Z) : Fp := qmul (fc (fold_right (fun l a => l + 2 ^ 64 * a) 0 limbs)) (fc montRinv).

(** hash2curve.go:17-20 SswuIsoCurveCoeffA *)
Definition sswuA : E2 := mkE2 (mont [0]) (mont [16517514583386313282; 74322656156451461; 16683759486841714365; 815493829203396097; 204518332920448171; 1306242806803223655]).
(** hash2curve.go:22-25 SswuIsoCurveCoeffB *)
Definition sswuB : E2 := mkE2 (mont [2515823342057463218; 7982686274772798116; 7934098172177393262; 8484566552980779962; 4455086327883106868; 1323173589274087377]) (mont [2515823342057463218; 7982686274772798116; 7934098172177393262; 8484566552980779962; 4455086327883106868; 1323173589274087377]).
(** hash2curve.go:27-30 Tv4Z *)
Definition tv4Z : E2 := mkE2 (mont [9794203289623549276; 7309342082925068282; 1139538881605221074; 15659550692327388916; 16008355200866287827; 582484205531694093]) (mont [4897101644811774638; 3654671041462534141; 569769440802610537; 17053147383018470266; 17227549637287919721; 291242102765847046]).

(** hash2curve.go:314-348 E2Exp, the loop over the bytes of the exponent *)
Definition e2_exp_bytes (x : E2) (b : list Z) : E2 :=
  fold_left (fun res w => fold_left (fun res j => let res := e2_square res in
                                                  if negb (Z.land w (Z.shiftr 128 (Z.of_nat j)) =? 0) then e2_mul res x else res)
                                    (seq 0 8) res) b e2_one.
(** hash2curve.go:314-348 E2Exp; big.Int.Bytes is the minimal big-endian encoding of the absolute value *)
Definition e2_exp (x : E2) (k : Z) : rel E2 :=
  if k =? 0 then ret e2_one
  else if k <? 0 then x' <- e2_inverse x ;; ret (e2_exp_bytes x' (be_bytes (- k)))
  else ret (e2_exp_bytes x (be_bytes k)).

Section Rep.
(** the representatives that comparisons may see; see G2Model *)
Variable rep : Fp -> rel Z.
(** hash2curve.go:208-243 g2Sgn0: bits of the limbs of the reduced coordinates; the loop overwrites zeroI in every iteration *)
Definition g2_sgn0 (u : E2) : rel bool :=
  r0 <- rep (A0 u) ;;
  r1 <- rep (A1 u) ;;
  let a0Bits := bits384 r0 in
  let sign := false in
  let zero := true in
  let signI := nth 0 a0Bits false in
  let zeroI := fold_left (fun zeroI b => orb signI b) a0Bits false in
  let sign := orb sign (andb zero signI) in
  let zero := andb zero zeroI in
  let signI := Z.testbit r1 0 in
  let sign := orb sign (andb zero signI) in
  ret sign.

(** hash2curve.go:254-257 tv1 *)
Definition sqrt_tv1 : E2 := mkE2 (mont [8921533702591418330; 15859389534032789116; 3389114680249073393; 15116930867080254631; 3288288975085550621; 1021049300055853010]) (mont [8921533702591418330; 15859389534032789116; 3389114680249073393; 15116930867080254631; 3288288975085550621; 1021049300055853010]).
(** hash2curve.go:274-275 c3 *)
Definition sqrt_c3 : list Z := [42; 67; 122; 75; 140; 53; 252; 116; 189; 39; 142; 170; 34; 242; 94; 158; 45; 201; 14; 80; 231; 4; 107; 70; 110; 89; 228; 147; 73; 232; 189; 5; 10; 98; 207; 209; 109; 220; 166; 239; 83; 20; 147; 48; 151; 142; 240; 17; 214; 134; 25; 200; 97; 133; 199; 178; 146; 232; 90; 135; 9; 26; 4; 150; 107; 249; 30; 211; 231; 27; 116; 49; 98; 195; 56; 54; 33; 19; 207; 215; 206; 214; 177; 215; 99; 130; 234; 178; 106; 160; 0; 1; 199; 24; 227].
(** hash2curve.go:288-291 c7 *)
Definition sqrt_c7 : E2 := mkE2 (mont [1921729236329761493; 9193968980645934504; 9862280504246317678; 6861748847800817560; 10375788487011937166; 4460107375738415]) (mont [16821121318233475459; 10183025025229892778; 1779012082459463630; 3442292649700377418; 1061500799026501234; 1352426537312017168]).
(** hash2curve.go:299-308 g2SqrtRatio, one iteration of the loop, with exponent exp *)
Definition sqrt_body (exp : Z) (s : E2 * E2 * E2) : rel (E2 * E2 * E2) :=
  let '(tv1, tv3, tv4) := s in
  tv5 <- e2_exp tv4 exp ;;
  nE1 <- e2_not_one rep tv5 ;;
  let tv2 := e2_mul tv3 tv1 in
  let tv1 := e2_mul tv1 tv1 in
  let tv5 := e2_mul tv4 tv1 in
  let tv3 := e2_select nE1 tv2 tv3 in
  let tv4 := e2_select nE1 tv5 tv4 in
  ret (tv1, tv3, tv4).
(** hash2curve.go:245-312 g2SqrtRatio *)
Definition g2_sqrt_ratio (u v : E2) : rel (E2 * bool) :=
  let tv1 := sqrt_tv1 in
  tv2 <- e2_exp v 7 ;;
  let tv3 := e2_square tv2 in
  let tv3 := e2_mul tv3 v in
  let tv5 := e2_mul u tv3 in
  tv5 <- e2_exp tv5 (be_value sqrt_c3) ;;
  let tv5 := e2_mul tv5 tv2 in
  let tv2 := e2_mul tv5 v in
  let tv3 := e2_mul tv5 u in
  let tv4 := e2_mul tv3 tv2 in
  tv5 <- e2_exp tv4 4 ;;
  isQNr <- e2_not_one rep tv5 ;;
  let tv2 := e2_mul tv3 sqrt_c7 in
  let tv5 := e2_mul tv4 tv1 in
  let tv3 := e2_select isQNr tv2 tv3 in
  let tv4 := e2_select isQNr tv5 tv4 in
  s <- sqrt_body 2 (tv1, tv3, tv4) ;;
  s <- sqrt_body 1 s ;;
  let '(tv1, tv3, tv4) := s in
  ret (tv3, isQNr).

(** hash2curve.go:159-206 MapElementToCurve2 *)
Definition map_element_to_curve2 (e2 : E2) : rel (E2 * E2) :=
  let tv1 := e2_square e2 in
  let tv1 := e2_mul tv1 tv4Z in
  let tv2 := e2_square tv1 in
  let tv2 := e2_add tv2 tv1 in
  let tv3 := e2_add tv2 e2_one in
  let tv3 := e2_mul tv3 sswuB in
  let tv2 := e2_neg tv2 in
  let tv4 := e2_mul tv2 sswuA in
  let tv2 := e2_square tv3 in
  let tv6 := e2_square tv4 in
  let tv5 := e2_mul tv6 sswuA in
  let tv2 := e2_add tv2 tv5 in
  let tv2 := e2_mul tv2 tv3 in
  let tv6 := e2_mul tv6 tv4 in
  let tv5 := e2_mul tv6 sswuB in
  let tv2 := e2_add tv2 tv5 in
  let x := e2_mul tv1 tv3 in
  s <- g2_sqrt_ratio tv2 tv6 ;;
  let '(y1, gx1NSquare) := s in
  let y := e2_mul tv1 e2 in
  let y := e2_mul y y1 in
  let x := e2_select gx1NSquare x tv3 in
  let y := e2_select gx1NSquare y y1 in
  let y1 := e2_neg y in
  g2Sgn0U <- g2_sgn0 e2 ;;
  g2Sgn0Y <- g2_sgn0 y ;;
  let useY1 := xorb g2Sgn0U g2Sgn0Y in
  let y := e2_select useY1 y1 y in
  x <- e2_div x tv4 ;;
  ret (x, y).

(** hash2curve.go:383-392, 409-426, 449-462, 482-499 the coefficients of the isogeny *)
Definition iso_xd : list E2 :=
  [mkE2 (mont [0]) (mont [2250392438786206615; 17463829474098544446; 14571211649711714824; 4495761442775821336; 258811604141191305; 357646605018048850]);
   mkE2 (mont [4933130441833534766; 15904462746612662304; 8034115857496836953; 12755092135412849606; 7007796720291435703; 252692002104915169]) (mont [8469300574244328829; 4752422838614097887; 17848302789776796362; 12930989898711414520; 16851051131888818207; 1621106615542624696])].
Definition iso_xn : list E2 :=
  [mkE2 (mont [5185457120960601698; 494647221959407934; 8971396042087821730; 324544954362548322; 14214792730224113654; 1405280679127738945]) (mont [5185457120960601698; 494647221959407934; 8971396042087821730; 324544954362548322; 14214792730224113654; 1405280679127738945]);
   mkE2 (mont [0]) (mont [6910023028261548496; 9745789443900091043; 7668299866710145304; 2432656849393633605; 2897729527445498821; 776645607375592125]);
   mkE2 (mont [724047465092313539; 15783990863276714670; 12824896677063784855; 15246381572572671516; 13186611051602728692; 1485475813959743803]) (mont [12678383550985550056; 4872894721950045521; 13057521970209848460; 10439700461551592610; 10672236800577525218; 388322803687796062]);
   mkE2 (mont [4659755689450087917; 1804066951354704782; 15570919779568036803; 15592734958806855601; 7597208057374167129; 1841438384006890194]) (mont [0])].
Definition iso_yd : list E2 :=
  [mkE2 (mont [99923616639376095; 10339114964526300021; 6204619029868000785; 1288486622530663893; 14587509920085997152; 272081012460753233]) (mont [99923616639376095; 10339114964526300021; 6204619029868000785; 1288486622530663893; 14587509920085997152; 272081012460753233]);
   mkE2 (mont [0]) (mont [6751177316358619845; 15498000274876530106; 6820146801716041242; 13487284328327464010; 776434812423573915; 1072939815054146550]);
   mkE2 (mont [7399695662750302149; 14633322083064217648; 12051173786245255430; 9909266166264498601; 1288323043582377747; 379038003157372754]) (mont [6002735353327561446; 6023563502162542543; 13831244861028377885; 15776815867859765525; 4123780734888324547; 1494760614490167112])].
Definition iso_yn : list E2 :=
  [mkE2 (mont [10869708750642247614; 13056187057366814946; 1750362034917495549; 6326189602300757217; 1140223926335695785; 632761649765668291]) (mont [10869708750642247614; 13056187057366814946; 1750362034917495549; 6326189602300757217; 1140223926335695785; 632761649765668291]);
   mkE2 (mont [0]) (mont [13765940311003083782; 5579209876153186557; 11349908400803699438; 11707848830955952341; 199199289641242246; 899896674917908607]);
   mkE2 (mont [15562563812347550836; 2436447360975022760; 6528760985104924230; 5219850230775796305; 5336118400288762609; 194161401843898031]) (mont [16286611277439864375; 18220438224251737430; 906913588459157469; 2019487729638916206; 75985378181939686; 1679637215803641835]);
   mkE2 (mont [11849179119594500956; 13906615243538674725; 14543197362847770509; 2041759640812427310; 2879701092679313252; 1259985822978576468]) (mont [0])].
(** hash2curve.go:376-401 g2IsogenyXDenominator *)
Definition g2_isogeny_x_denominator (x : E2) : E2 :=
  let dst := nth 1 iso_xd e2_zero in
  let dst := e2_add dst x in
  let dst := e2_mul dst x in
  e2_add dst (nth 0 iso_xd e2_zero).
(** hash2curve.go:403-440 g2IsogenyXNumerator *)
Definition g2_isogeny_x_numerator (x : E2) : E2 :=
  let dst := nth 3 iso_xn e2_zero in
  let dst := e2_mul dst x in
  let dst := e2_add dst (nth 2 iso_xn e2_zero) in
  let dst := e2_mul dst x in
  let dst := e2_add dst (nth 1 iso_xn e2_zero) in
  let dst := e2_mul dst x in
  e2_add dst (nth 0 iso_xn e2_zero).
(** hash2curve.go:442-474 g2IsogenyYDenominator *)
Definition g2_isogeny_y_denominator (x : E2) : E2 :=
  let dst := nth 2 iso_yd e2_zero in
  let dst := e2_add dst x in
  let dst := e2_mul dst x in
  let dst := e2_add dst (nth 1 iso_yd e2_zero) in
  let dst := e2_mul dst x in
  e2_add dst (nth 0 iso_yd e2_zero).
(** hash2curve.go:476-514 g2IsogenyYNumerator *)
Definition g2_isogeny_y_numerator (x y : E2) : E2 :=
  let dst := nth 3 iso_yn e2_zero in
  let dst := e2_mul dst x in
  let dst := e2_add dst (nth 2 iso_yn e2_zero) in
  let dst := e2_mul dst x in
  let dst := e2_add dst (nth 1 iso_yn e2_zero) in
  let dst := e2_mul dst x in
  let dst := e2_add dst (nth 0 iso_yn e2_zero) in
  e2_mul dst y.
(** hash2curve.go:350-374 G2Isogeny *)
Definition g2_isogeny (p : G2Affine) : rel G2Affine :=
  let den1 := g2_isogeny_y_denominator (X2 p) in
  let den0 := g2_isogeny_x_denominator (X2 p) in
  let newPy := g2_isogeny_y_numerator (X2 p) (Y2 p) in
  let newPx := g2_isogeny_x_numerator (X2 p) in
  den1 <- e2_inverse den1 ;;
  den0 <- e2_inverse den0 ;;
  ret (mkG2 (e2_mul newPx den0) (e2_mul newPy den1)).

(** hash2curve.go:31 DST, as bytes: "BLS_SIG_BLS12381G2_XMD:SHA-256_SSWU_RO_POP_" *)
Definition DST : list Z := [66; 76; 83; 95; 83; 73; 71; 95; 66; 76; 83; 49; 50; 51; 56; 49; 71; 50; 95; 88; 77; 68; 58; 83; 72; 65; 45; 50; 53; 54; 95; 83; 83; 87; 85; 95; 82; 79; 95; 80; 79; 80; 95].
Section Native.
(** the native field of the circuit *)
Variable p : Z.
Open Scope circ_scope.
(** sha256.New(api).Write(m).Sum() *)
Definition sha (m : list Z) : option (list Z) :=
  let* '(_, outs) := run p sha256_code [OpWrite m; OpSum] in Some (nth 0 outs []).
(** hash2curve.go:41-114 ExpandMsgXmd, the preimages of b_1, b_2, ... *)
Definition xmd_preimage (first : list Z) (i : Z) : list Z := first ++ [i mod 256] ++ DST ++ [43].
(** sha256 Uint8API AsUint8, Xor, FromUint8 *)
Definition xor_byte (a b : Z) : option Z :=
  let* ba := to_binary p a 8 in
  let* bb := to_binary p b 8 in
  let* xs := omap (fun j => fxor p (nth j ba 0) (nth j bb 0)) (seq 0 8) in
  from_binary p xs.
(** hash2curve.go:41-114 ExpandMsgXmd: the loop for i = 2 .. ell; copy writes at most lenInBytes - 32 (i-1) bytes *)
Fixpoint xmd_loop (b0 b1 : list Z) (lenInBytes : nat) (is : list nat) (acc : list Z) : option (list Z) :=
  match is with
  | [] => Some acc
  | i :: r =>
    let* first := omap (fun j => xor_byte (nth j b0 0) (nth j b1 0)) (seq 0 32) in
    let* b := sha (xmd_preimage first (Z.of_nat i)) in
    let lo := (32 * (i - 1))%nat in
    let n := Nat.min (Nat.min (32 * i) lenInBytes - lo) (length b) in
    xmd_loop b0 b lenInBytes r (firstn lo acc ++ firstn n b ++ skipn (lo + n) acc)
  end.
(** hash2curve.go:41-114 ExpandMsgXmd (msg is an array of 32 variables; L = 64).  count = 0 panics in the first copy loop, since
    pseudoRandomBytes has no index 0 *)
Definition expand_msg_xmd (msg : list Z) (count : nat) : option (list Z) :=
  let lenInBytes := (count * 64)%nat in
  let ell := ((lenInBytes + 32 - 1) / 32)%nat in
  let b0Preimage := repeat 0 64 ++ msg ++ [Z.shiftr (Z.of_nat lenInBytes) 8 mod 256; Z.of_nat lenInBytes mod 256; 0] ++ DST ++ [43] in
  let* b0 := sha b0Preimage in
  let* b1 := sha (xmd_preimage b0 1) in
  guard (Nat.leb 32 lenInBytes) ;;
  xmd_loop b0 b1 lenInBytes (seq 2 (ell - 1)) (firstn 32 b1 ++ repeat 0 (lenInBytes - 32)).
(** hash2curve.go:125-135 GetUint64From8Bytes *)
Definition get_uint64_from_8_bytes (v : list Z) : option Z :=
  let* bs := omap (fun j => to_binary p (nth j v 0) 8) (seq 0 8) in
  from_binary p (concat (rev bs)).
(** hash2curve.go:151-157 GetRawLimbsBy8Uint64: the element with the limbs v, reduced *)
Definition get_raw_limbs (v : list Z) : Fp := fc (fold_right (fun l a => l + 2 ^ 64 * a) 0 v).
(** hash2curve.go:666-690 HashToField *)
Definition hash_to_field (msg : list Z) (count : nat) : option (list E2) :=
  let* emx := expand_msg_xmd msg count in
  let* u := omap (fun i =>
      let* limbs := omap (fun j => get_uint64_from_8_bytes (firstn 8 (skipn (64 * (i + 1) - 8 * (j + 1)) emx))) (seq 0 8) in
      Some (get_raw_limbs limbs)) (seq 0 count) in
  Some (map (fun n => mkE2 (nth (2 * n) u (fc 0)) (nth (2 * n + 1) u (fc 0))) (seq 0 (count / 2))).
Close Scope circ_scope.

(** hash2curve.go:692-704 EncodeToG2OnJac *)
Definition encode_to_g2_on_jac (msg : list Z) : rel G2Affine := fun res =>
  exists e2, hash_to_field msg 2 = Some e2 /\
  (xy <- map_element_to_curve2 (nth 0 e2 e2_zero) ;;
   a <- g2_isogeny (mkG2 (fst xy) (snd xy)) ;;
   j <- get_g2_jac rep a ;;
   j <- clear_cofactor rep j ;;
   get_g2_affine rep j) res.
(** hash2curve.go:706-713 EncodeToG2 *)
Definition encode_to_g2 (msg : list Z) : rel G2Affine := fun res =>
  exists e2, hash_to_field msg 2 = Some e2 /\
  (xy <- map_element_to_curve2 (nth 0 e2 e2_zero) ;;
   a <- g2_isogeny (mkG2 (fst xy) (snd xy)) ;;
   g2_clear_cofactor rep a) res.
(** hash2curve.go:715-740 HashToG2OnJac *)
Definition hash_to_g2_on_jac (msg : list Z) : rel G2Affine := fun res =>
  exists e2, hash_to_field msg 4 = Some e2 /\
  (q0 <- map_element_to_curve2 (nth 0 e2 e2_zero) ;;
   q1 <- map_element_to_curve2 (nth 1 e2 e2_zero) ;;
   Q0 <- g2_isogeny (mkG2 (fst q0) (snd q0)) ;;
   Q1 <- g2_isogeny (mkG2 (fst q1) (snd q1)) ;;
   j0 <- get_g2_jac rep Q0 ;;
   j1 <- get_g2_jac rep Q1 ;;
   sum <- g2_jacobian_add_assign rep j0 j1 ;;
   sum <- clear_cofactor rep sum ;;
   get_g2_affine rep sum) res.
(** hash2curve.go:742-760 HashToG2 *)
Definition hash_to_g2 (msg : list Z) : rel G2Affine := fun res =>
  exists e2, hash_to_field msg 4 = Some e2 /\
  (q0 <- map_element_to_curve2 (nth 0 e2 e2_zero) ;;
   q1 <- map_element_to_curve2 (nth 1 e2 e2_zero) ;;
   Q0 <- g2_isogeny (mkG2 (fst q0) (snd q0)) ;;
   Q1 <- g2_isogeny (mkG2 (fst q1) (snd q1)) ;;
   sum <- g2_add_assign Q0 Q1 ;;
   g2_clear_cofactor rep sum) res.
End Native.
End Rep.
