(** * H2GEx.v — hash_to_field and the regularity of its results on one message, computed (examples for Props_H2G.v) *)
From Coq Require Import ZArith NArith List Bool Arith Lia Ring.
From Verif Require Import FieldZ TowerModel TowerSpec TowerRing TowerFrob TowerField PairingModel H2CSpec ShaSpec ShaModel ShaBlock ShaStream ShaWords ShaFast Props_Sha SswuSpec SswuProofs SswuMap H2GProofs SswuEx.
Import ListNotations.
Open Scope Z_scope.

(** ** regularity with the reduced intermediate values given *)
Definition reg_h (u w t a b s d n w2 w3 v : Z * Z) : bool :=
  zeqb (zm (-2, -1) (zm u u)) w && zeqb (za (zm w w) w) t && zeqb (zm (1012, 1012) (za t (1, 0))) a && zeqb (zm (zo t) (0, 240)) b &&
  zeqb (zm b b) s && zeqb (zm s b) d && zeqb (za (zm (za (zm a a) (zm (0, 240) s)) a) (zm (1012, 1012) d)) n &&
  zeqb (zm w w) w2 && zeqb (zm w2 w) w3 && zeqb (zm w3 n) v &&
  negb ((fst t mod pBls =? 0) && (snd t mod pBls =? 0)) && negb (snd (zm n (zc d)) mod pBls =? 0) && negb (snd (zm v (zc d)) mod pBls =? 0) &&
  negb (fst u mod pBls =? 0).
Lemma reg_h_ok u w t a b s d n w2 w3 v : reg_h u w t a b s d n w2 w3 v = true -> sswu_t (em u) <> zero2 /\ regular (em u).
Proof.
  intros H. unfold reg_h in H. do 13 (apply andb_true_iff in H; let H' := fresh "K" in destruct H as [H H']). apply negb_true_iff in K, K0, K1, K2.
  rename H into Hw. apply em_eq in Hw, K3, K4, K5, K6, K7, K8, K9, K10, K11.
  assert (Ew : em (zw u) = em w) by exact Hw.
  assert (Et : em (zt u) = em t) by (rewrite <- K11; unfold zt; rewrite <- !em_add, <- !em_mul, Ew; reflexivity).
  assert (E3 : em (z3 u) = em a) by (rewrite <- K10; unfold z3; rewrite <- !em_mul, <- !em_add, Et; reflexivity).
  assert (E4 : em (z4 u) = em b) by (rewrite <- K9; unfold z4; rewrite <- !em_mul, <- !em_opp, Et; reflexivity).
  assert (ED : em (zD u) = em d) by (rewrite <- K7, <- em_mul, <- K8; unfold zD; rewrite <- !em_mul, E4; reflexivity).
  assert (EN : em (zN u) = em n). { rewrite <- K6, <- em_add, <- !em_mul, <- em_add, <- !em_mul, <- K8, <- K7, <- (em_mul s b), <- K8. unfold zN. rewrite <- em_add, <- !em_mul, <- em_add, <- !em_mul, E3, E4. reflexivity. }
  assert (T : sswu_t (em u) <> zero2) by (rewrite em_t, Et; apply em_ne0; exact K2). split; [exact T|].
  split; [left; exact (A0_ne u K)|]. intros x y S. destruct (sswu_cases _ _ _ S) as [X E]. apply (sq_A0 y _ E).
  pose proof (g_x1 _ T) as G1. destruct (em_N u) as [EN' ED']. rewrite EN', ED', ED, EN in G1. destruct X as [->| ->].
  - exact (A1_quot _ _ _ G1 K1).
  - apply (A1_quot d v); [|exact K0]. rewrite (g_x2 _ T), em_w, Ew, <- K3, <- (em_mul w3 n), <- K4, <- (em_mul w2 w), <- K5, <- (em_mul w w), <- G1. ring.
Qed.

(** ** one message *)
Definition sha256_t (m : list Z) : list Z := sha_t sha256p (cK sha256_code) (cInit sha256_code) m.
Lemma sha256_t_ok : forall m, sha256_t m = sha256 m.
Proof. intros m. pose proof agree256 as A. apply sha_t_ok; [intros t Ht; apply (ag_K _ _ A); exact Ht|apply (ag_init _ _ A)]. Qed.
Lemma b_S_S msg len k : b_S msg len (S k) = sha256 (strxor (b_0 msg len) (b_S msg len k) ++ I2OSP (Z.of_nat (S k + 1)) 1 ++ dst_prime).
Proof. reflexivity. Qed.
Definition exmsg : list Z := repeat 240 32.
Local Opaque sha256.
Ltac sha_step := first [unfold b_0 | idtac]; rewrite <- sha256_t_ok; vm_compute; reflexivity.
Ltac uf_step := cbv zeta; cbn [map seq]; unfold em, cx; repeat apply f_equal2; try reflexivity; apply ofZ_eq; vm_compute; reflexivity.
Definition e1_b0 : list Z := [156;245;131;182;209;104;24;137;156;217;106;184;130;27;104;39;39;7;135;6;129;236;63;75;103;52;14;37;175;24;10;70].
Definition e1_b1 : list Z := [110;61;119;193;167;250;239;140;69;38;235;33;121;116;10;215;86;56;90;154;185;4;150;57;118;185;226;103;247;71;161;241].
Definition e1_b2 : list Z := [67;100;226;234;183;33;238;245;210;226;12;10;138;223;34;151;44;109;119;105;223;40;122;149;136;61;100;123;235;142;60;39].
Definition e1_b3 : list Z := [78;253;99;48;38;152;31;238;225;71;237;212;249;96;213;180;7;192;86;80;248;36;212;142;187;115;233;32;171;40;253;203].
Definition e1_b4 : list Z := [92;221;159;25;155;240;106;203;180;12;196;104;134;57;215;32;133;213;204;87;211;91;98;217;31;88;67;64;137;129;123;125].
Lemma e1_b0_ok : b_0 exmsg 128 = e1_b0. Proof. sha_step. Qed.
Lemma e1_b1_ok : b_S exmsg 128 0 = e1_b1. Proof. unfold b_S. rewrite e1_b0_ok. sha_step. Qed.
Lemma e1_b2_ok : b_S exmsg 128 1 = e1_b2. Proof. rewrite b_S_S. rewrite e1_b0_ok, e1_b1_ok. sha_step. Qed.
Lemma e1_b3_ok : b_S exmsg 128 2 = e1_b3. Proof. rewrite b_S_S. rewrite e1_b0_ok, e1_b2_ok. sha_step. Qed.
Lemma e1_b4_ok : b_S exmsg 128 3 = e1_b4. Proof. rewrite b_S_S. rewrite e1_b0_ok, e1_b3_ok. sha_step. Qed.
Definition e1_u0 : Z * Z := (0x40ea83d947e12feb4fd5ba85d21257186cd82c463aebbc45ca2f4c260d03318499c04651d675735948f2965d6795821, 0xb78caa3bb3fa6dc5f4015e4ffed82fcd3f173c17ec0de45de2f9bdb4213756a06662455a69586a5c181d4be34be202c).
Lemma e1_field : hash_to_field_spec exmsg 1 = [em e1_u0].
Proof.
  unfold hash_to_field_spec, expand_message_xmd. change (flat_map (b_S exmsg (1 * 2 * 64)) (seq 0 ((1 * 2 * 64 + 31) / 32))) with (concat [b_S exmsg 128 0; b_S exmsg 128 1; b_S exmsg 128 2; b_S exmsg 128 3]). rewrite e1_b1_ok, e1_b2_ok, e1_b3_ok, e1_b4_ok. uf_step. Qed.
Lemma e1_u0_reg : reg_h e1_u0 (0x139245be3d03636231b3ac78f99c9109b9e92ee510fc5220f5bfe33baebbd2c265376688f00473137e8e28be19ac6b06, 0x12580d61411e88f8c254f6beaed75b7c527bfae06833e297c44c3c38d6cad8f33fa23f392c75ad0b6a59b5216dc47241) (0x13d37bc73ef19f38a4a3cdd5efa062295e21c6035847fb150e105c4521a05f869ee1a7f90f49b6ff9772567e35512c97, 0x366311d450c1d6749690e1fc436dc41d99187d273a0e23bee0892bf6404b345fafde3fd4604bc74fdbb7f72f6647e4c) (0x75f704a5904947b2a363c31a340e9944470586c0b646e900beae4e9c7ae8b5f510ec29b04026c9663491874c076039b, 0x16394628f4e73dfa1c48f3638ef41414d0044f331a25c2ff9559e81a265a176817014e65bad469d4a6b8bd60cb548c23) (0x9ace013c4dea425ba23eeb5cd448fa6cdfd3032e9b6d301a92011efe4fa433b9731bd9a2b44adb659e67bc6fe40bc8b, 0x7fc3a417e893315733eab974bc8730919d58e750a5031594901040d226659cf96685926df0702ffa17e9ae03a932ad) (0x168317809b60f463756b1138c6cb5f241770afc580efa0c1823bc0cc46d0699e7112d6690b226eb7d113c2f903ff18a2, 0x176d2b80aa914b11695168b8ab70346aacf11ca0edd1206647c9e8e7f6bb49a33502b3476447795f01e3fdf77c11e545) (0x3d725beab647f5ebff6245e71b8c78153f85fb68b0b3a9af5498525dd98914dcd37b15b787575cfe45aa7dcbb0d7df0, 0xfc1f32b3194163606b7f42221bea097c53489f9dc8dde4f298eb1d4519e1fe5949588cebc3a2aa3d46c37e4c0978fb1) (0x665f362fa966c6dd0cb8eccf2fb5306d24cbcb6b0568056a23f5c29a0c4ba5a127a97ee615b270d63c684ddc2c884f7, 0x16108dca7afb1c25565c1f7d9053c1ae7fab46b2327e2d3e6dce76ce46d7a0abd95f2b19592eeb7cad26296bd38fe601) (0x41360901ee3bd672f0215cf603d11fa438971e474ba8f41850790972e48cc439aa41701f4543ec18e42dc01ba4c191, 0xb0f35a63d6d7b08d22fbf1758ab2d9ceb8cd876fef2126390ed292783ead076da07a4c2cae30f694d60ca51889fb6b6) (0x19e5d6548feef4f8bfd9823e28f50978800f2b588a97ddaec276529e4fe9126271394cfcb3589df7f97ff3f4d047fa3d, 0x19671cce8d0a96152365237516f8e63f27f0545399b60614fee0263b0fd4a21524d6e5bd018daedbdb44a751b5767e5) (0x14f9526ac34542ba92a124fc7244db0d03c3b7934215d15126a348a9d4262b77a6693c4eb1073f87c0e2262d82ac4d8d, 0xc15d95ffa442821242037e1d8791c06b6442827e96265cd269adae3fbd44f9004ee414270b0dd8664642d212fcd724d) = true. Proof. vm_compute. reflexivity. Qed.
Definition e2_b0 : list Z := [68;119;200;174;52;25;222;145;24;156;170;230;80;73;204;5;169;81;107;177;61;172;21;128;216;152;218;119;147;221;245;111].
Definition e2_b1 : list Z := [173;91;16;93;228;105;9;59;131;135;216;167;237;159;218;197;123;203;40;96;141;211;53;12;240;187;166;158;13;247;121;156].
Definition e2_b2 : list Z := [23;153;0;246;82;151;230;9;84;82;120;246;136;124;26;229;160;17;181;58;160;133;17;188;118;28;90;172;145;13;95;181].
Definition e2_b3 : list Z := [181;41;46;66;96;91;253;43;118;135;165;92;95;152;121;59;191;171;166;109;81;35;190;73;78;170;192;122;111;126;151;212].
Definition e2_b4 : list Z := [150;101;175;156;170;88;227;23;118;182;73;59;22;64;42;174;218;21;96;155;233;208;218;37;92;255;144;138;30;157;197;52].
Definition e2_b5 : list Z := [243;214;92;179;18;64;49;184;236;169;250;126;104;201;197;185;96;198;236;52;102;94;241;113;113;219;40;105;120;69;31;7].
Definition e2_b6 : list Z := [201;207;115;51;2;133;83;87;114;183;175;57;26;173;7;111;248;129;24;5;2;192;127;166;241;110;66;10;42;1;2;226].
Definition e2_b7 : list Z := [168;8;130;170;221;208;46;34;162;241;232;68;131;114;54;64;208;151;175;173;223;193;14;174;5;11;135;114;14;48;136;94].
Definition e2_b8 : list Z := [92;87;203;109;23;40;23;196;225;211;151;215;24;141;87;80;221;227;235;143;20;236;213;117;38;25;205;24;174;224;85;251].
Lemma e2_b0_ok : b_0 exmsg 256 = e2_b0. Proof. sha_step. Qed.
Lemma e2_b1_ok : b_S exmsg 256 0 = e2_b1. Proof. unfold b_S. rewrite e2_b0_ok. sha_step. Qed.
Lemma e2_b2_ok : b_S exmsg 256 1 = e2_b2. Proof. rewrite b_S_S. rewrite e2_b0_ok, e2_b1_ok. sha_step. Qed.
Lemma e2_b3_ok : b_S exmsg 256 2 = e2_b3. Proof. rewrite b_S_S. rewrite e2_b0_ok, e2_b2_ok. sha_step. Qed.
Lemma e2_b4_ok : b_S exmsg 256 3 = e2_b4. Proof. rewrite b_S_S. rewrite e2_b0_ok, e2_b3_ok. sha_step. Qed.
Lemma e2_b5_ok : b_S exmsg 256 4 = e2_b5. Proof. rewrite b_S_S. rewrite e2_b0_ok, e2_b4_ok. sha_step. Qed.
Lemma e2_b6_ok : b_S exmsg 256 5 = e2_b6. Proof. rewrite b_S_S. rewrite e2_b0_ok, e2_b5_ok. sha_step. Qed.
Lemma e2_b7_ok : b_S exmsg 256 6 = e2_b7. Proof. rewrite b_S_S. rewrite e2_b0_ok, e2_b6_ok. sha_step. Qed.
Lemma e2_b8_ok : b_S exmsg 256 7 = e2_b8. Proof. rewrite b_S_S. rewrite e2_b0_ok, e2_b7_ok. sha_step. Qed.
Definition e2_u0 : Z * Z := (0x57eb606d762ade01f2ac3f212d0730319d735fb4fb3c2a23a3b39dfb582de4d02f4018cd427619aa2365d992678aaab, 0x2f461c592346168b8b6de6676e409b89a194d93dcab9e5fab36152165c2c5ad60ecf66eefc5594dbb5a769af3f8dfb8).
Definition e2_u1 : Z * Z := (0x4385e852bfd7ad6a97f80d8931fe5c8462a54b3a8971790b1e2357895137d814783c357f04611c0e927cea06572d1ff, 0x91ef3108bc54e912715fc46aceff5274aa2fc4d7ee30d33dfb993b44bd58260105a87545b79c5750b6eea59b7172719).
Lemma e2_field : hash_to_field_spec exmsg 2 = [em e2_u0; em e2_u1].
Proof.
  unfold hash_to_field_spec, expand_message_xmd. change (flat_map (b_S exmsg (2 * 2 * 64)) (seq 0 ((2 * 2 * 64 + 31) / 32))) with (concat [b_S exmsg 256 0; b_S exmsg 256 1; b_S exmsg 256 2; b_S exmsg 256 3; b_S exmsg 256 4; b_S exmsg 256 5; b_S exmsg 256 6; b_S exmsg 256 7]). rewrite e2_b1_ok, e2_b2_ok, e2_b3_ok, e2_b4_ok, e2_b5_ok, e2_b6_ok, e2_b7_ok, e2_b8_ok. uf_step. Qed.
Lemma e2_u0_reg : reg_h e2_u0 (0x38a45eecd2aa45096ff95d6209c10827faddf635a916b5a2fd28bac3f41e2447e5bf5230c1ffc53f75ecf8f0ad94f0b, 0x2110cf3ab70cb8a0ed06b194e9298458eb93c25c338e41fec244033a2739cb0dbb03e2e175503693bf81c1fa5d8621d) (0x961a60850470f1cacaa3675649888609bd243451dd34c50e9b5fae8f054da979ffacc80e7fe15ab736d7e9d140bcdfa, 0x9c974386401f124e78b3eab36c8933f23fd9c82df148a1abd34ed5a768aeaba21768d852e2cb07f76e1ccf644c71261) (0x5b608959938e11bf02606a14ecfd5c3fc17f02f4268ea1e6136c148dd5799da0d88fb05a503f1ddf82a476b5bb04778, 0x1946a5275b5eec394fd7f37c64a734aee295dcab1638128c8b893404c39bb813718be3dd93a36271fa5fc27b2297400d) (0x87ca8858adb005aaad1ca6fb36f47786bd22df38678e1c71a747838680585cc96acad50f25d7798100a26e07abf3ad2, 0xad16ece47d9338da6d2f0e28fb7e2a10f6b9962cc21d330f6fc5a528696b820715446b4c557af2bff024cbd34d1e5bd) (0xaad39ae95045a6bb8fda23f21d721af2ed05d8dd210123f921a340d580ef35eb74a926156faa3962ca14f87a1a269f3, 0x168375718c91d867001ee2c1b98de48e6c5d6c013e420209f5aecbd6d07f13e49a637ac89ba7a548d8f744bc3493bde3) (0x19cec304e5d19a71182f8fb400c85dc53124c4bf643dbc8764abde40d08309b9ac157311b3ac3dbb5ae27a8e6961db80, 0x77e3b1090a39f433caace0326059c9da08c5121af270d53fde85c91e0f8b67d80cbfc073c1f962fe1a27eeee0870abd) (0xe9652b4280fa9e6c9a822cb177438230971d583216f7342a264f2332986908b6e7200c915118f8995e802f41a1ebff6, 0x6b102f6133d65e8e69bcd0e4acb8d5ded734419c2aee4529de1dc6c428bd9083cd43fb13bd93b24e490d3e1e0decb68) (0x5d76019831c6acc15aaa09f43fc77de1c2463e1c341e0f6b9e36f3cb112f853219ed75ddbde19577c0eaf0e09327eef, 0x7b86744b891259ad8bad391e835faf99544605d1bdba5fad110ad26d4174e0945c64f5716d7ad163ae9b0d69eeeb044) (0x5b5cf15509ccdb163210ae61b965414113442298c7a2c0068132a2d7939a3a6387c5357968d89f2254ac35d2d50153a, 0x3f8b1cdbda1d87723322a5b627f94e4f927a7713bd3f30713c00ce1adf37bc6690f4a4ec78e6f43664dd1897a38cd90) (0x1738636e16012415b6f3892e58692e39cb77c51934e324ad8d1e651a27e57cd4af39f443df42ce536aac04dd11861cad, 0x6a9fa5c5d42e95469911710797f1a95080ad6ae3b58cca59818bbfc1e9b88cb063dd24a5d17d3a0342d7de1c95b418a) = true. Proof. vm_compute. reflexivity. Qed.
Lemma e2_u1_reg : reg_h e2_u1 (0xf9113158bf683182c42d0db36ee86fd682265acf97e892448f23736b6185ec1ab3db103967ae79d38ce792379d59d8c, 0x1476389feafbb80851d42dbafdbe90a9e30f5cc7c03b55da75da46865ffd603235fd9a2d28685c27b1c4f6efc6859d6d) (0xccc0f1d5dfb08b58e833bf830cbd6bd9b09a85e73106cb7e4983cfd6c529c10180f256f66636488c9f84d62c3a2984b, 0x6c9934b29636eccc8e2f84fbc5c1dd04fe1f8fda071a39cc0a48632a1afae58dce99349fdd78572e25b3dd067e0447c) (0x16d82cc991e389bee15fd10909c6ba02a84d8ebef794ef1533fee5288503b175e5f9bd11e379e2d74fca8e92bc80fc9d, 0x456b207fabc07fdefb577d132b247e3a0631640440ec0e40ce0a6d916517f651b4240c464dcf7b5993c4648024ec5a2) (0x10b7bfbce03e069e24162c9c4a0817208ef52393704ed8999c6acc7bd5d7d68fad5215af07b51bc529c7f3616254ded6, 0x173128589f1c07834ed2bd0b8914065e5a6642415375ca92a8f8bb3d1ed01bb3b3c0e6f470ddbfa21cc0736897698f2d) (0x14b41921e221d9d87e3b5dea3bdc591d901b9037c296939e2f8e9d2620e3c7668ec4488fd95a767fef4bfdaa78564d50, 0x43e509c1f051087ae929b6ce943f78d6f8a415860bca23ecdc854b0651b5a1c9135d78b5dbd46d645d5e462fc104d0b) (0x135281a83b03710d50889a1d489508a8f3a06b630caabcea5e1a9499f9bc91280c1ad04ab6e23411a2bc6c9c62500656, 0x1c540afd75061a66b2aee04e428a09c47e0a52a315ab2bc07e8ecde79ecf5e63bc485fbb690c1b2aec5a7e90b900d03) (0xcd56594aca63d88793f033d7f1feba66085767de6bc1a4a581b376afc5616919ad9b7abaa25885a710d00d063f0c26d, 0x33e699a6ec672997eb03f6ac680669c079105b3b4c9e2fb7e532948a1ac5e1a03cdc39d779a829e3fbfa51ed856b2de) (0x173c0df20b846c37ad5c12d33d28fc97975e8e366d16f65302d6d867aceb33728b7d746a813c7ceb4b28d43f49cca56a, 0xc546c9577e79d5ec22a724b01e939fdd149e7bad3bb6081b1fb124d3863444ac597f91b86c3294aea9546e0a15a51ba) (0x15f08946fc03472586eea3ac285b76e7b958edee620609ed0330018b91cb0e42dae12db92e05d6e93e4e396ac8a1fecc, 0x178dddc05be1886d42e4f710a4214afe408f3883278015806dc002f2bd7268d5ff0f7e0e6f9ccc3ef74d01d91f393666) (0xb9667b755fbd1dafd6733e0f9eaab09173096c276db3d27d1047e624438e612c65ad480d4c23cf2f4c78d9f7d5b45e1, 0x18566bd06acd61c0a8952ca1636e063bf4edea2fadc97f172026aa61dfcb47a19702d187437b74c7a260e4b6fd25e30c) = true. Proof. vm_compute. reflexivity. Qed.
