(** * EdSpec.v — edwards25519 as RFC 8032 / RFC 7748 describe it, independent of the Go code *)
From Coq Require Import ZArith Znumtheory Lia Field List.
Import ListNotations.
From Verif Require Import PrimeTheory Prime25519 FieldZ EdCurve.
Open Scope Z_scope.

(** the prime, RFC 8032 table 1 *)
Definition q : Z := 57896044618658097711785492504343953926634992332820282019728792003956564819949.
Lemma q_is : q = 2 ^ 255 - 19. Proof. reflexivity. Qed.
Definition K := Fq q.
Definition k (z : Z) : K := ofZ q z.
(** -x^2 + y^2 = 1 + d x^2 y^2 with d = -121665/121666 *)
Definition a : K := k (-1).
Definition d : K := qdiv (k (-121665)) (k 121666).
Definition Pt : Type := (K * K)%type.
Definition on (P : Pt) : Prop := on_curve K (k 1) qadd qmul a d P.
Definition O : Pt := pzero K (k 0) (k 1).
Definition plus (P Q : Pt) : Pt := padd K (k 1) qadd qmul qsub qdiv a d P Q.
Definition opp (P : Pt) : Pt := popp K qopp P.
(** the multiple [n]P, n a natural number *)
Definition times (n : nat) (P : Pt) : Pt := smul K (k 0) (k 1) qadd qmul qsub qdiv a d n P.
Definition timesZ (n : Z) (P : Pt) : Pt := times (Z.to_nat n) P.
(** the base point: y = 4/5, x even *)
Definition Bx : Z := 15112221349535400772501151409588531511454012693041857206046113283949847762202.
Definition B : Pt := (k Bx, qdiv (k 4) (k 5)).
(** the order of the base point *)
Definition L : Z := 2 ^ 252 + 27742317777372353535851937790883648493.

Lemma q_prime : prime q. Proof. exact prime_q25519. Qed.
Definition FT := Fq_field q q_prime.
Lemma two_nz : qadd (k 1) (k 1) <> k 0. Proof. intros E. apply (f_equal fval) in E. vm_compute in E. discriminate. Qed.
Lemma a_nz : a <> k 0. Proof. intros E. apply (f_equal fval) in E. vm_compute in E. discriminate. Qed.
(** a square root of -1 *)
Definition im : K := k 19681161376707505956807079304988542015446066515923890162744021073123829784752.
Lemma im_square : qmul im im = a. Proof. apply Fq_ext. vm_compute. reflexivity. Qed.
Definition dval : Z := 37095705934669439343138083508754565189542113879843219016388785533085940283555.
Lemma d_val : d = k dval.
Proof. apply qdiv_check; [exact q_prime | intros E; apply (f_equal fval) in E; vm_compute in E; discriminate |]. apply Fq_ext. vm_compute. reflexivity. Qed.
(** quotient hints for the Euler test of 121665 * 121666 *)
Definition d_hints : list Z := [0x0; 0x0; 0xdb4efbba64c23eaa1fe4cedf47d4c7f5ceb01293b0790896fb5cdbf31e70415; 0x702da29a6ec6a0514617b3d7c4590df5531ce065ae461dbb50ee0fbb57d6e3eb4eda39f; 0x156e74d3ddd38f8226238c96fc8713e8d8e82c9d9ccbf019367b05b478e8027ca61e6f430; 0x10f2d2821e1d94b96bf6964f522fad973ad5b0ef9c1e931500e6957080e8b716a002229cb; 0xf195366fedadda1fc2c0bb9d6475ff9db5c8c016d2f11a5dd2aacda0140e5229ebd3f919; 0xf3c0518057f9b4522fc96a11aa771ab446c6d85586e034ba9b28e9fdcec6d71abc5fd9; 0xc598f1bd5272eb699e0a7a966adbed473981ce3aa55b6272e010508dc4eb9908537168d0; 0x2113da01dddddb1f297f166d26ecf8940705906aff8ae91cbff25f4945c4e23082cc1b2; 0x1337b51553a59d1a00fa0d852eee38b95d6a6bd7e1201101debcfc3ea194739fb826f596b; 0x181f52e5badd187986116e0a5e565c2f64b44fe624984ef6403229dbd36a67ec8ee1836; 0x2d827dbcb478c66f5db65e1b0351fd9285782399c6dd935fc932f1df83c5dc4a1a7db8da; 0x350b28529cf64cf6b65344a9546966ed8bf98a1a9f954e449174ad9fe296b705b4ca39c9; 0x2055d1646a5229942db8e2dc27d54655e1b363325dd53d7a4cb908e86187c1b3bedbf4cd; 0x18b05f4c7ea460f53162569508bf644a1d202d93000230f19aba8704764887cce017d3a04; 0xe00f70a1a5f6caa43eac61a8b880820437638c74d13dc9b6883d60438310d1688cfc55e; 0x3785328bfa3cb8f60c1773e26321299a9b8d38f61ec18362fd7afaae58187629d7b7a451; 0x10a16d07c9c5de9f6c128067979095362623b3b7dd01fa09b895a2b691e45a119b07ad6; 0x4e1b9474a0342a83e7697fd20decbf67f62f3e5d550cd93131d9441b8f3774607e44a2f4; 0x58a71ebf65ffda7bdbc7b4bc52ed614d0ee195af5075ff8c031bbb16111dc83af29f672d; 0xa2cc9fac099d99fbd281eb8dbf79bed1baf0d20fd96eb3194d008a5d7d74a1fbf5af4045; 0x4af1bd552895d1ca12023acb1b6919785a8b82aa33bd14958f50a3c1f1253fd7ed381546; 0x80810b94cee604d07a4a19dcca783d000eafc8bb1f943a3e82cbaceea65d4545aa368b69; 0x9eea2ee91da69fd41bbf52f4ea5ce1347572af563faa3041ecde4a72e9f753a22a8475d0; 0x165e030149b0edc3754eed27acf697bc10d70aea33f8362d45e8baec8ac6438dc4b03dd7c; 0x9bf8c6cf01d76510902acc1d9724ce1e52c20de77e67cd935e8ffba22b7d668e9dcc3f1d; 0xc7b4e5e22a2e41bae6497740dfc8c4c34b3db7401a588d2bbccffd42b0855a20892da5a; 0xe71c05b2d2bf04c1e76687ce040be5d2eb1723f1efcf43f0965cdf4f727b4f4b1ce564b; 0xa8155d2eb34201ed3da49dcd495efe0e2734356be6ca737e96bd447994eed745638d0d9a; 0x76878ec0ea9e28f4c9ad3fb44ecd26a56e515569535b4b4be30be17f1a971715720820dd; 0x1b4f66e2163a48053eaea3f0ea12e973e968bd3b378fb5ce07739cc7893b8c8048882eb; 0x322992cefffd216ef7e79163adcfc265439441e052ff7a2e945c52f8cde2502bf21fa865; 0x12a9b2e78c164dd44b18b84cf20c75b1b69f253de546f6427c2a615d8f138ecf1497c668b; 0x2dec780e2c4fcb02e2b1577a478b69e74c38e43b22ced8683f11df979294c3ceba91cb85; 0xc9702d36ac5b672a125026831e51b30c709fb421039d74a6ef9961e5bfcbad9349eb2e99; 0x1011f160ffbcb248f0de704c0efd02667a4b2e2784d42984c849638ad4cc34d22ae45a17b; 0x2b4a401bc9ebde2ca8f14cf40a9e201d5ea440627ec35f2ee80629e8cce36915de17a8c9; 0x45cc6095c3852caf1065a605797d2b67bafce759bdb95e9a6c6e4124d3f0188d1da3c4e9; 0x466b10ebffdee4a25a43d6a92f3e31d91738d0fd88e74432fe9c5aee7220ee6c57170894; 0x36eef089fd06092f59d27130170aff0a4c2e3f208ebc8b228dc1e469b5ae8baac2a9043e; 0x12c20f73e89c21830e6275459824333a485b5dfe6eb97a4c5aa1f0ff016ab31cf5fbfff21; 0x5fbb2c36dc416547bdc3576ebfbd13ee1baef5f1d4f92eda2fa436fd36ccc3193e622833; 0x1b2f86071b0653eb455118beed187e6b42dc3a0e6f75d557e73277537d4bed8d17f16f5; 0x255457f32bf08377bfcde01d3157645fd0924c95d9294e63f551ab2009d3ccf2ad4e0196; 0x53ac97a3a5c279b9cdf551775b7d482b29cdae963abd969ba3406759f56728490239dd38; 0xaf6a7186e70779c9b7668e37e8049144b6d267d87f3705b06f60214f254e54ef99c69717; 0x8fb90a625cf4677fbaf7d033391d0653b542f4151201c15f23c48b63bb72f5e7bcfd2ce; 0x126e8cd7f07fd5a9beb04944057eebde76aeb2805b57264a23191da64ccac811abe954fbd; 0x171849b6932e176648b0c7467566ec1f45a59d031f72de133b93664fe105dc0a5d2817d0; 0x1190e2db3d1907f3fc6e4a0f7b6f75f12ab806c3d67d1fae07e3cf4fc5e50b9631e5f368; 0xc7fff4cf6c89483a12a39332e9d5794466f93a9cc779e16f4615b7bcea361e64153871b6; 0x118622d64b346f899a49527714d766804a3cfd21afb2f4262630aae72d3aa5ac442ca12cd; 0x4225544a8e67b49f4759365c05c305b162f2ecaf6382f81f5af66b80f4e32b378221041; 0x774382944e27795e0118590a67028816fbc7461c08123d9b96ee7a0624950fc484c8c60; 0x9fda774a6e06cc5662249b8662093a25f47c1ef160f221f0b507d859f5e1930283d8351d; 0x20eff81696b9e9b50ae787090887cb79dd7f4ee71f0fcce91e6f69006b9d21f0da194802; 0x30192e8af2136f35f9ae8555eddde6cfe2df6ca56293366878564a1580acd006df90a13; 0x114624ded3c2c593abe2040382d0fb2148614937fd19520d5503a89f2b18ebaf0f9d50a1; 0x196401c0157aa60ab8c135242f5ad263cbca39558563f418ceb05746bb89125a03576089; 0x16b86b83705d0976343bc8130d33d2169981f783dce2e5b65b7d8b59daa08d5c02b86689d; 0x61affec7239e469e5ad1b9ba7ea263f5e9ba1f886188f1c53e4f3a030b5c99ff1e15704c; 0x1a9f1608663ebadb1358394885432720d82f5822cd55985f7b4bb9c759d339de43013d5a; 0x22a933d9923a8429543ede07cec297f55413da4afacf78f8da767997f9ff18652476cbb0; 0x196521a59a599e0fe151a2a1cf00e1a833ac6a45ff82321de309144dd4c5624e0466e8d71; 0x5d03aedba8505f0df864cc514f04d466a570017fd8663da0c690a3ea27d1ede87c4dbc9; 0x1499b2084c004eb6d60e8f58336d25543efe33b88984bf23d6aef2c02df548dafcbe4c57; 0x7c2878296c5e11ff9372fe38ea38522d4acb022b76f472b944f43ce9ab77fac25be63039; 0x9767e4c8e38e0302718044255699e57f2ca75ad2cd8f2a6fb461681d032a475f0226ac83; 0x15110b6ab2d429508d80e03451f4380bb4a85e476877d1b58968614c19613b3b2923011d3; 0x7b67bf785a5f654f4b36fad642a4199ae89103959891cab1c7786ab4b5185868feeb925c; 0x10897d77f323d5f9c1c4b1e48e5208c91469c854dfe4bce1e99d47dd55d87e816229effe7; 0x3003d861f2f6ff23cbf8240bc80d8551a3b763579c34262fe8e5bb6a1ccfbf589c0d82af; 0x16057dd2890a1491894682ec01c6c31f589dfa8725db4710cf4bc5c900f683933765183f1; 0x8756085d499a3add98b42ace872831833b09cad916a33f7ff176a60a3e0fe6fb3f423ba4; 0x5fdf5e8fdd39f37613536d65ca3c792fd4dfda8049a9f30e63873a4c07389c0d75d4b654; 0x179536db38a3518ece052e07aa5f1da346c7d4489cdf78cf485d61abf7b671f5b9274395e; 0x3a56a0d395a79cfa3f550a90fb90d599a847597a10dca0142e660c09eebf078147e67294; 0xdd96d2882213d085b1182a0932c86e0bda3ae35797ae7ca5fcc1f0bf22dab94359dfa56e; 0x94972cb3adfc743c32c300abd8a1cee7ee9d0be32d8bbb3f8e08ce95fd5a84919f831de4; 0x11ed5a59db952cf523b0907a8ad714568d76a0b873a34d4cc2e53ca83c7679adcb31f7ed6; 0x2fef82c84078cda9d4773717b5208b7eef05db12a943f07f4070b6bce185ca881de8cd86; 0xc4ef986bd64d02a4a2396817699e21cbb0981505c70837b387bfdacd690c88dae62c4fd; 0x190b3b7b0d1653b2f336f7eed13f2a3da321a6a658c713750a8e2d7b201b72306852f418e; 0xa1f6d3689361c3e29412965b4a4072c9221b2ac3342d90fd05373c925b162a2471167545; 0x11a45dfad201834e8b7aa69d50569f81de32fca48d8b65f7ec106f30fbd1d4bbe09a13ed9; 0x13aeaa42bfde6c150eed470f9038341f69d498e754b0463e4d10c193112d29a47aa404413; 0x37232c0015ffd2c9d7f54cfe5db7486985c8ff4c62dc234e97baa2b4bc19150d4f10046e; 0x4f6795121d29959d4572bb80fd62967e5ba43be2d4b0996f378d52243fcfb8a57bf79139; 0x1a0cdf627cd1ece812ac5694564b16eb337eddf20e62c782ea218fe4ad31bbc3b7cb781fa; 0x2624fcba94d04bde5aef4754f6a4b6cb3174d338c3055ed358a2bcd1b7a981fa63a7f3f0; 0x51ec23f45b3b52216bd5f4a1863da1e3c3ec3a0702960bbfbf47d1d5ed5e20fac3e31a68; 0x1a49dd2d0f2667cf5840159488f0720513dde359d3bce7fcd4d808717f74d907df7d4; 0xed28711db93044571558414f00a43e0ae77eb37e8865598db55202c08958a2ea5e400bde; 0xb5f365d6e712e14d04567d4dc5987d29ffe8ec22cdd2777a852de6df2bcd80f213bbc737; 0x17d2b6c71ff532890e430843d480d3914d5c61862d8111618221eb9f1713d89854efc3ee; 0x155e492187fc4fe63e878473bed3e0c627249a7ef29744f41d635a0a750fc5260bcb27b35; 0x90d0e441a6a67f7891746c6c1c9b82d9b597fb7bb86a2cd1bfbefcb11705bbc66f3344c4; 0xf87876caee049dd2b3bb91e13c8b528227b44f9934e4832b738da8acf051e3e09c96a907; 0x78634fe57320ea0a707ede093ad925cc2d8a866f57d38057620c437930008ae87181c8; 0xdeab5e1354f9b39ef0dcab4751d4d6aafc653328b0fdd091b9d4f39007ec94806a1199d1; 0x9c7d8bab0440d6bbd4adb380c2e8abc0d6de9a5ef99696d02e30792bbd402801969e415f; 0x2de1809220edc3d859c42c4e1c6249fdbcdac791cdf0ab6f7edc68ea2b61075791190e; 0x1f1c8402875bc8a4f431ff1ae729da8f61ea6c58141155a68a867fefd1aca7b72b2af16; 0x759c15b61d784e9843173fd831b50c7cbe01fbff11df91315fdfa6fc994ae8b6441d9011; 0x29b71ddfb0e3643f749aa7d7537a6d719d4d0d236c6cbe1f4e7178df6f6f9e04f783df89; 0x107b96003f128b9128220affde67efceebd9aad42db8a737c985abc9f98cf54cfeea944ed; 0x414f0f1eb5a991216410d8992f3e5ed7cc3f2b9d79d5f3d929ae08bdd0cce5c7a9f3960e; 0xd61065491fb583affcbb7000e101dbe6e4f2c0c7c916e3ed9c514fd72b9c95ab15bfc4; 0x1ed16c1eaa1b6717b78a7d14a986bbfeee50954f8e861b4bbe1f4c1ee5b060efb6ddbf35; 0x335c587a9f458cfe5a4d4299bc7d1636fc7b0bbfc727fabeef46df910dca452178701553; 0xe386e1a1f8f034d791feb67dae6a62a13002c970119f6ad128b69cba93e3b8ba24248e8; 0x12b7edfe3c51defc3710278b2876198f69506048da9172d1f044f10b1e9c554f87d0e5ec3; 0xda354af01451f6c6552777c63d455d725c9468bc491f1a2e40b61d0dde715f7df09ac17; 0x2086a8d65af5b85a4ac286d0ac9df277e023956ee7c6eafb07e918646086d976b857f7ac; 0xaab9dbe78a9ab79800ab5e068493564a88d28acea28a17abd1974e5e8647b87f697b10c; 0xae7cf5670884f0711adc0da80c2e1dbb06cc740d9b01cf32ccfcef62c2fa37745062edb2; 0x1310ee89b4fa84e3dbb85d53027d1ce2ff2329e470adfba2f4f0e73f1ca358028e8eef918; 0xe4239f1cf8c80bec47610a43e72aab4c61a1e45924107d5f98ea50b784e77b03e2e182b; 0x2f0b692512ac2c351f3eab93ce5044ee369b24a4d610530570239d25b183a4c0cd810946; 0xea97b59d279302131d93ddf385560303c5e461221fb7c7d86a2ef4dc838204621fff104; 0x1028205f65da0a8d48846414cb972afdc48cb81be6813650f8d39536503b9e63544e2f26; 0xbb54760e31768cccc9297d8cd87aacd47db316be8a3edfc8b73ec7a0543b8e06fa4b353f; 0x165932be0f425714540644df8797ccc5448177468fea0ef99c5ae7629760e8ffa8ca196c2; 0x9f2a67a28a833e7e7c37921c50c1dac6e14c76fde4b6bd0aefccf726007a699c0d3817eb; 0x1249148edeb1078453d465b9c333957df7955833d958d3f09d9a808561d794616b46f4256; 0x36d037d39e0427906ffee746120c8cda3f2c55490a7a61d623a1ab1403c8ba2ae46a450; 0x79f0ed72aa0c647232dda3529511ca3e77c6e9b61a213e61e0f8ed3b16f03f913cb72d40; 0xed34a308393edc84c0a5c1f4958cf7cbc9e081ac17e03c5a0289ede3ace18d0a17cfa8e7; 0x1a013aeb495dad0d15645652e0b0ac22d1a69e326aef10d15fb82e703a380dc5ab6e373b; 0x3fd1c42ca2e4e8ebb0ce1673af8dcc665f33314342796620fec1912a7ebbf102f14829ef; 0xff4ceab470517646db462c4dc42b9a932b5eb4bf23d8fac65cd1b84fbe59bbe8806f04b3; 0xb822a1f943e5043e3d918e28cb0d83acb461a5fee7330a93379fe534d2486027f73bfce2; 0x226a1e6509526588ec076f204bf20e153181872c39a56ad6328ce0bcb48b070b725644ad; 0x159432e730422eeaf2d639fc2f5111712b2955230610ad307efee2020d05c51418fdd3b08; 0x13925bf416cdf7ebe5cd51041478bbc89c5896ca8519319b5d15846f4253670090781758b; 0x58b3e01f982991c39314c4b44ba3fabc794ebf45278145249d88973e7c72602cfdc69a3e; 0x131d59e02478b340f1bcd6e3bde6791dae2a9c8c28b9339097858539dff18784d78ca65bd; 0x5203e0ffdd7c7e4ccfb742fa1e3f0b93bc2720281d46dd0ac0efec329f234673f4c72bb2; 0x90c52b3768e3807cac5580c1d0fd1107e62a7744717b03072c838adf9cad07e6a1c815db; 0x109889c67a3bf03c4dd4a78d71d4ad12409183e91e1f221521d4f7eec2a61f6b8a7b3d527; 0x35c781ae2e1f0415c28f05c28650a631fa665db2e7de14a864e055d0c1ccd9b2176839bc; 0x8b28aad639ad0dc7d3d627e5ab1c86082530d75af704c07e7bc719e1b205fd9746d940eb; 0x1364a044e1de28a3893ef36c95ba7f15c824f4fc7fa347c13c002bd7f00f14d3c2e1b155; 0x8171e650e72d02db8c0fd00f43ba05644a65ed50890f22f81640739025a7d56b85024a34; 0x9f4bd0dc7158de5928a9403f87e635b93617c0f6bc2a44bf02f96d6743a59fbe0296568d; 0x1abc3ba3e5fcab784732b2e548fcd866c0ec92da4e0b6803d3490847f7fe171f04a712e36; 0x18e31134446437c19284ec9637d2d01a0d2b656025aa91433177d39db8ff877a828ebc0; 0x9fb8b52d8c94110b5de3e94d433b7e8a7fa5a100e7fc166eefa33240928fa71b10e41164; 0x8156697bbff3e6aeb388615a16d42ee86ded158e41ad824e9fa543d16f7cc3237aea5be4; 0x30f5b0867669c9194f723a666214ea71dac9ccf4667e98bd93f777bd38c25abafb194026; 0xa1646c94d0c4c1e71f47cfece295c629135071532f2894dad655cedf3a3247908ca79b1; 0x731c49c5202c9bd4a9c924264b25f80c01157129738e822be2ad01df408d25c582432b44; 0x164ec205bca99d83d896a49b723a397165cdd6140120314cc1480defc40b88228bdffebe5; 0x14a26d61a844b73fa700774125e68fe16267a2970eba643a685c0ab9b0658a8d772e9a4b3; 0x11c7021567c3655895cbd863eb68ee92f0e7eecf223bb8eed6c576b8d4a1ed6119511f499; 0x65f75c1819eeddc5268c12ac61f82688e59539b5bf6028d729def61b6cf98fb7dfc9d684; 0x1832438bc210920c065a851377a5797a9ec92b1d6b9e7423e94cafc07dea647b8bf720e0c; 0x3cd50b5512986175b229197121dec610772fbf1c24953b5696f3dadb4b1affb59c2fb5ce; 0x1093cb393e25261fcf7ad27c275dc520c9312cae01211f81f5fab95b134623ea7514f5f92; 0xb9c0aedb219ff7ece7551c7430b3312c79847e8ad24890dc0e09c0a983d080b9ed464fe5; 0xb6f22f30769eedc9301b5bfcb0000598c11b1ea799010f3095c534962f4af90b9fff4387; 0x19872535dfad4abf5018f63caafc822655219dd0021b829b6facd00afb32291b8d4a791d; 0x132dae0df39b740d6232a378ceabf58de28fcd1c4e5e98d464cc35977a3c926b947da3e9; 0x23867d1d9f005bc45f856b5c33b389e3e50619b39c084a371f68c28655ce4d29ce51b876; 0x20c94d864102897093f476eddd9fc6f41effa9d1260905e09912ecf09587f00fe48f8110; 0x9c23804d79710f1902f08d3589fed34e52780f52845dbad4a3aa5c9fca5e079729d34cfa; 0xa834b0d649f22bba5e9955caba4c412f7946888f9ff5e76948282ca11a8fe4f14edf5e3e; 0x480e5e8beceaeca0c40e2ad775e96f6f8e3aa202b11a47129f5e1bc2f55a2637b54dd448; 0x13a6b5f5e6a4d80200c92ebd1e691d72bc19fba2c4abce11e0ed6e2b540cd11962978d568; 0x504f7ceaa825d389d0e3b732181e526db699231c8bd9ccdd96ba1cc645752b535efbd4f5; 0x158c7c1e7fe01c911eacec5ffdf92090ed79d69cde90c486e0a5a841545d5d69430c1b08e; 0x10c6a3fd240da669da792043e93bcfb72446223ecbe842a5e3246c519fe9c0127f35a552f; 0x1aa40165044642e9fe69b8dd0aaa860e2437931ffe30d4340a2c6f6b8406fd17432470dea; 0x1014011396d57e7e235199afe0003caaf6c5bce5e6318e182c1de570633804e54ec004de0; 0x4cf51b8f58298d649ee307207a80f4e9353c1c73625116c578a24239977b1c3528c5ce84; 0x93ab3a1c50dce8d2d93ea6ea1ecc098720064c80698abcf855aefcd86cba54c749165fbe; 0xbb34cdaa9fe67f1112dbb8e81202cf479cd26b485c583010a02193fe382fcea347a1ca87; 0x191716ac66d9471f987cd19c9c6ffe6c5025719a4c54a6190e03746b14472797b5411d84; 0xfeac1bd0e9e3ae8146202c1b824ae0f66ca29f7cffd5f083ddb1ff81b4b81c1603f93683; 0x12e0a712a335b6c77e6af93f482529433ca1e701ee434c545cd7b4db0b74b399378bc105f; 0x11bc6d6242d942a704304139cf6a1b5a9e50f3f4b861bf7c2c590f44216f382de9822a6a; 0x8f5ae41b2b14403d5fdf265954058091d347a3e8e7681b54756381be78a42d0c91a8a5b; 0x6fb3dc6b05f6667c48da74906f0f7ce67b2c89de25d7bbbec16972bd6415916330f25; 0x9e337164a1cc1606df0644eb7c886bdd1954b1a0b911beb6322e2cc15e6dd08e76cf5e3c; 0x180d19217e18b99dff111f3ba74b64238f8ce28dec2c7a3477bc392623ae5b4518c914c54; 0x5ba657193250df963a0ae9814a0247060802e1052df9b1ae64e5e79af913e6bd612866db; 0x3334dffab6a560112497541825904e2c8a72198b9422f39f59dc10d8676b68f529296a7a; 0x2ad145ac2f936dd6870ccfa3c5d82790af6ed81a63d9974632751e3569f33340b02d157e; 0x1744e47a1dbf0a8f55ff4ca17d237d66e84ffc7f26e083898d6dc15e36fca876c6d55cf01; 0x15c0e9a2040bf2dd4d4d3a9bf6b07fef9d6a0f14e561670541a6eb47918705e5dfa0a6e5f; 0xf0c27eb00998e4d0481b7487007ec1f60ec50570527871476f8f35ae017d63a9f2f92c6d; 0x2031bdef6d118623367edcdc6b63b779ab28d3869ee3656357f862b971d8d7cc17cc21e; 0x86466e0f4dc71749bd1826b58a2c0dbf097cdacab91da8c2721c58dd7b915fc41ab80073; 0x78723e3df1bf8c8e97f51aa16776256ffcf7659513fb6e7825ea1ea5c9b106644425da9d; 0x8c1532b4529ab909512512119ddca4527e8509c0db81a7bfab814f7cbb493dff55b03b8d; 0x498a500cbea2aeca57a970821558ba215bbfa51329d5ec45edb8e0b96b6683ce20f92e8c; 0xb53efa4ec47b0696120f5a2dca2665083a04bb9c137b1639df0066dbf90865f4df64072; 0x6f6d8d3f03d5cca3741cc4ab1d395d8822d1394e9f432f3a14623771b7cad92acc89fd24; 0xeaa6d6e4315a312c2a50724af701b822d1615b84d4dca8644375c15c8511aa8ba27885; 0x549218b469d080081d8fc1783aa0fab2ba06a641da0c6369857b8b6ba5ce082743d18277; 0x1b71a6c5f72538ffffae4413a7a51d84adde3f4958810b0e90eb7bea5560df70c044389c9; 0x107a7051a8d5da4ba51c994ebd984bd07a763b7bf5eb48e80a81179f0bffc1e7592b591; 0xe028b26e2a1a56adc6e22fc9f716e8c052835b5980177a205ef96fda0eea16d663bfc023; 0xcc091e0e285760538a612907d48694709a63d34444ff5518e91b8b10cfe314b3fd084ba; 0x2ab23b28120ac1359dab4bc6e4e487ef004a31d6cf5f86cbe16e038da6bd81a3f7f82f8; 0x28c496eedee7b04c56ca4dfeb22497b7dc7ebbfba1016d097d19d1ee0130d49b0244e5c; 0x3d4c90e60973454235830899c5c7d78643237334415f1a0ff65f2546179bd0a5461ff849; 0xfd4df8f5877a7f2fe16a2303b44fb126f53f14319464e1e42da003a84c4d17556db14d98; 0xa9d38c77d18e0d67e09f565cf1009f3ac5726943fa96f7766ff6ac02df78d55528b190df; 0x6f9e1f2fdda0fd222682581618a9332bd5ab4eaaff307569f0d42e30645d7c9747b170e; 0x1ce3c14ad301e9a466161a001dd981010f3d9caa0380e4887c639ed6ec8c19e12f1470a6; 0x717c3c839a83297d5b7701386143eb9ed7dde3934baf69696c8400a799ba854a611e42b6; 0x911ae381166fe98183abb537c507a49733c9dd45c4636855ffe76db5e8f1ae612e8a523b; 0x1bbdbb8d052cdc35e108c4977e35714b123a825dc1510beea0415f35d57faf00bada0195; 0x1b8957d5a80d3e11382903d8be6f8c4a6e4cee58fd03de32630b4cb800b4b17d7408a2776; 0x1117af7b86107481a637a30b3130f6a2fd3e6eb7115de2c1d4c2c793e4cf602ccb8b211ef; 0x35c290e80ff9d8e70e92a97fcf01182584dfcb12937e67fe8047d46be3fe35dd25fbc5; 0x10f24334ae7a839cfccffe7a2e6a149bc06c222b186eafebefe51bc48ac58752916139de7; 0x36d6b32c30a84b37c832395d3146810c4487c0849b7afc3e42a5982b79608fcd8e72a76b; 0xca3b2db203710dcaa316296d2724203920f93f00e1a2f979aa6f35df98912f7208e6fe34; 0x713a7d29c808e6bed335af752af755e98874d5e8e841848497506778108aa655bd98a0; 0x72459d84e75f5357a05df2e468d9bc2a974bfcd4407dc129dbccda118abc79579b8d70a0; 0x10c79c0986014f5d2068c95820d8eba049fe43ef8a83e38ae419946eaf0aa474b51f70390; 0x989159b490eb7b16fe8b40cb7341bffe193e02e9d49a8332ad3ee7b405abe420ccf77aca; 0x72c36c7a05838f93f5a7c1c1a44347fd5936f9143270cd6391b5b43f7efc2d91cb078b3c; 0x11f2f4c1bf823fc590d103175573697c11fa5448e03bbd21edf9db1a29710bd3568236053; 0x84672af3b72900e043a5de19779f844d47fd426f534032399f98ea2098403982c13d1e65; 0x49b80812242602699c3c01b5bff59648b5e6c19885fc22441d00b9d308b8a49e6181105d; 0x120ce8a9ecdf0aec4a9c3fc87510486cfb7da67e1da102d9526a96c358d4ca1b9d446f; 0x8661700067d0666b30587ad0d553b9f4bde3fa2969825707153ed8bd90f6a6c3c0e192b8; 0xb4b3992307f8bc2b8b694776a954a7aa95f2f2575abd5121797af66304eaeb314e82e208; 0x545057fa80ee5319b8194c13e976e56df8f3ecb96c9d68a14eebb3dafb0471989aadb768; 0xf1198257a6888e891eb89a617b0f3966a02afeea7aaca70931daa3efb1774a2f5988fd7; 0x5d015a3ca7e27d60dee41b4a3eaf9ce6b613847fdc23b1f98755378feca681aa6e9434c5; 0xc93ca21dd0bdb8102320725e7bfde25d57fdde67e2a9de018bad639b33a05f46c41a1017; 0x1beef16c39716cf86561fff7a2da5892553ec3a09b1c0efee4745c825e2e3199de116f02; 0x183f3251e8876a8fcfd3affdaa2c9537112cfb6bfcf9c076d1b6498258317e5eda6b0ec25; 0x657a5cd9c1c1f7df60e3713fec9885994f121b323e9e23bb5c5a02db2e7fbc88aeb15225; 0xd73c105fd4a926fde47ac944acdd9aa0bdc6e7e4ada2da0267f93a7a9738f7754ceccdcc; 0xa6df89359745d48cef277ee672fd83950a1e7c23a3fee354b548fd1ad0cedd44077523f; 0x12171f5680242981cc5e3102145b2b1be4ea45de2ad1e13290e798be5e99b05ac8258b9bd; 0x14a72d86f08e26d7fbad297666b037aeaf39db7660204450789e8afb388f159d47a0c5f5; 0x35dcbd66ff23803acd1ff396272c7c61a936abe9d806f7b6c58ff1c0c5d6e59249a2e5b6; 0x1ab24a0e8627aba5e9f3d0b05ec6e22477b108c12ecc77c4e3d141ee3e9484e298af8a4be; 0x5ba4a082e089ea9f71ff7200562abe2c916a8a119429abf494a4ae577c66cbe84771684; 0xf0de2a95360f2f48a1d6d0e3b2fddf0338b893d4bc132b1b04e1086befc31bc85c91b810; 0x148dcf185cff717ebabd53f40b47cb0d22df6088198d241294d1ab950efe1aa815b0cd20c; 0x1120a40f01e5f9b3a08645c33e9e4c8f101ca182de9e05b45b43876345295bafd6f989526; 0x59ac613c2464fc7b80b762f0687d340c5d7756fd3be0c74e4f2b58cdbae99de; 0xc5a3c36f04fffdf5fdd737999b186d183916cc980d68caf1a7df2f3968b8bf44dd13520; 0xa7ac09896a83eb0f1cc259e8993e73c48aba3d9fedd0d868f2ba72d266d4407566b3ef; 0x37c459e2571e721678413079897a5739c506bd131e94221d4015f840cdfc3171].
Lemma dd_nonsquare : forall x : K, qmul x x <> k (121665 * 121666).
Proof. apply (euler_nonsquare_h q _ d_hints); [exact q_prime | reflexivity | reflexivity | vm_compute; reflexivity]. Qed.
Lemma d_nonsquare : forall x : K, qmul x x <> d.
Proof.
  intros x E. apply (dd_nonsquare (qmul (qmul x im) (k 121666))).
  assert (RT := Fq_ring q).
  assert (R : qmul (qmul (qmul x im) (k 121666)) (qmul (qmul x im) (k 121666)) = qmul (qmul (qmul x x) (qmul im im)) (k (121666 * 121666))).
  { unfold k. rewrite <- (ofZ_mul q 121666 121666). generalize im (ofZ q 121666). intros i z. clear. lift x. lift i. lift z. rewrite !ofZ_mul. f_equal. ring. }
  rewrite R, E, im_square. rewrite d_val. unfold a, k. rewrite !ofZ_mul. apply Fq_ext. vm_compute. reflexivity.
Qed.
Definition By : Z := 46316835694926478169428394003475163141307993866256225615783033603165251855960.
Lemma By_val : qdiv (k 4) (k 5) = k By.
Proof. apply qdiv_check; [exact q_prime | intros E; apply (f_equal fval) in E; vm_compute in E; discriminate |]. apply Fq_ext. vm_compute. reflexivity. Qed.
Lemma B_on : on B. Proof. unfold on, on_curve, B. rewrite By_val, d_val. apply Fq_ext. vm_compute. reflexivity. Qed.
Lemma B_even : Z.even Bx = true. Proof. reflexivity. Qed.

(** the group laws *)
Lemma plus_comm : forall P Q, plus P Q = plus Q P.
Proof. exact (padd_comm _ _ _ _ _ _ _ _ _ FT a d). Qed.
Lemma plus_on : forall P Q, on P -> on Q -> on (plus P Q).
Proof. exact (padd_on _ _ _ _ _ _ _ _ _ FT (Fq_dec q) a im d im_square d_nonsquare two_nz). Qed.
Lemma plus_assoc : forall P Q R, on P -> on Q -> on R -> plus P (plus Q R) = plus (plus P Q) R.
Proof. exact (padd_assoc _ _ _ _ _ _ _ _ _ FT (Fq_dec q) a im d im_square d_nonsquare two_nz). Qed.
Local Notation HYP f := (f _ _ _ _ _ _ _ _ _ FT (Fq_dec q) a im d im_square d_nonsquare two_nz) (only parsing).
Lemma O_on : on O. Proof. exact (zero_on _ _ _ _ _ _ _ _ _ FT a d). Qed.
Lemma opp_on : forall P, on P -> on (opp P). Proof. exact (EdCurve.opp_on _ _ _ _ _ _ _ _ _ FT a d). Qed.
Lemma plus_O_l : forall P, plus O P = P. Proof. exact (padd_0_l _ _ _ _ _ _ _ _ _ FT a d). Qed.
Lemma plus_O_r : forall P, plus P O = P. Proof. intros. rewrite plus_comm. apply plus_O_l. Qed.
Lemma plus_opp : forall P, on P -> plus P (opp P) = O. Proof. exact (HYP padd_opp). Qed.
Lemma times_on : forall n P, on P -> on (times n P). Proof. exact (HYP smul_on). Qed.
Lemma times_add : forall m n P, on P -> times (m + n) P = plus (times m P) (times n P). Proof. exact (HYP smul_add). Qed.
Lemma times_mul : forall m n P, on P -> times (m * n) P = times m (times n P). Proof. exact (HYP smul_mul). Qed.
Lemma times_O : forall n, times n O = O. Proof. exact (smul_zero _ _ _ _ _ _ _ _ _ FT a d). Qed.
Lemma times_plus : forall n P Q, on P -> on Q -> times n (plus P Q) = plus (times n P) (times n Q). Proof. exact (HYP smul_padd). Qed.
Lemma opp_plus : forall P Q, on P -> on Q -> opp (plus P Q) = plus (opp P) (opp Q). Proof. exact (HYP popp_padd). Qed.
Lemma plus_cancel : forall P Q, on P -> on Q -> plus (opp P) Q = O -> Q = P. Proof. exact (HYP padd_cancel). Qed.
Lemma plus_swap : forall P Q R S, on P -> on Q -> on R -> on S -> plus (plus P Q) (plus R S) = plus (plus P R) (plus Q S). Proof. exact (HYP padd_swap). Qed.
Lemma opp_opp : forall P, opp (opp P) = P.
Proof. intros [x y]. unfold opp, popp. apply f_equal2; [| reflexivity]. lift x. rewrite !ofZ_opp. f_equal. lia. Qed.
Lemma opp_O : opp O = O. Proof. unfold opp, popp, O, pzero. apply f_equal2; [apply Fq_ext; vm_compute; reflexivity | reflexivity]. Qed.
Lemma times_1 : forall P, times 1 P = P. Proof. intros. apply plus_O_r. Qed.
Lemma times_opp : forall n P, on P -> times n (opp P) = opp (times n P).
Proof.
  induction n as [| n IH]; intros P H; [symmetry; apply opp_O |]. change (times (S n) (opp P)) with (plus (opp P) (times n (opp P))).
  change (times (S n) P) with (plus P (times n P)). rewrite IH by exact H. symmetry. apply opp_plus; [exact H | apply times_on; exact H].
Qed.
