(** * Prime25519.v — 2^255 - 19 is prime (Pocklington certificates generated by tools/primecert.py, checked here) *)
From Coq Require Import ZArith Znumtheory List.
From Verif Require Import PrimeTheory.
Import ListNotations.
Open Scope Z_scope.
Lemma prime_991 : prime 991.
Proof. apply trial_ok. vm_compute. reflexivity. Qed.
Lemma prime_103 : prime 103.
Proof. apply trial_ok. vm_compute. reflexivity. Qed.
Lemma prime_c2 : prime 8574133.
Proof.
  apply (pocklington _ [(991, (2, [0x0; 0x0; 0x0; 0x0; 0x1f4; 0xde2da1; 0x71c64c; 0x39e123; 0x19f5; 0xfe620; 0x5949a2; 0x346827; 0x647a7; 0x35a2aa; 0x542d3; 0x24144; 0xc7a; 0xbce59; 0x330743; 0x3eb78; 0x69eaef; 0x454029; 0x82d4b3], [0x0; 0x0; 0x0; 0x0; 0x3e9; 0xb9ec11; 0x8b8039; 0x545f; 0xd12f; 0xbf95eb; 0xe48ce; 0x237; 0x4d7cb8]));
    (103, (2, [0x0; 0x0; 0x0; 0x0; 0x1f4; 0xde2da1; 0x71c64c; 0x39e123; 0x19f5; 0xfe620; 0x5949a2; 0x346827; 0x647a7; 0x35a2aa; 0x542d3; 0x24144; 0xc7a; 0xbce59; 0x330743; 0x3eb78; 0x69eaef; 0x454029; 0x82d4b3], [0x0; 0x0; 0x0; 0x0; 0x1f4eb; 0xd21254; 0x75deca; 0x89a7d; 0x58edbc; 0x5d794e; 0x336c7; 0x42ca7c; 0x930ff5; 0x808c; 0x4f3eb7; 0x8265e4]))]).
  - exact (Forall_cons _ prime_991 (Forall_cons _ prime_103 (Forall_nil _))).
  - vm_compute. reflexivity.
  - vm_compute. reflexivity.
Qed.
Lemma prime_127 : prime 127.
Proof. apply trial_ok. vm_compute. reflexivity. Qed.
Lemma prime_c4 : prime 1919519569386763.
Proof.
  apply (pocklington _ [(8574133, (2, [0x0; 0x0; 0x0; 0x0; 0x9; 0x2052167bb079a; 0xfaccef3d770b; 0x56636232de3c9; 0x690177c41a7c5; 0x57ec007cd6657; 0x411a267b18c5a; 0x393bc9fabaaa1; 0x3047f9874ff19; 0x5e1ca4aae1695; 0x16ccf3293409; 0x463ead5a78070; 0x69fa849d17c05; 0x2d926e8e3b252; 0x989b41af0b741; 0x94c597b162419; 0x5a4c9adc566da; 0x5a981035c5dd1; 0x1a1819a5c463c; 0x30407778414a; 0x14256e61a1a00; 0x30f8001cf5dda; 0x31231a3cc4253; 0x1c95a93c5881d; 0x4990a21eb6deb; 0x9f3c52134a7; 0x6c68dd5d2aa8; 0x418138e8c2f1f; 0x64da21ed56fbc; 0x46e8f0204d68a; 0x5e2c1b95655db; 0x33a11743de844; 0x60172825e20f9; 0x134397393c756; 0x7ddc455010ac5; 0x307237e0d8fef; 0x1c7dc9c8dea3c; 0x317a24c85e81d; 0x50f95e67e9ce7; 0x1641c84c736; 0x1e26fc4616973; 0x4d7bb648859f; 0x8517816a0387f; 0xbfe05d5278e8; 0x28a07b2ef46e8; 0x6d1cafa129d09], [0x0; 0x0; 0x0; 0x0; 0x4; 0x3450586284584; 0x41628a3768afa; 0xa5c3e707798c2; 0x1963cc5a251c8; 0x25e55607fc77f; 0x6743f2f64922e; 0x5ba84e4e1845; 0x28f43d6bc9557; 0x3b79e2a6bfdd5; 0x1928cc8673b8; 0x718c2e6325cfb; 0xeda0ed36c4e9; 0x1402412e64a0b; 0x8c2c0c46912e0; 0x4f9a01bd70e01; 0x37d5c607f3046; 0x4a544fc80345; 0x3502803f9c5e4; 0xcf71d99d3f16; 0x1db65a4fc08b6; 0xc3a47fef8493a; 0x3eec75caef7d]));
    (127, (2, [0x0; 0x0; 0x0; 0x0; 0x9; 0x2052167bb079a; 0xfaccef3d770b; 0x56636232de3c9; 0x690177c41a7c5; 0x57ec007cd6657; 0x411a267b18c5a; 0x393bc9fabaaa1; 0x3047f9874ff19; 0x5e1ca4aae1695; 0x16ccf3293409; 0x463ead5a78070; 0x69fa849d17c05; 0x2d926e8e3b252; 0x989b41af0b741; 0x94c597b162419; 0x5a4c9adc566da; 0x5a981035c5dd1; 0x1a1819a5c463c; 0x30407778414a; 0x14256e61a1a00; 0x30f8001cf5dda; 0x31231a3cc4253; 0x1c95a93c5881d; 0x4990a21eb6deb; 0x9f3c52134a7; 0x6c68dd5d2aa8; 0x418138e8c2f1f; 0x64da21ed56fbc; 0x46e8f0204d68a; 0x5e2c1b95655db; 0x33a11743de844; 0x60172825e20f9; 0x134397393c756; 0x7ddc455010ac5; 0x307237e0d8fef; 0x1c7dc9c8dea3c; 0x317a24c85e81d; 0x50f95e67e9ce7; 0x1641c84c736; 0x1e26fc4616973; 0x4d7bb648859f; 0x8517816a0387f; 0xbfe05d5278e8; 0x28a07b2ef46e8; 0x6d1cafa129d09], [0x0; 0x0; 0x0; 0x0; 0x9; 0x2052167bb079a; 0x1f599de7aee17; 0x84a119e9d77ad; 0x9ceef374800c7; 0xd4f0c7f1d6ca; 0x9630d05cc23e3; 0x33ae85025404c; 0x2d270fd07607; 0x3bf4f6989359e; 0x8b65ebb00e; 0x6284c70759402; 0x8fbddd5d71f8; 0x50e22a493e40; 0x3a876259c0b46; 0x9cbba1fb851c; 0x200d1ae911e22; 0x59b47aad30ccf; 0x2c832365b4baf; 0x740968aba26f7; 0x65a73f6d634; 0x2291e67cab16d; 0x1caef6deab964; 0x2723ac50a9795; 0x72eb1fd65ebe; 0x684e1c7049aa7; 0x19bedfd64fb5d; 0x1327459067db4; 0x152c269ed8bb3; 0xe5121d550448; 0x91d82d6b00387; 0x67580c9805988; 0x361d902f727; 0x5a0cdc397b54c; 0x5a76df308e1f; 0x54bcdfbaf2a0e; 0x66a1dc7a65bdb; 0x43c76828df0; 0x570010a0184a2]))]).
  - exact (Forall_cons _ prime_c2 (Forall_cons _ prime_127 (Forall_nil _))).
  - vm_compute. reflexivity.
  - vm_compute. reflexivity.
Qed.
Lemma prime_419 : prime 419.
Proof. apply trial_ok. vm_compute. reflexivity. Qed.
Lemma prime_97 : prime 97.
Proof. apply trial_ok. vm_compute. reflexivity. Qed.
Lemma prime_c7 : prime 569003.
Proof.
  apply (pocklington _ [(419, (2, [0x0; 0x0; 0x0; 0x0; 0x75f0; 0xf19a7; 0x33d08; 0xbdd8c; 0x5c896; 0x3dfbd; 0x4420a; 0xa99c5; 0x39423; 0x703d6; 0x43ec; 0xb3037; 0x3695a; 0xd9058; 0x8aea9], [0x0; 0x0; 0x0; 0x3; 0x414f1; 0x49298; 0x2a0a8; 0xc14a6; 0x8b432; 0x1a00c]));
    (97, (2, [0x0; 0x0; 0x0; 0x0; 0x75f0; 0xf19a7; 0x33d08; 0xbdd8c; 0x5c896; 0x3dfbd; 0x4420a; 0xa99c5; 0x39423; 0x703d6; 0x43ec; 0xb3037; 0x3695a; 0xd9058; 0x8aea9], [0x0; 0x0; 0x0; 0x7; 0x264eb; 0xb45d7; 0xae0f7; 0x4bd56; 0x3c24; 0x87; 0xacc41; 0x7]))]).
  - exact (Forall_cons _ prime_419 (Forall_cons _ prime_97 (Forall_nil _))).
  - vm_compute. reflexivity.
  - vm_compute. reflexivity.
Qed.
Lemma prime_c8 : prime 2773320623.
Proof.
  apply (pocklington _ [(569003, (2, [0x0; 0x0; 0x0; 0x0; 0x318; 0x8c1dfc74; 0x17fa90; 0x688f459a; 0x41106814; 0x20bfc4e4; 0x6583ab6a; 0x14209baa4; 0x4b5a23ee; 0x8cd0347b; 0xbad10a0d; 0x6cb42653; 0x3fe79c61; 0x6224201b; 0x52ef7072; 0x6ce3dd5b; 0x42f50822; 0x1b8516ec; 0xaa202005; 0x578ce13; 0x7b1ab27e; 0x9840e357; 0x5486c68e; 0x6f7dfdb1; 0x9a725a7; 0xcabe912f; 0x0], [0x0; 0x0; 0x0; 0x0; 0x63; 0x23077f1; 0x6d324295; 0x32853093; 0x7c518570; 0x3376b1c; 0x3831ace; 0x62eef51]))]).
  - exact (Forall_cons _ prime_c7 (Forall_nil _)).
  - vm_compute. reflexivity.
  - vm_compute. reflexivity.
Qed.
Lemma prime_c9 : prime 72106336199.
Proof.
  apply (pocklington _ [(2773320623, (2, [0x0; 0x0; 0x0; 0x0; 0x0; 0x79fce030; 0xe0c37236a; 0xa3f8f69ab; 0x1b3bdf3000; 0xd5574debd; 0x2f85db9fa; 0x106e83ea54; 0xb460082; 0xfa6911be; 0x1359e96; 0x7e92616a8; 0xcd3826b7; 0xcc5090af; 0x33f2e269c; 0xf6c57aac4; 0x811db486b; 0x5f04c8764; 0xb510af7d8; 0x632d0d93c; 0x15496bbbe5; 0x145605c1c; 0x7d3b74e55; 0x1db9029619; 0xba5a42af; 0x124a4a6118; 0x125423c98; 0x45fb05e8; 0xf3a97c63; 0x199e93c8; 0x1292f00f81; 0x0], [0x0; 0x0; 0x0; 0x0]))]).
  - exact (Forall_cons _ prime_c8 (Forall_nil _)).
  - vm_compute. reflexivity.
  - vm_compute. reflexivity.
Qed.
Lemma prime_c10 : prime 75445702479781427272750846543864801.
Proof.
  apply (pocklington _ [(1919519569386763, (2, [0x0; 0x0; 0x0; 0x0; 0x0; 0x1; 0x260e22dc1f841ff3c9c7e3d185e3; 0x13c8f04ce2a338c05dae4d16802c9; 0x591464bd8278decfb1f791faffa30; 0x19ade0a87c25a4eff450e4eb7053a0; 0x119118554dc032bd1b09aef20e94; 0x34b557ce4a7b680ed261d9c45d608; 0xe5a388454eed047da56681506f809; 0x2159da7c06d246d24d7013b31c7a5; 0x5f680f7c3c2e2e2894b66023a0883; 0x78746ef05307b6a8c123bac07e; 0x53daabdbc6a7de996aa2ea27e302d; 0x1af42a66f802c4ac58b38acb105b64; 0xe674949ee2f392931609e4e53c7a1; 0x15941f6f49a3a421cb7b0d11f03b8; 0xd367e61da6bd24d896784352eac0; 0x3f063911f35d72572d319e17d01de; 0x33847cbd19f62651ba74ec29591b; 0x9b7ea4ace11d444c05820d4c86cc; 0x1732d4b7ffd442e5a9f87c111249cb; 0x416aed8b83e7b65d4258b9bb1ff6; 0x53ddea703a2f96d8598078688137; 0x49a49dbcd7eb8bfc4fe41b0b2ef; 0x67f054352c7272e7cde3dd08a5a9; 0x1a9684d5ab7751341c3c64317433c1; 0x1ae0fbcb6d747e7c95e1c02d51a3f9; 0x56455853f159a58c7f31b299c6763; 0x96aa987d61ad86d2e774ba4ef6; 0x1b01ad066b6faff5899d83370558df; 0x13fe76b80b54ba7ba28c2e0fe5a55f; 0x4780112b5a93f8af6ca01976d2f39; 0xdef7a9205e2739d01965d630f3278; 0x8a1be6dc8e5a05a47fd796bcb948e; 0x5e5375c285d5b75d742e816854905; 0x84978fca2795c874f73420186bd11; 0x35e8e5f584c2c69f123050a02055e; 0xc4393a54a6b2197df7c80baba8de; 0x2da0158465d2d961549a39af92ed0; 0xd8d04eedf0acec908b922d228b35; 0xa9fba42514ff4d360c7c8eb18d3cc; 0x19b89ffc92b2946defd6913d969; 0x4ea1b704ff00ab39a6c8c67cc40c9; 0x174f311dce817c956252f95326; 0x1170370de0c87a81b93d60dc8beeec; 0x3f6a8be3f62a101580e54b74aeb8d; 0x1d5997cc96d603f6a5dffe2dca796; 0x947ab3e2bc6ce251f3bce4e508fed; 0x69c06c6cb57cb96dbce4d400f19fe; 0x127067331c1ea30971936f75a94f89; 0x731df9e7d2cf083b223eff9c9af5e; 0x6df622dbccc907e9ebea74069b4cc; 0x6575acfe7940a1add556e048c3c89; 0x54a1e56cdeee98825fd627858eed9; 0xd9eb372febf893ab7b968dcf11f8; 0x786e80986de7100157c7a246aa3dd; 0x91d3ff683d8fe6ef62ade31e24bc9; 0x14dcc41558eb17664a1b513dbb0eee; 0xb5600e0f19b32e08af0d67b4906fc; 0x2e4678e7a4af86952c22cc30c3239; 0x3ed5e77e63e7aaf7bfe840fb39d3e; 0x1f708cb350d253be4368d061efd36; 0x5270449572f705d9fa7c556020c83; 0xe0099d89432ab17d4b6d4171bdc5c; 0xee85f36d5937ea4688839fca4ed; 0x1c9890b11c30a4405a206a03f3234; 0x872a803567d2e47dc1e5901816b4; 0x4878258b7379ce421f401d4c74735; 0x47bb6f8b0b4cd10fbb6c57dec; 0x977fa44ab46b57bb20de41883409f; 0x79262e54268732d2f36fba255a162; 0x120de710c1d5f88ce1eee8b1336420; 0x27b9c007ef9c84fc233bd5c8ce29b; 0x15c7cc1dc5a3ea88f41f305ea73e8; 0xe47e447cd180ea94846fe29dbbb7; 0x1388acaea6a25f345644b842329d7; 0xd137e107af1893f90a231729d5ee; 0x42cf433cff4a62f4db61d0d55c1d8; 0x1a028ef82fd9ef4445fef4ae49a6cc; 0x4bbc49859eb7e32c438c283c49caa; 0x2b99ab8eb9a9851c75f97839492b3; 0x192abae6adb570d0828c9ecbe9e1db; 0xe12f2aacf16914cbd7e1786cd1232; 0x18bb5ba29851f016b8bdc1f059859; 0xac14bad3d04c7d5c1d8f9687d4e3d; 0xc770c0ca7736073f90a53a73f79eb; 0x90dd61717efe17968de3515871916; 0x626a5e0c929460830b0b08c3bebca; 0x12ee6cfd4aa5cdb57619e28cad4c66; 0x4d4e722a08ce3f1abd84e19c2de2c; 0x17322640f79a5e28f7079718fd1d6e; 0x2b89a1f1eaef992d8688be1711aca; 0xc6addc39da26e01af2a9526eff0b4; 0xb5c5c9c8b072fb42a88889a386b28; 0x1757e4799ad15c49bc6622c94cc30; 0x59eb401d176388cc10a79266b886f; 0x476cb2bc77b47a39693a1aeb1822; 0x7416fb47f672358515ee1709c0fca; 0x445416b2416ecc5d7c62e46cadfc9; 0x1f7e7cf1b793f8067c9d1cb0a3641; 0x138370d6d777777970395ae7a11fd; 0x12a7e5f3e788e39aab7488c99014; 0xb78d2212aa3e85d0afd70a155fe25; 0xd43f915e41f089bd3d1bf8210bc51; 0x9781c9284ebf5cf93beb799f9fd9; 0x165dd9c0e964bdc354d84cf6f52cbb; 0x5bf4c5db6ab80bf1fe010a1d6c433; 0xbd24f5fc1ae3a8386dac49de75d24; 0xe87c2a477b815a1793787395b23df; 0x0; 0x0], [0x0; 0x0; 0x0; 0x0; 0x0; 0x0; 0x119e4b; 0x38ab99a6093b8d26c59c427bb6ed9; 0x0; 0x15c695414; 0x10e74ffc7cd79d56dacfe997a69aba; 0xf3fccd3acece8b4c90fc3f432abcb; 0x13608e2e4dc74b97e87d237b6117f4; 0x6b7735769813f8dc240ec6a191e29; 0x19ab626e0cbaa6cbf5cea79f50a0e2; 0x2bf0f994250e217a5f866a39cdb7d; 0x7a28f1f60d0198825756f682c3f40; 0x1500085f70990a6fdf85bf7ba5710b; 0x6296351db9d067a09d06a9ac0df7c; 0x71924752c08a5469d526b0e456190; 0x73bca22d29e81705dfdbc25d1bde4; 0x3cb7fa9ade9c3c6b37db68ae6035; 0x1e8e3942e1ae5351cd4e9c04c21fa; 0x362bfd01b40f9627729ccf421a116; 0x1a978256ef1b0ad9553133335216a; 0x110d81e88113a95202ac98b0985fc7; 0x9dc89e11e3213e6f11bd2b7b7207f; 0x1310c2ecf8719dcd55f531296ef694; 0x1c47a5cd38b35d1aa0440bfc643a4f; 0x6e443865fd1d4c8abca6ea6294d4; 0x6a1fae5b13ec444bc00fe0982c47; 0x8c932667a5772c2c2747c57879dd1; 0x37e4cdc73e4d914a70790d764e124; 0x5829194dab89275a82fd93113a; 0x19bf442c72f1fd843b9b708df2462; 0xc26dc2013867f2b4c851793f13fe2; 0x2d4e395c5b6c51d5c1ef6830e2963; 0x2fc08d3ec89786828fc9e8ab7c547; 0x2dfb72ecfeff92cb60a69aa6f1f69; 0xe1617de22bdebb27e98cbce4e432d; 0x1d7e3de55f34f2d1d131cbcd477; 0x1119d3f61df1d1a23b24ffbfdabab2; 0x1867f14424ba5d7a663848d5f30579; 0xd2517188a334f268d29cf1f3c4da; 0xe2c22d5cbf8f3ffe78ccbf016ae3; 0x3d7096e2ebf57074f4097a7863ffb; 0x12b44a43bf645a096e7433ccedd8; 0x7b77d8222e820e49a8eb7bc02ac01; 0x10bcf2a5f2ec2f4c8b049db206d05; 0xd67c52bd625e24e21b57a65ac559c; 0x726672f5da496037835f9ccf8fdd6; 0x4de9047ecfc54a185ccaf7b611010; 0xa9de53eb2bf35e1f37ffbc876d9b; 0xea51b1749904c02f34dc727567c8; 0x12cc6ac196140aadc0863890e096a8; 0x8e2169968618983afea4aee6683b7; 0x37c2a011117ab07d42f274f1e931; 0xf9be6ecda80f9454013bf3b25ee4; 0xd4414bf1a652dec16fe4144e921a9; 0x4a99a2f5ae396b675f35b73d7b0; 0xbc6cf0c40eb74ed73ea0f2b368332; 0x5195341c882950ea4d506128d5958; 0x1a4be8794fecd04fe0298ded14f9e; 0xb0e593c6ba8812a579b6fefd65439; 0x4cc25864d9950e4df840fda38f6]));
    (72106336199, (2, [0x0; 0x0; 0x0; 0x0; 0x0; 0x1; 0x260e22dc1f841ff3c9c7e3d185e3; 0x13c8f04ce2a338c05dae4d16802c9; 0x591464bd8278decfb1f791faffa30; 0x19ade0a87c25a4eff450e4eb7053a0; 0x119118554dc032bd1b09aef20e94; 0x34b557ce4a7b680ed261d9c45d608; 0xe5a388454eed047da56681506f809; 0x2159da7c06d246d24d7013b31c7a5; 0x5f680f7c3c2e2e2894b66023a0883; 0x78746ef05307b6a8c123bac07e; 0x53daabdbc6a7de996aa2ea27e302d; 0x1af42a66f802c4ac58b38acb105b64; 0xe674949ee2f392931609e4e53c7a1; 0x15941f6f49a3a421cb7b0d11f03b8; 0xd367e61da6bd24d896784352eac0; 0x3f063911f35d72572d319e17d01de; 0x33847cbd19f62651ba74ec29591b; 0x9b7ea4ace11d444c05820d4c86cc; 0x1732d4b7ffd442e5a9f87c111249cb; 0x416aed8b83e7b65d4258b9bb1ff6; 0x53ddea703a2f96d8598078688137; 0x49a49dbcd7eb8bfc4fe41b0b2ef; 0x67f054352c7272e7cde3dd08a5a9; 0x1a9684d5ab7751341c3c64317433c1; 0x1ae0fbcb6d747e7c95e1c02d51a3f9; 0x56455853f159a58c7f31b299c6763; 0x96aa987d61ad86d2e774ba4ef6; 0x1b01ad066b6faff5899d83370558df; 0x13fe76b80b54ba7ba28c2e0fe5a55f; 0x4780112b5a93f8af6ca01976d2f39; 0xdef7a9205e2739d01965d630f3278; 0x8a1be6dc8e5a05a47fd796bcb948e; 0x5e5375c285d5b75d742e816854905; 0x84978fca2795c874f73420186bd11; 0x35e8e5f584c2c69f123050a02055e; 0xc4393a54a6b2197df7c80baba8de; 0x2da0158465d2d961549a39af92ed0; 0xd8d04eedf0acec908b922d228b35; 0xa9fba42514ff4d360c7c8eb18d3cc; 0x19b89ffc92b2946defd6913d969; 0x4ea1b704ff00ab39a6c8c67cc40c9; 0x174f311dce817c956252f95326; 0x1170370de0c87a81b93d60dc8beeec; 0x3f6a8be3f62a101580e54b74aeb8d; 0x1d5997cc96d603f6a5dffe2dca796; 0x947ab3e2bc6ce251f3bce4e508fed; 0x69c06c6cb57cb96dbce4d400f19fe; 0x127067331c1ea30971936f75a94f89; 0x731df9e7d2cf083b223eff9c9af5e; 0x6df622dbccc907e9ebea74069b4cc; 0x6575acfe7940a1add556e048c3c89; 0x54a1e56cdeee98825fd627858eed9; 0xd9eb372febf893ab7b968dcf11f8; 0x786e80986de7100157c7a246aa3dd; 0x91d3ff683d8fe6ef62ade31e24bc9; 0x14dcc41558eb17664a1b513dbb0eee; 0xb5600e0f19b32e08af0d67b4906fc; 0x2e4678e7a4af86952c22cc30c3239; 0x3ed5e77e63e7aaf7bfe840fb39d3e; 0x1f708cb350d253be4368d061efd36; 0x5270449572f705d9fa7c556020c83; 0xe0099d89432ab17d4b6d4171bdc5c; 0xee85f36d5937ea4688839fca4ed; 0x1c9890b11c30a4405a206a03f3234; 0x872a803567d2e47dc1e5901816b4; 0x4878258b7379ce421f401d4c74735; 0x47bb6f8b0b4cd10fbb6c57dec; 0x977fa44ab46b57bb20de41883409f; 0x79262e54268732d2f36fba255a162; 0x120de710c1d5f88ce1eee8b1336420; 0x27b9c007ef9c84fc233bd5c8ce29b; 0x15c7cc1dc5a3ea88f41f305ea73e8; 0xe47e447cd180ea94846fe29dbbb7; 0x1388acaea6a25f345644b842329d7; 0xd137e107af1893f90a231729d5ee; 0x42cf433cff4a62f4db61d0d55c1d8; 0x1a028ef82fd9ef4445fef4ae49a6cc; 0x4bbc49859eb7e32c438c283c49caa; 0x2b99ab8eb9a9851c75f97839492b3; 0x192abae6adb570d0828c9ecbe9e1db; 0xe12f2aacf16914cbd7e1786cd1232; 0x18bb5ba29851f016b8bdc1f059859; 0xac14bad3d04c7d5c1d8f9687d4e3d; 0xc770c0ca7736073f90a53a73f79eb; 0x90dd61717efe17968de3515871916; 0x626a5e0c929460830b0b08c3bebca; 0x12ee6cfd4aa5cdb57619e28cad4c66; 0x4d4e722a08ce3f1abd84e19c2de2c; 0x17322640f79a5e28f7079718fd1d6e; 0x2b89a1f1eaef992d8688be1711aca; 0xc6addc39da26e01af2a9526eff0b4; 0xb5c5c9c8b072fb42a88889a386b28; 0x1757e4799ad15c49bc6622c94cc30; 0x59eb401d176388cc10a79266b886f; 0x476cb2bc77b47a39693a1aeb1822; 0x7416fb47f672358515ee1709c0fca; 0x445416b2416ecc5d7c62e46cadfc9; 0x1f7e7cf1b793f8067c9d1cb0a3641; 0x138370d6d777777970395ae7a11fd; 0x12a7e5f3e788e39aab7488c99014; 0xb78d2212aa3e85d0afd70a155fe25; 0xd43f915e41f089bd3d1bf8210bc51; 0x9781c9284ebf5cf93beb799f9fd9; 0x165dd9c0e964bdc354d84cf6f52cbb; 0x5bf4c5db6ab80bf1fe010a1d6c433; 0xbd24f5fc1ae3a8386dac49de75d24; 0xe87c2a477b815a1793787395b23df; 0x0; 0x0], [0x0; 0x0; 0x0; 0x0; 0x0; 0x0; 0x233c96fcc8cedcfcf5248154ecc; 0x1d5244c1bcc9588444bdcad355aa9; 0x32887a660232fce9e1ed44c6274fe; 0x79a4a76349d20a9494451f7729; 0x12299b667ba25abe03aa3a825fb530; 0xd0368830c51ca8f3f7001fcb5b7f1; 0x80be63f6f01dea1e40c825c2c934f; 0x4f2a0f64407e3af902b25d83d5d0c; 0x161a465487566b50b4594d0f0988d; 0x1cffdd6d7fed5d44a0313c2125e93c; 0x9aeb7c78db6716b691c0e7b9bc88b; 0x1ec3cbff78efe2e0ee0c464e0ebc4; 0x2fba3a28cf40b588db4d69103ad8b; 0xfffb620462bd54c56108075c8c025; 0xda9ecb37d67efc9ae02346a23df64; 0x8567cf5fd906c668c2aabfabe6c5b; 0x13839953b71f815f49167bda9c69ed; 0x62b3a420c10402662d5611eb27231; 0x43e1093c61a99215c3eb7c435c4ae; 0xb80ae9ee17b5a4d5314898e0a579; 0xa8118985f0bf83c490fecdb9f1871; 0x14bf2c451d3d2a1faee8652ff6745; 0x1704d547049ac68b1c8d49db2ab014; 0xbbed730c6bde71f4dfc9e4158eb28; 0xc928040a20acaf842ef251e46082d; 0x18dbe87cf6eb54d1f7fa1290cf3edb; 0x16d2e878fa53e077e185ca487dfc9; 0x602f574d599842e248b1aeb3c41b6; 0x1c038a9775477d2b0a58e3fa46511e; 0x34514f09305535bd62d02bf5e5985; 0x8786f0cde3be3464f15834833e344; 0x9ed361226d7254640414c156303a0; 0x1000c3f59faa26b6634e0551056c05; 0x2885dc3df3a1f14fc987f1d470003; 0x11c10c4aa7290a05ceeb5895104193; 0x1cfb198e5dccab41a0c0146e4ec2d; 0x7d98c3aa0b56a5ba3a5262913a509; 0x12cea99cb65b264d287ee75273598; 0x88db168f631d9fe151cd5b8ac22c1; 0x3165375eb183a76bfa3a6d5badc4b; 0x26adb4b57254b1ab6da000624bac8; 0x175e383329ceb9f717e292afc87476; 0xb8e6f8f1f64d61fab949780fc9bd3; 0x2d2adb234846aed22ff81f40c0bc3; 0x71767055f89e8568e85a865755c4e; 0xdc335d61d701df2fb3279d1fa9680; 0xfaaeb787083a45c887878c8dec4ae; 0xe398f5196a098c3b7fb6db4a7595c; 0x9c397ad411a82138785b61feac57; 0x6d689f4755f759e64c0ad0d9a0ae; 0xa1546229b621373d2343bf104243; 0xe660077875d48a30e93978d200e00; 0x17f01d3f477c180bc7826d19026cf5; 0x148f9964c0cd2cb6c080b2e35f6b9d; 0x2cf4eced03fc6889647e37a4a9f; 0x8773a726e41a1b5f5d9bf1ae5084c; 0x13945831d573855df60ef8ef0059f6; 0x11a13a16de29b878bddeb75d4ba4b; 0x417a3892709125f9c9caca68fd42d; 0x12aaf9d45c7237b5ed23645721d92e; 0x38207c01ef77d04ba26bb2d393fdb; 0x146ce7d633613a0444eb82a06aadb; 0x15e5524e60947450cf1bd487bf96ef; 0x60494176b780fcb22ee33d9eecbbf; 0x18c45b0466ffd7338f42ba8e17821f; 0x35ba2dbe2253c453b72258faef1a4; 0xa87f43b613ce24c280db4babd98f; 0x37b01e10300f66bb87c5d8f39d76; 0x4b3ebed0aeecd4a5893ea18e14858; 0x5d14440782047a5f42a8e7afbadb4; 0xc068e4df88024d29e617524eeb77c; 0x6e4d4997848c5c8b6ed2943becd1d; 0x83e72c17b21bf3dad5ba704d867f7]))]).
  - exact (Forall_cons _ prime_c4 (Forall_cons _ prime_c9 (Forall_nil _))).
  - vm_compute. reflexivity.
  - vm_compute. reflexivity.
Qed.
Lemma prime_1723 : prime 1723.
Proof. apply trial_ok. vm_compute. reflexivity. Qed.
Lemma prime_c12 : prime 430751.
Proof.
  apply (pocklington _ [(1723, (2, [0x0; 0x0; 0x0; 0x9b; 0x42788; 0x23479; 0x21562; 0x394a; 0x1a940; 0x7d5; 0x8c09d; 0x34dab; 0x11888; 0x9935f; 0xfe3f; 0x8fb70; 0xbc819; 0x0], [0x0; 0x0; 0x0; 0x1379; 0x14712; 0x1f5d3; 0xc7f]))]).
  - exact (Forall_cons _ prime_1723 (Forall_nil _)).
  - vm_compute. reflexivity.
  - vm_compute. reflexivity.
Qed.
Lemma prime_4153 : prime 4153.
Proof. apply trial_ok. vm_compute. reflexivity. Qed.
Lemma prime_c14 : prime 31757755568855353.
Proof.
  apply (pocklington _ [(430751, (2, [0x0; 0x0; 0x0; 0x0; 0x2; 0x829abcce6312e; 0x73376a6b20d260; 0x52e9bc51dac33d; 0x6300bd4ce85d2; 0x3e2f233e71d4c8; 0x6532c8bb52fb64; 0x25bf2febf200f4; 0x2cccd266839514; 0x2ed033a4624765; 0x77563b12f1845; 0xf8f8ec33d4874; 0x244708a718f5a3; 0x282051147b14; 0x6ff57a6bf439e; 0x14be70db5817b3; 0x2da7411acd608f; 0x1704ace489f25; 0x87cfa6fdc81df4; 0x2c5b50aa97958d; 0xae0d3f0c10c5; 0x353eb217b34927; 0xb5b699a3e77b29; 0x3551f162c1ff0; 0xb341836983eaa3; 0x2e002f7e909510; 0xc26434637238ef; 0x16ef6275fb3f66; 0x6c2683d11cfef; 0x1de07567dbf7; 0x24cc2935be59; 0x686fa3650bdcb5; 0x3ac4096a1a9d74; 0x437f7877c0874e; 0x267e5eded8faab; 0x40138325901ecd; 0x64fa6da4a3f50; 0x5d53cc1100a2fc; 0xad1dc8db5678a5; 0xc68de3942d738; 0x1fe995e7244676; 0x3ceb337b8135b; 0x40cb4859efcc1d; 0x186b4904c08c86; 0x77601672f35dc9; 0x1218b0cf9e0ac; 0x446c0a63a61186; 0x1286daaff7bec; 0x70d382ab8b9937; 0x0], [0x0; 0x0; 0x0; 0x0; 0x0; 0x244d; 0x7735c45b41fcc2; 0x4490fde9c4000; 0xa170e0; 0x56ddeadf82ad66; 0x8eca810a384f6c; 0x4c9c157b683bec; 0x2788c32acf112d; 0x8f1110b7c7b91; 0xdd2e5d1614ee34; 0xdd5f2a4924b8d6; 0xe6f39df57e75b; 0x44e588efff9877; 0x729b79b6c2d0c; 0x302c8495646d26; 0xe0298c88255e51; 0xb6127aa83ff03a; 0x70a2d385f55f30; 0xcd1136d1ca1575; 0xeb67fe8320d1; 0x273fa480f38e84; 0x1687ee8dcf219d; 0xddf806239570ef; 0x9fcbe26b4cfad4; 0x4010fb7b5c2418; 0x35c5a0a2e92eb; 0x1fdff3a0b2a2c9; 0x6cd398d1fc4dd6; 0xb0b1d1ee95d04; 0x16baa401e83bb; 0x4664c452f760fb]));
    (4153, (2, [0x0; 0x0; 0x0; 0x0; 0x2; 0x829abcce6312e; 0x73376a6b20d260; 0x52e9bc51dac33d; 0x6300bd4ce85d2; 0x3e2f233e71d4c8; 0x6532c8bb52fb64; 0x25bf2febf200f4; 0x2cccd266839514; 0x2ed033a4624765; 0x77563b12f1845; 0xf8f8ec33d4874; 0x244708a718f5a3; 0x282051147b14; 0x6ff57a6bf439e; 0x14be70db5817b3; 0x2da7411acd608f; 0x1704ace489f25; 0x87cfa6fdc81df4; 0x2c5b50aa97958d; 0xae0d3f0c10c5; 0x353eb217b34927; 0xb5b699a3e77b29; 0x3551f162c1ff0; 0xb341836983eaa3; 0x2e002f7e909510; 0xc26434637238ef; 0x16ef6275fb3f66; 0x6c2683d11cfef; 0x1de07567dbf7; 0x24cc2935be59; 0x686fa3650bdcb5; 0x3ac4096a1a9d74; 0x437f7877c0874e; 0x267e5eded8faab; 0x40138325901ecd; 0x64fa6da4a3f50; 0x5d53cc1100a2fc; 0xad1dc8db5678a5; 0xc68de3942d738; 0x1fe995e7244676; 0x3ceb337b8135b; 0x40cb4859efcc1d; 0x186b4904c08c86; 0x77601672f35dc9; 0x1218b0cf9e0ac; 0x446c0a63a61186; 0x1286daaff7bec; 0x70d382ab8b9937; 0x0], [0x0; 0x0; 0x0; 0x0; 0x1; 0x414d5e6731897; 0xe66ed4d641a4c; 0x14ba6f1476b0c; 0x6749008739a50c; 0x676b3f9be1bdc5; 0x1a50eb74827; 0x69128b5cd7f; 0x3caf9ba15e5417; 0x44c1952cf4f154; 0x28db6a26928278; 0xf5e1c021f78; 0x7d1a3568008c6; 0xac3518649dd16a; 0x31634dda1ce99; 0x9f604dad9d4d80; 0x21e64291465d3d; 0x9fd55096d2594a; 0x53fd6e54eb014; 0x33703a99cf28d1; 0xb44bd5b5e554; 0x1bc8ef052adc1a; 0x2c90f17775388; 0xacf7595f93f4e3; 0x9543c7cab369a; 0x76343c5d18b84e; 0x22b68593787aa3; 0x19e03648fcf72; 0x544f34be7f0213; 0x4b595909981ad; 0x24b700da65d367; 0x6b13664ab7c479; 0x1bab4105b28bb; 0xce9c5a5aa0c9e8; 0x5b739df1bab117; 0x5d840f241ff7f8; 0xb82c8c75105b; 0x53030c88b8ac82]))]).
  - exact (Forall_cons _ prime_c12 (Forall_cons _ prime_4153 (Forall_nil _))).
  - vm_compute. reflexivity.
  - vm_compute. reflexivity.
Qed.
Lemma prime_c15 : prime 74058212732561358302231226437062788676166966415465897661863160754340907.
Proof.
  apply (pocklington _ [(75445702479781427272750846543864801, (2, [0x0; 0x0; 0x0; 0x0; 0x0; 0x0; 0x0; 0xbedc40000000000000000000000; 0x0; 0x747dee1000000000000000000000000000; 0xd; 0x10e1ab06fcff882105323aa87752a5eb741cc50cc1b7b175fd9fb90980c6; 0x88ef829a30ca4e10bbfbf1daf6e69000000000000000000000000000; 0x2660a581d1d55573f757048f651a68515a05b7d1d49b54; 0x9526e13fa6c0ff40d40c30282e593ab3b742507319f39bebadfe731ff58; 0x119ba40732783a63705c5cd291a1d77a4f173172a067f4b502b0cb74d8a5; 0x1c76910cd68f72fd199c541caf30f9378ebabe1cbb73b1a09a14c7693bf; 0x6218731fea92b151aa10be61f3b74df85f41ff0860ac6c9fd026f68f8b9; 0x325486363f1d4a29a028918e491516cdecab86e2a04608543b8b02f249e; 0x177ff8d6f38ff488f9056b0ca64763490aff7e699d6ae924a6e0dbd48; 0x32ec74a975a891e874c8bf500935951d52ac863944e3a84c7856c6b1d9f; 0x3675cee04f8730a7df2e8133fa06e3fd4751db95d596f9ed3b0e2e904fa; 0x25cac55f66dc58f9a0ac16b4737d5eb3c0e34d7de20043bf51f0402dc87; 0x2b3ea3c080bfafb26691611dea8734369f024c0a4f148632e426df37376; 0x3906e2f7ec612ad194710dccb0aa8436fe898d155aab98599dbdc894781; 0x9b1e385cd29382ffef723d379e9ddf8cd26635e3f3d5f8cfe0f8451326b; 0x1f15342f1b60599ad252d9193cd6b9efa8282dfa37f5c15ad11948321eb; 0x2de1b6d0d0ec93c83df621fcee9e7143b69b1e2e1df0572cd38110998bc; 0x129fa453074641ed63d4224c62dd6fcfbb17bd993fc844809c7d9e1bd6f; 0x1216b1e686369e62c44c1c1eb5cbd5e497b8854eb1e8929c483765206615; 0xc6f51e5174b626a41bde8019434a18286780ecec5ac4bcd875b5b1ff; 0x106ce01c1fa4d75882a515c987ae771331504c7dfd4fbb29d6fb9f83327; 0x9ea97e4c49c4a8e91b5b985116b8bcb4c2e0f0cb56795f03d019b720641; 0x1b6baf72bad7800a435cff5cd9cc9474f163d283e737e3da1406437ff29; 0x7134cbf8ed1f3dc733256354dc41a608382ecaa505427311d8fbd7b063b; 0xaae92182a1dde681e67d838c9d9da8e3e067bb05b29b10a0ce891c00b0f; 0x11178e0d33a9cf95a2df33005c8a909d280e4615497a7eb8d5be13ad90; 0x7557f2f1cae1f2f308659ea5e047ee5e8c55cfc27ceb7abcac637617247; 0x10f6e1c51f6d92ede7d463aaa6385e23df7ecafeaf21580e322b42f5d28b; 0xcdc44f01c66381ee0a24ba673c442267cd79bc514725b83f805a58700b; 0x58de7215797cec1d00dd839d2c432cac4b3f3d1b750c15152121fab7; 0x5bfc473c023f366fcc43597d354bd4995a40d869d0a1d98a29d75282ba8; 0x1d082b8eeeb7c68ff629ef29b0f5fa757f59a81d0e92111b48a23591a; 0x5dfb69ab767680ebfed01394ce68ed8c67bb212acc3aa3478d006ecd557; 0x5971ee0ccd98d353105da4dd4ffd12737b18fa04b2f3c6095944be317e0; 0x29f7f5b10f2d49423cabd09f2b7c62ebd71142e283a945c9932b59a6929; 0xfd80fdd2df9a497942e221ae5847fba67cacb34e047fb750daa2d691da; 0x67dafd6359318caba8c1386e620e138bb74e8f658a69c737a46daa1fb06; 0x2e41fb5f7f4614544e6cd93605320840ff3ad172a04b3fbddbe1764e32; 0x6179f096b7952ab049610cbfe577ce62cebbeaee3a6c819e5bc68ce0236; 0x2c55a04506fbb2500731fc3c131b319ac08c59e8418f0358046276a1f; 0x647685ad6c561752b0df35b8a69e811326841de1eb0338d2b1f288c0a8; 0x6675cb843138dcbae09fb35b5e1ba24ca220b74ae5f176e25bc817e996e; 0xa664118bb9ba1e0acd7cb93046ed92cd4abdaa37dddd88d385a809dd688; 0x20b75d0e6841fc34f87aa2ab4c426670fc74705c0dc3a37d8c4b38c481a; 0x12b674a9162a9a5ca2c3491b68c24aa14c67f64a3867a338f5eab7747f0f; 0x1533cdb975564a03d221cbc1825d938d3254690b79bfda3380d417ebf0d; 0x6f1b05982ce26d54e5bace78fb7e05f8332868979e97937e16858802e5b; 0x131862b73d0f47ab93fa2ef60dac8578ea38f3bc15abd2c46927aabf937e; 0x5e97b3f3ee9998affadd8a6cad8304132bf0107ef350216a6a3b1664094; 0x8ac94e6f6f08fd8949cfa4c02927efe60773d5257542493ca73f6678a4f; 0x1084df3903f26aec05fb646e2b84bab4e8da1e2ffb8dc17d5b9cab17e442; 0x7f96e21dc528005e30682ab4bfefedee4aa1480cc23711ed04966bc76b4; 0x1624d2b89a030db406e018d15ff10d4fbed300356594907a210e99b3755; 0xd61cbbf0799c5116555cfa2035461d5593e3bb81e9e7a40deaa918534; 0x2bb91da58c38b8ddb5d59146cceadf706fef59f61322444225dbc0e25e6; 0x98032d4b843f3f10f7b0e1f7515584de804f894673579fb6866111a0987; 0xdcaa01f9b69b999a18f5940baed923e6a5864441a6779208c54d2cb206; 0x2eed633677cfd04dd58409fab61ee8dccb635133f4c9cb6841e33162cb0; 0xaaf17ef9e75abaf12c58912c36a53539a637b50bd09fdc75320c3db64eb; 0x42519b3b5f34e8ad0386c3bb64007f673f299f96665954ac4959755464; 0x431c1b430409e88a5e8d2e8ead6ecee20fc4136aaf2a43ceb37bd2a7de; 0xa78d0b514be9b3ef1c71ee8203069c641d8c98cfc54c3e68d50c20d57d6; 0x183e0fcbdabb0fbca4fa578d6a589f44758d829f21fc9e5fb42df8b875c; 0x765ebe2533499a15a179d5438fc125a8d7d071eed078d7be6cbe7b2a101; 0x1182a8bd1d56a8e937877607768285aac81e31008c021107163ee04ad444; 0x6c95e8c0356260ff5de5c7912895862ac1a1afd08ba356f1fb15cdc8cef; 0x7f4d7006d90f58efd383f7aa251f443248e4e317b1e145d7cc987dc5674; 0x9745671977c523f27856bfdbaa2d2ae8e5f101d21c9c8611369c14011; 0x711b8c8eb9ef93387cdb12b2a8030e10cf1b20dea87992c93dac4b32594; 0x24317945939d068df0c439f10f06201d8b6b5e63ac1fec8812b71064cc5; 0x958829ad02c57301c3acee05b4ba1cb9bdda190bacce67c3af69d7bcd3; 0x7191b75d43a75696027bd41f2bbe96f1ec473105f282221ad2386ffd776; 0xe7964f1e9c807a2660847d05216df67c432c2846fa4afcdf99a4eed0890; 0x9c340f1b8b4b6a9976bb286c3c16a289b9cb53d420631e741f79d37bd78; 0x1373ab4c3f81bdf82d2860d13a94cb484bad41d8f86eb25986f8c345e7; 0x62cd5346987bd7ea8d0e0fdece966ef174087f9f284ad30185530fe30e8; 0xa71c6768ed2e58d2a6d04777d55d5af0b47e687127f76d33d3085b57c95; 0x16c38ea5936d1eea4bab36151eed771c58897dee90ef97fdf88bc7195; 0x98691d3b37d79a22f39285f398d7d3b88668fd94f1d3d8b041dfe364ca; 0x3d5a919a82cc61cf3b004f3a928fcd44f39c01530e25517d118956af2d3; 0x11a9fb9d549f9a6f7f5bbcb4cc898287b2fcab4654514d221bb8437a92f6; 0x17d3d0bf8eef28983d9b5e53b83d1cb5a1578aabdc8a9efa7e4839c25; 0x484ea00e45950a51e12b9ee6259d2c91331c5d0115a93b8c7f86601afa1; 0x3ad9f56ddfff75fcd9b395e747280e94d1c196f2a4f87607647129337c7; 0x8b666213af4493f82ac4fab167651d65d415487c20fa36b4383e647c896; 0x52ac85bf7e054900ba10e64f26de5110e7b69457132b3c9bade40dfe02; 0x6bf62f8b25712818d07e68cc5cc0850d94c7076748ab014c1cf1dac9d99; 0x13652f5183b528dddae39c8643953cd701d66717571ec758e8a50124e16; 0x44537765be2c014f9771aee74d31b9fdc94f078d724dfb2edb0b63f2309; 0x257e1998cff913e877f9716a3622ee5b24b4889c1fcf2d9ab4849898bed; 0x154f8bfe8537047ad4b2ce763479ad9ffc41c59c53f955b546b0b28c0d; 0x4c756e9dd80a6304c5163818131da8537835b5a436f1b84ca25b1a10e47; 0x6eda19a404932b8393af4368c3f9e8c28074de16a24ae3f46e346282c; 0x2d3562ea9551a56697e9212bde238361a571b7715bb1c7a9fa5bb111681; 0x1b145bac25b8fedb64241e727ed660b81aa2cad49f0498a4f7e5aa07325; 0x5b1c3b4356b30549e8d1e580d2dfe968ed7645c03d62101ac6f85eccf1e; 0x3d082902d3bba3046c5613d9c6ce254431f10214251fce9567d0d6015fc; 0x11d9aae7ace9c1c593f93b0a57f3f413ef5015543676d66f349b4036cf4c; 0x7ed7437c9a177cec0e4f1eb4c5ced545443028b30e34b48570b211d653a; 0x6d1668e43fd8764362a63e58425a029ec5dc4be1084df0a0c0e8cc3ce48; 0x1219bebcd16afe2950b0737f3fa2406ad78770593d30ab43e0de8c8c89a; 0x801242a87451398f7da0884b6b5bee6659c6e1e33ae7ffeb3b45a72a84; 0x316a2305b869f51ac98972ad160e61b8e203137bc3a22114145f3e38da6; 0x1ee27d7b24552c78d156ab0c79c908a0cd9118ae8f5e42f89a39ca08cac; 0x9deb5fa518abf3a384346f1f0912022fd0cf27bd3c11532e209f44ae80; 0x5a662f4a6d3a13ea4393aa8fe77339629f977f30f71516b99c305f74cf9; 0x2f4b6036e4ac6183f8dbd58b3bd22e181b4b3a121f5f93b082df1aaaa36; 0x360aa313019df558f6b3f4eecf5bd7cd7fbaa65eff7b209499e6aac22a4; 0x14c9508f217cac8f5c914df88ca86c62ca6034f9d525d3bbb54db6df67a5; 0x278fa70c1fd9a7a04d9c3adbb98a86f654f176fc6297fb9f7de306b0636; 0xe96af30361a8fb415d4d1eca42f283c96be4e7a732a8acaa676a97a8b16; 0x3a7c119e6a616ee9e9e91dc0947ce942dce7648b0f9dca5bd5952ac84d7; 0x7711879c271c43eb5385fb6d25b965dda091ce75fa5fa28f602a6c6dfc9; 0xe7361e995a2cedd02bf4b1f5b6ad75719a993eef8aaefd880d56b6aaa11; 0x8b9c4136fa64df993d6c264e90f9c51874ad70131dd3eb62ac896d26d; 0x42be0d4b67632455be8dfaa6b8725a86b1ff0a6276df94e0dd520b50aac; 0x112ee31a1213e3c257005c1f962a1a2debb03949cf3e2a900af49067424d; 0x6149bc7b3f5b59bda8e29c1884770e95df29bda7aed7320177213940db8; 0x48e5bd87554f18f9b2f9595f8e193c03acc6faa1a71f636bf0a933a53e9; 0x119e1599442ae4c164edf76bca2e334a689c8c516f13f9414f78ccfeda61; 0x3fa4fa7acbea32b351aadeb066ccd719a5d165a83c380bece186123094d; 0x869853ff2696a93c2bbe24bd742b9694f854ffec215b66c13248348dbdd; 0x7173e3a982c06f752fa2c26a4740023e133a626f038c21535a1826efde1; 0x3bacf6d9866b9d43cf1b20b4bf2b332fa7b5c98b66e3a4b3b68ca4e2eac; 0x17d5cd7a6f41f857ce525139382af9c173eb6ebb356a614504aa83abae1; 0x19b890fba64a941a6913c7bafcbf3a38c1c7a55beae1219eb271b1085df; 0x4e851aef911d1cfd13f1c31c75e3c61da834aa40c9545bec29f69259952; 0xb969f211766cc2f62671c728d8da3584a9b76a65e7d0f8cddf8c9850328; 0x8bd09cede116d9600a4065862cdef684ad517359316f8b7619c7d46ba7a; 0x74747625786f5ec59e9c9ce8ed9cbf3b486ab4b02d58252a2672585cfc5; 0x140e5fd52169ac79942419a62533f5ddabec25de40cf596c999bb635039; 0x2ab5ab3bbebc310c1b7cc82cf5abe1ee4eeffb1e2c7b8bb7e15497795; 0x2b16709ada7f01d711556af182b54fbc36bf5f251380cffc3f52da116f0; 0x91872f0c930a3548358d5261797c4c60027fef0697aae1b51127634dfd; 0x496786dd7ffa5194145d5fc967b5faa04a69b82810a08f49b015874d18; 0x4ec19e9a1b673c22f2058a67b7b8a2e8a09e47aa9a6f6d9cd7e44ae322e; 0x2ab31bca53d66e5257ec24135476bf2adab309ec796b9fee2b53617b26c; 0x3ae4d36e4fe1e5417e8cd667fc2b55b96134936fa4640d8a7405bceae92; 0x2f3326979932cc09e0044feafc1d63522db7a55e3169168802551d1895e; 0x72db2b4580b47a64bbeedfbc1be99fc6cf4c722029435990b7b0305079f; 0x6979fb63c2f703c0416b16ad771312fe75f904e40def25bfbe7d7decae0; 0x144284c3a9a79378434b6521a6a376e4b68a3fcd7baedbb4150d719bdb6e; 0x3e2f33587c327f47f2d8b58b334c9fa199800f303491a0bc0e3c238076a; 0x5af75506f33d33394be992f36c7b2332700822c8611aee8663bb904209; 0x6e1aba72ca89967a87b76953081b4e52a39568681f9154b0ea8b836f886; 0x946241d11a68baadad2016123d06dc6b7ad6ac6dede9836601f87d0d5f4; 0x631fc8e13dddecaa566333ebd3202a6cdc2e195cc63a9a005063a89d30c; 0x4a6ddf20fca85dafc4e2ad27b8f344ca93851e5c942ddcc135d86d61842; 0x5d95f3734bb163eadcb563956a005c6b886afd87b0943c641abfbf1eee1; 0x5e10306da6339396404b3d379a36d47fb6e6bd291705d83c60b981ef6f; 0x5bf9c3b8a55332e9522ba83c13ab5208a5444a74b52eb3909f155941d3; 0x4815b866bbe9b820eb8ad954720c0b32e1bc96709de06ec5a9ff7188ab3; 0x15273ac9f3115caf8cb08e77daa18d8d293d94d20f522a18c72a4bd09150; 0x762a2b9d827883bbe61d4c9528e4ff71a500563d5903dd688234a23a62b; 0x39a5a8d2b035fcb1ad1e3022f8baf1734259c97695150008120e3234a1b; 0xf2b09b1d584fad2b8c0b7bc1cc2e8dffa9d02d4b81a0f9b4e2f99d4d4; 0x80cdf8c807df0ded77ea4ab3922941603521bd9d4008a2e53830b355ff6; 0x23c03b693718dd4c54bab4825c8fb3f375c2ca8d9dfc3ef6952770b8c4; 0x6a1991b5eccc552460644445b687276145b4787755cee8f6079cb31ce8e; 0xc657cd70f83bda259a3ad301b779e4fa1a408ad4f98a9e62023519c76; 0x4b4ec59d5154cd9b8cebb6cf7e8b12c26504bf9f4655c19c67fa7bd92bf; 0x39f035395ccd43a2e8ca17cd522c7b40c7198dda5fba783eceb46315448; 0x8ab018e3ecdec55f4ca514f49c71f402fd51e020c70a43719e00474abf8; 0xa0ba88dcdc5e4b9767fcb97511726d8e20451c54f276282854c2c65c38f; 0x1493a1e0f74456dfcc80b4f586739739a02e914ef9630fafc8bebc315b; 0x1b5ef6b3dad9f12548e6011e20270e2735166a32df3db08c262a473f5b; 0x40f5702c34a3a84c37a82ff6e27563dd445a04dcc51c197bf55ca06f9; 0x20b88ff82b1e0adaba885b20f6a5076a28308ed83eb4b61b0280111d32; 0x142294bb011fddf6146592206a7e2879dd5e6f592b4a8325623d9ab35f7; 0x1c687e06e8934e7443b710f173be5c1cbe498ca30890a708a6f9cf21c52; 0x13a031b372a5b746e2fd878ca31fa33ff7aa8e790ba8a532472cc8ed2c55; 0x2d8ceec1bfc961e82c2a5ca93fd3ea5e175b19604ad5a193d93a92fbb25; 0x1836862fc5daa0ebb9a44291b5200ac801c81b5d7cd25b7362e405e0235; 0x55412d6d3c3e412196fdd22fede92e29f0391fe08b1e71583b3dd41185d; 0xa03328ad6e014aac0b291485a05929b2f47b9c7c4092ab7a5aabf6777; 0x2d0453187e4b4c34dedee0bbecf25429bc14b5a4387fab70af0968c6ebe; 0x3cfa569fd61572d9e8c7fa515ceee6faa0d253dc3fae4ebf1b82b279b0; 0xef00e0ca68ee185b2fb43930abe783a52d01a0fb7b403b518d5bd5fbd8; 0x1a29d2f3f8e5a4fe4c4dc6b94b996d60e72c98ac7becd99d2ab8367e859; 0x227404e5da3223dff0279341fbbd10eff72ab5ae475d15db44a0d84c36a; 0x8f57bd7db54a457b4c9209a3f289b6ead6f8ef50a9ef621fe6b7db4c832; 0x15992ef920cb259ab9b963e3ba07d29f05e1319964b36102f04b3ed56f4; 0x1886ecf672ade098b0c7b99be3e60c51692d128ca1f4874174f1efac505; 0x138af6656cfdd71bd2ce2ab9851ab25e23c68c7d9e9e2965af3c09184ae; 0x1b58deb3dab2d81f634d23387754363e66dafc175ba91202483535a9109; 0x28d5385a479337e4e9dcea8ea26ee55f18d5e580c9ecf3190aca87b6d67; 0x972571b4f937504191ff94d8a318aa5f41c2c21723a2fdb70ca87410e07; 0x4e5a51c9d2cef03eac04adb5d8a957374868c33d28fabb9cce10ec59e4; 0x3e26e48e31128638a5ab46118f71bcbaae16d5ba051a402c2122a67ceba; 0x3524cd1a92f7e0825c74532b0bfb6a3af3ef65dc76b15faf6ba67640849; 0x35354d4c42b30ed140bec6ab35b6abc687fb721e2ea6d7749f6fae011e6; 0xc53635dfbdf38b2f95919847d6d591dd7f23a7f678bb5d1d78c877edf64; 0x3239971273489584ee5973625f807c04408fd96f2653ae442e322ae0b1d; 0x7738371dd866d197c8898af243d4fdb486e26ab0b48c566769dd870803b; 0x14a3d71cc60376b3f841ea4c94f9d9bf69a2ec0f3527adb452a94967a18; 0x80cb513e627f1b5e3bb1791fa428dd0365e2fe6688104c01c4554a9aded; 0xf70a5ce876f5187a8e684062e752c3ac2d69bd1c9c7db06d3cc29d2b1b2; 0xb3e678e6d1530d63bf34c22d2edbfaccb6b4fc0d6391de7ee3c1758608e; 0x4e6be3b11250f9dc5d207b34213b391338a1f651fb23cba14f299a2ded4; 0xb8b76af2f914b017c8a51557238cf1dac322b45269326414e22c456d6c; 0xa6d396b6f4c0c96ac57bab09f107b653bd89e03edfadd86d9ea7931d46; 0x3d9e68580e3257a8f4ec4d50cec40f1c81f1020ea45730470e71eb6ee87; 0x1270cc872cf8e3e2368a220428dae0a0edbf4724d261ff94f842c2dea111; 0x797ee914ab1a607cda12c290ea90386a75cbc5e1a25faa61f4a29d88f81; 0x8efbdba44324b98473932baea7ee1142d4b2c23774e6db19da5161c1d1c; 0x3138afa7fe35eade1f8586310dfc84683669d82709fb3e2235e0a1e; 0x240617ecc25ed1bab43795758831dd6f4ab6283ba11866e99fd59d4ad9; 0x916976f3e7f50b205829ef69b6e2a26b73d283bfb668af4ae0f3e938a8a; 0xcf1f2c4faaae2daf0d996c702a2541647468cb312a7473dc4a8176a7ec; 0x72ff03738183b46d0cb8f6e7e8ab8d7fa7f7a972bf950c8af2710aacdff; 0x3929670a7898be464ae9d5b352da9b7f416acb8f5e9e51c2fee8c9a2255; 0x923fca054f4a1ab515c8964d24f12482e22358f50e09a3065914534e4af; 0x3e33f797e30e7709240125850058d8109289ddd544bb8b20533be1c8f; 0xeba7a0dc09d90a56f7b8db48c957c4ea7c5f039f2316551e53bfcf99a52; 0x6313e716c07b7922fe47da50601cf4aa227029e52e93d3151914b3def8f; 0x636d3ae72927f5c944b20294cfd74324a6e2d3d2f54200bbc297850a76; 0x9754f545921b1f95085f4c9f82494db3a4c427828871466c44bf60ab932; 0x781090b8e4b69a894fdc1d583e84392c55d2c83e641a8c61d69f54facb4; 0x6db1304faca31f3364478498646001dcc23167464c4e7a02b781d2cb60; 0x1e4e090f36f87a49892ef06dc7645a6d89bf238240a73659022e85a6cde; 0x348c8a317d9b1a19532f93b6c111235b12c2705533e1bec9a4ff16424f7; 0x1488eec3fcf1205782be20045d8eb7963a6f0920d5d3f6ddc16d32378f; 0x2574c78a95cd1db40de14357d96a8645e5f2da10519ede99bfa14f1ade2; 0xabaf8c6b094fd0f32c2ccabab864dbecd99144679c1adf804898fb20429], [0x0; 0x0; 0x0; 0x0; 0x0; 0x0; 0x0; 0x5f6e20000000000000000000000000000000; 0x951c1; 0x2aebe31ac253f43ccb0b32aeae1936fb36645119e706b7e012263ec814; 0x3961dc5e864cbd464673b882084135c159779d6ce11cbb535043a16f09e; 0x11bfc67df2b725a183c28bf3ff17f4bc37556a1f97564b75ffa2c7b210d9; 0x4f64fa107c92a022aa01a9dc714d8018fb4b2e931add27622db7693bfa3; 0xa9e870b48247e75233972759759a5e3bdb9f63dd6cd5ebbba6da0b4a16; 0x9ca1790bda458898373137e6655d2ffb3eb2e5be3da2108ea8632ac1e39; 0x3aa4b0c3f968ae139fb3e28c909963c487bfcd85448fffc903392aac24; 0x5ae1b8cce2d83ef1666811f975eaebf674ead1b91adc8811895a3adbc3f; 0x1e2264e64d7e4237cbb111f6d03f2dd65ce390ddb7678ab39e2c99a61f5; 0x8b72c1676259bf99b35e88e121394913887fc882fe0b868a5d7cb216608; 0x293ac0175656ac37a8996f482908df7f8dcc902ff329c3dbc482fa552b5; 0x736ea9f575f83cfcc4a74f3ee60df40d32b34f9d01e57ed5e30e717d5aa; 0x4098de24ce63bf055d7409c80e693d017edc30f0d065e1ef962f3b954c5; 0x38cd72a1af84bd15551cd6d527f300321c10277edf2e2f345e0e8d8cb1; 0x2bdc0db0da0cb0592f613c8f4e26553a25ae654a5ce40245790ff353db6; 0x11750be8284f0e3324f523b089a062960e6fc906fa2ca5b75e185284fd69; 0xaa2339fddb42eb5479bb1083347ec1f358bea8c6c02b96cc91fe052d607; 0x45ea79a34a4bd31282a0519c494f4b6397a453a2e7b0f3238336d26e563; 0x377130c388a210f5b9a2e36e12c78eccde221e23e487cddbd71c442d02d; 0xf1afd44539ffb5baead092c9033c81382fc39d1bc6478f330c351f4e4e; 0x444fc1850aba64606b2356bbfd13037184e4a759eb79084f56b40227fba; 0x2b0cc1f35a51e52620df8db61e8d22a19406615af4d97d29b9edac316c; 0x10b65d9710ea9f371e7cf7af73fd2dd810824fe8bd0cf731babb64b7720; 0x61a95e4895ee4631513da0cb6739620cf352f6165d8aab9eb7cd2b0411; 0xc4303538919aa687ceb4682637759093815f8e132e9551b5a0525f64bf4; 0xfce6728bd032db897f6317b6d2494235ac53f435a0e928daa8d637c07; 0x30403186ce7ae793aa10ef56e4bffae793995951fe5275b59fef1f14af4; 0x5b92bf47c1941ff6ca4074459fa9a465bb8deaff3cf9affd8f5b153124e; 0x794665eeec629a2510049fb41a0050d1830e8e30465df0456e712760b1c; 0x517eeba1bed93d92a8c0a2429a2ed697b794974ac9a11651e3c6d0dc19a; 0x140dec0994802e1b9d7e36b88d396a8048c711d2fd99b0a341d9c99afed6; 0x60faa871792189bc0b323b396cff0e0426e94dcffd376b1ee6dc253f4a3; 0x156c77031b2d18c3225f74b647bdae352ee2424065117f5ceaa1fd0862e8; 0x499d65682040c5000d19945591ef1776b8d6ece77477dbaafb275be7c; 0xcc15bdbefc965cd35de92fad359711c417a2528875ef6cbe1b14eaa6ab; 0x3c7a5581a95f984a5848120b2eeea3ff89170ec05ac7e64665c67de23ae; 0xd5d1a064e07b3d643865919d9b2ac3c8b1574cda723bcb692168c0a59e6; 0x6be831aa760053532236af67fd3d39b834f3c2ccff5b97a4b248c6b2b78; 0x652bbd5c54b0f105699dab223e803149d32d27ec71ef4f239c3cb028a5e; 0xe0abd6782fbc52221eea3d72895820688654ff11aec3abf353824e941ec; 0x536125eee80824c6a3886d64db97e06ba57d24f4ad3bc09bf2c90fc2536; 0x9f37b5b11707cfd07b896038e48bdeadd7528e6acccec72c60ffe89b63; 0x1d44414bfdf03b97676c4835822f2f5aeec4307907aa7788d69badf3c8; 0x6b260cab49890a545175d238c98b11409330f13ac97a64fc20abed153; 0x7e457fbacb1ed027eaa5902227e64198f684fffbb180e8306c3ab700d09; 0x3967eb809052d31470f9050f8406e2a75ca7f616b3d8014c9252df8fb6d; 0x3d3c98f6b8321593ddef21bd759714ad8cc5a1839e1359c42fac3f9c124; 0x7b99de4cc51a4ba44b46208e27cbddf8966532290adf271298d4179ebe; 0x832f0c2e59680ff588f0ac47de4d4ccc4606e51cb7b30071df13c1719f3; 0x32124ba651bbc2ee991baada81af1568adb348de06b4adb1d1af0b70e5; 0x14daf3bd846378371a8700567c1f71d02d5c38305f6c8b8815fb8fd44eb4; 0x15968358e15e2e1798e00262712fc9c139aee4abe4eb5e2260073b8a67f; 0xdb254a51ae492450454bdc3ed4875d360ff9d0098ca152fce4df06512e6; 0xce6156736dee9effc4a8c2ba0fed1eae55cc3296e8d52abae067ae821; 0x9b72c8331bf21eb71e5dd0ea9285cafa0a49b4722f7c52a013faf5d7614; 0x5f77ccc7e89347c0b883a76aa322e0f48b75a27d58b9c821f2065d7853a; 0x9590af6022cb44f3118c95c24d428abb7dab85789cb7225cd686f637ff; 0x75e59d813e5f00c1b7d3924b1b8c9d7e55ad66ece4d09c78e0b63fadc12; 0x5f9ea5ef3a7058b8fe47148d6972dc2a082e8d405be327dea0ede877fc5; 0x1ef61f53c5c7de213b54614c856a3726c54f07f0bd5224af6e28c21efdc; 0x1244242da28b1b18f733b924cb1049a3a04721cad1bd31db7a646c64b7; 0x20f545a72ff5a7b3447627b288ae86db0e767b41f502df841f02e469f0a; 0xbd405d82dadc99fff996254cea7d34d71b081a959c2e7e2a4d046fd1afd; 0x908fc3ce326d3aeb6257f474817020b83ee129e7062951cb7598388542f; 0x847f01a28f80cd472e19d95d0fb111543eca24bdef0e878d672fbdedf71; 0x24f7560d0ca908b6604705dfbfead7e0f9505282900973a9d99fe2e55dc; 0x7e07cf4cfba128cd6b371de66091150e7605a7b47f3dc26e9cb1ad23bb5; 0xffc3c37d94ed97553be525525bfacd9f99ca5008ce7c75762f45c71bc5; 0x34b81a49bc19af0e7feacab0e4e46137ba1f8710ef907fbc4e72c163b2e; 0x2f30956c4f7f32088a48fdd9711592de3c4cd9da74e8966da9fd9e9127; 0x137240a49934bd59ea237f2d183818ea23821c4bf328aa9350789bb8693; 0x4bc0b036362361b701420dcf39d81316e866410467540e5f02bedc7d7e7; 0x76b27373d18ee92a3c09724a6f8fe988693cda26bf9c8914405d98a80bc; 0x871851588636b9db071ad7ecd92b0e8810bfacf883a31cd88d30afcd5; 0x7577710501cc68dfcc8f3ee83a07c49d2221d07a6d9cba61d9ab10abe8; 0x492b22728fb614da7d894ac6cc3c2b996270ddb769d696e0ac13b9dc3bc; 0x4553193f70a72c966a33465fdb8eb66cceda94a92a130e9f3df7bec4ffd; 0x33d31156663edc905334c14e0f2a4f5e4d78c7f9afa7ea6f9963c42fcb1; 0x1270b0289677737b674ff65c1c378457f3f9c66e6068fa73de459dea731e; 0x13e06d2a972d864b9e5c091dca02354f6c3fa6e6b482c0fdec30a043b20; 0x7d86a2f8a33b77659c267974fc37f7a81d39ac33d1494abe66b55613993; 0x316969d97fb3a296dcc760d70c9acfa35e354f1cb1553c4baabe6a92f9d; 0x1307d87174665b81f23194e0ed2b1d49019016b1e3cbfa40a2d888af4b35; 0x105aa2d8d74f2c8db2065567565b4dce54ca9cdba058d1857597dd1a52; 0x2844eb7d85f3e10e69589bb0a5bc4a393a56553432502b43192df9a991; 0x5accc1a77f1a5840dc146d080484532d2822c93a2c0305df7a06a9927d5; 0x2849f11dde35bf5ff983c77d3479277d233239e4e5790842604e11f2f01; 0x78c44ab0963007c43a35772cc8c271ec2e93e3a87759c08af1c905a29d; 0x7107cced17394d15f4ccf3b34c42ba6e7455be539ad1aa939f22f50a67; 0x5a6457695fd90f8afa78a21f20c5e21c565872c097010f6d2b10cdc67e0; 0x1de83366fc7008aa73e32df8b5b8e39bdb245ba184b021eb069e6245acf; 0xed7c296f25534f937cd695599b3d37add33229eca0e4af761206f098b1; 0x56ac669e6c83d40ef71069cba30d4bbdcd70e7c898cc274668c20f418cb; 0x2b023ffb5742af72c8e2134982022b4c79393c975b2239befff0a800064; 0x86d1999e6a71d91817d09bd268bd2ad97de1867eca062c9802aa83031fe; 0x291e86cb6ec319b882c25be06177df3e1d2f404805053809cde6a8ee49f; 0xf731e244ae780eb28c3107cbb7089eaa8ce556286564c64384c139ba32; 0x27d5cae579581da0f17108a6741b38674ff418676ce366100313e51a01a; 0x5a35451680c7969afc2375e93824a1b48ca9c24eca7a57af0248c30c; 0x885b9ac2ac8da2836212d220f5a983988bb8c3542e2c148cad4fb6355e7; 0x13c3ed81ebf18c09b6c74292800c24a1e8d8919af83f3a23bf86100b9ab; 0x76dd1446458aa770d49aa14dc11fe563944f9aeeb6ae6eef87b224bd5b1; 0x81f31398efb5821d90ad9721a39a7fd5af88d93829c6be9da7fb0a06506; 0x23d6897f0efab758bf52d737177f448838bfbba1b6f0013bd4a04e69dc7; 0xe06b9d555f3943730f3e51ab7e0a215015ea2f597253911171ed4d0b3e9; 0x317303aeb71fc56e1377f02a98a7c94c6c7b654ba692ab7a76953ffc94e; 0x3ee6294f93ce922e1db5fd1cc49ddc19035e95e1a3e2e81ba347f951a46; 0x3eb65c4900284426d04079600664bac640709af5f5dcde80ff0eea6092b; 0x75526730bb9c399f8301afef9abb52bd23d3d34ee2f4c731767dfbe3457; 0x147c2ee340b95c83c91a30c3a1d8c00f10f74548796a097dd652beb0c33]));
    (31757755568855353, (2, [0x0; 0x0; 0x0; 0x0; 0x0; 0x0; 0x0; 0xbedc40000000000000000000000; 0x0; 0x747dee1000000000000000000000000000; 0xd; 0x10e1ab06fcff882105323aa87752a5eb741cc50cc1b7b175fd9fb90980c6; 0x88ef829a30ca4e10bbfbf1daf6e69000000000000000000000000000; 0x2660a581d1d55573f757048f651a68515a05b7d1d49b54; 0x9526e13fa6c0ff40d40c30282e593ab3b742507319f39bebadfe731ff58; 0x119ba40732783a63705c5cd291a1d77a4f173172a067f4b502b0cb74d8a5; 0x1c76910cd68f72fd199c541caf30f9378ebabe1cbb73b1a09a14c7693bf; 0x6218731fea92b151aa10be61f3b74df85f41ff0860ac6c9fd026f68f8b9; 0x325486363f1d4a29a028918e491516cdecab86e2a04608543b8b02f249e; 0x177ff8d6f38ff488f9056b0ca64763490aff7e699d6ae924a6e0dbd48; 0x32ec74a975a891e874c8bf500935951d52ac863944e3a84c7856c6b1d9f; 0x3675cee04f8730a7df2e8133fa06e3fd4751db95d596f9ed3b0e2e904fa; 0x25cac55f66dc58f9a0ac16b4737d5eb3c0e34d7de20043bf51f0402dc87; 0x2b3ea3c080bfafb26691611dea8734369f024c0a4f148632e426df37376; 0x3906e2f7ec612ad194710dccb0aa8436fe898d155aab98599dbdc894781; 0x9b1e385cd29382ffef723d379e9ddf8cd26635e3f3d5f8cfe0f8451326b; 0x1f15342f1b60599ad252d9193cd6b9efa8282dfa37f5c15ad11948321eb; 0x2de1b6d0d0ec93c83df621fcee9e7143b69b1e2e1df0572cd38110998bc; 0x129fa453074641ed63d4224c62dd6fcfbb17bd993fc844809c7d9e1bd6f; 0x1216b1e686369e62c44c1c1eb5cbd5e497b8854eb1e8929c483765206615; 0xc6f51e5174b626a41bde8019434a18286780ecec5ac4bcd875b5b1ff; 0x106ce01c1fa4d75882a515c987ae771331504c7dfd4fbb29d6fb9f83327; 0x9ea97e4c49c4a8e91b5b985116b8bcb4c2e0f0cb56795f03d019b720641; 0x1b6baf72bad7800a435cff5cd9cc9474f163d283e737e3da1406437ff29; 0x7134cbf8ed1f3dc733256354dc41a608382ecaa505427311d8fbd7b063b; 0xaae92182a1dde681e67d838c9d9da8e3e067bb05b29b10a0ce891c00b0f; 0x11178e0d33a9cf95a2df33005c8a909d280e4615497a7eb8d5be13ad90; 0x7557f2f1cae1f2f308659ea5e047ee5e8c55cfc27ceb7abcac637617247; 0x10f6e1c51f6d92ede7d463aaa6385e23df7ecafeaf21580e322b42f5d28b; 0xcdc44f01c66381ee0a24ba673c442267cd79bc514725b83f805a58700b; 0x58de7215797cec1d00dd839d2c432cac4b3f3d1b750c15152121fab7; 0x5bfc473c023f366fcc43597d354bd4995a40d869d0a1d98a29d75282ba8; 0x1d082b8eeeb7c68ff629ef29b0f5fa757f59a81d0e92111b48a23591a; 0x5dfb69ab767680ebfed01394ce68ed8c67bb212acc3aa3478d006ecd557; 0x5971ee0ccd98d353105da4dd4ffd12737b18fa04b2f3c6095944be317e0; 0x29f7f5b10f2d49423cabd09f2b7c62ebd71142e283a945c9932b59a6929; 0xfd80fdd2df9a497942e221ae5847fba67cacb34e047fb750daa2d691da; 0x67dafd6359318caba8c1386e620e138bb74e8f658a69c737a46daa1fb06; 0x2e41fb5f7f4614544e6cd93605320840ff3ad172a04b3fbddbe1764e32; 0x6179f096b7952ab049610cbfe577ce62cebbeaee3a6c819e5bc68ce0236; 0x2c55a04506fbb2500731fc3c131b319ac08c59e8418f0358046276a1f; 0x647685ad6c561752b0df35b8a69e811326841de1eb0338d2b1f288c0a8; 0x6675cb843138dcbae09fb35b5e1ba24ca220b74ae5f176e25bc817e996e; 0xa664118bb9ba1e0acd7cb93046ed92cd4abdaa37dddd88d385a809dd688; 0x20b75d0e6841fc34f87aa2ab4c426670fc74705c0dc3a37d8c4b38c481a; 0x12b674a9162a9a5ca2c3491b68c24aa14c67f64a3867a338f5eab7747f0f; 0x1533cdb975564a03d221cbc1825d938d3254690b79bfda3380d417ebf0d; 0x6f1b05982ce26d54e5bace78fb7e05f8332868979e97937e16858802e5b; 0x131862b73d0f47ab93fa2ef60dac8578ea38f3bc15abd2c46927aabf937e; 0x5e97b3f3ee9998affadd8a6cad8304132bf0107ef350216a6a3b1664094; 0x8ac94e6f6f08fd8949cfa4c02927efe60773d5257542493ca73f6678a4f; 0x1084df3903f26aec05fb646e2b84bab4e8da1e2ffb8dc17d5b9cab17e442; 0x7f96e21dc528005e30682ab4bfefedee4aa1480cc23711ed04966bc76b4; 0x1624d2b89a030db406e018d15ff10d4fbed300356594907a210e99b3755; 0xd61cbbf0799c5116555cfa2035461d5593e3bb81e9e7a40deaa918534; 0x2bb91da58c38b8ddb5d59146cceadf706fef59f61322444225dbc0e25e6; 0x98032d4b843f3f10f7b0e1f7515584de804f894673579fb6866111a0987; 0xdcaa01f9b69b999a18f5940baed923e6a5864441a6779208c54d2cb206; 0x2eed633677cfd04dd58409fab61ee8dccb635133f4c9cb6841e33162cb0; 0xaaf17ef9e75abaf12c58912c36a53539a637b50bd09fdc75320c3db64eb; 0x42519b3b5f34e8ad0386c3bb64007f673f299f96665954ac4959755464; 0x431c1b430409e88a5e8d2e8ead6ecee20fc4136aaf2a43ceb37bd2a7de; 0xa78d0b514be9b3ef1c71ee8203069c641d8c98cfc54c3e68d50c20d57d6; 0x183e0fcbdabb0fbca4fa578d6a589f44758d829f21fc9e5fb42df8b875c; 0x765ebe2533499a15a179d5438fc125a8d7d071eed078d7be6cbe7b2a101; 0x1182a8bd1d56a8e937877607768285aac81e31008c021107163ee04ad444; 0x6c95e8c0356260ff5de5c7912895862ac1a1afd08ba356f1fb15cdc8cef; 0x7f4d7006d90f58efd383f7aa251f443248e4e317b1e145d7cc987dc5674; 0x9745671977c523f27856bfdbaa2d2ae8e5f101d21c9c8611369c14011; 0x711b8c8eb9ef93387cdb12b2a8030e10cf1b20dea87992c93dac4b32594; 0x24317945939d068df0c439f10f06201d8b6b5e63ac1fec8812b71064cc5; 0x958829ad02c57301c3acee05b4ba1cb9bdda190bacce67c3af69d7bcd3; 0x7191b75d43a75696027bd41f2bbe96f1ec473105f282221ad2386ffd776; 0xe7964f1e9c807a2660847d05216df67c432c2846fa4afcdf99a4eed0890; 0x9c340f1b8b4b6a9976bb286c3c16a289b9cb53d420631e741f79d37bd78; 0x1373ab4c3f81bdf82d2860d13a94cb484bad41d8f86eb25986f8c345e7; 0x62cd5346987bd7ea8d0e0fdece966ef174087f9f284ad30185530fe30e8; 0xa71c6768ed2e58d2a6d04777d55d5af0b47e687127f76d33d3085b57c95; 0x16c38ea5936d1eea4bab36151eed771c58897dee90ef97fdf88bc7195; 0x98691d3b37d79a22f39285f398d7d3b88668fd94f1d3d8b041dfe364ca; 0x3d5a919a82cc61cf3b004f3a928fcd44f39c01530e25517d118956af2d3; 0x11a9fb9d549f9a6f7f5bbcb4cc898287b2fcab4654514d221bb8437a92f6; 0x17d3d0bf8eef28983d9b5e53b83d1cb5a1578aabdc8a9efa7e4839c25; 0x484ea00e45950a51e12b9ee6259d2c91331c5d0115a93b8c7f86601afa1; 0x3ad9f56ddfff75fcd9b395e747280e94d1c196f2a4f87607647129337c7; 0x8b666213af4493f82ac4fab167651d65d415487c20fa36b4383e647c896; 0x52ac85bf7e054900ba10e64f26de5110e7b69457132b3c9bade40dfe02; 0x6bf62f8b25712818d07e68cc5cc0850d94c7076748ab014c1cf1dac9d99; 0x13652f5183b528dddae39c8643953cd701d66717571ec758e8a50124e16; 0x44537765be2c014f9771aee74d31b9fdc94f078d724dfb2edb0b63f2309; 0x257e1998cff913e877f9716a3622ee5b24b4889c1fcf2d9ab4849898bed; 0x154f8bfe8537047ad4b2ce763479ad9ffc41c59c53f955b546b0b28c0d; 0x4c756e9dd80a6304c5163818131da8537835b5a436f1b84ca25b1a10e47; 0x6eda19a404932b8393af4368c3f9e8c28074de16a24ae3f46e346282c; 0x2d3562ea9551a56697e9212bde238361a571b7715bb1c7a9fa5bb111681; 0x1b145bac25b8fedb64241e727ed660b81aa2cad49f0498a4f7e5aa07325; 0x5b1c3b4356b30549e8d1e580d2dfe968ed7645c03d62101ac6f85eccf1e; 0x3d082902d3bba3046c5613d9c6ce254431f10214251fce9567d0d6015fc; 0x11d9aae7ace9c1c593f93b0a57f3f413ef5015543676d66f349b4036cf4c; 0x7ed7437c9a177cec0e4f1eb4c5ced545443028b30e34b48570b211d653a; 0x6d1668e43fd8764362a63e58425a029ec5dc4be1084df0a0c0e8cc3ce48; 0x1219bebcd16afe2950b0737f3fa2406ad78770593d30ab43e0de8c8c89a; 0x801242a87451398f7da0884b6b5bee6659c6e1e33ae7ffeb3b45a72a84; 0x316a2305b869f51ac98972ad160e61b8e203137bc3a22114145f3e38da6; 0x1ee27d7b24552c78d156ab0c79c908a0cd9118ae8f5e42f89a39ca08cac; 0x9deb5fa518abf3a384346f1f0912022fd0cf27bd3c11532e209f44ae80; 0x5a662f4a6d3a13ea4393aa8fe77339629f977f30f71516b99c305f74cf9; 0x2f4b6036e4ac6183f8dbd58b3bd22e181b4b3a121f5f93b082df1aaaa36; 0x360aa313019df558f6b3f4eecf5bd7cd7fbaa65eff7b209499e6aac22a4; 0x14c9508f217cac8f5c914df88ca86c62ca6034f9d525d3bbb54db6df67a5; 0x278fa70c1fd9a7a04d9c3adbb98a86f654f176fc6297fb9f7de306b0636; 0xe96af30361a8fb415d4d1eca42f283c96be4e7a732a8acaa676a97a8b16; 0x3a7c119e6a616ee9e9e91dc0947ce942dce7648b0f9dca5bd5952ac84d7; 0x7711879c271c43eb5385fb6d25b965dda091ce75fa5fa28f602a6c6dfc9; 0xe7361e995a2cedd02bf4b1f5b6ad75719a993eef8aaefd880d56b6aaa11; 0x8b9c4136fa64df993d6c264e90f9c51874ad70131dd3eb62ac896d26d; 0x42be0d4b67632455be8dfaa6b8725a86b1ff0a6276df94e0dd520b50aac; 0x112ee31a1213e3c257005c1f962a1a2debb03949cf3e2a900af49067424d; 0x6149bc7b3f5b59bda8e29c1884770e95df29bda7aed7320177213940db8; 0x48e5bd87554f18f9b2f9595f8e193c03acc6faa1a71f636bf0a933a53e9; 0x119e1599442ae4c164edf76bca2e334a689c8c516f13f9414f78ccfeda61; 0x3fa4fa7acbea32b351aadeb066ccd719a5d165a83c380bece186123094d; 0x869853ff2696a93c2bbe24bd742b9694f854ffec215b66c13248348dbdd; 0x7173e3a982c06f752fa2c26a4740023e133a626f038c21535a1826efde1; 0x3bacf6d9866b9d43cf1b20b4bf2b332fa7b5c98b66e3a4b3b68ca4e2eac; 0x17d5cd7a6f41f857ce525139382af9c173eb6ebb356a614504aa83abae1; 0x19b890fba64a941a6913c7bafcbf3a38c1c7a55beae1219eb271b1085df; 0x4e851aef911d1cfd13f1c31c75e3c61da834aa40c9545bec29f69259952; 0xb969f211766cc2f62671c728d8da3584a9b76a65e7d0f8cddf8c9850328; 0x8bd09cede116d9600a4065862cdef684ad517359316f8b7619c7d46ba7a; 0x74747625786f5ec59e9c9ce8ed9cbf3b486ab4b02d58252a2672585cfc5; 0x140e5fd52169ac79942419a62533f5ddabec25de40cf596c999bb635039; 0x2ab5ab3bbebc310c1b7cc82cf5abe1ee4eeffb1e2c7b8bb7e15497795; 0x2b16709ada7f01d711556af182b54fbc36bf5f251380cffc3f52da116f0; 0x91872f0c930a3548358d5261797c4c60027fef0697aae1b51127634dfd; 0x496786dd7ffa5194145d5fc967b5faa04a69b82810a08f49b015874d18; 0x4ec19e9a1b673c22f2058a67b7b8a2e8a09e47aa9a6f6d9cd7e44ae322e; 0x2ab31bca53d66e5257ec24135476bf2adab309ec796b9fee2b53617b26c; 0x3ae4d36e4fe1e5417e8cd667fc2b55b96134936fa4640d8a7405bceae92; 0x2f3326979932cc09e0044feafc1d63522db7a55e3169168802551d1895e; 0x72db2b4580b47a64bbeedfbc1be99fc6cf4c722029435990b7b0305079f; 0x6979fb63c2f703c0416b16ad771312fe75f904e40def25bfbe7d7decae0; 0x144284c3a9a79378434b6521a6a376e4b68a3fcd7baedbb4150d719bdb6e; 0x3e2f33587c327f47f2d8b58b334c9fa199800f303491a0bc0e3c238076a; 0x5af75506f33d33394be992f36c7b2332700822c8611aee8663bb904209; 0x6e1aba72ca89967a87b76953081b4e52a39568681f9154b0ea8b836f886; 0x946241d11a68baadad2016123d06dc6b7ad6ac6dede9836601f87d0d5f4; 0x631fc8e13dddecaa566333ebd3202a6cdc2e195cc63a9a005063a89d30c; 0x4a6ddf20fca85dafc4e2ad27b8f344ca93851e5c942ddcc135d86d61842; 0x5d95f3734bb163eadcb563956a005c6b886afd87b0943c641abfbf1eee1; 0x5e10306da6339396404b3d379a36d47fb6e6bd291705d83c60b981ef6f; 0x5bf9c3b8a55332e9522ba83c13ab5208a5444a74b52eb3909f155941d3; 0x4815b866bbe9b820eb8ad954720c0b32e1bc96709de06ec5a9ff7188ab3; 0x15273ac9f3115caf8cb08e77daa18d8d293d94d20f522a18c72a4bd09150; 0x762a2b9d827883bbe61d4c9528e4ff71a500563d5903dd688234a23a62b; 0x39a5a8d2b035fcb1ad1e3022f8baf1734259c97695150008120e3234a1b; 0xf2b09b1d584fad2b8c0b7bc1cc2e8dffa9d02d4b81a0f9b4e2f99d4d4; 0x80cdf8c807df0ded77ea4ab3922941603521bd9d4008a2e53830b355ff6; 0x23c03b693718dd4c54bab4825c8fb3f375c2ca8d9dfc3ef6952770b8c4; 0x6a1991b5eccc552460644445b687276145b4787755cee8f6079cb31ce8e; 0xc657cd70f83bda259a3ad301b779e4fa1a408ad4f98a9e62023519c76; 0x4b4ec59d5154cd9b8cebb6cf7e8b12c26504bf9f4655c19c67fa7bd92bf; 0x39f035395ccd43a2e8ca17cd522c7b40c7198dda5fba783eceb46315448; 0x8ab018e3ecdec55f4ca514f49c71f402fd51e020c70a43719e00474abf8; 0xa0ba88dcdc5e4b9767fcb97511726d8e20451c54f276282854c2c65c38f; 0x1493a1e0f74456dfcc80b4f586739739a02e914ef9630fafc8bebc315b; 0x1b5ef6b3dad9f12548e6011e20270e2735166a32df3db08c262a473f5b; 0x40f5702c34a3a84c37a82ff6e27563dd445a04dcc51c197bf55ca06f9; 0x20b88ff82b1e0adaba885b20f6a5076a28308ed83eb4b61b0280111d32; 0x142294bb011fddf6146592206a7e2879dd5e6f592b4a8325623d9ab35f7; 0x1c687e06e8934e7443b710f173be5c1cbe498ca30890a708a6f9cf21c52; 0x13a031b372a5b746e2fd878ca31fa33ff7aa8e790ba8a532472cc8ed2c55; 0x2d8ceec1bfc961e82c2a5ca93fd3ea5e175b19604ad5a193d93a92fbb25; 0x1836862fc5daa0ebb9a44291b5200ac801c81b5d7cd25b7362e405e0235; 0x55412d6d3c3e412196fdd22fede92e29f0391fe08b1e71583b3dd41185d; 0xa03328ad6e014aac0b291485a05929b2f47b9c7c4092ab7a5aabf6777; 0x2d0453187e4b4c34dedee0bbecf25429bc14b5a4387fab70af0968c6ebe; 0x3cfa569fd61572d9e8c7fa515ceee6faa0d253dc3fae4ebf1b82b279b0; 0xef00e0ca68ee185b2fb43930abe783a52d01a0fb7b403b518d5bd5fbd8; 0x1a29d2f3f8e5a4fe4c4dc6b94b996d60e72c98ac7becd99d2ab8367e859; 0x227404e5da3223dff0279341fbbd10eff72ab5ae475d15db44a0d84c36a; 0x8f57bd7db54a457b4c9209a3f289b6ead6f8ef50a9ef621fe6b7db4c832; 0x15992ef920cb259ab9b963e3ba07d29f05e1319964b36102f04b3ed56f4; 0x1886ecf672ade098b0c7b99be3e60c51692d128ca1f4874174f1efac505; 0x138af6656cfdd71bd2ce2ab9851ab25e23c68c7d9e9e2965af3c09184ae; 0x1b58deb3dab2d81f634d23387754363e66dafc175ba91202483535a9109; 0x28d5385a479337e4e9dcea8ea26ee55f18d5e580c9ecf3190aca87b6d67; 0x972571b4f937504191ff94d8a318aa5f41c2c21723a2fdb70ca87410e07; 0x4e5a51c9d2cef03eac04adb5d8a957374868c33d28fabb9cce10ec59e4; 0x3e26e48e31128638a5ab46118f71bcbaae16d5ba051a402c2122a67ceba; 0x3524cd1a92f7e0825c74532b0bfb6a3af3ef65dc76b15faf6ba67640849; 0x35354d4c42b30ed140bec6ab35b6abc687fb721e2ea6d7749f6fae011e6; 0xc53635dfbdf38b2f95919847d6d591dd7f23a7f678bb5d1d78c877edf64; 0x3239971273489584ee5973625f807c04408fd96f2653ae442e322ae0b1d; 0x7738371dd866d197c8898af243d4fdb486e26ab0b48c566769dd870803b; 0x14a3d71cc60376b3f841ea4c94f9d9bf69a2ec0f3527adb452a94967a18; 0x80cb513e627f1b5e3bb1791fa428dd0365e2fe6688104c01c4554a9aded; 0xf70a5ce876f5187a8e684062e752c3ac2d69bd1c9c7db06d3cc29d2b1b2; 0xb3e678e6d1530d63bf34c22d2edbfaccb6b4fc0d6391de7ee3c1758608e; 0x4e6be3b11250f9dc5d207b34213b391338a1f651fb23cba14f299a2ded4; 0xb8b76af2f914b017c8a51557238cf1dac322b45269326414e22c456d6c; 0xa6d396b6f4c0c96ac57bab09f107b653bd89e03edfadd86d9ea7931d46; 0x3d9e68580e3257a8f4ec4d50cec40f1c81f1020ea45730470e71eb6ee87; 0x1270cc872cf8e3e2368a220428dae0a0edbf4724d261ff94f842c2dea111; 0x797ee914ab1a607cda12c290ea90386a75cbc5e1a25faa61f4a29d88f81; 0x8efbdba44324b98473932baea7ee1142d4b2c23774e6db19da5161c1d1c; 0x3138afa7fe35eade1f8586310dfc84683669d82709fb3e2235e0a1e; 0x240617ecc25ed1bab43795758831dd6f4ab6283ba11866e99fd59d4ad9; 0x916976f3e7f50b205829ef69b6e2a26b73d283bfb668af4ae0f3e938a8a; 0xcf1f2c4faaae2daf0d996c702a2541647468cb312a7473dc4a8176a7ec; 0x72ff03738183b46d0cb8f6e7e8ab8d7fa7f7a972bf950c8af2710aacdff; 0x3929670a7898be464ae9d5b352da9b7f416acb8f5e9e51c2fee8c9a2255; 0x923fca054f4a1ab515c8964d24f12482e22358f50e09a3065914534e4af; 0x3e33f797e30e7709240125850058d8109289ddd544bb8b20533be1c8f; 0xeba7a0dc09d90a56f7b8db48c957c4ea7c5f039f2316551e53bfcf99a52; 0x6313e716c07b7922fe47da50601cf4aa227029e52e93d3151914b3def8f; 0x636d3ae72927f5c944b20294cfd74324a6e2d3d2f54200bbc297850a76; 0x9754f545921b1f95085f4c9f82494db3a4c427828871466c44bf60ab932; 0x781090b8e4b69a894fdc1d583e84392c55d2c83e641a8c61d69f54facb4; 0x6db1304faca31f3364478498646001dcc23167464c4e7a02b781d2cb60; 0x1e4e090f36f87a49892ef06dc7645a6d89bf238240a73659022e85a6cde; 0x348c8a317d9b1a19532f93b6c111235b12c2705533e1bec9a4ff16424f7; 0x1488eec3fcf1205782be20045d8eb7963a6f0920d5d3f6ddc16d32378f; 0x2574c78a95cd1db40de14357d96a8645e5f2da10519ede99bfa14f1ade2; 0xabaf8c6b094fd0f32c2ccabab864dbecd99144679c1adf804898fb20429], [0x0; 0x0; 0x0; 0x0; 0x0; 0x0; 0x0; 0x2fb710000000000000000000000000000000000; 0x4a8e0900000; 0x0; 0x0; 0x0; 0x20a5e28a550bebb6bb61a47cad879e6b100000000000000000; 0x22e776c566621e777998c5dc45c05d887; 0x9e1c84e914c2fae72e71415170ed67d59cad27f405f0eb413e95148fa7; 0x541f75312fe4448de4469a04f0d3c79f18dde8b9bf0895bdc66a97e3f97; 0x931cee48328feeee0b1bf1e4c3b4be02df566d78d9ff11c38c2e8ae85a0; 0x8a3b2a5202a745cd350aa5030d2f2e241f2652281f6ed4ceabfe9f71a34; 0x1748cc7ddc14e4cf13316e30e105c2a34a611f158361f36463b5295772; 0x1274823833b790682db1a2f7acee573d5197d16087b9f8e0a23d7d93402; 0x1cea199e2fef59e54ab2cc1894e1321a52ef0ae283c6f1a9f770e431f; 0xb197199505179e3a377ad48b8a014ed19418abf124b4742315802f1bcc8; 0x55488789ccaf1b42a1ff180c00cd6a86e7822e8fc810e1ae1536ca98b36; 0x1ab0a1fa00565a6dfe0f859d5ec0bd5b1cef665bdb993a10a9a6efac5e6; 0x8e7aea496939a85cc50e105622136277cccdd6b18a584871bcc3e26eef5; 0x6a6b232fe6c46edf58036b8f36e407a6897900a419d0f1bde381762cfe0; 0xcdf9a2db8d02f5316aca0780f850132ff4724c200642e37ba4207dce73; 0x208d3fb6f9134506e6c790e523cb0af1c03558075c51df09739c5ff6ebc; 0x7ff99fa42eedb67a8ec4496adf2a03788a9b4f919878dace25f3fb19b7; 0x9f17161262eab575d7700d0478a8e8c55d15389ec5d3bd23c6f1348f1ad; 0x1005d1d22b98f142ab781d29b69fcc8ab900c8a43a47a26e6c1eeb26ad8; 0x15026dfea40a5725c3880b05544eb2facc35657f003e77db1481f5f19f3a; 0x4d756f0e994e7fe50ae86422b50b3a4d366f871acaf94e814f280e0c175; 0x59b0f5947a25822562f9ca26c15737fa499d486597442017d09398796f; 0xf7340fd11ec0566af2e5c682223cd1accb6348014b11fa5a9e7ed81a848; 0x81859b86947e0daaedd72755c48d2be91ecef33f42e4f3f66cd5876645c; 0x853844feea0757deb0adb834e1f75be4fbac9d07bfc4b7c6875b643b05; 0x709f0fa67e289a6182589f3cf9d7c460eb927e901a6e779827c97b40545; 0x59fce20774aa05427b56c949fec1ac9cb7480ea2a046e1e48d801cdbe9e; 0x41775a4cdf78fa25d07cea61388bcc64cbbf4a8f27598d1ca7fce77f486; 0x8ee06fe48da91d021f94be2ee6621ea26e9598677df742b20c02a90df3a; 0x471cb7c958b022d7df93b7a4434f0cb802b3fa018e398d5c469b9e56f3; 0x1163b1a1dd43f13ac135a5e1dfeff2bf2bc238bc467d07ead0fb1645a69; 0x552334a5c12bd7e9201f489e18a4367034e489fa6815e6222e84cc7f85; 0x11d5827ff047bc2bc1e9fa46edad99800ca5945b05297074defb54ee419f; 0x45fdc8eacbcd814dce337cafd9a62f8359a4f9008e13e6eafb6682d2942; 0xda4ff824094dc594949ec8d75380d9b78e0cb4814aa8a7e496479bea4e0; 0xe86db3f6a652f7b20d5613e88e422020c13c162654ad6dd8c7ca59153bd; 0x34a04992ae1b93c28d8f4d6053345d66f8d7b766f0c96f51cbbb13aee2; 0x102020984c37909415cf9ba1156aa3b2287aeb81f3ed0e997c3384b344; 0x1751d2526a38947784c060d7e3fe2247680917a0bcfc8d733eddba3adea; 0x5890a49f74792155d0bf286ab09a6110cfbd3014027b9901ab919066be0; 0x4f809c75e2711f4519d4fb499c2729b6913c244db42ac4ea103a2b97b32; 0x3d72d4f9def427718479059c1691a8341d9d28be4c7db959735367ba3; 0x3fb3d2e2ba66423faf6a2a8fa0bf376854c844fa65f045327de187df494; 0x79acda799cbb77c4680968bb1a2ce76b19e5a8103439ab400888eff0da6; 0x2cfb2e95581d50a61a541d2610b62fcabb36172475eee3e68f59de786d9; 0x1d219229d5b442faff23351135d8cc56a40ba9263b67aefd8e02f5c9651; 0x1060b0834ea4256d39e46c7af1278673d7b5c13248288fe24ed01bface65; 0x2a4328d4898ba187247ccbeca8d8963e94f668bc4e2b014583aa1edf448; 0x3d4f499e5224cbe6515741a244745c05b997c59e139bc9d0296baa77a02; 0x9bb1ab99c2dceb1d1920d19d49f140c51144b73a1fbe67336e303937e9b; 0xefddf47a2a21bb78332f7d393bf7b971c118ff1bb398615584457ab8dd; 0x5ace0fdeb233695cc2905104480a35a2ca494cb57767e13fa835ae5e739; 0xd29026a2684aa0984233863c6ceb0b79cf661d6b1b992868f33ef5b37b3; 0x4d07f7f16d5b15f591ac62787f6d1616fae20d2de79b712ecdfa5cda44c; 0x661d80f42092d96ca0d2c26f5de987f68be93331107c49e2ec38bd142d1; 0x2aac170e5688fb607d829a33a459be2c0dd891bb8e24ad81f7c138c7b9b; 0x3f3b2ff24afc377965b3f2964f87e9dcf8692f1e171ea9e32c0b03f3ac7; 0x4e3fb9036dd2471b20997eb1844603a4c4ef8b062a2cce4b98f3606588; 0x3eb1f8db3c958bec1ab46be76b84c01da0379b540a154dadab503b4c64; 0x14792c7dbe3ff19988dee673be17d64beebd0988b74823078258af5d5132; 0x6121bc1202a56cb33d1c8e93dc7073f78b366755b3b6f5cc61476af89ed; 0x2fbf0c58104003c299a832c63d897e448de4e9f931a437c5c3f9fc61f05; 0x2b15448342ea575ea4970acc59e1a6bc31f33b7ed843854db58190187f9; 0x225734df1fa31eb136f3f00a24a1f9b1de77c07d5b1ecda43043853fe0; 0x313b77878779738a09def00009e594959b71bfd48f418795504b1c8bd9; 0xb8bbe1fe99cdf503a9637c517acbe53c1059c5e579cc1405773c50ef768; 0x25fa2655597e063ed47341c42f52c8c48bbb7709b9bc638459fe3158f1; 0x931f875229dd0b84031a68494c13e64fae80cbbdbd1a1d78dedeb6c37d3; 0x8fedd279747302488323a192765066a3f978c607aaa5c88b86c87c3b4d8; 0x372c17347e4cc294372cac6cade8812b3f5abc70019fe8de4821b007b1d; 0xdd11f1f870ef3d1e9662d512673a2b7133da053a0004cf2d6e801f06832; 0x13e40afb6853a17c88ccfd179806c741f203fe4ffc0b487f65af41a2e6c7; 0x7b6b211bb3524e10e9ce8fb5695cd9b332aec03e67f1869d93b696fd68d; 0x52446945b86596f532d71ae36cfc0b9ffc9ae46dce960a57a3a671fd6ba; 0xa4775e1a779b0f717cd9df93c1d768c9a93065cdf9ef28697702485814a; 0x62bdc4d3260738b028599882e221a4acf20ec38267bde90b4efc2c9ce44; 0x2010897ff98c41a530049ef02365620af7b1d4e752b8486358ae7b2c9d; 0x3ef9adeb1265d625e6ba93dc7282e7dd7b68bbea0fac2ff287e6f0d9b38; 0x590b7bdcc01a3fa5353eb7a2b032db9f6a7f249619b046a7472ab120286; 0x12ceb88838d5318f84d019da4bd50ffea4c045a8fd523c36a151142dd26; 0x4c673ef091647d5a2c20e8a02380c6d8d321ab196e7208463dc7c968ff3; 0x5a305964960cb62bf96c0a094aeddb97205e2c8c2dc9002661ef29f; 0x823fd922f820bad425b6184a109f04667718d0afe7b7551025f84c88c3e; 0xa845970b2cca041a1b068c211e3934a6dfee21e1e56d4867fd1308bcf6e; 0x637db3a13be0ec9d7bff92b2629df9694fc25a0b636a9f83430d03ce6a2; 0xbf9f986de25c535a19d0acd08799a4de0ebe999e39eca9eea824770b; 0x7df2054b51569fc955e7503b8eaa0612061c01b88f7a26d988bbf9e59fb; 0x280b5ab1eb2d2a55a6ee6772a3217f57f560a1aea87c03b9c0f85ff7; 0xd2534ff20dec00e084ea46d5d415f6579777d1ba9203ef5b6a1534266; 0x10ea347c6a0847bc49925e29cce1cb4af5a825cad72a06a0ec27eda5e9f; 0x4eff8fe62729734cff809d51d7621a4cfd5fde7181c429cdacc7c55d1c7; 0x12dcc4fbfe4729deb4ab4e5c7025ce55f1a2417cb23ef0d24427b7ad6b; 0xbf32bb58bebc48db98eb1ac62245e070e3cd2e78f9de432da0304b8cfd4; 0xfb416cd84f978dea21063fa28ab7be38736c5743f6ab0be2249e65d3e4; 0x282bfeb873d403c6d0465b57ffd3066c2897f8ac2c87661bfb7cd882206; 0x92c9afb1f186474950c33ec9c33a0cb0901a3bbb9bf2299ce1f2a51; 0x259c7188cad423331758fb2474b549d39e52b155060977781abfec79ca0; 0xde4bb74c245365a1fe3abef468d52af6ce5ccfad6dc39214b67a6705fd; 0x31df49f052bc753d9cc2c7a46a4499b6f3cb36c3de7feed682be77e3f43; 0x4bb1c394651ea351e0e5d37d26c82f3aaf794cfe1146fff3659dd4bc00c; 0x18630e913ec7c11516aaa6f8e7dee56e323a4c039e688bd4fe92f602f47; 0x13aea83f7014dcadd6be654b9d14637f4604d84d7b1d8ed520a51e85a39; 0x60711bf70d3a9e7434d6dc41bd9e9c936c38f0f6eb89e4fd8274d132933; 0x47d09a7a28eed3a38dcfcb0d9470ca25e1c8021f2f635fa8ec923427468; 0x1765cc5a3195f4c1b3e81bf5741c4a8e0fca51838b4a49d49934a41de8f; 0x7a09db0241bee56e7226a93246beb405bc242762cdbfad0a19e99bd08c1; 0x2b6bf903f416f065d3b88310984e81233573cabad893db7646f2fd4cd1b; 0xbab640a7a1da23410bd870f1df9f127f89f3b009c7e89b9c095a0182a52; 0xc887b5bd483dea2cc1cb8fe5bf4b0c591180672fab59405ef220c3dc98a; 0x1c475639f81f7e8300414b3766fe76712fd5b6e5be1a92acf13076bf8a4; 0x2f1166679776d48696ffc73162d0a98a09a86be73b3d0f0eacece5a4fcb; 0x91c91dfe782e1db89c074d5e283f6572a9cd4035646094ce758dac5c15; 0x267f6fef76c94f7bda932a57ab72674ceafe354a9e7a272403373b27a34; 0x817a1a3a2fb71c5ed710b949ff11f04d6624cce1f2a26ea35e6d929089; 0x5c314c088f317359f513b335f1d8e9861754d20325c29fdbf7d8ec4030; 0xd89b62bde9786ebe502318b478459b3356c37f199c780151924e5cff273; 0x1c5ab5877e631f4fbc5f2e97565f7f47c44362c30ea74d304208a7c0cce; 0x86f18b0885148a0c7825516960588fd90a3c67a32c2ed71289d91df62c3; 0x634473356bf36255291bd0d40388bb4bbbdf1ddaa1119a836d0c24a7247; 0x94b49529a2797e73f683288b1cd57c287b058b5a33a84289d07206abce2; 0x21adb01b0f3f0ed5e6f84dc12618acc0e6dd55ccfa1d3218cb399fd768; 0x2496f0c659b0f3c095b5a7722fa8e8dc7bf1eaa93743e4f2b92242f36e3; 0x13e014166998b8ed60522b2522acfcbf6435468fa0be96265b31aa4d25; 0x4b8feaaf7f05312d8c55862dd6686288c7e40fff03c2023e561d25d9b1; 0x1289977efc4ac425ba1947d062dbc4b6972eced7bd0cadc8428a1a15fecd; 0x8267c5bc71256db749beffcaecef70f0d3d1c60e90e7a5816d1f10a8565; 0x207d87b33576c47c0fea205710dbb375daeee29ae1d90cdf2c6874a9db; 0x2127cfb99f5e24d04ae693b065907234e9e1086d58f71fea885386a88f; 0xbb45bf3f2c18c9c8e2ac3aa7abb0e5e08a95c91d5ee41f5374d89b067; 0xeb902ebbad7a3be0cb96406f839f4df2880bdd20be21b8f80df3d57110; 0x7fce867e9d1bdefa59b75c768e4f85d602977d639c428e713aa0f16e309; 0x9e8549ba3cdd2b70d8b11b8669853c16e9f928e9cd0d4bb378f4a09ac11; 0x18fc7549bce14777619365922f2dc5fa0aae97d65b20746c9fff420bccd; 0x4f57b5b8aa3553ebb3fefc760c82957343142c210f08592cc4ec482ca09; 0x2d971d2bad934be040677679409e224d9df62f6602a16b213fd9cb8a38b; 0x16912e623d502a25481cff088c4f139c9edb8fdfa199fd9ace0ac857c3; 0x37b30aa26ac01614331a5974a36d340a7804982b94c18d658161ed83c80; 0x6bf7692f19ab26458858edc2f33723049882d68c441de096b8a26b85035; 0x137e6493b89f71af464b234176c30e6aebaf48fc06a252919ae57eb36221; 0x95a12de69dc844d8297b9422ea56b2e73d35bbdb6cbf8a1b6d21b43fb8c; 0x4f789c590be7de3fad8713917b707664c8916a2507661c85ddf2d7c31e6; 0x1584a04ff33556bf178941ecca13eb66dc7be3b0847f05a4dde313fea40; 0x139beae7861dffea3215de9ac2a8b2a5427a9595f13fc526630fa2685eb; 0xb85ae9556960d60890d1f4a6e7fe5fb1452ae975d25775c7e9d69267d8; 0x7eaf19ddc7235118e67a9cef81bb8a32a21aecb338f08e02ee941c5d0c4; 0x7e85889861ab29853171bf8422eb8f7b2eae46109d121b25cfa77c14285; 0x53068720edfb4f3b4dbe9d670cef042c8edb9afa81fe26b30b290b973a2; 0x41be13499aa70f14237868d67108f039564998d07bf7c76625f6ed3cde0; 0x19a1ece62635348642eb8f0dbf0715a593a4df8db5dfbf5263fa1791afb; 0x2698fe90eed3bb52beabc3c362ae4cc204e0664c6a908b2028d64b4be; 0x65ddb8c9addc7ea5dd1785b01d2d66935a9f94491a08524fb8bc2eca7; 0xf8526d305fcdc6b4ca3dc94caeee179d6770b6556d6f84c1b4f6e5500c8; 0xffec6db0946139e86c4aadcc99c4f9f54ed7dd5a476650ba36f42377b17; 0xa39e7f40a4fec1c6be3d93d60bba2d5f609bfc3a73ea1526fbdfdd00d2a; 0x1fb56d4440025628ff54d4e1bfc394509a383ec5cfa699759b52d1476e2; 0x12a90bae3bf8482eab938c8f38c2a587956a620a60d33dc81bbcbb65f4c; 0x5854de193ec91f271076f497a9f2f84488e797456f68971268b3b84b15d; 0x1491120a2ed629e0cd2da3de6be49c82b08b2f7acaaeb9906d5029e4d205; 0x2755c3aebc2b546f08f4aa1c917cae96ae23c52561a6fbfd8d0421f5460; 0x630464f2c2197f55296cf6cc828f955965e85500111a481bc46547f4394; 0x19d57380e07a2b1bbc1753864281f5f7efe487999c62265505c0ef91051; 0x156131123c7f5d31fc096e3a6ebd3fc2b9727e8261929076f45941bb74; 0x11bc6b518156be32aac32da3749f207c86c9dd16854caf04ee2c2a87e7a; 0xae8b93791d3f15ab15a51524456241800c8f92507712a85cbc3367f26a8; 0xde745098297fde625bde8975b1f1f179f004b0b8d9c5da545845b0d6c55; 0x6dc5a2e43d033d231da56a763c25f7d615e9f5aba61715cb1b3abb5f86a; 0x14475c64b3de4d781cb7e7d9c0ed6e0eaae24b667a3358f07e6558fdd50f; 0x55b09eec60210e859567fdcd848879d100c08bb7c7826143c5e68985cc]))]).
  - exact (Forall_cons _ prime_c10 (Forall_cons _ prime_c14 (Forall_nil _))).
  - vm_compute. reflexivity.
  - vm_compute. reflexivity.
Qed.
Lemma prime_q25519 : prime 57896044618658097711785492504343953926634992332820282019728792003956564819949.
Proof.
  apply (pocklington _ [(74058212732561358302231226437062788676166966415465897661863160754340907, (2, [0x0; 0x0; 0x0; 0x0; 0x0; 0x0; 0x1; 0x0; 0x0; 0x0; 0x0; 0x0; 0xe983671408947e703f46; 0x2159f721303a8a89030ee9a61205b8b725be166acbc8ca89dac355b9d56bbc6; 0xf1191758b739401b23bded5fdf973329265f4065823c99f707b006accaad45f; 0xfdfb64dd151a7e9c72e0b9b0012e8b3080a3834c3f8447a95d031316547bd2d1; 0x303b7d0befa988f009ad7f900f8cf23242cedf01fa08ec9b774d53bcda3e659; 0x8546277a866768fc0f818aaf7af526d99dd37946c45504e2a52baa8125d0d0e6; 0xbc9a1be39aea43e9ff9e3972a67888be1d3f3a1ba3d28c6469002bfb5302f17; 0x4d8640b7762c36b67a93ddac4b0f2c4f62c8ff5ace2c562f24d9791ede1a6767; 0x449432e5afee0a8796db6a7b1594fd57bdc27a0545795ec6856b89907bd3058e; 0x69cdfc90000fd297e340c5dec04a7dd7b66a07f762274819871fc7355dcbaa2d; 0x84a22d414fdf1604f8560c58909b1b4f4b21053476d734a6a7fd9bb7821e3dd2; 0xfbe7ea61d22ac45e8ff8de11c9332658164613f95961731e36f8edc4a8213bc; 0xee6f017e951eddd0a3e2eb4c5544abd98fd2aa28149eb2f717d12984a5ab7f3f; 0x5763c4bd4f7e2fc946f2f5f869ce25c9566778306c3cf5cc852609198a6182f; 0x2eb570cd72941934b1e60e03cc4297a37e408e4cabfe159622b441d0a2f3f017; 0x28d2e56efe836e608069aa00ed17961a1811010cbb5b658d777a8ede2cea76; 0xd84f89aaa418f407baa32d0364833aeabbf0601f5a5554ec0b3245b907e02; 0x4bb111ae68363fa35b036d61f8c4ca08bd27529f0dedf301ac3a3a2deffa1040; 0x6d41a2c000a6687724fdd78c6b8b69927b90e8d366af242831a70ed6ee4b8b97; 0x3706f8e91529c26a66984de23f13a8cbb928b3fc8cf90daf3b86eb6e72fa9045; 0x4af847b9650373407a860acd7d9289b00346ec1eeb1fd11803fbf1f0e69c6ed9; 0x26e2c23f2d1ceb1f2c2d9ff7578c527de0f6ce316b64684f04ca40b360433f; 0x4a671f77d723b0f76d1197c10121d2fc270c615e0ffce55c7d3fed18954c9949; 0x6886956ddecda3540b94ef013b5c68bdb1fd2e1caead99d61ca8983e8cedbe; 0x9bff66aa2de341811b8ac88c055a9315f2a37e6704007196b74450c04fddf975; 0x18bfff4e626a683745530e482c1ed1c2e918568730f749f86af136330e4c231; 0x1a070e9b52204319de4539a7b75a19920b372a0048f74e47ebcd2c75b95eaf; 0x7f7b4498ea1958e08d1ba8a8c6d5b9aaa57cc6c920244c9d493e460957a9939b; 0xc5e277994e14de0e1678c0816b0dcab6b8d88390da67aa3a9a1582a050f54be; 0x6defcda39252b3dd690884e35b9d254b17d2fe2917c3e67c909415b4a9352ed8; 0xa28739e7385c715a3713c9db8a236ea9a5482675e28e2e0f74a46b8d9553d002; 0x701b6f461f22add9bc78c06f546d3315a2550620acd076900a50af80c25d45d0; 0x4c5a8496f17625c131b47448c1aebc7fd535fb3a1e0c4232465cf81e079d3417; 0xa77d5fea2f482113ef235ae6afa8cf43b35cc94596c1031b630a15cb8a2d9ecb; 0x909091e977f704487093fcfdde606ba34d0bb7089059952bef2135fb668ef458; 0xfa079a229636ac5378097b3e5f462eec59c0a869988f2f2de815fa7e1dcb63bf; 0x30882a290c28f70e00faf13422fd7b6b761387c6855f38ab2b6622600ae243f7; 0x42212ddb630416b4440a53b683f0edb61ad5d706d9d6a44a313723af1cb956c9; 0x9afa22ab7f15604dd803a5d3fe168db0d11d8cb76d7b94ac39cde62cf18c5501; 0x55fd8fe2fc2bf3886c253d5cae5217b6b3dec0ea4871f7d3e0b317a90a07d864; 0x98349354ac92d45812256c24f811789285ed7af6ae470a4d5948268c8213f932; 0xf1bc24405961128b4893a85bb8913b37ba88e288194b37498d052e06cceca62; 0x892733534374137a3494887465ba233a7d753d61e70a2f785f3ac453713b6fe7; 0x2474319f72ae9e4af53b72d34a67c288fc04697321c29b1e6ef93efb9347ca2f; 0xc87866cb6cc18739d1857d9bcea76001c392858668bfd729eb1cabb9694ee09e; 0xf5a09cb938effa604c69ef1adeca28d17c4531f37b1dae4b0990f49c14bb82; 0x94b23eb619cf8775c3837cea8c39b40ef247ce40d76d745221523d05ef7b318; 0x2755be9d963b040f979fecd3a7b95dfb1746248ade5fe4d9f2c307cd5ac6e019; 0x3d369c5b496a6aab037ff59be0062f007fcabb8d914fdff55d549b195480329a; 0x7ef9dc52aa043d962f4af5e47e835deae714bb19b6ecbb30660a2f7c69f0eb43; 0x4348fc37e9770c0726f8be50845a196eb01f4d5dec446c0984c483e157c035a0; 0x1b387a5dbf8a21d1aa983df7bd2618a678a69e70357deb977b6e15e7de2d835f; 0xc65996183dae316bd50b7f7bb034d38e9c893c967bb95f441a83635592a573f5; 0xa39650d2cfe6848b0d7f930975e8e40313156c243635b8764523efa663256c4b; 0x8a11b997d1e083f201e75f4bce4b26eaec33c94e8eda32a4a3a6c8984152e8ee; 0x8de8bd8cc76d32c24b0137590a5d9c564c85a4f675d54e9386c59409cff06be; 0xf95c328f9a92de001b91eb64414f0d5d837e5ddb515415c046f8f08b984eaf99; 0x4f857f576f1720a60dc4caec252121137cc144d6aa7b66f0cb51fe4bd818d15a; 0x4aadf95d5b11c4b6b9ff55cb5e96cce1a34027d111c9795999173a67c0dc15c0; 0x59a22dc8fce7029ce18bf0e90ba8c9046377ebdd99cc203ae0cf4b014e7c2fbd; 0x51abc75bfc37e9252b5761c71a4c5404053f59a803d362586cdae484d5b66ced; 0x3474ff9d7cdc0f93e94c318ff0c7df009a756d76555c4675c80327e914f5455; 0x6458d70eb7ffe77825c758a75e16aada0082da9e6c0246de170ad51e4af678; 0x246ddb5c456246761c586b355c0d7d0d56628fb1890572e1214667e2f15806e6; 0x5cd39ee4c8991c0d4e4288eede67b184241d106af9386f81595fd29015fc2; 0x911458fb338675516ef551f6f40b31c16f740fb85e08dc9c65670da6d2cd2a7c; 0xbbd46c424f77f03750ba0d8b7050e45a0afdce167fdb603abfbdc8cff112514a; 0x20e7723fcaf940a68ca20b24e329def80b11d5ae5322c274ead397f71d8f627c; 0x9249b2a7b50f1ca09228b333c7c6550ec80882bc7df45168e215fbc3bb04f168; 0x5a9f986fb48712fc1cf3e163546284fa443cf903c6777368f1a98c3f7b88e286; 0x173319beae32c0ab80a07e2725e18937ed58889b9a1d2ae6768f2b92bc3b7570; 0xb740bdc18b146d925b235796c2ecf94fd21ca6bdcc542819da14bce1d1f0f9c1; 0x5930b4de1bc85b08a9b2881f39a406d80a3e57daaa7ab2ce3d5d10e4f2912acb; 0xdc7e222112d65f62084c6678a0f91673d71b4963efc79b19255a2f3f3a4c2; 0x4909b58ee0106f529229d0f95d8061a5247e8be98a44c6f182795db67a2eecbc; 0x7f4c8153dbb052a10eb064192f62aa44f62a2c25825cd7da3a15cb2f2d9c352; 0x7c22bdb1d3a0f8a64d53e9d0a0b91a7420a594f967b2358c4de41b230dbfc06; 0x2f15a19e293f9cef3deda952f43a43b56595dcaa8d3b110f1e1adce74774f402; 0x492c0edbe48f5cac114ce676109da175f547d0779a8d83e6110156c8e59ab5d; 0x3d8a234fa575db71a1d004186a478d3a3e0bcd307f70608792ebbe60509fe522; 0xa85355fa2bad7ecb5c73c75d93858cf81e7a982909faada02130eb40d4a256c6; 0xec9c09096a8754139bfcf80e351ea5db2a92f3ba8380040361fcf0ed39c62df1; 0x1c87f8a7b54491f878a439046f297edbb434bbe1cab3a9475021ff2c213d30a2; 0xc293e86d9a08d1cdaa5f0ee2e5a1ba3d5c156eb2de13cd5e77f6e49709809ffb; 0x498d61b58d60eae0b3c9cf356191c7bb52070e56ff9163b29fd98fae7bb1a26b; 0x5cfd282afb8ea8a8a4784b0405298e20377936ab1ef13a7f4a9eca1eabf33f16; 0x58144aab4de9f82ea6a07e9a3eb0b62fa0ae4887d1ccba48c42829115b0a206a; 0xe2488a59d9871d63dbf43c3f4f3ff9f24a3cdccc8365df9f3c69cadcd1a53e1d; 0x2fa58f8d9f58788559354ca537765cdee465a9da76bc84d918bf651fee0ccb3b; 0x985fb7d5ce723fffdd807c217c6ed844a502beb1cf44335dfc0a7d9d8fc86f38; 0x9347f7d34943180981d579a45511dd989236619370203b93609ccaf77969afeb; 0xfd75987256b9522f1b2feb1b5580d237b443055d743563de5a255d9c9083c5af; 0xbb8ea2c834db177080b79ff8f7fd25001dde00d111b2e9518e27a7ee8b20602; 0xf365491985543548dc16de8f3da41a49875ab364e6a7bcb1c37078a10d9c4aff; 0x382df728d5e89c56c59cdd463bc011d1f9d03b7fc7f2bc51b0cfa7cea466db74; 0x5c59c91b87af5e813728d0dd85d4de574f4e49364b06cb8976076901df5c22b; 0x3ebf2dd71074d3956a83ef2e59ac4ec0a1e265e3b3d3c52a5f4c42973d901b6; 0xbd599e02c2c0151601e556fe28cd67bba7e926b4fe6d810176ffef4a479b145c; 0x4d49d536772cd9f8e71b805eb0b18f27aeecb98c5a8d4d642351b829e80252b5; 0x24907f667e0fdf63bb9bf7d3a2cae7eeab99884f9c08148b0f33fe67b52dcde0; 0xfd472f9788f78a285546d75228156236a8f36aa1f86bcaa98cab39fdf4d2e581; 0x43159774a002d932f6b919ee95639cfcf19e576142bb76fdf3f877eb1b604e; 0xaff3133519d7ceac81d30e297c2d3a57f2d8548b972db26ee800b511146228; 0xf5e50fd066af810e47f893cc1740cb8322825f3a4575829a162130498772565f; 0xd665c93d70dc67df30a15d29b168934a0f2067adb029dd7bf3b6587b1927e08a; 0x29f7d3a99a45a38b5417d7ad662203ea614c66edbdc613316344c60ffb167da5; 0x955684ce821e248fc6f8b38370f2f28e111e7fb810b775c79467472251f7f354; 0xeef9139789eab85b9fb795a477f3fc738fcc7dc75252047bcd58a2657050468a; 0x13fa4f6a1dc00510b82929a38944b44c71e736cc5d8f4b4b807552453424863; 0x44c1818c389fd02b191b6e6561edaaa69b2110a8c858af314d4a0e8cd5a6932e; 0x21b07deb3b8bc776c1213539e1fdaafabfa56d4ae281b40390cacfa31d751d9d; 0x17e23a3926e7c0c1c3cf46ecb8fa3cd3de802c47b9928eb9006dfa9ee927dfdb; 0x5695192b7493483e95e7c0f2de8d17dc2c032672436b0ce7d9905ccc2bb46c10; 0x9d165b51a158999bada2c0573ae3ec25fb22f7ba922a0d0c7a5392fe5379f08; 0xc2cd2a650922130ea79d3c40ad11ae33c402c8377cb1546eb356b32028e4f7f9; 0x3786881a45ef2246e687bcc588708dba53e66aa1088eaba1d04ae2df01a21e4a; 0x156d7e635afbc22b79ab2f626aa4da08305c741f40d6b99b607a089bec1345d; 0x3db8ee365133797787bbc8b97fb8a9deed16027261a6e7a66ded4442712b3ae; 0x42727fc6856ff6829aff6a82eb40b64cc3d3fe63e55c8b90e58a2a05549057e5; 0xbeefe9a4f4ecb21a62c7c2e31d63de6695fcfe5f73b341b8ba1bdeb40b4a4a23; 0x4a09aecb743448e1c3fe605c24bb1f685a9d5b45b31ea7f09588edda95a19cec; 0xa75cc244fe144108d1c873fe56eda669635811511e68130a5546cc6593e7eccc; 0x7ad9cfd25895e7ba8ee52ea1813f6e4db18b8f12b942ff5890cda5a37ef6839c; 0x55499c5c138d427dae976476445d9c9ae3de8a0a19d890f61a2676c08c19ffbb; 0x17c9cf15143735ef6bf5e979ec6389a7a6ebd0fdc02f253534459797384fafd3; 0xd21ca0569201a2469e09a653dbeeeae9954c88ed51bd4c1a7e6b97a38466a4d; 0x3b207edb737675d4a12bfd07b18183435ee8422460992f31a3045a14af7d40f3; 0x1f3518748550184054d2c2d161000f2140cb7955fb73e9b12a8b2aaa30fa6622; 0x648d8b5541c99c0142f5f846799250df9ccbba7af5de195c810d6d6414b04d3; 0x4ae8858437bb23755181bb99031fc20a4d5f47cac28e7b7ee21dccc94ed78c62; 0x241c5eeddfcd31aa28bbda0c78cb4ad02c2451b52d981f03cf5022f501d921; 0xfd58e37765d2de68d28c3433d7a6a065518dfe7617226935fbe66aadf6a28ed; 0xfcd591a52f6090eb50012718e3e11441c22e20114d2e05eda63beb5a9aa36131; 0x7d90b486ad98df47ea8a32336a7fc1732ad4bc0c2bcbe36f2f5e03d71d7869a6; 0xa168c94d71da5ed2c215af0d592ef6b719c00644a67b70f2cb2efb833ff81c70; 0x3a88bdfd63e15ad97a229d710acbfc6f5299db6fda580affabe6b90684000893; 0x61a5faa382e14fb4c5b38a2db3bb1884d2d76c69a0d2dad2b3b13e1f92e0c796; 0x6f05ccb4c773bd808e1cd19b20d02be36a0efd688f42c62bcc3bcc9c34c9f55c; 0xec23a97f7e7c4b4405fe35365fbca98e4ea253db3eb1ef976b7c3941996bd1b; 0x245abe2418e97470e11c8a1344568d768d60de9b1836f3d2f6b0a62823a2a67; 0xea1640b461e5d810d310e6158cb0e4ba02fb2ea83929cbc7946cab1182fcc009; 0x242df32551dcb5724ddbe9ef9dc01c4ec69890257cd713ccb464c56d5127e809; 0x39a5cfa8af50cc2c1d1e0c12089df0811ef50714a19b1fae4e7cb30bd0e2bcc; 0x236f850d75c331dc7cbf446728056df3c2fa2b2038305d5c60492b5220576d5c; 0x2980017364c75f0ab038d558acd4e37774f65d303a67710e15c0efbd9b1e31f9; 0x69970c30a4529a488426c98133d468063b6083c52fc0df6f0f589df944d5e6d; 0x352f676cfc9b5a3c8fbaa8055906db34bf3fd31c534b335a239b5ca7c8d79155; 0x84075099cbb6c3f08252b7b8a50c9d68bf0fbba454832c910248a5c768c13cb5; 0x35f7123dd4e5c7e3f2426151aaf68cfb68908ebfd5067151985c438dc8f09d29; 0xec040e2843d9ceb4daa70f474060d2da077c8a0eaec31757cfc92a72f58e9d03; 0x3e442009305ca7b612f5f0ae8bcf972d43d7d722dac17ffb4875c79edc845f9; 0x22db440a4acfa037b7d12624b84fba3034efbe10685da3b9fa7a8206c6951673; 0x3b9a0433c73501c0335c050f76afb01b81e197c76efa4a6787a7b2071b49e196; 0x60ae4a9f9334daa46bb6c4b982dd71add74321a8ecddb0d5707a112362b1a790; 0xffbe0adf65f33f912675fc007c6b820b8c7da687700803808b54c967027ebf21; 0x8f982e78eaa3dac451dc8f4e499a26be5940c20edfd508356829e0e83f211743; 0x12c99a578c888821efb6e83bfa96b547a96c6cfaac77d27818ea4e7bfe2f7d43; 0x2e2885e0e00a614dff9354dc28a2ee13b0193ef8c053ebfe95a78bef282e5e; 0x7e817545208d687478e8da5e74b3a7c341274b2224d3506a474ddd13c9ebd18; 0xd87df0f6e99be418882febfe2baa4ab6dd7bc4bf57088446c4c98336e1617e01; 0xf076b0cef3b4b27a799648012b8424df286ac797f6df07cd8483c10c0064276; 0x2cf4cad6f0edc01cdc7934d45a3522238578766f4766208e389c1121a551c58; 0x14a4e00e28b317c9006713fe6072c0be4fc00e40e377a2d4cf6f755a3441a0ce; 0x2ee5824fe1c3f26b88e64e927c751ad868ac498d5a7a2b17df9701ba49019f1; 0x929ed07a0024fb6ecb41502586e2032a0bcd5b40b8a899009b6ea9a2da2bd; 0xe1b9d85df3d98aaa3ec188779cae3dd6b74b45cdcf010bbdb74f56d829232607; 0x82d0994b6939daeff14fcc7f6b5dc7d886162734b6b64919881d52eb8ea6855d; 0xda9e4973d7cf21ca702add5393741d81a0332c93717ff87116dc0fc3cffc60d2; 0x43af52ca72cffe511b05b8cf3cf3603b3718fc4a318c96894c5d7ae6971260aa; 0x3414020926110e802f9a44711a8324ff40e4241776a3d6e545de0ac422ef396; 0xc9e6d72e8ef2dfe3b0dd75c9e682378cc53fbf513e61e52869cd280ca23755e; 0x2c13893bf5bf8fd94d4717fc4ec5b998af06934aa4813bec3f6c0269fa7a1a38; 0x689a9cda1df508c403eb6bf49dc867f18f1f715e16237fd93758da0255469252; 0x803d51e649c97b9bf23052fc649d393140777be8ae1788038902739713fc89ea; 0x46dc91a0b4e367bf4fb4d354ce26b5aca2ea8993030b6651e2aa606785745cbf; 0xb241c42b6e25754750c9f45b094cef1ca0be16b4b413ddca2add755cea8f2c1e; 0x2cd9895c860cb7a842edf87b60028a3e2d5058d2cc6b804b2c8055dfcba67112; 0x978842bfb2498e7683db74790d30b7ddc13e5bd70adbec6c48cc6901b323031a; 0xdd3b71d5d929381c4d970ba8fa85a13b11e834e2e3d20e9a0e671aa90fbf07f0; 0x4e7fde0f2ff033e570d1dfe3017094401730092b57bed8cdbddb959a0da85f8b; 0xc785cdc8a4d576f4c55e8cdeb17582866683fbe82ed4b9490a3ff6a394ad1dc6; 0xb58a453d294653613a4aae936ebb51d00d249c50bd1c5ba00687f2e269b663b6; 0x643c0b65ed692f92facf1a47cd4df618ca2e854789cefb2c49fbeaca00914431; 0x7289912ab76f9b435733553637b26c4796ad975f710853a269f0f3e11f181afa; 0x9df7f3dd79c950405dd2ed744ec868c6246b7c485a21418bf49f7127e2d42452; 0x8e308ca791ba2d8104470d5bd725b1d617b9ebace0872a423e18f59f8cd19210; 0xc077a90fa15c99af8f64cd231381693e6c6d6a6e245e0b12fd219faa1c47205f; 0x4ed7f2dc2bbe0424e4e2f574254e93c131af9e04f421004ebc4b97a28c9e7aff; 0x9561f6f225799fc306b510194cafda98c68a3096d011c9c1c6445a51b676d56; 0x2517980d766950e0bf333a380f85bd80691226869f04e5994a36fb2a9db4895; 0x7540d266bcdc4e109565af12db984ff651d5fb405e1337e3b0794d9cb2700ddb; 0x4ad08aa836ac593072330aadb667fbab1b651870e5553f1929c6deba0dc6f301; 0x13978f0dcc8e47a57d097b23c339f76692ea1cb635124626ea62f35352150457; 0x39a108383c1695478b73ea7d75305e1488fd7114ca404d7854678bce942de31; 0x869c9701a30cf73b73e0f610043c09ac09b465d8651472b876b3feb49c0bb3; 0x38e03f893052dfb47decb4972ecd8a544de62c91c8ed6acb32174bcd050628dc; 0x2ee55e80fb0c43945f7fc2c623da84977e872e675726d6bf401a18f9b29427bc; 0x945b444fc9100a33548ed7f2daec11206954423739683f057c9c038a1f64fe5c; 0xf8d47c85e6b85ad95b5b0b2c54f412da73b534218d84aaa8537dcb2401ac4e00; 0xb88182dcb11980718fdc89faef137eeeb7d1f91b22044447d5e2c0f4daedae; 0x1672c041113c6f5721706ffc402604f2d9b35ecc597be1de31fa7e98746797b9; 0xc3f68bbf099b73238520ebd31328370d39c9836592a8045768b289d09ce1a4; 0xe5e43ea8de0341af6671b4fd10c386ae394f9cd8fc7913c8140e3cb2a6703b94; 0x6f4294f55304b7d872be979d8c0c1667173cd8c450ada0f0848f8b4dc6f842ed; 0x7e913d11206f33418f4782f50e65c60a342d4bd308d268e9f1cb8c95df7b0b44; 0xa2f2991d56b0ce7ffc185075fd4d83eb7f2116866ecb3942078fd7ce7b7cc8c; 0x66246dd14a3487e873a4f1f92a086c1f8e3cac886b196947330351f745f309f; 0x1d22e7b8964ed67a77db1d50b329cf9abae2ef14c8f0881d4b6cc5900002f7e; 0x2b601e620ecf9cc43df2268a32f030d3177f6ceb54cb0f89927886713b88a3da; 0xf5a6203b77f887e0000db9ad0ba23736d9c9d0703df5dd8712f15294ed7acf43; 0x22b43df853bec394bdd07e1ac37d763ed7c9ded4dd782ec6d3232fe702b0a652; 0x2e3d0bd407f7e1316c932c4b47add85e03a0517433df1fe01f406cc2aa42df3f; 0xd40810c87391754b301464b4cb1963a9c559c6192298fb217e0c17c07405891f; 0xb9c3e1601c965dbcd3a017048d428fda63bf2873f48c93ea77c2cb0f9cd6f37; 0x8dbaaa770c9b973fa38fe898000eea6df024bfa7098ba58a4c6e7cf85f0a; 0xae663127b7a9aae28cfdc6c916f6d873d606efbe3fe23df2b2dea4b0ccbde7c9; 0x1d0ceb309095e0a7b51a33f1ee0342d60e26e2094bfb7274ba08f98e85e5bf66; 0x159fcb83b52974949d0519f287a63c4e3b07cdde508574341a49e7b101dc1284; 0x519c0a6ba372fe7e09c93f98739589b7b89bb0dd7a3cb7f1485aa6fec50264d1; 0x6c99b1c08bfbcbcaa59f1171953cfe96a88206481428b98d79bcb9d0a0f90337; 0x52cd3a792efea82b8a10050d5b2285f28b3ef9d3deadf1300566b57605c398; 0x1f5096e564b3b5972bb6ff880a1614a7985ef757bbb128e6c711cc0181ec4a0a; 0x8a6ad0d101e629154e78238ed9a8458564f62a603f0a07ad3f2e09caa9ea57b0; 0x2419a3c851525cb6b06e4a37e8cecd4f193e678d83885a5fe4d48e673837783; 0x57ad5a2b3e024fc14ce18a8fec2eaca7351b7e0b14624d024fda296887fc5219; 0xc79d3d5924a69733392ef64745f35a86b63665216da6440fd1f64cd68ed36abb; 0x8ea888fca3da1713d386adbae2e7a8b52927b17dc8fada02ed7eeec8ae4b710e; 0xe32e9858f617bb5383ebbecd50b64b067137903ebeade3a4e899661e6a794118; 0x6bb1f4c41cf96b8d46acaa43895fea9877c3f65b0ad882e16741d7c207ee30eb; 0x11ae82a3540474da982f4f6fe156f0b48e8a1eda8d0cb3d5c7ea361318b7eac; 0x11ec42cea33ea4b112a3157d15aafc9b7442f7292dae3f07d47053a679fb66a; 0x18b63ae978c23765bbe4e76bfc81e9b421d7484eb8778d9f6700885a63e7dc6f; 0x4657eb22255ba36bcfdb2bd92aeec827df3af260acacc5a0fab4279abfd59da2; 0x12614370a17d0e1cbfc336d1666bc8beb652d5a2524dc95a6ba7ad38e72d3419; 0x52183c6a531c434a4ee491d0b8ce9d510898a0a38fd13d28ab5097c77de86e49; 0x3262f6b83420ab290f97cb82e22e159709b06db3f321ff795ec43f4c04630d59; 0x3346797814a2d10771eba85603db5a18894ed0544a94c546a397cb785a32c52e; 0x7f198f6f221ce84f341d33f8c1b0244edaf714b32277856e0069e5a835d2fcd9; 0x2843f1f76ba1c2ae385be146a326819f04f1d528ee457c09225e52a1efa00c4f; 0x72e875f1cb12f72192ba996f40b4daeb41098e96e9a9da0029e7326efb1b5a1a; 0xecaa2e2f6a2302ccedb31ac05720688238ced2078f3eb0ec9f22e8f621972e4; 0x7fffffffffffffffffffffffffffffffffffffffffffffffffffffffffffffeb], [0x0; 0x0; 0x0; 0x0; 0x0; 0x0; 0x0; 0x40000000000000000000000000000000; 0x5a; 0x800000000000000000000000000000000000000000000000000000000000358; 0x90000000000000000000000000000000000000000000000000000000021a65a; 0x1ce40000000000000000000000000000000000000000000000001521eec19a91; 0x29be6400000000000000000000000000000000000c7be4dd014bb38b2b8953d; 0x3d3c0e61a0b200000029511cb35fc500ae013abd8192ab273fd39d96be12a55; 0x5fc8a18c5af6fce322a75c25674d7a3d3bcae29dd3c3663f2b0ae07c70346248; 0x6cca40fd5dc87c98617ca4541cbb81dc37ae4751fd5ae3b678f616ae0a2ae61; 0x4053d5721017d36c6396518087dd464ba88fe5500e5dfd67c31d4d9edf87e9ac; 0x1c5eea3b087174fdaaf1d31c69b3ffae371f2d3d732c43171024394abbb1948; 0x3d2a10902ae4108d18284694005f203a3faea49b6b8fc874a5b7b1e63ee41403]))]).
  - exact (Forall_cons _ prime_c15 (Forall_nil _)).
  - vm_compute. reflexivity.
  - vm_compute. reflexivity.
Qed.
