(** * PrimeBls.v — the base-field modulus of BLS12-381 is prime (Pocklington certificates generated by tools/primecert.py, checked here) *)
From Coq Require Import ZArith Znumtheory List.
From Verif Require Import PrimeTheory.
Import ListNotations.
Open Scope Z_scope.
Lemma prime_1327 : prime 1327.
Proof. apply trial_ok. vm_compute. reflexivity. Qed.
Lemma prime_c1 : prime 421987.
Proof.
  apply (pocklington _ [(1327, (2, [0x0; 0x0; 0x0; 0x4f; 0x36b7a; 0x5000f; 0x2aa0d; 0x27bfa; 0x132f; 0x20ea1; 0x3152c; 0x673ae; 0x5a60f; 0x7b62; 0x190c; 0x16295; 0x10262; 0x67061], [0x0; 0x0; 0x0; 0x1; 0xc1c1; 0x2ac; 0x7a7e; 0x50be9]))]).
  - exact (Forall_cons _ prime_1327 (Forall_nil _)).
  - vm_compute. reflexivity.
  - vm_compute. reflexivity.
Qed.
Lemma prime_c2 : prime 13090036741.
Proof.
  apply (pocklington _ [(421987, (2, [0x0; 0x0; 0x0; 0x0; 0x53fe; 0x604a64887; 0x3bf57795f; 0x106b20262; 0x5a4ad7ea; 0x706e2b27; 0x2cee5d86; 0x2091aad83; 0x1bbef445; 0x30c3a4f30; 0x1b033bfa8; 0x1590ba; 0x11917462c; 0x28105904f; 0x8f3247d; 0x93e271a; 0x68d91f5c; 0x21c527c08; 0x7e5f5af1; 0x10caeb4b; 0xe941c1c6; 0x2e1c6a90; 0x19922cab2; 0xe2b7bff4; 0x37a5b855; 0x1d5c49d; 0x2747037ce; 0x388c91a0; 0x30c3a1c03], [0x0; 0x0; 0x0; 0x0; 0x53fefe5; 0x536de0e09; 0x1f079d830; 0x138d50500; 0x2624e3a8; 0x2b94e6cd; 0x29392b47c; 0x4db0d6; 0x278eecf56; 0x23c0ac5a]))]).
  - exact (Forall_cons _ prime_c1 (Forall_nil _)).
  - vm_compute. reflexivity.
  - vm_compute. reflexivity.
Qed.
Lemma prime_1151 : prime 1151.
Proof. apply trial_ok. vm_compute. reflexivity. Qed.
Lemma prime_c4 : prime 755057.
Proof.
  apply (pocklington _ [(1151, (2, [0x0; 0x0; 0x0; 0xb; 0x239f; 0x4afd0; 0x3644; 0x762d5; 0x4fb95; 0x2e3d1; 0x1b823; 0x3b1a0; 0x2e48b; 0xda0da; 0x28c1; 0x5181; 0xb856f; 0x0; 0x0], [0x0; 0x0; 0x0; 0x1; 0x37b6b; 0x5c413; 0x5358; 0x1fbe3; 0x9aa5]))]).
  - exact (Forall_cons _ prime_1151 (Forall_nil _)).
  - vm_compute. reflexivity.
  - vm_compute. reflexivity.
Qed.
Lemma prime_c5 : prime 3819663927398918131021.
Proof.
  apply (pocklington _ [(13090036741, (2, [0x0; 0x0; 0x0; 0x0; 0x0; 0x9e4012c2; 0x59a44f3d9215b2c1e; 0x69a42fdef874b5d7df; 0x7882b910a4a7bf3; 0xc74b7e06e19d7adea0; 0x15844971f1eb6c8b0cb; 0x3b76c0a4e6962441b0; 0x14bdf4b55210d84e85; 0x9d3170a625ac59088; 0x18f2bc97bb16b54e07; 0x1cdc02944434e96c4c; 0x10a76086488e3306187; 0x1327335b5cab39c5656; 0xce1477668ea19de87f; 0xb01cc0b5a3a8aced8; 0x16c6a54ec5623aba755; 0x9485ccc62abd9e0732; 0xad5d7a0f082b210e7; 0x95053b7dff1ed7059; 0xf5bb4fcabcb20dc178; 0x10cc104b58210adb19; 0xcdaf231f3e857d30eb; 0x779e7535768ec6acc7; 0x2db0ffd8fbf1da240e; 0x403075b06a6c635be6; 0xcda4a7a74482913f98; 0x330d5b12c4c9a9c777; 0x152ac31c5d06d622d4; 0x290c42d80bcec96f5f; 0x6720d05c53524e28e7; 0x5d0e2209061e8d2bfb; 0x8587a87547ec715cce; 0x4bf56e0927219f93fa; 0x6ea66cedebcaca414; 0x216d813e28608edb83; 0x16f2658a3d295c8d07a; 0xb0c9436d31cf372619; 0x1f7e68b8cd77018aa6; 0x17cd81dcb3400ca02c; 0x187c84080f240331b; 0xc0f8ef7e405ed15b6b; 0x1edf778708fe00787e; 0x52161ec1f38c0539d8; 0xd3678431def9979faf; 0xac962b33041ef738da; 0x445f4ab21854986e32; 0xeda89da752df36bae; 0x8dcd27175380c1b63; 0x333a73c426e91987b7; 0x5e6751a36c7618fe6; 0x58dc0105d24a3b71d5; 0x2b08c3a9798eab54b1; 0x158cb384046df4d81d; 0x609f17a7eec7198fb5; 0xa8bf6d1a153e9876d; 0x83e94835f7870ee525; 0x9010b0a73f37efea51; 0x56a83f4ce05d84706; 0xb88f17cda3d83041ea; 0x495ddd84889dcf634f; 0x9df6abc08049fec66; 0x81478b31739337376e; 0x192fedf4123df19dad0; 0x6340bdcfe1a3dc9b99; 0xc6817b9fc347b93731; 0xcf107c4885c1f60d4b], [0x0; 0x0; 0x0; 0x0; 0x0; 0x0; 0x9e4012c21dc6ada6; 0xafe1fd404f0e5a0bb9; 0xdd22a64c74b675af4b; 0x16b60e212b009cc81f; 0x7ff76f1da9d6593af2; 0xb77f0d91c6beda6; 0x36d123b3188d4a8ab3; 0x5963b011acddf81e2e; 0xe524ca238326142e1a; 0x9fcac01b7fadeb2c06; 0x871ba6c003ba6e93cb; 0x128cbf9b3896b4b31cd; 0x5f3cb7e6b826e6c6af; 0x97560575fdf7e5f5cf; 0xa698605020107c97; 0x76bc3711117713b8ac; 0xc54c904faa1b2b4129; 0x614633062698113a61; 0x5e1a79c17fcd5ab69c; 0x46a82b548cc00f4a2e; 0x1d01155062f7bfb464; 0x569f2892cbe8b6a073; 0x86f6014552e61208ca; 0x836e6456cf26a1ada0; 0x12a32cda93309fd15d4; 0x4d47190b9860964a; 0x45f9c4b9cd580f; 0x69d8ab06062f68ca5; 0x2fffda40158a88060f; 0xf6e1ddec16998bd5cd; 0x20c5c1d3e6716bdd79; 0x23696c1f8b8fdd07fa]));
    (755057, (2, [0x0; 0x0; 0x0; 0x0; 0x0; 0x9e4012c2; 0x59a44f3d9215b2c1e; 0x69a42fdef874b5d7df; 0x7882b910a4a7bf3; 0xc74b7e06e19d7adea0; 0x15844971f1eb6c8b0cb; 0x3b76c0a4e6962441b0; 0x14bdf4b55210d84e85; 0x9d3170a625ac59088; 0x18f2bc97bb16b54e07; 0x1cdc02944434e96c4c; 0x10a76086488e3306187; 0x1327335b5cab39c5656; 0xce1477668ea19de87f; 0xb01cc0b5a3a8aced8; 0x16c6a54ec5623aba755; 0x9485ccc62abd9e0732; 0xad5d7a0f082b210e7; 0x95053b7dff1ed7059; 0xf5bb4fcabcb20dc178; 0x10cc104b58210adb19; 0xcdaf231f3e857d30eb; 0x779e7535768ec6acc7; 0x2db0ffd8fbf1da240e; 0x403075b06a6c635be6; 0xcda4a7a74482913f98; 0x330d5b12c4c9a9c777; 0x152ac31c5d06d622d4; 0x290c42d80bcec96f5f; 0x6720d05c53524e28e7; 0x5d0e2209061e8d2bfb; 0x8587a87547ec715cce; 0x4bf56e0927219f93fa; 0x6ea66cedebcaca414; 0x216d813e28608edb83; 0x16f2658a3d295c8d07a; 0xb0c9436d31cf372619; 0x1f7e68b8cd77018aa6; 0x17cd81dcb3400ca02c; 0x187c84080f240331b; 0xc0f8ef7e405ed15b6b; 0x1edf778708fe00787e; 0x52161ec1f38c0539d8; 0xd3678431def9979faf; 0xac962b33041ef738da; 0x445f4ab21854986e32; 0xeda89da752df36bae; 0x8dcd27175380c1b63; 0x333a73c426e91987b7; 0x5e6751a36c7618fe6; 0x58dc0105d24a3b71d5; 0x2b08c3a9798eab54b1; 0x158cb384046df4d81d; 0x609f17a7eec7198fb5; 0xa8bf6d1a153e9876d; 0x83e94835f7870ee525; 0x9010b0a73f37efea51; 0x56a83f4ce05d84706; 0xb88f17cda3d83041ea; 0x495ddd84889dcf634f; 0x9df6abc08049fec66; 0x81478b31739337376e; 0x192fedf4123df19dad0; 0x6340bdcfe1a3dc9b99; 0xc6817b9fc347b93731; 0xcf107c4885c1f60d4b], [0x0; 0x0; 0x0; 0x0; 0x0; 0x0; 0x9e4012c21dc6ada6a6; 0x11fdfd1c9039c4273b9; 0x9a4d7f96b583e80f16; 0xc3331115b2b8b32e85; 0x24d6e6ea1c3a92ee4; 0x9df097ddd9a76b0033; 0x173e7bfb53efe2d2a4; 0x7f1ed4eba4b0c870f1; 0x8df9eed3ef590a3416; 0x3b7176b7f09c38f968; 0x84a0c8393c177225eb; 0xf9f5ad20ac9742ef08; 0x26d271b8e3e1b08923; 0x59954b08e24b4623af; 0x71f5b4852c8c66449; 0xcc469ce82ce1da88f; 0x3a7d0392f36b430b4; 0x2ecac03d19b3764848; 0x12f3c6174801487559e; 0x518c407d0bfb8826ed; 0x24bf47eadb7f30a534; 0x5487dcda6c689ee880; 0xaf6da5684a1ec95e79; 0x340f46aa55506795b; 0x62561b6c0f68373006; 0x14b9b8b672976257cb4; 0x96f2028b288831328e; 0x109869eb3cd81270a1; 0x181dccc88b4a6950b; 0x64f51a6e50e34fc7b; 0x1233ce816635ff132dc; 0x1e4fc7514ceb3e4892; 0x247f5b6cfe85bfc9b4; 0x5c2deb82d486b4596f; 0xb492598b2cdc01f24b; 0x172a39f9cd52fc222ee; 0x74f007fa30b6fd992a; 0x4f2558eeb5f669e0; 0x19576957a55097a06d; 0x54044698f7d86cc111; 0x9f17af6270810dce15; 0x16503ff3d0cd52f149; 0x11ec5172d5445da24b8; 0x41c7d4219cfcd60f5a; 0x2a3da76b3e7d410ca7; 0x2e6870d952ba958d79]))]).
  - exact (Forall_cons _ prime_c2 (Forall_cons _ prime_c4 (Forall_nil _))).
  - vm_compute. reflexivity.
  - vm_compute. reflexivity.
Qed.
Lemma prime_c6 : prime 1125266252156850182658904441386709967.
Proof.
  apply (pocklington _ [(3819663927398918131021, (2, [0x0; 0x0; 0x0; 0x0; 0x0; 0x0; 0x12e66d246e5a83224a3e1642f; 0x162a3c52e4964bb5b332c58f38d1571; 0x80fba87c939c87ad701f1baeedd6ad; 0x1018e5e4b7ff91b7693d97cb45a3; 0xc128c52c64b821b1c8b046f5753c1c; 0xd4322b7b5584a06275266177c1eeca; 0x4180b05795b235bb9a0bbfbaf91fd9; 0x3c6ffb95319545894d8b859bea37f3; 0x119a6d9aa7813aa7b91980f58540136; 0x5dc7ed91d4aaf92d3d68408f47607; 0x329009b57f741e45b91118430bedab; 0x93a360ee85dabb3a5620b54bc9c7a; 0x78eb8d40146ac74150723ed6b3f5ee; 0x102cc6923b73fa129e6ae3ebcbdcdd8; 0xd8b5054215a369e21e684fe204d4f4; 0x16b05a0ae9519b395e1c1270577c0; 0x733085a7f43a3fc7c846f5c5c8ffc0; 0x4cc01e9175d1ee341ff4f8ef506fd8; 0x1a896766cbb2965c3fa9b871e355c0; 0x992e7f458f05ede3e4e3455dee0447; 0x142b76af0a8ded2c9747180be6b550; 0x195901b1b67713ba6af09861e05dc94; 0x55bbedab40a3e422afa8f742c4dfe6; 0x27a42bbdaa7fa9cdf0124a8ef24f52; 0x1396cc661c5892d5fbd1042e13a4e0; 0x3a9ca9b553215d7122b3c21bf19263; 0x14af4b6541d9609a1c2fa26b7193f39; 0xffc00f8a50043f09c6c4ae1e8eb951; 0x4a418563767462bc91c1618d8da519; 0x1dd2fe12ea50cce00615cc1628c846; 0x973185c9c3a9d813a551cdfd71ef59; 0x78770ac47f60e0b2665ea01e9a953d; 0x232d108c283dbdb4db6719629821e3; 0x207336ddfce380eaa1d8b9a9316558; 0xfa3dad2abf7175dd16de26ab9e4388; 0x311a4ab92dbf0ffa7b2a1fa51cc2fc; 0x1a22cd1308f2c4316557a052b626b; 0x29db12f4c6867eed55880578609b; 0x34b1197277627eae20dcb761af9f64; 0xfe7d6be40f8c5d1b15258c59f532e0; 0x9f364b473a292eac64cef00c69b1b5; 0x79b55e829058ea6544ef0c70bc31c0; 0x18eccbcecc613dcc00fc1ced5ef1191; 0x10ca92fd96cbd4e5902e322592f5d59; 0x655055645ae10b191fcb7898fcba1d; 0x34567b5687fac7b683b1a164efda52; 0x474b07cfd3f4e3f8334d3c7cff8874; 0x334615ea2b804439d2514fb9678; 0x102bf2772ca52694e2a5a3ad68b4b; 0xcb182c99bd4b11e3a80d31f01da669; 0x9d7f356f887a4b2268fa1e0fc8e8e7; 0x26c471ce76c47a450a9a80eb227853; 0x61105822f0b78f1557535b81ae4d24; 0x6b9b2099ea44497eee47bd3debd135; 0x7b70b81c4add973356d588e6c41c28; 0xbf92f649ee84e234400658052b660c; 0x529e6e79d4bcc1d0ce91e4a33bd6a6; 0x3a5bce0ae440fb5ff34f0e9198dd8; 0x10d5db0594d49d10f7f3ad442c25e4; 0xd3202110a9c4aa6ae596f62aa195e; 0xacc335937432e9fcc6fed2008cb33a; 0x299f820f4a35d19a062757dabdb078; 0x163c54c9fef42380cf02b677d05c55; 0x99da8e4e4bc17e0a1c8fd71af024cc; 0x2e0c3cd7b48573c5c01e89eae49f; 0x93c4d5f77a35e04410a800c00849; 0x7ab16b7928e238de3b470c9db289; 0x9cd0fd44055527e1e7c76e2f6f1dd8; 0x7078b8bf77c13ba5df618cff4a9723; 0x20aba4ec0b68fb3d3afdfb0299162f; 0x7d24039e7ca2014564c08cd3cc6d5e; 0xa685d83a959977131b4cc47a96; 0x7953f42ed59a5334da89e6653fbd33; 0xc994ed1c98eecf248d5426012bdb27; 0x11bec2aadb8e755ae471fa36027e555; 0xc592c7eaefae673350f0b9859d7fe2; 0x8d09faaacc0a3f194ae5831ff0aa00; 0xbe452ccd2f04161fcf77003362a515; 0xcb0d30569cf34469810763a04513c6; 0xe21d124599a5635720298c16967888; 0x45f55c718cd5c61c71903fa0e3acf3; 0x7ea054ac904b52956858a131e0; 0xea086c528d4de2282f7d8c04859617; 0x9b2541206cdd2ad8492b6203a130b4; 0xd33f7bbd9db3f7ec9b1dcca4bdedca; 0xe99c49c97c3a618ebe03e812346db7; 0xfe58af85296c2a6c872962740816cf; 0xc71ee9e14f70e554fe0c72681caf6; 0x32a6fd19fe6553c7a6143354b5beec; 0x6e80c21bcc8a78be88ef7570ab833; 0xd88845b944abb3fc33f4f61234bcba; 0xadfa6050c63329ffd046613996943c; 0xa04e6e97a2d3e2bdc0968b8d90140f; 0x9e0ed4f488f5ddefad7aaeae8dfeb3; 0x1f5c91f76f5470ca48a5875fff207; 0xa923ae1b9c497a64619d0451cf38a6; 0x13be858164c4d0908174ea38e5d7cd; 0xd011c1ff257348beacf9c00d3e95b6; 0xa274cd16d61cdaf2834ea2e9df69c5; 0xd3d1f6be4ce6d45367cfbdca4537f; 0xc815fb56b3d98d08a39652c7e2d80b; 0x5f6cda0ca7beaa88bc45ef9f929e7; 0xaa6aeab5216c7116c980b4ad32c06; 0x5e506034b389491b52a290cbbf610e; 0xfe70b90aaa7493790d0750681ddd6f; 0x4a36362c7853bce233dd6b34d23dfa; 0x18cfcec0131f138d5e01ff1711d5306; 0x3b1251ce5cd607a480a0fc09566dec; 0xc8c9cb13dd734099e7984c8f702714; 0x2d2b4d51c413c100e66460b8f8c3da; 0x3a40dd74d97b250b829883a6c98074; 0x82896657346b8de746cd9d11488ab1; 0x0], [0x0; 0x0; 0x0; 0x0; 0x0; 0x0; 0x25cc; 0x13b21b7ed80f52947e674ad6603a0a6; 0xb0ae76890ae9290b28b8690ea994b5; 0xbc69057d429390b882b52cc3d3bfc8; 0x958f272de14e32d5d8abcdf0f203; 0x1f247a9ac390d983020c4e08a4196; 0xf4b1f3ec464c16cd6da07f2628880a; 0x23f83a5740cc409ec689d8d41082eb; 0x1a33342479d412c12135c90c1f6bef9; 0x1cb8951536256593742e294ede8ae; 0x4e00e8210e9ad274c03c16c4b2474d; 0x9bc4eed91bcf4218323f5dde32150a; 0x62a5ddb3a4a724e18e547f02f83547; 0x6d6c58a4f9f01081bcce786bd30dc6; 0xebc72a1f5594d7401f349c06eb79c3; 0x24d39f51e6367f29ff9b6682179bf6; 0x1671f3fb6583e1d62b6ec6b75b63560; 0x126d9bb6aa7e73630ba98c6d2182f; 0x3f242449b7f09c74444a40153b19ac; 0x1071b8dcdc522046854e8e4502b68a; 0x1722bc4226139a4809aa36362e1205; 0x2b6d33fbc1dc5ce5468026e627750; 0x36e7080ea6977f38cce39d5c12df2; 0x365c4e6fe4af2028c04eacf0cf9189; 0x2d61beb23f7b8fd6cd50c0de76762; 0x2358eea450c81de3877890b8a2ec9b; 0x2f15d72138e4f327d12cce37f8d60a; 0xe797c87a4ce5d1d1a44eb8d9c2ab8e; 0xb840447906e7201efddc688a2b9b8e; 0x6610e240dc8c28443b796f2c657361; 0x104d25e08045e5adc9b3cbbf0d46; 0x3210d8f9e0ec63ad56ffca5326ead2; 0xc2962a5ae3a6c26e6d8e362abd8094; 0x27f9b72fb4f85b6cee2ec13d002aba; 0x57c4a21a351ffc6473bb45bd88c9d; 0x3ed6f94068fecca577d091286c4949; 0x2174a2f9d59b24d7f28d2e9e837559; 0x4cf4bf92e7ed60be43b4e8edbcf89b; 0xcf30332c6c137b5d61583893ba7796; 0x8db9b99547d74e4a607a0d37516cb; 0x3d0e7c0318f83057ec300c2a736587; 0x7bc28105ae65c051c46fd0604cadfe]))]).
  - exact (Forall_cons _ prime_c5 (Forall_nil _)).
  - vm_compute. reflexivity.
  - vm_compute. reflexivity.
Qed.
Lemma prime_c7 : prime 15778400344354997994418419698270088123916926905054652752758194827714659.
Proof.
  apply (pocklington _ [(1125266252156850182658904441386709967, (2, [0x0; 0x0; 0x0; 0x0; 0x0; 0x0; 0x0; 0x6ffa95a96c05dad; 0x1a69cc00255521181807142c8a43c3035a5303e2c53b05920df5fafd7c1; 0x1251cf36bca0bb05832ea5a259431ef90641b74e940ab80f95027f82; 0x455424e1ba5f4836b4c298cc99e860ec4fc4a73dcde31be695b6aac95c5; 0x1b098980166a91e96591befd61665e441222e351dc896725ff1a91cda97; 0x1fca0484567a008b840423f7c8cafeb2a85b37d9def2efebb83ad8eb3c1; 0x17054dbb0a3e0b37d18265d3af378b8042e7d49e1209e6d0f089f599d95; 0x20d3a20ce3e63920cbaddbd6a23f7935e4d512a4e79edbdf2b9e4e8bfae; 0x17bf72f415f41b0f0e846b720dcc5f229129476a63df3cce6e8053b1f19; 0x9f6d697a69f99c57ef306a14f7cd9d13c827e8ce4590d60697adb12cde; 0x187c402ce6683a42c126b8b0eaebaae923e8037d16fe7042ae8cdc3cd6d; 0x1ba720f915ea22f739791374479b0e167f979491e5f8a5ff793f02e1014; 0x66f5d0d6467604e4a936f84fa3f4c1dce9a56091e6c7eb24212bd455b5; 0x1ab6fa30aa6e3d30b297a9ff5a3bfe32ff2f055784c84f23db72dc29cc3; 0x9204f6b957955bf2d323e18e9211a3017eb9014a692540b66a1ecdad8; 0x379ff205e072870473ea77fba429ca920cd9481c7143bbdebd2ecdc7fbe; 0xc6696dcf4c157bf894e7ecf3c73e82c5a52af73b1af3ec273170aa9b37; 0xfdb16b241b0132ea55432a6998e2fa3a0120b4c407685f5facd8d228; 0x32c5729f97e4249111d3ac860a028f61f931818b7bb6f6cfcd537572280; 0x8f654f3951770db4e3bc47d2a831ffcf78c40d21d0ba1d98b966dab3cf; 0x8baa63a825f1617e009b2a562d84cd6fa3f01214ac1c2417443778d090; 0x248c183d83310028f1d6afa3a9849f7fcba4f1bc1fcdb9f370d8a6dab5a; 0xc08e3b1bf801767972037b699bd75eaf76185cfeb04a0b565e32fe2939; 0x575804e2892f5e1ef0d1eff4639424b629b7dd9f22014b773262b0918; 0x1570594080a87dd2cf33b047e0a8f869103e3f60c9f4d733c930d6456; 0x1d341541aa0e3b87aaf7381067db361cbd7ab229cf8b0b5c338d462e2; 0x2e72cd9c6258e81fba14bee920476e4e9a7ac9a24ae3d3b0a23b79bd21; 0x112522352d13956591f0672898b129cc803259fc07ee4467efae4075ac; 0xa3aeb19ebff370466c182a4a393eced54c51031edb2736891b14740d7d; 0x13d8d8cf6f1bfa89cd84438eade403d0e7e38727e68d35794a10cd06592; 0xfe339e5a04a7b4cdf3882561fdf0cd36ff9e89dd7f2e0f7872d376e1ce; 0x150b6ae2a37f839f82e4fdb2a93606f26d092de518d6b7cc87d19dec64d; 0x8b12863aec0de2c3ac32fb7d5f1004fc886be3fe107c6a69b2f4dc21f; 0x18106bc2d33ab026c365af901676c3e36242d48ac35daeb46f9ad001e91; 0xff4a1d44b5046de70aee205a4606d316d96c764990dc82838848a4128; 0x3d0e1f7014c7d4887d7303fc6a0e6371b2304f85881d75da7aaf9ac008; 0x40bbe3ac03e078dafac792c7002731ba963472b154e86163d1d518a2e6; 0x79af784c72845eb98d65232d6d9ea7f80869470e60faad40246034b8a9; 0x845d9d9b214ae49a1c126c402be4203519a332a32c3f768f0e5c6273ae; 0x31379a393acbeed433a0c8d08c7b638606d5cebb2dce2af40600be8bf34; 0x283d7a939168c0c09e688ea32274744653bc045a034b764ccd8446a2d5; 0x5444c2205e8cdfe943e20e5f14dce448e3395fbe35d779db42798c6b35; 0x1b2f339d82d167c1802bda57be7bdae1d5bd70d8760a5b3ce700aae1a1; 0xabf5eef21e7331ac7058381accbb96bf75893d96152968b28ebad4ad60; 0xf39adb0a8c423d3d46c2d715794d1c1385ef7d05d144d065123970721d; 0x60e74e1dcd75ef0315c7157d3558e9a0b22137775f934e2e0f6de2610f; 0xa182af073eca6ab277d361308d81b560cd5a09d1499c49acc8e644c10; 0x194bf2f8c793c5e54b0554fafce8ec9e3d2795dddb2cb86b6bf6694c74; 0x3d92d6e7282f8fdfd07647dcf1e37bf91c3b0b4d015f1322de6d8c21ec; 0xa7d5f376ee65c3df63312df7c54e9c56848f8f88afeecdd7c866db53b; 0x18631a2111f43fc2de52e7c48f580d76a66b297b715579bc6ad97343725; 0x1513817fe86196df98c92fe077efdc6964698daaf6c682d208d0e3f1045; 0x252d688baa5ebbc14fae06b1f820b07d00b73f64751d3afa943cd12246; 0x4049bd50ebb30eacb147e4ed82c096b047c922b558b591a57e38a5b8d64; 0x1c897c67704e8bf781f841db1d2c765c3cd2fcaa8cf130578c2bfcc8a43; 0x4bb4ba633a83b1d47d9914fdf2cf0b4a8f7e375765468a4b9afac44933; 0x2571940967a3a5894106a54f7e644e13c440eae5d4167462d1a7a99dcb2; 0x20090bff34f034b4ef396ef48547c328c17483d57de5931694400e538b9; 0x14f4cfc1eaa3ebd372f02255eab78355dd1744ab71d246efd66a78e8c37; 0x1ccd50922994716de3074e53768eb1363da62e5789f05aeeea2e8fe8363; 0x2c5f5b2d339e92a843eb532e5dbaece0213fe166b306c61b6120437a0b1; 0xc706f1e2ddc90355b580e04a58a4420f6207e04a90f8a532de06410e; 0xc0097c367fd8d0a2ffc32fb5c4b6e80aa70b6d07ff4dc32649859b2f5; 0x143273e7218d5511c79c4ac2de4c316ee0523dd5af7822f0051bcd518ac; 0x376f09c5ad076288cee5072c4e97b8410525f14fd3ea17af4e7080a3a9; 0x301c16da263492718e711f8b49a6a21c5f528139363ef3d2a526332243; 0x141194058ad2fc96bc14dcdae84c0175828bf8a47edc58751d55ba42e1; 0x15c90d12eac57a1893021026d4f30a6230f11f92e77bf0c9fa13baf38cc; 0xcea8f2da61b38d3ef868bc7aee5e1acb56fb98ae63161887f5d32f90c3; 0x1da9b04ab0f72f1965f924eacd9f592fbea65cca078199dd1d51115458b; 0x3639eab4f45bc766e33fc22d7a9ff9b1340db56cca06ede0eb4ed5338d; 0x2b5a64778bdaca04dded393d064e99dbd6bf490a956bb13f56d3ae7270; 0x2c7f8b25052d5543c60f17ae82f0518cfb402306f811fde917286556d1; 0x46aaa6a088fa3d5e3ead16f34585680436e68bef18c9bc8c4cc4c34169d; 0x3aa97f46f075e76a18f25a2837b3f607fb20763fc4ef1541f1348a177; 0x2520c05d4890e93910ff97b5fa3f16a28c7a60e9b2c33c11ae1e40c1d; 0xa7f6342bb0405928182c2d1226971a64df17a3076bacddf79e4356a84d; 0x28c7c48157d91de4868b2eb431fbf25e0729d9ce2acc364ab519ecf45af; 0xb0d83c222e7502b97b3067a9ec070352342ac0e3752c49791bf0ff9791; 0x1977073cca2fbe6de2d03de8fab6cc90b19231139940e9569fbfa2ac494; 0x3d9a28e85c9d18fe9544b62b8594f5731974c0296017248ea0fee189df; 0x802da2da6b4424be0ef9cbfe6bed69748a35395579236a326827af3be4; 0x17136eeff84249b42d8d60571bebe348fdeb0b5c4453b48759d0a29289d; 0x3df02ce68d0aeb82bf433e185411baa43401c3d3726db01601162773f8d; 0x1155ff3d82cb00ea8ce6d1daf2a6857b3436723f0c0bba4abbd7443b00; 0x1732049216bc483aaa0db31924a38f0ebd7b6b0756dbcfdfcdca812f75c; 0x72064d6a88f0ebdbd206cea21fdf6249c2c17e0d68b4a652597b2341f9; 0x39859634947f4b8e0777b2ea9b937deae6cc6973e56bfed330c2582ac8; 0x12ce26856201adc53c7a4bb8937e5b800b0824d941d64bac73bd794bc96; 0x2cd028423090101301ebe18bbf3c341f7fa1a92b885d67181ae435d51d8; 0x2cfad7cf2b83d82405154f34b62de6ce526350f46235cebc9741c69338c; 0x192a81ef9d9651cf6b354d14e9b02a2017453632a951486e68ffc323430; 0x4afd08155b805fba564482dbff2ef96c9a852c12f81d06c08be27252aa; 0x38a284c251d636e66cf92c52cab58796adc14db5e435ea6ffa2e3f8c27; 0xa1e1a04d2935831f7a417824303de149371c3693cc26f5c7e991b2e115; 0x7604d7ae1240acc26c170bc7e42798f3285b0728c53ac1781cbb430791; 0x195d9a019ce36e59d87cc4053f17c7c6797c970561e02657ca0ceb16dac; 0xc617d89658210430a64257d0a6318d6f07b8eb9f74b8ccbeed1b4d9bcf; 0x16cd7cc7a84624a9b3fd7b0d701ef0b1f2302af87a96716a1be561b425; 0x241d9c2eed55e47307eb6f0dd3416c7635250fa2528738b144630e1c3d5; 0x3d88dc0d895f8bfbd0dd4dd00e92330ade72efdfb1f1c510f79b3ee25e; 0x3896ba6ef5071b23d864ee6dab88e55c913ad1fb0d67973ea1d8402819; 0x8c3d1b3a214da9fe74ca8e6dc91339ad56dc3c78e2b6edfffbec42f44; 0x11a49cde6eaf1d5eb4e255402096c667a2dd82fcb8660489f9f93477c29; 0x131bd8a9555c80ae5d35635c1ed50cac58d15b40ce37ab9ff704e35634; 0x2ffa08b619277487e40600a9d09c1e1d7b306da73f0d453ff01d0293fe1; 0x6e012204d1bd87f8790683eab768ca073a2d68ddcd9ef689a79a46a158; 0xac1f149372e411b92d9f7b5ee00d13e6509b0598dacbf3a859894e0315; 0x2e1bcf73ddc7593f673335201c0e66305adf9ac7f00282aae5976e7f502; 0xb6aa35be136a9a66b7bbccfdaf0e35f1b758b01e7df7adcd1a8ade9fc3; 0x5254aabc2a26e95866f80dffe833309b19c4249fe2979f8c5002183f50; 0x1b4943a18d0d810552400ee64ab149ff0caa4c1824fe179646972cd203a; 0x45666a22da57e03406d8877e411824ba0d8601ac9038a9c9d54833adeb; 0x6320072011f60b6f7bc06d5b56353e9688ed1ae3ff8b75d80cf7fb516f; 0x27e18843276fa61693ff9d7fd59ff424e1258164716bcb0626b44e6e4f8; 0x33964987eceade8779b7ebe3d58d8b30523896a19fa50df33c02f6cc42c; 0x1155368f987c27806b2c6fe004317a073c031a551cb327cad8e75ad26f4; 0x2182e49d7bc36d7688058820f992dec5942c695d2003eb6d171b1c84124; 0x8334ff9a7433cf0ba39a2d0e87c60609064dcf4a2904fd8f77a16739fb; 0x42c1279697373ab89eba3331e20dbe7e81dcec5d115ff6aafaba2d8615; 0x3c424b311e88fc1fb4c5dabd0d12cf7c190cd656c27cdf82555cafcc39; 0x13fca4b1935865bb78ad80578da5f051c5b77b2ca2016e21726a4319b85; 0x3f51305f5119cb6ddc241051680a26fa3160f3dec53ae570d8fe811191b; 0xe8bca372cd905d52b167d2d7e1b31f7991ff7d969b56c0f05e13038aaa; 0x1d378ddfe2e102088aa2d9c1711e6a5a322643b91255613a04be9396d57; 0x3007ae905044c6ad14eae42a070caacaeb7dd8b90be44fa083e5b87276d; 0x16f819b01d663937aa6f72d5c734a51113c74ed03236eb5809c8f9f852; 0x1bc7997716ac199d4f20c3f68a11e9556f97db79e0e0dd78fae7f78ae8; 0x3ecab1dd275170e0e90036b3c57cbaa59f5f4deb5f783f90b37566f7f10; 0x34343593f9458c867777a2de2f64382d1aea50dceb2aab30c51f42dc93; 0x7e89b30d16fb7a023631c384eebbc7b429a652043cf904605752e3c1; 0x296a335cf856ccbffc13560badf38a0185666fde3ba04a05b9a0c4cd9c; 0x2c70a2e73aff734f311e3a2aae74795ee8e97b7fcccba296f3a5894bd22; 0x1e1868306a9b97677ba0775f1a2d8d262d9179f2faf0c340551c9d17775; 0x188b51895dda5e6f5f117453e98dfe52b764a5a3caacf125946539d0bc7; 0x7dc0aaaa8f5839fbf44771c7cd4662b9fd92553965c7b86240f4a72389; 0x9f6d4de607b94fc07233bfff1b3dc9b9ee216534d5b0cacdf68cc6400; 0x4a9410d900a7785471a9d948abf5ad7d211188f42e12d42dbc3c3218b7; 0x22d334e933f5d4f568cb620790b64fd3580b1c1fbba601491e1c4befa03; 0x3a221743ae45b918a137bb46b0a7ba0f66ccd33409863a2a7f92c853c; 0x16d1ea588fe68cd074cb54deafdf725e3d482f6d2d58eb95f7c17694f2f; 0xa869b86acbed7f8b85661392fd3daed9dfc0a0260cb687209d79831d; 0x4a2c87030a74567bca918b9e7ef9fb9d863003a73aae5e3234a3173d09; 0x2f814e165ec12170ab1266b6ebaa8316c2a631ced42e98463d5a9eabafe; 0x36a5d37f2e6c8581d486e1e7905938d9f0ccd34d89f215321c57e20efa; 0x26a0827d8987c92b90db28761f716dc7cc094c6c3a67602ad0352a19f57; 0x18df5d1d3c440ddbe21a942d1440028fac1852092eb6265189a1ea112e; 0x1cbdd5a846efaaaab3b3ea43a21644925164e2c7cec944bffaa383452c2; 0x14af129bc79d87fe1da7075598e55b980d6486a616b68d7498541b691d7; 0x6b9710c7e241d2c666e8553f5edb59fe6a305ba03bfe3eda21a50a33b; 0xbddb19fd856075f8887b70d78c8349b6ec2de0763dd8ab8032917d6317; 0x1db36ec625e0b3f0b9edbf57a1aa893e50834525ea69b3b4b109c155445; 0x9bf6a8f110faa73f03f04735e06785de0ad31b7c36383b24d33e092f19; 0x4583b0f0a117457695ef0581bef998f5a97e24f2e712cdae5866e84a060; 0x3df54695238add1e1e9aa6605122f56e3281402d6074af7ec9e9e707114; 0x20a98c1d124b1207e220848f8c76ab349f45ab3ceb47caecedc9064e980; 0x7f6febaf4c42dee27689551137ba70b8a1700f8517b1f93173db7758a9; 0x46e668e767084d8e5e759c414dc97b71d2146a0670e125a8b73fb4fe55; 0x255a3de8f7ec811a2702bab25644d4fd8618e72c3ee2c63055daa0cf8; 0xed9288fbee0f81af92a065c25ddc09d7c8569733c879501ca8bfb03e; 0x42a21dba4f0a82b6cbe104e29b1402e763e847bab8b02747eabbb49634; 0x2069a806a98cba2e591211f3b684ef1a4c36f33ea5ab8ef05a7ba446ba6; 0x2c36e9bd1f52a9104b997e57bc4db38af8f71bcafe86faf96a0b19b2512; 0x3309f57fc4e48d4d2c5b68b9ece168c5a9aa55fe3262c764b27d03588e; 0x8a32edf8778d9ecd14306c180020e1329f1b516f17bb274376e1bd50fd; 0x3c3be32cb2bbd859b69640bb9b8f6e16ea2c9905f65b7bde913fd61521e; 0x147ef52515e4620e31c657a2123a94595698d09f37fcce4ebc15332fee4; 0xf52818a3bc551b20672c9628e208564678604a1fa3f95c10dd629c982; 0x12e05f15526fea9ba8b93da37664588d0862483061f9ed3bfa3f1df69f8; 0x1121f2326a3020555885fcd27ce85e95351f99558328ca00f85a3cbac76; 0x3dbbca17b845c6408058566671a7f7694fd1a1a1a2854547931b6efd1ce; 0xa52d98c6a867949a4ccba1b660d149df348b669e00129a65aa2983a13a; 0x12d3159670915427b237eea6815251753a48dea5434a06f9d66eafdc56a; 0xe99081a70ea610ab49d0940822c75b58ed4e54eb9a7ff7505b1e32cd36; 0x425ca29392eda5e83f21d6ee52c6eeb409b8c2088247f6e014e2eec39; 0x6c564577a1b50a6f5f79a555006012eccb49c361aec05f5157529134d0; 0x34d348b604f8b71d844dd23099ede45c2b662da0c3685b44fca9b23099; 0xadcf66fbfceec4ea34d4bd906c97f8f23518b62fe3b8338ecda46861b1; 0x123814c056f0cbe3df0116594b1424e79436e0214ec80a5c2d9539505e; 0x874c2df6982a1e8531236a9ece4ffce9f87d2306fbcd632751a0985ae; 0x198e59722b202eaf495ab59e64962e9d84f7bf3a3e1e8b9d3dd15578e24; 0x2195b2733fac9811f8a3615a20c28ec3258a2d5b0d85cfe4253437d8095; 0x8cf0a5b36b5825738cad7c9e7bef538ebc15add7b0ef7189e907c7075; 0x7187147bd7a1d7bdc66a2ba20286df11e019e620601b5886a27c8b775a; 0x1ab3e8761b85cd6bf718db5db4e60a21e485f549f1f8ac47e52dd3345; 0x454dfebe3da6c5b9376f62f547166c30486c34a4a5e4eb2d4f065316c14; 0x349bd03014c1a8dd725fd1ab80b19d41c33250e1b8eb7e65fbbd120829e; 0xccbe43d976b77cd2cc3986f37fdfd266a95d3ccbf4a25fbcdbbc90853; 0x38408e86608f869e7dd0401ce0755eeddd45c21b0075fc2985176758b23; 0x32ec6732725c3ecd6e551dea94c48d7ace4d19379894ff524931fb66841; 0x1941c5a921db2c6f20b470fdc52f389827399ed6bb4808a1cc1700caf82; 0x15c3fd6613ff929c55ec6242b10d7c9901f0c427960729d454237642e3c; 0xf290731e9f5be64b724b5ddcd2abdab7f0084d51c1a995045d06af914b; 0xad33d82bfddd3255f9a55747568f1b637e307bba478754c36b10b1860a; 0xa18fc3f2f003a3466d73caa207d0cfe3408b7f4eef6ad11f5bac9dd86e; 0x608f91ab83a452f50e4f2d719073bb5e4373fa51ca8b13ccb8da9baaea; 0x11af72190f345cd2e2f9d3dc3dc7398313f4a4d544eaa0c21fee73f8ac1; 0xd55cf85b95918efe43bf27cb902a8b42fde005452e892d9d59f5d8e470; 0x15f68d4945f8ebfe288d65edc351ef29f63a78c56f02acec933768a0b5a; 0x2fdc5e2794fa9714489b3af747cbcb1e8270b919b9b31f471f98f113ccd; 0x124713dd9661ae9d93d5d742f25208242887f0ccbfc2e568e9139a31c46; 0x1b781e7da21e34e5efc52c085e6346dd928204fdb8c20a86b07c01c2e43; 0x399ebc5c12c16721804635f265cc8c8063919ba5b238c00a8122534bba7; 0x3f0610d5102d66721d8fb267ec6b468dc1ac72c5815c4c6d480e723833d; 0x2154413d1799034b724f25a3ac79e1097df65b2b970597fbdbd849fc177; 0xcf1dcf5cf5de7f564a61f84cb9d8bef4797f3d1f6f2ca8fce72d3dcb0; 0x229041fb67bad247c67eab144a27ba3b24d5b2622c62979831f75a2e582; 0xa015437db1adeca3734d1a21e615d74f75a68f0150520a61c523312c; 0x79e9c29ef648ba05f022aa8d4a77684945db426526e69875d411eaa7d7; 0x59ba2f7d0cb3146153585dc52b7f62b0d72926d3e3c9c58be99746b287; 0x1767443cd22cff1df1e8a67ccf6a7107cdb32039e99799c5b8e47702036; 0x155e5e423b5782cc0c937a3124ab5910c50722ddbab0b41a694f3cbec9d; 0x3909775359ac5dc3fdaae7f50d749414d92083f92bafc02f629d84d6e02; 0x111062bd5976d8a043ac7f343930de1afd6cf8abf7ebeb99295e7f58eea; 0x16ead18b8eb0d80c84252ad2fa2c7a32ffc521cf5a7ee0e37cb5b4b6a61; 0x217f3f846cbd10060901ef3b5d9b1ca287fe698153f0cdfde72fecbba70; 0x1175566209b20b929a849c5cbd342bb9d178314c77989303f9299460e33; 0x1420424078726165649981e8da5496cb8b16d500d02400707b10e273a8; 0x24c827221fc2516be742418a6b5cd16e84e12ae7d4f3071507a315dce9; 0x448275951f97d950047dfde5e55c1fc6ddab35040a70d88925a52d01bc3; 0x47c96c0cf3377e7b6a791992450dc0e23cfc17e8b8b2bac188cc39af387; 0x1b4df17db6c6cda4964b5e3bbb09d6855a494bb60dbdc5cfbea8836798b; 0x61d09fa3e351ef1794664ed44f953c07bf0a63dccb814ead0d586e438; 0xa030cbefcbf5dd5dec75ec7ffe9c88d69ce7956cb0a666e9ef6d852fa7; 0x2996ea71c2cb03a4042d843e49f3cb8258ff4a37182a2b29f171dc770b0; 0x24940de9050250a366a091851a9a9b1c0b6ebd56195f3b017baa5e86061], [0x0; 0x0; 0x0; 0x0; 0x0; 0x0; 0x0; 0xdff52b52d80bb5b33a5e1b0dac6f; 0x2bcb2ddbc74fda972a8dc690bdef5a63970a92d892dcf7f40d2ccf582bb; 0x884bd95d88e07a2ce4816d0ed96441c6693447595a1ab65afa1de6fc2a; 0x288a196e398f349f97c1e8f4d37d3b18c48b5bcf5fa84f626e9dd0e7a26; 0x19420a2e1de55ca49a2e3daf2c96a4ede84f5d812e62c6e3d25d1048e10; 0x129d17355b9dc49546b9c9b2dc7a471c7f5eafbdf26eb54a1e4f8cddc5b; 0x6389eff212d3a2b06061b708ae505f156c7348195b96bb466133180cb; 0xacdc90930fff962b89f7d81702a21d5ff18570250bc6120b18f3284d5d; 0x286155e82af1255da20e928000ee8a8164a9b0c5ffb186fc6e1280d8b4; 0x1ce160a994993301ca6066ba3b8160bff69f4008eedf9ff3f45b0538a; 0x20c9c065d8ab7c933fab2806c00378c71b465b3a945e69a05dfcfb645f; 0x120911430cc451e537e235faf7f39e47b432576748e05ee99fa6be17217; 0xba689b4b24b6d1bed52a129673613a244eb7ef292f34adcccfc0c21ee9; 0x4aebad59d6234e390175cab9c61e8d2e57d6fccbc2eb3a1152addf362a; 0x20c9fb98619b2d458067339ecc6bd88e4eaefafd2fde7679243aaddec60; 0x79903fc1c3c27d2d095e9d27019e40ae80164fff6360682d2c65712be2; 0x1fffa1453205c45b12c80b48452f36d271053384b325062debd3e5286; 0x12c3977e7df76e489bff2a5ed8374d0051d77d60f02ab1e1967dbba4154; 0x33eac89a39674d1fb02a2b24424601fe92b85f32910e9a027a992b6274; 0x119c583c8d8d50ac148eeb477db1f4790d00d1180559ee8d8f7055e89b6; 0xfb29f4ee7f7e65369cdfa863abac7e44c0bdd407a207844cf4cb71e55; 0x1b232f5e2a84389b0c8bd9212493a55aabcf487e16c6d981be277d07c5; 0x412c565ae773154185e55300e08092622acf4d831df918e78ae201d3b; 0x6d0806a3004c30ee613eaef77295ea88b00367c0d7a11054aa4989fd18; 0x543e6306ffde1b23eb49be3daaa993f94c17592357683d30a12259ca7a; 0x28cf00521a51bc96ab215eb6cc9aaecd47a9460505f90ae4d5db95edc; 0x18ad360e5b53ddb04ef355c319ba23c75b09a6d99798c078303372f33b9; 0x1d38e518bc8b58c28f0ffb979f3c00985932cb049a22066e28d371d79; 0x38fe1343c9f6d5211cfbccfed6fc0b9b572a7f5a102c5e42cf79a1254ba; 0x18df4ea174d8ff9bdccaed74cecfb20c6f4ffe127998febd4ba532f62; 0x9dcb4b1b8cd596e7f57bd99f3d293119a66ed3049d95840939f397686; 0x1b44b4ed00e78ff3f91c7f6cb2f01876a5132f1f1bd9f29d7744e787930; 0x122a25e36086819d5442d3aa3b53a4c1e7cfa8d2914f7d47923439abbfe; 0x43b27eccaad01e2bf26c711ab2b68b9819274cb2d26730a824837188e89; 0x405e448928a39b0c1dcdf115d4e0f56173318a850b16f404bd25834d5; 0x703d766c30f10c84c229306081426b4a474fb9feeb676c88abf103a890; 0x31bcb9f72b9af663ef305ed47132db07f17312887a45f67f8d5c3cf38c3; 0x124d892f29991095cb20aa17e000edcfef5392d3902c6ccd4304032fe94; 0xc02ab9a6a79ed7fe24803da8d7c28f35c1b82e94e986803ef1c0cf5223; 0xc7ec9ea08c5db1bae6d1965a5fd30dc07be42176ee970ea5f74f9ab6a2; 0x11e05418da4866773ff70a2bb6ec3fc7f2cf0b462c59ea4d9b0da6c42; 0x4e1abae26a778729761a3c569b086dd855699b7f5c08042f745c976ce2; 0x10782ebb0c87d2ae7f8b8d8d14f0495b95ca8014fae9a95a84482a456e5; 0x296cd626a563af4fecc87078392391bda0a0c6aa2eb691b521a426d56; 0x32f9af5e57485188bc803c75fc98b7ac0d4e38fe7f63bb2002d38e20241; 0x2ad5011a55df9ee120845d4f9d1580bfd4df8c679f833a3b051033bbbb; 0x3e7b8ec01dab085838b37a5d9701e4ab81a7d688251f1cd0919fb54000; 0x7e9c23b53bbaad24ef37f8f5026884fcf1a1a7b4b76bc286e5fbb511; 0x2ca61b2eebaab0fdea4ad03a378df773cbb6bb6d70d130bb85320858ef7; 0x7e0509bdff13f53ab5a4d4008822eb5f7d36c2646565c839e98940f0f3; 0x4f3b91f4aa20e20cbfdc2e7a26cb9a5150f0b2ffbff9bbdffc174358c; 0x3066f695219f6bf4e84702d6639077ade69010440713e7171277288622d; 0x204d96d3db6d2d490d094d58c305d5c3c1b6ec6751f0330fef2c695fab; 0x1df8548c91a7b7c3d59c576252dc83adcb3437b8367576aeafacc495dc7; 0x47d43a899364d99bdd6070045d671f15f83e2302ee63530ad2b60ddf84b; 0x84f9e97b69b60255875a7e3cdebcdc82c006279406c9736e74b657; 0xe93a307ea0f715d4c51d67da4984270fb00d0691211d29d1efaeb5bcfd; 0x77ca699fec9a9096c3853e804ca722b1440b3ed614b38ec2fd2b08471e; 0x1204bfe064da834daffc11aa23b27b2f5823ad6a6e3fb0f3251bfdaced0; 0x3810dea8fa66d898d6fd1447e9cccebd6bd3a4b8b396fcaea21f1c784c; 0x3a2e42f5e779779bcf1081d055e27f41fb84524f23ff4651f30724a651f; 0x2282c6ccdeda3bc5e08f0718d3586097d785adc2c50f17164b046143f; 0x1e37367cfac55d540ad6bde6cd09e5efe5f83fce89261fd064b4c944209; 0x2514fc147818dd8670765f78b138e43cfbd698f506cb0df271084156548; 0x1631a71f08f54b8676db988fe174e22b60d050a9bda71010ad0d75e540c; 0x53fde56fe03080a1beeb72f838329fdd48ee176a3a86aa811f3b14638a; 0x2e7fa388f72d78b440f2a10fa9d28cbf0e40013ffc282b848320fb3b9c8; 0x1dfc44c339200fa7fc4e276ea48959f347cd92fd95dd47d2fa90e6ed7fe; 0x173984832cdf65d13ffcdd7aec19cca628aadcbc00f0f538c0d7f2581e; 0x2650b4af464177fdd75bcde725be84a658098e1b5dc2ef6b2dd93a61bf; 0x10ee9d3ef521146c4ea6894326a3236b1d4fe2dbffd2d5f2efe72357d07; 0x8a016088fe692ec94c949bede7ba934de3fbd63c5666aee804f849e19a; 0x22096a4ac1512108ead8f576dc17685ad6b8e9bf43932337fac44334; 0x207f649e65248bdebeb2283674b6a6669f85fed849233d2f28244c2717f; 0x293ff676fceb9bc4d095b400983766614872db8861224a33c8ace4ca43; 0x16368219c3c83bcef973bfc670a6ffc385957ebf86b76686473dcf98484; 0x48b76994bb2fceadd09b39a57ad0c515e5f59ea0cd308bb0fb3fe525202; 0x226b2513895fd90caf01ca49205d34340673d6eb93a7719081f213a3731; 0xe349f0b93d74099aa1c274f298f6ee7eb719e8514ab5f9b1be16f305bd; 0x30964164f3e8e9b78273b5a2307c256a52df82fc3792e6d3b36c1637dd; 0x123c420f6599a50b2ce066d195d08736b7e39efa5f0921b5bfe95a168e; 0x3ebae8da733b9d347c18e99243665e3b82b8b275b6dcd0c9d12a8fa40c7; 0xa0fa934dd992c397ec7baea9d03b6a2b5765fd7f1ef61bc9297f02edcb; 0x2970e985e47e206bfd85f851405b6bd3ad6578d06e377a956f0ae38dc74; 0x6ad8af9586f24c2cc8a10a8d92e2b63a234f066a7b47875551e5a2a785; 0xd39dcc77e11572793a273f62f3e2872ffcf4acbc0bc30ae688e555d78c; 0x2decdbf891879ced4e4ad90e21aac0200673b613e6cafd408f39cb17c7; 0x2663c74900cc39bb68e898a7850a8eea26a276cd32b40b13fec6f39d77; 0x12e9b924353ebf0ecc6b9c097f9e51fae85f5a6a6772f25de63feda395e; 0x630027b8aa0e015c1e4892823829818b28f2a4a141280e61334096553f; 0xf76e1f457ee858ae37a487dd6d73103f2d1cca04302f5bb98f32570faa; 0x2e9d45cb55cc5ccf1834d6b32c049bc89efd0b78f86042b54e3ed22ea; 0x2dc9a0cc3781bc428409b20497633867fe23177a7aad5176268c0221885; 0x2d7015881bfd3df5719ff54c46d5b66d5398cc911c45d047b18e367d1e; 0xcd73ff84c0b32c81bf010fd23ce6b6b3d0285965144d91ddcb0db80ab6; 0x48884532c0bdb364386abdf1c6a2099726aad12bfb66cf0479a99b54501; 0x40bbf33ae07c0622d7167a07e7d74b82a450c049924370d9186a5a84cef; 0x24b8fd9ca8ee4444ff493b454085690187172c90badf2de58887235e499; 0x62d4c46c43eb39bc1c8ecbd61249d99af71d2eac8998e92a9321e52753; 0x1dfd3a2d6811f6e8b2cf3235c2245701e2e607a793ba9c6f99843449889; 0x340dfaa0410c5fbe4c2f9ce37c3aa635c6e4f17657909e7d69e09dca8d; 0x9de0d434b5dc359e736a23bc7ead056e0be7e73323fe3ba8e4e98824a8; 0x193263f8e9fe838ec13cdcf8a3e6f228d9a4316acbbcdf5825bce1da497; 0x9ddb691801e5b2a2ea08164f3cef9e2cd5949d6c2f77fe7ef82cc832cc; 0x2f8fb3c2922af10dd2b04085e8377f357e53c4e426598e6006a02a56fbf; 0x22d0cf14f286f95192ca0dcc4ed1b1725bcdfae59a1ab5bc6f657146fbc]))]).
  - exact (Forall_cons _ prime_c6 (Forall_nil _)).
  - vm_compute. reflexivity.
  - vm_compute. reflexivity.
Qed.
Lemma prime_bls : prime 4002409555221667393417789825735904156556882819939007885332058136124031650490837864442687629129015664037894272559787.
Proof.
  apply (pocklington _ [(15778400344354997994418419698270088123916926905054652752758194827714659, (2, [0x0; 0x0; 0x0; 0x0; 0x0; 0x0; 0x0; 0x9d835d2f3; 0x109cf75b53f032e042b77a5b591423e8baf840ba0eff3318f9ac171dbcf9994f0e7298981d6147a1f6915ae1660822f0; 0x2bfb22c5aab2e7dcbf639fc8ca98e40872cdade7e37f1636056a83f987d00593beee640968433f1206f5216b091c6c7; 0x14641846942ce539cad41a206d667e207a5c47fcc56b85eb8af5f1bb9d86c69dd71d49de8f26dcd0f79e11f8c6f36e69; 0x2a592e4568b51ae3749778f4859947aeed5987d6c142fd0b284838b929ddb842ebf0f1e0f134f3789b0758a77cd2511d; 0xad36eddf06ce55ab498daaa1ca999a17958f44fc3ccf2bf5ad350b1b90d695c193fee196e7e6c3e53b657916d88bd0; 0x22ec6e72044cf80a3a75cae0e0a7adf76d78a4afa58bd72fe357ff9599b4b7220880925b3efb6759152d5f7b554a6c4; 0x178909600d041565e05ad56283511a425e15f3d050ff782203797ecfaf741317ffad38609f555a8754ef2de482856964; 0x1d36d03913d74444850a835ec188e5d5425db6371fdc48004b9ca5a93137b7e3ecf92b1fc539fac917c198a40be18ae7; 0x108e7097ef0524d98638e8a6c197fc55961f1b358a04b9c50e276110ee52a7a11ef7d0027581ab6fa09712c7a3dca77d; 0xfe902a7e3ce2ca819c99e3504dd17ac5171849a95cb45067ed2c3b517b3de650e637e75ade0fc65b30a5c1cc12d8f3e; 0xa29b8d62cac14c1908d31b1036455638d21738ae7fb5f4d0ef960a7fa35e7ff3c162858e9e10880930c63cdf0f202d0; 0x2f7be8e2ed42e960640e21f6e9df39ff0d9ab3f687e5be8647e4988b0ef2bcb41fa2c3a51fef64e09b13ee6733ad75cf; 0x1757f0431406849a095f1886c6bcc4d7fc360e14cad2f12460ea21518904a5c53d64f274992133e38f3263e11c8858ea; 0xc74f5fe9afd68cfde8452cba7c7f00f409f5d4a2fe4cecb5564476c1b2e519a51f6adc2cf1c373e5cccce5ef6c5fcb3; 0x39a75cf86975c33fd07ff6228723a506136502c97243376d21b14d4f5c8741480a2f56e4cbd3d457f3e4e41ed1a6aca; 0xc346168ae5e2f751baa84b752cb90fb4838d365322cb2296a54358776c76a870015cd536e4a39a7b32b6305d9ad0ed9; 0xb42a55030432b145596d4f944b81da51d4198c2f51dbff5854a4cb2a361d69f565612b7dea595afd1c6148079c5c0c1; 0x113e4edfbbc28e1e3d9672e8dd67b56ff424f59de1fc2e5abf6fc746f70362f6a9bc95e32d8c7778cd44646fb9849a7; 0x11d00dfef211e7ea968e729a9b221d8ae7802979643ddf1b296330d18878743412fcb663f168d12620a584a4d5826941; 0xe7a4b58d572a62e36877e8c938e7098afd6e2075f9b86aa8d132df81cd116343753a10213cfa848e90ca331caaf68c5; 0x17f01785b63c8ac0efc3760b5054678ddc8e7f29ef027fa2eb6ee9a0898e8aabc2eceec33cb438a329aa34427d95beb1; 0xeac9ad7073bad741b37b04eb9c2b67ff9c3de040d29f09bee65bce83abb493f65b6f5b95056d48a9a1deb9bb7916ef2; 0x274e5ab0f06096aac4bc565a28401ea5b0ced55015fc8b18429e0f66b84503c47e86fe96e6f1425c0fda001778f04eb6; 0xda4d0a1885b4622a1ef47c9fd649539519234e94bbb5e3685cde1991f00b15981ed9bfe10833a95739825ab54e2de3; 0x27475fbcfd3334b9f298b617b9c712cc3c3d720c26145745eed98ebfcfd46dd164416cdf281dced1253a26c1fcd27f2b; 0x4b9904d9d55f152d86e49ea075bbe2eae46a7c74ef2530550267786d0cd735cd0179cb26e8776141f8cef94fa0ae713; 0x46b162ae4f2edca8d897cefae9fa5998c15c5191699e7a2ac792350bc52f92d356b8a453dca39ed43bc923e582943a; 0x23d39c1ad45dbd66c1937f9a1c9b3d7e780f15303e619ec9df7fcf1a759384863b14e308d0a6192eb822a11ea958c4fd; 0x11ea41657e144f429ffec028043335986d6d47d3f1fa074bc23115dfc064d58c98ec41e5552a693e4b3cbbd912587844; 0x6a3a7599d54b62b49886f90c5a9267dc668de5879547a9ed9707239d614362179bfc77de169e59fff2662eac786f2dd; 0x15bd15bbde5a65ede00b57b332603f2ba27387c1734caf3f72de54faf8a623969d7245dfdc93007b0fa8d0b7c4e29be5; 0x132c9ad1b9c0ca4ada063e5e2e13a19f0ed0ed4ca5d4acca6c1217f1623dc4a787df80e3e4051268d91cf9b1198e3d92; 0x14bc0410791badc7d78a97220120b3be464d31b5ae10efc138610f4c3444e5c35f46b5a9b2340ede930e074c74f4f02c; 0x7b8931a2b8f738982efd3c77050a727fa0e0f35a1fccb6033deb1eb17110127a482074b7c0d9eb6b99c969b2b70825e; 0x1cc8b4b1459897af22bc516e5cb354245024e26986e25f5e90620cc9cf0f3a0b87e81eea07237879ded6e46472dae16c; 0x1014c6e124155f8ec5116b741d9a7a27297ee429c0cf331c7ea6ad63307a08de7c4f7a72b938275dd2b22a3b5e6e3e9e; 0x7b5cabc5112c781e7320481426413730b0bfd96b4a772283c6338e775b10e0720ae8eba0e689cd604a6d49782c09c3a; 0x2cea998112d97ad442479b991d1275cfccdc22c00e04a760585e796b018114c5977f1f8f8d306335769f73a63f3bcab9; 0x458ff391939c4f7d381a7a80ad73967952a67ea394b0c98ab77f34c15114648df42b84db39acc1c8f73b267ba8e26b0; 0xcb10446c72c778548cd44e189b32b9c50e2de1e6ebf85f16186436a4ef3dee97f5260a008d2b755a06a5acf12d0e45; 0x7f6e456025d82d2aad96fd61fba101c45a3926b41dfbb18e20f8b4e982175ed33e8acdaaa3cc1cb113c63925fd6c01; 0x5730aa9cd30706b1315a6778588d7fe101fd95e70159ea6d504739af287a41119c5638143dcb5f2570cc0ecc185437e; 0x1e9415c4a90a8779b0e0cb51ed01362f8bba28e5c50eb9b6fe5a49f6a9f975b8343856baa30fc0801f11dc1327ae9727; 0xc71545084a93630d6ce119fc11e06406ea407b5995281f727e1896d5a8f3b9c79494e7a9d43444fe9f01b9904256b72; 0x9a88a556aee95af6f87571703f24dd948c8d2a75d93f21a30a56ef15df413553d3d0e8b4b631b5d626eec4be1f2dc96; 0x17e28a4bd485e3491f0ac1c18cb90e595f6aad490f01f2265a52269086731c2706dbd6419963681ca6556be945e6821; 0x34889c35c82e124c25e6c93d5c1c6264fef84dab962217735c317fdf104c34509506b3cf6790edd5546938fae30196e; 0x9b7ede3906643308c5766a44d0b72aed77398e07e68e514b32d35af6cb808330f8f30ebe065f348578d556e4f29d046; 0xff160fa08217c694650dc0bf094083172e524997fbee96b51f6928c4168dd9d3b0bdc9fd68a9f6f4abcd4022272971e; 0xd04fdd4c3035e8dd71940af9d35aa8af722ca0a7b8e8cd761b17ef8355008081015ead4b290231d3e785dcba3f4ffe1; 0x325c7d50a5fbc12194c89657b0c9ea96686a2ada7a599afb9de575ed902a1f29e5439c925e80bde31fa8d02f1c347390; 0x4a6e0d355f81f06fe0e0a5e609d8df5cb57ed6db2357be5ac27a2f97a7d3ca52ab16e05815b61ab13e6d9a834154226; 0x133e5a77389caab6f04facffc5e42de30a995246a2323d655048858909d3b7fc898c817b9096b23ffcbca00a0a954e8b; 0x2a8a2ca79d76c69d073fe9a9c4c92e7388ea2c519d83012c0a65e2004f4146e2441769fb5a4dafacd921ef05711c57dc; 0x1461124adbcfd49d7473a624c93723dcd4ca0378b3cd2715cd18792d7859ef5148c03206adf0217a32b0eb719a4bcd1b; 0xf1370beec50c3e774a275ebdf79a9987f3d6078e1c31c29962e2d3e2f8e11bdeefbbbe130a9d83127a720e8952100ee; 0x3f1aa8e9e06e3394105758ac1d038da8253d058727ef3602a248db7bf75313ce2c76f5ce414d1288b94091571737639; 0xc2ba94817d0cbdc010cd96b8df6fb96b05a8e0495b5239bc0e29e69f434fcc5f6c81332dd50793f072fee44b82539a0; 0x3345754826e19493bcce5ece9e287c04be2ffd631c816e07e58c44fb93657901e6ce97ea9eb25f6d4000e7a979f5425a; 0x209b04de95d985bc357f6da6ab04485498619da3d95788f22c14f50eaf10892c1b64e37c7ce72650a90933ca4f7c870d; 0x3d80121e1ae19f749e1c705db0e439fe4d33e01d071d8b5604e0341fb3d312333841f7023c1492b51eb9bee83981b; 0xebb5ea2d1c019b16aa3bea66de0cbc3f0ffa2f99956152964244599a4e88aabe13c321243c881b18de601cd0c49b840; 0xaad2edab3e78f719540fb2bb72079361313eb14df06d2920f401a23442252b248809c05344e90b90109b2f6b8cd71e8; 0xbaef85b83ea9b34de72904c592a055060fd21fb84c8dc735798777053c8b0a27049ff13454d250f13c3a15243a5783; 0x2bbe0bca2b3960216d7f34fd03d7e10ec7b7886c8cd42ee809979b7afa52063ab895ac1e0b27ec337ad6aef1e4978f85; 0x91eeddb63b5351c9194ff541990b7fe8c389f07047443cccf33cc9a4d106788a7de570a8db55df415339305e3a9332a; 0xf5010087a477caac9088112fd64bb31ae853dd761fb92b1b861a632472b39f517965ac075a1b29f6fa1ea93e76e9333; 0x78ddbd155aaf3a18b2f5cf96ddcfdf73727ca0e01c6c8575f50e114d8d9c0f3b107468f50499a2474f02b284660fb4c; 0x30ab311ae985fec9c3d5bec8ee0f2bd56944ddf09a06b80fb1f74f39416699d83e8a527e923e87a22cb47e54ad45706d; 0x5ad6e2680d42f9e10b36b17c074c256387a57a2a80e68717bc9410f037b22de5523bf5e88b0f019e1e3b47e4cb55473; 0x73095d9af0ccdeaa3969d9f8c6f99a8288ac562ef737bdb3b967e5b44eb4324a798f690ebff2e49f027b8fd6a890029; 0x3c46e409000ef91843892d11f68ae23161aeceff63c6b870d8d8472d37251ecd418522174060d463d1e8f7b919b0b5; 0xb67ba4b014214def39e1a4128b76d58897cd45c2046a5c43926f2729c1fbe84065ac40772e8cda696cff094f0dafb; 0x11174695545b3d55f586bfbfc7076c2cb1c9752d9ce4e1357b83ee86835b5e2e41052b57a2daec882dbfe86a4be457b7; 0x321e14e86d50759db38f6957a3dab1af70d570c718bc4a24c2c6671de44417195fb1a7826a7281a6c6eec6628a65613e; 0x717dfc3d4a107a90e7ba6107e393857833885e2f96667e40e6e4d89a5e424e64ef0bd7f4bd5380cfa1dd805cb4c96c4; 0x645657673fc19bffe388f12e781fb68d4af1dd90fd16e556319df253eb2c452dec9a38ab747a78833e56b4aaa2f241; 0x1944521afdc7b8016f99c4dff3a02b3ea35b6bf0b67bd32ea4e084dbbda42024d382c5629ac8aa5aab24ba9cfdafd3d4; 0x4fffd7b16819f58b3524ce8b43a883a878e3259bf5ac4e3b9f900bba51fe4017c3264f2cbdda139a2221288393f9a0e; 0x223c674646939dd6683f434b56d2099f15bea638b9fc6e0778430cef080a8ec06255699455a426f17295be84d676c295; 0x18a460f05364a03f40c0fbdae55060ed08209f6e7213d14230cc8755465d8c7f7e8acb907ae9c4389041640e26afd98e; 0x72f92dddd169560a8a8da76eacbc57e481c4a012c7d19ad0354b3e82541e7269e608a703ca26048d5919163e3877be5; 0x1fa6e8bbd54ce10a4ab913efc12587f200c2e327a1285e80e2cb536503327b91b3afe9cc3b3ff954e0c780965debf3a; 0x6846a0f8c535da62068c4de8b1967d8addabc0523d0e1e0311f94ee00566b9e3128b7129655bc789973b1ca82e428d3; 0x4937c485e9dcdd706b73fc71a0302e13c8340c2fdd42e48e5777d0b376ddadf09f342297dba3e9898505cf0dd528a86; 0xb12cf9155118d75a6b15c6b50c0a1042c8b5fb2ca211f1c26bc22369c4858dd599de3c722ddfcc9553af26c581864a0; 0xf3e2f1f6cbb36aa8f76c75670ce2b47ea067089bca7053311778adb29c8611e6ac2e1e29bc6e911e920ad4d5ec1f0d8; 0x23f7a387fc40d730ee50082a67d1cbfc48e96a8b89b6b998b487f8492ab0fad3a820cd8f6209ac6ae1e785d3b0db5; 0x103b30c6b53327515fd5c8bcb6e09caf6c9e4166526f3917758e9ede2e8ab1d8e6af555459bac4d36fe428fb7d27e26d; 0x2b43cf4f3979a01c793752a1d7057f8a94a7321628cab3802bc17c4b411979fbbd9ae06d2ae7c667d34f380776e6f57; 0xcb8646c5540f18455e083ac49b76eb51eda3fd3311bf21cf287e237b48415452bc7bde29b33b3b4b5bdebc7596c4b15; 0x1260e453b5f3a4acd5767699110be8198f6f2459bd7aa64192284987b7f1d1233387f548ee84af380c2eac83ff6952f4; 0x34688243c811bb94a17f2f3d8d388c188758ece33e33c613eea3131e748fc067ff70b90d2ae15b2dcb27fe596fa62fe; 0x54c0109a45619b3c1000d91346f1f389d3001dd7d9d34b6f0c79c8550e954581f1c4500fe27cf0c3bb3c32ebd44db8d; 0x5ed925526959f855f2db32cfe03a3e3cb70ed11ada8360888ca94e88550699b5f80de9140af3855cd0603eaf99c9597; 0x716643ecdf9a400a3181fdebd7c1ea3710e9649f2b6666e256b45b9860ac4b052ba3c30780f63a56ae5ef854cbe2815; 0x5db42d3d986550329c76bd734d10ac2965600a62d02630136e3a9ae931c964eb8fd80956b2ba8c0501997972c5b5593; 0x7f00959138d7fd80c1653c6ff147a54562aef30db3fd7e8fe468c958013236e349b31cd914fcf05c716e4046b92da0; 0x6acc7230d59f95a5d5c2716c9615e10d4656e543670e81b47cad69b9ff8678af39d3fa42dea7c0f3ee38448acfc9cb0; 0x3d4850024fb420e62ee44bece43514a9b21964f88742a93779bcbbaabe1b57a7e221e7acaf8be5a152ac6856af6717c; 0x104f5ff9b0d08f6cf1a78173c7c396edacefcdd6fef06fa9d6e16ce73c79ac0d7e735894b4242bf429f12dc3b4a66cd; 0x30c3b896b89ffe508b7e29d0e83de33afc3ab9a65bd3fb2b1996e6920c2b8b57d0d61ce4ec897e1b3835879c67f9fe8; 0x9b676166b62c7a35a9789271b1dc3515d5b3c57eb1faafa68293d23253c32aede415f56bcdd20b758c579e7c612b7b2; 0x77e0c34dfa83fa32848a37dd54565c8d263c1652ca423db70d36cb68a34c2aa469a9b2fadd4988ed64e4b880d3ebfaf; 0x1591a267fd14e2ebbe7966548b7a3090a9ceff35c2f9db41778d7c1380b0f2248a17bbaea91cda97547cb766cafb9f2d; 0x1965806248058f032ead444fab6022a9c5e37a2a2cee65b5ac1172756ba5d9c56d4a6c88cc58dd1b455c3ad5615b348; 0xa3ef1a6f847e90e1ea31f1770195bd34a439969bb5ba5aa9e60c01c5f4b6a465da8965f94e9150f9a481cd0fbc674; 0x756f7075fee1f371eea11d8bb369c79a8962a4d366f7f34987b9c1020dc7eff73563e313c0d2cbedbb01df5754d1a04; 0x2d9401e9e2f1ddc1f6476ff04a251cd5ed46784cd8d61b2c302ed4759d16681ade749b69e97d6052ddcf9b0511bef1; 0x11db005a5a31a29370aecf75ae13566fda2fd71eb262b4afbc1d8a4c23036a05ecb77c229a2efbc83b88a1693b17aa03; 0x8ef0c69e5c4f55fd3bf79fd448f175f34054be08c22187b1d75c79b7aaed53b0dc27b12d4e09a035bb441d04d34ec65; 0xd8e146d4db6a8cfe21b4050a271dbbd71044154cea847757b2ae504fbf39db15a50e499177975efa77e866537538796; 0xf89a61d4109bfb5a98247af373528b9e32c3cc0d249ae498ce056d4ee7f95dcd096adc5aa2038ed670657899cd4dff; 0x2665a4a448a7eda5a319d8a3d88b142ab84d63aa29ed864cd005b6ac560d82f46167d13ed7133bf4e58ca6bd8331596; 0xc13b1835b9b8c79a0cc606fe10b67f382bd0500651728cd68f62b16c77e0c0b2e2fdfb1d2a93dcd2d86eba940e7d78a; 0x536f21eba94738d5b31d3612dd7f9f140160f3a5a5bfb6e3ed85087c9cf18eeb3cc70cfb55fe8fc03acded53630fe32; 0x5687d7048a015b06d268091cf8c2ed298faf9bc150bafbaaa650f8de1557faec351005776acdce5592d907419824872; 0xd05b60651ef03398528df21f50fd3b72b49851d291136f45507a1945dc7d5d4cebc0d16e41c73da36b5f64cdcea04b6; 0x75a90572c8f2083905773978cba0b436cf9c6c74e45f0ca0623e14fadc77e008a9420c7a3962c742e3db29e84d6a489; 0xd9f18ee0bcf86c683ac76ed77fd824e1158e4c32c9826503b38ffc6d44dc0ee82ff15fd7507f26728cb82e1ed31f930; 0x409b12a7c8d510ea5f45dfdf2e350daee98983f2a820ea175c74c4db2de60edb46d48ae167dfca47b545c888b2a8826; 0xc3719c371cdb7733463f6d8581657c8a1850aa62c9032df94b42ec3b6791191057eea816465759709e95a212e86706; 0x479154b830f165544a7ff48c169684faf17794fc7998debb09da372ed61bbf3e2ebc47d1d349a5c4f286217436af831; 0xb9b69ba64f5ad39393897f5e1fb2db0033f6e77251f0b260b5849e213446b4dbe9ce32d9edc9fcdbb520bfcb24ed31b; 0xddce09c972b224ac312ecadff519cd51518465423369c913c0a4188211720d288112409c0fc8ef3978934758dd32738; 0x137ebf089cc39bb5efa9d507ef81f43e82f59e317b3dfab0b45480f12f3073c34a2c8e86b0d823be0e8e839f73236b3f; 0x13194a7ec9d8bef60e52663fac65670b8ecd3c68b4e699be15c510e537261f62dc2dbbf48dbef31641b6aed9754d254; 0x323fa2e6e29a2d801f7de6f5a17cb835584ecf696846a98667ebb5c3d3b8acd64dadf07822f6d0a790d134e0034fcf0; 0x1176984aaacd7fee588c1c0dc59fcfd93c4124cbaaeb2ad9716b90df2c7bf233e1b73a2899ec834aaaecf7301a400639; 0x1e809f318aacdd36194ada95e84380683fa3b74c7581fbc1d7e68cefd3caa9df57a6b02046195b8669c61c3b65ab0dca; 0x211eaa4e8486723b842d9dc0489ebfd0d19ef77f11965afb3fee3719e1932ade2e8c759b234632baf94c46379e312f58; 0x145e6ad56552b37308d93231fe12042ce8b26312e421b4361978db9874f57783dc5bc9e6f322f66367d4c5c4321f01d; 0x8748fa031677b097bda2d60f11fc91ad2a7049a7cd33516f2e79b583316e2b4dbcb18036653c8d160c7cbbb826d331; 0x115b2dd49b6e92e4fe54d23a48eba317465d524809fb712cb251ca4b7d8668ab12aca6a2dd0001514bc6b6af5f869ee7; 0x24a98f7b3d4795b7c43e64a59a576c30d5cd556b5c6e1001e23fb0b676bea9e6e1fbadd3473c5918d79de797d613e9e; 0x15bbeedfc39d1c6ec2d4d3bd31419839d8543b20dec1c53bc3f53c7f9dca5a539034e8247c0609ac7d6209b73b37fc4; 0x109748bba938b50f5f5a93acb29edf5f94a609417f1de897a05e1f8962621d7b1e4a66c4cdb3e3245c0a8aa89b4b566d; 0xb917ad55928bc456bdd4d081330c68266a19ee4d61c65b81c419ceb900c56bbbf3c1b17ac77fad20926444afc6102fe; 0xc56039eb9b92ebe7148006f67bd65ca20826c63d334ca71886f0956f2f76f9fbb7dc3b3f86b03e8fffc4a8301a52d8; 0x13e0f61afb8e078c7a7ef1920d86c9fb7e5c8ae3b95486b415ea1cf066422c070f0f40c733f16e86892d8d91b4b2fe0a; 0x175df0ca2ad34335e0d01b6f58a7c53bf46f2646318712a47387836bad94db225924e8a25cbba775e2cb3b74130730fd; 0xfdea108721e06490233bf9e1d119bb1bbabbbff4c45101fa3f775127add9d3b464fb472f6378f5743b9f6af66046bcf; 0x16c517464c72cc4c6d9f90c49b72d709ed07de5d10ce9f5a162c049813d5c74012ee8c816a2a719ee2ff4926153325c8; 0x378d904c2b0f8754983dbcf3ffc6e90e2a1aa402a437aab24f149dae380ea48e162aa2f05e5ff2d0bc03e7b114a2b77; 0x24d54f1672d998ff259f554ee16b598448343ebcc6bec95a6df4662e60662dbee60265ffd90494f40fbe6d7256df29; 0x3240d054c97041105e714869f9de026a0021693da62377ca44978298832e02888bf2e0c6f1e16431e8c35a729d34c49; 0x145b5fd24e179cecd1cb9ee3378b20446a0279eab2cdce4158ec49ab87b251c264c42e24eda0b5b5506a4b94890157d; 0xf72759ee03cbeda4d56170196ffe877008dee4d101a79766435b4bd52ae202a590a6cc1426b095a154e48af002e7197; 0x1e3805f45def210c297b09abbf0ec28211e4ee0f1a9589fcb0a5f3ba1e3c7e513daf079433ec0e2e2fb9c9248080; 0x1948d56e25d448cae01ebe72aab81dfa9cf1c51a7153cdcc2ff10cdf561a061c67b147c492d394dfb1307f5877e8aa42; 0x44fbcd8e3f15e91274571f60e7257db3ade81d0fb1e797b85c9af802e3c7bb200f0e84ffdc495bc2fe3a4acdd264817; 0x753380059e3dd1ecd5429a257e4577598c24dc448c0c3ff74e1d805a5d518f0c57e516e18183da45f70b7ddc4f3cd79; 0x199d0298d71cf5f414880e0ede9451e3243e1f83e4d7bdd3352898c1833f2ba2ce670ae78b653c4f09776502796177; 0x4d4bc0149ca4aa9c5920af0226f9570aacea5beb179dedf7880860a60a2fcc4d238d88700703d68ece983a128f0ed; 0x1234673c582c964d263761e221d661d4b07c43a35204290d35d3240d85835c5ca20050439b381ed56c74829cb3f318f3; 0x17027ca7c3a2caf9dca948d6e37d5c43023a5cd10ab116433ef0fbd2fffb1fe746291bba5a6c6d1fe24d0acc68d600; 0x77c2b03dd4888c65f72ce1858f3f63ac2d1a1ff2df50d1f279fbe5ccd7351e17968d7bab92968b5cbb2879377b0e194; 0x108217903f6acaa5ac91bcce15a51ec55ef5b1f764f0ca14d1c786db1b8bbaa09769689d3fac945b8c8a0a3fbec33c22; 0xc81f63ab54887de5bfed92e6df11508122dda1d205ba143f1205521ed4b5479704b33737019c9e6d171661d23e8bba9; 0x522375daa1ec859c2102fe8b77cd6ffc43cd5235ade3fdc17dbf43dca532e9d593b26ed90bba444c50ba6c115cc5ded; 0x1b830ba779e2e2df060768e18b7a6c4d5696f5aaabf5ce3c2bd77277413962292d22db65220777281d01b92493e34ad; 0x1633669eca9abdee91fb85f3c96875f4b165b923afddb522eaf92ec51777c262fe0bb4d754930c118dc5fb4633a124c4; 0xcd9a5b96d6bf9c6fe2dbb1fd218076b2110d1f89fae545ec79c9114b9533cd03f9bd34afeabb1e3de6b3a75028e32a8; 0xbf44e2cf88f0ac5b03ac2951a40eb93633dcd2d95102f1f6a00ba28ddacc7d52c9262e98b698ea9ff64019d6dda627d; 0x2602ab13a41d19e88f101fa19843b62ad63316fcee3f796dcd0ac396127ed4a9b60a0f7f8fbdd0ec25183aff013093; 0xbef7b0bfa5e8336e4d01726cf8bd86ffe3b1117b15b0fe88d4dd98aff90d8373e61555964619ec837583de075913e0b; 0x920390fb6786ae27902bdd0b80bc364fd43f8c2fe69c6b1fbe943f185175227e67edeee91c46264de9929722ddcd3e; 0x33e0ed48940c3cfdde8eaaa16c54db64d562f0558d47632c23edda4463cdd9a184db85f54861e9aeb56a8402ed620533; 0x16f68c612e08e5c804b5ce3cc88b69590d6850b40170e2dbf3e14f6a94da676a138453ed4ca75b8fdf7ace9ebcd8ead; 0x18d3b94ce98066f9673655cf025ddd7aa45e780f7e547c3d06f23800a31d0cd9721bf0f3958b8a9c20c2136e387cf048; 0x11691b372ad48afac617d6403495c0076ac2599ff71db3a203050db73338171db5125c03473a04e5de1284050e299ed; 0xe8ea1fd998e271bd5db7edd53301c7121c19b501df21634b9966c91a52ea16b477578b9a251ca7497d4b86b07a4d0d2; 0x208ba1686ee1cc0e02a2c07280ebb87a71d92e433190a42c9cba46b831fe54a59726f3089471861d1a8e04253f3f7757; 0x411a788630ecedec3a4d855e6474916dfa0e892a31f1575ef79d97da6ca46160be5b854167d5ae78df0218dfc067c35; 0x5cf351dffcc538f9d594b28297e3bdecf72eff88c05eb8618729199ebaf8d7c90df4790a43106471865893f831a588d; 0x103c348d4fe1bc06b2049dc8aa7272edaa1a54bc46676379955cc86846836634f58c1d1c57b8943bec88c8d02f2f72f8; 0x22147e513dc82f418a8eb92b0986517eaac79646b40c627a6efe761b93d2cc2f344197bc73028463c1407374ca3f337; 0x2eb6e1014255e9b52cf0930b5a9e844b4beb9a8d23a6d5ce763bbfc31d0710d28e234642d453bdf209e5ec7678003; 0xab42f656042ebe33f9fe8e10cc26ab69d81180a308b304074fce067637abc78a73f5569bd208056706a831c142c70fa; 0x12ebda70d464172125d3a34da9bfccf9bb66cb4f611f1f33e89a52bf4851fe54291805b786ac0db05dd1fd1c23d7c4d7; 0xc2f13c8c0fd578d00fe0590bd4cf418e7be6d0fac8987a7e24f156f0fc282e14e8830e2ee831ba407a9ca589cde3bd7; 0x8add55f262e9932ad66d2efcafd6464af017922304c38881dad271d6be74f859000bb4e5c9cc9c7ba2a646cf15244f; 0x317d04057d7b787094bc3bebf100a2af7d5dd836c0850bc3c294c9f7b6d1f7a32689c63c435b5b61f840c86f66c6af7; 0x12f0747731e496d2d89bef168fbf797f8f1e3d3b9a4bb017bdb733489fb6791c2790cd2d2111fc5e8a72c95836875af7; 0x6047e3a1d5699a3254bb422284388edf9e6d42b79a22ee44f335773da1a30fb8004ef1672ecc96a32ff229f0dbc1624; 0x16f87931c7df1176ddad8fa591ea6cd6ac6699ea46a8af41ecc1731cd93e45cd5229d87c6faad79bce1fc1f15e9c2450; 0xbb3016f08e00ea0da5cc2b9bd7debe70557d9af72bf1d2d4b5493c0fdb1c5b4e70edff72c5752da42a6956430b657bd; 0x117e56231d1942ac14306fc36ee6e27434dca08eb7a5f63deee4f877e5e3128cbb44dc46647cc0bf2df20fabb1c33ab3; 0x21e4b4d1b4c8eff32cd6e24d43c08b87ac116eb31abe58c2378af1a673d6e62edea4803973f10856230d200f8dafe5d; 0x43a183b74706ad62ce463e513eda92217eb3aef3e5a495961556988e264d0d96b3e6895c2daf12c207a7c8d01393002; 0x1264778fa1c47d38680b9d08dc7b094b56e0e45046bf53f1224fc1ff5f04b20447817cb21dbf634d7048e455d9e34426; 0x14a8fc112376748fd7915eb66561ef5aa82c7d1b79a83db9154a7508e8b7372efa5a267725162a631f2e2f689385853; 0x5f5252380d821e23a34dc9d97fa0cf7238763d5d3144af785c8d191c6bf901c56b365ebc3a6536de0c8c7431ee4777e; 0x360dd61f86e72978ab66c59143c69d9ce63af241fd23f3ceb4acedc4aca1c2724af7299a8b8b5a9afb242f0709cdd7d; 0xfe6b51d092245f69d71dc171b637426922c49b70f1bf77a3a1a67a87bf446cbbee3c9be3828b2a9babe6c9de48d9; 0xb019e2f16b6e1d72e72c07143574da35c81238ca9a69124bf84a323b7801cd8619351c21f2e0684ab3372b58329c19; 0x14f76488a349d10b7197a79c0cb9ff2717c0e6f38ce30c0695187848cec1064507d106bb738bdb3ed838b53403f6c3f8; 0xdca5ec7a775de99504d76a54b7f52b66888021982d5a79810a75714f97a0ced8d43ad8af48e43fcadc0da581ec17e40; 0x150d972ebba4cb0c59c7be4c53790cbb6de33a4b9fb010cdd107c72bac88b00476a954feea8004d4525952eb397a064d; 0x61e616f6a22232a5f51b056e8a09e401ea1f2cdbd65000bc7341599ce01c8ff7f0ee083ec7024cf4f3d7bcb4f8f0a28; 0xaa9395ad96ab765f52c563087fff5e372a52c040adf795e91850ba95cec4f9ccbe7cdebd057622dad9c3f2c328fc96a; 0x10a8de2417dd0290859f5bd1471a9af435711f56a2cbf8802a14df1a913b0ecdf1b93e7f545f752d610f6dd939140172; 0x1e82ffe628e811ae640c3a4c5078dbb77f6f0996105b006a6516f5b09c535ec4af93d9c51dae1ea8317abdf536079595; 0x1601cff4dcc5e2194348d4d1eb522ad5e3b79fb357260d2b48a35168241e0e43de1b975fa6837b6b01e1e90b1b076; 0x18114bccff022a4eef91babfb2e45f6ba96b655d71598c86c0b0d850cb9e5e94c763e0c635d05034bd662f29b2d5c8ed; 0x58ee114beb165929d581f5581eda207c98dfe2b808570059f9f866cad1c03090bdbdcd2c58851f00d6495dc3fa2bd3c; 0x88ea6174321fec5c99ad0f16a3ac6bca59cc8e940f8f6503ec7f3dfed44391081f8ea42b4b4d52caa7d066b08a235f1; 0x9ea319464987e036246a70a9f87dfe356d0438a802f79b75a7c4429defd9bbd814e0bd2101410ff9ffc674d74422388; 0x193c1d93cf856c2d255a568387f6fd8dce4eb1a06ac3d5e7af64b1fb8c38a369730516d04faf500809b03dc77eee8b58; 0xcc87a59746a32ae04193375714c32518776e9109181b81b3979f27c26594c42b58edc066497f610ce496e9dab5f74d9; 0x8e2f7b58365576155ca7daec224f13942d2440aaa969a7de73d90fd3eaa594764df029f882ece3e91942ee06c256651; 0x3846d00f5f1295ce521e093f10e1be13e7115c0fc19a05a13f7156ca84fc17e5e7a01d7cb9573f7ed949c9a21a5f9c; 0x4f62c9133d58f952bfe872fff8a582c949f0b32905baeac9e90e78234d3cf3d677bd1a88d0ca8011f8c6a25e25f4c6; 0x167901141af99cb3934607ab465671e1c94c757b2ae1d5ea7fee9c7492a1aafe797a133daafe838d212817f22df8e496; 0x14eec4af6e4d16e9cef64cdd1a3711637503ea813f7f2691c3bfca5e91615f0436f8b6db87b951e3ae5612b3ec523d7c; 0x9c3428ebd4f993146132a5d94f34b2984d31d3c19cda1faeb20967c769ebb4cafac2f21f140c7808e746bf80f6d82b; 0x9cecbe4180dc344b986985a972f59d4bec74300298d25fc076a5a09ae5f5fdf329760573a33bcaa777e5cc8de109980; 0x29cdf92d72f653fc60bf2d4730724fb42fb8a5af40e8db358ff52eb70c10a666b08f1f5da6fea25565604ed4b5fb1d18; 0xbe313a1f6ab1be719146647b01c1dffccfe7824b6d37e02f43e8b94db6b776c882672f349773fd778c61fa2ff77a22b; 0x8bc275638d335b8b39c337b599f00920e9c8fd984673e207da23971762d9da37473565c796eedfe794829c765618e0; 0x91406d4e348ceda2dc2e300cec409923ecbaa80776bc4545ebc102e111bf27a78424bdf49ceb2d2f44f903cefd2035a; 0x9e8e984e9b5e4ffb005d94e1a82c3e05ee0aa9861b4bd293fbf87082f239a8240016adff11d837f64741251e2542618; 0xc7f7b223e927961253f23dbbd9d5879b992ba0dacb2b21e8e82a7d659cafe2352e30beb217f551ff9602bc73678c7; 0xf252ed247f3fd7022bd7f3f3315582dcebc5987e47a27fb318a495e8bc00dcd804e5931736bdf91dae08deb9ce6fe5; 0x24e063932523bff175762396ca7fb9c34dd53b934fd3a4955b3742e6fa2546026d5b3458c8b4f039d5d9555af107be5; 0x3ccc2ba575aeb6a7d6365e1b136786d0708c05060d87e42d5aec2a89cfc1be792678553238df2580936c96be2fa9d; 0x11698b654ff9251404567be626f88ca0950fca9715588968188baa97b44961a2172e4ce9c43e596f7ec75c14afe6446d; 0x2a8f9de337243dff47d67b7f1c820d8c775e8a5f109dc9bab6aeb523ac08b0aeab2d7a6ff54c8d6a095adbccae58bb1; 0x35a2f01cccd42202272b8ac49797da63648012ccae70f02495be6c7cdd3af2867fbd95a70da3c8ad5d1d58a59f13402; 0x7920f04ba82dd6b73e82be731fd0a1433427d77fc66a59da5c4dbf4f0b9b3c77bf6e507c1a91fdd59d68d4c60ff8a13; 0x98c958239dd91fa7806d95b4a7913796d536289eeec69fd7e8f1495899b6ddad3a6a1981433b1ea879c6998e45cae22; 0x5e94a37155d6ca8acf5beb6b5b8e8dae3dc7fda8bd8d35c47c2aa564684f1ddf03f6a043b66da0b7d9ed1413d79b995; 0x5a0669bb07f79165943fcbc8bac79e4a223b85ca1f2d0e463883471f59c26381f63afe06803b9dbf067afbf921fc85; 0x3251fa0097901444fc24112185dcb779a8a30251d542633403fd02ae973d0d52eff09c1994dd3823e5323ef1ebff75af; 0x692da6f067422612077cf1cfe9eac82c8b5cf0b97c3ec96c29ab86bb8a7f7d5586fc24ef5016844322b4b976bfc224d; 0xfddc720e2e394f0f6553aefff6d847339079342ea98ca1a38f488fc23e4cf83a20b5d349211079fb3b6ada8d6620dde; 0xf8197c936b921596f01b4d3886dedd6498ad812e495aaea8b4ca4fc5d51b0a87f4a691c0d83ecca30de0b29b1dfb164; 0x47b5afb7c3334687e884563f38215f1df9cf1111bc093890e1d8aa541e86da4d663f83cbf64f1d2fc9c7d42dff1d345; 0x20f1efcd7b01bb2b33a03504ecbcef2474b9a67e9cf89006ba3e5ceee59ad0e82adb3dd365b00ae9ce43425b85d1a0; 0x14aa7336f84df7d14dcf796b0f11c454759161d94f0b76577678955d427623861c66c1304570cb75c30c83b13d9d2ec2; 0x502e294bc07773bc55c55b23958d2e3f337a8b10bd28cbdf8999123807553b2d821f316cce868d82c36ee4032385e3; 0xf7d5667a6112c6fadffc5bc8e5d17d3f66b157808f841e1794fbb462f55b96bd49971b0af4ca7b6860c87c7bb2cb7f; 0x29ad869e29de614cd65039413e1b10ae975c9470527ebda884a60013464b893a7ed94030322b9227c8b682b362ae2d0; 0xf5e00981c90e1265a6e63168bf99ae9a32e022bfd007d83eb223addcac0a522fb1316bcab29558d1b93f25370e608fc; 0x992031d01afca4ab0b1c7ee62c2dc971dc1c47a426aef769ef35a7c3497c5468b05824ee1a39483e4af87c4d65a6457; 0x4c37bee551c876b6de1264b9cdc4e18f20530986a9fee99004b0ff4c078b6e540525a9217874e747e43f930a9bf121a; 0xc0a4a51aef4bcbd97e2495438fc3396a0c42983d13c53465b8415ea217d52d22724d7499b9f2d93df58bb4b102d94a2; 0x4187c80f6753aa7440c29d1d3fc4b3adde987e142ee5863b2c30b198074c5bad86c9f7301b5596ca7095c51a53cb75e; 0x9e92386781c8c0d65af7e2e368d39ec8cd5ceb8f6e0adea06c56ae36a634a3b7ef89bf85215cc366266d1af6f83998; 0x322628262f4ba5343e3a10be8969f5ad11f7e80bad76662263c96b9206baaad1647b1c3daed90a120e22d2d0e5aa3166; 0x6d449eca193fe42d6f679bf53412aba7fc1ae197ef48acc89e2babe79b9e8bc0e63a985b6eff0e6bb162e97db9f8542; 0x1a51153404756f162b83393cf3e66183c45d713c58f2dacab534b7bd6aef1b3f024354fef5e171cf800502a562b4c2; 0x31d674067f21e794ebd3de3385f280398818dea4b241ce9523b4fa280ba331cf1111d5e3ebd577b68ed8df3847a2c469; 0x2d7dfc3c12b303ca81e692ae16a673cedccd92b9d293643b5db3771e7a24a24de703f6f3a026300a8658f28674d869; 0x277b306f127d1554b5186d69a78df01f51ade74754972078c152b177a1aa55cffaccb015b8118d56c4a11e749763b03; 0x11e407358e2bad66ca8d47368acff06fcaad357e0a2385f66743821b846f92141f90427e42ff40ef417afea377fc5d3b; 0x5984a456a0c906b7ad7ba6493d9d8a7e143200ccde6f2a02aea92a8e7f43ce6c2bd8b9aca4ba9061b153bb5fc9ae423; 0x162fd2a84abacc981acc5cffe4912767b5783ee05e1ec6b87c8b9f2a5a3bfbdd8e03a8a5f6c81a33940eaf2902d5d9; 0x3393a53e59fdf995733af95bad477e5d45d2b5315fcc3af3a8f68221f820d4214f9318ba9860c219cb84105b8cabb0c5; 0x9f1dd478425695d1322db79e3c3f8f4daca99ba0153a0bfb0ba87f295dc66bf1892b4f83fce1f6945a41d8fbec8138; 0x1af8f689deb9b3cdab547b3e77b2623f1f1929db2bb32271e39a1126d7c5cc9d481d55662696b9dbe82c48952cbb335e; 0x225414a7704836e2abe354e55f01d6b8465f7277155fa8dd8d439f1de9af2db0b678e38854103711316b7b25ae702d18; 0x2a2d16a6086112830f72ba2fcf7d6d9882c467c3bab8fb1cbcdfeaab167ee8f01e5ee68dee3044a797d6517eeea8243a; 0x82b162063a734e7e6bf1972791ab640148bb493e6a01937c4d9b4d48692157f44b7b4f7265b5b486255e89d5f3c24bc; 0x3fafdc20b2dda84e11dbb5a654ae33ec8192b258df611afb7a62b3fe6bf29f83cc72dc10078761685ffd4b604a39c9b; 0x28615417044269da58fb464a5ba9a61b5177df605b7217c5dc3eb59f6122423d9217a426ea47b5d0b809b97591376233; 0x5dff31d83060c81df3a9cd456189efed0021af06ae290cc4a1ec220762c809fb10840f6c8b318a708996c9d8401b3c8; 0x4f3b33d687aa913f8f68b5b0199eb2a99d3bd2a5c7baf6f23ecc5cc9cb1ed5cd25ea99e9f9f2069813a1d471eea98a; 0x4706d9f1ed212c3ccb894db0324a78c7458137127168b3ddd5d365b39ada1438e51c44fd60c2f74e6bc7a5eab7a1cfd; 0x1cbb1a6d374b0151404500c788ad7c49d2315590b85be4f9f60a46ad37022b376872c7d094934fe15f002a90007dd4a8; 0x7fde64a51429c33ebda9f5cbc8ed6274e0d45b8ff20dc4a5ec0abb6dcae875834f7b2c6631953e0fffdc13ba6ab1fc; 0x778436abfe336e69c6c3d3e90591c64469ce9d3c18966803336c6da06f6233e492ce83a87148682f1574650e567d8c; 0x2a024f1b095eb1a975e6c86fb93563a80c5c5f60ad66fe012c30cca4b3827a7f5591323e654559e69ff8d4d59d608669; 0x688568acc65d11505a67872876f3535f22a226106b63be0349a221c01903c50de97d102c54416d7fccb1f35e8f3cce; 0x2e853ad115ee7385ffb06e1db6a0357112854b17eedc34d5d2c1e8fdd150d916895838eff200363e14472fd8c65a3cbf; 0x8329afc7a0bdfaa10b2541af9d911d498221a396593f291ca6a8ded034196c06d1f5642cc1cf64bb10224c328af522c; 0x25cf179f468a370745279a4b507208bd9b5f17ce2b585e88de61aa7fbb691670d26a6f111aebe5dc127c8812d55f9223; 0x14727194a40e9c1b04a72abdb589f4c283fbfe88f1d351e06268fd4c8e1e17ac7acac4e4c4da71f5fa3b5f1b91951d20; 0x2a82957dd32c11dc7e2bd8d6c5a8796215d38d53743ee9d724a31b4ec8c67939b8b613aa696b61dca9f209e4b4b67a19; 0x281d241b352cc53f9df58362a6a99fc2e7dd161a564b1f8926e3d338447164b38b3e804e43394b5b948917053d1db929; 0xbe5fb64f9c28aeeeaa3c212c6f94ff410e9ab9f4670a8d9422241259e79dfca4cda3eb9cb008613fd768467ef0ba40c; 0x5645541ce3bdc717395eb190ae4c3f163cd756e7aaaa5fc11b247a886e60b1457402f9e4468e84d9011e02136736e18; 0x1153d6ced9482fcd10738bd3ac47d4b1e8ee47266fe95935f6264947cc39f306e9d53fa08e1ba0b474a74e2cd95ef4fa; 0x10edcee4ae832a60b42242b68bb959646ff6838291a1451962089d2ff07e86bb4b5064c546db9eb98b0d0b1600dde247; 0x428d962a0c8c4817b938d3b54726a70e105974958ebee02c54f6ea6670112cdc6f2a0f8126f55a2f30aa8f44e0a686; 0x40c38ea20010b7f36eecde5eec13d165a7b2d88f7d5c6bd9514d3ad1a2be431b0c8c699f48dedfa0f075965580c330b; 0xe2c63d56f79f67b444ee8bc3043087a6d2b28203e04a4480220857aca6a716fb7894e23c278adf772c8adef24f3c039; 0x2965faaac319f8c40681e148ee93a8c5c93d886d71f833b47d79aa931fd2332f85c118eeab06b113900b8633e966d28f; 0x15f0a72f0b84740052677db3f22bd2881f02f3c1f381477f4677a092be8191c81b7e54a18d6fb1780c042a9a5972277a; 0x133437be3247da814a6398e157be6afd1d5ef3dd482aed00452c3518d1e8f0d4b2b2e6f874e851b5439cf7d414a32116; 0x22dfed390ac5a55f0ea69f50906b99ef2a49aea38da441798903dcf08fc12ea2cb249c8456dcd4222b5480c8db9a7217; 0x787b881da0be06655879e53876f2bd6223668c948378fc1c162728014aed9725a6e48384d09bc4a33427db1ba4a99d; 0x290995b1bfa6d122605141f1e4e7c41f0b6a89aaef25342358ce497ff6699ee0657e59d5198b6c2a1405cc1c57f9f944; 0x258a5de0a489360db0d7581b18ab4374fdf68e07c794836bb486247c47bac057b821c3891cdc923da2fa3fe87061a966; 0x12567852eee7e0a5924d76262a547fca362ed24cbdcd3472ac9d0f31351049d23a6395ee472b69acd822dae32783c13; 0x1d694841f99d212aec29487905d292a6ea039de041d6e9c8a279b1457a1b985510c6dfd797e648cee20f26b48569932c; 0x7310bd9abfa8c6dfefc223c3a7c55e82a9c8db143fc2b784c4fec1ac084d6e40550b3452a439111f7c024b75282a4f2; 0x1691e6f939813501ba89abbd8b5fffbc4a4af506f47d447d2b39015a3e5fe6a5a8df5532c6c274f42188be38f19e072; 0x18f78208e51ee615682841bb7eebf9e2f22ed977edd3ad283a86c4bb183d3d166c4bdef1e3e772d7f78b1e0ba789100; 0x2d7ad8f881d779c3707508143b51bd9cf60889da7ac59f02e1da3dbdfecad8bd841d42950fb244f4893543ec46e09941; 0x85b8b6c01d9fb18492af72d66d8fbafa7b64d32c822717cee4d6b85f3f0d327347ccadda742acd031121441a5ceb6; 0x2e66c5ab6b9ba20d53eff39cf892dd69a287c64040b2e07d745345fb8207e22729d63ec6073225d413f886f2f9644ad3; 0x9e918bd3349b10073cff390cbbec1a85fa7b66a71202d74435d2d40925b89ee8baaa508d4be45ea4e89337f3687d98f; 0xf3d2842902da1f08a1936316d4f32dd4f8d51b23ecf56f6d4ac4f52205c495d2a2259127fad5f4fb22d21c2592bb8b; 0x6e682803972af69aee8f63b4da7f62b7b5d30e12dff58975200f209eb2c889b7073db98d33141e7fbc74b988dd0691f; 0x14622216a3ad1472f0d75f88dcc768a625a8a8c7b4f610b6194e70cc04607acbf2fb2639a7905a183ecb72478a7269e; 0xf6d6d7e45d969e1a6548df97d52cae64889a76385fdb8bbc1075f5a58a00e44da59ad03cea1c7ef118a36268f9a5a; 0x173de26661773e5ee58ad5f448ab4b0c65771cb8df3118cd1593184ff78990effb1834e469e05d8a0224665785ac12ba; 0x240719a96c1bbcf69a501e0a53294ee8e837c691c2c768ecaad6330ca8b97f6ab7d325c61b395ee381dd4e0797ae1c44; 0x4af7bb166008676bc5000e793588a6817a890935d7ce6945b93100f8adbcb19d1cff978031fc867285d89af5d9d026d; 0x2a1f4fb74a59a38443f100aeb1e17b02e5af7ce29060135732257ceb4fe714490dbccda08cb5c1824bbb083addff54d4; 0x1f8a3ffcb1cc9b21a9b80b6adf39b51d406035e72676b43953d776cd7f5434a788fe5a7e97cf792cb956f73a779cc14b; 0x320f484409fce4e82ab8595128cfda4f47c60c2ac7a19f8761acc3bd857d7f628a6193ee37b60cb288f737fee9a1a86c; 0x113b2878b34c26c26c00eb55c6d7d5461fe697acc61107b34513fa73dbbfb6744f9fec807a6861c99aec218cf352684b; 0x18895988c978b1a141330ad485b84c3eb2cccfc41ec7bfd4dbb7b6b5d82823a83c37478e094ca9a3030ceee4dd5a3357; 0x9bbc85fe5690f8f5c386659eaf527042a745189faa74e4c3946d49e8cec035e523feb90364b937518540ef8764ddeb; 0x2200d5b35a13cab3ae217bf2da3e492ac923030cfd4280cce679b9a262e19a956dabe34a0b886286550dae7e6809fcdb; 0x2b87401cb0b4009973b0da762bc9efcb256a8733ba30a726c2a0b1f21cf59e459cdb289cb62f420971d6dee08076c7ac; 0x145c4312d78d3d1f602e9be40c81f7cc198b939261276d4f850b7a308082bed7691a59c3fce3b61dd923b5309b50f91; 0x127fca25216e90b1e071f37c6d56bbc7e9cb4180ec6af7e9c3359c43c8875deabae497f2bbc4bebde9700551c545134a; 0xd496b879b2ec4f7ba86b5b08b2d7d33298b10c374a82b8a9129da1a942f5a37320f3089e7b84e4686deb082d612aca9; 0x1f25dd86ad2914a58c430113676fe58e168f8a52e5009ad9d7b780a172dba3048c2a628e17ecff1ee02f8ddfd9274; 0x1395aa17f9f754de22669717236e2b53c8a25c5e4745bc444cfa4301aeb755a12fc5229415b385718ab4f218db77be02; 0x5dac0b88e09d40d0a3a22c8ceb7d2d6dea4e6be22b0a377b9e4ec9518db9198a1a8442c2de2b492e20baf508c5df4dc; 0x190912feba91469510ed9df157f0e2b4a82ee6767781fe5d8ccd2ad09a11cb1db3f441cbc98ef1e2d7f3bfad35f2678d; 0x3fd4b831eec255f12f444f314a57d1128693b4a0f2906e45d3cd4aeb80d2f3cdde5f6a731f61c824fffbf3236c937c9; 0x18a7a4a7341183a161abfaf1e874465d3fb02bfb0f66ab409be3da586735d45bb020879e2019116f1146705f0f425e; 0x31752a839e97d9dced7f61bed46b29c4154addacc983a284779abab6eeda00cec9f27560d9b41323f24aeab566712153; 0x3df4093adf9d3caed964d39442833c43ae90d49544336e4370233594f12a1381bfc6aaf7f3d51153c943d794afe9832; 0x1e84ae92304376410468ce158be625946b19b3a0f76b67e375ecb2c3315fe3b0a799395e0c946bd677ff90a7c342735; 0x2d7f110f2b1fc4b65c676e60fa4756eb5878b391ed68013c0f1392a0474fb76b3af96879aa0da8722e0251fdca4be0e2; 0xedb40914d725f80af9152b5f7ca960bec688cb1b241f5b4923a16bcaa85737b1876740758a2d30f80d1afd9ea9e25e; 0x13d125d697c248a846f7bdcaca168e4f16f841ff3b07040d7d2103b568da5ad15fd05f869a32b69f78e78b79f81dab89; 0x5db80ea81b71d9efec33f0be45ed3435775d5371f6f26f0c29ca7f6be218611670e63cb1bd6119ab2fb661d6f7b28cc; 0x9141a4355a6d880c0d52481468baaece85a9ff52fe431de4590a421c7ddc37d32273079d9ecf727ceaabdf9c413af42; 0x2c5cb32f057f158113ab65f7f4210da9606ff99aa392c22287ec5d2e40ee317d130125d4446614da8712faf46265b193; 0x154c75142459df908f4b0c512bb394a32a5dc2470b2b6990b056a9b82ed63c5799de58520774b0d88c4cf85669e9ba; 0x326330c9f535c92b3ccef21ac2192e0039ed9efbf2770030ebc01b62cba3876da912df0f0ccd855069d75b2a3e61d6ab; 0xbc26d38961589579d5286844e88d06083a41756131c7e66abdae56d196f873f904ff605288ea8c4c79533caa1fab7e; 0xa2dbed7f72a5a9a50d8c88124f305c562ff83f25d598931cd481dccfff2f1e1723107a5658929fa20d457e2f6fec271; 0x8325701c95128f764e05e3111ad0b865637a5b44d6e786a288e23a02750b1ae5ff47fa939c7f381f4d3ca607f5568bf; 0xffeba637c79214be7fe39e9b871ca41d4de33604c161b23b6608da52742f38ffd83edf866f70401e823d5fbf1533ee3; 0x23c4c624324f0c323cb666ca79ddec19e608e2da1ed5cf2675129402e928ba917dadd053f33492eb99efb6f9977c499c; 0xc5e96d2316cf76a2039a3c07a69a19b798d583b879595efff73db40ac7ffbd646dbfbf9e2b04669b0942e45e07c3342; 0x1bcabc4bee642cff28b91b40d057fd4ee9340c8861f413179ac60c62e1a80df0a9ceacbb04755e9b480a681cd8518196; 0x5d523b45c0e542441c7de7fdf1e846dae90256eb7f368e7036d058149ed6397a80ed768700383101805cd649436b85; 0x4e15e5e29f562d7cccba777419d2f81ffbf20924228d10bc5088e09f8f0cc3b42958d2c0f5b4fa7d5721d7c8984d089; 0x4e92c79a7613a9a1eb6cfcb1f12e1b0940a161591c9405f2973684b2fd65e619fb66e362c1284deea43b138b52d6b35; 0x27e6c7b7c2f627c5fa44d9ce026db5f2aecb1ee04a02d9dfd506b688e81bfeba81a79a507d979aaf3fcc9f9f32a08c59; 0x1c1311db2de828c2e955180a3c045f45092458ade50165a349235b73dd753ba825a1db9576ec2c1ab389a973a70b8ce0; 0x23bcd6e6c3b7f86b55b5e4719acbb9e3b222c8f0e2c666c7db1f58fd927c6dc2ca1e47c3d1b68958020af116997a130d; 0x591585a03a612432cb797ae9625faae8a92e7f91b5cf68ad5e7ad4cb3b3f9218bea36f8618c4fc9c3a454f8055b82a7; 0x214990444f60a1e2e1f33c8286225b50991a4361b2bc979d4648ba028a5158b177eff416a4a2c7817b900a2a786297c4; 0x2449d2ef9d5d4c01b73f97d68009484342c28acfee532e3a6d6f0508ea1cba9caefa752cfa789cdca55d8cd46f76e566; 0x2d87ab734a3d8b19fd51db6947337f630329c57c175052edc4ea54cb8a765ccf5c2b099d9ba008c59f3158075441fda8; 0x174776912a34b0d276fc0201b265d175de4a50a9e8dcc30c425c8ce3e4d7a7c005fbddfbf4256eb89d8608dcd130aac; 0x19e891059267f9063b84fb7cb2bb4d16ec5050a5728bfb637db0d28274b320a038c069742695765ad6411b1246adf48a; 0x13454de6d11e70932102c307ca8dfab73fc607b03b5969a348545bd012416ba6ff295a421bf57491e02ff7118fe59c50; 0x9b4d73e08d3243a82cd1d29bf8000955e459949b8651cdbb93581affa68715103cccad347671ecfd2bb073a1ed54c38; 0x161c58fd45b100883dc4009d0887fc6a610cc7731f8f872b5b686fdb8ecad0956823cad8b53a6f49328847f45e1f980d; 0x2e895eb76ba0bc3fd973073ef7045fdc3460488f20e5e9ec30e4b370b0de8d53d531ea139b7ad302d04b8061791c02d; 0x13cd1a25e013b47bb503df66ed0d7d5278faae940f37c5bf201f24a1593c844848ad82c96deefa4044813e3e50c6ddf; 0x11000a6b09cc486c38cdd2e4714441e21dde90f50b655a4cecda1a14ff2de55df5dc270e1f3620c88396348828cea9ff; 0x26fe8122b09531f0b8658a558abebcbd67983979e3eda4a808b2539e7e0f330ee281b595563e97c3f8c2c99d93759a3; 0xd0fa3b9c96876217dd50ac60fbb990f1d7ffb6e4a2c8c39c7bca5f4ade1dcbcb49e364b78f260669158e3001d247c06; 0x1338a18842c2988bbef95c5ac60bd9116c8df541a1b65d5722e04f286f25545140873ddbe79c367a3928d860216587aa; 0x14353a85eabc6d3cfcc8d35a68b0f6b87faa1f1e06ca9a07a3a7f01340519f5740f65b02f8b383c0a26fe8967d61b2; 0x1186418c7eab2c96e966eabee0a922414f4b9df178ee68c7b02af1bde1744269756efa4b50ec467526e88aae9c4c6ca5; 0xa0ce22e1221b56cae2019acf226503b42e1a43a34585432d9a0c3c86cb504c049427ff31629e963fac4a53322cae7f4; 0x7f5740361095410f0fbe6e4cd5cb45397cf1aa3190df76886e366ff750c91b58232c11a5e2fdfa49cf81d0c6b2982c6; 0x1cb57fe6fb366ebe55bd55812423ec51ebe734773f506fba394453d96b87bd846476dedf0cfd58cc5168924035d3371a; 0x1a0111ea397fe69a4b1ba7b6434bacd764774b84f38512bf6730d2a0f6b0f6241eabfffeb153ffffb9feffffffffaaa9], [0x0; 0x0; 0x0; 0x0; 0x0; 0x0; 0x0; 0x0; 0x4ec1ae979e64f22e714080d8663d35d148dc13a0ffb5054a5efa3b8f01433bce9ccb8b3d02c78e03d89f103; 0x31e0648cb63a3fdced09b11d9f65d7bdd7c2278eb62cb675ad970d08a5b09c7cda4b0f45bf30cd566f6f7819eddab941; 0x2345fc2b08f551010d230ffb048c1af1ec0f312286bc5af5d39f00bb6ef3a9273df7f100cd36ca50a2e7c8bdd36e86b8; 0x17535989199fa646635a636fcde7548a7b3ba47317a2186822460a48f94d20f8d2110db3912ced2d3c8521a2645dd643; 0x21a9db8744543601d44bd83503ea3dbf85bea90502d47bdaa3c645a038147c871b2da8255876d43594a6c2a118451144; 0x1bfb8f1ecd98141bdc6b5ad2ac7906f2a718de37510e321e90ba9c7a3323c1ee0b5ebfe825ee225347a1abc27b76361; 0x6a35036545c57b7e59d0fa6b793b9fb3a24efebea4942fe495e9df031343c4fa7ec150baf3b6df3299003fb973a3d5c; 0x1a987cb73b94b131d2f8f59393f3cc69851d95b5026a235e825515b28c1001900f13ed298c18f0d0772ecbc4fac240de; 0x199c3e270b4989fbf022d30c3b2e8a3e6346990ef24dd256a3a420866fe3294f66db7b19c6b5833f0042a8b0a92d1ef; 0x1c7bc951304fd698988d636402ea1d2c46bd3ebd98a80802fa6bdba1436e6c9ae46f74563670c2d6d0689b6452cd23ef; 0x12145721a751ac73fff0102bd0f1810f2dc034488b3ecb18666e857e4e6d3748cedbb25ad290bf571526cad0b4effcfb; 0x4a82e76c0123d772cf056d966534724e8589bbc114546b8744600a81aed2ec8de4bce84f9e9a698d113e515c5d3f7ed; 0x9a5c1c4ab889ca4156835966a3f3094ea5a13b94916746ba8dc445dd638b2da3958afde74fd2afdf1c176ec3b7bb4d5; 0x42bb69318e2948a5820ebdaeed46cb1a3ba78f4e0479e6fec7707ed4efb62b7a2c2f5c8a12eb3dd06a7941f9dfba08; 0x74c36f221d621cd163cf2dd9515bfb63fdf79c30780de8a6b95e54d72b6a54454b8d6db3b387c16bec8182ff220019b; 0x1305f4c2096ccf369db67fa24171fa893fc476bf78b49328e06fb8a0539f102011abae4eee53a81cf28316cc613f2cc5; 0x61f82c759fc008469c103cfb670f8fb90a1d213bb6123adec994fa3a655fee910da2fea3963bcb8c401e1a757499514; 0x2373ec18d12deb43a0433a3ef2a3df7b2c9b8f3d170f7c378ef594bc0b8f04f1c251bfe3a25f8c026198a46cf0d10e47; 0x13f7c4e178c0c16c5faa6f661570ae360ea0c54cc20f1630a160aa3b1fd7cb8b08a78940fa2b0fa7dbc5a8545efefd49; 0x270c686d0344917af07dcf822b36c39be670490f50b4f0ac39ec39964433a0479a0e671dde0fcef27ce7e74bc9fa478c; 0x2d6a5ab770d9488d8eb322d3e4ea7e08ae6bed10a2fe0aa66c3b897830336a6b6365298b0637538395574b5242e3fa5; 0x2895d551639c4e061ecf1073d79447c9822f83f794478d0cbdb595ee25669a0ba57b350c4eb529b33a73634235e59d45; 0x175feab2e7026a193bb28c2ed81b917d765302b0296ccf55be6b524b230fead01a0e2409780e3b90f9fdacf1316fc270; 0x2af59f7c1cb6d930f6e69507ffa9a462b5e6c1529ae8ee39168c22f98108341b67ec16827390e24e9ca80920266725e; 0x17e51898c9715395c8226339ded8f4b9324a808cd823fd69b56160546c46e352f037b9e407327051a8ca706f88a1dd6c; 0x29dd9b87e2a20d037ad5ecc2fab04e53c60c5f014582e5813cbeede533bd87d3d05d86c21a269883dfd50f64e2cf02; 0x2065861628db9d76284c876cb008a9a30d921bd79be319548153cbb35e45e17953f2ecf0d3f43b61bd77c344ea2c66; 0x2efc77a2b1cac3eebd35aacb950fb78ed737dd137f5eb0da2c72fa356400fa5fe1b6536d57ee162fb00bbc2c0ba70193; 0xc16daf69f590901fb10573fab0077347cd3ef1e1cc6f7691e63e21c8244c018de533b2b100da88439aebdc39a475614; 0x1062c98318f633c6a88c4768c19b1c832fb74c9a1518cc29db3f56a3ad28b83d6bff3546a5ee3261c53ab9a4e81a06; 0x1683e57b985738fbb4fa40100292330cfe15692107baf7b495d1b5ad90b6bcc58f1b7b6edac2ff462a84db81594a3198; 0x8a08b944cbd4a4773a6c4cc4ba6fe5fef9f4167688de28d5e24c4018289e1e58ede8b77ef03382869177074eca0ed2; 0x56fc48a725b929eb06b4b729c69f2fd62fc1828dea096d2d966ba84aae422c5e3af8d8766cae6e5bc02f2552a7f59f1; 0x63dbd9194799540a033dfd606255eabaef2c2c44e41b5fc660cdffd18b7700915ae4cbdb72fbd17338dc97cd723c63; 0x17fd87562809a8c70a007c9664ca326ebbf13080d14c50b6ab93615be1a1758383c202920684f6d441e5b5c09ad3ab8a; 0x51e083af2e20e244f2ff996c0493a9f04b85eaa7e0d453e307044e753427fbfa007c957f5fe48d5ece1af371c5d6712; 0xf6149bc66315b16ace9549e7084584215bf3cf8968ea5362864eea4ae0d662929d6a253756ec13a767e14a4293974c; 0x1099833adc25de3daa4226983e28399bf3b25b7704e4e4b046773db260fd6f5787a2d2c358cf7b775abff7319b48993f; 0x25b26f38981b9fe3678b9334d18508358c532add18aeabc05367fdfea042d53fe153eb6a0b26b482e58c25b8930063b; 0x1ab46dddd8f3c478311a0b2368a4bd7565f329e56e33b53d799ded81e0b3a7bb98fde07de4caa6e00d76ba82ea69f399; 0x68b62a5e6ce215e554ed06e2525c07de9a6f693702fe62ece784e977072ba6d3d93e1b3dddef11f1eea1ebf58796a; 0xb59838f085504e4408bd6e54907a4c54031374d20c851a2400c53742d8f9e8c8621ebf31ccd86f9e7fca8e59a54f548; 0x79693235c33681f046f3f907373dffe81a250186d32f8a82d9a3728eda01f66d040c0bd1811c72d43997039dd0b31b4; 0x247de0669190e8bebab85e0cd18a3464c6ea8ea19e9b9c42d93f782207597875841e920589873dcb7b4087b05e694da7; 0x161142dc473986f33819cbb6d91a1feeb6742d082c11fb6afa01d554f6748ef7a4e3f9dbb3cf573ab9a32850d7cc77b3; 0x2dff30e720a1f7a3220a1a7e98d44c8b733b31bf258253356b43a75be4f01c79a09a81794323aa834d1d0b6e8e49c33; 0x28ad4e032b03f78a55f8f541be26c6c57381b3c09387035442271581d819fd6e14e38e5ef325c3d620f522fe8bea1; 0x2ff2624c06d965477a72feb27d6a25533e767e957c64fda9c11370a7097c6ec6054b17ddba2582547baccd8ba52c72d3; 0x550d2b3e4d0f2bf8bd9083f732255739ae655e548f02eff4d91e55db65544fd22c9f8f6de9e033fb8264b8ff39242b; 0x1e84a9bac95acef502aba10ec87c8b6cb19be426f129bfb0c16098fca3d28e0e6bf1cf60bb63257202a4607c4b6d8d18; 0x38bde3fb90ddec382f6ba651d8a77deb2ab080a66c10b90be38893e39eda3e134bb9405f6be0996840f1958ada55fd; 0x2a38446ba75406ebe0f354c585e68cc2248a68b8170b3ddbe2a97303249b821d86ef35c8d6b713ed4efd213a531911c0; 0x16582202c1373928b6be41c4c058d3f4e06ca1c97ee160a8e40f3e5696ae74921df9fef253b6fe29a887c8af2a87186e; 0x1f63efa70fe75032b9c7fc9d689613822e650c768b9abbb116aa6a0b2290b7d9afc7ffc6336573bf9c96002cfe5f56fd; 0x24b491fb55c9da2ed16277eb3fc7a8c0f767ebc6382589549ad90d91eb5d9bf628f6e2bfb613e7af7c91bf49cfad0f; 0xe7c223234f6b72157713da7da51162085b4835e7bcbe1ea34c9e33378f55f1fda3acec90f6b9c38d15ff37e5cbbde96; 0x248943c576ffc68e7842ef7b2c11f5dcd52c16f0035e711014d137f47a790b1fe42b6addf2595c3c570d62ddefad2c89; 0x7638a78f31402f0da035aa2fce67fd524448a8e7d27172816295bc6d6bdca7fd7e18ac15dd9d0a4fb3f28e7677ff0e0; 0x48d449eea35f50d390d3d071902cf5451d372397563efd1cf337d0343531935c2833f77fbaa19df8774214e415c836d; 0x2a563dc2f02e41a20f8f59b31c70ba33feae1f727bcebbdefd30f35d0624514168d7e16faaf2aa4816521dbca40758ce; 0x1bef5b28bbd3eb64ea549edd235d0a16fc3271489fbdfb5d23bfd2068e6276c8ae6d0933641061255a36ee4da5f3c569; 0x50a64ab345ea58516fa5e17909fc3882a328efb529b5cc02416349b99f53caa1bf3684b81e354b2f117a5b6b8a3aa3e; 0x3e03f2414adc6245fef6cd02fa9d02ed67fd459e7aa2f22965576d39cddffe108c8631eecb43c0363db27e6bbffa98e; 0x22da0209dc58ca1c507f83271325ea50dbc15e51eae107b55ab472c28e1725cad8c322653fb706ca607f01385b66fa9; 0xb5c75fccb8c97dd71624a7bf43ea9b8d5629dc39935a27f4a88bc6d43d98427d0a94c38f9711263748796d5886a4c; 0x79e0a65e8f5b1462989258d3bbfd79d65bf6959ec35bc3d4b2748596de5a01c0a43b23480bd4a516e6e38df7629224; 0xc9c2f373809bcf14948214710ee653a1038b0bd4b8d8f37460296fc4e9f0f2127ce8a26c101d59b179d725ba28d365d; 0x37644b3979ea23bd7ce0fee8d4f8d5e579d45e6e9d5d73b07d594220c43ad8eb02c026d90600c87f58eea4fe5d72c4; 0xc01cd5d077abe7cb0c03da9d3c1716eb1500fceb1efd495b775b1d0ab5036cbc37549a3ff9d093dfa000e353ffaa8fc; 0x1c9e55e8e8c8097b9f4a6705db22da219a6088a95fe81edff75bd105a33c88a806b37c566bc57bccde9f61daceb95a9; 0x147a083d90fccef8bf51785cc3314ed20504e8b16db7287a8d4b8c8d854d830e1f7eabbd5c63e467b2614ae78a578bc; 0xebf19df0f7dbc497543bad6a69fdb6e63f11361cb621570742852adf8e6a86ac9d31ad23980ee74141cf8f591c7f815; 0xb7d0a0acda38dec73caf5f29bdbc9bed0d799a4d2c92492f88dd72810b8c8446eeb5a0d19c737ee0525436bdf76fb1e; 0x16b7f6782c9a0ce359a2977d125f756f7ef86a90e762e063164cb84b6a74d59d7b21f9f5392dba1c7f0b36f1649310; 0x519f84eebc8543e052b13fe0759022a40b47cdb99ca1662f8ab3818a22aaee9d6a60993cc67d93c0c6bac35e1611e72; 0x14ce34b60b0f7e8c53ca9dd31570b9a1b90018ba2f55094f5f6195437dd747fed61747fdb88a45e50fdbf91a8ea73e3; 0x157650005513df76b33ec084480b52e329e09611b9b5c13086290c846b5061cd2342ea5e05756fbca04d2563ce6f7019; 0x19190adeeb698f85a1dd961d76d228ec73d4a555fb307177af70f09ba91c0305ef9237288d75a93f69b36b635b2a2f35; 0x82a223a73d2704b52716ea72ec9ce4103f29e14e513f2c689969e24b963a232f54c5b6349a953e9ab39ba61143cbab; 0x53debfe3f76f832c475d0bb19101fbfee268c73d8b33e26c5fb30f29b3095bda4529c20673beda79ee401fc12af8c2; 0x2a7a29a282efe77915999788b55be8a11f7822e1d7e956a17cb1c22a9a2f770da6adacecf52c7bdbbd33bdd38c5edad2; 0x65c42248afc8da8c492ad48ae53baf45f7c4ccba5590e10e3d3f7991601225c57de4eba23f8a323d3ba83e2d3bb9e23; 0x9e9fabff55378b2b556e029fb2165f9936129c7850e7d8a8114aee00d5af1d6f52d0a5532c605fd361030a304617b; 0x7a4889c50cee535f35d14a4dc12840b1036f8a69f13dda4c96b4e94e0be952e4cf64d55966e174bdffe243dbfdf317; 0x7233e0e2d299e06f5e92e29e26691117fcc17fbd86a2da6f2ca79021db000540edee10787cd5583075837956874d57c; 0x325cb0b6ee823cb1e605b24117de2d2bcb451fb25758b10d93c76177d1b800271a54420f1faad6e11eeb71b1bd72fd0; 0x1310b42d038a7eb7e7ef11c91e7f436c8f8027c0d9bc166d5fe1c57bc9607a754a217243aaeac48e9a7e3e80a97390e9; 0x23b9f71e96a03ca7377231851162e0f744cca82a72ee7176eb7eec1307ce7df0c0f36b5cde4aa8b164123384dd61588; 0x173572c4114b3f6f0be905c5a3bfd4298a9997a87fedd7ab5b9290fa6396387ee90b6c42263c026f5633e0e2f7c3b474; 0x3c5542d168ca29d5ea419c50ed4afae30a9ccb3430ae85f24960f0a9e59e8b17ddf52cc4c7cfbe058840c8dfdb35daf; 0x2cb44ac2d054b29bf0ec237d8be3021117c5deec7b15d0cd06a7602e44fa5ce73dc03a1c4b0ecbc52c2b72f251480a98; 0x247f5de698d14d9c27fc646ffcd8834b3c6afd0c565548de10a5eecdcc5843dec8aa877f9281683c67f3abb464ba045; 0x1512ea2e02c9a4e285bd2dea9bd9381d93d061b9cd0c0987e25038ec14e2a91588bc4fa07fd0712e7aeefea16bfeb7c5; 0x7d8a8c8409b6743ffc96e22049af0c11f99d46267bf60431292f03f3638c55dc2a76b39262a3a8a704ea438f67f1269; 0x34b46b3620ef38d6981c292e4fce9b986cb88819add4740556ca1ecf26c36163224c7a9056950f02da3bee8735d9b; 0x73cd9bf357fe20f33e15af345a4ec3b4c8ef7f73cca51747cd47d5e9e2fa4cd4578bedc6478619f1b5c4ec28f022ef0; 0x3f0c726dd3ede10d45b7cdefcbc7df721a4e065026cda677e63d8fb1fb9ce853b451cbe623e5226d1d7cb508f105197; 0x2743d57b6b9cd71d3088542c2cf600f9244508e063e1c79d7a68cc131ea0bc3f1c1b70f9beca93658a72690ec8c3b3; 0x67e77397e928c80f65592a34bd5891e9cb23624dd9dea6b216fd029bcd3b6de1a0ef0b3e1792a1f5d92f8636958a2d; 0x186e24a8162a1500aae299994e5299c5265ffcf18857436f721e21cd4913bfa03f2e142c74355e6b4b24cc10bb287153; 0x13bb8694cd7cf5adc1d705189cb0132de6b4875476586e1cd5008efe091322162b55d6dba14a1244905a18507ee19cb1; 0xb89bb441b099476f86686fc9d8daea95fbef4fbd479cda2d4ddb84cc06fae6db30c3b0317a3183022829517d7cdd7c8; 0xb45412169b25e16c59766e8d35d77af0fb93cf83b05607abf164d3668de638defb35ae710946b8a9e109818474badf1; 0x35b42965b72a3800d4830d410d2678593b2e164d3843823c6b33c105d8fdd464e664b5fe3a6ba6f2fec878716ef635d; 0x3904ac0147f7e672e825d07b261a8d9087a95d0cb00a68cca0e58935a9eb3223407166a620c1cad8728554d33fe20fb; 0x1452cafdbaf4f7605e51d90687f3ed9b2dc193430566a915a177d70cdb176ea81d2f6a7875ee2ca8c5f54b9647d13104; 0x9dad2bd62bbf5b5d3b92e37325c974bbde018342226cb115564ed0f3ef12a5e8bc5218c384afdf1cdc3d259740eaeb0; 0x43fb62179d3db8eb2a0bc41705429d3e9876f52a81d4c26c5a0cf5ada9be6e56b163fea0066782fb56be7a2ce4615; 0x6a76bd88c8c24e34bb5184230531cdcfefd4459b82065ec1508a28124c9013abab8a9b50b420fc314aa8b412495349d; 0x1441aa74105955229f02e4e46a844fe697a898948aa2fb7931dad69a196768219992eaca3372bbe8136593abb20dc02f; 0xa4515861f00ce9c7bd9223e68a0bc87fb6e8ebad4e4445fd73da8d209f904d2946d42181b2730974b3cd5155011ec53; 0x11bb6167d81f7b9c4b6fbc240901967f3535a2a3cbadc5a80ff3c146e1602cd7d523341b8d21aa3982a24fb133fa744f; 0x7dc6447d2d2ebde013a4f4cafde63ab4b12b545c123cb04d41f01e5ae56756e13e1b6ed4c4afc2d5c423c0b94957e11; 0x31ee766a1260fe406535ab6feceb6b91e89d3fa879ba389a41008e87337d2076c526922dad3ca2d43727efa5d4b245b; 0x1083bc5798d7de4e4e32df0daac27b20f673e8adea83609de9aaac90e589fcf34b336125d4032d9222882aaf7ffac6b2; 0x1fa4d4c5a2a458e28fe48fa9bcde614a352ad15aa89d3e8e8a777069817fd5b00963446496f095d3d4c3300ef5a46a9; 0x1317c1e66791c08f3c92dc8769bef88e5f530dd1163e15f656540f2ac82aad03823af1667aa82afa61a98a03c35921e1; 0x17464a428c2c4469cfbcce25da718ff5d19c5e110951a6b122271d5e651c07a48e1655f15d72af3127f6a9a2186c46f6; 0x16ffe2691ad193a84fdad3c274bc677e14a9538164385309ac71b0a81fdfad37c081182097c02171f2ac3729f45eee8; 0x736ae6a85d67ceac113fb9e29e7e7f00bfb939fe6313109ba565e3bafd12dd68f997fdc7337518219f1e60a7208f219; 0x3d3663cbca05a22c19b8ceadc8515002fbb4b15a1b9ce8fe82d51af996e9ba24c7c995b3944c6bc52ed6056b0a0dec; 0x1ed9bc36fedb2b86c78d351286489e851f721d0c66c7d7aebe3764d76f5a15abe1490d06057daedbd5e90baced034e7; 0x49600a2c3996f173af83b81c835df571d12f1a330fca1773432e395854ac37ac7771b93710541897eeff12c9a0af9f; 0x6444c410fe268c02f72b261ae8a99d1782383644c2cd8b06f94366c9170882ac0da1dfafd52209324aab1980f813531; 0x3dbd1b694a9ab33357a717beb29b2bf79a29e72bc42695954d55b71847f92b0aaf2f62c4f3ef1fa948456be460874be; 0x1ea44f2169431b4c71cd23f8c135c60a53a295199943d0d61769b1d4565efd310a9ad11420742ac0ca4a291b40253f18; 0x616a31a03953377f90cfbc6c15c7b4acb4e744e40b5421f4919eb8b6ab027b5f2d5d1302f39d27da1ea91787bf7db86; 0xa0244a8cbc5c37e0270289b85e62dd0976e8c9b890ca984445e20a2837f50c185d9a600479eeea2d86d67e365bca73; 0x16a7eaca42a45b247cfb3dd5360c1735d2555619eac127ff9c79496dadfd02093fcd64176060dd50d0f060f0ae998ff0; 0xe635bdc2f8b89b0de351b23d4e9f910bced4ee769eac8c3c1c52708100781b997be8c8b4e991857214f6ef96cbf86f8; 0x32d1f7684114a0e6892c05f7488da1379fdaa374679f4facb171b88af00d03791d0465c2b9f8b68315d76f5a4d238346; 0xe206a0b68d8ff5a05b66e52340b1ef534eb0fea2ee76c405d5ee21c93a10ecd0759da63e281170055b56d04d0b214c9; 0xa3a86a8d8f604be2268043f6976716042539eb6f21239b76249f632546c16a7d19e4dd26c010f6686bf8fb349568e1d; 0xe509264c92ca16e89f4a73c654ac119cc2dcd86c5a1eb11d36c6ee42c74f2f31f70a4187192c2dcaaf60a828dc49eec; 0x83d548e377bd07c8973ebe821e1a8cda16545b9c98574015bf80ec5f6ba70cef917d2b2cd062a75dffd3e89f0bbd26a; 0xce1b6d447d9a40d6ab6818c6271b2155cf5dfb69a6f59205276cf75c042ac2588bf262be7a4ded0913c9f6b44b87c47; 0x2f34fb354e24dddb4fde727bee930a90ce25ec5a9415643b4dd354d6939222c145b3adfae658ce6a6c05e6acd500f75e; 0x2351dfb095ffbf7d8dda6834e14f0ea16d44a149397fbbfd1a75a189793671ef2ab80292ed997d240b044289efc8546c; 0x36a5bcf1646d0a601415a4ba55d09b1b62f22d5c141a307f84d5664e54bcfe04036b282c7fadc4e4a6a0b328b3832ae]))]).
  - exact (Forall_cons _ prime_c7 (Forall_nil _)).
  - vm_compute. reflexivity.
  - vm_compute. reflexivity.
Qed.
