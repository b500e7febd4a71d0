(** * TowerField.v — Fp2, Fp6, Fp12 are fields: every non-zero element has an inverse *)
From Coq Require Import ZArith Znumtheory List Lia Ring Bool.
From Verif Require Import PrimeTheory PrimeBls FieldZ TowerModel TowerSpec TowerRing TowerFrob CharP.
Import ListNotations.
Open Scope Z_scope.

Lemma fp_inv : forall a : Fp, a <> fc 0 -> qmul a (qinv a) = fc 1.
Proof. intros a N. transitivity (qmul (qinv a) a); [ring |]. apply qinv_l; [exact p_prime | exact N]. Qed.
Lemma fp_dom : forall a b : Fp, qmul a b = fc 0 -> a <> fc 0 -> b = fc 0.
Proof. intros a b H N. transitivity (qmul (qinv a) (qmul a b)); [transitivity (qmul (qmul a (qinv a)) b); [rewrite fp_inv by exact N; ring | ring] | rewrite H; ring]. Qed.
Lemma fp_one_zero : fc 1 <> fc 0.
Proof. intros E. apply ofZ_eq in E. vm_compute in E. discriminate. Qed.
(** 2^((p-7)/12) modulo p, with the quotient hints of its evaluation; the other powers of 2 needed below follow from it *)
Definition kBls : Z := 333534129601805616118149152144658679713073568328250657111004844677002637540903155370223969094084638669824522713315.
Definition tBls : Z := 0x1904d3bf02bb0667c231beb4202c0d1f0fd603fd3cbd5f4f7b2443d784bab9c4f67ea53d63e7813d8d0775ed92235fb8.
Definition two_hints : list Z := [0x0; 0x0; 0x0; 0x0; 0x0; 0x0; 0x0; 0x0; 0x2760d74bcf32791738a0406c331e9ae8a46e09d07fda; 0xd8b882fc14cd5ce585c460423870cd519e4730db78757c519628c684a8bf2e028922015f7313559134d9dfaff5368a9; 0x132267608061eb45b669a183839a525fdd3fd7ec1143c2365a6bc81397884fba29bc552b954b5fc12bffbfb3aa64f6b; 0x95d5dd3f6a08ca7ee98ac61e6d52119635cb518594f975d0be30ba61714bbfdb9fbd29009cb137018e47cf895888210; 0x757ba8dbd50247c47160f8806904f554b19b469c33e45a133fb543eb3d86e12f97e56db64ffab334c37624ebdc071a9; 0x113d925e7598a8849e85f3364e33acc0ebf473ba225a1106eb50e25ec78917433dfa7687752ecaebf9089788a8c65e62; 0x9befb130358d38f3e60c1d9eb97436e05c70603f00a1c8368df09def6bfaa04820c7293da25480c622a9ac8ec9fe2d5; 0xffd43c3a8da7f5c6a581772d6b66f44c7b003e47409a8b59279c51904cc29c8829308a51e6ffe7897596d4d9d06bc64; 0x34a5e53379f0828c92ce8b39350b493ec815ac3427c8eeb3237d201ff4c8b2c700bb67a5981f2794318326709998f07; 0x33b518ca0b14e1af1fb599f5631b091f4178264ee4b0662346cc4e0eef4439062d5413636eb776cdaa8036dbdf1ccd8; 0xb23e4ce53b59f1bbcfed6958f50d8fbff30ec3eb2c3f17caff37c656006ed2277a9dcdacb8482a307e365e5befeb1; 0x452706291f3b098b9c86370242d8e826d23faeb6b3e1229a54e663766a8f8c1b1a15f413d1d9f981117eab00d2a8b; 0x25123b35cbf2f5e5b5afddea0f98333760c8967bebb17e2e92aeb4daef9ad726985becc2aea8b3a0bbae9f3181e16f3; 0x27eab488bc69d60bf151f9abc48f25d6e106185961ce23435a519b208b3d503b75a5a50ef3cea5087fb85b6c4942130c; 0x1202f92584f93bd8dec9abb19027df8639d3f908e97602831c217c316f4e5c184c09d5683fecf653693322295768f4f; 0x2d43d7c14b515e7df2e07e34da3098f1e020b1e42ff2bcbe2b94fb72b60bf6ea70627a494fd5c1e54204e8953bd703a9; 0x4fdec280827ad2fdf7b1e9fa92ba3b7bcfa1c3c2fdc76ddc222d77df492b0178e50b8bad49330e4a0e80b67132e21a; 0xd661e7b1948316162969a605ab3dbdb5d1227e3c8d696fd35ae1a7db28b6457fc9e8274dfc50a59e2f15971ccd69f4; 0x1342f3f7dc99ce0e718899ee793340112c99ced60e4ff39afe383c3799d7d013cbd499eed1b580c8f37b2c62910a631b; 0x15891dedfeb46d0293f2d8a3fd672fba4f52111bd7e6a442533adee57c91b7d4581785d589f85c5665e1919e322014cf; 0x152645257e4a97d47e6e92fae631a773c2dabe1d801831bba1774c042d70cca3f97db6f86bcab5267d6bd4e0ea3f2474; 0x1c2ed3dac21c1a16c72b09523d28db7c0e7fa5be6ffdbde617f68bc0be7190d91ae83ef7f24f8d5a94e07592aba7c41; 0x26952e059a49f50a608ace2ecc9465801f3321347afec5e4d766cd590cd56c547979ce819ff00dd8b6147fa89ec788dd; 0x1ee6c430767eed81345f6679aaab2920e64c0169b056ff6c77954cfa8af31ab38c2ca38d7207992c7c5be6d7b0cf6dc8; 0x1e8d3b522821b9ef055c47fdef557f92a1810746a8e78cef5f9da3aaae8c93b8cd90626dd441837617a37f7120912fd9; 0x9a20f79e2c7ed9ac62f1a4cd250105f5174ebebe14fdeba07f599b308722ebccec6a86d874f2a5b6841c666eec8e5; 0xfee1ee44f778f5d18d92442aaa6c59f384efb9de8d69559001a573a5ea9ef793c2f2bbcbb9c06a27130ad8c717696f; 0x1a4c9bc6a9b9bb67f62342cf1a4f379989910809a92d6375ff818fb83118cb4c4f2f221e3734c3434bb36c8e45c7849b; 0x9c20929fadc69597f7a044a1cef580c69a2dd5e565da03e3ba4f6cf6f3cfe3c48c8dd78d328a9c9bb77b749edcd5e83; 0x6a0dfbf9e74bb350d5dc4d2f241624d3d117c74dc54846c9b6f995ab531574be3652484ca30856fe9259e7a4ede8706; 0x9339c66c36bea88397f4e542fc9fc25657ae3277e0fc5d6c84566a62f7e3aa13db06a305ba3e4e8b44c82803f6f066; 0x4affad24be2d2712015248837c674150f5c6cc17eca5556aa95f4f4d1fe7dfa07784f7e7322ba5a990a5a7ebd0506a; 0x19ce4b5fc9f5463ad7275f5ff16987fd2aa5c3e0f7fd83e90371ce2627017716dd932867ec41121045bf32c24d361d; 0x2bc33c5c3a34a6327dc80459e64589d7dc7c0bade778c1830228760e9eed5409d894703b04e4e72e3b64e82d9733f03; 0xd09001d935f98f8c22f19a86ac1c16436ca1131b64a83252f32d48bf7eaa6cbf6f7da94f75256baf8bc417d0745082c; 0x7b433cf459f246de7ccab605be9d527e37d9e5e70fdd6387d96bd7db0025c91089e1d6c1f3a513da602f98facb0d66f; 0x2bc244caf57c556b8ec2fe93474f20b5e72da875c679af304835fc4b96a8daa347ffbd7a042c8cafe89ab7d31fadb460; 0x11fc588541a4496961d79b8f5a8026497e1da81e6f5eb9967c238780fe57fb53e5404391bf0eb9d5de20492a2da44b2f; 0x15b9b6c6caa37ef2c5540171cde9b19313d6bfce5f1182e9f28984d60a3b375bcdde5f28335f64b14bc4bed6a7e4f9b8; 0x286c997e69169026af291251160bcaf25a00a21cc18ac5aed52f58786a568aa2b686b258259f54a656e95b86763a3901; 0x307f753db1650792b40ccfdb30c864a8e41901008143cdb33ab7421a4b908eefe5e4ef4d56b4d2ddb3f71848318db29c; 0x3ef43c6ce93caa3970adf137a839ee68251ac84c0e56333626dafe442ee6cf13fd815cff979bd896fe042b6bc3c571; 0xea5fa7de581f8b7abaa98835d0ac38f895e450ece604ac0f0e33e53514df2fd7b4600939e9f98d8205d2362bbf41556; 0x7f7705eefe2334318308c09199fcf4f61bb0bcb207c4ccf31524c7e66e62b63a694ab929342e43b042ce96d719718; 0x60330f2f2491deb7e09112341e0473aaed186b208273064011c965627f3d8b06c8d94b53ed04eb7dcf2a1bffcacdbeb; 0xae03313bc1316c24ccebca0caf9caa0336b6070ff5af7d13c12de0e30f96b861bcd9c62e217ef3f0babfa52be9f4d54; 0x559fa2326dce1c795cbd1c628c14a3daf07640d7442aaa56f9158f72db00adfc18fda98b82d50ca2392ee57f3be8bb; 0xbd520ce1285d9656c125bf01938b72274ae5cfadf29462407f6565cc1a723196bf19f290c299b63fd6deeb0c67069c; 0x85c99003dc0ccd7bbc68a2474df46f78a529f8b4ab71bcfe50ad4c607f6115bc15673c1b5730543381ef50737cfd9db; 0x1ab5ca74d287fce2188c2e361d547c0957d0b382c8de393d1d5bb0a1dd15c0cb36ca4165165b4e2b2bafae12ac8b477; 0x15244ea7233dfe3ee75db460f4f1b297132107eef31db72b790b257e1d05f2c366058b3bf624d80e647fd59183151df7; 0x6062d017bcd77a1b81b5782236dd58b267ed83dd483d3935931ee958841b3ffbe7066a2afb11bebe287017e4a01c37e; 0xa938260c3604acc4dbb21b3f2d91bc0a2a2a2e2f295534000ce9b12ce8a4b57d50bd9c2cf7bc9c1e4d13a0d92acebc5; 0xc7393a7b14f82c9987cf488cede441da3da7982f42af864c9f93d0f567188efa8a273710f81d05f81918d8cd41661a; 0xe59f7b2e190022e1ed01112bff67a5bace2f4b076d944363f9a42d8d54920d8a80d769ec2b9fcfa49f61e90d49d1db6; 0x49e391933c3e3ebd4043ab1cba206e698521c5278436bf3377d90079f25841d4e81ff67a84d204774a437ce036db0cc; 0x8fdae774e74d956a5337ff69233ca9c2391feb02092b891ee13f6d413ba739c2e1031434fd0748523a91f6e7fbe9d; 0x1018c163afa7c812bd51a311f46f5c2d2d9fc7d0e8d0ad88f9c85b0cd0d2b77af73792515ef3454dd2ee3961d167ac8; 0x27b919aa0c7bb6c23dc82f682b88847d4ea39e5b243cceb106ba2c71dea1363b2416e48879fc67bc0e21732762089fc1; 0x2a824d3f2f903417e57f8fe0526fc80ecd8e42e1933767a6faa50ad65e53e93e90baa9f2c2f0f8dcc048d57f0cf766b; 0x15e3dfbbcd88c1a557050c417f1da3a13723b81268915df83aae061d9b333c2466386095e467d311088a9bb06e9d3b63; 0x17d6d5b2a635f4d5f6da7ee757597a71954f12e7b9b8f5674fd95f851d61e463b7f1562d1fd16041278fc1043d6c49bf; 0xd40646be958ac723b2b800b4c0b2c3c1b27c709ad20a0439f8a2b03f63ec88120ac5625d643d73720cb619e036f78a9; 0x26bfcee250e612550c7fe47f9921ba31b18001ff818cbc838a53721bf529a8c64aa7883671f3991dc3a2ee6d0516887; 0x195b82aac8dddeb204efeac9e5567d8a230246029faf43244817e1a0fd9571e702dd3800651082f321d57a2dfdd6d2f2; 0xfc421f1deeae916a67fc474b74486e7601ebaab6f95a7ebbd6b54d5ab09f832155896ddfe6ee5baa78f05817fca87d5; 0xcaf5502039f1172f8c7dbd004b98a46c8c56fce6f009a7254ba293c512aa404b4868a8c75eab92c19b8bb5083025d7; 0x9e456afd9212ec8ea234232288800a461657af9505d3635bd716ab1c2d70d29c48d64cd72fa42e0b170b5feec6c0beb; 0x2023926641ce54a1fdbb50eee78c9e5ba7c1a0c0ebbc3e3a97100ba1a12daa6157dcd0e47e0d31436762c7e13e463e; 0x2e40b7b08ae8713d0939f315ac48ed1acc03fbbc7f3dc6c5b3d55ed26d70096afde3a97443d0d3ad108b792e7e24e47f; 0x2e5ed67e5c6811a2f6093dc13b54643db5d84750f7f77f83f8151397a62245719888fa7192bd22259fb6b55e7df672d1; 0x782a96b2d560ac7114b268ca37b19586e8311c27995c8b27570bee4db5c1b7d5ff9ba46702baefca5484b621e757a; 0x2311a08180dba54cbe5a3f151094285b9174e0149710a4ea6254c1968e04ff90a34da427f272050a7f4367df287dc976; 0x225521f85ee82926f26ae4de780af3c0c49ab48013a9f791961eee84cbb4cccff457b32c978a2004ef67608fdedcec3e; 0x1465a47b47901531d98e56dc803403dab32731ce875bc573fd9ff81496c0c8f0e9c523b1ef5893684e15de948aed3e; 0x2bb4848ad34fa562caeadd07e198cf0fbba95b411ad076009c5fe14b58d2be792f3e062c849cb5d1a0503f2680a57b39; 0x2fa920a1481f90ef376368e73cd7ccbb73f17853be3dc6c5d58fdc7f36010a33463725d03ff159a0fa8b8f8033351f3; 0x49323411908a569f9b18d1d26260999ce6684ab620ca5a2f471b8a7b7085fbfa445d320e39becab15b3e05e0ad72b21; 0xfe3ee5b79bea54133fadd546380bbbe2fa32b42acf7ec2ef5aa5e967c7608c22f1b747c876945fd7f05134f3d9adad5; 0x8dfefef39b22aff2cdfb593084cf13346fadcd79f9fdc4bd3740c09181db14f3f562955b9cc8bedff08ff11b6d1e27; 0x198a0b544831d14c3d3005d59ad0b1ceb93e394dae275a343b38e81b03f98fd12ded771a3bfd5a2f6a7373ee884548b7; 0x6157fa30630199a44af8b56f7c70ddcc8d96ac33d7ec400813de2761a883d67b00efe3fe38f7506729985647cc845d7; 0x140b3d16c8dcd975a9c25e2ef651ddf0025a76f21741f23b0eef9453adb34a5458e7c25700e6d36159a6176240dbab72; 0x48c2844eeed8835beffcca4644749e7b210221190149eef3ab0e0095704c88744f73cfc3e372ad8d941175be9fe3f61; 0x1f39cfc7df038325d21574299ae2c1ff5b16355b147881596fa7036bb626e0aa5cac5fe3252c084965a4235c62f6b2cb; 0x93a9b7c0f3e5a820e575d22ce0e96aad0600cd0d87091dde9093c3de7d0af17c14c3341276536decb8e343a6b94c87c; 0x49a242a38a67e8f3b13c5c4580e9a2578be7ab8a7adef85b4e58feaeb4c128d2ba4b9f88607381924a73bceb454919c; 0x14f4fa2dc2e04169bf0f4015b1a7dc6e838d3a7db4fe9190ab1c2ebb1d9cb4cab0a8479aba1b647a1a61ed49fd1968a9; 0x48b1c961f307291aba6a5f4c9e4ea35d5f1f68fe40cfd2cb5ba08dc0c4a0977255a0afa9457883cb3f1869448c06396; 0x5b8052db1ab9b2ca29dd3a992765f3396d3f2e67866c1658d2550c210afe1d712d544c5b4c0eb8e1bbff17fcd7e7ba6; 0x12ba00ceb33af47b92880a527b513abefb733ee02a9d9a29d880972c1e8bfff106d4d482498be82559b35b0a82da065; 0x6f09200b64431ba3f38901e8e0a98b583bec36c91f8bef64915b61293ba5b828f1d9a99559a0487a8abc69219180c30; 0x23806ef698fc309c535a911db7958aa63afaea5b9b3846a58013361bfd96b08e1d01145d229db88c130dbf38f2fcd0e4; 0x174e851c62e27dec0ef681bf0edcd62febb40c4cfda3b91dcab6d357c34f2810762fc56f6045e774de05924bcb332869; 0x11f12f34cf99b682a3bdc6a3e0300afae638e0ddb2eb6e09032e44c85d5a31cb7a87edb50a8202625a2882b9ba7bdacb; 0x8991ce041d4412b71e5faff57e1a760b567bda1c22499bc5b2247569bb3954156e3fdf13083710e494b9ab0f2fc7e10; 0xc6301f8e613180fae1f2267a507b3229b94d9933b429d923568e1bbab6b88bde753d7c8399af55e22f82adeb1b8496; 0x604f2d6dd90311eb4fb80900e084f7748fba30423ab6b3d39ca2dfec2ac8ccc97160771ff8059226902d70b63da02e1; 0x5bc6afc819e170b601cbd8e3b7cf59c6430bae366f38f99e756e7faac7126e9c2378cf0ba04580a212d8df7673; 0x7a7378c2961a068124e74e4c87fb77e8649d0b4c9f218076daa4249598935c3012b00303d1912af413d3a64f5226c33; 0xb783d107de5c652ff8aa1d39340d36f21cc01820df215ff7b71a19a23b938cb3a0086003354510655237242ea60357d; 0x24ef8ccc98e64f80849ee2d404feb2d4916651223eb6e485a16b8730659f709e08f9ba04a6d8218abef0979d4a5ff933; 0x80c3b9d0cba73326d8cda8bb8c8cc66d66792f448491bb7ec61ee75603c531eb23129d09b53c87f3b889216112f21d0; 0x6f51c7a3dd11c07fbbb43850fc9be60c932235248e0dcfa08b2dcb3f02b7b2d4c5d62974dc9708a3667e301c83b8b16; 0x2350e1142c48f60cf67aaa0212f03b0ae581998eafdb199d5c7c73f0f0163c64b303f3b022634f1fda44c2a980d032ea; 0x32f4f1b4ac36c084c504c7c3e829e0b9b33a9a0c8383d78d8d6aec88a68e66b0890461c87c29c253991b70f4bd076be; 0xd9bacd789d80f03e67716ccee8c2322533a818cade33c3841c0d8b515f3da752f790960d4b77d116ca02d8c0edcbd73; 0x181a81256f4c4571ba5ae8523b5dca90984ec33b882180efa9f327540a9f923441a2942e333948d8ae2fc2c2d948430a; 0x2dd32fb1d51b160dbb632c988e233baa8ecd93c5376e1d01641655e71bb58f9ab1f98dca0265dfed70b962d8223a001a; 0xa8d6667ae83ae0f2d82fec0e4f568cf50bcd914a47627a6f9b6d6f7366231f67bf65c3cea6c480d3dbee772d5462ce1; 0x231bc1c8f2a85fe09e209dbd4b6b5a3dacf98983acd32c72d67e6b0708bea39f879d5bd3d5379a89c6c77f6e06fe42e; 0xba5ccebe6bca84e62122eb699bdf429cf136c60a1778c5b017b42a37a12ad3d96a5f0d6a231ee834ae057d8199a54; 0x27c259afeb7f9369b38275c41f0ae1e990863a63f986d84bcf5819501262284d507247de967945d2ecf1e6011e58ab0a; 0x2d127c2e724871ed339240f5236fc78caae1ed8cde92a9084b1e8248c6e97b4e5b2e4c1f5ffde37f0d7b6442a29d6892; 0x113a07dbdda1cb2dc7ff36120b1978a03277f17e652981d9cae253300cee3d8a923edba2db93c3b50d6f1321782ecfe5; 0x5979b1217ddc14dc94f3cea726a94a3d7fdf5163525d7c3fc2d2c677d8eb06742d4c678f15d4ad6f861043ce30849e; 0x2382b161c7eeef52941653bd0a3bbf4afa7ab1cb336a797a10ff0b1cb535c1cd478ac5e754fdd2e5204f5e097cb45b58; 0x18e8c8fb99d38ff10b4d81ffc70f42953ac3203cf9f1073cee15ed04d87d746a1a7b3a844762d8f42221cf1c75a60e1; 0x19a805f2f0d2485311a61fb833fcd74d4323bcde4a5af58d959026367160358a7aa65364d6023142195fc8d833238f0; 0x8a302aec87a50edbacb3d1a061dcc69bd6ef10c29121f6f3210bc81481d7cc9f39cd2632dcc775a00bcb4d3dc583; 0x151216d3d3b76bfb88ccc14e2d0f1184ffc9ddc438319554cf4d399756b5898833c5ddae7eb9e6b056293b160055f149; 0x2ac30bb8dca8c2b55b2677c5865abfb5475de12ba86ee983178ae9d7aa6b5ae0c10f755fab0d0b1345585fe784ab2c4; 0x29bfbd524208722331cf9229339250cb9b4ec42fc8cd45571d05a33242f393c222f30c29b1fc084733f488cc38668f1; 0xcdd42cee5ded3ba4aa7968775a39a9b71c744789ce3438b876a7faac3b26818417dc49e53b0434e774eef366a6da0f1; 0x18c6c10cadd9268abc7650ad9bc5877bc06e81820e492434ca28aa6dd0ac4eeea619302ea49dc934a80be63323d214ed; 0x309532c39d950a49d7da57348de489ea4d3cb4b10ef68fec2d73687b2d14ebe8d4ffd06c7b50ab10c2be2d09e2c71fa7; 0x18ecdcc23b04193258b029b128f6a3f37f78feee01166ffed820e4bf7dbb83bf94395e58ee338d6423f0a1913589cb9e; 0xd33cfb487ce8320bcc30d520cac58239bdaba9579284dd7cd05874eacbd9468e5e9ebc4e975cfbb1dded604c4116c35; 0x13cb73e3a33a5870b77d35aeee5e5f5f63b93f5ba800c3cb40ad8ce7b979d17a41adc675641d5ad61b7a0d8828a8d454; 0xfeb1175e3d4be89c58465c64eb9a53a2f48dcbf35b062e234fd684bf55dbadd2875a5fe10e6cf06f227ffc17a6b; 0xf32d241daaa47fb93e85a242082ac01742978f4850fc39d230691ba3d511fdc54c5f1b62b8cda4644de82267675e6c0; 0x6234926294be7e6f6058e9f414eb4eb2b3d12bb778bd5290abafaa463a33fb62dc65106858a52b55da073632ba23108; 0x18166fef62922af36d1c0114a932d23580873936ef5a12bae35534edb434395c765e363dc3c3d735637352790caa081f; 0xc7baf397d9c67ba4bc6ea9b2da6d906be9577425a4aba2b826ada9d69797ba2925014f6b7c7e93009eec986384efa37; 0x295cebb93ceb32d41ccabace75647289566e2e668a87f2084566e48171c91fe5ad64c23129ce18c7d123a4865267b7b; 0x14b98afbcdc886a4f8d4d762b72a4ca3a778fbd1e6cdb51d1904b7797e64f33a424c5a3b64bd0261f3b27285c28296a9; 0x109f79b9145e6acc9212c4948fa33e37e241385efa64f4162be4a7317850f989ef8b055ecae87be340c2e7b1cdbdea20; 0x1355c9e4eb2d94ec39e41514e65d94ae0484b76ef4facaaa051dc53f225277e53804c60ad12cfc97b034a9d33c38da; 0x22df82827b1008cdbf91dcdc1d41e87f844694a0ef0d47d3452bf09937c1395115e9e4514c0a4144f8cf88ab693c1152; 0x17f508f4a5bed1a181129d2e92a39de2bb9e47e968f2e6fe6599fb0329603d1bef0384a8a042a7bb9c4edeb69eaed3ba; 0x13c3986eeb50b522c190236c3ff5cfeee4e3eee8cb06ae3d93418c3c109f2c06c7290e928aff32ee87cd469feca00148; 0x69d19d121147bd321efb098f39d7e6a85c32358cfa5972bd17003f47ebe3a3edbcc4dec12acc455925931a3ae71c2d9; 0x22b97ab4d5fb0166c8c596be999a1fc72a88db92d07cc29df50e6b6dcc219fce1a8cee743eb47629a70ed3861df33612; 0x11673da7f3c897d5aff336e734dc3e11976ff5d11bf8ba12156bbf850443975576923670312fbc870b5570c85617f5c0; 0x21e86dfdbd07a19d8cdb4307037aea306012c233a2dfe6bec449b00dcac8370b1afab26ab5697f34ad5a78336be33dba; 0x66aa81c929b24716bf7e31c5cd169a57fa76fe6d5f801b1fd8a299203eb0ca0620245ac1be9b9b06cb565091e0745a9; 0x249143ca1b159b3f2b4a6806028015f16b8e34925b90cc216064d03a13e1eb35b276b8b6b73b39760b75909159af7b0; 0x13433e42a3863b0e5e48ee6203cd101fe875b10aa1cf781f8c1ea6355168ae06f473578941118a1ad4a7cbe086e4b748; 0x6158d6a2fb80b2ce6a05764cae9294df41eada539a2cd03fe1fe90dab3335a289fc5039bf39085192bdb0613976091; 0x1470ec84e0a62d46ef1169c91b916aeebb880e5f9cf6e3e5f060f1e6add62ea14a924230872e2923a77a629033436040; 0x2c9d1f9005c4febd9838c87e064dd05e1e2dfe62a8679625fe7979393985d8406744335cbc499c7273d164df36f7a215; 0x2d15738ce2c4247f519807bfbe4d41669c47a7a723b126885e8ca396d21678ee02c4209367cd91b2343ec2d77723f3a9; 0x1e0385f4b2470146c774a4a66623ccf9df609b999cefe0aeb20be59444b1faf1cfb70d391b4f93e26febaecf474c713; 0x31a99c74caffe08d9062aee4fa1d18834e0ce3f532eeb129622c57a7b91b02c28b7097fd74a9d4b8719d8e1947d1149; 0xe435053f62cb975bb1de2014347870424ab447d39052b5d13b0026959302dff74181b2470c3395401d2aa067dd5e0c8; 0xa08e994e2fd991dfdab681e15988dec52489183d4c86bd946f7e18c55a2f3c1942292594dbb590ee725eb96b065f74; 0x16e6517b19b1bb9af417c8e972c24910958c45717a01a0fb58a21048f86d55c56f0d643d16e79784567a611de4d6c3ca; 0x6773d495fcfb4d76dc9576c9873c9322f79b1c2e8dcd4a781d10e8d93f4de716f77b199502c92b8bb504d16e9f83ad8; 0x3010c9d563ea93448fd35a4ada99febe9e469fdecea527a77c4c2295c8d91869dac370ef8742342bea1a9e09cdbaa6; 0x190bac30279bfbfa55c856bcfea68a9b57adb1a5d94df43d035b4dca96042ebb32ec2b671db2be46353afe148602d2aa; 0xbbda2d3115bb6d31ad85d735e2972eb3e40923786daca448be3c9b14f662002774ff5babfa3f93a1d28ba5692c415f9; 0x231d9a10befb7eb7a401e4a2a476ed648e6ab7a7ae72e3d4d0e6b3764b7f0cbddcc934c94b8f4b0257e7107f14da0ebe; 0x30936d7d12f1b0a0243ea677c3db7831bb4d74ab99a590234368267fd9b542360204544bfc154078f89ba403f3d6312d; 0x19d8106a629e8125e1a2a0de1ff69e742356df38475e020a041550fe222afd5f425f500516df08a041d29e9b83be7b91; 0x40a4d3b52d9d66bb3f26996d4a587e6c617e2a8c6089bddf6e89bcd8bc58b68642425ba5df61cf3464483f818e98a7; 0x1619d26e0f568e08bbf53134405f51556b54ef70ea2075c19b9fe384ab5dfa72e4f0e83d12fb1f2d65da208fc2a6486; 0x6fe2f0be91bab07ade56ba2dff50347789c03138455c027accf9484f0639e78c3555b2f2b9450c66ead127b89242c93; 0xd5a79a0c6023c2223affb59d499162b0be6b975bdd24f6849dcd05182e72496d5b4af9d1ff7ef04f3a7ba1e28fc4524; 0xb83c9ed794ed4236622a100849d738589c49e7a4d23af40331254f0a4ec5335c0a1488de7b80c8c0e4f4d0739f75d7e; 0x1977b6ee0617ae823b3d0b201fcec7ebdc376f526a3676596c8ca602c67f566064c503bd2d6c0c8f8e1adc831a2eae64; 0x7aa64b9e950db2d28e1110038be4968e34019bd1780dcd17df5afdd8b069c6c52863d20716ca64aadf4c4167da06a88; 0x13e793465dc9fbdce81d44a9beb9f9699c607bf503921b6886b32980919364dba1479b9047de25cb000599ec8dd7c025; 0x141ac126301a9ddfc7625ca75f55b30dc3d822c593adacfd7aa0d024110a99ed94200a5a0e7dfe54b652e6994a821f9b; 0x8c47d8d645bfaa34f522abfb4a7f40e2e63e2b60a9b2e1b596c83287165024c3a6869046f175771ebed286a847f731c; 0x90ee7bc596eadc673fa25f5c2e129d9b3f71390788927be58d317614f4046b566db991eb1a3e6ef1080a4db603611; 0x5b8f1aab2c0522ac4145f73308108ab487ea77f44b682f0578e1c780250f3bab053815e50b2429bcfb7cefd79a6b8ec; 0x24f6be8576f0f276552e38ab348acd942e94f92bada648c7033e02df416bd7ca5ac06c1e3536828d56806e8322a32af; 0x6cf068782e391856d7c74c542a5c55228b0feb64412e5ad48e9736cd253da7a84a8ccfda0d10503d637faf633fad42; 0x248ea4a387228e4df526a0f71e5f5a2ddee00d190d28b76705c17d77918e2cf66a891bc8e9fd8a3812428164e3dda2; 0x12ec16fe3ad3f205a67813e4b6bf652e16f41673615ac651b03bd0bcfb38b4933e20e694ff95d2fc264f5a206e148ab; 0x1e18e3c63e4bf7211e5483c584238aff945d3b1552a5b30c86670a7a056faab8ffc3ac1910ce63d09a1919061407927; 0x240ffca6e3cdcbb74f774caef52567285c58c475578152062b7d530dca4fe138595dc1d27bd4f3909f5d87598b437d7; 0x2b703bfa8856af35f3365905822d36b1f177b188715ab78f8d491acf73573791c5caa67baa96b6c3965eb66210dff66; 0x16d76573a4aeb88a9d3d3305887e08937e41230e32d8ec640be3ff99d621b3ebb9eb8ac935723342d045793466e2746d; 0x17634a32dc9bdd2da0706d7876b79eb55df8d014225721c307d6b3466cb78e90d911edab6a12480a99c6809cd9a5e11a; 0x191d2324be8d37fc47a454cbc90b16958398fa40f421fa028541437d3ecbaabfd443d6efbee367a83cce53a9f52092a; 0xbfe9f0919505f678a34014a6d52f01205a896801f1065e0f7e97d117b44ed77e7b19e7439c77608e78d18aec19357e1; 0x366d349eaabb0eab387ede688ae4e527abaf6db2f9e7b96bb0e4c4b701a8615a948a8f75d8aae2fbe7f8f91e94ecdc3; 0x189a087eadb97f8870fb38e36499401e541bcb77840567ad0c572ec7d79ecdb56f890948bb560657079013c78b3c3e5e; 0x1456d35266ece9b0f9f3fc54fa15f2fa3e8fb6b748e7f5477371ddf1431d8fc5c297b7f791e22b8b615da84d94a512f2; 0x1e132675ae90e2b94eba7320611541969c3eabc7ef21d81b50c6edf2477a78f404050aafeb31edb229f7aa17e84cdb2a; 0x41726e68f27546c9d23eaf5e100bff24a0f253cd3cfcc1bf2bad63d6e23d2edb05697308ae03f3bc0aefca9e9667842; 0xdad0616e3ab69078eac72518a7277a0521c7485347b0b7a5c23ce68cda84502ef03b8edee8f547268dafab694953b3; 0x53090b7bebb89836d9d4479b1757e1b3e4b8ce2dd7bfcefe2f47d9b288ee9ada6e7c36637b5bd7cbad55550853f; 0xab97f2bcb0c55e5da0fb74aea0ea2f8bf73982e6a9e35cea88eec5bd00c1ee23a68c4598286d31dd26811f36b781d2; 0x15df099935cd612ef5d5e819aa66a168ff3a6ba4dfda4679b4d0b004dd8da4e4e1e8722a713e82380a742e9b1d96a55; 0x8dc0c7dbab19830e75a6e124fe75e41987ffbd59cbb83e703083538e8507f3a3f750b81cf0c1b48dc87ef445ef2078d; 0x97ae63ab1ffe9959555d1f4a4d9d72e5dcf85da1d0e57e34852a90c5de17bf9e3ad82e9bde47638d52f3b0953c53238; 0x171b83bcd2e23da1d9f38756157ab5810977537b01d978640deb6b881a0a8ad8fe29c8b0e44e02dfb9ec545bb0fa2dc7; 0x1479caa7474b5aa32dd5feed88f2eab90c55c451b00d5b4901c10ef769731e94b93f6dd1e49a04f95b966159ecb2401; 0x13ad9f7953ee0fbcae4e1ea57df9b9ab1557c357fa0b9fbdca8bc925e39b9c472fe7fa305c84f0d5cb79343a208b210a; 0x17cabdab0edc4ebb4621f28c72dc45d8834c6818e612f488d99e36ca1ccda288810f006a24fc7e4ce573cd23fe74843; 0x59dd8883cc7fc566e6f48cfadecaf8c02b36c27b319ab6be4fb86b173dc1f8f6befb6ceb7c26f766c2b0a6c97306a1; 0xead3cf1c839c993f89bb0a0c37c45638a587dd1e37606f833aa287d960733412584127d04483cceb129eecaf119bd93; 0xfbdf75f9e47bc3e8620d3bab07627aad7b088d5e73ca6dcbf6f16e868130eb4ec24eef209a899c12c54cc63923fa518; 0x59ab6181c7d13a246c3611bf4b5357c0fda1d2829d6722cb92d503eec44f381d93c6298c9aa1fdfb4f5fd2a75f0a9e3; 0x8b2bcb98c3c7462265052dc7eb5994920a18d3ebdc24698eb47922aaf51a84244ec1f0c2ac1227479df409baf82ac6d; 0x14292e5d056cfe160f6f672bdb5ba7a4e85bd5c7d2fcaed96b22f359b32db51a82fbb63561aff33e1248797a5947d12; 0x6f70f1820de62075d97f725b8361f2e1ce160b061bbbfabb3ec756240bca41d92a04d1b357191c87dc5d50fb3a37e79; 0x6b0faf8a798a46a3ebe224969ff42ff7d2a6faed4877c565dcf8acf6841daa9f6e41d5b4d4ad54f52944a113f56f61; 0x1a462867c9ef73fdf9f1d5a0d86f2380f96374e7177a35eeca0090ef4e1dbaab80ae300b417f42f120e289f5d3548986; 0x7c851727c81b14ab19710dd8c881228398732a7662c6c700ca068347cd2fcbc5b1086803bc1d5cc407f042a4d6e81bc; 0xb4ef9f1679840b81110f318c90abd18d1b0b66eb32e57edc48e0415b0fbd950afb4b1e946f7e72efc0c241d618ece93; 0x238c04922954fc1c3410871b86e71aca72cbdc667ea0472bbdb08a6c6d597bfe89f358f9f55015664e6712ef1f4dffd; 0x57e528d61e1f17b23d87c445f678a696b02507e31463cc32513ee237e4d0d37e4c83c72f9a06bdc79a8e2db9c378; 0x111abb75b513ce7244acad260f125a45cecd786dc0776cecfe661c53758cbaa3ad027ebe2e68c82ce7e49caca517afee; 0x53aa9fffdf03c48264682b7a0b58a2eb4ddb1414cf4e659b9789b6c807b4f28ee970f2dab77a23c85874eb168e0bec5; 0x3b79e26e5228ae502ecc3e8b3c737db10a50be96937c2f0c97d425944fe28424272a5be0415861c18189b4f70f39f57; 0x19d4234703752a7d76a7ff9f520811d06cf87e07180c7ac125a9e708c3f9e3164801bb4fc3c3667703bf09df5bcb501; 0x4305f7ac630bc8b261b4fd370fb838aec0ee178a010a7d0d8528ae8eb4b2092d145581c336e22526f8d56f9872733; 0xba0a07eb16c242836cf5206c7774199331ce8487870cdcb549ce05ba1e48d846720efbf04c87efdfe4b703301d5d6f; 0x3bee657c9ad153eff6bfc7d6d214af99b0455355bb749ab3fe03510ca9fb00de6d931c32a125cadf6e4810e4a39945; 0x1fa22a1ac8af8def9fcf1e3af4f96813ec841762d71dda082dd14e6dd4bfd7da672694c513b116aeca78268fd43db3d9; 0x38341f8d9fb350f661d9eab2a77efc5c362383dc3d254b5847ffb580262892f06bc3e5b1e3e66aebb52f00a4ce62d9; 0xa94fa03daa47b07c67ce32f0f7e5eb220d069ac729efd5e0b7438c29ebf1be9f35e3a31c48c4a239e67bc0422d5ccb; 0x33f7cc5da32a58cab85a7349faa5f59bf56b15663d3257283ba2b273145986833ac2bc1ab218a320bb19ef50c63bda; 0x2138e6647890a8bc6ee2ce85f7529edad8afec07c415b4045e1927c44c2429f979e7ddc2842424c677f7990bbcfa393; 0x11de4e516dd6fec7b42414a9d12bce1b1215208fbe6c4fd9b945428adc322a43b6edf014cc94e9857bc99dcd1c2b3d4; 0xd0449719895bab8521fb163e47b71466bc13cdc0118c2ab6a03975661b48b20f964aec5d0e682f916ff4e05b206a614; 0x193ad3f53e10bf554620fa14f9c69c1fcc498e404bf3c36a90b7af85b115862490fc7fd8927dd99cf2734cc4da6a3226; 0x117c494c24b03bf9a60867994dc389bef6a5a86f948883c3e7fa7e6cb56f86b7c33909fcd6ad0e724cc18a13925138b0; 0xd389682ac627a090ac212260f7447eb642f733eb5236616c3b9709e2b7bc9296457602d741d4ad59f8c3c6c7f769f82; 0x353bfdaacd9362cac366b62c82cc756f1d3da0fb6936c67dfb8379d3b6cd1641f126e98b52c4b5fb3efaef9941c0662; 0x11449c2977adc8e0d26e4648dc0b13ba9ca423a9303dadb5e688e88bfaced6d048f48ee3e7e0b5da5fc2779415dfbdf5; 0x13927c4bc228410c5cd4de1864083d319a1df587bd13ccc87114e1f80d496998b4a23ff5b6247a3a36def10264729c41; 0x1014177f21ceb089976e865043adff4ca64e454cf35c4b3673584016162317ce699f74f78be26a53261d80dddf1f3e; 0x4da3f455ae7758084a604ddacea337f0b4526f30831f60872859761eb683f74987d26c76f88ad8ae328f559b514a187; 0x42a98a0514c03fd0614cd1ef5a0bf334df7b1b3ae7eef88506c25486e691fdb09010e6423ed7f54342c3ad63d491b1f; 0x9bded2bd6f906a0dc15b740724a60eb5bf373cf274be93cbb1774bf0e8b8b0f23cbc0b3c3f0299b64adcf1524cbb6ed; 0xd44a95e9f642ca433a8c08dadbec64bacf750c0a46967e93285c5824d1c8fbcfd2993e1ddcf71e3011e00c5ca2a46ef; 0x32aafa99239ed5dbbf27e0052997bd91d184626e8bab83990bbf79045fcab7a52296efaf5cae68b90565f914247f8751; 0x1109624ec17b8b5321c0625f40b4e3eddb62fc56abf181ac3d5966c0a6b8e9672ec4b8866f56ac9fbe339955b99fb66e; 0x26d772b1c864974d8a364271e8b2ace16b9fce5eea86ef42eb59a3c36733f2f35c7af3619e0009b71dde63e44cee36c; 0x6d0a3c524ba7acb0fc149790bab973e488ac02bd1ed3a487c5d30c2894ec681f0aca27837b9e9a38f0c5fc7bca5e5d6; 0x816152bb276b90dda2855953fb6c653b284f86dfef7698ce289dd1912154ebaa1bcdcede78c53a87614438ef39a36c; 0xab22696a839e90915611ac99b0df1da0d3ff4d9c4152219050b6567b34c13d05ed074cb255c7e983d6b65b622d1e40; 0x188c27d2fe80c4969a4c2e8525c0e2ebc7ff6c11a9971454f20996075b20461570d1de22ef10ff8eb2b2527640b6b32d; 0xb1db958f30e46534f47f3a930576ded21a8b8cf1f0f69455fa653032c5ca6e67e7b800755f17135a6b81068af61e3f4; 0xe8577be4d2d00f42cc6bc99c133846068009e41b918f0ed8d46907a5a3e299d48d6d249b2d03c743ee47ba7057eed74; 0x128bc876d773dc921a8e60a5d064af30ffb961832b6477645e04829a62e085346b12dd23aad43616f117d66dc976fb9c; 0xf96b50fd6990ce4a83684b11a46988bca12d82cd1b6cd6356e9dd4033db0ac9e2e24c853125957c1c660ab951c20e4; 0x2ad747b3ca53d505900a6dc0d5a7b7cfde88cfb370753690ba8317d4245b1952a09da277f2674d77cd0ae7573b3bbb2; 0x238e8538493d96bd27446368732d2390d45b34078cbdf0eea55154456442f05781bcb5b4f5a40c15ad42ed7432f36cc; 0x4545a9cbf09ca609c0b4db49cec92eecc9f1e88ea24f9aa32b2db98912b3353abda98dd9050ad76d02783a6a7a17; 0x24dc3c932240cb06b429d8a938f12c6cc6fab0cc9aefb04895fcc2c83bc32b5019be286054551576f5e8a4852ec88; 0x13f2a639077116ba90d6874f082670582e5d213f036bb84f2f8748137cd5bae0f3f956d040cb35931b335d7065208ce2; 0x1721346e3bf078abe29edf8b19ccaf67d45419af8ce1a07515d3198c17071f15dbb1f870f2ea6ccf92d9fcdd0d74b5b2; 0x9cc9f97357428f7186bf833edcf1ea1a647cabe799c1e0a54cd4ae0d07ce73eb96a9733b1b93de5875cc80289503c0c; 0xde965fca8a32fa8bc5d0949846a17d3abe1f8c22d58065d6d32aeeccfc7b0440bd2d52a90d2cb45fd7eb1dd67e0aeb; 0x7b9ab9a9129f9bebac12712222b0feff5fab1ca19627202022690a1001872740c79b3d3d6d057120e6e1ac0f7fd4af; 0x144f67f531273eac4b38188ed753ef2a0b177870ca1c5f2fd15db341a171e60378848bca4ac06dfe9cd5004528dd4ccc; 0x90f3a727854e92817b5014a7494b15e0e85249421f482b3af4379865fa790f5461c11a63c0ed285ae63c6809712c2a5; 0x1132fcefedd272a5bf364f18dea81f7afeb5a79712c1e82f24aaa044993b213d6a395200e246bbf433787ae51c401ee8; 0x12df6e09a5800e22784b3e76cd4f9a1932a5cb7d256c42039408ccb80d4f52c39cb2182aebbc677154957c2e4fb03ef4; 0x32c17080ce0d97c1873f44be778ea546dd1697509ce55701fd00d298238de25011ce8df5ed34aceaaf7c17c2d15ae2f3; 0x13bab4aa43862abe0861581cab37e33da875f498747414e3f9c5b14bd736ae0b26b7d7a490f2de6e3666613137a299fa; 0x6ba879fa16eaedb7a9f90c98365c418ce07520b84568aed8a9a204e32af07d9fdf1bf2c4e7d93cf0bd2d5657120d1a2; 0x10c214975d3888ab14ddb280b93ee08248155efbb3d0733fe8923fb4e7a75a97e395bd9df2e99c623f52b71ec5ccc97; 0x3cf9dd003dc7f5fec9463ac6aa75b9b6847263e1c4b24acde541c95727a209c44f2f75c1f2668eb019484b532b7ee86; 0xbff839358d8c4ddbe5811e502d05e1e12daa6b7ab3468cf95caa91c410f0935b99e5b39350d0699722125659124044; 0x4708d891389e005ee0fb355096538378655dfd9580c5d51639988e965806da5a7f7f597c449d9fa94a8d3907404e; 0xc9dfd4b18b9e3aafdc8592a7326f1a799f6653fa2e8de2db367d0314798324d2ab3e4510969833a100c47b928032e3b; 0x69166a5e8ce7f98472996074251131b911646cb78bca7a7afa3f53697f58381c8ef17ec4bbc42667a77b48beca27; 0xcec9fecbd127ae6ea63c9a111e493d43fffae081a995042908234edb39af2c1d832d21bd05ecb1bae99478ed3e8ee4; 0x51c8a399cd097987cad53a6e88476709ea2b8b7891deaa3f663655f6d263d768700a13fafdd3dbd578eb796cc40bf38; 0x25cf19b7f9340c5cdac2f597276212e57ee1ec3abd741cd68fc4cf09647bd3cbc4d076058abdf37ee9672a8cd9f43343; 0xdc46c96e076b812b1fdb4408eb3a2abc060ba6e305cd24759a56de620d3ec28ca6ace4672f1a4918061e437e2b34a8a; 0x7b095d06179f0b1424f7d52d04f996a1b3be7b7a3f6121134f125b0556015e036b267471fbdb6bd4b947a22b995eec9; 0xd86903928a41486eac44d47d7b06c1b5ae5776b15d246bebf9bba508362408618c59d02a77ed125eb1df2868ea97242; 0x4958960f72e4c24f2214b81c358cc64955db1462c0cf243c2925ffe45cfd881ba4d85b684348917da48dc6fe77be7e2; 0xee0d74a56d5d632ebae0f10c66ce2866b9600ed8dfd05eebecadfc1a68029489eedcc63410fa4e79fad2d8c9fc8804; 0x3101838c9e0c16d29f76ea572c895a0133f77583901735e9a8098fb042ee6824aea6a8015d7c2d657e5c7896237958c; 0x1cf06792ff7daadd736c42038185e04252dd75a254d6a0066ad2be589d308621fb25bbc42ccc75c158d8ab795f645c4; 0xe501aafc41d3ef2242c8fc6a4aac4ea0e70bd07c85ee028e4acc942ed0c7090a9edb02e81e4eebf70a345f42d45d411; 0x2f962331f9e13931aa248318758b10366044ff132313ff8bc0b1c4a0b72f74ef445729f8ac7e26322e4ce65c146b592d; 0xf640b513fdfbc68f45713f59e549e0cbefc92e05ed727bec0f5290528fbf975a5fda3be1dfd99f681ab4b87647e8b20; 0x11c6d665231e4f1eaadcf03651e0283ff532bcb931d276bf10f71badbeb0577cf4c0b5f2599eeafee598a1f87d4f5a2a; 0x11432a1a04ee7df5d028f93aba214100fec30a7305c6a310c6410fddab929b844bb2213dcb55d9f2ed1ac24849a870e8; 0xf384b7336745ac9472b2ec05ff6f689cb049c49ce021629d4208904b1908bce4a7fddbc9ed125f484b2512568f5b14; 0xcbf5e1dc911243a5c9f68d1b7ad62099f844066f4f159984f6956ff97305ff66c942ebd23f767565a82b251cec849a; 0xe46854128f658f87b450ca50f8464f53260bab18bbe46e2aae6dbb8ea30a26c01c3d8526d42a84c4a8faa4b631ed246; 0x1ac23be1d8dd7208fdb61b07f394a8cb50891c2ba16181892cc7c7f06ab48510ef2940c5987820db890fa7540ea34f97; 0x19774c180d3e42bb5876a8a2447513c5c766ad12fd1212d11427df34cf60fccdaf3b5960fa9bcad6fd73f2c8ea721181; 0xbd69c4d9521a313c315f3b714545d6bbf9d6d6c3a44f667ca881b8444b7206661038e17762ca63de1b7f85bb36c7d60; 0x2a8abb6deeaa3f5ac55cdab100245ec8f7157ab5aa463e376bb6e7d086969633dc119ee69ee397748fcbda8585defd2; 0x30c70be0e4bcc21ee1c84a476cd460c21d5f1a0e429dd1567b1b6b7006103224eb33e5dae8ef4f81bec50b01c22f09db; 0x14ab8789fc6107fc545a2b01330536345f6eeaa7a6a57391ba01e45aa59f9cdbd2e8b52dbe8f2c1164739b5a06a7c7ff; 0x89082d1ce4d2df5fc859f149d7e2dcbe5ffe0ec354f73801cac2431f4c9e4a54132099ac45177fc08ade66eb3e86e6e; 0x936ccf56bc386e1cea013fa3494eb1f620e431845e6c78c73831dcaff1d679e5242c7b47eaa5c7b20ecef059a1b2e6b; 0x14b5199a7fc76fa0c3de3409dbcb01686630c45b54d37c7a28377d68e3616b37632eac15530d7851666daa577430c748; 0x599b5c2e0b03c8b7fb911e1d5268a097dd5a8cbebec334b3661b0250b017040b23e230773bfaa58ac1fdcbe287ec2c2; 0x9c8177584351a505ee48f7c9c17a882be54540efcbf3f2179323e087eee98a86ac1b202ba04f47976b1c30e44423c55; 0x19f4031cf04f613113272cdf67d10b2f07a195bb28be70561512ae1ee6a55a021609c9b12aac6e402f5d3ce35a8f10a0; 0x4cc5522213154f1ba6f6e0919e427f0cc6052721ed2f358dc1b1891df924460aef51235c8df68050e5f96783a664336; 0x10bb83f0030fac962d5f33c25b9bfa0563df277d7ab048c841ba8384cb16fb00318cc667ffff8c2288583c93cdc75415; 0x1032b01d675e134d0112e2e360d6c5a9c9b832536c41f48cd87e947a322f37dc2653a0f7189e970187d14dd8aefed898; 0x1502fb882a5c59222aa165f94c8ba68ae0c76e36c0a82a749f743f59280167fd24932689510660728fba0de5ef68ea97; 0x24fb506a2bea83d81a6014e54a57548803195c3f470719b65a0e0b14d640a9c44b4b085ba6ab1edc96c19730bc9d156; 0x58c83ca5d4b90d9c8c61d825e22d5fd47e2b1d7c078670afe4cebfadd20facd54f106fa0566e681c45502b597d5f5; 0x13e35b032ddec682406118ca7ac29f42c476330cf8affc01163248b928e704f03815b950bf6e0e43adbd665f0022fafd; 0x3170f58e1e7310b10f123d5cefe5ea0b05af84d1ac8e48d6f6f071b3d6cd1820ebffff877f72aec679d0cbebcdf4cc3; 0x15ef922c18be8cce2d0f974ee963ca09ba9388243ccc77865bbd3579e263e1c53c7dfdf9ed11c6bbea19892f0142475f; 0x19e00394c110537c55667d25ac4b1f7840e8ec3c7a5e0147405362a11d2db80a11608c38036278e2a6f2cd432fde3f2d; 0x27e1aeda12f652087e51c43e259b3421234f893a49d814f5b02e560b7977cee6ab5909dc4d7d774f88875446eb31f557; 0x18924d5deb268a495e82799b00349eeed03b7d77625a34aa35cd10c5c809673fe7bf313b01036b05f5ecdf9c629ee1f0; 0xce60eef75172c7de7451a2c8c4a1a03bc96c3bcf5ffe13cac881198ea4152cfa9b3be078382d4629f509e24f9a3c; 0xa7d0e2634e7b68074a355f2462ce7cfecd1a7a69be92183207f5d43020b51bc5d6cadc8533286e47c4e48fcbf4a8f9; 0x648f95fc1e778180b16d6d8f4f8fef8e2fec1461f7a7fce5ff67500ac2b7bc5263dc44a0b2dbc62b7351eba6f30d423; 0x211133d6f2d07cd032b136b9a77365db47c1809e54ab24e5e6aafd05d9f05202ac0b0f10017e8f84328f299596dd1724; 0x185fc9bfd9c2eae57f537eb8a085e9bd997a515fbbc4cea9ca8b6dd665e5910e3fe15391120d12d1e8576323b9d92c06; 0x17a7277dfe46f439ba857c0bfd5504bf78a995a72e878b6c49055dc704ed9fdfd6143b08557d78bdcdd7a6cb53195efa; 0xcf3e7337e87a73f5ff7e5978d5c7db6c369c292696fa8b2a37b13b13c71014bde97c076281478e4bfe2cba0c3214aca; 0x13066878f13c8e88308e889b1134fb5f056f3ad03e689f6027c1b50fe5339261850262d05a20222695f8d0dc89015110; 0x86dd674fb05cfef9d8daae9253ac72f803b161fdf219684242652632c754f232c5f3e160887e4269974298710d2ea53; 0x16796edd2376eaa4ba4c39bacbfcd33160c3369f7e8b62009b9165d69610934b7c12b81fd5ab04940fc2be98f2cd8de7; 0x209607b1cc6e995344a07277e6f9b0bd95fcc28c4180b6bc34fa5b8b57e788b9a7f38d67637b62826a8ff2366163cea1; 0x21eaf29c59788a55aa3a4a1aa232b383018a96bea84a62a66bf0f67af78208d33051a5e10d9b7322c7bb2158e422e1c2; 0xc74c412cd75bf855e030fcc03da57bd165a5fc360de6ceb1da62251ab638a5ed397452937fd1723e13ab44aa0741432; 0xae376efc11c5145f227e68b4a7d1e44a9c62c599daf080c55b774ec911303c2ebda66ad63e0d6c26c8e08301dab61e4; 0x2bd916f49d8632644f58da59de538ac6be6c60f69a9e7ba9bdec0f3a9650188f78fdd707a4e9d9e0a8c8354ebcff6d26; 0x87bde18f26dc5712d20a805de90689e4e4f69eb3e060ea9fdc74a2acb7a5a24d2457eb04dd299fe5071abfff37b6fc1; 0x12cb7655aa1ef48b805358aaf02f44f521303cad8a17dceb48138b291e6a1ab860685b32b8f2d0639fa3392e6041a93c; 0xb6526c3b75a465a045601dc2a5f8af3353e9e390cd1881ba1a880723e6e69f7c23bafbb24fcca87ce131db3cf4e527e; 0x93b3ce5399efc4761a768cbf8a17c89a70a6fb0f8b2917362e26573127bc30395abb87d8dd38327ae899df5eed76dd6; 0x2c86100134f30fbbecd2303e162249b68e65966957c3c6a32315db892124b54e4baf322fa6d0605ec625592943f61de8; 0x1b01cf7e3218381b6dc3e02e4d9256551fc0e624414a2295705b3f883aca7868f478fe1ab6d8ce7cbafd17c65634383c; 0x2c2303364a39e981e3dfaebf79b875bd8692312814a3a16f64b9f695785e27a2cd35bfefc92b6eaf344ecc19e25ffd3a; 0x9542f5298bdc3ace72208dffc3e6062a44531b43e39b259efe24c3c0511cac43ee565de3284587dcbfc801321fc6bad; 0x844485138928c6c5a875b8357e69811493aab6b955528e25e0da62d8c8c6cd52e45fa26f213aa30b053448299314e; 0x11d476284b5b8ab4a935b3769cec0926c9d93dafbbba2ce465d23558f834bbd095f5ad556802e1d85352fab7055460ad; 0x15a4a5ba0c74fe240871c6d51b4c21a3ec4124248924421556f167f93fd51fe0c858591704cd9845b04df5e1a26e6000; 0x155dfb1bbace08632ba695d725d55d1eefd6e727c512a7aa277b294d55743abde95edba4371e0cb9bc8cc40890a8bc3e; 0x1ecbd9415e7f91b80fae0e353abcead95c60bb97d5e91b26b654780c5b203e3a48f764e16bc01ec929b9403fb9a35f52; 0xe8b5c77dbace449837e3ece2b174efa3bd303b3b4650fd07d2b2b42401f8237628e74ed241c1a946c410581e798441; 0x12ace53446c05b67cf2cfc98e8a54ebbf49e64bd1006e89fc29736b7226fa3bdcb84255c3ed3d2b2a99df2c8d1e5eb35; 0xd8bb9308b2ea1cfc4feb6146be91ddb61b64d93d7a7eec9a7c6cd56a523a269b3f955045a06c4f3096564bcf8cec8b9; 0x2d8bc144de7057be14a358afe9a35bdb3d245ba474f1462ac6aaa029c2e881f8ab2437eab1c9bfba511e47c8a19fcdf1; 0x22f54cc1a2d91628fa3186a69400c3e40c520221057ef19d621c131c3bcb7048ac04a0afdedc9e1b72a4f4280c4dc5cf; 0x26903d5744aef19df3b2f8dcc650ff64bf90bb24a568120bf4648dc0a6d9e641bd5f1cfa607a9bb76c599768e660c15; 0x12dfdb801c541df18ec4127a522c17ee5d9005942fa9c2b2fc6d006a16388bc1cb87cc8e83329a242c78f8f9a99c261; 0x94f3469294cf6023fa9e578daa9e830cb45f6256dadbfb651e1c7e0617841c5e781a236eb90912ab8b87eb44fb1a60; 0xa1e83546b172f92ddf390cfa09ca5ea5169f7010dd96a67f22cbb55a9eaba754492158807f5455b8adad3fb4b8a8f68; 0xc77bf9ae1ea3b51abd677e129f821cd06b46d38187ca4543e1f6862e1353d53e444ff23ea6ae505c9333bd1e9b5a5dd; 0x16579a7d6f10021f143a4e5126f66217fe31abb5cb0ccf08f76a7105b1ecc7a13f2eb41e32d6e53e921e0d3eee2491e5; 0x107b45c37122c8ce19e554b31803eee5d63479ef4d866da3afda1457d4f8d922862de1ab9dcb7f40dc77cf617b332ad1; 0x3ec20a7a4136bef9058ae9711c00a8aa5ec60ec0a205954051260a7267387dd9bdf070882c874f47c00b9f50619fa; 0x793da94df6858abb7933209c7170ddf6f689ec054ef6e0a0d3f11752b39cb80b6f02a38c91eb447929123dde8be1407; 0x436f059c0271b0c388a0482ce0846bcb77f6ae5a4d605142767ed84e9559866ffe1d06d084af1b933f4e3439f3d6da0; 0x19f5f8ce2c94e61c15eba5bdb5a3bdc02144bc437ffc6b895d4f808ef964414b51ac8fa4cb99eca67ce5e2725b86f484; 0x49a16b56b951c46e46e282bdfd42160846ac801353f7509c028f5756c294f77aea74b474986e67c3a7d6f90bfac105; 0x105fe4241ba3bb85ccb28a0062bea68c1f2b1d44a00f4b83e15dd5fa8c8271099573be05ea8472386fc8d1e7b2bccc39; 0x1364a303c4ff24393235dcbdce5d6f39ae3f2d07aaa070f8fde61b292eafbd1abe3bc1bc80d8020421b4ec0104f21a; 0x295969954c0bc80e061d26bb6c991aa688b7e871f3626fce549ff2d419f714c5af967a9d7d503bca823b7692aec6d8f0; 0x9ab1962286451dfce70afb8df4e6d158e2faed7e073ec8aec0359bf643175a89764d7065822062e342effd3b4f785ff; 0x826ebaaabe018565449901822a90eb7e56feaf1eb8d34794921fd548938494038099ab282bc066d36b0fab0d3f39c69; 0x4d1199b2ae1eb7243d6782c7be4acba95c8c219fbfb6aeb59a4c9433c85b7b6ec5224432a3c3cf3ae707d32e4055da2; 0x4ffb7d4136747c1332de89d81a8683e5b72273878aa062d5c8aa52b7b50d6b785d074713b67a6cfcee537da3639c895; 0x1746b0f83ae0cde05ad057d28f31f3c8ac009eb6fdd150e50a5da67d319c8e9857a5b944ba957731b2e63b4a9ead72; 0x1a0b6f4c3b942a0dbd5cfa4c465270ed7db77e8f05f74b2a6e9b6f7288204f41f0f13b227444620ae5ea8adf12726a38].
Lemma two_pow : 2 ^ kBls mod pBls = tBls.
Proof.
  rewrite <- (pow_h_ok 2 kBls pBls two_hints) by (reflexivity || discriminate).
  assert (E : (pow_h 2 kBls pBls two_hints =? tBls) = true) by (vm_compute; reflexivity). apply Z.eqb_eq in E. rewrite E. reflexivity.
Qed.
Lemma p_k : pBls = 12 * kBls + 7. Proof. reflexivity. Qed.
Lemma pow_2k1 : forall k p t, 0 <= k -> p <> 0 -> 2 ^ k mod p = t -> 2 ^ (2 * k + 1) mod p = (2 * (t * t)) mod p.
Proof.
  intros k p t K P E. rewrite Z.pow_add_r, Z.pow_1_r, Z.mul_comm by lia. replace (2 * k) with (k + k) by lia. rewrite Z.pow_add_r by lia.
  rewrite <- Z.mul_mod_idemp_r by exact P. rewrite (Z.mul_mod (2 ^ k) (2 ^ k)) by exact P. rewrite E. rewrite Z.mul_mod_idemp_r by exact P. reflexivity.
Qed.
Lemma two_pow_sixth : 2 ^ (2 * kBls + 1) mod pBls = (2 * (tBls * tBls)) mod pBls.
Proof. apply pow_2k1; [discriminate | discriminate | exact two_pow]. Qed.
Lemma pow_mul_mod : forall a c f e p, 0 <= f -> 0 <= e -> 0 < p -> a ^ f mod p = c -> a ^ (f * e) mod p = c ^ e mod p.
Proof. intros a c f e p Hf He Hp E. rewrite Z.pow_mul_r by lia. rewrite Zpow_facts.Zpower_mod by exact Hp. rewrite E. reflexivity. Qed.
Definition cBls : Z := 0x5f19672fdf76ce51ba69c6076a0f77eaddb3a93be6f89688de17d813620a00022e01fffffffeffff.
Lemma c_val : (2 * (tBls * tBls)) mod pBls = cBls. Proof. vm_compute. reflexivity. Qed.
Lemma two_pow_mul : forall e, 0 <= e -> 2 ^ ((2 * kBls + 1) * e) mod pBls = cBls ^ e mod pBls.
Proof. intros e He. apply pow_mul_mod; [discriminate | exact He | reflexivity |]. rewrite two_pow_sixth. exact c_val. Qed.
Lemma noncube_gen : forall p z e t x, prime p -> 0 <= e -> p - 1 = 3 * e -> ~ (p | z) -> z ^ e mod p = t -> t <> 1 -> (x * (x * x)) mod p <> z mod p.
Proof.
  intros p z e t x P He EP NZ ET NT E. pose proof (prime_ge2 p P) as G. apply NT. rewrite <- ET.
  rewrite Zpow_facts.Zpower_mod by lia. rewrite <- E. rewrite <- Zpow_facts.Zpower_mod by lia.
  replace (x * (x * x)) with (x ^ 3) by ring. rewrite <- Z.pow_mul_r by lia. rewrite <- EP. apply fermat; [exact P |].
  intros [k D]. apply NZ. apply Z.mod_divide; [lia |]. rewrite <- E. rewrite D. apply Z.mod_divide; [lia |]. exists (k * (k * p * (k * p))). ring.
Qed.
Lemma nonsquare_gen : forall p e t x z, prime p -> 0 <= e -> p - 1 = 2 * e -> ~ (p | z) -> z ^ e mod p = t -> t <> 1 -> (x * x) mod p <> z mod p.
Proof.
  intros p e t x z P He EP NZ ET NT E. pose proof (prime_ge2 p P) as G. apply NT. rewrite <- ET.
  rewrite Zpow_facts.Zpower_mod by lia. rewrite <- E. rewrite <- Zpow_facts.Zpower_mod by lia.
  replace (x * x) with (x ^ 2) by ring. rewrite <- Z.pow_mul_r by lia. rewrite <- EP. apply fermat; [exact P |].
  intros [k D]. apply NZ. apply Z.mod_divide; [lia |]. rewrite <- E. rewrite D. apply Z.mod_divide; [lia |]. exists (k * (k * p)). ring.
Qed.
Lemma p_ndiv : forall z, (z mod pBls =? 0) = false -> ~ (pBls | z).
Proof. intros z H D. apply Z.mod_divide in D; [| discriminate]. rewrite D in H. discriminate. Qed.
Lemma m1_pow : (-1) ^ (1 + 2 * (3 * kBls + 1)) mod pBls = pBls - 1.
Proof.
  assert (K : 0 <= 3 * kBls + 1) by discriminate. generalize dependent (3 * kBls + 1). intros k K. rewrite Z.pow_add_r, Z.pow_mul_r by lia.
  change ((-1) ^ 2) with 1. rewrite Z.pow_1_l by lia. reflexivity.
Qed.
Lemma m1_nonsquare : forall x : Fp, qmul x x <> fc (-1).
Proof.
  intros x E. apply (f_equal fval) in E. revert E. apply (nonsquare_gen pBls (1 + 2 * (3 * kBls + 1)) (pBls - 1)); [exact p_prime | discriminate | reflexivity | apply p_ndiv; reflexivity | exact m1_pow | discriminate].
Qed.
Lemma two_nonsquare : forall x : Fp, qmul x x <> fc 2.
Proof.
  intros x E. apply (f_equal fval) in E. revert E. apply (nonsquare_gen pBls ((2 * kBls + 1) * 3) (cBls ^ 3 mod pBls)); [exact p_prime | discriminate | reflexivity | apply p_ndiv; reflexivity | apply two_pow_mul; lia |].
  apply Z.eqb_neq. vm_compute. reflexivity.
Qed.
Lemma two_noncube : forall x : Fp, qmul x (qmul x x) <> fc 2.
Proof.
  intros x E. apply (f_equal fval) in E. cbn [fval qmul fc ofZ] in E. rewrite Zmult_mod_idemp_r in E. revert E.
  apply (noncube_gen pBls 2 ((2 * kBls + 1) * 2) (cBls ^ 2 mod pBls)); [exact p_prime | discriminate | reflexivity | apply p_ndiv; reflexivity | apply two_pow_mul; lia |].
  apply Z.eqb_neq. vm_compute. reflexivity.
Qed.

(** ** Fp2 *)
Lemma norm2_zero : forall x, norm2 x = fc 0 -> x = zero2.
Proof.
  intros [a b] H. unfold norm2 in H. cbn [A0 A1] in H. rewrite zero2_def.
  destruct (Fq_dec _ b (fc 0)) as [Eb | Nb].
  - subst b. destruct (Fq_dec _ a (fc 0)) as [Ea | Na]; [subst; reflexivity |]. exfalso. apply Na. apply (fp_dom a); [|exact Na].
    rewrite <- H. ring.
  - exfalso. apply (m1_nonsquare (qmul a (qinv b))). pose proof (fp_inv b Nb) as I.
    transitivity (qsub (qmul (qadd (qmul a a) (qmul b b)) (qmul (qinv b) (qinv b))) (qmul (qmul b (qinv b)) (qmul b (qinv b)))); [ring |].
    rewrite I, H. ring.
Qed.
Theorem inv2_exists : forall x, x <> zero2 -> exists y, mul2 x y = one2.
Proof.
  intros x N. assert (M : norm2 x <> fc 0) by (intros E; apply N; apply norm2_zero; exact E).
  exists (mul2 (conj2 x) (of1 (qinv (norm2 x)))).
  transitivity (mul2 (mul2 x (conj2 x)) (of1 (qinv (norm2 x)))); [ring |]. rewrite conj2_norm.
  rewrite mul2_def, one2_def. unfold of1. cbn [A0 A1]. apply E2_eq; [rewrite fp_inv by exact M; ring | ring].
Qed.
Lemma E2_dec : forall x y : E2, {x = y} + {x <> y}.
Proof. decide equality; apply Fq_dec. Qed.
Lemma dom2 : forall a b, mul2 a b = zero2 -> a <> zero2 -> b = zero2.
Proof. intros a b H N. destruct (inv2_exists a N) as [i I]. transitivity (mul2 i (mul2 a b)); [transitivity (mul2 (mul2 a i) b); [rewrite I; ring | ring] | rewrite H; ring]. Qed.
Lemma one2_zero2 : one2 <> zero2.
Proof. rewrite one2_def, zero2_def. intros E. apply fp_one_zero. exact (f_equal A0 E). Qed.
Lemma norm2_xi : norm2 xi = fc 2. Proof. rewrite xi_def. unfold norm2. cbn [A0 A1]. ring. Qed.
Lemma xi_noncube : forall c, mul2 c (mul2 c c) <> xi.
Proof. intros c E. apply (two_noncube (norm2 c)). rewrite <- !norm2_mul, E. apply norm2_xi. Qed.
Lemma xi_nonsquare : forall c, mul2 c c <> xi.
Proof. intros c E. apply (two_nonsquare (norm2 c)). rewrite <- norm2_mul, E. apply norm2_xi. Qed.

(** ** Fp6 *)
Lemma lin6_inv : forall a b, b <> zero2 \/ a <> zero2 -> exists y, mul6 (mkE6 a b zero2) y = one6.
Proof.
  intros a b H.
  assert (N : norm6 (mkE6 a b zero2) <> zero2).
  { assert (F : norm6 (mkE6 a b zero2) = add2 (mul2 a (mul2 a a)) (mul2 xi (mul2 b (mul2 b b)))).
    { unfold norm6, adj6. cbn [B0 B1 B2]. rewrite mul6_def. cbn [B0]. ring. }
    rewrite F. intros E. destruct (E2_dec b zero2) as [Eb | Nb].
    - subst b. destruct H as [H | H]; [congruence |]. apply H. apply (dom2 a); [|exact H]. apply (dom2 a); [|exact H]. rewrite <- E. ring.
    - destruct (inv2_exists b Nb) as [i I]. apply (xi_noncube (opp2 (mul2 a i))).
      transitivity (sub2 (mul2 xi (mul2 (mul2 b i) (mul2 (mul2 b i) (mul2 b i)))) (mul2 (add2 (mul2 a (mul2 a a)) (mul2 xi (mul2 b (mul2 b b)))) (mul2 i (mul2 i i)))); [ring |].
      rewrite E, I. ring. }
  destruct (inv2_exists _ N) as [i I]. exists (mul6 (of2 i) (adj6 (mkE6 a b zero2))).
  transitivity (mul6 (of2 i) (mul6 (mkE6 a b zero2) (adj6 (mkE6 a b zero2)))); [ring |].
  rewrite adj6_norm, of2_mul. unfold one6. f_equal. rewrite <- I. ring.
Qed.
Theorem inv6_exists : forall x, x <> zero6 -> exists y, mul6 x y = one6.
Proof.
  intros [a b c] N. destruct (E2_dec c zero2) as [Ec | Nc].
  - subst c. apply lin6_inv. destruct (E2_dec b zero2) as [-> | ]; [|left; assumption]. right. intros ->. apply N. reflexivity.
  - (* make it monic: v^2 + b' v + a', multiply by v - b' *)
    destruct (inv2_exists c Nc) as [i I].
    set (a' := mul2 a i). set (b' := mul2 b i).
    assert (M : mkE6 a b c = mul6 (of2 c) (mkE6 a' b' one2)).
    { rewrite mul6_of2. cbn [B0 B1 B2]. unfold a', b'. apply E6_eq.
      - transitivity (mul2 a (mul2 c i)); [rewrite I; ring | ring].
      - transitivity (mul2 b (mul2 c i)); [rewrite I; ring | ring].
      - ring. }
    assert (K : mul6 (mkE6 a' b' one2) (mkE6 (opp2 b') one2 zero2) = mkE6 (sub2 xi (mul2 a' b')) (sub2 a' (mul2 b' b')) zero2).
    { rewrite mul6_def. apply E6_eq; ring. }
    destruct (lin6_inv (sub2 xi (mul2 a' b')) (sub2 a' (mul2 b' b'))) as [y Y].
    { destruct (E2_dec (sub2 a' (mul2 b' b')) zero2) as [E | ]; [|left; assumption]. right. intros E2. apply (xi_noncube b').
      transitivity (sub2 (add2 xi (zero2)) (add2 (sub2 xi (mul2 a' b')) (mul2 b' (sub2 a' (mul2 b' b'))))); [ring | rewrite E, E2; ring]. }
    exists (mul6 (of2 i) (mul6 (mkE6 (opp2 b') one2 zero2) y)).
    rewrite M. transitivity (mul6 (mul6 (of2 c) (of2 i)) (mul6 (mul6 (mkE6 a' b' one2) (mkE6 (opp2 b') one2 zero2)) y)); [ring |].
    rewrite K, Y, of2_mul, I. fold one6. ring.
Qed.
Lemma E6_dec : forall x y : E6, {x = y} + {x <> y}.
Proof. decide equality; apply E2_dec. Qed.
Lemma dom6 : forall a b, mul6 a b = zero6 -> a <> zero6 -> b = zero6.
Proof. intros a b H N. destruct (inv6_exists a N) as [i I]. transitivity (mul6 i (mul6 a b)); [transitivity (mul6 (mul6 a i) b); [rewrite I; ring | ring] | rewrite H; ring]. Qed.
Lemma norm6_v : norm6 v6 = xi.
Proof. unfold norm6, adj6, v6. cbn [B0 B1 B2]. rewrite mul6_def. cbn [B0]. ring. Qed.
Lemma v6_nonsquare : forall c, mul6 c c <> v6.
Proof. intros c E. apply (xi_nonsquare (norm6 c)). rewrite <- norm6_mul, E. apply norm6_v. Qed.

(** ** Fp12 *)
Theorem inv12_exists : forall x, x <> zero12 -> exists y, mul12 x y = one12.
Proof.
  intros [a b] N.
  assert (M : norm12 (mkE12 a b) <> zero6).
  { unfold norm12. cbn [C0 C1]. intros E. destruct (E6_dec b zero6) as [Eb | Nb].
    - subst b. apply N. unfold zero12, of6. f_equal. destruct (E6_dec a zero6) as [| Na]; [assumption |]. apply (dom6 a); [|exact Na]. rewrite <- E. ring.
    - destruct (inv6_exists b Nb) as [i I]. apply (v6_nonsquare (mul6 a i)).
      transitivity (add6 (mul6 v6 (mul6 (mul6 b i) (mul6 b i))) (mul6 (sub6 (mul6 a a) (mul6 v6 (mul6 b b))) (mul6 i i))); [ring |].
      rewrite E, I. ring. }
  destruct (inv6_exists _ M) as [i I]. exists (mul12 (of6 i) (conj12 (mkE12 a b))).
  transitivity (mul12 (of6 i) (mul12 (mkE12 a b) (conj12 (mkE12 a b)))); [ring |].
  rewrite conj12_norm, of6_mul. unfold one12. f_equal. rewrite <- I. ring.
Qed.
