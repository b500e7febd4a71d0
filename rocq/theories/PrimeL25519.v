(** * PrimeL25519.v — the order of the ed25519 base point is prime (Pocklington certificates generated by tools/primecert.py, checked here) *)
From Coq Require Import ZArith Znumtheory List.
From Verif Require Import PrimeTheory.
Import ListNotations.
Open Scope Z_scope.
Lemma prime_2551 : prime 2551.
Proof. apply trial_ok. vm_compute. reflexivity. Qed.
Lemma prime_c1 : prime 1224481.
Proof.
  apply (pocklington _ [(2551, (2, [0x0; 0x0; 0x0; 0x0; 0x1b672; 0x7246f; 0x208e08; 0x2ec53; 0x63646; 0xb1fce; 0xae926; 0x241efb; 0x6ab50; 0xc3412; 0x15a78d; 0x3229b; 0xebb64; 0x12af1f; 0x0; 0x0], [0x0; 0x0; 0x0; 0x36c; 0xefb4e; 0x1f3b; 0x444f0; 0x5d946]))]).
  - exact (Forall_cons _ prime_2551 (Forall_nil _)).
  - vm_compute. reflexivity.
  - vm_compute. reflexivity.
Qed.
Lemma prime_3797 : prime 3797.
Proof. apply trial_ok. vm_compute. reflexivity. Qed.
Lemma prime_c3 : prime 531581.
Proof.
  apply (pocklington _ [(3797, (2, [0x0; 0x0; 0x0; 0x0; 0x1f8f; 0x3054b; 0x1c97; 0x1443; 0x99740; 0x12d; 0x160b3; 0x429ad; 0x12763; 0x99d67; 0x83378; 0x778ef; 0xc8bbe; 0x4aba4; 0x81c7b], [0x0; 0x0; 0x0; 0x0; 0xfc7c; 0x64f55; 0xc7c4]))]).
  - exact (Forall_cons _ prime_3797 (Forall_nil _)).
  - vm_compute. reflexivity.
  - vm_compute. reflexivity.
Qed.
Lemma prime_c4 : prime 1257559732178653.
Proof.
  apply (pocklington _ [(1224481, (2, [0x0; 0x0; 0x0; 0x0; 0x0; 0x1ca657; 0x7768ba348c4e; 0x3b749e3a6f0ff; 0xaa3069c17e10; 0x90c9f1d64343; 0x113889f27bb3f; 0x3147f1e8d2e46; 0x166705ef4a47; 0x51fce3e32e52; 0x5c39ee3c95ba5; 0x35ee64bdf9964; 0x48bb08b298bff; 0x6b6d5565714d; 0x340ebbafdd5b8; 0x26026e4ba6a2; 0x3e904250cabce; 0x7e8b662792c63; 0xabc52ac8200; 0x10b23d71fb75c; 0x268a759c33155; 0x2cdfe9c273e80; 0x15705b1d2e18e; 0x35fe6c1a063ae; 0xf6af8cef2d0d; 0x1a013f5b00868; 0x57c719d4c6802; 0x26b1830e2fad; 0x59e4f3ccd3c3d; 0x236c75e851d2e; 0x24649d9281de3; 0x248c8cf549100; 0xd1f1005eaf; 0x8edf1bea668; 0x569c9e0f23e8; 0x830581d9c8f48; 0xc339c7d68073; 0x9cb853b1e3e3; 0x5f1ee369c783d; 0xeae25200eac; 0x35dc89fa17243; 0x8e75b7d48fcfa; 0x22ed33e8eae88; 0x3eba41a985506; 0x78a2aeb5e688; 0x477be711ecedb], [0x0; 0x0; 0x0; 0x0; 0x729; 0x187c9aee5346a; 0xeff546185026; 0x3598f172a8f93; 0xa4b9698bd1b6; 0x3afad014a559; 0xacd11540c6d4; 0x114837e1446db; 0x897404e032cd; 0x887ebe38f1546; 0x1dfac0d5e87c9; 0x2cedcdc659db0; 0xd44c78a3b8a5; 0x11986ba8a332e; 0x2781d18f66c6a; 0x3889593096896; 0x1b654b8ea7666; 0x76aafce518d4; 0x25fbdd2e4865; 0x986ae8463dcf; 0x666e953df5ee; 0x2fd5244c7b8dc; 0x12bdffd155300; 0x25598efa6f40; 0x233db2e0fea2d]));
    (531581, (2, [0x0; 0x0; 0x0; 0x0; 0x0; 0x1ca657; 0x7768ba348c4e; 0x3b749e3a6f0ff; 0xaa3069c17e10; 0x90c9f1d64343; 0x113889f27bb3f; 0x3147f1e8d2e46; 0x166705ef4a47; 0x51fce3e32e52; 0x5c39ee3c95ba5; 0x35ee64bdf9964; 0x48bb08b298bff; 0x6b6d5565714d; 0x340ebbafdd5b8; 0x26026e4ba6a2; 0x3e904250cabce; 0x7e8b662792c63; 0xabc52ac8200; 0x10b23d71fb75c; 0x268a759c33155; 0x2cdfe9c273e80; 0x15705b1d2e18e; 0x35fe6c1a063ae; 0xf6af8cef2d0d; 0x1a013f5b00868; 0x57c719d4c6802; 0x26b1830e2fad; 0x59e4f3ccd3c3d; 0x236c75e851d2e; 0x24649d9281de3; 0x248c8cf549100; 0xd1f1005eaf; 0x8edf1bea668; 0x569c9e0f23e8; 0x830581d9c8f48; 0xc339c7d68073; 0x9cb853b1e3e3; 0x5f1ee369c783d; 0xeae25200eac; 0x35dc89fa17243; 0x8e75b7d48fcfa; 0x22ed33e8eae88; 0x3eba41a985506; 0x78a2aeb5e688; 0x477be711ecedb], [0x0; 0x0; 0x0; 0x0; 0x0; 0xe532b; 0x3e92289e2127a; 0x305a24f027a98; 0x1f0d9a3e056e7; 0x2d9e035297c23; 0x2bb94009d4fc5; 0x1a65c5efc1b4; 0x21e3c779f2485; 0x42b6b2ef3b71; 0xc1512e042a6d; 0x8c013fc60b141; 0x45666d09111e; 0x64adfb70956; 0x3bd4c7562e4e5; 0x6e87976150213; 0x243ff327480b8; 0x21e6800673c6d; 0x24702a78e2555; 0x70fe72ec16; 0x49888000596; 0x1bbf72397ef96; 0x309f4c2a685a8; 0x71b7001e550d4; 0x25303ae17b957; 0xbf4c5aa5e6b5; 0x33bdc594ae128]))]).
  - exact (Forall_cons _ prime_c1 (Forall_cons _ prime_c3 (Forall_nil _))).
  - vm_compute. reflexivity.
  - vm_compute. reflexivity.
Qed.
Lemma prime_c5 : prime 4434155615661930479.
Proof.
  apply (pocklington _ [(1257559732178653, (2, [0x0; 0x0; 0x0; 0x0; 0x0; 0x2147fbba8d768ea3; 0x202eb6f67a87b0f2; 0x219850633aa0ac; 0x32c2e900b9fe8fbd; 0x3a40bea7c03a0e80; 0x3871ad15bb423418; 0xbb94003a19252ec; 0x5b20f437ba2417f2; 0x3aa0a3947a5c52d6; 0x24083c9c7010cea6; 0x13aca9505726994; 0x1162a5cdd9c2c724; 0x1ab0f79d6d370881; 0x2ccee29b0e7a8544; 0x2cfa5998b506e9b4; 0x13faf382d65684b5; 0x25c1d9ed21c28982; 0x352bccba542989b; 0x8cb3e3febffd8a; 0xa27e2140b90b7c5; 0x2cb459fceaf8bbd6; 0xa0505e2812d8988; 0x17a40b80a59bf034; 0x658b8a71cee18fe; 0x3477c5c8332ed248; 0x31e8370f2ae19ee9; 0xdad3eaf2459546b; 0x233bb44f293ccd7d; 0x1dcca79b3a051d15; 0x50d59e22c23e4e7e; 0xb090f09b8ec6dce; 0x6ddea9cbeda793e; 0x1122ef92974ad8ab; 0x185071cdf0f23362; 0x9a3cdcf88d6b94; 0x1aaf6da0515e8f96; 0x3a90149e4773ebb2; 0x44904da5673696bc; 0x3b48b59d78023; 0x6e410ea2a5b68986; 0x258ea3a66af4424; 0x2cd675326c3fb5d6; 0x564fed4534786e7; 0x10feb2d3b4d1a67; 0x2539779a940004bb; 0xdb556813d394d; 0x12467be2ea00b386; 0x2c5d546603b373b3; 0x3de0df3d2644be72; 0x1a37fc197a4af61e; 0x720faff24208005d; 0x92cde6dac8193f; 0x58f2ce01f6e582f6; 0x547e10eb3851615; 0x50b483990d8f03f; 0x0], [0x0; 0x0; 0x0; 0x0; 0x0; 0x10a3fddd46bb4; 0xce10e367ebaa305; 0x64d428f1ebc73fb; 0x10e15891c6449dc9; 0x1e27fd9b83c5a318; 0x17f6f31251208253]))]).
  - exact (Forall_cons _ prime_c4 (Forall_nil _)).
  - vm_compute. reflexivity.
  - vm_compute. reflexivity.
Qed.
Lemma prime_c6 : prime 172054593956031949258510691.
Proof.
  apply (pocklington _ [(4434155615661930479, (2, [0x0; 0x0; 0x0; 0x0; 0x0; 0x0; 0x731ee46aff6ad9; 0x1545ecd9b5453957defb4; 0x5a3b4cefed48be778697f9; 0x16a62ca37271dbe4655f; 0x28ceb45abb867c2422c88f; 0x7e13466bc46679c63827f1; 0x20349817e64c212ab76d96; 0xc14f79e02cb4dde1107dd; 0x559d62fbdeb26999df6f44; 0x1e1be4b7f5d65c7eac222e; 0x5a5cdeb200aebbe6fff6c5; 0x51c0d38a8f8bb8bda4d150; 0xc8fbded9206d937401fa3b; 0x7d871e82989f0995a22ba; 0x42bc9d0930949a5dba7a0; 0x620b104f882a53c86e35b1; 0x15ce7e642336df85f2e0f4; 0x2c5ab13fccaa1387e12efc; 0x15b059c3af2424ebba2b2a; 0x140a9bd7be2149e84536e; 0x5940b9462412be1201577; 0xac5b7d2cf1b0c6c085a7f5; 0x20cf5d622ca677a691e964; 0x35771ad833650ab44e1f; 0x74c63d46e96309b294002b; 0x446344ce1cc353ec722a25; 0xd9f51c27482dce7673f932; 0x2df018bd870845faa; 0x74e8be3a9b957c4213331; 0x10c0fcc7862a096c5d045ed; 0x238e0f87309ade3e740b0d; 0x1018934e225b5b1ec911fa; 0x387f8bc02b9a1a5cf0cbe3; 0x4f02a507fd4a506a17003d; 0x153f58d44b2a13782a1214; 0x6ec39769c71dddb968dce; 0xf3cc04eefea7267152a43; 0x4cc374dc8dde89b350550; 0xcceea05b866c2640d16c93; 0x2012ca389afea56510840; 0x1b7a2bce8c90bbd836fdfd; 0x3497ed52c57d6bf49dca63; 0x2d5cf0e9ac673360e25781; 0x13173e067453b9aedc1062; 0x47ccff46de9d01e94e123b; 0x10e5ade1c762df914a6bb75; 0x8fe399573352c8b277e0; 0x4920d48a686c1f59b2fe75; 0x6d4805ad0b6c115c3ed7df; 0x4adc1d85936379469105a; 0x641227c7ed052c7b8e1611; 0x273a10495024a4cda84577; 0x2d488a0f3810cfb1f27a08; 0x3b235911904ed40a79b113; 0x413d16a24aee5f7944bc0a; 0x50145b897640780a264bf5; 0x516ff730bd6a311c6d1388; 0xa6a06adf5e8bc8f8d64605; 0xc9c13426e7e52c896496d; 0x37aa7ce5ba6fe5c6e186ee; 0xa97df8a8466a15fa5413b; 0x1283ba4082c56223350dad; 0x1fa3e3da6b8cf34a8e1e31; 0x22c905fb51613e108ff95c; 0xc961da32ab3fc5fc1694c; 0x4aa1009f1f26f9f13c1f73; 0xde4d72cb186664bfcfcfa7; 0xf90fad24d3904b50f2fb1; 0x5135a0cec4aa7633170000; 0xf45634cff02b92a50577a; 0x10ee6eace3600ba3508e07; 0x8142f5d50af97aa5cd3dee; 0x933e8782ed208a40c1a3ee; 0x1312bba24d889c49d5fb6b; 0xac4d903fc303dea5ff524; 0xa8dcc53ab27a323e64d5c3; 0x1412e47183519c4867394f; 0x3376af99c8d5b57f958ac; 0x4b1a6ea6fdab737709d145; 0x1120355f9bf638128e0360; 0x8e51fa3a480f89f9de5161], [0x0; 0x0; 0x0; 0x0; 0x0; 0x0; 0x1cc7b91abfdab646; 0x4eb0b2f689f7f4b2f7bee; 0x40cd0fd43bfde1bda228c; 0x1e2eab04a85b094080da7; 0x6c2ffd71221a945b973730; 0x5ef3c6d61bc6ad25dd25b4; 0xd5281907fd96755c56a0; 0x43f071ba21eaa3b6b05c77; 0x641476a01fd83f02b50559; 0x4e1d9f61470980949bdd72; 0x52db0199da62908ef2243a; 0x2a550c495f18e2c7741d97; 0x29364d09c4e41a1f09a15; 0x10db562cfeb085ebfe400c8; 0x132a5c35d32283c3cc3bf9; 0x8408f6819dbcf34648551; 0x74534f5e6758c3bf32974; 0x7d89ad8bc65b7cc9aed0d3; 0x408e0a1194510d3567b52]))]).
  - exact (Forall_cons _ prime_c5 (Forall_nil _)).
  - vm_compute. reflexivity.
  - vm_compute. reflexivity.
Qed.
Lemma prime_c7 : prime 19757330305831588566944191468367130476339.
Proof.
  apply (pocklington _ [(172054593956031949258510691, (2, [0x0; 0x0; 0x0; 0x0; 0x0; 0x0; 0x468bb939cce552e87b1f2edfb; 0x63da4e5bb6c6e962b652b77a735944e6; 0x38ebda91cea7a926ea29ef03831da1961b; 0x28be9f682fe8fe8c9df0073ff7b5899c64; 0x6a0bcd01cdd39d5c6d0237b36b1a14c1c4; 0x13ef510488467672852337648489cd8a25; 0x442a8a271da31cef40676ee2e8365d25f2; 0x34e925e0dea14b34929d75c749249fc227; 0x528dad4982dde27fdaa55f06e30ade6d13; 0x1010c90ca272b07f389c26103cd2a3e2d7; 0xe15b9c09722e3554d667977a46080560f; 0xa9c07a359e0bead2a3dcad621b98a0a68; 0x8ea7d50f69dcf0e6317ecb4e7dcac004e; 0x87dea9494aab7ef30ad014c94b5295875; 0x2e09509cf40648199f31f4c1b3d61b2c86; 0x25ac48e625bd90bcb5fd26c7307f56e90; 0x335a9c4a8d583450464b5906d9f2cb2136; 0x52fad3308e35d89b9a6f4668919fa78d2; 0x70cb97f5d17cf9025c20e3a817dc4f9b1; 0x1402c16ae2a101f1119ce79608ecd2271; 0x47fa0ff1fb63c9d528a3add2cedb88d681; 0x45e08a9d4c93023817d0eb932100484b9f; 0x214f419b4346751dd6ee935e922e49c8d6; 0xe833aff018b084a9565cd8d33b959dd; 0x43b3200194d624266fccb51567a35e5763; 0x11d5a9c4c104f4db1fe95b94b64f8f845a; 0x28aa64aa6b6021756b07b13b07cb56e7a5; 0x2d50bf6bf1a38c2029f56c6bc77af9734d; 0x33e8fbe5befe03589c400c4a5909031cbd; 0x24cb7fc4b02e0e36cf7cd99489f64dfa33; 0x19616e4387f2751e63626da99000dc5d07; 0x55833d1359b29b33941d005c921117990a; 0x1e705588cb073b312368ce10b73d2f2afd; 0x3dc804a11ec35d854abe141510f325d3c; 0x4b3af7f5c7723f2b8e7bc84c3637731259; 0x3a5e227bac996fbe6d7c1866ff941091e; 0x32b0abd3fbecfd3eb06340920257e4111b; 0x168076049530c3c07da7d4dc2bcfa480d; 0x1284e535b64ad41fed1427abdc160e6695; 0x1092145ce5f0c89fa861a814d7ca97d47c; 0x74d55bdfaf2e2e89cbec14709a8d9dc10; 0x561939783e7a87161470c1ec65c22e210e; 0x38b81a3f4e48e816581d9a73480ec10295; 0x22721c61464e06f7752495d9dd7d2e1f5b; 0x2b5b7a3bde08d02283a55dc43d18b15d3; 0xffd70ecc591ef3cd16606463292cd894; 0x61b5df961056766b5c7ed6924624ef4; 0x34e6805cb9df92ce7e7cb1b6508c927a1e; 0xd5e0ebbf41db4f6b517f3d5e7a1bb3471; 0xa78bd6d44b48c9b1c3a3edb981e3afdd4; 0xeff707a4fbf064aebacd3e729f816f17; 0x46610a4e5b42ca7c8f60c47d074079bba2; 0x19afc4b9b3cbbfcccaedb559b8375ebd94; 0x38102b5b6937b44d176ae28a317b8dd7; 0x3928cc909b25533aa9f9165de76b39f095; 0x21ee1e899f3aa53c6b8d096caeb9bf04ba; 0x377c008490ef5ac8ffcf6f681111daf58; 0x1447baf4c89983ed45d2c6a321a4e517c5; 0x510e1c10df11f0a6a234613abaeeb68d11; 0x16111b1ceb3f9a5b0c0f102a5f3d4f5c40; 0xd2f3c496bb98832e428e907ab99d54b7c; 0xe7512690da16f697c9a9977b2bee991; 0x346b1aa41892cdc4ac512c77d3e139596c; 0x1c7f0619873731bdc8964827be93459; 0x1f48dc51cbb1a1bdc85ca4d92c674dde2; 0x3f1aa2c2025d56074d888427a8e75e8d0; 0x2d758f46228f0f1d9ad8d959442666f509; 0x68a12e20386a0a6ef95a5b649b8c9b28; 0x120d3ad2544415f8d3abd7ea5ef50e23a; 0x20a1a0196987fe1f773c34c1e6c92ead81; 0x6df500207c36f827ee9d3bd63859dbd221; 0x39f9778f00170916ff1baf760e5eda392d; 0x2cc16aef136440b1de068c8dfeb1268137; 0x237e4304b393732b84a225a9cd62481a4f; 0x61779a523b7b59aacf218c87aa96e0d4d8; 0x4554c8cb20bdeee631c5049f2265edeff; 0x3069d3a14a94357472056f55afce9bef3b; 0x1e3a57cc12e05b4db4516bd884a2cbc8ba; 0xb1784d9f3d7a5ac82dbe4d3ce1ef8ccbb; 0x4de1185c6d1fca5c66726dc0437f3545c0; 0xb9a5b35f910fae51f8a7856524935e4be; 0x403ec1d5032f020fc69293000aa5a52a8; 0x494f8f6959fe3f13bf51d602d77ca34b33; 0x18c8eb689cfbd9259b0b03d1d58caebaa; 0x504306106f4a271fef05ec7f6c0251243; 0x6bdacae1d65ebad40f9283f3393c5f08; 0x396f63afe3cbfa64b3a285943bfa2ec54d; 0x533104746f13e22b35cc34b7e6fe86c2f; 0x1ea3aafa3192b2891fc5566cdfcb95edf2; 0x3d78f9d5586d37d45f814d05ebd2fccaba; 0x71f24bd9d3ee1402b7caf6527c35c90cdc; 0x27f6a67da71428c6e427e7fa5ace9928b8; 0x27c943a48062ce3e48ef3c65c8f69d5367; 0x3c48a74059e3f8b5327f1a865cb18a6063; 0x4bc499efa2288a37325201263cfc9aa60a; 0x5c00e882df9fcb9372238db15ef5b80187; 0x2a5435f99eb9276c3835521b5d140e78fc; 0xa7d3b8b055a3c11db0dfbc9ae4064ff; 0x1fa160c432211683a8e4e8d8aa0ccfe296; 0x165eb197bc71dfc86300efcfff4ffac451; 0xeb72fd2d7b15411d17aa7ef7c436fbe14; 0x492ccaaa988b92723bec4b3e8b1b1554be; 0x55785dae08900fd09414758f8c62f851a; 0x20dc09cc552f564fc1c49f37391593a375; 0x2b1108f63a9324c5f7f6e1be4b549da; 0xb722b7581e22a3ca434d2bb9f9d95441c; 0x7af0e772a445f02d86e670d517d54d1a7; 0x2bc77b374e41b1fbd3ff6c9036174f42; 0x10e1ec4ed6a6c589d87dfef188fda83e0d; 0x433f6deb25cf80dfbf00a9118b6bde5fb; 0x224d42ce51a79b224ba57ae3b069dc3d10; 0x12b23e7bc20df14bba44554038cd1130ba; 0x2fec99b69207acf3ce1cf2c5d9979a58cc; 0x45d8441d3295a74b0d0040316c1ebf2c; 0x2e3c3f632860441b9fee0c50f816ca02f; 0xfe3626f4a7340c74ac87f92a9f4308d2e; 0x2a7e91079ed6bb7a63b7548830460162ef; 0x2518080bd4f5ed2c253aca84bb40a74695; 0x115cef1f2df04e8564e3015eb12079067c; 0x398057af6d649bc9c0a9aafee4cd4ef7; 0x16641927940e3917d4ffe707833fedf4d8; 0xa6bd03c7d6b7f9b901998242f8cb34de4; 0x4f6b0687e5532e57061e59f101cc25e5d8; 0x362d4a08ee4c62f0ef48cb8a874d595640; 0x20c669789ed9a128ff5e165d54284c01fb; 0x63856cea81f05818ae3de6ccd2d95e73f0; 0x3a0fc367dcf0ff0a5a1db0b1b7c3093f31], [0x0; 0x0; 0x0; 0x0; 0x0; 0x0; 0x468bb939cce552e87b1; 0x689178206400a5c24cbc666bab1dbe911d; 0x73b31e58ac3467fedc479139c439b0fe16; 0x6590ab6c49d1c4628ee9e915e81e0c3533; 0x38b27ff1a2af3ef4bf08a47050cbb07c80; 0x11e18f0ff34fae25a8a700265ad705bf2; 0x30e2ca1c4580cb6eb79ad2765348a45c09; 0x349ff30bd8582c0d3fc3ed73d4b2eae135; 0x2ae71a855c6d1a4fdf42ef7c2439683631; 0x2dad2efc37df1154de375fd5aafc6eee6; 0x10809d502bc7c19afe2ab900c62e741; 0xfd40556fb383ab72323bcb0f6915b1da2; 0x3a6e427104adbd2c960dc81dbcc6313b7; 0x7bae148ccbf5a604a911de4083d0564a6; 0x275e30e917546784d5b7c0b39f9b95fda; 0x1e4cad12bf13beda809e89d3ccee64bbba; 0x4a9513d786cca0ab1097e867b41f2b6c3; 0x1687eef9d0561ac094d08edf05b3041fd5; 0x1af5b78d798135f1af540c4359c0baa4a8; 0x5512c9cd9a4d4012be28f7406794d7e218; 0x2e8f14950377a06154f369e1c0e783e7a0; 0x7d0e929e1b0d66913a7c0b005c5d8d45a; 0x40407692daf6c21589183006c7e5cc3e4b; 0x4c4712c7dcbc202970d1294083179c89; 0x498d6dffa23e856e7476c66d4b77ac4e4; 0x57a8ae49172290474ee7686088349e5681; 0xbc805e3d8bb40dd46227471b43db6ec50; 0x7bb4acb63cb24bde04a30d943bce24816; 0x41a006eb76cc107ac8875357e1cb936fe; 0x136b253c829292eed436f7e7d6f5f29a10; 0x283d370c176c2e9753829930bd72865726; 0x3c8a54151c95c13693bcce35af7b04f497; 0x6616d061d4f74b9f36f6d7e416c94d82ca; 0x3947f416aa9f415e1e1f9cf1566db5f718; 0x16081ff23d2cf1b49f907682b6d66dc37d; 0x157a5e53d97cd968ba31de2f95076c2b36; 0x4a6b673ea18779aaa4464e6941c771c99; 0x41a81ae33f71441e1cce23bc00d4addc; 0x89c7a06fa0bd25731cf4c2cfd5ec0345f; 0x22f82ea76a7c0775dea288aabb6afeb06f]))]).
  - exact (Forall_cons _ prime_c6 (Forall_nil _)).
  - vm_compute. reflexivity.
  - vm_compute. reflexivity.
Qed.
Lemma prime_c8 : prime 276602624281642239937218680557139826668747.
Proof.
  apply (pocklington _ [(19757330305831588566944191468367130476339, (2, [0x0; 0x0; 0x0; 0x0; 0x0; 0x0; 0x284fd78ebe39e63bb; 0x34965db8655893ca96cbb5818da0b8e5cb; 0x1e15e9f94f6352c261dd79f0e34b0f5f9ee; 0x208fb54c46899406664a7191e4b47aac2fc; 0x7aff055964d0059141364168a88730eb36; 0x141c401a3f4383c5b1aa68621a1da2f9033; 0x105dc1192d6a5eff0688e5d9104c1d5e938; 0x100c70472678dee514fcee3964f4cdca88d; 0x45b1d751c54df27b661726cd41916694d; 0x15b2de052e426429eb5fdfb9469cfd8094; 0x57761ccbbf16ee78ed6d95c914f87b5c98; 0x2ab4166d0ad58124d5fb7b7a67cabce5c33; 0xbf7546a81e3ceac8f76a68c99df0472bcf; 0x2dc2f2599050232cc4ae1ff9d5f9fbf0c8e; 0x16f3fc592102aaa485a58630d6194f70ba; 0x30edabaa107d6a1b5faa1f09ec8dd80fdc4; 0x404222ada5f56e9cb9af0c399da1e8af07d; 0x537fa40829a408efff43c6ad1a84095ce3e; 0x413e8481f06765074718b1249f7ab940f50; 0x1b2c9ca88359c2814ab59863920981e500e; 0x8a816fda821bd20e7ed077968b69b13862; 0x3ee550bd1c4243a20939c613593911730e4; 0x1b8f297fa65d491eac16b7581fae389aedd; 0xdce25af7b55ab0e4e16567cef4084be8be; 0x5d22249df9428f5bcd23402af669e0f9fcf; 0x479770fd82ae06e1d17b48cdc24099a219b; 0x2ba8ffe77bf2ddfe751be6287c2afaa571a; 0x1302c7373eca8ed5c88409162fb5d3578ce; 0x2d1574c762018c8dc8576fe9cd5632b198b; 0x20e27abe85f17a2c8d2ce392d14de98e469; 0x872cfc0274f1cdb614f5fa46d8f3146e95; 0x1b60d40bf7405db5ea3a97fda5df8b80b3c; 0x3a7361610c91989656835707c8db9b5fba; 0xa091ae510ba4b0e7de5f0dcf8e3970b85d; 0x1699a6592507600a40c4b564ebf7954241e; 0x410209310c6b57e2e813a334d75e26ada7; 0xbd34419a4fc883da57ed7546dfc343405f; 0x1a0bf46a5d28aed5b59b9ce49dadc724472; 0x135af4304dd0c5525f17ce6764b20abeb2d; 0x6cb67f28c57496dd24bd484597c750e7c7; 0x80a0a5731ceaaa0c0700ec282980348438; 0x1c4c404adff125589309e7b714be3fc6e52; 0x187babdeeafac12426c0930b3720cc6bb24; 0x787349c97330d85b49a78919a0359c7db1; 0x90411eb908da81eb9888f14d684004bee4; 0x181655c186a545f9b4d88615e3e3df49d99; 0x3b0601c0bcfacdf992be9676b23baa64f5c; 0x191858843d8716a2785766b6685024a26a; 0x26fe86122a35e1ddf72316f02ef65591a9e; 0x3bc67f32eae95072ff0a136821fa942c0f2; 0xa034c3a85a14e7dd70249b82f2678475e; 0x1daa5a3aa5b01c68a07fe8c956debfa973b; 0x23bb531a0662f64addc0b406a167fa87bcd; 0x15201c15b3fdd7492050f41197a9d99ccb; 0x23d3807b3400d5123578627e4fa46e58586; 0x2a6e087241c781d90a20e07b1c5085e9be1; 0x1163f817f7b926e120fc24bb0b36b01db0; 0x236e7924bbcb5884d53a55841e8c160f36c; 0x1dde300d0af1bfc135dad56f526a656dc0; 0x216e7e8c6eeb278121053d4f8fdc56ae26b; 0xc1b02d30a73e8e8a17f8efc7cfd5c6c1; 0x4be36591cf6ed936c95a92cfff44d71bfe5; 0x1d0213bf8c6e349c074a94608b3dbf7b6b; 0x65648fde6e9b0c1e1414f6b87d667d09845; 0x1c4eb7db7e31417e849a4f5312c18931dfe; 0x106757244782c0f5510379b74abaa39311f; 0x262a7ae80e99fc8c8435dd71927f8f3cfd; 0x52fc41f715920210baeb898e941f59a73db; 0x68bebd64ac11f857c1cea7e5ce5236a700; 0xeccc375eb73b214e493815f007ee6ba38e; 0x3a1fc0dd2be53b63fd4bc1ff86582b68abc; 0x1dab76739f0425bea6e240f5e807f5124af; 0xc1413ab39c84a9e37aea006f77ac2c0f24; 0x1245e52fe0703262d01c79e1709fc6b20; 0x1d2ccc29841dc561629a7afae0ac334d488; 0x4b305bcd82d6476058c29cbf51f4d462846; 0x5f4246c9e793be204c327f3161a38b794e; 0x2d00c7aa6d96fbfe88d972fe0148b50206; 0x185741e99b77210370a1b079e455e60478e; 0x1a3e7c1f16f7cd93760414ebf8ed86b55b8; 0x156ac293193f7aac427271579c6e4f251ae; 0xcc16dc51257d474a4ec124ad90b0fd094b; 0x2657a66e12c8820ed369296d35bc256ad48; 0x589517bb3b4130e0d662c61ac3e2ee73449; 0x465d38f0b21dcef512b74f6f804daad5f; 0x15f69fecc31399fece00ee4115febb07127; 0x2bb4cc4f8eff9982be354b12372e3e7e52c; 0x62d9b7c5a055fb47088fde17070dffc6cea; 0x97e858d26c2ad6a2929f57affca9cd7fe; 0x6590e178bcb213cd7c9ef12601df3537a2; 0x16c5c050244a3b7954131c3f5524545bbc; 0x1c8b87bfde600cb2709ba1a0e591991469a; 0x156f46538c0fc8fae6273bb5296f3fb7879; 0x1ca3328c5435321296b298a0f7c3fb66e7; 0x22f670c020d740a8dcaeedd6f0111c7d6f0; 0x2f3fadb13fb69040d40f787c4407fe03c; 0x52789afa126900c662cbd4e1f0c9d1f0fb4; 0x12aa6e58f03b40dcb4779680df24385c1; 0x1756f690e23940a007e3fa75a08fd6d0b6d; 0x17fb33b2c509d6ef7338bb02af33bbf69f; 0x272d11e9f28a82c9c50df3d88dc8b88c844; 0x2c8aeb3f807366002fa21a0f885a1238904; 0x48c5e39522b06f3742b4046de211bb60d; 0x39d6c139df01a675d6b464590a7d28824c1; 0x1c5bb5afbdd3e97800c1f45393ca1f65f80; 0x19343a57b46a5d1634843f5d1b4c869979; 0x16c4824e65edb5b89a5b7833d1e98a37de0; 0x4e62766b5b527050fd52e92139f847e850; 0xca3ccbbd7f6bf961f8a614213f50074955; 0x4622a46658de350c18b941cd2cd71e5361; 0x27bb79fda8546ab2c1d93122e1fea8fa09; 0x647f956a1b2c479a6c3e2748fde3c9b0a6; 0x1e9dbb0f72cbe11f9c240e396adfaadaf1; 0xeb75d820f12559833563e14fdf41dec245; 0x4526374745fb0a77887ef12fe4d48f6dd; 0x172e2a7b2e301a3a7ca76488fc44f9c83a; 0xd4725207bce853603f34924132e77789dd; 0x508cd2e71e9a2996b8b5b350725dfb9b290; 0x574abedf14ff72f40c34d77d087e5b4a3; 0x161523e2ae435b6beea9d1782873cad6dfd; 0x2c7a64018501d213f6e53b1a638249b030d; 0x88adbf1d7c80584acdcc13851c2f258c5c; 0x35a6a0f95ccf83ebaf2b5f5a27b728fe71; 0x2cbd5d2175d8025a0b7ce31f2261549da; 0x11475b7be0a321b71ab7d2357baefd5e89d; 0x1d575cee3c6c9b004247b32d8bc8213; 0x862242de82ba62c4d77eaf9fdee25620b3; 0x1caecbc533386416298343188ab5be4; 0x275d83903149626993909d8e44fcad013d5; 0xf431ae81f1c78bf687e442b8db52b4a6d8; 0x32cdcafae152df290ed9fa9b80caa8174c9], [0x0; 0x0; 0x0]))]).
  - exact (Forall_cons _ prime_c7 (Forall_nil _)).
  - vm_compute. reflexivity.
  - vm_compute. reflexivity.
Qed.
Lemma prime_L25519 : prime 7237005577332262213973186563042994240857116359379907606001950938285454250989.
Proof.
  apply (pocklington _ [(276602624281642239937218680557139826668747, (2, [0x0; 0x0; 0x0; 0x0; 0x0; 0x0; 0x0; 0xf; 0xffffffffffffffffffffffffffffffd78ffbe0a4404020b55c5ffcebe3b5668; 0xcf34588528db9ed8dec1d2af2996f8650666c7487dd77bcb4528c04d42fd44; 0x6140554ca18b3fe3b5d3febb2e81298dbc467b7c29b9ebfcbf7e38c46003440; 0xc1c6f133f466eeb1f314f81cc60c1e2b6290ca0323d92100729c93172c2a54d; 0xe45a020a33334b94a4ebc3c058b6d208c8a286cce9b55e4cfed7afcdfece5b0; 0xf23f4cfda1e631bb282985047ff284c0b8ab7c89ef4b7f44f88e78d750a1812; 0x9bcefbe524a14797f0197c9edc03693102731f2dbac3ea1e20f4e2b1aefd378; 0xe071db031d03c272fef75ab2150313b6a1c53b1ab096198ebb0acef2f8a8139; 0x6fe4156b62ed87627b3fce00392247bf086f6ac1bdfd7531234fc6a0f0e768a; 0x5cf8098dd276e2b2f91303d32cfd89cdaea028ce77c2b3b5156210d2fdf3a64; 0x7ea391ff82aabac25931fe4b769077b21d45f1569250a606ef7e4344fee9ff3; 0x40b436d59da11539d52a0926282cccbacd28eb97d50f609d7f60e9a64020e; 0x35978f1a7cc9c405fb69c6e58b038a233bd9121947c5d7d8047010921d9c9ba; 0xb104c650d94d2ac4dacab9da662b72fa9e4bde464f1acdba2cc18aafdb81dfc; 0xe104b523c1a4cb53a84f9649a0212e7c712ac6a6addd8793a03b8744454ecd1; 0x860032a1416a0e60d8291cf3e5ebb6a74060b236a301535967ad3b13c2f0342; 0x20fb18bf6ccacf7de4d635dec4d24a96e96bf8fd04195c24355cf14c72bb0a; 0x322b6365e3470939d3499b83f725c40a4d1e58354ebac1f5e6c5677d410238f; 0xb16719d105da75bf7b520bc4e429d70e9223eb9759131981b9648f3b3fb729e; 0x3fe0bf5067d1d81a73be2d371b90fd511af613913ca0d74fd6b2dd88758115; 0x7c19f501d9d36400207c37a0c71f27d70d6d0e20991974237b9ed9bc7b156d6; 0x292352a294fad2b2396973519f0dac20b1fb112f4111cb49b772c3199285fc2; 0x824f812672f3875bdb5843e75aa6f37e7ccd31e23f34e6a1e7d8e04f101e823; 0x32432c86c380abc5ac53e9859c2eee9817c8daeb28234c0f1b30097573d602; 0x1f37261bd9795072fad6312bde41163624af973fc05994cf00f8b82f3d1a689; 0x52c4de4d828bdf181aba7c0de01ce8d769d774521256adeb084c84903963bca; 0x25a3bf48fe0f0b46ac105fc17fceba097b53529858dfafa686f0bf1a872fdb0; 0x70c16ae2e51c8b8df365831bb0180d987a2bfa85a4957cefb8eb74969fb3513; 0xd60d489bff51f8a0077d84f2b180057aae5142b9a18f6a19d8ffd8c967bdb6; 0x1b3c47656e80b252dd5fb1d1e89e26f87577f317a5aa095a0521e6132916471; 0x9c4297bdde3fabba50186219c49c06399e5bb850d1b2ac2bc9199f0646c8776; 0xfb9f24d4464581aa4364dbf3e1e2259f74dd08933527e165362b215f725003; 0x13897fb21de4a051c18084982c39af78e82fcb93b4c56f05deef1d235c0f158; 0x4bc9cff755365236ff0f7fe493762e5e684dff66d3ef46346c26332cf2da76f; 0x2ce61e5085f25094dcecf3d5c06eb4b1a326a0d04b7cce4de2e90b767f754e6; 0x83810d39feb8c5c12020294535393fd2e17831dd008c61534d1a696a0dfdab; 0x175fd9493a85c99a5a42e4f42c344d1ab2bf302d50ac8cd0aac9f3a035fab; 0x3f03ea53f83e3bc1d883e31fd0754b210a69d4f640ee8672d400ff39526b310; 0x7ae04d7e0d04890bb13ebcc95c061c549ddbeb470a2857ce649b08278fab67f; 0xb3bc1cdc5249e665c70d412f00b36d045e523b41a9dcf55aaeae10595c8bbd9; 0x65b257a40481b9b16a317f7f5916c814ff9c54d02e15fb7e8dea68402cf237b; 0x4f15ca78900271ea7ca6f94ef4bc3379122d5a716086ed20becfbc9506244fe; 0xa0fa08c0db36c1d91f2eaa35d0f04cc2e94078958c35c9f9887e44f9597519c; 0xc2731c7667c262c60ee3289996d69b596db2a84fc574e84eb4e01c93fae6e8; 0xa259ca78f744091a57d66c235e25a40efb30178b0625bb925942d982faba718; 0x15d3b97677c1dba25ef699da10278a181b30e2b3d83835e6d7a8124687d80f9; 0x6a5a5245df3d53f76788162a5892a525c344d6d15bcc65d528362381bc5140d; 0x1c9d9f4173e17e80e851c9d0dd12edda813fde61b2580775303876aae0a060; 0x8e63a23a14d9fc5101a3971a149f4b5d6aeb3e4180a30ecc15bbee12736e4c; 0x23824cc782c001374573c213fa035097c22b4bb7b368e9cb5ea26a12e8ab14d; 0xa8e8ecc9e26e017bd6624ed437573d67ed5316fa093d94d6f433eb0e15fffc7; 0x8c178e3c6942437d2f4226fb8eea5759a00cee858cd7d760cd0c9dab4d35717; 0x239d13e1ed6cfe5e5345c08a1b285798ef6b47b69382048c30e0d0390c5500a; 0x93601e90f93f4bf42243ddb167a2d2eee13250d1848c4e5aa34883594bd36e5; 0x656b1fe6b181680edeebe60e5bc09139bb38b52d4df3cb90bb24a1cc2203a23; 0x43843ebfb5c05bac0633a7359cae1672dc3011cdadc7e816ea722fcc5ff5ab5; 0x2f5c03076e5eecec335883be91f8da07310d551d7f1ccfdd59185d6cc95f95d; 0xc0b4083c89bd20523726dd50e9c55f50c1b9e2c07ddc3620eb0ebce62a68196; 0x264e43b89de54b30b623f77588c17a146761b5ba3f88bbaac623f51796fee; 0x8546f702f907a33206030c9776b59eec98a369c3a5264f789f44927242dfe9f; 0xd3287777b142509f3f808e3164e600349fd5fdc531d48568a26c760b0af898; 0x118661db15202dcff642db45234d96f65972ac974a3143fecedf6f11d336897; 0x465f28b72051554b7a066161345b5a727f74875edfa23aca38c3211695ff907; 0x1ae154ff705dda68dcfe7aa7d161ffb7dfe9bbc3dba7e8096ebc82ada4ae0f; 0xa2efe207434d480689bca76073bb009f2ce1d969b014e7bc1ca154e743afedd; 0x29dbd12552578e03bcaaa0e3343be60bebdf34c6b5be9a57af82830eb84df54; 0x7e0e02e0042e26d433b0fd9793c69512feec63703b8f97f9f8f4c08ae4ca44d; 0x852cd07c609215928847d327a2a873592a494a9aa39615fc5d2f4f88d839a9f; 0xb4c299e3c148888ff4d83947a4ffb81ceb4a87456b6a063b53cb248c35fade; 0x70bf8757bc8cea272ecd3d504518537751d2d20e64a0a88cd37de685fe26b0; 0xb490085df6f939a1d37055e87c4395080476783133fd7f952d318c99423f8a1; 0x4af5b291c79bc076cc534de4b54fa11e28d76f992ff70ddb443d6c7d801c759; 0xd58591900e80d15be3840b25610d2a68f917488d07e288627537c78221f3b6e; 0x282de91bb3eaf33baa7f727d20c370c7ac5bfa5903b9dd23060f5456b91bc0c; 0x1ff87255a7f67cd814ccd1783808929b787c2df095fcee415654a229ec67412; 0x47c6baaecfc27f9fb0177c41f46130beb3e90985e3acb0d73ff8b4d3c8eb6; 0xf18585b6aa7964a6e4b98a9611baaad8260cfb663fc611e0c7d6762d94217f7; 0xa32a0643aa3e480a48b6446e86e02d5f0781275ddf84316ca167335be881bd0; 0x8858818588c18565a22bc0cedf7217b24038e3989dbf499c0128218f6063047; 0x41afdb7b53250355c2e943eb217e1dac0df8a9b255f29e73f3b6b5861efe3; 0x38834a88f6501120215996214f9c75f3c1e9bd40c22b440600880ca71ea25b0; 0x350f00f740e7364ec2fad6e3aed3e83ba2d729aaa53c59ebf39ba8c89ed2c0d; 0xd9cb2fecc84ba1ffc4b43fcba5dee4e050e81bd2d01f4ad6cb93e679b8b7e57; 0xbb93d24f33bf1b7d2ad64fed672dd6e7766b87a9d5ae4c82839d4e19c252d69; 0x25c33810b0249dc37e06ade68a100fee193e5342e53766d575872c37e830bf6; 0x7571a790b0bd4fdec4bd91f1465e9cf01dd4831ed2a176745cc318ff26d7eff; 0x58c9341922b5132d86bc72cf92ba2c18d7dab1caf45e696c6e4b22ff836d47; 0x883f6c421080c92a60c8c37f682573a0be209e15939e41c2c87a6d1d95cd734; 0x4f3fea776d2e3bca6282fc6e2a602096ad43e13b2c6f8b25bd66b9f77e18e7; 0x63f2119c7836dc603ff3c06edda648d4d5ef042c3145a8a85a0e4555355c646; 0x262b2acd0aa68a01cc734e6c912d2400d4749358def9ba6ad8c27e1b84610bf; 0x4ab7ba808d26686ccbded30a1c5b64a213453b7bd7dc2638225cbbcb90feadc; 0x123b0175217363ba8c63a3a33b5d3c0ee9a34561f6d6d79f992b73f391837ac; 0x614eb35c1a1f4898386eabcb7178115a4841c56363437761fcbb99706048658; 0x1d9798bbf0ac16509b0c9fbd945e20dd9ab1ab13efcf76d8dbb09b2aa8838d1; 0xc70863a0c77f6b6f1cbe2562c705b416fc091cc5a8cc512a9e750bf71d21ee6; 0x3fbbaae9a6bf8e1ab0fd1af6eb63f11ba71fe83e18b964145bc6b2eee60be8a; 0x53d469264fbf80334b059b72034452b6939c609a434c854d014e576cd32957b; 0x33b2c21d7bee47ccba0dcac9a7b24dd00d69e0badae2bd366774f0ede012483; 0x879cc251f0ef7fafba7105fc8cad605ebc80044a41722dcab7cd0bd30d6d64; 0x7436a133acca2bc05f0b616e5b507d316090cd5fe6a2f98dd88ec6141fd4b; 0x9958e607d0884deda4fafbaf3fd4dadb9d2560450c9b6baca3ad914b5f1169e; 0x21b563046a3829e8ed55bc93dc50e739c9b4b447d855c2771a7c5ea77e73dc4; 0x25a4057995de3015c13bd20a89928add8d1ecd7fb935cdc2ded668ab43080e2; 0x7f25a5459c354ecee073cbf955d4eea6d1528118d3e21151641f0ef35d6ed2e; 0xce50a11673b4a6158ad37f78bf4d6db6a025d1f2d5235e39caa59c436907b29; 0x9220f6fe10597318fa21020e294c334fe22af21ce42c6b3fc1c254b41d5951e; 0x19c2ab48356d006c735a5e143fa0cf7bb2479fdb51312e5bdc8b372adf21192; 0x138da80185c0fc85f8c29fade57d1303f18659f2989c933816c94c010602ac8; 0x8b69fe8636e62d86b1072a3a06f30240b5c1d238a2a15bc1473ca61b0892ca8; 0x652988cd34e08a3c947bcda28c5c626f9b424afcd204f86e96d5316b2c34d; 0xad6695a53127971f7505a3d20802c6c69cf4c7dc87aa67e4dd8d4f06bfdaf51; 0x4824e157702a7d1333a699ea89289e26565cec012c918d670b8cdf20fc7a35a; 0x83ccb398a959c84d438f2cceb98caee188bfee63ecf56e76c576db24af31b3f; 0x2991fda26eee237ebbf1f9bc490dece9fab8dcf873094517ee03f65c7554b; 0xa934cfb4f7cf750a6131ee59ea6e56939357040b242c6646278ff24cf30a76f; 0xf36b27e01bc59544d2111cfb7162dc9e2f2225effee5f577dccf8e4d4d6286f; 0x4a10c70dfcd08cade32beaf21a5dd1860b54505d5c3871cfa89aaa3d79dd4a8; 0x6f2d2dd409419fb5b1e64098dd7c05c1cb51eb6922014649e94ca73e96d5c98; 0xfc14fa6cef913936bfb7159971f1aac0db45115a4d21f979be92e9cf04d8cdd; 0xc34e8b28dcb8bacd659cbe046d9dc011719b9ea1f902bd80ebf10a659d9b87; 0x8eb6bc20f9f4ac2e8ec232544c0e56e97a70eedf5cade53b253f326436e7c3; 0x848b3ac6bf77fc6f53ed8f7110d4619ea8f75ef3ec57988afa543b3b7906d4f; 0x1184a1e4129728b658ad3f7a2ddc2a3c92447febc9e0f8f0cb0d2da76eed540; 0x4906f4d5d7bd59730a0c721c693ccc4691f2a5001ee225f107fc82b1f0f7c1e; 0x11f84254af54a42f957f86a8bbed3035b1e57b3f5eefa8e4985a5eab8215f65e; 0x93ebaf81bbe71c95933cd31179af9fbe8863030c6d6573b58b47f03185baed1; 0x2ff39e21732688aa0f360c7bf36179f406acdb5d26fa182b485997ffdcaf3e; 0x985c6007d2f540abc85d0fec7c536fc9a8651ebb6e996239c80cc887cdb5709; 0x14e198423fe4db3ea12dedc42d8dfa2420dcc48e4419b10322b02928997b56ac; 0x17b83be16efc45db00b4be07d18e2b99846d6b3ce8fc8d9c815ee1013549bf74; 0xccc122609d6eb747bb02966f6b8aca5faf3ed907c7e44c1176182fd688bedbc; 0xf1bb91366d80b27b35e06b83be4825181a66a4ce17bbe80a097460a7f3d350a; 0x28c0bb8ecede5c9b69a4cb8d2d78d08ff4932647f5807c84531d0c33484ca5a; 0x1beaeb8872b2669fb8689b31e1ea590c275553acbcad492eb144ca614f3a6502; 0x7a6189dfbc7b79854357dce07419b601471f213584ae2be0eb30c48a321914; 0x6009e71263b13b524052ab9647d0e0120bda4ddb6773d46fe93290ccaccb5e5; 0x4876b2be6714c66ec246dfbd7f00fa333e1187cdc96bab2e9630b868e4c85ef; 0x30babb5414ceae429ff18d42fea6f3147772336d3400d3ac09677b21bdceff4; 0x46a09bf1068362dd4c4e73eb1ae9af3d11ad9a60ce85012ece14cb1b3d1a61b; 0x1ea6952f9ee15b3cba3ca35625dbd56d9d7263da0a2ffb8fda732eed308829e4; 0x63b0f00e67767e90cae141dffc3615f1a1a7cf29df3412ee348878a365c0fe3; 0x16002ed57dfee752cebe3f6dcd2287ed6d6999368cf8edc3441dacac86ad29; 0x12fc958281eb62f49accaedee9c3b04ac4bf31a3f5b98fd27d7ba0fa56184068; 0x15ded385ac100d2e915cb2ccdf35287c2bbac659d258b8bb83e8e577c9cb51b; 0x177706a33caac5671ae9b406cb159dba55657213881cb5743a60c7dce316f638; 0xdf1f135a88d1a52cd1cd80cadb5c29f8a3fb8673fc0d5819550cd9c69dcbd3a; 0x21bfb6d87ec2cd55ddfb77da20253098b7764247da20a422332f03f2ec87013; 0x4cbb64091bc242d063dffb8abb6fe76647a3120ca68ad8c81a6372749a13f05; 0x17cea2f57deb44799e1eb6b330a56b6ea168cde65c80e4e91096c7a08f4e170; 0x12856ef4d1e116cf05ae094464fa0469360694a7f377db13e5066b5e195e550; 0x13321ba994f53efc29a3c536d7480e70e326a1a7ebe1546d102c32deab7a805; 0x7156466865e455f32b79071307c01b7158db8a4b92dca061b6888eaac88ce2; 0x77e75dcbad4d9baf9b3c1559c5626450674c966b8bd1fe2516320de882c12a; 0x14b67755dc05c3f0dd0782c6795a8102a9309800c48ff85953b00dab445cca65; 0xfc94fcf7b28c0477b8a13f3c1252d6eb51f2d071b3273dc228d6383dc6c40a; 0x236640b53c5a9155fd3eec85f9c607f6a8c4a5c86b2ba43a86b06117022c7c4; 0xca900c052fb3f3f3e53b3ada92495423972e634ba40fdec8e4a9c159cf11c10; 0x1d64dfab15dd8885a3d17201740c9642b6e759371a103aa89646950893b36426; 0xb46fd66252b35701c3dd979f0788c977254232f7b3b8f526535f32f21ee9bf8; 0x6e4284ac6e9b50335457cc5a167990b18691c14925711a56f5c4de5985bf5a7; 0x707ad2496942d6d72f0dfd11bf2ed400ec8f75d349c5ef3e223ef8419027aab; 0x26c363c3727a860f14c7a29dfc0f127aff0fedc7801839ec7250c61e2518340; 0x52ac0ded2fcc8ed055235c0134fc0e60dbd282e9e23af7d7a0e769801cc1ba1; 0x1962a03137636272ebb5c06cd3f34f0b3e371ac5e798d76a1f78425a4872339; 0x18ae9fdbbea00635a69f3096d0d53ce0d6d4c30525fddead9d89e4d5d2298c; 0x146920b074010421feb4cba0258f924056892dd4fe1e119253c3cbdb47b4fa; 0x6bb5d487c4493add2e5b1547e457e931563a107c111660da152d375835028a0; 0x39eb77e1005e1e0b92a000324b87fd2e904d31828f470675f1e7533bb46c384; 0x9a1b26710c81187fa885527e5ee09cd58b48e981c9537a8b80cf98ed7eaf4a; 0x47b3df27a00bf827093c0044dc37b896e683c48f06cda544df489d14b6dbc69; 0xb4c8399eedec1a0266380d0831687ac44d8c4347c208f905e807580229d2ac5; 0x5d13547a0f47248eaaec38bd23e472f22b6bad3e124ee051fa13bf515af6b88; 0x1fbe04594406d0efd002893b06ecc91749f789752eddc6a433e56657226a3d7; 0x5c5a208b9c83e12bb373d892eab28395a96b6f2e3a99f3aa2828edc86ee00db; 0x1f67440930446c0cb11bfc2a56030996fe2d767f15f2a37d63f96f39c0f5013b; 0x410cd7bae3927f1f67fe0e29218e5e4a6d9fa9bc02e8480680a0fed3b79669; 0x507d24fb1e8c0f92ef2d900f62c09409d9ee28220777585a7595ca2be81e09; 0x15c399f113532dceb0cd8d86ddc961f4e21f79241b555ad26b837cc4e64fb835; 0xa4318d75e20e627d3632bf9cf310355ea4a51496e84e6fd5d8cbfd380baaf7f; 0x49bdcfc946a667e9aff3da363edf604d53f17eb015969d2692dc495409ca083; 0x16b73b604a95f647a063b8fd70a88ff54bd2017368ea16c1e9f336ac2f31c8a3; 0x94222ef4972af453b02361d610aef2e445cb2587ff24222f1104b664066f31; 0x1d12dda350fffcfd27f361084797b5ed5377b1bf478f182755ac9d0ea9167be4; 0x1c40121367d0726c76c7a2045530d15a1f5db38ab132831643514a6dd2f9282a; 0x757b4f6a3023add69bdb0dc91739e93a8d42d7b5e3af8ea337a1549634d0ae2; 0x133a5a33f9b6ddf2a9a65b15eeedfca5bed739a7b5354fddc961d59487b84; 0x5050cb98a3e6dd4ee1c85319e9ac2250c1ecef5e5f71b8a5d54faeb2c06d1de; 0x1219d174d7e40ab46c5b0f661d70f82bdfbc58b22acca13c28cbec01b88f5f1; 0x2e202a488194c9b33accbdedf274fa089aec88f54c2eb150c6ddc01414993ee; 0xb53d0c65be3189380986dacafa506b66128f47f02be70d4154c291247c07a71; 0x1b05d046060a70957ddc2a2c7a88675720459a81ef32dc7bae97472b53a5188; 0x25bdec151ece9580d10e1176a194ebbbdfbd1f67600b66f9d99cc19f7d630e; 0x265b98271f0d742152dd0ee849349ce4291ab7f31e5937bf684d56917c51; 0x1be4da7fb3dc559df64bbfb9264e3e2e4753bbdbfe39be3dc73aeeea03b3561b; 0x3db9b6b8db85a90803021727e684bf8a16c36846160839b21600463c68e5359; 0x24dd04b3af130b3e440df58d3144c05cef6436acb7c395c7441ae3438b056ac; 0x76cf870d3751f03811418c345a20ee4f35afe2468c6735d27958af58b2b6a1f; 0xefab8dc52681f29bfcf0b279f59ccf0e9020e2cbd8295aca4861837d9b41cfb; 0xa4cdd0fc22145516cd3760097581d0ae6333c724fc3b3e7fce388e3e31abcb2; 0x12aee2544947b6b1c417aafc8e643325c39438495207e1d7f722ea15fbd3029; 0xcc2d9eeeb9dc128e7a679ee6d85a2fa5bc06be4a42978fdb531e06d12ea58fe; 0x156646ae3b23f30dad7408d9c926917f99a55026940d238ee6fccd6d13efd0d; 0xf9c38f70f9c9f2be7ccd9067521715a562c800b8b95b33e1af819478c9fecb; 0x1cdd7b0b4885973cacd08b123e9317577cd52cd2974e80f4f55e7385b901180; 0x13223ca48810a582cf31144a8e78d8137a161ecc8d8b920f74a386883d78ad; 0xb30eda3b4c11ec0d1ab998c0f52fe17b1034c81f1847afd798e66f4c83d18c7; 0x456df91ebeb6f3c501d2bce21134c63356b5a909bd0cf87810864a40b4660b4; 0xe3573370febe83dd5530366f3047cc5d28ad5e904178faae39d4f1abc30cbce; 0x2d65479f7bc140faa609edcab3d0206a8a7479e0a43d9224b0b28cde0c5d4d9; 0x1621bf551cabd9b43e3bd0f98d91af914c9ef50baff82b9a38f98c5a38bb1cb3; 0x852dc685228a368886ea99b1e83e8b3ec75db0c4d2448501a43ff428c25c453; 0x3a0fc7dcdd7274135690bdeb2816f3ad99b51f5e1919264a91c8f9589d40650; 0x1d2c6f4c956b4258d2d050fc7d0305d7261af31da2b7d1d2786fdee9504212c; 0x45854b87f2ba8dc27b4b055137eb9db7d4601ad9f7094fbf51a41af464daa2; 0x129bf0505d9979703f9df89369817744633cd3368ad7c4540d8b205eb78e93e; 0x689ec2e2ccce9c66cf5d331042f3b421d9ddb8b83bb393e7a8bbb482400; 0xc13fb1661d1455ef02f1af3ac0b258798343b29f34656c249045d3cb814853; 0xbd88594d6012374cdbeaee3784f07bd4063b146b772b9fc856f40aa5f87666b; 0xe05716a9813188662c4775424f35955a806ffc3dd4fe67d46ea66f2e668ba; 0x321c415b3891a8761cd9519d97749605c0e5b321e14d5b133b5bfb0195a1748; 0xa367d68c52b169c8874d4a6d76032b614f2db66772778abc9d695b1058cfe89; 0x7b15f37f58d046343c3ebdd48fd73de5101f37e8992edba8de9af69b795f872; 0x1db669b64db57241f52c834e9080000e23a2026926b81290041e3c5a0c6bf794; 0xee43ae5c3403c70fb1673725335e0b5ef415747988ec50b9d7de2d322814e31; 0x162c3c11104fe6879d7fdf1817fc660274f73d0fb42b439f79cbb67b571e2d45; 0x15ef886692e01d45c2ec36bf64535826eecbbc66367db38df5801d92da19de; 0x2963e5e644fb2928eba02802c16fed1d81b7ea0306e5f666104520f8ca9146b; 0x2ae89bd242138ca430a5539e3ba97b27f50952f70f90ef836617ec627193fa; 0x60e7ce7ac5bf86ea8ea0ddfb5d3ca08b72cdcf70326937ca3b3578ddf0f6b27; 0xbddfaebaa881c77e0eaeb61abbac9da729a80c3af2bf67fa3fa4e56014d8450; 0x720ad7c9b727393a3098967fe758477d4a050fa829efaa18fa5306547213acf; 0x20dca579a0161497c3e434a2d819c9816c82722847bce65538e6ecb01b7971; 0x125175eb9f989786c800d209fc25126addbddd9d47cca17c46283c423f14d73; 0x92a367c83e9e2bc5a0408bec5225fd8ba1ca6c9a050e1d1156e55e8d5ca140b; 0xd27e8f10ceb9e1e158a136f9d9132b519a99fc2f4199e4147594c05d65d33d7; 0x28d021edadb524ca39de739e1f1011b84bf888c5ecf15b3a72f71913cf664d7; 0x83b47da1487612d171ae980011a3183901f0fddf7e30733a51c83b78070569; 0x166c60cf4f19d7a1d6dfb46e753652fac6b429c2c13b6d18ea37fcd8c559eed8; 0x9e8b01aa778a551bd222b05054aabc1343956c27116be002bc3ec461bb7f16e; 0xaa683997b0a263dd0811f611a469eacb51818f6bb7d39ac79e16b0c66afe3ec; 0x1681ade699a5f737db0ffefa2e1d6685f00e00ef17975b9aa68a9b131d2ecfc; 0x5651bde9427c2b5f5dcdaa09d4731c4c70372e5c598569a79cddc07de2c15b4; 0x1000000000000000000000000000000014def9dea2f79cd65812631a5cf5d3eb], [0x0; 0x0; 0x0; 0x0; 0x0; 0x0; 0x0; 0x3fffffffffffffffff; 0xffffffffffffff5908310ae84319687a4ee882c58a7e4254486353252b439b8; 0x42af92d4c08362210062fb00c6d4fa8001a8ba6e859499a336b7f96123d9260; 0x9dc87fe171ffce772f62f5764d0eaa75a6a7caecb80c3daaeadbb8618d1ce4d; 0x15a9803aa0d6d6c54be76ff0c0858cfd41f7ed53b0971334cc668f5d61dfc019; 0x1be2910204742639347c2d99a4b45933dc80d96241d55cf6e15fea253214c; 0xe3d4e68bcbf95b8509f4e8c6c67cd6c762a1eb62f555655bf34fab167521110; 0x8e0de0a1b6e682cab3acb46cdd406c2fa187d7c230f2c8b69472b2aaff45c64; 0x44c7038d653a3ba2feba311690e3e617efdaa35c8f98095f21962488bb631f; 0xc0be1c8b321fced7650fda0f0d9e625bca02b012287597b961eee1c925be34; 0x3f6ef8d068a20617284c69738cdce6a39e6b6da545214ce9fedac5c7ccd9c3c; 0x1f061e1e651426a7ec1434a854aae067fe791738667eaf43713911d15dd41645; 0xaa9d4464e7bae26749ad8fc0c94117a16e105b162f9b85da8efe8cf00109d13; 0xe2e3bbb020775cad6431b0370fae8d850049672a2d37efa14e8055b66cedaaf; 0x41920aad102d74081c08504cb60c15768748b1e3f21b354a3cc9b120912f025; 0xae3c15ebb1fea704b95f1e396ca77a687ccecb47ead0ad20b56b093cc3ad5b3; 0x6c23ce7654e0290ca92925e186aafbeb2dbbb02fd94ab82c59093fa31c69c9; 0x43dd519e58913d497d9e4d67e0bd269286c59217103f317db910878ccf1a025; 0x6650888661fba60ae1a413ad4ff34c6c4f1941d2c6c4debe7a388f109846514; 0x151cc923cf6b678354d44bda1ac7ba190100ea1259a1318504a1cfbe14cd6afe; 0x13dce289a5cc774b5d938af2d83a5959e0e305680a5ec569d15d3bddc74f5d5; 0x15fade8c03db30e8a6d72e505252d182c4df9f3ef51dbe30dc05560ac1dc6e7; 0x27073a6498ade16b2840d45fd0fd038b9a813d06711e5d35a7454f80954ed4; 0x658648e6752bc61a9e08ccdd75d725effab188fcacc52a2a17781e5bfabcc2; 0x1436d5014fe6349a15b0682872af4dd89f12de79777350dd96f1d988c7936d3; 0x1a4e78164ebabda6c90c3f56802bb4e9f13964131a25ef8c64cf9f9dd87aae0c; 0xc73c357d56a4dba6b75a95055d0bea12aa08efcd19dc4c111aaf8049d3db270; 0x160232dd98ce72230fa12da41db007812b21abd5812a107b1bcd7fe97a91829; 0x82bd50b318c4d7ff5ae23f8fd87dc53d9cedbcf6306fd302e2a00777c5f1e6c; 0x72fded70ba3eb5de8d1191a2368f4b6fdeb4a01343d7067e833c6b482c496fc; 0xbaba5903ed78bb8bfb71b327fad8f37ca0ed761ba72c37b32f671f4bd4bf498; 0x38600efd7448d4f91d72f4959cc9455cd5fb81222a642e61bc4d60c665e9685; 0x91d7b1ba02c10143b09a4878e2a3e5f631bf07ac0fb56f1e7ba1d3443d5c44; 0x13ca834c076b70e719223e4cf4a843b08f736539655fc55e3331551a2909c948; 0xfaae132a55b5b93a39a82046d862dd20bcc2fb6c5612019eba7b59b94c43821; 0x37b5ccf58a5db1269ce507ddb2d28fdf7960d2e8a87d91bff5049a2f49313fb; 0xedb27439123ee5d28757323472f18a08761a7bfaa9b02eb40d5c437550fd4; 0x19c82e62cf8bcead57b4a40f6c22210604bcc4a79baca747f7d53364612c29c; 0x1dbe2f8d350197d271f109a76d2040a2965b2f2ce820002f3575e951a5e0d23d; 0x17530a0611b093081f7fbc42ab2cee701ba4fe61df0ae4c6706a1c2e6db03d99; 0x2e92bc175ce41abe14201bb3d85d77dfe42c5091e0bc25e2f4a8d851c06a170; 0x28b22498e1695ebe9f4b847b9bbc69c484d486ff909f9522359b54d6102c338; 0x816cd8509c6375f3b9b482f5fa4e55cd99ba6b0ce1f4a6d7505b8ed5365d468; 0xdbee15c574f773fa47e3098cb548fbe8560a1418b443c18ffa7f31743227dad; 0xbfde2c6c6b77ab25b6ec4aa2402f5569a2b9c72f3dd7152d7bccc26ba44689; 0xae8362faff191ae0f2696c447cdde4f28d3bc21545bf89600237d04858ade14; 0x97d58b83f6627be4b5eed6b3d52b5e9665b958268c7d088b856e62a36a8aabf; 0x6ff64030e6a6d51af9af0c5d7a649f24dcb40655dd0d4054baba72f64dabb4; 0x180e64a6000cfe666b68c38e23d3272bcf13cc65e61b4b3c8e7b83e88bc7acd2; 0x840786292d8a193b3a6b03610149d7d28e2a34041cfe33850d37bef0aec0182; 0xe46abf4412f91e0de30febdabd6137e5be1ecfb5e70d73ebd23998bdadb3899; 0x9c56ec748848af0a92985e50e442fda754c40d1eee5c5818449646f5c76b2e3; 0xb292cebfa154a425de908d1e7d1c41a2df21c5be4d13e21c7732876500c43; 0x214a442a212e576744135477b078293626e42e073a66bfa6b7ba0ef6e691ad7; 0x31f443eb60333b3a49974d5c2437697c6b1f7d6ee7a1a2d5f8c48f054705806; 0x25dd52bf25127d4a98cc615b6fd123e0334cf71c27a8045d4f9f002d849e661; 0x1ba28b6d818c9c3bf997a9c01423d2251c561509704ca24e227e1c2d193f5ddf; 0xd8638af1d5b1726abf4e19b64a9730b5d0e3fcc30ade5cc979002934f9a7369; 0x25556c5b0cef080185f2b228da44db3c03252f7101da049b7a6c25c0b847052; 0x141e1c30e07b8fef9dc5421c99bc6cadc809bef1d7e5d2e8257d4cfd6f54f207; 0x4ad6573c3e5e5109e24dea9fd72f54f341f6403b37a99de4d096a5a53d84af5; 0x34158b71cb41107b9b1b09f07ad2c65a0122bbb9e6d677bbd97c4f5a9d1640d; 0xd46167a740aa630f7434bf9614812f1e4cd039c8db4b568236321863b14e352; 0x2b3bb00feaf76acdd94e806abc864c5fa616b801cc9eaf1913c4134d394b33; 0x3bc9e0a23f2a3b1d2fc427ee1c03118cb15a54f19185b6f156b3369ecb2ac68; 0x52c098c619e120d70e33a07fea3b63a702d17675f828cd7c6625c01495cc4b6; 0x3e62c7d79767251b7e91bdecbabfce8180c61fb3c1905e61c5f96cde6186693; 0xea85cfa265eac2eea77c783c56647555dabef5df05f33bde918619a5083fbb; 0x588686458b9dc3b0dca93660d3750663c394b1ce47caea624efc7cdc0c98ad; 0x1e27e5fa4c9ba31705df87ef73385e7ee4db4161c9b4d2be520fae9fc3472280; 0x11c73e9e686b396e983affab7c6d2ecffc37d7d7d6d111dea6e2146773dce9a; 0x5a7a64a6cf085498dffaafe3aef8656a3ab120a041410be3799a6f3abc901f4; 0x8e298a8c96dda4393d83fc37d291bbb82ff82b6f2a67856bb8c01776b2262b; 0x1972c50125e1ddbab0e037a4a08e7ffe06d24a6c150d04a0bc4b4dbb78631da0; 0x679ebbca4ba32885fe721507bcc8ddc95e2c43a1adbc0d5ec3b03b47c0ab8f7; 0x319868166d6b3f158c12d0e2b1928b96d1f94a7838dc2ea17cf588b8d40483; 0xbb9091ffb50e915022aff089bb2652d615b5db942d4316cc2b258d85775e27d; 0x25828d7b815d302f0ce1c8a091baebae6ef48bcb83c47f14b77aa9edc30a995; 0x984102bb62b69c5f2da85f277806b2a597d715c4452ae0f81e9c066fc4a7ba9; 0xd0906ea81515e2ff3b23624a7a98a5a8349bbc0533f0f8f4e63d1605c450f51; 0x1cd48d7a744dfd7c762e3064fa8ea412395b71b451d98d2454811170569e0ceb; 0x429f22572424b3bba06746c718e7f1a3f39b117282e3faca131d401ef903152; 0x2ac6fc54b940d9e21ca1a766983a1bd3c3d8ed1b397c76d9b55aa2013998e6a; 0x904fa9f1b6214ea9f35e56536331c2ddd2593fc46d477d044b5d55afd06f38b; 0xf0da40e060b9d43fb6406c8a84234cdc028af7ef0f183c058646f641f82113b; 0x8af2778b92fb3578d9d2711603085c7509d9fd7efd8e5c92ab4652104b905c; 0xc698bed83f8c3ba99532ba2061f4e049280c6b07412372f57325e3c74c0d092; 0x4fbd301600c46f078d0d0d1242bf5af2ebb82a33bc7362a3c39bf779c285dd8; 0x65bde4b62192da033b5e8541ebece4a86d8f4f66a8a1e54e9577ef27b9e8044; 0x257797236adc0cc193c28d53df42728d1623a9a8dbcf01e8ad274dbc991e08b; 0xa87955e05f8ca182ab055a6351698fe1fbafcdbd24bb9bf2058dd9f88867bb1; 0x4b370f51ae99328ec88b37ff6a7d9f71168e53d76eae66949decf70df21f; 0x7401c3eb3c6ae17c1af73266ad4365f5f87aa44a0cd71ac1bb9ea75158f95e; 0xbf53e05e347093ac5a1509ca5538d0144ec3cce2d1d309845e4ef9777e3c; 0x3b89274c06718f1ae87c118549b31dae24fb4281101fab9c68a29e6fea22273; 0x5de67688d41b89681ec30f85aa4cbecd662398467fbface351deb035313dc73; 0x405ce378c33bf8f8af196cc522f0206c3194895be1b0924d865291d7b9b; 0x2bf311227b4fb241c05cea0480f012ae18229054f5d8b271c985ae4c6477a; 0xcc952d5031b4a1b3fb7f743cebec1a6c49be2ad6772b8689410397425bb7b06; 0x809b5a167b2b83da917758e80d9df266d864f86af5e8951c41909e336e196c2; 0x12322d822ba77e47752c194f1ef75a58521a844fd638e62fa9a62cbcaaa8757e; 0x57c3a9ea962bfc8b792495d8d24210105b45d29aa5883fe526c9cd7491274bb; 0x2c35bb9fb0d22278b828504d50436322b0531a6a0741278a2c428dba1da93ce; 0x3e0f9353fc3c9bb5cae7183849e7eb74fbf7df713f6485563d9f16844f1cd92; 0x6630d0c320329c4e5a0f581bcb7e64f855d441df7ce492bc957285dcd76952c; 0xa799dd034f77ee983fbcd43c06107bb7d9d503fb5c50e11bfe685f2e92b79; 0x447d63db5cadc3422daf3b674e9eaccc9ddae2a0bddf9b8c46709293d644b00]))]).
  - exact (Forall_cons _ prime_c8 (Forall_nil _)).
  - vm_compute. reflexivity.
  - vm_compute. reflexivity.
Qed.
