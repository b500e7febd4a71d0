(** * OrderRBls.v — the order r of the BLS12-381 groups has no prime divisor below 2^66 (half of a Pocklington certificate, checked
    here).  Used only to show that the hypotheses of some theorems are met by the standard generator of G2. *)
From Coq Require Import ZArith Znumtheory List Bool Lia.
From Verif Require Import PrimeTheory.
Import ListNotations.
Open Scope Z_scope.
Lemma prime_359 : prime 359.
Proof. apply trial_ok. vm_compute. reflexivity. Qed.
Lemma prime_c1 : prime 110573.
Proof.
  apply (pocklington _ [(359, (2, [0x0; 0x0; 0x0; 0x25e; 0x2d9b5; 0x2ad54; 0x5a1; 0x8f4; 0x296ae; 0x387b; 0x119b8; 0x73f3; 0x254; 0x1398; 0xd2e4; 0x1afeb], [0x0; 0x0; 0x0; 0x4; 0xed84; 0x11b51; 0x1a274; 0x2bb4]))]).
  - exact (Forall_cons _ prime_359 (Forall_nil _)).
  - vm_compute. reflexivity.
  - vm_compute. reflexivity.
Qed.
Lemma prime_c2 : prime 2653753.
Proof.
  apply (pocklington _ [(110573, (2, [0x0; 0x0; 0x0; 0x0; 0x65273; 0x302a0; 0x3efd7e; 0x25feb7; 0x247db1; 0x159487; 0x6cdff; 0xfa4d6; 0x1c9bef; 0x66291; 0x25031c; 0x97329; 0x2dec2d; 0xa1874; 0x37f2c; 0x287e37; 0x0], [0x0; 0x0; 0x0; 0x6]))]).
  - exact (Forall_cons _ prime_c1 (Forall_nil _)).
  - vm_compute. reflexivity.
  - vm_compute. reflexivity.
Qed.
Lemma prime_c3 : prime 63690073.
Proof.
  apply (pocklington _ [(2653753, (2, [0x0; 0x0; 0x0; 0x10; 0x2ccdbc1; 0x25c77e3; 0x5d7590; 0x2d2a04c; 0x576c660; 0x5cdaefd; 0x1da145; 0x19d14b3; 0x2974d9d; 0x2022fe; 0x4075394; 0x68f11f; 0x375f6e; 0x3ecbf7; 0xadf2; 0x21cf046; 0x66c4e94; 0x6798937; 0x0; 0x0; 0x0], [0x0; 0x0; 0x0; 0x0]))]).
  - exact (Forall_cons _ prime_c2 (Forall_nil _)).
  - vm_compute. reflexivity.
  - vm_compute. reflexivity.
Qed.
Lemma prime_c4 : prime 254760293.
Proof.
  apply (pocklington _ [(63690073, (2, [0x0; 0x0; 0x0; 0x4; 0xb336ee; 0xbe2d32a; 0x102b619; 0x1087fc5d; 0x1803c930; 0xb007146; 0x7b280ae; 0x42a65a8; 0xf676cf7; 0x497a822; 0xbb92145; 0x53c5c9; 0x455bc6d; 0x5948288; 0xa3b5bac; 0x99c785b; 0xf758105; 0xdec4810; 0x5b99fbe; 0x29f0e6e; 0x170d50ca; 0x85ee580; 0xf2f5563], [0x0; 0x0]))]).
  - exact (Forall_cons _ prime_c3 (Forall_nil _)).
  - vm_compute. reflexivity.
  - vm_compute. reflexivity.
Qed.
Lemma prime_449 : prime 449.
Proof. apply trial_ok. vm_compute. reflexivity. Qed.
Lemma prime_97 : prime 97.
Proof. apply trial_ok. vm_compute. reflexivity. Qed.
Lemma prime_c7 : prime 609743.
Proof.
  apply (pocklington _ [(449, (2, [0x0; 0x0; 0x0; 0x0; 0x3707c; 0x4e546; 0x7ffba; 0xa7f72; 0x71d8c; 0x5f6f7; 0x115d3f; 0x17b69; 0x242; 0x282; 0x48df0; 0x6; 0x124dcc; 0x5b1; 0x0], [0x0; 0x0; 0x0; 0x3; 0x1cbde; 0x6b74; 0x42bbe; 0xa1d6c; 0x2fee7; 0xe305]));
    (97, (2, [0x0; 0x0; 0x0; 0x0; 0x3707c; 0x4e546; 0x7ffba; 0xa7f72; 0x71d8c; 0x5f6f7; 0x115d3f; 0x17b69; 0x242; 0x282; 0x48df0; 0x6; 0x124dcc; 0x5b1; 0x0], [0x0; 0x0; 0x0; 0x1b; 0x4f089; 0x53c3; 0x6b214; 0x171b5; 0x6b1fe; 0x85f15; 0x19b8; 0x4964d]))]).
  - exact (Forall_cons _ prime_449 (Forall_cons _ prime_97 (Forall_nil _))).
  - vm_compute. reflexivity.
  - vm_compute. reflexivity.
Qed.
Lemma prime_c8 : prime 52437899.
Proof.
  apply (pocklington _ [(609743, (2, [0x0; 0x0; 0x0; 0x0; 0x1479f86; 0x18de8a; 0x17a35d1; 0x101a0f3; 0x84bf4; 0x66e218; 0x1470756; 0x5a31336; 0x1f13417; 0xe32e03; 0xa21c2; 0xb07fd; 0xd024d; 0x1665335; 0x2d3c0f0; 0x5f5290; 0x140c0ac; 0x428e957; 0x12b7c; 0x169db78; 0x3202389], [0x0; 0x0; 0x0; 0x0; 0x28f3f; 0x1dcea]))]).
  - exact (Forall_cons _ prime_c7 (Forall_nil _)).
  - vm_compute. reflexivity.
  - vm_compute. reflexivity.
Qed.
Lemma prime_18329 : prime 18329.
Proof. apply trial_ok. vm_compute. reflexivity. Qed.
Lemma prime_c10 : prime 2529403.
Proof.
  apply (pocklington _ [(18329, (2, [0x0; 0x0; 0x0; 0x0; 0x1a881; 0x1bb6; 0x19c220; 0xfecb0; 0x102dcc; 0x303793; 0x173fb7; 0x176db9; 0x108710; 0x1c1202; 0x11919b; 0x272d1; 0x210; 0x47d6c; 0x6ea9c; 0x68f12; 0x269879], [0x0; 0x0; 0x0; 0x0; 0x1a88; 0x5314; 0x15e52a]))]).
  - exact (Forall_cons _ prime_18329 (Forall_nil _)).
  - vm_compute. reflexivity.
  - vm_compute. reflexivity.
Qed.
(** a^(N-1) = 1 and for each listed factor f with m = (N-1)/f and b = a^m, (b-1) u = 1 + k N *)
Definition half_check (N a : Z) (hP : list Z) (l : list (Z * ((Z * list Z) * (Z * (Z * Z))))) : bool :=
  (1 <? N) && (pow_h a (N - 1) N hP =? 1) &&
  forallb (fun x => let '(f, ((m, h), (b, (u, k)))) := x in (pow_h a m N h =? b) && (m * f =? N - 1) && (0 <=? m) && ((b - 1) * u - k * N =? 1)) l.
Theorem half_pocklington : forall N a hP l q, Forall prime (map fst l) -> no_dup (map fst l) = true -> half_check N a hP l = true -> prime q -> (q | N) -> (prod (map fst l) | q - 1).
Proof.
  intros N a hP l r P D C Hr Dr. apply no_dup_ok in D. unfold half_check in C. apply andb_true_iff in C as [C C3]. apply andb_true_iff in C as [C1 C2]. apply Z.ltb_lt in C1. apply Z.eqb_eq in C2.
  apply distinct_primes_prod; [exact P|exact D|].
  apply Forall_forall. intros f I. apply in_map_iff in I as ([f' [[m h] [b [u k]]]] & <- & I). cbn [fst]. rewrite forallb_forall in C3. specialize (C3 _ I). cbv beta iota zeta in C3.
  apply andb_true_iff in C3 as [C3 E4]. apply andb_true_iff in C3 as [C3 E2]. apply andb_true_iff in C3 as [E0 E1]. apply Z.eqb_eq in E0, E1, E4. apply Z.leb_le in E2.
  assert (Pf : prime f') by (rewrite Forall_forall in P; apply P; apply in_map_iff; eexists; split; [|exact I]; reflexivity). pose proof (prime_ge2 f' Pf).
  assert (Em : (N - 1) / f' = m) by (rewrite <- E1; apply Z.div_mul; lia).
  pose proof (pow_h_ok a m N h ltac:(lia) E2) as Eb. rewrite E0 in Eb. clear E0.
  apply (pock_factor N f' a r); auto.
  - exists m. symmetry. exact E1.
  - rewrite <- (pow_h_ok a (N - 1) N hP) by lia. rewrite C2. apply Z.mod_small. lia.
  - rewrite Em. assert (G : Z.gcd (b - 1) N = 1).
    { apply Z.bezout_1_gcd. exists u, (- k). transitivity ((b - 1) * u - k * N); [ring | exact E4]. }
    transitivity (Z.gcd (b - 1) N); [| exact G]. rewrite (Z.gcd_comm (a ^ _ - 1) N), (Z.gcd_comm (b - 1) N). rewrite <- (Z.gcd_mod (a ^ m - 1) N), <- (Z.gcd_mod (b - 1) N) by lia. rewrite <- (Zminus_mod_idemp_l (a ^ _)). rewrite <- Eb. rewrite Zminus_mod_idemp_l. reflexivity.
Qed.
Lemma r_divisors : forall q, prime q -> (q | 0x73eda753299d7d483339d80809a1d80553bda402fffe5bfeffffffff00000001) -> (254760293 * (52437899 * (2529403 * 1)) | q - 1).
Proof.
  intros q Hq Dq. apply (half_pocklington _ 2 [0x0; 0x0; 0x0; 0x0; 0x0; 0x0; 0x0; 0x11aa84a76ff6f1bbe1c5aee5b83f04769b2821f5a5f25d6b8a139; 0x7e61867b3a0514fbddf97c1529e73da8d0be73580e99e5fc7830bebf21a40fa4; 0x571e506750de93e7da61080c539b1200026d850b3588fa56fef34f966fb2ea0d; 0x5be6b0a2935e8a5eb3e84326768c7841463312a406d232c608aaa0a093f3d231; 0x14b78d38b33072229b3e76d2920022de1cb39858f0459370c44fb2fc288e0028; 0x436a5a464874ed47aaafc4abb0df09ec1bf18d204333921755e07d6c5d76e379; 0x350e7d8e769f5ebf743f7ddc54b8e4c31f115e5515d688c1de7d33f147eb0f04; 0xf6b6c860f2a8faadb9623cd4366a7e7e78b63a8d5da6b13a3d9fbf9c8d591d; 0x11c26de2c2dd166c0b4143a7e1846c97f4301dfab2fd501fe4672315a4f3a55; 0x54d560f6162cc4197d504300fbafe92f4fcc168b20e187a8462c4288dc14cf46; 0x4a32e0fd8a66ad2920c95cc001e626af8db486499a325043a7a43db29c44cf8d; 0x70b86e18f750e10bc303a91e21e3d2b1a726a53adca64132c4c6484534d2350; 0x69f945721dd2e7ac81143b184073cefe23af6218a109c573c3d0b1aeb3acbbda; 0x177a5433e4a4801a2a2c7aa7b073d1f9706559bd16892638f14d89615a4b9377; 0xf7d55be84daf020d0b953f5ba2629d874fa4b3e4050178bb682debbe6d0196c; 0x1e26d35dfcee68907ba4aaefd52a8d3d50715fa192f53eaae6d5c9496313f13; 0xd233380b5dfaef90880a4d427986b89d3955f0b6883d066f86a17cc9ee41a1b1; 0x10a0a6d3dc2346c1d730e3ae9b155f1e173f1fe457c9880fa6a84ee20d1b579c; 0x4ccdbb25633a4249d9a91bef4264c7eb0a134ceea5e17e05181577bda925f3b1; 0x456a7eb1951ceaaaf39a7bffe69573053393d48a289ca286452e36710c6cb691; 0xe61370df93bf2256bda317d33bc8f659800b63dec254783fb3e54ba837340f; 0x60fd52ecf1638ca97d10624539624252d5f323e53ae12cfcad46c949ab42b455; 0x1ae22bf5c8937a9c942464732ba277c5af56357ead68e922ce4fdf8fd50a13; 0x47dc8701f14b23e5c9c7c31b46d1d59b7ed3a105fc5a5d8b92183ba1e8c8277; 0x5780968da10d28843e209a9a54418350cab94e2b4b5e884310a12639b485f23; 0xaaf64c55be1a04db3b3a2890ba9fdb5592a3393531c75f6cace76d881b0bc67f; 0x11af806223853ffa2f6ffef3052475e36bca93dde3db56d7a6854abba827f0f9; 0x32d7034c4c4ac822be063cb57e961fab39a231297baf39182e68032c4fdcde66; 0x5cb10f49aca5b04f13eb6a3a22d713b329919d77c238edddcc30cb2785470dda; 0x14fbc429970ad55c2327a8434d97d9a60ecca0257fed40c448877e7c82bc6526; 0x265ae7848c31800cd3560556d729fd6c469bb79910f04d9ace65dda783cb58a2; 0x1bd23dbd0006fc50c4c5ffea0d534c2d6c6703c3b12a319f2013fa15fe4358f; 0x1eff5caf7cde7ec774c1c9faf3fc056c73da2456ef36c9516755b9fd8595b419; 0x2cb00ba0e0e44a3ae04da60d341db0b4b2808f34c151b70dc2bedbcf4441e064; 0x5559636cf8391ae78b02f7d92f05b8f0d929e3496799bd1ed26f8552d6ab430e; 0x14d7a722a0ae3f2640a322e4708b0c6ac1e4e83401b6765d46e10361598b12dd; 0x8e56dd29f668ea6b2422a89e5b929bcbba86bbc85a2afe0cb790b39277607fa; 0x312990d74fd206b812f4057ac01beebf0c81c56539791d401978b8abea3c0971; 0x69f37fa125061c508d1209c5d7a770fe29755439c03eaaca7e397783d0388a2f; 0x1d6c76856cf2450a4634253059acb1df2d7f085138f80253a89b811f88b955b5; 0x201ce778c08904bc0d07aa6932146a262c990d66b7eeca83739c5f1abba752f; 0x55d3f9e4393cc554f23a8ccab5b4469e9ad8a6b902f165d385aa7ebcec7ed4c1; 0x3a6aa937ae16b4350eaaf544b0cee7b7e04d17443e2ebc9f88620121c798b256; 0x335d765a2640616403a9a06c7fe1565f194ab5e1fe0eed52ea7290473deb9a2; 0x67b1d0db7966b47572a032641f7b34a371b4e1c65cd9cbf944c21a19ed8e8052; 0x1f3e337d8d3763ebcd6be52218d02416790d30ea69445894ba9f3e69ea40905b; 0x7ebe9c39a693c7220e6a39ab7c62d8614bdc0c17efe8115e160b280cdbdb3e17; 0x6e844a312d73b7802efc1f7e1597c3e7ce08792fb2b6c493b549b4ef56a3c0; 0xc6d5362fef60213cf7d2f9b3a35192621825c63f51b53ff174179bc249d94438; 0xe7188fa3150eede61a34dfc85b0c9a4b26c8037f02432652bb72b4af0a0a4e2; 0x3e75c74f6c71e5f635dea1d8f256d713768ea002fedf09bd99a54bba7d066eb5; 0x3740a618f39bd65a18e2302ba59fd9776d8bcb315d11217313e237cf541a6e23; 0x5fc8cdc6bb648e78d68892ac8ab277409b7dce9b697d03cad29fd527fe306cc6; 0x8f4bff20c578a751067008625234e41ac1de3472f10a380a754db4237e338ab; 0xfeab7145ff4b413357b03aed05d015e19a9d580a54d94af32b68e9df42d4d5; 0x71c480fcd9cc4b1e418d486be124a9253987804232509fe8871a07fed67ed18d; 0xad68e6f245e27da5d14a16a95aa17311d93d11eacbb79beaca00e829c7d03b; 0x6f09b672077ce4c92823320ca7bd2ac77f0269e29cc7b68dd8039ffbb8fe0cd3; 0x263c6426aef12592b133f2d4dabce188d0eacd5349a859e6cb4b057c32ef353; 0x538d62faf8020115e93f36542fe936e31ee28fdc012adecb562cb5145d5faf58; 0x2a52ef904f0ce65c63d4b6635aa6d972459bea0bd69ff7fd29e8e9836067e4; 0x4d41d739e701b56b83d222f0ec8e67b97b11e8d9172048a343e259936d543001; 0x3baede9ed3982474e78b42e646e4b40c69afe8102767a3dd1166dcf46b1672d5; 0x19990c6d9ec9785cf5db849062350cd47e7cf250dcb905b6c5b0e0757e6a3ac8; 0xcd23b424215ada185c91e49f78d5044d9f2281e76ae0203651f1c916dc87029; 0xffeb0213ccec233a81246d7885391092082a0bee092a47a4bd402ac9b430057; 0x10af6fd476d47012e0be0585ccb956ff1e52ad6108a985699fbe06c5c9e8757d; 0x23d2d108f5d774b8639a564b0b7514286a6cdd858a49d54c5b1e2cb769770300; 0x6b2f5bd4189cd8e933ef6e1b37525eee965585b2b7bf5bc8713cda90290681a0; 0xae15d886d71f9c095ea2a14eb51d5bc91e04ad54dc076577c5135145b584b32; 0x7a97da78a4136c4035dfeac932ca96fa4c25885daa839660351a7499734b8a2; 0x3b8c6d22fd82ddb340c38a1745e7b16933982c99685be80f9fa7e17fe76e36f8; 0x1a89adc18a96d37f2d04fed781c775c53d29b4163ba7aac3b31ce3b65a4e0bc3; 0x39b4f181c2ea6dc4b831a7798b114f83c695018057705aedceeb58e1a0e7d507; 0xa70c0e4e48101989cb6b3af3b69830974ccd15521e1a67525a911fd0b42b1f0; 0x81cfecba884841c660d5da9aef582a109129794d671c02fb03741ba9dc73f075; 0x4f20f62ce43bea62a52b3642d8203deb7afb310b9e375aa1c524d8358d78dfe1; 0xdd9c3ea37bf3bea57be8d2ae2f5af87ff8665b2152850f1800bd3789fec6648; 0x1f1c4d2bc819730b0d50a83b8825c11cafafe38fabcb9c495d6e9bc5ce302017; 0x517f935470cf5d0119fe12957f0de4fc925ace48a60937dffee893e3e7279a76; 0x586bdd196c1c891affecde4375a0737f6753d0d18c07137f33dbaa43467dc60c; 0x6c475fcf159efd6defa4b58246c1c183a5c5a5ab5c0291923ffe6f781c31ea3; 0x397524dddf2d696340848d9d3584b6ae58836f374e2d251e2a01dfa00e4aab33; 0x2ef60f8e0cd8ddbc980fc806021d3e8d5f39497ce58c2bf0944e2bcb6047ce; 0x23b252906c2a8072e7fee20696e30c02ea2d7f76c7b18c7e20455750b5213f0f; 0x657607b7fd5a91b82aa0f4076e868a0d7b5e63ed1a3678f3c9cd3d5e785dac; 0x6b256b42ba0f4cc851cf40787f91e65f41c8e271536b9071e9e45cd153ea93a; 0x71d710bdb1abe5da5f1b6f7e22351cb28f1028580750a6e1924dc52eab4078f6; 0x73aa73acd4b2d23b73b7357df29a025acede6ed86e80a8dac7320a6075ac07a2; 0x1a1bab162bac6b9a7e1055b01ef09c07ed7d3026795c809836eb5daaa53bd40; 0x5676ee9d549bb198b6972e5019634a2437d63ee21eb1758ec11a293610b5202e; 0x19c2213254b2cecdf69a2bbc0e8444f2597f50097436a7bacd096c53f8e9ccd6; 0xe03f9130692644b64ff72e6d8d222e91fd4b6c28390700ac43e289a79f13b0; 0x28132677f7bd13ea69374027d69850e30ff3b318d882561f8f001211ff4fbd1b; 0xdf8ca28fabb8813211a0b6c8650376eb46d894c7e7f3eddacce6545d6d7d69fb; 0x87ffa5c9b79063f6997ac7bb2ecea8994a20e86225c8857451db1d18f69815d7; 0x19dcc4dbeafffc2509840ae22dac2969b6320b494be50f023e4c5c9952ff3d1f; 0x20affd4f4c478a63c77a00e546918f045a952e686bd2218e3666ce3a1cb362c4; 0x1e01b8131996fc5a4ea6a4ca94ab7864591640706d73eaf448d70dd97bd7c92; 0x3292f58acfb869bc70d4abf7fa483851cbec955863862ef6af24c9e4da6447cb; 0x4a88a5faa87064d484489cae61abb73a6525499a4898666193a597c208a8c31e; 0x183adc92cbf1659c9ab9129ba9a23916264038dc7d16f749b92d3292fb66b53; 0x7d6b7f8db7f630e2dc116bb19171bb1e75e47d0c46b4d6c8740feff9c2d566e; 0x3036d167c60f5f8eedc7c534342a711434bab691a6f0973482c362f6ef410a21; 0x6390437f0118dbfb0cbd0aa9d47ac5fc4375264e3cf6ede9a1e77db2d49e6e6b; 0x7b162cb2cce5b1dfe81cab6be7066503fa028ab4eac779100da5748c506183d; 0xccf7e532a382df180f2eb9cf52bea066fe7801569a8124b3b52fee7ae94b818; 0xde387aff33ac920d40ab72341dbc61fed391a0581dd14a8b30d934f22725b687; 0x3f9ffd4ee630988340af1c4b8e1fabb7aa101d63bed198957f0cc628c0176f82; 0x16d19ed2c125b3f03789f997be1efcce2d3f6dbdf1adee199ef45d1a6df72721; 0x30e624d3af6c7a92aa845d31c06a23566b50eec72a25a9a6e1193dc48bc206b3; 0x412e3d33e2acfdd4ee0282e70e6615e69342bf04e7877ef134e2c035960dc2eb; 0x2e78a4ad547567a13c548cd6d9271b40575046a93dbe486426b1626527a765e8; 0xe7152240e27d4c7a23240b62ec5fc791ec71c0002659febb22646bf0260e643; 0x6ccbc4e06b36ef9499c203208137c8d8279f9c04d1ec01846a57268039b5835b; 0x163ee99a443b65ee581e4c8dc0d7935fa818126f28915aaee23c20a612d3e5b7; 0x64a532a1239344b92a1f825cebd28c1425034d27bef762c43a910efa4ea28721; 0x3d1a747e4da7589a88f29741870f59f62acfba7332c5cdc9f6573f8b59a8e9b6; 0x16a44900245ced1138a81658a86a2aa31d7f4c9b1badc59b31816e834edc18ab; 0xa4198936d017bfcb4be911e07506a9a7bbf5307796983d2894146241ef2065e; 0x83ec4c28f05ee12272a3ba103a6ba659e026f2adc9420936051cf45690a93e2a; 0x366b13306ba508c721e6ec4f291e9608e387b0a3f40fcaaa80b658f1bd0528b1; 0x20d869522f84d894ccab70e62ca7808932dac6d9bb6c587a19bae2e5cc41477d; 0xabc5f5f1194b88ad4f5376a6c8601290e76cde21389e4d346e8564a160adda1; 0x592d0808d0bd36db4300cf9798aa5d04603f0913e43fc5c25502ff782a02fe55; 0x102d44f81a1612fa31a5229f02ad83000ae0e6a010260bf2e43843ce0a1e56f4; 0x72a6a3ccdbc54b464286672170c0c056b4afe74c5f173d2a5579868375f154f6; 0x348f1789586fe85c1891629522075b8fe51fa7922dd7f36d3d05d7d5524c499; 0x4a77af2f6d8049070bc3577890c7e8414fb3d1d00a604367dacabff3815b7235; 0xfc27e813957aa50f1cd6a4e77963f7b83d0ace14dc31dfa47d613500aa5071e; 0x51cf61de58fa761095015b0098674f5912e3a496e2cb28907cceaa08d4a1e552; 0x2a5bab1ab64bf792fdd4dd3f2fa4909ad4d5cc6ad760640053a82c25fb5f8426; 0xa991fbe0d111ada936c137f1306b4425096b83ca6f82f01f432e9b7420896b10; 0x589d017ca261b5513d569b57f5673b572475e8fbdca90804def6bbc3eab4b49; 0x39b4247d3d0578ea64e8a5343c19e49566d6a8f46e8aa33894c295cfd4db1274; 0xd736f0d0117e05eb731e62eb58be919f469e3ba1ac320064feaa156ba791dbbe; 0x210794bb4077539c0456d0f7672955c775974d1beb95e0e168a0bada31ec02df; 0x6ec2f55bb80d768f2b87fd8f4e490cd85ede7416f0b2df283d313ab7787c39da; 0x144f3c17b5054f46a71b5f52237457d88de47ff07b4461773bf621c2a04b931e; 0x4b759d0455bac8546f849b0c0b2cd2b38193dd6128f879170f5f96c24a84814b; 0x576eab8284540dde6712157535dae4a96318b294d16adbefc4ec715fe3773973; 0x3d93ad130919cc451bdd70df5beb12a664dc19d6a3d2431eb9c2989f5a7a6934; 0x623d1b934824f863fe4aa25de49b85158ebccdaaa8dcf1dd921b63765df8874; 0x17ddaf629bfe3df54c4a1842e61428e4f59b6ae02e2d7a0a7d6d0c2db267211; 0x6ed2b6973cb4dbd25bc3ea0f8bcf42815c5e312f72ef1d9a5a0421ec336ce0f0; 0x501a2bb3e9eae409ab2eb0e27931a12615f4b485c2c2aff6dc429d1b464c509a; 0x62f8493b6638b9020f7817584ad4aea20d01604ed3d7b4b5ae9c66207c5e1b10; 0x5145a0862148440334af534d7be6c54b5ff741a71b870c4dc3f13edb269bf87e; 0x4eecf3fa64b495a4eab41c7b8b050699057f426ffff2d678f912d37433f2f37a; 0x1b8e8931041e4c83a34bfff6b3a6e7f5329d5603a6692ea0d7f053282e721d0; 0x131616a2b360cb72184ff6638abdf492a098cc322c3897502f48eff0c7339ea2; 0xc33e57d8dc8ffd0236ffefe92fa0d2585feb7ab7f74df43ef33036fb23e5fc32; 0x175a7873101a6d935396b0f1036ad64c7f42e856cf747b195d8c5a2df7a54706; 0x179166b009c7f06823ec88780082feff1c6e80afbb14292b3e15af4ef718445; 0xa98751f12bca285d58382a7540de791d778756706e017b4dc50c272b77a76566; 0xa7ceff7c029f7b5c2994b4bf31472054925109b964beaa21ca09fc526a223635; 0x3d218a29293d25bd8a14a4c1ce048ebc4d8744c641e6087f095a0bb317d7a29e; 0x272924848f12c85603fca00fcc1d6c32ba1618b7967801adecc1fb5f452f804d; 0xdbcd643141d644931963704fc6bcc3d59a51509cf15d96d05a5003c17450e719; 0xc21a137ab79873a8adb4ab6f3d36697f94390290b957dc836a8ad6251402b20b; 0x67b9d6cdcf920b29a00e5307e4827f9a63bdc3c135578c387ec8e573d0f72cd3; 0x7d5be5f6dda3f0c468550b5200bbe3ee03b47dcc3f58f3b5b69cda591127d8; 0x58190f694be93d159d85c03565a1ce4d559f2910ac72a9556238c6b56fbd8355; 0x7d829ad78f5b8986e20cb4e9544170216ac211c664cb31a4e0856d39fe486a7d; 0x685b8e133f1b778b2a2106cf3556007760a720ef868c88146cf2083cbcec7278; 0x1ecdb8fa1cf3c78197c2e096751e899ea637fac5bc7147785603784df5be2c39; 0x44d3b0ee7f9cb7f43297077a08220963b34cc41cc1807fbfd1e7dc577582a6d9; 0x3fc89580dfe11311b1140b5f8e0fc192e1dfef93dc446bdcbec581302a1913; 0xce7326b3d051e1c9c754ec80814f1add6cbe774443ea9cf51683ab8353ef7230; 0xf899c0a5523bbfdb153a24d54355b7650a0ac56ac15abdf3281d9a7f85d9608; 0xb748c53238e5360c4ab639766aff9c056e628bbee48f0fb8d8bedd2481ee99d1; 0x3a61f4a2bd2a69eb5201553328ad73937052cf408219a680aed51dfcf3929a3b; 0x555453aaadda9f640a6580c49ecdb1617681b3ee5db09573f2803f02cd6a1bb1; 0x496ee38f66d076ed35a4a5d249c9a0f89190859da43ccf077773985163aaf656; 0x44069216084e4cb81bbd59d4f748bbeebf76d226e432d0119a597c48e6deb68f; 0x4abb005c5760cb03bfe3afdcab77ace57c878dbbad11964249038cc91c677aee; 0xf23bf1cf46ba214fb75faedfce6c1545f27551d26b5f35e80f9218abe528610; 0x2b432dbedda9fdbd9b462b01a486b9d0785f8f7ddc6c595e1eec96db1f17ece0; 0x22416ad398736332e0f6ade58d7957db4b6c8f0c02c15493bde5741b637af212; 0x265b4e9f3be9fd5ac30ec096d27048b721ba72159c3b49dfbc364ad3b56a5827; 0x19b6e8dc1597f84ec08880806fa94d9ff91ac42004cb776e6c35047981b02600; 0x91f5edec2a5ad30f1de64e8c78633998098cc51166e46df62785ee8288a9b; 0x19983550183849f1ede615ecf94d300cdc8e7892e42d42e5a42f7c962401025; 0x5320439b1f7c121fc2a395435dffd327b368cee45edec13c65365f8786bcc76e; 0x8fd2eecd2445f38d48c95277954de942ae4935e4a8159601ab593967163f3350; 0x63af8d628dc8a2d5d941174886f48801b76bba143017851db42f0cf2b3e2002; 0xe6e913a8f6fc3722d647802626401eb2c130e6374616d01a68ce0060917af288; 0x6473b6ae0433d9d45ce6ec7e29eae33e03cc6235d43c1b21fa58635354007a7e; 0x4e52d050c6117a4c315c4a75b0d60be36c9c31014abcabf4633c6795412741c5; 0x40667823699aebb1b240e7f78c2c32bf831cf8edb47ea6769550209b73eb1123; 0x3234ccc6d3ab14a57a55b64622e58ec7c20ce2311aeafe7b0c06170f4df6060d; 0x8d2d3a1ad389f2e21b29045428672dff8e2245a71c22e13ba8b86ccce6110125; 0x15aae8f046b4a7dcb4d60635d8c51186d18c061312a1c8fe6654b93c85f3bb4d; 0x88d9e95922343d35b176d81b1239df1485b1d844f08b02a3d9dfca90d8ed9bb9; 0xb2341960fe8a1bc2156328843a54d8d7bc0f01c0c35c0de0e7c490369cb5eca; 0x889a73c30ca054de0042cea4377da672631e7b3cc07037f9017b7e6927f32367; 0x542620bb6979e947e477c3585dec5ae89e31cefdeb453a9d969e67a71895752f; 0x89eb35425c1da43edb119e8d1b86f839eb2b517d45fa78ea689e0632c95ba085; 0xba92200fbe4953503d697ac90393fb79bf7094b9b102f38f81049230944a8e24; 0xcf6c1ec214f9a6920b73bcec8cae7e389c0f861ef8957e589e7bd38827ceff; 0x91126580570c1726604d45acbc9c76c170c18fd0c7d705f73a950561a0a75227; 0xe1d8e95808a9dd151ad9412032de7873b8e14e6d1b124da7d941e49dbdf77de2; 0x292f90227c188b1c42afe72084efb6460e097d2be8a2082e494e24095773f9ef; 0x9c118406f329c87ecd75a753fa9c9356868d187dc238b775fe5fa330510e7e4; 0xf21e5d05504329c05bf5fe4a669e45124ab4aa786f11448c14564456d05c2; 0x52e3844be221f81e0a0b8fe1e5e5e3dc7304e38641ccbd1f17ac49d8e2eb8f55; 0x479af7058ecc1157614964aa9a2593a782b14fd78d4b13fbfd3ad7c7c2e395cf; 0x392d3feaa7659eb77210e8ac82c4da900ffdc3a29e8efbd5ed54c81b983e14c5; 0x89089926fca977be8f129c71830314adb8af635d4c4663bb118d0523eaaee4b2; 0x866f26dab375df99173dd4fe1c2bfaea50e89f7bf784b43c286083ed635e2ed7; 0x74f54f96b4effd372ae488b286d4fea31b2971be31178f5ae840c1ffc1a2b6a2; 0x4f8738c4e469c18d66062a2b0ca25a511e86f3f58898205cd991f82b16299154; 0x186bc8ea422498d50827dd2bf84caecc4acb2f41b1921c199194b88a6ea256f4; 0x369dc02d4172d76ae0e1249f778b2d74a6f69412faea521e3da5c82092bbde7e; 0x1695c4283755983bbcc3bf285d66dc78786cc869729c0d525752ee48e6e5a10; 0x1804b223e03d268b9a4c72bf8f92eb10cee55029190665e11eea37dbd9cd007; 0x27b99bf92190fddc3fa7e35e5d366e4c93f708c7e12efe692bc2ab8ce407f55f; 0x137d54a44d6a9a9d2d82b904e6b26e0a9efa89d27b25e61811e82e705a394108; 0x1df8c58ee24e5fc645be3513f3c10c2d5e9c9e24d89fc35abd095a4591de3663; 0x4be418fe59b4b18dd02f605c47358e8c990d97a724bea6e5e29bb37861b0a8; 0xfccfcd6eae887e4308426fc5d49dbbd56610a24712017228343d0c1080c2098; 0xc99e2902204e1fc79804c22d6fec4abe19614906e496aa5baddc7be99292582; 0x536823e747352b0666deb3d0651df806481ec099babf909a645b70c9b778d56; 0x3717d56fe72445d319f6851e0226940e5d3d76e7dfde841e67470c6b7dc2c9d8; 0x26f3fdc0dd0d2a0af7995779fbe0e25e7446e72ea68ea97a8c728a175e45ecff; 0x3e7e084fc62525f4186518dbbd0387413133aae0b10835d3e3b31061cb56a1cf; 0x304f11d50f8077f5f68c898814ec4441adb53980e9360ec84a9fd4168584da0c; 0x158b385c4ad25f81371f85e9621a1a9028534479ed47bb7bd5eca1bca07808bb; 0x170032417988598ee9fb79cb3d876242a3033a7674a140730c7cdc6da3b88fdb; 0x5332debd92e4e879039297e8b40ff5d8394f5e5830f5d9ea7a322c63f7aa1f66; 0x4c9a0799fa6550973dd432257682aa208188350c313b8cb8fc249da86d809697; 0x5e15ae490d3fab5f8af05c82c95f571a82195f1b56cbf4447d5467e0c0464017; 0x5fa13a3a47ef0de21c4b82c6b8b522cc1c7af72b51abef653698ab04902251ca; 0x11a534151a433b5a7baa85a6d6cc58484bd857bd5430178d6d7c3e4d4eb3fd2a; 0x12b4c953d67afb9fb13c8807aa3a8418232d37c8f8233b62803e995d71ee8fab; 0x4427b8c80e75c59e372e8fcd07efacaaf3e2ca8e9d4a45618b70e48213370b6; 0x169fd9aa90c902fd72a47c449f470c86336ce0fe615ae3c1954362ec1a5f1e52; 0x690556d44fd73497d6a7493fac8022ec04e99122f39ef4c4c658e110adb4e08e; 0x6b20ba7895ff3c0c1a9d5d7ed8c072c21d3f22d8eca4dba3e0379adb746a8df0; 0x3e6bbf7373cbb53747b6642a0b671bd9618adb23cc6c143674f76f78158fac62; 0x32e37b372393396b537da44da4044f0e0cc5dd3f86147801490a36f7818c843; 0x73eda753299d7d4718963e6b1d9bce6427fd47ff13fa0000fffe000000000001; 0x73eda753299d7d483339d80809a1d80553bda402fffe5bfefffffffeffffffff; 0x0; 0x0; 0x0; 0x0] [(254760293, ((0x7a26b4feb2bc9fde20c8df96908edbb3ba7be95fffff22b9300000000, [0x0; 0x0; 0x0; 0x0; 0x0; 0x0; 0x0; 0x2355094edfede377c38b5dcb707e08ed365043eb4be4bad7142737a020c; 0xa25ba0ff98900d7a28979cc5650ff40da8cfb1fd8d7787543012e97ba088e0; 0x31758a2cda3df87a6728e90af5286b7aa9ca45a3f4a4d3e26622d89666f2bfab; 0xfb61d002b94514f26ac74dffd373480d89bcb8b382108a7b9e7bbd13c1584ce; 0x3edc1e371d877e8be231aa774930a52e1b5f659bce8dcf3964e1511efc72b51a; 0x28666f678a9a70a9810ee69c595759a164cef41dd6738aae2787654ab4d9b483; 0x2a7e311004ed0656ec2d92dabef0abf4c125948053ba6c76b735179e9b6e6f49; 0x8b390e4e4b4bb8cf937e9b85f29d3e0ea68f68cf2ee0ac870ef904ad83cfc4c; 0x6b88a329b68e1fd25dc6e0971e6b1bed04839aa8407d85244b6e407b30911230; 0x3b8d472a905494d9aa450e7500d0bc26fb2374df1fc48e2571290f8e93877406; 0x3d2f33afe675ab25ca847174752e0f03086dcfe2e27d9fbf74c2eb9cc99be67e; 0x6c70c667e6d459922a020c554bb6b2dfdc3974059c3fabc25a42b76689ec7; 0x521ae0d51789e5a0d9a4d860dd8e57776f5c54d9f2a9e238c7f800c595728007; 0x1cf05927ed60e81a2aa69ad5a4ed97570611e0696bc242ccd14febd0189b62b4; 0x32ff4c2a5fe6d0e963c1a9aac03f5db5365d76fd698996347d58149db5edbbe3; 0xbaab353a39b575a6f33ca389cbba1207c989534e9a9195c693668d9ed1082a7c; 0x758510714c7c8e857f749c98031fcf54191609757b6bb662baf6add5dfe3dfb4; 0x35f4ede12e7dd59d2ab045fda62dfd51be82414bd83907b4b042e67f8ac29c77; 0x90d2655b08a221701a31103865961e037f1c44a91b71de5669a3cb60d8245ea0; 0xd0827714fecc15b3d2e0906a2581e2004510cd2744add574c924d544ffb41dbf; 0x1e78f0a41a07b3a5a477f038764f243e5e64d1d20e5f0b5006fcd2502ddcd6d4; 0xa48115e5707dd8392b30f48baf598eb9ada767de1cd73dabf73231a28bafaa15; 0x1b9c5849dec394c0d18e46cb587bd33c5a5114be639b2a18c34f199d05edaa19; 0xd69d7df3dcbf6753f707059dba46e6648ad0cada11a827350946043232a2d48b; 0x2d4965db6bfbaa7cd821f46cf8bb5babc3ebc387a16f49721b9ab0898021231c; 0x5a007a5e027cc1d0034e65202e67b86dfae64ad10130943e42b8ac7b708d20e2; 0x97e2bb1c767402aaa5e8d3fbf5f11d089e74db9bb0dee172ca77f0a4721963e; 0x5ecd5fcb03e976adb4700a84ab2184cc7ee17fe728953da7ec387d92e6d9166; 0x1ceb59caabf5587ee2ace60aebd9e7ccfe565c14c07b65746fd119b7c27fe5; 0x1226099eab7f9a6f589e7c16e537cf359d41bec58caf44a1972cc5f1293249d; 0x5271dfa9c0cb9719dd84dcff5c09f8b141d07f3863e6e5cfa032e54f00418a91; 0x17871ac882e4470b020b704542325476e4e0f0e1820555485ead2859dcfb4955; 0x1037e69bcbb176d3cc47b107f074c5f8fbd3b0e3522aa1f41ea6bee4f339e95; 0xd38de4aa2834c34451e80d23268fb0cb10578d724ac9f289db3daa7cd6c7dc61; 0xba9544ac294046dd0e229f0197f3817d8e2e9a7dcb50f362e61379c6f1bf49d9; 0x829bdffbcdf9f67bbc9e64b0f27a1c232b54a47ac573d67cdd6085899a430e2e; 0x3f7ad5a41a3956298dc36fccf3d6a93eef8a64b2c2caf6e26a71157d89ff5360; 0x48a40099601b13d733671d106df5b2cbcf6e494ab0c59062bce5f90e8ace1c9a; 0x69e94db54e823a32b7e7892861f572315ad167d43710ade0efe0daa6a5e78847; 0x828ee2daf91da35ad5b2ddf9803aee22635af5ce0139dd3f1f68a4968e21d69; 0x656be802d40d22fca9c5fcf6a0ca7697c59d2f0515a0449e8a59b8ff8e4cdebc; 0x626e8bd653760649ba08bc598be11a024b9a271e5e358aa6f22097a673753729; 0x2957dda98e37abd5843f7c36e0868721718c2025c2cfc18a1d3d5c1ee38551d6; 0x60a74ef368dc7b0a5d2980d4597462053777f705c8b08390ac8c7ed1722d8556; 0xddc8ad17a13d50e4dfb5a13e7931720283a39f76117bbdb9cb148937924038e1; 0x1499577f63dd0c879de7b9d7effbc6babd0488b9df5307b3874999abb0b71b9; 0x535459c83c790ee4ed2de8293b9d0b618b498d3585c2bfd5f4da9a4f077af014; 0x10bebc14807ad35f6aa5cae8d4dc424f401ab6e83c82d76fa7ef131b473f332; 0x183fe85175b2b166908d4a3c48b6f5f487cf12c180dfae5ba6985ecfdc64c73d; 0x1469bb12c9a6adb2a2718a84a64c7300a267c63cbd6723625c97b3341b0e6299; 0x7dd3cf326752442d00a8cb6834b12c05b5ae1c0b6da4a59f65cab4a738ea7879; 0xdaca4318c9f364ab68545ef321bd641b1a37f886927378ac34b8e892ebc425e6; 0x59d39a894b8bf5cd46939d2400a318f3e839a789b7703b69e0185efaef6cff3d; 0x406d30ae2d088c2ceb47434681daa4b57e859c457cdb27c7369fd728907ac31f; 0x29741916f546f477d470306f609132c55e70e151bae977088ee3b7b132c462bd; 0x5c57894580152623d0f4fc894bdef7df2f58dcebed330472066be72c773a3c; 0x2ee6f26cecc976e46fb76c479927ef6e16f1386cc3acbbe741a9a18f2939ff; 0xd9c3bf12a33991fb18eb9a8c1113b025809262bace4b28faf3c114092b47c8e4; 0x674c1c2486be3d291f2c67df12846f98502ed5b5f43b291cc253a546261d196d; 0x6b9a8ee0f1f38709bc23619adec8404f560b258be213c22ff3270c3901a72064; 0x5f8c32c352b732e63b02be8a438a5fd4fa08931726cde25ddd921a36f487fc70; 0xc6d135fe7f8fdb962c18683be70a24d626c0f3866bf547f73318b3eadc362a4; 0x15fc4bdcc897841db2b99f0a9e31c8b49126890aecf02aabde1488ac220523; 0x560afdc8b3e7812db521576dc4b9ff3e50e0f5370200b7a83877e03c017b7505; 0x26e29f963768c202546d3ba2ab4c9ac3d2be1133568f82987240aab02b6d4d7; 0x2256a207e5e1c4dfde43475df1f23b523dd83b4246a0516b935812bd87f04f8b; 0x301a081bee750065622e6ac09adf9a07460f36ee0116cc402b4a9784f7f609c0; 0x6fdd67c8205dd03efedaa5b2f4d5092b3475a7a5bb6accc3a5d105134a5c1b32; 0x18c351c1263d5688285cf3b1d42b1e38e0e531a0f489b97381d026cddadccf07; 0x10f2b22d45e8cfc088d9fc1131f2d3c4f10ca67924265838983461e9f6277a59; 0x34a2fb33abf0ae988a0bd5b7570894ccade8109a64c2bd0526771f4f76f5950f; 0x581d1e195c70123bf6a111b030933ca0f2bed275ab8779c3ad400d2f8db6ba57; 0xbbdd263ab1d2b7381e324ed3d61686ecfdc619c60cbcfdd8681e474cbe26e2cd; 0x17c00b217ca84362e361c77b0479c127a31f233f64538612111988acda0b7197; 0x6cea3f87fe2e73a3e8d3d4b2030f2ac42553d78a1631576d39f7fb3f18989581; 0x9d2fff457ae924295fcffacdfaba7b7c1b1ff721be89fb0822967f3e2186144; 0xd6fa25b0c7c9087de4b21908c2b1629cbf2d05a0ea3836bd1c7adc0c39e57820; 0xae8717c154f619f66a75810e6588fa5d18d1cc3a8202facb83368ee445255580; 0x13cef36b11063fd81142a4d9cb7c14de7c006c5c47a115dbce7c30d25232a378; 0x4e8af49b41313ed85e1cec2b7eb0775d41f3d7c8fccbab0233645f71f566e491; 0x3950073a5216ea8d608508f3212a665546a435fdb8c48a6e3c4e08ad37bb3d22; 0x277e9db1c14e2a277ba222764fb01629ffafe4424f369e16dae8e177cb767b2a; 0x5bd2db29118bafea0ed7a02aeb237eb3f5040c11a5e084afca0904f423a9881; 0x5afb73e7f5deadc456a1b1293a974482964132e179bc2cc621bebb1012b532d; 0x14d14e19615e35462b2f012b734b74887eeb17be4523f310369d8d7fc1f04112; 0x80e76d1387b099a905ac4a084d2254b9043dd7d8d3625ed1ce620f2db0f8f; 0xcd0dd263f108ad9fdbd227041e492465f3d9a94d79e7bf8bfec5114a2cb7d5e; 0x654f98810383051f16a30b9953a6d67b45baba2a518ea7935e5c7c901baa14a2; 0x36c2feef430c2dfc7150c4a9ae270ba7bf5c7e5e4dedfd508b797579ec456bae; 0x51a477ebfe15d9df85c96f9b0d91e39c4d15051188a3417401e99ddcb3345fef; 0x186891d42b221cc028e006d2eb045b85f18e93ea941b03395fb6ae0c45fa88aa; 0x32b1c691a3e5c511f57c9832243b004cd232912f79b848440ae3c5e2111dfa59; 0x43f82ea4aca82a3ae9108b410dfa813bc036222976c2bbc45b4371d0a77579fd; 0x640491d4b11a7e7799730bb62f9c0276fbb17e4974c23d8358dc7dd79420ce80; 0x5635e46b1652be2ff0abbd0955d7b2c3748e9827ad4f73098a5b63a61061fda; 0x11b4c987cf439008a3090b9e288f9b86456c62c8e4909f809fb2076eedad09f0; 0x3491c2b89e32cb81aa940a35eb58c5740a120c2359d5eb8843456e54c4304e0d; 0x420b0542d56fb87586cbaeb2c8924fd04fe7ec35b6f36cf722e287c482701d76; 0x37178a650ff9db043c7f2072d504143decb96a76ccf2a0a54a859bc3b2d3bd36; 0xbcd89f646991322a6c0d1c87ba0daec43f62c1dc509c2f39e61968d9867399; 0x1928b53e9d24f8a7fe07d9d3f02daf50fade62303ad7947eb43f99938b855771; 0xb4b266dffda4fe86e6835907ced0f815669918970805d753b4b70c5674f2801e; 0x8002350777a40c96e2e28cdf9998b9ed5c8faa2c15f139baf803bd88227c9c6; 0x1182f3f617c6fde428f7e2bb608da928dc1b9947600e0e0e46ceddc146c10f22; 0x1d6389a9eb878b521709403dd9982a207e6b1fcafecbb592a10af3fa163535b0; 0x42a6177663ba4494a9fc4b0f53102a736ecf69434859c7b11c83ffa8a91e0a4e; 0x751fe3284f2bd1f13708e19a065444af3aac3d2355886f5de04da0a2b65c8f14; 0x2b79d5f488a60def88d9d90998a488680a06dff4c327d204efe955669b6f4f3d; 0x2a91108833ec4609e7f050b1b4315de7ef111049363e89f49c897dca4d385ac6; 0x8ceb2267094cf5512456a91eafc8e78c7e19f6fa189518d1b7db61795f99679e; 0xc279a50426887e1476407348c87b8b1a53343398635bc4b409e7b53a8e18a5e3; 0x1d5fc9a2de96e8e8dd503c4d0037b6258302298e4a4de9d8eeb287e8a5eda65; 0x3d3b300a29efa180bf9fa97bbddb974287af93f8edbb99fe850dd7d7ad5657da; 0xe940a348b8beba353eb81378c8bf321d15a289dd7752cd9745305d9c0bd2f74; 0x2b18a8a5402d704d3302c2e25f6ddecf862fc93cd18fd0e2576b6df5d2c2d19; 0x7451f38771f534fdf64900af3d6ae9a7d08599a841ca8efeffc5cc579bd5d1; 0x3e7c32e1026317a9570b7aa8aaf70fae699e9f474f05c0ee21820cf971c782; 0x86e6002f570d9c47bf24029776f8535cff2b132da1213106bbcd2a4008d2f018; 0xa92b538328ed5b05b8f2dfc8b10b5bcd1f37f14f53627b8abc562ef875f42055; 0x3dc005fa107fe360ae4cf10ba247f5303e7df656b156df0dd628c9f639e96a16; 0x3b21a842d91daa6b7a75ade52675190c28fcf41b5d2a03f83d0441b85ead08df; 0xda438669e7ff929b61eb65a7aa3c9d9ab005cca2cdb17e875d20f1b05dd51d0e; 0x712d34f5bb6cc5d3e36dd292fc29111f273fd2208b4bef344c311397facfc988; 0xb8903669ff0b90ba03d79b6f5db2383a09ef2d87bbe054522585784533bbecc6; 0x47283929bcaa19b9bd564e2636123e22eb448b16ec76df3f5fdd87eaf2d543e1; 0xc7de43ed28fdc3ad591fc0984e9b1faaea4a6161d48cfc43e4127587bd3b0b8; 0x6a36dcd54ee562b42f5de351494cf82f6a8bdd6e32f7fc67225fdfc7ff37bb54; 0x58c145463dacf369c1e37c3c238efa65f61bd2ed69eb2a03739d8e44a79bd8c2; 0x89477bb70245d06c93a1f588d078f92ebee595fb176297b4a0406d8166e79b24; 0x6fea35c790f0975c4c422efc87c0f2bd1b37e988c5e90c95da46af6aeb89367b; 0x729bce5c1c1ee71e876cc6570ffb230526e809b281e02d6b67fc0dc3bedb769b; 0x5b0c6daf8d6750843971a7d29dd7404df1012c71fa0ded253cb1db285b9d5; 0x84d8f911b301b331913ce3cffe11a5a17748e336cbdc615cc0eb912969e3940; 0x369f19a702acaec9a36d5b0250ccf2d6894029119079b18062387dec6f275b; 0x6b2067eba6e42169a4f50b6252a9b0e45bea2fadc3a3fc6de5e80765dcdf07e; 0x3ed07d8fcf568e84fe940f855a984fcbab9d21a4c471410cdf4086a5bf754494; 0x67b279d9ac6212ec7fd1de48e13b8643d4998cf855f61669ea7863466592bc9; 0x2315a9c995a9b4acf8df3084685e8df2d74291ab324e3b608b58a6f8c90aa879; 0x3bcbf62499b24d8619d34cefbec40514c17acfe73dea3b44e00fa6cacf64e80e; 0xb99ba68203e53791a3a3afa436fbdb2f92fd494c8381bb3de2ff273f5f03b; 0x4b886ab8c65dd2470831afae44d77370159be5c38f36c89518f277f07b2b665c; 0x19807af75761e586802f39eaf590b89600eb5b79b2105c0c4dff0ad28386126c; 0x6d81f5afdde3a015e7faaf660d6b0b8a0f28b90352ee3563a5f186d959d19d2e; 0x27daa22794e201537df4c770b4604833c683381862c46e4b99e5798b473f1de; 0x1d15bd2268244fe3380736ed94bc57ced1417dec140e4e8edeb1865d4ca04d4c; 0x5049727e36c7e333a55a809ca37f76897987ba2f5ca9e4b5c9ac7763c77b166e; 0x70a21ec8daa664f700b7520914c72c597527838ee0fb1bd012411f3ba9187580; 0xa43672a652dfd2b8cf18fb2078bcd6c17811efea8deb59afc3168e85e2143e; 0x243c8277c550b905698fcd92045eb97c563fa0bf81f5be7fc20925e86046c9c2; 0x1ee38699d172fa1ee229ba5d454c25544b115401c7463d3ffdebac7e71f9b83; 0x46a41515c597b10201af5d39cfcb190817976d2c523b52187ca3d0fdcfa7caf9; 0x8dd1b2d544123a09329d119c6db510de07f4557b70a6b1b3d92e95e6b5ead20d; 0x1ac76bfbad1c100af95af83d92a7a4cb5273ca0544b48d2597b8dcef63109a36; 0x133a8d1800a24f73f45c54e1d3a6ab8fb32ea8120688c7f872b0d2f22cbbf851; 0x2a12f1114c757e6913c13e45c4320388634661f2abb2e6ef7ff52316944355e; 0x742174843b8b2d5595462257566cb43f284d064d103a785c1f641cfdcaa5b627; 0x10fac5a2299529f20f5012680d03de2a2fc301e109944e5d25d4202a4ec91eb1; 0x45a84a2742254c433bf55c3546973d1872e5e516e0030bfd8d606da2d8c66808; 0x648a825df5dc61fe5c8cdab6db3f2dcd390db678163d989e4e64234cb8d7a9d0; 0xa34edc8cb4def6d6422ebb728b0171e842064f8cd42a715bd8850362d4e0384a; 0x779be32196af9aa88d68d62d396324ab37c1573cd2b759b6f5326108f447c09; 0x906fae265a3fe5c3d185f1bef3ae736130ecf594510bfeb18257080e3c1db5e; 0x58bd627745dc58a3536c30f4880d95d8fd0e6f7a2f3f442cce4b80411dac2e7; 0xe2752ab1c552484432c18b7b3347895d0ee67286b5bd0786bea7755e6259d663; 0xc57fc91d2a17822a5e1ed0d2c6ba9bd26fd3454671292ad525bc7714e5664199; 0x5ffeceb440666098d2cf697769da2097b650068fe2821e88aecd6d50fdcd5b2; 0xe0eb67bbf880e50e2f0cf48e4572d4038908e3a4b45d9aecc7eb2514ecd6018; 0x3a913cedc1642ecbe12cd4de2578d38a263269f12deb60f20672360ed37f7a8c; 0x3cd302877eb8af6d6fba769d74e36ff6d5191c1fe381111a4a04da2bfc3a347a; 0x2907110dc35ea23a01008ccc742ccf6ba451c093084106c18b9f3480846dc6e8; 0x11852966565cff3589a459c37f0f74461a637cb0dd57886c2233d741a66af68a; 0x57bf7358b562a78698b72fb6155ee7569db46cd162fd6c389c44a9abc712cd5f; 0x4a92aa894505a3ae0035fc3fca5114141866632b4b22db0c961ca2d5cd2a8aea; 0x62ee015f6d949682b513d5607b5bf4220c7eda2d732938eccc3b0a6fe4e662e7; 0x544ec0866df04665ee02674eb310d0951fe945429434a0d0ee8f5cbe34e366f3; 0x504a8d91ebdb58e11702d16841e114013a2997e0ab84aa355e4ad2155d9ce8ce; 0xf441494debd15c83e82b0c100f5a91941d92b4cbea173f47badc8e9041fcf58; 0xbd787ad5403ea441c9c20b087d541d09d9abc54b2452dcdf79b809fefb4f9ad9; 0x53ef6988f6b216a9b37a85813285806181fd1823adb829f5374fe5eda72814d8; 0x445cc278c4ff4a02e95bccd1e7d876c39173fc80125bc2ccfcc13bc569fceec; 0x2cf8dd21de8f6b2a518a68935d6f26afbc18eee653b841ff7f302c31a036eea1; 0x152e45478b3bff75a2d9912350f1556689b79297f8684076a479658157022972; 0x4a0a7002d0480f376f7431f3e045268451544766e1dd9356d9b3130e8688715; 0x1fc8ed58fab779ac8533cb7687ef108e8758d4f3d89ab1a9ae8f5ca27c9e7bea; 0x83d63abd4d732775b7a862996899ca1c0882c65774a029946bf091d6799ba95; 0x471ef9902c38f9a2f4312e24b11f1f27377316a600e9e021c3db8110a9e77d9; 0xc7ca2e1becdb896061c3c0bb927120b6eda679b9c4fc8d06369bb2778757da59; 0x138b223180796beb1b75634027d65ef50216b13eff05adf4780139bfe1bc8f1; 0x5752bf8d8d838b097789ea321eef8b2d33b40339fd3936f0421c166c7ddc9; 0x311982d07775043eef684968244dab3309effa086c0a4f7dff404bb133038; 0x3d8ab3051ecd6dbb8d9fefc621f9907eb880dbb20f2f84d8d6780bfb8837de10; 0x3c30cb146e4b155618db355ecb598bcfb18195ef4c6e8dcf6ccb2559f3775d07; 0x4a218e2bf54cb1c996cbd2297fd6ea0590944ba8863f015c1926b854c579dd; 0xe34e2766503c84614ed38948309acfd13a776d16ccf08a081e3ec3605fef; 0x49500e4df5c4d6d38019a8c47fcc322271df697409702a7e37d696eab00ddbd3; 0x1908cbd8e341ebb192b08eaf66ea8cb38761a71c423ae9e7d6c1b22be8329951; 0x376022ca187b9ad0b463dccb8fd44ac48848ec412708b31b5fafeb1830ebf03b; 0x130b3ab2d3224323e002e8474ac6d32d43d0ebb5b6036c06fb16c4163f7b24; 0x147fd230427a16b21ac55c3b26f2a57782fd3c9890a3f045763126ecc14c8ff; 0x18865ebd6d48cdc5e96d84aa75b6bb8abe060cad7001c04d2740f41c93f25a41; 0xa831ee14e9a128ccf67f8ab043924fbc64e05dbbae93eba313873d21777e0be; 0x44add42b277c13844b5f11ab73871a71775b2daa21976f71a21811255996eb09; 0xc705e21c0702157f4bedb0a73f1ab70e5b6c196a8f909c5d2b7c75226666a1; 0x63509c697ddb410cc3e3f45ca7cf010479dec8ecfc674535e42adb1c9474d6d2; 0x2255fdc3b2441d94d88407e01d1e90fb06220761aef258aeb3379724ee9346e; 0xbd9ab9d0434f214980b7776477d74177fc2da573b70a334b73222e12bc8972; 0x2fdc3a7d8749218ebd1f471f3da6761da2361eece30276fb4ddaea2b4f5da2f8; 0x39a013ada402936eae78de610c95f5f222619c6b38fbf44b68e77dd3b273b8f9; 0x294c97b679a11214670dc10310d46142b879aa0cff7c106af4038bbad98dda2c; 0x15ce30d2c6eed1c4ecfb2bac1ef456514631fd6b05539ad60b9a2618dce9bbdf; 0xf21583ce4b33e0ac85bc82ed859e611409a9acad8f32f835ddd17b366f7ea1c; 0x426af02ec634b722b18234e48185beafafc7d3db37f0088226bc4bb32bcc4fd5; 0x15c8e7585e23e989aad082aca184f00b7828f615b4b05af8b55f63937e886a3; 0x681f22b6e66329307b148eff4f6ff825619845432f0b7db24709a0861965221f; 0x6085a241cf6b6802e1bd46c440e4febc1fdd676d66ea949e3d37fc7cdff29831; 0x453cb312785545b78033453bbe340ca8a9c6e967a41570227bb53b46e006c7da; 0x64522bc093e355566769aac64c67028428285acccc571f66cc2fbe0adfe23c63; 0x98af8beccf48d4c48d3960d37191c2bac9b659aa3f6d5064968a05457df8d46; 0x18fc8f814dc10e847d65083f9fdf87f13e974143e10d5491ee337e7e7e2dba42]), (0x688e2562fef1c2e29f6f7230fd1a6827456a6bcbef4af71b50c4d515bd25cac2, (0x2e723e55e64f04d85e40b5d8581d642146f56ae8f5d676d57a03f4e038f60e91, 0x29e3c2355a184da0a9239c6d0c737d605452dfcd91f57e6c28f0aa8340f46550))));
    (52437899, ((0x251733863f2196da0733fe157650f6f26ee230ebffbb9a13dd00000000, [0x0; 0x0; 0x0; 0x0; 0x0; 0x0; 0x0; 0x2355094edfe; 0xaeb33b0a2cd63e05ebbd26251f2fdbe92384c0772f8253c0273bd5c4a10046ff; 0x5224e32a3e86100094e3a94bca8ae3cfa6f58f9cb2e1e4bb78b396485ab7fb; 0x4b99edfc93079afbbd4a45b35f1b53aff07b437f7240adc33a9542ef8a14c249; 0x802d8f3301c73ed72b70f6702e3f1b622982042d1c2a563494fda39312d4c91; 0x266f01396b59e93940390eb968e6f2198a5b02fed7997085e214f835ea7c94; 0x1746729784c997c51156e3d7d795cd74637e8e48221cf669e95cf77851d9f82c; 0x177b1bf62b72ec1a2298cb596e9709b355314c8d1315fd01501c1eb1d7280ec2; 0x672cb21769525751a07be1ab0fd5b4fce3d5d2e7f14b441a1fabdc03434ba90; 0xb6f4f1da5da2472a9870f467eb1de8934ccb6acae63d88554525a83ac4fbe56f; 0x2d1675978b68a2d452660e2ae5be471eba5659b083412ea205b616cd4aac563; 0x5e2993cbebafcefca522256ed71dcb63193e39241ca9325ab73cf03b4518d336; 0x4d422a88907e763b2e853a796263a24eaaa682a9a4208783f79e1cbee924f01d; 0x9d614f951307fb93039abf18f58ec08b32192fd7d4862728732fe3d273a872e8; 0x6788efbeadd5ec8499692c334b135346d78b17175157e3d106abea9c754d2cfa; 0x3acf877cfe47f47088cb6dd4a8a8a5d2c1f544ad8a82b8f452122e88f9ed0e39; 0x2252ac94125271489e8e44f14ef4d120b76eb05ce5ae8b7b95fd492c660ef947; 0x5decc24c5d93d7789a3c42886bbdb1823e90dec64da432d0f289740b476cf59; 0x8621efedc4eaa0c16549c72572f43fdf9f79fab42ede090cc7851878ddc7d8d; 0x7252fb88e097659ffaf8619a976994eaea7252353777a127122f06225c6718; 0x25c91fee9fcc3fed41f098919394ad39d72fba16ea8b49f3dc7ac1543b71af35; 0x554b8a42d5d3d470359f0129802dfe31f84cbc7217523274554bfbfea7d4aaf6; 0x203d3018ad1c5ce8374c7de264e1ee405042f8b83dd45463306ec89472ef9b1; 0x5c9bd73f9c52b8a734da6ffbf8bac704e224d5c5d5c36ad96f22fedee4452fbc; 0x51648aed2ef1723ba41dda86db193e32e4bdf9e4dad712c53c5ca5203cb1f208; 0x2c6367fc6c83438357399953bf5e06bda448da01cda0b3486421871c944ad301; 0x824c22d976f185088d78b1ca3c9535113c941012eea94910a4a29b7065c46463; 0x89d93ecb0d5ebfaa1206381a14e6dd33bdab9389087d5b1d6f912faa6b583f3b; 0x26d4bcd8a31fbe85402d4888f1b88f56c5a073dc53527aace294a50919afe24; 0xbc50b789e9dfc5c2b6aa21b47889e424731e9258a9600ab439cd5ddbad12ebb8; 0x23c5ce845d3e0b41c55da32bc14d7b1a0b821c3e74f0849140546d0e3dc10e4c; 0x2bad8d145ef542a0a24cd58e7367946926fa3a624b3cbc89acb0b7ed18d3f9f7; 0xc6d4415b5390026ae7e4a58bd74796219f201bcce06982a2778ba2db1584194; 0x3392d50b0f82cf804dce5c2e856c80421286b1e18e65689498a68a239b75bc7f; 0x3f9742703a2b0aedfd6e53548020e4c1b491e1739091ca737444a3d84cbc17c1; 0x42d20fe9261fd5db997462e420428d4106ddbfd3e9d478df655b096073271998; 0xe65e6454457de82cbff59336cee0fcd8ec16af2ee34de4db3b784329f50506f; 0x6ce5546944d42eb6c7a71864b431f8be2c0a500203618135801265f472a255ed; 0xc9a7f420ecf95ccaf8beec12867b694540c9db95e53d54eeb750f669490c6a1; 0x13496ed4c82a694a324d6ae3a8cff33a10983263c67a57192a77b685bd7d2168; 0x40b436690bc20faf97710c5bad82e46a0aa247404ddb1b3f4204e987322bb6a9; 0x26d7880446c0929a3a718add1a19ffc2687ba1dc9cab215eabf2ef23957fc0e9; 0x1368c1d3a46ba2a1525a1ba7995ab92953f65869ac4f948223bf05235486c30e; 0x4b4b1a5ebb4dc50cf2c2941f82fdaa37df2db75f0256d46c4013ccd159e39d81; 0x9e33b0a6567256217561e57493468c6a4b77c9bbbc126a954143ae6b509ed165; 0x42490a8a17355963dee54db21bbf0438fde9fcda1a0e62ad0b5f756798571dd; 0x1365bac979e3ef53ca27e59541aec290923aa07e86c68a5a526c9cb67087a2bd; 0xb256e659af7620063b0148071b1e2128a7295237e4b65180facece3341acd407; 0x62475cf1865e3cb72ede7089646ab92680a6176b005d2b7cf9f063106b9575cc; 0x3f54c29296cd4d5d06e035e8e0bfcc290c9b5dd651759e4376a7e9cb682b2c39; 0x395184120da88e728522058018fb01239c4319e12a5282e95e1e82227bda3797; 0x375e48e0caaa4f8baf669f55b4c08ae4671e86b651993401d10442085987a47; 0xc27b1b5c28b34571149f022e26812b2af19d7945d14adb430511ade528218ee; 0x31304c96ae0b985772147ed76111349a669282579d4cb218ab1c413f19d9a77; 0xc4a46fab7dcfb799ed0cd83186a545f55b8fdf6a99721c628ed70f06f9a4979; 0x15165b8178d267082898f7810338a03ed3ce1fe185b5650dee9b82a6f22d2ec6; 0xa189561f9564cab8a1aafbc5791a2f3880dc581d9580e489d934aa46b4863e2; 0x6cae20aa54e39f3dfc58009d883f93bf202ec125ef3b0c1a15fe6776a5791015; 0x285c59ccb00bfdd77eee4a3a8c305514e735fcfb9e3cd1751161c6e3cb071993; 0x76d25af87dc6f686a4a0b5f287e19d24bdd326a40b111624ff7ef50177c6b5b3; 0x6f0c6f3a8d82002c01cd92612d3c9fe63e73a4d223340b4b2c08683ad9fc81c3; 0x14143535ee36bb15ed5beaf9c3fd8c6edd70ff2303f09dcc215ba06ec8806b80; 0x1fda2085fd230939210df88ec04411c1bcd6f9fef19c1e801aede078c7b610b; 0x2e3d59b8090555ce153e012cdabd5479f2d70f5a4ce8d9049c2ffe6efa902498; 0xe6e01a3114ce989da322da6769c02dcb7fc7b3bf7a7220dcc3532b9571bb9da; 0x7db3d86ca1b03b333a4f3df8dfab0d42d95dedbc7ceadf3bbaf49765f3a2d8; 0x160f65ed99d504f3edebab07d2a54a015deb7a062c1659de0c82004ea50d2bd5; 0x63268d79ff10aad72eca95a7f03b6889c36380a2feb70cb5c3f1899c004cc316; 0xdfee07499369669e58c899b5314d31b2499c32a30d24637c8432f7578d85fec5; 0xe5a607f0b608d506f4e1939d9c22e5f6a73836193626536d9c3d140f83c1bd49; 0x536ba13f8378601d7a77bd4d9ff8124b359e1d5a569a0d6651d8432332a3ac5; 0x3f1d1e7073f1cc1707eb2fa97d239d6399f8b28b380ab2775adde70c21ecf0ab; 0x9cb5aaba4a15d8f4c092b730222b5a05795909e6b9999acde8bb0a1f00e68991; 0x1ebd70ab863eea8d67bd54f603f160b9d72bf3eb40ffb28b2b67c237004e35ea; 0xd077ef013b5b9dc4f0ac28008cde89f5400e8eb748fa39e0452dca3651376bf1; 0xc0e974048b896bfd0e00a2921a31e10da097acc51c9e05b8ef9501aadab9938d; 0x2c811301b1f5acd91eba6150a3ecafa93b4cdb51f837684717ea80725206b40d; 0x3b7f2e7277053b8f8733441c7e74361a4e5800a1f49064c2c0de769de051450; 0x1ce9c44a76ab63cff9ebb7e913b30002d9df3f1b1c5befc343b721707ba9c; 0x497dae3b3e8740cc0c5c1da41048252995e4b517564c46276ca7a1f335dd80b; 0x159876a62033edf31060180009a2d6d406081b963f6c90185cd2f5077ad1a7b; 0xc178d8f7463d9d482c35bb26f7ca5a63d90b1e084d01acdc8ed3d04ea469789; 0x59337fca13d69d5f2a2c2a9c7a94cf2c95f9a8dda622fcb70f8662a8ffdd6881; 0xa3556b3993dc41a1e814163e24fc81b2f817d9f68beaa84908808cebe2b9217e; 0x31b0f8e537df9a8f9e1ca32d4e4c97399c2748e53d07a9709e29c4e3b9ca7db7; 0xe5ab96f7fb06af7d23bf41685c5a9bbb4dfaa71f85fe9893cfe378fe15a31d58; 0x1a9ed3bb391a9133ddab8a8d5df54d80f508647dcab6aa5c441fc0cfdeeb4b9e; 0x623c1bb069d68d0d2b2161d8fb10cd4f4089813e1125098a5ff781a1c8870f4d; 0x35e817a81d85b90cce29ef524c3010e1aa6a496d6ebfa04197899c6a3a77ba8f; 0x5163ceeccc8c18d52fd13d9a61647832f017cf73ae2de06ce347f951881edf36; 0xf3ad644a47d2ce643206e214502c62f6b443520ac69384868206105764790f; 0xacb8c2febc17f8d7ef34ced2cecfad4048cb65033f6d334e06a68c83d593e978; 0x7ecdfe895387c66269a35abf5dc50cb6da7758457f85aff7b064c3d00d9d04a7; 0x3b8afe4d2e0c00436e57ec18d008e48e3310109613c61eb55f440b7f24b0216d; 0x7938dc5bda62a2a543672c652a1070a854a9f76ce98d04f8ba9cb6610ef6f; 0x473bfba929a955bff5147d7ed2a36f0b399f03d0268027f4cbfe7feb6b8f797a; 0x43785db3a3e34dc94ed9c7f53b5319e3e7eef2ebca37f26ea10fbf41a993fa1d; 0x4aa29f95822c5718624ed82906be9943357a01778039819c1cb9af6bd212f75; 0x6fd0d9b19654f1cd31713bebc9a05657dc65003c7aaa96a353f3f78a1369669f; 0x4544ccf97f8937e8b38feca9062f4491763d2070f7671c995e3e5106b56424f2; 0x17f200cc448bf9f15965c2f9cb71bf0b0f2ed3dd95ab3bd75fee8b780c2ab9; 0x3355257b62df0f94db3a54470c837d49bae127395471c65386cd6268bb70ed3; 0xc65717fd090363bb2dc9d01e5c11222bb17c38542592f74123b7a81e9668f48; 0x1cf07385e5288da618ed1c6c8c9a3901d119b6717a13236b69f70405c56e7637; 0x2674ac38e8c944ad7906f4b5cd776a02656097ec5f4ba3f7c21d9cc4108f20b; 0x862aabf96d046ef11320238d9ad590bf4b904bc7958bc6d77cdf69622b11dca; 0x1607e3ce75d1909e84efbbf49233bcb7345a7935fdaec6e2aedcb4c4c12698bc; 0x81055c667cb9aa8461636643a5c90ebbb89823a57150cffc4d10542ad2175059; 0x5d6f07328ef52403f6e6984737addae4e5b93d551ec594199d97f22b64ef64a2; 0x1fcbe94c64b835d487647fc1ec109ffa968b64345562bfccfd01a734708bfa28; 0xdb58d6535a33745359c7dc242ce3cfc23bd35b184ee35269165d6884db1f4f8; 0x50e8214be020c67ebd4beb20679455427314b4863c5ebc30510ced7d954e1fd3; 0x17b91911b7840b8d449b8ca2e9057e42b8dd2dc862fc7c7f64ee615e70d6adf8; 0x548dac1580752ff0f31f7234aa67af46742a14356e6359a9bd97b1d8d9fdfcf9; 0x52a114c104462938f461d4f35ba43288a829b570efeff5de4a74dc61b72be43a; 0xb9e5818c9c70f81f1decf88581c9f3bef550e5a7b916bc79b9ff448529d6cb1; 0x18a98d2c55b172a95a8d25b0a07103b6372d8da08999f300964671d27ead8de7; 0x31b5d1a4cb053a61363147d6aaec7f52a1c9d58f8c8241e8e9e1b605360427e; 0x4dde562546ac108db8584764cd7e1887a6aa2b63a26a1f8bc5d7c6302aefa69; 0x8e86665c31c6644e1f26bd86fdf0357c2374a01918ed838249b97d37be1a4b9f; 0xbf388e3989593a174f7ea0416cb87dbf606812e0f6b158a916813e3c7ea707fb; 0x3874fcd25a13011781f0b9316da8415b8c1016912d3522b272adfd7561c8704; 0x9183f727170edec3ae13af59a9dd2800bee6b312d2fdde9ab7d2ddbac5710004; 0xaf871a39a629a63df34a4b8818ab9c737010506db5fd79f1b36c6aa73fd5dc2; 0x5422a5d186e91a31f4ce436fc7dcb6e03485acc62940a115e941bdcb55df5c0d; 0xd7f182d4ffdc83a31900c3b8493d17098de334e76ef5ca348334452a9c789; 0x55fa099f60b1b759be7a10065832fa829cc8a0a061dba8612da8449f5ef2f12; 0x701555833db4da8520ac7f6bec1c3c57c6dddbdac97dc71bd980bcef9a3a7799; 0x65a62896b9c4c597457e77480a8b8a165505e328aa3862a237c70b7fcdd1b0f; 0xa529b20b0a4ebe67c3c6941f7f2e99a7d5883fba29c3add7a901ac479f63d90; 0x21b2e719e06bfaa903e0622f74be5d7fe38bdedab3bf7f5db8f5b43e81faf7c6; 0x60fc2014ce52c2ac9fd7cebc4df11b0d2fae1c9791d7bd5c53f74635e13f0497; 0xacfcac843a8b5607c836e13e16b588fad660fc2f1853c0ce1ac7a93ab6368e56; 0x2130fc69b5e5ceb64aebf08c78fc6170f2f992af1511c091709a3363738519f0; 0xc766eaea21d1dda06baf925e67ab01d8fac1284ddb0683bddc76721847cb334; 0xa32df18e0334895a4ddf22828d6aa07223967d70f44d9b595d6cd9097dc3933; 0xba960147021650e09d0b53c31ba909f50e88f08bf89c7f6f770db79df6bb8ebe; 0xa72751219cfe079767e07e42680bea457099482537158e42796bf93014d330a; 0x6d32d0667dcbd363d97b4469941cf6d477c0ccbb5d7f1c0dade254bf175d3d4; 0x645cdefe8800c722dabad802cc3c11e8cab42c724b1b11ea0039a415d18014db; 0x3c41e7c03b4dafc3a0cb531183c7f6cef26b504eb35870a96f736ebe2aee106; 0x2a56be13c0ac1419f9d3aef7454db9c25e545bae3bc10391737079d8b1de186b; 0xe4b79e7db99ca5f6c34dab9adf66b8320951e75274ebe6f13e4b5e80189019cd; 0xa5707ea55a60fe02af81a58a94232d0e968523c51f5d0757f65b817b9a2b1bc2; 0xcca42ef495e9e2950276e0091ef4afb113ff93214a61142a779dc43f5178d480; 0x1c5298e6207d0d55ed268f43b13e9b0a3879121fb2d4fd052791d009199ba313; 0x73bee0f64c83b6350da36580d745c147e77531c7847aa2ca19c7b149e8f18dde; 0x4b10af08adaff09bd3249dd7a5aac9e5b5a48e3ab41db421c4b09b6645d24d20; 0x11b2af6e98909ce0d5fa4205ab3e59cd7aefee27d69b94e328db72a6823a48be; 0x5d735bef6252f3749b52f8a5172931acef835607801731e6c8dd000500830003; 0x9236af3865f8399c76bd48dbca9cdca91000384135fd779d2c87ff7ae09a16c3; 0x58690eb5289cb775985ce83d80e6b20de00cca7d103696ecf3d0a81fc33c19b; 0x7d57f17554ae6f3d6932ac01b527b6d9d448eff988b36d1be259dba4bf44cb2; 0xb5b7c23eb3a3c68118c6648fe1749980548ee803ca3f4ca9da1b2e1e61338b4c; 0x30efdc3f5b3af3b5a6a6868d31d77d856478bade52ecb2fe14b699eec8314dc6; 0x1403458d0c1f8443c2be3acb1f85b0ace9334261f69066c93730d69824aa267; 0x89039f1ceef666d614ca8ae177fb287e38ad4f134d484fb05370a81dcd166ccf; 0x40257b76bab85278c10fdc688c5f972654c35d0d6ed786493125b2dfd26c7e06; 0x192951aedf21dfa8764c1d1facc8932313998e16708b44420f4b2de1bb2e0c16; 0x335b240c01544f66977ccce34f5445b9eceb4b8fca1576e8110bae171cba3c4; 0x419b2529070de59684a9cb971ad3cfe35e5fff1c3461892cec8226340e19ed65; 0x11afbdf98539e40b7cd7a8d89bcf1a24b58550b97cd333dbc606e5be2cf62f9e; 0xa4ce394116fc9d907d3c4334598b82303886caeca18010995092095c350102dc; 0x606bde03a2ec7b4489723023eb71795dff374c90edbf390c68f608bfb8022711; 0x4b86d95b8efe9b75094289d398fed5e2a983551c7e67ff99661b1255e37f06b3; 0x998b0541aad8d31012e6b6d95820421d9385cd2fc1dcee9e52f33e5eb28cb193; 0x1f09e9b9ea932f7f1ccfc42f0a00fd96028b62de81883aecae1939032773fd9; 0x3209dddd0ae2c8d8cdce0b825f8aa43c4c726a2e2cb6488dfd4c324aedbe41d5; 0x22cbc620280ae358eeba39c6dd926ce9d2c08e019625955fd3af7a44273b279a; 0xa82e7af6fd64e21bb23389bcdafa7fe375d55d3db8e223db49044483f227cb39; 0x4900bb4826dd7e581cd6de7c10d84e045697cf3f0e87cba6d02edc4361659db9; 0x5886c9b1d6870a526e8a895d7dc1f2ada128d8f073f5ce508f008cf1941d4e5b; 0xe6f77353f6bc27fccfe42c485f6c80c50fdf03333dd3a9a58de2ea30b06cff93; 0xace787fe8e9f5cce57696576f6314462bb56cf803501a70af8ae9fd6645512e; 0x9cfd437f997a4b66c98723d069723ba7959e2be05c222886d5a8a77c3776507; 0x62f543471bea8084f4cce9ce2148c6b6ba1fae12ef9f40c9cd6777e793b91213; 0x530f382329f2b09fb2ac99b57831ebfd14fdc36e1184de3e05130a5a0b62bd74; 0x5088dd4be9bf2640f341adb5463ac6d94cf9a6e695419dca7cca730f4e781f97; 0x1bba3420347baae6b9fce1be976b453abb032573f272ee716734bcf1479a48a1; 0x67dc45d147af5aabc4975ac1dcda1170c1d57109bb5a6a4d7c597d95759ddae1; 0x381ea9bfbc985b4ed869cbebf31fb7a8374d01ea6db2c04e3932bf54a99995f3; 0x7adc7f0707e1354ac3e1d4c8ab5458a1945a7cf739e7ff53005b7aeb93fa265; 0x3400fce4401ee96d2841518626c3cdb5d43a4eb0f58770bf02479e7f24147a73; 0x76a72e250fa41dbc10c30209ef460c55ac45433fa159a12c55ce5bdee3a2d10f; 0x104c8341b63611e732f95d30a0d44338bc8d49d406121f6bb7274ee62ff8f416; 0xd748b941930cd519d34e1ae85135b424e6ea129769ebb194598137c05b256e; 0x4f887648492bf200a7a72cf990b4fa468e5738b53b0c7f1580f6aa1dc24022fc; 0x2ac0d81351d7b1b3c13fb0f254782d89882edcb8278bcfeee31465794931920f; 0x3be3dfa882cff32133812bca24e40f7864802919c116657664dc05258ee47610; 0x3ff2a8cdb4dbfca8618b515a64f2a8c80dceffd4b0fea8d924d0fefef086b1ed; 0x4d6967ad9de9f0f5de4dc96f9ecc56d65287240062830c87fbc9d0236ad925f9; 0x28947bf8b743ef1abbc2ce301760555e916bf8f2e1942e599a2dbd3cb66574; 0x331d1fffc8958aeb4cf4997be081f500fda135ad35ef223bcb1086dbc376549; 0xa51e30df99c83bf836c5c117450124dcd320f82dc4c1d0578d19a86ebc74f7; 0x26df8e1fa4e22abdd839924314e021ff149a5fe33b5f8efc65d7c415f1cbeaa; 0x4a642dd5fd409c95476949aa5e043aaf46d5b42a7fb668305f2051e7582b261e; 0x292d391ad3b5aeb6c75e01da4038249bf35460bd545f33424728a7e9f5e11ebc; 0x21b54b4cf863bf9929c5e5a6c42f67d8d9d2eedf60c9caa5f0c47dfd2e74a0fc; 0x6dd874e50c922ac77d553be273fe0f1655d1f05e64cc598ead4fe5a62a76000; 0x13e609b3b0205e1276785c21c44e1354e0e7c8189d4a434205c52bed73a11045; 0x71f35b8e047221cd27c0891a545c48c17499f73211f1b7a243250832b5ee11e; 0x5631ab8c21303fdcbab14f90247b9fc99bfd95ac8d57ab4325b83e8aae4c37a4; 0x8b164fb9fd58852e090bbbc772a1c7fbd04234efa65a9765401923dcdaff0a2; 0x5b12d501a92851c1a0aae0cf28c477911631b36ccdeac275061b30038c5c635e; 0x1c1122b1abf4fbeb8dab0befab75dbb6dea5a99939afc48c0eca3a7c0fb823dc; 0x412473c4df3c6214da132df16ef2f03461e1ee17eee89b384a987f7a92f7c4c1; 0xeb15a8cafb70badfc96b616335bb32ec0b326bcebbaec01e6129576ff2b29a4; 0x4d9ef5920a719f3f2b601961961c9b2993bc97b19fee90b534af821f72053bb; 0x100c3c1f8aaa7b42d9ad8544151cfbb4dfc5249fdba80691b59db7d29815a35d; 0x174e13fee0fa2f55c4002695ead5908d93d0f9bee45b060fa6bc7a9c8690bf7c; 0x106de1fda6cc4f51747291220a0f5510d7027fa7260b65b618230d55a09b6a8; 0x3a349c60c25f3f4ba962cf27caef8b07de996b0378553d1d73698e806c7abc9d; 0x99fab68e70684eece9ea5bccb11ebacfcb4dc9bec7f937702b7f707e0f2242a; 0xd1ab9e3079a21786553fbc202a0fc88eac335ec92b1f0d3aac871480d577a80; 0xba1c3a1383d5a67fd37d63d888a9b0a46f570743b563677fd1f54715cc1b89b; 0x6bf0b4479e81f096df2ac0710c476e2481bad52204b78fc8a88d54c5f5b2e522; 0x3a462e4d47a8098a2cce5637dff24eb3215459b74d182833cc0dd15e58e46ae4; 0xacd125bc03e33cc829a4bfe634d2b5eae22d8caa711b56414697c43d047f84; 0x1736593d210b71e1d8cd3c0c59de3874ec1b8527bc54b5be4d34dba9e11719a8; 0x8eb3348bfbd11841a9adbae3e5c171edadac2c8de2d8b472e2567c5080e4813; 0xfff01dcdecf3642e152bdfd1afca01dbe24967f3a073ab4fb9a532ef5e2c2; 0xc8668e0c13af3941bfed947c172cf6c9da5adeb299ae42f123aa79946c34940]), (0x5a14ccdfa2ad32a6feaf46a4541c6b980bce1579570b3cf61dc8fe9657dddab1, (0x3bc149430689a606018b37aa909ddbd3ff7d585502b9d411bc8a3a43b8188b42, 0x2e6ea48104a20ef14cb53e71fed6783710d7c3032003add7403903e21d6ff15f))));
    (2529403, ((0x300f030e9e000cb5822fe1d39dfd8723956566d3a146756794d00000000, [0x0; 0x0; 0x0; 0x0; 0x0; 0x0; 0x0; 0x2355094edfede377c38b5dcb707e08ed3; 0x120cfd46c5d560f1ad41ace41ed53fd9eda0b3e491190f81aa6c98d487534e3a; 0xd160cd3fa3ef9e83d5f7c8bf1bc57f35a76cabf5833e4143fb3f69df45ae611a; 0x75cde4ff81a042bf424fef18b5e8443ed33d1f71b697aefdb40f6519dec81556; 0x2ccd2ee6195970134e0d1f3b3bbf45549bab80d4e9fc48b5983988cc808c44a; 0x81dcbd5d2142101a1b067044cce1c6f4bd4b4fefbffad036aac58ef6818c535a; 0x1638de4765e968bb85a973990fef306b2c2398b01e994d5e2908633e8b1b9b9e; 0x39663e6bc638861aeedc880609f79ffed4e2e45674770b7458b956d92dbb9902; 0x2627f250be75a5cbfb5d6f1f27604a63b3fdc68dff94510d7a7741e113cf9a21; 0x567f792998f4537753862c48357a4b755736545e0f2ac4615df3c1cded7deabb; 0x3051b1d01707223e00aabb00edfdea85664bf7c3899ccd6211658440e66a3e1e; 0x75198140af04ba278d6c6dca061e498c7de6abf704eeeac81f608a6e3aab288; 0x8fd99d8214e2540224586dd88a6c433c3a45311ea2523b19b7503e73ef8440d0; 0x5efe54c90b80c20947613d02dfd4b842130721bdb64bacd5f93c5a50b0bb54ce; 0x37b8b416d45f6af28981aefd98d1667047ed941f001beb91fe29085b16e29da5; 0x7f12ff43374635e4e49baa2c84e41aacce8efae80f0346e0ad62b87f1e328e1; 0x2e1fdd98625d0132a7449ee89f3c25a4eed2b498fee90597ba940b1a88f3ac; 0x18b076fcda5491a374c29bc0539482987ad98195efb2950a2daa35620a6e2d2; 0x1cbc36d6367fce09e36589dc2a89094b3a2fa4c0794ab4f751c3c8f801e49c6b; 0x3b6031ce9a1196731de85b4791af5b92dc9b48458c736fd721ee0218477cdb6a; 0x2626c5be2c6f4b0ea407617a1d2dc14a649c044127f6b2abd4232502f16e22f1; 0x12b6f9dd0294d36aa5e8d736aaa5023edc10252c172dc6f22764d39206e24bb8; 0x797908088b367159ef80cf2c3d973b366234a09efdf383be92b30ba20db79ed7; 0x683b8d0bf0bc775b16bd45633911907c68de4a86c9539d75621e03a01b0d4354; 0x22a77f28f95cb1c34ede9a473bac9eb6064cc97db102ffcb1cfb096df3c3; 0x2c2416157f1b494744de27f3666b6d18b1796ae432253c712b285909bce4abd4; 0xbf1971754103d300507cfef54c7c9bba442b2aec72733c005c96db44edc381aa; 0x4a4bbb708c7d9c3e9f07f5441ab1d2e5a7f4c2f80d62de71fdef2d44e710f5d; 0x89225eb3bcef4433076b9ae279261038d14a991fc7c44446f3b46d6a4336f809; 0x32bebf9f0f07c46906e155be21c75d9fe7e6377eabcd0d2cc233ed8268053e9b; 0x12f8770628dc1778d898a5231b327237c4c8377811c0939898182a296d45652e; 0x3ba652b2c72a7074a0a7f153f2e85e55dd084eded0eece2087e35365442fdcba; 0xad3a249b9abf54619f34d8508d3b910cf1a79f318c5fc13d2ebfbc4ecbce512; 0x186a24c5f36bd645c41972dbc8e8a0c443d904ec3a425d67ab57efd3c274d2a; 0x5460d9d67c6f21f10848502fc3cbe43448e1d62b873c2be5974458492cf5bf09; 0x561ea0bd570b5cfa38a72b1c58df9c5cc748b379bb00bc7386be275605019b5; 0x75434596bb24b8db1fe56d3b10c7ef68551de43bb950f776d7a9a36ef97f1f; 0x7d73e801fceab7bb3bced97a7e4ff39ad62f3a22d074d4a948eeab10cf2769b; 0x155c1495c6915bd7bcbbdb4792e2d9c2d000a11424cc15df28a4b40ca4f287bf; 0x37de88c83b286b7a9792a75588c3db606ff8d2564c77121ed42af87fa075bac2; 0x5dd3c5d7e124dbaa580e08a963563b3f54fe1f1e43a9cf4f0eff3837046b180d; 0x51d901327b8ccce570b9719df57e900d71b6ec5706c593349717429995f09231; 0x61bb2c73685b29cc73ac62fa382e2f9415e3e3be065ea9e94cc276ee072935f; 0x19b547d8ae42bf0b740633d006efe3169d0b1b666aa62873c5e058704f62a778; 0x57c4890ed3f8a25fc1ffc99a0e65dac21a9690cd910e7b74712314c1b6ddfe76; 0x6930c6c4b05e1f5fb4ba3b5376bb20465226bb6c96ff702ab3d8dc7ed9b24541; 0x5ae4cca356ca927b8c23ec1eaae2c8fe5475214100387154131d2e81d07fe300; 0x1071c614bcdae448898541aca35e3dc41b6f3fd3de08959a97f3ac0c4ac781d; 0x5f2b69ce9ff50cee3af7f8522167fc929a7068bc1fdbe7f2ac592472cbfa106e; 0x4094a69677c48e26286466eec0e85929b8e2bab2f0f256c927395cf750c3028; 0x424ac76472d76bd64ee0fdb957ce84888d1ff46663b9917868f5824713a4c943; 0x3f0da8f72472c82f792a670f435277338b72f4631ec00f6c8b6e623fd279430; 0x69064d1302cb53aea76eaed4c77a3ebd4678b7c459d7bcde416b0093c4f73130; 0xacda6eda3343736285fbfaba99a32f30cb1d19e9326fd6d9f781c861476f1f51; 0x1c80767aaa6e1075c6eefec9ada95e410a548bfbe35118d2956fa73ece9fb01e; 0x5d0cac978f47f4ca4361ee341736fac0373a033bf1b495cae8cc86e467c9817f; 0x3f0ec69b53ca094f0e4a5c3d144f5edebdacd6201a071e422df2e1f8e91f758a; 0x3245a8523976797f09b329e4166ccda5b509411fa64d727518966ce6a6c17cf; 0x1cc4e2682b5bd5df789f8bebb0d6cfcebe8e18b2e11945f57d4fc1fea744f91; 0x4f617e1a38cba3b88908a2f198e97dc280bcc7a4a925daeca03861d827a17c14; 0x3cb5b0b6a6eae453de6dc4afa319af34bfe07254af9c137834747537e2479868; 0x682f0e6e0849df16e80f6061fe841af5a6dfbebbbdc32606d06ecf1d146405d7; 0x3d55ba528be2ffea04356c65bcfff96a9fc55279493451b18a9413b13281d112; 0x1affc4fd72c36d7ec9ba8a8e3adab0c67d19f169c97e67544b93af38cb0724e0; 0x2ecb30e05abb613986e0462ee216f135174868f3eea70a0d113e62180373de68; 0x3a7b289bc9cc433e9d381b372c24a2366f5379e723a1008fced4aea4c211d6c3; 0xa1848a8b28e75301752bc9ef15aa145ea865eb191890b6cb01c789f1e21efc8; 0x9a51d68c5531f4904e850ac08cb79b95bb83b97e189d1e2b95ee5648fa8e5c9d; 0x223b1dab63a65d31b62907a88677b00e89c5642db7f4de59dd5645f59d5a4a0; 0x1a9e1edcf364ae719f7b674e0e27626cb0e9c61d5bcbfc0b69abaa592b90f633; 0x614db018c6bdbaaf8ef2937b2b692d84ec86432b0027e25add2be29056b7dda5; 0x78bf0a20c3c9d92dee2220dd59d93d6c0cd4c8f9827c011c319a516a50efbd; 0x1c3d4c6dba63a81d322b2405ea384bf130dc68e1eb65e360f0984f086520916; 0x6b9bd45e7557c1fdb31efb1587b6d59ff4afbe9cae1175748b2f9b89ba221bf; 0x354f242f7bd936811253de8b82d865058a822f1276446d1f430765ce2f78d0c9; 0x40256d22838dc2eb465f65b06549236c3e9cc9a803045217588e8c1911fd75bc; 0x67a78faa67df5bb545b076745fbabaaef838a4cfa847cdbec97d5093ed5ea527; 0x425d3943ab39cf931ca8164e7fbeed66d78527213f77f32abd4990c53ab29684; 0x66ee576bf28f49cdea947e9b30653e711a63fc77c71fdc9dae91ea144b0107f5; 0x502fb588d6d0f3327c11a2544deb943433dc7c0acbb24e4b7ecbd1785d086976; 0x28bb4b510bc78d8dd998d28f18207ea6398eb752d5b075724eb27ad16ef416f1; 0x63727310cd3a02ce58263bf198b183b77d5cc55ad52c341ec2c3b125e1da98c7; 0x3fafb058ba9689d012ae2365ce82a033efee861c5b7ef5553b324652ee94ef9; 0x3cf3370ec803d6202bd844b181a88d8001becb7621c01cc07c5d954f065d0356; 0x2296cded35d19e9c09af1f1ac4681b8411710ac35315b3db0ac66b4fa1bd25cb; 0x364fc3ddd59f426817d5471eed7fe0a6f0a155c960e97bf9cdc6da8c4345fe8f; 0x17d5fb1ea9ba652b9c7d10aa2ec8b1a0254e3252130c3ef4ab179c5dd699d07b; 0x4e7a90a59cebc5003ea29eb6cdef2d1874b01a516c26912c4053fb3116747b44; 0x2886fe2d70b10d0394b9a8a402c7832cd9a58e657810bd45eb01dd2a68b6633e; 0x979a845a3e57d38fda0e46275db29fe6fd54c90046d88f1d697b9ccf3e0a1399; 0x6a23b1b716e98e0865df8c8638fbfe052ffdc640c881b623951fc06f6eb2c2ff; 0x6f4172c7d97e71326d9d2d46dc1c6c959f328a8b541b7b17a2263a6b1dd0929c; 0x2124c4de877967a6605dad03fa09358350170966fe206e41ca77c8badb2ac234; 0x2f443c1d89063a58c5499429d449d8d301e64cf137a17950b160d7e8257d7ed2; 0xbbd9c5fb386a5688b9c9e9418548016a7401ff6ce8eae726ce4ca3e1bfb41652; 0x702100d76d8b4c60b7675d860249dfe8402641793b7bcf967c2b3010206a0eab; 0xe535fa49741ab0e3a598af50d67f83d3e999ebbc4d4c9520963cc927fbb2afa7; 0xea8f35ce8b06eb818d9f694676ce9200bd36bd4af0ae3d96df5dfa781d06358; 0x17c250f4803cd6ea8c2498981d62da10d308c1eae0fc3361dbdca0972bfef3ce; 0x2f055b4a0dcf4becaa2be9c42681fe3011eb60ab1b5752215c3f318737a71416; 0x72af57d16f8fa4feafab09e3a6c12d4afeb540d5f6b9a71ba31df9a99d92fc38; 0x608bdd4eaf83eea9f7c4dde86ecf1e02d709370ec3d964189f8b3c2019970566; 0x813c7dd82cfb024675b8c53c12d5e419e691bca3eeb5a71c2318698b8bd24ffb; 0x2ccb75946d6e0c4e4c49cbe0e5020934fb34e9b930574e133b799be738215d78; 0x54cc8fcace9a9d00f11a3505e96922c5d8c5ab7d83153ff43974163f73e3cc80; 0x37909b1d879050f7e1dab09fec58d27969d565eff802877257b2a63462e7312; 0x7075a11a21acce2c2b9df3f99f7229444bdfab296ef11f4aa15d566316cb4449; 0x95c6cd7ba964711c41fb0a361c07c4538142c33bca9c5241311775403f1a89b8; 0xcba27e8629b05a1d6996c655c41d7f9bc58620a5a9c2a48039298970ca84ecd5; 0x1ed279a8b3c3ba60a73303a084caf381e005fdf761496e38d04ed174fd77de75; 0x1203a959693667dfae83d76f2d0d2dcad8f5cb0299e60fa6c8d39608cceedd40; 0xd7e213ec5fd40ae41c0d2a2fa7c497cf7d3d3cc219c4c1ff1f4b20f65a363e1; 0xc6735f7dcce8f4f75f28fff477f81fb3adbcf19faf2e1ef0144985dfb0cbb39; 0x61b9ef2ac00ef3b9d614299615c9493028410606d9d10d5efea074572bf44a19; 0x50a0c1a7047747b27daa98e809e05a3274bf174e8fe05373889443f30e7f07ac; 0x2ca08f0548998bbe1fa3a0e60be4df8ec504fdeb6d7dd39a9a3f5bfa3a1c4cd; 0x247ab13ed8cafd2597c23edf16d82c71726adb0721929699c688ec5631de1ef; 0xee20c3e2f71cab496e0fbd8e86741149a47e6355ac6816cf33e09938a15f742; 0x71d3c892bdbaf89d5a5d6f8a08a350c01b279e1a72479c14cc632d7c35f65af0; 0x360b6b440470ad97e01c3a33d5d955ffbc6d23fcd4a9e7a50dc9a5de8bad681e; 0x2d45427a4b5f047a20b3f0bbdf6664624b9e9287ca4f403546f00629bafb757a; 0xa20fef9a59a5107a6b05fe459077b396145225ca12a256a4ba0395ddbe51c04f; 0x33df7c21a94de6b4c1c6a893762221314f26d9ce4ad7f84f7331a6a27e0d76e6; 0x98fa2f2e1bdb408a6193a63baec97523330290a109ba77794e2640cc875a75fe; 0x6def38e7c83a5b5468ffd808542d3bcf4e1302e390d1cb71ebc1aeeaf1875878; 0x1fc768433e21ff8e2c55b82cad55e9c27cc39360350e15ebf89214560f5f3f2b; 0x711f61d7fb0e49a18619826727567154c2795d7bdab9f5d7f99914f7a7d7ff7c; 0x5a0a8aa1eecf96c663a3bdf0aca7e50db5047fbbf4f8847d35619ab717cd411c; 0x25b0139b71bc5bcec93a8e02c0478ebdc38e8417fdd34e8a16d5f2da0a00cc8; 0x90ade328ad4ef40d71094223f1d87d62ff3b20650c5770c6a105e33f3d41134; 0x3bc4edc7ec22abec19a64cd94483d0dbb1bf2edcaf22ebbebc66da4ca66f68a1; 0x166d9e011d23d786626497f9dfce72d00d816c459caf86f9d9edec21478f0562; 0x68f631293c7613869c2b214a8ae120b44336ea0397a0572752c0064386ea937; 0xbd410baefe67028fc7e7626a89151c9a6eb11b539af45cff91008caec883ea9c; 0x3f230752ec60b7c87be5db5422a9dd76ca15d9c7957d02566ab699acab52153e; 0x9e8964347b5831d10067222dfe4aecc88fc1e4f641ad8802589d1b4d9b5d7cf7; 0x15055b5564652348ffd66be3dcf52642825b5424d008881b2930e68f6ade67ef; 0x5ca8b6c9a5ab61ea398cf8ceb7b6aa5badc6eb9ac38e1c7d1037b0d10ceeee50; 0x2199fb67e545576a94d87f3700ac67e69bb2cad6a4130bf5abd9f3117b602334; 0xbb51c00b86048de7a95984e1e5e4215ada28e9575c7e1b0f87b418043fad0e6; 0xbcb8e5ae0490826e5e467dcd4c2323d8d68a6dbaeece76749470c14b117fe12; 0x610172b187d08284fd78cb67af2469aed3183bac3e804c58dc465d1bc1a4d0d0; 0x1b0b3670a5201f70245f2c7873abd13a5573d9ff60c23c8200321e426439b0a0; 0x2d2530ea8bf05870ba9eacdf215398156eed242ce5067e62c4f59ef252014373; 0x24bdb8b25050ee50d3ae103d90f31e83d8c74c8c16090949fae4663897194f15; 0x3772fa3f1206cc8eccaf2869cdc440ffd0bbd7c0f0d18c578966f60ff0fa4290; 0xaea82f4e766aa1707f117ec8820ad2a6b368172e578f5113f6cafe039300a28; 0x5cb36cf2cafe5c804b090aad985bd7f4cf34661232914ad4a1f2908b0642c16d; 0x240a3c70aba2bf40569a127ec3b651f82cfe121fb302bdd0688e449b0fc3cde9; 0x1d6b14c5b92949c74085a71c323127cb39870ea6a45495afbb2532a45b01e25; 0x2908ec1350aa0c384303603d3e93f594f1aae2dded3035ff29b911fffac519; 0x35e215e44ae3a0d80e455c7edf64adc88d8ba0469040b254b313ffd9501e49; 0x921539ad580ea8748aaac2ac73a146eb9b856c8daf0f6ec73a3037d14cbd753a; 0x9d53dbbd167375e80cc40208528a1a03e212dd6f5b4a089da6983f2c2655102; 0x2c0dc2f6e9feafe5dfaafa5d4c1f7e7adc2b69da4e802809ae47150d5a3c2a8; 0x63d378facfdfbb4f5ec9268831b983ce0a1def09d60ceb5151b627cb065ee6c7; 0x63d9c4f6c9da838d0341c886c6894730b3e99403aefbacc41eb53492b6516095; 0x1b8e8d52667affe460967558d55026950446753bb08e3fe3d0cc14fe0ee5275a; 0x50ab56547980d6fb5d989e4f662c31cf0ddccc91697a27c6d4923e279240c111; 0x7729d138b922a94e551fb8f79bae3d080e9ae5e6e0639b6e948b9a44e7ee40c4; 0x45d176cb26bb577902a526ede6f971a46e60f6c3f87abdde5acc7f391337367d; 0x404aa4bb2f5ad07c9d7ce8020c64c0ff7c57add85cb16bc049e9af0018cd403; 0x1a86d67954c09c1b2c30eaa19647bfd6f1b55134bc76325248a822f094ba00b6; 0x750d3d3d32d36180937419e3f5af363b27d90d0c00e3203552f9ac4c98c72a62; 0xaad274900ed75c7f98cb872d026518207d06226242c904a1cb80ae9b1162db9b; 0x37038b1d3cee3d8230eaa44607cd40cf43bcaf3346363565a6faf562365fc8fd; 0x2203fb0843709a4597555e82ee90ee2b6f70f2176c99ba8fe029656edd3f857c; 0x8776f7a4233cc5048aed78d3ae6c98259669bdebb8fd3d7dbdcfe65555d1ad14; 0x3605b2ce3efda6644120446fc10441b77535e070c1ac3d83a019495f6fcff300; 0x3ebc5f76da87742fde0d0d9d523adf1b0f5a7f41b894c089dfd8812825700085; 0x6389c6dab50ec1665ea0d53515667dc651f4ee10ba92020908eb6c474d06307d; 0x3b18a67c05468ece94216f7c9d9e69cce133022204acac3b8e4d02f8669aff4b; 0x4c5e6d2d837b1faf086f8b5441b0fdf9ff2874061f881e00cb55419802028672; 0x994d24a4ceff9dfcd2c3c9bf8834cd676a9295cc4baff61e0bbf53ca1a4ae1f; 0xa4bba7bcc334eed91e8ec2df559a4f874a8237083910626627cb889f28b3968; 0x5410231244fbb3c8a5010a13bf42738769ff685248c845d9c16555b8fd2b96c5; 0x331a238217d467c63644b1353ce77daa82ccea8af55347893ac8e00289bc75b; 0x41ee447a77cede1175b78dcf1b2275a56b058c2745d1d7b8a73d109ff97cd25e; 0x45d29461057408a273478d8d3726c2eab00b6fc51e9bb80ac2a38421308e2001; 0x52d71313ebe2d1d86b9f34df8fe0f7e739dca748990b32804be13e13524ee563; 0x41d935ace2065c27448f655880e8f8ae649b3c68c56ad887d876648029950bbc; 0xc5a14f61d210daa4e5acc614f749473dfa9e05bf43253ec1460dd7c185d9825; 0x413217f91df006a13e2db91bd174c65d1867a6724c5737884ff1f859ad188d3a; 0x55940dfb48acb63d36bbb05066a5f3d87b2530ab11a3bfbee79fd27f73532a83; 0x24bbb5c0607f3828ee3751d684d165a0b6a387a12f9461bf078e24174894dd49; 0xfb0eab7bc2a19172be109928f7716c742983f453a52f38f56f9f483b8a30b82; 0x457ac97ada3d86e9c8603165eaa233dcd25b82635df51d97d3a647e2f8ff960c; 0xa372a42fd13d7942fc1189f5a11ad0caf6dcef5929eb05b4d7cabf40f4deebaa; 0x912f0d1531fd1bab969976d294664445ccc107ed3c2c0bebd4171792dc01291; 0x1f474d088df49af45cf699b6327781ef7ef38e7be4bf4705e9fa04623b8119; 0xa08d519485d436483b263044bfef4eb2189eeb199c49139bb737e90254a24cf8; 0x823e741c9fe2582b3352aa7272e805f3fd338b9b3de12a03fc90497ac9db02e; 0x5c7de6e17c83dabd6dccb486cadcbef3b675030e48a3fcd3b9669329927b6244; 0x1d2bc2f9d663b5849bef876023994f260496762115d739dcc6e25041156237c; 0x5b9e14f6aa44744e2d31f504b22a59c9cb323d03eff14eea3737c00a65a2674f; 0x3820b2be18037ebd87f0d654ecf2a172a5ae2337c6a3e9ceca016bda203afd8e; 0x1462f778254c2addd518bf25ceadc64e9a46fd799db5d10d8b6b298a52c39938; 0x4346c60758b604467790958c4b209a769e85ce33cabe54fa2f8d0b496194b4b0; 0x454c18b539016d9b7fecf71cd20898585d20fcbadff3de79a06515dc9d04036; 0x51c64bcb8df3ea54172da686b828d57430d5bf351050220d69e791c7d5717952; 0x24e6cf6b8b12fa5923cb51094ef7fcfb95cae775eb77ae6df03a2c29cdb4e57a; 0x16ab24d0a5e15d53c63f93939d0e97d0afbf66c9ca5b83db9b9cc25d286e8d6; 0x206254eb49f6b5ab3e24b6aa8e9912530ccb12fee75374e5883468609052bfab; 0x124d769af39078ee430c0a9b75483fad46cfbabf7251c68aedd62a36d4fb323; 0x21aa3f921afd8221d4d369691af3d29a22f4f05c222e01530c2fc2f0f170b366; 0x27a4ddbd23f5f95842939388a29629987446c027df0940ebeb72b6d39550b15; 0x129702a76b21376a74cba025de604d2046e6ce040a64bd5f46554f19875494b5; 0x73b62b369ab2f09dad5e3c149d3390fbb49b4de2f3fade55fc90f5f9849d684e; 0x5007d8e8e5482ac7070a5329d2d5538199c3d899651c13330e67653e7bf7a57e; 0x83c1b0f99c13555c281931c73b940564b0223e7aa1b3bc6b8b603153b7e053f; 0x3c8cc33890de899e6e016d730fb8bec18d8ed3c78c0b3f467fd6acba6463f562; 0x263858699b891f35208c27636e2e12007139970b86fc3f758ea8f1ab51ec51f4; 0xd32d804e7ba8c1b4087fb344bd280b0a740f8158ee881f490e3e8360bf47b; 0x5f8a462e98ac8940e393de194dbb22203267234ec70b8ebe724dc792d14ddf67; 0x121395edf4b8d879d841b0ebea9415be78bd65474c772d526416e820e665a5f; 0x65435ed8c1fe707e6a9ecea6a5b44201ec7a793d19bbe8772bf26e9c6e5528f9; 0x2e5cc2c9e924b7d24aadc3c2544bb5f284bfa8cdd4e196035112ba626b2a9c7; 0x687cbdc38004d2e48a553d7b2d5083a1dbe5ee4a01a5e50d7fc71c19a96a7bbc; 0x57b95cec6d6e0c036990c454efc3442467bda66320438511c8ca61658ebd477; 0x1df5c846ee06558b13339cdc77184881c94149e037062eb4876143b90ab82b19; 0x6634f70eaeff381cadc7442467bf1ba961bc1ff7fafaeb2dc255e00965057514; 0x2961a5f1b322ad3bf6c74ec49ccd34e30eeb9bc46699864c43573d389890c9f; 0x8ad4db8822d5cb861e99a0bdaa90df7ba6fed5df214337a12eb60b73128bb1; 0xebf5cc124e1ea2fdffe9cba186cc22195bda559daa0bc5c6a80f00d0ed753d; 0x6d2726ad4f24441fbe80e37bbe172348a39c8b88cb9b827036c4d3e24a39682; 0x5e0203f58635c9e96b7c9069eb55377ff2d2629ef5e51f58b27d06979be1ac7b]), (0x680ab473acd5f62eb01450d284b38c2400bcff1ffb8f7f8a331c1e804742d849, (0x2340c4019e2b68e71247aba3b846048f53e286bc8e9197b64baa675a78b2cee9, 0x1fa36d258111ce5bbd2e089b9ef6f8753e4f98d34af568caee01a8cbc7f0c987))))]) in Dq; [exact Dq| | | |exact Hq].
  - exact (Forall_cons _ prime_c4 (Forall_cons _ prime_c8 (Forall_cons _ prime_c10 (Forall_nil _)))).
  - vm_compute. reflexivity.
  - vm_compute. reflexivity.
Qed.
