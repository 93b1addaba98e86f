(** * Pow256: powers of small numbers modulo the field of P-256.  Written by /verif/tools/gen_primes.py. *)
From Coq Require Import ZArith List.
From Verif Require Import PowCert.
Import ListNotations.
Open Scope Z_scope.

(** The power is 0x1. *)
Definition pow_z256 : list pstep := [P1 0x0 0xa; P1 0x0 0x3e8; P1 0x0 0x989680; P1 0x0 0x38d7ea4c68000; P1 0x0 0x7e37be2022c0914b2680000000; P1 0x0 0x26e4d30eccc3215dd8f3157d27e23acbdcfe68000000000000000; P1 0x3b174fea6ea7eeaa1c89e684908f2b8a0e80d9d10d 0xaab6d9c7bf200a895ce30af8400019c6a714d90f89e684908f2b8a0e80d9d10d; P1 0x472699671219b1ca905a67bca316c305565436529241cf4501ca8045e13fd8e92 0x4162c0dd52b9c235412639047212af01f6d5398d30b9832b6cee3a60cf7fd92c; P1 0xa700f856da98f71545d81daf8c20921e39bc52b592b49fdd9f3b882db717095c 0xc0647e99547b111a6a4437e3712e37a1b8dd928dbab983950a27bcbd39fb44fc; P1 0x5a5e4f581190fe575a1b6d0e647755a72bc7b71d894f30b5721fd84c9773198bc 0x45d06678f45be224245ca918d11fcbb00ea6585c5b6ed28f5c7bef2f1ea6095c; P1 0xbe6408e78b5443c4983381546b632292790b71e938be902aa4c4df8ac3f18f1a 0xc32fce35730f7b16bea04262fe033697cd97c5d7f7aa8dc0b9f2682bc87d89ba; P1 0x5d032a2c1be599a1bfbf1347779ed28006a5ed21ccdf97c3479469025a8379444 0x262a2ff451ad83f4ac39a7c9f56952c7454be54961e1421a4cc46c95c995a3ac; P1 0x38e583e33ee0dc9980de0f979152f769953b4bead28a773c56f7fa426a4f53d7 0x20bb93c902737383ff8450664231fd85a6091f3f38f84d0d2af3b14aaeec2777; P1 0x29da4fe311bf61cee2e6bde480bf37cb35e9a265a54db0a5906cb1d07f3e0279 0x35f9c2e99e6aa593cf525b5f167f61e4429a5f65cbc8e2f6c1c920ba0624bfa3; P1 0x71cdafcf3a6214f5ad86e287a82a7c9525049c7373572188c0cf5395f2cad1ee 0x99623481e3db918d783e96a2b841f5c94dd0bf60bbb107e4eefcfac2efc923c8; P1 0x39701545e9cc8a5f2b670f414f1258bb7f9babaaffbfdb388c018dffe6cd6de1d 0xcec639c7e26dfc54c0c7a86ed90e87e1667dceafe49e4efb7af543b4df79d89d; P1 0x6862430d5b89f101e506656551e7779c8878d0fd5825ad86b6b84017bdf434d3c 0xa08b94b38b17d11671bb8aa7d93592bafb6fa34734bbc795fabafb0bf0447016; P1 0x3eed3bbd466f8cb850be897177fc179a1a306c09f00fda38865446300ed4e6a79 0x7b79c6f5356a02fd6203e1906162afe5b537a6b08dbc9c5a24b80a7acceefd61; P1 0x2538e7727711458fce9792383310dad022c623f6e901144316532ff25b0d4eff4 0xdd831d7fffa6d303542e31dcf1c128ce1ffeec263f21577eebef6900b045a37e; P1 0x77cb468e582abaaad8fc9421eaf37014a7d8b1c82698bb55843007119b68af1c3 0x8dea93f9e853912eae1ac69fba883cd5d29e54a67eeafd8e3e8c4e8d9de3e5eb; P1 0x312ba6b8c7debbe3f2bd32ff06059deeea5726578c04b9576af72e8761895c09b 0xdd95ecf22bc16758a918619964ebbfe31f3397606fdc00598310de08091879d5; P1 0x77df9fd157d908a5d37f5e07285001b7d107ea0483c45a2cd5f638d277d0f9032 0x68594c8e5c0c897772b53730d71744399a349a1de039fd8fc9313757f43e006c; P1 0x1a956c585880503cb1b7c9318f35715f955acae24a75699e42aab423306d19595 0xa535bc67850b69f1361edac0d2e99f7105fc12a128ffb8175194ae77d1f35d35; P1 0x42a2f2176206b3b10edf5d703f808843ac7f764a42075edd6c0d9da63f614368e 0x3f8193f1b062990ea0f95a2041f478ea9fb75d306481dfa0b111928a279bb848; P1 0x9d8a540a846fce80841a0f741fbf858c8e01bdd4082119c05505bc7138041b28 0x97587d04c45a5a1356b8fd7be7b6e21cc167412618cba63026bded634e6fe5a8; P1 0x37ebf14b59e676edf1d94a3663e9f616373972f5df605d5e1b2543af33573e6b5 0x33007a3ba0ffdb7c87ab2ca852f288821feb681610d66370e8f6e2e48e8fd535; P1 0x659be70842b836f6bd8529b08e7aec65c2a1ace4f8a76d1ba337d291d9c3aa43 0x4c88928bf2dbb134baea1e3231e1035f93f780d7b1c52b2fde2c2804ad8c0bfd; P1 0xe4cdbeb82ca1d04554c6d497cf174eedbd93b5d505df8454c11ce7233a556d23 0x1fe39587076fdd0f4444ccc75e7c088d2a2205e7b2cd95d66889165dd3229d7d; P1 0x27b9155c5dc47f5c255f0779f41a5f7b1ed5ff0454027a138370e8ac07a27ca4 0xa2fe40fbd96596792b2a8093a4aa8f5b8b5c28e5892e38c314d8cbc6b08412fe; P1 0x40dc3c3a9afc860994b5d71a19a1e2cfb7266f9b6dde0e2126c3874c652407546 0x49ff59198c79dc4047e1f7f96ce289c1ae93981a2899a78da3cd345ebbb77d6e; P1 0xd5e43b20ca21812d0f12486d014d0f6cfb2f4fd235a39cacc21ed955200b2b4c 0xac3f6b0a420cc7716f843a77c28c7bd5ab64d1a68d01b587b95ea8c5cf413bf4; P1 0x486f4cb78f48d5e9d72083f33f464d9bdfb91f9b5833a67f31cf271d238c5fd4b 0x754cde711b9dd1fada95aa097b2f4b95dba5049a16e41fa47d9d44eb283dc2eb; P0 0x35bf5a686d6e5feb4ceab9f32ec683611aa7918f0fea325309be26aa25a46a8d 0x4e77e494435735bc6b2b2a47146cba715f584376b224ae9534035ec0e0b6e46; P0 0x180d4770bf057514b3b6a21f91e0e8d3f841a7c28d3fcea85e2ad9cbc52944 0x64c244228d0354536959f570fa197830d4634691d03279edd0dfb87c1d496468; P0 0x27a858a67c530b26d4c007a7591d90ab83d2fdbeca16d17ed00a4c0fa8eec9b7 0xc8276d4e4d614c1814bb0fe694414cd6b880be763a49f95aa002c699a3a033f7; P0 0x9c7da0dd71ed013fbea4874e977d50ab6de51e49483f0cff2e142fbca641ad86 0xabe4987ce09d0c44a537614862cfa83ba187e1fd49d8e9718c65c7682f8e05d7; P0 0x736b2fd740c19d9d381d50e3f3636571c11aa04d097a08bbea58d8321dbbcd46 0x46b17a995f149e26219c53ffb5d05c6a4de0b616ebd88f53274d4dd18a61e7d7; P0 0x13858a16b650d5989e98f44478d5fa37925eb2298943f4ea0e67bcf584a0f195 0x85e9d3280a3b735040541a31e41d651eff39c5eb5a71489f2bdf5368d384a826; P0 0x460ccaf9edbc382425aeef691b36593cc81b875b607a52213d910234cfb5528b 0x1f3f38c5aa7758001dbdc76d3e71596f8ac6c3f48a40c703835a37014957382f; P0 0x3d05f5ce0fa409e381cb0a9d73720b1543f92a9bb02f950d6b6c85a2aaf4f9a 0xd125529f4bd168a01fa34a4dcf9b7170e8dc68f9d9afbec39398467a34f5e83b; P0 0xaaddf659c1603d68340ef55ab55883c846ff1f5967b2fe25075202620fe8f767 0xdc53c25eb469a044bc6a3b9f24efc186e01a26edbf0cb80b8fb8712c5b81f500; P0 0xbda0117b20b245e787198cc97d243cc9e82fc1c2ab259af23681ccb812c474d7 0x333af8bcaad2bd3f5d3b34aafc34f7cd36b47f5dc08793f0b62daadee73d74d7; P0 0xa408cb0dd7c01997944953f6e6ed099003515cfa6c8c9cfe0c2525cd5868d4f 0x7f6677e1ed9383f2aeca76dbab45e3b345102766fe2a41e026fc7addbb5019e0; P0 0x3f66d3f6294c54b07729b26697983a3adb85ff49316826cc2207dc3f606635b8 0xe0065a81172075552004fedb056743ade9769c549b55d2c2dd0c27dccf03b9b8; P0 0xc40b1e8b0a9006bfe1d819f0b20bb59e4c933468c585d079b4a816df21dc03a8 0xeeb0e22b52e3f2763b80185d893d9f774721f891c86207e2664c618492e777e8; P0 0xde8d5ec1300fb4b0f6395a70fb71989a3187d92ecb615504a2a3d05ea661256c 0xe1a48366f8250fcda85960ae3e0edf94cb9a8fc0d32d239bf0421dace33aa7ac; P0 0xc6e298b466743957fd3b554367e1b6732da6d4c5ac11fc1ffb6b70ec507b9e9e 0xdcae9dca797f402587b409f2bbbd54ec126cb160d40dd3465a9acad7c03d7a2e; P0 0xbe3c964f9f8e6eb4a0bc8fcce5bdcd27d1cb8c66799425e72834191b3b344fe2 0x8542045b1ef045c29ae0bff14a391bee1ddd9cb9eabe8023fbfc3067af703026; P0 0x455da98d32923f539f36d827ba27c2f92dd897bd8d1a8d130dd85180c1aad0df 0xedeeb1ea6f394fab06295bcd074b648eaa49b7c4da426891337e312dff91683; P0 0xdd23d3fc3aa0c48aee27dc865b1b335794155898b3c8b02db95b62cf7dd151 0xe21435ab936dc347fff082335f35109bec158039129a75dd4ceabf63d64e985a; P0 0xc7a7b05c26050456bde7e6efb56f96c24338cec4769103233030f7ffe44e298d 0x480919f5e941251462d79d95597f13421aa54e70fea6e563e04098738dd12931; P0 0x14451eed3d661e24409fd56a5d31dcec935b0207bcaeb8d1d70abb4fdd5405fd 0x901c8515a196f6c42cde72b7b1fd98db19bb9c1814709bf348efff9a1ff6c15e; P0 0x512018e608d4c3432a444a4c3dbf711772e60fa83da994ca58396db167dfea5e 0x6c40904afcaf7742a21a95a05452f5cd880f3f1d8f7b653853d507765e96c8e2; P0 0x2dc68a07e9cd60a00b2426154c26c8dc91bd56165c619ee4bdef90f35fd73466 0x86c75a0442629bb10438b0377f1acfeecb60b8be6a8eb2d926f431a15e511bea; P0 0x46f54d79cebabc845f29aa6975d76e242fc1726d3b9481976f3f4fb2de4b4f54 0xe1ca9ba6ef55ece3dc463f3209d961f4b89b1ef38ba4704eec3aa39636a8138; P0 0xc725c5f639f016a523a21c07f56a950ae3456f2f3c636516077df400674b71 0x1daa3410add4485dd7ac9185f79325dc64154cda1d153e90f0fef5249400c7b1; P0 0x37000f4fb8fbefec5970d63401d6ff0fd1dbab47eced8bc7009dd84e296217c 0x9b000a52e5f4aba44504c1af177de71daf6fca7232496c580747b832265ac9dd; P0 0x5dd90c80c0b9e9288b2b0ebdeec44ea58a00a979a0e91c006a1b2ddaec6197b1 0xb15a4f3b9ef6ef83a8bbb5b236bcd6096934e83f7c22ba4bfc14cc4f16f2607a; P0 0x7ade016cbb21183fc884b2ba94740af5dfd4dbaf7c8dc7e9026c92c049c9502b 0x8a5e808797d8419c3f2ab09ed903e3383e4ca50437c28035bae51c1bcccd0a4f; P0 0x4aca05751e9a8eab386b39057b150690b1d2d5cfdc55a551e89fd49b1b14c771 0x2eb7d6ef1ff89779e3234bf9f558eb9f42e5e23bf7b35ba8d74eb5ec86050bd2; P0 0x8869542f65849eb9f1de3d79607bb68b8d9856c694f93de43c23d39e1903133 0x3bcf9c1c8bc9a7af1e241d93e8c6035f094af2615088d876b5e844e3304fe977; P0 0xdf95a530bc52b4787b1eafa03ebaf78662e5c149e9990705debcc9ac8a8a7c2 0x9e4616d5049ba14b2ff13f29e4b63729fd7c0a70a14fa666f6791e2355047d13; P0 0x61da975fd212859fdf4c7f289ced88cb03d89cee9358e59ab0587e474252cd08 0xb90bdb1df90d7d567765d2fe8f1bc970ab45b040a532802ad915209c06065c71; P1 0x5399560700e6953c2c6c208659c484725072c64f5d82112401e76192c38869cdb 0xb70064fab357658cc65c3ee71668685bb606c00cb679e49cd1e63745d34cbfa5; P0 0x82d1905f170d552ce37f4e80b726d7f889f9dd3f17c0c828eaa87599391b271e 0xfa2c4ffb289748f49d8496c435e31d6deed87f66790c53eb41444577908ac777; P0 0xf47a93e31714fbd6f8772d173bb6ceaf55d658e11981bd1145e6aaba28e9915e 0x6528cc11cd24cd99325e64092755f3a29d1b58a158900a522d46acfdb09fcaaf; P0 0x27f937869c14bd7120ad2b89f3567836b1ad7554df05464d4350cee4fba72cd7 0x534f1f8dee9a7c03e1ac7584cd39b5feb6e6a85e15d36fcaef12af390181d078; P0 0x1b1c66eaa1518527b38963a0bc0d82c7062af8134d6db5f60ea8e32cc91af6ba 0x2f1d5761abd66808cee036db060f8cfb808e3b7923a65998965e0e117bce2efa; P0 0x8abc972cfb8fa48fb8b599e0e3e754098882547cce754ab1402527969f3500e 0x80f12cdaf7f316661f8f8d4d1e2ec1a4b2cea1ae495366bec5ffaee148ea1c32; P0 0x40f21010b507fead89c92505afee8917d2768e8f82449512ea70b92643db6b19 0x2eda9d64fa25a6ea8e93f02f1d4a1d6c2e79c658af28de7388aac6fdf25e64dd; P0 0x8934b40c337de03ddf03ab5bcc57feae9f1ba5bf0a544d997455d30768cd514 0x85775a091f69bb176a286e0e2466c0c78178027bc8eb2ec354d92f8284963bdd; P0 0x45953b32945eb64e23b29451242c3f7d59bd409bc10224fe1f1ddce0ec729301 0x1a9cf6e884f3a92208e52f7d75b0435e9ca2593f2e3b50e0bb03153b096e2fca; P0 0x2c44265174b7c6ba78cc41c2342e61c5f38877706e56b7b6bd0011ec1e33e9e 0xca417d4a1e500f2dce7e3e99d1f7fbdc4654c27ec59f3c8b13861b0410670a02; P0 0x9fcb6a7a74969e258c9fa94c858c787e44b9cee88a10a670ec28e64e09f4d268 0x3aca747f84088dff27a53d1327b0b27316c1403b0eacc77df2a2ad1757f4fa6c; P0 0xd805ce5e39469e98ffa6f4421809f55713a412c44a0190d520719427de804b0 0x86e2169c0a0fcf70bdde9f845f65c4fb0937f103012f9908796a7d4e38bf2240; P0 0x471177578f1af9428d2f3d33a88b90d334afa2ca0ecdfafe3ebd0b4c6db931f0 0xf43f21bbea7f0ecd6afed024311e43baea9d3e4518f1c6f8643c97fc8dce41f0; P0 0xe90867e0befa0305e13f1d23cbe97b8634dc1b37b536b16e3b3b5768a281cad1 0x76bf5226d77498d3393ba49399219df27b4503e901d3711722322b931bd8bd1; P0 0x3714eeb7b606d381a0be04ae680da7984976da8ee4814ab220280f7579f20f 0xcc9332e0b3354ae0846b27cddcb674e8a84ddffbdd2502965807dbff367092b0; P0 0xa37aedba3942377e52a072b38ea9d10a215a226f9d276b3e4ac614f529330ae6 0xd3ee412c24b92d2935bfb2e5fa415868b904a9e2acaf16116b371ef8174043e6; P0 0xaf729d2cb2a798309849fa775b2ad08fe24d475760e804fad73c3b4d52ea3e4d 0xb2d68c2806e7ead367b70bf97cfb5f999baa9cf01d595dc6669a4d42abec70f1; P0 0x7cef0eb6c630ead0b06e1b65093d3d89daf8824a0d7ee83c432c37c10221e337 0x2f714451b63c17edcf2dc04fc4dbb64903247d8e1767264986712747664da618; P0 0x8cac9336c133dee95c3226affcd31787dc27bab421e3e05d556fe1e38340ee4 0xa6981cbf094c29b37021b29e41635f06d948a5f5112e873927166756ae673124; P0 0x6c699faa528dc8c7a9c0f0a6c880bdd221c12114203c392a8a5d227eea2c1415 0x930b02eb0184eac0b6cd962e88f78edb6ff12b8066b45b98a23d8f146e92e125; P0 0x5475a5d3786ef09a802d6a6ea443ff2f8cc35d4e27863dbec317169957784e79 0xa4ccd16015549c785be8496e6053be306df5928e55b053ca70f62822b7ae5dd2; P0 0x6a171021e1cb7e593601647acb5b586d6b44d6fa5da94799e5f7a7476ca0e8bb 0xdca19c18bf436de35e073c4f2abc760561180efa4c27f651c0fcf3f5547b28ff; P0 0xbe262a50fd30cd7dda1abce5374ad20481f18481af556a33aade580849035629 0xda208febf686c4cb6e0001760acfdb6f751949bfeff429058057f8460c9e042a; P0 0xb9db7942e5a01906eea7fdcafa407628d58612167f946b679a08b9d5cbb81e09 0x2055eea50c1e87b96725444b631233a1b29170ffb4286c397daf92badfa174ed; P0 0x41598819f2e93a77a4b5c1dc80c110b2fa5032817144676c4435bbe49444250 0x27fd4c242a9f9db03ce827d55416a107b763f17c27ad6a6bf5a047ab76c5e5b9; P0 0x63f27d2a15d87c6c5a33ff3ee882960eb25ac392e027183ded688cf9a170305 0x5eb79a88aa73cd6d21c31b3690e457503d526f1c0f737df6c8ff14b782f582b6; P0 0x230b592acce4cb9f605a912b4fa6987386596f1c8193ce4185b5f41135a97d1b 0xe508eebb5130a82b263812335168033476d560d2ba78716326b5887980c2d67f; P0 0xcce8fb6bb67fef58ce2f65c2ef211ef745eda42a6c5d39d10ff91517e55b67a2 0xd3ddf0bd088e0af7437917febd05d46a7e307221fe467bb6106833eeb18ffaa3; P0 0xaf579b41d4358233a39702af759535316c82200e14d584916992501f427e75b2 0x1a9be65604adfdbc9abcb9acac0cebbc237cab678035c3f36ebdb2c29ffb397b; P0 0x2c409ba371fb9458f18acbd27b04dd7185cec1614a11f669929a3af28f3b29b 0xcd2230d04b1bbc4cf2cdeb483d8bfbcaa72b35b03bef9b16573d60bb70db3b4; P0 0xa45fc6bf3d4ceb5463f38987784390287f318ee7fda3e0eddd8c272bfc3676 0xa4cf3ace715503963d99d1ef6e1aea382e51e138e7a327789018854642696d06; P0 0x6a1a2b1912ac910211151cc01f9103aed8554b98995c196929328db22f432afa 0x1cf2c843e57382015de84276a6028e6992a926a2f25345be487cf09be49d471e; P0 0x346020e1a7f3d6691999f26a46a44310bb7bf559ad58745aca2fd8b82c2c06c 0x604ac6882c5dc5dcf287806b61be47a177bb36483bd7dfc0f9a7e32d415067f0; P0 0x24382abda62f1269d4fd1e9b8fa467c4f0b3ab41b698600edf0b9b917465a8aa 0xd651ca7dea50cb0c3c5da9f75f88344f7d362043311b52fbf96db3fa7498a9aa; P0 0xb36cd8acfb0526fb64107fa6360d403bc70401652d9a2f1e71adce2c49320b4c 0x5096e02cf22f29620066719fc19f512976c6452e7424429d0cfb9f004383f030; P0 0x195ea507a9b69ddffd2f653a3f30409d872f0e5b4c5e9b06ca4ddfa6dc059f62 0xfb5e6146bf4627510ae0f36ef0d2143f78d5e65c65260d023e97d35fae7fa862; P0 0xf6d2358d46d0eeaa6dea802058e4fbd93fc7362c3c61f9965be2ff8866f571c2 0x4b56080fb64397b8876cd516b365b1666f745542a07f1cafe0c14cd21ef23746; P0 0x162b85a2b5c6924dc61b4c4f59d612df534a92655456743d7516e526ec97a6d4 0x585ba32d48e988e03949c7766808d3a6354d378399114eb9e694ce1fe0decdf8; P0 0x1e7f20fcaad437fa1e4c646352ade61023bbb1ffff507da3bb8807fd2b663a97 0x42f1e1aea39c338f9ddec225c0ca47eaab7012fdd4acfbaa513fb4690b3d5ad7; P0 0x11819ce8cfa2a6534377f6a366dd7ea7641dda40af33991a54738e820d9fc1ae 0xfd64710dc29a7c8e594adf927b508a7c3a999200d9ae173d98d6bf62f251a23f; P0 0xfacfaedeb222384a1c9b1d1c9ed391cc957705b3d8b49160a56005a1f4bde32d 0xc24aa8562b86b9d4c1a833294028195aea617eaa62aa1260f2acb0a5236faeae; P0 0x93753ce8edefce9458d016e6eecd17d69bc2ab2eb15f859b1fbc307db211a6e2 0x5b67338af68b748b058950ccd120314e9caf84c23f953faf149a57463826a526; P0 0x20a2883f701cbafc3981a0b70bc8fbbf8213ae4e9a53f682053a3846d0960018 0xb70a6a7220e020f66981f6b606fa17910b53ea676db0da2faca54b24e26801bc; P0 0x82dfe49c2b0d9b596d67fae9ac72995d760cd62e5c9d0e2c331bf0f1ba2697d5 0x571f717d6c63fb97f2d07d552af16cbe6f4a24f5a0181f9475f4632312e999e5; P0 0x1da663000c028f5b6fd70a1d938d958ef560d2a717b1d032da73c1bc21971e4c 0x143493f28c3795771fa08cac8a5f811c7fbca3e5d48af0626348a327d4f4a525; P0 0x19841ea578a5aaee6d2430eb3223b907717fdd2cb590ec18b3c31520694cd16 0x61128a3caaf6a961c0bae389090f8e78788768ccdd499fcf2c09bbe887a5846f; P0 0x24cf0e19d98b7bd81ef278afbe5d4629a32155046b613a69261bb6b0c6287def 0x81d525a625027642d5824bc135e86d6a40fd4e8c3fc540769143e691d3c12610; P0 0x41d881695f280537fe6e8593576339c38a040868872887a959c3249190b6afb8 0xd5afd71593cf730a53862c60fc15e351565927b476bf9e32067cf92a5a7f70b8; P0 0xb25e14b25e8a9fd82be420a60a4e33be74ac170dfcfb1a549ce64b8a7ea19e70 0xc3aa93c002a3913c5fd4bc53e8701215b2b54662c83f52002a3b129ce6d322b0; P0 0x958d4ebfa9dc1249c0a8486150814fef2f353d8383a1067c6abf502b493f077f 0xa0e8c901b2bbd891bd45c242addfb302143c7a7ee9e3e3cffa326721bc12407f; P0 0x6523ceef75763ccba166fe7b6b1188e1ad8f3d7747540ebddd2abe166620cd6b 0x15fe87a1ae4b13e381680c385bc009aa2582d246b080dd01d18c60dc103c8c6c; P0 0x1e3bf51f52dd9809e0d125a96486e22f941bd494e2b9f75ff5361045af52aec 0x33762e6fc60d8fc659593650f7dddaffcbb943f04cf199293fdd5a83fa9b787c; P0 0xa584d0f6ab8a4d32b7b32e25e25ebb672402c09f82516f397a932cef900ed21 0x5f8d03578fb1df473359fd4c175783da6d5ba971eaa62ca666e9b77447dd6931; P0 0x23a9f627cecf6f1f9e7a74b8607a4ccf9b272b98f43a739f17d0ec6316cc3846 0xe4e479fcbad2ee97861ee9d398da266b43417118617a6b97603adea30e9f73a7; P0 0xcca7c5347dbd2806530b81fd023c9f9d669ff278bc3835497b1d7ee87f2e35bc 0x7e7a857ba0a0e94afa0233623ba230143278c6c3fea5aa814f423d89a0dfacad; P0 0x3e7cd609700a05a84cef42e13b900186fbab05d3a39f3bcede99ea4c77f9d911 0x2960862ce76e6901a3743754291e64026f69d4c8746ee6b8da9788bd01d8c5fa; P0 0x6b00f5f50d209f886d20c48e1a040ef8aa771dc7923ba08195b04c8cc9a2109 0xd72732261befda40f53969d3dbb5b259e6055ec0d67c45d17ab861076f94d92d; P0 0xb4d2dc3d092f287fef9017592d71ee2863044094c1fd02eae5f8945888bc4474 0xffe1b2c1d3dd37da8bc4ebf3845f7ea74ebe707b8582c8221202f9af6301965d; P0 0xffc3691ad95ea69c2ec7c6d78e24093f782d97ffd2c99d97a28275afcba4dda0 0x65033914730da34e95fb628d885432f54dd940576cb4a38a8ed2d243eaffb69; P0 0x27db8b14add91d209cbd3637e5da6949dd8e05b03b7eac34d9f76d0c3c71d9 0x161f0920355ad3a27682851926a5ea3b9d16d8398e70ff99147f4db598b182ea; P0 0x1e95954c1352981b1b803770f7e5abf064d6e5b85abbb0baac2187cc40e2f29 0x8ecf102b04a7b2af7ee9b00b07bae3b5e557c0a963085e002dc541ecee94ad0d; P0 0x4faa5d6b2f6b56a80f1d18b5c04582c372d8b4dce7ab9b5b3d47ba2ae45851c1 0xc921ddd46772695cdb625402e225b141b72535c9c912c97465a22c3f9c5ae46a; P0 0x9e0632d31972f29c7f13cf8d70004b0fb0130be9856b450e8d2d8127a14dcd10 0xd2de944d1746023a0fec10f55ce14401d3fde396bee841f0da1543fa37a2c8f4; P0 0xadb1ecd4b37e6007196d7d548a1dc420fee5d0740e3f1de1824384e2bac52bca 0xc24fe6d3d2d4afedae5de43c3ca30d89fd412e3d39f1c05f583134e8553545a; P0 0x937d32c9e5e4facd87ba6c55bc6e1df62ab7b5dd4d11f98bc8f63be0f36f05 0xc16e83f5ba3987292881ef523e3f850b5a0897287fd0c01a06a169d9331a9ea9; P0 0x9227d2aec024025f3e5763c5f4ec2eaf7159ac6e718f74c11a5d403b32ff9d61 0x40c8fdf54a0b88d14ddf624b3ab95c4555c9ba0dbef09a341a6a7ab925a8a8f2; P0 0x10651cc8809d52987a1dd427ce64ab4679f62e2d9c5e27a4d97daf63edc0f023 0x2e644ecf8f90813456159ee839b2f31b3d896f6049b461be1e3ab51c0edf74e7; P0 0x86833a04a6b6eb98cc5da1b54931692f0546969a7ca7a984fb3dcdeaf31dc7a 0xe9ff4b4a2e0424a83f34eff2a14a9d32753ecfec593edc3ea96d493cd30604eb; P0 0xd5e2b5a4f192791476114f3863e19df2831ec9e5d3834e11f83e33b0f97382ce 0xc29933b250888295dc1b03afd7ce8145a3ae4637ec12fc5175ef7418968fb287; P0 0x93ec8e09ab903f6acb90a3c38fb5cfe86e4a2833dda8c324554dc2ea4747ec1b 0x730b9786ddb4fa24465762c8b02de32ef561838b833c48dfe0a84a196a99ef4c; P0 0x33b36aa9be2b718bf95735ed1998f6555c0a50c66519d1a9832b3dfdbb78a790 0x9c47b85eaa7c9cd79c05b387e258a3ea5145255a78df790793b7c19093ffa620; P0 0x5f677ccb887a2525b55501e6d087d29006aa7c0b3b5db5759d7045a286740f75 0x8207a7aea8241552cf09d42805a73c452621cc39c3298c4c2cd701b7a6019375; P0 0x420bc6883e32f4b15442e3ee4af487597664a89cc5746797a66219b4f81e90de 0x6725219ed241502e7c619955b5e6cc71d3444cc58cb2417051f5e0392ff82457; P0 0x298ee670b31290942b04556589e1d00c84ab9c0123cba67decddf96beea20238 0x62895f16a6389764e5aeb05931e549b980fa0cf1f290994b2e7976084e5a97c9; P0 0x25ed768466c0845e88aefa7fbc0d2432091a2e0512e7a59590379b3361f6dc81 0xb682149f182943dcf8330a3643810ea410b0556ad1f9200bc9cbb850f1499852; P0 0x821d376babb5ac77bf11b20c20c1ba563e643be1c2ee3dfd9ea9631a1dbf088d 0x67ee9cc6adfa41f0940cd854b0aff8091d94f3f108d2856371161c4cbb2482d1; P0 0x2a31e08feb9f7d2c899aa0ebb01db19ce389205232f050ba24cc6e91f16579e7 0x135978b193768c3ab4171879ff46658414ee2eb22d85ee12c5d22efc55066888; P0 0x176672f81b97dda1a260a4f65c7845482a6c74d2b2b44aa2471204bf197164c 0xd84424fbc1c31519d9fec0615ae4f8197a4779fef135da74c1fd0d9f52a5de8c; P0 0xb6b3108d38c2f9dfbccbfdc8429dc93becca2e20ece4b191d9a101ec9a9ed15d 0xf5cdcfd3759d65d995443e8c5c20e91ffa7512193875d7676fac59deec8deded; P0 0xec0395422c84df2878e3fcda84fea092f86c3cb6fb1ed5349617d891bc44acbd 0x11a5072202150f1f49a9f968da5c88ddfd955ac819d8158fa2bd46faa8775a26; P0 0x1375554b787b11e10ddf4539d7770b3ecb50b3220d4a87f71643d1e45ce8a47 0x2f0486897035d5ca061bd9e13da4daf9d97432c1961772d562c5f54d14e147eb; P0 0x8a2a97afad61aeb755f5352ada56157a77b327f23fad94b5ffe4ea1397fcddf 0xf954c311e10c28011582f9d8e0a28131b70a63784ecf114ec08d597b70c9ff98; P0 0xf2d5ff8a52ff936deb1dd1af859df36f41b48bbe8f7200bc450659ad8d719566 0xac7228a034174a62ad3ed315ca5eaf059066e3bcf0bc3f35d9fb04c5e951bfa6; P0 0x7429997fef49bebac2c426a6d50a63262dd2a0be079f9ab53e844bccb2e38e53 0x8bfc199a2f5b55f4c1deb264d466c94a3d35d0a67d578ef1f47c5a3fb568adf7; P0 0x4c8bbc102615a155b75f4beb1d47d2e7ccfd75bd8cdd53122ded9abb4dbafbd4 0x4f47eac144445d373b57322d89a927315a2edeebb02d068ff19a171a62a2c025; P0 0x188d77176f2969401d9097087ea3de2221d07f0f8bd087460081c2ff8ecabbf5 0xbbc4994e94e8fd5a3c802f52089cde9a6e83b0cc4731c6a2449c7317a1d6414e; P0 0x89b8cef473683bf743adceb7b9622ee445e8fb19e1fd580c048529eff30ccb21 0x31d314aed05232a4f4f808ccb21f011acd3205886c8df42a05102b694e1d7ee5; P0 0x9b27bf60f4922c55875b640731ada4819ebb5b18da2c3d8ed4d03c4050793d6 0xdf0ca210450b3ab25e201864c0ccbdb5b6b574e7fb0a6530d09606578fcfccaf; P0 0xc25702f8b2bfa4b31b6d82cadc6de73d52ed725a8dcbaa89745dc43b87e9c330 0x1fcf9f0217b9c21669223c7bf4aba1bf5f0bfd21535ceefa7f10e685b09322d1; P0 0x3f3f0e50dd8e5cb77cb0b8689c263fbd5ec09a93d27dfc401d0753cdbf32837 0xce35094007eae8cefb86b2184491d593a7f9deed82f90a010f2cd2d73cb556d8; P0 0xa61965e087b04c63de29785f1e9c0444aaacbf7eb86622befc5bea578693add1 0xeb431a54497de1e5ec63a4e11626c6642ebf818f0d89a382b013aa50b1798411; P0 0xd83443ee61f5133bc9b177cdd5cabeaf8aee23a58062b046186d96423d623049 0xf9f046c9139fafbca41b9e5fd9a2dcca0c1fb37a3f7d2a4fdd55f72fdb95b96a; P0 0xf4054b38e8c94f299413a97aa7afc1e9162f46385a04c1e52adaaa9a827771af 0xdc749f201d85ba6b5011f8aee9aa641399bab847f45daf8c985cce533a25d193; P0 0xbdd8a6a0889a28ecb00870640a5bba39fb5795cfe5d834135a2910e3c74dc885 0x5c73b1439a98757dbe86310f0a4388a183797efe77b3278c2ad4b2c2a35d22ee; P0 0x21635bb175fc62be6023d04e1b978acbf53c9915955179fe1511da076e2c5afc 0xf6d76d0b59d38383051ea68a8888386599962f232d74932f8d3d7f1ce7dc7040; P0 0xee02badb1628c7dfd1bf2e64683aea80c741edeef00f42a93f7ccc004688e6f8 0x1eecaf48848ab62941aa6028f7ac8800096983632036fe2d7f946a64e5c0f6f8; P0 0x3bc53e8a885701aa3f052dc321f4143c92b8664934b892608e73adaca1f1da7 0xb126dd0c92d3a5aace8a4d8a24ee5bb4ef609eb2c0ad4e85c12057e5dc60ade7; P1 0x4c9e3a3b65a41541e7c64a8d37ef551f79de4322da61f640fcb164710ce68ba07 0xd88005f4d58b7fd5396113efe205ab9db00dcd3bd7d715e6d15aaddc003cfa71; P1 0x726f2e4c64c3f2de3c842b2b573f03dd666946bc7dabbb118043dbae182132281 0xd435e135b8ff26eb443e3159ceebe85f9d5a868b1ee15f6a43b6065105cc1d4b; P1 0x6df1cd376e6cb91281995d0d851e9b37801cac02c814c2203eee406a28b0d0916 0x559ae6604a5e64746a7099748facde98747ac3760b552dd76400a422d3e1d0d0; P1 0x11e424b1c5bc78057a201dd7d6d107e0eef8a6133b0d82d781fd653bb2835732e 0x65f7204bf2c2391f4ce29e2b1c49eb11e0842ec020e56cb00cbe324717b00d2e; P1 0x196214c723ff51348e35a5106093c3fff6f8a24ced6818e257ce8bec663133728 0xf810e4d50975fb3378d57b31aeb5fea337d8d7de1d9e0a396da89c524a5c41d0; P1 0x963c75ccf02dab8a1e1deaacccd5dd0fd8f75502be273340c8c3e222b08432433 0x2cccede6328676e675302f79eacee96619aad59fec0854652f59679f3873fe33; P1 0x4e66da3fc3a2a7749660b1f19871b1a35e7bdc61d7144182880e33e9c0221acb 0x882b6a769997ab417e08f62a46fe1b73d3fffdf1743244626583bf1c8e728865; P1 0x2d44d94d05565574c3625ed31bb01f054b24e57e7d58e01527407527878679513 0x5a0e48edbb756d29a479538891f450ac3b5ca554d088ac73102164f28aa2438d; P1 0x13ccc78c15ea506df20cc9bcb2f10b6c0e2c5a70e08096e8854c6febd83b98902 0x4ff4edf4876d2f41814103b749c24039d896c8d5f45f191666971d4d4e809d9c; P1 0xf9bad402d6b90038f42464777efe6636f9875048f250db6f135624ea7b37574b 0x95422b86a97a6062f97fb4e31a6fd3fc239f97a36c197c141329f9f4fd8e7deb; P1 0x3663cedb7ab6c7c671ac232b79718543d199b3e799eb86ad7fa282c8af9f19d3b 0xa0fb22b091a376c76e442cc3d1eb93f2a20f5d8bc5da665f480182333852f675; P1 0x3f44cd1457e31c41b929c27a4cc7c37f26cde6b593c720fd7cfc3db420232ac4e 0xd97dde3b791b8250fa3b770b1f47e09771d5491f6bcf3f86ae76208a046d5b08; P1 0x737c2466b3ee35aed0c0c2a0e9e7fd6b6cf996ca09ccb4050e6c07b154f1cf8c5 0xdea3ca0a1563a038c3430c47e8bebe79bc5c26bf84eaeccdf7d5e8ea42efdb45; P1 0x79044d013862c3915c384bc36b613423d0cd32994942e48fca1509cfb452bf96f 0x1c793b092f8eaeb351aaba32511757707e1f67c6b2deed90abad4c4e8f9f3f69; P1 0x1fab6f3cd2ad78b1e2b5e9e8d0c0523877e7577fa751b2ef8973c51a1084995d 0xa3ac903e986c396260a17f3fbc4057bd30d8d1b6a5fb317b2d4293f965e11407; P1 0x416740816a9572ce5d0add5ee8107b38f8c7a67da8440f5547af25834446b551e 0x5a84dc87996e978abb3e19068c8db89bdf9aba0338807b3eb0f611519b224708; P1 0x14010e02450fe2981eac16047f20e909dfd37e8893e31ff891214c6a00659e0f9 0x6406660fb0cf8ca1717b6da46c95a4a317a8f85557f71fe91b2e274a58b04379; P1 0x186d1fef58a676d7f16e296d52ffc02a8748e39639be29f5e798a1ca1c7cd6960 0x9f1b400bb304d5188d865f6329b29bb9e445a5af9953c7db2c3d69aa1963014a; P1 0x3dcdc9c96e984c6426ff353a6e29cf4cbee3844b33f8158e5ef68627e486387f2 0x2316163a03628b8585e0e4f987eab6ca6b505963af54f1b7deb966b6c8cc25da; P1 0x301677d51859f7fe869cd3f8f1751946f7afacfc4c6fa8b20c94edf9fbef803d 0x9990e807601f364511e6d1bc5d3994f20f804e1cfae9d9aa1ab47d13b646e8a5; P1 0x3993149b64c256ddc87985b2e9927681abe237c52f30f623fab453993150f5ab2 0xbc29bb03057169e189c2a46db3a9850ab83467b2c6f052987e9ae2d1b59a222c; P1 0x567052ec822ca850aa8257606e2298820177d311857a391432b3702f8c0c4baea 0x919c7b9e0bcda5602400da053517beaf47884430ba3ec6dd18e704a23fc1e68a; P1 0x33c3a64e2850c5db9bd6ccbc551d9c82a14e5e967beb084a934f5c6b83b459b0a 0x145218ddc88f9cedb5c0fa03a3fdcb57b8af7e19c990831c9c50c09da82832f2; P1 0x10214e21fe75e4cee63cc03d5584f623ae9488b749dc2a0379f237b89faec734 0x5376c7d4dd84636c962262d5de8d8d5138267e7ec9b5e0cf1c40f3c8795106dc; P1 0x1101e5ee9a6bd3df3dc633ac2fc931727419ca79679faeb1e6cde15595660582f 0x719a046cf079ed5a37a667bb3f021ccf9d26c5a9908dae1a080ac8267066dacf; P1 0x1f81d4db0f282c6bb04fb508690e2d77b9f11560af8176c5763d15eafff33d978 0x96fabf72678bb82d82875a0e0c42293f612b6fe708ceb7ea6f4aed0a2eefdb42; P1 0x37a6c0b90f206e324b993182af473c4632752289b21ddd0df29a5bf6a8042287b 0x7373959392b21852c7d8d266cf6a13f1568a2488985fa4993059d63efa7e0aa3; P1 0x208aa7db9266fb2a4820fe8b2fbda5ae23d1a7827fd848e12cd1f15ca027c1af9 0xd29c26daed261ebcde881e7dedfa6d2f59439fbd7c6c058e29dbefa2536f80d3; P1 0x6c4ad95f84e8a7f137bf677875b3f22bd1b54188ae52842d46dc776e1d70215b4 0x353cc5424d866e272efb502e53cb242bf4d15adc879772f6864965bb90ae0ce; P1 0x6eb631098e79542955386ed44b88122c58439039067fec02d4d9437ca1535d 0x93516c058bb10f4213695b1c2eae42c0660a21d309754cf449805f8c2baccd05; P1 0x34fc2178a5aee4b0fec660078df6663330908aad3a567c6e81a0298f7745e7c23 0xa6c8361832dbdd8cb4523fc0267a15512311b0c101d53b1f4e292acd9d78911d; P1 0x43e929b5bbe8ed56548fba43c6008486a38c403b04fd8938e0622f92f30ae3e18 0x62fc175e43cc7c1c1f21664a4fdce8218954ef5ad111ec6ef2c5415e8b20e2f2; P1 0x17ebbc5575afce2469c7e671a39e1609cecb5ca931da2c86aa6d0ab9da9a879e9 0x242200351e6676fab8fda167aca4ba8dc7d594f51a5d789a796f7f88da8a3991; P1 0x32ffcdbe25992ac3293c7bcd37430ce4dbfc4dcfe732e113878540c97d1bdfee 0x92de0f030eaeb143912792855598a691fe76c10bff6f5c622a5ca02c29d6c938; P1 0x34a94616a8fe132b691ee2acad892cadb3e9a69ddf6f8482301daf0014408ffa1 0x9a2d1adbdcef563e5c404a82b7109e19e8657529b42d3015ee4ba71af1e2da21; P1 0x3a086faa163c932b2e534a0c65b4a5fc2e23ab85d69a7c725786a01c6ee12b194 0x2a8012a9fed339a4e0795f6f88bf8f9b522f976a4612628d21f8adfedb54e41e; P1 0x468ebdf8c4438a8f5d7b0ab5e0119bedd12c474684d5144d75ea978236c2ca6e 0x3911d29a02fbe862088352fde2cc7625f919a71c3a947d3da2064b4474594d96; P1 0x7f396a3ecd99872442217b21aa693f0310c66dae8b574013495bd826c003948e 0xa30f082d6c721d0776959583e5651c618a8a65fa6ae66f81857d73ac821f5b76; P1 0x40e9974fa176e68bb766450fc39ff8fd6336be95ff8763282597148c1215a51eb 0x57f4e3d99f0bc2e940896e1b898c3689413a84ab0d5033d2724511b059e559d3; P1 0x12e33a34ba393fed21a85bd1c9f71e92e7e57a134abdd9c37dbfa9acd550f358e 0x4cb7a766bc8f8f6a5045b32fe1f9660b62dfde7b12cc348131f2a75eaf271ca8; P1 0xe5e7977a7cf3cfe43f9b4ac9c05b95042e0fa05eb71214994f51af6d82b2e494 0x9672a816507e4201297bbc296d436401c54fac5ada094a47770cf8b7d2a6b314; P1 0x37429a34e49d31130c68d269cc14bc2d65cf67226717c2dde75410b85bb3947a1 0xd00116bd3867b596bf614910901829d7fc093a9fc2ab1f468247f4f52b4b0741; P1 0x69a11b19549a210081cfbf2c282a3e138fe7973497e5e0d63c535f1ae432206c9 0xe86d4adcd7456d583c8906eb1e09e432ef288fecee23fff15556c215220c37d3; P1 0x83e3ebf83578e7635f18d326f034285cb1f94b7eb7752fd0c78334956edd2651b 0x8e33d01531f2879d1bb46f35e0adf85891639f8eedefd40fed4551a0355dd435; P1 0x315e7354be7cd4545824d0d6c1bb039480f00076c15a82816f9f538eae2c0d37e 0x31132a1e5ce0c73254dd4106881aff39ee0cfafafe75d7582a50dfd06e31138; P1 0x5e136b9563fd888deee6641cb64c58384684286b88181b4c79fb7a97ccff9b 0x2af472f319626a00f35a3b90969b9b8644ee088eae1009c6c1d180784081da1b; P1 0x4813375f319825c73bbc7cb09d8fb43e6e7d3f4347f383dc8194e596c016b8e1 0x3d2633ba681351c785aa93ec256ca879baf83a2e748c4050c76777e51a66ad5b; P1 0x92104786e3f7569aeced255813e828cab6258f68538a9810f572d891b8e01b53 0xaa382b8190e0979eb7cdf6cbc6028a0383572b434ae5c5f3b590789093f14acd; P1 0x46bd27d13d8c303ce8533babb85f06b0eacd4deb05849b4f0bde17dadb880a404 0x85b28535fe6f6ff07eb6b0d6e98bd4ee9fd846d8f62fd07ae2e2d9433ad4359e; P1 0x2ba3dcd0eee016b770e1f9f3e46d8acf087c73bc04b73d2cd973a4061f76c3cc4 0x6d75411525c2922e8e37a8462c330ae9c1d6addd1f1a542207ddf176609843ec; P1 0x1d4029747745217d27e2bde3418ec9641ee0a1c0a675570883ee2920afa956ef7 0xd0e9ab8453fc5aea1e87f2e6cae38bd942fd2e1d63169b98cc95b0bc414b3e97; P1 0x6a8dd780d9f8f890cd1085237709ced97d2d17c78b2b3d42be0fb9a98258be32c 0x52ab0f00ab8c822da9401ce2ef72f3b2068bbf0715d8c8e14b041b684756c5d6; P1 0x10af44f1fcbaf033b851e224efb701c1276e370b5717a8abf6c5f8f90615db085 0x802acabc7e3b273159162a9b25b5561bd9f69f0789263a069862d9ce980c456d; P1 0x281ac32e6f00600e078e505f3bd63df1f48cf5d37bc27834808c9eeec1d2a538e 0x8e33d3c210f0b3dd7e6691eb02ca185a0ad4abd7c82b9ac88dce3744fa1b7a8; P1 0x315e75e2092aff6f3f5e118f4c530fad95c35c68cd5210e3cf8a4ea00dda269 0x59c58e7ccb1fdc18f647fed5f478b8a924c4e216c0aad2166ac47e80138dd0e9; P1 0x13acd974b00e021be48ba1aabe3c19cde1f9df6f3a5541ff0682eb3327946e163 0x9ca789c5c2df5c12800f1f5bae30e0f9a732c7e69f3aef40798cf8ea44bd6a0d; P1 0x3be9e27905b3f7548fd3c58d7a3ce6317b646c9b32f827e0185eb28cdcf21832b 0x1770afcee2ae8fb3266fe586d028c7a5eb55cfed2a0934e39e2583547e6931c5; P1 0x15766beede6498a8a6c44c748185fbbac5f8442f11c7ab327a6d5b16911b2cce 0x9478925a6c477df23e5e80ac7514a4bdb3a2184ade6657e6abc956146de13cc8; P1 0x35d1454183576b5051dcc6bacac95cc439a2964654a0c920bde95717e732dcaf2 0x63fac67a26c209a6b152e76852f7901cde7792157a53eb490b23f14c8f1d6572; P1 0x186772facceccbe8034ee6efba7ad61a571ad3ffec5d4c8694e05726b2515b155 0x7539872d4eee8e4bfcad6739ba8c813c8635512a85ed41ab0260ba62255d34fd; P1 0x218c858e2fdd0908d97de819f1a377c7310f73d0d1055e2a4d469757624154740 0x9c4401b055fd8f42845644bf49cf421d1e020bd5fdf8fd1e780c4f04e3f6db9a; P1 0x3b9dd8941cac523991d9caa34b56c365eaf38c43162323aa2d556775ed35cf3bb 0x58134cbba50f9e9a96edeb11fd043e33ac7da978abd05ab3432ba69bed56a23; P1 0x12f04be180a58a7236c99fef2115ec4635736746c8cc9c5f2f0031eac69b859 0x7f6ceb5018f96fed900746486e2bccf4801a778bcba32408e72e14d41adfc033; P1 0x27a447e2b18db9e71c654c852c248872af89da5e13515e51051ec9f2cda244c7d 0x86ca752116a2c149e50b600538368445e0fcefb16b2250fe3f99bde88da5b217; P1 0x2c5b5bb57b4c368f8f968e96cbace04a9fdc05e72a07f4ca74d33cc466cb4faf0 0x1e70fdf29921bd55b2c30ad5ccc51a28cbf11c707461ba3a40b6b7625018e79a; P1 0x2432c5e89cf3d69b9dc951e5b732a9934a32bf3ccb8389a2983f85528f8da207 0x8d0a74359af7b904ff8ec3e33d43b668a9f36ec18ce33e43f666301f7f96786f; P1 0x3090d2c6661854cab440d9976bd9fdd7175f8141714735e79f9846db5e515bcbc 0x59483e9c9c1ccb952e000ae958b6b432499a9a6ad57a4258b5fac1e4c4703e06; P1 0x137611f3aeee9caf9f38e8a59815dd18f3bd4aa31c3a79f359f3bb33b56d239e2 0x15509f41baea8107f8fedd7b6ddc3611838e6793aabc33fb364797f681974b4a; P1 0x11bf432f21f35f2414f0c4d34a710fb9eedd94a57aafd72a9235428125986fd6 0xc1af3b6e03c0cf1455c5d99fbccb796d0bbae434806f6d82508b7199f7fcddbe; P1 0x5b960db93980a5010a1fb85a37c1cc750126276789777cda7923c43b2668c968d 0x6f648defea133cc85f0d92cc25150be211eda71e5d9c1e7effe3676ddbdc90b5; P1 0x1e4b389d65bdcaa19d1e35154cc6b3c9ca21e4495988ce930512d0974896d7bbf 0x68384d82953bd55b0c28775ebabf41c16bf759d4fb0aa1f8f608f2fbae56bb79; P1 0x1a849f19aaacb20b530b8cf4d961c514d95334be744d95c62a89d9d9c8042dc62 0x8810774236a084c8309378ba32721d2e9d6d39b31407746664ada8a64a1ed44c; P1 0x2d32efdb995ef084a33ce9022616884bbb9edf373ed48885cb9431d1e8b9d8d8d 0xa543a7420e1092d3cf6da53a4814c32cb0f09db8b2126e3a854437365e492f2d; P1 0x42ae2cadd6aba883cf33d9af24192607e63145913998ea1ee0b2936e77f90b6c4 0x44816ca448592088fcd94017f2cb05edb2e0f83a95788169d4efdc695b2441de; P1 0xb7521f7c2c62ff3eddd27f9b790dad9aae71feb7acbee79c3f27c129435ef9d6 0x363d934cc65f2e614fceef20f95a1e968952923651ab5cb5124fa9e17537d6fe; P1 0x72ec5987a13bdf37adb38658f9472ca9ece9e81feb36cc74b479b1da3c80ccbf 0x9da3967d2bcf57a1da53cfb0885455fccdc84ed73f050862a0fb55a8cd7134e7; P1 0x3cab49734eeaee7da39bc2c35b67722e7c7ff5c35113ed59f94b76cce4623f5f4 0x9dd095cd9629e2c674241e4c46ccd1ae3259be033c0b38bb1850c88f56c28a5e; P1 0x3ccdf10f72c1a96249c1b0417bc9d8bb07079594077a9f8cd506d5ca6967512cf 0x96582199bac2c79fa57c18811a2946be2db41ce405b87f9a7954c6d23303dbf7; P1 0x372f1f92c248a7841d3ce59188ce4798360fac9b8e5ae7da02aca2577cbbf7198 0x83f0c2b3993a0ea4a28636b7b9c60e15a9d2c49147052d17ab491ad0dfa8c4c2; P1 0x2a802e0f12c7905b24da79188aa93792d10a30b3db420b990d5837e9817cf91bb 0xe436967fe4cddf7dc390acf937483d4ae34751c56296fc3981d7b984a4fefe3; P1 0x7f26ccd346e526ee03ca08941a1af668c94d22f7fdb1e286164e55b09d6000a 0x15cc6694daaee5fedad123c94c096236bc6b609d2538ba2af1d1fd6eb6ba60e4; P1 0x128fb850c8c17d41ee09e34977095e8679b3d893b558a3c0855e4e18709ed91f 0x20525e1d179e88de1917ce2e388a851a744c7031f76ca5e6ad40e40bb074c7bf; P1 0x28cef44d28386098e30d836b32b80cb6d378f5b825f69b9dd854c3e0ca4e668f 0xd0c95ee05ce87feff0ab4dd4a75ca12433ecdd7a6d92c7b499f26b3f53c76b99; P1 0x6a6ce75c1c762e055ccbbaad17bcaa72ada5c13a91bd028619ca3a87bf95525af 0xb93e46b3d2561f746d5143fdc993f675de553db9261f8d5b287168b0a83db419; P1 0x53c6ead6372ba928a76ca9d3f256f74b40030ab56e04210f75230c2c3e72176eb 0x2762a04e0d808226739f14e6860dce5c5bda989e00cc043e5846ab0541451f55; P1 0x3c97fc654f237f975a5239b4aadc95143b4c9ed1ce798feb7f6ca2118b14d700 0x246deffb6f86cb13c9c51ab2eddc93939d10c75ec5bc421acc4229043ba1cd3a; P1 0x33d70b11c04e4a023d5d2ebfd52eba5d2da3b23dc78d2903bb694565171fa677 0x9777e9e812d4a595e589ee982df330fb717335805436d79fc14efc2239e311df; P1 0x38032cd1231191e02a08f3c5a87fe4466fb5c6d1f48b73326e9aa221ba386f196 0xe1c6ea7f5df45bc76320912636a5b2bf9c36aba372f56fcef274f41faac4b420; P1 0x7c7389baa6cfc3c25efa7a976e517f9c632b217f9df4eab6957da3c01027eadad 0x1a375d0b124214119cd863d2fc19a9497d05eb5bd71560f86b02d9351fe0d5ad; P1 0x1ad8ecb9b5ac0edd74b76c348c0e0dc673d1e6caaef8461e85944d1067cb3d1e 0x96a2e0965c95ce317b54a9cb84401f128f2b65f63b4141ffe1bc2d85aec8a238; P1 0x37660c42fa4aadbdd90958dc718401f5a82066580d647b07326602ba8295883c1 0x66df438de06439a16cdc3b031c6f1e78f7bebac968345ef23d381b1c1845be41; P1 0x19d62bd77cf866fa6b2827a336690904faaff7265bc6a97bb8b5235923266fb32 0x250906450799bebb5a2772ff60b2de82e2d692a07388de79f897027d2eb8783c; P1 0x3594194e299ef270acd1f123e6a1356b4851ee428f863091a8858f22e78f4785 0x11a52af84ea38f64c8482bf30bee3bc99f9fa9a3f05e9ce5f5d93a6d1ac25425; P1 0xc2986b60590a009839a6eab6880c25b1566c5b691bfa0ea91ef0746d643c15f 0x95d527d249c8dc5cadbf4c70bb59aaab72c14fffbad5622bd147b86a639ec6d9; P1 0x36cf23260351da229f060eb8e8b524b5600ca81af37f26950e75c083d14dc1897 0x1].

(** The power is 0xb291576c752479319dc77571f109dcced1973a65210c1ac0269ba67147e65330. *)
Definition pow_c256 : list pstep := [P1 0x0 0x2; P0 0x0 0x4; P1 0x0 0x20; P0 0x0 0x400; P1 0x0 0x200000; P0 0x0 0x40000000000; P1 0x0 0x2000000000000000000000; P0 0x0 0x4000000000000000000000000000000000000000000; P1 0x200000001fffffffffffff 0xffdfffff00000000ffdfffffffe000000000000100200000001fffffffffffff; P0 0xffc003ff00000400ffc007ffffc00c0000000801003ff800003fe7ffffffdffe 0xffffdfff000014010000140000002c0000002c00fffff7ffffffe7ffffffdfff; P1 0x1ffff7ffe08005001fe004fffef20afffe160b001ed1fe000233fa0005e7f7ffe 0x705fffffc03ffffff0dfffffa5dfffff6fdffffff5a000002f40000066800000; P0 0x315423fff95c53ffcaa0e7ff89ad6bff6e4c1ffffc9d0000f45d1801d6481001 0xa961bbff93154bfe51101bfe1e1243fd986dbfff227340011d675801d6481001; P1 0xe0245f0fc40248108b481b93888f44f6881af9e5048944a849ef2383b6cb0ae7 0x6c12677afe28785b9096253c489d86d23b6a5e976c068e905565e19d11eb4ae9; P0 0x2d9f88a2ab319f7c7831d63c0fee6fa80a4fe8072e700bc4b2dabca9496e6816 0xb97b28396c2ef1f179ba8ead99bbb8586e4b39fe93d6ab2b1e3d48a8d91ff027; P1 0x10cc676c6647e11bc6422829235497df8d011e39526d28834ff6fe6853e7c7c99 0xc12f95c906e86c2eb512bf8cbbab25e30dad6922844cd46b7eec7f218ff2c87b; P0 0x91c8c8b205a7650e0123564721680ae87d6e446e713af4f42f465b5cb6aaa51c 0x5908d036057fcc742e68d78e8d06c20dc38320fc71f8f9fa3681374bc6371035; P1 0x3dee4226b704531d94b03e42015f22ba067f4b078c7bfe364e5eb3d23403fb39 0x563f8ce12b895c2ccda539d4c9c23cbe469346c0ebdec91a7e99afc21b9d512b; P0 0x1d0ec26e0aa987a3317f75bb9f09f924bd9124d0e173d508242c43b48b38c09b 0x3d3531a7fd987761b1645792c0a23b5ce14488a4e150aaa46ff4a2ac45b2fdd4; P1 0x1d44c96f6d5b981db5bd15848b026ba5e47775608442eed2d7834f8f53740899 0x45dbdc9a0be094823722ee9eeaaf474299975067f291a0fec9420d43d06d77b9; P0 0x131041be4b20c526ca933b0438c7045a8bd63a98b27c918f5ef27ff8658ef8d6 0xf8145a2df578aff4ee8c8bc5890fde872302bf5d9e2b83f7d7e062a31167c87; P1 0x1e0cee0b065e7f1ecc510d5d35db4265840496ac37dcbc263513ea40cc1ac79 0xa6f02426287551aab33c519bde27764456bb9a26bf9912a59e5ada86b04fcadb; P0 0x6cdc5025b5fb1318d1d22e418927092a2810ee37cccd8e2948148f1bbbc4492c 0xad6f1b08ce73c1848cd82e1d9beecf78bde1128a32d5fa1d3083b82bafaca085; P1 0xeafeb585a20b651696c26eb74c247100587830283a5fe00d741f3c793e1048f4 0x7dd5cf68c9455001cb3c8065e16f90dd337c619d106eda070af0659118cd5326; P0 0x3dda7f1f5ed1bcfa425e58740f277738b312174e259424cbb9f5e12d511c5362 0x2b0e5b80f13b2089e5f005cfd193b6918a03dd3b555dc429b7d1327eb6f9fd06; P1 0xe7ba716f62dfec6fb7fd0ad61275d310fc4c981a399a3bb7a8c9501ecde387c 0x2e1e241ecac718dfffebcd5b2f619752fb245db16445efd3798c38975c5ff0c4; P0 0x84ed887957e98de07f01bfad4683bb9e14d029b335805c33bc4b9b2ad3f16f6 0xd52f8136799e7fbf2b845a3b6f04ec90df0fc4c88e172d4bedfd99ec21272d06; P1 0x163102bac1644e18b4b34b22c1155cab1f157116dc35ad13b2de7ca569949e74a 0x579c8948a990f1faae07d7233015a0628c188f55446420b7524e67ab30c81f92; P0 0x1dfbc5071b69cc433e1291d8a16ad437a64123251e9ed14369e446a6e268de7a 0xf5375ff79816c2bf04e3178a8a9fa5c2a7841a1c203d95e76ce997fafa6d8dbe; P1 0x1d5c6135668b74d16a36ffa1089649f0792d3c4ecffe5263eb6cf4b1b04d39661 0xd66e8488f987d535f17f8a2961c2add4657190a0932bc105fed990bd39614869; P0 0xb39cf54bdf20091abd0b8798672c13b71eb896c2e6b3f2d9e9cf0650c9fac258 0x3994c77bfe9e47d634d4194808d7a1203468e388ed72d7fc3fc888918007fd69; P1 0x19e72e990e4cf86b54d9e7958e0b38474dbd7d394d0c76bd58634bf8ed77ea4a 0xf15b7dc61f21c22ad088e243f4d3254ae4254a510d44cc0e292c892e9aa5546c; P0 0xe38d638292d028d179f41bfdf7edc104445717cde61de9f0dc0a80e3cacd0bda 0x44dd94814b48a496aad48ae64aaf319fd0c76df47f304da15e5bc40ba9dc196a; P0 0x128676ae7fe6c9e397ebea6272c76c474bfa31394197c184279b1a0a9d568dc7 0xc17a2a5f12c8bdec958dbfcca4eec1adc7af8cfa8aa3be9d217feff0420c6dab; P0 0x92396e30562d595c53a1a04172edc66a59a5557107cd034ba6cacc5fea3c215f 0xb85af596775493e32dfda7256fdc47eb680d1aa563e29473a99220268d3f3198; P0 0x84c2e15a69b1b6406495ad3550777d7aff65732f09539483ac7d67dcccfc3306 0xecbfcda8eb08b19626408f3dd3c8c4f8f97a09d7b85217c0f6f4cd37af67bd46; P0 0xdaf232e4d390e92b0ccf5760ceed8946d2b72ac5fbb0a0120a764272587ec45c 0x10f70352627340a0a84e3fbd2765230bd69ff61277eb159e5bcab155e6c33380; P0 0x11fcec1b6733a0e6b97967f2236222974574d203d9ea43243f0f8ea500c4dd9 0x5afa802dbd99c8af4880f66bfddbf26ad82c19fd127c0ec984cb814bcf688dd9; P0 0x2055173ee3294e7bf554c5370f3dfde69c23278e95b6cd3ed6692fd84fb35e21 0x75ffdd6d652792e34e10d820872c8fe79897fe6b230d879422d13f16cc9c2012; P0 0x3663e021144fa0a0e36475fb1c14334aeaba15276f7a97b4945400c345c9d4e3 0x60970de2f56f1a9b664e227999df434d4fcd7de3fcc672b25fdf922f0fbe5627; P0 0x2471a38bbf0356b516cb991b4f70a771853594094aa5aeb23edb240c07f437d7 0x312e32a76ce2219948eda84d32857502b232349caf8aa1152bed1dfa98d671c8; P0 0x972b7ba5f523de2a9580090fb80e81744574dcb61c1412ab7b36785a3ec5539 0x5bdc6505c87e3e48698e71dc16cd86d301667e2200873f3207e04ce590de8179; P0 0x20f66d90074e57277cf1ad0ea8e663547d1c23ef6fe9a376ded0f93cfc0cc360 0xbfa22caccbdf9fe2ccdf14175be911adb5dcbb154eee9112ad7f86c3eb63ee91; P0 0x8f736566fa28f7b8a946f6bb94655b47a4d9f0eba7f4ed0150766214b3c90137 0xdd424fd90963bc6700451e5decb15d75eb1efc8eb15909590ec23dfb4c40ef58; P0 0xbf3b8f0abe42458d744f537827674b7c0bb9ecb4653ca515a94243998d1afdae 0x52e10808e9244d2a9277a193ec2a94a81aef1b05929fa5e39abe28be58e06bee; P0 0x1ad4eef4f01a91156b5a515b2ffd1b514117b726eb37f8c44786a6ea64f0c591 0xebca53dda5ec249ba986b2cb441ee2702f30b52be1f2252102844b2312f196d5; P0 0xd92d15e23d0ff33ff7c617e549d333648e20ea594723f58b7aab2c0dade43f8c 0xd51d508e84e67305fbca3732a9cc99713c04dc4db23f4bdc182a157ef7cc8cc5; P0 0xb169cb693434c56e43ae53c2a46ebcfcba71066fa9edbb3e0b67bee676746a58 0xeb1e49b28c85f162522e7615dca2a4a6fd6f8f6786ded8f9985afde743d479f1; P0 0xd7f09ee400fec81e5a0b3e9b2ed9ef0eb1a39ff3f08fc07555483b3c48d32c0f 0x5a601d92ec391aafe653c3f87a29bd98374442315ea29678b72f8e58a010e0f0; P0 0x1fe7b8e19f9ba8506cbb34cf65198e7a1d66ebc52cbaeab4d5da1df41341b32e 0xf95e91617132d0450644635a2583dbebdc4864063c7063bfb7341d3cf6e6942e; P0 0xf2e919bf973c9b8867b310a24ff2fbc7efd4bd4cfa8d4658001e59dd4740444c 0xcde89ae00f11a93f9df8d596e43225142397ceb80292caf6de962fe447ad7c90; P0 0xa59e5b64918e4ab231aa94d59e5cb97a474e9757bc45d94e6b5edda101bc4ac6 0x71f01408469de11f84ea29064a33edf7948eb269af4eff4798f34eca78f81bc6; P0 0x32b5d2d51222e6e5f662ba8d65e9da41c571ebbb9eeda813ed1805fd9e9e97a4 0x3cce799babb87601a81571339adadebbe6b547c9bcd1cdc2189e0cf51141f4c8; P0 0xe716f88f73ccab55e5c5434a511020a6ac9e6943cf95fe50869bf130657aa5f 0x78609714694b416f09a6282a6d8fb65a22c4c09067ee3e8ce7a4d963cdf5869f; P0 0x389ab21503c94db55dc3a66e438f1ab4e726605ba23979993dcb5845a06bda17 0xf0511e46094e4ca5979bc52bc033466030dc076473c9111bdb562a55398cb0d8; P0 0xe19832785ef16311eb86864c368f1084cfe10b76d9f64fde1b535c58fef2ebbf 0x2a5f7f341bd670e8bb22d4ba5b2a6b87e905a754b909c1c7ead79fdb155ca1ff; P0 0x703795cc8073dcb0151cdbfe51a254f93e593be2c827fe6fe53589c08f22027 0x803ff602b0feeb3c2bd86e53ef3c3836e1079a406993f21de42598feb4bcdc28; P0 0x404005fdf2fb3ae2d0a40a3e1d77f01f98de609bf64ecf019bd33736945fdb8c 0xde7461fab09fed420aa3fbd7235b496c2bdc6c02e6446adbeb31b782ec74a1cc; P0 0xc14e0ed87c536e9bed5728593cfd0b8374d62a39c11300c9ecf7ec47bcdcca29 0xcfaeba44518c692fc4eaa1f945dc0b949a7bee548cc5da88253d26eae3ff04b9; P0 0xa87c087ce0c34e31eb15d9b35a3fb6dfa2121c678fd6db239d70ea8a4a28a109 0xda39f31ca8f27f41bf5e50983b60b590cd60862a3753e5cea644b928c8cceeba; P0 0xba06bf2bb36667d560b55656e2989bae0ea8c4c4233cb26996769cd106d55eb1 0x174a90b29cf7e1d2e241149012108c24f110de0770c214f12fdae400fde3bdd5; P0 0x21e7bb8135f32d00ad589742786b82326f3029ae664d12a3b7b7f8b541647a4 0x4dd036f0fb8254b30a187f59830ceebf3d8a284e13a95006662ed75c8a987add; P0 0x17a6ea666256921728e5f8820c2af49f2225a42d7d1e64b1d6db0e411b3befe6 0x8ef67e003436821853489421224e44a038d48da827b82a022147526180a352af; P0 0x4fd6611ef02b6599562fbabc4fc70b270b2de4978de4ef6b6acf5dabe397753e 0x846840a8baa7693ae52e6f0bbbe84f257ab327d944e5b79bc341dd2b492608df; P0 0x447bad22de64c6360e8a7399930d629beda4c8dbaab4e292e0dbe0637ddc6956 0x29ee99a61d3bf56c19a7e9e3923cc541dc018b36f6e74d0e6f1898034e5f1b97; P1 0xdbc973292a3acdba03e54efa614029530ca8e3ab4c2b5418af657ec4c65d7d4 0x7e41842e6abc1c6a12f38e817810f9b4b8ca4a85b5789c05858e734b4e7c3df6; P0 0x3e448ee25327d4dd72d0915c80ba0d19e90e744b434adb434599154d0d1a2a71 0x2ae0ae65c0ce443a38f299277095cff8526dc3370d4dffc05308597f0a6952d5; P1 0xe5cfcd626a4209f4adbb92ae9fdf10434d0ab6708094ac0b53643ccda820722 0x717614542bee02c47fd446f78d8941073e6c3a13064382e86cdfa2143d905194; P0 0x32497469404754cf202775e20dc5aef405773d616e4f96bab66b484550921b0a 0xe89524dfcb9ae03a386c686b125173362fe31300140868c20add6fa1b911189a; P1 0x1a69d5374cc542ea80b6f3751cf1c7f55985adb0a3e8e7814a09d3ff6adefea34 0x9eef5acc426fbe11a7ed56290414b9559b8a6a2356544f13e5a5a8c46392637c; P0 0x62ac53df2e4690d200d3e5725206e70f039fea5ba54211f9fdb3e47f68454165 0x2cce84b9c38cf7de9d018fa8dd6fcbe4ffe4d84b651f86ad5018706f05e6575; P1 0xfaf487385add18583f0baa7ec2ef03af579c73123d16c1bd786696b7ed877 0x66757c50f4e590dbf6eda6d48bf01fb9f11eeaf0f93bc9be7fea17757fc1e769; P0 0x2901d4fb8a872519717070fa1d0fb90b540685c011c96b49b08efb6ebcf7b8b2 0x32bf0974856d916361718fb5a9317c8ba7342bd6991c121dc91755e1a87861c3; P1 0x141e5c8154ccf5ea9385ae596bfbc075d78296b116c1dcf1af6e1ec243c295c0 0xf1f5a80be3c5ae22a4c49af277b9b8ddfe8516f605eee12c444d3e25bc0d4ad2; P0 0xe4b072225c9c37ded2a7ec7cabcd7831a2456f2c8f900c6aa5625dd2ad0457a4 0xf72aab08865e012b8f577f725efab7d77963fa9e61cf64ff8def3d1bcc366be8; P1 0x1dd46ba4fe5fa7c176e6d22fd31a2956eb7cb429de0fa3a6758febd6b93e02ed2 0xe049a3c123a50ecc0fc302420e0ae84f24286fbac3adb06abafaf2627a97b352; P0 0xc480f3c18fc7a6e34bebac8697833c42c54858e6d6765953ddc8550042f6d669 0xda57a6c2e21a29ce7b99505b9990bd255b69be30a375cfc227d19897734e9cad; P1 0x17472cc0ed0c9e930512c0eb93f2444dad5431a0dd40188c9f825c25d6120b7db 0x9f65922e7302874e339e6da79892b93fafdbf2eaf410da70328dbc57efbf51ad; P0 0x633f53e2c23c3b90b1b987788e613b6035af3231072accee27c3c9447e47bb0b 0x443546cd6f45a38333ceeb74485dcc4ed25ac4550063034b88dc2e567e7ca9f4; P1 0x2458b16733dcd038d5d90ebf17ac9ec83d91d647310c1bd144eb56694e7a489a 0x7ca58ccb1c2b62bf9d1813d6f2e8f0894897e7154f6cd0cc0a54fe4bd8e269ba; P0 0x3cb0cb73cb3beaff9da4a87757856576b68c5ffbf3f04b893cad4522b0b3a95a 0x53525f3d514addc29ed1c8c8db739e7842dc0d754d9a9ab3cf32ac768c5c47e; P1 0x363d088609176a152a571c6fdf6cae377797b371cc974f10ade7aa75dba0dc 0x8874689294d851f1a3e93501a35356fce9638218a5f19a7d24ba204f3755fce4; P0 0x48bbe40af6700c038eb51df897e0791d8944eb40e50fe678fc7dfddea5c0ddf7 0xa6a8e7cf1e36380dc5746ce950554378fd35cc46af53ab8d4a0f222286fa8907; P1 0xd8fef82432d9c809a6f79e79375179608013cd9ba756507a1216dd5d52d71bc4 0xe5dfb02fddb774014a9ab766f6edf91afb15f3113bc29a13a3f5da5bd0e01826; P0 0xce69f4aaddba499fe1edbb6e299144de48754621016b915b4bf21b2544474396 0xb2af451569cf380f488428044a66765579ad1b7857508b59bb8ce991490e693a; P1 0xf9706823938f2852dd7ebf7b680e806ffae7fb09706e1273537dbf8fc78a8a49 0xee888b4120d23635abaee2ec5a9286ecbe84ccd8cefbdcf71fcdc09d4abbcc91; P0 0xde422bc2383bb21cb40c27f68f091e203965ec176a48e09891d78c87e704cf07 0x94066681d38acbd7d3dcce3620d34378cd9bb53a0d8c5575c315126a3a523928; P1 0xab2ecd5ed2a3069753ddba045069089018265c19ac944ffac3bf97591b1bf2ca 0xbcccd73638967078e0af1359c01610e8929894445d81cecb37b43a36afe19f4a; P0 0x8b3d7fffe1b0c37cbdff24f14333bb45b45e62b0381dcba54a28bad0d6afeb36 0x677da999ec16ca4e5fd0386c898c198296231b97fa969e1bfe6bb4a965e0ec9a; P1 0x53acb8522cfbaeef64bbda88c7e0170206336d33bf245ff5e9a62561f6f268fa 0xf3f6cfc0993667575eec6f631ce572fffe1bd591719caeb49b968caacf4b0242; P0 0xe87e7c5c7a1b41c6342870ece637c2ef7a7d6aeb8ac60abd7332a17c40316256 0x8088b84ed6d7b91d9ca8b959ed3d1c445d9cefa0043df4e2067c34c54ee27b5a; P1 0x811202a6dfacd9866a92ad253602aff13b053084877512db5f23a7b4a187da8d 0xa33b813a558a05deffe1e4256bcd48a18d1d98192b75b47d37e0fce5e3711d5; P0 0x6814d4658321dcfdc2bafc7d14e3ab80b2eea24318398d4ff6c01d65ab2003 0x57865fa1425a255988f637d62dce64ee12f0ebf0de44e6b43306e5da7c6f1b3c; P1 0x3bd9370ff320d83a7d892b21856fb4aa5accc8a39ce92c54fd65d934a10641d2 0x2e533e3a7806c5fa7344aa169d59b0d1ccf9b98d336ad3613be4f2ca22e1adf2; P0 0x862056e748ea876b13d6dc8d24e40971d6c75509f8293ccd59f28dd9e7d6f49 0x62366d32c44566c237381aa8d5753e2f9cbbbc27161242e9f673ebed2012680d; P1 0x4b5b6e5a87e3d8ab0b24a8941ecada539570f8b727bc2035a17187a8666ae716 0x25f7349a559b9e30731ecd8ec7a155d5037072adb5eb219af30fca787ea80868; P0 0x5a163eb2f00a1c2c0430167a1eb3fbcef3214dd1bdeae474b7f3ce2f71160a4 0x36b4060bbe3e707761e817d5518ae8c1e047a2569d7d3a5e12514f45fd80ae4; P1 0x1760e24b0135bbb59c3c0c53f70a2e467be3f49ad60db095915909de8a47a4 0xa4441cebb4ceb502ea3ba6aae44582acc6bf0e2fdf52f131a4363b1910f77dc4; P0 0x6967572dc98ca57bf09a7794a65b7fc33159983779076f540261f34775cd872c 0xc62c5aa3e2225cac0617a284cb166345cba1136b16156e2e9680ba8be3ce853c; P1 0x132d147cac74655f14ee9ac5acbf7c32000c43c90a19894aa64421ffb8fe0ef44 0x1663f3f083b221c24302fbcef409697782fa55f1b04a440c0971ac11c3afbb64; P0 0x1f554f3ed104a82c8b52f1a46782fdf6b1c87587acf51ad9b1c9ff536454912 0xee3e734a321fb126f05d09c9e53e69b81537fe029fbeff8dc81f13594a288822; P1 0x1bb705b35bd8e41c3684854423bcd32c74573cb5d5cf26233e5dcd5e9aacd0285 0xfdc6f07ce30825a3772fbd2ffde25df4212a5ca443811a756a13276ea0d54b8d; P0 0xfb92d1f0b76a838b0e16d43b16d280680598fd8eae6dfeaae832979eaf32f4d8 0xcc18dcc7f76b851be9ccbf181a4d29b785664bc1748718967c7dcaf1be20e081; P1 0x1456f4492f1e360135a4b8fe87e3626dd15a06a063f39609d3cc1ad397abb3c7f 0x29608fe3962db35bbf385c89c3d76a0b0944858492dfc2cc7b83ddee3cff3e81; P0 0x6b01283285b6457c540f46c4a4a2b43db05633c0156ad9ca4c077bcf359eb06 0x2814d4d08aae76da096bcc7702b6d114a11e228bec70b584bdd20d62ff9aa807; P1 0xc8d086646398858daa87352426a454963e9d381de7de28de83722147c1ab419 0x2f05201e6da5a8beab9aa25aa58dbed5b8a0a02995fe1126b88cc9258d85147b; P0 0x8a2e1e57a1d9d5b57e9eb99b21b3b5120bfb06af72e9cca017159ef9d834e74 0xf0723c24a33afb49693ffb2f77ba60aa7a05d1cd140b1c0a68d6493b64f4c18d; P1 0x1c3acc77e654f1a63740039f24b9b81963ce799ed631711c6076d1cba322c4dd8 0x57cfee17dfcd8da9a8dc59e4ddbc89d436f099771ecc2770e4eca12590681d2a; P0 0x1e1efcb7404907c7b94d90d33ae3a302dc762609d1e98f167b159c47fcbce818 0x7bab5ad6ef552d17fd1b46e7b8c495c6d0b3e864a4c1d8e514c22992f22f72fc; P1 0x777c37fa82330bb26cf85616ecdca19ea60ddcd68a752bd0bd54ed8bb10e29d3 0x320358e3a6202415c302eee5357e39bb7aeb512ebedcd91cb55828cb6968f9f3; P0 0x9c54ec42add0e439b641e61b1ab8e23b321b70789b5ee478557042a62230b7b 0xbd9d54a3e75cee0a637c5265ce471a7bd002d1919379ad9e2066a3a1c19da824; P1 0x118e35f56fa2d4fcf5bdeb4751e133e3b1e1c80ed51c1f83bd86294c85fed81c8 0x1085764d01624476ad48e8319b030998e00687cc89548df98f777094451c0be8; P0 0x110f45dc3ebc17828107946b980139ccc02a1a70ef5fe2d910d026b38720167 0xe64415708dc5de6c51c411765f147c3c67baa53505725f36583de828e3bfc3a7; P1 0x19e3cd144e6e9dc5285e4726bcb5a5df84c89501208e61a061c9a7b4777eaaed7 0x5ee011dd1bcf1984590681ef177bd6f0857dae1e8bcc19614a196ce6dd5e5cb9; P0 0x2329513dc7c52f12059369e3f94ed30d7bb2af3f03c4d2614d558fb213b14de7 0xc532ad6fa63176f622a450c1d33d9fccf263374cba09d9680ae52fdb722cb98; P1 0x12fce11ed4598595f73db289a100de6dff76a1ea64aa99d202dfa9fe37d8e64 0xced09f1d8d2b22667616029fcdd3826920baaf499d273d3235db171bf01262e4; P0 0xa7146a172930f4502d017746001dc5155fa70ac8eed4459298d3ab5a0b211165 0x8fb418ab023252ff966dd9d549cbb6f8e26c94b65fe5f33a05b3fa2f99646c75; P1 0xa15564841ff508cabf336da401658be52f86cfe0186f058b8e9dda6fb5da4f51 0x8711a6f2296015597117f3e4ce11a8ac76c9ebc0840069cfaf14ea6d3c902a43; P0 0x47439f4b47ef674d07dc571702530fc0bf0781f7ea784fe314e6a1defd95a8eb 0x2b9a02bb56081402b8b3990628eef229d2d13daf06d20fdf77b8ffebf7efb674; P1 0xeda33247f7d90e44555e1d7955fefbf87c907d3441c7b959b9c57b85314d3ac 0xc71aa814e1b1ae8a7b7b4a88f8f61a96e6f7bc8d6dd9d31338855ebc60571ccc; P0 0x9ada7417a455f37709691a22d899c670871e16a5d00fc4bae17459716ce0aca9 0x34d2985bff551848fe91c28e7c922a4d9dfd7a9d3d3f6b7daac5e84f02c5ef39; P1 0x15cc7647787a29c38508998f767b6217399ae54a4076ac6a0799ed0b6647bb16 0xef3091249fabd03a73b10b7320410328bd6ac2e6ff4e1b44ba9f38f548d2b078; P0 0xdf7bb83a01a4e99249e4ce951594884b657bcbc7698f05ec099b680c264e553f 0xe20ce921d6365eb7bb595a65e88b16395fca4b925f04eeb243dcde65a4d38d7f; P1 0x18f35988e6a9afa0736c7aa0e0f30cc4aec168c75c02db37699a57a2c73c3c0bb 0xb128d46fa285c64945a86866561b29085e9fa49a70c787ab720c6d2fee20abd; P0 0x7a997c45ec825820a2ba649e8c197ceb4426c48e69752a078aa0fb9d02d708 0x97db89c31bf5290dc0760c622e87eae3cb24933cf736d557be05eff59f2a2691; P1 0xb429719306085a973ff9caf25ce2a04bb96501fac47a57e2ff5273c385b73cb6 0xfbc0ce88faff8188081dce574a8f8636fa539e14208007df5f258891c7df8f8; P0 0xf793a63807ddeab8f649796f33b552c7ccaa565b3d820338e269ea6736097d 0xf07159782892176690ac6bfc193195fce4cba9d090242deebaed2fcdbb8779bd; P1 0x1c3a973e4927e76cc05c57f2404ff7d12713e9f96c98423a27cdda3cff4461b44 0x7475a60a3e013d10897b634fcac3b255e883040e25f04a59d2d8c84b6eba8656; P0 0x34fad48aae39e9d5c94363407f7320c2e96a757868c33aa69b05dd576d875e4f 0x5b40875af2da45e05aa186422ef1c865c02141c757092cd7e73bc714d0fd8333; P1 0x410de0fd7c712f81d7b5ea0b6398c229d2be0b796b6890ffbc1db4b09c12aceb 0x51f4cd086c570482dc13985f0fc5916efcea17386f92cccbab87291f8829253d; P0 0x1a3cd3d6eb10e85c8a0f6653da27d176d2c2577b9c50a47a7ae64e031c4aa3cf 0x4f4f83d740ef44747876c5e8e5ce49e7fd8b42e606429bdcaf8c9af6df3f5458; P1 0x312458232acbdae142f83333eb710263728a93d51cfc5058eb4b1bdb7e6104e1 0x88afef7c8750cf2218c9ca8de5d195b67cc53be6e3c8c9560f89d7535c94c161; P0 0x48fb675de50c05294795902df37615966728dbbedaf0956eec9105fe54e5b97c 0x60b3d5ab21fd738a2c2c2bd68f2fdad5c41acec6c54c7b224b249a523721203d; P1 0x490ebd29fb5a6d4479c0b3065e79ff6b0c3354adcfe3138a34f988171a014408 0xba2fdcbdd633d6a5f462196175074a6bccb280e0b0c94dd2430c1e862d93e11a; P0 0x876995b72eb86597b40ffb379855632b30a6be5a16998545f3cfcb99d295ec89 0xf2c9383cd2b6fc2dcb9d49cf76af901f4349cb272987dea111eedd614060a32d; P1 0x1cc8218fa81011e7ce1532cbc83e0e487c26690a7a58e5f8ecdd6681fa47f9e42 0x42b0f410172dd1445c2ed5deaf9319480f6442b66b3c23aaf77e087638044a14; P0 0x115fb828dc21e4420706ced862d2ec136884935cb29020fc6e46e965189a4fb3 0x33f6e42f12ab041e5aa6ce4bbae266f1470bc2bd2aa300cfe6ce54503ea9e143; P1 0x15189a0c43b0667d2a7d50e08ef8009ccfb026f10c05c05970a2809be5bbd348 0x5576dbbc4c8c76e49b0486570ed08cd37eff392563240df0b2f9780b2f15825a; P0 0x1c88251a758fb3049b54ebf337a769aebeabce16449c016129692e96e9010654 0xfa71ee9a279fe088ab30f52def99d0511ddc806f4d038bdf2333a9fe9a248df8; P1 0x1ea05717519c1e9d36db6b2894c4b7fb4367d6d854dacfbd535dd9a5697ec22ed 0x5143ed91fe421dbcf096123d3741ff79a6b258f765f5642ef913eaa3d0e2636d; P0 0x19cc0e5cb3949fd2296a41226ce886b6e450e147f35da0cc9191d6d0d8490e49 0x89836d883bf3e96b023a371cb4e080e6ca03212a8ac1cdaee63e6163ab5a8ab2; P1 0x93bbdd6ac4a74b6ff4a78a4fe5871ccdec0f0c4fdc9122eae0553f9e380015d1 0x50e101141382e961c07fa5e30e09673b29160fa5a2391e521c6dbd957098dd59; P0 0x198d666f8b0aae24db655c22441a76a018ca1995524c43070c143df2e16a56a4 0xb4d5b761e928ea1b32fdbb45d26cfa84549bcc862c063e20fc2b6e825a7d1f95; P1 0xff7a7899b7d3c8c662683bba1da1d652bce23312e224577e85d2360d01785997 0xd54163b42c2e5cec3b4ec12f4f28a4426ea0599a08e82b18a56e36e40473309; P0 0xb1a5e09e4b7e4fc3e930f5057c9fc24ffb762f4457055e7394b2ca088444c8 0x80d1d27cd87552ca1e732d4d8dc06baad1911d5eca096426037631d7e1aedb19; P1 0x81a4fcecec64a1a8ccb56def8eb364fe4a0ef8b5038a434a1b219aa983e9e473 0xf31db68613008ff1e427bb7a8e3fe65ca1b4b561093c6baed24a6fc68ae97555; P0 0xe6e16bf64b77b497eb331e8e5485819c2e7325346b5658befd9da337eb6cfe0c 0xef01ad75d53f2a190e9ab52733cacc2eaf96ea4bee1c0033e703601a59edcc45; P1 0x1be4843cb67886ae3dcb7269176d3bab0092b588025409e95306f8311fa04cd9c 0x353fb3cb72b8adb651815ffc0efaa4b013f89f5faae9765149dc68f1a384e2ce; P0 0xb13704c44fc833c9e9e376cb1d9e1e79f48e5c14abff0fc7a17bc73008b0a09 0x2478f23f68fd4d36c79900dd2e8ec0cc08cad70112816e090914a21c01eb67cd; P1 0xa647a8bb6cfb552bed441888646ffec33e3ef938f18d99ff70b333c920485ae 0x5297ce294b0ed20d92504599dcbd68691873a224b6246999f0dee37b3eedba00; P0 0x1aa59a1769781f98c75f5c8bb21e3424993aa120c3abcdc729983eb586ca6eee 0xa504e18c556831e598e2aa16071fea7e9c81e90db84acfc4e15cfd8f71ee6eee; P1 0xd4be95ae472482f1db3ce4c065397cb458bab101164f62b191378a0989166072 0x1b34dfdee0e95c75f12fe5774bf2fa5fcabc364a738497714404f5d2a6492afa; P0 0x2e43224bca6d85493f7c953d0ceb42f7024473305c4480c03208135dde3a47b 0x6870a94867a9a6bcfec750790c787a11f4f2522293d8157b734080039faea09f; P1 0x5537763f1c41e8c69ee6c0b149c575f04f434e0b3f26957e8a6ac0dc0dd06774 0x2ca0b860f21ef8683e3eae06d3cac71bcdf9373dc2ac29c8620d0d988ba6acf6; P0 0x7c7a44858fc7125aa36e0163ae4712f1dcc100c2039e5935b7b00eb717fc285 0x86bdb2b6097cc80d05c9b562e6da58814b8acf0927c196625423cd6359633ee9; P1 0x8dd647506ccadbeff17922fa5ce458311ea31b6cf07d6d6d13da5c0d5e1f2e42 0xfae2b3b42e6737f7117265e89606ba72e5eeccc61fc3867bb4ba50e8d1768e64; P0 0xf5df8fbea8c88f00b30ab3d9a0a3fc62568ea99715e5f9186cbaf40eb0699b42 0xae32b304631e4157616856a37ac522f623268680b1acec5a614e54b58bccb252; P1 0xed11eac9b057e1707dc309d6c8bfb88fff7241f63b6e44c89add439450df2a2e 0x9c2b902b0ae49ce8022764988a8796724d0aba34466b50d0d8710e1fc6ab6eb6; P0 0x5f451f1e9431daa38745d821af29ac68178a2419ae791167e630bfab6c4d7011 0xeb570b9c0e0c815e4230b401e841524ee6b9c363d678e4ff3aab19ce0b525975; P1 0x1b0b1d9d47d786e852a35aa8378b33aeaf20fdbb3bf7a65fe33b7c5ae2ef1616b 0xa028595e235e93a07bf83cab16c8219afe02ba2fdfa44d5bdd55c6a1275e805d; P1 0xc864ec243a0ca6bc6ddbcc22626df93170e5277df5999a6ecc725735346422cd 0xc4390e0db646c8d898f35bdc4519cb0ccfaa764b1aedfc1fdeecd526e9b6665f; P0 0x96676a3cd86479f91f96a0a50d5ca8f3f2971848fc0469f82a719e6faa7dfc7d 0xf026e0143b8a3cbf5994c2f3846f12238c2a4c4fb63345a76b77a0f25081d3be; P1 0x1c291d41c36226592a09e577b84872205016c529dabc8049772e9187a8a4f022b 0x6b11df25fc764fcf1e4caccfe08bb467ad71508cedc3b3c3ff178b46338c8433; P0 0x2cc7f1c9536193aff5a6cd01224a51260207ecdc528c6cae90a904938ecb261c 0x39dea252de08280f928b73004592e9ddfbca36095c43a638be9bfc44bcd7c845; P1 0x1a29cbcdc53533712092f82652d9c0e29e71f372944eceb5d79d254b8cd6bb76 0xdd033b2eb3947b33d25af3ac107e32d5c8c854715115c4b71728e6aa3dfa80a8; P0 0xbece9439d1a3b5b6e75c3c548c9cef554cf76c5e3e32b5fddc9e955626b778cc 0xddf5efd4cdb144b0dde6b3c0c0a83a0c1b414ead5714a028c000aae5bf7fe70c; P1 0x180e518b6332eb66f07de85a5c41703908afee3f39fe7dc0d5f4ab7c62ac77b15 0xc5d1219ebbdbe433762bf1134003bd5823837a64b7e1d9bd7129840c17a4cc35; P0 0x98db8896cf9501b324bdfe24339de47102ce8dcc4f95804e266004b501eef47a 0xac2e4756cd3e6e5e686ab1e6aa6d74731abdf99b932268948592d874cebb7773; P1 0xe79c70759d5a448019a6c182a1ed89f64827e8ed565d24b18f4e9aca85224977 0x94bb4ee7ccf84ecd0649f1afc1b59fbc9cfcf046993412d5be77b644209e84c9; P0 0x56691c48ba5fbcf36f03246af39f4937bde7aae388655f35dd1aced3bf5c5f74 0x7906349f391ae28c622877e8617f3db0432450f664092aac692528f62c584545; P1 0x726dbbca7ef40f16839ae5b9fa277f8db0b5de68dacd2cb0d141b64ab06bda7c 0x210fe5caba14f887377617ce1447754cb20152791f5ec7f7bf18040184c863ae; P0 0x4451a3b0444a236b121136ea8300740daebd3b27891c7c8bf9578d60158d30a 0x7e16b0d226f846cdee1c7094079081de72b5ae0a9a7e9c05a5c2f3d95808dd4e; P1 0x7c34b023f56e2513ea073a7a63cec210f2a9ea8484212698bfba21dd2d109a80 0xe5259a1d98bfb15623e241ad8d787a347d413355b426f16b0f08d73d95702208; P0 0xcd1c4b3fa9b9051ed3a3e597617573abe23d2e68823d432c74018822e8252bd6 0x53e6d59ab1e03e175547a7b4a5fdfc8b423c36748c1c0ae6c56e8ae03ab4c16; P1 0x36fefd4dde129ea656f1cce3178d231e82fe9cbd663926cc8f215dbf7cd464 0x3f350a67e2148fd1154a308d07d3f9f9c178f38ec4b4cd6917c0a9fc3f7ef82c; P0 0xf9b261c8051293a3533b73819adc8c26e39f48f654410f96c4a4199bca7006c 0xaa550065a11d0db3271406a4ef5438c5894321abf16930804bacad58a08c47fc; P1 0xe2aa01815d99792b99514bb1bb0b55f143aedea86d2716765b161a7a4ae65ab1 0x987fc9046b481afdbddf0bef0687a5163a98dc3f6a39bb2bdd2d92adeaa1dad1; P0 0x5ad7fe7eaa7800a12a73ea91ace6f7cc9597152ee34c2cfa775a34c90e8fceec 0xf95e0831dc2422d88c21657c24ca3591b769c8fbdcb5cbabd238a19e187a6d8d; P1 0x1e5d01cf7ec0e588c401ffcc3dcc9b5b5c61f3fe19692f49216b3c727705c473a 0x75622293bd1c8bfb14437c0840621dcd040a83e0caa680bd08974d6d82e7068c; P0 0x35d2d939be774e86851045f2219946852b4a246c305d09e877f8dbac9ae88162 0xcb0ca00f65f52ded548329498c6b2385320a5ed93462a12aa6bc1a079bbb5df2; P1 0x1421a0cf0e4895954307e04f473797b63ae46f36af1e1c2981e8680aaad9b0731 0x18385b0dcc72d8386bdd784eb8de31a9780dc8b02f4ebb2fa987f0ed89a678b9; P0 0x24a9d7a8f0c685bc653d0de39306de6677e60dde651da14c0e871dac276d502 0x5bae2dbb21d9be25e4dc8f2707da8fef0ccdde9cc18fab7aa0a071db8d50cab3; P1 0x41aa960abae6ddc75c8a0f0478fb47f9267693db244d3cee22e6f56718476e13 0x26b0c4bd65d78400f2e0de6624cf9a9bfef13bc034c48f934c4cf7c15056065; P0 0x5d8f4775bb3880eaa216bb61fb14ddd8f6c18f867b4f79b3dd3a1999bb101 0x2d6f8bbfa4f1aa8be43911096a631e43235adfb043c24ef94eb86d6713d998da; P1 0x1020cf77c91027b1d43525a2d46c4ff0973c864f89ca5ccd99b5eafdc8e6a193 0xd5f270da02411b045f7c1f2b6668f67a8466e0230986e1a74a0f3d1f7a95d4db; P0 0xb2cd556508796b117f60142fa49a5afa1753e8342ac01ca130f319683de83200 0xbe3f2e1b429733a025bc3789915b1e17bbb9ecb420cfc943110a2b0471d1a559; P1 0x11ac3b0117be5bbd58a5778735e4b29f1fd177acc58ec5fe93556a9f8a6db2db0 0xc89c34840ca907c88c596b308ee18c59aa262e852cef72630ca64ad89716df92; P0 0x9d34715efcb1e4caf14e000d9afb32755a753e53026aadce677d62b58655c029 0xba0fa300ced37adfa7b35a99d99ef02669d50a8c54c5a5f291db0edef2ad6f6d; P1 0x10e7573a46b50991213cb62ca42d9988fe450ff83364abdda973f6347d0d7b11e 0xb2a31f002fa839ac7dc2afc3606a552b04ab7e320752b9585a4e75b38c7b19f0; P0 0x7ca73f0d3ceaeb04d7a5887d5bbd64f4e77d2f7b037c64e6ef8eac1aa3faaa4e 0xe45d9269238ef6d114e4efc4c0202e14c5f507d6fa8df7dc4c1314b133b6b4e; P1 0x1976d9dff8e5ac87ffca9d2b2227b9f1d8965a410ef05822757f35a383fe876 0x58ca8b2420f8a8ef2bb4f890684fb28cdd34c3cc43e8006aa93d2a32a61c7ffe; P0 0x1ecbdfe8d61b1d5f106efa70208eb5116c4a415fa448d82775053fc824250daa 0xd97f765c343ed7f2411f4a017084b4d59106e57226ac499878fb9029cbb30dae; P1 0x17192ac3f5f21afe2e4e6974603794d18db26e598647a64f916020f6c88174cff 0x21ce895205632df372fd908b7c00612650c7fc2fe12e0e119e113cc0b4359187; P0 0x476e6087384078ac154981c087274013e66da24a00d6bfab7658ce2d40bfdb8 0x67bb691eb1dcfc00a69966ef165aca7780f96e83040e78309ac07f3e40ac32e9; P1 0x5410af93365469ff24773c653c9a42415d703707bd5e9c46bf372a06faa25e21 0xd25698cf2ee03180c8ad7cadf55b68040ffea4bd5cfb0bc9ebbf250e1120e43; P0 0xacd22fff9c242f2e8d03c6ff9bf8b2955a65821e141abf2da272286738622c 0xed92b20d7674824f17f80963b4c3a7e5633e86e1cfe74a364ba4c6602f6fc7b5; P1 0x1b8f1e37ab9fd02adb1f1fcd6dd82b5aeccce4408348755c408f3cae34494c8c1 0x456de1d92ebf29da714b32f751f84bf76c61d194f88f85fcefdbcaa9c61694b3; P0 0x12d46ae94038c2aee2ab8c8c97d55cd75dcd96e7d1044bf8b995c1e6c2f4a8ef 0xf8daadf5ddcf1c47a97c493ecc08be050ee5b77492bc7bdc2399823f8c181e18; P1 0x1e3d0d7b4193b6298afedeb4f244a67ed086ffb10bc4aeb2d1d32089b8d96fb5f 0x9eecfad796a912d41c76b9dabdbba0ea4ca73db57499cbe7acc52e9b5daa3fdf; P0 0x62a96101f3e9a3cabce5c4b397b42fc57bf33dd808290c1bd0b185b4d31fe629 0xa63efc641968053bf3468970f23ddb675ea3fd80cb91c5b834a255fbd3b6a6a; P1 0xd7eb7da2ec745a4bf1caafa0e71e9808bbca14f105eab33ba37b78fb4ab243 0x299e4e3c2199a578974e9bbfa61addeeaef3afa3b369a4f193ac4aa6757a9a0b; P0 0x6c416f3f3a97a36337b5bc903751cd88e459b9bcc0407c3aadb73a6d6b390cb 0xf1b954c1c9d4bde908335dcf2ce3e54a793e366e619b7a48bd9ae17013e0cd44; P1 0x1c87cef82bcccf3e289db39a14e6d54d9706851e764e701738d41827e2e93cd56 0x48f41e9140478e9d77341ebf9faf8bcc01aeee1f7737a9136702113e15bfc176; P0 0x14ca39fc117b6017128a0461cecec7722168b09f953b1c51e880d8eb059bd9e4 0x54667ba6104d5f5bdd31efa6b639e2a323c7e9630d759273e4c53f72a1e2fc48; P1 0x37a6d457b5285b970843035dbef0466012767cb67bfd1ce0f5584fc7bbba9d57 0xf4d5779ae96d392a290f2a55f5aaccb4daadb239d004ddb69c5f2531ab3645d7; P0 0xea279e0076c9a57a42753cf8140734f459fd89cc72423ea69b404c16fec56b7a 0x24e6f3b0bc9a4aba19c0a0a83e998b607fe27c2c4fa95ee1264abb33c287060b; P1 0xaa389c907d21e6fca658a539d376a3c847c077e7113449d49729470053ec04c 0x11d4f2d25e1512e539f9cf218bb3c43a88dc93a6ed3144f7f0d61f41cbbc93e; P0 0x13df963047aff8b157816b5702198a0b8fd80e97d01fbf5b519dfb96552f4 0xa15b3611db3bd6c03bb104fb2146b9acde71d62e4dd1098b01b351d4e82bbdf8; P1 0xcb67b504af2509cd03d1a1438e73b66cf4656a0b120ef7976f74065fbec4fae2 0x1bef8626a6a1a26f8ae68e526966eb544dbe7c5c9d114f80b385cb757b553b62; P0 0x30c6667ecaa1cbfd7aeb6180412b6edd4e49dbfed5dc7eb2ad2d1506d3a88a1 0x46c21a274be3595e43e21f36d21fd0e96e0ef7c4488285090e2788551614da25; P1 0x271d72f26e9428bd0f4a8eec1f7a8c51dc9d0b3f816da1d902f065f0ea03a94a 0x83c843585aa968930fba7cb47b9321b28913eeceebc3ef5b08bed774159bbfc; P0 0x43d69195fc64f942c1c043a96742deb62131a930215a8904ab8b1a5dc0a2dd 0xe49b66429b05ff9c7ef194bfe072e137b19f09ab1cb39b5ba07f984c9502c2ed; P1 0x1984a58f8db9173d5ffd8b8e7dce49979101de1e71c31181244b7342c1ef5af74 0x448500c233d2936fc1d3ca8a59be864aaba5d266ecc4e591c2b5fb7b2335ce46; P0 0x1256ed8107a937f41c0f3d738c51620cf78ed3959cebc1497059d62e03126396 0xd6c305fd8a640af428581fd5225b8cd48ba6477ce2a0b193945f132836431eba; P1 0x16855452d6fdd37a3484fef8d75010959e0ecfbd01b80cf9a582b3f07f94bb831 0x723106704554e2e1e04b0e3031b42b3575af29a66faf8a40025670671b63f679; P0 0x32efb31fa7d34c2c32ce49061c406505d850af47350da72e09a8864f4b3b75bd 0x5c678b38001577a1b06ff4fa5f3f6b711e3e96e4e73fb0300bfcf8b3601e3aee; P1 0x42b52be3685fe316ce1f77d0cc7f8039f33fb21534ce83eea6d945c69afda628 0x7ccdd891cdc131e020537cbc1bd6f18e2ee8c3d171d8ef6bd90db6f755af10b0; P0 0x3cd80f520ce51d4d8eb566a6348bd9eb664423337c9335083546366f4a51afcb 0x64587dad797d08264de8d89b9ce639ce165dfc99ee39e305a76062dbfc0828cb; P1 0x4eaa818ca66aa696735acce67f2a49c822ad70b3884b423369c511c2fc48a4f5 0x1423faae4684936908f7eca8b59e70f8c3b635a9026420bd28e7a18b72a8c6e7; P0 0x195a439bdba7be153d255feddf41da50b8b774fbe0ebf466502e25bccc93274 0x237d393963cb8b9c613a0fd3136752eaf6155772c0e48d498ab62fa1328356e5; P1 0x9d6f5cd4a16664fea46d412978d810a81e691dc0788eabe45aa63d8aae68967 0xbabc805629fe6c5d945fb5f3a86083268b13661ba9a490e8c3084a93aa9fdb19; P0 0x8836754a7c201f6fc32889ef2cee0c84b0f84136a2c553bd6ebe66152281f039 0x6fb33836ae1c688460aa3f6b9cc41ec286790dd629ea76a506472b9a3b13b8aa; P1 0x6179d06e8911fcdcc1bf1552bac02b31e32b05eea67a5b6690b8165a90d32653 0xf38da17ccd96ea92550b4445247b484591241ca94ad99e66e01ad8b125b4c81b; P0 0xe7b62eef1f5b5fee0ca49c640a1e1dfe8758695a8639be8fc69e56db1354fdbd 0x85a209cd81afcce945a3b86f0d1ae1de93e4d2a5073f931e7525db2e3b73096; P1 0x8b8389806df55481f8f4c02b07f0792ac77b2ac962a2f267b0148b5fc68fa3 0xd334533795a1de00c30aa4ff255cc62df6baa9fba7e750c72d15f43c671fbf6b; P0 0xae3f4be0388a00af951532b191deaffa0fbb1d0c72fe5f3dc631d82e78735671 0x63d21cb3b32188574a248d50cd164d71f2061f91e2441eedd1101a4e7d7e2d2a; P1 0x4dd85d4c7b039ce13a6668cdcb6b03c9c9bce812dd4026f0fec9b46c132b732e 0x58a527c6e88478ed7921de7da1b244986237d303f122949e2072bc3315cb08f6; P0 0x1eb1f5e52b22f9310eca3be61c847f4f17966b43da0add8a97df16b3513910d9 0x645395a0b78c288d686325868d8a07f8138b67b6fdab9a77f8e0e936e3ad5d3d; P1 0x4ea2d06028c4ce9f98a23f6f3b6893d1e4bb7453cf1c0a17bde772a078976fe0 0xd66d5f1c3b5aa2577b8832025f8dca7471a7c6852c12c4034a1a039b216630f2; P0 0xb39b09be0837138023b64715a394cd4c8b8236e32a6e7a63281f63c61e5701ed 0xb67bb75cae39d87cc610ac97b86594a331ace91deaad0de6dc87d63b8c8aa6b1; P1 0x1042849040066e51aa69c075dab69a3b7b87b8b3990e354eb290c3e275fd17e6a 0xff46807e9ac5bc4bcd0e84207d4c46e6bc7e50668ac2a01efde9a426d68d8b2c; P0 0xfe8d8767bc9ef20b2e8c20bf5598b1dfc44dd2327a8ecc7619a0901ff6639992 0x142351fc48313b890fb5cb6f3f8bedd412f9113f0c6a864c27df342020846922; P1 0x32b135de4352d7ffed2da99f2e773b5bd3f630d3767bb736195d224f7fcaf58 0x57087706c23f206e5e1c8e7a0d4ee76da1ba9b68da0fe3be4bf0c0af24768060; P0 0x1d96c12e5d6115efa9277cc45f506442eecab1e8d465f21a80ed0c1780aa35ef 0xe83b9eb55e9e8a1a6cc88800dd068e8e7d98b4751fffbc8814b21a4d198a59ef; P1 0x1a5583b183052ec72e8ef55ba4786cb0691a7c371f49be83b54e925de41bab0dd 0x89e84075360bf7c16ca1205c4a004c49d00d7134feded9d119b71215c842cb1f; P0 0x4a4a67b2a2cffd40db99286e56f377fe28e02577c5c244e7470fb3b5cfbe6f4f 0x4ac3e0bfcae63fdf8022a86b9593823fa011312fea78e8b3978fd1999ce49d10; P1 0x2baba79e41447c89c7108883def2ed1f18769582fc5fec184e310f0f18bbc988 0x4724899c25a77bc4422edefc1aa3bd868f4975219bbf82ed61afa07662750b88; P0 0x13c5498bae8b46d872cf578b96c20d4f0d74c05b6a0e141e70885777834d93ec 0x6f579c8eab9c6bea8fede79cede77a139bbd0364f8770e827ca6cb2f2e228c2c; P1 0x60da2f7f63eb249f77bd18fc75758c097eb57e996a5ec6a08330498bff33d6f8 0xda41a0e41f3f376630aa24abdf0982b27d2170b97f4f70eadbeba7eeb0142618; P0 0xba13d6d8584151a27c9ec187e87b48968d205654531ceea03d2d8ceed2a7c133 0x301c13dc5c659853b11258d1d5af9c6e8dce32b84bba98f165836785cc12e373; P1 0x1215150e0ade9a8b6b5b93ff25e2943fbd5e348b23e5f5e40c6526e5d513a5e8 0x83d3a1bd87a691619ed9b9472501688f27a30979a114f8d4da731da9f195f13a; P0 0x43e2467c41544ccaa3a1427cd8add59135ef2c9376bc2d7d18a6809b619ece14 0xefe63c80d1a8c3e23f33ff1fd4cf4b5b91d77bffd91672a76f5dcb3146710f38; P1 0x1c19f68145c1c6046542c25bb0c67611cd5d7580156c6885bd115ce04e3ce53c1 0xae8141ace2e338ac92607a7c5a3d534cdd3bc108a07acf91c00f2167047d8c41; P0 0x76f3f68abc76c08d079b39b6b80468dc8a1bd5e2b6e1b5cbe6b601112f8b820f 0xb4c0af4943a75f31c7b58522339d156004e573d4390a4722d197c9537bdcaa90; P1 0xff3f0f0dd95b3fd368189d24135a7da8022c13feae765c1b07a87b34ae741087 0x6f3b07ef65cb03150ac5fc774a8f96cc4ef196100d85f9afd51d822ca0bb3287; P0 0x30543e7e73322e2e419d512f0f74c1f67db3e6f0c424c98c62e6a3f2daaf2243 0xef0bfa4465f68a92321a390d77041394c17e36e6e669c3a24011a66675e22574; P1 0x1be6ebbb818484267d28b4cd76ac5c9504f388ced9340c2be09717696d2841e06 0xf164c74d8b7b30db1a144984172594a8c8e210c2d58889aada63037b2f199726; P0 0xe39ee6ed33fb777dbcb22b83d02d1d5bae4bda9f73a4be5d832cc02b93033140 0x965e9e388a52206278c8fb7316e79dc45ed85feab7524a6e075d4abe65ad0ae4; P1 0xb0a608c65b755bc063d08260ce8171ac71db9f8b0d711f72308fe5fc8d81dba0 0x7781ebdd5499eec91bd26d0ba2d3355cd8922b5f630364bd32f3d9fbcebf11c0; P0 0x37ca0b378ad08306bbb304d38ae08019bdb4654b4f18a02553c4e5a7fd9084fa 0x699b4ece492856c917dc8eb15616a4a04738edc8b000d37f040143547b4b94fa; P1 0x572189bbd3459b6c63bc32028ac197d54b7956638ac41dda4d768b7afb640dd3 0xe2da741f3777496661b1fe0dca63d1bda260adda5c594545ab4b3a8cb5c0161b; P0 0xc9066f71e0cbd245740f12fce3a5131a934da26de859b071b241159e6032e393 0x7d089e33980cb7f280c73ae1a11dd6604b9452708b3b54c70d38ae89b89b8a6c; P1 0x7a22d591c916229935a7fe3d673ebc7d267afd93ab114f0597adb99315a23ede 0xb87d0f11ec7e0bec65cfcdfcaeaa9a949abe6ecf9ff19921bdb793bb68e379fe; P0 0x84f402c2014d41f4fc2b519cd76c5fe401b37c7731e89a45298f8e8a52009968 0x1cf16918a4446215144fa04ede01650e51192f209cac44c2441b18de4496b16c; P1 0x68b6548e57e53f20c94fdbc17aaaf056a4d610d1bed6e1badd39d032d0ca1ae 0x4d6ea8928adb86cf62388a8e0ef623312e68c59bdef3e53fd964598eb819acce; P0 0x176bc13d8be3cf20de6dd8e19bac391015b91123333c9ac54ea3caedf304dd6c 0xb291576c752479319dc77571f109dcced1973a65210c1ac0269ba67147e65330].
