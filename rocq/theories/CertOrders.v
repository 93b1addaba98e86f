(** * CertOrders: certificates of the primality of the orders of ristretto255 and P-256.  Written by /verif/tools/gen_primes.py. *)
From Coq Require Import ZArith List.
From Verif Require Import PowCert.
Import ListNotations.
Open Scope Z_scope.

Definition certorders : list pcert := [
  mkcert 3797 ([], []) 0 [] [];
  mkcert 0x81c7d ([(0%nat, 0x81c7d)], []) 2
    [P1 0x0 0x2; P0 0x0 0x4; P0 0x0 0x10; P0 0x0 0x100; P0 0x0 0x10000; P0 0x1f8f 0x4f32d; P0 0x3054b 0xac4a; P1 0x1c97 0x910d; P1 0x1443 0x63c9b; P1 0x99740 0x3172; P0 0x12d 0x357cb; P0 0x160b3 0x5cf92; P0 0x429ad 0x229cb; P1 0x12763 0x63e9b; P1 0x99d67 0x5c467; P1 0x83378 0x5814a; P1 0x778ef 0x72215; P1 0xc8bbe 0x627ac; P0 0x4aba4 0x81c7c; P0 0x81c7b 0x1]
    [(0xed5, 0x7e2d, [P1 0x0 0x2; P0 0x0 0x4; P0 0x0 0x10; P0 0x0 0x100; P1 0x0 0x20000; P1 0xfc7c 0x72774; P0 0x64f55 0x2840f; P0 0xc7c4 0x7e2d])];
  mkcert 2551 ([], []) 0 [] [];
  mkcert 0x12af21 ([(0%nat, 0x12af21)], []) 2
    [P1 0x0 0x2; P0 0x0 0x4; P0 0x0 0x10; P1 0x0 0x200; P0 0x0 0x40000; P1 0x1b672 0xb8d4e; P0 0x7246f 0x117075; P1 0x208e08 0x763ea; P0 0x2ec53 0x79e31; P1 0x63646 0xa31bc; P1 0xb1fce 0xa1892; P1 0xae926 0x125ea2; P1 0x241efb 0xb29ad; P0 0x6ab50 0xf1999; P0 0xc3412 0xe391f; P1 0x15a78d 0x7a755; P0 0x3229b 0x10973e; P0 0xebb64 0x12af20; P0 0x12af1f 0x1; P0 0x0 0x1; P0 0x0 0x1]
    [(0x9f7, 0xe103b, [P1 0x0 0x2; P1 0x0 0x8; P1 0x0 0x80; P1 0x0 0x8000; P0 0x36c 0x10bb14; P0 0xefb4e 0x18282; P0 0x1f3b 0x8ee69; P0 0x444f0 0xa7421; P0 0x5d946 0xe103b])];
  mkcert 0x477be711ecedd ([(0%nat, 0x477be711ecedd)], []) 2
    [P1 0x0 0x2; P0 0x0 0x4; P0 0x0 0x10; P0 0x0 0x100; P1 0x0 0x20000; P1 0x0 0x800000000; P1 0x1ca657 0x1718ef43864e5; P0 0x7768ba348c4e 0x2e192ec8bd183; P1 0x3b749e3a6f0ff 0x137f8c58513ef; P1 0xaa3069c17e10 0x11fc0466bfe72; P1 0x90c9f1d64343 0x18cf36b72dab1; P1 0x113889f27bb3f 0x3b5a6ce90855f; P0 0x3147f1e8d2e46 0x712fe70a92d3; P1 0x166705ef4a47 0xd88874b87287; P1 0x51fce3e32e52 0x3969f30980d98; P1 0x5c39ee3c95ba5 0x2be790b88b10f; P1 0x35ee64bdf9964 0x32fc53d9d9a6e; P1 0x48bb08b298bff 0x15e86dfc20165; P0 0x6b6d5565714d 0x3d00975512c60; P0 0x340ebbafdd5b8 0x936ee9c59428; P1 0x26026e4ba6a2 0x2f49b363b56a6; P1 0x3e904250cabce 0x4340bed5bd272; P1 0x7e8b662792c63 0x6ecf51297a11; P0 0xabc52ac8200 0x228c1aa1dfb21; P0 0x10b23d71fb75c 0x347d15b1e67d5; P0 0x268a759c33155 0x280c811df1ad8; P1 0x2cdfe9c273e80 0x2725cb9153800; P0 0x15705b1d2e18e 0x3e205eb0f046a; P0 0x35fe6c1a063ae 0x2132c6c6f6aae; P0 0xf6af8cef2d0d 0x1e7cb5a18340b; P1 0x1a013f5b00868 0x380316d5dff2a; P1 0x57c719d4c6802 0x94c0f4ce000e; P1 0x26b1830e2fad 0x38aef0c2da32f; P1 0x59e4f3ccd3c3d 0x32523bd49ae99; P0 0x236c75e851d2e 0x2410e848d22bb; P1 0x24649d9281de3 0x2424aca1ff23b; P1 0x248c8cf549100 0x1ea0504c0632; P0 0xd1f1005eaf 0x650f3cd1d2b1; P0 0x8edf1bea668 0xde8e26bb8699; P1 0x569c9e0f23e8 0x446ea6d6e5f9a; P1 0x830581d9c8f48 0x14e21c233b020; P1 0xc339c7d68073 0x1a7605bd49ab9; P0 0x9cb853b1e3e3 0x3a4ecd85eb4ba; P1 0x5f1ee369c783d 0x5ba01e614b9f; P1 0xeae25200eac 0x3e0cdd5060706; P0 0x35dc89fa17243 0x475b5a14dc64d; P1 0x8e75b7d48fcfa 0x2354f98fad680; P1 0x22ed33e8eae88 0x2f598fde66498; P1 0x3eba41a985506 0x173738aadfa52; P0 0x78a2aeb5e688 0x477be711ecedc; P0 0x477be711ecedb 0x1]
    [(0x12af21, 0x4735c3113b127, [P1 0x0 0x2; P1 0x0 0x8; P1 0x0 0x80; P1 0x0 0x8000; P0 0x0 0x40000000; P1 0x729 0x29d680a68d39b; P0 0x187c9aee5346a 0x20be15e615457; P0 0xeff546185026 0x2bc4babc770c3; P1 0x3598f172a8f93 0x132ec102a2d2b; P1 0xa4b9698bd1b6 0x103b9ea5fcc54; P0 0x3afad014a559 0x13a5ef11f9fbb; P1 0xacd11540c6d4 0x18da7f825682e; P1 0x114837e1446db 0x18c7fae336b79; P0 0x897404e032cd 0x45d8d6be18e38; P1 0x887ebe38f1546 0x20bbf410ca712; P1 0x1dfac0d5e87c9 0x2812b37040403; P1 0x2cedcdc659db0 0x15c6fa1136f22; P1 0xd44c78a3b8a5 0x1913e8a53d497; P1 0x11986ba8a332e 0x2593d2107af6c; P1 0x2781d18f66c6a 0x2cf3d79d4c79e; P1 0x3889593096896 0x1f4ab31d20d8a; P1 0x1b654b8ea7666 0x17068e29c52ba; P0 0x76aafce518d4 0x93622cd2a820; P1 0x25fbdd2e4865 0x1a18645c842cf; P0 0x986ae8463dcf 0xf207633d75ae; P1 0x666e953df5ee 0x295902bc23212; P1 0x2fd5244c7b8dc 0x19e1d1532749c; P1 0x12bdffd155300 0xceaf55e8d720; P0 0x25598efa6f40 0x3230fa18f39c0; P0 0x233db2e0fea2d 0x4735c3113b127]);
     (0x81c7d, 0x40cae279246b8, [P1 0x0 0x2; P0 0x0 0x4; P0 0x0 0x10; P0 0x0 0x100; P1 0x0 0x20000; P1 0x0 0x800000000; P0 0xe532b 0x2f4a6b2ab99e1; P1 0x3e92289e2127a 0x3aca8aed55030; P0 0x305a24f027a98 0x2f1d61f63e3c8; P0 0x1f0d9a3e056e7 0x391ab42b164d5; P0 0x2d9e035297c23 0x37e812472c502; P0 0x2bb94009d4fc5 0xadc2314fb0f3; P0 0x1a65c5efc1b4 0x31383c157f645; P0 0x21e3c779f2485 0x1143b097321c8; P0 0x42b6b2ef3b71 0x14c7e9b8bedb3; P1 0xc1512e042a6d 0x46bd454ab8039; P1 0x8c013fc60b141 0x119bcc404c645; P0 0x45666d09111e 0x3bfcc798e3b3; P1 0x64adfb70956 0x4166079939b14; P0 0x3bd4c7562e4e5 0x3eda78c8359df; P1 0x6e87976150213 0x23feb8a858c1b; P1 0x243ff327480b8 0x313a35dbfe6da; P0 0x21e6800673c6d 0x2416a0ff3918b; P1 0x24702a78e2555 0x1677e88ae291; P0 0x70fe72ec16 0x48805914d323; P0 0x49888000596 0x2c896b783304b; P0 0x1bbf72397ef96 0x3af486955ad7b; P0 0x309f4c2a685a8 0x3fc0ab43ee711; P1 0x71b7001e550d4 0x2475412bdff3e; P1 0x25303ae17b957 0x1d3c1af4023ed; P0 0xbf4c5aa5e6b5 0x3cd115276d928; P0 0x33bdc594ae128 0x40cae279246b8])];
  mkcert 0x3d89490a0e5537ef ([(0%nat, 0x3d89490a0e5537ef)], []) 2
    [P1 0x0 0x2; P1 0x0 0x8; P1 0x0 0x80; P1 0x0 0x8000; P0 0x0 0x40000000; P1 0x0 0x2000000000000000; P1 0x2147fbba8d768ea3 0x2c8066e92f8cd0d3; P0 0x202eb6f67a87b0f2 0x2d77b9a03135dfb; P0 0x219850633aa0ac 0x37e3c74ffa655f85; P0 0x32c2e900b9fe8fbd 0x2a560162e14b2ea6; P1 0x3a40bea7c03a0e80 0x3aef685d93b71dc8; P0 0x3871ad15bb423418 0x1adc03359f6f21d8; P0 0xbb94003a19252ec 0x34f39547f60147ec; P1 0x5b20f437ba2417f2 0x3c107482afe82a32; P0 0x3aa0a3947a5c52d6 0x214bd991968921fa; P1 0x24083c9c7010cea6 0x8b2e176c6f8394e; P0 0x13aca9505726994 0x20b54f64eb507698; P0 0x1162a5cdd9c2c724 0x1ca844d6295bd3a4; P1 0x1ab0f79d6d370881 0x34829f9eb115dab1; P0 0x2ccee29b0e7a8544 0x349c11438f43e7e5; P0 0x2cfa5998b506e9b4 0x18cb55621b7f37cd; P1 0x13faf382d65684b5 0x3033baa2a7bdac57; P0 0x25c1d9ed21c28982 0xe4cdca95a27b733; P0 0x352bccba542989b 0x5d0cd2b73372e74; P0 0x8cb3e3febffd8a 0x18ffbe0266bd8aba; P0 0xa27e2140b90b7c5 0x25165ecbabd12b39; P1 0x2cb459fceaf8bbd6 0x18d4b144a01c0e98; P0 0xa0505e2812d8988 0x1af854e5b5dd5c48; P1 0x17a40b80a59bf034 0x13c31ecbd4b33bf4; P0 0x658b8a71cee18fe 0x38d24a2dab44796e; P0 0x3477c5c8332ed248 0x376adf73163d620c; P0 0x31e8370f2ae19ee9 0x1d02b745ec20c609; P0 0xdad3eaf2459546b 0x2e902665b1621f6c; P0 0x233bb44f293ccd7d 0x1e47a834ca20a2dd; P1 0x1dcca79b3a051d15 0x31deff6db3ba3bf7; P1 0x50d59e22c23e4e7e 0x126d334387113700; P1 0xb090f09b8ec6dce 0x148e68f889ea3aae; P0 0x6ddea9cbeda793e 0x2079294ecbf1cb62; P0 0x1122ef92974ad8ab 0x1b59fae85de48cdf; P1 0x185071cdf0f23362 0x616c4141ac74e04; P0 0x9a3cdcf88d6b94 0x1ca77151f3b634e4; P1 0x1aaf6da0515e8f96 0x3c07f87d054b8f16; P0 0x3a90149e4773ebb2 0x2dee1cec67e74cb6; P1 0x44904da5673696bc 0xf1993d8c1c0544; P0 0x3b48b59d78023 0x3a3e5ae7e4a49463; P1 0x6e410ea2a5b68986 0xc04bfc1af410e78; P0 0x258ea3a66af4424 0x34870f574c88fea4; P0 0x2cd675326c3fb5d6 0xce21f2f17f01c46; P1 0x564fed4534786e7 0x5b77db6aa49339f; P1 0x10feb2d3b4d1a67 0x2fdc5d19fa52b259; P0 0x2539779a940004bb 0x14898c098244b5c; P1 0xdb556813d394d 0x17b67b460415083d; P1 0x12467be2ea00b386 0x24f23448f7d458f8; P1 0x2c5d546603b373b3 0x2ba22db3dc836763; P1 0x3de0df3d2644be72 0x1c67082d4b335624; P1 0x1a37fc197a4af61e 0x3b3d9a446bd6321e; P1 0x720faff24208005d 0x5f0bd6f3d822535; P0 0x92cde6dac8193f 0x3450710bff154228; P1 0x58f2ce01f6e582f6 0xcbf2b24783b2ed6; P1 0x547e10eb3851615 0xc75320bd274152d; P1 0x50b483990d8f03f 0x1; P0 0x0 0x1]
    [(0x477be711ecedd, 0x5c52cd00a1f4ba7, [P1 0x0 0x2; P1 0x0 0x8; P0 0x0 0x40; P1 0x0 0x2000; P1 0x0 0x8000000; P1 0x0 0x80000000000000; P0 0x10a3fddd46bb4 0x1c26e743a8c7c6f4; P0 0xce10e367ebaa305 0x13b13e905a0913e5; P0 0x64d428f1ebc73fb 0x16ca2eff00739684; P1 0x10e15891c6449dc9 0x1e75ec5cec7b6a79; P1 0x1e27fd9b83c5a318 0x2666d99336976efa; P0 0x17f6f31251208253 0x5c52cd00a1f4ba7])];
  mkcert 0x8e51fa3a480f89f9de5163 ([(0%nat, 0x8e51fa3a480f89f9de5163)], []) 2
    [P1 0x0 0x2; P0 0x0 0x4; P0 0x0 0x10; P0 0x0 0x100; P1 0x0 0x20000; P1 0x0 0x800000000; P1 0x0 0x800000000000000000; P0 0x731ee46aff6ad9 0xdc182ff92aa43153d0515; P0 0x1545ecd9b5453957defb4 0x50216722b39b0f43782d1d; P1 0x5a3b4cefed48be778697f9 0x38c675fed2d973835dc47; P0 0x16a62ca37271dbe4655f 0x35e332c8dc7d5a6627d8f4; P1 0x28ceb45abb867c2422c88f 0x85f3a41a980b17867e82d3; P0 0x7e13466bc46679c63827f1 0x43b392323f280f763646b6; P0 0x20349817e64c212ab76d96 0x2977831f646ac033a03262; P0 0xc14f79e02cb4dde1107dd 0x4e0db61655654205b1760d; P1 0x559d62fbdeb26999df6f44 0x2e49aabfcb61c4183f6e06; P1 0x1e1be4b7f5d65c7eac222e 0x50304d9b42861517348a7e; P1 0x5a5cdeb200aebbe6fff6c5 0x4c45e29d534e82765168d9; P1 0x51c0d38a8f8bb8bda4d150 0x7797534895c918502ecdf2; P1 0xc8fbded9206d937401fa3b 0x17a0c95cc0e8e3f23081b7; P1 0x7d871e82989f0995a22ba 0x185d4a076a55e5ea8f99b4; P0 0x42bc9d0930949a5dba7a0 0x5386ec1398e57682a533b0; P1 0x620b104f882a53c86e35b1 0x37b5928f51755ebc856d8d; P0 0x15ce7e642336df85f2e0f4 0x4f7388784a8e2b0db12d4d; P0 0x2c5ab13fccaa1387e12efc 0x378f0466d364b5d80341b5; P0 0x15b059c3af2424ebba2b2a 0x970ec33241919b2086ebb; P1 0x140a9bd7be2149e84536e 0x13ec758d3689accc3467a8; P1 0x5940b9462412be1201577 0x6ebf50d0b858c67a0c487b; P1 0xac5b7d2cf1b0c6c085a7f5 0x44557dfc5f56b786d05d73; P0 0x20cf5d622ca677a691e964 0x3dae6f56e4cce22fedbfd; P1 0x35771ad833650ab44e1f 0x80ea840548c643dfd9ab15; P0 0x74c63d46e96309b294002b 0x62a7e115202f5a365b6418; P0 0x446344ce1cc353ec722a25 0x7c89e57fe5f9aa57a0c0f1; P1 0xd9f51c27482dce7673f932 0x1436dc979a4add46956c; P0 0x2df018bd870845faa 0x203f63930237c3d1651cd2; P0 0x74e8be3a9b957c4213331 0x8a1d057f464f1d3d6b4f51; P1 0x10c0fcc7862a096c5d045ed 0x47228dcb4751e97261279b; P0 0x238e0f87309ade3e740b0d 0x2fdcb64651f03ffcf134d2; P0 0x1018934e225b5b1ec911fa 0x59abb51c71cfffa70bee96; P0 0x387f8bc02b9a1a5cf0cbe3 0x6a0a95f07f4c7457c3941b; P0 0x4f02a507fd4a506a17003d 0x36fd897330831078f2d642; P0 0x153f58d44b2a13782a1214 0x1f637ed22f7c25bec51748; P0 0x6ec39769c71dddb968dce 0x2e916782cd941ad232ff96; P0 0xf3cc04eefea7267152a43 0x127a2886a0adc68d1ba0fb; P1 0x4cc374dc8dde89b350550 0x78c293b8ee4d2278ca0e42; P1 0xcceea05b866c2640d16c93 0xbf187c3b787914b15122f; P1 0x2012ca389afea56510840 0x2c37f4df9a08c8a18ed882; P1 0x1b7a2bce8c90bbd836fdfd 0x3d2d2b345caa227c9ffe31; P1 0x3497ed52c57d6bf49dca63 0x5059881b3896b2179df379; P0 0x2d5cf0e9ac673360e25781 0x341ff9a96f6a84d7e3474e; P0 0x13173e067453b9aedc1062 0x65166c954359a2c4eb03de; P0 0x47ccff46de9d01e94e123b 0x8ab3efe4032c12ea833cb3; P1 0x10e5ade1c762df914a6bb75 0x8f1a3ce3ca670b8ec4713; P0 0x8fe399573352c8b277e0 0x66048d66e9621d85914fc9; P0 0x4920d48a686c1f59b2fe75 0x582f2ecef2a1158b5e3f92; P1 0x6d4805ad0b6c115c3ed7df 0x123f234f441ca9ed05544b; P1 0x4adc1d85936379469105a 0x5462e887d5aac92e84cf24; P1 0x641227c7ed052c7b8e1611 0x34d563b2e0f1ac00ca908d; P1 0x273a10495024a4cda84577 0x38c412cb1835871e06574d; P1 0x2d488a0f3810cfb1f27a08 0x40df06cb3bbcc95e71213a; P1 0x3b235911904ed40a79b113 0x605b87e66460b34b7784ef; P0 0x413d16a24aee5f7944bc0a 0x6ac1a5720bc5c575797543; P0 0x50145b897640780a264bf5 0x4c2020e81ede1716be6aca; P1 0x516ff730bd6a311c6d1388 0x6ce40075badb38177b3930; P1 0xa6a06adf5e8bc8f8d64605 0x1df47ea1086c20a5722911; P1 0xc9c13426e7e52c896496d 0x590200e36016a23695041b; P0 0x37aa7ce5ba6fe5c6e186ee 0x1b74aad27315ad66325ecf; P1 0xa97df8a8466a15fa5413b 0x244c1fac50c379053b71f1; P1 0x1283ba4082c56223350dad 0x2f733f30cb7f2abbbb42db; P1 0x1fa3e3da6b8cf34a8e1e31 0x31c0aafe3e4683bace20bf; P1 0x22c905fb51613e108ff95c 0x2a52dfbaafcf31d7cd126e; P0 0xc961da32ab3fc5fc1694c 0x670f296d1b9fa1d37ae2e0; P0 0x4aa1009f1f26f9f13c1f73 0x7dc61e1e370478d5a2b787; P1 0xde4d72cb186664bfcfcfa7 0x2f116d04070c9170f96dcd; P0 0xf90fad24d3904b50f2fb1 0x4c04d7e21e95f0d06dc3b6; P1 0x5135a0cec4aa7633170000 0x2e9e983d78bdddf4508ac8; P0 0xf45634cff02b92a50577a 0x3116a58f001e29f9b0ce12; P0 0x10ee6eace3600ba3508e07 0x87a2426ace6cd36477d58f; P0 0x8142f5d50af97aa5cd3dee 0x665c986716c02fb3be04d7; P1 0x933e8782ed208a40c1a3ee 0x3419d157539cd2bc522618; P0 0x1312bba24d889c49d5fb6b 0x1baeb5da673f8450f40cdf; P1 0xac4d903fc303dea5ff524 0x6d9e652ad2d1533a972396; P1 0xa8dcc53ab27a323e64d5c3 0x3573363ff3805add115a5f; P0 0x1412e47183519c4867394f 0x156542d174031ff3f5c6b4; P0 0x3376af99c8d5b57f958ac 0x6762dfa4bbf0188b1f380c; P0 0x4b1a6ea6fdab737709d145 0x22e8d692e5469dec547de1; P1 0x1120355f9bf638128e0360 0x8e51fa3a480f89f9de5162; P0 0x8e51fa3a480f89f9de5161 0x1]
    [(0x3d89490a0e5537ef, 0x43d06a01b28fc1632b40eb, [P1 0x0 0x2; P0 0x0 0x4; P0 0x0 0x10; P1 0x0 0x200; P0 0x0 0x40000; P1 0x0 0x2000000000; P0 0x0 0x4000000000000000000; P0 0x1cc7b91abfdab646 0x1a74e286fa3389740b5cee; P0 0x4eb0b2f689f7f4b2f7bee 0x18022a3c94fb5abe38b23a; P0 0x40cd0fd43bfde1bda228c 0x106296d204c47fa1c30d00; P0 0x1e2eab04a85b094080da7 0x7c15f12b56f334bd67e16b; P0 0x6c2ffd71221a945b973730 0x743f84f02c2f9d5906bb29; P0 0x5ef3c6d61bc6ad25dd25b4 0x7b28d1a4405e26d3563f5; P1 0xd5281907fd96755c56a0 0x6254eb9f6323640014b112; P0 0x43f071ba21eaa3b6b05c77 0x7758808a374e0fc3a27c3f; P0 0x641476a01fd83f02b50559 0x4a8e8d4c18d4c2ef28dd16; P1 0x4e1d9f61470980949bdd72 0x6c974deb57ac0b1f6a46b2; P0 0x52db0199da62908ef2243a 0x36e290adea0d2601877756; P1 0x2a550c495f18e2c7741d97 0x132576847a09341973e963; P0 0x29364d09c4e41a1f09a15 0x8a89765b0f71e90db5212a; P1 0x10db562cfeb085ebfe400c8 0x24ee0d6fa12915cc842070; P1 0x132a5c35d32283c3cc3bf9 0x183b962288e9ed655567b5; P1 0x8408f6819dbcf34648551 0x16bed9a81722043e1e1c9f; P1 0x74534f5e6758c3bf32974 0x5e841c09f42548932f99a6; P1 0x7d89ad8bc65b7cc9aed0d3 0x17f67aa7544fa935b02aaf; P0 0x408e0a1194510d3567b52 0x43d06a01b28fc1632b40eb])];
  mkcert 0x3a0fc367dcf0ff0a5a1db0b1b7c3093f33 ([(0%nat, 0x3a0fc367dcf0ff0a5a1db0b1b7c3093f33)], []) 2
    [P1 0x0 0x2; P1 0x0 0x8; P1 0x0 0x80; P0 0x0 0x4000; P1 0x0 0x20000000; P0 0x0 0x400000000000000; P0 0x0 0x100000000000000000000000000000; P0 0x468bb939cce552e87b1f2edfb 0x4c245bf482d64744bb8805fef3536d1ff; P0 0x63da4e5bb6c6e962b652b77a735944e6 0x397d15b6bdea79eb97a5e717024903082f; P0 0x38ebda91cea7a926ea29ef03831da1961b 0x22647f06f9028a71c1caa53db47c486c40; P1 0x28be9f682fe8fe8c9df0073ff7b5899c64 0x377c32b47f43c857bed41d173d70215c14; P1 0x6a0bcd01cdd39d5c6d0237b36b1a14c1c4 0x180e8288367e05f0adc4bc81b452d6ed14; P1 0x13ef510488467672852337648489cd8a25 0x2c7c2aba6f91c852c7266c7eabfebd72c1; P1 0x442a8a271da31cef40676ee2e8365d25f2 0x27313dd838a322e18c500fe2afd46dcdcc; P1 0x34e925e0dea14b34929d75c749249fc227 0x30f47a2bfa91415cdb9b18c2bd65566e5b; P1 0x528dad4982dde27fdaa55f06e30ade6d13 0x1e8aa9594ccfe7d3e121bf33dc0f9a40e9; P0 0x1010c90ca272b07f389c26103cd2a3e2d7 0x1c98d639fef863b561a3a596d36cc13a3c; P0 0xe15b9c09722e3554d667977a46080560f 0x18d1c5c0a7431a9b3f10d4969b39716813; P0 0xa9c07a359e0bead2a3dcad621b98a0a68 0x16c0a2cd70faa3f1bacda80416fc5dc6b1; P0 0x8ea7d50f69dcf0e6317ecb4e7dcac004e 0xfb37d1726add0bfacd4b76a69b7bb04d7; P1 0x87dea9494aab7ef30ad014c94b5295875 0x248ecbd103b0ffc66e54db042569446ed3; P1 0x2e09509cf40648199f31f4c1b3d61b2c86 0xbb139af2acda13a3606e72037520f2b20; P0 0x25ac48e625bd90bcb5fd26c7307f56e90 0x269c893c529a377ea577bf829e05d94d50; P1 0x335a9c4a8d583450464b5906d9f2cb2136 0xc45331a6e5cb102852f34713ce9688a3e; P1 0x52fad3308e35d89b9a6f4668919fa78d2 0x143b491cc5d62122f3de989021ec0a0e32; P0 0x70cb97f5d17cf9025c20e3a817dc4f9b1 0x88581485cac63a5b8edda99102ac83481; P0 0x1402c16ae2a101f1119ce79608ecd2271 0x2db6266544fd4c9ae5cb5318523103fd7e; P1 0x47fa0ff1fb63c9d528a3add2cedb88d681 0x2d0a33528eaeb43dc5c887b5fd19571955; P1 0x45e08a9d4c93023817d0eb932100484b9f 0x1f18c04dc1d04f62307c7a48bb09f53ac5; P1 0x214f419b4346751dd6ee935e922e49c8d6 0x1486a1af37ddd08a2cf317da2567a0a90; P1 0xe833aff018b084a9565cd8d33b959dd 0x2c55229d495bfd641bc76cb13f388fd7f9; P1 0x43b3200194d624266fccb51567a35e5763 0x202de5782408c0010defba713b9dfc9aa9; P0 0x11d5a9c4c104f4db1fe95b94b64f8f845a 0x225bf446dd8e941e731637d8c1c3d43fa3; P1 0x28aa64aa6b6021756b07b13b07cb56e7a5 0x244539567ba700fed739cc6757d67482b3; P1 0x2d50bf6bf1a38c2029f56c6bc77af9734d 0x26d1ea42ca9b49279bc7cf2fc35a1da6fb; P1 0x33e8fbe5befe03589c400c4a5909031cbd 0x2e388c6d36801431a725793163f23ab78b; P0 0x24cb7fc4b02e0e36cf7cd99489f64dfa33 0x2663529f360ded4001e81d851b93ada050; P0 0x19616e4387f2751e63626da99000dc5d07 0x31d31ecd1f3aad42e03d905b3aef79d79b; P1 0x55833d1359b29b33941d005c921117990a 0x1db9f95afd75e3844e9a34f6beaa807cb4; P1 0x1e705588cb073b312368ce10b73d2f2afd 0xa966dbb59970fb8dc108cb9c5fb9ee9b9; P1 0x3dc804a11ec35d854abe141510f325d3c 0x2ebbb5f4da79945dfd07fd35ced066386e; P1 0x4b3af7f5c7723f2b8e7bc84c3637731259 0xe8db97061aa95c9540af67c00ba9f0fcd; P0 0x3a5e227bac996fbe6d7c1866ff941091e 0x364033d858fbbb764a917b3777b05e772f; P0 0x32b0abd3fbecfd3eb06340920257e4111b 0x9094e3f79c4df79fae375a6fc9068ad40; P0 0x168076049530c3c07da7d4dc2bcfa480d 0x20ca7eb876a44fabbea92ad16e8c330269; P0 0x1284e535b64ad41fed1427abdc160e6695 0x15eedbb5fab12c8f75e79cda9ac381b462; P1 0x1092145ce5f0c89fa861a814d7ca97d47c 0xe8f49bb8a1a247db4f5cde82b85d61254; P1 0x74d55bdfaf2e2e89cbec14709a8d9dc10 0x31febdb3f3148e9101e3704b58ae610ff0; P1 0x561939783e7a87161470c1ec65c22e210e 0x28940e0aa3b5bc3fd78ff2ee10cceafa36; P1 0x38b81a3f4e48e816581d9a73480ec10295 0x1f9f60f27df863470f9a5af028d837d819; P1 0x22721c61464e06f7752495d9dd7d2e1f5b 0x8de99a58a5e3dbb883ed79ad4cd35c0c1; P1 0x2b5b7a3bde08d02283a55dc43d18b15d3 0x562e7225759ea8d33df56cce07f98dcf9; P1 0xffd70ecc591ef3cd16606463292cd894 0xd50a14e4b606004688d9fc50d26a42e6; P1 0x61b5df961056766b5c7ed6924624ef4 0x376bc29367cf8f72dc99b2c94e8c4f06ac; P0 0x34e6805cb9df92ce7e7cb1b6508c927a1e 0x1bdbf22bfdf1224c104fc6fe400c0acd96; P0 0xd5e0ebbf41db4f6b517f3d5e7a1bb3471 0x18a85c109555b69d036aa2f27a8fa55261; P0 0xa78bd6d44b48c9b1c3a3edb981e3afdd4 0x76097baf1a072a710cb54d089b6e08b85; P0 0xeff707a4fbf064aebacd3e729f816f17 0x2d3389f0d18f360911e60b55fc82dae884; P1 0x46610a4e5b42ca7c8f60c47d074079bba2 0x269e634e126636dc09aed1241bfbdfc8da; P0 0x19afc4b9b3cbbfcccaedb559b8375ebd94 0x2857ceec5a18f3267b00d1a9b46a62928; P1 0x38102b5b6937b44d176ae28a317b8dd7 0x399bd43d59b07eb256407677cd87e781ab; P0 0x3928cc909b25533aa9f9165de76b39f095 0x2c6296b297679b8efe838a12b00b4b2f8a; P0 0x21ee1e899f3aa53c6b8d096caeb9bf04ba 0xa08970127ab1b60601766a81ee3ee3f56; P1 0x377c008490ef5ac8ffcf6f681111daf58 0x225091a1a47ade858c3f7beef8c5fe4b40; P0 0x1447baf4c89983ed45d2c6a321a4e517c5 0x30823a155a68ee51c1af19e125c9b458c1; P1 0x510e1c10df11f0a6a234613abaeeb68d11 0x194f776ec114636eedb3957a699cac399f; P1 0x16111b1ceb3f9a5b0c0f102a5f3d4f5c40 0x1baafc9c8d64519bc79020a72bc87d40c2; P0 0xd2f3c496bb98832e428e907ab99d54b7c 0x147c9c06065ff1f77f5a57af52f680550; P1 0xe7512690da16f697c9a9977b2bee991 0x372af945776068376f908f9a93219c3b1d; P0 0x346b1aa41892cdc4ac512c77d3e139596c 0xa2b42e24ada0eb5629ed37eb2ec3fcc5; P0 0x1c7f0619873731bdc8964827be93459 0xaa7a8351d8c3806a6aa91a761243a1ade; P0 0x1f48dc51cbb1a1bdc85ca4d92c674dde2 0xf21f0db08f91a4668c7a5f4396095067e; P0 0x3f1aa2c2025d56074d888427a8e75e8d0 0x2453f1c53cb68be3e12603b91609bd9494; P1 0x2d758f46228f0f1d9ad8d959442666f509 0x371d03b3d686c578b5735edd3cc65e355; P1 0x68a12e20386a0a6ef95a5b649b8c9b28 0x5b91a63b75b74e358e3bc3ae9c249f37a; P1 0x120d3ad2544415f8d3abd7ea5ef50e23a 0x2b86fe68affac8141b270264579f7654ba; P0 0x20a1a0196987fe1f773c34c1e6c92ead81 0x387fbfca2a5ec5532ca440d4dc55fa4771; P1 0x6df500207c36f827ee9d3bd63859dbd221 0x290661c70262979aa9e68f08f9c79dc42f; P1 0x39f9778f00170916ff1baf760e5eda392d 0x32f9eadcaa6aae271df06bddb9b0db8a4b; P0 0x2cc16aef136440b1de068c8dfeb1268137 0x20198b273dac0f19ec28700d64d29fab04; P1 0x237e4304b393732b84a225a9cd62481a4f 0x353189e5a17771332a8861896a75cf0163; P1 0x61779a523b7b59aacf218c87aa96e0d4d8 0xfdc95ff7f5f17dcb40f9be4ba1174498a; P0 0x4554c8cb20bdeee631c5049f2265edeff 0x3504b9ffa61ee686340f06abf4fc71d097; P0 0x3069d3a14a94357472056f55afce9bef3b 0x29e4c795bf7a030302a560705a34408b50; P0 0x1e3a57cc12e05b4db4516bd884a2cbc8ba 0x19609c15392b9d4e771f2d6c9c224735f2; P0 0xb1784d9f3d7a5ac82dbe4d3ce1ef8ccbb 0x2f8c83f2bb35a5beecc874c20536144a83; P1 0x4de1185c6d1fca5c66726dc0437f3545c0 0x19f498e691219408b8ccfa7950d4c8d8d2; P0 0xb9a5b35f910fae51f8a7856524935e4be 0xacbf227c962e831d66a555792b20db86a; P1 0x403ec1d5032f020fc69293000aa5a52a8 0x2e2217b21a8b518f4ced6e31e644fb4850; P1 0x494f8f6959fe3f13bf51d602d77ca34b33 0x97bd350a4db0c15de4973a88e40c5a9d7; P0 0x18c8eb689cfbd9259b0b03d1d58caebaa 0x1110f7cc4947b197f6700ff130ee2dc9b3; P0 0x504306106f4a271fef05ec7f6c0251243 0x4f2256b123b77f6ba5430e5cc479c72d0; P0 0x6bdacae1d65ebad40f9283f3393c5f08 0x28d569cef7ed824220b29ba806cf4c0268; P1 0x396f63afe3cbfa64b3a285943bfa2ec54d 0xc49342d636b29f179a77b412d4af75329; P1 0x533104746f13e22b35cc34b7e6fe86c2f 0x2a2d84f02475d285befaa1fcf777af1ac5; P0 0x1ea3aafa3192b2891fc5566cdfcb95edf2 0x2a3e96decd8f2696174552389c9a33a663; P1 0x3d78f9d5586d37d45f814d05ebd2fccaba 0x3983cbf5b664c351fe198ad9599a62eb84; P1 0x71f24bd9d3ee1402b7caf6527c35c90cdc 0x302b80c22769cb1c4e6e60109bba83844c; P0 0x27f6a67da71428c6e427e7fa5ace9928b8 0x21fc538ab60acf7934ef2899f9aa2611e8; P1 0x27c943a48062ce3e48ef3c65c8f69d5367 0x29d58324367fcc3ed931296218a7c44dfb; P1 0x3c48a74059e3f8b5327f1a865cb18a6063 0x2ee6622ed77c2a47a93e3d6b73bb6d5779; P1 0x4bc499efa2288a37325201263cfc9aa60a 0x33ae5c2b3b5d4918330d116908ebd56464; P1 0x5c00e882df9fcb9372238db15ef5b80187 0x230e0ad8fa060472cf83a99d597cc5073b; P1 0x2a5435f99eb9276c3835521b5d140e78fc 0x18ada5978172a7ad76b42e90dce8070fe; P0 0xa7d3b8b055a3c11db0dfbc9ae4064ff 0x2adac1cceae66029350d86528b9e395c37; P0 0x1fa160c432211683a8e4e8d8aa0ccfe296 0x240a0fdf185e3c78c05be5bb3f264285ef; P0 0x165eb197bc71dfc86300efcfff4ffac451 0x1d3af3c0f977164075e12c77e10a3029fe; P0 0xeb72fd2d7b15411d17aa7ef7c436fbe14 0x2e1725db62e0d277c15c3e4576c4658e08; P1 0x492ccaaa988b92723bec4b3e8b1b1554be 0xc73fcf434347aa5043917fbcbe8711ca6; P1 0x55785dae08900fd09414758f8c62f851a 0x2bade27cc358aaa00a8234165cb25e8d1a; P0 0x20dc09cc552f564fc1c49f37391593a375 0xc8053c5ca323c671c24f7fcf951d4b55; P0 0x2b1108f63a9324c5f7f6e1be4b549da 0x19c77f056573f98cc9113ad33345788dcb; P0 0xb722b7581e22a3ca434d2bb9f9d95441c 0x151f346508d4aa1abf47c3645dd15dc965; P0 0x7af0e772a445f02d86e670d517d54d1a7 0x23a67b681069e5e83b50972727074e494; P1 0x2bc77b374e41b1fbd3ff6c9036174f42 0x1f4efd12647ba5dcbe1d45b1f951f7e2fa; P0 0x10e1ec4ed6a6c589d87dfef188fda83e0d 0xf9f1c1bf9367f27a6deb9cccdf66bcc8d; P0 0x433f6deb25cf80dfbf00a9118b6bde5fb 0x1f8e7236f2400c5ed8c170ab28330e6fa8; P1 0x224d42ce51a79b224ba57ae3b069dc3d10 0x20f28c4634480b803640b633b70eaf2250; P0 0x12b23e7bc20df14bba44554038cd1130ba 0x34bffbcd219efe98b766cf0b7a3404ddf2; P0 0x2fec99b69207acf3ce1cf2c5d9979a58cc 0x2d07887ed538968d75a7aee5d4d35d420; P1 0x45d8441d3295a74b0d0040316c1ebf2c 0x928bfd4b0b5ef78246648d7be32521e3c; P1 0x2e3c3f632860441b9fee0c50f816ca02f 0x157a075d3b3087fa471185500eb14dc1c3; P1 0xfe3626f4a7340c74ac87f92a9f4308d2e 0x231f9052e3e25cab640c9d07aef6e2c2e8; P1 0x2a7e91079ed6bb7a63b7548830460162ef 0x20d0cbe71baccbc1b2890ef68b5b025de3; P1 0x2518080bd4f5ed2c253aca84bb40a74695 0x16738a6a7f2b1d375357ba1e2ef206b3e3; P1 0x115cef1f2df04e8564e3015eb12079067c 0x39c7e10bf418c33540db3e4974305a7de; P0 0x398057af6d649bc9c0a9aafee4cd4ef7 0x240e6a1c6c8da9903f6c62fadd29bae04f; P0 0x16641927940e3917d4ffe707833fedf4d8 0x1164bcde59c425ed3e5cf84d8296156959; P1 0xa6bd03c7d6b7f9b901998242f8cb34de4 0x30042efa8ccb274cfa8140818def00a176; P1 0x4f6b0687e5532e57061e59f101cc25e5d8 0x3815eb3580012cf93e39ccc583d7f652c0; P0 0x362d4a08ee4c62f0ef48cb8a874d595640 0x2b9f807a539785768f17d44aed7679a140; P0 0x20c669789ed9a128ff5e165d54284c01fb 0x35c046cc0c92f44c09adea57a6d59d65ff; P1 0x63856cea81f05818ae3de6ccd2d95e73f0 0x3a0fc367dcf0ff0a5a1db0b1b7c3093f32; P0 0x3a0fc367dcf0ff0a5a1db0b1b7c3093f31 0x1]
    [(0x8e51fa3a480f89f9de5163, 0x1ae2c2ca6b6676caa5c3933f166ac4090c, [P1 0x0 0x2; P1 0x0 0x8; P0 0x0 0x40; P1 0x0 0x2000; P0 0x0 0x4000000; P0 0x0 0x10000000000000; P0 0x0 0x100000000000000000000000000; P0 0x468bb939cce552e87b1 0x3718e0424cdff11c5d39192b68fc1d68bd; P1 0x689178206400a5c24cbc666bab1dbe911d 0x39f4a2f3d9f444bd1bb07f75e9f7a62b4b; P1 0x73b31e58ac3467fedc479139c439b0fe16 0x364cdc1328bd9f8cdf1ec263120f9c8790; P1 0x6590ab6c49d1c4628ee9e915e81e0c3533 0x396017ec5fe7f2898124ae2da509413bd7; P0 0x38b27ff1a2af3ef4bf08a47050cbb07c80 0x80e27c11b810e824a46180637abde8111; P0 0x11e18f0ff34fae25a8a700265ad705bf2 0x3546ccd4f2966a2015416008340b0943eb; P0 0x30e2ca1c4580cb6eb79ad2765348a45c09 0x3746c147c6d4c2bcb53e1d3edb07d54cee; P0 0x349ff30bd8582c0d3fc3ed73d4b2eae135 0x31e8f1349b0b2b7374bebf020a631644b5; P0 0x2ae71a855c6d1a4fdf42ef7c2439683631 0x91a892c3cc5954db04f56c3e78fbacd36; P1 0x2dad2efc37df1154de375fd5aafc6eee6 0x7bd0fb9af14fbefc25005d55c46cdcf6; P0 0x10809d502bc7c19afe2ab900c62e741 0x156fa298c7b15763001164b1296b61ab71; P1 0xfd40556fb383ab72323bcb0f6915b1da2 0xa4be7f579ea410797eed54a12d6c08a7c; P1 0x3a6e427104adbd2c960dc81dbcc6313b7 0x152f6e583de57149b001b2072779cde1ab; P0 0x7bae148ccbf5a604a911de4083d0564a6 0xbf3d1957f1c267413d868f2d3611e2127; P0 0x275e30e917546784d5b7c0b39f9b95fda 0x1da88ad406cc5c9f7a5d7b7f968c405583; P1 0x1e4cad12bf13beda809e89d3ccee64bbba 0xba204b26404bf84f36fdbb16ebc525604; P1 0x4a9513d786cca0ab1097e867b41f2b6c3 0x242b38eb1323c8376b675d2d955abdfa47; P0 0x1687eef9d0561ac094d08edf05b3041fd5 0x1bf9e530dd18bbcec4cb9522c3625ffd42; P1 0x1af5b78d798135f1af540c4359c0baa4a8 0x31b2516d2506aa9c9d7087a97ddd72e490; P1 0x5512c9cd9a4d4012be28f7406794d7e218 0x24c3c2221f30ae8bf9888c9766f623af38; P1 0x2e8f14950377a06154f369e1c0e783e7a0 0x154d8970ad3c45cb2e20e051d86893b3a0; P0 0x7d0e929e1b0d66913a7c0b005c5d8d45a 0x2b305b690bb22fe2437e54139cfc2ab012; P1 0x40407692daf6c21589183006c7e5cc3e4b 0x2f0eb2525df85c82ad9ca11c50159a497; P1 0x4c4712c7dcbc202970d1294083179c89 0x10566007adfee76ffbba0513094894bbd7; P0 0x498d6dffa23e856e7476c66d4b77ac4e4 0x3272326df9a7050fe73c88ef624e7e7925; P1 0x57a8ae49172290474ee7686088349e5681 0x127e6b56de661fb2e1b1b810824b2203ff; P1 0xbc805e3d8bb40dd46227471b43db6ec50 0xefb581d7c78a6ef6b15a502f9652f2c12; P1 0x7bb4acb63cb24bde04a30d943bce24816 0xf6e910dae538a419d6b1ed66538cc9c26; P0 0x41a006eb76cc107ac8875357e1cb936fe 0x2193ecd76461a314632b252fac2571df0a; P0 0x136b253c829292eed436f7e7d6f5f29a10 0x222db58da9c2188663d9fec5e43f57cb34; P1 0x283d370c176c2e9753829930bd72865726 0x29ec4697b0f87d8e5a17265f4ccabb4e8e; P1 0x3c8a54151c95c13693bcce35af7b04f497 0x3670ac32de02b2b66529ce18ff8ea0ca73; P1 0x6616d061d4f74b9f36f6d7e416c94d82ca 0x39ab85367547dc37d288a9fa8ae2f89b14; P0 0x3947f416aa9f415e1e1f9cf1566db5f718 0x194a50590af4db732cf9df1acf89ca17c8; P1 0x16081ff23d2cf1b49f907682b6d66dc37d 0x235044a2aaefd0cf15c967aa8a624c6399; P0 0x157a5e53d97cd968ba31de2f95076c2b36 0x106ef48637eb6783ff424e1f2aad82cbaf; P0 0x4a6b673ea18779aaa4464e6941c771c99 0x2ba89369dc0251d1658a5e9af7da5a826; P1 0x41a81ae33f71441e1cce23bc00d4addc 0xfcfa47a120b7fa49be0d8b3e164f80474; P1 0x89c7a06fa0bd25731cf4c2cfd5ec0345f 0x2d0f4c7cb628677ee2f84a52fc2022d933; P0 0x22f82ea76a7c0775dea288aabb6afeb06f 0x1ae2c2ca6b6676caa5c3933f166ac4090c])];
  mkcert 0x32cdcafae152df290ed9fa9b80caa8174cb ([(0%nat, 0x32cdcafae152df290ed9fa9b80caa8174cb)], []) 2
    [P1 0x0 0x2; P1 0x0 0x8; P0 0x0 0x40; P0 0x0 0x1000; P1 0x0 0x2000000; P0 0x0 0x4000000000000; P1 0x0 0x20000000000000000000000000; P1 0x284fd78ebe39e63bb 0xcec07108d69a04256e9da344004cfb2eb7; P0 0x34965db8655893ca96cbb5818da0b8e5cb 0x271878a756acb6b6f13286ef6c6775712d8; P0 0x1e15e9f94f6352c261dd79f0e34b0f5f9ee 0x1cc27d3c1528c687e70c140e837daf80e86; P1 0x208fb54c46899406664a7191e4b47aac2fc 0xdf954ebe29c89ff803fdbb24d5eb270e74; P1 0x7aff055964d0059141364168a88730eb36 0x1ff6bb0223347fb1546711201c6ffbccd4e; P0 0x141c401a3f4383c5b1aa68621a1da2f9033 0x1463b9d36511a51e60b4282e8947a748f53; P1 0x105dc1192d6a5eff0688e5d9104c1d5e938 0x1430d32b8dcaae76da4c931dc6647665a6a; P1 0x100c70472678dee514fcee3964f4cdca88d 0x2a136d6048f84f06ba49c1b5a57066dbf9; P1 0x45b1d751c54df27b661726cd41916694d 0x84ceee1e3a5d49984d02bc702d90968c53; P0 0x15b2de052e426429eb5fdfb9469cfd8094 0x10aa2782e25557c02a24215e762b052dd8d; P0 0x57761ccbbf16ee78ed6d95c914f87b5c98 0x20ef80a0b654a2af85b33b5746905b17321; P1 0x2ab4166d0ad58124d5fb7b7a67cabce5c33 0x18a7f9adc5ddc4f77b75dca6bd350b41c11; P0 0xbf7546a81e3ceac8f76a68c99df0472bcf 0x22182d7a923348203cb188eec81c9632ffc; P1 0x2dc2f2599050232cc4ae1ff9d5f9fbf0c8e 0x8897d663278df2dcd0c0d9a405de0fb386; P0 0x16f3fc592102aaa485a58630d6194f70ba 0x234123a6424402fd364d2a7b7b58ccbfea6; P1 0x30edabaa107d6a1b5faa1f09ec8dd80fdc4 0x2866ccfe2a8f80771ad0e315e44b1199cdc; P1 0x404222ada5f56e9cb9af0c399da1e8af07d 0x2e0dfa55e31139f68e95a2d095118076301; P1 0x537fa40829a408efff43c6ad1a84095ce3e 0x28b5d6f577bbefcb0046feb77c84f32e8d8; P1 0x413e8481f06765074718b1249f7ab940f50 0x1a45edf11265c70705d61a54dff33a80810; P1 0x1b2c9ca88359c2814ab59863920981e500e 0x14f89ceaacd746bf911655577e3eb242ee6; P0 0x8a816fda821bd20e7ed077968b69b13862 0x27f88e23b756af5309cc379e053e2d158ee; P1 0x3ee550bd1c4243a20939c613593911730e4 0x256b09d62d55bb96b4a54d4e57b7c91e5bc; P0 0x1b8f297fa65d491eac16b7581fae389aedd 0x12b9f9853d5cd91df86f290e2737c5b14d1; P1 0xdce25af7b55ab0e4e16567cef4084be8be 0x30a3a03a095adde822d486469b51f28fe98; P1 0x5d22249df9428f5bcd23402af669e0f9fcf 0x2aa5069dda5698b570d85306ca151476f5b; P1 0x479770fd82ae06e1d17b48cdc24099a219b 0x2f18c589e958d91d4734bca308bc44632c9; P0 0x2ba8ffe77bf2ddfe751be6287c2afaa571a 0x1f13e5d37d9c693f72358cdd069f45a4833; P0 0x1302c7373eca8ed5c88409162fb5d3578ce 0x2fdbc449ebdc045f4fd6245bbec404696cf; P0 0x2d1574c762018c8dc8576fe9cd5632b198b 0x28dfb2fd2b26bd7311c31b5162efa3ffe28; P0 0x20e27abe85f17a2c8d2ce392d14de98e469 0xea6459bc0e4ffb2fd6411e2eb6965db2fd; P1 0x872cfc0274f1cdb614f5fa46d8f3146e95 0x254b88384d672fb8df7a43ae5ab5b8967eb; P0 0x1b60d40bf7405db5ea3a97fda5df8b80b3c 0x9a2161d7d9c4abfe2305894b585570d925; P1 0x3a7361610c91989656835707c8db9b5fba 0x16946b5cfad275d373b1667ff6548d04e34; P0 0xa091ae510ba4b0e7de5f0dcf8e3970b85d 0x17f5cc5cf40705225ff89b6d21f239a64d1; P1 0x1699a6592507600a40c4b564ebf7954241e 0xe5dffd80ce56e18e65a7f34cffbd1ba978; P0 0x410209310c6b57e2e813a334d75e26ada7 0x1882b5f2dbfa707460c40f4ee34c8fd48d3; P0 0xbd34419a4fc883da57ed7546dfc343405f 0x19b8e88fd8e77aecff8cea7b419e0674694; P1 0x1a0bf46a5d28aed5b59b9ce49dadc724472 0x1f5ba56e2e2cba879ff60e9c358f6089cba; P0 0x135af4304dd0c5525f17ce6764b20abeb2d 0xd23359a6e298ec9b80b703d21571025675; P1 0x6cb67f28c57496dd24bd484597c750e7c7 0xe4a4f1005a149c8c38f0466266da98ac25; P1 0x80a0a5731ceaaa0c0700ec282980348438 0x25ea8e582100de61fe84cba2f8b819d424a; P0 0x1c4c404adff125589309e7b714be3fc6e52 0x18f0335d7600aa541500b262bfabd739a5e; P1 0x187babdeeafac12426c0930b3720cc6bb24 0xdd41d92a99a44ad250c508ec214f8bbf7c; P1 0x787349c97330d85b49a78919a0359c7db1 0xf2229c4f5fcce31c2bf9e81eebc387a8c5; P1 0x90411eb908da81eb9888f14d684004bee4 0x18bc614ed8f542775f9c1a416d696eba066; P1 0x181655c186a545f9b4d88615e3e3df49d99 0x26b88ee55bd28c45f96122b6339d30c04f5; P1 0x3b0601c0bcfacdf992be9676b23baa64f5c 0x8ed31667058b30ef59ade18af336ee86fe; P0 0x191858843d8716a2785766b6685024a26a 0x2c8253213c4070f6808e75331160d6811f6; P0 0x26fe86122a35e1ddf72316f02ef65591a9e 0x26f77f632a168676dc54b1323ac81cce51a; P1 0x3bc67f32eae95072ff0a136821fa942c0f2 0x5a3787bf69630d16fd2a2f11badfa06562; P0 0xa034c3a85a14e7dd70249b82f2678475e 0x1b737776c299c4b706050a9964d3a9149fa; P1 0x1daa5a3aa5b01c68a07fe8c956debfa973b 0x2a9b414123267fd967e6f76232d4631687f; P0 0x23bb531a0662f64addc0b406a167fa87bcd 0x830acde435a7c5a72d15cbd7ec88455f72; P0 0x15201c15b3fdd7492050f41197a9d99ccb 0x1e2ac79d4c446d2fb0dcded37e09c237dcb; P1 0x23d3807b3400d5123578627e4fa46e58586 0x2e6dadace0bd36a655e15be95c4999c24b0; P0 0x2a6e087241c781d90a20e07b1c5085e9be1 0x76e52f486c7fb07c3997b7bfd2a3b96995; P0 0x1163f817f7b926e120fc24bb0b36b01db0 0x2a6d56ea81ab133710311d863cf821a4629; P0 0x236e7924bbcb5884d53a55841e8c160f36c 0x9bd0cac940e62384e06ab546804ff47bed; P0 0x1dde300d0af1bfc135dad56f526a656dc0 0x1d243a609b3b6d14f949a199b6a9bdc9229; P1 0x216e7e8c6eeb278121053d4f8fdc56ae26b 0x118928af1ff8eccd4edc0aa50f3f908e49; P1 0xc1b02d30a73e8e8a17f8efc7cfd5c6c1 0x2be7dafb2faaf00025313a5150ca0951297; P1 0x4be36591cf6ed936c95a92cfff44d71bfe5 0x998e76014e3a8e5a3c842d941a11b33b8b; P0 0x1d0213bf8c6e349c074a94608b3dbf7b6b 0x32c00797ca13e1af8352c737ec5ce8d03a0; P1 0x65648fde6e9b0c1e1414f6b87d667d09845 0x1ad0bd7d92cf8acbcb7866e38ff986d4549; P1 0x1c4eb7db7e31417e849a4f5312c18931dfe 0x1cde3f3ec7715bc35632799cba29696fd38; P0 0x106757244782c0f5510379b74abaa39311f 0x7c8be4fab6873595ce0b12f0851bdcbcab; P1 0x262a7ae80e99fc8c8435dd71927f8f3cfd 0x2de9b0699ae3b2cc35b3e39651bfa3233d3; P1 0x52fc41f715920210baeb898e941f59a73db 0x123cb123ad82c4b5e75369102853c7f6529; P0 0x68bebd64ac11f857c1cea7e5ce5236a700 0x1b6bad7748ea5cf47a8a845731ea2a4f391; P0 0xeccc375eb73b214e493815f007ee6ba38e 0x266cbdfae2d91123ef0fd2942b3f17f8e87; P1 0x3a1fc0dd2be53b63fd4bc1ff86582b68abc 0x1b73faf65ea3b8a45fad19efebfb03ee34e; P1 0x1dab76739f0425bea6e240f5e807f5124af 0x1184223d0f4be678cb3b00848badb1074c3; P1 0xc1413ab39c84a9e37aea006f77ac2c0f24 0x158b6bc4a62cd83ad8fe44d085d8524786; P1 0x1245e52fe0703262d01c79e1709fc6b20 0x1b392215ad7c7f42069df478f1f84d3c1e8; P1 0x1d2ccc29841dc561629a7afae0ac334d488 0x2bb3f191f842657570631cd5e82cae51ca8; P1 0x4b305bcd82d6476058c29cbf51f4d462846 0x116444472241c37596f54df6893f762b4fe; P0 0x5f4246c9e793be204c327f3161a38b794e 0x873e2ce1128187949769bbacff678fa32a; P1 0x2d00c7aa6d96fbfe88d972fe0148b50206 0x232a5b9210146eb721fad3488524c5bb306; P0 0x185741e99b77210370a1b079e455e60478e 0x19d1cfce39e54e9cd818319ca8682224e8a; P1 0x1a3e7c1f16f7cd93760414ebf8ed86b55b8 0x20fc629de22bba7b6e765e07fb197d46be0; P0 0x156ac293193f7aac427271579c6e4f251ae 0x1974dcad00a048024d78a6ad64f0a9d6706; P0 0xcc16dc51257d474a4ec124ad90b0fd094b 0x1f3560b1db24c3a40b34a928967812a79ab; P1 0x2657a66e12c8820ed369296d35bc256ad48 0x2f6f971e46a32ec307f0a6ffc977556285a; P1 0x589517bb3b4130e0d662c61ac3e2ee73449 0x3bca15c70bd863a983c83a76e505d7f565; P0 0x465d38f0b21dcef512b74f6f804daad5f 0x179ec3669a58d5a95d3150cfdd0aa0af384; P1 0x15f69fecc31399fece00ee4115febb07127 0x2151ec6c0c82430e3dd64f7d209b9115233; P1 0x2bb4cc4f8eff9982be354b12372e3e7e52c 0x321c1cb96362f3f329746289ba5f66ec26e; P1 0x62d9b7c5a055fb47088fde17070dffc6cea 0x57d96a3c8ca1292a4a02b4ae47dff768fa; P0 0x97e858d26c2ad6a2929f57affca9cd7fe 0x11f54bbe8cc8621b53bed54a9a70a3bb5ba; P0 0x6590e178bcb213cd7c9ef12601df3537a2 0x880dfede5c9f18382014458bd113b205ae; P0 0x16c5c050244a3b7954131c3f5524545bbc 0x2614db8e2f5d488c70fab0895889fe65430; P0 0x1c8b87bfde600cb2709ba1a0e591991469a 0x20ffdc76015b61742f6235724431024c4e2; P0 0x156f46538c0fc8fae6273bb5296f3fb7879 0x9892870b2c42390d3d08f0ca8abd027b91; P0 0x1ca3328c5435321296b298a0f7c3fb66e7 0x2a253bf4431eab3ac8346e63eafb08662f4; P0 0x22f670c020d740a8dcaeedd6f0111c7d6f0 0x22a4e00330eb1ac97f564bc89ce7e38840; P1 0x2f3fadb13fb69040d40f787c4407fe03c 0x2dc53697e31d657d915ee304c3be6ca206c; P1 0x52789afa126900c662cbd4e1f0c9d1f0fb4 0x1ecb5adad88f9eee08f6ad878b60a35764; P0 0x12aa6e58f03b40dcb4779680df24385c1 0x226f4745185a0bc61d038258ba122c59b05; P0 0x1756f690e23940a007e3fa75a08fd6d0b6d 0x62b9bb4e5c21862c9d32750963c4fe9aaa; P1 0x17fb33b2c509d6ef7338bb02af33bbf69f 0x2c9cdbc140826a018d4c35d9bbf1fa655b3; P0 0x272d11e9f28a82c9c50df3d88dc8b88c844 0x21a327d662f1dde4974011979b7e85abd3d; P1 0x2c8aeb3f807366002fa21a0f885a1238904 0x3ccde01c0a9f0bb46adb76e5acc146cae6; P0 0x48c5e39522b06f3742b4046de211bb60d 0x2654955a0cb2d213877225922f634938655; P1 0x39d6c139df01a675d6b464590a7d28824c1 0x25f4e82ee000f93747a11eb555bd6589767; P0 0x1c5bb5afbdd3e97800c1f45393ca1f65f80 0x65360cef0cbaa1aed41378b5f97336f0f1; P1 0x19343a57b46a5d1634843f5d1b4c869979 0x2202923647e2806ae06ee3e7f6dc0a1fecf; P0 0x16c4824e65edb5b89a5b7833d1e98a37de0 0xb27ce908892a1f5e39a86e0c18b16f1ac1; P1 0x4e62766b5b527050fd52e92139f847e850 0x19573aa5a9fc8741922f232011489ba1392; P0 0xca3ccbbd7f6bf961f8a614213f50074955 0xeec4b4d1b2f48ff202221e23308cd054dd; P0 0x4622a46658de350c18b941cd2cd71e5361 0xb3b6a0ead237c184409c999900fa8cb4de; P0 0x27bb79fda8546ab2c1d93122e1fea8fa09 0x11dd121fe332fbd2d3eb76eb06270c59761; P0 0x647f956a1b2c479a6c3e2748fde3c9b0a6 0x9dc15313973e8af7b32b0786f7f02d471f; P0 0x1e9dbb0f72cbe11f9c240e396adfaadaf1 0x1b57d39bdefe45d282d9ab4044d0f8664a6; P0 0xeb75d820f12559833563e14fdf41dec245 0x29e932896f35c4618cb2a570d516e9caed; P1 0x4526374745fb0a77887ef12fe4d48f6dd 0x894486865a48522b98dfee0ad00074d993; P0 0x172e2a7b2e301a3a7ca76488fc44f9c83a 0x125d850f66f0581b53fb6949d5d9c1c7c6b; P1 0xd4725207bce853603f34924132e77789dd 0x2d3bf16e8f0d1c3ca9bcff9a5b2c7203333; P1 0x508cd2e71e9a2996b8b5b350725dfb9b290 0x2f16d0b901abd63ac6d0b348d51a40e022; P1 0x574abedf14ff72f40c34d77d087e5b4a3 0x217e96b10f5a36326bff84a88cf5d53efc7; P0 0x161523e2ae435b6beea9d1782873cad6dfd 0x219ce99a20831babb716224c487cfc55112; P1 0x2c7a64018501d213f6e53b1a638249b030d 0x14d516c2afe9b7c12cbe80b667f86e67b39; P0 0x88adbf1d7c80584acdcc13851c2f258c5c 0xd0d4f97dd9204aa6563b2d0ee818ffd5bd; P0 0x35a6a0f95ccf83ebaf2b5f5a27b728fe71 0x21b62e8d6f71b7edeaf475e3e6df3c15ee; P1 0x2cbd5d2175d8025a0b7ce31f2261549da 0x14f34465eb9993c3f93f5b1a1ab07af7aaa; P1 0x11475b7be0a321b71ab7d2357baefd5e89d 0x269be3319f6a38c4658f29bace1415949; P0 0x1d575cee3c6c9b004247b32d8bc8213 0x14a334d4f1eae2eaebd9afa6def563715c0; P0 0x862242de82ba62c4d77eaf9fdee25620b3 0x1afe18db381deb3799961f7298109060f; P1 0x1caecbc533386416298343188ab5be4 0x2cb8689851fa477ea43da5249315afc3bf6; P0 0x275d83903149626993909d8e44fcad013d5 0x13b095d47446f7c79e59ebbf9ad860a127d; P1 0xf431ae81f1c78bf687e442b8db52b4a6d8 0x32cdcafae152df290ed9fa9b80caa8174ca; P0 0x32cdcafae152df290ed9fa9b80caa8174c9 0x1]
    [(0x3a0fc367dcf0ff0a5a1db0b1b7c3093f33, 0x4000, [P1 0x0 0x2; P1 0x0 0x8; P1 0x0 0x80; P0 0x0 0x4000])];
  mkcert 0x1000000000000000000000000000000014def9dea2f79cd65812631a5cf5d3ed ([(0%nat, 0x1000000000000000000000000000000014def9dea2f79cd65812631a5cf5d3ed)], []) 2
    [P1 0x0 0x2; P0 0x0 0x4; P0 0x0 0x10; P0 0x0 0x100; P0 0x0 0x10000; P0 0x0 0x100000000; P0 0x0 0x10000000000000000; P0 0x0 0x100000000000000000000000000000000; P0 0xf 0xffffffffffffffffffffffffffffffec6ef5bf4737dcf70d6ec31748d98951d; P0 0xffffffffffffffffffffffffffffffd78ffbe0a4404020b55c5ffcebe3b5668 0x399411b7c309a3dceec73d217f5be65d00e1ba768859347a40611e3449c0f01; P0 0xcf34588528db9ed8dec1d2af2996f8650666c7487dd77bcb4528c04d42fd44 0x9dc924e5a45ffd7e7faf80eb68700589d31cab2023493f73a3dc22242419a0d; P0 0x6140554ca18b3fe3b5d3febb2e81298dbc467b7c29b9ebfcbf7e38c46003440 0xdeb9e5998bda5f0202c1218e9a2a2dd95b64402f5ba13ad36151daa50cc8569; P0 0xc1c6f133f466eeb1f314f81cc60c1e2b6290ca0323d92100729c93172c2a54d 0xf1c7e9a75c48198b3ce05d5df3f6cf8528fbd8e8942860d8566135af9bbc5c8; P0 0xe45a020a33334b94a4ebc3c058b6d208c8a286cce9b55e4cfed7afcdfece5b0 0xf90759d8b953191d2b8c799ad9bafd82659895124250b27056a744af9ecb850; P0 0xf23f4cfda1e631bb282985047ff284c0b8ab7c89ef4b7f44f88e78d750a1812 0xc7b79e5aed23f1543a6f18cc20a0caecacc72057819496f257f671fcac9fa56; P0 0x9bcefbe524a14797f0197c9edc03693102731f2dbac3ea1e20f4e2b1aefd378 0xefb4248d3969819eedbf670a3a5735af39ad627f4f938e0b638746eaaad66cc; P0 0xe071db031d03c272fef75ab2150313b6a1c53b1ab096198ebb0acef2f8a8139 0xa93ee1af2e4a00398aef9eb9d8164c219dfc6f7eda4a0fef4144ae4b5b695cb; P0 0x6fe4156b62ed87627b3fce00392247bf086f6ac1bdfd7531234fc6a0f0e768a 0x9a45c99539976a1a876f6d367510f80f438fd0480d7513b0181c3947c207337; P0 0x5cf8098dd276e2b2f91303d32cfd89cdaea028ce77c2b3b5156210d2fdf3a64 0xb40dea20a301c5fd0ae33a4008645a8b36f4efbb21dcab4689259e1291cfb3d; P0 0x7ea391ff82aabac25931fe4b769077b21d45f1569250a606ef7e4344fee9ff3 0x80b3b8a9dae45e82a5ebade02766c3f7d89be7efd9207c27437c23609a4f92; P0 0x40b436d59da11539d52a0926282cccbacd28eb97d50f609d7f60e9a64020e 0x752169d675dee8276253ab3e418668bc35b5fdf10bf904c060523f8f8b5fe4e; P0 0x35978f1a7cc9c405fb69c6e58b038a233bd9121947c5d7d8047010921d9c9ba 0xd4e09b5284057f34604bd927037ec8e399d7386233ee215d71f980cf804d092; P0 0xb104c650d94d2ac4dacab9da662b72fa9e4bde464f1acdba2cc18aafdb81dfc 0xf00282ba5ffc8571dbc4e9d3ce1065d888e0db16e10f687f5a800e328271cf8; P0 0xe104b523c1a4cb53a84f9649a0212e7c712ac6a6addd8793a03b8744454ecd1 0xb936c3bf0654f9517a79372f9cf6f910329766ccfee54b193f53c465502afc3; P0 0x860032a1416a0e60d8291cf3e5ebb6a74060b236a301535967ad3b13c2f0342 0x16f8b98b53a2b47ac36b4217ec580cdbcd8a57ab84386ad2d36e6d56858c46f; P0 0x20fb18bf6ccacf7de4d635dec4d24a96e96bf8fd04195c24355cf14c72bb0a 0x715423f4fadb323ce6fe94d3280f928eeb25c0f288ad1854ff163a8e417c1df; P0 0x322b6365e3470939d3499b83f725c40a4d1e58354ebac1f5e6c5677d410238f 0xd51bb25ee54a8300a067cee58b1195aae994be00053cb3c3c52c7c194c937de; P0 0xb16719d105da75bf7b520bc4e429d70e9223eb9759131981b9648f3b3fb729e 0x1ff82edfaf8bbed03756e9d3e6150eebfa87466b1c1e6bdaacde5a61e55ce3e; P0 0x3fe0bf5067d1d81a73be2d371b90fd511af613913ca0d74fd6b2dd88758115 0xb23dc51b8f0ccb57c2ed594db5fa6ddd5d6f9cacd10a39a429460f6e00e0793; P0 0x7c19f501d9d36400207c37a0c71f27d70d6d0e20991974237b9ed9bc7b156d6 0x669f4ab0966133b58f0e984432e74440e0a68cbedbe8f48b33f921207bf984b; P0 0x292352a294fad2b2396973519f0dac20b1fb112f4111cb49b772c3199285fc2 0xb6a5560fc0808f00b7397e44fdaf7c98330d229827724199bc45f5c468b995f; P0 0x824f812672f3875bdb5843e75aa6f37e7ccd31e23f34e6a1e7d8e04f101e823 0x1c5bbf8c455bfb5d8833374bb0df00db0680d15ebe1ae314e0462426e74efda; P0 0x32432c86c380abc5ac53e9859c2eee9817c8daeb28234c0f1b30097573d602 0x5964aa76446b40efafb7760a871c45f199c9738b2187a29c8b67868d8bdffca; P0 0x1f37261bd9795072fad6312bde41163624af973fc05994cf00f8b82f3d1a689 0x9190601d57ca3a992917dcc8f727f9d1118e24f2cfe9775fe3eb52f6d60f38f; P0 0x52c4de4d828bdf181aba7c0de01ce8d769d774521256adeb084c84903963bca 0x62296e78b67e35ae43867bb9e4a288445f7dfdfd7751bf44c40224c6349f1df; P0 0x25a3bf48fe0f0b46ac105fc17fceba097b53529858dfafa686f0bf1a872fdb0 0xa9e5f4217e03f6ced9f9b62794ae9947f13a542b4c01546af8a852e8cb6b451; P0 0x70c16ae2e51c8b8df365831bb0180d987a2bfa85a4957cefb8eb74969fb3513 0x3a85a501f1d49c691dd426b05dc1c8dd5e0303795741dd55fc7abfdb0b0360a; P0 0xd60d489bff51f8a0077d84f2b180057aae5142b9a18f6a19d8ffd8c967bdb6 0x53800b5680c4717af699108a2fc6d7216c142a271a37c7188a9b6b72b9294e6; P0 0x1b3c47656e80b252dd5fb1d1e89e26f87577f317a5aa095a0521e6132916471 0xc801a8c9ac68530a97bc81c0cda9b1d4bcb235c31f086fe558eb2660e6a9f07; P0 0x9c4297bdde3fabba50186219c49c06399e5bb850d1b2ac2bc9199f0646c8776 0x3f7349eb3850c5abc403d5baaa216526f4f765472e6c80d47282486608807f3; P0 0xfb9f24d4464581aa4364dbf3e1e2259f74dd08933527e165362b215f725003 0x46b8a5833e92b5e6806c4b7e25410a472460c487dea27818e47d29c76c9a4e2; P0 0x13897fb21de4a051c18084982c39af78e82fcb93b4c56f05deef1d235c0f158 0x8b4a56e8f40ea00c522a2137f37a6690c1f4272b204fe49d09bc9084953610c; P0 0x4bc9cff755365236ff0f7fe493762e5e684dff66d3ef46346c26332cf2da76f 0x6b35eb9cd9e69315f33700e5da1421d858102815339372d11253d515b1299cd; P0 0x2ce61e5085f25094dcecf3d5c06eb4b1a326a0d04b7cce4de2e90b767f754e6 0x2ddebea0926e7966dc962d63c06b79272a3fbc2ef910ce09653285cb829833b; P0 0x83810d39feb8c5c12020294535393fd2e17831dd008c61534d1a696a0dfdab 0x4d5af79fe30a5a582abf5caeb3e9f084937a5df69ec73276e5b4dc2c7ca74a; P0 0x175fd9493a85c99a5a42e4f42c344d1ab2bf302d50ac8cd0aac9f3a035fab 0x7f02f02bad98ca006f94c4c4c3457e191ff42c457bf2e3c8add0d306d611f15; P0 0x3f03ea53f83e3bc1d883e31fd0754b210a69d4f640ee8672d400ff39526b310 0xb15bf7a65d695811bc038ffd22cfa5c3a8c668d04ea1062ab1814bd5af621e9; P0 0x7ae04d7e0d04890bb13ebcc95c061c549ddbeb470a2857ce649b08278fab67f 0xd6811c8eabda6d8d73591e3310acab2f104a7b42cbcad290cb8fc9a1439457e; P0 0xb3bc1cdc5249e665c70d412f00b36d045e523b41a9dcf55aaeae10595c8bbd9 0xa15a032c5a1029c40b3bd957978b9a6c79be1aed82b5a56f91042fbd4a2671f; P0 0x65b257a40481b9b16a317f7f5916c814ff9c54d02e15fb7e8dea68402cf237b 0x8e49a70380f2c75d87b72973796b4bf25506655bbbd59e784ff5199880cbbe2; P0 0x4f15ca78900271ea7ca6f94ef4bc3379122d5a716086ed20becfbc9506244fe 0xcb00a6efe0b24f3e24bba3bb2b83c5c168175eaee8e49184fa89f228e26ba5e; P0 0xa0fa08c0db36c1d91f2eaa35d0f04cc2e94078958c35c9f9887e44f9597519c 0x37c730646014e4c75a59bf0e941a4b6c6b989c27c3b161e684b229dc3ee9918; P0 0xc2731c7667c262c60ee3289996d69b596db2a84fc574e84eb4e01c93fae6e8 0xcbddf9b1c03448d616a3bccb854e8c1c4317bb28ba3106cbf8d84f46c8cb578; P0 0xa259ca78f744091a57d66c235e25a40efb30178b0625bb925942d982faba718 0x4ac046ffd02abe5bd439a5e578c9b71a36ab67adae6bf4fb34d7e4215486f08; P0 0x15d3b97677c1dba25ef699da10278a181b30e2b3d83835e6d7a8124687d80f9 0xa501066a23e0e47a0ffb2a26036c52f4568d4f60930331273d90741dcdd4ebb; P0 0x6a5a5245df3d53f76788162a5892a525c344d6d15bcc65d528362381bc5140d 0x1565c0121d83d14f4977bfda9d151449d661c82075cb6bebb50afa06da93590; P0 0x1c9d9f4173e17e80e851c9d0dd12edda813fde61b2580775303876aae0a060 0x2fbb143967106f138133045c8dd258d57981f7b77ef2efb08f99a6511515820; P0 0x8e63a23a14d9fc5101a3971a149f4b5d6aeb3e4180a30ecc15bbee12736e4c 0x5f57d310aba837039c89ef9056542ea88e950c504bfe91c4f6c005d0b1443a4; P0 0x23824cc782c001374573c213fa035097c22b4bb7b368e9cb5ea26a12e8ab14d 0xcff1cc4ee2d7dba7b706a12645eb85e2d527b95e5e48a1cbeeb1cb8fa45a5c7; P0 0xa8e8ecc9e26e017bd6624ed437573d67ed5316fa093d94d6f433eb0e15fffc7 0xbd60731031b51dc707691fe025716becc2fdb71079652754e8cfd47617c5076; P0 0x8c178e3c6942437d2f4226fb8eea5759a00cee858cd7d760cd0c9dab4d35717 0x5f7bbf69ad7b2fd5ecbf6baaab18e3fdb6259e6f88fae12fd756d6342276119; P0 0x239d13e1ed6cfe5e5345c08a1b285798ef6b47b69382048c30e0d0390c5500a 0xc23cbe1f35b897ac311c152126680ab9cd95188328b53e6f7384638c53c9d2f; P0 0x93601e90f93f4bf42243ddb167a2d2eee13250d1848c4e5aa34883594bd36e5 0xa1217a0e4f33f393b73fb20acc0018cde1fd16c907c6e0b27d3128fe7f71da0; P0 0x656b1fe6b181680edeebe60e5bc09139bb38b52d4df3cb90bb24a1cc2203a23 0x8378350f8ed218100c990b4163df5ce92a18c9d6043f7edf7885fd66eedf899; P0 0x43843ebfb5c05bac0633a7359cae1672dc3011cdadc7e816ea722fcc5ff5ab5 0x6e1bed5c833b22f2e84961eca25da6c9b72395be572928eaa9e5a14184fa2e0; P0 0x2f5c03076e5eecec335883be91f8da07310d551d7f1ccfdd59185d6cc95f95d 0xde1baffed0243d645702a5ef6cdd6e66f91e95aece6b27621710c3dd87fc1e7; P0 0xc0b4083c89bd20523726dd50e9c55f50c1b9e2c07ddc3620eb0ebce62a68196 0x6306ce46343b328ed2cf7c4893eb94dacac371b791e64340661285488d8493; P0 0x264e43b89de54b30b623f77588c17a146761b5ba3f88bbaac623f51796fee 0xb8b6940874750f2da3ab5a234609fa615dbf95ef0dcb830e9982b28d3222313; P0 0x8546f702f907a33206030c9776b59eec98a369c3a5264f789f44927242dfe9f 0x3a2007a25d436a2b27e3eed02e9c535ba8cf3689ead175b34ea25946e3d6d36; P0 0xd3287777b142509f3f808e3164e600349fd5fdc531d48568a26c760b0af898 0x42faff89ace6a0ba527bc5e1648c747cd98881921813642f0247c5ed4cd9aac; P0 0x118661db15202dcff642db45234d96f65972ac974a3143fecedf6f11d336897 0x863876b29bd5fb9bc07a268e238b9b803b13df16da97b4894ba9b35309c1ac5; P0 0x465f28b72051554b7a066161345b5a727f74875edfa23aca38c3211695ff907 0x14bd0af81af1a8214fa62e723cb3f9614ed7985957a1202026a82c603174b1e; P0 0x1ae154ff705dda68dcfe7aa7d161ffb7dfe9bbc3dba7e8096ebc82ada4ae0f 0xcc3c20918e63070ef975f15571b44c2fdd0a8fc26ec5c8b05c12681d42816a1; P0 0xa2efe207434d480689bca76073bb009f2ce1d969b014e7bc1ca154e743afedd 0x67846935030755bbb78717b51eceb6db273d85c8c692038c01bd9162c20f7a8; P0 0x29dbd12552578e03bcaaa0e3343be60bebdf34c6b5be9a57af82830eb84df54 0xb3a3787bf891469fa83319d70a47601b576487c6b8607cd7079e1e4201ca17c; P0 0x7e0e02e0042e26d433b0fd9793c69512feec63703b8f97f9f8f4c08ae4ca44d 0xb8a4741052cebda29b726e8904c7e58e12bea27793c4b0a9f176b8946eca1c7; P0 0x852cd07c609215928847d327a2a873592a494a9aa39615fc5d2f4f88d839a9f 0x35c76169682f1f35777bedd1dd503ee5dbdcf380a7169fe7ba231c8e7b1b67e; P0 0xb4c299e3c148888ff4d83947a4ffb81ceb4a87456b6a063b53cb248c35fade 0x2a7921f4ecf3109709c90611bfc20436f38339d2f09ac44503878d2161f2c7e; P0 0x70bf8757bc8cea272ecd3d504518537751d2d20e64a0a88cd37de685fe26b0 0xd6ff6c923cc474e6c355375c2db500c1ac5b29b0f31fe3e9a685f4ca9a2ad14; P0 0xb490085df6f939a1d37055e87c4395080476783133fd7f952d318c99423f8a1 0x8a86e1db6a5643df88924b14de856ec823effa8093b4997f8907ceb51052983; P0 0x4af5b291c79bc076cc534de4b54fa11e28d76f992ff70ddb443d6c7d801c759 0xe9cc52ab81e7885e2c6828adb517f5c218f2dd39840bebff476cd7356b850a4; P0 0xd58591900e80d15be3840b25610d2a68f917488d07e288627537c78221f3b6e 0x656b62ee12986ab06b33741dfd925eb794fd439254a50fe234ec27777fb3a3a; P0 0x282de91bb3eaf33baa7f727d20c370c7ac5bfa5903b9dd23060f5456b91bc0c 0x5a77ca5ae2dde3ee8340da695a0cddacc7eb1a7c36b78bcdc0238662b955a08; P0 0x1ff87255a7f67cd814ccd1783808929b787c2df095fcee415654a229ec67412 0x878dacd36a6139d15e247ae957921d48a9bbcae73a457b5a92915e805b5596; P0 0x47c6baaecfc27f9fb0177c41f46130beb3e90985e3acb0d73ff8b4d3c8eb6 0xf8a7ca3021076303f2ba1ca45441bb6d71cfc0744774a64854148fa8e62d366; P0 0xf18585b6aa7964a6e4b98a9611baaad8260cfb663fc611e0c7d6762d94217f7 0xcc608db561bc080ee91153b36c713a552a16635ecc70b25b9963b5b615587f9; P0 0xa32a0643aa3e480a48b6446e86e02d5f0781275ddf84316ca167335be881bd0 0xbad3d57e8f32a9fe8139f8ef416c98b5e8655c0b0f69984626ee477549460a1; P0 0x8858818588c18565a22bc0cedf7217b24038e3989dbf499c0128218f6063047 0x81ad0c68bb86860afed373e13801ef0ce7568b901e99a19d6945b8f128ee86; P0 0x41afdb7b53250355c2e943eb217e1dac0df8a9b255f29e73f3b6b5861efe3 0x7847b18ddc3e528c989e4c1c18ee795b5ce8dafc6db7ad93fd5ca0c007b3ffd; P0 0x38834a88f6501120215996214f9c75f3c1e9bd40c22b440600880ca71ea25b0 0x748bd01e714536942b1668bbc4575c7ff3392a81016827f5c1b593dc8d78c19; P0 0x350f00f740e7364ec2fad6e3aed3e83ba2d729aaa53c59ebf39ba8c89ed2c0d 0xec2017cfa1b888e5ab7169395b3c92fbc19c92e1be9e25cc6ab6061ae57db68; P0 0xd9cb2fecc84ba1ffc4b43fcba5dee4e050e81bd2d01f4ad6cb93e679b8b7e57 0xdb225e81bb43b428859558f6ec78ef8d9fd75e2538e8b07a3ad2e5c16326eb5; P0 0xbb93d24f33bf1b7d2ad64fed672dd6e7766b87a9d5ae4c82839d4e19c252d69 0x62526fb2dc80fe9e3794ac2a6d82ecf80572fb13b606d89f6d746ee263e76c4; P0 0x25c33810b0249dc37e06ade68a100fee193e5342e53766d575872c37e830bf6 0xad64fe50a97e52716ffb231afd7b1e91bb4be1af8772b8eafc2b9faf16d7152; P0 0x7571a790b0bd4fdec4bd91f1465e9cf01dd4831ed2a176745cc318ff26d7eff 0x25b0c5d9b39da22dd17e144381c76ecff3ba96040bf8d70d591afe638e7bf31; P0 0x58c9341922b5132d86bc72cf92ba2c18d7dab1caf45e696c6e4b22ff836d47 0xbac2a5576eeeadcd8e61a2aaa3096fbbac2898422704f58a0040539108777a6; P0 0x883f6c421080c92a60c8c37f682573a0be209e15939e41c2c87a6d1d95cd734 0x239be1c68863486ab4b01ea8fb3b6712c2b7049d5863261cfeb39a9c3e8a880; P0 0x4f3fea776d2e3bca6282fc6e2a602096ad43e13b2c6f8b25bd66b9f77e18e7 0x9ff4da802e3081a941b86a32a6aecf6220f9040e03cd73af58752e6ef91cd25; P0 0x63f2119c7836dc603ff3c06edda648d4d5ef042c3145a8a85a0e4555355c646 0x62d9661dbb71b4ca0b8da2def0e11bb8643e5e76a89f8fccb8f626f5c7c068b; P0 0x262b2acd0aa68a01cc734e6c912d2400d4749358def9ba6ad8c27e1b84610bf 0x8a4d93790c688952ec63cf5e4670a3aa4e59fa27ba0f47eed5f69023b5ce1a6; P0 0x4ab7ba808d26686ccbded30a1c5b64a213453b7bd7dc2638225cbbcb90feadc 0x4450c3b8e25f7b99ae5320a80e38d3246d336742bddc2957893b713335975f8; P0 0x123b0175217363ba8c63a3a33b5d3c0ee9a34561f6d6d79f992b73f391837ac 0x9dd4cc3531d58af4a469915d172fa52931777937a5048dd451491d623e25204; P0 0x614eb35c1a1f4898386eabcb7178115a4841c56363437761fcbb99706048658 0x5709b40883a028b67a86b193a49ae9a42a6f1fb0f0a3c4c1112f6df8233a898; P0 0x1d9798bbf0ac16509b0c9fbd945e20dd9ab1ab13efcf76d8dbb09b2aa8838d1 0xe1b9f2aac0ab9ed9a7c34f5f856a08e3206dd716462dfa392af5c7d58a1fdc3; P0 0xc70863a0c77f6b6f1cbe2562c705b416fc091cc5a8cc512a9e750bf71d21ee6 0x7fbb98a293618a6c9edd660d05684c16e2bf5f55c32247c6396aaca71b4d59b; P0 0x3fbbaae9a6bf8e1ab0fd1af6eb63f11ba71fe83e18b964145bc6b2eee60be8a 0x927e649989b6083053a0cb46faa78787852cd5ce8605b0840a590eb8b852817; P0 0x53d469264fbf80334b059b72034452b6939c609a434c854d014e576cd32957b 0x730adbff82203bb0545d53b1514d09c37ea84e3b6c6212612bfb049bc6d6e32; P0 0x33b2c21d7bee47ccba0dcac9a7b24dd00d69e0badae2bd366774f0ede012483 0x2e94c1f5a7254071f028a60c741ccfa0ab498d7b901bfb22527d0e0f87d3b7d; P0 0x879cc251f0ef7fafba7105fc8cad605ebc80044a41722dcab7cd0bd30d6d64 0xac7bd451d4e2354ef1a6234a016a221e47c271e49dc4a63715f10d40992975; P0 0x7436a133acca2bc05f0b616e5b507d316090cd5fe6a2f98dd88ec6141fd4b 0xc6222f7e2acd2a5dab96d942fdb24f79df75732b69b8eaefc0e537349ed600a; P0 0x9958e607d0884deda4fafbaf3fd4dadb9d2560450c9b6baca3ad914b5f1169e 0x5ce4fd7a55550fae7ffda2853ab32810efb2b6103364d481508cdd3177f561e; P0 0x21b563046a3829e8ed55bc93dc50e739c9b4b447d855c2771a7c5ea77e73dc4 0x6229c9ff08df2d2f372b7835c3023b650576ec8cb46f3417cc6baf6cd2b7110; P0 0x25a4057995de3015c13bd20a89928add8d1ecd7fb935cdc2ded668ab43080e2 0xb46a4ac3fd346e317cc3c860442b9dedfef506d6cbe3dc67e82869571e389c6; P0 0x7f25a5459c354ecee073cbf955d4eea6d1528118d3e21151641f0ef35d6ed2e 0xe5d195859299719376bf78a7dc11981bde0e6be2f6ff8b13b2a76ebe8cd078e; P0 0xce50a11673b4a6158ad37f78bf4d6db6a025d1f2d5235e39caa59c436907b29 0xc169fa1c7a72fafe573e54e74e7a71b85946684c3a3b6312469b348462342cf; P0 0x9220f6fe10597318fa21020e294c334fe22af21ce42c6b3fc1c254b41d5951e 0x5135232a14d05aee9a48fc32ad3225b32b764f06fa7f03a72564bdb0fb09c9b; P0 0x19c2ab48356d006c735a5e143fa0cf7bb2479fdb51312e5bdc8b372adf21192 0x46c02b6e5959111511b91b98c8dee29ae9bfe57f3a63b50d36a930b089dabaf; P0 0x138da80185c0fc85f8c29fade57d1303f18659f2989c933816c94c010602ac8 0xbceaff3023c146bf3df514466da6da3e5605158651eda1a29bc07d9ba16ce79; P0 0x8b69fe8636e62d86b1072a3a06f30240b5c1d238a2a15bc1473ca61b0892ca8 0xa0ed570263e726a82506362edefbdf6442881b907f576a3cfe2bdc5bbe25a9; P0 0x652988cd34e08a3c947bcda28c5c626f9b424afcd204f86e96d5316b2c34d 0xd2b0d3d0025ef397401daea2853a6e649aba246730a14a238b8f6c2233e0448; P0 0xad6695a53127971f7505a3d20802c6c69cf4c7dc87aa67e4dd8d4f06bfdaf51 0x87e6775614b9efa6ab63a41663f2c6e489ec4dcd30d2afa0e2aefb7cd124343; P0 0x4824e157702a7d1333a699ea89289e26565cec012c918d670b8cdf20fc7a35a 0xb7afb9568ddf8c23a1e8524acfcdc38257114bd7341a8a956051acf0080bb37; P0 0x83ccb398a959c84d438f2cceb98caee188bfee63ecf56e76c576db24af31b3f 0x6728f76622b43ff0293993c74e63117825addf19a42f0f9cc873fe46193f7e; P0 0x2991fda26eee237ebbf1f9bc490dece9fab8dcf873094517ee03f65c7554b 0xd0207d484044c559a474ce236a33eefac2ea7033b8da8d0032c72a044bd7a95; P0 0xa934cfb4f7cf750a6131ee59ea6e56939357040b242c6646278ff24cf30a76f 0xf9a14a27f7c8e2c046fc0ceb4c8b72846ec1f156e96c8794b34e3c2576ddbf6; P0 0xf36b27e01bc59544d2111cfb7162dc9e2f2225effee5f577dccf8e4d4d6286f 0x89b2b9414168d6a057dd0c5820980e07c0d9394b159320dadcec8761ca8e4a1; P0 0x4a10c70dfcd08cade32beaf21a5dd1860b54505d5c3871cfa89aaa3d79dd4a8 0xa8b4546b96f2b876759b1e722ca1b7754e5b68fa8d2cd62a4c90ded7f52d5b9; P0 0x6f2d2dd409419fb5b1e64098dd7c05c1cb51eb6922014649e94ca73e96d5c98 0xb3a0f5fe9b46ee7d23c3488f557182feb7eab6f57f9802d6ee0f450afe95ef9; P1 0xfc14fa6cef913936bfb7159971f1aac0db45115a4d21f979be92e9cf04d8cdd 0x37e6a06ad916a54cd3658577a8fa50967603f0f64f1c5601f50b0c946950cc9; P0 0xc34e8b28dcb8bacd659cbe046d9dc011719b9ea1f902bd80ebf10a659d9b87 0x21ca096d32f1fd65574d713c0f5b0fc6a1eeea2e6c9856dac81b096785134d6; P1 0x8eb6bc20f9f4ac2e8ec232544c0e56e97a70eedf5cade53b253f326436e7c3 0xb8344df9b93ad323002ae0ce62da6ce3d665d078d35a32b97572b424b2dfd41; P0 0x848b3ac6bf77fc6f53ed8f7110d4619ea8f75ef3ec57988afa543b3b7906d4f 0x42f7a76422bad89640e9d9ac8a77314b8cbbe9468bb6e7692ca5cf71dfb3b5e; P0 0x1184a1e4129728b658ad3f7a2ddc2a3c92447febc9e0f8f0cb0d2da76eed540 0x60aeaef62791cabf88fafe532841d667e4fa90d5c2e4f441ecaad68b8f94a44; P1 0x4906f4d5d7bd59730a0c721c693ccc4691f2a5001ee225f107fc82b1f0f7c1e 0xbfd6b2a7be012fd382df3d0ce5c2614d09ba85576438082ec62bf88864e225a; P1 0x11f84254af54a42f957f86a8bbed3035b1e57b3f5eefa8e4985a5eab8215f65e 0xc298a152fa86afec13e7111e5e73d2ef58a47cb412fa4507f979ac43e8d8042; P0 0x93ebaf81bbe71c95933cd31179af9fbe8863030c6d6573b58b47f03185baed1 0x139606de4992efef975d0a690e7a482037415ef23455ab44103aba9f8f9f687; P1 0x2ff39e21732688aa0f360c7bf36179f406acdb5d26fa182b485997ffdcaf3e 0x8ba675aa745705328b73a8975420efdc5a3a563f1ade344d89506d55df71ffc; P1 0x985c6007d2f540abc85d0fec7c536fc9a8651ebb6e996239c80cc887cdb5709 0xcecbe1fc28db3ceef316c8fc4ed0990463b5e23b95a9cc5923f8de7c12501cb; P1 0x14e198423fe4db3ea12dedc42d8dfa2420dcc48e4419b10322b02928997b56ac 0xdc6764d224b315daef5139c64c4c45e7691f8e5db5fcde8dda24010b3276cb6; P1 0x17b83be16efc45db00b4be07d18e2b99846d6b3ce8fc8d9c815ee1013549bf74 0xe4f2a8a03597fc4149b4bd94cd1d60a4bf345ac842c3963d3b9627d9b254864; P0 0xccc122609d6eb747bb02966f6b8aca5faf3ed907c7e44c1176182fd688bedbc 0xafe71bc58bded66a1ddb93105f82448503578333a515aa95fb11a87e5f75c04; P1 0xf1bb91366d80b27b35e06b83be4825181a66a4ce17bbe80a097460a7f3d350a 0x4839735a5e9a331876791fa199e05ffcaf976eb83e48667b066277518a267de; P1 0x28c0bb8ecede5c9b69a4cb8d2d78d08ff4932647f5807c84531d0c33484ca5a 0xef1d1b4a1dec9066bd331514821e553ebbd64961c16337b24cd5ee76c5f45b6; P1 0x1beaeb8872b2669fb8689b31e1ea590c275553acbcad492eb144ca614f3a6502 0x1f4a2ca9de85b2c351b671e990c1a45d4e19ef1160f2bd33ac291ade2e511ee; P1 0x7a6189dfbc7b79854357dce07419b601471f213584ae2be0eb30c48a321914 0x6edfa31b7db50d096c7a8401e29eb218d506a5abcd209ac7e9481c22eea3f04; P1 0x6009e71263b13b524052ab9647d0e0120bda4ddb6773d46fe93290ccaccb5e5 0x88337152dfe6de1311ca07bdc8ae95c0a078c3253cd0570e716e2908c0ccc1f; P0 0x4876b2be6714c66ec246dfbd7f00fa333e1187cdc96bab2e9630b868e4c85ef 0x6fb0ba08f1609f86cc4981406ab1d913b8101b1195424c2c6441546ccb2707e; P0 0x30babb5414ceae429ff18d42fea6f3147772336d3400d3ac09677b21bdceff4 0x5f149cb6c5beb20ba905eda74607ee8bd5642a150261ef1a2d6a84136d23d20; P1 0x46a09bf1068362dd4c4e73eb1ae9af3d11ad9a60ce85012ece14cb1b3d1a61b 0xfa8b7377ff4f24022e94a5795db274ca74a67bedea50a667a8c9a96bd5a8001; P1 0x1ea6952f9ee15b3cba3ca35625dbd56d9d7263da0a2ffb8fda732eed308829e4 0x70f655b4ff118967fd2fc8e87331b050af825e967bab7f8579c2d3b45a04bee; P1 0x63b0f00e67767e90cae141dffc3615f1a1a7cf29df3412ee348878a365c0fe3 0x12c310519fe3de9588c1216adcb3f5e7f9b759317bb4afacd090a619b78d461; P0 0x16002ed57dfee752cebe3f6dcd2287ed6d6999368cf8edc3441dacac86ad29 0xc53124cdefe7c17c6aca2cf50b8015a70348f2bf8de5f03ab195060137cb2cc; P1 0x12fc958281eb62f49accaedee9c3b04ac4bf31a3f5b98fd27d7ba0fa56184068 0x34e8d3b72e94012b3bdc0a1ae7997b10925f708aa32708186dc74ed3fef4cd8; P1 0x15ded385ac100d2e915cb2ccdf35287c2bbac659d258b8bb83e8e577c9cb51b 0xdb379e6721520d9c91741b7588f49c1cb58d5f0dc498256f247136537920181; P1 0x177706a33caac5671ae9b406cb159dba55657213881cb5743a60c7dce316f638 0xa8fee47c3e6d41bd9130e691b9bf8d448817ac0646a2f0e9c46759a5d826c2a; P1 0xdf1f135a88d1a52cd1cd80cadb5c29f8a3fb8673fc0d5819550cd9c69dcbd3a 0x5cf33756cdebc552078af59b9a889bbd0a677f18a43fd76342187ec36e2f116; P0 0x21bfb6d87ec2cd55ddfb77da20253098b7764247da20a422332f03f2ec87013 0x631abe59a5ab098394a041643f87ead1fcac5489e69c63ccfa5345e3bc4034d; P1 0x4cbb64091bc242d063dffb8abb6fe76647a3120ca68ad8c81a6372749a13f05 0x4e11727e7fdae0dd0f0fba00f39422f6625cae8faa9cbaacb8017c4eae453b1; P0 0x17cea2f57deb44799e1eb6b330a56b6ea168cde65c80e4e91096c7a08f4e170 0x30b0a44067fd4496c75efe77d3a0ccc85a6fca6434bee56471e5e90a1f03bb1; P1 0x12856ef4d1e116cf05ae094464fa0469360694a7f377db13e5066b5e195e550 0x4619c76f95911ff3aa4ff17694588c9169de5ffd01555b0394962fb9e3fe5b2; P0 0x13321ba994f53efc29a3c536d7480e70e326a1a7ebe1546d102c32deab7a805 0x2a957d477979de3f999b3dfab607d5f8bf58a6396078c0c6bcb76e74f684423; P0 0x7156466865e455f32b79071307c01b7158db8a4b92dca061b6888eaac88ce2 0x2bccdc0faea55c6fa7bfe133238deec9b08aa48819cca0979ed8353947fe98f; P0 0x77e75dcbad4d9baf9b3c1559c5626450674c966b8bd1fe2516320de882c12a 0xcdf5e398030c15af0cb2c468a5b2e10cfef0d38bf3c70d57048c65aed832bff; P1 0x14b67755dc05c3f0dd0782c6795a8102a9309800c48ff85953b00dab445cca65 0x3f92418775977a208f746b189eaac314c989de00a5506324aa4d83da5b1b181; P0 0xfc94fcf7b28c0477b8a13f3c1252d6eb51f2d071b3273dc228d6383dc6c40a 0x43504ad5838b56d5fab10b41016ea5c047e0859994da0893fa5cff3ff4be7bf; P1 0x236640b53c5a9155fd3eec85f9c607f6a8c4a5c86b2ba43a86b06117022c7c4 0xa105956087e2b5b2aee17c865e8dd86be903ade1cb1015dd8bb650721fb048e; P1 0xca900c052fb3f3f3e53b3ada92495423972e634ba40fdec8e4a9c159cf11c10 0xf55ad5be03956baf3fe2ea385ba1856bc0a13498b55308b6c4cbf52746952b8; P1 0x1d64dfab15dd8885a3d17201740c9642b6e759371a103aa89646950893b36426 0x97f931b18cfae376c2579f6ca26f27b5a71fa8d16f116fa21179d215257bf52; P1 0xb46fd66252b35701c3dd979f0788c977254232f7b3b8f526535f32f21ee9bf8 0xa801eb2b3d21d8af2a0c24ef7b82eb5e46f23b342d975d42e58835dc8a31ff0; P0 0x6e4284ac6e9b50335457cc5a167990b18691c14925711a56f5c4de5985bf5a7 0x77fd3cebd0b42f9070b4982593b9311921c76f180065ecc983b5fd6ba2df065; P1 0x707ad2496942d6d72f0dfd11bf2ed400ec8f75d349c5ef3e223ef8419027aab 0x467075e708bf4b3e4865014c1df42579b6912fedc3175c9b28d491f46718e63; P1 0x26c363c3727a860f14c7a29dfc0f127aff0fedc7801839ec7250c61e2518340 0x66de7585b7426f78b11bff6ba2394acd4b808eaf6d283412c3d6098fc4bb252; P1 0x52ac0ded2fcc8ed055235c0134fc0e60dbd282e9e23af7d7a0e769801cc1ba1 0x3900b3dc53d2b8fcdb06c0ef3eec783954caf9a270b6f8594b685d39eb3fd7b; P1 0x1962a03137636272ebb5c06cd3f34f0b3e371ac5e798d76a1f78425a4872339 0x13df587c55a8c3f809767c28562a649eb8eb02df9c8e3e65126a228ad4c1b6d; P0 0x18ae9fdbbea00635a69f3096d0d53ce0d6d4c30525fddead9d89e4d5d2298c 0x12123e2c4692f0062257808c51698e1b8c991c8123f8c023c90af635edd51cd; P0 0x146920b074010421feb4cba0258f924056892dd4fe1e119253c3cbdb47b4fa 0x756aee0f2e29be7fc08041ec1fe929d45b499f25c6e17a8661dd872bb46c4b7; P1 0x6bb5d487c4493add2e5b1547e457e931563a107c111660da152d375835028a0 0x561a6112cfb4ff36f2430f926137cc09fcb53ce2c7f5ef0e12bda4906a7f982; P1 0x39eb77e1005e1e0b92a000324b87fd2e904d31828f470675f1e7533bb46c384 0x231ca83452050c21f72988dae402df7d6619a5a97e9fd4bff7c4f76e4977ed4; P1 0x9a1b26710c81187fa885527e5ee09cd58b48e981c9537a8b80cf98ed7eaf4a 0x877bdd218d1457d257b0d69c97b8f87567483b1b2b9352ea6f074ed5746799e; P0 0x47b3df27a00bf827093c0044dc37b896e683c48f06cda544df489d14b6dbc69 0xd720de4dc08f7d59c660539b5ab80e2010c19b57798933d3eede348cccfc54f; P0 0xb4c8399eedec1a0266380d0831687ac44d8c4347c208f905e807580229d2ac5 0x6d265522cfd7c250714e73883f84b04168559e598b38d4d05b95a94458ab700; P1 0x5d13547a0f47248eaaec38bd23e472f22b6bad3e124ee051fa13bf515af6b88 0x3fbde232812b9e8a548cbb803156b6c7b77d70b64eaf4e307e881842b725b18; P1 0x1fbe04594406d0efd002893b06ecc91749f789752eddc6a433e56657226a3d7 0x99c28d20f8417da76990c9705e98390d68b7d8f2a21d9f544c8f92c0c014175; P0 0x5c5a208b9c83e12bb373d892eab28395a96b6f2e3a99f3aa2828edc86ee00db 0xfd9a304685a900c43bd7f2893e0df0dc762f781f04d556be314c1a9f10453ba; P1 0x1f67440930446c0cb11bfc2a56030996fe2d767f15f2a37d63f96f39c0f5013b 0x2042efec5df60d90a9ba2ba1606fc0bdb7290801ca89d1a1524102ae61781a9; P0 0x410cd7bae3927f1f67fe0e29218e5e4a6d9fa9bc02e8480680a0fed3b79669 0x19601a01b363c8b2b93d150a986b48eb7e112e7ec991f0593525bc3399df75c; P1 0x507d24fb1e8c0f92ef2d900f62c09409d9ee28220777585a7595ca2be81e09 0xd31f6bc8fde6b51a25dac16eb12c47be125b147b4ce4804676ca95baa7318cb; P1 0x15c399f113532dceb0cd8d86ddc961f4e21f79241b555ad26b837cc4e64fb835 0xcd0557021a79b4e66626f3cb94dd9cb8e19e0f04608bf2a3ed45d00863729e1; P0 0xa4318d75e20e627d3632bf9cf310355ea4a51496e84e6fd5d8cbfd380baaf7f 0x8965843b7ca50c7106b35ad5036a7a42094ac4d46a97fcf3a9b2230ed82b22e; P0 0x49bdcfc946a667e9aff3da363edf604d53f17eb015969d2692dc495409ca083 0xd7b073226c19aafb368b4fa79dbb928aefbb46834a4150eeec0319204106dfd; P1 0x16b73b604a95f647a063b8fd70a88ff54bd2017368ea16c1e9f336ac2f31c8a3 0x30af1db9b0555a7f8e1ca949286207f8fae1b2790e6fe1b39bda5885c4ec02b; P0 0x94222ef4972af453b02361d610aef2e445cb2587ff24222f1104b664066f31 0xf403a2202c5d721cf31f6dc4bee25eef272f1f6b3e87049a6ed54a4a4f533dc; P1 0x1d12dda350fffcfd27f361084797b5ed5377b1bf478f182755ac9d0ea9167be4 0xf088aebc54e072a889562be74f841ca9455928b6df46170e965aa39c8112c0c; P1 0x1c40121367d0726c76c7a2045530d15a1f5db38ab132831643514a6dd2f9282a 0xad6c1ee3f72b958e0240bf75771d9c6aa3c09457aa11327279f94ed0d61743e; P0 0x757b4f6a3023add69bdb0dc91739e93a8d42d7b5e3af8ea337a1549634d0ae2 0x4628d38d225bbfb0bbe3ed12f51900f83d606e8ab372ac63268a51872ee5ca; P0 0x133a5a33f9b6ddf2a9a65b15eeedfca5bed739a7b5354fddc961d59487b84 0x8f63ee9f84906b2a8b41789232cc7fa83eeb8e7c2cc2f69a33f70da639ede30; P0 0x5050cb98a3e6dd4ee1c85319e9ac2250c1ecef5e5f71b8a5d54faeb2c06d1de 0x441278b40aa804a4441cfbeaee0ea458b13207659f50f59088acab02157047a; P0 0x1219d174d7e40ab46c5b0f661d70f82bdfbc58b22acca13c28cbec01b88f5f1 0x6caa5673a4807b9be30c7b21bcb78234228f93300b9f408075a8e0022d9b707; P0 0x2e202a488194c9b33accbdedf274fa089aec88f54c2eb150c6ddc01414993ee 0xd766556d47cd23601700b0e664aefad58047cfdd18394e743989f0c77e7e4db; P0 0xb53d0c65be3189380986dacafa506b66128f47f02be70d4154c291247c07a71 0x3acffe1f0a148bb1eb4d5b60fb7a55e11b5b42ab397d1b65fc2d69a8d8f55bc; P1 0x1b05d046060a70957ddc2a2c7a88675720459a81ef32dc7bae97472b53a5188 0x1892e28b62766d757c5f19df6a8d3dbd00e67cbbfa0568ae4f9b6463a243138; P0 0x25bdec151ece9580d10e1176a194ebbbdfbd1f67600b66f9d99cc19f7d630e 0x18c601e7fb198873aee5889aa94c38d441b51f358bfd9d119c14516d173e4a; P0 0x265b98271f0d742152dd0ee849349ce4291ab7f31e5937bf684d56917c51 0xef031f099339ca363dcc7653de0ac8117c27dc40052e217f74664e520c81367; P1 0x1be4da7fb3dc559df64bbfb9264e3e2e4753bbdbfe39be3dc73aeeea03b3561b 0x7db472354d6dd585e917ee797bf02647081b5c216855676db1661f8cbfaeee3; P0 0x3db9b6b8db85a90803021727e684bf8a16c36846160839b21600463c68e5359 0x6124f1f90d9c2c12ef226af215020bbdd04c9c88f50a4ebb1766f6993a458e4; P0 0x24dd04b3af130b3e440df58d3144c05cef6436acb7c395c7441ae3438b056ac 0x7b51dbf11b2f34b4c8199d7c43f72a936cb44da2f2e7d84c5fa882d45b189d4; P1 0x76cf870d3751f03811418c345a20ee4f35afe2468c6735d27958af58b2b6a1f 0xaf2695fe51d320b6e3764a4fda285bde4b30a7bd4e7bcff332d320bff65636d; P1 0xefab8dc52681f29bfcf0b279f59ccf0e9020e2cbd8295aca4861837d9b41cfb 0xcd66cf1bbf5269869175137000dac25dc350338ce391eb0b263fcc591664373; P0 0xa4cdd0fc22145516cd3760097581d0ae6333c724fc3b3e7fce388e3e31abcb2 0x45288ccfbb32bc5776668355618812e0aa6a9500ea3f8131951b49d3fc7fedf; P0 0x12aee2544947b6b1c417aafc8e643325c39438495207e1d7f722ea15fbd3029 0xe4a020fe93dd88b5074228acd2833d65bccb2fbb2de9acb4b04b75f9a5ce54c; P0 0xcc2d9eeeb9dc128e7a679ee6d85a2fa5bc06be4a42978fdb531e06d12ea58fe 0x345636e7d3c78a498427a70ea7030cbe5fe59d8e687acc87bcf7a5cee9d516a; P1 0x156646ae3b23f30dad7408d9c926917f99a55026940d238ee6fccd6d13efd0d 0x2cb342c8ecce5acad1630fa5900d5f7ba77d13d10b23603adb6909aa07d83bf; P1 0xf9c38f70f9c9f2be7ccd9067521715a562c800b8b95b33e1af819478c9fecb 0x55f64b6cc8a14190fda9436e791b74458698f9968c3310e48ba1f873c5cde13; P0 0x1cdd7b0b4885973cacd08b123e9317577cd52cd2974e80f4f55e7385b901180 0x117f31a58c35b71d49795631c88a7a61652ac735aa16cda913a4b04040041e9; P0 0x13223ca48810a582cf31144a8e78d8137a161ecc8d8b920f74a386883d78ad 0xd619a0198093b103522cbd44252fb5dccd67a559cd25ae43bb7aebbe407d6e8; P0 0xb30eda3b4c11ec0d1ab998c0f52fe17b1034c81f1847afd798e66f4c83d18c7 0x5e455421ec25fd318098cf977f4aeee66d835d812e909cd41b32bbcbea9bd05; P1 0x456df91ebeb6f3c501d2bce21134c63356b5a909bd0cf87810864a40b4660b4 0xaa9607604406e05790ec1ac762125f8ae1e76d537ee3877499f80606234e18e; P1 0xe3573370febe83dd5530366f3047cc5d28ad5e904178faae39d4f1abc30cbce 0x6bcd527a5c5e26ea46625c725065f99f231acc931857db2e1411e80bb885dd2; P0 0x2d65479f7bc140faa609edcab3d0206a8a7479e0a43d9224b0b28cde0c5d4d9 0xd4e62415c1eccf87e05be503ad8724984f5c5d75c7110a235f055fbc840585f; P1 0x1621bf551cabd9b43e3bd0f98d91af914c9ef50baff82b9a38f98c5a38bb1cb3 0xb8a51e9f0f315d92685f1679a96d27b9c4d5b338ba3ca6a4320fc3bf2d2cbcb; P0 0x852dc685228a368886ea99b1e83e8b3ec75db0c4d2448501a43ff428c25c453 0x79eac773f9b01cf9f429f91eb2caa0b3f920c91e83e847b4b77e83130116922; P0 0x3a0fc7dcdd7274135690bdeb2816f3ad99b51f5e1919264a91c8f9589d40650 0x3d1bb5d2bf318c50d18b88cae029f79d4a49f2742fa8d1576d28b46bca32074; P1 0x1d2c6f4c956b4258d2d050fc7d0305d7261af31da2b7d1d2786fdee9504212c 0x215a04252a8dcb627c4826b145902e262e4a851a31508984109380f84646f64; P0 0x45854b87f2ba8dc27b4b055137eb9db7d4601ad9f7094fbf51a41af464daa2 0x30ce303c0d81249bdaad88386815573749166fcfc476ab24d5a660f7ffbf116; P1 0x129bf0505d9979703f9df89369817744633cd3368ad7c4540d8b205eb78e93e 0x73b89c2d1b0848cabf2ab2632021f5cdbdb8c59b7744bffb74a0fc8d8d362; P1 0x689ec2e2ccce9c66cf5d331042f3b421d9ddb8b83bb393e7a8bbb482400 0x2751af85697d67a2f7cbf262bde81566af210746d02c2d376796f21bc600f08; P1 0xc13fb1661d1455ef02f1af3ac0b258798343b29f34656c249045d3cb814853 0xdc45fa486fe69867174ed77714968efdef54d74149ff457001234690d0882a9; P0 0xbd88594d6012374cdbeaee3784f07bd4063b146b772b9fc856f40aa5f87666b 0xefa5d9055f7c6e54b083fce40292bd69527c347c331c9422ee8c7715151182; P0 0xe05716a9813188662c4775424f35955a806ffc3dd4fe67d46ea66f2e668ba 0x5016977ec15ae931521dc6ff27d4f6dacb945f5c041d3c4e78b3ceb5ae443d2; P1 0x321c415b3891a8761cd9519d97749605c0e5b321e14d5b133b5bfb0195a1748 0x909f9526b5a7f9b56ef5cc08d05824cffac32a1d2ea54ed0c4409b62e8f4ae0; P1 0xa367d68c52b169c8874d4a6d76032b614f2db66772778abc9d695b1058cfe89 0x7d84d1c1389c5bbc374180bb5f88e8e3c79be4cf6cde0047f1ebe7249dcf82b; P1 0x7b15f37f58d046343c3ebdd48fd73de5101f37e8992edba8de9af69b795f872 0xf6ae39d2187628a651b1e9bab7bb9c03b650c8d3044dbb73dbbcc8cb23fb6e8; P1 0x1db669b64db57241f52c834e9080000e23a2026926b81290041e3c5a0c6bf794 0xf6f918f6f632c9cfde152f478a274529f296487fd7cb6fb61fec6fcb416347c; P0 0xee43ae5c3403c70fb1673725335e0b5ef415747988ec50b9d7de2d322814e31 0xd5188f2144a5f2d7def6df073a12d20a1d75359aa5f8cbe23dffb207a05d5b3; P1 0x162c3c11104fe6879d7fdf1817fc660274f73d0fb42b439f79cbb67b571e2d45 0x12bbf57ed87dcce666ebdf8e6da8fcb9df8bbf1fba14f41cd46e3fba979ee71; P0 0x15ef886692e01d45c2ec36bf64535826eecbbc66367db38df5801d92da19de 0x48c979938c8acbf5cf07986dadbaed746e0f0e65613f611fc3ccc7d3636615b; P1 0x2963e5e644fb2928eba02802c16fed1d81b7ea0306e5f666104520f8ca9146b 0x12870b97c3648b518cc037d62df289c6428f8920be87214812590a1a41114a3; P1 0x2ae89bd242138ca430a5539e3ba97b27f50952f70f90ef836617ec627193fa 0x6f5f709d888ce9758cd2aa3b0befcac26bf2407fed1ad6c8ec0b8f5f840b320; P1 0x60e7ce7ac5bf86ea8ea0ddfb5d3ca08b72cdcf70326937ca3b3578ddf0f6b27 0xdc78b441d859c4beb725fe05c77cc21c353f779f5f0a051e84394e553c12fe5; P0 0xbddfaebaa881c77e0eaeb61abbac9da729a80c3af2bf67fa3fa4e56014d8450 0x78d1ddb4611dfa8c4a494b5ca43078b2ad9c4373828e90c8c886afb44de74c9; P1 0x720ad7c9b727393a3098967fe758477d4a050fa829efaa18fa5306547213acf 0x16ee1c56acd6e08dc8540ab202f2c008c81dd68fb1ee35b531279a62a6e7cff; P0 0x20dca579a0161497c3e434a2d819c9816c82722847bce65538e6ecb01b7971 0x447ac9768f2713e9b488e2aa2843ea5e7fecd1ca73f47a3add348b7d07f7564; P0 0x125175eb9f989786c800d209fc25126addbddd9d47cca17c46283c423f14d73 0x8900a81265ce6b645b3e8764077e8a1510df84d00b6455491ee588892c31299; P1 0x92a367c83e9e2bc5a0408bec5225fd8ba1ca6c9a050e1d1156e55e8d5ca140b 0xa424e2830e1d1fcb993b8bbaacea490f0e58a6b4ef52e93d3ae1c5d17bf1fb3; P1 0xd27e8f10ceb9e1e158a136f9d9132b519a99fc2f4199e4147594c05d65d33d7 0x4847178168bc62f4b69678ac015c8930b2a616543e600bf9712ed20cf477b47; P1 0x28d021edadb524ca39de739e1f1011b84bf888c5ecf15b3a72f71913cf664d7 0x2075b7305403122fad014985741bd71d75d7c464aac2c779b4fca8e92830b57; P1 0x83b47da1487612d171ae980011a3183901f0fddf7e30733a51c83b78070569 0xd64becd609be067567030e524925d327fd458381dfc02aa42a749bfdda2a1ed; P1 0x166c60cf4f19d7a1d6dfb46e753652fac6b429c2c13b6d18ea37fcd8c559eed8 0xc97650dd7f3d09fa9ccebe218db84c810394f125d502466a4f13ee607e9c4da; P0 0x9e8b01aa778a551bd222b05054aabc1343956c27116be002bc3ec461bb7f16e 0x93b07239fa73ed24520f4d8eefa1bbc045550e69d4d593e5823b739fca45cce; P1 0xaa683997b0a263dd0811f611a469eacb51818f6bb7d39ac79e16b0c66afe3ec 0x35ac6778fc33f0c4161494faa1f1ec302f751c5b0148c6bccc5769d389be60c; P1 0x1681ade699a5f737db0ffefa2e1d6685f00e00ef17975b9aa68a9b131d2ecfc 0x94a7310e07981e77d3d6d60abc1c27a0ef0565342ce83febe8775dfebbe07d4; P0 0x5651bde9427c2b5f5dcdaa09d4731c4c70372e5c598569a79cddc07de2c15b4 0x1000000000000000000000000000000014def9dea2f79cd65812631a5cf5d3ec; P0 0x1000000000000000000000000000000014def9dea2f79cd65812631a5cf5d3eb 0x1]
    [(0x32cdcafae152df290ed9fa9b80caa8174cb, 0x6941747825185c74c21c65c0572a638494435ae0b3ba38e09b97aa8d26faec1, [P1 0x0 0x2; P0 0x0 0x4; P1 0x0 0x20; P0 0x0 0x400; P0 0x0 0x100000; P0 0x0 0x10000000000; P0 0x0 0x100000000000000000000; P1 0x0 0x20000000000000000000000000000000000000000; P0 0x3fffffffffffffffff 0xffffffffffffffac84188574218ca6a104633476582a1965812631a5cf5d3ed; P0 0xffffffffffffff5908310ae84319687a4ee882c58a7e4254486353252b439b8 0x5c63aa97a331b4f2ee573e5a6e5f719ecb8f9626c082fa86e644cdb318e7211; P1 0x42af92d4c08362210062fb00c6d4fa8001a8ba6e859499a336b7f96123d9260 0x8e1d0f0049f716290b33a2cada2072c66d0d50cfedf8c650e2acdc746d8a762; P1 0x9dc87fe171ffce772f62f5764d0eaa75a6a7caecb80c3daaeadbb8618d1ce4d 0xd2a0adb4135b353a1c9aa09648a85fc310157c8af679e497f2cbf26f2ab8ebf; P1 0x15a9803aa0d6d6c54be76ff0c0858cfd41f7ed53b0971334cc668f5d61dfc019 0x3bbe549ab78e8e3117b7444214e37bdd8dc187db4bd81ceed36c45621e72dd; P1 0x1be2910204742639347c2d99a4b45933dc80d96241d55cf6e15fea253214c 0xaac529bb3700655c9acc44f3c173e027279cfa1e666454790bf319fad87ae36; P1 0xe3d4e68bcbf95b8509f4e8c6c67cd6c762a1eb62f555655bf34fab167521110 0x86d818be2df9c0fcbb65bdd50547d29268dc895dded7d19093adf32ffa8eaf8; P1 0x8e0de0a1b6e682cab3acb46cdd406c2fa187d7c230f2c8b69472b2aaff45c64 0x212c404871948938e03fd7f80a1dd31151c9112352c79c219f22f1af140abec; P0 0x44c7038d653a3ba2feba311690e3e617efdaa35c8f98095f21962488bb631f 0x27447e933d93ba08e1f3f51e3404a7a4d1b5b3d87fb920538510a58b89cd0dd; P1 0xc0be1c8b321fced7650fda0f0d9e625bca02b012287597b961eee1c925be34 0x7f6ea649a8a2c3d9dae1d05f2588773a21ed46c4aef87c6ba4091e6c405cb6e; P0 0x3f6ef8d068a20617284c69738cdce6a39e6b6da545214ce9fedac5c7ccd9c3c 0xfc10bad906aad05ddfac7bd4142cfaeb56af42717c26d40fdf9d1c8ec688bb8; P1 0x1f061e1e651426a7ec1434a854aae067fe791738667eaf43713911d15dd41645 0x93c76cb5589ce0b826af4036a171689b577933c0847dfe9dfde52745bc62b9f; P1 0xaa9d4464e7bae26749ad8fc0c94117a16e105b162f9b85da8efe8cf00109d13 0xaa6aafb946e98172f60c437b1b94496a3e6356fc4f4184e7d85470d2ebe85eb; P1 0xe2e3bbb020775cad6431b0370fae8d850049672a2d37efa14e8055b66cedaaf 0x5b9d09daa54ff9bf7ca922fd9c00577874f636b63c17c55ac2d0ae42c8a5a6f; P1 0x41920aad102d74081c08504cb60c15768748b1e3f21b354a3cc9b120912f025 0xd3326110c3b9ed2cf83a06f5692cf1be8bc3fda23e250633b6999cb6d5ca701; P0 0xae3c15ebb1fea704b95f1e396ca77a687ccecb47ead0ad20b56b093cc3ad5b3 0x29989be0889c77df9358db0e80d1c7b869da95b3f7876afb94344e3e6c0ee4a; P0 0x6c23ce7654e0290ca92925e186aafbeb2dbbb02fd94ab82c59093fa31c69c9 0x83ced19e9a108d831bc0747768636293fcc7a6a33e76384f7f957d55ef2134f; P0 0x43dd519e58913d497d9e4d67e0bd269286c59217103f317db910878ccf1a025 0x72705d2133b780a540003362d73dc21a7f5bab01597219e1c428a3e14b81120; P1 0x6650888661fba60ae1a413ad4ff34c6c4f1941d2c6c4debe7a388f109846514 0xcff02c64ec79d0281f11dbdbffd7ee1c8593e317547a31f934902fd6345787c; P1 0x151cc923cf6b678354d44bda1ac7ba190100ea1259a1318504a1cfbe14cd6afe 0x326c32069878580257007fae1d8b7943e7bd19738e3e15df94df54ee8a790fa; P1 0x13dce289a5cc774b5d938af2d83a5959e0e305680a5ec569d15d3bddc74f5d5 0x4b0330a6fa5ca3bc77859e134df65177e6d069edd10643f54492333e0cd4317; P0 0x15fade8c03db30e8a6d72e505252d182c4df9f3ef51dbe30dc05560ac1dc6e7 0x11ab7f8415162fb3a0af6886d095793f2a9d5bb0e85b528baaa325a82d68336; P1 0x27073a6498ade16b2840d45fd0fd038b9a813d06711e5d35a7454f80954ed4 0x284dc2fe78b178c75f67d9179fc62dafe213b2106a205fae8826f9f37f9e884; P0 0x658648e6752bc61a9e08ccdd75d725effab188fcacc52a2a17781e5bfabcc2 0x32dddcbcea18c70f9ce86627a2654166eef0356b9c0f2ee406d136bad98de76; P1 0x1436d5014fe6349a15b0682872af4dd89f12de79777350dd96f1d988c7936d3 0xe81c8bdea81d930c22664bddd78a7e8bee1d6d0540cce2adbf0990b928b1271; P1 0x1a4e78164ebabda6c90c3f56802bb4e9f13964131a25ef8c64cf9f9dd87aae0c 0x9fb19bcac2ec75b460b60d08d47f6466957aea35efbe2cb6844b4dc6f9126a6; P1 0xc73c357d56a4dba6b75a95055d0bea12aa08efcd19dc4c111aaf8049d3db270 0x35138bee705b2a1fd0f844f863246426297124467985c54c6809cd61262e598; P1 0x160232dd98ce72230fa12da41db007812b21abd5812a107b1bcd7fe97a91829 0x815ccd1b45e7ad43bfcbead9b646699420117dd4974067dff8d4adc4ae06b8b; P1 0x82bd50b318c4d7ff5ae23f8fd87dc53d9cedbcf6306fd302e2a00777c5f1e6c 0xab93290de356f5d731c08626b2abe1af4e8e06bda15156e617d7092015cccf6; P0 0x72fded70ba3eb5de8d1191a2368f4b6fdeb4a01343d7067e833c6b482c496fc 0xdaa331e5c84c44fd0cb27b2b40f3f62d2111468f53528fe1ae690f1b94b8118; P0 0xbaba5903ed78bb8bfb71b327fad8f37ca0ed761ba72c37b32f671f4bd4bf498 0x78222d417ed00f5378f9d686b4571b96deb35c2a8ff34ced14ff96905c67988; P0 0x38600efd7448d4f91d72f4959cc9455cd5fb81222a642e61bc4d60c665e9685 0x222857545a1bf9708a4a4e1faa8d2a70eb094fe35c2eb7d5fd28b34f327e01f; P1 0x91d7b1ba02c10143b09a4878e2a3e5f631bf07ac0fb56f1e7ba1d3443d5c44 0xc9536bbe874d0925c9e8c3fd65a1023db1e146a1fe7f1e1f28ce7f35262108e; P1 0x13ca834c076b70e719223e4cf4a843b08f736539655fc55e3331551a2909c948 0xb320e8a774f45463a94c4673679f7d41dd1d37eb6aac26f5a3ee670bab66de0; P1 0xfaae132a55b5b93a39a82046d862dd20bcc2fb6c5612019eba7b59b94c43821 0x776c3b602626c490691221fde46683124be49f53ad00f037735c45dcbd0de73; P0 0x37b5ccf58a5db1269ce507ddb2d28fdf7960d2e8a87d91bff5049a2f49313fb 0xf6adc8f9aa298daea57370e99c28675cb113f38510d9a1981622e2a553474a; P0 0xedb27439123ee5d28757323472f18a08761a7bfaa9b02eb40d5c437550fd4 0x3972484110b0017b37b87f1d298dfcc2512686bab79eb2dbce93dc20626be20; P1 0x19c82e62cf8bcead57b4a40f6c22210604bcc4a79baca747f7d53364612c29c 0xf6ce7bc4cdc736993e6e77d931912f969b04337bf6366ff9a94d3d058564994; P1 0x1dbe2f8d350197d271f109a76d2040a2965b2f2ce820002f3575e951a5e0d23d 0xda8f441e2b443cc229f9e5483e9e42ce6c874237bd467a93b95271e8a5f91a7; P1 0x17530a0611b093081f7fbc42ab2cee701ba4fe61df0ae4c6706a1c2e6db03d99 0x4d35bb753ce5fbd18ccc2d94866ac9a7cdda9d0707e5cb854254bf73346143d; P1 0x2e92bc175ce41abe14201bb3d85d77dfe42c5091e0bc25e2f4a8d851c06a170 0x6611bdf39439dfea489b75cb8e6ff5b8563928778761f9f15e0f1d998886862; P0 0x28b22498e1695ebe9f4b847b9bbc69c484d486ff909f9522359b54d6102c338 0xb6063860ff988b69531ca44ffd9f96cef8fab4357031d0aa40ecdb267a1e2ac; P0 0x816cd8509c6375f3b9b482f5fa4e55cd99ba6b0ce1f4a6d7505b8ed5365d468 0xa7c8609c140b7a87645c00d42e4ae0140403f0b56211baedb4d5728822cc748; P1 0xdbee15c574f773fa47e3098cb548fbe8560a1418b443c18ffa7f31743227dad 0x272da830a9d902e320d9f1b79d929317cdb77f178d91ecb4e64e8d770ad1857; P1 0xbfde2c6c6b77ab25b6ec4aa2402f5569a2b9c72f3dd7152d7bccc26ba44689 0xd35d9346c52078ec393d86ece06351d1af494ef80e05349f31ff7bf4577a34d; P0 0xae8362faff191ae0f2696c447cdde4f28d3bc21545bf89600237d04858ade14 0xc52752d39245f982ddc07bce513cb51541943600c4f9b10eb8881d7ec0310a5; P0 0x97d58b83f6627be4b5eed6b3d52b5e9665b958268c7d088b856e62a36a8aabf 0x2a53279f8297a3fef7d6c5c47ee575c100a167b15138e61d007e48ff1468a86; P0 0x6ff64030e6a6d51af9af0c5d7a649f24dcb40655dd0d4054baba72f64dabb4 0xddf647f7aa644b7c2e373f647917b95f1ceb2031e660d3b51404a324a8b6c80; P1 0x180e64a6000cfe666b68c38e23d3272bcf13cc65e61b4b3c8e7b83e88bc7acd2 0x81ffc40476dbb56b0031eee5c627b22b06040a213f9b5ead70e7c4b29b26b96; P1 0x840786292d8a193b3a6b03610149d7d28e2a34041cfe33850d37bef0aec0182 0xaafd490f78836920468350174343f1d40db470cce2359d6399a857de077ec6e; P1 0xe46abf4412f91e0de30febdabd6137e5be1ecfb5e70d73ebd23998bdadb3899 0xc80eab45fc2fb3103941419dc16fb1c150e58b6c4a5c760d0f6f829de377de3; P0 0x9c56ec748848af0a92985e50e442fda754c40d1eee5c5818449646f5c76b2e3 0x972fc87067cd75e63f482c082860eadac1f65192ecb5ec421c8ed3d2ddc222; P1 0xb292cebfa154a425de908d1e7d1c41a2df21c5be4d13e21c7732876500c43 0x414700c436a5f2bb9a0040b1a231a3160459e92fb6821a74cb5807dc1818601; P1 0x214a442a212e576744135477b078293626e42e073a66bfa6b7ba0ef6e691ad7 0x4ff69c2f3a67561249b0d8692a8c4679eb01db369874dad2d413063de1e09f7; P1 0x31f443eb60333b3a49974d5c2437697c6b1f7d6ee7a1a2d5f8c48f054705806 0x627465a5b4f35ef29fd6e991b6a3085b70485010001643ae306d5d84a422914; P0 0x25dd52bf25127d4a98cc615b6fd123e0334cf71c27a8045d4f9f002d849e661 0xede65f1db4371683da10bd66d0dc4a94c1fda4172aef346e766e95348c62ec3; P1 0x1ba28b6d818c9c3bf997a9c01423d2251c561509704ca24e227e1c2d193f5ddf 0xa66d2d6ce135942014c3c400a45fc2f93d538a6f9680afc07cac1c187e99c9f; P1 0xd8638af1d5b1726abf4e19b64a9730b5d0e3fcc30ade5cc979002934f9a7369 0x61c317551be86527bdd6361f9e74601da1df6ae6bed44e033386b4727e6f24d; P0 0x25556c5b0cef080185f2b228da44db3c03252f7101da049b7a6c25c0b847052 0xcafae15f16a4be7a9ce2dcaf72c63550f7a2fc9b58a9822e01969bbf508193f; P1 0x141e1c30e07b8fef9dc5421c99bc6cadc809bef1d7e5d2e8257d4cfd6f54f207 0x8a69e5802a314ec91bef7de507973439ff675d15d6599c81c079add1f07e587; P0 0x4ad6573c3e5e5109e24dea9fd72f54f341f6403b37a99de4d096a5a53d84af5 0x7378916e55ec56d87eaf68b522656c844ce9b5cb9e57e0033cb635e5fae7960; P0 0x34158b71cb41107b9b1b09f07ad2c65a0122bbb9e6d677bbd97c4f5a9d1640d 0xe92c2793057fa7976be0974cfa6c515fb645f0d15ada066f92a8f6d3f4a8cf7; P0 0xd46167a740aa630f7434bf9614812f1e4cd039c8db4b568236321863b14e352 0x1a4cff3d4dcf275200ec38f583b282e01def447a1b231b4f3c43e736f3e0d67; P0 0x2b3bb00feaf76acdd94e806abc864c5fa616b801cc9eaf1913c4134d394b33 0x7bb78861ccae5a8b2c8d25c0ec1f750a42f16f23255c3c056ae83a5cdc2f83a; P0 0x3bc9e0a23f2a3b1d2fc427ee1c03118cb15a54f19185b6f156b3369ecb2ac68 0x66eb3c861e9d22475f2b58eaa1b1fe08ef79c5b7d328a295c68ce22478d18dc; P1 0x52c098c619e120d70e33a07fea3b63a702d17675f828cd7c6625c01495cc4b6 0x7e60244d8e4fc0c8b183ac7e519662154328c3872bf183001b1525ece51dba2; P0 0x3e62c7d79767251b7e91bdecbabfce8180c61fb3c1905e61c5f96cde6186693 0x3d41ac5669e834026c1e29f9acae928d6ffeffb710b1718a9195b345121736d; P0 0xea85cfa265eac2eea77c783c56647555dabef5df05f33bde918619a5083fbb 0x25a29c08a18d680fa085dea4c7098c492a17b58c69c712c09ea97242903fb4a; P0 0x588686458b9dc3b0dca93660d3750663c394b1ce47caea624efc7cdc0c98ad 0xf88392aef066bccf8721f338d8c69e1e93f62fd5ab25bc4cd200ee92b55423b; P1 0x1e27e5fa4c9ba31705df87ef73385e7ee4db4161c9b4d2be520fae9fc3472280 0x2fb41778595f8cd4e6815568b009cd1213001341c49777d5df6bbc04dd682b2; P1 0x11c73e9e686b396e983affab7c6d2ecffc37d7d7d6d111dea6e2146773dce9a 0x6b9db0157a1695716fc6d68496ba6e13f5be7c7c792e6cd0a40ea2d49bf54f6; P1 0x5a7a64a6cf085498dffaafe3aef8656a3ab120a041410be3799a6f3abc901f4 0x2fb156a30ca48941b5692bfc671e95546374a25d338194f518aeed91a55cde4; P0 0x8e298a8c96dda4393d83fc37d291bbb82ff82b6f2a67856bb8c01776b2262b 0xe44b44704986bcf41b45f6acd7c59f2d431e56708581e92c5763afafb752c41; P1 0x1972c50125e1ddbab0e037a4a08e7ffe06d24a6c150d04a0bc4b4dbb78631da0 0xa2decbc426e91653c188fc5ebfac73e4f22c78a8271df0b41698830e2d383e2; P0 0x679ebbca4ba32885fe721507bcc8ddc95e2c43a1adbc0d5ec3b03b47c0ab8f7 0x1c2b69cc4b5c2e491778cb0f37f800a42fe9c454070ad9120d4a9383db941d9; P0 0x319868166d6b3f158c12d0e2b1928b96d1f94a7838dc2ea17cf588b8d40483 0xdb207854fc0de4b86e635a15eabb1b47ac568349b38b6893e75eda26532c3aa; P0 0xbb9091ffb50e915022aff089bb2652d615b5db942d4316cc2b258d85775e27d 0x454a8ee3dd1c2bf3007d19144a0b337938f1ce29bcfa25109c386555883b82b; P1 0x25828d7b815d302f0ce1c8a091baebae6ef48bcb83c47f14b77aa9edc30a995 0x8b99eaa8d9b81ff710cd2eb299132bc4f4f92381c7fd1e6913051af5493e081; P1 0x984102bb62b69c5f2da85f277806b2a597d715c4452ae0f81e9c066fc4a7ba9 0xe7116a18d5c918d871e9e3bcf125b75d2d0e4d5e17c0f04fda4c31078723b8d; P0 0xd0906ea81515e2ff3b23624a7a98a5a8349bbc0533f0f8f4e63d1605c450f51 0xf2fd968c04d6bad23f77805a913072bae6ece63a89b41ab725547582b5a5aac; P1 0x1cd48d7a744dfd7c762e3064fa8ea412395b71b451d98d2454811170569e0ceb 0x82986605bdb40a78df6c349dfce2867863ddb7f350604ec6bdfd20a0c3c2091; P0 0x429f22572424b3bba06746c718e7f1a3f39b117282e3faca131d401ef903152 0x68a59efe03c6b4f63ce4bdde1a56bd8aa6d3058e40e57c0e9077335937e5337; P0 0x2ac6fc54b940d9e21ca1a766983a1bd3c3d8ed1b397c76d9b55aa2013998e6a 0x87e93f02ef22fe029f4028a904954055642d6a640d07fc9fca9daec16347faf; P1 0x904fa9f1b6214ea9f35e56536331c2ddd2593fc46d477d044b5d55afd06f38b 0xf84f9097a5ea9106cbb16d69be9dd8bca7ae0588f217b71499c66a8635c2a93; P0 0xf0da40e060b9d43fb6406c8a84234cdc028af7ef0f183c058646f641f82113b 0x2f267c6bb5c1f618ebe897ad2aab0538a68f57ed4e69b8089a852b941a7fbca; P0 0x8af2778b92fb3578d9d2711603085c7509d9fd7efd8e5c92ab4652104b905c 0xe17a9acf4358c2b110761609ff2a1e108907d9c82c3d1d6db2b531977354238; P0 0xc698bed83f8c3ba99532ba2061f4e049280c6b07412372f57325e3c74c0d092 0x6507169e1b8cde52ddb2539e39fb2697fb63b4cd8e26b49aa0a0f11762d7f16; P1 0x4fbd301600c46f078d0d0d1242bf5af2ebb82a33bc7362a3c39bf779c285dd8 0x721e3d82e8c93a58783f3b336d41c234b385541adff2dd7e0fa00982335c2d0; P1 0x65bde4b62192da033b5e8541ebece4a86d8f4f66a8a1e54e9577ef27b9e8044 0x61efc949d6b8dc83265e80e046bb343abb4e47fcd13c79ea143310cf637070c; P0 0x257797236adc0cc193c28d53df42728d1623a9a8dbcf01e8ad274dbc991e08b 0xcfad109edbfcf21fdb29c2cea6a8b7188da7fc3c564dc5f9894d376663336e1; P0 0xa87955e05f8ca182ab055a6351698fe1fbafcdbd24bb9bf2058dd9f88867bb1 0x1887adb4ba8c206054e63011f9f9a7b3aef2ebc4dc26606704ad0bfc914be4; P1 0x4b370f51ae99328ec88b37ff6a7d9f71168e53d76eae66949decf70df21f 0x2b15253452b56a59c9cbcb0f48a9a810cf49b89c89f5056de2d8f6ccb6b126d; P0 0x7401c3eb3c6ae17c1af73266ad4365f5f87aa44a0cd71ac1bb9ea75158f95e 0x271f86fca1bac0e05e3dab2679049dba2c4fdc65ae8f4beefb03b632942c63; P1 0xbf53e05e347093ac5a1509ca5538d0144ec3cce2d1d309845e4ef9777e3c 0x7b747f40fe37cdd74fe5490691c5d87095ade16077c76ac7f052e303c3d0b06; P0 0x3b89274c06718f1ae87c118549b31dae24fb4281101fab9c68a29e6fea22273 0x6da1db8430cb1b95bad4ae9d0cf4a1d57564ef336dda2e6a75cd90566c7d6ad; P1 0x5de67688d41b89681ec30f85aa4cbecd662398467fbface351deb035313dc73 0x805cc1dcd9b0c329026f43bc0d1d424efad883cd3fe53daec3e300bd2825b; P0 0x405ce378c33bf8f8af196cc522f0206c3194895be1b0924d865291d7b9b 0x4b00e911c50e805323ce1547e1000dddb3e7865c578efce4a8938295295cda; P1 0x2bf311227b4fb241c05cea0480f012ae18229054f5d8b271c985ae4c6477a 0xe4da13f3c3ec45ac3110fd25c175c915bc20a7cafb5af2de6c011cdcec71956; P0 0xcc952d5031b4a1b3fb7f743cebec1a6c49be2ad6772b8689410397425bb7b06 0xb572aba64c5a77b0cbad0b93da696f02255a6fbdfc5976c941fce7b74811256; P0 0x809b5a167b2b83da917758e80d9df266d864f86af5e8951c41909e336e196c2 0xc10ae3e2007ae99f8ef952b4a96ad156c030b81f8c8960f5d07e4f8ae37bd4a; P1 0x12322d822ba77e47752c194f1ef75a58521a844fd638e62fa9a62cbcaaa8757e 0x95e4657ed50ebc6dc6872781566b8278165f7a135d5ca82228a501663231322; P0 0x57c3a9ea962bfc8b792495d8d24210105b45d29aa5883fe526c9cd7491274bb 0x6a62847b2904372d82297c2dece248e8a8cf588443d5bc96cc04e4ec176de65; P0 0x2c35bb9fb0d22278b828504d50436322b0531a6a0741278a2c428dba1da93ce 0x7e0bc1d1059fc9fd46a6495ef4aca855a37bf4a7c402024242e8a1c94fbb423; P0 0x3e0f9353fc3c9bb5cae7183849e7eb74fbf7df713f6485563d9f16844f1cd92 0x725e9ec64365975c66ac9f8426dfbc2c1e079866cfdb92024ec7cf1de5e969f; P1 0x6630d0c320329c4e5a0f581bcb7e64f855d441df7ce492bc957285dcd76952c 0xcf2326741c68cdd072b5c6e3b5db2bc6f01f526073951c123e8558ebee0fc6; P0 0xa799dd034f77ee983fbcd43c06107bb7d9d503fb5c50e11bfe685f2e92b79 0x8469e8c4743fbf8527aec691d21f17f68f2b7a664c9b5b10c3f372eb1a1d31f; P0 0x447d63db5cadc3422daf3b674e9eaccc9ddae2a0bddf9b8c46709293d644b00 0x6941747825185c74c21c65c0572a638494435ae0b3ba38e09b97aa8d26faec1])];
  mkcert 337 ([], []) 0 [] [];
  mkcert 0x19817 ([(0%nat, 0x19817)], []) 2
    [P1 0x0 0x2; P1 0x0 0x8; P0 0x0 0x40; P0 0x0 0x1000; P1 0x141 0x4b29; P1 0x1baf 0xb469; P0 0x4fc1 0x110ba; P0 0xb643 0x9f1f; P0 0x3e0b 0x6ac4; P0 0x1bee 0x113ae; P0 0xba3b 0x86f7; P0 0x2ca2 0x14fc3; P1 0x22881 0xa17b; P0 0x3fe5 0x13b86; P1 0x1e7e8 0x7e70; P1 0x4e59 0x1; P0 0x0 0x1]
    [(0x151, 0xa30b, [P1 0x0 0x2; P0 0x0 0x4; P0 0x0 0x10; P1 0x0 0x200; P1 0x5 0x78d; P0 0x23 0x13884; P1 0x1dea6 0x7736; P1 0x45a5 0x144f5; P0 0x102c2 0xa30b])];
  mkcert 0x3c936b ([(0%nat, 0x3c936b)], []) 2
    [P1 0x0 0x2; P1 0x0 0x8; P1 0x0 0x80; P1 0x0 0x8000; P0 0x10e 0x1c8526; P0 0xd6d80 0x133d24; P1 0xc3870 0x207350; P0 0x116238 0x26c398; P0 0x18ce5c 0x23d5cc; P1 0x2a65f9 0x79b0d; P0 0xf476 0x30cf57; P0 0x27544f 0x30358c; P1 0x4cbbfd 0x15af61; P1 0xf8696 0x3222d0; P0 0x297ed0 0x127810; P1 0xb4314 0x347ca4; P1 0x5af4c4 0x1db834; P0 0xe94b6 0x2e207e; P1 0x463fb6 0x3558f6; P0 0x2efb50 0x1411f4; P1 0xd4ca2 0x3c936a; P0 0x3c9369 0x1]
    [(0x19817, 0x200bd8, [P1 0x0 0x2; P0 0x0 0x4; P0 0x0 0x10; P1 0x0 0x200; P1 0x0 0x80000; P0 0x10e78 0x200bd8])];
  mkcert 0xe95f681f97 ([(0%nat, 0xe95f681f97)], []) 2
    [P1 0x0 0x2; P1 0x0 0x8; P1 0x0 0x80; P0 0x0 0x4000; P1 0x0 0x20000000; P0 0x46348 0xd76823b888; P0 0xc6d2f0db12 0x2364b62a2; P1 0xabc4d96 0x8b4071ef8e; P0 0x531729447b 0xbf3bec2937; P1 0x1396887c7d7 0x54aa736ad1; P0 0x1eb7532ea5 0x765599404e; P1 0x780173dc34 0xa0cea500dc; P1 0xdd9c5f8912 0xc22bee7282; P1 0x1431c5b1d7d 0x7271c78c4d; P1 0x703ee1e3af 0x9aeb4d2119; P1 0xcdadd9842e 0x81ffa45fc0; P0 0x486a306f53 0xb0cb0b590b; P1 0x10bdc9fd502 0x2dabf36ac4; P1 0x11e04b6a83 0xe218a41bdb; P0 0xdb0bf491d1 0xc14ccd9c12; P1 0x140376e371e 0xc47714bdd6; P0 0xa564fe3ed5 0x9a3d1ad441; P0 0x65f028f5ea 0x156c2f557b; P0 0x1f76ca054 0xdae1182b8d; P0 0xcd4935337a 0x453cab88b3; P0 0x148a8dd0dc 0x426ccfd765; P0 0x12e817bb81 0xab717495c2; P1 0xfbe540508c 0x2af7465774; P1 0xfd21f40f0 0x4967d3bb90; P1 0x2e2da5e934 0x50245d8854; P1 0x370af813c1 0x76c322b149; P1 0x78e005a8be 0xe3ae5e8390; P1 0x1bc41bb86df 0x63c2fd377; P0 0x2aa55ad1 0x467aef810a; P0 0x1549186d23 0xd853df77bf; P1 0x1910e15c4e0 0x454dc00e2; P0 0x1494b18b 0x5df9c43987; P1 0x4baf65c7ca 0x949b007c3c; P1 0xbd4187b8b9 0x1; P0 0x0 0x1]
    [(0x3c936b, 0x33a6dcaeab, [P1 0x0 0x2; P1 0x0 0x8; P1 0x0 0x80; P1 0x0 0x8000; P0 0x0 0x40000000; P1 0x231a47 0x59a544e71f; P1 0x44df0829cf 0x31c6493169; P0 0xa9db850af 0x1891d694d8; P1 0x52c663c2c 0x9d67de1a8c; P0 0x6a2ad8fa84 0xb6679efcb4; P0 0x8e916f053a 0x7cdff4c35a; P1 0x85a350552c 0x338cb1e654; P0 0xb63031c9e 0x9f25e6085e; P0 0x6c87db848e 0xcdf1f5a0c2; P0 0xb5bdb85028 0xdaba9af36c; P0 0xcd0108f62e 0x89ee9d6e6e; P1 0xa30bd1fc6c 0xe14ed076d4; P0 0xd98591c2e3 0x33a6dcaeab])];
  mkcert 3023 ([], []) 0 [] [];
  mkcert 43 ([], []) 0 [] [];
  mkcert 0x25eb5 ([(0%nat, 0x25eb5)], []) 2
    [P1 0x0 0x2; P0 0x0 0x4; P0 0x0 0x10; P1 0x0 0x200; P0 0x1 0x1a14b; P1 0x23e07 0x6aff; P1 0x25bd 0x3f61; P1 0xd3d 0x20361; P1 0x36b98 0x1f30a; P0 0x19a7a 0xf822; P1 0xcaf6 0x1f51a; P0 0x19de0 0x1e744; P1 0x30ead 0xadcf; P1 0x6395 0x1bc69; P0 0x14587 0xa89e; P1 0x5db9 0x1513b; P0 0xbb71 0x25eb4; P0 0x25eb3 0x1]
    [(0x2b, 0x5c50, [P1 0x0 0x2; P1 0x0 0x8; P1 0x0 0x80; P0 0x0 0x4000; P0 0x6c0 0xba40; P0 0x392d 0x1d2f; P0 0x167 0xdece; P1 0xa3a4 0x1f094; P1 0x32ce1 0x520b; P1 0x1630 0xc902; P0 0x4298 0x13e8c; P0 0xa740 0x5c50]);
     (0x2b, 0x5c50, [P1 0x0 0x2; P1 0x0 0x8; P1 0x0 0x80; P0 0x0 0x4000; P0 0x6c0 0xba40; P0 0x392d 0x1d2f; P0 0x167 0xdece; P1 0xa3a4 0x1f094; P1 0x32ce1 0x520b; P1 0x1630 0xc902; P0 0x4298 0x13e8c; P0 0xa740 0x5c50])];
  mkcert 0xb6309a7 ([(0%nat, 0xb6309a7)], []) 2
    [P1 0x0 0x2; P0 0x0 0x4; P1 0x0 0x20; P1 0x0 0x800; P0 0x0 0x400000; P1 0x2cf6c 0xa1be48c; P1 0x11f2eca5 0x88a2c7d; P0 0x6678d4d 0x93352ce; P0 0x76f145c 0x1b19c0; P0 0x407f 0x88b8627; P1 0xcd327de 0xa4de410; P1 0x12a62ffd 0x9a8cef5; P0 0x831ab06 0x6236f8f; P0 0x34f20cc 0x20dc0cd; P0 0x5ed304 0x33588d; P0 0xe787 0x7df7598; P1 0xae2faf7 0xa3f2e5f; P0 0x9388ba9 0x1013b02; P0 0x16b2dd 0x20e78d9; P1 0xbe2ae6 0x50e3dd8; P1 0x47d415b 0xee7723; P0 0x1381f9 0x9ef045a; P1 0x1154f2b4 0x5af37dc; P0 0x2d675e9 0x2d12911; P0 0xb26900 0x344f421; P1 0x1e09af9 0x6aff13; P1 0x7dac7 0x1; P0 0x0 0x1]
    [(0x25eb5, 0x48b6081, [P1 0x0 0x2; P0 0x0 0x4; P0 0x0 0x10; P1 0x0 0x200; P1 0x0 0x80000; P0 0x59e 0x9afc7ee; P0 0x83d83a8 0x3ce16ac; P1 0x28b00a8 0x8f8b188; P1 0xe230710 0x5f18510; P1 0x63454be 0x7fb4c0e; P0 0x5984005 0x48b6081])];
  mkcert 0x2e3802c35c7ed3b ([(0%nat, 0x2e3802c35c7ed3b)], []) 2
    [P1 0x0 0x2; P0 0x0 0x4; P1 0x0 0x20; P1 0x0 0x800; P1 0x0 0x800000; P0 0x0 0x400000000000; P0 0x589f38d75 0xc7654a8bf61509; P0 0x35c3a00033d620 0x11d836818f880f1; P1 0xdc779f345a0911 0x1968c7c8b67f1d7; P1 0x1bf026d6b1fb803 0x188238f3bf1d571; P1 0x19fe21383567df8 0x1029c20b218d79a; P0 0x5a702a0fc5eb61 0x1eb292e5f86fc49; P0 0x1463800c0888037 0x12d722177225524; P0 0x7ae130c30e73af 0x230e7f5b46a40bb; P0 0x1a9717f735f3d20 0x212e8afbcd05239; P0 0x17d27a674a1ff5f 0x4286c0666ec2cc; P0 0x5fc1b62372bd6 0x1b0732b73e39a3e; P0 0xfce409f7a5ba0d 0x24bb79dc957bd05; P0 0x1d3166a7f29a0b0 0x1110ae0adcb6989; P0 0x64d072536ce5e7 0x8ba77b2046d414; P1 0x34bf49b79bf656 0x24ba7ae5668df4e; P0 0x1d2fd1690e7bdac 0x1e82b39d740920; P1 0x284834741030f 0x1b1a21af32cf08b; P1 0x1fc8da8596a0bd3 0x293c2d53f31c651; P0 0x24c9ea49d471640 0x2e18daac7e804e1; P0 0x2df9c79665a1daf 0xac98b0539ef36c; P0 0x284886ae941114 0x212b64dae4ac1f4; P0 0x17cdf521cac19b1 0x20f0046d6f807c5; P1 0x2ef20fb309376b9 0x2c562328624198f; P1 0x550fc70db892a24 0xf89aa002ee7176; P0 0x53934353810513 0x711fee707da003; P1 0x229c42ce924b89 0x2199ced6dbf427f; P0 0x186d77cb961795d 0x388e6ae1aaa992; P1 0x8a69772ee847d 0x1ad10df68a8ecb9; P1 0x1f1e59c91b176cd 0x28fac79122e1123; P1 0x48ab2b97208a26d 0x65c330115bfd73; P0 0xe00e5492ba0c6 0xa2910737df2607; P0 0x23bcc9ddb49c8f 0x611e12ac1e9c3c; P0 0xcc118eb09c141 0x702aefbbb97715; P1 0x2206fbb180c58a 0x2d5380ac3a8c6a4; P1 0x58e6d0ad8780706 0x19825b59cf005be; P1 0x1c288189beecb79 0x17c9fd86e4b0825; P1 0x187d178fdfb9b2c 0x27b0f90f1082b8e; P1 0x442bdf471a73557 0x95580c1062f7b; P1 0x3c521b6de5c7 0x12bfdf690669a55; P0 0x79b2816e60599b 0x1ab970097203a80; P1 0x1ee7a2495d4ac96 0x19e329b857db6e; P1 0x1cffcee23f002 0x230a6e7deaa9c12; P0 0x1a90ed589e63359 0x1540f1ea247b6c1; P1 0x138c0846b7fbbde 0x24352dc441b28d8; P0 0x1c5d75ce18ece6d 0x2be83202b54ba21; P0 0x29b5fb3f53e8766 0x2075d21fbef55bf; P1 0x2d984132aeca6d5 0x19d6e03bf2424eb; P1 0x1ce44e36801e8a6 0x197e8852ef99330; P1 0x1c2010c82a10abf 0x1d31a1bb87704fb; P0 0x1270aed6d25a2dc 0x28b63e34cfc9965; P1 0x47b8e4e879cfbe8 0x2e3802c35c7ed3a; P0 0x2e3802c35c7ed39 0x1]
    [(0xb6309a7, 0x13eb608199212c2, [P1 0x0 0x2; P0 0x0 0x4; P0 0x0 0x10; P0 0x0 0x100; P0 0x0 0x10000; P0 0x0 0x100000000; P0 0x58 0x1cbf0cd834673b8; P1 0x23c215e606b2b69 0x90dba8ae5b724d; P1 0x38c05c522e455b 0x1a8b6e2bbf11b59; P1 0x1e7d955bd0dea4b 0x249d959f1925b99; P1 0x3a03ed8ad9da6da 0x3691ce8e50fca4; P0 0x406ddb99b0b2e 0x1be2b2848fc1f76; P0 0x10d30b72ee2f037 0x323aa84fbc82b7; P0 0x36966282953fa 0x11c4c78a3eb9233; P1 0xda9872ae7755a2 0xc9003c938ab5fc; P0 0x36a220c789b4b7 0x21646c33ee3; P1 0x30402ca 0x5dc26c9d01d404; P1 0x17c66aa3465e7a 0x1c734ea05b88802; P1 0x23069e4f1d3296d 0x2c9aedec084cae9; P1 0x56188a0250c93e7 0x8b2867c7d51ee5; P1 0x345f774bea19d6 0xd28a93495fdf60; P0 0x3bf152ab29c4a2 0x1643403ca9018aa; P0 0xab93811e789b0c 0xd1862259f67920; P0 0x3b5d61d63bcb15 0x128900151b20529; P0 0x76ee41f40bc8ee 0x1c5a6948060fbb7; P1 0x22c96c6fa2deaae 0x15cb971e3668d88; P1 0x148e4e37d06bbe8 0x26cd81867631a08; P0 0x2093a02a1d6e814 0x1eb48d5c7e79fa4; P1 0x28cc41cab4177a5 0x2bc2a28acecee19; P1 0x52dd79763043cf5 0x9a047e0d391f6b; P0 0x2013dd73154875 0x13eb608199212c2]);
     (0xbcf, 0x278744e714d9d32, [P1 0x0 0x2; P1 0x0 0x8; P1 0x0 0x80; P1 0x0 0x8000; P1 0x0 0x80000000; P0 0x16 0x72fc3360d19cee; P1 0x23c215e606b2b6 0x1a905d369262c96; P0 0xf44760076fc73b 0x232ad3d083a5e4b; P0 0x1ac2233538cf59d 0x10ac25b5dcd35ca; P1 0xc074999277fe5f 0x154f1daaa3f3e3; P1 0x13a621d8b7994 0x9801b1da166d76; P1 0x3e7da849ba6f68 0xc92a3835386fd0; P1 0x6d71eb6bae6ad7 0x11c49e09d6f6773; P1 0xda947591e36b53 0x21a6acf14c4e831; P1 0x310061efc0f2808 0x5ed104257c10ea; P0 0xc2835ddaba35e 0x7fa44b96ef693a; P1 0x2c10350f2d62c8 0x31c70085b85630; P1 0x6b384494cf359 0x2df48bc0ad4177d; P1 0x5b62ee7075ad14f 0x21272b9854205dd; P0 0x17c7e58ecbe5e2c 0x177e5d38ad3f0a5; P1 0x17e25bb2b1697fd 0x875d428cd25463; P0 0x18c737de3f176a 0x283ae6a0f9f96db; P1 0x4608e1a8f9b2290 0x2cf697b682e7782; P0 0x2bbde7e492ec6dd 0x248d31547d4b015; P0 0x1ce803cac9beaa7 0xb4288da6e8323c; P1 0x57c7ef69ad4644 0x1d241c1555ed674; P0 0x125f9dba48e2100 0x1e1702c10878990; P0 0x1396e6ea4644b09 0x1e6adb87237d0ed; P1 0x280957042b5b3bc 0x11576ce467e7e; P1 0xd0362d09c0 0x22d8f1ce4288cc8; P1 0x348c31a39d97a0f 0x2264260700eb40b; P0 0x199721144a09b6c 0x27ffc8821f8aa95; P1 0x453ba44ee8854ca 0x1e50b3cdc3e8e4; P0 0x13e24d287ecaa 0x2e2a57d41a31de2; P1 0x5c3961df14891a2 0x12190f121176cb2; P0 0x7162a8e747e9b5 0x3280de94803e0d; P1 0x6e5ed1d27cf05 0x2cacec4bf5d422b; P1 0x565e0e3e6864502 0x27af5291f4da4fc; P1 0x4426341d112731d 0x245bd91a37a4f71; P0 0x1c9a2c680881e1c 0x1ce4602df58136d; P1 0x241f2e5f08176d2 0x12eab764bdec6c; P0 0x7be1288576ac 0x191d9ba907bb7ec; P0 0xda5e6568d7a9f5 0xed4644186c4519; P1 0x98433efc329e08 0x185399ea34d250a; P1 0x199b9bdac17daeb 0x2ac3397fe7c59f; P0 0x27909a13f95bd 0x278744e714d9d32])];
  mkcert 0x87b23e9d09d3e637b2aa341 ([(0%nat, 0x87b23e9d09d3e637b2aa341)], []) 2
    [P1 0x0 0x2; P0 0x0 0x4; P0 0x0 0x10; P0 0x0 0x100; P0 0x0 0x10000; P1 0x0 0x200000000; P1 0x0 0x80000000000000000; P1 0xf17b00c8202 0x3a2aad1a35a6e9a0bb7b77e; P1 0x31dde2d892c66d42cc2ac2c 0x77909df31ad605ca70d08dc; P0 0x6959e9ba2914a97f8628db2 0x14416e7f91caa8658342cde; P1 0x60c1328c8c6291e307fb80 0x717eb1b8b68318746f0c588; P1 0xbdda1150eb79344ce4ee23d 0x6f1a20a74edb0c2a5bee803; P0 0x5af725b7a9f75fb203b71e6 0x4f36676284cf647da6012a3; P0 0x2e3d7dbb8c36fb158b78ac8 0x4fdaa683e763d8e56d3bf01; P1 0x5dfc0ce5d16aa79ef294d3c 0x342d70b99ea3dd6a6cf2bc6; P0 0x1410292e39ebdf5112a738e 0x840b4eacab04fe707095c16; P0 0x807d88625b1a719dd5fe4e9 0x6e96f44c0a408bd095857bb; P0 0x5a20d8515648d5d984efb8b 0x5b9c30f60133175909b434e; P1 0x7bb1b11e99ed763e0029e0a 0x5469030c2fc02245d5d58fe; P1 0x6903e138f4f61db3202c76a 0x7e449b94eaf2a8289e6181e; P1 0xeafd5813de86215784218f1 0x43a10d67ba3c32267277ed7; P1 0x436929d70c73b5764eb048f 0x57eff9a91457d0b14ab7bd3; P1 0x71f9959177db442c2c4aae5 0x2ea38c791079acd823bacad; P0 0x1007a0b2c6739f130f28985 0x6e087f4972e1da66e405324; P1 0xb27275c64b686151497a85c 0x7b4845f91708ac89c3466c4; P0 0x7001089771e2dcb2383d7c2 0x5fadbc1b40e39b6363277ce; P0 0x437663edebdf4c0a5607afa 0x139cb44991039735b8c24a; P1 0x5ab47d8df793811a96d5 0x4fba46e65df435137ec8fb3; P1 0x5dafe8115197e3f7d4f076e 0x78a80355faabd41248b0164; P1 0xd6910c3e04c322da6a821d1 0x8460c316f18e0f0efb1350f; P0 0x81240d79d0806ca91504e41 0x3e3535e7f10f5fe52dbf560; P1 0x39095525deb321dc59d42a5 0x2b019e55c513c5af672cd1b; P0 0xda1496de5c6bae9620153f 0x2f44465335aee6e75dbeda; P0 0x1076dac34f827561deb87 0x7229c80a091426038f68f5d; P0 0x600c1140129325a71a966a4 0x67ae23922f373132bbf8c25; P0 0x4f37d0647f1fe8e9f283abd 0x440808dfbf9946e614f3c5c; P1 0x443712e0c6ec3a8d47b1aae 0x714add1cc692231be3bf1f2; P0 0x5e966902df071e8ca1def58 0x3277c2e76b36113b4c6bb6c; P0 0x12c515df3d43e88c69ada46 0x3664f0685f86b55dc7ef7ca; P1 0x2b9bb7016f5b28fc45f7ba1 0x2926e3b3adcfc22c9feefe7; P1 0x18f5b951f00b259b60e3da1 0x168f5fd3cc8b70398251c01; P1 0x7805be0f3e68e6c4609e19 0x33e637216f1f234426860a9; P0 0x13d988512350bd1c93a4c19 0x333dae95f2bafde1c73f238; P1 0x26b2dde476e428db26a198b 0x33ad735fda68c3cb1f9db35; P0 0x13ae343e170ca90ae13d6b8 0x736f57e1ed5efacfbdd0c41; P0 0x6232eb119f9d7391edc8323 0x41a1c024b2d25e0c95939e; P1 0x3f7ce98e89c39adbe02c8 0x10ad1320873466850419e40; P1 0x4194697f12de201842192a 0x678cd77a67ad5adeef3fe56; P1 0x9e09ed6ad71192a1439697c 0x39ac8c907defac3e4cfcd4c; P1 0x31068ae8e44537f7b0f7ade 0x6afc6d64749b9241e8010c2; P1 0xa8b35383c6d7ee5061279fe 0x7dda75ac67921391a27f28a; P0 0x74b973612dc302e2c39fd47 0x58be0e675b9d4680231ae5d; P0 0x3a091d55c857886f9a8dfb1 0x11f783789d3801002040ed8; P1 0x4c1ff0715b425acdb635c5 0x68cbc0fcf665fa4f666967b; P1 0xa1dd3bcab12a788fbe4a67c 0x40629aaeee77831dd8984b6; P0 0x1e8caabf03d51fe66ad2335 0x85cc6b55e64dde3fe8581ef; P0 0x83ed636ddfe958981fd2720 0x6292d764301eaed8bd86e01; P0 0x479b4d11038538a7d2d9522 0x42b7b89834784234ad9585f; P1 0x419b244d4e5d218a2165805 0x1bd7b3c0a3767d67d955e3d; P1 0xb6cf7f8f89a9590a67d3b8 0x6e232f52216f92eeb0acb5a; P0 0x5964880912341adfcf9f090 0x38c893699a3059cb94e1714; P1 0x2f85f59c2cd33478e0dbb30 0x11ca0e673863bbb5efd1bf0; P1 0x4aa0a43b4d67b5f3080673 0x21c4874cccc54f4d5d625cd; P1 0x10ce5718091cffa5aa852dc 0x1cfeb885b9000d9370aae76; P1 0xc641c6aafd26412b211b90 0x4b9e6d23f8bfd8adaa48d38; P0 0x2a23c8a3005d4a800741692 0x2a16a425885b35cbbda0b2e; P1 0x1a1bddcc9940e5ab0e2403d 0x551e889e5ed8afeac4ed20b; P1 0x6ac970eb67133c9e779b655 0x6c6549619ff1696e022ae5d; P0 0x56966e6499228b1a1d2745b 0x5e28c694dd4e40ea10311ae; P0 0x41563d68e5384826d71992c 0x5f748832eb69d41e3b5aa18; P1 0x864ba2bfcf53182562713cd 0x5af1d5adeeb335a8dbe3673; P0 0x3cf3a9779ccd87f29af2acf 0x827467f383e8ffbf3970c1a; P1 0xfad4cc3c9f42f479ca4d3cf 0x8752e6c9c13386158d050b9; P0 0x86f3d1f3ecdeb80f0d3d5dd 0x7e0c366351a932729dd2194; P1 0xea2b9e9a3aff14372c62ce5 0x5310401203d7ae01465c5fb; P0 0x32d8711b7e402d2d3fead79 0x30f140cd033453574322d60; P1 0x234e00d5da4ce49a71be481 0x13993bf9ea5660eda58a03f; P0 0x2d4a33ce2007e6b7caf44b 0x81ffc82b2dc9435da3d0776; P1 0xf9151a8b437d9d3e4cf90d8 0x54e438321e3a903f8a05f0; P0 0x351ba8fad0d3e14739a20 0x17c0ced21f283291126bee0; P0 0x4286c91a789a40cd4350a7 0x56d2af4fd557a7085f97499; P0 0x378d5f5f00ba34d569964ee 0x1f605b0e22ab6a16f7ad903; P1 0xe8290b34ac5f0ad651d0cb 0x44c2cf917d905f049ee787; P1 0x45afa4b87498da75f5230 0x3a91a11cb9a96e7eba96432; P0 0x194782bc1a23d245d2604d6 0x18d0594743feb68c4639d6e; P1 0x91338f1696dc0aa4a21f7f 0x534c4dbfd119d07f0ba5a49; P0 0x3322110060714be04f7caf7 0x857653610f6fad42f3f9b1a; P0 0x8343d29c522faf6dcca9664 0x87b23e9d09d3e637b2aa340; P0 0x87b23e9d09d3e637b2aa33f 0x1; P0 0x0 0x1; P0 0x0 0x1; P0 0x0 0x1]
    [(0x2e3802c35c7ed3b, 0x7abdbdcd50b580e230e79, [P1 0x0 0x2; P0 0x0 0x4; P1 0x0 0x20; P1 0x0 0x800; P1 0x0 0x800000; P0 0x0 0x400000000000; P1 0x3 0x68e94428e2844d58e80163d; P1 0xa238738cb353ec29d89927b 0x7f8328fe679494b1c7c92d7; P1 0xefa4dceb9ed7930d1e2483a 0x1d78a2aa26a4c25230e9c68; P1 0xccd2ae2b03cf2492f47d0d 0x40779e2c0c1f3401708cd33; P1 0x3d413dd74caec338c2f6b3d 0x3fe62cade692f1b93015ed5; P0 0x1e1708aa5eaa378ac52de2d 0x8f341b338b8abce7e80ccc; P0 0x97204b0d276f6297d044f 0x3d9a4c2f1e3b8028df15d81; P1 0x37eea4f987bb5e0b2cb7285 0x34bef50645a806ff1ad333d; P1 0x29015b011c83a90edfaff18 0x1b5c663b225bcc0aa4fabfa; P0 0x584529a1139055b73bccfb 0x72cfcce15fefc67cbf31369; P1 0xc2486afea1125e0d2525831 0x62152eb56a5ad53e983eab1; P0 0x46e530f3c924173bf0bdce9 0x6845f11995595bcf9689c38; P1 0xa040e6bf2eb89c3e165499e 0x40bbaedd97c8571c3254d62; P0 0x1ee16d7b63399fa5df60481 0x2f61c588e52e1078938d1c3; P1 0x2116db8411b9d811ff135fe 0x86e5d1a7fa67ab4b7148594; P1 0x10c35315468a352262445eef 0x51025a184d8def95a1f371; P0 0x305c91b701e5256c0439d 0x214217bbc050af0ad019604; P1 0x104d7c356bba4b44a3dba15 0x33519726af4f8d41247c1cb; P0 0x13687af23082691efae888c 0x3befba2db70d889f613e76d; P1 0x34f282eb8e413413a52bab4 0x2a796fdc2014161b55dc51e; P1 0x1a97003b51a405e04546915 0x27b9a3415a47d8c4a5d51b3; P1 0x17425525f1e798d90c4bf4f 0x224dbb087d018318487a643; P0 0x8abff2f342e942977e3156 0xf412845cdf5bf3a414acb3; P0 0x1b70135ee9af3d137531ee 0x539c4fe3f63c79bade0cdbb; P0 0x33847a5fc70ee295604ddcf 0x7c890f213d34f39a127e80a; P0 0x724adfcdd2c301c25839968 0x78241331b98affca536f4fc; P0 0x6a5e6550866380de9f838c8 0x2ce6579e04498de3fc39548; P0 0xedb4c584cb4929ca8a9f07 0x7abdbdcd50b580e230e79])];
  mkcert 0xffffffff00000000ffffffffffffffffbce6faada7179e84f3b9cac2fc632551 ([(63%nat, 0x10)], [(0%nat, 0xffffffff00000000000000004319055258e8617b0c46353d039cdaaf)]) 2
    [P1 0x0 0x2; P1 0x0 0x8; P1 0x0 0x80; P1 0x0 0x8000; P1 0x0 0x80000000; P1 0x0 0x8000000000000000; P1 0x0 0x80000000000000000000000000000000; P1 0x0 0x8000000000000000000000000000000000000000000000000000000000000000; P1 0x800000007fffffffffffffff7fffffffa18c82a96f8d36108097fec2f76fcdff 0x337096ca79ecab101422d91c95b5f62ca34cbcce24deb7d34192264adf3cf751; P1 0x14ac1b3201cddfba115d897a19b4044239b7bc664edddc574f80bf33c3527388 0x77f18a6cca094dd16d3ffcab1186d8d4dccf796c2cc44ecef9df0e27b069993a; P1 0x7064e52e8f69ed02cd2ba9da3ce656d7c5fc54e9699df4e1e5c1d72129dac9c5 0xe5b2f7284e33919c019ec40b740f84c73acdf5c5d2329be5644607c6ca0271f3; P1 0x19c335697195af584c2d03bf6745d4f0a89ffa511b54ea41c8e2272233c81e43f 0x31f7e92035db2bf80d3f839c6da3d25f8d6181581ef92351eef9adeeb9958663; P1 0x1381aea41da4a25895ecb98bf5b86dd19bb6dbbe91bcae9bd3066df5bdfec9ec 0xa3dd4680601f6ac784d54e11b9d0ece51c86ed6ef77c7c864b9c6eee408294e6; P1 0xd1c70e1560b7e8685205bdedfcbb146cd4284bef1a5eabc60086b7837365fbb9 0x6326229319a61bdec1452db7f3aa4e17204f7867fd2221857e7a50bb6b341abf; P1 0x4ccd08d869280542690ed4f9b08f7812cf610e1fd68d9d0d1827d9f1e9becd47 0x873a433fd1c3e5f61595da0ee6166344e88b7c3e141c73a17bec5f0445477e8b; P1 0x8edd0060428142661986cd68e71307406a92572c7e0ac38d17c812a08a9939e5 0xfea058c51537709d8d28da1d3a335f1cedad684d17a050e98b90606febe5d47d; P1 0x1fa85292e50fe6756b597d5f337199224d0942d4c17ba5d958a2c6d0c5f4c86de 0xcb6efa291b330aa4f6fba9ac8c310986babe213922902e3ae116b36bc573c7d4; P1 0x1435261b38527a6a2a0d2d6f76573fc50427f24c28932ac20de7a973597d1fe88 0xf8a4b32d4a62f9a80d967bb9db7e1fe8e63a3fb855ff22bb01da9b8927135e18; P1 0x1e2ff0a3d821deb59dd7d1f868a00b29602301973847cfc714d9d0795ac67bfcf 0xd8b63968c0e705c3bdc71c3a811eb5a6b967a8314d7667a95815d59157b1a901; P1 0x16ee8052e5597eb224715f8cd6c6fa1a63dd4f631803c7b373e7134b2b0e5c3e0 0x7a84048385d580902032fc9b57b275718cfc45032be4a29518296d1134464a22; P1 0x754430c47bcff5b1c22a9bed61c87af31134b080b277d9e357617f951edcb322 0x73c29addcfd0cd3fad31f5a30bfe9fc168cd2dc01c9ac00ecb8e2cc57840c146; P1 0x68b0d62525d93450adafc815ab7391d61a7b6c167da20035e0f4dcbf55d3d8a4 0x94f574437815671ee9ba976ca9c77ff15915f57d70ec40c742a0c835ac11fe64; P1 0xad59738c2eed1128b261fb00794dffac22f891f298b84a242e437cefd4d368b1 0xc4aa14f91bdb018c5a1e1fc48dcd25cdf72072f19abae92c2cccee6daeac791f; P1 0x12e29c23bcc9a323765d9cee0770b6e2dd8861024d696b2ad985060fe0339278e 0xcdb203a831192ad012bc6966bcb1f2d9c5e01b30e52b8649ea587401e2359994; P1 0x14a8d2b4a33b515b89ac6f4dcbaaf9b4d7d65c6e625e13dc1c69e2fe1e5da81c4 0x5bd023503e1c4cd06c726fbfc4745073686cf1fb5ed67a0986413c9d1924181c; P1 0x41db44a928b3722021f0c8c8aa50e4b2b54bf26b18ca3e44fdf59777128deb05 0xcbd8aef9c240d7a2774c464acab01767c6521de559ed23c0610179e8537c708b; P1 0x144a2b9d0f2e8f015fa541d9489f5b46a06548c6b697d7a72414ea4d723d97240 0x36ca032fe6fdbe6746643dab7804c27839ae49041f721ddcef1d607fc03370b2; P1 0x1773b182919f2bcbbba4c11fd1732a2cbcf755e3d2752e651c156854533077ca 0x59a2965528e0b81ac686a8b8c8faa973542c2314154af85f8accc888b24c5e9e; P1 0x3ec4e793e3bcb0e1ebd2d33b7c309e105be84cae74c4d57e330d04da49fab09b 0x3527f611c8383bfb0eaa1696277eb38e5e5c449750fe06815f8cc9748dc78afd; P1 0x161324409bc41441897f7d8ddb8b483e78ed6346eec1f6188838df0ebc541ed8 0xb107bebacdb87d3811f95c75bd8150f58e9e891a62f3c5f15c2a2c61d8fc81ba; P1 0xf4d76bf58e6bc9cc3bf8542306ff2de767798952387b8e04751380f9064a2782 0xf908fe56e5b75e864d54666d9af0940d85a88666738824f1502be7121b67ac26; P1 0x1e484fe2dbe803b88397072b1b1e521c731aee2daaf68f9f4c1b43eb474cc2ecd 0x4bb2e6c9c750ec077f7087d3f2223917d5d94bdb0def67f2d33f54eba008bb6b; P0 0x1662504011d418449ae9f563f4e730c28d91ed28ed000a2a412c4bd9ce7d1ed1 0x47a2bbca992200ee9220640102e41bdd8562334e7ff2bb6cf0177526ee078998; P0 0x140bab9cab27f337ccbadbad99b6cae794a42bd6ba5b55920e1e17340aae3c37 0x31f6fe36b0c58544ea86a14f40075e0994c9c73f1536a80fd3d443d7732a09d9; P0 0x9c07b9e86f866b6014b59b111f4e2dfa84cdbdd04156f2c9dbe07212381c4b8 0xec2d947de8dfc1cc8f51b4dace2f0cf75f93677084896af5cb86245c00ef23b9; P0 0xd9e411e689a65110f05961a7cf89c4d1187b777a6658f7fafcbfdcffb97172bb 0xdbb33069af626a08c8f26c47c29d18943ac48bae52b6f2515de0ce1f339ec786; P0 0xbc8c12424b9184b31dc33414225ceb52b182ab6156935248f89e73f2bf229869 0x1155b6b50c12cde0a67a7470c422720bfcedb54e5a16107c4b328905825533eb; P0 0x12c7ef6e366f0003f6992e1d86ee724130a27f4f06e6cfca0535d3004abffff 0xf045559b02f627406bdc89481e413b8d36355af022a2d00c216a71a4d68c9f0a; P0 0xe182134ac93f8367e6e22b55def8d73d4c1cc7ee7fb96ae1e3a45a53f444e635 0x5c67d225b3485dd3c5e1bc71c1071d0c12bf3f3c9243b5168486b9a99c2bec9f; P0 0x215ac926010ef081a0c079fba29f9d1c716ceb62f4e02ae7ce53cde404d44ff8 0x7113c32d9bc0c9f68eeff7bfc328e95fa51b54a1c513e59e04a873ddc7b6549; P0 0x31f273d5030648264a1488d74ddcab66c2c08146d71c971629c7e3f76714ed 0x645ba4e2a70b3a0a72542f7a6c7ed2911d31aeec4b56db5e99055f6662edced4; P0 0x2757b99fdd2e6fa4e1c5461bcf1421b52c86ff7c75aef46b4a0e5f57baa4cf1c 0x9f3f58477fcae6fd9ae9137b820bb360b49880e5d5ab61a07efccaa363b94bb4; P0 0x630fbf55c56febf5bac55eb81ab01bfeb9005fcf0c4eb2d09bf92d02700f9fd6 0xd3b7c303a67fc88164651ff7eea6bd0d2c8a260c56555b23bb72025e89bd75da; P0 0xaf186f611755ae4a5b7743fa70b1492778063c09ff3a6912e29dac056adce1e4 0xfc305611e38b4aa323b17b333b90ab81552680fcd564bf8490cf39ba066f9080; P0 0xf86f3294940ec7e25ff83a364cf59edff42bf35c9452fe32e1f6890e5b2f3919 0xf5971b07c5593aa57ffc6a8240af6012db4008353ebaaf81998364242b39217; P0 0xeb9a92eeb15cd04ef15aee6bff384a14631fe735e108d37c3290ca8ace76f8 0xf29ca17388db8ecbfc5259f28f5a131312360a41ba007ea7bb78441b971ac199; P0 0xe5ec81147f4cecebb31084ee0e48a5031879edb42510d2257751a2fd5e2af746 0xea3fdd424b2d533dc5044d7feca899ac35cc0b8ca79139800fcb2b9ada14b24b; P0 0xd658d06cada433ded709620dbf3f9c3f2f53fc2e359084761218c4eb32526ab1 0xeefead28909be0839f912d5e86be934f98a9fd3f7c255836592d8dd7bff20af8; P0 0xdf1e87545d9f2bf9f03b03612936aae57d6a28b33788f322254078feaf856419 0x2cde29047e986d40e0edf9de4938cb5450979fcc901a6295f473d1c2ab010757; P0 0x7dd1ee4bdbf85718616e98f999897759dd8fbad5442a19ac7b34b5baff180ce 0xc643a58afc1cf819b480cae471840e2041b0e445403a90c3bb2587ef1e325863; P0 0x998cb5f3a955f156cfca9ac52b746ef2d5f9e84031944a62bd4005e43eab47a6 0x4d1136698f3fde54c5e417c88d4f9e8978d643fb6c3686bf990b50a126718cc3; P0 0x17335be3dcf58214106834227420d6417f6f1d9a626cef5c327a39e918a819b6 0x76f14b7df85e0c10d5b09c34768f3cf96390588d4ac8a6e460acb7df43426bf3; P0 0x3743550791aab6bd2ef887cfba551129581f2965744ce27b1c3386425f20a932 0x185a1104027531da5a335e5cf8630254a72bd661621589784cd9a24490b145d7; P0 0x25102e0baba3f045b28e32f1137b75041306254254866740b95daf814fad79a 0x679c4eb2fa31d49a0e2abcdd97642cc23affe1c95572a44694af0c13a94620d7; P0 0x29ef26c43195ba2a5a2d1f445c349905655220a0ca94e305c16d64f220888f6d 0x5be4d20f71cfa373c1cba698367edab8cca7f4afe265ba2ab7120e930cb35214; P0 0x20fc79ddf3c6299475d9b32039c7d7ca190a8a0954d2d39f4a5c1c7314629b80 0xe20b3371f2f6c0e187bbcfc7649a3953bb2cbbd77d62480d159b53b5ec1c1e10; P0 0xc797c7536eb4ee9c236e01f8ed75ea03ea320c4a4cd97b080591136780bd2525 0xb4423669d5fb560500907667a94956892dd4fc69fb381066188c52093b81a74b; P0 0x7eed2da56df9c63b95bee9d28163485726ef7107c53607556222f6af5d887be2 0x4229ba673a3723359479df02abf533cd66f5a3cba5032564960bb30ce66c1377; P0 0x11198aea87e8c8f3634cdcc2aa2fa451a77523a271cd290b0c9c52e413894394 0xdb717943fcf284434c7909d68a8a041c2e8a68bdfcaa60ac16cec2026a741b7d; P0 0xbc1b57c75658eb56246560e5d34334759f842f86176f39a5b991be2f49a3d57a 0xd3f20ecfe8ae5547c08ec345da94deed11c8cf9e3acdab3580c56fd1cf5c6d6f; P0 0xaf78e94b6af799c56d5048ab73ec04b17a18bd9e42bccdc40eba21256ee24597 0xe4839eb119b1eda60f8e29c50e90eb99cc8075a8eddcc85b64cd25480183de5a; P0 0xcbfab6580d5f07fc71054e740eb27e2f9404f01f118110d6532b5202b1d06dac 0x174edd109915d485e4a7450c4f46c84d11906fded1e39c81b72d47d4e8eba838; P0 0x21f440472a422e530671aa103575dfc517788bedd2cd03842c7b9851aaf2999 0x8ae6d04fa5a8c77f435e759a9c1938ccab044b160c12e2dd0758b7f950bf45d7; P0 0x4b5da8b12296d1067214fb50e458f582fe7572c432e9bc1a4b6f6d1afcfa4641 0xbf1e484ccba7fa53047a96eca161d2e9bb15336a0cd7aeef04a933804b64fb00; P1 0x11d5c66f059fbbfec6a059eeca853eac9b075528782139e4d461aa4a08b598990 0x37f213a9fe0a2503678522b238b261143ae2d0e33158efeb257174b4214ba970; P1 0x1873d2b88c927a1123eb840129e9c5c0123d2a610ca4cf2858c5b9ff52525cf7 0x55c2f9594cae24414488a6b4eebcb4093416ff1fabe498eac9d4b7dd248604d9; P1 0x39761c288fbb80cf404ab1a765ceb1b9093023107739d7fea095146740ae561e 0x978ae1889000ff68e033de64b3b0200f26601d47e90bbc12c56a386eb7516a64; P1 0xb36a42cec305cb8660c70b057d03c43c4cd6805b80a04f339d1523973db1d330 0xc673add9fef562aba6e89a251c2303d545071be24612de5db80e6b11caa42bf0; P1 0x133ae4a66f04c4d09d7ffccaea25b2c4431bfe6362e431d21163496ec1ca1e072 0x42dfd17ada4ddfad1568c1a730f1be07ddb33936d36ff455ea459237ad5683ee; P1 0x22f0576412f4f435b4644aa9ea96e5989e29385ce2a60aa89f03a0bb0ad7425a 0x66f13cb2a0b13a9ca4195f506b100e8ca77fd829639bc82e1abd211e5c49e20e; P1 0x52ca3f63b052401b96844596f9df3a07b49f47bf3909694524c3478e2c0e09f0 0x1b5abf4e8012768ceeda13f79350676b353fb2d2e516e5e4efae9ab977809c98; P1 0x5d8890b4830e3611dbe41c7ec5d6d4c0bd5f8acb383d278baadd80772c112af 0xbc49f5791e7500aa35fcb82efe35a9237f75be08660767ab7ccf026db1c0021; P1 0x114f96bd0b359f66be21c97a3d2745ff1afe766e6621574aac55566f221919c 0x3f09050eab8b5a44dbe3137683b2372504e9a0f1c1583a06225ba50ea4716a26; P1 0x1f0ae19d462b5526f0b2f3c530c0599e912c0a5483355f097f8756c15d48b1b8 0xf689fb0c6b5c12514b96a60d8f9ec5ff3d0df5e214454b6d5e834fa743472810; P1 0x1dadaf1b6ea7d5f765359bf0a3f460160855593defffd6bd44a9a04c34cb43c5f 0xab189a31eb1ac40409d889c3d98edf14c4edb60eb0af4516ece9683f0fcc2cf1; P1 0xe4b3c0b8d1579fac5072385ea9161fdef35253f4f403c3110826d3191936754b 0xd0763df75e410bfe2980c386d6f95792253f59b85f1845f915042582c2c78207; P1 0x15380b69fa3e9896a7bc806cbf6ab44c51aefa910774c63d357be7f37b1dca21d 0x4685c0986f693509728951ea985c5744867f6d63f226cd47b0e7221ea265bc35; P1 0x26dad66a3f4772d33f47efe14a2c598ec27849eab152462bd21406587092785e 0x1e1d0bdaffb41de2740152d94f43f55d3613a0e03b513d8910d6517c62481a34; P1 0x715a4260f470a69aaa7f184bbd5f1c522a1fccc397f0faf2d56e46c278278c5 0xecaf7f6234cd4e8728e1b7826b72e8a907f32c20ff612823b8718fee23f185cb; P1 0x1b5a8165aa7aab56e6a534a2883998a6fbb0456c836df47f7feee14af7cd56c4e 0x35f2df0d1d401180383ee856d3ae0b935e240f92c42b37fc14fe16fa5dec9344; P1 0x16bced8be13c498f5a959c502364e93908a416988c2992331f688fdab66596f0 0x449242fb794b452231ac3d9f97eb5d336f31e9e6d0de74d1f203b0908068e230; P1 0x24bc0e4c4655fe99f1d123000f58cbf60d485228136a2d304c1c7c224ada9b50 0x630e90a12bb8d9c7eaf5a7e55b79f5830e3e90cb12fe54ff9a25d4990623ddb0; P1 0x4ca88961e2f778026f733cedbf107a2456e1e6db03c1731867fcded537eb8b64 0x2887b10c421c3ee60c940bce254dab8ca7cf5892f4fbf902bfa805f427da235c; P1 0xcd55e8020e661672e953f9578c515a44180a367cb25acb15773015f77e259af 0xb643f01c450ca0bdb6a5df194fae874f2f90714f34f724633b0aeb14f2e2e6c1; P1 0x1038956e087e79260ffee820f64a7a67d0989e85c715b2964c2a913843cfa2c87 0x4fd5bd38778a88b0fa793da01d3f72aaa1b31138c0963f66267dec88b1ba214b; P1 0x31cb3a7abd00ee3211eb61eba7476bddca2950377860efbcd3a447b6a5a39e62 0x7fcb54b50066a3f74d2498e76a375be6b0d2cae8e8e6d38033bc92ee701190f0; P1 0x7f96bf16928e427ebdf171dcb88ac3cd3dcef0602289f60caa6954cb6a0a82d5 0x6b661a8c9364e9631f652c9cb90ebafbe4e8de93394d6ea3a9536f98cd42939b; P1 0x5a1d05d5b6165b1f1fb96a5250c87ce9d594df52c8b1d2d4bbfd0becab210dc6 0xac492b4b6bc54f5a4ca6526a0a5122ca9f1789f5da30b0c5ab85698c3609c60c; P1 0xe7e4ce2f0a32d9588a93307f7aa1b4763f243dcc04c9f28d41df66f8f2ca4d87 0x93ceb13763261c58490babef57a2f72d0e66c29d61e0dd0c292c4b623db11669; P1 0xaaae0ccf420bfec183416381e21bc2d3abf69341c4e1a078d8edb780fc81e582 0x89b0c253941eccfba7676eb06bc4631d47a8f89edb8bbc95beb06229adc50600; P1 0x941d54130a0c2720fd0883adf1d92d105a0035795f214ef4226fa9b0058abe22 0xc43be0fd4f6498df3caaa22a7e8040149c1ebf0be3eae9ce2830d868aac0ed3e; P1 0x12cd77d0be4f94d1f71b070975baf70e3f43b22228aa51db42acd2cc3d7ddf895 0x7145052b6f0df16c3de4b7f31e28f8b36cf0aed179a352df12d4f717f1ef85e3; P1 0x643c0258a759cf0dbdad35e0aa6a0de846068d4fbe5f22248a4ce10e97e57d37 0x32fd7d39c6c1f6ca8473341f770f8459671478cef032236f548ba5b388c4bd2b; P1 0x144fffd6ba8031af85a25a7905405446d37362a5e3137505390430e77f356842 0x144a5c18d34d97d5d51004f0c392f7bcb86f2cca915eea86a0e867b589c38390; P1 0x33767fa8437adb50701f3e0bf37586bbe350a6c52b31ae012a91d0e2bd7c17b 0x531499c9c6f27d6e3403b8cdbcf1e3937eae636a742a5e672f8a4196ad2d6315; P1 0x35ecbac2abc2fee44e60bada29f886d006d06330ca2083df4b68aca93a81547e 0x7021b32e05c63a94413836e18075829f2006a4f5488ed2a592bed378d29a8d94; P1 0x623b02704ae3abdc21d01afbc877a6afdceebb4298e9c908ae79e7da780ee918 0x2238294366bec9aa9bf574e23b744c4b40b076f002e2e0b6321fa1c900088288; P1 0x925ee90000281f32a65088dfc8c8803c2e0e3e229a80f33d8c4690b06bbdc36 0xa83e5027b01e4a710b5ed46fe77399db420b6cabd2a9e62cce9a3ae33cf6556a; P1 0xdd23b0bee41779f30425b9b312e876c17847ef264fc2b9c8c00bc592435fba23 0x6bca6890bab52d1e208e65c6cfc3d3c4558d216c1b53d3fb1e58315251b52bb5; P1 0x5ac5a6e4b125ad34ad32de2b78698a86431eca2b2dc2389049266b2b347235f2 0x13b9fbb5c8524edd515af65340efd4daed61d3b05bd000bb4fa42dbd904b9060; P1 0x30a44f582f5b217bb66098ea6121e2d3375fbfa037560a86e987d87e612f1c1 0x1316bc271b5f560aaee181644e93b4b8805b047a905e1382ca509323d0c5e4ef; P1 0x2d8c3e560fd6690de6e0221303a0d24a706e56d3f74ace7a45288b125e80a3b 0x529e019cc3f6553b4552c4dc980545630776cddea29772c1444a5786a6a97; P1 0x3553351d0b6fcd81df08dc442795e237f0e6a05ab6cf1be0f87635d109 0xcc40377e8f899827beab5728a6ab63eae1c72951332a51a04a0fd28622225949; P1 0x145ecd11c4612302f4e41ea379c4ca9e04c29b374e0c4195f7819d211ea660c3d 0xb06c291d57659241d13d9fea434e7533fc5394412ba8c2aa09d43135c369fd55; P1 0xf329cc7712396cc8d4ef035d10e9b85d3a998616c9c4b3fec0d4cac4bcbd302a 0x66a3e395afb8e0ec507131e1b08ba5e7a7cae0c952d798376d64b21888c5ed28; P1 0x524e048e183dd033096f78fad06c142379aeced454935e84c63c35ddd24fb389 0xb1fa8122058eafcb2e7fcf29e1ad37822eef9eafecbd37f85cbfed0e5c609127; P1 0xf778b763fe03a72e3332be70724227f659785b35910e8028037a98c07732dcda 0x8128d91f5d8ac4a64486504494f634b28d2de68aeffdd805f9b794a45dc904e8; P1 0x825462acdec6eea07cd356c36e96269ccd3bc4ee8ee01aee4659d9fd1d0ea955 0xedb2434ab0606e330823659ee48eee475ddaf24b765f5828c1f9cb4410d4479b; P1 0x1b967197599a719f52e38067b15fb124df678a64d6bc724a8e1bb2db6b2fae4ef 0xa3deb92e7e9735f916e85f2ffcf1a2c5affca6e7b1c6244f51c608776898b513; P1 0xd1cac32ea16373f7ffdd2f65c2df612cfe553d9b14e1206749aad93b3514c1f3 0x6cc3998d92f587d6780683b5f304f399e6caef20c7d432256fd9f341ecb541ef; P1 0x5c6b3e05d7fa6742adf5cba502a77a4e63a30fe7ffe2350c953343262d5fec2b 0x3bb0b16f571511cceaacda8acb2424fc6ee18a6a3bcd4defad0f2bbe08c589a7; P1 0x1bd5d77ba8430b84f14e28f1b2eba5a37f4277d4a289f8402cfa593805ad002d 0xc394b2617aa14961e78e98610905205708a80ccc64711f49bb8c481dffe9c6a5; P1 0x12ad7bc3fa67e241b619c1d68b4af940b10e1a6876ce5cafcee7d2dc7a3e5000f 0x79a44a65cfe02d4607e29a5cfd9a163d73a8bdd461499912a5cebb5d12b71cf3; P1 0x73996f87c0bffcea4b3c349562f46cc7c19ec815e2639600392206ad72981971 0x83776fb26f9729c1692db50b22f011d2f171d3c19cff8d7b15f4f144d4dfbb91; P1 0x8706e813d4b040e5beb2eba927b856a9448fb963235497de7b412aafaae3e0e7 0xa96c26580c591716a4c762060028f65b8ecf3b90c89ff226c5d4f0979125c42b; P1 0xe03ff0a220ec8bd5e3674dd057ee38db49c6c6a47f9deefb977c1972c19724ed 0x69029f89b98bfca6e8d5051e3645a1b052d5c3eca253f57f99ee6a5954afce75; P1 0x56264dcc0db681d57713b63dea4aa73ad0a5d1f873c78e02286a472df7927442 0x9b9adcff4655f7676f50f2203945ffe22f0c8081bb8daf05debd52b9f742b010; P1 0xbd29ca983f52bb833c446533015664a30a543595141cc9ce13f47351f687531f 0x370fe08e6fba036651df64e0b6e805cc3dacb693fc40b16e764f9b4609da3a31; P1 0x17afa6f2ab08d7029fd3b0e796d3f1d7d89bad521944d63d44010dcdba8dad7b 0x1e1185753d2116c1e7b85aef443d7ecc31f8f6fef2ff6446aa323b0189e4cfd7; P1 0x71038f4fa0206d4840be7bd24774b074ef62947816a70e1598f4c1ca3bb6b27 0x4dc145480c0acf85e25ca0266166915303039eab9aff64630c58d80d428c42cb; P1 0x2f3bab2df07cd2fdda5f0e4e677d3854a69092b58bb0aa69c641855b5f165860 0xd454d17ca66bd9ef93c29776a52de164cb7b2117e17cad48aa80bc598f2c392; P1 0x160392e2291f2667452a8744c86179193589e786fadaaf0d516e060ceb88123 0x56ab7b0a3aaf6dc32f5e184f44ebbcebf4b2ff877a5dc9bfd6466acef34b9375; P1 0x3aaf53112f2584e2eee36354d85550a498d76ae789ca589176921275b96ead1d 0x269ffa7dfe05e95c67b7bd291e9728a8594fcc3307009bd67385f3db89ba2fc5; P1 0xba7c4ad15b30236dc6e3661111f0509b683cbc1ad4f85ca02c0a6d3b8738d83 0x8fc6d642a567a1d30bf9b77acb6096aa3aec175ce8ce1e8ad5a7fd47dcaf25bf; P1 0xa17f7b9dcfe9bd934fcf5746305bc4dbc47fedf9488b2f87d22b7832439c2f81 0x9dbb143ee63afa0b46668342935cf956792725e1e14035d5db34f3b57f39dc31; P1 0xc25dff183a2327a8cecc24c8b0afdb9975aea5ce8d18a293ece5ce84265fbcf3 0x3a726f1d7d5928879bf5faaaa0dff7d7a0b16d26163574819f413d2591d99adf; P1 0x1ab01b0121455abe06ebea42979c3c321dc873e4d39ace8783f42f571f8a9a72 0x1bf43c436d364a47a9a5038922e186dc08c36169f3ca2d979f556971e3ac470; P1 0x61adb72559d7bab53f2826d84709d438a4d9e128890918f80e3d99669987f 0x2cd05d00559907f10dd525ea8a20ef87db7e70e05b9baf16a9753188db66c6d1; P1 0xfb0931ecf327650e1399f996979d51bd54bb9dedb7df343eec3ff5819ab3f58 0x5585b5257459c9acd58f83b1ff8933033370026cc732839c82290c1f3f892a6a; P0 0x1c921020b4ee915ab9c7e60235cb23106dedfb7a31f63c2b4fae58efa8b8e66b 0xcd658199e321cad13246449b8ea50ff4a62970932b7f4185fedfed6b0d4b9509; P1 0x1499773a13f33096cc9686a2dba6d87e6f867457e034da7484d096245685a7f7b 0xf99ba2d66840efd1124afa76a26f4214a2a71476d9a3512ab634cc35ae72d7b7; P1 0x1e6c042c942c9841ee2a2056a0bf0c379bc593a6c6387b5f62971fdde3c7fc39a 0x54b0f41b9bc81c8ec25f2d9a952bff6bb583d8dbec8ea8fe686d3a575941a3e8; P1 0x3809350591f588aea483f48940b3fa28104cd69383e7d33bb39aa66cd32403f9 0x5f00d1798fddf02c7199b9b5a1138729ae59275ad42cefa5e6da7e7c413f45b7; P1 0x468336f20ee014b7269ba9e3e5df4a6d10dda1a142f5a83e96ece072e576dbce 0x1d1032bf0b842a003260d792a5f9a249d8994f15c44428e1495d41ae1111ff74; P0 0x34cac85add93da0c6202ddda0598acbc76e4734beecb352e8c445a5e8da2c14 0x5ecf544823d26d9b686032b3b4fe3ae807a89b93a307bd14647f8bd0632d763c; P0 0x231ce9ce85d4cc7008002e49d1867d05edcb1b3ba8926fa75fb6b8d66ad468df 0xf93780cedd1e99547e4a3f4c89d5b922b101e068fd31c0f79abf2b5e9d18f481; P1 0x1e53a0937ecea249cf2c7b6cc8cdc273efb25c7226af6fdc9889def75dbd6e1ce 0xae9fb8a9b3d3afb599f0d97899a36f48eaab5aead42c239cf4704953f2219d4; P1 0xee3b055c1f2612f7e365d2dd05437d869b3ac23a233fe9b51136ef790f8206 0x6d99422ca859fec56bc285e0501660284146ae72701075932f7ba444b1d12d3a; P1 0x5dd7bc34c18996731935fe2f9c9e83e63cee0457031bdf02ccbff7d74eba4797 0xdbb66b6d1f155d486ff3bb89b1feae8bfa07d2a2fb34cb916489c41900b46881; P0 0xbc919dca5bfcc44389e7838a7b8d7d55a6b0bf778535439bea9b6d4e41c1a299 0x3ba226eb1f5266ce5aa34bc4031424ad35435ae5543a2317aac18f2ed8218198; P0 0xde424a5b5d26991de8351b347ea14d57244406169275e7a7d060e77beaa5fbe 0x9c35271959340cb4798cb61909e3cd282e55bac82a031a68ba8423232891c922; P1 0xbea1a560f4ffdad37257413cd90a83bf944c765f704d8cb17fe1cb1a88bbb854 0xf8dbcc5d643870019c3e6bdb2ea0ccde906ffcf9f26ea77d2ba49f7ccf8f5a74; P1 0x1e3d5315a5e0cc815d2ac4a88c55e9a467e8f4c02480e081641cc949f43607261 0x6af4685a1131e7f74456ce001a6da05398d0ab3850031bedccb97854918c536f; P0 0x2caf4fc1d926b8a545213ce03c647845fd4ad9da8364be11f4ee58f1e15d0a44 0x1177e5d729888a14b0a1c32b6baed03fc45a48e08f7184b84816cd8e7161169d; P1 0x262495c223112347f6e1d163a6a4f64a31e0ef8b701049c2b3bd95d6ddfb22b 0x16552e0c72f3405f194ff31cbada10bc9fcc27a50acda7a6a26cdafe2aca21f7; P1 0x3e580838482bd8a7ab9dbbddcde5dd4023bfb630365d1f007059995148a44f4 0x86fb8111ca58ba34b6c54f8aecb3bf1c027c7566663d977fa4aa0f60fe88236e; P1 0x8e58846a81edbc966fc324287b3e91e6535f85da82434285c1c415f433371eba 0x45c38f1940868918ad9de4daf4e53ba3f7d5876bb1d92db314586f38bdbeebae; P1 0x2606010e008217ee1c4316c260112e24cb4a72c46bcccdd8c812e089ed93042f 0x2c94b3cc0998f08c6a9f1d5e264defd2fd95d9149d02c5cb5f091871e935b6a9; P1 0xf86e85d1a842f803200eda16d669a5e38e708724ac04463f1294bd0698a484a 0xb985220e6b80d2e40a322e0f6d57c1412cc8c5011e86d790c92d4e045ecbe5b8; P0 0x8671b075c5556a7c1dd36d812492a8cae18d4c5883178dbf1b7a7b27f3089f99 0xc01b51676339eb77569cfa134df4d63bf9343f0421e49d8f27dfc9b2c6fc17d7; P1 0x12051fa0bd562c5f75b65f47f02961231d75c074acd7b6be1aecd22f0e16c0ae7 0x72cb41d876f9bf7764f8965f6d770c57d15ecfa83d729c97a20f74d97ee8d70b; P0 0x3379a8067bac6a1615733523c9019a072dd23787af9cf7a1e4db7bcd81f925a1 0x935210cc9133df3921febca13570c279d0d03d45b09a00191e389de6210b4d88; P1 0xa98eb3340f604d9d12f7ab6bdbd9ca7debc252ef07a9c417601a6ad08aecd995 0xe97c9bcb8c670a2a81e70fc1f525f519b7b05e5c14ec3056724bd0f8a153cf5b; P0 0xd4f41040a687c26fc9f29a04f5c7e35a271a9d8a9035ac6fc3035f0a6494c032 0x80d089a04cc16fac9cfb1916a603631d22afd12445c113194fa2721b4c84087; P1 0x81a26700f818a812c6162bd2b974e5077258c0f0610de3d7fe90e38afa7fa6 0x8bb1050ec3c8eb7a6e139731ebb3e56ec48ad8f1a44dd4978a7230f983802cdc; P0 0x4c39b5e6535a35f272de3b718225a3aadb2ae3cb3883dc2c83d54ab6c719bb2d 0x1d68a630e82f67b009d8c4d615b9ee13a5d122b8a12fa54dc2fa7624a643a2d3; P1 0x6c1c0dd173775cc10a6355e15407d2ce80718cc04d96369033bab106caaf9bd 0x54a2c4983e324514f9a51a39fd3fcaaa5485dd81ffde883f974df9aad3bb1e05; P1 0x37f67102d8e8ce7acee00ed36d178018a48a925c56d357c692ab4718acc9bc1d 0x7db763ca6781750b7b7f382fa7273b34e60030387a32840928b542d81a6aa205; P0 0x3dbc9ad3b9172e4bab0c658282025c6e717ba2274441a69544fc1322b7fb8918 0x2ac62ed2b7b6f6147dd665d0ae11d818685344b182062787a61629c660ff7b81; P1 0xe4b419343e4800950779b69384316069a9cb1173596b6f13223b9c00195840b 0xdeb828ebcc715fdd08d67673dbc2f2d7d8ac6b2270e6d32ef5e32a0c810f87; P1 0x18387d6e923b1f38ac50b5b36a47b98513ed0e8aac355bebbe6f9061d4cc6 0xb6ec3c983381419acbed470e5f2ecd84f7fe1fbdb2cab30e4dc30801da0e49bc; P0 0x82b4c028b2e732630a2b098e083f07f7e6708e308b70836a768aa6c4a9c7dbb5 0x8d0c49902c8187cb1e5a193772cdf63574a0fa54ce4c9f6b2c16c35a97d014cb; P1 0x9b6d134032c9dfdc7e1fc522287bff504b2cdbcad50051bf9f0eb23f6de2d374 0x7dd16c407d5d50a0850e3e30660e110feb61f91b4ddc99e6e81fe71107f0063e; P0 0x3dd62f0927567c28f99d7a639c84990ef10dde8f9ca3231f13ff24497b050e1c 0x6b8c54831b9d5a4aaf73f08f14ea05004b94f2f5fd4ecdf58db849876bef7428; P0 0x2d2e9b925190a66bde02da178b690e1315dcb80567bcc7e4495321909b58ad43 0x49e7d205b6a9a2ab3f69af77c601bb1e4fc4d3d1fb37bda692794f6f9a61c50d; P1 0x2aac0f68143f98d847aedbe538dcfd7b1c2dff594bfae60faf303ce29d451491 0x2ea421ab3d3b403974ea87eef9f17636c27125d1a504fb0d29b5851ab0268e71; P1 0x10fecaa974a9794f87a6a7c7945e820cd57f3c654088c6bfd5416fd4798c333d 0x4ce0e00bee1ccf23498a77cf215208e5b521f9cd130294a2dd39b38e5c401475; P1 0x2e2c95200ad9f2703c657475ed525da36d5a88fdc1347995abe07153655fb61b 0xcc0880fbda3acb1197056336c8e65e95aacaef59c3f7b38715e93a4ebf397567; P0 0xa29d8dda5725b72ae2b62aa43136011473230247f5e2f78de6ee9ba5611b337d 0x4f19885ab57fcd15f33574bc4ef17ca464bff775d162fea9466edf8e9251f3e4; P0 0x1870c4b3fecd99396932d0a86780e5506e7b847922ba704e40aa5c48aa59644f 0xb92080578127c6f1b7292f9bbcea2d371953fbc1a122734b4d607091ee4d7b11; P0 0x85dffd9f54c3642ab72ec3c7e0d7445c5b96c6518ed1331598519758c2195646 0x42bd4a0a5b156207a157e5683f46930e36d8756db7ae7eb561171ca086d4ecfb; P1 0x22cc4c47a2234eac11c2ad3d8eb4fea07a1af7fe3b75ce58cbaae7761f62c0bf 0x2c72fa900f62c3a1547c7a0e11f7d8d723e2a21b7152234e262b074c7c37e4c3; P0 0x7b7b9c5aa8d101989af46aed92ea6c4cb14e75cd3987c1cb2bed7a61a0e6e52 0x41fa2dcdeaf3a9765cd2c8acfeabd45ef87777f74ea1684e0dccdbf549fd2a97; P1 0x2201ff80416353e1e2e8bb65d1594035043baced99e2a7649e68c8b1735875dc 0x8438cf700d74b63a8e41a9df712871a8010ff1c28e1ed5585e9fb9973afdb386; P1 0x8895450e768e90a331ab9d6abed14074092ea6d1c4a36aa6252ecd73d206323e 0xbc70d15ecd72ad1c04529315219592f6b84225f6f330b87f426cb9db4a4e78aa; P1 0x1156bca774d4c0cc8fd19db602ae6f0c9f2377bba1c3f315a4e5f878d4566935b 0x745445f4874cb770432346da6a4e21a45a4baec24823fda9b6caa1eeb7fddafd; P1 0x69b8f64796210c7682b48a35749fc25dfa4ca3bce8f2a2f7186798256f90cef2 0xad697481278f753e23ac6c5ccc3338103bd7eee36760a0500df1a166187b4780; P0 0x7577b2e7cbe7580e6691721e40bc63c45b028cde261bf027021ea46b8315b294 0x4e0b6e4a19140ab16adb147d08d40f831070b49e1464171fb12299796d0f5b2c; P0 0x17caf7b7e8f518f494c2629aff3a64bca8533422378bca9b0b06a8e2a207adda 0xe214075c5d50bba64a8ac52dfda18ea3c1744682a97dd7b76d72afb813c3cb96; P1 0x18f4ebd22061d59d98e9b632b2ad3d32f688dbc69893f83cccd891f1f2c7b46c8 0x12fde9a38c37656d4701c2b386ac90b3c4b94afc5f6907dfc54d67fbf5422a80; P1 0x2d16165473d7c5a5852bb590393522a66ce8c941392b6c4a8842aa3739bd75b 0xe0f602d6f7a9039ae30ed06b8b53f33d62af295667ddc662ef0bdf40eb7c3535; P1 0x18b5ee2c4d88681ca87a447842d962542651efc9371a26fd887d6377911fb7dd4 0x4e2f49321bde760f7197fc580df33103ecd14c504eb1fe9f398c3937660f85de; P1 0x2fc1b2ad2c6085560ceeafe4132d028cd92dfbd878d9cb35ef9b060ae9a148fc 0x5b5c6bf71557a717df24b88846be293be51935b293ba849ad985c09c3700554c; P0 0x209ad61f90e6f83bf8b283b8210d702d6e56173d3428bc74a7de4f8c916eacb8 0x500157286b2c7653c504e1adb89df7b4735622d1c8ba30aea8a75985d6485058; P1 0x3201acf64ff3ec0473e7a6ae6ba38d0add0dd789ed849f90cfa7172c54a75361 0x229c8ad6901e8f08e6cbf8ecee9514f328dd3f3d2ec2760af3f962d322ecd5cf; P0 0x4adf49a83c1bf0d65aa616ed11520fb2889865923685463d136b9a50462d3a3 0x2bfb3ae5f1c30e5e49a3331481349aa6fe224f926e2ceb1283972234ec5597ce; P0 0x78e5c55d33af7be73191851c9b1be7e22b9fb01e9be8023ea0d4f35c5f409f4 0x90c2f86f9d693529c99cdc8917e0a368b3e83c4ed21ad22596dba07e07cd3f90; P0 0x51dbebfb5d354ce45a86b21021e348197965df19c7bc91198b36fb86f59fbb8c 0x518e6b7b28b6807604ef2a7648ea47a98114057cf3306149072c8719979e9db4; P0 0x19fb6f3f7380464940cd4d0437cbd746b892f92c8b71d9c7299e9315ae2f2b65 0xb1a8268a9f19af6331dea3695ec9fe66ccaf08c28df453e78cba19f14114f29b; P1 0xf693e77d8e13788e67151dced3ce28bab72e8a6ff0b8f54bda18d27ea50d27e6 0xf84907d7508f2d68290f4af65baab1bd2817fa602ec790a93ed1fde91262f5ec; P0 0xf0cd940795ec69289867a4bfbe74d4e10b0b40c014225d001bbbb0d4d40c1401 0x6f98a66ac13f5779b7d51bda654db0d22e6ac77ca45e294e843da352d5d4183f; P0 0x30a5bb56cf2ec38ccc450034c3ddf8320e79f8a532fc4b87ec590a102afd690b 0xdc3ab504a9c7d88197d962a1c2b671dcba05658ba81ba261f34e815c53060c06; P1 0x17ae9e92e8ec1eedb7143df01711945c0c0606e6531a5bc1532f4ae0035182d1c 0x92be501612fd6daaf60f17047ec34f9442750c752b8be34bb60786ca9cb1ce6c; P1 0xa83b41a8f7315fbf36d7aa584320b580cc74d52033c14fe35fda0d5f0c9bf0d8 0x72501c51e57877904f61737f6943ec586733b21bbde197e00aa0b60d24e58ec8; P1 0x6616e495b37858ee8b5236743ec8d90218b741d742984fe58f10f35e2c68bdeb 0xfcc58c21baf7687788878250835b759be82ea6e09e3c6a8065923de00c6cea25; P1 0x1f32b08a8b496876ba8218f18d2e63856edfc315ebdfc32977477f766f81dac19 0xbe0e77e9e3a09a1174cff8e06eb5f6f4ad86de0741cd79cc12dc16cec5d141c9; P0 0x8d197ad110bc0c62baeaf219eab8a4b8492ea425575008f5260efc1ff144b94c 0xef2b5ab6d0287e20e969194f1c77e8a27e254a8d97ef6de5ff296a3b172f12c5; P0 0xdf71fab9d1ac90bde09f8adb31a22f3cfec0c7c5b5d026adc33cb0a4222c0da0 0x9e2c1c593a7b70cc4964988acb8f9ab3bd9588799c7a469758d6844358eddbf9; P1 0xc374f5308f75304f1d5d9a547506bacaa2c8a39ed74dc271c45fe19e5267e8f1 0x8471cb107eb61363ef7957588800bd9b3712cfc88442911e34148405075d6721; P1 0x890b17fc59a8ad7ddb6ff9a2f893782d6777bfef57544ac538f6e67d25050bf0 0x5917dab370ba52919cf733ab242f9bb525bd2fc74e48330ec0c8e17d7be8ad92; P1 0x3e033093d4ef01e4172e0ba4dc99b4ecd63ef887e11b185212cd508e45a1c87d 0xaa3f0a5a6bb3fda455cb3ad863a19d5c7d33b83e38c58a961b8e50f8b61bcdfb; P0 0x7137c946a12f0915407a86d13c738cabfab9fd71543bd9045059001ddbd37c6a 0x721256a64654438414f25336776e3eb8382b20b763b379b476740a6868ca448f; P1 0x65a8acf92c5ad36ed514aae341022b39e91cec52b0634a9679490e6cad593b94 0xc7596fc70d2f6b72a3b78cf12bf37343bebd8432d60fcda955eb9ba86efc51ee; P1 0x13678560df5e28e7fdf0d3dbbc004e21dd48c669b99ba16a6ba3d06e82a6717ce 0xeea4ee7fa44591f229a2c41f2b06bbcafacbc128359e6a6b8d4be1f48fd7a45a; P1 0x1bcee2b714b48fe9d995760c3386d2e221d6667898fd91312d35f8b342fdd81fa 0x7663616b2e977915d3fdabb33b25802de48b87456936b811d850552684d19d2e; P0 0x36bfc46383abd759d8186f7bb6f3272a760a9224dbe30a2fa8c11ef72b2786ca 0xe0c69a7ed240b0d002e535317d0bfdc64004598a4cc77cb2215563e41f829c5a; P0 0xc55c28720eb76db849475f97e2726e907841800244147bccc064fda74f2a2b17 0x22160a4e3540effc5627145d6e398ac6f11bdd46e886fa06b266a348846eda5d; P1 0x913b9452114ef30c74f66da19571f612d5233a9e5a265bc2d0901f3eea8e78c 0x27992c454f758d2e8c020d314f71cf8870b6d7a12855c26cbdd227fc4c508c46; P1 0xc400e462dad717caf2514d29cae2313d8e1c5310b8c9234b4980f804f8a499b 0x3172a5d09d85a5d76e73732cd41e370b4164befffdb21ae89baa6965dee3953d; P1 0x131a2da3fe1a40c98712004194e22dca66a3adaa383cfe8467cc39ff78505a9b 0x41e716beb2256c5ce578d93d1d0aa7db4d8761e32f5e77565685bca14de60f07; P0 0x10f72a26f598ff62faf435242ef2e649f026e730cc18c6c553b9ae685267a3fa 0x7a66e80cc241c9ef8b2da0a2a335950b5bcd91e22d469956cb68b4b9a849ce17; P0 0x3a863e8a202ee02928c7e8c5070fddc2d46675a4cd149401ead8c9b36b8ccf0c 0xecd91d0288ba8164b85e87a9a101c8e079e6cfb9fb5b0d527e0cd6571be8c745; P1 0x1b6420b3f719c86c1373b41ae723659dac1634afb486b859b982f943c78a1006b 0x2b1928feb36f4383e4a60011d17ac6b0f8c5f0a6fc9b977e517deedcbef71857; P0 0x741763e9fd878236ad1684a742f876307ac7cfd02f6a29820cd62e9e78402d8 0x4b2fc072c637734fc38b6cc8b938dc247f3ac81167376db0c85a23270f7c4f39; P1 0x2c2a075722154cc1bd4e98c493c8ce655f7ee8bbbe36eb1e1c279a2bd6914907 0xc3f85a6e0e88d259403fb2f7ea959e7fe28d9a8eec649c65e45814c5063d572b; P0 0x96044ab3955675c7366e77260014587f2b032a55c20de7a348258f5d86df89d1 0xd6fe37bbc1a3f672f0e62cada03f6f082f736b8ca82533d05f055f62a8b37118; P1 0x1691c0342820533dd5e670b9891ef8de752a6ffdaa107528c3c5932b29a8a5584 0x9ad8dfa0531d73ac34d15d9ead29c5fad3b2f618b62c885d3e6b109fccdf41bc; P1 0xbb53498ec71c15b56eb84760247fddf78a3f8a8a0b3065077bf05855337e4973 0xb00cf2373055b539566655c8e6195bed4e04cefe3045e1303518914e45c627bd; P0 0x7911cdb3f5e0923329901aaf6dd489c2b7f384661bfdda23dda9c1c9b0faea44 0xb98590a3ddadd9b987fbcf92093193212fe335c89acb2869ad26a56894fb2e05; P0 0x867250bcf8d4ae5673fd36790114f8526a00cf30d8610ff8080d174a1435a5bf 0x840ab99ae56433689555dd09e1e33d9af311ab927a42157801335b7cb48bfaa; P0 0x441b0fdb07558df63dce219dc029e810a43669961734d0fb62383252a4a9ca 0x20156988ae35e0779858fc2bdd011dbd3bed36ab77d449b6d547b3ed875d31fa; P0 0x4055c2cab80d103231e94fef4e7c59e7fbaf7f820dbc22456842d970684fe59 0x4a8094c021ba7ae1a538f8f962b0033ef63ec65edab7d6ff09a9e78cc42350fb; P1 0x2b5d2d287f7dae9772f27d4e99f2918e0c635aa29b1117c2f457edb6f8cb6cfd 0x15a880083813bd1d4805c46f840a889aaa82836fa61e0492cd0df246db8a9f25; P0 0x1d513e9a5da232ff2e6472f1d6e6dbc7b301fd59ca66a47e7118800e0d4707b 0x23456007638266ee20599a3438d603b8892b2ed812ea9942263beeb8d9c89d6e; P1 0x9b8161de425c4afd6de3e2473b78c49ef7e5e4e5e18d4aa9837f8785bd36ab5 0x19e1552435328b8b93ffe3d51e981e80ab9a8868f136b769e863ca24a5104a43; P1 0x53b91efb5f07709f118f84ec29ff6b7e9e91daa648756d53bb2ad1a789e0944 0x99df9f8d49245e854140045c0369df6f54e9053fe5583ee6c850c2a3f131d88e; P1 0xb8fa201d33018a760b12a1a83be244fcc4e6f9cbcbd3936499c4540ab390c30c 0xaaa35f67a9adbec60ccedb862bfcb10b9a74f870feeaa700e5ee651df8756abc; P1 0xe37ac5f18150a3026bfeac5dd983bfbcb63e6a60c57d84d717e628801e1aaa37 0x2f375ec42cc618aa33e8e8bae74db7c2b5de27b3da557d3db2edda0ea061a5b9; P1 0x116ac18bd90c04521a93d2ddea2056c11127e70df4d7d001c0d4691fec8500ef 0xa497b0b66aa058f15e3bf17f8ccb45b1a6c152f1972edbb530124182d34f28c3; P1 0xd3a56898273a880433f01d67de50b409793eb547787591d0e72601c6c89dfa05 0x1b022818062b2002a9833b14716acc3fd92da44c993778af97a0378c56a1347d; P0 0x2d97479bace2a1569fdec5b9b57499032017e98487107c9e31f3fc59a333ff1 0x871dd27026687f5b68da0164822b46c7db051d850bbdbb8062ac634ae354f4c8; P0 0x4750776bea37918ff8576178a5facc15743876449fbb9867310964605604b5f3 0x56fc9954c07b3172eace70892c026a13f31e70fb215da4d666e8c3eec68b2b5d; P0 0x1d8eb0434992d227deb1f17814edb09d251e3b045393af10ffca7710868425ee 0xd58e762997467fc9eea699599673eb1054685016956b9cba723c2d2f5e00f97b; P1 0x1644cbfd2691fc1f632ada3daf206f45e0efd321b13159b93009b8f48e5b16bf6 0xc71a4fd3ff3ae4e68ccc0eec1b6013728a272b36bcbe449189d7db3054614b5c; P1 0x135b3d5a10337b373ce9b9022b6ddf59feeb42a60a158ebd7ed4a6e1520dbff25 0xb742ec1c9999d62120f928682804080f74b1c83a2dafbfa353c59f27db02fe6b; P0 0x8330bf0fff4ea0eadaf4448873af8d510c08e88d287c962caa2d1922555189a1 0x6e9cc18a00740f8917823233aa9e63e1afa37cf921df7f44f9180bb78b90afc8; P0 0x2fcb164f3ab0c02f46bbdd8f5ee1db5f84406958aeb9a8968644b0557ea1a09b 0xf37f092c0ab730cb49a6abcbe3a23b263b41a11d261a9adcd664b42f4c67d435; P0 0xe79a6a749df8f32c9ebdea313e47611fb7d16fbf03aed1b8b3491ccd0a4712c5 0xc128f97b9c2e0dbe1274112d8230ba1d009457b8b68532f3da02e8f5362b69a4; P1 0x1237d9d77b9fd7eb2717ba8bae9826f01fad1035be997e04ff1cbcd6e8662b780 0xcc566bf30b6ea889de21963089005b69adca9e06c34b8b68b5e16a77f11e52a0; P1 0x14633b2716445ecf4765395d963a455375f9046508461254b4294e45c3e72dab5 0xcec237bf406366796976cfad0a956b368191b0b6172ad51acb427cbc54636bbb; P0 0xa6fd2510fc9e712ee5ed48bcb4c98cace12cdfbb06dcb567f9caf3a07a3bb056 0x70ab5597b332e1eddf87f08a6129eaf4e883f5098f06302c244bfcb01156a163; P0 0x31965d9063aa601ed6f243c0882b726c75f79719e7300494bbf2ff06ea85ac49 0xb59ef7c4c4b3c4aa190d24c7ac14aaaad3d47d8b56356e19c9c14d2ef7d49c30; P1 0x101b45a270b60f3c5fc45e67409539826b547db284e44beb2501b6849b8721043 0x7f7cea6afd2d22ff241626c75c532f9120cd1b56345c9cc337d07a8f473b3dcd; P0 0x3f7d2d8a54fcfd8a4a366853550132c0308211a1dfe67bddfab1131b1062e0c9 0x323a91b0b6eb83a8185e0aee2e140b70d8992ac1d06c0d8d0417c63ffde82990; P0 0x9daee4f684b79a781cd7cd41e177beeeadfc620da8155a8a89ea26fe65f9460 0x1ff876ae46bb32d6ce6e344fa28886405ce67c184b80236d73a9fa1965ef9ea0; P1 0x7fc3bc8c39b3d7f61c06415e32311cd1d5236ee61531efcdb09768984cbae3d 0xd0a5c61231a2e27d996aedeba3f02610ed93a13f6366207677f67530bfdbd5b3; P0 0xaa0dcd37276a9f4d87743dde7b5641a18a6cbcb3770531e081b22cf167f19baf 0xfff9752da07324304479bb0b8f7d8b40c6fdb68d43186657bba052132505cdca; P1 0x1ffe5d50e1bfa52cb50f1ddc5695943c5def0463d4ee77e2e84d1389cd8e62f1f 0x380bc978211e5a93946027272c7ed9ceea2bf0a7a40e711321880b558400e2f9; P0 0xc4528af89a3254c91f04e4f07a65dd53eb6c87e5b3a0c403d2ae69e170d4c3d 0xcfba6b21ce6c22b21ee83db975d02b5d92e5c5cc6ff1a92309ac4ea6d26ba5e4; P1 0x1511e02025cae3a8883d94da9839fefd94964e49a0465a07fd3a5d40fa539f392 0x3f8de8b6c73f91448b00ff36a228e050ddcd503f132616af559fa496bf2f3aee; P0 0xfc7273432bbb85d05a2dae7af2a78a80eb8192dad3abfa1fbe5981000f135f8 0xea1a2fc6ee4d99e3be2a9568705b35956fca14cb4f19f47e77efb002acedc9cc; P1 0x1ac27c40c7e199a65fe82e57a714e8857283420403541ebc3d6efa1457b51ebe7 0xd9508d5b12903a85e572128007b8bffaf0fa858f0aca47cbe343a4b04b3aee09; P0 0xb879a8fdc4eb3931b3760e4a0b682a7daa2b674d0eacc3dfbd4447deb0ada6c6 0xb53de6b6e58a216737b34418b0b67fa7818ec440f62f21b274869b0c98ca59ab; P0 0x80509736e3fc7565a5dd490c2212d6d92e7001cba1289b9fa6c5dd452f1e2e19 0xffffffff00000000ffffffffffffffffbce6faada7179e84f3b9cac2fc632550; P0 0xffffffff00000000ffffffffffffffffbce6faada7179e84f3b9cac2fc63254f 0x1; P0 0x0 0x1]
    [(0x87b23e9d09d3e637b2aa341, 0xc0915601e1a4a1534a1b5bb0f18a5be8c8606856c8892723c90c7158d2e5baaf, [P1 0x0 0x2; P1 0x0 0x8; P1 0x0 0x80; P1 0x0 0x8000; P0 0x0 0x40000000; P0 0x0 0x1000000000000000; P0 0x0 0x1000000000000000000000000000000; P1 0x0 0x2000000000000000000000000000000000000000000000000000000000000; P0 0x400000003fffffffffffffffbfffffffd0c64154b7c69b08404bff617 0xbb7e6ff8e006465c8ae3c878a116c8e47c8b46d87b608889670ba1a1f1cccfb9; P1 0x112a3ec111522d67170f106a367cbb0af79d0ff9db7f6c539fcbd321e6c414c33 0x9af03139ac480864501a92ecc98baddb27632934caac6c060c741521b663ec3f; P1 0xbb8bb92c2d4d5d5fc923ff2711990e7f8dc86e6c0288bcdebc9eff3e474fd04c 0x6687b8ee96d395a3fbec6b23647b2c26ad732ae0f5a24b827ee038ccd6bc8af6; P1 0x5220dea5b4f7e9cc45046f29e012373063275978e56128fbc238bd6ff9e6ea70 0x448b9171ce7cc30e3863ad6e068e10219f5ec602d5c5cf8413459afffe39eb58; P1 0x24b4e2b7988a25f0bdf04e48f68a3fe2c14b049bb9390e47ae7761eea4505281 0xda9319c8394b5d4edfafa1a3a20482f41ec72b584d02c2aceab804900ddb9caf; P0 0xba9edc705abdbbb16878baea1d6af2775934ab215f6da970b41762b78fa67f45 0x400fdbc1e417780af4bd8cb6e63d4e930d419f9ace88b7b6acc0ac62918d81cc; P1 0x200fddb8fee36977b2219359d9df677960fbd09174e07de34023f301fa1ff542 0xa7af98fdb9bb3bb44332670824f6cf6cfd237f2ee438b679671bea4f15f9513e; P1 0xdbad241bf8f61feab0fcad20ab7d7e3a4199cc6f8c1fb63a646fc66121c79718 0xd6ea212496a7ea9c1da25db13f1501b387c9ae8bba63e90700ce51609834f70; P0 0xb46c458a7b7ae0d1b05fad5de59ffeebb7e1cd0ba78f894c07ca91141dcd8f 0xc4f95b5bdbef9683a429d4f913de2eb14b4cce9c906172aea0c4bc2356d59bc1; P0 0x978ec6c819a1eca64fd2f167f977003c797148f6e404c27a34ada87b72c47925 0x3089e3969d0c036d7be5c3b700b0696118463ef90732f1b3bed55bd3ef199cc; P0 0x933ff9de5a10ae24e91bb5fc9b0a9d34a62702fda8e4913bb7d82be7e6e86 0xb5598455011f2f0fca968801efc3f65b7c3edb00c5940e2a77aa40968cb1242a; P0 0x8077b46dfb905a0a6fcb2a2c14e5fc2d568211a82ba46e6ab0e7d1ec623f203b 0x487577cc410c0efc88f7b6004dfb2ff3a9aaa06b702819a3ea0ce88136bd1d39; P0 0x14824949b1dc0e2e4ee817af614a2ece0b538dd19e0baf36f40dd94c58a20662 0x13b1b753b41e844d36d04daf7cb3eb7e2fa9e4955ca1b9c7dd675e4dcf69c7af; P0 0x183dc9573483d4dc658346b01edded3848c0ba3dabfefcb329731e86832c3ee 0x6e1b0c87a4ca3d80b14a7ac760a38dcd020147f6b792e6ff7b94f3740fe42553; P0 0x2f5b41a06632d075f57da2fac57bbe40af65d989b231de9b9d68955a9fe63b99 0x600940b8ec6bb24fd46e2ba45822c3e27953aae57089f4a86961357bb4a82080; P0 0x2406f0e072b551f945ecec9d55aa992d4cdd0538125aef613c59266f61f077d2 0x5ac9f59b31667bfa5f9e583b9427c8f146c97feff3339a5ef7b9bda3df82fc8e; P1 0x40654009b0895984eece943f9f4ef7209830b38229973ae97c6ec924ddca01d5 0xe088f399bdaa105a207262b0ff504d0c68962c8cc01d7c8f3c0872a2fa326023; P1 0x189dfe72318009e89f8e468c990161df1813ce8a4499289291f3f685c2e1ede8b 0x9539f2aeb31f3cf9b0c8fe37691155319eda5cdb9be2668e8f8ba7c829dd0897; P0 0x56fc819dab5964602e6b3ced8a1f07ff64bc1a4e636fc690578b267c4ffa2f21 0xb4e79e8de83e7d486229f70bc28ae16203dadeaafe144c62605fdf7d06441aa0; P0 0x7fd6888794bb02d1c1bd52aa9b46baf29d599bddccaa59cf110de33c3bc8d084 0x75b2b590a8667658d7c9f3f922c7f71a3ad2ac90799a0606375070f8240bd63c; P0 0x361cd6b76dfa8d3fc60dcdcecf3e34df3bd31ab8911fc9195ab22120255ba89a 0x33c8f0f0dfce2e846dd46854b35ea9b422b2d1e7b8085e2e57d2d35d1f83c356; P1 0x14f35b72bd90196388e9fb85f0980e9e6c0f05ba4cd0bf0f92fcafffdd8d779a 0xd92bae19e7c4eb8af29186baa065cde185fa207b0d3bda51fe1dfa194186280e; P1 0x1707629392c840386a8d5f7c3bf2fd5294ae1d50f6ff8a883474a8c10e6de3bc3 0xd5c7fb619f34dfa6dbcc2adc1a3cc7454357b8de7cf38103c1a42d7fe67ba9d5; P1 0x1650cc913dc24f0a8a4b9e572363b0d32cc8db63d90cf31e5bed8889d69b16d46 0x63140fc95a39494bb4ade28d06caf1fa4a3f0599b2639a97c331c2b7eb1254c; P0 0x265885c85a90245dba22a362e633ca4ba1e19afec910e1b24f92012891f9ba 0x39bc4cf79c13c00675c6cf48cfed2ee1f388e483f365792691e6405dce5128b6; P0 0xd0564c7735761769789f6f144fc4ba5af597cd414988a689333dfcb9e22c3de 0x45a58a33e4112bc194dd75df5211a60f45b3bf56aa206331dc2313b75b7c5226; P1 0x25e54f16fac7c756b2da7bb7d7a67b5c813d444baaee5287d2bd44dd37f30754 0x540348972998039dac27ed85f0fce73dae1d9a54359e7c2eaeeaf3460ce845b4; P0 0x1b9227ae16fe4445243759aadda68b48b5597840056ea5922db3534be494e084 0xdb625057a68cf54d6c86c8ea5fb0d49939f079260ee25ee4978ede0daea068cc; P1 0x17802b6709e91e1e1276f05b972846a91f8d9e5afdd055e477a9d165280ba5d5f 0x18ba1c1eb9ea3629bcf3778af9b45e1b196a82642f26aaa0cd9deb1a9997f11; P1 0x4c6d92549f876d900de65751c92014018a715de86d0ab97ee647c73d241f4 0xd3bf18099d5bf4caa7e5ca6e14ef0b29512d4d488b7e41e68bd6605d6c5c9c0e; P1 0x15e49208ad24985bf808550668c2c6c764159298401cb2951baf7b2469eba7689 0x41dbe7b15356e53005aa9b0e0159671fc27fd824378db2ce69aad4cad345d32f; P0 0x10f1688e58599ed7f55997a9aa82c0441c3bccac201354e4a89f479a7218e89b 0x485b80cf583e4f3829f7e1a10deb0e6191dc5c54be23eda4568818eac41b8296; P1 0x28e73253149ec4670398753799c6b6c8c1134dd5868f02faa9e206f668ea7472 0x83f3d90f11dbf42d19289c3099b8db537908df82c510ab0c06ba9974a7680db6; P0 0x4403786b7af1090ce944e8ed26de07b6794ed218fa9371c8b596b27312d24102 0xc4f52527f142b7f59605e0d1501cd19a9878d051d9f4abbe680db62c24ea21c2; P1 0x12f10974bc99da2044be0cd9c8103067facc402c5908bf5390815bef0d76304fe 0xca3e3f1dc521b4e44256287ea03c8cd0c987fd6842ca093da7d9129a29efe3aa; P0 0x9fc64abe3cdaa3064cccab20625e308ec4822a0c58864b2da3f38ceb4514ffa5 0x82b94f1913deebee68ef3a9fab1eaadbb033ac6048da18b6866ba103287c30af; P1 0x858174f24b3cae00f96ca0979e23087b571a024fd3a5cab1bab3b6ccfaf81dab 0xa591a27631e8d95a8cdb483f655d48140f94d566036fce79ec106f40b3a81527; P0 0x6b150e4638698df77ef4abf98f32e9418036d7224ef66308bad2bbd1f7cf3bf0 0x7b3b4aecc6c562193a24024fca7e614196913f0dfa9c2cd34c9a7b2b84e3c501; P1 0x76a40f76c2ca21c79d17a012a930da119f9838ec957fe185d8fc197650c8db62 0x6266481560fed77ddf82487aeb8fe15a9cee55141590de81f28f24a18988000; P1 0x4ba4f01c12d5d0ecc59926cdcd44f603f25bfcc2de17ca2046d1f1a54d0a9f 0x304b059562a4aa006730aff8abe40f468c01aea76e96ae3dee7845997099a8b1; P1 0x12387028a781e2acebcfacb2288f6d6b6c635c363bbec7d4009eec884f00cbc4 0xd13b7f476feff75c15732250c8baa1905ab5dbdbe50375502328c7d80bf5c7be; P1 0x15604674e73fb264c9bdb98cd2cc6c499bedd84f3505fa4be7947a92941a47e61 0x59d5d30ebddbbe53238f4d04bdf049fdc56477de6c4fa641a247e4739c36e057; P0 0x1f865f594412672b3632e93176f7d7a24d942e832eb6c5a4c1c3900bc43a4541 0xa2329cd2ca25e0c10adac7c578347307178a25db341ad057ba4e284b2ab70f00; P1 0xcd8830f9a2092755ee2ad76bdffec74f76bdba6d619166b1c71492a0d4550d1b 0x452252e1bc5e3f1539a05daa814fc27e221b03159f0791f8b3ef05d0c682f375; P1 0x25570a8fc203801613720edb16c39ede778802e89d88d6fb51d858af95d917d3 0xd4b6caeee445324d844dd313ec9cff737f97fcca2c28197053ec64e597fb9e2f; P0 0xb0bf42a1875c4f7f2f8d4259d58fa4b796ca6d75d04f843c706d0cdc122c3c3d 0x8b266d29e252360a1df6dca4746f7d496e360b756e868459ea22491d879d2c54; P1 0x974580a0bcc7d1f6c576a042e6ba2dc70e4d801d7c84839694dc926298ea9ac6 0x9b8ec67cf1ad205362479541d9403e9103d596054f1a4866857c0622f03e607a; P0 0x5e8633fc77af7803c08cb2ee3f0b0d4ded4f4202e72005c693eac085667746c0 0x8aa03f773cc0c78eadc88ad1a65948e52e3c0cb121e7e1e343703359a3c9764; P1 0x962251787ab1b09747b39d98176e6e21a2eea1811a34df25e22bc247f38d99 0x975d0b4aba7ee876ed23b06a03496306b23aa90d15edddb38a5a7063eb1c53b7; P1 0xb2fdca476c973ad7a054c857f2a3ce04583d7d7992c33ad685e4395ad8deebb9 0x8980a9a38437ff2670ef424afbf9d0db9610d6e94053ac761bc69734afab0719; P1 0x93b5ec76c298d4a9ea77df7e383655c2029bd56b18ba7f235348f897a168408e 0x5c727aabd5fbb7f31f0cf5bc3240db5581fc3fe674ee5c1d6209b77670f5cdf4; P1 0x42c4f6ba3e046e1e19e207b95f938e49ea79261c138db41921daa7d0541b7f2e 0x49bbe4fa85717340f0078740019b96b472833b41d22e16f0cddef090a8927d92; P1 0x2a7964fe904b19a7323755c21b4100f8cfb411a8e85db055172b3e1d34a939b2 0xb6799e9101b698ab1bbe12875bbb1b3120e1c95f33bb1dd347be3acb8987d336; P1 0x104224e7bef976e5ad07846f07723a4392882f6b02fc9471777a1304b6a652ae2 0xf8f82e5f80d64b4a63723f0d1bb65394f850bd4ddda20fd2ce9c72b123d0e346; P0 0xf221ca73dd311172ceceea21b81d7b82ed1e8aafb7b490ba1e16ab37830b6aa5 0xe3e92e911506aa6dd146fdf0ddfa8d6bd35c522975e39717932b477378af9fef; P0 0xcae75cfbe2c1eb234d6c0779dd683de68370aba366021774943f5fdfad6cda77 0xbb5a1f8b2c95f38006f9b4a253984720483e49266ec24bb4ccb10afbe1a36e7a; P1 0x1123993a01bfc6ae31154e6b619c66ee72b01531f1ade76d4185e195642b2c318 0x91d1b6374d5b27d28f0ef3f2b4ee62b3ecbd4384c07115780a2db03ca307f1b0; P1 0xa61e786c015ef832554e79e650eb5b358905514d70477655065614d1d4f3e78c 0x81759c94e9b2181276ff200088cacd6de1fc8baca1312d86d4c284867ad232b4; P0 0x4177bdd6d4e0aa5348ced207dcd29620c129365d02b0ac2ff25dfa01213878d3 0x881be3f04e28e91962e92b7bdae09223e7ad5e5eef3d7a4b2674f785af6d14cd; P0 0x485da5397b0da5b48917a575ef7c2cb914536ab2275bff716156ff71a79b7443 0x498d4568ef3e76d38127736b05d3b1972808e789d3a673cf9f207367945c33f6; P0 0x1521df8b75fcc619d3e3ec6b7025a750942e69ba29d5a729d4aa3d98eb301504 0x70d7214c4801769cf75e09af7b08c374582f6aeed943e2f6bb079c8d658fb620; P1 0x6379e3d7c667daeaf688f755ec4390a9aa70ac0db251abaf56eeb1fb3e2f1ddb 0x6aef5c4670322a1171f72a3a6a82f0f5939056becc5cbb4ae07b2f36d6b8eeb5; P0 0x2cab1837ee5cd4be5b7cb117595ec4f7ba8fa72ab5d37d604fb96e6125da2898 0x8929a21afc431011c1140b6bd94d58707fcc9068a73325448b0bd151ca183be1; P1 0x92fb2c8cfd90aa22e457c139feef0080d5fe4ca4f1d0cac8d02ec80dba9f53bb 0xe6a331fbab25bc4e51f463f454274e4f9e158c695ffb7f287549c2482f8e7257; P1 0x19f934bb36f1f6a61de8c787ccc665351a5d0807e2dc02149b056c3302331531a 0x4e2e412e6f0a29ce91b985f295c07ae338f46af52a96e6124d163577fc7f25e8; P1 0x2fc07027c1a5dc07e20fbe421156ecd0d22c4a39087713798560d246f20eb16e 0xc0847a7acedaf88e900466ae8ae482c710988a937a06ca74de45a1cd27c4bab2; P0 0x90c6fc47504e0aff6f5419befd552c7bbe38f5e97eef3ed6771c7d0e254351c0 0xa85961f3938291569c3feed837c24a6fc38496024ad80807bf85af4682598604; P1 0xdd6adf8ac24fb9b3fd837ab5e6d48f1e8b8ff066f04f56dc52ffdf14cbeb0a8c 0xd3ac1793773670c96c2bbe94bede9e69842fa325c63b16b9d3d553c8a7d7cdd4; P1 0x15e0a451aebb9cbfc8c3d372674f7db7e4ad35296357b5a94a7c7ccfea0b6f4ea 0x90d7d635bdeec1a7944a7097e6a5bc972873b5cd60fde5620c73887595631f16; P1 0xa3e70dec9246195e46123ab59d44875fbc68fd5414725359005ec4ec89ffb79f 0x7c13b3ed0078397ad59d9cce4eae3dde62084d123025cf289bcd736d2fa49779; P1 0x78462fa41075d6d6a4814b0c98167b80fcc513c29c7286b2603920bc8e341392 0x99c61b44beabc87a6a137abb7230b4210d434fd02f21fb2ca3b032b3e68ba330; P0 0x5c5e65e6b9863ff0e2defd23ae0675ffe26bb131f6b335c35c0cdc322a5c82e0 0x3311927a84696d18ab030d3b805b19afe78effef162cb1eb7265de2afb566020; P0 0xa300191a30792b4a3aa814f0ec4343580c79459ea429cc178fcac152bb33475 0xad466a94893281d572ae0ffd519920d5ee79862942176cafea4ca5854a1081fb; P0 0x75483f6bac50e25174349665132d7752d4b133fa087cf9bf05a73085f6234956 0xa809f9be2b2ee19de1daac6db33e59ea375d26ec26359a96c566170b9e5949e3; P1 0xdc9a305b13fa4dbb09fb84ef3ee3dcd2a0585c72ddb62fec9c516a4a07d3a4d7 0x8e9a394b9dddea214ca5bd1d44f1d95de091a4105809e9b384ab11cde63438b; P1 0x9edee8f25cbcabac6755d7814fec64e91c65cea3764027dae9cd8d308d5a6a 0xd164364eb30318108bd1c609bdff00a174a1217d41e53f203c2e1265acdf2d68; P1 0x156898fcf4921f6a75779dada21228f2cd72fd521246bffc1321e885d4e01d677 0xa9f6112d263db1f14b769f0e5fbde08c9f88be291ecd146d45572f7abfe265d9; P1 0xe1ad9e662281937fb5a536274f06280e91151b8b80528adbcb9bad9a3ac2113d 0x16effebeb67fc1d8b64289bb8a9cd8ad9dff8b0874daa667ab6b8d8238d59e95; P0 0x20e20c66f03d8dc8b5526bc2359998ab98fdb698dcf6c09a5827ad11d9e7228 0x18015afa1ac94e5d53c76de7fa0cfc2178b3737f48a8fc8433b3c48eab145c11; P0 0x2404110bd8f0482b6d2ff034a4f35578bf7402172fcb8c1f0e8caef2def8b50 0x7c7fb5f600e606eea215a699e1d5688b47adeaffc6ac6f17b4b254c271e694d1; P1 0x7917eff931aaf932d3edc3ff898694e60af13ecb68adb26a92f69e8dc1dcf842 0xf2b812902a8a1457a4a6eb156cb70bba40976e3347c092a9ad43ccf03fca8e60; P1 0x1cc410ee84e46a722ff1fbed65f78f2bdb18da9936213a858f48c7df0d464c162 0x57a425d45abf9522c494601e012431f03edb54aa11760be1db11b33378a2edfe; P1 0x3c01f5ede2b5145ab03132957cf247fe35f94aafafcd7c900dd8f1695639fc87 0xf4dcf46616968f2abb5f43ca54e909160fa0d5d6ab44de881fb96eee2f632651; P0 0xea35f0987e0e880c1d5a00cc2c66117284fffa948f5d10dfb774452a41d0523a 0xd2595af74d614ee21d5ca697a2447425b3fa0e78ed91ed2c6c8cd2bd9327bf47; P1 0x159ad70dd9021f9a1827f27129028bb38b4c16ee5c227a8187dbe004aed4c3f95 0xd1a016f9ade6710c8ba9218748d07bb9974da249bfd9342b6424ad5c642a643d; P1 0x1574d9342278497571f5729aca7d1a137d07edad62ace186f0a693af14e56470e 0xf7f30cf6ab8ce0c70f8378edb962cf4bc98244e8a3813edaaac7a1c1e28beba4; P1 0x1e04dd38d1844fd77a135cb7c8aaa904e2cbddfd79a4bdb8b2da2263d10dd4326 0x1a01b42429619d03665e4a9eaf9a41e6eacd9466bfe033685076bc65e994451a; P0 0x2a4589a42175e8f193654467f26c0d7b95cb20e0b04a3af2f1112adcfe98074 0xe385ac969f466310c8f0c34acc79acc904168ef7712534297175c87ae7689df0; P0 0xca3655e0b189675839d1fe11485126c412264cf90d7008bda17acf3b5a16685e 0xb0a2520dcbb1ed5ff69a8664b870048406dfbb45ad46a5e51357321831e9a542; P0 0x79df97bf65b6e28f9a971f071fa4c23a08acb5a0b48d99e8d0a72310490371c0 0xad1f2468a451751d3a7a45a5ea199d5c066f786767ada1cf84b7445eea0a6744; P0 0x75131affb9ae97fff750c0ea06261fd8cb3acbf770d7ee921d2ec096eef89358 0xa75fbaa75f5bf4b017656f248348db1ada8e5aebd39389efb53806fd65fd7338; P1 0xdadc12a5b850d99dea01304d6b019408a525748a8bdcf1b4e6f844de25005cca 0x6a2137443affc737ecc1cbaa9b4100bb20e7a487ba627b7f0eae63dcc4722a96; P1 0x57ff0c27f0c1e1118be368b2f09f326076ad2016b63f8151d59c742c7bdc1222 0x4eefe55144c130f441da4e8847e646a4ba2cf4cf10cd9927d98e2a2ccef47906; P1 0x30ae211732cb53cfef1f8609cb73eb45fbcbdddd96b6cd56841139f76b554fdd 0x2f920648b91dbca6d1c75b2e3b4073f6f991feccd3f2df237ee15eb7704d225b; P0 0x8d6f199e7ea802059cff72e28cf45b422d35af41193370d10b9d0a34f80d664 0x6c905151417bd019eccdd4d80946db122d3c8d5a2c51d2c1024cf7982fee02b5; P0 0x2e0a15f85288be12fc40ef114bdc076fad30061b28c3f63959ea9ed270529cd1 0x4d3b25bb97a52fef570d2f767f882a22006d9c5fc2d7899b9c991b3a2f280d8; P0 0x174ca25d5a8daaa3faf496ddf2eabd0903f4204648ea7972e1ccfcd19b2686 0x8179a4ed6e41342f0ebc2524be75ac8027904ff75bc347f413019217acbe27da; P0 0x417bd204dd4cd3b83c399073d6c18bfa98f7c02320a2992528a8c9f699244c0e 0x906574c3ad5b78ba7b204640eeef4081b19c49f1762a2a1e028bb64c38e80f36; P1 0xa2e497239843d079f90181672e55d8e2dc5e17456642ca2f67c81458d92d4d36 0x7880c18f036a94ca5185d16a109da589b078fada4d67d309dabd57341e2e82b2; P0 0x38b8f6386d493f5630c63811c25276ffe6c52a2d16f588481701b887f6da8ed1 0xbc3c4e6a6e3f4dab3450c1986494bcddc26449ccb6001e5e2cf83a354a12dea3; P1 0x114d142c36c7ca11e304fdadde16bfb23d612f1682d40489568fe40ff7e77a2a7 0x71d531bc18bc70a30f534b43ee5d07b04c5c4d416f4899c87c0eb82400249dbb; P1 0x653bcee81a3df0476f4fa9daf62ace4148bdbe94eb2244235cb59f8dceb59bce 0xdc3192cf809aceb12defbe244cf24c231f60280ac8c51cb735b31534cbe8bb04; P0 0xbd653deeea0fe353a229d13626d35f1c7cc06b33839576fd7224ae9d5bfa676e 0xe629905a67a4397355ea86c5a8f68a981d10e902478512848d2352b445273842; P0 0xceeeb622cf84d47d6ff8c2f9afb18cb6d0f3515cee205e26c8434ad2617aad41 0x51d616d4120cb2ad7b4b365fb875a5734feac1e802854323d6da703f357aba73; P0 0x1a292d7c7a2c8690f7169d82bbe7484a21e1d0b0e0edbaeb1c68b9143f11c137 0x304be6d767f08dea7d6c5809c3566a7fb2e560ad568f62b44c1f446079973a42; P0 0x91c8d11e2756d40ef0a2c28bcff85cf4ac25fbb78d2f3ab1d0c471287f53fe8 0x2e6d134db237383349b21d62b0d2138b0254295a848546176a0368d49d90389c; P1 0x10d6c2d2cc2b395516e682b1daa3c0418fcc767d3fed68841857065d2af0beee 0x7058c537cfc986dd22ac65565d688363c60b85f0e009a2243a25e406a83a6ed2; P1 0x629b96b26ad7dbbcaa9945ae86cca927864ae5c6cc38505de608f3d4dd453e22 0x44a8a303d94f0947ae1144c6a0ff8c6bfe76bc141019aa19c781723a8a38b5c6; P1 0x24d40b60f56e424841faa84384554c79e015e131aa8226a123f732e276e26284 0x3bec9c598b12f884f0ac1721e38cb188df55537972302d5cfaac551ea078ea84; P1 0x1c0dd583f16eaa3508b7ceac4c55d6089ecdf1664d5a74a1d994ca8ac50eed37 0x7a1bdbae0d9ea00774b184dc0d32797773a10c77f54481b376d8c60a02e426b9; P1 0x747d20d464e7c4157e51d812b2d8d9a88aa01d4d85bf0aba2913ca051a69c646 0xecd4c95390760982a2b40b390594f21cba848bc70c74ddc0dd42a1388c95093c; P1 0x1b6320821fc5c7a7230d9eebf9258cb5e64a48fe8d5e9091bcd0240ba8b71e095 0x2172d3b11cd0a287c7b8c10fbb09b14ba36e4a9e64c968121417c06a63df3fb; P1 0x8bd9c29cd2f63aad89e8d4af2654cf2a56197d11144cb04ab71bf2ef13db6 0x8ed30151a8ea2e0f3618d44d2280e679d3893121f2aced39f47d5f1aa6a71b9c; P1 0x9f5d86c427617bc1723453559e9e66d77dc93725e90ff98e785bcaeba69a20d7 0xb6b4490cbac52323edb835a99ffeca97ff191de4f387f354ccf31ea65c5c1719; P0 0x8264d6d56ab40d2be1a0457fc461a75fa82ac6cbcdfc51bbcbdd190264f491b0 0x2b8e3e6f641b78cd8a4b2c4b81b6f6be89cd564849b6f68ade44ce6fb28cf7c1; P1 0xed230058baf0c0e28c9c9b0dde1ec43987928f4cfa53dc5ee2f791a68738b49 0x737e0d8befa32a03864cbf4f8ea44947efc7ec677fd061bc44d2b7c24d05fe9; P1 0x6834fc7a87bcfadc8756650f16601132ebe1a4e08a40ce3164aa92dacc4c77 0xdfb3e2a2e953cf749638ee26fc18780bb3374d3f047712216541260f95671f7b; P0 0xc37ae33f4e713d83e2bdb0a695b8a7675cc86f9701e793c657621f887a7fc7f5 0xa02cfd8f5e9aa90d9dde2f7f22193ca26abc3c658404c24a6a73b2ccccc55794; P0 0x643844dbbee6ce9f02964257de1126fa13aaaec61954f940afed586413210e5a 0xfa27a1a6f18ff78ad5ff27168683900419f3aff78b9cc72a03f3d08ce676116; P1 0x1e8e2dbbb565f3fd51a0790ca45bb9e4906e723cc4180dcd97150c1069820af 0x5bcd6d3ef63a56f7fbdb20699c9bd4a544224297c98038b504be94175e82b969; P1 0x41d7610612dc61e0bbbe3ee21139f5945896b3ec1c8f6a02896bee2e65d88003 0x60b27bd4ec4c3f8e864510038c036cc65eb7f66cb6c2ad8d4e3a0526e8afea2f; P0 0x2486595045be6f2ce5977ee2e186c87085c7d1d94fcb33a33d21da821fb27c06 0xe6caa0c5f440c9631a14b5213aab521fb79f83b897af871986e50ee280c3d8bb; P0 0xd010b946a052a3c48401ac0db1850da609eef1503826f257ff50a3ea90eed452 0xadd1a6da9058e02c51813f1989a382cba67b99ebb6992a784074090fb06710a7; P0 0x76050735babd051c9eb922739c21753ecd2eef9d0f7f0614c19dac963838a82b 0x1092734f7fd8379e3fb79f9ea0fc4a65a8b4fcddff4bec4baa2c5e44b09ae056; P0 0x112a231abac01514c53bf3cbccd06f764dea23150407110f811abf8f5ec9d25 0x5c3edd43b47676f68f10a3d99a4ee93b159e5df1d1656c68ff91f54cb82b8b2f; P1 0x427a7cf16df789afd53d1cc262a275a6d847528a8938d41fd5e370bc12192487 0xa5dbc318d41e1eec3e9dbec13537db327b074d4c6bfadc6da8c1a4abda7b138b; P0 0x6b750625ce0d9b192c06a92f6422611cb1ee84a8ea44f00370014d216b44c317 0xf71ae6c7db073f395f15206b67d9476890fd58ed47d9b87b7cc3a7028e36e032; P1 0x1dd09d8548fa23e74596620ac6740b1cfb1a0168f7648e4686f9103b3b3a750b9 0x31e8937376debe7ef5b8b1e64832a92a522d261b39959e0e8822da5648b8cbff; P0 0x9badbbdd37162fb7bfba7c91e47f53b4c7de0a6f04e09deaf715b88cbad50bd 0x9020a75a5c4981174fabcaf73c622ca42410760836d2c72efddc67068d858b34; P0 0x5124c0703cf5885756a60f69c4aec2bae0cc713b46aec392bfa1f208b16bed64 0x1f3126e207572c6d203e3a933e9d1b818b7a317473acaaec274840d93d97f1ec; P1 0x799e1b554057d75da37e07de312b7f9b2176775cab221858d3aa75bc83697f8 0x4196a06fb99c50570dca1bc617f1f65019cca6eb60f516b19d6b8e845fe775a8; P0 0x10cdd619348892d95f4d4ffdbc4ad02bc596a0d8b8064791abdf3e4b77bdf46c 0x4abfdedabca8e05d7a0f262dd04740dc658e1a67c2988eb96e06f4c10e110c14; P0 0x15d37ca4d74abc74574cdc53a766c2a5a94f2ab34d89ed3892d7a625ddeb395a 0xa1d0d7f5be2edc430ea748032ed86c33a433bcdb6044acc7a68c50eeceb4ba16; P1 0xcc90b4064a06111a9a2972e349583a6e6b641919dec30ab285f7fcb11b83de47 0xcbe86f68b1fd6fc1bfa7f6465ffae80cc63772b276fb1403ce6cc0549f195c51; P0 0xa26a73bacaf0f37cde3b81d36fde3ce970f061aa73b8f1af7d7e292e29602263 0xf01324bfda75c59bdb20572c444977bab70c54614c88beb5bf5c15b50a70214e; P0 0xe123e6571481ab8e991a6e65322dcba92df8cee0cf2bbb32659f5987b921e865 0xa715fb4f75362d95dba32edd38d1af7c96f4421d5aca25d5365e1ee57b3512cf; P1 0xda1b5f8a937105474c9ca634ef7290ca8e1da964742a91357c5a1ee0047d3883 0x7515efbf75ebd55f57fe8f050bfb5a922db7b20613bf73ca402a13f816bcb64f; P0 0x358d0f066d47061fe46eea74bd267a47cc178545c54b24ad809bd5ff9305fb94 0xbc7baa9e0ec136975244791e038b97fd1c13008c37309f0369d61a467d5f6e8d; P1 0x1158bbcac2c1442ba2ab7e51fbb1aadf2e64afd02d364c014313b42f16fb55395 0xc8b802ce17ed7669a24e6a683306cf72b3df55142108d73418c32f7050b3f82d; P0 0x9d6008a6ab0d554f8d61e3ba893b965d60a8c707453212e89f1b85ac3ade7b14 0xaa85b461fd19c9bbed3edf423babe99b0858cb57fa80932eabd8a4a70e9a6295; P0 0x7195d96782a7078e50e4535f6c8532e0898aef8bf368e43ad1b2ebd00d77ba1e 0x641fb70b60112550f093afa484be72f91544146a21943d4f6a535043fad8313b; P1 0x4e5195ddc3b1702dd23ab85f327e30e305493952d6272b7b19268e52f172850c 0x16c09bbb79f15ba3e5067285b7a35baeea73a709693fc6323d01ccbb7bf47266; P1 0x40b575c65dd40daef8ffe1e11f2be9aa3e7f911cdaf26a7358d3cdec2ebc298 0x90d08b8e3efbff82d3c44a52c5bab8824ed38bcf2b11b40000f5b026f29d7730; P1 0xa3d68dc6d801ce8a26e243c8160057a07b4f3dc62a404eba3ca9488f96326910 0x553e414932aca05ddc2b66d0685df63f6df65e18e9df43855ec747b62068c3f0; P0 0x1c62667e6823d543e757e873d901c23021b4acff3a4ab5cd749f8802f65d470f 0x21819b3b94672d5e7102b902d71e0e5ab72f089623e6d403b87bd72d1b61da41; P0 0x462aba330d208e3ed46b21e0cc659b3d67b3d5741215fa4e63adb00f563b408 0xbd2d2a2592e4ebd87f7009a31d4538876db7d170b1160505d9cb7aaf48aba5f9; P0 0x8bcbb833ded7baa2d12d5e2aacb86db53a7cfcf10a9d500f6e6da8495358b559 0xeab81fb5bbeb1f593ab1b0de236c4c98ae56755e9a4c863ba757315e478eae08; P0 0xd7351e66abea9a383a49fab8dbf644d88b6335f62ad4ef398411614ab0821c94 0xa405abdc4de9cddaf13532ab858d0809c74a520803fc9eb6f68af72e92a6716c; P1 0xd22e88a5adcbd9c2aff60eefee6568fbaa6a24e12542203fecf1fe01e87424f6 0xa35682f460d57dc584477370116516798541e41281d68f160b77e3e12b67cb4a; P0 0x683747ffdab5513b08fb1178d8d83b205ea12648b32d9e31d8ec5b0aa95de3a0 0xa3a77963a68cb376d9f2acbaee1b9973e8da9c3b6fc8226e73f498f9637f4bc4; P1 0xd13d6449d09108f67a3245e13eb27de3d3ccfb3b215cba86b0e82db6c057e8b8 0xfc151229caa2861143f684def548822cd5e106d4914250feb77f5738062da1e8; P0 0xf8397d7f3b4e9b6ba305dbccca294a77fd4fbc9fd1182117b90ffed6f6afbfeb 0x24e8a81af9b5110c7ebab1730264f2ca132e1f37bed8bc62a60bb89531bbf1e5; P1 0xaa4857175aa6490e50d77e7c5f49c1dc785c090f30d36891e2c1b3ec75c38c2 0x7cd466f5224fa62a32cd93a6955285dfd17c2c8e06b8c8337b67d91392d5ee50; P0 0x3cde73f86584b2ee693878a82ecd1ae0a74e2b4a00ac9c848819228472aa5fe1 0x1caccbd978e2105801d0f98fd5167256ac648a57d8fb4327d4f765383731fdcf; P0 0x336413a2434c30805e6a83c8fc89394d6e4815ed571e48ddc3f66591c8a4256 0x8dea14188e05d45aed701c468fee6edf5b431b40f7edf98bcfd05e1fc449622b; P0 0x4eabb02c1995974c03c1f5163a44d6d424539bdaef269ebb5ae50b606cc49c0d 0xa4aa79d6bc774f9e58aa802c87b00edccca499d0c182e5ca393f270b0060b21c; P0 0x69eadda19692bc62380c568504e3bd28316a92f69ec8a1fccf0dde91d8fc5e11 0xc0915601e1a4a1534a1b5bb0f18a5be8c8606856c8892723c90c7158d2e5baaf]);
     (0xe95f681f97, 0xa7a419086c4d06e3581581fc8cea9fd97004e8cbd03ae8c54ff7837cceee9919, [P1 0x0 0x2; P0 0x0 0x4; P0 0x0 0x10; P0 0x0 0x100; P1 0x0 0x20000; P1 0x0 0x800000000; P0 0x0 0x400000000000000000; P0 0x0 0x100000000000000000000000000000000000; P0 0x1000000 0xffffffff00000000000000004319055258e8617b0c46353d039cdaaf000000; P1 0x1fffffffdfffffffe000000010c64154be9d39091d685829ecdc25b2ab575 0x76a383e0947a162d8b2c320ed56a3a2d5c646a1c9af3670e145ad86a303acfb; P1 0x6df64c08e790c5cf2b200aa248777370c8515a1c6b2fa1a9c63fb40c419c52 0x6d54b12c4f61f3f966ec85696f043733a2c5f80794d8ba5bdf8c5b10c1782c40; P0 0x2eb13ae4a9fd0a5fce451c6ba4d59186a642efb8f31d87496c23579661779b97 0xb71e9d2ce304df30610d3de8f2afe31647cb963a8b6ce512da38839f13ec0239; P1 0x105f990bfcd2615db54db477ce83b91c3a457fa60a92fd51b363569f04851fe22 0xd764109d38f3ccc2828cc32456b876083d313a89c28e6709e44d9e4fa3678ea0; P0 0xb5393b05c6cb4319221d7e7c0893b79f640a7d2f6845177732b003050ca77721 0x9fb35292333610e9e9d5cbaf6f487757ba2dd32a3ee940112039d1cd113e6d8f; P0 0x63a03e2e925301197d0711adb39653df944eef9caa1068ab76ca670c2cbcfbc1 0x52210628a7c87f72ff927f210969b285ce22b030244264e443b18a516e5588d0; P1 0x34b2586978ed9bbad82b943190f8553979d3031ee01ffe3cbf028b3ee76692f4 0x969647cbb9fb73bf4062fb6ed0c0993bd096beed6c5d29ece48e62f9b76d8ecc; P0 0x5894745b4d67b5f4ae81bf8b80774c9fc0f674dfa574ec94a7489df35358e2a5 0xb1f8944d61e32450dc845fe5b67b97a7d8d52863d57ae4a945cff75547ae635b; P0 0x7bb9ae7328ecff5384dce0a23985dea76328772fc95823ed6772836ff5ec7566 0x1cc7ef83b621cc8c601b6d6a9d41b17f06c29b7d695edceaff9eb00fe5089f13; P0 0x33c588b11f017acca10b020b0ee4cf204e0c3b259391ed0d00d55aef1e0d8a3 0x41b05937b33e840603e198d9d344c74656f0a0e8fc0131f29b9e23120f8b80d6; P1 0x21b60d924b1e05134a368d7cdff8c7453afb763a906c805d27502f851a88b8f8 0x2d7b7cc70225c4f922ba84336e31497a786282c8a7247ba885479395aa8f0750; P1 0x10294ade45c6c385cbf3bf4ff6d0e6d207dd2c2c3511cc071dbe6a4961ccb335 0x36ec2b28687d8401ad76b35d97ee045f862d4ce0ea0dc4aa21b62268d600953b; P1 0x1790f8296349615774b44969b2ba1b1eb9e99fcacc701b5dfe27cd0495e77ab8 0x68be1848e4f8b26f3b889a009fe835f0aa4715c5792564cbb3043dfe7dd90afa; P0 0x2adb00e37366b2b6c02c36e3d743d5205d27370821f7981654cb6ff7200f6f4f 0xca3b5e0edcfc83f276f5b3b068032bdabf540e8584c3a41a94f2c9890c6d925; P1 0x13f837c6923d20bf385daacad424205576a5a6301cd2f5e77d08ef08b261fd7 0xfe8233809dff8baeaba682b3b76aef375d1b73a0a39338631f1a91ffd0858ab; P1 0x1fa0d40d91f15616c7e7f107dbb09f27e4868f90dcf70cfee0490227da4e73f 0xd4da82430c82692fe51a96f77d3e4e09ff24757762a3753b760c08ab46d5be83; P0 0xb0faa241da2c18d7a1ebe1f53746294854f32c037889a6bc00ccd5b883aa4a93 0x4346fc5bce0252bc57643f6d66d58bca952e2886a5c3ff81fa8cf1956742df86; P0 0x11ae3bc71a7cfadb8bde5e3a6581c7c0a31784f8e19d62d37f1f311c85a52a1c 0x626e47be870e40faddbd2dffb8390a9d9e7d235b865fa3d70fbb706fd7165b48; P0 0x25d89e6fc116d5262d0d413592e4b4e37df03acb5f0d51871f886865d49b1d82 0xfade23989a760d715663dc2a3d258320168f014f71e652770b781e37af4e241e; P1 0x1ebad3c918a4854f91b533c758e3c835d7c5c4f0b7f50a8c83d211b4c706aaeb3 0x96b9babaeef41a5ecfc6735bbf4d6a8d31b4042ec50a482fa3bc25ef5686c165; P0 0x58be2d92d325c50282ff54eecc6c30185eba9a4f410a41b456fb516a98dc5e1e 0x4e985c78de9f4d5592b5c5028e971d45081450848f2630a2d12eea08bee7545b; P0 0x18213307b0b9bc678a2434351d76804ff907c9a59abc27ccce687b7332a12bf9 0x8973936a79bc6a44f09f3759d0dee7b6a288e09ac10cf4ed10ab15dcfe60f190; P0 0x49cce7f606a565126c49e9f5cc24d36ad5e71be9c8a45dd141e4dbce98d756e2 0xe6cce791a30d26b6c58c7aac76a94e2a5766aea27ace4c7277cdab0942d9497e; P1 0x1a029a838c548f37b12e0baf722c652544634438aa8206448d8d85840ddc87f8d 0x95ce99e92d7ed951c1c97aceb033e3d1409d511d8240e59ca25528d70303776b; P1 0xaf544bcbacdb2793c559fda28546997792f71ee2f4e6298fb799454c27a1607d 0xd19c4ac6c0bb3aea68c1daaa5272123f39fb80561159629bfaba5734d314b4e5; P0 0xaba091846a64ada13c4857e24785ff84a1cc1c91531ce52b5099a0ee9b2e18f8 0x30eede585dca16ab2167318f81580b9fe1c9b607589442bc646bdfa1b6811661; P0 0x95a724359f1ffb0bfed33796c8f3bd7bce91ad9839496dbba31119b6fe14cc7 0x34d72e19c18168323f08b1cfc15b82f7ac370952f04c85dab01ca70ef05fc2ca; P1 0x15d03f31f229fad876561f4f6695d651e06c8ddeaddaa86f1004be3c7f2fffe0 0xea876ad741f7a27ad1e702e798cbdcb458e4b32c6f4301c546430f932a7a38e8; P1 0x1adb7ade86e262d946df685ef454d6c17d0ba54bc0689fbea0fd662cdfb1a8e3d 0xf3e00e9810a8bd17bff85c1a8f56372bf64aa40785a15411afa58af27bffd233; P0 0xe8531fcf22e59a3a78b897f5c442ddb62ab4fc0b3817ed88e391e15d9f90142d 0xd81bd6e58d833a497c26241f194d0f74ae427eeb2f74da80dc750cb00749d2ec; P1 0x16cddfb563c19c0452a22c7f23045ec9302952ec9ef37e886e7800d113fd94ddc 0x7e527d524b1fd07d9b637f550ac174952aaae6af9d534416fe64b39078a9a484; P0 0x3e554df1c65a3760057a48d7ff8c4bfcd70c7c838c4795c6f7e8f20e2403e583 0xfce042dd7cacbddf897b4bb30ec95994f2dcc97e51c4d274759476c3b4f0d69d; P0 0xf9ca481a1c4f801f113f702923b342bfbbe5ba677301e45da8400de1daec2ea7 0x6570b5e29d6f8350123f12295cce5ac7e0bc7fd9170042fb2492eea30c3cf672; P0 0x283221249ff01b8e9598c0bf3d4b7655f22e43bbcb414a37a8bdd6e89aa17d94 0xdb4f061131b0d7c90e9d5bf09101b19e2f4ec99a9a1789885ac43e9f9e342af0; P1 0x177c0998dcb4cb132883b1cccd05d83036e2cae764521b25b2427036265f1c71c 0xbb8ff47532125e1bfecb61bab7f1780fa53aaa25bf81f1cd96ee58edae4c3624; P1 0x112d7402d89e006642e0578f05f54356adefff3720c4712e941b37764d7f341a4 0x48f1cbbbfda8fd2a2a23261e7bbbc5c4d8f9118a00df76e9019ce5cbf2c5f13c; P1 0x2991cdf61b1e77cbd72f3dd35fa4508e196d7b4170cf34a645116979a5a36fd3 0x3c50ae760d17bbe2e66eafc8faffeea6fe80acc1ddad903c914e63f938db2b5d; P0 0xe35eb34e505ea58f698f86b61e913e08a542a6391b1a02a658003f3798c4bad 0xc5abe62c99d07e2c86eb87fc0556117a9507378588d4988d694280119c3b6d0c; P1 0x13144075d17cd1d1dd26b165c02a9a120f42db81bd886196f0ef95896bf285c49 0x82c336530b7b750e0a9bd7c77d4b06203a75a2e4dee812191e9eea7b469fb107; P0 0x42cad808687edcc743d2207db67fd7359512c55c483a342fa08c4f378861cf73 0xa1127bfa9fea63414f87583ce3757e6a2cf2e809689ff7580db790b07db56bce; P1 0xcab0828e9b8cb439f16a41758eccf9b302714465c92ffff334f678dec4d0adbf 0x362692ab046f525f5648f7e395ed13ae73635e19ebb738dd6559f4c9f1631f19; P0 0xb744bb0102016ca9820a61c26ec28dbb185d388492d5cda310eaa137e411a4b 0x1bb0741e57382fa7755e1d8998630a05ceb79654d537c9c766999ee0c8b5e7b6; P1 0x5fd643c8f8ff8212fbd5fd6e851f4c55c5c0c25ccdf646bfce3afdfd33ec827 0x8f49f6fed70c44d92ba646e63a858f1c49b35e35dd4e8ea63dddd265fd4bf371; P1 0xa0676e9fa031a868cfa6bfff71a38a8c4ee04cd2bf33a2153709daccfc9cbd32 0x6856ee7e6e741e72b9a79188c42ba5dead3849372f09889eb638b7a2d42558f0; P1 0x550d7e97fecd43bca6c01cbf83e32fad5bedf022ffcccc0cab7a2f3f1a2aa498 0xe64626c04e6c0492a6922295c4fd0acd7d69f63089a2266378c44b8df07bb5e8; P1 0x19e4441b7262987c525b96dc2fce26b08a1da7e03b51dad7248e1d087d93c0e41 0xc80e6194f8a1ec45a7d1f1267cafaffa5efba2083bc4f9ed90572ff1b330dcef; P0 0x9c5679483250e7456590eba8d89a833a3c1a0a8ba3e833db577d7c660e9ff8ab 0xca310b79c4c139a9a90a050d5089936af5cc53cc31f3f68e236e7da4949c4206; P0 0x9fb16f822f53614d922e00a6c699b2b9a456c4478915d5d71928b6bb702cd3b1 0x2c989c89795bdc62b15b5cea39ceeff5d9d374fae8f5687453fcff08661c8823; P1 0xf89a19318e8aeb87297582cd6dc8389093f24bd3a42f0b1c5a71b732586545c 0x83db3ecc97b2349810f1c6ee36bd2de9adb0e4fab88dced1d11a60236ed46c76; P0 0x43ea1e0a289dc7bff19949a0a0861ed156edbb73e4f9d36f4d8d8201cf45aa28 0xd76343dc670da421398be6680878cf07c4c6536e394165697d1ec275654927bc; P0 0xb537e27a78c59c68f0c0b12c5ea406d8d58441a64c529bbee24f703f2b487b0c 0x1bbab1214e9ddbc2305ab805df8e86640fe21ff616d4d5ce8a249d9c76072744; P0 0x300e982e88b864cd8a5c59e1df324de3856dbdde4722ea67c81cc4bc8c7c932 0x64254b76f0464a45635570764729083e2f7e9a3d635ad835c69608126e1ce73e; P0 0x272d2863f9846ec711d5bbac72819dc16467406b9734ef2544ff8881ca817e7f 0x52837d86da1a61934573bda26f410fa2125833fee6b1463672b27087f51291d5; P0 0x1a987ff433e1957d1f39385f949a7e04074b94fd009788f14009f5780da5fa7f 0x3cb62c68c4e2bd2153b2dfc19689fa6f5dc4cce9d4e1f2e734c022855315e0a; P1 0x1ccbcce8aeb8a01ea87cbe35c7621413d3d054ea38501a18c5349705a522a0 0x8272daab8c58670136e1cfc17608c3a4ff4a8b4e5b0858afd5530864019d9c28; P1 0x84f1b33bf1287de412cc3373959f36d3bd965480fc72bcef3bcb0458c3e99aa9 0x60ff4eb20afb4b0b05a4e94ca93add217bae1c36fbd668139171bcf485023007; P1 0x4980f34717bf9a1f25efd8777c93eed14b2458a36f8dc7e47e72c029f74ff5e0 0xddf8e8b447ebb7b71c3b5eb6516948ac6d4fb58c9dc103d7aec0eacdb9c71482; P1 0x180ef67976aee9203065f3ec38cb71d4f1afa5d509160ac98016a411a638bc3f9 0x945e9abfa2fed461e6e31b419682eef7475471979a35d52d509432ecf7aa253f; P1 0xabfb0bc7d975fc4ff24fa9cb69f87a52bee59f6c0ea5728811db7c1808884941 0x5596394fe8c18242dc68047d4737c200e4078b076874d25a48451b516855f871; P1 0x393a346cc74e1825f5a1910c80173be3c7e01a2c34bf67441845de493046dbbf 0xb5bbc6786110f15883943dbc68823952cf3520ebe0c9af293e5076e1f53f2153; P1 0x1020620c490028655c4c6266008650a8fb5cb09780bf3e841c772b19c34e7fdfb 0x9fbbd61e27a850ed962c7cad1e4a51b9acb650fee13fd5168f9da7e01335e67; P0 0x63aaddcc5c1250140cf100392973ec3031525cc223a43753f136d6216e257e 0x6348079fa9bbde625ccc03964a0c301e5e9046cbce210d2ba4a54ddd86daba93; P1 0x4d019453dba3616700f831a18afface664f8bd71a1b7a749c47a13e357fddd49 0x9e1b306e2c3f827d0c8976b7954d12e9f30e6fbe056f7b06960d2d0b65224fb9; P0 0x61a592aba0aacd2500087ac9d167d7494ac5da8d13cec780cf5d2f1eb3e1dc75 0x45bcc0d0f4101eb51c7d907bb911e4be476d737ac848227b5ed05aab436509ac; P1 0x25fe9638f56117f9a7fe2b8dfc607be9e05e3ea11fa0818ec63007c029a667b0 0x34bb0e87504e61db7bfafa1a3e8827aa8abbd2ebcc4bef20af4f36d3c077d870; P1 0x15b90d2a7bfd8a4f656f421756554da4d59ad0a644e804de94c1810367b148d1 0xfb3501e6a389ab0712e2398fd8dc4d76048f444b3a7edb4c744a05168ac922df; P1 0x1ed01f96a09688c4c2aad61585c8b05549530566cb9f9430aad92ee663e2b0e86 0x4a4515cb24280ba03dabc2b77a618c92c8a7f77018e973e6be94f813fb51061c; P0 0x158c033e47cf9cae08d228617af690a88ebc99790db76378be54e44271fea063 0x3219d1244f2b0ab0987823230792ac67bbf771e9da4e54b78723ebe86cd544bd; P0 0x9ce184cbcaead4c68f83ca4d91f0d551258f3d5b93314828994e834a29c6ef4 0xd8b0fcb0532575dae7fff61164058b2684c1d5f85a5c1721002ba773c5129455; P1 0x16ed6498d5f30989b366cd8b9855ce840de3270efe9930a5bd68af92a53ae2ef0 0x4ea3ec787763871544ed620af611b60ed19f8298efe841e3dcc4cf16fa173e82; P0 0x18284d107cbf50ef05b8fb35e40160f3dfa6d9eda4d24e13b3ac45aa6cd2d4d9 0x81485f179807f554982df3d0950565b07a226d3459479b5f9b5190635f3b845b; P1 0x829408975234260e7920940c594407c0174b0e93944f9a2b5ce43799b49d5c38 0x401708bb796032a8193e809725d1c81a1848ca6e92075f1d62ed5018f2f9aafa; P0 0x100b86705eb7afee04c08a360d69f5e24c8c7d473ee2d9fa91545aa5b44fcbc1 0xd1cde44306522cb4d15a8bd217089f4874c0c115ce95d4891617ae71572f9f13; P1 0x157e3a89af6472b6caad8a983ac8c48583e34116e22f46319358c9bf047b0c5b7 0xae0c8def3a274222321c2b7ce77e6a4615b14f466e874fd5d80b4b73965e34eb; P1 0xecaa231e8d029180c1b857f88eedd0f0f2e81a968c22c8175806f1b2c7c7d9ab 0x9b887c0c9b8f6e9abda0735a1462a419d067bcc1c43935717b9f5d0bfd360957; P0 0x5e7e8efbac5fbea21b0a3c516c232ad507d57510d2319948026eed260d0b5a44 0x3881136da6db132e58a931cdb4756254b605a3899e83f2e29d0e0ca44a1bd80d; P1 0x18f1732936e860fc6545cc64a543d134f36c7117fc4c7f5fc7c79aa4f6d0f049 0x9adc9cd215470dfb8fa1b42311e16e8abefa9899012c56ae59a8b2a887164d39; P0 0x5dae2acb086cf012df4e73b8655f7677afcab3bf8887ec9f02fdf4e484e08774 0x9339dcb5172a6bb681fb569bffcdcb348adaba376933638f6af90c9e6a9cb6fd; P1 0xa9570118a864921c7a93eb877a54d18ef43c0c3afa2222fa4f88b505658a0141 0xb7957583b0243b5f18023e672ceb4589f45519c3df8ce3bd3653164b8b4da181; P0 0x83a70544cab77f1234a127a9b1194b5c1ab17f54d39fec46d0f773c7f2ac7208 0x653c9345d715daede2db610bc76f0e98bd4afb78d441b2eaf505572bf55a4679; P0 0x2808da8aa13633998d9bb8d52a4c329d3a32f787728cd8e18c29af06fc8d9739 0xd6d1c4e2a479602d7bbd7d607e1d45653d8baaffd375b6109e7dd2d943c74f28; P1 0x16886c21d6175611379b6b61c1d8118ef251999d09274e0fa2bfce29d4e5e8dc8 0x8bbdd110ea24877199ce242dc4c5f560adda4d646cc13b6808b96d0b0692a838; P0 0x4c47adc70841b239d69c3245cb3e649190b835217b82183ee62fb9b5c65b39ff 0x163d1d9bcf550243526e0e0a0d399a2f8307eebc254165e3564aa4eb8a8d5791; P1 0x3dd1f5bd27d4cc511ddbb4e56771255ca2b69b95ed9ca8cd8cbd96abfb09bdd 0x88766ca99ab2bac97e088eafdb2a180c3ca454a3357af06f5c94c6a0cf7c7e55; P0 0x48be0a3cd796185b41917b7f20c5e5e796e94abc79c837574f4b06c4f01e78d0 0xef7dcf8d6595ff4cdf66d8ae1cb1a1b945ac538db6752c019781d3be3d257e69; P0 0xe00c275f3c1566ecd8a6b1de903eaf6a998e107fd343dce53edfc500231f1659 0x42aa901fd31bd130a30858e79c4039ec482c8ed6e67fbb6e900ceb01f74997e8; P0 0x115c63f4359eee3727159e3d49a004d2bb61eee06dc534973e53f63feb3e2c35 0xc691e38faabeccb930e05dd8e646bdd6450e0755ee1c3f2ca1589226fce4dc7b; P0 0x9a05ff26692ca966c2a633432a0189e669f1f6bec6dc93105a3811f826f24806 0xa95415695dc4f4d3e51db77367d50441e0c000ec6f5e2f6d1567b2e68797fb33; P0 0x70001fe39cbe2923fa61ebc9b6039ab2a24c4cd46dc032dca4970e1458bbcf1b 0xd65b81c0d0413161aeb545db83ed100a86c4706193c62c8ca9f91a9532da9d9e; P1 0x166fa3b4921041b4e0f0d763d75f94d8e44847249e2e2be2780bfa51625d689a1 0x40784ab3d875f3cd4dafd6910ff604a0a0f3dfc317fe9fe46a15cd6f643d8a17; P0 0x103c5de01adebdd7dee003e0f4de4e048e17de4c70409be4640f0bc5cc9d3953 0x740135e0bff4098dc3b04b09cba433045e398d11fc61d01eead19455bb51abce; P1 0x692231aab33d2c6270e8857d13499fa694f07d836ad2781a7742d8a859e6a4bc 0x199133b683ec368806b1489fafadf75db7e0ef2bedf030cb6eeb849cb2d4680c; P0 0x28dae7547857d6191f159c7b3e72f210005bbcf3f2895f51abc02cd6a43e091 0x40c02a8489e115340e39326c85008b80511a47b1c833565de2c42b022b27bdaf; P1 0x20c14b04465f87307aad5c12dae433fbce5817732c64136e8b9e323bd784aa23 0xe04c3da3ddb6e8cf8cda2186c5fef09cbdbcf701de049d406e7d39dca6a1d72f; P0 0xc485829430a8bf261fc14ad53762e7b6e611b4f12fc962e0cbd82c023a61f2b1 0x67254f2e2c2236e34dc2f952758a6021cfedfec9b3b6ff2d8b9f3e1b9a799ba0; P1 0x531e164e99d1b98dd6d1f7762b7c99395886e61439259473c1c5b61e571347d1 0x55b236190e970c88fb74e4385d6ceb4c5e4f6e95dac71e492b59b9ca1f6859df; P1 0x395fa7f80d4e01efc61f2cd7b74f7aa5398ebb09b756c2196d31cb79a9599730 0x6fbe4e498c7332009ee641f2bb74f9a170eae1a446c9cd9a902a0ca10db6da52; P1 0x618d2ab88b5fb8dce1b3d38443503e5b16f667f8c1a9897f63bf5541f9ced000 0x7203cc3cf56fd547a402454e808362d11a21135c6c92cf19a0136d21970fb488; P1 0x658ec3e9d37be46b70b7a82d3c58c05b503080747deac058d7822e1a13e32019 0xd6417929a8e7096dae696d1ba5c6a56280d7f1b8a771a473731197e0a534b97; P1 0x166a30ea23467f1b101100cbd0f46ea60b6842b1d24079f54c0cb59009fa5ce 0x6a9d803212f2041b0f7c88a0b7750b16dbc591627287516c5da3bfba05369f4; P0 0x2c66cf1021b4940cd35d7c4f8564973f0da3b2968b76a85ca5f7a3e3f4c9c7 0xb22718671aa88d58ea261479bf856e25d7d93a7211949b9333c58431727f7599; P0 0x7bfa63e84eca66589a6d63a747da51f77d3b7625f459436fb8cdb5ced1dcd024 0x3577e59c8205876a02a677d2a907c8ae1f3ff4b389ff24c0773c7d6ee8f4260d; P1 0x1655ba743ce6d178f3f47ef48a288e399b0bd1a3cabdd788e3838af8801a7d9d 0x73cd082c82728029cf2ed00a1139030a9580209c9dc39522998b11f4c09f49a5; P1 0x68c3b31c9240e7f2535f46003a2411326aac21f4bdac944d97b728ca2d7170d4 0xb8c8f07ceddae04c497d3d0c76ddb7a7fadb6e25fd9829e83a1c1517081bb19e; P0 0x8561776cc06a3aca0976f0f0a1b44f35f906e1449f500bc9f91ee0ac5fb394c4 0x58208281a5cb8d6d7fd0fbc14c9f96223479ab85f2af6c1cd1b666b21e717780; P0 0x1e565dda2343b003e654b7d168edd924a2ed1516739b2e6a7231d4015af0bcf6 0x303348bd3f56d6e27e3547df593f814c88a8bbdac73a9d8917e03e32ea2ae82a; P0 0x913458d10e6124304299d89397d259e50642d9dacf8d380186dde7fcf37078f 0xbd18a88125988f972d0644634daef18bd29c6eac255b93b2ce94c28b938617a5; P1 0x1175ad65e88a2fc9c0668b64ca6b90a4256ca875012d543c7c1d0e4fa1c13c80c 0x4c5201649c6a39c0569a8b661d16fed66009e256e6bacb05326e0e48970618e6; P1 0x2d819631702c046675f56c8f3287f6252389fdcfb978797ca47ce8dd8ee0e93c 0xef4d56e310a6c1ec7969bffeb434e1eebf6b1b282cfd80dbeb7743ff0954654c; P1 0x1bf62ff3475bc7530427a91d1f2b9d2d4808950bbf78c72cfb376a57b6b2b1a2f 0xbfd3d73c6e73bf995c44d35cc664786cb137a506ba62a417c355411a6c510941; P1 0x11f7b94f27e4649ef7f3e7a676a706a9c9e0a28a5f2e63bf4106fe666b586ccf3 0xcc618e9b1c9b90c17b4132fa83c8159cace32219b78f52a5b9b7079105b04d1f; P0 0xa32ba07539bfaec4e1cdb432108a2c0bef3996159d7b4258afc61fe68a4e9a84 0x6b5f6ff3e685842c0ef1bcc32bf74b251d2d756c5537de15d4e6e514879bb1fd; P0 0x2d08eb2a57b70906518a98ccfeebe222b42f0cac232bb911fdc9a20c2b8a2f1f 0xba54c9d4714fa660388bb39097b8caa55e6d827d332a064f461df57c5d98703a; P0 0x879f515e4ed0b5a1b9d792b1732c92c6ba37c05dd1922e2607f0991774504aa2 0xa1314acf045b90b41567c3c794571b9d3b1657d000319165f1379cfbdd3bc5e2; P1 0xcafe132d042c6d260085ffadcd495d05b9a0af4a4b52d0567305f3c38a08705c 0xa24f060fceec1caaf1ee4899ba2b497bdeb6d4918ea01f802235a42a1dc65dec; P0 0x66e81c1126b164bfc3c064e97ca1c9df64baf164ee995b633a835779d2a1d135 0xb805bfe13b94b0a0d1ea6fba4aeb27e1d1a097063f2f190979f358c1c79676cb; P0 0x844843f5588c32bc9119763f06e8e783d43ed9436bc47db4af4d0111d9c153a0 0xfc2193277c7997b4c79f93afaca4bf732d4736ddf966d1d6f5a3e4c158e22f59; P0 0xf8521e1dfa25f72cd53d5602c4af09197b09269d4fec6a622ca5ad6f2f149e7e 0x2d537f92243c98cab42cfaa0ff2d1b5691914eefdad51ec701023a219ebd7113; P1 0x100cec2ac2332cf2536889ec0f242067b90238bca7b1b4cc1db83fe93b575f68 0xd15f29db2e59995215496a3167cb79136956d9aadd74ae8337d10d6f8b5856ea; P0 0xab3c85b8a46f2910d3ad3ef1118f4555b97877dd99daceafc1832997f33f5976 0xf65301fc248bf8ab890fd7e61099e20865f0381f225f01f3bdc4bb921ac6b18e; P0 0xed03a2bbccc44808db208bc166b3b767a12292bbc6c06ae277c1b7ff362e3b26 0xd442ea2902629468077b59496634152b6375a2c50246fd32c32f90c4dfee75be; P0 0xaffee5522f4664e04c370e513298827804770a0487f19552df74ae62527ac171 0x72760b192996f6862eac60ad5790bc178100e4eb2bd846fe679679a245efaf43; P0 0x332d5850d7e54f178969e5feeee0103c51d23da866d7d5e9f4b2f4cb0f4f380f 0xa9f7b3d4c2b44fb3a3aa2b5249552cd6adc28fb5cd5d9c1dc2f13609181ec3ca; P0 0x70d8fb1bdccdfd639ce0820d7997bd1775f3706275ae5c21134e1a40a81822e9 0x777da3bb6e13a2d1cdc90d124407bf13d3a9c4c55e0d0b46742b0b96d04ba2ab; P1 0x6f8c17c38bbc07a93b4f88de41928d3133e71c3b54e1cef423df5df09fe4e91f 0xcfd898ba9b44ec0a23cf6e77cfd8bcc14fb7fb89b07e37b03b8ed767d7017ea3; P1 0x1517ffc810bbb315cd5861d85e864d4c8983d91a8b73055d55970dd4aaf4795e9 0x5e27ec226b489108ca6845a82a708bc2fcc1d245cd5e2d92c99e2fae8699bd9; P1 0x4542af466b6d996060185a9dee5afde10cb0e0e98776ef9de7ec4dabc261f2 0x444acbd6dd7b72376a336094649cdf2654d151a692c65f5ed8834b5c84860450; P0 0x1237d224b267e9c8e9c9fe748d428e459c18d652ac7422e7dc9f4b60c05695a0 0xc84a27105a9afa958b11af014d2601b92c9a61dd5531700928fb5eac47ed2160; P0 0x9cb3f284c5b0784d5c86c68828a6bbddb2f805f05a5a832dedcc4425bec5de13 0xcaac25fac417809a1142c907cf5d1ec6d5e1f878c9c7f13dd3d5e320850ce0fd; P0 0xa0741fb36c83288d1d9b54d3721a76fb338445d02a45b6d9bf772615a13ad900 0x2e546f0bf8a741dcc289cd2fa7d5997c540d6fd874940bb6914769294f781109; P1 0x10c4e782cb8a3ec08e5ae4b33151ace2ae539a3dcd9463b84a1324c372a91ded 0x2f4913c619b3d0c039be5199b01a4008da34b91056582714a252f18b77a7aba5; P0 0x8bbea1f0ead9a6f1e7e8fcfbcf4ebfec47468d62935602ff6396c6b205fce22 0x2a4066bee467114e611defe014788dbf7ddf73b12b056ed9aeecb745841ab597; P1 0xdf263d46533c6f5027df298a870f79aeaf306a9f19a92f98bc264ee74681a92 0xdf34c07e4b45ed2cef9a7b5e201badcc5a47c8878a2d89af3feb6b9257b83bf0; P0 0xc29cf23b8dcd090e819b7c38ad74411b0c703ce38bc5c4908175e6b7a6c17d93 0x2540eb0a72f44eb7302b04c741888a7e0af3d5a0cb469a230329140758d0867d; P0 0x56bd46767ac1cc968fdc54608545d5ecb8d7968b6ab2ad5e3f2f4c5dbb35812 0x5d114a50aa4febe66734ef5e8f118b44221b48642080bae82ad36b1a8b57a157; P0 0x21d59129b1dcfd0d634078c2be0452771181cbb4dbd6a5c22edce5fb03a76437 0x7721ec7be785ed438c7a65512a38cddc71a43bc33ba0ebbb187432dc4a18e32a; P0 0x37708e5a3b15704d353265dd8250a762e38e2db75c0e8ec3e9dc05b7724f5b4a 0x6b701700db8deaedac6a41f082243567e4c49235e91d5222dc7706bde087ee7a; P1 0x5a2dc89e0ee194a6a9e8d36ed5fc21a695347f2173334faa05e7c1b1860c1742 0x319001666f27c0c04fb31e67d3626263be206bc54e7385f38b58a02ca5f03e66; P1 0x1330e315a6c957d0a8361d6adc7f14fda5b9d4fc4e8110df60bcdcf55336c07f 0x86901f45f786d86becfd9662147a492cb1611a9c1b45cd0317e5815b61a8de19; P1 0x8d7663c170c9b26ddb3c10918ec59c548e86a423aa8edb66975e2997021d5082 0x4554dfad82afcd94a451b03f6db049546069eec09cb1cfdea7c4bfc264cf79c0; P1 0x258db96e510e486098b7f992267f2d98cafa386afda8b05905d66edadb29c708 0x910fcdfccce6d2994ccb5fd50bcf27609575a8043fd46e1550ebd27802b9fe78; P0 0x5232e8527baf3fbe382a8c60a1cd35d3d3b3dc0e5ffa962bc760b9c2f5dd07f7 0x325ab3b6ec9902ea79c15bf813772c7e37b2bd659d6f9c230c53e3b0c72019; P0 0x9e78e56591b00a331ef1aacbd329285a1482638c4cba903c4a81ca5046a 0xcea6920f16de14c697d732ee607e6ad2d4899ffdaac6c40caa678389540c8ae7; P1 0x14da0fee55d098fbb2ac6d45409ae1fe03876a8f27368a7300fa3aa7408c58de4 0xb66b8a37afd7e87ed73c98005d4c3d62a93b748a2f3426ab6c1a3302edbdfbe; P1 0x103fa2b690a6250ed0afb681a4f4a53cdbd18709b94c42c22c0735871f0c19e 0x2696d561820d07d72294fae00cb39f2c741ed83c6a741f5e8b8a7d1f73fe090a; P1 0xba2406f71199abc803336d6e6ec82ab7d781cd752cf19992c23c56034062679 0x79e60aeaba5cac0588fcac376b2122f0d4a356207e377814dda8305a8206bf7f; P1 0x74168a1378e9d7e89cc0b8256d8af8dba5856d34d90c3b4a65dc7093fdf001a8 0xf7be297b907ac5650afb8e1b7e056fdfc18a460b09eddcafdcc1f6a3fd3fb3da; P1 0x1df81029df56160bf05b89c80208d56115d27839d3e15c8f709cbc2bba8b4449a 0x48971804ed3d40c264ad045265aa78685ad8dd72d9f73dc41eb9033140cb348e; P0 0x149556b0321895f39d6047504f51343c78eff885c362c0525ebf5721d53659c5 0x2044da24e1f28e50157043a087a076bbc0d4b799e3c097fae82bcabd6fa31e6f; P1 0x822921bb411973dc7c74c40f00083120abd8544b9cb5ceeebdfc9b5e32339dd 0x5c9cbc3e1ce10487f3966b4ad2644d0d3c80c9a1d72e730a2ec315042bf72855; P1 0x43020e8578c27c7cad1a23a386bba0492c940ece4a1689d9da974f0f6cf56ffe 0x84611b9772bd761b3634864ddb6b0f42d94441b9dd5a1db8d3530f6186af3314; P1 0x88e89294bd0bd4ec60de74d580d989fa39d2e51261ed86731beb35ad2de07809 0x6bff7fb3e62a62b99cf118f6eb9360cec26fcf1095d1d57fb18714d96237ab47; P0 0x2d8f93c0380f87819da290a24b52cd66c25495566e0753700021eb04e39a437f 0x487c6b74cb5ac85dfc9fafb4c739f886f45f94e1c8cf43b10120d4d2f96c3782; P1 0x290c71d41a5241af822d6b8d2c8ad2db9ff2982b348ccecf70a299478ac1daf3 0x8dd7307ae74c2297e20d2f6e8fccbdbbd4c5d37b1a126bdabada28adbf7dd625; P0 0x4e96c04a28ff7205170d54bb7354568185f8358b02a7b270d9b11c2989464d5d 0xf7bfa2dddb12bd6b019827a70126af6fd4d23b1a4746c0e73c6bca9af9dff5ec; P1 0x1df86b77af657e97ebf704195d59430dd42ffb31a44a37bba352dd037f9aee0ff 0x7d8ea3f2f306ff52ab3ff64bd767dd72750dcc830deab5f386181c609d541771; P1 0x7b29372b92dca9759fc0e3cee647fd91877fc5c26da721ebb7a30172b4f5b4a1 0xbe197d946cf7152d544444ab3ab5aae538aeda9eddfbd0156acb4bf7e17e93d1; P1 0x11a53b1e547005a35f20c90f044dd0eba4a6f7b36923beecbe805cac42fbf08f8 0x10d686fa8bddae410edf9d5d07bfc139ec958b9536e38d7f91d460d42285b2ca; P1 0x237094a8948a15c8bf116c7b0d1d1f9fea44d0b77ed3e8b36e03dd939b6f90b 0x95f37cd42fd5f91297c003b3cb6d46c0ec2a03522c54ec1cc8ab016ffd5eab4d; P1 0xafaaadcb1e6af28483e1169b3aedf44d0e905ad23e4836d3c236e24ea8642062 0x67bcdccf4e1fa8f8d7b9e8e48513960c3fbbf279921043b6d3a24aa624158150; P0 0x2a09850409d6b3a22457e52a736ae54bcf09480ecbff55ce05c2e67e161dc547 0xeaabc379a8c18510e5fbdb56539ef3be8e4e92dc115612654f079527d0e0a89; P0 0xd71e7499f96a3f4b92358f699db85cc6ba1fa627d8337a07b60065403455b8 0x8a9c90ebc73956e95b9a39f63ddc250e0462e33f0775a0c22aa6b873ca504619; P0 0x4b0d2bff6f3be4dc876eecc3833162e2b363c43b9a82c1e9ef6394d2c765c2e7 0xa221d9910d78a03a751981e7f13e4df48ee8edd1a6123cd9338ae37ac71ea05a; P0 0x66aedbd5cc083abf739dedc122d09e4ad038a7e7ba1f0bd135c73a7e75dc8f72 0x664884953fd3936ff52fe739e51bc34a3342e7f9d85005bd4d57efce08edc292; P0 0x28ddde31f0589f877a15bf24073c81d41c47e2d61efa7bd7ba2680c39bc012e1 0x6080a071e9cf5284135f98a8a35602161281a0f68241cb0bc5af4e2d22b21d13; P1 0x48c171ecd4693a3e7c4be6570f81ef677f0917ceb919830b4f2881cd77b4ec03 0x84d67a3a64a9733323df6ce8451647b181d280ea8655990d42a7d0c6bbee82df; P1 0x89dbc37a21714232d0e5c978d374c0dfa9eba89fd6eb702e2fe897b27dbfc82d 0x433e9c459dd78381b32b25b5e69f25c3e19bb538d2dec5d9f9e7dac39012a545; P1 0x2353aa3926cc0746703920590fdae4a6363c1569abd267468e18079156d1c503 0x3d9eced0990912b23259fa0c5723e8b4c8d6bea55f426d6521046af1a2ca443f; P1 0x1daa2226d0a956e5fb8b4bc021d4f48ddbf6569ff132aefc99d9ac7d6b3c384a 0x6514b3b6acac0ef41634d6abb978ea178b4eb1061a68c821904611a5c46c8d98; P1 0x4fd2aef5bdba1bf8794643ffedfc979223a332166a92847007f21737d7c56dab 0xa3d9f34ce79eb2494212025c8f24c52add84510ce6b468f3f779fbd281af2a65; P1 0xd1be8ac56ede3c8eee4b02f99bd60955acb22ac5b84b292f8f3861967fe96b97 0x84ae4fd1cc76d17b1abdf4a3c1bd4a2bad03419319c10cf6a68abdb1969b9eb; P0 0x44c4390139b3daad7e757ab295d458a7948d70aad00b456ca154aac1f3c2de 0x8462ef63fbd2bf83ecc7c1301f242e72a0029093e65951ef029196a972a6bf7b; P1 0x88ec5a3711204e6c5f314eeb867672254193862a16cd4d2188c5b26e5af0f08d 0x3a320827b74e4c681982e7b800012bf21ebef5559427311d71a37a3771f20c95; P1 0x1a756af278209898e9e362e917ad683f912f83bb78fd3fea2afccb13c2ff6a02 0xf3f491feaf43f449e31cae87e9ac0bd25b2ad5f41e77dc61e85624e714bbc8d0; P0 0xe87a36d109f5d209510f6d26f6b6fbd1849b283733f62e8d9f43cf552cb6b457 0x55a32adea354d2f712c2943b829c02077fed779978827c22fccc6afa8de10679; P1 0x394b84ef279bc7976996a5f51b00b5eb4ec394922c7d2f3989656271d43f9ff1 0x7fca934138310e55dcb6bb3f4fca5cc586edb7419c38727df4d65023e5455a21; P0 0x3fca9e67ad2bef31299451b1cb8ed27faedc71b26ee8fbf79e60c904a0b6409e 0xdb45838f6fd173bd62f3f8a499afe601baaaca8296e162efc3d9f38b0969f043; P1 0x177a003f0a81d8368f9dbe280f1e820200ac35d7651c9b04d1e146da762242776 0x2c7732af701919acf51a8d3e71388ab1e1c63800ad19c1ea64bc0196ab20d8bc; P1 0xf7261d8feca1234184ef51a540df5938f208f787340f3d73e7e91497947f63c 0x40de1dc4fab591ed10cb781d98f4ea20a9f3ce2877536362bb606eae0d6bff24; P0 0x106fcf9a32e3a3d7c0a0fbcb2f8946a3cd6a5e4ceaf4f7578556dd182c72b7bd 0xdbdd9b12b14151764e07c824f31bb6e1688567abcf870fd394bbfae12f6f4943; P0 0xbcd4e727d4505750a7cf94781097c04072302409c4444f9f2580f3c42c113c9d 0xdfa8926afd160cb438c1c6416cd7fd36c04ffeac83bcaa7b90c2624dcb2368dc; P1 0x186ce3c2f50fbd51a86ef1e5c75bb81e9a28234cc37806f4ca8b7151697d2a7d8 0xc51203963edefc029d6078319a9fc16270aa523a33518a5ee617bd9e79c5a6c8; P1 0x12f697594ab4b3f50565b4cee2a64f81bed2adcff9495cd4bc58e1f5dd72394d7 0x70ea6e3126c8c80dfb4b0e1a95e6d9f3e6a4929680ac55e025da1748ef05cd79; P1 0x639bee31aa0da7ee06a5812e8b65f67542595a4d6ca29f801548a48c329e551c 0x60a57af0a37cf4a65d842cd59dccc13ffee4a112d50ae0252adf5cbd3100c86; P1 0x48f90e58a8ae7784c0a810664ca3d38b90835edeac35f7d53fd4fa1fb0ae07 0x618cfee1cc4c639d2a1dcec4c01cdf813000390e72fdb58db0ec7eac29f69911; P0 0x252c26cf06ba5669465ba64a7650a634a80ec28fc93215b4917ba9bda675011e 0x1f486ce19b071c6b9867d8b4c7888df2065519c5e00d56bac42d26446f68a2a3; P0 0x3d29edc1494ad5dfc8d49bdf6f72e5aa358bc4fc4065572b985534839f1e7b7 0x586ead6c1fe6d8cb710d9919e8e46a0d9fac708a66c5ffd1fd1060d8d9f5efe2; P0 0x1e8c4713f2e1b74af0a78c47af1594c950cabc677582a7a89c171c311099f5ae 0x5bf479efed9d9a9581e6c3940a42ab98a4ca2e2d7dcbcffff9c7b4285fd8e176; P0 0x2107b8295f6767fabaae87f5e9c807f521027ff4754391f72fb97d1706682ada 0xfa95f6eda6e2a5970ad7df5b36a158d41344c8f9880ba22a40e5aa11923b916a; P0 0xf5493e227e0dc6bb4e74620a981958691cd648c57e61d5db6ef607868f8e4530 0x419f4f793badc8b44de20a9e71935bc8835f168368042bfa5ed564fa43e16bb4; P1 0x21a492fee4c96f11f651126c9cde78975c261e34fe68b2bfe59d164dd2798bc3 0x52c734e0b2f52a17a6eec821acf57f92c1ff17a4e51eaf3740616077455e856d; P1 0x358871c69b571dde1bb5e8082db1a3fafc9b78a96edb9588cee8615d4abd9f14 0x59a3c2d8f8a15e8924ad3211ba2ef7cab2f6352a184916a163c394ebc473a77e; P1 0x3ec68c7961bb505ec95fe66de0f434fc73a33bdc1e74abcde8365bb1a484acec 0x885b0c25dd25d1def963b7ed21249f2722660f08ca5b4cde35c6cfbe4756715c; P0 0x48a0dd4a2717d77f339c1e4c837a3d6404c404b17b1b449b456379a152da3baf 0x291455632f4fdadd3875a81b0c76eabcf90838fb5288776ecee421d949a82bb1; P1 0xd2f09ee7f7302c9df42310cea465787e31ca45bf49f8a4e5ca4c484f66a3d4a 0xe1d28733638bf3aa59be636f3eb33a1d5399d8e9ff633f23e1cffbbec572ca58; P0 0xc733becb33e650060d64c3de5b46dde23041afc9eb0215f5cdf8b0db76e90ca7 0x3952aa0d82fe7e28b6b63c753c09ea8b913cfaa5f016823e7c545ac1af28da69; P1 0x19abd4d6e59238a5d3a77afddc6e35f379aa3c1b7b94b3ac4fc89329836d8b73 0xf029d62a643962cd14ede06537ca27430966027f074d436db9876afb86043fbf; P1 0x1c29cf0cd53f22539e1b2fef7bdda028ebaaffaa9910cfdaaefcf7e8cdbdf842c 0x141ff05ac069fb20477b7caa2d0a81df8c6093bcb3d0a345051fe973b6d7f316; P1 0x32a03148e94e6c96964950ec88e9d3c22d811e7459442d44582539f2cd27441 0x24d8eb5e83c357b168f9898090dca6fe117d02f158090ab6a0ac113671065e37; P1 0xa9b740144835a385041c96272083ce59c8129bc93363681832a14562629aa9e 0x7c3a813023e86594f6f2e1166a9984283f8fd3a7cf1fa013d37eb87f9a8f0da4; P0 0x3c48ba85aa13af797715bc8be630f5ce45e9393bfb5e2c4c59d04be4d50011b5 0x61f2adadbdac51a90613fce88f20802bd9338bb850b6ed5cec6df142215e4dcb; P0 0x2579cdaaa185459bc402d09e299efd164481431846bf991eb8643668dc61144c 0x3e47b8b31c10e3c89b999cf45c0bc806ddf34e532440ce6ccbf435222ad56ed; P1 0x1e4da31d92b50dd591f6137df7f8edf247dd5e7f2c73ac0a001d76dcd5de89 0x34ede80ec69ee26f59f811dc1742e6f05577ef3ba2b916d3d77507667dbf879; P1 0x15e306bb12b134c8960a67727a1698c344ddd9b53dde077aed358f4c1de260 0xbb032818cedb7f992bcd7f22b57334f0ca3f3c9f4b78260c2fa20d846a14d202; P0 0x889d9c9ebdaee53900d44f1e7377a8754a61317558397d731329ccc5a9fa035b 0x766b610d22cd7811be80b70847c83b17b50e25062c22d34d72d5799c59cf1139; P0 0x36c72a8298a2a2015ee63ccc8878fe7a5c8e2124708609ebcd7fc057ff18d7ee 0x9493f7761ccf94318d77b487237b427c4ed78322dbed8fed617063b2663ae663; P0 0x563b6ba70865a77b513769711aa085ade6e6c6586548729340b47883343f326c 0x4ad586371af047c52f2caf0f62c18738428428a1da594495c32200d49e257a1d; P0 0x15e023b08f839d160840c32d6d5331b1c712334a2da5089fb4128fe23d535f30 0xa7a419086c4d06e3581581fc8cea9fd97004e8cbd03ae8c54ff7837cceee9919])]
].
