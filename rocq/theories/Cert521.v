(** * Cert521: certificates of the primality of the field and of the order of P-521.  Written by /verif/tools/gen_primes.py. *)
From Coq Require Import ZArith List.
From Verif Require Import PowCert.
Import ListNotations.
Open Scope Z_scope.

Definition cert521 : list pcert := [
  mkcert 1237 ([], []) 0 [] [];
  mkcert 0xc149 ([(0%nat, 0xc149)], []) 2
    [P1 0x0 0x2; P1 0x0 0x8; P0 0x0 0x40; P0 0x0 0x1000; P0 0x153 0xc55; P0 0xc9 0x51e8; P0 0x22b5 0x47a3; P1 0x3519 0xa671; P0 0x8f53 0x4c36; P1 0x3c19 0x3aa7; P0 0x11cc 0x39c5; P0 0x1144 0x2135; P1 0xb69 0x1; P0 0x0 0x1; P0 0x0 0x1; P0 0x0 0x1]
    [(0x4d5, 0x42c3, [P1 0x0 0x2; P0 0x0 0x4; P1 0x0 0x20; P0 0x0 0x400; P0 0x15 0x2503; P0 0x716 0x42c3])];
  mkcert 0x12675361 ([(0%nat, 0x12675361)], []) 3
    [P1 0x0 0x3; P0 0x0 0x9; P0 0x0 0x51; P1 0x0 0x4ce3; P0 0x1 0x4b03de8; P0 0x131c508 0x1032238; P1 0x2ac242 0xbebc3be; P1 0x172a5923 0x475e3c9; P0 0x114c2df 0xea2f052; P0 0xba3f519 0x10bbe0cb; P1 0x2da5a2ad 0xcc5e85e; P1 0x1a9876a4 0x48b6768; P1 0x35ddd68 0x3ecf258; P0 0xd65c0d 0x35e6653; P1 0x1d99507 0xcfb0014; P0 0x927c8c5 0x7ca0feb; P1 0x9e3f3c9 0xe439b02; P0 0xb0e3fa0 0x10807064; P0 0xecbde7e 0x437f52; P1 0x2e6a9 0xada31c3; P1 0x1332c5a7 0x10d5a654; P0 0xf66383a 0x68cef96; P1 0x6fea6c0 0xf0ed4ec; P1 0x24f621a4 0x990418c; P0 0x4f83e8f 0xe675361; P0 0xb45e401 0x12675360; P0 0x1267535f 0x1; P0 0x0 0x1; P0 0x0 0x1]
    [(0xc149, 0xbfd68af, [P1 0x0 0x3; P1 0x0 0x1b; P0 0x0 0x2d9; P0 0x0 0x81bf1; P0 0x392 0xd35088f; P0 0x97a5cf7 0x89cf14a; P1 0xc17cc66 0xb81b786; P1 0x15955ab6 0x109c2d76; P0 0xefdc6bc 0xca77128; P0 0x8b36530 0x81c6f10; P0 0x39326d2 0x8d9156e; P0 0x440fe66 0x21c49e; P0 0x3df5 0xbfd68af])];
  mkcert 347 ([], []) 0 [] [];
  mkcert 1663 ([], []) 0 [] [];
  mkcert 0x8f15d941 ([(0%nat, 0x8f15d941)], []) 3
    [P1 0x0 0x3; P0 0x0 0x9; P0 0x0 0x51; P0 0x0 0x19a1; P1 0x0 0x7b285c3; P1 0x13e0416 0x572ce805; P1 0x9f5609c4 0x41cf9187; P1 0x5acea953 0x2e554680; P0 0xf00da4b 0x8f023ff5; P0 0x8eeea958 0x2171e921; P0 0x7d145cc 0x17667175; P1 0xb7b07b6 0x64d94335; P0 0x47146411 0x6019f7a8; P1 0xc1a2c94d 0x3de87933; P0 0x1ac916a1 0x285f0848; P1 0x222c0558 0x5b30c968; P1 0xae5a03c5 0x54277cbb; P1 0x947bc620 0x2240a3ab; P0 0x83314d9 0x5bb1f820; P1 0xb0495ca4 0x3e9e825c; P1 0x52368af4 0x662e973c; P0 0x48f8b7ca 0x3e64f1c6; P0 0x1b353850 0x5b3748d4; P1 0xae72dd68 0x5d106f48; P0 0x3c87a903 0x826b0f7d; P1 0x1649e0e25 0x5c21b4b6; P0 0x3b52ac36 0x7816f1ae; P0 0x64ca24b9 0x436fee4b; P0 0x1fc89fc2 0x2a9387b7; P0 0xcab4001 0x4b6b90; P0 0x27c0 0x8f15d940; P0 0x8f15d93f 0x1]
    [(0x67f, 0x65667c72, [P1 0x0 0x3; P0 0x0 0x9; P1 0x0 0xf3; P1 0x0 0x2b3fb; P0 0xd 0xa58efcc; P0 0xbf8fb8 0x895014d8; P0 0x83c5eea0 0x90b3fa0; P0 0x9256c9 0x315ab9f7; P0 0x110617fb 0x2d4c1296; P0 0xe570511 0x75a0bd93; P1 0x122196dd5 0x725fb726; P1 0x112455f58 0x700b3f94; P0 0x57bc9c19 0x1a405a37; P1 0xe72e13e 0xdb168b5; P1 0x3ee6230 0x16a711bb; P0 0x39614fd 0x1a8d955c; P0 0x4ed761f 0x385f431; P0 0x163590 0x1bfcc7d1; P0 0x5796d75 0x6e38a0ec; P0 0x54e7c644 0x56eade4c; P0 0x34cc549e 0x65667c72]);
     (0x15b, 0x524493f4, [P1 0x0 0x3; P1 0x0 0x1b; P0 0x0 0x2d9; P1 0x0 0x1853d3; P0 0x422 0x7ab6a147; P0 0x693def31 0x2c0f1d40; P1 0x28b33def 0x77e95f51; P1 0x12d791d2d 0x1ba11976; P0 0x555ca9f 0x69600905; P0 0x4d9a7d20 0x122774f9; P0 0x24da6db 0x70329996; P1 0x107eed7e0 0x82343bcc; P1 0x163727661 0x6f29b80f; P1 0x10316619c 0x8a32ae07; P1 0x1906ebddd 0x65ed0276; P1 0xd9d18106 0x2b7852a6; P1 0x279e8345 0x52be7967; P0 0x2fd97f2f 0x37936582; P0 0x15960fd9 0x6535deeb; P0 0x47972b1a 0x1d5d701f; P0 0x606c835 0x5eda614c; P0 0x3ee1171e 0x3f3561f2; P0 0x1bec30d0 0x524493f4])];
  mkcert 11 ([], []) 0 [] [];
  mkcert 397 ([], []) 0 [] [];
  mkcert 0x2db633 ([(0%nat, 0x2db633)], []) 2
    [P1 0x0 0x2; P0 0x0 0x4; P1 0x0 0x20; P1 0x0 0x800; P0 0x1 0x1249cd; P1 0xea22d 0x15cf5b; P1 0x14cfdc 0x2cc3de; P0 0x2bd68d 0x1ef86d; P1 0x29f744 0x242246; P1 0x39202f 0x782eb; P0 0x13bf9 0x268b1e; P1 0x40ff9b 0x191127; P1 0x1b7df7 0x15b5ad; P0 0xa4f7b 0x21cf68; P0 0x1901e0 0x28baa0; P0 0x244a17 0x1ac76b; P1 0x1f601f 0x1ddd45; P1 0x270599 0x1e85b7; P0 0x146152 0x11f97b; P0 0x7115f 0x1812c; P1 0x195a 0x2db632; P0 0x2db631 0x1]
    [(0x18d, 0x168d1e, [P1 0x0 0x2; P1 0x0 0x8; P1 0x0 0x80; P0 0x0 0x4000; P1 0xb3 0x99a57; P0 0x2046f 0x19fd74; P1 0x1d8dd5 0x349b1; P1 0x7914 0x881c6; P1 0x32a90 0x1e6f98; P1 0x2887a5 0x700a1; P0 0x1129b 0x1e7e60; P1 0x28af0c 0x1be09c; P0 0x110046 0x168d1e]);
     (0xb, 0xe4bd4, [P1 0x0 0x2; P0 0x0 0x4; P0 0x0 0x10; P0 0x0 0x100; P0 0x0 0x10000; P1 0xb33 0x1082d7; P0 0x5f6bc 0x19411d; P0 0xdf3c7 0x27b2a4; P1 0x44f341 0x27462d; P1 0x437c7c 0x27531e; P1 0x43a8fd 0x2966a1; P1 0x4afe42 0x1fcf5c; P1 0x2c45a5 0x25a441; P0 0x1eff09 0x1b23b6; P1 0x2039d9 0xdbe8d; P0 0x421f0 0x436d9; P1 0xc6ec 0x11ede; P1 0xe10 0x1763d8; P0 0xbf7e4 0xe4bd4])];
  mkcert 0xf3bc7def1 ([(0%nat, 0xf3bc7def1)], []) 3
    [P1 0x0 0x3; P1 0x0 0x1b; P1 0x0 0x88b; P1 0x0 0xdaf26b; P0 0xc4a 0xd1d90bb0f; P0 0xb4abcf997 0x451d601ba; P1 0x3acb97cf2 0x369da759a; P1 0x24b6ecb11 0x3a04d78eb; P1 0x296eb2b26 0x2d418e465; P0 0x8672a0bc 0x6a743b6dd; P1 0x8b7bf9ff1 0xea977607a; P1 0x2a55ec98f9 0xa60643e03; P1 0x1534514f9b 0x4e6070130; P1 0x4b9bf9d1e 0x7ddef4dc2; P0 0x4100a970d 0x488c9cdc7; P0 0x159839ffd 0x721944d84; P0 0x35698c239 0x7a48d6667; P1 0xb80db0984 0xbb9344b0f; P1 0x1b110697bc 0x1c05f80a7; P1 0x9aa75362 0x59cc9cb91; P1 0x6340f1446 0x110830e7d; P1 0x3920df74 0xaa55ac6e7; P0 0x7709bea62 0x43abf822f; P1 0x385da733a 0x20e588849; P1 0xd51e9f85 0x80cac6c3e; P1 0xcc2a051e0 0xdce2fc92c; P1 0x2588992154 0x53d5f269c; P0 0x1cd6117ce 0x77f6ca222; P1 0xb1226c972 0xd374aa53a; P1 0x22659e9ef7 0x9dd549ae5; P1 0x1329e2fa55 0x3bf2a9286; P1 0x2c3bb6a02 0x26c94d28a; P0 0x62c12bef 0x5d4fa1465; P0 0x23b90c179 0xf3bc7def0; P0 0xf3bc7deef 0x1; P0 0x0 0x1]
    [(0x2db633, 0x9cead7ef2, [P1 0x0 0x3; P0 0x0 0x9; P1 0x0 0xf3; P0 0x0 0xe6a9; P1 0x0 0x26f7c52b3; P0 0x63ae5af8 0xc895075b1; P1 0x1ef34a4da6 0xc8ddebfdd; P0 0xa5899b86b 0xc0a471e0e; P1 0x1c8c705c97 0xee96ebe25; P0 0xe98d2c40d 0x6457e1b1c; P1 0x7bee2bd4b 0x99d648395; P0 0x61189790b 0x2781a575e; P0 0x66749d11 0x465b56b83; P0 0x144f24c4e 0x1417d4b9b; P0 0x1a80bd57 0x9cead7ef2])];
  mkcert 1433 ([], []) 0 [] [];
  mkcert 227 ([], []) 0 [] [];
  mkcert 0x5c39 ([(0%nat, 0x5c39)], []) 2
    [P1 0x0 0x2; P0 0x0 0x4; P1 0x0 0x20; P1 0x0 0x800; P1 0x163 0x1cf5; P0 0x917 0x385a; P0 0x226e 0x4d26; P0 0x4089 0x4723; P0 0x36df 0x1322; P1 0x7f0 0x1c98; P1 0x11bb 0xddd; P1 0x42a 0x5c38; P0 0x5c37 0x1; P0 0x0 0x1; P0 0x0 0x1]
    [(0xe3, 0x2d2e, [P1 0x0 0x2; P1 0x0 0x8; P0 0x0 0x40; P1 0x0 0x2000; P0 0xb1a 0x2f36; P0 0x182b 0x9d1; P0 0x10b 0x2d2e])];
  mkcert 0x625a8944af99 ([(0%nat, 0x625a8944af99)], []) 3
    [P1 0x0 0x3; P1 0x0 0x1b; P0 0x0 0x2d9; P0 0x0 0x81bf1; P0 0x0 0x41c21cb8e1; P1 0x83e558b6 0x4d365e26327d; P0 0x3c9d8dd2027f 0x15a1e01cc222; P0 0x4c2062ca843 0x4815c6252f79; P1 0x9e7f3f3a0c66 0x33e07013d29d; P0 0x1b5cc6e179a0 0x33f0632de3a9; P1 0x5248d6366335 0x768b236eb06; P1 0x1aca239747e 0x107c68734b1e; P0 0x2c36bf6d1df 0x3e259cc7b83d; P1 0x75ce844077cc 0xa2bc7ad2eaf; P0 0x10d438d4a74 0x394362e2904d; P1 0x6404db603eb7 0x398fa8df911c; P0 0x21afffb06de4 0x152d40e831cc; P0 0x48f437e5267 0x4e9898401201; P0 0x3eceb5414d78 0x72a6de7cf49; P1 0x190f3cbf056 0x58cfbbb9fb0d; P0 0x5031ede8c817 0x306f06f92fea; P0 0x17d9d4a15a27 0x505e03c03795; P1 0xc502a215fed3 0x4e6239508d10; P0 0x3e77ed98efe8 0x4abe29b3a758; P1 0xaa666a61cefa 0x557b2023156; P0 0x4a4b0621d8 0x2fb6c9ad26cc; P0 0x1725b9303539 0x49a287436c7f; P0 0x3720e9019491 0x11184707d58; P1 0x8e9eb99de 0x2fed76277312; P0 0x175ae3b82c8b 0xcdfa3c38931; P0 0x1af5e798db7 0x48918e09b002; P1 0xa0a1661e50f9 0x4d7aaed7a43b; P0 0x3d090035babb 0x32a9f10736d6; P1 0x4e4b304579fc 0x2fb94b7fc510; P0 0x172827fbb912 0x3acbb9d4b73e; P1 0x6971c280e2fe 0xbcd45e1cd3e; P1 0x43f9a9173f2 0x49dd6920576a; P1 0xa66ba54686ca 0x5e39e01902f2; P1 0x10ed0ad6ef3ff 0x151e730ee1e5; P1 0xd9ab1277c89 0x5f9d6b01efaa; P0 0x5cf3d2b29748 0x3c69226c3adc; P0 0x251afa98cd34 0x54be97bf3cfc; P1 0xdb0e29cf0620 0x4607c142bf10; P1 0x95970ba6cfa8 0x625a8944af98; P0 0x625a8944af97 0x1; P0 0x0 0x1; P0 0x0 0x1]
    [(0x5c39, 0x18f9222bf24b, [P1 0x0 0x3; P0 0x0 0x9; P0 0x0 0x51; P0 0x0 0x19a1; P1 0x0 0x7b285c3; P0 0x9a 0x15585fbe907f; P0 0x4a1e7ff6c20 0x2417f5019fe1; P0 0xd3edb4c0a1c 0x48796d01505; P1 0xa036a62a6e 0x227dae04e88d; P0 0xc186ab9243c 0x2bb3af4c31cd; P0 0x136b122a9c5c 0x27b2209dc72d; P0 0x10057684122b 0x32693462bd36; P0 0x19d688ef8b8c 0x3fe4c471acb8; P0 0x2981de93c474 0x38c4628c0eec; P1 0x624b1fd4216d 0x5610ca667f8b; P0 0x4b5011213639 0x4c406540d668; P0 0x3b1dc1b7e0a8 0x5a42e979edd8; P1 0xf88134fbd228 0x30559fb300d8; P1 0x474282927eb5 0x3e96c6f2ad93; P0 0x27d45bd55bed 0x4fee074d0ec4; P1 0xc2df16587f7d 0x400934076d7b; P1 0x7d13c92d5da6 0x2f25756a7915; P1 0x43ccab0a27f6 0x1a47a43f8725; P0 0x7059be29178 0x2b4f4bd412a1; P0 0x131242536584 0x2ed3f0b6215d; P0 0x164baadf9299 0x39c70e1be758; P1 0x65d2e1cfc0c6 0x31d94563a6a; P0 0x1943cfdfe3 0x564f47f73839; P1 0xe338c3b5eb71 0x338f2255008a; P1 0x5115d0eab33f 0x39596a63ad85; P0 0x21709f902ea6 0x1bf9a753abe3; P0 0x7f50624fc3c 0x34a60223476d; P0 0x1c2ebea0adce 0x18f9222bf24b]);
     (0x599, 0xc6c21f3c768, [P1 0x0 0x3; P0 0x0 0x9; P0 0x0 0x51; P0 0x0 0x19a1; P1 0x0 0x7b285c3; P1 0x1ce 0x40091f3bb17d; P0 0x29b127facd23 0x1dc80140901e; P0 0x9048821a5ca 0x47d71c0897ca; P1 0x9d6c25cc44d3 0x519fa6b26311; P0 0x43bd499f678e 0x23c27e333143; P0 0xd006b800474 0x525e98cec235; P1 0xcef30061a81c 0x465a9228802f; P0 0x325338c48f73 0x5cb5f9c9afe6; P0 0x57644b28b775 0x2ddd0335a2b7; P0 0x1562f4b5ffe0 0xa8f8f0211f1; P0 0x1224bc8fc14 0x18ae2e4590ed; P0 0x6317431a230 0x31517984bcb9; P1 0x4a30ad970f8c 0x5a78139fba67; P1 0xf9a6493d2bf6 0x1ff82f0f104d; P0 0xa643c953c75 0x89c4a769a3c; P0 0xc0fa5062e0 0x1dc68b1a0630; P1 0x1b0af0b52e61 0x2cb633f1d407; P0 0x14537651cbfa 0x4f55150ec9c7; P1 0xbff8193f36b8 0x3005b65ace1b; P1 0x4657a4935d7a 0x2604a76120a1; P1 0x2c16585faac5 0x4c8864423506; P0 0x3b8d98c54a7d 0x1aa6380a846f; P1 0x15a984796d97 0x5e1d6df34024; P1 0x10e2d42e0957b 0xb136f29a3ad; P0 0x13f4ea30665 0x3b90ab6de58c; P1 0x6c38c764380e 0x283bde343b52; P0 0x107566c43ebf 0x310eb24d51d; P1 0x49684c7680 0x3faa09ff7d5b; P1 0x7ba11bd893d7 0x1c681667a68c; P0 0x83454b3fc04 0x4c14c319822c; P0 0x3ada2d199e09 0x52f5740d1d2f; P0 0x45f9401a38a1 0xc6c21f3c768])];
  mkcert 151 ([], []) 0 [] [];
  mkcert 223 ([], []) 0 [] [];
  mkcert 0x838901 ([(0%nat, 0x838901)], []) 2
    [P1 0x0 0x2; P0 0x0 0x4; P0 0x0 0x10; P0 0x0 0x100; P0 0x0 0x10000; P0 0x1f2 0x1f7c0e; P1 0xf128c 0x6322fc; P1 0x956fbd 0x473b63; P1 0x4d267f 0x7d7313; P0 0x77a539 0x39ed30; P0 0x198298 0x5d0e68; P0 0x41d578 0x787cc8; P1 0xdcbc34 0x74284c; P0 0x6693d4 0x38cebc; P0 0x1888bb 0x3d7e55; P1 0x397f45 0xf242d; P0 0x1be32 0x22fb7; P0 0x94d 0x5f7684; P0 0x45487e 0x4b3d92; P0 0x2b09f7 0x75ae4d; P0 0x694929 0x838900; P0 0x8388ff 0x1; P0 0x0 0x1; P0 0x0 0x1]
    [(0xdf, 0x4a213b, [P1 0x0 0x2; P0 0x0 0x4; P0 0x0 0x10; P1 0x0 0x200; P0 0x0 0x40000; P1 0x3e47 0x56c2b9; P1 0x727465 0x6651fd; P1 0x9f303b 0x1c64d7; P0 0x62117 0x403c7a; P0 0x1f5eca 0x11f15a; P0 0x27294 0x6eed10; P0 0x5d8bc3 0x54ba3d; P0 0x36939e 0x7490eb; P0 0x674cef 0x2103ca; P0 0x8495d 0x404d07; P0 0x1f6ef6 0x4a213b]);
     (0x97, 0x34d10d, [P1 0x0 0x2; P1 0x0 0x8; P0 0x0 0x40; P1 0x0 0x2000; P1 0xf 0x4af8f1; P1 0x557730 0x217e92; P1 0x110ee5 0x377aa3; P1 0x2eccce 0x607cc4; P0 0x46c732 0x57ecde; P0 0x3ac626 0x56f45e; P0 0x397bc3 0x2d7bc1; P0 0xfba48 0x14c539; P0 0x347a1 0x1d5610; P0 0x68af6 0x48900a; P0 0x2807a6 0x7962be; P0 0x7004f7 0x34d10d])];
  mkcert 0x970f5727 ([(0%nat, 0x970f5727)], []) 2
    [P1 0x0 0x2; P0 0x0 0x4; P0 0x0 0x10; P1 0x0 0x200; P0 0x0 0x40000; P1 0x36 0x22c39dc6; P1 0x10003878 0xf7f8800; P1 0x32e1b63 0x495e2eeb; P0 0x23a2451e 0x31359227; P0 0x1007c878 0x283e2fa9; P0 0xab88a3c 0x18200a6d; P0 0x3da599d 0x65c1b07e; P1 0x89170ce0 0x6e4fe5e8; P1 0xa11c97bc 0x1c61c2dc; P1 0xaaa40f3 0x1ed4e01b; P1 0xc95e4e5 0x31c3d3cf; P0 0x1064fd42 0x446de53; P1 0x3dff03 0xba73f5d; P0 0xe62377 0x1aef0fa8; P1 0x99ac3d4 0x24bd5b34; P0 0x8ef803b 0x59c06c93; P1 0x6aa6b405 0x1b3a990f; P1 0x9d0eeba 0x8dc2496c; P1 0x10a0fad33 0x9240d35b; P0 0x8d99772c 0x7e8a06a5; P0 0x69ffacbe 0x5b464367; P1 0x6e4d0c72 0x5a808384; P0 0x36389077 0x73e0e8ef; P0 0x58e40c49 0x5e006102; P1 0x74fd88fb 0x29a2dccb; P1 0x16f3bd27 0x1; P0 0x0 0x1]
    [(0x838901, 0x96a97d62, [P1 0x0 0x2; P0 0x0 0x4; P0 0x0 0x10; P1 0x0 0x200; P0 0x0 0x40000; P0 0x1b 0x1161cee3; P1 0x4000e1e 0x3dfe200; P1 0x32e1b6 0x20e8c346; P0 0x72b616e 0x96a97d62])];
  mkcert 0x8425296b5bdf ([(0%nat, 0x8425296b5bdf)], []) 3
    [P1 0x0 0x3; P0 0x0 0x9; P0 0x0 0x51; P0 0x0 0x19a1; P0 0x0 0x290d741; P1 0x26 0x226b806b1869; P0 0x8f72312b1a4 0x445b41fd135; P0 0x235c128a07 0x7d5342a9dbe0; P0 0x76db76c007e3 0x399b2fa37443; P0 0x191cc2121507 0x4a3677f7fb70; P1 0x7d08a39b63cc 0xf92b825004c; P0 0x1d5d44c0340 0x7830c6d981d0; P0 0x6d51408d6080 0x2dd5c27eb980; P1 0x2fb1aeefb565 0x79d5cabdd605; P0 0x705458e2e533 0x41db8dde93ac; P1 0x62770f48f6a8 0x5ffa82085e58; P0 0x45b5d76e7058 0x5f1d70599998; P0 0x447627fb9aea 0x7142a9cbea6a; P1 0x123392d5d7440 0x34e418cad7ec; P0 0x152b69e7a365 0x3789a67b0595; P1 0x4606181e386e 0x5c0dd78b3859; P0 0x4020470a58b6 0x7c30f16f1667; P0 0x74b74972ab1a 0x8126f1b493cb; P1 0x17aae3e42517b 0x3643923b95c6; P0 0x16486b8ca504 0x673cee0beaa8; P1 0xf1f690409732 0x565c52ae3032; P1 0xa95142b65b4d 0x7e8851a37639; P0 0x792880f5f169 0x4efd5a3dfb3a; P1 0x8da5e37251ae 0x6381a3345ada; P0 0x4aeddbe12100 0x555d49f742a4; P1 0xa56eff1758e3 0xc691a2cc73; P1 0x37f24990f 0x21d8dcebc9ea; P0 0x8ab61eccd78 0x44c2ef64a65c; P1 0x6b56f42f1c4a 0x97062ec60ba; P0 0xac99acf9e9 0x6816c395822d; P1 0xf5f7dd74b164 0x4fd27d3a219f; P1 0x90a6549d6d62 0x4a3a7e6903e5; P0 0x29b211625cd4 0x54c3c19ef22d; P1 0xa31e01081f44 0x7b754d52eb7f; P1 0x15a06e7207196 0x6a39f6a5f759; P1 0x1002c8c20924d 0x17035b94c6c0; P1 0xc05f1d57b27 0x90d74de8c07; P0 0x9ec1b472a8 0x1edccb920fd9; P1 0x159fb032b606 0x6f5d221ac099; P1 0x1198d3907dc6e 0xf93c2bf7481; P1 0x582396da9da 0x5553ca84081d; P1 0xa54a30fd41a3 0x8425296b5bde; P0 0x8425296b5bdd 0x1]
    [(0x970f5727, 0x3ef3a0009f69, [P1 0x0 0x3; P1 0x0 0x1b; P0 0x0 0x2d9; P1 0x0 0x1853d3; P1 0x0 0x6ef79077fbb; P1 0x1178c8fc602 0x4ed06469060d; P1 0x8d04d1627db2 0x2029e98c11ed; P1 0x177c535988d3 0x62caa999cf6e; P1 0xdd91db07042a 0x3d0dbf87ab36; P1 0x549fc4620456 0x48834d813542; P1 0x775f18c2bab9 0x22b8cc75c4e5; P1 0x1b5ebe141ce4 0x626a492e27ef; P0 0x494b751f8ea7 0x17b111f10a8; P0 0x43f60aef9 0x47c4c3478059; P1 0x74eefa9007ff 0x78c47241c0b2; P0 0x6e5e848c0f05 0x3ef3a0009f69])];
  mkcert 7 ([], []) 0 [] [];
  mkcert 2437 ([], []) 0 [] [];
  mkcert 0x8c8fd5 ([(0%nat, 0x8c8fd5)], []) 2
    [P1 0x0 0x2; P0 0x0 0x4; P0 0x0 0x10; P0 0x0 0x100; P1 0x0 0x20000; P1 0xe91 0x84e25b; P0 0x7da03c 0x24f66d; P0 0x9b845 0x1cce00; P1 0xbce3d 0x25543f; P0 0x9e9db 0x4a7f4a; P0 0x277bb5 0x2278cb; P0 0x87438 0x56f661; P1 0x6b9a74 0x56d2fe; P1 0x6b42f4 0x66704; P1 0x954f 0x311465; P1 0x224629 0x729895; P1 0xbada8a 0x47a2a0; P1 0x490403 0x7bc481; P0 0x6cfadb 0x3abbca; P1 0x31155c 0x7c4d3c; P0 0x6dec2a 0x14311e; P1 0x5cd19 0x28623b; P0 0xb9a31 0x8c8fd4; P0 0x8c8fd3 0x1]
    [(0x985, 0x75e0b5, [P1 0x0 0x2; P1 0x0 0x8; P1 0x0 0x80; P0 0x0 0x4000; P1 0x3a 0x2769be; P1 0x161a41 0x88aaf3; P0 0x84e1af 0x31b0e; P0 0x1191 0x5581f; P0 0x3404 0x21d06d; P1 0x1044da 0x5f8d70; P0 0x40f4a1 0x87180b; P0 0x81d6b4 0x75e0b5]);
     (0x7, 0x6bf6bc, [P1 0x0 0x2; P0 0x0 0x4; P1 0x0 0x20; P0 0x0 0x400; P0 0x0 0x100000; P0 0x1d23e 0x23706a; P0 0x8ef61 0x26912f; P0 0xa94fc 0x738cf5; P1 0xbdfac9 0x61d4b5; P0 0x441716 0x51c8ab; P1 0x5f2b63 0x73de13; P0 0x5f82f1 0x4e63e4; P0 0x2bb7b3 0x94e21; P1 0x13b64 0x70fa4e; P0 0x5ace8b 0xaf11d; P0 0xda0c 0x497d4d; P0 0x266c17 0x518106; P1 0x5e84ef 0xbfc6d; P1 0x20b4d 0x6a22c1; P0 0x502427 0x57f80e; P0 0x370de8 0x6bf6bc])];
  mkcert 0x59c5dc899 ([(0%nat, 0x59c5dc899)], []) 2
    [P1 0x0 0x2; P0 0x0 0x4; P1 0x0 0x20; P1 0x0 0x800; P0 0x0 0x400000; P0 0x2da 0x1c91fbb6; P1 0x122f5aa 0x102c1282e; P1 0x5d3a0df6 0x9a5c4882; P1 0x212d4f6d 0x4b33823e3; P0 0x3efea81b6 0x38abc2583; P0 0x23c65012c 0x11ba30dbd; P0 0x38026306 0x36572def3; P1 0x41c92fde2 0x443e06940; P0 0x33e01dd31 0x2208d15b7; P1 0x19ce5b775 0x32cbc04b5; P1 0x397bbd535 0x415c77b45; P1 0x5f2ce87bb 0xaada8a6f; P0 0x1452a2ab 0x27b500bee; P1 0x2320129a6 0x3e130e52; P1 0x55d8157 0x56f68df89; P1 0xa87b85ba2 0x53a609ad0; P0 0x4df12bcec 0x52179ff4; P0 0x4b119c8 0x50a245808; P1 0x90d9b6020 0x310758d60; P0 0x1ac6cf8fa 0x8d5cc696; P0 0xde99441 0x24dd2fd0b; P0 0xf2340658 0x36a2633e1; P1 0x427fc6db7 0x40f8f4d23; P0 0x2f05fb68e 0x314ef07eb; P0 0x1b153ba4a 0x57928b7f; P1 0xaada126 0x4bb45524c; P1 0x7fae695c8 0x59c5dc898; P0 0x59c5dc897 0x1; P0 0x0 0x1; P0 0x0 0x1]
    [(0x8c8fd5, 0x1b01649a5, [P1 0x0 0x2; P0 0x0 0x4; P1 0x0 0x20; P0 0x0 0x400; P0 0x0 0x100000; P0 0x2d 0x38383bd1b; P1 0x466a13701 0x38df61a19; P1 0x480f352b8 0x31285fcea; P1 0x35d5dddd3 0x20df5a0ad; P0 0xc097adc2 0x2901a4bf7; P0 0x12bb1bc8b 0x239b1613e; P0 0xe1f3bcb7 0x1b01649a5])];
  mkcert 0x9d1a41f0bd ([(0%nat, 0x9d1a41f0bd)], []) 2
    [P1 0x0 0x2; P0 0x0 0x4; P0 0x0 0x10; P1 0x0 0x200; P1 0x0 0x80000; P1 0x0 0x8000000000; P0 0x6849decb14 0x4b000d523c; P1 0x479c127301 0x8916542463; P0 0x779f3437ed 0x426fb8450; P0 0x1c1851a1 0x44dae66523; P0 0x1e2d89414d 0x84ccbe3cf0; P1 0xe0835108eb 0x82f8a7dc81; P1 0xda5f80eba8 0x2a77b476fa; P0 0xb7ad051d0 0x7b148c0594; P1 0xc0da0abbf4 0x1ae8e8b7fc; P0 0x49bfcf872 0x31c159f3e6; P0 0xfc1fde4b5 0x359779e903; P1 0x249020def3 0x39c2dd82ab; P0 0x153c9eba2d 0x8aa2c97b00; P0 0x7a5702429f 0x7ff599c09d; P0 0x6838ed5379 0x884d64cff4; P0 0x7641899c6a 0x770766a64e; P0 0x5a2eaf9294 0x30e5934880; P1 0x1e6ff7dbd1 0x29cee46b3; P1 0x16408330 0x6a48e6e7e2; P1 0x8fcf56309e 0x73f3ef4262; P1 0xab29b5c2c8 0x4f29d10d60; P1 0x4fc7b9aec1 0x18adf9d383; P0 0x3e08143a6 0x673996a37b; P0 0x43d30d7aaf 0x46622339e6; P0 0x1f88493f85 0x4b0d96a573; P0 0x23daf70ef9 0x209e08f3d4; P1 0xd8b3c45cc 0x8aed3d8784; P0 0x7ada8ccd11 0x6c1f202683; P1 0x94d2d0d714 0x24af30c44e; P1 0x1121cac976 0x947d03b36a; P1 0x118b160c287 0x2a75da21d; P1 0x16f39fcd 0x54ebb4439; P0 0x2de73f99 0x9d1a41f0bc; P0 0x9d1a41f0bb 0x1]
    [(0x59c5dc899, 0x10000000, [P1 0x0 0x2; P1 0x0 0x8; P1 0x0 0x80; P0 0x0 0x4000; P0 0x0 0x10000000])];
  mkcert 0x5051b81d55887b9 ([(0%nat, 0x5051b81d55887b9)], []) 2
    [P1 0x0 0x2; P0 0x0 0x4; P1 0x0 0x20; P0 0x0 0x400; P0 0x0 0x100000; P0 0x0 0x10000000000; P0 0x32ff1b 0x2b41a80ce56687d; P0 0x174bcb61ee0e7eb 0x42b3fbd60054736; P1 0x6eca56aaf9af2a7 0x9657dbe7e9319; P0 0x1196a629040c 0x17ecd57283b77c5; P1 0xe40e06df11429f 0x4f8f6327a6a7d4b; P0 0x4ecee4614928fb0 0x4b89fe67f3eadc9; P0 0x470b191a058da50 0x1c596a6ba7f5401; P0 0xa018f6d058b5a3 0x2e10ab481a27036; P1 0x34d6ca9cc8f5597 0x17f8d09ca6f1ba9; P1 0xe4f2a8996e748b 0x60fac89006a5af; P0 0x751889f878bb8 0x3a6c2952c8d0da9; P1 0x54fd97f25013bd9 0x494a651c5bd8451; P1 0x85c10dba0d35b90 0x1238a79a4752832; P1 0x8447525631749c 0x2537d2d682bcacc; P0 0x113ef8edb1dfc0c 0x2072121b87919e4; P0 0xd1b4dba8aa71cb 0x2adaf0a72300a5d; P0 0x16ddab9ab43d5ff 0x2c3c32772c44782; P0 0x185cb5460304b79 0xa1c2b7c1be0493; P0 0x145c802164b2a2 0x30d9f0602a06757; P0 0x1db64b9d1f87478 0x2aec9680f3facd9; P1 0x2de1092adec4c4d 0x1232695538ce13d; P1 0x83ecbc689df1dd 0x236e9f574213d5d; P1 0x1f42d9f276a9cd7 0x3fde795cfb62f33; P0 0x32c9bbe3e1ca185 0x216a6dd74a1e80c; P1 0x1bcde98a4f67a12 0x3541e27022dcc1e; P0 0x23503c94377f971 0x2e678c61335f9db; P1 0x359ed5e7adf0a8b 0x4a94e9248d973f; P0 0x454106790004c 0x1ea4f048f691695; P1 0x17622db989f4d96 0x498ef835d6ba0c; P0 0x435de72babeeb 0x36459acffdb8bbd; P1 0x4957e2ef375c0ee 0x47bab066ea3a514; P0 0x400ed71f6e01b5e 0x31ec6b09d3870a2; P1 0x3e0fb01189ddf36 0xc285b7a5808502; P1 0x3ae36be1c6de9d 0x2c444f387227d93; P0 0x1865a59aa9f5ab6 0xac296bb0165ae3; P0 0x1710609e8170ff 0x6da0430e7f4402; P0 0x95a0537e33173 0x1ae2b51e342aee9; P1 0x11ffc0c9790ed9d 0x440ce5a77499ead; P0 0x39a7d6aa075adf3 0xe24d06b8b6274e; P0 0x27d9b61025f58d 0x3c509469f8d0ddf; P0 0x2d4aebb0801ffcd 0x1faf2b2f397721c; P0 0xc7fafc56445947 0x12e09c2d203fdc1; P1 0x8df9c927ad67d2 0x12b75af9bda5240; P1 0x8b8fe2d9064d4f 0x1f25ce5e85f98e9; P1 0x1828763d37355e3 0x32b89424adb4217; P1 0x400f5654fb4df82 0x15061d1e690a930; P0 0x580ca4a1f05f3d 0x315d726beea6aeb; P1 0x3cae369926d0e26 0x36051561e31a3fc; P1 0x48a9e71f0dfa513 0x194fb94efd27065; P1 0xff3fac9ee8f0ca 0x5051b81d55887b8; P0 0x5051b81d55887b7 0x1; P0 0x0 0x1; P0 0x0 0x1]
    [(0x9d1a41f0bd, 0x2dec33f43dc783c, [P1 0x0 0x2; P0 0x0 0x4; P0 0x0 0x10; P0 0x0 0x100; P0 0x0 0x10000; P0 0x0 0x100000000; P1 0x65 0x4fc25c6d4127403; P0 0x4f34009ccc0c5a2 0x23bfeb923c777f7; P1 0x1fd2f30e7d8596e 0x23d169ea2217e24; P1 0x1ff21fd4ce99174 0x20e278f6280a14c; P1 0x1aed756276dfcfa 0x3cf38bd4c6db676; P0 0x2e40f7c05c1e207 0x265d7b105d1f655; P0 0x12535069d91add0 0x44592fbf5622ce9; P0 0x3a2964d4ff171a6 0xcf5c471ccb411b; P0 0x21757e7c9402b5 0x4c393279dc5510c; P1 0x90ac4966bfdf064 0x224b3f45199bcdc; P1 0x1d48f571aaf808d 0x4054511ad81793b; P0 0x3385d2f61b27699 0x392db495cc47008; P0 0x28b473dbbd5c462 0x46198e3f98c676e; P0 0x3d2e42421290748 0x2dec33f43dc783c])];
  mkcert 0x8f5b78263ad9207eb2b101 ([(0%nat, 0x8f5b78263ad9207eb2b101)], []) 3
    [P1 0x0 0x3; P0 0x0 0x9; P0 0x0 0x51; P0 0x0 0x19a1; P1 0x0 0x7b285c3; P1 0x0 0xb1bf6cd930979b; P1 0x2952a2c 0x17a9d184d4134fce63115f; P1 0xbb7cfc2aaa21eda227e7b 0x5984085b668b3acedbba48; P0 0x37e552a10aacba2fb64801 0x7237e5f0eccffe588bbb3f; P1 0x11101b37a10c879977f30f2 0x2c5c66659f650ce182c991; P0 0xdba290def899193f659e2 0x6e7ae0b5cb581394b9683f; P1 0xff6d98f10b8696b24eb630 0x836a7acfbb2a3a9cddd853; P1 0x16968649f3267bafa42acc5 0x14dfa6b9230cb8ef9d9ef6; P0 0x30a10e47f9450f2f8d69b 0x8bb2381cfa14272f5092c9; P1 0x19862b710aa7afbe5668511 0x7acb3a6b35cb00f4245f62; P1 0x13b8a4c9acf77fa6b9c4fac 0x885a2ac6283531c90368e0; P0 0x81b07e6391fc9879cf9806 0x4cddd0b834e1bfb61f05fa; P1 0x7ba50694af6a2968bdb4a9 0xa886ad433696261e69ac3; P1 0x252574ad4dd158ccb16dd 0x11be7c2c203e660a95adbe; P1 0x696bdc6f615b650089d6b 0x3b54d17339269743fd72a1; P1 0x49aa9974ae3102ca298726 0x883e6290f2c59ff5a28e9d; P0 0x817baa6d39c4e98dae6946 0xb9775748a3b828502bd03; P0 0xeff19fd5a4bfcd723101 0x70540318fbe9084b938c08; P0 0x5803e29ffe1b6d64eec750 0x5225833480ed405b6ba8f0; P0 0x2f125240644e9b82261aa1 0x6c12465089af0fab9a755f; P0 0x517881e54e665a320a29e8 0x5faa4c4481e57bc9c86759; P1 0xbf849ce8fb1bc68f47c1d6 0x6ed8257e1d9330ed417efd; P0 0x55b486d765112ee7815ed5 0x76ec4968f4f7420d4b6234; P0 0x62a7424158cc20c9e7f22a 0x7677c31abfd58ac298de66; P1 0x125b2e7595ec91c885f2e7f 0x5c0e61249a05a3292c346d; P1 0xb1571884d75bf22d9f5d02 0x776a709d6575dea4ba439; P0 0x6378feab4b6615d95c0e 0x20138f0966014992840aa3; P0 0x72d59171651aca1cfb8b6 0x3ea5cc69216d8da1779513; P0 0x1b60932d7110e4dc5c9a69 0x42d9cfc3739e87e657ec00; P1 0x5d85b2e2ede56abd67ade9 0x6fdca5f5bf5c97be083917; P1 0x105dba70c4d73ece6c11301 0x2bfdd9cb2250392ceafc32; P1 0x287faa8b52c8859b3dedf1 0x31611e01f8e9ce1f3bde5b; P0 0x11023a47fae716d2d0e84a 0x68dfa31210349f1633e20f; P1 0xe6297967138d9622df41be 0x3a8505210cd0f78f59d6e5; P0 0x17e35f9c0dd1f5eabdca2f 0x5e5321eacdb3e41b675faa; P1 0xba303b677b3fc8507da72a 0x2fd770e5f141dfd75d2582; P1 0x2fe5be0447d13ca8115359 0x11b7456efbd97f8144a5b3; P0 0x230767606c105dad94f22 0x59883be3177b5efc246a07; P1 0xa7bfb5c71c6512a6418d24 0x3a2c363fe7979d7dc5f36f; P1 0x46d14081891bbc1b47eeff 0x3ae2b165fac1b45c218064; P0 0x183016b275dcd86be685c1 0x80ecd0c38220996d99304f; P0 0x73f21d459600962543efb7 0x69defae3760dc9304c41aa; P1 0xea8f9649ed9393c4f48e95 0x4c7b08b0e702471433bb17; P0 0x28cd57fbff95d95eb7218f 0x79bb17819efb61f78b9b82; P0 0x675dea9d94cdb670e8f193 0x24faaecf248eb5477d1971; P1 0x1c9dd5ba914dd2c600fd63 0x3ef03ecde11b993c9b5b40; P0 0x1ba1cb0286571864e01188 0x61e4002c2a9492e777678; P0 0x42d81025319c62595b6f 0x308d223771f3241aa3bdd1; P0 0x10716ab4b94bed56870ed4 0x725e872d5f3d9c59b4a1cd; P0 0x5b3e29d92f7166d4f4a150 0x52ab082c7cfdaaf66e8cd9; P0 0x2fabd355477a0fc92423c7 0x387384f4146fe3cbbb552a; P0 0x163ab85f197789f57883eb 0x63b4ec27278d46779cebf9; P1 0xd00aac0b8a7147804b04ff 0x6d72436f6c04bf72e3f494; P1 0xfaabc095b8fe9e40f2b75f 0x8090337ba0b58c149dfa51; P1 0x159e34cf7681d126c74cf98 0x739670a2479d2094a8014b; P1 0x117977cd67e89c23fe2b671 0x254060a3b29104c6bc2c7a; P1 0x1d0a195667f713dcfa92ff 0x61f2739817707964d39c6d; P1 0xc8c36990d94f434b36f9e5 0x6748c1db9535626490c456; P0 0x4a69b18c9c6cd05c8dcf25 0x1da19caac6741c00d368bf; P1 0x125fbbcddcb3bd09402be5 0x59bf5682a50c1dde4dba9e; P0 0x382f7b5e0f98db4013c007 0x2600a2cb4298c7f45f627d; P1 0x1e38df0c24eb0192473aee 0x57409e4b6daf6ea47c0a2d; P1 0x9f509c3f25e1e3c3853add 0x115f0008fdb71ff71c9bde; P0 0x21adbb369deb8d030aa67 0x6c7541bddc637d37d6b31d; P0 0x520e030466dd1c6a3203ee 0x10f328d6a1a598967ff5b; P1 0x6031eebf24b102c4b2c 0x8d5ef22f0cf2b9031387df; P0 0x8b6978130b0ca1cd153472 0x2edb3a71e64ebea39aedcf; P1 0x2df1ed7f8ee1443ec87edf 0x6d4a7c05671a2ee4501a44; P0 0x5351e37b3f1c8ac2c3215a 0x37e681fc160fbe63cb86b6; P1 0x41649ee6f4e1d104567de7 0x47c8a007d07aab0093e745; P1 0x6bd5551c9314b9ae9806f8 0x3a9b8f4c6468508aa94ad3; P0 0x17f5ca0351301e63b2e7b5 0x6b71e34fc316214b39d34; P0 0x508763d3895fc2b27a83 0x7f36e31bb07fa284c3c50d; P0 0x70e3a8a0533edcf42c32e2 0x454b46858d49a910fc8dc7; P1 0x647bb004af4168132ee634 0x6393a654722fc5c26597df; P0 0x452aa33d9b3ed28a714cb1 0x896db5cb814b83da852690; P0 0x83beb85516710f4cd6659e 0x258a5bd2124848627a6d62; P0 0x9d4a15691dd83190bc24f 0x7a281dfcc6a6e740d23835; P0 0x6817658064a7e5840dfb25 0x82aa9a69992738bedeaad4; P0 0x771958d079d41f15d85fbe 0x3c75c9216d9473a38781d2; P0 0x197faa4b185e1b5c35dfe2 0x17572331dad0f4162c2e62; P0 0x3ccd3f1a3d770de596884 0x8f5b78263ad9207eb2b100; P0 0x8f5b78263ad9207eb2b0ff 0x1]
    [(0x5051b81d55887b9, 0x798bcaeab59ab7676e172, [P1 0x0 0x3; P1 0x0 0x1b; P1 0x0 0x88b; P0 0x0 0x48fb79; P0 0x0 0x14ce6b167f31; P1 0x9 0x87e4ac28edf56c090bd1a; P0 0x80d15d034b898eb4e9a7 0x97f6183c25714fc9005fd; P0 0xa114eabe2f0e1d52127f 0x219e40faf711f99a59fa8a; P0 0x7e2385574029ccdb2139c 0x2f083cc5eb4db4d96ce2c8; P1 0x2e4a5c57b3d5018dd3e251 0x4588de41a53e2d4d51516f; P1 0x652ea0ed8c2bfebd714af8 0x164105ae2edddff5b9876b; P1 0xa5d1f57f300d1508e1417 0x1e7eaefb583e2494681914; P0 0x67ca1c0de943531104e68 0x24d307ecabd0e4571eb328; P1 0x1c6098042be3d004898210 0x7bd658b714a38799ac50b0; P0 0x6af9a6144b1a9fe783857e 0x50f5e38242c9763982d582; P1 0x892a9b0298c41449d4d345 0x3fad1c3994b2a4fe6b39c7; P1 0x54d9cd2c6712a844ef70b2 0x7499e8b7fef912ee8e2761; P1 0x11c843c6f7cbd2c1321111e 0x3b2a02a75a37d39a2d4925; P0 0x186ad0e536e278bb25f6a0 0xefa23be0b5d5b19fd88b9; P0 0x190915cfd2341e9a42de3 0x880b34014fd67997af4ce; P1 0x1834f5bbfa94aa9684890 0x6731c7b6ca8fac57a028bc; P0 0x4a4899736eec72f0603d02 0x260608860fccabd788ab0e; P0 0xa15d1c850d867ba6e243f 0x1ed9eabbb757619de00185; P0 0x6a3ac40294cec4efc2048 0x3f13618f934eef476466d1; P0 0x1bc0ad98634f05bc147ae5 0x41c45a66db943c5c4c66bc; P0 0x1e2be4b1f71427939ba3dc 0x257d4a2344e32fe1fb9a34; P0 0x9cdca491ecff2db06d43c 0x25c24d3b0e4f57795e4a54; P0 0x9f203c30a17ece27f04c0 0x774e283c8468e790fce6d0; P0 0x6349e5dd5280f5a07c598e 0x798bcaeab59ab7676e172])];
  mkcert 0x1ffffffffffffffffffffffffffffffffffffffffffffffffffffffffffffffffffffffffffffffffffffffffffffffffffffffffffffffffffffffffffffffffff ([(130%nat, 0x2)], [(0%nat, 0x1)]) 3
    [P1 0x0 0x3; P1 0x0 0x1b; P1 0x0 0x88b; P1 0x0 0xdaf26b; P1 0x0 0x231c54b5f6a2b; P1 0x0 0xe7246e52fd310b7d97dd4e9ab; P1 0x0 0x272184cdaf3736f0fa54c1d8529a9294bcc2ac0b180838228ab; P1 0x0 0x11f1b08e87ec42c5d83c3218fc83c41dcfd9f4428f4f92af1aaa80aa46162b1f71e981273601f4ad1dd4709b5aca650265a6ab; P1 0x1e2fc713e4460ede3f567e636bf7aed30a28738749c88c40a5b1dc64c7a508aa1d7d9b9ca 0x1438596fd5bb801b9bb0aa27d3115d49d25742badda4042664afded7ff8711e554bcb376a93df20bafd26b9efa5bc388709195c13be1c1ff3fb2ec7e452aa2a5c75; P1 0x2654791165aa245a9c855df4c270911c8e7645dae14d58b470cba5e31069b7527f9c9b4ae47ed59183c9c1486b27c82254d8d534bf3c1cb642037333d4e33cccef5 0x1c2443d6c726a9ee3c08dacc4b3e5a69e3234ad9994bf1cd7b20129fd3933d7b3f5e4154edab8cc083a133884413818c442fd17e045728109124fb50393c725b760; P1 0x4a3edf732ebe4b98efa2327c0294f047424440e19c03c0fe84e6e6a347a54872bd6e82e6f6c70790c283db79f0f39b43e340e14a5d8a52edface3925540cbb49a0d 0x571a9a4a59ea01361a6295ff99e7e155e40e4a37384488b0e693215081808247e270da4567f29f631239e48cda79c7087bfc026c0955cf87a0246bd7f21b03c60d; P1 0x2c74a3735bcf4730fdde0d9cd7df0909f0128726ba8c9bc8dd6984619a97c5444b90d3777e6f5fc08271daebb1f6b76b49e247bcb276873e32469fbb66539ff97c 0x1c16b8a9526d439a7294dfb90244d57cbd068635b010a02168150bce8e699378dbfc0ceef4f7650b9467fa327bebaaf27510ea25c2b6cd1aa8a312bf2a146324f77; P1 0x49f779df280dc129b6392a6b0d9e6f9699817d3abec00b345eb39e9349f5999ca9bb3c4df50f14b5039b7c651f3bdd2c973f4efe7a98704c8acb6414960f348e37a 0x10bd060c82998c8e58a86492f403e831b20c16fceaff1d13fd77fa262e3a1ce988c7896999d33487e91fe65ed95ab1b5180efb2adc4ee4c6278ec7cc07398bcdf6d; P1 0x1a4427d3e68ee8a8d502c59700729555cd3fc137f9109b697273f97558f041ced59da3cf0ce1427fbeb2900df94dc887bf3c08b26c5410cf9a6c792b531c9f4708a 0x1200214ad339add12211e11e017865ec30a858c98d951686ef24e480cdd5e710a27da485a2d1607349201616c78d9b53309b9049f070a691cdcb039e6fadb39adc5; P1 0x1e60705cf0cbb279cd8934d32d5ac0270bf3ed9104986276e00670ad97cc5169559d743c87aafcbdffc5ef4d51715cbee6df80520bcad3abfec1cec94f2937bbcbd 0x15938982b8adb1e3dd6a2ecf08d6a13a765bf9dcdbad665dbbf6aecbbab8279b89f067bf91db58adfb2b73800af31dfbdfaa84f6727841ffac487fdec2844854988; P1 0x2ba4e61fc6ea49d82129b66928ae9b35b416e29c3cd306333c7fffccc5f8276dbf94d03c8909f81046e95b1a0a437ebbe85789dc88a82c32b2229239001d8e37017 0x19d9479b9ecfbe9ca06e22abc06f5703b7b3833608705cf66192bada5af25a64f51b029fc6897a42375887ec8c1d46f7c7f0fed9e73bbd8aae63045fce30e2ff8d7; P1 0x3ea3c9a4e4f402b00056c043ee93f04c1316c43f2cff28dba95b35513a46d88692993d7a95145c0f47486ebd0f0d56a8206e085f4fe91215fdca23fbf9ddcc06c20 0x1ed4c44cb0db2b5bb537399eb80d559e4bd255c99073d60b074e4bda763762f518ee770299c0d028ab465b3adcb5738d8692565c25c9239bc50c13d581a5b3a39d3; P1 0x591d643867cb66b979a043f27afb27f78be24bf370f73d780be5c33d4a3ac0cec53b42abc0c606f834095fb7e5bbe4164685ccc001b5aa22bbb82b10faec4ce17e9 0x10ac1f083d6b494afad659be9585bacface4bb3c1c2d2fc31faa4dcc7c73b3b1a004a317f83c4b0fe4cde52711eb24a5495e4f12cbec3c88276b0a0d3518cd103a4; P1 0x1a0f3681dc468b39bf359de22aea1372e994ff854e07aff14ca328ab4fd0c354d4b6688a467869bb72a8048b9217e4382be09fcd4601a96faa200908525ecd745bb 0x165e840928f34a90abae318a2b6ae4d38500f4fbc2050b800583135628dcf02f60d05068ca6bc3d870f178c09e5d411c8cccaeefe75de79935508be4a64e25708eb; P1 0x2ee926234cc010fa2741341886cd141cff482ccf6071556f2d4f7d319c134c674633a8dcf1a75b7a481e1488da1173a1c862262c9f4a7fdf43f56e9654e83f9c96b 0x19e2dd9f2595c8178ac4cd87703d00beb4e7dc82fa769c23592b929798fe96ac812bb19fc7469596aa932fa5fee20d4b37f2d1416ade9190b7ce5333c1878166096; P1 0x3ed247fb34aab0d4d92eee6446fad0f2968bf413c1b7ee2c66f8886f4ac2461ec2cfbcd03deb5db1c0ae065c9cce37d06fda6fcb43df016aa584122fa6833fde0f0 0x18c945741d6295e05001002b142c2e7762063c2c1524e8155638a37d7af6c6f555ab72d6c3bafa611cf0defcadc23d7ff0e25f94e62c6041f5075d7344c4ea8689c; P1 0x39988e5dd08a420cc2011e6f20e8bbae928202858db7254ad8751fa89ed594b7b26a3588691a859e9c7d6bdf68cb0a70dd15cdbe47fbc50d94720ae3e92eeb2e1a5 0xba9a4fb3a76aaa0be6a6a470dff1a496a91035774e6e1843f1064f4ad636707d82056c4af7af702141e2621f85f089e9f6a3bb006b3af9c55baebfe00c85303ed5; P1 0xcc06e53f925b303fe49fb41d143aa4157cee1a3b7c6e602e0bc2714c7cc8c2fc89c5f6405c420df5535628858c428f32fc71c3aa4ca9b7407e3a858bdf7ab487d2 0x1633b8bf2f148344c7ed0b8db98cd7e87a974f4df36fa58f817a746cba9e27f39e9ccfcc7f408e391ef9b2e938cbbb5eda525fbf03b0b3d7011b358f6ea4e981f7d; P1 0x2e3654dfc6380c9589988751b3a46b5e1983e76f8d3e4ace48cba361910909cd571051d0c116d4055c699c2c7358e6625b33f8e9e78d4a2671d951a726230269555 0xec86d0ec59f6db8aec7410ff1e82d90854b13eea8e51897a630bbd3b5d040ee3f526abc55dd2cc7aeb8aab094c750dc4b8242ce73bc20ed147592700aeed151e70; P1 0x147cd444cbbb55f6bab5e75df00f1d3e1cb67af32ef4dc571dd2565076e5b8159c8fc69ca14802d0561ce2b0454851d2e95649cc78307845255ba15802d9b42b48a 0x8827be44a232d3b19809dba27f32778cf64a437f3b65b7e41f3bbb34a1684d34ac2496d10b3f73a47a37d6d782e3a94c7d2e17d62bef1c2169945f539c13e078a; P1 0x6c9f607eabfe0f5cd07add9dae268bc7f903511dbc169aaa11c81a10f0af0af5a692a30bb9f86a84906a8b4493ed1bded2f7cc2dbc7632590c1fbf24c044f54c 0x169bdd430e243304df7889e573035fc7261b2900580277b418f5d99c270ea51e4324d6f20ff6a91e5323cedcd962b6bd497e8684a3bf7474993271000b1f1777878; P1 0x2febd63cf4d48e04930a320a62ac103d59ab01547234201b6d8291b5e56f43b81ad5d778379c94cf43bc88fb5fe5d438cbbab7b36f3be4f2c42abac21e1f80f836c 0x27e569749d776e11f6cf6c77f3b717d862c9bd3224c68a53924ff088c5b5328d3a6c142e4b3cdd0c30517979ee301553c73c4dd8f0252cbdace9905d6b70d1ac2c; P1 0x9538d930d13763f2c156d69f7dabc0ee0d1e49ccba319f4a021edc39cc42613683c4d3fc77f617657ba751e66ca55f91c71b4e9b905269ae2c66681a22d3b12c8 0xed644c3a58ff46361fca6f4503643fbe81c252cf732935b0e31119ab50671f2bf83df20f66e3601b0da48b2234a0d8d13829d92604bb6b114fab28971d68248978; P1 0x14a344aa78399525ca02b27983564b85e449348118bc10bd9d47d31178ecc28ed6a8efb44273c7852c71a898e0b5c909297d3aef98fd8c26ff428fdf5e874e77a26 0x1915317905d89f7e3d99d7dae4b614fa8cb025bb5e5fb0b1bad3a8bb79ea886cfcb33c4de5fee2d71182534354592e41c33e0b54fd47cadf60b8fef3431cf9c72e6; P1 0x3afb8202fd63b366a1024c6a22c6ce4552d09eda38ef2d2b723338c398cf1576fe21ee3a54553794628aecdf63bf417f01bb78c8919568862d3be3835c53b98eff9 0x160b5eff892f31f5ea2907aebf8e06c1b44a2b8cc404896e2268acafa53e822716cb9da0926612619176c6ea597d0a354dc7e11bf7fa4ac37ac49639e2dcb3de3e5; P1 0x2d8ef3fd52fd5b0b4684555dbfdb2fd139467f2fbabad6f90d0120405363af461db9900dddd93182750c8e906082da098b6d3665d67ce7b81273d4d69e80adb2b83 0x91a7406ec40eb6f79cee28132d73a68d303a8f33531b42f13bd1f2c50f7f54247fe3646a7a553052e0fd74c7e272454d521977a207581a8d0843eb6c98c6e0ec0e; P1 0x7c4e5663e83e0ca177aa2a95720bc9390dec25ac4173e024e133e09fbfd84c8fc0f7ff7f72a02b1b483abbd9f909845e0ed54b4bef6027778c6ab1bb4f0dcc6526 0x162ed9452b94f98325194b4050cf8be6ffcb822656990d15b7584a237dbbf5d5a273600e12d3cbd800589b133bba43aef7a43e0be1242ea5c9e321c3579dc49d772; P1 0x2e220e0091f687eef59d930b94021454fcd51e5abf5ac62c2cc14c5684eb3579d33ce04c330fadb4ccb593a0e79f97103c22324d2927f4a2202915f2288de8b3290 0xd2e9d31d2b20a65cf0a545f6ca58fbf5fc893533d16d035f6f130927cea2de4073efbbee9dc227b85408e755e677c008d84a7b9f296e23eac337e4ba9e6b893edc; P1 0x104a6ade4bdecc02ee6562025ab440335ff80c275919b4b5146c32989236390a09ecc50b48f5fd1536d814c59da6d716e4819c2fae756136408cd8f0e01784a44f8 0x98a45a152396f5165a79b9ee97eff4dcdfc6c74d04116f1dc5c753af749de5ea9e6e147bf5d85f316c4274382d4094939434c5426751d890d55af6f11235002c28; P1 0x88855ebaf79198d6582e891b579a7b37314b894aa36ee6b7f814e0ba531cb90b655df37f5c4f5fb9a1d880f33ac08e505b4f064fc656b1eaf6f917f03f62c7f51d 0x1292be38d3b4f8cf80fd047a217ea41086c5b13cbd764d9c37f730482cb499905d749dbb2614b1f823a627ffc546c5bcfe80e9607edfae5280b661fb7f929a147dd; P1 0x205724c45e6fe6a5f9b1856c46aa4f3afd156c8e1d5200d11419600228a26a3c4d83f13351ce489e1c0193b0ec30625e5b8e6be3ce6b8a9c4be5a8fa3d22b5b8032 0x11626b50bf7375c612eaf2e21f3b600a76b1481e9d5085cc7c246f79cf4fe92c4cf1d53aeec1c74201a098ee48053759450a973020d26f3cec6aae41570f1ce7e8d; P1 0x1c55422985ac553d0ee8c593447499099a932c24caa44b0ba7f475c0a705ddbbc76c37bd6b9afc192ce64b6545e2184b1719703733904b05e4a3f204fb0719a839b 0x16a3d4605da1e7f10eb154f7a0ea6344e78c07aa4fc5f8eebe600c1d08daf1aa486f58e0fcc08f9181ae1f8694e93bdf71ad4b7a79d11607ccd5a213a509c0bd096; P1 0x300da050c7e3717f6fd25b4491ef518f34c6bcacdd7e93c8491b20406db25016dddf9c2bd4637bd865fb45bc1fc9e0fcf312b0e47b47d176b1d04cfe62d0b8cf6bd 0x10bd2c709bd1cb314a574266fcbeda3a0a8bba673cc17d653cde9429b6077655cbcda180f15140ebde1095ae32a8f52212fe02d541bf4eb093683e21bb440153e69; P1 0x1a44a051632ce67867fb2b695ee3888f4539276c59bd490bfa9540376849d30fd7f62de480ae9f3ddff8e95c2e7cfc10f0589a51cfcdff1812bce2799de9f3bf25d 0x37f74e226a77f895ac9c5051b100cf6f077301f0ddb7db0c373fd27ab10abbf2a1c64b38eeb39eef1e5c6c148056da9d69c9cc6b2ce0d3db80bf9139be048f0790; P1 0x125a4bb7fc02fcbd58ee96c24a74ec0d98d7f51c34f74aef770415000028ebba4fe779abeeab89add6da76e74c0bedf8a06d2f5f1908c61af32c129e68b2bbb387 0xd65207365fc481bb63614e5d3d407843debbcd02c61c1f3e507acbb3f1b830cf888d4041141e9ff4368edd9baa191e86bd4be45fb8440c3218e0b9041a8c074687; P1 0x10d23dd834ab8db5a88072472fadef34e39606c18af1e8526a92fd1078307b814696ced2288cc6e563675e9cec02a7faa07386dc8ef15e790b3ff6537dae713ecd6 0x10d6d3e004e5fd99689fbb2c638e46979e2a0fafecadb749b9055041fc2e608abac2bd213b5d9da4d0ea3e67b9380bb3054798fd14989114fd77592ba28ab843e69; P1 0x1a956245fbffa7c4a4457e409848f3de32b07fe8ac487469751121508df26007a0e7386d9fe5000c9a81b2ff6b85100d3033d99077434da330ee2f319ddb98e31d2 0xc4a9f46a8f0d495f09fecb925cdb149f9c175ae81163705f8a6a4278f48111d8caa7098f15b8962d3a14472c79617b779bf476d1797c3e04e90509275fce0b4705; P1 0xe29f06a3ada4c768c262b0d16181fe011c07c1d27a316ad9e334574117c4b866a0da282d543c03291afd79259c04315c7744e99418138cf78f66f4afe5ef006025 0x1e098f7b26d1e2da8ef2eb8bc362d6a48cd474a2cdfe6b7bad67a436b710998c031ae1b7a25ed4db5c09ec5a1cc5748d976da9dbd28a9950b76fd8bd7699d65b270; P1 0x5495cfa66431acef9d33226b9cb4e19e87db9804c91362412c72c3152f8eec2dbc0d127be9cf4533b37ea518b20d48203ce1a661a612bdb2c1b2ed376bce79eb9d1 0xd2ddf4597c9deb7dda973336d4f181f2bd8803f1237ebdb7545dc5bae85c211849556a8857eab7bfdcd354e24ea1c95c95cc3014789d690d188f72a627e1de8cd1; P1 0x1048957fbea466dc3fbefbb3cd0505cb9a859bcc6540bc3d4fc5228f9d740a092e36a511b1efb0a89ce11b0b888a50c7f452b8f00d0d9615481b38373aed516f01e 0x103a09e1f29562d0b4dd7d90fbf8091f034b09ff6c965f83f881b80c548f7ee17d47ef3f2e649e02487442f39f1bbe47d26aa2540a42ee8d81013142db892eab801; P1 0x18af59715a163c885e22e74ec98c3eef024e80b12ccd3ade460df7ea23aa9c2e423ca87b1f341cda2b0bf60a3b345b45b2c7d7ecb1b934ed401e3547cf2a8ab48bc 0x96f54ff8092f98b2e9efd30d4bdf0be610f29aae240583d1b0a79cc6c3804ce1efdcade27987a345f8ed11a74065c94335c1e107ba40b98286b508c284c6eb98bf; P1 0x8586972d3ec0930dac1535783bc226cba1c2920560eb51da20b190ddbd7ce9505108a6f7de1640549c92995e3da1f8cbbaa27470cbf2ec2a120bc4eb8615f6de6e 0x1141e6b37b48284c6bc00a0b1ac38ed4c3823b0f0835b55e684424b3795cf04bc5899a9c73dcee94e10a728419b37a849c944232f42c8911b2564adc9b9cf5ef9f1; P1 0x1beba683420c706dbb57899af00051524ebb2395307b4cfa663e34511ac64f153ed2e9040a00b559fe1a5aca76c1b46e0bd15eadc4d5987887ca3a411cbcab004a1 0xa4fc3afbddb835491814b5035a5b6ab0b88bdad20a73a3a492a0ddf3a765916a931aadf7075822dac0891ade07aee2627ae4841e8eab6221e27607551287b82344; P1 0x9f7e3622524b6ecbd53aac3a2b1bcffe95be0fa2af1e2c24e75dd6289b78b843ee39d713501beb70004691dfd9cad9cfedfc392a75b24be1fc57ee8c76058ff6a2 0x1df81fbee2184635e99b603c19c2f61ffff767e0d3db198caa9ff5562cafe6a3a82f83329165149e2c2b1aa2f8497ffd9aac89d4c151250ba5120e212135162f4d2; P1 0x5433b86277f0409c626f0925613baa8e5d494ec9fad4ddad9020c778bc1cfbbea0b3e0492dd7db285b13976f384e4ad75f6590643076761ad586e3842d376dc76ed 0x16e2d9f83e491b4f455e902fd61c61a83187b1ead59c6cb6d289415f74769550eef1940ceaa5f58f5ad8c63dc07f0049adef3c197292d73668001892fdf33976bb9; P1 0x311a9ba5de5fe21c7794a8fc0f6d74549e44343b1807baf34eb560fef3705b648131b27e58c27a4ba620f33a6f6175e9532d2bd7c5611dddd551ed3bbfd649e2ace 0x3bc4050df62621e102ba55e7db767472237d587bb8f98be2aee8b5dc83c576305b4e9ffc2afc31ea2948179ed147dc173e345cc4765909a7b4ea1d965b4b54ade1; P1 0x14ede8a243680f9302846802bb7eb61c291127a8be9c46ac215a2fda6bcb1631a52fb37e9b17149aee5ec1e8af36d74191025c1927d51fbaa47635ac14ec056e83 0x16ab60d9fa6ee190528d66e94f10190379194c6f9787c03c47022fc4bd08e6bde13a97adf21f7657096c84ec9d93513c555a07d0eda0284e58a4189b7a4234b0dc6; P1 0x302db0ffe55be7dbcb2f9a32147f36faa87f4b99dec62a1c52d0c0fddd5beea558c2a8359648be2f64cd8de0139186b2a1326a7b7ecc34dfa9c378e3aa5e17554f5 0xd58ec381ad09478828ff132841a549c8973a2addebb13ed7e54a402e7a1ea0b8238ac18b5855f20c9ebddd207aa314f0b61d965cc1e48d2015b57b3b0585ba7461; P1 0x10b3a516ce4aa51efdfd682526dae6d91a964dd9d06461111d637dbe196df0b2578464193889bbf77780f99e5b55382a4ede7ecbc43c03e653c15c6dc19df14fe0b 0x1353b7b9db9acef39808f0fa6ff79b7f40a1017434ca541b2476d7f1f93198436c21ec86a601c81460feaf20490a98d02e6bf0a467715e58d7865c26fa632a9244e; P1 0x2304cf95b74f00138cb470b8e6f45ce7e62f87e7c20eef1bafaf6d403264b09b43aec5bf2870032350914edacbab9849ccb8fea5875ebe16574632602867dba5beb 0x120fcf9daea7331f7acf29d5ea35dac5fbad6f48c3cbe802a1e9871827510a5f14a35a3d26ab75bc45f5e8f4a4a1eca7cc24d9ef7de41e4a5535a65b3ccc2207337; P1 0x1e957423e1f8a87bfce471cc1f982431982f92fa51c235c70c643938a4fdc00c9966c6225d7b831033e4559ea076abe578855954e6c0e332a619c3977e9cb29a430 0x99dafc44ce9aee01e1a8bd20179e8cc65e4d38e166efe2d6b7f685205e4f635a64a21a5226c76d4d27b61a61deaf9607496fec970aa9d1eaf6648ead16e3f905a3; P1 0x8ab33b4b4b1ae6688cd7cf473160ef410faf858cd513b7d76bf33e99fd64139d0525942b63c0ed77f7f06761599dcd014df4d74b269637e734abf88546bca822ed 0x23c62436d305af0190c6a976c577239b2ed23054825401048d0630f3c41c9937c71bf1a9fabde5e871836ef8c8c5bf95d9304363ff0cee8f7d18c10e03d8497448; P1 0x77faae48b722a9aaa5c5e73ad50cf182f96b712d74d7fb4ec985277bcf9187674622ac0f3ec6b03c15e7e882831bdef06855f0aa52bca4bedf22b424ba78ad6fb 0xf22dc8147e7c07ee29f498d4f55a29ec6e89589d69d83b0c3b217a507e22c53d26fd8e77eb82fcf1ff79efc588757117630d44723475b137aee3612b42b92ed3bb; P1 0x157a7e1b20c127cce4ef95568d4087d4a175389348a6cbb162f21afae41bbdf98f78ed8d30419283df57adeec7b7de2fc9eae79ab3e1c04b6362561ba033115f711 0x9bbaf8d11bb1d7ab3b7b577ed5126d90d9a5035d04c7f47d425c9331e0c35149ee85a1a0a2e20dfe7f6b9df743b2130b073fced1a33c87d08d9e33d906560b56dc; P1 0x8e19eac995d91f1452220c965362ce407f75419ce7a7676c15a4b3c8db9f5f31e5c6f4ad6efb1a3d8464a4b7a83d2f40bc6d00839ede680d6c7f2b96c6c61da4d5 0x1acd6bed082bb7b9eda77c8986c7ef72bd1c8d42749cb61b654790e5e1dec56374cf73f525f417d16ec9bc839f35277510633aa67b0bb91a9bf1e41924bf33f4c05; P1 0x4358e23432bf3740942821c6d88838413d8ce118d7607abf1aae1cbe3a14b0b62305a040b624b1d6e0d20cf2ca821db715c2c9f41f953eceff91b9de05311fae87a 0x86c04de038d293fd447134735fb7ed63e48623a384160d47b62d92095662f9f49add49aab0d9f2f6920d288a63bfd12f8d811d079f78ee483252044b050f15d0c5; P1 0x6a64d2f97543800bee8cf999e5e7f6998ccf207738d52b457c133d373976703abd83a92b0d8d9d5f446e1db73355f68bb86ce0fc457f337c9ef4e87d6c9b476354 0x608439b8a86aad50b83564256c421904c3c7e461f314e8d0330baf6b74656a028d7eed9f26e92bf92432b2234dcd2af1e196d81099b5fcf924393ef7b9cff8a1f; P1 0x369527611aa22849f615ec3ec5a1fd836f6368c0b90aea37c67dc9c610ad1d983b6469539ece1dde51c4691751593213363066693fd579244f25095456b2455d 0x1c073361746fa442c52901429a8f9bdd00930edb3a2fbdc042516d8eac510c33798f62ae8c221a5c85814aa00b5bb3e00516a10a8e539e6d107012a2af10b8894a0; P1 0x49a5d29c0ab254b45af4cd52181ab19305c018045d3784d9925b741496e6288aabf9cf9d858ec20b1d8b5be5b189538912fd2e12be74989cee7a2a5ec959b7a011c 0x889610a2e7291d1cb84a99e79fc70a93560c29258dba037f4e398362d6311d0d32c8ef459cf586d6a46e34339314cbe17fff375d5925a26f544979fd419c562d1c; P1 0x6d4fae76e0630380b8ce5535caed76589d931ed3417d4f791e947e66de823b02cc59eb9431fde331a42af92f95846a4e3ab6e891664d256b3016f2dd08b43e2783 0x115d75454427edb34831ce99857e60da822e3d7a686624634f93f2bc38731d3da8400b9b90ab15a52e78fe2eb812c6d7516e611b3b63fa61f5b358b09a61886b8b3; P1 0x1c4518a6ba5d06e3c2f7926b4fb0f6f746a8e671a787d5f5e94946a1824466b5f98e2fafdad1581fd392b6ad0e4ccdb645ff18165c51bff9e60c6a5f88eeb8f4a55 0x9c72bf2e17a3a4958f715cbb2e3a38470f9a93512701ba983207a63f994955d103f3ef098d7703d6b9348bf66ef17cbaf969f26ac8f69e26f2b5f4ef913d80b1d0; P1 0x8f6a12a680f374db52e891ecf24da44f35883bccfc44040e39f354bbe1eb4fbb92f9f3367812d0470c4d9fc6ac71eb1c718466f49c7957bf8df8a92626d832e313 0xe5e3b598551fd3ebe8c0ebe1d0b6928d85a51261d905fc360e67f4f2fe881a8e63d4d5d8cd386d8b77d8c7b94360bbca203033eb486df6bb4e49e04f551ab6be13; P1 0x135a9c4251fe3ffe721d3fb25c7781e8d0a14baa509f4afa2b7d902562ccd95ff9ce912c80a778c406edd7ce41dd9b74add54875281d8afefba5cb0cc805f086c17 0x185603b1a1615129f4258a01d38fe76233b699c762adf7143363e870e4a968e3993866b8b2635906253788a75211a6d51b2b928b3cc6fa081675ecb878663750c52; P1 0x3785c63ae7c7a74da41c3e065fbb971d1ab457d482734fd7f73814aa01b309e910a061f48df14c9357dbc4759b620bad94ab4c285b67e87d518a444117386c911dc 0xc389da7fe698f153f5a38efee220e157207018aa2bc0f292cea0d40dac24d3ba3f859a182b0697364d4263280c855373f9d60cb1e6b9979b6b12e96e1e956c70a8; P1 0xe008f3a7a907d5f8efd48a5af08c4f8cd8983ca60bf5bb5d3f7d871d8715bb2bd55c51385d3f09dfa93816574de41418b524f3a0663542fda5c46fa57b337d77c1 0xa69aaed4f960305c21adeaed18ba381d80949f33e5e54fc8802577636630b3e0d5332539b6026d2288fcfed4c2209a581393df18cdd33074dd823636d3a177c281; P1 0xa2a3744c849077ed99bf7fc2cab85f881a9e073e1d12550c86b1dab468ab6a68162b2ab7f81e8143fc178ad6a940cafee50331bdb0d5572675d38aa6a911f21cf0 0xfa44a64d2c496d9da946bf3f938477c43d5a0a4a5b72078d2ab0317edad2f8fcfeed37b1c6ab9b729a8437e5d649cfbd2d196568c5e2a27c0d50c15ca10f136bf3; P1 0x16eff3ad33f4aacb3988cc158df47a2c7846fcce373420e744390fb77af906781ea21ce11e43d2ec9b6e7afde3ca4b37719ae3550ce08be0b0e3f8068bf21254485 0x186fe139491048e9d0e2f24dfd2f2913cd050ba5a85fb0135d70200cde521c456638821d57c033e7f81a28297661f9a9a973826bb0876623bd7f369901029ea5e80; P1 0x37fc0afbd493d90f84d313ddbd2eefbf6395699e825ef3d6f2ca0fd3c718b67f962d77952d4bacb52adb073b6a2acf0bae6a2f762876e7e7a82b231ec75f8b4ab89 0x1c8a5eb3c66708846ec586ec7fc0da50a10c06d002fc962f6f9f8dbc07e60475e20383dd85aec182fcd924b8ab9b53ec163b59d92ae53e231030c9c16f7a75b6b89; P1 0x4c5d74258616f574eac037ed0a744f8b13f3ce8e638e282896af0abe7efc345ce82d47d7645422ceb9a92fc7568bbd8b3539f5acbe77d9581cc450467edad5bd86e 0x4ed9d1f41d5a284847f9ac23f1c31b74710bb77e9a83a75ecd243cac2468f12fe0c0766a76e1f03d64b73a9c6854b39c7c66d57da001ea84f63cd4c7dec9114661; P1 0x246e2fe98ce3ce264519c988ff1c25550d57eb95a37d40363891672aa7e7deb6562537e7f720436d9fd9a70d14098bd351690cc721a8475ffd3470f4afe27fb181 0x18adf0f7d5e23a560919caff8692bb33a1c91923e21b635a00899d6e138b6560b272838a766fc7e38fd68559e79756d789dd556ed76dd74f37de84ff4701d3143c4; P1 0x3919d0d0ed4af7e5eebe480a0fe79cf6681ca6ad5554279ce69919ecf23d3df12658bb9834e7033c18d568c8cda0346d862c0039c2d6fa6cd064114dbb60a4aeaa5 0xc7fe32a5640b21b9adb55801889e1c1f3d4963cf469a940dc944372f1d406e239a6e6c7e2d656675c9a0c929872e18fc6ea99fbf2f151452de0d436b64b3374d5; P1 0xea5bc6b881a147ae16b5021222896eea6b636f1ffc1cefaa82ed314d8e6e9a1b864fbdaec67f9a5149052770e01bd77ce5e92a31d1d48c0490a2d10d46afce7b 0x18d5e4b6879591248eeb670e5779fddb0cda26e4911fe92493fb33096284ef02bb7eccd1d6cd8f0ac56465bd9cecc7547b86e5ef6c64b10444f7c9c5406f73efa26; P1 0x39d3464ec3ef4a2caf6d21a4f3264f82b61b67e0f767757059d5c4f5ed93f479a760af62f261d23aa15452782651e608ef11522439be465c2b1a40bb3a4b4a9e4c2 0x1faef77bbf9759141a3ff2c6fd8336798af99d57b3cf721bf2a139d57c4689de520a53198aefe7b3c9c397e0d9a0aac3b4bf9edc0d272b239a43cb173970d2c9dae; P1 0x5e1c347fdceb143859a2025919294464eeab2b0f49931122a4b31aea75bdd4034d75943614cac09c8a405703313bee886e3a9a9cb5c9164a72452fc67385f14df72 0x10c1a7b7075144a2688ae8086189e621ad3586ae5bb5a6168804c91b9461c49139068c480fb1f3bad0881611da552917ddaee5e1ef7152bc1ab05be1c6321e1863e; P1 0x1a52b2fc9253f47ebd6d5e27b911da4335906c47627a74424ec8df8f7fa081aeba80d4cfa1fbb425427cac59814af735b90d5aafaf497a2a254b7c9a40010c8bc79 0x1b872a8400d80c280ec7232128c2ee6ba7e4e8474a0391277b2e1a568bc3348d82444df45709cc5a10f0d300f14625ee2088387faaa6613ea3b72b791b7c2eba185; P1 0x470af8091b110278c3bf9e3b6f2e6ba1ad1b89d5144a8a224525fa6e5256129bd4ac8448bde00f99d443663f58061d570385dbe9570e1b53caab39ddf020a25e3d2 0x1c491dcc9915e0e4dde653f217e2ad9b2b202f4b510e8d8a58eae1aca7dfc25a9d3209038f56915173264d92c03f5ddb9440dadfc88a66a8ec5eda8e829669911d; P1 0x4b01d1a257620cf6da58f295ba15258ea7988816597053b9b6442663244a2341c31e26d8ba174acef9524afaeabfedd561c852d9fe2ae61d0b7f109d8b6b63ce4 0x98154673614ad434f8a4f46416014b36230aeb1f10b1f671dc186e3b649b0c7a42624af563fe593f5781fb81a1fca766e48e1e2194ffe7b5bcb5d756f7bed9d4bf; P1 0x8785e82478c72f38cb51234c1709f83d19eafe2bb1a90ace030ec792eceeebbc114242def77a8372ebde035433638f26c52924c687638b01f6b123b50d11945dba 0x294099f193c609dab1612590ec20c3805ed3bc22373277d1730933a8dd077d61a55f669053de2a0e7185f955a012e5bbf8b0cc7180509ea3af924c7e34b365113d; P1 0x9f8a26b120af52ae32b335b8b6e5c3bdb6df5eb45ce458c60530de049c918255eae60cd8d0159be5326576c9f502f26b6a751e6568c7a9a0fc5af0e59f2142dea 0xd73ab8825008f223763847545d03e6123714609211c159966ef84a3a2ea3f1cda22b9032c8455801e5a7f4c0220bfdcdefc0ffbda89277d97c98faeb7adf5a785; P1 0x10f6d871483b2503b4a3be260c6ef0f30118e5450f37fe0dd6c36571cb382b3d486ead8d66d57a52043f36075b64953f726d69f54033313fa778dd0e2b0fd8150 0x1f38cac362c2f9dffd4ae6b70ca273cc338e210a3636824a50b0da5b8ca3f15c9af9807f4cc4928392d45d749fa746260762b280806cfca7ff8cabc85c02d8fe29b; P1 0x5b6348efbff08334e36731fc3fbf232ca9e8264795bb27e04bd1ba64d5ff1be7eab286cca469409c8ae9f2b345729662475ba13dfad6b250a1152ce1cd4b8cf7338 0xeaf0a32531981b8787aca158909a2561611e7c896caaa49c7361a3a047ae860d4bd8816b6be8ab4dabea0550f60430038ca9232715bf142a945f4b3f1080f90c3; P1 0x1436b32ab728f2b21af2c29431a6c1f5abe3d9dc168529cb4ec97743e215928b829bf5f5392da81134f19533c0353831e6a5920fa06a90a6faeff9bfe8e5059c8 0x180e5cba161b4f2dc948bf7e19f6f8c6950eda61b99fdc40e50c47bf9ce4f9e4307a8cc485cd6f1fa023297962055440371de12d1fbec903492ba284d6bf8723763; P1 0x3640b49bf20b97b81e07d628d20725b8caa9249e9498faecadc7b6303ac6cd49849cd942951f86a41d2cdec0b4e105bdbc369162c8901c390bb400dab965a205a25 0x627a454fe30ce8e048c856bdf52aaaa134f78cbb09ffc50a1959fcb51c05a41cd647e887863d5c4914480c9ab9ba63f5ed27117f926cc2f701c299b6abea976b00; P1 0x38d2c332f31dade2d58eecfe29a98199ea6d6a0e597d9607982a54eea6a58fedf344770ee314b5ebac6ccab2b38d59a4f46b72d9238be7b6b3caab16f5888ba6d6 0x15262576453b5ad998a3c17b216ba167495cf33245405607b43b88581663d89812b70896311c90749a02d72aaaa1911c5896672700763109d3918dd6877bcb6a6d6; P1 0x29eebbed1ed89c49603d2b7fc9fd57e6a06d6ee4c25e9d1aa5feba09680991d0df5ba14260f32082c1d78e1c8369cdcded59a736da66331c0f25e1c7315e46c9ba3 0x43c637e23dcd0a34e0b1645336199e0365a8e0b7ccf5a1c3c6a62e9f88079b9c9c6ee44c9c012206166526a730fb5346fb585c11f7ab9ad2c313fdba05c3734c4f; P1 0x1aea08185fc5e0841e1ac8df5c49d65776a4b216120bcf0e0e7c87efca9743379204387e10d197e489d970a47ac17349e4c666263a871a41d9dd9986714e4a7a66 0x50835c714cea33dd9b2287209e7853f147830b274078ed64f31c06c11baa70dda2841d690e17807625e83cd6c54fe32d91629e6921878144ffcfe16a3d4d757b89; P1 0x25fb8bc5d41d164d5d5af7fb55a96af5b3115793cf35aceff72a5cb582b77e5128fcfe9e630f328395da1450741a49d6491b37fea7a18b72b240df9f052dab87a3 0xd599a3e6c6a71984f4bbf2bbf13c7d705e5b99ffbb156be2bb16698084f34b9cf5e32344212dac314c32326b2722684e9016cc3165f61f06d642843f92e0305596; P1 0x10b558a6d0608cfd125a00c87f03cab3e45fdcaa004990ab95008e945174c587148d25bd2548fbf996373a66e2039f8736eb132a0dbae36b43cdef69f62c3e32553 0x1d336a88ae343caeebd3c482b0ec85ddd76e0fa7852553326876992dcc5a7ccb94d90f31e75b75c0171d5c482db6d49204e47df202043646567fc8d55ee27a00ff; P1 0x4ff08b1e16413b2ef227ccb80e0dbc173497a2e87bf59b7a77d458d5bd14c69ee2f745c1ea8530e49aee40a8abad35680071e8b78c3688d22845a139cc872b14c 0x427f76922455cc1278abd4ed73e359cc76ba8884a5d7ef4154bfed16dab4af3c042d79d40ca7a583fc5d888656b9fa75aaf5196085461ac6189480331e5599ab4f; P1 0x19e8f4e751fb02e9d78b8e1d24c8d4cd4a4c961ea773af37d7c923f26629271ec7d012885910a90d96c41099c060b0b28ca85e27c8f178468e167f98cc6081e0ab 0x1db2f25ec941ec882ce85aeff0503d3eb9afe035153c41d017715f0aabdb215f73a67cbb62a7597ae6da764a691760af467a3cd26f4e9946354402eb25a67b3c7ce; P1 0x52b0bff20503a4b400e428d5a55b80d01780f627ea430dbcede570268361b5a687f0b0cb5dd8e6e657929a8dd6cfc1189811e143dc03cd585e82ef82e8b1657e0a1 0x4765134cfbfcc193a04d34ab73e696be822a45dd721bfb7a332a95435e97b426fc78a76cc5f85753daffe89eae05c7f15485dce03cecbde169dbdf882d74699ded; P1 0x1dddd4eb67f6540e1a5faa17b1e27e0732a3d7588f28407d812b03a2210df5281cf05a2b3b48bb4258eda3bb502cb8d50876db83814022c423de08698a5324e9fb 0x1cc2a94ac7927582c751c47b23d5f1cd73298fbce801df9d99f76c575b5dea1ef068bdb48aa7d8b20de873cc7963f242dcd78892c70111cbf46ce52119574a89236; P1 0x4d8bd94116b7f8919d36a3e3a39d715ed46c3eec07ffc431bd486e5bdec8bea238117f0f9ac91bd3c7b76207fc640fe8a8bda98311690a1ffd5a77f8fa8f0eebca3 0x1800dae564db2e6afca5a44e5471684245bb39f9bd623f7a60288519a21899429b6abf7ea6bb197b4c38fa0be5e17ad42563007d8f9714144918db346c07013a6cf; P1 0x3603d919d1ee10a6b6f6ca33f48602a069e7a5312b2afa23f71852688307a366390a9808813fa18eae8615ec6a3493cf5ca0e605570a2b0124ccee6f06e35b8cff8 0x8fb7b9802cd9a39f8642e91d909ed300ce8b402f9ced1f4298997c0366a924cfb5d89d628e17bdc0c39cdb66dd56689ef480ce9c43310d6b51daa2ca5423fa221b; P1 0x790627a3e4a8a76d6112a3696045ca000cdf367ef406a3f4f8ae84e15bba1bed5ddee3c4044c30ba7ae6639c87f4e064cf695695b92f3590f463136b84b5e0c884 0xc92b5c861415e46291cb81344a64ae03ac74e6961277ccf33093229f6c001b6e7ace88a8abaed953a7d8b38779940107a6e6c32bca2ad9537cf2ad71dabfb6550f; P1 0xed1fadf42308a6f96a0ddd309f7f10c66b8eb955c0ce8b2f7247844fc4025925ae0a8e58143384db5c390490de122f10522e148aeff4f20e7157a9a0649370b680 0x138f517f71af45d9f4ccbfeb2507a075e3ef8583f0daadd283887e24cac9b2961aac9ee987fe2aff2f4c3926d7c1704c49af28c6fff22d678456a10b164e2359b23; P1 0x23de17f99cc6159f2a3f81922ee92f3693aa65e3d87ac2c4ddf6d07192c2343ee56834fc6a09454f2a99809b5c96f3b8c15f2e6445ee5fa0c257ebf2016b2c1083d 0x15b8e52e26bf7ab6bc15c746d90a1178ac4d0a72c32de31410df81c6ded930639d86b55d27c32764aee0bcec08642bf7850bb9e762152159f386bdff88e6453c98; P1 0x2c3c8b5bace128a58a38fb9d8b2b8b111c751a8139eefcbcee4496a16403791fe9007a1860452320ed7a72f7bed33e0142298d6560dee82e92f82cdb8e1fff363 0xe4a4ffc15eb43d48d45ca4b6662292d7b14db7de04f1a29327a4b2e3824fc4424c92b25184a8dec8f43844776e155285a061da686d7f0a31732f09d5096ad6c223; P1 0x132517addafefc93ce0b63250a2bdf247a2ae52656ae9723825f3725597a792c0eb1baaf77954131d95a57d2334ef3adefc77c48899238246b5fe1fc8d35378f817 0x12ced2fa21fa8c65ad227998649663e92ac754a619117d4fc78e4fe067b3ac8940c646668a466107c0e2b31a9f7f0117b4581c0f017cf08da99abbd1cffb8b02a72; P1 0x2129b2517cfdeac884698f0d8ac6cc700ac0a8ba8654102e0e39e44c3de2b9e14c1373fb7079df265b40cd3c4f507b6c7cebce1d065e497a6dfb2867157d440e2d4 0x1ba7cb342405c0219b47231009a7cd375a686aff5670b26c08f2d6db02ac482f6c24451164fd1b3242e395c70da6e99ca536f8662c7af5f49ac93f411669f9db320; P1 0x47b3c439e61eaab4d11d86e52f942052d1188ae2d519e27f3637cc6773da190d489b8d39aa941480d2abac6b773cc4de91fd0632a7b5cc21804c8e51e43e7aa0a03 0x4ee46a1646885a5e046cf3c7476d01df46a1b55defe87b0bae2a377618dd69ff2253748e7741a9f9d176276b328726ae0fd34ac5fce8f7104fcd3e7b8bf6b5603; P1 0x2477faac11eec5710fcdc6bd4ff6a924b0fdb63e8edf1df0fa71b5f97219e5c73476f5f17707c2bac07abb77237ab25790c446bfa9294edf9cb7747863ef1880 0xab0933ab26b487ac819d030e7fe05d5cab83eb1cafd80cac7659a4cf0561d2cedabcb50461f5beee1e6915625cebf2dcd38c304d8d3284b24efb80a574dc27249b; P1 0xab67f108fb414eaffc8e6c3760b34c35d52816b5c61a9084a93a21b4a4e18025e69c711b4bf1f3fc0a863a6b4772ebbb735577d2fb7bb5e25a0fcbe91ed904767f 0x1bb705b2a288c5989111a53425a3bf71a090826928ab1a0a4af6b5d06b9f646a7ecf3fc06262c8d438d14059807e1a065d97b7c0c953a05b7e3d8c0bf3a9666580a; P1 0x4802d133db48854adbfe196df8f23c287f60e55e2483f83dd3b79026497d0139069a629e3a06f8a61e39b1173a1d441133d1f28ea94b6c1ca096a2dc72bfe6a259a 0x1167b3f31cf28df9bb529624ab21c3c8aeb6ff992bf1148677c0fc0de89f2a658a0040a25340bf2b0c544a61dc78908f8ceebf0176a8f9d6afbd97e8105f926c6c6; P1 0x1c667dce0f31516de30a3fe3d46aa93a4b19185cdbb90bbd6909c03a3b85812412cd743e4287855c75b5cf541b721e20cf54138a816b5a1f45c83e1af2b135515ad 0x127b7c5f72490fe48f6a3cd846d1f42e140386765403881bbde015f82ef3850ac72dde62d08eeae7fc8fa2541dcf51c548f8090f6bff40b4254cf94fc056eb1b919; P1 0x200659542520c1d51a9ad53cdf7de4aede4d60cd9abc7c37091ef36caa907d0375b18af8135f72af37a2f7fd50e4a5b975a47733df1577e5e941e9421bfbb40e6bb 0x1f923fab3c25bab9f48a705ed72a114ac8f4c0b5fa93524521cb127bd5b381b59f155c0a425e608f5afbe00b5cca1c67dd7592c44f05659be6bacf31e069e76540e; P1 0x5d71e743b933498ffa7b77df7ae19d52ae31998a9556af7861ebafb6dbd7d640e5b62a3b8bc13c5a8e1070b90f00335a55be437a9b3cec37d1f1b7bad9d627cb08b 0xd5ec2470706f13104e62eecabc3ee80d46fb15051a69f5294dc04451d11be540ec0cd51491de0498b2290dea00d94b8ba695960a46a14c8ece5382aee040042d7; P1 0x10c2435b17763ed4924a7b370c86187d217dd332e645caf8640bfb21d2f29cd16e0247a70ff49ecea493b9f7e587b1f15218d3090da61114e4ec0d7237e4233a7 0x129bb238fe9713bdf20f1d90e351b3ed6bb61ea8f05a47a91a26e40f5afea7cce463fe1ab1ebfdffd499a87d53992133a5aa09023cf9562216e8e6158b3da9ce55a; P1 0x20765a1f95744ac9f2f3fc3799eb5aa6c4c719a440a159198f4bffb1ef70e5ea7d9becab2ae998ce68209e93392e00084669c99cd96da2046d278965edf1ee4e661 0x1e0e66093c1af1c7ac5282e9dd18658fce565016f233c53305ebb5032a9f83926ec8e41ce2da60c1412276552fcc2e8c2749b5c96927f64c8d15a84f6c3f063514d; P1 0x54b111639a65fc3fe5a69dae5cf0d2017f59087462a83e7233dbca0824af0750040fdf9edfd150d857fa71783f1b3bc2b46ad6ceb7c7532689d7c4df3b8029dc508 0x59482561e366ef56b46a60b5b02a6e46e1c995203dfc800527ee279667d80713989541d5a9454140a5117708b3c91afbcb13f15e0ece1c42725a5e968b14bd3883; P1 0x2eb4dd7caaf464382e1b652b581ac0800cf044f9dcba6c7e9c021a33077a70c2607853ac292ef0b90758f278965c0bd9ad8148ffcea20a030226bd6325511df85e 0xb702fd58e7c477c960d27ce05851ef0ca95985c683edfab44bc9a6d10d1156d14832da4ff0ac1797ad10816387fb3a10312a86a5e664be50b2cb825ffe32d4b179; P1 0xc43fe95d113308f567db7ae78daf25ed32f57b219d39b1a526d284eeb9be4ab95aed12ceecc6d970ffed3e54f2ce13c39af116693d460fec14b2c35083af8c73ab 0x1e926783516839d747e37111805b53bfb29470087883d7a03687926530e515bb058f8cc03eab5cbbdd9b0f02a53a744fbe092530e4e5d51f7b76d0e90f4bdde153e; P1 0x579f5fb841452f6134148b469eb49980c134b018b6979c4bba895a3b58239fdeb31f3eef5f54346da8a9d452264e497e4f6bb0a8a8ab6092df48e2149199b7e8dad 0x1bca7a9fe184da60d846a5540c850f9bf1e6cd3823e8b244ae1f0ab812f92c81f917a20d2fc0bb8f088749122163355f01e741b0377f2d59bc0e6a907bccb603eb9; P1 0x486810534ee0bc8646fe06b306a671a11df8cf3991f3bfeb5e26aa5c1e914d31e091a7e963f5d6b3023debea843b2de08d1b9b490dae88bbf75fe628ecdd159f4b6 0xe67076ef4afd56412aa353d66a3c0ad81a128f080cf4b12b2a3e5a34fdd8357e47c7f348a2dd3fa83ea1952b7553d9acea49ded9fd87e40e5b823c9eef51b459c9; P1 0x137256aad65137432d43808aa22e8654363746d8e6f4548d34a1810549f1b1bbcd913322bb7bd29da18f8a658c237dc90b1e594af39d816a96ba75729121d023bee 0x7e6454b1e79cdb218ca9cf3305bc1f649ffdaa10773079753869a7964a3abc9b983e44685e71ed37541994c8fe457ab760a910fb7ae1cd5d092cf54c9ad9725b61; P1 0x5d9a600a1a80e0d1e165cd5996e9f435806d45d1823b147b3d9ec96f0871018e47dd46a7138aab4aeb9790cce7a6d4fb845679e132925395f69feacda7cc55ab66 0xdbe2134dbd2c238e15fa4d1d61f944623a98368eea7917d9bb06885c60104c623fe969046921f806cffd9b13280371b41b388104a71bddc3a414889dc3ab5bfba9; P1 0x11b4adf03a4903cada9239b1543a2462932cde9f76c0fa5778cbfde0ae43a7c884badfeff9012c0488bf1d47943f547f9a1a6d5cd21398742d84ae3e6bdec14f8a1 0x1290415730aea21483112e5de13bb41c2e7ccae2e53364bc1601366a572603ac10138c8d87c9bc03f2298d76423c433cdb7fe74063e7a510ad1a81bf8e1e2b57954; P1 0x204e7b6c06b13820ba69962643e536c1240b014d49b54c7148b3eafdb446c53e918fc8f2cbab04f176cd92c2ae0229426a6485853df3a512517747c2441c942a6f9 0xcfab31be623e956355ced611042b75c6f62e519b5426dbcd4d7e3b64111f1dfc57f427bfb7276f10b64cca07f3c287f9dd17fe238ea876d0b028f5d1181c31a9; P1 0xfcb17364115456963ae450b834263dd75750ade69e79eeac2780642729045187718193b76e696d91651b37d09755d0f4862fe4158e078ec9a09468071f25a4 0x1314d34a9986e061ebbb2b0855d5302b8e6a62d4fb678cf59e7a94b74b1ebf65243f5c76746fb15b2365fa9fc0f4ae6a81fd1d707b516013817e24297dcaed8a57; P1 0x2222596274119cc925460263d35883321341a8ddd8bb01927d84d86c84ef2d71d71603949fb88ecfc04c3983b3403a43a13b1dcccbc89e674d61bd4f330a75648 0x39646119bb4ae625f81ba515ff0665da5da461560c8f26303ddaabf95e16a54e22d337b8aaa281a63f0aa6e4afff03b29e94ee73f0daa36e424f1ea05642f12fb; P1 0x134cc7e6318147486151910a43df9bc991abfffccab726a8fbcd92dc9b5cd67d29583f92f7714321e18076babb7b70e30b818970751d5862962c08917923096c 0xa820cb66f0a36091a75ec595641bc0c085f690ecfc20d2d6f3633ad2c47e9ac84947de16aecf9aecba14d8bf5ee393c20cf58c2c4567899d5cf329446fadd9cfb7; P1 0xa5a096bfe2c683ee977161ca8c0455efbb05507f7d7c1f8fc6ca740623b234b4dd9054fa804f29e5add5140572c367a2e4faf38436dab2f1ed662196d8b1380c23 0x996a11a45158a990b84d6363b205309de60b465e47c71237a54f427137f3bf2eea964589932fa680342370f150b74ef56759dacd38f49e560f0bddf51c198e6a96; P1 0x89e7ef8d89c9de92432b3f32ba366d8dd8828b29e56e0431b61c4ed8895adbe55a0822fd78881af5ced1f1b083070b778dd3d56b5fa96dbc31f8ace9dd3ebbda2b 0x1188cd073e04081d155bbeff4a3d429090761cc828974afe5bb135e3a783dcbc37b67b323722607d64d6f32ebe8c55a118e0b366314cdfd08154ec79070631589d7; P1 0x1cd2e802b348a5515f6c7f4ee4ae436f3c79f284ffaf5ff5c37251df53d219d01dccc6f0a12dc6f8b8675d4a2893829880ca222ac3e8dac24dc72329a4933ee0ac0 0x8c7cea969721a2d0b2a0ae38456e488edda24b082d5b337e1dc14978f0ae9135a415904e97fe976dbb5a4250b416616068e0b1fdaccccdb18d9fc50dedc8678273; P1 0x73a54c4d353a434d67c0b7bc75fcfb586a07e1874782dd8afacf038b93fe89e13a4622568ec21aed2876353a073bd67ec6bc405bfc2ff34a9b3a3be360b255284b 0x429697c08c36cdb6ade8bd70640ea5929dfcea421da959623aebdfadebbc9ed837e5c4e12a16a3108c6d569ebd6696178c0e580bbe8b28857a6913934735e2746; P1 0x19fafe4033d7ecc9ce24cd7eeab657257dd747a78e6ae9cf26a681298bd4dbbbd45303c8e703136b36e33f137b29b55ccc241e59732d1fc703c36d0a354ea155 0x1376e6b7c2272acd6e04a0a34676f0ec287853bd492b42c38ca595abceb919cc68dc27d1223f2a88cc4dfd25ab6c3828e29580b4fe2e5d3e9a5d2d7fc177999d6c1; P1 0x2384c352c3b41d939ccbb8c081a5eed65edc8c476ba04ea5dd79f2257efafd054654bed23ae63846d79c77ae897877267c8f81e4704e3b574cc42ac2f662bab06f9 0x1b03ba78b4060f4b848bb7067ea1d108adaf4e3e11b5003a02fc2d94fe91286893bb7e2361038635cf7ec22effbdf243c1be5fc74fee55c84062dd037ceb636bf7c; P1 0x446ae150af1acd08a58c367cafa1f9667ec4078ef897796e5fa50fdb3bc06517422a332789bea8d3eb53d7d12d501e87feee0bda30242a00032d1fb67cfdc67a375 0xca2b41003f651dd7f60aa1d89a6526d446db3bc0e623f870aab352d77b0c6783412f7e9b6035fbb7bdde8ed9e78011c42575dd62b1e680021ceebb6e6cd3066fa5; P1 0xef7c6ed4eff2fee35f8809d5ad634274ff20d3b9c812af0b2b1b45b264161d1c6b8fff7d14c1974705210f218f0deadc1d3747baff355a82f41645403dbea9649a 0x804c6c745b37bf1d967870bdfa482970fe4d9ccecfaa20d689370d134735e821cfd450c6ac724bcf8ce81e5d90a966596423285396f2c9670a956a127ffdeee5a5; P1 0x6072c4e765606f195678f00e6c950439f2ed196e5b88b1e04c001272464acf759916e827d40e7345a13b02a8590c9ad005a3706cfc3c5517f77ffbe0203204acf8 0xfbc7041e5f432a16f8e6f6328076ea0ce9509185cfdd213c5404d26027e3457ddbe665b27d2e3bb327989b21e1faef57acf51b42791cc71f36d1873bc9fe6a8203; P1 0x1736fcb307122284d92740ccf2de4268d518d00a748f8aea940f574cd3eaf69b05081c4010dd0fffaebb5ddef51bab167bb26ca38c3d659b314fd56f5b0b6a62605 0x12d3c70080c682a4cf18a6fcde9efa5eb1fdc6e278a5dfd4b44a2284c33aa7ffa8053a4804f5a4be974cec8e63217493397c7fec7095cdb52aed4e428bc582f4a20; P1 0x213b2c49372f6b71d0848ff78b2e7671d4ef7bd64722ed3f872e2df3416116863d0816d39c14d8942537b978ba618eef554aa00ae3846142c7ea0f05e0441ac8456 0x190b148db91d03bc99802807055ba6f35f15d9c7f0ed31afc37d2204916f19b9d0004b857bdaabb7beaa736140b7cd8392252f6518bd9b85e62fcee9e1b29501056; P1 0x3acbfbdadfa09e8b0e221e3899346ba349d2ac9efabf8ad000dbb6ac4f9ab2a354f2e89f39457bf58854cac790b56b06d724adee55c0ef8903485a8d0071260e29f 0xade022baf236c3c734b55d3d59a65e52fde5e03784cff79549b0735be8f6fce9fe6729fd38047a71055ce7ab898ae5f121e7e9ac5aae2f7e754a89d9445ac1794b; P1 0xb1250cc432da1ff3e3e7881afc629c8b7729a14f482a47f861060554c6195915aa3c05fe36467245c916475c49505ba3e33ee484b2d35561fa91e85c0ad24d8a9e 0x1b56c39b86dd58529d4670666946d6d4fe259e78158e059e6da5bf8844ea68608df4799ab643f7c1b1a9872870c3814e67e1ad4ba1dcc14d93207cf0155bf77e89; P1 0x4612000389b68efd87ab5c778f4fc1242bfb35d475aa051a67af69008a0e84c20a3a40fd7aa8d473a6dd697b178248137dca96afee44529503cb22d6291a4d45b 0x1982ff65e5641102be74f4b72d11324dcbb9739bbb6542f5d7395444e9a72ded662270ec74dc4e21ba3a3c35867bfc0a05e0d65fc79938d6c29898abe810460444e; P1 0x3d0455f6da202bff4920393b2fcd22d18839eb324aa8a068445699f1178bf2fb8c1249997aa9995e71b73a098ee49adbd341544f58479885aeec5531b9ab8be8853 0xa5206e091a45ed1102e3169b6e310ddba53e8b6b30bcfd1da0315966a5096b05620190b232cb832b5b46e19c83588672b1d1028084e755fb1f110e6a6feeeb1f9f; P1 0x9fc43aed2428cbf737f98744b66131da2c403ccb3602f2f49240fad30f8da66ade1c2b9db9c388dbe5c8ec2732ecd1fd8b4ff58a37a3ffb4ca89b63e94b0f9bd26 0x9bbf0960be875e0b244f19ea5756fce5ce5c617ade48352e8ed6037c05c920c19414dba357d819de6712eedd4b32c9dabc703be16a4a4ac873930f9a76d26f6b69; P1 0x8e2155df382241bf2fccbf40252e357b07694bdb7c8a2f9cae3ab996fcf87929a133ee1be90990fb850685cb07885e742e72a6b3ac76d4d46189a828bfb40e3a8d 0xaba268152550c04b579f0d82df1c527681a2a5d527a7d1fcc1b15f5a2548c270c91c29f0c795f65399e027d8002f28849e73ad8dc61b1fe59d39572947766b0dc0; P1 0xac9b8d1e376570bd2b01e0f11a70e6846ad5c794b664c4970baac0a2e4c58c22208286aa7de741cdf8edd50f95e262a98854a1fc8d249ba909300182439ec30804 0x19ae0cd1043cc2abef5ef0546447c0bb2b3716813f372d57ec23d8ca25ea327d4e4c8fd06010bd89092f859bd17d98ccb84110950bdabb723d54b317c181c7a3804; P1 0x3dd2f415f66d581be02cf8532f24dfec98b8eeb21fb00f2cc329f5119190faf0dbd2679737796aeff2ae10e564fed73b49386c39b3940ff96155091601a76954eef 0xd1e1fb79401ccb8c059ec70c9ea836e2cadea0105159145c57e63592615a6e0cf99ffb7013bc98382085ceaed4e8c087a85aaa963490742673ee35662966ca8f1f; P1 0x1021c2623fb450e2dd797ccc37f68ab2aa828453644ae488c804e657aed8cfbc2f0a308b02f75ab654d0335ce63ec94cc30089a02ec67785c345021bba2a8c4fe83 0xa1caffa70b5c0a14d4db81ea4863c85fa00bee3afbbe2ba845e273962cde8719660d566598a2a195ae4f69674a7cff08adc180c0deec4c5d8b85417e654b93efc6; P1 0x996171ccd6d0db56f0eb8f82a27834f680718401737010eb69d6764ee1b990abafb42c1ab441f1d80a215159be9496085d2b92ea31cbd54d72ed83ebcd292b4e4b 0x5882b806c2117c83bbe67c49b3c33036bc4a072cfb437651f9ae960bb41733cdbf35f985c3298abf10d841929d6e30631d35b84d2ccc39e8b8745e4672ef1135b7; P1 0x2de731e618dc41c5c0da8297b2210e136aeadd84ae16b03bcb089e81771b77e12bfcdec4203c91c224ffc86f08282027c57db605067a480df1bd19bb6863149692 0x19b127a5e8348a94aea703ab313c30453175ae1fa3484362865b1fdc954305053c297c069a3c241b1dd05610761d4ca734ec67cd0d3ac636a1b3824e6b801ce7105; P1 0x3de1e81615dfdfcbe6e04c0eb188b3a78f611dedf2bf8337cebe31e6227cc188f8db8f85734f74a2d8ec869f0f1f009f6d277d04f65f5ac45baddefe2fdfaae760a 0x1390846524d461ef823565cdc6c4c7ced924ae9e29452cb4ff882a3d5b5d97b8a071e5e3873511e259d2feace4d018e0510eff3a672fe2027ef6db806a25a82b455; P1 0x23e27da5696211d3efaa748e5581f51e41757bf24b853ad0bef0c87f0319790c0fe111fb514336edd1eab1a8b04e6070d051b8e31dcf61fcc8e4b3e1fa5c2b2458f 0x140c020bc69bee4d14114a5d63b18bc03e89c4a76855ea0255a79eaa4ad3530a7574b59c3a878084d21fa5d9ad609a7f2f67d0af28412bfe8a9896f42f7fec5323a; P1 0x25ad1530c3ac13f3c5ac3aad5c716d5552d47f99105491179cebe46543823b9908463c5d06be27cb0c68fd74bc915e3dc58c33d14ab49bfaab52cbca9a28ddb3301 0x177807bfdc2ea4913e28884470e8efca3a032fa424a8ceb83bce9a2ca92667dbe84b69d0ddecb6aef25163244085098fad4c19fadc3b55c678df78adc1adb37526d; P1 0x33a2e819c8048b1d5f6e5f14fcfcee18e74b86c88e619faa964d80b5b02528850bbe5353c6e8234cafa7ac69a52776fde71e0d25a98c037f38630e22b458b9252fd 0x12e00e103b89a78cf49c9c1b08607766e47293a8c747cc6ebdad1402dfc0a3dfea1eed7c308415b1174c5085f4dfe47938de6425bd476b3469ed54d86a295b25a38; P1 0x216691c5853fdff61acca76a29ed959052fa3ee71067539eaf16e87e98d5df5a7126e50367645736dccbc7dfdf9d67f1239eb63102324436c35fd4e987429493587 0x73223b0ac6885b23812bc0cf542a91c1844feb21afd31cbb00d560c3f249af1c10e01c14aa4a4edf3ba98e3dbb3171e5d131dfaa5decd3bdc1e98050e87a4b7a47; P1 0x4daba86f2045d1199b2a79287171a0200b3a1468032a1acd08ac674f195b2f323a970a2d63dc2498d6317505205008b4aa5783a6c7ee3c313b91abdab9488d17f1 0x1e65303639c5b69663e4980e343b5ec35d5726ca0a8cba918e8172c2842f58d6882228b8c0581fd5fc1f0d85761901f6a7066339b4174693f3b4f9df12eec925704; P1 0x569cef1ae1c74edd47f3263009e7bd42f33b23e04acd9558595e08fb4b66ac4001422639754afc6a875f9970a95e6b59fb607cee7983d18b4cebd24c88cb36d65e5 0x1301f3dd972f5af60c468fcf274dee35e977f239454dc54b0abaeba1a8c47f62b8633633c54087ff23ce25bad44c3a4913f571b6d7e7e268e008afd9d20edd88e15; P1 0x21def520eb7f40a45367020b729ab621767894779dec796bd46b4a2959a2a37e70fc00568fdf251b7f934b676559459b5b02f7ae010c52064fb25d83a58539cc4d7 0x1d50f42ed318e17e73ddea13a88c0b97df6aa48988c1a25895b82dbd208f35afe78643ce54b4b351aace9adaacec31da4caaa4e461468914689668a1ae1307eae02; P1 0x509296233014c695537354361a5972cbdc40c17bffa38d3877f25c15cc473c4125003b9fd1740c141eb8256f4fce87f59b082972adafd631c91a3b0c61765b74bea 0x13fa2c9ca3597773423aaa8019732eba6fde162cf774de890c58062f387ec55f00ebc627894b42dd6c2e0f11803b75fb180b55e64da152c5c8543cadc74e67373f6; P1 0x256a2a79eeecfb1fae978c2ee71a03982852ba569e18943375b08dd2a75fa123c4360640f6f0359007807c7c80f39e763ed7167c7a2aad0f3db41e36cc8be50fbd4 0x1351e2d22944cbab4cd3d3a01da6c64b6d403351dcfda18ac713ce8a46494509b88f4e6efcacdacc13a346cd907aa83939f629a046e274e97c8d4b61ae700f1cd00; P1 0x22fe2cac62119be4464a5cf28d3cf33c1db2c4aa713e5d72d2f746c8133fe29bdb47528164f30c6bd633f876b3a66a186569b817dc5dcd00f17c92849930cbbb628 0x18f7e0eb8ba4069229988d0b96582114d0cdfe72d803f409a0f641f9cdc024f94dedfb118ffd36b47bf188cce71ad86328b9a56bfa9644faf09b336d8bde736b628; P1 0x3a71f47f17ce74532fc60493b1800fedcbe0809be1144221d692cbaec2bef281e79d9dbcab9503e6dc795d04e542e303653af9e771b8970e7be2b07fadf916712c1 0xd213511813a8199e0b84563c09e46ecccb679135f28da3bfe97883cb80c3d2b760f0f96ede1b4c047c6f897a7ebb5dcf5396d73ab8e70a96c326a8b95830ddc581; P1 0x102958bc0f5446d86be64095772591e47830f4647e3809faa3af1995fd1aefc89640ebe565973e95a218d08dd825a4c1db4c77e27ff271e7f2fc6002af0bb4fbbed 0x1094628bdebb64f5cce24f540d9dce6942f0183bb35bd1aea4b5b6f966e8b952764dbd342feba8102810a2da59e4043a07d91e0171ec49c56e8d1b0998da69d1cf0; P1 0x19c537d5d40845dd899d77a6d77205f8f840f1f5ee86908cba5522ad6b7b2b013ab8f2d05b435dfeb9982e1064c8526bc1fa401eb4fcb6aa21261d88817ec9d9ce8 0xb45f6947ddbd63a02739d0f222f743cbb110f3c7e1e94d41820ab47b951673d9a8836c0f5d9e26a3e0d1f99e5d10b230cb5468832518507d83a6232f13318dbfe8; P1 0xbea1776a8daf6618e44c63cf4dfccbc2051970560da6d423c46e8011a81fea75ba7118d46c3eab29c9f3258566c762da26dbe4310682a2b57f7191f6eb7db3b493 0x19473d9ae6fc99d59aa92a2af2832349f856c0c4e91758e0b61ccdd300610c58c1bf670ca17d9e87a3141cb3eb45ddf4c5e10c947b4a795e9a0d12db216cdf7bb53; P1 0x3be7cc939caf8f4397edba74589362e1ead6ed8df0478af3119f317ab3400ba2788c95cdf1c61f65fc38e8a8aa2906ccefb02e99cb9afc57be778a523acfdcc9dd7 0x1b7f2c0026e8a6c1e854cddaaba372d6e4d92ee1e06f3db2e577fb2a3e7cfcd1f91a49658cf8c4b83b3932b77646f758e18eb383853f0391965428e13b2d181b492; P1 0x46e1baf13e1991387f46e8ca47a669866eb3bd86ac599fc04e5e367e0aa70d95c0be696e123ea95b92976aea7dceca6c04bb4607a15556fbd571d310bb13d4f4cb4 0xf0be87221b332ce066d1319be1edea596e2b09994d974666f3820e923998186412327d3a0e61aa27efb474bfb4acff83cece74f429f114b9f5b8fe8072d8d43680; P1 0x15398b0c3396ffa01dd89edec29ca0f2bb2d1277d00d59debb35dc817cff7e93f6ed0e2e03c8d7dbd45f4333fb1701cbb714ddc88668d06c45a7f7a5aac691c5ec6 0xef17a14b8b60faf3e02e1a5a361389a5f2b614823818c4e1dc7afccd0886ec60681dec152759b02103e6c60f7f36a2a068af6d43510405d6c512f05c5357eb1ec6; P1 0x14ef3b206272b59691a26ec6dcb8bcd28f8eb867085891b49575654b8dd12551b81d7a0c9e92386e41f55e56ea73de66d4502ce135fc3cb44bb8a161981957bea7f 0x122f2c9599a973cc577191c2772a498815d758356183d6610286da71adb9e4c975291fed3bfc5a523ec2ce597a88868080082641d7606ba35718827db41db20edeb; P1 0x1f00071a875071f9aeea80e10bffa91b2d7f359c6d253c2d3b5e5286ec8252c52620bb4a9a51d69eacd3cd523f47ecb0884ea7fe45d908f86a6e7b92a8f8c70c841 0xb5ab69514b53a45d4d01fde2def46366d2ee9580903ef1ba363b5c457710850aad976bc726efe4523210ac5ad2eb05ee7001211d6891cc09117c95e676ca07a96c; P1 0xc161c08c3bac0aa752318947848d77585e3949497752ec75b44bd62071096690fbeed98a1f6f56e10a38d9c5b1db68c5bbc3a2b4ac331896653118e37993d9ead4 0x131b13d11804adf2c98ca08e4fb73e1a0192ca8d4be7c2aaf7308e8bdfe1acf02ffe89a3480b074dde12a11176301d6adc98fc6a160e0aba8fea10be8f4fff13b84; P1 0x2238bb555ceb2bb7a447ecf915001d9a4a161e716c01379fbfcda7aa2b5e15585bb8b645a9b6390c5f54ca348635db40c138317a74f96aa761af91980273c22b7c4 0x7e38fdfd62a19157785456d8f50acf680170f4e10b98f378bfcf86150086f67fe7083df2ddca2be9b33565a522b8cc1090f6b95a94a909b5cac7f302ad793d0bf4; P1 0x5d5a3a104be98241b503e58bcfbcb2421582ba4fe26c7a61c39a5fa1a20dbb652b2fcce17aa74740aa27f42ace148410a0077b6363bdde0bd66b154b80e862ae08 0xd5da76cee7958abba6c71ce8d0e550e32809b2bf827e51c44b52dab7300dfa9ebdcf648915e5eec75ea3ec2f0f957a9d2d079a9e1f089874caa5137e6af8e74fb8; P1 0x10bf7e6344b56fc65e3c64b0b17bf46985ec27e9c5a1ca82f35c42295a5187c68112d9ef2f0d4d5b08e77efcd64ff59137f3c8eea7afae407f0e7f10ee5b631a3dc 0x11fc79624c140f9ba57d7fb70078f3879cbce46125b6a03181dbcfae8f39914556375fd96565a3428a22448e87fd4bd1826c70a0ba677b77d8043f96e661adae09c; P1 0x1e541ad61c5c4d80cb237b9e90aa0bbf11dfa466a9b20d1a11b1b299b819231bbb222184742a6c74ae81b8ed31c1cd8fa78748ec186bcaf1595a6805120494ea1e7 0x1113fcdfecf277c5733e029572a123ba3cfdc3d0c352506c7acee649ddf1f6e853ccff8d411eb2399e970e6d997d58c8626c74e5b232d52170df3af08594592bf17; P1 0x1b57db7e0be7d63093a065bb284c63573a6bffdfd978db61311c20d84d169c949f8f12002e5cafbea88128d14718dbb15af999a2c30fded31c9abd332e185719fa9 0xc0ab50feae3b7869c7a643728dad3d1b9f4e0f928c4140959e3afba56e2fdd0ee3e8cffd3de1114b177abf6ab41d2bd826c83e65e67b100b704ad16a3e460f9bdc; P1 0xd9822234fcd1337f5cf61a37d2a4eb3fd2cecddd461d50252224446c1ee4424f732c99e7d1e65d11cb7afe603cd594314ee9588d7aadc8d40adb84dd2770905d8e 0x122cb66c40147cf89cdab3977668a057e8066550aa1e3dab6181e465a8acb3d3f78385c59928a9a757fda92aaec34d825ed4626f04d3a45d3d2b29787674894ccbe; P1 0x1ef7a31a8528241c5cecc07a052ee0c23b49264a7bcc9dcc36cf7add7dbd1b4c7c6df50040296f71da632cfc83e3c3e512a2c8d3293851a98782cf6870543be6255 0x94f7a272802c00e1519c5ae057ca63c6dc96034eadd6d14f4ae8ff2a61564bb7759528c46f91f7edb6223407ab3bb242316cdd83abee6fd90eb22612aa020c7961; P1 0x8206e50ee658fd0a7a7361cc6da236a76ca46f7200d6c0cd083ec212deed5ddab369d66c77c43548bb75f2a611e636fb570c5989128c4ece69dfd425b1812826b1 0xb16ce18207b7f72b7f6509c028eea1a13af99320d6311e91855bb5722c2e50aac049bd50de48cb3a777ebfe2d1c4b8fbfc387e6867681ee14c132d47b0dd16aaf4; P1 0xb8739d37488d17efdf9f69d8f0703e41bfc740d17397fb454039e6e7089f76ff2b615cf2560b6e163b136dcd9851b2278b3867c9374418c9adc0ee52dc893cfc2e 0x1fbbf25cf2e6e1672c7e39940e14d0bdcce3beff1d79194d3f5c5e5d3d03c791db31541105fd5d4af3e8c5fc9a6431c5f61c2ab91c52cc408d0a911f8dddd87e5de; P1 0x5e69605ba1bf7506c1df2822fe60b31bc8b5b1d3366ef3e39e8080f2c56a96fd22fee5b2231fa097ca20886ab5c6eeaa186ec78f4fe7b0a4381dadd555d02e55784 0x27f8afa18001802498f137fbabba9c625e750c45fdb4590986be53679c4c306781b682c562b12019c6907871e7b460a87135c394009a1ee2e362701a51a2861d10; P1 0x95c92a3f19a00439ae4ce8e3de1aae2332fda45a18a3689a6daaa6356534a776e0cfe9a1b68bca9b1f062919e587a692dcb52ccc9a0af6576ce6c7bec0da2d964 0x404e6f459a216cc9732d9c26c8f8a1e59189a922b91ca394cc360af2bcc9d7a0d531185f307fdad052232e4f58e4d18f7bd0a722e57f1b7c865247716c1dc8bc64; P1 0x183af78031c41a04ad40d763ad49a1784a1c2349070835a6de76d1672b2023f76d3745bffc087bda40b8a252db61ed4893a2c8a3efc15b056861450fa44ac91473 0x65ac854d596489f34aa1ea9f75cd77b888e3f1f7fffb529fc6d0fbcab3096c9e5fb40d4675c66315b90314832f17af8858441dc659ac7e896f21200d04f77229a3; P1 0x3c92602ba4d45f4f0f4556053214aa6ea21ad9a7d98fef60fc7133d0a28bbedd2a21fb16b2146b0260b30244327205a4a824f42cc19615d248445b313aa3bf525e 0x15685bc7de0ed87c98b8da628efd0d1fcfbce681a02bf59edeeec96615591d2f5e53ace078accc19fcf3d1c8d26a6d4d7aec7540f4f913bebd85987404795942bb9; P1 0x2af6e663c97d73ccfd7f8f46da4a0f8bc3ddab37efdff14086db4022b948078c00992e5e1067b981ac65d7db6e3fe97a53be4f5fc8850148b414ec3c30a10c2f23c 0xef284848ad0072218bc8cc6a89ad4409e49cafcaed694b4f615ccd2b578f01373d0bebfc74f4d32ee64d05336051401f8e92e60540b7c2cc42bc7576dbdee1f54f; P1 0x14f225bf58d38c8c87c45ec47e2281c9834e0ea5538c3ca022b90301ef91bea549bed4c6dc27b3df22921d73a71133982931a04f67c4bb2c4a555a738899c6a2017 0x13e1fc2b250256978d1f47b9cc5c1060521ae70bda2a3c690745af120aa5a6613ba196f0ef19d6b8cdbc170876968b40e0ad97413b809df0e4a50aadaba08350b3a; P1 0x250fc6175978ea525f0c324e3a74c26ec4c439ee446f3dd7e23b7a17b587f8e85aa933e74027f64fdf75365f3ea2b0cb8f37791e31882763423f0bfa6d6aaf8e579 0x15a507fa97db2275e3ab2524863223ef524d8a7ad08a41c482d2af668390afc06d1fd39002b982999b91418a3806166de14af664c5d8c88f4a0393b02c27e7f00e5; P1 0x2bebc8b994a0c9b09eb54776b790ee7a1362e25467ac179b2152d3ee9779e43cda1441cf6c6d498698ac1e6e71aefcb2dae8800b20408f69be16c4b5529d960a823 0xd471cb9e2f29092d1f87af04c53d6d55afbcecb58e2b5bf9019aafb5ed10a0f7e3ccaa0bfd535d80f0132e8d28348a64d91659182b9a4efeac6ffbee0fc7050eae; P1 0x1087301bd1290c6f13eed50f6897463dd2ba9f7795e1afead566225465a8a1566c4aba8d25ac88085f6709a2d1c6667e56660f7773da5968121bd3b802017d9222d 0x15814fc3e879ef7779d8898ab7e853f7f3530ccefc92b6dc5939f48702581e5c983b5b91da6e3051ace71a1208e3824d93e12372654082d7f95c2abd8105ec39cf9; P1 0x2b5b49b70a6315e469b2a2f28ccdb04b33c1097d9bec9a0cdd82184e076589a21b142de9e9ba355c5b982949803367deed44c402c0011ba421d982927d14d3aede7 0xb8d1b37f7a59d0748a3b578ed3acbd9e5f88fcbe33c07225ee261e7df5aa9879bfe01b4eae61302e2452e0529d2c3a67b37e8591ad0443b6451f5f4b6f6bfe2c7a; P1 0xc8252cb4bdd39a532d24ced62602361fcd5fbb31dd3f6be5fa3720d1ffc04656cd9ed943f5caaee80bbdca010e87b4ef6df4393aba285ee0ea5312b51d4e1847a1 0x1b2b4b8df468e6e6297c70c4cf25116c61a0862ae11297656592900a8c858145b5fbc5fe658837f361b66163b09ed0f1439b8c784c677f3c3c744d03f201f8ec60d; P1 0x4533de39e5013ce17654cdcc3f85fc660ab88eca91fc18a57f43521399213a944b6577ca53cf7c6e76b37064c66b15a570f366fcbe6446a8a73c810b1c4f38e7d2a 0x7ef86ad5cd994e4d651fe45c040539ff5e90ca48345dda46de443dad96a5247a3cb713227e13fa6b6499c73aa9b718810c2e96249b4f1b8b7086a0184b547ad325; P1 0x5e76375671d28465f0dbe77e884184cfc7f5cf05d65e37a8bfc24bf17e007251d99b2b1e6360f4d41b85d2798cfec80c2f9b0113854abfcbaba60b9ceac62f9e8c 0x12922cffd530cc5de7d326ec1d05729954358deade01618d5e2d220bfd7d00439711d025c5a279d5992aee771e2d2da523cf74f6039072bc4888f1a146f666da897; P1 0x20552b1008c76063e13a9b3575902d55ecacd99637dbd50df2e4aa68a4d2b91185d8265d32d961ff61ccc0b05c5697a185d0aa65921ae05e046d6f64728270ea535 0x1d8b1ee46b707a388c1940d282338b1413e7a8ebfa20b98927657afb127c19363cff4f40cd16cb2534fe4bbdcdea100788eaa1ddd1c6e45a4e5043c5bf221e44068; P1 0x51d38e7782dbb3d2cda0de2fed344e8e6e346d2c89f09dfa95ff74108bba0a8a30334713ed8e3134aa17d2ae982c42887729b81722a59073033d24f8f7f0f54fbc1 0x181e0fdd3bb5d729682f1eb04af2271a9472b08eacaa22c0168b41de8d2a74eb5de5f6c058b9a7f6a6488e82a65f6578359f41faebe4297c8bd3e0099b7dbb17a81; P1 0x36879c1ce0ba4b8798260420a9a5994656b2e8489a0e80e8537e6425c34ec6268b0c8327965c4a6db600487898ccb9704973e3e82b00b0f8752554ca0e05e00d7cb 0x102d28fb537c40204f8af77f019fa710f0548684385bb5330b7bd45889fe58dc63e13d9659dce13b62940ee6bf3858981922adca5e7e289eb5b36a0c14630476ce; P1 0x18883a2460793c9575279d82477524b43da3de5145248005f616c63300c5431c7062174e3915cb9992d2ce055ce124b501d5051f82d38c30eaa99939e2a8e36bb 0x94745092dc8f0f087260b025de109be3ef49fa4c8b589d555b92e1b829d5258a2cfca9e1d089439ea5ed78dfb43a8db2df163a82780700132e2cc89013ef45e007; P1 0x81220b0464361db1adc01b4bf08b7c9b94148069dadfaafeaf3249fbef27dce98cbe28b43737ab3f48e57f7bd4725273e8a2550ea2295d13c57538ab247aafe9f5 0x148e80cbb7aff2564ca7d13971110a29e5a11701b074d174b9f4c1db395557dd40481eb520dc4ec12ec506b079d287a5ca9981acf1743eaac16ce28b0614826aa88; P1 0x279dd2c733f6e48a8575eaa9a9f08dbd5802e34aade6efb3b11e185f0a0ab05462da4eea8e507d3283c512bb34b51b32d0071a8a6b60f18e0b02a7fcb2a88b09e52 0x1d9614ae2328a177fbacaa70fec4501c72b828706a52c7f18663403ff816805f9fb660fcdbbf393f37b21947c4d2543288db7a073e06c7d1aef6e59cda53e9b5712; P1 0x52105018a8e1e36d95fa4fa26769174ea052381d55ee2515aa47fc0a73821fc4ced2ecb7c025dbbff46f33f4badceb91f2946eaddd75798f7e0b895f24161c5c940 0x1fe2a54f00898e7b82a8d3042e7631211e720e317c23d49d9852db3933e1cb4d50328bb3228cb6a74dface96733fb30ef958a47a64d4538f2026723fb2b3201810c; P1 0x5f5030a228bcbae336d88a27f83136ea26c2552a465cb04adb81c4723be64cab7dcf9799e4e406c494b7f4c20b760b48e27c1d14fdeef099fa48498e9f43018bdaf 0x108973a6a4b24b37de6387c02f6552e26e1af6bbc763f9cf431315f3fe0f8ccda5e240e0d4354499bca9798e41c346108f05315a55aca3b9501b46b534d0988075f; P1 0x19a3462b9ca8f048588b374211704343e3360cbeb26cc12fa02cde6a1cca9ca96d0677a389845ec8ffbae14c4786890e2bc17dd18b5a6342c23b72a6ed324208ad8 0xecb678255dbcf435bee08a095ee60d0663744f0b5a83358e1838789c6775a3fef9ec493796585ba8b916427568aecba8a41c97819a173902afce4d14aaad938a9b; P1 0x14851675deb8514658e5bcfbbcecaa6085b73d742b741dfc3fc78363d7414d0531ec5be7913ea5860d4667d4dd74cb8939b328cbaee170cdc3ae0d8255c0b23155b 0x1906b4d92c8d296bdede1e009b18edf7dfc15fb360355b54c625b11011086d3a49d0ea9962a0764adac5955068f2bdc37545e2841cc08d7902f82794a09f04b82e6; P1 0x3ab773f16f5ab641dd9dbf229d028ea0b4769424d4c9c40d361d711840a985e49728fcab73993bd31b1847df2251aa1004da9749aa2eac0f7ef03d67f77599c9462 0x112fdbf64c7dad0dacc41e809d88def732d97dcede61ae35993168251f7e3f29f524daf85f9902244458f0e8bed98e29fc0d9a7334cb34630304fb8071afab3c84e; P1 0x1bb163dd364287337a87e93a84104adcb63c1dfd7c62913fb639406fc1e693ed1926ec346f07d81b1a41524b29795afc4f0c11cb0a2fdbc07c34b52e30ac313351b 0x18438a72b13a8f1a92886cc0e09cd69b35080757776fb32d4a801d4499f3a8d150d0e6162141240784ecc5b9d116c2da4d8c59be749be6e9d5caca8a300f87d1c67; P1 0x37319aae63566ea04c69d17debc4a6999fac682dac5e85541a3a357ec29cc78e9464a0e2043eaf2fce7e19133f27042bc7be2bee87a0bb1a5e2bbe4ab02e866c674 0xa87d5d523fcf91683634ac2b6afcfc1f0861097743966d4c14bcb841cf9d0a48e1031da527b0e02505dff3379a914f732de695168f126f626a938e1587d79cdac7; P1 0xa6572bd054236a81cb292221d22fc0e4451ab77950600ca2c270e48af525ae72ec3de66e16681e92de3f581757bccde0aa190be1ef0ad16ddbead34e7b80988ea3 0xef4493f11935e36c015ff22460f1cae9b08bb93b75da6f931b36df99598a58b1529c3ba8d0a0a40a774caaf662fd5ed2dd9c75cabbcb1abc6831e400e25f1722b6; P1 0x14f71ade8a7fa2ded459a84af962508468cafc695ad0447351c5b9242bf6ec5daeab65c0822d97dc2ce6e252d35ea3944ed38fca041660ad7c75c167633a8f6333b 0x11465730e5b75056381e8fc448adb0fc87bbc5adcd783d9f0901199c6c569256b551eefc56f4c3e8c78d9356ab462a0988612fd442ae52c7169f528dbcaa930bf67; P1 0x1bfa05c706b5d97651f6cea129392c4cc59bb10b942d8d5a3bdc5fd2d53d1bcbd9d71bc52ab3b860d8f4b428ae873de4802625fbf727f82e177a6933dd56e8228b1 0x20ba0b83b802148f723a1b5cd68de7a99eec98f59e6fbc2a5cc09ee923c4f1d1264ab1e0f86c8a26f709fdb2fb4c83c118b239c0e0283e557111d0497469b2bb04; P1 0x6468f207ee2bc9fa1bd4f3619afe90fe312f5ff9a970ec7f63f1fcaa87970f57ce3eeed667e9405e07e91ff1f863ad2d69add07b9dbbc12317168396ccb851d56 0xf716e12f6f66ccaa3a461878f1692a9d8aaff69fc30cf478cc363caf57fec48e4f0fc33ac4cd884448526663fe01673b75a0e72521654a04469b9d2e27211a586; P1 0x165bbbcdf84cde6d4b08af27653cc775491f8f34de0deeaa243a76b5be4ae9cdde0718b84979cbc929c9063b279ef08c3174d30bdb8aa861126cd4da0701da0f6 0x1d88157fcb2353845cbfccb779196e9563cd368914599f7ce668e48a00df4b615ca484e05349c71c8b030dcdeaea88fda503a0a28a5590bbbd44674c150ac93a762; P1 0x51c2bd0b46a145d8d63700fa6326e83279f10d7d199210355ebb21b87dcbc245b32f4272648ee361c4ed141a85afcc899ecd7563fd2c77d7e10ae45724b3ce2ae7a 0x14c5405b54094c8e5fa7328114daad7b82e943e5108e34cc82972cc64f5c9853b867d3fc0a38d45bd95b416b58096b0adc93e943426a06c59f561b8d04b44d9b306; P1 0x2871f0f92cddf4f5bd096431b94011a6117458e6c7224dd8e502ecadeafe9cb3cdaf067520f28128762e00d94b9a6dc3514534342acfbfebc2284fc603c5f577b86 0x1e1e90f26f2801122c2df67ff0b4a55ddac612a9631a42b244c8444db752f3bbcdb6232120d604b0824d8577a2eb31255f2427e760b783e4673b9d3717ce76fa7f2; P1 0x550c46eab699865c992f7ada1e94e4e785cf39d20d44d1e778c16bfe8d9fcb2a01507c79ac29115f7d5f2eda3da96f338099eec2de68fc02d37084b888ccc070704 0x1644d7a9962194273876e86f92e1b30f4051e4b6c3f118588a33e408a58c5b8e0aeb11305ab72227b395f86a746f11ff4acf003c13e9c010b9fa60aa13a3623e950; P1 0x2e7db5ea45dbaba1ea7eea6a4ee9790cb5e0da49880b5282a5547fa1f3fa1192fb04f80cf334158489306d7b03675ff1574ac75fd0251c7c87ff5a9fd8da67129b6 0x821a1f88e5c9ecb7639e6306715b5a6b6d5959de276cb11122b8bb975adaa78c777abe13fa51a0b7bcbfb0f4ea9af09d949338a8a2c28914c721f888b3c7f954b6; P1 0x632dd00a2f9b4b6f4bd7d9bdcbb0856affd1be179f29bc7b2349e1633d4f0ab26b89d706fcd626002129ca407889a0cad4f7b48cefb8fe5d600961e3064bc943e6 0x1ab289c466cf465557a8e1f10ceed8a7fceae32216df233772f6d6d2ca9b41c990fb10dcfb71603687198c22608a3bb0b76981c818f4ea07f2bb5ec242cda051812; P1 0x42d20bfa6374edddea99cae763064fc06b1779d1d9167f612737569bb2f71d4ec9920a5f13e68f17f59a2384a40b8234734d80e6fd84960da728529283e4fdcb9b2 0xa9e53c64a0055daca3fd6f78a7fb8672c39f9c2d46c1556ed5e63129c3e2fb26880ff7692b6998563bc1fb0ce20047a92145fbb05cc3f62867534f321820c2dd7e; P1 0xa920b282f0530ac32d443a4f5cdc88fceca0080ac7ebb3e5cfcc277b860634f87c4c13a5b029bbf265bc17701fd6ef65feb1234d5827978c9613670c8505c1e2ec 0x1b71a0c4c17c9c7468b39d4893258220b6a6afd766433c56b14377870697490e3901aef61b489b79a38fda53850e494d3efb08706bfa1f067a620732e80dd9240f8; P1 0x469bf853d367322ee34cb25b2828ffa9b729e2c313215c67bf41e992a3e516922bc6ec9f3c144b2556159ba246cdaea7e6ead18001c3aa3229b199ccb1060b26954 0xb31389015f474ae263ded670de86dc7b172beec7b5ff4a4c756ae5940a7304bb49d288839705c80c900a0d4c687063fb87e350f0bbb2592de4da2c9a3f72c93a14; P1 0xbbe67ca0502676eed826ff946835d52876c9c79c8dee0c0b32fccdcd0831007bfc32163c6598b45b19ecd2d1d06a465e2c37f70624766bdc6a7a0f6e7ff6e626cc 0x197648c4f0d37b655695611628c29972d5661a83fc578796cb0b453f595af1133d66a956bde1570380f118b19221a1479e60c282961016f0507f3d6e1ba28a55b7c; P1 0x3cc794c71ea080c3c303ceea1ea17bb7fdb5a1856f7d007107f3144045ab2d88dbb90f957b90231bea8a3fdf6ade2cf5e8a6fb6149377db39b0eca655dc577bf78a 0x1f1cf2d574d582649e4b9f5e8cb9a79ab56bcc4e11fdcad7d4139566fb7a8f07978e4b09c9f34860b6059265d6b79d831a4e5889ecf2698ace5433d549dc31823ba; P1 0x5ac092093004abc473a84235cd3fec693ee614893ca436fb03aac69e82cbdbafd6fcb23149a091e4408810d41d2ff1ecf33b234fbbd18f4476d20f5bf0bc48cc0d1 0x35b622e591b134850845f3203a70c82128f287ce3fac772e76dbf41e4cc8e29db4534a6be3303c82c024112a523e5eaf8d0f8b3a1c7cfa68187014bf940021ea3d; P1 0x10e7620d0a40786a35b75dbb2ec779914849593a0061d8a37edb36badb125254774e5a01331081387122f5849387472983e73b9e32465d3d4c576a013c830670c8 0x1f1e5a02c4cc1059cefe3d5883ae108272e28f73706b97f253469d8e1121cc149b31b0bcbd775a2f7010b82093922a553c97e109936c5a54faa8c3ba44f312f2863; P1 0x5ac8c18d5f03d4918b9e5a3175124e9dcdd12de71cd8a02a022ca76b86dbf62fa155fba55858160b532366913655acf117160fb6e022702de697c2ebf1a21d3ecb7 0x1be16743a59ab4c0cd5a7bdb25f204a7f6ef3d34c6a51915cb73f7316dfdd68dd67e46bb54064d1c0c1de6071578769592d5e46a79203ce85239dfb50d963ff2f92; P1 0x48dfb5e6d3edbcf7cace9c21dd57e3b7a73a2853edbafe5381ee976b348b841d621159ef97ad195ebf95b94a1ce449acb6c648093d0cc6f6aa30e967fbb2aaaa80e 0xeed8300805741f4693e5db395fa922efc1765786c31aa981044fd99fe557107b065aa7d987b30dc77b3f3e1b90673d28bdab82c83146295f6a5b647c757c375da; P1 0x14e4207d00108309bd7ccb1e7c33b77f9eded32f950a5ce7333e0c1bc7624b607ab1ffea634154a270efc8f4e933c7952407aa3400694040fd49d0867cc4f064b 0xb12218910e6d51ba2c193445960d48a7cce82694d188f740d5995021375abf3f89cf2bbd1f0892bd3cd8dd9a84bf23af12eab1eb8acfe796338888c5309165ff37; P1 0xb7d83fc4ae41c76c7d9c4aa5c6ac3527fc56abf44be2ca8581060c86eebfaa9a105649985a7b66a0819d36326ccab46d6768cbe7be4120bb86abe7b2e8d38405a0 0x5f235ee9a90c1f07379007bfbafae5520762e49853f3b8383868f933bb9da0c3d6d9140e9278c014d6377b45498c595a0f613990459ff14daf614de07dd01df13; P1 0x3508e7fec3d178a2d88950ecad4d8dc78e87eacf4a3d8b6c73860b5b8e951e0c5fe88d3d411aeb124d784d5eec59ed78e99cdf613c90cc240f33074b1ef95f96 0x1220254879e8aed062f16fc07decee46e9704d2fb2805ab467f3548b41d48eb9ce49604da6d68cfc69da871e7ce690c1c067c8524afd7e2c6e9677d2de80a91b1d1; P1 0x1eccdeb4d09d7c49a388ff423d3362fc4afd9548d5f9838166e3c29c54b165c85a378e91186a2101e72a81e9cc7ca865d2c3b821fca2cce367e66839cd49dd1b5d3 0x1cf3a2de382535f1d796b8656c3d97dc0fc6947da6646a0ac7ff88f11da944e03f6f3217828607e077b554233425a258f322f195b6ecaae060d05e209b2589fbbb6; P1 0x4e94d3ed0a71798c01c4aab0ae62388bbe8d064c631b9e9d62e84c769366548a83723a1987e5cd9736e171e60e3ed9d35bb380c4c51c6058d37b213d69da8bfd57b 0x1687340847c1057c6324f2c5f77835316a1cc2523e0de1e21efe215c3a0db39f197456e650ff556e3299a2a47b590b468bb5663ee54ab7890311621f40d29e605a7; P1 0x2f94686037653e836f3a3fd536403469a5fe2d99c0761569da3746e270591d2379421ea73652ca1c0039d8e92412c4c9485735891ed73d1a540ce7555a1b8ab1e36 0x1f10d25f72d979ef977e1317238a1fac2b5a1530ca77f7a07e248efb146c87fa0c558c66adc581173c332859707f45947bcf0933c2c5e840f80929a8bfcab46f709; P1 0x5a79e1521efa417c26f3124e65d40e583b6f29ebbd43024e1641fe0f23eaa3eaa9f1ca248ff001242ccc714e22f8d93611e558dca4095d47d4b495b9e5cc988a0ef 0x15045d893df18e07c88ab422d89f090f64fc89f73b7ab920521384acde27edf75ebd2ea0ac36828a1d4f3ce99ee69e2d0115ee628783920dde3dd8da29af173bbe2; P1 0x29693215bf0da25ddcc8d4dcc7bf347a6d1f77167029db15b90f323b271336c66b7c35fe95d59391812fa49b2847a510f3037801c11bfa50661a2259ed2eb7cb473 0x5af770ae7fe904da09ca9d7d253d62c5d0162561dd4dd7e77acb6489a2f0cb33cfa5df03a43da4122c3bf50acb2349d6af113551d0c6980482b94b2ec07c4c8eff; P1 0x307c5f97fe65bae608d1a564fe6b828dd18ac13778a9d1438e85f61405bbf9c31025d015c9021f031c1c4d583403185ffdd68002aa6fb1e05a798c55895836178c 0x1736d98a17c8e28ed418605dfa8edf9bfc7778787436fdd5faa20b66aa150ae3793f391ed6da016af546084eb792c5426bb5c4f0d3501b9241a1787814e160dbd8f; P1 0x3285a42f7154c682fdcf33ff7284d2ec99ad6580e09fc93981aa62dd63af3b50638af45413e956e9b3fc79415067a5400c0fb26a7ddfec99120100a331db4199db1 0x1cdf031f7c7e7aa3a4e3e13b6e2945125c1f5ccc3bf022a64a2a46a0848d6a9227b9f2781b75481763dc29894cc8bb847cb1201349748084a0ece702e7dd6c0ff54; P1 0x4e2506ffe3077f3b6d3239b3b858465d010bdc837a7bfd5b93e8ecb7fbca305718327e6ada21d212ce8503cbc36689f54334307244fd903ca3786dc8f22cc78268c 0x151318b304836d563ad978ec090de7121a9f8493ce75498f1ce39ec12f013ec909686b096b682f93ebbaf2cac0cb4a3f947400ecc585f713241ac84dc5c1271813c; P1 0x29a3537118b6e377f3dc7f24927d3e3ae6ecb87d4e38744366477076a22b7d386aaf6df572b222a53e4480650a9b41238030eec1655fa7ef6c20c27bb7d1e31752b 0x2ed2b6b161036d7d17a093471daac49f89dc6f59a5d97973a13066d7db214a86fdea307bfaedbe1de89c470bb78f865643b0f315821401eabcc8e03e5c76d2075b; P1 0xcd89aa3fa61a0b9215b00f214af3af3e1564ece1ccb8c6170a17e4ba94b72a48f424157777524768c93c2d40ca5814d4e151a622bef10d76d3b9d6b03be77cf00 0x154f3bf520a5d692fb3d5daa688e9efa086d0fe4bf18ef5a283022a9eb88a3b91893cdec38912ac7cee0e3d51d92cedb2c059be267b30f56660766064839efe1e0b; P1 0x2a9248a6a0864fbbda4332dfba28b22b8654d4d3800324c2ed19a4060624a33132da914b89676674764c684ebbb8740d0f48efdddf0032d9caa0befc4eb4b528c7b 0x65399f668c593be16e01f21f3e79179dc2cd63854b0d81b421b1f3d27e87c1f521b9a0e8ae3454fffd3313531c7e4c3066a15af1bec42f4febf78dc6b0eb6249e6; P1 0x3c09c71eee7e2e9b4b6ffb34b5e322acc537be47a5f3619c2e55254fbe7cfbfdcd1fdd437ba3a0ed93ea95927dd5d25f341c77df70cd59eb3d2fa8d8cf0034892e 0x1c28f7e39e6affe818e131947a042d71b02396d5f135d2cc3a954d9af4a80feee638f877220b68d4f64bd0269c130a3bc66a3d57f74d2d81dc87f65d1c9c87b791a; P1 0x4a57b2c4abae73f515f7f2b194a658a61207d26af6d5fac280a8d945faae48b8fba350dbe8836acb8325c08efbae7d3768535aa667d16400ee67e89b79d9e1463ae 0x77f53bcc09c72a5232fa3b51b15cb48f68434ec998a996e013c741074f398aac85033e7dd652d60758cccebd0b62e646c203f6c65e0f20c8b8adfb0e6c46e5279a; P1 0x5450dcc4cd665789380abccd04abae5fa6b1abb81f54f252dfbe86d3e9f769016e2bb91fb4bb6de70dfecf2e287805d521b793eea58ac3be5f6990bdb02e006e7c 0xd4514de1e22d80802a82f468e4de20c6a2878978ecc8c8ad081e20105c6ee127296ceeddc25558b70405f3deaa6a35a97bdf4128162afeadcbad75dfd874ed4868; P1 0x108222438bedd3a7d7bf1b843eeec0dbf6cb071f3f27b235fb43fe461b6d15cd341830ebda0d45f6ef1c3bc45796de939fb226f6d7f64d3aef3fc6545c074520518 0x136f885867c4684a05ed64325948dcbbf904055b8b19adf0d8747d14344725d17900c0d172d565da695e6d5dff57aaff67d03d82d6205571436f77b14e8a37203d8; P1 0x2369e3ef706c8e06b748acc22c66dac8d7cff7aa226b434db177f557ef4277c45c7bec0741d895f7d5547a2788254463dc7e6d8fba738205fe55bb8eea20d7a8258 0x1e6662644f3e486c93d3da30d74de25fdab193c70285ba1df2b8285851754e15b7f3336ce890348ecad3cbdea711040ad9fd31bfe54baa33d0c473a402782c6d518; P1 0x56a3c03187c0bdf46b5feb9c564efe821c9922e7bdecc9dc36fb0c986b3efd3c392f469bc5668288883187f04b95343a810b9e0b05e25036378cb89d0e9c5b54e77 0xc7de4649dbc065ab302ff6ee3f2f71e23a6be677604e7c48cbaa7c427a540ad9d70f939a11162ce486729e46aa6dad3f4447b21ac70cd79d91f9f83969dd382537; P1 0xea10fb67369015db22acbc6ce72a020bbcff643af85d9bcea2adf52159d64420f4ee06f380cbe7acf363a840b67151465aba00effbc56fa98bd4bb5c8dc0e20261 0x9f757aab27bef79c66bb0b73ae160f93eba2dbcc42fb726cac885184e4fc819fc5976becc0a519f486696b89555618f73956c1a8ccd950f4dbc5cc619b8b4cd7d4; P1 0x94fcb66ef1e5b0ac1fccc6edba9b1e5c30681371424a26679b6c70a5bfd3b8c55a078ff4d8b7adb8b83a9d08d7deecf0f078e7ff49ef61577534c92702903b000a 0x1d8fb9f7b038f528f11472ddd6be3f83b7bb1f0c971e94cf53479392ffa4266cd382b8605e4497b9717da2fa0a8a6d813c9a0f3c7de941613c09da2cb7dcbbc56ba; P1 0x51ed13d1b998d4785dce11dbb36696433f539f3c61a622e0334f802e140d4389a7452cb961d1d914cc4001314f3bb2a155f459447296309048b40abfdcf90d88865 0x8b67883ed10ce6253fcf228b01c087848c7443b3c5c95f5e48ca68ec7bf27cb9947b45f7e27831d3745aeee77899f20b0577525f0d63a8f08cd3b7bb0b008d05d1; P1 0x71de63bcb31c8bbfea2219b26a1016c5784178a63a693375161fc059247c88cde20a20f597076b11c14957e70be6d4f716cec8bccf20d5434a5a9dc3d024692b3c 0x7b977eafc614c48b383a0485077740b4387cebf8f1016ffddf66d46436554e0a410d6c1e0432e4564f3807dcb71b42682b4f3e0509491cf68616e22ec05d7ca91f; P1 0x598064156797b18fbf18f447b440ceebcf5756cc76207507536353ccb72f45c27abd3b8f756ec84b4488257d2717caa2a38a6500550c1d9aa45e11fec5c4484539 0x47c634236b3b9ad116c5f19eb43358ac403ad88f85fc4f40eac970b41fda9ff7c99139afad68bb0eb1b76e8f87d2c5a4c2cdc9d8d059d009f3a7ffe504278e1a7c; P1 0x1e2f4f90825504cf4243c4e7e928f1e8d6ca6cfbf8eedfd358ef5b8836fa8019c5f67759ca59f013b01e19654b5a60c5e26abce671b5f50fe8117dbbca387eaee1 0x412a61d5c0d1248817c13d61d404df30ad778dfdd5fd2967c5d31dafdd6e0bb2a0ea13416bad2f0b59f7fa012a16c24d3f64f1cab31fa5f5942c639043bd66f311; P1 0x18e1d30c3129bba9057c580ee55b4a8a88c7a98009afb7db10afc216d4731a472ef6296a8ec95d4eaf2a3e4c53f864040ba357ae9356eb80e5d22cc051c1f36c64 0xbb7b8e17e571d00254608721aa0c3f5d41505639af2108215c31798297726cddc0c0fa6ebd768e7e6ab58e35cdbb9b7f415275ae1e5de4ba68dc0555ecd8f341c7; P1 0xcdf49bd5248de909de8b51691d17d7b79e91f5bb91d31161b596308c565a639a51dd0ae56c4a0d8299098d693aad88ee972f0edfd288926fead9dd2896923147a5 0x7bac0069688dbf575b79c33f6d0a151e5bc84146eede1d2513108eaa7aa0774defa567d3843f795ae7e03b121df2913451c775af7db4976a3d6d4fa1bfd44341b8; P1 0x599e19f0c42b4f9cfd668b467e30506be7c6ce4b3fd80a61d967e96b9ea9c9f67a0d7ce57d9d76a94dee0161334553f283e21ea62e49a27fca21c5232a02a9f4e4 0x4a9246ebbac2e076d9e51c69afff437c91f123ab672cd6d99101487d2a5d465c33a0148eb22fa083f02fd98e66effef95f635f5fa56e4af576ef840866a836d1a4; P1 0x209556dfe0bf2cdf977ac676c9117e3b568267aa4d6b53da17842a73088ead29845661c14b67a1659871b7e8874431ae715ff682a806f5834584eb746e8fbe3535 0x153125160ddb9ac605fa364986c32ac170043c56d6ce4316a318ebbd6163898b091022fa3e3523c0182468468e8a610c163af498f9b777c3bc8763f5d2ba655c865; P1 0x2a1a6474122130c6707d4d5b9e903f2787a18ef4211a3c4d96a133c7a69dc095bd351c0e8727d5cfc625a96d5c72bd3035ce3d623347a43b0755428299f4f7d9421 0x56ab84c8ab8b16a2eb13ec384284c190a8611ffe4c67d58edbffd80e4778b1390b1a37a66958b3c8cdeaebdf32a4dc7ae8d865d3ae9335c7a96ec45b4e534d7bac; P1 0x2c0388323a5143d66ed0e22db35435ce229a7251455dd9fc66f62f7067059df8e8ac44e6207200ec67f4e0ee136a1b925553be0afcaf9bf0f02e60b8b6c0a2a7ac 0x1d732bb5f880ae4d02eadb578d217c00ba9a9226484f860d3c115694a0dd81e9ac398a6042cf185fdb050bb7232c09da9ff202c62c1ff40c88f993da8163c46da5c; P1 0x514f1934ae194e5ec639e73d8a40889109e9e450a6f6df67afed763e5f3144898e26b0de542329e2a29d936d73c8f98e830923549c4dec22d5ee34e7d5c4affd3cb 0x1a05bfd2d747fdf7817684b562b2d16b29d6e1b2cdd85b37e793706bb1cba2aa367d0e5c12e1fabc1bfe47b890eaa3d78eddc780f9cbcd1192b35bd32b218b246fb; P1 0x3f7c0a3d28cfcee491faf7ecd72e4547d23b4b8d977de37f8bda9b7ca866cc06bb2f2b9950a94562d879d051b928515be970f82aedd25fc5d510c87be9795bf50c4 0x14afef5dae4e4e2fc21fc2b05ee97b08390cc4e374733013855770b4e655748c9cabb25d8148b1e19e7db55b8054387eb9519aa0f091275facd3c75be1d1fedff0f; P1 0x281f177a7b0e58703c954de1c246e8482479dc900f3ddeab58f545d195df199795a906cce7823b0f8e1d58e57a1cd4169961ae5aa737023a57fe107995e58f648e7 0x8b3ffe64af836ee6d57e8f96778fd485e7beb34e9dd89c03ec4545bb003d19f13f5a4bd78b19190fcbe4115a83a083b400b85f00ae0b92fd00f7ae44a7fea4f18a; P1 0x719dd560cd6c99827ccf43f86ed0c5c1e0f59d2b3e378103ce6ca8eab8ae6f1b5c478bb6170102800dcce7e55ef112758694a0464cac63f28632762c503be66dd4 0x7f1353efec1832a24bdf691e8c0328f7eb6434ed01f06914ec208076df78e6fa71b76d6ffbadb356c5eb745e043df4223a63109513915a9e09a7aeaf30da05c900; P1 0x5e9e461c6c13c2aa60af0002d2a6e9c36f7f0278672925c4460d3f77d51a10a424cd604cedcdd6aa3981b8575aaf0348c0e8d94bfeb0c557ff9a44a1b57c9ced28 0x6f78dc04762736f7c8ed0070744e90132f2c7546bdb893edfc094c777606d1af1a417edd1704c8b4e4d5c4fb2433bf6e53ac7056412690fc847c3a5115e40fed28; P1 0x48cf0bc84f9aaa6092287f80aa7674d63f875df9cc326b4485576ec10b07a29460c079da57cca459c2ac1e98d2d257246cda62a35c86cf45e9734645240c62b265 0xe0e4da7d1576621d3dc0f778436801bc17f95a477d77b29610228ec38b9d9b6047c50475d5c15e9aba13672b540bf2a190ced83d7e55661d1ff33c0d1abf8bf525; P1 0x12859f0693642025c49feea0c6b2e577bcf4bfb9c3b366372e848023529258c94a6c1b3bb16e4dbd859e59ec343745addbcdc480b63870e84456c7ff14d65d9aeee 0xfd93476aa46b4c098120e46d379adbc62fa86b9d7696db072385b7e07d7f41d9a686325a05df4730b9498841caf8cc1a882ac880225c5d6ce3ee7906cd6aa334f9; P1 0x178c2a7d5d211d8b64c2accbf52e223153a5a4a48c7856aa644b577c3ad79f59c663e2db2a0351339df4a05bc5163f39816f6299a15761a837c2249c7ebe4c8d7ec 0xa3a50df4434ea77b0e200ff9481115cdce1630cb4ee0b0bb96ecffbc044d1ab997e0f5636051b309731d429d4ce9ac757b6f8f16de6d2c400e254e000a00ed267f; P1 0x9ce96748110376d96fe19744acb463abe2dd05b715b1c4b863c354e2f348d66ff7e3658a9b96a76ebda8c3dd398020294efa9d30d7b664769d091a62e7e976426f 0x17f27683b4e0a6ec3b5e48078509262a526b0aa9e63a72da57c1080d3e46d22ab589531d4dee78b3e04ed0cc4021117c9c466adb68ca202f261c2ddfbbcd0461b72; P1 0x35c3267eb9007d9a156b95aec1f42a423eff0606c1b36cc35122cd857b4f44956ea9e4cf6879fd04603101cd441cfd27295c4e88a6a4f8614af012abc3919bb4c98 0xff191c4288b6b5da0c3ad44e79e2a9037e66bf703014edb504c8cae13b91c76240c118d4fcc041e3c78d603d24b33dfb978d61a69be98c04cba05a4dede99708e4; P1 0x17d4c8d249eb5f9bffbed89c198b2eb8382a152495edcdc03d03d3565b7a28c1793213dfee3d8cc53db41a73639d4c616f5fb818c95386e0e7223d3bd9f63fe6710 0x1d132700262dde3d789cecb76ad48f0faa65cddc0b6e41b0bc02105b394d1b937b38dad4240de1c6de8a50d65d43bc08885fac42a3daf5ca057b2f6df6f3d38840; P1 0x4f4046744eba8305ec9c0cdf5db57dc22535083e01a0a4a9159f2450965fd9f11715581ab9eb8ada6a0a5ebc098d9b95e09f9ecdcc81d67c2362078bf55410348 0x6318dfbc03877e137420da77ca101a0f8d2adc936d5db3c62f1dcbbb6081dde80fbdd8e937b4c12365e5a04dd85985add664b438d8ce1b72a1bb0354197b4d3348; P1 0x398a5f313246d3b8e2400f081f687910a141ecda7e174fbe6df44dd1a382dd19e92dd560af5a79e8814a5ae40ace78c94b226257ceb23f7986395fe535ccf60069 0x250b351fadef699521ab47ad6e443ae66882aed1a7736d0e34e372813a68c5e88e35454249053a004667e2df90f105fb7b30d23b133b3893c152cb851307b74d29; P1 0x80a5cc526096d8d59a3c525dc2b9b995b95c2e377c83329ed1b3f3af66893066ca8265988e475d3c11cdd88327ef2f09118d9d1da0a58688518d561a4233687a7 0x6e1170b4635b9cfac4eeef0ee369c69fc18548ea2814bd5014856cfd7513ac9f3f237585069b8f9f94669b0ff4a3273543e60b0733f80c06aed4c0284d14d5995a; P1 0x46fc7d10c67164ad94f17980392a8ca0e215f0b68ac33eb4675c0d51feb71b7b2f42d3ac411b13e537e9e0c8b673b0c31f392f1d2398e6d16151e7de7ae1aef66a 0xf62dc9865550ff837a9dee2c8b45707a0ecb2519e9a93a3320c3316a8a34e2b289fcd88e72a8e9c800f48cc6a052a7ba23f3604061484878bb753d3572b4911156; P1 0x1631a0b3df5c0d301b38335228fef9cdf1fc065f504fccbb557e29cf562acd1e3834d8dbbc66a689428689477d3dbdf14b5e0952cde01ae1b2a0d55cb92850fa815 0xdcdfba11efbbcc963efef806372bf2a4ed3eb37d7d163eefad79f932e79d18a134292b53c9e7cf068ba5009a2425d8390a29d2f97bddfc0182cf81e91b42d942c1; P1 0x11dd9f0fec9ccc3a6ea2581a414d44d2e5fcf096b66660de9463fac92eac065110a3ceee450504a703d4385b0785b640a631113fe340b8d4010676cb20f81a20054 0x10a3b128ea80e7aa71e5b36f8d1a0f49cce3f6e2d1a44d962d019249936dae6d490425c820868f3ea35299fa455ef51bfe6f80bdce14a833c9c8957229ac37040d7; P1 0x19f4e384b0683e30919a02f9fdc32c14aeccc4c733c1940f1d2fa7c688113cea1699bbc331c8293bb688cb5a834c6a44c9eb6027c258681e1950ac5a6c40afc532c 0x172006122688ebf922aacd43a42d460041ba35c098595058153fc30d6a0f6a3be0b0058a2cf3b73b7af0247763509ddaf20c4290bd27960ab30379d9ec90ea0f0df; P1 0x32227a52b68a3966df1bb4bd3d8266e73e9648b48f2f040a7c4e13f4c64024b8b67da92a312adb3daebbad5c379dcb9f56d107b72bae98b9aec60b1aff077b32943 0x14258dd12944e2b1904ca152d6dd1931c9ebafe0acb5a7535cced220379e056daccf7e9553cd7c2eaca5a5f3f3d6f367c464cd1902a5fde026613ee350d8fdbd006; P1 0x260d580793525875914da158a76c62cc384add034a22606838f53298b9e9e1d51d0d0e35ad2be8845a2f72f1ef78135257375e48ca9743a45a681df26ea15650552 0x117c77469ba57b44f170afed7ef9f5518863cb8fd8cc3f2f03b8dcc6790693fdccbadbe049b1e0d93561a3e274c9bc97009af38a73381620fa0633dea2aeb4e45be; P1 0x1caa688b6f83849dce143689714564c2d9a1f1bc7cebecaa7954889ec2bf9dde195989366564f73c0d54d5d6d88437e39865fa4836bb8d83f9bfe8eda10a0237f4e 0x36f813220a21497af472f7052c9df602e79ba98d71463a95e8a3ad4bdfc75c88faff77485bdf2c6694397ed0995177293cd37cb91c293a13ee0097ed04d47b6a5a; P1 0x11b464b3277b9c48cf40c2f49ee93cdb17c2aaa9cd1975dfada0336922cfd901ce57ffd6bf1504cd40aec66a84600845a3b14a0e16bc189bf907f4cd2157bc350d 0x81788137f2a50a0446a8d8d2f439afd973e2b82ab3e6ed2b04b10a23e2720a5c440e23f8f46997af8182ea7572ebc907a838bcd92a65a7bf52efe09c7ea3bc2bf9; P1 0x6238006dac52dc61485332cb99b344e45914a43be0173cf7cbabd9865ee3108bc8ddc9a37ed57bfdec1a00014c9bd9bf3ccdee350ee53a8d5b969ccc9850400d54 0x19ded46f269fba0733175ff34b201e807f700599be447fc9f622b079cc4f9f67ab74fe74bfa563dc6b19065226e65d7bf505c55af5935926b7fe808edb6a10d5e7; P1 0x3ebeb2c41e7b362ab5f588b8cac658e57523581e40f613627fc09358162e518dfdeaaba53cbad6585e6699bc59eb18696c5ff3a0518e82a1ae7f2127b40a4e92a 0xb4cf6dc472745ac1358ba95a65310b072b2dc04cc1241401421096f4b029153f4bf34a43a81b7caa02ce6bf72e50c5c73a03383a36c64c33f1bf16a0e573738c7d; P1 0xbf8e87a66d90640183907cc28c465d69e38ede485170ac963f8a9e3164c204a6efd74f5c939a5c0b21048f5a5c0243fd1c300aa5ff88e4be42fe7510d6fff89cbe 0x64077b31877bfad09c830f2ebac75a97abd2ce93e712fd3b91c9dcc66f1ccabc5bde395a61a15eef362f93b645555d322505d7a44764a756b5921ce4dc7a2d7bd9; P1 0x3aa0c4b1fec259c176cc21ca48c21d069b2a474fe10f4c5aae34d6ab330f68eed0b5a3b9e4e6951661f2df012b7774f50934766b96a3f20f3defefad23e788fb44 0x1818d0641d0c4b7e80e60c3ddcd8325d9e5457631a9ec89336aa53c33bfdf2d58564c8fc0496e84797a4e1e07e68b590bc56d099978fe710df9799c026ab625b517; P1 0x366fe37c2c7e238d733751f5fed6957eb86ba5a5f8e05c9fe4ee1c3f03b0ee7bd06323f83690eef911a6f2c752e61064d2acddd75ab0de6e38b5fd35dbae62419db 0x169b594b09a4fe9d7041a3d87827b53065868b16948f832f1cf071065873a9d3591ff6a7b9fb09aef9a8d519b3b8c093f35d99d4c9b88d7292e84e33ffe8c62b20e; P1 0x2fe9a6d3880f26423075649f8061f3808f4f84da39e11e87eeba15e6b548a1f2305861d57215dc99b867a6ed3d17b2397f41eb3bf74ca4b964a0fc9d7ba8a8c9880 0x1bd42bb1967d2bca9d8fb6a40dc515f196776ba14a95506afbe384ec35dc3dd4c57d86af07a8cd01a2726e7e2e19ba9a90a99868bb400ef0fef0baec976e63b02cc; P1 0x489a997c8ff2f73249f3b45be0e094eb5dedc4595ee44133162f9e8b54bd34245a7d32e5947adcbd1b9d3d4d58028dc14da02bc5b1ba175fb6666013b4e6cbee6ba 0x15f96885d4501cd7206836fdc549a411622c6d8e83b19058b4aeaada884288daab6e13dca6cf164d9e053b4b0a01887d28245042d33cd9943c38d7c4360faee5e6a; P1 0x2d44d33adc5c0902cd785acf28fbb59a66f5c5d67960893c8de10fa55d0c846a5c483d0e76210954981aa574e4aed2983e9de7aadeab4e817ba04433938155860c4 0xb8fb50d734f442e4d97cea92d6e80cf077248fdc6d0c3c61df67d2ec40a4b6681d6687d16b29f68393d04934182adcf822bea507ea3afec5347ecd66c83d166c70; P1 0xc87f5863797c43ba32aa5f1282115d1a962b1033a6f94c66873fd55c14363a95d3f2e16e2ece9753cd155ccd86aa505bcf005cf84f0d1cc8666303243756d9977d 0xdb93c6e0d3499e10f5191ec601db4218252073664a2eb0d3302e3f1c4aeac36ad9800c24dadc564f23b8ba6fa7c5a012188aa837d7a2652c645364623ea65aa7d; P1 0x11a81415bff4cbae747d19d111227507d37728733a95f8ca070aae1dd7c9c7b01777683e79d6a54548ac90204234dff63371c63ce45eef84bcdfca7be079a09b9 0xd08d4da1c518d297aec616b8e04916130d59b3f322e02bfbca2e7f0e2be62f15898a567d3d19af6c0de97af2bb08fc380ead7a8b27c0e26e6e5125a26d7c1eccd4; P1 0xfed8e2383a093f855a1fa55e176ab4d92c0958b3c188a0bb766f1081909052b9b60f419d5d1c132057a72a3fd9f26dc143b43a9a85267b8e729bd930942ed87c33 0xfd72048a2030b278413bde6ff0d8a2fbf077f48fe67824a967143042f8574d968cfae6a332093db6f560be8355afca4df0594812646aa68c50709ef4923f902ae3; P1 0x1785fd7a196164b7d534038d3909956da28e87d444c475db9c9310232d80d6bf56a7a51e20367ff6f59a950fb712a1d86945512ad13072936497dcf19e68f468cad 0xac7b23cca48896e887f40894ac837c5a30696fced0b6b7d8e06a5f5178c06f1dab7856ced659dd7c201328b9906dbea3303235496e62c1a0825458d58e90f45c88; P1 0xae508d019d1eddec3240eb0c1240d792cb43d1516a06669120a571f073a39e47e98e0a57537f0052fb9f8d12c8c0c5689bbd0e61b7e9e87c5855b90144619f695f 0x7b8d28fd25554edced6a4daf764d24acba049b6f57b5139223106594ea5cbc02d4edb2e36f42899f579ccbd9743b5b14d9c503251c16801eb637a759f0efb5821f; P1 0x59716cd626f0c79df6518cc3fe7ae1937adaa92ce2ea6bca1c6f3a62102bd4ef8b07d07d8a90cffc2dff7b2f399611f1db3655040fd45d2ab11c62c9adf2702bd2 0xa8834bb276002043553f999907a54e824d0c11b55e3cb58d973ccba57bef004bef5cb326f82227229f294cd364c24407b9784514744bf07563fb7e9f035e5cab15; P1 0xa662e2092eda7a08a967bc05ed9f61325a3ad8309f4d72a2922fdd3388442f9b756cb6ecaead41b5510714a0b24035103cbf99a014741c071d420f507eaed82ffa 0x5e73699117cb2795a4eec977f14dfe8ae76deee1b678df121dfe3e3b2138f7e703c5914314fb38a64bd8a267392f264c437f91191153c3f1b9667c27852f1f5f25; P1 0x34457055da0b5e041b94e873bfbb292ce4a6503f6560144ec449911ee5d7e7508a25de89635c027ca7a4a2ac61457a7c9b4f5e037a853c23f1f3d69a28d8654166 0x12a53ef4880208ab5e454a6ea814184d439610385a276bbb0bf7eecc970460152157ab9f62b9742adf7bba7a3480e1ccf32c65b25722dcd2bf196269bd6255cb371; P1 0x2097b46e6bc72f1b5be70057c53d7abb323e571a602eea361dbf6ed83737a41380334fb0eec8e7777621c14882e5621207491f8e0d4aa891644243288bb7811ecb7 0x18166dce079eb765cebc7e387d1c58433ad5bc84b084a5ffa55c93c67ae1d31ca77a31c4c1393dd3f01f1592dac87a4e3058deb73fb3a96c3157206d5cfdb0f945a; P1 0x36651d487e83ef40c252f95f78d66c0a21d965895980e9643e32c9890d98791b88effd5d82f1647b2643eda527cbbc61c0a1a234dddcd3398c88c33b9da52724bd1 0x13e3316276c650430272ee304d640e5b6b03b10fe1c653d92be54f4f4157648109b0f5a0fedfb9efc7c58278faec6759b127ecb63103d8d0189a365bccc6ffedabd; P1 0x251446fd9aa606d084ce38e3919f6ec83d5b4277f511d2bea66f71f7f8655f9f024b65ed141e65bebdd5087b9b7b1d30555b8b1880be96d73bd643ec3722fd81b1b 0xe38dc4932f0ba458478996e8b8fd686eec98596ccadcb6bf30b6bb297926de1b54d383a629f12dda712316a511e05f0e1362b9b97d22f9b0ce3af8614e3faf69b6; P1 0x12f6715aeb9c34368b9ac017c9e511d544edc9c52f1e1b66e542bf424259035efb4423a50600ef29e901aa869d843f5b8cac24109c2dc6c821c0e93aac17740aac6 0x3f14c2b2dc3bbafb70271a8a533a988eb78209d68ddbcbd6ee5c204c428b733c7296142fc30589c22d546c497f0402a155f8685ea243e370a74efc1a254ab112f2; P1 0x1750d6448ca1132dc09ce42f019e7678d2c53d8946e24a97de2c5e0472f228321df9b4cd182193e6243c4515d7b6502476694c44885d08ffca094ce8207dbfc220 0x4062ceb4caeafe17db5a4144b891c2627432fe8734dc932e8cf9756e21e3200989e567fdf7f49cca9d68a32737b8a45c24cb6acfd4f82c0d4845175a49d1e0886c; P1 0x184a543bf62c79d1f642b581cc4309f44dd205a1eefbed23a1e815ba7985440288a4377b1bc7fa4085584332b25a75f634952db7f88f9f9dd07930832090bdc357 0x8d6c5106924987fa7bda7ddbe7f0e8393519c9651496a0a7d91598f8201bea29854cad004174be4880158fa7f19b68a6639fe4b6050032f24a6586e6f6a9d68c07; P1 0x7530bea08e8061db8e4d07ff90ec300e3194319229d0f6444969e4da0efd50be4e709f0904c1778448e6bc8035a39c0af50d96b6395999c850815179212deafeca 0x176bd770136f8c00ed06a36007ba5b30e0ae6c0c7903f440b964695a4d2e18c0494cf4497da3ba1b516895cec4e9071b7acdb42cd9299f81245ef29778c20cdf75d; P1 0x336d535e8b99a2c5d68b4d8d4aa9da6440e9c79403e98cad2ccb4e885bf492be5eb7bb4bef38d22e5b36350febaaba852c0166ee85c98b8d9d88fa4fe6022e52cf5 0x1970fa46a2695a3caf78d6edda29ea23455bffbd5c182ea91fbfdb5cd2fb449fde0f9fc1e4a09457bd134954b881eab38f92d81410f4c9e1963595c743030c8f450; P1 0x3cae41c9d4f14c2b266c7c5ab672b3cf0d9088b4e43deeb5b5e749fa7a540a9c4a48aad45b23d073faaf9b12dad9b1668845095b8042751209a42809173f49ed21b 0x1ab82ae626374dfcb3f6b5fcec3b7ffdbec771e16bdd601d3c126553535d19f851a4b20fd9c9d6761fd663b6862dc6c2b41a0d62a69fcde61014530d789e7189d1b; P1 0x42ee3ceaaafbe2f69ba7dc2658758e30a65d2615af9e7f3564291fad24b3e220bc3977092c5a68845f2b98a5ecbba47afb4b6937cb83a4871c705ac3cf4058a018e 0x9442648cf20bd3ecc201f363f230f599d86b8ac4a71541faec6d1da196785af9d1ccdad86ff501f413048e1b1cb2a42cc4baeb264621cc1188f0970953b3f86419; P1 0x80cb4038740d58c0d8a21f3f72a56a458df5e4513e183a762bc13a738b47af3d06e0e39a9f98d2a87e37c62b4bfb9f8e17d3169090acc8c96d889a4593f222e7bd 0x144665201433f4810c1447cf987ebb3ddb5e624479e006b413baf783bf37011b8123a9201ce7b4aa149ce2de1373018a3f9a8515aec1186e94d62f42b2d1add8710; P1 0x2689cbcb4f83ddde4f5544756e0c8409af55b4c151d4fe8d342d2df6d74bf02a8ad91203a9a6a87ecf1a6aebbac9d62b071f0ec94d6e09713cc8430439b11beb6c9 0xbbc2d5309d5fbc7afdeba73c9e59ae96744a2f70a6e19dc1ebdbf622d48d89b225cd32d018a431523cab5a6149aa8d32f2390fd2d243b134ac47e813e03c6459c9; P1 0xce91539b3fb37a5b147d8db2841178ecef161551df8fe7c1b6378d1c21e21818864e644c7e5e43a917c5ebc23ac39a1a4c593b9da3a049c9d9c993dc9431bc43c3 0x1835e8aea2555608a5a121aa38ad014453ff46a3cf6e28ab9f2d3350ff1fd917101645c50b947ebffb760be7acf5df5bde71f2a0206b87f3b5462145219a74c6336; P1 0x36f3a785f5a4f3c7c454c7b5f2ae3c3293393251510eed3dff1cf98e3e110d5b3901546e0351c1b6fdd3d47f84f1dd51b3561be9d99f1b1a1fc8c99032528c68767 0x1bbd89b8d5273ee8e02d892d2d7633e16c0e04d3b1ba278c4081539db1c70f65d834a5d00d4b8cb182c2b9608d281d9f5e806644bacd748d53833552d7bb04ef593; P1 0x4824b1272f48b36ad8df25c3b0df77935b0b5bce64c5bea042f40fbd35ae96863c4b53cefd6bf7d41cc9dd9f9e1800c3d377e6cf3d302d0b96805ed55cffaa70bec 0x146781ece940f8f74575f4dc3f2f21ff25995309e0cd7af76ac4f16c933138bc26f4052ead798a15c97da4213d2bd704cde03d30b054bdcaa6aedae4fa40e1b2327; P1 0x270813a3c89b3420597d728e756a8ad548f2dd809cf7b8a1f8af28d55871b06fe11d172dfc26bde08b4bbf4099f429d33c839c8fd2e88552af1de1e146304077d7c 0xe862186ff151fbf03e515afd84adcdbb7fb73cc41e8872d9ee2b06ef8c99283605977b5929fa5051442a3294de358b620613fdbfb1dca0254854e458751d308d4f; P1 0x13c6aead26c25ce684b0e3bc14a3df4b68510dea51de12d2f5446edf18ec22130db2dd830339c4f58d443bb8570e404b55446ed4948827c88cc8dac93a37f64806c 0xf0fc271df7c53d0ea07ae2ef81282b763da4459e10256de9cb1ee44f1a66b5babdc48e8e659dcad4dea88e17fce2bfaf1aff8bb9d4be333eb26c671df11444db8f; P1 0x15446a28fd651a5b1b33046265b251ed3121d806a5b3ae61059fd3ca17e7b9362c77f8bdf19b6653fbff301e1f63f475ad0e35b6b0cc78c7651677901f3e443be85 0x1c0dee9f6ea4fcc0589002cecf240ccc1fb1bd068c36fc01b3c50a7891a4f7ca47047fd7a9903c0769215bf2b3e1cb4cf6a0f2ffb363094f9bdb5aadc290d15ac28; P1 0x49c936f783b3d99b87375921fc82278261cea10fc190cf575e5c76107899c13b97f6fbcb5cd5a6591e30d9886d0d74cab7a945e65f1e4a1cad4d02546f8fbaf6d2e 0x66c554f951fa0e28ff08421178cdec9a498960fb2af2a5999c03a86bc9223ac0597c18dd84bea90372104174499baec27c923155b21129a5e7c408955e42b0bfee; P1 0x3de2c3bbd9dffe1eb37499861e3ac8b4628aa76376e2afc70ad139e71c14f9115a6cf1718e583e9192068f9bbccdfc53c43364e27fd1cb8253e46b68ac595dd57c 0xefb02051079ca7af7e6961169c495cc664b9e4e00b23bac3b92febfcab095746547677b5a38815d926d2d3d902a62626a3c00ee2fbb5260cb590d23c01e6ccd948; P1 0x1509f80459f8ffe13d7edc2cdabbed7ae8ca0cbe7665b1220da461263dd6f2643929b741ba67266db62db7569308eea7168a28b35377b7fcecf74f36b7d08b614e2 0x158a6d37c11431b368e3a5de61d4fad013dbc7ebd500342f899fdeca40f649fd66bed01f4079d24ace4b16fd24db8f2b203b378086d143fd06acdebf236323781a2; P1 0x2b801279e9300bb1ee30861d60f4ec841a889c1304c63fa163b98cc98e3f19df95204d12acddd9d6f59ff061e6ea6639b28bd763bf0364f70e7d0ce1a1dcc1114b2 0xf63b959adb286f1d086a9ce4c7cce06f2c11972944534dddeedaa40cd15ffd8165e2f38f41051f5ea668e85299527f73da7aa3181d0ca60d2eaa22332a83d3143e; P1 0x16341da15df008874bbbfb0d73b1238eab444f37d8b1dc39e8573e26b57caa6222b29abe90129cc93ebd741aa039ba587712d17d6a0966bd379dd0bc5e180a1212a 0x1c313fc7d02e0a51802b1680f94961b64e9fc955db13bedb3315bd2cce61956dd5cf2dd0ecc07ed3037ada66745d00ec85850f52743812c81ede412ed2efc0a5e36; P1 0x4a83723c7e19474a1c73d622aebbe0889b37002b05e7b5b1f5265669a634d9b4f9e11cf710c5e36cf0f00b0c91d6a7f4bf86dbf80f4b636dc845b593548c3bd4573 0x6a35e0098560c06e15e1e6df913115df2b367a05929b42f6096f892954600a84781bdd97b16e18ee5087c670f384d419120c86c1f2323f4228e50bf93230685f9f; P1 0x4218fd4d9fb104c6361ffbea51000a95a5286064cb0fe66cc6090c1494fe9fdb0d8734135c0419402c876df50f9512485a880c0ad8f85f9b5af19157748fe24fff 0x8e52e97b97f9c12b260dce13ea42fb6968deda9531267f77ef9d38418e1f32b594f55c67c4fdf2e00af7128bb07a12d5eac43eff0c961e490ee5f3b04ee987e42; P1 0x76b020cf4714f6e9758eaa9a146e98000efff44160edc6bd95a7a6b1d9c1f06d980f6842048e53456e89a93c55ffaa49d4228e8524a4c4bf9310b1dd94615a90 0x158b47a22a8376af0c0eef3403a35ce7983b83da378bbd4956df1c8999dc87028a4cd17e2d5758f6a67a9bd22ab4b070dfdcac726154c34588b2077cd84250759c; P1 0x2b8384b35aea1cf89046038ef31239cdb0942e1d7135451fa927169ce746b95c187d3f08b05bf51e54bf2b85243b7745c6418fd35e6de2b2a466cdf4be288f6e6 0x11ad100e3bdbe7ce1538675ee7fed2dc00e391e27fc41148a30cd4bc0b40dc085c909c0cbda4481dd404859446892aecc33fc3d93326f48850e22ae66d65920dc16; P1 0x1d4a9b0e44ad66a2390945aa7aba835fd2479aa4383ea634f3c8f9e0759f8c266ef16ca732f00278223ddfdd130b2f9ceb8c97eecf7e1512e79d29d70cd1fcd26bd 0x767c01ed1ff4fc6c580c7b7fe580837ad022bc888b1895ab5afa156e2f5fca66baad80652724ea6232699734d7cf59e46f4b30cd50dc5e2a92d8617ee24bee9c69; P1 0x5241d4c4b2c8c5e2c58b6a39987339d0ddc0e0d6672d36c263d5c2f951b9ae862a283647144071407251c5cb9fa3cbaf3db8ee33f53d28c55af2a7570053939e77 0x81bd330db2c129187f095f4b67e8007325e4ba27e2d78769d97362a508004c2e49312ee9f99dc1e7320e3d72e7aa5eb3a8013c89dbc67e914d36b8f1527df807aa; P1 0x62a055ec57d69be0f58335d097c298a4fa340454f61c8611dd4cda659db363d408689f03166051c738e3532837de0eba6adf67375eca9453fced9d75be1f56296a 0x15b2aae685668a3fe4a6e48487e76a41b15d7f6a347056d7b08ec90733815f60b383cd0edefc552121a37c408a90dd8228a7f52eb3259e84f62f0aae3d6b8266016; P1 0x2c23319e2d0f50a589d7f2d54b63d2c4070f86b0cd7a53888b558f7eec5be5bfc68c3df89b1529684b3c8078b49da76157e872b865126e8f3612cf2da84c51a711c 0x34a6a8ce441a443857cc41b5274d01f93d05b1866a0014f3e8613bc28b0f2b2db64aa400315a13f49e73d7557c855e71874702329804773511daf647da4e3f6c8; P1 0x103e319cb9b78c0943ffd2a8153322db23e725c1036e2dd19b199aa9fb535c189f8ac5d2a7c4ecc373c49a7c779ae0af53883d406dd0edb2532f3506c950bc07 0xe14a7e76c0ee13bb9ed7702b7e51d1fa4075a4bd3fc19d6706626870e485fb69ee5743fb5293e54c9cbcf0cc53335242fa9deec4e3964ef196105f9086470fb0c7; P1 0x129660bf72764b7fdfcf91614e6487225439cd35a6066461c3b46db18b438ef53d8909e073a89f1c45d81d70c52b78ffc3295c5315e52bfe153168a2519b92755e5 0xd11e285f71626eabe2b0a47773f93f1571ad7858a067d9eb301c1ff5d61f01c498371482618b8bdec2957bc7140190e3cb81dbcf3a89f8549aeb41523735405f8; P1 0x1003b6235fdcee4300e6e2ddb8d23d27659db74f4fa84ccd45726aeab84e1416a01de052287b4984ff504e9ca494b3809064d3368af6e80a3c62b4e6b9243bf1a 0x93c1a05232670fe49bf8de502a80fa394d5d3d6ef1c5c2f87ea6fbf4a1c2b860d761bb63b528113f4e55fed87fe79b5e3aa7971edc6f197b41e6260eadc2ee9fda; P1 0x7febe8da4955cf917e7506840e5338c8ad376981ea11b5e827d87605e35d67abf90155b090ff8d1abd95439bba5fa0d3fdf7ab1bb0d16602fb6fb86dd074eaed22 0x125c62a3f8516bc8302d8c3cd569d980b8cbdc7c0c1875685d731afa3cca9c53d7dcb58999cecd6edc080090a2f0032c6243f224344392551a632bb5d884647e0e; P1 0x1f9aed1282bd13b2c991d7e3bc4b151dbe95c369454daa830ea3a924bcc98e2d21c2a2996fe1f5b7bc51a8ef8344b73595248ba5a8ff2d34bfc813714f244f519 0x1cc3806b375f6f6fd0407120623d00bd987bf9c795bc607720e654d378f5722af3d7d2b82a2a0843fb1f300d5f9aba609dea179ab40ef21c898db821e486d4a4f65; P1 0x4d9061683cdf0107ea1b426d7328a689c5a961aacbc96c2b61616ade8e9ad72d1e7b76f286b448786667c35f2addaa782844cb2566f5284a9705be394c763d37c48 0x1ba6e3a0ec85d5961ddd2d1c80e24e5bc8852258c1f90720c4e842f77f47f1919f56233d51d52381ba68dfeb0aa06b6300b9728084e39ea857fe6d1aac166ddf5d3; P1 0x47af137e97ca1dac5606e17bcccb064df3f43917f9574e9523f573f65f8cce262a35900a45d0e78dff7f3276c1c473b522976b4234f2cdaf0c7c0b45754ecc10a4c 0xaa038ab5ce3a712ebe9c93b3aed3d498368e4430aef4b330cf92c49d6567b2fa86328cff2f3627172e12022a07068e8b541332abaa897116e7fc1e4ca67d3ae07; P1 0xa95d0e6901f972b784937566bd9004073035610477bcb9576fe4307d3c2b9c926294905cd6796b2a6ae8474ea266e4967b6d9fe3bd0d944dc5e01fb302422948 0x44007af840cc1515fe05f19c9ea5abfa717edc94c70169d39dbdbd4bd789b20c0d4c07839cb77a821f46a3156817f99c0c355a758e00f03ecb05ff800ce9c8b5db; P1 0x1b1861fe2c3cf68db649797a78d2c6cd85382ce5bd0423e71b155a59211244adb243d41b0a50c0a45383d511823846cb3345f0a76abb4e80e0a55243054aa54614 0x1a22e11f954874b221986808057d353e3a61651a3b21033a430c335b640ff78b638d2f3289516f5de8e01e499d4d09570e75516670311b770390b151cd32c3821f; P1 0x400a7b87b065ae30ece083cc2499d545ebf7d492d3f7521dc57fd971d5a2b94959efa86625790b53c4ebefeec3f1289a0be5d607e9512bb5898c19a8210f5c8ad 0x494d022a6fe4ac85429171e2665fb1dcbf2d3dd6db04d0ba43142b830ff1ff5a526c0f78e1c2542ef4dae013a1b7485da3879ba9949459418b33f081dedd0e47f0; P1 0x1f7b8399c20aa01a6425ad9f9729a9504348bf24fcf87992832d99227fd1b2b989c082d34b14f96ec0ef02ac6c8a696ef95128624578eb6ac71249bd7fbc7cc825 0x429575e7ea8a9f5cae1fe9763e5a7c17df1e8753c30809ac04e771f21b4f49922148d0a2ce8d3d4302ba2f91df775f6a5e122aedffa126ff5e30bca540b3e1cb25; P1 0x19fa1c1510ce7507ad94c283a9587521ad9beecd8ef695af04e00942d74b3e9a774b4ee025cde0ad654e515bdc0ec0aa86379cb13a84c359ae4b0d2cd63d464e74 0x11937967e072c4b9650ec204147afb0be16a86fc2ff92cea189db5768e4c82142ecc2b6ed2d5ec8a78164ad2483c83d1ab959652c9504c21155838f960b9fff687f; P1 0x1cf609eac058d622128eeba4cbe1c598f778d76df4653bebe290dbaeb199766ea246501e567bb796479b4c9e8e5a662b832cc7e0cda99f5bc81753f71db2cccbb13 0x85f756bdb96c7c937e6d640e933f8ae9697737e56886699f92defabea95497713b95dda4d7c8973ebe96d1fdf872bbe13a157b8aac1e7d070f41aa67679c90816; P1 0x692866a6733fd4f6c742f8b661818aa9e5e672f8fa66759ea0a1e185b6448fd3098a5300ea8382143ee0a8081bc7e53b2eba2792325b19ddcf73045abac64240 0xae145b393e9ab17a454e1f0e7f70805d649305178033fd5151f5b865327f1243e6682355046d4e64b4e4216a1fc78bed7f7382ed2f71f906ac2e19efba372e67ec; P1 0xb18f84704bd4b91b49886b614b21c3996f02b3b546394f72454d5d4423740273e21fe020c58c871cec64733d72f11b811e5afac36aaf37f763943fc0175e697071 0xd7ff9266521b10771eecb746be0faddd010c4aadff8a1891c0ef238eb51c090fc4ea4519c2dde4a98ae430b2e75f12b2e37279aa38084223758ca3ac1a1f68b521; P1 0x1115eea934636d92eeee7568e12c87b9b635e99eeb8f10a36de79d5bb6cbbd8612d50ae1757c8a68cf3c71195840169bb188f9ffe91a070b3a64fdad58b0bbbb844 0x137259d87d984afccd013ab369365d148333731d2527fdced01d6546bc54fdf05d5006e66a5b981103b9a7c90375d8a2bbdc46911d993275d19d977d1bc06a2c307; P1 0x237429f6a7b0fc2937fbd2b94fe05a2bcc92a660189917276447fe2d6dc46be13b560dbdc1d1c4fdfff1f5a5bd04ab16ef7b20c335112833cc6126c7d6869d54196 0x93d91a6f346ce773ad64a50cc4005d2c4332774bcf698aafd254044a44e81eea791322219fa75db5b548224352fb7aff53ad137f326108b98822f6381fa2244029; P1 0x801492b64e321615c925421891435d7f3b5d8be0b0b2547deeabf4b751d4a4ad8f5c016b7507a2ef9df659b6a307268a904917c8d5274d06171716c2dba6e002a0 0x1dc4351e4091bcbd2cfa89899e4ae4bdd9d87db3c36414af191dff93232e0ad92796736e665d75998d1ab55e89cb9ddf4d889dadc91573c9b73461ce3a7a5b59653; P1 0x5310f9f59f625591cb017a4004cc91c20d3d914dbec4f7e37001e1c9024bcb9a6f8372ac1f48f40e17189ee3dcd0583d8bc80cc4df1a8174b9d3ae9ba6d34a77667 0x7205d9f6f1940d62f6a9a289614f8fb98b9dfef79a0c53a5672ee071117719269384c1f18f6c015ade06a7fe05d4f3cd5ab3e81056b92e01b01b06f09eb919322; P1 0x4c2dd1634292cf323f2075de3ab899618d692b7b33ef2bafbb9a0093a6b263188f0ec4a44e20c7c37dc12ea0fd96d53fbd74089dc43f60c96d184cad3eca7e15 0x4433f02415ead91d7f8447997f9fb767cd4eb049abbb14fa02331bb62fb901b14c6b08df109220e4176d9e64a7e04ff934bc1c2420ac16ee3f19218e928606afa1; P1 0x1b41732b18edc3a508c5bccba7183b08147c71a15125d06493eff0a7f9d100848a9964f5413b56f1847973258b23cb10f601881ad0e3f0f5bcfaa15e0486bad17d 0x1192e967b3f75b0be4afc8bbdd8a5f43b52a9023d85a0ec65a48efe0f94fdda78bdf8467b04d4cfb41a40bcc63c18310f4c567849b7ba929330d90d2d0c46d75b40; P1 0x1cf42f63f7d17c101d86d030c89b8fa72b96a25931b47daae2d64d3e50870b78fff30fdb17aeeb47a5b6f042198db745b1f3969940d6489d881d580bc372760c425 0x1bd815b5f8e5519ebd22ea39c76a22bdd6475155f35739ee6aa5635a765e0c8f2e6d69b49bee8d6b0aa6fe05d2e16ca7fd69228ae4b9003d4b26c9f576b59747425; P1 0x48af0758b219d911c20a611f4c02cdebf2f5ba19aae199b2906eb931968ecdd31f72676a19d692963fde4aceba1b1883fae2b158c9a4ad99a152c5514d6b0a148cb 0x1c91ac0b1dc54d71bc2b8563c65e06a22c5a94edd9fd9b536ba0e4e34abc4a9418240bb611aa72c78ff2f8dde9833262467b2f882f6026889dacedc54d2414df0d6; P1 0x4c848ca2a16bc66f5bab21373c2d9092fd452814c12e3f36ac7dd586e1fa26ea01f88ae0ff73935a6c4f5775f9f6def0eb30071beb188b1cb13ae47a8ff17874588 0x1b31ad2fb7fd6332a525ad267f53a47d4e34d2b7e9fa8cf25b63cafdca44900617b79da58ee9fe02f1f6ddac8de76f7be9c9a9fb0315b9873c5c5745a5d65711e34; P1 0x4554641bb5c1e3d4d5b6e0f6427be11d333a2b51b8ff8eaf5905d1d69c95bbaba5c22bfb315efd7e64c3cce26cdf59ed7fa9f11731bb531265c4befee9877d2d3d9 0x1eaed851247298e512860bb08be9c9d4c2243288c762f360c79fb1fbf0dd62add7132b10afbcfea8ce9aa5737a0ae11a02b2c1b16c0c2203fa5b22ccf62983b8389; P1 0x5842b2cae7226427f2e833738d1fedf0351cb2beedbc5aaad7350cee1f2c8e16263d27b2218ba367b416e8805a877055fbabcf5e458efde80c5d7e80ab9b45dcdd3 0x13f93931c09b3e8c63772013b289d6cfd3ae6972c8b3fbcb8d93c8b5bd30b8bbe9916e36df0e331131c79bb77154cafc2aa7af3d45641c4852e7d9d017f72904bc6; P1 0x25669ac8b3a60156b164dbfbfc863e93a68163d45d694b6ae48c2993ec246b9cf682ce213aa69a29490e3ba413a3d2ec11fd912bb354cf8cd2b5e7b148f933c2e7c 0x15bd888bb99dca0beb417836c6cab002646c9571bfc952ab3e426cdc1d28dd69d526c5e1a5fb512551f8b9019fffae2890c0cee60623aeebaa04225c2609ac505e8; P1 0x2c4f716bd65136b8d346ddb4ba1471644bce28750ee44396ed32d796ff1fe56166e8768b714980965baeec3a2e500d790a47485778afd522e860997bdb9a286db3b 0x292e2d406480531c2eeff777b1a3a10b10fa60fc36dd119a0667763cbe714a9765c368b176cadc6cc35989ed949c96d4e1e1f8b5d151fa5d9933a4cff1481f81fb; P1 0x9efbc3c60ff62669eff8d078219a549f8d493d9bbe60a50f3aabcdce09284c705a6008647683d27c2358705809c52e86fbb6318dd68c46c90465de7593c0eb6ee 0x1557988ebefd08b341422f6c72b8560dcc5228ca6dcaec8bc9b13bdbbb99f6e122dfe548c169c8e210bba1b313f0b5a8697da41d50c7e20c53f64af0c1502697b39; P1 0x2ab3b80b2e7b8b55a1b7534f19dcd23249387dfdfcd7d40c617eb3a12dce9e8e0e7adf17810720b119c5556bf29c140cfbb63928769b7903cefbdb655b4ce06ec27 0x1458a589ea23c81266294258e61a58ff8b7a05b529ee82f4352781c38fc5a54a95b5b3c3ea544e9e228ac67b7790c7b26a111279000da8a6864982477ec6a3c643a; P1 0x26cf4d7a9aa72f87b70f54ffb5f0df68569c6537f931d686c94e4392f7bd6145eb30b19fe5dc0f12a26947abcd5ddefdf2ef652b2ac7225d15a30936fee62617b2a 0x17cceee7eacf01fe78af50f64d847bf5fa08467222946b2071a674bc8191273d4c10ef6adcc82d8821a400f38cac9e0dfd7da19edf53a0fd095f359c87be1a99296; P1 0x351b278f32532761bde88f3bf5c9d3768fa0748a6b45997884cbf5fe0e169cd13d5709b6ad1ced52e024f0fe67a5ffc40d6cdb650149bcc75c735a3716c80020c8b 0x191456074714c1023df5fbf1214f4e74f050df6c705a66d97a3b4f287ae19f99e58bc025e4c0fdb152a34e99158ac4081c8eebfd94b59f77fd00541b1d41df45c37; P1 0x3af77a076e5135b41807534a2b77b5ddeb318b0dbd6c901ffbf51c26e0895faded3c76f936224a8bebddadb0cb5406bf9ae6b71d9edc90ff6f2bb600e547f514cc2 0x328f8f62df4dcde8fffc09a6d2d063f355501836ec45189062c51c9d9e99d0442aa91a5b16d1e23666999bc42cba5cb8fa9289fe39f27081ae40643c099f800835; P1 0xefa96c62fff35858f098c256e58255b0065631cd766e4a50b23ef8d9edd1d0243e8482ebb4df55515bddb019257ab72fbe0f8531ab9e7258b1fcf4f7ef435ba86 0x1f735fbdeffee60e386805dd81031c61f7baac06e7a8ab740f13060d9673f9987f264088446bd325f23355f5193bf3e9f3ee1da6bd1c0044573b6b4715b15ffcb71; P1 0x5cbb7c6bcddcfa858d213a5ecb9280096aed1e9c5b3f77b5338d60e00f1bd7d23985d0838a0e24e9cc4801e6949f93bfa4a555236fb9c35c40e349edaa264fa9961 0xf93e105b4edfa2cfda7a2564c966f7b55a7c9109c8d88a8a6aa45dcefb700a031ef05fa3e2661f5324b095bcd9186395063c414e257df1650de35fec8ac959d104; P1 0x16bfeb04c530f2e347cfe5058b861bd268b80425fe3af385d5480ca459ad38a372064b2798902de601550b410889edb2acdd1b1dc96db78b485925db8aa2e7ba12f 0x1f294020c33d16567372d4a38de8601b492e5ce75ad0a14cd8b4a38631ef267b0785024b96b848e88d262190eed723a5e3149f40f5c62a933222fe5ecc04ca395f; P1 0x5b086444ec3982f0a7c9456083765e198c1fc1e66979dc33e27201ebe09e8aa6c33b48ff110b4cf78130aede2978ec6484d575e957ad5e920891e40668414adfd 0x1f6a671362bc26a675c67ece88f07f263967364fa22f42f95a61d69246dbe979d3dcd6ec0c879d8052964d95d3d645233d02bc20c67aab7e5e3436af3b306b01c0; P1 0x5c869c85333e8234b39d3abb74d31f3fd8659160b2ca2b73a331dcc6f5c3b6b1ca13ace403a42756317a47e6e35234190b294e7dfbe62e2abbee101706e18189a 0x1faa9e68417dde2a06106f382211216c313d6cedc55135e31fe3cc9470359c53253e2ef67526d088b81f06b2792cc4f6b0a8a0aaebbc08f5ce0ea7fd517d1a1489a; P1 0x5e0261e06847b68d3ce5ca4db8a57ac8b035b2eeab09e21f74aa2a01e3c32867e7d75fd383a6f1f65b4d3492a58363832c705817c018be4bb8731e1611cd91eaa36 0x1033f2ba87957ad7385db97770df49308bfb2fbe5fb5a1b1ec79a02e71253a4d5639d789cfdfa09ce02694c1e6f6c47c2994abc0176320a676f10a18a9867ffa022; P1 0x189cd52e41ed7bea318dc03b831c3ab7b8e0e06b4dc247ef490020fc8fbef1e546b4dddf91277d9344773ef282f43d44e87a84c45eda9582659463f9cf624b14cb4 0x956f85b179e241c598e7ad43966ba696dacc5e4ee4b14e4ffc50a36e10b8e8e69bd32e34d8c166588c59320cf0b5fc7b73288020dcb41b1e020de324697064da40; P1 0x82d88350b46871addfe1524a1ea5bd0f1c51867dc4d3fb3cb33c785bc8e5edc401869a4efb6d887fd1caf2447f831c8595b4e9e0046f74d65e9bbe7c8d490e0a6e 0x63dc1bff28c6bdd0287e8cc88af51cfafe9324fb0b413cc9533ead63606e0aa33b6a44f76f33c716f2ab01000078c05261dc043c41a2e43d8c889eca26fd413a6e; P1 0x3a6df85b38bb6bfa21555bd97e079500676c6498b770dfff2d41e2d937c9dceeb0670baa83b219d9a15706a178cf6a13f131bed97e5f1591a2f3dffaa1a9b95592 0x7d37d82c1b5ea7327008823370b284ead81c6d7feb61de2bed52865efd8de0e4db7ac9d5c435975eb869ac305052c8fbcbda4be55540fcf72f418ec6ee194f6b5e; P1 0x5bdf5fee8254fb9a5e0835325a00da47f316ac8e94f1292dcc642b429eb6258fe9f03e1d59203083bcb6403628717a670d4044f8600280e2f67931afc2442277c6 0x20b2f20528dc93844ec49be7ca5234ced9edf8b79b56ef45e378f3a9824638e904a5650daa64fa5c17eb5ae6d2c308c202fb7af28365761432c6cea2edab459b52; P1 0x643d6621d4a9576cc9466f1269063dafb41bd9782dbec3f1e19d71a9dad8ebc761c971eaf6bd3d56c74be4ee06ee540bf545f01604dd2a5c9858e8f68d26669ef 0x11f102432683fa47d4901f4fa3f1d158d4ad72e9d585374f9d448d9ea1e47e9c856d0230351d4066ceebfe291515f45c10f59f2a496185e06fbf398da2abfb79cbb; P1 0x1e2d7cb4459beeb06646629b56fb2317cacebffafd96f2b2fc8867621d8b0ee89a59cdd53ed2b51dda74260f6e0763dab0c5c876fe24c00375acd227c5c7ecab641 0xf482555f3b68e0bea24b47e901181a41b1ffa1ca82fafbec636fcafea86a0fbafd1a33ef8f74e91a9dda3fbbb5df2b59fa1866f0c14e23c128b996b721f6b6080c; P1 0x15e4d0fa487a8f5b8aac8dc085509d3b6637a946c9facf59c6e61f5c6f30372df548274f3b9e2fb828fd1718110e1e2dcdd03e20bd3a38d663df3d853820d150b6b 0x19d6f3e0cea5a3cd6c6613f4abaa4d8b0d25f1d270a38a047486f5c2289df485ad54e8fca6fe4b3fe55d8fadaaec71db99c8b6ff435809892039e9d0f7d91074d1b; P1 0x3e9882dd2cf96f7146432f2b3c365c7302064f281e26eb899451d5ab562ebea293c2b8a51cdae26dd3f5492577bd67cba8a4538215819eb547029e4150b758e4f2d 0x1732f08657d58a57df9bc9c6f66a2292c7372e7b9add68154a8033eb2e8edc0612a4b99327ecccc48c7562d9f94b144c1b75cc463bff861b47d4a3948cf23a811b8; P1 0x3274a08775e46316e60a6c8fd96b06c5592a3ab470e30e3868457819939644a78a0b96d34d14552baf71904fbfbfbcd80a526a3cca208239c16ffcc043b65ba419d 0x179cdcec6040bc97e16837611715305c131219ba68ac9730bd0655631602b121d7cdf3faf96385b522f2feef78615e390a2c918b36b1648696575cea47a1de81e5d; P1 0x34457b8b40c18b704f33b579b9bd10594a77372a1170093bb4f713b1245f8160731d92cc865ff3d27fd1cda1161fd77a7e327f12b9da680fd89f62b897cdddcc604 0x6474a7ca8dc3aa79bacca40649b92f9f3637f9b84e022cb527ad1360629fefa7f8cfbcaa12a9cce3a072271b7f1c067062b9cf1c4d1642b55b58170f71385a8f5f; P1 0x3b21045e1a70d9985bf13423e27aaa55501e314723687d08a680e63f773d1fc490c1875dc1edf3f1c9291f5afb466c5fa9eea27b632ecc2fba770f396051328b3c 0x1d9621f2c81692e6f9db24ed9afda4f8548904de6082767e3d14341335b3534150832f9ca5a8adc0f3552f973b605ae5349e0e04177292986e5ebbb91425e785aff; P1 0x521099b35842059ce5585b5b3b1b2d43b83983cc240abc8966e459637bb32834cbf508b840dc5c042d80c8511f1d5d50a75d0a6e6b75382229cc18a3730a5fe5f1f 0xb1eb3cbe7ab75d76c42f0b5dbdaced563ca375c22e643886fa17ae98c4e58630c2973a68938b3ec7d75a6d5a0f3e3e250a56636046fec71499a12965dec0373d22; P1 0xb97ab33bf6b90cb63f3a632591af7f3239571ba41c33bac7af1dabc278d4808f363a1e7038b2a1e57ce2e66d81996450b0cff57b50ec732b7709d383fc2d376375 0x43723bce4e14e25cc1c5172dac3c4fa5bc431d1e7375dbd4e6b43f6099d03535f778c834f21050945e9e2214975f18ffa588cea20586be099ea798cbbf26d70d01; P1 0x1aa77d6af5dfd3004eb44bdbe127686df2e7aa2597834d0b6aba2f007eab53c6fb768614957023d0bfffcff35f7f8ff4ed150130e41b33e4ddfbaab74bec87efa3 0x16b9c2869a1190812854c282dc9d252e115dd87cc8ddc90d253dc1bfd7ab676923703255e4d49ef18213227b1b46ba6b30beb93ce9e463c7c925577554f598d3da6; P1 0x306ae56cb40f7c1fd988b0150c21509a0c147e10b96c99c809888d6301abc9456176e640066998fabef88e6ff755258d4a663cdddd48e5cec11d2df9155c31a5eb7 0x16ed1245c2de0a300f0a7f104cf988007b6f52acba1495ab0b7b31992469a695a9ff61fc28d4c77719f3e5a2cd6af80dcec62c932eddb46d309062af310ee37f5a3; P1 0x31468063df248ed758ac6fb3e3cf9fd0b24df75045dd13eca9a4ec8e49509f10acf7b6f3de40ace8c4fa12b7fc4f8bc66f8f927a0ce600efcc5caf08985db10c3c6 0x1999d2915ba6a1cef4baa17956ad561921e42d68b2542fd2140108c4b997df972d204aa834b854f81267a92d29dc286831fbbc842455c8eb0df265f47897e42f521; P1 0x3d71b54a44558853f538e1a44703972620268cb4a74116fef8b732ebcc4756f0041847f9683414a74b4c142483fe1fad4b14f6e720562724a806f835853cfc77288 0x342348cae05e60705c7e528c196f5b20b294d6dda4f36cc508706b51a981fded5fb967bcb94ba829933cc71a77bb87ddbbf3c2d45571f3060630b74ab932fbfd4b; P1 0xfed87a71afba7f3ee31f37a28b4152cdd9c16ed78bb21e46f0e3c3707cb4d2349398b2936b8fc1a8986be42a13c61cdf6f2e11db06db8cf18a8a6f4d1691186a2 0x9d065334a9983c162c5ebeb33d81e7716fc1cd2eda0f3b8e2d9edd9f3a660cf9134a19c406c55d4dfbed5e6e7813ac3a683a586c12590be9c2a6b580f7501f828d; P1 0x90792351e64bcc7618ef24fb6683268593ffe019aa04d6501b4159ce4315235de98845bd4a324d82f5a7f6c97bca9e9e14bbbe57fe7f335b83aa619fc688592b01 0x1ae45a5c37dcc94428ffcfb567f355b648b7368cbaa277478f6d7dc8e0be0fc6e8da784e9fd52fd6d0affeecdfcbd9a4f94d06f55c9b78a2d59b9d384738a85affc; P1 0x43cc511b741fbfbaf3348dafebbe1abf393d428f029a059ffa13748dd1fd2c9585bcc489ba2c0382cb78c87b6c2826aac6e29facdeda44607fc438f731f3482e3d8 0x16cab0a0bfbc15ec29adc9f75f85601ef5a9586afd0bd410381afde4895dbcf960ae35370b74d8741c3bc54f39c45143518a55da1fd6d67aad20d6c9efb42fa6408; P1 0x30b324244c07fbf0d10f4945d041a546e43600994628a637c599daaa8af24ce6d856af28a6137609cf44fe4cbb9600e733e99427f663fa209e04438b0fe06757288 0x11a18d066676b8f56e4001d0332a33c566fbbe3267bc62e50afe22450641d217a150e380726f97ffa40e4d924c0eaeaa1e81ebd71179c816d645c78f980fa983348; P1 0x1d248044e050c6379808939531ea378096e349248ba39561a302f6bc9bd8338e40da506967340046d2264f66e3dd9d96ce74d660bbdec185919d25e0b87fdc8e2d0 0x1b698cc5409c71329be66e08bed92f6690d9282d6b14ec7c830bbce67cacd48fa59924cf5b10fbca0db8271d5ba4922de27618a5033101fede430a6ef78ad1a2f90; P1 0x46726d19444824bb7effd434f2a53c57274bfc5385914149f2d7f3a11f72d8800c2b869651355f7ffeb613e0caf6bc2520406fa65f7e421a08188fa90ede3a7a003 0x1d51835111792d4daf5c37f16ee70018654d1bc2caca6feee7f83f569bb0398fc3282f7b80c3eb67ce8270ce726398bd2d1dbc9e952ff283db17c722ad0d9ea3303; P1 0x5095a8f17eddec085b2088e70652578c455cac379f65ffaf5ff8d264dd77f3be759db7bd2b4f1703fdd9377529ccd4916e5594d0dcd5df87dbf1ef6721fa5254fb1 0x2b741a6f57be0dcefd06373f219bbf80121fc426dd3e13ee4501dc987fa33b9cfb7fc9a7fd0b3b69e378a51bfe3bba6a205a9a15236a18dddd2f66b6f4ca17e5cc; P1 0xb10504e0eaa40afca693559b7a0fe54a18c4db56e29fbc5b7ee47ef7b1a57ed39327fc56ac15a9fb463bec5fd4b6e6be9bcaa41b028f363870e9ad255ac4f372d 0x1451154a26ccd9e19d32056702cbedccb76e0f2b5634e9b95578b5e347db3cd8379987a11bbb8de85fff653b5e8ceb8bd50bb786f435bd6b2b6a9cc5398c71b06dd; P1 0x26b27831922b747ca1595fd53a8f34ed999ca6e02b1c93ef8ae4b84a763954d346e95e416bbd3292aa171d5010d42bd45febd2bc67d00eab02ef6452201a9700a16 0xa4f974b27586614962effc47219e49ad5274d795970fbf7bfba454e510ef7651c31ca2c7c6f1939f9744406dd73e2548dcca29fa6e004c3e24d92095e3c3d75a71; P1 0x9f78d8e54e6684750ec5c5e30f0daf523ac4dfb9a3bcf347df9ee72be3ecf1635e45a28e097365b3ce31c8744f1a1c7d804d477a7d4ee81c5d59b1790741583df8 0x17487bb9f93d297b436776a43054950084dd555bfe8e4f05ce9cf267c66b00978e036c95fa9144fa06a24a02b16e45aa176a27bd0f26d758d0ca37c9f0cd09d2f9b; P1 0x32d2821deca22b1a58b6a9f7dc19bb5ef8bc6662a4a0b7bb3d5c104877cab18a9111648afc6c175ae4c5aa66499aa21131d350aca02eba55ee0459a8eb238dd34f5 0x10e63bf0299ca4a59ba2a4a6c022a344327ecbfc7c76ff7fe8e37fc3f2829fb1784534bb83799d809430f7d6d37661fdd8e6574ee6deae0887f33aef9e81fc60c80; P1 0x1ac61d4aa2a65cd3416e0816a1d4e0ddc977a3f3d9dd70984ff96f233baa78c6780c3867bd996ff013038db0d12f8bc878deec92657c995b30eda8735eddd0d0407 0x770b57c00a6c71ffe0c2a6b934e392cddf900610c73d4f2125642ff1aef57a9c6d2f65987def224421d42776ebb488c1649815615ebd6b57857232dea8e0e1c407; P1 0x5309521fcb68b5ac8b48c5bc7ee83cdad110c5893337c2fbbe44fecebe1ef17ee4a51022d6363b85115cceb2b5613dec8e1f3a4e8573e5f8c6f9c813485beaee59 0x1df17ab2c8ec99e6631b791d8f895ddfd4cca05d921e9a87243ac4979b92177427cf40687e03b8da37bab16b887a3c212c04ce96add4aa0d3bdf87f54b9b2516ec; P1 0x540e65f216c33103f7475ba40f53d46d7241d6efe340aac1445d3f66c90a469c9e3419309577862b8c1ab5842504e9ae1ab83a58f8729c229149340ddfbca2927 0x1e54d5ec2d011cab866167b64a28b94e6a725bdf23f5214164361a4ef30857736f9aea3797268e2cc09b45450d800a74a1ac05364a05cf58184de2e811a3a9a65d7; P1 0x563fd60a872fc56cf980b4543770dcd3b0e5eb71c0acb37d879ad41c15f979f3ee3707bb701eedbd378442f04f2981a2ad31caac49f3dc14a17db6bccdebc2d956f 0x1df053ce57f535caadde51d76c0f70f275cec99a4f188f569fa38032aec3cfd6aa4912a40e10ec46b1596b9f75a08ab203a7a42c874286b42d70174dfaf0dbba522; P1 0x5407ee6fd62e3f72fba6da301067262e6fdfa13a5db123cef22049a7798f7f5b55b0c797937ab84dca4b5d0be9a3e5afbf4e2d7b5d8e2bfed824786c98ead07c810 0x80304eee29e60003f3da53d5835cfe1242bda3c90181d28806d2749896b5059385dc4aca7758fc10a15ea290d698c961b2aa80b456e199b3c01ae393f3079a519c; P1 0x60488411c951900d11c988730d8585d2aaae5189a939ad41057e2c1c03c33272143b3b27ae65eb7b74f3e4afabd0859ea63d6ee069b90bac00bed0238622ddae48 0x1307a33c25be150c78512502943f3eb955618b51e1ee10146aaaa077cff4f14442228af1d3545cb33b1f36a9e9f24531312eb9ef535e366e319f985ce7497f9f378; P1 0x21f33afe476e49229044d527d7fd76232db71e9bcaf0378be3fe313ccdcb64e5378f44d42879d095ddea2b5875e447faaa5fd5d4bc775ed4bca3e21ae8cf352155b 0x2c6a214bf0d185db3e4409f82b78a6ae4107ec3f9b620a710821d2e2fd3babe45c686b2564a88e16c86dafe313085ee11863ffeb43c074612e87e9709638492e1b; P1 0xb8efb2a8b002d34d52b2620c26d1e1e97717946ad7f1c48088f2faf6e8af37a2c294d2e1f1bb704bb4786e3ae3e3afe95f4164b7914d151b1a08ee3fbc178134b 0x1fc6c7d0fed2eb417980b9bcbfc042969403a3367a245b6bf19de7afe204d1bbb8c46753d9c194e18ba243374fb17e08fafc61cc10eb2eab082f56e262d2c9337d6; P1 0x5ea9e1d7973c70d2447a504ff9bbfe8c16511956661bb8bed0cb7bc1d8a36d55d3ec615fa2fdf5199f8429c2d31922524982e8c0dc2f8aa6b069c1cc1e21c8acbfc 0x1e30a50ccf25b7db54787d3564d84e89c68e8536f8737e542a177bc8177201179c3de0cccd3cfd51475faa9f83d9b2f3f413a8dbf3af4b3e4d69c1d0d26505fc0a8; P1 0x55727e3f7a60d5a924dda4d189b7cc6b2e87538b40ebdc684cdc3877a74cf22252981cc8776712d255cb3bb7daa51fc4113300d32d2e63acdd5581b6449820580fc 0x18b045f05eda14735822c3763ef38e28488ff8819a945c7c9a106115f2db7dcdfc6353c901a1aea6712b5d7dca33c6cfe43c5cce24cbcbe4fa197fa1e962b0acbbc; P1 0x39249bbf71a26c7ef49a889b39d7a84b80aa95da5ec88c58ec22be8a2a498be40920d73440b21d416479fd90335e7b61186cd0104e6689e4a64887fc73ba93e4da2 0xcca2e34242e2aeea9c612440181caac29f0a0c379a4ab4d2124385d1ac02fc68dae2e4c2ed81f90cdedb04568feb36fc8151bf7d4528f4309ca0fa1adcc7b963d2; P1 0xf55e02c1064ec227c814fee6d175c90d6415ac5c1c91e595993d789c53ebeb3dcdfb52fe2ea6c84dece4344ae831feb75fd3d33c8f2655e4fa13372525270357f3 0x17260c6ddb4324c7a863e2d008dd09d0c9cd377f79f9f23893744849ce482f343972bf3f15ce6c2291ec679c62960d981f1345339a308755a4f15e30e4ae053a0bf; P1 0x323c9d525ec765c4eede322065c333003f1e3098c41fffd6f24aad04f86d820ab8f3c264d7f49c6d11a8a47d6152e4d16f3be5869056f31630791e6c2a006d547a3 0x318f86b7390ed9eddea2f5643594deac267b7618d9fd391094f97fc341a36ef73397b1620a6721c075d9df729a44352ae7abb0052db40962079b9597c3a9313326; P1 0xe64630ee124a1540c99f994d786f3b83fc8640d6c2a716ef3685afdf94185fbec3ac8479ca495af4ee9b16a9607ce9663042a420765aae8d36171b7c06d3847b5 0x86dac5fe86b0c1f7ae90b727a0ad92112e6246cad876936c1e4af53068a9846879726b753944baa245ecb39a689d12661932a5ae8e1b136019bd7bf462cd84c4a1; P1 0x6a8ea35a65703cafdb17a435ae8d1409e14f8f19df2e6ef3ce5841f88f9fb979618d3bf02869ba991396897734bfa0d0411611f0c31c29eae81dada078d4b6c415 0x1f8c01bedfbf5cee942aac29629289a08ed640f2ffed03572df806f884367aa4676465bdbff19ea88ea2eae9dc3751c535d83bcbf0f9f2d72b36435b19479e38bd8; P1 0x5d4cf7d34742ccfb6c0b9ed118c716391aee8e21d2f21c0314ac204cd0bd67c9c8673aae3a9e64dffabe2333c3f5cb1f75c1ada299be6b950d7093be4dee57cf985 0xca10d2b79fe8ec8a8583a2ac2c02bd3d7798eb6cf8bd331dfd0f8282cdd75e8c1d64eb4e811a6fa41fc0434a1ac9905744e2da793cb077cd6e7115b7795dd9cc45; P1 0xef3dd477332204b47c7b8c06d14f19af8f889162dc440c47513cf5f5eab63bf805cdaa4bd55bb0e23543853d5a0b9d923aa9996c4fa4063bad61739bfd0641ef96 0x1b302fcbf97aec83852640a03167c5b20bea367f1bbace7248838d303e7f6304546c9d119cfbd525a66e89dcff891445d804ebd36acac35a0e85e6ac0cd3c2a0f61; P1 0x454ccba7a0f062bc57d9dda0ca8b51429320231c8a530f50c3e4e681cef958d280af47b873bb25265b58913a0dae42bb9963a76d74767188aef076c1fa569570597 0x15bc206e0835f4e73c0614f85886bae9b5dce1b29efd326bd75f40a5fb95c01abd7fa41ed6c45877e270a74aac0fe9f292c6c95987342018918721dbe0ef7988dda; P1 0x2c49b5a8c98e82946ff4529a14d9cd3b67f613673adfc27d79c02da84d04a2b0bfee6592e61d8832dbb668167b6a05fcc96b1fdd2f22f003cd0797b355a33044682 0xba9e1b8ece41536027eaa60bc6e46abc9f6b99be0d882c22e7009fbb5c7f928e4c85898a7829393903c05882fbfe29ba98c50b23aa6c9156bfcbbecc7b71df6e; P1 0xcc0f328a506f6f70d465555013ac46b118892e872b26471b99b0a2deb86618dc1ed9826dd32f04b02258a2d6a5f54625de8b0eb52cd7eb0bdf252a386ab56f 0x1da4199f90521852352a3bc0296e67fc25ef2a3cf5ec4241befbe13d63a5db3bce000a49b703e7377bcad1e656625fc0ca464d8082e8e9b548339212a5ac12f3b; P1 0x525e27e7c8e18819e319ec1aec468adcd312a5fc59f8a36ae32718f93f95b67ec8e9b4533aa2a84153797c18c11bca2ff005a41e0b0ba3bdd4181ad8da03e15 0x6fe7a10e70cc897d32f1986906710b128dbd13a5702a0e44ced02ad0b24878befded79fcfa6f3e4df43d8fb11d9aba0d3c3429ee568d1444b33d4ad6bac0a664e0; P1 0x496006dddcce2892beb25a7fd0ce6208b45bff202015778e17d784d76317d511a1606da9863dd92876d1727304c3c28d7b18bc4a06bc31db92b5acd4979be362b3 0x1a6394a76777a72733f808ee3f7017e6d76c5715652aa60e58f9a8f7a600dc9c0dadda123ed7eca7b765027f0b253c04d3ae87a0c0937b45b1a046e1f7c8aa2aeb3; P1 0x414916579387a66a01d3bfb66be8dfe60c054a1b770c349af330e66dfc07fb5fc956b6a0dc40ef360f09ed396d0b0609c6460424ec0875ceebbe6fd297947de41f8 0x1354eafe6058df0aef957cc576b2c630f4466fc3a1447e29cf18fdc213c7c883ecfb1f3f14cb27bb98bb0fa26707b0ef6a12a25c4aaa1f40819116e52e0f129b573; P1 0x2309293396ba87db0a82cab4d36d8b166452ed6273f3ab62e81bab35dda81d228c1e8c1765149c0980f614dbcb933a643e0a468243c0c1f009203d9b5db5272a782 0x1588fe1a22db4a2efac98c0f430345f7b9fb4b2164b3edafbc6c3a0ab038b12cb0baef167dc7cca0dcfdb2f3443359872fc5bfe2c5264bfe0388f9600e5c2c81c7d; P1 0x2b7a47ee28f54812b5634ce08db6d0593565d0469b983daed421da95edfe7cabd4317028d2a7efa359630c01f95f2eb704500e2bb8ec572f9d4aac9e01cca093206 0x18d970387646e757de33e0986179447409a94abde28a602fdf81ab91a2defdaee9f4e7b11da8713605ca223e41719623f5593f8d3ab7d07f85eee27dd0b97bf121; P1 0x39e3c970aa2e54a0313f3c168aceb7166308ec7957d7b0d53769dca9ecdd3a88b485fbc461f5a792f412f2328ae9144385820aeafa2a2f66f27316cf79a4b0149 0xdda70089b03ce904abf2dea131481a4ddb261c24dcdf977b7ac150fd7d18ab87e626838d8b420b67250e5ad73bccf0a371f68891af3b572ccd61d0b7617aca740c; P1 0x11fdea5cf24e415c4473e51b7ef16ae971d2d474827983596bb4a95d858631cd72c7b99a222bcd3d5f6bdacb8afb992544ec4d45c71681c33e43ca444d4c17b995b 0x1265da47a76dcf0ae53105d914df3d8ee22236307202c7f0875e61ead7b8546e89645cc5b1e169ec52d382b369a041d67f6e2728f56836e8c586dd45441181c3b0b; P1 0x1fbb8d40f4d807453c962ace9b0dce0f5ac0bfa8fb45ecf528df080862ecba1656771fe925298780f93c34d622fcda2aff506167942843072a59fa88903ebb2f06e 0xdf92a8973c88e91ea3a9b71dbf5086d10784efd4df24c5fb5acfc63f12662b2448514b0930b08832c33cc6bc2f486b31ad1ddc0c6e20ba95906e600e5303c527d9; P1 0x124e1409a527da0a62ad00f141803b5fe4cbbd3665f6dfd47b540615fcc893861c77f0f48e83a1e9e078c810eb69c6fee1f5e849fba46dcf64cbcdb24dfb9de1805 0x76853bed6af827ae26c9d55fd2eedd41ad691e2473f728a85eaf39d522fdccbb19a50af5516db5a5509e26d6eda6a1fa22b89f00f03a4f9500dfe081520a6799d8; P1 0x524ea4e149ffd0e117c2d53f08a8294a2ceffa5e61d64574a8d70b1b3c43f89088ebf3e6051af4864716ac8056cb14d2f23a62f1f43a8ce5d3c2b8d391127a3179 0x15cd0adf03e3fb26292ca0dc23b18b66160f0ee1bd58033b241541a3523d5ea10a9e887cad313e4757a10f9bfd23b3c962d7179cccfcd0aa239c3c54872b45e439; P1 0x2c8ec048068b95f1f1b65b8d3a87d5062ce48608eb403aaf3c8230abbdff9c1a19f80aa9731670303b6af5f0274854c10a74ecb8f27d14f92cc461c72f5dc0adf 0x13afc1c18065cfd1ac1df698b8c78947bceed2415bdd7ae4d47f2d50e065e56b2d87d8e995e7b11188fe2d5dad8ad59cfe66b80cbc1c660fa5bbed41a0cde6ac8f2; P1 0x2455723cb62fcdb6c35d951bd3e4d93160e3cd469dbf6180905242a1d1e92ed8ccdc9f327927c7562436d1be699e23fb85af1a2c8061684779626ca439b054a8e56 0x1de7ca2074fefb7385c5b3500c33b8777cb001f633161962c4299a0b3b82198a3cc0ccb42ecece85b78f5c14c4803dabc7f9b98a958168786a0256e62d73fb39ca2; P1 0x53d807ea10238d2b93d2cdfb69fdf7f3a76a20f6b24231b0b247c47366cbacfc26bce1e6b141282515b95120607913a5d09558cbd37ba3761bc4f81acec2fb46c0f 0xa189abf0f89a7c083ede3ec957769433a19352cc01db5dca0eb2f4a0dab22ad1cde7d6ee8e598542e6788bb0d298dc4bb823b9629c2ee0b65578ebc94a2d9ef9b; P1 0x98e5ae75de244e72df0520bf01e18ad75a012c7139f920021342b8cdf0b157664f2a78b0aa3113492d8c5ac488baf925502f9c01706b0a6fbe70c4cfdb5d3833 0x7ddd3fb7820b05d0739ee2eaeed064d4a1921c130230be53e57c3daeed483fef7b72aca8dad0986572d4bbc304259d23d4c039d132c43081b39ed084d09e778fbe; P1 0x5cd2b7286b89b063503e57d9e3bd801833b806a51a767466cf2c6e320fa11a63ea51482046b2d386acc16dd5bdcc4ecd23dd1c4e3ec96a90dc9eec00c6f2ff65ba 0x1c076bc851898b6100e40eb2512bf3f9de5d6f861a2e975de207846519e073007d0fdf6978954f0b46bc48cec882f24170e5bf136c6feabf688703f6d7650cd8c6; P1 0x49a6fb056416b60fc57b3268e9bc00c36e96d877dbbdecbddd246542179a5b01ea67477320a2d4b7b2e7252d143e84e7cd504e27ee94ad7f2bc7e9928710ba96c 0x11a12a8a42da97a7859f0b2e07ee760ec69df3b26e4d675c36cd6a8c1139c7d382b905780631d6c752e2e3bc4aed74d3bc940e8d4ad5fd159ab32a5f1f84367d4d8; P1 0x1d233ab58c82b8c4f05a8402835279be2926378ded1239da7ab588645cb799fb2a079b6ce87a06adad5f0463b4cb520792b080148f7b20aa8163d5e74957207f235 0x14eeb95aa446b2f9c545d5093ecf8d72061fa1db70da622b8cc2ac10920d4307245af51d215a9f3ab5d470c39342e2fd2dfe522472a536ab9c0f5ae36a7865b54f5; P1 0x291415cfe9cf16add90d2105eba06b3a77b082d6e224e5abcd6c7a558a60691a7789fb96b424190e1f8c5b202e53bf4ef4646785875c2997ad6bfafac7fd1b0e1f0 0x18d63fd317db61aabae7c491b4f2c812e3e5edc7395d93a0e574f91a1a180463f084d9204d1c8cdff1a2a6d6a53920d49be8cd035bb0653c491595f8003cccff95b; P1 0x39d4ee985f5e5586a9f2efc96ef120a1411519fb8144b5adc52af5b1bfa4b37420296fe03a6157bd746975ca17cfca445d1192c44acf37e901876fe4885c8e31dea 0x93446364930667e97b897120fe0fe245ebcdcc1ee7138e4cc54c083d581f6f5af328d278d2e4a8c227add1a406b564fe1aa878fcd4f483432abbe12c067d0790f5; P1 0x7f136a9faf4d9bf33c966495f8c2aff0c449b1893273351ed08b8b8a3c1d364ee7834cf4a53966817bf54ae65e9de0892587eafdb0c9e6fa720883f5f3431b08b0 0x1e5b62083526df7c74a7fc942b8d86376cb48f12c6daa7df0bffc4814518391baae4d61c60971908601dc10326d8f90a2bc441b2915981d964458402bc0c78aa81b; P1 0x566516525bfc675c597053d43ab6b4f8eaa2c17bbc004e1e7aadb1866a5ccdc1f6aba2132a358b82617036fa12d3b7bffe12c301aa236ffa2b935c5cfb42b3a6b2f 0x6bb103ecf64482bf51667b3c5af9d7c30f1bbd4c6d60d2a0b51e115d8ea2de44a981f9f2b9bcac11212f16d6f872f0599f2850644b787cc1128e40148f1bb8c3ba; P1 0x43f42d85c565d5b7f955477e234e874cae683e30af721481e3fc281a0ce2c198c073dd4880d0a1c5f0d8a45d18a4a05133bc55ddde4369a991a94fd496e70bf2ed 0xdcebfda222da29e606e0060dbf81296bf2dedde974ebb320aa51c0efb3c7d3d255137cdaef0badf4d98b00ea733fad0659e9a38a96d3281d94d6507de46e1a9c59; P1 0x11df9b037764b3e2f6fb50b32177fb06dfddea0e7c1bb9eb7d6d6b6146ef5c1c5788ab2165d8e9a7e0c21eb534c75e55e692399bb5ccf7194b5a416f84e1f96ebff 0x158b30d445fe84fa613070a0ec50952e0123854d2bc887b3fa7dd1e6ae1c2e09917161c81eab2e86c8d5ae747b3a018a05828608f205baef901147d547f848b0d2; P1 0x2b8328954f815b56597396c71734b9cfde42adcb9e0e73fb6fcdcf4bf5711d3ca6f297e63f89858dbda3074e18fbe0f58aac805ace547d248af8898744e145cce 0x1563b38c81894ecc9461e18e02ebcdd742bf2c89b48509a90679dee8ecadd98baaba183aae8d11861cac504f737d5a325ec9f3e0180244f90a07711f398bed8a19a; P1 0x2ae436e1ec7c216b1be278cce568252b665e62cd935cf19f5928aeb5eda06f5d6e6cd9558435906ae2367132f9ae471515af93f9672192852c3f776024a5bd292bc 0x1f933ec8482a037f5dd1b5044beb2b9d68c7e25403666466c4415df697154af06efc4a9b39349fde6c00788691a7e921144f8283bfcd89851a335c3a07f717bc4a8; P1 0x5d77cd88054031d130406fcd4ec0f7d8a4f1b2e088e1330c9f286b179df86a3541f3aedf5aa47e07f887342c55880760c4a0fe9a8f45aa0d5b6bad945db9b93cbc9 0x831d12ab4d34b0a5b97a8b0faf8b4ae0f0dd9d6d2ade3ea9ea05db8397e357c454887e5cf9aadd582f04e5f8186b20547134cf2fdbf6981d5db57220443d18d689; P1 0x64ba269cd3c7ee4fe8d53502c4e881617d6efbdd18b5bb39dacb2594903e6f663f401e397d8b0611265ec911d2d8414ee3177615e64adef7c609eafb79aae779e4 0x13e42dc264ad5c80f9ffb24e0afad93de8665640acfd2de561db3087d6ca1de3815909fcfb520bdd155b6b968e3ba1a3017cfcd7c4a4299b53e9a322fc4515379d7; P1 0x2517f429814794e69920f725be39f2884143159d6572c033314b7236b46956a2dff69305272c7c6e74aef64a69e9150fdfc5b1c6c2186b3db0fc31afefcd9d02156 0x1d1ee2b488cc25ae2cc80832b8f4dd4e75e4adcba807093974575b0efe25c929022752e87f93ae6d209f7dc7ca25808fed384f8d307fa2e984e683f539bb604f909; P1 0x4f804a23b1a59d91884cf5c0e6b7092a57df5946bb69268b1a969bc1ef5724644f3b032933c8b29bbde03f06f3f04591e75395ab4f38dcd18df19dd4a689b16220b 0x15bb4ec2bc34862328a2feaf1f1a3b247c841cc55a1bc9d4ce70e9b0605cae33ad627696d24b592c9f64f16ac9eae6a6f9a39698edf914a53e82fecb5af2eb5a8fe; P1 0x2c465f429683a574b9d08a03226cb1370fe655be696e5c68a18a3c08eae340b54c2e21459e344e6c4b0c0066b35b8d4b1077d8a0279ac91114ed2f766e3be4b3347 0x1339b8b0bead58812d6b5594ea7ef659a53314f59cba6c08917509c5f3febfb18e03da6b9793bb1a0c57039dc48f29e66ab0a87fb92c4e01b2ead75699aca7a4753; P1 0x22a6da50061c8aec2cbf83e2b822e32e5578561865bded5ac9a79336a8dc948ec029cc0f1e99a5d25bf35120f5f03681ceaf90e66a7117228bb5a80692a169181f7 0x167eb92634194dfd9e386937daf2e595e6a44a97d0dd19a8ae14fac36a94c8ee57f7bdcb503b3bb36623a10c709922254d47a78f909344da3cb1769b3a33782f0b2; P1 0x2f709d404b3cef8aa872aa78d8269b0ac5c2b4ad2971bd1f68e7eb1d2648a46501c1889198b5a70c43afa5c82033514754c38acb06a4006aabc7a684af539630fff 0x1c66bd6379b71f2a028524199b624f88f90ea29c11e64e04f58b9831f06c7aeb75f4cc4a3653930b7c85cb2747acb45a31f5b6abc02738806af50972a2ab2a5c34b; P1 0x4b9f3fdd7019facab51d3fc495e95705c965fc150ed5befe2fd6428b471fffc6833915d0c97111d94446f59b06b52361cfe5d072346bf9b54bf2e2ed1d6bb0da1d6 0x11bd5636cbc2dc3ff666e512e56c912ce856c76de43a028fa36796baa58222fb4d4662c274534642bedaecb3d468e8e63fedd4c6aa1ceee0c677307b0679a09a9c1; P1 0x1d80a3989826968d64f00c5bf5ab9a6e6ca9187ba7207772f557bd13424e88295100d49aec52c1b036e1c1eb3e2a286ac1f3b694c1f397cb57cb2ed9b8003491f63 0x8bcfe5fcb97a880d9bb154a3d3e7f7d5a43bf504766fd61628d68f2c91faf21a1bf52edeff8377608f086ef554062ce38a363df37923fbf3b68c366936bfb049e6; P1 0x728922e1461bb1d68e2851f847db391f107573d1cfdad26a9f770e74d2a0c6016514f6fc12a98bae86baf81e3c86b7729f4d9813de77f9896e071758dc8f723f81 0x8d733c373dbaeaa1435cfead478bedafd916073febd6dcbc0908fce0b02aac0af9aff5e70d056f451ec0ad172f669f2a8c6e452304dfdf9afa5dc27af540312f6d; P1 0x753c364e02b0f3df7668f8e14bf8bb291340274f646c85f43b95218bdae591ef4925717401683cb559d5ad246ca99adaf32b2f57e75831a0b6e8a34358cd004b1b 0x45f0b132860658cbe5009fcb83d16b96f1e170ab9a13389c206d4c0bba8e38f1c23a5be1a18fb86d304600b8e92324222970a61304e77a08ce909326bbde89e856; P1 0x1ca972baf0726e9ab6c67e1c0fee236134d805e4dbf51d4ba818c9448c2c4ff87c111263dd53e0a5e072a03f2ea3c7a2e8ea00224c82a13b266b83688874c72d17 0x30e5ce374e79e48510b8e919ba66bf928a9718bc9c7d0b61ecc67b26906e35012a3db12b39f34992598375abc5706f4e4b55af09d555da31729382b533697f23c3; P1 0xe02796efbbbbf0594cf296a8abf0ac1636ce167e58e432d8fdd19a2b3abb736e133fff1c854afae2f41d5677a44238d052ce621aaa3049ff7094d890da8314faf 0x14cdf8084f00b824a2c57784b3136f08caaeaf226b2f4d25820ecb962e658b46d5aff1a92be6eea053c507d0c4faa05957d4a2167047300d014cb8c21930b9c034a; P1 0x2893eb4b6f21be499f7375d10ff7513fc2f21d9bc6fcfe38aaadef1242b93fae45db2c052aa2e3d7f1a56ee073e31bbba4e3d6b5a7f38bfc966b395181a6f90aeab 0x2a8155331ac0dc34f16392bad1659cc186920bb6b9efec3263d1fbab8685512e3c1092c541db155f3ff74b25c6a90891239f6601ae82da2c053e07ff238a4122d7; P1 0xa9609f19df4d4e28fa5e0ddebf15d7eca2fded39e7643c53b21485fc7c0c20a29ac5ad325c08997aa08cad53938e485910095577915b9e1c4f8b8063ff1e9b3b5 0x1acff6ba38d4aacaf7f3f15daeb7e11c4e0b7a5713b245e48325997fa6ec0e396579045c064cd6a3ce4f83b9cd6a64d0c2f6cfd7d7707607b5dafa46f0577ad2568; P1 0x4365a9623bc4af32cbdcc96ece86a501322c68394108ab19f082675e9c2e1ca271c95c35b25f5da9073bdfc63f5b18bfc52e8867091bd6c6884fcc1d6915d04b94b 0x163bf0c2583de04bcf768d761a1f346e155bb0dbb282b3c32d454157e04e1a056ef62e20f46e46bd5b8c1f3e89c5abad86ffa58f7cb2fb27db75f41268291a680b; P1 0x2e5891f64c26c1871080b0481b090f3b91bd194cb7ec036ba233146fd3993655cf4153a600f7898687f3300ef92d131e3790222b63fae27a19a3d8b51865a12be 0x2d5063eac832aab49ce9d17a1d5d98af1a1bc34986a09a9b1e2694c36d481514ef9c97099beb79bae27822c6c524efddb285e00cdc396226e42b343247fde8e429; P1 0xc080a8eb62d8cc3f5e4dd1f55817fe5e6e55d88a33e353b9ffbf209f2bb55b5a4197688ef764287d21fd00669a12c8260dfe8f7fb08e42473cfcff20c49610a66 0x1611b83d60ed63ef5397798f303568c82d76472a3c6758679717e823ff6dcd6de375b6ef52cef0ee8786c7a008fea77cb925a51d090100aa79c98361ecc685c3619; P1 0x2da9356ce1bf2217c758b7807990f0052da00e50417eab13e5134659134474c6bab19cfea2cf8995a5eb177f81df9e27bc573cc1653efa1ef592caa3cd510f1b1e2 0xc0bcfe22ac200dab7c66f81a0a9ad214f1f3b1bc2cb5dbb3fe016499ce368a37ba61b941c5fede997654a0343248869e7beb2b307bb3fbcd3302db9fdec9255d35; P1 0xd9aa0d17621890c2a0c4454608e692ab61807546624e10a3c995174ffaa62b713e4044af92198a6675ac75dbeef51c8332cf8386cf0820ba7a442579743da093f1 0x5b1f6e6cc30cae05705930e02e3a6b225718dfcd4a0a63689ce2250b1b5474c9e4405a93b326e121d4c26217d4ef57ea7d58b7ebecdade7b34d81308ac25653adc; P1 0x30a70a8be0f5d9ed1812a9d69490a347c0673fa0a7bb629840ba487c00af2c801e9fe145f411c3071ad1fb1a872d6a136c3ffed80388748dd106c1b5a468ae1453 0xc5232b902111c51278eefd29b998502173354a995a380b17af7c1a5ab61b7aa9bc5376e2b99c4d6a61b8b288ac46c15aa7e1cb22179b0d4548c83b7da5ae0f5b83; P1 0xe3b6b8d1259430a1427693a57573a8182cbc58d8ccef4e48c8cab90f23aa5d9d93cd0c4474dcba6e8a3677fc6ec169749d0910d9ce52a2a03e42a1a6233230bd8c 0x10f12d72ebd6e88c99439cd0bb3038692772a57794191884a3c15a78505bf960381e8e2609c4f782dca7c739f6e352ed7d6bc66310c2793b1f5e4ff8b2fc61eca7; P1 0x1ae8d5773e2c34dcd74bd0c0c2988416e678ab096522ec5efb6033c0feb62221d2e86dece4df8418dc5d5630f2f76d4a36af7ff647521387482a25d7f3038c535 0xa9a0bed751904ec15df7758f45b7b95ec642462c24eae865a4aabb2870497b0f4323482fba26cf56cae1e4ddeb332aa413ef2be7a85760f4df9e5d244d1c2fc408; P1 0xa898715b17a835cf169533007ec9d8f7cbcf8a25b6de55d5987e92bcb0d10ab1beb1cc220775b2a7fdfc5b4a8de100fe9e32299c6ba67797a29fba71950209d29f 0xc10938a7e52a33c51c9696c9e3cd83fb4429379087b2ab91d7108c57ed68ef42593bc5ad667f5767818ba12d369946c5db92e7a16b3f1190f3be146b66f52e935f; P1 0xda565ba347d2721926ba11cdcd9ed14b6cbaf067000eb5d1eee792c1c30266ccabf9d167b65fa02d1e027c589f453984f48830366b22c4feb66a194d366cab0153 0x6405155952489694beb293fa8ef925a1bc15fa7a34f346e0634aadc68bb38e21f8836c4ce9f708c856d3de2a7a617a78db0ea6d9d91086f6f43c0465f9cf99b916; P1 0x3a9df52b6f548cb6789ff983a381d1ee46b84e639d896dcdf5c2509ca32bb1868a3de758028900c49955420be060f94387a286c4baa25199b521240a5ea59baf46 0x7fa6ce4bb75c2e5aa20b15c58ddf89a31e17f651fad2cc2b856083a9d395e8ae96abe016e502aa3e876a89545d8c17cbf51034fff06dfbef3d38225a3a7f218f2; P1 0x5f7a640ef88bcc8b0464a300f0903cf0745bcb472b66a68636ad569f9ef28ac5ade0b4fdba6af40675573ab6531cf9612a101982a8d00a12be6983303ed1260f 0x14de10d36c592ac491bcb2e08219e22c43504a92e00f891d9641ece6b754dd07aa308113f5fb95ccde98762832b17539e3b4a3da145bd54ded95acff030f6b3f45b; P1 0x28d2ce355157039bad402eca5df6234220f3ff6b76fa8b7c700156f6fb2fef6aeea8a80aac8035cc1f45307460781385a9c3ba2efbdff4169b06e85929ee5559234 0x14b81d614efb5483a94be10ba869fcee5b960b00c11258e6e42d61880735013ab0f9e2b181e63aae44a8d5fa26b16a0391e5dfb499d7113b0ce7631615a72d45b3f; P1 0x283ed822d63ff0fed89d1ecd136166c0f0b483d433801448bea21d006f6305e36d718b7fa13b4cff1835f2d0e6bdc869db13d457822140e0e83f224edad9b05e24f 0x4f72f40b1d33511003cb2eb9e96c81cce946e983a6edc17129d34aac7132f6825ae5c7921bb9785393489e6c3c2df154511782605d544ca7d8926614d3b19f6ed2; P1 0x24fc395badd94cd2234e69968aa0eef424d22548e5d423a02d2ba8db46a8619c4ef697dab389699202b9cde96e5192e4c9ed73c53ad0def58bb70824fbc138b8ba 0x1453b8794ce72799233cb3f9d994627ebec7fd138e791d7552dd36eb78a17468ef05655ffa492601f656da7ac5dada218c3865e77118c96974d12e2f1b77b82586; P1 0x26bc84e2367de268403f2b29647d2fa2847e827b17af3c545353948a9da471d8fbd02cbef99f1edb263d82296d9c4ddc409a712bc90b4fce94f7194e6c73e97bc 0x39c4506beb3759bea327d92eaa3f640364a5bf0cd3e8cbca9b65ee75d9cbabf412e0909c85578a60fabab19c601b7eb64a86b68148cf052a486bbd15bc659e9e28; P1 0x138d8388f3e3acd611929eb279db836bd368abd4f0ab78c6a368763cad6856aa1214907a7342d094a41db63d4b530396359e8aad99475677cc9208e728f4980842 0x1745d1c72c9392608173288300fcf7858a977d88cd2b3fe8bf65c2230a55c2d0b0c62aa62f094e4ca1ec033ee3fd497f12ff89aea6f444c0281c4fd18a275d83b02; P1 0x32c6e1ad0eb0c664e380537e782048164bbf09cf5e7b5e4bdb0216707d0c4b1393a30947d16d109938eac3952ffce905af6df536b27572be5cb44831b785eab7945 0x19efcb00ba4d3e996be986fbf9f2569297803f2be1c8e0eee9fd72173720ea31ae067e8e02a7d52a08477079b5ecf37083af9041e1d790f14ac0f4e5ccabd993d51; P1 0x3f111643915a6e1d39a22b9e8afdef7df180caa2d6c10bb306afe61badbed7d825c7d2e0b804c03a4eedde524294bf7bb941ba275947c5367d0aa7dde89e790f313 0xcee8968dfca7ce013254eac8ccc31ee0c72a0acede7b3be5ebb9d29feb4ec915b4ca5ab86167d2f07096a40ea7671795cf359a4127357c148cef89b2d1c2160df6; P1 0xfad8b86c9ac40bc65e2d8573a8e3cdcb82e0776c767d39140c23381683c7853a004f9dfa7532aa2b4a4bb998220fe4579878cdb25143fbc7881414955ba768573e 0x1de44faee025416453e5ecdb5fff36b086581f7d41171cde304e5e2b49f0315c40cc732fbc4fbc840a3c2cfd8d99cd242ccdae2f3ba3742bd0c57af8d8d6489106a; P1 0x53c48817a9fa576807659dba6aa5e014e8d6a08ff5bb8da21fa608e5d445f2b7dff01aec5c02a07595345e08e64cb0b1519a0ebc4561c7063f6d40afb2a9d773843 0x1b48e7075948b120a96da5ed6fe7f70e0518ec1d87e3d469d6bb3f353d20afe78fce4891d1ee96d04ba1ef939e6208856fcf235bc8261678ff0f273a016c4fb7bef; P1 0x45cb03d7a30ba639254080b1502c38e45cb684af2f15022af05088f29d8d90e6612cd4fb49fb1cb599e4dc110bda0090e61bffe507c59f70eb95215e19824dece2d 0x1962c717dde269a0ce414d60854bf0b16c8b69d6ff06e56b5208623c4097989d4583632f3f555ad40ecd18822da5df50a3cbcb847e95dbee9f59662f4ad4db6990; P1 0x3c6a97f8bab52bed9ed85ed7c5f9c3e61186c51d3f99f2375952828c9b428c3b613e29bb559dd5306b8ba07685f3bbf69b0263688d95f24077546674455031d47 0xce19b43a7985cb6023b199ed19c60578eb073e71c13342e106fa1ae0d7c49a59f21ea3776f77fbd8d6287e8fc3a03c9b1d0b8085d9f21a017b234e85b12cb97047; P1 0xf8e410f434d20387d3cbd9861be439e284775b368e14b7e29f847d5ca0b2fa7d2eb6395c84b36835a592ce2ab13b901001cf4759713324c0d39f111cdcc86f882f 0x197fdc155b428effadc7058bb351aa22fd506e31538e460008e87ca0b6ff0065e2110d03c8538818db9887b2495d9cdfcb18524001a29aab1e3cb93042a68042342; P1 0x3cf5544695463e77947e137c69bf02112335b7674a287d802ab57641f91b2df9fdbb688e0655e0ae9d855e9eb51f391855bc1c557b4c3ac435a2ec14b3b280ed085 0x1bfd862398280f6c202067591ca1837b9d8096d458509c3ff48999620427d3777f3f3cb2fe7555bc1a740c8177fd9c58ec5d600ca84581dc152f250465764d02791; P1 0x497300ce01ab802480b03718024dd66dd0b74a2c3dd38402ce67dea726268aceba24a0903ef3c35e28fcc22184302e62ce358a455daa3bc10490d8854a25947afb5 0xa60c77ab42dea5a277750523005ab758c1763673f6f48522b6fb94aecb48e5b4e210b35fda05a8498c2564a2f2a04d9ed98bcf2dffb8f5629031dcbec926803018; P1 0xa18e41b4501385a16e93422b9315281b7853dd8ad87239a271553a1917a25fc0e8d72c98e2cb37bab7c707b61aaa6069b9a296025420be0857608d5c4f9998e5c3 0x177bc07ccc3eb73a3c69502df6162eadfc971bf9a11a1cdaa8370d0b388a1917956c69c329c841b598acaf63318f6731daedd4f4eb4939acf2633b9b8c55cb3ec83; P1 0x33b349d70087497a90cc408d075bca8cebc4e8df475b8737191c7cec888de1c224f089d3dc8fad2cbf7357fd27e067d68c5eb1f5f8bccc3f554c9372cf463cae750 0x3cf38244221d0ca3c34ffb77278b3b197910fa42193e17a766151e95811f5b3238f0dbfea5f9f4eb0581e74fd887efd8488009c911e5ee151836a19326a8e6486b; P1 0x15c49308bf6f78c79ae49199675a4d35758e0531d91b1f31ef86dbb66865793cc45fbd87c353f3ae01c6daf973718bbea0cd1c1690b01919905ef9a9ee9b184972 0xfa608e9b169712199a8ae66e719851dddf333495ad5747d0ba707646e354d989f509bb0440667e393f45689e881413c0edef0a9d7977878bca2fa1f9d289595f9d; P1 0x16f51186b41d0a1814f14bf6bc9de147ac56139f3f484cce14ef0dd744ca8c4dca1d43d92089548ac3675a850dd829398cf04ab88a2a5204197bfb520d461071905 0x1cd8a58e3cc907fa114a913d690fc2fe141f92e3c132372dfdda6a9555b15f8be61194805fcea4e406a4fc56aa9e41b3d66354b8432f1a0d675f1164e2d5ba6cbe0; P1 0x4e029565c94d18e3142505fdd6524ce51a6a41bca0b3795617326400d81386f34542167ea2dec08c7d4efc4ac5c758c314f0c31d68738b9623fb8cbedfde74d5a48 0x1159661a49c60501207a4a440f7491f78ecc57bd089819845f235f555cbb90eff0ffc4205553fcf4e36db420ffdc2253651c547991b55e5bbd115c7918c1e46648; P1 0x1c37e2b7732d4c1bdd9e78aa9a3dd1037beab3f3be93ffe47b684d5e9e9fe28b9d602a059f3d1d4428f804288fef9b781027074dd65f333a4fa3d6ae92aec83cb 0x1079131bd617b865bc81a0d6ede65db291c0ba2e474013a63d3f892825afd9a74438847581f9781521c66e712d58077ae1b3ef5c84dd6f228deb895ad65e644e08b; P1 0x1970979d2c0bd6b1dbc18dbfc96c59a3345d560d56004f20ea64ad03724d235e426af86ecc301acbe7a287ad6d91f984f7493efbe7eb4f73306078110e3e447632f 0x1f2e884e1e3f2c535957cae49498b502b873d536e8ed8674a02b774500b0b7778c4e8879b8c31908313bfa30adc73dceb7f3c7a4e9f8179a87b67c9b5f35caa059a; P1 0x5b2743447f5e51e8622b59391444bc1c5522474a8dbacea928566b9e9e69b074649f8b5348d71f0fb42a12b793b20d80fb7ad3919e4df718e2be9b9a06bca403bf4 0x10d52ea8ba894e2913b29f0293af74bb2c7205daaf52c7b07e31621cc22503cd9d23cad23edac98ba191145e0ea96bebdbb1de2eb5e207f27c079ecc2562c365de0; P1 0x1a90309a6e4f6bfda8f64fd1d2d85c7f36054e025280cb105f13076970d47380c8a2e83a4636bccee54e651d53e744bd4a9383f1161c86ac24ddda4bd6bb01339b7 0x172076d3e37cc6eec940982544e9c767ad589740d009cc7797b7ac7ccc0abe6f08e47d4ebe6a59e5a30bd20b472ef448ba0667c4b52e43ad54ac3f8a85de6d8c5b7; P1 0x3224633fe81f80cafa1c0613ce33b84bb5fe6e0f1fc501bc4cb53153c47e3b50a8f03dafec7bc7c8d60cbbafba0a3f0f61fb4939293e5d2c02cdd5a3e974fccc50b 0x1be19f4fb2433a75a5c98cc53bef0e760ed590fa9469971f2dcb693643b2e48ff6d2450ca070429f33d5e34a16fcb35fed827a67ada349fe3769a8873f284563f7e; P1 0x48e0dae5b407120e40593387d1e5cd6c62ffa296654f11cfb240b833694b8d405ed2fe00d97fa72dc78f9ac6c85dea233625975038e86f6b0671d040bbfa4ad62c5 0x10316e1e3b7b28e23f7e4b260397452c5f1ef51d43642af63b47837b0defa46fe3a3d0ef8d0f41f15ddc79bd4a1b7a2212f6b0a459b170f1ee02430f2019de328d1; P1 0x18952f6ad903d6aa68d29244c94e9845a44a81e8af0cffc13bdb16be0500a4ca838d4d280480eb4c9ae78ed4298dd6d0eea18d0de98423f140f061d10b0fb803de4 0x1388c5df5e3724dba3918c59cb4cf1d74ebe6f7e6aade7fb2e863f97e2ce97658924b7c282a2a724f4a20f86531ffc321cd29302d7c3460c6d98c32ae7c44f82dc7; P1 0x23c61aafd62bdf0ddad493a5f73bc8ef667d5357aa1e84962eca952736f70ae57e6eda41f0fe662cb5cb2d68f9373f598ebaf08b5f639f1fcb5ec34cd67805c9829 0x3a7f9cbc214bd5ba58649e086d6655d537b1ef85e133b560080f100449c3479d1282d5146fbdd22b78dc1d49484e66a20cc7f1cf37dd10f2174d1bbe7ed59b4a3c; P1 0x140d1bf3328fd561c2b46ea51017f9daebd3f00cb67b291632509fc61569f22153b78632bbbcff695b920ea3304e19356dfcc2d066bc90674ba863a4b0cacd948a 0x685b7281d58003750aba7ec6e9a2cef520880bcfe850895898cfd9437f50170a104f877a2d0eaa87c263051abee0ac70547d133d3764d5b39d563965114159ceba; P1 0x3fcfa48e257c87b8a51cba4e51927d81950923e347ce34a7dff1eb83d1d702bfaa25dfd7257d1f3b74b7dc003d8b54dcfff505bb86c277a78c05dfb376b70c86eb 0xdab8e26e1a6c791e4754a47b8986ec3c6b6d597d435559ecafb04e10c1ac3d1a4cc95870849ca32f9a9a991b487bd671bbf8cefe1f393cdad0ed8c8d063fd82457; P1 0x1184f1abeb153f853e035ae813c74f5ac615bc9d06f3ec1e6efee3283b9ce64f2d1714dc18fa560fdb64f4f7169924ddc9146f91f42595a1a2d3871e098e2618e85 0xb9269fffb83cac2966c1276129f6c433f8803e4e8a817d0671cb18e42f4a513ac3f1d94fc26059ff15bea6dd886f651894f37e067ba14384d12a2ac7f5604b4f38; P1 0xc8dd459d3a4b0db44d2f075c25299dacdfb8ee07dffc3600c3a1027af6c5ec42600d9f33f38fff8fd69303b6885331bb74326c2e30d66f3736a7260a836f0f007d 0x13d751af6c07024c1133999225a4e174c2377232c16a3f51ac75c2c68c0a07eec8d4ea88e2820adec6f456e3f632257010d29bca0f76f3da4575edbd2c7f909d53d; P1 0x24e80d785217505af6a9db8af3cdaf8d97bad088c995b322c4c2bc8e0d197e392cced5f51b71b462971c31d69b82255ad79d253bc98ef927a2f0d4e59f3b2e01970 0x1b0e9732ef4079e211b44c4c9920d89240e2a720d12d7271c8b9e1b3563e051bb994f04eb1f866b6940867494ba8c58a88df75584319833c12fb8998809c099cb0b; P1 0x44a1f16720257b51d8b953d17db3f3df6dcbf7367ce06a864030ef980cabb6ad249de91524b3d021384ecc7867204f04b861d3b1135be936da9fc4e2bec32a0bc81 0xd26f4edf520c0e053e7b770cb5f4e2e85684f93c2c081badfbc016ca32020623ec2f058a1632166d31d4d9375906f9989d078d89df3205d3ed1019371caf3213ec; P1 0x1037834b1d0daa9663a5922b74ab75aa8bbc8267697e656b31f6a8cfa12d1e33a5ab1c0a9de24fa528e33eb8b2f03ed0024cc2ab9d1b6f6d9e5a712d85240b7ad20 0xc482bcd72c6b5cd82f477eac1add31582783530d43a0ba3d6026b83a255a4df5eadec7014215d5f7f165d2c8092bb3bf81061750599b680d18c196a64b95ee51d0; P1 0xe244ade4bac761f5fc8d1220801097e6095c4b1ab967dbb6261d6a68953422888265c34caa2da6275119d984c9f3c667ce930eb6736e753213f7d3469b49b1aff6 0x1239ea4a1500d8574307e98472639588cb2dfec4036e7e4c7b6aa2aa7da3ffe58ff79d3d71eabff101256ace24f62af8ceff732a8d33a720d4541ba318454618af6; P1 0x1f24b12e18b7af374fe0c454a8b1d599446c35719632eff1aa624f6fd57fc3da70177c5922a0cc04f41724c4b4c05a58ed5ea62cb113488da2d1392845cd9ec4f7a 0xa5e1dc7a2b47184bc852c46dcce31eeb24dfbaba32175623759750970e6504ebbec4e329f40623e6d24ca334c99ec3ad46a54d508ca60ec10b06c76a80f77abca6; P1 0xa13b64382ca1e376cd6ac9b5efe320ae3174d96a0c6898aba81aa812a5fd9a63f54f17b57f56e94a4042ebae7fbc5e1473ae57c84d5b8b7d3bb792cbbc78ae0c3a 0xdea56acca0d61368519766bb540806c56e4c557182fd48d6d6ce3d687c0a20710ee809f880a355d914f1b6d9575bd62aebc33f74ec7e3bb2c1186b5e5e8062bf26; P1 0x12274f82c9eed118fee6e10aa63301f96c10aba8bbb3075d3daac12f4ac752bedbecd4f609d775c02100315c0dc0d280578b69451e17fb4ee6f17f9c3a34b4177be 0x1da67d4c8fa591d136a4f37d1cc1d455fa5ac9f55d5ea7ebb13b3448a1b07285150ed738dd965e3186cc6b0e1c421e21ea36be1c5bf7f23afcfd1b4b1202b6a4aa; P1 0x526b6ff1fbe7d67b38546fd026e0612fb594df8261787f7ca8b5d76cefcd2974e282173814cdedf97758e9c70ab60542b9fd5f7e31e806bc4c3877b9f4c9c412c 0x127c8143e68d1d8be52b7b113099380cdd40af2c9e43a21937a2d85f1618281016bc4e8f2a0291951474917ff55b2027df0b252319514d3786335b1ddfae78303d8; P1 0x2009e188b3509d58189abbd865de789662a6a9df9dfc956511c678e8d2d48a37c357132bf6742290ad10a1c3341f63e0baeb78c24864bd13a8f416b1522e985fcca 0x19c7671359dc5e96ca80de98eb000ecdfc1d8679d08259da12ba5bbcb438d8859fda1efa8e5918019c10d78b1de0457ba9d84c0105602b24aeb192786b926e24f8a; P1 0x3e4d42cc9b4fc47728784f1e1384be07f759bec3b761ecc730e8f68c346cb9bce961370347c4e72c3cc8826ba1fba083896c3786dd983c4e7637a8ad4e0b2a57b28 0x10356e933a7c9fc011b7f45f50e5abaf24a7b8e89c3a939ba068dc0331ae093ddcd6f13302a2acead372302e9e2ec57ad2fb97cb657f2a38ac97779044533c0de54; P1 0x18a1576100cf9c23645575d91f225e4692bc164358f4936c7dff4830d0b88ac82e2b70c5d2a5a6ff44957c4ce59aa52173f9275e04e873174fec172654e07ac549c 0x17fea8d95f8d6b8efbdb0ca1d7d6e964bdfd09224ef0727bb77f7de7ad1e1e2bbca89c3047069f2d89cc65deda5bd0c74c8e1524e5a1097eabc71cd0ed12cedb74c; P1 0x35f9f7fd4d491eacf5d1eca9b3f68b41dcf541127414f3e474901d65d272a007a7c50e72564062adb616a53233f8010db83ca822bf14d1f711e680cc521e2e6f824 0x169a947faf255ff9ead6db23b14fb70821f3c3d670600059b817c6189b6393b3fdac007a583e9ff1dc321ddace001f30a23b6ca645e6161fd158b714ea6f4c833d4; P1 0x2fe664b6acb8b7d5464ac80ade731abfbaa6546bb0d15917ac2cca84121cf5d5f22f0f24d13710ce095bb759f1520d2998f1a314a064a242b7db83270681f1ba441 0x4a9da902fe8f5ed4010451ab737235670fb29d87ca15db2a8216e96ff36b44b7c2edc07e561248ab7bde8693f497c1a69c127f6c673417c70cbb7e634f90561af1; P1 0x209f4a35b4a21c36b4caed742d6408e5ff50dc4490b736084f98923634d5503a18f1465b7c9ce13a64d96d011ff1bff13973068377467c95857059a8c5157901a1 0x1a431a9763eac14fff9e045527958002737ff2beff5bcc3303f02bbb822fd43ae707c943c3ca8f9b0aa7accd74acd6cad0407ef04882769bac04021aececbbe8644; P1 0x40a8c7c8573a0f4377f680394bf19198e09cd0848d99ebb932cc3fc8d20e02f1d246f096c4a061a8a86d6c78a7c09e7d1a66a74282e0219bf1cde8b9818e58ad2a2 0x184cf84b2c40a141bab06694f71ebe17903c91e08aa92c662f031337ba5899082e06a8d4c10a5cd1ab493654b2ad84ba6edcc36c4cfcbc70be94d084c9b279c98d2; P1 0x375c88bb0a030a25ffa0eea6f4469b3894ca59558d3c960509297f08f63d511925d2b50d2cffbfe0a37baa4777bcc972ca8f1ab0e9d7d53433dd5fbadc95c030bd3 0x10c83124093a51a0c4021a30962da5b75158b3aa69f17c00c5a07350892605690de8eac29b1f29d90ba068e248e0c60bf9b89ef4b78b8b173db62d82bbd2181309f; P1 0x1a67409fc56c8e5d78544bffaf1a079a71867f76806d46bca4323f146c6a0858f88f65eb7b9d0f271a88158204c624ce24ef58b2a2e648077fbbe32eeabb16c5fe7 0x1d8abe2f25c59c22f96615bde59a0e1d27b2e7f54971d36b809bca4c03ca35d66da360a55c3848a42eff0595ba52a94105fb20a7423e31c2ec0c1903c2ec7da682a; P1 0x51d176c6a0444c2b729f68d097c71f227bcfb482412897828b1dfad6a6758189c1106abc03c2e3cdd52845b6f9f1741561d4697b025bfa2e5488290f982da6eea53 0xd9d9178be315640fd55aff95f95294010aac59f4db0fdae152082402daaae13316fcc5425aeded76c802d6189522e57e0b47c81e1f42af41467a542f9f742d5eff; P1 0x11612a3061e7183b70fc8a282dca2e5a4ef9253ac74978494c38e082e7b8ac431e1d19d0eb08227539595f1aa9e134f385891de452f2044e3aa1959499dd2833b40 0x1eabf8347eba990cde96706573bef851d824e83430c2a118eb26e1399a4eabb011db6d60d7c13d188ca30d0b487abd21dea20b15f50bc057ce8cd45a448b5360143; P1 0x583228abeb82e2f1da7ebb8e4494d20e112285c382a4575934e5b6b738b3983e299fdf9658fb98c7cec903c96b0d1712ed80c8352fd38a914f3641135a2dc7d1736 0xd634824799c3a82831ac33ca98267e1ac5e1a93cc3ac72396e1837638096348139a6be9e7fe1189c4f8d3083e038bfc8cfa96c7eaa205ae72439371a3aaf4dddd1; P1 0x10cd9bedf56b19139519172bdc6cb69b02e9b1bbb000bffdb1cf730b981b94f7e9ac19b4e4055f9d189e4f36cf2a5c1ccfd8dea579aca62daf885993d0efc3aa2cf 0x77b9dc7933e3a2256b684efce93223acb197a28bfd2823fca9670ed1c2e2184113542c77041a7270dfd25c8536243acf3b6260223229c77934d42ac803c60030b2; P1 0x53fd7add9cf0bf78b77e70c7f4d5a712bb0d840250cd4ab582304ec46aee0d21c79a164d494538ece445d356bb8e495f3bb033f11c9ded38a6de31fb4a5d4cab1b 0x766ff5ec69a3497e666e4bde3a048855512a40d470058b796b4f731131223c9379ff00e0e2072c2496a0645097d5ff3dfcc07ba4c61acee806d91ca9c881165e67; P1 0x52311b83b0f6bfcf9c0bf3b47b49f6ddfd4aa7bd60ee1446ffebee1de7997762c71688bfaeb5637be9eb0f00e06bba337266506c1741fc7a6c8b3127d1aeab8985 0x9488bda7ef15f329da8d22fb5cda61a89b3d17a4a24ad0f58c0067cd9b2f6ff74ab7f764bf60280562a09cd32d8b2f5aad88403ad815a95222ced64bea2e36f1d8; P1 0x8145967e591134807436aa71ef35bb5598db08b391cf9b2aa015d41531cf0c543330c068d2c092949366e64c2f29d6ba6a915418d8a3632037802ff8382307eaea 0x10c1f0440369a80d6887b8b0be9622e5e5820fded563cbad13c25d2561f8972819734fd785dc84f134357ff5a9f1015c3c712937720fac13379830b64f5c5d11daa; P1 0x1a5396efcb6ec2d7ad5f69645ba4451834595f5e08feb22426c837d7ff6be8828d7825014c0a8228533cd32c3a0fb8b1a85c32045c0ad26886d916df0de885e5e25 0x21a30c2f34a25d8e5d02c43dd462e32e75aec339320dc464246f560c1a0ca8743fc751581c8f2ccc2f8c0761153901d3391574d7f000cdb505fa233e75cd6a3cd1; P1 0x6a1297b086504c825b8d424f19717a005a2f4e714f1f13a9562bed6e03b476da5fa1061aca04c131e1f5871a6e351476633682a30616b72e4e861926a8f6c181b 0x1fffffffffffffffffffffffffffffffffffffffffffffffffffffffffffffffffffffffffffffffffffffffffffffffffffffffffffffffffffffffffffffffffe; P0 0x1fffffffffffffffffffffffffffffffffffffffffffffffffffffffffffffffffffffffffffffffffffffffffffffffffffffffffffffffffffffffffffffffffd 0x1]
    [(0x8f5b78263ad9207eb2b101, 0x1f803543c1ed5ed182210105552c99b8df0b740f67423a960cd35327914efbf2ae2d4debd0116ffa6d726f9727123f3a2083c8f4633a6a6531afcea86b72a301c6c, [P1 0x0 0x3; P1 0x0 0x1b; P1 0x0 0x88b; P0 0x0 0x48fb79; P0 0x0 0x14ce6b167f31; P1 0x0 0x512b5841aa0817b34d8f623; P0 0x0 0x19bc753052157374c6a6d868f2d9d94334a7807fb748c9; P0 0x0 0x296599fc4a5f434e03624744e71eb7db1db482abfbcc309254130b93a8152324bb7e6c8e071df9e6470920fadd1; P1 0xa0a8d7884471a63b45ead8dd8f03418d7f810f4210c881ccb37 0x938c211d329a2d07fc60cfa80cdc677842c22740e7e3bd640845a6cd2065e47a2d468e059dcc9c1f9c577e3202a263c81ecb18ebbd8453aed93773e75531a3391a; P0 0x2a851d5de22a795c568f08d7cb1469ed27909750c733d516b9a753dfd0a1c1bad22990beb4f460cacdc3f746d6dc94778e699f452ce597c8c7820218d17dfab1bf 0x64380708c7ac5596d29c07aa8d6a23dc7a30af878c28e8c265e2a9af7b9e73995a398e1c414e145ae89766381a9c2c1d25c9bed41307b385f88c6ed40335d34863; P0 0x139de8e0f803bcbde4db8222f2fdd7929160b75ca7fc9ea116e887452d4546cd5ff102cfe13e828a7f08edcaebe473cdb7970f7ab86d1e899101f2cc2472b2ae56 0x1960670fdff40ccd4d051c108629033582b851c0085cbfffcbbc8664b49ab781672c425cacbfc03351203692b253a364510a2c288db495a514fbd2fa0cfd85c849f; P1 0x3c5f4a5d6b51d1a23c1d5773cef3daa2f67dc31d6cbb9f8670c3530ca7058afb750fe250a575223aa48bd3ae942730de04e153061489b0e6a0a43027fa3013bfc32 0x12c580d5a21114c1b097ec356fe728106c7fedcdcf4dd4b32b2acfa15a3b148ab6430342e36f7b2421d4e32a886aa6aefe6694301faa7f1616c72eceebcb6310c75; P0 0xb02f3eca3614c6ad5b80acdef3e6bee9e39f492cdf9f35486caf6e431505d6f197f4d76a85424bc90cf14c8e12890d68e89b5ff3a597a7746d4c91eda00159172e 0x1af70b88dd29f8891549a6a058d7a6d815d2dca4ab0926b922dd9d699a38d46e3377948ffa74db8d6bbbde0fa4559667ba5c1f289f7b39ba88bc5278c9422be44a7; P0 0x16b8e5f87c62cd363efb0b8a4fef6fbbe88e14d5d7996a0971af7fcfb6832445e80efd58363ffd8d5c61532e5e0d5edb4fc70da7c9e64f59fb865037c1cb25c8994 0x1dc7c31fe29f2961c7cd9ad2f42eed0039385b3013d49a309e99a8439e7a7334a6624ad50b97fa4b3066aade36a3168e019b87cd638a5b7246ca1b29cdb08a9ae85; P1 0x5324d213e75f70e723c6839c7d137c53562c13cce8fa4165760bab7441da74c2b7cd0c555127162ac2909292a3ae6d5404666371be8c52ec38a654fb7c8f27b3e15 0x1a7cc345f767409a7a5d7eb33e8d18de4f306366ac6019d6b4fc966bb259259d1d43de4d28b7c9d7cdf5e63cd8ada8b9c489896e2a0bf2e32843414e8938a347160; P1 0x41c5eb3f27a76c2d785277608c1a9abeefccd5cc0aa511a66c2fc4092c253bc081d43b910ec11e9e93e2f2d42c456d904029824927b70cb3f6c5c5d963c6a808ce7 0x1b4ae5eabd2af1ea388866f641a566dc51631d004b96a8e49d5d9298b8b804a0fa2f18f58b1f033437b762c8284df972d24339bed89c2e271c3b25bf1e9ae2238e7; P0 0x17471349f0d1cc43b3697277b5b363cbd2fe2ba5cbd1ae45369e7c56e82ca122739da2c1b517f1ac64c5c8ce963ad02ae73b0f39bd7d057bf7970fcfa36a795a049 0xa428c3e87bb619420504adbf35dbf7a68dff7b402370c8f25ab5fae3ced32b8332cdd73a9065568c835e6626351c3c9c1c0d145ee8b9759004011806a1d59780ba; P1 0x9de6623f839df54a89109dc64eadb46bb50c94075101dea27be6820d7fe72da047f2641d8ae8976c4bf425d085a0edfcdd8dda4a4c3ef79a2c26cea5fa34838ff8 0xdb420ae7c014e53a41e962922521bcecc122e4b6af8c1fd51f862cdaec3fce714b34f251893d7625758f38561e578a1a3ad4fd0a3c983912cd49d8ed7214f72564; P1 0x119af178b33e693a891d3513b167fbf2c56a86cb29950e300466b3b3423fd4aee16f3b45d440607fc6da6bbfe01779ac554049a00d20493d9f6e2e31e6413a45f6b 0x27c3b160b49629c777efd1e2b02f9e622dce5f311df8969ed33a7f4be5e08bd8bb12de6757485c6739fadfad0c669d809d3953c5810d85f68e205322e678ee8c9b; P0 0x3169ad1959fdddf011a3acaf12d8c3d36f732c76edfba3c2af6be671ced922c89cfa470bd9c3c40fc7efe0095b4457186ecbb547e01e99e0555fd20dd74eca937 0x17607a19f055c70a8bdf19122eac37aea2ac899ea932fa30c176a9faa5ea90987b553bca915cbbb43f2b1a76f4e6ceec4b773204abbc45936c259d757c825a8f10; P0 0x1113d263b7032e5e0916e92cac162209baa3ed8180b37c26026160cd9cc49a53aac5ad13d9bf1ce3c5e53246d73919210875bbdcae1696b0f017c60379ad6ac64 0xdb0c38653877d4242b57b85b074fd11fc6dae7dc016d8d6da9e0298010d0a763595a2c41bd709a6a54ccf30da4071c68d0ef1a7accb0f9cb26bfbb10cc2098d64; P0 0x5db6f48942436075e6af01062ba691b4b16d815867d6d08bfefb322439b29cfcd67dbb015f9c3aba81dc489aa34b7c4c2e3941da2fa5b07b017f4ee329333123 0x70fc73fe87b99407d5227375c46e086d38ab6242a96582d6a5250ab03fa5bd36bdf8f961e965aeadebf683619ae9569e729a5fbb4426a34f6bd51352e9f8528033; P1 0x4acccdaceca262d6f1afafceb14e0aa09c1ebdef982c5b527b5eab2e7fb51cf8fee6dd51ee2e5860ce32d33f75bbf9ea2bae28b5d0a391d143364233cee58ad869 0x213e63938af15a10265d963fef95d9c6cb786bb952b9e50a5be1849d2dccbc31110b948042fe6e7422d800f3ebc303fe8ae619534995185aa55a82273c7827f6e4; P1 0x679b750a20774eefaf09864b7d1c4795894a5f6e4fac76da96cc724af7a096f6faa8d28aa3ff1e6eb60063ab8b28da8a3017e62dcc1876426557e8973399a1e30 0x3cafb7d070477627f3d13800f3a87658bfff607281c970eb5f6b502fc13e27952c48e017ea733f205cab7e0ad07125952539741633fcd9f119ad3e9b2bf0530f60; P0 0x7316b6343cb55a98a9a929105cccfe094cd6124e4261b32c81a2cf279d5a8723f43449a88830531d7e5e6d26de1ea9c011165c7b9af39d333474136eeaf4b6f25 0x1bf362dc09149994795ff372018451278a9ab6f2bfa517b1a8515036a4f8eb135111b76ae501da378630299428463b3471485641128fd4c7b85abe278f5a877d325; P0 0x1869f1f9ee864ca2164610a8af6825cd0a1553f775d35af9ff7b9ee7f44b8892431b5e0420a3926ef8ecff3fe175ad98ffbb511fa90ccca534272d6083b679a71ee 0x1d3d99b60db1d04caead40d37acd137e7d58f985c0ef2a2414d819ae4d033bccc10006148f2b3ca63b29ce6772b5cf30a6eb945d3b3781e0704e8545a43f2267547; P0 0x1ab81d2ee13f6e25454efdee0d9e44e42f0c855f63dbaa24ba23039e37e2f4f4a6578b179cf180202f72e349a0b77a4cef4c559d0fa3e7ba92287b290aa1cf00303 0x814db095361a15b766bfb9b120a796dd339efb48cd513337a1fe0e613a43d2ce828a69e66d09c9153990ab76634d2a4b96301733fe7a0dab73ddee9b555fbdfcb4; P0 0x20a7b1c50a0b2b77e4c4c0889e34cdbd0b97219990b0a04b7961910a71448dcce54de7559e85a173e0241b337dd45fd4588b44448d991d26f62bb2f66558ae507f 0x19177aaefe09046454232f074b2fa2d66b2899838185355df1d08d666bbd286280602aa3569cbeb9c53c66520d53ce418f63183b3173ffb32a79a5d4c7a0be92f0f; P1 0x3b0642c2dc7ff55f07c38ad461b1387339b33ac37a63eef73666cc975d584665bcff3c1c15af45255aeb18390f949fdfbfad7f414d1626840f905a95db529cdaec0 0x1fb1f02012168d394b25d835d341a6d3743e73ee602451180bcd24dd8f4618c660b4ff30a3edc2644e8600f3cf9e094ea14fabc43dcba0bb593289a3fef1dab3763; P1 0x5e2ddc08af1eefaf5b47ca697281ae42bb58b72224f1a433e46e3f9add62872d0e90ec690bf994722a8e17ce75529e34e1c037fd877c0223e0e8373c219089fb45b 0xc73d437e7959a98ed0665a9f51bd0b0affa1ebe3b2f6036349b840869ddecf767fd74818d459382bf0bcf99e8f27ce7b802e7d48fb474954e547f4e7d57158c536; P0 0x4d8826cbee5d562bb94bfe82f7e67e4431b78ca23288bc69e4a6d4f8214ca2be740fd46ac0896b58e3a011bb854a99b89b071212b2e783ac600506136af8b9c683 0x8422296c1da7f98640deab891dae54a2979ea10d45c4fe882898bb8682bb5a873017e33388c8da86eba29e99d274703d505deda5bd843e221bebc53028d1c5ede7; P1 0x664cdee9c9015da65a78d4456961c2248fe6f5fcc52f5f1a49beac6491d75d7d47ba95b795bfdb40a433a676a3c3e7b98e18e6420e9951ba3072c81635f86b1ed3 0x32a6e32bcd7e8be29c2269e7339a3141927efd1ea3025520616293a6a7e5df6dcd17b4594a2ebd3618157c14e806d8d343e1b070d9b8dd12168a3b55378a3db226; P1 0xf086c4cc3fff7068ca0136a1967250957f648042ef7d08c94b38d1c01297c2fd0801901e32780a7f605781bb3a61e7d45ce07339405101af6589bac2fb8d56ef9 0xd2c0360e9630b417c64a75df36a07f3c7e5f1eb774f5ea97c97998fe2157b856d5e9abf6d616628e8b565776ee28a65b5830828c82c3e27d9e958abdf9c71407e5; P0 0x56bff48087d9ac5b3b3337d20125b007c0dffa9b62660ac93e221ba3f3e5f63d5028adb2aae0fe93d1d12510eb823cf84d4736f4b718a75f4f1841ca54e8368df1 0x13026d289d436b955ad16f89fdf4caf0fe618060b4d15c2c9f71fddc30c3c3ea4d9d0fa7e65cc450831da5b3ef24918b11fa334adc1536d766ca0956da62a3ce0ca; P0 0xb4ae1cf54309b1648d89c6d188a46928e8b220a5b045ea96e3e76123fb8ad12509e43810b317731eb54a72ed8a7be4f5f0a75ff1703773e3dd1588b8a610f5b8a2 0xe51ee8249838e2ef4cbf79024710e0a75e79b293617994a64f5477a207098ab149bef337e81451abb89c03cc78fb9149f5efd42b0ae93ff5f9e6044ada7d07d806; P0 0x6688278659b5e63bca9cd9f3a6edacfe62dfe0a1ac99e17a28be7a555a4951bab608a6b6150893eb35443bae11a9a3215078f8726e12769a593abee84feb37c889 0x12769c36443ed3d465ec6effdb48e8e5a94ef26cda535aefab698dbefc6ce3a8765f24e45e6b4be1495db224d1929804ecbe784aee893895d307a3ef3bb4dd5e8ad; P1 0x1ff5762046ae593df814f06610ec554288e75800ad95cbe5c98e6dc74eb58d843c1b06941ef87df7714a67f7342ef0679313d7f9b7e4a7b6d1408792f15ba6c1a11 0x1102aa9693c0ea09a28782431321b5e5e5df47b5c4bead9dcdf087dd3bcafec71b0f40a0ca9617e3e71c141aa0bc8e0038ca585da67b8ac6245818b616efa8028cc; P1 0x1b20806a9796459f2e0121481b0509152f71334d945c6324eb31863802d9469dafeeb3647a9730c9b95793a8bb9dd427a4bb070cb2c4cc97e74ab7797a9b1e3b08b 0xd6edda48f3ca5495151c7385fe391d3828ee76e9588b7b189001f23f8232ccaf635c6c38b79b347048033372360a692f815b3e14e604b770e6a943d1f7964d83b; P0 0x5a3942f7ee64ff043eadf00f6e9671ea9a88221586f2212018afaa6188feba21fd51197a273cda893afe4cdb4932929253e93b2ed30ebfef148ba53ef70c224a 0x7f3ed895481c7ef08740c893d4c8090a6aa6efde4a074a7c5eb593dde0f4963e2df6241f6e47e83579b2ea1c642331ba8cb2dc8327993323c6a3cc9daa61c7bfe3; P0 0x1f9fb528de8bba3e9f32be98f420159252afba308ff9463bf118b960df00bffa4915226f8a972d2b730d8c594730d213f7b129fe985f60823427c25718ffd197a0 0x48a8acd620b777202d9743dc7e6824cc72479504f9142106d9b9e1ccd114f5d447a95c569bf9bdf1d522807013e17dd34d9bc32f54aa7209620f8a99dae8901ae9; P0 0xa4fa82de011496fd96eda8413b614c56405df8f361ac06ab2ac57bdf0793506c04508360e9e1a505140f301effa5a5b191a39feae8ad8a1e766665ba6e7248c45 0x7bfa685aa87b3eba94fd5c958601a5207257be3fd681782e58c834fc40c0138f29e8dfb0ff3bc5115ec0700a626fd2bcdf315a72b20a50a1fce078345f8018b456; P0 0x1e054a9b8cc0a3fe6c0c13dcad32418503edf71a355725f472120cdc33d78574b8bc5c1c694fe341b1471e0ef8beae68aed358ad668d043469ef78101db3404139 0x188be9b6c0e6816230cc23f6e236f3a340946a97e3bc5ece946bf2f79e96ee1fecd1193b6dea29f1eaf4c06aa72a1c20b28c3d3d9c182a5ac23dbc98eaa02694e1d; P1 0x387cc6ed8fe50440799cfbd88e6bfaa6ab4fd7712d477974b09de9a91f11b6fd1378d34a53825b2c58e51b70cda129420f0ff264f2c0f975636e1e50c7d126d6600 0x2fa1b8b590baa2370ed688436db402da869da9648964fd314f02547a521358d42bd6058738259cb8b1b6fe62db35f8b86a0d891d1da0cf53c3cc203da5f14c73db; P1 0xd4b2bfac72f1cb3c56db06c60bb8142b9c30a7a19d750c9cf66ceb527084fe0c7f5ac9b71dfcf454dfe97bdef9924d5932b3e4f77b4f3fe397f5e25b72da5d26d 0xc14598be6d80363f0ab95dcd15762f6717aeb8b844e3187b15422fbe569cc8b904290fe40e019436a7a8de7127576ec12dcaaa0a7064ef8813993c63872b094a78; P1 0xdadf04d83c578ce2e895a41db6afa9932f6e31ee98b022ba4bb1fb632d502fc2cc1d496c1c848d1dd3eef23233786526e7cef11d597e75eb927546205cadb6f2ac 0x1d63deb35e3786d7137c74934aa17cffc4265d4d54fb09379bf8a426023984370cfb6cf093865136b615ecaa5647a814a6ee83c73efc8a4e3144dea8e1c9403bb6c; P0 0x1afe3b551e7844a1b79d726e6673668adc6969abdb8ba8e5643d4f4bf2b03d417f25294e1fa637a3a16aa2986b16d8907910b0175ef8e3d03cf1f4ec567653b5639 0x18509273c2e8512d6fd48a53e56bb40c054a511b230e1d3ce03ac25b494e025a03212fb04f65185eaa6dc9c7e0cb26f0a895743be937bc061a5930fe5ca32fa4bc9; P1 0x376cf3a59046e9f669d2684c7a93ec4f2483f83399a29d66ce86561c311d6d2847415008d9c8eb28d5ed3bb8078576b4085cdd8d84721f5f485632db2f2053bb744 0x92fe99a496e5cd5b7580e83a2aaa88d58ae4d2accd9a94f3ab1c5ecaec30034025ce5fdb8064581c06d36ed79a2c1286bab3801816a0345fa5640b7b85e245e2b7; P0 0x2a33b23a7d77da38192e5fa1037291d138e65a27adb95f3f69f18466709ed76b96550ef39281fa829ddaa62c662c8748cf504a64553ce44baae3f7cfb14e3a74bf 0x150c98b1f93aea84ff24a01c7ec301e972ba8771cb00698627b13e754a033401fa3d13964a568d2296f71e6e170c295cf461c9e851c15785625642ab33669a81390; P1 0x2989a81cdfa49888864bb8cba87132d945ace44e37e53ccbf26bcf32b4cb4d6bc47ba155c486fedcdc54b82f74315100c766c695f3a67f2409b5e41f4752762bbb6 0x1abcc0dafab51daee4eecd3fa76325ed9b1d515f7ff8d3800ceb11fc1228d585067071d0e5e7426e3db552bd3a42585b799d5d0379e1db2d0bd7d9ec1e692deceb6; P1 0x430538474c153201cd5d5b69af16417a98d3209aa77c711f224d94534a3d1fb36753375591ccafbce37a3ea3ef0785ad1146119d85f92b6c7fdddc4a346d54039bc 0x4c36c6e24a87c5989edb15e477d172ce7b35bfaa413d00eb1a8f522d2a23929b38e96907c6c40683b4cb885734c0e19e4d89165327b166c0411ca2e5771cf475e8; P0 0xb5848e76f1d70f5d6e46b6f3fc4b63afb2a1f921a83bcdf39c49cc6a8cccdb4fb431fc15b5809769176a0a6d212144edfcae1c0cdbc23e9ea916ea7b26b68019c 0xe033005a511aec81a3618e6241d251f0c17e56c281d8f57780930fbcd252eaecf0c3e1f162437494bd1603623963f32592cc6771b2cc83a23d48bb89e23f5e3dc; P0 0x622ca56398f5c73d1d1914d83e934c8aa492267339b68098aceb5d4e0163cd35234382f1951760b1c63b83cbd75d1674caa6c845c2df50b5aa07ec7f31b8be9d 0x15c4d8723e97681aaa41eb8e9dc02728d5ebfaeff3e9e1b8bc57d25f22e007b1ac0dfe66d3e2a8d29c4e2727358bdf7f6010473f0c6978952a95b0e988b47a0a3ad; P1 0x2c6d44e5650814aa1e262eccb19fe487343debc1096cac15fb66165d2e9e7f10fdf29593f0472694d00309cdc9c7de4074b920aa293089025dd60860ac3da5bf6ae 0x16764ec72dae7ab6ac124e8892bda4c9e1d3070c93a8de2d06531cc722b1f1d534166d9b85ac89015da4f1a75ef30e39cc1c555dba576102168ebd71322bf0d3f69; P0 0xfc461b79db0a5f731556a4e78a13dfd2fb20ecb12f52b4c215aeb4b604c7a72e225df93712312aa0de8097db338eda6056e611d9fddc8027e872d7d7dc2bb08486 0x4f3bd8c92dac6f784539e6c3136d0e7f6b793bf6031ba20314f59215b445d8ff51c5ff1dbbf3e53656628c4c9cb24f4d0be4c868c42b4a26f700b90b0e5a0f5d97; P1 0x24c8fcaeb5bf602d05ca9432291813b1924a8bcd6d11324e1e37dab44a63ff38e6e8c7b5e339c3987c672b2fe293a222508053917cd834b2915edc4076d0bc0686 0x178b8cf55a5ae790b35968ff9e9beeada0cd59532fd1e74be4e1869e270d230ac6351b7021f77205b23b6bd35b63a855486e79598ab56102ef90dce5031a27733b9; P0 0x1152fb33b24dd267b432f1834b01f8fd9f8834bdccbf907c48882536896f5a7cfb8f4f60d0cbcaeca19f7c56f13c717a627b668223a9ab0ceb68bceec7c4a8b4ed9 0x1642e9b7f0983b68d9f01e4e7f3c8ace51821eece3c0a3ddcb7c0619622fef0d032152a1c3387c42910dcceb69542e85017c2b1c26273ca8adaac9b6e458efc8a8a; P0 0xf7c8d47ac94869cfb69dc77ede602366006377778c2897ff86db9e2781de0e618d1be9d3c5a5db0015de51a07400fe1b44b68566af3099179e98c91943f3b7ff11 0xab735fe4350d28e73d8eaa131fffe1e6983e03d163c105dc3f36de8edda2e40525d7a4be88764d09ccb5e96037519a1c7830e53285c9b82c6736f3827a16611175; P0 0x3969ab0d14e934a2fd646a4a67e51142ed4f48935e7db6a8e3474b3a75e5439824260ae9be2587180bbdfbed66b0a90ec3fd3a6da2ce7343e6cb9281b72593805e 0xf47dc44e7aaefcc4cec46a3f2edacc439a0c1c5e5a6ece6032d5619aea1a186763b03e17672083ac53b6915e615169bdb2837776c3787730a537e4cd097d6e3fd7; P1 0x15e3ff9fe578e76f76c3c7920af6201e8cde548adb54093132c21b14cbac28b02a35343fe28ab1b12a5c8961d190fb6cadf18369661c48431ef5977858f4839ff40 0xe61ae31dd32a6840e97234aa67f562ea241856f616e5f5c3d6ece6d060329d2e2d43e7f541c1fe95ae028bd640ab9daf2aada0cda16d65f08788ba8c61f04892f3; P1 0x1363e7c62c47b7fdcd10174218ce5c5771d3bce7b2d24e2069dad008f0801e6edee993f144da0bec86e23ee78441e6a4709d2901d62d825f08ee1596e8404695952 0xf5cfa9b8c1eb6bdd895657586f80c21c5458276eded2939bc68c360721003d2292ae41ead50cb7aa52f86761800d2aedfe261a84d0d64630a18715345db87914d; P1 0x1620ab4f752b982d5f44c999bc9b38b451254078e795a88f5cbd9fba2be6fd03e128b0b122a1938b4f3592ec37ea3d29cdf90c6a3099a9d59d56e1a721958ab39 0xabc437bb4d81528ae1b49ca4d7644378da38afb4aa3c8ad23766dbac90896e5993ffc9822bffc318155eaadb2a36d4064234cbf4b236c01e69ea048e2508639eb4; P1 0xacdf95466ab931f5bb155209e5893cd90fbcd9f5b492c9a17e708a56c74d083b0b50aee90aa08937c6645f7234bcc53428ec1d8ce3088989c9d375c5ad07d64af3 0xbb46958afe01e27a296ced795a41e59578064fbc59c8a1b3468ed24d8027adc6d3d45914159dd33827ad8ecfcad181f4dd35e5add30d8b1c79b7bb97d32ca656a3; P0 0x448018f7973a6085ad82f3ee4acea86f37a0422b327265fc53ed8f03d000f26b0acc2b6c96f3fcd2a46510060783c67d72c8207ac74ccd30f2dea28b9804dd8103 0x184c5d5a47b25b74f2cd65dd67b73d0939ebeebe446a59d37f617e60822c32867d3ccab2515d169b99be4e404ed20a9fe3f4e6ed39a6496c756f5402685936ccc; P1 0x3759c6cbba2187776598e0831fb892d30b037cb182a6d9739a36c280ee0de18f6809ff282e5ba1df99badad1e321219b6fbea690536d27f0fa9a4091e5ca619 0x129d249d243b26dfcae488ef8166cc2c1455bdfcd87ebb82aab356c1558d64d445294e8eb38cd5dc5c8e23bc1f56723d94b01e4c8e6d217778de6a8158f67eaedc9; P0 0xad3cce0389aa559fd227dd5474bf57d86ac123247feec03b4897f1d4580ee41866e8a7dc29ff6f249fe5213a9f088b62cff3226fabbe801555f8de57be9c3b0491 0xd1ce1e66aab846323e3ceb8f55e2c855187aea6ff71c96053bed6fe29ba9a59ab5516be6a2b99f0c99d5cdde5f15ffa9a2301f66db1b3c41bf0a55db3bea8ccc62; P0 0x55f919cc49cbee2f57d04d955d66db60cf3a26e3d88c9e0751a62bae1be6e8a5802f98ad32c727dbd967f674f27b1a0ac85fa32fc0685523482b8c57258196a21b 0xa962558e32fd8f957714a22516fa02eae6d21fe7a1bf628fe269a2e0add91e16b9690aebafd88690c84e623f5f531013478c8efef86004344e661beb64d7f2f79f; P1 0xa81c78190b2e55d563af7a00a1a8eb23a11b3d247bb34a8cc92a5b52483c6d9f8af5fea5593f3e2a6d146c16ca0b009298bf576b6ad0973c22654a2d596d12ffd2 0x136579b4265ea33e78dca59e100c9b8fcc3c58c86766a47ff263f3aadda386130109f37071c0d360e59c1401a5d362e28c4565432f240de171bafb44f93eb739e15; P0 0xbc1c24ffda0ef9c3317c1ec2e6dd6c701fb7fb09490395f954c76cedccd1a10fa8531c5e48c39a5e7e1af308737f9d8437903bf6cdf710e6346841f2a8cfd30f17 0xca1f908ec007fd12cfc5dddb4e602e6c54124f36790d5dc98acf85fd52db82889151ae38f8025d1016fc986107fecf732ca38e976150efd22306afed38c64efcd0; P0 0x4fcaea02cda00279c8083d417a61fad7b52eb84884c169b105a6cb807213ae79db4678b5be5ed3215444f6179d0e14273b5f3c618878cc3101580ead2c6af65dc9 0xaf9178ab10c9d31cb2d8c41056d66d6b400fb865676ae813553a9d324f1f5cdcdb0dba32bf420c5566696651c5c97f2fc80d81b78b2e47917e58b4af9d336086c9; P1 0xb49c5075b16ca7f68b819eaf0d379002b74ae5d78e7da57477641d403543bc2d51d8d1df4def8669666ac3911f67cb3bd467febe6cd78eca7fb9eb8f4357fedeae 0x182d24d5baa943c0cea109daee9a6004243b36c05bb961073755410f8dcecb91250e047c9bb1aa1b30b1a8609b1c5c715f4a1de84d01bb6a59cfed6bf2db323fc21; P0 0x1243f6f05b81592dcad1ae52c9b0f0184b58afbc039fd71758028ee5dd26899874a7dcb5cd6f6888dd08e76b1a7e83c8bb77c9c9f42476cef33a697321b1e5b9bc5 0x17ebcdff107a981ae16df420db9bffab4591e22029cc896a53f13a9189aa96dab3cf31c1b33b4ae075a2366a3ddb653bb9e5cf16b5d51dee35ed3fe6b5a2db29806; P1 0x35a545383812a656421e311fcfe1909291033548417d8936c2e186a288a761d8585fccaf674140ca77ecf76becdda62bfb63558107f584024d96e36edaf2aff4ae5 0x8c765d4cccb12d41e8316bcbc394f0a72118ac9f4751c78f842d4f2bedadd0ed4d3982d6bdbe92573b3df86eb78311527fca0bbaaa27a1c2f67c5f7874c6dcab51; P1 0x739a8329370710e511b39412ffef0183dcef723944566402157dad8895de886b32e60a64ad2f4c45561dbf251db36736f077c537b47462c6afa1a45b11d4c2d7ac 0x16f7eee32f7e29a4fdd6d85413c1d9254538162b4b36dfc4fa16c271c6dee923b43e6dd14795c2147d824aff0421013f00b9a8e5e181d45fa07953234f26a5ac68f; P0 0x107c696f2bd454447ff7ae892a438e5e0d058ab56cdb9401ffc31a543a3c207c1af491ab0e3fe4a94fc012dd66b7a77e76244e44b7191e205820b81a4886f8fdafe 0xb63c4b464b2c85d535006c0d81d98fe4c040652d9746195a4491b1e97cacb0e2e8204c706cbe223f573ea7dadbdd10db82384048a30730c4ae31d66f83121d5edf; P0 0x40dce49da8fc6741961256d325687512f746c484439588158b4912077ae97b0957f18e22d23fa50c8701a85ca0bb9bcf43a0adca5efb6cb11bba8b982d4601a6da 0x1d91eb7473e0cdaddbfc5ec8b3d5c655ff8671d4736cf0ac52ce1fd3db88965928aaaa215c87f40774bb281d7a9520af465570a84c526e3947cb8fc371d43b02d1b; P1 0x51f93c76f18cf777ee092807df7398894de728a194e4f8ab3daa1af3eb406103e40ebd86f0f730ffd87867a41953671a921324bf8f86053a598484a1a0fa0e4f46c 0x9df70a24420d8d527a23e2763fcfbae1a6fc027b88798dd49895112f61ec3a4e6bcf3a6cdc275db4e7a4b565b97e5f19bfbcc7121a16cab2697156a2f82e1c76f7; P1 0x9235693f911467ae5c4b5503126996c65360025a9f6fa4470afaa819fcea7a4bf72eb7f92682cf5b8d5ead0a3a83b907cea6359a441b6e85c6049e426cf8bbee5c 0xd96f4b2e4f4377ce46a507fd34a0ce840c38a81a1431bf4ca6ebb638910967c554bd0417a6f407bdced1ad359dabba787b6e268395e8c732f22a8a4bddfcadd54f; P1 0x11504ccc22febeca7907281db46a49de39c57f053b6e3753b70c9ec9c49e5811ad61f67fc037e2c1393af8bf61b1ee308a81cdbe214fd058b1098d68b9e9d8acc70 0x1d2f324e01f989a83592c7a8621878df25d21f409a704e214edcb14224733bd534171a14f2e0489b6f4fb5d19338694bcd239048a9a7995d30091ea5ec931127793; P0 0x1a9dd0c977ce9adaae0356fea92eb20b941db2e8f9e2f1ba17dc151f74a5beffe6bb1237c965d3ae1f2a00c44bb97fd697dd2b0fef250fa5b1e182dfe54db26e2b8 0x18f5e03cedd16566bcba1c639218df2bbfb01038b4c774a3ed5a74fb6d723607b7667f58f098f3b4637a5c814ac00b38c692a6ce92c3db1ac7cdf21ca4629ace121; P1 0x3a6894b9871b6bd33d93f832d614195d139222be70f8b3ce14500bf3f1184c2d5c8d15e5d40760c1d705dd7eb4c13c3afd785c07755df051b48c5d682f2326d5fde 0x192afc9a7fa8b4d9f217adce3d462dfb26b2c7598a834435ccffac2419d25c6a64bdd1f667745ecbfee7fb41b7e881f79cd54b340e70d749e8c4d3097a9c76672a1; P0 0x13cb6470470af9ff1bdc695a729b42531f4732413494dfc0b2b0386de84a6ea74287a4c14e5fc5dd3b024bfd32bdbff787d5ecd35b632cc4c7cf8ba8fd058b2b44e 0x1f2a35f6dfa1533381e8f11074aadf00b286465c0d259074f0eec18e32c23e08613d9e73d426e34ef030ba8532c4e6a4c8b97e5690a57b889c88ae8459832527d8f; P0 0x1e5a003c5454ce0901b5d1b59a7b8cb2199db74bcc9182c8210023eefe0e13adaf5c27c05bbca730200761afea9dcfd1de0923c246ec5bbb4b00e68e52c041a5ee8 0x1bd5bda07aa3ee081fbc5bc52b0b76a3694cf1f68be81f637a5b54de890ada69163c0f579da1bfc1970e5f981bcb547cf00ed488af7ad9a7c9e1121689c8d4b54c9; P1 0x48a2caf6d1184071805197d3b13691376246e8415e017704ae84a73e89133736c7d68df955334e3f7eec2d726083de7c938ecf3d01bbdfcbaf5f12ab6238fd9a6fa 0x11034908dac6777993902253c4ad5083ad5e4ac90ffa1f2e6a8d1d8887e34cda61debf3aee807d18d04580a4b1c407997eaff9ae883b476def2beacd9bc2b69386d; P0 0x90b7defc0cc4cc44fa0284b8e7c5408d50a689e1de72d495d42bed78f6a17982c7a035a628d2513f4b3cdd4658a62ca25113752e484a5ad3633322320f8cea8188 0x3049e4de56cc19be1ba00034607b2efa104ba056a65837b1ec592fcbbcb5f0d7b8db8bfccac3f6394d9ac6718ee4a2e0436d858524c61d9e84fd2a605b80c45ff1; P1 0xda9b0bb8df240a64513326828139e6aa84e23c38cd98b857940a3eae857d58c9aea47f8d20cf052bbe8764e792127bb2117ad7e01ba5c6a5c8084e901b4be7ece 0x1e8a9a9a33f7bd118f3e439d20e0157ea66ff230ddc6f11b7f54d7147a564f7363131eecbab8bae8949a6d9181b4c494021d671d264c36926023cc2acbfdbb4c171; P0 0x1d263a397e5fd684a4b22c22dfb4183aeca1f9284d1b7f4a9d6806da731a15eb98699955ae79a823f7647d2dcad9bcd717caa4617aa91064f34601840d33129bef1 0x1fd8f575578b33352edaf5ebb7db9e41b2fa3debd64ba8cf189c6e60967df2f0731e6d6b8badfedc00f7f73c6f9c7d0c8df5973b228b450f89eff938209203d52d2; P1 0x5f164fa52d9e0fa4d6ce9c5367f086e810db3b831d4c8c87630f20793f922f721abe08debbe02e91b6919a16818fc8f22700edf0f3e6577b24b667b1577daa0f780 0x8fa3695b8436a90b62b85005797bbfff6cc9245d07fbe53e3730e8d6979d354624fd27485bc60d570ff509b9846c5e0212848c1fd5c7fa676a83748ff3133e944c; P0 0x284bfc01c9cdd0d10b4cc79771cd0b610fb6f0511117ce3867dee1b25c4ec657d2c9624aba257c2e591deefddd17e766fe58be2bcaabd4831eece02d2b06e87982 0xec3581000a72db563cbf76bfcebf27a477bfab432d793a10501c8e4c8696736f9477c303801f7da390678bde88a58e49c414758a384e596cd88dacf6c279a07012; P1 0x146ec098a1d6db3bc5cc8602ae3a49d15401215ed90d6c903a1b09b7e8fd163193daa29f55655bea23043f73cb392fe194681bb54053cc9bb5bf0bf43b53431d0bb 0x1ee27c39c798f3b098e0b6d85ddd9240ceaae39e090e3bc6b0625daffdf2122e81aa6ce7e57fd298ccbb10c560510a35927079d17a1f9b42811ee4fc90516e11487; P1 0x596cc3bab9e6e5b7a2a01e73cde7de8d137e214198d20767d809cdfc77670e04985dfb27c5bc554169eaa14d4a1223ccaa66e431f22f5dbb30c0777b61afc11305f 0xda40f58248fd9a547593c483a17d71a766c359fea678233e3cfe7da065a6b2dc29425e7f0233d4fb548f3e414925ad6018e22fa34afae74e2d20a47831dceb4df2; P0 0x5d09594ec87385d451203eb84d979581d60ab6912470cd41443193c7562dae9b831483179e02ef67aa46c857aaa09975a5ac5b13f8421223cbd903b9707958e94c 0x1dafa58e7c38796da76937e7d7c2ce9fa9a41ad02038e983f4d1adcd7553c8d1d1b0688c100f7ee1e912967d93aa1d6ce9df534c0a15293acab20dfb6549b606210; P0 0x1b8a2030601ce13d9a6c507f23301f2d3c83d9af2e1d3a5e7f1de62be32be236c22f54ae91444f86e359c1ff02238c9d60cec999957a2cfcb4e091ad996591cc493 0x13db87711f639c3b26d476aeeb1f3ff18cc5db287982297104f60a431414fccddf9427e7de68a3b5b3b3d78abf04e49304e8a3917dfe7d3800041f7cf1f6aad0593; P1 0x24f7b89b4cb7e10cc4b5658e11eb721b4d9c1c09653af23ac7aca9259e330bba59980390d425d08e28a3cb4a6020db1e94f5b57fc9312baba26b934a544f4433b8e 0x1d0f428a2520a33b3e47e0772e79b9a6902ec30426cac5ac5e12b32943f103eaa211802d04415aa7101b878dda2d40dbdb314523de971885563644f18bdc2aa72c9; P0 0x1a63afe14f2a23fb6e5484ded4fa9541d403b5a2cc2d2ddbc75b637d8ff0db0e8ffd9578a4e4cdbf1c420ec2e6f057b56236ea494ffef46015a89e817a134587e99 0x6876c2920e0310ca784ef03e01708fa5da9ba7b7f7641cf64ac2070fddd57e96ca1f1e57cac6433a2e46a86c4ddc2303a106c3a91f9e7bb2d963300be07ec4206a; P1 0x3ff10fc5ecdda58ced2c1ab0653d4307ae10d254ea7abef8ff9b9eca82ab4b757d58ece36edbfb5a0495eb563df8d05d3ee222cdc28c8d45620af4b83e28895e30 0x82dbdec427f413ad5c2ff3ad6ab4c7047d508a36f849d8999c2dea255a79706779f955949eafbc419f8551dd488cbfd974cf497f6fbb3137a1488b2b3c23c961dc; P1 0x645610a12d0d90c56383425d8fcd6829484f37f98e4a7a5df58177946de4872dbd194e88ba186a4da7077f44ef9088f969547493a8bb73cc8f34a27543fbbdc5c0 0x12fe3c563f535ecdc285152dff69a105a3d38ada53479b452876445650c9cabe92c287147e7f0466797bced41e3a54b07803e84212b6460da5e9a2dd82ae65f24f0; P0 0xb45e7bf522f6c15fe38026ba676eea545b7a140244b33dc7d7cd71a00e4b0c2dabfc37d8fc9b33e38b4da222343dcddea72d6afd517f6c4a28bd1bc01109a34af0 0x151b06cb24ff1b63b96f12b241b60ebbc80a3aacf0a3f76aadf19322b9f69cef6cb30052137e9eba59691b26b729039f946bf3d624d3efc0c3d6e57f88cb917abf0; P0 0xdeb8fbe18ce79ee55618a20d954a8d35cff8605d1071ca53a0198b25fea3bdf5553c790e74140de989c906e888ce5c9b30d98e0bcb9fddebeeb0631ec5e80103f2 0x5f8d075fcdb64e2fdfed373439504ea856bd46162cec974a496e9ccd8b3c8b7b09692c068d7b3ba37d4a84b39aaa19f751e54c744c9dcb7620a25b65f7209b84f2; P0 0x11d4fc951d3624f9f9e86d8d56dd0aec98307939081ce06f97f97003e38898e947be934fc1ae0a592eb40036ac93e9fc802be8efff339b6d305ce884c79d2932df 0x1e277e1886dc61acf350782b3697723c28d96c6bef528baca075127fca701bdf4528de03ca5c85a32f8a5b9b9e12b48e3f67028c4ead06ab2cdd01d437a5f3fa7a3; P0 0x1c6a3d2b4987292661e814c544b140c6b5040f369e1f7598f287f6ab4d3c21a0d095d5c18d7857caf676869d746c3862721ff1676f738435c5e7cc3a2403b7fc795 0x17111797315cd3262acbfb993e2486f6ef0e3e03c6e9eb088e841aff51c59e3de435b38193f694c62731ddfe2a32c25b4b0118a583329ad09b958d09db257fd95e; P0 0x10a09b0a78fe0376cdc79c092aaf91b53bdb51e799a8a53f8dad756a596273eeb8b123261a192322e53b9aca3163480cab2e8315babdb73c2feb84a3a20ad82ad 0x1bd92784396e28dfd1fb9155dec9cf52070bb2f78828770795264f52784dfa7fac37973a46fcd434d50c771eadef6258546760e69c6086cb1b007c901bcb0820131; P0 0x183c344f4301395ac56d1c54254bf41a262a5e86fd11b60718b2965b451dec8fbc81ee98a0103f6334efde4b1d3326b0ca021200cf98b7c334f3bd9e8851d9eb483 0xf096badb3094e91851f2dd3bdd796e20077c916b815de368600946e8befc60356acfda248a036a22162ee89ccbccf942ed07d30ffc2132e55a85730e25b3641fe4; P1 0x1532872a7ba8312bcf34c9a362345c172722b6f32eddf7448d10a8a99ea4e0dc87108d2147feae9ecb153939e41d5c57744936f1d50a33350363907ba899a885bc6 0xe4d5874a8b56b1dd48633aa3820a93a018330c708697a6411bac4a9199384d7bfd9a2b14ee7f0e98a14cb7435b63fc45e5fdc9bb84cde85bf1c9f9b586ecd364f6; P0 0x6646858b98deffe0365c572dcee5dbfab2a3c816c47479e198ce506f7b4af542baaf68615fd06f19f83daa82a46885f675275461222f6f113395632a4d9f86d36d 0xeaec49321caaec9ac9e2f2aa75be425ea392f9ef3bccee864078bca1842ee0f755f1803831f195813e1a5f0c59f2e3087d878778b3da2ec623fd17288ac4dbefd1; P1 0x1435f37d9f8986ac3db127b4f6d80ab441e46e0af52801f8e67534624574135fb401e70af9df9f3fad25e0f649c932ab31f1cec430993e9370e9c2ac166e9251c0a 0x21fc6a4fcb680ef9ab3f2c707cbe6cdc1333f31aae2650170cb21d071a8a9cf5f9fc5da321326d10dfa7f5a6bd718fdfbf669dbc5be7ef1551df28e5e791ded5ed; P1 0x6c4926f11873110cae46facf118469699284d34c338074b346875e3bffc6aabe9f1086db551386518cfb022ac36344b1ee5715801de29dd20545d591dccd18a47 0x99759f32608e80fe068ef45362eefeec4ca65092bcbacb663e45e8eb172f55030ef59a54df496a7a7854219243fb5de24842b4b48c30f863634e88252a68424282; P1 0x89fcb57fadb15172a286fd3d854ff1a4d2c34dcb31de3b6ec50632d06d9ecc9cdcee2346eca23d22819c637699df08b8406a87daa26eea098c3da5dd8b3cc6ff14 0x4f485ee5c2a19e2ccfdaa2eefa07a4e107c5a657c5f4294179f0f3b05586eb312f5027e34f97fd71272dca5e0ecf843df8db27709ef88f4f767a4dc71331b4dd20; P0 0xc46df83a94561d68d628d0fe95641cad85b7c537fabb4081de87976afaf2d43c3942e70ce689b986e39aaaeb9af39ffd1dcaf7ec83e8191a243d851ddb6e885e2 0xdfc30504d6b6923fea41a376abca09c6d72ec6fb1126fbc10af82bc518c28e20a549557ba85f65dbc323330af7e91c775c2bebfe8463324d69635fa10baae8c9e2; P0 0x61caaba789c52eb4597f0552654b9d82b3c8a716e5af639f361e72ce5f8491a03e00bee5b86db8019bd2688d76836700957cb6519f5ea4a52ae9200aae10622e1e 0x47eb3c11157e7d5bc4a4b894cd17710c884ad6452c1c6c37e4f1a311cfd63b9bc46137bdab48151598a258fc91004ec67c5ef4046d357cc6fa7ae5a7e8c136d9a2; P1 0x1e4e7d35371274774f62155929ffb781a2df4f2fc3156307f0da199d6e3cdfbfd898384b687e11aebad8e4ff23e396090051da97ed95f4959caa2379509654a751 0x7b1b4f9deb2900e84784238f048560c35fc942bbb723120907d010e2d6f2e5875611d95cc296b5bc527d1a0d5990e09342351c7c26fe35e8a0f52e2de4fe68c6dd; P1 0x58cce2217611c71c7ae242faeb5c008a853f4f4a191e012f96497f33e97eaa3c9b6d058647abc6e000833ac12db2a144350344b4defaaa1309f16b70d7621d4f1c 0x144776ed2ee18089277d6a71c9e85b6edca7a65b72a586dd05fb6bff7d5644b28f5d8496ce9517afa6091086a4dec9da886a5b9664fe7da597e55cf7451903d1f77; P0 0xcd9f441f116011396ddfb1056a1bd665ead6453ece831f56d62f43a69676718cc5954e23b599da30d8909353a9494d8c887ee7d8f7faaea227976ec0baf131f500 0x984f1b994e61433ccdcf13dae5651caf0ad1ebe5fee8af4f661202d83a678185d5907cd01d94a7928501f05ece9468588b3ac4b13c49f037bd7c575406d3c5fe51; P1 0x87ed0dd425015b52808c4e1a6e8de38c8f92b6efb6dfad8d0be1cd65a35a8944951ed5ae150cf4064532aa9d99f86666945175bc675185959112a33e856c3d6072 0x7cf47575dfd462cb739cfcbe4e9d3f40d63e4055c03640769456e7365a2ec2d63f5f46ce47a7d66ca66222bfbd67062ddd441087f2402738acade468fa2e29e155; P0 0x1e7edd9d27b6b0b7f4fc3908c6fb46b0f1c574099bf5da5a115ccce42af9adc6351fbfe89e1f6f0e2cb96ace9a8c573e36e81dc5c05efb9c1adbfe2e77f62f2b3a 0x8307fcf982b3c3f2a865817ee7abe4bfdf53bce936ee7791793fa1d6ca3eeb3954d24c68381be868b6a02f6a1e4a4fb83ccfdb77ef2cd0a579569a6c5075bfb173; P1 0x6499c3bac117f350bcb99c59a932c0c216c420f16b2915298defd2d073223894e150af0e92e0ad98b17ae464a661ff8be92bd4b9ada2d74bbce08bc63bb2c566cf 0xdd30a38f0c53ea707fe9d2502ef275a657da6fb807dca8b1b28e36422e623d8f99b159305ae79693f1256edb49d8d0e787452bd8aa328e9959cab1ed13da9413ca; P1 0x11eab8574162379cfaee33c4a8fb5060c1234727a564de02a283e8089c092d1bc67c9ae426ed7e35c32626805b28cbff9d52c1e90fb9ff354ffb17a4344f3d015ae 0xa08381a6c0cf0c046f7dd7fc521c1b4dc92e77524020262120fe956a9939937efc9486687441634e36bab92c3503bd8f3056da907635ee15172d34b549b516e7da; P1 0x96f6f86d95006cc8af9e088e6f159357d882423d38897e86199a15b18a7f8e0e74b18b9d066e45689cfff4cdbbe5da362fe08c6deaf51db9210caa0849e3148f62 0x1074d73bf926403096b58db2ae896e732213266a38fe599be081d0a1a987e987df587958f807604056a3c1d7bfcf43b50923decb5382192caf90b65b4fab16e004e; P1 0x1963858e3ae8bd8ed34dc8e36b492019d8bb5cdf06726a963964bbd9377b1897de2071309eebd2eadc8afaa5c3d31ce81a46bf127f37f061455fa33e932a1fdb44f 0xd178c9123bcaffc29ebc788dd1abbe1b9e5e4bdf5bc3cc8ae4f353b914301e3fa88455fe8f61eb3594d6b3a556000111f35e056be6aa57ff07f196a54aff15fb9b; P1 0x10119a9f356fabaab2eaaff8ac969fab2d4c88898c9b1595aac3b0dc15b301d3ed841b175ebae1734ede17e628fff3dde082a2097ec6616f7f5ca8b9335e8354c14 0x1b0ff39b857a9a1f6497aa526dad930babe586bc8ea04850094b5e0e10f97737617e065308cb13b284f81d20fa3ccab5a0ed79da1383828da3a411fc570025b3b9f; P1 0x44a8d91e34b2e238352f250728b2db201036646da444d160ecc50ae87ece4b358c455992656bdf62db70a47a156e5df99238513aabde8738827fb6ac59a42367f1c 0x1511f285a9cbcb26b52e2b6417f3dcee4f89e2d840689b2b666508402c656f8e2e813d7118586e1e8e813ffad30cdbd4ccaa2a3fc20b5f26950f3c6115008fc855f; P0 0xddf98604ae7b9a3fa94e3c53861cd06e739aae7f301d108334fce69ad325bbc9d0892bd992be608e4d5c4222d5312a49740c0ed730b1528c9000facf2d9d6ea791 0x196b6f8a83473c2f352fa2a048250e4999ea0c0f1c5be4f1c44f066d3a5e3c0dccd6387c088c488e091b0c495565f1e93f72ae36076ac32dbf7d1c989fa65f280d2; P1 0x3c93d4f3a0a9822a73e5b06fad76e721229ba50cb783e6830cfec31eef96ac201ddb86ae190a3c74ad4b9c7cc43a553d65600d06d5b675964c5f0e774403d7df94d 0x7fdc69adf3fe5c33adea7bd43ea30f8fb83c715dce6fee19b5f61a3b021b1435ac24d69f9cf2081e90c0578438b83351d4b9b25a58449d1203f68c4cd0c30dfe19; P1 0x5fcaa5f09a0ad78620062e3f0b0d8ca5907315e0ca9fa050fd8f7ca8b0e4e9615a4b5a0b6239d164929b3765bda93825287f0ffdbd670fae70cbe58b72fc5963ee 0x15d4f8b2af780c539089fda7528d8ca5990a2886c1ae616dcfd2714f052835db4b47073d8d543a08c8369019d1aa869da6673dc2249d3fea54e409bc2ec9e983f41; P1 0x2caf2f73f828250ccd1a45797d978b28ffb46ddc0880590a4325c26bb9ac0215d52fa831f8dd7dcaf8780aabe9ad9740b4741e4d0e9e243ad645ee3c17b0e49f866 0x1108bd935acf7b074a0ec4b84c57d92438e252974366a63c67753fa41798b9fc216a3a04577a8cfdf7d74809f374d82583e805807de60e7a36a498006e148bd23e9; P0 0x9114bcfbd4121b373897b77909522468290cbc50e2db967881114b7bd8478399b3c881c6e9ecd2bb5878fe40937cfcaf9f370bf9124a814a6a721fc65d456fb2ab 0x1582e79ad0cbf5f04eef34631f96daf0b1ad1311b0facc3e6408f774371d02f7c66bba3a89e866bf0b631d52efeb3adb10c43ef8984e4faea70bf2c1e060833cbc; P1 0x2b61b6729896be6bfd096e3e3c4bad550d0b3e1f59a01193dfc30debaedec0d4aa2e639f72d577744e851b5191e89cf2367f51a4829575bacf14b9fab11ef8307 0xbb976accec5ceab1b865be6a1e69f682eed81dd0d77b8cbf0b8a33f16d290d095ffea614d46fde7522b73d4a402ac9f94edc13007478cb4416a67cf527b6618137; P1 0xce31d761d16b6264829541e580834f350192a036eb9154a5eb938cf2d53fdfdbc49a76e92e58ba060c60c520c666582c77f2cbed4af88d557abc731e8d0c231f96 0x331b2c1d21d7f0117a6b2b6ca1c944762074e30bfb08bc93cfd0d065aa391dd0355472afa1a2d5daf57db095c327f18c0b4a3dc6159dbe1faf5f31676b2ed68d09; P0 0x519eb3af89d9a13423126fe5250c3f25cad7964b0aafcac68cdee4e77cf52cbdd72fd3c7e8e854d7e5206b5b6a187b2143ae0f84884d6b6b42b1f099ea0277329 0x1c201e388a1c1c67d13d0dde06933a3963385379fc428d3f9558e0a2804da3daa4254e7d49a30162dbd92e0e0370c68a00c7111c56535424e61abf9fba3f4e65d7a; P1 0x4a28ff5e7def725abc91db40f87a299706c097a9bdf9a0964b758c65f6444c26304bb78b7c7bbb9fb8828039ec1015df85a7f3d288bc226bd6bc1248552e556ef54 0x12502672d34ad15c16514b7e6f607bb3c7a8eaa6ddd581371ae73f1d3a099c320b05baf0b40dad54ac00930a0829455b059778a491b5de58588c3f129dce16489c0; P1 0x1f70dc04ce14da64fcf6592b81d8791ee2573c53818e1b0912715cf0b83a282fddcb204834e26984f92be8a85d4411bd41740064aea9d12b85965c996f96bdf4f8f 0x11cb4614d0961bc0cd0918ca7f273b4f1599daa1c9d2aecc89d219b9ef4a704fc6aa0f232629f011b5ff0e904663cec7af9243ea5cf4fb6641e166401d7a43c7f8f; P0 0x9e505b7df310c17bcb368b879263560defb813e93504c21a00726aaae38e73365e86b1497500b47d35c241b172a8587ff56f4790950849090e0deb0d1eab591d64 0x1ce715c64c57a3dac692faaadf569bf30a5ffe368eb9fc5b27f73d12009625181a96b5d612b944a53e04757d6fbc5c58a201fa14ad2ec28c0b0099dff0bedf04f45; P0 0x1a1aeadd7358a110fbd032fdb982cf90b6020c355933f220f8ec467262220f0a84b1daebf9c94934a7df5a369e018b517edd5e508d8f8b1984c1f7730b8fa76e79f 0x186af1029af2efac6beecb637b1c2ab1c6239e71fa45a32b77349090057333cfbaa648a3d0a22c1500ef532512b0582f4dd775f7a0e410b9a1341d24b0176629038; P0 0x12a1cee7b0de2f17feedc58ea2f3c4179c5a9fcaadcc4056deb6f5d3ec1e9b17b74e073aac2aed53d939f6da0310c6b0efb6e436dc6e9270b7a710dd15b26fb364e 0x1d4a6469439b5d6cb5e988f7c20806d5961422a96dd3e2c0471a9a90cf3d298bd287e3eb8792937b8687fc585b09d586b274b02917c899f61b60f2c4b1831a428e; P1 0x506e88d145609a1d28781cc3d17e6c27e38e6fcc40660fac7d5576269d68a3ab460d194fd36b4b730f68aee5773e80c587e657bc9c53a40438301ae3f300df76d 0xcf73105285575fa2481332f5cfe67b3ff793e2e2dc40bda044ac4e851f28a5e8dd14a5cda1c8a1fd8ff4738e253a55fdfee92de5eb37f6a854ca81bfbfee7e8bb9; P0 0x540da40e8f68c2367cdea0e95252d61be33589f88d4b91b8d6ddde1bd488f1cb669b4300ff3752a4d4836089d65ed871f71278ca3e35168eb93bc8a4fa987cd8da 0x2064b42ab88d1ea20124db066814f30523542f35559ed738dedf32cdccfcc496e6426f0276d02a7c8f3dd7c78974835496042bc87a887f15f093bcbb626adb448b; P1 0x625fefbe57758d7efeab636d6560ebcfb3097507381ccd152c3d2757fb36d54d89190df883b7b72062fde367e636c93f26a932a658119e0cc4b06a76c00f3ea7c 0x93b8f615e6e3f1276ebb7c73232b7ca42aab66ebcb1dba186f8f52ff6cb7beac02a7c6c36c2aa7cea77a06342673dffa5a44190c33ed3eead02d583e645d7854e7; P0 0x2a9ef81fe999e41ddb7b1c0003f45d6849328115e367b2a1f1097d25c942dd884774f364b8ac169c85b53b9c64dff467e9a075de799c2e173810934275611598ee 0xaac5bb7b2c916d0feae281f50864d9996c91b9b14697295a67d1aadd59fb21460c1288fd13897c2ac656b5dfd4f34650248aa670528de3afcb16a6212cebce015f; P0 0x38f59adcd6087585a7a559e122831c1ae22867ec1d0d0e9ff07b31d77004c742ecf2c3011c3ceb701a08c401ac52c330f9b1b5a9e6190c039d6e1354421fbc4034 0x1b462dda84d39e33b215fa78cd28fac0f3802ec6a55877ad4f7932505e3c90905d1e3257b986641c3303e7ea394c547e0af9655c8bf8f31e65a8da62734bea22175; P1 0x45bd15dcd99be7b762cd45f7330f6f207088edd7038984b98e552d19fc0fcd2279584a57ee053f5d56c80cb5f20a00b04f9c9fecf78c8a91140f1d5381fac8575b3 0xf0ec006df644d103566ca702f96692c2861690e84fff1eba08975abd6d22366caecd418e3bec71a8c427a245d18acb13125225b7885a952841f51621bfc5df941e; P0 0x715dad2f7c3fa301a1dab1419c13c757585e0b8fb6d291301d76339ed4b604132750871a8d8231d52a53268660c69d390a3e36fcad47be04639dbb35a2af0ad5a6 0x1e9f8af910006a98965815e8b7862a921118c435c54a4deb26fc533405d8294eabe37a9de070795052c13c7edadf504808194fd3ab006a3903affa3d3a03d01892a; P0 0x1d4e4002649b88860c1a966381f54b2d829177bb03314e578443c8981eeb29f60a0dd5f53290532f4f2ad4bbc52ed2f82de3b3871d386a07c4d727749f4b5340aeb 0x1aa5ea9a6b57a6c2c595f7c9126b142eeb6c6858cc2b6a681f851cfa34163cfe9c7afd9eef5eeb1ef0cc7c516e7adff5888a101c7a3efa62b68a283b5d5150605cf; P0 0x1630f97cfed6b1f0b44204ddc44039b419e06a2c442e91712b4634b0621048cc38eefe048142c748fe84f6a23afc1501612b3160563a2c770258e79e9d9ce54620c 0x11be5767db4283b54fb93f95d3b86f70c188c64342cfe88440e0d96246a2fc0cd368caec29780971a48da667e846f1e25159e4407bc0fe9d6effe4a47680a2a1f6d; P0 0x9d6a90d39006b17b4784115e3a71ad564acb9ef154dfc32851b6668efcf8f1def774869de5f1ddfb1781e74b02e9d5386713e8ac27fe339892033d38cb2aaed636 0x1cf56ce9923834ed7b86d5d22c49198361f4244cc4c2644e444238abebd67f6cea427618914b0af4390e0be8755a3518e86b4a4fb1d300ad8ba1a5088be024e6a9f; P0 0x1a34d8e5eb209d21608680af8c83e67ef0a89e0e58ef92b49df68b40eaa21156e60b25ea1ff3c89ae0eb4e69fd2eb5864d5ec1e457facaea131cb3ffc6bf1a10e1c 0x754191ccbabc964defbcd8af53f0d90f3c9f31ba3a52cf0c2eeeee7ba6b9103451a4d9d5f5641251d96c897541ff4e0a8880df9abda73dae637854821f92ed1cdd; P0 0x1ada80083fd86235abe0638b54a4581199355e133aa6d39ca24b7cf4b24b9918fb03d937004b9d1660df79875b64228cd348ee7d662b1f91717ff13afe26ceeec8 0x18d39be9339e40648de0eb798162202dfde7495245320cdb29cd463ecff3f6d16c3ff3caac5f53ca4e41879abfbdb74a9412a57466979ad1c275c09fd0eaf420591; P1 0x39c8a39289379d2743732dec7f4f24d0bf1db22443f95a64081f41fa7d9a00ab2980bd18102651d8d8169a1a217314093b442b5d4b71c6c14384c300ad1e178e418 0x70a6ecce347b4ae94550b2c7a9777f6911167452bde37eafa51ced828e641529d2ce95e2e0c806b2c4cd2738133e360315bf03c24b63cbbc708763aa4f3821d87b; P1 0x4a5bba1296972c73a1b6372e1b6fe7938f4126fc0b38d5cfcb256b24a9f9e5369df69094544447843b24913c4da5388b25fc59fb9c3e3da97d2707126d9e67494e 0x15272e4df672db4065ec5ee33338510ba39c6226b0e19a81253535c5cc93edcbcf5f8015a9d0f51cc0bf4b2e5e66ada97f1e2d04db63f7d270c908e73b9a2b8aa99; P1 0x29f2d63e5d810ea3d39b7ca5267ce8085f03dbaa0679a71191ff1c9e7a7c84d1596a6c848f85663bb05fceec2e3a3b90362946d19988e41fa7cdfe61d8dd5f0464f 0x816c6998d4db47d105e4bef56551a31a9343cba0866c4dd890ede8e89eb0b1dc41d61e42c1d421b533e5c56a913dcc833100be40791c518a4c83e8ea51cacef4a2; P0 0x20b7382aa583a89f4b4c15a39c7d30ae2c66a3ab148f1a3c48df94ab5e41ed158c0eeec5a82f2794150a9f90fffe5fbbfa5fac386bcb33f83421514540b0ed6a4e 0x10a6cd8b58f4521c0a299e47ca71bd81ba995f90d4a8f9e93fd16da424a9ba9ae045a362a053b7efd13a3e6d80d0ae3a1a6911b98fad4a0e6c1a1cb7d22f76aa0d2; P1 0x19fe990f14d8f26820c0129c0cf5faced4a175061d62e3e2fc5bfb4e811b1542aeda625b40af4279ce028a3d2a1b1359750947854bd09263e0d9479104b9f3dcfd5 0x1658f2247ac4de51482fc3940747a1c533de777483e2f03032e9afbc7091d63892e099c08d91f0d75690e4692365549c3119755ab7a8d60bf5181193fe00c0b54a1; P0 0xf9b442d19b9d6ee36d228a9446a98060f0870d422d9d55087b36312a025b19ba28ecc2305d002e9b363397861e2fc854842f26c14b0eb06612d1e646754a786fbe 0xd5141bcb15332af2ce72c6dfecdaf06e1a2c6d691874f543c3ea05a4899e25ec8aebd47306d21674ca6baf88638ebdc2c8439f3715beba01784364aea4c4487cff; P1 0x10a07b3be720a638f442b0727f36472add047daa2b5247e40eb6bf835b8788c00cc696ca1e4eeb07365c73788faaa36e0a9866e259d365174be8188711051e35435 0x126956ca78df8bcc59a9bf39cfedd60f5335c0ff051ca0aa43b5fba3bd95dc7e18d54151e64bb3a01aac29dce152b3e8432fc5976cadc9608b7bd0e0cff5f4b6638; P0 0xa97dc66441a0314b02d6917cb8c3d1325714e8673041c1e37aa251c8c881f8f65b711e6075bbea5b3e05e1a42b1fa61619d279cb06308f6ec13656f75463673167 0x176b4486944cb4371894acf5d9d4c28daadceb96c49e01b8a4775f29288d5c3295b91fb606babac69c8a4e2ecc38d8618ffe8344a77adabc3ad21bae6f70107dda7; P1 0x336ace3ce3c490d53a1f62f054809e526ca98285fab580c24c1727dec26d506d7c1a411f83a1afdaa77a7ce70fe3857e49a65ae146968fdcc9a67b706895bb43ac6 0xc0f752036ac1f7ff75e752b0a489eb719a9ec46146e7a962c000c376cf3b91a2d2476cad10ef9b73dac2c1f26c9a5dcd3052727aad5beca5fd341f9b3ae2d78399; P1 0xda2ddeeebb81ba1987a1c26a5db5acd896c8f96b85e32764cf946226568239ac1b61cd73bd0107e32b3a923e64b4eec2fdfbfeb1920c35fac7d1fadfa17ffee378 0x78d77be8ef4a8c782257a7df966bbf49719f60f0440c4503b8e993370f4ebcdf468c542bcaecf2149b08f85d59870ed6084a00e3fb74f68bb38b3142f6d7eab7cb; P1 0x559016519c5a3b3331a34706d521e8436d448aa2055f7c0b5402dd4d89970b736320889d329e7d4b0850fa22ef27edcb73ffd64f29f487c2a064eb2674706030ec 0x13036a468944ee164b27802e245f9dd1991cd731ea7218dbd7b8bb2155b11c7137bd640470c7ee4782fa5c5b7370d409878929349f453e16ca2e9fb20a2e78fc1d7; P0 0xb4c0e91112f808aa1291e26ff88270e8a0b441d04de53c9acebf0eb087d2f7f1a77169f877de384059f5bca1736fc6482fe54060217cc49bf790c6387d3490c3ac 0xc99bd27460614d14912603ab694955dd906c162129214de1075c664eb8aeaeb27113e0270246ae20c40dd4d5ac50f6583d007c9bad8d503c60de3c0d255788a63d; P0 0x4f6307a9a2a451f260e116ae39838b1f6bdd3fa21445c9386b6ce50dbb0135af86cf3d17cd9590c78eced9f30b3d01fc84ccd06cf9ddab136102ae151a8ee6e9cb 0x6b3248ee4fd03fcfb6b5f336f24bafe19855808b979641e81977ebf07654a6f031323971b78435c51919ac1760d47f87468dc9c7df983331d707967eab11aa1454; P1 0x43549c43ace144254dcbb940730137ef157966357d15995dd7a9642bf96148930126332121877a8cdf89faad8833cb011bc6ad98647324358ca58935f1f4b8e746 0x1b12d0e50fb5c4124c462d43f45576bc582341598df13640339a26981b3f5eba447b8184a43281d37d182756f6f91fa9987a20c1fa67445a535f82ed5b0704099f6; P0 0x16e7cb92dfdc9b3f4b76d111797f32956c6ffbfb1443c2f7d757e3935266a468d3fdbe237e1a5070371dae91820fc6b86797351dd5ea6bc90ddc1002690216462cd 0x1dc5ffe9fcc5f63e099c6592dc421ac0bebdedfdd605b1a767aeaa0a59a9ec12a41993f8bee25c3f6046c33b1e9e6c8f10c9dbedd19add402a3bfa7cbd4b8fc5b31; P0 0x1bb3a8f709beef3c21431d4db1db60e153d1d5003b2625f0095ee8562e0af8c34b545d1b6348021638fe0b0b0288ca65e4609d9ac548dbde50b644b707b816d90ac 0xe662c952c3055f8ee44b6efb78c6c5e24eab98f7548f84b089a69cba1db6cde2c2918eb6c3d6f2ce4181a54dfe0319162b0023f08518bc0e69c7beb7d9a61700d; P1 0x137007bcf342d0d3acf86ae5925cc3d98b63fb1c5552856bc861c245d35f47dc53bcde51e47cdb196e2786e69933768fcb290e3f953155034c5413cfda74a9981 0x18cddc1ae871ab5ef34ef1425c9adcbb38cd5ad774bf13de02034e04b77155d2226a44f2ffc2cd837bdf32a644a4d4f94c55d775535f54aa0a5ea53cc4e3fabb7c; P1 0x39ade36f1e1c4c882910e5528d36aeeddf0ffc40be3deb0999cc8291434e6d1589f7e54326c298530f33eda8d3b5f6353247604c9f084a42751efcd228a7652e9 0x1249730b5207cfce19d2294131f28680aea2eebbbb70fadf5c3c89cf928e899d48c656428e3aa4504d5c77311d9a2a50050f43de36d895f54c7cbff48f468f17f19; P1 0x1f59de09b8994d1003e77e62ebd8ff8ac1d7e4029089792c8f893e47d35d2946457514e68f54f1be1902e57f199aa3412149669ab1be63ee45fe00e3551052481dc 0x117805d3eb0495eb3da432db5edf53ee150666e691fdbfb21e56bedc4e63d849be25b721e19c6fd6463b8e68629ddb147dc606e7e2830e446209a108d8799a7f32f; P1 0x1c9bd916a075a39d6d8014da1da1b64afed62256d64e183520208ca8f56b8a60ff0fcde7373a0897f6ef2fdedc998ea2d1e810d924767c572b445eb8baa0d373cb1 0x13d7e9acd141816ecbc77d6860129ab4bfac60d5bc2e4a438a9d3677a30cc13007757224abcc05834b5295a6609684e767e212c53e000cb7f06346dcf822340494; P0 0xc4e164fe519f687983c3cf7f2e5a5f4849474f3bc901ab06171b28a96aa5384c132615d57be7233e733b893e5e682c114c99c35fec143b7e55a9a39d547948f8 0x1282db2056c1a805e52fbf04b78aa8ee657ff09d4ffaea9f218d1177a0f8010e742d3d4dea58a86282e0894e6a0058b65b23433ec9c5aeac446ffd2be2680ae3e88; P0 0xab54d9ea4dd86a4ec1212b32418f886a239aab7a0ce91b04ad4b7e5b81b7abdd09726eff7a98984ddc8b4ea5c37ff82f864ea83d9c749b5fa47a808e6d226e32bb 0xde3f0f72e74d9ea836443fa2daff89f9ae89a66780787c387c245648ca8d0ade213011c117592916be292e1d3a3a83e60adb6d6c44cd093d431adbb3ee32945afb; P0 0x6078b729f2539106dfcfa1ff3fd65098d2178d8303bc78cceb0d6463d4b6563135981d933ff76e838b92c6628570cca1c5426c4e30c2b885b19c76d0446766f742 0x1a3246c75abe593592d0780b26c59b7bd68cafe4cfd101fce6a2c7775d9858d9ae075154381eea2d6087fe744820f0f069a2310a3900da967bfcefb467bc5f4695b; P0 0x15720201befdeac03d109d3cfe9683aab001eba81e07ad7d947e0023ceda110684ec0a10ddc03fd1cc19c95efc81c803a599c685036a83738153644012b4382e075 0x1d91ecd62d3bcee331b7584e93326f25bbb9aebc5c3f0c3d9b8ac5b6445f87b57377cf3db6e86a93b1d0255ec11dc8471b5f1730a0b8c8d1acdbe43161c5256a6ce; P0 0x1b5316b55fd309ae2085bf4f18d3e2312b53b687ddedc9b6e2ec0d239c9adb2dc696dcd5e6fb28e834d4f6ab4b4d6b19c86e479256d87f5142e16b4b7ab56bfa078 0x16dd39e91271ffaf6e9537eaa67dfc131d64d4637503b9d764c5cd9225ed379f6e783a9e7c9e9c58859ad70c66326dfaafb09fdd82ae7eac5830a43cebcdd76e3c; P0 0x10562908c5787977a4d2d4681097b1ed7b05155e9e9947ff033085a028384169b425ba3e9fc1113650b7beb1d338e1e50160efb95e5894a991af4e9c61262e1db 0x183a01fc7e0e432e2f0819931b43362b557d2d573465ae23518c928830264d122eaf295f8465af7baf7a098aa278f60b2a337aac15d82a59ae5628827c482a27feb; P0 0x12576c21f07de89d035bf575a7263b9d3234054aea5f5b4a2b8b453bbf90b3b86efd29f1a70149ebdb2632d0b2ab880bf781a013d2b803a1ee60f572b9410d18870 0x1a6e574f628801cc81624ba6addf6bc5833f7c58f87744e2ff91cd023e4fe40d47d82be24a4c14b7abc0331f30dad11093efc680ce704c46291b37e167ce2288a29; P0 0x15d4ca5a301ad6abe8ed6d102805fd7903329e7d48bda690868f6c9c5fcc76c23462f15eea2e10da66988eb875263afc2bdef771966640a788977bc0fc109619a81 0xff433327e1f723648afe36f77b2b7a7ee495c0b70af24902475ce6d2076122aaca4fe607cd08a5c44bd96e3e381186163e8d1681f53fb363e3a4e88dd4e4c1d512; P1 0x17dca6a53e7e54f2ce29398123c433ee9e18b79007dc920fc6441782f0f4df81b6c37b1f1e658a6f3047c563feb57ced1b5ba465ba3cccf72f0308b7abf49f17cad 0xda0ee065a08608ff66c2f24ea94c7736adff9aa18369ebd9744b47d722a751b61e9c50f824c3214ca035985b816d431f0944c11b2d869858c388e52b105d625c79; P1 0x1169c028f97cdc2dddfabb12e146abae77006be47efa984c305cbc2c3adaa97841f0cdc473a5f636f621fd063c91162a0581ae3df445804a9e28792c23f7951e535 0x1507f995a4f2c447da6cf2df351ec984d296f589a02352bff9e7ee108e126ae4ed5018ca07f3c1275b625324c7f85ff7696f5df03d3d69318d315473890017378c8; P1 0x29776cb39dcf1be4eb40914c49b4e8d1fa40a90d97843698f99cdf0c9afdc2b7ef9f570cb89ace5aba10190da0905a1218d867e1e322df90916cc612a6fb412152f 0x47d0b4fc776749184f71c52601ea7c801d37ce77e2fcab068e2edce2ee80a2b810bbe42fe506f459471ef4e8bacf4cab2ffe18a723b5dc0aacad759e859a1669ef; P1 0x1e3825cff6a9fcea341839288483011c1fdaf41fbb16b8fda3547ad8075992ab0e273f6a1bdbf838fe2df6647d219411d92d6e2f4f16479bc6724f61fe94458abe 0xdf8ac6649af1f009a7fd7c19c44282fd0bacc28c24e364db312336054af5d25e361fcbb7c9867fffb594841e19ab80e61a095709e62b6da6036a15913e5b035221; P1 0x124cc994ca63c7e5eeac6c283389a7b5435b0eab6fbc4d2495abe2892c6807a58dc94e6fdc4965bea381be4a484dd7511fe4e25ec7c5a2a95744d4d49ff71282428 0x11f86b62b4bac27c20c6ab858476cd9c6a5f5c4424894f78c6dbce1c8b288c7daa2744e822c99ad813f6d238330690f6de0d42be2671c40e250a08cdd3ee8859ceb; P1 0x1e466fd046ff1386f0293d173fb1a4da166ecf4dec7b53a8bb94881b45d37e3bdb03232a6f0cff5e2f518e699037fe49f6cb3af9a6b2bcfb0cd326de3028898ac6e 0x40342015d82622ec4b56e24aec04cb9517de058b06650b1622662b9c9ca42cf44a85c0ccd44d28f8b2f69b5f011014fa1b0f4cd8ea9603b70dc40e78f19db06b99; P1 0x182727fbf574854890bad7fce8fc1b3948c609e98f68ddfa869bd0b608ff8eb04d1f0fe4ccd0d0aafe9e7f11f6e0a052f3b7004196c2c89424bcd7310d79668b7c 0x16e4c3ad70054f138f1fca97395c00c991bc522215e23db6fde5a40f7a75d3bf64d83b5a331091e2841ca7b957ee0d100979ec1e35f37ddfa8be78edbecd6324fcf; P1 0x3122d166aa331cf592695d70ae0ff3038442ca40b0a35a9b62a27ff143feee79e907521202a043fa8257fc38f297abc790c70e8db2506a9eb25bbcccde1adc45598 0x15cd18acd8321040c8a2e3093fb879c592b34622c462269361dfbf11e4f0be05328acfaec93e073eb7f62fe094ae380f4ded1fc200411747cd2c4f32cdbafc91bb; P1 0x2c8ef8b5400fe1fe85bd8046d70cf0adc233b37de24a37b67fe984ac1f7a319c8c52a52244e4503977b4ccaad510e52d018525508018f5a4e4113efed362a4ab8 0x14a0758fe6b1c6b40e784e9106cba498866fd8111c999ad563f599ce71c5f20462c50f1af044832ea182728fd19bd2e2e9faea492b77e626dd5eb593b401b826683; P1 0x27e326a78dd7e89d43012505eabc8997fdc83b08ce19609eb609bf0ccdb1c6ed5d4720eef9fb7dc4d23f93ddbc6f5e205bbc59bd427a4ef488e12c2aa3b46298abc 0xa96532c0e197a51e37207bbc541e696ef779f0bfa28d8baf03752806b0b3345433c29553c70f25d45974eea7216161f7ba0b9e723a4513255b0c3de0defe737fd7; P1 0xa8222785a02a34aae015abe679a8b0826d31ce696a2bae1e15f5947ddca3bd858f1323832daf19ec1e6b930ccf61d212873529d6c52726cdc744bb4d35a6936072 0xc4b1d38f8da014bbc2d566fcf581de408eff4c51dcc2be2ddc0de1f844ff14ae414bd8f7619267fd67c9a10bc3d1336a6e1372bb96290d2c03c8f76941e3967425; P1 0xe2b12b37124f609a6304e501ef5d555a3db62933f71c8a6a025a2891da55d34edd8012b218ff588aedba5931d368501eca83d21a2de61add15489603bc1537c32f 0x66c3485eb70fd27bbbe63a78cf2ed4e590ed43d3b279f3385271f06f219653ce09874f442c958aa3fff09c3559a7844f458aa65c3b3d14e0d6ecc814bdf606b3a; P1 0x3de04bf435f15bc5a8bb45b21ff5615dba36aceeeaf190026218d0859adbdb25bfa7e1bb145472ca22dae507dc10b150576d2da0957b9180d6b7b8ea08993355 0x1860c88cd6b8a429a77db43bd4234b46b9e973a1c2839266b3ce12a2168c62c54a47c91ecd313f5485696c510affd3f02b92e587dc80d8f87728070ee3cf5d5cec1; P1 0x37b6f4a2680095e7bcc90740d62fd56355a748f8735309666681b063a6e2096f9e26daf8cf9be252b04e09809ad1a5b9616334005951867f83e2ba21671341e5a5c 0x10e091d6d7d494c6f80a6057c7a89a1b2fc75766e76626c9a1e98a836f432b76d987dfba03afe7fed04d527c6477610c3e5bf567cbd0b5c024504723ac68e8de2df; P1 0x1ab42d7990e091e65aa6364768ad88d46cb3bc1ed469e793a673331364f9dc5646de3f8ff35fb03af64b21a85d5c64c702727bc132396710081712352f451c47a03 0x465d1f09d44179d3280c48c926c87be989567ce8bc3e7e72f92b0e6f861d27e2f69ee02a7062e4881859fdc292d989adf603aec39945be414dddf46cc995e1f4c6; P1 0x1d02964569791bf7b01f0bb13f126fabb2e41d2d5a973e3f31f676ee1154b330682c57a11f88f05d98819c8c03be2a172d81a0d27edc3c33fb38952d56952075ff 0x7629f85fb8ad854cd6ec82aef4e83dbf28944921f0c6deb0987a1572edff29e0cf700fb4d2c4408a4132a233d6d32c4eea6e478e4e9c7b3af2aa33e5369362916b; P1 0x51d013c69cd4141b7989df5d3025de5ae4b89b1d3b1da871a2d2bb9b041fcbaed01ab90d4e1f24258775cdc0491a799ff95cc6003bfd8d66047f392a9065a8868b 0x2552b21950c65e94283da57210f369f713c8152e9606adbab159b926f299f937290db0388ccd76d669a816f95b0e57c720409c606932ea9a1334ea8ada053baeb6; P1 0x829834ad83473e03973068e600a1bb73a914e909d3a727431654fe3bb807ab742debca409aee2e91779a35eef984fd76d8d5ed68eb2f7a032a865a9106e623ed3 0xab35a88a04aa3270c0870819bb9b9fd4b743d589e48749cb0a14227c7081f5957a893c2c6cd0012b5c582881bd192f0cdec10c0c5c04511b726ce5232fbfc1faff; P1 0xabc1179b67821d95e4825c929fce609951ed0322e52dedd31b9ec61d25dec15c2ac7f413ee3693a4d43a5c769220afcac3644c6f694e5ee8b26dc36440f546eb16 0x7f236469dbab6ef31eb183530750d8704985e04b50f3561e24723743babbcb679c72cab849163781ea9a3d0fe5548e630544f63a5197c5648214e225b5bb060919; P1 0x5eb633c8766d8c86231a5852485a09aaa10d9331ddb6525acaf47d0939e45dde86d2a7fd155f73d0e1d1a5a9ecc14bdebbeae7f8d9c5aa1b0862dffff9af880dc1 0xb2b83e20299d398498c7377ce38d9991c5f5fa33189745ea3c81c4b4fef697f8b1d5f2336038bbf5c8c29786fc2fa9ed106c61496d3bbdfea584afba548a045b14; P1 0xbb27187d22c5154a7d7e7f824cb8db15730929a89f0b155ccaf7310630bdcbb908aa8a5e52ec087045927c9b791a5d8fa60ea57b65ab99b1466fa187836bcbff12 0x1f620338338868f3ab0d07c57474bb2e650f106bf3379430c557fcbf7b8eb85ad89937206d91f27b34977dfddb1ecfba0bb218ab0a0d1d565ad74821db106e1abc2; P1 0x5c553751d53491ab9bf11768402eb81e37cc2f53b78f80a05963eabc5a926076e7155555a3156ff36d7cba2993594e0898027a49313f3fcc35e28da06f1ddd41d24 0xdb23caa7a515ae372f3b34ded3193a88d7f7a7bc638c2678984b7ed3918a73716c1d211f1e9a77f39e9f4959e0cd652c21d846adb79a7fb075db6c7ab340965a30; P1 0x119616299ce12d7769a5d5463e6ecf74ea2600135891345a4012101f2edf577625c9d99f0efd2a884032fcf3c64d0ef2bc41567402c98edd16b25817151ebe81f42 0x1e0b553933386e399ee3c245250b54ca28142b96ae30a367e53a1e6b75d342b5ca4804339e94ecc4cf701916730bd6418824b35d8c4f3cc5dc1e08b9ee35bf97a42; P1 0x549fcb6c2effe377325dff3678c2533a72e239572b42d3aedd4e2258c08253d11bbb205980b9d2be74acf51b1dd861efdefc339334e7ad26921cea660958bd621ce 0x159f1aef1245e4afc0ea116f32a088a37448160beea951acd6695d61a5a38080f4c2819a3bf928ba7705404a2653866684b0dd1bf2228c4fea52ad52bd77c2b0cda; P1 0x2bd3bf4893465f85757f65029c635fd75b078296231e2c00490a81f4f94ea8c6b4098ae86b5ef77144809bfcb32f062b86152ef286fa80053035b476b2100acf102 0xc9e65468f3e36e723fb2f0e5dbc0bd6211b5ac9f8e1e6d35ebcfb21521063bc8fba54902c20e9e860a75171ce564d4b8f989ca52279aec58e8e42314b686506dee; P1 0xeed93face319a0c5466794436c2abda33cf7e91121d06bcccb37177fbb969dddc81aeeed10d92edeb04eba72c7035988c258f77549e3fdd43261213cf0f3f7c506 0x10014bc72c7f83901228edfd34cfe28d81d64dd53c405d3c5e3a2279bb740eb9d601a97898abdd8d75efebc15290e6a562f24f2d1890fd811bd4629d3717d560d2; P1 0x1803e37dd52e4b6f1b1712692b06af14c572ecdb0d0ca3aec967c3c83f5287212b22499af6da97e1b7e51e3d59954f685890af956756ce00a8d2aa9934f793983 0x164ac92d46b8d15cf13dc8cee5a696174eb877de69065a6fa08a069822190e0447d5d8541930c29fa5b7e2fbdf07f85c1ca2578e38b8507e561497e500749afbe4f; P1 0x2e968a30ea32bd7c2b5d97be956869d1dd505edf45e4e8d4aae74dc5239f58ee7283a54345f781539eed5ef91c64caa6798c37fb0d28ae1888f6b83230d747a7970 0x1bc12ac251cbd5bf3183c09e43880a71fede0406605c11e304f7503cc37e433174937b41ec78a10e769eb6d629da71f4641b39acc33e374278b7219958fd6ec8e93; P1 0x4837929bc1700285de7a74fa72f0213e08b0cad8670c8aba938bf66af35737482cb100f15bc243cfefb675dec9ce0bcd39f4b58d578416e9abcd1bf26823b3d8261 0x1356f1008ad7d1c42c959b6e0f66324f0079ed893eea82e8d6e68955426fceda531bf51c9fde63cf91b4d1ad5b4d2d78e83238417325abbb232abed640f128bbb9c; P1 0x23107f355c903560c035e72f1823cad62f808c2af9def7a4e4bc1db6c1792f9207beb713d7bd1fd5091fcd58186a76221dd4301a7645ef743fabca6967a9f21cad7 0x19ec6c78c32cedcff4c56390bbb18442a849b7e1d818deacfc3023e880e480e750319c5205e15bcbf26bb5ea6778bba818a3bb6c4d2087e4eff1a0c03483dd1a007; P1 0x3f00b4ba41b1e65d3349b90ebcc9e47d99d9a9cf21654e62c643ef77cbef2e461cbb0d22c1f43f6548d35b29015a9b19bac9ff5d1bdaf071c735344db18f2957c17 0x135bb8e50277c26cb755a39f414a1522872f3dcff9f9b2f110b713c58ba8fb3799270381f571a3092e46d146220814073a80d5e7bb53533c443d5041aa702f9bcaa; P1 0x2321d7672134c9ee567e36aa564b62d953b18f3d426900e2b9e73f645f8dd10e3e223d70d7fa52d9ff6e11e620e3121888141069cb2f797c28c555cae0f40343f57 0x190b71163fccc6e5dde14d85bc21e17219975778b5de46974f18aa27d1f0013ee1677ee131f401def8751df1668b82b4f1d04d35debd679057185db472ce16ea203; P1 0x3acdae5e37e310db1a9ec61d43b994dc10b207eb8730200c427201fdc2436e13bd194e4004ea583afd6caa3a724f7a381fa3b8f5bb4d848e818ae06c29223702923 0x13f281677a46288d827b896f6be6e99f591722863b9e48e4d98af1b3d64d744ad4ebefcf199b2a003f9c92f7d927b768c7179e4ed2fd13a13a882a7cd74d8c38d3e; P1 0x254d76567cc8e9400f4d5d26f2730cdc59a333912dec4628d84a15dd61c3770c9582f9c9b013cb5626117f24b53ab049120c7742cf73c7f93ee3e6d1cc85027b3ed 0x1a5d016b93d41b4a5c6f7d4e29b53782f0dc5d8e802b7acdc8676c9db3b05495f3aa9a5e704984f4581cfb66c03cab4519ffa44b8aa6229d490600bc839f4bc4f9; P1 0x412891dd34bc3053f88b7a1817f90656666746c16593fd942f69e00ef2528bced4b82206da51a914196100641d80dfe52768e5a8fec48f9d4a86cd73e2781de89 0x1c2a2c138b5c751426f9ebf1c2f2305cd5c15fda5d514f795b98eff573f8b17c38935510c8ab374ffdd7dff3e5dd61be90272f5d48523ffa278c856630f15de8d1c; P1 0x4a5e0e226bb0404e275f2cf5dcbdf0491de79682860eedc46fb7cef0a7c6046d0ee6aaf59865b31782fef7aafc360dbc84b26712ccfbab8d9df84427e9c948eb80d 0x956608f4c696ff3d1335e5fe15d70d0770dcc2e2a26079bd06b3530564022de0a08971a664b4579d2efd5d8540a1aeb56be79a973161ad561049f5e0537b96493d; P1 0x82c7e6a41bcf59d7a25081476b2cfc095260f566a12a815499de44719fb6ee90ba5062431fe3a1c2b923be879ef8406b9353b7a60841d07b7cb5b0e39423c4080b 0x1431d995810c5f925cba7575057034622e1e47deb46f0aff67c8d4d6297f0d34f369f3d79d906abaa769a276c31664b61e4ad9b40a16baa4b24bdcee40db71391a6; P1 0x263bd8e907e32a2dbff3a56da03f066c52829868064bb02d44e7668644e7236301eb6cd8b66b43d97cb57e204fdd82a17f12648a49f46d7a489a711f9b4804171a1 0x91296892e6f0222f96b1b02b04e6540626511e542e1e2daf56f22b79508412d0bce998c5b49b42aa88ead061a5f72218bc0b0bb570f7723ac713965d7750c5d88d; P1 0x7b77e6bd9d12875e4af060d1919256e727dc5350a329dd4e4ebb876bdb945e0dcf49ae8b92b12adf7f3575a92c71885f3734f2759866ba6eaea4dcf7f279dba439 0x2e96244e2f2c9eb2b1c35f70d6b39cf3616a4d2b7e8eb1a65cd3a0e30ebf4b56795b15b1f38a7d9117d929d29c480a7115f28d54d70e69e73090d707f1da6c5d34; P1 0xcb773a7fe9619b348b65c48548cee98be8ff19b3d60abb9e66665f02c60047c1e5f631b726dc0ac1d0f8a1f3414f82234defebadc5ba5b7de5ac35e17ea73c93f 0xbc1b39acf43cee8bc2d92468b1b49015ddcc9992d8334a48596214a9b9773bf07a538d54f27adf1c8d6fd9785db80b66e0d00209767ec3d64839428fa1ebe040ef; P1 0xcf53ff68dd4d3b3dbf2d879f9e777df9e7354179df53866c5398954c3be423a6bdff4cbadfd21c5062e6df11d22785d8648c6b20f8330f61f0c2e919033dbbf990 0xa84cfeb770f244557bdcf638155c705c06cca43aee7e0bcdc26b4b65868ee64652a34538a987ba03bd9744f9fa42d688779b460abb04d30ab1b47397d6b3e516f3; P1 0xa5f7b8357de659aa49afa524221b8ab56350caab60d65d0a04a078aeb3ced9c30fd30d67925c8df906c474aa2a66acc636a60fb382702bf1cee20fd305bd4564fa 0x1f48c35df8298c46c565787c8e8a1f8987e9c4faea38e45e9835305a859120e119e9fd8d189b765073682581a14f89cd8946784d599c56c67066c836d1f65ab64f5; P1 0x5bc0dfeda14ead8611ace63f1c75a96ba5755ce0e5fa4e3ddd3fa2ac051903e5615799f9c386ad3c5927752a3c3903e304d2716179eaaaa3af69896736b2497c3c9 0x1fccd248bf43f94673fcf6e72f71414138fa75180a5b35caf80d026873cb9bd9e6cf45b313073b4b29ca4313bdea5ef0b35667684a389ef207bec63c4a92ff2bb34; P1 0x5ecde34267e15c203b7a357f7fc490f59448449cca07330ec25baf9943d98a30e31492a1b0153d645caa66a27d57e6bef285081665e1632c6fb0d9e37e81e0f1252 0x131d30ebe510db332898b38bffb0d8f8bc1f096f3ee02cd4aa8771338a546765b858e5b7466134986409c927bc45f25a4db32698deadca3d3451e9fac8acbae1a02; P1 0x22404e2b431906fe497f8805f19bac3cd9d848c8bb66564c3af3b1f218424b6764b22f60df605b78985614052fb745ebab889c00e4e696ed4e3e187f964ddb974b4 0xb04891acd6df22dc99c03c39f155b91ee455104444dc9ba5b31556556809816c370dd6460e502be58f74a47faa90e57d545469fe516690a00cbb18e2d079ceacc0; P1 0xb615cb4fe1596453b7c40d7bbba52cd13c1ac0e5602a02a33dc824433400da708c498a36fc921a359e3093b17078512d13e2c17a1e0438c910bcee6fabc9bdf318 0x18ec9a6235c0bfedecd09045867783a8ef76d2c8d535ffa1d1b3d4ee0d2613a9421592a41605d6a3e90613db86ae98cc700c9749e0fc27f6f8a160aa23b675a318; P1 0x3a3d36f226254935f4776e65f3e5db2dd24a8b36e0679c84bc634840c8053f3508f9d79464c9d8229e09a82be0c04d3f6b0b1d64bfc1a63b97ca03391797268b9 0x2c862d0fcc9ae548283e3fec246624fbe7ef84717ac1a8582e478c30ea90d0b501ee4c1bc579a15b335d3373352995a0eecc93be2e82398743eb160b1f4cf91f79; P1 0xb9d98b8f434ffd15b7d7e5386b14ad5295ad858948892975a3bd26a555dbd19f60707cf975dbea4ef1dd7201442bca0924b169132a7222f893e428e42836323a7 0x1543f428face87c2ed12fa71f3faab255658e00b619cb3c7355b46e71c5aeba572156278b819bbfd49699d105ff178af60c488024029f1b62ab57333586c324b93a; P1 0x2a65424a732f68f1df8dc754ea3243567fce194d8278d373cd02749f95209247df95bdb64e5125936df061bfe4f64ef338b0a9e1d862caa3653eced36d567f5f6ee 0xc1907a1d39dfd2f730cd4b966aa65973ca081a49dd8eb0f9bcdec3aa03c7d9663298414b02bafee59555db1ca60d6e39c34067abefe08f2797d3efe35656f49a5a; P1 0xdb88be7e8296b19852d0eda0cb3b53bbf1476b1aae16653f82c61a1d20c1783d59ba5f6d900ccd94ac8e7b220a6953e4997834e349373318ef73047e5035d2153b 0x1d590094d4e50fe0e74815a535c8535145f4ef0faf2fa4a68b800b799c76c1a91d8a8aa6251c3a18afcb27c049dbf1c6d7619493d3e24e70aea1dfe33f967b34c27; P1 0x50bed9caf9465174504887db639a8095667556a64d6367087c85f3bb81d1610f6a727f8697a924656c4ca07e04c84b51ffbb727afdb4fd80bfd45c487a092b22f30 0xce75b88ff914f0d9dfaf47329b1f51b7558b0bc7da9db67c5919d676c513a477e9786785d82b1abaa601678e47a21e315fd3f5103a510e01ea1f5adfcb7845b903; P1 0xf9c280bee449fbadabaad7fe19c67694e53496985418fdb086b495e78151c8fb9467ce8320f91b9e2a28d9d2d9be656ec531da2c51d5ddb8a3650beba3973ebbc9 0x17a08487dae321dabec7123ae1154f8e689a9ca19572ec69340afd83bd2a3842db62438e3d9b0a1046bab1e63002d369233e37c2c9baf132a5a23982b39cb38bde4; P1 0x3455ab183a434bba9ffba1c3730f200b681a567b4d35955901c13bb8b033c94a88ba5be2a4101a518a72d7e3a97b2510ba7cc9cc6cf9b7212e7e08ca171a78f4b18 0xdc5ce7aa9e8abdcb20f421dd3434438532f1f349131cb27b083f7735f13d356e761b63ee31a62e203de187358e902e6c34b4d5ebf95614fbb4f5f3353b515ea448; P1 0x11c87b7d6df28a8a44f693d972fadf4aea65e63a5b8101f7f2e9d781d43cb0cd650d0f1327992a5a377ce9084510b032989d102127b4217d1cf4b750d168e1ed82e 0x14d67f47ee333222e5d2c03f0a00e7d1f0661422cbd0c97291727f28eb05e371359b3e831e7a1721ef3e5cab0a068c90b17757c0dec57d42a37c00cbd7e6903d4ee; P1 0x28b536a6d2407f7180d3fd99f7ab3e238464169509e56e7d94869f54de2f2ebdaa416f068ee44cdc89a0ef549572edaf932f8cfa10a66140c6c4ce44c31eca482bc 0x17f2eb119b6eb85775b55651f1cc310bf4061923733add98323cec8741b5805a297a454d695c9cb277b271b95410c12b8e491fb8fa49e1946ecc997cd37acb1aa88; P1 0x35c531da699a28b490829c6fd107faec27189b91da04855d15266b14d3b0fe2d58f345396f219e38b30270497a4b29214f43cb06c9cd0893b4f1543c2ad84f37152 0x461772197b75bbc05475a7541728887d8d747ce358cc92f70480f05652a085fea7b92bc31f270a09178d608e5fa8ae47e543ea750c8ad465c1e670af5989ee2a12; P1 0x1cc93ed1746ce97cadbfbdfef5a90fcb5ef979b09a9508d3e694053b4fc3da896109ad46789d42c0dded95ec3bba110a2132cddcc216284068980cfb6f57c4d264 0x16341ed245113effdbe8e5e9ea970084633f8bcf3e1ead1e40af02864cb5c71daf744f940b5d43a73abb280aea1e0f478981fdded96965b37a7d98e4c7e4ea8e30; P1 0x2e37fdd038178187f267dd8800b72efc3b5f748b4d1629ed33ef36eb0f689ace8f04054199b7bd33a36ab740e00e92919c20b29ff58574516183dfac62345b884 0x19e3b9166240ea8cebed7819fdb6a9817291b286446ee6c40ab00ecb6815975e3fb4cabea30e97ece7053981235237af16177cdf96bb34fea07bf21932f5f719384; P1 0x3ed6714340e6d5983cacec3c40e4ba9b470edd68c62364d667a3de900538e101e83332fb7278484b16f87216c977a9b07c2b8c1eae3cc1e6ca45919b291810ecdfd 0x1dc950d12f4d0f4a30474db96d8365085b89df81693ea8cef929eefd8f3258cf8c93ca80cfa2e0f5da4c56d447bf87e276141a6b86729f521a3354b739817a9622d; P1 0x532d7ef1a12b772df56078c59655089f11e2ac556c02fdf9140b51d67b453505b748892a13c0758db3effccd66fe1017ccb4385ed4c872a15e15a1f0d116a85fd1c 0xce6f6343b0438732390935b406754fc73b2e372d97a24c4971cf13260f737947c8c4bb6d5c3f56217c4908746680c9da945fe7da8ca5ebf258afd3b685fbb770d7; P1 0xf9b32e54404b6e8d0cee38c9917769086ec54720544c130401eafda63842befdf6d6dfb2c7ed2108f766ea8a105318a0726c8e2f724008cf46f3e0a956d611a8b5 0x1834af01fde7acf3db9452a463ae7572c54f651cf6b7c201992fd02b871c74d842d7a9e279c0fa557771a8c5533f09bd1bf949e8f9584008ccddac933b1336e2668; P1 0x36ee17be815778c0b804210b7d8f441c057bd53fd7f1e3698a8ec3af8be6cff954eaf1c2e42cc3826084e4ee64dcf687e41ec53d5250022c695e9b0e9991df55fe7 0x77781f469bdd06f7157ced13e925a22cc89dc204068a7571c71a373aa25999673aab9aa152380920f63beb4c245e20ae8a7938f7d15043e2dc5b7bc520835e7ea7; P1 0x53a158297861ad5e119cffae82f56482168fd1e0de087253e939a5d33781d479bc2a28864e846da69bfe3710bb96646ed5066847ce9a44432c9a56668b2c73abee 0xdfef351b0fed52f0b598a886606435adcee7765d12233a63bf43926285a9d5208523a95674d15be3f7eb63c84f1924838599774126e9e74fbf83a7ff4bae5a1ec1; P1 0x125d3ed0e05f1209f48d3cd82c2fd73f027379269d98fa83666f48b4ddb75faecf4abe9b08feff61a2683d2b04070addffc2c294b1e12267672c77b2aa77a95b4f6 0x113ee180a3e781108d35782da64d35fdd6efe50eef2e99a539dc0d1cd700676298542eb1b2d763fa3147d1970912c13eb8a4d4ddf0f7cc02ebb3358988178c71d79; P1 0x1be1e17a213460bf4216c821684c3321f335fda2ce213391da5aa75d298255f10db0c417f5579ded6b7bdada92992d6165a4252cddddbaa4d08b0eacd171b16fb2f 0x1b9059ccfe821353f0cfa5cf99698a363fb178e72237556f4e5e0ccecf69e1c500c7ca072d44d09887e4e0a8d573c2170f131fb020486950bf84a6ecc6deb9ee4c2; P1 0x473a68195b4e749c180635e0f1079ea0bbbfc1a7e0c05bca36a05fed5923eb4bc3e51e0da620c67db094e23f9899cbdba014186d93bb8130a2e6e19cae7350e361a 0x154dbf54763f523e224f7819037b064fd867b94892c09de09acef524134544098b3aa3069e166f9704b1351765af681c133e9ea8ed3f9e3dc5bda8512553cb49f26; P1 0x2a8c580c4cefed8f3da3371776aa44fb5db8518091f974b8dccca68accbc9114ed7cc833a09f34d07c4d57d11b4f6e5122ca119ec57ba36f0ca318bab96707394ef 0x1809847a5782403d779e2b1fb8a754864a6b623377c2a3a8d4fe96efdd657659141b71a4cf13b97cb959d9005ea06a80770b017d400b008b2c4c0283f68719441db; P1 0x362adca485973ded495b59fc7e4ef2f84e7cb09a424218e50a943842635f50b9d059cd61fe20ec176d34acd34b585855a4c1e5fdad758229e1621fa6be80a1b774a 0xd3181d28e60b5510ad18707264c957ac883baeab1b0c06f61684734a1791df4a1441e2f1be24944899aa1ec9f3a9bc897eafdf103cf52222ffb914f7b6ae964b55; P1 0x105192382594e28810dff3396812615913f1a626cf77111da7c5096232702b36ee6dbbecb6a838ded081a6494092b075041abae122c65b0debac48d22ec515572e2 0x1320a7ae13ccf551c05eafe872b792e16d7eb2e7078f16d868ca3a6e6823bc49bbcb0644072af19c70921ca441267732717b9c40232bb6a6b9ad0ca7f6c0eaa318d; P1 0x224cb95486eedc9b0ce879b53efd30689aeaa2f8484153fb0f7d19048602c724da9a817fd4c96eacfee5c5c988794504073653954d1db4e7b29014ee6cdb071b0dd 0x2afe349f5a6c80011b7fa32f322fc35866d56e170d7674dff6d1d0ced3b31175dc642ee4869ebdeacd30d282456c0a1e7b22be528f778139e2b1ab31697f0387d8; P1 0xad49889210e3dd9d8e88f0a85dbcabe3025d9415014339a84621a17476fef243a6e3f207ab3fe1c0c73c6e7fdeea0fdbfcba0f8c96923300f724c6964ec0a041f 0x591638f3663ded3650658648812e12244f10eb9c821be011faa1fcd7472de7c81d734865d3ce64efc459cb83842cde19143256712ed8b5a82a4fbc4973417a96df; P1 0x2e80b04a9d640898551eddab164891b34a3bb1f1206f6570152e80deb4da9bf124fe81bdd0ea6c5e5eaef6c0da27b9a4a9376f4e3c1f671349fec6c8169029b2c8 0x9e2e303d16165a8c8e3c780ccbd73f82b77405aad4c78d84f925e97cb4d750244660916f1b98e27536cb3f250347033e4b242451378671f40318296918ba8bf58b; P1 0x929b91d12975bdfeeee633a1de0665bee6f2d9b750f51c5e2eb4aa814d8af6a3befc856c0453e918df37759274f62efd438064253d1454d0fc783a45f4205b8553 0xf79a0dd1285f494fedc59b2a6b41ecffe1b395f20be42c9bc5c099adb53b2044e60a5dbc465da760f4c01a4b35d1c83eebae605803d8a2db9d90997e1bc5bb91be; P1 0x16737f50d5a7108a59894b04cf9903ec6b31a0b78ee431a84dba7f3d5924ff50d5652cc35bff62b4f1f7184ad2302c4c333b82b1a21a3ea388eee329570cda574b3 0xe5dfced141490889c270ee1f6676af50a8a1da01107df15bdbc6cd624fc84059e4f367acfcd6810203681b829ff8686348d0b4450e8e3e528a2cc8ee2cd4bcfbf; P1 0x1359f418281aac1f0ce43e9b222d8fe4ed14c75cf908e0ff8588e00d74176a4b99130542e9205ad53b98bcd6772a37379921616534cdc58364c5fe0fa71858044 0x1e2dc917ed20ed90953094d3fb06d399eaf129fcae2df4d2519b300f5901b99a2cce882d9e309e451289bb36114e456f12940c852c7be42d696747778304b06d1c7; P1 0x55624fae1ed7ec95e9e527995f29cd02f72a0ac1d2ac4f84aa790b16f14509a59cd76e8c30c88eb7201d55d29657c1abf6e58c8b8b56b7813e307892c3f82fe8835 0x1a78a7d86c8e85de8ffa5422e5664b6d500d3a1bcbc24ae6cad2415c1f4c20b1b4a248fb1cf814e965aa29ad76904cb802b792a3bae3b636930fc31d96ad4ae2248; P1 0x41b18709e7e341c0aa5013d26daf3cb9ce75cd8ee69a4e9dd9a9cebe0573518401ca2bb678fc8c76f765c4c13a5b01b964bfbb2c7ae62d5ae8acecf533666f559c3 0x16a162ff1ddb619d24b4b748e61791f0dfb36d46b0fb17cc09d3660731863f072f7b428b57753be4c2cc7ca57ae015378538e9075931cf1056b82894bc4025af683; P1 0x300342246745db85ed92b2177faeeadbe2ea5d89bd10750199a3a0e5c6b0e87dc9931f53d86006ab93eb22cf74623cae615b70c59950524d22193454731a4bcb7ff 0x165b2e78c21c3fbc37b8c7dd7d0e0e68bb43bfb4abb267f0617947ba60ba777daef92b91040892da47dafe0945d9e53a6170c1e0c11b7ea6630f7269b7e8d30cd1a; P1 0x2edb2b23d79b6a38cf063df1d44144f2d531a71397f7565bff7bbe625a42739ee35de5d795f34aca4a3e8d170cd960a9741c8281b5c3645ba987b2d21c31368241d 0x184acc4bfebc95ba9d0bfbd9019a0efe76b64d80ba4a1cbefd31c3ef7e0d3910a53df66abd6f6c45db24c683d8809ad1502002ed4984b805b40d127a83fa9a01809; P1 0x3752a3d7e19c07809e96dbdf631a7aedc8c3b61320bf4305d964dbc0a459122a946cadb885ad63089da84e1db820d0fad1a56e46e8e12137724c2a5f1cdf26faea8 0x1f34561e9bac9ef147cb160b2dfd5ffee529aaee426201c47fdf91cc3b7d0ce275e4b550824bca257b096e213fc87a6dcafa7c8d01d14cd41bf7152aa5c0f4bf9b; P1 0x5b49355c4a9714fc2fb4d3e9de4c2fac30bb8dc094808e67b4404caa20a82c2a839a502ae717afc3faef4d55bc83edb4e96b94f54575edc81273847c5e89bde25 0x1da309f53e07157d8400e1471e425e9319eefe014639c6f01f628a4d1d828a3fbf5f3437cdcc7bad85972e116a6c2ca5e223548bf44ba50862c96ebf162d53dd5b0; P1 0x5258422de1ca1c820c388700a53ddd726f95e2cc0d57dc521febe2087724e58679be4ee9ec9861fe651dc683b2d90390be7bf0050effcbea72a1146948d2ef85294 0x702a1a4c80040ddb8e62ef5022b900abbe991bd8d2c39b0903e160b35d9c236cef94cac2d54ac043879517b86b484e8c04c463818ca479596ee88d626067b35d94; P1 0x49b74ce75db9c57a9ccd4099e90a96a2eaa91027216aa34ac342252a50bf1b05c203402dfe43ceb4a69bb40898efeda0538b9fd87cf6a84c73985250dfd56711fe 0x1f103ee37eaeb387aad25bb54e020a802fdd9a61f992a37b5a177036a58ca75ad3b8d50fdb721c82ace875bbc32f9e8bc739bf84e8177e020b163f246cb1aedaaae; P1 0x5a7686486d9b143bdb340af71447bb0e9801c8554e1e2996f6e3223df1d6024f1cac1ed967316d50013c2854e3ab99c69e83b01aa877182783de5288b579f7eb1b5 0x1e163f649488d7e29c4c04dcf57781aea3be6902f9eb68361acf9f4cdc4293337baa70aa150946d37e68ea7ceeae94352cc3d9be549cc2a53b6c75b7d260f655c81; P1 0x54dd52fcbb2641cec6414686142b2d6b9fc3d57a189b117145c92b3e97bcd7509fc135db359c9847e8e15cee8e34d38d4fa4f43e41a9bf653821ac776449046a4bf 0x1e93667ee19d16cc9c827e2900cd065129be1811eb73034d274591525ccc2230aa9d067c713cbf4e8d38244018341f00bba805648f773ca057bbdf8e21447eb8fc2; P1 0x57a5156e971e9a246f3fe0dc8917d4d4156442d8a72a81be4b6c32d500e3aa9c3f34cfd824e68502cf72c56ce2a72aeaf9a3bf3db57de78cceda8e6a8347509113e 0x9e35c3f366334ee9bf47bfe8da1230f228688bb9840611f93bc0698d1bfbc4548ad7b5b27b2b5a5329c04470aca912798856054b60904ce7f84d072aa105bbfe4a; P1 0x92a99dc0c06289a6d3fbe8623315b69790698dc739c141280b3b8911bc25e07573b8153e5f1b602079745e319971fc5915253aab575c77bcabb8deb56127ab12d1 0xd1296f8661cd9d5e1eab1554cda269556406456ed2a122c7233422467d994db162cd07015f519d9ef47136d30463e8d817a4091773dfca560aaf17be9249c3dafd; P0 0x557257672aa96f1576a77f94409f22c00b959ea42d3e1a4eeac6ce545b8bf7f878f8eca1dbcdc36c00db7642b8dc9450451b1125b6f8c203b5b45959599323d1e4 0x1425fd41eb7696df12bd72f615eb7da7f8e59509f04203bc295e60de92b7985cc6e711c0db206d6815ac354887a23131855d531a15c7d759b27e585f6a935e5afed; P0 0xcafa9abe31fa1e2434be7c517a97064d5305bd5f7db0532705f000786406ac97ad8b00aa42cca0f06ce71377523ffbbfbcf935cba7364132873e54ee53a2feff92 0xc7a4c1423da53cf4410e01f844202ce7c0e3a4fe302091ccb6f326204e33168fd531ea1bee8c5611a55de5d68ba653f0b302e6e9f6f9d05b91af4d9a29fbe6e0fb; P0 0x4dd8c73e954d69486a05815f99494d277ce2862d6cbcd6f711ae0ff3c61b58eb60f544995acac9eefc87dac47685de0669d0dcfedd083fec25918d835f03349f65 0x57ad1830fb860a434ac43ae095946acac9936d1658e2651496428c6fce09d2f138883bd88bb778794f2cac2a3342fcf28fcef06d07e61af4ea810c1d2a3df0d57e; P1 0x2d0aa9387f2b6a020a9f8431a1f46fc982851c95dfcd868757a40bcf629d8a6c14f5b0305230c176a8cb7519c5ea386df7043d43cb90153146328799b660b083f3 0xd403f5fcbae76adf889b17023f21e1f784bd35b124c203567f1cf7fc24eefa31766d51476f6ab61db3357d07d1932009eaefed53dfcfb7fc88091b5eab7f9141ff; P1 0x10761d73768c61285452c24b062c773ec5737174261def4739a5f98f112b038159219a60913fb0d91ffe1334419c92da6628bafabf306a320393fd68e6dd9e6e77e 0x1bf9383be146a85f6dd5ee2e9ddd5649b84733f4d860129baed4f69335f008483fa2f08b5156c75b4ad91fd77e67e6239499b8a02c5479c2097d57930205b8b5b81; P0 0x187423d892db1c418a3b6f4d365bc5d58c76118956f70806e2fb8498c215264434ed628f15f761edb86c6bdc612a60589257b72e7b6b4a752023a8e105cb3dc1152 0x1b436434972d1526942626d0f09c7a324081885db0f35c82c7155e69ae9be7c168455857cb6569a2efcf7a8a91b6da0e4cfd7a85f5cfd1e1a9caa63af86e8a70853; P1 0x45aed510bf5a7744a55cfb1810998cbe583aaeb88de6b3a6774b38004231caa8f007808873a1ce64a5c44a742c4838ef3b8bc4b00a3dc558cbda1dd522f8d6aa4c4 0xcbd79b8309ea2d426b369fa35dc914ac632d6ddaf747eab0f1429512331f50fef461e398a1d79a1dba9271ef4d1bcafd51c3e1694383891477e57b69127318857f; P1 0xf37779549971fa4e1eada630d0fad7f7612ae1a15a2322e73ea40bfcdc3e56ac44b46a6a4967a284c83f62b156a0e51915d7d53f39e491e7958edffb195fe63753 0x1a2c5a4d4b97aa6206492eeead4548f8dab42657af2e5ec2b7706563a8622431515dfa3f630f5265add9cbe6db04275a4baa9cc091867a198378b19f589962dd656; P0 0x15685036ee39d9dd72a54e1dd7e28e1e7480ad564ca80691f14394c18b4be718327dcaae38772a5a4ec39c36780ca74becd1c6d15a57cf9ac4c0d4f5178e13d2026 0x10c60699880dbd2dff1e8a3a21e84ad20b50582ea7caf9f86fe1e6f40671e6166b0f15bd074dc73df22619d2ec26849d3a3155f30a088d3a45b1f8514e6b6ed050a; P1 0x1a607021a01990868f502cca5061e07fdc20c4591ee62c7206aae4003ce9ef9f7265a349e45273dae195672a413dfe88ea19826cfd274ea53d8de73793f16bf42cc 0x154a14a398bc515ef0ca28a92829fe5f5caa3f16e6c037f1646034ab2b8ed51a9db2efabc84266f22a16b2109f35563db3cecc2f9723e7685328fcceefcbc976ff8; P1 0x2a7db3c2af3bff2d9107ed6c020e3baf98fa5efad928c0f526e87b6ee0cd2c9f2c5afe04491181d09e763ff235507b7c4e6bada16e2676ccc2700c477e14433183c 0xc39705d3fb698256d21a87cc6dfe6b8b2d48607cd79af6c1d3a36618796d01c5a5d9e6f87b623de2c823eef7ceda1d05b1bf03dc39d7950ca3c6517abddace18fc; P0 0x4ab7b5fc689ba53146364b49b8acee129a2af6e216fb0432de5b07766006ebe395d4a641bbe4d95b732ea1f3b5285f0c87b5cd89cbdbed575128c8f02ceccad686 0x172cd29e7acdc704af0b176a0c6f551fd4b63cf7270bcbfd9d6190ed1d985b406dc35b139ebfbdeeeb187a33675f6028e1b8ddae9f8c3858ea40765acbe54cb0e96; P1 0x325a08a54bd5e1f02bd6f1e44c78bc31d9171ac9c1d747257cc94df0f99e259b411db4f16571961a2b6f7f11634529035eb6465893a73a3aaafc90a699c04b555f7 0xfcb6da83aee398e62eda1c6b46c5fad150383d79cbbbe3cc5c97f5136b13dd93fbf2ca6331a6b347f9cb1b46e95f33483c87eb6401b269eaa96b69b57bbcdf95a3; P1 0x17634c1360519ef57fc851376ac13e481af0f431f7e83d98e50147c9c4fed6a257684ddfaea3d23083dd2fedfd976d38f55cbf8c10eeb9cc10fce270e2e8459601b 0x8e7dc895fb37645eb1039e9b6684dabe236ed453878955fb16a951031ed05d4cfe29e98cb0e6a5683907619c153e6d7c5bb65f16af5278ad86eab5d3cd8acd176; P0 0x27a7e429f129bbeb0156ab8d7b571bb0d419de0c2c023823ee727599d615040ccadc1d543d589dbbbccaeb419c0060f9c58d764c197d1795018d9ee86dd22c25 0x5c37ced9317caa6e1feba2c2580ec7934cda5f1fd8f68168b46026f9f0ca4bc2d400f2f5f16a11e13556a3c406e0eff446d2f68cb5b859057a15c7a059afc40e89; P0 0x109c146b520390fcf9bb1a20554a5daa95b39f4ce834f396178514c391a73243b7b0aece3a4bc2e5232cdce9f28dfca76eb89f22adfe9881ebd5721079fe3fc9cd 0x18db3a8ffd633c69b661999ac186469b4f0402cdaafcad0e836d13c7d14341ad0e79821fc437e1b78f95fa60e000f6e2871627645f19fff5ed1a99b0dc18edb0f1e; P1 0x39ec2145ee58c60d1288c9ccc5090b2ca1f9f16cec6e82cee29488115872478b6df65c32c1dd1d3b307848886c41327e34692194869bc74992bf30577df9eb5c662 0x9273095f86714002c793466b46c946e7529eff306f3fdab0217a71fe18d3b9714034404f9f1bda48bfc42f0ff01cca685cb2f56281eb53145e92aa3e3c115f5cee; P0 0x29e3b53130c1e8edd9a5dfec4b625eee0a2c5b4e202467094c9b1edc0fc02d8b60de0d03e4e793c69b790bcdc7715f63861bfc7a63a9de7cfe9eca515980748959 0xa8ce64b38a2aa9e09b0084b1c72b97250c3e6d3d6170de8966ff3478171df6507b5d5b939e90125097fe45ca80c794b4b0be6869b9c378eaefd9c6f6c736d4769d; P0 0x37a7c548eef38ebe03ee993931b9f8d7fbe06e9eb93d8269d14e5ee2c45338dabff19e9ee161d79de10370c00ed076729e42645a84ed3e094b5a4d3234c537a618 0x119fb42edf16d04f19eafcf92391bd130a2bdf97107882197ac81e9b608e124f0e53e0b20a77097ac9f1ecc5472e46af76a248788867cfb00959d2da8a9ac34c261; P1 0x1d1e657500224756add61fa0df7ee0f442ee2b38ee6ff7019285a2b71ac9a29fa566cf59b4a5115de6973f9520c6b7f31ecff07d11501be55c887a48f8f184c7344 0x1946b9a5ef42bbf702ddfa296f78df54fbc32fc23f4b017abca84d06dad7da15d748b321750acf3348aec379b1e2cf1f0bb38cff898509a4edaa9cf3bfac149ed87; P1 0x3be55b2b128b0daad6ddac2254c857e7765c5072096651d7680e6371d517d2620d5435466bf45e7c1d8ac18b515c159656cd5e36210d39210d42de964920ad9a459 0x1b5b5e84bfc135649bca2d33c6f782161003c579bad9d83b74614c67d577b8edd538c1ba39a1064288d4a47b1d21fa32f8724bb349b651bae39c6517e12aefd5bec; P1 0x46299d28095416b10b75561cca88ce1f26a9a199ed4fe0378cfef8ab09d5e16ebb263025bd85d3f0f8614397c2853581aa2dbde7d8597db1a54e10a26034b4e9b9e 0xec8972e1cc8b8d60e96001147c03a0851a3cc0afb823430a60bc66d39dfdecce38b137218b43a1751201c2e0d33ace945f6e9da24332557c08004208ae2fbb804e; P0 0x6d46dace3d2e0daebd552a2bf8c6f304f00143aaff7f34c618601122b3b9b4aedee150947350577fc5511e5d8c0d2c626c57d46096e1e02d444c2db775c5555d19 0x619b8741563a0918e6bfaa8250332c7c36723aad4b352a100973908bf702e137c4a47b86dbce3bdd1399d9c74e1f231e2d4e28c35a7cbb853183363ef1b9774dd; P0 0x129b9d7e49f62f64ff904c4bb431023f88b674296439b082d9f37a0de6a364709aff445761a32509133529ed666f4456bd9381c98650f48da2901e9f58ea5401 0x1fc4128c00ccc74df6789af6a98e4c23d35fd6f64e2b168f13af42a339c5559790e59a6691d0eb14c92de41447278f1a85736c92bba9c769ec94ec68d8708f95aca; P1 0x5e99bff77e035c59b9e50eab7d514a9196c34b5a1b09637dca4c4d9022a090c386f4d5e857dd1fed3a210c465bc762708deddd4baf7848e72a20f5f8a875f867bf7 0xbf46610b81a4abd800a1a32e6a29a334f51b7a9f0183b94fcef5f8997ee51f1c678711342530b573fbfb9d08db02ff9b45706c2d3963e3c2b818b9f35676fa7223; P1 0xd65f243c93cc82dc38a60d110a230f18b6c97181301afb6c0ca3560ba4485b2e365cad0518e1667279ff6a47c74abe50d6ebaff76e994917ce379a1366d74d3d64 0x16f5df1c76730de245c8088040dceff10f28d25e13fd2614c3adc3e9ace9ad8784d7ace5cd7cb952766ad9ffed33ef8898434d4316a563efe17a018faa5010acfbf; P1 0x316c5bc8ceda4330de230df385ceebce6ade092aa63adb02506b65cf8183f25c01da350f853fce9e75b5eed7db4d1b512f09325ef42eb79715811aac99fb7bab22a 0x1f2e2a0c62c336fdb22e7f977af587321c5a54a02a4cb15e49553706029c53f85442487b2d1af3e6d97ed92659c8d1149029571d09b5683ac998e30947edc4203ad; P1 0x5b251c334ea41b800289b3d56bf90f3af60eb83cd2b610d5aebc276ae6c265f8b4f5467f2dcff828c87472a77a330acd8c8edeca46e916088e975083500d5dc1c06 0x48039a0b41293eb0b718ec10bb7fb65c68accc6b72c8c2862dae46407dcde3e6377c91528340aa7ce57eb564bd1fb95f2c110e61b2c841666503dfbdea8da0a4c1; P0 0xa210359a6ce228f945823a9c57a03903cc8601715b9ebeb6df961ed0ebe0291c56ee5938bce0763d8c32bdf8f5cb9f71644add2aa07a8677ded6f8d7c2843b117 0x9db2a878601600861a4171b95e78229e3f211e39df561c56742621c6f33fe8440e24c98a567e0ab3ca4bec3a29ff00bbb1e461e3fef08ee189e6fa129b1d8b8a98; P0 0x30924fa92e0f68fa2808e57b5881410b46bca86be6a4fbc9fe7bf3e5dbf6a307b181caae0d50f7fab46bc1c7d4ae9ce6ef7843170065c8be06d8be18f1868a541d 0x1bae267171e0fe60a10bf357cf4b9e1a46f2bf656e0812849a6772b7231fa477cb57e83a142d2ae31dba6d630d5fe3a648d7060f8f720c8e46f137e3677c2a28e5d; P1 0x47d4bde510335620e31a580bce35d7d4550018e69506c913c471f2dd13830b7551a4febf1eb8a1f3c2bdc095edd0f18f2485bf29817d629c15eba105e21f28c7772 0x10aae79bd0da4be059e95a1a07c94df9eb348458d589b7af9991a4251ea2b7984dc84c7a342ad5180098ed56b1e48cd9ae9baf32dce3edc7d2be033767c452a60cd; P0 0x8ae785f34b9e94ac6f674867b591e8bcc4e5371ab956a2006cbdd64df8d490f683f57da23d02fd1acf53c578136932ec6c3e148b697544c987c90acf09b1a79500 0x1311bdcb36598b970e138edd12f0b442df57445d3e7de242ae2ed3c936fc5e406ed7590ee6fb88d397d4b4c27b5b53d2f534bef120ba5c604c53fb370d41b85f929; P0 0xb5d1b375e2191635e88c2e899c55cb62515abbfb05cd626d135862f56ace0861d42d9035dc070c37678d4b744b0aeb5b2f80ab17b8a952d7cc7f3033dfcc595463 0x67b9f3f91ae0323e5b271c8ca8722e2e5296a1c9604687aacdbe31e0c6a9c35df493e2cee8ea91a0082572f87a1b99ff009ee7a248da9e4eb5ef64487349741cf4; P1 0x3f0abe17774229d290b77699f9efacf3d52ce54bf28221cf59f011ce67cc8a4f233b83eaeb537ef822efa11df476f6d3a1783a17073d2c16084cbc7f2f99288eb6 0x94b18831aab1d22a0c0eb531e5dcb8fded8ea0c10df1d9d883d32ae0d4d45bfe19a184ae62319b92dafc5b1a5fe4efc20070cdf7bad968b3281ba8905fd25b6866; P1 0x818ca0e28fc0add76fe83016f26dff2e43b7986a64755b9eba9b995ffb1f30a2ef2ca0ec366baed475e4aaa69696b797e3e638302d23031d1f30605169e136d62b 0x1d6bd3c2f6cc361453532a1fba64a85cd0f219f200e3eeb50dfe3a67d579be5db8bc000d20f114b694265724d8dd28a2ea7d743bf4921feda48b46d4c46127bf017; P1 0x512691750174f6822ac9b169e4af6d9c88ccfee413c6f28e8fdf2cbf40e0a069e6b385e4a52e919ffc4b516e7ca96ff0daeedfc4cdaeeaf7a0399ccd541cdd0c8ce 0x1062cc0f472174c869aa6727c85c4d1cf308a524b9f7edee5c2a70bb272a887b7dc42be078420e5cac63d25d29309b3ac42f404522e2ea144cb178eb04947a02f01; P0 0x863fd1639f7f3e993a6f3332b7370ccd80d22bde5b2569416eb82a16855d3759aaa23ed73b11cadf15829e91a93deae9e22688a1a0618ea6032d51ce96207287cb 0x1ad6c9fbe361be5740e7759d72ddfa8ab1721b7e19a8d1877e26c299e6e8e9b15bc628a1faff7ecb9b197bae70ce283cfb0204547d5c362cf35ae743b757853e5cc; P0 0x1682a9ebd56c27d8dcb2360f1f12799fd02ec8e2892d97c17bf78855013b1ee875656c5a3b71884bdbcb10cab83b2081cad554b2768be5634b3142697debe8c5af2 0x33c28e54516c317baacb0d17df4c1a2571e6ae0ce69db263a282ed816be6afec4914c82f97b9ca88d0b5c0bdc778306d0720c1720696b9b6f286316f44cf1af582; P1 0xfb2a4da6f0d3eb1bfea9bf41e6082d171e9c049cbb99c9deb0bbc4235bf01fb5eafe78dc88902af0f32b40e908583e35218fa9295ff343e16009d887faadd85b6 0x893968423e7055ce2c736a28de038cee7fd0cad429940e8df1a34db5449bd7f0412cb62f4efd724ba1bc12212979c7acfa794932aca99401b8683ad74cbc6bc7c2; P1 0x6e55bdb1be2ee49a9c628873266bf3c76ce807fd1296ff879d9c6cdb527da4e25a0a3a24734c0a2078e929dcf592cd68c9d344a6fb19744d9c2deacce2cbd6d407 0x49a565478172aaa6255d4cd9474118066b494a2161bc02994a19de9ac0fe1d4cc58208daa732259b8a6ac9ae15741f4e67c861a0d75cad1a20f641a2c363f86113; P1 0x1fc79dedbd1aa4e067cad79fcbbf2888fe8cd5af986d1fd8f815c6267bbd4261a19acd1aa362bcdbfe534c3246b75c77a786f6d55b079232e65999d69d10ef4a12 0xc67a87a7799c035cb93955dec5e9ad3e857f4aa60b936b02273081dcc5b6a163390c389d1eb06d5b9c58dce7ab50cc249730a7ede4a88e90333369c7a5d3cd804d; P1 0xe6d2a6baf56ef4959aa366187dfd829c1f479d2796283f94fbcf40ef33425b5af4a1da7c650d2fd18d32288ec1114a5d6c61cb702f4d3268b9cf8032b10543149a 0x792b90935d195ed8416a4d47e695c34eff3119f564e78c4e47623ff60e8c86939f219f232196de6289a63b9bd6a1141fa77b171596967a33f631d0b1d802205a15; P0 0x1cad1b0a9894afdf71170f11b7071b46b7f5c4071f308e839cfbca63a379bc288d77b3d498c920fef8f72c6a0a7f915eaf2b9490e909e7433bb755ae8cb6686133 0x1d8a142c9f9eff6ec0cb26a4a4b39c1d6ecbdb9eae11b8525373804e998ead1b02bda11c978165d8da220180827d10d5de0e80eee1ea75d01da76a3417baf5b26ec; P0 0x1b44985eeee8f014a96f1026ce0b70d6bc670b1481d567102567d24e03c28bb772f49a2ba941f1237a002ff9f4734cfcb26a4ff88e1f1b1079f34900152820acf2f 0x1487f627d6a543d184059acbfb0b9a844f7b812ba2079c22ed63345c3d9573eab7287443196afd7462f07335465ad7bb91dbabb33b3f89e8a529890ffc5dbbdb8bf; P0 0xd2c355e21f65cf7e2214de742b55ce62b167836278ce25472e2fcdcf324f23dd61154c605ed82fec713dd235635ce1f5b5c1a30a4c5bbd64a172a17db64930428c 0x9f059d03304bbfdf753244cea4b51679ab8cbd30428f4f3c0ccd5ba1191d13691f6f243cc31edfe70b6b26508267c384899526010d7b4df07ffe2a7c5d6289610d; P1 0x942bf5be34a056de39cf252e5966c3924b9d6049ac7ed19dd0d1aaac43a7399707d3f862a9afd3edddee4833ec9fc2d6508e82302ecba1107c4ea28e1765fd4745 0xd2fb22c2f5dbc967e40327c5b0a80e215f6ae9d0d02a9a5a6306d959eb7b6b451b23f9b64f7d0358406b6579fcf13226f2c3dc679889b1b2bcb6b64882501bd740; P0 0x56f07db285318899a944c8d4e7bbb081c172629025e376a642e49cdf38723215a08bbc2b7b560f7de301603fc74dd5cf9dc79863f6071f049c66f29fa64f9c7fc1 0xb98f996041c3011f3c26d59911d7e63e7c85652d21b6211d427fc7969b7208af234658c78f11498a3b1ba9859f09819076dec57a89059337a6945ea6356c190fc1; P1 0xc9c14a56beb6436a507b2acef30fa3061291e30832007c21a7fbd7928571e6b4b30c3f78e60995c956f89dcd5757df520a2eb049e8cd1b3e81e08a9bdc3da3bcf9 0x5c594a7f14ed146cfa2ab8ea1c96347c0b7ee5d5a741e0138ab6aaebbdc804d8dc173cc0ee97c2cd6b8fedfbae0bbf7c210c845885524263455f1a88d703a24b7c; P0 0x10a826581c8a555aae29e90ecd8ede39429dbae05e170ced04a4de22d94ee4a77d6ed24a5b04fa04bad9fb9405359f84c5a398117737782d98c1e0b6bb9093c39d 0x7abd9918d9ea34eb419f019b596b675c2a29b7ec5ff270839c9f96118b03c5534ba38c2cad14d55fc052e44aaac688d6cbb0aa5d60b8cb1fe1a9ec75ac17c5a7ad; P0 0x1d6ca12b8cf9da92f34a3b6c364e2bb00679a7a2c3d67dc10ed398c6b584a4d43d0988b4e24cfba3240c0953712198d25df903c4ffadaa340a8de757cd6f347952 0x42cb7d90f0e782bdb5943c3d9371ca6a48e7532f6e96d1f2c090c7256c373dd0fb6d837b5fb4509818c542aed12d6c726162e3a14a54da655ebdf1e7020349a43b; P1 0x1a2455beac8271d7bafa7b1adb4ee859bc6970a56a8a3e6c20005ae4b974bce2e5b8c593860952e9f2d1b5ca418cdaa42dafced6f7f22a6f3fabf2079e3a4b7138 0x19d845d4189bf781d9d860129b75bd1986f3ce3ff1af706f819a46b832b1cb41b6439788f46a27cb5294133136a8c5ef6cf907b0623f9ec988785ef957b99506203; P1 0x3e9ee8600a603c8cfab21bcccf605c28355dae46651943345a6d81ad9c9db09157e430fb74f2498e1c85ee0291696f1cb92b233cf9d1093cfbb0316d279be2fc422 0xcaa553ce9ebeeb7849eb1d9e454e009c2636ebc26c98f504621be71732f4c6535c7f83c0e99c6aa09c119f9428ebd48b8bb3c58290ccc94f702559644eb662a83d; P0 0x5034a9839b26c7b4840cc1311caf5e7ad912ccf5aaffcdad651433a10de1d85f74da4147a0a7d2d1ffc6d33fca3ae16b9e5c189f79d9739a67ef976618704ac255 0x500d3055e12d8883e7327375bb9379881377c4bdf5609caa82a511070fdb31a4a36bc34dc72bce3c14c6f92d85e4a9572ccfb0cacd622761b345800080698ee0de; P1 0x258c5e556de077cc07164d775858a1a44092a18e5cfee413acfa587e10da29364dd17ffb5aec39b2290e224bd832c7db0573209b2e441efaf4304506fa36a3a44f 0x688ed5b5cc39f5039232b3a220d670f2acab1dd057acc0c5d168391cf2e9bb1503eb4c698898bf32f06f55be7ee688f5cce48d82708fa18fd6fd7b2d973e0b65db; P0 0x155a2eaabf02d728caac1b126a201b28f7de75d191a063f0a7c7ef328990f4d589634b2e87a061f6e36c8a372009d7614377f1bd3f0a4da5c891b5584428913198 0xc7fbb73bb0adebe58595a64eb4cdc0863dbf3b838d3d8df54e42947b9953678450272e3738fe80e08e6884d8bf6b475f3c5203f28e10b3455d9272047625e9baf1; P1 0xea55f58f6e51dd7678aea2f56b29ac489b9ccd48d650d60a41e7efc396c3bf4013622d92a01e301577fa048c2ea11ea69786850ed002ba4946840c74169c6f137b 0x1a3712eb008969d61b7d26e2e4143de4aee1dbbb1d780f35568002a6f8def0fbff051a576b9fe7c88e15fa1c09c9ae2d6e84e9a64037f384fe780c03ee9140e581e; P1 0x406d9894dba0c846a1fe894f7f7413553e08d676d5f4142110ef86245b68bfbb8d8e0d64a1c7abb513352698b142f3aab9ccae7925198ebaa3fc4601d8344c8de67 0x149866633dd40aa50a6bdc7257dd59dfa9016f779b376097a4e2e61e569580bdffd4ec950c5b6ede9bf9a4af6af40e4e703d5e7b06a3482bf57ae77a50e999ec8f3; P1 0x27c4015e0b0adce6a8b92c7ea0ac666bb2511bbccc0d6506150074c3efa595bc28cbb7cbac4a27c7744b0f1726caad04b13f0f5aaac5796a7a22952a422e023864e 0xe11a4ce4b171b5bd859c808501f87307ef3200a4ec1d8a6cee5d99620368baf0f63cb06c35e5e152ed66dd7c927d57fbc8133d5b6af5c7ae0f24d3d9ec3f354a49; P0 0x62f79eeedabb411c106777386c5377f0cacf9d1ed0f915d616183c14575a403d1eb540e767cee38c9bf948a12b42288e4c548387f02451832c283c1936ce316eb3 0x1ba3f5f79bf9605ff06b44e35735c8a9735ff15623ae24abc4915f8a8d7634f61352fc4f5912c2a74c98a7a9139636d92cd1ce22ba49bc2ffa4165e177693f9b784; P0 0x17dff72b0458cf751cd2908dd6614664a743762a713594e248b2c84cbddb2bcc8b7ad5febc42185cd49f66ea7b6d070fb06914c76fb8e746197754af6d68d9a9455 0x44db0cb31cf1da0d654830eed4c5e8d31c7be10f8439156304af3faee52fa92c7029490472bb636fd5835256e3cb5763e0361f34263cba972888f298dea7f09065; P0 0x9428d16f13aa4d52d53cff61b27a707aff0cd48fe8778984590a14dbfac73fb90c595a75dfcfe7327c6bb7ef14f2f4beb35b730330468d1178a25ae2199d49ddf 0xdbf662a5d94c3a7da7c2c642804cea0013a1f0b3dba04b385d76e965c34c5831cb70cc07c63c97e590455ade0c1bfaa5427eefb74675f5bf937f7cbc06ea665b8; P0 0x5e7fbcf4bf44b831cc01cae8ff48d2cb0c82423f575568c7ae3a5c77bc6472275cb8767d16d7747d259a62bcb48fe29f11058b5ccf01fcf20803b47324b6c09d 0x12e972d5f2f1dddddb4619edd97b4820972c95924128e662d60ba8cd1169932eefb6363967d85cddc3cc8a1dd9b96178366fe6623df68a071d16fd1840557c174dd; P1 0x2187d8c7cb23df9fafaf38f58c795de28e341e4833b22d4e5f0d13513b1cde60e9c1310afeb21b85275f3e4ee1d2b4dbf7d13b3901429dc1e9aae30e09ce4f576e3 0x251134dbb3b922249ca2d12fa1093bea0cd10340b256cd56747969c0bc32b1033fa1e8ec6749b53fef1c1f289482053991bf6b33edb4798ea637357961c6ae8b3e; P0 0x2aefd37c905b002a877c9ffa0789113c114d9138aa12a33d0fefd94eeafca3d218a7ac4055c157686d884bcd235b304d1021a3d24c0cb9383d47569286bea7457 0x85b27e17205c543890a0bb9e46450603e2ffa7198dc976cae21e9c55d162a1c38d8eeea915f16e13822990a5e235aecf588c53ef4a5da5c72f4a3a0089e7eed75b; P1 0x68bc6d336cd590c66ac93e0788ce6288b41cb8a2bd100e4460949dfe0d6808995ff78b644badac0edabc6488e9ed4f47be8b6ce2ce4a40d2b266b7621de5e39f85 0x815ae0e50e6fd9f24ef47e72a2bbe13e928468b17085079e3d8b2cff6da3f832953a03ff7b57d024db3fc88ac1b25c62f06ed635b4d56cdffd29b596c1fafd8e90; P1 0x620b125e9ec2c9c3066974982e6dc00e2235e18daba656349b8736543290e1d04e079fb1820f7aa4264f9147da59cebba4052dfcd0cf821e229a212e181ccef763 0x13ff96a0c8736b8b248f857f4b633d5e2eb7e7c0ba7a8aac686fcb496e015cc24b01d3d438771f159ca845852bf985c26639f50392e0f102dfc6362ee3524db2a63; P0 0xc7f7c4a558a3e4aaf1164af8f8d60026ae26c7c667ca4a36b4e4e54fcfd1cf72e7fb984048508a70d26fcffde2d96816449178be035e6e2659bbcc24b32330177a 0x368d354c45b02cfc4527efbbe249258d8f3dc4bd3613e7fdf96af6e5e45c19bcf0333bdeb48ae97b4681a4409e78bd88077b0bac023a08fd668c76253e8796b9c3; P1 0x116fd08fe5c5a3f091e6f4903a31db45e613ab8cf0d40e98412863e733339d2103011ba766d5721b30e166fb9206919276140fa451c34db7336bb3ab62ced0eb42 0x83c3941a4960128e0dd95f509d7b4092f18c1361046f52c6e3b35338ffffd838c9a354e3f2b5e4668536efa4889687674354c8e181cfcb0d27968da6bc72bf2add; P1 0x65ba9e7ccb3bc45594e0464f3231e6b7fc8375328ab0de0538e10e23af693eb51d6752a5faffcf494ca979df689e9293d0970b61cb6d2b4b799dbb5d37afdf9ac8 0x19344f077276d4d45c124623808243ae656662b77d18cda702ee376758aa0b74404401ccf015b1271f71362ff314b1a2f5406348c007c67e4862f7681c922b96323; P0 0x13da10fd3e3a75a5ea4dd22e2427aae13238f5c3880865f60728e0e95738149df008f153e4c3b1a690fa9cd80911f0d040d3165240b4474352a54960cac41802a40 0x3f310063fd9c51b9100976b82706fb3faa3c015959bb84024d7efe874c0e1dbfc4d896c02d3c1b5c0540d64c24137800edf993d4314740be22f496c437fc7a4109; P1 0x1765bb5b8ba743adc1538741f7889f53d36a8b0e6b39a09f47e1d4f4c8a34af94f96d61f114c7ab5cf423726055265753f5a1c79679af6c3bc12321a4f9d2946d9 0x9351a3def45d86573eb87208376211382c1349c40fb87b9c4bb564899cadf98c11503ed6f333163750fc220aec7c550cf3ddc4f2c5815ec12d2932072cec75fdcc; P0 0x2a636e1d944fdc6984e4038f39ae43b1d1ea4b1e6c3a944f1ac29c27e4e45ae3087204a1ec3aa830ce37e95ade021ec6c0f510b55ae5e8c011f3c13506a625dc73 0x77ad8a8a2d64b828bc8d4492855c4696260d154677b1f11a09fbdf7f4e6611aab75b94d401feb2cdf8eabd2cce9f734b284b34e4291b5f37fd064b5d78be3ab703; P0 0x1bf966387ff7206e2ac49a20996bbe0af06c05b7bb1878825fc90d52c8093f3c70ab0c3c0d0680937a02fbc7a719e42a188f85737b4c0351a66b46cf308a8f0030 0x16cec269a0d579e903f16d709dca63c0d2ecf38b3cc3755124580b81db2e1630334440c9b9f64cd4fb0898db8a20eaf1414da8f3d968cb981b95867c5206ec04a39; P1 0x30c489b6bebb1cbb0edd352fe857427bb20906d3cac4135d935e6fc897fdc8c892507f381a0dc1a25d99c45ce3bf67fc6e173e501877982e3011b47b1565cdef718 0xf832c0f55326da759929d5d8bfaaad37872c20478acfb208e90d506af71aca525be842aeb35284b37b8fd632bb1b5d1e494a9fe77576ebcd1f4f89fabf91edf92b; P1 0x168f38fe0e390ff6596a27796dc47a1eb27388b391722c59ce5f09e430fbc5f5f4a9b06ea48bb5eca2787e8516a4341b5915f21980a0c8a0d2220a8876a8dc86ba3 0x1bf0632cf0cb2029eb338069819a2f1b4de227283a746c3b7be76c4449f773acc4e25459e993857dc61d25f8d14b3c2be97f8d3877c79950af76b8e3a569430734e; P0 0x1864b52cabd0fe2f4b36aba2adaadd3b60a648ad6564bbba50c705cdcfc765c2e182cd27e226ca9c01c101342b8149583f83326aa38110d143ff53adebeb7a02976 0x1cb0fe73efe40dbec52924c3647130ace331c52ac45464495a52aa22533f5e40fa96f7cc94c6468f97c49538f706c6b37a9a558799ce991eb54ee57bda458cf553a; P0 0x19b99041c67008f4a334f09619e49a1acf88dd57ba6e2866a5881e23248613803c7793ae80f4abaea70906509839436676a251a7b1fed6aba0a19dccdf122d7baf7 0x1822fdf10352807ff7dbcea75573ddb4078ba5760dc02c78202def50fee9068d4a4ece110920ef88b40895197cacb23690217b8a36902f91821eb94d6c3f3034c1b; P0 0x1234a32d0454ebd39ea7bca7c8a34e543c29733ab0c17a6e15ab0659db70bcddca6e3a090d9096748f1352868b89de5f5864c048d8822cda2404b3c40d7a476cc2c 0x1e6d54ef96fa9644b9fb9a7d3d309676a32c1eaf673ae60d918567830f6e66cb3b431f9dab87abaa6405ae75c75f4a1e81f6edcdc32a7578b057d66987fc5b8d705; P1 0x56cb5e663631be1a87e76567fd3463e214e7c16cc99e90137b59c2bf3017918cc70e0026de280d5470808bddf20ff864122503d1b41fccce6129001f0153192721d 0xaf77cfda801fe574bbe09918e750e0d543ce0f64183f5f0d983cc383edba5f83dd7a8520fbeba7f35e581f4f10397f666866dfb0db4e66862f0e49c621aaeea468; P0 0x3c22831fd088e7877b749c18d7a965f5fa7e54834a0e64ad46314a89008cfb284acfc86040a1ce7fde0300259254ff4b11182e8ff06f1f172025d095dffc2a51ab 0x17a1de6e74e8e979fd687ac8968d5b9189c7e1dde1188df578ff49e4550eeb56519885a3decf00bcd096e2129869726a21ade06a277b0fa043bf319a980371fbbeb; P1 0x345ba7a11cefe01563074f808ae2db4e0d74858822b860371fe55269251402a90ef993ebd6d88db86381bdddca29aa7e089948e46fe18e2d2597035320c06862769 0xf09a038c5bee015983551438d0a5a8ecfbdca07e40bd538d93ff253bbbbe5d31e5bffe2785a4f0a7c51018b12e3f0d25534e3025119d195925270bb9161b17a494; P1 0x15331b4f729ee2dfc92f5443df75e63f55dc4248afc234bd8328a787dd6c3bc95fdf9339d8e4235dd15618abe24d19f32456f8b79ecdf6c72dfdcc49016ba6304c8 0x1604da50a3446399322cacba307a8caad72eea42f11cdc5ed089ae1d64415853e299ae7af6937cc9804d0dfee2f5d92e37f9ef09ad133db5af2175121195794e578; P0 0xf26aceb461255c2ef448b17f23838e99fbb74565b041633c8c3dc9404b4e84788d679b26d174fb340eeef5081d460bbea9ada976665719f9600e9055c6c4470ef6 0x1ae62cfdf0cbb1e27c2c982ef91e7c6a30f2bd6a4e589e46f2c403e4d295bd3c0af237726618514294ae1e309b55d521c3c10e5c3ab8d51e8cb70b4a1c874b6f736; P1 0x43d5824afad7f3a3dab4c8007a17005df2d376b1cc3f5cb651f58614a669fc26d5fd9c316a614e7a0a3feb05cb4c85c247684ed350f388cf5d9d5102445c8a252db 0x18e958d0fc3a9fa5574add094aec55ee664ebfb7093fb9912ef2fd659c15143682c5eec936f30817de50092114a4469cd57281a5d311690b0e4a2ffadcde7261107; P0 0x1364aacfd433c54606fc011d475019e38691b3c7d55ba6b72a52b62b72db4687cb0abff08a2025e94b42f5db1f6fd2970a437d0e1c8fca96e78ec4dd58ac68a6279 0x197bd9aef87e9dfb074dd9454a8b2a12898af41d8cf159064b9bf99b82521f8fe541c753b06fca7cf62aebe3cd157b9b30d3bbe5e23ba7ffe592af0492477c050aa; P1 0x3ce22a69da86c1659b52c5eba1747d45ec3ff6cf5170d9120ebf282ef0ce59ac0c55d5c225f6d831d9861e995f2d6b31f1041cf62405e3e1f78ae41cce058849ee1 0x10929455a7b0bb768b4abf3087d4b8448ac88a35579cf0b6b76c5c335ff4a1e8eafd7b4996d71b6444e1433ba390bc6f16c4327bf5bcd52c7ba7ed5cab5c5c4b18d; P0 0x89533c1e4e41c8e34aeac3038505c781e758c375de3b6598baefbd9bffc755d498f2a1174cf278414aae69689e2f5324ac4ba90ab7ce9d27b0f31740fca8bb79f4 0x1640ac335cec305dcb09b1d2c2d661f041a6c8626558f7df00693cfef0b0f78ecf075f8816d33ff8703b12ffc657f801f82373db1046e7873d6dcd726c205c7c19d; P1 0x2e6c4e7123a2c5dc1eea76e87866e0026bcef073e7c86cad5b27ff70933f0375fa849687636935bf10d4d65f24c70b650c603f5488621733f7b773a0eb4576fd4f8 0xc79a4066ec457d5931da7d88162038b4919f101e1e07ad24311be98189cd4933002283f9f9534da2bb8e6d056677b89fbf6e0ad53fa1dd2622d17474dc7afc23d3; P0 0x4dd09688c7adf5ffad772c016b305db62c056ce82191d997eaa9464a13e9a8f2fb8495a3c1af0c50d2b9c11f8250bcdcce63a6ff9ac5d8bd92f1de8577e13355ee 0x1eaab8a705f73cb00b5776d4d457063d7fa252327c4a78a92ae5aad165147697cfe52d30b7e1170b714f586f64d8bd984a983716b7a9ba99f60c009a9b899eb5d7; P0 0x1d63a90743532110634b292a2f3d7e086c785802b368a76b50f692ed382fb3986d51551be1ba3dd2074a41d0b5788223a7f3536c8c06b4327ea4dc783c16a98fc 0x784595adde9160f953ce020df7a7b0b3bc5c6a7c09ba939da418b3bca256bc2898e23df6cb272da35e3bb9ea8a065a3683c9fec6cbff7e1b7af53fe6e2d5f8538d; P1 0x54c1f6db8bd930adbac41b640c94e1bf4e54f86e77714cf7bbf065807d63d8c392adbbe773c47246a2e9c49eaef03633d4d1aeec573c94310320123c6a52ad9844 0x8b22530763196550b52fe75f6736f6cbe49a367ba13401f616348faed415110d06c34ab19aecccef648f583362cd65a9d8daa6a588863357083e8863062e0bcb3f; P1 0x716d702645c289dc63770325191c433529fad7820737a573859492e79a2734a6f1e985ced11f0cd1ed1df751cec649f9f972b78ed9d4fa000878ce9d343f97d099 0x37f44e6f653e85b50fafe0ad1fcd7e5e81538469f1548d559627fce04239356873632c8bb429aa3e381355b58b482c4b5a40b953026271d211cdb818d175ecbd1c; P0 0x61d716cbcf0f766ddd01393ae83a22ed57f68903e0a1623ebdea17a80ee493d6f3075a898740dd7d77bf8a548d745531e9e42dee2fc78620a4978faecf6b19aa5 0x1cc2c79f33b5c16deadd524ce31218035d5247fe53a4aaa4f146784223f3acce5700766d0348c90e148ebd3076b2c6d7d8892bca48895420c6f200d426dc603f5b5; P1 0x4d8c7ccfa648ac6965e32da695ba46ed6d53fc971a98bc22737d6f2e1171bf5d434df81043b9af41d5dd52d17ab33ca37d7366de2f1d7f7c13e464f0a5c5f56770a 0x1f6043cdbe51929f32dc487119720d42db0a1f06422306ab265d69507726b2d65b040073b80b1952bdcb2c17ecd1d2b203fe18c93380b078b21ad251b2d5d8c4cf5; P0 0x1ec3a4f602dead4ca4c6afd73f58892e54012067e1dc1ade63d3316722591d7b0384a1360b698088f6c1659e45811dd5816187b6059aa71195f6310089512a0b6f0 0x1eaef7a3d90526ab382684ac8a1746a8589993d87ccc5a300908fd26e190b5b34ed6ef50f565347ae0f86760b202e4da580c2eb0737960442e061a0018557bb1969; P0 0x1d6bccffc92e6db5b885dc0b6d9ec00bacdbb66cbd3a9e62c1216b9dfcf532b5248a45f6c1e1c0a75123518e301f3c6d8c433b3e48d83c7dbc12380725269231f39 0x118b23e6b4dfde785914c8d990f59c3c56552416bb6fcfd9c8176e4a82db2376fffd7a96faaefcf11d12ddf6da2944b37a9b9429d0a4ec23ac6356c5f6fe90ecc4a; P1 0x1cda996f8629209711e9ab60114b4aa4b24fd6838d6365ffcb04fe824da59cfd6f2154cac76464949b8155a42e1776c18546f6eb8c8307c4a694c56de3da3027e3d 0x6d72b8e89da6e6a08025dfefb439d9e2240e8b7c0d360f219054f84a9418e66bb983dd632be4727d279858b6355f0bc42a4616cf3500d7f8b91386eceeb05c8e69; P1 0x4630574ef0799e8c2ec9e1db92ec83ee0cf69219420083fad687afadf14e9d21271779f037cfe539df807f571464124741becd8eca914f9087d9ef448b2e5f7d3a 0x192dbe14ef0a4de0188adedf6c865995d156a81507b27f00f40f0aa02c4c202b8f35ca620537f547d867b63d31b7787a4e96a433081d583510d02309e144e71726d; P1 0x3b6f2f2b2c6b20dfefb346dd9eff9fc559980e86c29d7c6b41c4122c1960a02cb83425f790beb9d64c471c451e76261f718dfdd767d59b9eaccbe2d67f5ee7f6302 0x1466b4d913edfc14188d919a053907338091d8238526e5924543ac2b46184c4d575e0a7a4decf531c7670ccf2f2f812c0fad7ae57d0078c7e51bdd2ab0fd89d2a3d; P1 0x2705031cbc893b23604bb38bc10d304c587420d41f0988f1593e4a85dff5d4eb87dc6c77f880dd5d8de3dcb9046dc1f757ac3e1a6904c671649ab34f6716b49c4fb 0x16cc7ce461a76f0ec833ec39044021a98caca806e56fc95bc5ca9e28a257eec380c422f2d37009f8ab93162c664bf2225cfe7da442dbc1a45d4f5d7112ebca7fc96; P1 0x30bad35ce8bae6bbf92acf2b72a435824ec069b8a2587b40af04d00302cf8fdfa4703ce8d78b62859332e1c57e091faf61e1611ac82dd4d29cdda6a12ce15efabfc 0xd872673f8c31d7272ba4b6c5f0bafa64f222a04440367d071959fd55c8aedc16d1a3dd7b5339148dd41d55fe744c1b6971f29b520ebe23c2c5ef1ba42d94b2a3a8; P1 0x11281e2090839bf1231752fd49d5544b3a29731f4b6bcf8b78a3bd6915d12133cadadf6dca5fbce1ce4fb36bee7e2f19967141ac99c313e672ddee767ee7ffbfe81 0x17dddf0bd31d89eeeb84ae20d6b2bd93a107e518d8876e737c8ba9112877c7e06b3b9fef89b6f833d184fc6214c9c6a5c5d8f3c013ad5a5f68bfbcae0c53aba1941; P0 0x11ccf2f7e57b5112ee32400295d52d90649002b601eb0e4504fd3b6e935557dc0b887f057a08ac4e599c8e824c5b15058a034af0f5cc2796bf36a01310c81e54a72 0x1e5a1f11fa9ac8901ceec4265fdc9313e131be3a71fc16b7899cbcd341d52be720de2ea21e946d1348bd8ab7d3c5123bf23f996fd5126a71e77d6aaa9d0aad70cf3; P1 0x565de831cb8c3b149d8c7f7f389a1df342853e71135cf9b29db6a96bf011239b9e5c767f91261e11415f461cf6ea769ac5960debc3f2b3493ea535876763c7038c4 0x1916da3de7c1c9017a38ec6903ffc72ad3a641f7442f32e63694688e5f9eac2fad7d9035be3656e2c7bbbd8fbf2bdcc94ece28419fa7d6e5e64b33d0ea2b2e544bf; P0 0x13abc5529fa961f924fdd21d99c4010d6b2b242a76167506cde71e8be21df219f90472b807dedfac418a46503c217746f61cce9ec467faed068556f726c55ff756d 0xb710096388c64e5b5660c31bb3a2653a63664987b3e51ec480e5fe7f408f86361e89cd58ca824f6b460bb1eada90337210ef907cffbbf8dbfe2d28f916022b7bee; P0 0x4173f736bd2a6190b26fbb4ff9f1d8a49b561cd20bd6c09171f2a7a645dbc037d72f8b5d010f106a30d2fd2f4005b767b69eb515d1604453bdb9d0baa3f9f8e1dd 0x5890b32901045a2655baf0f6b98a11dd67dfa2789bcab1000d0cd01bb9b10efc0ae74359a40ded2d6b2a1330a36f9644a56265a2c66bb73d4b16c3b8de8feb7321; P0 0xf51e67b1e1b406e97c43e756acb7deca53fc21384ba10b3cb8fc11efcf8723a9b2ef2d44c2ee8e2622c9f87168850fee10de2d1cab3d715a7a097d15e65c37d47 0x110d9db7070b561629e0725bb2a2a1cd7bb0ab83e27b70d6e8923713775db873f2045709c998b2c8c4931ae3d8f53417101c127de1ad524add913a1d1c5d6202788; P1 0x1b437818f08571efeb4eb5e0701b9b73145d858ec708dd922c5e076ec05d9f08e76e394034d28b1a98d91eb0d5be0c0f9100f47f2843e2a91b64508333914a2395f 0xee69955295e923b55663bda3dcaeb1a79f5823eab5048d22f3facf8f8f540d6383dc614ef59993b101b4a31fad2c3c30b6cad62a8a9e4b3fe143a03b8cecf2621f; P1 0x14d0cbbca15608f2f5a234193338ccbd0f292189fcfa473f32e7f6e7453febfaf35807e4e4d3268cdb9fee491329ac40624def7491bc8346e4a875e6cee19af5f40 0x1db25f2874fb7decb80489afe3ed004689b566ae041bcbcfeab41733b5655372a00a34a9f5fe0291a825e53ba4df460ec5db6a928353fe1972c628e9fda8a569e83; P0 0x1b8f2ebd1115abd15316c9e725f1b058f1075d3bbaf4f1583ae65f717a34a71e745783ef1facc12d0a3f6b60fedecd81dbc699a23d0d284fa2d1d2ed1ecd412aced 0x3adeccd5c141fd1505e7fb83e00132f6fa3be038b62954194a2a4f6b12468a04878c3454f9c2d6b63dcf65ebaed855f1bb25c0c880b7bcfd10c1b1033cf23ca3f6; P0 0x6c4db5c611939ce661849a8dc718e090481f6916ab31bb80ab52022c58672132959663583f0728b99c4821718a86dd89049ffef2cb639285bb49c1f67caf6d07b 0xf7ee6878d30d8d0f43f78fe9fb765facc7ae5c173bcfb0bd4fcb52663c384094cdb21126521f22c0ad56bfac21a4b964ee0be0058bec2c65f38437312274a00df; P1 0x1682ce16f5bd673daf0471f3323f5bed3f0bfee873f6053ee56a23d88680021a32c234e2be3a662d09c7b4c8cab4e655e5a3916499eca6cee49adb9540404a675 0xfe0c737e3b08af5a43f2044b59e1723040f95dc3c25a46f351f28332696ecfb9416e52bc7abd23ed6e04972341a885430f7eae43ada8cdfe9073840a615ccaed38; P0 0x7e0e5ae4c28ab607c37fab1da44b073d9b176a79ce7497904cec815a50e805645aabb446f749583135535f8a31cb08b205c89044ee289341d837b7fb831e54d882 0xadbb8b722bf28d6b94481513b678eee55c880205888e347ca71538ea47233531a6088098b91724d1f06841f21958dbf7f19a1dee10d57b0384776a9b4e968594c2; P1 0xb0da85cbfe3ad133dc1450ed63c1acc504cfd2d97d21cfa41993cc35250002d8845a5dc50bc436653e26f87fbfb63affbb4d4f0efdd4320f56a3649ffc335603db 0x525d0ab17c8546bf6dd4cd971c7eb6e8b0dc4d7419883b705a3bb7715e80966c36749655c3117fabe142784ade00dcf705d8e2a5845ae7377ac57bc6b9f364ace7; P0 0xd3fde553c961977efeb25c45b9dbff55ccbb694c6a2eaf88e42a57d511471cab614cf97b5f526a24a0e5ac65e4abf378259c041e3264c9b66a350dce2a252c464 0x1e439ecff6e5590537b31a37f3b3ebc6901fe0d74dc81bc9fe61ce217eceb435644bd168611dee67d30c7a989e49ea968699cbd6ae19afba9fdb9aa5e96b591fcd5; P0 0x1c9f58aa09f2d4f10578ed233dfd8322cc3bbd02c6e739c5d2a43f5e9cbb9956b2eb7daee3b70a6a03711a8c25aaf4f623a9e898660b210b43feca1172f1c31bd45 0x11ebfba49663fd7302bbc67f34b045c429b750451e44fee6cb0f0a1f44e0a950cbcc1bf9f5b46622153cb278845d324fa6dd94fa8f5f7a6d6a20f0d8f90b12fc67e; P0 0xa09879e9c0c5fad97cc5f1e9b94d0e40c5c5da5151ae274b0ec2654991bbf779727965a6d3776d52ab5185767b6bfceb7c171bc6f027c1725ea39bf1c168f1ef9e 0x1df8ba2f4fe421516c7ea462dbcd2f210b021eb7f917bddf47c1701b62bac8e975cc8628d5241d4ba123d72f4ef710820a92e7941ffb173e1aec08b1ce6211d15a2; P0 0x1c125ebfd96a13177ba06033085f069fd4bf32c262316473219fe8723032e295bbf1fb0ea169c18bb8a9afdfe1222e25db4288af5e9749b1ac6e344a3540f194201 0x166b872d30b8a76814762426bb336eb48af130fac436861f9fa10691a531ceca553175bdc18b854ea924c306dedee499ed497e110aca28e03254277754dbba13c85; P0 0xfb543305c3943f5fa2e68e637cc7bc7227f3b05bdc260072ef5830162640df8badbe278287927f6058309617cb77be6d8b7da4cc20f2c0f9daaa626ebf69cff8a8 0x10223f8350848d14d537ce7cfebf4a2b06e8b8867f7003589dd3d1149f91fbe9c17539c6cf1c23190399cbd2263dc030684a5e68168c7174e834bdd5cb8e56895c1; P0 0x822642ac59ecea694daeda7c2492483f3a11eedb8dd26a34d8aadfc000b83c42a814b8929b33cfbfe49b637a60d189fbd4f4f617dc3a51d91677ef09a08cef0e69 0x18c89592331e153c704222bb965853f7090ece6caa58ecddb6728cc036e5784730a03b672385ab280d8eae7038689d03ac25f131d0d4487815bdcb74db5db5949ea; P1 0x39955d0301d88f9d11612304eb9a2238cf688956de0ce829e5373c793ce05bb4c86f36a950de1f3a5dec439c018ab3dc900ea517d7d29d797a9e7b8a5a8cf0da09e 0x8157f93797f4875865c36e0e94a5057776f3539bc37bf8a6fb996539353b1e400e14491e533b8dd1b54f49feadeb0559da43bfaa9a09eca03e595e2b25512f7e4a; P0 0x20ace3b2aec57523b4994f76faf2f0a91e53d71d1b15bf347ff9d083d5ceafcdeee314331ffea10706316dce2b686c7485e6714ecd6c65a5550a65dc7289aca5f8 0x1f41127627b2633dfda6b14f6e79bd5329b24df8b3c67bfe15dca1955f9e1a5496a238c7465a976ac49b307deb23855dbcd20fcb679d2d38493c2a45090fb25935c; P0 0x1e869817f79185e8ebc9c79ccd45ebae79a129f1913f43cdfc2e163b5e90b4a5dd86c78e5a355b7ac4e6454da88c8932185f1dcfd3232228b770658b7735f000858 0x5c396e4314d05c92e2b7b2dfe5073ccf9e586e48d69df16df50eecb59e1db6c7951630e3ada0d4c770ffff0c2221a3d4e320d83cf048aa51ae40fab36db46ad168; P0 0x109caa1140295f64e156731250e42051bd67b82649a6bc00e2e1b75ae7ff58434384fa44151e49d960b1bbb651ba29669448adcde2ea03e0486d9157c49f799c8d 0x1316936779ca11e745fa98b868fc95580fb10f7a9e2853392b6f35c925df817f443a19cf6583187fffcb7bafb03f4f158310a489122c18bc4defa57d60f4e496cd; P1 0x22289ce8a1b639f0cdcd0f3eb0e1bebec3bd5aa3b3cc5fe18471d4a7c2e778e2435631c6b3d87551c29ca730e5a70261f511a994962d7b95821fcaa4600bb0585 0x8302cb8caf630b6f2f845e15bbabaa552e246c1b0556cb379a9769d9f194eea029c0d1b9b166c9f317b07161a9597c7178f2ecaf287c1a23a513b030413ab1a600; P0 0x2185ee2ce5c5435bac7ecea3bbef3ae5b9c4489534c587334c7f324f2f7a200ac3b1f2e818baddb5e94fe71e32d9c1df30fb6b310135347f0393a6dc00a9678e58 0x1f175d37d2ab240782aed6285956eb10b34803c79eeb34eb16f97a1dfc78fb8fb49f8df2cdbb21c19a0a6ad107806af1391d1d2c0753b18148d4d92227fa10b8e58; P0 0x1e3555ab37f745b6b09fe7d748efd58d9c4eba6f90c4c570bed353421a1fa5f19cade921e9984c1b5e247ac10b59cd40ca7191b15ad6d3cebbd50e17eaf48435e3c 0x1a4da154fe2cfce536d0d43fe9f8ebb7af71d7276ab9e3a59c4c9c3287b1f2a13341cebb040b39542458ee7fb8096eeb55d8797e5d207d043e4ddd7a38f82f91c7c; P1 0x40dca7791a51588998173c7171371f6ae2ca664bff0248ba154b3d7096ec2472b313aa20c2533046d36495e7e42964c3a9d8567ecb5bb651b98bdec8b8263575a07 0x148070801685809eddc9f214cdcd5fdc4ec95dcd5c436ea73341125383e759f81b1274c6cae767ac4df7e8a31a099750035943878c9c4e08ac2fd85951d78816e37; P0 0xd229025a85dab264c6183703454b86af2ef7f2dafb40d8b5e937537e94eb809ef6783347e57dd3060969ce0f7449da45d0f9b22d6d8820aba8653bfd7758304bf1 0xa7c08ef00d6aa932f547f8b0f4a230ea00c2fc5baea5ea71ff665e7ccfd90aab5b1a933bdcfc1caa387bea289d082915daaeb8f81757095f04d0ba94b12b119bc2; P0 0x36f665a9f4b23c5ce26ccdd9b130f5917b9dc37c3b5da4e7429cd5f82a8070b73733e10686247a2335875a8fd686e5c3d402c151a664a48885049b6021e28ed75e 0x1c4e8c2522a4d43a15a202f5808ca2a065cc3c2e1009de13dc34b07a0dc176b0b967da502696818f9ddfece48376e6c3c006ae0ab9ec3be9af8c33fdef1d175662; P1 0x4b1ea22bc64b53804e08b7c7cd83751770eb8d296d963c3b63f23d311ca7fc7a440510013d45f491c6b5c8666d2dedb91ad44ed4daa149509470303aec7e9ecb2 0x192006e5adb3eb5dc7545ab13a3226519ec4b743f60b46d7da89684c4e6d82ce61f76314bff63c458d6bac9595e0556febbf63dcace03f8e4da7904e3bb4c2fe53e; P1 0x3b2e807e04c34bbb9bcaeb963ad750179a3c625aeff6c2e198d1c31a83bedc60e886e308cbb01eddd4154c0acbdd4e3cdedae8061c029b1b3bc92efc1f3e964f86b 0x16021f827c429f749867fd38e2db8f9630f864cb2671cbaef8d72ccc463fb8b38bcbaed806fa347c6c8279526ff17705d537b483bd1172c5b8fe453c2e84788e977; P1 0x2d68c2666e96193a7eb926de5db67436fbab3504f7f99f734ed7c2f6a995dfdb441b3c4c9301409035480d5796c305aa6aa2e135972843bf5205e60c05c1f5e5f74 0x1e19db64b254be54794022d5721a2409fe251becf6e219307a81c74cb0184a69ef2d0826ded9c3db454d5e711e1efad00046fd9aa3a530fa16829d4fb96cf6bdf67; P0 0x1c5090417be10f0e27ef26f1bd889f4f6c91a11bc6f3dff99dcc5629a873733a48190c9b348ef71c7caff9748f2b292eb1f9db72ce5e127c3320a743e10351dfe56 0xd1a8e7396a4343cbbda5a2a51d8940ac94bd675db205d271cdd29f6d5554b5c177c5b345076a167d69e7cf85446c7293de1c6d7a49075800b04d99a5814a2c99c7; P1 0x1018fd57a1190f3724e3885a596cfff139f9f550c8b0d07494d948d939bab4a796271a2fee5be1f5bad7264f19e1d169280b97772a1978e8fd4d73d5c196212e0f4 0xb1c26f085ca5c490d49900a7ac2a31d8ee5e8f331e6a3bfaff3740390b6e10264f470d147b701c28767a42cfc6a1e9c618d0df0fa72751ee566d94fc830694b07; P0 0x3db7389b0478f2d5eeeb9e6af2616beb30eb644e4afaf01aa12a6e6db5e6595c9a10684214aeea67750a1508277ec74dd1c215b4a4c80840aa06bab46421f95e 0x1b45589896f4cf84274ea50818abf14cdc19d3dfe4fabe7d70ad9b404d1578e16e7e35646e4bfe98b932e78004713125f1471b351fc9ff70b7e19dfef15a5dd138f; P1 0x45b8d35992369b67be34aaec6ebc6e56d7584a75b3b879a2ae35612d0ebffe447f51d569f0b090cb878469e91a5630563414bfa449b3f4b3469de55008165a5e21a 0x1f46ea7ccf1459e65c74bd57bca3ba584956c643e47857578fcaa5dbc8c6768bf5c4dbc8e48de165c21d95921a7151a08a854fb7258133a8c3a267dd546bad37fbd; P1 0x5bb60a6f3c8de7a21e97553b9f9c7cf6159f639ab6b62ba8d7b5e28282f39b1cbaec198fa08987c2f9d21823dead5994b06e5391db37916a6eb1942c9fb69c65ca5 0xbfe7ce15b03dedf5db167dd47568752f398040199719ce67c9e14454e74a8bddc4dc1f1de9688fe0971c815e7de96755eb942a829423507c879cafef1ec9a79140; P0 0x47eddbb4f703b1292e896fbac9356658127cd5cdfeca39be48708c8dce338f60b945a50e1d4858964aa8c51f382c72cfc87f56a998e8f8ced12c22ca3abf949bc3 0x1009f06a5ee78e3ed5bd52d27924d6b89bde585d423aacdd2c01cea868dc12401bd74532b145d1e68743f4c60e61dc557967118603485a06caa84f6e500137e2bc3; P1 0x181dda81faeda4f212dc28d6b2052dbca9fe43c293ba6fc6991dd349c61717a2423ebf55444804aab8bfe229c79cab12b13521355e98ee692da10f6537a46b0f8c2 0xfa578bc2087e8d9898b852207f5f23be97e87a56f8ddf06493df7021cc6c74e03e66f3a13b4f5a689079f34aa657f836728d9b0d9384ecab44dc96d7846efe3c5d; P1 0x16f36a85ae427d84ae0c76954383930b8ce7cc2b76d3ecc4ab18b1f18ef36d54ab6770253b632fb9e288237b91b967dd0a84ceb97cde97142d1fd5b418e207bc471 0x119f42e45506cd4643c58d8aa09b4de87114f584e678ba0ea97a2bfa6bf049d2368f5d654815285d19b7b608700ab17110eed617104012a72eacb650c5968d2f1cc; P1 0x1d1cef1ba9a93d016b9b9319bf48e210991735cb781206ad1e90c7a8e8d5225c53ca4343a1eb3813410f5b0c5e928ed92b61af1e1a16c3d59bbc1d55f50739bbc7b 0x1a6a8e83ae2791cba14b929c12844fb72480d8f091f91c95e0d9562cccbc63bd4cb3f5fe036df4daeaa88123ca02cd0a3911955d0ea5e2bcd7a378755ae78d0ec2b; P1 0x416b9f39da3e8fa8b29c703e0005f92e2d12de24982546b1a88e927970b1f59b14078349052a39304e171bacddae1e749c992bada72015f7422a002df87e0a16374 0x1c079400f960007a49db3310d27072ac393767ce2c791a3b36715f30477e330385b59ec88ff6fe6bb55b9b6499dc65abf5c404f53955c9ee7fae39f409eafdf511f; P1 0x49a7ce67641a58c1779eb3a41156210321d9039ad7dc83f1d2fdd476aa032edc129189837687ce05dacc9561b4a1a0b40bfa7e262056f55bc2e8a9ebd2e4c310ac3 0x141550a0bc9e796b88fbf905db4314390b041d7538c31dabd0dbbe19c45329e83517e1660281c708c20b85af934dc1a6e1eb7f5fd287fcf96857144df1ebb54f006; P1 0x25d018f29dad7ac20fff514cb0618f451436c19222ff82df1e61481a8816d1d9b79b48ca8c3d824152ea5bbdab33c0349f4670db61f9de63baeade407798972d5a0 0x246a4ac52ac80134132f1aa25d6c000ed718bb027c30df995caae13efeda9627951c007f465b1603a49da4b03237cf68286c8b2729ca1cb39c5cebc0370464960c; P0 0x2970894ba9321471217aa31b925bd37c015a32cc787f42868ee878ca811024abe240d361d073519463c3b5a38a922332483a4285113f2f7f9116ebf63e060a971 0x4c9e6d6216bda9cee770c87516122d4f12fe058f3a8f22ff41107e1e16ac70cd6a7b5177727d87906c619bdc10dc47380b916d1168db7b8d86efd484c1d1b2ba01; P0 0xb77397eb8a8adf1b152ffb7f74d95c7c8bcf89d0b90e58918cb444ce4c83ac196714df2307a826b3f8255a0330d0cc2381f2848e7e442ac043ec611edd87fcffe 0xc4ea23e01824b8498f2f4f323f1b407cfd23d7759574ea38e4938ae9a9a359f70d9cbf96b478ad08561bccd02e077bcf35005bd3e8ca9ff9605980dfecab0943ff; P0 0x4bbbae8a5fd5b40aeb53dcbaaf91326fec2869dee3e1bec51a4f6c62cdd5471c97f596067cc47d39cdf862d3b2c72d9d56425d569da8e60e57b1ece421efaf6421 0x895d286b28b09f2ebdf00efeade13818dfe23cb5e0c12a5cde5780527eaf370beda45621f76fe336320cb41dd80d6e04179fd366a1856c2e8eebde57673acdc22; P1 0x6e8f42bda0af6668e0aa6cbeb7ab2f397dc28c20ef17f9d5685c3c9a1a9a3ba143c6c511383a59efee74faaf40ba5296f2dfe6fa2fd8de6307b03b15a02eac11 0x42bf6181c3171749d829723f7c7d1c5944f5323a7dd3bc47370bae4ce567e9bb8d008c898ae12ae526d77f9568bfe7ef8c30336c4a9234782e1aa9cc9ae51e099d; P0 0x8b39eacc6ae4e0a429ec54614fbeda2250a85dff522cfdf0e0d7b723dde51e35f2eb9e9302ca2fc4c866bb67b2b02125a3fccba776b289619223e8508bab8e345 0x1113b62d22fc0bb730443d29882e3bcd572cdaf16b2a271c0e4a7f28d8b17c6f806007849416c0f026dc892292f6525082b55b5c50c255311020c0d0ea5dde14d8e; P1 0x1b56f91d07b5101a57a1ad279d2f94babcc6c7d17536647c4155a83990bf4543eb7027104bdbe735cfc30b78f9d9f05f044950f60eb67e227eff59b436b37a7a9f3 0x184ef4db5f231de193ceb4be28ee740ba0370f607b5ed960eb148da26aa70ce257d302f432ef5c8d0d25f37c62b008f5db940204ab1b5090642c2881920fcf7da3f; P0 0x1277321a0dbbc2badc98546a9500caf022a558a51d115ed5433ee8623d6bcd5e8ef882c3ecf9bd0e36165fbf6b48e3a35dce286949e5ff1f9b0685b38f17ac035f6 0x960d3f2f84c8fb2f0e2cc58a19ad41a00fa360b10e032cb8a99d41c4c3186ad2f453cb9c00f6f750e46dcf54c860c9bb7fb8641f15915359f467dafc5462619177; P1 0x83ed4a18bf0b266a6689c3aba792a8f1050578e2c2d46ebac4bd7d04d5e5290e14d8539c2b1b12cfb13816df870aa4bf4dd36f845a02f776026aa71cf9e83615b4 0x14b19f47372f4c9da46261ab3d20d9faa647e58e233d30413af13ac0bdd0e16d275192f7f72e186a2c925d26ed0395ecb0199d67f968a47cb95154e0ede8b825a7; P0 0xd61e1062199ede7e7d2e4d14d794961977d4efdd7d36a310ddb75f15b969c4cfe234932600f157639647b8e00cf7d5d096b2a1f94b293fc18b7a60211f0ee10d 0xa42aa737319228c8572862c2e6fdf007bd8a56558210671fa7622238f2b4b78633c2dc18d43f4fc546fde04c8ac9a7252ea6607126e6c7e826e97aa00bf4a893fe; P0 0x34a356ad016c4b648c824352c03efbefb605873029fbc6ecf09b6336602ac47924a84a73951c309dc4884f1cf4219ed4a5b5ff1b211cd92cce37304da6a2225cfa 0x6530a65deca2912d5df950285fd4450f23cf904892523177465f58414c6ef116e9609594e32d7d09cac0dd9a9a80e1812646d42f9c7ad47ca94a944e9965100cfe; P0 0x13ffb64276077a6e6d25353d9d6e87c39f3a577333f40328e68154663d7cda3c545e6d6bb677778c672938c87ab3e13447a1b20c3a3cbf217e6e906cb246e2dbc1 0x781d23d56174d7a716ba030bf090692a73cc2c7fce3be743bbff4c8ed340ae387c4ebf294887451829a981922f3356a42ebac8488c7d22506c09406790534ba7c5; P1 0x5488ff5dc6167dba287ec104ff5ecb9b81485a46355c9a52176a34abe8b410165d32744394273b7842a532aedfa29d59f0d1aa0505401d5314519f549ed9696fa7 0x148941fda8b339b4bb6da558295523f0ba3e979e74b720a0570e19da10516e829ea30f9386d8b2aae60c8c63d906ed83b528db4812f10eaa1c99ac58eef458b4872; P1 0x27899daff4c09c6d82cf337c5e1af1752cea451536d9050e608214b14f49f11f9f6c033d1b207a7eb7de9fabc577ee5bcd0b637615dd211857020ee88d5ad86653c 0x1c327db0f1a773f29b673312c0ed1ba99e994e55e1e8525830288f42a3951d893e8ece99605fc80aaa5439106a4095dac291eb492e297ffbf6c6b46e1e94a6b5d88; P0 0x18d8aba05d8a688872d2b55e3785899c9846c66a01ae0582360daa96068ef572caada69cb02c9efe7e383c8f27e7807d5953c4b8abb16c29660f2185d2c0474fa9a 0xedcf5036283e1b474c9fe0fb19afd49a56eb7c61dc9c8736e80b5861ac58134202b2d569c87134d8e43a8d71c988efa08c3a35c7723300cd710ff3edd5f65112da; P1 0x14b5e439aa2d6f354ec223805c7a138a19e79ce739c81a626246773bdb1206937cc7909b6727bd4b631d473de46714f5fad86903e8d2246f6962fe20a3dc66299e7 0xc63abc37d7c6d4b9209e493244a32de53cd9801ec2da116bba016abb8906ae3353e7fb5806dfb20745ef9e959edc7cb2949011ae96f5a14101f7e8d0417c68bed3; P1 0xe63e5cf050331c61d421c6363096678fd0198bef9fafd03ebca1e03918e63ceca8260f19ea5c2ba0e679bc9e1d5defc3bc24292cdf8ca6d66db1821f2e0f39c818 0x121acd876ada5431161bb807a4a62ef46a58766d828b12b8e1864c24811c3776f3b8e0f4f1802d795d01e1a978f3cd4930f031d57852e8d0c5eaa0a5fc814436dd3; P0 0xa3e3dab7c54879c564aa4e282300d290dda51fb445b2ca4b3911b552640ecc8c3625061d04c9637ae9875f0911460022c83aec3981834146a1302232fbf50f74d2 0x13e66529e1451fb2612ef9dbbcb66a386ba9dd347b54f027195f1f77c7700536740748f2912e59ad2480813c55ca92b0fd2a4a92ef4dfe0f41fb7170197989ed0bb; P0 0xc6012f13558ec1f42a8ad9b7fb9e989e4173b00c3bde8d34a777c7e0e33f92a536aaea331d391027bff0a23ded33e4a08b2f0b20a47f477e14e3deada44d14d172 0xd3c433309f28c78a55470dce75e7c11295f8c0d972c4e546dcc6c32807dfbe76ec5866db8659b03f35d4f30f8639227444fa6f42ad4a55874a63715aa2ae193a0b; P0 0x579681604986ac02f312aae348aba41d107c2e48dafc0d398f797fa2a8579853e341da53061e21e152c6a9def47bc8f6de4d0622c8e4386ad3f6339f1c1121ed8c 0xbd4aa5a0060dc431352f129c006e4dce7702dd43cba32ed2f4bacc3c8f437a8056cb971a7261a912c2bd876125762581c3dd054bec03af9224410d1e6b6870ea05; P0 0x45fba7293a4dbfbdb29dc9590ac03c61a05916b9c7b47940933ac5ea32a406b97da4bc43f7cd515f54735756b88e60ec71807d94d7637f412394f4e632d21d8683 0x1fd5549c7ffd63aad7c039c5f9ac14d68ba34a008df04718764a296e76eb84640a2b0aaa8c9ef9b514a83b11d41f4bd25bb6e34276044941264d34fa2527c6aaa9c; P1 0x5f00a65b7152430a123d40b41f958059a9ef17aec45d21be94e1208e8bd33d26e3ccf7a169c67906b4e5f7fb54c43ba573fdc29a71c2036d00f56b7c8912de9a88f 0x4964ab0dca5823e955daf38afb4fd38c58c0b922169e406df920f2ba3a45d48fd756fa8bce4f49b5c5508d1e572b878758d50a08e1d417db0785be818bbe9455bf; P1 0x1f8fd9b5ebb3a99a952dcb0c8babb0d544a0289a2220942c9097ab5b9cdf07ac369496ed1844410abbbbaba1f998b44718cb0ba2faa381bb0413f59f7715597602 0xbe7088fdc907163253fea39fef673f816d201f711577f96b42cd5df87764a03481899afff39bd9befe5a1e038174264a0d00347079cbf5a13f50a20165660aa385; P1 0xd480db394ca7927eed406d319a90d7710aece961f7e38f3d3c67d8848e3aadf69f90ba5d4f9a9241472cffcf2a3fa2c38b895c0745e8ebf906f73bff88dd4ac425 0x1ff46a39d92539437243dcd27b7986fe245dc79c0907b3a3e7f90f45ba0b182dad0a8578328dfc3b1030c37d415ff83a69a4347167de5b885487b41a29c5dcead70; P1 0x5fba89f03695b951aa499fe6b5df174994e3c4d583bbc805f5f16a45dd87635cc4a4ef0ef492a96d506b149d48aa029720f9bcd399ca9b2cb17bb9ac4d55b2798e5 0x73ea844d4f9030a6b74bf5553a0053f25ec73f293a9bc396c36b9fbfe7422ced920f7f85c32ea1203e155928f8e6bbdea748992773009e23a4f18998f23c694be5; P1 0x4ebace8d62c9390e91a540bffecebfeba3a4fa6bd317797c662d16020cebe19ef5ec63cdaa8fe1ebfba43e3e6c4a574b8ce23b3cc5d8d47f5ccd24fae28588200a 0x209cd6179ccf653136567ec23e047f1541c4ee20ec823566bc87bf164b6e03430ba112c23aff2dc70b5cb1cc7bc5fbd626e1a6805ae7007537ead1d66696961095; P1 0x63b60694a89ab9be21797364d4516d004ffe7335f16a7be5f2388ad1b445f23482993ee69e6590f570689200f10c177700067b551a285b63a517b3382713685eb 0x73d62718937ddbd441dc2a2f3f276b3366dbe64fa2e0f0b608558774daf1551edd1844e118c83a7d79456439aeb5875ced2646ae6bea8358f06b00c5e894436a16; P1 0x4e9f2768335b3dd4d7636148e053f8a8d341ba55c233a95558595e9dc24c376a8877ddcb3699bf8fc10f0ee86781363967219ba5cbea354c45b58ca49339ba9d32 0xbb765905cbdb069e6a3b6ccc7ec83832ae8e93714c8d7fea5781893e28ccce7a8ea69b8b9c1e7bd2002b7bbbd5b8644e6ab75438245e93ce8755891d71a4294ade; P1 0xcde92b26fc2e6a3023175f8220187312db2d6036bbcaa9f74f95aa2aba95afcf59d0c6e4371f24c17107aac3cbca97026eed4e54e59794558a2eb54aea1b680908 0x15879ed127ff630751a4e0b0843c4b85eb4e3f001f3107b898fb6b94c6f960b8331045401432b3b901c9c983dda25162c98fe684a8d62a7449de997429e9e6b5294; P0 0xe7c3f399d776ed9c4cd937b718d5db3b2700b55f029f1ef6ff8fae10ab9ac35516b1a6d982425f5a7971bb1154010b150bd60b3890e137feaee53ba11a57d4f6dc 0x1f803543c1ed5ed182210105552c99b8df0b740f67423a960cd35327914efbf2ae2d4debd0116ffa6d726f9727123f3a2083c8f4633a6a6531afcea86b72a301c6c]);
     (0x8425296b5bdf, 0x1243fb23685cf51dcab5d05385275f63fd3eb2225aeb2ae3e0e0260d09e84c6a7f655ece1b14e54b17aa512c55ed94168a203bf70c908e1934f8b6fc04f971cdbfc, [P1 0x0 0x3; P1 0x0 0x1b; P1 0x0 0x88b; P1 0x0 0xdaf26b; P0 0x0 0xbb41c3ca78b9; P1 0x0 0x19aeb6ecc6cc8f7fbb8a5e113; P1 0x0 0x7bac4e64237274c0b85ae310d2803ab9a396aacdba921363b; P1 0x0 0xb33d15e8f9e2604a9cc8a2fac0a9f8086c144cbb6aeed1ce64ffd4b3410ce18143c1759c1cf3307727dae0cc90c618d4cb; P1 0xbc3db8d2e0869056db3e53fb1467d1e12c899de19704f036c64aaaa1a52a1024eb 0x6f754798d3256852f7bde409e08fc283358f57de26bf1d7767ff82118396745f06ee96b234cba3f5a5261c81c4e107acf00323b0e87a1cf0b3c182a97cfae2afd6; P1 0x48ca5eb9933a598535ac920eedf389072e0c83ee3c8971175fe3cd9d2b3fa846742239f0a65676c49d4c42310a5f5b2b4e06fdf6cd83f966819d3d325669138e95 0x865d5bf49c451bf480249d6598e6ab6870a729fb71c0ee9938f1f05bebe144e3349342eef8d959a63697dc1c66a6f0562b43a8a4588cf69294a2c74c11cee6341; P1 0x69c8cd7806868e74803345eda1ea0b495f7840950ffd24a2a7774e94f3f94f6d091e4ede33ff3b296c732d242ca86505b8dc910e097529daebc403b07c04a1ac 0x181d77446a380b71bad1d26da30b263040cc64f1456c3cc996e3d219e92cf21da18550eaec2abeacfacf01f317eb95ead549b6629852d3685fa08c8becf3e0aa52f; P1 0x3684ea19978dfd0eeebe9439c3bd1390ab837400c5edbf23c9e3ef75818e85e1e161d7f91a268933760f0064e8a27c7ab8f3da72598f86870d01749d453a4494b04 0x863faa4cb0f4b32bc7c87de38ebf17cf51382a7493ecae9cdfb6309fb756382e33fb109f83d884e0d40819b3a6940e7a91cd967d8740ea7aaac7efffb5e70e26e7; P1 0x699a112c526dd100d5663016f9da11bfe8476c4d2c981b5efc7a8be53fc1b4bd8c4507d0e1fbde4eafea2ac817bb5fe5fee57441d2618c0b4f5ddbeadb1d80c53c 0x1883376fa62046b37de359c488d9b444aa57bed8da37e348eabdac31a68933fd5fcd3715c46cc29d3a4972060bc98b1d780c6481c616eb8116e1fb29c49908f28f; P0 0x12c6ed35bb59e2eaebce3820e1811e54400fee519dc073551852c08ed59391a8c324a5d81a6aca1aaa167410528da2f149bae5a81c242cf55e2adbe386d45a645 0x8188c3cee4a953e566ea451ba3cdc6b15d560e9f48d367120876b5bee86d1fec1a4e3e4c89f153604a6d24e7048dfb3f4e79aef3af7e20ffd473f8a96f6a085226; P0 0x20c58f33920539028c02fffd273a3dcf51fae24549457c8c1d2d479f7caab86affa3d8d6d08ec5ca47476d298adef2176eb118d6609cdd964b111109f844fbfec4 0x8edb664d0c3c9823334ec96f0fc79afa3a9b47687cd76db72d9cbb24a0430eacc43758711aaf2620a00c31ca86e336b97abe3deccd91128da47a495738f9b85c68; P0 0x27dc10c2d523d2b1ffb53f773b94af3462a45cea13b98c3dd41e0f25938f9844ad95fbb0dbf2d74e3bda2e8a7f255a7813e7df977ab70d2cf2f5388505f49e8259 0x7d28105f26166c3b366d9330975f079d464b1e6e884d55e03717c9d5d46acf7a04e65a2b3cadeda1fb42ac755ccca32366ae6fccdfb9e80bd44b97cb0d3b796c99; P0 0x1e98132104fcea69debf3469f369a922406b0f3511997906c49e13ac426229a355777d10e1027a97077a3a3ce8f6a211849c824b90ab3c6574403c8d99eeb7582d 0x1411f3ecddc0e2576f3fc7a9d42697126f6ef72944cb36e3876367b593e815c9a190169fc196b4631f58576e0cfa8e6415964ee5d2a7e80b4bdad1b6cca4b6acb9e; P1 0x25c370ef8caaeb2439cf64bc28b58f13b9bb1fdf88464d2e322106a0b18abb7d3ec39c3f7ffacd08d1f84b1ada3496e70cdf16e6ae30342ef2edc1c3da532b61003 0x10ff5e8d89865c62730e79934e6eb4e3efdde43e2a185daf27e398b6a7b08d2deac846affabc106a9dc211d4a5a0e7b0c4bbaee724db3d822b9fdc36d40b119f08f; P0 0x907547990a823be71f16301a05856e1899e8433ccbc456e61ee32a2a6ac52297c5020750066167442487189cf6028c68991839f73705495e0219c9f625c402b4e4 0x15b5321bf56ab7b63c80e0cd001e78627a413a11dcc803634fc5ae2dad3baf4936dc96c1203c06b564d80f5da5195a88bed4fd21d17493842d857fae4ec5ffd24c5; P0 0xeb9d3c3dcdbcfb869509a90ababfae99d99fedf2b00b521ab8408fb8063f95cc816c48debaca3d155d835313cdb80475f5eb2a60e57eb5286bb910e747b40d4d77 0x2059d74d74e970c0137fcdbf6bb4a5db03952393e3ca2343106a1946a083e74f47dcc21162bacf3e65ebc46da0bd7eb9775800a9e104a83781780d761b9cb74d10; P0 0x20b4aad63146c2807d12cd2e8bba5b4b0dac39c4b4551e764306d7e8384dfb1ee674f041eda33a2ce47cfd82be1426098a3df9d8b8dab47d04d23b310df39796f 0x1c2629b79a9d11cf361381ee12ff37d3df4e6cffcfcad6cd721648722cd600471c689514444a6b3232e0a75e220b7dc1c5301952342febb0c408a689d9ba34c1a6f; P0 0x18c2f6849904addab7ec0ca2e663acb5bcdbbcdd736668dfdd9a11561c698df0082eef1f62d8a9b04822d01c964a072bf68462ce032f5cff5fba1eba678d9cee900 0x6daac1536f5ab0a0424625c47e82c08ee879ed7ed28756acb0a495e4eff50b204775be323781792b8a7cebb37eeb6097eb5330cadedc0c94bb46d9cf2be871a521; P0 0x177d6d4330d103f9986bd93bef9327a977c473479fb6bbb15bac9030ff1642c0fd6240d46a6df7284bf30a9dde9c6df0e6df84b47f69227b9ae1be0b2d535950ba 0x95373ba407a79203cb79cb33b8e9d77ca3692b20f48a1816a49ca3692c94fc66c7faae99f939309a534a3d6076cc439394009391b97c66223891f7100254fedefb; P0 0x2b7cababcfa4af4d1a5c50993346287dd3552ecfc0db95db7b70abccdd678182dddf03396bec957d794fdfae45ec1a25d9fb4b3514c89ae1006f2bfb2ad8aef7a0 0x1c80edefc9344404455bf347d6dbdc8b3bdc1377b9e4ee57b0b60ee79b55b3f0bbe7b3dad5bc9dfa0fcd437a580f7365a167447e3230d2421e05999172accfb41b9; P0 0x1963a7da0793f24838dbf8594d9872f00584cac2005c018aa8da9b1e85509aec5e66c844b5c498094e28ff5d1e8935c0f2337c9a00c25352678ef892613e0bdaf95 0x3ec6300799dff0aaa213d487fd7e3f769c66bbe2873ccddde3883709adf6f8afa43891263921ebc8a643e9ade927ef6e3637c23b615faa4c3d2d0d5c20aa632746; P0 0x7b24c5901a6ac7457b874a607982c5f3ea744a641da612f45ea3011c34984cabdf94d575d0dd8fb5aad7d265245c90557390ed9b8cdc7b6f4c5afd7f20153ad90 0xb747bb7ea0d3eb579568c20ec2d1d0649ab8f3eab865aaa606395d091aed7375af67a541778f94527968385fe2bcc598ceaf3bc36cf5b1a6d3ad37d0025f7e14b4; P0 0x419bd11449bf36ce08d3ecd3116ae37fa543f19bdb48121b4b1c5bed37bd9f9ffcf8453d28223a4f3fe66aaa6cf336b0e042f65ba539ae8560013758b27bdfbef5 0x105ef10b00266f457ee7b4440b7db1e5e2c3a7944f5ff431eae9c2bb50e2daedbecdb0fd5410fe22adf3a1f731c2c58d5741ae1de8d8e5f6172b1cafcf876bc5d85; P0 0x8600aba3875071e3da4bafa2dc62dd90a0cd3ba43f5d05763570f81cda8ae78c502f7902f8cc91092a972f7f1e9c74742e709eee1a165a09ee8ad22ccba24a8c1a 0x301216084036660d88f6830d1e0b5f8ea7eec458b81e90dbbba3a34ac17dfedae2e077c3432bb2eadf1c28852970e65bdd6233a0314ff813e126db674bbbcc7333; P0 0x48364c519916c9c6d27d36420f561661fbc4eba1dee5eea7cac7d055a857a416c91442ff7fd36818a6d8697cf5ffcfb5be66ffd3659be63ea35b1540d362650c3 0x2724e84c68287734664db624ced50a98cd1489e164402752c3d4aef95ed666e4f1ceeedacdab6b4b633b90948659599973129091a9de0c7f168b36318385452cec; P0 0x2fe220cb80219a56c2f8d920a5367ffa34092b133afe85c4b14e4906c0e0c8b95c99b2ebd92a0f8a16a3e47631c2768355ef7d9ce6813dbaa3c12a6932efc22dc 0x4a85f30697402e694d8e2f21b963b0aea9461b3d1bf3c0af27a265241dc998d7d90e0897ed4becc06b3017e1ab83164c10284ddfdf3872b0c79d01eb79a6161c6c; P0 0xad8db4b1d7fe36a315dd2ffbf758291d5091a02c747aaa525b1aac64722972ef71dc0c81cc816011b2a89aaa3f2ed3696c30254d9a602104702d7e7cdb4283be5 0x1c8a40423fe5ac48e16966c7347933b77d6230f5421a88a88e8c6a97002abb7b765bd3f51558cf255332fc57e650e57a3d28a144f77b8e9bbf2b885bcaaa9e00975; P0 0x197445beac42932c43319a06ea16cde56d945658447585140498e4b705a7a9b291b6cac7607d0073be7fafd04d5794295fe5c8031be3577ff03cdd30bc4a682882c 0xf76e48b74549e53ee4040422e0b453f71ee6640dee503c87af923c4b615f4fa1a74967cf514dc2c2aec11edc34d60a8b03b53d05d6fe6679e0ed8f03b5ad9bf7a5; P0 0x7792ffea1ceddf0708b2df41c6dc3294a63f8d18ba0a3a8128d8f720979db67eb27df48a8007341ca2af4d2145bbfc191475bf4186dc02a00f1d03b2895e0dea24 0x14a07b0d2e770a9d97db755336cabb635708ab5ef796e39c90b1747503c63a9d903abf7050abf497b617ad088e97f7329816651ebe869027a95e56feb96316bba7d; P0 0xd4bbea0d712ce504b8cfe0bc91646eeff4bc05a555b78ad760e4b717573f6f4f24dcfdb2b6a4b9e77cc2badaee714b2f2c963df222a7c6a88a45d91af3031484de 0x16fcc4b7920dae3e8e388b5ef6771c48cd58b1e89f72985c28b76397abe883398a998b3e78dc4a6ed332a4c18b88f5a458025367b52a578ff55c698e28496c65e7; P0 0x10835b1b6d5c01470a61cfb915f33edbe6cda1bbb9b8a9d8a808fc381db7adf51bef34319fead201f078a6fa4c41f33f40e96c28db63ffd90283918523ccef2d5 0x18acebde286eb7cb8a001612fb7ff6bf69c493b33eb605a0b9c9803d30ff63ce486170b3bb24c5fa38939e9e330b653737e93595b274957f7ab0fb234861e470946; P0 0x1307083b9b65b21479d58f965ab2a7ce17e5c47498518188874a2775c833f6d762956818856809aa94f26cabbb57ccb61043d5a6cef410c1ebff3e7a82cc6923a50 0x137545ef8074f8150d7a32581a2db1c06dfb5abe023dafea7996151e3480ef88ff10dbbed69c0580c277ac91f6a82ef3a06d91373a3ce40c6b39ef6875753bc3974; P0 0xbd4f0d468be18705eb19a27957b4d91fd6bdcba8861aea92fd08a81286547da02c8defb9eb8ef378eaeee71edfc0ce2e2dc531a5e493b7834c07462f1570ec57ce 0x18c4e7f495de84e8119784d7a442e32d8469d1c16b922b2597dceb4af9f3b5b413ac3ae23e7db6ee201b52a7c8b24945a65f0f7684e6e8dc8482c212b931831345e; P0 0x132c178ee6542e651362596dfc5bf3be607978f942b28cf30517ccee009c0a2bfdfa63e8fe0651bdbcad54ca2c3c224abd00f275d116e4675302b032eb4d6783135 0x12faf6cb9cfda0d5048eb77e4e355b37ad77ce16876b0d61cb0a9513f2ee48aa42d015e9373f323b37554e25fba6b6b0fb32c40595f36faaf654da229ef8d2a83b9; P0 0xb4205dcad71ed2f026c3374828f52a157c774407be1a4af4ce4c3da88ccc6ed3d7b2296acb030997a816e5af49b6abfc14c499cb59981c60deebefc3049f72f672 0x16f8b061810b585c874b6876679e336a29d3626b068952bf410197074fc71bf6b905fca40683f7731ca4e2e8d7254ce73eb9481653ba20c17456d7ed49be5edd223; P0 0x107d7f37c4f17dedfd5dbe17666a4e2cacae049aacf48557f697c4f09e07f6ba30b4c4555707ea0d8fa981d968b5a20cb72e238a481dfb36cf50f33adcabf000510 0x15d1e6bbb42b6975856912dedbb22e8b224087e1ca2e4be9eb212dddcdd1755c064f881764b226a763102b99f3b7246171f01f38a2148c66ca1d831730e1e4b75d9; P0 0xee0dfaad008fc718bfb1de78f015128ccda6389d5c2b55f083693180c250423552f588da50fefb1b46cf3a7c501f1c94f039c8f0cee8563f1647049d9649c8c112 0x5888506b682e6546836f28f81ef71f45e3017a36631193e8535d780fb99379c0bed65a422d97b913483b4a0fe993204bea18fcb2cc1c9831c8b3ce3d2f692ed303; P0 0xf4effefb180f28caae14407a6d23199e4af8b372f2762b0fce97b940f407900814a05f41b0b7cf6ebec466c2088c5d122d2ef3f2731e3a80fcb9872b6db220570 0x1324c8f188263d5eefbac5c05c462b30a8d34269c917408d4278ba6aa4c3b9f6a77f3ea4df9881f27226b5556b83af3b6acfc2cadc18768e619b164cd79d423f779; P0 0xb73d8e7def203d5d4ad8104206a0c1e2b1a71298d247117f8237468b7cacf70133baa36614221d6d94de4f941148268b67a50860533e6aafc273b7f42372f17e02 0x1d0a2063c5a12475d18c6b747b624deac2246a55cbd29dd600cc751466ed72c35a987f83ccfbde893c15e85e51d3017f7f01be2f1cfa1e2416ef063457375423533; P0 0x1a5a5de93558592237f9f30163596b7352c362152b96e87afc20a7586169ecd97c299c8683154e2847edaab09323968729f52c8176f1e8cf6463ffb56c9d8a6d35b 0x10872c41fda3a368fe443c9e99e7f1764271ece9fc7166b4b2237835b4b5cf4b3456bc7966a0ccd6372cac1af904e3a22a405b70f34dc82da57454c365bf000fb84; P0 0x889673fa7a5b9b408b4fedae4b13e93e965d5053c23f6eabd04a7c1c9c479c32711db9c06761edae249ec4765e31d24063b93a9a3bdef1055ff412daf5ca60b5b4 0x5f36dac5933dec2ac4590aab66250cdc7b95f259e4bb23caa062cc01899c79a8e3b3e0462482b271ea6eef72f13bcfb6d348d76462df8abb875e433266417cd1c4; P0 0x11b4e10fd4cb955463fdb3f48889d1643e11f8a04b0f74cd876dec64c7a683b93c9ecc16110c9367e96a430075dfbff29ac173776e405a1636c4efb00dc3f18fcf 0x13666803c5179f8d28bd82cb752654f12fc7cea5c954e067b6da9873e9e981dc280551d4d7dd8015ad2fe5ee21c45b0d85835a937afcf4db6bd83b0079f2db32ddf; P0 0xbc2e33ce42d059c03b324a55de8773a9e32865eb86099bdf246497962903893212d693a499cb86ce93b03140bf677d99d7d3349aa15599b8cf69f46cc7553989bd 0x5df6bcc6746a41e0d63ea416b1ac75ee039a78c6c746d09afb22e3cf36a37c0a2e361bdccf67aff4e56eb198e0b26b3be34799c573368d6e04fd21552e94bb1fe; P0 0x113e997bc498827428eaeef0d1f50804ce0c07b2593774f5dd3d7db896170e752265ccce1eae7adc095ed49d56d0dd04d91caf314e9cc066ae11b77625154281 0x27bc54a2b295be77eb9b5697bf99671abc535adea2389a564d58bbe66ab551485b842a53cde80bf54aceb26f08f5d773c87e1a34f41cd312122b164a9047aa7a85; P0 0x315762afead8c488881dbb1cad0ead504ab5b1afa84a0f61c1206bc07cc95b9d7609ff10a4b6c8894a1a341d0c7787fa462b3fbcd3ed18835d54dadc15a0880bb 0xca71f7bafb5b861aee09912c3ebf9f9b7fef8f7764eb076cdf1fb1411eaa59c2cfc5f5ca1a6fe30b4c63e070db6a9b033dc2da4483b9dac81ed4d868de134f89d4; P0 0x500c06d7dbbc5805dc0056dae22629f73ab07b74669553c9404ab960216cc4d7dd085ff101dac02e1630c957f8a1a243997e607db45a2ae0cf4d2ca156b6022280 0x1b9a9f470d077282e04b5a0f6e8a947e8e47b3ea5ae26675fdf8dd5cdc0e024f4252f45d0b5344cb3a0eb3ab7c826bf20f3d9bcbc313eebf1552250d432890eba10; P0 0x17cfd7e80aa4a826de7cc5b305b0bee7d7694dcb9775f06ef82be93a35b88528af7c71978d00d30f68ac23445cf373ab5e718b34aaf9a068628e75b5c6c3a4f1a01 0xf1ca96951c80d2186cbdb6c2898f2218ea77a42775ca66b6c14f44081f29e52dbb2457a005505249191e883a06df313817a61669786d618463a8a74eaa3b4a5b01; P0 0x722f87eb5dc74d8f594f3611dad2cf14dbca8b99153aa39a98a432672c5b5f03d0fd674c90657b8a78a0883cea881a519076fcfb9b738302da20f33a2f60932c06 0xd311d6d6601708c52757a81a37bb08a2011028fbf53764296ffcecc0e357f643321ef541af9a39d776efddd2f066cc5344f8a5c7c8f5b78d6848320f0e9380e207; P0 0x570334b1cf94ebd7bb23a465281729197f2f44bde25b53279f5773575b3cd37eda84db89f4f3ee56b57e5684cc84dc6fb8476afa24d83a8fdabd700698b333485f 0x1e6b6fdbab2218ee96980bbcd13d4686bd99d2ffc61da0fe27962d510653f0d540096db8453baa40d65ced503fd9ea429ff5c03168f4b7cbf2489bed5d38bc3a490; P0 0x1ceada7174ea39f498cd3407917e975f320a0ee4e4dd6b36ac02879df2821106d9cab89d9077b922ad15d997b0a29609b7e8eeb5517e05cba227d3fc47a07f94bfa 0x1e7a84f3070436f208d7ca56579cabebd4abb7968716d5bf75d346471f758b448bf03ad66219e84991c085afb1cbe88828292d593176ea6749023a6b41285221cfa; P0 0x1d078e5f929996be1cf1263b47f3c20ea3d8061fd4ee19c6c064ec2aa273bde90038ba29b43fe49308fe44896c76de97b01b523538d2f859657ff4854cd684fff98 0x14890bdab9a950ab2eeeead77dfd48290196b72ae723126f5866a69f165696cea76b6c7ffc6e657d258d9f65ecb0baf555cd4affce56376c850e6486e9ce1ffa3bc; P0 0xd2d99beed4d9542f3fe8484157cf6f47709e4e40e134b96281ce623eed09121e50bad6e7bc431891ec1d3f0d9b8fcb4474b450ea9782952881b72949bfd2b64f63 0x9db96095044702f3b4d83442b0c71f2073edc88f9ca4c999ede42b1038af631a2ab569d1abf2fbd5f8cd30f68f46e1c196c5ba87aad9a2ea5f88b1c3f7e3f74173; P0 0x30967359c187b11a367f89d9207a2f4997e288a3286c42552ac93ee5ca03b9996ed0bd3881a404daf58eb26621eb25a04b78031e8525688eac0ff4764c9b7654b7 0x11499e274b4a55258f54cf4412792e6eacb33964eea1eb3126c9086a29e3d018e339c4963f4aee4b1199fd7c13e90ce678119ed01881b20e4cd20d06117ea1bee60; P0 0x956e16660eab55aa2cf9de797d29fe956fdbcc1b6f0e1833a609b252091d57ac2ce2541688c8829dcfe6ba582ecde2f42fcd5c120820feea40dc5b28300360176b 0x1e557103a8040dd26884412f37dacbed450a68f3494eb439c2a683d0d5ff3f63b8d0501b63e5886d40dc4c1f5c70f36e5d6f0e55e7e908c3aa14a1bd043a996bb6b; P0 0x1cc11808cd96027b864e64113cbbd5f49fa747869019dd68aac608917ccb3a654e39c1a9a428fa55cd011420a649215b2e2d2bd04d1ca1bcdb8c16e50041a2beb62 0x106a666c8a1b80796cbd922341aa26382cd7276d57afc1882bcd952c3220484ca870e14cedaf75d41a70567a10bd91905eb31c7db3b7966f5eb4bcca6398ac56a1b; P0 0x86bc8346103d74271e48e9c09101d105f41e00a74dbb7900753eb6c992b7ee0c445ee3b5025c367c68c90bd27be169af2bc37c599190603c649450e7ce72bebf46 0x9f723c300185011037b385c011e3fbe6befd1c5ae5455ecf37a495ff824a18cc757e2b045bf77212986086b821b7fa01cb9b5d85e356603baa9e169a7608471e1f; P0 0x31a78cdea5658dbf010275aa7d4bddb4b8d22d896aebb835c0f89eefeee658d5e5417ae96a829197b00e8d1e7b35d1cf9671a63b13b1c31da0d1843f5fc1f0189d 0x5095f64006c4fd5e5cc693e5a6259d50cc8ba9cdbdecf176ea79df46f4ccb59e7a49fbcdc482a38e7ac7434e447bd65e225a854edd7f0cd69574e9d5976aad605e; P0 0xcaf08e04bd10e57f1b8fc448c269eb47e21af49132d081279b8c19dae78547095dd875ef34fd0236a3d109f1952714f1db7ddb0609caec7752af7fa28d65c0a66 0x1548f98e0578db3b191d7bd7b76c9c8135c822f4df193c1f9d814f7ee2cd614abd8d9fb23fda827140f0135300e4886eafe4855e84eacf0bce34d6c1e4611aeacea; P0 0xe286df50073eb118038a786b9770fec7e499873305fdbde87900467dafc64c7d782c460c0a3e85e25892be09d6694a9bb44fcb330118a18bbeaa64c56752f4f67e 0x1306022d4988721a94a4520f3d4a431b3f3f090ad846feab7e04dd9294689a022cb1ec176a6bc802a4b4d2754cc47d20cfe3fcb63935e766173f11ad785e9d83c62; P0 0xb4f23b6987383f2e177eacc35e282553de3b09c5bd9d9d4ee82aa9ec02711cc0427473806ca7b524040865cbebcee5396d1b90b19f430e7bbc751f62a71d8f595f 0x15648ab5b244536cca8d44996a16e533f83b310220718457ea60fd51fff509c2885e0209ea364db78659c1e809c0a77a972c7b8dffb7a5dd63b42be110b752d6ee3; P0 0xe4d31f3c2d701c2075e20a99d169699ae44a5f4d88d902c53215f4d14b91feba7176d1b547ad2b7f22f60410d67ffaaa4a33e98ab53d1bc92505615f423da15dbc 0x2c84c7c527ae27146c540a0e7c47ac2a37d32d970e65f6f103e0629e1307c72f4490c87b238bfcb04bbbbf5a19d4e2606c5a0477a158ee4c77fa999c2fe7773b05; P1 0xb9cde4f974556d540db8987260e56d1556fd3f53b281b73eea93478ac2217356b22c06a504755332cbba832c2df53630a0272afabd329e885fc4b688b75288b4d 0xa165507e1071d9da88c8e167afe75adabb195ba3ecbb1b2e6a056a0064e0fa90fb85bc404486a43ab3137fb742850b45c484a07aee309f51074933e02e4bec7598; P1 0x98a0e302c432d1512fa918bfc2a7d93279fa689384e42ee657f463bf0a87c98f95206f459bdd168f529943f9ae98d0a5eb1f947cc85fd0e9c8fcaa2d91505d2cf6 0x149a31c9321ef23eb9e6a7b94fdc23278db2932783279e6746fb058f804f9a74c5c3996e794064aa4837f2b646fedbdcb273baa90f56e7b3e4724342b61932a0bb6; P1 0x27caefb0f5da997437c539eb694ad7ec1fb51c0732ee4a61e53bca217c8dfd5321cfd4aca865db7646a5646a3dc5076ff0883ab4475c1d405ea71f128dff7b25086 0x188034b3fb4012bdc89bb5b8234366f5845c979f66fb654de9ab12a8d0741fdbd197f791686a75d327d2ab98b1d90f3043d87b187a802a095c936f125b48c75c0b2; P1 0x3846f21bce9504a83cdba335af390750776b1d6f2c3b10cd66030873b52aad7be8718a4a8cb634d0450e03cdd36e7ed7e1f935261a9626ca5e5be02cc6bc5cf0b4b 0xad2444642c0974b3228b4fe6e657bfc7f5b48a69dd9c4b26649a4e9d887b8ab62444c71daf5eb97106d5a038226658a87c1d09165cbd3814108811a20f10d7e97; P0 0x3a8d04c958fb447d3203cbf8449bcf47ab08e9b078e33a996304ada019e50bbce029db5a65d0278b305c2285c08aaa5caffa6e1da034f9373ecfe032e8018a4d 0x97679f7c231c755521f9eb283aff1b785b9df54cf279f415e7f1be7a93b5902459207edae459d27a28a130c89bccd056d4502cecad307bec9c270e9b014ff0875e; P1 0x86511c214000e4b0581490a9cdd1596ce4cf3e2e1f9caba6d3844d980239d38a10695508931328e41ae3c0bc9ea7c497c016d22ee9d83956097bdca438c10ca416 0x13cd1d45bd3db6e074a2aa5c74855f13c451d02770a618cd45f3e4c968418c72bde5a13c7b3efbdb527227a9096d1fdb66c7a2464e3b27410cec8fe4d0b148977a2; P1 0x24c22085eb1acc99f13d8339238527e52933f5938867d7dcf019b3b7123f270a8626ea530eeece59ff5da90876f1423be77982b844c46a9727a2a57de2dca8390ac 0x1cfe8adfcb0b2ab5367cdbbc70fb0f662dbd5c6485f6a3b2d49447c5b4976d187cb3cb6eee64fa3549f2ebeeddad2a6b8f086862532ef75704621085f7984679838; P1 0x4ed01353dc31911b214e2c1564aa490d496c6a7afc2fe39b5f244116ce6f4c2e81f4f27ce52255c1baa89701180697a75198cc584fb1820b2581c0d90052963c860 0x10405db6711e715e800892765d85d414b0b1f8540cd4aff6db35f5ddfee6b52f2bf258769ba6e75970c1bdedfe989a86ed93416eeefa93c9f39eab4eb85f01b6d20; P1 0x18c29d8b17fa4667a574088be49d158411ccdfbca3fe5b5c036d084b72b359d7f73f0d96f83de7411c55f745282121fa570a91ebb649e2f2ce39e199490430618b6 0x3664d0246b609b2efafc8c822805e673fa95e872bb5053d8be01b814a11a405d4a51954ce99149bb9cb117ef9974107434e64e4a6e846d1a84a53c4cf4dcd2e4b6; P1 0x11560743f479c4eaa074c5bd898f165777c85f53ce963d7a0192e866f5fedb87c17c6e0d49b6ddb05295037a391395d0eb6400c06630fd8c940f74e65a0f89d491 0xf7506f4e8fd07afede978954303a79b5fc3d5dcc3091cdafdf1440ddf18b51f01271d16c297dfa6534f16a6db887ed5075033a4c48a57908a63c467ba8944fe8bd; P1 0x16662781708851cb326fb1fdd4392e4292d3c83581c6a5607871f553309bfc4a0bd8fa1e20cf87d83219007cae4a104d0b5f47c619d2cbc9d928d67104d3a807c06 0x1ab27a28a5447546cb0049b8fbba189582dc2c9fcde629f30ac2ed8dedaf0d50f85b9dd6f118372a7de504f7c19909187debe6f7902c19987e184d5cca13b37cea1; P1 0x42d1bdd8a93be7e2b51b2b35d9ed0c12f0c0c22694c694d06452bf0665c69cda0069b36026a8714597391f5418187997f28a9b741f2ac2897b246761a6c9b3fc97e 0xc73a512c68cfb7530bedf4aae05aec16febd6e0fd9c3f2bb7b7663a4e7c7d1c4915b09d446a454210a16f6d6c3ee57c44a1ae71aa40a62025957d3e62c8d204d41; P1 0xe8919339e33756bebbc086afff3294d94198680749ff9fff8dc318f72b598edd02edec2de10f894e322d9264646d1d11d8ff1ad1ff107c774fb7c74fd04d26fa0c 0x1b2659ea528eab33a9d1a0b7e7c7befad31ceb6100301d54252526f6d6464484873188bb52df502271c8106cf600e5f3a189cda71362fbab02ee0612a5f51d7798f; P0 0x1708e5b1f47af2cf9d19eec1787afe0bd2ac9236266387512a7787bd64dd7f97f762aee337b395a77a53cd52f2b638e88427ea3a6f4b486eb2c73877b3f3de6f273 0x1384b59aaba8572e36d9b23fee34bf73b73ac870ff71d81e72204ab87de5234cf4a2d3c22d856ccaedf0b556a6ab56a5c8622cfb2d97d5fbeed5ddeafab23d17054; P0 0xbe7be05ee80b5ce45bb8a4b570cd066fff6b7282ab658eb29539cce9c933c7bc21333a2171346448a7832a619b09b0519771851fa0bfbe415153902006a75f8e0c 0x152d82279922aababfed892665c1277e88d0aae046f377376a636c0877530ae46e05ea73dab9b339e92fb33105a4b91fc446220548ed800a51663a1f84e39d1299c; P0 0xe03fb8c19be1ecf15a4b4da15edbcc8a77b1b4922658052c9f179445b19a81d8c41a47950ed5b12fdba4a3edbdcf239ff3ec3ba86f7d84d73948057a1e8b10c2c1 0xc73f28c2696f0e74405cc1a675b748a599b5cb48b11c563a0fdbb63ba0a4033a0e2885c8d9d95eddfd07a47f8bd7f1711b3cd75837110f3d3acf5fe49afa8c19d1; P0 0x4d89a079ab0bf0dc42c53487c53b9dacf5a7649eb3758a4dabd6c7b6a93bc86616f6ffe9b18799173139049aaefb01593a2a11417fc63e0acd4dbffba58cb1f885 0x65e24c7fd2262003511a9761fe6f66c4c9c8f9a9dd487c9a090f38e1383db39ee8bce98f45dd01b7fb2d0125c6e210b5852ae3aa64f2de4958689f4231ffe47526; P1 0x3cd2849c068be7c1efcbba11be2715fd065ec8930290f2d24eba366a420d448b0c59826574a5c24a0802cac2b0a963276360729e72edc8b2ade7d132c71c87baa7 0x1061877e1e7fd26d595d92d064980737aaf6448eaa2337b52586c33be2db4fe1cb6187a3d3d74600c1eb0b078332a1c7c12d65f3e2c688b41185c5d4c32dc6aff93; P0 0x862b0bdc8cacbbfdb70c2606eddcf585745acf0021a1d7c4903c835736eeae3e6f80efd99fa60732f9dd7288dc31658425001ace9ff8aa8077789ed6fb6c505dd2 0xa59733a37e18b12394313b6bd45eab9b3e172458424d5bf7c6bdaa6671875de302d2e85e34800ea3b6dcc9a3c50f7aa836f19d773d9e345c7130c00864b9328c3b; P0 0x358e20ef5aea91103e912ce41239d534f865654ab1c98581eed6e8bd0dbb476d0ed436ffca444e00b7249ca324f102bf6f69720128605a1ac3b9a73dbf2dc6aa0a 0xae355448dfcaa08f990de8d4a027351c4cfc894a80a3f3bbabf07e779355967d61e4b348947fece9cc86a7178d17b7b5fd96a3b2225c8b82769062947f87a33fa3; P0 0x3b4644d7891201e2a73fbccb4f2ad94af0f7186aead0d0ba07aabfed44f6bf421556b788d9de4892736a7be21de3544507e66632665094e1bde2dbacc3bff53130 0x14bff221360d4f6be6728170f23b467a9a0f128130506eedbc6a2ec00b3d5cee137fd289154e455deafa211de013e15a58176efdf0eeb164cf29912ddb5c358d2f9; P0 0xd746e03181c562c201ed65b0b98e3f6121d6de3a7ec526a924bf1d5327cefb8f1de6629f7775795296ab62a66aa114b9c2e1b5adeebf0d0be4a04df25308badab3 0x9868f2a26176fb122dc26cda3b632e1153f268a3363a669cfb9d7e250e33000a6fb0e86cd96ec3fd5d24c7342b150fc2553ea1dbcd6a1ebba91a3ea0a617c850e4; P0 0x2d5e65936ed1f10b03bdc928a4b0484210c61ba2d9b6d96f7736c49d44c9756ea49397f9a0eaeefe84ca4baf4654ac0a6affda78f864cbf2f9c24413c18b411933 0x1673ff115158764063a95813a7cddd609ad9cdb028e8286fc64b82a2b0a7b08ef873b789afc865ee786210e3c5edf8a396c5a8d1e0e28fc16f47fcf96b901106443; P0 0xfc123310d6e583b913dce3af350d127f12505295ba9fa3b9bcf07ffe52d770caec73367625832f204ace0274678674331cba51eadbccfa2f5b9b30eca26bbb06e7 0x5839b2f6ae176558dff334860e0f48692caf4f20e71cff6aa3d88bcb142a110f5231f59892f53c2c4364ab1148e5189bf45b688a83a0582201f8bb7b4da15f7070; P0 0xf33dc056352c9f1e7ea8e472c2b1d3890b152ddc4c6ec6c96e6643f915adf1fd320d0c5b62765b14bc4f6791f27d1186be652796b82539351c18583e609200f03 0x8a9a04b4800f6d6ef23d404687886b854346347ab3470f2c07f957e0379434e2e2f19a6211648f3d67a6e53f97ba4dc9f06d31e7e1336690153453f6478da24003; P0 0x258534de21a86be80be92278719204a49739ba20e279e10126bc15e659f90977cd9104149f724725efa1ecb53a266066546e12d5fe530477c6c19c2b60f9d723f1 0x1afb14a4069845c148a097856a8dcc6a8069a5c5127ca6b16763ea69ce2c7244288d6d8f6f85605cae6c687e607a9ce939e1cef66bafce7b1af2cef92635ba4a3fa; P0 0x16bfb396652f37224f80d432b51220740330df3e22bb916aa30039cdb23b7e4a4cbb34047da2cb145497d6598cb9af8dc7fa2811438cee79b8d765e97c4ea7b78da 0x35b97890fc9927d492518ea5f737dca0faf5a944e76e76e116c82b849223bf121f1008ae8576c3e62e947e850c1523dc5868ccdc8ab2a6b0396059099727d3c8fe; P0 0x5a32925c1765f6328599ca68c0936fe65c37fc6e99b05199f4670821b680db86025050f47db6ce2d675dbe7745bd818b6652bea6e17540197db0b00bbc8b69ffe 0x2e91a3cfb2bad8a762e29eb2980dfd6a05a3aeddbdb3b832676682a4a493df8903730d6146adfb208d8d256d462fcc3dbd284858abf2bd44c101d22ed21d387c02; P0 0x43c54dccf2ae1d105ffad0362d189d7380c95ad2a560fea111b8ffbbd57e6622c8ea69748a5eb84aa0e0a10b572d7e7447c6a878cee0e35255cb1d735c7814d58 0x1ba8189361e21aa316604b5599ea071f78a6ea0383428da530df3b75bc99d63a4efece99b8e9899bff01ac9cb684fba38e2858d0b585f90d0c1148bdb0cb8733d5c; P0 0x17e71c7ad3910caa86dfcd3a89afab0c942619f8093d107682ad9ecbd93f2ff88096198bbfb18aeb4af1eff486a2760a8ccebfd5152b06f32c6ebcd656e59dbdf8f 0xfb778deeaf8d44fe0e74e09f8f35a6e9dc1842e52af19b60d1ae661b8f36d0a42a2db687ee7a2decf146b762ada8b71975f1858d4cf9784a70e8646a22c938d89f; P0 0x7b81d413a76b83466acc9bdce111b8a3c1226179cd8a6f6b71a42518b3d2eef949a3c25c2a08e750ff52416d58e89032b70f1125b35684af672c4b7637237ecbeb 0xe73a3bcce3d52035dbe8cf34784d818d5984cd9b3762e24602167e6f7f349ad68009df695e5896e7bc68025f783745620afee34752cc7336edbd2afd3c4e5b7eac; P0 0x686d129574fcf8d9f746ce98408d90970d4e48444ce76604be96ac39ce7f2155fa1850e907a7e5052e23925402d4c40694e9c8ca54930a11bd94f50b8d39a7fcdc 0x1438a5e0efa1aa8363c04ca3ca068879f989d23c099b832fe8013a91b0e7ca384794296d55c943633c00c05eb1848ed708b62f864754e683c5ac8a44611569dc06c; P0 0xcc733a11aae9f4e10c5b8c68d0fa10cc34ac7e2512381e7977e7dcaffc7f39d969f2cc071dcda691dce22f09235901c1f73dca2fc7da23201af1b448b70d12bea5 0x1e8c467a46f229ce5800aa6437c565635c4c9561bd504aaadd1c66fa40668d4bd36d0a6e389fc6fd53c23bc0f35a7b736255a096f9dcbbbff5d1f91458d322cec35; P0 0x1d296b0e8e2b9ef1bd336b300c97b5119e30673401a077c8dfb721dbd3416b5914e8f7fb31f0a69a1a885b875951bf8ee605162156a973f9e424eefcc0d14a1a090 0x3f38322fec1e271c0f2dcdbc9d88e8015623b639fcbab8fd1513f7baab67298aab856c880214e5ecc096e85ad08ed98ef96e6a47dbce1f5c93fa02495d4cb6389; P0 0x7ce5a84ca8272d29ff00e989de38c525f12986e77f8231da97cb8fbbe93fc9163f73925b8467df7b4c193b401d86187600e0c2e5e0f8fa210d50cf115b9f503 0x120f1ba7c74be175ec78d2705a6028eaae19685ef6c62e4eda8d61218c714d6dd7c96f1e87e928b4da6e31bef41e88533a10b9c02738008ab8883b6f0dcffb33454; P0 0xa31063ec566c4c5164653fd799a2502d99138cd5f87c47723d1c03b3cdbd634de773ef8005da7c084d6c5a31805dd5307b3b59cb310ba30f96853922b9b924d211 0xc884c3b25ff41a74145669830fc07adf213cb801a5cada91c9d4a7330d8f1a16ea940381ec2fee83c47c2449416ffe32a56afb33d6f1bef96b622f12cb494f0da1; P0 0x4e87db508dbccbc40d9a59630de4094470e35764e5756db1d49d6f90c3efa4c0805ee07607036c097514c2b36ebf186cf2144963ba9036fad66194760167136f8c 0x11861235b519de5cf8f9b88a56ad152baaf8a1aec298b5cbed2723553d756b2baf21dd83b568a9f06c8e7c7872a429af72ba2f1397e89f23a9f1cfae586a32b2ecd; P0 0x998a5119c94faca13f463f36875c646e2bf94391fc47f53565ab3e35f66c19b57dd955f75c8d76aa62966467dee364ac9898387eca2fd7bb9f172b2953e198df06 0x8e89252d6df5d5b4cd43f6660a824321dacf01d8fb5310379a28de1197201ea06f31d988b46a972e638d1749ad094f8f3cc3ae879ae2b70b93d27eeed1b1052f2f; P0 0x27ae375b9b014a061b54e085b8a080fdd54f3e7452e45ef4fcac5059691bf98563a74825cf5f2cacb98f86f7912b40feac482a83e2e97b41606120540de739b8e3 0x1a82075c7ed443fab0a98d0156af14f70044d4896ca47df2a37c552fb2e1e9b66057d33f9dc688f213a2ee66d38243fbd3477c7dfef1450cec617feee25c5c20384; P0 0x15f55c521f50edf7cce08cd94d9d9ae3c2935b3edd310500ba5abe3a2f12e4e7546b9781cd7bc7d7dcc79e414338187f8413fe2843ecb03c8b39ad9585447a220c7 0xff4c8c4adb22ea96a34221dec7cad6028f5b225f0923c1e6fb17bf5203f940556b97712f7adce7a7515362af04508ed648d7dbefdffd5133cbce2bf8eec3be7cd7; P0 0x7f4ccb305cf1d0d27f83e942c3f11a5b277ec6b6d1ca3b8584b3c42b18294d6318f3e56b4654217a8d4482ebe9e4718af7420871de73c8b386632be981a323ddab 0xf5724df21bbe2704cc9fedae4bef24a34d72416835b60bd0cc318810354c06f7f75b2062d23b877158fbd2d123e7fcf3a49ce7c9294fa2759f5225932b928da3c; P0 0x75a9fe1d763b1ad964f65681aa13c224fac81224ea471e72b4aa7f7307a010346107128d8be0edc10f2d34747b1edaa9d8a105b834f954343622ab264e92488c 0x158d1cf220f0197caf63ae16786855c7bd5a8161f43ce815ccfcc8a2df56e741b1f82c31de7ee21d9b7a8cb43ba4c17f7cfc0272f4dea05094847b1b485f35c869c; P0 0xe83a444fb2c470abeff602e99b959dce09cf9481b996f857e374e829fe31b55c08985d5e37631be40d9b664a0cc71578ff8c9e3ec070c86cc3e93d5cd56c7357bb 0x402137554804ce6584b9c7391136fe13d8b0c83537e70687733d90336a25520d1e99608e41538215fc71f25f5381c4bdbbc4182c3db5e7997177bd63ea9b5b06cb; P0 0x8084ffcf9fa5ce578563f120843781ee65310cdd595dedaab3018c548733bdd8992bb53d47ab8a470b426e6c81646c4f2ab3d868ac897c38b8ee9d9d8eac8aff4 0x1458934cf96a3093a3b36f32062ce06d75e4719204d8f71da2e821ed4e27b87ce616bf801e9e1fc42af650be10750adf0b17cb9e2fad943b8a31898a18c9148d4ed; P0 0xcefad4d052c716ba755c787fc3861358f949082c81afe0269f657974b7843a6e8a8074c0c6b1497a35800068e24cfdd0c4b8c15ba94314378ccd733cf810749334 0x972730855184d1f6bba52079a667f186e171e06991520f080729b8964ae95d7d8af3e5b9bcde35eaa2a9995e2786bf5e210453f6cace1257b0ecd1d01d00ddf69d; P0 0x2c9fa09e8bfde514539efd91d142be36ed26d3cf3701e8fa2ff8bbdf5f5c11567bc2183b8fcd08f94fa6204f5cda0d6df6bdeee5ed23167cc49deaddabfc5fcda8 0x79b404403364757d7ad7ace386ab5b0a58805e72283d5b037d6bfc6727e400b97be263d581574b123a871f6c0a709ead308c7a8bef7e201874a54e9db1b503e9f1; P0 0x1cedd54d5577a7055b663cc52eb3611646df1bd48c730aacc0595dbf71fd099372c4f1dbfa40b80832c748fd993a64bb1a51a832263288569bf28e211045be5aa7 0x9e6c352d9a3ab2798572f85432e58a7611f5d154ad3fb9b988c58d8302defab842176f51191e2d163df0504811b127367e72e27dd03ef65659c7c3c330612cef88; P0 0x3104dfb099f33fe83d5b1fd9c5943ab25164f0b079e6c57b5ee6d892305e40494dad646a3e260506288d30fb75d6b25b43eb4e8b93da9ee8b10ce56f926bb2a8d5 0x1ea59188bec9cd5b16584f6b9d411cd4e23f3590bd1a89d2ee541fd3813a335f0ec6e5f3193d4c0b634679ae462908cbbce5b8f470bfdc7794a70bb87fab291e115; P0 0x1d59c987cdcb6b7f7f186395a27b8f757d0fa04c17e277f476eb11919dd7591ade578c3a9b5cde966e4ff10d5936fbc5ae80b958210339f1ab17a07aeca36817ea1 0x1a4f2deeb03d25a72dc805d123265bb84cde92dc08fb9044a186daf32d64772f330902c5f6915d2cf1249cff30c88e69cd443beafa6141bf8bdcb94a1f02a316a5a; P0 0x15a16e8eead7cf26e5ee6fa2d2b36a0e6e1ba53993a75f7a6dcd7184f3b4a6ef7af99c7cc659d2657314f3a4634f9a9daa301899d0fb38e0894df4856b655d7ec49 0x1eb3e0becff1688880bfa0eab0a73ae3fec6cd7fe10df3e7e4de3b5b4eedcfd2367036881daf5f45f95c770c76b311cfdac26fcb24ec49a8fa7deb933e5c07a93ed; P0 0x1d753886470ed1bfb9fa6299dc7a6ccf64017e866906f51194f4640f49785f9791284be45169fa65dd57e17b831a76ef8a2575961f9e4b344550a753fdb84aae7b1 0x1601bfbbf1a2d7f50a16400e42108d37e395e43a9831449ed37fb5b91ce383e33a963c2dec846f1110380dc3643847f2d352ce27f2b5d712c26a5f46c725808f11a; P0 0xf2267bae4cee77d9f08735246d3108c2bc29d733f55da03ae4204b93d2f457486c961544ac85bbe0613f760e442876b4bbd0dd3b40e0ae3290e562dd7afb98bddf 0xc933da56a7d4f0c86b54750cfe328f201ea59e8e55a1583023e9e6a3c22172dc11932e7de27ce6c433b5548844eae579616b52ba6e208ebb7a149daeb4d04ab483; P0 0x4f113bae66257a0f41ca02171471e6a6b5208bed15c98a72cc30c02ffd760003e370c7e4220d0e93257ec35993f2c7c607257fdac81b18efbb9a1d85d3826a4890 0x32a9ee4d3df9fcadcb291f57bb5b95a8ee8b09430933ccc57839cb79bb05b8001c69d24bb5ba3b5b5293cc7f1fcd9d0b0ee3c6c86cc8e5d1489ab4ed2d3d6ec399; P0 0x50368f1560298a7550444af552b46b545076bcae662b1642e499c363e2fa4070f68ad219a12fa84de01d85823800f67baaa9614e9a96edf91bd1da55cdaf2e511 0x2562f5ac8321a3143c943dc7244426a08642e435b437cce954f8fdc66f0028e0c2d713b1bbdebb2dbdc5e031569189525149ca9cc4e41b2a769e1dac4a71e15682; P0 0x2bae0a270dfe311c7c245e915bfe14597ecba891d59bc8386e57f844ea76ce7fc5b89fa23227e610a4f5e110624866982f87bd39b855e1dc50b9daca9e398e5e4 0xdb4b988edad651cf658425399b4799576feb59853a5373ee9b64e94d31364ccef130cfa23fac45e7e63530438e533c8f8178380866a24c981ff23f1489d5587fe8; P0 0x5ded36ab94846e9164982a4102016f9a0443f76bce1c089468116c99f825b8f1286c4cd78f8215f702a8b0f26b02417e176305555ecc0d4f70f87d635fee42e492 0x8848af8e94d129a5c8a8293011003d0301bfdb760d739a545cfdeaa9a4ba24751e94dee5dcde4ae9c054cfba5f94ea7ece7fca69c6d5f7f08e6b2eed202daae6d2; P0 0x2446a7955b5b18637bf874d3bbb8e8add54e2afdb35256f6996ef78ac3d53363a62d3e2effc2d2bab0b974c0f697394516e853feaeb3e517817f5e235bfa919dac 0xf9e892fa8978b0f8dbb10c141ae23953f5617468c8ec5f42ecac2b1c1f2ed09254accb9072980fe86172b0c8de9bd0905c8f137b8fa4e4c771e11633192d97a1f0; P0 0x79fb209b0cf45681a8ea40ac638bf43139456bb70d5fee4df8d5708561e735a5eaa28248c5e02a0aceb023f7ac5a26767a25d8cb5125e27c94bd46375e8c3eff4f 0x1c878c58a75ebc79a6f0ca48b570b278e14d35b741d31a65420d9bfea2e1fad6f74c26f8f1aefe2fd29af8af7b3c483edf33ab21be02badfdd0ccc820fd5bcec04f; P0 0x196f73c5b872a7440c30eb28789220b7e95702f0d2f4c0f7008c2d76b7f15cc365f9d31e9a867a22f3a61d94b7c58bb8bb8371744d975181c3cb8dfad3ba73c127a 0x7ef8afecbaee3c7a7c6a0ca2c09c84642aa69fbb1075a1b5da3613a50477c29078384f4830f5bfbd32dac48c5fabebcfba64d3f7571c6409d963f82d13e0d6aadb; P0 0x1f7cdf612dc919cc531bbbb6c84812ba5fce42066ed8a6a4621d8c9dbe875b6b98eb8f7eddbe7f84c2c5f4bd4488dc289413e3d76aa868298b2dc6f3ec7926b53e 0x6717377e9dca4c270d903cbc335ade483590984402cd4f8cd81fa8e2426435bb3bce9747a270ffd720667f34e6995954eb8628e4510dcadd78357dad6fd1524c97; P0 0x14c1d86173e06506de860029ed1244538de143f5b3748985faaf6197254ff55a585ccd0cb5815a97bae65f7203dd0a3a4ea029b95015349d0970f4d5e0d64290dd 0x401efc035da6b7f264665e95103bcd04758ce2521f8d33e1754c9a61b8c14c1508eaaf3a2a4421c819d8deea375aaa61cbf006ca45c043f06f2e74d2568be891ee; P0 0x807c0e0dbd9f7bbeea9656ce3913540d80d130abfd59ea09171715f5d7fa81ddf51356b6468a9fa94391f46d4462f579c4c91d32437814a15de3742e8b45be8bc 0x125b22d1b0a38995a7ef70ee7405c69fab60bdd2088040606dd015ff0bc2093f611d808dbca5c4006a4cd5fd9a79ab3ef141cad0a5964ea907b820a2891faeb6200; P0 0xa878aba153792518bb5e5cf31dd1d0c260679b72ce6e3d8124bc2bd1ba8adf9fa2dbe43b9340547ecea2e5fb046a6e2987bd352b6bcc0190a15afdcba3457102b9 0xf1ab6951407945125b7177f2f917c83ce9ca9d3c78be02775971b539099a2f04bff83134187fa9c129630d05db178a8e5ae8e37276551e5834c633637856f502b9; P0 0x721217886ca21b5e172ab7051ac06c5c2e30c8d5c170090aaa30e8ae86a99fdd6f5c98d91db9012748357df29a7dbfd558d2fe25361ba9d0aac741e80a29dd64a1 0x1e7c01460df090a677dc9c2a475a9b5cc746b771a12b49d3adb19900489615f40428bba999536253b46d7192b9e75dd0e7f04092dd84d8a0d7b2c4f13ccabfece52; P0 0x1d0a62ed391c11d5367458574ca783b77e39dee945b4d3e269cf701f0a7c2710c6a9d1768eb7565d779cc32712cb8771e30dbe51b565428a34992be809529120b9e 0x550720e05cc02086c085eea0eff7c3d09ca32db83eeda377e7083dcede9ecadbb77f82f971062468e5e2808af969c14cb1dbf9e7ead558fd6f7da1e484c6121de2; P1 0x2a5c9a0bb52045e49bc318f4f83ec10881c18395b5740021ad8904d0c14c9d2d5f085a193bd07b9eb47d220f4ab5c8e65ba024a220a0fbff923b97f864738b279b 0x174bf24b4d08a48bd9462e9fdc8dd8f380793782a4d6912ab9f132308884d3657632447108050938c4cff45c8b2e0e676e71a0b5eafe4b2a6767de03219e15a1a27; P1 0x32e1a1a17edb6a22a7c67414cab54f26e1cc29f6fb730b405ca10e2fe8e6add618e8865f20a9ef9bc35df476138499ae04f7998e5d7adbd146c7dd003512b530ae6 0x14756eb9fa04241ee127ca198393ffdc9f2b222648f16dc9cb993437433e0a2bc920a98af635976d5235b78f37d199eac9135ab1597f2e091df011f8f38079ae0b9; P1 0x273d6c12f6d4b170ee84807b0544d57e17276ca95aa9e1f8a62fbbb026824341591ffa31fc44f3fefe130f5f9d929142d45d7382333555710a2177a80b9e92ef127 0x1d04deca59b753cc8ba2a4f452f27c1232a891305ceb888c73c7362059f5211a598e4fa50645194d281ce6d3aa4af19027f405d9d59d308639ec504ff81aeb7c23a; P1 0x4ef27da58cedf63f02ecc7a2439e47d38d683fda9340bff41bbaa9756012ef4d24cc19617823cf7d7854dca5533a3202e52b533e2a11627a25e45f7421e73bc6a8e 0x1643a24f4bdb1e0913b13210867a9a8810bda22301979f071ac5ca726035d4938c4f1c76997ac56dd949553de6d1ceddd4de0391c396c151c732b861144c29449fa; P0 0xf7d8e1feb9e93640ee7483978a7649da1004af207232aadf26552e05537d0aa44b0bf8b0cfe4c9fd1cc60da41e29efd16f68fca19caf4a97391b93d159467ca5c5 0xa937e2eec2d9c6c9de2d704d774f13a647ed4c05b8d9a16a4e7534645ebf366928fcdcd56cc78f7a9f75cbbb8c7d2680673f9e2c0a323b763c2dcb682dcced2de9; P1 0xa7c840bbcd888922017571f7a95e8314424a3617755148e117e1c7c63b2afbad88fae575f2fb81b7ea7ace17a401261b80e51ac1b5795b32f5164decdfea6121de 0xb95745cffdeef98c82d6115f15d64d436a41ee59729ec80eea41fccc6e67725c4d0be1ffe9f01c01d16979bda552f6f4965715b5fb99490994710edf5a0f525c11; P1 0xc946e0fab521a7773e36c80c5a4e6f513b8e9adef0f1ccf065ae64eb09abc10c506553eacd415df412bb217fecc6acd583710cefb2750cf47638ba14f81d88ab47 0x154508c5dbe8a3cdf4dd5a077d716a8cebede33fd6d13d65884c130804332b56ed3bd91af02a14ec29e2b30ea2e95c546c9ec025c838bf91f6a3df966af6b8956aa; P1 0x2a69915498e836c3b94b91235f6921afe2f43a80a2afc05b2589f3c0133ea75e9122de2dc8143531b94b98a37aa430bd0a5e1261e2853265321aabc4bc8185ad458 0x294507243d944568e92abaeb40eed36b035a57be1d8e13ad42965e577314586b8a32378b5554f883481050ba9a6d21918a8f4bd9c6879d89166d8716c0a3acf04; P1 0x9fac659b03088fcc252f32d88a4ef05ad72ad44b20f7a24bb9d5260fe8ad84f7fa1f96725a38019ea70d2a9b470e0013f6a8d516885deef989e2795e6960c1c 0xdf2291a7da3874dc4a3073a7915f9d2a77507bba82bac1d3ac035a622b4d30856fa266deb313182c0076321196f71950b8855f846bcbe7b306d338b2c2363c744c; P1 0x123bbdda42a75d8c5d3bb7ff0471fe538cea24c300839af2cd3de9e734003cf26fc57b858a984429fff61185b2f258fa07e751b4531bdc67529be15b14ce64bf42c 0xbc9286e90036bc5787fdeb08c59b73e991b11e4167af30f14647b1fb1d2d343d95142efb41bddab55bd4413f373b10f65ccbfec4f2bf3bc2992c5c38e13faad7dc; P1 0xd05b4f0691c415071e93de5a80fe2dc749ad6f82946e1a131a0b73360c7c4f2d5e0b933d9650ea3271ac4829666239858743eb8e3acaa5e231382477cf55a475c0 0x17bc1c0a54c604a69ad21b8601f01e7a5e517ee88a9d6d0192242a48f6a2eeeccf0a7eecd965e9122c63e11a580ec0c54d36d16fa22523fae38b44422bc603e44f0; P1 0x34d02e4943787f4399ec0f7a283b0127e765c4ddbe7823002a6c66e5e74ae086ca267ba5ddc8cbac7e8660a5b2c2ab33957fb714485017eea04106135e90e7196b4 0xa863766d4cd1e2dd3cf9b065b23853efe531bf805c17b5b2d5f7f25a77ff68678f0c2bdb45f9e482392a581ab640914eab7bc1b4e26f1ff7a08cbc7ff572e2b9b4; P1 0xa6240b1e6638c05dc119f80b617361e09bfb9f85d9d2a5c9edbed079a031f05cb4a9de24bf9792f4f6f0fb4e97c3cbce394ed95beed81df240128328d2cb544c35 0x1175114ca6c22b37e7e5868327dec02485227779bd0aa7f9d92a010d313f87df272fc87d25b151a6e420b0e671848cbf1fcb06698fd5884df8f1cf76afcf4e53fe5; P0 0x9860ea7fb0be2913c6f67d4a0c235d229a32e91521c29f67b43af6b03675cfb3e12c8726f695eb67e0e5432713578293d13165cb96c1fe8ee1f8a4471f7492c7ff 0x1eacefcd8dd5032045fea45bf1f1fd51d31f8703e5ffea28b3b231e77ae1b9bda52c3104180818d02fd96c460d517725f2bee31765809fe13d4430f850f5c374ad8; P0 0x1d67e83a50afb6bfaababe1dce8bf079e14a0c5a5a62c69cf1d8fdea97602b94c8799f3857ebe0214ec4d004273427a12565543704f81eb24835efbd258a52d8d97 0xf8ff238fb4aa25c4f1065710eabbb0e0efdee51ccc90124cc73b9bb8188d7a6fbf446d5348efc49363a168a8d8ef1ca2e78af2af830e75e0a897c2d16523df23d7; P0 0x7917a99725a2181b569f1ab92ebb5cde7ba3d759112aa4889cbc6c7b3e7c8246fa8e796920e2715bbc9fff68372f9d0181c1f02b4ba38765530a244db88e8fd3e6 0x159758995e0835d9a290f6849b364bc5f7fac1591e95f67bc4bc1d4c67e6f0bc98ec629d2d12d4c8c0626f2f3a5c81e442c08453804d6869684a99e69aace265277; P0 0xe91701668209863464ca95e47c26104547466dabdccc6a8a3d916fc90926757af3cbafe67f89bd45f532fbbced8119a3c9ad20badaa8d843328b71a23d16590c3f 0x163bad424bd6cecf60afa113388629f0d4db058442a231ebc027be3cb06c174eb38131fd27f23f28fdcc2989525f312e80df598ebd39037612b54e278bd303d7f90; P1 0x2e577891247d257bb6cdc800ce7a870dfb969ff76fa56b20b231555a179769850f17976f888974f9321d7d79781294b3b090c138dc7153d484e85050e1779d8630c 0x69d029536c0fc11d3225a9e291855ccbc75d8118779b44ec6582faedb7d89cb30572127d344a8dbd4c824e4698c35c8e318ba742ca9ec38b6f763a79cb9868f60c; P0 0x15de3594ce702ce8072220bbaae5a587a65d45357f94739173a4afe602b5b38aedb624adebc01f39129e380ed274567aa548c36c59ad9adbb90c29df293267e2a5 0x180d5e8d3bfa945f370ec13532142a8c2fb34e1c4385d19dbea21f8449df9e8391e77f7416a8bd42959af83f7446602859a12cc529a94cd2c81e3643d6848a2f335; P0 0x12141369c418c9e0884975a8c22aa2cb6e7d1481bc1d009737aee432033fb1f485b9788cab2551c2eaa0fd36588c401ec750dd9f066571a278c3e0f5b84573c1ce4 0x1e5c714f5efbf8ce004d6de2427702be10693964b4e4aa696a16b0ef5f96050ebcdbff3b8a8f626955442b53b3854a1f5bc3d49e69152d412acfe60491add5dc5dd; P0 0x1cce5f81ebb3ef0a844e5c4d57e3ab15f2a7e4bd5a23f3cf3900b1897f2437af2121cb40a68c3baee480dbaebe99057104934d21cea7b0d24aaf1ba8b9108e08729 0xdaea8f942c936c4aa903f1e7f05f528d75b9afd01fd6a5c99a09f1c14326ac48bdb65254e0b8ed3af6755ba20384dc7bd5455b4bd8a33689ab14c9d06df66067f2; P0 0x5d9a29b993a9b8c0b2c5aa3d25ee91d2a442c4170772d8db8bee95c0108d0c14b891740bb59da550688fb5bf9d22dc7350abe039803c7fd803b021a57f254a4af3 0x7607edc142f7f5610eb4503be2a1adea9fe58f256d75a0965fb5ee0a9220f00cf027e26ce895017fdf7e5a798eff7793a804086f2ebb828c891e44d5a65cfeebb7; P0 0x1b35a7b6838ed3d5064bc20b8c5ac8aceec1ae7ade719d20ee87115f3eee35eaa2ab3f544fd237b614cd552a6331b9a28d882c0c221004f47476f32aa683505cde 0x7307dd5a15afec87fe5c8a872eaf60bdaca6fb30001c458bc343c5be6a2fe934d46728db2b8131aafdceadf883317910f336329865b04cfdb84cb993ea37dd9af; P0 0x19d8088e64e6f3a30ef1400199e47150e407577452c8d6cb6550ba9df7cebec627d48457a9ffd22fc4e5c224f6cc8315a6eec0770f0e1e928aef4c2c60e6be5b 0x62759648222d7dc66c3ec91eb7a73a2f87c93bc5d98ffa5f224a947a6b735a30d8307769d3d85ec30d584e88b67770fbe843015be2838e92d0460b6c0388e6e3fc; P0 0x12ef1e88f8295720b7e533a9fdff91735344dee25f63bf3baf41c1f099d7c877ec648b94eeb2d72ba541acd18a5ae75b90257a5aa7dbc34dd3b9f8541d560ff9ef 0x550bfaa025683c82d003d27c872fd8bd70253e363c49f46f44f426d90454e2186016414f33893aa056a2a6ec83dc8981941228068ae7503b68709c6e7f89e8d9ff; P0 0xe207a7eebfbce3137a96beaa689b504cbdaa8e7eb79208f77d8a6d1ccabd89ac5a42b4a88af8f8d4d272dd115315dc5b118d3d578d893724ee823f2b31c71d4bb 0x12fe005f2ea4492d7dd075b5661a31a992f532fdd8b1c5bd8ce662e6532f7cebfa9939efb2b7de6468b9ca93913cc99c59fb3f10ccf1f6dc815f1966ed3e24420bc; P0 0xb45a090fb7e5d7a1325eda53ba5f6944fba1d9ff331de8dc42ad051a92c8403961760c7078cdf83773d4bb558b419f2cb8e49bb2d8417a2e0afc8b290e486941a4 0xb0f2581b51a26bf53fa402cc42cd24e6141e5e3160bbf644a3a68fac17cc5a654df2f167068100c4376e455c6301f4047a00e346303c31802ca1470ae3a078cbb4; P0 0x3d270f48211c3b47a7d8b3642b5f538c03162dc56ec996961bfc061e7b7e4e8d2d9eb1d584e1335bc10d9f7b8b98c37f79900afc2293a5ec4924029590236787ba 0x54973088ab8b34facfc0b4b70b77737a9ca85e9867d775343c3060aab87d05c84b6268b9dca4b7918bf7ac792bea8621bccd3bab7e3e597851f4951e68be3e7e4a; P0 0xdf9c891fd80a12401789465fa6d3c269514449874d1209ca03935e2e2c0e664936ecd7a5a0e3ae21ebcbf7d6d5e6fc650055b848c3c3548e50566b55951ec42c4 0x1c496906d9f3093f1b4209e2807bb3c6392cc0889336ee5d384698b06c1da25dc7f572b696e07efbfcce459e3e0b6a33545df39477af1cbe0a6dd4b7c3094113028; P0 0x190120348560accb13e0ec6166ae6be9b5f6c8a9c95f55c78e72db2df76f9959171683aa13340c7e1a86f4cb00d5f0e5f6f91e7123fe7bc4a8f371d5039284a9dd5 0x10c19e71d421029dd5caeeb290b03a79ffbf992468bb39de3c4b32896f5a32492b1c53e1fa0349cfe5dba422f05760f9c8d9f27d5199218464f014a000ed6a9a415; P0 0x8c631f421b5747b06dc6d346f7b3ca8944ed88e7b43a50c8a3461bd7af1748b3994f56ec11cae74fb222db668d8b69f9dbd9d8c52719c552660ef845a2648c379a 0x195c258143018992ec4a06c15e6d2a885e447c40e6ebe536fdb25f66fcf9505ecfe010ff11af612dfb0a906d2c900919a359c352293a65819343aa46ab8d712153; P0 0x141903f1cbe8a4e4f4d9b75b65f892465b84463bc9a4b4168d0198e4e98421bd08d32cc0f19f9b21cea83bd00755cf1dbdee01746e9c82b3b28e84496f6441b7c 0xe78478bcba02c1df41a5e749fec23514533c29f3789b47fa1a54d21d3b1bba096e4e2710cc0a04a12bd138111651ba8fec03056e0b002b6c8efea5fe2cd3e09c65; P0 0x68b02b38a9a1231e93d594d9042362fa3211e6e7efe5fbfa7e54728682d9e33f60a1016f94071f08d05a2f5ac6b350bd15df6aeca79a4375f58440da68d48752ca 0x1ce6b33a851ca3beae79db738b3bc8fc948d18a8283e7c314a25f0c08dc09aed3e0a409625984512944878e77c89e6a582c8409f34d4bec002ec55d100162d292a3; P0 0x1a1a38dabe02b6749fce55ab6f5b8ace4dab6159824974cf11e115230e1113ad6ec0f3644d9b5267d5bbfbe101ce153a3cb079b1b9aee61b3322ffa5c25d3630729 0x1b3ccdf960a5c492ce5fcfc3a4abeccd034344cddcd4ee468ae6b65e77ca90e71645231c1759dc1b31857b1d223f3c2ebcc7c2e76c914b074cfd687c6e586cd5af2; P0 0x172f0f1e680ce70e0109ace5444fc319efd696c4a32c5f280bd06c910292a796cb1dc5d2acee9e3666ccd1ce367895dea51ffcb1bce4f15052ab07496e23cd30ce6 0x1c0a4996cd993c63a9b7c4cfa9697b5f9a35bbc4a7455eede88cacd0afa7b6c20ef446457a6084ed594af6d0c43d6a5ab892557664a6454c3794ebf43c65cb619aa; P0 0x189204168f477a2bf05ebb7ad08b735f5d0065ca046966337a90ac15a82102740efacc701c36a7c801fa2372649df37ab26dce9a439edfe8ff0dc032f0dbc4a986c 0x195d147b3479d5dc3e5f6b0c8b16aae837ca4a379e5383bc9a081b09165681fd6dd2bcb3fd91cfabf3f1f8d656a82448c485126d03b93a8c3d9c6142006c953d50; P0 0x141a7ebf9b3b3e473b9cc3e3472234c87e63c4fb12712364efc360ba615cd86968233e983ddea954c64cb9689ab833cc7b22a43bef750b3c17e32add68b5abeac 0xddc7943ad26d446b3aa885b63588bfde44ec6a7dcb99cfddde26d8f7c52e822ec12966f2e1c2005d9d053ab9693b273dc7de515236f36bcfb0967e30927929f7ac; P0 0x601118c2ac4bef69efc94c14954116a56c5b4bab8f99f350b4ed01373e99e4bc120418d7f21d4620409617a97d737d634a23cd3e16975e732907938eb22a92b54f 0x1c1fe74cd95619b48d41e2101feae0756822d90b3609fbe0c91b859e853800cd21b06b93e68a44e745cfbb1b0302c9d1b3402a86420c6dc748efb41e4074810df; P0 0x18b7f4952919fe26f53670935abe5ccf4b8296457bab43430b8f7c282d5d53056168d246a070e1ca1159af0072eded34d2e1d01b156db6ce911dd18e0670aad 0x1167e2c777ec4dd4a7e64c5f2ad6cc3fbb2e3af324462ff0f57ebae876a44900f5511c21b1eeffdf125968a20b36ceca3811a7899c93ec93e5cf3802d8690f3acee; P0 0x977b2361aa56d2e132da80857f866a81bfc35dec21052dfd73d484faf3de39e05911ff4119f5697c2c76b0ad4bdddd5f111d900b91eea0895bd70894ddc8ce8fc7 0xa3ebb7ff8f6a19b5f79133d17dee4e8a29002a58e1ad7a1f050a6490901f527e98006cba1e904ef3d717678e5b84de1219255a3940011c40165500548349733d0b; P0 0x347b02ad6208e3d8d1e840dca617d86084f7da2e6d6541d58ae35a2efb1ef16b172f9351ec1c6058f65c29395caae1c4082fc6be4bc2ce62674c18566afe54ab4c 0x6ea90e8655ecb613e9abea3e53e884dc0ea6c3d2c3a60ae70662ade7a279b48d45f9e6731366693ce2c8ff1b44b5fcae62ba2484e4bc37525c7b2af45d2ac4e9c5; P0 0x17eadc0fd003eb72bbd50c3cd9b0faf604cc5ae3d1d165590d74048de5f406ec8acde8a4e00dcc2eb7f994cf0b07f078e4c4f3d99d461c91e89875380d191ee415 0xe05a66efe7adc5e77dfa68f90bd8593b0955704c85f845d83de975c299bb20959ba7edc3a9c2d3a2adafc761406254288a25b6a0de92f9c83012efcd5a883f15ae; P0 0x624f2a082fc186fa9288edc1a122d6eaf22db66c245adf8ac016f359773628677f796e65d3b5b684ab79fc318fb090d870c54c033c85391266023eaffbeb954527 0xc85c144c17c83284fe0c60af9cbd579b08876ef27668a0df765eda89999d300be8e8353d098bbc6cac7091b02c5de964a996ed2ccea22a76b612b9b0e8790f476b; P0 0x4e68006abebaf094c2c12621c4805f632508e43a6c25c1b3cbf9c8c2eef58e10e6548de1be8b2073d39e6af66c18fde742eac71b5333d652ace82a5337324777ed 0x194a4b86a5b521de659eaf94fc68fb6a9801d4cb88adb4a30ae4e6964931e966a7b4938729495bf5b9ea686fc4d2c2ffbdab60460a621c81a81d3f45793cabdfea6; P0 0x13fcc28063eac9f8593401bc83270e5c9b3d719c1049fcba9cf5e3720a35b9a90cccdee50dc5d6ebe21dd6567522900e92943f83660d4eae34e41c0e1e460c76d9c 0x75a4afa8971cce1dffba2a3a7879f60f435116cd2037c30a21aae7e33325fd7086a9cd93547cc787e629ed1e7e8097d4e08d43b3e31f64b3acec088b6857314140; P0 0x1b07f940d154ef77c97f2d426ba7871fec0a3f339b194bde9943dff502179fa69de359b83556a97cc5e452f1797eefd10b367ae036a54b093f6cb84d423460325c 0xb0ed2fc8e660569e7cb88083aa66620281ac822cfea8ec32c27f5d471473e24e32ee56173bf67ba16a2f408bfd3d6caff874523748decf3d7f34b5515bf81c25c; P0 0x3d237ebadfd533dd394bb3d3bcebaeebf158bda84464d58d86a26f0069cde0653fc2ab7550f4344816fdef3031e61d92b08d4054c611bc360a0f0c5687caa096 0xa7244a774bda35bdf396091dde8cb6566ce206d210bcdf866e2ab4791f1945841ca273e3a955abeb017fa51ddb5a9ae287ef38e0d6bb36dac5b994e939441231a6; P0 0x36902f2656169b7759d1cf7fcd847249827a3ddfaa8a6dc6f2547144ba3f3e3c6e2b29913b1e9a4af7945632f9dc61c7c8f1392e79a964b99e8984a8403053d4ab 0x1ec2a11b2868ba709fcb207bf45e2ed74f0b96146028a7d504c02ca3669ec34acfc7a5ae618f41de3f4d0cabbb3f1b450b913af05fc230e269e5e089bd7654ccc4f; P0 0x1d918dd78027b111f8fd6aa59092f16fcb2d8e90281033805cdcd89ef1843ff04f27a400edae0cd57ab69a6f345b5bfe7bcdfb12fa23edecfd6f8e48b245c1b30f8 0x17450a5d4ad7365ece664d63b14ca3bffbab1a811112068bca1939f355a8f36bbb0d1ba1befb21344a3f451eac038f3bab31191381e53afba1810511216a4113159; P0 0x10ebd3dad1437d04f57d735620ba9e44aaa187e3d4535fc62aea4d6a03426e576f5fcdf50c3b538870101fb0b514446ac9bfa3d002d8204a6e1c789377b26d4322f 0x8e6ddb329560cf1674b095067e056bcd6460953943ed0f12e007a26ef867fe6fb9d13876b0ff0cd85ae61bc56ea81926b9f48b7d21b6be65b128e63f28c6296320; P0 0x279f0728413d17dfcaef34e4f5bd8579a876cb8b479a1f7b600ccd930de53b219f91dd293d70610893a2ec982ec1fe59ef2be85ab1eb16bac923362278957f6c14 0x192565d62724ae90695834f3b1cb1f718e19e21cf75e7ced185f1f5526115e81d7950241162d4905840e9343df8612aa904f2c6ce386cf266825d2e87efc213014; P0 0x13c29ad3607945d89afd66c1815821743214200799a9a09282d78fb81288dbbc902bc49c943f63a5368bef617f7d1347eee89255b93f406ea56264a031f4c1732 0x7bd6f5368d3afab28f805f21c931d403252d2f330ddd16f70d35cd19e3624ef46c2dc1c601760be4dc5a784616e11184153c1d03d1f1e6ad7c4f1738a7ed7b98c2; P0 0x1df42210a6e620babf896ae482475d1653c1050ce5dfe7d932b1ba858f1fdda2bd4df6b5d7582e35bdbbdd8a0454f42f0a593b512ad09d1e0c1fa8db93c647adae 0xf2db60c00e6fdc499627b9c51ad03d2122d88fc6a740ff0e1fbd9e7bc96dcb38dc06857b3e8812f3413f0c47e588fc93e4a2f5ea5c8cb0288714e91d331fdaa0b2; P0 0x7331bf74e43a6563c9ce07942b5196cfc65476e89ab70b5ff55d72db191cdcb0be2af275df834504400cfd770a33e58e57616ee06b3f920a9559dd3235513935aa 0xe3c2cc37e830faae301e12a919f5911cbff7486149b785d7480f4e4f33cf04076f20442ea4da5b7715c041b450cc708c82cae0bb70f67dead2eb5c3ac28140316e; P0 0x65518532a6b5f688404032f7ba7fcb958fd1b5d4073dab0768ec7381f4b5ae5ddb2a45273f301d211fccf92fbe6ac198c02adab8c9c611f365399330e2ce25ef30 0x189585d47a3276f7e62bc2b89c75b987040eaf496e06046320f39a832df1c3d37ee45aea5b37808181ea3b3de1f72e08adfed34b53a3dc19b19f195b5846ab13a74; P0 0x12e3036731b163002a073447845cf8b88e97c3b0e5226045221dc8064897fcac6ad6690429212a96cd298c57cc80fe3d18794819263f56f7d953da8608423c24235 0x184b481d6339f146d01c97cbdf2626ced9d5afd57d481c191cc55355e7e3ccb2122de9c6ee627e8a720045c876c4cbfbe223a207068f177c5f68093ef3e158306c5; P0 0x12719d46c11c6306fe8d506408715739042890a4bd361e52515fd32c34a16b033e46d4d17e1c4b3b6c7dede9e09e71dc1c25d0b0994ccf76fc0ef489b4083415aa7 0xc3de3188d62cd2921fbce6ef6218c2c4578c18c42f9801af74d14ceb158df25d990a881c0454a42491e82c2528cb12d067cdff395bb8be5ad4c9707ad8c30d2e40; P0 0x4aee20283498b4d49e99bb5f4e1dd4082dabf72417359cd5ce9e7db9f1f844e44e765f468f46bf58eb4f7370c4291a1fe310fe7fd25f97c7b91721dd81e06156e2 0x1195a22fd5b2002be38806c7e51872e6e66c8dc28c5a03411b4ffdc69e48a3e662064d43d68370430ef4486c9469067e6bd87c80ddb73da11545a11fea51b3c66e2; P0 0x9a9b8046687c4fbca21cb0b5a71a84e3759121c4fe04a36ec512d470926472c6e3432836011bd7a918344a249d175c21dd047486909a40b6da133cc559571092ac 0x106f40075b291c3c83b70ef1fc50ed70a28345de8ae9f1554b9080eed606869c27efd636e0999768e474f316ac42262bae4845bdad2aad6620ea02ba8a166597230; P0 0x870c2cc0e4ef7c5be2943a82812dd08f6fe5c4888284e3500e9694a3b8a45e2265472094df02477f9fc804d437757be6abed4e2ee08392eaee3ddf620bd6673f96 0x3e721fd7b950bbae8ca1351307ea4b26330267b38f70b5e7dca18e084f2d1e1adce3b8be64935e7fbd47ca903ce558910c7c85cd12ae44950de54b68aaaeb60896; P0 0x79dbd266eed0dbd0664519fee2dd37090de2877b80438209d845b2cd37f4b0c68bdca4e5756ae22056b65c91af5243e03de434c7a38eab003b47b99f8a5a15625 0xc28a6cde32ce2239ef5f36e8be2229da33236f0d116d32470c2f383231c85893abbc8ce58cd9121c5e3e3753c557c26d5cb4845220307555058058d64cc3330e09; P0 0x49eb0bed296db6eb64dde5d696f11fddbb7c08c26a5449e2291b1d6747fdef59dbfcaf7c06c8ff73ffcbdfa6d9a76d916bb69a4014508ab35bb693bacd84d4900b 0x1a3d35e144f9a7d5158a39a00ee5c1a56d6e37f7a09e497ccdbc0ef4d478ceb79a87d9daf7c580a3d4351e94f3fa644736e47216602d772e8363361edb5d32f8c5c; P0 0x1583eca3d5a50ed7a6c95d818102fa8c3b393d84539c443b700c95c2f3160616694e3dc0c56ba04ef2b3a0dbcea2f6d38d35b23720e148edb89a5fb4c7af2899cad 0xa4aa6dded7ef2494594aa099bde9502f4a5663fce7eb27d299f68f9ea535a7df76acb08db6b83613ba0863b1fded74763c1896e941579df879050988c771465dbd; P0 0x34f5671dcfe45b2bc2bdc48698f46093cdd2948be997495531c4f2b563f67a44f72a903c46ea7452b8028274dd5b5415f91a539ac4e3af6c7dd1b85dae57755e99 0x1ffd672ea49ec1153c577f89c1ce4f40477329fa923fe7ca45dad9875253e1780f82234177cf9514da2f1b4eb7cc7d20fb58feb1a786f2b737fdc201b9c97243c22; P0 0x1fface933d332c20d6f5cedd439ab4c58c1538dc90dac1986370f866de10373da6ff6d3bc7e747fee3f9d64cc9e2e93d29c5f4303cfe9debf347f9af794ff2b2aa8 0x17413912f180167e0b539ff53c1f95c46f53533033a51e56fe76c512e82ecf06dfa062fff404fa430e30c5e238b12a66a41df7bc6a62b2b6d042a2f311612db1f2c; P1 0x32b2d4f279ba40bf0d6ba9eea82e284a0754d3e204a0ebb91ecac18cc4c9bb3680c5549f6f4d718a1e097ff034808f99107d2030e6cf4cf86f28e44af81bb2079a0 0x191d812cd5dc113295e3037311001acd9048c80930322c0921c3677d35d10fa29d9a4d302a6f71f6f363938a94c96fd1b0e2ff5e8852e71b27f97afee03565b8850; P1 0x3b229f1eaa979e6a98eb385f5a23ea6ee22086ae088acf1af76880f5c2d698f34e7c961a68926698a66cf2ad4e0306a484c4ef457889519958d9a06809d630f076d 0x145529802eb4d71b4858e204fef5ed9bc059949ff00c0703637ce9e4c2c5f30686dd92e16de2e812f9ec6e6c5f898d0e06b8b0f138c6349d55dd059372d376e526d; P1 0x26c2038ebb85f43a886e5c50a51cf9eb1837ee805a80058204d55d5cb57e2ae44bc133ea6bc3d603e5810efdb662899f35457626cc66350d3a5604f47c55b42af83 0x2670050828f00c1b0883c759c31109e4f4f810b8325fae17256b988ed0d565ccaabef422ca38c8ccc880339584649c34f740ff87fa8ffb7698804a7d9cade4b6be; P1 0x8a82bc43d169b3dde4e6b12dc98192ab4d164ae98ebbbef18f8715b1e0c9f29397efb98875b545f990a65615f2dbac3bf2a4bce9372d14da0e2d28ab1e7b6d80a 0x1572d239b088efc4b16dcd8945b42fb3734e184dad0d571f809c232d0c99a5479857ca5a16a08fa1d9e978d047a6438982c857ccc3ef10ac891254175a5a5ef716; P0 0xe604feaf7d31f648300a9068a85dbe73e884a97a5b1de5defb2ea33018b640f7ae9b890989a1b4de34dcef12b9239e07434c2474cdcbce89fd5e93e8aa51b797 0x64f70c02b18c45a393a1e856dd6718e779bea1ec03d5f5db701f8d1ded198f80290e6cd13099699ef67401ead4f72546cdd972943f2457d947f6e12c5684f52d7b; P1 0x3bbae7af6cb4ada3df459a40315cc17b4f3210adedd5604828aca22f91b7e0a1249844a1efe7b2e74de6b260ad48ae118974aeb30075d54143c20f60810a2f4844 0xa7d401d060bb02f115e27f13a717c7e06468b84afe69ae466a3628db40c988688064654a334d2de24993605718dfecceb69028e2ecedd0d1ee68f12991d2b6b38f; P1 0xa5096ee94f033ceb4e79d0875564637c7dcae93844f3b767b76c59606a3a7006605fa3e1eb27e44da59c84d861e26b43cbf91133fb768658e2b06a2584cdf22829 0x77b74e7f28f11bdfe45a4516d21e4e3f0440565bba8e33c2d6372f33b717b21db7636007b4349e0258fff2754e1d44ba7e0c0c997acbe00fe22be68a6e09c205cc; P1 0x53f9e5594ee5a31adcba14918b5e456debefa9ce69ede15e4812d2c7a547a4852ed38b0fd403389b833600c7b9752d9011dd2ad66f78972d73cd2031dfa2884b7f 0x1c2e06caa9c7d018196b5a3942b3df3c6bccf599731d5306d82f4e1a349ebc7e963d401aa873bbfcb61aca1b11f9511ec307ea3009664ea333758e49a2f067d1b2f; P1 0x4a726a4293a4696b1db5b5ea57e38d859f6ffe9631a05069a02a2568aca02057e9108b71d01d6fa3012c34784d9d32e0db546dbab0e21e34d19bf74ef9d0a58fe1c 0x1a62b47d1949a98c8bd480d3662f404999a54089e70f61f57fcae8ed9a0843b50b8b177b0eed245362cfc5b749d3a218163c0eee2eb46ad0f9fa708d4a052b3d5ff; P1 0x4144c14243fb94b7a4e5d98d0938e447648304058ae83771036e1f31dde8142d83dca061d4f306fbee03af9769d7e00fe046b96c5a97bb1af44c2ac710f3b0bc4d1 0x1e72946855d3f60213d95a2a90e84f9c69360e7d0704fe9e26408836d0da9a37fcd29e14a77f49e8256adb2fc1d51b76fcb462cc18669bfafefa510f942f80c0d4; P1 0x56e9519729c624bc5ea0451d49b8c0a46135ec280268ebcba1b7d877925c80529e3d6101effd4a4a02825e32d183e9e1368d87d52f0407b2378bd86e666e4d630 0xd8d882bdbbe85931f2705af0148902a150b929e4d5a2da9d421125ab72aabf5cee18d633e1b6a31f13b8c38c2aaff58233dc2f3c14533f4b83e00e84f41ea0e4e0; P1 0x113851d9b980fa51aaa7d9f5627c2f1b5c9993766e69f6b98bc98f809148c9c7c5b7e5327bb3be09ee3072dede5e593e2d2a9b2fdc5019eef0b38ec0b664c8b4a4a 0xcc3f49a0c483e1e61f7844f6fe197eee33e201ffae009c4b230e29ecbaa52c09cd010c76ad45cfe3cd6dcb946dab859d2c58590d69a0bc1e4f499c3cb07a6a964a; P1 0xf46f637c513ffcf615ef7dd64bdf300e8de5abda3bf827a03a83d69f4984df5a6e246ed4efa5d44980ba6429ea29b256f7a081694dbb074842227b3629e0fc0e15 0x126034726829eb80c69af4053bde3b0bef06935f76abf8b03d7c1fbdc5b8eadf1aa3fe9017e5e3d9f1c616922fbed0e349e1514cb5f0df9213dc7ac8247e1847641; P0 0xa8d5c3bb99590059f3720ebf5f66a1d5ea877a4a17ed5e9f40030cdf518aaae671a369c2fd4ad78194af8b9b136de8c04e3ab35109cbb700d90122535ce2d460c4 0xdee8ae01bbb874198a4b892324daf51bb010d5029fd595e8daf3a4109ac8226cb92422361674a2623c101c1afeca39b8d8ccfc982923462ce45cb80bd34e7c5d45; P0 0x610c30a36d7f41703c8824bbd804da93b947715f6baf27cce135975fbeba09f8b7f56d759f91ead124ae5a6dfe63d6eb0b4e61a61c0e8c0c9eb1957d380b203e0a 0x40fce8865e7e7e1bfd57b86ab255cbe6e51d9062c4e8de92429d94ac6059031577e364a03cc938651276b822d75cb543528550e3e95c93f47f85db303693f372a3; P0 0x83fb70ee57e8cf14cd34240c884e8025ea2661a98e314cb0c6b76109de7b4d7f4bb822c9330786ac204437a848b00f76804061e40e1bbeb0f2423dd8e17658481 0x1953facdd329e70d2d67c0a068d70ccc81fd4fd9686bab43aec9283eacf55d74fe574961e7cbe8b3a137e4e473597f84fe498be1ce4cb30fb8ab038d77c1e2d184a; P0 0x140c1446535e11b0dfccb35923e128096eb3b420d4fe66d0ce32d7e266beae51ff3fd36c53be036cf9684ef326d4ab9a06e1ec5f8e63e3e16e73653d3af8bd85e8a 0x17950aa2d6038f678a4537f4c49fe1100bdaecbd3c62417df1cb8c7f7942ee040443b5a740eb9ef9091ed2c98f40e855f773dcc2c0b516a4eac94be4102702a53ee; P1 0x3422e05f6ac56500ffe656af53e08d4f3277b7798bab1319c3cde209578dfc4293dd4f3c45f016c0dafcd4a78fe6e18037b6abc0f64fc9377d7fe28fd27a4d57e0a 0x3181ac7eaf3ad94aa2124d764dd5a350e846793648a03276c964492d0491b5684769b5cffea0907d0957995e5b76b1aefc1e3647cf0561edd99f48b19f55aa11d6; P0 0x4c972dbe57dcd52cc8f04fa5a7bc2cb9d5f357c65f9d61ddb52fd7178be1e00858e17304e50b183fcb4f687fe51036576f14860ac73f6dcbc62b01e4e228954ae 0x1a76446cd9e9fb8761000b6034ab3870decbd7936a087be8e63704e53d2f6417431ebe3b4ab5c421d539032773ae78341d857cf0258c4c27efaf1a692f5efff7392; P0 0x15e1e44a173366c22860b319dbdb7d0d9a41b03a0666ace2a9b030605393d16c6782fb23f664d0fc877d27789744cf45e0d54fe560f13c36929d7dbd3e60c3389da 0xf78d80b4bbd99f0f5f91a1134250e2cc84b81c21b473586d99518455828685ee19edaab8c38947b614e43cca494d2776489ee3283ffaec83393cf88a0c193c091e; P0 0x77b12e49e5250d0d9a247fe70fc7e3ff8a26dd743b4ace354692b95641195ae562a8a77e77735bc4db0ec49fdfffd5cfdf8f9ed2cb2ebd78b6f6b1e61aa170bf91 0x17fb9e8281d729cc02a31c2745ea486604391cc9bf5dcce30b7e705ea76dbff79673d3f87d228381ba56785f607cb1aa760ab4bc546b1d45071cac3e0c6c3d3df15; P0 0x11f96e5d4b2501e2b3fa7298f120830e8c5f9e9edf733c669dd6d340fde8e4dc753849010c29bbc9e1a56b5ebb51ee5c2cfb4a55762b6d8b63c1b22258333b7437d 0x60eb93e188419c407f88904e8e6a934e0a245e4c2770b25cea74732efebf79081218ae832dbfcd394d1af912ef52651b5fd82958ba694de89f610e6f32b0badb36; P0 0x1258c3d8fdd71368b1ae89d00f38e812742557ea1e7a1dcb83f6494d57a2a36c48ba6165b845b0a94957a51108975ae533cd8bc64600ab2028f3c352123257e13a 0x17095800889d0253bda14c9f3b304dad4e489507dc0c2e86dda76e1a673dbdabc73875789a3ac491252851665c35ba6d540c2d0fb57245b3b1766c33cf7b885509e; P0 0x1095713b36b17b0b83b8b1fdc5cd9d4010dad3675b8fd8de3c22970aadfd0b73331635eabe5bb4ee35bf52390558ee1bb9a467ee1b467a718e38d8a9951cf4d6c44 0x1a4ddacfe5f40dded2c55b935b5fb6f214ae5bf0fcb9a64bd6b6584457909f5b40ebf3d1ae30d53e41db58925f683dd51638637b981a0aced25a4a2385ccdc8dc8; P0 0x159f40fcb66520d78dbac0f8b765d083dd8cda342afedd49387b45f4cf6d9fa7742068de37a53db542ac3ddf4127a67705ced45e69f4273f0d22a0d668ff1bd65 0xdfa33a10c7721cc7f8fee886c1e5319b24e0d9c1a604f26ced475534b9868bec94c737e161802f24e94a2b028060c89b56427a7518033c4f3639aa4f314e37a9a5; P0 0x61aee39e1d0132772491ff93068a61197be108a8bbcae9b8802ef237faa6f37587e71cee872a69c5afe6e41471fe6fc88163ae868d322b28e968f8830fca68e2fb 0xb2b79f615876a33a91e15741e889e3c94670bee2fae6a390c9b3114e49fb164a53d1633c2bc3e542a441d4d798a8004565791c3f332a82b3c3960541b4abba2754; P0 0x3e61eeac4fb5c2c12beb1427028f9fcd1a12e8ca3cc36d32b18469b60c78567bb9791702c61a6a19ae56cb61a9dca2f28d39a833312e48893aaa989dceef824f4b 0x1ae5eda38aedc28e26496265552b8829138b010bf65e9c7f39071449f037565d69f5379c62f47381b3963590e8bb1d175c89359f1ffb5a05451cd2cbd6539d02db; P0 0x169c1641db3884cb13ec6e12847f399145bf145628a085bb69481df7d3f42a11e1cb3efc6fb743ed603a8e30e251d6644a499cd0207260ae607e950434350dbd7 0x1373ff71fcc736c8e83b26b14128bdafbd2afa4b342f2283a9c3e049f554f03b641ad45c995a35e0186bb961ccae7d07939e65a4102a01b4537878c988dc5f70330; P0 0xbd363d35697ab985ca6be3d7c05f6a7a8cf466566e703b51af30f4fb209cdab13055df7ecb7784178e482f06942fa6ce39e73b6473ce3fd3c6fbf01f709aa58e77 0x146924693a6c0a90cb7cd738070a1978d70f0090a332bd3eb081073c8ecd87a70b7ca4a1364ee77a67ecdbb4dda43985737a23de7096efec7881768bb8fa14fb777; P0 0xd04c6faa5048fb53c07a36ee67c66d56d2f0ed5adfa4d556251fb1f965cf838d71ef30da92ba6e37eed4458fe64f16e86d2080bafebe50f7f9227039208df15a31 0x1bb60a62e69026572417e1af995b5e78355d65a01a2a2c7a5b76419076e06fb95363553d47e8d4a8e91685a64c549821ab7b4939129237d7265a7dc67a8fadeb382; P0 0x17ff3d1d0d70ea2bf43ed949649ab85267920c7e3c3c81a67a28ae6c94a671cdacca15aecb26d3ac31fc24b84b8151cb84970bc132ca9d9ff6b783be09b4fd33913 0xe983c9573aa72b188bc04ded2c14e63ef332fe9c79d6af23cde5d3cec1245eba919510198ba3ae670aed0bbe43452a901aa8a251269a1e92610a41cf910b2a4717; P0 0x6a80942c3b3235ae1b1f8bbe6953a438a0695e26c4ad2a9e9014386c741c26328355611a1f3ffdc310adc457e01d2e090b2a3ddcfba3c9f719d56e8e1a76c23742 0x18350c408158735b9b3d9b24a8a2632a2c6af4272387577eb4fd218442a79643a0b09508b01089363847aa880ead12fca4a635af3090d20edc9c074f13fd80bfb53; P0 0x124fea515c6205114b72de32bc7c37799613b94699d7be01e8d62e92f6771048ac79ecb923a1d7f716cb964f5cdb9e4936078f72a2c925fe3c72108480fba7c9045 0x1f03f614bfcc3c6a6e8660a526816798b8a260967eb220790f8b96819564572dca5a95c1095582d0892f53864eab0fb5de46c344e1a908f42a7ffac79955a5a6d2e; P0 0x1e0fad45bbdebdb1e7dc258795ebc2ea64a829135281573922bdfb0c8fe586920fa4a5168e7975778b5d194b48239b33b2a04e6a092fcae291416e378c568453145 0x1b6c92d7777981d124c5684a4abb66f9f350a70a0e08958982f43220f11d4b74e8d549a57dd0d3f8d07c64d9f77310290e7000e33a25cc868a8390fc106b32d6589; P0 0x1780a82d69d74c41212bb14815a9dae477042dc76c6731c5a1567575cbdf8e0f74965149a0ba96b0dcdbdef16467a3427eba7fb2a0f5c56e434bea1509f8b40c427 0x9140cc3991b9e7c2ae195ab24b7b74bd9b98dc8fafc486cdf747c656864bb1d75c41d8bbb314da9840da541c5d26b9ae41c85ba8a9b499c8e4fd512915fbb02778; P0 0x29353bdffb64a15875d5af904a73b3a656e6e4d0f21aa80dee457568d4d544a9837626a8b0250c58a9d2e77d61c034eb1566b64e180d3ed344cd9384aea31f23f2 0x1d0f577df621212d0baed417c3ea53439bdf0e746519ea9b5594d7eefeadb31352791b2e184f4b7cd6ac8908bc9fe50e1b7820b87f4041c2102a68154fa3e34ec32; P0 0x1a63d5ef4369a5572bbd7424f367d2919ff0d26cff32d1953081b70ed82eff92478f3c93bcbcc675cc21cb107965edf37fd41e8f60c7b53938e6b136567a1a2d498 0x1b96b3a6c3cfe297a31dcebe672b8aed0047e61a6daab7100c04efc3ce0200d4007affd312797bda813387fc533c1dbf471831d07cf9d10a96d96f33468a7df0e5c; P0 0x17c914e1966f9f0622ddba87379e1432de1a910b47d04d298beec4152b4413fd19f1d481de9418bd9fd34279496a29e8f35a176d7257a9b69002010ea9deeb4459c 0x948840a415ba422e05f94491c3d96172792e84bba19c66feb96e8787629edaa1774deb7045b2ffef110f16be0bc0fc74fca21c62a6c125e09ca3debc73fbca76ac; P0 0x2b16e9a13be4733a40b13a3abbf9c192e0013064c12db898b1445e76eab8449026992558c04ae241ff2dcf4d9b08bee0897ca25a9c23b788c720c85ccf18693073 0x1b7a144bdf554b59dc71778914aee10229ac4f0ad069c0fd4849d896064989a2e869f53034a9797b468cebb73a3d0249dfdf5040ce60e643f0988f2402bdedc3403; P0 0x1797d3fad8466495c5df913b60af4010826a6ffacb80d1aae5f52c13587f18c9eee21499a130e62d885e3352696f66be13125fee86cfc79a729538a312a155cc31a 0xd2ba5c749dbc5cac6555f403505f60cccd87309dfe02de6c5993c7a211ff32ba377286681a74f39992fa067b722b816950b12b3bbbffb80fe79333d1cab915fb23; P0 0x56bb23ace6d122201ba25f48aa80b5534fa0cffce34fac7639a190c068b72de64b8f347b492444049a66706531907530c5e5010b62688fc698df204fb84e073ad8 0xdbeb6f1c4595bc9e5d9be809eb7b2c466e467745712292713ca0a6cb4dad9a676ea0678e136a57da6888f8511e150f29f3af84d763d13ab9ada1a28fd00e22e1a1; P0 0x5e76544fc697bc8b3212a128911b36251ea4f7af0eea1f88d48b6a0ce8b55653c8ae8d80be3785e64c72cae49a99750e6a45b367588974774a31d2ff8cd185ad85 0x121e9c8db266616d36d98a77f662a6f0667ca0b317b358b2b117ab051d69e85bab5ceae7e55ced7d6f4f769d5a67543050848aca7d5338bf9b8351f589b232614c6; P0 0xa428d67f049ac67c93340543c5438c2c85a33818a220ae9ad2d075f1882d3da4fb34968207dcd7c1917d629a1d8f28b92cca44b5197126f4d46986c5781fbcfe6d 0x10247e486c1bdb69d06f7a5837a55807fbf7af01664a5a17c7746afb4f982290cdd49e9951cd8ece45ee909ccb940ca4ba7abba1a20501d4b7530b37c9470348791; P0 0x824a7e6816a115ac8fd3c0db931b80b7b88b11bb59838a67b04a8fec9bdfd8f90d07270fe3cb9fd7b00acb8d497dc02f3d4006257b191d901192554085d3827e50 0x14fc39b8bbb7b4067b2a993bd4a8aa5c942bdfb5ed6d7f69e186bc4dc3ae7e5aa62e2ff25be520baab53992f9e67f8da078657a6458e5b32fac585a79940e34be71; P0 0xdc30c347050758cff25a66b225b0c28859354ebefbd71bf31f6d6daf11f3385a2f161767e4ecac81f3e69dfc69c91834b0d1ece40b85f2ea98d5118e473384d4f3 0xe507bd7637e70ed15f6fe828bf1ddc5cf941aac559f5d6a0585be5fd21d4ffc4a830a82221f895296a77401f771a8a908f6fd863edf661db82b65262a17b18c2d4; P0 0x66736c98b4591a2412a4ab2842e9f9832da3870cc0f2afbd19120dc83dc5c7e35087594436e4a2d8a99a19c94f508fa6f98d032a3cfa6c67604db6ea7a61fe6f76 0xf3489091a2bf2e8962b4fc0926d90ccef0128b610fe5175c013edf8fb075a9d2cacca82f94e67398eba32eb86edfb7ed6cf6847156620b17ad930716bf36046f06; P0 0x73996b830f4353e9eb87745075ecdc5ce0cf2c263e6fc65cbffe821d970f1e296f858aa1307a4fba408a634d36f2b7a9daca3ed0a213ee82b10482a2f5f0ec52dd 0x1441862748a3eeaf3fad4d23dd784d78f10addaa3e63d8780859492630b4c812a09b0aa20b4432bdf4f85006789d61f7926b152fc81dce71ca663ef34d421428701; P0 0xcd26ddc4ccd34eb5b01cacfff39a3635a5761e1335056075b282f44fbb39644b701547799128d35fac5bd3c22495347c8199188972d5711a0a8cf51fbc7c864e74 0xc136c48bd2bacb033d2e612da3858e27113e3334167dc9610d2b637cb0ade79f2e81725392d14fc0f39653d8113f09fddffb5abb4fa1c4d343882d597ca23c5c75; P0 0x48e9d0092ad079fa896513541b8774448bcde3579d5878148632f317e38155b865281bf1285f588993820aacc7beda4b53804aea8fb836c7343ca62cf0bc9f78c0 0x19d588b4debd970f660afd35e69dfd84f1047dc6f56262f2c767219d8bc2a729370379947990f524754414ea4ec868455235d7bc347e2d91b62975b8b8848dbc639; P0 0x14db3680cbe2db8e73c0e1c150a6ef8ba092155f1a5c2e3aab4f218c6c497df6b5cd0d6959161da59099f0690d0c30acffc1037786b02b6f84ae00bef12fa5c84af 0x14326c3c7b93cf78f5dd13437fc17774b1ae5f0dec842e79a44c0b115c4ca39b0816687c67e7ab121e6555254cec01bc0d3e79283a91c5119b13212cdcfc95ebd60; P0 0xcbf56bf4593a5b68d4a21d01c3e06af8d2ed1d9315d2618e9355235f7adb33dac9a70242440b737b7a50c056020e7ddbeacd62c24e2b22bce1e715dd959b747a62 0x14cc30fcb9b82fc90544bc7e583d48f7dee161d66e820fd7c2bed99e9e4b60fa4cbcf5994a79bd81a6ff795ce853084f9c68951badeb9392017097dc745fa0b5e62; P0 0xd84542cc964213663c2928c85483f6e7264d1f4921259906346571c54038a26fe1d406efa445c82d22e15584a57b0232c3b6832b3cc31e65c13b34a4b6ec284cc8 0x1ddd564be3a956744cf394b71911bb195b3dc48cc48239a20d92495bb3c1354331e3b6fa6803140c690cfb92e014ce251c08cb86f93556eb4f8b600166393606a4c; P0 0x1bdf275a6d941b54a004bb740d5b080f74607b29be0bcc0e65dbf3f541ec8d829ae8bae4f5119fcaba81eaf584b85b12bb26237ab1245e6e17bfac1f3ca7d1446ef 0x1ef3385c63a7be682b91f343db2645775940847d1ec0e97d93be9e6b23af1dc310b2bf662ca42d1efcb92457afbc6253d39cadbdbcecf020fefee7118f5aa374d7f; P0 0x1def424d99487028751429ab85f089c06427ab1a6d7419480526bc960ee65852978ea50891830d1abcab00db7de1f0ce79d19919de6283755fb3a02a1cfbb22c25d 0x1040927e86b33a055726eb04755814dfa2a488d7bba7e848febf44bcac9a83ff56893cf72198eb3df165e2c9a1109538ca0afbf9980e258ffb165b045c4cb2a675e; P0 0x84114cb1f728857d85e1dc03909378ecb640874e0ea983b579bd765ea19c06630589bee02a8b2e62a983820bb03ce9b429e9d0639806b94fbf3640bd5faff39211 0x183f00a2514345ef1741238c011f3708ecef0bf421620c3bd6b8ff129192cd9678c312ff7a36f1fa5e0a6dbc6e7c3e7e3c8e52fc08dc3d400661963f844d8885895; P0 0x125efcfdf908192197ce7a11443c5a6769c05ab90e0489c67e73aea90fd862283c8dc5ea16b36d3edc904a0f46709f719c655e9797f5ac9c9114f0d1815133c4375 0x8555a36b3108c85b743b6c717e0ab7ed6cfd61e73f4e5a9ad9385195c48ae630c5e759b88d32e6cfe3801a397e7bfa7448cbc56acb0487f09ad7813556c0330a2e; P0 0x22b90c39a739aeaba4b09ecd758f868f61f30903e9ef8b65a710d8db637f1e9018922ca42b2916a143801bd9a1c4921adf93bcc4ec9c5ce319b6e3cae151ff515e 0x6794f0d3d6789ee73a121df6d0ce550dea7380e7651721e6980c6aec3e4965a45f2a3129cc0db457f1fc62588d27f2b9dc804a6d943cbfd9f6120e473b60baf1a2; P0 0x14f49838e70976619a458ccd71f94d7fc8d8ffbd71191212923fceb0a5b0c492d0321b1ed5ca22fc548323a71f691030c0dc2e9cec551be95286da07a4e2909f87 0x4f1a1cc65b267e27859b946ad83bcd5223f35a61f2cbd1110ce3a30623c58b5ce89a933792e59cbc45b69e0fd3f55627c2a12d7f5fe1afcc852952020e660b0a0b; P0 0xc38903623e421a7c80aab854b967e628f7c9a04eb2b922c83d0c65659ae50ab295ab110703afdd4162ca1007c6222a509b18373aca31b8af79b39431c09c9075a 0x4b0b9b02938c895502db648db04b57eba23ce0284133aeffcf8d912bf3ab36b1fc52189e82a5aa25f35ea41fa667b7ef0287c1311b418ca5170e4f54caab1fe3d3; P0 0xaffe6ad1944929f37424ab6c04cd03503de213b7f73f190bc2c86cee0dfedcad60bfccceb8bb477f1c58fdbb0bb1472d9d01fb2fef1efcbe5f6403f70b616132c 0x9d90dacc5322452b52b230a171938e095cc908ce092744b857cd5331b388ed11b1dae0bb137dac3bdee8f6196e22d7c71fab2326f0be03752914b3dec18feff315; P0 0x307d7f2abf6b1807f5cb6db845c88edd115d90ecbbda49a4a2adccdc9e9a5d5869bd35656affb66e17e3e2947ca9e313803e467a6fa11274e63fae29357effa822 0x1f945e77774c25d0f37a836c3b4be2aae82a367feba014a1aaa98952b8b8b3142c67aa3beaea4323468b05aecb3191bb2fc792eeb03719e9327f95f0d58bd0687db; P0 0x1f2a26f25f12a48305cd72d9df691547a70a929cccb96da507e1acd7a0a8246f4011b6067750bc776a259d2308852fd63ea2cbf6904887298c5e1b22cc5e8bead95 0x2223ed1b85c9d19c6b947d35b89b87ef42a2f4e8aaa8328df34411ceebb3d58d419fd69543f0058174532a77f3485b66b458a3c786310ea095e6187619ed1b62ee; P0 0x246c803005614c504f90279bef5d624e9363b51bd768922ce2830e174e0774acf606a0707abf5a73bea31532273f8277048ff624dc8d1439b7959440aa8937428 0x14503f63d030c1992c28e974b2e44afbc64485c42fe6c34c913f0656d9ea77a0fb40b0bd63476ec15539804b4ca62f9e40fc3113b70e5c980c31821b6a15902896c; P0 0xce5187a34e020dce78311141856ad2ce66d9c2452b7e7d0ab208069761f056f8becd71b17415e77b4c08fe8b7fb12fd8c8c71aa7d63007f04810e16ecf88bd349a 0x10f26b20972bf019aa061ce623814ba5d6da4319eae5578d1fa1e7cede7d99989f7d6c8607c99d14c475d80770bdb5e11d38be2e7ac2f7c877c6e429c3b1031fa2a; P0 0x8f997964abc7cd025e473feacead5102ba6169da3e9024ea3bea799a929adb65dd5cbe66bccbd5619db15d95b674c62ebc964a7717d4d15cbdc0d3072f57b74797 0x1d2330d7d132823db197ec3c8f930c732ee343e6a047b0efb55ea83ff8c3a4ef6ea8c0f07dabb01ff4589f58154f1494722230769b1af7b578c376dcf925041567b; P1 0x4f97cdaee976e90609a95de2fcb5b5b12192fc9ad3d05979f63aa98846c32865ff926cf67d95c7b9865c479a0341bc088f3d8ee1687c244abec909bc733801551a3 0x1f71f2cdb7e956322403d3b6d59fee3f916be2800e155ffe1104bd9f7e4c6a1d7c01b6cea4f187c1b12a3e608829bc20e7517856e77fbbc5225f5752645371beeee; P1 0x5cb31491ba8add52daa7e70b3ff3ce5806e97b511a421172eb9ae4b6c56a98742ec8e9633a186b991c216fd196a79994710113830020998c9becc03754c1e40f042 0x2c3db49a7befcdbeffaa06c4352c1d920cc1f353e688e125b089a9e76400993baab249bdb6389ee197ee12ad08ff052a6715fdafbdd1cc5efc436dd53b9db200e; P1 0xb77e76f0174a7c66a211887134a28f16ff8bffddae2e9fb94a672972e77fc52d5a930197c529d4440987160c40be70f7564bd9408a321351febcc0a0484e6e6 0xd3c8c9c72685b4bf8a7970840b5e1b350c5803008beafc1da6b3395f6584b28dc5e2a7ba676f34dc8d89f418e4fbfd1e86f77256e56310270922bbfaf24c6b6932; P1 0x106cee7274792656d8d9274ed707086fc52c5ae2d55917fcbad3c9de9d46a18211dd9aa08a22bbccb205ad5183b4e26f2218ddf23af48be79d51cf5abcf0906eeb5 0x1ed9f0ccca2e0eaaf85de8e5a080c8c25b040a0f830aacc1afe36c76f4ae00616c57b43498f704b3da4d8ec538f2858491f41583b71dd214cbb142325fb6a191801; P0 0x1dbe6fd0e8916371251ddb2d3bf4f7729bc8777b13df1ec78e8cdd9a5a44877a44fb3023ebcd26b0fd2da1b2a4434de30a4b4863fb5b8988cfbdfc1c85fc0111028 0xa56cd9a9248192f761d2194a17f06929e0ee42405700d934a98aedd976b537ba5a53bd665dbe3070cf44582c3caa952a7e1deadb903ab9c8a31225eeac46834029; P1 0xa0583e4a9d4106a1ac653edecf43d374a9100f31594db347d0dd7d0bc96fb3d033908704f54d1c7311d31eb7e27e6bf8a893abaa8414f169b553b7f8ac9973f059 0x703bc635e0d8b3d4e89beb25f9083cbc66d5195e3f8e042f274666e56d097e426f2b3de2cf43636743ffe470afd3ab60253334396de395905ae08971180b93840c; P1 0x49ce8916288ff694e797189c7f94604d24c0f602f48365ccff18d19e76d9761fab7faefb8e9ee2c34c69cf0c74b76d0a046f0a556b01988abc7d364dfffbffdfa0 0x1848f9ee1f0ad8ef48a5e1a266882aba026ff68d52502f449f365a74e667c9ba6efafd99ce745275125bdec1bc69a10793308eb1aa93a31ea64b00263cdd1ad0150; P1 0x374a57f47a6defb973ca9482316c4d31505962fad22f158afdca9ca1f810c6df3281e8ccf227c1b84205a16521a46d8b44eacaddeacad7ea1bf1eedd0f5dab0de3a 0x5a7ec49700bb019a9cf523279adda932b50b7999f2dc88efc4594b41754206294945471bcd6dfab8a1e9f2b563434d3c964ac45c1b53566fb50c2992840d16093a; P1 0x2ffc11806c2fab19c270110d7c2c71a436a1182b5e434c82ef2ca55c891c3d1a5698620e8ba6f26de9e978e5750ed552577047aede7657adaaf565de0d8c03dece 0xe426042e5df45dd27d878bb9652cbb5e692f3d8daeb5a5a72911f8e32ab637517c47c8567858765403697fe5ad204dffd52b70afa0a4df249c08e29dfdfaeb423a; P1 0x130fd9ba3bfc8fa807cfbb12e78c2287ee888ea44d70511a08253f3749a8f03e4799855afb8bedc1e1e2e183ad6ccce54fd36a1a8daae9503b971394c53262c5bfd 0x1de0435c0b9e8336f2f22ee422fd8be7d3112ae3c9ca52dcf4391e16aaec67662edfbbc1cf016da9ecc943af3b22687ccf113726a474ea1cf928af66ce2f5063b69; P1 0x53add9534275574198427cc209caaa6f178448559786df21cb96345f9fbd8958125a92a6d5603c4de09989041beb630fa5513cc3509815d7a02c26299d2825c876b 0x6445255fa8df7d51484c47e24f1fe3fe18d87e5eefdd53f65f39100baf066f0345983aaeba1c791d7e135aa23197b2e1b384756910b91fe73d4ab9db97f47d3a9e; P1 0x3ae923cfda6ea368a4b0bf23449355b36c749577f0734be428a9d7ca1cc43144e5d31693e44cbb9c0272b8f95afa7e849154c103e493b46aa8614bd4e7503c2205 0x10166e30eac6f047d42e2924a29b122fcffcc6b559c5e79d60895f5bebfd993322158b27f9b94781923713acbf7b07af89b7fc704e0aee4f0b458ed2311c3640e91; P1 0x184379bdbc6f1012ee98a5225ba6885d6cf68a00b04331c7a49de6da5a5631920820a3b66e4a5ec6f00a8e05b06121c90af0e17d4a89c7a43b3b854eb7dc6188220 0x26e1b467ec271957d8e2509aa26edd14f45e3994a5f550dd3c636f59b4da947babbc9f820a11b93209296be8472ced6ea1092799536572a13a5ef86b289e6d0c83; P0 0x2f3e446bbf58343bee03c10895430b839b33bc5f3abad67a43f78af5aab091c754a88ad62aa7ba4b5ba9b6f4622cd6a2e98e4cd4715c343238b2a69c13e0f4180 0x1f6d7e4f21b4b8c87143bb481f86ac185a2b5c2da82c51b69eb33c86f68f8cfc2a4f9c552c80cee134a2d36b287646cc755d23daaa62b7bb7d9098e9e969a39cc89; P0 0x1edd9b5fbef3b24ceff26bac9d4c4997be7d9072180c03af67b0a5d1bdcecb72a886f970f70001188e2af458b4b9a7af23b6a28095da50d1d5b70cae66ea3659203 0x871dc0505c6f84171c0269dd53ea6eea2cd04aba9fca8f22a5d96649871f7197802a6cc3047226011a246687ff0ca0e27485745fb5374523166be54a1c2fd23354; P0 0x23a83224f215993abcfe3a167ba424b9d010be0be43c2ff6ddfc06da11dfc24d91493792447eb533f7d486e6d594bdb304296ccc4a3d1060e0874d34e6705e5068 0x212f94fcc0c8370708ef2847e6a142c9abb5b893cf2620524528d256028c7dcc594ba43b00f3ca8e5ad4e33a0cda95d13b11c5bdacee5dbf08982bdab78878e3f8; P0 0x226a6a09a9bd013cfee2bc102bfb5650901de81c60750010263ac20df8dfcb016fa106a81f8d910863d7471564f39c78ae54ad79765b97e7d75854f28ab76e719 0xd43b80aa8bcebd5d0fd2bbcf11bbab50db21add817cd75049dc9f948d441c717ee911215a101826c5286bd4b50ea14b8380cb2f0e83a384d52d4ae4706aef8a759; P1 0x107ebe8668a40c48735178f50754c88ed5405213ac5e1e3f7a738c5f27aaf3e21293d44d2c44618e80e048716c5f5460ff0fadec3058b6cd0df8aa0f5a282aa46e1 0xd91c524e1b0feb50eb5b22ec775a9c6bdec87496d518a3cb96180c382deb09ef7912d2096d67686377f5206d5bcb2e0f3de35ee64247e43b2801cb772b7429fdb4; P0 0x5c10835542b684caae01caed68b47aa48d864086b44690df796e4f9fe5e894ad0df46b0998b34a7a31b38aadbff5e9cdfa90936588044e24939d61c4227bf7a589 0x1ed310d941cb3e8369d4e8d20b879dcc4d5a6efba9bd175caf2a832dd7407443c42297f0fb4d2579fb415f17c639b3ca1442aa659a1fa4a60c6a5886b68db0cec19; P0 0x1db12fbd954fc24ee5bcd53fe35d05781f8a3774db6415709e7837e901e25ca4cf99dbd0991e95bc9a6259f3dd559ba939872562db3bfdfb3824543374f74347224 0x1fcb16ce780597253d31ae6ee3f5e20ddb1d4847c7bdfb59c5013a0d768ed27ad5339fa73510f1b25a8bedffc19c225823f083e5563123be250dd1f0e39364a8c95; P0 0x1f968519745eb4f888ffca7578964b69036139746b5439948128a21b93a1ff737f8117cdc920bf03ba5007189af48509a76f4ada79dbbe6044db13850649394a772 0x13a211a369e93385a1e0a7c2cd97717e42070aa3ab801ee6a9afc99c7d6eff968e23596744d6fa07e5536ce63d9c3de3d463d6360ee45c520ee5f64bfc302ebf62b; P0 0xc0ba9c4ae0e29607645accd4ebd45a4bb453a6f87ec89d86a1b71ac9c254e8a32fe2f7b9e993a1e76c6b32412ace2cbeb0c86d29a976055306d2665abc7b39827f 0x105dd3e319434bb39326e2cecef8d06a8370dbfec83d31826dfde3429db93b1098d82b4f9e95915e566c40ed9ffb102f90d079410c70aa5c6f09ad4139506e22db8; P0 0x85ee7002c474bb18bf210ebf0bf9ce7a95e26fca3c7d273016d3dc734a4cbc1617a6f83693eb90faa82f8eabeba66a5b8449527bbda34025cae29eeb231cab2859 0x73099b9548d07e92fd97ef361608ce165d45acd19188dfedf2df339f9a31d94356b64ba1a57dd6254036f7ce5c58e58f51cba4304175d97a2e91a0d54c7db55c99; P0 0x19d8d112373c46cda36dce659a1bfe72eab952dfd03bb686b84ba478b41c8ce54e09561d6223b336acc91128e6bf3bec726ef0e26d8b4bd4988e5026a36a02e090 0x12fd18ec83bc2b4c44077654094a4eba62182fb8f904d779090e08de16ba7d7ddce02256d04d9e235654a29a4e18e9575610c51523461d9e5384d105864e5db3401; P0 0xb448ddc438059d5e93e1b11a288021d393c52e768da6d0525f83be1691f98b81bd81dc3a944f5b53095c635c8f76b4202973f9b64e772ccd00a5b23a435575f644 0xf790ea54df6675575804af5829849d52cc399fecb00fb2041c9a9600c60b4ec522baca6b3fa734bcf17be859c7e745cfb3a0b54b53fb3775ead53571c723bc5e45; P0 0x77b47b1c1e89271e9d6833a5ccd40e007f1755b1d0a7efa3b71e4ee459b1737c883e19f68d52c38a612e443e14b95362cf6fd130a018633e0ca339f5dbedb0a09f 0x1e0055a067375fede670f1b0bfbadf3c59d71d550e79db2174a924fd2b0b0a481224b5f37f4c1f470a7d4774d8a6b4a29f33daf7c5f1b0e4f835cdc7b8363bf5f38; P0 0x1c20a08da6a71c3db45fc1c231bceda25870fca9d83acb4db44cbbc083acb0e7650bb75b7931b8e199941c4d7c39af71294667fc7808630d4584fe6d0e4c303cd4e 0xc251e91f29805d3368ffdbcbce4eeb7419984251ef835a2acce5e06311dbe8bb9d45f9a1f62a3854c99d45b916a0434ef22a50b0c7e80d5a4d5a5fa6e94bfe698e; P0 0x49c01fc44a7446e9d192606b7a58de4a4848b9a872d0ecddd8b89c18f6b889f486b8a850a2d7775d674076d58960702d369f62f2fe15487cc874f7a75ee46e8985 0x15858fe5b36a32c49fe162a81cc423b338ed8acd54fed5c04a9e7c8fe43e63bd3a346afda9131e8d41c003a8fe23a8e8dadb30afbca1e60806800eb0289b9bc5449; P0 0xe797a5427f229c107ea3e87ca9af5290a767e9b2759999e3af7e785db1e8e9ccc46ec6caa1b799988a9d48f90bdfe7d3785407dca2626f2d8c829f14976579359c 0x7e57cac22d0d2b48aa47092d45ab4ee97295c77631a6c00f90473a11a6aee458bd9e32124c867a5c372585f01cf7400c4d5a8818379b5e199e844a2b16ce71326d; P0 0x1f2d44d94a754bf80599c907fa078c792783b65a7fea1ae223c6eae1d1384fa1ff7206dfb2fb18bd400aefbb558d2f58f8a8d9015a89a920733eb255e86aa31979 0x80b66c0e1c36aae604afefbd2e9081006017ba0090f3b956515ad926c2385e4a45e6f10f66686b6b8be2e75fc93f02ef6a1dd200c6f49d69d2f695fdd964cbdbe2; P0 0x205b7705f6f1589b1e83b008f09da901b6f3061c9c08d1cb0c7b4ebb29322c34643a97bb75ed4cff4609debcda4821d53318876b1ed7eb6586421c80e43cb8e807 0x1f2fd8f7d0d558fd34773a393ecb3cdfcac6540b3c9e1457a3e29eaf5b7b47feb49b333fea20e1752476b767bd5591f3ee9414733013c7212098917e02742015b8b; P0 0x1e64fbeb3babd1855f343b72c0baba9a7f7b9ea6565411d28143d1b83a7b5fb96434c4a57cd742b32adf7292db1a9f020b96172b0766f7bb6a1d53142c8851ea312 0x1e63739151ca878e01ca6e1e0f6a183b7b5223fa9ae6c93864fa50d35b5b5be69eaaffdac6f5c97f03c3838d576af3b6b901f8e0dda0437bc289bcd1a5808f0c08b; P0 0x1cdbadc52de4e31ebcce16e171045b8e06407b891cc82c7fcc4e15c8c8a7fe1a63544837fc47431bae70636d72c79951f8a975dd05900aaa4f4bd213924e38188b4 0x1760b5420293a9ac4720eed259b913fef02420673a5c21cbd37c5541a84329588788888de9bd4bc87a397d308f4f5e2fcb3e8dec36a48f4d3387aafc32728f2542d; P0 0x111428d27276ff32c0a806c92ff2091bd2fa2517191dacab61502272c539f5fefa82536906d3c624b702a0c321472ef6dfb1d8fc58d1925e846b3944d2c57630d50 0xd15012c6899ebdf05891925c7027429db349aef0c433185637c2384f1b2872320e108e13731673c1d482968b6572ee22196d985369f70a8bdf59b92093a8249d39; P0 0x5591ebd9f515dd565289f8f71187c06b6f9faf780eb907f15e250358c32fb63ee74747e6b1491eeede300ba8165758bc9ec1f5e3531b605bef442a0de015c14736 0x3997221e19762218f0a7beed5ad623f3d2e72bbd12772089f1e653ed7cdba02d9f5effe3c77318235740f58ffe4cc474e59efaf4b2d8d1e4add256f0ed7e583de7; P0 0x67a533555b2536c57eebfed1b82c8560c1f2629808fccaa9ec4a45ebc55b29350d75bb1fc367acccb38a8ed7aa115d4184057b2b51c2f4432b93a881f3fda2bb7 0x19f385522679b31072dc08250fd89a814ff10254f472b562b55b285b57786a1e0b7d7489bce0c7bc57143451010bcb9c7330b2bf52567c3879ee3d412f41a21228; P0 0x150bbd83573a32d23bb981a46e302d8604981d87f83ff2bdbde7db6972b68ec7495af478cafae619e3b6df4ae5df146ce73ce94734f82628cb6cda1d29d692e3a 0x3f1d6d083363aa95498f111b5fe60f5367692c55ec780c614bd4b66a43eb265004519faf22b013217e3577ad7e2a9a2e955c5c9e86b890b569356c5055e952d47a; P0 0x7c7bf85f5cb57481feaddc951aceca1a48017f42d3c0b7273052a5d28201bd5f157c9250aba5ec87de90a79e33a21d7a46ff01dd89b92c35f8283bb67860915da 0x1793352f78b7780b93aae51f42b3dfedf1f577dd068b70473c2bb1d23739c8f804c9d0e9c9513e1d6f3ea8d2d77356825f940441daeff888bf9d7e8f5fe688b5ffe; P0 0x115e41a53a12587bae9d76db765180001b3b744393049ff8aafd97c946e18b20fde4e7af77e7cebdc0641b6ca51b53170afee82134d6a0f3d2fa4c0da9f908ebf18 0x99d5fbf81ee94c7a4dc21febd049fc9321921ca8885b9cb3eb3a011c117d2a0e42510b60d823946423ae336f917669a23e85a6c98642665614aa210c8752613f1c; P0 0x2e38bd05ebeb655e6c177995a3e598e6d3a1d680d3cb8322b10457c6cebdd32aa5e24b4127cd0b21d2f0979568022fa799ba2faf0d93d064329acb9a5798c0a562 0x91b27e95bae7de5d45e607369e4e60fddcd2a44806d539b2dc736620d2c168523456fef50a13933f94728e62d8caa1a8a69a5c4bcc78a26cb72b013b3e6b877072; P0 0x2975d7ecf24527f31e1319492599b38d8b9cee8fdf58a51719677b14c52dbaa30accbda24d2825ca26843e52f985c2d74178e58a85b396295a061f8f2b63fe853d 0x18952567057e15d555167436ad352f4a0c98f834a09af729dee7475006f65631aad2da5d8890b9a989885b8c380839a2aa93b5b64eb62b347f3e39d120a799e7801; P0 0x12e26f3f0357cf4a4165492297c1f9c4d29d44a04846d2188cdafca0d8f4ab13e1df97ca1504fe8ef8406927304971348616030ebc20d0b340f01bbf9dd37a1d6a5 0xc84d797e6e50213c636123fc586c9bafad639cf2996e7fdedabdac5d817fb21da26da46f0bd119493f156459713e689dfe83ed6acb21a742adfbfead7a831ec6a6; P0 0x4e5c92a3ee0a296d6fb829d923888a0b7ee409b8c15080f8f526a587f7f652e5879a546794d3ca59804b8776158f238ecb7096104a2230b1455367e66e3d542d76 0x460c95bbbfbaa5d008c261971d86be58d1bda86fed087ab0c79d2646da5623fc9fb4f94f931f8cc77106abd1f95eaad28c5e9e9da822942015ddca1ba74a61611a; P0 0x9957140870411871fcac99c5354c6264189777a3fdbed54b678156f3a5dcc431a5f1c90f58ac84df515f8dee5cfca6e1419e3047a19ff25242056d2f8e986a08b 0x80a001a03d6eb0865688b26e815ef23a4263a405424591805a24c74b1925d3aad9dbd14f1f500a6834383a07dfe4a9b52d324d285651b9cdbeec837012ac0f572f; P0 0x205032d122df0fd55a7840f17d168805150d94b223c5676dc7796ffaabb6c7c2fccc17a90332be715b1a4b730152c5ed79f06aeaab98cd69e2742aab5793ef51f0 0x18c38a8fbbf43bc7a47bf15362b94be96cca580b9249ded5a371f6890fd1c4f498826586a58262c89016f5ed664dc4003ab5f376efda28ad202685aac0611224c91; P0 0x1329fabaa9ab44fab2448642b827339cbd3d9a79e8f455be855c618cb973ab92113e7b2071f56f086299678b0485bb92748ead690dfd05fe3ebad86a308c5066285 0x1cf0cd406c54c8fbd42bd81e89173d5dcb0bd26991cd8b0902a1c7f7e2c87864b2908744b38ed6fa36c43f5b0f64b2a19fa7924d572c0a30bae391ea4987470cca6; P0 0x1a2c7b3ca86f453085b6f6e99aee31897b2f66cc16a698111b1a2db85d46d4e65e0896231402bc9325f947452d1d1896a227e28acb4deae3847e5256e4f1b5a6c46 0x27c54f4d1a0856f21ce948870449fa005fbd10e034586ac7a4a8b56b1b0a45658ce89d1ae0db3323656137c3132c805878ff3429615667e37cc92b8e99403367ea; P0 0x316db1e5194a44eb36180476e5e6dce3e7348b85bdcc5851426fb1b20982b8d91256abad79ca79fda88608b3a87da20b72e59cd39c3ad04d10140ef12a628429a 0x185f23096f7e555db338d737b63be3b03860ce55d9a400ee9b5051bc2090b8793138a9e2cad472c5fd70f4632aebc0dbf2325470d63d3c954ea32b07b0e3792647e; P0 0x128fcf6655a024d3ff70c40dc3df5646b31b4e9c87c21fc6b380e3413879ab063fa47a5a2fad53fd547c34e0dbc8a622ad1df028f7a906136a6d55a7bef52810614 0x12bc255be2e459a8cb2fe8078ed69243c2ec6b0a2118c15261771dd873b7d159fc98df717a44a9686c987857e5b759877a913af5ea8b837dfbb073ec89c3dabb418; P0 0xaf7fc3e828864842ebd6dc019135fb997399b9b42ca46217f8b6a783bdd803b42aeb21f36228cd86d6007d08118a93507dbf33a1ba8ca307b98ba0f901b958de8f 0x138240a40e2d4b3114379aec50543461e97e694b9fae29e30a592d93c4e9eb181b9a0e3355b4418ce57430f957c3a01fca254d8b9f5ffcfb58598c53d3f401aa0cf; P0 0xbe4bef0885c7b13ba153598217dbfe32d9f7ae4ded769efd31f831095047c8f5e8a532eb4494b76871ca1bdefc6911feaba1669183fa33ff45b3ef3680d028e576 0x19c2599e89452f1a2f7a1d9057875afa21bb3bb3b6a093cb340880848e9502a94676eddc7cd6c5f0b38b85a728c92f1879214d028371c25487a5050558f5f384cd7; P0 0x14bc486753b96d72b5ba3a67b606fc3ebfe85466bd26e5b5b82f01031272f57c3e4d82cae6a00acfc7d6ac90348bb629e746fc226b06cf8b1f43dcb09b8aaa87ee5 0x2b583900b5375c31c21fe2f2e4276672a7b89cff5a713c99687aff4dd24572fadf7672ca03f85f95d9677772e67801f0195580b30d49b8179d8b827d53f1c8db76; P0 0x3ab60c6bd073fdda060d47976e447762427f7874f68b42daeae6c090f1dc62b0e81bc012645ab704e102a07752ce27aa6ba46faa5dbb7c6c976d405c451fc06fc 0x1b6182dc6119857000c7bfdbd36900f3583ed61fb774c154b6fc203fb2ce2afc3e796ed617645a836483b2eeb34dfc28803e2be2b8bf850ed7b51975b14227f2160; P0 0x176db5f7530c3e8d9a1166717b03c442cdf55e17c826e5d183f7fad66e16fd8333f7d062102f2b9b7523316c377df0eed3a8dd3a99a3dec044dbc78561fc5ff4a7f 0x1ef586c50929c6b0f18d114913ccc0efd18a0b47f46bca516d32b13b8cb4253599cb8f68e2cf709b2f0bd146eee0036dc1b7319f650f3de4dc1a5f5d11f67992e7f; P0 0x1df3b88b51e18e34ef63406abcc3c571e55f0eedbe17dc69ea26d2588ee48ef7d3b165da7b8298979d97179a783fd7d28435b7fb370b67d5f66edbc507bd0862da2 0x1d61877fba58807bc87c1cfb8674a8d0f82e9d5c1397af0bac7a4dc55bcfa69410b76bb62a3bd23bf57f63edb808896bb238894540b3c2ded0a01c390509ec610a3; P0 0x1af9eed735d9d38961867179cd947e6c2f90399195843d427bff6c07aadbc9101be092224067367f0a591da97f753f2807a570168ddd490a5d3c66bc5be056dab15 0x1643e19bce09d8e98b133143bd0ed28195691de3847dbc5604c310dc79c6077d0428403e50b8913546295ea2f93aeae56eb26ae211b058ffa70d5b8a164f6a672de; P0 0xf7de6352e564b8119891a133e9eb566311f9686f27e4984bcf27fdb34bae65a15686174a63984dd0618566572c2dbaea247264ebed667c885e0221e308949838a6 0xc002e26672aeb113eb73b8a82d043c9261692558c5cbcdb507eb041a362a72806b27cbf985f63dee5a9e69ac2cfab64ab400879d01b9d25317896b2d74680ab12a; P0 0x480229d0feec6fea565ccba703d569a9be4147463970964623a6eec7d0e23ba4232dac330916dfdf976eb523b58fdbe48f0d90e95d02ca8af920be21bbb3480146 0x12f01866dece727b7584df8d4d2e105431e72def24dbcc2245c811ba824b8b3dbc49d16cf5f7f7167e085e29fe2e898ce3a21197f319f3c2896641c2430252b1c2a; P0 0xb3524e1d451f2683f40f0414a6ccc0f6532f5369604a216d20f54ef925e5d23674861e6b19b11f68e272c74d85f2ea706920779e387c0346e64ab7bf619f40c5ec 0xbc91666edc836f81920e8d1ff051d58b1fd2f4b2fd2da725ba3b0c2c10af4c862492e494b43b21cf089d18b3d5549a04357d4a7ee46fb4cb0f59639c883c75fcd0; P0 0x4572f0840339b032cd870950f329a27e3979b33b4585ce2708ffb5837aadf0e2688a4e0735f7c4f177ac849c06eea5160f5468d14afd2d899b2075ae0ccf9e53b2 0x1292e1d4ee5c564e4ed1bb28289870ac8c48b92ef3a773a8192a2b8361862bec9950702fc9f145c72472ff577dea124cdfa4ad60c664192293561174fef5f687cb2; P0 0xac7e0427ce6cc7b57de7c90ae6d19f1a9f25074a301c3f5fad9a83c800104e869874ddc07e62932f94d057a9a6783b2f321db72097f190ab500edcb56c2908a32a 0xbdf81fa90b0ec7634884729dbd5cda9e7f6bea66c1e37af1afb746e3836563a05316adba917f8d85fdc5945c20d65496bcddd38350661340ff20761cf9d2658eee; P0 0x467c279e7ae1cfac0bdbd23ee01f2c35a4bd4cd4dd8f810f08b6b1a6aac17ca55004541162842d63b73bf50cb2a19262349da2780057ecb029165112bf0f8254ec 0x17b716dbcdd68692b2600e26dc9416b2774fa2b4924603fc714d00a17518f865876e0e947d8b6e5ad9c76438bf0a736ac88b45dea5a533961798777f4839f1b3a30; P0 0x119348697a3ac7eb9ba82688fd36920e26271ebf8bb3fdfd4ac57692e7db4a876bf0caa399a3259458aed83b8e926dd7661d4c30c407230ce2c1c9f18ec71f91460 0x10a08fc84f6a30228c0d1748db29b52bd37e36c61ad9961bd6156536d9217ac8a9cdb0b15e13139c710c66856229c07a6b9bb50d6f2931dfd32f4eafb396552dd60; P0 0x8a3b568a88f81aa6829bbc7183fcedd19b9fb3583aa80890ab7dde32f3d14ab0769b3fb07fad69f65200eca88be811c528046e49abca4ec2d10f2a77d194ba70c3 0xc4a94f29a1e6aea111096f719b3457b2c86f483834aaad295d45d2b6aa59f18c2fa35714633f46b62eadf1bebb8f9aa7049b3dcd753499c75b87c5ca11e5a954c3; P0 0x4b89d898aeaddb556a67205d9cb65a99fcda86ef9f4ce0bddaf4b03346ae31d16a196a492b25c90c8acd17d342c84be3151d113da59616e0ab498b1f15b28db7c4 0xc1eef2e38d22687b045e0b5e3afdcec103b37f098314e8306fdb7a59e95ffc46259db7b5cd3ff5ff5d7a0e2030a5a6e302e0000470269a9afeeff27ea19614444d; P1 0xdc5f3de57088f5ea9b8611364bd773b78bc063b951ebd78f2386fc23d0a2b217befc5f0f26d24c97ff776f76deb5fdd5794feb2931340e9d4f69e2e265d3c01717 0x1495f577b60a3ccbf2fa3079203d39a0362af762e7a80b55ff4aa2c7f479e1ee9196bc212c66f5234935c6c9b3197a1d3a0b7c6875f003e466c52bf45e2c2831492; P1 0x27ba94b8bbec9bf7810138560e77027b768ca12ceb51ae25503ff127647ac9dfa5acb794b33c08a32bfefe81bdde61389c9deaa6ef03b26221316dbeab7be342bbb 0x1eadf9278e45929a0d4d692e15c4d2189075cd39349c4a2bdd0a890de2dc8ac468cbb53ae8540d1390cd2bf930ec763255c7fb50aa569047719c965c6f1c36d9587; P1 0x583daeff2f2d9e65e2b967449018fe707c7340a68c83aad86952de02828592d338d112414b2b8ec0ad50aeddb64ac5f735b26b0a7db73870dce34d58c7e5b01df34 0x1324a740517b72192c22b1fce637638cb59d3d7165fed06a83a6f4824baa486cdf0b3c80a2dbf72def2f41d28533f607bc917a459808632a8974ad903255de726c7; P1 0x225b11c852e542f973a351d8dc21261d293fec7a53fc50d77f781e107f58fb09cdfd498103a42b63f094b808bc1309d11c8282f5b83db8a1c593e5e354cc0dd9631 0x7e033f67b82d408ffad1d8ee753411bd4663cbb8a4c61bd9136b060972e31dafb6b754f7d78892abdc2f78ee5a7c6261c40831988294831676b0fb1c8985e2a244; P0 0x1f03993a52b789a49e7c2c49d506092068a8be2c9ffb56f154b246b2bf7f79415ec22fbe59426555b83e2499650af1dcaf29c0d67208b6daafd07d051064004f01 0x1e5ea7e7bb10b46f8ccb323bad99844a39864877415d658dbc1c7bc9bcc2cfdd6713544bae4e82d0e9a188e23ae9b05a9cfa4f3a46b2c12aa11a7ead715f2ea7111; P1 0x5677b8712382b925cc1650b235a3efc1b7f74be55f4fc081327a46cfdf21c758a13279e4f4ec4b2c4fcc7fb56b69cd7a8b53d997ffbf52ddbee93aa17e671909965 0x43a85b55094f3bd58ceb25d4fcb0eb3d93416e26de07b15a5a1a2966c59ad8d6f510467d9e2e98fca334f99c5326094d551db27ee1b78e20bbd789a5a98c9ca2c8; P1 0x1ad255c9c499e344bd4f64bd56d5a9f69e3a9cad52c8591d27214e47b5657696ceaeba698edf81bd2857feaea0600237a6b0c8a646a46979a04ef2113af5287630 0x14d0256171ef118531702be1878f13e3937061c4d043494d9233a476dee5c47856486cc8842930a15bc86656249c6310b55613231d28533b40d66c35b0f96edaaf0; P1 0x289c69dfc69b6dfe3a7d9a09b5812a07498a9f7c1685f0ea392e829f1c564e984c5031b358585bcc6ba23f3f65e7209a5d9b5222cf928c32fb4c6e91c52e6fb1a24 0x80d07316da862e22ec925d6db696be5e81ccdd1ebf0bdf6d16eb5bc2f39c645c283a4f0f3e47f89567eccfcbae3af5b02bd702ad8f146dfe71c4dd37987e85fd24; P1 0x6139ab3b1d1a3bd31a8e5a1642a2618971d3996d82d78e9d46a86165b2ed3fe9493511455ef895d9008bbd4dcbc48967478365331372f15d96bca34fc43fe196d5 0xb9bce9aca36b46f4dee2b62a1b8902fc59e40a34002e99d4ee412748e7d0f6dc44d64b01b2b3a012a36db6cecd9fab4660b87522a5640f9b6d7e5a09f5950a1e05; P1 0xca23dfb556932c051e24dc853b1d9fcb8c521e2cb6660cf79203feea292638b01edb7df6c3d2359c2f9fe5f880a0fbdaef0065b709dfc0c9e44a6fb8e15483a153 0x1936a243fd93eb05e01d2a1cf33f8969d80f602a2663dcdb744f9b3ffebb13075b9d5b0fe79b23191a9be0a5f21a510e85e0217c385e5bb76dc57b77d9fde3f259e; P1 0x3b993073497fbf254759ae182a9ca7a0d153d27a2601c9f641b5eb163d78a8493d564af9a6a26267900a562eda71dfc713ef4b3f3bd5234ef3b9b46208441c558f0 0xa087e3c8b472cd8f45631cfd1b04cbb582c7e847bac6593ea97007c4bc14190d98e20dba85bc75b35696bb9c01b3b05538c3dee29952206415994df1c4f5a6817c; P1 0x96ff374b5ee10f18e670fa5a82d7e6274d93b842e54c29fd649a5cecf438428c533385caa63cac809f530d2544ae7d920008d3e8d6543720e274acbf1390bbb0e2 0x136425562e44d132bfecac89b5906388c259b5320fe3a8225f1ecafc8676affd8f5a79394a1e329d85641329ac6e855583b6536b0132ff92ce081e2591e23a64d12; P1 0x2340713f97694cdf8cfa6a6f677e4a45ee9c20f66fb750e8a6ed3b500195044a7f1e3fa6d98b4face1ca9eb5029ad4c8f66ae6244eb8c0e5bfbb3047790a2e03b8f 0x5e9ea38cc7146cd619fca751604c1c041428dd7dc400892048b5cb76f5fa88d006dc0ea802771d18de8445357b57e8376a1238b92f582915625ef2e3898683bb5b; P0 0x117c7134d63aa808f78f086c4059cc5f8eb3e901c195b6f2d7780f6fdab6f090ea57227d9004d8bacaeac459ff1917c87c5f28400f08354c6a09fde5fa5180f410 0x68e37460f9804956dab6f5ccf5436a3e24c476ff380ac070bf9feaf5ec8d0309f1dc0a9adfd6a5a9008054ee24d1546a59092a43622dfbe929f3f9fb4cddc10669; P0 0x157ccc5331cd5df87bca873e55088d983d7bb20bf004f752517bffe878f4394b6d19086933bd89b0be9bc6d3448f27c41ec72031cb549153bfd954c816bbcfd7a0 0x16e6fd9ae94a1ecf2f95ccae0d2b13f94c146ef738eff5dcf231b313dfda0906c5a57c94b56cc72f622b96f96678dbbd95ffd71b669f52a28f894db530ab04aeeb1; P0 0x1064201a6d7beaa7d90eb9c00f46024fe00965e2cfd4f81f410a6ff384a138d2eb9908c718c18d0596f3fc1e868e3499daf8194bf768353c1fa86192a07fac8c669 0x148a6352390520019fbc9654fb464e256eeb454d84c5f4f8a18acf0681d9972d26ca91b8004f8f3f3019bf0f4be1f112b3c3b160dd6263dbbde66f7b3fe37aa5cca; P0 0xd2f52a0a0b7c84a6b95ce044954686798e5a78e967cb90c801ccca5881f5f260edaed48b355e10bd7aaa7143adf2aaec8bc2c4db4c03d3fbf08b08b462cbf65009 0x93c20bab7971aa5d0fec997d9d181f189e0a57783eb0cf857242ad33c87c195ff23d70b067ad9a51e09e776cf908b665150f6581170a98b14350c1f678f5e01f6d; P1 0x7feca2baecd72dd47a28241e78faa4cc98c7b9c67e5a8d31057ac47345ca4f39b45e7f5aa72ca8b946af38bba8651d26b2caa3c154bae116dd8202d895830ae319 0x16226b4046fc4070cd70c7e8a4fd9740901ed82866614ba591d2844405590fe9a04e440200b62b3d532c909d0471843ab68d486f2d9939321d8890df03e70dda054; P0 0xf4f787db1a80c77879b2205a2749b1ac73dffe49e68316dbf99606bb32432bf5c980bc8047eedabc344fa863664a69cc93a0041267c972e0eceffd715262c359ff 0x1e46ad5dfccdb14d8bc36b76128b724333b4cef8166c95b6c23c56a834208c0d37bd1f352193bd137cb6f54b3b7ef55cc07b8f643d317d8e5a38a3f462a1834758f; P0 0x1ca5212a607501d65f2bbd11c25b0982c583976d53bb73dc08bf8767bed6cd444f9b151e25633fdb08a59d5569e96d17caaa6aadd9d39aa864f162585482836a393 0xe749102954f81cab3b724f6724a37de6a4c39609e5332ab33f059f2c1d32eb77e65916058a62eb13895881d3baab8a198c03a6b72ef8259521c2522cfef04aa974; P0 0x687a780267f7b5445b19460657bc2f989c6173d08181b2b9cba0b05d7a27c380930aa01a0080bbf8eea84e2f83c220961541779f8f01eafa8374513895da25070c 0x12e373dd428272bf0e22cb56a690857eaf07d81871423d57338edd0dc41eb56a9aba0b8f1fef485909b292a16c2533250811d537f28d95f6b8f32956e45c15f639c; P0 0xb26330e6176a3bbb34a040db4ed3d82236f5411995d46c995f715ab9ef4f84b371584777c4d21473166dceb93fa20e35f11fca8921ff1641bf6b4049b209217f83 0x14d75d118e3ff19293430165fdc411ed5e4e0db0f431026ec56026a63ce89640d53b3a8348295086066c045e16d59c2a97ab24de56cf6f0532a17ef038655ab8693; P0 0xd92ddc19c657daaa21b398f62ca4e3d3ffc079c1af45af5f776b26f2b908eacb1391885554ba7e3592a3a0d4f5b047bc28d97a24b8afb48ee573b908df9116b1ce 0x127e507e2f4275468cff8cb384a5191bdfcda35f694dda8e0db4ebe8406183b2874da33de0e6bce7cd7157cab49a81a029302de0c6a95253e14f596b70e3e36ea37; P0 0xab00d28a157cd2ba5bde9d6c5e4bb5ee34f5bcd38c6c237504ac7e72460e4615bc6e4370ba451c11a7a86556d0cde4406c34dff2f7af2c9538be4104668cc647c9 0x1b34bf49fc7e1b5e56efd8d8a30a01f7417e82cbe6efaee6d751d61a2aa9e8318af113b1fc32764359a0a219a657e6e5f71be0e4c8005c53435dcafe9a4d642df9a; P0 0x172159bf0205493953a675af9db0bb7b14543ab8058e786253b676c3954d41a3a85adbe2425542b57ba51fd781395bb59c7e3d4bc5995dddea644e2aefd28f3ac13 0x1cc03e3e545958b945652c597305751f546811100a891794170a7d4b1787379bf781cf4b44f2477c6987a907e9cfdf1b5dd8660adc234465c519d775f9aafa954b7; P0 0x19d4efd878a28baed90d91c8d778a0bae05106650721962c794e65b15996218fc72f57cad36ce76f126a6cea555b40986e7accb5fdbea8112e9bda5133d458b7bd4 0xb50ad17eb1a4a66a6a1466d65c5a0f7f72e7fb3ccc626ec9b862e20bf15f41a8aaad7f4d4ef30491d8a057391510b0ebbbd641474f359963e472e9c33c6d3216a5; P0 0x4004265918446878d5b1e67ed7460e74067ca5ae4e3f338f0705f7c0319ec6ed8bc2a8fb2c811654fbfd7431d1775ba1ede1a3b4f5cfda0a707b8428a1f1b54486 0x440419c9c71ac66f9d4057b622a7ad41a3040156de3db931e31f47231b90f9f4f885208eea30f28200c80660789e6d7d247f51ff793bf47c4e546bd50f4e2a0adf; P0 0x90916e20156bd177e5791f2b79e24b3da5ecf3c7f921bcc4ed3a153d76823590b3ec3fed0e3c8e18062ea334623583fa8720737985a397405cd3d845126af9988 0x17f144c7dfa78d51070603875c11bbdbb403fae5391c6e115609e738081f5ea5c246733a02bcc63a7a0b0f98ad7a3e6c37771b3bbd810e1832d728985fa9c51c7c9; P0 0x11e9edf3e7effdd8f6431c2f64af6f01e220ece6496743d5a4c0de22ca70fec27e4e2a518b281a4b23e38224fe6dc56988f332f44d4f5bdbd4e816bdde7b086aea4 0xd134c066ffa5333e589196b2e80f1b0876c5954ac87c78a6234cc012ab969ff6cd2739db8925caa16d5d3845b00d97a13858ed6a09cbda31320352b218b1a2ca75; P0 0x557b968373ef20d890df4a37cd5cbfa60b0b83e47bd4370c0e49672ddea1415d826e7c676ba6b84dea176ffabd47431fc8ee939c682b4dcf1602c1e463a3e9667c 0x1a526fc4622255f84222d2e339b5812be27020424cb276fbac722b8b8b5ab5bbbd77130f6d6ff1a6049e24224451035a6c0f89d8381658ba53a9f0911ce4a1a3ff5; P0 0x15a6c9fd744dd9ad89c5688df786af05f98b88d1b0316cb1678815f397a03148f7d3d8a6f9a656257937a551e2a8f6ebceb88ca2e025f36eb918065da35a376b2ad 0x54ce2df0e9101f7b486b0bfb0a161982d6265a36919980b8dc7b45867de4c1583d6b9425998c1a64b67e5358a70cf3b49a778ed155116695f329d0822c55353326; P0 0xe0bfa1a08741fa087b4c289e7553a5354bfeaf4515649be5ccb99824401878642c8f412437995687c0a9e61084887a399474540fab9335f44bc6533c162fe8c84 0x19a4e08e677f74abcf3ae7b95f1d599d956821459cb9bb02c4b28b2b3c79f3cf8924e92cf4cbe9fbb13a4ae94ac412b678b8b1d6a46358b447574bdbfd6d6f2b628; P0 0x148cf0625d28236890276a9a6ac1d9cb8b068c8980e800d881e3fa4647adafd0024f70bee7891058c83c1096431de9e2b1ff6970169fa2b485f1c0949c534d88a77 0x318dad98930fa3af1756a0183a58681058a14faf7a983fa805249429ce3e2d9660e919943b5e546724d15d4095e52136413821a9594a02a96e912c334cfa1570b7; P0 0x4cbc56e8c0ac6cab80b6d8e0c1fd02abcebea62ecba9e8dce0f50598e7e2f7e452dec16717e0f3c4ef192c5b71185a9a036e77e570d55fdf8bc6a82504dddaa7e 0x110c873a4bae194ac94334d2ba6a5891cba5e808713bff2898f5e900f03ad3787993f384897dabd8e48e62aeee2c6a840e245a29b2ab57a7d14c5443ae969844d4f; P0 0x9155495979606326d6cd589d6239a5d6b386410cfa9b20a3e456e6013f1f8b5eb0aa8d3561cee2c179e1c3b77b5e3aaa5754ce7c18586f5fe1c5b5e3efc89e9a4a 0x23a8f9079bcdd570389781b39a8dd17a5675692c9d36388dff448f3462c003eb6a074ae4fc471065e02d760c5c0e0b4bf8d9b265ce03dae01f9f083588676f38ab; P0 0x27bd1cff06b49ea90064a404b66127bcf96a3a489890bf6d8cfac642dfb17abe381333e72fa548d67960e1e936f5b42125da0056f6d8b3aaaee99cc63562c24ed 0x1134d8ea23b35e3915156aefc968568b373a2fdedd6518b5ce25cc68591a1b5a27d8ef0a6f7d1a55055bff290fe909d2b5ee55ca32771696ef00b77fff21016726; P0 0x9407dbf7d422e2e9f043233e058fc29370dca5d4fa3f8cedeebc1ab527bfeaf7f4d59fb9160e385f22453a0d3e036e77d9577f9eccb1b54bdd6dbe6439a33334 0x15e96678908ace28a7b5eeff18be9a81babe0e80b8d9c266397ac32328da25e03e7f42e802976e157047321bdf05f18752ead11392f5f7927437f264cb1fd7eccd8; P0 0xf00fcdbc19173a30c5a0aae0fa4c47f469465ed956c9f04b42e544b359ae0e68980cf2feaeacfbe5b215ea984229a508b351c272fecdd3b4a46927166281baf730 0x1ffd8f71090477a30afe39bfac5cbefd7d16f551886208272c068ee1d46745e003543e6e723cf1da23b4397c75e9d9ecfee1530fe6f8a21f8db574278c3ba43ed70; P0 0x1ffb1f11afd30e4f46c3097daa9bbb4a74b8cf9ebdfc83027bbc941d1574a954dcba896dab35b687bb714ef32c0a1facbc17953cfaa66710d11d50050d0a78ab172 0x19429bdf6906a8147fe8f92c2ec00b66ed716b7f74dcdc4b3b386df3782efe5d554d9ab8e192453867ae36f5626d64b641e90214f663010955f5c5bd07d8c634272; P0 0x13f09e3304ee0346fe2c8b998e29ed6f5cd5c1809f128d4aeb6e7b1cac244423d350e4907348ec5a7969b927fd385e691a2c707a3d5e54ca849edf895aeaffb0ec6 0x17d8838a0346bfebd2856094760a2eca6caa93dedc6c47bb1b38851711195fca3b6d356bb7daff4c1669223305387bad014fd06b962d08614eccce9702bd566098a; P0 0x11c4f60848963d117421c1716148a8442062f974e85acfe27c70d6379e7c341c9ee003eabd699ab1c0a107ae316f772a74a8566e52c03b7bed4aa75c29b27372cd8 0x10b7f6a8701334c2aca64ea2896b8ea28e982d3a4b5b2e2fa4b005f6998746fd800c0304ad197777fe87058bae06ab706322c6366f2e2da5a70a22cab82658a2b3c; P0 0x8bc183d03d6422fbc9e94316e6275a732b10a2b770a2037afe107c28afe9408d644aa5b0bffc8dc0133e62f9aa4eeb21794f1cbe58494dc25786076f0af04ac400 0x1480d965a0c436e9f90dcfcb5890aa8bf290bd116cf794839d83a3e09ad14bdffd1173c336285a86612eb0a4f50a7b37e917ef981ca4b0703203103d0aaec47fa10; P0 0xd23168ffae6fd82ee287140cdd04db8627ae8f9dca8ec2e3b88225c68f3f572c6169ff7ebfeffd99f558c720357d4bc2fdc3fb943ff6eaf081bf6b1dfffeff0a1f 0x1c114019f1245b22b5d26f2ab890c9143ae403fea8a61f0e0e17d20e78c6542a48f2fe3393b95df2211c573d861fb4986d353bc1029c2311dff5bd2048a28224b1f; P0 0x189e397a01f7afb6e19675af9a32626d6fc5f4daa4a106f5772c102b950a44224291e48316f63af4db9940cb4cbfc45d1aa4e1086cc4bba8ce0c8a81c13c41c051d 0x10de828a4a3c9e5c7b45a7646555d3691d38c33ead45d80efefa6799f11c38ca6ed568c0da9b13e391d5a7d407b1e5751eaa60b218f6e36101e6f20cd917e6332de; P0 0x8e48dbf9d88983f3c322454c3ca0b7c572e9ae32cf6de6b8da37811c3ca688af0ec60222a5a3328768ae98b75ba8af16bd976fcf926d1f743a2cd2ecdcd956d5fb 0xc1193846846f5026b512e7a9c3fa5661d159511b2d7136a3a213687a7b42b7a4e493a607420088321c5774135402862236bc124584e56f1646b28fe4dbc3264e7f; P0 0x48d384ab2eea50fab484cf3884deb8058ca1296e21e8cfea5a03a1a8ef33f133e305590aeb8f4213168f591196f2ef2864fec8111790f16bf61d3feb94941ac1ef 0x1f3f53876ec1db33cf5b3164f41d8a5977b5a077294338e51cffef6fe8c21c596fab529d953b1923e9a9a3cb86716e4b2eaf6be96933d01a7a21f41d22f73e064f0; P0 0x1e832f2825e47fc121e0c8fae83c902f559a7f74a4b80c2b0d30f1c5393faff29c9c6a2ef76a941efb1e4e8eb4e6283ff42c342b001ede83d4e357ec16b8d1bc73d 0x171425542a8eb51e3569293525834b85e6742248112233fbe49d01316102e8adf118dcb3200474cc5d875bd89bd89930f819670a28e6a34305b7dd0f0ebf8e8283d; P0 0x10a50257d1edd6877b2fc0a6392ac8a6cd3ae7f0efa1526373ec5126bdc732abae559e179226732043e0c87c64f02e505ed98b8a9f7a1d44f883dfe51f3271df778 0x10984c73b76450b9689d8062dad873570697cb4463a35dc1307ec3d2f0e5172c43fdb0236ca71b80e555554e99f5f0114c693495c2f560247a96acd32704c011601; P0 0x89b214ab959d3470578d3f482d253cb5ee1c51914343d1f23c35160b0e95362cdb846bf0be33517f6a56ffad1b9d06ad468ef9f45db1cff8de8e28a63c82205cc0 0x1469618dc45175856814018c0cae1e44ee03c6dbcd4f4b53044709fc892d6113676fbf287f6ef0a11369c27fa5db98ba507300a20347a324319a3def02e480688c1; P0 0xd0514fa912413b6984f22d68e893904583f877cb0d918f13ea08633796be560a12cb05d85e390066e1e941af127ce3d676ee1da078539d49b6973b17d638defa50 0x1c503119ac1ffd9d0cf07cdd28938541bfeaab5d0c9b43ab48ac5ab2e8675172971388a8a0035defb893d0a781d722641f8ecec96839131124dc2fdca497af89bd1; P0 0x190d1ee2b8eb4f81706ad04b9456203d9b5202bebef87b1b959e04a3d0611ab78e92e0289f1340285286b1a74a42be0ec18221fdc641a8fb5c28e5685f4c43c9378 0xe5aaf3c1c4c83704a4ad854dc1b8c1e75ef7c4912a6397054d2389eaf003d576d98fbc37bf63816ba3d684ca8297b25b5933929ba8457ebc3100311d183c035419; P0 0x6705a520a7c07d4ae3310eb47fe639b1e4537cc90e1111843eba0224f1db269ed7a2c118a73c46dba24193fc10e205b915143dbb4f3cdeee194932f3d27e915729 0x1f9af72bf5de62db48920bf38a84b31b83c12c68e0167903d828c48d6ac60551fba1bd03761a5aef3f403d9612830d1f3f0acb4059382db50d58a83f1f94ac7c19a; P0 0x1f372d57a8ac3bfd9813a5b720a65db592b183430b0cad7d8904fb78c38ba373cd86d0cf22ceea6a8f0e5da401f8e5df8791c46e22c61f3667aa2d2ca59bef34e78 0x2f6880e3b83f5cd2630ad2384b8764bd49831f4544f676e503185edd3204a8ab8e6da951bb93fe7cf0fc442bbca17fb3b36e070be39f510777776173b956c8df1c; P0 0x463c4fe4bc8bd30268d4b9f983b30fbc08b2c2ef11d23b0673a85e3e476107e9dac756d97ccb935c0ea2ac1ea21fca30b9cf40d920fca372c388a3d79de01b478 0x11691f9f810dd29871b8b9a0a7bc77acd481971b2bfb50f4c6a5113142a9ebe7baa1e5fe5657ebeb2c6a4cd2d58ce46acc409940938e7e7b90057f36f760c337f88; P0 0x9790af11f1dbf8f4b1a30a27e925f01970d0b56b98573b9b2c9792390cae5b91187969d3a2ee7a43dbd50a0ed5ec55e98346544307346f896d0aad9e1e656ddfba 0x1d7ccb75776175c173bd37517570e86db6ceae54c6f12109160a53a7a98672e24ed74f4dd148316cac0ede2e2935aa485f67728e80411fd8e37f83fdcf352617fa; P0 0x1b2c1772c459e29679197661c498fc66150e0a6a711c49ccf1be9aefaea439e7ab7d79cddcc65e3b2441b731d9fb0669872e417cec4bf90e908f04bf0a33a8fd8 0xe91454e22e1825488b2aeb8011eb65f8ebf0443ae54e6aa18701e68cde7fe8bfd5aa709ba73cbc44286eb480405bf517bd334fa23f65bf5dcfe8d401d547b16ffc; P0 0x6a1b02108bb22edc9207ff3d72005be02a9f5a82028abcc782c0e99c4c1ffca583619805b05eee5b88830d65dca2704a91537dce71c76f63519312def89a66c49a 0x3b056232709817ef61618937c5bdbc3a2e4a52536f19d95d52f790de27639ed415f2a518b8c452430725d490141a22521ed9b98230fb49f390ab176a6ddb44aa; P0 0x6cdbdb01dc4948ef2bf6936d618ad4a767421ebf7f14a28cf948b50f91b4d5635fcdbc393d2da66c08baa9b1facfe57f60c6ebb80f9afc2ee270fad1ca0ad 0x54ffdc5684dc0220cea359579839c2c44990bb7b92ecd68ee26f38c74185092161ac2054bb40295e13d32e3f20560b71c71e93632c23404954d1a041efe636191; P0 0xe1c7428bc98f0a4b8b22643469af1d990b8fc0e644162aa1bdcc13ab1b644501dadcce8ae92bff6a1c3fd95f49afdf0ef08e92a418eb50200529f27fb03175f 0x12069f2149be6639c545d9bead37a6119c02a75630fcfed7fd0bac7da3fe474cc175e9d769be32cb731ef8275e8a112e26c24be97345e974060c2e7615452584b80; P0 0xa27746436c4c9dc2e1a9dfbf6ed8328dee5c370a257ec9726d41a1f243cf01a760e75b5fb16abe4b5bc77460e0da8ec6ed75b7606b4a216b2e92829d9c812053e1 0x128a50ca3358e36ddad4fcc21d93e1c6ec8762dcfbf05b53dd09ea7b7695d0366bb74345d1253e98cc1e9cbf9803cf8ed14552fb114db157b21e127d86e7f6493e1; P0 0xabdf0bd15b6dcea2f6fe6497261a2fb4116e57d7f25f322996268fbb37d41a4a6cf67f405a82d571dea471115901a4600cf13b2d1f8b8b07f6c9bf0851b2d67d7c 0xa127e85ac2a20a596cdc9219cb81df3b146db0fe03d37f71ef0dbd42702503ec550d6a04ad8bf87548415e0125a5caf372506b71582711a13acdacbfeace0aa93d; P0 0x32b99c3d63addfab616bfab4f62903d775e38b3bc384622a7d843501b99e7ce7eaaa60b5a4bd2de2d0e8ea8c8215341c9f3d416b5365f20da5c914412c887166cf 0x3c1fd066ae3e6689747e7d26f38cc0feccfe67fda504d6b6b43aefbdecba8d746a23768e230c8ffd94789692195b85be960fdca9bdbd219f7a1ee7d3805d16ff58; P0 0x70f76d222193bc0fd6bbb5dcfe317b29ed2f55e22a22ffdef33184d1e7985dadf2f2eea5a156008ad39de1897e237644e8d3734dd7b8d2588f5b868ee1bc642a0 0x1ba5e7f4cdc4174d3d5522a56ca25d11a2b5788772c74c2fc358f9d61dbe19a9f69f3cb5d05d703bf10575d7a12172eea090f849340018e1293884c8884ed96b0e0; P0 0x17e35393b9228908cdf3c3fc0cc0d3f83f8f211df47817fa3cd30d7c3304686d0857b1674d980f7ef914f70cd8dda159bf77c0f7cc2fe380b936d27f97ca059ad86 0x39da8b5657daf23cae9682429852d618eb86104578044d36539c765624bfd288ea0274c012d047ce79efe0e8e4069605530e84cf5196d15bb06dfcbcaf210e7186; P0 0x689864f070200a53eb3c84d798749f50028afb8bf829c9acc12d508ad7bf3e623d5aaa4e9fe6ef2e4c9314851dcf7eb590c6949c98e84144c616ada32921a75ed 0x1925faed80992877e1f1f4a5897a97b6744e52715cda502013fb77ae570b18523e975ce15397944d03a70cd658ed4e5b96776eddfb2d1e2820369fb997bbb1a0811; P1 0x3b4a8f75296ba876a01bda2e03e89095761395799c8e3fa3ac99d85b93b855f35dabcb884414e83547200733c9f3305b65331c16a1c32e9824acb51b7b22dacecbc 0x1bc297e7d6a1428835d8ba41223363cf4b8fc5d062e62e2f23e1134639f5762dc54d661bcd8244128ba25448b418ff967ee43cd56be27c202d169890dff9acc201f; P1 0x483eff03b2ff26545e320e10922589a480615bbbd5bfba95edf783c80d5b3ca5cd03888ae3e84100e7f6abacbd22cbd23f01a6a3d07c8cca9ea52fada7dc10a0453 0x9b9e009019a5269fb69b78907e39873d8936072edd6b24f54e1acdedc2745426dbe36b6c2305c06a2ca9a5ededc47f1221153e276fd20b70b3314f1fd45594f96; P1 0x8de5114cc964f09ce8f43180d93b00b8626076fe4f92e2b52743aee4347bec53f77bf138b77f6bad69211fff83391c8c775b6729a92754e19268b90ba540c115 0x1cb1371d2273afe5fe0540b1fe6ba5b11cc2d34e44165e06e8d4f7408f6536f85b96b11e86187296848dc3353a23782a28158c4600a97e0fdf91433b4ad865e84c1; P1 0x4d2de197288b7db1e0c0883349d8ddc2f49166ae7299fb5de8742f7af07a127e070d0cd6ed0d7948235d2fa6353ea5e2540857e0ef84ce0f2552596d41fabb7a497 0x3c65c2edb170112c175f4534391d7371e2d70ea5f8aa3c11df5cebb614573b1b4dccfc7cda07b1e446996b3a1d1831257cc56119b8bbe0799bb32a944d1772711a; P0 0x71fede96793d40d0b20f0bd60a89e2f2a38ec0896371e362c1ccc8ffac1c4f0c38c8657dc25367086b68e4513e5026e9a687903b20f2a75c0685f3308dd65f479 0x1e5c2b8304f25f091625947f4726cf12d47efa2f83b68abe42b29145abd192c2d1bf96cf23e1a125fb2d98c4d434531f5390b15ee915a28f54750ab10287685eb1d; P1 0x5669913041674cae1b1447ced7ba48f6f5fcbccae418ccfa012765a0e2565f0d2a9c3323682f77c6763d0937663ce0fe259a546dc90d4596cff6df251a12f41f332 0x14d3bd3b4533cb8f6b0b382ff237de4a24fe88bd781e772bb57592d782489bf0be6a447d6e9d28565f9f6554453ea532f88f5cc8fbe45e88e721282cd37cf72b70d; P1 0x28aa70c1d971ba31f7025791a97412c6b15c482668af39c6a2d472997894168c96568b6836f0a19cf7c1936734d77008a27be92414671c31a198229a328749bf512 0x86a3c3b1447575d643b23a54697186d1309905c96a051faa7dc2320e93b438398f1e650bd77318c6d78b475e08e7e64032cc84838f9d4336ce477636362602b90d; P1 0x6a37c6708b7f84f891f525e8cae0bd44a302039d7abdef4da0827664357888cb012286d4a4370df50ce156b23fb857313756ca2e7a6d8b2cb8cdd21daf638a8fe8 0x1e74bb2f3c68ceb48a4e40bc90e72583a1322777610d6d70c3a0fc44a68c3959ce78eb43b2fcb46020a27ec4601952a54090064a2c3fcc1656bd65b33093571efe3; P1 0x56f59a5dcc00798fe20f35bcbdf488e2f3f740474aa1bccab802faf7d9fa61a6f52c3f3479183d5cf6bc9b42d7289a9602bb28843086c335ab919623cc3380a9cfb 0xae6cdf57bf052cb9b9d656cd5d7e6c5aaab57009d8250d827119b9e69bc6e0f0116298be0b82dc39da9950f19fb5f96fc49968cbc426d5c30fdfc74cc2279986d6; P1 0xb24444dcbad54b0cebf34988147a7b6e28fb2e5f4f2d509c86e09be0d86acf350aa5a52fcd145311a993ad106a8d7457360ff07e94ef20183168c1d36404bc0c4f 0x11ca349d5d77ba04a990f6886446475398dc5526ab6c7ced6026ad774671467593e80c62e9c9f763a681d09ca8ccd21b4f6a974c10473c38805f7c81e2f92e3cfb; P1 0x1dab80df65a9187e4a3abe5dad5ae2ed63a4491c5c4816765d3d638f35ac835a4e0083114247251ce8725a4412705b910a9ac71d2e4490385fd3f731eef26df60 0x1a994e9997ef9eece2812c0bbc5cfc8601f1fd337db1cbe6a7eea0e1e536055ab2a732a6f39c9efac58174997b863d3eb96809e41482e2a1fc699a24791ab56b9ab; P1 0x4253fa95de15c2998e6c7721a8e9dc938ff9d001169d370a86a0688ad176cd8479d2a3c85e91c8747e6286830730e777207ed9985fc0ecd84fea42eccdf61627bed 0x1af568d4c36a8172f9c83604cb68037fd8e5028f0f2517a7564f95ffdbe916b81060663d5cc4be8094f5385fb4a00ecaaf12dd599d3a6034b67bd2b424488084498; P1 0x44226d38ecbd9a2db5504a008c623b5f24b67d806fa766b55e4dd6f0d3d6a4e205c174230f1c6cde4da33fb208e384c42b334cbb2b6b65cef8ff973ccbc5db48179 0xf57830e54af27af9f6b79a27f803cf2a40ef15bc8a6e6adfd1f93135b28d00296c8f2203692e0905cc9a29c9bad61e1118f4cedbe364b1a824dac69a6df157d039; P0 0x75afa30260e09617eb38c6d741623109d49bb75fed437f19b7c615219f50b5cbcde81350d214b55f84f91af35dfa6d4e3a01b58e35409060b69100cbb0efd2bbdb 0x1b37e8ff6ec784254b1ade683790fae2c18b6338f5f65c6b9323d9b2fd8a3ef873f3a1aa8d2624ec128cba92be59fa7c6ca6385442b57a318cacbff246571ed688c; P0 0x1726bade997d3a113656df850f061ab79606f772d2a628027489293efe33aec3e2741784663d5010a6eee55342e386a956df1a3150d26fecfa13efe6a8fd84beed6 0xfe7df08560d9dbf1e2de3d92148ecbd2745416e35a090b379a52d6c5f3b5ba1510cf896fdc30271b6e7e50cf1a5554190ef50c1cee297e37936b55bb7e2e35fb66; P0 0x7e7f139eb835a02585e860243b812cf27166e7919b8762ea4dbc10a7b8fa93d929b946f5cd0c34d0da39a4511dfc94a138270df61fd2c97874ab961f1f1434343e 0xbf6dbac3fb7d0abb2c22236020b2da7575f779a36059d1ea0a4febcc717dd023ec60efa786f96138c9ed3d138fb2c9b8d0f304d1a7c0f3694d44140d41cb5160e2; P0 0x479275dc82350efc9d31a5a075ebc0a01e1b69ae495c99a3fcf2173bf6717dc14d277266cf971ce7398054f6dee4d224bbd73645513b0375e6aead4144549b15f8 0x129d46c68b2de04a21e788cf71c54da5d6a1b9e421924119fdd7dd4296ddd6370e077c8d314a4e681cdd7a112368b2fd164639058f83f77e19906a1918d34495d7c; P1 0x207bdddb5ff83dc4f7aba58c0344d32ef410ab5f9c53e99fa76cf753d24ef0d3e1fcf35a8eeb29c21402aaddaf4ecb3ae671953253a65e84fcad8619cf410dbeb1b 0x1a08f43a19cc32eec39b91cad97e12dc7091d264f68e4e293bd6c5fdbd36a9b3305d3eff6554a762c290792c004ef623f10cf8ceb17aa42d9c848799dbe896de74b; P0 0x152e8f5fceef2bc516fc89dad111bddef95addb265104307f10d88866904e3bb64faa3f909c67789a4b8c241104af58306efe01d77e3d1c2e0d7f20803bee0018bc 0xb93cea09fcf67f70dff75f7a80da0a4cc89db3cc452bd20058b5da1cf741d7152756dd8260f5eb20def0bd5cb3114044619f2a0e07d63db79d6aa2a24cfad688b5; P0 0x43048c607d208d49a27105c997736b52292bfad662c3dc8f15413bad3e5d1c461eb2deb48bf70bc84a4c190268e7e060c236f8c6a3190004478b7b1c841f5410cb 0x1cf305a7d093fcf950bdbda8f92117a1604ab1e9b5866f55a00ae1f698d7ba01ff5ea86a4a0465692130bc397a60e1161e19f0a7a18cde51da1debd12c67af0e0c4; P0 0x1a307f8392b2a382eefb261b4e08b064d3074e3e51b317e98bec08cb50cce429d65a465831508d71a8692a1dddb00418c27c6c84d8b1b841e63f4743e0947cabe6b 0x12280ffbc1fc1a30297c19afb1e63fe258af2bc915d0e5ca9033fb1beeed7f333659e1fe84593efe02f774983ee335c123fab5a0aed4fbf0d980d1df61a4ca2547b; P0 0xa4d4423379c5643ba6c0b9682ac56cf367ee970d7b138bee0ad797ec06a5ab1afd5ae6017f6e8e2610419ee16301967f0a032a1b765a233a53b5b89bd6876c665d 0x81c6cb93d95dc787919d11886ba599d460d8a8ae0c088486346091718df4705d8bed1038bdb1cfb2a9d0f03385370cb5806499a7162b5a71baf9dcf1ea96f95976; P0 0x20e4f9c545d44822ad94e7f0ac4a034dadd03e9b823c0901fee663abb23dbef9a4f2e2ff95e591e367dec8d74331bfc71b929abb2f1739f5057a520cb5ca42f5e9 0x1dfb0f70c6a3617435351dc7b62daed0d64c75fddaf7be886d188622898035cfec0c74b454100c21a6adaa207267a8d841bf5642a4e2f0234509c72ec233912384d; P0 0x1c16bdb6a8a78b57e3832ebb7201f081f3581c06384c85718c205a7ae2ae985736e5fa271de6a51062b1bd78ada1684e1d7bda164b2d481849f1e13f79d2fb203e5 0xa1b0b0e07c2ce5cdad532b4f7c7a32e2e65498d8f55dc68a7d9081c628997ce4f259c5bae1aabb4f9f384f2b2dbae891b7543cb52924b5fba95a2a730970e7cb0e; P0 0x330fdc370588532ffaccb5cb20eddb157abb339b2411af6da1142d384570a9eba0f3e1e34efd4897ba72cd6c239241dcf49fd5f2bc38d98de2fb1d2e7881d6895c 0x9f6e242a096b854a5ed91d0d395178a1ca0b7286c02b2a165b1847bb462cccbcb7338ec33bea98c39be54e08ee70103ac7aa43e7e37b0a9cfcd63bad00d629be20; P0 0x31a50027a877c0c3216c4c23c01b5002124da3a2a717658dd99ed574c3f4211286703ee9da6a5e9150687c024d7a9236360b31376f7f87a699b99bbb501c74fe6a 0x146a58eea678ec1bae02bda41801f89c61526211e55d0395df061337f0c68390aec1fd83a80e338e9d35c4b750a026d5c04b8906df435479829fa7ccbfc0fe8826a; P0 0xd065098744d8fa78c3cf291c3fad3710634a1861475e0142b3ffeb42e1287d04520bef09be671f0a403ccdfa93f3faf9ebe0e51184c60f9fe95fb5d7e8623a1e4f 0x1da050ed2f62490e48c880ea673cc5aacb3a0f56909202087642a41f76247c09109e0a5fc018750a79be223822f00bb5a57321fad6cc1fe873ccff7c70d70c9f233; P0 0x1b6db5d7f664c636060eb2acb5c4138098f3b3d73077c246d82d167c9af3bebe4180a4af69ff7266b582b5b40f7f5b81503ee73d98bdee5941e2e017b48cacf1fde 0x7db37c7a91274a37a670345474610eccee0f64370d893cba9aa19607c7dad128567c593cb3b20f79dc1bf4ba4c9ae25c955a4f917cb1510774a32ab1b1a4099607; P0 0x1edc62b380d7295c6f014132dd34a19a99138024ecee5cfbe9754088eff89a8b273207421da52cc2e351e4cea448078866b432e688917766891d064dc31d5d2371 0x7f6a6d51af76f881bdec7915f2c1b7693e331508d918c826e98c1098a48143c14d0529c6ee035477c0dbd4f7fd72aa70aab16960335f4ee72cc125ba05f9c757a2; P0 0x1fb5625ae13601492b86c26c83254924d2cc0be1f1e642ad334284531494c6aef3d694daac74048e20e6a980bb4ff28408914f8942bb23586d7a7b873e0b49b3a5 0x14658951beff1a57fdf56bd4d86e74af228608f815aed41c5637dd2da6604bc0153f6d1c4964038c3715176d4ff28c34d0e56c8bf324a0d48f87425bf448b253629; P0 0xd002dd350094f7ff9e9fa7eabb2745ea28119eb18c39cf3bdfe164d3cc0cbd4986a19589235e8cdd48788b9c0e523399ffcfbbd8026df5458b1f8beb6037b2c2f6 0x837fa2e08aed1d42ccfb04330baa605f09de53c46c04d385c0849a6985879a969f4759ff2cb05a6b8d2d02f147fb3bea4b63f931171f8090cdad9d4d6171021587; P0 0x21c5f02a684cbbfe74b8436d039a21787910262372ca4593d2961ab0882b3e30140f9f22755b6187a8d24cc12939c3420e74a1ff4370d57c210b934973221678ac 0x1ee2b897b2f9776814361ae28aadfc0d0fe800c094d1728131d7931b8542d767da368626f4042dae52fed0b11d0250b113d4f669740b309070fff93a6c6a801e5dd; P0 0x1dcf606ff7271cf39c85a68359dbe4ded3aa0d6327b4878ebe23577a00e9f518ff287a8a0d546a9585bf96a86ddf9b574c978c94b50bac55ae520878ade76e5ac86 0x70df8081c01de4554742e11d243be4e3e5490858391006551f70132276c536b7bad3d111ed71223dfb82b713df476d7998d7814b46749956f229a236702104cd4f; P0 0x18e229c955546edfbec77557ea6e03326a8cc651a6d9d28d487c0af6e27a447a26073b91be7b1b02dcf22432c927f9461d1623731c5ed17cc5d201cf178e27fba4 0x66fb1a68f3b7b3734650d567d20c4141828a91a5a223585ac0690ddd6bd96c8d7dd4afdbdd3075daf47bb6392514d2f08ffaa97483e2558d03e711053cfb479a05; P0 0x14b687ac375ee4e0fee7e380d30a43ff67a1c31715c9f81df6eed0c4f4d39a2568ae2b405729febfe1a4ca228f23959e54b4d0fea61453a1c9fc7f7dc183fc756b 0x13022c5eef209062b314a30983f61630f793626886a7c9ca8a8b83c528ba419103c458d117d0c7ff288e73ddc7d5a46188d032b7611b2acc7b703635e261d6c7984; P0 0xb4a94d6855abac4a84d226a2b60a4b3a90602ac9b7200e6370887d76b49033da80ea4f4a755701b760babeb50c87371fc8bf91abd6075cb8d9272ae8dede990441 0xeb5080d35c9a3f141cf43c7fd975afebeee00c50e8b8d0b5f64b4c4805f06fcefa16a01a60c9ec0dda9068e794999a93386af539206f88fb98a415ad8d87a71051; P0 0x6c2672ea68788da93048e90d74676bf458a2bfdd45ca3c1e91747f8cf14d2827c733b6ecf9b85839b114c0959becc5b6da3ffdf9dfdc776acff7dde3c491403ec5 0x363f9592533e69bbe483735e29951f7cef64c6d5d172f03028a9043259567f1c2b7f1045b2999993458553f7664fbc19abc5508a0d659886e6ef1ef73a49f87866; P0 0x5bf717258437aee821c63bbb27d1629d13b5cfd63ef7d78f40e18f655a99b44ca89229a6fdcff2bca06ffca1c61ff0224e177ae58b2257bbb65b2a30a3027fbeb 0x17e58a50fd2600c6c827de5334fc003fcc5f0559a3064e47be3aa201a79da1c8939ec1e76d17b992ea6bdffb7641d3b552d0ba7de4ee6516a1123e5ab15da67c48f; P0 0x11d8655a68e9256a342183df5d0c7d2b41cd963bf5efb5b6022963f718015d6cb30350bff48ea877d1f6e67e0ae214bdc3dcbd70f22fee26e8072ba77a7769e7ab9 0x3fcf89ff8b2be514c499a8650d9dd262df8b72711cb7ce610614b7f5e5f2e895d0aaa64ad1b398b2744f840d0335798c891c0af1bac71646876482a5f0c49bc29a; P0 0x7f3e7161e1316e41c526ebbbff83348bb40e7e5a9647dfc7347386202395d2b428aae0875f93d90f7c1d3c973038c859cc96d85314865a27b4b7ccae537439d4f 0x19cf7ee133f57b5df304afdd3c05f6448975e70887133fcefdb219c2e854305e4131cc3d46b5e6d9e37eaf2c3b1e5bfd83c173f380fbf42b70343cb106641ad61f3; P0 0x14d177b359d372bf0727e6c1a7aca6161869bbe7bba7f0fb7758883ecdd6f67df9d9f513a1094c29f7392dc26e9c6d84a24dc08a479ac0848a6381cf51226f8243b 0x193d1fbaf269a3640fc30e933f0d2541b92586a0894b0054a29b7ad46bb497429606aad92445cef06d5a2c5951106ca09d84db18476bd07d9a4d4c0e3e114e030e4; P0 0x13e7f65532f7bbe12b194c33bcfdec339c2c3b376551f600dd9634568c2aebc0de2b8164e231575521835c07ca2e373c95f28fee6680501e0abffa4215104a9b94f 0x1425e744945c112c356b86260270cfdd573f56e67e2818f12cf1784418a7c25bde8e21764667b59f29b8a3ba9144bd78c6976c8dd9592a69efa402236123d00045f; P0 0xcaf8dfb0f70db49680dd734da3e8674e5f063a0c201cedf116a43469e3354e8693829e9d51af1a0577d944a257fc1f1d15ea7508637b261093e7737a2b5cc31f00 0x1c35d879d5651c5d7a0f05e7429cf2c2f18f06710aa3cc25477db1bc46090763c8049e9827cc187d0b03300e09412d26b75d7528482328bc75935112d9ca2d63a41; P0 0x18de957001726141e5de57e5b40d1cfd5a858baf26e7b5166e381e23a16ba13f4cdaf48d08686c677558af55c4f7b406ad57b23596b1e029d8c8494bc4b9fae6052 0x1d5c20a6ef9739e829a937039eb7eea911f0ad7a0559884f5fc6afd2d85b8e4d0931868f93c523e5b396a1e958efb962867a5fd68effe78f267585c6a83559be4d3; P0 0x1af0046a7375048cf919185c644280b1b326badb63a87506d4ba67b2b7f91869bd6dd64e71b2b0a842b173b745d5796fa56546cebbba76b87b80f205f1ee33d958b 0x7bc2359d41ab4e89277fa10dbe5bb3573a1c6d89544eab7da6504d5a2a7ffb79cbc6b4aeaab26584bbfd564929fc9c94ca89bae80f86de51256a742ff3e5481b74; P0 0x1dea196d35565172afa808a6212ea76b26529f30f4e76ec67cf2cd136dc76325ac129cacb716878b6540d3d890955890c0370e5b593e0818777dce59e1c5a34213 0xf7f8b37e568908eb7565a3f37ce0491eb15afbfdf566fbdc930e85de10a20c1db89c2de82526762fe67d75bd296ca902adcb0f98c7ab5266a1fd412586c1d4eea3; P0 0x7818edfd06cf020a49ae004cfaa11267d1f85d81cf9703a1422e5fed8124978ec178a39f791800aeb34ef2cc87f7e9b790ee004ff5bf43d6fdd87d05b98c1c37ea 0x1d9c6a399c61ce3d1b359773e937aded6116f6a03f2468d1dc93237e6e617fa416ea4ad1a421e1082d03fe06dc166f055261d2fef4c4cbb6cca3feab74b6e87b3b3; P0 0x1b667d157dc41329a418c0be0814ecafe309cf0c0c33c3d0fb9036e3407fa804110e141174d752be3796ba67b99b6d629caacaa8f2fcb2af6f99b26fc12ccccc18f 0xffd7de1dd9ab6ddeae2bd876170a462d1117c847de844dcca4c8d6e79d5d83714fb7e0aac6de183442379c73e306156617c359ce2241fd5e3c2e891751a5ba90b8; P0 0x7fd7e143273f75ea43be8a3be9c3b5aaf9bdfbd843c5e5d47c289f0a05cbd2a81f3cdc21a32ab0a7e9be6347369cb0a42dece0a470add0f79dba3371170484a699 0x15edda5c50a21d81b334e553ed5f4a29bb7e342de4e3972ae70f9ff7a4f47280d2a6a15ff9113fadc0a889c29fefa302af936a9f7562a4e2160907e1c0ad1b42ad9; P0 0xf0716897349fd008dc288cd93eb5e4ec0faf3ff83610400b2100d902905d2177544ae56df8449946541ffcbb6cf35922cab13d431f47988a434ec76ec4871d03d3 0x2d889ae58836260e33f566a59bab962a25c841775135373011ee3e728b9dfe2a8a5f9ca9e2e7510438e2345df9f777c289363fa29e1ba41ae6139dec7b2170efc4; P0 0x40ca7acd1be5c4bc63f1d515409bebd936afd86dfe60435e816a0ca3f7076fa43844872a5fe347819a3b682c638b4ac6b8ab32e493fb954aa6c73b244676bb1af 0x10eac818b515d12a9ffbcd945d50303e910f14cee0747e8d0f9731aec472478853ebb2a1b53682dc6c826ccc963bde4323cc026a21102ed01d8fbd1c83f9b7b3fbf; P0 0x8f182ac01a31ae2076cfd008b8f54a2ebf8502d600591605451f0e9e75b176c1920be26acd791697ace2cdfdae7ae022336bc80327bc76cef3cfe1f6244842ec22 0x1c8278a086b0e4942a3a52f6a3d4c4339a949be485bfe5ff803e17b9160b6f822583335a7aa8bd8a636f411bb40b2e1b49acd037adb65fae040e87240ade3ac7ca3; P0 0x1966670ecab304b84fef7d9f0859e75ea78caf5daf86715822c452c3ab22c9382756ccafee33ee3819c43ba5a5453deb55d04b159ad73c45dce962be2609c7cb84d 0x1ccf506511df2bb80fce75349bb0676177f4a6693a8e667d4f03ad5885946ee5fd3e2222bf4f7097e732bcb1f6727a7ab117512a964085abec8c7452fef66330816; P0 0x19f00bc9c4d85c5c6e4d47f19c404ce6f91559368540f1ac56795fe3325d45f9b694de6817dbff726597a1ac78747c7ed153306ce285a4371b225f6814094931717 0x1c1b34d28e3999d1943861556d15febc3db2921234121d68c1ef7bebe6661a9e82e9f17dd207ffdd42d5c2ae432204c0570ffc01cb7ea62f18d6ee062f2559878fb; P0 0x18afb391f366860ab51866bd40d7954d606dd5f5e5cc1a45d0755434324127d2e7676eb080a577413087111978d94efae5425c7215cf520d2d55492cf2a5ef80c2a 0x19d767791dfea9db745f90689e02a8a0b37930a23d3fc42d0f8a337bce5156ce4d4f3bb53ffe3a90795be793c0337aa871f63e23ef5eedef0d6d5650dcf0345243; P0 0x14de3ba4f8f672f3b237dd18fd657c971d3f9845f9bd86634c728b2e0cc812d5b43e029a17b94d580bf2a445ab766792ab761fcfd934f4f5d1f24a0996b947a3b 0x10adc6fb0f38ecd5ede0e87e12c37ac7d14f7a6ac7cabf729363af524e332bc251f606c67b289618b5131203cb26fbd3e0791f47249c0cf8a2de0e208b0913b77c4; P0 0x8b176af5f18126dfe15775f2fe23667c65ab590a51dfbb8255506e2c8cb0eb81ad0dd2b1b058b2f74cb817420334d14045cb665848790715f72a3063ce0d84833a 0x1251506afc2cb41383320778f00dbb17f3caf808d8037cf9b75f0fe9b8ac6c661432f9ca945021c983020210f07b57635159610951aa3a82515be5bcca81e4514a; P0 0xa7c491843673f73862b5993b075389728bd8c506c750d8ea8f624a672847dca1501369e1a85110a89567ff4f4769bdc88a8d5dc9f823b22ab4f07a6ba5c5afe5 0xa677e08c64c97d33dfca35ebf9d51ce87c72958190c8061f4d2b35539d191af3443ee2ba820c468044759cc5bbf8c0cd76f536607e70950e3b54f158c11f659949; P0 0x361fd7ac4d187f8855cf06589638d6d201e7b5b14cd16fc2d7d24be70b2ffc036a2d9c8f3fad9838d7e4c42daa4bd21cf9bd9f3633011f6d535538cd79c31e1b44 0x10cd2733e7e85de443c595a0e7af30fb86151862efcae63b99e9261fbba014b5b8c0ee9c6448b03b7c031c29712865edbd432cf9aaddcaf32220d17e0fdc0807215; P0 0x8d24a7260fa888f6a9af8d9bb9542ac15709cce712ab00ee045a4319850a006702563732bc803f7a7f83b8147461256047027854943de5f966fc74ae811072448c 0x82cb0eeacc8a9c72a151e5acf8934a32cec8aecf01f3547f9ba35d44c822848841974fa4a5ab0f697da41657243de562e6f7fa0e53962d2a0c7481d794d848fa45; P0 0x21696e1b907dd83921c9625ec3f57b507e91973a0433595d217053bbc970d7e6a9a0cf93e2009f6911d28ad3dd3df6cf295911dd9e32ef0425fc4287720382627b 0x10fe2fe6d5ae627d4818d2fc5d49d6fdaa3b59fddd7a5d2ff8fdf18264f1db9dd93c07529a23e060434e1e4ddd0d1d1dfe97c403b7321b694ce1d49085c2efd3914; P0 0x90612ff8de327ae4be65f3b258cd3c2952cc3717d10a861b29a748be293d8560a050c4e3225e857106067ec02dca0b0a74dcf0bc2d5d297b0b9e66971eb4b8e470 0x1d084b2b1bd89090dce8587ad1985c6aa1b65c73c9e424cb92eb51ff6f1b7a2bdfa0ee72446a405d956ab66b6e2db48070ef47f0054be9e86b65600d87bc2face00; P0 0x1a570a646898bee8ecba52f44e031e2bed4543835a27676b476a4dc908b5f8aaf596583bec86be6e996e5a534c51c1baa6079341a07478c068ca5e5694b737c0cfe 0x15e0aead63ba9cce2ccc79a31f9835c646413c9e9eb5dd6804bc9c09223bd9d01f141b2dd4fb1ebea0dc95933cc65749f6b08b632f139e285d0d308733a71400cfe; P0 0xef50ed4c7da6a6ed310153ea53ca3b3ffb7e43dfe514004c35481366bc36098712d253cb71fd0334099386246f9d3854e4ed681aee7ca91ebb88bae46d127457b1 0x182b36a30112ec5066e24682f1b9371087d90b1474a74b77493f3c8414420858a7a320331bea18be0b0c5e2e9efb4d0893b63472ae8dcea5ffe1b669703ce1d23b5; P0 0x12410c4fb4f8a74680c7f22b6bac54b1398bac4bcdc9f8bdc3aa2171e2d57c527ffd086c455036fe891d13986d7bacffb4a2f8233302fe55533c2bbe2c995859758 0x1736c45b5791be392301b6090bb330ef0bdc090d515d5b3ef0d0a2242a82f4a6eea6be59dff32637c3a5a3ed98ee33cfeb2443e7d62aeb468553fb927cffd829551; P1 0x328547fc251b08596dd47e1b49d1facb6e38ffd1ecb3e8f3e525aefec47c9c17c4ca678224a776440a1232c3bd811fd4cbf0f852637be12fe5210573fdad85447be 0x18ab7b5cdc3e1c1e9909a5986a48e76cf16cf7df820add00e0135bfd91f1707c5f4597c3ad19f3632962abaf63e70d5c4cd9967b2ea24a1030a50b3ce0f1e6672a1; P1 0x390e6ff2c325c5b0a120594efd2d656d51a2f0c19b12b55383c5febb3105f2b9f0a450ae8615615553fbab56787769f9dfef888193db1e1b0d56564795c64510d5d 0x13721efe3d9f7075a05bb26ebbc8e68dd5595b937ef5a48cc402aa9f8d0ea580c05437c743a5824f5a1dfdcc4b69393deed50ed906e2f7c82c089209d8e3b306920; P1 0x237353608ffaf71fe36cc120052b04c1a2fa836e8109f000bced53e919d73993df275f5b9f3d07a4f638d18407ae3ec9a6b5aadad2fa26b45ecf7d587ce06621a39 0x1d90197d1ec21717d6478d8ab085b4e794545b3a942a30673b88e26196c4fbfeed87abc9150a4b2f54a05ba3b7453e1993527c62eee4132f6a5d8d533230be3e639; P1 0x51ef2548c66611d82aad263b9f5887fdce43987b0648069436588ae0be4349f5211b341bebfa7e2d0d1086268da21c8f5b14f4b36efef9fded58a5c72165be9ad83 0x1d42c53cbc8bdaca977de2e29cd1d388c3e460e56133343e4282b0f1f96b8784316c3ba60008cab5aad8ad2e4dc48843b180cbf3a525aecdf1696b590d9564b1796; P0 0x1ac190d06ffb82370f85a17fc094bfcc5fb500fadbf5389a4c650ae9ee3a901641d290fd5889667f9a17ec5244c3fb750e9fd02f1b8eaf2aa424d5402aab8dcecae 0x7a4906e27e8bf1cfbd39e3f57c81403746ae138685999abf86fdbe0ceb00225ff06a2f66d0ca910abc4661e6a509b9dacd014ebd105deb4b75525d48d654ed3892; P1 0x579e871734f56eea38b7c1b9abc331766deb083568017745d38da64e284a04322d0fdb91afc67b20b645f33d6f6188f977f60fed5a3c2f58fae172b65f08ab3b92 0x6ddb48ba4e67c02479078a604008d9577f0de092ea88e43e9c28599b96b4ebf610b09bd0c0b44d74439a1188a071472328f576def5d8d5ecc7617a6d7bd927d55e; P1 0x46b6b3a63f47bc3b487be86cd8f98ad9f493dff6aabf7f8afac4e6bc02a81484bda2f36a50802903e280969e20482f851a8283f38c31d188dd242eee9564b75089 0x6d7870ae1e56f0800de6273e60f0153a600a98ba0d7214a51b73b76665c7cea9ff696ce3db45fd44732bda2c9238f01a1b60f5abab8f5836c5e17fd5559623fc15; P1 0x4637aced2800f0ebc427bbf901325413d3daad0d0937bb4dc0cd398f6dc9fd7bab1806be89556c480e59e84f64b24a8d929c63bbaa84e15ca6a89f0fd6fa1e19dd 0x19c8ae19568bfc5a4d213450c2adf2ca6001fe73c2619e370bfd09da71495474a59f5f586b235fdd329092d91d12477c25a7559a89d033b1d6e856ca91380042708; P1 0x3e536fa295789425fb4170599ae33cf3497f8109a7b7b441cb912f8485ba76eab8c15aa735a2583ccdd2a16c92e4246b8631223bea8011b0d2b2461fc43576394eb 0x136a1ab98c0beb5031a4852e5a749817bb2eda6d3400332a752ba4ad5025e64886f48d2aee7e149dee4d9d61973427998bfa96f974578d05b7e1521831f11fde5ab; P1 0x23561ea86d9f0985b2070e52d33fcd9ba17f581229ffb593da1923fc15f92407bc0233a3c40d541719f06143f4df5321e5264b3091e5223f6050602c146526fe615 0x9c1c4069ae86d4e34543912e78a6b00d4c6a6300ed577be26fe3b366ec8b0e26e211492355606cd15bab3ec7fcd36fd1795ce6752c07c23af873afc275ba8c06c0; P1 0x8ecbaa6e6e0b45c3673dffca4083281203ba67d02f64a461ca508f4bc74f98bc8e3c88064c321d572069b1d7e3a1fb72bf53f446d48a517c077f48cb556bf1f3a7 0x80a392a46fa7be20a556bde1ba3c6a43aec8d00f3a4b517413e623d2c4d01e2be511254fe736bb02ebf87c7932126f6949888d64a50536332d8143a108927aa3a7; P1 0x60f5f8bcc194da130317885257e09d63c8e15dcfc65f31a260efa79acc2b5fc060f3b5892af7f35aebc4b25ee6b4fd1b6b139aeeef43b7bdb98a5be015657c22aa 0x1004b24a15b40d6308d31b74345222ba76c181e869401d6795ba1ed34d387d761a73c617155eb887b40083df9fd71a2e9c5daf4bdc004421ed2a89111a604da677d; P1 0x180e18ef9cb70619b1ebc94b2b76f24b339dc22f232df33d02c98323999bf556bceac7bd3c4f81a2bad8fcbeeaf480e215a67db7760ddeeabd844a5438da8ca7172 0x61749b6d874c513cd45542db63144aff57459dd4e1ee33ed56e91e50d56cc48e45e75e158449a38ee0332f7ed82e399178089ca012cffac9ba0eb05c92a0f7ea8d; P0 0x128cc9731d1421b65073baa4b2a7a7fdd56451d0763558cc66db86d65d5f003833d5cee93a3502d18b338869a20c71c46571cdaead0b4e681dcd69e238638c00dd 0x1532a8d99c87d07e7a17bc969b649eaf4da75da43d300d78cd13b21f09b62d530b5aae27a99451e9f2787f8133ceebef5acdee2c57dd7f6d139ebdd985316881286; P0 0xe0acdd0c06e1d798856d841c0b0830d82d370ba6b036a489c166cc622419ec19d7719411f85bed313aefd91393ba66bda0e41d87c3d0c49acf45805387715a6a2f 0x74c01a84def38bb5e19c21765c8ae193f213eaa6cabc0120defdc7f6d608c996c227b766c17cd0a7e2f52494019cb9abda7257cc839a992526791321ee29118853; P0 0x1a9f54181a0d3317457e1df5e805ab229fbf098918be5eb9d51c3a7e76c6dcb73aafc4d5d2a553a48dc0070f508b86d6d737fb18b2e5459b0cf802ba529dec32df 0xf495fc97dd6038ca69c17874f800838f51e5a1d568482d1fe9882cf5a4019ede93f182dbc6c221d5cfca9a0dcd649f9b32907116b227c4015092aa3984978a7dc8; P0 0x74d720b0c0013a1825fc57057ba64b81f7186ee1353a3db11077c251e4fa1526a8ca9f2e83c4b9e0a04131480da1d2c9f881545e18aed8a928048c840fc29bf798 0x54915024b016b1d38e5ed2cdf50e05422d59c05fb6b66ffe99bccb4f06125ca1fe18027e14698e89b940bc78acbee2a4fae22b7d75b28261b77eb5f59d8c08e3d8; P1 0x29e7869df14ffa94b0986f24ce4ad6686bf235ce32ed1c55593e28f92a5f721e799ab5b55d0e34d2eead59760e66831a8345d5e32adea22e3bf225062f107d0fe3 0x468c9309e904bd54d708f5e2f5fea8acc5a63d25d85d460dac132847e20bd5b06c024e882f2e28337aed6f498c192c91f7929fbe85ffb796369b4ae788e95762a3; P0 0x9b896cd495ceb5b91213bf5aef1d65f4d9093729045aa3feb11b1795465dc698715ff51f90a9a4b844e4c07f4a189ce6df653647bfa43dc40ada899beb051a833 0x1243fb23685cf51dcab5d05385275f63fd3eb2225aeb2ae3e0e0260d09e84c6a7f655ece1b14e54b17aa512c55ed94168a203bf70c908e1934f8b6fc04f971cdbfc]);
     (0x625a8944af99, 0x19d8298bbd7449ff8e27bb3cd2243c182bd8dee40b287e903b1da711cf8f90f21b8ab497aba68fa6f252998a16eea60f6ec0a747f58dbf34e5e4544e7b392fb96ce, [P1 0x0 0x3; P0 0x0 0x9; P1 0x0 0xf3; P0 0x0 0xe6a9; P0 0x0 0xcfd41b91; P1 0x0 0x1fa2a1cf67b5fb863; P1 0x0 0xbba5f8443ab9929da6cb76fb880d962db; P0 0x0 0x898be44da68313601d0635fa57073f76f75950adc066eda9e61a2c2043bd726759; P1 0x6e 0x1b514667c708fb0f151d2d3b113767e5b1c6ad308d418c621f17a37cdcb54d7f164ab4a9ab73ec1ff61adba3f26f415d8aadd98f711cfedba94bf8768eedcf63741; P0 0x1751f53c28261c75da26029109a452dda48e25d632342f1b611b903bb462fe7a23d163799a12e4fe2ec4e8f1df0b8c3be6dbbd282998f97a7f4b7706820aecca743 0x18ad8f903bf3ef441fb9ba04c9c8c318b650f9a88a6c5332cfd611173d61145a91f67bf7bfd5344f03d1070ece3f47147cf664857f2859363a5a16a10c2a3a5a5c4; P0 0x130804b32589c6616e5aa5a80528c384fb748f3fc4d80aa850cb9716b022d732ef4980b90eb33cc336dc3809c5cf27e305b4558e624800967a3d23721f52821860b 0x43920ff20b5eb81ef618ad15de37f4461a5c41b52b629fe4d4bdbbd61abb43a7d6644acc8c1210373baae207feede41f0bae7a4dae4cfd766ac4eb3b4bda1fc41b; P1 0x1ac0ab86548a35e539eff17c25c2e45c9bbfc263f187788617ad21d8a9ab13970ed40e79ba6b9fbae9ab023ae4fb5fe9cce78fcc5437a8f15c5e4e02c1f3df3f99 0x55d70601a68ee5dbfe76e2ccbbf2eaa5f0e495bc89ee9e3177dc7d5e8ff27f45c3b1303a5e3042ded54926f1baad4484fae5587aa51c06474f09966a0526295024; P0 0xe643f4c17c25e3dcd610de7ca5b164a2e4902c98fd0cdcd92b658e5e448d62fea1c39ca738759efccf36f0676ef840308401effa8a8bf8c73f16fceae2bd9d921 0xdf2ccd022f2d47f1ec0ac69240ace7efc4995300b88d233081f7fa0272b9328401342f241ce849d58f2f16124fd665ac18c519a7b58902de6d1d4b0a8ba0785e31; P1 0x123d69f8160ac67b93e8638d7cfa0bd71b68021872bb8f08581ef160566df836c9c74afdcba46d4841021c1bc8b239c1d51bb46343202405da7d5d9d2433057b9e5 0x8083cf8abebd1b70a10b063450aed4d35222954978e4c60e908bb1b169c5bdd1ea391873a6e887dd7549a9b48f444e440a2fb748f471f37483e1f634e6421fca08; P0 0x204209b4677efe515d5768e36a37e6d2a72ce93cbd5f817fb1fdcb47b724e96fbd9f0af379dedb602c27e8cad9c53a44b4ca7c8a19c33f4c744eba3ea69fe9a4cf 0x7bdfd2a475f0376373ca82f3b8ba4e463855d28502586941e81426a11f693f0dfa50a8f26f0dc891be6abdf7eb6d5cfbea5d0947694fc0a0d67260ed254d4a450f; P1 0x59e9442809c2cd4f3c45df1da117e5656a0b8536fdadaeee582133bdd6a8736cd8927b0b3e28cc2ca7c476a1d7d31e5afd2b865dd4ebb06981c6c00d4010a56205 0x1de78ffff48c42f4389f9ab277ea1f6992ecfdfa54e3986911730b5f22c0a26cc5c89ccc3a85986fe982f13ae57f879a6f4341951797225a3fe14828b87208ca6a8; P0 0x1bf240a972987b4fab41fadc94d04645fd2fa708746e337ae4770ebc961b9dd044f5d481e7563aa84ae5f61fc985e2f51056c0586809440fd5486630be307ffb91d 0xe38f77593fa16ce6a4efc934d1925781be99f2f8713a4da780f35788f22d7c46761bc444c8380ee6d86548875f1d5385139fadaa5d3284b0441e78b803bc3e075d; P0 0x6523df076a18badf09bd40e7df08c7ebe747a1c8532e69b320a6ae2221d4b49f9ffc85cf081251fdf9b744d20cacda1a594abae919f46a7488c1d98a02845522a3 0x19ecf08248159743e0742421cbe48d5ea629c4ebc4b4495db13869f517b3a2d3df385e8e06fa4b7effb51f9767196844641556f8a63134aa078937e9008ad975a6c; P1 0x3f03368a65c7d37e3405ad4efe9e4aeeee6b879540ef0c730bbca76de0b38ee145e3b3ce719e369724703a5abc411cbe304ca1d9ad3eff2802288ba013be2504b70 0x1ccfe42b0632acca6c68a45930cb0922b90f73306fcbe4c0d5916d6bf89d32291ec58c014a30463847f5d2951b50b593a299c1a9d84dad73322665932912c58a420; P0 0x19f115e1925e30288039e34c5cba4c45610e97e659de82d61325066ce06d446861b6337578c42d587dcded208ae4bd6cd69692dfba1e48c96d211f9faa8922a1c11 0x1a1303df4847e13348b747c62b6cb7c140616e689c7536a9efbc7c120dc985b0cec765fb8f6df1319c301f4710334b3ad2546886aa70d816f63946efe04d1632011; P0 0x153ef1976f1296d44a609d8b6576aee1ed5e6d0249f0382f127d6a3a163333b6a5326d7a4e8aa63a90f702f9c0941bc8fe83bab6ad39d6b1371c04006f6d23b9f34 0x1fdd878b1cb6658f2f3515dcdb26e17cac985fa2c53e10fd0c66150a7d8a244c511fcbcb72708b14f93d73cfeeb2c334479c1ed974c6b52bc72e0d9c43c6565e055; P0 0x1fbb3437f73e1b24b8709332fa7c027c82a4c7c9da7913feaf6df9670934d2ea8b410f0c6b4eabfe87b293545d8a0eadcf505d5c81ac73e25ec9a13b835621bc7e6 0x20ca9d5381150d4f40a62f172fce2c349595b61b7e603f7f4509c5d4a6609f50f16335ebded5b519c83e712b65500e37040376aabd722d826f599a939b3bc2a41f; P0 0x219a3d8c45e400ecc25d0ee767498f4dcf99b2a2396fabd0b2e85c46923e4611a3f84ab1af3da47d0e045595382e7602f1c5f4a6501ff4f2583bad43880cb58c4 0x13045bf0adccfe9e861e5e6684a6289494473bfe72c10c8da8177d79197802704150f318dd968433e22cb0c09d1f1180c41d971aa0badcbff157b287765f2ff1485; P0 0xb4d2dc5d2b6d04c81ec1ea230e3904a266567f6bded15c646f28b25fcc327b2174d4ede535d7d90befdc92bbcb0d1f9ddb3d01be8f7e6416fe880a34b63081c590 0x1fbe7f3a3a5c88e5621517b1240e544b17baabafd912d37d32a584242a00acb1b27a2667c0a93e1fa03076abcd8c438f191b174e237531968c1889b4c9d871cd2a9; P0 0x1f7d84899e5eed488a730e407a107af18be25eb21a7bcd7f81161fb63fa478156093e6aa2c75c88e2f0a5daefb59f1320c33094ed8bd6fa23db24f5597e5a968fa6 0x43699639da6563acca561092343a63ebd3a91f9b5a07806ae2a920e0df81304b60bc0a0f0656fad2d4cafc08692d2485314bc1cd4ef3d93c8feb597e355ae84337; P0 0x8e038176df7092d00f65e9f9562b9e220057943b179bb7090fed686141df522b535b1d83c1a29839a056f8c4c743eb50904171d0e3d6994d0d84cb7fdfa172ea0 0x98f9954468b4c59b9de8d8fbb58293a8ca90e53a57dc6e63d822747b4625145a369def9441743c5696a35bee1615f5c655f2bea525fddca5c3f528d2c08b6d0471; P0 0x2db4aa4a7939873db69098a96e9346de5c74fb9de2de35738a3fb6c4d5ac4f757172f519dc536859376bb02f512aeb27b93419cdde3dff7047cda9fde7ed4101b5 0xce00771c5824d30cb60e54f0546175e399b555a80c5ef096d78b7b791e3c1fc674d4c12c453b90cb04692315367011571f1a3c4da53e90908fc5b99ca76b8ebb96; P0 0x52e25fd8eaa3505f0bce31905a50eff4d65d3c19fd6826abbd5526091af252bc9c592efb3acfdf9d0b2c64680a714be6ce2b9204e3662b8d1820ee568a647cbf62 0x11e49277c3c0be0cad86444fc406b83b739c0a895b488b9ce607be9ca549cbfd66b75ebff8137b055474a56a0d43c43c089b77ac16748c9783f91c284a26c593b46; P0 0xa013c490908defd0a3a24bd7a91aedfdc3c93791fa0ff40259ad9d6971f21c982a64425e5eebb9f5f1aa7654cb2001e4135a38024bee6e6fc205de4ae56530bcff 0xc09387aed3897d7a5c8750ee66641df497de87572236c37b06bf07eba8ed913e1f4cc84e6daca4179396fb9bdcd96c55ab93111a8a7786f627be0e89ab9961423; P0 0x486ed045abff834e72ad65b424d6048812e58157da07f53e2f73b0d241358e04fee9ab81f7f27f3e1b1d41c6350ed6a4d93548f09bec9f7706999f6dc358a6a9 0xd1fa036c3fe6c95bbd48eeea2fb55ee50488e50e9e4ee241cbde43c5aed8646fb0d10059e87c1f6e92f00335f9908cc92cb54c505bf38e3023b9738a9ff3f22372; P0 0x561d16e0b7e7ad673ad21dc70268cd537f9c9724a56192a4e16f5c6933bdd34dcb39002f7f9456f46dbb1c03559d2dba484b8f475413dd558206cc4892fd3f2a68 0x94e2714b66c003cc9f2910e5ef2cc6c40663d0d24f36482c4e4e889a30a40d4a0a00fbb83a624fb854e69f822a8839316c52082002592fc066a0accc8071af892c; P0 0x2b4b4da5b5098b2b173578bffba96d8d6dbf81b12e6276676ffe87c0601e736810306091c257bb36b3b5657a5a042246de15c9048aea722333f429d62aff5d44f7 0x1a9798a72b1e95be05fb21e545a855c62c7cda9728113812678ac8420d0c9a25621c38a64527324329b3a4daadd5108f91089140a35c44e973cebed91a0ab056487; P1 0x424b72b177d074b478d902fc7fb0d2a98b665a70540ded18a8eae585cd8144e19de3562c730e8d40652133c2cc945bc429ba52b6f77d8c165fab1826384631da527 0x157bb57b343752978b2fd5d6d83615ffad222891c2315089c05a4b362f3cd8bdfeff89a57a8bb7e75d11be031484ea341f355d0d77f2dd8692da400c500af5ce2ba; P0 0xe6c3c70dce59ebd687e380244a4d09513634a41041936683456239937d5c8175bafd9e2921debd619a9c3157754cd5344fb81920623f7084cef49780a0d345c9f0 0x17d3ffe2fb702b92f86a1a48c1e0cae33d4f83c1e96693c4a5222064a9539cea5492ea2e0917f9a65db16a42ba1c048d7620f15e3e38e3dde96b1a9e44eddc2b914; P1 0x353ab4fe5adeb59eb1628e81c6c33e38b2c5883d8059910b4a6731b974d0662628f7562dfdc725ae5b732bea38e60ea055f30f328d721179a78f7d7e0cbb5b9ce8f 0xf486bb762edc9df8ac70b71472065dce0701cac88854f8e4ec428b2bf8fed5dc7c73f4faf4cceabb1cadbeb197813650e609577413f66c3bc73a5a705866138b3f; P0 0x74c88e210929bd8e79e52b87c47fffc01795f82ee7e427b997b59b2fc5618e8da31fa2204b5e57826bbce5a5835c8f7079fee5f2fde6dafee8d8362ab8e01dcc11 0x108ed5cbe4f8ecec6f3e00f32ccb6bcd7c939f2413771e36795c7800a642b50e64dfae450234cab9b541dde8b85cffd0c8c1343e9c96a4a9d88bc7c9a7d0b354592; P0 0x891535aeaf0797c70458870c660551b771d0e513f0ed4a2e4513a024cd5fdd83487182d9ad3ae9aeb65076eac20ab8bd9036cec6da700d93887dd5a2c57becd7e1 0xdb98b0b0e2afd56a634d1d946cb7f0f4e091fa4f6062f4b55ca06ad986263b19d2084856ce03fc1c85a0401043d42baa6b61c126b07f385b025d7cda69e948df25; P1 0x11a8de61167c696c98e45c6e270800d11169a20f11d2d4861fa6df7a4ee3ae5fce623eb7a5eab4c0a618e61dab80581bddeb166aa846bd34cb9c6eb68f93b9b6ede 0x6a3ebc8e9e9653637298974ce7c30c5af80b0bc8548485d579a3f0323ad0d9331413b5451b090e3f49b9a4328e9a0f59b2619b2a41970f2604dbaacad61f8fe0e9; P1 0x42240548f8f0a15fc7d5859334c24e6ae1732c73051862d47e346fcb0b9b11ee341dda02398506113c4e5cf7e39443e0171749f3894ffecc9671dab3eea63e8bbe 0x1122a11f79610d20ca96731efe299e550f75d705c8bba79e916ed9237b5bb2f83eaf931ea549f7076f1d2276d4f7d1dbd39976ef03132ff7ed60a565c930df247f1; P0 0x92cf0aaff1de0844978d9b7920ff722ca05f6303f8a8111ac9bd2858c904bc69c62cb3fae494871eec97b03173a2aa62e1577111d5f2489697e24fda2d44b89659 0x1ad2506e83541016caceddc7cacd4d8d1ea408b2006b79124cc097a8ea00daeda1f43e0e9a0f52991fca5eb62b3b222f71140874cd109a66c6a34f2318dd694273a; P1 0x43717adc1e2b0750862f246dd5853b5c8e5c46322c9b579a70f5be85938bdaa722402df977bc5afbeb0e2c7683f488551ee4772783dc6f3c96cc1759c8e29238e49 0x16e8d69a6aefee5793f9aa90f33631202a6b9d53a5095a4f34066c5f6d4872fa43eaba49225db2c27e1325b8ca6ba43b497d3a4065ac6c07dd24ca7f031345bb9b5; P0 0x1066c541b14cbe281fdee6c7704d91a37adb1d95162c9f538e96ce542d97b3a362276143283d8e4348bba21454321ed6cee2dba53dded13df4ffd18792bc0ee9b75 0x663222623c3d2fb02049f15eec2dcd1a143ae7fb6b3b67590960aa9cbe39f52eefc5a47414d072d3e7bff7057b04965239daac12a06b105fd4d14454c4d653b56e; P0 0x1465fe9bdd7f43ccb41bc8d04dfb7b137d16110f74ab3bf4898916b1b3cfc9195f6e505542d429fbc60ebf70ca96fdb0b42d40c74844037a4f7853530cd5b8fc67 0xff4670bf8b72f5ed1c1feee5da4094df7927259a82145ebf0c16bcca9656f39632627d78fa5ec7766b83bdb20411ac14fe1e22eea48ba7eb354971622fe3a1b7ab; P1 0x17dd41bff2b532b343e9537bfdaba90c1121b97d59ca5000c21596b5f6c5cdb4e99d44de8dcb304f6c3b8e78ded278a467224eb5d0532a627e3d644a9318893afcf 0x11d28a3df389ca9c016049e99477997fe7174adb962220bc4ebb31ebf5913b0222b0e21cc3a0c0d3d5cdeaa1d6f0d94efb9132e51840fb7cc9068605534e927747a; P0 0x9ed1c1a9515a43d2f55636b339ad4d5970e9b8ada68994304e21cfd911abdb551774e7e780bff3fa744fd940f9e538a30bcee02a44eb9a8906f4b70f08e3ff34fc 0x143f770b1b6db63be44ae34d0543aa793494cd6ea56a48ed073b23cbc11d025f24a3261eb71c4a15565d304a435b5d4c27852d00abbed871c452ff03cb3aa29ff20; P1 0x266f78050a9f4aea06798d4b60c93ae464079fd08895172011816d0f881f84d9d45136b86c6d7ef5f9ad15a603306ea8da5d47e2a9acb751f6b9298d073d4149b79 0x17948eea6b6e1d3fc761a858d8e30189621832ded7c52740511c631be4e82212149f19590d80621607dccc7712c64a7c0e1094dde4c0d4a46012ce18de27796e779; P0 0x11603f1d71173350133c561f4e830bfcd298ca8423cc66c335578c1c0933d6974cfdbcabc89fd16a6448b5d926b1d08b0ebcdeb1396f0373fb596873eb504f23953 0x119071839510e71d0dbae4b7a1a5eab8c6c9e5b33be24a3a0cbe0da3eaa85717b915754e8af389b5f21c1fa1410006625e80c101adb11c4918faa82de7f9609d084; P1 0x1cec0dd103e0e6905f4b0f36541323963644ed1486fe7d95fe0151814d065559a0af2a1853437234f60fe0f28ea9f6db86494ccef0596ee09b5c6724ef6f98316b4 0x1691d7749e61fe9cdb40946b6d09f54a1fb8a374dedb8dcdd4d915d73894b25bb25baeca2dfc04a9a2643a8e9829abc6bf37f185172cf845440ba964a1002df62e4; P0 0xfeb20ee954acf6f3eb6572297fd7a3a9bb80c8418e480ea0d5d8da077b60009feb83956dfd1df0b700c440c8fc62f67114b7b0dd1043a38eb4224a9c34d3407fb4 0x1ea565bd0793090d1f2d78fdb288dab0f155d6a0620dc0944ca646ec8e47c826c4ca59ef6960d906f0e973e9676dd630d941edfb62923b7dcd8d69b092dd2abdac4; P0 0x1d5975a4df0769b7958f7f2ba4aa26c97aa37bd0f8f29166cb8faad31525cd7ffcdcaa6554ca6fffe19189370f839b657e8107fa426fe3066507d068612f104af97 0x1b94861bb3d42c67a2e19629194337298d505519491f907e5dfe4df9022d1b3e3d0112a34747155b5bb73a4cbf5915d381df07e671af6731feee9899d427dcf15a7; P1 0x474ffafc5538aec1fa0433ff924ad0ca7eed5e3c7b788a5e0ae386c3bb622d3732d6e73456251d46dea72868c4a232a0fa156b52d3c4ce77f1bbb30822d0aa282ae 0x1a3257e287faf94bc68968b37195cc984ebd0b09d83aae79e7b342897177cea661684658b7da245ceea32fe849b840c6e5a5f37b03f23e529492e82a7c5e56fb81; P0 0x15721e03b23ecc6dd5ce553878d67c71abc825969f6bd705eaae8f906b2e88abe5bf2596716b6597600c1cb66aa11c6b7a0bdfafd210f974b925a5b68aea10f57 0x1c1822e593549d6c83fe68e5443adcc84af64761f7090157ca4f9521ff36b4aa53bf2264fd888498945d1ee67e7b3909f87cfec6ae48950485aa1b852a15c634658; P0 0x18aa4f46403f5a8529a934ded44a7795e0c49c4fdde5c7746cae2a57e1b843315913309da046b34cd8a3da20cfb8488f8889d9a1fcdb95c6dea48fceda2d85a13fb 0x17cae7abf03687e7a5cf3f8fc44600b92d1b26dac5f76ca115ab0be98b14126e6e811e90362eaf16820d0016240c979a2c58aea85f68690d5df06c3496193be523b; P0 0x11b0b39a91450bba67067cfd03faefd492335d74f25ef8898671baf84029b2b0e85d330696dd5bec0d70f62f8baa47ca245e044e072ab7f0bd497b3e6c09be155e9 0x1e9e2c12d987b9d8f549774b79aa6134e425577a41cf281143d679a5506e6ef8f5bc39c14ede4cbcad625f7d80d552480c7f84da04c7ee547de77f9fd6487df2f82; P0 0x1d4ba076ceb67a11c8e0b40054cafd26db4bdca82dea41806795bf9d8a79a4c195cc9aa562f1407a2346de92a51e5157048aa921cc1a2d0167463a07c849a9e4dc3 0x1b12bcf8f9ffb59ed15f728335cb7e8db5a42843d92452089a721d43d702ca0e08b7e3494d1f96488871b500d7f975374ca0aa3356c6b86424b3ce5b4c383eb4bc7; P0 0x16e7a9dd19edcccf86a14c3f3bae90620b5348db1647d614cea5c821c571ac37da64ca4f7db20bb68186a58fc36b881b431dd608fedef01c4397f7a1bb5f4967b6d 0x1fc4d9161e59d9deb0b87ca425eb7bfafb2799fc7781228de04ab69549310ed71332661b8f5335ed11d77100ae45c54227a7ff0e6eec78a9c2378800cb1d45eb01e; P0 0x1f8a1f83ea75edb8d18b893939d19f49f0b967b2f1473e2e198eacc3c85a0423059464db1b69cac880e262467e6008566f5eab527dcfbf00aa9c144b7421e10130f 0x1ef8815897bd591610e32b95948feef7860f1eaf5f8adad89ec0cbf3eb66124ff6eaf6dbe5dff572d364f70cecf318c1a74e9332f0625f0e1a3ae407759d415693; P0 0x1df97c5d04863a9a34e2ed8601ec7f6f0af6f1eb8a4c0f2c224aa8af83efe58ad1d707e53c16642149c7ce2b475806a6eef062338b24247d273c113f47feb1296 0x1367ad287b118dadaaaa3d7856bdf36c95f12dacd3e95a16135d17523c9bee4b8a62a98db1b5aaabd8dd3a1139abb8c880cda8b1f352b134dedf6a7752fe1d82aff; P0 0xbc46d866fbaff2199bbc32e0bb6fa8a374c2d0f466ae73a982bc5fbdabe2404e90ed784840bd03e69c645df9a0d5818125ced986cc39066bad4869f39152679776 0x8ba7d283fc2365aa6ce6201749e827233f7fda0cba2f9a209da912781526c0516d3de2b6c7f0d06f5140b4af75589fe35980dd4630992655e1c106855025f04177; P0 0x2617d64fd48f1a25e6fbab9c52172afb6ff366c8e8bc02f2c27e6ddcb5546c024061cb8efe86e660570256ba0f3a8e2550e29500f4a2343dc6cc2fc65f892571e9 0x67d3f9e738b14b5364aef49ef4efeea291189ebdee982aea602ca0ba18328cf5f1e8e9fe5e81619d74fd28b27a8bc113b11c9d7869e9b6c170ab91ab26bf03173a; P0 0x150e214efb5cddffc3c47bac7721a0ffdda73db5349876348bcdded130cc08a357fae00f589aaa69924c227d13b5d06c3250827843f45b6dfb7fdbca43cff02b3e 0x1e10fc6b18d960cc1049563e8c2ff675a1a0ed27f168f1efed52f80c8919c7fd395487536dc23b69dbc5c8dde24baed07152d4339f7720c804eb007c82de967a462; P0 0x1c3fe24d00c89cad602af6178b085b57268e6302b21720d34ede3ec026d656ad28ec8f507ab978864ef0073e51c9c4a44b9334c888110433642c5a55513c50e94da 0x1f257ee7e6ab4b65c7d772c637b68eef97700b3cfc906c8cee7fdf35e25d447ecd3036c967c43bc605c4032dd4dc672269b6df02a9950f66c9a571812b7d9784a5e; P0 0x1e50d1d0be7a174948239494eedbcc95122460d1489d32b4efe888021a08ebe284d91b77ef4801786d84ac569bc0430283d62da3edc8c7e43c282dd71efac0f10f3 0xfc536acfdb4f68d0d827e53e38dfb046539fb2999dd04a1b6cd5ed5dccb151643b03f81197c611b6b65272a6ddbb9a068e60ee208dd645f491e5aa22ecd5c98b77; P0 0x7c5a2abbd38eab1da50a0ff37728c55426a31718d4f10777504cf400a65240bfae29b169ba33f5e5896f50bf6e898a4cb226500383af76096345341bcc69f9938a 0x11a7de9c417e09af66f4c36f5f95f0b3452f5aa9c7883ff9c6bd01690a21c85c43ec7618bc4aa460bbe8ce0ec908ff5a371aee673ca4f912545cc6ddbf4bcd204db; P0 0x9bdcd27911c85834d70c4d2f49b55b3b9f06702f14e2c7d410933db177600c0af09ae8c47f984994a85b6b9796659dbb1a4a2f60c0a1986321dcdcc6a27d130be8 0xddbc123b447c37e49cb437af97d6776fef8de6b4b965e1fd10c73bc4f605c69a5dc98a92a41cfead8c0f5d3680e7b509d3353e77ae2a076ccd747dd881c769f41; P1 0x120156277aae32b735ea82e5444d1dbbd81f12aff19c92194f33bf0a22c7a980393e72260f13e7fbff7cd3587a226187f6f07d67395fefcdcb9d31f1f6ce83966 0x17a15a9a9d99646390974ec7a9454f1177b3fbdbf4baa447c86f9c815c2afb42fa4ed6a14ff1922a07e38fabb46ac29e41c6f732f07006228107679e9b7ade1a4e9; P0 0x11731fd6f6e6f9600afac7c4b5b71e5b37d92b044c7ced480481d522df65fed25aa77ef2f9fdf4905626718a4af237f6691cfa6c979ddad9a7323a4a3e45817b7ae 0x81be6375cf82fc4f338b063848cecee4fedf5236de15f0774509a17ca354942b385b869ca960f1fd174392fc223a687c96739db7ca791d4936a0cb4ac88de513bf; P1 0x62a224bec6f98c237ae363eadaea5fba70c10636a1770fc5c78106d92eb24e7aa3a5bdc56098b3fade8f9206b41c6820da0cc1719ca0fb25c8e6258f5daf9910c1 0x1baedb84352a6e7db88e3e01079c7e61d1df714c998e5b455d3342c8aa3f0d6deeee2e20daa93b4ea1d77118529584adcebebc040ec605ac0ec74e1d0e3e14cca44; P0 0x17f2cde8395581d17d643515891661565cbd17e8f29b7ca160a37e3980671d48245663a999c88de5dd78b9dac0bff39ea6204a907dcc96576c85a66547a7b9fd17b 0x7839c81b4fffa624cba492f989b161f87fbeaa1ed7d25e35115e80253e75828d4a23361f5891f5208466fd5e64fab93bbc45a05987f5631d67a3139ba6bbcf338b; P0 0x1c3b1c5229c9fdc1f3e9a56f4eb1c34a79f4def39eb55b88161f16aa5ad658ec20546db437a316393b54157f4f3b55b3c946432c98af28721a243dd502c822445c 0x36dea3439c38a4f57fb16cf4b3cd135bb234bbcae20d3862bcaa6fffdf44f5a28ba8587b5be5836fae4c8bcb44c28e552961bf0a8b79a07a5dcfc95c483f4cf1d5; P1 0x11a405c022ef03f16c0e909127cedb849df2a01f3ca6d36f11c952830bbe5c0127b89470b4d887b6de3a84d5867e5aa6f2e9b0f0a1289915a12534dffcff114973 0x1d31c691f6de270965bcb27590a73f6f104e55d8998b921f6b35dcf6c84d4f4f586af704b7b14b4a0297a72ac870672222695b9ca3eb5cec74eb2e321e2f1d17b1e; P1 0x4fe790007bf6c7a73203cbcd20d6163eeaa270d5142f0d5ff8c14f6042c34134a3c507baa18c84aaa3312cbf1cd5faf37fc2384b56d115646ef7faa8ae41c596d77 0xd7324e4220804b79a80c2181f06f35f867291610a83c3b9bf679813e2d60c1547edf9cece0597c455fdd1c379389d814e216b8315ffd12a281415c217656eef403; P0 0x5a72c4aade2c46e36407b2a8ae9a6232ba003d838666d6ea3da465f089860159c827f8266ce650fc815209c2d77a7589955c8a1165bcb75922b68439ee60ffe84b 0x658a4c830212ffe1d4d49511c07cfeec5d09c1fb9727ee3a2747d88e1f74d140a8ab569562d1a578de11dd06ea3e502680c9f842f82e5c9cef7b635daf0329a054; P1 0x3c69a0a0ed9ee9ffb5343392e8eb47b6aaf0ab9655712a0e7a80abab7e67b3c134f786bc57733f3db7d615ead9026a005ff5df67fa1e812a582331d598ba1f5536 0x64f0d5406dadb21034e9fd73eefff7f98749643f1945235012286a020b2378bea323e8072e94f5687acbd28be1de40f443386984859b0d977d026a87b4e012a7e6; P0 0x13e684957010cfc24befb230c9d588055686015078f5a124f8b96c284652042358dc4204745f106756f6bd9e82f1b1d25020be2aa4d8c3271a40705ff0d81fc4c6 0x117483f3692d58400513d8260c3d738c3520a72b0b546aa0c4641dbc6f5c88c66b72b702447e4dc3c70ac951c7596d39b8663cce642bba28fe86e59b68f6295a76a; P0 0x98574716492df2dd2742ecc60b56ca6c8a081363a07b9478c643c98fe23588cb70183a70359fdd4aa13e2e5a716910a457399a97552d758dc94f65c2e2253063ff 0x71d7d75b88aa76f3bbcafd9791f1a586d34e0dff8728806bc09f41553e38b9a792323f423a8e4b76e50d95357c008b20f2b82716537680c252e24c6ef79c0fdbe3; P1 0x4bf063275f59616f9eb33e2a19510db29a29da2bf41b7f2531c8fed2c03dab898f1247869591327f76bbfca302a65591ca5ee774229277aee327b36a210d22779d 0x16284e941262e948496b2126eb4753cb7eb34185eaf07b571d1fb17a8c8a89a0243daac4211c4eee6f5084543e4dd0107dc8ea48921d9bd94f1ac299527898af978; P0 0xf579ed0cc6a7ed6e8699426975e2e6f4b99d0a8d5a26f3bb400aac2265686ee743d3dc145da48b39f7a2abfe6ccc41c8191762a1c2dde9df3d8d1be4e0c00b89ae 0xa4c208a887326ec89ac9c2ce2afb1ec291908f64e255198c7b306f23d3b66929f29ae67a1d8074e2ad0771aec4ad520b0010877c8f9a2d21ae2fa1e5188631ee; P1 0x9f0dc53d9368bca8b651eab3512096adc08d686f986fe16912df62e09d419fe1cc67d955b7068654af053edcfc685373ccde6076bd075dd1a2442e9e079468 0x14868222eab9c799fbf0828d1ff8b92bd13524c3bd5cbbda70e0bd64d5526107f99538f1fc04d5ccd2b4962c43860602ef191447fa3abbed27c7182a2b16ab68034; P0 0xd2a580f9b11e6a71ed7256c0fc74edc1c06fec8467cb1072f8d32a5cd0e93525c00b8779aaad2fcaff45523cf984a802970c802045c64ef6aa69fff604ed9e2808 0xed6f504bf72525c28309af1239005819236b25418e189535ce441e6e4b18298c3fab39715048b41e49409339601db02278077275e69a6afd963deab23287c23298; P1 0x14a52f09d140000b448e5f20483a49c08fd64a4c07370692508a00f44f0949f8b0a47aa79deec29dc776d8b8ad47babc5f5a737dd39efa3b03c83fd6dc321bbadc2 0x28168b507ae40d08efde87b62fd93a136a9e1669c9bf68c731718ca94afdfe109894aed6477c4c91c64bb580040e96cb38bd26c8960f55fc49683e05ea3adadc82; P0 0x32386c2b2067102dc166326c8f705dbda07d0bb07a8e893eae62da89950b876f8c06e21c5b7209045be62a10efae2663acbb7c0454d75316d23a31769e9a3a47d 0x19aa760b1051f04c87a98ea879c6e6d9ac30e161cfd4b978ba30a5d5adcc1c13db9d02bb088edbadef690988e073ea5b047413cfb1498243559c4db30191cfb5681; P0 0x1495e479327f0a404df6b7aed49642f8342c41e1887a501d9c62c27185be9037bd02850751d0d9688f6239f23c171e0b5658da61265a3effe6ab17017aec7173740 0x35f0eed617894cdcc909ba75230eda5b95e0a48b7f62bc43d62618e20eb9f191fdab9f58f40f903a90dd62422c9fb5fd3392315ebf292d6ded26f54e8fbd482441; P0 0x5aed2d2aafee10917ebfae9ab4f167e0eccf1ca30877105d03b7a3f0c02bde200293e9ee3733a6815238642621c435cabff841f0f3eaf96d11a89cfd61f8a4846 0x830da0080ee70a8676a1074b65c0e41f1067243265a1aea685e971a989585914a872e95cad5df61dc3d48b68723a4be54d26dd36bcd969b010c3978650833ca0c7; P1 0x64a26bc2d62a10ada14b8243f69365643eb31ee159ec4aea60150b719441f0fb77a7d91003bada4ceefc123d54e6ad0a46ae1c049aeadaa14043a5de651a90e1ec 0x75b9b7ccca14617309772dd3313cca5716fa34d71030ee53dbbf0aa9f1d7baa459d95e4dabc530b01e90029a1441abe59bd846aad120aa7f60065fa03b5f54f1ff; P1 0x5134ed1a87fdaee5bb5ad8a17e9075668dd8043ab2a90a56e141652f4ec53f1ec4f4e0811a2f972e5ec68b8c4d2f541638bed45297c7ee79f3fc537091cf44ba54 0xed059272ee3dd85ec68627d697402d30a284f9e8f6ccc12c4e14bc1ae964b2aa7dca428df81c1d17ee8b55ea4fbb2017f0122066afdddd01ac738cca90b1930e57; P1 0x1492cf9ebc614aa924a5004a9a6caa9e2be124cf4d0ac9397648bf9edb07d84978e0aa2d7fd6d4cff9dd71c8804906dd13cd1ac39eeefed3ecda3b0852aa558f438 0x1360077baaa0ddbfc08eac51937194e59c182487f09942e537730116645a200403698ebc0defdc0ed6aaeb28589258b82a29463e079adf61cc028e2d9b3f97fd8eb; P1 0x23317b2f471c4f4783fd27530a7768cef909e171a1dcc702d14299e4ae46d9048d812067429295061bff80bcf1aa1c9c498579f32ad0fba898ab012130cee9df091 0x11ea97e156c47fa341c436143f2dc49c0a2c744066b39ed8eca2beba10faf7a782eaa520764c7c5ac7bfad4f573e6d606972dfd08d44ee221cc9eb2a69338427bc; P1 0x1e17eb8e75e7c53b1ddc88902dfab13a84cc93d7270a57943b93996d3e55eb38d63c7e49005d9ebf97f4cc430ca6de708213411b4df9a55a3b3556d459354a3e0 0xa6d99f10425dcd24dcfd0eb649b33d37bbbeffac16064bbccc25a25aaf548c27acc6ff738e5599f9ac4f4b78844ac2275ca112e97587e09a7e323e0a174b751a10; P1 0xa31e6cec33b30acfb54525088577296a2f8b44239c052c216d55cffbc8498b5a4a7e965bc860be4f033b01ea24fa7977d46a132b8de2c09b86737b73c4aadc47d9 0xe8f323d773fa0efdcf598e356f6610efaa9987f1390f176a7ec235dff082a7a054e58b5e9030bbc7252744db2b2c8b2ba1488770c0ce1baf8674b0b8e74ab20ad9; P1 0x13df663d55b600a66507cbcc45e553582eeda6d204788f8035eb4fbda6f0f87fe76a66282665fccaef8bc298de2cb2809cbf681807b2f3159fc416c0ef7335027d4 0x85ea2c04f418aee89730d69b49b6a9da6e770aa758eb91f74f7e6ba47888fcf6bf1a55b515d4826b27365a06d436e20c339ec2157bb5fb867270a4d81ad1fd2ba7; P1 0x6913bbea7962624dadea6ef7bfa5a390660e2882607618af96fecb57d21860b321de25873480e2962fe4ad8c4801ea946e058d694a12081082852191e16289037e 0x15c3dfca26b593fa8f2e23f2dcdd8e63fc74d81a1bdb5db7c73c04ec27ceb3b70ecebfd8efde169da7dfb85ee50cf7235413ca45e20af96b5ec570bae975b1f9851; P1 0x2c694e0c9ebdaf3ff1f3ba8e206cfcba2e5b5aae2572515281110839867f5f28d6498a86341e6358dd15c7f8eeb42b2d6d0fcf0dcd60c38f230710d68f3fd885bb7 0xe55528f47b6117676d39c02d2f8cd77ae1d2a12e838653f9fc358c79e54bcbd6db14530feaddc21aaa71040dc0ad88ad2047781cbfd9f1470598393a2d7a43389a; P1 0x1342a33666c746b9383ecd827450b08d0257478a3abb21107944ffa11670a47dbd1808d10df69f9b567bbc5eb23ad1a6b1914a272aa41583a3218f8936319b16307 0x192d11967b9088a03433a2d1dfdf91940f4c54c031bda31d384362b802d9ce62a718f045e85ddc179f5cfd599dfea867c790195e20a473fda2059b8089b791098f3; P1 0x3b6c00dde5e808c54850b464c6e0178b8b02aa78f484ceecc5ea409a807c118f626d5623eeb57375a3a82239870d131158cf7ff29a0187d1c3c61e2fa4eed20edba 0x337527e3773be596eb62882468df1cf8c22de6097d4ab7232af40da3ea7a01ff597c2184af46b09b9be48b6ca81113d2aa75ffc99f55185f11728e42107c6551b5; P1 0xf83d5432c75ec005e2b73b386621d1fb17f2acdaa116638c1cfca88abed2ff8655c4b81ef705f42867efa9bd4b5fd2af128885f15428a810bde2be4601a97cfb4 0xbf7d75fcc7d72d090336fa5b22d2439ef99afb70be171b924d42107cccf762ecb37eaa4f44f822b24e0d3b6a8d4b626f6eb16f689315084c497e497202db49ed9f; P1 0xd6daad517226e8673c96793da0257dc426eb3b7902ac2f7f6e63e8024575ffd4bc1e9b222a0ed1c8ef60c08c6f6695cb4cc004fc1ca333a164902e72029990c793 0x13ca5e90581367baf5cdc37d7024c16c59afc29584d63e42a6d45e087bb44485d0502cb9efb2d6cd46f5c121ca9aec9fdcba9ae06216b908ba6ac1b1f2cdb4a21d6; P1 0x24b7f0431b24b225bc3b10ccaa29b33219bd1cb9fe643fa589e18671aee97a9a0fddd624fec4cf58bc71d5698fd3b9457cdb06ba8ab47a7677fac06ec006d562a21 0x1714d09ec517403805c3b7a00e6f422aac6019ee52f12620f798a6917d9c2def2b416abecb9b8ee3f9a4765f1da349ec1cc5ec2ba746e57844ffa030ec395e8c6cd; P1 0x31f1ec4af5909dea3dfc09125f1f9d47f8ff67f409bf278f1799c0ba4a6e2d6a5fe0659bf5b729e2bf2c6848568f2ad1cf2884c8a2228c1bfb9c76e8e91f0dc0245 0x16bd1abe05c02d9efb7ec928b66409c5c8755013ad968338e3853784973287cf3fdd864a6371b0777b7644c33018b158d7b010ad931d17c73fc784ac8b6a0b142c0; P1 0x307926dbc8b01bb63f3555ba46c44162e2f37073fc6dd3f1a26e8cc6386e776d863eaf55325cd18ac9a44bfe3375e3310faf57a116348b129a371ddd319f066018c 0x16868ca7645044fd7af241865f9b94211c31d6f52255136277b9a0b165b9c7d9f493a99c246a245331a240e3392fc337a4fcdb0d3d43c57bee8c27cb8a20d1cb18c; P1 0x2f91a567aa37c976cfa9db06edd8dadcecf5551d74cef87f6ce30894f614b3e01b6d654bfb1e980d41376fcae1a46ac774f51ac3b5a829c92d4484263c398cc68ac 0xb741afb85a0f86d82b4cd8f1cc8cfd528b0d0cae5e4ec5eab1f9501518661cff83cb30fc21edd3a4ef50b0d63c524534e66c453a7f76ce0b0a5fc40b123615165c; P1 0xc4c6771e677c3dd5840f3d535eaa03a2a802436d143f5d5ace6529eb52f9d84c124ca03aac5d58c005ff705ed47c25d79650eea3e75a3ecd08aa97bd994a9d44ea 0xb17001dbcda2c0860c9c92d29230cb682ad82e129784a59f68661c336bb615bba70f75ef1f7a10a7261950f7863f27470a38a63ea544a6dd149c2799ebc1c1181a; P1 0xb87a1d5d5c0ba971dad013ee0d1e77b47d4e8f4ecad155ec7e574bf64c1fa3d15af9c597f352da19a351630f2f9d127afe0835c1ca52b0283a316347c901fce177 0xda00901b5e8357b1ecf4250e66ce7203f5802e992456780e758dd4f5c1c49a5b1213d151b2916ad069c20583f3b262e86fd2bc794148be2f2b97096af2aa678963; P1 0x1167770266521bde9cb39c9810ea4c202f66e9487258a5885134c312f08821299d6a105516f642eadfab811cdd2f746a0ef0cce94f5050f1efebfb6b09f2be17c6f 0x2351d668b50a589c9b9bfe97c6f0562c5d362981c82641af065159a39017ce715a0e9909ee1d6b2a8d50713899f7b97ee5492f9e7c8fe692412972e7292610d14a; P1 0x74f382f0501ed6baf5ae02e83ad80d4d5b86adbe85c072f5435debaef213770a1ea3010e42e26271c30e07d09800c653fcb78f6e192929a5c9fc77d23c8348bf7 0x1b664571765f7720c0f628026d4c9112e5a3e996114989dfe11958098b952904f45766d6b04f8cb359db10d884c1a7cd3514677c9d6f1fa63139fbe3bf62d424823; P1 0x466194204553cf3860cfd6ce53f39c26b0eedc88fb02a73b7d6ff6104018615fa48bafa68bae5e3b0a22d4395883a96c9e916764eb8025f1bc039f7a7bd4700928b 0xda15c26e5e0a319b994dfcd6af2d359c36e6271b246859cf547b07238b5c0c351248b405a8d43f9089fc35ffdf3eab560583521046e7652e1895bd131a041fb0e6; P1 0x116ad997c2ae8606850ace279dd39e0a044870f968456df7c463843cb9e4c444a7b907264611822275ad03ac09501db2ae57a49ec6dacdf54a588f2634ad0f075dd 0x1c2a22241f46d2160b930a907dcfe60320525120c3d733a2483433a716bf2d9d81dc2efaa6bd84c0c910f79982b09be77a172437340a1ca5beef80f9fcd56c3a1c9; P1 0x4a5dd9aaedf0de611f6b3756f8a57ac266c3059522ba2ec0ee75112533c6d0af1f78a1fa12dc1af6a758917318079f83147578954784804201cec588e9b2d6ef772 0xb6a3d9b949e5555e30fe62bb39e9b53035582ee5ede640842466d979728a7767f0cd93aef065daa6921c1d6389815c0c552150ead1cdb507e95e14fef1eccc46e5; P1 0xc37413aba84abf36f9afa27b5c1adbf251e68c735bf2c057d4158d84c5e2a23525bd3c3edfd6aa09892878376b39a3c1ba346943dbe6f4a6770963d2221ff36b40 0x37c7f6fe6dc6c584c1b5dfeb0bb8dffa89dc3b5f04875a2dbda34cc20c103d6788295633527f86a7c73608edd49ee4cd2d0b7ab1a30c5f4e85f9bb58c5f9c185cb; P1 0x123b4c7ce18c119d3d1ee7da5aa1c368d49755fecc857e5de8358c98ddf30977fd8cf58123c6b8e2f21bed9804f1617c64464b18660db7e1b6f8f1d8cd07ee6089 0xa26cb79e2c03ad408953bfa7b50eea4e4e27ead434de0e49166cf440533569ae2e92e20c4961755d0fcec77600ca5ee5c249477b8b2d262fea392061c6bff60d74; P1 0x9a94a9d7714bf68b3716e13f5f036d13dab05ee707bbbcd9baf42ad2a2dd9742e5461bbb233f8c6d5972510d59ff7db161e9acabe45035e83240d16e90a3b0d859 0x12b71574785eea204db94c90dadc1a4a9661679200c9201217d2c8f93629a1fa5a3e167d1acf4aaae1967301da64851ebf34a18dd83c154ce373410d2937e9fce09; P1 0x20d62ee16dca20a3935a998989c4f5f3f872a501f516ecdcf7e9de48e0826a7c0db0a130816862c0489059690d3e11b4dc8ed2aded76ad219f8b332e1743fcff0dc 0xbeaa57befb156b98b2548a7cdc2326f9557171f6036b49cf5bd514418b7785004ee5fa913df3fd0584f4ae814c729e79be296052854c9256c57720202d92d165cf; P1 0xd501f16436a2f1f1ad0c44bf8b4687a284c91e7f182455f827ff478604e54f22bd862fe0b778a549b71791a804e8c86cfee37008d050eca00e0b3c177ce103a9b9 0x2b536f14f3b6500a3c69fb02038fa5e61bbc8ce42821776ee054fef9ed2cf6e38276cc1fd104672381624f18b2e842f04cae89ae24a71657439e4b42056274a1dc; P1 0xaffb3c3627cae3fa343aa3b2e818b7e9cd1ed132ce0c2a1bd390093e507b841214bae10c3e1d1028f8941b0e4e7dc10ddedb8a0a9a8331e8557b8afc4718158c2 0x1751d64cc43f1c0db3cbd591bb13f0139eac9e40ac613c94ad5ecf01e4c4adb080eca7e18d8e5fa844ae7e01b87639a96f2d7314205d3f72f07f2147abb02a4b7f2; P1 0x32fb600a8d9f12540afffeb03950cb4b40b7414829236ef61018bc674473a3997418b4a9cf3a3148ebf9eda885e1a3713dfa4ebe5d155502e75208aa68e6e8b659a 0x45a4e8613202ddc45221d86549a5e3b71818778310f55ff1feefbefd29db1d1b2141b77a040bfe9a7c64e8355da40c5974bbae0007c516c61585f5c7c65d3f07e6; P1 0x1c6b773e6ea4e626268eba7884e79d714b428ea591d7d14e7936c55f1539f909c0913ace1d2ec6cd6f99747c3925977df7299b7506eba1af106e450d95466f2607 0xd07e72d286916c187422dfb51b9e66c028ece3ea54f87fc79ffe29ed7b1a78480cc4d854ee7247ec05f241018bcf81d1b3f114a0b9a74ed0d7d63502b344c64df3; P1 0xfeb49591001d6dad119403c401ce6df952a7a985f6e49f0020d8d31f90d30752b3c92c93eb373ee79026392f3292d8be23d94068a9d26a149ea537228abdd4e2e4 0x8f6f0f4abfbc51fb591035fbe03760baea8b547f01a6c3a4d1d764fa6015eb9dd28d97e018d8344df4699ed7031be9d1b6563719043ba36c3d5019651208b520df; P1 0x788be4e5a8e8c1ca0f531e78c0669439f86288361349eefba7cae3464d174a03cfb8e1ecf611af09f5088789f77986106fc7a2d84a6c63eeb3963a6cd79a2a2fe0 0x2289908819015423a67e34b0746c248ff94ef0310686a09c48cf1990c399aa99b7e2dab43c9bbaba8aeb03eaf157a579c9bb9a1d81cd15d1b56a01a38be8d5b6a3; P1 0x6fd3e783edcc3626556bb0c4f68ca2112c22a61a1cdf03a3d2080af76406286f29f859674c527e8da74c0a445de7d1ef2f079af6cd044380a7fb56515415e5fda 0x1ee9457cfd51758e2e9351f815f7e492754f68a42e7bb8cf81d82e9e29bb60d5031afae90140a615003ef26a1ac75219777b8694b561aea3d2832cb426dd9fce335; P1 0x599414549a13d1e6804ebc0c87dbea8da0d139456f20ddc35802b056f7e55c1560504442327dbb74be47d84e3051f9ec7bb65e7ff8fd06692beedae88fd0a74d474 0xc571d0b0292b69ae9254080d8ea66da732994c31e7d82c06a280808d069fabf1880e0ba09223924098445ba86a1e270d1c9c842c6a1acf547f4c370f62e671ef5f; P1 0xe46c8cad877fd7a5bb0da76a79eee208e9d77df480dbc7e13202571693ff704b18a9c5a3444914163a6d42a3345e066e6b7b6f724feac89a651834e0fc89329869 0x1940822706a26cac034f4e891f7bd8c507f33dddea733d298a024713045749da4a09e6b72b8b5d79e1b2fd8fb781576de40d3c045f662d25c0eaad6dbac3a44282c; P1 0x3bc7e836f780cafe006755e13f0edaa24c936ec5c52b57f90430870a7130437cd8c9b98af03643e1abb358fe28d24257a33b80d04213bcd9544c4d25c6332ee0dc6 0x17d0e32e434c61b14820384918ca26454bdeed5286eb9216f5f15a47eb26e27b037d41136a187f6159919f0825ce32fdc1b7b0bff052d5d04a723f02cf1bf76476; P1 0x352cce667503e137a275b06e864f96e71fed5fe30fe8981cf1e1c6bc6621d4a2fa354690365beb72a3b5d37884c69125ce5babc2a4ab99af263a8f6a176b49b33 0x3540b8cc45d14e5488f181394f3e5167b117a75de439d778417e848f0e7ba338405b454cd30ae2bc13d685e9b1b261338c2b643397a73f0f4a52023de92c15ce5f; P1 0x109dcb5240aac7ab9649fccb7ae9c1351771006e9281c4c45918af7fcfc9f8590e878d6981368407b81fc30787cd1f706273e5b0c76d74c569b1ba94215783400f 0x44e173bb19336d1168a7fab82a685c7ea3e996ece579f1b9059cb82384471d0a4b88f349441b91270772ca691983a8844b5bb7b5e350acebfcf515e34fd55c55d2; P1 0x1bccd20c0ce2df957fb3e8589d261aea57452cd2e9d953e93a98d2b299346964e27be5af00a8dacfd03910312334de2f751fc5328f0c10370efbdbe0a0181f5a16 0x108c3b8c8eb557bd9cf4eee5c6ad0277fee69effc3bb0897afaac0ae47f95650c8aeb151249adab7c5050c786c2c7ab07b4d4d8dc8326a0fb72783e63cbd73ebae2; P1 0x19abe64222344657b05ffef30ba58669f994a1644a291800e4064cd4e1d866b8b763fd0a485fe1c6c263460611287ed90a4426ab92ef6bd968a4307386f88c299d3 0x98553543056ca44d04c6a5b2df7b938e22c2bda19ebbbcf952ac9fc9f5975ffca6acb804b6d1c012f8f44d23caa9d95db45c144fedf789838238740b878672285f; P1 0x87f7f16a000b269115be923edf10c43b287c3ae3bdd2f3fdfa90e2ca9e049b9c3ddb07b9f1c41e50607f62811a42e5f3b3827945e2dd28c1ecfc71dea894da966a 0x267490eb16287b9ea4e438c22e7e0061162bb761a52daf73ec6b1bced9c4409abcf013883a45586f9f3115ca33e2a4242f7baa2481d27394a2162938c0e1c8102d; P1 0x8aa38262a7e1f4b8a0e67220b5e2d6bf82f8dda6c44a83457c37d752d3817c1505de061b54f4483e88023e710900df8cf99b98c3665a29a08619beed82e883307 0x8f50da914624f92af797f2f969c9fc1ce80009a6b97dffb8938e41252d98968f45a3e54e95629bce848435dd36f5ce7efeadd389d1da2917cc0fc1a3b152892ac2; P1 0x7859249372a75511db6545906f07b79e5024581104eb4ea250fee2ede1ec578df08fd403029e6f81f6a880a6249a9902c185fb0aadf1569a3183cc9aaa1ab400cf 0x17d447ca8528e5807be0740c2c2f143e0116d541aacef9792a2a47609c281832096f13564b91221953bf346cbb369096de759a89885d5c50d0adb8d9a1f530cb1db; P1 0x353bf640f39c892723fb59e9df2de3da4365fcc4eead7b5f95a81db10d6165db36ba1188468446162db3823da49c7c38416aa122a059681f0da5e2f25a63428dc7d 0x1ae8a64a76a06014a5d0487bfd948acbdbef4c838b2c816c904d5734545421731c4903fcc067e6bcb649336e060c8445bbeb1d3fde398ff1249afe886a3b2729088; P0 0x16a0a9a798a1ed98fb2b420e8b1a195d58e1f388604e0798cf8aaa77c2f2530da96c4f68cada36b6d63b3a70673c3c743da0e52a2bdad3cc6a879da6eb6024bec07 0x6b5b5e3ea7b34a03cddb4d9499b7e146adb68d36497f6bf87ee71951d1294a4434de6413239c0135ddcf32f2b830ee6a8663ccd9871b522cf509f060282d053447; P1 0x43884216c523c1bcafc396de88f5da5089c806bd6e33c1486094b1de935b8df57d017ec9bfaba171ce25099fd4d3abd38543585515a3dffddec65a2ada8f31d037 0x18ffb50a5a5c067e612b6ee1ef28cc1b7aa2a6f82f489504536a80fee802b517f030b22ce3a1a65154471d3a3bf2502f77d0f769756b3f63413d1fb6adeb18a934a; P0 0x13878ae0dcc745ef920e31ee63a65c14476f05fe17d5b99cb767d4c9e943dfa80c90e79e14f2b92449a54546cb5bc51386eca4be823cc4af894cc7e0a81dde98780 0x14945a22b94fb4726941a3f2866d8ca4d4ba0d84c2507c7a2294f21f96b6f50469a26c080d1253fece0497300e25a737c41cc9dfac15c1c7c8b9d0bb189526f98e4; P1 0x27b4614a742bb0a7662f24bb21a524c8f1d5ac12fa07600a70cc3255c21d26cc6a6254ec6d945914152024b92ef47a4f4e6ce238e45a4ed2074d56d5896c187485d 0xd8e31eb55db309b2b8a820cfb34d5409ec5d9c4e932e3b2939c3214805e90e2cfc2bb19fea8095d55908633c5a75260768a6b5525a028f45902e6f2876c49de98d; P1 0x113a013fa4b29f57e93728cb16e37fc150f516026b38081f0a062a14fd124a257e01fdb4cee9c624aaeed183edb3cf9378114c40ff6ec4009eab5f0052a2753a668 0xb800c6b7cc2cfc4632ff9b83384a34ebb4f59567399d34d7d81e0d41a88f3e7148234cfe6e0594935406985f477eefa94c6a011cd1a39e0c09e776ac36c35f8d63; P0 0x42208ed467e0bf38055a36624076960eeb819209138d922515ca3e5caa999b3bf5402a8133ca1947da542938c86e40161edef755e55b820ca904036d3fca5791f4 0x87476013b861c2fdfc64dff01fff8d51ec373bb77119de06d875d30ef1336ec93ccc8c5c3383ee558f2b1917021bb856c366d95182b09b751d6caed012d9e7c63d; P0 0x23be2d9d9dbb16d81f51406285d768a8e90c4fbf7cba5988861320a2e63aae02c6d2ffe8f203b66136573c904c370d1972b34a4c21f110081cde4a49b251a76bc4 0x38e10410fb4234fd4dfc034dd3ce078cba38a99671cd985995cbd1e230846d4d4e0217b43ff7b3f50eebe5a5a2007d56d4d7ef21b6833f1dbfd16c0a31173fd64d; P1 0x12f4d3575dc2bfcf9be0285a575d5bd487469f4bbbff7229f84c76c74e2b824739107a5ff8068fdd2cf92589a3b6cab68cc99353905e59fe65f96bcfb8ec9a6117 0x343313ef9f46862eb9181218e6b54b7643196c4fc2a59a24e46ead9c25b115849c49c650332cd62ac3489a6c92fcfe145577591684f2d6d41c4a33916df67ada92; P0 0x552652525ddc745d940d7e2198a90c96edba15770fc73c50d991c66858b94dba45e92499e4ad8be35de294d4d240645d533c76fa0ba09b81145ee0b4f6cedde03 0x1a035e7638829c7cc106dda4f7cf5a72162a91f9404116526cd1e14da386fcc9267ced52980607fad2833ce87c0b4971e5cf90e139269f053c3c1a1e6a912b2d947; P1 0x3f706d90ba854699ae6cc915e2b18edd88ec7b743eff8e180f99fdfdee3fe802283789fcc11fb2123b735c803c497159f0fb82ad639539e0ee4df52e1a1d5db2a1b 0x11b5410181481edc74530cfff7222096ed2e73ebcfd7f48e6243a685df00d8a77d627f98c3b25babde80eda9ae175f7afcf294ae78c391d7ce31b01275e674b7f2e; P1 0x1d65c72c7b53b9cb610361184796e83682459ffeaab8bef31b99567655734b06f698b068b17c1b65ef4bed2a7a57d40a0c1fb8c8ad931aaf00d197e3d7cef828933 0x1f4f2481bda9ac6cb69ced82d3cbc1ebf2d32411cdd38ccdcabf009978466a2383da3ef40e370fdeb396ed24bf68698965d60df8263cbf527e4422ffea547ea8dff; P0 0x1ea21a77c9b72c994aa842d0a26a7cae7ce80b1faa6017d8a81937c19200ff7eab1c0527aad6069e04fba676f80499ffcbc6262e04c608c22e703a4adc96f1e2595 0x474e07d74ebe51e5290424d385a435f850bcf303f2453ac33c5bfe41d22a4ef635f5b332c80a75188e4b861b87e6fa276cfae00e4adcc481e1dd9bae2ac60d0996; P1 0x1dca90334fae8d302d28de434d07426d015f1e6a60d91a026ec939b3698ecab1c479323d8d440113144c10874afb4199612f385eb4155670141203408ca6a5d224 0x1f216f0bc6affc5568117b095ab7c4201afd2a259a85e9f7af674c65c846daf84ec37fcef4bc68898ea38da7dc7740633e9653b80b00ad80939c484eaaeab6d7dd0; P0 0x1e48ea155a987a983afc199948613f96ef8cb1e6ba6e7bc08ff9b4c13ae3570fbe2cf910c3e8511a6a4b3a23040a03738d7e189f28c205c187557fe436b8113205c 0x2f44e725a81d94262a62c4659bcdbb7ca52d212f3ea81d240cdc5dbe37f045fb72ef83655ce01168822e667875e9cb024b52795d590abaf9373c20ff13c207e95c; P1 0xd178f2128a9ba92303afaf5b347c34c8971b2bf014744ac1f781a8793d87ca9cde835d52c567776c88b9184765f844010594512612a0c38b80a12867fb7753973 0x6a3bb113fbbfd2ce150d00c5a02c2f73c2183c03b7d3611c2e9b6ba688ed25f7b8d1235705cf1c4edc85db74bd6a8cb722c874a6c06353b19ed8784341ceb704a3; P0 0x160abe47d316c45635fc39b8bc8ebceb419674875197b0023046861f530a85ddd146c2f99429139a5d8c60ca6cc10e35f2fd2cb0079a5a755d2d2a02f131a1e2c5 0x1a2bff59774b255c906079511e2e2490b8ce3389cfb8a0fed8a79470d28874dc7a7704a285dab5f2eaa479551f5567e6f0c087bcfdd1891bb170242be0526c1628e; P1 0x4037324ec7b0aa1d50a24bf2c1775f598c2692519bf24c73a341e05c6890bdc76b94bd5a7f08a9d8f9127a07cba9dba8f6dc7b61e501a49c72e5639f8933892c296 0x169ff5f294f8ef394f0045f0a5779f52014a04ffa81d6a23e4092c098989159b350d29a6b366c911f8c11ddbe6d833a03dce30e5a3733fb38623905cf3ef0b9d6e2; P1 0x2ffd355b1d7140636fb65e22285921983cb94601c8165a8fdb95759ebd85288bb17bb9e518158e76bfc86c2246cfef2ad91ef232e941454be3d3b68fd6c82229eb3 0xef42d750ab0d2000678e158963776b274cbe227b84eb8ed244b7d24584330b75184bccd346427c90faac4408082cc9f1d2519691cc8107f280678c9f44972a7d3f; P0 0x6fceefbe2d09a6a053e7f48be8f676d76624991cb819a4f55efd840e33c29eed5352b1359f1b0256cc7c8643c2a52d1fee131f3a0635a5a0af023ab593322dc93a 0x1ed7cb4f5b361a2b7f1e0e12383bca710e32a277fe9c7d7004ba96144040b3b8e774b0f842e336f93f47323bec9ed4d31472e44b2c5d41fc918208ca7d8da205ebb; P1 0x592ee5497344165105ece660011dc4c84642d676bf7933df1e0793deb7363b977a86190e16d7d160e42eb30cdf0a06084658131847d84197943822130e7ca79dcc2 0x154d73e2eb0c37112c7e95427a83be374430099a920bce2e68dfa9cde7ce8684e95a799a3be59a277391f464235b01c54e2ad82c1675dbba28bbbf221e2b3e3728d; P1 0x2a8b2ab384a960c26b96dec95404c1d51abdc647ada562b3d3faf946c6a6b9a805e8dad485a6e017c8ec58169b1a83e817f3957b1b45cb02f88611bd23aabfa1e1f 0x15223d0c20449e6d8a0f28b5a606c22bbcdab42a80b2958ad52a3a6f0c39c8e3f1334b6cdc590be9c0251a2631bb8b36a51f95045c33a489666516b37e741e9c31a; P1 0x29df3e4649bea41b19f292712982efb38165472501d79ad82d5572c26d82b87614568507b8edd6bbd497dd6803dd2d0fe8d86b7e107472c0feba09df0bff07df9ba 0x1394c034c4028194c3c3a283756555557bdc449424dce8509a1f401cad04481d87fdc1ce2f65d4cffe28bd7b65431809a2cf1bc54f79d7e8461a7d55f1bba8bd5a6; P1 0x23f2071f39f4c88d3cd8747b786d17879d8b98b065715f3cef9af67b38cc5099697f1eb95b8a24bfc0db68986d2e9a31f88659408f4648a0df46dd869a4806c2df8 0xa052f5c9f42cbca56f18276df25ad77fbdf21ae83d1ebf535a1da8fa9416fc94a85d6ed78cc20947f1186b44400aa6ee8184e35aff9c38b406ba8bb535462124e4; P1 0x969bb52e3bdec7b9eb9d55ea30a63477ca27f29d17fd3980af6a199b17fa1133d84fec813b16282aeedf7860bccb8bb4c1955e8aaf79b4c9d2a5dc25c50b8b1d92 0x103d08e9977e3910225a6166be6a57563b951581760d39e97da7ae7072fd3052911dbfb1bb6a41647187a390c1b8ae41e521c8f59c24b53ef71b5f19e62b3d5dec2; P1 0x18b877fabda1bd952720b790bc0940ff5f086567a9f384822e9325bdd1fc834332a7218f48d768bc38a291d2a3dc7f49a105b7a7ca86adeefe9adbec41fcd215ac8 0xeb4833c9d83650d31f9c17ef83fbc7deb76932a142e39e683c1c9d6c81eb49fb4ca8e9a53cc7e91c3a95365c3fcd0574ef7ff4d12a8cdc9ed76cab2a47031c7bd4; P1 0x1445c752a9e731359ec57a6ae3f6e5515c870b0181da1631962299cc89e655b09bdea6f3e36031b36497d521ae7608a6dd601fa7241ab9a6434f36c8d655b946e70 0x5334f7f7e7f2d38d4876ab57a03cf230f267a0a5f1442e40c26a7a9774e24762aba1e1c5fe4dcbf38ea4e3d91cf3904d87bec6ebd3363c223e127c56643a64a520; P1 0x289115a0a3f5023951060fd74fc38fa952d5dc463fb41df43d17eb050e3ac91fd6ad8ae63b84892053b310f59ff384208bdf1cca55eef3633cbd4bd5b3f60e557d 0x4389dcb0322cbe059f664e280aaefe8df91836ab956c57236719140c0001b74a3c6a16660e8515a03690298d762441c7860f2fb2e5652b7b5202f89fdfb895217d; P1 0x1aba2da343a4a64a621cea3b890ba29650821c498c6f3494344624cdaee72df19988654dee8ff71fbe9b4ed65c9f603f26f8443b477f1c503fdd90bfe6c0d36c8e 0x3f5f9177816a543c108a1aa4e00876df2ff3c19db9ee8c9da713f5cd605a7c299ba5de9f57dc2eb00fc6c7d7c46cfcdcfdcf4f2fb4bacbe74569a1be43d07dd1a9; P1 0x178843e92893782627a066deb8018109d714cf75fe4836698ef2a1c72fd54e6d18d319b1e78ae401a67602f49f16ebeb323cb40a4e50c798f932c74b7a00699417 0x91d967f2ece6c99f02fd0d835b238304b889e7020ce115203038ed1af8d037e15c8998390a9a3e283d5a00ab1db4c1148d6b583f246ea43156e91b327720a7b8ca; P1 0x7ca40093de9ca9359a24ccb79ce482145aebb35d0689c9052d4f34234ddf00471c3023ccf09f21a57eabdea401514b76c9a15dddee41c319343c8f1cfa89883cde 0xc37b43b81f54a886e82cbc032c62346bf602480d67dd505179cf5485de8f27120c6ffc6c691aee87a32b5135db6c8a8b4738000f555c0a6230f5384c9de0553b0a; P1 0xdfe786c6f6dc75603fa09c858ea2181b323121d8faa611484a6b4c46dd201e54b6a2ebc50fb40783146855a90c89cccdb646ae0437f66f55e3326a32f6cd798672 0x68a9781bd2fa74ae3fbc61a181cda920e8dc9e2da7e2627648aed78fff3328b08ef53ea42987f55a9976396054530f0ef497f2bf62e26eedb2b4130cd8143e5b9e; P1 0x402f32a99cc33972ece990863c129dc6f721431b1c82e17d9923de9a6dca361f143ea92b1e5c58c108c67e9c4479c0f6f8ba5627da6296beeda8089d3d6291abeb 0x17d9e672472785a23fddd6cc6ead4c7fcf1791ebd07cde6fe55cc782cb9b3d9fe159b5859784c7ede9cdb901d28b31b4f0764fa9926a28b99350ea645a0f686cc77; P0 0x11c707082fba2f115d1d2162f4ff5356ea115870a5e174335a6a978fb65b97c573c9450263d69d0dbbce208a50d207279ffd6b47a9c94622c0f4e265e43276e0be2 0x7b19a2a65111e18178bde2edb60885c1968d8812f84db3dcd0c5431bf835177613ad80a4d0ca691d417ffb8dff1287cb2d9d4394086879b29d3c9970f28b4feb33; P1 0x58ca774b7c96e6447d5f07bcf997e71c6732dc61665d75744a0063ed23b54d53fc486bbcbe3db653377952d0947b7727f702e6eec23fc1a309e5918ec1f1c356cd 0xb0fd578c09b26cde9e411817645e0ddfaa860f62873a78e7aa4ff5d11c5c24230cad1abf32ca554bfc91daa54913b22e6d281626af4ad72f1ddc931b1b1c755b48; P0 0x3d2ea98b5b087dc795915c6d2c68990ecbc059fe0ad524532793304e3b48f27cd957cb16e0ed803a3b6ed94d62d80c38c98898da851c91d666bf45f707f55d8375 0x8fea946493106961f5880914ae09099e540d588138b77f461bb8a360d5cc34c029befc180ebae5fca71b2244b0affc058c67d7f09056881341192249fc45b9c7b5; P1 0x795bdd19f74471ef6fcf6e01fcec867904042fa63c3c5f82b7bf2d1b6d848b46568aa90c78d9e59b81335354f4ab92af64f01dee9b78bb963da71470e6ffca41c3 0x1b075cc9da4aa916030fb768ded487f31e6010d67226248fa6730f6544ef47601daec6cdd21c543f5b2bf59702b41892a7775cafab0d7a86222bf3ca95c73f8f3ae; P1 0x447d4ad2d1315b519231817e64b83caf5487277e4fae17ce9b7413a45fdafda944103090a7d2911902f3195cb9197251adbbcd7efa72e8e7e3c04262bc69241df0b 0x15df65224ea63306c8c9e64cca0177d8c0221f411098cb3e0f11ab0b507e907a78a5c2a1c67a019c630c41011cb33b29f91c5b3cee50b11755a6073a60ca97d3dd7; P0 0xef34c47d50304a11aac56168cc892f8dbec5ed0a9992c10c250d3098f5633bbcf8cb5f9124aa39147bdfb84aae8314babefe6f1c5f0d73660443a99dbe668c7e3a 0x13dda8e4793a5ef9baecc967670dbc52b21ee04bc003b217fcc3842c4163185c67b895898aa2da002fd3d4120d2af8b8fbdf85e4d937eca0885d2fad6d1b772a8cb; P0 0xc5537f79f251f2e97a87fe0985a8d78a133a394b32c004b1b9aab9f1d3f09c441ac926742057cdb2393cd7ef201e4a10856f8b94830fbecd1fba6c267af322ed20 0x14a5062690c2051bac49c0ce9bfdaadede684f9b0ba0c5da8a65df88ab24083c12ba3b7635cf111eb970627ccec6282552a6352ba5762a0936d31c8469df139fe19; P1 0x27f4d026eb81f3ef26de96c7442bf20ee8bd94a26d1e2a5a5a42a138e21825513cf8d4a1d31fdafceb081a7bc09c5febf14aa377945aab4b136c11d61f49d9e936c 0x4f42c0459ccdac11d04fec3036b38649a7ae72f306824c57bd619cfac0a128d77a094cdb02b6a0f61708c81be7d179d0db988dc916a5e194d4fe7e1e9d3da56ebf; P0 0xc452209558a24311062c3003b06cf409d87c3fc517b554ec91a898ff1cd0880264dd0c8bd10b10c7235a67d86b6a800dcdb83e550abb14bfe6494208ffa05e3cc 0x1f514ee73b19907f8feed5836ea9410d5ce06e0fbd3c7b1b4e2faac72b102426af81ab901a484318bd96da3a6cb535f49dadd65804b1c41c1f9de4efc84f224964d; P1 0x5bf30668a6ff8116f1f56e2dde2960f85390c0728c3e8b05ea38db51ae8923be176aa62a4280f6a2ba3dd634cee6f02ade7ec85a7c1b0b05929a2b0778639a20f82 0x122954b4262a83690b758469d5bc2149fbd390dca8fd387c3f204e21046c3279eb6af6107e04e0afb0674e947c0ff5e6bddd3d213aa1d96dabaf377d1eacf5508fd; P1 0x1eec1e05ca561dfaf74dd5ca627da1af33002e8d5145b2304e062c07d3700a8770e349a92aa162c816ad1fc40448cd51aaaf044e24ac00368da52288f9bbdf902dd 0x13bae35b9f6c9b6625018fdccc69ef4d14c9ec3c439007a84f3d6f791103d0823105e100ed6b5d0ef6ddba11085a486437a2c46f8266e338ddbe5ef0b8018f160f8; P0 0xc2a317625cb3342800dc7da2f55044b6e844ef1968b528a7a824d650aaddd7a2ef8e189d4653f07d7b1321e3f7c0770a5653a29ae0ce5e51bca50c1ad5b8d252cd 0x179bed7e594335f2f6fcca059d9f067e1b263ea857581c71df2458dcaf7e2962c7de3a24f8316ce3793d8cf777dac9c81b4e1739670c94e16791640889bf07d430d; P1 0x34415793b0c081321a7ec139272642381d4ae3c9b459c6005aa15b4eaf7b2c6e0b6a85e1eb50c744ae1b9157bf476de6c9c0ff6bd6c2d886c5d3011aeb7279970a6 0x1fc6e361628c50398985fa544ee3588808e3ae4054c80b3023df19d07233d3793b5c3614b2ed7e9faf5c7a2590caddbfa4cc2cd7be4c5b6c5390a1a04f9ec5edca1; P0 0x1f8e2cb0d3c2325596cded8ae2da7febc3d354b124c2553c8b88e024ae108c1f037ec3086c64940d004500e179523edee120ffdd7fc9335a396beef4f4716b2b2a2 0x5b5e0107a05246312695ab72d5f8ca5c06929908c6658f97e9dc749c0cecb9c832961290f1357ab1efceccf7c668ddfd34e39e8b53dd43dd2ac5509268b313cfe3; P1 0x30e9f2e0445feeb3f076dd75f66981e10d0428dfd2b3b5aaf4a4d8091baff62f779d05f9893b8391a19dea8f560d2e6d116dc8907231a6c5d4f24af709523c9b8c 0x1e791596c1eb4608099b03ce4d5e0e0dbfe39a53dc1a6d046aa07d0aa17bf9dd68f938c15897c8db7c668442e737e681687721410a23ebf37869960971935c54567; P0 0x1d04d2a5fe444b540f8b21f33eaa04004055310562dc41cb2d9ae2542f083fd4cacc8f082d9d7d32b74675a893f9195e94ae63477b97d293bf31cec97460d5ac3b8 0x1a77818cc4e4f5a13287a52c346f76bd38d5e55d01bc2f3018444f67fe773c7103f41be89f24fb3a17c0b77bf2151680f2e4c3e949dcd8f069a8bdeee2496b17329; P1 0x41abd276fa317e3b14d8eaeb0235f8bf738db9df3bb6447eff1fb1872c3645e4075c55ffc6f34517516405652965346fd1479477b5f86857d67df45e4ceb3181dbb 0x178f60c338181bdbd7068a9027e07eb0519ea8f500d590387f2943408c19970c4a3e73c32a5050677785ce09754977e8c8deb5555c23a833e20a8d10d442e97b36e; P1 0x3409d887c1ffe51d13aea44e7a4149e8d42256146ecb5a1936587c4736d1c3a9185d00ae481c64b3dd0b76117506b32ea1b146fa479570aaf92d6d8376a3de84d7d 0xf2ccc0eb20e4c352a4b66b552c59d91999e0f818dac74685f79efb4094d68770a18075c6d5eeadc61c26b027bdae8754a3938411879ecaa459778e4ddc527d5749; P0 0x7323e04049273b960c29f9daa475aff675bee2b056db8ed0635fca9265fadb8b01a43aa41a7a8cb41835c99a06d575933ce541c9d253e644994d2de4e65e5bbf24 0xefcdd04720ccf9ee86f3df2fc95c5ba8057c33595f0a5810f378cdc9febc76d0834a8f8b47522c1bf26428d0bf3fe1c27e66278bb6ee0cecb48ae5da77d6871f5; P1 0x150f2e88a0feb6205ee0e6c471a8a7b0556271951705054d9db7b638e3d2057a9ef008e807cccec6565000516e4126ec02f6552c8a054d4af8bd0562847efd6f9 0xdb49b5b92f33bb8649b0eb81d4b7ba280405941fadeb911d1ec2ed294565e78626b35279360ea36d64455ad68e78f277bc6cb76368752af2aff273e2cc6b4e7464; P1 0x119c2cb35f90e3993abf7872908f820309f35706f970b7cd95af28f6f05a42a402680fdb7e772933fa525e6cc096a31ea85365162902793c4fb44541191257f3799 0x2f26067c6b11b7859300bae2aeba9cdf2a4b36fe56b8e804276068581aa18497a054ed8d6b9a251f29f92a5cdc950b73745e8d758624573ed5506a47b5530f8cc9; P1 0xd067a0b6a9f8a336344a8a70faaa976f1aadfe23997d2745f07223dc29e1f56eae26a4131fdd343dfd1d71aae2cc3dcd1790ab1ffcdc2dc376f95a6c8ad56f6d9 0x1adc80271afac3f703a6c3ae2f2d83b26a574ae2acaef809d5208c7f53ee8d230db32a965dfe6cf75c7125df977de094363728bc67c164b83c3a008a02b1646584c; P1 0x43a4beeaf44a7a47ac42718a1fb13e43b59183615e368084e6a41bc27e40cb5a74e6a822ed0467f3842fb48686f1ef6645a3ae98ab07ed6b302c9d2734662fb41c7 0x13bf87e693b38e290dedf25157ed13eaf087a6e45c1d89b14cfa66bc07503b950508c3706fc0d1a5bdc349a959fa8f3b5f1f33ced8f754537f19be4ef62cb084577; P1 0x248fc34723312bbffadd3095bdee00b86b79e3acce2c3cb0902591ec928679e576d373e95cca389dcddf6d3c27cbfb2ac3c43801e3020e3e7702b9cee7a25af37b3 0x1ce83e0c878cf8decb3b8b3750f01c242376c583056c7b3d426f0b3faccab60e5ab1c1d4e84d28052d3406067c70009441ef738c7900a783d43cb36d1b928b4fa6; P1 0x4e57064e519e455a0b5ecb8ac6bdd09d56a6d1bc66477e0dd0686469ae3f9bd6fe68ecf6e2044bdcf16ac036dc335f9c3268f2dbb65a1272dc7e24329959b4085 0x49a211edcc03f2600318fd2090bdf8afe284679c955339ff14ef8c07d948a3aa94792e52335c4d684404469bf73222a5dc1e05e769135ec1bbfb9a563062bedf71; P1 0x1fc4bf3e78dadad0210cfac6e178267b8708c77cbfbd2b620ae3e4edf46a3116eb424b51b78e1458a20de376e2bb363958ea013be6ee84ab458fe522f477be1dc2 0xb814d66d5457dfad9e1d2e116a39ce47ad218ed3d53024df76cf8743d8339d51459ab28ac7affd13826cc58357a51d2bcb256a16e9c75a086511205a3d50044d65; P1 0xc68cf0e70ce5b2748e7ec4e416bde2e48a9d55c1472f093244634df16bccc0111bdad13124ca5d7638324a9ecae70dd7cb2d71cbbbf19605c17d7d40324fffdbc9 0x8d51a217e13aff3e758136572e02f52d9c5e1a5b1d753697d73f07f938ff2a7fc8b28368ad3d11c7b47ca88ad7cafb3a42293e6bb2f89f65be8bad03ed37a99954; P1 0x750489e16bc69faddb268cc044c882dfb9a9b4aac9d98318a8acc778a2409357e9f6c4075645a0657ce2b8442cec377947d758b2beca79546593a9c2183a17d5bb 0xaf819124423273ac5edc2317805f8f5b5f8645ad5707507bb1d4e72f1f074bb33591b82d0e8c1317eff1a2b93bb23fdbeecf654a2181116eff2f6a4b69e850606b; P1 0xb47b9904c100adad1da0a109ba0f188f73baa595dd01cbc3c9dd21cc0ab32056167e0ad74310f8babf60c07714933595c913adf6bb1aa4d34bd0b659775f578f8b 0xda0ef017e7d62d65d8493dd808dc73a65ca13ea86a3cba78a75c604cd6655627a1cea81917f69ac2d57d1e736874a7ab3e4afe0e66f7e64e7db0490ec464e8d5b6; P1 0x1169c2aabc7f4708138979a6fedbc05b07ac7d226713d216405efac4bb9c9149dc116cb078c28e77c44a2e97d388f929aac95d7ed1b067520cc3919bdf71bcaa72a 0x11a19eadbf42e43f003335b34d7d5adaf228dba11343a7415e433af2bed312b80962a3ff0fa2f5239629f4f3dd498b897391c204fd25b33410909876235d0a3bf56; P1 0x1d24baa127293b12178498200683b30931ae83131f40f77990e79e0c4d07212587e1fce44b41a1a2fb1934211419abc741e5c16971eac6bad3a31610ee82e4d2bfc 0x1110e095358696672aac7699ae598f8aa26ba31a311d1f17d15912b51f753ee3812c4d06cb9eb30cf2b16a3be401bac4b53d15b48ebce8f7afe007dc2b711dd7ea8; P1 0x1b4de68fd2c082712714babdb10c041f575b88359c6f8209f7529a11b18f417d53c98f6b4f00028035db3b394dd2deac6131aad316fc836bc3a5ce3703d9f80d60f 0xfa1ba98f72ed17a704be70e34b0e8012d350a1f4e67b9056e5ef3ae8813e749d72f64a43dfd3a62b73f5445d68d7033d59eeece048a9613e2cb60c3055ae40cf; P1 0x16e870f3e118c097dbe4adf3c0f004ccd76c9c5437b5bfc71d717b5093b192da64072aa957b1e9e1e2d6d9e4f46bf0ea2ff4b28c99be831f9498abfd6ace9ed 0x36abf4f1a645b9d6fdd4215684c0ab84557e103d1d3a2ec4d7be789a55ecc1fcfac387ee9e3d1d00935886a0ec38178c7860aec9734e599099a0903490b6116010; P0 0x5d67f6b8bab8a4e2eea690dec43595b27f1e3f0be452fd3b137f7b065972a2fb02e1a3d0af8119208e9c4d7a455b00dd04634cd557583b1dd642f681a32786b2a 0xfae9c8fbaad158e0ff3cf182ac94e54a3344eabc20a623bb088d24f94c09edce8633042155d1e7bac2cfc01c2875a1518600319f113ea82c61da3eafded8a46c2a; P1 0x170e42b10824c07781f2b4ad5778bd3643cc7fa3708bdc29c5a3fee4dd63a7b5a4699bd27737bde3187a7849eb4f95018b540516577bb00b4f643b45460a0a22d5a 0x178f9e00a8dd0ec41a2cda80e5d6f24db55c032d63ea6e4ef6c6699e53882afc33afafca763a6e4a2d42428007e6956a33ad377137852ec1e8dc9e5034d8b2c9206; P0 0x1158f7b024c980784b31ff942674d58b5fbeb908cf5d32fb77f6507bf49454cb042fb5d28d1fd55eccc00fed13873c0c92fb41a62ed9adae5ef3736b5205214da2e 0x420024b14fd5150a60a89a62f89b1f9e78ace2b92c54da8b015b49d2f7c56ca9a9a213c82cec47f6bc4c5fe3d4a70a8d9de78a905f1c8f0c55f1d81f115b6fb252; P1 0x19861c612ba2542b27f53b3ace1d60d1b22016793df7ca8bb4a8a9d48da62082e46b55ed628d66990d64494ef31316cb277c1643ee9e1d25844bf31bdcc4f3d684 0x21b047b88bda01b1072762c82491386eec3333b9435af30933c064487da583ed7b70d15ae5472ea0fd0b7e8d428065102688b879090544e3892f1d891006ea3d50; P1 0x6a661d068d9943556f8a05603f8d38f2339e9fcec3d55b19335120aac14c8c7ff1619a7a39f8874480f1fbf0fd3e0a2b80e57e81ab02a72573743864025f191d5 0x1268fef521059d1abdae644df98d1f2e92a7ffec8fea1ebb3245e41f5cc4c5fa591b415854bb88eef0c1aa3cb31e9d256e50f0d20f0e2a8252dbce8d7dbd4bf3cd5; P0 0xa977754edd7b7362946e00fed2c0cf4a6aff84f81620b2d382bdf094fd432c428656d50596b409aaa9a2b2878056c10065ebba2274bd6c7df1d5fa51ffc2faa242 0xb08e26b0cf7b70a2fbaa86f5975787587a045ee8ce877bef28d591445ce0825c2483db7e9fd874f886c12d95c4a5fdf6e67cf493d790baeae9d837780a5f452b7b; P0 0x3ce1e21107a46fc3d316e49e8a20acf4b74320da6d0a5c213227381a6bd231b77b8516d81b1a04353a27319d1f3a33c2a8b76e2aa2ab0e09bcac91223a2821d29f 0x19b074d9606d409c81ef790caa2b83c148d435a503f07e092d412bfdf0a3324164ba23723515ae25a607b7253d8e0e15d03054dd64c66b36e77590a40cbe9d25fb8; P1 0x3dde8acff9777368d0063a0870d15eca8dd1d8424d4c2988a88f03ce3d4450b65f6a8622867428dd9eb7c7690b5bc78ef805eb603003539d874b171b18bb9104c54 0x1473da7bcd9b971694b5c02c28768766ad58319607cd40df9e019fcbb90f3b9edecde5b7b142b98621e373f4cc6ab6fefb1c89c181ae56a969e7bc2f856120e8914; P0 0xd12748aee90fb8bdbf1a6a3c4fc72417388de929612b6a2f80ff3369cfa800098877f0e98cca6764f49b9b034d02b62a8af45cdf6f62ffa9b98d7efd9148000981 0x1fb019440ef1f9120b6221d6be2f52ce4f463d2f61267623824b5e518479d6260bf339eeb56149667b95765c5982aa9c5dcc87dc34e0ad88416d46fe31b5f967311; P1 0x5e22ee1d98a46121173ee56ef6ebc59b42a74ffa407fb7b43b875c03881fc26e3041029f8f8e627c84b2631d5af27721066d32d3b1888ae9fcb0f492513e18146b7 0x1a78b9734315d55a365543f55b1583ee3155b91c4c61748913a6657afa86e698c628c119ea1ed40fb633d4bed3f6c67c419de0ec1c5fce5710939fb6d4ade6e1c1a; P1 0x41b1de6b20aadfddbc024494699553910c23985155bed3ee09563c5248cc9ca20ed0bace40fd5dc26f51c710e61b25b8b3c0fc6067200e2d4f8a9066880e1a43ac7 0xb8bb5610eaa0d5582c37a27a6fe45341dafeae8b9385c10f81dac92cdac4346bb5f4472c1d812e29369cdd09f2b39a442bb344ab2571a7c1ae0c8709e4a5ed52b3; P0 0x42a6ea679576ac34546e73516c578a20d0ad4b2362bba6c44a780c656b926c10ceb02400d36624e355a7c4df96a4edf8c5ab202d9f530390aa73fd90020dc07d3c 0x6641c30a69e7683c2ec26fa8efc14b514972e2a5d187e2743d75212733ab6bd11d253af02be981140f0ac1a5af3a60a68857325b2b82f301ef1edf3d7705e5a665; P1 0x3d44b479626a9280cdc33c80c0530fe35f69cc6a40a3e51e8fd681294ca89b85eb486b789edbef2515eee337763410c653e6e3f9cc5b5259f61b6bde1525177ac5 0x6b2241078ba4d6baa26643da80f5c816f231f481d5479e27a62666ad652d82a23039c9e99348a625bb80d72aa4b84252b08086b8964958e570921cad5051a2e650; P0 0x166ad378d2a0dc35d8c7c7f0febe0922e35628f92f89b7c2f80c113fbfc6d36de1f48e53de6fa0572964b2fa28158ed3924800e242731faed687f0bef87a20d1ae 0x7d6ad489a154860bc5ccf4ea69c27b39357006a74235d96dc81fa8aa89ed5bc6aed1e811ec7f2a9824fb8e7d796529135baa0ee09544b9a6b574914e5f6694aaae; P1 0x5c2a4034a6f79324d998866fefafba6fed42c647aedc5e4eebea95af4e771c45e7b50e7d78b01a3befc6447f244d24d44185be5115f85f33dfff339f71fb8cbc40 0xcfb23bc546aac7814f6e221da0d1fad62c6f7f92bf1e37403c8a62b496fd239a8dc3dec864dde521d1ed35e9d542976238dbc93dabe8a1d978c4e229e7547f670c; P0 0x5440dc601a497d5c8e4a877e5494b28eae3b73ec769408c0fa04c86ec066ebab67b6341a01567b500a09508caac193efa672b027ecd30fa28415435e30039f8d7e 0x9a248b9c21d4b2a84e23e900d6f7350d7cd7e5e4f68fbd88f8cbdbb5f85619938fb3d8f96ac1887277511ea47791ce9fc0f9734b11a0fac69acf4508df4b02360e; P1 0x8b37fbc71d208218729552c8d3dce305760f3d4011cfd0fbff568a5b1df964379e9b43b31c88f261e48b8738314306353d000e37525163c701861073c2a4d04624 0x1170b02e17f4b06ab51befeade843b940acba98b6b5ffb903a7411de3562d5eb9ceef81575145abe24a659d95929d479af5f31e8b7d363007b892547c01ebb60070; P1 0x1c83d8121244e28674246e3d8c6e0c707e54f777ac491921f21ccd0ec07f2a99f552ee0d518922f285c859d27552b267fd87f73749b340351352525fa62220a13c6 0x132c374fb1f5f5b018747b3865c442a80b2da5baa7bb4c2f2cd030f740b0df21aa134548b03882691fb02c198c6c909802dfeeda6f93988011944466f98dfcaa6c6; P1 0x22763c555a4897165de8e5d57fe36c42253599ccebd0ccfacb9dbc5449c5125d15338f692a0694139168951d811f6c3d85ee46cd089b1789b1fd8e8e91efbfc8054 0x14b6df8b171a2340470c40261f0086844020c18b1811c5d00744d6b4da9159fa6b542bfe202684064da48b02cd99b04a3394689f59efaaae17dc87a3368af54a3c0; P0 0xd68ac82c4a463ee63074033264c160abd7bc11cb490f0bd2ef4ace6be090c32d4a49e88c102465d6e1092dc58ffc50a1378c61892e61c68e3cda786880cf0f5824 0xaf63d77d9a4a994637fd31c3c8372c54fe54c984f2f3a5aff25bfc57c524c5905059081dde8cbad03960ac404306ef1a952df6b981795434ef9390c85d2dcd6824; P0 0x3c14d3c70cbdc504f2137750c9ddde9b2908695ba29ffea8ff7c5d46156419af1bf707e9d22e24017a682f563b92e0739cc3491b39b894b120101f44628c2f02ce 0xda20cb5addb15dfb75365c0397ad1b8663d27b72aba11373dda7b11f5ed09b4dcb0e6a52a6cb9db92cdcb3fc6bd0b3bd93db3de354184aea81d2c709f7283447de; P0 0x5cedef451ce95e1fd71e3d137ffbdeb6787828bbd7cee1ddbcc75843a829b843be6fd9455ff519ecce52d970b72d85e76edd86c0fb9dfb95dc05673046c64bb82b 0x15d0771f9d9c32ded6ccd7655dd762af6dff2eaec5c1c7d3a2bd715f2d5f08da57e86fbf19bc9d9b201229b66317a6477dc1dddb20edeff723a40cbdbcd6ca89caf; P0 0xedeea67d55134cfec18dc93c9189db1ca8388e1c1460af5fa6a5bdc951dad47204778c16adb1510939a275c680408b46dcb7b01d8653dd99ee677c3d80a869febe 0x115c94bf5c162283708c642aa40bbc5f45f3b065d50a9ac1fc73b7660e0acbd969ea0d3fa053e92d0a304db2be9636360246866a26a6f4a33ba15434b0855ffbe5f; P0 0x96b69e5519790132bd77992cf0d521f80bc071ab92e611e51370b7f656da5545928e098c39a7a79eeed34c2c81692986de96998e9e2d4a173c0a5059504cab3195 0x17807709e5266ab6dc1ad427f7a2681012b8163080156f5899ce601c3a4a6e0ef784c5f457b0c01641b9257b148c705a582b1df669b36276f0a9c75bd28317e58d6; P0 0x1142aed8436208199b8178f61121646e0ca812d0b01356ee0e0405e532995ced87919b0b6b746cc7f7e79718151ef282898efd9205ac197d8e7712e4507a582895b 0x16026253af10400b8490155b5716f083c56b64c0f6b2ef0449a63f1cf8fe23cfff4fdcb2361a15cb38a3b46a8812787d0cf8872f436f887f6c58503a04522fe5c3f; P0 0xf234760894da53342033bd0f7033ce589985e63093bde6e2fe5501c153bc176a2b80ee7924101edd27452f18f13abef897e3b133d2adeb9f34427d2ab0422a17c0 0xb456f233ba21a88d8cc212b2f069ec637e9d63008de71277fff70b80329463826f03feaf27804f2563973b5a37c226df4890623fa3b9724863b72c31e22c6b6f41; P0 0x3f8531102ed31cffd03a9847e37f50d15a9d71845ef47ef61268a69b7c9e46708efba9be24f6bcf7c67ec2582a24ebfe23e36a80260eba7b06af7c9b77cde105f5 0x9bad6e04a44922bd79bc7051361ae64d6162c9a1019f6e2ea2ac4b281376941c25e1651442a43fd4163f418ff42a76c954ffb106446b44521d71d1079056907476; P0 0x2f55bc5bc03f4c1765893651be385f1c756fadaf6fb85939ff5976a09e2bb9adc16610dba42dbfee55c5eb0498a346df7be1e54eb87d476a521798a66eb0663658 0xd3e3c276bdfd95d398c28f30c01ed1bdafd91aa44fd759fc4ec1e7a27b27116d0458e0804d331777c13a62ab8afa4ef118551dd503ed9f79d9d26b7ef132215cbc; P0 0x57b09e9917be91dd46766f0bf6824f9d90951e6bdb981422c60f654c166887f5c0c65fbb291e9461d8ae46951e0a7173e4e46b2aaf5bfe47d67cd0c102b4c0ff40 0x1bef9458ab2f797febe1bb19f79158b2ed253185d01fbc009f6f80c451515f21abce5e4137d4eb5fce0d64667bc97bcb62dbbbbf9ee3e902b2eb5e3778d2ed0a950; P0 0x18634c083d125757019f9605dfef5f92485fca7bc0879dcb215a5eb7ed52a1c82b8760bab4ddc8dfe97e81c590fd6a6eef945ac81dde6cd8c4488786873e0830454 0x130af411c6756dcdbbd593b7b3de4c2348dcd514b2d0ef9ada09453adf955ebc74fa60aeeb506abe21c9a7270bae259e84fa08a8500ed13e9de842af180327dbd54; P0 0xb550594ec56982765b7fdb575ae17a21066d66b699be88bb346952dc28d76536d895d7798366c0acc9d2886c056e5d98875adf2e92a1a96e8a65884e128a3b678c 0x5dddcb5961984f0cb3ce1e349b9431427c5108842a17fe780ec8bda649eedf6ba78e70a63021994b267e6d2823d31729600ff4c4b0ecd8ffe6b4325c9ca488b1c; P0 0x113572f3d561053222860b2af06ba41d6d73b9f866f028a2339083752cd046810ef0b8905275427870d34106465cffa86134444e7a2cd69ad15fbe1ad6a0db6f 0x172f02eeecf8934781e3c17b5597477fd4778ae8d4cd3d30e92ea56c1488443548f157e4f8e5d20ea381eaebb8049f73fafbdcbedba44aea3f547fed82991f8467f; P0 0x10cbd94812c243724b96b25e6f78a1aef5cbd8f18697507652d1dc25588158955b728d4c0cc1b07e81cb26c6fd1820d3d9ede56adc7b500ac1f74bbfe3f8f6bf550 0x195eefc15bec139fca1950101add45cf342b1378fbf35c16d920f6a69a3f62b490ec1844403b110cc1d1bb1dc1c03f6d3bb586aa053489ce20ed678139216e5a851; P0 0x141d7045b3f1c7113367f15dc43baf37200c1dbb4254e92e4c89897cdadd5b27a8ffecfd762e904dd8054c15c9e3a97095ed02066c1c9c9ed921ff92e356d5236f9 0x974a4177df1717789e8f68932a6b4326fc43e820b896cab1336c346013ef45440e0e6f972e40db7be1dfea1cba149fbdd800ceef4d138bc9e78ee5778de8e6a09a; P0 0x2cb45762a99c273a604a93f3d5cf1f6f59df3e5c3f26285cee647f3021b9805657ef22398b9756838216881718677571de7f4203a83b7fd0f3010d53d4c87d0ab1 0x1315261c1c135a1faffe1e54608d0625477f4bbecada369ce2cf3886b4a51b3c8b4bb6d61f2650d96ee39fd9f8798a43dec1e014aba813b3ed5f7d03c54e1f5e755; P0 0xb612b3b939eafcb1b1fa466fd93b98a17426e9ac36a9a87621cb72839f2a88ed2595162ec0d8290feecbf50b0c0376b692798a6009f982e03ced52868e2df093dd 0x27e74bc45a12007d5231021ea82688d5d1cc006bf60d6e3af66013e61ee10cd38ec43e190d493dde12d7da55a5aae44f113fc0a68b482099bd32b45b2e31ad1616; P0 0x31c2507d31c5601d4600d60f6215537afe2ea77d78f14e817f45b0a076ff98f95b83f2289753ca28d547d7f5aa990bbfb1d462caf6b7728794abefb66df741737 0x95b7e1621332daaab5850f6043da2f6be7f915b7eb610156f27156c6694a745899044c5c9b57dba6bc1a170f68555db2cdc1b54489f3c768a3e33a46ca2717e11b; P0 0x2bc7c838157f1848b80e3e3c32f5e8adb100232df9ec94d22b881eb91bf2d27004570f620f2730ce9aa0b42f3a8d12990b270f12ca8171cf4312c4931992071d84 0x8bed59c2d10afdf10dfe53955f1110426926530538398503e715fdca9c2f5bb751ffd77ededa25c88599796b5fe7b29523084d4229933ba4afbbc2de8604d1965d; P0 0x263dcdc4709903dc8cb9c3edb77be65d52046c877b83a2d82c3c9b5d60e53d38760b1af92c14b54fc96d6a9facf279a7176e17c280062b2ee8fa2f5115cb8450da 0x18cc0b0f14f75c11c446ec92285ac165642849fee77493ac62a22d430a1e315cbd7d0619ddc89f543ce4c1bcd092ccd5ffdb541026911d21fe7496d3ebb8faf6ea3; P0 0x133725a3a390c1764de01de8d9b1cd0def4e11e4ab724d00cb80d12171b46f4cd64cb49d99756174881604303732c5981d680f62df4c968c71a784f2ed5df3c28b7 0xe28b4d3e35c79a6092b26523f6defa8447c0a7e2e1713d5a2fc9dca025b820bf87a6c1637bee99ca3be1d49b0ab27965f5ab94a3dd3143b6c5d9a53aca6be6a480; P0 0x643d201767e8a766295db47088155645375c1c778625fa872f911ef445034c82c549e7d5855f410a070544510b0a067f7795f9b310c40027ef4e9afd4fe8d5e1e2 0x11bf3cac16176cc84c5818bc23b6387f9b36ef715ab0c4644956b1d8cc4e8adac391e96e353032d075e33340ea492019d2cafdd5309e33bc813539b349ee88a21e2; P0 0x9d7a75390c98b7ccb2dc427765b21692cd18c78317c3ebdcf2f0721a5ebf172a7543532732d9b8d987262174b874270c2a377faff0e5233239e5c77484651c70c4 0xb4b9b5a0a2d1805ea0abfed74700997c7fdc3d9cd25e2636fde4c3b4f76c850c64c9a77c1c36700b0f2e522e2099d4f995b796e2bd76c9741f74f3bf6e91407c48; P0 0x3fcad710f3ff3d2c63d5172ddd499c9cbb727de9a6fdb96409a99b3b3223c1be4c109841ac796b000ad03b7ec2ad713435364c61f8f6507f70d6ee55e8bbad25a6 0x19478e9658d4a2d239ca7f3de765c9042422c046d1dd71500308be6dd89822f1afcdc8565bed4654900adb2e53d208d1c1516ccec194c50366d66e6b0d0ac02f9e6; P0 0x13f86ece214f84bbe444119d2bbd8ce6cc78fe81eb1a6e052ee8e95fc77c1eec8fbeeb3b96f61f600bccf0a7661a4e711a5cb8da3009bd38e675c20c325cae935f4 0x7e46dfe69bdbc8ee7360c30f434ff317756a0be3e7fbf2be39ab40a32a9f9b669eaebc9e9fbb63f0fe3397a23369a7ee4f3467073591b06f5bbd6f18bbb6727098; P0 0x1f24ec031bae94a0f8ed5a34deda4fed34f36f78c8cee99323c2366eea9df557f0b7ba59f510611bd974c993e4f797f4e531fd6233fd4d142f1a578140b618e5d4 0x28073077ad39926d8b119135c9393b35bd20d4cd9657dc937cb97d6779137450e5c2bc4775f76245844a290ec1d996e42a913c6a7191dddd96b07b6a914efe4014; P0 0x3211fac8aed47e82a8c95979b8d6e56d7c0ec745632e30eff2ad45fabbd2f6c677c4e3c4116b0e7a00b1145f10f31f0ee95d10ad616b81aceb5359046c246de49 0x18ab3bb6b1ef9e7462ce9c1f5bde55a923918ac8eca942cc8de2cba542db0615770d54b7e85ecb7c1c46b67821e76e6162c8b5e46c24e71e290e9e2a27e2a00dfd9; P0 0x13046dd8aae2e1cb8b774dc2e7076486df64a84f4fa1ebe57cf3a6c36f2c81dafb23128daa493e360ea1adc41b25e3e57d4d1cec286b9496ef079612b8725f8b187 0x19d1e6da4efb85eb4b2532fa6cde136ca90c39068a24c31efc7140a4b3b0b7b17c5ee40e1a7d74e3059053d0a3c18886c6b6f6e351e556e136b319472971db47778; P0 0x14d5598b2078b77981f89981e2e2570d52615b1d9a1bf37d8f3d05a8fb852593df34e6b36417dac64a89c1cfb799ec057047a8c0d4610acf87128b6fc545bc5abc4 0xe9a9dccc9f96190edd35afea48271b38d0f7fd1a78724f8cc18c1fd470e9c1a4b77be0a88e8d8ed2fa65999c14a44b2fa63dbb7e8095c904d004352e2dc4467404; P0 0x6aa35250df8d21d16d088910b29ea80b16091d1b3a56449ca3d0bcd538c3ec89e7092892aa105714740965752ad0c44817d49868054348ffb4137944cfe3a51ef1 0x1336630eabd52b82ce7c121d2bbca689d3b6632ba9156b5d2022747e3eb846ef1d5a2fe769a2601c0740191c72ddc16ee5255ec2b2d51799b826137341aa68bf01; P0 0xb88f210f033e10f211f75659a5c71848500f400bea4fef38343baba8de150ceefc1b12cf5a85b5069eb87d0ffa669aefa113bbf1acee7a0a9ce65ef276cf027c 0x4c612f99d4473fb42f6367021667401dd5a54d0db396a3614cd53451666ea2f3cd39d18bfa1c1424f6047bfaf60f6b3fb7e7b9bdc7a238b1ad59478bfd8a21807d; P0 0xb64ec9438bb82196ca1a94da2e7a37697f84e7cbfaadcac63c27313aaf9696cad42cde1d54a46296148996a2033ce84f2aea4f0a22316199ca644e24f58b20f9a 0x15b94db03a310b6dbc503dc2adbdd61ea8de809993b8379f60bd2251ef165495a4528887ad2290fcaac1c54f8b22d40a1690c46bb42cff5d59587e2ba4a7d694ca3; P0 0xebf67024e9d18a0b84a96cc09aacd01fa19e58e9c991baaa0cc54b1874ea7bef74490b384ecf702dd4380f2d3911aea9351a20908d2ec67ffb74477d33250326ce 0x8fddbf19ded9fd6a05c8f97df3f9476ab289cbaa49aded664e8cc0a7ab1d8a962463cae2dfdf6381746dd36ee481acd00494f844c4b239c4626fc0a79647aa5697; P0 0x286cbdc93424f551461d8219fd19c0cdc9a72c9c7a6127d5e42945e3ef5ad9c25414ab49a1cc7e7fd14cb657f9ded13b271ce5d2aa2971ad1ba4496e7414834116 0x11ae850fa06edf4d350d414b7d33eed5e9f82ef0b221de16ca74beb189fbce8d0cdba6870fa96559db842c46d874db6200611c67b4288f7d108c56fd6c6f4590e27; P0 0x9c52529cdb070399c78600f90b78fd1e1b891c3b40c48c915f22bd69b8783722e865c3cf641942e25dcdc9a64e4b37e9d2531bec4b9722842b7d6ca0f52da794c9 0x109961052ec789ce1de5a23c965bee5ff9a99513ac7b7fd9ccdb6c9dff28192786e57671a19399ae002fa0550c1e209335e5a726e1d2ddb44c18fe39b3e5d8ddeba; P0 0x89c402e167e4a547712b4325405da1308c1f06e1fc2d8bf40a0129a7562dba31f0c9b5f0c52313a8443bf252cf9a7764a7df279069dd519bc27cc2fa5767f95d94 0x1c12afc7aa06d2e26152089b2e4a7a3816c0810a0404dffd10f6450e4c683c6671af552daa327e6242e857140ebf9008386dc7d171f1d0d3d1e853c7ae1a6a47cb8; P0 0x18a0be86efbfea3247d0757eb6b0571283b131513d15366d4f11c333e09fead3fc1fde14eff56119a814c2ccf9f2f9dc2a1db065aa45ea3e223574b6686635e1adc 0x1919a495742342a8ff3ac3dd5837ff7bc4e9d9ce12ea6649d5a7d5e5454bba577789d73a89fd9b93b5db07fb2f512d72ff5bdb60c707739adb01e07bd650be0df1c; P0 0x13b025b5fd7b2faccffb65e2a583121791b278f4e5338a794ba9b5b9b0d514fc5560997a6768c0353b82408e1757613847dd00ce8a54c0db24537c9d46246255b7e 0x82fbec76dcbaff5898d9d74609438cb1f2b37ec73bb11478c054d7227dd05176a84943b68580446cb3114957f57f610a0fe9b9e85287b206c864be512de197268e; P0 0x21826a0921d71017da3cd4631250405c295a41ed59df1452e256205d77112ffced72af061a78111c4041ec66578f2e830ae5f89a07c122f187c0ee525d5d5d2ef9 0x19390f0477739339d797e1a654183aec7607822c450eab6b504d554563d27e667a34f0738302553a3a1d0f394b508a34e775a78090726acdadea80ac74d7aafa5bd; P0 0x13e18d34819a5262d3bd9ea71608d20b2fcd0284ad8b2c675548f0378b3e3e9258c72b2d17bbf9356afe8f82bb5a7341470c2063a439986e652c84a4741c5ace3d4 0x360f48fc037b89c75983c04db5ccaa73ea2a97f009fb22cdf7bf1cc57e5123f659f0543bf99c975d0ebb2b4bb7d3e32db923715b3238a5e98fe72fb36fed60115d; P0 0x5b539d9f9e7a0534bf1cb1e029604a6eb0a5a4c54c7aff408dfb022d8e3e088305aa058db058eb714ad5fd91f6e99aeeba99d68f945fa2434412d6dfd388721a2 0x1fa3c23fcc47a9006289881251a9cfc78a8899170cc385f89a7a45ce8b390ec69efb8de4137e0a34e1b579adfc17c231d16a46ba897c80d139a85058ed671749d6b; P0 0x1f488e6320e1fd90c636b8439ed9b4d7205f33715fb63d94e6e965ba9e32ab16812f3980f445f937f6be85487e5b9df83e96a85101c10fb7179e673de82d0882db7 0x1df3a8a26ab70af632962e3c42cd38d1d5b1c98f52b443a56efaea658992e76cf519adad35e2cbc537c521a1e032889861fb6356586c37aebd47a83e97e504c9870; P0 0x1c08e0f2fccd18b08b194c38f51e3122765a8710ca1c7b8263260188218be49ce60c87a61ecb658b1def56889c0d5480d0ad1619bd1d24e9153810d3a017349a201 0x59fa5e5c0ce984d57a462bba76ef30034260a34ffb02f8800e475246c83d08de1ab31d519e592eb0a4a4925aac928400f3febd69748c8f0700d5bf1e72508ed301; P0 0xfd0053c37c5a88453014a13c7357beda94456919a5062ec51821b7be8aeb7cdb864b5a719a0bfec43a083ed494065eabe601defe8dd04ca19a5385da1601636a6 0x1cbabbf4e99be493e0eab6664f9c7d838c30ffad2eb6b10568be72643a352d03fe481c922db8b5b5e8d67697e4f24f1a6e481208ea2bedb6457cb81a14c31cdca7; P0 0x19cb0a99e7ea410332f8b3b6d48383f682f39306e7357f69aeac07acb1988884eaade52a547b9fb156da3ad894d559b8e7af2085eb0c5e2b916ee0d2cf6e4d2a1 0x188287e004c63b39129eaa4b8987f8e29da80fc353a5756947d52f86f7d7c9aeb0e49d3bae2ca304b5379efb6cff339733b720f41832cccf14efd076eac639c4792; P0 0x12c5e04244406c02374a4f83f2bfd08c8e843f686b3a3f7ca53748306d2bc25b791d20b607a23d7429a9b199355d6973b07f34e6e3779b17cd62ee34e330ca9cd60 0x3d6b53315f9eef4b3bd8bc3c6c0735ac827caeda118bd06d386dd1805e866a4412c98d5950ae21ab34ffac49a710feb2107ab000e0a686ef80fb233125469c1ca4; P1 0x161a7bf644d117a309b4932587f8e8d1abc28177f73dd5f2267e2f4a4e3de3b58e49b4fe351107d9e5bf75ffdfc4572546682f23fc4ce3c4e505341352c6f3d97b 0x283aa509ada84ff6305d4e3f8e73bb79b4786dfb974fa72513065cb19d885f20cc297659615bad0ddaaac34e75f179a3c6fe06f5af52fc84d10a6e7e209830b4ab; P0 0x32930811c8661bce6b07b8f641accf9ae06cc6af66a200500372fa1f97897025f8fe0e83adc9c1b1f3e49d78551766ac7218aaaf5c19af1189dca5b6a9049f6dd 0x1aac5d5ec9670461454d239bc110bf7321026dce169e12933110b01f23f00976387910b99b67c5871eac3298fa785abd1bd66882e16e624fa3d953db9f9dfeae116; P1 0x42b32874780591e861a6b828b4e58bec077ea133e72972ed6de1413c48b72689e25c174b32c3392838edbbece9a333c510e697f857f514415ca1a47cfa8fb5364b2 0x57c3ebecf1de5bae6b9258054608cb9ba19c1a176dee75a85839d63d208520fd253171aa197552a872e11b0664f0d35b0c1e411bbf490477ab37ffecfabdb26e5e; P0 0xf0b602628653d36a5d282ce1d781b792358430062ee948b304808f31be42756568f548abeed6eb4e67b8040af270e0e1f865146c978a15989322be20320c72548 0x1902db591de2ee4595ad6a62ec2a5496276d866d96df7c4d224ca5696d77bf2b059cc07942d70d015c56c3146b23c18394e801326958af407597dfdb4ef97140fcc; P0 0x138c76fc896311eafa2118d8b6819c5009673bee7265dd598e68fa16adc2ba5fc768304adfc39323335a8ace34f2d40a204d4a8fbaa74cc90a2afc0721ebb6d8218 0x13f0833ade5b21d9bcd262c2f4f6c663d3c956f11caaf2516c009dee081578aa2d72b361b0489e5a730f52aa227af170dbaeee43563c178b63ec7cd7d3bdc470ca8; P1 0x254602995fb9e80da09734a929ccde5e481dd52ab22f6b0d24aae44e86e943df3835a40bee9b2ba94bffd7f0973151e58c10a9483987199dea380ed9280b0ea749c 0x671eaa5f84915567597e56df9f556336e65540f2337b148fab4f6d9ccea0dc10d04c155410a3cbab048cb54ef0f1d484d0de4e2805c21f2a7fda0fd73b025aff5c; P1 0x3e4e8927daac86bcca44397d70717bf0b871c5ad01a70375613b1bd4de97dac98277f642c9d579a3eb13fc639af28ea03b92444f997c118e836f294eb397ba1d05 0xe0b6583ed3e06ded7222f5aa69ca745f7c91b446fdaeb3252da4ac75aa2f86584f59e6ef5eb3838f843ffc23749ea38339345ba22e34c87dc0122ca8ed89f35835; P0 0x629fce27c544a248b87fd7886913262f10a20fef2e84c78b11f1bbf6ac76ab7dd3de61cd3d832a0c9633443b6c0c38b79a099bfa9a8feae403f31d8d60bf859e9d 0x141c045bd6ff17216ffbadc1c7631e8219ddf94e5e286f8145cf725d6cf6241efa3107a698f9727f505d1d473b0ae6230432ad2d64864693b09d402cb3c0c881996; P1 0x25e959ef4a2d49f372c2c7f22bd5f3ce69d4bc4c3a15dafd6c743c46404accb5442da4d2df962cd9a3acb16fc3f7c9e53172e1c7fae4ac4e6193245003dac5d347b 0xb2e10b27cb0abc206de717e4986d10d79d78ffdfdb4458e87a51183613682983089cdc3f046fec5120edbfa43d6f89ef6311e7a19d731d6b20e043c77172292027; P0 0x3e7edcabf965240f1a2857c9f3aba1ae5f28f87ae837ccfae8e466806f4b186cb27d4cfa0697652abe4bb0b2306631094cb099f9c42a36383afae2f4e23dc2ea09 0x14c45bb4e0f3e16ba071d26e93e6927db003a2320f8b771bb36e6a32eb75aa9c36a4cda9522be56e85889a1d86c076fbcee4044a891f0c02787fa80a08e4a4aaffa; P0 0xd7a278687c54323e6156b40ed8971c3a5a3e7879edc7f376467e9a835f1cd5cecb367499110565578de88292515e9ec11f2da4796b7f2b584d8738b36b51bca6c0 0x196b23fe7fe5b769729f746351768928e6540b62497f40e856bfb848e1bac83b459b35676e4017fc14310d6751ecbb23cdcd47797882ea57451a59bb04a0f3c66e4; P1 0x3c926ce392e09bf29a438170771d9f303674e89e06ab0ad65e35c137be1b172955203dd2728ca1fb78d5d22546222bdcc151d9f18cd226be1c497aa4055285b621a 0x13eb89ba6a95d5272c0e90e7c5358832760d43657295d3e0f2058003755e6d8c85f973459772508f6f46292cc3bab5429e6cf4637e13cb3c50fafd99ab27d0ad34a; P0 0xc66793e9157d4649599145274e19505afeae47efa44402dc3709e2e9488fe257342d6bf2a8b6f9aa10abcab58f2b5f90c82542e79790d26681398192b68591c62b 0x179b39e86ce9bd539fb00b931e75b45e7e2152c3d4374c4c2d99e017d6d9017248e3622e6ef3d630a0902b3acbd39ee8144ce261baeb1cb1149bf4c0069f9bcd78f; P1 0x343e3ca682ed1e0f1622ca587417ebba5a90e60b36097c495571e17caa5d6d3a4fbe805b99b3d471cbf4d340653fa3c9b68eefffa243057f18526ec7716084108fa 0x8d4e678468c66c3cf3f6c27b6b400892c31baebb972ddb88368993b4d066ed2107e0ddcf0dabe49656e4918f8bdceb81bd28299262ac6e7321b541a4e480dd8e9d; P0 0x26ffbb058cfb1e787e3e7cc1e04b900fcdccf89007ac743d442e704527fa19a8fdb17ad4ccc1ab7e7b428288442c3f8b476ce0d38e35420154aea6f3ab5f3902a9 0x6b7ac726a48eb2651013afac82635259e95e71c9a95feb32900ac1fb0010087db76e8d444502f049870fddb961b97905d78267407c47e6210cc69e71afe9bd8ef2; P1 0x43afcc0b15f9d83471e181155b1e1ce9a25bbee2b940dd38fdcf2f1aca24f55363bb6eddf74090850e69befc6bc2844f00c141507732dc32d929833701c8043052 0x119e62c83e561395b9384e07b3bcd6e34cb40819aea8c4cede7a85d153c1fba8c051ba96dbdbd6b974ee30d5d5b4acc4e489ccfa784c0db1fe9c5fc3f487774469e; P0 0x9b358e56c9269ab60a9305c57405fc40db817a18759b10acd76348fae3657c29271c71aef75f7091e8444a48075205b2e1adb28beb43ddf5c81636f0450c716e51 0xe630fc85db52d5f8537b165f63007585252c9ed0f602ed093717f717699e2e5a16300aff2ec9492a02bd8f93ed78abf65f64093e82df1da64ced2dbb9c031c37d5; P0 0x677e079018b172a9942d43d0c02e1e25a5ffd81fc44da6e92b4528536cd1913b24a32fb234d1f5d45232c9b8f316537fc5a6aba3c1ad4695987f1fea33fbe94b46 0x133ee57a2450e54eb2cc9b2284db83009348c63476f4317006ee81b8237f3ff6cdacf761186a2bbc6ef94c8a3192283ef561c50cff436ca9afb8600d0373cae827f; P1 0x22b9846216204b42bbdc69f7ccf9cec94ac671f8f19c29e8ef5c410000ea3e336d337a85aa62e7fa1836ae7be48f834476f2132b671ccd28013858822b4d90b04ed 0xbb9daf35dc797d2bec83180cd8f9236b36b2d5f7b063119ffe7d48abb257ad15170784d3f117c2681fee36899ec8f5eaf793781bfcaa56109c81ce46ce6686b5f0; P0 0x44bfdf8c880a4c526a5c44223e913987570cc1985a96e86a44fb3fbeb9700cf73d8883c8ce68f9f9e58ff8ae8c1d868c700068aaa2db635942b77fe6cf958852db 0x6ffe27c1aba30c82ff4e0f8e1daaf91e93b7bb25e532b3638a22b7efe4d26501a10b5a4fc703add17e2d118bd6fa5f415065e8e937aea560663b1b94edce1593db; P0 0x187f31666eaa489b2d0a29216456eae47b37a837e5f84d719b1e37b64336e78e4928fe065748cffe61b9d49574c60edbbc6402279700632ab3f8654b1d202d7fda 0x83845673e4da7848a2122cc85dfc4eca5bac41cdaf572678217dfa9b0fb04cd66a06defd98542aa945370a2c93902e6cde1960142e12927b1c476702612b80bd33; P0 0x21c85a71f076d550493a3db5c31249a20bcc8e9d369c2d448ee9a87cfb5cd9caa9a2de00798a220f685a09c0d301045cb935792bb05f66f7cc8dc1423071845d36 0x13ebb00c121d63322d280b38e00feb238083800c9f6dd7f6f7a39df474d3cd19a44f4540211dda8eee39bd067e9988775f7e13d0d4b63e3710f18b3ef235258b55f; P0 0xc66a8f3cf51c13d6a0a4a68282587a85df666eb73c6b5bfa5525146f7b23fd331035affcb9618b6b525a28a72f9812a207df663b235f54f8ca9514839ec92482b6 0x7f56bd0c2e528b441745c32da8f179d5bbac7762179a1d73750d731d592ad623687ea2eedb3d908312e524bb75dc57a642b9fc3c8b608ada9d49547086d6f3fbf7; P0 0x1fab967ad2e0014eb14c1bf7ce63e789f1b80ee0d0407190cf950d8fb2d45515e60b847ef39badb24f29a03f4ee39b8c7ca2ecebdea4abc424eb34c80b820db90f 0x164b803ea5e099e0d1f7aee905148476211ad47782b4efa534ddec299fcb17458475354dc41761ac9333419b999f3e7aa80c313fd9fabe5f6065bad8068c4f60160; P0 0xf8882794bb40a115fc1fbbb070bc08c52f4f276e8643e8c89f1ffeedec8f6e79625decf7aa9c3cf2643fb4591c28773b5fac803583980fccc0cb1c91bc592d6a97 0xfb7ec61760c4d73933197d42509cca6e47f60de2cae30fe2c2bfcd4c6b68a4126586c4bcd46c73b474f781e684a2c6bbbc9b5edf0b9e06668f87a74e3dfdaf4e97; P0 0x7b88eb9cb806b5d085b0d4678f4631bf5876d4ee00ea38cd797909053ffe3ee20273346be90326f5ab6e0e9672b25d71098fc1b06b30604b571a7f80e27d7abf6e 0x1a149788e64f4f45ebefc9278d871138db1728bda63560fc6335cc1fa3652629197045ea6fcd481822905afb983e2ea5903afd27de4ee48213e9a54f23b7e0d1c7f; P0 0x1541837eaef70b2d4ea71fb575352df1964a7d2a2023393af71755e23c2fd5e9c26cd1966727563a8c427a4ac9576f96468c6ec4f3a651c3aa01938f43cede2ec48 0x11c20ca8dda92272e752864abb220e1992e0ebde62051cf6c681912fb54d6be88af8d08577e42d7da86760fe8c99790a03462f15abe7025cd2bba8d1b7fd9f4f349; P0 0x9dac62cf00578b81028050d961047a551f600b456e78d2a62a2739fba96c9c813fb81a1acb7e10c96d7f6f9cb503476e208f8bb336c156cf48a6cc0d652f36ae8b 0x1176d243f616fd90803cae5c6898062ca3638e77215ebb709de6dffd11f57c4afe7df6ee067ea78f7907ce8c8368fb6995e48b4d70390dfb4fc5f2204a59b92595c; P0 0x987f89c504be53b36c2240fbac8abfe74c00c7cfd761311a66e3daa01ed4f9fe95261b51be801cfea3c8f69acbedf087d0d368a65beaf7c29b41c9ee93cb996bc0 0xba319fb19733974424af221621bf4fe4c60fedc5a57df68129782356e382a81119d258c8e22ec3ed4e44879e5cbcb15fb560b540cb549298ebc2368b0b3fba84d0; P0 0x43b612d64aa87749b8f8209bbeeb1ca1912859b78940481ebe083669da0283a954aeff05f83791ec3f3096effdbfcb56aa3f6f025d8847fa915686c6eba4b781c1 0xb85222cb9b9a98676930379ecd66925961132eeaebf2696c8bd02841ff1f22005355d42b1055f9d3f54d60a867492dcb0f450414d604899c1fb465660f47deaac1; P0 0x425b162f7f6c50b1bfd938593d61aa45c31a6e26b00c923b37f6cc2014eaf576a75d42f906058a3968d4f3cf3177b078d8ebbbd650ad7a320c18a82564d05fc007 0x1ebb2cf2226fe026600248051df4a389ba73f0aa0eed4adf3de73577a38b27ffe1ab1ca0a22b97d86ecafdfd62975eac4bfb961719f6de4c8cb2d4938667700a588; P0 0x1d833b1b8da546b05e1d719874e084a30618deb233ae2f8a18a81aadf92b12ea316a86eb238f800b56ab06ac12c957ea8649d624ed2aa6005614d1fa4c392edc270 0x1688c49d2b5e57cea0a5ad9d7313f2e6119041ef0481ae9f37d4ce12a218f12138908ac60755e0465342813e92918e8a7ddfd7ee3164efe20b4d8f0a7086df65ab0; P1 0x2f9b04ac22d01593e02235b6bf0345be26b40b21cdd14d012632709d43f100d265b06af49c0f4867eb30c593670f70244f6f222a42f08e18b66b86ca84bbc622b4c 0x110975676e8c1b53cb643022ed7c4f4fb7bbd1bd0320f910f332abb3f9c1a030aa67b19f643fc803b6207485b5bb86def3366a6b59cd701d5fb4145ac309b82d64c; P0 0x9120f899e60b28a12e727896fc9ade1ac4e0c8f0fa4698faf09324ac14f9f7980990c9e98f46e377bbca036a365a9153fb66c9e37e2b2fe6ae7be55b47fc2152ea 0x85fb8b29e83689d396edbb650f10f7ae9fa3a22ebabba00523ccbccd1b88bee9a2ff1af9018745c435bb9a00f7dd5ec0d6693a81971ff03743185b8a265cb4797a; P1 0x692f00a598aad6c75445b1fe62bf7b98ce2081c7845647d587c04daf8fea491202ea9f54976578ece4fd61859a53b74a5d735c94f9e8d1116cb02b9fd17ececc6d 0x3e42b5c92d36a96a0afa16b65169af846797c12ffc9d0c6130fff956ecc32aca07541dc3b122040e7494545425e52bda0acd1e35d22cae795714b90c19b66c76d9; P0 0x79230b7d75bf12305b0859d0b7e306b71d9a48a244aefeef564e76699cf19d79f52072bea976c90e1488890a15b15692671cd63a474c24dac54d333a12e0cbf68 0x3065964fca9aad102557ea8e97ae4c8daf6fc1bb36dc92b0e7bec1e2eaf73864d0529ae260b17beb786c3e2ff03aac7481585f7587a40d3e2f50c728f438518359; P0 0x4932056ef98bc9f45ae50d063f0b4b613a0e09a8446f79c182e14a0a91afae4b5dc19789456638de2620b9e48608b22c77d529228ce25a68c54c7ffd799d1c625 0xda87583121f0fed59bd83858514b23d4e209e3a00d4f69d05e60052db641763d3e173f72c8970d13b1705477715e30c2e65cd30615ac2cb8a109f7f4eaeb87fb16; P1 0x117d02ea2b803166e6700913d0b37cb1afae78263c7cdbef4ac25b3f68d3134ec3cf92885bcbbabc56e1041ffbac6922b5a3c786cea97629196f6537c662e0d717c 0x16c8024ecba4193121925deab7faa7a5a6e19416eafc2257890422d24076e865eb68d3f2d715767a1891eb1282853d2cc7df2458e8288971071137326adb075e328; P1 0x30a7afdb9359440a56116ab0e8cd5403a3f9046d2c8141726104b29eff1a1eeb489dba940aae7957d20cea672b51d14bb28f7c78c603eb84e81afd86008228bce01 0x1d83f0052b83eadfb61b3a32a26f545a5b031c7b3a05d6944e51d158d20419243d8684c9913260b4cb0c1501593681843d56cbb844fe1f11a08aaddf81966ebb0c1; P0 0x1b3943059180ef59193610f4936f7b580ae71737d6f5ee4e436febe6a597bf11a5cbceba534ef1d639b9e16a3479eb9db6e717b5b7ecc5d07b2c83ff130177ee5a7 0x42623576a79d6485e6f58765db36c4c2d812b043ab6c5b5c3a8b97f85464fbaec1754769f8f66c0e0cd9e7dae1b9c134ea143dc789315f3b60335910b9dfded728; P1 0x19d22ddd3ca7bf1a301b672edfb35e81af22c112879c718ccaed4b003711ca9bb10aa307585fc5187bf9243cb0cd5d519fb427b8ee0f30b644da839283b67307b1 0xd82cc0c25a94732238c49571471f2170900164131ff2876886829609b92103114788c1c82a64ac56ecf95fa8d007d24a65c1c2015efdc2c11b042d7068610faa71; P0 0x5b45c68d6666e05eb4a6e5e86a2a82ba0f8cc7e6361dd89f2dffe6770a5d069a6799374df815e59b7a753b681f72a431c720b8f25c559a30a5b57bbc4952fe43d3 0xe41cd7bae02b000783fc6da75655e32f125ff6bbbd3d2b5062bfebc2207cd001a5b8cba98635436c0506f93752b897ff4a50039dec1440a2cddfdff8385fb689b4; P0 0x65a1b1c262fc873410c93a3701713046b64ae23a81bc4826955c1d975518d0c1086934c4c6c0ad7f25aa1f39b446cc11e72c0dd0fec762ba0d29628dc1c3a80a88 0x6452f0ad3d53efb9d1c87dcad98022df7c302d7573c5d0e58720adbe1baedfe4681292f803648158d651abfbe4f6ff8b51f581b778aba71e1c576c88dd71aa3118; P1 0x3af95a599dbf37ec1bd5d374987eccc4f0c4840db28783bddfcb6e184d6e75a12dfaf1ba31cb924ccb58130c8a0441af7500a082dc65b7b01e793fd1c6c022be8a 0x130a4deb2d0606dfe93b71745eb967d50d11e6cc6f325fb3b25015fe5bcc9a241980de1f69807345be93f6e44654b25dc0a21bce19fd5ad9fbc816dad8c0801554a; P0 0xb543fd8b62dd4f8b9dbdb7919b27fd2dc83baef97ee18f1efcd8cd50b02e049a4a5f462a841d6abbbe875993caa3a4cb5b8f8ea5c8778cd46929082dc6aa47d1ee 0x15b03d4a78d7b7c3a07416739783a7cb8c2a300efad05400529d519d44eafd61cb2ad29ee6be4b2907ba4600e4f1a979db65e8244f0aa6ebd9aed07900d11460b52; P1 0x2c19513d35930057cf61f6140ce6ac67f028a5a5b614f2b9553226740a604241d6337978ed0fb565f9f1747f3982b6ab08ca6dd5ec9b1b5e6ccf8e4b855176efbaf 0x18108109498ffc406472cc61d6263063def915e19ce39503d73cde36cac7931d5c7ca87746ab3e2ac18ec0648506b2c5e69a50e2e3c63580370fd640d5257776e7b; P0 0x1218ca10fff46e27c2f12a3941bb6a86b2f2c750ff2e7455941defb620363306ffb0703017709956c8db49f843e2cd1ae0938fcf075d6294086ffeed17b6b8d3651 0x110503290c89c9d91acbd2a9f7ac0b275f8d2a3fde32bafb877db1cdd31b68f305ea35de614c928fbe2a27f275e855b6d57ab0def356bb8ab32b5a47b16eb95256a; P1 0x1b27fc6dcf62a99734799cb44af9fd36ad667f5089394f13e55df7818ec5d97ef7b02bc7305937f4c6f78b4591151d783c874d01da14fdfc6fcb258baa1d54388af 0x11876718d233e56b4d359d562fc03b781d07853b319eb54c1a0715a7da93453a53ebc1ae3666d66c4ec5fe184c81441978ca850708f5cc3c68026ed160961d6f85b; P0 0x99a1a798cec961082e8c4d21764ee9fa5a6b826aa962af849a831f8b2af8e0e988516ffc8cb731b49160f13f9bfc7039c31ce01af116c59fd5f8ce74157119c6d1 0x1478f4c387d99eab1fa9788ecca55c366eb6d3a8d665bd5e3c2303cdc23d604d005d6d19c24a4f062614b7a4a2c124f89192eee8b71d0dd55c1ce7e2b34902e372a; P0 0xd18fb27747568f48baaa8dbdd7d481b78ae0671c3942ce76e0d550ea4ffc3b462c4fdbd6b0abbb6e7df58bddb92d5c9aea7da815b5328a5cf3f941dfee027629b6 0x2b156d8b2d2183005163dbd4424ae7fa9f7090378fce36b0f75ab0fa1edc65bf858e150676d0fb32b45e752b33661a11be6cfdc6efee726fc8491c6b6521713c9a; P1 0xae04ee3dd4db66743f2577de8b2643f70ae776ff92a3d1238f9c4adae6ebe894566b7354a23fa23e9ce7a899548f52c5b3cf7a4258d60e9461634a112bfdb1f87 0xec8957ffe327cf7f8e67360b3e73385a17446a7461976f8213ea2e8cdf00278c48aa7910eea4e777fb9cdfcfc5187dfbf72bacefa5e40c64dd886774c186c0c573; P0 0x6d46c1f78c7939ad537e3498c18f459a882e2fc6ce86d84ab49aa119de7b170f39657165dbd507087c6031b4a956d8a81b679622eeb70eb61b6bed6dec47bc9cc9 0x120760827b9fda35ae10ee76b8dd6623eb19ca7db1268ba1ae21fe6b196c642475410d781108510edfcec5be562e47dc26849fa423a1d14abfda6ffbd2f7086ce72; P0 0xa284e46273ae53948f6383cb3d37cb8e8dc092f8242dbc7e5a64a5921f06faee4c4a83e30d20acf42c0a870b9e822695c11cc2e843d13ff21ef5a3119a9a9d9c64 0x1ebbed30fa9ce2c2194d61531e6588ddd95f5b9328bc5135aad94748b2d21c5891b56f088432de6254d4d6d1e6fcf2ed42d4f0554ae5f9060afa4896f1720714728; P0 0x1d84ac5ee074fdf18c32843564ded0ca46aeac6dca27ddaadd150eef42f642ca0ab680c3f400ae837c824d25c4b3c5aeef43029f4d3ea618837cbd46222344b54ac 0x96d401f3eedbb79132adeac29691b4888b562a035de71df452b50c808cfb8da39853d61efb2fd422e140ae127c434ae10fad791b84b025bd8a48d05f3c19628aec; P0 0x2c6e90ee8bf873a99da5528cfe83292d49844f63c23d9b87b782829b7824471f5589b75d84d76ebb4f4c909f0dbe1f494415199667a49115f4263aacd752e8b1cf 0x12d3a79fbe92b91d46efe235c1ac7620cbdf0474ad767f498d4eb706a6dafdcb26ba123e2af0a3157a8157874de8ed3848fc360c0bbdf85ab9db18b588812fbfb5f; P0 0xb139481af14b1b7cf0778455c17ad14c6a6fd10aca81b6e79335944130077f310a10fa21e97444266d8a3615d7af86beec5c7e98c5d74becbf7e38f484432c4733 0xe1fbd3b0d50806429eab52ddf903dc7a3a0cf59db26b435a3bebf3792bf0de2266bfe166458e8fe1d6c913134f1c6e679dc9b76bdbe1880de33f57c0d48249b474; P0 0x63be50ead12369071c1689b942c2921a5ea5268eca6f8b20756829d29461142954417b6367b1d20d2a2c12de71063c0f9c309b679d97dcd83aba423cd0ad556d93 0x161fe82de3ec5135e08751560db9919bd914ae9c6815904b438c714a650f790043094c838323bec72eb0eef9915eed4bd7d9b18f8b0fff6eeb3142a0d6ee6b0c223; P0 0xf4bff0f86e8343966b646908bd702114d1b4e935b934c0676584b699422e2129c1c1b120a109f7d9d9e332c9720e1dc812ec396398cecf0ed25e8be116b7226103 0x52120e22cde86bb68e59cd5e796e7344a6cadc6bca206a4753b7edf29b1a1f46d48366876ba99bd444910fd5055841ae47860f3938a55f63928d885c0d1e7b71cc; P0 0xd27c92a24cad6786e0017e368ca554dec57a117d360b692ade351ab7d3319a137d86031641e0abbf4d540f0aa3bca0315e8b39edb961a4c5caf8f8ff8f0db4872 0xea30ef7431702f7f4a145be448486b98840cc63364bd02dd647ea9d0b398c3eaa405001089c63f7cc1d7fa5ba81e96dc618d4ca2fda4f1ae252644e8e34d790302; P0 0x6b1ebf8d8af6e4f96987ed52a129cf97dff6731f8d72ab10113814e96f39d54cc3b77d45fc973192837fea30792331e1060ec8c6afac0da875fcb8f64287833bef 0x11e38d8ad0f5ac7fd8ea54bc0dc1eb30026b460a62d1a9d12e9a4bd43bb51faec6bec91cc16d6aedd01b66645a04b1bc293ce6b010ad2811a75ff49f0d1937047f3; P0 0xa001886118b506bc7e60d74f5e574ac108bcf090d499822e83cd0d3d3f6e7fc9dea1fede5fbc7fa9f1b5006e4c6abb409b382a64889a6007046903c73d8fdb1d29 0x141f73b7f3767c1264ffc07541fbb1803e54047c7fb4350bf17c0e9ea1bdf91098ee62fac531d7e26d06129e925dc9b5ab5bcd1cb581a4e8c8624c105e3aab3cdd2; P0 0xca76f8fc73217fad523db7520c22f5d1dda9d5f5fed8e94865dbce81f27b051ea84712fcf022ae440632aafcce1b94205451971cb159ed6097fb451ba303a73b16 0x94185921180faea2bc97d3bf7d7c32d58b0b8df4a26c2ae4097494e0c475b0710ee1ac93a7b2fc97772d51d1eea9b159b8c9b63caeb4ab2c9294a59db364cd3b5a; P0 0x2ad614af8c8755ef8327040bdf7787ffbe8a540dde0b7c32e8718d2f67dc3da810acbdd9295a15d9465f38807570c07799146c41a42fe7e25341660b728308ea5c 0x15bbc6659c884d242208becee845feb52ed02e40d4ebcad6a9b7d74e3726c950c6a644375b36eff886dc07f7d204888a125cc09da61a7954983ace86a34eeef8600; P0 0xec2c240ef131202d7b28e996c7820292262c66bf63c17fb8a1ed865977cb8f38687ce6037e4c5de5d29ec4baa315c8e308e265ca54436e79c026693be874cfd8c9 0xdadea913df8f333708aba329c654fe7389cf87f017547e4aa3cebb85d2e5770f051130c5dd4c7c1999dbcac330f315a9f0f8b3fe2330106cc351b1e92beef3d8c9; P0 0x5d8ffccfc3716f264929354215fce610f6762e87e2d97611dfe7101d7b5379c3dc253b07f5fb018a901f14b4afadad6bd7aa15d56d552a5e79e159ec351fc2a70a 0x2017c5698fe3cceab94e0c83899a3b4a37bb7a564548dee2eef78a52aa0b0a5364a36f2a1767cc72e64309fb6a6b1b238ec6f9a3e7a507f592dedef11620ec74db; P1 0x608ed572fc2a9b82d70abcccff41ebc6a32bd8275502d0ea3e006fe34dafe8cf7fa7b88abdff8e9ebfb1f82986b0c72a8a6e74ef1543a4a3b9eb698ade296c039 0x168ec07bbbca98a9ab1003d4c001620e016fcb2f134045a6646bb02d173a49374170d0b886098c5bb2ae6542ce7251e50c8b5debef40ddb53a7c0dfc2751df45a44; P0 0xfe6c57af227e3e3487aab62f6ea9a579399581cfae3ca935d39b1a16fc32599678e03122cef3597180d241c4246cc4692e7290279fb19e0cb7d1719e79634b1e07 0x11221feac4773bbe0eb77bfc82183134e4d379f47e4389aa6a79e4a32776ee2f6881991d1fa2ac31f433adc257ab788e42bdf0d47fa99fa5785d1947650fcbf0017; P1 0x1b8532e82a614b99c7c79d92679139c3159f64447f1ddba92fcc11fcaf65843f6a69b5a8ad7173a4b6b369d7b150808bc993d0977550c8da852d37d3cb07a29b821 0xf8e8200ef4a1e57748ab3cb124ad4ef3a76f8e638e695ad9d57478b8242350328c4204ef2acfe8e2a649fb6f06c82c1ceef4f94f3d21eb6edadc3ec7dbb91fbe54; P0 0x7901484b8c8c680794ebb57ce523d126c3ede40770eda38021b135a66977fe4ed9081ced0ba3b65d8d066a37c8648c7a605cd19cab978a7c6bd918d044fff996ec 0x154f9f5e93d0e7c9972988a09386f6dc919b0640ff76f105c7f08aa084f19609ca205bb572afd5be7f0f79d7780b4459743ec1b64425006646205ddf1020dd2627c; P0 0xe31474a1eb0fc241f429442149e1765298d558188f2c15d9a34f8cdaa38a9887ce95af74396732cf581145de275914de83549c2946cee9029701d7791b2b93192f 0x1963def45b0b1df77bd2370732ba657171b46bf4357daeef92c40912b4a16e08d1f1299a637d66915c184924aa3667f1a62af4480d3f3b83ca8396585f17ce6453f; P1 0x3c6fcc2e36cf464b5b6207630a9ad425cd886a96431c7d3ddb1e6f6590fe2abca69c1a5cffed6d448d4fe426b125268e035df151c63568d88ee8118f46bfd09cc01 0x64630c9811eedaefe91f305f2c4d1610e8a3e38de218c9f61085703a9362a2ec8c7d525d2a86783af76e87a802738e49df0174bd95e10e815395901ee694d6dc84; P1 0x3b0c4c3e525ea0b2afa81de5ce1de5796248da8a9e8474507b973010508368c9f7acd8c011bc9884be011369d40c278c05cd50933b7ee01a3480ddea466147a573 0x1da3e5bc272298a0e720598a9d5220eaf017fdfdc191bce01283d22324e14d172597ee707f253861672b99f60af5e700e1ac5d1c774ac0d65f02342dbc0813111a3; P0 0x1b7457d7e50ea781b8fa03e59039547a6a44b28d4eb7f2883d0312d2761a38c200ea1203b4a98ad426148b2cee6da2de733a36aaa32aab543a4cb3a4d5ac6bced60 0x15f190e10605b80ddaa0463dd8d8f241e72a9d2cb90bec597b0fb930241fdb6b5be876675529cb64605930c2460c875000c8e3867092067e93074402108ce59fb29; P1 0x2d2489286fc4d4d3fcff8878cd7583139a86298cdd2a20729c46de171fa1f7286a32940a4024aa0ed8145c09f6edbc9742df3a22fc0bc332957712f149cd0b3c627 0x107dc1b300b6ca00347312d1eb81ff0b4e8c6bb64dfdcddcc9f547561b975ecc487f333484072f7ccddfec3da9c928311a4c1ad90c6defd97c9e2ceb1d08f760bda; P0 0x87fafe8dba77ff737a744ea8b5fcf11e11885b4464c2b3c61e6bae47421ddafcd0c8097cc11ca229111ebf7e4811d42a0e0251b86a2cab8c69aa83c3f826e42d2c 0x236c9373f222a84d978656aaa780a9424366416a53cbe623a6a56a8dcb76e9f0bbb24e77f708740b72208f23f608227282693a75191f5eb3f051f791e4a068a2d0; P0 0x2736f2f397c11ed3b2c38d504e0433ad54a4e4324e5cc479e20ea2a9ac57990c7bd556e2fcbce9ca3bb6a2937f270494922b9c288b7cce5de55a25c5c2cc9d2f8 0x3484f35b69e53a78d9e4ac83c79f49925c8661a1339cf65f776d5856edb6e1456df58089078c7aa5bae7bfe5518aafe270570b22b484196b4ca56f524dd55bbf8; P1 0x10296bdd80f17fbc8a62a90ce812add581725601d6dfaf15cb85e7c1f910207f4e2c2726ad541265345985c6426a591af816a0afa5ceb3fa3a3cb48aee59e53f 0x18e1b4ccbd06d4fe04c1172d19acd8a6ab1ebf6255d249ee4a4eeb158ed8c6c01e8963ac1d93cafc7865da0568ea1fe85f10fce654d129257d285e4c78c9476a5ff; P0 0x1358c72d9830dc0b8b228fc074777d17e6df84ad4251c866214e909284754d335a1a5438e4b2ce2ee412e75079c5b2994f970bd1a6e022ed6ce4c74e9656b4b9164 0xf5f499290bbdd5e5c004f2315a8c3f02fe5ede4bbc90801e100acefe553e413a49b2b58e9fae8743faa556498fe4dc8c5a39b6a5d98cbe17001e9e5139b6024565; P1 0x16275224b5386bddac2c6c1e742678ac08114414c22e7a8a5f969a44f15b236e47e833198d88d8b966faa95da6317aabb9bafe548cf031bf08016cbe81c892e889c 0xb58c5f5681a1d159837777771b35490bc49382a1c3d8649d2b2ee4713bb315a50b1c8cffa79e2efb92666f7e2662c51c758d9e57405548b2440fcc0b1cd6595627; P0 0x405fe5e45eb6f63b80c6264aa4fb683533de2de182bedd2c941a036a79eee8e24c218b0ff4fb1cb22df6dfd2f16359951022a02d6e5e4e81e9fc2df3e5b6d37dc7 0xe866dc8e3157175d4c6a351a98ade3c0bac707286ff1da78da647895bd506d121ce30273f0eeaeb4ccc4cb911f56141e36e16135b9ed1216c720c1a1a3eeefb7b8; P1 0x13c77e5a15522cf4c46b33072aabaf0508cc6a5344684f230dc0bd68c2938a7c6633e6d17efe4d75500b892873e8e9101cc3cdb4dee7fa9d765eefecae381770768 0x1fa4c8cc2f4316de489aa9c5311ba355a700deaee581311fb59dc45749d8438849ac13b7769bcfcf0cffa7f8826c27e9d3478302fc667010443f562c60b89b0c428; P0 0x1f4a959ab473d19a8e1f97b9fae0660a95af128d64eeb0d50bc084ab2690f6c1456c7bf101c0939cba5c27872c2cd7b56ac3eea535ad415bd33c48941e322e16167 0xbd5968fc901713716408379c4ff3dc20b6b58d7926aa01e0497407087033eec382f1e89d626174e81a8413ae1ec3f9f5b7b5dfdfa74a5467111d6a954402ea7a7; P0 0x4606921f8bb6387fd8700825933eb333b70e3f82a0b397da2a5cb508227c7953db7ad69efcd0c0c85bb62a5e256d7ef165f6241e5244f988db8d1b8844bd9cae 0x1a2a568a4772e194b77e4b4effa95b74643472055b12320213b96869b05afb4e010852660d58eaacbc331b9b0ef9f3067f207ea7654adcc27b31cd0fb74728ceb9f; P0 0x156504a4c91fd1b42b6f484cecf65245256dbbb2054fab4221a2322fd3f6a04dbc71f4923053df85197a5aa009b280eec25abc3ba28480de7e09de924b1eb09aa39 0x1a35536ee2298a64983d0c465f0716ec24e67676b4d003e34c5acd4e8d5c78d028970ae0c9f258338cb659089b9fe60444d52a576e6e198605ca14a463615cef6fa; P1 0x40650154390c1fcb7b9740a8a0b30dc8305d27d5a25436d7f6810736e41beaf3b857249dd662d61b2c68750e47e81267b9ee45be8e464b118e98e154103a628c608 0x4e0404f1e0763c63eef410fe1c221b30a22c5dd989df68e8a5e087145d2030335fd239f516eabd5a48e7724a9e37c5e1ffd88a638d6325ccf07062d0f1ec010a74; P1 0x23a9ac9d52a746104d1238d84887fe10f5041f5e8a5112582038dcfaadc0e0780c710a083ccc6cbe96d4618696adfb2829e5717898299b9541dff01cac71533dbe 0x6c64d7eabcda807ca68e7c69b68406c4f6e6cfd8deefc9abb20d66b617f5e551ec80874f99a991b23cce3aa7da36fec42308981735d8d3dbf60fec69b951530b6e; P1 0x44d7dcdb2f440b5b8ac064b68f2f3d017ac86c4c27b51256031dc4af783dff583501f2a3d8c30eb402f5b77d8c00531178246fd257a00cee5372ad4b85bcfd0bc9 0xbc253afc3c7f1790287b12358735a30e445183567d0e752039460bfa6d66681be9b8655c4e0dabd4fd9c4f39d8c05a9f5b907d57909c1f167da0d286fdce80f595; P1 0xcf6a0e12dd0920edef77fdebf62d901c22d98fcbd23619ed60798f85ff247517d265e0daf8ff84f95c93c52f997e106c41696428b577e18a045ae95b538d617dfd 0x32da96f1c7691a530c7978f8433a1e75ef11faeabac6b1e211a9ffe8d14386d99750964f2cbf3bd87808a9dc7da1ae6c3a0d238db2fb7e3a44bf8ed7073251828; P1 0xf272c69ce035afa40933acbd7abee6e6639993e399d8544ce225db964afbb8085b122ff92707f65eecc1cfee225daa0a3d4ae7cdf992d029c444b7706d4434e 0x8b1dd5f15884d3554ab5c87bb3e17af7625d778c4d6cf848a4dd8a5e61b5ea100f0b30c27535f79439db699bdbea8270a827a839ded8f3869c3db0efb2d05ad60e; P1 0x71661eb56266b2a0f93aa0064389fe97d26634c640d2bca26c23f70e0004b485571642f5e8853ca26fdbc8f5675ed2ba0f92031372c1949d08a9731e267ca7a09f 0x1e651dc4fa2d63cec4885d61775782ba81e1cf9ee26457713b9af339191054a85b995e3213be43a6aad779c0e9542e8b6407b416b00da7ea6c3b1edc0c45b21daeb; P1 0x569c8600149652d4eba186aab7321f678b8381c8632431c7a2c7b0b228d0214974a8762d84a2c9217f8b37254a981c281ba3412398e5c972ecdd7a60a94a9dd58de 0x448cbf07b94eb846b29d2dd4c52c10b234ad18867495f1739132e986bceaeb4843709db4f17ad015eee303a57c185f81853e2a8223cf3e06f81cfa7474633e9409; P1 0x1b889c4c66298a1d5971f3cbb17f2dd58af82c9332e382af2f65a75a52304060d1f97409d2691c0c5f3ba52d6ae1b15f72002490715268cd1995d50db1ac3eb73d 0x80078ec28f42ec508699e993867a548eb2752850b1be67efbfd40c09678a6f4f26a8637eff1614675a42d8b869f21ba7c75fbbaef1c0e25cb4a985f8aac21f030; P1 0x600b56798444c327b426e84c9278ebc16b1a499624fd6c141782404ee4dfe23043ead02f9fbe66cf72b6936a881bd1bbba69955c3fb4eb18a22eb45abc4e2b12 0x8972d1b0ad561bd4463176c26a365942e62ec6679c2d6f62fc39b7d94576f1a20edc543f32f7da06cfd02cfa5baf2a2a6325732bd442c0099136f74d5ba57c4612; P1 0x6eb223e5c9f3bf271215bb581ee8f8e1cf3bf8dddd5092e9cd0d8fce0098c709900bb53f5956ac88785855e657398d66464c24ebc1993574ac6541af4aae1d4a06 0x4e2d8d472b4e67fd180ccfdcde3a184864b999b7a8021be1ead552261e4335c485ee1220d2f34a7d959c8e618c596ebb243f5229c8757173084be3e9a427f6d5d2; P1 0x23cfaf4b8310b7a24f80437f848c169c72d879e26c0bd73ef3852c1e0de70e39a99d0c5c202d49119823f6d2013d7aff0875e591e374e703a5fd2233200e74813e 0x1e2761854c61c0ae7cadd1ddaa58a6e28e04fb3dc31286513b521340bbff5a4f91ff7b64b95421783ef11c29c3544c957ddb84ea03d7efc50265b8c47c0e901e20a; P1 0x553e15f267fb45a3425067f8796e9b9d9bdd5cfed6e11f870f63120f85115bd084d08cff0ce09fdf04ae0938a00ca2cf12e362491ac1f103199f6d438630b2dc293 0x16baaf72842efa0939da487aa401bda8e5b47ff066759c5791c9a26caff76afef832368ae825668b87a11155ca35145301d2dedb2f4dde88ca1227f51d04a2abbbf; P1 0x306ed70a60ce0c6b4ee0c2606a224a5936c6877fbc36792332e8e7eb4b3a42e9262a01e92022b107eb054f11bea4834e9ac14fa22af6306d68054858cc483e62585 0xe8f9b45ea20bb342ee2d736565efea9ac0f3ae131d8c3628d5c4d727a8cb11d14c130c7334532c85b4c579335c4983cfb8d1fa24878693b4050419cea34fbef08; P1 0x13e084fb9d75279cbd4b96d9c0b94b669e581c44f1378558c88fddb08b04143f568688a6dc788d4246b3a79f1dcc8341406feab3d08f36a442ff85c4601e638ef 0x1f3beac80b4496f258ed07fd23df95503651f1f2e714b654782531bd4175176d4a364fdda1c2221bcf02ad747a48a66e6c061c9d23ff1c2f2c92eb67f438c8609af; P1 0x5b75953c3632ea2e74a62a9ef97abdc9596ff4f5d4cac55fe177acdff7f1feed85b85c9894b816681e6d20d23bd2fad9812b9fdd996e7de591b24d339e839777154 0x1fbda4982f2d8c800dd1fa682d6c5bc850f07eb2dd5d06974be43563418772f1f9451ff1035524fb5ef0e2f64648a4fca4dddfc76e41560bf76aa05f706dc2cc237; P1 0x5e73785f4f10c4c54d6e53c3351a09be058c407b84431621fe27c23515716ae1a13b3e01003238887fe48ae3901e656d5075908ec337ecb7780ef1b1a8b07147fab 0x7532cd67cea501a6c232ebc5be25353d80920a5e60d5d542a9e08c170d59b53a0315a31321a8ec063f29de7ebb1cb753551713f3aae8e9a7d72041b12ca1d2b71e; P1 0x507b36c0a65e7284ea512b7043b5941ee84ddc78396b93666d933416928de6170a92601e43596139c8359368307f845bd485837f154cfaa91c41a5b382c8926026 0x114067c6115aee6690f56f2ae1d19b53936e607701fc210d8f5a2682195b3e3bf286b67a0bcfc5c569c86e76f5c1869c85207b062c26e91a149f12d25c0cd2e16b2; P1 0x1be6cfa891b9a824450621eafe2e92930a6cd85b112d15de748f9a625561950911b7aa0fc7dd142a896dadfac740d9e64bdfad2460e389c8f9efbc65e0ee69c6513 0xb68f954edfc1a6125ac6b248e91765dd7721b963e540ea18a356826ab5f6b41a553bf20877f126d0d8d316bdb70383197d9e4ca5c72105b0838bef64fea08da05f; P1 0xc348b53e710758dd3fb62b37e4950efa97849daaa3761ffa7ca21bf543e496eca60ec06756322f185aa2ecffe8d0ca45f46e877909a56ff74dd80f80bba7c4f2f4 0x1f4d50b39904d76e694963523e4df892e136bf756bb666dc6c55ec545d2727af3e93fcd205a01e1d261f5cacd8d5b58ef183b992371cbd4b8da9346e2ba0f1b9cb7; P1 0x5bdb957b6cef2150f32420347ca78cf714f1f4cd2b9ad5764b7351e488e5abf125cfa89f723ca42c09c4a4ed72d1492b2268474d505c80046e6467bf56d911db658 0x145730a6ef3d4bd4e693cc48e97f94e5c5f67e5002f60dcf745420e2590d34758a5ad93fddb075657cc6021fb9a4a6739e72adab454c3e736da01dd353932ba56cb; P1 0x26c9bf24822d11f655c41d32c2ace33d9f3357262d5b3aec989d490447e23286179790e2a9a53f783b57ef338ed396aa90f3b5bf5a12c881e34ead1ab06e962b9c3 0xe79c014d3bd22522175f7fef96627b7de74b75fed8fcddf816b4fc112b4daa8e6f6247ebf756945bb7b3fa104e0293a27190ba43f00629d1f99733bcd5829dc8ae; P1 0x13a505e207423c558319ef660a5e69fb4a9e98104a3782e78c9d6684e6dc93072eaa8236000dd41941b862e5ca6f2b04011d391af5c27e8a53f976b330322a5aa68 0x17a08a798c1edca63c5323df889602b4b38533f941a41294b57015868ef8fd243bdee70caf243dac26e0ed716ef6f0d115c5258f769a49874457439ad892daad34; P1 0x3455c56d705f2811195e169eb86b6602c8065310ed2874a424b45a5b167a055a94eee228fe915bf5920b7c3ceecb246a22ff84185707ed80a56dcb0c8069175d9 0x481397648b62de74448a2bd2d3f6bd06a405953e4b851fc7ad4eaf628372094e91107d9d9e18aa15cd89c93248f6022217ddd31c04885c3301373b1184bcf6d89; P1 0x1e7089fc914a1a975f0f0ae875615f272f426f46bf4f1f3ff47f4c09dd99f4469b06702b6d22a0979a4a29cd43f10ae67005c32ab6756c0e4e10c992bf45535a 0x12948326494fc3178654ff961a3573c1425e0e03383e9640324dcd49b4ade700b91eb4e7fd2fb06066778ae803dff00d40a367dc29f38414d73f3c0536488892d4d; P1 0x205d4e5eea6489f8aa4c8335bc952bfa2c4b3916c21f68e0b4c3a8fc9e184af6d00f1cef1dfac068fb59de5b4c978d129ed71f274aad657c623fb9243a1b9f99f8e 0x1963b7eedbc6052941600f917c46ff2563c930eaf7484e7f46ae0ec5ec95d865b47d9935d54c0080b09e31aca11c26848cf035add6a2a58b06162a5703b7441b09; P1 0x3c6f126a4bb07dacd627445e129940cf86bf7ac8bbf7fca63c96666696814125e4f073cef51cde36794873d27b995999149327fcfab7e007ea952225bd5bdbdf4 0x1adf2de9d3d428820177854cf919706bd7833eed646a369c3b396324e713f436ee60d382a0ef2378a04d8cbee243791b44284fc286bf4d5389835afb54d8ea670e7; P1 0x43b23d6c6f344d744c2899af8eac986f9fa28bc8126d213a20106297d82d26e408acd30ccfa6e85aba35d9e0e21b8fe1bcf56775f6283a70c3bb23804d9db6dc643 0xa37da3b4881c74a9410c7a8821cabf91f81f2074d1df5a2b28a976652ac43604f195f6a5b6231a5f3bfe5599244639cda93cb767ca4a7c93b92978ec207f8a9796; P1 0x9c9dda31c278d37c1499e047e94a3f488ef8c913d3d0c35e4713452a0c3493831d92fa7334ba870235767fcefec7b3255b7df0b77dccdb5c3af9c545d536d0cfbf 0x1e5e140120f7caf1714ed278e0cf9a1aeba08210cd7c568c9f91a5f9dff89f3827c1a00ee636f1bf5f4a9e7dc70a46954791d0931ece5551dea70ad0ea1093fb36b; P1 0x56746e4712db20a6ca2d2158e1ed4d7724c41728941e99d39954ccca1c0b0d0375b170a727eb67cd5e2c47f1306a2097f07d197fc4949d168d2949ed4c8e0353e98 0x145baed0f853469469c8d4aa956dbc21ff20ff810c0bcf3226650b540ee129cbb71bf4b2ddbce5127dc3f182d4289ce3d2a52d8ecd61406dfd7beb795f0d76faac3; P1 0x26dae399a1d6f918f48b839b71414d8a9ad461938b87b97dc8c29a21d67f59934c17ad3c1bb97b28c4ba526cf183fa14b304fb15f381133ec0d9fd4603f4f57f1a6 0x8e4791ed198c55504a59c3ac576d8926e44b6e38fc22319d76b6d955898ebd47460107f4cc7dd32307360dd516d8b3e98f75c7d4a59a196204e8e27ba825ca341; P1 0x769d36d7f38f73888512ad0446d538018957238f26abc89dd73977853873216538a697f5afd66a405e6698fc972c91721d1b754d7cc9a5358a448e02d8663f7c 0xa5c13bfedcfaae7993d6ce0fb083af98e3142e34f9f691bced5db16cb59d418119cd1daf5e3d9b5be07b91b8ef87d7e2edd68679c3cf04e38572d04d5a20e1c2ff; P1 0xa0fbfdcb13cdb5b7e4c2d665415836bd011c6614fc81b55867a42a65ee1f605d252bbeb6ff072e8437977467f6cfac7a59a944602a04d9dd2e47ffe29e2f85e2da 0x4de9390fda94fac2b8cffaf7b11c42512be55c77399f1c7925d9c2e5ba2e57c55b0544e9f60341b5bc175bd3904f10355dd43c49d53f49ea310deb0e0a79d650dd; P1 0x23913132af9a5b88ee158baefaa0dc50a2c7bb4f9fdd14a6bbb0a32536636243d386dd46368359fb4a0efcb17d68845f7dd0da1ba0c8349482cba6c3ea9965cac3 0x16e32847fd527fb0d2bc6779429672edb447f6a45b6a94a2e93461f5e7fcb4e14efe202e11e4e946cc25d9d9878c9c16a8e26ef8af64d114aa111991f4b387a671e; P1 0x311bebb4052027dad368b3a8040539df1999173474c793e71b3174c1af1af3d4a79a7d8f454a521175ada4147b8a9d2346189d61f81f58a4c9086395950efa2f52e 0x98e4ad1114685e2eebf0b52319b8638f028dd8a8e5b14f080e726aae0c3266e1bdf7aaac055fd67d078485b7932bfeea1a9cbab85dd3eea51f9b43bef7a6066bba; P1 0x88f886ad857c90b463cfc35e7c3d1dc24a80d63a83acc8f0058a1b5e702cbbf5feb40b22a6ecde089f088d2a16e243934a20948b1593ca3bdf0195229fa8bb460f 0x1c33909ff8d73cfae28c0a3a05edb5f5af7f4f3f661f554242703955c9a1b8872be3cc4e39b886a2b7ff8d40b2d35c32cb638af1c93fbf9747bdb9208fefee24f7b; P1 0x4a8fb08e7d0e2838f0def7df31e238c4c022cea70431fbd89da99ca53fec8efef3b92e2aca016f258fef436fcbd4bc343140dbb8d0ffcd1fdcde8cf81b031db618b 0x362635c1c3d2b54cb27d18847b87b4c335af18dc5cbce1bc9bf8abbe30ad73c52b42d5fecd3d64879f1ee81627e835de01f817af4d1cec1a87fb2d5345b766d0d6; P1 0x112e36929f233f2c69f558fd538b0d1ed1810a7042e4e4d47a17d760c3f26d0000755da0d1c4c02a57e13878272e99f403daddf4f790957f3b7a9d265ad2ed3bcd 0xdc51e5a28ac7b32ff0e7d7f8db1e2b34694c1ce186db5b95cc9a5a934bdaa464ed8f6b84d55cb53b011cad3daad19dcd7797cc2f37588dcb0dcd03a405ed9a9479; P1 0x11c6b4b53bc0ee2c2816d16d4bd60753904e9e3139bbde674d44fea589ffcd854773104e7fdec7d1821e0cfe82c9e945630f3cbba34eca017af572eeb22a11a17b8 0xa2df48e9ebd52e975d6ffc9013cb53f3a2bdd474bc357058fcb76251b9940d8c59276fc10dc5f4eee2476f5c72f28e91909cd71bc33f4d3a7cbe16260da62a7b4b; P1 0x9b6f088c402aa228b13954dbd8d3a98220443d0aff0e124f34c2af089c979b4a1f68967175ddbe6319304b8040a6b9f632523a68642427bddeb68e0fca69bf6897 0x15362f946c6a55059fbdb22551f444715be11821fa7f8eb844425c60f981753d0e343f88c6ccdb921295f41d17ee23a309f29d9c2a2868908f4ff8bc97a45b6e082; P1 0x2a2e6e9afde87010dfd2979586c1db0cedb063ee5bcf4b67b0530660a67e846f767c3a3cfe379b20be2e34285f5ba1b3fd757cf4570fcbc71dfb9a38a33f5158403 0x134ddae27c3de726300ddf1cedc9c39e4ceb26936f37a63fd47ab5fe90ef3d20ca553703850c92c9666deeb60a652cba04ddc2b74c91ec6847f2aaa30ea2a48ca0f; P1 0x22ef94088c1aa489f103b6febf6b67680f7e639ed4bb8c70140bc8142d3b162b5a4ef02dce298fde440d4b7624f95ac567e84ee8be18638ec1983437614c22d2699 0x131de075a4609a1a64ac2d7ff3824aca9c7591815ce334bf37479eda5c8b0ba28b2c2ed4ce27827d0b905ca964688c01092d7f385d05046d7d13a8065565df02d3c; P1 0x2242c3520c97fb952acfdf19587d47c258f53a3f47e7fc39845290258117303e219a65296e95c62388794e7fc02f613479436491567d4af4341185e3bf5d9ded270 0xbd3b7cfda30685b98cf3e708800350a2b54df07a0f152f734d8f0b9de99179f87fdbe86d7de211a176d7821fe992bd1f07b763fa20d8b146f6a6f6977d2b5944a0; P1 0xd1d156920afb33875adcb8f9215377fca474742e22ec376433d5f1fd7903fa6bc4fd259bb040c15adc1ce939d5d99996da65deeda1a25267fb59fe58d1904d84f8 0x184842bbafcb88b654336fa1308c7d8c7d53585a24b0d92e4701f5752783c4e4734f8dc8318e832ecb2ec85ec9e0f460b300bda9c242c9c832d86e8fa1d2d3db0f8; P1 0x374715d31e58a8d7f5cf992e4a5e8e756ef41356874d8fed9514bfd9ca403b5f8c9087220d35708d9470b0e0d4bbf4bc9c8279d2225d974061200558f0db9555624 0xdd8467749c9b57e7ec0ec108b51e54aa735c687ac195dd3cce1c1427e8c3c5521358ffeeba754fe573982cfc748839fbe60619c8b84270d9ee75ad34dcbae726e4; P1 0x11f84cea748af21aa9316560c2ead91299b0745b71b91046c0fb6106362a6ec56690d8b35d0430109007f3a3c3b53712cfd955b2fd7ef6bee9f43f19fdd029fcddb 0x660dd1a5d74197ca04ba3c7692a51d68e25016b64f1275bf1768f126fe2eaaecbf57df125153002e26ac069f81e3cbfc4425ecaa63a75f6713350e272c92c13f0b; P1 0x3d0685b6ad1881ca07847a7ddb55c4705990248c88840079ed456521c7ca3c33d514136c109ca2756c25cd2ba2f4d3a0d806fe202f2d7daf840fb161c41bc96354 0x1cb8991ca3656a9264a94a5308f4b232ea2cfa379db1d946d1302962a2b51c47b9707812f00706e24406deb15dbad29cb555ced01dec122598f60996c761a1ea2bf; P0 0x19c734d5c3e27ce4c292aec88a13d73a60c9b4b9d51b1306cc8a79519507820e066da982a60ff27e56b68968e8cb70ccdd5c2ff6ab1fbc78998ad0b0947a010f24a 0x32276e1456dd5cae0da2fe4b7bb4b1514882fb1ea18074b853a91d10ad304d1d8bd5c3bd925aed8f1447d6117823352a8b1304e3169c382e65927614f84b3ccb; P1 0xebd239c0131a1df391a0962e3d43e40c7538ce27e499955845f30576f36a6665d7c3f48b2f4d42d7de8220f2eb4280dcb8e303f5de2506ae3f17394fc18a5 0x1f8f1d93e33d778ba90ab7d89f54f0701c7d65ba3a9ff5d1817ea7ecb5811852a25a5b88ca18501cfbaae872a053ece794f46aa2809f9679c604563704d8d217390; P0 0x1f1fc95efd5cc45082d38fa245cbf3f5f133daf152d477d597462f343b68fb9549240346c53ff196f720aeca845bc592c0f587a0f75ca2de9edfca5ca7e92342aba 0x8d08c26b483e91b1e8d820295addc2650891c75936d5512493452ad2712fc1658b7d0231bc50c54d7daab70e32393b5e7d6552a3614f391477112cca317edbba; P1 0x748bf9b25be8524914aefab61d3d59b579f8e5aee9aefbc79cc93b7ffbd551ceb225604cedffbc9d706cb64bcb01070cb5dc42ec519e113086199984366dee 0x1bc04c1c52977ee26c427b5446e04ea6968157a64ec8ac7882a96053d041248f7f569dbbf2437b506fab9124ed1e7b2ae0102dad48a29d504c2c4879b203745b75a; P1 0x48330c057cd0245506403b9dcbaecc1132e02cbfb3c602921d83f530dc81edae7b24aedc0aa23f251c177a1c0a587350a615953930ed1e14777f7f00c5600568750 0x19b8486a91189e12cc89f0ef2bd91e9819b858cacff677b48f4a0bc2594bbc0b54ede201fd5e35b3e29bb3ce61ecc0d45210160da2567329e8066df9b2511d7ea3c; P0 0x14ac1667f01c01e9d41abb3ac7ba8bbf4b5a51ab2ac57da76173bafc75ad517de1503c6fa126381e522813c03f8999ef22aa944b2de2599c0c19d24861f7797ae1a 0xf4c4cb3fd48456f42b048bf143f626017218299cdd103efb83136170685fae27f14790c31fa9a52d79179fcf3dd78798152ce729137ce91a8d20f946aeb6b16c2a; P0 0x7503dd5cc41bfdad61ac034762dfd312e33576b7bac943d073f75ad0b87315b39286357e2674373108ad37582035a71b292101b15fc71c71c0220fca634d58e555 0x174dfe9ebb7df44b2eff122dcc3e0bff5d1c353d8346fcfb417fb50215c87a0a6087055befca9c37c84e2e99235ead85a9c9c004152e609e358ee7a8c3dc5205c39; P1 0x32ea94585a32f3691da26757991e9efb2e3033a9b6eafd0679b6a8b59003cd85dd9fc571fad539db8572935f7d6934e7dd5094bd04470b002a400e613b89367ad42 0x1f4aee3b83d33585b58b9ab3badcc0289ef58cd232c1e233069dfd40f0d444fa1eed5cfbc3104c6271e3b63d794a6a547c09d00123a5cce80b272216b4b4fd2bb55; P0 0x1e99dd081040a020902f2332b47e1f53633a5f5c928d6c0d711d23967bd7cc1243e8e2d204407222d9c662a887ba83af7e300f5c5a9a4e572d226282f81f25ed3f6 0x33ff3ad2e23eb49f607985d8ca7a4b17f7def4bd13a3e445bb331e2af8b384e6ad56a04c6bd74d737089c64a306bdd6dee3404d671df8d43142d08be6648e81e2f; P1 0xfd787d965abe9af91ece955a257989258d2c9dec017a65dc875dcddfdc2e63edcef3a847aef4b0098b84f1f686430b7f2ea949d04ab7abc1d3e42770cb2e238a7 0x13e2ad2d281163c1b16b8f82716954f581271f542f1e8d3b067d15d62f0343e301383f15cf0006bee2750b7abb43ce164c1130c7e77f9e722c4a8ae15bc2d1f5e8a; P1 0x25125a0633d15723f4e48302372c8f40a1a09c2565100e982d394c5e080d5960659219734ff511f05f3343c76463ffeeb413205afc2b2bd71a279b0f8e743bc4329 0x194cf7d9d6b1b426b49a38298bc7c518866974dfc9db5ac38ca6d1985ff8d0437c6a326b50fc63623489128d405ef3ca97c7c18e753c7ee78ebbf159634e8bd2a55; P0 0x1400fc6529e222d8e9a849a4704b6203191bd783e4b93e85121800d4753983ff5f03dbd5a17032058cfe854e7713aeebfe00f92ea8abba958e226703924ce856e33 0x14a01a5090afde59f5b9f692bf83b54e52815cda3ab6c65575a6db8cb17b4058b023e91748dd92b02934f503a6edcea7aeccddd327d2acb40d0fc6e702e67076e6c; P1 0x27e1c5c3d0733fbb38dac202e58cc873f4404cc2ba5b5590d4d12814c5567bb830282df0f991c5e2ff511071f58925c4a64de52fb8c1ca9c5fed32383f5701b5fec 0xd18751dec142a2fe408bc2dbeddc26df7fe8f88768be90c2912647dcd10dbbb22bd82ccc99242081f2d660123471ef7bd2de7de0430ffd7f8473d7019bd4b6589c; P0 0x55bf1d9a9556ad457d14b43f691f20da73a3f9b4a7b605590a16d7d0c71c92c724d238293eb3ca76b6ee42353b6ddcc87cd04b942058971cf5b3b7d3db9c28ff65 0x20caf702f727c6eb338a06cdcfd753a36dedc8b5b0f571f7ecd930c065ee43cfb93c929b65a29b778abbf0ee245ace709ec9d3ea5bc1c2fa3f63fedd6818a49e75; P1 0x64d0e013b36103467b9e5072196b803035c60696341db04546a4136227a631332b0ee4a26337209126df9518178d966c70e6e62e4cf96c51beb10c194788f3068 0xc9018cfc3704f4fc926655ecf8ab144867f442cb5264084c5947d66ad06a267996cc7a8f70a29c4c7cf54649f48474f52548c2e8bd5471a4297ab6db78808514d3; P0 0x4ee9b7b33b0185b428b3c53c0584f70b5706484af751249b8bbf6a208e0321cb7be5d3b7ed8800d150316dfb8673990dc7fecd33931b2c06f6fcec6fa35039d80c 0x15bf3857af13b0a63570f0f796d46d70ac6d3b30e792dc458da112b6b0b24bc3840e69a313be7549deee227031764489076e028ab5748be043c23da5174f5297df5; P1 0x2c5651d42f26f7ce9c679294a04fc383ce7e9f35a2e3e737b22e12b9ab1471095311118c15e24ba06175ba4cd3cfddd0c91deea5eddd78e5bf317b2cba0b7b9ed8f 0x164618662e0e9c30ca5cc3d4528e9841605f57eb7bc96833d6f2d586a0ee2f301942f862cac3bfff9f7ae86a654a60ea8c57244a895452cc787afc5b12a511372fa; P1 0x2e82f145f2e8661ea043743d772bbe9793485f0cc0b6f515873a2a633525f5a4865489570dca63caf7918aa23e0891976deedd5f896255e5bac0879324c4a7b94fd 0x1ddb199273205ab5a2b85ce9ed8626d744809b57ab3cc42addca886350faa000fe14f7678a8748fac2d6b20f8f4866ade539b8c7e5042b8e96515eb6d19b4ba6969; P0 0x1bdafa7f89a1e1618039983c91d7e3270e3285ffc671a4f2d5a431cbc2d44e4c5bf50dd02736ea1c24a86a9f18a8ba02b8d5eb4f7e9f42c2a77ac23d508b1bf13c5 0xd185f322f2414ced4cbd27d6f6262130db0666301f09fa3d23e4a4193c406b9a8b564ff473bb0bf98b9aacc4d09f2d97a334337987416bc355f6ac8183b1ba60d6; P1 0x10139fba0652e8e33eac1929d01c890ad3d6f67fa47042eb1fe51ad6816d575d8a85d9360f666a2b57abc0aa67be336c2417efe85a38f04736927a8e5004dafdebe 0x1e12a9c9114fadc38ef754dccfe9a6b38ad261e18c82761fe8ce9eaa85f638f88977157f693ddcf0aba693b4888ad4c8d35fecb51c477bc6dfcff86fed6a47b776a; P1 0x54c91bb29684c107d15389821c3ab93670612e63c7636a7144727d0c3be2889ceaabb4a77b6ee30e7a7716b2188702a7d1b995848359e2c9da24c8510c6a3768cae 0x16dee9aae30ecd1c618c80350d2ac42d08e048ca504deace30f2c2707cc34a938d238c54cb754cc857baf7b3f3c78898bd75d954ec677b9163a149e4e11fa25b45a; P1 0x3109b6535094a77dc99fe614c0a01a4e4e2cd86ad3bee7d797c066865bca5f6934ed5a8e2bdb79dbcf08327ea1275d71edc8925cc4b91679f751bf3da8ab083740c 0xc3d9d3de8c1049942b4f271e17951eb23bb60fc9492db0c264a662f6da609e580fc70dce4360d91e70b488d02050e10e309e2dce23df24130d9f3f3bceebbb82f8; P1 0xe0c05b2cdc045015ce038780a39da4a7ff9aa37d2ebf218f42246a2780a3b5630a9be3184892aaac2fdd73283a4a838b42c9ab68407fa38ff936fb83cfb695f60b 0xf58285689105681ee4929006a185be737a6b6457ffd8cb7c01c396c1e7eeb716eed02e42e4aeb75400ce2963cd3a214bf0c9205a2d1843d832c4d02c93728866cb; P1 0x1612ca0d8ddf42e45f86abec9ccad08dde1457490e145e59e1c9e4f97dda42c787c2ee24f6a1353503c33cbe33f9d94cc33f27ba6b9f15faec8a2989f6635a19d80 0x124ab1ad89891b6a53cdcb6968410f13e219e280cbd1410c7f8843fed15b5d38acffbf127892a957b54d79084ed0673a6471cefd213089bd2b925e56b7abc84cc6b; P1 0x1f5e22b687a556a5b8c42eba1307f44bfdbd519848d0e922002034039228bb39f27042eca513520ff67e71c789bbb0c6de1581e45991f90b37597b4980d401398d1 0x1159da7a03fc95f6faed5c61ea076d9e6d057603704ffee3061c2f754b4570441f7298f7c2eb389a61742f66c000a378650368c2c0da5ce26bb3cd563630ccbb6fc; P1 0x1c395d4c3bb87bb96e832350d104b34fc8097afa356e3aad45fa3b49b92931beb768187472e6b5d83bc66e7138800f109e286bd007309aaffe0f06d24f00a0ad7c9 0x22d2de449f7a576830276d2e6d4de21ebb7e0b98a753b2cdca7796060b067f7e8edb2a330719e058ade2395c7bf1fd196a99382f4f74650d502fa3a3720d64aff9; P1 0x71b091975e3d8628f7eb76466b6169ef8a7c54aa23ef4a271c593d19b176785e20d00f58f14ffb9884dcead91ac04d986435a1c713de9a4319b36e3de2bff96ae 0x78f340454271249a44d89aae7ba856e303fdfc2bcfe9883c751faacfa58c6d58c96ab21b16d43decab21056b4a5dee38d61c0d5e06d546d92c9dde7795e47ab741; P1 0x55b76d1602dd5d9a5aecc007494d1f586cfc71c75f31459a89eb3bbdf3e245091216bb3e628e7556a74469f0e83339d26bfd4719cdc5bfa662b7515512892420b4 0x1da40b90ce41e90e73a4b53ec6b7abca55791659c9abb74cf5887bbbf56f33f931bb4636d391e0315a3a01209f723312c0da4915bd172faac6eeed07cd688a1c37; P1 0x525dd9c712d7253589c958132ebf0e88bcc647d68e77bb00523def8edd112a52e2b690c7eaa7f608876509469c135f06be1957d7492b5665c1c04949899a56fe7 0xb19ef381ad1bf96f927938d1a755e4232fb17799ef87e7b48108eb7cec22db6a579c8a7f1cd74da2b82ad7c730b571b0c558028a1ad9752fbc11ccaf27f4ddab5a; P1 0xb8dbc720339ab4aacf95ac5abd255b953558faacde78b11861eda5aa0a5d3e5e9f8fb975d9cd0cf32b34997b0d70f5065163002c60198252f35da59d340f617e08 0xc3f084a1ede85894b5a947c9928746a7ce99ef8d1daa1331351355a4eab15a99496f8c87a33c7788a45658719408bdb038aa00d11b9fec86af42094d36a3a190f4; P1 0xe0f4720b7728258c0767f5102702646b4c92647243616e054f1b62506e90c3035d36a915ea67c2ed88a6b0558be45e13fb57a9c10e1f461ddcf3d7188ea9c9d019 0xe1fa1293e37c8f1421b05bea65cc1db0b7d5e89d1a9f8a8c7a8ef1da944d60df9d19f021ddf4f844c483f2fd04ef56d46c77b48fc3d153253cdd285309c0bc09c9; P1 0x12b364d68601b965018c8a1567e238e26eac1ae2019c16509f181f234b1916c5245bab813b880c5ef1382eee754a6915abbe65fd729af64586ad30e2c9b9a816010 0x179633a798058c536389627d7811f49499ba2a74252cab018fca0bb1ad2ce2655ab24be0b7740d9b5aa987260dd87924906617d6b8a15910e164381096539489f83; P0 0x1162ab45811ad00aa841cf42fbc6270f6d148533d9314b4657bca396ea73bf7a236e44e9466e1eec41994f54b80e0e3a4d9abd1d406c2b8d2c93d28855e049e13f8 0x2cbd6069827d752474f2807f81f27dbc1a5ffdeb6d2a20c1326e3a50cb73ba9422387b35ad99d56963f4cfae3c3afda2d83875995231649609ec85045e77b21101; P1 0xbba77d9a76fa84cd7f9b3780355ab1dcb6b0ba264e96a7288252dccab5919f1fd44442ddd9009c66e488e978f5fea6c197427848fd086de9b17225cb93f1648cf 0x14ee8fff4b50546e8a7c4206cf39dd61f204956dbe414b259641d8ad6916c5a81fc85eb91c600b22edff1994941380563fdc9f2699938f947bcae0b01ecfca5aed2; P0 0xdb1267f9b9e5a490d8637c1836cb1c429f014cb876afc142f0f087de1ae9d48bc417a984021d4eaace3303026b8239c9d353525f39b1d52cff11ee8ad5538e9128 0x1949ac0bd98f69cfff22f394f5defeaab25adb83a0ba78d5f2f3f64b0fb14334b3122b9903146e455812c6be019c1efe10d22e8d055f27d12ada6291d6d95a4b56c; P1 0x3bf3534d450050726c90cec5be72b94ee1f51c4ae7e00e70bc658a29ca9be5423de49773e6bf17bf38f3fe7e1a23a25d184e039a59ee715719ee7916811fe915e0e 0x15280086c870df4f44d55340b10ee437260cdc943cfb4c58a1bb101eab359233489e599c27a0fe302506e1b72f6a1c50d419883c816e3874415b1dbb973ff670ebe; P1 0x29f61816a82264edbc043fe0e71838a494dd3eb439ca07cba9ac51cf5c02df910a6626839ca69c76c1933728d38e39d8af8842c1c7b44b87264ea7b8b7daa330ee5 0x1ff44a1df545e8d962a365c41ff88541442ef29656a847b8949d623331323aafefe2fb1117914eae8dc3fa05788c43aeb3d88099e3668118d2203d4862bcf6b0df1; P0 0x1fe89884ffbe87b35dd7596de9e1d96c353d90fded5fc142450b11fee4c7609e964b817cda12498bb89f5d72b5eaea68a5514b5f676ea571f29b3368660b3cc2f38 0x73922b6f311560bc6e05bf91b6f0c1bd24e3bd485f40eb93612ce9922fa7c539bf1fb0ea88c939d82ad5c3f16d0aa4540450ae6d611fe23d73d8fbcea71a048c19; P0 0x1a16533dbc25de0a351c84ecf4bf14fddf0c00f191c4f0c9b1a4ea6e609c090b459397263483c1cf96625fc7a13c03f5289dfe70a6c717c365a1314ec3ccf85a95 0x178d584ba56dd7537c094ee4f81cc9051b9c6e07af39d3413d8afe0e69c2e3dbf651b0b6c0cf7a5fddfc49218d552305cf248b2207e9a7b9822d0433feb8e6bb506; P1 0x3400ddbf64317a91752f7fab8e5a0a4bdae798aa66d5f2af317ca977afb648b52ceadb0bb5dc63a903e955510ea8521bef38fe97f731458ab2df09a225fd9265ad7 0x253c33b9831af6bad1fb063651acc7d3ce03899f4be8c12b41ab7a37a8f44d234db5bb4b29f3763cdd76cc58a3a9fdf6f6437c10bdb0725e1cd83f07d64a36cf43; P0 0x2b53a8df4a758509358513f2e7ffe856fdebcb8d9c881927f2ba83afb12e2c1c10b9be1169fbb97320541859a23f91c8a5f5c997a568b146480140a483b8e5634 0x111f3691b2a06daad26f7b8f433719905f0053bfb728063f358df5234c98ae68f4f11651145fd4af7d60773faa8ca2f9b8c9835fa54035c0f36bb89f3db0f9fc1bd; P1 0x1b7bd946af6898c25f0561bc6c67c9f48652008c131c9743afc22ec3f390725c00fc3c8c2c8dd922d26f24d014af83b7299b0a970603a379b5bcf8078ed21a54b3a 0xd8e7a59dd87efa8e8d7c6fca037a8e740c0648737b7505e996b19dbe07c042999e774e4ef2376d45e3e65fb758549267dd2d13571a08c86bfd50a1a43a45d2dbd5; P1 0x113ab95a20103c18f84c2655e1f3aeb089d799e812a5c790ecf3aa311f165e59cadeb53b10ebb6bff1b4b4bf05a7a24ec4f833c8b6c2d49a18ad8fbe0dd33764e3c 0x1f221caa40b874eb1ebf3540419cf644a0bc9abfcfd64d254e63c3c77e709a48a74b4dc4261ecf53cb332fa6d544e07a1e41599e3989a384e975f7976f3dc24abe7; P0 0x1e4a3be6e0dc6592f68f8061aa7f92977d550b0722b529b1ff212ceeb4ca926b655b4dc95daf60cf7020cd15206e5117bec6fdef9b6c9b9e21ef49c6bd112504cba 0x4b52de0a21d51b2ca41a975b5f741a2534bcafa087cbecbdbd9fda0260bc3d14a4c3f2b5399102d9d5cfa7765ee5439f5d7d5382a29dfc7a1e6060c510e6b6b72b; P1 0x213e7d6366592c48bf815658c5cbca16d71c9b7ec48d63587803bb30a66224762b0484f4125fa11ef7064a336b055461081a7a634757620232747cf9ca1914b223 0x8f73b4d5c7116dec3fb6a3c392be608d715e226057c95249906bcabc19af246deb766b4031c89e69efdc7e51b8992bed081b1ee86d47cd0443eb40ae88c1ac35ce; P0 0x28313c296619d27608e843edc7bfc0ecc53cf8cf3b79aa2b8724891c3b63605e74633abd6c44f74b79418f70a42dce90437472f43c698dccf4b91156322cf13365 0xbf1a6a5623f06321fef576aa89d5e5203dd7f7f0dead033f757c04ad52b903f01a7bedfdce785d812d5e950cd64710681cf6d94bb86a3d980046b3a60b21102529; P1 0xd5fca41976f12d402700a79db607e7b5a5155bc184729bcb93927351e1f3fa8de223b4abe288ac71e2093c07ce842601d40910d11f9b8482eccd9632951cf90d27 0x1f26f420688a4a3291d54cad7c4ccb3e4b0df651aea8670a84bc248e3125cb15fea6417259eff36a39f31c9dbd121559471a6b261bf3c8b13b65b24caf2d287aeda; P0 0x1e53a869ddf2934188446c280ce97738f07994b17d8724f5f901dbd12aa809874349269394a36598898150f3f1396c0436242c376c5611d28474efa357b50f5e797 0x838d794a65d9252eebd9c45af874285fa84fb2a19c48c3ea60118bef2d14ee4b5d7551342e70ad02e9155600578f2511ac802797754595e9484de3b46ada4ef93b; P1 0x65672479767bc2baef6861ac099286718e48fd13a46a6c1d67b88090cd634cf78e67c456b97835590dac3fe76ed2d846e29b48e679cbaea127c95816cd992114e2 0xa7980bfdadc6ca20992c1b829570d50d1ffdd4a968f1ed707d2ea9143e7ade55fc3a0158cf0551ddf03d8c5934396431cb9a9b82cc6ff0b373f561f7e184e88fad; P1 0xa49396ecd1cb4021df350e2065f06c48c113a78a56ca1a8a6ef7a73a0499f5b699539b976feb2b69d7f862788efb254f8f102c9451f383d8546bd8ad28e8cc84e9 0xac80f03716599c12a1f6871d173551c031f47053550cd2962c296d62cfd8c5714828eab7b5b88402d3b57b348110c95c4aaa4580b46c2d53c3764dcfc44f64b5a4; P0 0x3a1ec1dd8f430c8bdeae60fb90be944944c4d73d608351aad828f3a8f88e4b1a59cda32ae2a0e8b41c2e07bbe7d7db1491790ed03b9e81dcee0a7ed038241afe6b 0x11982f852c9224a3c003d741913ae547da4afa7d7d2aadfbf50fa3080508e9afcb5df3e3bbb926461630f208a5a3c9092fa22aac541b94695bd07bb7b11c51c4f7b; P1 0x1d0592c3a53c3156487eebd074f3c735acd0697f593d30c4deadd22b9e0dcc19e1d9bad80a70125a423dddf03e4162d2059bbc815536c66b9dba56fc472a77fc701 0x1885adbda647ea09acb3e9297082c701b8c3a6e446fcd288be3bebe7df4ca9ad6ae031263db90439e3b3c37dda75d49894e5cbdccef24e11fc31a3bc5d3043f364c; P1 0x3860192523932c2b469c21e9c5ac7135636dfbbf90d85c72924a07434cffa8635bb0ad77cf9f21c54ae3626d8d8d775bf661435736b9ae0fbb2c4c46e18a2c63491 0x1f93e729eef703330e9c6f76a39246ea1d37aff123b281496979458147ef199a2a933ab7fedf4170626d333649354c679021be6ba36550016f6075ff5db118aa841; P1 0x5d7bb272c2771de5a33147ec54a96040a70d6f21dfb521a1f9df5d7ee8ab163654e6f3eaad5efebfe148ed4f7cecde6145bb28a22ae7dbd85b2d76989c3069f76c8 0x1d9ee06ecf209681b6e50980d4e2175d0c1707366cb6f281c28635dae508b65d91bfd64e8c9f5f15798ff436c9d634f91fce9864e7fbcee0feb619785bc6a9b984b; P1 0x524122c5cb2bd2447cb90eefb1c037a39d460d561b5df0055066c87dac6c3bbd92de650b84d2ed92a6ca990f563208468c8f33a20a832b32018eaf20cca40960c14 0x1c63a9877e57b4fe1e4a8a4f82c6cd6c067a0b7c919c03a9ea8f0467c19da0fca454742a648c9f6e73def37037bf5521ddf04422b33865d4669ade08b51e4d77dff; P1 0x4b8edd34c0c9dedce7de43218c0b05336f519cc09e6276549184bffe920e1258a3aa239415e157bc6c0b7c17477b3dbed4d6db51c7445ebca7cea512c32093be5ef 0x15ae2756b265d548ae5b4415f842dfc6427c2c1922a7b18fbf277b1899965a0dd358e1a8a0a9b9500891013a9d88f5520e07f634568d80d7e5a3654c5c5523af1f2; P1 0x2c10d6495c01eb4d8b1ce7242411e3de03c2b07ae37e142dd17824293b848990431bc19cbbb6e85a79c5a4202610c8fe1d3d85af6a4efa8a80e580ee3300d5aed81 0xa1ebc0a9496de2277b21a5a3b9fa318db9e5710aae2929698203ce224a0bc268d165a6218f3c5deffd0c21a85cba4b84139aaf08e8312202bc1900cc40b84f87cd; P1 0x999f9228513b166e951a13a0f28c4d1fff29cad4338b2b3e8d94e9118695d2eb488a5d4bd8c3d2acffdd1eb3d784c9e608a61f98d87e57f60d6174d8198ee06ebd 0x1ae289efe4350ab0c8d9f85802806a294755c0e84895e9ace0d52c146329285e8f7978077d22eab48dfaedc435faeb7a525fe83265dd1642d39c623f75ce88ffd38; P1 0x43c32bad85a824f2f44e797832a2c8a078bccb04bc3a48ca53b5f6772360dd43fbe235dcb75c3b2cfb7f8a71742242c5ad2913f92a5092d5f9a52a0381e919b554c 0x1d5b0bbaa166e9abbc0264b98b9f18e372d1a94ea449b8b4293ad0f6982470cb5ef68533e656d722b661db5fca8aedc4ea2da853109405af1196ac04cb5aeb28a0c; P1 0x50ca18e6fae730d381caf462772c39cbeb611cf06312a38dea194f3863449fe8c6cb2a91eb6e05961b63aea91308767878c1f29c8554c0b23651a260819df986d69 0xd7f82ed12bf2c7ddabeb008912096ea437737871926f1b55e0331ce36f2c6b3ab61b8adb119c5c7d1a53096b191611752e3d8f99b02642a2cfa516978798fb3f19; P1 0x1114c36dd207a2d346d10ee001400ec2c9991395c2079ac6c47855fdd2f30ca25c60382efd0727109044afac9afbe158bb6b19c921638f6cea30823e97e79ecd606 0x13070830b0e103d1763139bb0ef8750cb157e8471dff4f86925985f37ed324b896bf6a4f6f743c887b7904f8299648f3adc0a634cbdcec0145d898dfd1fe9a6c759; P1 0x21f111d03c53ac841beb15710ed982932cd29ec7c421632e809e8e23f48258f2d79b72c66c84906b7b05508dfdba7dc720973425ce7e2ceb5865e557d6effd8e019 0x2b14f498d76bb02ee61402fab6c63acf0d5cf4884f166412d572374503bfda719bd51dd97f103836b76165c8322da770465337223d04d2e22d21751cae6dcf56ec; P1 0xae011d3b6ed51dda06f06755f669d526d7f0b42d67a4d038f0ebbc370c9013a2e69896b9ada420523110f9cea97d0413a410523216a98de070324df9a2328c547 0x1b0a2f162b8a49109d0e0c9f33abbca661ba1067d56455158485a50fb81333ef843e7862b05b0f356b9c75f376b5f5e0dd9cc4dc3b60623f3565634e1e218ab01f7; P1 0x448b981955d942f40a4754abbde1e5f540e9cf0f5b617fb75d13d9b269de27a62d591827eaf658b1292605ea20d318e187999bebf5e8ce4dd507f34ebac16a5fac4 0xab9f603706e83a57b9104a5e7f6a8a84e844369ccb5d994de6f27a86db84b89f701e6951e9b5d8dbc52472e31c98d1915d4507fbd1ea97f6b13d8965cde69f8fb7; P1 0xac9574a3419d3521b4e5533768063dbd494b0ca19ae2ef380812015fe5f36a820547e2e73e4478b123963da68f2418a1ef302a90b75f3c1012f4c894a4393a7ff3 0x1e698eb3a544cea16707874489ffdd92aa744fbe8627d25c71b32160e4607e784cf78d05f3363cbc549415135c24d4e4c3d3e1628a50fba59cb448394f8373a5e66; P0 0x1ce747c3cd2be241959085ef83f7b5a0668259cb798246794c257944dc30f53f6b699a83d131691b8938b4fdbb3a6cd7c6ffc9436bf6447a5961ab258610f8537ec 0x1018acabb5a07a695e208aade74403f88e0838be3633699ab339f2e1a0fd75473d9ae3f8065c2c90ae73a6a741d354e57b9d49be0f05ac3bfc3713d4fdfcc8c4890; P1 0x184a3f1710bf2efdde4bc922f06a14c2faa77db48d58d6e2e363512f8e6125ae3cdd8269b503882c25c9d0e3d25258a6263e0e867d85641c77c4f1c028721e76e6d 0x11bc271cbc4f5cb07906582365c673df3a136f619cedca4d9e7fcc0227658a8ad0f25dd3fe8391b0475746b5a1805a184eec66dc824c2cfae072ad984b5f81b616d; P0 0x9d43bda49871bcbeb1a69f0bfd9dd0127494ea6ceb87a103fcc3b4b3fba7754c8d86b20526e07615bc83e66484575c8a29df8c5edaed52f58aafea8a454dc58d77 0x12918d5d6a168673649fc938d2ee25d5e7fc238632bfa272c8d2dd6cb94487109ffe09d977aea059123af7f6322e1f8190f7c15890a703c3918a259c6182fd755e0; P1 0x2052ff3df34120f65f4e0f80257c74982c781fbc3358988316af058d275786566cbebc37e37ff05395edfe4707e3a8e9943e8edb3bccfeaf7c7dcf8174b366821bb 0x1da82aef6f527c21b709026c8378c00bd0341e0cb32646026130327c2c18ba3cbaaa2400bae4c82e20d9b059d5ed3a5651a5700949400ba2fe1ccae39480793adbb; P1 0x5274c4bf1055b48034f9f693783b111625427e7f2030cd516c63fa6f61107bb178fd218f81b4de18114f3a0540a981c6aefaf77bfdda72c42267c66241248574d1d 0x6cf0deb8b4f968b8d570ad2fde1015207a3cab1a1a38de1632647d51a9ee02f8ed4a3ab5087bda6d10673e625f7436f7bb7329e015c8f2dc1b26fb5bb5e65020e8; P0 0x172e0f471a655192c35f07c4150122c4b3ea1c6a3d7b84facaee50e9602d302945828405da4347d651e331607567655bc0543a2ee990053c74082cbf809007c664 0x14c80dccc2c3c36335e2ce95c7e3086a8275c8067c11030870a5de20612297855063bcbfa8d3ca3c50cd05e8257023d6136319fca218c072b45e3044bc6054298a4; P0 0xd7ef3ec78eabfbd4ba330b5bd4321eb30e5fe0c9f128b084f6093a4af0afc227e066516b868c5cc1e0274089a12667ccffd2ffa555b21c3b5d72a807fae06c7bf0 0x50c8158c6833db429b9983fe0c60e45cb1a6e55dc7a363b705a2636d92037867dddcfbd906a7c349bb6a1d5ae6367235270070ed2c423380ce3857e8f457ffa500; P1 0x263c7ec6257d58404da4fc1868828df7ab39c14fbb34ba038ab02726139847abc10b71d67950abee8fb9fbbba987e9cea8a2d1449a83de1a93d3875d204e9c1249 0x11cae8ae58a4cd597875073338d53b90bbec4280d690cf121ae61d18aaf4fab07a972f355e7d2259f1c895852ed06ad0d54ddab8f72bcd5108fef6e3970afa71249; P0 0x9e49dd97331f60a30e556ea457ec11e7bcd00a180ff11ad37ea1b54967e30740af6985485c074ae32381c16fb277f290dc495b8854f116da7c0626d5fab5a65b15 0x703b03b955bc15c79857aa05fe18da29a73a05dee12ad94831f416a3e6cb80f46855564a40d0f978c71aefcb147e84c6c613de4ec78734af949bbd2fe36032b3e6; P1 0x49cd894b53bff0e82d8c48d095ef99dbae67137528b7fb3fd7d164f4b82e9fe49f0817e139c82e4d4032532522253c54a7f4ab464af88d538c96e9667e7cfea6ad 0x111148f54aa5951baff1d3cc197a64fbbe822245c73d5033b1393eff1455f6b89bd6c94bedb23c6bd033199823fe5ea97f2dd2118b4da26dd521c1c131049c8fe99; P1 0x1b4f34905ed3338e06de945622288f5582cc99517ae00215ccd3308f67316b3f4d326e120c88140b6e961ecd49430e33c77f396c8ac9adafe2840bed5147a459e6d 0x14c99b36f8e6bfc0e3f56e86875bdbda62b3f60b3723db9d146d49975009448e5c7bce7bac96bc18d990863d3fde3c397b1608b11393383612729b32d7aa51184c0; P0 0xd80f82d8a942c2500856cd65d77cf4f4b19c66a36d90e6c65b251e42f5ae76303795dec721142ff426905ce114cb600fe7d6bc729573809f94d8023906fff88f1d 0x2071dd20390325cf97bd9b1d6277c9a3719312a7eb261c8ed8762e05cfe272158e8038a2cb42f7ea2482e59ed05f15d59ec1cea9574c675de3e44fd659664f1f1d; P1 0x62afee3858da71585f37464e7b210dadf13c92fd3eebe88f32b81e04115442f96fa7383b3526c329a6889a35a3d65ab6bfa51410c57d099a19df2642be9c7e114 0x6d4cbc20af3cc2cf76edd3e28535a8fcd7374a499080a43950334fe2584e4b444c06222f8a7360c92cc0c179470a5c2de42dc9ab5d9942577bed662e67e4d1fcef; P0 0x1755379a0970e7c2eddd5779a4583acc64282f0b1e751e4a43759b271b48d729490b50119186e293eda278fa6f4ae9d213974215ff001a53f3a9b6c7f3169300c0 0x1f0f7474e734c5922e5bbc47feefb12428c7521b580705cdd19a35ff2e2b08e7471f0ecce14c60cf5377c2f76eceb0c0d2521ffb25315ea79ab2290eb0dc6b867e1; P1 0x5a71eb4c0020a6c17112e67fa34beb96f01ba9204bc97098b588e149bc18cd109ec795898026745373fecdca42668c2dce6899e3c93383bb848184f80a20b7adf5a 0x1422b2a7ef8d0064d69a5d9d2948ddc7776b24f6cf1d19f41c4ba9f485af522c75c348c361b7e330438ec8d5060df391605c3352aefe230a5ed02c9b9c0a83f5a9d; P0 0xcab84f175bd0672d7e3902e5c7e98319ea27a4d98a77cfbf371ade40b8b2879111167a35cb3b205998a1f127d84c1955831e8fec33b4c48eee0d51a086a3f8488f 0x1c4ca067951bbe0ed709079de9d6dbba584d95a94b1666e084683573a95cad2379893d64087b9fc07e4b344e44a8f1aaf7ec5e3a28e4db1ecaf2a6daca26d510cd8; P1 0x4b147096ff05d8424e4ab03755ee5bf88eaf994ba78b17666d63218a5f0aff581cf01c96cad1abaa4f55850401e7ca02fef3b1e46cf47bda412620bc4ebcd933e28 0x3de5d26f7094078cc51307b5b2df8a242cd405532e91d60a1742ca9d37716e9f532820605fd48f4e9bd87983ff1d5f5ebd77bbeada55161d902969a4d7019220e8; P1 0x1672fee8e6017676690a81fb9d574695fe2f33dd63d189b7ad520574acef6ddd619f6630d255e106d8913e7e94c0d367c214d8dcf7102d02121dab2a2b16e353be 0xf1b7cd87579bb650c426db0e1cfcf78c609adc29875b95e2e0a3cf4238e122aaf1e390d03740750237cbcb15d632cbe565cb6ecb255a669612a178223d2d73ca7e; P1 0x156595f68772eb39f6e7aa7ee0e4c5f14d509b3f7d3df81ca1a43d1cf6c85f4b1c7db6ebbc691dee4659a271694fc57f7e49da469989ca43fa7a106d352d544b8cb 0x1fc015393f730a09766bac74f5eda37a430a6d91d7c034681712ff0cd8754c0a8da1c016bcb9f0f07c27991986f2add5c8f0908e6bbede854a4f08478266161fad7; P0 0x1f80aa1da7fbd19c4bcc6c70b3647d9e51c47a5cb4faaddd5dbfd0d40884096d58c40e230813bf2830b38cd4f318478db3c1aba024cf78cae7b8e417a489844f63d 0x19d8298bbd7449ff8e27bb3cd2243c182bd8dee40b287e903b1da711cf8f90f21b8ab497aba68fa6f252998a16eea60f6ec0a747f58dbf34e5e4544e7b392fb96ce]);
     (0xf3bc7def1, 0x1e5be0afc4fa36bc186c73de3ab924e6572d2b239887cf028af290befab2b168e7333f78a80f66525d5bd1534c8fab6b002c5ce2ac2279c1dc0f356dc199ff98c42, [P1 0x0 0x3; P0 0x0 0x9; P0 0x0 0x51; P0 0x0 0x19a1; P0 0x0 0x290d741; P1 0x0 0x13bfefa65abb83; P1 0x0 0x492286e8421c84a2bd0d05def1b; P0 0x0 0x14e4b598927dcb25caa92140309ae823ca89313c2c64e378f16cd9; P0 0x0 0x1b488b3cf79b1e3ed73d1703310d13bfbcb64e11356c8ab8f2bf45235d324ff336abdb4023a03162b9746052bb174ebca8f8ed9cff1; P1 0x45c92e43761e48e93b09c25a12bdfcf148e690f0fb0efbec258bca69bdba8d2cecf11e486035ff23a5f 0x78dd79bba97f0edc491f367e27a259df34fef5e37a4059791bd9d985c148f18a7345eec313d5b394357d0c23f773fb15bd89081734621be56980e583c2025f1d02; P1 0x5598929902330ca6052cb1e8ec15253468cc2a0e47061e17fe408912769bfc598194cb9f8c342120161309c9980e7b61f4d35eb8eeea753ed3fbebe2e19ad935ca 0x17ace510e4e31b973709cbc6f3f04e48de1d518871952ae7f6b91b92aae645360a6ebac469d8345b064a16081accc2a5fa4a8359af12f51d3a27c40cb59532991d6; P1 0x348c8e47731681cf33888a7e93a0752c5762a5b3fc0adb7a29c545cb423547e12e7af0247fc9ba03c3575f666406bd877c3237bbdcd76633d094786d20b8c66bcae 0x1a85366e9a2d604143df52e21c2f84acea4e23faa584254feaa11b25ab372dedd06cd7433acc881bd190b93cad359283c60c3de4bbe7f32aee8a252461f547195a; P0 0x15faa3008e821c3a30761ba0c2c8f26ba84da388e1d453454e825c7aa908838a9da5bb5bc9602a62f5dfbe3c8addd8912c8cab60133d32f2e860d54923156b512 0x71d6feefd63de05f838dceab52da620865e03ecbe3cb246b6a8687ffbe19ee1a13c814d5852ee2ae968289c3b4908e7c557adfdf744b211ae0ac15050b87c568b6; P0 0x194fc0cf78feceadfaf28f81184a1e75ad7b1e2fa1cff0e26bb13a13ebdda531bb55ee4353c04f7a255d8e3f824f27a903e77da76a0e54af6d5374dbeae5a781c4 0x947bd4b5e70f19c34e5a6d85a74af5fadc840b6ace68343d1a8828c381a6209f4c64c38e250eee5e05f82c044c8e7ff318afe7b8dcb66be4d7ba60c4392c97e328; P0 0x2b0fb4ec3559a31f116c016e6c01e289a7127bdc56a611cb058f0e7a485ae6a9f7a22c59d0aafa3c8da8337cbedc633aa6387bc33d7a13a108f558fe5b2b6f8d94 0x1ed68be3d3d142a0b0f665ee6db4cc3e1d84dfc5113871102ac42ac0a2fcdc859cbbd30ba16ea6fdbdc4e9f5d0ae43db4de1d371f2087582f46ea95f65eae2f83d4; P0 0x1db7e4bc97e301fd06d71ef39b6ec498f1db34e8a9a6f5686efd92671e7cfc9205b7dd7410c361dafd3b0328e62448ca684505b93af12f9cc4d2f77a5aa4b10180a 0x16aaccd829ddf60dff5bd6028f52f83dccc15952c086ab5053b2fb5e8eb54d250dd02742cbd252804386ba4de9b3f941b11797fbc5dcedd7653e704856026cabf9a; P1 0x302b3bec74c7780700df5ebc8d0925ebce304cbd5888d49406dabe176789fa847444d9b3a9e4ef3ea661f36f8331ab1f7546a413d9deb64a5608adcdc4e399d67a2 0xc66a7a17e30ed40af4c2291f23ede1dc9aeaa3eec9ef4633ff718fa3ce0ab31f8d4633be22359c031c001bc943a6b762d5cd3a1d35f6dfc091a060772c2ceae18e; P0 0x4ce47093249edf76a1eb7047492c061d6860b0ac872cb35ae86d3a6788d1785ecc1191d10bcc7eb7bc9f618baf46f242ba91469b9f9b70efc4e5f99dee45be32df 0xac386cfe1ee295dfd7deeceaba14e0eabfdfe9c7a613ff33316c7a00df11902dba6d219f95c4e6eb248d63d1a6d31c3aa4bc5d3d97dfed61d66cabfc834111da3; P1 0xadc9ce5802a0144243bb3ed76eda107400fb488a56fb8624728bc029365d8cb8584a698147a1075343bb4cfdbfaef942375f36e458026633d640b50ab096d817 0x88240009c6540ea20c4ba5ca960ddce41e23af6ed0e50642e35613b5a169edec5bfc11c7ebbf17f5c822c4fcc7a1716617877f360bcffa91a8a0a02ea831d3d972; P1 0x6c9967a79835a357c14c7e9685e4b34b990682f405b1df59ea98e11fa7325b9df480033ff72ebec4f7dbd4f1b30cb8754f69af6d364ad46c9ab5923aeda28768a0 0x1fd3f0d43908e5e38f6fb3485738c8616cd66ad3e166277c4b412d771822e83466bef891ba8f651b351d3407a642b4965cfb9b8b21b6905f49256c1ad770e62ccec; P1 0x5ef85af694f2ad2e683d61bdb1a95cdadeef85b8028a83e57f05e36cc2c0276858c7e561e6130bc5b1852bde6c864872f22f865f369d6839dd5318095ccb1434983 0x9100c49578fd52f50b9589a1dc640f134ef707467e88edd533a328e7e560589dc583a9bcc2c2ae5b8337516f563c6392bf63e18b85e24f0fcb91e9e5a6bb6e3633; P1 0x7b32ce0adf0648c555537e04f0db985296b68a92f02350cc67c3ebcd9cb4d58e91ff6424154658ea339ec4bddbd2321d7581989bea4655300096da0b9c5e9b1bbb 0x1dd2971534ec0b839cba391b92ed81baa6aace4186668f3343de912fe667812f0e93d5d1cd118204ab9a83ecf7ec581fd81c5402ac76db63c743ebb3bebc283c636; P0 0x1bcb1bb82f92a0772579ba204a5fa4ad7fba65b419e4fd9e9de44f18e232b981bf01165df09b2c194463b6947009867c3ae3f5f1bffe3f08ad2d7516abeed78befe 0x608f774f49a3132634ad9a7a567fbace9b47923806cf40d0e896a6d634890753c82aa95a32a6942686eac74c72bc642cd8c047d0e88bba0110014c32213a345262; P0 0x1235f4f0fcb4b0c817e96694b63825b5dd1b442afa692384c01da520a771916c16dac999cf37dc20a1aaa70d004b452cf3f2be4ae5efbe4b218e1b5c4afa34d110 0x1f5c1073dda602476fe418341a0235a894a90fbb771f018333c34a28c9795e3293c9ef6937589cf6d008fbb691d8a6b43e6d93877b1d1555223bb32a194f487be94; P1 0x5c323a3d6064e06ddad0757065469e3ce36ae9a3bb0c13e8bbecd1a6ec5764f6ecbb50954f63ffba0d8c08fdaaafe298f6ec3cc9b361e2fdcd092a348064e110532 0x1eb764b8190870e96baf1fd75ab658e41217672a3d12257239064d7e4fe114e4091744039783543fdd2d723b5485d6e11b7a801eb839ee6394bbccbf33457f915e2; P0 0x1d7bf7e26590e3d5ce028eb39983a18f07f6d178454203f1c2bdf6422f9f1a79689549269330623f8b1ea9723a42b312af8efa0a83dfe78b679f74572d079a5c430 0x97f7043092d5535b70201ed03edf5c4db190220e39b630cac817a03250d0c9d0d00b2b480232528fe9cc0e19f0c980e4fdae2d83a93d87f3c956a8a1dba9289fb4; P1 0x874fffef9486d4b02b4f97746f54c8e34d5141a7e8d9061c681d58ca290b6a038fdb719103680a3ba280e66ed14d71b8ecaa66cd389adbd84d2bccb2b130c3e86e 0x15116c00539f880ff24ecf55c36422789806ff348c8a717234c938640bf5af70493b48d7192dd0dabbabbe9c6a0f7930766189c14c2ca3561e0ad05a0830c672c1e; P0 0xddee73c9a9c708b2feb3495ed0e44d05139fdbefd9bb299d1bfaf5039e42fb2e8810215305ec65e88e2b530fedc41d97e85051ffdabddabd17a18351a2a5c76606 0xfabd3662142937ed0d658bfad83feee669e45e9334d60939322d7766c776b3824134cef9a285181153a906b043665928536868517706c8add69005ce0dfd85b98a; P0 0x7acb0d0873dfe6163376b3eddbe585f964e41957198e8037fd522a3f801f5930dee2e65a74bdf48e9959554eab88eefc32ad716b07c087ceb5dbb58646b6a7e3a5 0x144b39f86a924720ea81d1d81b472e54cf72507d9ffc778da02e050e4a76a2ba3afc47b9872897c5f8a52ee263f30c67bbd704592f4281b62294c5a0cdfca84a209; P1 0x269c2bec000cc01ec126f51090d44f21c1d62a3d971c7f68c31df8cc377a0f605d2bb7520a7cde3407a948eb3a6e555639ad0eddec792b1f97df1f64bc6212036c3 0x178db2f320daad4e956f57fae0d9f734222baa78c79e587110339878a73ecc91382e449c85ff2d0b8da7fd7698dbcebda83e856f84196c106666c5c74193ca663b6; P1 0x34026e17338baedc5ac775db0839ace27ea53cd4c04036a9ed5b835b017a0a7185149963d98abde8e51faff4a6384cda8ffeff77179b6da50c49fd53e8719b0cc18 0xf33155348020b6b38d9e7f0eaba23b0166400f81e059ad7bec245720a1e1ee640cccccae23c151999149e5d3a6be9e56de8e320ad7d1cedf6363f5bbd36e4b9c44; P1 0x15a8a09e5188c96d5417ff1a184ab1d0ec689f8f6fe56660322538c98332f92f02591e158649197d02689a33504e333efb07161c284ff8e00893e82c57477640bec 0x75ff2e174b4ae9561b5867ca286b56fcbd43331462ca1b6461e3dd809c8a961fefc1fe960438d0966268a64af96ad83c23a6bed63165747a56b856c79a9514e21c; P0 0x1b319f3f12c36cd98bff917735acb36ef56d576bd2340a207c6ff62f1c70ad860b8edc16de9c6dddeaa4b9c202ae4d3eac2e05a648e9b6f8fc1a9429558a2bfceb 0x1869d3f7203be8e2206b85f9134f2cb3f2a0b35721ef5a9da5000a7975c3d739abd0ef0769f6f01139d6f1ccfb5eb7dba340e9ee8a4ea6d73fa70dd0bee3e416ffb; P1 0x37e053cd96777c21db2e70a2ab1620786fcb49eeab64d59d9ede378217bab1ff7fbc427d34ef89c1b15099ffa1adc33157ecf2c16f67bb571dbdcb3ada958abdf72 0x1d9e541907d4330cc180be93174c883f0d48f62bcaf4c2b353aa1f7a392a521b7986f7c90a7c546beffd34f92640f129a13bbc5c8ba7b4b5ca9141c50ac4000bfbd; P0 0x1b6a07ccb26168ad862d4211178bb5f772dc51f7b4606472be3e4d8d094ee79c5ecf7d9b6d58f7fb20f809952d393b544a3379aa31af7a5edd6b62b0ab75f7a7c67 0xfa23a92a1fabd67ed0994e3d61b32ed77048aa5137d835a137ded8f87b00b4b0c7e9d2421c763d8b439acba76842d20a814e8b8b98a24b2766b85b308e6f160df0; P1 0x16e9e810cf2bd63016f660593a84c326ae2503857439cfb6149b1db383d8a481a809cb0b266270ee66db8c58c3d83c38413536af4ca717265478745d56041d15ef6 0x7cecd128d88a3a42b2e83ecce1fc414b817c42ea4ee18dba5f79a786c0d899669360f86a625ab1b6d5d159e03329d8cd2ade17665ed5424ae356d69e15d3d821f6; P1 0x5b71688acff54f132cab446f364d6c44305cb4c0bda551afd34e8473a2b79e020a8229a21e33cd49f33d34c554d40f5155ceec944d80575690610825e03c500f27 0x47bd698633b8f3ec4f939d355f830335522b3f90f0a7f8659370aebfd8db0e515d3bead054d4d73586964b9d8e530852ae9499c81a1501b3ec3eedd052c3341853; P1 0x1e27eb0422847cc3bad9b2f5bfa69c3d1e564bbcf01c423351b0a17c1f07793030d229bdcea25eb3e7d943532de4ab6eea4276eeac6fc4ee90cfb1c429c8c45c58 0x9c3bd3ab80d5f4df9bf9481de0c794525491c4764542435c4d1f3881517dc20b171f9c8b86294a1246f88bb81c4aa0f0321dacb2a48ddd764365f85aa6cadb5d13; P0 0x2fac7bfa228b272ababf0d29faf7256516b844885c14db21719ae61f09e01d5faeae212fb8634dec282dfdd86a0f80d00477c7c7e4e2a2041addea9945cbc98e8e 0xe5835a95cc7ce6a5747326b4f2264cfe22152b35d58fa8e741fa8c86ee77d879dc10bec51841840eff3da64c5f33230380896c764a4b6413d0236794c428225df7; P1 0x134a66530bfce9bdb55dcf829b40506e38ff16bb72e704d5128b1d6d495e75fa77a1d01fa8efbcbeb4d4379fb6822d277e1fa38e31c03981c84cc4f6f1fab748cdc 0x69e63d2733971da4b9ab6126658909682c926f86051bfc92802d26367c0a92f2b27a97564e8f254da0d1f2d823e246e881d71a7d1f6fb170cfe74623b683c0b9cf; P0 0x15e7569e0caf2f38956ea6a9f644677ddffeb62bef06326fb7fd7381a7036d6b605925913eaab133b78e93813d60148c21e1d38ade0f7ebc89932d6b8f0806779f 0x1055949c39376e6cde55c2a301db8fee1c3954bce8a5b0cf7939bd8bd22bac4207f48f01f60cd56cf0fbc9d414e624b92084c411ebf248fa02b0f0707241f634d00; P0 0x856797c694f70d680e471b6fbbeabfdfa02faf1fd41077630c3e648a39d801447763391a84aae2584b010b48d5d7d68789d7d0bff4acc1d307dce020dd702259b1 0xcd1aa451daae5bc4ad12b99a6e81909e86fb6e88eeadec6166bc4dc874c301d59188d883c8403aebdff04de13dc58dfad4076404f2fe380a4c58dcfc08154b59b1; P0 0x5229d6f8712a525f91ed50283182ec79a7b7f6874a85c0d6e667d07296ee02d95dd4651fa0dd83e3d0d888e134e8f10f61931b5c9c1142e06e81de7f2cae60ca6e 0x556260de1ee79d11407b25af6846bd9e5bbe0b81b02bcc4ba71d4b30a0d4f64e9670744859846bdb3bb9be03d4d33444c6643040b0c71a46e009260521658356cf; P0 0xe3d3d10e79e67c484a1ccfa34008feb057166feba033b4c8868821331640220fab73d90f951aff36f625c20264c97ed6d7c09029cd17f23c4a200b3ee18c9d165 0x1feea05f135d68e67b770786207b08057e3c48e65766f96603e8370164a56fb26f6cf1740c943c105213b36a4cff9fedc24c5ed9ed79e03f36f6af6112d64138cc6; P1 0x5f97de869e76ae8838f0748bcaa536977e8244259a916e9b4b10c7d3e22eb824c3278ef2bcfd0637e4f0a8cf1da3932ac453a934ce3298a83febdd3078ae722875e 0x99abd8cacbfb19018a240124715d13c5766d4cdaa95cab00c87f67635e039f3b1239e68bbd9c50504788459007a46c0eca96109d95cbdd2b93177e3ac98f8a02ca; P1 0x8a5e4abc9d803d504641bf6e8038ef4ac6dabbeafb3fb24c15c1e3a141e5abfdb242da5ce2d200dc66d888b81672a4da1f01a2233cbdcda3d9f2abd0c23189a927 0x1a24b44406e6b2399f2c00076c3e2c7073d1daa1990485b4a1a8593c981f7bdbaac645e04cbf22ca8f4e598bb569b88d4d7fb2cbe4c4f82f816d499f8ec3af8ff53; P0 0x155bcf081bc446ef4f48589b148e40710d830a2fbb9f45beb64b22feafc8aee3c136ae2380e7daaf25ee747d5e9ffba6187d512f4e2278b8c2949b698ee70361d16 0x10ab402c2ee4367545c7a0bb95a586096ff63e39539a539cd5ac9c72eef093c8f8b65ad2e43bd4cd7b668ec7c31d39ee6f9241330620169af2f2a49efd7bbac91ff; P0 0x8aed4a287ca560d5d42b7f95ecafd99ede3bf188742d899b39135700ed2b5a3b154eb9ff23cfa386e005507b89b8ff7121ec5e46c2cc18e0898308a5570064b8ed 0x152df24adb2f43027b52b451d4179b338aba1517a917c54d237a17078c2425fddc08f82125176eeee0630f0a121620f5c71c992568cd9914cb7708393480c4f94ee; P0 0xe048ffadcc35f26264205032df3cc1f6fb7bba66525c4d4870aefa424f434b03e0d954f5609395f261bf7c575f4bb7df186b1b1e9eaec42541ff27e8f44ae48511 0x1a270177a3ffe85aa8a3731268fc071f8569bd629bf014aa39b10ac2fbc7eeccdaf62fa1e511443bd87b4c008a69cd2dde81f2d8460d5d26fb2fd209187dc6c9255; P1 0x401eb5c9fa9278ba200c8b8891047242406733729e893f6c694253eeffdc80e5a43528b6ca00f1fed45526441439cbd306ab1f422138c0ee372f30f1149c2c9552e 0x178cc124dd5781f6439386e59066cef4d8c11cae085dfe1c93f53ed2d6960b78b0437f04863abbce94e89c5b055ed32d5d4d70803d7e1312c985b034ce56ce085d9; P1 0x33fe424aab8a22c0328be9388efe02af992f96985ccd0dc29580711cdc57cb1d7f20b5af5eaf9f49d0ea3514b54f1098e323aadf3bed35e1486a10269d5ee3501e1 0x1b8f464ea8f6743a6131ef23c137de68f8f67e9cfc8e58a780ff8daeb2d23a67c6bb05e208fbca104a94af6c7761b0b6fe569ed4ca64a1c499cb2a7f610bb6697b4; P0 0x17bc4821b69ee362b7e2262b9391c027003b0e17f7e97278e37daaf44993c962492647897382d5e396bfef9fb5f97f923ae1e2f5025962c80af82762e5c85a946b6 0x12db13182b23d006d126d5f2ac986129b581dabe9153ff0d3d6ab82c9953a587b1c02aafff453186b1da8b99a645de7c1e2204eab61f80d6020e0de1f9abaff1d46; P0 0xb1c514896bb89b27f82fdffed71705584a34898db08ef54c21f1da93c6807e6d3d7e67a9ed7c4b85550ff05a0123c5d640d60569675dff441fbe0b3debbd8ce400 0x6a55e80aa041ea2dc40eed0d604087a7c689addace3cac5b81b870cada9ff26c4f2c32904c8e09a83043be9f0b5b61565d47e3ce0ba858b22050111ee8ca59d324; P1 0x4240e17b112466e9b00264453deb0dc899eb1bd3138cb32e9e1efb6e9ce76166a1895c8af53eb7de22200b15d19a6c18189948f66e8b4df6f397a8a4011ef33fea 0x20ebadc18e9aa01c3382fab037a4376221f8f75aa53174737f516a9a7f0ab6ad40bdede42abb003fa2fcebe1e5b6423c15d330b6821d21b6f688b7a9ed0678571a; P1 0x659a69d486a777d7a742073f670de2549daa639d57058d50a9b76cb09b2e6075acde70ef1e629e92d04d1127f78f142b137fa0789415acf57d8b44443d08b0d97 0x10d0299c4db3c9b6ab1f54aac9e573f8788a5222eaa6dc21e5544f03dd80c7b21f126d3e126fa76555ec56b187a77dce063e9f8e22b9675a907e82aa8a4ca931983; P1 0x1a805b2c5b444897f4efad0ac1abef8c1b4dee7ca96641bd4d17e755252839a3f7ff120c36096dbc1ccfbd0e3b9a9534067b70fac2d70d0438fa01f2a5e10d21890 0x1452d7f4e71e7dfd9149de0e05be33c94d30cbf7806276d25ffd00527a0876942f2f943d3fd26a8e7fc355fb8f09922bdfd08965b03323ab472c7d6744131c8a3ab; P1 0x26b92d3fcc5269267531da348f6d01d8e4ed11bdd877da2d513eae582da044a210be1742a0d2a8379779450ff0c53208cdc39ec84e4b4d58ab6cc5b67f7c2f1e9a0 0x18a56ae75c25bf3d039c7431c5d36c84af8dd9abc2081893efd53c474e21a8c27b9709d950b30d739f6d41d92b1957a30e00aac86d8d3692e73b1b4ea30906b864b; P0 0x12fb7772e1422f5527e65caf175949a33f9396f48a627c225100b53e7abbec3b80b6f799dc38c958cb44ae0e008ee8f548e43109cb6c7e9e2f07a06bd86a9ba96ab 0x1f4d83317442c4d479b42f70e975fdc5cf8a4de2956179cb8dc3f0e055e27f75a87c96856390c07bd98de9df828e7d8c0872bd8fe144a8a167614cb59e492df30a4; P1 0x5bdcbdd3db5a38fdda4595a47c63ccfc950d0c4813edaa03c77686a276c0486b6f5f6acfe217acc9539ecec04477b69f6b8f708de1bb85548d6bbbc9ec756610ecc 0x98896c5ea9311083356bf5fadccdb71ca8dc99ac5b04cf6fee823b5f85ca214aaf138a3020f56ceb6ca2e9d707ee44abc7934dcbd4f629f5b86cf0a559db42c9fc; P0 0x2d71bd3aca0dadf0c8d4042507ae4a172b5c3c2e2b871770a8a8f80b70aa562c186ff2ec06326925da22f81b6a516df4fb42e84f92b8f186b90e4043a9c4ebf5e8 0xd96ad9c577ba92ff206b23898f2b1e68bb6db22628ba074c1d685c9ced0ca8fda7e1abf59a835549717f043ede1bf183b64c68b51b0690a4ceaf5ae3e3b239a5f8; P1 0x114f97aaec0a2b9830fe155d5ed92687845347db19759948cea55e53f5d1305e46fac16716352c945cb7e1ea3dcfe63bfa4f3010a53b9f243f5660e6c4f0a2c62a9 0x1ac64203f31b63455bf16857562e46ee3114dd592eea6fbdb257bce67e6b2f9b72cbde6b1ca86c0f9eb5820a5dec5f1674122b76713d11e03720d218517a6494369; P1 0x4334e6c7ac57bea0dfc88914e9ae614cdf3fa294e5b0bf733d73e543ee4a773fea6af7192561e37813693a6a5622d423a32021482ddc24de8024fbdebabb3ea2694 0x187ae0dd1886d76d5575eecb7e50ddd341b87041b4727fd06845a10f86167e4f8b7dde80a25ae7889d259c8c5fb7b8164ee97e655f0e52914a8b89cd970c2d089c7; P1 0x382e7b6d3447c2dbc969d62a35f8f502665fed1166452e31e598908e4fdeeb0a734df6ad4e17d1bf5f640f1deaa1552b6006f9c2d8b0a9bb9ce304208ce5d494798 0x5092742e43867fce5b14f9bc366f00ad044baa0e5ad0a5ab281b1e3f76662dd6ff5f0e9099473e5537c04ac32c57e93c16d8baa81dce0631d1dcbffd43b9dd11ab; P0 0xcadee32d1d9856c7d22cf23250940b2460172b2ec6e08021d3e4cd41a3e1e98a81ffdec818ae414dce8770735b936b2441ddac6304370e247a29e55a4443f6f2a 0xc542d79aca44f694332db9d518617f5faa1b511b319b50128383b535125156e5000687ee44a812bf3247a0ef281d88a3252ab3b6beb4416f05ad5cd596ecb59763; P0 0x4bfff8a40e59e6338612a1c7fbc752ad0f28150017e5ca8675c964cee481ad24842de297279978dd27d59e791899f668708fbd2e9ce5984377a8f31575351b2a25 0x1e2a89752d607a85ddc1b1547137be2179bc345fbe07d006b334d66a7073435d3684964559ccbe4b3aab4551004a578ff3dc0c00e2de8da1756b3b28b67289f1a6e; P1 0x554feed485630dd05e6bd64c2227149463561eb311471022376e86d3a6b7029fa355fd99b55e2072f3c4dbd10dab0e277e7c5903fea6e7dd0937d8d325883d082d0 0x111e34aebc2f61439295b025850faf564e2a11b2e2f1cced007d3c31205bbef0d77311e77383763af9b4d355c93bb3a5f69de6efecc7bfae5fab3fbad5129ec189c; P0 0x928347cc64ecdeafc7c3c13948f54f8b1276be9f560ce90f3443eb298fcaee38a585d7bc88d8dc60efae770324554495aad113ad1869b2800ea0c06991a08efd68 0x5b0701a91752126345f4e47499e0f0b243a08b1c670e340421f24189e58e5b954b5bd0aec9a4e64c1340e1fb69e2993360a33ad9d17aa8d485b2304de8fa8c9c78; P1 0x308cf90ef4c1922508b03f90ef92b6439f8c8f3f8bb8478fb5fc154b8c5bce6d8db2316832716bb7262ebc16a82bd3f992077de74348e89059bfe428ea0f31115b 0x1699ce8a0d34fc21427a3b4612f500b453a948042de1ff553c73dec3ffeef127356e0dee79ac9c49142091deed85582a5cc76b95daa0faaf99d657c51ebb7d87a1b; P0 0xff65f420f5ae2f4d611fdb07632ef44f8892d8f9f11aba41ae75ae85e1484e2baee578564a02ca637a244f94dbf0e0b12c904be14ea2d299b03f2375d4881e4575 0x540bd2f1b13b3171f970e4a4702bbd9503b93bc264b2150be1420434bd8fe76acf171a93da488f28f186f5f73abd65d314a3b90c20b5ed23fe007ef0769ec044e; P0 0xdcbe17d3572bf3eaa6141d1ee37441f98e48c66c974e4e8c037ef7ab0eabdb95fccf86603008a96eca436a606a62949d62424a20e1521140ad1cb8bd962ddc6 0x1dc314fd7b66447bb7533664822390757ec118169a904f320442731e44cb5e1ccfcceea5413b86296e6bd6e8bef4f46eae31502e852f8ae1e66ddb20efc545658a; P1 0x530ab1f9ec39f60377e6465c6f84e7deecd8907c30755c0e1ed9183f521b19b5e9e303b4a5e0fbf323e1ef50279a0eb462864d0298a61e186f259799f1f575a98 0x122331fd432110d3be774bc92e4e9822b42cf8591fc5d822542d72263afa8a16703efc575546ea3c77b247c17c85ea0d375bc1b924bfda746b2879b63e5f955e5c4; P1 0x1ed73cd7bade77d2f203fb0fd95d67210870c4a4140be63c9aacb5abd326def2c38b47cd596eda27c24e7ff4877466163bccb866e658895607cb2d064f7e003206e 0x1ddc271c89f414c25141d2b95e6bd08e7560671e43e612e229f777d17acb920679c3af25311dbcbdb144c6b4eb06dcc17fa3b0e191c365e1988ef89004cdf23da9e; P0 0x1bdcf17db240eb74539bc89c8d5c98aefbc87598f375aa38f2a86a06c1ec2e3045851b89cd64c2532b39b5b12a6cda17b585e3846e78fc20b2e482a2f8eaa2490f0 0x18e332b5def0aa52fb4b7ae19b77a2d41d5af73002244296ab0b34f9581c01f4078ab256e6872e181b976a006ab30349bcbb6626129b5810cb6890f7943700a0a74; P0 0x135b1928931058451a3ae07635e37df7fab5603dd259d07f64ec458c81cf856beb57fa658e850ec6aab7893b269f1b2aa937905c4b5b7c5f0832a9ffc71831ea43d 0x12ef9f3519bd673577485bfb0f572c803493c12eaf67cfb7849d5ec02cae4b2c72dc15f89013650ac4cfe916fa3d39959ac1a1e71e225325f7de063e6b3d49be8cd; P1 0x219dc052fab8cbac1bbe1f67c81c4ff2a1d27aea87d73a052f4d7e958a304a30262f69d20e1a5103922245486f0dc5e84b65d3afb01076b9fa268ad510ea7103e0d 0x91177c0bc2710eee42e88b176ed6606e304ab81c3144beec6f224dfe5e43241a19661a29fcf748863b71b2694c2ebaf8a97d469bd47bf0d3404f16daae72e6da88; P0 0x291dce566c3e3411333c8c99ee8eee28c90d8425da3c7d5ed9dbadad8a62a667862cc3597aa76d7594b3ec8f5d1fe3ab5478c6672bb9eb4a1557798be0233bb034 0x161338badb39f8e31e5c11d445ca9e54dfd5006db79f609b2dc0ed3c4dec6ddbb6b0d7d2193e353b472e32128f1bae4be239ffa54e824488b34686ca78eaa279874; P1 0x2daf6ca60fb2e85f5b165815638c127c632178f00de38c01532c31db26cf730fe366ff28701fd2fbc353837904758e98474e912ec7ac1be6419c3cc9c35f45bfaed 0x180ba28ac4a5874547b15411bf169c72b1714e2f7a7b1e456adfd82d474097c4730f8894481c6d095107818632cc67f699682992da76d4ba5d10333dc138ec1d89d; P1 0x363468215ffc989112b38e4053fc6e7d1fcb8db8691f0d5cb03f0525a7e2254b0e1a6cd998872bd8ecc5cdf4921306b77faca6d2e9c8f0e3eaf305b24dad81dc07c 0x15c8587188f3db4c8b1e70c0fc1ff7f5da7f8ed223b8ff047b6689d867d04ab7d2955af65b8c8b9adf40c88c1f9264955e12ce9321afd4197402c1400085827b157; P1 0x2c7b8f368a25f44949ae4dc746bdd419e4c1b4025b53e4fcd807631fdb55e6ddb0f7d47f18be854ade63aa6298c302382b36f32ec931635c4535a63e10e7cf098e6 0x3ac64b77b580c64657a8f663cf874ee54926ce5cffd3ad3bccf36eae8b66b85df9d5d6c3a8981ab13e08da740d1d86347058a2d4da76b9ef2115af11987702db99; P0 0x6bf39e588d53caf238e877599dfacdf8d555b83165e15373904baed785718ea0637c54011e679a13f9a1c7fa73936a04cf3b0213065c2767a78c12dc94ff051e0 0x1e72aa2fd5e52c479336abe01ced7901889d0cf573b0d1a740c26eda4896e3d2d23c7d3630dadea171aab77d51d0a5d878ef5cd9678ecd78a77b9d1eda9b8b37351; P1 0x56e9cded6cfab413ae29b6c6f1dd2838aab1eac4ebd151bff25a12f267f0be71758a33502a9acd2d93454b627fff886f373fd012a887a5322fd881975302395e5e9 0x1f890cd137e792bc29b5d2002ff2805156eb9baa460bc5cc28df750e8aa10c186bc09a60a90afa5430facc67a29c8ff6b7db7fe9e24d01aa5748dfd80b2d93d84cc; P0 0x1f13d3cb20e19cf54c99d9179fdc2d5e7352e7d0c898b3c41c487b1b540c030d80974bcd2d2e9f31ee30bdfe24726eeb426b2288150b8f57112521970d8ffd5e5e0 0x158b17de396b6fd33866f3ee818598ea7e5ee814649f9ae59e833e824496bae7942346ed0753cbc5afa45c8dca9656b287d71ee2be604d74003dc03767365f0e870; P0 0xe80ebeb17bd51e83f7879689962b7c4ca506f66c9fa33af7fa53d8ac9b79b2040201e917d059bfeebe338fce5fd53956ce498584f44b9036ab2dd837dc91e71b37 0x8b58fb64d5ee8a0cb77512bbb4061121283456a6dfb1f20b189c2cf27a16f08dbab5e4179ba2904b5df38246eacb0c080a625fd6d6446b26ff5c8469996f24c37; P1 0x71c69fe3f2c481b377b64ac2a02b109028039feca38bf9b85bc4df6d825561bc1efbb13a86c995975ebaaee75537add07ea7389f199fdc30c033d152a13eedd9 0x92138390613566d10ea4d91975142b0f51b13e263fb9616d14d181a01b7c1a6b0d10fdbb264e6cbba09c57f4057b8ecd357484e005af4b88c6acedde7a8945094c; P0 0x29ad21c6bcf6360eeff9abaa4df575ded73db1e43f3281876127008fbe81458323a6fed0e2ea97a3447b8b3d02629c413dba33abbbe1295f4ea7e9ed343d8d2694 0x170d171f9cc7dc7d8d262e400591dd23d26dc9ba6b915cb7eaee6119044393f7b8561c2b99f6a3e6c9d1e36c0adb1b54ecef22ab13d450c2feada29903598db9524; P1 0x31d083c8e34cbfd513b051232473b6fbb27b65cd9eaec05f4ddd0a642aab187079981d7adca88a132b3aabf2f67a02e845a0a6c86cafa4b769bf85014b9a442eed2 0x89f80886d35b9776f2387c4e18f0b63608753dbdd131dcda7f6e4db5dacff7d61a79816ad7690fea9ec43982aec0e7a28c2f539299bb32e6a042d54fcb6bb3b602; P1 0x6f891e293d975cafaa57cde4f68fbc31f07c251536bee73b948e81c7e7c39696bdd7867cc0fc94bc45769895c91e284db47fc77e4bab3ba74814ab97b82be1af5d 0x91fba0f4fbd110512f9fd044e94c078e545b45e7b074c760809532d31b9baf525c089c868db4bcadc0715785bd3e131d4db3bcb3d6ab5c29d07e9e6a25487a3769; P0 0x299f81d5456de2d424e3522aeeb113d71387d07357951e56ed4c9f9c09578643ec06916d56bd258540113319dd2c5a44910d0b2c708cef62a7d25ed85964640a2f 0x38953d5a8cf3910fd0d37a12314cd157f864e027235ca812fae45677013afc0929548ef984b91919f1d2582876d41707032c0c42b7821ba22d1b6ca3750765340; P1 0x12c272c423aa5f49e5a6abec855d3ebc3015e259d9e438d5657721a58f44cc653b4ebcd403dcc5a925f6299c749d184c353663e7ebead24ebf0ae5c7669b8672 0x1d43d9794ac28781f71390be02b9ad41fd4a276873b600ccc8063dd766de47a019309d5c5a8b5ab6c65ba95d24aea5e683a6e8f80ffa7e902a09293b671f4d33672; P0 0x1ac38a08496075df5ba9d762bc0484ae5c9c6241db40f952a4506755c6ea408bd20bc13f0b7f845a3155a49b732da75d67f0f640e4f0349905a0544f8207dc7c02a 0xc12ad34cd659008fcd0ceec9c0b90eec05e14c4913d1929e510c5d10fdf4b6a221a6f205da4ed0f3391129bc188c1a04ad723e668733d1b65af2346ed099480aee; P0 0x48e0cce1ef682439d8cd8ac8b77391d928fbb971612ff22ec57336bf300057e9d80b3036228fd4b343d2a001699caf7dfad21eff685cda5a773bd0173919df4b63 0x61d9cab4c4426175165b16214444ef4f0829c4af534b7fd45a7fab4e05fda90aa24d811c535866f70d4785e2d1c0cd04e4f55adb46d62ad970febd934fbc36c0a7; P1 0x381a2759658931a1ed92b35a6547cf1fcea91455d196ed4cb98bd213ee4ed76d3196a2c9c119d64144516e5098a53287b6748c1a68eb839ed48b52dbe7bc1f847a 0x817aead345b3d7cba7e9452fb1f7799b2a05739fbb02e700654f4c1bc7e11cfab3cf45027b76f7b1714497992f354de76e5d4dad3be96a5d95db56531f1a6c4b4d; P0 0x20be8dd6ca824c56d6a2cdb4428645fb09b6faaca49545aae50265fb74f640fe7145978060f27e91178ad1b47185c49ea3a21d677a7217e895a160f9066441d82b 0x158606d2d095a29ab509f510a63307df2afe589534bc0a43c86cadc5f266490d5ffec2d5adab6b83445f31ed3d9a4aa3898a6c95c7393b9bab998e550c7a7600d54; P1 0x2b6e4ee98a635103e1805f1471e6f64bc9840ac141e90fb1c3d9ea33be1479940860730cc9322cbc81d0a7ca8750f19956ff17b28473329f7f553f5181e0ffc20d8 0xe714284241ffc02e2d4af1577507f83d74fb357bff92d31fd9bca8fd33556504c9bd3d6f4837546b1a69f02ca0ef936ae09992d46efa48a4252414222ed7110b88; P1 0x138e0135cd5aff3d712d89478484b0a8cb2881293d1b53b8e12d45ba6329feedd1b7a7f8f6ce2c416def4e32afaff6bb3f36fff5521dd509d1bf57a7fbc9c0dec5c 0xbafb966c5fdc6e06e5612732e53d41579c26e8b87f7f0e2e2a4ed2403831222df5afdd8daf4aa2640419d632a1d32fb61b9dea4cf5d107fbdbaed435df85ccd51c; P0 0x444946eae619bc2c8ed49dc7501ac4046b2c45c626665702271fa276da973d6ad3d11783c14d8fc179187f1c6f9171cd8a0fa79f7a6bcd626f489fd87f67622a73 0x4b9baf7b241106cc5ac7ad9174bbb18151332e9c89a9780ebcf7ea97e8b0aee7649a2705ee49415f2869be835d2c1ed37e5a3f9231811d45db8007309ad569c583; P1 0x217ee3402dcddbb76415778a86da211272e5a5c0ccbd798f1016db2f1e37de895494a5b92688f0fce4dc0f6026a3d918746dce2efe0b323a4c76670b0d5173858a 0xca9efaba1799cdfa60ca086c5abab050c6ecf807b8ba0659e054f721db2f179f09747309818f38f328911f8cf445e703b51ca392c667e17b9d3b98db0024fe28a5; P1 0xf08ee99c30c5c46c20ab7473390c255fcfae6f0d66b00157c84f192356e74872c98020b4846ac56212c33d4cb07a03bdd27d9712b0127f0bf03289e5af9900ac78 0x140ffaf809d9760e2bb8f99040d0944e2de38456ae0089b3d3da67ffeacb63a599167ec197ef2194019a06d2bfac0b5cf3c3f6a49e20b9409bc50236f8daa09b83; P0 0xc9401b105242beee63b9461031d3f68f7eb9bf642db821e7cc54ac6a0a4e1d9204f52a6c7be6bf8aba56957e80453000826822f609e2d5083b17c098c87e1d22 0x68d0ab7be487bf923b515d27101f76f91c973bc9b23c3260665f6ff036bd3129d956b2043c00c9d4a751498e388d65abcd87c77af481a32da85aa24006a6b6022b; P0 0x15751ab5e2f033c06f1a0371723a3e541b575436977342f4b0613aacbd38129e3acb134a65b590c33bcefcca516d480a8d48f5316a10a68f2c19490912f21e97ac 0xe20fb05765d883d5b0d5122c1a83cda138e637294cd568657bd0be1e899830788df554b35bce60569051604b9d77f60bf7a2dce488bab4d10451e32f4dcb474ae5; P0 0x63cfda2839c441026b1b754b41e8df18a32b2fdbdc59427d483aa69b9edcf82fe13f547dbabdc4f4b2db49f070b066ea31cdb774b30fce44a5f56252e6f1b92482 0x18aa7e4da21e4bf303776572df326b47947f3a5d2eeafb9807170e7f83519b733c5d110bbca7e08209986fc33ca3adee62881c872fe0fb1cbe9c94d9b4ac0a8555b; P1 0x3909dd7d1ba4268c695615b03f74f7ac09c2c801719c0b48216b89b347213e385ab0e6726b92fb1d0a924cd1e99ee6fe5d687b9c68ad38fea901c9182c848622a4a 0x6292e9b24dfaa88ac0dd2238628a5192fb78d0b6afd2a4cefa380f7d383e4cec0cbe3f60de83507cf842a190fe7b8ee2da57d4079a698a82c635caeec63412d555; P0 0x12fa679df435748aa4867ea302c6526af186abb9e199f92e7839c2ac875637f905f787015127341b0b053df7a083e361dcdf91034fc5a16477c37b3296bfef644f 0x13e336b6c3a015187f8cf22c0fa67b5fa8489cc067401cacdda852e4d83874025b54e1b90f39709e9a502cf85baa66e52e308cc3a18ee20d4493c02e61ff9a9f288; P0 0xc5c1e49a6d2704a9315c6544db4a994e01fbe812100def7071e2d69315bda924ca04a66240d7a5aa315767361e107a032c747f1cddfb27ecf5582c86858127d556 0x1c7590cc4b2c05741d81b4e5bb4bfe037e31b7ea01f519e60f0163fed6cf893ab8a09d5fe15577b7f2fe0725fd3c16d2e7460162f74be2a8778acbdae142e7d3d96; P0 0x194f6d52e8a6783e67abe933b413b22c733ba3124183bbde2bc0fb2d3faae202d286cf0b3ee5c687ade16f57001ad923407ddb0243f7aa3d9ac8cc4b760e94e112a 0x1ae2b017a791b27e93917763cf6a1ff36e5b0a8bdd7b808ad022b5dbf15037819e2bc768b1f66c85474b44be9e28ac9bec099321b1ba2de2ac497fb7e38049ae50e; P0 0x1696a401876ff0c5e60d0453783d7ac3397f65d5731733d772a67370ceb3f96768662df74fa69e5f7224ad76e1f0231da109e3474cecacc9ff148f6c7a840bcb5f7 0x1eb63b0dbce5233a6812bca2d7cf606d29bc7d114d9f354b42eafbe8fad4fc97c427311e3bafd35deb67af87375020c96ebe0640d8e7ceee81f73bdfaa91286c2bb; P0 0x1d79bc79eb6cfef102a1bcbb59634eba698c5dbdce1eb207ea3e7ae1f32a03ae64ee6a6dfe53845ed05a45bdd5b4e4d0784581fb9e6426a46f3f3e9237d0894e3b8 0x7845cfafe6bc5fe45cd0f1ff616ceb87efa7a8010ec6444fef775b343bc128262fc1e577725b34cec3ee2df1a0b73f820f66792148356d760629a0b4b5c478d851; P0 0x1c40c2df42d075b9d859ad5eff10c5474dae3c164e1c2d6fa99e3da0b90a7ba2530a095dedc44c181364bdd4e2932813d4d2bde1b850f41901754def5d33d80140 0x1cfda4ac4dfb9d1210a26bd8f1730fd2e80a01288991caf8ff11ceaebf5f0b8c41bd66a3fd1802fa76ce06de3836527e708ce16b22b48b7527f266afe2ebe90cae1; P0 0x1a43baa4bc732c9d639f900a9ed63686ab07b89470a2495e4067a36886fb27852798417437e1995336c1132af179afde696d23b86484c5b4d2d346f202c37853d70 0x12086eb97c944ddc364b1405b9a3e3b7678aa9c115951918c41cbcf26baecc19b7d6d2ff4d23a7f248f7770dbaf5ad99e768c748ba21b54533e5f3dc413116d1731; P0 0xa297ec988048d649a3dde43f8a1d2f32d2de562dd615fe2245153fa9105e94c43408edc44406be6fbdaa1d202dc7592ce1628ede158968c48bf62ecf3fbaa2e29b 0x2500044c0c4f74786a60fbe2ccc7642c4fc54d35cc750d602a19764d89d600488e96cdc49cfab88cd1ac190fa453240c2f88e61d8b73a43f96046cf416fe76b9fc; P1 0x80581dcf97225f6e73cbed132e590cdb7baabac2914960c3d79f60b6bb3b229f1cb5110afc5d6f702e199687b4ea03203fc6ea183c243b21efe32f03e8b59554a 0x63f358cf70b9d1a3abed37079b3c0b1f43f729cdcb4f8c0af27c3e96ef246ecb3f80ce929056e06868b3e5169aa631254421fec0b07f2a676e87b3668eada3e57a; P1 0x3a892d033eb67dbfbaf1cc2607f01af94a55c0c1ee715034a8b57d46d57b420b73273b2000d596514ba47f48faa5dc61fc3a2d28ccdde8a6365b11c3eadd35e56b 0x5212d051bb4cda5a001fa235e36177fdce31f4ef8dd7863ffb0ebbae281382b410dc02461321f0582e7048a72cf97d7027ea5e791e67c3dc163049ed319e645fd7; P0 0xd28076b28803e92a79d09cb565b29e45f924eec166cd320d6e1e777782fcde4338aedc055c8bdff91c5a085f38ad5dbbb4a278ee8313280c11f48a4f9ad75c0fa 0x1af5c6567d03ce81b4771e15d3cb71323f50a3720838c3dc7e3343b5cce395e280a7130eb649264e75e9757f5bc72a8b1ed66b53064b02d63c845c778f0154f078b; P0 0x16b6c1f664cfaeaddfbdc11579d1f807bed1492c66962d0e6570e14a96b10d9b37924589f2c50a79df781e3282c42c90489b00b77ff57b03ce28535e3b941809d19 0x1fd208921e7e409becbe41a4b8b7ab0311a215ee696a59df2405d848e615d62e6dac5709a22be9f06429675af15f2e422496b1b6efa33bf38233a5667fbb7838292; P0 0x1fa4532b9b3080b3969e10bdcb056182f89c07bdff43cdd1971d3b6762e25a772168abe0762087bdf0a195d6cd3ebeba12ae8f45511a9e26b19c58890a42fa42740 0x2f635fe30e1afdadb747b5361e60d0971ffeca9b47d974f6969221640c2fccd5902f284d001e687c188582577b8669d76633f4e1e2795767b8da215f2bcfa8c284; P1 0xd2875ad030fafd00fddcb0ab113b4c95ca6f31268a8b75b77825e089aa0e76d908c53ee8e63b60d487c3bf2f2b7bc5e5e7d067e316c2f25b1c891051994100ddf 0x11a90c27c9ba24e620aaa2f58fb355a4fc0462c51fba413301d078a0fcfae03d6b515a7374f2a7aa6ad413ff28c09352fa2470faeae31ba282ead2e03959f350a0f; P1 0x1d3d4dd80da3aa5b9f8aa1d1962c2880c9b72094907fc243238ec94d98956669a3ce39a2979786bf262298f6793efd0b714662a759284a076fbf59985eae2d99c15 0x9a1dc8d7693bec5d1fe5e1314dce590e2ad935b1e4f1291760ab207172ee2505bc0e0be528a97137653780eb4580001d752449696d7fa09ea97ebc7cc048ab22b8; P0 0x2e63ec8d247d9cd1935a4499260c24d44da0f27be7b7e688b933de4c03fbf8de0e1a02dba29fcc0b964b88b8039675baf16f586472c61398f50e20fefb56fe8adb 0x165e02dcd94d01b8818be91e14edc437d5ffdcb534070eb004151bcd2daf75719a970905837799dc0c1f9e2d396fa5c9e5368baca8aba098400b5808ea3d83ef1b; P0 0xfa258207c88162314c55050536badd17cb49d17c7c5bc89dfd3aa7773b2f83367557cd8d20f70eba8385b47f42743283cc98168620f4118e1ce90c1252bce2de 0x182d9ad0c84b4522b065440129ce173c0ac714bde07bbcbb1bc051c6d80d9ab1f692a1a519171c137f2ff38726a0a5f32832876a584c53eca7b9463fd5fc5b24fb7; P0 0x1244a93784a3156babc638d319e4630728adaf0f187958eeb162b30db16d274c9264738eda8e2de3bfd38f5bc5cd18200d099438decb35ae519d63871b16fcd29d4 0x106419188ed0cc5fb0fd323471e880c96c8526fb66e19be94c8faf57e165aac3b8f7622714b701bbee7e18df8d69726d13adb383bbd0493cf9fda553c66091b9ea5; P0 0x86552357bfbd75bfcf9dcfa8bf6d6758c7f53c38bf8276107ea76e67ae09eb3a7595ce414f1f456aa52db47be26626fad874a8e17eabfa0a46d033e3f10f948cea 0x11cd45de11d303ccfa1688c04be3c69ee0a06a8bef3dd40d8406a1f47307f3204ec765f491faed1ed0158d1395523670aa9adfbd286f1db04b562789b8f82b2a343; P0 0x9e73f03b8c0459fd6228817802297251738171baa3210904477d9337c4cffa0114fa62022339be1e25bfcca0a00dfe2439d9888f9ba48ab324c8210f41257aa653 0x12ca86cc12462f98bc4135537ebff66fd5f13f63944e4db6784951161b1dc24dd904cbfde1f236d6ea2616a37a2cde2b124f8ae5fb79a040d12baf08092a2c509dc; P0 0xb08d96d9cc7da1993ffa6bde187d6245b8c30ce91b79e92231c9c5af389d465ad243a9d3bf6cdd4c28b5025933ed518fe14fb76d0298bad8b3802de84bd4a28d60 0x483f43360281d8b7c0e207990e214deefce5d32019a1501fd3ee2be48f54ad5c885ec0348ad3ee7fe9e3a4cf0184f055b7999a497ce65b0e2cc6c71f5e719bc270; P1 0x1e957828cb7561c793c4f5e0c66b4b3e7abf2d3af4ea8d2795f3601a2e43d2486ea2d9ee0e0b6c70970313f104c7d36ea53dd2255e88a890bb700e250771c12f94 0x195c1c57f90382760006fc8a74a7b37440cf2409d2fec7a838b2e2d59871353eedfcb7593755b95765be8f607bb7547ffd17bf2021ae1328e161c1c850b27ab0294; P0 0x1418f56c880835a63fad931fbcc178805476b391b1c30a810e3e13afbaa795745ad0e4803475a6d41626816c852e63beae24b6c23eaafe5fe8fdee0852d1d7e1ecc 0x180118ddce5dedd2b63e886800a24d94d303fbf83f48304bfe81953ba3139492de0402206ff37bf2e64cff8157026af25522dae918432394daceec612eaa73cc45c; P0 0x1201a55656bc819777849a05be729aae77d9fcda1c5f79ddedc4662f73c746eac0bd2e1539f0808591510bac9ce2a5e7d4364fed0cc39fad29b7288e2a5aedb8c29 0x1bda8cd3dd9c8fefb8e6d3b306886b33f788b629369bf486ec2af2d59d7945e814a3ce8d3087f6c99977926fc3eb3281752ed3b35c8760f8bf0f4cd217258988d39; P1 0x48bbe6d42934e1a03f4222cd1ff64a2e80f148ee17b7a22ee7141e40799d88c9ce31f77bcfcb04aa5e7d8ba5e7ddafb12888add935d673b09ceb088b7bb8768a484 0x12b3438676ce0acc939d3ad4f85a90665136be811969c3f5b5cee27f7e3bbfa3ba5ef47e821eb6b980757577331a4df20d428514f5b29d3ac24135d6051c302897; P1 0x20c8c899cd629b47700480e8be25d4beb584a317660d184b6663540eb0e0d5d2f4c3e7ac733f31910c4bea516130b02c06dde3c789b755bfa9db790db67cada34 0x1540de26b814482b88ce01b6cb41724a240e3e164f1e89a3f03634c30629777db297455a46bedeb20f22ceece6396bde009b213f1a6494d31e6f5d3645e3cf97567; P0 0xe1da71172b458cc8e2256a5856f7a2a853d2da4ef1be9d75867b2039a4793864f2927ed6c61462107e243e1249273ffadb6046b9d517bd189f06041d0c444240c6 0x12e55e802ebf1a86d25961b08b02556154e160fdf1838a0d5163d73673f3e4ae0da88129380ec43538167f220439718b44a7bea95c6804b3bf56d3eaece24779037; P1 0x2179632582d56354edb80b3f30f0a88201f59d514c3ebb5c6d59940ac4857e7413e1b9e3a26548326cfdf934bc564ef3851e97e9dea960cf05809a3735cea3c67ca 0xaba39c40ff02b7bd9971e83af128e6fa88d02d86024a03e9f377d7442a963cb78506970e546f31ec228cfaa1807df45cb364e2dcb7dd822907d489921d7f5c2b3d; P0 0x3989fda79768d31c8ae077978fdfd1228ca77866d9ab54cff093f78e5adc28aca38590aa72f58833f555494d3028861ab9706bacd19558232687e87dfdb5cfb09d 0xd8fd0f3852fdf01c6f4c688e6b733cd2fc3aa4811148b515a977022dbac6d4c33030683f94ab56c273f1226f770fa9c7eea4d866a1e018ab6b12c271e556f53d26; P1 0x113e205c1336c4fd8203d74fdffd350bfb6887552554716cc6c74fdafe9dc7f30e495456aee35f3e531ee2c1b6c3dd968cba1ad22dc7678607e5193b3a006514990 0x26c19c3a368703a919389799244a828a3f9c867d2e65455678a3a9532cd6122e47a1d730c98c420de065e7dd4455e2af791f63ae008569ab53f329999eea56ae7c; P1 0x8cd133552f3f2888890b8abf7b012fae2ab5f64adf3095e14ad07aceef4ac03d28ff0505bca15e80337e0af58acc6ce6e547a8adac58680055cd137f0c7ee8777 0xbf5c88ec0b780fcb738304774c2a4c7552b46676aa9367a4c4ccf7edece399edb767cb29952dad25faac8c283f3f1ce207a8d6df98bc7fc68c622fc01deea4eba7; P1 0xd690d0a46201918a7ae207838d03cfb760ab013db791406a60249847bcc78b093879d356097da601582708009422da7af719ae5a8dfd328ee3b1200a291c90b56c 0xc67426c772b13092bbd73a12ae4f824e8803717bd9e0597d1f5d7dff958f37cee7e5b5ab4db8413e447cf201c34033ee96b04aca64b8a33230cf02e6e6fd3cca3f; P1 0xe6c3d107880ec5baab3bca0283c05e72ed0e96665935807c60e3d0aedb1c2349416f4d38ee7dffcc35af79b13974d5bc62c378a8e7147d7f0dc325241049717165 0xfd36b0acb73ca5028050e7fbf969db23dc4b536deba0cc13568384384958dda6e9d3ef0dcc6274a01275ba5a5ea7ef953b3f4e13f176c9445ca18a9e3c235fe3e8; P1 0x177afb7569775aa520552781b61f208895a26f18b46974b2a9992b73a729702f3a34235ba0fc49f1827a8bf0e2a219159029dc2a56fef5ff992791646ef2edb0c78 0x3f21184a0be95e001459a42eab67f0699bb9ea71c8f04f1630c3a68eaec5107b4a54cbab216a80dd34c438b3244f23e7ba87091a3a2db64355f0eff9e4521ad338; P1 0x1759f55992e2d91f60b26ae42f1ebbb5e15eaf88d791cfd7bcedb06aa97836e57a05ac8a98bd90df2aee43a890f2a9e98a198f5005d2ae9414ddc99497a2b73025 0x183dbc87b8e79361eb6f84ee87f390e8ae0091d34f040b68483615ba31b8f683d7230c490287eb0d1adf8ac200407600c2509d7f3a38141f612a07aae3603a744e5; P0 0x125d11e6b1894c3a1890a3e2003e657776ad8fd57682ec1666bbbab1e19e1c350f232b3109ec3999ef43f0c3a4669f3ee88310af82289ad8cd550318693b2932e7e 0x18cf49a9da23c48c6c28a4569bb8e949d315f80af523e513085e2ba30308b426ba1da246fa92a921931a8b5624aae2c89e5db43c34c527f62f226bb3c1805e3a357; P1 0x39b487c162baeb27bd9970db73a7c5ffc43af185ee604b665a5ffee8112dde60ef67da5d05f680d4f6adeb8b989f2fac4015cc31cbccd764244d04cc0de382ba515 0x16213808c39a91c1ec9bd7e10c6be7594efaa825a615d86b6302d5f992fc1310c60ff2ea93f6a1a2ac230604e4977014d701fc715546594e3ef9dc10633a7b15bc8; P1 0x2de96e980373f2b0352de72a3a88f9711b1ae56c33d506fa930d933a947d2e0df76e21d9194d3480ccb7ce879bd4a19291e04464b2c8d16f43ece12a59be3e0a163 0x11aa59301b6cdaab8da0b249d041242c3b9d5c643911d30756396901645b58ae3e5b746ac9e5cf5c471c16265d1cf443e9f63717c5e6dcbb16795351c88d6480623; P1 0x1d419cc71e90c95c8af4d7c48fd29c141b33cb02e75ae041ded80402133cc89924c063ebf1d88169a4da10e54feb3147ccf29a781f1c1c5f614b09e40e13c052f04 0x1ad04cb004b8b45200e0df9ecf418fa4bc7890ad98f3eafd0db3a97f2482175a0b36fec74385b40aa515c00ea74c08c2cc1eacf6760c9745384edc844032386295f; P1 0x4367598b0f142e6c1d50a86f4976252fe101dc4b330da843dc776c6067c426ef396d0d3aa38619c6b9f633adb408fcdaf72c77a622e8cefc0bd4f6417d100fa200e 0x1540cef3149b4d302588371388971e004600ccfa7b7016f4f5b9ac87b491e42466cda94982debe59abe3101ea801b37d849d0752e2de9014c104edc495cf164d3d1; P0 0xe1d92e011bf2254778e29ca66ce849abc04d643d7c714f77bce23aa15de696c064f3de2a2cdc619245c81b5c8e90a43549dff285dcffa576f335ef81daf7fce437 0x35eebcb88d310ec44a909d2a85c37ce8c61f3cadf7dc666d1e3e352169a3662b6e6d442c3fec0211e33d00f107d4b2ad66b814dae7f38482dc860bf098a48714d8; P1 0x110b152bcb1aa1a014e6b1fb76f4eaecb1f2d14ea036ccc681a6e37b1e51dbcdccb85918dd2d3e151213b27da3537395dcc2051720deffed8dc3f4dcd8a77ba7df 0x24cc10a83e8651ad776d5fc614880daf4f00c07690c050f57ddf17488a5f5ab5a926e2a275f06891917667b143f3663e050b9510d689b3de1ab7562c4be0030a9f; P0 0x2a503acef6771b6efe9a8f2333f579e8fad866ae753a681d29d78223721578b03009c02972a108f91e6c5e2d8605a97b76d05195399ca921a4f3aa9ad9973df51 0x8652b598cbbb200a03e76bf0c9d7c4d7504544434c4f66916ce64d5cacee388405a5b4e4051948757c90f593ed3bc98deab804290bae17851ed582dd77199eae12; P0 0x233d586a65fdea5a1713a42167eb8b2604c68cb7ea4086d04f82fa4baec4d0a8816725a4ba1be062f1cd06ba15eb51bfc38fa0d8e203731173606e7b8eca5c7865 0x18166b8ac470b357d7219bec2e938708be95883eaa0d538efbeb08ea4e80b2492a1854135e66df0c76a7e293962b129326e50ac918881ed7e22eb57c4a5a2f0f1a9; P1 0x366513104ca48a4d2653dad8ebc4c181a3e1dbd25ab9a1f48ae71023d447ab76c31dfa59033066e721eaf31502edf949cb797c3a5274ce8c826598c2f87b3498c90 0xefa9d3fdf2f8349cdd7d55c6bb2537a87a145b239ad7c4d731a961dcc811330c927fc53e918f7f510bcd3b00584d9bd3e93cbe736607a9e7291b2e90f562487143; P0 0x702f453ee0416c30d44c9e76a238f5bc6be566299dde04db2f036ddbc41c535896bcb0ba43a4dec068495f6aec8638c0d451db52f68aebb361f04de36d70ed06d0 0x11157b004563da4bd2d9ac2c7d2095dce4e616158fe4db67d0786e6a46b5d134eb2128144ada94b2efbe91c4b2f4412d651d18fa13623fc788b8a3198e2a4b93e59; P1 0x1b5ca352b89dc14dd8803b925b9e0547f6cd3099269d29dd8fb8011dae34373e0b4fe2c783fad58b51d522204e490623c9bd6ff635c6e5550ae196e9c3316ce2977 0x14de1ce95ad3393037a70017a27640aa0b35cc83b9cf4600d8b64c3570a4baa086d2f846c018bbcc75bfd7f1df64c4b6f72b81b063403ced5cf40f18566b241da4a; P0 0xd9ba9d4f1733edb0c63b0b74e3a07d3003b9eb3d11672c87004a93980ed76dcf02f9422abd660a7684b45b5d50a8641c9b8ce3ad61ed9e52138fb7f8045b83bd2f 0x12f81c53802c34b94ee3d03a56b091fa8a4c4d807a7cce6cbe7db571ccc7d24d071bc525b1c87c39709c1c707d97d9eaff491fc87d09e74e54c8476737bd739da93; P1 0x21bbeabf46962815dbfc4ab29e9f839ba4f2dea3fbf0ad6c5bb7d10ac653fa59acbb2756c7c3f2679b8d5456f4f9387bcb749aec16f327d8430436ef2db57d5aae9 0x665ee0743a6a0194c0f962765452d7ef51a3bbcc6319502794fbd57fd506d069d4dbbd7014e82ed58fce86bfa69a7f9d929a84a34d0f78a130cb9f3434613bc24; P0 0x1477df031c597d0d1997335d4f85c765bd470c1a72a5a2bb50b6b9f30cd4c05a2de9daba766b3b9493d6982adec3ca8ab835263dc3a6d96c91183af0bcb2d28a 0x1df71114ee318c33e4a7d08e1a3067ffbd339d708f422d434482e796db5f268a897f35222dd4a6e083b0ab99bd400410d92c704a16cbd981a515cfda31e44fb79a; P1 0x542dc79103dfa1573e553c12ccefcee7c0d5d87f9fb3b9d26efcf67b91fddcd537f32d37ea5d774f7df2c2ed5fdb9d87bc6f4034c899831b3916c799dca992667 0x1fa12fbe658f2189d60963690f10e705279839457b7a8cf20a2fc49e0def042eb9d29079a2445fb0b3927c9ec0dced32c976dd428954a8fc211030e741138c5c053; P1 0x5dca693cc79ce938c6935595540cd8557d1405df12d4de4e0f824d0bb388572c67f0391784000cc5fc55d9e4106d7ff400b9621240983f216c03507b1304e98b849 0x905e9fe0994d5ae1d572c87768ad600016868ba661e721a6025c24c2707f67847ea310e4daf79f81b35e3e0db11e34ec17b33869d5bce77a0e8db550f3ef488904; P1 0x7a1fe241b5e08dcb4c1083441ce45a6f1d8f2878dc040d79094f31ec7c8f05df5a6ad67ced23c701ad9872d507a0f4cfd2b760bf99511d3f8304e6621610a81919 0x18b7ff011d3438e6c9e36b21325c7d58ca744d285fefcfa36f1def337634346833bd128f0698752384451b6321b88ff5eab5f3d770784b8894be6dbc8068b67f149; P0 0x1318207638a61c1f3742f62bd1fd1af377b3b56390b93ab1c67e299be6b6a96d6a055191aa2cf792cc09b5ec3d36abad31d8dc6de00f3f18afccf5073badd5d4edb 0x21fa912633a3054d683dd6e60050e535b47c6cd353436fb4bf94ecf29a0c531ed9fa9999718652d49cff10665d4b98370594cb61639e0491260c01dd602f85d5ac; P1 0x6c3d6017f55c4f18851bdc2ebf9fa5f443a0198c8ea7c092dc1f567ca6c0f19240effeaa73e94e490f371f091bf2fee74e61a038428d31bff8360823ae1004c90 0x15ccf05400546248febaa4b45d33f6fd068fa76388ef8e85f93c633f1bb734002996bcab9000d109e61dc1f267bdc11c37ea56f75e1c43854fd25c16c817e2f4f40; P0 0xeda1bed7c5fd6586e508e8edd83c64813aab4b5c4e8f7f3ba57f77bfadc1ccd6f0d5022b36d12d2d09c65ecb785a82a4855776a520411fdb0521fd2eeeb87fbf23 0x29ffc2698559362ac25a9096d302e33d49c80ec7518b9819ed85a263efedd00761951576159d9e82dd19f146ce473b778bf58707f19a5bf3bb753ba82fea884f23; P1 0xa55e1b005db7f043743e2a048f2b5a16b59d0cd9bfd9d7178c54262f2624015b022e878e34908be1da637cf83f292a0db3f04f477e5a8ccf75204436d56df836e 0xb46b506aa4f546d4fa749e5e96bf68dabb94bbac08e9647528394c2f1a4706b919ced04d6cfd0881be6cbb404f49c44d7c95caaf2b814fda3d50c3abbbd3d35fc9; P1 0xbebaa11b6f9276408be27648d825226e607df05195734389ca66f6e9d408f9b3cc71bc194f420ddfc23c0d0b81795659771771d490287c032ff3a76629ab81b777 0x116ffc7a879391341138ec724d7edec8ca362ed92817876791361ea4f69cd4c25ee2f54cb0a0d2949b29c8886c0c448b3154cde79d7577c49530692260c9081aea; P0 0x98084298a250686de12f40d9bf24fc8ad293d296fd8dca9e62e7c5a5730faf7f3d8c76a99df815b6c0e49cda40ad1c064eb0c36eb53050ea808a292174ce04db 0x18a5f8b3993a5ca189f4f523cea6608d30e6a7b7f83e68c758651bb08ee1176ed610156a719e59ae60a3613597ea72787fefbe231258ec7c209df963b269a4262bf; P1 0x38f4f5a50c864379d5aa56d280e61348d315227cfb88dac3bc649bfd9e4ff7666e604b0d689ada64570e3e6f2ace330a815d48e0ff219bbb7f544632c8515ab9aed 0x1d3d46e39f528d1c7c586af51285d9a2c85c5fbc7df6785d5f131b42eddb230503bed2e6a1182d953ab34226e4286f9cd9e6524af069684bc82f8670cafab63fa70; P1 0x5026917a54dda3f2cb527312f2a1c3da365ff57a1c58aad8f71f2e7cd908c43b156ace03ce670e6ac0bda3c535970b3239dcc863ba6fed2f54c8e652a9264280fef 0x344c7d98a1b57bdfc654747f7e90ea0c7d8949c273c851a79c7d8ca824a1e75b4b8940ef7835fd17413fb4620b3136e62cf942b5c4fb9b33698f8200ca3b04e2ef; P1 0x1006bed13ae83a802d1a36083c838467dbebdf095b6edf1a6955507d0cc69ecb98786346601c045c305511b73952fcac62151ec3adb968016f70145301b0072407 0x8ef6aed824e04a90bb7d1fa4fb0261836b7218b0b54134d61ec1d7089f53bae908211a27a7627c29c5c39c3a7b44523530d00b6f4566ea3a557a3c789bcfefb56a; P1 0x77c1e3826b97579a84fa583e662503b0640ad74b53ac827f8ea7dbe13625570d25868e184d7f4525d18a0c6608061a88a1fa19e3260e2938d434c08430f30d008f 0x1d2be8acb5f76e1e6aedd2638db6495319b3ff282c5e282ba4e94db472e8959d8ddaa2a6fadf67f36065a8fdb2f69285ec6be31a5b44dcde324f78c46c5ec7e303b; P0 0x1a97d1f8f5c5733afee5c8d54dc6c3453a53b201175bc250dfb379462b7447570ed6087cfa473784cf16c9dd095dc5b2676a56667269276105ad072f233dcb3b522 0x4db3893899770ab509ff4ea4c7a7c1556f5b2b16ce32b278deb5bdcf51e9bff2ab8121a83a7ff34408adc8472776610465a933d9bd06614464420a582227dde2bb; P1 0x23603dafd888c6863016499922ad0146bb4622ad60e49257b7fb3e538982ec7ddbbdcb8ac21902224c26798e4bae03d5098ecda8a1583e1e96980e6ce11e070a41 0xb96c97a4749f66ea23a021d7e3ce9e8930f39ff3ab812ce9bb149c75cc3d1946d31ee28d2772e3916fcc66fb3e107a9000ff6bea7c03789f7e7af4dc17cb0d280c; P0 0x4327109dfe921a3b74e835482980d6780ec6d91c7de3951f2f47931c648c935510411ab9a74f839b621bfb2cdbfe3dd473957c80fe7214e6ddc659a64a21db4756 0x1665ed21e063586e9f1602a6357709d31a85763d590754115e868ae42820e925453f05358ab770c3602b1446baf79875b6c0c0669857623bd22477956a2415707e6; P1 0x2f08402306dcf4f87fd68504b2350710f96bfcd4a30f524897bdb81b71e33b9af31c5bd75fe2215475cb90f492e853b3fb88d70cba9e02ab9c1f724f7aeb4df60aa 0x19d6a33bd9f827a5e242080ef389c7abd2137786b38492509b20eaa1f52f171687463cbb69f78ed317bc452629899b9ea74b0a3174912023936cdce7bc234968896; P1 0x3e96fc281143c4955fbfe7c4191aa986c2f573294594ba9a11a8686a79953bd9c4fd8c21e39eb480eb616f13d338e4ab4d41690193185a3b6e805182a65380baeee 0x1000be45ab1e2353968e00b3c6da91a568fd69affe1c7979aebb0ab5c26a5286667fe4c19118d3b221d68be1ab781a219cbc11bbcd02f76b9615fee20711202d69a; P0 0x800be4a167a0b06ff112af3105c17c38df53480426e99a690dd78859863453dd8038b946b55e0f14a2e88723007b8a11268722d2885037434930035c9e5df86e8e 0x195fcdd7920404ad03f5760256e019422032f56a90c80f1392a253253ff91f951f2f6b60606cd5ae03c0934c74a8db51ce0dd91fd7eb43886fc1fc7b6c814464332; P0 0x141ed0743030ea3245a34c9a70116d36f73e01a37b239eb72fa3acb2c78507180ef52ea67ed6d4011ac84023af8b07929d92fb7155609756b972657c58d1efb1171 0x5d4a57b0eecb5b1f433c6a5a4120a8dc3d726681df3b3d57f3009938ce594d815ba8af4c6caaf4b9844df416f40e8907f974dd04fd5a7bb0bd5102e975bff64735; P0 0x10ff8ca6aee9c52e699c06ed2bf1958f16e49188b829b8d01678e46fecd9f185aa28a37a13a65d50a5cda8cd2b0cba87ebb1ed0bb6a4ba9ac286267dc27687a885 0x81b2585f219428d52598131ccb7491ce01de8e39194ef6aebd7f60db02f3c11df6a96d975e5b331bb6be1f9a8063a873d9a5828ac7676f058481a779627a32197e; P0 0x20da9ca77151c6cfb25df5871ee02f2312b6135eb7425bcc96c32ccc5ad5b371b1c24636c9dc337294d857dd777c2360c0b60a9fd58a811ea1af9c2122d1b9cb17 0x1de9bf99ddf13ce1f3b988072ab44c685630e880aeb2da89f7fbcdc70b07e8f04c36b33c4ddbe37f4ba5a6bde9d557b038206399de7d99e7d0512c88bb4e17ba51b; P0 0x1bf656b98e2cf4a841203609c16e4d44c1174debb78030f4a5734c19c6417411cef90f866d3c18b6f054f89c8ad0119c8f9cd38aea5947c7827b8d2f47c050841e6 0x72962f8efae474d57947594e00a1780f66b6895af5272a636ee653bf53c6dbaa43ec88d341c3ac2d0e3c1fb75b3a0d6d09dc149feabc74ea49a0c908658d7612bf; P1 0x4cef27b2a9c2f1a3549cffdb3089b286490c26befca439f29353e608d2861dfd930120a20c9bf55e496ba3b4243fab4b5413f977b1e392e7f2d49c7aa5591464d7 0x65a4038f54ca9124b1db8c93217ab76c9a56dab6401bd6c0c16a28fa19b6996ac4b746a45a8794824037ccbccd8563cca1a749f37d6b6532a64fec801a676ea45a; P1 0x3c883dd57ce5b97441b8896143a15be1e592fa3c65ab317ca722d87dc90372044a3976dee4d86fe289b9a8c7d3c480da33ad3fc3f4aabd12bc5294d0eb5bef6386 0x17721f96d074b262146f2af79511f44286698a0a5780d706dd3454df48fcc6c09bb36bbeb00d876762c0dd2c8f6ad4d7fba286af449b4b82fa77a3d9ff99481b272; P1 0x3388ed3df82befa8f153786b98a0405100e12861e10a8e5c15062a05dba83e71af8ccafaca55f9c7df7decfcbff477dc84294053a164b410a453e1685b46abbb79b 0x165a22d6a0b48b0c1ed86ff9dda421e5034eae925c22b278323f31472ab99d8270532666968cd8aa2987c988a3623e8770766fd87a9707429865769671bd48fe7e7; P0 0xf9cedcb3a2debc70be6082dc40dc208b84bcce7ecebd94db280b55ced49992dcb29c00a141816b2f2c86208dbfaaf251b0001a0b9d82f25c8bee1220351e95c6c7 0x60c983de777fc640ad2c6e96a9512a70820098a3344919ee8515f9a80336b6c05e2e99a8708a37a93b171cb1b0545fd0ba0db414a3140eb61d7f0595ea9cba7938; P1 0x36e3a24ac95760711a99014f5cc5fb7bfa8e570161ced12331e304e498243e9c626263f0fba6745a7046adaaf1b569eea18fd4b1e0e354ab402b7122b799343b58 0x7a4ce185bfeb627555204e34138cc51b81a22725b23795b1cc629a15d9b346e5e2c5524b0bd8d51f8e930d69f914f83e433e192a6ecce82e56f1dee48975863018; P0 0x1d36af051481576b842a7c4f26728e70f9903997d97a889ca22ca88f1498c21a592ea0eaa52acb646633028d16319f84445b53c0485b31a1ee909d90d4e72ed170 0x12967d596c9cc92976abea605212a4816a83dabed77cdfbc039681c37acf7f4d089212952211364c8e842e116e6716cc1b333f833b8efd6307d2f7bb8d13957d3b0; P0 0xacc10bdab8e3a9b0692272afc8d3392d81930680074be0013405d580e0f9349bb5b21065929a81efd5e106d0e1f6d726a1f25be82de7184caa28a874bb79da995a 0x7d252b6161485bc69bfecc53aafa84df51b4e13627e145443659b53bf53ae63c932ad4d2b655e3d7db46d1cb226a3145d517c1ccc15207ce17225554816a86325a; P0 0x1e96a8e155405221d4310d0d6bdc5415b0f60a425280e88174eed54071499d56a31c0d2dda8ba92b40a3d02b12de05b0cedd45580bd4621a8fd3e0dac634749c35 0xf36295103f76bd5914c11bcc14e25c20b4de88a5578027af237f06b6bf52b0a7165b33c6d059127e61fb224a8a73b82f057ed2bcecf495908dc44211857c93e3d9; P1 0x15b16736cf793e3ec72e34646932b630f120ae8c92344fe7c9ebb20264f9f18012f09c9e84348e6af538974260d5d5f55f885e7fdab812e8ef5201ce5fa8efa3906 0x11dc5e28f79ad639e4a5ab0810fd5f983170b1b350b9dc7e4102a1b4d4af56ab936c1fca9f8c8c8ac5cf8f20952f358a43e615b58a34d10f9f7637068e598fbe2d9; P1 0x1de834d1ee55e73dd98e7c07472c3d8bdee2d7d68166b3a60083cc9882ef4d47f645ac198b34b18e043301ba508dc923702a0bc81b5e79b6148925751acb545a6e6 0x10ce70237fb43b5a6346835449e9fb2be2af30b05140c300fbc87b6586340ff7ba37e5e670ad9250bd51bf0ea2399d4dcee90b237fecfa51bb8b1180a03a0e33ab9; P1 0x1a7aebba752b337093255e2e8ae553a23cc0c7048f7f8519e4873fe7bdd44d66b7351e794786c54e723aee7f80c9cf6153cbb69dd4911cbffe4fec5b498d1284f48 0x1c29e17145b7de2a944865010c06794f4d43af69fff556721775cfca672174d2a6659d60e772063b103c2cbe510730eddb37bc0c20602f64efe3de9aae425d35c5b; P0 0x18c981562086e1526f478ac8a049670dc07bc7e0cf79ae0563bcc9de7e7c7644f0a81eda864de6708401fffe445dcca121cafaf47732b0fc5b1f96e69c7afdfe889 0x51e8b1578fde3df5239cfdd180a6afcc298e142cb4d69b5d300797fad5db4a1b79f3a405ca8bb474952e462ca0e44892815ecdbdf310de09791d08f135d3370e2; P1 0x274f9d98fbe6655ec4a68ac6f3272ad40f5486ffc62abe5bee6b3d962558d8fcffd06ee01a2a367bdc03370bc79bd2b6ba4e082fee5d6a2b81bcad5b950a9a85 0xfe0c34cba0ecc209f7dabbe50bc285918088862be64414147916227b1b3e255de0fb48028963ed49392c8c6c47b8a414e049fb4a8004f081292a85a50eb4823111; P1 0x17a2a560599f863e2265ccf0e4bf77b46d2e2608afdbc0386115cdc7f92830d3e17a21eeb2d3b623a53d8fffbebefdee8b5d9ea1a141885ef205471d582bffc16b1 0x1c87e5033656367c59cb125ce94d011518cd59683d3c81a3f05ae02be63479a19b8b8674b7a25b1d03a405645db37510ea2bfe3cbae0265323035bdb2b813fea014; P0 0x197011e0512750c9ce9ade31bd520bea71df2bdf55732155b160c42324d5242c72aa0f602598444cc79a6169e5ad3975e0ee84d2873d910fe214ccc2516b346394b 0x123f17d7ecf64c5deca9bdb457cf3efb31d60c8e98aa8fe3041848504584d8b5975df41feace164948a510c764ccc54ae49d591427707b64a0cc885dadbb70f3adb; P1 0x1f3665aa9baaa006569cf6a2becaaca1bf919dbf1fa83511ce3070906be9771ece1725f2a6f3455b833ca2578acd935a32f8c08d1e230fe45d7f8090a3795d9e0ad 0xa263294d69d36bb534f2b2a678576b57a19a9a33bc404bc4bedfebe1b4e06abc4ea542508fc8a23ae49b28197c4e8f5e00fb7ffc7667d37dd5f44a6b74bd6fc6b8; P1 0x9a827a066bb5f9b7cbe4191cbd9cc8f541d6ff0e26fd48d35ab33688754fc012bfd035a5b805ddf6c8d03e9c54ab70505fe52650199e9325d8977a41b9945a8828 0x17ae745fc4901aa289888ddb09a8676c74bf0604e91054a19da48b13e65d045e5936d8f637c75ddb46114c29e7f9bad756671f598a835d469787b62aaa66dcdf4e8; P0 0x11867e5ce340351bdd6c52570cf356678ee235c93307b84db6b934f8a1225c12d4edb52d0cee47db682e91f7bb1009e7f772901c93396c554d39f5131f9ab7f7994 0x1e4e68c699afac9458eacd2a038b23905863ed1811283f3db679a3adbd1805c456a83409c090bea105562cf2fe01de49795d348565631b2af623067f719615a8bd4; P0 0x1cb3c4947f6653861bc14dcf4e41658994557066d9e02cbf26fb462e0b450793e8195f1e24eb5d6f2b0f67217babee6ac4d61682609223929cda2f0ec70e3ad5d61 0x1dae8179fa0b60d3bd2aa1d06bb6aeae5ef25b18f55b35e2b79454a9a8a8279e11c61977a727f8d1bb9e770723f24bd21fc52959d555af857ca8a1111d6291d44f1; P0 0x1b88024f2f951c2b1a0fa84feb1eb199c7ef6ef715c4dc08e678ecbaa493858002aa1f6fcdef761a95e297a22976d259b64821a462fcd8e8ddb9b4abe5b26ff0011 0x8b7c5f0da1e87114769d95a3cbf44fd77ce9c0add64786bc47ca7f69a9783c51dc455eb33fcd5cf7ac9949e9d4b2d96671460203b1df8e51053dfe66b50a29eaf2; P0 0x260025d28329316f104873475dbaf6ca40c9bf0f664b38e0f76db1289bda1c7c708464a51b6d59a6177c1377284e340f168920275395c9411877afc5b325eab44d 0xa44a5d318f3a7c9ecd415f64fe5cef4512087d38e738771676caa0f53e7f49ab290454b20be71573df949512caeebdf8f366ded10d01de7bd2cace251f270e0111; P1 0x9e270b8243222db638c9d9ca1ad56df6aa1a474bf15101c12925dfd63f419d1bf67285c6827458a7106719263f5b971c9e32c76ca270a60cff86740b912cf31fb7 0x9b4886d0ee7f1a6e4219429bb8b640571802c710d94f7883ca9235e1d3c90ec5e08ba6ee94acceeecef4dfc71bda295a791b5afc5dc28f3a92bf815f31108a891a; P1 0x8d495bb3abfd308acdb2163a349c7b025cc1f8e24fe96a4d94502acf865312c6f5a3912b248c4071a6f8b062446b2bd068173c6243fdc8a270eca0c368e76e5b0a 0x1fd6555c182f47d91644bb4ed85ee9dab2565c1bcbf86738bfa6f039107109ff5762684da912cc719a22983ff303933dae1015377477feda70c4cceef96f3ccdef6; P0 0x1face0f902515d1be2849a60807753c771b65ab17cc68b219c2d4c02c1df091cd8ce3cbaeb76918de4bd145284a4c75fb8f290af7297511ae95afea078cb2ff3ec7 0x153d013ab2141174d1e167778e5aa4508a496603f988f7a5bbca7e4300307af377620e97026942c82ec1230a2ac9da262a205e8f3ee9a94bff9b865370fd13ed32b; P0 0xe1885e9b98d5a3689ade687c4abfdcfc13644ebd144b2d6940ec380983b6750283959f75715d5fda2ed95db35a473e132dc27550c112fda3b35ad070e47f369a9e 0x14034fa60551fc19ed9a6c3d506a52a3c81238e0bf2e3d263dfe80300d07acb3f641ef9c1db2deab0a09e4c11459cf9f06478037b94ff23cf5cf9df4e25ac3a83d7; P1 0x258c6bb5b413b6530a46c5c1f893d5cec93f65939d63bcd2000b5891b2cddf12166f0a586470e061257796159486f3ae33fe0b580948bf7d186dca61d6a7ac02ade 0x19cfc4ed0ac1de54e8415217262eb5aceef2b5186cd0b8d54c9cdb0ca5d3bdb7240c40b5dd4d52a1a5b2a2e5e456f29ab0e396b618a7db7c5d957bb897736b56691; P0 0x14d1e8b2d768b73f543e05a7a667e1df56d5bb9fbf25f88f0bcc559a78d950b55086e1df6b3d1e163f992d4c1ece141231e0387647c528349dad81508b878cf4b03 0x17aa4dd698acedc2d5d07cf138cc74d8ecb57f2d6994a690e799603a848eb03786be884970781207e857c6381313641ec303578bf71a45e5e794e089d55d6f12924; P1 0x34810ec0c2af630a292ef4cd743170ce060d667e7497da59e5a69bc067e52f6ce6a1d8e4edb792636ef2484c82619054d2f2bb6c437141c2c0498b2432ba345b31f 0x9bd1b3abb4f33dcba120a2dcec4388209d4b0a817e4509fb7814283a519c528e3d99838dd9306774fd5fb5e42d3e12b6b08f8c727a851a87ced6acecc7a8735a4f; P1 0x8e4369052e605e52515155d49b63cc9646207597d1943e222609481237044f5ffa29553df8ad6ae490755b8ab2a1f5f8711c644f06ae5504b24fcc6dc1b6677ef1 0xf0d29a79d5ada0cf2b3b994912226d728cb900b0de88fccd7125e70859da371fb14d07505c7b0b53e5df9ab1a4c482968879a777b4bfead0fa9c5369bd8ee86c14; P0 0x7145c7731edf76b86d742a3345cd2bf48f1e91a2eb16fd99530a7f66348a97fe23f6a460df913fab4395716b417f17b6baea255920c2963cc1dbdef37f709b97d6 0x188ea9989413326b17d97ef7fb0b4c8584b4e0780f0e6278cc955862dd639d3e1db9ced32dce6809582c3c0fb114b078673478c51edbf7ccdd74c759bf1b27c7966; P0 0x12d87a698b15698c4255abe97beeb03381536d080210d79dd8c43ee7982b4d737416040fccd68b539a41a2dd577532fe65f0d68c8ad207507ebb3d3a324b8b40ce0 0x5bde44af91ecdb6e834b5ff68386f0e49da7678c349358014123bf893d7af9c72da08bfc56dafbacecfef3811c57a9ca1d42e1d3b982abed6f80df0e886515a184; P0 0x107be2e802569c5de74c17c1ded4f81d0a6d899f37d6433ed263e9339bc7d93816ddb3179d142fed3fba34fa24ddedaeeb6031ed818776693668dd848d1f39607a 0x42f315a0a6724d47f7d41fb547f1f183de78b8ba8c67c30658c03608771265083a02cb8caf01f5c167b39ba19302499fd30fd4ef8dcb27d29bb965a4132cc8ac8a; P0 0x8c11efc7351567b87185a77413773ce3c42d0a0591b8032342fd8f5958eaaed67dc99824d58e1f6bd14873c3c8e80c4379a7aa5323cedd8d1f2c5ebdb271fb230 0xab756b369efeb86c2e370c5b170f047ec49ed23c4440ace036caade8892dfa7ebfa8d91b3ab5656e756e17d8970866611ac1a87c2db81122765659f0f4a3096c94; P1 0xac411ca137da7da83b7f2548c64ac41c4a9de242d3a51a31bd7645164277ae1480e90ee2010fb136d8120f84071e555f3b6717a4033a623dcdb79dd7d0134095b2 0x14e5ebcbc54ccf617e5ee5cbe9ddb9725703bd9f5031d18ac57233c374ab5ca26e25db0450efd60804556b494582812eb63920ae112853e5e0b1c7a4807eca03662; P0 0xda5dabc5495d1fe2640d43bb0fe0f62e98ed4b96cbe5b29183b5c0f31ceb4fe9d9219b989748ffaae3d1f57c0a423ff4af8780d1d6a00ac0a463f974bda460adea 0xebc3fda9f531149d95540dac16bfc46d1d69c588581085ed630f58e57631a9200fcc5bb112dd6486e1db761bbe89a43d8ed790ce5940cc6f02937356a25a6e2b6e; P1 0x145b21ea3aea3862310ec38dae39cf6715b25954989665bf5ef5a8bc7317aad7677d9a754fc98bc7a43a1e5f3218b89bd7e90c088be3607cafc1520109b7533f1ce 0x66b3459ceb41aba1a88a6ba47c0969831b63d281ec41f1d45817477bc70f5b033ddf58989e96b57699bba624e449802e9db2f74355eb39c1dfe947a01b8ae65b9a; P0 0x1499ac81bbeba4cde68ff9968416f2dda1d23e8e0c12c8a67d0663d505bc678184d8a9315de15a594e2ad8319a6aa91b5f8d97c833c1dae49d74a4fa04cc35783e 0xe8dc2cd900fb692075f9ca486edef35f8a57eb42f53295663cb6e25e6249c079e2a9dc2d79284222839d4206d9a8a0ae9765bbec20f2217e052285f68b8db450e2; P1 0x13db7b5f9a5eb0668e9f9caae37eb36e703105ce47c5bff658b6e7d0458777de9a427a4587f8c525a0bab0ebe3234fe5fd2e9387a868cc0b1432e504feb54ff7d96 0xae5d94278d54e1f8358c2e1c8d57140f4f41a3666d1458347db0e92a86b3c3cace7969dd9d5be7ad60ff5e498859a2b01ef7c41dd791ca7d8499e3387fb7199422; P0 0x3b61abcd5f4cea300d25f5919a1ef71d8670167d9d8211cbff6866433837eaac8e9f27f1b104a525b040d8d3137356e4684a8ee9c7ae75fd83ee9b7ddba10746cc 0x16f27341597894f1efd459a929e901d3059417f965445128cdcb998627dcfc12f135b4b5c90c75f8590def3f72c1e86f0f2de1dbcc9acfb5ed3a60cebee81629b50; P0 0x10748b6ab68d4520979fec9add2f5e27de43541a9034e21254b9fa23df2cb8bb3cf6ae0be8a336bad645acf97bb5f6e28655f895a210bf76c3b8877ae8f3318a98e 0x166652e6fb5102b26ab3f4015e393a5b4618cbe4a569565e3dbabc75dcadabf0748d9f2debec67a804c9fefb6fe8d5c03371671ca9f1509f485b5d9ddd11a92a28e; P1 0x2f09eb8cd2877a3e3ca96d164afe03beebf3c74940c22abb4a46c3cb67e5dcb90062a15fac21e15aacfc60744bc8e928e73de911154e7d7632925969cb60cdf5c31 0xc2b329f72b25141aca9041f83b6ea4f6fb369ec6f9f241a5b8bbc4962650e85b72135e0fef4910d7a756c156fe7327b951dd0d8e72f14d75330054bb52086f707d; P0 0x4a0a047f29f5d16470de6236b20b6a8ef60c054cf4b6ae44f7efd982bfeffc830d2232876a63b1073123de96577eeac13a8067048ad2d718b18e5bfb524f65ea4f 0x1491781bfd75277221cf041398555030734397713105d27d716dca83e14f3a7591fd03c10317cd03cb97c31cd6d2b3b18689b5a7f248828a83d9665d0f0dd398758; P0 0xd386b6d3d4d6c6e59a5e3fc75b974b1793fba825d64dce077d005ded362266c0db21d7f18302d6767ffb84c9d765c2397f2b59aa69eea238de96a2a15fccea2f2d 0xaba0213a690f22f4961578c20afe9d9c2729ef83c7ceca1e45ad5d91f699752252fc6a42bfbb7b7039de67e44e393db89c0f207b6f75067ceb890bc6fb49a81d6d; P0 0x3987a846cad6d4040f9c4da0bc53dc5adc22db40cadf0d868fa5381a257f482da0df0c9aa4909d37e282091351020906165755f3002b1c86381b28f8ff96b845e8 0xfb1725f625ab1f8b54b8d7df0ca1159cc817ff5d6e38ed517957891cc33d029df3929e19c6f163189803a819a7bf4fed013781b084ee7814e0dee697ec632a2651; P0 0x7b23334442dcb415625ac025ee8093ab7386c90974a29873beb64fe1e922075a138b3fe0be5d4c9772cd9398b4f3b72a855493cb732e506efdf201d27dfcb9a26e 0xadffe5ede784769b7b762fa42722ec3c29f0b4866e501efe179ba92215046fba2988a7bc9e176ff8095e6a543d997ed53dcbb7921d28e82631fce1a6693b09c80f; P1 0xb165cad71e0f9f39db2db0cae8200e61eb7fa93ea5bdf834332100903c13c4d66d23357e9aa4988562e3050dca0c7b483da733785ea5c242c14e34605d9c8d203e 0x45c0548ec138141975f8bc6e78f5c6491c3fec9ab6c45b1f629370645a6d25b6b97b8823de6d2720aa59a09ef2ee845c83830ee04c62e0669f6693990b62bd72e1; P0 0x9809f09f31c06adcc82d377bf8e0eb23963d3fc9bd32eb4d6d1dcd005693f0d35875bc6ea02a34aceaf51834930ea17889e330875a8c23edd9b2a754644bbc655 0x4f38b6bde19e164170bf04f8f90401917817a8ee14707dd36dbcaf036a3dd52ff4c7e9974aa2fabac53e6012789fcaca1e5c41f76cc6a33800eb3edec35c82f016; P0 0xc4206acd3626844e910332937518386753bddfd6f2fe1b474236a8842ca982bcb336f02180d279f0a90229c841630333582f35ee921b7c2b717796110626d7db9 0x177420ec495105c04306934218125766252b1b7a58a42259d2a38ddda2b622e737f34a1c575f791679d441e813fc06872583168b47d83160074ef6faa1ce9eebf9d; P0 0x113094c27c57670a30cf34a6b9730ae22d0db343428fbcbb140f1f0c55bb3e7e76d8156fa039d131c1352b133573ab860ea2d68eca10bbaeb614db11b124addb52c 0x19449ff179743f742258af141d017d05967e02f0a7bec0808a34ad39b6aadd74826b6bf885cfc852bda64b25559c589d618d91b3ba19bfda26fb65200deec355b75; P0 0x13f3cd142f7896558dc32b38f1fd34938a16a1f1c7f9eff5e105cb1052e56c6cf2e667de2e3e0e092cdc5d2f14ac279e6c4da8f9426b5f8afaaf3003a4f23950699 0xef66a6c7b4ddd3fd2031a34aa968b1e06822468a3651f730b7be45293937059151b356384c1e9cd417aee6e89304808eb4339a14d0dec05786c7144f9dab36a12; P1 0x14fd13edb5342e36ae71a53176ae9b507f6c8d3b4fd33e4bf9b11e1207b158e25b63c4ccdbdd744639b7233741cbb1c87f0f720c96483ae4cfc596b3c32a09fae 0x176e90e883417bee377011e00d1ed522f73547fc3100b3258f2e20dd76efd3b2def458a00775798525cb1e5552220920246102767440a2c88b4eca14b74adfd5b7a; P1 0x33794aff2237314b621b8dd38c258b0ab58a5e9b75ff70e978a9703d3ea7fd0be78025e51fd4b873566c00ec32a98740053e9cc039aab2140ee81928a9eb1f6157d 0x10e704f7a14afd7d15a0c549970838d104af6462526d44bfdfcd7515baa10ea73b42610d989c294a973d394e21ea09cc3a5430b9d490c2b102464ceb712d71f7e9; P1 0x1ac89a560bab264220a667d4ae9b171541a24c11ecd6d82661eb10265c4e865a86e1ece7455352797db9b9991cc6c018634fb084d9489cea8df275cef261b99ff 0x1fae94d882cbc42f9764dfbccc2ed833c991040a3ce75c8507a17d1c896190f5243ad251c14e4545ce16507d45f1a72d000e887665bb180e3b9e5ab0db3476bf032; P1 0x5e19ea8aacf4f483352dc2b8fe754e8b951f927619b8b75ef43be36e65e58fd0dda3d77b14871c5844aa02842c2c9c09eb165c8f0d130677e88b48253bb00b26f13 0x10d9c6e509ba96fa9f78a9f9811d6a1f55db7db2a76700addeef85e3174be5bec6385b187a5d3a4b245fb0771ace7a94c43c33e71734861a5837ab267ba362fcc5f; P1 0x1a9eb2f220d5dbf7bd4d23aff8f3b262db7bc4b032f94e442b98c2b76bd6000463a99bd0dc32d25c0fd32394f05fabf52e0769127bc3ccbb2d97430fe92715b987f 0xacdbec86b1ae4f9e2da845e8b8c0f467857550255cf7e8bdbcbeb31e674936e12bb07c23c7fd45df4745ff8696eefa8aaa4cda03211bf697772a9dc24b7783a42; P1 0xaf1464254b9e4688f9e0979b289e1f3b4bddca6347d3b550dc3177a339f25f1081c557180c86a41a3a03969b4a98494cbd6a2a14fbfc694a1e9c80d5276dcb62 0x1e6ebe840ddf02f8807ea1b42e17ba199dc5d64eb6b30dc9776453325c246973262e4ad66762b51dbd7abe441099db02c5fbaeeab10f3b2a50d7c554bc83cd3b66e; P1 0x56d36d6d7c6b5953438ab73a16d65c2d6fe65e1dc96f76157f7e204bced6a9fea0ac89e7e4a7a0eeade4d609cea19cbf7241a7152729e0dda205ea28d06bc006b7f 0x19e636334f5a5d031234366abc776ee3ffa794f6d4987087a2206a2a2e8c655a0bb37fa23df4650a397255512d1e48469929493cbab9df21c62f036d2741dfe314b; P1 0x3ee28692fc1e272d95f3cfb00536acb281d609a3956e75ffb4ac5e1f6f64681a263639d71ee12df29f9059bbff68f8bd123b54c16fe03a22184af1a9e7098e1dc4c 0x1ed6cd8116e09fcc8c250f5756236d029a2cd5660dbb0551a11280cf4a712c326b958f887c34367cd26f9d6bc008e559e509a2e0c1ed1ec7e65a244810b21d74037; P1 0x5929299b73a571860c38410dbe07fa5efe3ef6004252a61ede5e3694a511d4efdf87bb90a9629ccac5bd53d8b39ee37e18c53636b854adfff9e736c00dd2e96506d 0x129f100302ea1850e754ed22cf08830e1f193ea100cb0e5d208d4434868f1aa4a1a1cea9829b1645796a2ac893dd606f121553e46985ba44e74322473ac7e0ef3e0; P1 0x208219ff9ba5fe9de61b725d6b7ab671dec1e0ba049731e9fa1e30626954c19433ec08356e5f13813e3c111798da18faa876b8ea98aa9f7f707e90103b0d80c79f8 0x1f0fd14ff643276704d0bdc2926abac72fe738317a5a1b0e54b6b9d2b0667f5c6581e2ec5c98802cad59fd02bdb35431b614257ffb23785aae161d20d81168585f8; P1 0x5a74081583a2cbbb2e02acf35451aacc45d95025ea24f058804f33d8140c22e65fe39cbe4cc31fcc45f32c4a72fa3b1d3407c89e6179cf1b27546543f65ab1f401d 0x16471624b05539580307f6df98e1886135dc59e9d7f7c12d29aa76d029bf1ecf0b1ccfefbf4665badb93cd641b00363aae9f7016bdba09bcc2a436a8536f88220dd; P1 0x2e8715164dc2d0a79ef66039aa60e13b349641b49ceb06748a87e64160472fb0cdef2461d188114af7fcf7891a03b034764d9396d33e3d68701f0ffd715711b7a6e 0x1ef2ded2bc4aae88ebbb5e6d55b45a5948b93c734f5418524baf48614084d2a6bb7069f2f39ebc0db870382979732ee92b6d765d9f8eaadc1819ae37a3e2f1f76c9; P1 0x59cbbf522bf7f3794c2c7fd81881e4d840d60b1f831b313aa55e224b0d4192980399d5c1bc6df476aa3e1b497ebb67b03841b2d52c5ac7632ae2b8d10e3156edd4a 0x10a19dcb12e4296cde6c177a96c4924236bd883a0cfd2cd856f5b7b6b3ba379f633a0f1e80f7dddd4bd5f67751a9abc0750246ff6e8f7f0ce962c541d6a72d29abd; P1 0x19ee6a1db937da2cd311550f6c0e063d935f690809c1b4bde4bff83f5e5d9a985747fca8d531fd8c8ce2f3df3012a8a8b00058b884a9a7f2089f96c151ecb9a22f1 0x3fa2f48598e1bc3a128b41ecf789e2d4e2a6faa0f345d5d971067cd62ad8da23496b33791681f214b055286060b7dc2c6a6ad222475d3ec2068869b5e27a6df18c; P1 0x17ba6a1e35d54e3bfcedb16e3feb079a36a3d07ca33b11b33eac26377c0e2bf7ba9e6083550b50cbb6d5635dbaca37e4e2061050a2ad7edbfeaaaedf543f502d67 0xa94311d860f116675ea67c5893773b72b712e86728f9ff68123be72ed567b36bef581fdff44ae0ed87f0902f5b4a07932aae762f17f7f33ca0ede925374eb2db17; P1 0xa7de6eb30cbf424ef064e442e125d20797da15e373d6d99a4648753bc6371b66c48355bd20b4fef52c1a62934cf5b4e44e43bfdb8536c75075303ec3631991c0e0 0x8dcfe5e68f2abbc282a549d4de416afb2ebc355234d9d37de7be31cb1bba0f0c03576c45f185068b52a3c608f81fd9feea2da0caac4bfb9a7f36f9906f5c06d513; P1 0x75d602205c8a5893e3dc3e28b47c64b5d5c08e1e1e5b8fd18d1fc9cb2b67fed396cc3c2ad0fac9385ab8639e33d41976d4844505c6b44c92e5a96740369a581213 0xcadbabd745aaa72991bd7777ee75c75fa7d00d0b1ec4cd8b3ac5880dcb0614a04b2c43b2adaef5225e446a638383eaee17e449e167f84d7ee90e6e6fa19d0df04e; P1 0xf11f1b86c769b4cf850f28a4a56e8fa4b70ada98592ee12b772e3421395d4ca155386f4d0f96042e7883a3662f398927b7c38fbb3b8e95694288463ebbc79f2643 0x169dfbf583d3dfb1b0d70f6719fc08b0443e2521bf97063016eba5ff88a45ddce82c19afc246a5943f30f48f15a498d6963279f4b5ed5582aaab0303d95a81a2d8f; P1 0x2ff4d33d0ab346ef7a07f68c53243f0c37628c750f8434b4741501b2f6cdde1540b2e4fffd46998b54a899093492dc1e2f8aee22d4376a926ce302bd39183b42262 0x549d292f7f355a54f21e3091b40326927d9768b79dfd405897126c96175e9898d6c5bcc891bbda6b815adc1e3c520632f894031acfa6fa86c014c07a5e6f2ae405; P1 0x29f34544118bef6b6239b696dc251e2e5c3f5a672a495904d05bfeca080e8d01ec9dcd103779b818346f90dee71ff577d262b81317c4e5f8e57c3f22179ce96821 0x296b5ec10abc530c573be0774f271fc72b20b4ed53a1b6ca001e118c84d0abaa569288a94a3e20a18ae0e287ad10cfe82b8d74c767d7de8daa0a0e73df7520206c; P1 0xa0d5a1344d272384c7b75799c24dd52d96b45747db75e56980e0ff7d3b1fb47989709e6ba1a716f87c5a7faa90d53f40e5c5367e85b8f66da787b67e8dd6623da 0xc68505163f3db8df0b1b971c28a46e844ec871495144e2c90fafbce396e03090a2f07fe634b47383e914d62a8d9a79d442c14c3c2b1ec30626cdfb196162b7ac8a; P1 0xe6eb0d7b0c9098c3ae963796710edf1630ac424aa7d9cea28a876786d3305a4e06c6e5287138239e7bb25b83f4b51ad2db91f14759a1b75fda1d707cec34fcad21 0x168a4233c94531b372af0f34b493265468f30b805741f2eac4bf6b26241539f8a268b83d7ead084fead5981f7ae454616fe18662ea137062d41ac23064d91bddc4d; P1 0x2fa151283517218dfecb0188be22bead01eed0797043368dc3302e766a48852d59d66301ca080cf5d50d4040841031ac7f4fc88c7e27ecf4ab592e124809654dd81 0x323a5501c6729e23d560a8d5e4c5a7155b6b233428137ce05c5d1df390cbe53a13ef974fcbb640caa0228ba0699acc67200292fcc9e0d83ada62936c915a282afc; P1 0xec841befbd34f4160ff767fd93e0f1d866ea7fc5607b2aa47346ce0ae26d69c7c0d5d67f82f9120a74cf8e76528695c786f9008dec9db091bfe2eadce81dc518b 0x1d5740cec1dcb9f96f540bc95d65c21f1837969fb949af94dbdec038180b89e82bd998913d87565d94d779cb4dee034576088da1e521742fd9656f76fca73c349bb; P1 0x50b53a1ef49b51dc6adee6ea54b141fedf9654379360edd43998ec8e595d4d99361651b7bcc47ca50b95d332658473e0976b2b49adcf22348c34f49d26c60fa7952 0x19c600c554996bf320ee97061badf5fdbae31482a443d479b558d9e29617312d64a81add7f967fcb398bdfdcff06d75cd14a44d2b1394f4b2cfcb447d669f55051d; P1 0x3e467f199a822c5ace81650e2b576e9476f6d001c466114372ec0773a79ba72896bc9ab73f1a2a0771c2bb648fe622eea33bfb025939a1b404f181055fc30092525 0x6e60f27a44da4519590e77b31445df045f53ba2b713d9e39aafd3acbeb153f5eb50446660c8c3b5366f4a62e8cebd21d2fa3956a1f9ab9f0a5e03af13721d9500; P1 0x47632fa3becfe97bf51c8996b170eabaa24d59e992ed7a637581f9b85a96657c0e0a9069beb49211d67431ad90f9e2af20fbda0e47e68b7887034a8759a73b93 0x17d52e39134546e82d845f56eb4c15a02a298c1265c62e7c90126e493d5e29170c14e7b17ed5ca860ccf8f92c435dacabfbdb7b3dbfc11704cbfecb8e4a3d23b93; P1 0x353ffbe4f2d9d824b7ad9a4cf86571a2989a2c8f2e5fe7e82bb82aa424aeec35be2570139c17de0f2ce1f62f43c64e45a7943e0b1ac679da9fc1344443a1a6c1f 0x194b634c1b44038db987aa265ae80618a12b9418c3772d284f1ef06bf4477e3312dad42ab8912604d12b7c197cd95a00607081c1e8312774422d603bb553135af5a; P1 0x3bfb7644ba6d163d9f885c816489f7f0fbecfb90845c7c17c32d04c5223a8e6fd13995ac9860450e8580ef6dd5fff4c5c600f08028889f31c87250e992d15aca723 0x18387d4d13b9d2f4fb1bc78901ec142816cf5f339e3227f512f6183a2f76011e5ba452deb740aced41627f26cd20e6d4429dadd58a36b45b83f513f2ba0abcd2a0f; P1 0x36ff5f0441fbffbda5e7b8a2b963d4ef7abe0abfaddcd743b24a8c3397a71b3ee0645ce1d598b24d76a9344d15e931fa1fc31d5e3147d9e999bda7b4b67d9578805 0x1e71b5525cbf710c9c157e6ccfeca647607f55ff66dc9a52fdd55c745d8933fa611c156e21b55b4d7afa9f823ede6ed330f5986455f19e4aa34ce45517d20244ea8; P1 0x56e4581515079ba85b9dcb8ab638e744c726f8c22f30b244f200e582a6fd61a18b9ded7b7bdda505f99d570935f9ce55bfaa5d9c4da62924b10415662120dc5b4d1 0x1609ae3a05b61d37adafeb615858543f41b6e9eefe78cf73dfc1a1acb995780f3329b8cc35a0cff61247c91edf6f58bb26cb2c261542f5210c8b8d30cb2b4061f91; P1 0x2d87f778773f11ca932fe48487fcf86ff5e95371bd7073de129724ec8b87d83a89c276622c3157b0fd43ec99b2eb9006398a30a053eec6dda2d5987cafb7f2b9200 0xfb085dafa7e7eb9531651e9a763493883e5b76314df578ae04c53f6506f2b20bbe8c2adf48630cea7241004725bb2f624dc247452befa0992502d01983b33ce263; P1 0x1713e1bfaa8c68e7829d5657e2ea04f8cb367665c4c7002dec130999dec6578cdd28c8ac6bc76c1d800498a86400837a5244c33f2c52bae9247c1eb30a6610116eb 0x3f6ac5ca77ffcec6a3829087e87127d78b89cc5569324ce1550b0fbdaa688ee375b9afac965c435fe834a946fdf5a3667f5659869b059b7fd67e9adfd06ad1edc6; P1 0x179096d31152c6a573be495cbe4c48f1b6651f8ab98fa2f5faec4bccf42a2206e4b9fba8910c69f6c55aecd017ac0f135e0233575d79afaaac60019e168c7de7b1 0xb2d13716f68ebc984f5e625c627ec1ab3d904b0f188778a200299c7a28427daabf567fca2483652109f11e349964f1675ead17067eb46366fdc8852e80c2ea871d; P1 0xbb5b69626553ecfe932602d3a41ecd2417bd35dbef408954d98ed2a10e4d2b5b0e6e5277001097d5cbf468192e18e1a3d1e5204b43e0c0370b610600ab39b7bba4 0x471ccf93b4683f6b36249c7956271b0cb06bab50daa3d59871334cd347de38b56c6e86f828fe436067fd7da10ffc3b8af84581ba6bd01b3dd9d3e57e94eeb2877f; P0 0x9e07f30ff58be7a4e73908fa330f0c89d0c70acdb1752c0ef0f3b2f2d96bb51acabeef5e1b8782c5083858bf37587a245229d51fb28fffb97dad887eab27a3c54 0x943ac1fae22e44c8defdf88cbb1ce1dd8ff4dab03684e015e72b0594897a60b07af99414ef93360672e22c44b771d345161cd1469f138a7f44386ca7338acd6d55; P1 0x80bdfca9d548591b9828773fe7f7902727d094aadaaa1bc56cce2615d6bc0ec121f562be02955b2cfee2845e635a78641252ecb6f32f05c35454fc911c9080ad74 0x1c4168b1eee50e10011cd91ab82a490b1ad3f68977d7d17317d60e06507a186330d51d32d73d4954a78030641ad0febc2172ce10feb7f08d8b27d664ede56fb281f; P1 0x4ad8f6be225b5c0733409677c6d1eaae66122ecf6cd177840146d39bf1514bb2854ebc624c398e64b4c50270d624cfc6fe00344ef42835b5fb6f135e75a3bb92a03 0x5c6af05e7f590f87ff6fe3f69749ca68ab8c84bdc19ccfe348f270bc0a910744147e760d1bd091b0f41d8833cef3f85fb955228a26e1542b55be2074bbd0f44546; P1 0x320b8e27c9382fdd0d23c394353ce742fe46b0edf3b94eec91291b06ce1a998908a072388d14bf2eb21bca58877f327d81ac5a92b548145146c39b32cfdf66c4d8 0x1b9387f972f3457b88a9014c8f8637227276a89252142830affe656d83ed26d80f1d21cfc45e06e17c6c0afd3bbc54c820ae1549e31cd6397e35ab2ac8d7ff33244; P1 0x474ad8e166b8d82de406cce1c254d098e42e609ed629f4370260fd13d77b150c29701cd1cf2f1667557260714bda4d4e87ae7e74c8ce3133e16f8836287c026b0d4 0x22f8ea935fce60df9de02cc743148836f4235272cb7b2b0c2a7e7b87f66a3b21c66377d809174086ccb4eb25c0b14352f87bf95e2f5dc372eb145f37f78d0a9704; P0 0x263882b3cf718c9c59426f76a750797ccf2574c21126af8b30b9bc6e5452a8b593504b19e241e2f1ff660579d4b95178cd0f8f86955caa8f34be8831de978d129 0x17864429f95edae7730785b8d99381b998ef9a7fddb31a58e9c1a7e31d42a2e8736ca6439032957036a179710f9289d913a556e29fff1d41dbc05e84fa076de8939; P0 0x114b3557c7336ff7c474110e37db6ac4df9f93eec742a874c3cae9c64d467100771e3b18baa96d538209020eb6455b65c3253f0bff9c40a350d6cb800b3e19dcff9 0x472bb048d89d3c6951198b321462fd93e5ad48af34bd4a6f99a7d4ced727a24fdbb6aa316e3f4e569f68e80e34db0c6443832c75020ea33d6c84169de6b607deaa; P1 0x1dade4dba706585b35bee0983c468b8477bc3c31726b08ccd2548a735b0f21f453f25b9f5d34dd742733ae9b3ff76c25beb1ee9936de6f666f6b2d69f628c2af6a 0x8dfaec943634b1dee46d75f4fb18d5574977c3ede39d9b5934cdf98cc18bb54ba11954bc124ba7f60ea194ec524c72e57eccc6bb0ba272a73fe6e4d4e51da88a16; P1 0x761d8dd547ba46e836fa6dbe707134d9d79107dcc6c779a0dc4de1d40c0d6a00f015af630353e4bfab5c644c27dbd8cead7d5ccfe976ab7073f5d413543f06cfb9 0x151f5db97a838331260693cfd635807caabdfe470367db28dd35a6c1edd0708e77a8904218d7a6da8d3d827f1d8d1d0426296cf11dc382548781a656023c919fd65; P0 0xdf149c21aac462d8159c8e0113e903dc9a23040c0bec713e231608f84afbeaf7080f06a1e6e466b72ef8c9d5e4621ba4e2da7dc012bfa4a2567d092c770c827947 0x12e95afdd3270ec29105a1ee12d55613a2433dfcfcd83b3971a7b61094175b12189ba337621af89099d7d653713401d27f7525132619aedd2d50bdc08a11f0d4320; P0 0xb2d2c13a09a7a75d2714ed8a198951995e82ae26ebd76fed887d2429a73d04e0378c146d4b223e168445c77440ed0d49e799df1aa90cf4b5ee8b27c3461591027b 0x1a0456513582dfaec41bbc7d87aac8cec4b55e3cd93918ee66c123a2f08fced1f1130acf75f99c33acfdb076414af19d2d8ef4525f249e31790cc6877b86ac67b; P0 0x15270cda741759ea9cb178436e892f2e3b272865748dd50720eabe25c369e48fdb68e9b29bfb9fdee06749e1b393f1b8d483eacc50eb1f59526dd5ce2f5b938 0x1451d4dd0bb1c9c0ef697a3eee3aa2fcd8b1f0cc6b3e4f928ba94da8f751f3ec8f7a6978f7ee4d10d26ea6f43a31620004659a4a7ae5b4a055a0290fd90aab43851; P1 0x26b5520660e0c6535b9f372a7ffcf44bcefd47812b50388e17db914e7b157c7f7f4f6c2fb2d865016893fe1aeebe6b62f1996bb77e5433baa85d8c2153b3f4740d4 0x6e7a7c23c5a7c974f85f0a68eb877692955d8de7f951967902dfdc0047d0b0669ccd30fe876fc6e186d5bc8ae198f48fd14a14304e662e4fbdd1cc019bb629ddb7; P1 0x47843bedf23ae24a14deb439d4d3e6086c372746d6b21b57cd22aae28d6247cef85d4a3dc3a46296ce39e078251e69140ac33a4e85e83d6668a73f212062755082 0x1fca209b7b26c88bfb2d580dd12f1ed5c4357369fcd4d124cb49da0584aa1cd9a28de90b402d72dc58613d082f5878296b242cba2e14e5a2bac685f88394c5fbaf5; P1 0x5ebdd3bb205787dab2042a9b32028e8c608dc94f02805b38b5e48a48b022f9af9a79f540dc276b536c805063c1f10b8399ee5a68b9ae6229a9b5436050363eae63e 0x10e11ed950fd00946d586f39603f3226ce64802af555a7345b7ba321defb95111325e5bb9823d43ff21b9701b905a71d09b3e8af84256775f0939e3a8baab07b1a9; P1 0x1ab5ebb9bc37664e7e034858be53d53f4225e0e73a546d567da59aaca881d02236935351f48b73bb8a40c1dfccf7ae8a686b3d553a955cca0b6e4eb283d416d24a5 0x1993217707c7e17a687481601486c29aa6f84d716c72f007e7cd83c356a499b048646d77802b507bf08c380a5082ffa2d534b55b59a0f97346917eaebb22b088958; P0 0x147088c594bf0784f963818c1510dde37a0b287adbc66398d67ea7d9feb9c659abd286b22d75d74667688c8448c280fac4ff39269cabe64c318ada61bf2236d7ae6 0x1e2379f5e8352689b43501d73e0d427f703716824a2c7b51b8d024ce9f8167c484740dc92aec6c2ce26741f35a0b0b95e578e69a3659773f8931dc888be929cc926; P1 0x552804050a67fee0205059ad510661188ac4a154d54008570b7a68cab75d366fd6c77b06ebaee55eca420706f4adb89aa040925c8ac092263db4b0bcef5f46d89c3 0x37491a5702707d129ef7a2cb6e398db63b50682b12caa3aa90e18f37dcc11d3db316dac7671ca66d70a93e44e7fd37f935d2e7200e7eff355ba06a4c8d49839eaf; P0 0x5f83f18b5b0c1fb6b67e7c14952dc18f6c79cebe2ba1cd53e3d2e2db498a90f25f1741f0c4f8a250fabb262d78d850c88b06c3eb7561e96e3f458182d66853749 0x13239d440144ddebd64f1094f2eb49d8788adb07a1b4a1f87e3918abb421fe6aea1c3c8d0141d3b81261a08dedfb9d2c50a27ef56fc95d176485395211efdfbb2ea; P0 0xb727263cb286b26a8b8e3efb3c2de5ce708cf66487ba4864538fd455177704f8b05f132ee9fdc08f8fd5b295fdea291334e2b129b0ddb47b82ab27a859e5bb4a28 0xabfa750c5c5d221f5df06519e2e406f4e81ef2d3df73101a9740493680b87dda4298c736656216b71adbb5aad723cf92c25518f8bf55ab56012a5624cbda1880c; P0 0x39c446b3aa868f413c00c8e678bd264d22ccef32402d5e4ca1817c660588a6aebf372cd20c19ecc3c74d4cd9f2b1019ce456c510b39e498bc6028315bec481c1 0x2b536dac16b63fe4b83fcc5f6230231e634a65951f10c19618af5330b6786f88ae93042126e36a7196e3816c32508f354b2a858729eeb4c17a6046303de294251; P0 0x3aa91040e19f954fec3ae7f59b680d5817e8b12ea1435969bf5b8de3ec0f752dfdaf665247d7c60adb010d844cdc12e3f2354d77951bebdc744eaad99e5aada 0x13d3f9be274dbcd84bf5780bdfe1411f7c58790ad156f5ac5567c5c9a3d70892ba5178c23ae71e38c1fdf20772223cd1dec925ca9ade35a3279c4dab43e6505887b; P1 0x24db9e3cb64aed17dec43a672e70006c1c5a788c5bd5e1370aac4b0e7a6a48f7e68ae8f01d87ccbfae88a2c1944d7a40e37356b6c8bbb9384edd52b0ead32505deb 0x15c932280760f11c17ae4b16ae9c710d4dcdf1ad51db05ddebecff99a0b7ebe7454a23f67af86e4474c63ea494f12f57d5f6851acea0a3db0c8cd0862d835031f36; P1 0x2c7f0878cd7ba641a08d1e88f4513007070e07bcdda4c1cb8283825389011566540928a19d128a1d958a052c48bfbadffeda6fbc57bf8690f5ee007873e070ea1ff 0x1ae13a72e4fec9ee19d12a524d5486a7ac7a9c0860910a89a58a6b590cbd1d3772dbb951edb6492caee66fb850657a8e10f73a7a34e68bbca99da9471805845002b; P0 0x169430390e9461bc28537a629cbd35b7d8e3af5dfa61827fd29770f7f1896ef243039ced87530f7f2f2b03cd265d4b2baf62a2da2cecd1b41de14eff33a85e8eb42 0x18f7d019068dd3f0326bbff8d0d004007e215c64cfbde2759c4e3064d4407d5dc9bd8b1c4a31ab326b98fb8376927f9334a08f2e20c67b9739ad03d96f12d16f27b; P1 0x3a71a5be004dfc724d740e9ac0e485fee080ec2311d4c6a06fda6462e5fa5e52137af58c745984794226963b26187d5993e78850e50ad7a7e26b9a0b5b3607cf73c 0x1244d5f3b06957a4eb93773e211e0de136df5c703cc73ccdf4b1c3f211df1cf6eda107f1127695c2451b886a3216f181e6d60e2f21728cc19277963fe5ed2ef4c87; P0 0xa6e04c5089f9e8b711dd093da08d220a64a01f71eecb53f183d1e24f7a434552814d711deaf3abd099e6b0991edd316829931153d6c46f7e08e360bb11073d2136 0x1add6530a23102eee1a871b64a98bfa8bcb7e6256f054a0c850464fde5a8fa00fa98754b45ff2a467782c1b09d9880c8d850bdcf9004af0d64a23304b727e2f9067; P1 0x43a94089e5e19a739993afe06cab8126265d67c1ba329d7eb1e81d760998a9f03c8a9b5bcdb3ef0cbcbd182b03eb9873a6890b83ab2faf3ac73fd5d02e474395e67 0x1e068afc743aa434e086915d8c95263b4c99595847081bc23e1a3ade2fda78563c29eecdb4a16a8614a7d1664dca1569dc98e1973645c1c907c6cc0750ba60b7aba; P1 0x5484d1cf7cc83408489532fe3a01c8076d46d68bf112ca78a8c8e5682a47356171869f6f2421b7186b3f391e17b017f987408a94a6a0d64a861124e5f277f99e942 0x1df1b59558c1b79fcdee5cbd72c106cf2fba72b7cd100f77546547a632d0780b3852bad53c4a4ae3dd1a258c2cfbcdc63d927f84f19c8484a2ab3e6ba227c0f56ae; P0 0x1c053ad9d0cc37c26bb9aed47c5f08e4e0e34a606119ce14f8f74e08156754221c327b8d8720a6c93f2fadf81da0e7237a626c49d9fec5d77be76ab301583275374 0x127d192d857ff8884a358d6ddb31c5e5e00541f1824c495965821271c22f82a9e24bd1376e3c83adc74bb6a1ebffdb6d7d04d5e2af5582d00890579eb3158e4b1b8; P0 0xaaea55ffda250b89571b672115ed25c3a9a62f0733b866c5eb787693e44fe4c6272056fc5207862079dfed8923366688919cef4281de1bb10d028a9176bcfa1d3a 0x4ccafd32a7886dc9aa252bab6c661fd9164f7ef99a0d39ad05046bc126b78a5f1c9b7cf014ed7eb63d38d9ab027659a3f1792dff5817c481d5372c7062481a117a; P0 0xb8493a550eb46d3439aacce49881bc1d771255900cf1c1397e0e1d17314d651ba64d83c8f6410854b28ebeedf605f5e116c02aa9b6746e6a90af5a97ed38a04b8 0xd663ad252a00157ab593b9464e865625a0690bedd7496615f2e1de7b2965b591ce478340a486fd0ad25c2a706933efba17ca3101c1652f10f790747763018372dc; P1 0x10d50326e431ad03492a43fe9e33b9cad0274d0663d94913ce297488c0fe09bf4afd87e6f053fd1fc2853c24d072572ddc852d497a07f760b4df47f51a87786cd10 0x15c2ed0f9a4fde7348aa52aa2c18df0a29a86df76c02942d077917e8fd8bff2cf724f80aeb70ce886fd0c70625717e4bc4d7cf619153d26cf03dc004b4de198d440; P0 0xecc7a85b3e701bb273e5286b05cd333a9d43432092c1597ba37d709baa6c553d0b12f4ce2ed58ddb404de9e92f7469c6dfcb42f1332228c03bb0b5bdc0659b67ca 0x82e30e664829db60741e8fe0ccb63f5eec150f888613a8f1cb6c382cdbd56c63e731488ede674d535f8a4980e77a77575d6a464a4f07e2a06ab9d0ec95a19577ca; P1 0x64611603a13cc0b0c304dc32684fe63df5c6e83f2839c4209d0cf5f4644129cd1d027b640f0fb080fb1585e31d86d15a6964308b2df4ab52352b8b7d388b4dc7cd 0x13268884f904fe1ba65a8e05b09f1ec9f26db6f0f0cd2c0f7c8e51a920b7211ffc19b218d0d579816b4542fd462e1b59c94920cdb923f2ce63e38d12876c2e209f9; P0 0xb75f08469f1c6d4c227bd2be7265c504c4392a829ad94fb61e40f7d576af0d083445c5fbc681c443802ad0f732f4cb1e29a7f17a62962cc82fa06af2cdad705f81 0xaebb4639e60c4c908013e878eb24ff4662f1dcd4d8a96b991784e991c645b6a6704ffa2944102b6572e6db8cfa120fe68f658c4b4e2ebf763bb8d7530cad77d3b2; P0 0x3ba18e3b30494279a1a4b2d46b71af5a65e3a26a39dddb4592934f0e6be35a5f7a8bf79396e071d69ace830dcc97d24c11d6428eb70167cc4fc52acce531cd5e2f 0x545f14df1a76390ebb339a55f363d63eca47b4e37f0e0a65a713ffe953a830ba941fcb43358ad76c6c9f66e8e49b545e17489f8521d00510da6333dca445845f3; P0 0xde7448174536be0ccb35e5765ed8bccc9593f1276ca7ed8de8d0709a40debbea9909303cd9c10c588520e90d4810f759469e3934ff2c5ec026c200b2abe31ce 0x1a1acdbe4e2469239221f02a76b032a341869ff32c252d00fef49f84dc6659e7ca8196a14a4fa7338e20f82e3366f48e26008444747295160df042155206ceb1677; P1 0x3fe2ee5a3d2690e78cabaa623fa92dc8ba2e7679059484518c55a0637a670a3246aaa652b9487efaa4ba692e0c480428f41040f850f8562ee0fac7a772cf20df71d 0x234809f68dd2471f5f4155ca49cdd9167571d5cf980327fbd3d2d1c797013a6fa09af2fafc03914ca7d703c22e058ea64fee78a882f2c20542c69bfaf0eb65f910; P0 0x26e637f82ed44941eb1d32246dcc8be4cd42e8642719adf76c1e9f2ede941bdaf0d84059e3422ae35f22b1206b0d3a37b4a1ebb83b98e8b484d5e044f4e99dbc3 0x1fdc4dfbbcd42a85473f383aabc1e579bff27af7c0c0c999a7947fbd8577e0c0edc9eae260682160015aae5e0eb06a90fb86016b5d553f7d0c608d8a2312789fcc3; P1 0x5f2a4b5a43e012539d9712a3305dfe6bf206397cb359d76b77312bcfc2636ae7fece2ae654371d8f40de222576cb50f6e0cd626ccb20d375b02e58b8b246d180696 0xeddd6d672b1667fa8ad3788883dd2385305d055a5edc2cc86fba7e59a1e8bcaefe18d82be5127d271854b138068da0f04c60363fec552dbc53773a374231eb7c31; P1 0x14b859a22a4fd58374d2c33844de54034d026f34b340050fa0a449727b79972c9ed276d16fd4ba8aa1f61c42236e2dcf9eef46ab912f4cebf0c7f5169143f4712c6 0x186e4a58929dc4b116fccc83709bfe87c87ce09ecb7d748ae04677360e45c6708c80bcb75efbf3e54141cdb1ab7e5860b0076ea7a7226cb6a8edf7ca9583fe796e9; P1 0x37f4c2edfcc5bcddbf7a452c8fd3572b2b59efe8acaada6d2bd2121a55a1fe38ad25d80b042f12b1035e8dcb35fda1b7af72cc009c360ffeb640ab39a90a5f8bbfc 0x493a8fdaf1469b166dbe9a9ef1aad966dc33b648aeea50b7e08a2284f0754571122ab6b860aae8c2992b5b231c36ad8b584099e63fa5ca1307b71d2a79c4545c2f; P1 0x1f6bad288c78e3dca27e743df4165c76f68acc549980201ac22c96edf789539be0d79b6b90ddd2120c50c69914896d0fc7bb00543e34f40010042be554488a2ac3 0x19aa2bd853076e0185bc65c176527d157196aa818725b18ef24d5bf6d4e8f15881f1f1210b0209687358a232c4e12642638ff66dd146455dd82d7cd717c10a79ca6; P0 0x14956d741840e058e4830910b1d5fb676fc70789e3a90ff6d120cfe314f4c00a212a6de5fe72cb347096071fcaa2d080b92a8386716e6994afe658a96652e574f2c 0xfe3fd50bbb552ab32b6a1dc065de770b7e489aba698ea5ed9a2d1d49ccb7761c89ecf58fd138e2c029b80a88b609c9f689110faef64281f7fa37264487aec60ad0; P0 0x7e415d56ea67dd75f4e5a5cff17fb9acdfc9e602291d7968765b437ca66e0c501ff91d48b4bb94ee058e3cd1be15ce3aaba730f690f932d1ca593423b1e3305e3d 0x47bf5eddd3018582c0606b214ed0605861d94ace3ff3555a8e3308c86d25877583666cfd57fb4caa74e86337a44bce972c4899e2e95a36a83df0e3daf95d65473d; P1 0x1e2990849bcd093e4a9ce1a0b68144aea702200d0da74c754fc3ee9bdeafce88e8e9d9d5739cd57fd7dd429bc1c545cf73a193488baf4d5f8c08d14fa2f35936fc 0x1be3caeb571f264e24a0c0fd319787707db4dad34d45a740243e27d322ada444c09b6088d58ede7503e239ef4d5029135f6e3544283b5c2f034169cf31bc737e497; P1 0x48ec33eb3dff9bcf5650c560418d5db7f34f72f7d576c19307d66d6bb8b2a934e4b7a43c4664a7c75941942b0f2a03e9c118439405b11d8ffaf466e48f8d9017aea 0x6be8567ce10ac7182ac9219631a93859afc038c6be413d410d38b65728973fab9e0e99b611327f2cd59d7288af0110dc46b0e63250193f6b9820e0c34b2dff6e1d; P1 0x443a10bde5868f1fa0681bd07aa1965a710fc045ea2fa6bc5cd507e33e7b38aa0bd1ef2090f2de4435f0c4a1f5b7748efd7a34f0750f7711b31251a4ec99b2e917 0x1a3b7086be893bbe179807f18e5200eb3f11bbb806d13147f6fca454239882a257fbd81088d8aa5ba10cc10baefaa04708b839c202c8089fd10439d209ed71bb6f2; P0 0x15810543722f08420154fcacf6403f78f99aa62c29fd21940d3618beba06b7d5f22f808b6d5b06ac99ad0e16a65dcfcb1333232e7f0ab302a9e8296bd050fd185e9 0x782b8dfb04c1cf754d44afe911e8ba5506ea2356f96a7acfa5c6df9c739e44cef86a3cc469fe90f8262ecf27a0c5cf34db8d7de64850d9cef4bc1ca007a59a82ad; P0 0x1c346e422ac3e27cbe41812b747ab9b38e9ea08fae8723d39a2a5ed69070afd94b85d6832df46fe497efe5a357ed0e3f32ad45b9778a7572515ad717d165815229 0x411cfa737f40adf1f92d2f3ce397c578adbb23caa55bb8426ec9dca44f30b7d4d4ecce34eb76644ec35fe798509995f26ecbed3bc2d87b10fa59b06fbe2597b12; P1 0x18d797b1975cb2b13eda5c4e563cdd7b61910c2cccd939fb2f5a42eb89d7b2cf4727b81277681a3ae7d91fe040a12b2351ed571bf493c8c97c23df756e137aa9 0x9741689cfac89a145e05ab31aa8c43da53379a7a3f81ba8bc353bc09b48d60932a1bc4d585868fdc40df0ce08c0fbf975c258c318b947e5f73afa2bd112f1e6275; P1 0x860d572f3777e17bcae8c5446aec5880f5cf8ffb8fbec438526787eb8491f6ef1a1cdaef4e548b0dcdf766051c69860cfe7fb7997602f4eeaa35d4052dcbf1a1ae 0x418432a8688a5d293e3b2988472bfa7c13da7113a204e88b09934cf05968f9b6b9729b747be912647eca0bc63d5f6f6cc384f8d0ef3eff79646452091259cefe19; P0 0x86232fee66424cf3868a88273bdd04db24e0fb0e1b3fc59a101cecb223de577ffd80c5379488438b7586e04cde806f6240a1aad2b941145d5d4e6fca35aa977ed 0x1219e7237f4976b9df693b79212ef52f9dc91f9c03d386101a4db9d597ad981dab7d285025498e7a75db93a1b0f17af078b39fb8de7e206f61d73660e32a91b165e; P0 0xa3d38ff9c322d6faae27e77f94d34c165adc0ab5d34b2ed07105bcd51c9ca49ca707819c8ccdf406e4accd51a6234f4fc63e9fef4e3bb9ee0fe4b55aa106de3350 0x672dba710fa8f3bc2b372ebe82d028591ed7d09f22b87779ebe88e95adadf90acc28c967f826d19c0ab2eaa76e44ac0da895db07a07458538fa05925bedca67dd4; P0 0x14caea190710f91bb89bb7ff777cc616e680d0770768b86f680e158ece15a424d9eb485af59812588d86cc350847cec184e3fdceb0b6f227793913237ab259cab6 0x166b38d869626ec87738e98eaa7934d06e78b43226ce732b1b622f34974be060a393000949bc0fe0a53766165ac4837dbcb2164c0b7a86075721c2bc6b67f228246; P0 0xfb4d56e1d234301102fe71a6005e29f78c6ca10909ba63019b38ac63f46fb21135bbc46f96d894bf49ff5c71d1da55fbe440a235e8f2c041268cb53681b7f02d4f 0x1f4f9e3314d3d3b750495a231915addbd81e00f7aabed868984df9249d208035d62a12b72a3e9ee8230f42546422c7a81534787808d946d545805f1fbf208d35873; P1 0x5be919d167fdfdec4059966fd1135924186065a1ad23df05ab0c584b8626f63ba77c8972748a33a42c52722da7f514b57002c16288fae350f06aad8259225d5818c 0x1d64151a529bb85af030e23b156b1783f3d355a4ceffa293d37e2f56fc96dff4ba3845715280e213b86f1737db4a38da390783149a2340c08c31c6203dc7a394c87; P0 0x1afe9f43a8292d787ff9c12fa67d51b031283f46dfb10df9a9c737ff5c604bf4a99daa7d80d02c933d92a28ff7fd45d59ef2b1e3d58e4e19976a0452968a15ab66d 0x1695bbe19ce83698fbc6aa24a86200901bef84edcbffb07d1824842d9a97e5a5b3eba4a8da56a7f7df4be912bfc9859bf78b3fe128fe135a47c644285347859259e; P1 0x2fd1dce8839eaa36e37cca2eec3468a1cedc9ba2867c4f530f133a421f6d40febfc83f008a1934393ba0ce2c371e306dfd641f6af0a571e7b808cc3077255d2f76a 0x67bdfb8d7cc999622d430e8fee5c5d726b2c35af5750984389470d601fd403aef5266dad20f63229f0808a0816846b2b23b629f0d48838e82a46ce7af03dfc1ff6; P0 0x150536b4a0419dffc088187e00558c5970ed5f056981bd9cee342b4adc13a533ad3c580d08ca6682c64fe032342030f0c9f3dd9e37d5e305a3fa8e458a5fbcbe22 0xdd0a9fa1516be334aec61614c4759fae20cc37962c9363f7f7b2ba1f7408762f97d45f962a27dfdfe78133c7c4e35dc0a7f74c26ddf9bee22288aaca548c0a3e86; P0 0x5f6dac06b15c35c11eda2b1b43d8f6b359955199847e0ed1a63657255dabd1cc004d52b6cd4ef032741ef955b926608390b7372e833d4a1e61763dd0116d26343d 0x5931362b0f6ef5e9f202c3cf08deedd137f003dd61df4f403a44b3a7014741243fd82e05256a0c2bd89bf067dfdf2489c03083a5572e4dbaef3e3584cceee36261; P0 0xf89a08fdc56a09be6e40867864bb929e5e311fd2217d47767dcc23fe5dc3ba25055e617ac3bceef5992df4d3a0a32ec9829e5126b13584510c2926c830a863a03 0xe671ea3df219d05473651f0c88f8f5982c506d61c38c2789e653dac48e930cae83f4df002b43024eab5ea7d8ce6783aed539b01fc91aadf2649180d3ff045aa2c4; P1 0x137295563e81120113006161cb58290f001bf9903e9ff6c2d030203a02deefd779ca5b755490e66b8f42da6659e0c88f0c26c20db113535e01f288795f2048cdade 0x92ff99bc20d9d484ef82c262a79bd4f3b21ea0a98119e9cee578101842c68cd559dd00dc174d52008e88b7a4645639306bb4fdca6f980f3e32cb5e84e0f072cd0e; P1 0x7e9ccfd551de7ad2794ec65b9aaf63dff22a566b16b094e7a9fb9b929d71d5f930af602a4865b24c4ba34a16122f05e8e61c11255fc9b2b502be493051626f9f3f 0x487333d55b5d9885ac82517d6750aa6eb44e4ba88b9c2aba6e371f2bde455a65dbf1b054df983738c082ae7ff336c9bfc2c218921f9d82c747bf65b1f095e58b; P0 0xa40807fcfc9b80d5721845ff95f61baa30190c888acbc00f02bbbf5922219d2a023c5f5274bebd6ebb8a257af8d1585768319d53ba066f0841a36a7925430 0x11416f7d6b30acb258b7fb5d4cfc76f27d5ea50774b5916c312f220b4d52e740ce434538d20a8977efe1ed08c6eecc6e30b75a05796ed43b305686e989649324da9; P1 0x1bea24cb1b859142bc9c84cca3251b08ccbc8c499ea2e3b37ffdd049a4cac838cfea589886622d44def0994abef139779ce19d1ed468d96510eb3c32ee54c33ae91 0xd901ccda6920274ed8889d3541a19993c096cbef93faff36f5afea8383ab3ab7791bca9ed18cae33bd5f8cc095863f248c8446dbfa3642d49a3c3738fbaecfb44; P0 0x5bfa06a6c1ed13633724a5a047233526258c014219548a538049f8882f1d151957e343a2ba80a05caad9fe79e54a7fe5e79ceb9bf05d7d53623b860599c6d9d3 0x1de511502e5349fa294c19de49d649263b9e27ef995039a23af84a14534d320db768ad13ca769c6913af727ae2822cea0e934827e430a25b1be0ad08c7ca5c543e3; P1 0x53c8c5637ac3e8d9cc2ef4b45c5a2ff536a68573f619890fcd8c62226bf57bb51cc0c92eac963301710fbde7c59f5e0b17df4028807abc365a7877a2464f38723e5 0x78f8ee3715155e4a37929520f3aa0a7a89c61c04259e24a7b8b13fe12bfcde13994c19c1faef80192b324463538f6e2a0eabb50cd5467b7a19fc2feca975a2f5c0; P1 0x55bf7a13123b054718332d6d8fdbec039e406ad1d6939eecdfaa26f0d58f99426fa4f1b6adadfbba297a76da000f9281faba7b869d48a8574c787b76e2124be62a 0x550c88285c06ad5e2aca978f7858adb88c9f3780b0846f10f952075ebf05aa863ffc4d6cc4ca964d870f765e20077961b4d3393670c22609f822edf27a6b07162a; P0 0xe20a983eca7fbf2624ec9a83024ffa4147c7cfab3a4181a0dadf9842dc2437afd511a81e12553dc7a4486cf8bfcda5532dca436a946dc60e0fe75fb542f9cb093 0x1573be4cd54da8262e9a341f51abc2a357e5b58061400316c5eeeeec3be9ad2b165f7fba727e7a989a8ea0b6380e1c0e1568e4a5164c1620026c5a1701583d3ef77; P0 0xe618c690be4284f9b1002753b6e2376cbeff77f0dd1d239aeb01ef29a885a8545040117cb566b184c3e86c03b31688165ebe446897694ad58b4a36370129fa32c4 0x8d7eabf1a5cc6ad04446cbbda6fe4455690d79100b42425061d6d2e80091a7f13ef27d4b73279497e50dafd87e61c56b35d3ea6b969a58c127fa14370f92239c15; P1 0x754f2c20d8fea7b8dbc4859237f0fac56dfc1f1691c91c4d8b9d65d6c0ff4f59ec1b0afc139a2f7195ca5a98cdc8abb0cfbd5f856cef4d69169f1cb8b788c17b61 0x183117e3e7c197ecd6348875224dea6040dc095f5ea03025ea60f437b03b0889052d383e8846a0b1be482b4844042d719ac552c14c07e4d4ebe16f2930d8b78488c; P1 0x36ddcd75464a4b343e42d2b0b31bc6a0b57863bc73e2f0c4257c21e4b55db4862ad7e6f3b35ee96c85bcd4c9d607b3082bcf975bb685fa0570fcff27e452b609b1a 0x1b0f033a9ce5c1f287896cad6ea5f7f06598e70e357d5df58a5b410ceaea2fb57fba3d7953a9494465b944f19e1addf7771bea61b63beb216ce468e76d18acdc0ca; P0 0x16e15c7df00a3775ee9a1570c406bafaa98c9190ed2ad847e6bc4f1b88d9aa93d0a0f4169ff54fb46eac4c24527ee9f274532aece92b31385ba94c85f4de64a9393 0x1cdee18f9bde02605de4a1482aeb88653162679d2d2b49db3373231676a40fda92ca73ad7c682356442d2812e9650125cc635086c7403c4dbfc89d1da5a02fe32f7; P1 0x4e2451518dcf92b6f2b3fe3aa8186f9dd27a28afaf9f7032c92274868ab8141966bc05b58941b06210f53812bd73b3f12114f414ba67d52eb0390e71eb7127af2dd 0xe00210960bd9e2f3766861d9fb779d652beda02401dcfe0ec0eea47759df9d2c1862ec4b49a3ad4ab425ee5ccd09b9ffb4a62b30ac322ee2eb6d85835a2b5731d0; P0 0x6201ce856c144aff5da2adf72212d3150994a074b57561979ab7fd8f819b34047215d68ba77683d1333cf21fb30ac66969acf2093ef8bee620184b5dd75d6bfd3a 0x16f9eee4cb63667e4192f65699dfe82406303ddd3310fb6d88b7ed4bc96fc27b243309185a9e3a193eedb020558eaf2d46583e5ef182d864b22b80bac86227d463a; P0 0x107f488f57b79d1690c781868b42359e5323168c58903aa673e6d099bdc19e9d8f7228244e7bb1bfc7e1bdd9261a3b567ca2aaeb203fd2755ee9a0d3ccba6aa1747 0x14a597ffc27e1ce2faa6a4866f8870480dd6f9f509110907c4306f73f105d640ea62b52e7fc572d0824454940ec5539bc858e1d83198fab89ae79323578b691dc6b; P0 0xd5256ea02a1105426aeb26bdb0982569293f0d43db3d56021b4b0b685ec07bfba24e716add97b6eb1eb8d07b64916782c42487980a21cb741f2634af6539d13d62 0xcc602c4acb74daa9abb408d22d01cc8c2d21d153134fa91d7a8bd381c7129733491ac80df41fa5f16cfbb31924f14d1162baef65f179d8036e76375a38cccf521b; P1 0xf4be2014ae06efe33ffc777c12fbc389523b2827b3e7c97ed89b7a085e00663c126e5a96b901146726031270880b869de1811ba80ece259fe21e4a3ce7bfc679b7 0x73b7c1fe8d3bf46bf29f30674b806c882ba8ae7064ea0754929ffc26d70652727020e2130bb0f66542d82c26fe26ffd82fe2f1f53c66248ba4adf62c9a7dc46642; P0 0x1a274e18cfe9cbb0b2df64337c6322529e3ad2b9e034f1050e4ceddf54e7988f3b8bb8c0d3210c3bad0d318775287f96e7ebb6311d735ea1d587050aad23b76c74 0x9fbdd5bfde74d1a1faf84c9cc944cb39572426987a09de601b2943e908aaeba707fef19e431ab46481251ff9ec5d7a083e317fe44dc747f2865318249e55a01578; P1 0x95840a6e792aa35143164507b7dfbf9bc9875583a83fb8e13c2fea597cce16639888ca98fc02acd7df5282ed90cb0cfe1a933d91dd4e940179d70454b3a57de62d 0xdcf10414cb34d0e4744c941ce187b752783e7f4541a29e4fa68d8a6b2be1cb77cb6f8f9113ce32253504400029c20f2aa5e753bdf048246031d75c2c293ce49eed; P1 0x11e06b2e2a2b70cc5fd28c2675f76008f3f5135ff1308f0224fd8d861af2eca866027aad59af1fd27e4bd90d24000e2ae74143e2511d063af8138a080cad73cc10f 0x9e47238809515bc34207f37da4c746cbb6be26512ecc7d7de84ade6fd7970b40adcf53759eae8c79689ab11ef694ab61d04d8c77bd491d64359cb1848889b0f74a; P0 0x30edf1d052f2099e08d81365b49b98404380d44fba354147e1177a359b5b9c1a63ed90e6f99f4d04e001f07142067a0048fbec04b49f5e0c4016acab5b1bd69fb8 0x1d5284c4911793feab3072436475d77ba535cd0b498a6ef6ea179a4ecfc87947bf73898990e2401268765303349bc8a47eaa47a73d30fd56bcd501a9cfd4476811c; P1 0x509b304c97b62c9f95568de78ca6ecb1c93663c635544e37ff322578ce0c44c4f221e47caca089c1af812f31f0a3f6dd659cca76e1a017efb71878ae7968401bc1c 0x9949b7677c1f40d3a11f19cf7150b4f7fbebfd2e58370422902651c3aef44ae025edfcd2b43dd9301daf737a800627d6f63df030c62ff464472a485df4f8c96d4c; P0 0x2de49939e763a14cdda60aed49b80ba8f9e8f953a55f902660b79d302de8fe12e8ae87fdc637dc4221b25c5f0b12363fc93b5c8fcc6c26b42622e157352bf9375b 0xec49920c3552d29e794eefa396b9a6a0d293b797467f44d08c662cef63f3c6a858beb7d2c8ce3b2732baecb4d1babde31cd549aaff680ea4a618c9ca553bfb05eb; P0 0x6d0bdd35904c857be893500a757c0ba3145c6c02af6135a7c79afc574463819d449f524f3891deab884f8bcd047dcca8adeb58b5fbc280eda1119e5064b77e606e 0x1f0ad700ad831bf1b0b373d271d1b2121cb92a50977a84bd9cefd0f0e4f94b535881ea20a5fbfe27fe3c11f1f34ff8cd28d50b530cc165792b974bac551a4736627; P1 0x5a570cb7ff82bb019538aae90ab1f83446fac4b747cd08b11002892897ddc088a16a233c07dce6f2d40c0d18310d7c2e8ff04ee3a4ed481f7d46e920baa60dcb535 0xa66eac828834e20a5723dbc8332b12db11ca660076845e9a898e3bfd4958a5ef2cc55fb9b80087730998629ad3b82a3b62e705a8bb193941230a3e386918440308; P0 0x3619dbc8fe88a616abe88b446543e9f53250f24556bed800304871c9b1d79e1f5714330e2fc7cd9cc3fe9d58bc50f19c18f196b42ba73ff83ab64689089ef38ea4 0x19b3cad97c28a6f15eb919bac49e930d437f0aa49a35fc641aee2f069d778a5dbb980296f3ea595062088fb66a4260d2e7542d96f53522e135b7991583bbb3cbee4; P1 0x3dee9d5aaaf433cb7f2ef1c5e13b0e17b986a2fee4c5259f7b58b922d9331f513d986bde7c750d09f3aa997d84a4420e9b464719da05acc57d0d790ce6ae4514cde 0x1dc8e2f7e5df2d95637e8da390032e8b67840e1a50e42139fb741a9999d76274bf85b0907addeba69766fc78ad6de55faedcf89aa135864f3e0f8f46d9447f6fe0e; P1 0x532b19761f98e71c24758d5474c302c01f68fe3991706bb8bfc502b9282736269d78136226f7801dbdaf308cb4f0acf6fc6d9c73fe979cdd45aca401f7d6ae31dd8 0x14614b34dab2b9fb949c44d5f442b323281ed0e1acb2d14ecad03f4cbf847e9c8f9085e705bfdbdad6280e939cd4bb9ddd34893866d653d5c8be4c9f1b873fa7824; P0 0xcfac5d2b28d5c7462470fe95189e9324599198d0c3b8ce57b636caa06df06d6ac2fd4cf3b9fcf778c2475427dda89ef880055a8307fdedde3380789dbdf3a3d57b 0x1a12abea11a5f3c8fdc5359211916a8d68075ba7c0f62226a5d31cec88dc227d358540d8a846b6d8bd816d0fe7d3db56b6b5aaed161a5e749e0cbcc167d2a559a8b; P1 0x3fbb26c41ec17ac9e23148b29b8603da6d745313c879fb45fc71f6a55c69c111c611b479e38915ccf7e1cbda29ddb09c309fc9a203a2f5e0a4c6547377253943e05 0x18219a127c244e089813e3babdf140c7d7f159637085a20661929794d7471020c15b05fc5f219551b21e9c4bfaa59f7e96dd11ebc00358c2a0be35a40ad2060d470; P0 0x12328a6466287578cf5b85fb40917260961a1723e0404477956da164920e5f0d7e94fb124c8a1654569f9c303e0a02f813272044d1401d4f09b5484dc55fcf0d4c8 0x1bf43eda7ef614a90901c10b4eeb3db7aed91e5fe25f150f7476d0173a0614b2e228cd93ac83e6c60c4e301c2639bf43256b1efdaf7dbd9745484745572013a85c8; P0 0x186b724fb5c3eb75b19e199560c19ad06e418c2aacc74aa4202a0ca4a4f47b8a16033b7da09c5e6eb37fd33da5d834e5335f45ee346fb72f4527063cb1c1c224ec6 0x190703de11a99c54221a893016782cf0d239f4b244c067f59a4ab36848a0b2ced3144fa8e16fe4d404526a7fb7c597ae54ae245723aed425e27e29b43a890abbb06; P1 0x3ab8e6be07a934964782d266bff709f4e039780704cbc7c5c8b4355beecc06eb6a77df8810c4a4d8a6a51e0c5ce93898f6d5027c8e0b10756af5f53c802a67f59d5 0x1d5e3c6aa21f72c3150eb9106e446baff654bf7899635c7a506359c103677bedf470fc9696295667effc922db03436301c2961a7b39c5a1b4d4d8448c710e70a641; P0 0x1af3e304aa62bc0f0458ca2eeaabf921358860e68b8fcca3dff7b9f620ead2b8bdfcca5d3e2b6fa65aed313711ce18a524441877f8079b552468a0f0d00fe65be9f 0x191c8f514f2af0e083c7fc21a50f20d86f00893c8644379cba9a36cd7b702704432f59f661ebe6c240b667203cffb84762cd4d0deeba74fb40d82b16e23ff3e1b20; P0 0x13b4b96c5bdd25adace561483bd4d52146187e15321c72ef60b9da8974f2ea4670a7ecf8f93a16d33839e8a1d152bd8155fbb219ab8cfc78e4ce491dda5bf400c9f 0x58c24caa12905d164895340e37ddb575362817598150cf6f28b2dc9343ff224f9c34d327782e20d04df8a61bb168b456b41f0df49e9c604b640f999180a59fd09f; P1 0x2e293c43d03b36362c0919ac7939c4067276b649667c3664d51d2ad5f75d3195f832cb0f839450ec96b8bec3aad8664fa33701eec00c4fddfdfe4af60bc4e31a2f 0xdeec3543d7b79892b3efb70503829af62b23310e65e3e614187399d2e07d095f848f7c0d9a7ce68fba1c0e7d22e8fdf085d5e1f812dafd5fe33e59612115716272; P1 0x1232dc97ddf73f8a2956a06f5393ef4479445bafb6ebffc0c4a34e534368acf20af634c02ebe68b0b38bc82aebb150e7e554727f2ef3354e0f29d4964f0c8c16c9f 0x13fcf48352d7af4c479b757a91e385223d7ba6e9b618227bac50941940c8a71aaf86e71cdd8bd8e3e477e437bb399d0b9e883753ee0127a389afffa1a39103fdceb; P1 0x257495caf9290e737c5a020d6122d5eca31fb91f4b75806b75f714ca0a2f23626964679b0478dc75bda0392e3322ba2dd16ae0d000bef77e0fccd100949a167f277 0x1a8a700dfd58537139d7aaf7cf988b43f9814938e3730c16666fae2d40c161105963c54fd85f6b18601b25be45aeaa8433857c7dea3f56981c75f0c81df305431a2; P0 0x16034cfebcba94efa42b561421ad4acea2b3e6a1c3c4b44a33b7d6817419010d60544ade03603bfd32cfc5365a0b917ef4adf0c3ac3bdd4f8d24babb9d1ea652aa3 0x32e7ef46fc58e6a0524c988f40726b996e2dbedc0491c35bb5bf078a619314bb5ddf55f8f70f40e608cf1c4a0ee6cfbabcf56a53d29a511cb344af245b46549527; P1 0xf2f2166227da215b432982175b0a3bdcaab4e2471638e20b254e5d0f72aeeec12b08c7c11ddca598e0273234a1485c96b551288051512857dd2443445833ff129 0xf100983839baf1b12fe7fd377a25d97bd50e18a779b792f81f57a3bdd3b26540e58be941667bfa77388a885fc453e395514b76476337ca84b6547051fe28bb34fc; P1 0x154532de752cf31f25f0595f7dabee743683e0d06ec0826fab02df518d0b02ee80bbb5af436881c2fee7b48c2ffdec5d6c797a56c31f1aae77beffe347e28d93082 0x1a99f7c167de19b06208c7eadb051822270aed8613101c4a0de67cf774fec548e602b94c08c66fdb6aeb1679a7b93f385d8f141a0f277587c7919fd250dc23738b2; P1 0x42574640d1513de5804ce63e46abac958daef3342b7c31194a24dd37040f8a831f626c57376ef50735429acf36dc4616f985dde07d78353e98d21d0df11a57d3772 0x124cf00e903837bf3d6b7573c2c95c53a83505c24dac3c84deab8329dcad224563b4d7bd6b27a88bc42ce9b73a956fd20480a6b0397034cf1a76751bad3389c4abe; P1 0x1f65d52310d44b03d295130b3820b3de7b12276358413bff328850c3742c1ade19de1c64c2036969fdbd25150c483a84124a8a3c4fb63808b33e5c69718f927baaf 0x1fa46856c0757321f16348ad15fb8dba04c1d5744d9c8a4125609aaa1e99f2b3593d4ee050506dcb1e2bb25ce7dbf3d277521fc64d57087e5a0e6c6bf0fe14ee9bb; P1 0x5ddd8484a6e73348da4f67cdc9972e0c402bab2a714b674e465a7d77a692f6c779f0408cdc361ccc9c8072fa90810aa5a7b068cf9f8a6634ed685b386e24d470c59 0x1cb2532b0391fb60a262395984c217cf30d9288f64fc1f9ee1886ebd78644cf21f49b339c79161abaeeafcce07448e6afdca35502656e8085cf04703e2a3954d824; P1 0x4d33d9dc16cba4e5afebc0cdabcea3021a69a7560678fb492533eea7ca2109d50b5b1f623dc5a31d1480265614d38c5470a479559d407ce767917d7e327c3c45aba 0xdcfcc7334cda15525d11f5f783976423b3ea68b2f537fa1d5854ca1c8c400b50d8c398106e573f4a29cfe2a0b98e5db1bdd51bbd934af304fb675a3b3861aa9ea; P1 0x11e2527f56e2264a373d84a1ad680cfa7545a1e33b5ba8bb11d166fcaea033499932f7a2f9a9e9406d784e3d5a8419a48944689cfabf6765ebab8c93fa3a9618a 0x18bad7e9776dcd55140397d5c36d843c1cdb0609d0c63f8b2d2c70c9f9b482811f011822801083756ebb2568f6b991201a108b45418fa9e1b8b1e215aeb6895bf36; P1 0x395594759a02c5d0fcc8b4029e390c8cc9bfc4f838cce9837d8b044b8bce52ae8e5ca29723db60d2e8c3f8911f554fb177c48610c7220122702619135286b8d48d3 0x161f0985e827c5efd808985c70fefc4e6676adc95a59e054a7cea7633dabbbdff9ab2fbd8a092455d0d80df94a54a68b74910424dcb4f5e8939a5a04d70769626ff; P0 0xf4acb32957e002807f38ce3e91358b1a8d5f17e37eb4329d9f9f84626292c21eed1a9d46ecba9913fdf0242e8763fdf9dd3598d3bc300e788b96cd2f71cff228bf 0x14423b1f942f037b63fd012179e1e063526a74eef4326566ec4ece0e962e6662cbd445009acd76d865cbca0a276884e7d0e9de0b7b196cb66cd595378969cb6dac0; P0 0xcd352fbc8ba97dfc0199a1cc889beb91d25ac4b7c838a234129d2622cc1825b3934c2f79051c64a06b55c0279fcfca641feb801ffe731ba876ef2fe1f04b8dda9a 0x18f1fdeedef140df43b572f8cee28b8643c431e4373b3c832f05db3d3991bf324a4fe45b2b7a690c0f9e8584db849aa3158ce8e3aff36354e29bafb98260f796a9a; P1 0x3a5668b522682eb39071a09242d35ca1ff338ddb4fb0a59944482a201fb6516b5e48f4bdada803d018bb66255d1c67d5c0ccbdd994c566edf4a2dfce712eb16fdbd 0x1b71b663aac0aa4523f6ec644a12668dc86bea4551986a83485f14e57540a37cd4cbddf09efd8475dbbecb3621c32e3ec4809746b5b89ecd45cfaa6d476e4feaba9; P1 0x469c67951ecdf6489736e67a4fabf520ca25a8e7bdce75230828d76c6d50dbf1e1ce0b241b83c6ded21eb3dd15e466c511bebadfb266321315c83142118631d144f 0xa6dd2ff17069f9501fd86d53d6d17c1a8a005c8fc75f93a78b3a6644d00220e158d7d46afa16a21a647d8e58139e9ade789361f4af075199e3b85e75d6be82b502; P1 0xa32565ed647019ec301d160b3c0f7e641423d33706ce8f0ef103f80111be699026fe502a7fed2664c2d8c1c8fc621b35e8937c4824f7f69a6b392e8f8fed46af7c 0xdc6a1fb159966ea1f7abcd1f1a78027e1a55b5a626394484c65a5773ab8334f13aa45e72b58cf142f4389dad8cc2bb0212f9ac04978ba82a723ed8bfd9d7522b88; P0 0x5ee3493b8a6296a4b7fd450cef29532dc98aa3a5f1fb9ebf927706ee180e019ebdcca42772e9ec294cffa3758d455cdeb655bca973cd9d3244a5be56044bd724c2 0x169ae93c255c035e9b6eb59dbb7746cab3a1ef99a9dd187d89d9f00b73d3771d355f2fee8152ab38cc3b6e82a16d6ccfb137df2281f2f4287cf569c3212a65e1d02; P0 0xff7ee9e3a3a6b5aba0c6dee2baafc41f81d41e97338255f43822801fbb021bc9f7b020dcf2d5b667da7ada2a656baa894645ef8d11fd3c0436c8cd0b7b5f0a3e76 0x427e67f0142a5440f94f0b3d53748b7bae36501575eab83f2c3f7601cf9ec4acfb9fbff1c6c214dcc40545c4e159ab82895afd814d955c51fc0fec17fb47cbb27a; P1 0x19e8220367631dba79e49b5079fb49de1fc94ddf2fc27437cdc1b00652b782abe5d8855e6a8a213e46732ce5a1248f8bc7a84789829f4cd1d6f79040e0240db4b1 0x1835c640dc2e61dac5b9ab91015b8bbb154c3d0e1a806869abf6e5e637bd068482156f07e252dfcba90feae0d063b4a00023c65e23d4626a27e754dd3d0c5cb5b1d; P1 0x36f30b3c68263de2c63aa52709544aa3d285ce6d17e98d0d3005d62d12007c174b4786f7d7a503bc0f8cfc2927de31cdcab3b3fa96906c089ed65c56a4e195911e9 0x15a4920c47dac440fd10d7db24d02e1244cdf654c909897a94f211c4c09cd0c5f8f247c5ce902461f8b018f215da1070753570438d1c9fdc1570c84d4fae09bf5c4; P1 0x2be9ea23243f28faff8e952812c29df214a987748f5efadd0a58856b224b6b830260aa6490aa09adaa0466f2a78e0420f63aaba69b5b807d6f2b106ea3d2b117fd4 0xff972d7083a436977310378ec56f2c9af696937d9264436c64e1db1179b33ccbe3d9140163cd6c07ed83fffe83bd0b068b7577629d62dbbdd37594b9fcc0ebba04; P1 0x17ec5c8b32d93c84ff2b1cbfc02613130636fb4bf84535a9f62cb830070cbfb2a24a1b6985c9221137dfa2870b0fbceda84410d1983eeeb18b9deb0fbea8d57c156 0x1200c09fb8514b11da24075ce6cfee9c39c645e6f4082ecdbd3ab85be3a2e62d4d72aca226d98dfaa9466edab251719afb074b1a92dfa502b6951884bc9acdd3186; P1 0x1e628a28a491a06637415397fb78e6de3d6907e035db8e8853c1a0ab3f803118868cc5d29e92f8572dd909789025c380d3e11c92ca1e70c2d72a542695583ea4588 0xcbda646ae86c9d03115494f2c7cb2d7d6a4caf3f04e3b894e0e608195bcf8a0175d97a3f91d0000d7b6f9a19b0e1e516d61d6b4f8f2df64c86da52f9954bbfbf4; P1 0xf37e2059171db254a582ae88569550ed263325b26799b14e4552a21039b1a6368ededa88de7eb3f3f53a5da54279ba1a083d8bbd283b2d39c40e7d3a82d324e8 0x1258ed06da211021d5e3e1df5ae75f3478faf122a1d40f9d8336a2ece4d43f75bd5c834322b85429279cc4484345bb614e226633a3e9d2efc75b76e78590e244698; P0 0xa8501c636c2688024f69e5b9a156f1ba275d2da04c65589809b1d41374d205d59d80d43794458f513e5682ec8b944baad93278e06bf49430aff644021ae5844bb1 0x13cbb2845064653168896d252b4358b53bd91c7e31ab1207d6f58e47c988ca92aad45ce3ba5e01eee70d27f9d192ae1cc5b5c49faa512ab97f6c91394a773bbc5f1; P1 0x24bcdde5d63ffa2a7103aa36e35a81af7ec66550de6386bf7f8c89322cb4aceb055b9dc4fdb0d65eb7391522883444090fd5520a931a0fe3bbabf166ad5193324da 0xb4b90a90fa302d984b3682b5213a6200d005cd40a245fbe97d8c30546564b82f849619830c6f37e887b26f7305e95b454a5a2c45197ec6a9662aefdcd3009b8b7d; P1 0xbf5f1aea38b37f195d3a07e09e4655011ef840b0d1c466dbc8f05d43b6877cf50b3c9291288edc16f51f20907d74a602bbd8d55acef381f017e82909ea46646c21 0x9037b6cac95fef3dd88373b5d2826fb7e07833f22fb0bd755c5d03383e8dab398812607a5b31eebe5feb9df6c730573069f521d23cdbed0e6656d07d9ae6815d3c; P0 0x289f5ce21819b5aa991018dfb532fd3b23c79d12f54e0075b93a0bb17364ccd0059859968b9f090c40a1310d5baf22b1f64cf46e3ec8a50cf78889b0459513123b 0x3207b4f57280a1f6f53d3415560dc1253726b105c44bdd541446b0b7df6d706c6459e812a0ff003dbb552d29c188c4891d28887a40533c0877d247295c7d7fb84b; P0 0x4e38175a3084b534a3eb7117b820a2bbac7ccb2ca9678f522c428cd7a62829082b1f1092766b7becaf86baae43530dd00c98f9632814e947be43436a10a36193e 0xb981e7a55802346074347e4f73529887f0cdd1fe4ec2e0b2df47254b421db7679e2f3ff10873d5fc5a7fede312b583668d7ef5ec89e49a83068428ac3aa74bff37; P1 0xc9a384145f2a8a501b2c204ebeb88e29cc1bfbdbbbac5bad1308eae5c15cc160dde4f84159bcf0fdfebffa856688cc48d808eabeffe799cc27fd8895b1db8fd873 0x10f73ebc94aa6479f2d3c8fb3a922c59d0108d39d0aa1b918bb7815d90728f33cbef6d350e7057dd7124848c06a05f30fc8d14e99d41e911d707939f511bb89b1e6; P0 0x8feb50d8ee08252d78940f89588737fa372f11c9daaaa4c1281521e1a9481e64a1adad5b0d8810b66cbb54fcee2525b80da6e69c216f98988585b0cb5bb03136ad 0x1577b31ee4bb796be711e1e74b4e9a07e41c1b498b5ee8d848e5d6a692df31f14b9f09527728df8f09fdb83c14118f06d5201712f89f8b6fd722a4b1bdd97fd1151; P1 0x2b34908a05d6fb6bf806087eb77df71f38bea2f9bad3f5bfd0c4d1ef71a0b72b9cd0d4270ddea1fc8a390e33aa039058aa5e809fedefb50ec75b11bea7feedd8031 0xde9b0cc09c6f8897b042164ca6fc9e28b3fc1d3f0ca9157a145cbf180f8d61c30aa8debabcdb3a1ab73ff571baf71f53c9cbc4bbf483e9406351f86bd84aaf1314; P0 0x60c8a4034098bfc5fc8aa4e99172f23e5419d1abb8802054bef9558d7101bc43d2977d6991d052551a2bc8a6bbf76048c298019f02466a9adcad69c8beac33a9d1 0xfef9373e2fdf1d395a6e2714090c4011605569a430dfc5fa4525ab7f7c1e6e5f74e0e7c21816623b59829972053f2410040cb3094ac5875ec8c356614152f7a361; P0 0x7ef9be1df4f1d2d8e04c7dd2f2c4be1346409d27972800e14bf5220e12ca39ed21a94226877a4810a3275ef8c0c4120c7398f4f9f0a758e16237c7eea18bb62f36 0x9123f2b77c4c0877a82eec4953d2b63cbe4ad7fdfb61d795d12ee9b68e9ab1e9d6233c6fbbcc7bcf3cd6f7f8313ae45a62e34986f4c1ccf7c4a967fc1a5d28d9f7; P0 0x2924df000f8cc47247269c29e4898a4974cbfcc63ede9deec702b1c2e6ac2aae01eac01106d27a2aa4f524a582c6766cd2c88c171bf6d26a4221abc604ce4a6653 0x1ee45007c09a2aeb45024c73386da5b9b9c30789a32df6763369958899145dfcbf3057bbea9cafb7495cd2c8f9baa04976385c398f0e61d9f411fbf09131b0f12a4; P0 0x1dd27303bfc06a405b43b9d7b117602d68e409b57cedbb93e37a7573cc4632e8df69f97eed00ef55f39337abb3a143c3e30fc7af19a0c6bc1cdf2af81c205119331 0x6b2f575db26f85a7d803abf80189a5072a9ecd31f8dc59794aef3fc4bb6a2a7d2e0f4b023138d07aed2da0fb99ba1122e93fe4061497c5516b91cffcebcda50c41; P0 0x16704de4c2b0c82028396d293ed0b34750b216250ed95ff0d992bece669e949d9acb42affc440911cd781c083dbe63a738b11bd0dd68854ad35d32086dfb58e5ad 0xc5c45241f4633ab0c2254310d80e8ec78a105b3bc4714b7cef1d061e61d8bb697bdf30eadea91051e54c9a8c446bc65bfea5bbe63d6a754a04f2a63fcce1b90e2e; P0 0x4c63de93c8c6a0e9bf607d603c3aecd795520f665e5e6a147ec89697c7b93f483128a9b80b31fd68ebcb65a8382736346cffa90efb9879a44cec99d18976faf2d6 0x2754bb9385781b91f4f255d7325e3526801feb401f4ea6f63bc634503136e3f6496b5d2690684d2da1529fee548ab23ebfaecf3948d8ddc39be331df8bd240031a; P1 0x91063cbdf608dd4e1533f7d23e76c0403d686819f2816f6df6c92d666918941a01e08ab975daa5fcffd8f34d10713bc3ec2c3aae2931ee0c1d958c4a4064ba2c2 0x59867b8cba61209a9049ef890e1cb0718d70e2d41617689b66371a0ab093f1a12e07eb4967f4227b1bfebd554e2d345dd48d704f5c874dad3647fc02a0a5687eae; P0 0xfa76446b6459767a8b1f6f19fa519d6e05761b2d29a5b145f05b71049fa0601315e6f2ed81dc0bd1967386f3ed150057cc47023b1633f7a31e025bb734f46860a 0xe8fabf5fff3a9def1046da2b95da49acb92aa76024f33d870776fcb7eba9fc8616e0363bd614f6e4709db1c99cc668a360bb2e481867449afc9a2eaae6c756444e; P0 0x6a03b83c2a948fcb5406fdcb8f8774e4f20ff47660e2435b08ec417ba47d710abb05c72c818d0ed1268f6ad0eeed2c1c74bdc42554eabdbd282219dffe293af898 0x2d60cb057be56ad09b9187d9dd86d77cae5ffa5941d1852ea2ba005e7ae06de8bfd6ae577ecd7c1c52d9e50650235c8a35b1c0710bb90cccafe3136f6963dc805c; P0 0x40595fc6956a31caebc8e020bd7fb3a0500a739121adaef1fe28b123d82c971ccd1af41740afd124fd01e24ec26175595a6e0b422cbc1cf8ee32286de562b5e73 0x6c805feff42de493f34fcf2fc13c11910aa6277dfe97a2f3b83b37b608c1026cb16323754c608c021f05285c94347328bca2e8c48861a65bb161efe38a5ca77f83; P0 0x16fe48a944f76f72a7be62b49ac0e1b15929ac0761f62d334f092a5e5cea823c7b593562ff91e1d0fbadf184bd21a706848ac4213e9f061cb86191094ba690f20e 0x3f0213c06cfe8887e5feb2ec43a6e9c3b9a8dfae7234e6e7745ffbde9cc7d642be383093d5c74cfd76f1757d79b9a930db7207fab5f7fe2c58d06ba5c56afe2f17; P1 0x1743089b8943a9fdb6b18274a336f47f742f4c5d49bf624aeb1c3be10900821b778089f4c2f5e3635fe16f250d96f4bda39e5b20752c3a56eb05bb1990e182986f 0x33efa657a486e475b5b418e7f692c031964d35f5380244b63262495b7b8a62e39873ea43142ac1021e3c76ad4eca46e17aa102e343d8ace1d9bf47e9e4746af4a2; P0 0x544ae4f77a45d22d3f209d262febd2119174ea9a773833f285c78259778f3ca988c955761d8c553b7db855b42ab3251f3f9def588c182b599ff8d4b668a3175a1 0x199f10ac4c34058de1a6be78a29ecc31be2ba8641974b872be47d3deb7621a95b8f563b2f2485204cc11f6e5d4f74d30c8c3da5b806b2ac0865b22d0a58da1eac25; P1 0x3d8ae230cfe36ca66657e9615d65ac666232637c39be0a3482c74dd1fe1969242face391acc403a3791529f9e4259f036cdce82f14036c7aa6b0da8802c7f6f380b 0x1f4743d4cd97d931732eea94599f667f85083c95357dde2a5ae125bd9e4d3d61030db0ae31dbf3dce0b1faa3cdf0a7f2d6a6f071e6f35c14c2835d2fb0ff0b87016; P1 0x5bb816659b4d802a36f1d6bc558929526efb28ac034a888c755749a4a9d58fc4a01638505353aa35a29063ede9a47891e81a49728931deb139915ac656c71e22935 0xfa810f0f7e1ccfb9e93f03fc4a48f4444dfcfb58801224678a7054581ba06c632045dfcecd4ec5ee0a6138db045e6fb6cb10e918900c220853613c3e4823fbeee1; P0 0x7a90293d3868183bed6253114c034f667457767a960895a54b949dbd7084d57f8a25a621954880f1d7e8fcb6917ff51e6d4e56b83efd6c1a9de55f4bc8ef0f272f 0x1aff22c39f675b4a57e4e119d6482296eb7bacc31639b8bf8fdb203729d807f2aa9e60f16f32185fd478f7171dc471544b3408c6d1689b7df64ab518198c12c48f0; P1 0x4453a010439a769fa61f323fc8c7653139c67cbbdf8da882cdbbf6926109dfc9aed1c4bb37b01a38629037c767a57ccf8fdcf6a8d0409f9a51d1b1823aa4df54587 0x1a77e84279f8e8b01dcc133531ce911fdea0b22e919b2eb253dd73fca6967c0c64726c8f87b0b7ebde022d1cec838bceeb913d819cdb75f177f3a4d039363cce887; P0 0x15e49aba0a641812efecb36074074f8ecb756b303ba6cabb8a09d8d7975a28299c2ef26a4930e9b97eb4f7d4d3b1d6fcc1a4639c2f15c20b676733836bc231b04fd 0xac01c834fe132c1f79c819404e3074a14416de057bc4ca986809ac54835f7d93224b130714e52741780dfeba019dbdb70aac0894a2b9595a3c121c8ba1f777fc2e; P1 0xad5b978f9399e31a332d7c562960a967ebad0cab7f7966d080804084da5883601696fd06dc4fff9b8ad18b4d5d5dc8cf7c5369b1f21b7439017b84be93cb0bf65d 0x1d0be8c4f063e2eec2f740ac2581f8ce8533d1b70a2cd719c7095386ff70450e96dce201ff843f8bc667c531d37493fb83617bd4a8b8b40c272e1ae72bf5897bf29; P0 0x1a5d9a539846a9acf583aad1d414544cfe488e684a8a11a2409300ed081e5a4d82ba98dff38eeff5f6347d15a428619403c57846cd85d71eb1772f254a6b73d51fb 0x1dc868e9328974a7292647816718e94b277edf558e09080b96ac49ac3a710e7ab0aab15d947cdd8ff40b2d5f0a1cd88be633d791e19e61875d5d806c533f859868c; P1 0x53286fd63389d094938aba79e356baaea1c2a9f5333f20264c9d057efe8483f64dec8cd8c81b902aef12e85b86d85ea9f19160db3e0853670bb2558be7f3efe1dc0 0xf43b9016db3967348ac1550550ede65229679d66bd72e050521a903529bb14bfc3016e75c6f09b88feabc5499887a424647f9688e6ce2741b2da0eb5d17b2ab370; P0 0x7480cc43a6c418ee5c364de1d800a454c2e5c1bb4925b12d3d4f160d549ca17ec5916d1c9f453f29f2150a15e86c534f2fe510f8328ff6c15cf97481ba0a8ed804 0x13800d6eb9141c4706003d9b12217da253cb5291976569d38833080650f03fb83dfd43b0519fae1549e1bb0439df93f66d1f244eb999c673ef8126bee270914a904; P0 0xbe2105ef733f7f37efcfbd718f58ab6c3ee2a2e5b197c738d8ea77a2203221161fc8311d8583faf7cdf3a4d64f83a41a4a2dd5627175f4490cc95bcfa8f4e3aa0a 0x72f2cdaa8b20c68da3d08c58323f382a530953fb94ee1c2b3eb37b40f6b5274ab14c88aa2da0e2cccab907697855bcf115813aecdc6086caacd195346e1519f21a; P0 0x19ce92baafc9679e8d694dc8c145e3bb981393f5f159890ef4858314adb59acdaf43f82ba5362d96e2e7618eb0b377e496b8d5ceb8d307741e38bd80692b8a8b58 0x17ba92de3a92fe819ac8cf86125d975c3b6d75826ace29541d0f3dd86529356447417a81531054b63b2c7e5a29c4c91d9a5f1788bf0e483a4792d65631a9d93b5fc; P1 0x34c958c8490a495a32dc53abf2601c9a308c3077eccb962c4bac32ddb63b1c42e577eef4aae81e4c6f04f92665186e0321d95748b8baf2d92d8f7040244cdf99c0d 0x7f63f6416f7e21eb7f50a5722bdd56a671ce0a4bf04f37e45f6ad81a2ae170efd20d63ca683826b9c67be062a0f9ccec8674541331d197e3076ecd2729984c8c3d; P0 0x1fb22aaea80e9a1b0e21772e41bb65e1bc84e128b54fddc9ee281c5179af6169d4683ae5ebe9bf0f95d168462f8a735eec3b20b644246c4ff1c6e8c700b4520c8c 0x18a05ed60b06695c16951650abbc55dd4422384c2ee847720279582cc69b79300509264c81c0793b6b4957b99d04b0f015065a6f554c0c38f8e427545f6b55cd315; P1 0x38db15e39214e3e29de4373ec739c9924ec108845f6c9ca13ad418545d89afadc8cc2e637e43841c8d66e72076eabbaf003ef2002698cbd0c283da316d058d3c85e 0x9a3d8506540253eb29c07d7dd2eb49069ede86a980a7c0726ed22052fd17a74e8d7644e2b42c0385785511b40eaea3200b55dc802e2b879daad73b3e509e3ea789; P0 0x2e77096a239b34c2b196a61b72dcc2c0149552e06bb528220f2880d54f57a0491ada6f60caaff70eaf07ecba76e2b70fdb5bd1314eaedcaabd755f865e5909a9ce 0x11d4480635a479bf3d273f6b1e68617a146a1d34b29812a4080d98cc226430d8f1d49a23a09b58b3c55a761841c054a3535d7988e739e308b046ea5fe210909b11f; P0 0x9ef0cc18d617740f25a56fcd9b329568cb78e178016e6b22c63b67c350c22a66e8114c12864f3c51ded5d346d0a386d70f02f18e1776e1f64c0cdac545af4583f7 0x1b27fc4bdfd9d2b3b611de9c89be2afa9272021016a3f1a9d4835fd14a68abdc8fdb9eb8b57ea6353d61e347b0cba0132ca437b5114ebc6b62b931ba215cbff65b8; P1 0x452303245796d02cf0694dc0628bf59e7804c5d4fb7852f3dcef72e2099ac20d83f848fdf95905e02cfb1ca3531297d26045e47d14a56429dc537c0d85f20733d8d 0x1638eb60874c25f5aaeb0338aeb6993398756c54150c8dd3317861a634a472e968ded8f3311db5caa443cbf30969357ad5b5f1ebc84b3ebcd668bc8a747f7635a4d; P0 0xf6ea8e34f352513195090d3c614acb31e52cce455c93dd7568536a4e3a28c5db65474fef9d28faa36956493c1238b8ca98793d31791a4cdb6816e912b5e8b19182 0x336c61c415508833d3ae9fa7c073751ed313248ce45b44a90cc66f3d657a3424c7f6faf43ecb340b16e25417bdd1619e7aa2969c0cc7dd8b0f95367e3b7619ccab; P0 0x52a2e6b61a320479f302a33f71804c41429686e200800554f1201e651d6e6b3a6f2f2b5e776bccc58baadbdd9e1d1cb16d8b5879ba2acb5f831ef94361cca7181 0xeca1ee569262963378ec478bcdc360b057f8ed408c3104e543f39d520c3d65c915ba807494783ad15840d20b63cf29922c05aafc236e00d534a3ec0a4f5dd16bba; P0 0x6d5d7aeea2577d32e8757ae9313bc08d67f2c739469cfe50a58340d061585698deaedc0d3e7cb5748315c540a74dd9c0d49e76a80d9f95e83c4ff6a5aaf9f2ace0 0xf7c9580bf4ac6176794d3f0c3555a7d02d22ebfdef0fc3e2d2b12711af1095f1fc70b0ddeb328c1b88bdc2ee55faa447fae77af69e2625250930f37e0d30fbb004; P0 0x77eb1321399989c48ee4363385ce0c64a4a31f5cb642376a7030d8dee7179de263e17d01717e32132a9e8394d4172e7e0835140874e803fb8a05272f1cc518a812 0x19b5e8cee4550212f578985493994316bfca31844845857c532ea4960c2675c094060f9099063237b2420de440b7dda7018951ec25aa939e08970f258f8e5f62822; P1 0x3df8d19294eaf807876d8728eafd42fa8818d826628355c72267aa928150420e885651fc9dbf31403497f02e8c54c953dbe1926cdae1dcb8841e5ef0d705b52006c 0x67fc195dfd7327d448c5863bb089737bef08734ac1589e1f191040e94d8ccb16e1f33264c64a286d22c55abaf13bf033cace987877a718f398c0d648a4e39edf8; P0 0x151e6a55cac09162ed6eb6ef1407c22fc908013a71cf304b0f267034b439c8eb0cc1e5c18db87a2c19b2c66abfc5da04acb86c29ce9296bef14bae5ac93111ec 0x5907264a3053958273b3c46d4fb54700cab16253201b1a5203dc8a5402454fe917feb806817f43b6166a7640adfc071ae9e9cd2d547441452e0cc157d9bed6322c; P1 0x2e70f53c0d144d8f811ee74c5267f34b80baac15b9a283105c7ee9850f39a9124f3ca2510efcff308f03ec2faa5bf253297524adb1b586f3363ebf6d6f8927a628 0x1fec30bca63f67f0516f287cb9dd8083eef1b4f2529030218bb4a8118ccbdb1c31e9a0fb72288c8c6d84e57fdbf2a030166ae25df2fe3b2d8699440424b3b574cd8; P0 0x1fd86dbcaae94b81b70116110c209606ffdefed06af45f563fb24cf182b51c3d111a3bd5f7aebbc03d8b96d6486d194b1a242f69bf7c8bdbe0eb087f0ca6a11ef74 0xde421001d84bcc24936db3fd36059fdad52dff1a082738958f9d5c46047d9a63275ca39a70bcea36259ea0b6fe2eff4f1af9a02d97e7ccc473b30fb28b4bf2e5b4; P0 0x607b5267ba8b9c18c9b53930e74f3e8a3d5e654c622b2258aaaa83b775abc183bcdef99f92c45cef0083b4224b11e973ce634d49b86d64a40be8329b2b7c88fac1 0x235e43436e3d024a67a953f7b1466df9a806192931bb2c0b9c7e940e6851ab560e467c1461340ae9cd9ef6b1ce1b11539301699bd0bd4938dde30695b20af48151; P1 0x7545da6db010157466296897a47d18173eca16512ddc401392a994e64951703b51de21761bf213d98d56eeb6580774c50d8063a8394e801cee522f0ed2a8cfaa0 0x1085343855a5f19769b22557274255bf94ecd27a38d05d5397ece5bc45c7043bd4adb5d24049493dfac6ff63b563c34bb2f58d3d2129d9abb7b979357bc71bd2d83; P1 0x19961c183d701b96de9606e41e7b614ae152ab99f6edcac6684e32d261e996d374589873d7bf74d5bcd128178d4c8f8fc2f143ecb8d7a2a6179b89898a64e10ed22 0x1631879492a43f46aa2ac4a9b93575d29273ab96c3ed89eee3376b1d6d6d47ed0fa68665e962a0b2f371373e9c1acbb15324f1db1c359cffc09a3e5e9cbf2a0e03d; P1 0x2e2d35413d399f5386ae95c14ecba01eacdaf5c4f637e5f0560ed6cca9915b1f34a8a10bc17ebba6d9f9990f46009827a34800d117fa4025d33761e428702852c6d 0x623d7ea301b2b7ccbdc05634b54dfa4b108ce4dff7d3091d325b2e15074fd4aa1c2ed9d58fbe782731175e7d926b5857188ebb4f359e656c98a359e9e630859808; P1 0x388cb5979870c209271041102cd23f55f1e8247cfb70be6608ef9e4f666f8625ccf477d208aa1ec206c649791694c5a3fc3561d58f5b50a465e48ec27387d2a99e 0x11f33bbb3289a381e1d65317f2bac344fb0f62f3467f19fa51201396b8ecf3abbccb764c4cb11df3f350621f0f661fc9545a58bdfe8afa8904acd3919c27f9f2a5e; P1 0x1e34f8df80c10caf57cff74332c340cbff7c1a257a51f300c12b102da2eb9ede7b445b1e64e4fce95261e8472def133b698bdb395626c0718dbe7a5988a88d7f92d 0x682e0dfc70e6494d3e36c104e4d642be638c97ea787561048332862982ae44eca9737692520d99e971c20e973b6e4b6447dda5330743fdc22e6e9f3cef4c2ce8b9; P0 0x1532b9d3119ba55b7a75a81862a7d615e489717a0e7b71c999c2c40b4c64abb18a30590d161ce1f1722561d47edcbf2e4716c6eb9f425be643d86f264ceb1c2542 0xae9f01e3be05273d69e41eb2c524454ed9ece2aeee92d4fd496cc90ee0a22b26f5d5406bed45dc4015929ec89871d19ec18aad3f2fec1a2fec49d919c99643faf3; P0 0x3b8e44aa779c4eea675cad98383946a97144e7fae723e91e8792cc4c4524265ce9ca3dacecca137fbb7a75beac2470919efa47aa4dc12323f4e7d721bfdcc4200d 0x162eb9737ad2167695fea93734aa44bf0869f519830213fe0e44dcce61c6cc7642e064896afb940ecd96e2a94967d79df49a43c5fb27807907183c46577f1f5a2b6; P0 0xf60833827a2d7bd64514e081dfb542c977da8f2b0615659d576401e7cc62088e89c82a80068065ca8368565fddc63d666f446da21f0dd141ec238eb66b299ef0d5 0x1efd4ecc602ee8e5b5005056c13e5e2142c2a058ee4552203da119b067e48d201e57191b5468dc1acfb068a898d23bec4aa0ad799cccf2f685e37afffaaad65ca39; P1 0x5a085ab1e236d9e49e94faae49bdedb7f9cc010a44e31c936cb3132651de907a084f41ae65b36e2d0e5acd6823bffb3682283b05d44b3d00cc89db02bc465774189 0x1d9d4fb3c86c7d57c5b8d27eeb8bb90932d460a07dc327bc5ebca208cc205846554f0f66553b17cf3d16b0080106a8516e774b1244c557523c21fcc43f159f439c; P0 0x1b6825ccb5e6eb63d38c57e53e4db1888b579a957701ebf08ef9986a4132a566cef69a26a8dbfc7d381b021a8d3774aab8554f4295faf527e9a47cf7fdce8d8e8 0x1a65b1e21bd80dd83a42fa1b6424c05ac292aaa6786973b28f4ae3177cf69e2fea591fb76247660989ae5c9629b0668ad3267ba2aeecbe53d4173257a74828bdff8; P1 0x41538cba88274412c2476e20ffa1cde4892ad4e6d883e49035db8b7bb2c8945bf2aeb1526b485b49aa6c841bbe27eb74b7df8108a88a4f7b79670b248898393110d 0x11cb82f1c7cdebe880a1762c198fbcf822d6368686ea52db9b42724cb864507fdb7630de17b14f7b83c316d6dd30d02f19117e35ce56df376b8c22b6678155911cd; P1 0x1dafdc3907203c7ef9a4fd8dfa4f2859df9629c21ddc61fe8641f83b939b3d97bf2aded18e9c59a22403e4ba23a24c406ba20e7ca8d79561f09c278ed95cfc1137e 0x347f52970133f3811730bc83a19ee96bc38e469558135677dc4b7c854cc5a14b429fc4a547daec4c0a8e65beaa855e356774d3ea77b75a13d2cd7a45e0db15adf9; P1 0x1025f550977013779e2f51ca8ba25cff53444f08c3fcb2ea88e4e5d8947d5f42eb7748e8b70f0c3e788c8f702bd4300b8d00f30087c2686d4368435088252704af 0x1d68c03070ad675114c7c2f7e33e09ad0a145356f9cf2ac8dd8a9c8d4b86d41a72f20598c7e50d974e46a6b66efa9aa936bcc9c2e23109f237cade3a6423a647942; P0 0x1b07333d895c43d6f1758f4e0dc6db453c208e4a98202e14a019e9cc6b5f60f3ab10b87c3466042d56e79eca43a80972e6566d44b0fd59f0249fdabd2f61a4941e4 0xf340e45fcad4f8f018e4b76739b9175b7710664ca5f70de3bd544ffc07109ba988e9231406bac8bca9580e6dcb1cccb03469fee8588871d528b3199f5ef748b6e8; P0 0x739221006b58401be6bfef8dd9533cfd2bb517f455c867b569e8388b6085090f07ea9b8df7595304dc0243763183141b04cd959c6c85f78181bd41e52384787ca9 0x1159db95a29dd92fb7d553e23890a701fe95e3816bcfebae83397c2437e5bc427045527d24d39163f3928b851e70d598b8c908e19101771d064c209cd1e99a72ee9; P0 0x96875a24feb2250f1d62dfee0d529fcc7819e4d5de75959ab9ece8e019e93348a0727b52522d6518906548e887917553a1e7d5f3282783fc956a1cd0cdccbe62ca 0x155352a94980970686eae5ef6caab09ccc2a6c77b6b8a6acbcadaa6308c5b80da017a97d29bcbb4c8a00b1e128758d0c3089b0dd727976f7935fb083caa8b54f2db; P1 0x2aa2a05b7c877ca43004ab822a2871ee3a9744c8401c9ec2fe47585223b3a1c8189855b4fa5caa0641ab82ea5bae1de8f911da3f718fe60b5f76d5468087d58c02a 0x1ce8a36e8b6e2e0381f8febb2de8697e73639c8e1bee32b5905081be1ebd5ac331c198002aff96d508c10d0023de9bb54f09553186ca9227962cbe0145ac5a91635; P0 0x1a1db94679963874c017178670c55801f4a4a3d4d305091b9b0f4e87497531179fda916f3c37fbf778d10ff82e1cd130079c9cbc2f973b2b40073872ae8bf0c0389 0x186068d8f3a0ac2ea773183f429011091dc453f1fc703e2ae857e8aa9cd41a815a92123dea2ba70de5a3af3bcfe1aed2a3e2b3eb8b2162c2ec55d40bc08a4f32a82; P0 0x1291bfbbdaaeb4c3aa306af30eee4bec4248a44c270508f5e97088a969c68b57f0b6402c6b43beef830a0b92a23a5c8c6711797a0f7c9c047601195a3853f9c4adc 0x93da3f858be7a495f2143c5614cc68d8e99952f218616cac31456adf8e96c0582c9c60ae6ce40c70a569277fd328e38da5450b636d63e447ba67fb115897734e0; P1 0x80168e856cd1f516ca51928f93c6d262d21ee809e54b73930aa05ff1a2a55d0d0733ddd9f99bd54f0564ad20b4e162db1cec8564a1f07dbe828ab60864d3dcf2 0xc1bf38501c2655123ae39d3b4236cb09620e9cd7ea09a755a760a2a596ed60db7232ed550c1e6012e6a84d663bc29622ded550f68891c73fbd70c266963e5728f2; P0 0x4950f0deef2f796d6722501cdaf00023cc7c31d52fa0ad9edfb63bb99e2de7d4e8583cce161400a69b6ea6016e0ce95eb6ae74b7f3825b4030475fcff5aa6dbe25 0xf7c20c7242af3cbacc0fbaf7c2b660948a8353e44da6bd9ae08daf11ad17ecd33189f1d2c76c323dfc3d3fcdcc6606ba9dc86912e15ccfa34ca81af90fbd7642e9; P0 0x77e4038dad3b1104320307b28be5fdc8b81938cc60b2896854996f609bc33e4bc0f1f6aff20449f8e1a4e04e261942147f8a0c7883a18000f3be835046b7f21d8d 0x1e6edf6b786329bd81dd8b5c9cea4b5cbb120c1f345f992892c9147db1b63c13885382007443cbc992dc90f5c6deccee5d0d7ab95c697e7c4aaf4143f02823b159e; P1 0x56d4292ed56a9c85b4889e47639ff88a9998a3f2697dfe3e141a99dc5be53106f8bf5a7b4995c25ce66dfaf044f9bdd7f080dfbeced8fa5a46b4bbd1dd2b562b150 0x127450f66fabfb64a2e5185feeef862ce8b59a3b4ca46a00859cddabf89b4d1ffe25bf515cbd349732091f6c1db05af7fc5cda291ec243f39a31d3d9c01075899dc; P1 0x1fed85a30f6815a69b4b6b65cf5b4bd391dca93287b15f3de740806f40e8b968bd9730c4237ab6da92f45e9f85856a1da45aad5d631e0c2b243933fa034ed383f4c 0x94667714e194518d45e001322eacb2aed11d75f6acc78b7fdc4338287cc9f4e58fdebebff99c012332dbcc702918a25dd0e49e89f8f74ce0da3309809970625e7c; P1 0x8109f40ce14981dc5eb43b4f5055751ca4476a4289f21cd3973d030ecd98d21069665805f458eadee53b67bdf3b79ff5da64b5b0ed7552647f5f7449dc454882de 0x20c6b7c6c3c92eef7990e2b49c75af4e3f2611175e25fa74404846f2e59b4d058e128edd7e9a68a807838b2039d3747f881b2faaa48b58d4cd35d1c3ef32b6670e; P1 0x64b6c4bba8263c4504f07f6e1e25b4ca9cd912cce025ac2b8a2ba4a38f32e86794d739acec74ab31c7bff6b17fe42527433c69a267f74d03d70fc904dc739b8a0 0x1c1bd58ca561675a8e2b3e15f3e0be0f34f06352ac101c6df6b0a5757f42cf86552cd891add62947e36008268bf5a47e48fa2d2d42e49595746766f1762436686ec; P0 0x18b0cdec0fdc4d07fc7f14ec91a42074799632a977ee41b864adc6feb8f56aa315b8d36c3e9f732d48c8bf6ba7b2d17a0ddca4f871b530d763dafa1fbeeed6dbe3e 0xa61a1d26d6d70c8f452a1eaa127afc2db77997f406e25e5f82386d98287bb522887b6af2af2af82c427d177c7f2654e6e8a802677826676c6c58c6844e4099a7ce; P0 0x35e2f03c26ea2d44c7e48d163f6e9cb100076324a684c2465c046e66bdc6366708ce8ad79f43cd323808c2cab960ff9dba6686d6289c556966336fe84f1318e3af 0xce65cd169d3daa5bf7b048ce158d6afffa678e653d0d14bfa2531a865943f87e7501b947a0eff5eacf210ce96a2e4192dfd2e4422dad2b2acd4913c9f815534d73; P1 0xf99bfdd1cbcecffce5d19fdd2ccd8f8f52732a5b3b23fe9ab6daf65cf0e7d37173966ebe8cd7044efc0c38de036aad4da7f49f353ce142ec95f203e5589ccb06e6 0x1b85bcc5719c4b8a177260537558513a46ac5058140426934743be96cacaa978d84542fb2de57f923965fc2d0787ae43c5879c7859cf2a0ca6d999c253926cc2be1; P1 0x4703987017a6938d785625cbe67b68a95d8cff653409e93dc55a9b8966958649e9a91d10bb0fb42b8e8614a99bdd8deff1b2952788ba21e3a8f8f61c45512bd0111 0x15dda618550f0314291414554e03b19943c19e1091702038d843e01426790a34ef74c417e79337fd1bc06c95c0180013c75b209829b31864522c87d408159151454; P0 0xef0e9417dd7186134ef4fdcbf2af8b9261833966b1a5ef4e45cf91f7c223753a7debc42fe67499d9304b2e29e6fc73c086242196f150d91eb7dfe100211e735cf0 0xce311c40053d04dcd90286c9089415f02193e91c3cdec1cacedcde0d11e5a9c6e394b51312170bb6e06e52102e9de65ec818c7a6f5f11aa9466a5126a7ddd89880; P1 0xf91c9c544a156982e235fbc634fe363e1e303e6b58fdac79d135cc41aa0ccd81d53e47a751ce92d831f2e45deebadade4d3d6ed92f9000714f63b2b12842117146 0xdfd612c6b9f8f8de97caeac620c3cb16c6102c47d40773d5607bb40eb913afced8dbe2cc0eb5d85c3fa183d0fc0774a05b339362e4e0bdb32d6108a1d45a9a3146; P0 0x61db53dccecf9d1f8be9ade2efea292eb74d9986bc6783c97204427ccd5c3cf52b60b50bb8552ba814a8dba8722ad25d358b8e04bde036461378342f0fe79e5ca0 0x600d10cb777e5c0bbcdba3246d282f453dd34a90f6789afe0a96735027ebe79c36625a5fe959bacdca4d1ec08f2ef218ff5c8e659e0ceac9c5ba009e8471523bc4; P0 0x1204e6a1a7b17c425642096a4142868d7beb5b08fad616a31ba5d319611a1f0e3e39fdb23a417528982f8f8e3809798f9adb71673a4ceafb60102dc6fa48eb5d39 0x184da12754db6deb146197bcdd10dbcd960f8ca2e901d1131b637a49d20c32e58ec92cd95e840a545432dd17af1cd3a8df3c74f8d3c5077fe4770eb0c47a86f4b49; P1 0x375f8a292870714bfb7b4f4c2a6511aa174442938e981916276e6549c1d6bd7e69b7e8ee0d7ad04bee539841f8714d10a7b90acfba84321f8a07e9e2221eddff608 0x1bcd08c72fec21577698ccce7fdfc76a93710f96354e55226956fd8b0db3efb87531ff22beae75ffbbb7cd13738dcc5437374791980b0b41242a986bb327c35867b; P1 0x48756199d216bc837e30b08a8cda151f42b699fda7eb3449335bf85cc6c5e14aec8c53bb0a0560218f3ffde8d13f8795d3720fd7c235f34e36a36153b1fdcccd97b 0x16c28a273edf7e1695ebeabad3d1e7b86f0a98d23daae7609f2c9e4840c650eddee0a6ff59524f10a9171681dd9a303349148b428604ad74ab49d4d99ac3585d6c6; P1 0x309055ea3440f4e3b3655e9a0e0a54e48d77c2a05fa0346653e3376d5e7dbcc33123f03ffa0ccc8b544f17b0748414f9cdf12557108654d7e5aec3e59c21dc6d2b3 0x1b3095aa473efa78072626e6beb1192c17dd4c20f682b51c7c4881caede96d4f38eed144f3296f7d0a251dea1f955adad238e9bf0d312a3f0f6eed83ea6ab89b61f; P1 0x454ed2f93927cf7e253a50208cd9cae5059dc917747b2cb56782ee7ab966b0283e573d299785be8e898aa05f065654a7bbe3e05396a3d9888f48d6237c322e20ec1 0x80bca05c989162edb84e7c319f50874edec50a15b6ec56365d51274b27b95673f2d94dfac49064d7a1375f3c20eb25e353b2e8caf9c912ff8c4f939e84ad1c5604; P0 0x205e95ac4282ac55624534610f1e5551a00f847de190cd735241d045ca3bc8b78ad975be99c99b988d5a3226f9cd83a99964bcbe8f00f287b008134adf9ce9c5de 0x11d2f51f42fa1825061c1092758c0e585cc2cecc70a5ecaa657fe8f428e5232343fadc6ee8400618e8b52bc94595be945922f575c567d3aea233d203e63f2b075ee; P1 0x1dc8b97d555ed4cc5ca8f85243abf02980b10cb20603def45d1369fdaf77f736bc92c5bfc566ba037a7a135f0bcef7a9488db0119f81fa54f6954b32c424ede86c8 0x1c6cbbf200c7ae18890708805a4df92ae567c57396bdea0ae18e174608a69d7c825f43af1614dd3a9d2984820c473ca65d2ef8b596e6c3f53514638f0474f98c294; P0 0x193fba6072be43cba45610f5c279e3982ca812b2d91a12f192d550dd6d9841f48cfa8f6a8684d0f2dad846d561e4e0897bab6bc1d4896a2c447fb54bef0ab353c60 0x1f76f372d87674e339c0a62bb4ca7440984fbad31b14f4934237066acb8d9a63e065fc4f1672b44c49a6cbcb8c2c2ec077d761c8a3a8920449b865d047a6d9e1f0; P1 0x5cd0958b8b733f5c1d839df86219275c523c7daaba16010b66f439045ec9d2fdaea2f50f5097815405572879b25f6868d5fa3ae117e5c8113ebf971fdb9bf1b64 0x19ef29323173d5508c0821c0495e4f91929093c9b161820aa0a9b9ae60313d64257ecd90d4bc5bcea160d79cd6b4a9a871995134e0e8b19b163dc5b4ab9ea965e64; P0 0x1504abce00109d03e6fdd1507891f6b93b9cca1ad023a571d63902d35ad485b891067ecabf0fc759043aeee4187ccd6797b33fbf0e6743573b93dfbc3e09f5acac7 0x87bd17249fe639dc19ed0030caa55a516aa33b4e6457f3c0717092996e4b03373894bce715b4d5232672194f4965fb1f23cf783ae29bbff8d80bf13d4a2f5861d7; P1 0x6bf5771db638c7687409c97190dbc2a37e4f10bcb6dea7c9dc327ce95a8b104717f41230fb97a6d92925d64f226255494d7b0987c850260194c9ef895610cec615 0x1f9876a8b39df0a6f35bc0e8878578384af09e4bc9ed9686a11d652f4793ecfbdf07326f716b340af49ea118e1a1864f1353428663d3ffe88a56fc9538b226cadc8; P1 0x5d96b4ef84040e4128bd5afdfcd9cd678a7f777486e44c489f3d8cba860dfd14b7d41a56e6062a9c59b7f832390aa3d2e94064dfe47a996c40d20369c43ca906598 0x9a0d93557f8d7c46b4b0d285d5c7208cedc15ee28bb16a0b444f0571a78695bdda181006cacae3616b4d20f880b444dad81b0b29e9e939c364ba66f6b86eb82a58; P0 0x2e5a2afd94783d771067409adfbdec0067d89e4600e65ca578d9bc9f919735d5ddbef02ef7a5c8f25ec78fb2adbbbae028f36b4d338c136a08ae23b19df5f64d74 0x120169b09b5ea1c8cd47d2e445b8d464a3980c7c1ea13672cb521086f5ce3ebff7dcc60d21d9fa3a41b1994ac86d255cb2c4b7c9d2b314960bb964478fe7b774bb4; P1 0x1e64c4e3f4b4e2ab258e968f17285517e7c8a181ad5e5afa2c48778a9cd4d36b2e70618262aad25cffec7e867f5d4d6d7005f1e287499df161c5e3f8e96b34f37f2 0x2856046ea46c7c63eae57abdf472f08f1fff5e22a4ba562cc8daa226782793f18eaa5392dfe00485db7ebecf423aa99bc4272edc5e8e38bf750edc092a02801ba2; P1 0x9887d6e54b20713dae418a41c271b152ec8f20399a3443e7e78c2f32843eb90730610445217e7a4fff3c1e4954cbfd74cb4f25f34fae5b35d9c66b8115dd9db64 0x31f3dfb79c81830a095ad0e3f5dd7c47afd6c7836a5ea82981d51dc188f1e27fb68dd818d5ed2dcbba1850e547f98d58b33ec5cefdc8ef8c6ebbb8d927e4cc92f0; P1 0xe9ee5f225fd24950fa82e5e78de17942dca33f816e52329ca3e239c35634ea7576bc0b631aa066884e3c7bc609ce99bc0249a2a5a6198eb6a31987f5db3138c8d 0xd7fc5fded3498b89ca04b2a5264c92aba98af646b8e56eef2fe1c86d28f56d8dd572886cf572a12a5196ffe75277e6eef1474041f314f884b2b85e8a5fbb976f8d; P1 0x11156d2bfbe3af5e7d027501179ca7604224086ed72b76ff7564f085af4fcfc16afe4f67ca031d7fc772fbddc94d05f8f2a871c6e52e1d7e50e9796a5b709028664 0x13a418e6f464f46fddc8519ea15abf5741eb33761f1ade2a0e40fc8299742403ba08206ff3cefc7607b2e240ef48ca9d077f6417b190e91e6208298d54f5dd7415f; P0 0xc0e271194e1de863665891a90195da92bc9e4c21fc919baa4308e905bf574eb4fbd7d624415ce1179d83bb40793a369792fea24656996a7ce97e9f55cf6f6148db 0xf3d5da4a143bccaabc4d8dd53c41779e00d60010af5618a907321b51480ee118057f0e22ae1a7176da12096347c1741bc5cc07b23be59ac16edb77deef53a4aa1c; P1 0x15c5f869469ba2aee6382a082a70ec7b8680431601d8bc0dd4ced46c53bbea591231f665cc30f4453db9ef5e166ddb823bdb4f9b378cb685be425f55f2788730e96 0xc4830222fba8eb14bfccc7a9c0e4b59875b78fadcb7d5e8e7347bd763f7dead91cd6b18583cb822fabf70c269b54d8f39879db19307b7ece6ef8480a92f2ea7c6; P1 0xe2454d7921c32b56394bf563bfbd918950cad75729f5da7aa373b1ccdbb1416967d967a279292d8498e70ba2234b8eefa143b6da639272bc8643a58743d0ff67 0x1f2db200c0e11f3b4c40f3b8ad9e6c72c714b5a5aeb486d780f03b52e215c1576ad7d82c9ae1c07b9fe9acbbc3372d283d3d82e8c175e003730a308ae1d8b24c6d3; P1 0x5b225e65e1f1166741a2f13647ca909732bb573996e00409f721b3e198a7d0d938c071ab72c903185cd470081af4e09645b21eb6a52eb18a08e00a31cb0216b418a 0x674ab9ff7e912bcce2475725ca36f569145f2aae8d360f4f2e8066247b92126b295cdbf4e8f6c21c6e842e4909a00465fc43de16c29f256811cee99baf18b47745; P1 0x3e83d3397a09e1a3186e3e07877795160641e4d570e94f8694aa2f28c5b1a62b5e0f2ba28fc3bdb2ef9079a4061d6b0d4d6dc7b1debdc388deeee369650d6cccc2 0x8d1e81646290f303d5f0573d62d600c2f3605a5f918d5da0f5cedeeb31ce8cac3b2d9a6c9c035af84564762d3f85d652ce1306bbbcb5b9f6c15a524525af38768d; P0 0x26e54f1594c08c2f3555f49553dff2f8f941d8781f40541e38a23bd458cf3f9bfff8a03a1f7cb84aa202c268d46f834f33ca0653c9d8d3179f4eda56cec5634299 0x1e5be0afc4fa36bc186c73de3ab924e6572d2b239887cf028af290befab2b168e7333f78a80f66525d5bd1534c8fab6b002c5ce2ac2279c1dc0f356dc199ff98c42]);
     (0x8f15d941, 0x66fd8474256e396de2160ee4590caccdec49c5d099e12c7e405315a92dfb21e8277549d8d291744d79b841e8e1e86d5273fe07d3f56fed6f1c1220c2c217c289ef, [P1 0x0 0x3; P1 0x0 0x1b; P1 0x0 0x88b; P0 0x0 0x48fb79; P0 0x0 0x14ce6b167f31; P1 0x0 0x512b5841aa0817b34d8f623; P0 0x0 0x19bc753052157374c6a6d868f2d9d94334a7807fb748c9; P1 0x0 0x7c30cdf4df1dc9ea0a26d5ceb55c2791591d8803f36491b6fc3922baf83f696e327b45aa1559edb2d51b62f0973; P0 0x1e1fa8698cd54f2b1d1c08a98ad09c4a87e832dc6325985661a5 0x1baa4635797ce8717f5226ef826953668c84675c2b7ab382c18d0f4676131ad6e87d3aa10d965d45ed5067a9607e72b585c614ac3388cfb0c8ba65bb5ff94e9ab4e; P0 0x17eae084cf37e443f0b074f9623b7b956641551d700d27dcc86e1f2de55afcf91637616b45c9767213be3b17d8dc1383401b6996e9412560f039212df5d6dd03fb8 0x185f83f4f050f024d677c44fef8bb42c04bb62bc3ed702ed594f7f72b589210642c05fefe4bbeb7322d5297f8ef7d8d065417b574ab454fb5bcefe5741ce46d8b7c; P0 0x1290630906f10b37a9a7ba310f0daafdf682dacc94c0dd34d15a2de8ca1c746330335e5c9ad49df6dd72e0d42c44d8a0a6e9c7aeb03fc0a1b67be07af4e81ae127f 0x7809c05dc380cf55e9de13a72fa03ee5c51ddc2a558bfef76a685dd24f40ff1a500ff52a8abd03cab31446a6c76b2bda437f8d4d623593ba3adc11e1c37545f68f; P0 0x1c24925b7f36a483fb97d1f803ad7019b72fb0d3a7bd9ca01638e846252595e8e32bda129c34ca61de72f356f7519e194f3da86629da46c83c6d6783d0e8784ca8 0x1d43a10f87ec52afa1deec82fbc3444ee8e48d39fde816a1c6bbc76dd6b87d030e7cdc6cf960fdad05b0ac5b671df8f75653f71e858bb1b4979ce1b862875057089; P0 0x1ac322d9c209d2bc43c77e9513b852e3d463fed0d3fb1fe7b574e4b4d21330b38cee9858b566406c5642d7a926555ca8f3599f5135c9ebed2d2ce49e5cd77a1865f 0x1591d8569612dd612347f58c5b49dcd61d4fd819b45ca10509c9511b5c22ee2e5aacd37bb445bb4f92eb8396e41834a82b8469396f4ea23277d803075984873afb0; P0 0xe8a04a7ec3aa1cdd0745b60490c0f323db47e0508acbadd956f4ecc24df3fae2abc359facb26faf4ec73bad2a2a1d4fa4c8a8c8131cbd22518122678080f5f3882 0x10ce1acb9a739a0be0a09d41ecf7149f6891be4577722b5066785e9a8d9969af49f0d07d84ea22b977590c7a1a0b3c27e3dfc84b1102e06bed9d09f402260115182; P1 0x1a79dece0ad83e8cc826439600394d40c2417e2ebeea24ad9ffbfa3adf8d5225c48b4bcf378c1ddc65848c987b14d8150b0ca1e15d09a9540bec626388fee4888a6 0x1a3f92edc7048ce16633689db31ad0eb47bb316212e243a3842c3be0b1801d38610e5674c0fb4bf3cd76d28d5a371fb0f7de8e8e55bb48abfc138d1271035ef1ab2; P0 0x1587cd0f8e47a5b34c461c942fccd3427a59906c6edd25d0be0f340a9cd65c376c51b8e2b156b21a170806cc64cf3ddd0e43ca769706c6636c8eb96eebe5cc5bea5 0x17b49eb70fd108feda068d0f48ab668ad8c27a122154ae700b04b6169d9b985a794704ab3ac8b2cf721bf695b52e91beb8b169c7e3386b0b0ba059d615eebea6269; P1 0x34aedeeb5026c0021bf12acb10ad05bc432c9f9a9968c138c7f6e9b5841424a4ecec1a59d68b9a9509638c91fc239479d5f90a38e52f0826925835b98ee6af98406 0xa63a4ca955ef9120176f0cdfa87b6b547fbfc0cb37ff914fd3cc5c5ed1e3d9a3d9b5d22380fe9dd70785aa175a7ead04fb1de7225ac76150cd180d9410e6533139; P0 0x35f7d45937914de6192021ee2fee887616505ba81e233a9df6dca6fb8e2b3190d33da60bb35ed3d0dae97a67d42fc48c0ddc5070f35b3d444600ddc4d616f7535f 0x114569ded8b51cc2f1551f85d2ca478826383d5fd769232f767f95a9a3f96b84bd9b4224e6771ba92fdb0178a65d35c200226305219b0fa42ab7b316b7177643210; P0 0x952570eb58b79a4425a967e6e2892dec2ad5a56384680cb3d5ecb5cbbd1894f763b5b5534a466a32ad21a7d6b8e1caf664532bf28009be6ee192262711790602be 0xe2aaeedc666cfad04a2701da6890b63c717b22ffeeff25be139f63476cabcb791016567f11ab9ac9192e606cabeb875e5e834b801651eb98d07c4206f37f5043be; P1 0x12d0b5fcee0a67fab914f21d1f2a132b0e2742a8f0834710abde8ff785789546b6fda0bded1740984d7b558775a9ce58779ba8ee344d36f81c6bc8047739242791a 0x8199ca12716dfb4d56a9b42ab673622d535b440c504d567dd9f43f700b7353190cb7a6ff283c1ca526d0ffc91a47d0218ad792d9d1a7c5c9c7d50304b258497c26; P1 0x626a870e9fcc4d980f246dbff6443681e7442b4dcda465e14c782cd0c5941474f5b5e901c41a4bf201bd5d2c01a431c8a96fbd88f8d41694cd720fb54913237c9d 0x1d455c8608a0ce04b2d3d43a38a9023fc7a0e39fae813b4ae5f44be8491bd510618c5cd78d52a4d1c7167fb738eb482bb047c16579c66adddfd7249032790c5fd89; P0 0x1ac64e0afd2d8de5de0f1cdc2ae989d2ec89eaf48bad08e1cebaec117749fb551c39f77e945c7b41ea23143b3fd859a84b0d6d0bfb9418cd7f00e048a0caf5514b2 0x8efd178673eaf854a90d39b3426670fa420a3c817df5dcf8ab763afade68e4a9bd7da3e2c8c7be18e543f9d7cfba03aab179bf61f21575cf4bc4a5624ff472803; P1 0x77cca078ffc4d60dcef56ae6df9adc7197654cb7deaae2d45a18b83ff9b734b53a56dcd53eeae5a5e3027c2528dc3b10516abfbc79d27df8c7985c50458dde09 0x836119006bdb304389adea9f9689c12d0f3eb744ace48a7b37878c7d336c78ef570636a5676e7bc7c19404d9a1344e2ff9fdeae44e7316b16d3128ab4fdb4eae24; P0 0x21b6423531929248577a3d699549495168b6c23fe781f20fd26b99169134dbfdf0a86eec3c4537da68b6f6460cdf2c13c2f82a1169a3017c74a6cc9b7a79020ab9 0x2b556c5150220958730ecfd2a72aa7de77f4b5d2f791db7ec506532ee43881f2fc830b856bef23e2cd5a70ca5f9f684a9697d598a2048bfe410d1fe3d2a566ffc9; P1 0xb00b656a31f08c5aad7d29ac4c59f50ca684cf74f00e941b593a24f1bae9fa09425ec85b092bd84a2cf274203df7c826bfafb75c8efa439055b25571c5b596fb0 0x1c509c2b1844ba5fba781b71664feae272a455e79326a08404f0bd4ec29132d427a8e34c3898957311564ed2ff727873e8201550d634fc7c3f9c59777e624939323; P0 0x190ddc5b3c160472c9386f13c46d6ea33fedd6d7c96e34120bdb7d6138e765b26db285f211c08eafe4100631507e6809f7dcd001dec9e8281c29a87755744e168b9 0x7a76a177e4999f12cc4fec0c64eefb98777250f894ce421a4fd5b007c3791dc5b62d39130bf4f9c4355a74e41c6d4db41a3b85bccfd01a194afd0238af6ba49f82; P1 0x57dfed4f4961c6622ba715fd5c1f34a3d9bdb9f49ba360ed05f82a488f78f8313d4ffaf9bb9d47f680237ff9c46e4e1177d70ab4097206942f06e0a0c457ed769e 0xe3e5264cb7fcaa0f8f295644bb5f1d13d792df27149a29c394aa53a2138f0f253e51b2805c9f2a479e7e96e5e80efb0d9f30aac8288a64411877529192a1c5b0aa; P1 0x13050468e65e92bdaeab158c97f89b5f3b162279d5a088df8d7cce2043b4c8938018acf90cb512da937956367f3c188224081539cff888b650d77a5c1d08f8b3ff8 0x10902b711839331c869170f3cb9fac958dd0c20473a2d7dc1b3b1c24782f373cfa32d76df7dbd533ab92332e455af16131cfe1589f14ea85513bbe6c6262a35d2a4; P1 0x19b81ee8e726242034e92bd874e565de3d2eb5d5f7e5e1fd7e0a1a09179db54d227eac31b4e820846fd725189d0233750aa457eedc394d11cd0a38af4207bfd3a6e 0x18e4c032e67e729ef78a8a0c5fcdebf5bc10f03e1f1aeed431bb923fb2961b409c7a2889a8fa7f63224bea45bab8cc19fab854b0ec007043e2259ecbb7c9ba9a59e; P1 0x3a188a8b145ffe1bda461b918b27cc90981faf2686dbf22370ed0385f03d9213e76ebd60ef8b6a0e1feebeef713161399752e07ad8409432cfa5dd6128a127de6be 0xe3ab5c53edb069e2d00849c6e9988fc6a923e77a57ff60be0bd8a3c04910447c8646a2df90409794b19f06d9acb82c6c6d049712ea9dcb78e90ca27ea64fc10f4a; P0 0x653cac38a87969e83d903510f2a055a302ed1cea5e0af4de646ff86a7e70863acfbbad843a53d4a28a5f058358d2c500db5da2157d01c48efeb47288faa997a6b9 0x1430955598eb19d7c454c6df5143adea6e457873bf774187903850ed57248cdb4d9d38f8f03225ce5a754719f8aa5462867dabfd23a5182f006905fedfa6415681d; P1 0x26370d492a83f3df8b4d5edd130112f3c439be5bb37c7bd5e8acdd679ed344ca34f8700c550fbee92b5343b2f1b9abd66d62ceb3efb9dfcc8e6b72ba76a3acba7c5 0xc69b6398eefbbcdda9c609252e11ea0982e0200971ba3bcb2050e572adc06dae6908759119b002452c510f9c65beca28492191307ae9f65aac32def8b8f01861a0; P1 0xe71f1a937d6da9c96fba06d01f4edb31c3255958cf6ead5f2631f8ab727f77fe0edd3d52c69da5d81736608abd6a27bb08c09a7bb7175097f227300f2c8e2de7e9 0xf1d224b1f225695febf961c5fb6fb869ddc81ed1253fdb0b21536941d3e010701a81ee3fd6b2b3ddc3eb224545e37256afb92768fab699fa915fd03d47e7ddd3e9; P0 0x7236aacba18f1ec95f0a10774ce7a2b98f830dd9ed6e6884cbaf6bb541a7a6774521bc23c41aa45a9578553ad524aba57623caeb6e8b0b58da8901721e7d461689 0x14a48edde91a44eedac365c6434eef57c8e62118440c24522b75d03a218f8927b18283a34ae7bfdd981d28008983aa22872734cc22a10553f3df7ac1c028afa009a; P1 0x27f30270cb68d149e717847142a2f508a30ea9497894f267339547576c8c0353419111224e5098fa37c673d8da7b222ec151e71222413ae11f1e56e6c20e4cb96ce 0x12229a9f443e1555faf0ec395c08cf63a89f572444f96742664cbe83bb191077617388402b84377f9cc6f34af7c8c7c0cfb9709122288c784b34cb2f9ba8324acba; P0 0xa47135eaa56e57258dc329343271dc8605d87e968ea01efafbd3b37358d3d7b54dc4ca331b56a0aedfdf2acfc529f8a7d448c51444f6ac995d9a18d1b99d9cbe76 0xc43365b2dc4c68e3625d47a22a72add07b411e752a258ac5499d45e369a980d4f8f2d2a1de6ca6bdc126ba5e87bdc8a5272dfc4baf501a7608693c32090277359a; P1 0xe18e1d11567f18c609b916a3c45988ddf7a38a42649bbccac38ea552562446c074aff759b9d7dfe9f33472cfc2b0d8e7ead6ee8cc1b6afbf7ebbd23691a8c49ee8 0xaadf65141d1406752fbd8b8771b0f382d3d5d01dd47ea3022aeec43c46171b4af2ba89284369279420409d78542d570ef39b37b9a5ed3319c2506a3a1981f400d4; P1 0xab142fc7f35b32fbdea3e5d154f3cc842606cb0a72cae103ae94c04b62b91b2c93cbd22dbad285f8567c99e3c2d92f53d242c69fd6d9fcbf37ad8a2359f762f710 0x7613e43a5352c12647214acece452b39f96672fc7831817e2ab261149910cb81010a9eeb621b81dda967cc0b449fd3962d546a8d3d9bebcb2ed83a43c7abc505c0; P0 0x1b3b2bf8b8784d069cf5dbf934c84606f9c56a269ad7c065fc38da7fc0b5f25d5fbf81158361560cf27002ffe604616178019a4c6434c873c9d2c23725b31ff611 0x1609de189362ed1a2b9adb65f2bc9caec4e0581828dd3a4d8495ab9667309c0646b36c23bdb2c348934c3735fc70c7f0ed0b67be0632f7d736a0e5474f60cc10611; P0 0xf2d946cbdeffd85afb24d41314111f2e96088241110db45a35366d13e9422ac05728050eecacdb163c9202870b4426a4afd10aaa8fa81c0037ccb25830d14832ef 0x1a8f2417c8d1ac7334ee7244640bc0fd271328e20bedf095be0a196f9780e9d0f815b44165b69d6bca9a7565334b2c99547ca13b44fae4fafad14f412f88f0f0010; P1 0x422150d42ad75f218c0dd8ec00ae76b22c929fc30827e1cc5fe96c662a1a59251c2582285b197c1b54ed877415dbcece8471c55ec5deaf8b40d7781d2f93cfb3fe0 0x1d9305a6a5c01313bfd8bf8c1bdb250901c6da7a653f225f7b4ae4c70c526d71867841349d583a33985a850273676ffc7eae5bb219de2656b181e0e38d1e29b42e0; P1 0x51ff592de97b4cbe4f527319b36f4581a4430861a9c5eb75c0b8744f485f496265ceb682adf1168cc1dfd4b272098e20530bee6eee55e3f892c2e88b0fb75c92bb4 0x1d7dc9c39a8ed9f00a24749c74be50f26a6ee760047c18b7735ef9819c202c276d2799867e74b8420acfcb74296a0276d80dfe967935f93eacac61bc6f41bf1f7b4; P1 0x5189c477595108f89d1f153fae29751a78d70e3578ccf9fc77627766324c92c4f7a958f8ba9aa0838b7afb3bad9340c369cca05ee863ec6435e34e3779ba5f780b0 0x1e8629244b2761af5391fa013ffd0866321b9095fe2f83806f8f06d0aa5cc7c68301cd1987a117642a41b533b047a238c23b4708f235102482aff3221d87fb60460; P1 0x57593ed6754d402ca57262ee0a7811f0629c1a8a1caf2110aecd36de344a1d25337d7704561cfa9aea62c38a41c2d72186e5f73a9a286a42ef41266cb59000ad305 0x142cc19cf49432df29a1bab8a3886f581a4b4283f6bda518766f19f3d2fcb525beecbb797f0733dd67ffd29319b1508f5f90babed957c1a94f502e17e9d69c43f05; P0 0xcb8309d34ca1f3671a7424f295eed1d4a09169b6f67cc17651581f10d17b5d5ac189535a191b8ee66840c2ac1ed0f807028bd35444b331892ad8b398b1776a1fdc 0x1cee3edf8ef6d83e11e30a104d3c4a04f001337993bb4c6ffcaead6e3df6821cf6d9f105f3c167d404972cd592c733471af1a1c3331f7ae4197c7ee62f6209595f5; P1 0x4e77936cd974e2266eebe98dd20ea438aae44e16039e478c69e0359306b759b63a77c2a4fe902c2d6c0a0080c7bc586defc534ef5ce927d5d430ede0497140c73c7 0xf4aedef196b8512bcd714838f2e7444d4f1a4e286c94444ecbdac27919c35121a39428a9efec07600cd2bec9088b0fd8a43e5983880f24d8e5bad68fda8927c932; P0 0x74eee8382cf0115751dc4424113a5008c875bc5051b7683d7b003a207539d22dcc192816cc260ca171f55efd30c6839cca1477404494ba58d9eb257a2e863ee7d9 0xb624c03d358248ec1dfbdee8d77d5e55b2c506497d66a9ff3cf7be9db049d89f0a783511a3ceaf63cb367d31ce24b9132e93ee0f73ecfdaaf746c19adcf59a759d; P0 0x40cc234ed4d4159d1ad958e4e2a3622b7443d847de89b0db6d455abfdad205a0bf68c4e4dadfd502b7e28e9a0551203e34376b1a3db0c04b58b0e91578af92b33c 0x2018434c55ae536e37f6357f1ac6e0b507444e373a3995067c37b21c55c30e04096cd4ddc119276ccfe2da05bde7650f38344c27206a7f25bac63f21a0e87f9585; P1 0x6091cafa82309bb25c3c093ee57e45c75cdca637d5ac70c12bd99eb7ecd9dac6d0afaf957dcac98f696fe3ff6a6d89d70cbd7af5718b9380027aebe3f794c64e9 0x7c29b3f40cc49cfa168fc611822a36bc005dde3425488940f29ca67e9ed7c32d74313a94835c03cc927c9fb17a74e90cded89db2282e3c5f49279ccac3bd2aaa34; P1 0x5a54a3af568ea257c55fbfe5ff1e9fb893302e6afd1ccb966e225762a1780c707db5d30fbf953dd8271be55d503d47d5d1b680e96d7a64f4b32242cf676cc94466 0x1ba4b3facdd0def6e19d5548327f420dd89079fe6f1ef1b2f7badecc68553eadb7532d0a0e5615809ca54b2241ce9e7adb8b73b9d31b1dd09d02686f456a3749416; P0 0x17e13f6ffa53a173c909563d235651fcdd4a0217235f3b747de77e882e2126926dcdf0e397ad3ca618fe6c366f24b1a7bd4f3fc0070118dffedd952712720f68018 0x1f0b4591f788e3d724627fb5f20111b2af5ae72e3936fce024931ec3f446dbcc01822aca90865cbddd60fe4ae10aa8e5766044894e067d32e97dd558999ae8ff1fc; P0 0x1e1ddac33b337cde9453fcab11fe4af8ffed751f3f57f1a0271b3fb652c11950a1c7042a8937f7f371ca7e81b182ab98e5c0c662a4858b90a5e36dd8da35aa34d22 0x19e3515175243f98e6efe3f9af327609c3d4802f7bdbb32c58f8139930e64a0560d838e07044bff87cafba1c694bb1577d80b5ef379b04f5e22304c82be26e7bd32; P1 0x3ed4798d5c135216394582e15797f6242f1ebe02fafdbc332ed12ac6217955f007ac82c6897751c6d3275dedc38cd9f4b8c76367c584682ebf45461b62e085c4ffd 0x1a59d20a47fe8be7a4d07adb29938f276d3ec60dc5e4a4164e18968d3b7fcafc7edd148e89eaf5302c531b7b280e0062bebf2013693f95edfb0fb996aab8488e949; P1 0x4118d44b527f2e7794fa5abe657292a3c94a265dfd9ae12ac667f6baf0a5b907b5b9e05a9e068176e828c412fcefa2e26e2d1a29fb3f96571107c8d3f7f7316d293 0xe7058538faa0a8ffeb386258cf191a4379c129e946217ca7ea6f95cc9a27cbdc68f130ec40bcd8b14bbba736cd4b8fee94cbd2cfd546556d879873ff756188b706; P0 0x683d7b45a6edfe2effe07d7b9179dec629d5f4cd7b9b86a78c15c0ed429e998397e900d3b0abcb1e93b00141bf543bcb0c2a85fa3e091058799d8045be5627c5b1 0xfdcebc30c192aed373733fa826b64cba0b61b641da98d05e812827f860deff9f8d04394a1845b8d1cc44421272eb03c1fc1bcf1de10b4b8519d5a268efdb6159d5; P0 0x7dd12375e3b58d9bf4531ce80a4086fee7db623f211fb017fc446670a38ae442d8e4c5898613db7e785e9dc81596561747a36434eebe4aaeeff642cee8c86f9eca 0x2779dfbc8087dd63616c9b6727df761b8cde861e9ff968cbe4bed88b8b177d0d0ebbaf42f0b9819c5fe263024f8a913719cdc2aa8fcd18f6368e994f56695f6a03; P0 0x30b2e1859726c4ea5b4d19aa1ceeb787e7fddae913a5150122a00a681b84ed24c0f2d2213d106a4d21d8b03c730e2505b6d7bf61a2033c6d8ff8e99ee53bf9187 0xadc11f5f2f93e9e61eabebd66241223501a17fee83e0e6aca6f1203cee7a74b2b24a33d539915bf772a3586b020416551baf8edec6d8883f8e60d1678a3e00d90; P1 0xb0e5e1227381c41acc8d60500e03481d5665b77bea4bb92f9024c72f6a971f7de5f384b6cfd57c61e02b9bc7c6afe1ba805dfc14d6d4de6b8487db182fc8532a 0x7dd0bc3321389d5684ee4fadb5b9cfcfef1d7ab6d7bb171eb0cf2c9c918e3261585277f3d9aa72462964f51864ef84ed89aa7330e893d869d98e41802f85f0262a; P0 0x1eeac0fe25f13453c92f12eecf463d0ccd3118243aa9e3d5474adf0e5c8a85e2332d4e4d5359fde86b912bb8418f525c5d7ca8171bfb9fecee6f6028af2a4ffad4 0xe03a0167e0f882e22fdc320472b2318b04bc5d72420cefa7156cb617971db557c7b8efb001723f8c7d0e999e1cabf7e173793bdbb7bfd7112f031f950a62c079b8; P1 0x126985767a32a3757d16aedf788d4ffcc6d625543f6a9a7b5c16224591b79acaa6a4341a5cf722927a57e0ab7e88f422d5fa0b7452b4273f098c8d8ad67f42b7390 0x13110a519a990e9a097373f530ef7d5c29459bf3798847dc9abf71a215754be1ea44c83e07dc640d32dc9ac4e76ea50778dca249816ccf5e3cfe8fd8e3efdc9d050; P1 0x2214cffba4d97e0efd441c1de68fdf26967ef653eca9d062563dd68aa078e6f685e8e558d32b6a13e3c14cb4002a514aba128a4b71eb5e9b2e81f6321f513b36951 0x1a9b47249e337a9ff2970365428e4fd6c6ea9ae1412670cc4efa7c231a06fb119be5cfed2e012b9706afe09a480cd34dd5652883fec474c098fbf19a4b9c919b451; P0 0x161f451551fae1e349c9d69193443babe007222899b8537ae79ff20e151e069017d6a400e5474fb08f187329a82c153ed8349584b8b22698187400f3cdf26783853 0xacd5135e3446c42eb72d2a14ae217814bd47de8961346c0aa52f03e916e2f50b264445033254ab11ef50ba2087a51f5507e84aa63c6a42d8988a0901ad0f4c39f4; P1 0xaf06850fbbb5cdb5417801b0d62e33582c920adcd97a3e790a99377b31280303f85f389f5582003ee67ca3f1aebc8c11a158ade9e1b2dce40e9fc6cfc48e61fd1b 0x9b731c4a9cdeab90b7906aa42912ab7aa572701411d5734f019dca353b70faf8a1c85f47f17860569a5ed5f6d608f78b717218fb3d0542cc28dc6b9393b85daecb; P0 0x2f324c02640f7def945863bd58de0ce5b2161f3e47490f373fce389b3a86cbcba72d552e0a059b32b7e3ab584feb368b2a123bc348aa7bacf94f2a086426dd01f3 0x172b19326b8fbd91108bd97178ac74ceace98526a288e7a6b85b3417ae9bcbc799e6b4816bda0aff9f8b41846bd20824e9825ac7a023c71f21f2bf6b5126db396ec; P1 0x32528accd1e45ef061bd0afb6c14e2fd554013c33863341d0d9ce7e5bdf756bece6af42ae1e5f98cb1badf8c9d2e13dd5afc5035fa7fd801b4c922c940b0145f141 0x58ae3e2cac53d8a5145e71cfc3f8816f5afb0bf926eb3355b06fded9fdab7417063fc9d5f067aa634dd674b12d061a4c974856d9edf40f01ab41e4ad1f1e4a2df1; P1 0x2e146202ef745b487241bdbb7bc32a35cc48df1854d87db7bcffe5647681cd867f57b7a7f5a1325715eaa607c3eb814354686ff1486a3dd533a0dca9b1fb081348 0x1a005405987fe3264eaf9dae1b066e5e311b2b1a31887401cd8ab5f26736e4ad82c1e36c2e2b388dd9dbdd6135a9c5687deaf7e0abdd0ffb1a219a1a19535bfe9eb; P1 0x3f61999ddd479828755b32f823cf194c22cbc6a5ca9e5d51c4ae7b5a5127fd722eeb6694de36095063455a1c3554c96d0ef10597999ae332d2f06fde21773805868 0x84bd2f42c9ed7af54de14bc5a9192acfea78db7252280cbfd3f2de1922cb86ea368f437cfba0d7d65792cbafcbcf67e35dc4c6f43ee6408a68687a9af004b73193; P1 0x673d76d18a5efa89b3185fe70dabfe1c763cebdfb23e5c5c758bddc7095b527a38b033df126e8c0b92cdf493f4800f4ada8cb9a375d2351f89122973b19f2546b2 0x13af957bebed33748e8d4fe73140b619169639e9d488c58bffd32819d34b916ef171fe85e016d1671660d329932280071aa59f27135c8b262a0e025987f247015ed; P1 0x2454ced2998e0d57da982e2041ad1d0515f74778e92e0ac2bb67fc00d2005df7fdd1a289da7826fca73806af27583c08ca5a44691c2303993c18eab34f6b27e92db 0x135204c7e13133b62b6e28b1893eba721bde65abe8e5ee3ec60247cf3b2513379b5e87e738af9a7a94176cde5dfe7f842a7dd0e3c307db7e40fa57dee223e40cb16; P0 0xbaa37e5dc83625caace4c5389533668501f1e3d476f57be53b23528fb92af5702acbc74c8752f8be0800b3cb2ae85c1feb0e75807938c960b9d452dc6b2c155a90 0x49375eb0a03dc8ae85316d67949bf6c65522f5ff090efe33206222a87fc9fe7266d7386ea61f6206b57cfa577e1b77eab3fe06b98052c85eb395c5290800314074; P0 0xa784ffd47272344edca67967645db5b19011cc8e76af60e4264ff97f39d413db11d2179e1f0d3b24347fde9bbfa84d74644b175128ff6f23ae382f45bee2e1422 0xec3760818f9aa2c537efbf8ee6dd925200542fb8db427e6936ad21f55c740a4e54c4d699b124abf71c34ae450e5bde124baaa1c64182897596e7c42d15aad048b2; P1 0x146f138de3b3b5cbd5e87393fce6bf10064934b16425eb2b134244bb17f6e99fab29e2c47c615595c6bc72c610324413807aab255e80043dac24875f947f7330fb9 0x84e7d91f5eb758b3ed73037dfffef5c4d9ec960031e2bb8abd1c9098bea6e9d9538c00a9861cbaf1ca898ecb60106187e3fbd6fd05f18dbe9403415aebd0e0e305; P0 0x227ff4f0f4381a6344b466df66c1c164a501b40eb5cf8d6ca11ebe404fb036608020bd1e9009439e9dfac117b1f29e40ef1a4c7c38ed91fcc2ed52eca4bba05534 0x48ff8a7cf95d5d3e0fb511bd99bc7906b474337c0f2d72e419cb5604ecc945df3cb567dce9e1e32c31ef9b6dd421d4ac9e0bc6831c9305e6279acb7248edb2334d; P0 0xa685e7dbe142326ec2c9199042bd7bff3275ec79120251864bf5ac39240e843e7ff2aac8882988451617e008b318fc7823a31ef0044f72dbf566fbf932c992ee0 0x186ff33308983575c03661544f51fa78f73b93662d832367234089ea8991958eeb02dc02ad59f74ea73342cd1f048f0174ee38f2a3b851b92049d2e9deb1ff4f409; P0 0x12a97472f73f540e949cb8875b74e51df69e8a7da0045454c9fa1eb3f26c4dbaed6bb5c200e8570fa299144f1bf1a405c09f56ff483ae4ee62bd162da17350e8de6 0xe64eef5b3d63918d013732c274e446b20430e5404e17784f82eb6602b35e07bb37a30b2248387d1f307d7824bb4a7b981dbd5dfde26f52f6f4b1a72a197cd7b637; P1 0x136cae5a6048db7080414ee2d0e6c4dd9a213e6ed262027e7b38c6391742cb2c9786c77fab8258828a209f93f1b16b6d8cdd90534325d6031a1a25f8d0472d80904 0xa1657730304cd8f6db06dc63c7fab732cfe41ad9e040c0220a605e6d63dcd8b16a5e20120201140df10ec99fa5ffd2498b744d15cee5b1f8e2340d80190114c877; P1 0x98a12c32d066e944eee0d5e00c7c04f11bf67e367241b6165392e1b850f55ec88cbfc475653fcfe91b393ae93b2bc79c7429d677ec9a7e944e6adf510138e77cba 0x115a0857b33b55a90cf70780cbcc285fe3ef2a1cf3c6111e9ced7f083728b7a82bb501862bc4b4ada3a07b8847da221119ed6f7419ab2accdda82b7487dd19df2ad; P1 0x1c39f28459c40838da11cea741207af34b6a54e5ba605dd7f965cb92aabad7f8ccebc62a1a2b29a61773bca50791d2bd478e5be81d8771fbb76d2c0d7e1158f9efa 0x1d94866220154cd87c091ff03d32d043fa5a08c4c4474c5a9d13569574279a81799878298252ce8ec7914351581f71114fd15becff1e76e377a71ed95cd2e4839b5; P1 0x5207aecd4e730db2ac86c8c8a7c2a33c822e971df1a2eaed789051f1bda393c255df096ae44605e210fda5cf29ed6b6ca110ac3f7d39ce8ccc2240cd9442fe7734c 0xe27b6bb5b477a212cb85d3d9f438532885d07b6d6341e2865a07cfaa783c27ec7c34b795f72ef17844fd617bdc49f29afa9ed20d674fb8f34dbf184e42dc5dc137; P1 0x12c8d388440d8106d6eeacfc5dce4a4e6f2c4589ff6b483e38de9d02ddd0768ac023f392801934d8038dfa3eee203a8b8351ac0079a5aca5fcd700a9b1dbe41db4d 0x268d93257aa5ae5af89c508453e6fd7d73528265f443c1491714b1261c1676f4713ec17ac9280d407207a78aab06cd9edf9089016cb17665fad44ddb77319fc8c0; P0 0x2e72afd46232d4e0373bca824a6bf6b14d4761bf91c6790467477e22ad4345ca7ca5205043cc9982087f6135775a8494aca778970138ad4289bd439d970f50da4 0x48e3e3cf9bd88e843b35a263fde96b59d1cf907e0c45ebe192652845146fe7e68c5e3109c257a1b0550925795f69934426b228db76d110102becf7eaedece19da4; P1 0x1f217883dedb0d71dd76289e0d970c38d1cd8b4001e23c30b1c20e674ecf44962af323b389122141d7f96bfced956c0934e3fb4d05808b4d0b61f370ee01a07a02 0x2412bc27c8ef4ca8216aeb2ae675782f9b9569a18aff874e6538037f1aad84e726720df8cec5d61d22ae5a2f54cfbbe98cf46b25b8deee64e7d4b6ca5c93b02d32; P1 0x79fe96f489906c69062c56cebe4bcd7cdedc0f03979a439cae0cee39fdccfc67cb5a832b8c25e6bfe478edba9799094fa37c9c7a40928336d966e435dcdcdb56b 0xb1373fdcb9d74bb091b199f0050d9ccb5fff9a3c6b72cac29c92f05072268b85713417d6d3812248add09e76b72766378ccd24e18dde6e1fd8592bd69e97fd8eb7; P1 0xb8042b5996a2ec6ee34f193cf002147642b921f5785c8724c7494bfee998282c18436bb95bee6aabcd7a00ee57526a0e31dfc0b97a6c1f332b576bdda4976e4f76 0x9e847f877cbe52aa5ca61088a11e23042bda5db3161723e955c5f27e6ddef205525f516cd8acb5ada3cb187b581e36a6ef176ece046de755ea8b5383ce6d3ee3e9; P0 0x3113e8ff809da3e496cad66c04542ac0c743bad9c735d26be44583ec0dac2147aeeaaeba7ba2943aca030da3faf92750f97ec5661207557018e02238ea47f1c75a 0x769287aa1c83e1f2bf0911f93ec4c8f1d1b17223ec51ebaa3032129d21b7c69f9fe822e0b83088ab9627d494744af8b5a9f75c0d3a207edc960c4e176de1b4d16b; P0 0x1b75b477ec1b7aeb3dd0be14d767ed10d1454f0123fb0859a2a365c156b26143f56ccd09a11e515007da45f92aa7a1815c04f56850312057a32fb1fac4a913e423 0x166a77db24620e9276b541e716eca723c585ec72c2de20c7941bb01998d7db137a5d6c77db7a4b664f63ab8525fbaf21b3ed40847dcf48d14914d80e1b7e8dbc6dc; P0 0xfb3c7091ec398fd61724052186bbbe581dfbe1abc1fec13f9d87c84456b0c2e23935c5e011818ccabf1b74943b889fc5c08f070850fc6c72ff74db3ba2a2143d50 0xa147cb66e558a5028dff992651d5a31dc179a14203147d965f49031d3abb2d79914fddd8d0054630e66d4855c8644d1b7fbe078700abcff50fba6f574738f54a60; P1 0x986912f6d1bd97b655bd4555255f2e2bae95f14f683315790995e905c45f25b239337e872bcccaed6ab5230fae3e06c03e1d6b8799a9e239be3083e71b8123b9e3 0x73e2687027b065f222cc1a56a2e849704599a4dba1fb52c440fd3a45389d5e1f9515b6468e1fedcb8089e6187bb737f31249f24b94abcd9372461e1d8fd536a5e3; P0 0x1a3a9908aa24f036cf0efc645dba60b6a3eb1801ce3abf585c058ee317464627939d81c02036042525ff2628174e19305138a913b503fb64460a537ece5466c694 0x1275cdd437d94943e90962a537b98ec26f3cae5a5cdffd41775a350e4cd4638c370fa91a0a13ebe643d07128cf1a18928a977645dfc3471971755be3c1e79a92ddd; P0 0xaa6393d0a99624881fc3076f4ef5e559571a21723760fcb52580cd23e0987c9e499fbbc185e1cfa775b6feab8d718bedd1e3b7ff8aca86aeea04d6d224328b0f03 0x168293da47e5a593c20ba3d2c8b473f03e5608a17422f156d51cf279ce1921adc7cbe9185e49f7eac233e7741348b83e47402eba0e80846dedce5da8718b28c7fcc; P0 0xfd5a0201b87330e970fa2a08ceade6c5a110311e4c80539c6edbc9d3bcb6d5b31e5901a3c127c7c0d352c148762e3786fc29f38b2fb243aa1b08f640ca61e55805 0x1713b9e56c6a5a2d5c161d6ebd88df3a6bd8da6d045c7486ef1fcb33ca7af6bab46abdb00e207b5740dacae80e3343bacf785d4521d71bfa359ce0f0dde18d16295; P0 0x10a46762c434c2531e6388b06d02435b463ab6508dc55888357501c04223bdb11f71b42df3d1681421c42bcfbca798216de0e11697be3e3e371b69901581a83b170 0x14f922ea481a6e742ec9b51dffb60694361241233d29900fcc8331d03bd9ef595cdb5609b0a2f57792ff6cab9e234c8e272c4bfc7f27e125f7161a10b8227c41c29; P1 0x293cfde51ab3159e6ef4b8d281cf383d44f2ff2389656b458bb893ca31ca55b78752391efd42aeaa4daa436f4df184fd78a1d630a7aa8a7033ffd7b0b5073d91b98 0x77b835c4667576d6727d56500d9b685daff2ab01a04ad29e3b2ca201aeb289e17c65a300d4a11927755aacbe0fe0f649fe88c27e43eb201ca341816eab537c174b; P1 0x53fb29cee34f19a7d42e862fa7b56ac23ba812f4018ab90f167f1aeb731ef6da535fe5b198912224bc1fc46822f7606a76242b77c731004dbbb8ca798002be70cd 0x130917abe85ada0ecd58b354df0fea528d4e65dab2dd7161ed6407596f635b4a609ccaa9f28ba2ff2b54b64c3e96a66a4efb087c923494f02223c9c49d9a11220b8; P1 0x21f86c149263eeb22748e808734dc0984f1b6011fc0b3a66ad90216e5e680a6fc046b50469c9d5d69c249e245091443cf908d356dbfef1013a7a1ce1cc315e93208 0x121fb8c253a78a4ee17043fb91893336b11061805b2a0a0bca93b51bed56ae96fa70e8a77fb1e130381e39a22353fb5da337bfe474cd5dab32e68c2bfe34014bec8; P0 0xa43cf4cc15dee52971bbd9e58ba26a7443ba201cf11fbc156ebfb0a850166e575c33ca67d6b2d03f3e7d8a10f78c99cf20552b4ee59aff2293f65fc1025574bede 0xbf7b48e9ee910e2be67c93e399e94ea33945054d2ce164a8862a88d4677b17bf8977771f5d3ddd91d0835f5236e3fbf5b1c90ebfcb6a3240414702e8c4b2e23b1e; P0 0x479c99161bc60f3f6d39f33f06b46aa10f63e6ddd94cc00b58a8d86dd5d20f844e4de4032edfe7f9bb47cd6c31e70a04d9548f1515425bda659edfdb706e94622a 0xc26eeff10d031a38c1b5cefba49e6670cceecf4b2f5bcf96e118a5279b3a32f6ac6fdaaa83dad26da7682b3c1beea786d6975ffe76b8764351a1e82382953339ae; P0 0x49d629de35e1edd6ecea579a6d1dd9e2aeea67a5d60671f13525b111959ed64f0dd428aa200c0922b989219730ede059b5d6cdde795c4f4028ab25e253816bd34c 0x65d929f4ce4e2057ac9b7e6da122de63be922c95ea364873ebc13f6b99960f944f36ba791904901a741f9b949c9202c0f4ec5e22ea8498a711f346b67015bec590; P0 0x144289a9a957dd137a3070d7409b234b977da13af5313a717775741a0cb06213f42784b737f41b9e4910dff40f0dbe6779882163cbca9d0fc586924369e4b615ae 0x69f05bcb0856ad18a8e40a51deaed89e25c748dea3b37fd74cd9219e5bf9e5bf65978c44fe5e1235ebc70a13377d5c3dc73f3d2675bf4ccc473b00bbfd5eed06ae; P0 0x15eb867c65385abb50c9a8b163aacc17dbeec18f18246fb34d41e69164c839dbdd9aa5b10058910996d2b71c1d68e76ceabc09e65b1e99e08cac5624b109316039 0x3ffae0c20851fae2bbbecc7064a9b4cd838f700a351bca049974500a5332594e2b0c788123402c71f817788e4754f16a43574d229677d64997ebca78fa2f89fe7d; P0 0x7feb83da0325d9cd7686db3fa8c83fc748528d081df4bc3a0c1f2f2b61dec6bb8849833b63196758dfbe068b31d641ff3b3c6b96676d0ea41defd51f7bd63c8f8 0x1c7452f817e0ec4a0671074ae81eb6ec66766b6ba49f408a3373d6bea62dec7985234e3a5306cb91af2a4c3cbaabe4de8ca73c8adaf65004bc93b2f83f0022a1201; P0 0x194d380c8795ba058f0fdd3c58fac099e8c154fd3156d70ee4c98e71e1a1f465de9e1c9e501446ba5593540f4c11dd359ec3d4c077d965cd5fc320fe266ed77a87b 0xc3f89c4ef541792f2092a8a390c0e64bed609e6a5ca585dce267e667f6343cdceb642cb406e332071785336c7ee4d48b704e05f0dac419648861c15978db0fcc7c; P0 0x4b0257c7c106a05d60be1a16bcfca3b3c0401ff86a3a08818995dc20588296e13f6854d24702c9613932459557f5497e610d1d3e3a627fca53db64caa30735f1f9 0xde7c759dea1368a8f9bf9fd66055bbd8e786fd18f4820f4a15648095d9de5ef81a1c7ce5bed0e3140ea955758c219e3c78e9fa8f00e8c3763b3ccebfb8c913ce09; P0 0x60ae0c40047f12d8922d4d99e02b917a62c034c7a36e1258646f018b66c718382dce5e2d8e06fb3b62eec1343725f0743616c2b7c54bda517bfccb95db9d9f5c96 0x16241cefb34409dd526f710d81c7df94804d156abbb472c72096741249020140112e283ce883bb2db27d47699621661153fb0f748c429dbbb8303214bddfac7d8e7; P0 0xf51d08acbfb63df492b1f79513ec5855bfbb77a0668a7ef8f077ac67fcbc71b5e506f20966a9e656672e830bd4cdad6aebf826168c326c6cab48e727e7c7a20d38 0x84c30745a2178e9aa9b9cf1f112b7928cbebc47f316a0d447517be3b62a6193403412aa8e962cef8f2f7cc256c9004825c5300fb55c4a70b1caa43f063e28aada9; P0 0x226cda09f1b90e6067e3aafbf447f90ecbd5fa6ed3ec879b6fe64256c5253fe8033cf1139c92036e5c8a5b1a03d369804949aec7b91f9afd950283c744f5a91075 0x18990270b5b46a8789d56f2c95a3223b0271cd7c9cb98a69334f3a7648e7330dd8daa5b5ec9c7e0056c400da6fd80bf09815c48e36a523fb38562521db909aaea06; P0 0x12e85f486687d0b882d5c4069d6cb0220f946f5a74c40db487bddf1578b170d80d73fda461222bec9a55a02134672a3eaf9325c63e1dc8105f9ffc23932ec05918e 0x6da007a348c60bc0a20f9d04d342340712b432444c6e270e4c239ad6a0b86d06d12eb58afff8328bd52bcf22977a920a319237b3c6abb512d03603486efdec89b2; P1 0x466a7fcfe474ed89f87d0ed4391e632a3595cf3d613e3d3b65a455566257a225643d5ff8ab930f243a1054115cdd3481426b1e81eba3ba5b444c8152dd1844a80f 0xe4966937574cf24097b16c8966014407a8eb30258e1f7119ce475c47ab7a55d13491bf378e407d672939518df8f532fb2cab358d41a2b5ccc804ccd9ed1304a75b; P0 0x660e21e505cce7a158ba229ca556fdcada7652639656bb338d5f6123ffc7a26e1b496be893f2afef6823386d6d56e03bb05fe8c9704942db466b3f5e7051de0e68 0x784d7701b7740ddc900110ecfbe5368de57618ef5aabdf7f99b31ec2c65f1bdb2e39cce303e7087689177da1c5f6938f3a371a2f82b1e19be6180733db7c1de8c1; P0 0x1c445b81352be0affa78f5452f7c85717f38b842a0ccd67dee4a08eda66742c79dfda7dc19c77a25ed690bfd519d90dbbfc593dc53d4184bbb0937e167d7e903b6 0x71b0b6931b193a2822a8eb5bd786c908235dc8b9a37dfc89a15dbaf1b6e9a32969af0cf456e9b31d56dd283ecef9b1e60d960ef7621eb9d16f75dbfe975f416537; P0 0x193ebd94b533838bb3287c15c7c76aaec0496e6db3911000fa73479332094f4548fbcb6eced92bebbfdc11c0e53b107b33cc80a09d73b8fb931cdfea33a5ae8094 0x81ee45f4b7e0c5774b6edc108b1b40fc99707e8daca5162bc6ee747d55d8ba39a0b6aa87d8e67e34deda5e4869d996c0dc83be0587f4700a33d66a0ee905a0f265; P0 0x20f9002363ba20ffcb69ead30feaed80ef8ea8fc74e0be70d0294a8b0236757e885924c8da29bd30a86c06028dcd01359b0d3fe2605afef5f808ddc8a7fa1d69af 0xc035c0c0b676faaaed242f172b58cc70a2e02df1659fe5aa3e398e17e0097e7cdb7f5517c02316a1f4042fa41ed22b1aa31c04d7f1bbaf7d787a1dbf29cfe08588; P1 0xd879029fabef7c0d48835f26fa985435fe4208f1428137b0f771258ccd94d3cc6e0fb357eb2a70e21097c56066ef0e9c3d1dbb447969daa5d542a22bfb36ca1290 0x1396ea266adc5d5bbbe8367a26949a709636d0f3d6d9e5536648ab051e58d2e0c6d4b04ddccb14fa4f493dcb0d940b8c7db0c98b861c1662dd0b6fbe33ee1bddb50; P1 0x23f9f95669249d3a922faf23f16b13c2cc4a589c688d3c73c29325e6cb9ceca3e590af36b9cdff9e7c461a03319fd20f6b19dc205126687a2068c6eeee70fb3b8ff 0x11b5ed60a39f8c1593f67f8371e7e355dba6c47ef27b70456e0a38882cb6920a5df5fb431216b0a239b6c2a3dcf36f1276a53a1965fbca6bdc66eef18179fb9a3ff; P0 0x9cd5682e3f51d3bee3c5bbf7ed17e853975b3f464f834cf86aa06bd98af52e413a3c67025152d865f5854cb2640170e5cb5e712eb8539fd9195a79f3e077637f6d 0x359fe87ea6a48b7c8bceff7bd9e788216ba53771794660ab27a5df1e5d758985d20eb738c14877127ba33ceaaf7330e297dbe005ff0548433d9a5f5c07a900376e; P1 0x10d9673a9a3566464ecd595df9afe0b45b81e53853a6b7714c6ded2ead0a862037b0e8b1a8918716a2651597ff91aa6dd5e6625083c64574e26130c2724e18a30d 0x18196ee7641c7a5e78d32d24d70ae70336240a154b4353466b15f5789f4c2bbbbb91c8901b08446b864cd9beb72d33020f45285e7de1b8b07cb545ee60c2619fcd9; P1 0x3672afb5a03d787dd37383516752654184437fbf92fcf906a1a91d02552f586559af0d1d9e15b29fa0fe2aa5ade6aa8f70104d22b910786d8962ed761de95d67cce 0x2c3860cdcde5653ab38390dcf475b42d55a00ca2af5aa0d636a925796aa8296d158304e03c48895c4facd5d87dade84f7ca3c2f3cec98e0d33543f7001ee304ca1; P1 0xb752489dc21e68bdf73a987acea91b7584c3851b075bec185dffa18e40f57b3a5b1119ba75c7e204483aa376564c177dfaa4c990aba1de0648bc67750a6750201 0x187e50ad1603e787e265c3a5f0c3e08c9755e4ee8709833273c2b1fcdb008d513be244a37a325a5657dbb3477aeff239559779d52aa67d4624ea0a269df3464f9c4; P0 0x12bf6b9fbf785054c0b3beef2e7973246e0b3570dff0e710ef64c23a4a0d3b88faaa87248827016490d4c37d665467c9b38fc12acac843216556354080c0e05b0ca 0x4c97d75980364efc90598597cb5fd784d24a75bf822b1ab96c8c6f3e34093687c3505b0d7638b8dd545fd60e7d024934e56b42d0b85159bd5da6eb20cfc2d48eda; P1 0x225fc2e3574b6d6b23736a43aa99f80311fad67b0ebe219c44491506c102ec68635432600026cb6b5078be15894384afd58f0cf4f02a3b1e85a20fefe658040cfb 0xede06f3d07d78068ae38fdfc2eac3146e08172041f54515df2a99caeb1eda1fbeb867b1155aeeeb39b9b7f8897f1d4a9a02ceed91054000829f9f908884a57c1e7; P1 0x14b8dfc16c97d145a3c1ad21cc76040d0ad4515521e164d243e16dcff8a3ab7b7975da06cd8e76fa8a58b21e277cadc9c527a5d5c62fd557aaba98b68f457c1eacd 0x23f35782150a59b780e5e3f6811eb4a26269bdc3749e976308f55c44e14a10fae8c774b28a616622d18e4d27ef846083959986a239d81d88030a7f57d115624620; P1 0x792a9db38edabdf5d4129d3def23a7c73800fa18b2afe365c0a9a1b925984310af3a2404001782f37000710207dfcd4b78afe996f89bb96af8749fe477c9b2c1d 0x14b0d013c2bf9d24ddef9bcf79d122ea827b53f7691f8a76444e3d1913d9fee4210e2a5a8f7f06c30bfcbb04ccc755e37c80d910b77b3a689c9ea468eb887bbb81d; P1 0x28227f2c816c10589fc37470f60877ae69f5a5f12e3c06e4d2a8239022fe04db15c264e372b743de9be5c495706293a67d357df3f101567c5d2b2597ef723cd389e 0x18ac893f9b7ba2ecd6ad1939b2a5f7c8ee179cb25fca50052c75deb435570894f50c78d78e068486b68faa8effc715d9ec200ade8eb5d9a24f0c01e918662245279; P1 0x3913506f64fe15b584156029cb0c82bd99e1f1c54b3b9d8dc8dd19d7ae42df090f448e4e52ffdb74c43f671a5fb1a09a1d37b9ddb48f6a47a05921aa3d3eef83370 0x127aebf040068b492b0cb2bba25602e2222d7d72bcaaf0b66f010b189b874e58057320eb2a332805e3586cf9440a896b7f040f7011f179374782a685abbc0c56b03; P1 0x200464d45295d42c1b15fe9458900ca9b29aec9266d4c4dd5ab37ed2c4bbc842c01c180c252457326e0b55c9909ab4cd874cacaba76cbe3a648dfec1463d511a166 0xacd1bb367787a219ed5ba83d5873203a426cc24e2520788feb578088f2a512e955f2fb919e78cf46f1c0232df69727ca9a5c23fd945c48a4feadaf95d0f31e2781; P1 0xaeffbf169cb1114079b38cff793324bea9ce73e66a7c50020ff069045ca4789b8b3a15b5c1b6371aca1c39e985b1e22da8b31b9466aceb6ff05417fa4a5a80d87a 0x561e18d5c6acb184d5b60af4e4f6fbb4a3c17498cb302b4660c67944bff772c941fd77066baa10afd2e9971dda840438a10140331271c692669ecdd4cee57e857d; P1 0x2b745a5630ff0f452a58725c0d98393410a5c699bfe9e1ef901fcd7dbd38d9db51bc8fa58fc78f6d374566f78c50db80c3ab1d7ba67f86e40d39a9976149a43ecb 0xe0df368ee55577f656138665949e68458ecf433ccf68f8de35b5f380520556121538aa9ac4f5b960e44279a5a4d61b489185482b824f7ae5089393faf135999be6; P1 0x1284b13273ede90060b00bbefd8cfad77a55eb8a339a47bce1a5b4dc6ee4fae236f5918d7fffdb033aae77d37f9759259d314d21f1bfe4be1f18f4304e88b50acab 0x641fe5a4fe7f94f0d0bdb00b988caa3c2b374898a9cd0ef2986eec33da20b2cd4cf98ae908286282d244b8293a66a0424e4ade1bdf9f27774d0a78263766e5a497; P0 0x139477b12964f474c32aea4dbee4ff23346218522e3a4a8440bb8f22216f51071cacf7f2783791fc9f15166b4e9434973052aac394ded3e2e8aa5abbcc4e899b4d 0x61b87401e9c2083f78968a69cb5eb8e9304a8bd76dcd671c4527fe1df72cac13128c9a11648d2f6348c5a299f0eacb63de404a137029ae2e6e50d015d682816c5e; P0 0x12a6a668353b6683ba87e4934663f468261ac6f95197d3a18788d77caefd308ce23d7f28c5cfb8140440e094bc9865fcd66bc753a02c787083f156f8906b83dd53 0x1862a693c492b83e59ab1166544742e6e25642828ccc2ad988b8c003c308b09200ec608e285550e6afb6e28274b69c16623309888dd26d347e78c74536481f4fd7; P0 0x129529fd530fd8d2f77162bbe193ee2dc6e7206db639b0f0eae75fd914988b15dd367a665adc55cc59e72829cd8672dec3dda48b6ff114001454f22572f967cd4 0x455bb8391012a93db226f218890c1f50a2f39bd3156c4aa0d987b3f5ed56fbd162d5f136c184d853914abd6708f4581fc24c190fef0020f990582257c88e8ee365; P0 0x96549159fe6c829484005234dc0bda08d2be21800de8ff673599ac73632551af1bd3ceefe0b65c76a82f348fb66ab5f048f1781d94f026e3eb62919f34d82fcdb 0x1c4f2aaf7623efdc249579cb5511c7342e9832bb1dcc050fdaa14202f63305304e6c80d6e85b7e5965aaa474c6b1758b79fe4261a0fd0bec22cba31e1c8678b42b4; P1 0x4b21ebaa1e13a831457e410aea152d5df76d2061689c38174a95e404c53dd0ab618f218e23863abbb8834e443a11b76bffa126e2c1998c4813cbc02cf5ccddbeab5 0x1f30493e8765942c53ead0662b97bc80af5b8218b0bb40630e4f32990ae5fc21594352becaedb2ee54436c142512f6907a76fdeeb9a622b644242e8c567d867d665; P1 0x5b3184509cb24b4246585a8b21032083e44631e04d231520d1c018028595867ec1151257abc17371c97726e7c7f8f917364ff16b00b2ef15dc448b29b00788fd1eb 0x1ad4c204c8a7e500e77dad2eb721b5a79494422339de54fa55cb049ea174e55dbea4944eaf477670bba9c12a8a408b959c50326b3d32bec05d14942ac8c7308dd76; P1 0x437dc58559689333b3057360a1313b47b8ba2a7210b6f85fd60721fd864ce10d1bfd6ad4a0f9964b54b1a7b8299a3ba8dad99544e7a7f7226914c510a7ab21de593 0x248b8587e920837de1209d37c3f9450392427817fbc8fafe92902584301e7b91e7631823179aba03ff406d9f164ce4c7b515deb9077a7cfe198fc64b7e82fcbcbf; P1 0x7d34e64c136360486d8fdb5065d9ac7328b92c5a7e020783c8808ebfbbd95e7fc2e5debaa5dd3efa6dda8b6f33977123ee082c6f616ab4c2ace74de7d2769fe8d 0xfd2499ddbd9c6b47886503d913b4039b1a2e88681dd214d4b0106a3a85fe5ec677858097b4ddf8799eebd497f97d3c84dc1c3c083cb65ffb58ba06fc2b84fd4210; P0 0x7d28aeadf5cfa65fba398b447744dd73b007edab3e39be0f4297bb0749dc93bc4a1afed45a180e288a17005d851507b672955474edd06d83a3b304111d4e3d9f10 0x1d900855c6dd05f18c4e2fa911c37e0d6ff19daac83b7a2dc23928631c521bc1fad5111ac610179ce3937566ad7739b871a5f8a15a7ada643ba97fde92972e9e010; P1 0x51eec6337bce7c054badcec550582f8d04c5e8183bbbca34ad22063eaf84cf118ea76e85de6d18b0e43b7cbf718e587f9604cbe30ca0fe6c74f52ac0a3159996228 0x9715ffe32d5d6137ea6890724f2bbada15f3afd183f10a242ab917648fb4e451b4a457cd05b12f7d373b64223a9da10935172085aba5193481c6a01d38fd4d6528; P1 0x85c070a2f7d7f3f923885deb01f671f99515bcdaf92f288a7d4b2396545656a16f30b1ba61c5b4fb1b131c72b4e470dd32530ebb74130aca6941b6a39af6d05198 0x2d1c0f210b06dbb5118a4f269cf1b1b19e24305b9dba62f57d95f66c5a60a704681ff0cab4f6c27b2fcb5f852e5169edb82f90915c4af64f3c37f2cc202cea1458; P0 0x3f9703276ffdb262ee1f4f11b8e1e86c98adc19b3928a0eb8b3134fdc7fae1cd9d546d2f17021853cedefad739468f852f55cc7df1560bbe111e873ee2db3eb92 0x3388559d3e8be1afa67cab60f898274221baf57391803940cc20f5b0d23dc7f729d7295bec66f24ea8fb54fcefd5cae8f8a37a818af7ad600dab1b16f5a031c9d2; P1 0xf8f681397effaffaa881ebf7dba2757ec221b17e2fd284afd6f49eab4a3b8b87f5ce622b858480233d9e1ea2aab80e965679ba2a782682a0417417e465e915b2d 0x9f4772cad191f19e6e117b64c19f623f1a82bb497d052c27a1287084c88b8cd04ff54ad650e8d8bcf5afed8d83bbf6641ddf9e57fe56cc7bfb28d57c02830fabf9; P1 0x94a6becd387332a24d83331ebdb123b37cb8763b9c608916615cc92dc794cdc6b9fbbe17df8ffbba83ff21b24881d382adb6804c37d660d3192be45fcee8379b3d 0x4b38163a4e1617f8e4640af9234f52814a79378f8f43e79db4e74e19f627f37efc8808ba0d25f27ca2af3e5ecfa68a149adba5050f4c7e9a599ac5385e3a5563d0; P0 0xb0cf4a7f2989734cc54d35fa18d4d743c1d00497eacade90bd6d52cd24c3b5ced7b3ca8e010a49187a93a7979dc369460f77b997d1fa8c7aa5cbe431cf1fc7765 0x50d6045d43049527042757aa9f89043b48c66e9ffb42777b2dabac1377ff3a5a637fbf8d46d4d8e6bab2bac14ff88a1ff95f6bfaa3577c4e007a895d92a1070065; P1 0x2649b07860d2ef6d7b0ac7cc50e1d2dba6d6dad4aa9f9b356a4dff0eeaff255f6ffedc972416f5cb2989efba9678fedd1d88680cac27adf969b7d39f775938af7f 0x802c8857fcfbeff99262f51f051fcb7b19c6294ad2849673ec862a573cbd5ecba3cb8402d19a047a34e4809605bcadb0b4584350bd2bcb45f73ed08b2387cb270a; P0 0x2016480b91ec40ced6324358dc04791a755b4595e082ba04a984d99fd4dc6e96a2b387432f6648f77101a48f591547fb8154d33ad13f7be4dbfd553ad4a3290b8c 0x1c3b027eac50d55a85dd2aab683a09af06b7f4d1f0fd49f651d63b4947b796c6bbd2928b74aec0616a7e5583e644557ec35693c0dedad8b49954b8ea7f41ef917f0; P1 0x4ab7138ca28fff439d95b0b1bae0e5786af481940a2c02db90c0a4448b2b5e0fe06adb56bbe51ca201cf951983b1180fe4003d91c6978c82b527350d828fced18a6 0xf3bb6b4ad06674dee29503f818e34400851b7111b07b702859cebcb7d5d8d9203a6d8ea8fbe1398c98e3ed8de0b3fe213e6f9aff524ef890262181189c76441ba6; P1 0x15c140258edd9e370ff87aea1d37f6deabea2eac6badd15aed234423b3f66ba4d43480e58f5127e3cf2a040623e9e55391b8442ab870977cebc77895aa9d7709b75 0x1ea89ec05728a4fc126f900dfee8992784f3ed844e66baecaec85b2434a0b58b0efb4c3839da1b7e8a1e6979f1482e5c11630636fd0dbf00f49cfe8646d08f5ea61; P1 0x581ee68bcfadc2af8306f77875bf3244938088c1c885eb65e81886d9755540a170def44717b00df65a784508184aa4c4158f7f9cce15c45290db623530da3fd531c 0x1897a542e5b0b50013252a0f37477b678bfd0dc8f6cca5a1473c5f7cc4cb19cc519baa44c2e2bca775399027077dc40121c526a7bdced94299b02144f7d30bbbd5f; P1 0x38b2d39600118f1d84be45ca308c0fbe19778bdaca95a3c8e46d997878bf8fb5e28548fd69523e1d9b2b67e02080dbc47352d57b61052b9c2aeccdcd3ea6b85c595 0xe03ec781980842c951193ea41634ec4a210a6c14583bf3cc9b60828852c9c37ae621c6ccd4ba3aaf53aa0a4099e9685d79ea7bf135c344289383e05851ea240158; P1 0x126a4e2cc0c763f441ad25898ab389cb19c04ba1e508e75666a4791eb94803889631220e3e590acabd579c3010e507e705a89be804276607cc64169757297263a82 0x1565e083e2ec923c8ebe1624992b1bc69a0c4ffac1c57ce483d063411ba9df45032aed2c5a15a1edc8defbf198672f3b534ddf025cec648a8a9c4fb0912596ba542; P1 0x2aecf10d84c679607930352a1c6dc2c45dd6fa8a6a62db438785160bd5679b6915d8d04e104cc10a1147a1957b86f578952eaa91e78d72104137a3df71e3c97b5ab 0x806133b037b12e1511c6a44adfe22c7054e85f1dc5ceaf0641006604408588678d951b1c89bd3be89dcf6017722dba5a7959a2f0a0b344e4b7a47bad78982624b7; P1 0x609204e4a4809ac2d0c338f6296da016f1ffcb111e7fca95f100a247f4404f0212a2fd892bf88f684f4a65f3ff7ada3eee9b97b8afeef3e5615795324fe2ee0657 0x4d141214164417146173cee81ea17d95d57d9a92ee30313ac3e444797602799e39c472c8ee21946f6e508ff75e88d2646ddefbd412978524b43a906ad895b5f6ca; P0 0xb9a8a3974e7a29d76d091c39fc59fc99fd75230a4576e581260a0ee1ec90597cfb3b9317cb0bbea7d9ddba905f25607f6fa8a308798183cc9e76a5caa97ee80d1 0x159c4d8c06653fe90fff6cbc9563eb3e4031c9d1cdec84f9c7c1fca3990593432205bc4adb98b5afc4d806d28e776c150b33d2c99b48b5f0c9abda76c28a37b5835; P1 0x2bc863b5ccae87b0c069d128b99f5cc59b797262acb530381809ff18576526e9db3b981f81a033b851e641abadf7f2099562ff59bde50e0ca80d43a802d67d26138 0xa61a9102078d8541f41afdb127a005518c780d8006046a9549dc946eeb362f18fcb6b4d4bfddde8ed29daca1d97fc94fc1669359b5073744798dc8432185c9d223; P1 0xa1a9b2389c848d348e0aa45a01d249f1aff82ea7d64d78c56a4a012b177cbdda0675d8ab795cd54b87df6d910dcd5b53ede363f3f6b7c01691a9d18bd6cd323e1a 0x10e26210cb7e97fe30945725047608bb389eba3e1f0e1c00d5bbf28dd946da00f558efed9cf839bdcc359de978cd80ed3814c206b321233958e8fb70344dd8c9075; P0 0x8e8a39b253fdb59069f8b69e5765bbd57d31d6c96059024128bd64471e8a334bfb2b43e805b53507920b446e7a6b7c7bc2daf8a2758bf68c2c49b364f7e7ef0634 0x5709a85b38ebf6712f51e123e92e5af933aeeb63e76f5de510bfff9ca58ac7ebe8e2747e6123ab598b71022f267570e2c041feab4392af780944c4dfb83b6adbad; P1 0x2c635930e8bb5bf736fb3c00ddb346b96e04685acdcfbd533991ad0f7ce77692291411e6d1510c71d6bc7086a9ac6185f5d67bc24987ceb8b6945aae383cab16e2 0xeabbac7cef5552067065ff45f97de3e53712b6606258f5ec3188de45442813d83ce221a83c86552ee0dde921f958346c262bb650ad394c547e556b83dd6dfb6f9d; P1 0x142d9715ec4689ec37944ced299e2c22fb794948e2f368d6fbb870d75f23b2e2ba8d881297b433df5d8132a0a2f83abd35597881c65eea8cb1f1af79cae3e1ec5f6 0x21a9e29f337e3b241f899a761040f16dfc7bb496cc4ba3db94c0a45484369ad44347961fb6ada5602b15d6d5bef2d8451a43f9ec8fe8c151eeff7e01e37fb558d1; P0 0x2369e95050b00eaa3b3f2ee95c108fcafddd93f5019cf9529d30f32c3e2ab3065e9d4f25083c589fcb359c10f8d5562b5c9663f18346ae3b32c2b2fc68da41f82 0x1c29a9e07557d553f2a70609f4923f52be9e04db50cd4385b9bb03ed1ec61ea28caf1c2a80cc85f3da4b90ae2f69c0fbe45f94bd09c3b52d8ee1de9c302a1fe7a23; P0 0x18c91f87a2576441c8fe99e59ca38b1ee3524a20989d40a524555227d759d7c11068bbd23717ef814c418b13f78fe138d8bb4094abb1afc6b3ea66f5cf4f28278f4 0x7c3ceaff6c0597fe0563a674cbe7e2236ffa10a3dee0656018e2769697c85b7a0706fe03353141b35584ed13c2d44d92a8ebdee9b46ba200984b2aa17903bd9bd; P1 0x5a709b39a823fd47e651715c8db9eef3a4ed2f2a9ff46a271b27dcae573e13819589172a00eaacc61a1df71a4a94c29a90bfc5a9c950b2f9534a77eb4aa86514 0x149144f20576c5440147bb06851927162a801d7a727d9acb091391401b2c7eed80d1c31ffecc8505a4732491780e79a8917deebc1d834bb2d5897610ca56d9845af; P1 0x27a87cf7c61529d470d64cfc5db38a7bbdad335e012942ba1068a3a8eca4abc62bd19edb21b5128e2e5a3a9131c47963af1d9f8fe67ecde7dec701295d161185f17 0x12715da6dc58f4a4b77bd7e093a85b7aaf584140461ce710fa62a0d8dec8ffb67fd285e77d5e2773f6fc9b3317ad3d47e287c94bc90793e9f2e65245a50eb6fc7fa; P0 0xaa11afa346d8e522feae01277048f9f4d36c2a229d1615ade043df4f1bfd37ef8216c47c3bea590c5bb1147dbcaf1a3837b498fc71235282bcb5640facfb5e0a13 0x1b4c5171cc620413957b0718df0f0382525bddd3ab60bc01cad704aa92a7e1b22ea4163b09c4b739221157885eaf533cb2e101988d72b6456eeceb33de0fe60aa37; P1 0x45dc7e5b1e2db77f82995ad6a5220a8a8cd3d75e8a549fce9ac463f716373919588e03fbc0d292ff2cc5863a31d02fbbfbfb17f0e592628e4229c4e352d32a588fb 0xc66b61d969f09f15c68a5a70bc8adb099b74d4c387ee60f2c74115483d18d422aeae09ea795c7eca9c334f189ac30c4580045140a062521f32e8305abcedecd06e; P1 0xe6af6c9ae187e03bae782d63f04d75786070d96c9fdaf21fb45324b783d588642ed0c8e98544acb09a5d490e5439d380e5d51e4c67c9f7b248b55894735b9d5eb7 0x17074686956da95fcf47cd3e897838670acf85db2f90be1e4fdb960460d50438a0752bbdd0c44e3406bd1bbd44a793da3cd4e98bdd3a9135f1bcb9800193d262c83; P1 0x31b7651ac75a15ad5b42ce6e2b3e06cb27f91c94dd9c543edf38311b028606d5389301e7ac46b50b4dc53a452571e43a2f2045f7b74994374e55110550378011fb2 0x195603cfa19ca1fb468cc5f0e24a2055d2f173e36e14bf8946de66f6428f833bc90dd7961e10ffd161b56ab655667a587dbc29dd5f16db6cd0829f00e7c7de500cd; P1 0x3c2de77abaf8c988098b13ff4b70257563ff6635c93599e2e830e277d2674a38f750a034992e6263982b632da9f84de058973599b26fe39daf546fd4e666700b23a 0x15f8da66caf3fbd0335feb5f6a19d4dddc694da02f749fae135cfa894b9c9f047ccf328e27f775e332fc083e6c048faf7040312c16f232abd3c85a7351649489eb5; P0 0xf162de5f643d7af8013ce549cd5aa933b9785ec317580f770d917f5e18ec6ad2428c0469310164d2181fcb9a53cf5457cfe3d1f821b16814573d932280df331d57 0x1c25ef6737e96e866b31491dc15e0e628579e80f4384c23489873964450573164c4b33209e5f5a75401826e54b1378e3842d3715f584d69091f1ee5dab9c1670950; P0 0x18c28fed3f98ed5a05ce97307c57a94c764c4ea9601c0391ab68e9582aa28b10d5acfcf73a0b990c02122c4b9340590d275addab8a54747f88c0e9e43892a7647b2 0xe175ec6bbe17c9b077d684af8fbcfe9976d738cc9c3ad22383ada79e15f9be2b3e0550d1958d5208c3064ae0e9df1e455b09b9d7ffb50ce69e0ca27eac492d00b2; P1 0x129d8bfdb057499284e49db1215652218175c8a1c8bc7873be09106f27f59db2f3c1ac105c979bc88cfe2702799d8241aceeca58cf8af859b84861893c1b094af13 0x16313393d155d01c85dcfb1e9bed8f83310c279151c9d2be4eaeab999ae4cede03e8a589940ca707a7c1adf6a8933a3780cd63edfebb6c059ad5c29203df852225f; P1 0x2e2bd7b496fac1141dc3ba16893c88de6fc2141ff2052553f7900613ab15d86b99421c5b786869e69373a521c3a60898b4f3ebe94748556db4da14fa2b204b03730 0xd4c7d9d193cfd773b8d7e32c4aaeaca2a55e981f7d0802ff1fa0d1633737af7ec82b2876718dd3369d3b73120fb548cffcf276f68244bcc2c7f26bbd5a511c54f3; P1 0x109496b2b36f583327f0ae6951467ceda768f774fd160dc11d4a8522b78aa0134e7ddb79ae8659a662fad5ac0f4774a2a5fafea37ab1f2a519a1ae091c96792d31a 0xea37b64d6bb8cd4953d3a0ebe1a52530ea2f9b039ad85f6badc07d5dd8972c6a4ca3e7c0d5dc5a34490d19085d98a459dfe37412579afef8ba4d6eff0acd9bef15; P0 0x6b24f2b2b00226a3809254b75f0a7ed728783af874e79a3ce76c6001f91b9db09268942c405152fcf18206010403fbca993091618e7799bbeda41a255ceecf59dc 0x53061304604c59f17608f8647afb73308ce5b71fb84cedd6f2a3d4845ddd63b44228e5fcd4751ccfcb875b815d190b59778adff285ba24dc5717c3c4e3f3859195; P0 0xd76783cde07d622a2e8ad64388d0aa84a41e4d0f905ee7557d31680e784a6f33d32ed6dc3814934e68eb3c1efc352c362b0a7db47386805b93a1d9cb3dc398f51 0x1a175e27b413c055b96a395cfbf667d237a2d5a30d5d1775b3916cdfefde2087b3434853d91f1baa914d009e99b838c7e78c7ebc9ca45c5e682168ecb0351d5b00a; P0 0x15460a10f2bc6826b801d822e2c57ff2bb2a167f8ab7e5c2e4fbfad88f9fd42acf18bf2da640e1c67ee1901b778674f9ea25101190e5f1993daaf7aff749b9d218b 0x935f3dd60df9002a09b9bd582658f6e5a49fd8f074fed3147beb6bde5f9378bfca910f845890d5fcc45936a0e0a9424199800cc19232941d279cede775594ee1ef; P0 0x2a6b423963ed055136c10937107f8156fb4b29a7161e9c48359817b5335a6b7ef64f872b760389010fe8accda47865d3e732f3f2398a4f7732f594bd6acfa9ecef 0x1613aae8ebce63fd9c5e07d74174a20d12daad935dc12d7b3a0347286bd9c180f073fb5f30614385e805fd52f2349bdd698bdb203769d44f065af1a854772b3ea10; P1 0x2db145445cefa632fea00eeb9816c3d3dc07ca848bc114e95fe60c9a628e4db6cfced2a8960ce075e75f0bd89e0f1c9b6d3a5050fca3c300cda9ee0e7ac0ba46219 0x91e080676644ddd68e23c96a0e19c0e34d6bf8059e70d111b506ec7c92afe0f7247abdfaba1014f92e0b03211cc01607b647878d48c457e5c22dd0770244c82519; P1 0x7cb0218122ced1c661e5f35388e63ba517c4d897fecdc48b0b64326b59ccf7627f081c10d75e2780de9e10c338a5e8933d1fae628c1d5b7dc074d94992497fd623 0xd3ce332e719955667335c2768a607d5b339875b6b6790616eaaf1321888505d004fa21d5e2d4b48c56794ffd6efa5be789f4eb6b86c50e14275503914c16d08b76; P1 0x106dc55af745baedaa881678d3e82dba8983208a5d48b4933860200cb58dd0ba20edab550e40402fc4faaae7f56a0b2c32f27f0b553c29adfb90b8f3fe984fe3eb7 0x69eb609350f89ab77618e78d333f4becc16ed6c415d6a68e9c6f06de105064c81049f1552ef9264295dc756e01645fb67070ef961eb9849375516033ab202a4de3; P1 0x41bc6474f0fa1d42a24845950f772d6e3fe25837fc55200d6f936099e7ad56fe6f5cc268e18ba7e06d1cb20dadb8bcc74765673397f8459dbc0b9ea4853ef4b9c9 0x7e3b0269d720ed8d0807e7a1a92c011fdfc6ad2c9da682f1f514eac43fd7a587390a42d97eccc12d0f22069a93fe59674aa2d4466a6448dae0c323f1ae717fbfa4; P1 0x5d5d35f772dd193486a05113a07d5261ee3efbeafa3e96dc1fa8eb84f1eece2acf47dfc9afba7429c1d6dcdd2e4f1afcb4b9cf042e3949ff1c153f2c0eda909d2c 0xebbf00f704b317c6756215279e6e449b466210849271037c7d5333f8150c6fa55188b2528ae33fc7a184c03410eaf92345c2a695c9c432ba75da2f21aa4f1b005c; P1 0x145a4576becd81edcdafccb49e9ff3b931b1aa5f4ef9383ea6d0593d2c23b1c87beaadd44f199375baa554e388f5d95cf667980c870e756f8b363760d203a5f2b1a 0x61c3355b5d490d9b9007ab594ad4239e8828a691ba5afedbacbff54ae440166661151f06a4dd6fa60a944a935622a5739e4bc2b0ce3d42ba633ffaae5cc978e4a; P0 0x12aac1a4c880376b28d9bd40089d375545a3996a605999a8cca0604ea64fb54fa8d0cdd5d8b497885fd9b80facbf05a4cc6c82d6ed4951a44159ca8164ffdc3f 0x1d3616e0755e4efc587b129269ab764e35317d2c5f3d53dc1113e635fa44f93ad36134527987231e55703e176fd4f7d24d1a419094f899ab03c286687647f6209a3; P1 0x4fff2eac4fe57fc766538d2a442f750349ea0d1483af21a1d056ad029d2c116ed9d0bb6493a76deaef71c5604e1c28244e51ea58ea31ed36a274a5db25a162005f4 0x1bb97e60d8501678d4ff52b1ee6152d4cbc67c80f9572fddb2b2ea11193dfa82e9c637b7ddb970a1c40c8aa3cef3a25b6a30743e6238d43382ea27547b3679a9f4f; P0 0x180538829fe8107e0445fde0ba29a80b2ab97a97e6319355943564f79e778ecd8e301a74dc8385d5d58f0780396d1043cd4354bf4ebd5f453d56ff1bd56590210b5 0x193222873677c10aeaaaae8f79968f0218472d2286be2dbe264d43e19b1b005db69c41015f6673ef2783774a344c772c23d55d4ed38cdc38a60daae2165f9314b16; P1 0x3b83ed7df2b4a8cc2e65d1c09572179c501a78ebe7455c14dd8cf60859664ffc5f26cb605fd9832496017772c6556004e5c90306c63453a4b9eb60a08e61fb90caf 0x23a09730322a8088872e3bc914f883ce2650f2a7952152f11bfa3172cb94c4d6c709633ab96f5b5c69fc8f5cb7fb9619e05cd6f4b587b0d6612e3793a6010ebe5b; P1 0x76ff51ec4e054ca7b88431c0fa28b04b2f681a5ca82d19b4abec8a9f12ab7d32aa29fcc63c63e2d1f10d8c77f9c63fdaaaba7fb2e1f803566f6ae419f3cff2148 0xbcff5af41fe54202c5374c8980f072f235e49da0c859d6bfeaafeefd79e287b2443b2701bd2eca11a940a71c0ea5f5cefda943446aebbed9195d31bcad7d7cbe53; P0 0x45c4062670c06973cb4b9be98c2421e8022cdd7ac7833e9352ef7fe4148c77de3756618c109e42e951e72ea5227d3d1585c26b5b5aad55254c75dab0b645f3c67f 0x37e24b2e2808a71e3b8a23906ef9b53c3a1491a452e42ecb52f026926487aad0de1a8a6de46fd6ae36595667b587bf4f3b65b2800d6234f96daf46e38a41db1568; P0 0x619822b54633d6ec5207ab9c162ff58d4c74231c897d8f26cad4c0855b90dfa4c6ad97c2f6ed482b05feed132bf9aecd41abaff841a052be2c16f085e3aca724e 0x12b8c071901537d29cce527ff3987185868aeff599c6a5ab628c7f23c8e6057e0e1db5e4283a34d3d07e3059e9869bcd530a09c6008f05dbcfc3f6988daac84ac8e; P0 0xaf40329616526d1a2ebff1d29b3061b960aca6bc67a2d46289bbfbd68b355db994dcf3d81ff4fc10e8f483fdb468f6f919f52190fee72a9ebe88113e8a09a46323 0x608eb2641baceab024043d9ac45b9f72d0e601bbdc7baabdc60a4127262aa7f77928a42d6cf228ccf1c897b382df800bc366bcae92366eca29361c8d03406381e7; P0 0x1235aaaabc0fe0bd476eae73e7b0d6774522404aad4aab56b55487e4dbf0bccd164d1be325caab38347231a7be59738138fd5f546d6c27231859d9b0f5a5dba442 0x1fa91fef8233fb7d97c716d6f4f4232f79c9beb05b59738c35dfc6e1e8c6d0132441f11e59f0aafd9d13edf3ec3516ffe188fd12f8eb117f0a068011a00e07042b3; P0 0x1f532bb97df3093b662b8d0c6d3b8a7ec1658dd83883332bf9f78cfc455be7418058fc730f068c2d5126e0ae191ed9ae3835dcc81d6b1ac16499bcd1922c455be6b 0x1c3518a0fc1639a5e388b4eddc6d52130fb56cab52d8f792cd8dcd0a0ca22f8f73cf00004700ef28da041587d540bff03f29400d5df2a3a3ab323841b1672568794; P1 0x4a97c99a241bb789aed917253733a9850dd8506bb1afc98bce543004f8e620b51e6ff20a9ba5dbb0241cfa38d46edb4ef1d1b25d9e368d53ed0e2b2a7a83ad070c3 0x15365fc959e6f7e288640fde494e9f860a7830609ee30afdc9ba18592708251ca527a0903be7450748dcabdbf2b3fb5698a9b203ad6f52d2ae60c2fc1f5c888b973; P0 0xe0fba1cac47099bb17e041bc4fa5a5023cf87fbd64a21d253256d7b3154138fbf5a018c7241d22ea5e523922810cd8c204477a281ace5f5c42716517385ed83e0e 0x1398b14169e031168340907f55ad90b82abbde38c025ebf23cf52594190005c06e704f62d1501e0ff3d2990f442d0665d4d532031ef27554ad4ec075e1f9f5fa7b7; P0 0xc002b1571043514add96d36a809f3cc90fea00180caf228b04fd94efa90735dd910ce56b4e317872691499362117644c38f8fd94163313a488b34202c72435467e 0x24dcef045c3da2a01eba580934db2ae856f8b08da19ab1f44b907aff1b4d9af2332bc2c534433407c884bab014b4d6a425ef5786ab2e2b890782d0fb2c5de78b4f; P1 0x7f652d75ce585f7f6fe74b72fe4134b36c3cf102dc66ed4270b5330b35a458a000113911505a3f1fc08f723285ac655b82f74c0c688173adb44875492a96ed633 0x11edbf8c30abe8d44a6b447562f69ef78247775b0450234b1506277da37975d70e354756a4454ccb6e7cfa4a324cb8b8d8d53dcd384b91c8a794be1f6f8917d56; P1 0x1e2285b430928eea07c958b6ddbb5920ac26908b5ac69b9aa956ab7c98008aa038abd7b3e669bc47080ce96f3076a8693c7227fea5c61cb4b47c3c98be96713 0x14d7eb87ead1d145a6c4417464576f54c4557a425ccf20bad39d6a1b36244b71a6388d57a6f8d69cd8446410d7f4ccf7b62a6d3ac9bcd7beabab64c8c331644b1bf; P0 0xd9397559d803338df8cf068401674c033b266048f5d3724955f058c9794675422984f5f1215e66a5febdb0efdd31202b14c138984460430c0e974cf0252bf20a42 0xe5b4c72f541c818ee93143a85f379be916f6f715a4973b0c89d8aae827c3f6c33df9bb5f53f3992cac8ac897e8431a664a035f56b335751acb86c8b3ae8d3b6c3; P0 0x670e7601b101f2b216d844c47c21567b1320454063214cdbec2e90920670ecfda7f541e20755343533ec0c951dc6303aacf2da69185921e5f14dfc29e6a576be 0x63432058ab1c01265cc1428f6688348e81c380a0aa143023ed6918dfb9a32dafbf390040d76fd8edd6f9a81eb7486f6811181e0ecc4d25edacb1fcf8de1e914f47; P1 0x39bb7aedca43448e09983f340145a1c060607506563567911954aaa20f17084f93c2ae5b077521a2a5b5defdfc55db38ec15601b44ec15ddbe6ae491349681a40c 0xd86109ecf28d35a55846024a07d0d8bd08a0d2d07728421386892431083647b3b0aa14acf3b66bb74b23e441140f3666ae69479d62564c82eae40ce1cf3772551f; P0 0x5b71f2c42fa04ef3da196ca58a66a0ec5c090cfccce3f33cf1f2532a99708928bd7d076ef97a098d535dc21c4d7c834e3a018172f2bcad0d15b8d499217e3c8a37 0x7dbe1d176e7f74a965b2b97cda075fa21330d004469df1523fae3d689ff1781a56549b258619d58b57570cedfcf5bcc6c56af897c2a3eae74a9c4512e6bc2623f8; P1 0x5ca4d0641dfe3572c5afec70d6875abbb80aec34bd745ec52e347b1a63bca929ef3b0d161cf60f1809e77d1500f06bc31c5de23a62c21347246cd8d635b1649ad8 0x2d7e5913cf511ff94afcba3ab0a0f4600d2819c4e9e907ce1721b56c6126c771dae851c655670fa652b969b5cf44d3bc8b4aa1d0737c55d9b94b877a9e896ddb98; P0 0x40ad4d662b0b063f9f685679af1b1f2b13bdf8d0ab66faefe626f91417cd621b12ef75d8de7273e7bb9e7eb257dca5927a16388cf56fc40803cf2e2d41a073cfd 0xda9867457078b643418add804322f7d4ef09c6642df2101daea75ef637180711bc84b55caefabffeb1ee6436f087674806a4802ab8bb721fe389f196a185d4a73d; P0 0x5d53f54e87d60c8cf85246c563f545d1fed38e5591d02ed96874d5a1932fc07f4df393d7b93577446c61131a7e48f5719810573dec470fb9697601a8644f941776 0x9b5e6105220fe2e4b9b47e8ddbfa5f55565dd05af77357236b8fbaba3e6310e7b38a4937a595de3281e33c359f11f01e5c2e883f67050259b8704825891bdcbbff; P0 0x2f25b623cde4922afdf8ae5bf15ec34817fffbf34e9e9393f7d6871d0fb510b4dfc9138193043466c21caa4c6f802a273e1393a9bf0753406e13592a593f40b1e2 0xd03ce4bc69ab427fda18b5b132be8c163e555f35dc134fea4c04bc3cd6cf8f2b910c2723d9a19f4046782160775deffe343af4016090568923966a6542b19739e3; P0 0x54b181171833fd9dadf8dd1c1f37dcfc59bc93dc104c168ef029afc2f19945e245210b745c77c803a36c458cb06d51004dcc75d0e8411175efba225335c2b2d3d8 0x1d8330a246243546c432578a663babf19802bf73a360354816d0d0fef3924d475e6578df1738e75a20e3de01bc108425bc6cb8061151c4a3a950ef7c1a2ff93b321; P1 0x51a7a5f5ccfdd7079d8fb1fcc72e5894402269b56207e65aac19354e6e8c967d8eac075d5418c4305cfb4dffb63ec19a39769fce617be9463a2d5bb13c335cc623d 0x1a7b01d948fe1babff69f25b5292511756922681af497e4a9e7484303e4933ded7a085dc3b3a4e7855b7ddec732e252d0da44682d928dfa5822254f37480f83e100; P0 0x15e9bbd74d196662b7d913579006844d2ecfb468d5d7670c62e4d0cfcd445cc7b634361c35baff7ab5732fc3359204c92bc5eb468104f4acc8e6b53c7f5773123e5 0xcb1848f40c156d0f1cd4a47e172d6ac328ba4e905a2972d438750f57dc8ac60b34f70f629e107b833d7372c8bb773e74e2fc8cd7ca8be84df0af21104382f223e5; P1 0xf1af49013491a5a441f994aecfe11a794d5f79919b9bda727e4ec8b3d51fcc1cb7fdda91c948735e97acae06bcc120fe52ad969e70401d50be9d20cbe339d2e64b 0x872dc9d80c0c483d0636a69afb51ad3f7c871f499752f62e1cb3c81e1ebecc19f29bb2d100eeae962a5ac41ed38decb4f9a4b159c5848473e3d8e17df29bc826d6; P0 0x23b0a98938e714e0b05e5a83740a8d3389c55ee4691b716da9375c2b2c48a4b5f7fc612730f904042847766af193c2df322f700cefe7abf0e36969f999f35b338a 0xb3ce512fd0bee56b16f34b4f5231b7d4f2502ef8c5a26145f968eca9f706498dcd1aa78e402f654b7de2d8ef3bb11471cc020a4c1ec5837dd128b85db5cb9f6e6e; P0 0x3f2515e7d04f198a0bf6f7eef0b8ebcdb7d15f27bb8a4daf2362cd8e911c13b58b662810a8033c5f6d6c6b61fa3d02b7c8247db0d206befccafb7284de8e7f66f4 0x7ecfcc4ba83d05fe450cc4344ec6cf92a09cd09b914f057bec3b0020121b6de135f302a9683670a9c349272c09f6957a5a227d557a2ac0d7238136d4d75ec61e38; P1 0x5e39d0a9be7e369ce190b4d8c56484572cb8c0f3bf0872511b0705233474459c746d078a2940d5915bcdf6b1d9f1e79c7f66f5d11459fc248b26135ab826356910 0x3569c3a1aca45f3e1823a38a21f9990a63777207ba2960c7761f914d5b8609c9b6e121a3acdf96c6bcff4e85cdd67011e81756117824c64f1016b02773ccc8edd0; P1 0x10b7720c8269121448ce5c066b2afb0630881b7c632b2bcf29d029e1c76386f81baab495aa0dc868794663ea0d6fa04bf7458c7ec383dfbc3ee165ec12bc8e40e0 0x199e596c657fd9dcc69dd76e801d12789c5c656f8aaf35d99fd2cf8b43e5c6de8b834394b2f88533b47dfc17f1538f12d3c3bf9896df64dd807a5c990da924e9be0; P1 0x3d8771e834b36421b5e2f93645b1747c2310d2c89e394d265e324708af092f2d157f5974ac5b9c8887227f96da1129ad90d4f90c35f4044b5074561062153ccdcb2 0x1c88193a003119b47a30e6969699a8323c72d8c9ce31580e688005752fd75e00c36038748d0fd66c46310107f379f4ec7706aa22109a1e56287a932b86de607e8b2; P0 0x19706efc013a97c3be0babadae785c2ea6cac91a5e36e790c1571cfa4f0e4bb748436281a5a9723a4be72ae363c2f30e0c65c2805767b4f7b20ac1c83ac61876d6a 0x12aa1f9f95d85e86f8401339a00840d74f9de662d214ed3636f9e60e0e15e4a516d690cafa55f3c9b73ec169ee207eda6b64766c6501c5a507a592c19ec6c6892e; P1 0x20a8c40af6437a59b4f9cbd7065ab96e1dc6d15e6fac3aaec5934a1c21a821903bc2b44bf4e3ac2c1cfd255ac79a539e22293d77db0d224b4395f6f9617a19107 0x1f84b41303d2df6a6a34b906818ea9b71148f5200bc70cf5c02b25636d75789efb2da8a0d39ccf87d824d12c5c6672011f712dec02ed19edeb17d88a47105a05dd3; P1 0x5d21c9a33cda38a6a7f95e6213d3a3856e46df4067fcd34eb7207667af1d24369f54f865cd18f4f7a657e81f071fbf53ce2b25f854be271fcc29ebef34608e1b040 0x1645aa82bacd6480bbd2670f65b00eed9bc3fbf89de03b93877f7795da7f673df8f90e4bcf37e6a942429fe626110e6d63a490f8ef28e1d77229097077014aa3fb; P0 0xf80621ea12f16cac08c814ca73c92f14519d929a630003d843c03447a88b8aec7a6497b8936fded4781d6b2babf99ccfe7d11b9b386e82da222e70ea7c865bd2 0x1e4412afbbbb56c5358c2d4cbb1939e916395f4090b60144a0e1727c4ef23a58fdced0404c6966653218ba092b782abdf4c50c1473fa5be809f92b62f4fa8abf3eb; P1 0x55e09b8ae153c574bf9562571933795fcba050f5b4803e52b26db55d97ac88e2af5671f979568fbca3c1aab0fffa3c46a67cba681a9f6ce281de1122fa4b41cbd6c 0x15288ae2e12cb453246cfe8527b13fa0296e422d7ea3f2eb7cf5ccd979f83ad1704718a6a2b8180bd11937fd0032e8b140f8900761df09102a81f719af512aaa97; P1 0x29f83cf60c9a316ce0b5a01c1e6593934949587a2ce1fa665763f65a7b5b53d03836ff35de08344add32d92289a73c89e2db1cf4562bcc8652c7b917ce81a32f3 0x4da661588216e93882993f54a1eed97b701727e3747003ba6e2e01e9ddf2be124d3ecac49655baca9bcc111e6e33f418d63a52715c429d578c7ac9d002d3c4e226; P0 0xbc6c158d1075798c138ffc9a2abaf2cea3f44cf20f3db5c43cb79e04eee1690cf62fa88aa20845d97a8cab1b832afc2db097464f4318aeb872ab4fa1e657d3c61 0x3b733c3497e073b1d321c31df2ab80d7b3f08be432af56e9b224c6dcbfd3034ea32838a06270c7403dc18eeefb4ab54f4f72a028bf9c80e3f6702066ec1b745a05; P1 0x14b57a6f151fe878c2e73d21b9bb67cb5e67905659360aacb85aeb9420ac44ad119649e784ddbf70b28811b8da5a9dd30c73b70512a38338cb14077666801e8e85 0x34747a5dfcdc12280d4de779301e346cc0a707404e1cbe31fb42df64c19e5319012f22738049f4a7a9dc93c4f79a7f6f98d825237dc191da19c36295aac6ad1ad0; P1 0x101f4a0ff596697e42fd9d057b61317f7c051ce61a90e7eec8614e8179c59a11eae7aff018937d075a26927b811d7fb014a499a8b3472c5f606a4db39be3a9c15b 0x53f44411fc79e2374c9208eb2f9341ed92f9465f14e4173084b2facaf27786dbc70b6f52d2254de5a5d14331b6595b2459050550bd6f3d06fa8bf797f0e3767c5b; P0 0xdc4269abf0cf035ab3721c9e01cf05bc812e38d06dc28bd398add11d5edbf164ba97ba14926c203740ed65ec957a389067bf985a4c77bcce36cb3900634aa197e 0x6db016bb9fbdf7c24ac0775dec827421ac5533c4b940ee4432c3228787b7fc5f035c35f4b71788f04a0e987fadd822129657c05ecea209b4f45456c0676f661d7; P0 0x177fb63d85041993c44cc7dbc1e2632700f91cb11740b12345ea23489ddcd63968ac45e2a3f3efed8a187101cd764d648220f458a98025061e71f20d7a4e96af 0x198e3d1087826e936f9d190bc402bae88415a41c0f2fbdfcd3e06bbb7fc59a575ccedd6c7e30f7f925657adbc424cfd77fa9dfee650d6fd47d06fb9ff73dce73940; P0 0x1468b7a83af57f86c0bb4ef7210669b6538af07678acb569aa9f4cc2c46028fabb2b4f9c312062d404446035a7589dddd9e1f672802f6a67937c0076a6e1291c70b 0xe85b791bbe47d44530d164b0536a650fe86c3701990b46b6ae81f9b5ceec1d788b2ee0686d5d4649b1dd4f223fb042136d50d3583a0692d192d8f0952c70df570b; P0 0x6972f618cdf35a57f4758eacc66051034c90b87bee5a8851513a684b80719cee21b563bc7d35bc098e1a170643df1eb662b50d0bef586e54f63a2c960a808b5d9b 0x38a0e0b6ab3b1ce53880ee3b5c2b0793aa043be0a49a2530e99afe7eaaa6b7c0385449a0e1ece2a3d7557cd0a7208217eafc08d88f9892dc42f8a97ed4e34dd814; P0 0x64363b4ca400a43e232a4392493f10bf092b13a356b609c256f9eb0d9a054431080ce093afb4061242cafe4009fc3b653adf88b2a08fcd4d11e942335193d3ca8 0x1c4556662b330db9f358ea1f2a9b3f8df7d499fb19df9087a6c5b04b0fac7d2d88a67104bf31bb1068e2adfc9befc98cf6bd07d894c6ba3cf590c70d93443a6fe38; P0 0x18f9ed704d7a1296a5558cecf6cd674fcbf5cedcb7cdbbd22be93b223bf1c4957bde873c2ae35130cb7e8ab7354b70d8e78d411c7b3d1454d860068712e3f83b021 0xbd03c773c4cba49df78f5a5fbacb7da8ed579003772f09edb53800eee9a5d6497f6cc49da5a733502029ca3bd8d07645476d70b9f9222d1fc65a1b7dee3c96dc61; P1 0xd155ded6d508bd39291e2180b137a7af99337f06b6ce55b813bf10a13ec3b77de90940fa44b5bac318ba02ddc857958e04f03c41c44f7458498f889e960bb011e1 0x2a4e57a7669975034caaea473042cb9813068651afed5adb403f5670913c7c6d09c430ca0e5460a29b050ace2c5ebf5b5c1e9898a8c45fa361bf194a4771d8a824; P1 0xa7cb31ab0881fa9910c880208f2d7724fa730b2584552043ebce94557a7fc1db6ef9696e7f3328ae27ceb78608b526db528c837ad484461074223e1a92210d886 0xef958534473cb5d3c21a96eb987d1dee2f6827adb74a4b5a23dcf3e7e61b2738b487f70240626fba3f34e0c648b5733d6e8655396277ce5c7bd4510f4fb9ea7b6; P1 0x15054c911e9c4774eb9845692e3ff234025b6a524d2ae947e9fabb541aebe91c618aa87bb02286eaec5492efdbedd8a5e0c87f83aab4cce442adfd4dea8e0df28 0x1fb7256bedf1eefe2f2acd7bb1213705130397922bbc0a94800f1343b93ce22558841fdd0ec198cf460b14d19df1854d30d384d08952c802c48ef58ab45ac75bf54; P1 0x5e4cd21fe1abc14ecf95c5708ebb7d3081f821a22e19c6bdcef9f687f8b638b7453bb58dced5cacb4adfcf6aa58f961b6284d99970bfb84a6a238966cb1bb9fa9c9 0x110ea95ba3fe5cfa2e104919ae07ef6e082ac44b4ceb3b895bfcf52e585749893c6ce42b896bb1e0e6c1725f57ee9474ecfceb737e3eb07df0c899bcc4db0f30479; P1 0x1b46cffb2c3c33eda3247f65157528eb424e86c8d7a6acd5b419a16450f9edcf3e5477cf577b1aa47fc4dbccd48e8d95e7aad3295c675ab292f3511c8329ff220d6 0x1932f119c34dc0b90388feffd845bc08c02ed8c18363ae7287c273a7c1225397ccc018ab24c6a8d4ca767dd39cd2032dcc209bfc52e1ecbb52fad85891839502469; P1 0x3b87bd725ea7d7d4f0280fd593bbb8e31cfde1aa374324a0abc43769f96857815686e6949013d3cd1e496b1fe49646ca32cb03590ee3f113772adcb550e36f09ea3 0x191d439ed11b79df21e35efc8eb51e973a9ecf623646bd70d1c16967c1416cce2b7db8e316be069cae4650a4aa32ca78e42f5d7b3b1d9872b77a3955206d159b7d6; P1 0x3b217d41d06e3038986c9c370d65e8d40f98a005d2a7d1548755c1fa0273d64acf24485fcac893edb6754e20912e5291d8646b6c4e79c73f6fbceb087cb3c7bfb42 0x1d6dbbc1c637f309bf984c3904ee03fc0ace5b09d91f85390d5a3f3492b0f805205d87962d647f596d524fe49e23419f315818c042dc981505b378c82b984eaefee; P1 0x513115cfd70347313eb6d9deff0a95227120b798133d889049d82449c15b642e836d728c51cb7ef27aa8c8eadbd060fe3e7ba43730dd129000192721028fc38f148 0xcb4ba779d06740070c6cd87027e964725872f6ff8a40232cd75b7dbbb2ed8e611e3b3281cf718e6694f5b74100b3d27bcb118125754c04ca199820e737cc1bb514; P1 0xf2299af21f2e05dc1bf25a64ba4049c86f40f4677404ecbe09b17ba68ad7d5704252a5a566cdcf700d8b6b26ef6212c9413d9e97bd189b71ca02159df7fe07d7ca 0x1835023d678cef5f75a6b9398678d62ebbd5ae499ce4feaa2127a6f27b32ae65eadfea0fb5785f02177213362d6ed22a130750de3251b7f40eb175fd486b4efb47a; P1 0x36ef918294a7a60979061f47c6e9793336e7cd127c824da5b4aa2670937308d534b9a0332eb50047345ba9364361c8da006541934f5f46aa148fe815baeea20991f 0xe71277149e3a5f5f5cde699d2b725b33d89a278e340ea4fa7535c871a1545c753be573dea36ecc15a7c3af1cfb1f69d5216dccbdfd5d4be5eb635c3d910b37f78b; P1 0x138db7e5a41c3a7a253e42a3a453d77d4bb436874296de185b766d1fa0e9073f640dd0552173ba730ae876565fd5cc4f6d798e53a7dbc26570b95bb8baa197afdf6 0x1fb649783ccea70206c7e8bafed53ead106b26226581d713f2c6823c35ef92ef9587b932ff249125fe188ce4c5af1912506db7b824f7e8d2e4305091a92d6c18e61; P1 0x5e47b63802974264fecf43815b49f120695a2477de351582454b4fc32d847c6919203042b02ccf8914a72d5551e90caf8aaaf505364d0bf259ff22112525782dc61 0x13bb5f1dc258ab7f8dc75e6322ac220037c8510657c38c459b17e807ec2dfbb872e30242598f38bf25aba8794e3a3fe49f091d6e74d8b29c1004625e764d3d81ea4; P1 0x24805e3c57f490c5976230f90ffb0b32bf2b2e1a8c224e2d91fc11f64c91f19418bf76a0b3466f044c97d04e863229e4cb919c3c67baeaf289f4bf1f4d845cdaa70 0x18554d58ae895cd0409042ebd747c9926538792130f173cc68c7597a75fa5264b5cc70e8d2da341d9d04daf3a21932cdbcd09a4f6ae8b54a261947f981a770e35a0; P1 0x37828639f7a3080a87f09591716c7741406bdfd83c727d2d6033e2b8e864bb5b76ba02383419338d3a0b70f91f8191a35b35d299ec1db91a287bd37c41d8b33f9f7 0x142d2382a8ab5f9bd3228abaa27991039a25665f9c9d5fe307acda1c541bfd54dba6fe99dac659a85970db680f9e2a994e06d451c87e75906ee2d45158b8566e5f7; P1 0x262a042e0d297fdd6a51107cc83b2ba9df6126fe8ea89dbf530c084297de85c73d82019dfcfecda967a9ecd80951bbd6aac374f758d844b8407383fa6fdc5fd7a90 0x10f2fe2b6e4f7b8086259cdc7764c24392f30f0d51a102112269859c66febdce9b0b48c12242df07d3941c25d6e69a2663762ee6c70199bd88caea6a497e634f783; P1 0x1aee9a06e610df64a99e15b99c191d1ee2bedae44bf371603a8530194cbabe9f522c9fabf2cbb7f961c1c890076476c2836238fc11a9ad105556bbb8504a43f8944 0x1c98134a89f7b87773f654744596021c55cf4aa6d5df36c9ed407eda5618f4a6b46f874377c107eb5dd1e9b550d5bdff269161052ed1cceede25d44a9c145d1b05f; P1 0x4ca6dd6d439430e03408f9cfead537798dd998bb404d548394f4f0d65cf77d92e442a67e08f80b141e091c9f39401966db999f5d5a32ae6137ce97b3ac1881ff653 0x17e61d465c68f1958ef538bd42b8027ba5c77e653524e5139df566813d1bc80108a800be934cc2ab2e34579e189de6144fced86c4ec5dc919caf1f70f988024016; P1 0x358bc28e392e2621edcce7f8ee94b66a0816121acb8b5dfe8a539a4cf380612e65c653dc3546e5cbf56d615027679f713f158dba701438da385f36bd69478e2e3 0x1941d302e502f6c47b42f85370022fd3b9c2331659f030d062328a48d4b4e871abfa2da95bb619459cb545dffe56b9741a623f678e517708d43d012588fe5a1e88f; P1 0x3bce2351930f7de6d51946d8928011bc0459255a0ea7f94322ec7612b2eef645b812011ee10a8b3467ef1714140553a5fb93a97f52a8e9b0e2713118e91105425f8 0x113396977b03e68399487d59d1eff81e7b5937f39b4dab2295cf60c82faf327bef67750654fc3ee27f8c6f678d95d213deb9e7c738efad6bb0149a31f3997b8a59b; P1 0x1bbd69832eb18f15df566f5fb09f2ab48258594fa0a28c26ed366eacb16c34799c5bc088a23da9ab59494d02e2a4a580aad0d87f1672aff53be5ce7b503e7fb696a 0x12b5ec2ef8bba9a0be50f4ac5412036f82ab9bd9baf3aa6eddfb925eb3363e58498f37b37bb35e73a14dc26baedb80166c2eef63949af99153b1fcf99b7e3ceecf5; P1 0x20d21bda6f320a934e4f3a6da876322f4dba69fe903d8015e9bc98820b9cc7d33c2f3ff272d5e9f8324bdfa3609840bee1402dbe00ae0fef0885ef27293800781b5 0x7472832f6b9acfde7c16ee930bc8706b22954229614533f7f197b862c656dc1e21c3bb9016d00cec8faaad6e27986f3f67bc691a49cce4ba9478f931db9ae96920; P1 0x4f73f72a1c768cc1d522281043a26241c1dfc90566afd1bd1d8299f9d2f7542e3d85c913d219395b88605035053c6c2298d162b39e9de1eb65f6088d0df49f3b9d 0x19d2e742a7d545863456b282d867aca58674b2944bd08e8921824e9ec58b5cbaa4f95b12db5b161f4cfc23f62bf03e0274ed8f9db4bf93a014ac0c9d92f0ae1079d; P1 0x3e84e60de928c9432ce30b59a6df15764eedf6eb7fec8c47ed9693ca88fc7c9aaa83e0436f0fb6396b4811fd5539a898eb3ae9e4851da5d9c9a5010600a5d766a2b 0x1a277aaa3f13fe781fe8a5c78a0dc0adbf3a07e18ab5b28d5848c7be80d15a6a1f4b23f9aaacad844a547ca176ac30df7e9a7a987409394bc8627ac503050124d06; P1 0x4021081c730fbae3d946dfb1279949b4d788ca853a005f82096468777e95be69f704210eeb7701ca3edd54225c8fe1b64be59f8c6395940dd44131144d602662229 0x9b931df6063a67f18b9410bd567d50ec302dba64db01a296611475a84d2da8c5af1658e067f2eadf437e09ab944f43eaff774caddf063b69c6bf657fee0673f695; P1 0x8dd1383d036350309b8e50885417e33be47234514e23e721fe1c8dd8d8c6feaba77e4eb4125bf07b7fd1ac2e3a40f2593ba7aabaa4acd8980d7318a3795ba85fff 0x140d0805b2e569db3546580c108ebd04c4f0af736c997671a18809a4415edf2eb3821b7139cf2a5086a5d44c25b4462c282682a2a500bfa0cff551e88e0b5ca782a; P1 0x25b0ee00f2c8eb8b9c51a620b254bd98f6239e11bb3d2f32af7b5885fd0387e2fa6d305e19f355588170b0113df0d4c337bba05b8b35abca3448b54db82963892dc 0x172301fb2d172d0defc1a194e19cbfad74edca372f5979998ad1a7fb425c60f18a2b2683211213bc4dce98b9b8e9b5b061524b4e282766a5f39fe21622a5246c788; P1 0x322f6b70332a0d7aef2f2adee66647d569828d63c2cc313ef424d2281fe576feaa13c96d8733ac96dd1b6f61756931fb606f6756e05cddd9f13ce1e950d9cbc380a 0x1a7818bb8c6b9f4a59926f84ce9c5a88629d61261672deb81e9f3b5941e3d1411c1f5239248b77f7aebd3bf669900e71859cb7011407607474fa09ba11c2a6a60ca; P1 0x41aec0bf01bcf789806643a8ed4a4770a38da34f744e2f3f6a4930485bf952ed45a428a32166543c9054452e6ba55faa7185cbf283bc1e9d72366b792ba189b58cd 0x1508f68f6eebc30b0fb8e5a2da37239aa71464e8ac2dc833a0f17faa84a708baa147953df9588ede5ff5aef4ff7aa2d16046197e118f0a383e9d8aa8f2dd43bb6f9; P1 0x297b525cdf26169535ae5d0bc71bdc26877bba4067f05f53d51219a81d4ea54091921fbd61b55280b3b683bec55bcb5fc49a177eb4964847e1abd75e2700e826718 0x1ffdc28a364feff41409f42c3da654d7236cb1a8df99b9c07ef26439f11f0d6cc2eeae7d6737a7780ff6ba7f222dcfb38f459380256caecd2075fa445fcd32961ab; P1 0x5ff28fb5b42b893ba02b4c775c8fb97c53f93e849dac64ca792de0aa0dab44ed5f0d5279e5e4b2c7db1bcd34ff4f6c6e85a6e1e9d6d58485a407032616b421de00d 0x1e19c29aa7df12bb3cbe0ca4259ff578da665c58030dd51fe57c67f789703c7dfed8d4e35c0bd32736ccb6a58c980cd51289b51403fa2fc9962ba5d7e743238f8b8; P1 0x54f124dc039c0bb0e7e4959fc45378e0548dfa89bf3edcdbd2a8b36bd3792d596cbddf522c11c3297313912549f18ca28d2a31a8a907bfe818bdfba06df635baa66 0x188a0c38a70e55b0533ac7d4995a3c0deed8b70db1072044a7493a778a06ec008be31a5e1cff2072472ab0eebead3a326c7d3cdd3c5a9172f2507bc84a049cab726; P0 0x12d165de67e13dc26833d31617bfbe5dc69aaf4a3643cb56fb379e50295c157650ade3eab5067a3c83f6b1a42135ab1adcb480326cf7852e331c49ae3f653755942 0xc348610c44be7b92ffb94cccf5f6be2b3375afaf6606f4bc4d96345cdb6234496148596aa56a729032d7751f57d3494cf4e66d9f0a252af06437f4406f8a74b2e6; P0 0x4a7bac27b635940b291d6f17cca3b20e3aba1bb8ab980c6fbba4fb3c2cbd8fea074029d45e592d8613e3368d125a8ec812f378d54ede7d0cd8cd3c35b8c64b19ca 0x135803b31787b6f8ee796ff1c0c88ba11f0935f0d7ef28bfaa702b653b31d4dda3ed76cec50a7363f4d770d7d7e8c1894f7792a04c1dae619b05d345f3f5bbfc06e; P0 0xbb176790560126eb63ad5133b86043a5a8e19fee28db5cbbd9bf51880d38caa9d7cc69110af537b57ed2617b3f490a2b0a465007cd5eeb61a15a074457a4c6c963 0x15ef543e8454ec067010680ab6aaf574f0057474d049f41f73698cbe2e2595edd7bcc87f955af590d85e68d58ee4bde3e8f4e337ce6f5a8225e0ccb80ea8d8ff8a7; P1 0x2d1b558ff3f2918c84141e72d655214c901ca39a7783d2beed2f84596d67a17ba3e018c723d6f3553eba2a808fe7bf528497520677628b323169ca30551d9f398f5 0x9dff0698e3c51b2899fba2704230b3277ab770f2d5ac67abcb0c73026326427773fd34b78ac0aceb1e8257b446313281de50e84f85de203953d59573d4f0358fc8; P1 0x92443238823191f49e9e10da258ee32c4b9d3fc4041025c112ebc6a6a6efa8c07500f2fdce2f5075943687969940896a9fbb22600719db5eff3b2b94243b89ec7c 0xd4bf08a7341f6371fbd6f61fe57b27b5daa24728e1021b8bf30355164313735de49b51f5e3f01c145a8323f3e427973f158b6ba4e38c2783b053747847c83d113c; P0 0x58667a716c0f5201177cba8dd207988a55bb7dd6ca0bda660302856eb1ba76920431c6403b53ede7043393fc354c7cba6daac36ca6b60136fd1d255f75c8de136d 0x2f4a1ff8bc05021b4afd93250944ea5650dacb779e1fd6066ac10641f1fba059a1aac394e7ec67e775c1096c72caa0d1cbcca23f212f4cc1db922ca83cc09f197d; P1 0xd1a73cdbf3f1551eb6dc44ad077cbfe3f0630a39ccef467471b73999f970925ef5d4c5324973b7da33a832da00f8e23c56260ec59d51cd1d8743804187e4b2483 0x1b5cfbced19b8f790efe88fbfbe4510b2a414c5f5baf551a984b1d69cccbd86b927555e690f13a5d8e50d3bc7b0613f94e894b2d0b3f927846f8005273501ba199e; P0 0x1765f71ca465717dabf106ecaff03494922102d253f972de27cdf5fba2ce69e58a29894ab49bc778ef80e99d4587a759c40ba6a4e9fcfb07208ccd04b0cb957252f 0x53f43d95693a52cbc99f93cb1e79020777528c861d64c0c0f4ed0d1b7343e263f37135e442ca1d0770c14132dcdd4d7a6682713f2bf36ef57037dc05f5317f62b3; P1 0x294c6d6e80cb6e5324b851d0797d43d49389b39cc69c1eb0bc2fdd2847750d4894209b2cf3968293d3de37990cb61b880e6fad6f24567a1c3727162d4f6be6356d 0x13ae635300ce7c8e829ecd516ccd934e66fbd44f3e7f4de9117b33d9bb8fa1cfbd28b56c520d7759434b365a7693e03a5c7343ebeec7398f67b13cdf0ac38dcd0e8; P1 0x245064e3c3b93138d0529801cd9ac924fcb70ed71b0c8d62da73957e1445fd08dd6d9c14ec43f878d6e73d4ad97c748469b88709f722c3ed9b425d85895cffaed27 0x31aec1e8a876b11379effc7290983d8a69c983f2003a5d9ae7f682f9beacff5cb1b35ba1529e3a652dcf59cad99593a604c3f46eef7b605beea7af8d6d7ba863e7; P1 0xe768c4ad9749be25c35ea35c3c8b547d15968c56b695673bd636075977003a8a3a6152eae6d1b3b40d8b96b49fe47962dea2a87fef359f6475dacc57041687310 0xfc62b5431b4deb1edb2a1c8516a8150b0a1427e03746824f7f34d12b870c5628ff52c5a5cf019dbf81a0d33d7e948eb48b13b4bff18ed8ba15aa91bdc01ede263; P1 0x1753bb861183767205eea67a5de69a7e30a18d10b8abf757b039bc33bad37753a6e0f7985471f572f02f24d67869b7a0866f08c3e82d6a58c6f1b3785a1aeb464 0x14ca8d85f9f8e95fe58c673e0e3ecccb30963a8207355f67262000bd722a4b29ba5fffdba0e5ea1654546b1c2ce3ba218f2bde001016e854b5873225672ce318b3f; P1 0x2886990df175b21bd80b753054c42e12083eaf281325ed89a9e0e181e0a8b51692462ab03abcb1a329980772bc30e113d0b149c8ea1fc2fb2f931fbb818d8d88d06 0x194f102bd51c02686482ac9bc804f8f4dd23fd35fcb5bbcd5e1b8663dfadb042c289afc0fb5988806d148f91630509b6acb135f7b997e577dc4b176117cd26af989; P1 0x3c0ce5d518bc2d9fdc38d99f333ab7a368b384765268efd9f3938cff9501f36491bf9fbf805feb45bacf077f475af385ecfb03a1648f04f5f0d98e539f7f0948a4f 0xa999ba226d9fe955c3780c87509d3a3dec9be9b9c715a9ba888a4bd64ad8a9714b2fdbe337d8ee709e2086126c41be35d010ce465c89d633da3af6106906a3ec42; P0 0x382e2a08bc9d1b92e88a28b95af81620fba9730e638a612f650e25a5d0100613a48e776d63a88170878ddcefe387aa2b1f1019c0b83d0d49fa69ab09f10793815a 0x99ca5171cbdfb091dcdf2c561f4ce1c728edf998aefadc5bc005f4609223c33145d369418b16bfcee2a9860a2d31fc7150513c6c8da09e4c6550af301ed5a9425e; P1 0x8a952fddfac87d7f41a90ad352e4d675eefcc27cb0a0864d83e57d01e165b8d31f5b05d23562a31cebb4216bb9c149e8e42ab8b22687964d7cad4bb185a44f494b 0x3f7a0892d68776dc4c547a59a819f65624a830408072677402c5da64fd829a60282911525557f708c3cd4f6359f77ad716a45e9bea5ac9482ddf7d64a8fc4118d7; P0 0x7dea53238ea539fcaa13797fcabdd2d52c0feb54043e232015fe6a2c66d4f529ceff81886122157d609aca1d3f597bb9218ffeda6b97ea916712cd354275f45e5 0xbc07d96dad4187906314d8e4940f94871af29abce5e38060dcabf726f4576b7296f6cc6afdcb47e3be20e9d09cbd6164298a83b87a100c8a242e8b9ef90ef64a76; P1 0xcf294b620cb4431b5b74d6f0dba9ec7d9b2bad08db2666654f49321e3b73a634a701e43778e2928b094cc5b332fd6cd885c5f936f97a8c12cbca8ed8d028f48d4f 0x11f5783d9b2d34f426ccbad7b15ca35ba05c4bdcd22bec11e7923a5bd2553e80ff8b4d32e33da64817b9228ef7cbe04a86206a6abf2780df753f6adf4bc7245d87b; P1 0x1e3c803538140cc39960946045d096260f10a4eeabb8c1f9280a24b70cddd02046f48a7369e1a4d707df0862f1c76f63836a60b2d3e16b085efd364f34161372401 0x9bfe48bc8f33acf103bd49ff30a135fc572132759860821847a56d42372dac5f3fe7560692699f5ca46deb03ea484959b987749ccf341b0c364ce710cd4150854c; P0 0x2f86f454601facb35f097e7ab8fad3bae3a403568e269257a28b436e153a65ea86d8c60cd0c121254a0ca7c7bb5c1e77bf566539c3431c004a84af843a68dbb2d9 0x158427e7a5bb144c88d398295f77e96cb8ef02a8c9a1a2102fd61cc2e6a804540da5c3d48e6845ebc8e3d811c1fd6daa2fb2dee3f0e8de9578bf0207cf695c3c169; P0 0xe779629726002e803c3aee362d049ecd0455ccde223c8df8aed15f0ffb960a89c64f18c5222d70554de7f505dabaa0c6fa2ab5349664a0b162c8e24df1ccc3fc61 0x162713dd0f9fa90affe91a6867b248dff13e9bd87c25671bada708e1302bc8c581c0732d511f585ad9fb19b8a15097e900941d68775a3406197d25530923ed97972; P1 0x2e01c11945f245d9c9172e3b7f21742fe9cbc62c4b8ba16f14acc54a0e7ccaae6122c0bbea6e596f12aabc5bfb58839fa6a01b323e94c5b8951691ce9e7eb080c63 0x7b9c651a2b559e3c575562431c54a199aed73e62d27c94a8b0e2f71728735ad0b93a3bb75bb245ff1fa65969250410f7c5e3ebf7417f719b1a594eeab6e9aaf0af; P0 0x1dd7d45942bb5fa29c860eb90b8dfe13b49aa6d1869045f5823b8ed69cdebead0e949010b980c1aa5a9584b537a11c2d1f98aaccfa22cd9035e8ac1248c851d865 0xe63b426fdff4f30223793f75b4e5483a92f77abb5269ab51ef36babd681042ded1fcb5e9b652dabcb21fca08460d92aa54ddefbf31c29a8323d5a6d35fe1067006; P1 0x13695cda512d8dfe5338e13b4d89585cda4f4932ef0ca0af3da6b3f2506ed3dde5e03d21dc497b7c5473e4730043a6dbd601ecf9874c34f08509a71b66ce956426f 0x1f6d0b0102c1d04b75c4aab74a72a3413d287f776a48d69abdb60cd6931a0f67a4b59bad539a71d81b24b35c855eec0c133634772d9ce2c8c129581c304e13e02db; P0 0x1edcb8e4f002fddaa1cd0c23fb5cce7a9d30603f38553cd34bcf81fdfab32de26ed67b1f8accf291d8b0405ad2d419eddb46702e387d74f792798ddd2e347f5887d 0x672fee0c5ed3f69ed1e24709d007bb6e8ab3a8085ff2f066bd6f1d4d070e96fcb9a8365165e5656ab0bc7d0527535ea3c8a333128c941d0701b00b9bc5a011afd6; P1 0x3e6367cad74e94cd4125e2023cbcecb1e17082a1382e34ceef29e3a008c9aef0f8b52d3e5a62d08aeece5631261d02c50a3f1aef846f1966195b4a16b21e0b6540 0xd8eb55f946be1112e2c4c22733d1fbfe53c81a8b264fa35d50331a3d31c80b12bf3dbda5c8fd43d24688336e9f0b0f262e7fb24ab06367942eef29b7d317a239ec; P0 0x5be6fcb5cdf40cbc0ffc4e530a257797417f6c3d680ea8bb547e86bd6389409278dee8cf951fe56fad4ad649fc5eb97da2faedd9706a2b59570d130f07c05e7be7 0x16ea547eeef508186363368b9361ca9e7e1f92a18b0b2ec75837ca2f00df9919033fd1b91c4492a161141bea1bb0308025036c77a802b16fe1e29147f4584296d77; P0 0x1068e823281408bf19d9ec83ed7e2c8e9391cd3137ba406496348b6f81ed0f75439e8bbc903121240a199391bf2325236ce7423da9b400a7979508d4ebae3b46da2 0x1fefd8960aa0be8c654565399fd918406c1d0e185656c7fd0a0ce5084aa16e3953a5a3d2f472d0347421cfcaec5ae3ac69a0b34b8759fe43ce826512277daa0faf3; P0 0x1fdfb953afc2814c08488aa39d7cf3cc24571ecc7e9af287fcddd761b9162216b6ec5751cabb95e180b2ecafc8ccf7e8ebbd56d690617f98b90b8a8272ed145ea0b 0x198001cd8c0e36b32027003d4290baef0d56245e4acda09ea375ab1cf8046920028dcba2cf4914fccde302d8b5bc8437fb5b20c5947159e7e8f697691b953056cb4; P0 0x145202df9750a83b39c2965f995f6a6698c791fa139349b4fc423bf82b93c0f0ee687a40ef4edd1b2c07b0be9c723792288483f6042a2cf606a65b365c7e86b1773 0xb1d1f9cb78da489b85c1672695ab9b47f72b86be9d6453bacddb0dfd486197ed84d02ccc8c85cdd6563b0c9c66620793ae9973e7db1ff673e3818aee8a0d9b7603; P1 0xb9460b77c6a1ef74b21158338552f3a1357d719a2117d99759a84736ff87c645910f143b8be12d0031821e92d946515ff70177732af45d116f38bc85666f9a78d4 0x98601841646e457a9af9cd0cae89a9326d378d8a12d4a73baf5b87ee2c9a3375b1f5857a5e392dff4e8e8c2b65ce1356b86f07f7347b4e00432fb66c47b3b4c4ef; P0 0x2d59206fed4d4c5f4434bcf8f9af453b0a6c487892524b4032aba937d50c7829117fd4f4cca2e9769bdc001656f853ef3cb6b7574b1213f89093ea280fe25e41ca 0x9c71d9b1e421ea80b4cd5bef21d870ba2b61f0ce873be58f0a1897b5f5b3355f8ef8b794dda1191c8ea9adcdc4d994fc377800ed11461386b80c5357ada3f518eb; P0 0x2fcd79f95b19e60e51dd6604291e133a4357f946961a55e32d6626cf99da1a59d9bebc2521e9787a0cbf27219f3b588749bb13395e77d5ff87b9fba89229122a8a 0x17300268d84da14a64d5bb4c0e4615121ca4a68746fc9104c24adc57e8af09d8a4041511129607a26f681e9c32217836bce9363c33135209bd3839318941f4d1243; P1 0x3267e279d4f4d9e498f4850b34cf3c238df4cdb4e4a4054948bd657f5e09d7953036b83c640b059c1ff8d9e204155f1577ccc595b5306330ca4bae07f83cb68426f 0xc6ac9cefba0f34565897d5f32621a4e3080b881c18c7067c0fb27b1d45192f5d8290805b89dfe4e741f6a9f40962fbbaff775b060137718e4d54cecccc723abb0a; P0 0x4d17bb930b134a51ae3c7c915dc3a8465764eba69a9f72422811dad7e074d82f55ce1e5234ad8dd3c1d0081bb40d668da74a7d22e9cb99e2a9f360d87077fa0136 0x1aabaef710e928ca417a4af74f47eb7c5a0eabac98bc5b24eeb0418d307a4dd92ce34a059a6df4637376b3da59394604e2d6617845f7d16594562233c6ea9299d9a; P1 0x42afc04179f1bce3efcea094ddc83bb64dc752191dfae631f7d5f6c6ef023b3eeaa18515bd63f618b0b9017344f1646c5c1c05561e551d9d70acb5616a42fa7cf24 0xb57e3c0f687e6bdfebe48ac21d391ce45df2c80ebf4c69b092d3fd93608f9320c36cb54c7375884e87f3d7ce1eaeefe57546256d250b6c799bbfece237c0b69110; P0 0x4055df967b826d72c002f90a13e2d024de1d64e28a553abc0e32e3f437a490b7f5d584f7c89c588f2c12fc275fb66817714d8c0f11df9ba7a3a0d61dd69cbd0404 0x234182c980b587feb0dab87d7d51baa41dbbb539cd85f39d41759f546711ad6ab397e18f04314db5cf82d3be0064fa9fe4b8a9e0a4a792aa7badfb0e8131b02504; P0 0x26d7d43632b225937caefe611094747f675865dae18f7a7962054bafffbedc48c3c2a413fc65378542b935357ab5a1ed547e1b4f6df74d6f3c9b6706efb0e2277 0x93e132a2d7e9c39a2ec4ef3eb16e852af7c81ccecc98b61f030cacbcfb15450849204de64820cf747a6ad265d9cb8d005300916d400fc39cde28c515d56de84a87; P1 0x802299619857053749a7f985ee0469786f240c211be7f439e1c3df612dd6849669dec76038eaa5e606fcaa38884b0308357fcfbcc1e238f360025e84810fb1ec86 0x6d0a8add3ade78256709182d9252ad95543e4e2ea62cff272ef9c841ca80e7280db7f4be806425aa976a8a34ab3cbab08b046e31b0e69b01b3d91eb2d70d8e619; P1 0x45aaf8074d1bf583abc2ae19ead0ef40d41b6a698d12bbc04b5560565ad6a060fef001a3bb9868801b132573d5e6f944b670089d206c417d8d54d277c7422675 0xf9325bc1762940c00a39a76c4600b20f4af03d01b8484bc795469088bd4f5e8aa511dea91a9d161fb53d334be53ffc8b0870a063b57043f722819eb626b244f1c8; P0 0x794980332828c223c9d72eb0a2df8fd47a9a6d59f1ffdb1aa69e3ea9ad7ff3030c5a40af87c7b70cb0fc0b50856b1a5970afa546d8331e3bb7e6e00efa59993aad 0xfc52d2d3d3db8c269ffbfcfd9eae8e972e2f1be21e606fd86caa8ab2b697e2b5496721e9d3d67ad89b16df62ef371a38379a9e38e7fb6f8f15a242925d03366ed; P0 0x7c5994ee633615b67871517ba4eee9f9af3b1275638c74cce734eb6f4b0eb889effae0952ea578c2ab60e2be428b5339b2eb3e05e0dd0dba71e889eb0e086193 0x79159b351c647eacd5e11bae84d8c5aa87cf2cdcb9cc832ebe39ae86b4ab9d55a8064a6db11947c0cf5395748c2bf7368eb146f2c727afdd0e57b7c60059d818fc; P0 0x1ca2b74584d381d15058e268d7b8375950a784ac6acb8bb5efdd43676373fc2245a151d1d0a69fd8bb26085eecd3b54e1ef5736d82f4beffa237b912f7f00c2db7 0x19a8b483cfac93c7efdfdebd3cd2be6f257f516331a4fc70ed916689e800d3cae236ed5fc8b09fe27b2b947c8d775f778a726561203bec2b21b9e2edac153bc65c7; P0 0x1493137956cf3a3f316c14def3f54d5c0f99b2e7f0430ed1681e8aff2f599e0fff99be5047b2166fcc9cb3d18390bb7eb87d5faee69ca626d53dc709520c00fa409 0x1d9c123b5e07249c2309a2ea8ac925d5f8f1d7807873d835c10e263b4d3ca272485051e602c2b5a3df54e2f418f4e217cf22d8cb98513091b404ec0abd36ece44ba; P1 0x52318eb836eecfc35cf71f453391be6257cc7aca21b987134c8da9c6accf98ffa3cee5b15b36a8f86fb2dff29b33dea3fe5a027b682251ee38c217a589ad4686b6b 0x11ae55c94328c75cec1a6cf878ef40fd6ad2765262b545f24f75a20dd0e88f400741261faf20332b2c3a80b27f97d066b25cfcd1ed54d3fd25ba5dd683665ca70d7; P0 0x9c4f0ebaa0fd5e7adbccf97dc8c0394452f0dcc90da516c8d0f29979aeb3dd3b441ce82c0591d910e6719fc3515c2a40ea14660493963f01d8173c7424a3e4b7be 0x1ec39fb7717d5ce56e7e721ca8b772292ac6698efb7d9dd8320dcc9b5f55bfa535349d2dc2622b6bc4cc5318706616c7cbdede88d5e2cace9f1a6021bf88eed8c4f; P1 0x58ba6618d907dc5b4898811fe8f030db58595faefc2b1077b4b0bdf04f2dfb40855ee6ccb37846656a76e3727d2195f0f61c9f03e3155127005290c98d911b9e088 0xca3d6044f7d52f0ec5a85b78ea542fe045e7a3b96c16bd4bc742edac19f3f4745540325190ba4b504ab69103169c9e9483ff8923e95e6e67b71faf4e47433f61ab; P1 0xefa75ff5ca45817856298d854c2d0ba2edc0c6622b91fcef6aea796860e66695e8ccc8b03326ec5b658e1a6266ab00f9f4d679a1115f983a0b444350386a9ccd48 0x4fa5d8b9d6d69252b8c0d95b1fe3c95b071353e02e7337d13e3ec25e21e973bc3f85c345ac0f08930af62eec894de12e6c9e4bd279770850d914a5293896e3e5f3; P0 0xc63e399e4d0c02cfcffd94712bdb0596797661112e82ff681aea64bbc6ca2ea36752385b738fca71d52a295ecafe3cba38aeb55a31c962958e6233c6020afb375 0x11f8a67b0bbd21ef358be5ab4d862ef8d2e8c960bbed380d61c0192b88457b4e5d89942a0e8d463bffea6cb7515bf6de8b92f3e289ca50329daa5ad890a802e581e; P0 0xa17bcfa91cd5a88a6f7ac12664c17fc098cdf9e7cbc31c6cb622e9b7aa382595e253a9138454fe7c08c56a333ad11f7943fc6cf94a12bfc428111b5399cec3e7c4 0xef14aa2f92862a2c037993601f36af96adcf8b7fba566282919596e97f4c66a23b2ebc10adcb06d11e3e97df3a1f5ff4d14f2067c20164ad19b3c4b27397e08b48; P1 0x14eeb6327ca3ceeb921c1310c70fe50d9d2afe89c86511f2b7db7f5e2250d5bca28c7fcfae6d484e3ecff534ac4470d769be74b13817dd0ce5cecb572d3ca634059 0x117e06d838235a489677eb8d1e1b840f42d49f28e7b2f51c0edace388de2edbae93556ed0e9cfcea49026e1642e8c70c5a89e82a4053c3cec92fe0d36acb7b90d19; P1 0x1caf86d2eb835106d74ede293c130985ab280133061eb075feab5c5cf5c9a0a2b17345391ad16bafef840a2bfab1d463deb0dfda13b6995f9714f3b35f208a6f43a 0x1f95ed34acc6cf1f855db5578c2b956f3e0643b072451265a6f44cdfaeeb3a0e7e8c24ddce82b1a6d1a8305405c0c267701816cf3933bcaa57482f7ea330f0f998d; P0 0x1f2d3a05e79ec2abeef19bab19eda1be70fe546cf26388cd5a854ca7fdf04f7717693052dabc77ab619b1f756f01c59037ab4392f80d8bf4078ad8c984a500f1b4d 0x1a550cf1f816d66d8ce4e5db813e161f6a6b4585880b3545078674e63630af5446e045b809e341a4dfe6cc0808e3d7fac4efb4f4758b6a7405b5725f6a30aef2f6; P0 0x15ab1715fdd7b57ea7227d3e2fa6b20802bb88b487d0b3b397e994e74fed0d8274ae6b449fefe278ea8a4e4304653a6cf7d4c294ab7fcad7e0270afbbd7fd79e6 0x15a459f064a7da95ea6e351d257dd965a7571eab794688d85027582f8926ae36b2118f3b5289deb1bb2c3d6a57b2f68def0ca45f28c9b3d6a873fe8a1f44fb7e4a; P1 0x2be9067322c4cf9613e254295ab3ef3455a09f3a77c761009abe1e0bd670c8abbb88d1f91b1c59faf2978cf55aa5084619f7eb36343ecd8dd4380dd879586f307 0xc781859c7f87f623872871a07164090a1268dbf518cd46ac15249f23755af30c70b980bbe6de7ef7e7139991e677f76ce149bec1741fb2f65f4afdadc42fc1bb33; P1 0xe937eee1d996d5d05e62415d365af477d9e58251bd8b357b8e5a4dfb03911272c16f5a6d4fe767b80f73f92d797ac9c670d039d4feafb15169836b26695bcd1784 0x27bac8d87eaed60af8b9ff51955c9423249a70b9c792a1b0bc1f49ff4da3474e2cf57c3dc9137fc58be558b31459ed0d242e986d910d219917018c02baed29bbff; P1 0x93faa37a62684745dd784fc045faeca1756d3427a3f43598a749657660691d1d689f6d4425bfec03692c5d4a3ea15e838f5e9da12ec10a0e4edf7dcc7787500c1 0x181c6aa65fbdf28dc481b616ccb726dbb7da93f74b48e3669c494edc2edcea0f426517d84f0c61b94c7e7e439dc98584ebf30954b3cdcedea4a2e9243172faa98c4; P0 0x122ab93596361389f6ee607d0af7492f7ea295e2b23f5834fc48cbbc347d545f4f6a89443b1db719b531ac6b13e6f0835be06d0e33fde8f6ff322343c56cba91937 0x1114639a86c95e61dcc7b797595f86af367983ce43aa7bcfc5aff192c0bc56a4cd618749d027521c6b75e1a43bac1fd69a412fcdfc7f486e3ccb7425d5603226f47; P1 0x1b592475b330748e64689f00419921647470e2c151885a0f488beaa17e7959e2a8afa24d01e493a728c7e2bdece1ca6ed6c8c160b71fea6ec59bed50141d373a6ca 0x1c67c66ed7885ba9c967806350720bf8d4fa81989dbe56c4796cd13816109947dd6b818015cc85e400dc024481b939e6e822b229ef762e411e3c6bb88160f2397dd; P0 0x1936ebcc3137495e18f38b67749d0cbfb301d2358738a52ef4a9f3839fb1dbb1fd3da1a567731b43f7c302824694361704185946cb6bea772ed583821324fd13547 0x1e3064014e4b17ce962aa5e354b73add2ead7c462319a22c40748b353e369473a754b9093a3f49cb684b2ec1a0b48c505b97e3b61dc3f96bdc17d743bed1655aa10; P0 0x1c7b04afaf3fd74dbe5de2b69e72e1e915446195debeac0b2608068881b3a0f7173fba94910f8b6f7dc5cd993f09cce37a344bd9bbfefc58ed03d4e264737620050 0x54ba47f72699e4a6e29a0f29ce57ecb3c9b0307c29baec8d7413a04dad4947cae6a7ff69afe3e154d075686eb5d77d6b43a8478319297ea483d4c13dcc56fb4150; P1 0x2a102a2a450e298bfa3e56e945416af5c1c8a9e82bf8a89be5e83c0b454cddff69888e360ccf4527a32ce64c077856a9d8bb6262cc24a87cdbe8ede64bbb8d4605 0x10358402015a03a2486cf0e1b6f75415b184ae69dd3ca4e682bd43836e4a7e3b8cc8bdec20352b307b704218907c7790306bc93a2cebea573364a27e03c662a7105; P0 0x835dd81688f09151b46c0fa09518176ff2fc42668aaded2d276af04235330268ff1fa12402069c3111844a5487639ca1807706cadebefa3f6f3b03052c7dd94784 0xe16568fdd02aef556d747de79fa9105165a61d431c65774d43d807f9bd45ea318ad7ef2f644375a76aef40382c2247a35fa563a68218bfd6dae0fc989dc162b19d; P1 0x129ad201740e1670b869b1ab5936d13fdf8895132c618deff5da723eb60ae90173be31c75cc988b2bc79ac90476045061af73451222511c839b43427b455f88bb39 0x92b04b84cc51ed042a8ea4a8370cbc6dedc746eb0d1149dcadfdc9563c4afca5d55bdd79e8be16c8bed6cddcd8ce820ca6a38a59237d00edbc72b53c8cf3d42a14; P0 0x2a06c7c5b2f6bbccff5a60921cc8c8dc3c3fea52cdc69ff640079f9a6cf5062a96dd2a5d2a94afd8c509e1eea64730777e28bf5b34642dba63b990b5fa60b9a8b8 0x172cffdff19db30bc896aec1f46e1facbe79dce36b93b968da029305031132d384c90d22c6fe1505c86e628d365b83fc131565ca7d1880af2815dc939210c43a48; P0 0x10c8ef19912a5d054c8ddcbee4df1a82197f1796a52c37ab2ad5cd35064ba1856a71391c675194bcbd87ce4b892725cbc7d35d4cd46a025c89b66b1941ccd3216 0xd982bb055a38e70ab423affac1be030aca046af00ee992d0233219bd8b0c80c171ecc4614c230c026ec0ed0f7b3653db55b363ad1a827ee1b51300f9666851e656; P0 0x5c6771e8c68275b349e916a337bd2aef692fb3248e4a1747f03983d0c373b8f14fd68cd80cf8f96ea6d73442656f6d46752bacdb52b2b7b998110d758d1249a474 0x53d18c541270489b96c5fe3245e48fc16e43575aa1a2d461aa4f3fb49b6adcbce936bca2cbaf2e03d56be073ea9e95268e9215928e6887234b72e6f36e83f44958; P0 0xdb8c64279137d192e1f304b52a6e51b65f5cfc6dd4e010edb2830023c564f423987ef58a5fcde56f2e1a5cfe08efb72180f62161f69e8194348238530e51c6962 0x6957f53942e0adb100438517b15d93011db212138408ec6651907b0441c00571848a0688f801e450cd706e89c1e883e397b5b6d6fb217ecd50df7388fcd9dfb7a2; P0 0x15aca2b0c8573501134029927812f4e0562a50856e34c0beb96be0bf49702549e42e8b72e3b67f3bbcffd236e204b773cd914c871ef23862817ca9d72cf2e54b24 0xc3a7f0d0ea49cfe20f3995b2de4ab1ed12418becf0f4a21c435dfd5197a083e4ee1713063afb563bc47f13d3829d2b3f3a8110ac20d1a9bde8113086ef06da4da8; P1 0xe04dea8f8409c12b58696c98ffc3a7156fbf05bccecbe223c188d35df2072e1d1df42781b58752df71a4235f04e1340e0117033f2e271c5ecd92ebfc82e08edba3 0x316a2917ece45d324de176b1f1c4f9a9b9fe943b9f863c7b768bbf1086f748d33f1b14183bdd8d5a5ae72411868ac4c5d162c2faed490cfe4df337cf78d9a5663; P1 0xe4eb7a1d2a4675c025a4284455aef8c26c663f1f9ca22030c89cff67056944eae4d5c0b57db8e00c173d5cd71e0b3df0f46315ad2f846688bf0b8eebf95f9a9 0xbbc2992cfe91280936774612fc6d47bd9cdc22abb45e0f9d9a2b2f36e707148e8501c91be96297fffc5880c78adf26325548415b48b1f4611d71c8aaac0e5df884; P0 0x44daefda1fe05a581236f895f28c241b2c136d3d0e2cf7ea8be5b13dbcff6fd23e6503efa5f12fe4b1fdda72631a72b4dd5c249edf957fb27f106eec76dabda647 0x15ee6acc5f66817892fe625de59f0e49b84e620ac6fdf04fb3afff6f0da9ee9a6dfc027a9f6960900768ba2e5d33177d2b01ef67bd540c675803d29783cbe5aa57; P1 0x2d179586c5120ff61abba3f3bb560d061dc98953dd404b8286a8f28be8ea91f83b00f503232bb9948c3344620a9f5a6a30a71ac3ace07d89e3dd5a10038de9d88 0x1a9c6a0623331d480538c6dc92b3ba5dba841d5215199586f434ae7eac48937d47adc8736ce44e2c473ffeda4eac676905d3b1c3ffb037121947b38a4aeb9d79a3b; P1 0x42637a7f3cf8c4f787ae44134286dc0d9f5ce17dac1de19ba22b85478ba74e48a183e6775adcfe335424691eb57ba8c43e7e96053f5879f9f7ab759392ebcea4f6a 0xb7defaf8e718d73749ecb354669cb41e24aca67949cbbd0e081919a8c0b2eed328817a6b2128c2c2c73d913ba97159a0d0b3c6ed10a1eeb3d36b98f143d2f96c35; P1 0xc618d38c24321c35170123d718fadf0b19190280b47b54a7f5f724b23daa234f3160c7a179ac40681aa480bc77cd9f472fad627bc6a92f9b0bd1b73ce08bb407e9 0x6fd66c347df50a20d956baa500c1950b63cfeba1738d19e7cd0a7dbc96c1559d2ed6a95d52193c5b14fef8e63821898b13c48ec6f43f1a7ca96700ffba6e3850d4; P0 0x186dd2b74d5cb4bfcabacf028960bb0475abc3fea8794f2f75e3a5e4552b938a131c0778954dee60e5225e2afd684dd18881fd1bf6c01ec2b642f1a9987d36587a 0x4b7a4091ade79206117941a1c3127c345797bc55d8ced0677f9e36074562b05f677fad0236b0d42a0f0156e544183c5f13da2d48049bfd1b016541e782237b880a; P0 0xb206e1b7b844d107dbf7a3c68422a64bdc99ac44ef9977009f05186cafff22f155739005be005d493ae8e7b10b81ed6e46dfd96d3b1f8222ff3ac197bf392bcb5 0x1781eb063ce4c22e01deb583fd2955ea91f9a4896f4438f9e3687a5fc2f7563096015063bf011690ae35ea354d8a8ccff7ee97b842f18d6ea87eaa35272b1795d19; P0 0x1144d14e97f76b16e34c00bd228717af39ee02d549a95babe573f0012cae4781990979e92d826bbf07b4b05e3c060e0a3dc1c9d4c045e15ca7d94ad01a938a1d3b8 0x1d6a7c02bd88a97e3c7cd5e24b515829ddb7a96fc2163c948797f86f3c55151d0862680eb2d35f0293628693d511003c350a24657e385213aae2146fc32ee1f0029; P0 0x1b0a631c6a4499b6e7331d098a2f0332466aeef038c7956d2c7f670b77cb1fcbff4918547731e7c05266863066fee8f137803fe13e7f3bf765ccc0cfa69ba5e7319 0x1d77ed7f18dfc88200c3e4c59c01edda9bc40b239cc13f88e3caeb97bf8532986ea637626999349017c74a35671de96ac4ab7271e9c5c3ac8065e636a7b004c79aa; P0 0x1b231feba103350f35ebbc91e57e5ffbf63ec348e750504a579d3e35a8f26dff86da290f87a8bd8396457e747139886468c15173ea7438b23bd696250438edc1d98 0x13bf5cba7ef1f2e144eda901f406965a7e39d3b45d7c5f145b1b6ac13a4641329cbf85cec30e32423359d7f32f8687b41450a64cef9f1e6f38cf91c1878059e427c; P1 0x248f236c613df48b6370f8a9c93c12439b97155f3c62760b4691097740c3a9935c93f78a5af312e5d22b5117e73b987ab4164696c1184e927b7500c2234964bc594 0x349735274dd0157144320066a6c21ab4e54e9af68261c3ec2b3e8bde84c0edd39e6ca080e7937e939e149bfdea9f12fb2b3f1d2a3e9ddafa6b6c4b9041854849c4; P0 0x566e373db81d03822a083f7528f707a07208398ab1b32bb47596099af1736c811109df7920c5574442f9aaf66ec7b9e3a3844867a9dd59605f5ce2d8af70771f3 0x14b782f52b31f01c3c446ea395042af0251e77f340db6728822ddf1841424278b93c7ba40240dc188bb35270508b01b007305b0a21e6248ed2cd5bc54223288d003; P0 0xd698016620bcca0f427763f0624f4c9d00b6825438ef24ddb0d3e9a4ab3bdccc7d39b04cad1dc6b1caba8fd59d6fb9fc0268bc7abb5f8f2754c68dd2a97aa9701f 0x14d863506859fab1c5aedff8796e34e34279b05f73e715eca2e229ea21b7c571c235e1c5af53ebbff53ff0ccf04e77d28ddeb155f85f3648f2e87c8c5d452de5028; P0 0xd943362742b87ce6c629b52542c3490181ce7137fdae500afa81af79d1746aeea430004170d7dd3d80c592dc089b29e6165d745da78ba2b4cd79607c32f9b4251a 0x9a5d273f95247038a3828d8bf9e0f00f1ef0e78a617eb25f44076c234b44e71b21b18473749aab0a93fe5a5a1e7fbdef7b12e3cc0fe45c9eb86a45fadbb82d2b5a; P1 0x8b9e4fad0e79f4164a55b300c9c5188e9792acd7627bbf153c510856261f26fb7c12c6fa6c1cc482e96eecc92e5a79a1f438f0c9fc110f6b770af82fe28162830e 0x7a6c7e1bdfaf803b871fe79771544f6a2fa8df8d26328e784fb9627f1e4b105b8e53c6c787c5b3df7dc8f5267665a7fb5a8dfc66dd70cd593d4de2eeb3705495fa; P1 0x57d16143d2433049f592f06ae74bb89793a2b2cbca128c9a0a622bdb1c4e9713849274988d07d0e2445bfae0c24517eeb7385240dabbe5622c6dc1f95f2f8ed9e4 0x14b8b4f14eb025f0ff1257aa561093586f544c52aaf246b3109fb5adda94e05277fb9afd2cd368dcc8e35c10ae171c04eaf2602f5016bbd5836ad4c11bbbb55c250; P1 0x284124f76994be1bb39864097d286c0cf34e272d7334138c64d0053c6fa05a384ea434b6fc4ea9bcd164057960e8b777e449babd130663c514ad1cd30d64d10f004 0xbebb08767fc2c31e2f19c6ac1e5d7569fe077fd8ce9e722a36f7f1fef8d18dcdb51dc1dbd23f045b0193467c0a19af9f7abf63fdf0899612d324d9e748c2e8fb04; P0 0x470d149aa185af8007c1d38c82f37a7276e48f4dbc616ceb74b17f1ce6c9080a693e1b6d6bd5e1fc4028ca37ea325faf7d7b6a4a5268dee44673a71e4fb2b5c203 0x187ecb3e7d430ba77896936706ad988e048b6a138d4394f35659ee4f737af32063f877f69eeac8856b3b1b8c5c2a6ce8ff8e0681f634a0996dfcce37909b0169a13; P1 0x384075c9f8a0f242c9215bf6afdd9ffe8942912d399e7af0e73a48b60b22afdd7e149342e4ba4d8d46b20476e58535eb8d73b3ec72249193aa00fe2897e6e5ae121 0x817044162c399e9259b204ed5992725964201c4ab499d615ff7c26950b35f590564753cc172b8b69597f60ca99fe028cd95dc311fd7c0cb1524a0c2d0b5657795c; P1 0x622b80c6fd1ed476ba5b2185b71787abf222ce4c2d2d031ea6b24444a0085710b1801ed6bc10011eeaed44eee9457cfb7f5f91f2b56c73407b53fdb8d8938a8867 0x1b4edfc12d7d7c35f834a890d9ae43cc05c7ca70f1705d9a3f4edb0e529f0dca65919ce4a764a05e16fda80deddc5dfde3613b975602c9b1af2e1c6b4d925bad397; P1 0x45e993fcb537789f96689ee283bbcfb283b0daba2976cfad91dfabf940878ef29acfc3b3fa6b2951083e73c26b26942fb8bd87f1c4aae94a1e6aed411b43bbd30f7 0x198de723f8ecf8c0483c083eac5e38e5f222e44a12e7b79f798ad25f5833ffa0379d4ebb3314b4922edf4557cd076e36e3ea62bbbf8c5ab50e60313d833a0a7fa2a; P1 0x3d388b42f68a4dddc8577fc4f455d393471174ba9254db6c5ddde2ce8375cce870e17522d1acd5b4e208401981a80bcd57842f04550f65c6799de2503dbee3f516b 0x2552d060545931e12c42ba76fc9411131ea064a74db139051226017549a325b7db0e689382e9e6c3f524d5c0ab47fcaed47b369111894e88f4d28dded674057e17; P0 0x2b88582ffda3f6fad64cea17bcf2c9e4f5b7cb98ed83f99cf609a9cd95caec18029c2b5a79d505d152a038d2f924b19cc792fd61653cf3acb9e88aa3d0f64347c 0x189c759b984e0b1cbcca87e4c041d9e09ab2f3bb19ea99eaa9b2e69a8d842739a6d00f0d699b11bdc57780c6544bd21261781b2ebbbd8d17c6df45257141264da8d; P0 0x12edad65c1bec7e06d94755933eac0b2d46083679cb5485c44ee8692c08f832b0111abbe3ce3af21324b0ab7946625574dd72e68edc9d7846c0fd2c05234c92717b 0x19befe0cb5cfc433b6fb6c318afafff52b623e36747fa7411bc9f85ae838fd050763f9a002076f1f5381428accf8e9c751b4b0799b8eed7aa1f352057a2994ee324; P0 0x14b6e0e493ed7119638982d2dda399dae909a1d0f41bf31ac8beb1a32d78c8e667aff1534a4e21302dd35ce6b5e5033bb0a7fe23767bc1b2d9e3e0fe0ba4908261b 0xd13e7c5120b48b44ead74e83b37379c8b5f08ae5d4579522e81dba030a50a8c154d35ce6ff904ac80f4a0f03a1d68e52a9162d895d737ae995f119361a8481032b; P1 0x1008aa15b6099fe5de744c09f73c116ec53bafd4aec4023f727f6044505ffc54514092888274d1b5faf2c79333345f5b941ed545cac6a8658d33180b1818c0c50a5 0xed09df4f201b44a176a12603bfd625b8ec7f33a56a98c546307281cdd8dec568d0011e5957d13f4aca15fe5e80071c748bfbb721153f982e6ac312f08f282c6c50; P1 0x14938ebc6f3b48a132f23ce293ee536ae4b168da989566e65f0461ce4c57a35d8f64642845b93656f740ae14feb9a1ae0ebcc9c16f4df671e45f49b553aa3877d5e 0x1f4f466462a039e5f93713f1c813b62fca61c7da4e97c078ece4bfc0e6254c348cbafe58982f49d24444cf9583329268b5a49098b1ef7b0a0ecdf6a1605df82485e; P1 0x5be71653fcc175161b1d3164679f46e3b79adcc27caea664e5a17e2e44c729dcd78a27bc04ec148d320440181996d00aabafb347eabfa04f5a375dc9ac838ddbea8 0x1fcf2efe833717232a6350006b5eb1672f3184d5938b45eb29576c345fb8563cba4a09d5578a41ecc11a4b823b9c538c90360d59ec0f03afb21336642f040a4c634; P1 0x5edbf9601fffe539009decc55a1ffc65ddcbf9af5229a381eca2e29fe8d2fbbfd3b2fb9789a62177c44669b6b0a344751d3ef439d4ef97ca2c218fcf982542232ab 0x108a033648d4f27e05d752e57aef3c221198c099a7852e12a163634e265ae43904ff13dfbf089fc613f794d4592f80a0b605a5daadba5bd9e38c7b8b57bf85fa25b; P1 0x19a50355f812fab7b426a0578e62336adf7fd67dd3fa6532754df5214715f6a489a6550b32aa0e83ebd8bc450b33571de5bcd25907c2d3174ddd31953b54745ab65 0x59ebc5b59da2ce1581abda230c905f4fc3af276ac48595463d417903431f11749df270aa781c6d7a386990ab04745c9f5ed4d8ddcbc6104bb5f2e5b2e9eac99070; P1 0x2f60aceb499972793f28c137d7fc0face1159e9d579f5f77e4169e96936f7a2de7b7ef6697fce8bb2543c9f3dab0291a43654f917be90b4f8404cbee0487a60b45 0x1b370de42bcf6b1b4b41d97f9947f57ea9843639823720cf16f3a79a0a836653eba54f21ef4716867b9f87bc80f80f90f7eb90dbc55a04ab06d133941e72bc09e45; P1 0x456fd27a70e514d5e29adb5002a9c66ba72b206b025b2d9657e72141007578a5a8877b2f40f8ef0571e510194b3e29e1900b28c35e9e58e133ce782e32afa2c529e 0xce9f800efe88d274b9dc5dd26f9e6bdb13863f60c52f62ea570ede9658fbe36c5406b1131155bf4a8c3dfe4a1aea62ae2f7e2455c5a760e0387a15b507e0380e69; P1 0xfa27a034ae7d101c65eb9829bc392e356e96fb952a8fe5930f1f2c1b9a57b1e809d7b7b167d13d6b2f6cf9e354422f2c00e684d05c632a722fdc5e8a4497e044d6 0x97d07aed8227c3a19b945918870b5bf86e775a84db06c4d114c6ef8fe2f0bbf7ee761b531e0c865fa741a640a9999dd24d198978567db1aab31386c5f8c41f3a09; P1 0x870b683242c878b60b9cbad2bf4449b5c351b5f8af15afa0a483d71449a2fd6117f9afecfdc39e8a67a7b45cab4cdb27fd5c49fab2d78e97e45fbe91b3114cd9eb 0xc156ba591d7788feb68d8164d470913ed6f2d3172d2a28984d7cc9953f3e3ba478743cab36bf9387dcbb87642fb5a9bc361e98ee7f810a364e8c38f209bb4f16de; P1 0xdb05d38a26ed7a12f4f38d1bd2ee8690cff8e78d02e892679c476f1af54ac9ae1c964aed9bffca8a7d7caa28d11e11e0a80305d7a6edc115075f3d5d9a284e8403 0x129a0653925223599f89a665e3e2a4819c73f644a36b9ed7d8096dcc885b0cf235f2faafb944645d868618fbb7d2b5c29be51112a4d346936862543f4817b3d8f; P1 0x20708570beb6ce6c93852eafaf05750f8ad7057d8f712a3729e637fb93e9a7659a65a84dc9bee0146d4a0911af79e186307051b3b8ffa423e417c9d0e3fda23 0x11565f4575a068c3864d84123f531eb72da7b9a6171ce0e532947e37b5e4f1bb73e01bda740f1fbd7ce18b9628e1b0c1ae4ff49a0f5881cd35b802e62800ae63bc6; P1 0x1c2e0b10f9e70c10b37347565c6c14020eecb674fd5f95719f597f08145622c884092a2588ce9773cee45636f37490743c3ef4c6f2d8b82e29ab825656503fbd6b1 0x27edd7b100d2cb672b58f63c330b529b7afd9c38e9988c7f0573c8f72e33d5333898d5629141db83d3e21987381b839b84d39dbb747c88d79aaeffe295cd326e1d; P0 0x31d2a5880db450520b04d64fc40bcb273fc602ed31e0d2f29b9833bc98ff50edb1ac7049d522e6db4e5f7bbab8844487f4e5f0468b928b31978494f53c2eede03 0x118c2c60364de774446e2f67208b6f7dcfce5ef3b81d73b8290588aa605dc9b57d44f34ff8c66f64f0ad878e363f1acfa1a7e8b1fa037861219cda87f5f679fcd4c; P1 0x1cddff804346f2938a5fe54442fb2a4ed5aa2c0c714452f7bce13e2ced1c9de82ad9bc70b8f436aa9df465365ba6602f4ef1a16b6175e7115efc406c7742db201ce 0x14d6f2b53166f60d9aed7af351825491275e1a8827c40f4f796fe944139d39a59696b307df6ffcd7df9f777f46f3be5db1e976bfdece508a72f28000b87a0d26d7e; P1 0x28b6f9a7b22a05893e989ffc4a98f188a6c1c77d3d3512e7b9c677aec2ee3361d0852942983ef8b828229d7267700309dd0d3d3becd89785c5511b6e34b10a50ef3 0x85b6821543792ccdbad27966d11a940baee237db7e78dcfac270c08de586057a11a5096f7ed5f79ae93c293f083765c9f41183ac8a45c83ace7ad6f177054aacff; P1 0x68c2b7eaf8aa2cb704b6eb92671b20616b469fc54040954c22e5090ec3beac57f05c774436757c8bcc72745d2a313cde65a98a4e0e2f499e5c0e3a03442943eb73 0x3808c67d98a4726a47676bf72cbaff0a4fdcd94e4d97e2ccb39ba3b4b42c7b75064fd70fa81cfdf6a28ce1b470cc1a51d0e0b3b652a3ab80a270f8de19743edd76; P1 0x1265c2b5eecc031babb64e2a65af4669d85d1cb1d3edd2d1f4d1e934369b4594a8d80e1190a08e4042b9d48b08ca9b55a6516af79cc954339d1cad7b704639b474 0x97df045fba07b4c7274000db04ec71c400eeceb9abc80793feff636eb311aebc63fbde0201ca936aa326a5705f4b42e21fcd7be97267c3ad0ee084efd24708ba0; P0 0x2d0c6cb8c6272925dce8bd3ce33f66db69bcd2add93ea42df90339f33f61b0bcfed89bb56491943f4972c166284ae02382e62bc49c3647632e2f0558b7dfdd19 0x338be8af7f8c67c53b4fe49e4d574fbf7a038a1e25c41b89bf810fcb5918555a5862b876c4ac588da4446ce372970e7de830579c014d50728f08e8585830070119; P0 0x5308596377281a7b1b41a7c4b7a5a8c5081304ecbc25ed80547bfe2976c048c11e006278c7d444ca5402f5d2911abb525962d5da85049cd6193501c339e1b7c5c 0xa126dbf7617bc84ccf6d0e7145fad1a46681a0432da41475b827be20da6fc0f76f2bb8a67750f34256a3525572c5a09710c522a895b00b8778ff34adfe0d7ab0cd; P1 0x982ad9dccc97bbcaad9595f1dfc90208b28a987c766c0386e7f88654025bf9d605f414407a03090f48af666108b13fb5422fb2ede9a28b85919dd7df3bdf89581e 0x1ba5383259b2b4166f87c3db63e2c461a90e170965b972b53b64c0878fd6ddd2e40c31da37257815f46e9803d49ac744cda04b24650c0d329560314abe54e04e499; P0 0x17e223e0e14b1bf1c3c27ec1f04117694f80d85abbfa59add8ffae7ef2bb19d2389bb808e8f0b86486d52455cf613d64acd845dd712487d3822fe700e01be48b629 0xfd092eeca2a0da3b0f94591b1aa9e640ae621cc360309d0fbf8b9ca39ab95406d50a22a9cfd4fe22f76a72106e3de0b31da336c469484a42ad82446920eb31999a; P0 0x7d0d938a0757a1eb11a0f02811dccb7d63f822e3504b91ac22f206fa9c69b631af07797647054b73444fab0ee9c072a4bc7e56fb21b9972b4757d84d0abbe9d379 0x1fe7e34eb34d6f24a137a3c43fddb90bab847924d436f522ccd4c31e5452e5b6a2bba95be0a6c608708fb5fb334b16d8cc02d7b475a0e6384efae232127a107441d; P0 0x1fcfd8c88a4806b43833e93a1db2eabed386b41bf46ed21bfdb1c51c7395e720a3abd90037c81344de8764ff9da180ef6b5700eee9c99f40898d51dfc2661dffd42 0x19a56947942bc4a84c233f1b3551f612258f072f9d191dc90ecec69a3a761f46965d5106ece58201bbd73799755b56403192750cc04923844f9361c5adda795688b; P1 0x3da96294ac20495b3c335a815abccde4e8fc4937dc24837cf5b3a2135f73b9f012e1b1844ad6e2c45ebaa5ddaac7718a253a150d1d05192cc976c4267ccc1a21abe 0x12ce3077a06b3258b253a732aaa16c73271cdb7e850f8e7e5eea1e1ee16a3b4625192b1ad19ca39417739f58c56fdaad3b49ec5e5bfd6e14f656cffec8f651fcd29; P0 0xb0d2716e2129d41d717fa5ae7b13b961204d6ebea634d54bd0b5fa9b381cde17240ad367a24d6c3cf1f99c7f54381366e07750c0d2a89fc4152d258b8cb12359f1 0x2816dd7a07e6fe0eba5b5184935c37f48a61f2198c722af2f8a5aab4e9cff43f54506aa78a0a2c5afd3f4872403137266f546543e95ffff1a9409073305f7c0a82; P0 0x32393a07986bb744fe94ba483b3e9a8c7bc4b9aab0a009ffeb6772e2809b8be39056344c8e80fc1f28d04cbb79eb0b1df9aed3201a29ac7f9cac2228ea1a92e16 0x1589e692eb6ccc2fffbfd57eca0ba6f4fa18bbdec1c5e542632de9d68c35273b63860176937d4a1ecb92aa2c90a3e8816239bea5c4ea5235b5800942b354c07981a; P0 0xe7f50e59c613a5a56aa3e1621802fa6b52370dcafdc283d8e1143a67ad91cdea00c714b0105450e764c33cbf1927466e8dfd8d366dda627e455246b3221ef288b9 0x13646b059c3031203d573219799a7373186ebc8936ba2da3e1128bc89c697e21bee82c9f36e827046ab0648e2615f5e27bb943318de9dc467904f28ec6f3abd6b5d; P0 0xbc07a34f276ed076444084fac1e7dfdfc28444c108dc6667e35af845c698e5d390f51b299ee25c0181ecba33601d5764d92d2c3ddb5978820ca300c9e1e8861df4 0x995dae68c11964916238ad559db5ee930d9c8aa4f97bc7956669e9892fbd25714451e1159f9a0a00fae390d18f0a96c5f76e05f1c1b6bea8c2d1c1bd55c0defdbd; P0 0x2df08e60b2df9c026a03e0159132e8841a8947145f838b4889089b1bcbbfbec140862ea555e67391b35962657561825934d0874118627f4bac9576cf349cf106df 0x91736c916b16165d951d7826c6464ee5fabe8007b13b79b06ad9ac3cf9785d22b7e00501be721cdc271fccdafaf634157ba76a7abdce4c942cae7d9f8f2c3c2468; P0 0x2951fa83ba0020119cd78f81de728b8d931b50e906a23b8339f01dc9f1d3bc2b530aa4eb51561f582bd32c92edf6c96597f0ffbac58557ca3b994c3b48586efdbf 0x49db2f6b573b5518c36a7ccea47eb3f2ca8c42fb86c5297d75ceb73f6ec2214864d66de4c6e25bfad861ac492989c41355456f118b1742ab39aeead21d2e5c67ff; P0 0xaa75e5ab117d68ac53157b5815de85025fd0a511c3a9015aae35d3df2b845d42c8b676b2f6ec472bc95f0b40597ae465bf8c588b35f755a6eb0aa009538af3aaf 0x19f171b6deb633cd0b2d1c63c7cfea7a0965f20b93d7590891766771ba541cdbd4b201f408f30179351ce801daa71d9bf3ee23971e55dd895ac96c94315c6366ab0; P0 0x15085f68228ee34ed6584b4fcc15ecca25aca9269789bcf0bd91324652b156a982d223ca52a52b40abe2d438b90a4fab4094ae94f7503e7fecf45a3099903499376 0x1206a7381629de9c3a52bacd8f07e5e44877e42a3e87d421d9cd9e8600e201eb09931db1a090d0754279e4de4042c2da2147aef8a828c45a963a840e31271ffcc76; P0 0xa277d8137c933c5e1967d983a6fb2bc567cf127fd1b9f53a1da67f31e3718c2e7be920f90934336d7f9b12b29695ea7843d2c3a0cababd4aa3cda6967e5412629d 0x18e7d437a45cecc7fd459e28ac22ee7686ebc778a77f89e6437b59de52baedf094a93544177699ed00f2e1fdc12bdc7551f7086f16a7267ada8c7fc6d2f7672a901; P1 0x3a26e98a8bc60a0230c71b8b230a7516b0ac3231a1d36b3cdfcaf9d550262604cace652c8d12419db8e86bdb471f9e36ad4acf7293554845a2e2a89e88b04538dcc 0xfce8b98dd7c5f96fdbde1a2924c35e85123c62880fd813db84f433a14f5aa636e0cbde9aec0fa830b027256503db946c132df49728142494920cea571ca5b683cf; P1 0x176c881502494bf89ca1b85b509e4b083007a67b4c99611333934336c69eac1ef3b35f3b95b6bba2684beac498066f35e8b874e958d2f2d2213daa57e45ed9b7520 0x1862b59f629018ca204300c7ea75af4f8551c4caa35cd803c986a3e01b5905bf6984f69d465c2695f2a2186e3e28e719626ea87fe47bc3bcff920426c377a2ff943; P1 0x37bfc2c2a0bdf5e5532c65954c607b1547f89e932839780d9a82bf00ca501288d4088b748a2776e83c107cd7178d7f15dbadfef4c1f99462f97533180eca781c9c3 0x4e322a3c6c5f13332b18e1f08768aed1768976e2e1b7d0a6dd1e0b719437699d64a2e3c65e7378bd31e3b0208b8258be73959a01b0dde5791bc693b0fea76a005e; P1 0x23d3e95a04ea39fd487d378e7013b37e6bf20003ed2076afe8284cccd43e3e351b3634cd53c415c94b302472eae3d5f1739352c09b7cf86f16061089b3c9952d6c 0x2319697a791348fd71a3fd7a7ea92b6a68c3f0cee1ef4dc4eb1618df147659fbc30de6e0e2bc5145a6a93635939bbca2b8894ea218e4fd5e02aeece2689f1d94f8; P0 0x267faaea13e4ed1800bdf49ab53412e46aec3e8d2729c9cedaf62e93aba6dda1d784558bc19783f0c45059ec2337025f9b276d1a4ab1ccac9f312f358b7fc0aaf 0x1f16f45e4e402746864b53f803784326088e1ad628f9481fa2ea41cf8ef8b8d689b09ab152e88f3327696e43bf9c32f52f037630f6b8497b767a2479f4fdedbbaef; P0 0x1e3489ee0367238d745e18aacfce36e2b23937c71999ee58d9c746d03e11ada1bb0f0fcff56659bcce46d71fc9712f2cfb0f47acbce244b68e60c6f1f4acfb42b9d 0x452888dde70a17e640527ead62274e1a65d40ba527f808bde0c80ad9f9a72b796d521adcf4b9692be4e4d6ce0ec5885db6f73bae2373cf8d7078d5359cb11e56be; P0 0x9577019568814ee83fad8bd9535f0de90e9e0b8857b94b7b3d397c5638523194611993c1d83d04748674174e61bf6b2b1a0376109454c600b277e601f50bceed7 0xd5165221fecc34ed73bce26bec965e5d8120a908c0c9d18771672e226f6458e8416916c4990b8a46d8257280fd9dc7fb52372f2a07ceaf01588719bb3a7ea923db; P0 0x58af134f6518b3755dc7ea4378857fef32d845ae9c2f65859f1b682a8ab20fc85dbe5369ca659877f91918ace82fb1917b2f4dcabc1a574384d3c756d5b6d62c51 0x1711f0b4b5716bb34c89824808515cea3fd91173ca753389eec40f4f60d6234e0e602231cde9c34b70093ad796e640c88385b0050ebc64343578c3e771da701c9aa; P1 0x31e57c37c64b546436723cc40ce125bf0fc25d172e8ac3fbb8a6d6488fbf80684bb2035121871e669662d66fa208e5130737e38d724dc56bd71d708c8657bab1b27 0x1934fdf400807ef3e5fe3a4e988f24eb578b55c098b5d1d90e4a480a847852e40feebe5c04d385b6f010323a78ca44e290de0ad756ad2f7307d7895fd4e763c49d3; P0 0x13db248e792bf4712f0b6589439b5dcdae6e1294764c3bddc2f71738925f5504afb8a8eaec0fea930ccfec6cc9539c43bd5e6ebac7aa6ffc78a4e23fb2fae58cd8b 0x8f518e5a33ca2dca088aa4ff7700506476f1f1d2f33bff7f9000695ad21d3cfe4ffff8b1b170f1366bb9e3c4e6f5f62cb8b5287efbc18b54bb7b05a804e28ad174; P0 0x281e1b82150c6b2ab76966c235c83951c3c35063e8c2f76eef49e9c6966eeaa60a1d9e51023e684fbd74ba0850ad30e75313a484a540e01f7d3ed6dc719d7cce26 0x12c8307d8a33858278c0226e335edced82a1075f43bd3c6f4156018d895a75b28e537c09432874bed031700d908a72aefbbf0d1dc105d42e714f5170d28e9eb6ab6; P1 0x211250c2f29c0ffcbbee11598a0f5b70d30b60204c9794265e3cad44b013e540e4144a81567d4499ef25d5c0412e59ddd7b3c787100d358a117cc710b688cdef411 0xe30f39ef976ca354995cfbae25f08dd2cd877e2f4b0a63ce071044d534c0efad2d0da15854deb2c12636a431ed2d6cda7d43a4f16fd84374f3eeffac3db4bca03d; P0 0x64b200d35edd7d06d1856d230ef23c30d14d07232d46363c5b3bd2e0e819ef8c28541806dd1e4c5cffd4392a69e71284c0576aac996aa5efa42304092ee7cbef74 0x68ba9e6aac33f08127c63e8d76ee3e943f2db7f084622db29542f23be774ea123733dfd94387af70f60a3f751fdc143310abcb12d9cc32ee7e15a2a926db03dfd; P0 0x156c1460a07a23f2cbdba6555f37bce3e55dcae60bdd3081e5dfbeb99d77e3a5af36faf72eb932b46b88da5601b3455a96e441b2bdc4175185a447c2d065b0ae 0x6d7dc8b87345cb6c9f42baca01a49ebb79e652657a4c5a81ac9629ea182149880d6cbccf380844f9ab16e89b0cc1cb1b53db50def42a622e88f5e58e758d483cb7; P1 0x463e88180d8017992cac6a83c59bc702854d8150582d473640600d8119afda5817d62aa707f43d291ffeee013dc076c299121417e6d55ef5dec74b9cdb8f08dfbe 0x13d4dab47f917f65963f85a802f68a53676514ecb61b724bbdca865b8beddf6050d40ca534e401d21b35b8d8433e1b1f775032b7cb22f6ebbab378f1c78f10bc031; P0 0xc4a4b8e05d6535c2da1072119c641148f9ba2ad8d4faf3d9e5aeecae155dcac61e039b637063d6da3ee7257fc58cac4b4c0323cc45797beedb9ef3b02daf8213fe 0x1173c1742b6f16b717b12c5e4085d5b3c7dd83876813f5a3d3b95fe9adb4c073a64d81028746f642858d81cb28b7008695b8969870a9bed4be4d3b7b68406019d5f; P1 0x1c8de0d357e378b6ce7f7d6d0312b586d29629459eb3d503ffb49b176cf706f70632be65e0eb74dfa96bfec0747c87d359676f8180584035c841de87cf5df854b06 0x1a266ef3db21f935530e7f68b7b4fb3d7d88b6673a0f8d6a1d78b0863876f5e4e631a2b42ec93d64e67b52cefcb8b742ab916113f1ff54d033a5e12d1070df846c9; P0 0x155ea27547f36a7e077d6d754ef14eb89ad5c778f83e901b21b4d802d7b92ec9655f6282436878435bf7aafc350285f67886d2c49084f68f712d5958a9da421cf62 0x12f95de0552d082ae0c31c9379604402f59335254bafb33f41fd08cccc156d60494066ef3a1743046fab241c2f1ea9550b067d0aef70268900d8dc4c39547245933; P0 0xb4020da666649be70c86a0e2600cf2e1e16791d7d24ce6b224a36135cc8ca665121af95bca5f2f94701426ee3cfe3b35483d4c4fd5c28998caeb875ea6c67ff0a0 0xcf7fcb4c17f5e184f02f8fbc01de6b17aa26cba02fd92fd2540ed31f8e15271eae592384459962e6b698049251290070273a7e470da863c350f39814a845ec70c9; P0 0x5417f54832d896a4771c081602042447b9e612153081d265c84ffa736b4e195e47884959b469c7f10038652bab75f07682fd219cc9e76bfc61c570578e39b0541c 0xabfbf325f31d1400284a922fab027ed2ceeef4c118e1b8948b705f5e812646831090727bb61f680ba0610d9b149c3e8aeb03cc4d5cd8b7506e152d168ab7f8d1ed; P0 0x39c54765b312527367b176aab28d12bbe3fa196638429832e16773311dbf99c26a76a57a5af23d72191dfa45163be742433591d7cc3d1afcde8949529cc9760cad 0x1aeddc05bf4842e646e10b2cd36f16fa1cc5879229c519cd39f2b50bec3012e4cf34bb6add7c68b317d152a0ec02798384df1c6b3f59be9273ed928101906cae216; P0 0x16a96d9254c5d23efc020ff565c603a989ff463eaeb2f9aecae9b9b69e53c89e1872f492379929c3d9139ba9a878cb55d71e6d12d4cad44141d01a021f08c6e784c 0x187f428a5035d38765a00edab1a15f4608609814808c8ff1a1950a56e4837d9c9141dee532bc69094832f1f2b7dd7df519b7da5183f6ed180c0a4912d9f26d15230; P0 0x12c0dde82c8a493cbd032bedd6fef04b2afc1e6a4701c5a06ef3cde387dc42ad42bae1b6878bf07db65d7297ed3a09068400e25d66f96209a3abf7e785b82cead81 0x2b19c5abef519c1bbd7747f887b6b6186481829981df9fc299ba644def12541ef71de70aa70daf8720aa392d2e6379bbdceedc78cd34d3633e2eaa3f890f917681; P0 0x3a0d57ffb4e1d178009e6d119627cc4605333dedb704486393894ee198524f5a5622964e20a45f099311e119991d72679718d6547d745daeb2b9dda60214b5719 0x11709406d26795e4136d500173f0c666d945d460cf4d55c14e966aa64eb4e34abb0a83488ae5a54d6bd09ad3a65099c024f03b54a4b576eba3a2de88cfcb448841a; P1 0x1c837c02542a002a1dd8be27832ad47915c4d0e5c602f7b084b9105040d4ab6320bb6561c6e467e4703b061c9b58c428427d419dbde828ebe2f234de4a8a5511b9f 0x4372abc76b2f9400fb14f9b527b464fe13e0a28cf08c7b26b27d7a93daee4e9f8a8ff61a673ae178360573e45775cca8ebc587d9c759348b11175199260db1938b; P0 0x8e29ca3e97d3130da6f68740c12707c00615a55671fbd8776fed47112d9fb3b7e9e7530fa8d9265612d69e5ad0874773f0c7f39b609d44e01082d48adb2db16ca 0xbe22fa48a180b098f419b6be015052abb0abac9bd2b58ec1b4a98b4496b061e3c7082a1c5da47a15836a3bf736cc0fe948518eb7fe6443ed5fb3f2c01b2c1a0443; P0 0x469bf8259fdbee2e451419d9c8ce4b0b265b9d10ed70eb8a4fdc74f704ec93d5997180738b5259486c3aff75abaf97129cd367a2f2195ab4d21c7c4e242862161d 0x9bbbd7a58ba8069d05c2b1cd2305a64895483121bac7b0fac846cef8a1e640cc797c53a20209e998cd8a44f2dc77070ef0f67b8d8156d474bb38a2a8620e103fa6; P1 0x8e1b8172d4ee78ac0a6685f1b85dbd1c2be9254cdf5d75e2b6bbc9a623948a6d179f00eb32f84636414068e3425c344d0b830f5a34398c399e0b89214f6a67dccb 0x1db1be6127306feb4c2fdba25dbbc4b7ae256c82c8ec8a857d75a8d7dda57c05b5016112c02274e317541fe96c1c1d007e432e8462a35a3c071e0124a91f0213bb7; P0 0x1b8e0456966c2b058bc094d903653ccd818ee8e526307229a2b576c8dc905aa23308f15e5a7fb3a6cc2fe622298eff62c98ac2d026164ef36a0524fd2adc30cf27d 0xf5f1dcca0d91a4ce2733470b1b5827215c7c434725c395934dc669a8a5ac40316a6926af466248eb4745a1aa44ed5af843c2d2fc4f035b0d60157598435628cf4e; P0 0x76246a8e18691c3b50803d6b07f1e8784e8f1d80e8d1f91b6b1ee7304b686780bc3878e8f115144abf05ebba45f2e4f760458caacdca4c29c69d9533d918b02d0c 0x6ed3357504e36e9b8cdc252dbddb7a69d25910309fdab89889628cf1d88ac2a0a109de5f47ac48526c8135e05fafab43f3fe2fed1157a90b9d9369c876f0ef68d0; P1 0x47f7484a9764c13677de304b0fd8dad75d679c33bdcc0b09253dbb45ca22027c76f7b02d71b5284fffb3fb1d6b5ee0317d17e66c541ea6709995b93f4ce7691e05 0x69321a98c89abc406b99df0516a4051dca2d10abe540339f9e484f16c1c31b057a0ef50242cc7fd17136eb95cc41eb4e40e69a56c9a63bb16d5f4b6bcd85461905; P1 0x40d7356f98810632f6eb8a9e03f8bc2153c6d7a66a0068287255c4d286f816654c6d5b49e6af382c7ed4490b625ad1b1da4e9685da677ac417eda698e3516169f6 0x1a8e13c23da379eb773274850b49ff6a02a47ae26cb8087ae650de53b2c012d7a1327b5530d39b2c8ee54b19e2514f9db471e50aa4a5b761d00fc21147bfaeb5841; P0 0x160956eb0c3ff536a11c45a9130162a41a53bd34cee6409a828d74a5f185dd7936a8c0c7bbb558edb9aac4006d9d73647d76dce91c4814683a4c90522039ddf150c 0x1bfda9fc1f8fdc9a7717b71a41124d0b419b562a1dd25d350fa1734bec4aa01c4db2426278c6207fe8c4e12bd5887441ac8f157c87fc4cadf515ba89933b7a1d58d; P0 0x187be9a4deeca6e5b68678e6ac922610dc94b796819628d0209894b7a3c39771a1c5e09f1e1d32f34a92f07581fe505d673c300cb95e286ca8498f686d912420282 0x1e2c8f5bb5abe04d406ad5cdb696ae6ac1d10af029af64113a52549807ae2958f3d492a0c460f9a4af88a8430157f482347464cf07b279c81eb3f7ceca4f5bff22b; P1 0x555b608a1937a33d5092b7147b67803a1a023543ce8757cb8ce5e4f682fbf14d8505d3141cc178fcf73fc92efd043712dfc71672cb6bceb827e0440ed144857cccb 0x190efd18413508f825f4da4fab784e8769e0ae2c0707b39272c1be7c270e1c362d5682c3496e266135ea1f0adac044d4c31141375b73c0ea4f0603c7ab0f615c676; P0 0x139f727b2ce385e486b0e419ffa94c159804aa94402f6b1ba332f64de6cb84c9a1971067b2df2f6ce8cfd9ee35cc4b2b8f12fb60d1e0d83a09f8510348ce535dd5b 0x1c66a73974ef5e246288350cd711bbd374c9dae89a2c62759ef1fee0d9303a02733853e6e23d0bac16c1103f102d6db976d413ef6a2d7d7c1cd18076a11d66c9bbf; P0 0x1934edf204cc76647b0c104477fe5bbb589a79f63bb8540863efc08081f379d31c0474d962f1ec843934c1b87b97075946ab5c44d420876e7a0eb685fd8b9cd1004 0xba2aece21f8c1c9020002dedca94656865c7a1e0858112f828f0a4df7828775b413cd8af93930e544f3b085ba2a5ccc4980d414101f331337b5edafdadd5b5e885; P0 0x43b133b5959dd2b06cdd13efccfc426f1244217298ba25998eedc7ac80759e541492674554fb4de95465ab7ac409932c08b10ae151b0d42f18111e6e00250bb21a 0x1d732161a6bee41f25bfa51894e3d94e7030bdc8729b6900f4357abbf6db0ca6fa7b459b173a3f28d67da62bdb5c5c6a484fcfff93db9933bebd77dc9f2164f0733; P0 0x1b1a4ab90eeb0b6814f2d8ddc0a7448871bfbc54b263fa303fbcf081789959bb3ef43bf419f83d645be6cf0299aa79591eba72086125f14fee5802cdd2124242736 0x3763e453d26818d392628be23e3f608ee2af62f20d1697647cdc312e4b7e522ce91ea3275e233e8aaf76fca255988561d3e613e14b33404bc27aa43d2f59d1fb5f; P1 0x11fa1ca19d54521e77ca35fcbae911efeb00e5ee230faace2504d3ded1fe3399a238a327d9cec45178f8e473e335f6cf4136f30ae9935fa5c6952dea1b6db9256c 0xf4549cb92629f97034d11cdbb16d739be575da93d05607dc236d8c54ed91b7887b495fb1607696eff840aaf6235633f2cfe0ede59671340e4cf391a9cecf8d6d2f; P1 0x15dca1a143f4cd92f63038e941eb2822b95c9d96b0676fb27ad19ac1927e656db2c61695e10e98e86d8436c18a2c6739878a0b971516c13507ac7d1129a4972b07c 0x14c38eb564972a55c86645b8871043f237742942be1a0c7778c92a05fdd791b1e572e8397c8fa9365e08db498ed733662e5a526f65253ea29fbc1a871a0ac77dc5f; P0 0xd791d787ce4c837f1f6053ef7915e48675222e78526f147833ce78a36699a0be1f68183caffbf05622930f66b464124eb04182203810907d0ee5a3a1cf8e66ef16 0x1796b495fb4c9a4b09fb5f7810e3b8ff491dcdb1c729e36030cb8482ac66b0c15a47e21c41be054b13567f20a05b45275ee2cca9792b93b620b3ae43ecdd46c5a57; P0 0x11636958926c1604147a64cd7dcf40afc3dff088fa19bfbbf5811cf428592a12fb7a69b4d6fea090c62c42b588081422e4729c371b4bb2b31bb45d9deaaf788ec56 0x1e824c2822af46fd239a09c3eb06376ebb3d729e1420568a889ceda2233279dcb5aee8d538905d481de97b666c99b283d050e5cd7bc860b6387fe60557d68d235e7; P0 0x1d166156bc614c52d87e2ebe59d4486341f44b3754cfaa5c4af53983727430852627ad89cf986cae9327f64842e92b55cb92184348d45ad395d6b2e7a3c7bf9e351 0xc3e8c780cefcd1fc38016dfe2e9386c9f79159205ee8f98f1d8596e25ffbe5d593ab6ad050080b0c00e12f8f0c142b45c199d4eb8ff58902a95c6dfc3aa64f59c2; P1 0xe0e2ad64a868bf1f4da97a9c398a09a748846312f2104dfbe2124dc986278c6ef7dec86185d6c12c2dd2aced0d78c52ec085baaaa7ece9a838559ed1be80cf1644 0xa72e0c11c092cac3855eca4f0b1c08e31f94dffde7df7c82f11661e4e3d1ca9fd735b7f98f20db0fffb50f4daaca9d0f9f2df30c95252cd79f55ba876d86c7b50; P1 0xa3c3aa0b404b96df4c7511346d3072e57c0c0926d8c4d5720a204624c49696e1fc6ea93cac7067596bf0b4c606c26916f9dda5b0d03315ca59c7bf4f49733fec 0x14b6f185b67d5fccca0734552735e99cd29f8e7840eb40e8c239f924984fcd7734b40212de959b30d067a8039559c952ecef6f176bc92e047ce90dd82bd1e252aec; P1 0x283a4b5cbc02501183a04cf9e7b130395a40298cf7f1184bf1d20dae956163b4d6ab39a7fe3e4fe6079b29620a8f67a9f23915781cfafa4a70f2ca6e063e3c2fdcf 0x4eefbfd8790d32b2747eda922dab2054453686bf63bcc3f7d32ae26a414a64e4c6604f2dc1d56337c644b40e1f30992c0ed3d6892f39220ad9d120442a2201da7f; P1 0x24827627879833d3660a3572ece9b02e6b09241c118e02b93ef4c8a54792583403160de43fa62ca385d9473f49a8cc54349cda228ac8929fea753e5b2b87b3b4d0 0x129ffeb43f37b0f4165c936dc4badf6d2d3b556c13178d99ca3d4edecb65154ed0f3708f5465b821e361199dd58fa641316bf0bd82bad0b7682ea1952570a2355d3; P0 0xad71e7dd1a4435cdb53a47af7ac00ed5a1f1eac30d854cf29134d8f4e579beca3beb7b178faa4801d8bd744e8c209388760f55a1fd1327582b2d7b03095007ebf9 0xdae72c426a7c7cbe409b94a2aab377987d902bc97f4f24e906831e03a96d68937c78b909133a2138fc1de4c00ef0cf0865f90b52aece4f7a5a34174c08607fb7e2; P0 0x5d974411026f8b79825f4f085b1947f451704b924538cc905d6df68dcb0c4acee05befc2f8e1431c00a0ab48e6e1cb9fe1a452628fd6191a67608752961a28d4d3 0x570a80235350e83793366d3be9d48214adfe04b4fec0b8c62f973010a06e952b104015aa518bc69acebc6a5b129c5a0e475d15276ac7f000883cad0a579079b857; P0 0xecc11c322c36c2c5aed9086f748487b8294c238345b64911a1255bfdda343cf557ed9ad6dac67cf892704f8115649128f55c5086a1bb60ff63a931ede5d998e58 0x97950382825b4c4fbc7246b68b0f0307f5a14ce8127256fe955680e17f8c8caa7b76f5df5da0d6ebd365809ff786b34c49920ae22088a7348f2ed45f420494bbe9; P0 0x2ce0907085dfe1f1d80232f4068a93beef4bd417580997b6b0032c871ecf8cec18d66e0a9c15dffcec40236fe7842a3c6f6165372fd96619d71622f05fee000eae 0xf25196fc6eb607934599d2426d096cfb246bebd7b36ec6eb52d0e3e1d958891300ef54d59fcd56f1b3d48309624f6b5b43a215d72bc053ca70cc47becd055648bf; P0 0x72af2dbb130d801558f4a627a16d933f7aa43c304750fae5e82d55f27b1aea77cf154b353ce576e55eaa8f07c1e5c13723481aa4e40728a0657910f78be33c5818 0xbbb13ca46684a4985734720daef609d02e4775f3454a47298634107de91cd8cc30c336b6b558086f1a78d1157cbcede9fb8875b622adbf256fdb4b795e4e3c5699; P0 0x44ce34a68bbc82c1ed1bbc8cc8cd98bb4c7c59e51309851c42b4ec443feff33ed721989601406796ae5c67108c26db37c4185dd654e950b0353efaacf9dbb6a032 0x128b5352ca921f0e08f19bbd8390f76cd9820029eb3d8f6abf225a493798988d18c92e8d8d891bc5e6efe80bbcd3ad2402aac396859e5a15f1a58b5ba53ccb9c7a3; P1 0x203d550d944f9c344ce6936a2f0b6dabd8601357a73d556148c6af2ec1378b2e7b6742bfc4ed39071159b3beeb110f1cdbed011f746783fda6c495c87c648d5727f 0x1acf1534aa4e0d0da5377848b34b25ea70072ff086cf58053765c7f92016ea7448f12355f2d61ae7f26ae1cd1e5db91fa7066cfcc02e79fba626db14dd610a3e7da; P0 0x1675be8ffc279d32862dff5cb555f9ee4c4dae600935814a00e3255010903be46005706db1a49447c79d50292aa3696b052b0375921cc4e3a2ba7abcb5242217278 0x131c6ad504036571614d754a1d6a2e9b529bfd1086397d1c267fa64a2b9fb6901fed45bc81e0ee248c7da56ebfdf7fca8b7a8a1ffb72759942c53b575b693b8981c; P1 0x223d884bea9b78f4473623ab2c02a770a25d934210c4ccf2fc978e99eb6e59e8ac8454550287fe17c0347efefdacb4968392fb48c3d8070102138aa457ca9aaf5f2 0x19d41fd257d16a1e686b805c8117edd9d2c70a27419f44de36a6fe3de83e3ab046af12a4f3b255802c430d70f8fee00b540bf9f5ff9331afdb447b0704e298ebf22; P0 0x14d8efde6be7bd54e13b4dd903f1efd19d61b685976c367fbf9062f8bd711d8c2948524eaf89a3721619fb3aa5f4810db20cb99bc7193945cf73ef4ac1cccfbc2eb 0x16af10f8637349be00a58bec6d1bd9e1b7d47f4d07089c32be08086fecb0d9d72b7f12dedad8da4cc05e4e6b62e06024cc953fbddb080cd274d2aadeda64967836f; P0 0x101475172e7e2dd5c8d2ac6165692cac0dd5e3cedfc235eb92b48d74ad5d5e1aa31644f731cc3b713fcd925797bef65e1f91bfa3a386e0932c5b6a9653011c03b7a 0x13ae540bd4d43e5ee45337a461ee12a1c95f7d07785396771ea3bfb6160f1cdccce53d52c865db76accc4affe85e12a005710c6d49b3f929280b75591f4668d059b; P1 0x24502c82be6e0fd347ddef73246d1d0c90085da8a1b7185c647d92ba183ea889326b7dad9b30155b84a4e2d5a6be75a3bf2fbf12c5c06ec5edf32fdb77dc1a419ac 0x13a54b93e23272a63633470fd8820a4ed3db459619470b42eaa2aba2e5b7aaaee15b7cdf3675bd6dfb56694d8c46edbf1c509295c3747f10b595e8a9259d43c5d37; P1 0x242edebb1c795055ceb787d0c972ddb5b41af6878d517a9e4994dd9b631de98d1dd88f7bf0b50e87c42b941d8567f52023914576b77423b674fc1c02822abae3c59 0x1a457879fbc92ebc4094bface3cf72a31e4266cd531d7a25f2fc77939b047a2a6eef29deb0439edf915979cc991b7c5197c7a1807fdcff73772c062e6b96ed941cc; P1 0x40b46fc6a65c52d0959ba0dc6da44cfbb45f9cc751ba15d0b8665db4c32f7a17d2adc87216a2b1f489a0fd261c3e64d0a84e6453d50870217ff71ccffae1ad4e9ca 0x5578187faa8631b8aad7149db84b84f3b520215a1b78c0f913a15f7379f836a33b941c483de6a45bb684bbaacfff70ffb6b2c39d2235d84ca7eb0e40f9e118997a; P1 0x2acd74e9a1e7bfb28ff22c72df1580ed5e5b8889f5034458be7204ae3b52cfca4a90998368a1d3748930c8626393ab34ee8532de74ffa820c166c8ca15e4336ae3 0x298be965aaf1cba477ce243ff9d5ccb21ea50c05bf521a3881b89e17cba6f1c7162bb2a006156001cd072e19c0e697bb7318c1221c2e332f05945c3882a8dc954f; P1 0xa1d2bd6c6ecf70772ea5740ae5fac6749bf2a8ebdf3d8cc87f9d1d0a71b4bd007a575c558a79270622a6e5dd4a24b22f06c477b525f6d487b1c4de82d51328b33 0x1c5c6f3bf932f2d0327326d3fd59883680a8408a65cc3f2fafa5994c475f5fe3295e1b9421689f8698ca965c9561ae8d6e83c98e8d0031354fa68db4afb45c9b656; P0 0x1922cdaa0f9a8f187a708bb1327b463c36ac4106494e317ad9158f02156a03a47c740760d66b7859bf9035d4d48259895f0c353f96ba8156a6008ba2b17ac42c604 0xe68589681048bf0b21f948534b0ae68dda70126d33f55fdfb8eea011f0b3873e9c9b2cd819264b999c077f0bca1b1b8bb0811d7cb8f30d809669d9caf5dd2d2ae8; P1 0x1375e54d693b645e668d95068f6a10a0f2669b221473b4b852636d612059148e215b647618a049c6ba35cbaefdb30a7d4dad93945b5bbbee7c0b6349de2fa6ff219 0x114ebc4aed8606c7c2767a6afc853a10b855582012919b9998a4dd4a6b18e57e08bc6cdae0f429d9d245fd4a124fcec4252acd57591616c9234fbe86a3900b2c8d9; P1 0x1c153d5d98c040c8a117a6c51969afc7747ea758a006dddf85ed252613eb00b5b0a08e366c0d9204573a84587444d24f449d84ea700c7b17e5317a37349cd552273 0xd3ce44b7ae3c2311d15fd1a8cf20335ff3c0eb994d5433d067aa488062c85714ef386978efbf722d799ac4fdfdcf8b99d99c37bd62946e244bdf6857c38f5c7a46; P0 0x579ed5bcb9a2d179298129294ea11026c1c698db4c823c490815ad7903e8dea5b09ac1d5006f9fc2e8ef668a2ed852789fdb0a0fd4a5c125e35906c02df1e2e191 0x4d5ef92b47059fc01d2f3404afad15e0a27aaa1bbb9402cc8a5b430bd383bb6a83a0c4ae7fc92d0b4c3dece0b88429c1ed91128a9ccd3a93e5382d0cd44299acb5; P0 0xbb1228ffb8360da617fab006bc6a05afce4f24afe8fe03eae97ef59403caa439406322d03c2de1cfa0484f101945576ca148bd70dac9b4b556edb4643cfd3e0b7 0x1c23b3decdceda004a7010ab3c2ce7cc688c132ca3c48f29d3e794f9413f4d5e130337c2dfd574ab19eb20cbf045490bc634dfe39a7d44d60fa1e87e35908b198b0; P1 0x4a3be7d1f7c49f4ce2876c1ce7aa1ecea2fb9dd0f05fa984524d17d4f0714cb0736fdaef2dcbe69083986647dbe01a40f5f56a2f584270d5ea15940257e0c3a241f 0x1295517095ea5a5aea01f524127776d5be5d8c99f69f73ed0880d2a7c37bb70364f128192cf78d57ea2d76af22ae71cd356940aab0e0c5b745037cfc2dc878e8f1f; P1 0x20601d19a11dbd5ad25dc2657e19e2d8c992f18db20fb339ae1a5c814affd404eed72ccdcabf0617e6be07a938b4bd6c0aea5919b98ef34eb0162dedadb54564deb 0x1155a3e47f15e52b5d13438cd885577a8c97a533ef149f3c7b394ba055d98300669bf05aa5dfb2c45338f00f2b527ac71bed185bf230d5bed89b66ec5b4ad8d3f2e; P0 0x963e354bc50961388a4364279e1568c50870ed67d70ebc35b02d44c43b339f7106655defeca826576ad187e874713247761436cf027d9c38f0552c3cc42a039aab 0x5cc82890b8237336e97981244b757a52cbc9fdd82f734ccd7d3ec0c48f90c0f2a9abaa078ca659a49b7a98c6e401b484bdd59e4a30c3329203f03a16c6fe4746ef; P1 0x3270b67b235a1c555cead5e836b9c77255442210797c80b230cd84ef5ee7ac359ba3516b0469a84f13bb4a58d1ab2a6b809cd90fb9cfdd0d1c4b40b16c5c346f63 0x14bcd6534347bf225c8aae1dc371195322967eb648f371acdb7e03581d8b84e397c4695b6c1016b484f6a865db0422ab98590bc8e155894e0f6d131a8586ce128c6; P0 0xd70664401eab675f57ce05e7bdcd71e80cfc3038cca92133180418f625e5cb1127af952de5244b1045df023baf7618637dafdc2955677c68986b778da74d5a0c6f 0x128ef0a0eb7bde1c19c3c665395db9b601b47a21072616d050fddd3619490ef0c35f1385d571d97c65ab2133c38361cbe4d06ed992e36d6c557e1e236370fe48593; P1 0x2049e79b0b92b00b60ca15a9620527c1c6dfad3fa086196281761c02dcea3eb7687c89dd094583b75bdea1741b0669411aece34f19fbdbc86dc2115fefbd48b6591 0x121c8efcf0c2ec3006b157a7d6aeaaa94c61bbc52d9d5b2b97b886b729395f536648d370114f9ae156d199e5702d5b66c2409e80e90f3a6b9179251f56a1d299ccc; P1 0x1ec0af0bd947d4c517a1a8c58ce4defe7456066a8995d0f09f552425cb1f56d00f8c0dc2acbee49c98587027d835d084e71a9d5ac0c306543b12fd0d56c26b5c579 0x3e62ea6913c1c089057179d3398abeb71a23f2e34b9a177d1e050e48bc6d8d025e0cd943c06e40b1e092dabf920806b524bf176998fd6aea9c5acd25199ad98d29; P1 0x16ce17a4cefddb45caf9d830906750a273fa3b2e0a16961c21895b0e3f23082d1afd2e0b3dd9863cf82873cc0a8bcaca9693155a442d16b622ddaac9a5ba3603ce 0x13bc00cf342b5ebe5a9a4525d87553ba4e6f73603834c2b49952bda5c72f8077f7b954213b7f998e05b9afe3c2b18f704c8b39294269e55d309118a71cd8e3e9581; P1 0x2482b47eb1d93353ab341c8fe86ececca4432659d9c1027980c3a9cf648a9ee2f15204095d5d09ad9e57ef4a333a3dbe0cb98d06c6a7622b0c1cdec006b7786766a 0x749a29e951d7c09bd1a6359e464a08732131a658256dcdb39cd0ffed512bf82e9dc804953fff4acbc82cb682650327ec476e6bc26014f683d5deea6fb110e8b76d; P0 0x1a8e0968f2df477f1107cf894094b0e39ee4a078c8cd50cced866bf8cf447ad214009fe9d1d1ede9b97686dc0c4e16c12ca31f3f92121ea11d2526a9301db30ed5 0x758968f333746641bea2733770a9c730647ad014e7ecf9abb08daadcfde912c2132a448058219563c0dc839ada49fd5b0dfe4165976856f931b666be64b6b0133e; P1 0x50f25587b289f55a42887cd660133dbf5cc9dda3780509e84bf59ab1ed4dff62484bc0828d1938066ed5873a8742f5959c228c48a531e436db084e57765a12dcf8 0x35c2d7af7421d3806aade200efc06912cf88f14e6e1664d0dbd5f7dd0ff6991a8bd4042c7b23ae1402c2fc225b4b1bbcccbeffb98ae636e7774a00062a3629a604; P0 0x5a520cd20dd1914437e9c02b747d0844f33580385703f8f14cad3769b20b77a99b9449886f1da945ed3d493ec9729a94bd834e9172a5c5e34bdcaea05f61e06c4 0x1d6f6cb06f141ff4861c55bd49326492a511a32f8fb91e693d2d5bdb5b40ed74748cfee36ed67a30debdd65701b043943157ab149d64fd60366d2b32c263f0f36d4; P1 0x513a6af1c78570484e525ffe7cabb00e633e293ad76201fc64ea207dc152eb5157f74fce0ba7319d3428278063fb08befdc7630904667d0377adcf7efe8aefdfbf4 0x1847277f2048fa0e451db81fec46c0904fdf72a8c0166647edc9355b9129555373b989f0e2dd2f92602dd556a7f0a810eef000c4cc84f0524265b10de6420c05aa4; P1 0x37420c626fe5b7efe50075063ba6153a1ad04dd2867d2be8373f10893aad82db1058eb9330969a2e6cd9f96569ce6963c1f6a6b6cb8106ca0beaf688f73a9359cce 0xd055657329556801cf6e30e4c1967edc7bbcddd9852161873fb63526d9d5bdcc6e4857ba3f8bb2bcd88c5e2d31bd7222643be1f64d066bb4281bec4566eb7cc7fe; P0 0x54c570abd4ec2712c7e012de28fc06dfe0b0b5e6d2685daeaa5d7f335a6734a8ee583121e5f111e8ef9aab7c772199e8c4cfb31cc5a03b64dce115b0ac750a05c9 0x12ff20df9d17ee5df49daaf7f61c814cdd67acfdabd9f80c9b5bf136bf5013945f53ef57a8d82dcd1a9ae3d8df3b5057988bf286345850a38cef5424f132356e5cd; P0 0xb46f70f9e57ee590a14fcc7f722aebfb6ec4518db00c6bc0de75108285f69a7c02699d495c3d5d6660067726d0ce46a84867b75aea99db83178f982c61cf72f903 0x1fb814dac336d471786cec3fe045dd9f5e19ba2803be06985d321eaf0ab18ab351d028b71eb1c02b7fbe96d817da71401c314da75c7f43266ea54e7af2511775f2c; P0 0x1f70cb57bb967db3edbcea0301843c67d1ac77bd16ae1537f05cd2c377469e48b43ea8433ec954fae0a994cd91adb533b7be35be8bd4bf5cd8edabc16a762c9e63c 0x26207842d86a3f04820f06ba8d47d2806b7dadb3955647480ccc48c707c45de4e934e91511ea2416b181e4d57b97b586d025ed0d7f47666920bdf4d3acd91395cc; P1 0x8847bbb322e926b80d3bcab1a08ed788ab9e9a30efdcc55e88a5a3fd153808cd3e741d2bd00bc30e154b3c91bb0c9beb258cb3885a0fcc6e3ceb3d174f980c84c 0x1bb5dae1ceab6080229e1cefebc26d0bd9abed3e56466290197e5bc59873340720886d38d7c4f76ae4018213d7ee39d5815b9b92bc2712279123749282f3d4e17fc; P0 0x17feead7005dfed267835f4f8bd778c204c8703ed82be68c2957fa663531d7ab47a30494b6a0b119c0b66c0fa2c621e5b9c2e5eeffafaf3d043e0eac3f6c72eea92 0xed1730c68a18f405e51bd6ca8c7aaeda3ba9a380e90c80baf1d0b42ebf847057087962e3d35f2cdae3637825f9a4ad492591e3fe9a8122b86bcf7ca1bf7efe2aa2; P0 0x6dc9f934b455090903efa7a0be6a68baa20486d86300cac81c3cd9f14a783fa10f86620d84051a24a6f13ee1f6cb5c81573c565fea14deaace0f0a21bbcb05ce71 0xa227e6c3cc211c80e654bf580fd9358e67b43a5cc53cb81bf73b9cb75cfafc3e9478828c1b755f839b72cae14c8714d563b9be4c2ef8bbaa5fc7dcb1c7e3975cf5; P1 0x9a11c96be509c410e6d2e5ec15f88e08865ea63d484caed0b90c4313d4e23aedce463371c8d64b9a07a815ca201bb10e6760f58a53238061e432b9f9923c48d8bc 0x680dc7f8b0c686b77b50bbe3053f45d0c01e6dbbfcdef8a7cc0d6882f95b71092601a36e90dd16ca94852aff7f57042352d1884a00df3f11ccfe9b3f50169de027; P0 0x1525999bfd8beb05317dfba1770fa37f0a2b0faa27c74f97f3d8a950c2d23c578bcbb6736d782c6c089fccfd6a7189651f71de03414bc6bca65bfc8aa21120fe6c 0x1ccb45e3cf2afff24ece01c968bd7dbc4e193c15f48e212e86824a5a88603267dba46846a26ceac98547af104f64f846b9aa2c4b7e73be058f9083558e5793b445d; P0 0x19e8c58dfd8474a93b3913844bd77402529be858f22edac3fa6d67079f01c64f81b77157cb8ba95b1ac27bad6ae1b0a02269f422a0e3f809e61483f127e777e4b0d 0x638b97e10e699aabf00c5ae69fd022e69a590a4e0e183a5aadd8646d0ea96d1d85673355078aae673968a36121a61842ff82fa0b899a02032643326538f69dd4d6; P1 0x3a0fe5618679e5becbed016e019feff4e8b0b5191ff84d7317e71aa6bb30aa5b2ee11668788d586569475d6f3a360f23007c2b862c480550fa9ee9234587132a05 0x7034c29bf28ead4d9b8d95cf80a2c0443175b18b7e39981a5ef1ec7f72f3a882bf72fc92884d7bbd8bd650f2d0427e9d581b73bdb3f1acc2902b6633339d6092b1; P0 0x18971a940bc40e1d16724fc1696f675483847e94d5d5a46dd07091a197361fd93d2f5bd9852ac5978b55dde19a7e6eb973caa82686e8a047e45434c011d781976a 0x795d7c59ffb0080a7c5b9576735c9717fc2d1e6d45f45bb9d991029072e6ad3675a0cd31b9ff839fb7a17e5bacc263d21b54ef449ae1af085d3eed50f34a4ff5cb; P0 0x1cc4c0d854bfbe6b085e6b53da000f0dc314966d91d1c9ca5d89d8ee211070fa655a45c8b61a08940d4959f5ec7f61f2513cd6c64e20406b12fc51cc19c9a4af2c 0x13bc9a39db73529a64165261c65c8b2ab778c3091b8da75aef2329e1661d67727a5a71050d9fca79ef5586d6e8c1271dc933adc5288d34ef9548d2d9e8ec4ecde25; P1 0x2484ec334b2a51dabb60c319d122d83e1eac68644721a681d10f7108fb0e23145f52720c64fa24476670953b8a2a107467253d20796fd8583879021ae0002d59aa2 0x405a17731ac99e2265b555116869e5eb5ef808f27f50c40b2641f49c02bfa553a5011e4c0714fbe8ed65c4f8127fc50bfdfa1fd1d14de2e26a728eb31cf9ca2ead; P1 0x1843c12512b64b188a19032ec0816b067757b136d1149c73d329aaca3afbd451c914e9009b3d64f58e946a725608548644791c519e762604612d168200ff873b57 0xc46d1b49765f4d3abfde9ac503966bffe5c1a7479fcd382a8f461d4ab7233d00754f135fb56438f10ecf8113959c640ab21d250a8269d6798fc08bb8f7b21b1e12; P1 0xe212e06d1b15f731d3cf06cea2f7d6123c667ce86f57971a4c4b34977635aa2eb1cbbc3147bad00d7f90dbba7864479d7b4fc0238c93b363d5e9e0f1b1913fe7c4 0x1a6bd06e394abce7bd2783f5891f4865532a86057815b6a03772db57bf0fa88a369fc5e5fcfa4f7c2ed6c21fc266396ff2c34fe0ccd51807ae356ebcff6bb3c9390; P1 0x4171d9d6e378f1b943e2574daa645d6870991292e7dc9ef60e64c8a87637f33bd4735d4175c2a755f234309f25e7b7c7cb59bdf29e4aa6fe6fcf972a49a52b5d0bd 0x1840a7863d6f2ba3694a8ae376ad8cddcf3716f0e40f4ed6987547d9f9a1090e037d9703df8da000a0eb2e2a43424a3343e951b2687d1d4e9f90092b897f461e3bd; P1 0x372479c0a65f777cf42833e7bd3c5febde4e6cddfab135574a47f464c39505a76d822a51d3b3aeb658f4467f01026b8f27ba2955618b5e0be0c15b553bc15e1d1f3 0x1e352b57b92f8fb09164698cecd2dd6854f7c90f67329ce052363620c8d8d12572168696c927f97e46368ac705ece594bc7512c19ae1332887e24e09d4a0d59fe8e; P1 0x558c1cd4d989e765f9dbc85d6c7b8462e1bfcde233d4f54a8bc971d48e30b44d2c52dd2d1729f7227fe687302b327c0cb948ce4412c5c08675c76090fbd71980abe 0xd0e552b205e444bfb2151271c39c3bd43aa3e620e7c006021c158f467d0e42872240f1b5e69a5f91a2f6dd521ff79b2b0a0ad3a645918e87590063dc7da9264f0a; P0 0x553ab9e72b6400d676f9fb4783b26653dcfd1ac8db0817993779e0e97c2fe250e83f4f609e4b5a594ac4c491e88fe59754816335ce21bce21e795ec8e754635d8b 0x66fd8474256e396de2160ee4590caccdec49c5d099e12c7e405315a92dfb21e8277549d8d291744d79b841e8e1e86d5273fe07d3f56fed6f1c1220c2c217c289ef]);
     (0x12675361, 0x791d7f3bf9c19a1b61f8f262a2e60a22fa9adfdcc0d6afeffab8068fbd91bc079188ba0365c0fe86c92073e244294a0da331ba36ccd01dcf323e92b16d11ca2b39, [P1 0x0 0x3; P1 0x0 0x1b; P0 0x0 0x2d9; P1 0x0 0x1853d3; P1 0x0 0x6ef79077fbb; P1 0x0 0x904d0eada00e6305df37cb; P1 0x0 0xf404571f7c0dc1f464fe88a0b2bc31e58176897890eb; P0 0x0 0xe8984626db1c8458916ec6de17d9e53445fb246ee04fba2b486832ffd383c198a8866bc3c172b287b45937b9; P1 0x13cfe8696b5c1bb3299ba8526cfd7d564ce4d13902d9faa 0xa157cda65f6d99a6fd43ad8b96caf5fb2b0f43a817713c9ca5107cd2bd4e3544ef2b6e18e8ffe8ea34834a7c6803773982bb49776ae736e1fa710528c96876aabd; P0 0x32d7c76458284c5bf3ed40b74253aafcb84cc4e0f9de4cc187be6d7e41b030a637c33b491b9b887bcff6b98d1592f2cbcc6619c6988c0a7e09ec86d91d67d1c2b6 0x176e54184324b13d2913c71ba6e51b96a9cad0135fd8e9d910bf6ad0252530fb32b102716ca3bce4a41bb3870a1a7fb823b6a0e5c6ab64297a5bc3ca7a2cfed523f; P0 0x11281545e451cdf055f399d8cc4cde06cc3ddc01bba5167bf3ad6f27954aff2c58660d960bf03101168f433a9ffcfaa20fba0be71629571313cddbfa718b52356b1 0xb74eb91b2b106e31de52cefa3aa94c3b9d7f5bbb2b1059f545e93f101bc6338672cfb7299619c1afaed0e88116ffc7615b3d3bca9eb45b635165d397d7fa35c232; P1 0xc4e277473ef4040575539170c0fa6a910f89c28d4ab4de4f67b43aa452fef12b1d7596ee481e515aa7cc64a50b78962974ca12bc821a4509a7b8996ba99897354a 0x11100e5e9781f4ee14b4f675e9deb6b45d6429224fec269b417b3513d6d06a27b22f8d94959beb3e54044f7fb82b89b03ea36c5c47321fd64561ae0f5884a2aa96; P0 0x9191752e60572608338caf8b2de124ed978f10bd76d17b9ced58a438216c05defde6959cfb48e2257f1e531bbb8f10d49f6754d1548c9dc3e642c0e7eacb9a23 0x1bd29b50d95ea796119544ce1abc9e23c2acdf9a1ccfeb1f1c70296a9a202da0d1d897cb72c588c9c1333e75e2644ecdaa928cf0f7ea3866b2bfab5c34ef24f2a07; P0 0x1830d031e5ccbb2e64a33cd020eab96b3da0c098aacea46a9f1cf8f248eef84b9c8f35a6bfada138fb39dd95111128cfc0a68dcc8bafe7f029886759fa3049562d3 0x6b9330730b60fd1ddbe9527564cc9be5ca133e19a743718943b09ec83735192a03dbe4eeb55a3ae05b228d6b0e04ee38ad7c1a919b6f739a76c7f9a9d737cdaf04; P0 0x169a2f906c66be789f57d756a497f6668b49a954c263ca7c4d5ceb919f065cafac119bd366bb8a7f4265d8b0952a2f1788689b20af6103b1618f3a4472d5421f13 0x9fc87b78f326ec2e198699d3d9e9761e842d4a42faea8bd29c40eaf112c870defa187a36b3e854f4a7e00c9bff3c04bd64f935b32b6ce409e495bb8ba051509723; P0 0x31dd5330b349dc7f4710dbb7a2e0357027af19749a4dfb3744121d02184877c5044883ef8d2be50a8b90e40c1e14ed998b454b436d1ee00a77f690609f5831c381 0x12dcfa30b13ca862d3a2ef0b5439eee0bfea5f4cd7fb15df690d0b699cb1e4a035c9705ea65f3723065683ca9747adbb8582bd9a778466bcf2ec46367624d4c124a; P1 0x215bae4b9b0710b16eda4ef198d9327cc303db18d37cba1d48e0bbadaf57ebd9043d15683f3b9cd1746cb225d4820fbf8b2f1061be8389f188a3bbc5dbc86beb84b 0x17b958799f157d88c164969cd8034a4abea16cdc2cbdac73ab848b35b0a1f93cced5576147bd358b0eaecf0c764a32bb8fdfcf94e84d75f62b010559086aa7a3077; P0 0x1196a0b6c78d06246f0fd35c62e42318b4ad7d02cd452906c46f37b2b8bd75167d0126cffdcd98021897fc34b75328c89b72d7f6a713f41bc3af773d3e9d9e1d36f 0xb7bd81c82d798189872b3c878e84dd529d6d2ce4e074f7908e0d56f8c5e1d3e937ac911fce9a8c2415cb42ee3d01c3cea7702c4f9b2f05bdae6670f32e207aaac0; P1 0xc5d0b9bf9e9352732632850e0552ae74d9e89e99e052f4ca6ec0c9f02a82d83916335b2b27a9c8fef4a21763f3af73d458e1e7e71fb3e36a77b7ef032fae2c45fa 0x167bd4cca0f985ec8057e7e71df8f2dee6dcb7b02981c67d299f6236f4071048cbd068d26a50f8e28f5b36fcdd613ced799f9af49ee5ebe9194a1054a9540d6f5fa; P0 0xfcc23cac98907cc804383810fe8ed703aaa240ef8cab7d1c6c2256030f2dc130963e952c21931c70961de2fd07e24c4e993fbd3bba4aa280da021d98f3286372f5 0x1400e60c58728099e5a925b5f2755ed7227dcd8a551b474c6d7b26ce21eb78c014d4f75711dae259a506851200fbaf977a3ea90403d3809a834e2bca57452b3eb19; P0 0xc811f95e4609cf1a20f84f3e87f325b1bc69956437010975166c6cb08242eb39b6fff10560dda88e81fe6482e2bc59dc701cd3150c243742a1f1afa6ef04201bc5 0x103d1a948a177713ea50f3b87bf20e95626f5fa424ee21f12040151c2007b4a41ea7dd9ad848eee7de1418e41ae8cc9616cb137a96a296fdf9a5d3ab0a5a4fd0436; P0 0x83d8f41f67a026fb4b6919550dc02e5617875e11b5ea03eb73fac85d34e257ab4832f28f02cf5028fc1e6db4d2e64ec8fa8a77f58f67086318e2815f4a69e3c0ac 0x356d3cec33f8a5933ab1eca70372e409daa7fd4ad984f77305b6d65efb2705968384160bb302dc23f6443277de49f6f5128191ab92866e4dd00540345cecb17c10; P0 0x59334eb5e94644c30247af9172e6d94adbbba9995d45e608bd74ae1f247f4d0663c41485d2d2e409ef0304b4b85adf3c546080fa945c5e2ae42a5023ecd881154 0x97dd80227e411f720e74f6995b933b241de8d0dad771b0b202608522b0e9b956969f6c47b065795b3771bca7cb8bc36a7e75ecb7d9e2fc4627ff74658917c79254; P0 0x2d0b86679650a937df7ec2905f3efa5ed54fa901c13c31a6cb4bf5a9af10b01d74b0a67a449ac936c7ade82f07619cf81ca4bc4c2689ebadbe59d3d3caf4eed9e0 0xe813b95f8cda4410a83dfe1f66d7d63cbe33553fe7ed0ccd577bf017b2f239314111921eebc968e55970882cbf05374f4e4af0a5cc9c02cbe43d3a3192df2ac570; P1 0x13b95a2435690a18265eb12cbf9437c6b954ec0b776783476ba7fe5c98a0c958e248cd267c2a8927ea3488d0836653251bb391f1677660fd42c36193599db8bc955 0x1e312d9e6c2f77b419a07f0f6b8295a310e3ce21fe26868daeef2065f85074c8cefa70b3242f9be23372366b0808838148408c11b0baec0f02bc71612355e9c7c55; P1 0x557583570326d72aa04e1832a69acd69069f50786b0075a2e975acc1ddae43939cb39d347d3c149a546414deca22e59908d104bae28edcb254e580655495cdaef53 0x1931c114039a52609c11c8c1e9a153613df5d0f57f6614cbfeb49e5d4d68e881edb898b9552d3bf3b0afc3ab6fdf78c123604f3f5e8f80bdcd7d99683c1ecca4bfe; P1 0x3b8221215fb0e3e7bc21c181b9e60bb583114e410afccc1be58b9d8c899254a53493e55137e6d939bd9dc86fb6c05a03f65fbfa96799c95949e89d0600377dd3475 0x1727c65065d05cf6223aa6c9d96b77188a0cf0c4e05b69c9eb3267eb5f571bfaee32aae5237fe9ec369ea164a999ebd32de9fec9d342acba9f5503ecee07211a481; P1 0x32441b8b4a06365fb7ed258ecf0a72d9e9f36f3f57980b585a17b2792c7ffc3b1eab9f971bbf032082a043f997a763c3be14c5eb68fdf320678e4c66d956266795f 0x121350d1ff79eb0b09ed12b6f1cac83b382dad4b18191289a372b17856169ad122c1f8ab1386ad1bb98903564df193b1885f46cda67d56a646073940e03d6ed1462; P1 0x1ea153bf0eb7ba0abf0678b5bf160464509e9111e32d2640336cb084df5398c40c11b138707a6cac8ac095f451c8bc9ba59e0bbfa76f0a57e8631476b0ef4d74266 0xd55c7b74ca1885e77dd5387cff8069863c045869ea86baf127f06e265c6929a261678908fe6713a999d12e77fdba52699bbc44fed1063ad5070de6aedaba11a2f2; P1 0x10abc8a45f7ab3fe63253a5705ad39ad8d92eeeff73d24aab682672fa3b494a30f09369dadceaeae0ec011af55935d5fced8662b7f4da33ebd46e48113da6fde4bc 0x15e63c33b8a8789073d14487b871856d5b18421b36d0863bdc7d35aacf5f2133606ff14aee233cab6cbba36a0ff2ab9eb6b53034ded939359b4bf286bb1c28f6b08; P1 0x2cf5f69131599439b1a33f1a3bf518230d70f9d1a3a98944722e4c9020bfad87a15e174ce17a07ff5c8b075edf46bafa4b1c63f371e5a66639e25aefb0cb33ce9e7 0x19502ff8f2a6f4344574c55b565199d9d26cf70ae66843e0f4c234007d45bf020af0bf9f2561a4b7dfd2c11bf2f85092f7652c1c571e1cb452bd22819ef524bfaa7; P1 0x3c123baf5f66ed8c410f1549c11800621f64b7a55c658b140879eb3edba92d335ea0e641f9b0072c43f5b3541b6070a6f9cceaa02db388b26f856c216f6d7e23fb0 0xfade2f7aff3b3fa470562e70aece238381ff5dd22c4ed28a62a127f4a4a794d00681acc6247401b43a134a8e292dfce29d732bc1368252cb98192845cc45b00a83; P1 0x170c2105beaf12bcf595decfb002fdf71c5632292c1c62e65dd4b995b7f3babf03851ffd1a7ea721cdc8dad5c824eec20297d7af611e0fbcafee39ba4419cabfc3b 0x1cf8f2142479c4fd96edcd953f82a054ed60e22dc320bccd2b80fca880ccc6e0c930c46ad354d174e16ecc5b5acfd34889179be5b68675640919c06dcc4d4577956; P1 0x4eb1a8f7de118599f81b604e9fa26ba5828e4d7091213bad1a3f0baf499a1419cbebd976d7a2ff5c2ba852f4f8785a08e1e7b0dd1a3b45075739d85ae6f0a1d813c 0x5b0b89bef902d17c6dabce151f9ce1b8d809c92bc1169978961af8128153ec835054ae85dc143e2154a5a43175e9c30df5a520c5a7a8262c8ba9797e0d7000bbe8; P1 0x3091ceac58570a3c13e9465b19e5a46a5e84f9d695683e975472a128657ae34236510b62c00912324fa3232e8d0cec78f65ae793c53898aa86cdb85658ef02c67b 0x13737f217a7807d630cf6d46c117fe4519e144f853839955bc22671deb30f63a4afdbe5b7ed7c127fecec5b37ba9e66a5fd24ba4be825564f947fcca44b8cc90d3b; P1 0x2378577a7161f57187cb4f7da8b716ebd438f4cbc6fc7d4dad922d0c8d63b3c088114feea80e415733901f7eace26d5fd16107baa1572c96c6b4bfc559fb8ecc2c1 0x5e0f83dc2e573312ba591477142b634ee84cdf37fc8474dd31862cec4f6327ec6fbae72680b304d15f3ad4d93aa74228d815fb44258a34c9c4589dec70a6ebe58c; P1 0x33d718a99ea0d2c9fe5d7ca4ad0e9d4361d8767f32a7f4b7a3f5cba4c02e30f5bf01da2c0285f4bf03172a938b0ce12c767daef16f099480e4534aed2104a1b0d3 0xa456dc78fe6418d3ee916785c4b0c4e2d8129b1e2aa56c1cfd36a5161705ee5c23a13519ba88d7ae696d8a902a087fae1a6c353e8da128f57bfbe031d36b34fe83; P1 0x9e3f1bedd7a906399c0b5b31b6476a8dcc6a81d1df91a4d1bf13d719b0cf2f66a343cf9eb40f3b0c074c93070d258ce98cf8b530991be161bc21fa1d4cba0a1d96 0x1d76bebc8c33ac69cf444bdbfb19b01036945ef2769bab0b6404fd9e87ae6e5c8413a895528804de6de54a6b3d4abdd308de104f2ccd4a3c1c586c73a5066cac2b1; P1 0x5162d70a98a0f84c2a919562d5c55bccbab1f0a13b9acdca3699ad4754fc9189d150675df585fe973c3a702f4e432a5955fb3b88ac790b39112b2dcae93e42a284c 0x33463e6380556685ab5bb12bd70d0952bccbd29d7281a726677b00b33913f6b19825ab5829216b1a962b78145821c0eb327475f3863f6ef4f17d0ef1aa8258636f; P1 0xf679832bc20d594cd21b233535d02fc26965be226c55098abada9640f6a1a1f6c7980a39aacc82ed0a70d99ff71875d79598d801c078dc194a8d320987149f65d 0xf0643f86d30ee3ce66cde97884c50ca022ae1a9963104bdeb09f7c9c0fe4a4fd8d0f20708f6f9ee3423faf8df345d93e10ef9b728f81d757d1dc29f3602e1714c0; P1 0x1529a2d8dbb3eaa7be7970889ef7ff0dea017b015fa50fcc03581ff836415a1bba8dc27fda7a10587eda68ae6a96b77fcbaf5440f582f8a32e1c4df0fe0d54b5791 0x113bc00e846f30ccd8b4c9ba29d019d7ad0f6d6a26b17740da588c6fb176ffe4f4c7fb00b701e0ffc60c6be666388c15a92615b4e87969bd774f660287e09d70791; P1 0x1bd7c2e068c62cfdb9d0a4fcb390fa2208ddf99d50fb921bdd8245eda83ac4e25ca3cdd0253e5c0c333c167f3d1b1f22fd04b9d96d1f1b40b486b1adefe9b401976 0x183852e3857ff88be214981c228d4e53cc1754673757726dad511d18076108c1dd4b8d0ba9f8145508f2731acca2246a15ae5a5b715ebc16541c97a0a45295d9d9; P1 0x36fe9e68b1d6b7c761213fec6a6a43bb062230c93c352fa4783cd6b7f6c86720ab15f0fd852a4c9892b241db31b329c23b9b395ce17314f7109bc96c6213a4ce2 0x3c903650f90a3012dca6f2facaf1f63e64b21fcc57feff90927f15c187a132675cc6bbc7d195acb87f1e2515539651e874e3daf1ae74da26141c8eb6b11d2d1ab5; P1 0x157de00ca908cf01ba59f8c599cab9c4a180b3d8e386c856c972450039159192ccd4d0dca3730e26e811a3bb19424ad0e687e30a6e5ac8879a6706c655227a0550 0xb4f7ba8451b26a672fad7e8cc3d0cd08f17756d61539e8a708c19008aa9b1515eaec962e07dc0e1383831dd4947b3df4ad36e7fd36883de4268a6d65315bbbd13b; P1 0xbfe3f505492ba28910440f2e4c8b5f12928f54246ef8655fe86017f08b95b79a6c2b34b9782bf3dc531bdc61ef60be6ecbbbddd4ce03c1d8f834b0a1d7ec6e5923 0xdb339b58ef8fb7ff4f493ea2e3934c7f95747f1e0c6db1ed94efc66fd0e7879c26416e902be57f032002eb1f174153f02fbd60909e30413fc2e303c73bc80883ee; P1 0x1198a014a245e3d979bc25a30f5fc06d8390ec7384486916b909e3b7c64b1d7145215c4f2577d15eafcde0c95005f108e45581e8a49ced56e7e42ea481d4ddd6fb9 0x1df5803a4adb6ed0e042a0e53607b5e3bca36fc08176b7481765eaa3f3c95f3681c0883f853a6dd10006b71706bea7692aedbd1ec5b868a1400eda8ae7e7675c385; P1 0x5424fb9d72502de4e1e8a9186917f0945a2603349848a5e8573343d638321f934c8ae3f26774897af2e9462cde1d32c2339f5957411065c4698f7844a31057432bc 0x1082924a02c7b60b378ca5e4636b81bfeb478ccf0d7a16ab4e2fbd7dc8ca522327bc2dfbf9e64f9b967fb4a5f3370d3de019a77aae73cf3a8da52c66635c025dc07; P1 0x198df533aaa6f3b8a33a61b6a04005cbaae3272f89de66fb08f3d60715cf99dc2701c4bde1d19e7c1e9aca48c984d7700415dcbf8450f9b11f2a975d088d01ad596 0x16803615f7d47bdb0d6306a8f8fd57f5fd5db9d65ed4ac7065abb220a0adfacbdb09c3551a8b8f268b02dc93410fc92eef397bda820f469e97b0fa44c265580ee29; P1 0x2f76e42dbfc70509d9448af9f139996319ae165635f86a109efe3abf9f81a0d90ea315b9223d81b17936ee188a8f04465b304be93a5c40067d0ba70d53de3c599c6 0x131fed3b30a0c6c2ae6981b9b91697c7f4008b2f1e38f322919efc60867bb3f6178303f52fdf77eea81369d06f7adf2634ed47b3c35588534d6b6c29704a5766179; P1 0x224a1cb26166f3f429a007b2f88bd071a960a49c0077297bae409f4e3ef05645435980a3e8715e41156e335f953d061cfa7e63e21172405f20662fd03714efc57e0 0xc9282bcd6df8304b823eb1841a7184952086616cd603f90ba597c78e02b0c26a2c8baeb512df0a8f4c0d8976dc3dd8ebf1cc6632543df10ccb720dd1f53ef71973; P1 0xed1828a1759121c8859cba29b8c103cf6a1635d3ba3f37b38cbbd86be17c58835e6e273bbded92df17ff45aeab3549099f002d9e8b537093d5909345df133cc1a7 0x1ca9f4494e7eda366b8163419220fd2e8a77cb5f652da2b73a0a526c0797155fa3cd19aa47cdacf9076994651527c18018fe7ec44d2d15e7b87b9a096ba8a91bea2; P1 0x4d06d66b899d0c3879ff7840feebb1c5c539338302c1db83ce2cee8c05663533b23a4ebf725b030101ef5a181a11793aac66c5634f057121e664bad34742c9ae7fd 0x1eecf503e7f2a8d1949b38d390bc6543b5d386d3ebe90129627ce20d6f38dadb450bf1c3c475ed7c7fba4273753e76bca16efbd08a393474908edbe242ca9058389; P0 0x1de3260ca08807f0d1ba6c564140fdcc3985eb18ff1361c3d5f5a6267c463016576b82772a6dd9aa0f59154c100aec4ed10307b9cac5d73ca666a50bacd407d3bef 0xf4812429083d295c9f6ece5c2bfadca61f8e3cfa136dab98e714de5983bc1a624a472c18bab0e07db4c2776e7eea92cab350331aa4c729d6056a28c1ae896cbb40; P0 0x74c33709d7153ab08b608a60378620ce21d8d3d3210b0ef8e08954f69727070be27e81a2bc50b5068019c7fa1f51c41c241bf97e0484dcb6b31394411795ddae61 0x1f4a3ecb25ae5c43e60d6e07cb64ea7a358b5a356b30ccf0c2da49c344d1b30de3b2c3145b2bafedfe99cb845c6e505b54db9ce9d6ac98ca673a37edab09cd43e61; P1 0x5bc991c57f58fe88898ff6e0c9eae25773822b6681696945a81362d9a667e3b2fadfef21170c699be1283b9668378531919c773a71c3a8b87fe18a1014d0cf958f2 0x1908eff1ff808bc834e9595562666d7bce7e93af5dbe35eb61428cab0b52a7725a23b5e25cc2d6a915520201deb9e4268802ceef29d0ebad55b5b880165d48abb35; P0 0x1395f9691f6699575709d6642534bd08ca8a99d1304f2f8ba01526d70b068571a50006c21b348cd36189b0901bde6acdd7fc728cec297800ceadc32a5a3c85ed8da 0x1e58b86c53e00978cd091352ca74ec23e9c0ce5a21be7b077b292c887c325a3bfde2fb59f3b38ca9c672c200458d7494a3ec2c5132a43f9bf41ede6d8b3ee6951d3; P0 0x1cc74fc597f0953e09de2d1d241293954ea2d0c72ad337457b5e6f2d2d534d288d727cff0bc03a3d415e13eb30fdef363a6645de6444be41a57a82b077a9e772474 0x7de4348be33e66837b59c999e4bfd98b9283ad6e8e0138484c538b939f088f8e6556f648825c3ddec4d8ea70bff7472dcdc4cc1bd661e09065cb384052bb4585d; P0 0x1ef4535f1ff06c0274e4ee5b67342388df4cf45e86e315ff30843ddf89abb891585d2955fa400919d6e7978254304ec815643cff6d631b7f9422edb9b6b2ed4b 0x3e3fe7745734dfc1b2bc6abf2d22ce54403ec7640cc23a05483b763edc5e0e8458fb68bb2b6f66c9e58a89602b6f21e3110370f7169493dcbeb5d25e1755faff14; P0 0x79182080b61d95442ac47c63c8d446a50d8d1155b07ebc9edc197648e729003e801c7420d4893210cadf816283ea15819955f412ca5ad01761e2316e9224329f3 0x3e9c68df65b62713f10a255f9e1a6c3fa078c83ed1aee53e3372ca0d80ab43e112a98f27767eb583aaed21c2ebbb3d653f5f9192233e1524e7c6403ffb9b7c0383; P1 0x16f8338a48bdb1c576d84d3f0c8227e282b9345331c6f910af95d0b2abae0803fee0906e386238d977c176b7d9527e3524cba6c0b18234192a74db7b270fda2bf9 0x1be4b9c176ac1611f610bb5bbbd4de429cf143904bfd8b81147aaf1e11e2e17741d19eb38a4f5077e735f3085d5ce3e6fafc6cbaeffcffdc82d8d65cac92ab72b14; P0 0x18505c51b366f73fc24150940f5dd4d51a9a5ecfe5da2e75ecb18cb4c2517897275e66a9bf94c663cf783df41f608e855c0038624ef97023d9313dbe001679b4268 0x11e475825f732489ff1152fa56e0f029e3f861d5ccf5de0968016591e22eb8dfae04e14b03674f3bbca6bcbb6c21f2c693b9224b3cf88aa32144461b29a9572fbf8; P1 0x1e0353b42439c639c6ad221501a46421f6d8250cb26452702cae44a348ac8d42c9ee915860f264432929df85cde04104eb9699984392f7151017172b27beabc6869 0x11b3be59e5651ae24ea8b7014d057d6def22ae55a980200526f4fcae39836821c985a8669909494e9e763f0c991381d475b35f962cd4c2f11c1ab33ec781d5d2929; P1 0x1d60c398793ad8d8d0698937cb069358752f6a9c59c60701e8cd78da308e53341f09f1b18e52e7645fafd114f4defbb8a6c165a30025a72c85d3ab601ce328f9f42 0xefc0435781bf0de872ff2c09cff6f122dca25c16acd6248235abf416e47dec1edd8c3dccd4f790947da7a8321fcd9a7662ef7254a47f6d1a2ab8144ccdbc818f5; P0 0x704447113c9e23302b2516e310832609c7974252f20a50425b7eec99e17b8c1c1d4df40e4762c4153034cdb9c32c31d47b250802d48c83300a31e6032761cd38 0x1296b14b6b94ebe1b74cf0cd712aeeb2d5490262a1033c5561725c0e8226a74d50a8ee54e2abf4c2aeafcad154950e3122007472f61a9f86cf5cff5cb9556a0a7b1; P1 0x2064e74477297027667ae59b96f69d18a4b7da01e085a500bd815dad9ea2f9cc80e45ea14cf86d1256df0443e0cb5d0d9d4322369f46adcab2e257a7c04e8b42b95 0x1761fc1e90dcd93fddff0071ca96a42bb08f24fdb3f4efa909d2761530909025d8966c5d844f4e451f16910c5bdd82877ec5752c6debc29052204ab3a99cdfd64b8; P1 0x3342135c83c7adec499dc6a39bcbd5da16b9f346072ad8ee1efee53c5f4d6f4cfe73fb517c02cf78b365e5258ba95bbc8c8b3b3ea59e7fc7874ac61c0e24dac4121 0x159a23244b51cb207303fdcde5177fe436abe01349f88723e5c693cd8029a7a687e363c48955a4ffa0c956c9a0f96c94df0f42c6acbb87fc74fa6a2770f0f9d0de1; P1 0x2bbf9db6145793604ed1841a46325590f407e11da938dc5ab49d2d20f313ddcf2ac4b91b79df7aa960982b43c0b8bf74be6670ecc756bfc75d6bd57ec0692c2f3c3 0x1157f04eea6c35fb0b8c564c28ab1841b621217d155dc12d8678f80ad9ba69951f98f6f6106e79b1bf7f336b4ee2136f7dfca799389c348e8f55c6baf0fc0f2d306; P1 0x1c3322f8b86a6e1ecfa23db3534eff8e4f8189b12010d76df2aeac92f79de57603bf60207ebd9ff2969a208d7f47802c5818377d5f0965777a49f7b6ec48da8720b 0x26c05957085d2a10934203d1731f07b51eb90f730cd27fe96a7d0ccfc79e9cdb600b4bab46b12277350ad530ba27daa5bf8df91865cef0ec5f43b3a3767d891e77; P0 0x2eed585fc1aead1bdb6472c4304576ab56aee84718c09f28cd12bf34ed26d334b5733a8696a372d122e9593d38f460b09967a0d48b281bb8b0951c3f27a4afad8 0x1525d32a747651a86ed79e929c5efdde03fb8ecef61437bacda76ac9930193281183ae7d39a1ba6c1abf9b54ab8c2d52e1c6ab1c453575b2e44827e94d84f491629; P1 0x29ed759875821ee0cedf38593ee27a34e0947b04cef19bc7c3aab2cef8dd98fec30a680a1bff6eaa21754140d06bc39c433ee31994412f0e479c383d59398d2037f 0x1bea1a322f316fca0821ae490f5ef66417bcd692b82b7d15b113cf3b2da61ce8dc7b8da3798f57a265e4747964c4a5eb989730a0597bcbfb4835120cec472b93b32; P0 0x1859bcd3e3077b0bee2eec01b40ad4f36a58a96beb76aedf24b21df871c6aa29e25d96c36b968fa5940bdd83bf705bb6dce19f44d9aba145f55d9434e3c0b512077 0x10de00fc19e5b181501dc4da1d370f7726d375afbb5ccce176e2c305a0571af64fd1c8b0df96399d489f0fe911345da334b8e60fb5d0c37e9a84413e98b2f45363b; P1 0x1aac0f7d4b7e53c87ae345f11f07bfa87acca6b53c9aa79493d2876b1c9de962478aa540650ec75a9f9d02d0145fc15371badd6c9160c94b660d44f4a6842901efe 0x1427e474c0757447aa66d919b57ebbdcc0d1a8a1c15b1bf8139f2ed40ff26feb328d3685975969cee7ae9a27fb68da629697545e331f5cbc31a12659e7e1670f3c9; P1 0x26162de7847bf073c131f102c0d0c0e32c02daaa29ef586d6efabce3dcf18aa42feae2b7a2812c7f2a1207cc6f54415f51dfa5290956964e21aa51ec3a57d45f399 0x27fc0b40e1bbeff0fc463f7fd1e3ae57c85ba7b64853d284f4b80d7a9274b2b266d66b355143e9629fb4d4deee4d7726c1df1f77f5e7087e391927d86fc95b8f0c; P1 0x95e255de383796d6868f8583cdfd32fa5e31466d454e736188933bce35978baa62cb0a22172af353affc6656f5efdb5ada10eb6286f50a5a950366d2722d785b7 0xd36f23bbd6bdf78aa5259da23ed356dfc46ad22c32badcf55fd3259fff120a0cb3c3e4ed3a8d994ae28dddc34efdb61b63fb6cba181771610350b0087eb23abf67; P1 0x105f097bb78cd6801e0b963816bc1a3504152bed4f611589aac724cbbe377606f0d33f0e6b0031369a20c6eb82d8384b6d89ce22eef396bc4f604a60690532ec631 0xb92633c37c03dfb86de2cb828db3893085c3f6ac92c091358334fd8e5b6ceba57e70f1e5b7693a5aecd16968e5361ef91f5aa6acce5b213af17b27d1afe4835884; P1 0xc8dc5ac5ea9cd4c60608b580d2a9138f28f924af8565d1d8d980e12a2669b99c5cfe258050a6454ebd22dc0f09bed1121b9807b652b456d9e282b158fd32330ad5 0x82f26ba4c7f9fe95a15d9a3623d06eb0981209e5b5839489372067e4ac081573964c1242f6b4cad04d209fc58759b06af5f9b1733bbb73cc9ffd97a991b34c1705; P0 0x217d8d7185f392388d0f040fb35977a5f1cb66b04dc5045830c71511b18d5fe53ab9b33cc0386c16aefb92f0f60d5be1e40283d43ba1587c17615421ba8478f3a9 0x142a6bfef9465d987b6fc26b596d413009a806a66b23c0d05cf209f445bb343edcb29a6b9df10c662cca837b8b7a93de1d87be1264911a2a7377b644e332f82d9c2; P0 0xcb53f3ba15f6057af58f1d709c80d26c5cea18e795763db28f2c8b4a7fd25b189f54a6129cc61577391df0af2577ea3c2ff0d5be255522bcffdccf8421f8fe5fdd 0x1d613f468ae8c3b44e30ae20d26a06cac6f7ec5334969c3ef8187dfa2e511ef2d440dc956044e7e9a2f52f85b8dcbd6b077f8d0f5be348781061c05ce451740d6e1; P0 0x1af96a37f48e644fdabea07e6ca9ebcc6035ce871aa5abd4fabf8b460f849e3a23a1f4ffc742a9001f2f4cae20dd75541e25f286a1a7a5459e8b51b2b06daac3747 0x1febc1d744159a5be32d31a55e3e97a37dbed88f3977578dad69b716161af97c80c4d99de8f94fa77947b6d593a46db5020e7db79b1c5378a1036c7d3596d892908; P0 0x1fd7907cb3d425bd36daada370470cd2b86396c86b6bf9dfe5f41d0b0cf3736504c9fc90fe164125f5d7c470a4ac458ff0d3acecfcbd89a356582e08563faa5f207 0x414dec7019cabb25ff716016af6a6fc649bc8030aef114fa7465a3c619b6ed6ebe91227817fb231f5a809375e5aa808e35c685055b5926a8c01f305361bbc98247; P0 0x85454e48173abd11ecf232895e1a3499a05891b322d584c04372d419ba601a466940846261f8676ac3218cddadc8b77bb84aca00b6b0495e7d836706384962429 0x95793a3503ede6a5647fd8ad8af93c5f446e28eb7834970349e7c99fd8a13249992854c9b0dc92734b37dfae60bd1db04b061bf750aaa2ee9a67c53723146053da; P0 0x2ba32b94e4f65b117e34dacb90ab44f91139c2d5294b5963d4ebaa2ccb3270b2ada8fbd5e3d70f91c972874f3960f0a254702b636f5db59409f8388f6bb4000a3d 0x618406282bbbaecf0a55d86fb5620b524c895e4e191bc1e1471a838d0f3275d710f142da67a5ebb4e0c364f27545b534770b7c0b5ac7aec59c69ba5a60c2f71fe1; P0 0x1292a860655b9e2fd4d45106c178215bbad18531e11281ba420ea4c69e5ad0a25fbef10aa944768f8a2950888437e38e17e4db5414ca604d96c167f70237377490 0x1e4250f66c6803fb2caa81e8a298112522ee111388e0e931c84f5074da35439f28a0361626ab935b63823614fe0db941e538fd9c790b6eda6b836998ea1c35db851; P0 0x1c9ce13cd099bc33a23c7508a634663c2d9d118ddb14728ef5ad01d489da0bd624ed21bfea7258e701f5a28a27fa52213992a8f404c7cb19f3f010b4aae46986912 0x186c9367d3431498499dcff726d47b661463556b2786176f74eadd32d45905fa88c83feafe3c7cc6fd4362caa1eb90d4b2166877d355bac8a6ac750e5ab1c26f2b3; P0 0x12a44d8160b9d98532268618e2e4eb47a8bf3bc425dcf6159d10aac520bb4f354e167281130307b0b95b8b2d9b38d5a1711a3e7b9cb3fbf2d2addf6c24bdccd7286 0x1b4cc0dcda0882caffd8d1ef5628da5b94d290d65c88b7322a0c1b4eec2a7514f17cb36c6d1e87e2eb912147ae34e7d1b73179015784ef2ddcd252bc671f8085baf; P0 0x174a3d8d535a31c5b81b85e228bd56a05263addd6899e79f8d4f2145acd6ca5386a5619a4fdb7c1305dd4567e7536ca2a766dd036bea2bbb4dad06f42d77c03a829 0x2c7c7637f4c82963f78b6ce7b7ac9eb523503fc163a79a8e4db96a237740fdab6fb0def102dfd2046ad169b472db97855db05130197f16ecda08bd193e67c989ca; P0 0x3dd8292fc78c9030a13ec88a858b63a002fe9384df8d29be3e1e588aadd2a3553972c931b9bbcee9b99059d1df94bde68c26e3d104dd75bcdce6c1464bc091bc3 0x15ad393baebaf13adca252e99647f394a0480fa58dc0543e696393ad2bed0131378b7391d7349c3cdde092e26ff3f12d8a357e51ec4f0f98f83af4c11c6f166ef27; P0 0xeaf04d19103afb794d7267e77026aaa22beedf2d86beb7f401abb3ff847da886b8e765b587f3bea6ebb60a81ed8204bf83e14ea7257477dc0683d20b0cbb1715b9 0x198871941a5af06d4c599a676c129c34fba76e962841aa50d999eae2288ffab9133b42e718d2a98eb5485204dca201ad1fb7a2223b86a4246afcf9a210b9b94edaa; P0 0x145f773e672ec43c893da23e288a5bab20efbbda178106c2e953bdfea84a04d6eb07141c12c51793e00f29014f04bd59efde090a2f8db24dd48673aed6af3924202 0x4fa06524e77dd0d7dbc0803871cbacf7f5644e9ec1813527b62b74328983c99ff9c5357c98af55cfd5e1c8af4fdc867ec5d6c47624e238c9de6662dc7678c676e6; P0 0xc623175ae7b9412bd7a6e4cfdee04c15afed5180bf2663892a5e3e035ae2170a9cb0006058568cc4519707827b556a4d72611fa0d94c29d37788617d38438b933 0x102b2594df0be6ac2137d88c1ca6929abe87796e22326ad2128f660b19636b1b055a6b80d5c60a84e281057f561f03e58a9475e087cc11c753a74e9ad2f47398fd7; P0 0x82b5fc20b464f08d602c712a2a9d07ca9905177423bcb4acdfafe715ea45974b7af9bf3e989d47553d6d553264fa2ff50ad319b031d5d81f2f1ef0a41ca366a3c6 0x1302b4925885eba711d591e0b5035d8fcf0a80c47564583ec7f39c4f117a477717b15829d99d56c03f1b4c9edd2a7650bae430f22b9ec3492bcd3ab05c943f68a57; P0 0xb4b36a8565b19bf3010759eff39d63390389aa394a26aaed6b19da2b1dcef4a5226fc66cd6726d575c98ffd0bf8b0b95dcf7debaf3ea917f1f56c935c96ba4e30a 0x1335e278a7947d1b41fb49ec5d50fb77ef3add2513250d0a3bf64dd18801eb6b31883b00b09e38e6100fe87d97f41af313c830362d60eda9932fd9ad23f1f9acc9b; P0 0xb8857abb975766c7708d36d84888c6512b6c78adc246a65844007ebc5e6e55701317152ea3552229e53c2fb98f920af93de8f16d764220434847f99b8f1771e1b3 0x1c3d62eeafd9d369cca605f195da95c184bfb60d85df38c24728856c316c746aabdfc6382fc2377171405e63e3700be10a0c803e441743b13e75a3b77016f75478c; P0 0x18ebe2e4139889e0e6ebd1b06745fc2a0306c26e2cb43f409d21ca5f9efe7e9b7f9435d6b3493c35893e9ff4c9fe4b1bd6aaa1cad1d79f485a9481e62fb5e956308 0x32fa4252f805f2a52fd8b3f98a9f051faccdb894ae9ccdbb9593983f63b1d74f95e0c8310af7a3cb94ee950fd0b25f29f38ad8e3baf71c984fca9c03d9408c5798; P0 0x5135b47020ed096ab451f276726a4120e61095b0d682137330b9c08408efecbdec061cf116cf77693173b42c0df7c7ec433ada9b6b4c9c898fdc5deca699a2490 0x154cc9aeb10a738fa689e7bf042d0632b4ed17efa730df9e42ffc1979c501f997d8286b96d4652895ee623282a23792cfc896c06435375f4d916746673655d2ced0; P0 0xe2d80f83d44f30de5cd075e09477b800054ee88ba3e2920619220647e60aa30ee2a1ed186dbe83cdbcab9bc898a318c1f61fbc725edcff020b3b8b330fd8c9fa03 0x1bc5e68da0412e8958e27932ccbe57caec13b4a99135568c6c6657958571bdf12ff80428f1e059bf624e6a59d1c51d8ee64c74e316a18f9bff7a96b7dbded1d6303; P0 0x181abcf42b49738d1f015f339f7f6bb160998191998a1fd934999a2fa53f2fe3dbfddf32b22259db3b9cfd466cc383e873e4c8e70d1591cc3c481f76e74dcda4dfb 0x12522191fc682836e66c313bb99a27c2eb7d3bac119a526c5fcffd7593212a5cbd8bee46bdd40a7ea61aaf5c38ddf63b28fe3b980810afe574fe82dfb95ffd3a004; P0 0xa7d38906b5a75a1e65e1b0d217963c259d0a87736303bbb0adeba4537891b60d07e82a3c294efdb5a92b07b6a422b7c112badcb8a7d6fc196cfe5ad16aada8f2a4 0xd4b4889bf0c139f4b4496f856d614e593372fa1b9e4abd1a2e1550c30b1560e07beeccd503f44b43c089e22bb231a86bd5e188c7d9b3f691df478a35cbd045f2b4; P0 0x585dc0c955785340c2591a2eb52b1a347a4e9496c8e882a1f2484b8bb07518c46f84025b737b3ac613baf62ed252b1fdfc033488c54cca23d29be72b5c72bdd8d5 0xabaf7f0d1798e2ca878d864ba589eb3f77e5646684446e8b79836a2a5415200958acff4abd080fef68a61251c1531c1c6cd10c7d3ca6183ff50cd65a55addea765; P0 0x3991f605383d400add5a9a02abfbf1429c16555f4109156fc677bec171101c40214f421945234d66957e019da7ccd40f8bd66336209f829a6b3a4073db6e2e4b10 0x188f6495825125f64cb6b192e611d94a379f67fa9c5638d4149178e1ff3da6f2dc5a78103823d0a7292317d3fc2e29a2f2682a389d4906ea29c08c150d2b0cf38e9; P0 0x12d9996c77df97379008b289306884329f7b2066aa6ff6f6bbe94721b2d509ce481a0c273fec7d8a7f69fa32e5fae20ec1dda8321948cf35eb4195c7c6d216e48df 0x195c6af90500e0921208f6b321b07db2debc359b8bf60fae83c288eddfdca7b3b24669a8111d4a2302dae5a89981ea936696b83a72d780386968a5710ae96e30cf0; P0 0x1419720d954776eb324c93ea4629e281e0343acefa7978e9d0cccdc7c3f39d40eef1dbd481249986f00b6877df04b8ad2c1d8188fbfe9c61e8b59a9486fb01bf4ff 0x1bda8894591921c4f7882324278e4f79c29753764a61435c6b38a2dfa6188a3d5723766b90254057eeb01e4e54fff4b5e169c38efba4d7229febbfbbb38e26355ff; P0 0x183e9ae1828804773cf8cfb72d9e7ad866b31d8b8ed9f2d476c162dc28218dfca9d537bbb824388f973df2ba6806fcc43178ecee91e59cbbea61f0923487776f205 0x7294910ee177835207d4bfbf1862914f7228deb320ca499987c794f0635019063b973420c4c08990fd4fef0315ca75211193acdc512ac748783e5ed73a53944606; P0 0x19a453b4a61a7fb5dc1d8f9ea745de87031bfaabd3751acd79240cde03e09f56bc693c97def9c0ff60aa938fc39df3a06a6397e6e068b97791e5b7663d93219fd0 0xb2e5a8a5441548774c535b94a663ba1c2375459c7cb88bc0d47cba45bfa54aaedb03a9ab4a5269a981e81074e64b677510bd1dc74004b6b5ad4236b03e8138e7f4; P1 0xbb8642d3762c18597856aa120d6c79219a88fcf23c1cfa0ba17614b2115fc1a05c5fdbbe43bcd4a38d12fb33f16a5fd2997cfcdb8e8d18b7f6c984a2682f4cd9da 0x1a1d0042f5be59c81d19eb87bda7b4344d568a6f7fd3352a4e2ce3271f407cc127f419e1f4aed25d3747272f0fa8dcea3308f8ddf5761a3e4f511836436ce0b9b8a; P1 0x3fedb01fda19d50eef2126c8b500fd24529b8c18d8aba3c79f6e4c82ad3557e104567523fa04ebdf21dd79593d6a9463c2e7e17d34b02fed431c86be7b26f51ce9e 0x8036c92686053f3c11c1c859e8767cf648b79389785f866d5eb6d9f9ed0f8a893435085deab66ce2f87a8d45ec5890f8eef8223ea11e113c583ee03ee4ec6701ca; P0 0x201b6a700029a6d9860eef10358bb369ddc958cb9b49d2bcd50c5887225bc52d003735628c2b8580892b0918f0aba2a9969eddede77ba44a5c55374cd1602f1ad7 0x1279d70d639cb41da2e8af2fbc5b52173422467e48f1faffaca1652f81db77be8508127e26bcd637b7ac704685a65ec1ee01fdb7f2ce2b37d95255e696040be4e3b; P1 0x2000a5851fa8a385f350db4f3859c0d028b9ce62493382498a3a9e0db00eaff1548b17d190ae54ec376b3004cf262d5665c242b177844bc1731ebfe188f3f38fc7d 0x1cbbe3d5008d7df882aa02eb7a6e1335c04a803d772a56e7f45776b74f753a2604564c6347695902f9c49eab2ff6ddd2e21dba64abac05c1a3da1ce6d1065ad0148; P1 0x4d6759bda19cbb5ddbe17b814eff429253f276bb470520a3fb82384d90e0f64b110f2a7c5f2512a36e76adb1fb406793ca71dbbb9b5afa80b4dbcd690da094cc445 0xade42f83cb0e82c5a51365163661ca0e56fec1df9089dd834c37fc78a548c3e2e9d6305d0dd83aeaaa01ed056f9a6aded93d91c0b23b4261442fc2e3a2ab41b105; P1 0xb12d4d6b3207728142a5056c3f612fff798cc72a1718129f001680060002abf2e6d11ed2cc96ba629c935c107a983fb361099d7c0a635775befb3a28477b605615 0x1c17a67a04fb2bdc8e1f4b8871b275a5fc26fcba0c1b0e560cf76792e1562eab46b0ca79d436c708d84f4706f4ed54b3bbe348c45c001bda8a274e15b4ba2361460; P1 0x49fc5e70ae97704eba58cb9186fe030183e3b2f831bf6ab28272b3309a5e9d33619c027240fcc3797256f94bc4abd6e03798c5ef0cadff3abf2ff8dbb5ed06df54a 0xcb2112c5095db9bf23d2146378fe71df50e6eb125714681748bd97dbce5e17709731c9cf618682be8b31b2d1f4306ab5d4bdbb260eaa4c0c0820abc3c11ecb614a; P0 0x5096bc052a83addbcf66718acdf25a6db71e6cc908b253b5d3baa1a5f573a2cf868b68e3b82ca39017198c5f4f3dbf51ce74f0bd16869d95a2f464be481b8390ad 0x1f696c668989d641673011c1b40d2f724bfd0173ef5930ae467e02046d49d9f9300675e4bdd8cf48c82410fe5d1ccbd6ab47aff7a4af1c45ce2b5d4783ce3d8ba11; P1 0x5c80d8066fc531dadba89acee54ac6531a3e408a2867c7dc4449b06a9d49b917f87533ad58803f989b5764fc693deb8f3c1c4d332225fcaedab66397a881eceab1e 0x48094463ded63020e390fbe194092c1bf52cb27303bf56c55ddc731c3e71b49e02960394475ff5acd7a0c1ffba47eed778592bef1bbb9a162c5d2526ce1c94ca81; P0 0xa229b670751adbce3c2377195e63eb14ca460f8d7406ffc250f3da7c7be5469e79f44e8aa61314ba1c0411b8d7f6940cba43f6809d51bdf865f69c9468de8e3ad 0x1f77fcdd5aac8b07a62a0fa45ae2e753ae882402e59b8e6159a7f3ec57f839620730425c62f32e2ed5b9c8dbb1b29afde738e258775527ddc70d178dfa98b40b8ae; P0 0x1ef23bd55c24fff3d8bc5a4456c18eedd937ae871e4c691047271a0fa8afe111e7a78df557515d5365f71def039e561f30a726d51256a906bbc897ec91173594556 0x10261f22c21812b68d66794ee03058874dd980f2935b05f6a4cc0b4c595831319c0e2fdb2a2439712eaef0836a077c90fdf2706c9ab9a441f19b1911bb74393db9a; P1 0x1872e5a678d19d180eeb26baaeae4b2c56f449375ed43935c125fedb20c97f7f124bfe498e60b7857ee5109f68c187a8e2bab59915aa133cfdbd32b07d0bfdc6c64 0x3b4d6c6b630baf1fb796a0fb95272c1c4a067b15faa3084a8d6c0ee11df65c3c3590031c8ad32ffe9298a1c88854d1fb7a42c3e10af8fbebed9b2e8d5e6192f650; P0 0x6de63b1f315e02ee2c6881b352da437d22882edcd662a1adb5f5a6b33e28cc15974860939524446b6e7627238b5caa67e8051881d96216692f177a59088f63987 0x1c9c7b9fe6795950ac7a8b44732bd7cbfb8aa6e5a081a9ed6651a4cfe850fba5dc4fe0394e2d077212e254c504b69c041273093e9537778781006a95b5709341287; P0 0x1994d58f07f3d639b0de0e39d0194e3765f143aabcdd694e5108c9171aa51f05721f89d40364a92d4ccac8be95671ed3cb80e502c1ec10176fca14ff1aa23f12b5e 0x111f1f430e42cead2190a9614595ad1def7556201d57396d84c575fa5469804b13fc8771380acb9c9a0f23518840ab7eabaddf85b876761ed9db27337512a206e8f; P0 0x9292f7bef9d152d91a6a2959ab959ddfcde44035f63a239e810d5eb732b3535fdcf26342136e3e6a7b17ed4b1265802cd018503c7974b8cc9d559df598f3d217e3 0x12d8f8b0e81598a404a637572d5ea343856bfdd58f631d782335e1d40bf1722c1fd638b2dcb7d2cd2d298ccfd1865ad39439db9152ba5081abb250e0679b3514bc4; P0 0xb19d6ebe60f4e936a304a4e1ce0a4e963a54f8a4a8074f0d0489a05a96d549dba1346618b241ad77480d3a8d826da5313f4944f16a15dc081b0ed19cf08783438a 0x14c46a6c60288a088311425a748708e6af81b310549f41bf2bad0de372d00c66ee20b39bddb6a28d2ca63c2559dab61a221037caddd9939380d04335fda7f7b19a; P1 0x286eafe19d341bb4f3801b1a46c4299300660b107435851d16872a8270cb4c01815230310519a3eccd60e5dff0b0f58d254630e2bbafff16a294af687c56b8b96 0x1718e8ffb7278883bc53ad13a71b7e663cadf2cc864eb4d95bd818ec62240bb28f49f0a6c6514cafe336d9e1f393d439aa624d6484ea1dfa0d3c51aadd120927d82; P0 0x10abe253b75f6aba7e24fed0625f85d6a757f1af4509a1b00cc19bffc70d2df66454ba9af1eb962c595111b59a94211ddde3ffc9b14f15435689213879f4336bf9d 0x127d1d55882be9e5896fb1aad7bf5d37d99a8afe4def9b200439677a5199acc20ae5e408390d186d8fe507fd17de1d2991a9d83391f8ccdfd7c55731d172906f5a1; P1 0x200bfe8880e77ce871ae78296a926e5cf7a442e9bb6980c0c1c6bb2e1743bf6353e39695310fa2ac48c9024af543655826e966804f9905827e6a87454a549ac5bea 0x1de3f3eb90914e8150591649dee67767cee36139b629aa80e77e35a313b666a8325dda7c3d126a55c3b38946bc663236bc54e7057301ab3e8135ed3dc094d5909ad; P0 0x1beb81eed762d588e7e0be4342a7c6a5fe6e29e66d21039d2bcd93fb07c689ec6ea631db7ac974b2349e6aa811ff4a899a7244568a9e87d870a2446625f7b9b0668 0x1e11626227352e8d84e1a7a66453b52480d4b46ecc64e83e60d95d2f52d5f2648674f82559dfe225c7c6f9bd649f019a4155bb8aa82ba6f67e0b3b717534842a551; P0 0x1c40a1e9c047bd00e26e34a9924d1242f8a4d0eee83e2d9c94b98790f5bc726735e0fcd637fecdd75a7fa52783c147bc829e5a518de37aa29dd8f1810f6245be908 0x179cce365ff232e35c5df3419037726c7e81b026b03f6a6f202707538e247a4627c6d1ebd0cf6f4177abc244bc3af3ab9da99e5789c2fcf3a2918375fd35ce16ca9; P0 0x116c68cdecf0124a3dd3dd8b4bbea089d3a6c60e1c0d69ee532ae5802626f549d1a51edaee23a77e37434ca85864ef3f78a05da00ada07bcb048be7d4c5b9950db2 0x224e58cd2d4cf530f4240cea9d6043a90bd3a2a8df4fdfa58da118c4a4f061b004753810e915800769fd74b9684d8dfd87662cbed53f55e7d478772df560c61543; P0 0x24c73c85deedfce74426b7dd88fe997fd45f87214e26f615569c17fe7a5aa65df2d9ba2c7c8e5f2ac19ffac97d6c17b9798abf994950324b3c39e1ee05b25ca6c 0x3a9c6fdfe026175a682ab5be4e9679ee0008baecc751013d0afc243175880d8ef5bb61308ee9d697748d37f70033d5f2c57a7b76b33d0d20fa5b1b8855808dd9f5; P0 0x6b5a124fda72c955e210963b36954dbf68918643ef98d5f833629743b5272bc38ab21c2a6dc2ac36f893ff4dc480284a5f041e08ef0c8b4ad93e5ee1bbf04216d 0x1f5a50d35a86ad2204925e081d1430bd2ca1dcc9a6ba0437a21cc996a81c316e12395d5de447fcf5e1adb7a9d479a114d3afd376e79353e933711e9235c907765e6; P1 0x5c27f282d13918bbee070cf15112963bbd5f6c24382c7c8de60162f7cc8263fb8f622371bce481d9523c34f7cadcc05081de3fd53f71f56b52f9ae3c810b45429b9 0xe0acb9f64552ddc4910bd9bb3f5095ebfdda01f661d62cad009b349032273a14da4dc94b87abd0c0187912eaa40c6645d24bde6467883e4d361c85caf8a17e09a5; P1 0x127c616f614fe0cd398c8981b65293486dae171c0fe11867dec5e40f2ca251b2c1db1fdb9bead9375d0165327ab6862a7ae79fa48bc91454e8473411d67504232a2 0x1ed13ba82530fece1d3fd0552366cc4253244bf933ecc10cee0a909dfa6c146ca35ddbbc971fc39ab7986b50ce0e6a306afe92e8091dbf578b5f77ab046a9d3fad; P1 0x5908f7ccec0b7f4a9d7071812b078e40ab37f9fcd4d1045873c85d254371bbce4082d19f153869f2d6a680977b13204c4bf2d9ab8d481aa4814bda6b4ad103d44 0x1c06af19f89b758facd505a43e879a76feb7e48535a2f59ecdf047b7213e93c95d4f2e45e9bec72df50228443d4badaa69b122e1ece95840bc19c64c4e3f72a0dff; P1 0x49a31b7890d444bf8977ea1b24a5dd2c93f459a461fa2701d89d01b4e9d28ae4810d2ef910805a0374850f8a243c16dc6caf3cf044250972b390a0555078e018bba 0xa1100190500e088f25d004c7d2b9627c3453aff4277e50b462cf1a1631a713fc3ace313ab6a26e231309a5eecb515239c54b3db633bb9cdeda299dbd758d5137bd; P1 0x97ffb473921d27bf1683d834c27ecc7717c327da537a89926cba8df6e7a38a17f03c542415b92dc1a678446b5da9c9d04040be3d1e0dfc072adf761d87543e6e85 0x222f9b0385b20996dd894b4032bb95e476ace89e067656c6fd7caa4fb1acdd2195ab142aa22d26fe9d91c6e1fdedb52bb2e6fd17d394fe9b2eca91df4cdf74b320; P1 0x6d9050ad50178cc63c5cdfa569af7d926ce40f5beeed57df0368b36f62b440dd0e3be270f5afe6f21a38c6f1845dcfcf5f86ea4c611091a8a40a3328f8d04028b 0x83055d68b5d44f55f7e189656d4cd5119c934c76c27c3b0d63ad0979b6c96668a8fa621e14d0ac5f22f9eede0be0935d30c7f4624a61956cd6c09d135d44054e8b; P1 0x6495bc90eb6573a45e8300754095d0dd8ff3ede7a572db55e74e468ec8ed97f5f28afbb1c1767b849bbc1819ba71370774072332cc10bc3852c658618b3fb55433 0xbd254e73ce95442abdd06ff8493a92264d1b52901503763b6d86959ed026cd36269cf0eaa65c9124b69010bff153795d10b19b7734ed411cb12095f007444a529e; P1 0xd1a028ea26d3561c8a77bd959b2d09d9a9254a034d75e3fd48867244d6cd4870ab9860322a9d154839108dcd6746705b03f9e873f4a1b2a2707ca0af2fdcb484c6 0x11bca8292f4e6cebd52f362ba7ded96568d8254384152adc1e8785b463fe05df5f64d7c5c20fb197559fbfe192d32d91d12bd44af1784b22827fbf5b18346b95152; P1 0x1d7e60b54d9f78da1458ada2473d36d7c9c2926bdd2567d92fe6b13b48bec0d527efd908b9c19df22275f02004d9dd37c08edae3980adbf9dca057a8e5c37aa039e 0x58d5c75afde990b43160ff06a0fcb3c9135591d06d4a41d28809538c6a27af2c6650c50bb5dcc9efe2c06f91e5e90162d3b393a64089b809c854a03fea6b4fe6a; P1 0x2e3d815ddad689def94158fa03b218201c465f5e1f04ca83e67d1ce3cef41c51256b315809eca887e72d60e77f1dad11ee2d90dfcef38f205888b2513fdf1cd5 0xe6cbf7ab0dae53c83990e4d6a6dce64e2705714d3001079ced6ce4f2d584d5f35f015f64d4a92704498c82a941a201f4859afe065f2688f54e716c6311ed92a881; P1 0x1381cb54f2034b3917e6aae2b3249da948b1501a9ba6f577df36d2ac03bf0e507f4166f5038e1f65f9585fb977783824ae86fa41463bae5f6272dbf1445810e0c41 0x118753593e3301451b30d34d9ac022efad26868ba0a376a44c47ec647f376820b619f3c8c7b2e8ec47a6ff981715309cebed659f02ce15f227de31c29b5f536bf44; P1 0x1cce0e84c480c1bd8d86707111e1b640c2605bf91febcc98a94181f242df731b62ccdf2b2091a789f902d0fd5455b05ae7b193243f1860395f6afc996a38e1aa3f6 0x18018da6f4940eb8155d24416e15f092edff02401a3034eda9743f5d13c08e91cb3a14062b5e2ffe355906a3e683f9f932389d0c44988a3ae549719d283c4de4226; P1 0x3606fda93508353bd011a382f73755edf907989e22305a481e1a2b4e8680b111cce88ccb80dbd612a2c2ee315125d00cc80ef16d39002f62fd259a99969357eb8ac 0x12d7094214cc30e924a99de62ad8e0cd89a25537874ab311614b36159ca651af47310a7e3c1f1cc545e9a996050bf83b91f544b59a28abcab66be16fcd8267d9198; P1 0x2146ae4c4620a900ac4619d40c2e4003c74a661753d717baea624c8c6e7e7e99a212652cd3b7b5b8bb78810ed132dc51513fea2ce8e5bd80fdfb37140595babd271 0x2728f5835e3c617a912fda64d51bdec6c56a02b5fc4c7ab1d8173dd4ecfb089ad649e8322327185dad6b6b7da3a536e27eaaf38b029f551b3036c8a04b3f647131; P1 0x8fc420980d4d588706811fd80f15dcf869fefca0b9178ae3e251460bfc5490967cf2b02c64e619df7d4384cb6a7b6e82c89061dfecb5eb4be818085d53c119d77 0x18cbd9e059de1ce2518b82471f93089ad90ef6a74d8aedf2032f7a43d97acc8fd0c9c5c9d88b8200626334b18fe6b8704e91a035b898fabc406614f0353770e7f9a; P1 0x39a48c3fe216cf64724da29f34c63e1ce6a2a56040dd0b3b3a3fbaafc727c91767a6a1489e0253765cc31566a84965e8afe63a5e5e598db7d3bb749388a21a2c1ab 0x6ea6575aa85c582ade54642da8e1b4642309bff05c5a0a65b962560aadfb946c0dcb7eaa3bf4db34d367d5c679e3ffd3fc90129f87659b75d65bb5b87842f93b97; P1 0x47bd0ebaf818ab19235bfabbe523c731b71d9d3040c237a1cb601906e5c9f4f07ef94f752d4eb5f362e41a716d1cdd7080d18416236c083dd4743ce990cbf43221 0x34df6cdad71536c4f02495063d33b537559a71a78ab74ac36ccfee9f8480a96ccbb83fdf1354a2d3e78bd67728efc5a17dc727b9a64fd829e2af52125d4ccb0b54; P1 0x10614ad3986310a3838ffb1645c0d5a5862f4ce77f64ad570661ca3849304b74a207a0baf1d24f3965dc7710107e4aea13382896c3c9d031501041604163f80e2a 0x62d127023b75f56a09099c32926393764eec7c4af3a0ca059c0280088f53c2d96e32587f0c293bebe524a808ce3ce4f8b5291e74b687af0f58ae2710a7eb2108da; P1 0x3937331da3ab9ef43bb9c2beec1fe652ec8eb768034a8b51041f9d5d6e8b2304b3a2392e1c603133586571c7f8424fce7ecc6d7e4a9eddfe8d34c5b01cc1b00c80 0x1cbd09323afd4a761a854a062258bce6c6e6d6ecc350b3f67767ce9d864c3f4a6fa28dabba961fc878d2d61db6c4a4990df3939a08049e0cb128e8914eb4f37196c; P1 0x4d6d8665a1a9e7007f030073a6f2bf6827a2666d677d214e9e4b4783a967c43f99f4732ed4f22f90c3284f529a68dbbe7cc578eccb07eec3b6691b442aae0db2b19 0xc589a4ec0829f9d14a7ef71699ab6f6e7ce100f61443b4c25a2586d6fba64a4dbade81eadd7f6e31c80492bb7914ba087c8cd1af73a4735e7f0d6a1028a5a5fbc9; P1 0xe4a3b2bfcd28e93d7e96d2007c462d85d7b4f352c92b5844b958e29ef6ecffd75316e7bcafddb187302538c0837981b0be31fc0b81838b6726641beb854f7baaa9 0x695349c1b84c02b2033c4f5b87df1a305b724b1276c868c6fe14f664fef1bca1dfa8131a9cc14fa65aa137da9006c7efcebe570d2008971bfff50d7e8437b4f61c; P1 0x41002466bb11ddcbca5cc45af711490e56c5a386be1d2d937161b2049c521b047ed5729b3bc90d3b9f7af5d9c42ffc2d8cc3ee8beb841bb2ce4f53045d01b2aadf 0x1ad5ae8e69eb74636f1e79390ab9a80630b38c7f85185769e861b085d03e0396bd75bb3b5089f018625cb8065ad6633a21d9a890992b635a5dcf6dcdffe25a0240f; P1 0x43826b94c48fafe6eec9117b1794677d99ed07f03ff93d0059d49e45d4ac32b757200bf7a8028d8bda896915268b07d69455eb4a286e948271e0685ff4af259d175 0x9f56f9ea16c4628de80212671bcba7aee49795e6d8050a3ab8247fb7cc3d6fc1dc17be1776c2e832c9f6bb158ff6fa5815ffea89b5906dada97a421a633bd67c18; P1 0x94c3bbfc784caf11397386e418c0ab7aaae4c70b2dee22a3dbcae85365692e24663cfdc6c8c02cd3cc3c6cffac6205cd83152e71be295c04a29cffca612fb59392 0xe946ec7d2148714d84c0ded12cd63f465c0149af374c64ab91cf3499cbb629d42b837a821344154f20476cf6e682beea3ee98c8a77627a22be7600cc57c8b5a52; P1 0x13edb4532f03886963c0784dfaabb8dd636f432c3025b57ffece89909a4bfef287c1cf686ebbd173985e653d00860c0e01db8d4581787543b158904134d9ffb22 0x1153b26c7570f1cf1fc9ccc3a616be83ee81fb43c3698c48daf67472ec4a5f4f36a70be3117440b6226a4e2e1bedf83d96326441ba20067b77c34a0fcbf3c5d41ee; P1 0x1c25597616c3cee01f3dbd003f532e7ce4863b5cfbb8adc87f5b5c354b869da050bb54b9ca61f13221e82bd0a9b6ee868c8e4340903522b26ef732146dff06847e8 0x62ee573bca6bdd79c07dd094a57f54969d6185b6e7d69dc3222974a18afdcaf6782370e642dd68df11c4be8cbc77733fcfdb5ada3bb1d4bdc8f133a4ed881c73b4; P1 0x3959050823d0fb83e61a39535c07edabaff2187dc232f94465add2c2db384ec6ae5c06e3c25c0c7d4d8a34bd703c23f8f6ffe3a900cd64f3b313305b47ed6aab2e 0x1bba041b7f39a2967d305cbe3b2a3d5dc3deaa5e1c01ccee94eb839c1ba4276a606238cb7254c1a27f14b12e4c13b139e797d69cc778b2ba75d5c39a76a386c4ede; P1 0x481260ba749da76d55406aee5be66246ca025e94a641c4a3a177be504f9921c22a3cf74e8935d5cec5fec5c78ac21460d7728eb8abd95b18a9d8ba9e95ab272d06c 0x1126fd447e9a54f4ea5f960f1e8d244f15868653f8f1fa7c420a700be6031d7255412861053746e2cbe0f0ee59c80185b4bb1e3ca5030368e51d75175ddfd46e9f8; P0 0x9319c9a1db44d5262de42bb4bf90fd204e34638e9b9e47416261f34295ae0b8fcc5557def344329f9296e6f7dde40d99ea5b8bb70290aa6d162465dc4ab0e5d1e7 0x303a74cea5ad3ab545932c8b95d126ea104474c9a764c444f53f6e4a345458161ea164ad4357b2fb7aca2032eabfac8291bcf38d05e3e5a9e6dc37c093aa5b3227; P0 0x48afc935087fabb4fb91e89f96773002c82657e90d75eda0f87af86c7b1b09fcde146156db5e21414ca4ae7f5fcc71f6f0a480527ab51a136261eea1d99bcb2be 0xf78ce10218b88d0b265c0990f2b315c0891014bb202f79de6bd83220813a3739044f342890976e19e07272f2927e9c900b1b4e522b304b03629c3442001749f4af; P1 0x16711bb9561a5c63de01fba538b147b5bd242312b60d1ca283ba235d7a8c861133911fa7707911402f3eae017c9df6c50f087ec09a4ae1b98b1d71e7df8b7546382 0x1b7ea9b89eda316b2be5872d80017c9462336fd082a2b7a71c855cf01b412fb6046056c6c09e2c14c012d3906db5bc1d5fde197e471531ad56e51404ff76e589265; P0 0x179fb3c39e1d60b091d1cb8a73b7fccf105d7dd388394fe66ba1d679ccae28aa8ce8d645d77c89ee2804e93d82ef7c29285977fe28923e9a06f3ac82b9b257e55f4 0x12812a512141c56536f8c27f854b5bcf4aaaa3d2bc6bffb699b2fe09632bcf7dba57efa278493359ed0057a6f1024d62aa0a58b19a33ead5f69201d3cf4eaa5b1cd; P0 0xab358f8ab7be55683943f725236b30d6e40d16357c6dd2195b1fa53f42cce2aa0ac28bb41602ec923f14db2c8a5860b6736cbccc1b4db5450a3ca3d813b6b27184 0x773d7f777e34bc01f296f6825641ad581897e455bf4ec33b137f63a715d62372381160f31b87192fe9f779aa6e7758d9980303c0de7753937f935c332528718fad; P0 0x1bc51da38adf7975271f50c7667356c1ea7027894d64015706c82e99a0d9069bfd2825233a74ce0d6379244a5dc40351eb657904d871f9ee71c686b11206c749eb 0x18f7eff8eb35158818ffc242c7fcc92c61df70612392e1117b6e17444fb4978f63cf28b4c223b97488b2b23d7374884ea470bbf15c77347a39af54d65a3e2404d4; P0 0x137b68fcfb146d75f3c446e9456f3a9c9224f58df3c15141ea90f023dd8f30262e385452e61c0880f9c80270218c7150896f4aaa017a9af44a9bc57c3b1920324 0x198892048632e3b932fa0b9addd0b60599672521279ab7a0c0c70f56096541e2a916e33cc51c9f01967be887d144cafdd39024096b5e616eb9da557a43bbd4952b4; P1 0x3d1f0108774878bf6a0029481cca30a73539910d6216ee1fad027d00198c9949e12096d3b47bd93d55790fb67c95f1d9cf4966f43435edd22930520148b312efb48 0x30dfc96db40add09a26bf5c988cf4db8d79a0630692e042aac1ec19bc9bc6969f9617763a18d11a18a0d8ac7f26488a897eed769fed4e62ba5f9505ccd594e66f8; P0 0x4aa5794d79098c649550b67982900d04b4d0b8d3354f824484f6a9e61fdeefcf6764e4fb471c5732771b7024f9dc8fa1a7feb3c1182e0c7127497089d1e4cf31e 0x1a2df7f5d20d57504d7b878234e025a35cc5092e1b256709436cfb1fc26f1017fd1d6967fb9bf26f996e5eb5f0abc189a074cff5e1457df64f9c051cd6876d7835e; P1 0x4040dee90e440b5b784752dbf4171a20701a5b1278cbd72f68c3b297a8825f62d47e05577633abeae1dfa034dcf8c79e1c84c444defa1a267caf0bed80e354d65e1 0x1ae9b5337a1b3339db519114eaf52abdff53f70f460d0450f65e3b3c5adc4b6ff42da35ca6db359a96a74de14438ebf7a1ebd138f318a18358b2132d8c7ef35696d; P1 0x43e753eb32571670312ef44166c7c3bb3548c10f2ea8115c6f909336eb0fee7091de69518674e61983fa51f1f1cae7a07280c67bd827029f2165a235926a137c47a 0xa15977354c91963a24d089257a71ec50e2302eaacc4b0768fd82c05855dbbe84940fed0bce079e6d11860c9cd34843d7c087a07a2cc2766ec1e7433183aadd8db5; P0 0x32d8d39a92707a3bddca75e5d4e6e2e8ada35321112cb1230d4db9837f43a3b8b4a0e9738c5fecec42043eb74d494c0002b127c4c5834ae18b14093a02ef9e975d 0x38ec58e70aaceaf75f64d53df563a3278d8f86a515a1c476a27902de5acefae8e72cd73635f865490f7668f1cc30a898a017c2725f14d9094b07d08b334c917956; P1 0x12fc61a5ac4a7c34e3d01b8f7b8906c89dd68f85d97d51aadf6dbdd08cbed9c88a9dbb64209e8d9531effa83fe141b16372d092718c8088060e6e656092f47896b 0x15ee3e5c5a8625eb3287940c9448705d3f88803a2c5e0c84de613de2f5b094315dc1719f266471b6dcb6b1d533297949fe3259f6c2562734eed3e07a2f66612c417; P1 0x2d16decbea4c939e39bf54aa25d3d12161df69bc65bdbd2091a2f9c115a559dde24f6fbf0f0fb9b3585df3b3df8634a0b51604a0735fdc90717c2d5f9662069c743 0x6a925ee8101619147d368c832285c553491d7adceb1411989b1c95049d6eb6fadf8d4dce73039f6f17476bb0e9fc6db392f49f44e3a274a1e7996ec2e998b77576; P1 0x428c4f6cd9cdd63a71d0e71222c7ba17c878bea11f0fe272a18b72cf1bac24d77ca482fb6d707961218cf27336547bbcbca24d317a1ea1b04e4d623014122f5057 0x779281724e2b9eca2b31a4f86652e0a524bb81308e05b82f9e32bc361e579f6725bc4d4653ccad4ef0c314785763b158d9a3456db87f031f327ad94757dffa8783; P1 0x53c64c4842c32bcc1f41cdab4b7ef3e007b26c421e81bbb1a2cc0941d6576098bd64d82ea7a4c81e97b66a87034ebfb00f928ca976648a3c145eeca43046a87327 0xb0fdb58459609f909850466c4282cb978dafdec0f7fc23927d2e11e486a5240c81b9de0aa0c2cc3ff9d16a5f30bb89bb14372e1453b2cf4c750d6a3b17cf6eba42; P0 0x3d2eea832198f79890db63b49ece0019ed800bb5387ec6f304d2fc28194a70bfce6dcdf8629de339f6e5153d25a0c53bf7933a694a88e42f1f26538917e90260c8 0xd8e820782461d45d0e36112c628773fec07e256fd2ae7f38283e659746faf2208ad23bab4a1bc179a1cc0d2309db6a0d69b1b50d2e49daa1e410cfae0f3d3e59cc; P1 0x113accde868e7edbcc9ee84527c90e1fd1da05d29364e5ea9dabe138dd89a3ea15537e293d7ef5e521b52cbae6432bee9ce9169eae322439c211a809f4f69408868 0x1572be605b11046c513ba35ab591b59a025798987a7ede8ee191cd8d2cbca0ed492eb7f8c75132cd01ccc4b4aa3ad2e03d7bbf3f848148be8e83c4c72f7ec2ef818; P0 0xe60354f52a88a9b2c2ab0134ffc3c5145d36fc15e4eda30f5fbf88a8991fa41a059767ae3b5926a5e73ea5ed5de7c0093a5cdeedf9cf2239e5425d945e19951626 0x132071dc351a097cfbc619a27272863ee6df004ab25ed3eb4cc0f595bc362a6fada0f9a73a59f67b0aa55f44d80da10832bc4d07768dd8b6407421c54b872a39866; P1 0x224bf85065cec52d5242d7cbc0e698ff8981a53ee9657296a9672b88cba83d502ea7cb4393416ad0e23bc4b24298b82e7ee318cc0acd19465614f6da37c7c9a2271 0x1060a96a9226793cc36f2e9331bd8c3c55280982b691e2fff24d0394cc0f4f197fd46f2373f729887896e015b39150820593dbb9d0b1c63719829ea002f4a71fc5d; P1 0x19256833b787402040e82723dd3ddd6c7b0c3a63262b2af4e0f5cf1347e243e77d7d770f0bd0277c8739e72edca4ee586b1b0a35635447be5940226218ee60b67dc 0x1d8d50e4300ce74ce0ffd874d9df29202f5451cdf34035171c868cec44a77e903a73079067b8867ad47cacf7fd579dede9bef886bc5699d2abeb0b469f47aaf1537; P1 0x51dfb80dbb6e611d95810bc647c08a087824698d6cf316dfa8d59282193fd8448f5d00e708cb3b6835184ea6b4287ab2c477d4d84fb642932d511d3edb0d75ac225 0x9edd6fa018ccd28760d6598594a34e2fafd730e1f80d763d8e8645e842a67a5363bc98bf6727901b16cdc344cb9701c282b59e559781efc3e99b4a21c2436f798; P1 0x93e11ffd4e8dceb4d76814b5f5184bd0e77d4a65eff89396b301399a8626ea2f8f9925bbcdc401328443a4526629149436b742f79c640be165dbcbaa88675ceb 0x8fdde587b00d81aab978969b09a63bfd56686174ff624357fff296a45f24c8da9f55e1574b2a3b3a27675bc576612f1906dbc39b807e0a5b4986a1ebbaf32b5bab; P1 0x79467a258921a29ae3e89303a4b11b608ede7688df2732a1845a6f2b392a12da685548e5e908697aaddf6e8bffe797bb5965d568bd211c0bd8895fcf6732cbf321 0x95de83109e16bc59f9ac3e970ff821c71298e79b7a7ea37e51cdb4df0c1abc5da52b278ced34ac3d4e78e8b65b36eedce5f09670b05139a2d3117b48f6dd9affcc; P0 0x2bde62fc75f954c768f59d70ef34620c02af93994d88b655b7d1c660e160473bc94d6f1e48f929cefa0e8e47f1ac7d2e2eb9d29f303d02a708e1347afa6175150c 0x1d07af8ae341e31804da55d40c48305fac40c309357925d4f4378a9388ba74c2ae6d87e479ee98f5ba8a44e3671ff89b4f9e2c3ef0eb28dd4f19cd7d2895a7d1f9c; P0 0x1a55f0044ba448dded5a8ce16af5f21017680a13d63fc56e3b9559b7a568a7cb0e44cf156ce6a4f2f1887265ce7795a253acbba1f0d976964c4544a6c12178ce6c2 0x197631f87395bf143928acbf3f4b0d724274229f33c5c35cf2679dbc7a01d177cc2ae79a5cb4595914fc3dce277b74d3d6efa602cedab556754ce16686ba9cc0dd2; P0 0x144262a50af6d5ec9a33cc8898f970354a02ce70214b5b55cd16998db0de8e6141675c47b90e89632d9cfd510c9be5b2496de7e540305e7f1fcb1cd1bf452e70324 0x11b17cc2b2c00068a119edd62a403b406c86c2c10cfd2ec3107e8524452d550c10b231e5796129f956753dba12069bd7b1d0588b21bc2c13c5a365256659e560368; P0 0x9c86cfcee2ef65ef24e1545d38634e4f59dfc33ca2b2a33f9fb8b48b6748fde507f9e4ad3a2c1a85bcca3cc80b8e6a9e2feb303f3d832a92013b2f6638041b005a 0x7d93b7eb5ba622b40374c7d880c6b011844085b1acb090ad28f2631ae19edfbe39437c928128d19ff5366493c6eefd913dbbafeaa2411bde6365e63f62ae069a9a; P0 0x1ecccb6c49f6ea0c47c64f999f91165f62b9f7aec737c390fe084d1bb545972867b47af803a946798b5feb1c11a0fb210328271d16496c6e927abf530245766387 0x1aca5170831fd53fe0a5f1e02421044d2d1d4538784cb63f3b5222978c51c4b85ae81c6101b6006abd0bd4d6469d1fe6a689f740924f97abb3abeea773f3a0c082b; P0 0x166dc37bd0ce4fd53336ba2c42c66bbb6919202b1f6a57bdf0b7d7673005b2e9046e2aa62184f94b1ea2a725731258e03e76e2a07b956941233a2a088fe8306c97d 0x191237c7d06b9c0a10f9ca5639d3bad1fa35d15534dde94861f4471e93da089389f8ba2da763c1bf0cb2343c0bcbf78bf99ad1b5c60b83e696333e9fc6cc35180b6; P0 0x13a4818757ae58feb61913197e8bced9790eb9d14948cfee4744bd32cce22be306c1cf23f90718914b39f5d5db3f6a698f328545a717e7046a594cd6691ae15a84f 0x10b1826db03c7b6cd45b13241a816ca59e739bd3fc8a1040fde2b552f912bd92ca77397e0be1c3d928fe76b79e478aae6d51c60fc3a2feb71cc3b499429a5f829b3; P0 0x8b55b1aa146c86a09bf157055f29c67a123db30fc30db2b4843cec1c4a966864930524d56f27e61a490a43dc4758ae85bfd9cd43a9318b6a07b492ff9dd6a6f99c 0x23e90e25b54696099a99ff5130574d7fc6df75e7cf780baebb717857f47df3d0ab3ba483531f34dc1928c65285b6313f3eddcc4c081a811ebd83f729456641ccc5; P0 0x284c704887eb672ae776bb93ba00ed3556b0e99c90ac204180c72747dc62fac5b57cdcad57b0b5484e7df619f15c329f18cbc950664f71bf20757538b19e46831 0x10f0ac22804953f9799c43d8a84d207909a9401031d14a7e6b0dda5b1117542a1c6b632a74f4f8e1b4a351b3158966fd7893bc2dc8ce1e19af025654fd3b5b8f7ca; P0 0x8f7be3c23c0a82bfc9401186b0d9a86af19b885645f4b80332182e89145ab9f9284daa5094147816dac71419c183cc2b73e903251df22e858671b55fec2387dc69 0x158aa465145467d4ef385ac7eb4e8034f8da78e1b7d322e69bc06eb3c043d31a8cc76da01572751f0bb10591db1c1702cc7be68c18524ab5d1793ef96f0e9bf47cd; P0 0xe805071df0b6ff09089a1c9b1396d73404adf809504344bae24680083c63b0654c1a0a14826c5509694d8ae96851150eadfd1924f3ba367044d55154a3e1594598 0x16cf5d4b567542e82eb6539788627881bb040327d0483dbdc663f3ed456578a24f2e6348e9cbd5fc5ab3ce5d494beba405750781c6423e39d5b984ff0a343629fc1; P0 0x10426007a58e60f8a03e2efa59526a9c8b73f6292b8f273d406d38594fb1c1bf3b818d02fea9312db21c1fe42d900576dda5c292d09c5639fcdd92c89caf8509754 0x1a56046e6b8519441f6bedec3b41818b908c8ee409f17c5d59c54c9166644e41bcc3373ac7786a373356e2be4bc58c87cca0fab07d902b5280f6f289f2eb1c5e6d5; P0 0x15acae6b40d74c5c63db458363e1b3e6b10c53c39b209c0521e1d53676f52b704c3ec7f9462e302b5977da40c73536d85721a66798944216ecd6bd3f9964da91952 0xb44a29560cf4066e0646fb1106d14414e0ed21d89f8cb48fdebf748c7a3f6cc712c0fd491e58f4a3a61f821d1b6ac9e58060a96d9a4e63412077b2c651eb9e868b; P0 0x3f7c2fce7751a998a78d659f4f0329629f66413adec552de57bf485f0714201576f0826b8a9419f10f2aa7cafecb6a5ada666aad6d5f45f4a375ee6c4dbc406c52 0x503160e4768802d221b00a83eb3eba8d5ae5c443fc8bc6c729a27212d5fab9746d1c934d55ce3972cf289c94112a62f34aff8ca09c1758099bf4870171488a3bcb; P0 0xc8f730a831b434ee2619b319cab7be25482548ae44fbfacd112c970c55319ccb82dd33651634e7edd47e25120b75bf268820ef4d5959750567ea2ebafa944a1af 0xf4d7bca5aa4dd90255093ea74ce1cd42ce4e54ffc2dcca5b5f32d0a45d9534fa38754a3d7b0f9c513cb543c504227cb218615fa23f328416a0b9cb572c5e17d4a8; P0 0x7515fab51af618e322328d605ae7390befb23a090a5c6a07f9c85e584dcb8fb483c243e2e0c6ea6991116b1b9a918a635808714b4b423e9b27284eb1f7fb35cfe7 0x1fb220945a1031087bc166817d02b12f3191e781cc8a102313eddec38638aa9beee9841820b6f81c111126c3fd13b73e33298830ac363e027f1e80f7e1b420c7e27; P0 0x1f64feaa0214b7046379202bd878bc47423ecb3bee439bf7e6726f0a8f43183c97a7cc673ca9d3f0320fd80f4b34ff225d619709ef70f000e8f34c918cb4c295689 0x1f411b1af1efaa7d879c1e43c9d9a0231762456514057d9f85be74af478d5c63aad51da0f75edcddf77dc3f9ef7c86cf44a5afaecc3943cb005f9368aad79fbc07a; P0 0x1e86a8fa692cc6ec8f0740b3254e1e4f649ee04694f0a69accd4c789df413fd4abf2e9f2e4caf8d86684e8fbf15bda047586141a4dac6570bb8e2d6418407254545 0xfa3e3e059c42dd6a03931b171f4526a687195fa991d663333fe0f22299a28944677e1c81d9880d84220a956706225e96d25bb92b2b3f9f0030ee33e1ee5b187f69; P0 0x7a4ed0228778805315c94dace5d4e6fce4505a11f77c625970168d2a409b0ebbaa553dbdd9cbd55dbfeb12caa25373401451dfbb0f461a9af4f1b9b33046ac9453 0x1c8e67b0191cac27ae379daa6a4efe8d078fed9c2f7f2adb8248d73693f253b30e96eff01f24e84c0be2973f61cb6abd8021aae41765f77150d837d99590fc5ed64; P0 0x197baf2db6ca767a34658e32d10ba33047c5dea4406a2215e0d805ff7d10d765a23a086d6e9b1bd22c1dda1ba7a4a5effc63ac820b79131b12948ca1ad8cec0cb47 0xaa5183567b3facaae191b90dadbc241a3448baa00505dfce305f547caf2c877451656f81d13747628804d2874057861982fb1494cd22fc16602cb7d39becb1a57; P0 0x38a82e319de6177c3646b6b54e02a25caa025813f1fd9c1cd1bb06c4c805670cd74300d6482a26d97e9244db42b3c220839b08466540ac6b6bc57b08e2075c92 0x16a9123f2ddf98e1ef33804fb291fe2d58819b11b538235e6c72dbda9704a0a003f3f8405eedb3e9d677ea49207dbb48217c4c03b1fd2940b9d6a1c4802ceb72623; P0 0x100bf65fa4cf8c4de9807f79c2991886f5b372a6418d5d5c24dc10fbb4fd9b0c6e4e304fd9bcdcabd20c563de3177afc3a63d3fab7f2a55ec37b58449debef47b74 0x55c0fca5e89dbc95fd9a67d581526b347c9842049ab98c03f23b21a8abcff3df58b39767bf8ed07355889ec7c0dff569c724ee884620c82d19f067d6d29eace43d; P0 0xe5cdca10f565ca95aafce1892133b4b784245b5e20d11c570081b6d68867e4d771a0a8d336e0fb04d5bf16cd3f7b344be93e71162d4ea7fc91b54bc24b0bcba70 0x17c2fbdbaf4845ec0f663ed1e9c86df61d2612f236eb10012aa78fa78cc3f8d6b23f907a41dc63798d38e1763691456cc1e3eb4b7c7f5812f56e8010ab77a3170f9; P0 0x11a4ee2151e962bbdaa112af59b803edee7b5d7743b6d0247258ca9bd2105768b277bfdc1766b5a897cdf8f427bdb4f1b364216b15bc1e50ef935b737e1ffc2bfe1 0xcca8316c38167b7eb9560e3e77e11981f8311514522a70f1993eb53f159e59eaeae6c2bb297e14e774c07a669f50cc06057650901c1ae5ce77317f5919c4ef9212; P0 0x51ce3ea2b07c06c6041e7ac33cc64645afcbf05ed612fa6e5f31914427543b5c1ffb6f86687dde026a9ec3e4548485f25949d5935a93094be451380fa4e61e7287 0x1ffb533cc0fe8e9c0fa91cb2d3ee7c18a42ebf3ebf8b4c21d03f8203044bcb0aeb9baf9ec8c1199920dbeb70bc244fb61b86b4913ed990419c4c4eed3068712fbcb; P0 0x1ff6a72857846a2c58e4474fd3f800c980028c2b681c5dabd3125c51ebdcc6fc872001816d3a6671af2182761364023e6b4caef87bf80fb68a15848403f94c2fab8 0xac9543969b2bd25eb57be0c13e5a01195086b621e68b5c5699ac069a4e0f0f85d5315c05076faf197944c7aa84e9bef60314dc37d9c7e992844f5b6bc0ef6adb1; P0 0x3a2c74ed0fd5d8c2a5d1f538ed0046f40041dd73f6c7a21f65225a8912e8885a3c306963c0c34e80774056a18bd7c6f4d5594878ceba0946f92657c8a2503204 0x6f6c61a2ae2a54e2bb779cd3491234e6d1a44d86b167f66d94b337aa6ea2fb85862d0bdf37f0972862033ca3e558036c61e479456838018272301708724454e665; P0 0x183f9546ccc42c589b225d2ad09fdd24e3ddbd5fff82e2327222bad5ed67211dea43c97ed70d9df2ea82f604c592c51007181b2c20b5de90966894ab0a98699d49 0xca8d90544f221f4264e4754760909affdc02fcff154374c7cb834aabfefb79cddb8e516ac6acefb0bef33a4cb31345c88a65acb60f26b3cb77eafb638c420b4122; P1 0xf065911408aff6907091707c87e82f25ed44da9ca4ef855e2ed0b7b5df87e11fb54c2b5fd0820084f91bb1390c70e9ea2d02a52d0371baea815c4c5e6045ebff85 0x1fefe480381c9b817b90d941a94a283dd89e241e50d1e53a15c94b7cdac0838cb453db164e268fe9721f9714fb8d9e60a8ece94c6250719ee88037c642cda66d911; P1 0x5f9f735416e82de4064b6d6426d15ea605e6f2d6303f5045be8044846e85f8d1b46b58e9828ca1acbbfc2f9c1330713c592efec7754abd2e80e3f9b213f22204ffc 0x10318e1136ef670731efa17578099736cd251587254408575b79fd960c7ef218028f12a9428f64f7208a01da1a895b756e7acf2658f3fbecfdcc0cccbcf12edc95f; P0 0x831dacec26075022704dcec47104a37932984a8db2b0ba9157f091fcdefe79f6e5bde03e742e2f0e1cefc6be9c9c3dc4ff5c6f4d49a01cfc7b45540ed10ec8b505 0x88dc733faa630010299815e5c1fbfb0460797271d213893af124fb914545cb73d6d5206b37b7947bb9aecaec6f7263235618135f907027a24f700aada2e3150646; P1 0x6dc0746ee58473b54c3de68911e9c157e404c04910ef696cf29a40bd80bc0bc12c0ebe3c9ebc602e75267516727576d5f4baf0a546eb2b238b1d64753c72b204c4 0x1f69ba96353cff2be5d7b8399a05854fe8f0d1e452853c2cd72fc3d238ca3407098b0dbfb937d0552ca62ddf52af5c6e635fa2c6e24577b9e38255afb92f59c1630; P1 0x5c82a48742896ff8788e0cc00b7396b4f26c8cb15140c485daaf5e9ed967cdc00cf320a16ca0268267a59ba4d8c0df19fb5a90887b224bc1a26589bf365bc6b6f63 0x43f65fc30892b0fedade990634ff47d56b6f3e557f2bab00a1917c58b420da2033a1ea07889ee0efa6c5902c5a7f9a340c5947fefb5acaef9a356aa48e81b04a63; P1 0x1b1054da67b56346bf3c2a946aa746b30964807bd8e76d012c9d78c671495f0fecaa68434e4f9924370fec5678d097be9e2bc6f480ea00004130999141cd7c4ffb 0x633f935b56aef51d9a55c87ad94fcaba7b1650c35ec0e7e121d5fb21883b14103484bc2076d09009bdae68fd11c8550544d8cdf8f09826ea6efa4b17d838b476d6; P1 0x39b759a3c13b02bfcfc2e0bde89817ac999e8bae109af1c478c5aa17695553964bdd8778dcdeb930c55d75623c557f0ea115fbd65768f2f61bb586a77f4727330e 0x1789bd1d8bf6414792497cac9ea65a88ef332293609d92f59437ccbc8469f53bfb1c631f4a59158f5ba7fd71cd1f4de2312dd2124676989c5cb0109f87e237523ba; P0 0x115050ba23d58afaccbcb85ad87994cf74f1766cc85094ad5601b36876693284c1a8a273162315f1ed97e5475c0b3d44ae140a51da858dcb47960d21136499fc9ff 0x3f0ab7f75310d97cc1bb83f5fe292541c96a3004fc3ba99278d2a42c4b17cfad448bddb8d91b1ea15835adc1cf8f445b7c834386f6150dacd33956d9acd2a02d23; P1 0x17496a7ded9c7817d2421b2e2e367cc814b6517a68dd531ceaf06af5f3922b133a93bc140fae1623a6f8d8b9e781e65182c676119ea44c5b0c69fbd69ddeb92242 0xea10ff18709902057c4a12fbe4958e2db7a22de57c0677fef83c9ffd9027b5eeae12307015c37006962aa007a54a843edac48dc760be088687e9af58877dd91a9d; P0 0x6b0189bcc78bbebc34123fe8fa3369383fabe47e80901a9316c26b2d2b00ea37d298960055d78c0db4f4ca9f0684e9bb400585b99eeb12cb43f5aaf0bc1d707817 0x1f6f3baa48aafb0fb2ea4429248bbe74c095dd312385cf9592c055678cc8d1cbeccf5c5ecb05de5ed690883fc5584a2aafc2cdfc4586ea9e8595d74ae6d905ebc60; P0 0x1ee106404962deb76309832f4651b09f2503edeb2d0ff8b39ce28652703b01135afd3eaac8b0386b6ebfa97fc3ed0b2dfcd889d7b702b6ec0db6b05d1239fc555fb 0x1d350133042ad32e23a9639ea83476d4225b10b709c00b10e4174c5accede3f2669af9fe48c9117aae1cfcb5fd423e6c5891791de2b9e848578ec2f71de80e279fb; P1 0x4ff93de951c4caa55f284b336ccd3749a3dad3d1c1902bb7ddfaaec09e5e1b52a5aaa5ced48cdc14cb1319e2872e16c67cf3e91b1b35a01adf205fcb0d4c5431c51 0x1be14bfcee4b88dbbceb33a8ae029fae9b87e485b91c70b878c3e9f5442d26eabd1fb3b8e3768160189f4c01b81344e8e10544064cc6bae6393e895e7d49124d09c; P0 0x184a62701b67e959869363317dc99c61cc8bdef0c7112ed59fdf161fff5f81e51c991a52518e0a32ed1b7e5efcd169dc913fe7d505c74ac8831122af395937ea47c 0x141c9b45d974ec0b3021eb2ac1f69c78c463c824a8a30aa9a93f53f0dda1213a7fcad6ad9967d71d775f109725aef7e6afa79346fc490d1c0bfcf80b791a15c838c; P0 0xca3dba9fb7bf6bf4c60606700ca17ccd5364604e30f481157f82df3d18f842ff9ca461b8242e65fdea831967e8d99a2f0003cb6fb086df1d5ce8e96b36b63fec2a 0x107d08b9434823f0a1d4b8e6e669379c104ce8607f8a2017b41447294f4017aed39a3779d7568aac40b4b8d674732c954f50b579a0bf70be90f517e16b39e7880ba; P0 0x87ef1456d0699bffb539f26833f25a2318b626283a620048b8cf9a5f9d519a00444f8c7915bda31c0242dbe8fea60c8c56f6427921df49e359c2b4097d74938f43 0x5226d0c040fdebf82653fc317bb0d8490c98cae219a9d4ae8ee5ea615d4f23ac76c4c0d8149ebffce3ab9ee6c6d5da5351c5301fdbccd32a7de288fd37fbae1667; P0 0xd2e71cee67778459987296c6f6ffea4cdce1639670c63cb8d2ce3dddaebbfda5ded2c856202e400f1205d01bd2ee854174dbe09b3aac35ec5f7bc546b00bb6e81 0x15c951c35027868f09b372f4affc39e3969df5231cb6709d76bef93d550ff5892dd3f90272e39d71d680569d0b478adb563985f7440863b8795d5b060fd70b54bf2; P1 0x2c7f8994ef34bd17b005d5a01684d746b11e52eba7a5df481d5fe3fddb11ad2b77f8e8eccad2eaba353867efdf24a05867fbc00a5918b6140e7008ca2b88be69f3c 0x1455663db1e7869bcc091b9aa44efaaed3cb4e30c08263a461faf16c5ee5b21cdb19d7b53085991da55e864391643eb3e8c67a14a378fc7574e3592e03d3c19b188; P0 0xceba3b58ccc4b53f49985d50650fa276b6620ad9e8d6332bb86ff6a3ea092aec3e109a78ca8f01de36e09f839881a8bc86351198cac43d9359e4652c81ca13b929 0x184934321b048c28a245f4bfa04c862714023e4fbda24cd4e1cfb46b65fe63954bea18862c4df68c05a69d9e9ad4aca70ad2d470ecab1269add5c8dd51db1c11169; P1 0x374b6144e6cfb7bf2c051d7db8046c7daf8ecb2ba3748c52e94acd1af36e5ce00112a1c622312b39261b6063999d9c7adcc30ee50c4c2fcf55792077c0162e42e15 0x1e26e0dc3c485ca01debfc38ad770fa08dd58e9cf29b99ca981ca73b7dc091aad874efd766afbe15285c2ab55adefe210cc85863cb6cf09207e9b6f226abd678548; P0 0x1c6914d92828113a99acc4ded09824e1eec59be7a65152d688f88521448ce10968b95d9a0c169c8efc9559a8ef669d5c507096b7f2712aca1f4e21935dd1c7408c2 0x1418d61819e0b7fa93c03543350e7b0753baab51ab456b0ef6ce5793f908d1953c144797e6a154add8bd171eb9111b28e2368a5d0b15381f6d08bccba25f1c7ed02; P0 0xc9f1ee4dce22351b3469c77ac86f4234d5238c6cd63e1642f754cbb89e99c685ed578fc171986cc4b6cbdeca19c9f74b570eb81395ba43f26c7257de387297de94 0x13216d2b4e1bfd778729fa5cdc2be076e2858e943f25295e42c18936ae61f1cb53bb7b2b969e8565762dd0efd323c149b228eb1bfb96b0c88a4a613512c8b209298; P0 0xb6fd48e0a8195720fa8a60e23b02da1394d375f220888e3cf904671fae267f040da4614b711a8f461f7130441d89df150ee9a3b19115ca5da6dc6497b4e176f46c 0x9c0021c9d587e873c74b4984aee5e839e0d666562928bfa8ae6e2249e7a1f8de13b6343c391d72d86bea9636fd57f9771a82dd0a79ac4fcd247a878f4aeb68aeac; P0 0x2f8814970059a5bd932c08e0dc93b0e5f3f84d926f5270d950f9732e090421bb4873537f90632bfdc12975f8abda1d4b8ae70344a4edffc49f5ea3c102662c234b 0x918daf8d5b720c845459afea827d98c612a0134d78b5c09883d209a4c05c8a9520693fb28855dab2c628fef940dfb1fb7ccb6b8f0392f134cf6c2e3ff0911a66db; P0 0x2960e7a47dd83f71bd5dc07019f1fdb383756aa1a6f014efcdbfcc6bfe4e9cd87ad5a7070427e0d9b5d4f0e8c19e230f7d23c020da1d9b776302be9f05650172e0 0x13392663da8c969999365035be95be08a3557f9c980949ec689409873d7173830e93506b9f451691396a86772d5f8ceee9b0948b54ef9477b4e23d22ee288d0b239; P1 0x22a4caf68fefb2f8bbf2a1c795d4a21c276e9e6b6db3effec21cadc61692d6d917645ccd9549053337d6fff2b75ac7e276bb09839ea2412541605aa0164004db94d 0x87fc88d75ea6443a48212fbdea9fc6a615734221bfec50b4ce313fbb28f547fbd5ebcf05ced3d50018bf14d6898d85eefb6e35a833cd31a08c8526b1cbfa67ab60; P1 0x6c5a7a294278db92da5e157818d70111d68b1f0edc7692762e728d433e23d8b595973b3059ca0305688ffcbba46dbcd1a2f4ed1589115714921f444c8b5580d5dc 0x1edf67d1774d0fa8682dca0613322d29b766ebe03e4f235eedf46b6134d01ac1186ee571cb4929f06996ae5571739472e2fe7b99ad72b16ac7b51bdd963e36d01dc; P1 0x595aef0b17d31f928c11186fd4c8c966f6761869491f50273b22d03816107ed182e8a1e5811039ba80ba7e8cb7d8876a697b7133d068ca3c8228fd3fc2891ab14ec 0xe852b83d76ccbd20fb031941b034802cda639ba45de2c45991c2906476aa9045fbc2c57cc9d1e682bc909e09a1b0f372935fa63b8c0ddbde59ecdeb3c4c9bd741c; P1 0x13c410cfeecf1693b9efe049b8963af7becbb6bd4bf231d4e6817c007cba0fb5c7bff55b405d910baedaea7ee73ef583a215feddc05a2db563644c229d83342e81c 0x18b88e8a78a591585aa66f12df15f575632830918c3ce6f78ab9c69d097798bb6c93575b5d3e8970d02e8b52aaaad07b5fc7c05c56c06652cc6b2ce28120d47114c; P1 0x394afaac38f92ff34e9cedba2855feb62b36bc837884a72f9afacfbf4f2bf8088dd683928a78f13d2c97faf73a22fec516ad22b837639deed41d27bc12e06e83d6e 0x1cde1d7611aec09051d0dfb7db7c2774da28e5dc673b9c2e6f46361599a49c904211745be8ba75fad876cee5295bc0eba98b01c332f9cc7197ea1af2fb2fae1c91e; P1 0x4e202bd680d49812b39b979b70b385fad5b7ea854b4f6242c8b7f760d5c186a5126f39ff5011ef2903d2934de2858d8651d97db605d47012527963b311b689041d7 0x1d082039388061b4f975917c7cd804f3a60d6b8ef785f47895b0102619f2a93d3a704e4764efd8c164ee5a830b89d86b4f1c25da10448fd447bee5e92189ec4a063; P1 0x4f043567da6759d1ed81997354b4a33dc161a208c8e5ff2bc07fc0f0857e1e818a49f4bd0c6eebe3112af64d26759254eef18fabbe94501dea6aa1a4c7d8d6ea70a 0x19259a353b91863151ff53a0d04eb16e438955f228d25e354459c4c0c279344faf0794f46601fe2c931d03710adb120dc9505a6ef8aa07ee2498b092f2e1daa59e5; P1 0x3b48c7680de9884d6c24fb01f45e79a9a4afb4d227e2ac35b4f13f08240313974092c9aa9d6c92ba145297b0e7c52eb946bccbb050893640f7a9cf616c15638e98f 0x36a9641b3ae042d542189dc54c4b188411c86581d2632769648e3961379643169e7035f7d51ab07ef3385754e4329b6aa73dccde9b2bbbf9ad4a4360d18757fe1a; P1 0x1181d97937e771c653c41da28f98f68624225496d420d1ea8ee4285cf6ff7a04fe48415cc5e5ca35f61b160e1439a521070b223b1ad2b03c3e6f9f19b3b9d024fd 0x18da5c9336586f9ffb213540b5882e56f52d51e6707964ef1eea7d08a4ce1ab3d031cc381ab3ddc5d87b5b98903c480345dbccee9d9ddf4dd8d57de11ca137af4e9; P1 0x39e816c1994eae4b153cf9e4ae4bcb14ef0a881f4268880fe1b6e14abd72041478967673e8aa32460975c510ab242767e346a5704641a57a367131ea5817f8c277f 0xf00d12bbbc3262470b79195b41ab23d91b249d1e6730a0ff6c2dcbe3ac3175fa42f7f65aa18b23be8d7d3a34b0e4aae4547718d8036c8f50d5b5996cd84aaf1bb2; P1 0x151a4c5b05df5c84a23c2c04388d1604c1bcf54c3616f8b598d5fc9880072b31a5851abde4afbe8df83a11bb092ee8335b48647b44459eb7774dc5b187f162a6fcb 0xc8bad42325f9b987aac5a4b2d1d544e702ac975114747e027bdae1ea2128c5701e3b08fb0ebdd8e00b59d7a0fe5ec1be9f575c2f2a4dddc2c0de9af8fc6f3b8717; P1 0xec16adb7cd4d6abde2c2ce91a569133375d7253adc3145113effc7a5f441a9c12f0b248adecf20e63c189134207a0dc2019fc25f6d5a2049d9e7085fb71da0f5b6 0xf74793c6a9b4efca454de1a103597969376c97965b5460390fde21ae8c17891675c2062cefb0ccb6eb64d90aed4a95aaebf37eedcc3c02c64b3d5f687974ac1e9; P1 0x16648ccc2fd788f391d8e835478e20e359670596f77670925bc5c94b3a5582bfaffebb8d7b618ef8d4ed2ff6bd8facaabb971d84a5abe7132ac83dad875bb13b8 0xf1a8b4f958790f4cb0b075b08415b27a3b78f91b873c7fe0ee8e5e3c115690e13eb39dd53d22e18dda747384cbfa69b634873c3ee6de44b7bffc7a9dd3187a85eb; P1 0x1562e9de13fab7776e960ceeb4d08b38fc8ac8a4096960020e253a4b4433a1e33817aa9ba5f0dd0865769b155b725936ed928a794355837520cb55203672d2264df 0xa11557292df519f3ec974594e5ab960a7e77c6aba52b7caf6791061294749d803809be0592a483048cf526c2b4846b3038fcd64961cdb0319c86fc9ccd1b40760a; P1 0x9809c61dd15b45131f01ea9a9ca0dcf5225a6fddc1651b9a46196cd0085ae6b6608454ea277579ee020923bc836d501e652a6e39d28119b2ccb28904cc8714db2e 0x106207a60dd8d3f1d3d918d26c7c50b6dd0699067ca521206b267b0b72bc6d08f9fd155f5ae124d05e71eec1b7e732588794750f51486b8036eed98b43c8d5c845a; P1 0x19299bdeba44f7479c0be8c3bf68defbe896c2958625f56a2d161b703df9d6d6516c46170c22b5d3d40f5841489adb825a6a3ac019f4949e36ff8efee2dcebc152c 0x6f0e2a917abd43484b79236dc6eb87907189e753291022da4417a33f37b87b2c5ec5423963f57484fc0567a1bef207243364c83eed96dc8f916832de6d6a12e418; P1 0x4843ee8c432469fda30546077596f94267432841b48005fff1be701f031226acc1342e69f0fe4d1885f2fdfe5c1daf3f0e9225b1473c2831b8b627b2d88eba70ae 0x17ee35745ae08fce14b4c4b6890160de12cdc80180f99a7f6aae386eaab9cb34a98804ae7de548404d9e41b1604958b900e51b3a3bb231ffd9b4d323b02ca8ab76e; P1 0x35b00e383c210d8d352f35793e917b5efae7e00c2398a349e8f18d067741b72198fe79612496aed0fe30cddcfe0427716f6d35d075cd554ac677b2557c7aabd99ef 0x13c76918d081f0c5e851520feec4a0e3e11c8c0d3a43b332a4694657b0b7a04e658c84238666b0e937c4fba19874f192e8b91fad7f10877dbc624f1aadb44d0f3bb; P1 0x24acf655e0339ce14cd3b40874c357eb4acb46dc48c62ebca9a08c43518c9415706a5bfa95899013392a4b16aeddd9f7c04a7c9a9483cc00597d4a09efe9b4ca899 0xcec17c66083fd8781674e12c3e0aeb3f5519c34bbcc2f4af9d75b6c82e2ea67b5bb6d0f5bfc2dfaf4e811d207272ec9eef7ad4b35b5badc6e74a01bced8b124864; P1 0xfa79f1a9855b49f5211646486913f660cf56cd8fdc58c7cc6f957f6b9ed84a010cb989c2d7b49055189cac7e80dbb58d933f9180d77ddad2a738a260f03993cb08 0x10e568db97081e7b92d1b606f4e5dee96bafdaa5d7d495736ddba08fa2abcb5ffaf01aed8aab9ed50dbbf0f3496dedbb9f8dd408bcf214d0a134c27b028c92d0038; P1 0x1ac380852088f1c7fcb074fb87796da5acbe07649a4e7dfe6d8bbd2b41b8e9fc8384b51ccaadcd684125b4f969712d921615e181c9106e6550c029cc58067b60d54 0x1f92664838b87efa38fc5a997d6644c9ed7dbcfd1858eb0f76dc4e0b0e0f1d91f54e73cd7a1ad72348b070c87fc675e42de51423f30f555eada0b2b10c372c63214; P1 0x5d72cbd797884269d1d42b0ddcbfff6d2a70e21aafa1908df0029c08a44e969621f7265b15d0ef13590542ef46609ab06647c1d0471588a1a151578f768326e4699 0x159bbdfc63c2086a138b67fc89956f8600488629c640469984a65a871b88e84b7b3c6b125f07e3cc66d03cac5d8fcb953e8a3d35d7ba78b779f3098b0f224a1bb49; P1 0x2bc61e0877be9b4f77011b6b4d077b792ae7bd6b865b098127bde13a0eef5dd52bad795d1fd412c414695ca5c55a3088bc9e33e52670a8c4be01ac1548cf57d5a42 0x166c50d22ae7e3c791ade7d633870ae4835f4332e68dbabfa708933eed57ed182240952738b6b6557fa404c0d4e1f17f2735f274f98b62dccfe686a5f25ddfe8ab5; P1 0x2f231949f54213ec32238c1b4a5a0ef7475f913da318dddf9e0980597c96c652312e817849b19e7e319bc03dfae6afcddd421f8ff23e678154063f637391f16ccd3 0x103c46ee0f7e4c4ffaaa2f7dfd836644d0ed3ff26b5a4a404a6907643e91307f06a52e26a2cef2acd4a6cc98781538b4ce4a5dd7771f5289254b2b9ebeb4411b8be; P1 0x18b62969fc527e3797eac229d041d49818aed6359bc0cf58bdece3d83827c31b90c0ef251714f2727855251ea699ec146aa6730f9cfdcecd3c72efcf979cf622dbe 0xae4d5375bb45a244fd7a0c52c2e18ff7509bf0583b9821cd16aaa4ad24bf22239b9950428d125a986e9dea32229c5c55c76c9a7ddcb46b1af29a3f3e12cb0b34ca; P1 0xb203cf3707e84d13e5e862679febade847ee28e5de65a5e446547f78327daa75f381e6c4d6635595ae15f7fced40c16d9eedc8f26f05bc50952e2b51747d738f7f 0x6dd131d76a8147a53056feabc3280e87dda908c7f51761bc5634f2eb654e2e806afaed9ffe9cf68d66b4e1678b4d2091c60061620ab9ce66920cff714e4e2f9dab; P1 0x46a9b715ca333f34d0a8db41033b2275990baa83a4ea71868999264240dccc6cb1ab5283d88bee6b57ac0147e1523aa569062ff46f02b2eae92e73d2db9de2a845 0x1af8702728ef1007147ad539f14fcdab394e0ab37ed5f603c70c7ea37c5f10721e35e2d88f07ba7ef9d4e652d1b283616c8e6455f6fdc9a93e6e8b418460b9238f0; P1 0x4431bd229fb3c5ec0edee72a2da64e88167ced5ee5840fac1ffc59f71e8bf344d9ed63f2a32943483f5d2f2a4643922027f8e1726840cd3eff65993a9f01dcb0381 0x1a09f46dd6aaa12bfcc74532e4d71392aac3d46d36d39cd48c558bcf257ff1fc5d4f58980b9e32eb7fe31779e979b8c3aa538ea4dc684cd4430cb91c0ecf908a681; P0 0x1530304b45aa889047d884928157a42479cdcfea6046df7fed26cb2b1c938fc2197d7fb8de516a049981d7aaea82c6015cd6b3435e245b8720358cb4687e0957ca0 0x1846b77f885ad3986ef8a83d4dd7f5649fbe839abc25f29b61ed824857f54f22d0fa468c6db61f4d56a5ee657f2fbff80f66ff1db1be4cf8f29a0e39891a6f109a1; P0 0x126aaf8636b96e95cb6e83c43ac3ec22c4f0a71696160c27e50633cfbcdef898d8db4c679ddeec6ee3e05b69f893878eb340e38ed99b02b6ae00208439f9753f6de 0x1e2eb1af10dd63f3a490bd510602f8e50251c110c84d9b9fad5bcb8d13cfc5e84b95b3646bc3c98618c35e87409e21a477eca0c9ebaca69030f1ae7d77184d2ae1f; P1 0x556773e0d4a400ad734938384b173d4551352106b9fc15650ff5b8357118adf4502191d8dcb0defc9e39df7fb63fcf2ead6190c22e249699313062b682068ea7f65 0x130266cf2ee391c7a5c3ccb9ed759bb3e35e15a7e5f401456f76beba1c213474bf45d900d2b9699acf0d1d254307acfbd37653c345c97c1507d4209710b4c8f6a8; P0 0xb4ada442be221e0f40898c404b4292d8c778832798dc0085fd3df5aef419b207d6aaee0b785177a6e240aa4c70e65aaac8f726cc638f482afe5035c2f2d75d2d 0x15848cd45a15135b1884f47990b3c7930c3a4c0f461c08ad65f7b7917c594e3c5b11d76ff21d29b07ac293afac33138b98e6c69c24bca83167b1414736186feab6d; P0 0xe781de2f9ea6caa3decf21292d5fc1ff4560113c8f970c780f50dd3b6a079b2529227925e7f5fa67957cfbb8373e96808d1511c9620b2b1ff0188becdb603134d6 0x33d89833b192b47036be39c121f78aa264ef36455cda4cd2bbd67a7365ca03cc4b520bb761bd74d92609f1d9e5c0f37668916e5500773e3db24bc55c441b48013f; P0 0x54001f2e53cc461d288c1a8cc58e4a14412d931a319d5ca8f76f890506286cb04223905ba184f74be10b5d5e8e66566f88539794081d93557621b1cb82fe48d30 0x1ea9e4f2176ccefb067de01ce3ab508a3e3c093e20559e2f3db67ba6addfbb444454c58856797d8438f17766e9b84075f3a4b657736f9262a3a791f52b42d561ab1; P0 0x1d6213468f0466b1cbfa228c7807c2576b6df102604c5be5b0f51afd6b132cf23fd368bc73b1294f8184f4689f6e03a421670cf0bb4c24d1c0a27d4ebd57a941362 0x16b560039f19b938073509ec89be82e5692508aa3be7b64adf0ac0c2f4927abf8dd23d90ba22c4e42d732c8d01cad847950d3ef0a6541d5942ee2e93b15a64881c3; P1 0x30583824cb72c60ec4af320e61db72a513ed2ffeb4a97c75c174945d4935a41f5511e5a9fbd51d0eaa5496289e03d8587a3f130d00bc798eed627bed5efe88dfabc 0x1c483c688f93384957942013f51d12d63e087afc6aa3460f5f68b251d0f3b3ff5ada51269759dacdb5b23939d98c95da08db8baf1dbeb4651ca09c6b06052f04a57; P0 0x18ff0cc743d1290d777ca435056f16e9fe1bfb177dba6fa9f2353c88fb3065bcc99130070751a659d8588a9b9698fd616aaf57dbfed598e490394736c3d634e5729 0x1a60c1b6eb146f8e5792c03c75fd2f43fc0216679aa92560d1880abd72115b2b96b395e94d23d06638884d755a54275659cd57e21c6c1bc6f8566559ea89804c0ba; P1 0x413b1e08548aab6bc83e2fbcd3169788575c3ea59cfa8d6bd109584e922e49aafafb7fab8d59072f844f86f98309f0352f5385a50025dcb0429832fb56c2bc29e98 0xe92a3203487dbfc6314b59ae430acaa6b35e6aeb2ac7dab6fbc7dd475da42eff9e4f6f4c482c8afe5d6f80329897ecacdafba4121e6fd7823358f448a690793404; P1 0x13e8cc0fda334f51065b95645536d849715913b5428781e6558e73966e78889f1d16d5aecbb06e1de9fc29f105d2f2f3b79defcaeceb3ef2e3b6570ee1905eea093 0x450f2f3e585825f94adbfcb1adf2859bf3ec1ad55391fe2ecf0f5a83a091a70df3e2fe74891a352e9230b1c587fda525bf76cb2e2273d21458b03fc95d28fb80c3; P0 0x950982f16d2e9360e590158f935bcdf9b758170cac978619861eb9f1cc54a72753dfcf6ddac115f1b7630967963a1e861b9e5dcbc6d2a70cea2d93b22f577928d 0x9ac29ff6406f14f7df01b0280971f5d17023c6d69ec2decd39523132da673b4d18bf6f9512351c14a29465de12b1d0ac3aa48e1a0f2ab4d7f5e0508e23a49d2716; P1 0x8c561aa0a80cadbfd299eedc746b694e17cf56f6180e9369edc7a99e001aaf6f98a2568c9946d816f18d3d1b03a7e20bcbdf82f43103b4e2f94a12d399d92eedcc 0x10df7c14546d3cfe82fcbe6979c2da2c8df3a493e393fb6de75158bef2c2ba06424df7675bfc36fff2a1b34da080545d85c2cac45d545b091e85fdf4b4d4e0a0f78; P1 0x1ab0be9eb2aaa02cdaba225603c2cb13b104be1eedc5cf75cb94ecdaf0cc4999e1339ebc09946623513314f79479124bf275f10248f9edd510cb758bc69d1e8c10f 0x98067b702136e674c4e932218c1d5d9cd195fb2dd2d4fc64982c41f75ae9a4aef0d2cead7d7c526cd0814f87d97ce546018cec3da8f962adc88d3ffc70d4d699cf; P1 0x876b8c1ec25389e7f3a8cf9010802463f08d40b38b5732999bb69373dadb72f9862c42f4daf1b8076a28b0144d480bfabcac5cc2ce6f2f85ec4f1db6058383535e 0x101f435c7d185c929bf77c371cb84c58c807b38bea287f89886dc3cd4736083536e759ef24f5375e6e8927bede49aa3c81c46cd0a811afc45a9bf62755292fa9381; P1 0x185e25b6aa4538c79252dcceaab20e3f0da8dab06b903b773534c6a5db963a98c6ccb08532e69d6eef495d389e56d8a2fc172f7f738095b8d9031790c4d25a823fb 0x1bce53a0a2339076a6e27887aed77619ffcffc0aa3ee73ae23764e1e66733b364c303ec7f348949a352d7c06def935a3aa4212b66a8ff3f7b530efc96c3d87c58fe; P0 0x18295f74a06bcb70e8795d38d4026154f1c540384e57c651f6c7434c91dea987aa95dbbb6b7f2c2d6f8b5911af02dec2d8654761d563f8828b36601330ca07d6a2b 0x4b49392eb3cf1002bfafae5be09ded7268ee05a0426b810430e644fd19e5ded4fd2dc2df76e698a9c2f6a83bf7a9938542bf2027f084bbd7779edc8093957d062f; P1 0x2135faac8a258e181794aedcb372574136fc46e27fb5e47ad11af44b93dcee3075327fd98bcc77150616329e1bfed6f2206b42faaa18240cf6c19d5bf85fc7034f 0x11da249e35985500c808e5996a9dcba25f38cb165ded458d2597c4cea8a3afb98392ed1c67b9b0811a690f2ecd63afbd37b1361c2f1ca47a950d121fcab9febb932; P0 0x9f595fb2e731c9f587b85b1a7debcf872b3c3b88adf66daf3401c8a0e5abb9178440855188709c6111138d94e217a3fb1f277e4d8d1dcd5a0931a408ba0b5817fd 0x10161967b1c24f4f9535dd90964c641786987ff0fce9b74ebb792025fe413feca863bc6f0e8b4064da3117b7cd34513d60a8928823146219259b1f28a9faf1d65c1; P1 0x18427a001d8630c146a04f0a3aa234ba4bbbe4a3908fc058378cc8bcd3d7a40517e1028a4d7dbc1779f0d5d615b11f0422a1a64b6bef3c6c8b59ee72903c82d5bf8 0x1fb79b231fead9127f21121468fdd5dd59bd43f11b1f1d0a76b138d42723cce29334120571eaae81a1a28da862f5e5944d6ab48bad3bdea495b779833b804b0ee7b; P1 0x5e4f8e281f117b36e6f5b04735107ac75a190ba44fed00c622101954441a37cea0a8187406b2b36efdcf816b5955fb567fac708c1a1953ea997db4eb916108416d0 0x64bac02a3f90e03642c0c2b8873d887450f0f444cd05cb0a2851f3e946f66e8a2afe613c6f23a70750e12aa1fec9ba8c3a9bed82e0af346fd237d436bbee5ee41b; P1 0x3b73a58b36f36e03a5f4c5c2cf1960a9ea29dc7fff8d09b80a9d3989f6e1ba4b53a023f51ccaf70b5e2740c7a5521ae83684024cb33a57c7bc8e1b906d051fcf77 0x151210c56b509d06159a6db60e478c3a9774773ae79ecfd886f3395c66ece8d7a615eb5053d5ac6b16629fea47dd3bcb3d6c150c31a6be2ebbb30b734ae8e5c2002; P1 0x299f40a20b362223e9fefa42d439ee12b202549c71e1b9a879e8f5785ae32a87ea39e6e95599dc48ad74e714682ccdd9c1d91eba35fb028b4a948850ecabcc6a5f9 0xb844b4eab51bea7b01febaa6adbae94d61283d7653fab423cbfd82a6798514fb5d46cd69c9c1b9857b5fb9ce783a952a24e8a356930c2c5f22954d04ee75182605; P1 0xc6f441c30154dca65bac09e4c9f77b28eb15abc1aa66756f13637cee57cdf5b3e2a310ab0124107796c583fd45bd75c092dc58e0609b18c054b2c25f3ce0395fb5 0xd8b136aece88dcb3fbf8993d76a41378e704bbf517982f6317cbb14210c72ff5aed53ff272618fddedb6bce8c7356ab69d07b298acefb0c9fed4ba2a3809f9d400; P0 0x5bb5c379d2f7621807ef37d7f66769dc65c8337d418c4aec87e8a5b41b4e05f8f671c1dd549dcf66b23001385c06a8fac41bd2a69bb5a311f177b0ed093f65071d 0xbafb6b4e68f61a89d5d43c080ef5eb0ba71e1d78b662cb39c3aeab43f0bde7472175633f3366ad2b4f696d9b6fee461572d7725c23813677a3def131bf56f5071d; P0 0x4449276cc4a10a751818fe271338d7c10fd0dfe52216b88063f6b2a9ee9a734b5c4cc8328b64d2f840dabd96e9a983ff03f54fc8a3396c8f8b011b7281477b0bfd 0x50788f54ada64ed82f94821c18eed224166901540de59855ba6aba42680314f60ff650136ecb6aee0f785bd98cfaae1fe49d28a5228b0a14735d98b515612fa546; P0 0xca5c92dce1539999fb671169ad924c4221a4321dbe6faafb1cadfd94c99e4b85bbdf390b17542d4c48b9623685564cb958f63483d9c0c66016781e56b6ab27f10 0xab24ae5dfb19475faab51749e8745e19dba5a966e4d16cfd4d0c85118bca7ffbcee676beaafad7a37c79cf20e3c79bfc06bfe317165e3d16c4fd0d23049119ce34; P0 0x3935031987532426525236080cf270ce144bbf2d127a52423b6b1072af493f4d5ddbfaff3b7eb78636c485fbdd2b46eb6baee79411074dd47de68ebb856a21434f 0xdb8f8738d13d5c1555af876e4edd0eec31f1418fe96598bcc167acc6f96ac18ebcd4000c63b044d89a08d5bbf89c5253394d9dd68db51882118945a3563e60fddf; P0 0x5e2770e9c772dbb226b60a4a3f7f590a35f7233f075d8fbb77e545177f11c50a77fd64ec0b056d5a3e0520e1943c3d7c8fc3d05e731f283c6a08c1f232c4835112 0x1a6e7a0f15f3fe7050e23b1fa30e8a44ad9852d89802c658bb1feff08f3dc63072712eac9e57a51a00d0ddfe6cca17e237cffbe97d89d28d0870c9f9dbe2b85d953; P0 0x15d503c17cf6796cdf8227ce546f3557cb534d31c9adfb848286817e9992213ba1c294822dbd69669c310b2b47a92ca4b1af43f8606242adfdfb71ece42a792e060 0x53b60ca3bea42efff182be878e893c0d40836a8d7ac0ee5415abdf0a013fdfe58eadd2f69d17febf40a5cb3c3fbd8ec4847bceb2146bee60b442dd7074124eb149; P0 0xdafc6d41388a54440fd128a6449bd88d98d5a5072d5af3bafb174879011b6ab638b718e40005df60e6675289b9e29339181d752c1397ebcaf2cba27d809163bec 0x1ff7c4ce23482bfde773ca306fb28f45218d9d3d1380cd2c29028f8f4f7acd883eb590fb0f2a591d5df200229bd00bd0045907c7b29da18bf445c83db1ed05842bd; P0 0x1fef8bba4cfedf7d93189e8f211be1fc80e9b1000963db0cebdf908020469fb7c0e25a60f0f8c0a165806fc25ef1021d6de4e4ef58ce747ad7bb93e4de51a90edcf 0x401c9e207711f7728b348ad4dd9a079d84b5517a397fe781745e9011c198fe5f848b45a6335d9ad07340c0f200b19bba0badec2f7d4078e5c5f1adb122de6ed58; P0 0x80729219a278f5fc7fcd757dfd74316fab395f0e9fd181d12f2f757c9a6ea9a982cde6905c399ba201f95e2f053265637cacbdf6f8db6a5ba39720a815e18d6 0x1a68d487d49feb702f7ceaf6d75affdd782c2bb3ba2a791319f959a045a1fe0710bdafcd56ff92996428d65a47c48bc2588b071b8d010e0c0c8d6e2622ac78a2716; P0 0x15cbb0c7aff3efe7200ab0511df92ce2d73b2659518663ca58a0f4bcd45ee7df6d85e5c19d130606a84645f1aab8f5cadf1ce1610d6b95982a06a6865bf87c6a67e 0xa7a6006faed2ede4269dce0e071dbf98de9bbf2a44912b87ac0474efb630819d29730752dbe3cd6d1ea3dc6f866e63ebb695587db5e11fa632100a2449e5765c62; P0 0x36e5001b23770e52a048d64228186a471bce32ea47d4c094f9cc1424d99244bdb6ef568837e7d6ed257bac88c9e4808472cbdbc3fe0b9b16738bef391ba14747a6 0x15c5b734fe409c6ebe576bfe78a74b8d9a13a73c15f04b3ef2f82aa507cea28f28d3a90341e71f74b7c79a412645c1b7c1e8e190303e8fbdb64f8c0710040f5dd2a; P0 0xed046116315bc9ca0ab90e4f0350d2ac0f507a4b94cf626b96b7a1f449f4b838923686ff6e8e480f0f93d0bca6ab02808a9da5cf76b9b237593e551c5f3abbd2f5 0x17a3182bcb80b09266226635c2555f9296e269381d4c70afe3445848c8b3680ff6e73cc91bf31fce9b8c6e39dda91e79ee4466d206022a7e2cf7b100b154c315dd9; P0 0x1175b1fd44f41a0a4722d9ce721c585616f0a273b90fd6f97ab4f249522ce92f48f53e10f0e3df9ece3864272e93b5b6df3557a51771f319e0cf555bf4b431fd0eb 0x10a85fbd709036c00a4dff290dfa1489bc28ffe00d4f3db6fbb9bcf6154a9ac01253cf34759d1503407ac947a5347b1c82e19736c2d703453a70b4d24232a9932dc; P0 0x8abd5abd41f4ed2634934f6779209ae122b6a771d55a724a76f3a15dd131dd9630bd3957619d2bab35749f98324ad6a606627c0395ac811c08864e5a0cd85c9c2f 0x17b6db9653a047ba9cb86c7774e9d0fee2e2e5e00ce4e03f24f2d4c705653f1907d1825c0cabd4cc69e2bb37a9ffc311440810c8b8588a6d267c9eec292dd6f493f; P0 0x1192f08fc902011edaf51b3d0c622edbbffa70b7fd6043caafd4e517faa2669667b6f2cbdf6d25489f7b00a9795505dc03cdc48e6010c7a3d860a8e23381c82c7b3 0x41e110b19602d803a0907b8855b15ab1535ccb4dd64dd14e3f5e1f3e81d77cb75eacc3e385e211211b1228488ca9f8ccce5dbd274eba95f207272e7feb7c19c534; P0 0x87a082c43b6e85158600d7b6772408966dd2565f49270eef7886bc3b43d131b8ab90001515b070e04b9f883401a51df4b4970da8d971043c3ab7ce401ca04aa61 0x1be280fef8d01fbcd69d625395679e945caa050eb390f9c3c45f478b1921470467c5211877a2e8e97664e48a29dae1a7de9e6da2fba30334db3074f831c4615bcf1; P0 0x184c7cee5d59676569fec53fb2ba79991f11d068cc8e5dcd5faffb7aeafc47310cd0cfd6f76545060d8430a401898e744f6a3a4ab3ba2a44a8d3be86fd47ab5ac7f 0x88b9f2102918f74bf0cba1dd176dea044b6b03a6baa8095f0369ff5397bb98059c414a8f9b7c248725d66252207f5dcb7332e198841b27e22cadf64fb8d1b28760; P0 0x24830c2075f43dc73c6ef057c91671534ed0ccbbf4b773ad9a7ad9a4cd2d362b266b07509e19d88bfe13d9fcbda34147e57abb36f44a4e9938e5d65d59b68f89d1 0xc5cfb32cafe81f2e02ef96b805d1cfa92cb47c47984f4492d752b7ef15f06ec9f0f7e14ad0c3419645a5dd4e131fb31145a088ed6c316487271e4b34e4ffa5edd1; P0 0x4c6ca92303339f956498dd393a7244ccba86651294f46d0dd251e78a30a2f5539e362e131bc9c7cf00b798c906b47528d35a6d543f7d3234451e6c83ac0edb69c4 0x5675dc57bb32f6ab1af37f2b17f166224042a78a031e7c430bf3518a5db542048bce1d32d6df71e283e3be5d6bd789868ec3e18f27e4e19b9d3a5b0346d9320e65; P0 0xe99b3270bcf211065ffbc92a3b81063953973dfb1b2b84ecaee01784019a4e8c33c6a3ab23256fb5c3da2f7f6347978ac3f2d15da511e4cc96e14b61102bcf924 0x1c409cbd808ffd2635a3bfef4e1ba2a9c89b7c5ce36a9213d320efdfa8d7fee5b4dca23651b6d519d95d569ac34bce7d5ec505e7001fa50177a19ded97ddd002cfd; P0 0x18f194c196ba42ac044a6e50b8d30456c40c1a84c2a9aabb009c5da42935ddad427e0e37461d0177d74e5b0c0c9dc7d6c38d3e0aec59302e6e24501f5d52756e60d 0x81b05a78493fbcba99c75b18f67b2917273eb5d97cefc20ef807f3b36887ce812cb1e022e5335d5364460c5ddf25dc3440577212df059f31a993081c94013ed816; P0 0x20d99a54df97dfee907bf43ece2dfcb59a3b3aa39947658d47683f41b2ee001c2bf195edea4784060e8570cedaf819b1647697c7551bc78e3bc4aa12e25f876ffe 0xf49bf80634357b8e0772b6c0fb496279558d28b57c8d34250e331de76436f0e0ab3c110189b1bd056805d069db93f46910b80e0b21dcac3d35b9fa496fec9491e2; P0 0x74dcd7e90daa98cc3c5d37deefd1101888a9f3a9f8e675c475464046fc2c3207cc31444868ae078dc2ea68fdc9ee05dc2ddfe78866ba146edc4b63d6df5e65d7ac 0x16af2ac77b549471fab1568997a7df96afb4aee5aef0e1a90473fb465c483f3585f88bd9c4cfedff511e73597220ab83805543944f93c685d519b77800d0ed7a330; P0 0x101499ae6899b87a244e5b0970765e1e35ac05c0a475d0e071f394a9c77bfa870fc590c6ff77daded2ee35436cb01c41049a45a71c524c47157b462b49567f0835f 0x1c26c84a93e2d3f6c4fc042e834b5e3f316bc09c31eba61a0594d3980506b89b0b5754d0b5280dd1bc5fad4b627f9d452a7fa8afabc68f4914fb0f592f22a96ac5f; P0 0x18c40d831991140940e014bb4183fb1700fb5c0a4e1bb1b1eefd6c0f677519cde1184b1469a33821105bbbe6ec4a5ec708bf4ae6c9cbd7e6742037b373a6a2c3ec0 0x1c2c821d1572911bb4f75d18668d477d3d1e910bd63e7c1fb6592f706789b83e8204f4c9442bec1edaf425a5f60e676d3fefa65abf0d4636f4f9e1401409900a01; P0 0x18ce219ac68fe1b151eaa45d60417bbbf93d5bf2956f3c92d4be6342cbea0158f0b2cc0a6bb2f7eb6c4dc2c5b20aa8ed61b608db7808ac985de563a767d72bc13 0x142cc8c3900acd560a998f21bca2e28045732c15341efd0b68aad32b8ab219146ecf5bc440ec2c1ab2d0bd9d923650b2ef7e2e49a12bfbf506ee9f5bc5dd0f6d014; P0 0xcb839a1796ad20d4c9862004ffc737fd58f2026f9a48c1f4f6edc4e455b927007f14d2f93eac51a5ab7fe9f026d2bc88811a4de72e004c06e4df9259dc887529bd 0x1c7405e7ec42083217ca3f8bbb695577ee7d423d6a56a3f5ca206dc956aad8593a2b42c202ffaa85a456d90f86c4a3e8c3ef8314c508d8848f8d5ce8799805ab4d; P0 0x194caf00affb77c98102e54c987ad312e88699398c868f8ad25e9f171dc2efdab6b341d8335ead6d8dcaa7f69e5a4c24ff59d62958447ec96b54a8b32c9a5e712 0x124fccc93cc2e4e2b3ff94ca8168fc1fb07cd9874967d78656fbcc63b941254f2eb8bfe289e2d769ca8f4dc85ebcc26f5c0da3289c8f12cd4adfcc0c5885d47dc3b; P1 0x1f6fa827ed85f4057b98ccb66695b7ae33e9fed3bfc2e565f6d77de2c85cf5aa35f477a349a0c52f1a93af819681a5cc84bd87a9ee558e2ef5cf36d4d5f15624a8c 0x1af2e36793568ba7327a86afa6c09b4970f9cef66f63bc763f41a251b1462fe2f38f51ff9b7cc5d76ff88a4a3cade544521eae33e151534b74dfacb91fb61f0ab57; P1 0x4415af5a5a17bca0db395118fdbd8a9a7a7ff8ee6892a10fa8e275e5237e5d8b0aee9603837a2ca57b1045584b9aea434e7ec67d0b7a8b1b4c9acdc2e468ebcd6a3 0xa39b5f9b663429e0370a95edb5e7157d68e32d635754eda446ab8f588602d9a331ee81f4cd9db7d3590acf0088e492541d3e0b9ebc5946c30254c9a617a24dd56; P0 0x34479d0667047256ef536e0d3db173eacc8ec25d26520bee459827f25b7e393a109a78fc736dd28b3cfc75f943635c44a9989276ec2d6ae5eba9c04f588defa5 0x11b04239f5a0b38af58ffa4c09ac2a8347f2c5dfd01dadd896281ce2d67815d13bc7ff6c4d17b6fa0c6fb923420ffa1238276ca90ca50799516573c1bc0501b8889; P1 0x1d5533a3d2c86e03c3f0a5e1dfa7baa9786c2b1a3e1e7a40ec2a565cce5b852b4638905eddaabbfb8cf0f1967c3c5f02e1d79f9de9d4e851f51ab109cf1f2969a2c 0x1f498badab8deb3ece66586159bd46a7d061c7bef814354a17d474df3a2ac43ddf09f7c8095cea74b5e4b030a5e42738d537c6b17260adb232f3939605513be261f; P1 0x5bc576f8735660a3511549e74f9f7dc8e2191cb4cd3216b3a73f8af7d5bdc72464f88ef6f139d4ee563a298fb504ba02da7d4da08e32f7912c8a1c08a0ba2022708 0x1210b2133241781575fe6092eded123badac0c975796d9b7d0427e3315c26c684e99ffce338e5d8576254b2bd973d21942d42684e9da01aa7212851907d4315ce4b; P1 0x1e987322a0148985ac6be72dcccb949b9f4af09c0d648c5e35a652450b19e180cb186443b8d8aaa2199ba367c5150b7db70a714d0cbf3cda215e292e2b7c9221c9c 0x1ae0534f6cd50c77a8c56bb6f6b6ffc7bc32b02b53553b8be0a278e56ed6ec000a49f20910e19ddc749034ac7756168c69982d67a89d72a052d2bd1a5f60ac27a87; P1 0x43b803d0c517edeef4ac8b7d52e596561257879d9672d12e5d18efbe3b09b822ebcec5ec349392fecc6dd0e5272f5f26eb2a65c4a1c5010d6c75112f3bb1b7f0146 0x6be51ed57f1b8471ab98803e173022bc024d6a50f421fae855d9999bc93b5af3b16d9f3acab66c089d186e65c28f232e0e39c27b888343da4fb0d8c8088d41dad9; P0 0x16bcaa6b52f691e4975fe9e34e864d600443d724a8ee7338dd46593555d7f024a5c821652b501aa61f15a5b3633a2d1d00d4fcf97cbaeb1d8b9cee986474ba9a35 0x1522d1b822c623f2b3855c288abb597f0bc747211bfc5bb41528939cfd03524b0fa2ca8a31e3416fe58b31762235ea77505cfd62cf8a2d60c855320f1f85c02e626; P1 0x29e18b6e1a1e1a15940222f8ecf77cd75de0e76e47254d718cc1386cd341413d2c62414b81c38735a6885724d70e1e2b1ba02ce2debd0fae830369ddea2a55232c9 0x1863ea137d08f551359cae622d9d488f87889ac2da2e5a2dcbfe361f6a90a35e7a8171ffccd3000694a8cf02abae558576ed85adcab5cba531653287fddcbd31bb5; P0 0x12971714446027e91ddbbe99d8684d77da148fd2bf1bbeda3c6b69a9b02423769129ccba3ad4506d40c7f7c00e8af21dd33ecf364f1c40657dc393e8adbce16fa7d 0xec1f5ef2bd70d881f715abce39354d663bf5081dc671bba059f141fc0dc8d144b277a548f174fc79cece8be1bfac7b931dd8c810a12a2df4d421273658b74a876; P0 0x6ce4ed73d7a48ce6d1c9324e7a1d158c720a3925041493610ad0d7670a6bc461f77070e8a551af1f56e7bb17b70b4cc03890dfc2a8f4c73d9cfcc1ac35abedfd 0x112a63917d16b4688a3266761c4f0a36dbebcbfffdb3f261e7588ac918a6ded811a502a1c343b120567bf3ec1df9e118adbf5d7b530622bd9104af396e173770461; P1 0x1b9fc5d379ddd435f8caa79a661081a5d58e0a4298c86f50091855550cffb92515ce44f96b8815ae5b090b099af87092f6d10642af1117752c4ded412b69d33ffa3 0x1e5cc595a8308794603633f013bfe88ddf379e6934def2bd7f95573941347087b4f44c5d56b27a76422d0cb2c2ff8a5b4000c9eb8e3432d4226f8889e0945f785e6; P0 0x1cceff6d7bdf780106ce28970f81621f093e2eb4f43cccce85cfdf8682e37af9011a3ad24ba19bfdbc38f68f3f3cd33002d942a03f556a081a887fb762fdf990af1 0xfe53653256c2684773a42ef2e4b4430248ee2890293031b00bdc0f2ff92ce5cb965f52b7cb3c3a08a4d13ba3c1ec549c1fe6baf0e376fc370ff42a25dd8375d595; P0 0x7e54cbfd556765ac67b78c3db07ddbbe545ef5cfce38579aed4dd19c1f4f364b8f678c67000fd46b7fd51225e43dcf5a3afaa0640aad04e4297d3eacbf0d061476 0x14f9e64c1f8743ef893820b88cc381677ca580db7b3de0b6027c571bdf868a3c6a13f812194dc09aa6d6b422e2cd29f567289f5f8bb44d37b19e6d450d477695d2f; P0 0xdbfff6da17ab84afd73f81c6827f106ecde05276dc90e0a220958fdc56eda9cefdb88c0091572a559654053603bf90c6bfe72bcfd08e3520203f2c8c43542855be 0x1874c79d32c04d1356f13761421317a1af22a27c3771a3f02118b383a805167afb4d36b7d267f13752c81ce3176602f9f24328df93d73cb1238e177621a98a1845f; P0 0x12b0d597dcfe913ddcb2737ab55ef7c52eee87fe1c5921ce95bd70bc53edd6a72868946f8323621643f4a160996e67fe35bd62e111c816809d0256dceee8e6caf29 0x704bcf0865d305c5cb8b8e54c6293a7807f8fe9907aeb5b5413c340c71dfb0ec21c5e2c191244e5b7fff8ea7d377f7b91d6336dcb061f77fd738e7a153225cca6a; P1 0x49e3a167772c55765b88b284dc21b9515217bbc5618eadba22c4e6912c314f70994e7185aaba0f720fd88a42e15925676b5cdf68821221186497a9fdc7f5de1cbf 0x1985756c3e262849788cdf24b60b50aa34ee3142ef9e068e0dd090cfc817abae7151ff4808b0f30d93cd7830777bc97468ff837a8c8ec076f3ba3b2122ec290786b; P0 0x145ab412e3c130bcaff36ab8a8921c68331e50ad0c0c8cb07e0d54e572a52e1a3e94d11d5e704d6b8a121995077d7ae9e007b8cd84786113d73692fb8038bb3175c 0x9ba4da16a4c4d739d32e8f040cdb17cc46f3faec535c6a0408550269e381b9f42b30d04a25bae1802205d3daf68fbb0077a71d9eaf3104aeebf0b5528168b79415; P1 0x8df18f5f5b7e112da361d6552499b1a6fa8388ff8638e881fc6d0d0a2ff2a7f958ec13cf2db12c8ba47c93aaf9481bd237e6a31683c8630b1f1cd1351a8b8b27a1 0x1a574f307f6a309fcfbddbc8d55f1fb3488c224426647b0768f710d6fd038d2b386ed2ce1a9a1982f0d8cf9f44ad657b5794cc67b1c7126a0065a0a4c7ade9604cc; P0 0x15aecee62ab91f08a0895101031b9876f5827155d4ea16ae416a5f62fe750b27988e29c707a78311b45d5e640d02e34399dfa2b5309c1850cfb7bed035095117caf 0x158597eea5171e66facab76159e602c80a02e8788e0e70d35bb22034b9cb2fd003efbb4d6dfd3b0ff4167ababfd68d52d6bc3e3569db01054c5473b3dfc04387f3f; P0 0xe798522f9c5d1d91bb55aa9947d1c47c051895aacb43950ca44b081ba65547f727fcb3c9ed1465c9140f72dcdd7fef3b8b8b6716298fefc24bab3454934ec713dd 0x1e95b4fc3fb3d9e9c25e07d0d8d36889fd53a5372c011cdb31fcf824c515e7b465075bf6f3b59fa89221fd76fded115139c2ce6663115c84bfc802eaf0d3196a55e; P0 0x1d3b6fba64200486c0506383a0c9f7d5bfe479d8bbf5db76a7f4815b0effe3fa4fe8e8b7c91b90ace64445bbadb6d533eeec75a109ecf080ad06c056d66cdc92fe8 0x1cb07d4d3c5fd530bcfa2b8c753a7467ce8c6973014d52f58a8205a90e6bab48165f1934610312ea76125cc9e1a6f21056ae91d8db7156a31dbe2cbc0e6fec37e6c; P0 0x19b8a8ab65e3f556137bc97ae0b80531ede7d3598a2a1649f30842d56edcbb2773479df1a42aa7265fe669ed90bffc641a94c61a568859e9ebc1e6a3ae8cc78d2e0 0xe5453f595a743fce64b4855a59f66e5e32d80f01662c099b26a89d53c5634504500346c16773ce5b74267431ff25582679941343f50172c7595023e920f36f5070; P0 0x66aa7b0888d5eb4370cf924eb447ff5ca9293bf7800080a63a0e7e8658d0949272584b6ad5986d1c3ce94f43faa88f3285fefe2df919e08e901a507df027d76597 0xfc9015a229f6faa7b2d1375d820322b245245dae7ff14b8e55c617add79db1026037078e42a3fdde679181eb1b3f326dfa30883c3c1b89be847cacfd0ba23d9697; P1 0x175c1f98768522f67b3f047c52209bda9408ad509247f2e734efd3b05ff0b6c32bb4fd4f08ebfbb758a4b7b34bfecf205fc2a406316f3b1b3e732b44a9db9268acc 0x37f30f7164e17dd2dc709791f517ab8413e557ff5e55018992eb3b562bc1df4b6acdb088ece350709b98baee17d3d95b777225330d1077069c56b683c462c871ff; P1 0x1257831d9153564b2ae366ab1f6b243d7c552bdf724a9699f5d233e977c26a48c178eecfa8fe981c5ab2637499f1d19c18211a4fa6cbd325edd589893385b76d41 0x15643aaadced0b4c10d3ddb4ab8aebd29ea553a41e57db5259335cb848d227c3e665c45f0762b753cf7a9f861cd6f56eeb4364f530a6e3aee53be6c5f482d50c144; P1 0x2ae654ce0c408c9512e7b2dc919157033e0a52a2f02c099605c037c83a6822620c99050b331c71b72fb7da9f93672a363c7f76ce8fe467b0b33659cf67fb2027055 0xcf7efd70e621dfb5890fd2801569ff582c69216f44e1e6d0daacbb22fccb0e23adede6b229770b5d9f7e3dc1363c969934cc696215eef49479c864f9817f393e85; P1 0xfc45eb488f507ead6091ee4fc6cd1547ec1541043df18ffdd198b557b28422bbcdbf6d729d3bbdb4ca5f76ad2d53304c46114eba797bbfe57c3470c700a6e7b065 0xd8312fde7734be3ce6a2f435c0fa61a10eb27cc35343280165ebe68af4a177b7944898f897e6931970bb316b99a316d2428b0c6ba2eaf28ee0a3c5859d3c63c3b0; P1 0x111dc8f5827e91e77e4067cc9be93ff25acb6e866bcad0dc1dc3672680693b63289a8d77bc9e4427741177dd922f9564c8159e9c0f738c8eb6c427fcbdcd37fdeb1 0xbc6d177056ef4eba1a46cfb36ddf05a103ca301bcebcbfd947ed01d39d07d02aa56b68dddbbabc188df1f02949031b004dd5f5f46ae3fa419c86f53d4f22a0a9b1; P1 0xd0089d5ef33e568058338c47e13484fed0c4fc1b99cff401bccf8bff84127abbb512c399ece935e4be368362ac6b6e3559a856dbdbf0305213e0a9657d62353158 0x1ef64acffb4d124453dd2b49b67559445d5d55ebfcad81b66bff6b3c59a9eaf8408b66119563ee2b8c021bc57dd022850f2a1b001390a723f9f0929daee1766b67b; P1 0x59df9baeab6e5fc104a6ad0e7faeba843c3637c381148016433948d409dd65cbf79c57ca994ed43f6144fb356d6da6cba858e9ee2a8af5147bfb44bfd8412d169fb 0x1ef72ff77f8a985b32d2f05eecce628af24c4ad983312631a41971ffab17fff9c8c82efe016f5e1deaf31fa16693071ce1fcd5978b5bd942b2e5c3731a02516c746; P1 0x59e4ce167b61de5713db558131ccf5ab13813cd459b528b625b7c0278b8a8444378d9711513bf8c3c31d89734fc192ef4dd79d7294e2d62f648d9daccd4d138a962 0xa9e75b9fa66b64406d3f19667b49ba8d2cd89cd6145796a3eafadd05b6c196fa053a93978b96b380925e104554285ba1c3d7e8febad2db5deff87b3e3816aa5ece; P1 0xa924ec16e6f48612b90d60425570b4594ca7e552aec2fc8cb08fd9fd54a39e4168bc826eefcca05b23a249f29f24c781e0d42a749ca1cdae46c7004fa6cc48e14e 0x23863d7a332506a56f8ce5031149f43fa60d256a13bb09676741d9735e23db0cadbde35ece150fdfe050afef997781b42f2e5acaf806f30432cc41430f2a64aa9a; P1 0x764f8cdbf03b1ecf08d617255b5ec39c07ecc168c0aeba0ccecf03fa2dfe11aee9e4ef3f0d35b5e1d7f7bb40eeae75a03e09103b736eda3f9c59571a9731d89a5 0x166de92ab20cadfce93d17dcfc0efa1aba8fa3d509c83968eeafdcfc5f7473620a6a7de70277b20322fcef7e2edafe1db4a383b90717e76b8c20c8ace7e39203791; P1 0x2f29ce595fed1e46d3f5463c7f1e6a083e9fbb5d56a56e7925d8cf8ac911bb6bb2d6ff8b51e821eeb9d3551adae9980b55af4dde66c660c52fa87d494f150e791d3 0x19d1cd403f500ee06f8a59a0c9a604d4418f199890a06a1cecb91dde057e1a36ef484f561d42f34262350c8cb0f4706aa759b80b9c8492e449f6e7ad78ad7d67236; P1 0x3e7f90afdbf75b917a3ccee4b03b15e979131c4683a62627e2e1b68a0af4dac96bb9b4efc4379d16e5183d158d2465a32044d0bb1f087ca77954cc6926459ef7ac6 0xcee9c208a4a5b5c97c44ba61fa24b9bfd46fd00022082df4561519b0ee0c4dfa3d6e0e001eb139a88902e8cd25002e0231a6c8b59a8f13b1f9ee39cb79e5a3e4f2; P1 0xfadb8e9507ab40108ccc6f46529c0e1c3f40933f01af05b7333d2e6b8e46fe404a74ad6eec3104e110de9d0aa022b5b5f1007ba2c2d908e38508136c73ba578f58 0x13b5d0f45e2c2604a84fa9533cb2ba6e7d0c33c1db0c6a06faedf221849af55dc2392729e476f5f3eee587e3cd01e12fca007dabaa20992913b6df852a11b6da4; P1 0x246bd381f20978cc4397a8be4db353e429582224ead55a7489d209d6d246b68a7b52c7a5a6f17b412489dabfd87f0b76c7b58c32309c2644681e1f3b69edd77 0xd0052c96feb03ef6bb8b497077a6214fec5296d6dc5b372992bee2bca994073576d674a0f82b428c2e8da117ab9300b4f26d21a6faca85a7dd65a461ad7d4610a7; P1 0xfd8c9cd8354ce6b727f1b8014c4b1a29a403cd6b800e7d9ec5240fbf3948bb30dd207f7f035b3d0637959cb61f42fc57ed6a5d984e758d184f4d4fd429c7ca58f6 0x1816838f4e6a6fdd74b02643f1bb5f63134627f44c8f18b482cd7dacbb88e590ba226b10331b4655ecfd361e6c2599f68e4bd9376e4b16b2b919513819c5f063fc9; P1 0x36657f89e6a1e9d92099b0d9a821905fa81d61d27c499e8b5afcdbb29c3b52b063c2ad49f76e062877309f061014519d1e885e85df2780382ea665cab4209ec433d 0x2be8a7bf34086862c94d4b2d7d8f2775da8046de164e99bb7d530bc3d58470b03bbf35995739b0c9ae1242696b592637b3c1ea8a970ff1e361796282a4bbdde6b0; P1 0xb4bf9b00dee3a800efb561d61da6333f1c423af7d75225e8a5802aa1d0fd0d6ef32a43208374034c950fb19e307354961e84c639298dd4a60e08c88cb0b680783 0x146c9a40f30501f106e2b1593d52a53ef4d232c9f533b048f3beb0afa37c3b2a33dbfecbd85ad2fc85b99d767c5a9db846361397b2f35f616d1b2354b62beaa3283; P1 0x271b942fe940e1599f80a589f25a4b627b3a3b761875cb167a04183611b4a7f8a5c4ae23342a93dff8801655f48d0be9f36cde1b395383a1b3e6c9a0b2e5d9ad0d2 0x1e61d06ccd457d6ef49946f17fe620161cbcaac8ca160f195a5fc71e108cf3ee2280103d851380b9641287e6223223c47eaf6405db7bff4fc80750d927719751ded; P1 0x5689b55aa613dccbbb3ae7090ea0d12c74bc8de5b1f0c881a6ff0e65ce86d23450909a36ea91ab9d81588db60cc238ac10c3633162c41aa907c7b4ae7dda530551f 0x12250e8d401cb1825fe7bdd09b5c746e296300d309fd4428ecc16919796dba40fd8f2d0f86c1394cfb4ca0023e78f961b5eb8a6f1dba2993a924a259b259d94fd5a; P1 0x1edd91d9c027b4eb460b3a28a9d51c055fd319e2da6784b0992b09ec09f02361eb7b2f4e26a255654474c53d6bdb84b85deebbad4e0feae5858e9f56d451a95790c 0x612636d96d3767c69e854d6a30c25690e4f73c1ce85bb354917c2deeaec762d68955a8afd546d18a3c7c48c01ef8dd931166e1afa0dba465f8c09655b406f683f8; P1 0x374cf8e7a59949bf8e190c4cfd4a45210e7a8351d4ec672f7195d98ef421b4709731c6e54986525d9e7764abfc228cbb88d9a41eebab64c3ef74de19ffe6423b48 0x1b478ec5f9282fd2db42a7ea74ef7d20dfa305aa01b0ded903648fa6747c5623c92f0f28336cd8ee61bb57a8489a7cc263f503a1f3da439d39fe4345af474397c08; P1 0x45c422d65fe5bd480ea9b3ebd69cd333d8ae5368dac9346fcd060d59ef3f67b74f34102e7f0865620a4115012a706a24a480c55e179d507ee0259c07f13d00d3dc2 0x2594ea1bbf68da748f58ff50d590d7394fb64d295a18573a8ad7fd5e5c03d5ca94fda345babc2ecba57a3b53d8d0faf86b6e02fe5b3542ea1ecc2b1cc2f7047e82; P1 0x846937151408bf7da3566687e9da47dac256d5a0d3ef621ae7fa9633cef1ac0ade02899c9a858da05a1f243718c61e5e988ca695152fa00aea4c0f6a45120cb44 0x1876ade7ef2f82fd70a71547a71a1f6a1acade429abb5c6e0d9f96a6ca955784d945b960e8ab412e05097f5f5f12b7043e8cc8f85cd08480b089a4682557cdd7950; P1 0x381b37067330da60788cb962329de4d534ba478cb60a546459d0cf1d598ce306f63dfee42c1e3c22e7afc75d96fba6aed66fd455319c130472d54b1c2d4d801c5e9 0x91bbd3f1eeaf21d07da72c3c7c30652c0109027f577dac25babad13f7626733bb44fbb3c6508d1519119861e765ea114be8d1300dd24feb17c617f179560d7f0e9; P1 0x7c7177db14f4b262506e9a0e50cef05e968c04416951476091dacfd0b12559606093d976e0ee05ead61180c7b9ee820adb22e9bc006890ed6c07d9f9563a07545c 0x1a7010d07ed91b1fd610aaee7fdc3b9da17f3857dcfb5b6fb5d536e8ecd7fd347251cbd07b272cadd6974c3b306eefc4cb57abf327143f164badb44e1841842708f; P1 0x4186eb599f4b9b59191c5ed6d03d9fba6054b1c8a0f3640f8facf73aafcb202c8e353999ec94ff571f4909de1049c25406bff9e14f2ecfffc50ccae5a436b0a14d4 0x9f868f38a5089485b4fc219ad794cac6e8b1424d4790cb9f6e7aef9529823f27ae40a7a341fe49ae86d80c830ae12856dfa21c998c7f33e7bfa09a41b68cb66477; P1 0x951ca2f3eaa4a392aa4b9e30895a19a009eb39016df034d33cd93efeca0b41ed2472f5d959ea4249a334c62921ceb8fd48f0cfee3c3d08f5421055881d7dea2644 0x12d0b3eec51594d655e665142bcc863c57add7fa45da923e52a3a3f949e5aea6b4a70f900166a75b9f365d28859d86a51caa943760ddedb73ebecf35d38f7cdb437; P1 0x213052bb1469b76d78e0839f3dff22fbafffb021c881a258c29ef2f9c06abff43ae996b62b9ed19b57786dc12dc69f357589137f26e5bf2f18b190474542fa7d2f8 0xbcac655c37c11fe87cf9d250e4cd9bfdddba0d1ad35d1d7e33e38da438b67ffbb801d9456db1342e2bbec5b33fbce0be63500d041443ec37001eaaa3a8f281fe6b; P0 0x4586d47be6f83bcb6d0be5dbb33f2d4527595ea5926d79438f9d1033b68c950a296db2d10abb07307da71dee859535778f7b1807f8574b40481277ddd83fcdcbd1 0x1601390d1d20e924530d01d1a9cf7980f42aa92532d0eb61bda7b91b1f1490465e7ba52070e4a9c4d247a255256593eb5f7aaa753d6a7be5adfc6e8134cf07c4c8a; P0 0xf21ae7dfe95cfc58849b11cf96b1b4ec7a0845d597608e14f14189f6f8d19b46d05113f80cd29b338fde6d1a3139163eb63fa4c0666d7a2aff30dae66f9cba2b91 0x131e82509bb03a5b1395e4d3524d2446fa45fd3db4a22702805cdad46b7f3c4fa73f7233df7945c0dbba5b0907f74403a8a6588e0dc759935ed820e203c994c65f5; P1 0x22450782681ec33c78507d6151e53674f3b9eb34559cd32eb0f77aa1ab24b9c5d2e1104ee45bebfd23f73a95f045da4c38fab5c884ed212dd622a8470d2fcc92e21 0xde9dd016f7eabeb01c888685adb040992a7a359765acbf6873cc94e39ff4ea8e106683bf4ee0e78a0211153431d75f25cba9e71ab9f4ca3c020e34cb5da102e38c; P0 0x60cb0b185da646ca2be6c8504d294a0f76779e766087434f527113b1bf24d6ccea5f0dde62f837d936f771ef816c468b195a9c654d4db3c2d1dd5907fd51ed99e6 0x1fab7d4a42bc5af53c53edff3b255bcdbfc999c0aa62012408debef55aa703a0bdd1caacae25edd187d7f6e7c4636193e76894a3208a28c4aaa947705f3c25f2e76; P0 0x1f57d9c4d58302fbfac53f862ed1164ed11d01a067d6d21402191fe2b6459b8d7c0ff8b894b59a16bf5d9f385f3fccc95f98470aeabeb1a7bc8c040a662070709c4 0xd1a2fa8cceabe9aecacf2878cfb2ccd4dde3a9f8e6ced8cc79d4a4785aa3ee5d4eec124c89e869f66cfb4d4cc1e3127de158fd6749a2f09868ae0bdc346309a828; P0 0x55d5c26dfc70cb1ecfd4848b1e7082798e790b1905e7580d6a67493a66a06009e09a15c7878a9332bcaed4ca8c742ed2a869f4b7c547d572ee08cda24bea207a50 0x99ba7ac32c3365d8a458e455c78fe8832f859ee9d889742cc85d7d889bdc1729a495aae83b29710c9fe25216d53be16da7aeddf99302e94bc9d77f2af81b650090; P0 0x2e283749f4a822ad2721360ed1c9286d1b5f0315f67395847bc7e472ca6d23252c54a7897f931f2eb54778b0ce19f159074eb8ddafdfa24289d85c8ba8824ef457 0x50b0475d4e2ee09826c746f310882e74e784e2854695cccc0b719c359a0c8bc3d263a951472a3710f595f98609bdc971d8aec4c7edc016b344820b58a053ef4557; P1 0x2625f8fac794884db7f111c7930f4fcc5f6372fc2a349c9a1723a1423379af1eeb2de818f279a696853e264cf5034e5f448b95cc02204cae187164686affecd354 0x1b3698fc1ed89477d68e792f8829934296c0ed9db713d8192204cff196737109192424c7b9bc1b056fb7507e4fa186bfaece22d2dddac84b40df8a8f275df9ade07; P0 0x17247f50a2587ceec1d5334dae5bd70949177ea27c2479974b743d7acbe03b156800c3392d92acdb0e9d61b66c65ed09b0076f14294de5e96865d3b31a9b275665c 0x5885b91ee81c3ac16e6aedee75ef7f678ab3f668c80aaf92f5e866cf2b0d0f5a4930ffc6ce176085da2098d35d1036daf89a85ea673d1f95b4490e8c8fc5718a8d; P1 0x2dea4faeaf556765165424d2a399b16c9cb52ddd185f39229885dbcb86c2f534bbfeaa92464f3c11d9336b8a981bca1e840fba2030fad8cc413446a799ebdaa28f 0xa6a6fe23a3d558ecd908aee9a0cc708d3c8c5a9e0cadd81e8695c00edcb33a1f7e149a05731ff7ddb283e17c5fe300ed9126bea62bb6a9737efe8b80f5c43d978a; P1 0xa2bb7dc73079d91e15699fdfaa9482644f1a83f2cf2834b8778f209bacbbdfaf905500f55334fc54058d9e8c0cb83260d3567324d0be5e3e46e7d079f9e2fe6b84 0x1bc38fda6d4e6bb1a2f0306fa58951b54a0b17aaa2a4a0895e8530ec7d95d34b20038b2c97522514f7926be826333ee25f84c0b6cc0231bc12482f9c0fc8766aeb0; P0 0x1816ade45536855bec45137203f164c1324e90648a863107b77d3383d13f20ffe8ab8b8a1483bb390714d559331a75017acd0451ebc526a75cf8ceb40d3df9f4141 0x1dce152dd562d9e698f87d91c196c12b987dbc6187cd3b3a8fd9d79a0870618840d2eba53299d6884b3a6e9af689ecc92678157f101aa106aaeff18a0c12b12fa41; P1 0x534820bb6ca8c81ca36d9f36975b57719e635ff00570f98be082badeedc787572c968c56475c844fea829524eab9bb98212404df1f6d97ce0b02f17da8634de9ce2 0x169547421a3e5d93ce2c9d9c779c45dea1e27216e47ebb562c8e4c7149360be46dc7fac81478ead3736319b31c072c21481ad4a6c5a93e8aae685b1c0fa2833aa65; P1 0x2fcfef114f08075b45df2b35a34b48f624ca0913f5c6867022ea5109da756e200ac8210663baf0fea204f7aae635db669c5e754ce9658c1c1342183466bae6f2138 0x1bf59d5fc2ae7247d1f85d89b83d6f26d6165361de255ae0e7115739cc1d43338fec537d98b476bffb3f6f4b4df89acb7e97818042074db1b63f6f2bd3e5f6804c3; P1 0x494984533a709ece42e1510719ec6a964bf4ad26ecf1bc8c40e146f43b740156123fe8418cf73277f2c4902bb28fd2277c915fbbb82df9b1f5771718e83e0b96903 0x12b3fd2d6b739941e9412ca6f624cf02423facb88c2ab26b1a12dbd326274d868ecefaf065553e6cae982a744beb62f0a1cd54ce7514a67e772925f5d45aa4d6e9e; P1 0x20cb539a084fd7a8b7506ec57d57f3273050e19b29cd8813443843b615afc225bcfb7508aca6865981e7eb43ec16a75bb731eac2385357195f0d389806296a25780 0x11ef4bfb0f3615e2d1be8a4c68131faf113e04d8d9c7db05efcd8def7a47b15597f5724ee64f5dc01e63fdf468a25be27d9d2661a27fc75c91a4b8b92e74f2ad40c; P0 0xa0d3e326ac5382c19411e791a65258a150569e8e979071b828b58a1f3f415bb7bfa5dc470682dc2085d897229ebd0b57e0d9ded7e5b1e7393fda7d787327b7fd3c 0x16e51ca286dbb873111b346adf1e396090e9aa854e77eb1e0dd8cc7e6af93fb0892c0489094896b1e4dafd9a2655b63b8ec9c2cb7a4de6cdbbdf9294c24d34bddcc; P1 0x31244f443ba7c382f69fa18f6af2a98eec0d578f1b9573038933b653ae23daa97fac3ea219d02b896ecba9990ca48f9dd377db7ce57beba2939bdf0d725f5e68eba 0x162dbcbf51db0a15188ef7ad7198d9a0b5c35e9dff2c9c409c30866d71c005ce5d81901820e5e6fddd486558dc4d173a72186e74a91560d3270de41cd93eefc1e6a; P0 0xf5f24e643efdf910bbca168ed256e5eea15348b8a72a714317686e226daa8a915c20278b68870997bc7555e522a3eddb0c03f8528d9c0ef86d1412c75aaa6e566d 0x155e2bbe372a68e88e34c25585044d18a2f6c774bbb8cd89b64de5e4746caddb49dfba7872ae24c37161afede734720b2578ee394ee2001e0307b4139efa6bb5a51; P1 0x2ace0ba0a526256104b478e1bf109937b44fe05f252e471c9800b0c74918dad647785c17224caebd7e0a619ff2312c35ba4c4ffc7ff0f72dfbae57985e5547128b8 0xba337f3187a60fe965fe6e3ae27f1320afef023fb6a6a95fcb170637ca02ca40299518da3f83b0297ec75e9883b7a0f2efae8b8bc7635da06c84c62c59af0a519b; P1 0xcb264ec7d9114e3034a8e1e6a9e8fbfe675ed72fbc98751010c0542e958a747c51d8398c76c7207a8e99fba5367ea986d115f575491f64b1122b7afa35fc31e6c4 0x16fc75073e3b28c0f2941731eb8361d6f4f65e37ba1d4207b6e4372248095b00336378ae306da5dc7bf5697491f198fdac7df0ffae7c627948891825f7d2890424f; P1 0x3188b9dc7ae75d7e6c27fda3779554eae5f08449ea6a3dd5c7059eab22170a50a0807d6911f4a6f823756659bd40bd0144273568a8f4bdebbe39c7592de74ce717c 0x1dc5a32f0738ca682439f10de4a614664584f07df759c38971b415859efe66014e5457a887e9fde508b3ab6f51dcc3426e4a6385130e9f65c793cb7ee5a82f4ee9f; P1 0x5318f53d10d5aa59ff1f6be2881e6d9b1f820f88631a224bf0abf3d06afc8d8f3f7326f178a8b31f3e2d5c675adc114fc35e15a16839ea0d5f0294d825a48d99ada 0x410f21e007f6bb1644ff5d8b250cfa7726fd197b3be9c441105366b9adf1f1ed35ab80bc00ea45dd9a4dd74a22d6c321727e5e515e6ca3c5707ff2cbd1f565af1d; P1 0x18cd0825212ba00a2bdc7e534522ed99a776186b800ca2536ef46ae371522cedd355e8ec8fd0f4a89bafa9863d0e527858ea7e7143f17ab8a6f1b072360cb0efee 0x1e539818a852c98b59242482f64bfd0e16edc56a0700d1848c474ce83263a3e9b08d33916c57a5e4cb496f11ccedf91bbf9cc610490e5d8c8e6191f90f780b0ebc9; P0 0x1cbd978e0e6eb96d36426a350dc4542e205df4d20db46144328d5918a14b3cfc1df57290606812d0d3acb9ae15b89677f4bb89f3cf8be6359a5d4d30c0c0da2a5b0 0x1aca985bec5d239ede0b14af91390d5dbe8db2485dd26b44f853e053f2feb09740a6105bee942c000139f1207207d555750f4f0db80af102fc8d0db8ff81b2d4981; P0 0x166e3a3bbe09bf47d483fef916445c1dd28e4d13dee53b0a73fe75727dc680bcb7a6915520ea2258fe44c38d864085d8949f754b20e1cd285829abec07e30ed5205 0xd80b4e1cb26217713a50bd6bb9a284ad7968e8edd54acccebc3ed44487cec466269545dcbdf6e619bd7067d0aa8ec08c0b2ebfcd1d9251f2d14033ddf253622506; P0 0x5b298a281da92df42f16f889b7c4e02ad3b4cc59bfe9be2f01c9b81e05e2fc075e055b32c7cceaf7affc7dea8c6ab342b2ebcbc65aff714b963c8bff8b99a5781e 0xa30a712fcfa4ef2c21cfba6be315271819f143401462cfcba2dea6fd38db7eb7dd86c719b73e2212c8816f116b3d5d27d1352500da5227ac5931932485db983442; P0 0x33eb2647f619bfd932510c5d379087f2514f652368661618a019b1e254ebbc5a0d44f8ff0cea705ae695568c9f85b1a8f3d0a3a5c186a045adb9c13b84b2305632 0x11f797b3ba1a575d6c9525ea6febb4d93c0205802edcbdd2ddd0870322b4052e8af073698e8733b0dd11447bae1654724405b63fcb925c9ac1fb8c3dbffb73b3736; P0 0xa168cdfab71113ecf2019fdb9124031c49c7966aabcc5fabf947ee79625e0f9a59971cf74e69e49fd26b7afa5f78a3b881925898f31f552fb7b205c3bde618f135 0xea387de4ab67b997cc020f7bffab6559bc4e1dd75efaff18e150028159d3c4d1a11eb8851823b519ef3fcc11387aed223ee952962fdcaee54d49dddbf398e53099; P0 0x6b25a94eada6dc27e110ca6542d6c30349406a238f78f9c243f300e4c1046cdde1d4495b47fea0ecf915bc6569a91b058fdd51c4cbceb59b580350d2c0f3646151 0x16f488757ff5e44b0bc63f959f3f07340f6315a43328d876ca6486d12cbc7bf63abff304bbc49ca4d36a219c6af3351acb258a713d94645f232ed0bd21c9e581cc2; P0 0x10778844d5b9eedc72e6951c6223e6f32c001518e7b1e3f3b053a3e9449f568029e5fc578daf7d4791344cdb2c2b2c7b5624bbe6b80615a0c5b2e5ac0a0f02f6667 0x16c0622d5e9d680c5caa8f309851cce75154992a5c99ca5478ccfe9d9985d74b277ef15bd23fa5afbbeb0daf2be8660937d6de095bf22cfc7f06f6c34e430ca696b; P0 0x102d0b99afbdf3c8e382a78151585ef00f7423ee017894974576eb092c6bc2310d5505ea5f0b60e2845ab968a716793c40f2bb422761dd0735dfc4881329949d5e5 0x5faa87e4224ed42b8859c3732332810b6a89f87710ab43cf35654f9660f53a9abd826362b46a07f0248d62bcf2810e83ecad4d9cc7be0aa76ae53c475d418ec89e; P0 0x11e0013a0a4b3cd32ee64b210fd46f74a22641c24d78fcb9791a4d5fecff4bb931d756d37c7df21ad018a5fe9b0affe7c76804afc78fbf1a429ca8357a1bbc6171 0xc1f39c4f607d7be8241e9eebfdae0550f7ecc7c3d4059a0196ebbc0a435d97c24c5ab91a68c006d084b67b2f663a5c8b5edc71e0feb6f86b4938876dc9843ba2f5; P0 0x49789cc0e6cf9ca170ff3ebebe6e68c1f7b9ac5285f44d8feca0246563d3bbfc4bcce8b1f93b3328b890410588ef8a49ebd54624d88bbd3b02ac6a5a1e0ad525ca 0x1c593885501af24a10c137857bc9396132bdca3c5592c0a2d206c06976b52b2bb4a964a4c971128371c79c23b258da4248f4b07db690a21c0296d886ec9377e2443; P0 0x191d1bac159181a651d768612e33a2fc18f850db6b436604e1ccc2394f31e39db223d173e941e77e7890f5a1738d1fb8ca886b9074cce068c104964d10d130007f0 0xd8973d677097a703bbe9299e22fb9ab8ba9211076fde61fa88cc22fdb087b75fed8bea59b4bbaec33b7e6f7c8236a107e4edc585b9f16944675dac7ff9416f179; P0 0x5b9fc87c06609918b2532de8ff6a2242f5e826a8b7ef296e9b0adbe58b386ba39fa8a67f7d61747de53a5b121151f786df253bf2e312fe2b68c0afac93698bf9 0x1b7e455e884378a09023fb98b0625f2992293919ea2ce2421797d521dd705ad67aaaa86261cfa8fd78d1cbfac74cd3cc46e2c78a4a70e837b874b9e65fcdffa972a; P0 0x179f075264c3b1caac830070acc070e9450ed6f3a52e4a89c939fd172fa4360d0c5d2e3ccf13f8933372aec44ee5bb0cd043f0723d7fedcc611cbb0ac9552c0239d 0x3b2d98fd4750f59b6321b147ef2d7cc1ea22348006c1af5a40aa7d3abe5f864d8de8f7b5b54583419aaed562d747f03454c7b991568b6960c8741ff3ec160ab681; P0 0x6d70651f1ac117912ef2f200632289432258cd0f5a932508147c0736b3f503622699ec5d6d06cc2241cfd183d481305e2bdbda8f45b3d939391202894ebb8c693 0x309ee0dfffe8f8250ee93159b4b9b51680295304b01d2bb0606e0cb15b5a3375d5885a125c54566e94c0f0e23bdd85f28019454b0f903e94b1a87d643ddbe87394; P0 0x49dfb772d00023bdea47baf93448c768c663f70ce293d2a9b26bec017927525f02535dc52a404b9146f181b9ec1a765f292144bae49b4554648918c73811b47d1 0x1911bc8ac70e0d11d90a5da9b549811b3616c46fc9c6f04ac03c68381bd37cbf1cd59c05987a3f83a05311707d754194d8b4e5f8a6fdec183618b13c9cc69899561; P0 0x13a3c06d815a70188f10063fe5eac1fc72d928b67102f08c06b87d83ad4a69662429bb76d95f4ece4020e7fbee3bd5c4e2ac9c3c81f047a9404c2bf6e23999f46fe 0xc00c79aa8f008952802640895392dd4ab29705f69b7d7cf9bb40bb2179f3f30a969ae5ae42c275ff6fd3b18a84c2096b065c74465ad3e6c11cb07ff936649b55bf; P0 0x48095b8dbc28716caf2eae426d6fe678aa1d3c0493d174dfb1e9bca298f41d6a8a92646a214dbc787265bc67ce6f1645f3f2da44b5e32f070064c8599d98c324b2 0x23337ed431f834c20ab6ca3402275d7f1cf4352eba2b0075891723d6042918fb3af466df7d23494069c13c026e678620ae231697b50a900a12de29cd6fc2c58933; P0 0x26b8f84e685ac329a82cc728103ed404082f579c997998a710ad0681683bebffc127301aebbd73c75c54ef6ad8d5c973a6ca33f75edd721d35f476c0bcfb56aff 0x458db1b7ac53ce70af481498752e78ab04730054db7c64edfb7ce4547142ea187e344518e1e1859f1da7056a46847c5ba782421e965e2d94f49ed610a38dbb0b28; P0 0x972d81d214c40d6eef3d06a09dc3b2d7c51ab1e73034126671aaa0b115d778c62353648afed8ed4edd8226987b934438d06073bf1758dc957c25f145e5f9d8e58 0x1575003dbc1520eb23dab1dc7e2303fa12839e5bef9a66b91942e7364b97c588fbe7e0c2e80ce7c7a75815e84ee0444ef45f7e4a1f4e889fe48f54bdc41bc8a0498; P0 0xe633c1aca4b8cceb88b09dcef742e5a95edd6d509483647bf9bce3363fc05ae410b03451229278031480212b75e33a5bf4aab269efcd179c701ae05b7aeb98d83e 0x185135ba68caa837ba163f6ad3ea74ec10bb08be664111bcd1b61c50dd89a7aba65af2e5c83b9c66a784d82a21100ca43057d30f0e8c56d84883cc6f1d31f8df27e; P0 0x127a9eaff718374a0985d8d7accb1236b3b038b24b4e221040f5a7693dbe15a874cf10946d83d9b3de1e0ff8ed3f787f4053d8b469c6eaa9532ab87813918e243e8 0x10748e141d79aae043e73cd77c6c0ee754daf78f520dd3c1fd5ce3cb7b500ca9f2eea09c55c9bc577075f374d00702b7953848e5e4b0a8b3d720e2285ca160b9ec; P0 0x876369ca621ef33dd95d097ff403420b856d20ec21ddc67dbbf0021e7b030174280a3af2ceae4e5c71057985b69230c2193b8f06b0a4baa498c7340ffa9bcf76 0x174c75c48a7dffc79613f0de69b303adce3a930e947bf690d58110189801fa8581c8d6162a2b0c99e4e9383c29a6a5568094aea6925fd1f3e427ad16416caa2c106; P0 0x10f69ffb9e10e20a1906fd8fd032af126dd5167bd565b888e330a9560ca778f1e972423b2a40dd9756bd5627d72ceb1fbada3da3fe18f9b374f9a9d07a8cdd5e03f 0x96658b8089a192e0ffa4d77b17f785ad228d6efe2329255117a0f290dac87ba72af7bc1cad75fc16a5dfcb985566667b56559ea11fc9f57477199424c722f7ec63; P0 0x2c2d93e1005d63ce79183830e979c33327e88974a3767f3fdb055c50ad819c53e964880f21108400d041e092e2571f3e1014a877401999ad60eaadf6982111f27e 0x1a31ac44c5ebf308349f9730818ff77ba82e73e9b435e1d921aa3bd94f3b067d9fd9317cb6c77507178eaebee7ea8061fb211eb6ab4a62ca0fcafda1b666e62a0c7; P0 0x1571050af3a170fc062d8316dcd938d5667d41047b0dc751d71658cf3a4dced50ac7c59238a5725dd87f648c651116b2742baf6dd302015f9ea77043101e10766b4 0x169b2c52c7e5d975c4219239e0ccf5656332d45b4550d83d5525bd7a7798dfddc215752b3c8c3555bbe4281f6a0711e2f9ed0f7825ecbf0ddc1500b31c0625cc165; P0 0xff84d677231098a0341b8d086a7b6635af79cf8ed2e6b2b695b25960d9ea009914aedee2031517dc768e5632b73ad1dd417ab68d462d7c8ec58c6f20160cacac3d 0x51b552ed1c0b2b3a98071883ca3b5075b27f2075ed9fde35ac0e7bb035d9cfc11e44220539ecfe570a4170c30d19534e6ebeaadd90fc4e2e227e130742f35e1e16; P0 0xd0a1f7434f2bd5d2640beafd4625668a106b21ec50a399150da660d5e58b301ba3f115e8712485b575041cd087bc69913373765fc48bf477c8e9252c7b0a8df4c 0x1551f85c5b20c3d229cb9f7f751faf15d01cbb4675918e061b733ea5ab65eda8fd1bd911417d0080e84e7d8c13e8ce940feebf18d2061acadbc375ed9d7905a0930; P0 0xe3467f212c0e5ec09f0d3bada5fae89e7a83651842e72378c7d941f0961b532be0d72e97cf1392bcc7b478193ad23a91b082f6461d74a1c402c1e0f2bffb2b3837 0xafe4c95443ebd7537e63e554fce9ecfdd6596ce1ff2acc4b6071d45218bce636f22d20216593e71abe9233b3124e3603fcdabcd885357dfcd08d552b60713fa137; P1 0xb547e394a9f0485108aa2315dc1bf1e2858064429ecf30e5749aab0806483503482a33898215fbdc252de87f5ecc7d11c0f4334fd56f91eb5b651d2ce6d2dc3d69 0x16075f7ca1c6aeb6fad8ee452e478a51d59f4716adb024fc0035c0204a9f61ae208ab28b1a11dec50f9f933e1f40178487749bcf9562d813223d89f0b10b8a4eadc; P1 0x2d7e6efac5b1975603f5b50b8cdb32682c9e9ce71220f90fe0381599ac37ee5703fb8158edb5833653c2f5a15a4c1fbcc09945ff92f820b2779c6287ddef3df6355 0x23cfda1867027c9ddd7016df770bcdaa02f7f7c968b6d14f5c1e520d8558089169391a736cc64842f88f6e7bf86a1278d7c56a737b3e37ee600fedbbecf7e42a85; P0 0x2813f328cb76aee33fffe47dd9ccbffd05aaaaefe5d894d9085d81fda2cd5805b8731f8817e7d3d7f3cf792043d94c4f3ed73f1febd2a7e6a56f6c97722ca0dc3 0x1db7abd7e3b4eccbb1ca7195922392e36b8a7ff1a157cff9f37fcbf78ce7fe598a503210c12291d15de8d66f7d6b36590028da89be0dc43751dfa0f92178cc1f6dc; P1 0x52cb1111164ffdeff6c69f3ad443ee74f6d9e7e40cae186a82c6f13022768cbbd18c44d222410519e764d250d80997aea2eb81931d58a6f27c87acbc68fd1e7c55d 0x121ef2d1b7b002f02b977d314685a63cf585942408e25f9b0e74de066e69d16534b13cb4509805f3c151da5f103b60cf2fcbc30b52071d0d419d599d40c23326c8d; P1 0x1ec8cd4f3f3752103c14157e62714a91fff35be216e98664da777de7071b06cee19c40ac931b0749a189044f7b3d950ff9f6491204bbde46b8ec46df21472e42e40 0x154ca779cdf5c2588ad4e00d02c81873389040b02f3f2d8e13cd6a772edfc2b4a92100f88358e8c8a7b417a1bd6fcf944818e4e653b9054df826c1b8c93dc35ff3b; P1 0x2a87fa4c68320b55a652bc144a45a1cc3fba64c1244eab1afc11b7da24be3cdc01ca5d465abf9975df1cf0aa89f2c84418ed95abe66f24941d226ce5c23aba0ec81 0xb2a5f4d64b077eca71a718daa660be58aab8db2f93e45be830704694ab8defd25f67d9b80a45924a29bbbec65f4bfde6e3d60203e2dd817a9419eddb9cea4eb34c; P1 0xbb00ce174a1a81942ad73b6028a415b0268c5d29b50b508c9612ba4b889960c45ae3aee934929ef1f8a2107d0ab3368cddf36d69271bb13555e2b57953779bfc0a 0x193772fe331bcfe79e5d63d9924366f0408738537fdfd8fad0ff91ebbf9c9255dea879dd1596ee07c67fdcba531b2911ad076df251ad3d9e5f8245071d874617ba; P0 0x13df03c216e633e66819d13508d771cb1b5c687d3b5088f31b0ccbc507997ee9c3c2577445ee3be481e63546f9488bbf0254e5282b830fa8b59937aeaa364e2dd 0x407be4b89040bbc938785bfab99ac01a26286563bb633c19bf8da1ffa47242a892743cb2efc34ea0746e587d291d3c45b3181e1a6b29a4eb46ce800745cb4fd601; P1 0x185d457accbe632a12a48cad2db6ac269e442464bdbe1364c3947cd030e610e4d315d7dce417b84b1252eb06ec75dc054bc8c1d203d204edaac3434644da808afa 0x1ff1b171bb7ffd209799c453a4cdf1c0a32b931b5f566777421df3d5bd0fb9ab486586a1ebfc4d15721dd1a438b52841024418a8a8b6f279a7e62e2a8c4f30b8efd; P0 0x1fe36948f453f0b4436b8a18e5dd39ca32d90c1332883ce074a321259b91454ffdae9abf982e09915245b707b56c0fe536b6ea7bb75716996069b17a9f17b82cfea 0x1dec7e8963ffc62fdb47b9261ad41c8f00b01c8c2db741cf61245f1aed594773d18632df38597de9963e62f6d67d85eaa56dd4541e6c4fdcb7901e99f53631e75f3; P0 0x1bfb7925641ed541ae9cd0c5edcca7d0b175cf6aeeac1a5552557f1e1829d91f6e6826ad7d6bfa3aecafbd090cc30cd88dfadd89d8b7aae9fd96043ed3207cc1328 0xefe8303e318e04c9497eb9a06043c0425f1e5c7ba153907fe024ee76f5bd51d7e82cad1949f45c29d1f88b7604f4fcd2584f9b0778c690dc373d3ed59dd51817d1; P1 0x1513d0b016784900eb85bf4f3146afca95039c99aedc1f4cfd72af2e164737af846c097e0cdb1983c9515bf41a920c94b1eaed6d1052c4dc628cdfd4a8ef35b92d9 0x11adab8934db6e1a683651a3b9364ca839f1d43e2f233b95364a66a733caa5f08653b72c630eed8b908463fbf27b8c1c79af7c14a90844c4c5db161994fbd913cbc; P0 0x9c434cc1b395ac8a3288473dfa5b4f7748d069c745b60e4f7a34dca8e803085a3d4ed5a95b9bb30b7c614475869990983b59bd92f862fe0381cbad4d79c8d4f4ab 0x19f7da5929ea0ecd6bded98ef20366fe196b0fd65470bb78d219a659accd5428f719e0fe4282cecdd9da91b2c355e0059928165c30a1894ab93f0c147953c359ebb; P0 0x1512c4e3e3d497ebe2451e792c40bfc2208fc10cfff5ed023857290cc46e806562710af2192db229fe52a3005656363fcc59a7cc32623fe1eff5d9b8250ffc5aaaf 0x16ee4b9c9070d3896cacea14e3e2cce2cf3601fdad6ee779b5b14b95301e314a903ef5cfd5c325ebd6c679492f964b323c309e8437c57c5ac9e36312fa1c39f0748; P0 0x106e967cb228943b4939f4e7d9ad6bbb6c385ee5a76d047a87a9b8aee34ccd6889a990126ab11fcec89e1be57002f12236a10d7143ff814c188684a46104b4efba2 0x8b73b1e7db658a50437e9a1e726ef1b6cffd8d86afe6841f45f59195b2d22b6da5f598285d1386756fc82ce72aba474ba15d53efcaca4b44679a09868206f3ffe2; P0 0x25fb6bbd8d18e866c1f8ce1b1461036f08bbffe70501bd503bed8fe43b7eca4ea2ae17d3e1f4d8ab3170994a356557ab90f05659dce821443807fb39ab71e6fa85 0x1abf45a182da9d929465d9558620fb5c3589875cd5401b1c750879bfe609c7c6e7dd110b88b537fbe42129df842ab2947c204b20fcfe303aa6a6dc00bc1d0b6fe09; P1 0x4311d94acc930fce68225d246366a6ebe2785586a54691638111d44d767d50da0669ba91f50f2b62e6dbbe117bcc63bfe0a8f9a6301eccae668e5730bb7455637d6 0x184aaf0e86f67708b484f9779cc6b748d5c4b05ad40e9b62f4d2022839d822f170888fdf17b7e53c1946c12e03e355f21f6836d046f5b35453b53b01943b7fbccc9; P0 0x1270b4e32b48d1339dd94a7259bf9c24205bdf35e32de72757db578c00b5f5b59bf0a901b341f6238bcacff2da34830bb34410038cd199f85d6525adc1ae95b7877 0xc94cce978121de13b1132830d98cfc0af5dd96db2bca0d234c7336e2abb5b75061249344e44912625f6c053e6fd25767b8fbe918ddfe36d1593cc145c37d526e48; P1 0xed6e8d2fd62e0c7c5060107bb9238ff97920ea85ac3b7b6660b3d7b141837284ab0173b282447965c285e9570b7fb149d01b2791f7c9bba9918e46ed6c4254cd3d 0x146d6c9b71801cbf318c30e8b4ae5866d7a0f189402b55b2c78e5b7c224b75f37049b14b9bbc1ce77f44422b28ecd9143241af53d42e290163971183133b33aa9fd; P0 0xd0a3defa1718de8b2249ebebcb2ec29d5604f4cba923a12266c68351c3894376f9e7da2a0b9dca848af829a36b870dcecfbb0299020db1adb952e9180a65316f67 0x42559515e54f458c68b9447e19714f166def76403a72a231c4f09ea1929ed850b34aacbeb8b818109e6d52df4d5aa6e54536553124cb091681e846c401aab57370; P0 0x8981ebdd0ccd2a7244d6c2145f236564dfcf63766088190b2f287f7dfbb3994b386212df63b5d7c336f6555c30c68e6898dfa56aa76f8e52d4c948eda6e1f317e 0xd646bc29daf98a03fa60d8ee539e638f54932974e081e97f3f03ddf2dba4a391e633ed5d27b5bdf91fb8e117160d8c5399702f9dd83bf345ec0dd873a79e8d027e; P0 0x59ad2b10b5a539d6415c6b7b0a2c2e0ad0e738d55b8c06207cf0c2663d8eb519a1f164465ebdf4400461776ab641b54cde4405dcb95478e7ea683ee404fcc3c0d5 0x838f1024a9c1d6d938fc77a78d30017df67c9bc4b57da3900e6bd261d54747348ac2d0f4cf3a70f398bbe9336d58b3801efac5e778e03752a25747b5284395f6d9; P0 0x21cddd3c47db517460789095995d4e16d73bde53c16a9a85f18bdb015ddd94ee548ed2053a8228dabcd518cdf910fe6b8127d6ac5df423e58fa62215bde3b523c8 0xded553246e3ebf8767fe8ec08f007de29209b483db1d848df1f17ebb276771397949320f5e75e5efa8be977faaa7c015b5b80813b2bbc8b5115043ea9cc054e7b9; P0 0x60fb56fb526a76a2b8811a56c36e256825fd4a451bcf2f53229e5fdd7aa8e81cd2058958ba6c749fc17960c66ccb48ddd01b5971044394758e5062f2b2de861746 0x1068d28eef43d4c84b2bd35940f2ff7d9540fddc28d704ee7777ac6ec814a3645781296ff9351c464d1df14ae660cca9be5f93b08ead2db82fb6ad107e941ad7af7; P1 0x193e7dc6ed68b174628693fd7175a961f080602b38a054a5a95409beef2208de8510d0ec2be6cf505ac2fc6db835acc6a12bca52e911c29eff85efa8ab78d9a66a8 0x7d7a64d598c746f48c3c55ec7661062fbcdde5a630fed787c420f3327f3a73820bebf8c5eee8b7f60affb365e478fe14ea70b564e029ac5cacaafb3b941e4d759b; P1 0x5c41217b47bfb03494616ff3a85b6df076e111f44e5a9d2ea0d2d2577a979daf12819654faeaeebdb07fa0972728d1bc3a92fc1c4438abada5f426c6f7683d9d85 0x19e8fbfaf62fc0a40f28e8a8cbe05e8527ee332f739811c786b38eb9e85e6c26f22f6ec24bf125a06588c46e7ba903925bd2e2dcc6410bb5c1a60fcba0440cc110; P1 0x3eeffe10c766e6ee722db5324592bf62e3ab20d3cbedd3478c1173b3a679172368999b16d88ba3be6a772187d89f3bda6170808c1fd0e0e8ef05722f72b2e2b2a 0x1d247976d82c14323c4e05330bc0b0d5780e919f94a8d154af2af2e3c1d27643bdf7cc17797fc2d76bb38e814311e0be4601ddddf3414e17951249d9490ac798e2a; P1 0x4f9ed12f80c84be1716bc2a24ba6df3395ea3038edff1965fa41b15fd6df32637201066cd2c11f47de1c6d8c7f8b4a28db9163f8b6d26d22d78eec7140265ebc4f4 0x1c0c8d8e5e904841add36c446ea056671203a82f494325a5ab7799027ad1dc97a1cf177efb8c9e11516e9a3c6c611526dde3eef426570c52ffe994f4402cddfa1a0; P1 0x49c1f5f1475d903ae27fe57ae8b258c0fc37b9a4aa6dcc330e6e19a844c2a04ef26e307fa87c26bbbc2a7c9ddc7711933c235e2904fd27e9cd57a49630493eaf617 0x10adeabd485774cb000544a1b0df780652bb4e6448e0e74123637db3a197dc2a29cda83d88134362ac169710151e7c0c5e9c71fbedd343c9f2e7d4bbb24444ae217; P1 0x1a14d3e262bed81823056941dbe3d752a52f7a778e3dd1e30c979a1077d46e414c29924555916ac6bf6cd22c70f160a1a2e78e81a1ba32b006814bf6916fa35f438 0x48bdc6f772ca5a4198baa2bacf04779596ff6f04cb7432acb9dfaf0f4b950852641871c696a62ece0e1d1486d2b9e3837a998af12a1b05e7eeebec948a191fce6b; P1 0x1f00f2e7dedf8974d67f776ba546ea5aa65e6eb311b24f7aee0470cf49ebceeec41076cfc55a4ca7e2f562828c8f78480bf8949f39293bc0ad5aacc451c6691cbe 0xffd98cf628659fddfb6848ca0f016f0ec4bb9f6137854ee59b13e99b704d3ba966f6090828ab2e6d4aefc4d8403bcb1ce7e8221d48a58c89040ecd3d3365783ee9; P1 0x17f8caf8c011da6791a93e18e1e0e795a64074591d84760015d19de005baaf59d15593ad2d92f907d1762d4a747147807ad7e34ec645ff617cb4f79e81761cb0dbb 0x199151316d59c453848804429cc7440465155b1224df39042c793ab28175baad053ff3fbb02b0e1eef0f561d747b688bc9580eb73c38de5ba0cb34c86f60d7c1dee; P1 0x3d48e8518a69529d7b5681eca81692bc9cd4308f1dfda9f0f16c5d5acb4856cc48add829af2c996937774bcbf9a73d72299823457e682d6d500922572c7754f4eeb 0xc3cf7eaedfd9d3631dc5b5afe4ea5f38783459e69f451cedcf0a4e3c2cfe6d13826e5595e91d2a87b390180099634b924984c4138607eb0a69edd300a4ff7eaab7; P1 0xe0a8a4c2c9c6b12a805d3a4768e1408b7a7fa9c7c741223fe938e8940c91978086c3a9e2b511b9e23c902d22fe58fdb9e88974e52978ee750215e0e1aa139b89e9 0x99b5298088ceb7a2b487b84fa6e205b2b63f30beea1787bdb9d197ec258b3aae7d615c88ca7fa59c7c67574b89aaa4ea82aadfe2d0e7c1cf11e0b7d561438e365c; P1 0x8a6f11b70704744131c5533026641bf0d7bbc9966a22fa15f5715e0d8df8db9f667010e8697aa1d736f9153db7d59b2236c0b3e7f885c064ed8c3f87e6230f6d9a 0x548162aa7c5c54fde8d36db816f6d3d9b8e6faf1e7fb667aa2b4aeda104500df5c1c8a4c75d39e9b91c62282eb9099fd2e92bb52d84bb3c10a7101a36ba7e040ca; P1 0x29d7bf36b32f585e9132604d7b81591cbf7ec3e0835396a8bbcd7f97620e8b9d0c4fc74b251f428197084dae3637ef5aaa93307f775d908c7c74eff31e3e899c8b 0xc734a0034058db0b7aeba32ccbb454acb63dd07ad314a8785959cc33fd459720cdbb2b3a03ed5096c7a1de1389d60b913dee51d03d2abe21d4f7d52c9d383a7ab7; P1 0xe8844961ad1085adb6be778ba3beda7df3ff7e4a381ecd2c4657c054d47e75eebb0e7047bd4ab7a195c6ae10c514f2bf779417aea647f73d78f84b9d170fa75cf9 0x157f43d5800aacbf548f152eb0a8231a8dccb4a1cf7a3e27a102d6bc3a82ecb1722f14108017e0925a385227df74ae88ded5c4fa4fb781306bf56a6cb9cc0e4296c; P1 0x2b530981a385d040ae77deb58dad89897f8a1798b5725c64933bd72416f34bb78b18296b09ff45b705e3dfbe8ba8018a2397ce10a55198ee51fe37173d8f5f8f3a6 0x1d6ae5731f1b3f6a668a7d7f911821023e6033c65a1331cc8d84cc821ad6bd6e4febe4c2bbfe92d501ac872785885115da109e6710ce75bcb773ef1db2c63344456; P1 0x51216ee590da4877f96daa365acf7edf773681c0e520d418db4fda32cb992459f31b063ead5a401244a232134ceafcd417d0d640ab78e3c1861e4c8231fc42140c3 0x1726a10c890bd729fa806935883b788869e0614629640e926d816db9fc1d3f6ff06a0153b01f495e686e3a004dcd303df51c34301df65f150de2886e62cfaaa76f; P1 0x323f226b07e5fc12be1225478f63f772421ff113294f6971a7935136d365c6cc8ebb6806bb4c1bbaf14a8576ee6ca724bc50684de46c970a3a0a7af86de9560b6 0x1780a6d76351eea5a109b683e459637cbfc2815be3519785e4f0e777e5d205b91215964574e10e5650f64e75ed5d0ceb24cd14548ca2214271a337ab413cb5f6719; P1 0x33c8df2f3f41f41f6525c8a71a8bf43e774740caff00ec8409b6f1649a4c0e6a079668ac553b1bf86410687c42f483a582aee0297b9b635ff1fe733b22cd3a76dbf 0x164887829566a99dae15c3422a7163c24c290c4800128d9c29bd68d1629f02ff700494d3faacf08b23fc5ab97476f395905c9dc6c9b2602c0f484ce667ccfe0cf12; P1 0x2e8d1c26c4b009f4b72593f2bd89ebdd1a698b9635ef6bebd2f36b97c604b7b545f95ce8d52f27109dc7609faf3b28345215a66284d071e02aaf3cad825e2e1144b 0x8892f3979ff2d845d4f595e8694f9b26915442f854a25f98833c40570c901e4cc28eb77ecff4191a71b06caba652fd62c12546302ca6397325f57ba9544bdb6c17; P1 0x6d4ab2c1c8047f5cfb60a8a097d88e0883614f27cc6a27c90a58accdf1f297a8e4d09f216c5a145e71fc6ed0892296e48786f8071744d4ad520ad474b42ab8d9e3 0x9b2073b2bfb53f3855151e4891c4722cffecda854dd288ef0460081812c57aa81f2142cb76546aa15aaf39b61db30f4b1a02283b90d9c6443a70b14432efb11816; P1 0x8d0078535faf3b5f0547fd14e2315adc9d35e2c3f8d263c5b760333505fc2e67411a8d14397d6a136ec623b394239f7442b23957973aacd9acf182c438603ee4d6 0x19b884c943be7021e184755a867464fc3bef2468431349e64767515ba6378ad6e227293121a72bb6e817d5e74541c143f49fdc4b6aecee52be25ff67e728e4f4a82; P1 0x3e05665b0231f9f780a7730384c188f7f307351568c5486b5a19ee3cfcd05054ea3ddea53eb731b4dde33153c2a870d565957ea2c13a95ff3e045f1f01cb1b8bf42 0x1d6334d251ec56b900159039ae3b8753a413945fd85980cfbb0ffa39453c1d38d6d342e7c9617fc6f78be0b8649dd41a3c3f537074fc4e99392a0b1191a8f7afd4e; P1 0x50f709e523189c54371b1f4e4df605583c4316a45e64a291b53faadb371002b38d49b57a7f43fdc0517148bb4beb36c8def10ea43293a58519c29b0143402efeb23 0x1e4dab719f24a3a2c1f4bb31c74f1476e5cb7ef66c0bf1ec29c5c30f1e0dd451e845fa47a9ed43c97722a60c0b122527a39a1ff8dbe4d7cdaf5ebe209f6a9e1b66f; P1 0x561719ed1b2f7241de0b19a95231c9befc58837883a1a6e983c15b6f7b26f2261300a0feadf1dfabd787db5d287b1ce135d6add5f0c3ae9ac759130ae0b02317677 0x1c9e27c17e285334f025cee242369ed8dc35cbdfddef7c6447b8a4bdb1c90e057a830e9548d523db58064789c77314e75b610a17a90d919390fab334da93f9182da; P1 0x4cc779b22eb9bff0f4e04c30db24a737cedf64a42e304d3619d7dbd5c9ac5328a871655df33d1f019cee6e76fd8b091419b8a1e01459bb1203a48c9394c534cdb68 0xae8c0fb3171dd74215688c012591032a1c14b7f206647d732afad59a35abdac5861b60c8e20ea0c2b2aa721b33ba5ce34505b66c4e2d2547a1f939c41eb0cf4054; P1 0xb2840af4f0667ce027a3049ed81fc22a36e4dc810a67d0917e46ff24240787241bc2978c012affcbaf335f2ee361afe6bbdb847dd95de6d6a953bc6e7a7ff919be 0x10a29cc2c2d5bc104315cb7d0eb37c1391a179bdbc887d3e816ca3f79e537a3a2f50767d43c48180b7ad7859d1d0b5654f0c8dc04a9ad6e192d4b886a4047ff6c6e; P1 0x19f1854ae42df769f97ae5cd20fa28eb2aca39411180827d467ec9b0f4e9580a921e2dd1627c9a26f8b689fc31154134b05197a6a0fa08bdf610b672fbd0f04446d 0x12ca9bc581160de5e19c934ac169410bc1d9084aa8a059ed8b3b21939211855096d2d0a76a4ae6ee27c794c4405d5b8ad3c5d30dcc0f8d10d72d34a23b7ae374239; P1 0x211ad62f4ef5d2c568e9613ca3a75d01962b8509998ac9f9e31bf75e4a88e09ede88e5e878f94c00df881745573181076a76dcbf1669c9329088ea468bc6dc0fd99 0x8cc47b2e25026d245b861060007b8d1c295c4c92a8b17a4e1597c3b09703eb20d96f88496d30f07f1b2f3c1b7838f97dd8d88fb866feae1cf23c82b10f729f4fac; P1 0x741b3c4afb9d0c74d050f5ac498042a1b88e1565768c882dd6da5ddf023071540148809d5a931e8e134db6d42afa437f4ed154bfc35651fc49fa1fb9217ddcdef1 0x1a7479f813e68e63ffcaef1e5a8c709124d7aecfc27854ce979a5fd48e0a2a78703a5b4d3202487f01ad265943ebdf1c4f6d1f7c6ed7f471d9764ac15e53f37b1a1; P0 0x15deee2937ca889eeb7bd67a7fdb4c26aaa4a9f1f2b38eb39ebcde9913924c339d7a289f9967a9e0f4fc7e15c38e6aa16cd8313931703fea64be0f7f8b320b888c4 0xf0482a32870dddd700a25cc5be5c4b261f9320411a3712b13911986a18b2e5d631b2a6b0a184713dbb05c1cbb6a6345180df167fdf028e8b7fa5b4a2482d269005; P0 0x70c3b1bb404d4b04bfcacf18c261bd43628de774a6d505f90ba302f94217bc34ee95826f2cd2ffd1b218d46066173995ecae1202abf9d0a810d64c5b1f7e68554d 0x175ad652239136df3281c4c8a7aad7154735f804436049be706a4d025fd4a05f8d244a25e30c96b0fb19836cad13bf29186367e4fb426979c660b42466052e9f566; P1 0x3322c1d3b5bcbac6894411bf3a29d867a8351c169e513e760843bb45d7e2396c73c8fb276261b870a277fdefe5c927aed00ad0c66deb3ce4a3f5e111b2301efc66e 0x12805b0f82dc120b1391c58a61aa74c2d2214927528fd638a4d8ed22aaf141fa5e1e28e6d25b0977b6cd15a196970deed2589a10ec793c0ea05f96cbdb4e6a8f45a; P0 0xab2694af26eb4a53ab272298e934770518b0a6e5edf64dc017ecefff3f8432f7b2855a6f9aedb02cdc4268938a88a766b58c30b29a2f50b4b7f41a5ca43c1040ae 0x18e4d3011de861276382d982301d8a9304a681e3528f5aaadeb8a2334d8865ab043437cbcccbd010d0ae18bfe1b39964c571b1d4a8c798aae8bda42e5c7936bf052; P0 0x135da0c5ec1d7b96023f993bda6376cead41df82bcb935c39bd210e04b23f73d35a68b191e6ecac5fee34cfda76ad3a388d09b2da34d5f78198090d0922ea03fd20 0x1daa014591a4af6123bdedca5d56be9c7dce852c725ed857304d8d03da955d03da0ebde2cfae041599534f67b5983d0156280e2e965748074ed3dfc801fdc29d764; P0 0x1b7fa97b9b32e40070ee2b0d0a02453a4d107e1c0ef757136fbd00d91bfcbbd2d1da03e4cef235e093002fdcdce661a90d4c5c84760e7caaef3723dc6617b01423e 0xbfbda961504a5e07f6997ccd2e703989016c350e113dd5b03a4a0dba9e6bc5314285bc7c2b44e3b47c3ac64caeefae37369d76c1f22a3b61420dfbe1a40e42614e; P0 0x47ce47a15fc8938f6db5be6db94eed38a354f257ef30a900342f0a86f4648baa7cdd2ab046e631cce96513329c5a17dc04a6a1bd8bca669d3dbcb6ba51f2d744a9 0x19ebeb9ff0f953cf948e9be4b9ec7633376e6a3e2aefbaebe58e633fcde12680987af73047346ff8f1b5285a685eb172ceb00afe3aecc5a63b56c8dd61ccc0b786d; P1 0x3efe427845e36b013cc5e41e6159e9267994aedc77f21ed61168b229e90563f1a2d5ee3ad1d0e49039e1930a40af26a91c195e6aadb6b9bee2ebb0fdd2fb1ccbb08 0x1f509b77530f439a2bdb4bcc21bdca4c55b635734527828bcc8b8b18c609a1f1c54dc4e2691267ca462fd39e9f39a7226af256202b060818671f2b6720b8fd9d643; P0 0x1ea4f84378da90e32fd7b4d0ce30e73795b56ca125a2b93ed111195baab4336f64c413cb55d16696942c7f7492e67093a5656ff298b7d8b72eacfd24e6595f47353 0x131642565531ad7ad113c54255779afa3832e8f22899a68b6b305efc3e09b05f94702b621109385597876042c2ca6b31503b9476658eee56d87d3777ae360de88dc; P1 0x22277ac6d02f7ff84fc2bc3c4bf5b64a6f63036abe4476202751d02855c1f6f345100ffba07c5dadab0f6ce89ea8305d53315b7b5e23a53496d11a5e1510a91e6fc 0x1c8c01a4ca01fe4bd0c8145f26614d7b21d6e2d58677c1dd940f3188e739e18bccefaffb885bb5a48ae80860dae34c7281fceb9635bdd0b8dd9dc7e0c0cfec15e2c; P1 0x4c66364c4a8203145ce8415ab7c091371e4e5a831c3ac69df97d68a0c7789c95bf405d2be70e6448d0e64d45a78c5494cbfb067be42c7f5439a38daafc649f261cb 0x38d182e9275ac2296dfc2b3d7301ac3f061eaf72055a841aff376b8e2fafe0cf7956897e0066d23942d1d41e20ac77e67011a2d80a41a0a9a0343666f19ce7687b; P0 0x64e2a5e826dcbb9ff1c198ec2bf4f50ccb00454ea46b3378dea938beccb3c368726871f896e3082875fe5bfbfa1fcd592c7ed1612f3fe3b387d6e8cd4f244e85c 0xe73997120400aafa3d932aca01f6d7df3f8804362298a4c47824ed7b85892f2fbb407b5bdc366ae0eccd4fa17f3c5227129e40488f6c04dc1bbc7220ee92e31375; P1 0x139457962b397de45a49f6be53a2fddeee1dec81c1449c40d8d51526fa58245f763b6ac41605b35a633914b04ee06ac8de7f35046327b7ddfad027e13a41ab6eda9 0x108d162ed68dd34743043f7ee5bccd68f225de5a469f96d2b1282e130dc265a0bcc15e949e71e4a7011078216796598025390ff0f987da05552d31bf1effa0a814; P1 0x19ae8caf2813c20bdf6ed5244c828d59f3685f6e9c3cc32af93de2477bf6f196d9752777a7a0356a4358c858c64d60704ae9bdf4f30cee193172a7be4810a7d0c 0x17d7aff5b6f2fb92b65a1ac234473ac7a8dcb29f4f3c8a1866947b55aec81e200ad512fceff54cee944907019a1e269a5678f4da6fa3002e4c921468cf39f1941bc; P1 0x354b302c5d039f639757aebe6cadc30f592b6cb565c09330585d345a26fafe870cbfafb616f5d29c5119681946c11c25ac2bf8be53c5b15b5ae5d0c973f1ecbacd1 0x220104bea3babbf69b39a08227951a8866e598bcff3a470c682d2c790a5575c79d1f1f17bf1778fa21ec1450b9228324b773840725fdb6a92ec3a6fe676d96b301; P1 0x6c667e5839a16b46165d757a02c14ac932e6eb7eaea19f2e2e937919f4337ebbca9263f4473480d08d78b6c4d7116b6020423366ebb2518028437bc1554ef3a51 0x7d93e8666c2a4ebb0962fadc05e4b0d6679e3f2057ab2e753d4734b995888bd9318f9be77686e1b940fb5fdd3c32854020e49b1ca6bc9d5d42c246d7eea9f26c54; P0 0x1ecce3345f1dab40100a7410cabff2ed5394509d6ece2e2a85ae39bded2d0626d85a7f4163d64aa37d6d7a1bbea40f455d2524303dec1ac7c6f0248fa0cfc94230 0x6da030b99710fb7dad37cd13cfc9df3ef9b6c1d10104aca63bb4ac1cc67a19af6f239ee102b874d775c6e3052b5626202efe25c10c7512c7cf1f9d0c68b4703dc0; P1 0x466ab49879db1fe028e68930bc90f4e8a071a157d0ec6629b5164217d8ac43cb07fe214c015ef109cfd4c2b413e117f7c3fa446a31cb2616d9ee00717975dceec3 0x145df89691a75cc12403d43179248b13e7cf7daffa2b962a2ea178e347026e39bb09883ff0bd6cfa7c323ba3f960e9d4fd24024fa7bfee2a17386ff0d9dba8c1ec3; P0 0xcf68ab0ac6066d6c5558453b707af8f20d36bdfe2eb4fa24bc124912c7128796ca5d17aef405a796e4c6b1bfb7e8546e61819bac807c0ca5b34bbd1338a7885703 0x1b6b2646a469f8ace2384ed69c76f35bf144213f30b8d4fc4eb0afed15422f938a61668a88d8dbcec2bf2fe619ac761ea4aff50250ad92b485f4b2485cbac829f8c; P1 0x467aa61e12f4304326a5fd491bdc542d0d39c8e6bd37562b5955e9ea57cc4b4394e127ad65499151c5de29ffb5c88294f6c4b0ed8326f1e6d0273c3aa94e054d482 0x1442a00ca9505e3cba0cd65f16e12dfc24d954d8550207169c06b35a9af22ceffe3a9da82cbf67db32df0609ec80f16a888c870b5858528df45797485cc89327232; P1 0x267b785579188a6468ad6092417bc5b22fd8bff13bf89f595ecf13635389afc7dbcaee1b021f05ccb747c6e0f94015d5522b8a447fbb56add21535f2bc0b673369d 0x117bf88028d23efe780e56aaea7e16985d92391a7e06b46310f775772cf313d51e0a32632fa4d7e3f57784508b17856fd7ca59db380cbad6ce9ad0e1f4faddcebe9; P1 0x1ca8c8ea2b19079caeb8315203862ac9bb234b743f11dad6f376bb9a10ef12c6a2896981ed9e2f109e6bec35e259d62b16291ebf63d242055a7c937a5de0a6d5b2a 0xe0c756887a090af73421985e28a32512df588fa9e0005fbbacdf30b2872476be5cfc33fdb72ade60f31504f4ca6b171c65576235ee4f0c67cec05cbdc5be06295d; P1 0x1280c2bf9b87c4bff6e0e4cfc84a9a65a43b886cb212c463666b4844388905b2a2b2ffa8429e8fa14e558110ac08a76ffc0b767c7f5ad2a162bf87cbc08a2ce8f4f 0x8908399deac2a52f7015c7f9d100a8164791dc0939f6dad9459ca6e00049fb2767ce74e29aa16937d2f236631dbfa5103cd1be394486727e94fbd91e12abef52aa; P1 0x6e06b4e602280f6158c6b334d5b443f3cfd2c21eaca7e4ae5e7a20a1070be24ccc8404d4ad65b9fbf1455b4fbd5769a21b30315806a08cc9254245f9fee7186562 0x70a931f32ac49dde5359d3b482039b5448641c97199c24dfcb14d3895d2774e02ef9e9087344f0d6cf45fb7ecd3abe3bb0722d15de620f0b49ec652a369770700e; P0 0x18ca3dc3e11cbf8a3aa848509366b0baa44c455e88b169c72571d6d6100969a7249d1b2cee29308a3d105f419e73a761b21f744b97f177f08ee1bcfdf2507dea75 0x791d7f3bf9c19a1b61f8f262a2e60a22fa9adfdcc0d6afeffab8068fbd91bc079188ba0365c0fe86c92073e244294a0da331ba36ccd01dcf323e92b16d11ca2b39])];
  mkcert 17 ([], []) 0 [] [];
  mkcert 127 ([], []) 0 [] [];
  mkcert 0xbdc19 ([(0%nat, 0xbdc19)], []) 2
    [P1 0x0 0x2; P0 0x0 0x4; P1 0x0 0x20; P1 0x0 0x800; P1 0xa 0x96706; P1 0xee895 0x7e5bb; P0 0x54244 0x2df5; P1 0x164 0x2062e; P1 0xb0e0 0xa9aa8; P1 0x12f67e 0x4c232; P0 0x1e8c9 0x5a23; P0 0x2ad 0xb1e4; P0 0xa6c 0x33e84; P0 0xe32f 0x4a079; P0 0x1ce19 0x1dcc0; P1 0x95b9 0x884ef; P1 0xc3d47 0x6ae53; P0 0x3c379 0xbdc18; P0 0xbdc17 0x1; P0 0x0 0x1]
    [(0x7f, 0x824fd, [P1 0x0 0x2; P0 0x0 0x4; P1 0x0 0x20; P1 0x0 0x800; P1 0xa 0x96706; P1 0xee895 0x7e5bb; P1 0xa8488 0x5bea; P1 0x590 0x818b8; P0 0x58707 0x1d091; P1 0x8e2b 0x80e0f; P0 0x57882 0x7282f; P0 0x451a9 0x48320; P0 0x1b77b 0x824fd]);
     (0x11, 0x974e7, [P1 0x0 0x2; P0 0x0 0x4; P1 0x0 0x20; P1 0x0 0x800; P0 0x5 0x4b383; P0 0x1dd12 0x86647; P1 0xbe5d0 0x11e12; P0 0x1af4 0x3e770; P1 0x291ff 0xa3c19; P0 0x8d518 0xa4b19; P0 0x8ef0f 0x66bfa; P1 0x6f459 0x88797; P1 0xc44ea 0x76348; P0 0x49a23 0x6a2d5; P0 0x3b692 0x5f8f7; P0 0x301fa 0x974e7])];
  mkcert 41 ([], []) 0 [] [];
  mkcert 71 ([], []) 0 [] [];
  mkcert 0x443b ([(0%nat, 0x443b)], []) 3
    [P1 0x0 0x3; P0 0x0 0x9; P0 0x0 0x51; P0 0x0 0x19a1; P1 0x1ce1 0x19e8; P0 0x9d6 0x5ee; P0 0x83 0x3f13; P0 0x3a4e 0x336f; P0 0x26c5 0x26ba; P1 0x41f1 0x6e1; P1 0x214 0x2aa7; P1 0x4ffd 0x784; P0 0xd3 0x3f6f; P1 0xb0eb 0x443a; P0 0x4439 0x1]
    [(0x47, 0x35d8, [P1 0x0 0x3; P1 0x0 0x1b; P1 0x0 0x88b; P1 0x335 0x2134; P0 0x1028 0x1958; P1 0x1c3d 0x34b1; P1 0x7a12 0x3cfd; P0 0x3683 0x35d8]);
     (0x29, 0x1141, [P1 0x0 0x3; P1 0x0 0x1b; P0 0x0 0x2d9; P1 0x5b 0x12da; P0 0x535 0x1a6d; P1 0x1eb4 0x13bf; P0 0x5b6 0x3f8f; P1 0xb19e 0x2e39; P0 0x1f50 0x1141])];
  mkcert 0x1274f5d ([(0%nat, 0x1274f5d)], []) 2
    [P1 0x0 0x2; P0 0x0 0x4; P0 0x0 0x10; P1 0x0 0x200; P0 0x0 0x40000; P0 0xdde 0xe1745a; P1 0x1583f1f 0xe8e005; P1 0x16f47cd 0x6127b9; P1 0x3fed49 0x260cdd; P0 0x4e718 0x811b11; P1 0x70e2ff 0x115069f; P0 0x103dfb0 0x243d1; P0 0x472 0x7c4537; P1 0x6896d8 0x89ef2a; P1 0x80da79 0x11d30d3; P1 0x226d61b 0xf07f03; P1 0x187b68a 0xa00df0; P0 0x56bf60 0x901b20; P1 0x8ca468 0x13b638; P0 0x150d5 0x2493df; P1 0x90fa6 0xdacf34; P1 0x14440b6 0x10c9902; P1 0x1e89a6f 0x356cb5; P0 0x9aa41 0x1274f5c; P0 0x1274f5b 0x1]
    [(0x443b, 0xe7857a, [P1 0x0 0x2; P0 0x0 0x4; P0 0x0 0x10; P0 0x0 0x100; P1 0x0 0x20000; P0 0x377 0xcc04c5; P1 0x119e5cd 0x8fc0b9; P0 0x45fa14 0x120006d; P1 0x231bf94 0xc3180e; P0 0x80e319 0xe069af; P0 0xaa8953 0xe7857a])];
  mkcert 0xd53ab44ac00f4f ([(0%nat, 0xd53ab44ac00f4f)], []) 2
    [P1 0x0 0x2; P1 0x0 0x8; P0 0x0 0x40; P1 0x0 0x2000; P0 0x0 0x4000000; P1 0x0 0x20000000000000; P0 0x4cd66421d04dc 0x2063b6a8c29c1c; P1 0x9d7053e23b659 0x6649f6b1cfc9a9; P0 0x3111c0c01a1aff 0x9cc9e4ab458be0; P0 0x73499b181c76d5 0xc5f60525addd45; P1 0x16f926f5cd6e00c 0x5f3c4fc294917e; P1 0x55122e9bc81eab 0x5f684bcdf27843; P1 0x5560d541c701bf 0x2a86514f920821; P0 0x87b1396173a8e 0xd4642bffccb06f; P1 0x1a71cf71989a07e 0x2611ecdca1b760; P0 0x6cc0a495ac896 0x1d595268d5b3b6; P1 0x81444fa13f31f 0x716b0731613337; P0 0x3c53ec48a744f4 0x35c86670446285; P1 0x1b219ae07a2373 0x7d5e41771f84b5; P1 0x936ba386cfa4f7 0x60e37943eeb9; P0 0x2c065e7ffb 0xced177aa894e3c; P1 0x191332772474e05 0xb94a3ea0eddd95; P0 0xa102f79107e448 0x335dbd07dcee81; P0 0xc5fb96045f6fc 0x92248f5dc213d; P0 0x6429c4ccc527 0xc35fcf092aa880; P1 0x1660753caf89548 0xcd83f2785b36c8; P0 0xc614a13f9e1d4b 0x8a13b4f2268d1b; P0 0x596976ab00ca0b 0xa1d02eb675c274; P1 0xf59717ee96cdc3 0xfa5a25ca01cf3; P0 0x125f01f6a315b 0xa2ffa89e1c7e94; P1 0xf933a9c0bf771f 0xb2bfd33d9b778f; P0 0x95d84944ab2bcc 0xa3e5021b9cc9ed; P1 0xfbf2e04dc5d310 0x10963de8d1f8e2; P1 0x2949f0d61c4ce 0x8de1ee3c18176; P0 0x5e68923338fd 0x1fa1e5bb7eb951; P0 0x4b1512e8e285a 0x968f094e2671db; P0 0x6a4eca0a88adf5 0x9bc86e78807be; P0 0x71d031ba16a7 0x49c5769b1b2a7b; P0 0x1985d6b919bc05 0x6de470d849468e; P0 0x38a2a9b582554d 0xa809bb0e762101; P0 0x846ca843e11a69 0x5ab1634169f49a; P0 0x26930fe34fb460 0x41b388eadfa304; P0 0x143e856d489c31 0x5268fd6f7705f1; P0 0x1fd9b045b6dee1 0xc8a59416f35672; P1 0x1799d0ef54e4a1e 0x4a66b81738f446; P1 0x33ebca464fc195 0x6d244c16b68e4d; P1 0x6fba93bd25c7b3 0x5e151fa78ee915; P1 0x53060294640e73 0xc6e25bdf0d44f5; P0 0xb981127ae929ff 0xb0ecca1ccb2bc8; P1 0x1259a81e3100515 0x954841895bcc05; P0 0x6883461cfd356a 0xa7ab9b8c614663; P0 0x83d878488e611c 0xfbeb09bfaea5; P1 0x25340df6f2e 0x9d06ea8bbe6b80; P1 0xe746d482ffe650 0x6c20c036d1bd50; P1 0x6da9a5f2964651 0x1; P0 0x0 0x1]
    [(0x1274f5d, 0x20fe497fcb587, [P1 0x0 0x2; P0 0x0 0x4; P1 0x0 0x20; P1 0x0 0x800; P1 0x0 0x800000; P0 0x0 0x400000000000; P0 0x1335990874 0x1031269f479834; P0 0x13ac5354f7189 0x6998d0836aba49; P1 0x6896c39095b971 0x18ea5ee13278c3; P1 0x5d29aec76d829 0xa8cec06e2fad6b; P0 0x85a3e5e8981d5b 0xa49d4713da66a4; P1 0xfe2aa9217c27bc 0x39dd1ce049eb1c; P1 0x1f679ff30cfac1 0xa6004c3d562591; P0 0x813bcb7de6423b 0x802d7d4abf56ec; P0 0x4d0d0b010c7bf4 0x438784b48ddd44; P0 0x1562eda4c59a40 0x34981d7f222050; P0 0xcf8ffc88f4f06 0xac9a81aef95c26; P1 0x1176fa360fe9253 0x1bf93880cca6ab; P1 0x756f56f060942 0x79054f772cb314; P0 0x44afcc5a03c976 0xb3ad416fabe426; P1 0x12ecec9386acb7f 0x59d081140e2e17; P1 0x4ba960ba0d6edb 0x202a7aafbc818d; P0 0x4da2eb7e5ff3d 0x4a3ff504f910d6; P1 0x33b5beb2b1dfcd 0x9105a360dd285; P1 0xc543f413a8ce 0xd1007eb5cbc8a0; P0 0xccdbbdb2d18c8d 0x64e7776953c17d; P1 0x5f7fe1dac94045 0x3c81eb1f88dc7; P0 0x112b880afcb9 0x43253d8921fc9a; P0 0x1524db34bb0bf8 0x60da690787531c; P1 0x57fc44a1f9e6f3 0x1a0e61801fd423; P1 0x65e368f44fac7 0x66c9db444ced29; P0 0x318cc1a141e1d6 0x20fe497fcb587]);
     (0xbdc19, 0x680f43f533cdc1, [P1 0x0 0x2; P0 0x0 0x4; P0 0x0 0x10; P0 0x0 0x100; P1 0x0 0x20000; P1 0x0 0x800000000; P1 0x99ac 0xa6ce30fdcf7fec; P1 0x104fa4dc6a122e2 0x961295f4e30162; P1 0xd33ea74abad3c2 0x66c746a00c1c2a; P1 0x63148974f5c7fb 0x3b0a9845420253; P0 0x10591a59e0256f 0x1d2f75e93458a8; P1 0x7fd4954e8ab52 0x51ac02de913032; P0 0x1f48447e7a5ce9 0x6769b51dc276dd; P1 0x644ead7256c91b 0xd234e2df78513d; P0 0xcf3a09abf57748 0xc17884d03aa151; P1 0x15f16154ee271d4 0x957e32f9296ad6; P0 0x68cedbc934fb2e 0x1004d2d090b5b2; P1 0x26825f8f478c5 0x11f616a6258fbd; P1 0x306a2dba73d3a 0x977bc6adfb182c; P1 0xd73c44c3936143 0x1a879773b29e73; P0 0x34cffc5bfbc93 0x1bcb75dd86594c; P1 0x73f05b57f7c50 0x407e1bcecbd070; P1 0x27032eb38226d8 0x45820b5f3bbd58; P1 0x2d50ebba945fe3 0x399ec7778e3873; P1 0x1f241b0a3dec41 0x8d562d67595043; P0 0x5daef2123ce9c6 0x54890d0ec1336f; P0 0x2183a7ac3fd9d6 0x75fb8b99bba717; P1 0x82900ac441a019 0xcc4e9c57f0296b; P1 0x187842ece6502a9 0xc7e7d45d932c4b; P0 0xbb6a15ba830f41 0x8bbdf7ecb559ea; P1 0xb729b0a03b12f3 0x9ff00e0c59fdcb; P1 0xefee1f77e4b9bb 0x2f90cf34ca783d; P1 0x1538a15033b0ee 0x7a8e853ba8f1a0; P1 0x8ce1f1e20a9582 0xdadc8769686e2; P1 0x1c148dfde44ff 0x754968cef08357; P1 0x8106f1e4279f95 0xabba6c98b05527; P0 0x8a4df61ba6f2d0 0x680f43f533cdc1])];
  mkcert 0xe5d44c3fe9cf001873 ([(0%nat, 0xe5d44c3fe9cf001873)], []) 2
    [P1 0x0 0x2; P1 0x0 0x8; P1 0x0 0x80; P0 0x0 0x4000; P0 0x0 0x10000000; P1 0x0 0x200000000000000; P0 0x4749a6512aa 0xbdfead8453b4d8ada2; P1 0x13a210ec2617b5b1397 0x271d660d998188c033; P1 0xd506099e52dd5e4fe 0x5a3a018bd5526b6638; P1 0x46d7abe2eac405af9f 0xcaaacd43e5cf3c8c13; P0 0xb2b718a22349395850 0x5b5caef0e6ba829d79; P1 0x48a300434c3cb985e4 0x45d3a26d103f9ec0f6; P0 0x1536f8ed33d3da4810 0x3dd0ccaf32434a0d34; P1 0x214093e91c615ccafb 0xcce22144d550c5ee5f; P0 0xb6a51fff439f5cc7dd 0x85c4941d081fc046fa; P0 0x4ddb6c6138c8fc6412 0x424189e9495eb080e; P0 0x1319bbaf4306b86e 0x59099aec1566a5b75a; P1 0x44fcd035cb53e8454e 0xc3bb53ac0ea0d5253e; P0 0xa6b1637cfa7c41a9fb 0x1cff9c4fbb90281743; P0 0x3a8aaa55a68035f3d 0xc655e14970499b9b22; P1 0x1565088549cff5c98e7 0x8335f9e0440c6e0943; P1 0x95d16a670f186a1a94 0xafd0f53940e5abbe96; P0 0x867f3bb2bee71081dd 0x9b9ce5ad9e7aaff19d; P0 0x695cc7111114119593 0x6431b5ceb755c30140; P0 0x2bae00a71f7efe3433 0x3e430a3a31496b5517; P0 0x10ddf6b0ca6bd98369 0x62576aaa779d7a67e6; P1 0x542893f7edc29757c9 0x713a2e749d798e7dfd; P1 0x6f908e9078e70f5020 0x70539c3a933df619b2; P1 0x6dcbfe3080cbb13c88 0xcdb96501d25b0d8e70; P1 0x1704b6c55093acaf140 0x9230f8ea7b9d788240; P1 0xb9fb0945264cf70142 0x963ff59f77a3765f5a; P1 0xc473460d8610daf897 0xc39d99ad6a1a4c0373; P1 0x14cfd8ac598f9b7d016 0x384ab916999d934170; P1 0x1b933629cb8c06c7df 0x21d139b38a53eb70d3; P1 0x9f3a9eb65f6f95fd4 0xdc31931bf48f34af96; P0 0xd2f644f027127a392a 0x726a48435a91ace06; P1 0x71eaf8ae09e6b106 0xb175b8a1e6e8d13a96; P0 0x8905ffa066f84597bd 0xd717983d79b5d76dfd; P0 0xc94cce0ff274c786ec 0xf634fc639b1efb005; P1 0x20f80e44647f4f9e6 0xc2ab539b5dd43fede0; P1 0x149c6b51233ae6efd7c 0xf94260efedaf1894c; P1 0x21ca9f25b35138606 0x3812be5e4aef1f186e; P0 0xdae3cb1f0311e805f 0xda8255a637933c3c97; P0 0xcfbf1c0b952ab7af2c 0xe1b0d61eefe22f504d; P1 0x1bb40e7be3632d3b33f 0xd633f3c23574050105; P1 0x18f473060c4c4939c25 0x8fa7dd936e14737793; P1 0xb395ce752962ada91d 0xe1f92da9342cfa4ccb; P1 0x1bc5d3d8625e0188067 0x47a8cb989776fefbad; P0 0x1657cb4fe94479fbbc 0xb2b55d9b33a852fd75; P0 0x8af55aa642abd3661a 0x42b62c7ee6e25b29cb; P0 0x135d365ac9888dffe6 0xcaaa08016e875d22a7; P0 0xb2b5bcbe10ff9994a5 0x8104b163fab1198ad2; P0 0x486d2ecf65c2fd0736 0x4c56ecbab1d1f3c702; P0 0x195b54d5960e33476f 0x9083563c51bbc49d27; P0 0x5ade15b4b1c108f8a4 0x9cf730cf02d3d9ca45; P0 0x6b33c0b4e1568afeb9 0x5ce215591ac779317e; P0 0x2589aad6aab4a88d81 0x8958a70a7672b1d111; P0 0x52140de5bdb1330728 0xe7fae4e5d2da6cc29; P0 0xea26a49878413506 0x11c044b023d5b9fcdf; P1 0x2bdf5da5923e71f52 0xc6328f926afa68d2ac; P1 0x155d6a851f56619aeaa 0xcf5bb8b3e2d653e0c2; P0 0xbb1596df3a4ea3898e 0x5831945abf60c3f83a; P0 0x21d7d1ee471de78810 0xad90cf0c668548cdf4; P0 0x831361fe8fbf5bb638 0x1689c11b512fa89568; P0 0x235ceebf371f90350 0x19ad71f32764863d50; P1 0x5bcd3caeb4b133dd3 0x28ab8e7190586de437; P1 0xe64d14142006c6d59 0xa706d775c7929a90a7; P1 0xf2c5570777ce5801b3 0xabc7ab0f70fe9f0e79; P0 0x806479a3aa9f29e949 0x857bdb28c6a26cd166; P0 0x4d86dc154c45b5a7c4 0xcfc94c29369d02f798; P1 0x177b70968c9ed57063a 0xe5d44c3fe9cf001872; P0 0xe5d44c3fe9cf001871 0x1]
    [(0xd53ab44ac00f4f, 0x2f0cc804937cea75f7, [P1 0x0 0x2; P0 0x0 0x4; P0 0x0 0x10; P0 0x0 0x100; P1 0x0 0x20000; P0 0x0 0x400000000; P0 0x0 0x100000000000000000; P1 0x23a4d32895569d096 0x539a591a1d6be93c9e; P1 0x3cd2ad605e4aa98d4b 0x169d5bf910df836257; P1 0x47351e114efab5061 0xbfec45c31b91233f8f; P1 0x1408983e27db30f72ff 0xe03deff9b4ca0ad335; P1 0x1b594b3523c77b3c1f7 0x3607491b914bd987fd; P0 0xcb37855a38498cb57 0xe277a1c4a2d4734ff4; P1 0x1be4f1ca03d3ad06370 0xf4a58b7fd9771d5d0; P1 0x208d6b1c4657ea6b0 0xa7afd6403de0e230f0; P1 0xf4b193339b876550ef 0x1e8498b5354f1bfea3; P0 0x40d65eaaae491b866 0x2f0cc804937cea75f7])];
  mkcert 0x59692038853ba2a39463b0149af3859 ([(0%nat, 0x59692038853ba2a39463b0149af3859)], []) 2
    [P1 0x0 0x2; P0 0x0 0x4; P1 0x0 0x20; P1 0x0 0x800; P0 0x0 0x400000; P0 0x0 0x100000000000; P1 0x0 0x20000000000000000000000; P0 0xb73e909c808407 0x2631d79e1fd876ac547daf63aa79191; P1 0x20a1da6e56f72fc254f53ca8b2a132f 0x16b005871176848d82dab5bc9f334eb; P1 0xb8385f0ca88514dbb4c82b65c25a8d 0x21e0a843d36fa5a0f8dd7dd0e614c6d; P0 0xcd60eba3f793f549919dc9572666c6 0x41bb178f539e42b23a35e24833bdb93; P1 0x60a5187cd8c68ee3e6edb2f831449f4 0x3f74d43b8a56340cdec8a04a42696fe; P0 0x2d09402dbffc28d1a6720abb98ea64e 0xc5d195bc2d4a1eda0bf4adf82bc2e6; P0 0x1b5ab2a6a7f86b9924b742266960c0 0x56ec78ab6743cac31c88e2e6298c3e4; P1 0xa9030ceb1f53d22fcb4ba671199428e 0x4f21231f8e990116c083c2be76112c2; P0 0x4607cc182c412b847669df1d29e7ea3 0xec978ccbf9640370af869863292c59; P0 0x2720d78c69171e81c5f3509bf6a32f 0x21ef5c4f7482c433e5d1126f19eb39a; P1 0x19c26b0e8770935b81988c830c1758f 0x1f32bee6a78c8e3a14faaecdf774a91; P0 0xae2d4875df2a235526891ee98387d7 0x6f75c927fb59c0cad07485e71be462; P0 0x8af277eeb06959d5306c6a1d7bfbe 0xe0f80ab153112bc992f6aa1d957c76; P0 0x2360d20d4b9b17e79331885a2501fd 0x158f2929ff34566a70ac03ae99e7d6f; P0 0x532d00320826a51d2be5f5d16cdcde 0x52adb898895a483467a4535378e3cf3; P0 0x4c7413e0e71ede174855e1e49aba1fa 0x566d894bd8e909f4063c1b2ea16cebf; P0 0x538b6b9ea2697cc6529fbead570d659 0x2594f6cbf895f425df4d1a990d6f590; P0 0xfcbf8713a5a1fde40007716a5fa696 0x68e15870087e2528ef44b4ea1136da; P1 0xf60d813a13857936dfa63babd6fa4 0x4f54dfb975568bb0412127f4805b344; P1 0x8cc6fa8e02ad580f3c89a4f0d40b63f 0x3a67e9a49d620ddc9596082cf23039; P1 0x4c4e23cafe8aee0a7ad31788a497f 0x34248c57964b51d84347df7fcba843b; P0 0x1e68a5586d3a6bd3cc1c1278da0ba2c 0xec7ea3db6c79823eea32355c5a8c4d; P0 0x27189ab52814a846f1a651acbbccd4 0x31d94a8e08a4f62d8fd65f4b003b975; P0 0x1bcac1a0f0fd65fdc286e9da651daf5 0x19bc66d554673b70d7dab8c7a42984c; P1 0xed0cf014c11719b21cf9fe01678573 0x4740750960f38f52e6850547cc92025; P0 0x38c7e9026658a22409a4f2d3e65a4cb 0x390d13f0a5ea83613652fc9defb92c6; P0 0x246732bc41965304e69445ece88a2d0 0x6dbd25baea9dc74d363dec3f1c56d4; P0 0x86b05805cfec224ebc401f016a03f 0x22c2927bac7a9b323bfcb2586d6a1a9; P0 0xd837c27d610eb1467f7deb290f0062 0xaff5ca30afad660259ff8dd5576f7f; P1 0x2b4943092c6722fb4ed9729ffcc020 0x1d0590198bb4a2c5117a60f3efcf6e2; P0 0x96b8e4a59508e57329ad9263b71f6e 0x37e21ff08c94459a6ed4ec0df4b2246; P1 0x45db2eae3b4f9087ffba5580c68c0f0 0x54a49c2e5c9a0ed6409efa28c85c2d8; P0 0x50212d01be48b0c998104b1903b1913 0x4e89985315ac7dea7d41678a7b736a5; P0 0x44fc9143fbe6ae3ad1a40b541ec9de4 0x5257850510efe065bab4a00d0e74215; P1 0x97a9f5db6d3ffca590a54af41d7c258 0x385b3d3c0e4dfc5591125fedd3bdada; P1 0x470b4251cc0338590f7bd5b5ab59030 0x22c71fa956d2541026d2be07dae6298; P1 0x1b0e0cb6a37f7e9d5bb8b8efb2ea767 0x4c5aec59435153140d88775e2f1b9b1; P0 0x4134bd3ac5a0e142cab3c3f731dfacd 0x453be8ec450b9af2dc9ced82e87431c; P1 0x6b389404c21268481cef1a713b2cad9 0x425f97b499238bfa0f2955d516058af; P1 0x628b31e1d84d7a02e95d422f9592da3 0x248cb5cd79d771655fb7bbde0880997; P1 0x1de1bf8ca8be5943ea016adaf0530bc 0x110870575f0eb155351b337f99cdcc6; P0 0x33eacd313955725a0acb91be3aed83 0x58d1d4fd2b6b76ed8dfa8dd3db6ae99; P1 0xb0771387b4dcc224c6dd2204cd9fba9 0x318c1a8161e7c5512cdecfda4e43921; P0 0x1b74f2c46493839ad8a488e6eef0326 0xfb61263b0ab5249e7dd3aa40c54e0b; P0 0x2c2c1ecd8ba1d90c0a24b3b3cb010c 0x29828c6418db7c3f0d765c6a7b6b74d; P0 0x134580519dd0c90d01a21710474f79c 0x4ff26a21788d2f2bb60873ab842f7ed; P1 0x8ef845d6ee0fd48dcec3916fc4ea8f5 0x364ae62449f07a6bbe65e83a3d50da5; P0 0x20f7c9fd5223de521e348e21d40a442 0x17e449ee6adfdd3b15f0e4268c6a167; P1 0xcc4b675e231b0662d836e186363cb5 0x2968e85dc5f05dd7e60dfdf4fbbf5; P0 0x132db8d1b38586302f0e7028b23 0x302681a0575ecb38953e4a6af6d14e; P1 0x33dc6a0f0c9027c3389ab718f4a70 0x1a78c2745b01590752c43b764678698; P0 0x7d6635cb4caafdd05ba88e8298992d 0x11721f695217423297d800c01c1619b; P0 0x3676dde29274fe2629fe8c38d03d3f 0x60c7939d977543139f16226410c0f2; P0 0x68c180b7d5f180190691dcc18ad9b 0xccc5b2c30aac934113eb218528a1e1; P1 0x3a9f50779387b22e91b2b486713832 0x58ad7ef16ed0fef271e94885f841620; P1 0xafe6ced23bc102f9e77332a39411140 0x21bed0c08438d493392144af7ae08c0; P1 0x1978ecb3c9b2141b59355a7603550b8 0x3857ec1dcef310642499efa089fd008; P0 0x238172de2ede6c4f8bc9250899885c9 0x1e5d1daf78ee59f2587ae189a4b855f; P0 0xa4fbd55bccaf1bfbf5c45b58967cb1 0x443311ce2b9b8c0e9d4194c498ec7b8; P1 0x680a675adee362768c1c158e6f756ff 0x50a4602f1ea46a4ef4e5441a18921d9; P0 0x48bbc5016befc2f4ebabaebb271d614 0x1b8bf0be336bae418f2ef4f34a7dcfd; P1 0x10f9486b2e9771e2d1abef744a6307e 0x245d583024f18c4f6d1cd15652f3844; P0 0xeca3f59c0f220e213004d59f3d3354 0x2ed531a63f1f65936a8275c936899dc; P0 0x1887df2108b6d9dc4b105de90fcd041 0xa9b922aff5878d129e30026c571677; P0 0x1422d0a8851cb5fe8769278152e6a6 0x4ee744020b7f4ad18b12b53951a2b9b; P1 0x8b4304ebbe14417bde5d711254d5684 0x21f65867d88d28020f2ceb5f6c6ebce; P1 0x19cd06c502b9941d4f40dde26832b64 0x2074d26823e3a20edb36504c543bdc4; P0 0xbc820a2331aed852888f6bbe1a1a6e 0x4a52349c62f6606aef8a2424d35bdd2; P0 0x3dc73797e9a0b7d956d1368dcd84aa5 0x8f58d8e6aa3c4f531f61334e62b4e7; P0 0xe5d1fd694b2c54eb6dc336a5959b6 0x354d735177ff0e11c5c27d30697a82b; P1 0x3f8d96681bfe542227e0a2ad928fc07 0x39140caaad4b3643534e8e7ec3ac803; P1 0x48e031bf265f1b40f02d5a0a54c2471 0x1d7959ca5c84eb36b5a59794990fcc9; P1 0x136e9df6c71ee347ba03ee415fa6649 0x2d7d87e28860cf9516b0bd9d4242441; P0 0x1725038b4f4f55bf33f0f5c1cd39ddd 0x5c7e1f621fd53d7e68d679a03d1eac; P1 0xbf5ca1f640d09eec911b8955b7d75 0x186547d2debd787cc65d86f330e5173; P1 0xd500a436284959cbc15a659d7b69d5 0x3ad34ed1a1b0605ba17ccced4529045; P0 0x26b3e1bef78bd56e178c584536bd514 0x1ef13b0cd454e4db6dd2bd111bc3ea5; P0 0xab54c114cd0d46a396f16d76ce0508 0x51dd282e414f19b9608dcfe47ad691; P0 0x4af441c55bb8dad48ea5aad46ae72 0x29d8086c5af2414cc03e2b20861287f; P0 0x139531e4a2479ae7ceb4d9ad6082af0 0x75e1fcb92132328da6cb99aa5a8191; P0 0x9b6bedc9a2096b4bd5ca92aa946ab 0x3b1b57e10888dc7f275d2b801537aae; P0 0x2712e56b4640179fc6c8e667832e8b7 0x17cc69bc4b19de4523de382f2ea5ea5; P0 0x6559f14a0c0ec3af45db46531d910c 0x10731679a18cd936c287cd52c6b892d; P1 0x60d7dfd70702162709ec230b3ad609 0x50bcfcad167f1d5a0ede27d32d102b1; P0 0x48e830fa6d9baebdf8fae904c477818 0x4c8df0f4072279559a0ad8071833e09; P1 0x8317fad0ccd69475122d08c1d764a70 0x36942295f51389cc730856a0b8457b2; P0 0x2150f71b2957e4194ff2751457c7b46 0x5293659ae27a578c04528623b824c6e; P0 0x4c436c73f9751fdaf3a185e0aa012c4 0x10068242f7cac30ba630334fccc1920; P1 0x5be9e2c95b2bf8f83ed69770fb633a 0x2f507333aa039886d896aa2772e58d6; P0 0x1909a82f5639dac38201598eb1edfda 0x24a7bdafa970b5b11fa2a705102501a; P0 0xf07016c51c6b3f23b7a3cd0a126e71 0x31d6d3c0cfee732f796ab708ca8255b; P1 0x379004a393118aac10f065366c46347 0x101291409ca3600a4ecbf895d3fd103; P1 0x5c74699e7dfa362f5d858bb47cdfc7 0x4e757153db660a5b63382f4a7d977e3; P0 0x44d92e93f0ae4a4038e865e1b8f8e97 0x46fbc0439b403f9e2f618bd1ca838ca; P1 0x70b5394afe9f3a819d8c4b8fe3ac096 0x560a27e84a90ff31af330dde25a3aa2; P0 0x52cbb8c58eebd1c911c782216cb378f 0x2aa9414240e2ac52bc77ddf2cc735cd; P1 0x28b5e01aba8bfa6485675fb40c9ad61 0x177dc701f179b3316ec361d7daf8d99; P1 0xc580fa53b298a66d6379d25e460b29 0x61818fdc5388598ba4caad342df1a1; P1 0xd4ab48604fa331bda44f54fce9d5f 0x2c4f896e6424e445a3215c9e122907b; P1 0x2beb670d953005ddf77c07c29023409 0x57a978dd3d9ad450644a70df0202711; P0 0x55f292c869907a9a8a0e469a03b83c0 0xd8c38d221df3af919baa3d20736161; P0 0x20d83aad5cf078556955e86622e6ca 0x4c48866aca6f3cd43ed59fa5f7c3a87; P1 0x822aa939d41a05dc7347364b052ac4f 0x52647fca4e770595096194130e2b6eb; P1 0x97d9c9eb4ff157e168509bcf9b030ea 0x402d25ad41fa9e1367367cbb053c618; P1 0x5c20b9c4148a3a2581e51055ee745e1 0x16e5b140df92ccf3306402e9632c147; P0 0x5dd1ffc3d61e9690990e3fd653e2bc 0x49d5750f5f4a8355341e943ce612e55; P0 0x3cf881da913549b8a5aa0d4966bc26f 0x23901d05ae6e89a6e42359881ecc7a2; P0 0xe2525875b2181039f61b591347f7c3 0xffa76418ecf38d4ac05c686d877b9; P0 0x2daff31729379c7b21f74dafed0b 0x3bee0032e33a3596a601cad40a4b2de; P1 0x5056b5556df607426cba81fbc409018 0x19a5b4df0702b96891f9159687398b0; P0 0x75b5c9621a0fd0f60ffd54142019a8 0x21c221d05e8378f016b79151293cd98; P1 0x197deec2a9165b17fa5e7bd5c110a3e 0x5ea15e25c93a57ac91f595d8cd74f2; P1 0xc84f3c69910ab1913329363ca582d 0xbd42bc4b9274af5923eb2bb19ae9e3; P0 0x1909e78d32215632266526c794b059 0x59692038853ba2a39463b0149af3858; P0 0x59692038853ba2a39463b0149af3857 0x1; P0 0x0 0x1]
    [(0xe5d44c3fe9cf001873, 0x72ee058f7a21d7fc517dd062934e51, [P1 0x0 0x2; P1 0x0 0x8; P0 0x0 0x40; P0 0x0 0x1000; P0 0x0 0x1000000; P1 0x0 0x2000000000000; P1 0x0 0x8000000000000000000000000; P1 0x16e7d213901080edab7b 0x22dcfae0b9f19def18e6135e3c77a3d; P0 0xd980c69b5f0e2e3a41f5dc9103b3e0 0x3ab1f024c5fde179b01f85f6371a9a9; P0 0x268805560e908d9380f9df38c336d7b 0x15a5c1d8eaebb8a1982feec05b999ce; P1 0xa7b76cb1d8b81e78dc575299d084ed 0x17bb42ccda7185f5c391806deb2b523; P0 0x64c80e5198245753a82d63fc7d20c1 0x1d523282dab4d5e5b18f1ed853ce7b0; P1 0x133b1fa55081bf5bd2739e2226b5ad9 0x4fe5f9d21678c1cfd494ceb29d5248f; P1 0x8ecbcc3d68c5a753dba831fcfcd555b 0x466434aa5bc10ac0ef186d7dd197b1f; P1 0x6ed5fb3512d64f4c44293523024e58e 0x171f59c7c2aa8b3fddf4606616cbd24; P1 0xbf59a784dea32757235a6d9dd2d025 0x1827e5cb22f16983fbc842d021ee543; P0 0x686b0267eb2cb809519d97562dcdf6 0x25e910e98f54cef59ecd365a8e08503; P0 0x1012fb041a3e4c29c4bdef692bfd5ec 0x58ef76d388aabeaa238a6f8768b1efd; P0 0x587672fa4df3a3fd980a2b38d68024d 0x56349c80ad5008099f2c6f27531a144; P0 0x531d8295066f68552c3b895074d3e70 0x3a5b6cf4061f7f69ecea3233b8b6520; P1 0x4c2d868f091def9adc99f23aafc20e5 0x56fbc78ae61d145f34116190f000063; P0 0x549f4cd24fdc9860bc6b27b0140a6f1 0x45b019a08996d133807a59a2e426480; P0 0x3650d1e21b793c1bb7acd04511df13a 0x30f50bf313d52314198529bc8a0b2d6; P0 0x1ace8713d2501adba967f7cd6785cf6 0xadfc7a27ed28f3da78461d216295e; P0 0x15290572018bbba3be2c4bc0594b 0x56e164150296a79134194ce842acb71; P0 0x546bfc7486de6469b2439e66232aa54 0x3a0fc041a617b51108c1ab44e74d0ad; P0 0x25b43abaadaf32064b47d818542b9c5 0x32df26dd3ada9a63c3cc4361b60e76c; P0 0x1cf1bd92164e0fb36bfcae20d7d7ba0 0x17f4e5638a88f882a23edce4291af0; P0 0x66b3e691b416fc002312099b4d8f 0x1560b7985c560ce106c8adf07ff6249; P0 0x51c825f0b40d1ffdd9c1c587d6bf8b 0x1aa53674ea1f82a4ce270f92a95f97e; P1 0xfe197fcf2990088f4e8b7e529c7ec2 0x108c07b23963df1369bdacc82e43296; P1 0x61fe6dba86ff8b00b4cbc1f6e3fa6a 0xda0706fa63bd7b23ced699dddea0ee; P0 0x213a8af6304a8e4578f0ddb8d8a6d9 0x17e6f1d36c4bcf127d65ce6d6c9e3d3; P0 0x663c6a9d8291e947c8a8f236f3c456 0x24565a0e0f5ab834dd0cd102599ce03; P0 0xec48fc01f9d6e7ce6a784d38800485 0x1b52467ec0ddb2fbd6cdcce19f529cc; P0 0x8594128fb9b4e27bad967adf587fed 0xab1ee395b6d322c09276c8d587a92b; P1 0x28f01adbe655e07d3da3e5cd0acf2d 0x3b0f284fb9f56b228364fc7b770bbcd; P0 0x2702ca911ea2265bfc4879653cb6e22 0x57fa2a765aee16476fd48a856166857; P0 0x569116c8cf1f52c45c211c73ffab0ab 0x4374b3ede78e7b70fbfdb91f0c8fa1e; P1 0x65c8bf9e38f71bf59b242f0aca84ecd 0x33e1decad775b804470bab3db99f9c3; P0 0x1e1b11baaf3c24729108e0b69f1be18 0x4d3d9ea75db084031aedef9fba9431; P0 0x42ba2c9f426c5d92ff94a026cafe0 0x48ef82833232a4bcdace7f8d29a8c81; P0 0x3b7f0b3708a9a37e5b122733d27994c 0x572427ae031a4d2018e3b99106d95; P0 0x54edee291516def984c553939aa 0x4e06923eb80be9bcbbad24ff0cffc9f; P1 0x882e4656958082e780ff62a3dd5cc54 0x20d13ff01e853c57fd9a985f646c4e; P0 0xc0b9a985f0a2500cd44a989c695e 0x9e3a45783997c4e94404bf9412b616; P0 0x11802dc54951687050d69a694a3caf 0x3b3d4dfbb7d375a1c30ef4851e4e90d; P1 0x4e7fb253caa31bcbf99f121e2cdabb5 0x413fb03931f008352feb94b85d60b65; P0 0x2f9dc567b33dad24cfabb612aa080bb 0x30f0d81f2ebe6e8f71cd9b8be932cd6; P0 0x1ac9ed20465b6ab4ec5c67040ce78bf 0x4633aceb97e0f5f1503d44479db807d; P0 0x371eadf40a0cf64278048fd32f10d78 0x72ee058f7a21d7fc517dd062934e51])];
  mkcert 0xa6fc66f961355bf57299eadf799cfd92769c4db1923363 ([(45%nat, 0xb)], [(0%nat, 0x90399069ecaa40a8d6615208663026d8963b24e6dcc9d)]) 2
    [P1 0x0 0x2; P0 0x0 0x4; P1 0x0 0x20; P0 0x0 0x400; P0 0x0 0x100000; P1 0x0 0x20000000000; P1 0x0 0x800000000000000000000; P0 0x0 0x400000000000000000000000000000000000000000; P1 0x310eda70fc67a203a864c5d8ff093c0a4ce17c 0x4f6fb883f0f8ddec8704a0f90e2981e57c0daf5ea1190c; P1 0x4b93b218e3663a298a499ad3a30d1b2a4f140ffc82a8ad 0x9eee3e0f6a655b78c5f78ea9bc6a719eafe1b1294aff39; P1 0x12e871ec287c3172b3d4121190daed4bd3b1e700ed8f1a4 0xa4e1efc1eecbed0442b6a65cfa56cc22aa47aa713c16f6; P1 0x1459c81c5e04c352b3f38175c328d5a4c4049a9e0e38cf1 0x46dcb4aea0c5cffd8db40edff3933a085eeefa9338e495; P1 0x3c245fe3a790ba3a61c8ae2192e77746544e79eceda181 0x34a78f87eabb7a8d7d299a9a9ef1858a83850092ef558f; P1 0x2134d5bee4a095689ad36afd4c2a0b6508052e01e2624c 0x1ca4c9908a3dc4587e5b8a8f3293b3e47a419683bb645e; P0 0x4e9d1c579a33d85c3deb41b238db21ea94ed6816530c2 0x2434c3b9963b9f6c5f0e9f24246ca05765ce8ad931117e; P0 0x7d9aa69223e9af7e2f74131f091853aef7926c7bd3ee5 0x26f87b0c522530f3b8fde35b5ce28ee4fa0fd22a1d0875; P0 0x918472dcb67b1a6f810b8786fb88420d5b51d812ab337 0xa0cde6271df66dac7715b6605e1776a2cd99129d344234; P1 0x135b3f50013979cd4955b625e805fc8badc02155905d2d0 0x6b750b5a42f2d32a8faf71b52249746b4932bbdb9dbeb0; P1 0x8a4cb74d0309aa5c160f5d7fb9f6794b87633b2b758faf 0x36e6702a0a848c37d96f488959a7e0b9f11e97f8ef0453; P0 0x120cb156c52b0a7d5b7afeae275e3847e0212781cf1e45 0x6ca99a59c25ef63f9f8f5ad1d068588034718274923f3a; P0 0x46b5b4e079c0dcdfed8931d3af11f446688b56bb056abb 0x59e45742159812f6dcea7343051738822ba7d32cc411d3; P1 0x60c8077ad46a8ecd7b024d80b62b6ea312b710daa62864 0x40d596bfc9ff1c9288c087299da67e522b7e63d355dd26; P1 0x32586ecff05db59c323b2496af3cda8a203a9e61f87096 0xdf8ff504adf20547f3a75127fe8582fc12102f7fd746; P0 0x12b4eacb12edb0f0173e65da51fe3a8f00ae0509739 0x44692a407c2fc4d7147462c6410012f4c414148badd119; P1 0x380d962b41f818c87d01f805abd32122c3550d9a4eff13 0x3eeda7b270461fbdc68a53e316d7bf01c30fd9d3f43b89; P1 0x2f6dc95742d57150758a6ebe511acdbd933d559d7e91a6 0x389f3093c56af07c5a309cc1954169ae3aec81cc5e7970; P1 0x2666197fcc40da703459258416ed943579b020eac9e788 0x2fcc2ffb9f71ffa20100e5dbba0e1f10447eebb6f18068; P1 0x1b5ce81826be13bb1799632c83deb107fc06f4db7e5ddf 0xe5e8d88691686491bed3b7fed0f259f47a53701b09a43; P1 0x279168a00749e4db58fed72d890de117518051321282d 0x86fe43529e88fe997e49a8c2e1104bea705fa6f6abdaab; P0 0x6d21446dda18a99f6f2cf02bbcc23e1de08073f90f05f5 0x4ba4c121a709067291401b70a3d5d0fa4ef8a6580917a; P0 0x22441c5242946ec6167c83c38ebecc0721d671794469 0x82112454974e6ca604d65a1e323e8901fc695069430e89; P1 0xca9eedb739dd8b7285fc46353a9add7cadd626d813e282 0x604ab1fd0517ba8a9057a5267c10dccf4c341b671e0c5c; P0 0x3786b9920de52d554a38955293441cd3d22e4a6174c0b6 0x89f2edad62a05ee31ab8b1e36762358ac648213dd1f8ae; P1 0xe3ec1b5740e7504bddbc742087aa76bc1361acaa5bc8f7 0x88dc3406ffa92333d957ccd74cfb586610b2e144f54003; P1 0xe056b5a666fcdb3e1925d6166efb9b3e31b3d7ac3b4645 0x72377fa44623fba0ca2d4f4f41b32c288de49a29391463; P0 0x4e1f89a0c7552557b64b26c58181aa67c6245bd60d1f44 0x389a4f12b04e86e59b0031a61201af4818dba78e9ffafd; P0 0x132fbd865ee6bfe5825c57fd4fda8e1954a78b97d167fc 0x2278da29fdf0c9861a8bbfb47bf745d4d8632770eeb395; P0 0x71dc6acc9c27c87279478972d225f3d2ae1f3eed78557 0x9a4c66f23afd44f4c9499880e0930114d95dea477ecf14; P0 0x8e932eebf3909a84c6231105c439cf37a05f93ae4287b5 0x465f983b99db82032e0b68a9a2ff874a3ecd336833cf91; P1 0x3b50bd02dd7d2a1e8adc453a715d72bed6d1f2f624bf88 0x47a38ce8a9c86c7625c0b2ee8305c077574487923576aa; P0 0x1ebbe0258fec9d1da5a7dcd15bd8af4d4d5265c1a717e6 0x6c3dd703d700a5fbb407ec59e6a14cbb6609e26cd818f2; P0 0x4629bab0d50b34866c071b90a26cc2a15d567c854a93e8 0x275a3a536f00543d44d653d6a0891f896c6875212fda0c; P1 0x128c403115e39474e3dff20ae20c51fe855beab46f570b 0x25f174e09425fb8ffcfc3630c6f806e590c98e8f9506df; P1 0x113e420bf3748eb5f21bd1ec68b3605815b05dd6774c75 0x4eb87c40609e481034d977ddf9a443995146890f728c43; P0 0x251c4cebd85d5d2064a6e1f839379af33468cce50246cf 0x10c89fdf564e0f5c13ad46f0fe8822230d6c068d7aba7c; P1 0x35fb436978e7fb40b6778765adff70ba0e4ae0e7412b8 0x119bf5277243a007a915a22d7972f6b69837792082f2f8; P0 0x1db60f5c26d1a871a78718f043e1ea0809861edb71326 0x4f685d930161d2ac798ea70052c2304e45bcdb1230d68e; P1 0x4b85b3d4b344ff7f242575821c0abd42ca671a469c0daf 0x3778d8ef0aef2ae9027b92aa77d92f887e158f104245db; P0 0x126d76e48f1dde75f1200b27987366607f104156694ef6 0x7fc9ae26cf62b23df59f45b03eaef88f8b456cf43b3e37; P1 0xc3950004969640716215d4a2c16c44168886dc0b55660a 0x838845dcc10d4ec29f3a0040c50e66b209f8cfa7e2ebc4; P0 0x679b2477a911c695a3e930e63c90b7c803ca9c04b3d5a6 0x37b79a002a039786abd99f4f395af90dcb003b9369bcde; P1 0x252e7ff471f89a91802e71687fcb7de1fc26b5cbdd7603 0x71d10a0ec08f42b32b8dad5eeb03aaf0a36c17850864df; P1 0x9b273dd9ce60d14aafec14f15294456222b0d0b039edbd 0x2257d75239e50fd5ad9e5394ae89280089d23e63d05d6b; P0 0x7102c11447ad962363ff1d3adaf022341d2a8e5d20622 0x63a9332ea067bc7e28f72919e8779e5767a853f921c593; P1 0x76f5b18c0ac138a867fdbe6e9da8e4d863e8b01b038df8 0x9ed51768bf80892364deb6ff5efc4c37e7c5f965aad5ea; P1 0x12e27661ec7e659b03ef27a930f8f0a765279aa4d55c18d 0x766059c736df04ff43aa612e66b3ce6fff849705eb8341; P1 0xa7d5852f1a651c2fde8b47004426753816a57e207284f1 0x7b48212281a3ef82df8508400c7d4c5aff2cfcbe0bc0cf; P1 0xb6082fe10473cb9f67f4731c26e9e1c59e9ec62f8b09a7 0x9152b7ac91996eeb96bd8b543dde597c37983ac0134e2d; P1 0xfcf0ee8afd5c13ff45e01148690b1ade39cd8aa5d93ea5 0x116395b1ac3b745522092a7ca7357a1725cb92b82cf03; P1 0x39f209ad99143331010fc4e60ea043e3867230f5679 0x17603439b2e041bdb583621c0b2415e26469a339b92847; P0 0x345b55caa7aec66a6e79d9430284a4cd70f0bd915c837 0x22cd82643b8b28e8d5dc5cf8086150b762ba0b5a46e16c; P1 0xe81cafc8e4ef808d9cb23cb45a401bbe676fd0fa3a753 0x76dde7e89a75b7da0417976fda9d2173f30ad88428cd07; P0 0x549d241ef0f9c43c06f4d4eed8139a78b6b721adad1fcc 0x37b3698ee0e05fc1893d70f51cf7cc72797a0c18c3464d; P1 0x2528e8d2c69509d6cc50a9c789dadc4534baf3da206be7 0x37cec3295575291543c80759d841daa37d70602871a6fd; P0 0x12a6b7e26ceb37878cb218bfaf8bf566bfb8022534ba91 0x1493684fbad048f06e3574edee99c6b0ae97785c060cf6; P1 0x5121660a365a3d5ab3c185433b0671cc46d57a80beabe 0x20e403e1ae4e50785fcc8587a4204e39c3318b3da4574e; P1 0xcf4ed32d73767d47ba5893d77f83a7edb473a3d9f0b3a 0x210a94b9a93740cab100a56e71b6e8f4e3d1e8469a521a; P1 0xd13618051df26671527d4d481999ff99bb66207fa04c3 0x71aa1e05f010ce4e1910f54a3ce29ddba4e11c460a4df; P0 0x4d5e9927087d41ff8b683c699b6c73b6cf3df31423e6 0xa0dd9223c7c55d2d6860830a586810dda9ebb10651c64f; P0 0x9af82ae7c79c99b3df0f71e453f6ba91c7eaf979b048b1 0x97f0c9cbbee6cbee7f744b329604bfec2d9ee7c802ecee; P1 0x114806805d414146d8ecda8a1b01ed313c18ecf251e4019 0x9a0764cc0ac566af60ce9e592f0aae4e92c7e9a54595dd; P0 0x8e13c3ab96c3bfee8491b6de445f80da8ef9a4008467ae 0x360bb3883a4ff448de2b79706a9b066c4fe353ffc53e7f; P1 0x22fbf7702cce61aa214f5da50567127a7ea0bb4be9dbaa 0x3bee91b227a173d15beea69062ac94727676b8be48b544; P0 0x158282192dd2f5381a458bfb9c23dbbc8917a305f06de6 0x70da6cd73367610d735e8b9de2f04f3ca3cff4818de81e; P0 0x4c44dcbd6b0d7b13f628fc29abc7266e7241bd751bce8c 0x2c39933c1ef627470e6ad3cf582c452e97b16853c39f60; P1 0x176cdbd29358174ac222706ce4e0660d9a1153217a2853 0x7468f6d157f0f7bb08b149740e2288a1cfd4543454a6e7; P1 0xa24df8e48aa2f5a8541fe8db41c308f42347df3351fedf 0x2e6213523fe097a98f329140cb146a4c00792ee026cba5; P0 0xce23884aec6650351d9c3493cd4ca53d77d64097c6d16 0x218ccb767f84488a6798c138382d506dbffff9f59586d7; P0 0x6bd9e1bb4537cc5760efa187a65c035f2f69edc547f9a 0x14c3634c75c5418c8f15eee62a7d82acbad89b795ec203; P1 0x529d7ee3e9642fab6448c41fbe397f316022d5e6dc23c 0x8e40fa1291fae4cfd72d634091b84312f1d0ec221d06de; P1 0xf25e95f355eca857bc7e51e8a205a16362872504c9fe9f 0x1bfc88c3b3da57485b69e323a0ebc627c2c383cf712c8b; P1 0x96184df633538cfc1654c621cb749e2dbe75eeb1379db 0x146a2da7c6df0e88ab0ebbff364f28b60b1ae195376641; P1 0x4fdd89b9423c37892ca09b70c6d4d73722090a19fa46a 0x3c068a940092c19ba19ff812ca86741b80f4d1289a0604; P0 0x1593baa455241dfd0a3fc6403bc560235d034f1012cb54 0xa0777001b282e4a87c05c9d8ab66e1d4a67bc7d45d294; P1 0x13467437cbc7ca771b6b20f29ee710e2b31a30da69445 0x2e7171c7d53c2dc39c0669a9f9e24ef1730013b6af3571; P0 0xceac3a7b1de23238b0a58688cec59be71c179c99e324d 0x8846e2ae6372e1af0acaa4ec8d5cec65c707405e89311a; P1 0xde6e3c1929ce7259d5d29b4c28291943bcbaed4a8bbaf3 0x5cd7b5895cc88d10d20622e81c4c88ba2c068212a0384f; P0 0x339e9f5ab092110af9eb13d20f164ef9440d2769afb308 0x453ffe9de25bab833734a805c90a70f0c165bd08f5d449; P1 0x396fca92683281ac24b5a985f6b2c042f16b8da5aa94cb 0x775ba63b76d310eed392b33c159b0ff114fd3ce423fe21; P1 0xaaa10eb44af0f66d51f217130cad099d204ea0a8da7a80 0xa0db1d1cf53ec7a805b795e6514eacec6458d352b22102; P0 0x9af36effb8d23cbc55df8ebe6cbb206862240b3857f4b3 0x4471677466e6e1e87cd860c8b6a413b50995a2923039cb; P1 0x381b175fef241f6a0c645a45360583aff00e1c3158de85 0x6a869b625da26044d217d6bcf416d162a75894e3cb8183; P1 0x87e9a0ca60701bd3ac722cc107f93609c9d66e7366c177 0x3b3fd663cb7267fe0989c7870acd79b1b432fd3c690c0d; P1 0x2a0b98e7dbb6435106fdd6b59d91055bf66e71a34afa6f 0x526da5d1d3f099b48ecdcc2047077b136a541f4e457b65; P1 0x516091df3aa733aa041eb0bcf33752d7878e3610175950 0x7fd35c15d822c3d984c1c10e4491c5f3b875c87865f1c2; P1 0xc3b2a234006fef091da7ac13c262fc4ad8bcf6e8cf4bf5 0x2a76fc10e4abe176605d309a1e576002ba1a7103bf7f49; P0 0xacc8216dd367bb7c39c90b913f906069cb389339e4d58 0x6f72bfec3d2060b4c7c5dbea874ebe736eb41b706711c9; P1 0x94c3777ee67857c93748224591682b9bb67d3b05850f7a 0x73d903423ad364c270f0df9a8ab4732bfe2db58fd65574; P1 0xa0bd88903b7a69d408d7bccfe46c961a72fe8079450735 0x27b2ebf99352d75a3532c9678d507301622bc2bd9120a1; P1 0x12e039f5adde6bbe15d39095c8c401b11c51ddccbff387 0x19731a3067931e487062907bf41fb8bb6f73eac358384d; P1 0x7c1e0cb69980daad4c2c68933aed9ed10b9935e457be8 0x5a890992ea249ee6c6a02261b9ec5faf61ab06bfc56b9a; P0 0x3115f7dafb3d676bfb362192c0582afcdaa02d7738748c 0x5b1a60a66454dd7772ebaf71757fc86e0390cdf6592280; P0 0x31b40fb6a76504f03b2108f56f4d4d6a80117ffde82ade 0x529b5848ac545629c42f7b73aaf3529c8e9709fb77226; P1 0x51bae5770e43d4389c9a6ac8ee5e9ffe7740855bb566 0x972ebb5dfc107af063fbe95f50df2e3a56ba1360ad42d6; P1 0x111bfe15d5542175dfebb94a92d634492466f358af56a25 0x8a30c3b9ad69b69e2a55d290e73d60dbb382710e36aa79; P0 0x725c4f531e38624edd1e5ebd97bb62a147d7be50820e14 0x204ff522da0f7f6f42bacdd171edc5d183ce94b20f7f75; P0 0x640a6b5ed7b5600dec8ad9f57b0ce110dd59531b7ee2a 0x569475eb015a6cc3aaba84c1d530ab57626aa26a3d33b; P1 0x59c7f0241132459eafe0e89c7a16c0d8009aa3ae66ad 0x95c853093391938bf7c03cf523b2c8e63decea2848734b; P1 0x10cb3efff1d1d6cd0287e333151493d3bf79c55676106a4 0x97989b10913290736c319e379b4d75604b18687fd8b286; P1 0x1133fd2217478d682380f1df68739c9d7e241d29c73c13f 0x59fc6a4db29e19a5a40994e4c335d3664a9aac100bf3eb; P0 0x307df299110b8047dec885d8f38a64f96629508070bc78 0x2474b3c94ec8e894ab8b24db66c88790ddf869a9052f51; P0 0x7f57cc7efd9cc716ed61d9f75ae26f43772abfff3ebce 0x3777ddf3ee9d12efb0d023505e51de5702e868571e9cf7; P1 0x24d9a04c38ef8b93075d19acb5657a997c2e11b8169308 0x25c4798a6e7f7fdf27f8d0159f5ba35d190b9b05ae788a; P1 0x1115780b500a46d8a14a86984f80fc06e923e7a58a8df8 0x8867618526862c4262b2a490a66766820b241de26605e0; P1 0xded85cb257be5e384262e15f59548eadeaabfb9dbec4d5 0x7602f93f624ce0cc943555d9c264b99663bfe0d4ce7aa1; P1 0xa6cd25e8e027ae629e4d6eafbf4b0a21e8003e0d0133c7 0x3aa4bf45f8dc9848b3b6f7e7c8e5b713b567db186e078d; P1 0x29309bb5d14e20ba52ad388ae0551661afedaea61c7377 0x2fd57d713fb5c77d9ded3f46ade1d1627a0769d1eaab4d; P1 0x1b678fc7ee1c288e9dc4b069811e1e2803919ea892d774 0x37389dd6db5d7224cd6440a02d068a456c676c24ea7c76; P0 0x1242e2f075e9cb6f9d2bdab41276048670ac6a35d6ee21 0x6b25ebc0f3f83ecb340ae76521ed4d8732e066b0d9dca1; P1 0x89815786153e949fd6894ebc0a4286e1e936260fe4d3dd 0x5a9681681940a2b84a66415b060f345d137fc9f171450b; P1 0x6249272c543502ab4a7b1bd683afd235931ef1e1a8e6e0 0x773cc668e1128336830c88bef5102d6daa03f20299f452; P0 0x55246a177b72e64dd48f4ea9d2f8a0ba6570cc290a2043 0xa2a3f17d1c31f0e7bcb2be928fea5e77a160129ea2975b; P0 0x9e686f31ecea806b0fcbc469350ac3335ec6ce381f3f6a 0xa09912859a5a132a31307e4be0e1994c926469da7cd65b; P1 0x134e89a6d026ea76876e8725cb271ac38f864ce685437db 0x3e4a2d8270b85bc2def35d956965b9f7f97b1249b04e01; P0 0x173c4e623d334bceeb2ad317edab944ebdea78658ed2ad 0x7a7157f8b904cbb96c47e2e049c487eec9d61a6d46ac1a; P0 0x59c807bab87821b42df8f0e17c8eef44f7a7456c549b7a 0x88984a2daabe2372a71fc678a13787578bc778f0a58476; P1 0xdf7847c0fb2d3d98263561b832d626b724e8a7cfd21774 0x4de574ab24143cd5d801c7d8efc0a556f4dec9bc389eec; P0 0x24565fee7bc8270bdbd92758979fcabe6adc7ac6e3fd71 0x2c56757635e6fd9bc11ee8007d5f303ceb342f88cda3dd; P0 0xbc5bf831085c504070d6dcb1456d517624fc39c15c686 0x128a436a21345b43c6417549899fb5fc3fd4b71770b4f7; P1 0x41def5302fc91978331cc65d26dd8393d9c625e2c5b2f 0x6deabbda70a7ccb4e662e99472906d48630242b2f8ec75; P1 0x90b41d25d3a86bc382e7f36dd2745d28db6397d84ac4cc 0x5ae111b5c764620c91dc1f7abbe5c0c00c64828fb91c0e; P1 0x62eb367ba9d6c0494ddc08719b9c11b4720eff74aa7be1 0x4a1e7e632e047d98a67120b602aedffaea0a3c1ab06685; P0 0x20e61a27ad70ca79d322117efcd0da976c3342f49aa3ef 0x2718d487eae5376645e25c719b2e9b2baf38ac002a3eac; P1 0x124ecdb63dbe4ece7760365e1b03080532e49c08c9d5c7 0x344c5d49f87d8a966a1111ccde2e5242b05d54216d362b; P1 0x20c232ea02b75b17ecb7bf1f8e30ce8b0d2e902bc99a24 0x2d7838a05a9e0231ae8dd1e84c9868abffddb19ef48e86; P0 0xc619616dc3568bf7fc0d00bb4071507451ae0afceac21 0x152a91a3d005369e644d092aeb7ad524dd082141bfca61; P1 0x55da901a40df27cb9a240f6248f53999bd6a02b146aa3 0x2e31c21dcab42be72fe4c91bc3c0db4d8164017f5cbb79; P0 0xcc76eff1aa11a7dc7cef3809bc2244874a90f1c108a37 0x8f3ac557d38feabc5fc55bec0cbd6db221379255f596ec; P0 0x7ada58d7e95a22acf99d9de9d22648b02726ab31ce90a5 0x2cffaf322507bc2011beed195bd8dcd0703870f3e49ac1; P1 0x184090c4c7f158a529749496d15622228a8c8e692500c2 0x2d65339aa580ddaa7c1e5aeea1251ffa6c8c9d3d8f99fc; P1 0x18ae793fc0e63855e8612f9dd2bad104f9e2a11d98eafa 0x888be0c5c9ac6dfa39400df98f8ea0286b1ffc32c7b372; P1 0xdf4fad193411b26d6bb0203978ef1d86504f427db0df9a 0x15e1b3a15a5a9c748a66b8eabfe3ea6ade0c162a4316fa; P0 0x2de0a630f18032e16662d75f4fa21911483e8ec3ce4da 0x53cb4d787818203db909172c1cb777049c8b6c5573fdd6; P0 0x2a0c5753a25cf1d96a4cfb6e0a5eab202993b15de8b187 0x8484b80dec7c1f56bd486afb687fbc5df3d52e39c22af; P0 0x692a544480b1580519bc0da9c4d3587194d16b8d3a06 0x61400b02eb998b28e7f9f2b5f45833b2d585f7ac62514f; P1 0x71462e64f4e924eb8e8f48028cdb034ba4d8d9aea65ecf 0x140934375287a0513e76d5904a9440e669fa41245645b5; P0 0x2676e958298e29a3bed0f771de5f5b12438a20ad7e82c 0x65ed50eb08f052abbcfac3dfd6233164afffdfc6bf84f5; P0 0x3e372bf789c573d867d6cf59390351264401edc85ee28f 0x405ac5cf7655235c31da086bde850aa97442242e41782c; P1 0x319a6628c0ad3f727514e4a91b12c7cb35bd395ea00cd9 0xb2a0ee93e6a1dd114add4a66078180d9ad424464c5c35; P1 0x17e2a8b397124fb2b054cac96cf13720b80abe40d00db 0x1a4a964db9613353dff9e3109f9723d75c5c6f09435041; P0 0x423b51f92f293e658d45134a0e2a791e678d02d2fac9a 0x7e23e6eabe38e88d86c2121fff1d2d13716e5aca8842f3; P1 0xbe923dcd96e6c97c179df12a29b18be30a0ea0df0aa5b1 0x4a9792483e318719dcbcebdd39a50357ad7a911f520edf; P1 0x42a3dbc9a7c05ce66e07e7086f9a03ac168e63ef841e3f 0x134d48e0f9e346d5487b5f71b5247fbd3547852660d25; P0 0x23b29a8f68936078fe59ef416b36a21231793ccc734 0x5c959e0bddb7f4978cb4546a26c4eade6b6411aaa0623d; P1 0x66aa76b77c95287c1224aa70f462ba18c26672cd4cd578 0x464f650a2231d468d55faf300a1bfd23052e4e82380faa; P1 0x3b3571186471613effdbec864d4073637829a77ea56964 0x31c11a3fdcbff9c9940ac45fabf7393d6a8a45d9ac0c1c; P0 0xed31586a29b3acc7652ea4ea49740c29c8403a0e93bc8 0x63de1a02ea5f9dfada221746f465b28a262e48ad07acb8; P0 0x3bba0edba9e71f255b05569383c37fac09ea64c2e1dab1 0x527c34866e3c3f939e284a88ffae005970ff2120bceecd; P0 0x28bea963b178d8bcca406e0815bfee475d3b160e4d3184 0x3c415bb16169c81f5c688552eca4dac57aa3a571da5e1d; P1 0x2b7c30b8dd3fb8e301583df4355a9c6c001ca2e67b02a7 0x15c8c8ea11dbd9ba2ab5209644bffa3f9feb566ea352fd; P1 0x5af0cc574e9796b10bc062e09a77a5df50c8b64385d1f 0x8fdd7fe226adbb93f674da0f15522731536146e322ec15; P0 0x7bf21f5758b5bf2443999230c153df20debc0935cdb9c0 0x33326538499dd8d3188fb087fd543b3b87a023533aa479; P0 0xfb256f3f0cc467e1c34876bcb83d0b5251b71796ba45c 0x1b078343c92017518bdd13893a6e0382e0e965a7a85d9d; P1 0x8c01152516f105d2d108de957951d8697c9ec2920f643 0x653519e9d11f651488d18fd133918b0ab439c26e924fa9; P0 0x3d5714280325b018adb1801e7a0b62883ede5f5641b972 0x77de02b6a20154e2bdded0d54add98b5b22f2d292d507b; P0 0x560b49007eb9b4ff5359adfe2ee0c280e3359fb8425e78 0x2356839e4a2ad33363a08ec90ce5080545ef4e779eaab1; P1 0xef4e34712d4d9d7bd229db752f01c31786dc9796dc949 0x5a47bcadc7a9183fe5bfa233067fd7b9c905ef4b66ba87; P0 0x30cf427ca13875cf5cc5ca0bcb15997c38970ad131594d 0x5ac934089bc05757edb92f17a2aef9e8c422ae5fb2936a; P0 0x315ba47bd3bcfeabd01549617a0a5514193b966e335357 0x536327d2daf648bdaa2aa7f0b3f4f7450e23e17a39583f; P0 0x29a41275e36965ed7b221c8eb5947c59a1d6651818ea5a 0x36796cf8ee7c4b390f7bb2f23a06c683c6b37d4cd2d0b3; P1 0x238a94b337071723328111337b42c225f7d20553eaaa4d 0x71fa901cb75ec7420278c89cb6e860bcc16c221f07878b; P1 0x9b98880325b68cc357ab5911bbbf5cf1828c0889c2ce9f 0x7d9f4449dd60a0fa4cd737ce8f7350b211168db8e3675; P0 0x5e8125fb90ca8cd3153b7d2c9f8219d96d3714859d36 0x7f0e1714b945afcd4464069899373c91ebecb516980397; P0 0x60ac3663e11c70e0596ee3eca7dd8297dcc004854bb91f 0x15fd5a2a44d5cfae42e2ddd6e3bc924a8fdb9992851f14; P1 0x5ca9c2ef154395d9d75189aa45449847b42f780df7d31 0x9268f81d4cf7e29c2af9b24690be644fa2380399cb862d; P1 0x100bd2c1d5087d3c4b94aa05555ca0cc17bcae38f29f29e 0x117d9b14488675c82973e88730a2e2194ac6c462b7fab8; P0 0x1d4ffb7b8b69b463d997165a487960164017e241a30be 0x4958c6478c0105aca12380ce09d3a09df6112af06930c6; P1 0x406efdc6634d333493b00f40a1c84aaf548806bc293640 0x29c87b26fe37f814e459f6fdaca94b92e955ee6d2ef788; P1 0x14e8ef559eec6e4e84966c583d1a1629972e8613579f9c 0x42db33e314156a696c93acee7e1939ff92cd9b95c8a32c; P0 0x1ac46c74e7251a93649c9869ab19e88c7c335ca6a231bc 0x57edd78bc1688d741f5ed6af95165d4e0d36027ae75fdc; P0 0x2e4ce916850f0b3dc47ad5ac3b10a375656498b1bdfb7f 0xf1394f797e8dae67b829b1e1567e66e3d9306ffec75f3; P0 0x15c7757a05949323512df6b9e4c5bafb203fd1ea2b7ad 0x84040078770b7afb3e27a04b8f4d863467e9f6273185c2; P1 0xd0bcd6bcf48728268871b31e1e934186a32723350cf2a2 0xa6fc66f961355bf57299eadf799cfd92769c4db1923362; P0 0xa6fc66f961355bf57299eadf799cfd92769c4db1923361 0x1]
    [(0x59692038853ba2a39463b0149af3859, 0xa509d4657a082246039e9985e1363d0ac0fa7c60112d00, [P1 0x0 0x2; P1 0x0 0x8; P1 0x0 0x80; P0 0x0 0x4000; P1 0x0 0x20000000; P1 0x0 0x800000000000000; P1 0x0 0x800000000000000000000000000000; P1 0xc43b69c3f19e88 0x98b3250972d952f9549a83310e672ca8396bfa56a9968; P0 0x8ba2c6da1398bb67c0cdadf19719b42d011efc391136 0x7d83cf9d9295f2524d6673006cd5a38ee616866c2105e; P0 0x5e57db45cdc704ec35af53589db29068703bbed5bd17 0x5fcccc1d2fdee540e39c83975544346239f0da98122d9f; P0 0x36f5e608b6c49f621be2f93faeecf50fdd5de8124aaff2 0x47fc69fb00947e68e909d0e360a16a1b1867d6a48a082b; P0 0x1f084ea8386244b56f4011b018e9e079c60403027ced8f 0xa6e95e63c8d1f4637b0f8539d55dff5618dc9cb26d5bec; P1 0x14dacaff3290f9af458da57a6d8afc816e7144e0378c418 0x759fefe02d19e0ffa1a4a045b93b72489559ce5b7ea5d8; P1 0xa5b5a4dd32b976f3e25d415401077941543e05a221c61a 0x2da6afb4f1641271d5a435cd6e08862d7165d715c58272; P1 0x18f5e1f89253452275d64332c976bdedb767b47396b6c2 0x1d666d8c55a6c8b35cf586c0292aaa74cfc00f5d82a282; P0 0x52d20d7c81b65cebd0a07a0a01cfefafafece51411a7c 0x1e87c45116b2e58e7c4ae14934c73897e9b241ac04d810; P0 0x594f87bc325ac4693277fd14094c80302ebb262320bd8 0x49fab52d8eb95a968151fcd7dac9678917004debf46478; P1 0x418cba4f37db21d2389cfce6ce8be9278bf3bb93519aaf 0x8d00e835354d5dea060c3ac3ea421a8d22d8e4872e41d3; P1 0xee20b86f835cea120395070d242d3af8d0b16fe23301be 0x57e787be59d19baa52dc4e37918b57490c77a86132158; P1 0x5c8c8759461d449e0d3d994e25b555afcd4e2a566c02 0x6f327a546be4dddb9346587cd0cc65851cae319cbb71ba; P1 0x941813bdecbff0ffb511e74e4fd8107d3a320f6e43697f 0x68e05f2647862f433f29aeae6f88831b60ad9704ff5d2b; P0 0x41de44e308393eec093c4e56a23104d0292d9ab6388dae 0x46b5002cf010c8242b92f0d9eb8467dbcdfb03e3dd0ef; P1 0x3be10d23082f817c59efd80a2459e2f0e60f0cb41a79 0x664c30a331609575c16d2da308793810e3e6be73e82677; P0 0x3eab33f79532bad6499beeccc84ea6cfa8fc4916f538fb 0x492cd3ddc778a6212e03808ab0a04959e37622e2228140; P0 0x2010ef35454f6a41fe29e6dd17a86d8d5e5787986bd7cb 0x47f081b09a531f1cd6176fe8c26bdd6f6d4f4abbc9ab7f; P0 0x1efe0b548a89733b1836bc8d11e1b8f26643d1172e7d43 0x610f45287445251dcf678915808d5222ce07164d2c1f18; P1 0x70d4ac92b9549b775bb2ea55df4117cc8278d72f3eedbd 0x5a63c6bf0d16e6045509db0e85fbd0a982b92136910d69; P0 0x30ed98c6d656c9136489bf346385396418d68d0987df88 0x2ee06c29d255683429de3a445d486f37e82c8739024b79; P0 0xd28c8bef1e98627c42f4bd331c72e3ac513e47245a24b 0x19af21f497d374dfa46cf8e7b9e6af157d2da7ac1b6b30; P0 0x3f3523fed06392800087db6207496cd0e858339cc8aef 0x8f4e9d1d91c04250e23f050e134324bfabfcbbb3ebd193; P1 0xf5f8cac86901364afc635631581bfdd715738cabb7d38f 0x4802884b8a4165aa82bd193439da1a8a81e664751c6785; P0 0x1f0d9553a91cba515120582e06949ccde30b813a24a11f 0x52d14b758ada8190a1aa161828b94bf154cd824602cf1c; P1 0x5225c9812c7e4222801e3987a3e6057d249999d167fc3a 0x25ccfe1c276a04e39c1d7a135bd0234c2be01ec2727db2; P0 0x88e96d28063972726ac4b76132e6031b1de81afdaf685 0x7ec67a8416518437e5edbe6b95c73a663debeaca9b7b55; P0 0x603f5b9b213af86f9387b4c0bf4e4e1d9cfcd323260f47 0x4c80d2e53dbaa05ecfe4b3b1282369c940342dbe17bcc4; P0 0x230c9fa591a93300424ba3934e7d8e56b6f2d54f24a263 0x6797ab430c04345882b4211a6f4f30cb14311a6f6df0c7; P1 0x8087d1a5494be8d282a584395956d6589b61c5fa49723a 0x547b0dcc07605d9382a29a5a113cf2a23dbf23509abaf4; P0 0x2abd72ed5901949e6a4b97c2ac59f82da47b0ba326f353 0x132ae26d4a506c4c8ed15689983c30fe20a3aaf337d677; P0 0x2333cdf56f4e73150032cdd4f959a82d2fb6dd738e84f 0x227b813b2bdfbfeafed094f072e31447de352f177597c4; P0 0x71edf1614a999d1f70f927354d7f8a4f20cb56deb23ce 0x9567df2957a578c56c42e6f6b33558370099601793eb66; P1 0x10b5a4f44945e0ae3a37bc5c6cd0b06dff35076598a8866 0x286f25bac1374e9ee9754370541ec478a40aef7d45c7d6; P1 0x1394e0a4833a960c7d927fcef288d930bb92ee7ff48c7d 0x2340699e46e46e170228742ce8aa300fb55193e2db9271; P1 0xee233b15b85406385f2dc97a89e7d2df4e65782220aec 0x47e02db498855f9ec8f6a215517dc23928d89b4846ee7e; P0 0x1eeffb5affdc5fadf3b4ec9ffca6baade4faab428c4131 0x75939d596dd32973b43e58d07f39703975f3186eea8d11; P0 0x52c97740090abb014448efd305c0732dd48e5ed451570b 0x5cd18b2c57220fb29e2cb7cb6e2bbf205bf8773dbde0e0; P1 0x672f88f17028f03d0c5de9fbbca8561a19dfa8811abf7a 0x92fc695d94bed70ad775baaeae82e729d7154851802dd2; P0 0x8161a4d9a6e900c787a7c14f1b8245152526d466bf846c 0x4f6864ad421a810ba2802bdbb69ac461f09a6ca929c680; P0 0x25c2e0aba32aa0949a5edd85db45bd2489fd0ef67facef 0x186e516d60ffdb5254b5f4325597ed5e294fbc8cc8c293; P0 0x3930a383982091e6e6c9471e1791583fd1dd94da0a2ba 0x58fc9f96f074c05b968b352d0fc63234d13e97f3f5247b; P0 0x2f6bcb4bb3ccefa71cc4ad0ab6927db4132eeff31b4a21 0x3a3ac657d5d09fb161612308c869d61ae30b22cf7c9556; P0 0x144e225ee38b520401468bf1642b22adbf9d3d703e6a03 0x16b935494a2ed79fd18e5d83cdab86e4c7d70fb675a0bb; P1 0x62f367fbbdb972bc59d004559a6921c5cac28f030f427 0x53ff9347553d37290ffc6e06e727b11e0808dc8ee0611d; P0 0x2a40ddc4e887cea41f1b8d61d7cd2213dd04c984b436f0 0x25a17ee6039a38311bdccba24e2e4710dc5becc613ee79; P0 0x87af0c7135eb318f1a0be3bf3b5b37cef44d2164feebd 0x18e41ea8070aba6fe4400a98bf79153c651b580dd83b1a; P0 0x3b5d5a62bac3e71e8cb337e71e5142e9440e344212a87 0x6258bbff5dac91389522ac4d63f376f84b9421e13aa76f; P1 0x73d7bfdc6c9a21163fabe504baafa4618ffafb01c14125 0x16b229d72e84b26b04ede5c5f480fe22e681f0e9cb73f3; P1 0x62b6170da829df0a414568af27f47005204ea66920917 0x4e9e0f00d0c23035042cdbe5aee7c99bc0310365586d; P0 0x2503668bd21b8163af31c6ba14ecc19fef257df769 0x2d5096fab7db7e6f0208c9e35515cae85e837c27aa85ce; P0 0xc4c0a41835997a8a9ded92bdee078ab8e2011846625ea 0x75e107a542d8cc2162dfcdf695d6aa8cfdd3e9c9056a46; P1 0xa66d3f6428a2da84702c7c4e7826c00504d86a913a023c 0xa193227e6dcf3679c486dcb5f6020adfdc9a05039b4514; P0 0x9c56c1cb9b19edc824ac86f7101fd662a6c6b334053e30 0xa509d4657a082246039e9985e1363d0ac0fa7c60112d00])];
  mkcert 0x18c61e9d6f5364020bfb6e04363013a05dc6efa02ece541f304622ec35a464bdcd07d18a2ce4ee8b39c6438bdbf ([(0%nat, 0x18c61e9d6f5364020bfb6e04363013a05dc6efa02ece541f304622ec35a464bdcd07d18a2ce4ee8b39c6438bdbf)], []) 2
    [P1 0x0 0x2; P1 0x0 0x8; P0 0x0 0x40; P0 0x0 0x1000; P0 0x0 0x1000000; P1 0x0 0x2000000000000; P1 0x0 0x8000000000000000000000000; P0 0x0 0x40000000000000000000000000000000000000000000000000; P0 0xa555d3b06 0x3e2f612b1740d284a5a092a9c2f1989e351ab5a8cada6d77e43bc843a98a17ca37a9a9b0b26dd81629398d8886; P0 0x9c174c3ff96fe09e9b7c878b403b470a34d58e969fb37bddddb4d3ae9fa6b1cba152cfa02af895bf85e070ecd 0x12244d657837281f5f1b036f3eb4eef147696ab84688f9a9b0ea7ead3fd472e66c5efa8956faefd6cfeaa614231; P1 0x1a91ffa1012af27c90c17d5bdb682739fb6a03aed6cc85cfa512e1e31b284c24b29b259ad88df887da5a0e582f7 0x15deed2b9055f55ef70b6dcb7bf28bb3f89f0a7f5f787750fd8bb6afaca9b29e9a1ff03036ee33ba0f2fd898979; P1 0x269da599834cf4c26a156b32ca093c9bdd7922affa894f3e0456f5b5ae9d477a5b39aea091f6e1dda031017b18f 0x11136efd977134dd882e6e135b0a9bb9cc2402fba43efc2fe6017af08e323b44a3c41c7dc49751eb6e9fb9d69b1; P0 0xbc5193a9baeb9b518af4f8fbb7abededbc4a3c016728493260cf51e39b3cbb9ff2639f78629474b2dfcc8a477e 0x118208c4ef2a3680d0e4dbf2ecf710142d4a6e251d5742e2acd8fdec0d563b2cf1ed12faa26330024d57394f5f; P0 0xc5f7eadb4a250ff89dbf183fe92c91b7f03f1e1fdadab95d120f4fc9227c75d54f7597b76ddaec67edb770cb 0x15a21e0df4558b9251d5c3dd98b02e7a48354b9b5f04e7a82b0c1d870dc6302f9d32246e523a0f9cafe405ebecc; P0 0x12e40a40bf3d160dde7403a0e6f0a2ebed5c5032f588c47ef2b8577967408a1510f2c80a40d5ee0ec91512eceef 0x17f3c86f5db31fbedbc4a7ec20dac7c3eed8a11b4c49221674b1db0101d0c7d7d34e0d4c5f1905d0434eb089b3f; P0 0x17286c10d1a879c0673f6041f4e47f9691fac0db6691d819155ec304ac87c79b464682a3c0cdc258678e17f473b 0x152bc80cb5a8c2bb1fa2145556cb29b3a2539856fb31f99f8719733ed4b62dcf88c1b960915bd448f9de5a0a57c; P1 0x242f28b088ee8e4d339f51be97f8fe9fe30ae36f4afe5ae122b360a3d89d483e808faedcf78dd4f870f24289d40 0x1120ab1f55194a48521ee46924751f5dc442046573d88e5212ff823565d0856e239f6501d79245952a0df8c9560; P1 0x17aebdf36b312335ed23dfab379c9f6662031ce0097acdc10107f9eca3b293fb40cce6bd83ec87d6b1530bfb4d3 0xe7f4ce57ce3d4db70eb98dbe8b409af14b28f7aea7a0806727c8edc2308870ca4c53488ae473fc12ef0ea21793; P1 0x10f7945d948b6619313b6e64c7b2086fd9b7eadc8fad97ee3df40508cdabd3f9662a176027fd0a5ad1809ea4dfe 0x736a483a5a45314bf2bb5625dae1beac50a647ff18f872e49319c8b381fb0e0fd6182f108a0564ec9e2f7ac650; P1 0x43360dadc8e2d73c9c5b17dd384bf6aa5317f0a726afdb955b6c7edf40f9d0bda01cff368986659a2886b74352 0x101d3b0e01dde6ba436c04a86d8b5ac94c453d85df1545ca3a0dbca586adf7cdeb010d8e3a810d2dad96a60edd2; P0 0xa7b4171e16a00b5622bc2faf573fe56dee085c0be647ec14128c7deb5c7ad6f19ac770b823e5ca56155bdc3b54 0x150d32f0e2356d5b92e96a469bca7b1cbe1e6f670dd5a48681827a6b7f0a029fa72d64e6160b2373e5e36f13898; P1 0x23c6ea20c127aebaa191f3ca64474e6dd7061289443bb3c88af043aac7fdb4c3998b063d3a077f32ac8dcaa83bd 0x15da3b1bea267c2c194173d36dc073a9d8fd92f8f7fe9a10bc3bcfc42b4c241020381af44a358e027e24992e17d; P0 0x1346894aa1a1b72e5ee817ab91dd747916be3f200e86717b1829f403a6b8706ce0a4bdbe4b7b11e15bad39f1e4e 0xdfd4785438d9db61c937b868913698b4756646edab490fb5bcb2648f33250a85cb28655fc8bf12b6c5cd09c4d7; P0 0x7e648809be5fb67e70ab71e866374abc738d3caba85fa001d29404ba4247fa4e0996d301eb05d8c8bae136cdc2 0x9ba624753b8c0beaaec6153795471b54843d9dffc0b7d7b2a1b9e9fd2f68429b120acb5c162480dc3d7c3c2ed3; P1 0x7a3d118d59dbf87c8ccd13e9d4f2cecb9c90866a319d1c84b0cea1bba933b13ebb00d9046681f0fb9dfc31cc71 0xc3ed478d885092452b26e86e76490a59d7958d50d434b0bec71945c301e7b3be24c1e2247346911373fd220e83; P1 0xc1b039a5cf11df0f96aa7bdcedeed6f6d2f87fb5ded56bcc2cf90bb42d8501bc44a4447f3f456a6fc2a926e181 0xf8ff2d2192563458ebc525606158c637b939e54e81e6531e5dbe217cf2e8082c31668480a3490aba7ff286b1d3; P1 0x138d37d3a6a238b2dcb83051e83275d28c7a8627baf851f327799025bee58396bb6f91542cfce9959a4be6e7c36 0x79e27a5ac1c7b643383e78368fe18be606b2238605467a1b8e8790e1eae0a77cd035e039e655712ebd36e05d88; P0 0x257a87fdc25c7cfb2ee12d03085e96c9abb8f4edcc1e171fcd03630a57fdedb5a0239b2b4deea671d3dda1f2b6 0x1cff3623cb12b18708b3b849e1e4e65ffefe9f0e0f490e678d5b187cb1b51a2210734a5cad494128121457a476; P1 0x43e12d6cc32d1dff341574043f22806dd81a252af3f771abc1703e28ef54022094552802d8fe12e3f65c4c2cc 0x5165663c2352781f3b8846731763cc2b220fbf900b5d4d4a3cf0d894a346136dde6ec4e1ae5fc2d9b5c578da94; P0 0x10b6e79ec83e58201669da1c124ed0e4a93a25800a37617c5f8ea2eedb98d701b342f3ec50cdefb58b5b36b07c 0xba777f5fe2a544b0a71ee1320586fcfa1770dfc7690752680c1cc1a7eb370d525e15967ee87ff50f5f4272d0c; P1 0xaf6f98b33d178393d0be04ed7698d777d2e8d9b2e36d3db979c266e661f82e4382400c05d09083c914752bf0 0x18511909f53de9268765af13d9d90b6676007c76ece160d66f7619c4844222e027b4a64d69638153d7f21ce7910; P1 0x2fbc78739ba48a6b4e45f01aef54a9c541f985e9f81c835c72e86ab92df8c4ee548d93ef92907c6544fd17e2600 0x10ac2dcecd558f261e368670850e8221f567383f2fb0a6eb126f5a6bccfeddc1ecb9b163efa7d5527929ed3e800; P0 0xb387060130a08720bb90e88b1e236cb24f4d4f84b4929ee282f190e5a5a1911059e268d210064dce46f1a3200d 0x1794475883641ac766fbacc4bc00eb1300e19e52de31326a7855e992583578b5b63df413331e116675474097d4d; P1 0x2ce25f89e5109a6f00025a5dcb09b3d4a2825bb588a8aed4265d6e47cc30caa13c9166adc4aa74f515483a36415 0x8d199e1d63136199e959e1ee844cfb4391c12f6bb1ba160fe6debc6f48ef09e6f3e8f90fd8011036ffb91965a7; P1 0x6474634e74a694e36192f4c0a5a25043466a5cc40447faeaae0a0fc136e900da8b316791bc43403278fbce9850 0x111052fd3dc00e113707eddd309d429e9f43cab72f24212e54e7e300d8a94d3f516728173f5d27fd8a8cadfb232; P1 0x1781a0993a4f9c74d169b18e373ab81260c02ac2456b3ec6fdf99cc8fbb3ed049b6447438e3d999ed37dc340d69 0xace5e4bdd98ed2079bd9b9219e9421bdf2228ad839c263b84108c1a433373d48ced183768c02e8c2c202969d31; P1 0x96d52df52280bba92a5a61f90b25553be6616ad86f31eedc9d51358c5df29369f6db7dc8e6b9290518093449c3 0x10e0227f95fd263930ace3f1ec2879f29f13ce42d79c8695af7f13e35726ca52d529023d652615622dbecc24745; P0 0xb7ecbc87f8f07b3ec35c8929b80fff7e2e4c509d76cbc221e47f31fcbc9e39a5868831c362dd70fc5cdbe3c4c0 0xb38c67079619d8c43075fac8a196eea0bdda7a5f1540ffd2fcb15a0290f07bbfd4c5a7ebd28b76fb980f39cd59; P1 0xa2a8c6e08fbde68f1bd104d6017497bf1286ecdb632cc627909f99dca261e425d2f0b1e76ade72c984bff89c07 0x4d1e2813408eb4f25a397a42d89c07db6e9d501bd1adff26186519c474e7d374a404e9e28ec525f53c657dbda9; P0 0xf00ea69db2a68770be7f53a6001a1c21f65a4e0053ed5667d5b29c9bad3b81b49f87b013e5675f0755909a15e 0x161689542b268c2155b5297e8439e11aa5d47197f287dbd5882b89c2e0a4c9d44247852d6de71317fec8eab2e6f; P1 0x2762fee7e085ffb0151358d48bbf414a4cb5b225304752cf9711c7a5bc96f738546bac25aef66f6bfef362836af 0xb55ae1da10106c533e0b4e6e4f4a121ff0f0787b5079fafc3283a62f2855e1ed5b0f2c053884c22502fec428b1; P0 0x52f979177aef38683d2fd538bb724b2f4a327b0e53612d7037b83ca877c98cadc7dce4439d404f1a99cbf473c3 0x150ad9d6b2f62991614d18ba4479c5a24b7efc034f00611916faceb927e41953bdf2a8ee0d6110940f96dfe74e4; P0 0x11df77b7687bdc2f699e7d73cf1cef86a55b14275752b3804471404388d7c8b9b2ab7a3873c714cc69a8fe37285 0x322586432be1e0f20b7b9a2235959d9a8506d10411100e1c29158d69b4660501684fb235acd39aabe90a78c8d5; P1 0xcb02a60b5dc6dafa641e7625d267ed99f779c5a20dffc065b0a82936727e4d629cfc6817fec1e8fe8bd492549 0x1338aaac8675f584798b8b8702ca6961cd0574aee4ff8258cbd9f53fe9b55adaef5526cbe38b004a45e2c694bfb; P1 0x1dd39aefb6e895a1cfea5d3422c683e4850180963f4dc0c00e18e72bbc3129d5b42906b957954a51edb34f736f8 0x12d8dd7bd005312ae15df912fc10b19504dfe3ffd9720ae1a4b905bcfd22fe77d86fa2ae3172a00992f769ef52a; P0 0xe56972afac8f8a2efd4c565787d1a0eb634cd02be6b82a3a71b1640220d16afab34dbc95226d6284e40231765e 0x24a8082c0d4b9df7507fe3aba0c9ee54d16dcfa05eb0f36f8948f46bd1130f3a89d1e02aab3df0020f7ec6b4c2; P1 0x6c79e9c497fe53783e687fe6a81c94980a265c3c1f782345bdfd123711fbd87fb48ea8ad575f2da1721500b66 0x18c6a07a0293f79cc6d22769ac77b9ac76b6dc1e8ff081cfb85a1b56e2040030eca7a5b7a72d338d5ddfff6ee; P1 0x318e44b27d18a9a2723a0c9e19e7eeab28ee73a8e839555ce11ec0f22d9964b340fc66d8f64570ed68ba1f7 0xefc69436fb0030c0054537f0ef3f9bf3a61e604320f9a251ab65eff18604fd6ef00566f4bc094326d67ddb583f; P0 0x910aeea4e9de475b9e2f8390c26f8162109b2399cfe9e7a7166db1370a775289b9afda72fef3b00936f0de8270 0x1351d38fa4f85177b80508e4ad08d757f8fca48d52f0bcd5f4bef7bfa477221104dbec456f9723855bf5b655df1; P0 0xf10f19d6ce2c9d10cd4854cf1448f6eb2d1c2da08b73963274391699dcfe87a75e74859ebb8490f4578fb4634e 0x1341f7662945dc1bc011f1e587a37db713dd4605379e39d23e0eb9d2147d999e9618add7d4b85d48a5602ac4faf; P1 0x1df07e75f16bfa7a50a00561fce6dfea0cc7f0311527a253a7148e53a049004ea04adaa28e5edd0790778d7cc0a 0x5b37e632abf2ecd59029d818127ed166eeea47ca2fcb8384d03ee8f6bb6a7d62e75386522d8a23d5d0cb1655cc; P0 0x14fde7bed8d66628078a1ffabce7cb0a333d303d504709905d6c90415a9ed0f1f08f69c38ff594869d9eebbda1 0x6088ea75ae0b45e1d5826557b6c65c7f48b0e31791becbc55f9ce6ff81d037c05d009b13a2bb0c88d667b6c271; P0 0x178292d36422b6c2c7ea1c37e9d56d3d9c49538c4e7bbed3a68012c4b3f274e779b4e92913ed30f353808708f7 0x3e4dc303694fa3f191af3d085a73bf52e3bbaaa0f532c9f0084e81eb47b337887442cec9ffbb87e1cf1f56a98; P0 0x9caff7e8c515b9844a6e2a67fc00defc22953a4cf45b0b52c82df515526c46a88b0fdb8a68f6c478210ba8d 0x15375a17641ecdd5f0e8e5daedf0f908e8d016d9aaefc3b98d9be21a1383dafb46128bcd9aff0fd19631c44f20d; P0 0x122b604a0bfdda5f497f5e544abccd8cd4a8a4e4a40d29bcb8fc41f1e411133b12f108bc8e6a5f8b93cad3323f7 0xfd483b089e9c800ecb7b65a4d1462188322e5388d2b1e6935b493d573534e7d6b66b4fe44250016aadff076460; P0 0xa1d7e28a641b61edf564749683b2c5c43f72b01c1ccf3289750137cb9433fc594a8abb0bd69f22c0262c0c5e1a 0x3ca0ae73cf52f8e657ecaf4982905d09a56122e57928dc6908cc8b91f44ec9ba24c52c9b9c90af5b9f2837bc9a; P0 0x945ed08c6184f69fab3f5fc145113f49fa17ceb09664b17d996ab3345cfb0c260a20d0a881b9194c5967217fb 0xb8362f774610c65b20ce69e884131c03ded85c9681be448141c988c0ea799bfbe21bae467745fac299ef62595f; P0 0x559bec3b9bbbda14fa7b508dd629c311a8142a38aa1d78dcd2a612bdd848589c1b823ba93f1badaeab923b3fb1 0x616e965c18204bcc6f83a64669939c6bf8bb7bbaa6fae1b63c4b7e2dafba4904812d6844e48b2ae68b02fcff32; P0 0x17f2f629448948525ae0b0d20e185b4c589ab975fcec3f79304cc29f7bbd6ffcfc2b17bc7a74ed1904e25fbc73 0x187c9bb5e5802b744bfc52d682cbb766981acd9d7d37e9f7bee01f4cfd0bacace28918e4ec0828b76e8781e24f7; P1 0x3067e5defd25cad6b63c090d090b92483f6d94e3f50d36a1197f52d8e969aaccbf7ba84c111540477e2786c7322 0x10607abd071c10781bf70948e55d6bff1efb8d0a158acfdbc59b5e51666d68913f888df9787dcc6ab7e1d1acc44; P0 0xad373de7a511f18c820cc335258d56f7b246e6d6840289984226c21ef4512587e3327785b35c3eb91b2108097e 0x466d9901b51707ac11f0bddcd16f6293c0d95470db0abaaaab3c2b7020c4f2c118af3151e59be9d25a93b570e; P0 0xc8372a8140ed968067226f99dcca1de920f66f4808b7a7f7094ca990f6f8d8194dd600a082a262bc052318d 0x7e51c7b3e6b9f17113819155f928233d582c3e4cc9c94fe698d2168abc16bbaa9b8603c82ee9befedaa34e7391; P0 0x28416d58c0dee934255b213cab826720e05b637f8b6aebfe7f5fb38aee8bb869704f8530893f109edb57964023 0x4a4c0095c44b1731c43789c6bb2cbaf42e071478e347251ececc2ea12f353ec0ffa761fc4bbb59b0994c6be704; P0 0xded0f19b3579a59a46b4abe9759d5378c36c3e88007c015fa5e7c7c23356338ed0bd7817fc9f16193fddd5f7a 0xb21c806f36412cbd9cc5067cbf1729b426dbca1800fd437588289ee2c58c6bccb94a1e3dd30f535385eb78ea0a; P0 0x50086d8fe98a399e2e986c8658c186f911a5fdf78685fb937e4cc24be657ef82fd16e7281e692da255dc2c01f6 0x691049d178dba70fcd089180efde1ba20e5e11d401a001742512a1b5ab39f7c0bd61222b9ff8a9d146533e33da; P1 0x37b20e1e74c7076aaca854f2b4b3ba1e3876ee7fc4f9fe26672a2f05af593ea023481a5aa7eeacdea18b5d88e6 0xfee962c4e7f1bcde3f738c74dd8eec9e7b2f6b3cccc14a7dd2ecb4b65416487c2b8fb7758615e0c566350639ae; P0 0xa3eeb606f97ad7c9152de488f95170c330700041ee6f45504bb3cc2089e5a5132d1a2326b3977cf8c3342f233c 0x114949b28d8aac4c41b41f5184b84c59e2839eeee7c1994bbbe1aa5226f631c0c5ac2c53b686f7f5ee2ebd85c80; P1 0x181f97a8bb33166d18d8d058720b1cf76be1630f2ac0b312f9d5baef86f02e1aaf1e401d73665ac1da05b2baf63 0x8bc095fed6c944e55d567394d3c733eee9c457aa9565d66b3096f2d0ae3f1f6a6ef68b566e9a7cec06231c8e23; P1 0x628b738266f66973ed7de67190d43a81fdafac04fe070edf7d6487f4ad4652f923d50b6ec2ac2317fb954f05b6 0x18a31607aeaef112cd0052b68eba4e2dee12c1d4667920c73c322cad9b90e896c33aca54b6081eb2105dc2910c8; P1 0x31007df95c036c9e135c4d1b7037cc3d8db55f7f28e575f3fb3659c0f035bae5c0cb4f7e70f8f3acdca9e4c487a 0xc085352f98c398a346e0b0cd1fbab2450a914a2881bad5a4c2765a1555c97c5689ea8542418039a01a5337137a; P1 0xbb02ff7fe4a15f51fdbd1b4aa980cd9de3daecae9417b86a11de1fe015733163d2d1a3d36ed4453875a98883ac 0x4c46feadf6f63c35c2d41109c285db6b022e060abe893d1f93df001dd8d97207550ff3f047c4668675b41e72f4; P1 0x1d5b4d2feaf08e228ee09e72698c2b816fc49193d010300fda99011fbc4afb799ec255b6fd5f26c262b5f21421 0x11d96ed7a92f6b858ee4695c7daa4d91dc68cc06f599ca25a472cfe7e665947bb33c509f67a5b1714b5c5eb0f81; P1 0x19b875dec7ac23d90ebeb32b846817fcc648c3515afee5a9e5aeff843272e6cfddbfe025cab9e100e17dbcdad2f 0x11bb92423edb59cea82b027d28cf68650640ec59898c78957a9213310aba1cf2bc999b5a3722c8770dbedf4d4f1; P1 0x1962ae7a677d296b6b7079f0c2aaeb6d2df323a104e6930811e8fd4b349a7d76a9da40b51e2c4f36a7f59dd98f6 0x7492a9193e0ef1ab1a8e54b1c750f44cf898aa34dc972ceac85c16c9b28a30da40a7d55f295308f70778fd5838; P0 0x22487c6f5f9306488758b96ce1167f4e1478f89279c0df15f74e00632d033f2c468e83624e4687a22d3d8844fc 0xadb88ddb33851509e1c3c79a2f973c641bd21ee4279f38430f8bd934008d514a789f19d0498f430bfbf25d083c; P1 0x98459b34fbab5719eeb689001ce8f91e6013d8a629a2b5aa9d6553cbd042f4fe46ec262ce02153ae9de32546f9 0x2a7e8e278b02bf2fb51153d4e3c72f28295e30c504187f4d189a5cce1bbd3b13f00d6d99a5cc6132f50f09d359; P1 0x91c7b05fa4c41289beeb51916dc1b180fb5716c39eced356bad4d4efa91bedb54cce24426dca34fde3f642eca 0xf921a654cbb9fbbc0d33f912252ac2db0eece21b0b95c7d63b07736f473e62aa228fbaecc6295e7a168b019f2c; P0 0x9c95111e23545132122c81a2e08aaa06900da7d85146097e61d531bb2f25013234a00bde56ccf876eb25a32095 0x1bcba467163100b119bf7887326d41d752d86a19d2b9ceba71ea6fea7511e58c377c2f5f8d903fbbfc90f45f65; P1 0x3e5f0435abb8fab5eec38b287bf0c9e4de7bbe3ac9a8a72effbff5e7b265de0ab933ad050026dd01b40126611 0x688ab4c8eb3c8c18586ae7f6711f310e1148e6b7a0ea0cf79563278324f32e2c37ea402ef1f0fab6fbdd5b8803; P1 0x3724c79d05dfb4801fe591ec8f702015066a4ec9e704f3348c93c1293f00afbfa4c7bb6f9259d7b97840ff4822 0x1631a55ee2128a00fba937b1971ad5ddec069a64045777b958f7850879b049336861e72dc63cae573704aa274b4; P0 0x13e1f46343f1c627dc4ef4bd84fcb102ddf30cd51a81810cec8edeb72027238eeefed4863d239debb3b4d7e9252 0x1882fed8590b469219cf62ed3a92039263e10bf2165783bb6183caeef665b6185419dda49512662c9caab9de962; P1 0x308129e44505a024471f2aefd953c75f79d917c359db3cf1c2c346852a5a080752f75ba944525ff156a3cc9e1c8 0x41e718c92bdfc90de7c177eefb6c490e85d3d854bd92e70e2a85eb8e555d832129724ca98d734814521bdef6d0; P1 0x15e9fde268bb504442b7a6b308367382085da3e3a8b07465f94a43332ae511f57f796cb66c5a653755475e8857 0x1742e71381403f4970ff4e9cacae4b476077f23363a9de92516877fc90dca0401ba95eedc8895301cbce430de17; P1 0x2baea7809082e1adcb23ab6291824356e273dd984af52886584b01108e08e56c7e86f386ee12f4cbdf78d7722ff 0x17fe4d3b7ab9e8e8f7a3bf57e367eac1cf467328a7bb43399f9447223ad67acb455b98675a545b002273e166ce1; P0 0x173cc78355c812f97857fd3d6d5d8ded1a5c2b7cf6a55c2c5caecb7a701e6a1e0ca775c70c25e97ae202999d858 0x230342c6f541c8ab898404e3fe0a119be4c4640aaa23eb82b506dae48dabec40738cc797a9513056c28f393c19; P0 0x317bb24284904908591c2e9dcf6f62dce7bc45e264ef54c41b98dc1061cf474b90d85b1c3caf3b1f8f8710b8c 0x123fb3696d01c205fcb7f93cd4190b8f19a0b318c85e5eda4c4b60ffb00ad173777e49047cc1e11d919b6bfc0fd; P0 0xd713ec5af000b208c65948b77fbebdf6c8ea68596e9ec3a856c0b4dfdeefde7ce7bf6dbebefc3b4695ce940d12 0xd8463bf319bc680f4d6c6d66eaf627a664918b79598cb79c547e7011913590f14a185b17b29236fbb4f4f66f9b; P0 0x7600f1f6973adc687328d8399d8f7c05779bfe625a2d87de6c1c08acdec74137dc748580b97b91543bb275f93c 0x17c6c2acf4296cf4091de491c5506eeb00275c3e96ab0d1fbd71a89baed669980a6c7ec879e645b6ecf2658815; P0 0x16d1aedf524dd5bc4336fe90622483dde91b1c0ec8266abe1aef0a7d6ecd27a457e5e455e0572f9e3cc7c98fc 0xef8ab447ee83ba19233b88c1603b67faa63feda3fa09bb313bd10f1c987f4c3fad30cba40885466cc2e7e021b5; P0 0x90c287a64015a866cd42e7595d2e90e9d58f487f0308dd550da797683cfd835b301fbab4af3c1ab22bc30306ac 0x10eed0ab71739c91c742d837e80176114528dc08baa6b348e6c431b39df7791796f23c3f22fd88ea5af466133a5; P1 0x1725a8f3d0a4e447a0bbb1f6d6c87b316105f3f70a9ec50a91cfbf0f59b4bfae5f069579f48461c935c09c74637 0x40fce98811d97181a5f2e155f744518ca2fa270c06ba567a69eebc8c2f23e21747c25620ee6049170c905e52a9; P0 0xaa7aa41a9ca25471c10e90e8e0bd5ee7c15b388651f3d3b7c41d65529529a46bdc0fffcf62ca1117ae699561e 0xb0bc45c1c4f075c1ea3e0c3441f1e2c4341e04f00f481957da35d030541fba1aff5d5e8e6dba9ccb2f1f414d2f; P0 0x4ecd1b97b2fc19635d29482b1f8d29f2b63c6ec0502de4e616180a8137d536e1d3a25700a6fd69423c30306327 0x17c2f6545fadd5779ed4c384cc56c906dd1347612d86023e509894f0169703480a0c6edf79db3e6c60b114d8988; P0 0x16ca651051082e4fe1ab3e74b088bef48d2627094e37b986de462bf2a11d31fd9c541d37490900e4e3e3604f02f 0x100c1e5da0b0443a580bc0c7fe42748c937bc2cb8c9c7f9fc5591310b40e98438e6e63f52a5ee424e993c68f22f; P0 0xa650a6d80ad1a9f621cdb273e914e85353178a7cab3460c98fdaf211c6144a5644a97da8b1015b2746b5d98650 0x13ac1101951f6e2f70e7667058ee5c0eac3de226eae74bc81efa74471b9b6959cbfb074b786f40971e9cc589ef1; P1 0x1f3df22ee5e6e2804796c85ecc507d08e9b08bd2c7b486dce7aabfe8a29cf61d6a4d58335f37ef2a37ef1beed64 0x441cff7b4139ab778bd5f45fdcdf7f6907d21466539e07e2ce5160c0dcca6963527777704f3c7d21c03026cc26; P1 0x1768a6c6de736c99857ce396dada5c4284271cebfe849b6a728384d1b6562ee3bb18566619a8985263d2de6ed8 0x4e8b3bcecbcc6573400eefb31febe85ce68b7d88cd25c1b1efaf31cc67d54cba1c760e0e854826c21d11f0020; P0 0xf904896b5090f5fd259ac73baf3c42a9994e4bf76eb971298404fbd25554cff939cd25229d077e3f20bffc8 0x75c68e3304a9704d5b4bc15d27d06c2f07ac1a6c427d82d61223e9619a44fa485bf49e82fadd8d9506c13585c8; P1 0x45fd09cba7e129b9b1b7e7034e2a2324cfa028e6a34131b18a152139256491d38ac44462f09b7935c333a7ba66 0x12275a164e83bb1c11482d2b2524e848e5dff35d2959b264376af2c37a6dcafb5a04f1d868af7c1b52178617866; P1 0x1a9aef29d6752f6a97cea009e126ac8542de5609c9bcf3ed2eb23a0e0eda0779d372501f4b928e5889ada4bf166 0x12dc5d8163e30e9d28bac585ce665fb24f1300b78cea448b4b8fa09a3449ca1fc080b08e15f96cf82cc95a6282e; P0 0xe5beafcb525734648421073ed4fbed09a8a28c7a9d44eb1276d048e65837ecb957c6bda6c6e7a78ef813502bd2 0x152cd752dd9a5830fee15b98761b350d46f35134826d09a4b70867f39c14325d644448ac1d23d4eb1f576dbac96; P0 0x12196408fe33f97f99f618b0f2f9d3ae6c407166de57fb622ad1a914b24f328424bdb3af512287c94d26a354fad 0x10a0d673ad7e1467767899eaca99d07a1aa4737a72bf5da70b4f9b1fc2acabc8b7331031dd14b660e1b698cbcd1; P0 0xb2931b6404c53ea362b4cf9603298e7a05758ee697d2a5754e805d4c4e125ad01a0812a80e1aa919ac9f819e6e 0x73d9f928d10a992c9ee2e154ad395ce58d03c52bb2050832d6ac8dc003537143d49c8b10520bc3db852e1f388f; P1 0x43b8626060f1e437cfa7f55170a8d2087343ff44b5436bc53525e87590ca25a474777340bc44d038c7b441d4bd 0xdba53de18ed835e5750fc17ee8495b64dd9df7607c689f0fb50f109ad7b8119b23d4414029e63898afd1bc7dbf; P1 0xf36c114e558620506f87af5b48b515bcd282a7d89c457e38b118ca62bc716f1b62e602401b9103dc9f7a1b5bcd 0xcb619dff5bd51a2f33d003b1a08ad1c1d3abab110e2b388475714fbac8064343ef7ad705e024db10932290520f; P0 0x685a8929702785ee9e9d2757d0ceac4f9d58f007fca018df5e1dec6e7a83dda56bbd848dff76b023f25828f02d 0x1158513240a92db3fe0206886f8496d3cb3d56d643340bd83c198c036c6bfbed81ba569da878742ee4a4979324e; P0 0xc24ce38b56ef780dc0eb54b4a273c907f560f12a51e23597aca018ff08610c08e2d72341ae4eb14b4995f6d6c8 0xc4f823163c2fc4b904b6035da7ae19032e40242d8e4d079cfdd73baa60ec11f2189010d1debb8601c5d822a88c; P0 0x61e09f7ffd52f4c686faca1fc6a34dc03e35cad2350689d19204f96e350bf0c443763e3416a68ac100f0f0ca5a 0x49b7bf5ba1495acf6b82c6c8389bf0dd93a524eb548771b7978177aeda60ce75dca6cff8fc55944e707f6ca16a; P0 0xdb5b2d866efd9b10105488e65fa2ff66fe54ec2d5d6a962d0b4dfd7514cdeedf429e7ffbe114db57354ad47da 0xf84da4c75b8a13fd000fbedd29ad600632e97b5da3ec190247e4bd28a6ac2c87562ba09644a4c2d79ec831f23e; P0 0x9b8b0344ccffbd5b7a4859a16b5ce0e23a69c7b646d903d79ee54ac608df940a981ffa7779a284a47ba5e5e13d 0x10854b02594fe7bcfb2120dd0900570ae5ded380aeab075572565d46ed895ba94c2a7d49f5e34f63c9ae9d03181; P0 0xb04567709eb2b9f56eb6b252a9e8bd5245c411ee6155c66ef306d90a47f675a50b333fec9f99667708dbbe128b 0x439ca238de76eeed0b9b6ee8e552a58de18f080e796a84758060d5bae8321007592282e544b74b8243ac4a2e4c; P0 0xb885f619291b27c277810a091162ae82fc88d8a3731ef45a60b80e32e589b4ba7efad0847e4de0b87a793bd9d 0x182de119da3e5fa44248b7de4fdea6d3dfb69e037df8d9cd88959906cc89ecf90110b619f617720bd8003c0056d; P1 0x2f329643a45804385082bf2966859deab08a7a95e44a7ea24de5811e928b7e8525d0a3fb8349a9affb9cd629e26 0x126b1af468d1cc9b076ed7744d1e48bf142d54313e2949ab033021477cd460f9bd05969b3fa23f818de794d478; P0 0xdb17cad78978170537d27c26c627fdcde1b48aabe9f860d861497cbfb87147f1b93d96042933fc7deba75525 0x4b32e736e6427c7ae2e3102421eb37bc1364ac6293deedd4f5d62c1269fb508a8c2bd0d9e0c7cce5d07b4a20a5; P0 0xe4424af7384f3b5beb3b87ff3200ab6760e7d78d4c6ee88a6aa8d03e67256cbf8186ebe4c2628ecb362f293fa 0x155a5417f9a326de55f80286ed3df1a7c575b462c0051980c9e996b233bfa04a8f4a1522e01062d23db80a1b0d3; P1 0x24cef3f2e549f5ba6d2ee993b524d16fa80bd96bf7e25d73e0763b448c8e5dfbb647518b63d65181d1579115f5c 0x3371a769eb3b04ed1edf70e57406f5206b03996f43d26bfc4d2faa1bbf2987a4f34f2d00add9856165d3948a2e; P1 0xd5a6949fd89e48d81975e3f38acdccb3c94a73f21a92ce26c8f73b574567f0f96cc230bf02440ff76aaa74b8f 0x4fa7010910bc7ac625ffec6dea2e979aa556b9f72c5914dc4ff95691751e7aedeae9b568f13c1540c08ea94dd7; P1 0x20031298accf5ca6d4182fc0d73d1d9754da431dbaf3fabc05479222ee47d80062707d523f1a84fef7802e84d5 0x11839afc71a72de07e951f7d1ffa0044f05ae38d816958e9d944888bb9eb0f378a5573c90a5ab5dfe7d85b3b937; P0 0xc61b7476304e77e8e1738ad8337b14fbdcff94f640b10e8f43e23250f7e43485ddae6318abd8f4a6e102894203 0xeb8770c3e668732de7e46eccf9569c8c47ddc303e93e405c780d02df128194391ae92dbae0615f20f1d81e1294; P1 0x117e6accc5c6aa9df82b7fe2a42b05106e663e7f103202b997684de17b6f42b931dccb292443f198e9565a20684 0x10c072a5af2ee2fd8474981eac1e0c937b8c9369d81fbfa8e29d6879cad885a80f840756dd537c0327c87ffaa4; P0 0xb53c906935b6cb788bb6ad3dbe268d2f831fe9341cc3910cbff91d8b07cb18b95caecc71e3656aa96ebcab8c 0x100c5f6ed99885622cbcb3ac90d4f631f08ed5a62fd49c097342de408a59f7a18f6b9a83141483f68cfc4125f9c; P0 0xa655eb9a85ae61f1b6eb98cd366f7baacdf72f1f49fa12d735004e81b0608c026b8653bda227a19a568efdb5bf 0x143cf2fcac489bc544fccb42dfa0eef0c3d6bbad585db5af1175ceda86de5e5f1b2023b015d8543c3f819648a8f; P0 0x1088603cc9598a347ab142e8e97c5111906cb4796dddbe655298882b37ac06961a02f2cd9f25536db13a109d232 0x3c849b23aa0888f38e4c6eadf33b991b30ff44b80d78e4c75a93630e137b71847feb92ec97191e0b598f43be93; P0 0x93d58638c697f600c8ad41e9587bcc89ec503767eeea5b91446f638c99a79b8573c5209b8162a45a7b68b8afa 0x6d09103aef37d573d72803ce3e943aeeb6c544c1ae2e9f8e923909162b0e99e16f2161422cb3612bfd426945e3; P0 0x1dfe388375e91789c9fe210485fe6ca6de18a778c88f0c8f374f5788ceded21bb3eee8050366c7091390cc8f8e 0x6c6b52a485dce3f0fa37d76861532748878094b947c94697aff84716f2657e66e869a70d57380c4726859f3657; P0 0x1da7af41581e5b8c425d640535d71acfa25cd49040b83ff6fd734a2aa0476a38fc6c9be21db7aa910a33591e31 0x16ca4dc0f581c25c5709ea8dd05bc6e185ff7aed0283e08436c72cf0f7e3c7fc19a75f2637fd8dbc2a4181b1e02; P1 0x29ee4c381f4d74b1d84c8de4f1254594c435d593c93542830778e061ba106050b2651daec841014b709ec5d6158 0xcada9b1b2c37639ef9d5d311772f2759a8beaab7d71e1793fc3b7df66ac9f8c66d51e7279fdb063a237a175760; P0 0x67d02b266b26a3de5b34176cef01dfa0a5de59c378d2a907268a5a39176200e1ac48efdf8bd88c908fce269507 0xd1b7f18375667f7ab1fe359686136ffa6479086e7236f0e55e76c1eb1b2d50cb8fe18da7dd9b0ebf3fb0bb08c7; P1 0xddea911876f1a98c6adb868c1b6d7aed205ac21315e9c9b31b75977a24eb4a80188e25f694b0033b5f121519fe 0x11216c281ffd5a532e21c8fc058551773dc4ac1c4020ea5eb8c28b395bc45245af2b4d6c6ac6c86d17dec8f2ae0; P1 0x17b0d3d1bdb4d5b0609a2f4ca7170151cce95855c25be4253a40df6a1f53ead81111caa8baa459f89cb4156f76c 0x9c4bab3e6a419f1488ed8eb7f0f0a1e1f9a6b6405f20cd9996dadc2fab453bcbaccff81eb00335605c96af326c; P1 0x7b4199a98e602671de81aa21d4a6a6d060ed81b89383af8e68feb6e879a6f9bbcf442b82a44a119705c53e0297 0x1745b637f1514d8543fa4dbc9c67a23caf03d369b39ab0457e7492c4c6793d5c5a4e6163e6c77ee91b494f75177; P0 0x15dc9a8a43f50813fbcbcdd8a33431f61b4cd9954f7bb771fedf0628889851e3353e1c3c478c91b8c488ec18b55 0x6a9ea4bb03324101d50e01dabec0771ed189d04079ee301a77d2979cbb1453bff057ad5e6f30dedb60d0b1cfe6; P1 0x395b875c1d5e1656aa36c9d66942c4bb275f79fe4dd3b3543a09520cd2755ef03107195dd6cf3da9bf7ea0db4f 0x13363c46baf82931992271fa631fdec4017e485b21cc37b48b386394ad870a217b9eda2a280ee8d4b52b88e9257; P1 0x1dcc0fcffd47dacf740c3f92f94527acc57da58befd554f8062a2b26ba3f2d2d2a04ee5a6d193eb546332c3e85c 0x16f9f14e2e3e9537558f230b6fb93178e2ada0d02d972d6a169ac1d26868aa81d11a576afb6ae4d36d331806a7e; P1 0x2a9e4fa16228cc1e2b6d7e47b6a80bc8f20afba164d839104205cd69ddf83d92a53f327fa31bd33049025eddd42 0x597ed8afb891bb7bfd03c5041fbec3b2ee308bea61dc80c52bfd5c1771a599868b346fad611fb6358ab5575dca; P0 0x1434d36bfcad8566dc776e6c3e3227c1a247dc202d852400567538682aa2cc57a0230874aba5b8a6aae437bc22 0x3a8cc9779884d979eee0df7c0a2df75918c654c8dc8ec6241d344cd2fea1c3ad155a33e8726308c9d4aabdec06; P0 0x8a6013cfd8793e080f160cf76def739697f01ca79396a7d8d3fdb4257fb0f3e1ca93f1fcbf682a3552386ab6f 0x11743a89a4cb99988bd002fad0ca2117793de6d0266320c83041e529a535fb5f6012c458cae845bf37d88243553; P0 0xc4c03061f8bd7b04abfb4955bfb90417365a0fc613af8bb2b73d8b4d1f5b1211d6be40f1ca1b52debf7ddbea8f 0xd25f0640ab700d7c19f78c4f2dae8e323d3d809765f8d1afe9fa0bf538d31470889dbc0ef0c70e362bcbebe538; P1 0xdf4cb6f6d71d6752973c20bdd73a997acfcd3c70b3fe4c8ddd6aad6632df1ca3b56df80339ec7c569a360a1450 0x1223ac176787f4a55de5e4a9c1825097dc391999638e2c041136192d5cbaae9802b4d58d71466a0a593701640d0; P1 0x1a90272b76a7c2d59daf91d9a3ffbdc157297b820f78e9ba59b88b219408ef2fa130401ec3c45747e814fc5f51a 0x169295ef90b1d615ec048c56c0876073d0166d605ce647e7e3f9ace75b38565434b512b3701a706e7c6f7fb419a; P0 0x1491200161d81e2a58b6039979c475b3c5e9c295567bbe46755753292af02507f74516818e69948c45cf97efdda 0x62915a9cced165c4dc0019876104a8980d4d7e0ad6898eb6d2442ce10f57f9e34e9c0a53f14dfac20f49f238fe; P1 0x310579823e77a286027b2baa68068d59043fce127e1336fc5a9356ae502c53aa3f5cb81d499b047365ed53c2f0 0x4c2aec5fa0e3a90e2c47383726da89747619531d6d2b6c0b80d3b660e828e73b6749a1e04bfa11c8ee04e696f8; P1 0x1d45b59d7129f939348d142d88965a38dd8165942aaffeb56760c38fbda46c8d72e7a88f0eb5e7eb2572324a84 0xc120e83ff465d660ec561705ea15469d730077f9a1cbdb39433444f4ac5498ed98d424bc7d2989084b8be61404; P1 0xbc31f6f36f6cd42036f667e916aa0714909b10c0435b5849e68cf9b5605d594b01e939d25aac605f7dbe211c0e 0xd48722767addd23017ef3a4cf0c0eb25c8f69f8daa69d15f0a33793f51d34486aef98258a3deec8cdba06fbae; P0 0x71f366da1fd176051f34064e519a4b6432a010a872c3eba8bac01bf035b6565a14707cd5a5909554d0798ea9 0x7fc86a0179fe56413e66f5c52a5d30cb96bff1f5c9c871c89eb53ea00afe50179e924060d8620de217199a752d; P1 0x52632ccf976ad0a8ed000b1cf674fffe129d4930d02f968a90a3d66a3467132ff8026d77e463a1bc3057e59b76 0x128e36ca113f5bc8108cf0f43a7069d78e663231651d4834d59587e013f9a13c6bd6b4d5e169e79d281c1a738c8; P1 0x1bcbc5352e4f3764fe6fb61087b4edb247e7ec11207ee64c2e275b1920d384edef2ceca32e4df30db7aaa51b72e 0x734b7c0b8f6658f8603e0ade06f3d1910c344dc4060df96e9b7300f3fc14ca6d399235f5ccf0e8d17f1cb972e; P1 0x431233e05d91e70b7e7df1ab244ca6f80c5a7d131ef24f4a9f0975333feb7dc80c679f350a67509c55c84048 0xb4a0b2fcc5b1a181b77652cc092854f993338ce2f3538c5bfc736c2344d0caa5f1d8d2b339d78684e068d97ad0; P1 0xa49ee538ac5c03ee415ae35ccc6a4e7a62d73824567b82ca55c05cc4db58677ee95522aec6aaa1b70facb38f02 0x10c5e9d3e35208610d26e1b804d377f286649faf7863c1c781e4ee42a3845e6bc869424fe8fe1f213866419a582; P1 0x16b65ce246476f1c8c818a6982ee8b60da24fa27c684dacfe8f32340b81426df04cc52f6da39ab8f86c04008a35 0x178e94ec9d318770fe737f99e8df61de33e4be014fd5f0c75656cd07420ae44b50e6466b8769d13c2fc4ac16d7d; P0 0x166658e5c7c125c0d36627109747a9079ef1a0eea2d7750a61663dcd82be3720c463622957b3b3efcd1cff57977 0x3a530ba6cb11389f7c86f63f33307dd08ef80e5b303dd165d3907ddde4ef2913b1b97e2e78540045cf18733440; P1 0x1129f59135e3708f57b3edddb2c79d40a30a696c287330a64dcb56c97686932ecf52b24996e1cdc7aea6fd7fbe 0x699897b77cd6353df0ce3bc0510d3553ec78e6d9e98052d3e82dc39ad37065a4f9e95a47f9563e6e8e10528b3e; P0 0x1c21779e2485ee95618502b238b6d838ce5863381c9e2038b5ee094ddeea9d9c61176c0b3e4ff852798b4a8308 0x14c7dd906d6ddc2114198a6c866f2405df52688ec2fdea4f04323fcee1197729ccbe0f0739777dee3ec865fb80c; P0 0x116e6222605cb94bddeb4b88607477367ebb7d7621d8fc194e05351627455d0f4eff8deb7f3c2fa7b1d46ee4dcf 0x155121ba743c7d3656f4f555e638e6d5d19b87e4232303f94009b791f86f533b498551d90baf11ebcb6f0b3601f; P0 0x1257a2e46af2631fa2e570503c0566f503541fd88f1cd4e717e69c169db496c9b191eeff20fcb95631a98c5eb8d 0x15621762efe63c67af63aed5c599ad17e6225c527be8574354919fc195df66e28540c43c3951999620fa076c8e; P0 0x1274de23193e114acda1383adb3e62777e81d46622d203c59fcaa9352cc882b6026be85e2e8e553baed589b90 0x14ab876f73139ed46e09001fff8e3aeb12ed6b2fd52e3489b4d6832c66a88eb309227730f80ee368e24ae56be54; P0 0x113ef8cce824f9c9d156dbda2db63b3864ca84b70e9e923d5bf7e3b5bcae7c096bfe8557d63215c05eb58ec5570 0x15428d102ec3d8490ef5e329bd38a1c6db3f8ee34b4bb0f53129f40cd8a4751eec69ac5b312a346f2e5a095d00; P0 0x123e93dd9cd5c8e94e505e2c7638778e537dad40cb3dd2a408bfd374861572736fd202be9610959c9a274a0d7 0x4ca6cc53cc6d3d75d1904b6a608a0514d137f7acdb869a11c250bb8602697ae6a4377c98bcdc78b70030fe4497; P0 0xed29cde41debe0d7357008506e482722aacf0e41a600af24d1256ac1a1bc17bd5ce6d882e9e79060703c492c2 0xc00edfc69f3bfc3ae10fb5bc0c732f71b9496118d7fc3ecf8ca3895f8e29dcba10d52929ae608dab4fb91d853; P1 0xba1d60eb0f099a280cd28e23c81fe6081aa967ea0664c3790f0493c516e2cd025a8ad653d57cad30846de003 0x14345d7b834ce65107aa4ada92945b1886603cf51890799ae5b072c8379238a38cd06c59badf6513cacf49ffc95; P0 0x107a5ce111b405492f112117567bcf8d2d0d1e8cd30c9ce4fd63bcbd8a8b1256a7ac133c1ad900893b0be5d9d14 0xab6fb4731feb0d44822578803eb2ee4815daf1208af21732312eba643817853e3708457092c4f60640711bb8cd; P1 0x944b11ebe945f679a3c840eba260aeeca4ccbe55c1af35bba9455b61869c184c85c5d3d1156f3d9de8fe824fb7 0x12746d6d542a92f3987003c4cccf43edd17ffc32fb66ec228f97e29321a4c5d4317a4657c59fd090c65f12f13c9; P1 0x1b7eb958ecded956300d89c6415d65a32aede7f7c49aa25c9c57941794bb8f56cae41273dd06cd2e8d856b53bdf 0x16d52271c6537d18634b001f10c91aceb2fc265994d5d661eb997f21b9a49f888b6f83f66e78dda3acbb779941; P1 0x2a1630692228dc365bb22d0b22741e4ffef2d7e58ea5d873ca5771e736e4aeaa2cea24550f24deec529b515d8 0x189677a8d599e37caad9c004432044ac15326192bb05b5e931aca910ee403f7d3fe31b729205d89658fa1ddc0da; P0 0x18672c5cb5cccc30cec430c1ac40da5a480a41f86f7aee4c589f2df58348103f87edf96247332cbbd1489a96114 0xa36b30ca44f74318f997e3aeb81e32ff7e19bc2fcedf8ca8f31a944e525df88ccc66046573ec7f7d16ef4087b8; P1 0x86bf3bc9a9cca5ec2b4a2162944d3562958673ebf6a4a90981b3989e18467368b26e70dfe76864f5bf4886b6f6 0x16f427d73e2b525c934b0e96949daf563431c24fda87df2ebec073146d66079540190aa6eacc9b19380b88108f6; P1 0x2a88da72f9f06929d8c92885f92bdba2830a29c2b360c8e8205c628762e8a266422ca851ff6975835afd88e54bb 0x1790707c14ad189125b52aef15b85a5c49a8851b4255aa269b274404aeae1b74ac062c04d8513fe339414d15243; P0 0x1669e16fcc657b1c3bd496bf09eced50fbdcae671b880caf45c334afedc8d9e76b8ab72675f06bfbebac67d9209 0x17c4980b9d1ea79a8b1f055a5e48b0abf23e01d832f465b7a48e45272b5ec1cf15c4a77aaae8a663c95a15c63d2; P0 0x16cd8676f124a81e5d5a3e54c6d00a253d237c78080c79f73a9bdbe62cbca5564ca79d5552a2abe9d4c1231abda 0xcad975e4ae62f74ca47c4561a255d01a2876a3450d82520c389efd19d7144d85c6bb32e2c5c44deb530b3cee9e; P1 0xcf9dfe15ac93c46049b935f12a4e470ad144fc4aba2ccebc45469e7fb545866245e4eaa12aa3568dbcbf43461d 0x6d1297665d8de7ab29b4a110ff36e132acf423a8671330cff1a447ca9b17a590c5d2017b70cec0fb1e90a79a65; P1 0x3c06ed50cdc58d6c5fd7b752e09ff003869fe902d836b2d1a06cb36246640874d6327519ff8703ebbae297b22d 0x1059b44e1bfa78733431674bb69957d6c8d6d376c3cccda5a64d8ee4dbb56ae56f78ab7c7928365bb433e362f1f; P1 0x1595013b67e73607cd7ba33d5525bd1c566d1cc9abeff0020f1867362fbba32aa3506dd06af682b1dd040fd1d7f 0x84a121c65e0a1107a64047a60622568cb7a19e1a99ba3fb2b08448f75eef8740ac96619102f27ba166701906c1; P0 0x2c60b469010a228c3b7219d473f2662ec30a0712f5ad64d89cd4a2e90f033a28c0f6dcca35422ae88cde7033bf 0x682bf65852d41c7bb9fbeee0afb3cdfd7ad41b35857f984db370972cc8466cad9a3ac9df7d57edf8ae782cff00; P0 0x1b6080bb604d1423d0fc1207779f926868708bb2a52d8395d0d8cf3f16be137b6d1e6d0e29c698815aaaf9fe3b 0xc1df747d1d900afd4b7c16748be9a988b4b53b72d0ee8569fd1931e6266f784e5298bcf168132b2d25dbe2c2fb; P1 0xbda60a7ee05774fb8b5485502731e637ab7b1abc5eb80dd725794d30d60f4ee32b425cc6150c25fb87c280e8c2 0x124893369697bcf5508f2e464e214c6f54e7d704b147a3c5bbc1e9a757612787c4542541a1ab0bc71ce96e5e174; P0 0xd7e54d65a46d1f4fffb3bf44a8504376f7d387f27b805c2d3d24b2990bab48d70cc40eba4e6eeee692d45e68d3 0xc73df431c233b2ceba91b5e6f607ccf2eb9556bd400b4b6afe9e47230da009080e2770572120ba43cd90192023; P1 0xc84c609173596374a03f947440fbea162135073caba9bdfea647e0defe41d88febc7ebb3dfbdf259c96b708655 0x13245d377af00da09412047fdc84986170cbd9c7c883fb5e8860056bd27bb1144495f384ab1a666afdd83048f27; P0 0xeca5cfe665fcb6222ed1d51c35bc610f0af82512b581dbaeb7dd1104a8171d9cbef0e0379aea1739c8a6974c22 0x100fdffd8a069751b5bf94168c3ccef2456dfa30b41b570faa0a33251e9cb2dfd236a6fea86e08530acc5bdb093; P1 0x14d3d1920f054ed62d13e2e28747f1749afcbc0ed142bf77aa2d50a77085fe5f203fcd97758ebb1a1a3bf27c4fd 0x15e8e13c05cbee0d9f094038ee3c648a773d4ff28ae60e659e1387867d3d90e3a41fa32e8101e93ff92fb3e270f; P0 0x136069be7c1818265716f4024d8e898d78a92ed6499085a786de00f9a0fb01ef3bb5bf947dd48eda3661f00cd11 0x44bce27ce32e0b765d154a3a305d1d30893dd0cdc58edce66de5bb5676ee58394df84175c5c3d71f1222830632; P0 0xbeb86d2f4b7eccb4831c94bcde1966b435a8e8bac74eabd289a39e1b9d278eebf192daad0b54f720d3d51527e 0xd896c6bd92f8f0bec55b96d23a3c79292b08c74b7189bfc841cb88c7055e642fdbd98fc471c1d0a0cb922ecfc2; P0 0x7658e664bc125eb1f690932a84bfd96c49a667577289b4863a9f1fc661042bfe36422634b90c0336629b86047d 0xe82a3dd41b4af90cd02ebd50402d863084d17e902baae9bc5fe9c373bc6a0e8676acab49156ab48892d0adacc1; P0 0x87fb3421c2461f284ffe9f4a0435f26dff7279d91bbae6c8967039895cf22d63d61fe4955fe8abbc929de71b53 0x10659ae5b1c655351000878371f73ed688f4a6e632b462daef0772ec463fa3cca5cd0c3520134e659eabcac3f94; P0 0xada3bbe59a83e72f6858065eb10863695d2bb7e89e3ed50d6d5c8d200b90b4662f8c7061edc61e0f9f0a6b0ada 0x8c7819900081fa430030cfdebad7853366074512a71b85e46138c5bccc84b5d9273c0835a397e35efd8a1a22ea; P1 0x638eeba4d7908afbb70b05f696420c63e019561b40231a3411b9665a1de30ef46186dbca31eb692d2a3a7be613 0x78709dba8924294fb74418f567cf2c689398a2a0284fd32d0c3517f033cbadddd2c85b4b189b148869ed214c9b; P1 0x4930d6ecbb468abca6c3c142cd71e1597e4c909957e26f968441a6dc307aeaba5599767971f78c315677d784e8 0xfed78a971e7ccbbd6cd7276d43ec7e5e30abe53c10a4377d7d9be8341aa8bbc97470aa54e839e5243670195a9a; P1 0x147af8690d29863f2fca75a5960fcb8412f3a6b0707edb4a1fea475e225efb8a4d43060373eea1fa5010f59d4a8 0x326371c675ee035b4a0cd342f204fb537cee05393c73b30c1a1fe266b88c939f8490fb3eef238104b398397f0; P1 0xccf93428f026b5dee28b12d9f7618df9081f6bff50b09f12389957ae4673aa5c8a10604d681e5708c13a198 0x140bc60cf39990192eb83290514754288fe102bc35a15c6f681e2e806715c99b583f3efc6dce7b1716db9673998; P1 0x2070d3857a45701b9d1b21bfb602a7bd0ba33be066eb6264b2c88557a603eeb87a6c2a0cc284e067ab7cb553881 0x109653eadd2f4571f2b505ca9bd714a23b1d337d44d71975b52dab739a5791f5d118e1d5ad056018608cb05af41; P0 0xb1b1a64242a7ec57b7bbd6c42814c57b700e732f37fc39cab5fb6a6f81065e3277f834e63f3e2eee076918efde 0xa6b7915364b88907577d7e6ccca1af215b2c291249d94413353c1bc63369885ccb9d21d97cdd0d393634211df; P0 0x461edfe7102f1d8bd13995bbfe7ca924853f394e66b01e530e55b457819a80794326a0db37af6639b6b98f89 0xc598ed0531704be53b7d0ea1765f6925148e678b52b664e2cca3dc560a4b75635d2d91797d6143b2de74d9240a; P1 0xc50159be0a456cf9af9072fcc1da4d60fe6e4e2d63ae8fb500c4fd05df5bbc2c9ce9368054e6c390a9bec982d7 0xbcbaef21fe7c5a282eeae41f79112ce956b58774fa629de309847a8e12ff008a5e05128bccb1510a9a314475f; P1 0xb3b887ff7a41b582ef3c97e8cffe3d2adc1cdcfc6214703829676300bfaa5238882fa86eccef2e1c755cbca2 0xf353e0de0d8d242e28cbf58b188b19cccb23b6aa1aefe52a756c9340748de1f8c8ae96801ae78d5746d69753a4; P0 0x955f2b3bef8aeb3f9c0f3c9e65e5ca3f816be51797f0fbaad94869ae3a2cf663169c03db9720c15d3ed43346c9 0x17e8a374a9fe8e59b130b929deecfb808a07a4057dad4d790c1636030f4d8bd41f7da3fc04f53807a15c94f8c19; P0 0x1712e45bd4e4cd047f22d2f4d1299443b88ff8dff2b7095e848e68e9260c3601fa3a131d5817eafe826c917f7f1 0x15ed618725fadeec39c3a0cb6172cbd00fab818db5c20bfe689d7d5fc3d62e9866de2c026cd05d60775ea7270a2; P0 0x136860b4a1632f733a5d038c662e201a9eea6528309402913ab51f6ae2d85e3dfbeef638bdc740ce3a1231020c4 0xf2b45e764be9cab63de2201b586f2bc549df4b82feaab32ea99fefd0499ecb446d6555956523567144ddbd0048; P0 0x949b9551e1e004e585ce32f132eff38db6ed00ef3c79ee7d85f6bd1ee3fa4c136284e0e03fa7757dcf5e1752ce 0xde7a1da58c521e2c0721d532c2f1eadd04c4afd2411cef18cd3972106cf0d85b2ccdf9b3e59ea26d1cb9b7368e; P0 0x7cde8dc21d54444e8f5e63fef9ea2401ef114a83e25cdf9d51eb30d4e97b1e2f20422666ff97b9073432701e10 0x123fd9ce754f3dec3358b97b7298652a5228b573a16b48c171b53af4e80b71b68123e55c4ec7aa6ebd50b4bf8d4; P1 0x1ae2eeacaf7bafc969a67f31fb3d829e2a5c77d8f64a8092c190ed760a3bac47d1a08abe16a69cfe297d247cc0c 0x11a6ac4871fd9983744fb9777b66f348c62594b5a16ca1a24dacfcefa63867853e95a4d0542df56e12db450c62c; P0 0xc937e0aab9be3a8f365c3cd1b4d2053921c58fa5be1f82e9ca6a00d0b306233702d0bfe1169ee97830638e79a1 0xe8ec7a1b35980ccb513afe6c5136e1e617887b311e7f1e5684399042dee7b29cb574361547fc252e3e5e977b71; P0 0x88df1b47fc03e2ed6a2fcf578a995443ce3a4968c1d421dd5b8fbece4973cbdeb4ead76e1aecf8ff05569e9aa9 0x12a724615dfac93c3db022421092b22bcb94f8332f8a647602c182fc889efd9b75bcb7691e2b45977ff45579eca; P0 0xe0b533e3023c2dfcd5f6da87c2c854870d9a7b08885aeafed9b0557ddb5655a723e711e9bb4c889cc11571ee75 0x1031773027f835a7b845303d7d74d8518ebeb10603c1a793c63271996e106bb2a8e425890d0fdf4aac03924ad19; P1 0x152b499cccb2c2b08ce2255bc6308fd80d0dee96b7998a5a79acbee75d8a97983ec1594cf418a7909c36b3b583c 0x7f2007e3273129ffdb61a91d23c956e1baaa068357d649740d1845418cd64575db1187f8617c427cb1fd9a781e; P1 0x518a9aef6f45d8e1ebc867adacc4aca69d4553a0fbad7b951512a827651d8c4a11739ec6f22648eec56e94213e 0x183088f153ae52a6a0496cd9349b9e19715042cfd10bbccb3e2d8e3b81fa3a84aaa0e9fd4ee08d1f1bb648b3c6; P0 0x179e7a7622c15aa04cb69a481f3d8a571de63cccfff17419e7f68e0701de826771b017b30f0a9147968f062be 0xe0df1e9b286c4386629c928fcfaaa7369d092c001463b7bc7638c2e1dbc9059666fa828522673f8a088fce8b62; P0 0x7f926057ed59db9829db9f3f6b0370f4c617be66915062a464e84a93e065f8a1bb8e0a8dfa51b072d640fd4357 0x9c20a2cd0ba2f8347ebd021290159b051ab653582d06984b3d7e79416c98cb3bac6cdd719a3140e4edeae7189b; P0 0x3d7ee1d399669cc927ea916572251d4d0f0ba5901dc93182a8506b9b1bf71de29838a171f92dbb9aa3c8ee01f1 0xfa23e0e7024fb42d73754aef878879876ee74b7b013adfae96e874fd01868e708f47914a599382065d945d0e0a; P1 0x13bb4a5fbcea174206c896dff01521f843d215719add32790e6350081cd3a012f369d3695e5a5802043258752ca 0x1f09d2d7657ae9578cec0f4e316e1f18d3c5870d9683588667de13883fdd515a323b0c4ac60ca462ce9bcc4a12; P0 0x26e30c999f2b2406da6756a3ccfa2042132600e7e47d6f27dae2ae55431f14e9713e0371ca73b3635c8896d32 0x14267d180c78808249f5faee3b03cf3086ab6eaa2e059d36b12b1f85eff4677e7450a35d88d44a8cd526f0806f6; P0 0x1063c24b9c5a7bf841a000196f80832b89b3df7d71f30bc45de6e0beb292d0e4660bb6946df0ac55fe18e708369 0x576d290d987015a8173b21d5b30ca6d2cc5a35c4046f820a06f4d4333ab1d66d9619c5370d9bb0bd81a9a1e40d; P0 0x134867b1ad4cdf0636178be2b59a5efe0766bbb66bdc2e7f50ab6d440e7e4026c18725a111084c6d58efb75a2f 0x35438e5115643bfa23c889f861fefbafe55ac07ad8b80968827da7ce7939f59cbeedc916af24f00d447fd82c98; P1 0xe508e2a5fe49cbf88ce0c73d8eb3a992ee234423b44d77e6bdee17998ee6bf713e44f902d462cc1eec5577004 0x5f9ff94899071ecf402f806f761e6abbbb353cc81598b0783c699758fbdc56efa0a6d625c7c0504ceb55b9ad84; P0 0x1711a5a3be9bea5b5c0d27733687a90077b93985b37a1a132712e3dac178b9fc1bdf6b05912a11e78c15d5d070 0xe24675375ef99e5c331c50b9e7fb0a8e8414a047326c406999a62d0138bacfcb55fe477b03621bf629687a7880; P1 0x10256b8cdc168019e0582606f77c0438dada93741b5f29e281f3d6985a37b808053f85d8d52a594117c57c82802 0x14755acc446bcfb6819e9bf70915a2d5e2467991013389d4cb44769d2cf398d54034bd55cb34947a7c859212c82; P1 0x21ca1180d45160ae50e48f104f7438e3ba8fa75e03fba737f626d0811dbbc45b153ead8bdfa98f78deddbd3f705 0x151d5631795d412cd5da4639f11957d2e883c02fc913e01b5390a7cd57b7de733b03ec09fcb964910134ce5e64d; P1 0x23fdd93bec39a303c854bc6954b390039d6ab52d832ded92a9b5bd0856de80caedf7c83c0668fb0cc2259e82311 0xf3c9cf01f1246712f7329b890363ebd7badb9fdd4be0f46eaa8e0682be944457ed5824cccfc637f96b54132fa3; P0 0x95f01803cdf8bfd58b52cbc8389d839d8c551aedf358ed1444afe6df3bc88df0889fab9fb9bcd76f53d7c80654 0x5a6490ce132dea27a309610adfb93f9fb841d79516cbd4acdcc38735240787ba54d8ea9db5975c9dae35c6851d; P1 0x293a280c42f5b81100f9ea18faf153a02c7787c320e386e3dfead2044fb8084bf2bde2212ff3795c9e5a073d2e 0x10bb88fd5219a7979e0072a8029771aa34ede54163c92b5a610bb2ed36af6949e17dc3e728e4df0aad88284af40; P1 0x169a4a5c862b8f02023305eeb57a7e6ff1166e1dbf1a93da3aaeb5e36c52947a4ed1f71e04587ea08745cf4ad76 0xd90a3bf6faf836d52b07f7047d4fc8537862975f2e5948c8e3dd4f9932ba145c30e8ac142947762ee25b8396f6; P0 0x76d734fddf745e36d5b896e5820043a117bb7be5be520ec30e39bc2122eb531626c28f7b0ee4cd817c99231967 0x124f9ea02a293173f4eab4099bd83bd1ba04be46478440095185e7010f17ba73dbe0b7704dfed9774ebc750358b; P0 0xd88bcba9449b915f956fdb950f5001fc65cf20c1027d13a7c242ca8effcd8711681876c776420c2be063d3aa22 0x15e132020a48ddf60634e141e6dc0d45cf9d342b888e9202938ab9e12ee07b3e80baea3725adda0b3f95d1bd01b; P0 0x1352d48dc312f03bc68ab326d79737864a17f39a24288e9d27ec1d673574f79edd6aab394163b0d659d82fb9fb9 0x15806a0fe0d2ea5b68eac181da55db439a1b59e5049b38e0998bf1331128c9589b991435f38526f135b79be22d2; P0 0x12a95bb10b2f56234c7c00336aecebeca5dcb8adf6acd270ff2214362c711e65016c9216ac76a27220a657202b1 0xe40ab03a00c59d66021216d2f18b38f41e2b8427873ea991209aa3806fbce235fd60dbebf9395b03eda1afc535; P1 0x10663609001ab0e59df1a8e6f4b0f96cc60f582656d1fe2b776f3654576e69c4628532ee47b09ce4d456c45ce2c 0x15dbf3e2e58733dbcdccb3b72048159a96fa3ac2d202d44dc32010d17f29a9e3e8bc5835ea8b4b89f6225d5eb1e; P1 0x26932604b874c2ee120d0cf070ac726272033b531eec048cefbcfa0baa9c08189911e5f280248ea74eb92b8d686 0xfce4f0bf3b28a51ddf6473bbf18ee026e7a823d81fe8713209df8f88015470bd87eaef0df2c8f3c067541f330e; P0 0xa15917a4a3482182b0514b25945874c3f316db8841ffc1bba4f14e81fb95bcbe8891ca65cca7206c4e8b20d738 0x13a90b585338178844d9babc4ad493cc0cc9a12e98cc55e5e262aca2928e633528b2660a7578bfb35e096eda9fc; P1 0x1f345990e775a40781e92be27d51253324f4997925e2d4678f807541bea9946e6f8a7ca8a0c09096ffa55021157 0x143fc21157afcb5082d3604e381340267dbc22abdaba787a2c04a5be3243ff8af5ecc1dc44844f637e9408d3537; P0 0x108cf76802d85a4ede767cd48003260d7090b1a3aff9a42a8cc36a4c155e2956abcedfc352627a66dcb4cea098b 0x499fdbce7cdc4cd645f6f6ac49ed051ce95cbe7cf9a963d4f5ce56fc550d40321ba3a8114c55e225859b95141c; P1 0x1b59a32db4f333eea35713b9bcd71e2eb12f9cfe0f9744d19cc895e7483caac2639e368096086391fabf9c6aa2 0xfad426cb27a6aed47b2160b52e3eb2b498d53a361ab1421e89a4b53af0e7cd620ebbb6277ba9f66662987b9d42; P1 0x13d7236e605c560b115294c90c865c7d90418e59a24697658643618e3012bad8f8c4ee89083cb5808f757f92f4f 0x123c4194ed3610850b68bebc2f8374c3ca75dbda1818bab3fcd267c2bdb4b786ea88684af2dff5174eebec6b17; P0 0xd6c2c1cce4fdce1bcf415229c077576b0f2be0ed59597bec1bb6984d354ef0c394c384c762d813523d6440cf 0x41bd20ea3d489ca42349b06f08a784014da9d92b2a7dd4fddc489ea65e7cd7cfd024259989354e56e3fe470ea0; P1 0x15ce1da6231df490c0b0b31aa0fdad9f3fd66f17797116f8e6f50eed397cae35481ac408df9938d9f3ea9e7203 0x5ec6c8446b9aafa49ee3411d034d65b29ba4c9249c34b64273e3021287bfa74346aea2c0c6d7e8dc4182080c3; P0 0x16a951d26df2cf854fe948fe1777e6af8ff380de895c510fb1c4b637539abfef831bbae662b6dd77edd9c6ff 0x83bfabc2d2cb9618b4fc40f1cbd5375d3dfb87f89aaa0f156f9f89044cb3177f4258b959d95ccea405a055d948; P0 0x2bca53cd3b336f839a1f2f749fe01a1c5b04874a59079914818137a855e31cd5e08225d2e6890c0bd8ca3027b0 0x960e363d1adda0cdf79afba876791c0ffd8abca092742efa9b2251efb108918cecb51f1eab324efbe62c8097f0; P1 0x719c5af1c804c98951e6358932054043f600cda82c4b257e93374dfdb4e34eecb7e71f2cf60c0690f423b9e302 0x18d239141808d34b17f8c50ae86a2d5ec8c5bd87741291fd9a3cd004fcd63f76bb94301b9d03e4a3103fa12982; P0 0x18de5974847b303e696b9aaecfd4f5166f0278e1d5506cb45e848596c31bd2cd485c3768e99213da11b1dbc8c 0x488853d4bd436d3d340da22e8265c3468e6b6526edf6db3eb12a953e46c4145a114020c7942e6a32731a3bdd90; P0 0xd45bf7be73dd34aa90bc583d348525f37fca15072c89f08e1a6eb1889ffa63e7206b2f3ed7776ef12a38f9764 0x171ee0c756d3ee248e4462ffe996c785e60d9777f3a0ead2f051a59a0ca7830e47af110c279f115593be75b2964; P0 0x1593e1ac0bb683cc4d49cf2fd1d726c583211072bb60590c4d5d546ca5ccc56ea04146f0fc11a802ecbaa522245 0x7fc3e5c9b129555e03a02d503afe5f9a31728d27538db1ce59f578c1d977fd9356954f43be6a7a8227c21cac95; P1 0x525d59fb51cf80497dfe605f0982cc415ac1aee092b2ead33b523519c648e56354daeddb56dd01519d91dbfe6b 0x167ded59675001138b9851bd5a66c5dfe9be700da83899efc3d64492b0db41b1868927576584dd3d96760814c9d; P1 0x28d717cdc6b18901c7a9252e21c2f47af43dcc24b3e9d0f05d6de0f5af89d2849476c4daf8a6ee9b349f5b1aa59 0xef7035b89c9ee144828c8a405c6a2369bbd59200b5977cf4992f5e47762403dd42ab4e7f51a35088fd9885632b; P0 0x90a283bfa8efc54c23fc13e2c9567c469ec9fe7ce41e63d837d17c411d9f5bfcfb4ef02e96b171343983fb8b3b 0xf36ac16aafccf8ec92cc22d33fd961a0967a96beaa44fdd2f63c0641b3104b994ded465156f67fb68991b8d934; P0 0x957b42e26a3df97f4841af96762f101306310d4590edce81abf8365e8924d523f89200a2e4a5562550afda8e42 0xda5b9fbdb2747be1e46465486d57bae6d0751d272484390b1c36c06ac8e59ecf86d816102deb983e8d65825552; P1 0xf0939c7549391ec7dce0dcd30e5746e917c5174fa3b1891b0df75d3a1c2b8fdbd634dcd804fd4574e83f5986a0 0x5b492b892df57a1c3d95e4221364292e8106d22bf5b29182e8fe1ac43222754cab3aea70b972ad2e4aa03f8b28; P0 0x1505db7000b92414ae6b3900505eb02c675f0f4cf61818a0766f8767d26f27d6581cd39b3da758ca0bc8138f2b 0x17c1d405f191cefaf06700e868a7241e72a5dd654d46e05868c59c32f5749cd51c977f2850debfb27eef4a1e62b; P0 0x16c8383a7a2d010acf164397a4394470adcf3cac73c57c144508e1b960d45bc3f553af0abd745847826cd95b813 0x79b9d3f8cf57563d31d15049c1c510f6bbe6097af3a0467fa220d7e572b579e5c67fe029b2b7c0e322ad44ee0c; P1 0x4ac318c6f75849d8f3355f1a2a05b94d82ae7b7b283347a0a619cbb4fc57de49994655e03708348dcb94c5d687 0x15cce42466a187a2037ec227d1d0a549c488411a7b45cd3a92a7e018b096899dea08947896ae70b74e55eefe767; P0 0x132f07f456175a897d76c79ebdb9e93780e950b0400b5f70772e97d6b900a0089ac2597b0b5640a44e82ed75b18 0x1290a3c2cab54649de36a8848b69009d63bc7c1b72e363370ba95af1f52fa4227b213301b3e2fabe7e6494f5c89; P1 0x1bd30a19b786a2caa085fc6c0362263037daea9d1207de1b2949b8b9bd493a4e144c0b9f0e9a0989fa898e9a5c5 0x53ed36e3ab08b855d9e632c1ad9aa2c05a912d131c63c61bafd6f57c895998f0e3a21a6d92d50eac80f33463a7; P1 0x238a307800d5042006be3a44540a1e186a77e32edae5d8062d7ef8bfcdcf4fe1cf523a9d14870665dbd507c3c6 0x2511a44e06075c0ae5e2602f1234048190d8030f1c3e4a5fe29bb89b484e2c3acda04bf27bfee371b081a0ef28; P1 0x6eee7cc981815bc58816369df8015492055cb3361092136cd2dc38e16eab89d48ffe70496fcc44b147b43b349 0x10278169524e4f541b9c75f378807904d5c295261eefb4b0302625cb6a4258c986c8e7238300bb2a2c793ffc409; P1 0x15114712ab670d0bd89c95dd1322ee6c5c00cd37598679622b084f528a854369c520571c16f8466d61e5a8faad8 0xca5c72130a3c450a7abfeeea5118f02132c8fd1d9030e5b5e9d042a644e0e21d6fb7a962a059108e058a85a17a; P0 0x674f3271f7dd0bd868fc50a92f1ab8ec1193f8ebee9f048e5570e363b8f1d3d456030cf59d73be1a18df28b123 0x80aaf2ca2963c3cfe5993898d4682d2bdb75c2619c60e151e5159b75f871ea229b3824f05d337a08e0c0d3ae07; P1 0x53884ce402904e9300939e7d38e2de626bca7cf12fe0347201de309ccdff75534014ed8f881cbecac57ba49edc 0x6760bcd4954fc7bbce0fd5ae246aed7e40a0e28365082627c0b67e0ae7794c707ba353b9f98e254ee53274163e; P1 0x35ec2f5c9eadb92e87bb45094171540236c80e19922dc4b9ff34a02c6d0d7af04fe757c70537aedc5293d34a7f 0x1851be8944ca8ff47e17b3182787ca73c2c98c3495fef8ee1430e58560bb82b8a68478df2326357d60b93d11647; P1 0x2fbf024285ac838c00590056cddf37936412cc4254870eebcc0ba2948b2b0e7f373655ded9eea5c609079abad10 0x375590475873c5fdd2da511b12ae998c537a2b2cd6b920529fa3564d0db5572416a9892ca5cf2cc8633661a072; P0 0x7b97c494c82a23831a7c34dbb04dce4f4962e2176ce291cc9987e6240cae6ea0168fa61cee7312bd800a8991f 0xfd789bae2707fb0d6aea428679efb9decb78ccc03ed917392031d7933d1d60839ed49b2fce67b61dc815491a3; P0 0xa215bba1fbceca2c501658308c78ce5681a2b42156e50e26c5917f35c49c0b0b681f30d65c9e1e3ce34c5173 0x6cd98cca60cdd5fa8f529ff3148411b4d1a292f46f414a3293f419c8256edbcd616b9c3289819c160a809761fc; P1 0x3bc834ec9db5971a58b08cb109523cf2be8ab9070ab2976deb48fce5b21c4186994cc98a62c635fafd6c599110 0x890ae75bb300858127c10320ac085977a564b58561edb777f775627f8d947388592b6eb5aec8ecc44d8725d530; P1 0x5ec2a6b3d58c4958ff7956aa23895aeebc7e1d00d0783288f18ce72fee94fc78ed0cd5b69cf6263b85455c3dc6 0xc6987b276a2c30fbefc52ea0ea8c1a8cff4524e54a70b767c60c4a5d2208b4569fdd17382a1e8b3f052e148d46; P0 0x63801bbb570e3420a92631141dd02b4193773e6dba47851dd36b8ad45a3181f86c5a7ea2655f1400fbbf62c486 0x5eb8ef667d84dfadd0def9fcc8b89521c43b7ab0bea20f93dbb4d57163a225aae0da3ac26e520df007dcea12a; P1 0x2d45663fc3fcf64908898e176d590bbd6168d8b6499283855e0e328353c35f3d22a9c69bd92638f1f3c055e3 0x7de680270cf92fadae59510a73c30a49c83df51c85ea09994acbc667989bb7e6e2226fb711198797e8408b0a6b; P0 0x27fd2a2c66b0bd5c8ea6a99ac8c2da02d685c7bb63ccda210bd1d8266b7dd3482b283e9700949248906b8ee7bf 0x10a91f61674c911dcf5036d5aed5b6dd74a17df83379a1176bec2ada3a05bf6e059b16c193f24e30a53c21f9e38; P0 0xb34539f2fc50138c395027f575eded928603dd6cf5271b2b5acc5aa9fc98d1a49db9839ae449d348564b4df529 0x45278651ef071c35ea7313d1572f7364081ed0a9be648aa365eb63806d9a31b23365c131d298f63d3c3137fda9; P0 0xc109fcca4c12ac4080b050314bee5bb21b4788a6b12c394433946f88f7922e765da4324cea14f5efed4b6e8c0 0xf14c50da60cdffb2ef5b68e93d83c34b059ec638da57ac6c82bef9b75c6a1228d6081102c6c2ffd97803a81251; P0 0x92e3f0c4ae4290cdf19d0b9f60baea5ac873251b2f353b4eb459657307df9761424f88d088171c5d9d93bae034 0x29c45d196e1ae8e6760d888ff5d1985650a3e81e0d2a63db0a828d0b53c261ca7732e1bd25aed061ee664bd2d5; P0 0x466a91093f5af4b21645d558c39a55658e0f7e7f585c46c929da092369b736093880bb42a4df11fbdccde432c 0xd2cad2e657885d41c74d3a4beabefcc344b818262b81fbe73c564c1eb905b849b1a3130f753097cbfb1f648b65; P1 0xe031cad3a67fd074a94eb7280c4df46e22dc48aceabd38030bfa6342e1e9beab02b14c6c843e399a872affa448 0x179e74e7c9d1772b15a1285e05029ec73bebd9ded103ef15bad4300bf5f944e939700066dfd5f22410b70d8f1fa; P1 0x2d09278a66f07e0f569fa18b8c06931c8d1c8a40ede14068ce2fc5b59746c94220563efc6033fe37291aec698c8 0x13af9526e12ec2bbd8408e864a23a74ec1452e7a93b8dff3cb26c7bea611db2707c4ad3e7cd71d3cc666479ab10; P1 0x1f491e48d18bce32efd3dd0a71abaf10e7c85f7b4482e02bb53cb05a4b7f960bb46d9d781e4fb78ec2dc82e1636 0xe13f465c0110f36b6f3fd4f170e68861dcd3aa29f5641cd7442dad42ab67465dd96cc0cf843e7117d2fa4451b6; P1 0xffff22585c4afe7ce7e0a3192d66994def8537a7e9bda39aff2bfe6d9518036c51e7a05e29ad62a3fa690a788b 0x72983bc0b2599f2f3d3a71dee708e679dfdc982773f35d7fa9a8bc1d7a9aa900d2ed1f9500701a9a603152cc13; P1 0x4242484ece055b9ca7096af6371623eaccf064e5edf360fbd41d2f9cc2ef0814333e3665aa94e94e5e802a27b1 0x10cc11a3da0fdea4f1e81276dd166ad14654be958eabec434960fdfb1889d0bcc3aa779a3f49076bd96b83b48c3; P0 0xb6385c50600a249ff8f8fc670b408ec92e5ec36970f44f460189c70f0987b610ee5afd2a8575f142ba41507e62 0x25e81ddaaa4c09d1c48dc4237d3cb36fedee71e4d3ceba816439f5c85d2e6078c08ec3d3057580e8f5d8c39f6b; P1 0x7400a8898bad4747a66952d90c6ab29e06659cfae29547c23c4d3d5557b92e711deb11693a1018f42f54d7ddb 0x901ad4d5862ce5a64df14febc44b181c08d06b4c45856abc78def56348846177a2eec7d99097c077fd51ec980d; P0 0x3463a87dcd6af4d9612879a0d8994341f9b44701e99179ccbd11100224851a635b4dabcb9bfe6e76d292eaa466 0x18ce7bff55802b01a90dfbdbfb9da6100d974ff2ecc17df04e71d69eddd80b68b6909b930e1cc0c94c45877a8f; P0 0x18d6dc34426259d7b8a252ad7c20fefe73135140c3e536ea6cf39cd1b5cc3c69d9d82c5120881d1b1991640f7 0x1ca0c1a14eb98896bb813bef85eebca0b5919bcafff6875c3cb4e9e6882e9df77171cf718bce2197623be5c898; P0 0x2114e217d748b8b65b61ffab11d989cce6c1dc40be8923c3d4baf477c1d81c654dbf94270188a41fd3da634ca 0xfa1b638b872c01f9c55959d4a047ed8e6ea74fddd117195e5703713e54e29f332289c880096b29988f64f3558a; P1 0x13b9f384b07e4b0bcdb5eb3962f8c279caa76c6f959582cf12f7c879b774b2aee24210f6329e4df52220e9f162c 0x596d37cf380ab1dcff7487acfa3cda236c30beee9d8b7a02092fbfe6c136e150e63fc13a39c223da1c3b71d5f4; P1 0x2859bcbafc0e1ace0e42f01c2e1b734a1b7ae16114f62376337ec484c088ecd38e0fab53958db403a177cab48b 0xfaeebab69bfa9f057b4576cecdfd77d38a469698f5fb6f6d67abdd7543111078fec051ac1c4dca8dbf46808e6b; P0 0x9edac0331a8922c686107e65567e055fa2546b47683d251edd752103397d988c201957728e84cb5d6e41294e5c 0x6777e0db6b904f37e886ca3fb3bfc6d5f054a751c1d4b6e713a6c7cb194b3d34946f9dad17a75f5d080d6f7e15; P0 0x1b022b0b432ec6cb4c2b378bd63e14b7da1a898711da82ff193c3877c8104735f71c30e6fb3bbde81f5358e738 0x1646c4c6af423022c634dde315061b03107986e5a0ccb66722c239087d7ed0f6b646648c9d279cc52e07005d2f1; P0 0x1407def1e304ed2667735a6579e4102211c1fe4f300db4c6294167b7c5c2d8d4cc2a9be7a0bf8015f7266bb1ae3 0x7b1d69395a4562bc9eae664b0d548ec088dc371ed17b2f5971513d59663d1f8e1a78a9e20865424b7f751fa084; P1 0x4c7a602accb90652362354786730a5cf19fbff8b07a4a972b4d7f9df27d15492a74a82171198b2e027ca7b58a7 0x62cb11974eb467032b6e6e8c3fbbd6004c2881927ccbe28b4138febfa2636f583c130dc00b51eb2ca416381887; P0 0x189f794c42bdb4bed1683f4d8e81d8f3e44b74c6b4df9a79f2e67d67f1b5fcb55e9a2774e104d51d746cf75d2a 0x13b629829433022271427ee861afc0708b95bb0ad64bc1da0e69678ea7d3874309b36770ed9c35bfd113be312db; P1 0x1f5e0b7c73f9f3fe95867baccdc5aee0baaac7a5cf40610227423f80844eb482beb8453dbe6079ca390c6d425b8 0x16e896232cc8c4e2a0a22934e6de4a1988e25ce226fa48e08a28141380055ff2c2721eaba7757e6b94faf2a126a; P0 0x152f026bc8adee45fe46d12c8695b2c6c648b818094490748f588c50340a3d7d455cc3f2e6fd13bc49ca4477971 0xc0712e909c4e75963e7e3ae0d29a12ae21eb60f5f0d91c9064cef32f4f81c2f861968e38d484d7e86ced670b95; P0 0x5d6e0cd46aa1382e867a1ea3072bcb73a3b1b635f598fc0e75ec1388c8b508594edf879b9457c9831c0cc0bada 0x9e2903fea708f91e7a397d56b2e1bceb2a077c9a272e2cee59b80eb3373b45a2217a8465a3da72e54e5efdca13; P0 0x3f1b7c6862a7bda09abe0bf367f338c703de9328af3088fea4f3aaea22f551f5171741881294afeeab8d688040 0x12568395cc17325c2fdd8a6b401b09ced55c1be8a982577b99b3fda609f1561c4cc16cfe34663c21c3947690da9; P1 0x1b25df65f4350f8911ffa5931875985a601721b3a4fd879d75d0a4d37bd04d4a2bd9e9ce586e2d845f8b0ddfe62 0x87e189c96274ae691e8c0e2ab749c640cc79ab492c512a7d5ae1c1102757003bff4dc62c5c8313b1e1eda0e04; P0 0x2e949427b34225ea3a0ad923741fd6200bbf55607ca4b3e519c26eed9c0b661175a60ebab139540e235c0f8d 0x6da18561531e3a1bee8cb8dc1b79c7f0763ba544dc1fa4cf25ec2e1788dbabd088ca5320d1f0540c2afb91bcdd; P1 0x3ca4a645da68f621f709a3b8c6586fd6c4d36670c124fbfcf3f8bc50516003856bdac6adf918d48920da15d0a9 0xb04d08c633362e72319db99fb00d9b026b65a29b2cf464b9746c4e34de22655b0e5b003ebcfa027ae13d133a7b; P1 0x9cd411612dbe1e29dbc1cab427b14e41b1d2419ee6fd3d3044e67837ba50de53f78bedce62a3cc0e596c36c26b 0xfe38f05a833d740b15f5820b8735bc06237f77a2e3a66eed31a57e803afc54ace578d7583cd41d5350356fe15d; P0 0xa30c12d135ac5b04ae89d837628113850bafc38f643554f020eb17f2b16856f5bae0773fa6858e6ca32d7b0db9 0x33a1521f26d475ca5788186946032170dced0ba631115966a76fcd0f143027c780cf49b1be381e69ffaaa1c9c2; P0 0x6b999cce74b735722d1313c5af673e9cb8ec7514349b9e1ac23c1ea1f9b00d7981d9fe4ee2601586f7499a61e 0x7acb9cc925690e337c173f6025cbf0cd1de78dbaf855bb0b254d3f6cb32cfa2700ef3cd26fd9d35bab902f20a2; P1 0x4c14e1d894f50054e02ecf96495fce9cb5675420b5b7ca0fa34a182e17c9b95a3dda2988b5a4e3770c72cbe627 0x10f9e4e8ac775d4572ed94e6046785cd6779a628388a5fe269f497db55405234f95ee49d549e923594ebbb64aef; P1 0x1743fd18ea8888ed28c2ddef70ee5e86dbde4f9c68f9639137b16392538d24205d12b40e98bf5b12ee2403e916f 0x2c584f048c4294ddb8a2228c70c9927f97461b8713088f6a59ed4655784eb7ac4caa16068f2a8c96784b30a171; P1 0x9ec0f59310ac14317a5cc1651f8a5c3de0908faa2b1899e004b4d6eac05e504550f6824bf8cba51b695c673f7 0x1572c0feb4f5576f47283b29d63fcfc06ab07dd805273cd142437a7aec2a5b65441744b67ac4f452f832fa8c779; P0 0x1291aceac829685045a7118dd6497d1e40f1c03299650826f797b88239ba13570fe51b7f4b61b320397367f1434 0xf0b66aa9c86f17dda9d70c601d44da4cde0929fa07d2df44cf8c80ce7fc7f0ca42223d00b5b50e6feca222e065; P0 0x922da8d355d097b4d92bc27adc67db4d96894518c62d784011994f1260324d6f444d2fe25596d4b60f5cd56d8d 0xeb2beea7838ad535143efbd919300e496d921d0270069e574160303634a7ceb12300a80de280744591538f12a6; P1 0x1170d583342d442ca6fc966cc610b8e28c01c0ab4611fae222f90118bf8afaeb5197a46c03dc9265af6955834c3 0x109f047230ea5873c3b8e7a1a17224efa3c71fe2ccb3cea3ba50a34d446436e603b34b28ac00d43da3bb33432cb; P0 0xb26c047481912eac67acd1dc7f5b72da7779a37db7a9b12e678403dda0199cfd1f595806353972168a3748e195 0x171c3cf96dc8565f85e66f90bf092f6914d2cb8b909fd54ea80835718d993f34c8e95c053aab4811d72f4089dce; P0 0x158ef48b58de42a97228dd80be692ded2889b8a3c249fda9437e4a8fd65da00048dba2b9e2cd90ada524d7ca38d 0x1247fe87b89cbd6dcbb5f1b7be0d5698e697e51c5c0fb27ddd1ff2382c4400f724422cb0129870519e33e913291; P1 0x1afaf2c7e9ce4ae47ae6454fe6ec1bd801ee66bafd03d62146e9ababdbc154b66c3d669584ce1dd8aeaeb738d23 0x5448f809da448cfbd627ec43a7500ca0727e276801bf59ecd858df0e646eb4bccc24835c437da11826966cc825; P1 0x23d810827ca1f7406fc885338b57ca03a89030fed5e010c42b4d063a45a447c8482875aafc20a282c60f2cd9a7 0x1188c7a6dbe9ab30f9e51a674437d479c869915f607b3fde573ec4ac700995f94c39ac25bda8396feef67b4fc19; P1 0x18d212a5480e6f961cd9533d23e47317f3dbaec6885cab0eff7080a9afd5ed77d90a84315446d8cc0f2fdcaac55 0x122c9e06bf49b8962bc4d93800f045792f49b6ad9fe2ff8a4f46d66c6d451220124c7fea182b3346dde50c92077; P0 0xd55302ce3d6e4bdd6cf791b34af5bd68b5476a5d408090cae774ecf98d8726fd8ba10203300315623137138295 0x14006d01f8804d12240ce143075b986a419ac4e843402ec3d697b633c23e1e08f49a1c07ad35a5bf13e1b6d8926; P1 0x204c235e4755651c3ab376f683f309223af32a638ec20c135dfa4fd6156a4192cf1994b779902d5e06e499b6e0f 0x2dcaa609ac966ba0bba0481c32c8f1ceaae2064994438cfd609b68a4f45ef87462e12d437779104aa5952b3317; P1 0xa947d2ffd55edc3570cb912aad7dbc343505a9747fbdb51412c3b3021f9499c93981d03b125cc938eea13f2fc 0x129ed62d011a4479d2b50d3b858d3a7bbb1c17fecd2e3b919814a294ff23993ae1c2dec8eb68b551188fd72021e; P1 0x1bfda88fea7f60fde177bb84d3ffa5e8397b0e824814c334cf816acf4c36aaeddb1abd257a2297446238a46cc5a 0x15d647949f7ddf343012e2b3bbff0b31c8f051d74e1f344d502b37434af3bea11b049114da567979fe812180de2; P0 0x133f916e92927910d777c80e2832db7faa22935ee40150c85029099d8b8cf2e73e30532fe838235f28fc290afdc 0x1b59fc1a817460fd922837b03e0808c4231fb7c4c2491c55a3457e6dd2b975b69f01a0a38b96721b86ff381a60; P1 0x3c6502dad7754ce10d8c6744fdb61cc376b1bd60ac087535571ef4464b65bfa69d7da0a94f293143d22191503 0x17372ad9b83c14dc0a087ea120833c8b7ce44af9aa9aafb9cf7f56f64f1002438ce316a965bda68f65edf8d63c3; P0 0x15c14fb4174ce86464ac09527e8a5abb3c8a758560cd73077a7d80d0b239a802cea733ed125fd05d2da5c8897ce 0x8d6991d0dd0b978bbdd96d2d72cb48091255fe464249515a105b8deb286c2a5a8f070e79dd1938fd2736a20dd7; P0 0x32732d88c5d35aaedb1b258e860d927186877d1e62cdcf8eedffd286509a84cdf51a2d0313145bbe8f88c7c3ae 0x39708580a6a3c5722f096c7ee3c8be7618254c4379d8e8186998a08cc5efa1342486c9ac40fe3ef0b0ea4915bf; P0 0x852d2b288e786a0b3f1d60c37625dba0a8eb6274ea37fafc867c678aa47894ff39a645a19c658a539d35a874a 0xc2265887eac42c9b6428a77b4e50e1b492eedb266eb7fcc24446e8d1117316e9b88c57082c2809f8518e2a524b; P1 0xbe30d515ed75e9e649d3093923749fa8486c8549b517d09584a7b20a937e28158f8ed691ca75ea74a70d40de0f 0x9014a8202f55f19089608052e077f1f73e3f05a00be698c73b8c6e8a2cd0a6f93082542741e6bc5302678183c1; P0 0x345f2b413ea230fbbf81abdb5a24d31426be57b8dbcacb13476aa501404205551f02f3a0da26f6dcde7806fe69 0x14b2f598aaf862f64253ce18601230d224cb01204b644a6ccbd72fe87568889b7d4f205c678f2ac3611f84dc22a; P1 0x2296c24ed595c51c559cc3f57c7bd9dcd0396226e5930770d871d34b1cb68383469e766e491442c0f5b135c3ada 0x4345c9b012473661c7a1e933f70b2e86de71dc748e84ec423b48cec1378e8e92ec30f79b9db46c4286f01c8322; P1 0x16d5a3cdc933fc10363e8584ee3f7461b96d74ebaed667f3b3b9903fd563895807427858494c11de2caa014c89 0xe8f293da752b7dbc36dcc7c6df7761771f87feccee261f54bd7825c59e8cc6769ab2cc26d434b8b3c956c661d1; P0 0x88e646d0742ef381e4eb9857cd38f851869288af77e12547f38cdce9fca40fa07f740f25f916125691a36f2c5c 0x12afd63da603ef6fcf33225aa28190a299f4a9a6f30f7bfd52f0e9fa2f35ed80d97748ddc7aedbb1d9e38da07fd; P0 0xe186e1b90f1294898b129bc9d3865bdfaf720a66851b7a4526dfc22ab283e5f1773dd538fe9b685e86fa4ace5d 0x1668260535265931057ed13812f429eac92af26e9099de863f6dd1b107695cf08efcdbbabea27125d58daa12fa6; P1 0x28882705e8183877b2d9823cdfec0047a7bec82a3cf42c86c4f30ee0dda38972040b010424d8c4e42f5bc774d11 0x890a19c99bcfc466a76a2b102bab523b981fd090fa81c8688eb735384f70dadc040720492978cb827c2eb4b299; P1 0x5ec18a6a506e715a32182b7c5bd8ea0da7fd0b4fb5251d5c657b3ae17a8ad21682a64fd68bd099ec5fa6ec02d3 0xa5aecbf4152e01e868a4bac8503b953fde1a99764fd0fe20c61a4338d0306c9d9ab52a58607b9bffc6d2e5c75; P1 0x8a81af1abd27ab99f36c83bbed7da62183422dac20dcf68df3330c9c4125419cd5f7f9532161796ad92064f4 0x4cb32c713895dc51a4cf5e352561fb53bddc18d7adf0debfdaede76d63041333c83f7e6bedb7cc7eb7abcd24e6; P0 0xed7668a5ec7595005a80aecf846bd02a0e1d97db5ef27322c634b80f408fb87758dd436750c4b623d14f62051 0x15c4bdf61513ee5ce3515a3f49fc844a2d5fd7a0fa472c3a0e0c66973912efdeb52bdbfff3aa22a69a452779535; P0 0x1320b3123329835a51707d546a02c8f85d05feae3f87019fb758aa9ff818710d44e3612cbbe306294c22c25a246 0xed7cfed01b9aff70e35c2e9e542d72123aab328401617322854b80f9aa255d04ff1a6a85db05a2f19c720afcbf; P1 0x11c93b8ba2388e064438881ef77063d215a69d2eeedec60b372b942d0f6e5c229056b8250268fe4f9733375e3a1 0x980eac5fed5eb577538b16a83d08e316a9c9a778e9ec78361b142313855e4e6864ed12d25354651ef38bae7ae3; P1 0x74a986a44fe877edd74a880a59d8a8051961e2ce049d104d2c0ba8e05245dff8786854ba714596972c65e8632c 0x16d5a3ca84d9e86580e61a25888232362b73380f3262f4685009f9db3f1ae37be5dd0be07c396f08e017e8d0be; P1 0x2a180d462ea56f3c8aefab84d97a3151274f2c49a3e3d74efbedc963060a106bc71cdc69e30ef34e3e3368de5 0x1087b3e3080d1602a9af285174b745cf4f80073841098844df72ac68ec6c236ce69235c7a5063d45ccc029cab2d; P0 0xb078d705f5e89291dd9085e9f2b99a8da79ca6f3392b288b99f3c36c44dcaee38b92a6ee85b38b30896054c62c 0x17fff85706ce2ece5be553b44c997bc5cb96d8f368d0f618de4d6929b41b00fa3410b96410f1bd1a0e3c61ecf15; P0 0x174002ed62107fee54f3bf96cb4e4edcb9958459aaed92d70c4c05ad57d8782986ef7f642fbb4b21b9381b10d3f 0x7e4abb5b8cc864e0347418545be364d94c593946d575f6bbdbff400f1491412700b598941207b00a2eb0c692b8; P0 0x283cef73b68a5dd9817c3ed89469072ea46c0abcd93beff923fb130d4b9691b98789d3ac313d6dcb21539ae3ea 0xc1ed2d832e3f8a1047f17a68cb819699b7023b5c48aa2ad1a36f118a3aab4c3466101a50eee24049cc4ab296aa; P1 0xbdc0e46746bae3155397e0a1ce8b7a877f805d0591d66879956fcbe5e483fd5a669a4d881682a5412f29fb34e8 0x162b5f7c33353b6ece3dfd6c57ee4782739a63f56e862842c35e8f70e3b0e0a467192ac75a5ec3c64134eeb90b0; P1 0x27ad715d048f82ba2d1daa77bedca1d9033bd1f57516bf8b9208cc6718c4144d7c198c240a578cbaa5345c68e5b 0x1528652329e247d2b07513662936111f05b187ccd484fc0ae57de3ec685d5b9e854bd3528df87dfbf913a78d1b; P0 0x1211cb225c6db25cbd297885d4bd99150d82c1dac7799c047d63d2f83e3f4746e1849828e816580ae0b80f459 0x8c356da7a7293745900dfaa4759b93ec96d447885f9517f184159936ae6887ab63b90c96488f2037e467ecbd72; P0 0x3198400fd18c3bf313a612f08eed07ea91890ffa7969410e5043d9f91bf65011b26e0b1f733880395be1b68ed0 0x81e5eb9b23fb40eb8dd713fe85ab486936fb229b1e6f00a750e5da55e8462919d53c6aaa1e79e602c5e63d6994; P1 0x552338be4e963d0b4c074a51b6664a943d588bba2c075502acc60c37c5716f95c5b6ee7ffb1cd584ef962c7633 0x2e888ff3a274300c3297b22cbf6abfcfe7aaa1921bcb9f4be2953eefc2243fa817d4fc603966df73d9328da413; P0 0x5767aa2382292757b00d669e28b9a52bcbcba457878b4256a112c72ddab2bb4b6a54cd8c666e82ceb91414834 0x16d07dca1fcc783ef93a25146013d5a1ef5aec6090269c89bf58c93986c7851d2978f114368391cc80e4b3169d; P0 0x15028a0ed94496048bdec90b2ac8109586c72a692379244b1f1280c5fc0ddab454639c8dfce573930a958e52e 0xa43f4fd2ca10b31b667b89e7766e90dd4e436b14fa29289c427fdd8c4444ba186b2b70d66e4a17233b34f768f7; P0 0x440ef702a626290956ce63597629568c75cafd8b5c3de493502349ff0bf68322eedd0720d13c2df0dd132d0014 0x4ca02186cf17c8295086ecdfef70c74056adb3ad056b96d4e2e0f43cddf2d10b335bc6b7e19687a370b3a9cb65; P0 0xed008dda0257b3fd791e1278beddfd5776885d8b985b137306441be7e699613b072724eba921fac6a570f2c74 0x176a6e18d5c537ef945ad9bf9ca609d1232b534fa64fe9ab5d3e6be7c41260372d2aafa2bb4d88c2871396f874d; P1 0x2c439a75b3520c2ec4ec19d09170313d10d957d1d24c757e7f48f60412e5d968e2b5f9b415f2235eebd31f28024 0x8a1481dad2f5d3717f758aa4e31bd645b0880db80213063f88de5b343db2bfbe58f45118f07f4d038f68286b76; P1 0x60335a799f5a0983c8ae12b07cc4bbe23ec51df01c803324918d51c9fa32a87c34d69e78edcbe3d8f7f24a9c05 0x5411a11cb5fa0dedd20212f7e365fdab86ffe9638bf33ba9488d879638c130bc6a090c1bb303ecb8dc54059c0d; P1 0x23a90e638f7dafe99c20810ea1d4d64f3860c12236d82cd77832c653696ee2a231db7f176e378b6def62f6776e 0x11ed534caccf31eae769a7fc19e261e1082cfb00bce6b14717e148390ff85fe318d4f439f27e36bca7c1b246040; P0 0xcf8f50914f0e99b2da6bf04c1bb046e7cf2cbf8044b69cbe294876c94c6da379e673d2529f01bbdd4f5244267f 0x107c30c1b6d699d29a7aa7d5c53c9d53cde42e5c16be97e226f7871325a925bc52c5a855498eaee6137fd23943f; P0 0xaf835ea243a19253c749c79d1e64d967a23b004d2066545d4e8a8bbf96ade805115dc3f20e0fbbc70c108ec934 0xd73d3b5f5e35d53e74478bc6ff6a77a1fda5f80b5c67fc4592268077d892ea1b1d9afdc3a4ca1a014a4c9f65b5; P0 0x74e074babfebae224e0064530d15049e61418e36f2fa8404cb577f798ac04c862612a8bc10132dbfd6d9847c1a 0x17de41311c08bab2eb768fc5e81b8325815c6339a80756b893b0e7eac3f4b6166b035a0a60a61d85b1690168893; P1 0x2dfdbbb2609bb48f5558132a67a0bd4279fd817141147feac080d22b5e5c50955e064fb79d23fea3988ddbad7f5 0xe0eb5f3d3b41b0f12c7efe9c6d98a2d75b15abd08c1b5315fdc0dd99548a864e0b1f8f216328964f72f2d20807; P0 0x7fa0479b21d9d1297f79460070f4132e149c4cf460c3af55ae8392531b1a9af4374c63548d4155ed61389a1b63 0x12fde94eb9ba7a38a1eec5a6d842dca9559cd8eee8f37c70f59345495e97063d91a1f4f8de51104dbaabce1ea54; P1 0x1d1e58fde6a1155ae920bf8621f103c081800db7aeffa436ce98c084dfeb423533a9ae36897941c861c45aa53fc 0x8b623a5577e4301df88faeb90f243454df976076364441f2bd29828d939ede0232656268446f51f80ab315a21c; P1 0x62068e41367d588958f3ff5621e60757915d6dd3497e2f33ee51b1c2b1d2cdf95c2b807ec5b6524995b89d52ba 0xd9d3f891faf897fb590a6f2f85ee0bb1500c28b95cd763a5abdc801c021e1871db4b3ec28003af9b5aaa5adb5a; P1 0xef690fbc99dd3ed135aa28d62517b5d74239a9ba950cd102ef6601a357176675c0116f454f9a5d6b4f711560bc 0x5ca768ba40f0a54f0bac850c6aca217af5df7f85809e666776e80f58d3a9adb51938e8ef330c4fd1ec3df83f04; P1 0x2b50c4bcb740a04415975e9f71ba2f1e343bd1a3ca8e2a9157a41a5adbc69a9efa0cb0918fbe72e0dc7a4ae7d1 0x5fabe27d7db6f9a32d74e50ead952b646000550a937a2f9a581cf2799a95d634c7603f7a71f744f82f39c5ae31; P0 0x17176534051112c99a6378d1bf388b7bf8a16cefd838468a1a6c439314dc6156c6036a9e8bf75ce32368594e22 0x15768cd18f3a7c4a0d1289ceb158f3097b8c529726952147c1735bf90773711228c7931d05283c8d1fa37304003; P1 0x2530807648e8f339fa913b372ec0103ff672a3d9ef36f6eba4054c8011818ab97fdab2ffc0e04417e0f9e7222f1 0x6d02862e97d7d55081f9291e41f18a133fe83ffd21bdb1fef8f6fbea678beb210e0fd95c82c20dbecf72970143; P1 0x3bf53f4779482b66f733bf8524b80286f7d6e307a8bd89f13abf4edffb9dd38baad1ea4da41c709dbe6d28e391 0x5e9f73fba3b0bae8939551e989c92a2ba2f1e8f96ce860ee32a76f7a1059b426d4eb3e38dae620783b44db58e3; P0 0x169686ff52ea744722e36d44ae78391a61b45bf359802802a05d8325afe0615bf4daa4482ecf8013868ead7d85 0x83088244fed3c364959e8afe9a32568c93551803ac0d13e593b48bbb247394549556a7856cd48cac09d90b020e; P1 0x56a1ccc808a7fe7d100aa8a3d069c64af1f82400a7bcbeb24f88653473709ba33ad6cbe557d08975d9d5122ebb 0x179fdb5ef3df0582129aa76d604ce9f523984bc029a90928cf30a3d3084c0649128e3c15112970d8cde28778503; P1 0x2d0e7eb73a35bfbd2852640e8fe67a1d00b00ce14f172807fc268b07ef4b6f88b6c70de3b9d86e97032bcec5118 0xa52fe49dec73f8edf8f3e03a52cc519cfe03a9caa866b2ec351673c49877d731bc74aee9d26f9813cf325d032a; P1 0x89add332eff75be5b334d8dd81ea6aa2bf4f4e5e53f598f6abd6a385168298cb735fcecdf27abb976c676055e1 0xfc6f22a6d80af3303c161ea2892ef25e3236094c6ac1a0d4b8ce2c484a19504b99d031a4f9abd5b8f97b9cd5e9; P1 0x14185d1281f0a54238a3d12912a9f1c96d8e1de612ea222ace632b6f930c22d3017654be2fc56a121e67574f2cd 0xa4a9ecf2bece3f87e06115cb8ce5046a4da3b7d48994b020b376c9638b7a0f2fb97de06378e2a62dc86f109c2f; P1 0x88cedcb6ba7df4612991c05b9940f40ae006af73600f0b4f02a8ccca956a43eb6c581b98592b0f6c48e2da60ff 0x1; P0 0x0 0x1]
    [(0xa6fc66f961355bf57299eadf799cfd92769c4db1923363, 0xf374016e5c0ebd752177df8d5866e02a80c2f2d4c0e3c50548a79143de9d4004e7a8cd99a93e9a366582478cb0, [P1 0x0 0x2; P0 0x0 0x4; P0 0x0 0x10; P1 0x0 0x200; P0 0x0 0x40000; P1 0x0 0x2000000000; P1 0x0 0x8000000000000000000; P1 0x0 0x80000000000000000000000000000000000000; P1 0x0 0x8000000000000000000000000000000000000000000000000000000000000000000000000000; P1 0x52aae9d831414b163f77156de1bc8a5afd880f2c0000000000000000000000 0x16b9e5e1f10341a65200cffadc23d968d5635fcbc9a90a804c9d9fa6ee2a9322c0000000000000000000000; P1 0x29b2039a9ad4d5b99f9cf9081a39110ae5cbfb4eac13bf36986af553dfe057aebc5cba591e865b051ed 0x1612bbdd2518c6bbf938ac07f72f644d9b870fcb04ad260aabd6b7cf0f47cc2ad8f9bf3a6ae6aadce8a751ee72d; P0 0x13aab82f0be23d58b141d7ba65fc3e1ef2bc98a7238125cd8542557a328de656c58566dbd0bf53e76a74b4ac8ce 0x16e5c0275ea7727c96502405a3df0bdcc9c5a534b2dc6ccc295f66cefd14898cd3ca50175739de4cbd259325637; P1 0x2a538835c73a4fa771ff895c6ae08501f8ccc19f24b33e7d03626b32ef22472dcea249ca4077004dad91cbc9c74 0x1001a954f3f634813e06c389a970ea0787115b4fa472cd9885972ad29e274ebb0672927011b475b70e4d76fa116; P0 0xa5782bc40cdb08a5f2a9df584c57bb0df98542e4ba25709b00570cf020830805a09de87e31c726b6d377e6cb70 0x94adb6d0a53092b707433255c4d365ceed1d1d0a9a48eeac64edad4fc9f6762f987c9dd8672862aeeff08d3554; P1 0x6f8908dd0ecb53eafbf854bd80138fbc6ca0cce22805050c9b3af79ae2ddf121a7ab0a4354ffffa18187c17457 0xab0a86846d651a588fbf91885dc2e04a94eecb086c424f76eef7c90d50f775444c50478a768e9a8acd0805bf37; P1 0x939c3afd5af066ec70db8a11df5543346650806cf79b60a9884caeda1f53011809f7ea7b927f965b3313582514 0xcd534b170c700df717fc5a694c7692839f1328e62108a39eeab9c06a3fde540d0f88af6b47048ecdfd7f6ecdb6; P0 0x6a5baf7efdc0daad50d2fc4f7ed00f8e96bd866890e6282cd8cf5712b2bb95cba325d8669c42fc5c36f3637bc3 0x129b60d38b55c81b61e426bdd37700f42b7bd822f74a4e5001d31f78cc203d4673f52c769b41b78f92cb974afe7; P1 0x1bf343c1efd44d3530ae5b0d92cd36d9e187b4b4fc1bc25b5ecaeb5b45764ebda7e85365911d6da0b0fffef66ab 0x9e47acd832f23c12f0e581683baf052260ff5a7ae0b3346ec0a25b31ab7cf9c34019554c5b5c74af168c996c4d; P1 0x7e67ec9bcff3f1df82f0defc210106ac5cda9cdde793382f34d20fbdfe5f315b29963d37f127d24e91e4a0fb51 0x15c44d9d1d7c9d43a30e5fb36afe2af6aaf4d2b243118c496334b8e1aaf71adb0f00f14383df68218e2a857cfe3; P1 0x263fdb48c1774d90f09c0ed2795ade46dbc90a2b5aecf75637fd144ddee1e398ead8f604a7fb36cd199a2b78806 0xb2fcb60cc6f1a14443ab1d3f74f6ae575fee1c9ee09996aa3596e2e7598c2431450cf866dc670cc9d7ca8adc18; P1 0xa1a4d56dbc2df98c313ea84a5d7fd96738fe604baa414b528c3ebe03b607b27e83c47c78a5be96b798959bbe14 0x12fbbb96a0751a215fefa7270560373c55196a00bd7b13730c7aa20aeab3e4a9149bb9c41dc03f59c22cf4aef94; P0 0xe8bd595c4ba28e481a75b162984e95bf017af51e1c61ab378a2ab81abc9029a562f63bc6334066edb06d80a810 0x18968fc9a73fcb0226f2b76784f4b29f1c3ad4a4b2cf1a1fc3246542f023978cfaae3b3e3e442f7e1ac073479a0; P1 0x30ceb8833d2e3ae98ca63193e9c2f6474296534550860b99bd3a13e03e0a821b5cbb2e017cbbcb4de3439b8821e 0xbf688b3dd8ed27ca99a4c98d21a75e7ce60dbf36ffd34634011f4158933e1fd57fe1e3299baaf3e1c44e480d9e; P0 0x5c6dc765e84366fd58bf1c26d5afd2f7510e2695691a400ab5000cc492e24423159da9751f6cdda763de643f13 0xbff93b6ac5b8b5c42bd5a4d50259d7777d9d75ea62dd3062a0aca9102711a25f3c308561ee41136cabca155757; P1 0xb9f37176729e42fbbc7f7b3a04ac633de769e617c8f10f699d2ad3fa7685cdc7cf92d623a7ee5bb67bc33107e4 0x146171864d0dbed07aa9fb7a81c78fe69f3efa83cc481a3b5e8380cb13790ce434a05295e53d4c9f17cdddc4806; P0 0x10c4360bcb7f275074221660775e326c959d0ea0bb8bd913620c3d42ccfb6eb00e38aa03cdd100a0ba91d0f3a75 0xe1c60990b4b12aae88ea107d5304f5bd2f3dc7dd0cf8a85d17244aae869acb65f9ee46390e7d10d99ed07661d9; P1 0x10131cfa84e24656c9bda1562e6e74fa8aed7c1f221df3d3ab6144f6bf11d6cda2e015798513510c2e0aaa749d0 0xec55afb9ff436e63991858c434f37657e7e82bb4ec6837d3ee51f1664ac8e7e6a4900801c80f89236bb915b1b2; P0 0x8ce8dba0146e7d207a1f3dcea24c56ff72349c610a083d7fad83ca378f8f233fdf2923ca7b49e1dd361c3b7857 0xdbb9703af6ad4507c19d69802123335b73a45d6c3397c174e6d125af90edfccd99ae299979782103369f4c9bdb; P1 0xf398d771f561fa0465588b9e1360063aec1b0b301c8633008da062fe55243ba2ed758b9cc7b2d6fec258dca2b4 0x2aa4ac01353084cceed707b64e4406643ab56a46fdc74add2b73cb737ad925310ee57a690c3e1015b8cdb99266; P1 0x92cdabb81c320af9fe447461385c69398672016a29fe1f4146a265967a3d3e96d0abf6e6b32d8ab668b1dabd3 0xaacbd832b2c8e492e0b97a43d2d44b1f4385a044a42e5ee978f54ea85829d9bab33f5b58001449f9d1d92307db; P1 0x93301e87b0237bbd9146fc09278aeffa822be88f70728dbe3a19ed88167505afc723690de1369f4762e4cdeecd 0xf67940e0e9f1f71084dec910185f7fcb32a36906adc4adfbe2735b4e0af46259f3f5651990544ee36fc874e6bf; P0 0x99425a7ee38729398361793edb63011210cdf806a8ea096bd66f394bb74a32f6968d92e92539277edeab602cde 0xe2d652f80e5fb5162b511e3564bb17d172d10922c254c963248eee16ebad11ade67b6ea0b133fe050df6a262df; P1 0x1039fa266a1b69f3b5759da8da0a5defc5d0f215def0842c6e9406e47aede930a8704f78dbe6c9a0ce888e1aadf 0x14cbfd0da662a766bafcddade766ca2261c290f0bdeb15613ec684d19d7b97924e89a521d5c521307ca8089dd21; P0 0x11754d8a762606165ce396ca7c97ca156c4aef6d4e11dfb0f24c8452edbfc96cef8ed4274f4ef647b437652e771 0x137b80035ff23b471f1f1392c0b67335228437036fac5ebd1ab57abc1abb70331f939348054064d75c2ae2e3f2; P0 0xf52370c1162e16d0213a269f9059abcd7f672a78d18854636143f3a81efced783780bf380fb12ef0e8af50f3 0xc0e776c1c468ed928a13fe778b5ca3633505c107e94eef20b3d5d461f7a076c00c09e7f7cf5f1b0d3eff864477; P0 0x5de109f390d01b97093db9a31a1d80d1fd1c12e11792e51bfbec7dfcc5767b9557b3acf89c4b48657f352304d3 0x18736771f70ea92b6662c5006bca1ae2ec6495d16f9b6fa5e73510da52860ddf86af9ddb6b220ad9731d70b0ee4; P0 0x1821c4727d394750cc69cbcdc744f2b574e34f4d06d3c3e4941ecd4c50d4bb3b2357802d053644bdad6fb576971 0x90c979e008eb38fa968349901318679482149d9750e4701bf58cda810bdcb8a40fcaff20c13fd3dca4fcada2c1; P0 0x34e2f15fd311560616a370afafed69235e318b0a9b9ca9386b287f0056a59625dec5863695b575bb105df63717 0x156c4f9fd1bdf1a114932c9137939dc0a358dbc6ffd98ba7974a81efe718ed5976ec749325f781f847f6debc058; P1 0x250d0d592ed2926511e74577037da80fba9abdd1c06d8ab96b5410d3add49763cff68c50f8562a42efad4625449 0xa2ac0e2c896ea0edd2c5600e3eb4070f0c48c57af573dcb6e9ca0e57efd95a351545249f8a0786e28f42997509; P0 0x42c26049ac5659e8daee61317e82027b3b170f14f88cea4ec7e123b990fc29c2032d2f689589724ee04506cc1e 0x9b9019fe61dc06bf3da96dce9d1051244587ecd8ed6701bfb3395ce4fc30bb43bbdbf5d73bb23c9699daeec9ef; P1 0x7a1a7569b0e89dd302f20a5134a2adb21d38dee99e2f16cb97902ad18daf0a9012ff8391b27301a5c240813a50 0x174fcf4a93c041663dc8a9d32f227c8f9d5b768c4b633e65ebbf62d99cbec0c12e6741648fd7e58df50bd62c892; P1 0x2bdf2edbd94d05061c0c1efa910255132de3854852535c63567c7f5acf98838f79858bd5ffb7c28b746294dd7f5 0x157d4e0f0f37985a4a7f2af0ebece326e84292ebb47686f29e2b88b00b51d6f3976aebf7dc118aa8f8546bce5bd; P1 0x2547ecb6e53677a63415ad6c5b109748304c3666a3ba59c8313dfce780b84d118157d9addfc25acd499fc77a692 0xbb05eafde64eb8f62793f59072137ecf9836b65a092b431cc4e96dc6308294ee5e49bb92dc07178e5204584a24; P1 0xb07bfc9380766abb704b8ca888fdc41e490ac466d003545caf7e11660d23100dca66e22691fec89b00edc67539 0x89da4996a373fbe4825cfdb6350c1d41cf6cfa55174cf0cd6a8f5bffdad18b2e248f35451050f5777b885d1f99; P0 0x2ff125f748fbb71fbd6790c4e68f850685ea455ae41a856e1d993f5119e8144b920b41aba1f89189924205bf32 0x16a8032a8dd3fba4b5479c1f7b6327f81b333fa6506889e23d1bf7af0fbe44fe5e51c62ae951de9e731adaed923; P0 0x14b83e35907dc052e91e69ca927228ef1ba78c14e8e7a2fa07e944df4354c3b6a2da7ddf79bf5ff5796a395e5c2 0xf0faaee1d8de148c1124d139dd1d623516b4640a171a750f2fa32d15fef80809feff0c171dcd82835f6fd9b50b; P0 0x92809e45764b2a8be4d10144d24fefde8a262e0c30e4103aeabb26eb1cbb34c69a05390161f60c5bb1d104b6aa 0x3177f852e71d1e277212ba54baf0ab02f678450b4aa3d74f34d60c23c97ddd54cd2b79701c48c9b5582c1ec3a3; P1 0xc58eeed6840493a324289329825deb43a01ba9c430360a97bb101911198a21087f90838c1bd5c1c1b8adfe87c 0x11126ebad6a29e66669d71ab19ddbba0708580b43299c724585460e6463760e7d4bda1ad2a3ad97a495b899730e; P1 0x17877001daa3c3bb57ec8f4b22b1dc5a2d7020b1d80da01782c2688d1d18453e986120bc594ee3b095ac4374ad7 0x3f75ee58d346311b46e7333ee5c8b1992c72429d8ee22fafaab1d9c461c4a8cdd2ee09fde0ef032c682259981f; P1 0x1451eefaa4af1c874d121eaf55d6598e96e22f323df0ef94dc935b1b445d45ee5139a4d4abbd2da8147fd25b4f 0x5380916e077fa8520f34e6dfa6aaf8ad81cf2d570ab4f92ac7942d2d17e2299480e8123ec5eca6cd6a37423491; P1 0x232e68188d3d10a3fce4920b2f2dec52f21729f40febbeb66f5c94785c5e4f14caf27bf76ea7db29f17075d5e4 0x1c6d0c03530677b880221216b443e13bb084df4d907c8d9e2141068b05acc4e6e50df81306f3c39c25266a8b26; P1 0x413b9821a3beb4e5c1ec24a85d9c86fdfe8f733d46aa79480ba1489047d36fe2b1cd23c4239975b891a5a6f86 0x8b2ba3393d3cd55b4d322a928586bfd0247692a6172f1230719788be7a0e26754ef6544f67b8c36a857315704e; P1 0x61b9d47e1e08eb13b08f55a7acff55665341fd15e2dbbc15489a5576b8ff2da5e10a497867e33e35d62702c41e 0x47f6197389f1c169534c676e36f811c0c06d0d71b38474b6551c7c6a3b4bfe544c6ec2ca5f046fbc689fb63726; P1 0x1a20e2f47742ef3745e6f216f56388b252c3884ff7abebdf117574686ae4c3fadc73b8409a47ce5a4a9ddc1a47 0x1e00094977e4214da06547de7d18f6d2350ec05bb7f14759cbf73d1a645b6c03ac40880b913ad6534291acad4f; P0 0x2454324184ad6c8dd1b744360f70da5040d220934582c88e7eb388e8c1b5178fb7a852b6db3f7108057b12572 0x17491ac7cb2702221c094e60286c51b2ec30ed6c43ac06293258df9171456ed04b930e5c139119ae30e6bbc453; P1 0x2bc5f5ad2e240e45453ad60db493530200d9994e6c4a0dad44ead20da362883f61a8c6b5e538a2582f9be4ba0 0x106e156090aab4a46190c7c0ea606fae3c0fff0a4b27bdc7835c2faeaf369e071adf2895229af1d277639d2d972; P0 0xae577c274d55ebe01d7d38b9d454603ffd816e0b1f4c30a5ecc051f82f7ec4ebd7c688d72f3427fc4b725438d0 0x1622abfa81e8b227185152a22dd643ecbfbc9777ab43017eedeb6be0d78e07910743ee8c0d735b5dc8613728394; P0 0x13c729146b3dcbeb124e67a1286564aaebd35dfa837dd3421bdfb3c6afd420ba5acd07fc810b098c4e0a588c775 0x17aab92f825f631f431a8c018c06fcfe207acc0a715b7d964d771e8672133ec6771a1de77fb3ecf95be998a9c45; P0 0x169bfd9c824e317cd9241c5e3e9853b3c2be966ee11fbcce2f3c70dd18c0eec431783e9860977deb2938756f9f5 0x181f18b4d5e92f14a2f71116cfa72723b07ef986d75206b4b18873c54a9d4bd0a6b333cf119c364e64fc1c1cbce; P1 0x2ef8f1b330a8285b683556a64c69ba1da11a4ff57f209097a41636e266fcf5b5676237b7328b484e2606d187d5a 0x1442d6588bb849f864595a2246635f03f0f792a9aef52e66faca75a2ee1c8830c8605c07a4344b19ca40837bb62; P0 0x10920064d728c28cc6e4f817ac082cee110a14c18599ea1181de498a8361f2519bbf5cf6fd69a2ec265a2742a1f 0x6bc54cd2c26824bba12c07c042852ba57c72a6476a03175983bc3a00d023c85737f3d42580320b8e2e2b80163; P0 0x1d4d2272d79c76d689903883334197e4fff4e84091c986161123124a003f8a22a89a12aef0739ca15816bab9 0xd1259495db630b2d02970cef9ccd2cf906bffb8dbfec02a13a2cdfd1454319dba82832bb4d0fbfe5722d0a0742; P1 0xdcb53cc1b6e9f05dc7204f321f7e3e0dd54c72f3ba5f759f4c213ba726029102f46f84b80ebd9986e2d38c8333 0x4b154e296d683c3e2365f528864569af7def3441d93bfdc2f91c5fc2a872182f90bb78724ac8af43f858decffb; P1 0x1c71d7ef3b6fbcfbc9a309db9e03a2d08da60df83c6f14b9e868993342f75442ec065069c53aaca4eb8f06cce5 0x1375f4f29c3bb049d8564b71b2a3c4682f0734b56eddefc7731ec5bf676fa05a8aab24840383e40b209df27d057; P0 0xf49805b0c24665e10c20e0df21ea1bd622b586aa43da15ac13d83263e8602d7e76645f5a8d051c4ae5ff9862d9 0xeda03c1a2f8a44b206442440be29d84c5f4eced74ae3fbe4263d190aa5d30206d4a3170373325aeecb1eeb88aa; P0 0x8e7419830c993e44c018d33f45e202435b34c9d4af30c578c8a7dc115e9a406258b3cbbf4869fd3bb28313c1cd 0x8feb5af0b3c7d085efd18a7470dba3993d558a313b77af2383800af6fcc52efff25effdc0be353b9702e671ff1; P0 0x344129157e11036116f7d40306024a9b554722c768422b6fe094d48cedcef7566fcd1c6a8582364dbe0a65b87a 0x15619471409dc3160e906192fbad61bc95b78051d7c29eef63a37f848426f7402f7d37435d27f0074c676238bdb; P1 0x24e7f834f1a0ce55584786adc74922481eddf28a5be0aaa2449bea4e1cd3ad3958beb2c090549333604a293692e 0xd439424944d45c57bee19bdb45a8110b23a03b0ad2444da63a118550a8c41613df9ae3e88365d41069c1e0ab60; P1 0xe33fe7b08d64564e82a2f76e1fa7e7b2dca82ea0546459f17c1073b5b6e884558b5223fc456252fe0e069b7b5d 0x99cbc88e09b06e913fe9d953ef0bc883f75dcc0eab469c45f9b89b898e2b9d8fc41c79ddc503aeef6f2d06149d; P1 0x77586e2294e8cd1558a143cfd3982c6f562565df3125c66bfff24a8bb00e09905a863bdb2c1b07d08c4804f1a9 0x15ffbb2e03c50849b84b5571ec400aeb793439005f7a552ec0a4db31a6b8c6cdd55b8e56e7b10720bc812f7be7b; P1 0x2711d41365892f42fb1f8d8e8a30c26571768210857a1cd13fe9c0872f42a5ce00988a3a36dda659bd2433f3691 0x596c79e09fbe5df5e1260ec91b4d31634cf1311e8bcb6b12d56fdc2028196c6f2899d97942eba6696e6afedb03; P1 0x28591155517aa3fe7e586234eb4fcdf67f1ab830843b5882828a00272e007268d1bc8c9b75276484e6b5d644e4 0xab1b51cbb0c892228cf43359811b46947ed459a4a1e84d24ae6ab525d024d0c9d2326cea551f97123aa50a89f6; P0 0x49dc9c8756dbd42342296523c06293a2843c62141ab2762e5f4d76aa474dbd85c3b7835be1b4b18a9d01f70869 0x1532bce5fec0c51b28a423d3d30fcb38ffe48d43317f4904e6a7ef6aa353aa154a3d7a4e15ed4be3d77a146d0d; P0 0x12237a04148311c3850e4a1e4210037352cc071e90eee35374f3356803e0b9345f72c90b3b278356872dc4145 0x7a1da0dda92f484567aadad2383da38d935917450f766d6dcdf83f1fcfbd51a4480ee86aeaea518ef412df6f2e; P0 0x259ef13d0f7cca2ff244b8dbc0cc24c03a8ffb908722a23351f3f0b88e4b188fa9bb7f1979ace40ee36bee5ed5 0x93d818bb74f96459529230da9fef29faaab0c9bd365b4694f8ee04ec41524591307be0ee1901cb1fce4f8ea59; P1 0x6e496e97161b2617a157c81f3c53be41eccae10bf76f507bd01cdee72832f02f7279e768c51f850c08bdaf6e 0x5ed15317102205999e1f1b9525449250303ec039e24b8acd8f382e381df428614f266a8718c2068fdeedd38cd0; P1 0x2d5cb965f187b89d9c38195701b0b5cf58a1d55b79ef831f0e050e7ee53fd5d9bce1fcc9c809bcc85af090d608 0xe7eb8757212cfc4df7ad00169678f591b5902f9194a5f66b4fbf658790191b94ba14a884cbcf081cf6bcd4ba08; P1 0x10f638f09e4a11b0e9f0b487af50ef8d1ce1370408b25d70f8b14334d92480f2d4283aab6eab4152aef22084e86 0xd36bcb602e6b0b393811e48062631b73b5058d810b594885f4253c5953ebe4a8478289e0a1c7210210bd63bc86; P0 0x70c45b4db2ef5f254aa695ab46f549b28a85d7e167de092b60712a33242756442724bf85c2ebe13725f9124239 0x9554d4c8570a508ea76ed2b6e83921ec671a4bb96879c0ea5aa94747b994a36bdf3016b323a0a31229267d989d; P1 0x708451e6df9ca3f4f68581abc334d3c463cae6f6b3260cf2fe6cee62824cf088b73f7be76686aa1e7c39531906 0x11dde68a47657c713dee72247ba21977c97c9e9ebe0fdd9df110145ae4c721675b0b07f53bf693f13d110d08718; P0 0xce2abc93a361c29816873b42a1b09a50c18a8b652f4f9312c944c6ade9b702e169fb1892820139a47790bd2a5d 0xe4b8e90603705362499662e1eb18a99287dca704a69f29987cf879fde157fef40c340f89813e287f4490890ddd; P0 0x83fa73308c323d71d93e7f9d476016301d3027f9ff2eeba0c0b69b94952790093f42c6d41924a4fc207c966a66 0x4747df17102600ff2fd49812596b81a66eac85bbddb745c72e6d642be53858a139dca8a2ede1bad989583380af; P0 0xcd17b5f1cbb1d9ec7b7c295e193df1f57e57ef9228236b53579438f69452eff4ebd6b6eb2f7073f82ed315d54 0xbbf8029c3d1ce3fcb692962457761d20a35f43b8420066d634a21fddcdc294a75be747d9585ea09e5324dd1f5; P1 0xb2460ad9e79ef42c8513b314547f097df5192fb3ededf67aa273de1897ae41ddeb5b05440d0315a2a8fed51b 0x9d773b8ae9322a8e101ade498dbfd8fd3bb9a897187027f6634b7dcdfdf018859d487d4b5208e43469f7c9facd; P1 0x7d1bd8c29f9ca8fef15dc24d5b4662f79b5ff9d3acc30976bdd7f7e3fe5358f57ff9db405dbfc6c71ee7ff05bb 0x11ba674a2a53f049705620328652860ef213d814638ceaee707efa6d464747065ae1415546f4990ccaa17d5bacd; P0 0xcafab4d169b2388039313ef89069223bca7915e475f4d35f21061f153e509778eef89f7e0e21ffb9265f3f0f1e 0xa82bb59e196b98f9c048dd03b9f3d2b05f00251fca9fb94b50fe21dba584b62e59897e9bf8bc25ca5792ab1ac7; P1 0x8eb29097dccc9f89fdd417fb142569f654d8bfb0619167678c960eae214492959b3419694330e5c8019f3938d9 0x8ea805e23c1ae8118630707b568029be6793d128d5f3ffd5d683210c98133a06432b4d5bccf14abe9b4b2c6e7b; P0 0x3357660231abcafb1be96623444e2fd5113da955346a161f36d7792f4b2690279a4ab7fe07a26b22b7ae96efb4 0xdc732a126f8f3865d8f48ec45512fe33a87ee885aade15c37e3c7516d0de03687d7f69623ee754d61ccb0133cd; P0 0x7a9aaa5bf4bfbdfc40f9571bf3c76a9322932545583a92c25ea778cfad9e54603f3630b921871c1543180b55cf 0xe0ab35e3fcdeb2e4868bc041c3b2b6e1ec86a5dd367404e2cbb981e2f97fcb4023ffa9074f3128dc0d9ffe79b8; P1 0xfeaf0305a7ea7a9649e51807b3264bbdc3d8d221550a8f179aa22c6352cc4e5274b0e5c8be7d9de6b0befa2407 0x902ff33c72302d9630a7f7132b82786309d52f8878191e8816d8de25bec0003f5b89c9abc1fbb78c4df3cdc47; P1 0x68e609388f78da5bdeaeb0fa029269defde5e68f8568960dd52efdc4f9557fa4e6d094a9977958c6b23c4660 0xff853958101f6c0a9ed71d90a093b785b7ad810fe1f0f528978d7c9e3f17f0b1e2c81f04d9e4176ce501b6d5c2; P0 0xa4b763504df22ee3d56762b6fbd01109715d6347bbfdf61ed200e5b68993fdb5599da088ab5361e17de2fab1e9 0x16a70ad1f6ef092c739c423169aca94d18a6e58987f9c17690e0dc16a5ed14b91bd89b6679d804df682c8f8a52d; P0 0x14b67802d1ec8436965dd57f8322e516b49c2a5576409cac3dc11550d7fe73e06ba7036eaad004f7c0fc43579c8 0x16c1ee219b04b4b0c6e990c9b18742a20e0e296a5d045d27d1f382d7b391e3c243ca19abe8b7cd7a0871f3485b1; P1 0x29cf81f3cf01683e56d295d500b8cebe4d6087a990e4e46e386cd4979c2ed211c1153e5637a28d7378b85614711 0x48a1bdc6e95807d55b0a5d333f5e4c2eb41546c920d435928c40f58aa20f8d71d6056882b352a836b362af3613; P1 0x1a9e1c3875596156a37dd0b18b0d0c12d9b9195f2670abeee0eea6649871ef978fdf32d4255c0f994681f91265 0x126cc41aac2298229c81615931b8cb5a63c2aaef149b12a00ad2efb808f0d731a53161184725a7687ffb54ac077; P1 0x1b67e9e70bd7f4e4a42ee241f636315e3f516a02dbf4308d6470fe951ab5547add65b4c941326c27db8cb7a8554 0x11464926cb5e1b214c7496ed262ec903e6a353efedd6f2b7ab9c15b7ebeec8c2f2edf1af3fef026dcf0f7c4f0f6; P1 0x18173756d4458ace2c73233927e70289b78e5c630606d95a9ef42b17aec16037eb3ca59587abf6bdd706d405138 0xe753f27c0c178c06f734a136f0cee5f6e11bbfe41ff7ed5f8ac961074a54deac8aa2467e328a8998037bc96800; P0 0x8700a0b32fcdcd863c0f590970e2d5e460c277b97a28292078c1bacc4cd860faf5cb7b5f7b022d0a883d14c9b5 0x6493e4ccffcf0ae53ec846ccf971d392a4bf4e733d279619cd2c503892ce15dea2fdfa0db6844c3303bb3ae0f5; P0 0x19853ef5c24620a9030348669fe9981464f5c9b109a7e81e1942ab1c7381c5acaa585bb7e06aad83010e01c8dc 0x9d7c0fbffebc2bbf09d288e0cd4b8b408e90d6e8d8be3767dd8d000e68ff127ee673df7a5a00a173e3fdf26255; P0 0x3e91c29f8d9a1078c6804e05374dd603ac7be9e4e4306b78c5a89a1e97cf29ebcf0311d47b2de8ad646bf5939c 0x17f774684fb6657f13158858ba6e7ad151e175e3fdf9b3f028ccc72ba7b9d8b20157dd7c2accd09a885fc25e2d5; P0 0x172f8634d27e3bb167ec4764b83d816ff5e43ae1b1aea2e32f805e988ccf113ae5459da201b2e62b1dc3dfe5c34 0x13daed8951911132d5c1b161786a69a15e5398034fa49db10f9ef3e1db9d108ffd5f64348a3547a19112c55966d; P1 0x1fd37ba6753eefe7b1a66573c055e46f9de5cf722663657d249ea467a6e7dbc7d8f2f345d580cafb433f183eed8 0x3169b41d8373fb74699bc39c04ac3874d523ca536698f7e324c983ccbbd540eb29e1aa29417fa4dbc1318729aa; P0 0x628e86251b6aebebfaf217f14372179fe991348e91ee49dbc49c2ada36e250f1406d8b9baf6bdad290844d6aa 0x16dcc873a083b20fa343096525db5c063efff8f0381aa78806e13290cbc517e95aa0e6f9f377bced66ab10c3a0e; P0 0x151933b6467fe20d34b2d83012926488b3825bf3c5e03bd1b9046de7d6e301e5fb832c11b47a2f169fdcf4ead56 0x916bff2f0c1d38e4249e189a90aeab70fc04832f4e70ca4c415c3cdfbf8861f8b3b9ef940da93616b695fe879a; P0 0x3559ee6ef13117723b90dfddde914f2d377b557049f594a85fcd8bc802fb9eaf53bfea025f867ae92caf5905bb 0xa3bb4af4a07aba8b5bd952fd81254b0276856fb0afbf4312d2a0c71af785740f0714d805cd1739376cc7dd731f; P0 0x43a1ba7405da0af67fd7a6cf90355d66d5460030f0574384d4066c9e809ccc9d93142ede38f74e89e20c7bb122 0x1bff9951d8095eb0c664b3cc28412442a9ff0c9feac2be51f8affd04ecf5004520a1fd89064b65f6db7fcb9b63; P1 0x3f490ad8216f9761d240d2b8e350a85f821109c4e2598ded5a56a725843346c39828400a8ee03d540b4ea8e01 0xa1529993e2b4d5d4f0bf6512996861f470f56923dab7c5680184017e3137ea6055280a5d8108e3bc0749760d3; P0 0x41a802101e31f17191f0e87d42729db0219468ea8139509bc2147f12181fac8d09e29d14c5b6ab9ef1fc1a40 0xebce0380fd1282182c3abd0f40c82bcf6697c4854b9141cc8534fdfe659beb9285fce75509a19b7b1e2d101829; P0 0x8c4741593ebb799b3c6be9c3a934b3f59a45fba4fe6d3ef698983f78198f0f477b08a29a4d7d55e13c4698b2d1 0x613eea8d114fdca0fc49e10b6b6fe277461e23a424c98564ecedd042c9cedc839ac6df665da1f4fb6947bdffa2; P0 0x17db8c6e159e7b5d10ff3aa28af2aa06cca317257a0aa0355920b32d1eb9936250a68f7f915218d6bc66cc9cff 0x1612ecf3e2ad6f3532e71db55fec518554856a1dc97957cf6f00796545a04a2e6bc677843e8ba109ec39a1ebd43; P1 0x27561f51f7243a1f2934a18408dba358826c3c9d02d7db972da8c2dd6ac76a2f6d2f48add2d17f6717d3189ca3e 0x67df1632fed0fdab385b730c937865f710cf8ae0392681dfaed70aff147bdef604500cc61af942b407e19254d0; P1 0x36704f08c41acd34763d15be916658a961336f93a62d4c16b2d9f03038a0e8889ae53f06f1bf25e24fdf761228 0x160f64c4f63343f37280c787097dae7a34ae8e53458c96092b5d385a23581a2b805df0aa076d58e855775733e28; P0 0x13a4c4e19ee25601312820007a454551cb87878981ee0c0481f639a069ab2afe9d39d54e38909dcdc38c67eb8bd 0x62e387fe559f96f33264b3910193cae1016b573bcf401af6aba287f6ee7f137c6f68bc579af72c7aeb92c0083d; P1 0x315758e89066a3ea82fba9735ccc1e1cef69db773f33e32fd3176e3976901a23737982d3fe629da14b9e6e7378 0x177389a85ddab714dc55be274c13ed83d6d911c99b51f9f00f2068430deca9820dd4db3251ae6187d18fd9ffe8a; P1 0x2c66101cec3e03d750473496bd14010ae652ce16c2089fbf5eb9176e3153fb0955036ac42d3f5a79fbb8782d52e 0xc9d575b4b73ccd49db2c38ac775de0ef2f329281a718ddddfba13b84196f3811663677c2eb7404cc1394f44176; P0 0x66c58cfda2a234345a1ad8ee7b47129bdb0e00fbea0946defc5227ce610839e33f9819915c4c87d9e6b998a959 0x148786641ff02b3bdcbc56c4c1c9e089afa00fa565ebafc4f385ba7026f261e11ac2d056f5b18a5894f4c4813fd; P1 0x22063164fdc227fec53b25c61f097e1f8dc6661d27b8be7de4e6d5915b16b92267182eb0b30409208ae82724e1c 0x12c50203a82c8d6bbe1d60d91a255793fe9f0d1b0a759e31cfb0f0abfc75c98bffef1dec7fe3f58538932ac1d2e; P1 0x1c70e0dbb25ab828c26935ba3ef09000166130df8d89eebe7c70f674c58113d063c26cdc91c26be9cf08ce8b1d3 0x8a0f4c268b43399378a0d51c7751dd01bc36aa6482f5d44910e8419070623ac7fb38bba125387c2f402339751b; P0 0x30160c1cca457571986e15290bd96f2ea3e936e3e012fcc45bd871f51389ef4d44a19dbb0a0c90d41c336d31da 0xce344a9b92061c109323465f11ac0f94f737931a4a1ba22adfa4af7d26ea5aca1001187aadfbdc7134b1a18d33; P1 0xd68a902ef55d7cef8aacf293cd85cec4dd10df6014cfde0141a6357c973d5d9109a13044456d5c2ae382d11709 0x17c28545187dc813d96719616c6f61352922b92cbc2f535856c4de4928b9b62d368b2b262f87d68c54b56149b9b; P0 0x16c98c313028665b98f5ba5c728f09406a7996c77edb7c8160d8eb97e56e38a8c84c71ff511a3a9f354d0768545 0xd8670a000d639c907383e3490553ab54fbc36593ab40a7cc1fcb364321e0ba90d9711cae776c130fcfaee3b05e; P1 0xec4981f23f7e29269a9d602714fb61d5d258b48ccbc41a32a592605bdd7fb491db345e0b5aca552299cfa38881 0x1744bcaffe5dcf5d4e858194ee7e64dc0583f7c550e532047c67ede73c94d2f6c37a879823096ce06ca2968afc9; P0 0x15dac5c3f3f5bc3d4863848836ed92ea904f59cc67619f0a1bf9848c2354cd9c1232ade2c61d92e4d5f5884d057 0x1559fec8b80afe7c9cf6576760667ff1762b671bcedb27608512407888721f8383a8d8653e6381361610614bfe8; P1 0x24cdcdd767a564aa393b1aaadb320ebb8a54de7af6e767216ec8deee074b0d09e64bba199331faaf8fba003ddfe 0x1556ad8ec8dc3b28a2b5efa2a1583ff8d9b2774430814d9a34e8bd06733ef156158cfb4daa73ec683c3d2e0ddfe; P1 0x24c25f15fd7b4efa348391a8ae6e4e663638387212e338769680377192d1464b927c99ff7a5e2100f66d58e8324 0x105ac65c3e4ee5618f960a755282815d36f146c8b08047f23d3f30e874deca2a24b4c6c2c7d5854cba19dfba42c; P1 0x1597d4d060d84c60e0c652f3926295e9f6c3c669c457903577bbac1d052feed18f67453cc8d3ba5e42dc863a761 0x79790ecb0b8503869e2547931b269488a8a282d8c5488b173965deb695ea8aae7096c8dae887512bbe08fc50c1; P0 0x2539cf13c6f0fb53373d50fa36d9a52d72159166cea2568fbcf3a2f7d54ef93f18c7fd0ce0ed3a5489d3bfff9c 0xb0783f41dfcbfb50fea2ba7377a28a7b45f73c87112afcabc99e6f75f587b4f2d1ce7e3989e83575248f5b501d; P1 0x9d20fc0dd8e073ddf17334850c310880e7ae49aca7eb74138fa50cd6299776d515790d94113116496e372d5321 0xf55340edc8e7e98cd0987c62db82eb86304b305ebd8f5757f158285d51a9336e6b29e3ea4bc43cb2fe32f7e3f3; P0 0x97d595294ebf7eca0e9dc5ff8b4f1298b979f577d11289ddb1a72d8da010dcf5ae0a761f20f5e560ad44354d4d 0x11fb7bb2074e14a8803e092376fce9bf74d02bd23da337e35705c8106d069bef38bf8aec1bfdc954ae05b345336; P0 0xd0d7a8b33fa88fa080a7e819ebdf68e5fdd64eb788f373a93ff8f3cfc24b9e8cdd5d659d163ecc4ba362318f66 0x171786b63871502bf746f6829d307d7042cc1b495c740206fe9792bafc5d939468ac409a3c216c27af23cd3c44a; P1 0x2b0c55d6d5c050657df7d4ed8f6ac5e41a229b2379f074c3fb6ac2c40d33e7d15fed9578dad91a2358352e56627 0x122168d5780b5ca2798378bd86abf24618a25baccd2657fbd002e704b7da22f0b399c53cd4b71f00a27e6e0c8af; P1 0x1a8987104e9b41e7a3950e34acaf12c445e11429da558cbf01683593ad6754dc1a447e3a953458d24735f1aafa9 0x1c8dc64cb69d0104f23088d49aff52ea0f8e72841ab7b5758e88beba39a5245453fd8306c58e2e2edd6d92fb2b; P1 0x41d2241bd3d26c2ece7864a051fae84660a10892896d34ff308c7450a806d0f7c2cddd6f88fbe558273d45cce 0x9b6c0ac85b588cf114ed88ee96278eb6a63625e17b83a1ffd67abba744d296ef5b0774f37ef1df36f329ed5ec0; P0 0x3cf0f049d51d40f9714be6e757abe5f798d26a779357dce1cd920ecb63fa584f9a88e3bdd30ab8777d539110c3 0x60a96ce5d0f63c14035d1d8b2c1177289d3495675a52cb3682d8b394ba99edb8e2d4e11fe9183a95a2c94e1783; P1 0x2f24d65b5a0ae856afe6687031b3dcaba838ec62481af65296367fed5bffea118b1c455a1704e5fd97db646b5e 0xb249b61ce0858d0e68992287c2114e4685243fcc48addbe60298900b5116f561adb37b6cbcef87409e103918f0; P0 0x503113ccf0f554966701581b4889603e2181e30ed50c183d5341d74f390a287743f296f2e6d49e34e1f1b6998a 0xd3ca5d6ce10752e451b3253f8f8363238e90ee5053f60f527c8c1bb1acacecec916a828786947c720f7886710a; P1 0xe252a80357b3d58bb8717a6d2e45696d1cf8e2aa1a195637b78a8ac2707e163ffbfd17d95048f24c22460b7417 0x459d5312bf33b96da6c5fbc9c0913302d8050431f893fe548f90cd7d33b6150350e7286fc20be23558b87b109f; P0 0xc39dd54e31f32888479d0e0bf25af4341ccd0789a4d2d503089d42f2fec2a0cf40b958b1edff024c4337f040b 0xfbb4ed209688d066df9ddc24e3dc28e353df11ff58cf0c57fa926d4155d54d4689bd62abd10d9f14e529b61f8c; P0 0x9fd613e0165f5f9afc3ced70e4b9ca2dd3e2a895c51951f6f1616c090ddb83aa8dc7fff43df09f44723316bea9 0xbde07993850a3b893270268e67f5321bec8065270ff5849b08593a8dce06035f5ffb67f3d81d55dc815402f79; P1 0xb5e949237167981df3f9a932a389d1956cc8e3eada50c1fddb7b7885378bd40e10ab18ea3ef8dad1aeaf0b54 0xfadd6669de9cbbc0f40780328a369d44966be9773cbf087dd1e8bc86e9c678090db83c0a8064c213936444d6b6; P1 0x13d89a033064f0ad470fdb29778b36168ef1bda9fa4fabf61a233c223e9e0a0aa437ec4eff00c0a63a1f043b52b 0x12880ae75d7b02110b8fce067d7503448c63d7c65416e2ca9ba3f009270ae59a6c6dae38a9f8599898d3cdca8b3; P0 0xddca57d4880d2506167edaa147b0ed3f53613b814c6baf1d9285f19fc218afb8fca55d740d895f48cdc43dcc5a 0x16a5db333dc7f0da774c35c8e00d58c3fef86167890fc64e8d1a2446ba64ca431f1d1a5e25d5c71d6dd65298403; P0 0x14b44cd36d632b3a4f41865ef9b544bda6810089518de6317f2035f20072065c042a3f3579389717bf23534d2c0 0x6bb28e0c65f6121de9e9f19915bbd6af9596e002d4457940560cef77db2046acfea5094e2405847c351f081ac9; P1 0x3a85e3cc591cf1f767eca4bfe16e35d5befbd04b414e731a08d5d9ebe8205267f7f49044a03318179dd46bfc7a 0x8e59ed13a9c45d3e5c4723b0ac9fccb962eb89643dff375cea862ffb29e6a4c7318da017a1b8e098c4a213729c; P0 0x331f3ebef3142d2ad03d2a53f8b2eba542663d5da20692a86ed1ad6d4e2e82093ce04a30788b64b19338379462 0xc090b36bfd6ea73b851a1f15e049d159234b3b941f8ac4b7b2db7e443f94ac9598b6796fcd58aa3c38ef033ff2; P0 0x5d8caa21cca1d31ab14231d9414555322d080de93f18b5c98df2cf04e6d5d3322315c3531f54f4bb6b6e6ea000 0xf75476626f5fb843756e27e916c2f92bde2569ce4ab7c2fb9b691b09d1359fd8c520ee7d06971176ee5afba0c4; P1 0x134a6e09ebbfca2ca8f10f6ff12a5f8a55a1a6c883d413005e0dc82055e9081ff3fe394b3b645ce7926e09cf217 0xe57d58f0944dd74bef660df0b091232dc76dac26284e7f037bdbd968b209af8f1c9a549ddb7464dddd85bf91f7; P0 0x84dd873c17d45261c3746d9cd5449e0c93581945ef480d4fcb122690bc7f083553123f517f6e986f2d1307012d 0xbd66409c02fa841bc2404032885107914f04a6c3b5909ea33ed6fed7a458a0e8fd591754f895a5c96493dba2be; P0 0x5a7fb1e6f9a36309cc5446f1f7297f1f591fa863ddc721ca75ac6063cf30b4fa45f7c97fc004cd0bb5864b210c 0x57dee48cceb10e37d22eda5ae99473eb5b5fb14745ff3d1eb4ab07e01767e1f901e6194bd34be8788978758110; P1 0x26f567983847f2a24ec8bd794686f247b1ee2216a0989a2188c97bf4c8630a63d8f15d9950350fec81be11a4ff 0x7c4b640facdad79480c09174ce119fd613d538026edb8b399430c66eb7feea6d7c384eb25138e7548e99fe4bf; P0 0x26f9ac8fe972d6c2c523665c8d13868818290d0e66f3fb4418d48f6519101c3a3e272e50d2fafa41d79d356f 0x1255fb1539a32755b721b07723987e62363be73219f042bdcf6bb4e4f6df3da76f3feeaee2ecabaa07ba4a0f5b0; P1 0x1b244b423dedda55446ca441000219b87f7f189d4179d12750f33e0726a6b1f410c8d88657a3b81a085d1fa6c0e 0x159d08df8cb1c2e929e881974c3e97765388412118363724c0ff22e1cb2de58ea8f56a4bf0e6b707ad868e7bd8e; P1 0x25b655adcfca5136302d5e2d8031a136d45a4724091b93cc0964a97fc96a818ec31ae97ef0352987ab92ad52a33 0x1068fad5ada1d51e04f04970eb7afa172e0ac54dc17e785b0ab5a2d4856b8103b6a86dd91c3f7b65ede88e3d27b; P1 0x15bd67a268aa0042f099bc8cf4ffb7735b979b653beca0c1e68df7654f23372ab003cd42287ea22899cdba0afd7 0x147c907aab343b0125173f65032c9d36f8e2491872ae2cd522d232b9edb162363b3a42df8f8aa65b16354a321c9; P0 0x10f0f3321d1cfa36924f4204a1f80b6910deb55f5164a53ab8e2d78d7d7b160e38e00fed9e167e0cd3a24052c7d 0x6d14069cf5952341942cc5dfbe614baab3d7496c1527a02fd9855379a31b8d080393d280f4b7e814eeb15ef58e; P0 0x1e0440c158c5c606ee17ed370f16b27fef19164f7b383c2b8641a70ed4a65576ca265938fbb88e90b3e62eb763 0x899f661b15648429a96244b50ce39e6466f311e92a525a4c28578d0c9d5699d6785870fea0851dc7797ea30e7; P0 0x2fc838e779f032783f0834ac40bad395bf167807c472898650356a618b8b5db0b342420abf4904ad1de14a03 0x1f92d2d5ec48a60d22d0b6576fc1e1c17d42976b30e9636198fb23489ce632e1ce921c5cf77de09171f6410134; P1 0x507a96680f7d6a340bb011c5863ce8055f7d0a85bcdd434867d9d0f515916425e77c3b6f3c95ebcbde88cda04 0xfa83a9734d9e73188794055c17dcc82d9418d0451f332a73d9580f612f17bf96a5a708dd4f0bf35ca959e74824; P1 0x13ca69bc8208aa1753eb388bfa1efcf2f1edb94a5168ba9203424c63d47777a6498bccc53844cb459a150067a9d 0x9fb4fd3f845a2253db847205fb5ffc944aa9a148a58f41b1413c9b03c62271b1ec3bf5a4a8f70601dcf6e525fd; P0 0x4059067bcb3de69d20a71f3154bfb34e82e0c72047f37a0fe187d39b64c63878ca389f9576077f2c522ce7b616 0x64e3b35758cfd9bbd957a19181fc21134f689d622f323c035bb523a4d5d2e214ba51f31263af8b0d483926039f; P0 0x19adcf146753191e1c5a4afd772fe3d556f223634064b09093ff7ef2f24c3c9187cba0b62471100caf967329be 0xcea72461a0e9ed5e81461649aafce79cf0f6d71f23f7710a0683a72a8164fca668cefc0b16e119da5641f3b1ff; P0 0x6bbce7e131cc1c7913310a488315c89db8757f94003109fe2ca8dea29d9597bcf9e5d9f75710fb481e82bd3473 0x1193531793ecaa29d9ae4bffd92b10e12549f70cb8cf018f715787eb945eae9de2fdc09b3110305557543d19334; P0 0xc77fafdf3d7e635602f5c92555a2ece874dae951cc97424c27e2a87d113de7c79886bc7b8ed8af4337554e4341 0x798dedc654d1620242f638c80260bc7baf43c7ee5fb877a2e7e4eaaa503e214a3aecbd590f5ce0c9e360499811; P1 0x4a8d35dbce6111dbcc4830bac75ae2f5e098491c373867e038db6a253c72f2bb118f51f843ec6e1d699cba2799 0xe9fe16c740165c13b3ff948a5239683f7b2afc5eb881207430d2f0789c69b9221bd89671d50c9147c7dc74e21b; P0 0x8a2167f7acd7b2f7ee8687727f5496aede07e16782e05758fc36664b8b47c90a913d1d524922883a62bbc36525 0x13e6e31b495abfd11e5b56e65631d6ec0cde62c31165468b2d7cb50d370840ad1914e9afc10538f3de02b9ee73e; P0 0xffcef0625ec664b0b59374e1d7e0470323a1d0b0b081cc0cb0ffa6a93c6a0fc447d8502b737ad22fdb20842730 0x15191c350a764054b389b3244ae255ab357169007df1c483166befcfd755b8f3bf1ca96ab3466c353daef614634; P1 0x23ef7201313087b77b26c76315a2947bca31f52992f7aa24fe54c739cd2830bb3835b13777b0d93493a3782c71a 0x140a81034bb735b53a66d89543ae3e197b87c399a5d74b8ebd0cb58347bec1a868d07c01e63cfa8c392101036ba; P0 0x10365bcff6870eec4ec9bfc4a389bf22f604f8d328e5f9f74574b4fe5ba90dd88d0aebc4d85717b823c356ffd99 0x1404b13bba74dfd9f3eaefd08f05b615dfa66c54af377f22f86b29a3b41dfc4c51d4219be497b6f3ddb58b2d4fd; P1 0x2059ec269c47ac9e49f4e689b0d653c45ee6a3d7f4848f55ffabf2aadd9fd83fc34156eca49c4febb81e178dbab 0x16251d4867ea2aa2aaa47eb1dd31d80e110ea6e3407937e2024d937f4bf08e904e09fc7e631f80515a1554ee07d; P0 0x13cb86bcaaae1afe5f00ff560cf5776a5f44ac513938a36726a7cfafe708a46409f09981f5761093df5aa941d0f 0xb8c3a1d5b4ace98200dea2162cf8019ed6749dec9056db974569cf2afb89c729cb041fb75d282c617cbdc93bd8; P1 0xac3f2de5fdb77a6e2c23b8a1d88ffdcfb6e5de88b5312d6406133f7966ee4c5ee0acd067a728c8cfb92460ed76 0x141d65eec398d3c85e773dde2180423000101313ad5e49c9ea102244dada3c461bac475f889688e20bc30e94376; P0 0x1054fbf20db3680da8d1d03c48a853a563c2df81e677406efe897244779c25f4f90ed54f7775bcdf05711cd223c 0x122d689b55b6d9021eb3de7747ed01689f0d0b5a5e8860869b66fd945247263694468a26f933251733e772023a0; P1 0x1aacb2dbaf43182c601f540d4f422b574f49faad639d309ac083f202d9c7c90f48edcd76e9d4f8d2669b65c3428 0x17ca330cb4c69128791594432ec9dcd0cebd0b76ce39e7e55dbd99119bcb8956a0a6d6b64ff5d946fe32fddd628; P0 0x16d84933f92bce833f18b93c883bbe9e07a2f6f9269d302cfa7359eb9c401284c9e2372dd000dadbd708b2c2b70 0x13a69dc9d8a1844f00655d51bfc642470648c80823961481c7759a63b485937f4ed4693e27beb11c73571b0cdb0; P1 0x1f2ca4ff3c92e54129397e660e1f99d7be477ae4d14f20067c629f08467e368ad26b45f0b3f05080bb8a1561c69 0x17ffcde473282d3d199d14a66a1a54a701d1d6b69267d60c61db4a2acf59e2f0901806850b78924fe598155faa9; P0 0x173fb0af881f059e6ecaba05520ead2e53172f5966e41fd035e3fec4cd241536589616f1917fdf322c529ba58d1 0xad1229137d07641bcf6319c6c97eb792fbbff68cd5ec8736d5f14ebc961a9a7fd8d5bbcb6eb07eba46f455f2a2; P1 0x9722740b05fe462c624dca9de153a3e290bd07f578ce335d0d367350768312f35a4a8bc0ad4204c7bc8c0ff696 0x3c69b73e3c5894d68fbc338688f23b8e41fd192ed5dbdae89443f4c4b3f91057c7c317f51d386ed9a2d94fa51e; P0 0x93524347bbf912f7cbb20074cf47155225dec6b71030030c2b2fc95e98cf2246950636a382a885a7a9011fa2c 0xf374016e5c0ebd752177df8d5866e02a80c2f2d4c0e3c50548a79143de9d4004e7a8cd99a93e9a366582478cb0])];
  mkcert 0x5bc065010a97a162f78b610a077bb97b53886bb266481d591d2d02fd6aa2bf7392c391499b2d8f744518c799a7c35911a7 ([(0%nat, 0x5bc065010a97a162f78b610a077bb97b53886bb266481d591d2d02fd6aa2bf7392c391499b2d8f744518c799a7c35911a7)], []) 2
    [P1 0x0 0x2; P0 0x0 0x4; P1 0x0 0x20; P1 0x0 0x800; P0 0x0 0x400000; P1 0x0 0x200000000000; P1 0x0 0x80000000000000000000000; P1 0x0 0x8000000000000000000000000000000000000000000000; P1 0x0 0x80000000000000000000000000000000000000000000000000000000000000000000000000000000000000000000; P0 0xb291b7955e7bdcf83c5af41b437ba5970000000000000000000000000000000001fb462dce8f0af4148353 0x511491c660a5b1813310bbbb69e5021803113b0df2915f77d720e3388b7bc1997ae549026d77b2a2c1faa33456890ad1db; P0 0x47a678585c45c5b92f39bae7c6b4a0df7e8e17573ecd3b7527cd6e5c5c9be5ffde075759fc92770451e7fccadcd7fa391c 0x118941c65f71e3a5b88d764c4d45aca3594ce6c78e645a8632b605cd23adf7fbf808d791e9e3e04afc66f7df0ac6613415; P0 0x35a0433042f5ba47b9f75f2f0dac52dd2cf28248ce16bc1fcf793bb35449488807a78acc6c85b37239f39bd92ee777ca8 0x4828684ca6b8c3ec8b9d792ff56fd098a6b90d79f561f81ff0c85524efe397f487fdbe308dba8644fa868f175730e11021; P0 0x38bf97cdee889e49dba316045f2e828b6d2a43da887d43a16d51636f398194cdc517fb9210fa29b07af49efe6c735537ca 0x7c45b5590c023b5c211392f628ad2f13df1fb464a38a6b5683bd6a340ede8d90b01801069586d982198f1c30a9280557b; P0 0xa851e09dbefb94a08c411098acc5dc4e271d58c5b913a24fb8d259d7fbf9553c0a79a6cc4dc40a3e283e5175f34f3914 0x110d5d0428e2e861640ff86c4c8bf8361dfcd0cb4a17638c950832ee1cd6076891e6441b0f78c186d96aee9946d41e590d; P0 0x32b4fa9972508521933cb4c8c1aaaf2214d69b5c47c2214ac5c2e0a62eec391bda7a3145d0ad057ad2559abb3b0f8a63f 0x2a903d3cfea3b13f2a01819983b9c493284217f5401c0d3069c1bfad4bb959260b2eb5ffa102193d1f3b438c0cc7e06890; P0 0x13bec0b9e61d7936e4988b04127c10581097a25ef53e1a19fe5c527b5cb2776db1a2e5b9e000459b383df89da53b073b60 0x17d50bec99d5ea74a445a9f68249f406b443511a84dc7eecbf1c65653744f3311cbbd8a116a46a6c5750f301b445ac3560; P1 0xc6175e34ea04e9d705cb50ac1244259e34d60483242f1ded89a6089a9e8e3fea57b61494f0cfe3c2d7ae15f10879092d6 0x55c8e86a52b53a3a8ec27e45272b1ab05e08d3f405af269dcc62544d4ad61c5c030b161a359d0f1fd3a3d521bbf0cbc866; P1 0xa0698315476bc85da12efa3dbf61fe8d7f3ab060b0a9e219f0e05f465a8c4a0ec746a4891a3a2f799e64c38859a28f79cf 0x3e9f1ac3246b27e2d58c08ea2289bd0d8183885f99d0363700f58d86f3b06b84f2b199c9bb7327b2c4de50b4fdc4a0dc3f; P0 0x2abd6aae07a84e3baa6e33cd09ecec8731951a1b634a15b399d21675090f002fe2c50d120e0a0630a807a692cb77dd1c26 0x15dc1da36711ee1b1ae2c297b8f1fb33e65867fb1646f5583559a731dfe023eb09c6392434c07f13158305320fe8ea74b7; P0 0x53546a53dc94692229cf90783ca29009ac84aa78e3198c8e514b608409ba8b6bf459f0017c7bc7be28dd6a08e5876d110 0x5a875af45c18e0c52d63d3ddb0072a7efa3b48ee8cabffb226e8e46ae6b2d19ffd63d172ee98d9b79cbb08efdcbcde961; P1 0xb2a4f9dfb4947a193bb0bef3bee74790bd5c0451bd804da47043c4791e59f44a42aa2cbb416549e8ad9bdc9874cd3692 0xa7f20ea68a4f04e7e9a949a18d728ea6d85a88769ad8872d5794cd15326e6029d013c5b7e10a72786e3c86895def72244; P0 0x13369f82f3a2f26b86e5b5f1fb88c6fe7a60f2bb25addf26b4ef650d033c2688ed01231c53d361cc203fcf20a499a56bf 0x32aa17395fbcb6cbfed443d1b55fcbb8de28d33fb9b113049fb0e8a1e84d3565c6124e51e74a560194423e393b2af5dc77; P1 0x37f3f24ce386a1db33d205f2cede832a3220c18e41438c63f18cf78f2c0423a38a056d56eafe34f1abcde71e4cfcabe9d5 0x20bb50cc15ff2639dc7a1e43f6c769fba0cefd02f1e8cee33590ca5b0f3d8efef729991ded14471bf3c538e7ccc28bcfaf; P0 0xbad42b07f78c50909b13e9cc3efaa51311c2fbd538b333c326a5a2a172a54e71a916d2af0c27e69aa8e41f382fcf1c242 0x40ac28c632aa878a47bc22a38df18961d1b18cf13bd055ccf66ab99ebb2b3ae7df1c97125430e80139d88434b68df85e93; P0 0x2d95dd9ea121014d854a84a29b9cb5d78f2a9fabc3ce7a5ea3b394ca08fe278ccfc543f0520454b98e88101a02dd92dab4 0x27f2ec13975f9b9e91b91a255ef3d26a70e985e50d1969b6897432c4b5858e9d10ae830d42b16730256a766d82ddd9a8fd; P0 0x1164d5abbb81607d7afa47a0caa72703ad6a39377bde2d4a7a0d504c0270e7a6ec8e8d2e158bc5fcc2daa525c8958c218e 0x3512f82ca3d113569b70c55e6362af36f9744c0a0a28f7ae3152b10f4e604fbc95f2de9d64744d41257eb725180d74b867; P0 0x1eb371d8a9aaec34e0744cd1369b4fe144ab9687893a799fcca8ed38c5c3437dd3f40536115899742382a86511e343f7ba 0x38e08bde4ecd7b6bd711166b362c575ee5d91c1234bf4645a9dabe27559ee83a787706478c81ba2e423b47bdd585b8451b; P0 0x2342238b1095451008f46147753c1b46169905f328aced8b95b4065fcb10a162b3abc518c509fa8b5849460be65cfc1f32 0x5368a9747a06d9fc6ce8e724ab568f787a51946908b915b540533bae0ed6bcfc4bfd6a9a7e331c676a511e2ee4228ae53b; P0 0x4bd320193c253a35a32a4ca87ce41125526f3ab7ed3b9a1b56e4dd16cc9c47240a3e84317befc7bece2a31bc73856ecd47 0x9e4297fcdaed1afe938bef842a92efd7f9218add747b2a0a6797442a3d13a8185710c32977797c670b15bf7ebc345fb48; P0 0x110fab1d17710133b6b218b54378fb23b267fe50a4ae82dd8f8a548d047624f8507b9bc248a09dadf430c83a53a774a40 0x46e98bd773dae599a797b992b8c6cd96b026ae7714e4864b72fba56dd976dd2cd63d278fef42a4ebc6feb03bae7b769480; P1 0x6d9cc59fe90280495d753ff55526fd6ee1ecf00e2ef517ddb2d5586b76a98f101b545d61a81d79b9a8f9d6161265af762a 0x35da97399bbb52b8419fe4390a6b28e06fbe92cc8666b782c0af7d5ed6d5899ba5952c3c00ef034e7cf2ab4017695fa09a; P0 0x1f9c15be90e6cadf81ab33508b7960b312cb1bee1e14bef16db54fd6fd8c1d7efc617880278a433072898c20e31886f401 0x83485630f1d05e85e994ed4ef70912746dfb55283609ceca24ce65903d9cb2cd6afeafb5c4c9fd2eec0b7cfee5d769efd; P0 0xbbd8711b4a0d4eaad77ee8a76e2240593ab16c27076ba347a36776dedd2865c10f708585a3aaa92ce219d20b26def50d 0x4577cd48a6cc161ed068a787c94f7e7db10d123e8eb39aa11c4f81c8298e21bf0aa3c3f57e91113e0682396f6483bc8d8e; P0 0x3498aceaf45c2a320e83c244b79abd9aafd3f89dfd892c7b816ce7810d126a383a6dc5667fbe62f6f4b051d4e4dcb6ab24 0x2eac0a1ac7e26f51d3da6acc7a166c59f832faeb3c442f99cb22d52236484e549b277f290af8d91f329673226182cab248; P0 0x17bdb5b99404abe59f77441329a1d768b4cd7137b6f3f31936318f0c2d21bd10e347bdff425d6dc9ba9a8a7cb2e5c6b6db 0x43baa95452c96ae5567c3d54c279c9974dbf73db8f56e3bb55c6d6681ba7fed949eb4e3badb115ef3fce7a12ed7bdf6063; P1 0x63fe1a9162b3343c3c5f732ecd338cb275ba2e7e082bc8ce9095864d1544ad4149e814733501b5e8968461936ce5772f8d 0x3782540b27c027e706ffc3aea679cba8a97d73de6910f5828a4f2e999dc11926b69b175277a1e5a479420858c2db9b6a97; P0 0x2195285a0cdc0799cca1cf543f32e28915735e4c37f4a84c094f195cbdf1d7af33561fd9287089a5f74149e4e27d82a9ae 0x348f58210632331fc82a53aeb1ab739b19b818b8f22fabbdad5b0858032fa98d1eb1d849b09630e5e92d017150843c268f; P1 0x3c37ced1e0741d0be9a526bab1187b7d0fb57acc8de37f01dec4a95587ceeb5a6c06b7785fba3e9b7895a5d7a9042c2ed7 0x367b5e5448b80be6c4c635b134bcb3a5b8ba874adc895f2ae6ac8bf94df96584e280fc8ee9c97dbd221b8c9b76bffb281; P0 0x2059ec6c0f3d83a045e2d91677dde4bbce8aaed5a89c7d319e3d121df31a5dd608c7cdaa928c32484a9aa33a5418520c 0x9b7eb24b05f42c6a4b7857457db45948c0be826df63c721d9db0b718769551082d3a7edbfd1b368e38d97b5a0cbf9532d; P1 0x20f0bea6af74b11214d9a93a06214408d74dbcffad02af167720e7ad574b059076f268a382ed0cff7541dfa34f5bfadda 0x35a6d532924a53e75352a9753adeedb9d9c77be08b3e4f89029c2f612c22f6322972b343991f3a8b8d11940cd403c0889c; P0 0x1f5f70a593736a13c0b1e50435f8200b724a78de277eb9482180391abca633dfa7812f1a8b93ffdd4c7174d5a4fe35020d 0x37cb91a2f73db45b6ac32612f4b4c9222ef4c0607b509fe892aa83b520e0d47c79fad4e550d6557c52e3cfc664e3a9eb95; P0 0x21ee01955b9c6bbb6d0e8972096765d6f473c055208b37070fe833d897e71badcd69c852125d2b038d0b6d87682c018ad6 0x430c7ba1982d1320a6cdbe64e1aff45f6dab59d0cd2dbb412d30525cb9c3c993df3c30bb20654b94d2f41420360be51d1f; P1 0x61fe62ff743ffb82650e187fa750ff15d8846aa9270e7068f38c260bec2ed999dd2caba29f8781ac329d22d6212e482ba0 0x4200b95d4dbe1d8e57648c5c8bfacd8ef8bf6f09714366a4d24526987995b3d711b7142d98110d30d11c6803d986f1fe22; P0 0x2f7ae88e28c394755311906a86cf6c9a98d242c1ffd2ae58c34cbfcf01574174353d2da2e741913cffe3fad176f039b9b7 0x19aacbe45e79ca119d0b007de06a6741140eb39b7f354fdd4657dc2c9cac76954d1b4e88082c1126231e334ffc8faf2f23; P1 0xe5c5095828fddf218b49f3a9b0f7ca628f907b56aa683f876969abc72a87c21700e8f96af1ff6f8e664894c23472b8c45 0x432b5c4cb640ba120e5155f67c02767c9340360038fac8fa5d933cf5564f2007e96bcdef3ab05c71af982d80288459a78f; P1 0x6258b995122999ea8bf35296b5c80b24323c5bbe2341eee9a13fe8d20fe95795091863203013c195b6894b0a6072f45760 0x1aac3863369bb566923995c23c05887236ce4028bf5649701a7ddb85c55e29d30d4f83cac5697351b87092401516a16422; P1 0xf8202ceb7e222a4cdc8006f0ed5151e169645171f60a62aa6e160e68bf90008c41da490ef596a2e952cd6f18fa3f8be7b 0x34e8745e654e19bc97b8219d86074b98f4369e2802fe77aa0802f20bc0b74d957370679f38288f2e2b9cd5c2ab7e2fbbcb; P1 0x3d04abf1a510a81abf92ec034af4a7edf1f9d38ad91df64626ed8d5b0fff867bbf801552faa8655822d17cb6605c7ef7e8 0x1f29534684ee9cceb089931f6f64153fa38fc1140a5f5d7fd2c76325114fa8d9965121802e284d2fc0b8098795f7a6459a; P0 0xa95537701df55492be3df58acb2c8775845eef58e6ee92d99430aed3956de04bb418c763eb6a3dcfe5a5a3e30b8db6547 0x3bbdecfb98385a5f9344d506a7e280b7a2b8e4fa191c9df316c0ba8b1becb9fd2802555fc63c3542ad15c506c60f1c9853; P1 0x4dcc92b80e6defdd632785958c97e1e6e2fa1b0b7e4cc0c918bbb1c541488caa979cc9c13161c1a67dc2234768b95191a5 0x2ab56e151b318687f14fdc29467430fd6bff5aef000792ea42d1787033e96f42ca0116976d807ac90ba32c0a502d565e2f; P0 0x13e15137f042a517794125fbaedd405a409626adf33f8ec645f6a6f3ee38c59df8ac4d9a9458984f9b5bd9f7647fe8cdb3 0x2caa05eb6cab088fa8b41084f1052a0ec78aa9353cd9df7297508f45a0c130e3e602bdd393c31a5d252195fd2e2d7879dc; P0 0x15be053d55acaf40349c381edb8cd64fa956d1f92a7741425b159db8f8ac9b3cb98bfa6d168cfa0815d4c75a59271f062a 0x502bc24da2a7de3febbc82d5a648c47cf37de69f8d099b30044b0a3e8cb13d0e950d13d2b535fa9567eaeafff71901e5aa; P0 0x460d4f9b18050985e7fb1d48a32dc8a3dc9a5b5f3361a62cff57a70b639336cd4049b15c1a45c8bfe15120f0eeaf3907fb 0x2db9a37d122dad2ebe1d393f5c6f919cbb01fb3c65cdc6d75d5d39cce405ccdbc271a8f671d4cc62efdf649feebe5eb527; P0 0x16c99a711c545f7d458183c2b860a041150d6900dea9cd6ae6714f48c0f917804b87b10250a36590eacfc9c86e30bb7fca 0x3ea3a575b8b69029c99006124c1a3b2cf08223240220e0dac8ac41ea700ed13ae60e518eacb412278df3131308e3cd652b; P1 0x55873c073406271fae3e883af69ca16cadb90c48c2b9a564c1159ef3d89a45ade083aee5ecb4b68ffd0c323e356861e440 0x221d6863395813771af67deea966e04070ee6dc408413002bafbcb55bc40d2c6c3f37bf1526feca25fb4e314602f6dc4b2; P0 0xcaf3cf84895914eabb4b7c91a96fffc12749ec5df25a66bdde178667c2b87b708a11d2dc538e05413a4060898a6e5892c 0x23fc76d8958b4f9a65627c46728206bc9d5aedd065067a94e945ee3abfdc4747b145f9d6f067d2221a6ae46f232090a410; P1 0x1c3a81377b9c9943008bb9926f0bce1716168ca663ba52880f91af153b1758bc175870d6a6ad8b0b40fafff450905de243 0x377eff3208eeff832a1a4dcbc3ab0e2cb8544c749fc728d162f827240179940dd1627e39afb5ae8672f355b63dab8f54b; P1 0x4322411327704ce48c2e7df6db031966437516b26176e4b0fb0606d552582af50415ab1f4599234f329a78f42af615a2 0x1734830af1158655060c19dc3a0570ab7aee6783dd4c323845f405cfb934c6695602930364c40ecd1995efb3f63c676944; P0 0x5de6e38519ab27909cb598e8f34375ccd81829619f876412dfa9ec645dd3999d8d8e42b5d5966efeeddba549d3541dc0a 0xc6fdf8ee683d488d9a7e95263e4b135edc3be78d13b2e014a0fb9f939048d3580e44facdd4d6eef8a328933af84f3a58a; P0 0x1af93b12c9a0133c5bddcaa74a86599d3821988551a5395fd51bf0ad738ee8433886035c84ee629aa12aeb910dbf07124 0x41fb06c7705b8383eed7e8fb989c8aea45f53b8750c1c8381c45317f161e2953e8de2b2249dfd5d7f9bab3b169cc25fbe8; P0 0x2f72b6662de5e4942fb9ce1d80ff8ac3d533e7df02bf500dabe8f67f26ef5eb5537ff6ced19edacbea228b78feb55bba35 0x170cf7dd60b36747758c179f10145070857439b5ef9a69ef9a87662a6659e50df6a642b351a1a61e3a4db219ec074fc4ad; P1 0xb94fd68279d8e354d62f900a55067d7966940242dea86c5973be0c19f5974d0f7f94d3ee78475e753cb98e3f1ac1b4842 0x5813d688f2abe466fc308b953b9f3e5bacdaddcd32c5ae093421ef9016d519cd324a267b553147f7190844cb7f653434c4; P0 0x548cf1d40c896d203e0ffec79bf3680d8ca23d0fe9839ac13db25d305dc615208a3ab42210d5d98463a7b0baae7346ac8a 0x1dc77cdcbb5ae57302c791ea27cf3117caf3a7888a656d4898786a9210d730b9e9aa8b3d5168d8a16c3cfa204623f67e0a; P1 0x13549ea133d05bbc83928906ca88e0df30374cf83d38e9c958546711d4bb4a7e749e0c523d06417d9a98c1baea288861be 0x20ac2e65f4d44ebde57744a93258926a91425d7faeab1e9cd175cae99dcbea5b0f80a3d46e005a2539bba2bc4936084fd6; P1 0x1744f1b74c6f97501329d8f12d1df861ead1752d39bd513353094c6766749952da7438a71abba120171b43445506b2290a 0xada890d3f68b31e2faffd1997692b2d2b9744794c81d1eea9f1f74de305ff73b3457eb3d3a4f805ad0ae4b25ca71f1e42; P1 0x2915e3124cdc983192e9ce92ea4fa1d67574472cc2d1c00bdcebfa9a06bf9879c89cfcd47fcfa8330d6d26119bdef8e8e 0x3fa5fe176902ef7bfa6b37566fafd55de5bf033fabff6583b88c6ec5aadc76c43d350d982cd7a3c679110add7c5e03a566; P1 0x584e6a251a986bd75cf67a08b87696146b53e8c87789fcd0cc249eb24053756fef62035bb451980d1420a38a83b0b8f625 0x5913c143e44a73ad388983fa41625b5550b9454452205944fcf5d600bec802d4c4c737fb9b5fa72dcfb262eb1513a34225; P0 0x567b123ac06c4a9a51a781047ce650beacc79a567d3fde82c0ddbb95e4776153c8c850121ad0c4388177c5a132b89bec18 0x57fd887ab4c0a4b35d71a5f6fd45d0f3dc48c0a8ec5e77e6672ab671ab87682655b173792cc0750177bab396f4a5787db1; P1 0xa8c448e1596cf57e4bd4132a4cc5cc434796516240fe6e04fbc0adbbcb6b2e592c1b01c8b302c93e790f811ba6c01ad60a 0x42250f576b93766839f517e604739d8060fdf11671dca474975cdba11d2245a36ba91a1d4763d5fa60c5b2edb5a1a5e3c; P1 0x5f5e7bf310521b0c83fc0427d1ae5d26c90a9ee4152423705f2c17b123645a6a1ea6163f03d71c90fef4cde461f2b3a4 0x30cc3d83c4d7b36ef67bdee0c3ba5f82adba4d41824b843626ad327e38a9fc43b78efcdd344dabddc2ad2614938a7b2824; P1 0x33e7edff75353109661415885d817fc5e29108dbf7f953199c0c53c24f9c52de21fbcddb0e41b1f0834bdfaaf4f9e83f22 0x5d90872aca296dcc787ab87fd83730afcb75ba0f593c95b30d3cc45de9d13b5e80b8f7ad7ebb21a3d0296252864218f2; P1 0xbed3aa61df73f27df608f3f047e791f78aaaa8448db5fadb08ad0daa02478922c1e4bbb0c092091165fcaf0594c1bf 0x16fb35a16158cea9f8e815d0e26b7bb690afda15bc66fbc0ae59267f6ab0f30025aa634c96389a9ec1ea05cbfc111d76ef; P0 0x5c195d9124d386b4b0ed513c3ace30619ce7221b6eb03102492c5c53aa1193db6c64dcbd9858aec24c79d5017ea0fdfe6 0x5719b3161e8a9f988cacf1078ea831704b06e729e611826b0d48afc487d4659d8bfb9959c846145a857c9b4b782037de17; P0 0x52af5d4664515fdfcd0a0c4faf95b0a625392cc4d9cae4d3f2e1f140c01cb2c9078add5b5eafd47ea08f98fdffad329351 0x566b181e322151c1f44b89050c885e2688767a09209e51f7e5c7cfa4790ece61cf7fada0401845aabef5ecc759ac9e6b3a; P0 0x51652775196ec6c1cc91ec77656fffb84edfe33234dfcb31d82528708ddaec2bb96668a2dc4374874960320c3bba6181c1 0x156fdd5363c53f39b2a156b493ced01f9e208e283f4d593eae7f6bbce1d11e25a09458139ed84667e3d7cefa784a2f133d; P1 0xa0462ddaca490f349d3715b5a0db3db0d5f614987acf3d950c718802e087168875989267f37dba5bfeac47faee8f419a3 0x3ea4790da733d9bd8c5180147b0488a0c1d6471cfdcfaf9e400239d5a37cc2fc0376937b5f918feb901c91e0a36c14acbd; P0 0x2ac4beeef3bda2de70c3d71a244f37b1e15a7e96869e4314197c3683c514212b04475b0a8e5c302b749a7a4516cf698e07 0x3bb907cfe99bd30879790516297059572abef16fca0be5dd2e49c8ea6ee96bd01851f5f38c5df876be47e63dfee45d65f8; P1 0x4dbfd3594d60a1b009ca4430a86491e4e881e779ed9a5a2df2471199b401dc757bcb72f8d16319f722daae3a6fd35abbc6 0x2067687438e24701430d8a3fe25fb62247fdb90af848a80280895bd16fd241c59c08e3f5000b29d72628ce17f0fd1c9c56; P1 0x16e363042c286c302c474956a5bde08e9a11c73787a776fd65af395333a3e9666eda40986b42dc3d254436aecc530db612 0xc7e23f80e0bc172ecb836f85809cbc73bfe23cf28c60d854ed880a8b4f8db719ec80b6f9576f8be093b77d8e90346e20a; P0 0x1b37415f8f716024fbfc69e05525edf1f8289ea83f620c3a188fee733a028edeac5b88283b5c5f25f70499015163f84d0 0x3fa00a0ef64618063b48919a6467db522ff37dec2664f0eb5eac05d4a0a55a6a9455292dacfdd0156dd4799cf5497c34b4; P1 0x583de601aada6fd1426c31abae635eb8df34484381b4b7196ae13458f623b10fee8f7a8a23fe09cdf71a04f936a31ce29f 0xbd6d27c85f3e7f2e495f71f7d1814652c0e30cf63fb80e8a1a65d00c7953721ebfd676e99306c72f7d185dfd74947d867; P1 0x30e29dfd2ddfc23af07878c30732b0377edbf6e317bc10ed583fba57fbf7fdec025cb8df38b4c5eeb92aae9db6c7876e2 0x4b4744563d93ad57d29fe9384d17e92a1898fd250c2af895bef0e3786455df3c94a2263cc471619b4dec22c0f7bf136374; P0 0x3dc349470a449c0fe2cfc8963c349e44412a37596b875f020541a5537283ce12d591329ebc8a829ed7272733e493bd6036 0x7f069741fe07facf2a299cb325fbb7f7fa15768ceb5dccfaa12e02aac35a5f1bc6e79b2670f41835df0fc2b7179279356; P0 0xafdc7a60dcadc0988d80448a45a72cd93252cf4656f6f1858bb15fa3ae0e14670189c0e7456e9862b1d30d09c55db802 0x2e2339a61d3c480894ad0ac0192b71eace711f819d1c9674ffdaece42bf647e2b11d842af0f6cc822ed02401ca0cf2b596; P0 0x1733515d3fe4a61b1bbf86d8b532451726608a155efc86d257d8ca5c11eed67fa343c91b9cdc6a46104f64deed16b5b50b 0xae99253e1254fc38ea6ad28ffdd199730eb910edc7db13052b0ed50c09ab91d819cf5a2edeed8079b63ab3d6dad039eb7; P0 0x14c40409a0f7a5b450ac7bc7acc6b68f1f806fd56e0f6a4ea0b8ebe5dac5502348f998ae5a5ec7095af69ccbb67131486 0x5572b74406ab073c750f37ada6a2c77f0f50fe8b4e8d86229d3c48e6b79b9735d34ad1f50fd491e8e18bf86a9fba4b1d67; P1 0x9f27cc25922be68a0ade0d4867bcc7c50432835ff0e83ebba2ed06d3d8f5319f62ecaf8937142c9568b48c0ffd343b9e35 0x50f537bc77f298bd6fd99cb9b53b5468aed89ef6b984be077b059bd50a49ca1f1086bb15fc32719ce2c3ae6af76ba2454f; P0 0x476f19ec30102e6ae3df95c993fb0259f9aac044d066dab84e6082fd2858213b26d26415b16766a93e4fd2f0d1718db20d 0x4c8f30c4e154b584fc1cf3e8ab1d50aa7cf3c7c1970ec5f1c07d70a4bd9f2cb9f5198e315942ee545d194fe1b48af8aae6; P0 0x3fe1f5cc68b8aa5b7f731034df387140503239b8e30990cb97c5cb2dd1fa078d72759e11774386f758ba7f5956f4734b2d 0x16b582355042ca9baa81b53bcb5aa0ef7fc7fb2ec8f910928e9d22188ec72220be91e92065dd6a7b5ccaeddd92fedd3f49; P0 0x59ee034915f99a49c7d62ed233e231cc02a1777a00e704ee8136f11cccf6b062db9ae21dc6789d122eba0136e2a7a44fe 0x1b00b9ced75ef87804c51809adf287606ab76221766fbd17ac077e7ed07df3204b26ce40735e468754d5b64d9de509231f; P0 0x7f2712bdf89fea4d0e802fd4d35033836c79987589b6f3afac4a49dc2a6e8fb8a302bcb240c3c669aae66614ec11e8836 0xb4ba5b747efaaa755e9bd917baea8079510629d9e91b603c323350fe64dd4f0916b599c0c2df170e4304ad76374430c87; P1 0x2c7faad59b1101b5afbc8bdd565a5d7a51a7c28dfd32acc685e778ec0fcb16edefc8dd8c36cab8d3aa8004eee39f39fb0 0x23e62cc7e6ce8accb4b298943457b419555d89ea5e21f89662bb0a796e661c1138e4b9163ffbcbc938ace92b413ed60292; P0 0xe0bca083a0e8f5d6314d182eb2c92c5e8c3351da755e0d0e6bdf4e3c5a95c1ed9745aa00a862f65e89e3c78d426b0bd11 0x170501327a2b3c6dd2ddfb0f7826fe436e51885f9b2b8b589b7013a6ed5db981301e327885c5a0681a73863ac75c5c242d; P1 0xb8cfe19481281c1b8243a7e93352b361e13668433fdeea327f958f0f6af93b4e77bebfe84395f33e477cac58ca78e77c7 0x1fbc813e0b8c0378a3cdcebe28925b2eadabbe70aa769bc46057b5bada6972661395aff84019a187efe701ecc9bdd60601; P0 0xafa38920af24e4383594f9d54db1a2086b46e3c91ff0313600c9a48245042cdb8eeaa9912ee24b2f281936b10d00ba6e0 0x126f741b5206420b028c36d77ba8b60f1bc0dd59dbed693720acd457a7be28ccf6adec2b5a9df536605ce1174b62414fe1; P0 0x3b4440cd48ee83b44d589bb37864a3e74b7606407088ede79e69355f151408421755dac740c69a0f230a58f48d16c2b1b 0x1dc26856292a978dda7ab11041889514f20388dd42743e73e6c63d62cb823248846f5a4aed881b3ed5462c8a31935eba24; P0 0x9a7036371d6a14a3bb1de8bbf898c6ce2b324f8b4f93464bf2ed1d68af8d78810b5095e68d6ead5d54cf8e6249e7fe626 0x273f8920497a78d4cca334f92f8ebf9b86d158d623a1908f162dc2c5c8fd9103dc8ad172a0b637a8cc99850ea0b8daac46; P0 0x10c9fe656ff833d331626510565bd351c63420f99d63f205968e4c9198525c7163fa7b6da872f676bfd66a0fafc0e8cd69 0x427e1fd3d0e067f70213949b9edeedd35c5418bc74d7cadcee2b798e450efd2846c9a99741b10552570df0492c9232aa5; P0 0x302ffeb52beda19fb2c1c853c5af8e2e466f617b780c25e64e0724be2b573ab89db5c80215d3c5ed102ab40ef9339788 0x235388b1948e7e34db2ea6a165426dfdbbcb1b3fd3b4a63284e47d62ab969d0611653421decfe191557b28849a8638aca1; P0 0xd99f43157e6c7e158d5c893c3436a880c92a66e64cfba67fc95cb238246748806ffc7374e442495fd0ceb49e059a5f354 0x4912ab697a3661b427cf4cf4e22586cbd3787a8f611a40f3ae87afe51f7aa509bb3ad72ef02289bce8c3c80d3723a6d75; P1 0x7464cc9193b8b6cff9bfac7cde51559fd6826bb8b40be9f90ba1f2a7c5cd0a878e453b5d3435d6adff1e52e79ee1b4f5 0x40ac3e3e904878be60da517226c16d0fd494e698177947bc36c91b4bc378e83b2fb9952d054de278e9897ef298cd335e1f; P1 0x5b2bf7c617b235712a62e4e719464300669dbdb83248b52d1c62e62abb85ac521c903fb10ffbcd88af08efca24cd2f7fc9 0x1759c4cc537053764322459cc000a10d1c77ea53e19696a4f0dd1b988daa672d990953d52182f457f50d590f1e088fda63; P1 0xbe2ab92a4fde93542491ecaaa453c10c9a29fd7c7153f2779892a536c6ae911c4207de90aeda1df4c48400cbf33050d80 0x29012747d6e03140246c6bec797422b342a42e623e7e0f6ba513f2fa373b7eb0610762bd2e5183c8fe480847b7fa1c3612; P0 0x125343436e5673fcbffe39e6df7511f83e4cef632f12a034b1c4f198d226d6269c61ed51649d98b17fb664715662cb492b 0x1100f5551ea665ced24eb2464ea4ba59e48be6bd520dbfe8c2b9c3e198d89fa771f46ae820d8ccac4cfab41b13e3f00337; P1 0x64d69d9feb43a3a90e02f70d9b4fb2a8906d3735fcb24ea98b5b6e8f302e30eb1b6291d965004514937ffec708889146b 0x5b14b0fac05445e3f4f365aff053e4cc1055329f2da043e197745d580988df9a03372a0e83fb2fe3470d9f584a5c5a3ed5; P1 0xb4d47c8ef18f57f7be051ffc952b3878751730c9fccaf0e2c58f119fb7f87862cd861cb467ab3fd407276e42138a58a2e4 0x5375aad83a565c7630f28db2015c43f67d006e8721af444e3326c85ef44169d1377c79530e48eb09715fa5f5ab3a7853b6; P1 0x97d58e83e04a22376867a446c8d68d69a02a99a70f7d1576ca4cc8ecbee2e572d331567c98aea5bcb71a879930552620fa 0xf88734ed7c768659f29fb3c9e0c1b204ead19520fb73e0fee292766984d66d09755fa767e164e992323ac289d2304edb2; P1 0x54261671b6fe9ad476c76c6396f3b40c0a4d5c68c37c4615fc75f1172419b4ae9ab42b4e664be38c08e595c21419703aa 0x982166a02c3c7823a2285d672445f40e47d0b558d322f5342715ea42074c7c46df0e44cd1274dca9d30d1e89857aa71a2; P0 0xfc3e32cb02c7d0f6bf0d771fbb81016b7cf4bc9b530e547b980935a0263f945765f8eadbfccccea50e3cdd8b73601c5b 0x36e3eeab3e64ffe805d343c811559e76118f51095d3c0d93b13b563d673ea8e393fff9326972520cd096bbde156760e027; P1 0x41ad2326dd38c5f66b753105db98cce9a6f1605e980f2468cc108295797dfbe256ad1742f6914a7e89bec73e542d4d9826 0x14dec3f2879cf1e9a667d974a005f33c7315d027fd5a86419d428b7bbc2c99ec221e0e66dfd2ccb44166c8f547fb19c518; P1 0x97e92fb9d9f29a6a8c11a0823e7aa30a24320f0fa61c788044e1e279c042690041c1e8e587dc3b33f2e284566e998b580 0x519e9e560aadab8d17473c93da15d287040c1de1a196ee879b00d0c755dff3bcedef4413ab3fe9b1a2437e124d2caffe00; P1 0x9136892bcc3fc080d9980683b73199234fc8c08d02ef0c768c7b7378fd8d47087433363013898f37d2cdc629975061a0af 0x3d1d15f2c3be3245f4e66809be4a66ef65af1f836df1b5b50f4f69b7b7e233f50fc4e246728ff556dd2d28a20f6ad58ed7; P0 0x28b4d604a2c7279fbe16c553364d860d8c6f4d0b50608926d352d26c69ec7fd5dc553df1d333723211351f18d88c8ba058 0x30b402c0a8fd5f38f16aac4bd937f7975fb38001081a119155670eae6a40930c3af3867da14ed40843defb65f45225c729; P1 0x33b46f1ac1dc92083f297447b8a1b81e5eb5d61f74830ca5097c2bdfa8c575c31225d0c86d8d56284374d2f82d57fe1c78 0x4225b6078669f3e00e6e95829df5b7a0d08130ca3483f21fce67e604455b729ee709b2d033706ce60b9ee318e74d34feda; P1 0x5f605ca0b80c2063a54a9a671e857318cb52da7a7775e5eb43c6973caf0d68959d18fff8c342c2494c87a22e2e1a6ff813 0xaec704fa649bd31f4b17f6f3f7feaed128210691a059ca0fb4fa7ec3626283aeb06ad4f1e07427fbea1889949ee6b8be3; P1 0x299ddddda507ab5ec8884404e51820494e36033d581502f6602d91d7d9eef1fa10918cbc712af78428595c266f81ff030 0x5a2cb814206d56784d93f4ffabf739f18b9ecfc6b08d9183a2d7985531cf7ab65f283f9cb60da3bcdcd374e77793ebb742; P0 0x589ffb300a4abd2289a3722b05405f2315f63cd1123949e242b1ed9ce39d0cfb5e52d94a0bf38d8bbc5a81af4fb53bd57a 0x36ff32869673178f9ac5017b54e3bb9ab0e5dec953d54c77a6388bae1a94fc97e57c7b41aef7652b96fb19ed469bc106e; P0 0x20f73913ae4c9c7484e81c2e715444691d2b7a87cd67a34145e24eae1dfc6a2c8ada8c662e1a929d41b1b9687395a701 0x2dd4c3bf8634a5bc1bfe155aa6bbd68ff7dd3af849f223a43fb86ae2cfa89b29451d7e39010993609d1cb9331e358dec9d; P1 0x2dc957d7e6572821265347624964f6573ef98de91eab140363658936f5185e0b0d04ab5713f87b84d9d13470dd781622c6 0x396d3ab08fc9791aa345d629218bebcac9865bd5e1d3c5625453ef3d0b924325effa2906de87f8a172e201341b4bb1db68; P0 0x23f166b4b7d6c5100af70fe486ffe9f90768641fb04eb1b1d320d92849fcf29cc571885419b4253cec3946e896902a3d25 0x1ac4e5774ad2c101c0d1db707f5d84b5cd990b0de0c9720c3ba17382a4becb6bd008a26aea22ac9a6cbd2034dfc760c21d; P1 0xf9ec1bbf32578c06cf48265f6d9d903e3d5fb5962535318c075ede8356982c7a07c9a6507fb213cd26e173f16b529cb88 0x4a72aaf82af96531af592bcc3290331b9050346cf4ee783db66e6bdff6a77d0b2891d7b652051e89be850c88a22ed020da; P1 0x78d0b4a358a4f73b0ed01cfa00d7ed2da626414de46992fec8415b22da653dd13b2c9e3716985fe42966a6164a7c1d82cd 0x4ddd7892310dd700324456577bb78b6f88e519653a56e8bb963197f02994980a53fd03c1d711b4aeaf0c965b62efb9828d; P1 0x842928160c755aadb686093e9ae5693e0041cb6894481d38c0682c57902ccd129cf861c98567558e5030e56bdee00e2794 0x37c022cc4d1758f07e3f7165ef7dfcf62a198fc698227dcb6ec7c34341e1ba946078ee740a22a237c15b371667d86a5dc6; P1 0x43c036a2ed2d629620959b11bdb98401853ecde989ac6859732a5379a9ec1e9f40df5f0d8a3572403cda97309020e6b836 0x4a155a743e06f462c509c0f145c832c82ee202fe5db3da9133c9327ad7ea5d3c5640dcd0365a5cf0da7ce06f91df1f290e; P0 0x3bd14a90ad7eb33ac23690de3e51a6e3c2ca6b9e46e49112e61692970bb5a5bd73c56c785c20f0786b2690f93359def31a 0x4b9c804b2e0e288af5cb941b72c254a20d8214ec75b9af331790d04d1f262f67cf25de369ca60ad0c11f7ec8109b5a2cce; P1 0x7c9eea71531d428b016fdd58506086526af6818e17bbeb9aa2512ab06e9bc73dc792b20aa0aebd1ec13c59e111f4c091d0 0xc7b76a54ee072cf93f80a8bc7b818c803c56be1cdce3cb8960701fb056f77504cff4f1e4f9c9b4aea7ff65ede64c0fcd8; P1 0x3657313f919c986b1370a3ef90d3578a96b45d8fb16552f5ce47d59a96a7095a922c5b59a1345b5b6aa8e947b00910bab 0x4b3cfd368e5a41b4751547843fcc64ed2a873d2cfbab6937b5bc5ff73bbcdd35f4011bf91a38dffafe8ac37625ab9bf4f3; P0 0x3db26cf84ead3c66223585f9a6fea1311734ffe8409538e6ee2e8be48d65d68d9cfb81e9c8c06096f65e6f33017d3aca61 0x858324d0b579ff77a298af586bbce5cbb60ee4126974e76e45e9d2a7da5b1bbaa489c41cc9de71c7de195db54531ea862; P1 0x1848f94c303be4268a18a3f619bed61e27c70f08e070eff5bad838bba52a1289b444e353f8d8d41ec4cd527ec11d90327 0x1097f9b02683eb2d9cff7fe8f3e27c08fa2b681634154087190b6c843b82314b4ede3faee364a029cc566b8ade081be597; P0 0x30043a7d9dc8b18ab0d0fc041021b5c6aebe913e20219affacc20cecd0ee37a4248f7575136bc6e7c15d97fd39a2e8183 0x1f1af7741e0907bc59f7c7ed9027189a665a410d21ec4d250e70840c9ac31cb436a7254caac6790360de7080ba31464f9c; P1 0x151729c52c669d115df9bc71ac9c831591ec1a143d3e21024eafe79f90197e4827abdb6cd6500c455dcb288738de010213 0xd21fb12a8d6f6e8e802e2d0549cab2d0506b136ef09a2cae311aca3db84b42b244814553c654946eef991b3c89ebcb0bb; P0 0x1e13675d1476e3e971232484a9a3e3e85d2136a546472a07a6b9f0ee744189c1073b26e76c9f419853f17b37ba1621169 0x4f3b7e90b8498d9a167285fcdc3084db9dffb99e4b8dd5801d2de360492e3110ae986d4a453d358d1eb0f2e5330e07541a; P0 0x446be3f235f33e63aa65d78027dd0efd01a9bf6927206702f459cf7a196f5db2a96a2ff56368fc8ca8299611cad24d7162 0x4361733956da86880a312e84f27f118f111015f767333f400f158a79c3b9b9fe36f034ec08a8041c70e3101d4626ee99b6; P1 0x62f75d86d4501246d18602baa48ee1dd5640d4ba3b0d8a84edd61662496b0d743a2d6c3cbc1b20331a4498029a2174ea6d 0x1d0b862d59a2368d236b12068a258a0341c36ee61516610f0640a5df08146406f9654ab46d426c802167734e0247aaf0ad; P1 0x12639a62769733bb843419277b22c45236564c7fdc5b7a88f6c5435131b134f54a540acbc4d5b99cca5449aa082c2793bf 0x444ee2310ebc23ad8b2b4ad0ac552c8877dd6d788c2fb83a539605d5b9cb7fdb492b9f0d2b24e56c8e303d6687b3099939; P1 0x65b5a2022eecb26265960f68abbb38ee52bd4bf175bf9c22dd5d2b9d0810a4fc26c46c4b300cf3bf7a97930c1e26c39ca3 0x2cb0534e1b9df0dfb2201669b8d2f55ffe17f5a2b8eb22c41fad9549cda90091eee580b466bdc498d5a987e99acac15c0d; P0 0x15c4287274d73a578a0675fd12875bdac7c634e93e732edfeeaed0edf013f80f00805b44670a6f79a66aa0e8e87073e22d 0x4d346a7e18389af729bcc0538f1a6ed75f6d04e71344fb9d3c581af5d74256dace377b086dd7fa5b87ded6f3ee7a70d04e; P0 0x40f6db7bd5badc435f85999371e41922a14d12d82cdc1a3938b50e07bf29cfbcf76ca307f7974eaab8b512e338f871b827 0x2edf5a8aa5a6545f2db6008d37414dc20656dcc1823e88cc7469056590619d4e36a07652aef889c6c4fe29ab5febc61f53; P0 0x17f206de1e92110c73a72eb6b492bcebcabee91d88800a7b9b24b8ab08ba353281fa4189da9ebccabbc5022f5a24526b4f 0x4f307f89171a8c2254b840f439953a9ac755f099fe4c1588996153d9035dd89597b0354f0e0d7fd4cb0bcf84c33ddf560; P1 0x88b1ceceed126bab751ea522ec6a8709163892dde5019537674e54e1968e0857abab7e90556cf53526f4e7eb8b6d56fc 0x328cc4fd00d5bbf49d267539908dcd1809f193a18ad115e08efa29113d9cffab74815e6b9c49802d0448f5b6d83d2b4d9c; P0 0x1bd9a0c30b057c04f3f2892a16a67a13eb56b9974b21594cae868cc5a24b2d9e87117287179c48f261ed757fc34c738fb5 0x1e09bc17e6a8601d372e3ceaedfe50e5d86239e0d45f8f2e63b9e4d9b7736b9d4757c351135d92220aa5659a5e211472fd; P0 0x9d57fdbfdec0360e3d09062cca47a8728971a8957d66d2098257d213f8e2f762c0aed924570cf88beb768256d13c0be63 0x4975a5ab98c77da21974ad3c77a5b0d94e961718b97dca223b92ca9083a46d7c0c749e2adcb2c6dde8c36667ff1c628874; P0 0x3ad078f0975229ff79b5d1acb13e2a24e300b810cba4064872be8d83f0b234902447b711c4830c9b39bef799bee6ac13b8 0x528792768156a5a4d6367e14d7a11c3f0028e229655c6f9ecd0540cf5d1c7f104acc93f72ae4ceff9185ced02437035f88; P0 0x4a3c094e11308eece5b5e1a0f2e9215a8d2b06ee59494e4fd913f3bee7d4264f04123b744e7ef3a73466fc1a8e667bf297 0x3f5be840c1a83edf28f3ccae5e771826b0f08479ff4673616cc8395c1da676308f4cbc402993aa2770c4deff435f5ff0bf; P1 0x57814f138a4169fb691e47b902de106c360e5e25346981fba1f43d321ac6d1266fcffc46c1556fbf8f19d6e07767def055 0x5a794d22d3a9cf82e898306d96a529f367901740f2472ab9f76f3112611c064e1e40090981656111558166df68c75ff08f; P1 0xb26d86b41ec2eb3a58ac9ebef7d9ace3a8872e12a0f879334816e3a3afcf052a8f89c8927e309abcc571c1ccda5db0bcf1 0x2106f8ecfb21c4746fec0428323b031b0c4498eef266643b6db566d7e40bae41682547a77053d0efe544b025055ebc9d8b; P0 0xbe37bf49863411890543dc3b0781fc18fdebdb19549012d50c1111b42761962ea1fec86492c2e49b1951a7fed21ae5d18 0x1d214b2c94ee4a3813997a75c7fd059be389562bbeff18913395a7c8bcfd8d509234c37cbbb853da41e62c97faa6d676d1; P1 0x127f3580b07b3baeee0ec161860b902e9ffc252991ef18ab7cbd7daaafa1530b4d05e0b611bd40edc60d0a98f85a6b5d46 0x27221e4768531171775bacc35941bd1371031479bcbafe8e1a27b13a5d1b649431ad8d1ee924d202c78dbeb9ddf4912e98; P0 0x10b0dcf2a83374652ee8f001222d3665d9a12a54f05d85fae4a3fbf6613715a88a5c49513c8a90079203f5a236873f7e08 0x3dfa116df86b928e2637ca60b6c1001018f464770a04b9798deed0d1ddc6f03cad7c71a9f72c741cdae35463bf36193b08; P1 0x53ba9869e3ce77542862a558608b0fbd908c85d7dd05066796ab7b821be68e253f20d648feb5f69307aa194a4762205c84 0x3f0e8b07a18a391aa65efbbe72ef5c456fd009766dcc826500edb7b28ca783e7382a371363b209f6c6eff8a6be0b344264; P1 0x56ac1f9119c2be108259bce91bedadbe5789397d66ac112eb4368a9e8d9ec7d45d5996f2d2f74e295149fc8149aaa6f768 0xc05758528af0170e4e56b84fcabb14c014a17691f375bb57bc7e3a2a6da76ef6b46fc1628259879c23d4b3ee39f2e2148; P1 0x3266b7df9b1cf264d25c3425aebae6d20249655fcd5835036937d0edbafdb7fe9bbea6cbb8d783c1b65d6c1f1197f0d7f 0x56a580f98849a87009fc22cab229e29ff9b7d59147dfcd301e11579185a3423b527ccb9ff0ad7a0f35f24d966954790ba7; P0 0x51d35409a4e1732d09529d6f6e06ef5f574e384eebd7d157fccd8c26dd8ee0da22aee684ca6ad11e48dddd6fccde6df0d8 0x1da0f5286dd4d85053c88a5ef7ea0252f021c0bb3828f4332c57b38e00113834f5af94d573e28ae4125d301adff2975209; P1 0x1322b96051d32617caa9edb5ec98ac1f59f4a84653f6bd70434ac31fbdae89aee2aada40e2328e174ff051867674c393cd 0xf9959549eda5a55ac3ea918c0c13b0e386803f349e4e04db13446b237617649e424fe157a5b79f886d2984a1c182480e7; P1 0x54dd91c500ce936ba0876ef56d01ce84bea3e2ef1f413a1065e8652dfe1afa2f20bd2931c5006f4a6e0bd82ce9ef18f39 0x2dfa378d9f6bcae11b44a66db587284ec4f0ae4d093bd6397d4249245b56fac10ce70ca3ba715b05bd1c7d6935b3d769b3; P0 0x170a25ae5d0d17f1a169293b600f4ea65e063090548871c07f9d473133c30ea79ba5d3442f473bfb7eabcd304c571e3d6a 0x309359762186976f2ef4b26d75a03bfbaa3feea396b58b0980b32b132e06fd5b8f96bf0f15e35423b6d2413d2a19a63903; P0 0x19b79691712ffecf6cecc6d6eb2c36d966947a48aaf7c0558c7daa60f62cb2887b7a0fe200f884ad0312b34417756e6c50 0x183e7ce611db43ce8ecd1eb56af32db3bcbfa1a6c567d312b129c51b6b7ea766d50ea384dfb43711e192c7a3de0a8c5dd9; P1 0xccff5a45708c258c0737b1dda1b90a6d6dfafa4dfc71b9ea0cc1454f84c9d9eacb59e7d86f1fb0120f8dcd9db1974b481 0x4f03320325ab9b44dd0a9a46da0e1e6f53d08a97087ee72816ef62ed38a94118e6f3dd8e1db406082886217a79188772bb; P0 0x440aca7584d74110243ac4932575c89ba97b4c7e30ad42a058bc10271fc3df14a8cc3cbbc19af2cb70588828c5f615c810 0x4d65de39f79c0d5516773f644e09e38ea2857d3eb7e2a4f9dbdeb29b03e5e9d7e6830fb65066c2385a4ff068118c968229; P0 0x414a2f5172ee6f0d65b1027d7c7ff80c61cb83d28ac021b2568e2e94271f88a54998819416bd4f07d903e22f455d90621e 0x51bc2bdb1fc9dca1e6766c6097d8164208186b94aa037feef9d82364d87ffa3d2bd45bd2244ec871a3619aad540c17aaff; P1 0x919fc481fdeddde510134a49cca4cd585df5780135afa6e595cacd521d764ce7ff71c7e743e3c70d33538b3a6135e6465a 0x39b6c99c86ba338b63659bef27cb5d9a26cd9a7e908aff6c434968454a39c0d04f1a3472ed6a95960ecc3ed1c6b0e5754c; P1 0x489b6bf31159ba3c0590d0f37cda5377a1f6214c8981ce9b44da26ea10c6d33d9ba3f1c6a57fc52123070691659f7fc5bb 0x58fba723b25119cfea110de6c1797286447c86305d5d0994556d5264e5011666ece416ed736d3ba3a9cf60911e67eeb523; P0 0x564c4c00bd581f987c6aff90d976a5125c7ce85e9acf58c42e3f203b2595b5a1122d6bcc140f262f4607c8a985acdf67f4 0x241efa49535fe19eefe6713650e475e746a6d0cb614ee2bd4cf5dea9e5fccc9c51afe35e9489d6bdbc40bcadd6dbc67e9d; P0 0xe3860591e08c4f7633c8f2af75b62b0461c88fcff5af015c842d3522cea5f712d6b594e537a41e4f75e83ab614f9c736a 0x4a7cb4b9edf9bd6b674b30a3127aef4d7c2a0df72a4e03f351a1bde37f448cb9606dc852a4853254c6b81256cc86e79823; P1 0x78f14b5175a0a78058185fd94c1a53223fe917bed5cd171468911e8e6b5d3e09248231da4c90d4977973cf1908ba246d49 0x2756253b9850a8b5bb7bc9b8bde5abbfd66099b0c2047f9349504e3549db0098e3958065afa72969ba8942368ba8c105f3; P1 0x21bab7c1762e3c195adc40fad58cf62abe63ba6f2ff6b935f4704d7d33f5c584e1529c66ca12b779e3ed8be93fc713dd0a 0x169cb9f0ac3e4e67593031c3dca3efd2643f20912ee995d1f168259d356a041ea04e03a90228eece8f20e8ded62af5edcc; P0 0x592a26a661c84ba61737f71a339a139aec844c9f328208a0a3998d0e6316c8f5946be447683d5751b44ff31b5d8c377ec 0x365f5bf134532c8aa0f5ad62a256de1284f7f812cd6699cf4db85fda4473ae80a36bda1bc988e0b2da10cdf7111dd5739c; P0 0x2038b1720e188f1eb683561da11aa53c1f53afa58b62e6ce6d0e0e40dcdd21caf013fe035d3b7ef77f25b9c22c8ee49866 0x38c282003944ad6e867386e580f2a77f59b9af168481d839bdb168e67263b0514351e6940d6ec8b8d444dba23bdb195686; P1 0x4639ded749ffef916aaad74ee1dedb5221650575f3ff6f99ee6389483754d9c81f3c3ee25571fba0952d4751bebbb4aa1f 0x4e3328e6ff984c0f43ddccc9ea74106fa48fe87d0189770247cfc9d57c08d37a278641ade4cf2b555c7b114e1d5ae6930f; P0 0x42a654b052547a08aa24715187b7beafdbf4ea8a6ffb72f24dc9379294c35d4b530b86f86ae2f4f21d2a34a55015ce8d6c 0x4922b2e63995f8f895a3b93061fb34677e1d7595df57a9460bbee2b00bf37175000d80678c9dd37937f02183cbbfbfcd6d; P0 0x3a4bf14c56caf2952fe6d82f8ac47241bfbe67750c5578a18ad1f17d425a6126633c4d47af3475b06492e00fa836032453 0x2547296aba594d6028a4a60eb3fb1d9c0e3e143986faed1ffa7c35778501201d74b1fa5f62ceda9f72e70c41e1882c8b44; P1 0x1e4aa1fc2fa9c3d6839d192f11afc2d792ca5dc96307d37ac54b03aa3c9fe117e6b4ae59479eaf908bff43b3bcdfa53559 0x18748da630e3e61b7125bd82b546f62e67208840259f04d2a3ef2db94cf1ba733b195fff8deda0d6cf46b4014fa2041e11; P0 0x684ad237a3b7714f184727810203665bb7089958100019be2b2cce6b1e10413d8cb29a2257109780b02330bd92f229686 0x1e26e4885b838a7f48f9e6e64fe055211545e554843f86e2b476069a55baa2ce0d932bcdb9551c75b2a308bcb505eae5b7; P0 0x9e8a09ba4a51ef9660b735b6f09aae23362ca6d41ede0c46ef43d8af5064c9d34f52604c7ae5ce580fb553a9d49916ab5 0x1cccbcb8dc1fcb65935b77c78bfd6d667608d241aec4b338dc633f98a1a4ace9cba69d85d0470a2de12694d1e148cd47be; P0 0x90a37ae37d93c4248d5c6b3a41a78cb2f26a295fc77e3a1fab9a546652b08b0e03b0b300745d97f29cdbd5a615b043828 0x4c4849215f7b642f3dc5399ae2b620b143656b74248d415a34a99bf8a8da76d5643de5a51b1d29aecee44a30f3503a6ec; P0 0x3f6bd867de537b8cb5955ff66aa1e7e8afd6344078eee148d0334329ac3b8366035154e0919d608f1c2dca1dfefeab0f 0x23b364870e07cc2155c4ec3dfbd4b798b4fd26ab4a7fa7bf8e6c1b4996e933292cf3d39a5ca28c14bbee5d92b3e7aa53c7; P0 0xde429104cc2c94aec2fa47761df7fea8dca51b26620de86811a5375ba6241aa7229cef4ef892e5cce0228f60101f3b793 0x18044139d961dd80cd185b18ae2de2d36fbb0dcce48042aba31ee326dc6b695c368d1e8208abbf7fa91e1d7e90416e20cc; P0 0x649597b6d0e78df34046ab5b052128574e62bfff1d4281bb2663ea1083243c7a5f60eac995d702dc4724a45dbdd90d08e 0x18a1b875ed3eeb927be19a82539a61d05b1aa9a152e9713697adf6f5fea60f0edc83bee4c3ea11ca88e53648cf8d427ee; P1 0xd39ae77eed4e08e361a4647ed0bfa1b0f549f0ec61c7b9b5cca689eb0f29af018609d2e55a86fd68ec05983f8cdbe89 0x21d99ef3a99b076fad00aaa90409798e3c0e760d79b2a48c7a55d04d70232b881df19970d147277d85c672265900555e29; P1 0x18fa0cd2f12ecdf6ecbe5f777b238072d59b1e3bd2ee91005cbe29dce03e64639b448ecc9c40215430fda1c55038e823d6 0x6cca856583095384cd1c251f2833323c554131db37544a2e290eb578dbb88b6c188514fc4274aad7b0894943c5281ae88; P1 0x101fd83204092e16beb87cb9cd448987caf05bd85f47aec9d07d265601708d51d9cdd0b2863cd85e30c744cecb18825bc 0x11b27aa28ebe803b9da7926bc2ce2ba05c6f803ee418e1484e5cda1dddd0c6289072819f6a43118fc906dc7d97cb6c36dc; P0 0x369d895832996efa319adcd32273de69f9ec5ce55120c3be348de03c8647c9046d8dd2d269e4c14586bbf01d23e1229b3 0xf5981f0909f043de4f5ac8bb4327b73538c1c8f4841b131b3035cbcc6cefcfccef2028eabf6f8fb8b97fd9d28b288764b; P1 0x522c78d30dcdaacf53b9f6d80ce7432bc43d91f149109c0ca43cb06dedb69dc5cf2c237f48feb5f4897cd33dd187d098d 0x36012191121cf82fba08f33f67d154285e11fbeb1accae3afedc10b3f76d400c2e7fe26d329f736b1973453fc76479dbf7; P0 0x1fc96418d2e3f9c7c22ba19e8cd480feb2759675e163bca11b66f6547c4a9bcd866745b57ae0c1192c81c796bbb0539f25 0x376235215fb4548a3a5713a33503784d78a9ca9cbe27d1c3038203d995c3512f990f992a54e53c3bbd5d1a41488d83422e; P1 0x42dcabf43ffd04e9130ec3c522f57cb578f43c6c4f4d3fa0aa2e2037a154c7c0d893292e3e50748221f2fd8e9b8f21fc8f 0x567e4c6b9b81d19c47b2a25f4492e40785aefef8e1b332fd986fe8f8a282ef64da10ad0fb9e2ad57603c2a5b094b7403f; P0 0x5189588bc67465c2999368303496492ad6783cbe8cf093d152f25057103adceb2463c00b176d6961b8eb94990051d286 0x3d06fba45f1bb0ba1aa0df95577dcf02789c324bb0c74175cdee85c377e0d54b5db762fb7558ea20401751fe08db405417; P1 0x512ed33564e1ee0864a2b307e5e2807bda30f6e41b7b6cd5497dc6314144545159a2afa582d0a65ce1ef79d2793654a5da 0x2a191082c12146aa7f00f2363a622a47edd286d361cf63c111325a5d97f80b73d8692192baa4aa4ec9a9a9d84c3b3888ec; P1 0x26a1932fbed7ea9ddf5eef1a62ad8c558153364ddd1b014ca322740bd6f098a668f3c67e0dbdf90619c96811770d481b2b 0x1c4a35503309d645217b3ca6d8e8c3831c3288a0430709bef207e927a66a120d2b3196084db15f59d605940c164a2c9f13; P0 0x8b8fff31f95001ba9150908e4b6fa7bb1a963e51874aed515c39881a925cf18dcb86e41c1f321096ba60e6662c4cb3a95 0x3e9d0a8920bf0056fbe93b1d23884405c6f44cd69dffd9d6af35598465d4d627098bac1e0753189e8b3b331d08511c7f36; P0 0x2aba99af3ae72a9ce93394a2dc3a453ccc83137dc83b0d32636e3b6022e5f8ab1ea956d3b528fb7a0637a71596303e8c6a 0x28e44f570d4c48d5aa3c999c069ecc4a212e08262e4a87e8d6975eb3f5313810112e0e73e282856ad4f44dcf05100bfc3e; P1 0x247308e4006918e55f72411696d738b4e4b6212b62c09d19330613091fc317a976639c7d7f2b88be8ad6f58cefa010888b 0x3ab18e8f3d5aafb123f1d21b51c669a7985c86d9716c0bf411c7a39e794491151c5c7c99f1fde268e75a2bffa5ee8ef05b; P0 0x258bde55236c1948603c44d140e6822790771d5f6ccd39463d9aca520ce668fa7ba043f629637ca76e019b511a39a008c1 0xe73ac6ffb97b7d06e80a20d145010c2a5201eeda6d0b66cbfa4f24a4089ae9178f9f727e2094dc09e349791e2748b3972; P0 0x246bcfa4db53955eb32a6f413f3396ee57d2486a83b12d682ff43fcc2a2ce2b58464413f5ac06f2e4cd3302bc3874e282 0x53cc24ccc48fe806c306b64ba5a9f2a6e299b5d1116bce280769cb322a5a9cfcc8df6e805e9a715a4741dba28c623391f6; P0 0x4c886b4e4fb16e242b8b9ac8c6001cd84e12d6cf6dd13d49d497f5f49bedde11f0e482d1c0fd0209ce8996c45d23c27aae 0x3b6aaa04cbdc7a9766aaa88695d8d8266224b5909425bff49521e2b49dd6548b869971cc62546a9e82423da38064bb02e2; P1 0x4cf44ed8ca2fee04be0c5c9b6dab579f095391dab50249e847e7de25950e76d939d270acaab0875af70b2bed9d601eb896 0x5bbd63eaf0f0075812a942411753fabf2a942b03daa08181bf2300e8006e735d8a13889f477ef0b0b992b74b8d5ff63f2e; P1 0xb774c5dc0bf258eecddfd47ad06c580322e8bf5122b9400c8fb20ef320b7c335d23a17d9de22fe25d68e986755fc78f3ec 0x17ea839553655e1807c7c37c1290910762e48fb33f3f27ea83fbcbe936113202335381999064a4e13292664731f3d98d94; P1 0xc77cddd0eaa76f14dd4f4c22a4436ab5b773c087ff168d150a112fe7b7ba4453fdd1ded62273d2fe6fbc367db772421ff 0x503c60ff0d75e08f329689ba4e99a972b0829041027368bd9fc6752b6bfdd8b8e6a2a97246135fc184fc8633be68ed9ec7; P0 0x462a5df9130b9f8921dee469fdeb35caf3a057a75f1cb48605d68598c72f7a2dc9d8a738d3e0455f8cec23e81c672a2d01 0x1f7134d920469643332de4e9013ea84921ce0a59a0b2349ffc50c87c18db9f0127c652b854a7d69da541d5a6fb8d16d20a; P1 0x158cbe57c09a96e47b34c5b661a275a4b67b8811bde84ac40766c4099c466698102e22f5f60798e27ecdf56c9a977dda79 0x790a68810a9e47305f19b397324d014a4de20459a3711ba2274150c3889b0ed7adb66549fa737ef99f1e77f05466c42d9; P0 0x9fadf40878938d668cb87042a85e2e0a536c6b1ed029d40471124e911c8f2dba5f61b660293caf60bb49e4209e5cd054 0x398787bc5035c6fa81ca8cbf7781a8b0c95586f7afb91998f79bffc407f8d9d0826e8286b061feb05c9ddf754542f72125; P0 0x24125a950645a8e7023ca29ec1a780f6f4b84929fdeef6995574d4b4176be76c74e0d52c2ab80e7972cb4094c1f2ba93fd 0x536290083989e0a488f8c71ae7accf2fe00a2cffbf6e95e507809773ce6abb883b01d62f5269ae80e83f56df542831384e; P1 0x9790133831dc811f4641666bf425ff5c342d39cb65662b19ad5613338a3cc4e9fb3a599c6f2d7ea8205c83f221b368a607 0x15698b3e5958d7d77d19bb0f5115b848724be90e307a758333acbd90b1f42dce26eb7b60cf1ebd3b1e7bc1c02deac2a9f7; P0 0x4ff3dc4163c45540f0e775f615ba82c46d6a4e1e81b7e472205bf5f5a1e4eae97f741e917535d71d623721db5a0759aeb 0x1d3e90c717f1e3090b632a5644294886282a12ec46ce3c8e7b440a451b1ecdf115070ba8cdf436f9183354623f3e7f6204; P1 0x12a474b5c6d92b523c1870546313630a1f0de53af2a44e09b3c25fa6ed0a0f51f8bd2d66bcd8c8352ccef5d219b450d8b9 0x23662adf3a5e1cdb075f4911bc787edb72cb2f3a1a61e1b088cda37c4c7b0e1e7f4383176d4338cb5d092870b688b7671; P1 0x1b50a26fb61bd07a6d9a14418d88c8b24263c097993cc8b0d431426ecd1c0e8266283bd537270afa570cc03126194824 0x1aaa5e98ffb84a9aa23fd4118ce810c9788fcd0d42a49ddd5f07124eedc0de60978aa6e574cb7b7559f32380642384846; P0 0x7bfedf94c6df26b765b672cad4950bfd290a48e33605492e2a2671faacd19b71e795a29836e1473157c8cd6c00b4a08 0x2c9a87347ad2fd49be7d2d3c838b58b078c3c8a97998fa862017b0da4ef5a9a4346a42b19283c81f8cd35b818aeef79fec; P1 0x2b5de3cfe2b18565da68267d1307acfb424ce1bae92cd3c962071fad8211ce8f2ccc7b8d3eb185a93765eb8f812417eced 0x4e80969f2622a7b1e0e0d158d8ba04093b8b95ecaa5240281a555f6a4d01ce38ca88c83600a6aa96ff5f5149892e1b785; P0 0x432a92228b40dd161c816472abdaabad0bc7284e5433a5cdbe72397f5ab9e496fbb6acfb5d95dc82b143de14c87d7e93 0x2367973235ae18566602ffe6aaea8ee77b70b2cd1628dabc3c1d34ab659d2ce61aed3b2075c7e7a250b5cff978b5f91634; P0 0xda96a5d0c624f7345fe19610ca54bd09e9f82228ff958135a9c8d97092d0b64ed3ab3ef69ff0fee8b48a8df0805e8d8dd 0x59c933f03a3a1cec216f52b9a0854446b5c6bd577ed18943df659bde18b997e77b803fe46cf88a2eae84982592adf3d565; P0 0x57dcca85004cc006378b569f7fdbaff36f5c0fd2661aaadc2fb739bef0297c95d7988459cc7e60a9a8184230f25382e9c9 0xc57c890b4313f34b0eaf4facc39c21d9cbe376b9c3f3c12915d5b459d22c6371803d685baf6c166d3ce49a686c3d15eba; P0 0x1a912224b53e80768458b0a1749831cab5e3a073221e56f2f2075c1a1a52c22a803b19e9cb9b11cbd1b6705615f9520f5 0x4f3c94b4ac36f7e764cab4f9cc34611586d54e748f540c8e5b9c96a16590cf25c1a709000eb646dc91a63e4a9ed51b5a51; P0 0x446dc456679f6581b92a19fc3a79d30b0b93a7308f289c6db13309c38ff503a3862725f26b7b8ba9b33c06f92c3252d0e6 0xeee220561d479cd4da1fb47fb93d70bb945c9d2649c36a54a877d7b655c71bd1ee83801b3702948e42b280c12d1178197; P0 0x26df4365613620f9bba0705c95de36f991bf71b12d78de61203be42560eacf7a7c17c5a6d1de316425f472a590363044b 0x352dcac3c66aa446df7a3e46a980d7bfae3a2e39b32dac624fd56dd5c5dfaabb3ce130f4ef36c8a28856330213b0c7bf24; P1 0x3da5036afe40cd84528fa2571a980896daa357e9c6936a70cc0e62a553a5e897772818fbdd52b18a3f4c1a52122935938b 0x2d04af18396795d6d9ca041db4a07db36e38408cf2a8f5dfbd4c5318f91b09397aaa6482eff2f21ca3fb9b2fc2d44aff73; P0 0x1616a30618c43b4a87c53a55bff2e26a3b7fc58caf3b6f810256e215edcdb3c0064515a5df2d4674009176ced1a327d22a 0x29fd48a381f9a2abeedea0db2d7ff56cec4381c572d3e3eee2ce04334cfa0edbf733764a32f37b7c4aea24997002d96a43; P1 0x266ea796a800dfd747537e73f9b9c7fbb09302293a250a4a3e8ab5a8bc117d63a395a86fd41c5e1a9c78d1d2cf57145c79 0x9e3f00ac01c50d9e461990759a38907f843d0dc66eb8dbda7c5f1456abe09d7221e838885f9dfe154f5ca75f41e5bf23; P1 0x221dc9d172452257b8304209152a6597efb8dd557d8274cb9caaa0f7d0ec8ed9680ebe465cc6731723b9fd7c4434d45 0x161deb388e065e759a22483f33497927088eec428266feb5a4f667af6b98c51dbf656de8d2754ddbfc37464064a6a0808f; P1 0xaa9a188b50020f3a32bbdcbad4458c6875dc01bd02447e1e377084a25f6436b075fb3584e4812227d118bb74f09321e64 0x2a3e8e59538a9583a3cb0f8a4483fe3f95c80828f8427382d71fb1809d7770d16c2a57d81463822c1799452b2abe242886; P1 0x26e680bdd88dec1e6e4686bc974ad73d1259c3c6513c598a0904e69a47fe8c72bf540c8856141465a6c0ec78765462d322 0x5c1e2f2e4f9ce1034db1eeec38aea73e8f71548169b8599ee176d149eb0088491076106d65ced713381de74cbee54f1a; P1 0xb8f8b27642fd4961f3d38478a1c3955154926daff1f689d4402c7bbb1679760d0eb8592cfa6de32585b5cb3e784e1f 0x15db0d473c0925c621fcc86a2621427cc51ff3fd7aac56d8f5447fbd996c4bebd068333a58d8317d1e657b3538e678180f; P1 0xa6989c199275907add9991cd02ce8186d33b76304f5a66a73eb82e0c1e5fbfac964105f0558cb92ac329aa7cc46455ec2 0x1ff70ce9aadc8b2dc195482084c54fa6df0bda8390f1b7e7d32d6c019d309387523cd0c9fcc4749d544789717cdea7ef34; P0 0xb22de3b2dcb8280e736336d78daf0510e577b9daafcd3e5e3bb80a2ab411382dfe7d52289e56fb5a265a3c1a8d063600f 0xa51a17dcdf9bbabdd20396d664c676273e87065629324139abf01a2e4c65032d6ba213ab6765c21ec122a02f0c8ee79c7; P1 0x2522f16c25a759b913a7d1ab4efb6a48eaabe1e87356a460a590a62cf092e63c5d25c4f20415bfd41b1b1cd09437f7b53 0x2ba832be7fd129b6b7f2ea6f63c86039a996fb11480ef85eea9f283853ab78a1057cf14f5ecf258bba2179dc2d97ae7b3d; P0 0x14c5d5c29dd021aabed3c722d50a87a71cfda926683b763edbe9b091e99468045bf61654f18b2e005c7a3ad5dc2c49499e 0x1ac7e7740712c37793735d3e42b3afffa089f55072f34a44cbe4c6b4a5432bd79e46eab2138d6c91d25c34a98e049f2877; P1 0xfa24486f0ef2553eb6a7577f0fa730bb4614ea12da131ae9b0bbf72882c52d257231da4e5dadf47dd0455b1f63f52654f 0x3b0d8fadc7030a3363d5115f9bdf083fc453de259b4fd30e830a9c88898fb3dc231569ad48b6eee896cd913644d77d7919; P1 0x4c03e106c4fd16a8b1f17ce82ac647233617227396a1b0e27b2bb02a96a7bcf5c5b4accff14f57a5a3bd3092892b488381 0xbe44f28a81a304f77c9bcc4cfad3b4c914740bd9279d82168e3055556d8a2817e3f45f7261ce530e7b8a9e27beb82eebb; P0 0x18a91f334c063fecad0c92beeb75080cbddc8ef2046f0d4637be7231f8f04eedca1a4ac8f4bf2d133b874ba3f53cdf263 0x2079f48ccd98acf5618f7e0ae1528ac6d305835149c174f8e50ccfdc03546d1bd97cf78224c5f137ffd35a3944a0af8b04; P1 0x16fd9e108882919058150eb5a11b421d471dad6885a97dd111dbab38c8adc8f6c10cc9cf8a4958074b19b1f6d101d787b2 0x5838239354367a6e834d58acd1109147289438e11eb57730912a86ce45abd6db7387701edc840045c2c30d75a86f6c5902; P0 0x54d2b2054e112b6009669049ee6a78b5c5ef3b3fccd9233066a4ffb910bb204eda64b1655ad269841e2f614f52b458b18b 0x15a87724d1f528d5fb0a3833c71ff423e69aa467b81cea67d9434e601cc6e18125ae0ba3fa06d9726be95f65fdd0a95757; P1 0xa398e647f497416c07bed904f06302016bd3ab1468cadf2575a4e145c932b65db080457b72af41e8784198862057f494e 0x31a291b97994ea28b29a67d7d57460d461f0aebdbf82efcba6b44a5be0e2dd56f83fddd411045f995fe9190387ad4f7f40; P0 0x1ad9e6b04945791b3934a297f842494dcbf6611009de0527c24ecb9d7e6a301586af04e671a7ee11d294607caf6ecdffee 0x57abce6abe178fb22b78c9a0ee4f16db0e4bd10d651df74df296f166a9ec6ed83e95fbdb2cf841d0f2a0b1a18d0ea1cdbe; P1 0xa78b58dd2a676fb33792ad12145b81c724436e7b8259e87f28364b4ca3f405f4f4dba7a9d0d6dded6570e56a3b06eb3fd7 0x533d89522f5727b078dbb7d9ee200a6021fc814c6c7d052a500b369ade0f181a59aa3c163d2220a7be9def7a805338c5c7; P0 0x4b84cbcbe2a3321fa11502c37a8e2adf294d0eaa77bca990734fe8cb4379ebda09a6ead1612f4d2576e538c57774e95364 0x3820088089accf324d4c63caebadf47978f0bd40fd122e86cf8e84e7354b32a42553f948182434c5bff46406463d58d675; P1 0x44aa132753ab7e2d86687fc88085401d26509121961d4dceec25a49066ffaa51b94062ea95c70c363e8612b10b9136a2a4 0x3a1fcaeca1ad856f9807cd14ccf5089b3f10596c5e6c9b50017b062ce998f2314b41d9515f212e7f977192f7f9f9baa5f6; P0 0x24d2482f1cdfb6ae36e00450f993cfa67c15d800d91e3d8cad5dd21a79b8bcb3063a85cf352578571c4442243556b6c22d 0x2a31bfcd62eb8bf57b118b92a04201524d4f4b5f20eb13457fd7b99eb3bcd8d86223d414e04f2f3b094e26161fa44c6009; P0 0x136777221ee875dad1a265a6a417a98d96c9179c9421a8e6bdd29ab5272ba2ea3b44f4f33ce99c9b89a461445358338cf8 0x3687bbad0feaaf21dd574c888662455159bf93ddc940735d52c4a90a395f0dd8c7b49cdec9f52aae32374f88b3d1295289; P0 0x20689d3e4fa2d1d86e63db244d6269e7bb8bf480216fd9a00dd10cf901f26dff868d556ec4013c94d88bfca9dabdbdcf6b 0x3b406a807e901851a9d2c07a15972a2dcdb6f455333fda461f9e69431ae6926398ecd0d3d6e4bf0d50a04958f13db2a384; P1 0x4c870603688ad1f2176ac5ed00ed9b098f35751e507dd18e70487cbf403e46d922e7c7ffeb8049d90008893658c23317ed 0x2b79b8160c669e5f9a6a9cc2e383c6c1f7e2a448d49db44ec7068ad981024fe4fe4f904656b95f868e5d0f71d57bb25f85; P0 0x1499b21dea1dd7209b1d4b30995542a3117c03fcc33789d0b96eeab2ff8a8b398e6e6a1e84f076fab339288baf475281ad 0x4c1590516e2019aa7257a46454ff37915b26aabd992e5bd4c05b25f6ba1d67b2589eb667df4b7bdbfb74b5dcffe903e63e; P1 0x7e2f3a860bc28c2ec2dbce4cbf8232a2fd3e99ba1d3ef20fcccb6a1110ad812de4101448ba7b2bb1e89d2160aa475e327b 0x447a8b4e0910e42edd4862dfd63ae7deb2b229b2b4f8eb742e5d7deea57232d5299693ede51c83dbdf5a8a521e137ed4cb; P0 0x331be849684bf1644a08d24c89e38a067501000b13115a6af5a46dd9c2701ee251f5009c739ed5731008355121d610c0bb 0x178c6ad9785e82867857f260e45f7225b3b3df35cde41094f38aad7cb645d61c8509b107f1a79e213418ec261816f7b3fc; P1 0xc1672debd10262a1cc73c8f79ff43b2dfe52b3bec1d8b1023087463ef11d577cdece4b91aae40a841667311f374564bbc 0xa032921cb7f110a6e3155007ff1a4095a4eff8c413ee843be098c25f33e7bc3b75c8a99275c4d5e79c5ea51d915f5dc7c; P1 0x22f68553bbcbf60617b8456d868d001f59f9502e3f64870698555ffdfc6510fab0622faec15bd3ede8c26d85fd0046fd6 0x2a32d4f8ae75a2508f5a45184cf5cd15f236e83dc4af6d2f0f25ea59fb2c202f8d29e0a89b6b480c4ea42f86254c28d86; P1 0x26d0ec2555e3a28a2287618a03e022b600cb77c93a03c81acfe4117998c7fc026a3b18786445dfd9dc36f53dfb9a4a84 0x2144164266f91e50139e9a6b0ca88f898f224fcf37bf836a01ffff80ae3963f835e396a5f800d499795c7eddfea62c642c; P1 0x181f4857ca965e9c0dd16e206b7649b95b3cbb10b9f7ef6c99ca84a77ae45588850a86709b6e658af280403e358fbb03d2 0x2ce17b94af3e3c795e7576e1ce8b0856c9f4344ba4cfad9f52ae7793736309dcbee34033c7fa458c668cc6226fd4625f22; P1 0x2be84ae719138c1b3b783f3d7d16e21c8ed9b6e76cdb16bdc0ccb67fdeac095d835f3598433c4470d1a04db36f68d8c2f7 0x4f907c96446038c18aec9301b2437df18adce18d58fc012ecc25d4c62ae20c170d5bbe9e6cc124ab620c9c640fdb8beae7; P1 0x89fdfa4038bc49322ea00a6a5f1dc3dc92aa3a775382d2023e78881f9da8479cdda719acf89d4f52c677d87002f1cce9bc 0x5711717d80edaa517d47d1f20db5156438559fd1d803e09f0473631f8bd497e726ea3281c796132a842d1d1efe823c433e; P0 0x529fb11d4003990f8fcec237d68d43ceebf2d1b52b80429760e4e5e39f62db165135baff4d71bd177a55eaff1fd2ba1ec1 0x5ad0f4d2716a0035a865b75c3c5062e63bb8dabc460a784cf15cc43352bf60057ecca6ebcf178c42f48f013db9072ba21d; P1 0xb3c7eaf94039f76c6efe82c7dd291f84250d78fd12f2bd140a04763786d5355c1569e742ef556c91acbbd95cb57984b575 0x48027434c4d8e52ee9dd44da2f9e75eadb6f287d747e926ecacbeddb3735422ac1c209cf4861fed3b498ebeb4c9a814a3f; P1 0x7107ea3057e319023814348abaec0d2de39edbbcbb6c291ef82f99c450b0c8240ee1baa1129dc3e91d07509d527ee336f4 0x14b42690415b6fab9ed09928b41f57c373b4db41e840eafc1512708714232cf783b44e45f3c1312cf35de023cb9659e9d6; P1 0x957f49907c0e07ffe067b57ddb058496b85536e1466cc9f031d4e362fc3fb3fa132406c8f54aac1d0d0c19815d77e8f71 0x47b0c145b62a51bd33cb279b72765bffd1ba7cf1f9ccefc9ea0905a47ddb8614c4a4aedaafa1929b7f4a6b9e757c676a11; P0 0x38040067bded817b5032dc19a985da9b10be96dd60d7cfa55475cf6e46df6757f6f4797aa1bb42fd729d5665ea1a5edf93 0x513aa022916f087d5b3228b30323a7e2f47a88b7d2c6571516454aa171bd14b6c0575079867fb6b86c7cbc1d6bc9c8793c; P0 0x47e9caac6cdbfe3d9eabf17c707bbf2185ed245d69046bb608d147ec08e65f0a55e769c1cd4218956bc46dbe16d67a8090 0x2d0319e111d77d48490d5c52d11af8aa430bb6ce05ab2c076e41a9715efa2398b90a938cdb211771266f0307ed70a65820; P1 0x2c2a2ad1bcdf7a99e74cdbcc2cc2372997837b849f635115f3688dc5cab96f40e61ad671a29c4610941c233f392f66153a 0x3061fb97e98f199bcbdb160a0f3c5c1b2461bc1a02aa1ae3011c6a617133ddbcd0a721973bfec2de743bafef28d81552a; P1 0x3306d70875149831b9e0884ee856860a09a26a24f440ca43bf314e72f5c5f9abeb7fb2bc1739b2eec8721bf2f6eb448d 0x1770f723bc5957305d6fd089c102d34b2121c793f88e4fd79cfcf89feafc49a1689e961ae324ceff6c20a2c13c7a45c0cd; P1 0xbfa54816f24b4889f56b01444cb4593aab0088a90a28f3a99dfada15a310def50e1625375275560e4c23c5a0fe80afc2f 0x1c557cf8ff790640c2063ad84357953ec9aed530d9c621b1f49de1b7842da70cb33d96885376452f9571769f5e342ba6a9; P0 0x8bff60c597275cd3cd0aaf7ff3c3ff89c3469b0b69ba5068273646248b47a7bb9f091ec5a8e39cd636cca07c6551e59e0 0x4a87a7dc01a96a256fb33fe84820deb034a9a0bc16e4153bd1a78aae1811a7b6d2c3f0501c7bd233adb8c5a016a7a11a71; P0 0x3c8a6e548a161b7b1fc15feb8007695bfd4a6b3f245a44078e0ca80245531f294a03fb6b8ab4e82b6cb86e1826fc0de5f9 0x5b77b23050a97b5890a86ab11eacfa94580d5ccb0078bb9eea23f6450c91880ddcff068e94b6c308d53160fbb1baf59772; P1 0xb65e71f365bc483256509838b2e8e223fe5cbb4916207b266a045eb17f75164ffcea3d2bfc93fe87780ee25cf5786ec182 0x586319da4319718d43d00f05f0818ad23d34c8e5f35ba2fd1da0a9d3bc206b466cf0b8a6283db2648f595e6bcb8c4b7fba; P0 0x552563de69fb03d58e2a55a13839b4bdb320d9fb165b0c94f9e660b842767dc864f0e7e3cedca0e09dd21703f0be52e6d4 0x3b1076e558e523e31440aa24cef06096ea6b4f8e19e1465651d8f6275bb0cd015b46794a006dbc4a3eb3358f5221996ad8; P0 0x2605ad4d24ad4b51b710b8b8f9a0beee78d39dc1fca8579682048c87d084f545e659368cc336ddd6006edd043bdfe674de 0x1e3d5fad0fa1884ac83ba86c17b0901b343de3c09a95f6fbc6fc15ccc2cf1d7c48cd9f3301b2b81feeb5eaa1f97a809b6e; P1 0x13eed96321878690be3480bef927cfc01cc68f490da6ad2cab2ecf944463331c31ca2c458fa4e958d06e4b4b113eedad18 0x547433c78313e2d45a5c5b3fe53d6d0e9c48dc7e61c4cbdd355033bd133cdac3c589117b400595ea4fe49bcde8fdda43e0; P0 0x4dbc999d6ccb2e30807f31d6858b4e9cbb471b6c85bdcebc81d82b1ac8dea31e3a9ff76eb51598a5c132c5415b3a133d69 0x13ec0fd33def20c75f613081b612f323f21ea3a310358dc38d11969cdfb3a66a876fa4a773f24a751274708febed5cfb81; P1 0x8a6c3b28feac6b00b261c249665c0eb29b21032938b89d7a20f6a060af68352599604dcd1d778d6967ffbd3a344082078 0x53b6cb119e16369b6eb432e20c0083566bfb9bebbb577cd0ef8e7969485c5784b79da75c58b209fc31c63abb48e6f47ba; P1 0x98c2e0f5bfad36555607d4edc3601b23293cfcdb4a05351131543a22ec01497fdbd5019290d9ed796e12b8fe29dd9a5b 0x578f455041adc3356bfd21092bfaaba64309329af74efe258801242d6023f30cfa1252a968366dd277a288fd733d56a9eb; P0 0x538f2cda48258f7c28ca688446e9c2121bf1d9c93e01f750bdb72bd4be50d16fa9408232c99de2d5446281451d2f705951 0x3e7fd9f3defb8a69c0ed342dce1b3d38cf43e1edbcf18e6344d811709332ccb1d33d0554a411bf430e3443cc53704a78e2; P0 0x2a92cc086666db658729558466b11a32409732960616750718a2be3e7ebe91d569380a3fb99285effbaa5510be87cfdf60 0x250261ae55cacd307f119b2469f8717eb3ae84ab784508e6c4d56ddbc48fac24346ad735644145cc4a987998a1acec8fe4; P0 0xeeda0c405157d1dd95670705a68fb4007d019fce118b76992835249bf8656cc2f9b415997c4e98e5d14627857668946ad 0x411ba8a06a7a2cadb67972cbee65692c506450c78ff46f68a446c17f5f12471e07b07aaa77fe1a6f864fc5737ea2dceb35; P0 0x2e3394458d3e31ed05b7933584ff9fbe5d581b3a1295638aea4374ca51a6f8ae656211ce4e657b291b54d574dc81d7943f 0x1c3e4c0fa1ce4fb1d2a5d0e7267c16d5544909d401db16fbb35ebd0ab34553f964def628f2a831d5081e30e810a3d174e0; P1 0x1163524598f1b1a0ab1f43a6f4a2d8a468827e72a6cfa1819df6b698d747b4b458d2671ea960386b46f8ba4f8b959ca155 0xdd0720b844c5c381bd943b705ccf651260a6fec35a1e4d6e63d07dbe89e7c3a3e63fcf6bccb301a7083b67da1c0c6a48d; P1 0x428e783138354a8ce1c954ee30d1c5bb80b43ae0b1888833cf2fa1299b4e5ee8656595418aabcf1115e401a9041e18453 0x3611f087821a43c36f01ddc6ae4c8eed837b0c9efe6f15783e34bdeeaefab8923da9faa9e027e596b559c3f3ceba00162d; P1 0x3fba612586cdb3fd51bdb43803e766ed2f97bf9a7de202a94e907594e6c4539c1fbad512a11187a4ffb41c0b196c8d1e8d 0xebf9feaa9a0257b5d9077262fe281722a80e85f351f47998664f45bff25b7e394e201b5f5401c7a768464212f96bc3cd7; P0 0x25ee8f62be398d4dea83ad6e68abf2c8ad0b30f274656e550f1793458ada2d75f3fc5facbcd770ca1f783acdcdad69603 0x23df7074647a3eb1d12ab52b41d96e49a20f861dc651adfa33cb16e54fe02bf32b83a6938db73d10a00ab44838ec406d9c; P0 0xe068530fc80adb13c8e1e12d48295579a1541a3ab6536756b6901af1b48b03f7ef390d1009562dfb812cede99d73db667 0x5a4ac616ed1ec9c85ac55470492e100eae172578f9bec2f3f12fc2a8b45a4a1db68f5f60906135781375bcbe523bc062df; P1 0xb1b6312fc853ad71eb72545f1f7c978604b8e631a70f9ef21a20639d2e38ba12feb7d47afadb8facbb2edcf768e40fc716 0x15061f957c546fe50e6bad45aa2478af123a42bd5543f43d22b352f7c0efa552d446d04e0bf24cd938bcd581f8b235a728; P0 0x4d14210947eaba599819566eff02ae381adfb782e6c1c3043b3ef11d44b57cd47c62b5d186e25d6dc21371ebb71969cf1 0x194d829e543c30977947c272b3c7cc6abee27123a944b21e98d89ffacebb3840f98202af55e76392343ff5b541073fd409; P0 0x6fa55bb8b837cd5ad3e2af4e2b3e2882a9f407a704daa0e6200982f1838064fec5e2f5381b897cc3cc41d2ac4efb04a23 0x2d9c0bb16af2c776bb18b38f912142a5439bbb1577048b21b28935b2385cbc012fba6b6f958335c26ed640151a09f5387c; P0 0x16ac25105f38f63a4a563f3cd6cc9dc686d5901918d6a5c4aa1e86d23d90192d0501983fc5a3bf1f2ab2b641ac7927a21c 0x17d66976d02742a92f53e9a2b7f84d24a3a90d40ff18887dd72395385962856e8347947305eb06654e8e74e2f88773dfcc; P1 0xc62e118c14b04277b71fe728d437faa0f3502d84245ef222af9578317d93491b61658969d89fea9e239af6f5e0fb42a92 0x124336069c1336ba38701418b6db2187a6aac9126aea0b8ff3ca42e899fbb5f537e13955cfdffdabb2876accc2c1bc9de2; P0 0x3a291f3b8afa9b171716c49fbcc3180b80c156bb425d1b7c95c554d55dab6b298ef1869d68a433784758a49def997c563 0x2fb270e3398e5dbba3dad1bd0879a11b7369a77064a34340caddc77c6ae845b88a4563a00a9874d89349951cd41ac6a4ef; P1 0x319731caa1db87963b3de7676e7e709d023dc90d6b0703c90c65d7f90d49809dac73bae0f014aaf8bd9e2d58e0e0ef41e7 0x13aa9d04c9411da1037ab6c3226714d44d40813860c48677a7dff019d161dceee730932ee5e6800e8337286643b22ad991; P0 0x437248de4bb16c73de546ac5a6beeb17772ba05cb9d90c220a54a41fb781bb98dca552c6a430788999e28c5371baf9188 0x542aef74d0a0aadf83ea620c0802460fd0c6cafe7c68625c67aacd4b781d450a038f7cda896437dbc4e4f22839d8012c69; P0 0x4d35f31c9ec516e870f9a84bc6ea2d3115c71c750e978abaee6fe1d6f8fe90dc59c4551b6a06ed4e67b204426723d0ace5 0x36c4aba11b34d6b511e1e9509d1fbf210c40b9ec28fd3d1316ee7d46d767f7189ef5a89861772c5b5141605969cd4d44ae; P1 0x4162692e54c8951b22b8665e15f2aaee1d1f67bbe34f669cb5c99073bee01aab6dfca2cdc9ebb538d5fc3c622d3bca5400 0x10ce776aad2bc6c82748bcd7cfdae1eedee4393b870f785147ebbc5fb7a7a000a23921c678cecb174fef31944c79a10088; P0 0x31419c0a67b9cf9cea5ccd7b772f9beecf880357161251e1ad522c818f38764b9d90c5ea7f495fd96ea9ea1fd6959470e 0x4d233f97a5e8d17d697c22591ce4789cf5956fcbbf5d3b60607add14aef11ce68f6d59a9177154ba5d2ee24ee8363d001e; P0 0x40d9fa7a8684fef91636418d7e5ee4bbc8943f926ca1173bf9766525b29fbc7d3a4594266b6925e0783e71db05ef6f4b70 0x24106cd02cd0e967fe046648c9c19b7eaec6a5d3c97b63be0605760578b0280bcb26e31235a07c67ab314d8f896bf5d74; P1 0x1c59dab172f49cf4d41ea2e12fe68fb52eb15f757079773ebfd452de62cea3f562c7bee8ce6f7ffbd3c011e9dad852fa 0xd11938641413895c1b0a50bc7364a0d7b8068efba3ce7569838c62054a71ae8ffb7139ca3cac0996f1a33a40ba2e03e0a; P1 0x3b90e661b953365cd15495be1475d7a8ac438f77fb25b3b4b7f6fecd0403af055fe118daa6c1cb92cd07aa00ceede197c 0x1faa07401b184ef9aa9326eccd7b4d6f2bda8a8b39edbbc47ceef89548c3a00b61e6193259ab9dc634a2a36c9ae61d4e4; P0 0xaed7422ad9358271b9c2f844dca7d9036384910572dc7626884c54c27dece1be24422628d109e7295b75aaca8139e03 0x1420083e11b7109578674a71200f98868c4e866d0381ff554cb625b486c41a617fc4edf126403e8c84e0c9c3e2cb7d241b; P0 0x46a10e48127bee0b91282f38f475945b9754d70e0ecc3fc074d502f31e1b6fa4459ca693c0a8ef771df3b67c62f7de049 0x11db419c654484d8d5e2938c90dd35420e6d401d01308525a7e01e9daa7ee39c47e446a46a4fcf5d6f7f7a65712e12723a; P1 0x6f34b5bdaf75e7b70a8668c33cf220a701f656dae69a2751f5ee932bd8f744c37451330f3690cd668d54f937162278c60 0x3531732002676db5f79ecdd0b65f5799f971244322e6a06b33e90cccfbdcaacc2cbea9e046a455ee4682c59261a0c077a8; P1 0x3dad7e8de52b42ed87c2904165d8c5e81df2cc5ed9af536548389b6b8330946cebc6d43323b2701c43907a81b8a1abc161 0x41220bcc29947bc826985d16e86da70e47dccd4377e2818372d852a495628c73dae7e697b84b451a7e68cbdcb36b3fa539; P0 0x2e3ca5644cb19c01fd17fe72449d4d0c2cb075bd4280e4a888fb08d43ac6f71cf0126e01a023e2f094d4f134d83c56f6fb 0x1e1ed02dd2f73bd18038170979ddbe4edafdd48a72eefb0339fce7aaffe380ad7a51d26cb7d7b13b8005dc1b7b314bbdf4; P1 0x13c6a3c804dbb82394575f775d55724374b78dd3da5a197e53b7dca084df2e2320c62fb38199fefcfce10f28585e1fcbcb 0x37ac288c5f4acff6fd46c492a2ec3165d88ca56b0f7998eaa992114d12b67fa993d6a482a1c552d737c81cc59485faf4b3; P1 0x438fb126e5760aad802c3d9fea4e283d324123f7163d1429dbb13a790b61e18763e373c0a702ed008cd181d9a05f1a6567 0x4334678ee3247af40593657fc7bca6a86570758c4659078f6cad4ad9f53b83c6be0a49420e8a8fa41edfdbcbef2a406d21; P0 0x31399b963f4e76be4d6c26ac4ed5e40e4b3ce5854ac2e039be56bbda053ba572bb27f55a29f56d61ec77746e52c2d9de30 0x400b00ebde5010e2ffc1955919a967c6670115e684640febb5d9f7bf27e27ab5311ca8b03ad14ace42b61983693073fcf1; P0 0x2cb3c90600305d614a5394cdc6ad5fc7842ddf24321641611a4b536956b1eb490f9d95d36f4c8118ebd32c58d93088af39 0x3d28c7386e9cc0ec232ab697fdf92229a595f428a9d659a10c186b394a4de04db0e7b91d4781e803b1a1c1190587d343b2; P1 0x5188d604b953bffba8f2a7d5f2db59808519c70cb0b911f501309cd97f9598871a761b57d7095c0f43a933e4e759d38256 0x1fe001a249f9e3356e0a1c0898d526249207c08633b0af34125d21a83e1780296066273de10d74a2c59c3a5e98541d936e; P0 0xb12d58e207ecd0774170eb185908ca31753d464b7480db2045c3e1bd668c11b158b0cc7be440c5d0adb095b74571290d4 0x3356c14eeea3e3ce179c3bb5990ed111f09e537cd62c098eccc11234a934f601200626a0fcf804182a4e754c0c0d64f4f8; P1 0x3973dc376506e5c3beefd2ecad78a93befee2e48548b2463f236d9b073a07845b46415dd498264f757571d8c49ac9f910c 0x2787b6408aedf0b4db1d802006ef399a96a8871302b72a459b8fe24bc79da23281ec0afaea27226ee9f3cd7d93326df5ac; P1 0x220fede3b499e53c19af7beecf1f90c7f320d5a8107d89e26891e033196fe696f3dd25e1af52195247511c66dd396befde 0x30e9373f87fbdf5e30ddad13f4ae8a5442272a3448a877997f42b6bf9ca2be85ead87853b65d66a6f557d95c4581f01f4e; P0 0x1a12d25a6c988a185af1e518ced207d1d45280d129199c6ba697c0e10498acdf5f8bb5b428d228543ef58726ff22032758 0x3a8039d8ffaaae986ddb831fab880aeb0a535e6ad81c2caeb24c8e4e2ef71458c13d8b97614d24053c07c9f2a936d0795c; P1 0x4a99b74c0ab36e57477e47e5efdc734f5f50d4b4d1198c64abc4513f8d23d43f72f092be63c7f45bfbb34c71d7e8b2b61f 0x39f17fe1692c2bf953cc664754daca3956d3e26f0b9635469187fef0f1977f2150c96438b566fb44902b899a7fe59c54e7; P1 0x492f70bff0c882d0715842abf34057671caa2ed50e41bcbb8ffcbe7b0acdb77fdd76819f40cc8cb7ba44aeaca7b8f3bb5f 0xc86c51918cbf3d14ba0fb6a41d3c59acb6b983c4d7d8ed5206f63b6fd4573887c43d4c750e9db11d64c73b5fd5fe946e9; P0 0x1b5ce7ae67a39c3bc833884af71843244d1f21eb2287f7b656e63d36f7acdd027339b3eba02366aaaead08eef79774c81 0x1d79d54c92ba600e4cd0f63bda45f3b28d382ebe78744518752d6ba9ae4aa7df9ca15ed8bd5146f7ab667b598d1105c6ea; P0 0x97828a80f336920d260e04333ab0847c72ec14b93661733e154c467c908b80448e66e85e28dacedda2cefc1c12f02a775 0x884694b8485d5fbcb9970d4b547182b691bb278a7ee541fc58dce72804dcd198699ea5c4e3d8ff0933ea8d55e452bcb91; P0 0xca67f3c461f63cb64afe2f51d6afdb7846bb53940b8cc751c12ff5d730636e1b4d1c5d3bca61321a5073d4e76f4edd6e 0x3b3328ea1bff07d4122c07be33218f3776b4bba98f1e2bc4f7693a9f0b317b66326ff0b3e9dfb362437fac34809030875f; P1 0x4c64cbc0ee908d64e80288c26ce480138c31bd7e5d9fc2fde22130d0b58eefd1d29be8d04cfd85c8604f227ba3d9de6e1d 0x2648081a53fee1273349d924cc2f9723a3461282a858f05d7efecf6593e8884b90bf00fdbf14667464afb5518191ebe897; P1 0x1ff1b557ea377c4be8a877c4ecf431209fd41d9596f9437cf951c91228b354cb5a1b13cc87a12bf84fe5058c54975160c1 0x33df2636d78df48178aa390b5095e867b55a82c00745d22610d8e75090051f8cb6c0a47f31dcc354d462b9e1fc097c233b; P1 0x3aa6b7b4587ccb40049c8b6feb113e800fb37b4813d99bd6537acd54e6d9223f605bc03a0b50f32ef682f97b4975a04461 0x3749f891fe22e5d5da9ebbc933e946e29c7b8621258c4b112190df04710c8d604f40681dc8561ae6535d0236d88f3252eb; P1 0x42a233d243cbc0c54d31075503e689ac9cb367931ef85bb3e1a04e69f289e194b915de7cc88c1cb5dda99c1478232095b8 0x1e4d243043c676b9d09b447b21c3a08fc7864d1894ec380ccb5106b9806f94a672c0e4b05bd4de5cffcae0a612c823e46a; P0 0xa01d4226dfd2b08fe195eb83ff2054a38681433bc712e4073033c98e16dc12557169f4950464bb777c33da1020562ec38 0x3228158a42eb2ad759744879f4ed15c03ff645d07c20905baf4889c2554eac167c37d990d0698d478cd44cbc4e04192b5c; P1 0x36d63b4725e0e2ca77ef91203f905e420f9d5f3e1cb12cdb2749890aa1d418ebe5193e7e058196a271e49cd54ad22638b9 0x5a6f784a65a8acddc662e8552985775ec35ca9636b235d8f7ee01079119bd91e57cf1a7b0db4f1e961b38d5d77a9bc871; P1 0xb246c19fe14933c05233e8bab6ce0bd234e53ee4c4d66b715a8308867f9904d60f86318d406fa316f87e953a36e50ac0 0x414fc6f4eaf31bd8c9ca2333fdd15d48f552e7c8cccc405df377ad2a6e9aab9ca4cdd8aee2b22367c4151e9c9c11acc082; P1 0x5cfb534aa768c47db847d8f3bb6ee963e62ae638196de857670256f95b5b932f5b42f287bd0a78ae2aab06beef893132ae 0x516038e98c600017fa5d6b4b5294e42ed5608536913c7d815c8e0a6c0d40bad70c4ff446c3d22361859b3339931af2e686; P0 0x482c6bff2e645498e5d41e8d8622f961ae65f440f834f49fe6a7d874b495d0be559434efb51ad6cb1623266af1cdbe2c60 0x5401831fc5161972943c97e17fe3a48654b231d1c525f45b4faf7177b2671f252c12dabfd0db9ed98906b01f3e778bbb84; P1 0x99d40c593f49363e9b2d2b48afbc8a4b349e03295a06dd8bf60d502bacfa545919dcfe2580f628379c3b9e610c85db909f 0x2ec8a579cec6f6c6b839f44c56d4af8cb736f6350c185da47c8bfceb44b74be985066797fe0d9db6ac6980b5cd7a475167; P0 0x17dad920406e739206d843d14e3ee36c01afc4dc3ec87d3d2362b9acca6aeddf4e506dbbf7c47507f520d83202ed1a992b 0x4699bbb14ab4ece553897cfab51e44ac0611dc46ce5f431681cd058fb1885c5703e6dba0349bad4ebfbe6ff1cafb8b9164; P0 0x36534953bf7f94eb37b6c67f9eb26e9cd505fccec0680d2446a4a09bd530900f8f3d29d75bae6c7265ac77a786fb04018b 0x408fd5061e8078204a3b79085346c9c494a5aaf0f32de4b24db557a0ac083244014c99993600ada9d658fd0f09df203263; P0 0x2d6df7590fea32c78af80bbe81377f9aca25f1fc8a3e2a7e38b43e966a383d914515bf6a12fced92574779b1badbcf7738 0x2b7551bb5ed9977cb3c203d04eb72eb413ba7566ef784bee2db53932140200e706d7855cfe4ec80424bc9d36d4d6f154c1; P1 0x292b0dd02a37f652571d562baa295d63ae2b2dbbaae181f660fdaa80bf9b7b7b429fb7350595b45aa0e8d4dd67a29887ba 0xd4a517662e6c7d7932658054d3568100349aa9af88f77489bc31c87d2998f1ad895423ac9c9b61285c5a9968fa6b48eac; P0 0x1ecd44d800dcf3f357d83fd733220fd33c97219d7d807e90efc80142b19cc425aca1c76baa05b323f619738d5fd887db9 0x1b93f2d812d294255e71835b86cdd5e94f6b00235cb3808c560d6c3e2745452c6dd59819cc28fe6a17d7a2a232ecaef6e1; P0 0x84a057640b78d77af4498c6dfc34c698ca5a779cb606e2bb8b0ca03dffaf5411b6a346edab3ccda7540b8f54fc3b98e39 0x4f65bcaa8fbcce186375735cb64a038fe3d05693c354a2fcd7d8a0cbe7796eb2eac3537254780488561c45b49882a2a192; P0 0x44b4ec8332dc4b90b36c0ae7f20e6144a2a3f2615b13cfd1a7d2fe0b8b4bfc19d431049ac97e1b42797ecf0d69d891b96b 0x310ed5c304ccb23b3c944f81c848dbdbee7810e8f88ed8deeb0130abba6f8d9925f459727f5dedc8ced3ebc6a83f2de777; P1 0x3475faedbd9072d4a7e4eccb6941f484e9372d173d588666b00b230256ca9297a5fd1ba10f0219948fb7a50dfac4ca9d29 0x1feded8b5b73ccb68add1737c4c192e0b0bc0113fecedd5cbaf33999cee1c97515cb2311345a9badd71b137421d35eb3e3; P0 0xb1c83ea14df98e94fda610062087ba08371e0f18509717466d80b0c5d0cfd9beddf64ad83f716bdfe81930d45e0e2f0aa 0x741d4f31e7d036f3542ceba51d67eb2c4a442b8b9a99d3c6999cef2b4d5c4d8535050faf8654babab19396674dbfaf263; P1 0x125e4a57372f1176c1751203189b52116f139916186b56e5904dd577c1dc94b3870aca9d9003f898142d4f9519692f992 0x581c889ffaff5facd0fac55cd6eada813b7d687d1f0eec5e2d3e01a4c9c61fe3af74fddeca85005a0d5d4c502d6b812454; P0 0x549da48d3c80eab79337f2e69653a422c54ab51c00f700e0a9513681a28c6ebebaf8840609f0be69be5c023a2b03ecf6f2 0xe34aa4f34086ab880a935c3d7bb5284286b44aa158eab5c8a5e859beacfbc2f868ea87545bc60637e4b94165f5db291b2; P0 0x2330ee95f8d5f958bbf9297214ed582b2c0c2d1f101210e36cc622ec6b0de0b509369a0756cfd64eb923b6240c7733389 0x3faa3116ca5f75ffd402f8e906f5e2a010989a2c97ddd6b0ab3392d75c7b7bd9ae0fedaa8b325b6b0c6b85f8583a3f6865; P0 0x2c2d08b98e8dd0f652ee3ae5cafb8b9496e48f22a8d1ee6119de685b2580871b2c584eece57f4016f8577b285820a88a58 0x346a6a7c68ede9953701ce87773d3681b91ce79f4c7048f75f99f727af6bbc3943c1cfa92b3db3c3cfa07c8168b08e2071; P1 0x3be34e70a6403983e8619a1671c9208a8308afcb8554b662394f2da8cd7d92957b925e66830df3c5d5490bf86cccca8d64 0x4dfc0de6d0637704fcadcd6b231ae2b587c79d08ec3edd4112667c7df9978788eebf48cc9d4e1c8c0b0f512db963a70386; P1 0x84910dfae78eef93de407cd1804ac4fac8b9447ba6fd56669dae8f4425ab49476dbdcb35fcc939659a8477c2e4956d6ce0 0x55f4a1d49b58bc73c1e2899d9ac427dbc225593786b54b1941ed093e6721693b1333546bfaa34b910fe87e16934143ee28; P0 0x5086995bc677b5ef688984d631049466025fba5f6da908de5ef0a7e7732fd2839050e02afe589558a17222ac931343895b 0x5afe6c95006ce511de6b2ef772a42a829afafe3274e1e9a7e8724bbb5ac94999d6f69fe42d15e08f5e9c307935b7adc0e3; P0 0x5a3e0e3ac5eed7de3794ec8ec3041abe916aa3cc729d8af5a493fd98a360dfb9ac1ff47c48bbd11c9d50f59b0bd4489637 0x1b8951f2f57a72bec6e31c4e7edea32e7eb91a13820b2dda83f2c54c9979a4be26e949fb8fd6b9ee6ffbfc715762b0a468; P0 0x843a30b6c76ae09b0d2dc3f754282089ab5a90005a28367a26b403cbd0b65ba43472daf2ddc715a670b3edb84b8fe132f 0x415541a49a6e74c3f0f7daa6621fa467a976ad4523ca6c442d62bc402bc32ef2b71f9e85450273ab27029dcefa1339c797; P1 0x5d0aedd9c5198ba75aec093654a42b0d5f4376087837b9574c710ed4dd286815d36fcaa8da5a735ed73d7ca2c850a40cb3 0x5782c8ccbaf81c1c4ff9610d121e78afa0ce3c5397ae3fdd0ca8aebbc95d6241fe0a0718c22d83e6cd8f822eac8a9d0a5d; P1 0xa6eeb335de767be9592baca39e4a124fa3ef9a2f600da3c30fc8e9e66923ff5d1c6413e32e4faf2262f5b2f8f6cfae0bdf 0x4f164f9da063e703cba151490fb6d65d98fc5a69cb810962528cb43ed5b401df7e783a59bcd4031cdf7a3e7821ee203e19; P0 0x442bbac369cc518ca316bd1217eb7865bcd96c9bd116af524b1b3446c059f83dd967da8ed9c9db07088011ac6c9f761b01 0x4accc3184e8a74d1ea7e6009a72676b678a42560b79f4c69079e35fb71517fc32dbbee2e714caa41cb4af81b3d0d206fca; P0 0x3cfae79c77d286be32427d9886de27335aa048cebbf3f9a4f18641209e587b44c6bb41e18c9dc90a19445bb67e75fbe825 0x54a3206c9938e8b4f9f4621a26eb0cd10b73d906073a1e4fa76852beb2def6c87f29d1e1797e93cdae92784bdb11b4e641; P0 0x4e131402091404c8d2a3824f240f87f9601dd63be3acdfe5235940169b0397daa9f05bbc97717d01308cfb1584b7186c78 0x5777d000db497a8d383eb963a9434cc23e769f138f2ad4a80112774540e2be578c8c9ba72341bc48357ab6f97e0ea62239; P1 0xa6c4d9ed94b6596c1a3933cca3b9417519848fa8a15f65fe64ebfb9d8842005d9ceb22403b5b86dc7410cc98cfc4d79e32 0x54d34a2ffeb3169fb9b8693d81be42be5ad3250947e87c84b2bd7a2e9ff309237db0b46a8602f82790522316a57572dcc4; P1 0x9cd8117b1672022a2d2d81e7fc936d33b6dff557db8b825dce304163664866537e45337070313aa7e26bd8d1d517cbb47c 0x481d26e1475d02d4897dd4b855d6fffcdc075921245e154374b5e8a82f22796da734a5e2f0097c65ec593e9a31c9e7f33c; P1 0x715bca0560bcbc5bc72ef3235d8837cc64f9d4cc52502cb4ee8d49aeafa63685fb3a3dfdac1a1f66729d56b3dbe0140d8e 0x1c038c50e3280e91f835dda8fe5e91600c31ab281aa4eda52cdba4e02040c032bf4f99fa80ac59a88d9c48e4ebc86ca67e; P1 0x111b471d4133bf378e93bbd0e59e32964d3a459960943a849fde51b3df30f44ddd4ae0f120155e383b65804f0315b84a18 0x26d9571f58396ebf96e0b7ea57785d14b481165624bb24e474de371be8594c79b8869155f436a97f0af1eec08d1ab35e60; P0 0x107301cb7d4205be3583be3e62c4529cd6e356fca688440067a5e9ec321be10b708c2b3f0a8c14c3b0b1fa74eddf27f07f 0x54be3ae74bd1af84ade61630bb46ee4e5fde953e5d42c1e16db868a8e8a3326b2c12a7c7e5248ce0efd41804ae09dd5227; P0 0x4e451cf77673b42f4a94a0e74b7a6e8904d980159748d623f4ec33a89a1143f55efd03cb96100ee13b5314fd8d1a9e18c1 0xb6f178f594108bea38c18c9ad77d83e898468c2afccd0f36dd572a5cc324fbc153bae276e181ad82aea4d419834d30b0a; P1 0x2d98a5f5d6fa9f17b760450fba82b626fbcd09ba28e198d83cc47a891f1bde68f2bb1da1bc2deac1618ac0feb1d508374 0x44d7e53b1bc31ed766b56cbf8e86847420a82a89ca68dfe4de8b373ecb1ac4ca72d60dc6c59c32de6847a49b90fe57441c; P1 0x674f3f526e44b7599b4774a1044993828ae06390dea3d9bac04f322149763c11adfd94bf33997e0d863fa0a6b740d66a55 0x4b64fb8c70579ff36f7a0ddaf4592a19864cc60702f1638ebe871e49db170641028d5741b6f805f96963f8abf79ad1c3ad; P0 0x3df415b6b02836351fb398e16270f94093efc05815652e5f9891d9c057981ef33e6a21f25bbe298abe9e2c37c12dad8bdb 0x765823a2661d3dab174f19be8f3d5870ec505f5a36c2db9086ccd238017db2e0867465d2c29509aeedc785c5b77683c0c; P0 0x98a5009dac69c0533037c3d1ffd0f312ae286ca99900d84acb647695d08d02e874bebe70a13d6a9b6f2d1abb70e8492e 0x3ec91ca878e362da18b260b4be9888ed4e6e0b82c0b1b63dbf27a1985ded0b117640c1224484d59a56acd114847073d58e; P1 0x55edaa76eb7c2d09a36a3f8b036a72b584736d1684f8eeaa57d2fae6cdbaec10bfdf3bfbdd4cebd27ddb2d4139500b8bfd 0x2ed2c423ac81d23f360103e039c202f2f90180f0ead99807e926c2c8b55365b3c88ea546eaee2a49988f8a720741aa167d; P1 0x2fca585d1c81510a7e7ecbe772338f96cf25dfc4d62977b7e9afdd884c9c34148e8cbc2857953f6ba300ef10f075704d43 0x44d9cb8d0f9b7f96bbe775363887704ab127f809f54b739393cca904630423f702376eb6a236fa5030773ae943bd4c985d; P0 0x33aa797ec63a20f1d92ae45ede96bfb4adf37ccb5c2a2d76ab8a5d8068c817e8d0a7f5e984f0487739631da1a29928bb8c 0x24ed2e7cb4f36b4c42f0ac66929369145915d70884fec9c8f5a7389dd0e35ba7169f108375185586b6b7d0b2fbae33ed75; P1 0x1db916c81a98be6c2c593ec7d9e7194d45e7e624d476c5ad92438bf4f82db498878806a0a37edd60fe0d45215ef1a13431 0x1f4a0836c294911a93e02d2f40ffa416db91a3ffe4216f059fb5c69ec5cd91a95fef40fe3b53a8028798bdc43d1661fb; P0 0xaab967fb6390b059d5c807c2fa8607b70194d4f877fc182087f98c96c8a0e26f17136733d78aabc06cd6cf45256a9 0x17019ec703ec56d894b4db8c53e18c30bb595a5d1f79976be2aeee85c29ca98418257192e4447827fc67a5e2cfe56b6ada; P0 0x5c4cc6c08975464262f13b41045519cd524820614d506b577a9dc15efd82f6361f657426a3af349901f6ce5776314377b 0x2474e2a05fd1910dab68d68f1664ef458245cee0f6d32f7e89a1156dba2d96a1a87720749a3dc29b9ed0c6e3cb8e32e567; P1 0x1cf8a9983f74a61f0770f124da06aa4283cef8361f3df3ef6f64e590b6edd7ed0df1cd5a1efc315d3a5c38cb2c83b69a4e 0x1d291b0a2783e13f3aa06295c04626866330ca49e8b564dcc8f5a455672e46616ec6ac1582b9adc879d968503d401f0800; P1 0x12892291d541db704a1ad90bfb0253636b42aa710ae5ea2949b873017288e3b05985be8a4d6c46b828f4bfb3616d5f95c3 0xeca764ea5e14ccfddfb6ba99cbf384377b3b663f5365d53cc044b952c1888ed6b7c53054402144beee41b203094685acb; P1 0x4c4cc5a55e02935533943b4f8dcd9a11b206be683bef5b428e4d518f1ad522ac841ec82b5426ede1609e7fb70d34dd974 0x5ae672539f0a8823cea3e9895a45fddeb61cc9659ce389cd15a06fba77bdbd6912dbfa8f76a67b96c1243ec94741b92b46; P1 0xb41d0abb6516489026871cf269ff0fcc1f891258e42ded107e52fc9b9da4490b16dcda19caa0172b1c395f52987b14a8b4 0x37e3e3916829eadc45e2bdcf24bfe4ec4dab013b38eafd1fc2aa2ac2a7d1a395d0a839e3d174321f339d3acbb9d0b72cdc; P1 0x4417384ed775546f85f552cd2e11fa75ce4977a1f66166dea5c230da5c2cae96e9906223082b0e9548dc44da5ea73c58f6 0xf3617b2a68eafb0add937520b35fccf1b1a9ad2efdc77ecee86e4fbd3f2a387770256b1114a02df715702eccaeafc5ba6; P0 0x28597f57749092d5ee9b13d9ede1f111c0ca46dac832ea9adf937566c1e5df29be514c0d98790cc900f7e05e88eae7ed8 0x98d1a8ab58f598e3894b62a32b3b6c7cd70200305233d957fc8f56822e5f2ced0575005c6e8f97ed355d659e8bc4658bc; P0 0xfe8804662a8c77e433a55f32b7550a23916453b9eafb1e1e145f7f50e7ec54fde1af9bbbacb54bb30c4f614eebb2e14a 0xfd375b4abab2441cca83c4d165d80971c6f8dcba6e7d9ed073c447a969512cfaebc6484ae9bcc9121ebe6d6347230e8ca; P0 0x2bad3bc2e8c0f574c6c05bd80447f7f487cf796cf4599ac903f6d5537c5911314404f48a0bc8bdd97e2bfe9e085dfa008 0x1abddcca21530c62ffc73ba365865338d2a42359cacd77f3e1af7f9c9d1fd31d228c837728a6955987627859841e24d22c; P0 0x7cb46b001cbec96471dfc054a8cf6b07a7f2315374c922169e67262f524bdcf37526e8aa79ebda60d87cdfade3f1d9ee8 0x28037e4a288ef83e3e6d998438c227e714db10016d78bb4805d193c575316bf1f55510653699f93b477fe5c012fe642638; P1 0x22e68d9ec54ac96934b5057460bf8584977527adef9372d2e36ad78b02722c557dd1a10cf9f5eb3fed27bf25d4b25b79d3 0x2ba09a5b3e7eb8d4a1ea5d89e3e113eaab892bc201f44a5da2926f695a1cb0f9d78d41ac8018afa8f08e4574f382cadcdb; P1 0x297d381482e1c294233c93d4fa191c41b29088c78d2f8e83e1183ccf9145f58173ea35876afe1f12b50f2a360b05a262fa 0x47400a81f1a4d318582ab91dd05609ed23b33ac2efa685a7abb4123c68b4bcd3abcebbee6b0db04fe5d8a133241bdf1b9c; P0 0x3754674a1ab3d2d843f92905d899deec79e9615bdcdca1f116b178418c25ccad1dc9d7076fdf2edfaa9655cd7453b79d73 0x4d4bd76d574cc7fb8061a6d98ee8c7c9da1e297a53bab632763ce585a20c4333b5a4c2bbe05f00638264e694e8e08aee0b; P1 0x823c9b852ca6989ad60be9c71063611df42f82d3642e1a681e9e4d7fd3b3d33a0137673fde4fc74fb6f0baff52d47a173b 0x3c7c398fd736b13e26385f19f9d683aeb5ca7fc559cdfe08521fa853f2215fa83e07ebc1ceb5d8ccacf48cd80bc6b5d675; P0 0x27dfa5677df28210b73254031c7a7b2e14f13f81d22b77497db2b3f536f043c49341b60f15c5602aa070033a0b233e8e57 0x31a47b583ccf11df7c6136baab478598786abef860aa38c03cab8954848b2a4132096e48dea4320e97fe8c4b6c0a982fb8; P1 0x35b7f0f0cd259de83929583648f885a2f08db0c08cc908ff0c66641ba18e0f3fcbfb00d63292fb40bfc9d0081b7e1ffe3f 0x5b2f77bbec84b7e7047868b025b94d2b583a8600de938dcc5f899b5622507dea44395b51dd66b58903b170cbb45f221e67; P1 0xb53edec4cac65494dfcc6b8b3fb92ad78f355f2d9cf6bde2425bf3570ed0dc13ffd78133d417a9cd192d06fcc0fd831c58 0x4ed48d87d1085ee7e78d45980ab2dc8afa52fee8629b350b9ae6293906f61633d820165171debb527763ee1a9a19ef457a; P0 0x43ba8ce944e8315517369ea0b0337d5d3b002fa2ecd960f0d40bc99fb93a011f65e3297cb81451ce15cde5ca4cca9d0297 0x284ffa08567f202e04b00d98347c88675be443009272037d546e552fdd30093c0382a422dc5abdfd05c6bcef601b8f46a3; P0 0x11b63c5bd0e88029795f7a3fa2484cc227f09f8172b3b2f12e5d7b0d39ec74f19dc72fe5f234d308e57e39d370e3a603b0 0x4b15789ebf1e2693e6516366d8532c7b629238becb76c9f74d5fe3d7e3065048753d0ea43a7f67fed351fe3e3d7fdc73f9; P1 0x7ae35caf5eac4601a80844ae633af180614bcf93f55699e544a2fcc313be809ba18086fd53bab1abbf4ea41029b13729bd 0x17d94fcca84a24bbb57d7c06805e8af1ca20464ecbcbbf393fbb4062a7019160d3a3b660fa0b3062d206fa92ea6e8c8917; P0 0x632f25d8efcabcb4d00175609a6879ec3adfca45c61ef03ddf7495fdb9bf2c71b9924af284f349501842fc2692535460b 0x16baf715a80581f7aac6e300c468f1b294499026bc69e9e9e7801018909771b449f1a72732834c2e30bdd156e5745733e4; P0 0x5a193ffcc95fbf4d40098bfb3c58b81c6be81e4ca8886e6628d469c195534c26f3eb52ec58f31a5cbfd7cffa79fe1f076 0x4603084d86937e1d97d6dafe3a9749e2ecddff9e9b24a87704ccc291730008e13d10c7af1a24dc5759c79e2ffb271af016; P0 0x356c5518ca388a35256f94a4994ef19424eb5b1b202e9c9f4732cc990fe4505e2345b5fffeeae377411a64ebdfed8aa39f 0x3aef51cc29681e07c9313978613d2ba9e5f36c8d748a4eb0e81b8c3cad78f1874ffb3ff8c29a048d92bffe65b8300bf62b; P1 0x4bb619b1f9abf14cdc6bb94c43a988c6f10a6d647da937fa1b07463704d313b93f6f105cf6289e092e304e688ed54c408b 0x4551fb69cb7acd7939deae5c4b7a7747e67e3f402c9e09743ad7413a353ba04f6bee907b6d93dde96699f975ade27700c5; P0 0x345f779c268c4141bb9877d3ff06187471f5336d8ed9a388a7bdbb8a54d56bb93d2c3b75ea8d33e31fea411ab37f6eac97 0x4c0a93cac0efc6dfc9c01d80c88459120b6182d67a084e33e2e36f1ef146d9777bab78ca960daa05ffdfaaa9ef0afefa18; P0 0x3f05660c37537509c7f9b8496c6b1a2f2e9ed3b88535c4747b0eeeca2b5e45080c9c052103946afc7f1da3fcc47b0468e0 0x46702e93567d1db9ccfb7993f623a1780c84d0b2df1ef779455a01d25de8b972ceb5f01ce52791fa1efa2f376c7b3b9820; P0 0x36136a27037c4412c8515fb1b8147760cac0ce95a123a427e384b6499b057374bb0032452927b7c10da8de33718036d4d1 0x4d81fac69fe11001a3dd996466596514eace9b6277af6e6d28dc532628023f5977cf19351b63e285497bce3ffdc1964ea9; P1 0x82f34abeaed9b5e2d63f10681da8d5bbf39c0a3954061050b6180be82e4404019aa11e9919d6e45e11b08c0300a389c7a5 0x24a0efef15ee76e418b007733b4488463767d63aa6260ab0e1effb9635f15bb850e3c71c3956ef22b1ac939de743eea57f; P1 0x1d3ed79c0394396363ef1d83402e3413d011e69e297ae495bcedcc084c781b1aa291b865fd832551fa466b09a9e2c884c2 0x1e317b3be25efb1b61d1db8a6df24e2ef9950ee8431e01ffccc9c9e95495dae185e2d8d6a78bcfcb2638dfbd4f0b306d74; P0 0x9ef97715a8f962fe0f60d13ac76a186e62153abf8ce7d04f9394952ea168a769d22140eb0d07d848dedce5ac680367559 0x1a75825cef195366716e7aa106f545a71932c71c4b1e97799014ebea7524e5fdcd7e1caf23713a9dea81edd5c75a098681; P1 0xf42a581b4f83aa855cfb640c080127d26cdef2cbc66cac84229cf781abe1884c61c93842bfea1518c1f96036c17ca50e4 0x1548687b5f7eec6fbd2a1ce8a701a24cabf6eb3f9fd6d6bdfabb127712a7a968c7e498a102c74e5ede39f4202f1fdcb146; P0 0x4efd272833eb1c62a1e476043d1bde13613a6338dee60249b84a99907cbe8137471570d1e6c5b4d60ab4659b5a3dc640f 0xa8c57e59d250ad56b5c3fd2385584018323a91a7e8fe2298b5c1cbb6692d50a22d9d5fd3727b6c84a3db61ee561709a5b; P0 0x13671ea42a89b111e60a544d388643882f101db93d6cea5c085cf47650972ddfb37cfdd87150116fae5658404a024c470 0x2c60a4373e8d2a50ae84d60519b3c78410845a6ffaef3ab4d52949848bc7850f296a4cc03c3e91f3f94113d02ddeba0749; P1 0x2aed9cbe4f88631443c461e4ad8d044328af30a6ba2a4f2179b19661c0f485681e487dce2fc024e984611677d81dadac35 0x53224a9cb8d2346fe166f2e1ade744fffcad383476d5b0171d246a9ad85435d3a45e4a91d29b2798e2e9ef8fe2426a4a0f; P1 0x96a6c8ec2aa6268cc8a8831cd203c676036e49b7f3226d4bdc7bceed23ac2d2b99dd9776355d4f00d8dafecc1a44d81657 0x1; P0 0x0 0x1]
    [(0x18c61e9d6f5364020bfb6e04363013a05dc6efa02ece541f304622ec35a464bdcd07d18a2ce4ee8b39c6438bdbf, 0x413bfc8ca544964e035e758391193d138589554e0e4971fd1ffd37789c3641451ad29a36689b031d72039001e20a8fceb2, [P1 0x0 0x2; P1 0x0 0x8; P1 0x0 0x80; P0 0x0 0x4000; P1 0x0 0x20000000; P1 0x0 0x800000000000000; P0 0x0 0x400000000000000000000000000000; P1 0x0 0x200000000000000000000000000000000000000000000000000000000000; P0 0xb291b7955e7bdcf83c5af 0x178c70e567f695e96d6b502c976d17b2b0a7eb6e0ba8d23d285133aec38f7dcf37d671bb5bc09fe1a7cb5f27d8da126bd7; P0 0x60b3c89f138262655c976eafd292e7a1200a19865836fc5f3c6e47de7fc10c24b2732244a28f2559fde50e216cf234ca9 0x450cbdf00d3a00d7c2d513581db910314016036fbce06bfcefac23e46c0e8ff4c902dc7dfde9476c195192f341a9ca3352; P0 0x33f70be9e7909d17ba702d698c4341eb043a4c4f19ebed87be5ccb197c42b744001ab2c220a4728c914557231c10ed491b 0x2c35e6e2ca25533af1ca22efca982e18d45117e9c60040b324de4e0a2394043af62904deb41cfdb5e321f419e183a94aa7; P0 0x154d8a4916b36d3b5fb6f9f4f335f608ceaa19c91ca44f19b4c9a0e58a2a8240fd4688e92eebc0cd33abe814061ea2889a 0x433b6e6a78f96d0ead25fd958d8b5893b8e100aa5352afaf53831ee465e50b4f34dce6dc6ce54bc77a33a776dcfd9fa27b; P0 0x3143e75283040e58626691702decf8522019d25e16f84cdfbcbe6264199478e6611270abfbcf748f092b75c99663df67b6 0x2a8f47a732546a12740b895c1b6c08554538b1fd14f6d6af579eaa826b2f7a1a9c8a3f0ce81d1bee37e41fc1f8ad04295f; P1 0x277bb9c4067388117525bbfab4177936bd560cdc0216523652f78c5c7e6a3be1a7ea14a815b0c3d6d8718e5d4d880aa81d 0x5094d2f0beee171e974f61a6658fed8a945825cc036e1e6ac284706c1d6f03193c824a3c2f559969ded6269ecd721c8a97; P1 0x8d8ac7201ed5dc0d7f3bb62481b877ae6d6ca1b914615957d0ad5142fac78905077b946d53207f540ce1ef1b5a99985061 0x19b784160f59edb59a47b918af32a2a4521e936ebb24e4835c855d32e1f86cda47ae341c306de37d3ff9dbe1240bb269db; P1 0xe6a8fbf14a7186e5c6b8bc7cbb1c049c10915fb44058a560bfa4ca5f428a5c679ca224b3bd068100d9f0c2cf18588d5db 0x15c2fcc0a386739632229605fdc08effe5b53d2b9e49f7d7dcbd8ac4dcc27a0e0af8f03b353af9bf7b450ab24f0808b5d5; P0 0x5295441190bf9415cc4480bc3780375b6ddf7fa8eba7615f58d4c2e99f48698ac38af75b56ed6f6084dbe8a80a4543492 0x96b1f2a8d49d378d544372b07bbf8dde15657f23f5778c9316db872a25ad5c825b0d18a61bc8679c282e541bae748e5fb; P0 0xf7816bdc5fca941b6511cc69dc159ea5e1b88a7d3105c2e2e000ca8f5d0e0e3fada354c04f38420723570116d8881c5c 0x1f7d73af6cc051fc0fe808ea02dd8926ad455d2b5f4d0a36cda80c7bf9e4e59f453425af3774ef38aa68c39f50eb226815; P0 0xacec55a19fbfbce0e33cd4c0b0742af396775c1df165d58cc933894fdbe733c876d6181807d72be915c19cd7184c173f3 0x2bf149117cf726eb637e38b52d941d6289f24be41bf2888a79e20250f9b19dfc30f14979265afd00fd584d62df82844b34; P0 0x150b9d64c29da9544f3da47f533165e7881fa483c8bcb65d0ee1a54287e19da0e2f777d5d3fe6077ab1278f3a9e67f8e16 0x2c0783fc7286d0d9d11cffacae9120996d4f2a15a84619d56dbc5f62da9fde636a0b5891c95ff51fa999ed1745766c5c36; P1 0x2a41dbc0dbb2d041c9584a0af5016e9b012611f5b844492847f819d286cb48a89aa3100c0ab2db19be116b0b70fd901e22 0x4eb5c09f669f2e223698998a41bc27501aa7eaef148a5f5e44cf7c1fa2de9ec78073def0ce5e573336f007182f12b7cc9a; P1 0x870b548eb3484132e6a22ee2cf3f2bf4b425c8e592b648e66af37639e2d391b857a0d00090e030f409e197f2b6762a453f 0x545463a06a030202f20125fbd773844a3210462f6335169947829e086b91780fb05ac2a0aa61e7ee83dbab2d25ab503e2f; P1 0x9b0427b864cc0c444085296eb4f150887b7b472a56ea9fc2ef47b06abc7fd99686a3f708f252dc289abb7fe7b2d4965640 0x11b0cd597199a29c0a9e59b3a36aa514df173e2961477e4dcc81fb73f1a9f2fd36a87d7caf31c6e7ab2dada22206e91582; P1 0x6d2660631784358d4fc11144ef9f5a6d5c96d0bb2bd0b1b15de7ec6702ece7a5040b824f4b2dabaa78999c522af7ce9e8 0x58726cb83ce4f10da9d67f35e9ccd2ce7eccd35f360cf261ff135830c1ef0e57b946e881ef9bdbeff09249b14bb1382db0; P0 0x5542ec77c2ba6afaa3148a6086896c3d967f9608f217b908545f259b77f0143882058e8dfd04bdf944041100a151a7bdaf 0x23b294e96bb984cd1bfbd36212f302df7a274893729fce769b818269c0f8d0b43d5098e97e1133422e8de94402be4afcd7; P1 0x1bc70f01a6bb2697588e7fe188187f031493b44e8c6ee3511a256e53c89c1a33d6de5e5da4d761479df64fd6881ccada11 0x2629aa4a67468e66bb4cbd7043288aeeb22186877bb23d8bef70de4343fa04e70157df2509e6ca8688862b33d8904f970b; P1 0x1fbf1b9d4da9472a3fe79494a282f234b80b467175514a4ca0d52eafd78739cb0cd9936a780fc59bb90cb16886ee47e928 0x4d73d55a89c9476613a273bc21859b10a574d4bae0ce152fc142b6b581b3af1e35fdb7aa41cb16aac07a209ec258333da; P0 0x4161c11ca12d868aefe82127d31e06a0c64378a733521c27f662498792b93b0391e7b77e40ec4cf2c1a1289a4495842c 0x3bf864838dab869a2f49bf1acf71e46eb35c7cbc6c906b0d7a5c6d034cc2673fe5378e5fecc25858055985229dfd0070f0; P1 0x4e6524482274538b43fc9b4beecf611ce7bc91888fca25f66b3dd781c864f6d0b838068a8a11996af1a50e3125f1c30443 0x3215d83f237bf257222030ad5681cba39dc0098cdd00ede715b5d1d94441b5d956794ebecd52346eddd1314aa5f5da874b; P0 0x1b573043ed81c3d2c5528606db4ad092fe6721e3f307207d927cb6fb885f374beaf25ddc7c9b89ef9ca2e966996ee9e761 0x413bfc8ca544964e035e758391193d138589554e0e4971fd1ffd37789c3641451ad29a36689b031d72039001e20a8fceb2])];
  mkcert 0x1fffffffffffffffffffffffffffffffffffffffffffffffffffffffffffffffffa51868783bf2f966b7fcc0148f709a5d03bb5c9b8899c47aebb6fb71e91386409 ([(130%nat, 0x2)], [(0%nat, 0x5ae79787c40d069948033feb708f65a2fc44a36477663b851449048e16ec79bf7)]) 2
    [P1 0x0 0x2; P1 0x0 0x8; P1 0x0 0x80; P1 0x0 0x8000; P1 0x0 0x80000000; P1 0x0 0x8000000000000000; P1 0x0 0x80000000000000000000000000000000; P1 0x0 0x8000000000000000000000000000000000000000000000000000000000000000; P1 0x0 0x80000000000000000000000000000000000000000000000000000000000000000000000000000000000000000000000000000000000000000000000000000000; P1 0x400000000000000000000000000000000000000000000000000000000000000000b5cf2f0f881a0d3290067fd6e11ecb45f88946c8eecc770a2892091c2dd8 0x1e6fdc408f501c8d1cd2dad1d7f46221c1e96c701e8a49686a2ade636b0d472b3d9008bb7596ec7374addb266e2c3e605321a7be979f5d831f762f5cbdd4cda0368; P1 0x39e687fdf1214c37e7bd33343b1615b1b5fb24e7e6f1887b3ed28c9db59eb6c90fd20a9ac8e4ce1e1ed08969ccec8d3caba64ce16731a5234266cdb4f4e45c81c4e 0x9664029d0234debc548a732647e8b5c3e4aa4f39ef828fb75d659ca10550d8c8cacd3f0a4804679be0abf6804c6b4c481872439aa67884cf43b50eee8a1c2fbdc2; P1 0x58595a22094682a73e8d4dd2dd6a681b2eefc0828486227651c488a5a069272868e976bf1fd1c9c782d539e9a3aaf50f074abd84f2fdeb521f57b345f4f6d95e98 0x18613b64f8459dce56aa5bde99aa7e4bad79b8b7c0d7ba274323174485d0a697a734b16d653a73041c11b1ac9d96cf53fdd14634c593c490e01fb378d28f3f05ab0; P1 0x2526010fed8e49b4484f827d15c520fe534ca62e7b3ad01469fd6a91e22c31322537b02f67fe723397454b8c8dda37edae2cf3966f2cdf489b8b21c2a48f5d11983 0x13bb8c359b12791e89368c4673c5a7c6f2f81043c88aeb20ddfb2e4edd6a025280f1262cfce219ff2f6341b7a8b41dfe1c63e43f4197f7a74b61eeaf5877a476065; P1 0x1856036181ff7cd43097b3c19e0d859d119639f1eebf320997dbde9302081ad0e9e9dc525992562a1ac18838d2249d0e2f7d228317bf49a57393d5588d65276e47e 0x162f73ef6398cd2c703ced3f6130b9c2fffeef5fcf39b8d345bddf5d9dced07b4bd5a0931b0293b5685d54b97f31668ee29e373439409208683c0b66ea90fa48f44; P1 0x1ec30b8eb85c8b560003edaf8e898cc140763ebc84efbf684af20898239b4102005b9177cd025ab4931170f431a657cc3dda7678118150ca4af2e1adc823645cd40 0xdea183f311bed87efee09d867af4363c9ce62d93cfd0e380f88b1769bc554b37849f9a9d1a9310ccfc9ba3c060a0a01bef223834372db40370751bc0e65bf8dce0; P1 0xc19c86c0ce85fc7c94e608b4117b9bd15020ff73baf6a139fdd8670fca25c892890d3c37f59f66fbed54cfbe1d5169f87bbf3948930b452c8664a71b26f85642e6 0x18001fb23d75e722aff94fdf8af9f55ed273251c2be55e23431168d253e76d7b4cbcb57d3ece3c7a60c1891b1a787dfa2e179178ae0a205c39a723ce5d08ba955ea; P1 0x24005f16f72c25295aff848a05b5cc244615f63694ecc10e71c1a914131869caf814a8041341d2b339010e99080a616d37c84c869f6dfa12c0d144eb9c33474832d 0x113db41a499c192a36e40be1227a286702451c1e7b564cd8d9ed67c8b0dc2f364627aaa18b4732279f44b1984074f847e5f40f1457bec354c38e7d55cb3c5644333; P1 0x12940cad102c9f225ab518e281fe42f31fbe178656a711146d467c7a8966abdfeae20c092a72f79b32d5d4b00da0de118ff4c617041f99f9620fcd3224150009e2a 0x7e6ebd92c1cd78d41933eff9aebb80623aa0bac36d4f3ae1dbdea60f6e9e0a4dd3d03eb7e0e47e9a6263cbfd1f40f612d920928711fa1f8c6432680fd5adf980d8; P1 0x3e713283ed46d5cfa4933d19fcdf54ae70635d363dd6e299fb452dd4b52db46d71dc6dbb3f255fe8876170ee62054cebdbbe97ce1783726dd1315a86e98feb803b 0xc0ff33d2baff442c91c50de942ad38a1a71c667abe21657a0ddfbc261f42d90e009be59df358b673986338f6cc99b072e4c4eae7bc2cc18f1ab8b3b80224cade6d; P1 0x917fcc2460cd12c5b3ff843cec50e1477f2ee68512f1cdc7d8bcbe595325fdb6f90d31e7793e94b1e34a8fe6efe6d44f69af0c19ddfa17d395af43ffc14475bb7b 0x17d5210a8eb371bc5b7d7a2d3edefb8365e34644719ee43b8a4435030f76af522b6cd352e8128691cdcd251f66ddd69e44bdfa7acce21531b5273c0a727c742d17f; P1 0x237fd5fe5796e44d4c3cd042552de5cdf190a872db3dd438b17d0d01338602bddf8a208ec688afdac7f76aefa71480c57c812e34b644c0aad821ea90fe0d8a846ac 0x188b8ccaad161196f89dcf9b337840e26fd7e770dc027c68e113d40fb5ff9b550ed059bf0bed2c5a4861cbfcc2495d44c29a2fa07fe58ae1aacc5b39f240ab38df6; P1 0x25a767831fa670927a74a26937b3dbe5dcd6a1f9fbdaf6ee3edf5afa7cef0c34ab75b94849f0bb24123e958817f71c5e17453d9686dc94453ad6bf42ff21d4ce77b 0x15aa2cdaad9fe72c3bd2701229a3cfcd9e93b08c744fff965bba12e81033d92dea7536e3302d74ae8ec1652cd7e53d9f23769b792bf71c607d4f0ebc41fb971a175; P1 0x1d55c7b7ac6bac76a1e6818ce6ee1611af08a32c6f96492d1fb5d947e637a04daeb091655237bd23cb3d722bb85ac751c0192c046de030485c8a59df61ec155c880 0x1fc19a52ca95591d6473cbc14fffc98613fad2068175d95a638b9fa639a2ae07bc24cc233483dca4bf8de17251d6cb7a1de962d29dce865f9e144f8d55367e6b272; P1 0x3f075ca1aed574793d9fd64f3f0ce2401ed51c0b28ff20b347cf5c7329aaf27f025ab11e75f6b47b935821f20a8a9c24b8a0079398547cd3bc9d006e78a4a76a82e 0x1cb90368df19db33852c503ab9e179fc65be46c9b10d07d01373cabeffe12ae93151afe63c70264851a96b9d720aec55b53d60247abe8ca097667f97b43ea8793ea; P1 0x338fe74de6bbb82b82b89145930f149f69e58f9a411bb9a22649a7b948de47bf6d8d441c38922ea20448dbc5bfc61af7a6de5903a66b61ca6b5f81542a42a0ec372 0x1bfb4c6601af3561bcea6f41a1a44a6e8ca8d88a51c50458ef73e72e8a17f1442fd4e21a9f547857e848030c1597770af8ad1a97162ed880f15bff267e4aab7bcc6; P1 0x30ef8cc6b2efc7aaad54f9089e6fb1007b1525742e92d3f7493d50c55458f32cc2ca3adac4101e8c22c5967a7fc4c0b2cd460da2d7eb20710cd17defa82186877de 0x1b9eebb9d09498c4029940420091aeb8505a0f8de5040fc236da2f2daf6b217be6ab5f34ce615743645aa4778f10b9903f2319a4e74ee924eb560965dae2b7fe37a; P1 0x2fae861046b7b75dbadff49dd14dde65a080336e9743b1a48bed039b56ccb95337bec622a9e579a8ce2c9791d1bac97f2e9bf3eae3a35af6830de404d4bc61ee457 0xa37207497cb8c20d4ea7640c2f53f477beaa9cd4397504c9355bb55c2bbcda6bedd805db0c622c20c7cce66ee45f0566c60bae9332e81c01fab1270df5b00b2939; P1 0x685a6812127b75943ec21db50c7a2f1234dd794895c958e09feeb56ed79a7230fce53250e1fd55b1d1a307a969e2aae9ffc9b05d503e2f4d5f541d12b6ce5581b0 0xdd55e45aa6774e7cfdb98857673173e811f13800b11d7eade978dd3c42c83b39218ebd359fec5ec2fac8636dd940cfd9d30b6dc67e73cd3a48d7b96fba2ce84e32; P1 0xbf5d6915f34e215be90397d47cd65d2c3db0ebce98163cf8de5d0fa664e7d6270ddb5fb27ded598e2afe90b895308906c9c756861aa74cee8e95c3ce6db69164b5 0xf0c72bcf1f3fdce50813ceeb83077a1a716f2f9cfd8dc9a3a233f56693cd5550aa64aba02505612294c7fff3f9991f8e651eabe0af718310dc389bbd7341f9c52b; P1 0xe2760d197e198f89dc84654ceea8b21a33e5b346096a3c611b4ff912dcd04adf5cb85ec50b7fe95c1f186b3436216e542fc1d718d0c6cdb7c849a12fc025c0b4a9 0x16477803126c0c379c1888021716c3b177d2eb51e9616a2ed5751a393d1360f421a691a563b49fbf93e951950366368ab37cf878148f5a3c5dca279b91c1eb20c81; P1 0x1f05c945121ab5710fc97f296aa487eba82e7d59c9c48dc9cca927ecba999abbfc293ae52bdef79c13476e5175c3b280997445aa2e199a7fc0bac778aa5b450ffdb 0xeea5a60ed75e6a9016da93bb9f532ddbe973eb64d8066dc20c5ca4d05bd78b9f7ce7dbd81689897cda9259dacfa1f86674e0f96d5eb7e389f96a345467424e274f; P1 0xde786bf3134c6e03fdf21fa9b8291653adcf47122efb76d4b86f21d0a1ff6e8ef0b654e4194f8110482dc2e7646ec084b7890369da2e09d7c16c0e4027df7b74c0 0x5b07a0f6ed22038fd57455c1eab2696d0311f27df059e9e251b03489262474f28b2a14d22cfc9a4bc9bb63b4b0d6393e9c6581dbc5b49a815e7dd28100d683a02; P1 0x205e6ca9bf4cbcfb911903b177b7ac440ed5a307e0d0d72697e8f6955d09589d74a2fdeb3d8b3fb8b744c4432aa246b175ed385647082c4d7ee777bd29337e04 0x41132ea126b3a038c54c055745c46ee5c5784fad857fff05840629ab18b87b727a82e3f682c7c30ddcbb97ad5d3f6cb2fda44c096f6977a0dc9d25594c60a0d1e4; P1 0x108abf1dca114560ddfba3e8e629ad6cce0fde1a695343c9f03c2c692a10dd59d852660bd38020de1d217ca370b6a8a62faf8fdf647921e39169570045c42172ff 0x1d777f3348768d9698af6d4c2bc28232cb7aa21756ed21a7c3f8bdc3a2ae6d3ed11fcd338577ce1e97bfb517f8e711743005d6eb872637de0e90967743d854b7f29; P1 0x3644a991f4c267754d46de54e188c151be1c2e1f07e21ff47d6e547538513e7467963be0116ac855e224f3a75ca6cf4da88eb4d7a7f30c34b8afbc0753da503f75e 0xeeb72a6f17bd4218b992d217bdc6838399b778e0836a5fceb5192f35e56b60e731f96fd4084384732faa83779f13f59d57f8409b42f0b9b89827a9d93e020afed4; P1 0xde9915f442007b7a2a694aacb7fb8fd1eecd30882cdaf4a9fc2f008c217918880fa624d40474f30f1dca798caf734295f3d762908b09d2c8595dae451b7cb53ad4 0x123dfedcd0828ff3cb280287ebd18f20df8fa2c42f32ae08b38421fca084b3eceadf5ce009a4ba52a10a0dfaa3a204c19597e35738ee87209c5c48a7ccb4cb8ddac; P1 0x14cc6da8048a6b102a4101792678971708f24a55ee608598ba085e2fb0a5e9b90dcb595548d4a86b35204a44d0b8753592d7338a554be9e0cc873c071720b7d24c1 0x1f058e5c46bde5eeef7ef429f6ff2a7fdaed32e551eb7908cc02d3d754f22900a40582fa68d5ea8dcb59d00e64012a4e61aaa68c5eb144576fd1090bb7c696b2857; P1 0x3c2589937e740d87074d620a9dfe4e60489ff26141d8df0fa772bb74d2aa537fb47912382b8c04bfce5195fd907fc83eff5243f9f5645cd6f06e8d472a92062c7e4 0x1138f8ea9d7df74b5b02bcb2951b070b43ae5b97ec8d970c6982fc1d99e6c4e55e98c6385ff9e3a337b628c228d7867fb1298eb4712755558a98721fa4fa2bc841e; P1 0x1289dbd01970a1c8d5c03a7d0a4860c945859c0776c3ce3eb6f14e8b6321d56dc7831793612214cbb9724f593d36637a8913a8141694bedf65332dbff637ddb9339 0x1743d1f0292c7206431487ad2f5c3cdb278b5a58d479ec8252a771af7f0a374f23b19064960d44af08793f560a4de363433ca30855548512ca75aeacb55e0cb7607; P1 0x21d41b0b7458e489b7816a2d59dbfae4035dcd28dc3a184b5fe8d0251231df4d80d382aa7a2a397020e3fcfbbdd8fcfff3a40eaf6a445aa48cc26c5c694de049ffc 0x15562d5b04153c23052e295b848c862b4c28ef5e24fe69877cd50d076f5bfd5704f0bf9a777e05d4a8535f5ca8911f950eee65079b5a0da96aaef520aef340d886; P1 0x1c740736fdb59ed84aeca28baa06a2c95edacacc02030d5858686592bbdb9bbcd2e7ecb90a7bba167fecdc7d8b13dedc301fe4b9b5b6fdab81db0befcea16312d 0x1f51bb1b5c44e1c42f244895616b0905faa4e852638f7c74a47082eaa18f13e026f6019202faef30981bb4947077160da733626f3189b4c5e9528d0cbf6976f7db3; P1 0x3d4e568906a0dfd9b2e6f98c906ae680173f12e83e4337b6e67c1d08cde800a286fbac638a6c9c573180f8daa14ae52077ea0873b05f234ffe15df29577fd79d299 0xe9bdcdad86544c68829dfd59657c4c6b9959dea20349e0d39bdc7aa256f355b0fd51975b94ad5d83ab57a0b765ee21bfd7ebac0a7e5d98abc83a43b99e97e06af1; P1 0xd56b0d1f35fd2a50e6df76a606270920fac220436a32f2fc047f54c2dc941e9d56c7f3af3c2565a29f659a9ca6306e86b0408cabcc167899a009d941cde638afb7 0x944170ba9bc414edaf3b5d8d853945bc9a8976b08aebf8c260e12ce8692447f9e2af5b78b27de9794ad008f6fdd0e914b9740a87fdc2b240351f480e34ed2f4453; P1 0x55dbbb123481a217bd550a8f97e3dc2f0336aefdc651dbe632368398015c78a967a7652a4d68d83bd62b62d4a2036a471b411f340a18fce033bfc667238924ab5d 0x102b60778254293700d56b36f023624f0c1b5e07ef74e4b3b1580bc173d248b653802eea7546cfbc1de0acab9fec0343a7e341b71c5c378abc6264ef1a5eda0b8d; P1 0x10573687cca26f644161c62a8dff06292b00f0743c04d8aacecd870a914dbb088090f2c0f5c6d0175d420f30e679e6b78f11fc638b4e4bb2a03b86540559fcf05 0x15b5215f1896e09d775b3f2381a9b8cb90f15b22c0de77dbb3a643755834feca6bf79dcc2ea4cff2e70087e5f2a8c067813e902aaf12eb67cf096d42c2be3be9c25; P1 0x1d737a1cedb2ddd9c7fb010bb782298a5397fec1c124e3c6115e2f49212c6b0302c2d46066c04600761056c9516e12fa5e74e7c9d3db82d6533dd83ba21283da514 0xbc54174927ec7dfe59d07ae0340241a4db05f6d1f67c2cbfd27beefe6318fb5739354468af6b01cd8c6df1c07f028662b18899d4d1b4ddfb94e1e8ab50994b9cfe; P1 0x8a8b9dd2bcc3c6548c929d58a8d54d5a156388e0ce4e11b5fe3e3ec23aad9cf8428f15a3ae123925b2b2c33b41e4adf6fe6dd716116538f536274678ce08a8ad0c 0x1fa0982bdf48f8b2b80f222d69db69965316b8d3b91a7d92383f6830bd4dc5e2285248ffc0044e2e4a631ebb46626290c91f3a46eba46eea39e0201d0881a0e529c; P1 0x3e84999315ee81d9491b9e1b8df863ca4b06bfb1da99ef18bb42b14bd0ed1f3b4d6f0bbee6388fca23d5ce49fea295c00a420ca0ba56ff299016b0753a2017f01f2 0x16224096c43fc536326ab54f1c3ede01418ae0bda8b74008c2bf89a2e0b659c6c673b5f01efb6215fc6b5e83ea89c7a5105a02393c62e020977d73da9237e47049e; P1 0x1e9e7af2212d1c026d7a617d75f00e7a27456cbf4a1ed5bf5398e5a477de80f1dcd872b4dab20720a51dad99f38cbefb74aca4da5ee48674bd2ff3ebb0bbe45b013 0x53a030fc9241cc40e34b0222207984e895b5dbe13c29e04479887cd8e01678d8baa6b62d4666b4021b24a10b68b3e7d268e1c959af44486258e0523df5ff10065d; P1 0x1b5144010bed2cba56305403c75cd8aa71f89bd54e1b63c50990a10de46592b722eaf4d72325fa6e0a4614ea1e354c4437a4efb35c63ca83aff55e41094b8da208 0x37d0234d3fb1ccebe13182b6f01fb1a2431eb831c6b05a950a92443ac94b4154e76c95cedbd6f914f830b1973a7580e472016e30bda6f18c230627bd72e8b294a; P1 0xc2b186493c41db458e7fa712107069468a0c03136adaac418fad374559326dbd67d4e63ae9c3081ab790b685d03cbd73c657e37f4a3c848b774bc87be90c3b3 0x1a4fed14193aa4d83aef1a04bb912483ad62f0cd1ddca920b1008bfd9621d29dc6b9e246b0dec1e65a76591260d2b9bdc0291a11d9547cfa781ff3b4fdd7858c57d; P1 0x2b4551c4315b3f8324b916448313c99e5f125e70db1d5d883d5edd98cf1ba4c0470c94c83ffb14f10e572dbe110404eeb9391ad0c9596ef5e2d5f2a17658351ca8f 0x11378274e745b5e353a0beb8f364441aa364e78e594c4e5f4f69776ac3ebcae3cb887d6f48d5011005b0105a4de90317900f060c84d5383bac9271b72403d4b430b; P1 0x1286b5cd76d92618d9fe0955ddeffe68435edee0e19dddcf2665b2b5953b3113ae4b7b75da0778f14d318f63d411b5ee7c40a57d4a9ad95e6a245af441cd5f4fcd5 0x1cae6f5ce7e776bd2aceb59813e0d8482fdf34a23665a020116786d0c2d0e449a3ee0d1a14735b862bec33c4457387ddf145326b939f8608bb7e49c6dce04096d75; P1 0x3369f37e577937103ec555f08d7d78409e069cce29df4bd6a945fe6673a459f2148e1621ceb9053e1abc2470b4c22311a44f9b853fb4b70329a79927804cd1548eb 0x25a54f973fed3c56d6b1b1f2397cd22d09951a01d60dc548d34d0bfed9934329e6ef65e7d1ac13d91eb243b82116ebeacc82b24bf37ed24c99ad52a05a7d6a52af; P1 0x58933c16a31ae11c71184fddcfd6793bf6fbbdc5b6e335b09eac5cb04fea6b947b6bd107653dc77dea2dd86b2d53bc8393a10891daa1d3c19c681da45f3da6642 0x3ed68b27916ad33db43a672282ec0e6e227d108710982a38bfbbb773e7df7df8e550bed2d06d38584172981427d5da2dab41611822d61d3b5951c492c25031c6f0; P1 0xf6c9f341c3adaf2b10129fcfe7a4f7fde0c488f07c1e2ea11212900ccc6303d5253f9de4f4b79aa093a0c7710530b92bbe8272b9db7ae35f2e2f2895c62e86d1b 0x10f59895834fb5812ac939c8bd87a7bc38d99a286c82dd1848934ac36e17ac6b95d624d9a68d959f07d0fe10948eb4eed7114dee13690baad7df89a89d7173de00d; P1 0x11f9eb019893082544264202cf9a05e19ff55395a03a40db4ed1e33f7f410d405846c595b6053869906c606f352adb0ea4ce6800f7ec15424c057d459a9834240d6 0x1bde074307194eb18ac6f7ee0473fffbb099f3f37146d02d15cb5e818ef7132a18d1e16e69345eb0386b9af95aa8e7cba17169caef2b869f21f3427ab92dd19a1cc; P1 0x3089618bbf4626e08f1f4b5e7e9a4219eacbc50fc59c8ba29fe74cfce9323253d2fc630404a57754b9d9c34bbd907dfd3d16ceee2d232e8e35513821fc3164ba6ac 0x7ac499a144cb5d135842f70d56aafd711b478315ecb03c936d073a8a729b9cbd2ce83515b4e95d7a84424165bae994e96b4e3add3dbc1512d42521288938d06914; P1 0x3adff96950b555efa547d6d717f8fccd0e46ab740813881980f53323f3e7a6e44952209a08d0d331ff92e68db8120ffbe5320bf5f0be2cfb3016eb6bd8fbe2c104 0xcb8bcacf954e3378db88c62072e729b387f703ef0f76d3f6baed3ce836896bed642f5fc10bd8f3e9bbc656264e7df716adeaf1753ccadbf1553b828dac6c0479fc; P1 0xa1d6fffb14e2687fc62f687394df5f7a2f313d0df537b29c8f21ffeaca6c1a978a5f1a2da98653f4bbe008442a30cf34020d9b0f99dd535a123aebb0324ce2b5b4 0x124f78aef74c94f6b9901b10cf623404c93761a7d3c79b426d90e12f3422e8e2117a5bac547298df2e59eeb0df8424992ff8138b88c5d079e3b18a389d95dadaccc; P1 0x14f45a44fa7e5a3890576774e0ed1550a6edc144fb68167806bddeb6e953104d68e2c0b24a762dbe30086faaad2d9cec58f033e0e7c6c9a30a5fe880ea4175f5de4 0x149c0db5743fb9cc411eb090746c6e1d3945d000fc656981e512cf3666edae72388d57133604c46e5a78918acf361f88cbea71a67360ede38afda1823c5afce281c; P1 0x1a8c145100b911e6ae172ad09f7e3a66e59bbb7e57c2a40759af3789a8b88ec324679031397e013c3ef79295edca361020396192825d3c4724424b7d33f6ae8eb79 0x13a50e82709a11a18411e71421f2f2f4bf53231bb3a6a799d0dffb9ab9eafc781aa2e8e16bdd738f14ec63559a23d327d7126de8f9e4527a54081fb2d66ed0dfadf; P1 0x181ea9311ae8c001bbda6037f8c2093f67bb62578a46d282b5caef8c5ad862c0dea3f0a2a3d123aeebb64b11a7ced15e44b1d0a9b6f7cd754bfd4fa382b48cf5e8f 0xbc90e3608158bb603ddf12ce9e4a03658a728c740b0664756bac03270699b90a7743bdb2ac90216692941af901c8bf65c985f5da9a5537a22475edd44c6e7a6d7b; P1 0x8ae51ff6548020ccc7590014fd4268d2746c10b52e5531a19f893ae9e82aa2edf293ac663f994d7868592f9708c9156dab63991e3ed7ddda68afe0af104c53f14e 0x15e19d14e68ab1badce265e30fd42e84700ec9861465db561646a960cacfb2dc6169a2ad9dbe0a099387823839d067d697618656991725eae745aa486c307d5fe74; P1 0x1deca9aecf2a57005fde54e6bd3f080db1962b6bbfa36ed87b2b0d4ac53fa59f214542a9b0dd051616de23ce92ae97f6c323f109df25c7424b6cb91eb0b9af47436 0x92815ac2181c6f8dcb622f1a95951ce31a90deb1feaa8571ee5710ed09c9f16dca694ee821518c6d041debc61e5b1e058c0a91f891eb5aa74b341e977792179b3a; P1 0x53d7cce1fb49c802b4b114aa431a15e9cfeff64ad43b593710a57d0338fed2750371ac3719b072e288d9a2af53a4f7e57dd27d10a56eac09fd5e94f6aee070e6cf 0x63a0952996d49f5ddace093a6e2967846dd20aee270bf42b15f23c355b392481bd64d174766c8ea95f51eed60fe8dca7d0ec3031a68ed914320e1b49cd1aad9901; P1 0x26c59818f58e6d5ef70904ccfa0c4309b448dbfc04957ee000e1e637805f2c904d9b6daa0b285e1e17a35e6f7faa5ed20b9f690c51937b40bc26e08603b27b92c4 0x89943373e405a200c95dad262922962684a73fcf2fb471c2e2afa9105ad035947cb910ecced3dd3b24a0f590cb5eb5098662f748496bb8bdb8b6082cd20b0bab1e; P1 0x49eff4dd92650f390f24fd446a89124f7db6622ec990cfd4a95738be4ccb9db72d2793e3608fb2ca9e2b9e742776e6e1e7ec0e6395e5977c668f648b3f6bb54f09 0x2bc0a159429562f56c741b2f965a5eda7e43a67f31b682e368ebb5f56973b43e8a2289551f1bffa769b8b5090f214f9121109039b5e7c71b37332d7e2076b2e3b7; P1 0x77a472667f37432263a8e8d1aad951dbc37280c35ddeaada8981bf50a96d01c36af16b000a7b3d6f1d856420bbe3fbe7080b45cd3491336ee9c7d4c3d2034a70c 0xab538f7c449a2c71b076d4dc386a7c333c73ae3cde3982a50e912bc4fd5eca26a68af8ec3f11426df9015be13ed9677941b5d7099e83e797208deb5d1748598a36; P1 0x72a8bcf65ea6844f78db8329d555ca89cc88f8b2e11b12a22cfae289fbf8b23add82e715fdf801de9c63302765d40986cf036b85fb3d6632a8e187e7c0967941e8 0x69b8288ee7f47ad432de2dcf1a93c2c6f59466283b18c784fccace41473efd744f47e97c625007adbd22e5895963683783c236fbf969347012949c92f00d9295a0; P1 0x2ba895bf8e20f4752e891368ed8bd2d1fec124d64179a47a3410bfbf95fc3feeed162cebcc1a7be065e6b4b4a1387dc00098b3f37ca577c3c36b25a2d32f9f96a1 0x5a883152e92872a9334e189d26ae8958168c7cb263d548a920e4d05d7fe53e7e1f0e47dd40a2eef0bc6f06587882f9850cd706307d56a13ed6ba2dc1235c3c1857; P1 0x20040b22bd8903b47a024d6d713f123b8cacea218e59bc484ba30f4256f7aea5c04221d0333743c393c3315ef6de2a9a0c26c0fe2a7d8ef7e662017d884c6328e9 0x894e48e5123cfb71650dba343932ae97afbff1a8a0d14fd72b38972d8cdcb2f1f8bff765d2b7969b57c21e62660cb17af61bc048d0e76bba2d6bd648fb8ec166f1; P1 0x49a4e1f5adde098487188942a6ac765d7f16c816d703e8554ae7de1644d629112daad2c7a7be46267238e521d9d1a4b070153d7f3a3cf1454d758152f393083419 0x3d16382346b0e17ddf33e96f31d9de1048201af11988f7de636962a170be82d8712572e9d3654c1607ca5987c8b5beb5e4c6f95cda51bad4147fcf40908b7244e1; P1 0xe9398ae820fe5a6888b09c484f2aac3a3b022cdc11fbf0cf4b085338854ea2c77e6c82cbb81af7a96914d98ad0942d6b079cb733c75dcc05fb4a7e44bca7361f5 0x587f07864d84c7c4b07dd1c14cc64ab758d52df9a365192409447d168859d0cb5493f42e7bd372d092a73fe169e1bba251dd7002a235e581946f87aaad1eee75e5; P1 0x1e979434ccc4d1c7efe4a5a598a7bc1c54a05af5623787eb082ea2b4ba648166150f82bf44f0b6601f415dd22f8c8278f3f5b81b615fa73835b679c144516eecba 0xbc93d02e6c46c208b666f7f7104b79ea63db567db1ba684599dfa7a6105e14034dddad96cf5e93d1269d2be6a882afc18a995a10216400a86b9c8da72adc1f4328; P1 0x8ae96f1ceda3be9db47061428f59ff4ad02aa5b3eeecc3814e90b18a1c0b67b02774975d455e0143c78907e171ee01efcc817717574dcd3fbf6739db5054a619e1 0x11110084925128a8aae0d48933984ce3cfe1726f0cbaa2b4e21c51be3561682cedc01e70d5b8319aa72c36e9537c206bc4e808ac46deafcd17806ad617c34711f97; P1 0x1234332ad0a7ad5046b2821cf07fb27a62a6a14fd3563b4c47e46776a4116452f9320e0033a416910a8b248e0246d0676b64075a960e20667c04e0adacd32bba64d 0x393fa2512e512c5e982cf2420a17694cc954d5bdbbad76b9084c46ac838620400604478a68a2ece840e3e3f012f1670d0c8e9faf45de68a6d62dfb9ae86b00e96d; P1 0xccd6619717fca130a39fc24ee4961bea1b18088bf6ed124711be8798c3d49cea4edeed8bec2cf1e7be447ddc0cd8b4d103e25c3e4119f06a2279eec06c2d2d818 0x1604a74772f2df4ac9c3effbaa58523f383c5586ba3050a6d913e32ea4e571254bb65c2e62744059e90c96941a74d19dbe1952185c7444baa64d3b883b7d29c37fa; P1 0x1e4ccd5ef4ba1e1aaac9f61d6c95047a3d96856911528f5c9b4fdc5c4a909034491de209e5eeace7ff66178cab6ee49ef0f0533ed2bb025dbdcb1e7eef5a3734a47 0x40020a92702f05111d8a83e0251df20d76b3f0177fac9fec6a5dfa2f055c07a19021ec78c50d51fae726bd531d5c577deed50a61256bc045ea95593f149b4167c9; P1 0x1001054d62d107cc763a03007c97349c165dbe52f071ab60f8d00cde0e4e3bb5bec35d6f94879027eedbf5d7077801608b20a12686e985386cb5499223ded9a118 0x1b47814257a35b3421337f80d83f9734752185df54779519ccb025160f645c10bd211f8b5dc7bd2844503bf0d394373b590f1f3326ffb645945739fa09cda76adca; P1 0x2e8293cf28cff5d861148079f94580095e930fe143c7e0dbb658304a023720d8e6398c3d41060267c2e59a89341d8fe7a5114a3f044060ca7b6ccbacd313c3dde8b 0x1e3842446438166cdc3e3ab3a9ec0e7019972dd72d22d34ce0a10f569d65ba01afd43bcaf6d30662809a8453dbfea82698fd4a3d2e40ab6e517213e2e3eb5e227e5; P1 0x3913be5169053bda3d6da2fbf695af3e352490127e5e585d44b4574ec5badbe5f4652fa3eb37f2baa8374e0dd1269e09ec3e26cb7460206683bec1515264e19aa1e 0xe27b82ffbd597b8b79c84cf4ac1856cc31b9a5d72197e960e5e6462af00a4f62e37b366f3966a9e8e3f1e3d478ba43e5c2d9e4748fe28fa86373d0b0e9972c72a4; P1 0xc85e4ee2af1aade8a0d7b5991295e8c63c491c2091aca4538685ee6333f341396128b2927f15142a91560d459d8664c6e132314515db0077202c2ef3c51016448a 0x11de91dc96fe4fdc984b0c1398c4f24e9aa341fe59b4afa3cba422491191a1d7d03b4e9430f761a240342c238a12f9373855188115f2ca4814e6716eee6bbaea146; P1 0x13f50e099bf48cdc37243a766121da7b8cf6545611f864aa0a2dbc987f5101d873645f0f36e512b045be8e6a22c672ddf8628eaa4f4c9ef114682d616980168f2fc 0xad987b3f33627d5415259a947eb413e929683bbc122b9dd19bdb147cf340db49abcc46aeacc3fbc2980152b21d7c49fcfd2eef8bdaea6136702ae78704dac7436c; P1 0x75b7716601d5ed5371a6cf1c80cb043e4e2a4eef3a47d0129bb8cdd63bea94023a2021c88910592c60695d8862d25ba30812fd91ed37b0f49ca1444e4b6bab2059 0x15ae8b4b9328bdadaadc24a750a822496be3eca8da098b6d065104879c88493d3e3f9ddb6d2833074aac6c16a47ab130d3a0386356612959437802fdfb6893483ff; P1 0x1d619dc0cabe29e228dece3b88080cb87dde1fbae83a1abd6cf4aee70a0d5e7a2dccc5ac7783acc1a12cdffa844c3e978cf9349d6ef08148b311cf80dde7d49928a 0x1301aa4df83cb1c3f442c8035503013aac1eaa21b6647ce865718511035d6480e01fd3810ebeb3c7f9d62d2a0895daa6c5b7ff4e3d2ba8a6d8c159f153a4649e128; P1 0x1693f4a58c0984c5b1aa94f29024bb46f18ea809d0b54029cf55524ec3dd9e296fb349084e4ee59f9ade86fa53c08553d3e5ec625aa6985deb235b672755589a166 0x116568ddd9c93f398d764839ed8d803c29d2235e526fa926b28e273e725c747df7735ca1d4e9e2ffb15ff4be22d5943d35bbc588a1f3d904fbc09d5cb24447c27ea; P1 0x12ea01960ef9466ca500c9ef1fa0c766f9c4ce4a5e3b828e47078992d69f099a595acf1e80b744d7fa4bc7a896cd937ac3ce1a27f49a26abac4619cc742b6ed2e9f 0xcc73b624a86d8f27988f7e1f919d45a6a0c1f77de39ccdca5ba6c34c542e5772e6a95c58dc4a76bd5cbd16cafb3dd3dcaa967b4222f6dbb9f4d33f82bcab7d8431; P1 0xa3489e9792f613514de44cc3c0215885b2b8e7fdb74263eb1ea7c54c7e99260b4824645370a16866098a45f217088ac66686381b12bfeb83a2ca5e06ad6499b62f 0x16a35b6046d8cca38321f2608dc3ab1bba7c76a3cf36272ebe17e9bcfe70a93d6f69e2c30d25afde27def3f2c0f3b9ecea234286e6824eb5397c4c2b480965f5f1b; P1 0x2007bf2096511d40a73d4431e51710c42e9717b1204f54e86c19367a4be14f908f7bd95576f1f37ade8116be14ec6bf78de60287d42be26222d2c86e8b840da63f5 0x154f43533d0ff090079e7c1a77b7e98d8236fb086f9905a3438fbf60cfb4cb2ea239a79266308ec98d85dbb428eee96dc1f9b6c201957a6eeab16c3100d816ce215; P1 0x1c619964718fa5518f6af318c452eb02593df0abb66332e7a2164715294f912c93840552a998e861c74208aec682c4dfd856972901c73fe32219c444990d2da5bf1 0xcdf1de84bd9165d32006a4ef32bbf89afe5ee04b042abad97566ad3012ea62967ce63ac943b8353f98a26b88bbf258c8aedee0f66a29392630156efd0b1372cbf9; P1 0xa5ad42e54ef246720fb820dc6d7be12fb937629fb21ec2a0848474c708f04fbfdda13397839d5562d37e1bf22b0069cfb54256d5afc980f284b02b3e08bf9dd06c 0x17d088212542b470a2e90d3cf28982615df50f90f4748afc0595f4925f157e25f1f3f9f9776b3181bc83752f4f86493fa6a0057fd021d7fd1ab4d7956eb5efb2c96; P1 0x237225372f1c4b2f4a526c22d1ef4ef1ed3a9db24d1461bdb9d48bc6a669bbfaabae3665ecd1e146e062b5102ff29cf47b1fc78e3f61c8abe1fc12d8c34dc8bfde9 0x188b4f097f365e28bba78394f3923dc899e13cb4a1de442b13a791afb2a28bd2ff8384c62434f06c40a6f2bba54263ee57d3ae84265ae024264e879af6447bcde97; P1 0x25a6aa0b491338fa291f03bac6a6ab596260150c7ff70b4de8a19fc27bded4013dff368c42e82a2935fe619e3853043e542a545eef03928719b89c4a486709f6edb 0x9c3c410575b6c5db26049ba444cc59518e451ca9ea62ce759fc3d3f244e5c493027a47e57c5de6d7c45ace8aef83ee1354e8af88e3dfb646ebe52d85825ad4086f; P1 0x5f597d6d3289b4b474cd070f395614ee567cea30efd8a42ffe02d87f93c6793ae84007f32591e3d29a1e08b95b1ecf8a4a84fed63089dfbd39597cbcded8a1ed39 0x105d775a5ac7e60be940a1b4e052601c634e3d15f5fab29d9d21a92f6e45c3a6d5a04b72f8fc9c0e498ab40c1186120aeb6dd481062593f5ae66fd601a3fc6aa541; P1 0x10bd10b3aa412486e6d8a3e067c9f7447e431b4df29362898531794b8df1d9b57142893830256b2c3f02717706a20025d578636c0197b1abd504be4f7e6718229fc 0x1d5bc8fa564a3a232d6d80d021fa8855ede14d4ac2b6ca67a2279902748a9ef1c2f490ae9cea3f49a2eec36e621418fa88d930f57244dc4d5554b2fcfdcb7e7cb26; P1 0x35dec71374e4591ee33934ddadf81df98dbe41403dc8a01691fb1cf4e6a2389d2c0e596792cc549f749daf3b513652673a741e151d47c7353e4c0a4d5baecd9aa7f 0x67874dae9c5f0def6d42ddcf998eb4fe0b169b84ab100d878f9d24a1212e1badd938d2b41f14afcf5588df1bc0e2e7108bc0c8db75fdb90e4ecb3442189289f8d1; P1 0x29de2805878feaa17b8e007ce477f9b786f7e51284c2e00b67466b576b79f33d48506f0d71a8ee9f1b4f4efa2d0bd5384c4e77b5f67e0acb85fcfb4dbbef962b4a 0x1ef65296f9742d949812feeeb17606ac23a9bd38c7a1b36aa0f75ac322c477380b5ddbceda00ec155460421489f223a8bd5333d059d2e74dd0437439578d3aec7a8; P1 0x3bea85e3743b6ce21a48934ac84baa6f93c1599626811f831f11d2e5150f2269091515a801e6d7f2da235c972f8467d5c94ee6e16efd8d7bd3ba0831437dc7f5db3 0x18297398e7c67bf20a6eaf93d88d9a63f1407e2b0efeaf3403855b8f4f395ba3487d634cc19197a74726bf2218060fd938a6ab12b1289d94826559cbe484f10535; P1 0x247cc62e6a2306176628abe90639d611207e29a80ff3479f5a13989471e7be469e58d139f92c2c73f0251e6c9bbc8d5a728678cfa11a0efbe76bd75c2a5e13902 0x889db9975d303c1af637494c8fda9ead3d42766606a0dc2a8a5262401a8702259f266081c08503fff000132a89809c02301fa4abea4fb4ff6cb3b865f4822a70e0; P1 0x48e7f65dfd37ab35265eb21dcd0701385671314abe5399db3880ad887dbc4c86b9847fbf4f7cb18cf40b20ab3b009b657fc84172bb567fb1b64568d8a42ec518c5 0x1c73e046299dc4e22907d3860d8fc0b7f30bdc3b0b36a053c5282584cb6b5327efc035ded0f001de5d0acbf23aba9cec40c03536900f1b19e8f85dc113d3d6b513; P1 0x3298d829c9ec2df3dc1f11505cfd255355d3042023aae3f0dd2af9842d059493d4fdbf55c921761bd7c20871e7cc04fb34351ad3bbd8f895e9680164088141e73 0x2717f284aa4a67ff52a73ce849959109ed753fd1c818d9d1d7e5acb00ad6b7a442bd3cbedc384970aaddd7008da0df29a7a7d2bd9ca6da29ba349e6538aaedc0c7; P1 0x5f84e21e5785bc335b0adec87681e77cd79bd0940b76c327c33de539e9574bafd932d612acd681460ce63fe78c4fad49393828b62f75e096d5d7911652d7a3030 0x1bcff0a9824da0625395ad2aa9dabbc23da62384657295f36876905206eecf13df0cb3446251100c208ce47831654710e514b03e962e2e6f2e5f146bbd58ca3c3b2; P1 0x30585aad5db5decf62dcb8dc7a6ce4db27d7b46a805fccba8b69119fd48f27c5baaf70e20cad184969ecb65a2c6e13aacff42227baeed17644e985d2a379e06a6c1 0xaa57c63c867f23f12e2c4e2db0fcceb44c69952f6378a4d5a50e3600ad9a9a9b3363ec88a75a4ef010b560e08cb8851659983847be7fe9dd3872ef64ce01f20ebf; P1 0x7158b160b945f482bd1b7f312a7f69337605dc071129797f0154fb437736423cf3a0c31176d22cebdd586cbf3e32e1ed26bdfe93f4fb94ace51771793027a4e6b6 0xa7f09001c7a562ea0d0748c9fe64f725db3be51d7d46890e7d5c2b38d369716a6e73b0bce6feae45c242b02a187f88ea8fdfc3c0a33558898852fb3081632fb09c; P1 0x6e2bbdf0a6d21dc40e1c8dbcd8c4ae0ba17016308bfad1cdabdb39beb1a95d152904b30241293ff59c6152874d68eee5b36fd95f8d41bda243e18dc05bdaca1d82 0x1ee2d1a0fedb51fe19f4adc80f27a5f5efdb7fbf93cdba56d8bc001dc37ecc22b0306be245c80f69a3778eedfb661fbc596b86e48ca0d9a36d338f7728b3b2bec8e; P1 0x3b9f21887a5a7d5fe7a83594ce6a9d7057db81aa09939674bdacd46e4b6767cbece960f48586aaabbbb2cb7ae72751df3536823dc131864b25cdb482fbdad7c9c3c 0x11b6cd118cd74222760f7eddfb0f0268a665c7e08757ce0b5b1569a2d21d2c97be64013fc21bea98dba7d852434e49501e7b51a8b457d770934ce6c1559d0b4f6c; P1 0x139c9c48dedf59f5eac0be036505f88282e99d0d0322f900753146857da3d689738b7eaefc6a39af86cbbe860d24eb570c82738c1c6f4333cb4350d0097b977bc 0x1ae91e51f127b15e0492b40b90f9a8a8e6ad9230c42c2e473524e9233ca570d1ae70d2e2ffb2882066dc4b88b5d12ce4607e45628a88094ea2f437a918f526d0584; P1 0x2d42e70d9bc5907c1ee2849e7ae028e6f18d6e1fd6bf23f7fa65468e01a56c731905dae9fb49b50193184b48863d771be02f4d72f830b06e9215dccd6112cd9f79a 0x15341f07f3eb04d5f11fcd841575a987ee26730eccf6953f6507b4b66d8a204305113d38e7efea10423dee2eb0b9d1f4adc26938c440edd78c44b7fd3c468fafbb6; P1 0x1c197b3ed0293973ae743ac1553b2e9097b08d64dc1b7fa5dc949397a74b0a934da40126938c4c81706455dc61254f8f8fb6e9e7acd89420e40f211329134407bbb 0xac2ed02e8a6d743b3148f412f3b818c5735c31911a10a16dd5b9b9a0670d151c2d1aee99a688caec7fe58ca82a6be5bf6a7b8cacc3cd9943d411f309eaeb6b6535; P1 0x73cef04e04087ced368fe3a97175cbeb1d97cf76ab5501ef00686995b0b53a908d736dcbba950b685026b0be4144872b89e25725bbcc0d62d805ce6bb55a06a5f5 0x1a35ae3e5321747eee914a5f2f9b415c315bd9fdb662ea6a60d3f3685aaf95497765e66cdbad2d5099f0bd02eaf7e897e1ee209f812f59de4348d7b83cd4afa3055; P1 0x2aef2a64549ffb1de93faf6bcfda9342c66f80f14b60a3b9c03db641660f8fe59899a2eb2262c6c50f9edfcc6b7cd8369ed68a7c401b7801dc6a01f8ad582063e9c 0x1e3ee63978c3840f119deb632ad45e35e6bf0c4ddbe7d3ec1930c41c3bb5ebe2b8f707f3956368de652a1bf67e0b87177026c8d41090fab09889c5dfc3157ad4f6; P1 0x392cd69cb2fa38dd0c14f2770f3f6606dbbe65e10ad72ad094aec1dff7f7ec5ed92d7646c174038a6c9d639216e84c52bd9f85becd590ea72fdfcdd1768e13831 0x1c3df0294528f899a7c06890f593a1f9e38233446b28ad893d528da9f7b5727b2c6faa2fd61af75f993125752fe5c3103024f41f4cbd84ae1dccb86bfa759aa9b0f; P1 0x31d9b855c19543c21dae0e3805ad46ae20a19737174ce649043c043db8aa2a321493d523c9affe93094644fa7274a256cde6f45b8ff650a35601bf9350e01b76918 0x11e506f9ec130dffef4f8b83f981dde0850399cdf0173031035f636c14e090c56e93701bab4f0e3d81743556d295d1f13c9121fcb2ee7b930a55299708a2dee43ea; P1 0x14037d2acab8d01051713295a836572f85809b469b9bc153d800f710e6000d9d8654d83ed224756c0984892fa6692af68e1773e55ab22fefe0272299b48aabbedeb 0x1d5ab8de7fdf3e071bd30c93a47d9c7536be165e9232d5f90cbba0a0863c766e142cbc40c3cbe9c74e4004283aeebe60514f2a8b2ac43574f24acc8b22daa457a85; P1 0x35dae08eaeb163829866fca1c377c2194ab032cf1542f541e2ef15377e874b05217ebe3c88b4aa9dafc16f1f1bf0e8d4b9e05d7c7d38bee00b5373e29397a3a0cc8 0x1b3d4cff860383cc04f11457a59ae001f3175525157d1d6fe4451da2d740458c56a20ba626ac79226bfd5168946f8ddf1b2bf37c843600a669ce6fcc487c7e17f2a; P1 0x2e5fcebaf3352182fae96951add1697e04ec0464faddc88da8f92d584cafe6963f13d927ef013501ccaf630a1872673afb69faaa29a54e1ef99e5debed64f920710 0xa8e893e9252208db4090dce4d26a2dd92370e2965cd9ef78998f8b520948de441719d0e35ae8980c4b2b72e59b80aa2910e6b231dab6a7be11632cc2d0b398e638; P1 0x6f72156e6cc58e4985a5eed4537f14f2758ecc7d71cb6d6b18d3705502b7e85408b007f1c91b8a858f02a659f99e16c406d3d81cb6bef669610ecc058080cbb707 0x1e1419970f9f70fe8bd3068398cb928748440a6028864c29499bb7c2dbdec73d8d7ad5573657099a4b80c0c074e9a269094a8ab49ce636f6ef3a823e9a7e7e12d41; P1 0x388b79369d2a995e3a864a3690b1b94890b16ac8a87151c6f3067a8097e1c2b91c7699d13f6c5a53ea02d57e5c9ee8963531c39137c25532de5f586a56bb514e63d 0x6804bd4f8dd31809453985694e9ab8f844e9996a92be586e73a438dd5a4eb60b60c5624f3ed2bbeed0a03fd2b4fd0c21f50f681935550d9941e3f9186d527fe8dd; P1 0x2a43d9e719b68242d0e1a2ac3b7137471e51e4b938c8c44d9cf004aa4ef8cbd56048f0fc2e30275d97f54e21a4948c4a524ac1997db949ad8b32059eb8e88415a7 0x81e88174532742f821d4e47974a24b8fb2bd7773fdf3bd5794c0bf988a3db439b5bb3f17f5284af0ffa9521e65a51efa800c70bcfc173f214e12757382cd8c9eb3; P1 0x41ec25a2201ab9507beb1e8a19efa8e4bf36dc02b87e7b13984c28a46634d85610e1a75da228d04e70f193b8af6ddc17262e541c6d17c79c092f839b3bb9fa1bdf 0x14cfcda5b86ebd7b635b441028a0f93e7acab91c0cda62fa822b522d92b9e48c226bce7c9032083b853ccb2356e70a9ab9aa75a677b1bf190f586853708a3dccb7b; P1 0x1b120d01c04655a54282eb1983e799e1ff6e749651520dc68937ba18b2febdf81a7d3d2184962e94cf41b85c5373443b49d24e623f80d76fcc6d43fe91a7b594329 0x4010d9c3ff684721785f56a9c049c12299e13e5c74ac19653223f12ea6e2ff3bab0e4930eefd811827cb3dd119652e7a279193a317714fce51afa3b3fddff139c1; P1 0x10086dfdf171eda780a2ba7d444a09a3254beec9392b77ef86afd4e3a7071a451398080cc78276793c6bc2a582f91b000758380b2373127ed4d60286e1a15746fd 0xe57e7717f8ca9b876ddb9c3d9b99bb2ecb529aefa285bca21ecd8b8b8824578f1bd3536030f93ad808d46d0ec701973edd946491ff3fe938f79b479ee478aeb41d; P1 0xcdbb7f8a561aad3c66a411dc22cdb1e7c6209e0e0d6526478711d42f703040c56e9d65951bb9c2794e4958fe0e5efa7f9866b0f2c14db8ce19cf9166319451ee65 0x1eb8287b2937ec93ceccc90e13d55a9b43f0d3ca0d80c0f99aa3b0d5a9c4f30ecdb94b84bcc993a5e9766612fdb1ce82f5e7878cec5fee669dc194bcd017930c105; P1 0x3afadf7151b13f8d53fc227e2e16cadfdc9a114de08fd5c613bda9b11212267638fe44fb70715b9163f3e5c2ecbdb4db13b5f16122723b921b726bea9c98716f069 0x105104d55204ede0f67f3b60ee0fe9b69948cfd17bf6da864acbb1fa53a222ad87dfedf829bf8d2092c4ffaf0559b5fedc854757c2ef6ec7b5d5beed03a95219c81; P1 0x10a3a3eb955e12c6515ec7a44a7fe2131fa82afa7acce2864eb4395ac60295c3a9b6e30a47f95ae4c179e671a18b34f3feb2b1f220f12f1fe770ca0b30ccbe50222 0x5ff3484a21c06543f377a865155731f0e92387047e9646363362ca6a94288cdd9fcaac565c8a1c420727fec28e8d6866ff970fa7c70193478f7e9634b56c8c96d0; P1 0x23f676d95632a6dc6e56f31458642e176912211b4ebfbd290e9e0319ef5a36b9b105e78bf44af361da6a919c3ffbc4efe684da36a868db96dba0b6e69b7241499e 0x1f6683ac38f0547201a5d64f1454661804ab3eef6115c19be16e64012e7f3b8d42b2cf029eac9480d1ee7618a53ecfd688f74124704cadf400490adfd927b138372; P1 0x3d9fcf0e6c14a196d47a7803074359b97af7c8ba989ba567ab6966aedac824abb9bb55402ea76a8bc109fef52dfb016cdaa73544aa9c9632acf39c6b27e4607ee61 0x1fe367554e73e0025c96874a24e16da2343f37492b6253452b481cf676ae05f13a35e535460e3598370930db34a2fce5e1863e49432096e9f03e03e57bdff36781f; P1 0x3f8dd0713fef34e45dc20bef5ce8cfb55ea340bdc93e7d6384447d94f5b258ebb41a525b0abfdc427e00014c4b1d4dcbc35dcc5458af7e079aaf95c86c22f521378 0x1a6e65a03beca841703c8c313ae2a40b388f38a1de13b324e86ed71faf7275127fc13689213cf24c98a64b256258974b0d7b77996c5d2674ba7e24a7efa5b24984a; P1 0x2ba9c400a37652195a5a5335d8b866285bd7bff58757ca2834170e2dd002ddc5133f0d94c6e98db527859a79d091895fad9b8bd55d0d44c99ce8f8cb56983dc659d 0x1d7dc200c8c3f342d512fad32694ca47159f4c4cbb5e2cd2e2556a255299a581b3ff9be55d4d4e1bd3dcb23895674626c89d53d9de5222bda4b851c3aadb5070443; P1 0x365bbbb3545a4c24dae6e6278ff9e63c828fb44857bcebdf1f084958f3f061a2fd2b19d8f7843625b9d3779ac84bd0bc1d6edeea943f006e1454c4007ed056a42b2 0xcd03e75fd0d4f20e537697f80c2711b708d7dcafc84be9a084d12040508923a540b01d3ebb84e5920c827856028f086a1f302075a7462d5f179597ca37d7be72d0; P1 0xa42f409eb1d1ff65933e1fe5dfc755494f7eb564156fccf11b8cc173bbebf1a7ba014c008888616a1bff300ad1324d47d0fea1f7bb52acd6dbab3df8cd7288aaca 0x2214839263c876c0a8922c0a49c17ef11276e7dd42dbd8e7781a260f61754f3173e2429a4a4b731f8048d0716338011b96186a85e9bb5b3a56518f2f8bd0c6e8e6; P1 0x4897497b4fffcb2dbf673a2437e4e04d72c9b3f5598db9aed921fb60372ff4cf9b9a1861f114532bc26e99acb0ea1668112ac14c81ab4b23d86273a318cca6ca9 0x1938fec3233915a106fc44e4c62f2b32801da53c4fe5d4595e0d2c19ccebd3d4a37d83fc87cbc6db7817fb2620e3f74fd53e2675dd3350628bcb81c002f2bcb8757; P1 0x27c2e728fc85dd6de8b79a4bb44c07ab18fff509135bffe4fe71a2c0d68ae0c676c08674fd8e4489730846365693a8f3876e659bd59a2d121a92f3a8f4d9cb7de2d 0x8a3093c16e6705510da915e7644dc88d3a28828319109a47578cc5e2dc099d1160c2f0d0ab9c8a5237769ccb01ab0f7047d81018da787382fdb4da6a29def55b8d; P1 0x4a98688448d82f4f582d36f36616ce8ec43f22d32f66cc15c4122b9a42a90f03cb919e29553afb887902e148270507ea01f733db8663f6cedf0e56c1d85d69f565 0x15df90fc5e556656f5350232ecf4fbfedd15f95cb3571a94e5c9a3711fbba8520db902de95954239f3d8161a5a4e6339a7d61d0a481972f7867e9d15d1b419202c5; P1 0x1de710751433e7c7dc007698d29cebdb82b71a5f2632d1cf0e65ac8141ddaeb36fded9ff7c6f3b9ba63a48234e8d1cc51d03a115f04c6ca8b0b8265cc829f989e2c 0xb1b3076d74246930c9622e9ab8f5fc6ac7b973c79168f22437cca2c7c841bef4e588f5790b46020a2529d6fc9fc963ab351b5a50c4c0bcdb929e12d169a5b097a6; P1 0x7b590d78bde1ef86aa26a6cff3bda1419b6333d1ae2451251a87097dba709399f899d4b983a33e54c0227a9eb419e7899762b0f4a15852ffbe3f39a1d27c7d6b2e 0x1606cb6180e5cfd96f96185b6e12f66ee0af4d56f394b62fa5c694eae6aba96bd49a366c490980821aedbe72a0951f34077bade2e7bb1e27ac5260f7f61d5d3c2aa; P1 0x1e52b22ec4d520e840fff1e68ecf7203325ce5dbc168ffed38f5e20753e02c54653c00f0e64c3d4ef8a6f07d142720b5281096327256d18d325ab01b19344e4d7e1 0x1d7a70f19f2ef0a62871b6cb1589eb565f1e5315750a51508942dd2d19c5fe3bedf4252979b480a1c60c640a90cb7fcfb7ac3580d2ab994ca28b2eceb103decb6df; P1 0x364f8269630aa992f762391a6a96598c1ced6de6a9d9a8fe3c7cf7249ad752ff658b8753eca9c3c72bb67523b39b7bb634b84195505b9d66899fa9609f2d9a827de 0x16a1794c27c522cc0ccfb757fd649d032387bed14988c04cf046f9cd8311cd1baaed5593952dbaf0f21da0012424853005fb21ffb0299fd3a9507e66fdf1a878db4; P1 0x20026b2e218fc30d4fb0674718de4ea2d3c90f2d7f062486ead4b67e35c6cc10e348495cf768e881333e6c6bb71266f998d461a38d671172aaa38844a35a0329bfb 0x1a1b9ec831b7756ed71e6b03fae71ca8bad78c0cf5a0a6869f16a288d09f598f96315cb8943dc73a94e43fdcc615c4286e3414b1d534edc48454b169802f3f2054d; P1 0x2a99f3b8acf7a7976579b4e961db193887f25b48ef718d483c12a1d93408a650e9fd3106dfc2443ef84919993da578b6508b42950e531a4bce1fc6c8eebcd99788c 0x1eafda0893d66dd2c1a2e19a9c05bf99ebee92e6c9057bd02c037674c4abe80a37954f268cc80261d5f78acda2669663ae8dc4b803242a3e140daff82488f444566; P1 0x3adafe5d412fcfa5158ae42063605f745e4d805665f7c1f9eb39aa4461f8a1cf4818bd4e600ec873a3214255447ffdf17d7088584d5887cd8658cc3917d8e2ac58d 0x192b67f45f19a1a0ac44e5f694f8c43acb3570c9b6003eb6d9ebf94db11430b84172cf1563cf59706d73175738a1eaf5cfd643fc6fc24e402c740778481017c4353; P1 0x27981a9d0e181f9b9dec17d7599b179ef9410f70dc59867d63712a9df4382f943aab546d3b944b58fb6b5a005484c7633569187c09d31774f82388a8f022c4b860e 0x1fbbfb8dad4883df8d54b9dce636d41934aa0594363c02a25af236dadad9bd8676cb235e49dce0f0811f60070c5bbdd713bdd9fc8daf31f57754f9f3d839023eb54; P1 0x3ef10f5c821d8155697b8f772f814f66d251b85db57c3e07d713561bee44d6c9cb7c9082e06dacde86918a871b7983accab922c91d9599dabd8f756544750868876 0x1ba2287c126668f5390c25e2bf809707091657fb02e5e50d26ba2c91bd3665dc1ada575ba80a9a1aaf521886e543a41dcb0f0ec9532b11070e4052da0fe50bdc2fa; P1 0x2fb9b416f4fe5a265b9a27b2172625e84f49140ff4d8de16a71e65bf61c1608575e54a7e3da743023885d821092378f372eac0144b527e73af8fd42f8171b1bb6c7 0x1e0c18dcd3703e164538e93e7c11a27ecf67f468852860349883655a2a5993228fbf36d880a0cadd4f0761336d6181b80840a120fbf1675c8b1a56810ebf9608f49; P1 0x386d66618ac47342d80eed141238c2621f2966306d46775d1116c4785dbc92f3160557bc2bedea3c3d71e0c02dff0f0bfa94aeaf33453b779f3b8f46a0ab581d284 0x7057e8b0eab48b1f4b3f89541d101c33b9a2818bf4b4eee83fbbd7dade2bb08cd8d235b0003b4cc7d75492751bab7d44ea7d201b9084fd9372bfc128f9a9394efe; P1 0x314d09cac91ea41cbcb34e6cb60c19e6c8e81bc5383872a7fdea7c276440798bdaa2886f2b077a08b0455076e1438b87fcaaa43f9f8e453bf26b4bf736566db3f5 0x19b646c4e43a2c58246d6c1ec53b8c37e1ea10eb6c2456948a118fcb509eb54da7c6c95f473c7ea485c9810c931a560a64f6a2fab13bae668f47a3953283c38806b; P1 0x2951b9b2818239e593cf1cc7d764a135849841d05bd1abe8e8cc52cd8a1e319f8e8bcf38fb7ac65cee1104b4e903c44fb3680914f97e1e1f0ad21c9c9e03cba2fd4 0x2e3e7adea652bb4af81b40eeafdb0b72a06f6e5f958c093d1e51caa5bea1ce45a9f7b6ceb53d568defa7fb56c31010dd7fc0480713e3c3ab95602782f0c6dbdafe; P1 0x85a8367c297438d6789a8ab42c8e9e3da0aa82528e65f80f9dcc48e4afdd51a6ace6a6174b20cd89a0ec5883589eec6aced640d96f5e7482711470337b123f649 0x1e7edabd2615ebf390465d62f63c6a1f46d1d0fc9f05701c732a41ec3a10d34f7293d6b0b6e54b156612d4ccf56634db5d188e4d672bcca99e8c8d1c7902462fb77; P1 0x3a1fa206205517ff1763e6edc569db75f03661474911cec999c6c602c1e4240a753b29309c397b1c7128ebb7d117589dd61f894e58cc34aa60e3f483acee4640814 0x1467f1f88e985f2baf766c86d4e0731ca6e97c46546abc18b7e9f66a9f68838375326d8a75cab7446f71c54a575edc1234c6144df957035ef31e0430a73b93109ee; P1 0x1a0680371007b4ae267bb86f173b158e99b35c32386200aeb246a0db6b10560a249fb691c112d7185611560aa9644174e7dc862aed903af2bc7e143514ba38165ce 0x1099b3ff16da89ae9e4c1d7197460b6e1a23b06184b16c40dac5e8dc98db684aabd8d729e218854776772019d521280f1f347fdae96f35e04d8c0393482549c264a; P1 0x11392c888535a928c75801ffc26203972b9c529b5edca90515b8adcb6885c3fc804039959ec67a326f56075aab9f70981f38bf8b3ad31190f5fdf7015224d9c74d3 0xee0c5a7b9c2614e30adb332e1f09d62cfbc5775ccea3923dea087a8a25e4e0e124d8da87d3a0442371282b17a88abcdb71d71fa09967fcdae8a52154699689935d; P1 0xdd5af8d671e897e24ffebca406ff71ce5f1d3cfbbb47032d5a791e446309cfd12e666ff86b895f40b2b2a7156d5ada01cc14f4393658b22ce3818d9a966e5b014d 0x107b2a009e100c742d741a774644065020961dc4ba04d504790083624e3cf3fef0e36d84c6582733288a08f6edcdf651d7e90b95c203a0cff434c5cc5c3c12ebfdd; P1 0x10fa081773e18d82300202b675141610c8e4f9a22128d331c3e2b09fd7574f72ac5d3b9ee7a86b12628fdaf5c19a02361fdf80133557000f2cba72a27ad96b7dcec 0x7a18a4ebe2e274d860174a8f290a72b570416d7971aa707e385e11379add6cbfc9687d143bdd4fbe8e44e383f77005354c938eac14d85cceac4324fd095c0c1546; P1 0x3a3b7f902ab975e09eb4966d3d478d70fd566b57a9da5c308089882141b95b6035ed1321fbc4856336c569908099ed8454378826be276f37bad3a9354bc5aac1c4 0x1a83178d33301f7a332a6aecd9cffb47317913296f9baf38a719e5c321b26fa87d2d4741b9780a0feadbb550959e30da5d0fbedd7a17291ec52af8dd69d9317be64; P1 0x2bee3e9cb12d6b91c5bd28608aa6b2c7b52915c7a8d455f4ae6a2e32bd2d8d909475f58e6a93b9a090fad4b682f916e8c9f073b786184dc93e045e5602f7d86ff87 0x1c43320a5f7082873e8d8c3f4bbaba200b0e1db5c47f4570b68cd4762f8f429add3d138f7c79276122246a71fd4d3c94d187230265d1c45edc52a11ad3bb5097661; P1 0x31ec49580169f2573d56e1848db97e7c715da1a4c4a2c841c7ac38aac5768c58f586cbe7bc958ef702327bde5112f0c2b22f8b10f9ad79721a04cfaac3073c2487b 0x17889ec5c9d135a0b1c3d504b2801c4a59899b4f5b1e2251f54d55e1af46e527cc3409c3c8ffdf03b25a0ea4ee4919f15b31c316996e2f077b61d615505eb12892f; P1 0x229d5709ee2c3da53f72647722c07813f9468d2c3478cc8e37f4fb9bad92b976ff9d4eb5392a42a08bc238fa7c7f686e87869a260798d24b89d98629a13e5137008 0xeee5e2290e490a326a4a23bf161fafafcfbce5d45d8c9c5b350bb1b2d7f1174cf473f3a8527daaf9f23bc0cf494cfe6072c581d03cd8fea5b2e1010e400d0c9cfa; P1 0xdef03ef2bbcfe17086065ce088a60a0d046e091f950db9bf9ae9168f5fbf32563ae785707e1cdffc5c659a604504998947b1a4c6fcdd63a9bcd3df1fdef11df877 0xf90c80b49a4ec1df40985085026cef0134f2d7b356adbab7a8b39ad4eab674e0715eba2e36b4f65d3adb15488353bbe729514fa508e2cbed29fad51edf073f1019; P1 0xf24952fba5d0c63e963916f0c27b606774588f382fb6254e0accbf5069786dfb3a28321d81592201d652513bbf65a42e4ffa3ae0ba2cd2697f6ecc616b293fd1ac 0x11525e25ede6cd9b7bc09223e394acabfba582f87b3d2bd9e6db0159a37817a7c75df387323591e05b4704bb5822a9028ed10ff55654f8f2f5a4be8d92eebdcb5d6; P1 0x12c0b017c84ef7e7ed5a1618fdb72ecfa50ae099f13c616acb5d721ba1e3764e0eff454e3946a3e11cb97eb703c784a29ee6246402029bf770ba4fa1620d2850ba0 0xf81d73670e7671cd5f515ee672d713f970379764e8d341ced7f775053db5e768efaee69bcbdc1f1956c9f90b4efb5b17d7077285f8a88c65a9e468733c4fb8b528; P1 0xf07912fb056483cebf9482735fcbdc57c78ba0adc7469ed27f62110553f6b2d434177f8be82f8b21b4485760b108a312b3c93d2454976f722e3e0c8ab40ef5d76c 0x9b942c480e1f82870d52c2a5e14cc2baf97e60c84f09f83c7c75a3623276b14d83928ff0cfecfac957c2d7fae01289bd7c24faa7374d5617c8337920758f869b4; P1 0x5e8cc3627c1355a13da8ee1984cdaf6d14e98e7190203da945d19f0adb86308be2d8f4171f98ac5e12bf949981f292e2ae996a62507c53d5093c57b4d6a9d0a0 0x4150275adfc34cb65f748b10ec8ec82b0dba770aa8eb86cae64ec1edd10d4980f5b8dc15254a6637479d7339c83d0191f5967decee9be018958ce5f2db4c537780; P1 0x10a9cd14c479d77428bc2d69d2248b49350bc07c3fa5cf68cdcbf7f4d1b916eac4377393dba38da4e5f0dc3c5bd223cf5eb20f281f5458dbee340f34b9a9cf93e2 0xb6177775096f34c0730d73efe72987012af07b10b392df9366bc0bfa78b4a0424706fb1fbc3f3e143f28b6f04b5af7907ac31e266a861574b3980742d20010050e; P1 0x81856001182fd5442135f227efb90ed97a03f951f84872e7f4c23048a986d8f6bdbe0bcd4972b4cb156d02b42673890804f39e4c8940b770d0b7f96d92c0baf19b 0x1de8fe9e8e38850d5d95ce3e773ba988bc602dff03380f01b7387c48ab5aaeb861b83ce9b616bda58fb2cd4caf943ade98af7ce3b7af4af61d155a5b197d1d80f15; P1 0x37e9dbe68d99902343b128a113c3089a7e837439b747ea9959beaf2966a1a86aa46f6028ebe08493704375be41f2ae96cc76a7dd43a3b7668158f0a2af667b09455 0xc5f6999304f9b2a0be735ed0827f7edd2bf228b4dd0040e122fa9f567a101e9a3a7b628b51f7fcc068f10c071c5b5037ebbc48aa7d315cf92e02480cba45e88475; P1 0x991575e7c856ed2fe06b9f09c0b12ae67e34ff68780f8caa0d382332f2d3b88fb1f95a2a3cc08332f45800e2fe35b60f2211de67f58dd8df64a6cf45d082bc29af 0x62ac853c6eb694efe6f2162dfde17a1a4d31d5b55f2701327cd267bceb0a8b1c45ad4ef0d9e30d211a304f63cf89b3b2bade2ef7580a13028ba67329897f03e7cb; P1 0x26088a45935068ad9b682eeb16eea6f38297b0dd8cfa6db0fd37c95c86af4eaa784f276da8bf8865d59603a922d4bdaaf72207f5c1bd61dc5dde55e65b31a3e9f7 0x115e6901527861b8c21bb575c3cf3d965e84512d8118e585b518fd14f18d3690b6030c189efe23d80bfc901fb6dcba135ca55caec9baaa41dbda50892b67a144043; P1 0x12dacc374fea30acd21e455446c9a94e57d4019cc8712f9a710b8d327554c8bcb4f0bb2a0876edc0e860da6d024b459c7c7028fe71a3a669e520589084102856f5a 0x18e1f9cebc540973ba4d16763e0f77963085fa54a5d566795ca52c3f9cff82bc059be57242eef527bc6146295f5e0066ce3c59c21852260d036870b0128615310e8; P1 0x26b264fd47a9ecd6c89cfd99f2afba113cb16cae1e60776a34b6074f335925f721d1ac8e3a1d987ed63161c45a8c7061280ac7cbf2aad025af315c83c7acf6089b0 0x110240dcd13fdd0989181ffbeee8faf9987ca5f4c78c7084c8fb433b387ff3335f3fd6882ce2e87190cf563b8812f25a26573063e4d0babd92459043579c06e0d50; P1 0x1214ca267ace772f7ad5c67c283f297de8128674c05b4e0de9ebe36f1a26ee35aebf89af0427dc78ed0c489cac9de46ea118b95286bff1ed334a1477d5bc4105693 0x327ff77bd20cf010643987d528e2c7c555a41159a79f0e6ee6860f0fa939d51101b7de67f60bf6fd14661e76121b0bf0a39889697cd1337aea983c52286955fad5; P1 0x9f63ca3da27a1d5137175cda3f387fd32d75dd03c6e2fd2109c6d081257b007f0addd958fa0e84ff32625f2f9b5e7da640fe076765b2ab20e8f0e5c7df85472e9 0xd19b1941864bbaf7a3abe92ba189c4940b7ca8fec3509559d5a099e4ecbd7b51ead6a79d1d38792d9a9f383dd2ba7d7684bdf3c8c98bb391b5a693531aae9a5c41; P1 0xab9e9d34951e23fd048b92c09e6e25ba1042ca21c65f0f2916039de2b89b2871792131ae06f47b7b42055c60fb24f89e7217b6a60f0a0dac040b1ae865df8c680d 0xf36bbdd8a00ba40ed434aa413631ff00c1bb28a791172a4091efce3844ca485af6e381b4dcb466525a7ee7f7618314cfc7ef77f9d96fab0932ebb84a4b2278d48d; P1 0xe775b7c17fb576cef332ab340754e20f66774967d5483f08b38ac5d462e26357758c3241cc0489f5841c14e601c2fd75136897927455a7b39c053fef8ddc3f94b6 0x51176b89c74da931d54fb030cfdaaabe3847dee7580dd9584cb185ae5e1ec8cb0508710e5c4c047b530e66a253dbd5f2493d7e32e2ae141cca5cbe31b99f3058ec; P1 0x19afd431b00d6bc7c7a956122a502688c1f3f2b8eee3f85823611b1232e17e9c38196264d4c2cbdd494c62ae61cf671d9824567a47828bdddb1d8bd57eee0eb68b 0x61b4027243b3881fa15618f82eb6de4ad7e74ef01bb547cf91b3845db1286443e314872748466ae901eea5e7ffcd3101d3cfbc0ad672f4c449d309a902778b7c3d; P1 0x2549e86e08033dae90ab51d86c8ab22e8dc83f5177fba1c43d6af54a8edd588744e05f887e414f4cb38b65722b8006beb4d7819287b93b775316ae4955212fd08f 0x10be425eebef69c238b59773b63a394e66ad6102597c5f2c9f10c3f3aac8c902a23aee6027dc16011f7f756f2c657c9b2b498fc05810c913418fcc4129c42a41c0b; P1 0x11855b273993972d32e1c6bc670d584e62827dc1f1ee3f13cf959fe8b58b8c22f033b6ff72dc625b582e1eb7d5543ce9ea0312ad941a697d3fa582ad6ff17f08036 0x108230eea65110a4a4784660538fadc5dfde62f75d27aca46df673cee6a9fcf870e5e0a4df12780d55a1c771dab70c815c0b78685f55c52e599cf303842cefb370c; P1 0x1108853908569418ccbfe037cdedbea1b2838ee298f0c9fd44f1cc650126709db7682f9e85e0baca8028692578492bbb94e871462939add3b861316b05ac7ed202f 0x1d4f7710a84c77d143238e1fd0d6623875e0184e1accf6a8fb7ac7708296488bcd672661612203a79d845135be573a3d2c18cedc6ed5f280645e9f8b7b3498bd379; P1 0x35b19a479c9afe3ebf578d263f98dd2b872f01951663d76a8a53759826c23b2055ae34e933635385e4ed47269aed38e5a15a3f25ccec5825791c004ff55b4c0d27f 0x1263cc15bc0b8c09fccdccdebf6c814c631ef3fcbd19baed395b8c42a218d35072da6e42b3b6a5836febc655b2db262d23895a1f423cc375cd7db5de7804645beb; P1 0x1522f9a89f3b62a827c52bb403ed936b161a3cd92c3490fed0e6188030d714d945c2d389a34a52be0c5867bbb4dafa2b5b99290d68411178ce1a1d0bc8323853a 0x1c4e9594768b61646293e9afaaf3831e217c08b74e37f053cbbd5d5d0e84477da4d1a53519257c3f09077344224b4e669869eb8f9e6339daf29d37c3a2d16377c68; P1 0x32148d7f7cce254d628adbe706ec34e94d79dc97783571306bd13b118d58869645efdac75ae7a8cb0658e8c70cd2c58b2daa1800dd4b022e853cda9ec37305a1d14 0xd959c194394249dc2212eb8ce2181f91b4daa94ae85695c67c8eef54ab34a16c44a6f4809ecda22e1ba03339478b58945e809f8fa7c690991bfe63b4968b62fecc; P1 0xb88949a574830576c1a5ac72be4a2978542033c26dcb2b2b88239629fa0e1dda0570893a83e023a8282e7e138ca48d2d665c8470a508abc1c77bfe42141d7aa41a 0x1a3b483c363280715b014b58f1241a134b594cd81693cffd82cb77ff4d662f8383ea8825fab124f84e63001effd1bea441fadcfcb4d5421aadcac2f5307a278f836; P1 0x2b018669b252a04162186606e157ac2ff1ac08914da3511d6471e52e5124e08c0db84eb3c491b92f3ca21490135dcb52672aeb76b346a3c6e187eb1f815971e4599 0xaf8c0025b8acc3272a1cf986fcd825664d27dc0087d6ecd25fdac1d06e2371bfc9b5e98ecf8e22a097823e0945a7edf051043b4c9548ca26611ae4f1c0f0d92067; P1 0x7860b4c3bbbe3553e592e348c3a31e57349b5ba31ebe56206d04139f42ebda53858c74ab98ed50cca53cd0f922b6f0bd62d04a498bccb54079d3d5a9cd3d29d5d1 0x18e0c5e013a6878c2eafe62ffeaf2dc7611c517e4c47db5d2c9a726bbf93a20adbddbdee7f057948f6c49227909279b0af9de70caa9fbd5f97574c50df680b9aa89; P1 0x26aea74e4c43f382f9fc89b20570b6711de97e1df4be3347a44563458ab9ec0c94f8ee8273d19c7fd1b80155cd0e84b63d4ca026ffc9861f1eb7a3792f9d8398622 0x1ff984a087ef17f63e3f7da0fb0064c3a775db1348cf6e5fd487fb550d0b391f15a5725fd50433a9d79cb783be20195a243f437b24d44ea8e9d1f980a302b5d7b70; P1 0x3fe615225ea47c303da66821e8ac855049c4badb7a7bc04b814b20b2f69197f29f60edc3b0bea9ce8ac44745f354b2e3c0b395e5e89e9187a71b615e7e106c1cab8 0x1312d81a155945d83f14fbee436061df517b01aaf7a05d39303e6a910a0fb48af76b94f4ca1814850fb85a2a78fb0e1691999f674fb7152e0d6d64991e19589a188; P1 0x16bcd76f942479ae98cdb5022aa9cc553b80395aef6e6ab14edb6fbb9148af0226a8111610831dc3adf05290c5b950f6c941aab7da5bcf9a175247ff7a6e8559970 0x30e40f757f60c68ebbd8a7386c16f412d64b2ec43691419b525b7bf8b3dc795a646049cbcbbe7d021a6137cac036f7d7f61343071b2e27ad9c7a07c0cb97868b90; P1 0x95650f799fe29b239cb3ab140198d36c5ea129dc6493b069a09d034ccec0839ad2f24e6862fc3003df850494f06cf8591a8a35f539a648825ebd6ee50cd3cacdf 0x1dfb5766bebb81673677a7160a30dc4a456e75fc62b1a849998f2326472c523acce34eb1a04040bc05d9ab20829c999e3ec6255689c4c4b405d4c9fcc1f833a3229; P1 0x382e891c8877de120360d2ce17d8b8a699ffa82883ab681e8a2a3ee3132b585b04916164b68a570b187e81445f6b34db7016549f9f8ac654a8c29060438a3d55458 0x1b583c3011de8259e67fe32fe4084f83d6b9d3582b07b2976dd718e7b086d87f09217765301719a8e6d8389807d6f1850d0e05d086184dd276f8bf97940121dbe0a; P1 0x2ebbb1b92f7c9df9637c650f4625afc3cddb069310938cad031c0bc061256f0ff86ff6f65aeea27c227ff46eede924991eb75ea9381d9453fde9a75b00d31208153 0x1b6a369b10dce7bb4790fa360631f157ada9adb0597354efc16385fe600213a42331a11659b1058ca4ebd7f9c65e2b3f583566c42642a0c5bdc5da4599e4cdcb8dd; P1 0x2ef9395f99e58dc068fd366f1c216eb008683984555df1cb0043cf7d60a0f8b8602756f0679ae969aaef4b846c049a10e581349759f3758487f71d015fbfbd2c7d8 0x69f75e8cfe21ea4a213e143198c2686741d7b5fd263574a1d18248a04e7655e6a63a199931ef6aeae9f8393531caf0310ce2381ac983b69bf04a93cce3b2f376fa; P1 0x2bdcda973f760feac3bf1542f13e1f885d9c985360f49723ed9c8816cfdef512c4123c19c6332c2d43138057ae35875eb5017a18c16b6a06dbe8d3ba055785af4e 0x48b437464f337274117e64309878f02f058a0ee76a17a870acc283564f116a0e802aeb0490177758f88b99f20c092680afac1c2ee659838926a88705a7a891368a; P1 0x14a5ddf5535b9a11c0e0f4108a7caba9e504809751f93333ddd7cd0c66f1135522441bcafc6239922f4d86126ffea871c7902e42c06b62f1dc773d41ff748b50d5 0x879f7de6fcc9b60d691567f321a8042547db1b42c761cf24e0eac2b55671343df9dc606512b74863c74f3c6537d6e91ec54636594838f3709a39f8ad460fd3f94b; P1 0x47d99a27417623da7957124b10e575353336a9b1443d8d527b44bad0c384fef8b1b413ee492f20be9bb8826925c65ef3543fc680db050797c443969da0f2c45081 0x9594934a712c760fa128507cd85cc70e1fe2f1c5654d960814783493e1331308d32907406647ec4b0a87905947339acdb8da16cdf65a6fd7d583b17597738bf69; P1 0x576649af4a8f307562fdc05e740b7a138ffce1ec74de26cb24c3022d000fefd7db442115fd367e2bf9a292fd122b13a214e58cbdb87e2c77ab700cb495382999 0x12c4f945ea66aed83c7d0de34abfe8eeaa292e7e476b8ddc88e6949e13066d92d7df6c0ccfd4e89ac482ba6b20c4c5208b1c415fefeccf7f88428f6d7a9e46a77c1; P1 0x1604a9c7abe72e615b8fc80354a907891efdccad78f6b837b6f817b057c11246c13c036503982d899b867cfb7c87cedee820e04504ef8ed64abd3b86b479ebeda4d 0x1c2caafddf9ddad7f91ca0f370e33a1c5e8d656d940be4d4722c91dd5efd166a5c28a4de983a96ba8b398df0aeb2bfece22095eaff639f7d2b3e61e05dfd7de3e4d; P1 0x319cd32c2658ee3e0b9af6368b5edebc49ff7dc0073ab89efefe30daf4f880705f30140cb14971ab4506babad54b9895727381ece9e3e337ee21ec13abc9c2b4861 0xbe483c794a6b6550ea2e4b8840e0c464c1b6b2f0d62fb10a09c7cb4b0658f12ca4c373a9ef099c41b56caa5327a240dffe6f415134edceb1f02712f5ffb96756e9; P1 0x8d6f4e261cfa5b26dfc66a0c713cdfe45cea9aab8d827606d57118da0641601b6dd177882fb5abf1b5830ea33268dc31e52b90ebc33529e5468d5dd3e2426895ba 0x933e5d3fbb8df2e2a82442066c10f602faaa1b6e4c3c54a29060e57ea30385a37d7c6c0828ec4d7e6ac85fbc973b31bf8f50cd5b0670f78f0e556b2ca35324d498; P1 0x54b0ae487e3b3bd4eea1fea90acc7b6410a42b0635da7445adeb36519500b8ad5a4f410d4283f0fc3ba0cdcee194b4af22ed3ceb6f6009eac31d37c89dd9f0a76d 0xc45ce6aa78879221114bf363d0f424b8e1c7cd3cb26896985f98d2d4bb697bb2d66a8f635361d31e5ea034e8d57aa50f1010f750939f73079bb2a585800ee3bdab; P1 0x969e62eba2ecfb4b91a19b11ac6bd20614623ff9841752d4c1b4bfec88c33202614b5f6ac665abf49ef755b8ad34f7bf8b53e71396344b49798d7ac02bef5886bd 0x1f7381ae9af40901ae68a60c1b2c9d72e2ffb88c2f658956cf07477918e0f4c69cb22818f0784bb6e19a1603edf6645c40b09bf3d6418f18f1bfc06c8d2b6794fcd; P1 0x3dd2d860e17c0af725a7dc1dc6aa198769bbe5f8d0b7145e6fa0282399c58cdf5f30b91a70b722aa100767161ed0f3a2ade2323b821d8ae37967cadcfea1ca81369 0x1eb264c90cb7a665793b399896a494d58b8330eca982589fc0d1a896d82eec6892c9e6ec632424e30e1a41dd21c8e4a85ab5f3b03fcf356a00e8ae95712a7dea1a1; P1 0x3ae4bef6e3e6a37a08ac543541858927f7e7b66080874440d28c87680299556fd2f21e37f882ad2363d6a0d05c14427d71f526b21296cf227c1e833fe89a6a88fb4 0x115d6f560bd67c94ae80ee3af3da3f7c315cf26fd8b940caab2834aa0560a0e24acbc93b68c708f781e4154099e318fa1051e4d7e3113abd36e5c5698f47720712e; P1 0x12d8ae38282d19237e4aef344a28b8236cf177e32986179d3195c841fc3ae6fa79569709518a1a168e949a42cbbc6a54dc9de35d6bb645aaab60be63364d77f41f2 0x1bc318f7c4e17f8c031033808c277cb83f011a823ce3514c78eb048b86b490d3435ec13cb266fa6f64ef45e2b5dd6ea3f70948c7a49acc8c6f792e5f6c4bae76f06; P1 0x302bbf34f6ce527a26a883c5eabbdc184fd84e6f758db0039ff92c67764339bb3ec53e3fde1148134653c0dd85c96009514753f9905f9d9429b8fd7d05ded85df03 0x194764bd3e28efc6a17007ca7db8529b0e8f36e737859425569dee370552fc5cbe2693ec13476233fdfd018e44c8dc379ed05ad3356872891a16a6d3b73697a652d; P1 0x27f0595fec0ddfe9e9281c3c93aa1eb8f5ff8e611e05c6ceceec103caa8b4d35fb5622d623ef7a94bd11979b28bf7f0020c0b006fc999cbaf4546c506a3744ea47b 0x1524b45f1b5872aa722bb163126db7957b4a39c355dffa00cc9e9d2d4be810255177c1c50856456b558b5b90e91caaf4f42c34e45af6e91ed720d7b46ed8cd53f7f; P1 0x1bf0adad4521579e67bd9314f641d0bb8cbe6436bf3e37bb2190cb05f74406456d83a4d1f3895b92c8647abebd3430acdbd574b51e89675b8267dca42d55286e387 0xde4f9e844ba598a8e8a844aa64e4476d5bc108414b2517f13eb56f2f856a6df50d2986ffcbea005495206c9bffb77b3bca454a5b81841e9ad1f48c9b876e04c643; P1 0xc10e2fb0ab0176b7ad53cee2a786d9e5f0cfc41debf9f4c2678b3972e4f8e4d5026d27189ff59ccf826c3f0781322c68e3b1393801041ad5c18c08be007077a253 0x176ed185b0a78bb511cd2ac2edac808f351921ff60cda1bd60e23c1f8a50170eb30b6e2a970a2d4fe82c4b5babc44ae48ea98381ebdd78b4d8346fe1c7b8a824a27; P1 0x225199ec01d7b5932e9c8f5d02f6bd7a0ade0e2c4c5b0a7d95cb2a0425423fbd69de7aca00f0990a78f441c6210ea38015bbca222058d625427ae2e31fe52895a96 0xa6f1b162426feb52309d00471b023f101ac384a48cf7500cf7d7a36a2d7ca59f17043dde4ab472b6ceef9d0c88afabebfb4152f057b378c083df143b598d265c9c; P1 0x6cde563ae413417d5a20dc615a2569bbbbdd0f7a6c1347eccfecf65b78fe401e1799be0ac4dc3ba608e66bc4c514ca8697eab91e6e3d1ebe85cdb49bec087ce5d3 0x141c8a214d428be183f1a8c26e6aa97f6aa8dc6bfe319cd1b7b73a1d06b48c924dacac683931d959cd3f8c1c9cb72f934b2ba4229e368823bb420031ca1104e7db5; P1 0x19478c3b5e3380a973aeb11f01e070e0d82e2b2c644539aa40a99d0ff906a78e53b3b1ec72d6f17df137d6f717ffdc36afcb1c03e6f3b654a9e06921b884cdf8dd7 0x4e7d48409f2840b61ce4a9d9dab1cb0edebe81d9a873015a541d25488aca30b40a18a94b1e64021b8718585cbbb02c69d31f8c0044a50cce1eddf344a11ac08b63; P1 0x18109557047c5e94c6ed60d4330c03bfd66df43465c027506059f35883d38ca56e639b81656bd2d2287af7001bcd8f8c57af36929ced4c39c484e976585c547504 0x1474e855e31581f6a82d64650ff4f479990962f8b1c2cea9bf745bf6718559850b37973cc62c2f5ace0287362532b10f2ebe97e7aa5aecfe7e3559be6e9df3ba36e; P1 0x1a279b0cc2cf033e31605babce32edc39aa55f9932064845068badf47c0e56dfd458f73324219063f2e049e2aff7abfb21ae8d3993e0ac91e600d3664c7a5f3a105 0xfd1fda7f4f275a32e7698b19e8ae631d79a4091a77e2cbb341e058faec98c14a72dfa3108fcd3c6443865988a8136306fcf3da872e0eb821018a66f0c7b383e95b; P1 0xfa47f9d647c605ef1cde28da47eca8f9ed1ef2b6a43fe5dbf6fd30ff668fa88ea60363148d87782b2b1a3bd13f096d2f437e42218388d16ec131549adbf6c930c6 0x13d1498db3868abfabadfc28084818755745a5babc3991926856bad46359afe17015292b84794eedb8f5324298945dc8c24e22d72102b46b5aa3161bf96be417dbc; P1 0x188bc0437273918fbadb94d97ff0f88c20382ce38750d31e46d836601566f145f1f0581d1e9fcb946a961552a65faf06ac0cd3f163a762f8c5aef81402c82582bb0 0x1f75de816d843e0d56c0a6d94559f529cb2fddb1186c362dc9f5227039ce546c938ecdfc9f85ccbb7b35e1a6552e1ac081124357b00bc34e9b00169484509c7faf0; P1 0x3ddc2287c38dd48dcf38190199a2452742d323f07c981ad49e8014015dfce259f4020590cb298fea2f8ed2b17905b28321aad5837079c46d710be1d168137221a56 0xb84d72f2a402364783ec0286b5a8281fa7a8439dab514715d41e40cc0c2e84735883eca122ce6443bee6647b18cf9f0eaa824b3475ba351342bbfcadf132e6bcfa; P1 0x84af6cab2556d767ea41c5df4c4673dd7e84b32593476221285ece004c8357352955fcd3c2ba690b6dc9f6de2355d963233505b9832c37ddb65d6eeaeada4dd2f7 0x28cb29565c1833c649c812504e520daa68bcbd352e10e9d2285c0d3190607b22ce4197ec158d026239a24cf24a4f90a8d824d88fa61a606012e59b29fd69436199; P1 0x6801e25926a6531d5813d6210ce1f1ae9e48df0d335654ce7c1c0c279313cb9b46c2f02106053cc7df1cccaf38ae8a131c96670997ba53333b9eb639b93103130 0x17ede7d1204b7b8bd0824277fd301dcc4c2df1a52ea8c015b51bf86b885feb145a52a10ac93ef047231984d5312bd88f39ecfe0e43a58000f47da9dd37a094e2032; P1 0x23c9cbe9eee6f13d8a07adabdfae6f4550e7314ad87995a77430e51a2fab9f076140fc716bce7895b86c5614af001db4a1d972729d34f8066797f99970cde83ceeb 0xfc0092debf6930b32f19366ea8e9bf975c4fd7be8147eee5dd20b8a248ec3d3f6592ac80a452ecf47bb0a56303e6621b780f9c2cabbd01b8f31ce57b949f2b0145; P1 0xf8112126dd19ec0549d49d8caae4c2c5b2d75ec16eee57024cf4f57f280067b651cee1856647228ccac30e13f7addeeaca0ed97e0199abaab0567c946c7d324f44 0xe365ceaea30f816b3e81fdbe48e2541e26b07bbba9167f83e44bb65562e25055efb1de02e8703a08e59076997d74bfd3e903d1863aabc26feea910935dc3dfce; P1 0xc9fdb50671d7af4f54b320b2d8122e038a363f04365641e742621089dacc9f027ad9185a8b1fe22dd718549c7002988d2a61d2b184112eeb5d1bee2408c111 0x123266e2e5aef8240bd4412437350ec20437eaf7866e17f67482775478413f2261cddd2064ab6380dba12f17f519a343f8bc51b999fcb447d116668ba673a87a5ef; P1 0x14b20644247eb5fc47bd0ab4f4493ceb846901129ab57f6821e3d3147c5a72170af2752da069f2b48255872717d80ddef9e924affc753834c3207db6b046e74d9f7 0xdb5eae167cc5fd654ca045ca48c2f3dd81a01394b1ef2eff43df1d69296a7df10de7171f356be54816e5683c938aa9ba1873892663398ead09c30a2f8156f7c493; P1 0xbbfb20dec860f4883acc25487e6a89e74e9f64d6bf2d9760327725c8004b1e58d3610631e340729dd0c1bd3fe85a8b12af1efd9c6bd2986cbb55808c1e84ca9f25 0xcb40c2994a533e6377d77108e5a58e98aa26fb267c5dcedc4964598a5c73d4fea897ea24a16951f54f6ea3359aa1d513b627512f1298143ca87e21394cc6d4cc85; P1 0xa15fc500fc71df01096f28a76c7a935d8a371678f08f1a21f9b4160e128b89710ec43f0cd066afda1396e60739635bfa9c594ed0b1738061beb5e1f2b51c831a57 0x15c831adfbf5d58d91240ab30dd5fbe80e84389ffbbe12dbff02934cef088010d56264dd1f22daf7611dc51e4e5cd834062c2e0420fb163d028c7d9ff25f66a9123; P1 0x1da74b434d415d9850181ce1c9318c110435c1757adca717ad374860a35b30eab1e53ef975ebe3712ed5200f18381a358f70e38520e092b0669939ef04b0729a9f6 0x85b87e269f2bcf4f39ae6423d674fc514286e0db94e24bbbd8a7171d69bdccc79e9186fa0bf7b3da5b64213308c0ab062128cdf70be9b4c2fb7ffaa22e83de43ec; P1 0x45d93809b7125ee517dd1a0db0d810dccc0cec31674ebc0d6952389db9c7f639f4460f5ba9345fb3158a8c0935363c78b8a39853612f0401b6905b1bdc6dc5c38a 0x1c76b9e7903cabbdfdd644c88ac0bf3a73557e8fa20fbfe01371a5e7b6363678345161682567baea9685457f199522eec5497a0e20526981a101e22f9c9c224fb46; P1 0x32a2fba9006bd6d31a7b9e9c12b75e8f3692eef064fa3cf4b2d645ce0ff5a68b13ba2b764f191aa0143475dc69e384e0de0e34386cc02c6b2ae4804581e11c509bf 0x196cc7ddebe7e46efc04e8af2b619abaa6a063ac3208872f711ccfe9b0b06b9f37123c8af2cda6106d9224fb3f4733532400701bb6ef6fc4f92da52a1328c20ba91; P1 0x2866d42975d1b6a17c61c771b51738977aa6254cb91c6816e21510060d984206bde81c0c664eec0cc38aeddc1e399b6789006729827e28bf99880fc7f4771f2012d 0x1006b0f3e07a70eea161d71d8aa07af0966acec886d405548e09c91872bebe2cd286b9f8924c89444f15f41b5b616735f890d5ad3e08c1cd167259c75dd3f9e6dad; P1 0x100d64b41ce10d767ecce981dec44f07a6b9cb7715e09d17f9b77008da4e6d7a9c52e7583d15f6378b6b8bc409a1a2ba9f4acdf5e730511164fc02b37b92a78c363 0x1784e3019a8fa6fd40305e347527f211d89092822b9002a7e3a4b1ce3449c2e0aa5992181b842a888bd6e38b668ad18d27d95ce9171a901da68bd490fa7f1d80357; P1 0x22925c52cb90c430b48762387ad14059e5a3f598750c1f9500eebf03b670944a802b8fa08bd6cbdafe39a42dfa4eda62d2cb91e7f859a22e1844742c7ea994b3484 0x8354b2d9fcc989d5784240fce0bec936201fb53ea09cb7c4ed49dec7ab644ca9b0d6f949f3d3c53689e6d322f35495650c79a3d0f44642e9931671a457dcade67e; P1 0x435fcb10f4b80479b820a72576d80913eb836de2f3eff0b0ca2c05841bfa3038d08db6593090ea2a4f45cf824ceee7cf777d4add98887112e5a72f920aefee0230 0xcfc93d99599cba87baa213751dcdfb8fcfe92a37c817f7f024ed292f88384a5a39183d609a8a833aed858049068a5e6840bf51d0e77c9a6ac27fafa2d2b8ec7858; P1 0xa8a70fcfc88c9e55568f2cce8436a6b26ce4f5124ba77634d33a005c4d5741c5c2547a149255b6b298d2010f91386b432be1ebc08db35d70ee900c4d8cb8544607 0x10cbd51e37a3b1aea2889a20c4d8e7680744f0cb70c1e091f8d7e7acfcf9391605f20020c1c8d2c59e2d13fe43ee741767e4f950bf0a875d82b387139ba86cc0a41; P1 0x11a1cef764bfff91b68d652ba9e943bac215e443ec871f303af90696aa82e1a77606b372748a14eb3f217dd2653386d06956cff7b43c9b243d86a01511d6aaa85b0 0x3b642a4f06633e503440187ffedcdaa2cd9cf41981b3e4bd03a101ad6e3de97fb826b275767e6fedb0ebd1bc4348eb406d34a5208532a71b9b70666e477d4ad5d2; P1 0xdc752b181acc2bf2899f1686eb8651a4f8c39981e0c917d2858ef25b750ea13407cbb872bad9b5f61631e5b09d99e4aba8c599d2f0e713322ad6f0d84ff74434b 0x9b1b22ffd9b717eacaac930b0a3c63d3b6637591c00965f18763ae8ea5c2a780ec36267d1988e7fcfcb9717ece8d16837728950f93f4840baa99a2d18a2f3696e5; P1 0x5df9df423864991d7337a78b3d17841af3d8a18d9c55790b0426a7a51affb4f53b5c45f6f6094e2f614bb1534a6a1e9e9d660cf62c2bea0679e3f15268df482bbb 0xd0c392862eb74e36297b0971c2203a092b5529e8960c1107cef994fc160932b5143058ee7e266b03daeb5f87174ac651bb4c8b0871af7ee48585a8fd7fa893bc1f; P1 0xaa3e638298325df72f8d2c29629251f42f1ab03e9e9a0d8b14a18bed3ee508efe7f4200f77a86c64d72e17aa55c6f9434ddef50b6fb30e6fa923aaf939b3edc828 0x97f601012d86d2f7f54ab237f48cb17f72e09bece550df6100ebaf7f3923c30727fe613c2f2944be1d205ca2217b9fd3e035d939130d381c915507ed75e5636e1a; P1 0x5a34219551f98e5a68b5ccd3bbae9796890f5f4dc1ca90561036adcd36377b9299392823a4ab5a69816e872f5dceb081e09aa9f84969a1eb8b5a0fc1ec23308eb0 0x1b293605f98985f697c464b212b658e2b331422889cde8f48547b4e64ee70906b378eb5a8a601104e8101dd5488df1f92d7cbd162d5c4ae95f3f986d79c9bfaf118; P1 0x2e1b8079bf375b8a4201e48f46827523a1379658246a0adb68ac2aaf7881cb5558860b52d5af28be0514dd2aed73bf66a81c82e8600f145740ec2fc68561c8de23e 0x92ae06c68f41350f419e6825a6e26da9506dc0747d13acade29fe8bebe66e41981ee21469622a17eefa93945846211d8b6e1776a10285ccb9e90b36bca2ef3852; P1 0x540af607b17f05e27f1a96b07b819bd2415d6a4e0b2da3f73204b8c949a7be93cc017cda55276143acf682f5214e6dd664af4d0d037c44193d770cf23815ec93 0x178090761c88aaa9a49d3223ac3055caf5c5d98e0004ddfac72c41c6b0dce9d34ff18c93c72026285239c0994b2bcfed3e862a65ab49cd6a4ae974f56126ea9375d; P1 0x2285a8600c22ded3663381407f64361fbc1a1378e818750b4357be65cedd1fa84c1dc3b1ae1f3d7c57252eaab8fa1d9a4a2f2fe7645901aa4c879cae1c1a87ceab8 0x18ebfa48c7ac3d74a79acd32b05183ae27f87eac1918e67ecd2d745a39aca2d64e05303e78d5200ca12e97962fcaade6f277d62c96dc250801d122058ed9320f1a; P1 0x26d18731bc11c6c08406114dc0e1b4b6e514d8ca62534c7ab289e5cc9b61474e506fb0930eb228acbe87cdfdecc3edac4fd289a53b6f6061bb8d447b72ff51732 0x159f4807702ea54e2c813ac0c8f60c17ad0d283365fa83e01fe329818c63c6821501c0c3f3615181785dada1b2a2a26479435aee45bd93b9a86e9e97eaf247ac486; P1 0x1d384ebc5e93061bb1a589df656964bd5679a8a763782c4c8b5edc2de193fd20b197b799bd8e0f0eb19404b6b924525019ae4dffd15a8d3152c69a6bd2e7d1e61c4 0x1c729a77b7945dfc77a9de525b86ce8493c055a1577edabed007d5be56badaf45e531de544592b9e188a528572325428191a1a54892f5801d4b4b9bbe338208ec64; P1 0x32945181ffc358d9fb050f76647681c3e2aa038a58d3c7d52bf829760300db548c87b79a4d8e8161304c2aad5d6bd46710b48fceb75d17dddc02813d26b2716fe1e 0x4a544e8530dc080fcd2632f1492cfb0248894a10e80ee16ec4e733f43ceab0e8ad34b1d55a828e6e6ec64bed2450df0826f0cecac40668d22c565b52f6716e6712; P1 0x1594d9289fbcb4204fd5f81725b9e87d99571110ac16c4f97eaa6083b7d06ef9ee1ba547ad17c9f84c3b59cc5b34f1b97aa913deeb53d73358db0bfccd649266e3 0x138f04fcf8330f1d2bae537e7e54bcba6e93c002defbda9d619f4b905581382b9175ff02c18549d3bb22c5ed337ab652ceb35c8ec7d27d11049b3562bfc73f0b08d; P1 0x17e8aa41f8dbf0464b44f690b07a355955121b450a70189a0d8d12ba18871dfb4d4f0569d1d657c393090f85bcbef303ab3b7bbf03b9bda4e384288a770222e48d5 0x12533bd9e407e24a6d7e6787b5fe835c4caf3664c12d2ef067dc41c4a20eb9a3f8fb3f27785f18214e61d91f48976d89523dd1ef53bf7c67e891de0fb62849897d5; P1 0x14fcf7a8159217f3672c27ed6be83c212f7435c07c3d7c4dd587d8cce6781c9b4f3cc1e960129931491c08bbf1003e2fcbf5e4336549a5cd55fa331abc42cc7ce77 0x2daee2df48abec43d30ac039f8b4055fdcd6d89fa89611ff946c3bbe654a021012bf572c62b25aaf5c3c0c65cde702fe19e86523de283480149942633c6d453043; P1 0x826f33bb02239d441b33155fbbdba49867018e10659db791630b54c96ebfb3ca5495bd97baa3e334a29eae149e6ad2388463616e95192ce2ba6ba18e10bcd13d8 0x9a2a8e5b82a0e2b0bec9baf9ee02da17991f09a121b6b65ce465200b8f1a798e089a8309a5426c9f7eba1067603c6cfed14d4e1faf571179b7f0d89d790138507a; P1 0x5cd73a591e5a1327a40e57cd22a5a200f3c7a9e1548312c3cee720d38504b53f1929b5c2b8f16bdf7f412e5ae0ec97ab30151f5c18e019bd5069f8e05c18c2e8c5 0x50cc86f885829abf31e8c0383474587d9b19961028578bac216106f845da70458113eb2280e60705ff6b4edff7f4211a2830c56db53e290d66506fa1370379d15b; P1 0x198077c2b6af85e5cc95f5320820b3802111aa95aab7ea136581766083419164fc1ea32ba1477cb1067a3285736c79308ea97ad699b351bc7a42f6881f65859e3d 0x1702c10aac7c46da5edf69ef9090edffc2c7a52b880d5b91b0af036757c1e7148b8b083764da250472aa875712fbfcd04b1bd3c6569d8c2c5ab7cd5e92f7c9d088d; P1 0x2117eb780ba1f31a937a82d218c10a9ef1c368605a1eeb8669569e957b67fcee45fb74439c60796ebc0426f36ba11c8f203111a999cfc7cdf588a03623983e9ea6d 0x1c24caf07c7983e80abd252063511dbf5ffb6872d45027b24962a5251887134137b90788aaad31e43c84c00c42b47b649a6a4ab82b14613fe0727fef47e22d2697d; P1 0x31811ae4fbdfd614023dacee7cb16ddf9f6025a2149ba6f4b6b274aa4e5262be107984f7ffa3d3e7f1005757a10b2510611c845e628422316ef4c790520615d29a0 0x1b925768f1f4c2ac9d9d6f4ca4836f06fe87d41f83f337ff828084cbe183d76754ff10c5ac19e3ea4e753fe973e6911a08a30632674fe61307a43743a24558e9772; P1 0x2f83217f4961bb84e013cfadd88d85e5f0d359c85f4dd02b5fed9b527cdccc305b64b5b8378f5a6d033b4973b261635bc45a3422c70f45afd68f24137c4e3de0540 0x3b736668e0466fe1e5f1a7fff996f9240a304a44f2831eaaa9aa8e5b24c2c7f0324526e9fbffce38614aee29e8a105bdd88e4da8269af7176a4288aa22fd442e48; P1 0xdce65398291b489c3d03c810614a23ef20ec6a7efdae15885245c2a9b7a5f7c2942c8bc1d748b3f7dea793f57089e162c15a8ac8ab2c340706057b08a147e0c19 0x8904cdc8441402280b1e7bd2aa4d102710ed1ede0ce04f75b4433d1f92c4d3705046ab253d8f490388a2c0986b2804ac4b40b8a6de06589817ba2a324f199bb79f; P1 0x495624576c89e4a169f91c9126fb40970cf34bfbe5fd4402a655623a135c3537c6a2a2483074166a7f413bab1635c14fb7a81ca550804a1ad60e733aa770219af8 0x185640e426b72c3afc006db4b5e21b2030a1f4bbd6542c5bdbf3e57bb1822b1a2b5c4f832eb00f7743491029f59c21c1c57b4372b1554cf21282dc8f88d688616ca; P1 0x250493a70ff3a0d5920901e75eb1b3b17634a0fb09321fa72cb3f5b642f58ff7557f7c2b6e566d10b0f058d2adb8d3af4f409dea82d4b49ab0e268e3ea34117a69a 0x8d2e7491ecbac2d599b8c6450aa62bdf7b4aff0a3bf495c44ec4dc4c9c85b056b444d7ef37ee8830be3f7b7e66fa63a3635341a38a21b0da1d19a32ec7c865ab5e; P1 0x4ddc34d6d84b5f749723f1906ba2892d385ff68a126d1f2bef6257c4f3631fc98cc77f05835e2226a246a235ce68892cadf693b16f4098e12b8785a0d71cb5be45 0x5bec1b3e62f37160b067b2f4a1315ce96aa7b067ce97656af3d5c791d2dfb7b56426ce521fd44ff819885c835e8e1a446c9870bb3520a6361c685fea2b60f6c89b; P1 0x2101b5209845bb8735c392c5a6715db118d6d6d7821f2d1f754a87b95507ba5416f60815d7305e6052a0664d03f9c3c970c6925b7afa48b517a7107a2a97fa3747 0x2b917761fe2dbee5da1bef7aa3df1639bc8885de2f6b8776d2772bad3f2745f7592625eb69892563099f41a1ae18f44dbe1fca789c331cfab0b87b669e6a416e33; P1 0x76a30c360118dc49a29a00a85c22ea31e0a54c20d0d3e355a340c725591fb01565dc50dbd7a1a06f781cd3a61b2cefd30bcbff56c80e69f94792f3d68cd9e2320 0x1982d2cd120b31f8ed6ed12697b5b855ce4a426bc80bf5a2040803f99b8af953ffad7464b22dfe6ff602d113da73d1a3c5437e249a8b58f6c4f1ad432a0f3640032; P1 0x28ad006d3619901a460cb205dfb1525ca88fbe00069c2e37eb72b8affe2efdf8407750f342b4eb429b96fc72310ca0bdd600636af76ab360f6f2b0d5b9eb7be3dd4 0x1b5cd99dc7e76c139433a933163280572efbd2c597bceffcee6fb394e77907aec36645d888f56bad459875b58c4c3c03953a11d9a9daf2b6759811e9608c5e91714; P1 0x2ecb7946a8f5d46f282c75068fb0c7d2d06ad16b43f0ec5c2f688e59a445247c97602db705c0c4c6b134e8c7c5d05b08d1a12cfd0b713406b1984b6276a3d9128b1 0xae6b7b89481117fc7195dbaed0085297b25544ae516eae2ed0e62093c3e2da6395d2ef8aae448f3e4cbb98f9552013d47444efe3216f6375b4d5d907ab9341a0e7; P1 0x76d6490f1e56afc3db1089e10c170b102aa50524550720b01bd0b1b46c7cdd75db0cdbb56edf27d88d2abcd848a6e8acf071c616a7b58972eb7e4cf5be935e12d4 0x1d486c7012882e0ed43bb174a7de589acddd7a73e309917386f7f4d94390a967a634fcb6153dabd8d182560a1bca0ca60a077fa340e5942b8d8e754b112a8d5a76e; P1 0x3597d0e912c07bc63c926bf5f7fba5db4d60118ce2429487e5e61624b5a8f3610f7da3ff0d12c8fe271ccb7491327c37955dc18560b9cd037c9289ab3ca34592e18 0x4b7c0fdc58b3948b260abc58581b6bbb06afc37427ea74bb0225692a729085cb67fa19df2fe05e0e33e3138f912a3b0be76fec4ba2d043543e7d9b7147ab567b0; P1 0x1641ed6a7a6ab70f0de2b67998ab41f9780e799d9905eadd51d06f1c0da8ee17b2d04edc58054c40b7fb057a81c8bc45d1ad713951530d5c2ee8f94c1bb345db 0x333e97a475a85a95de7ca067aea00cd2bdf9de5c35f9b4d22e2fd01fda614a43f10e6326be9cdccf5a1b969cb690f332f59f9fbb7f22ae2fa85ebea0cdbe3f314d; P0 0x520ffdcaa2ebf0b93f0cd238c69eaec33710ef1c002573d004e7637feb2412ebfea294cd6f26fb058c06d66d1900f8071c767e47bc95ab8b3cd65ad4283de740d 0x69912cc59dce716dafaaeda4054a90ceed4a8eb1e086980a122f3d2179cbea031b854279e99b318b33804b45b4648ae50baabe668753955a2d295a4255516568b4; P1 0x2b88690ddb24a3b3b05a5b602727ac2927f43e8c5090ecbe1be18c2ae6a857207897431ae35c41a7e7481b24897d8e4d37f11948c4f8de5c682b4c0ea92a9e9d68 0x519a487f07796883a457eff45926a475f2e6a171962cea1752a68a42f535f3b85dd107c4e1ff9140e6c9a1e8b319f4d047e16665c0612a11cd94cbcb4895e55478; P0 0xd017f6dd80bc2b8e0ec7dff815c504ff9657f7db940e8774c492e98a9de8498a12829abc07b4957f7890f75463a72a7f41787e482b7ea6c0dabe3826f26ee0597 0xed521411de7a24208c3a135703206461483e9663c653139fc5b593d7f264fb847e3b85e488e792cd46b8b650960e05414d0cf16d77800e88d13c5da638d1f9c9f1; P0 0x6e0089bcf979bc92e5d9a8170ccbd89078995e5857cc96b6cbcb6b21911a2375e6f0fe6cc2b4d6338fec32174a9beab0c8e385c4249da5ab4fcbc65a9794d2fcdf 0x1d23aa53301008000ae275a576b5c02ba78d67ce81726e72fe113d58910d9cae4ca87a0e40ab4b372812517712f059ff6aad821988c74eeb88e0d8234ebb224550a; P1 0x351198edcf55d0fb0858b107f91f74bb5fe40be3b240e9681e647d2c4a06df4dedacc97a8b1b265c11bdacbb4afa1b973c8814f747265834482267b0c6bd192fc74 0x850903ebf6b7cc01d49d00d28f5511b6d4200664788d37067d38f27975228893680ccf24fa80550de20696612ab91c1b97b7eee2983cb8f80356494f2727f718b4; P0 0x22912f323a80da16b8853622d7e7c59de3bdb4769872826a1724c19e752406b9c30c023fe07e95676642627c8c818efdd33cf010d21b8cca6e9034f8f130079a7a 0x434c297f1ed205c79591cdf53666f4cea0c5733fa2ffafaf0704ba586d64013eab964b73502b535b3d9ecbcc329a865b8f011dd05a2efdadedbe24bf2cf86e2846; P1 0x11b0f461345632b8c4bcaff801560ceb68921a81910a2d351f8f17b7d03dd8d81d4e2d95753f7acef5d5ed1c39271a9ae88ecae899c7ca14bdfda659caa129373c 0x4764acb7fbfb969dd4657a940788a7a519201ee6a41ee17eb6eb6ce1d7557104bdc71f03c2cf465e78d4a4904609e25b6aa7159317fa4534fe759b8d93afd5852c; P0 0x9f47fb2b9051476c19d7a770b1d568a5c79e33213de41a44d9dda5cfe87d552fc3e8d0af5ed1bee3a941e74eca27e83593c8025cc43c1fed6c93db5c2c9cbb25e 0x1a562ca0f431b0b1c6dc68f41a383c64205416310650d35827e3a5f4da824aeaa64c26f740ffc3f307b54be5a126b62a349cf75aa0c1fd2474c8fc0ee6a1c18c242; P0 0x15acf095ac2f13507cf8f3a3901acc315f233d1f36d331c1bd4d8bb74cff41d07a09b6c9c2b044664d5d860d0e5646218c897575144a05a36851c194ae864d4bbaf 0x1fd131bf311849a183fb7d93cfa3a06d6d5e1ffe7f5bff4f8ae08bb02ef36d6eee3165827cc9f7e270ec962a87e5a6d9fdc76167d62c69bb85c74b6f5a39db523dd; P0 0x1fa2a7f48de658977c43589e37b953ce0f6e94d2a5e38d147927bf0263cd08dcf8e58de461c1a2719a68959b90ee4e4d1ccd1fc4045744982c2c9cb245e1fe5d5ac 0xed297fd558df242a1dd2b05dd4e82aba4e0ce697ebe1407f9bbd5aaf21e5c1b5873f4a2764567c3f895936251c31a062bd9574b91db1da5b272972295cbd5c79bd; P1 0xdbb5dd6b38b90069f8c3cb13e0d7547e1cfb0c6e99c9663a49d629ce6c94729c6ecf445e7358bff3b5a8ac2343502818ef1b450bd3be23e02bcc450ff2edee1b0c 0x5086788dad77d1d2791c4bfe8b86e60a2d6ae31cd52f71181108916b4b0153a61f43f4fb4778e04bf0a497c92dff652b0ba674bacf84b60334a3b650b680e8c7a6; P1 0x195451faf9819d9c1446162dcb6ee8032855665c25ffeefa0ef186775a8f57f07233af29de3c18f4ab541adb05da9607f3e9f427720a45b6e8f4156f5fd07b28b4 0xf15cc525db203199c338861df719474a5bacb94542a056d5669166e059b93813fcf55e1f30f27a3a64f72c314cc9f7043e13086cc3910122a1688950cba58c40f4; P0 0x71c7e667c8cdb2afe3a4e97ae0cbe905788f0e884a8705a5cd1e80b22339caf7cc18877e2ce3aac88a9e9bbf1aad6f42a547b4afe46a5227cab0b58618d82161b4 0x61bdcc1d8832e6d263030dbadb21f3799c4581c166cc5e81e1a47c4e68e3c1a3b5e0867098740c1ab2e6380daf16fefd253d15732e4f6e9ed9d4d2e180aca4293c; P0 0x12a8b0b2b3c86146c2c61ddfd8056b67b2c1db3f82ad880f66814e03455ef54848658c165a3478ddb2cc3f43cf5a3073c86b60bbfc8ca04b7a962cfebe7b91a3be 0x523fc20a37ed2c3cdc2040f948e5344968d5be4d9f77df0da2495cce2ecc9fe69db7f523f07e7cdad7856f1845315c1f9e617920ebf009b0d4d641cfd7cfdf4c62; P0 0xd367417cff77a1f52623c4f6ca703052308771ecefc9ffedba2acfa0f8edb9e9b8d080b19ab2d85c53d3d441a26fb74669a072e0db477b79c6d46e4eb134c6725 0x119f4cc445ab6648d012fcd848b97c3222a5f5fe9fba65d117c00298463b166b08cdf912e1047170ba10c5c898e9ee989a30b09b9762a86d5312e28c0a29a744137; P0 0x9b45a9420a372ba01d580cdfea6fb9d109cd67517c60de05f7f3d8b80b339026fbf1c1c7408028c8f62f2de882ac89aa60aef165208f1d3ee766cf5773f46b346c 0x1b9987cf6753df2af9c806f1d1984479752bf080c426934ef47e74da618cba4ead1765558bb84cd27422122e9d99be979b0bc7717b654944d1b0f3635833a95f205; P1 0x2f9beb95dc19a568ac5968f4579c03f8144e563ec10adade5ab0df1c73bcaab8e7bcc84397c2985c47445834bf4ba1b54ca328f64bee28585211ea7b1e3678ffd94 0xd226cdd2c584a99780563afc03689e29f20e29322cc8c66943073bf69843408204f1ea0eefb464b8ffd88f3eac4fd80ff4a0889f999512b1e325464a4c95c12dfe; P1 0xac83af8f8c1b877e052fe43a20737a461b98f369dbf01654e810b4bd25f5a9293da0eec13e7c79a12404621bb6501dce7bcf91f7ff8134c89ecd2396e2bb068f8e 0xf9d27f76e62bcad413d5506c3e579349a04555c8fd1ec079c0c7c6f79f7496cbb4cc1a4082139a049a1528c8f305e1052cfc2bb8967c60164fe8eb5bd622200c0a; P0 0x79e5948555250000e28acfc6a471c1801eca2b7940035df85f0b4347c24a0e88f9b08eb731c9b520195a3e72a5dfece85b567bb9aff203b5949b9deed0e55c42df 0x6987458d97a1045f6b149fcda746629b0695d7b0288d21f4ccf5e75427c64a0b15f2bc8801e76d5422b97b9650ecf5e2fd56f1d76d71156f84a34b17cca0eb7a8d; P1 0x2b803e88949da3761003741b6165313446b0c3408c304137cfb2070753284583a0d370cf5d0e4add5a36794bf23adfa44e6b7549e576a3daf6546f6dee9a0010e3 0x9db31d29c296548a06019ab6b10f09b8636546084bd9669baa85b4304535e634fbeaa1b1ec6f458567e833382fa55c6e86c017c5bf9e83add2662a64b3dd01f57; P0 0x3092978b82327f68bdcc73fe8c7eab27cd5193f0d2be7244a49874d2f8f7a93b4616c8413f517c4e563878865270d73fa75cfc2c1616edc8fdc55c59c00de90d 0x94a4a522553a96750808d73d870b68d3272b18e33acb045f382361c5103b8bbad68444c1da8a9ef63957a086b9a370b7647d8a9ba9c572b78cf5d63c5ddfd7ea1c; P0 0x2b276469d8871bc02e8fa67b57c9c90d100e1bcd8e6e639505b704a219338f6cdcd36cbeedec8e7864be3236522a40995c2f41830d43b8a8eaa4e6378a7bf0e005 0x5007fe1350b2ce2caadb222c8a15e82dc42800cc5147f915c85eb227c50c7a19214eb4b36ef31a9658dd248f928b0c73537015bf970b10d444cb55acdd900d5ee3; P0 0xc827f85f9d4401d8b2ae461980395e53cd6f6678a8bb9872bede4db078cf7e9f2cbfa7c3d5e03205f8c79a125e43e5b52a629de85a23ca8b2cbc15a0d6482259b 0xc23d29be2f226502ac4ff630a54b5e64486bd544da468c1f3e6844dafc9fa752b09ba6316eb88c015df325be623674ae2db26c05cce7cd886fb33798b5c20d9ed6; P0 0x49b060f0957087ef9a42e00e348c21e1fc62c52b9be5ea06928ba4da63febd0b4f12a1583c41a11cce1914972a5108c239c9dcd27ef98ae4c93f1a4f41a8ec53dd 0x10158585193dc3c70cb6918ef99c0d6163a9b476150ec10b56ea1681f0987643ecd3b4679afb7297fc0ba652c858d088f181c306bd62ab222471d8852ae15df941f; P1 0x102b27fd0a16e086a5647526caad2c41197d486262e223da342fc05234163c7552160587e3f99e5edf783383a7af167f5643b7d6b388527a7b8279ccf7c4889376a 0xbf94f4e3cbdc14631f91630e47b7486f2243ed8b0dd69bf63941d05b93c718c596bb748800d4109811f8b12a40b5f27b0068d292e9a0c3553145c29ce1a3c35cc8; P1 0x8f5f9c17fbd924322d375369383dc65532d89a1c15044411f4fc4744b112796a80fc895e93a9d8ace445bae7d3a793bd37bd7903b3ad5d068aae4920139acf6ab7 0x860481c92ba42f12c9e2f0b2b8c5bc16c20187c134ca7fb874279ae071631362b67dca87c375ebeed633ab72f49ed9a61a7090633e0ded99ed70baf52dde9e7c11; P1 0x4628b7f2e9c59a7a2aa34f270483ad15e870c0166fbdc256cf3f4364fb84f1b3a731e100b6c953213e16465f4a197df275da1baabb962c4524cf96150e391934c0 0x11f4480c333a31960f799e453f61f915686bcee446a40f877846b5bbd30b3fb2d9aaaf81b850ba948832e7156407d9620207316e656f7ceebba41953d795bb1782; P1 0x1425aab0a563eea07b4f29d0e9de20ab6a5fb1b6d398f0ef9e4f30bf5f95f14cca45ef718f7b0816d597b08f63330824976432fc4133dfd18323479c665f96c5b 0x1df734fe1f40d820769f45e64d4053495c35307f155f91b104819d336ba4d26e2221c26018c3f20f7dde405a8eb9e12e8c93efb56ba5d3f983ca63718811928e0d5; P0 0x1c0f85c70369c8664e7e947e5e54c1f11444b3b38abca0a7d9c03274846dddbbd013535bd3cb18d09ae12da5047147e3bd2248b9a414a29e0ab7b77f428c5e44ea6 0x42097861bb13c822a8971dbe1e90e07d4dd813aab066560a65436a122b0f22425054b23bebec0d909cf2cec2924e5a2389b4165b7f05c7f2816acc8a6d43f5d563; P0 0x884713609f88fa3e558eb18c0b7cc5570db299ebb48c9d68df0e286f3a17087bf127b0db218537f41585bdab63866c9fe9a10220cf352b6839e62994b4943e511 0x177f63a8766a94cc23b51b50f484b978f73ee55b762cace2fa5556a9b1eb41ccc228e09baa393338ac4890d420612449e6c1fd4ed68205639c7eed5c5371dc632b0; P0 0x11411a6269c2f77315acad92bc60fcf76e14eec9a21bd4d0a79062a7c7e5239dc91a89eba834d5ed49b74b87b6aa0776e4cfb3cdcea0313ff0b16a7fc4eec05a3b6 0xef414284d6f870a21d57e5944969bb4f9a0a5277774b2a63b3094dc07e122fde731400249163b39913289990a3f2c8bea8d9a3a120ef8f87c7837f594bec535f9a; P0 0x6fcd756b7110e81f31f48883400dfc566199076dfeae3d7c37ec4e7816b9c943aef828ae489e04b31593d90cec3d958e16f761bba5ccbbf26a95ff76a5d13e3ceb 0x101b5005d3fe40c1aee8477c942726a3b054c1e5f3bca3e93db2fe108d0c7857dec82851dca9f61b3933c973f23e86bbbaad4a730a1fa5ddd2dbc6ed36df82bb861; P0 0x81b6755a5f122d5f564f0a3fcc18a7b59464f9fc3c0d57ad86ef47b89a955d58beec2a82c35841e19fdb9ed8267519150860dcfd53c605fe1282fea2fdfede1ed2 0x38a98a29eb84d723ae81c97b51ee6bd71faed79b3371a62a0a4deb76b3cbddd7ac4335627e14fca42d582d912b565add56d7fa8fa418f6947542736828fb98775f; P1 0xc8a9cba0cf44c4c2aa1b8fddf712ba528fdef209274170dc29161a5b90e08ad1988ca799f6ec4f69938afe39b9bc86e9c72e46345746d7a17d6a914f05982aa3e 0x1fe7357fb077a492ef6d485957e2e000648e3c0cc8a514b317fcfc39ecfc8497045d59cb17d7989a8251268092c5587a291b706931801421ddc17372973f94ab654; P1 0x3f9cfc6845b9088b1a769df7685c6e79618386f5cb0dad9d456d2431aed43595dc7830743a619cc5c9cef27259a6a2256390bd4ccbb5a5b67ebeda8866496a9a714 0xdc8dd25ec4db306102f8e3abedc84437fc3bbe9cd19b98ed42be6b45c0503dc6a6c44a20d74fb70ff049f8c39c2ca46dd1be43fcd8336456750a025670333c676c; P1 0xbe0410244b9d32a6cbb01b592c0e208ff079d075164782a4ff0efb86a0416fccf2975cc3c13b6e05385947af2872157f97171c08bd35135a2565879d8fc6fe7b90 0x130581605d6185878bd6ef96a4efb3216955a4745b5315636e6070b1f68be270bcb7fc647a0edd280e32e8a44379aacb4134dd72ea9403d3f39927f919a5a199310; P0 0xb4e8a94e813101e4ea0f5c147fe5982ea229d58a0770580ce019fca856726a75b6e9d610b6dc859e79b7e5f98d456d2115b9d557999e472bc0916e0d9ab2911b9b 0x15dd1d92fb79d697fbb1c89e05611ff960f230c83738d3304c625570a6a80def1d8bf21ba65e278e3cf03de274166defd29a51fcb89a229e2ce1cd6db7982d0dc8d; P1 0x1de05d63072ceeeda53150a4310dae3e506975b643411780c50cc850c0153da82f228d01926340720e98f44b69c19f258b8e5a4736986258f15d6445d57e4c2a1f1 0x1e887798615421899e52638a5bcc6a0ee0d0e590b720aca8b8ee9b0a2311f81f121860e68b3c1d742ff023c8a585e31db09eaa3a60877e9a6180f01e462ae7375d9; P1 0x3a444c70096266fd36a288b1b9561fd79f6c4178b1601df24d0f4458fd5b31ed43dec1542130552b8f109bd04e0dc75fdcaaf69e9dfcccc163f0c36baf093b841e8 0xaad868580111950a43207ef730a28ef5e9ddba6a1a99c87ee0209b9bf7e65793527a6529b8062f3c0ad3406735dc8591f38387d560a2ded010c3d09d8287332ba; P1 0x720421852074c6bc27a8616e51e237814ca4a40bbe1b3abb689116dc2fe1848acd8814dd1087d6a038eec7c7ee03e1cf6d0e4731d7ddbcff82930326dd93082a 0x95f22a2c0bfbafb04f04d5a788153a14ce2f51dcf1961199810dc6ec8c386d2ce943614ea966ce9617eba6fc684be8cdd067ecff009e5770cbfb4fbd80adc6acce; P1 0x57d3ca2b082c1dde1a0adcecd8024b487d0f2c8af4b8545ac5665252be994866cc7710f50f2b60cba21f973795ef683ce416c374886effa6a2c2626b1c93d71a4d 0x519e355ce69172b3061704d45c27c8812f606aaa83a75832ad1b79ecbf27d7db092e1a113fc6f8385deb4cd06a60e165f7ef78dc7fc9d8aa35c32ef8c1c7ecead3; P1 0x1a057f8ab3b43f4da08853671220862707d9f3acef81cac64b3814fe6ec01c55037eae281f1dc577e4728518cb54386d40e404dfe954823a39c008acffeb0a3301 0x4c91155e84ace356430da466f3bdcb48912a0bd761798ad987d68811bff302bf50fb729a904f69906638ca4c4dcd39fb6e10b85c460b307c483a3d35ebb45ca4c9; P1 0x16e676e955a1977ed08de89e1348b125e71d08a7258a7c93096cbcda9ff8a5fecefdf1d3752502210d90b727f0195a0946ac22c0325f15aea36c46cf0434bfeea7 0x157fae23b73fdcde02d724cc4a12e9a9f667dbf274ad3febef4fe3b15f7884e6c97f5205e0b76a93b045a905e89092863f437726f2a06f6f11e36b4d4136593abc3; P0 0xe719200cfa6ed7ffcf55e28fcad7c9495e7b79c883f03673475b5a87db98b36add4c4ac8c4f96e5ca419f1743bb1771ff52bd9622f07798802bc04767d7e3c78a2 0x15e4005943037f5b74fc9a52d03ec100da94e4b83c135edf09f588615e28de58b0c1976bf813775a09246cb70894346da1673551d471af7bf829af753655e8090d7; P0 0xef998fa1ff081fc3099ac8f606af3c590fbd37117177534c42743b4b64702d83f39c603db0ac60723e1393666b63a3b22ece8b61e453bbe248c16d57eeb9ed67ad 0x5e4e593358a3118ab6c43037c8260003c13c9710aaf8c7fcaa4aa574ad2c54a2590bba2152d769bab15da19eea79fe24df0cfcad41a00ecb26747711a21c425b7c; P1 0x22bda17c2f76822e609b673e4a2b34fa4c62cdc008946221f4aea65ca705368e479a0f75f81def35815220d4a7e8bd772c97041b51ed7be425cb34b27cafecc582 0x1007372cf31e41c0743672ee9c32b133ec73be7c55bc2e1f2b0461732612e911f72e5ab88beeaa6e97aafb38df7f64251fb8458cdecb5aba5a52b46064c56590e8e; P0 0x80738cd75eb61d904b74eb25a5685ae09b366d0606d3eb53b446f5a59d5d2a95f9b066a24ba588dd481acf33966937c35585c7f80da86061384fe5b360aec6dce2 0xc8fb95a7b70729768cf4308796bf257d1cca4d21ce5cfaae320b6def36f98faedf7b02cb6a8b929ae850e478b01a64e7ffe8973d98405ba0f62fdbdf4e60d9cad2; P1 0x9dca1114dc58c1c32f2d48e5f5396e91268cc94d173aebf56f6523dc89502494425ff3ca8c2e18c5ddecef3097f065d6a8eca2ed373bb1c16a540c94e9cf606822 0x402cbb25d4dace0360522539a4c547492aa2d9882bb7a614cdd824b7b522d8973bce10ab9d781b878ec53b8f91ccb9eadc8e5a0d7fbb1b3f905b50ff75f4e73756; P1 0x10166563c83edcc76285cac49365c97566ca4d0c2609a7d3e361ce89ba4c8a1a4f5588a9ccb1a9dad98fd056196a63c545ac7f2f76568ec598d7d74202fd57b69d 0x1fc0cd5f307bf4f14030c528f2aa06ab478771645a83e42c9c04fe3c961de5e0f53f13d7ad5962b66c0b22315bc3f8dd2847e8f8a7e4e736f02fd9bdc3a7916243; P1 0x3f042f1c148564d62e4fca32a69d4339937ffbd0b5d3d2d7cfb6679d765e7e15b92010c4461112879661ce3681b7011b6c42cfd433086c3b0c5b3a1df0c34f5f6 0x1429a00d1bf469f692aafadb44bc0e41ad56cdcf01aca5f3d7c62bac0eb175c269321335cad061ddcee07df2030d73fb3843bb0e4f81c5e2e26a0bd18557d79fd6c; P1 0x19687c6b4a18875d63a240b68bccf4dc9eec6ea00f3f7b9626708ca8713925e0c1817455f8900ede135ee9c660a8e6a149232f2bd90f75b9b8aba4a2d3ff9641c59 0x15fd5cc5a16effc4232074381823988218e617a19db8e280b5c1fb89d430a4af5677ccbe8f7cfb829c8fc7bac2177944d3db77f3461c90d3a3382df029c89dd87ff; P1 0x1e38bf8ecbbeff559e82c29ce9613626a3e4f161944c7bd13a4e5e64cdc82e7c77694c0b78036aa9c914c237e19dccdcbb4c52c3bf9e09b18658188bbf0ac90624f 0x3f20d5ea245338deca2720a9618ea1473afb023ebfeec6d9e396326489f8523f3663c590bdb71d3e1925773d539e460e75d9efbefa213b15e4372e07b151478f3b; P0 0x7c896bfb594c0b26490014b65193cf51e81c705b99aac6bc5bf0fbaa39a3846cbaba6759bd1674808c584b90c2d0e714e395edd2cb20f1a1629f6a6f9ac637c45 0x1bc69d2dd1853a4c41561f7a378a91723caa28673bd98059b49aadf60aa9f95f9a7e80e26f19e260f4c945a90625c558c83921c50f5dc1f6b9ddd3b4ddfe8baa52c; P0 0x181bf9f96c9b7c980c808aa9b6ca2a95c2fef3b7ae865099cfec5767acad5d81e79cfa258484c6fddf0b8570d76685b42d79915a6c4866ae79c59f9cae6093c38cf 0x1a52c80a744edc482150c9b8e719b1086efbe18057bc242ff0f99fdc03b9e972e8849771a92bab53499ce74d91ab0206115654e0dbf7d5abef347604dcea8eae449; P1 0x2b4eb66e2a2dd6c482b3a57f69781956d2a940ace9b7c7d01519f1e8dfe2cbeb13c1efee4ae56c9fe0273020795ab3f847002b1180803a99006bce1354d757a0a0c 0x159bbc8e2a349ff168acc2f4b9d2c5a8478b0e81ed4aa9503f9762d32fbe959bce19fc3a13f3ad6105454c619b32d86e69c63265394b74af5b651382fdc16352f36; P0 0xe975d698fa6d73b6e13505569725f4842535cd8b2c969bcc0c342711c8e0665128d2ee2e433da0e88ddedb8375685ed9d68ad0b991baac9f46232ff5477c3825ce 0x1b4af860e3b1aff68045b0622d6cffe692654d9c7ecd1cfc53a66d2319232afd9f7f3d6861b086c32e8ef7c5f9dc6e29a56c5680bd74d110182dae0f21a9d431326; P1 0x2e8e658f906fbab8e470649dba5aa89e769c233c741c18467a8fc231037ab3791b28147737f7e1535137b179ef06843caf7770d64d69497ebf713f87a7d59ce0e1b 0x1c74cd3f3b5237576e9f5b7d01dbd4c08890283067fded8cfa102df2196102e4586c5622449eba7417d36b7afbaeb2504e240e492781876a03f820f90d83ffc4855; P1 0x329c2307ad6133d3447608bb99e03eafda81d6410a1b325a48e437f1ce18be1b862c45ecbefca6c26ce1890ca8f0e23717fb28a00c4d2c25dac5cb65fb3793785bd 0x11ef8f5f29c865b544f2b485d11e221cd6681b8e3acf9899bb686d7541df0bf3363fe0df337a14adc2e804cc00e7c9be90cff164e7510a8fdc04a56709c620650cd; P0 0xa0d89bd3c40adef36663152695f9c5b38a659d580af3dc0186a1fa26121fe6ed0f7607a0c48f01ac5030702f13ea2678ebbef46afd72072fbb0c3b6bc86cdc4eea 0x134e859c38467e38987d7fc6ee74a298bddafc86c6d973a315c7a5fb4e86309993d6994cf70a1424ba2dad9763b55695eafe0be0314cd1f78d5d0487cfb275a95ef; P0 0xba5ff570a439bf99478dbfd61e8e4a8a7ec025fae85e5523acf5dfba029e286f55d185b402351985ad66d0cd39b3a0cce24082e469966fa45acbbf07b4293d9752 0x157a19e01f056172af1494d79b72ef108cad157386da5865a51e848d86e8b23bb91bea15a7229ebb728aa9e7becd8cf432126c109c94d19ff54c6ee5d2a87a5bb3f; P1 0x1cd427b7151fd630c3d7ca460118959159d144aa652c28e2fb36be7aa05f4d0acf2d46cc4c2f2dfcd437de7935c5bc95ef6943619862dbbb9dd2c6791fa81d946b9 0x70ef7306477b7f370db31215f4c17c94003952c589419b2435aca7967ca2973d961fefa60a38cf11d941d9e19bfce51a81e00398aa9b18ec4975a4dd1b029a7281; P1 0x31d2649d77f42c4816d36d3689850abf8a05230061ea732b5801bbb294d343d89d3dc2aa6e4f388d7ad69290d0e06038ee1e20a1cddbdc14b6759d2351dbbeb949 0x1c4a31c7c581f23949c56f07d8ccd3754b97578267806eacf38599a4ed9c140575b6e0d1f643f189f387436f19cb4bf78eff362e90848256fdb4f061a6bd9c94271; P0 0x1902832423058ce7c31cd3f2df02b0247345563461f9ca10f55feffab38d5b56a4ee152cc9436f2e46a2e62463c66ad11378aaa758e3fac7221485d36dec8fb8996 0x12eb1167c2ea051fdbb4e7493bdd15c461676a5e89ab7f23d83acf4472b1f111e676682b2c041292145ec22b6b141b13e47a85be322fd1d93ec8289173974a079b; P1 0x165e64b8d17b44f64c8af29667eeda4f10d60929faa75dc2df7c35561a408f3f8f6e5ea647fcfb91c623358308bdbaa0389126f8277821e723aef4276ee91f53c 0x50879cc8fe323fdebc6ed396c9836c1d3ddeec3d8a7be76830992edeca9545f8233ada357441846310861bd30e25ea24def976e0acccf9d0a38200630a779ea096; P0 0xcaa84ea2d708a42fdb981b4f370fb8a8e3a679834bd1601a23f54b65fd75388b98dae9fcb6cbb703f0fdd31c279d189f840d24416c2aa0a842deba8103b6e4a10 0x137b8582f8c032fd77e81619c14ebcd006f76674c5f5b1bf229867a94ab64991a05efda7f314d3d0f7b577426f68e4e3f203f2d9b43a716848c5d899591a294fd54; P1 0x17b916b0268e9bbe941c7699ccc2b7463c92ec30c8c585858152b5fd935fc54f53c4f85483efe20ab2c16e2b759f0ff5689ff98da812cf283561037063630bb9385 0xcbec6538268ca939e66a77d38079701f74d3c4691c283dc97f9e901a10385ae3d207a7fb2172cdf76696bca6b1d3541ec580db19822bc6eb6b55bba9dad14e2373; P1 0xa270c2d1d4af8275b70d7701e46fe6f77b5bc9660d5fa0ca8416c892a99ff72aa17234783bd6b8706e9d34bf2b72dbd17f97992370287e1f1b93b92788b4fe07d2 0x18fa266a0961e8b53aabea5e34ac0c57bde43fd0b579744ac9fa4c35fd07054df857642989ec6d17da92bad703924bd122adc730422bca24dcbd407a118a0cfcf0; P0 0x137edd177502ac8a9bcaf82fa685bb28cc63c3020b491eb1fb3b7b0ba95b6f344350a63a053586ff73769714ea098db4ba5141dabb199876dbd05b36831a53d89 0x10f2b4cec5423e446f0c4e866a7f2df637e2c9e9dabc81127dc09ddead0998536c2eff7c4ff22e3906fec4b7b65519cd253aa3df9c85e706648054dbe1f1698b32f; P1 0x11f3cb42f48a56d7d6ef45ac7040f906bc35edaae3ceb4e0212a1f30b41fa4dc9d39f886088429e890ec4af9709bf9daa27199ece7adc24b5e14fd4434e30235243 0x15e9beefde717524de80347a7565eaf3055411342eb4dc4e7af8ca5b74c6cc8b9eff7d525dabfca156489fc163abfbfd2287c93ae1b4aa0e20c4f558bcd436d74e7; P1 0x1e02ec0798a76b0cca27c8df181afdf476e9ff69b3123158ee2134fa1eabcc81ff5307b33e63065f1520b2e9c72453733d4e69b9a184eda69caf80f277055ae32c6 0xace19ef3dc63c237e1115f7738a4e1f7dd33bcdfcfd4591def4bc5320a032ba3e61c6a24ac0542462c81170012a4fd641c61ea01ff7310cc4c2336f16b07eb2fec; P1 0x74bff4707b8160adc384456891e83490e67bc252f84955878f65977e80913990caacbdb0063cb4c53b46193011e3c14185e892597a014cf72c9b1c9b0492b66dfc 0xd119cc146ee6c17f1e51ee3fb7dc51130f128f017003d27b7d297b7205c898f8a7e1299d1353588feca37b0967c76474bd0adfeed64ac1a4dbde5987bba200b544; P1 0xaacb21d2dbc30364a2d1a57d63e43b324e95c430752d7d32e84072b2a5bb9be63e5872dc3a79cc081696db074e4c2e140185b36fd537ab5e800ea05a4f6b3d949d 0x1093594a3f7c868db029f4809e95dbe7645b9116a82f117f8b46597ffbbf72d852882dfa89012d65162d21a6b159411f90e672c0fe56caf5cd3fe78aecade22e69b; P1 0x112bff8f2592f81960863f2407b960af7e1cf06b87bb7a55a258c7c5c688eb107f6756064f39426945550f2a9a2fc42fc8cf28c51016ccd76cab83f3acd55c1b472 0x1947b2fadf1413570f2817f999197e8913773db40c70f66d6dcd8362245db6e3a41b497db750b2b5ab0a8d9d0e0b986c5ca914d87534d6fd03ead70f6fe1091e3b0; P1 0x27f1509c3db7cfa1bbf0f4e1b781525490740e268a09f99127c41b626bf8fe8b8911faba17ae39e2ce801604e3d4a520a0a1dd6f53389062f5816c236c804c791c2 0x106b06f4b3a81ff7cc48bb219e54edfd378b6a2d84229f1504988e3c81ab613978f576ab15f3d8334b220a39a6b2a3deec2fae89e29f464608a9ee5ada8b5f4a2e; P1 0x10d8d9d673394dc8abef53ff6370cbc79e53784cee44e20c9549357ccd9f94b3fac07f1a3fee9a14ca79ce5d2586f64e9f5d9242e55febdcd88c981981a86b276 0x1ebd197d59f8b8555dc094c027f6b90d47ab590ea913098eb44813dbb8ae18653ab943265105db688692131eb42a7015af13108afa24846f39a93043a6c302e262; P1 0x3b0dda806b6dd67c08922b6dd8800eb9ba0c38a711dde6b81795ca46a28d27ff51bb5e9ce458ce87f630becf21b217d02b059a8f5237624ccfb3e26c11eb5d20e 0x1a986fd198e290ac845a26116039e443f1febc9fd595e56eeb963310006b08b8d468b49e6cdfdd5c0c9b62103c5f53d4b7666760399dee7fd61b5956fd63ff0808a; P1 0x2c3517b8ccb009e4e73238fa3ea867591a72f7f59bc23f5fe96471ae18411e8dd6cdc28956e0262ef6d7e6057755aac3ff5a2e382bf65ffb933ead7a94d9ad17980 0xa3f46159eed82ca5997229c76d3d15da77ba8943a4fa502a82dce150d44ab02a9fcdf734b763d17a9dd3440d7aba7b6125fd70fc2ae9428323060d230205c14f48; P0 0x34808ea11f4dedc3e0078ae80b6d60f5e98d421a76a6f27a33a5abbc27b1eff2095be2b5c940da121764eb804170af461f26cef75c5afa159010a4d5872c9e98e1 0x1ddbf3dec1983243a782cce74c04ea6e43f2ecc49c708b516b75e7d52714ed9fca91a39e1134cee1f4dbbd1632a92e694d74f013103d4c35df3e2aa645c0b9a4057; P0 0x1bdc91dcfa62d924cbf57eac7cc264bc48435e0c5247069f80553b4cf1b79e5b1e2ae5f66e40f6a7f76c6d4b4398436a7eedc4ee9c1ba1bec00892c7e043971b8bd 0x9d0e12439ac24b4db036b2c661c20388d873849415d7338296d5d81b9e248ae2d877a860ec18fb8be27c72c55b2445847a743f5ccfe26cb1cd909f04c10b564aec; P1 0x605a432cec84d13b387b0ac47f47a1f5d9bf15bed9a8676d52c92d790766bced0e4d33c5932a4674ac320ae9f74841a8dc286c89f3ffbcd88d7f51e5410f9a052e 0x3ead3814d664888ada5213e053e8790e4933de421b173caf7afa9d9caa966179107748fd5444f5e5e4d9bd8855742aa314fe10d9332c9b26a97a072157827a6c82; P1 0xf585c5ef04b9581fc692588a5aadf3b3d631d3344c5de66f20d8130219208ce2ecc58c59aca8bff1797d5b7f2124b2349078c848a146a31fa39f28773dfe05e1a 0x1a5e94bcb7b47cb8ff1cb1474b96f14f4bcbf536e98cbb058bfafb1207402e40a5dffee722162835a2034636aa6c52206750bba095bd93e531a3d2af84370766d1e; P0 0x15bac93f32928b41866e6aa543d3f4dcdf0b087a337457d4cb2330d09acfdce58520cd806910785f5993ecb864a4986a3a414971e376407eed236cd66729803acd7 0xa17abec01c52d546f4d13b1b3c52d7d10f26baa29eb04f7a59e905a0546e7d53de7311c217c6dee89744009b8e5fa75b023dd468c7dcc039c8b3096ea8a87d7ff5; P0 0x32edcf64006e74b5fdc3fd879f0e456b743d907d7b4237061118f5c83168dc8ec5e553db19e0c10f1d589cf62a4ce055edded36a9b0ca74ed721b6de61e23633c7 0x1a55548acd58ecd92762f375bfc1892b16b8959caabf0f48a57b6ff2529f8b581360ab1c09ba206acc0cfb2449f0ef04ee1c9a5f3ffad81e8094450e3b89a8d727a; P0 0x15ab8ceb8e6e796e41cd3ac3b8c86f7e453d6559b850947b2561625b93321c9caae0665d7e5c97b5659211c226ef05aa0310d34ad94ea37d60745009d2769e60c46 0x10782de4478d4aa1af5d3434a3b3ca73dbf3bed79fe5769e8ace3a4eb00c07d597a692cc84b77a77f8a5c4378a6ab509ca4c0d1545487eab40a0fce8a072a631bae; P0 0x879f13cb976540b0b4c177d1a91826dbef5e49b575d01eae34ef486040233012c03010d74086f56756517679a0a6053f486093f7e9e3d313d445c319a7215350f1 0x4c8380a43458c20475b503e4a77368f2e6caef43a0ecfc9484ffc9fdd889063d12e2656420953aa5afdf419dcdc3841f56bdf1b3b2229e61da97e058c2964e2dcb; P0 0xb6f2bf733e371da8a72954aac9761acb2acda1e13f4c8bc3904a3a11b502546a6727e4e0491ae3febc610082dd2dc708d1ef3e0b08ced2efc38de626b6b7c3e64 0x8ac7694b40ee6a12fa9d4557052286c27145ba56be31c23943f7bc35f818443a54b0a566ff37c8a66ec346471c43411185a70df1831dc60b7fc34f93363a47bd75; P0 0x259dcc6d0027673407707d852f33c81aad38f521fce671bbd19dffa8e3fa1db6e87b57706ad0caf40bda7332be0db0ace61644f76f3376d2f4d68610ce66d88c2f 0x11d57c7da77f40dddf7ff9285c4335e3849b9c3e6229a4106655a2a99659050862d4052692174fd5c223d90fd49cbccda7f1e095df0bea81735bdad7c9a2974add2; P0 0x9f06488af0cc27d7cc3c8f8df7a3f14d91159a9b98bb710f8c77ba9c29a0999de58e880aafbc347e1b836a5d520a656156584ed1f5efb8d8961214d3bcb1d8c7be 0x1d6573b27ba183649e2e84b434457e52a67350097266fedc8db0247a3e97bac347f3968e2da64a66711800d01359b7de84c935155ff332b1e31c649139602204296; P0 0x1b012357790fe5cdecb897c42f99d3d96ecbc788498debb90fe573cb1859b22e22c70a57628bdaac715e0e3c3ded281f2a3404b341fbb374ff202d070eb8337f3e6 0xd2973c03a2a638d5472544eb95cf618271c6a542d82fc45528e8c4702ac3cd12de7d8b702e637c8afc72aa3e50bc6a947d72063033b086db988577502f64444ce; P0 0x569e3be6e89a24d00b19969f5111395e8a17e0b8d32a9eb38575186868f1de65f6b4621123e55be4eb2715677d3fda92fa8d23f427fe39669f1396d4eb96f20a 0x1747117d1fc5498525faa154b9b54fa1ee6354628471817b2162fad87ac63c95dce055dc035267edfbc8dfb9f5a040d309b398300816708eb813735a0dcace3ab6a; P1 0x21dd8df304eee04f30cf4ed91c8c000f1bb7058a24032513c6c1a9fa7d056f74c85c4ea6cf9167899af8fbc6e329c63488bf332c9fa41854a3fcc1e1bdccdae9761 0x1c5ccbbfc88835cb2dfe4cdfe439399121178ffb022e2b32dbfba88da66372ae34a896236498f0b5fdfc4593846187cf7c1b186d3ad2e97e0b7f0fa7c974508595f; P0 0x192371a83efd2affcdf261f6aa3282f9b0f75b8083f54d05a10b4a11eea8ed788c26a861d3450a1521bf23d2f59a2f0e0c10f0471be74d4547fc3a9952d49070e62 0x19d387d783c13acacdf3d021e10923f86f576774f74b90607d6e903a002db8fc8a0f0fbf1f5842e22070c85ad67454c4331b04f9eb177b009c2727c5139f0d567cf; P1 0x29aff514d13f066e4eb18720ceaa8f616b9ea95683f255bbf9a854a0b0114c585ceb8d9ed806a154934efe22bc304b1eec89604c24c3579e701a67005aebb15aa7f 0x2e481cba3234e007da1a2759f149aabcb068bbe5e72a5c56f9d0fbd0ff92cec6ea676ded4dc5e3f6f7cd2895652cd8fc344681b9f2825ab59e45cfaf05cbf7d84b; P0 0x42eff518b004054b33e0533fa2dcf18906a9359f9aadac0cc120c300f8da45debd3f6eca286d0f2065fe04108660cbf7bd270219a889a08ea0590b64b5c98a850 0x1791459731ee1515c05393bf0085cb3d9d669b343ea766fe009138159d7c8ef778824a4d9fa882f52f69d4e484b8aca5a8884dd78ccd07d0821fd1282fc04db7b29; P0 0x115b678899518da09953f06954108865aa17a47ae95d333acb00705afe3bb3adea1f687340973cf3d28c9d719e98da6be99c1ff72ccc434680f67fc7fbdf78d0cc9 0x10a47d4b7355968bf5ab7a2160bb08516180e610d103eecc4cb848a5f296c485c472fe55c2ec897cf6bc362322f4d1dcb7a7a75061d409ebad0cbadc8b5c97a7580; P1 0x114f95a34693d58bf2918c31ecafcb4e65510b7045f861fdb70238a2de9f1fdd26e3c2ef6cc4cfc1d010e5cd5d9ef3f49554e9db302c8ac93448e41af67d99b3b1d 0xc78425725e07349c42a0dc4a26d14bd456ee9dba74f8ce62abe6158690d42e1bcaf44d9dc6799663c12952b2a45fcb203a1a95f5c09bd8f9e436d571b0c2f817fb; P0 0x4dbf5b3738cd36bf93720ed17c06570141f2a6bcd8ed3a9c9f5adad202992b3a7dfac44429727c706f4b63c399211af6a4d7835cee32de5db21c7395e0f728d685 0x90531c10d12e21ea2bbe4811a55eff4eb8b135aa5bcf49feb3af1b4ac4e6ec23eb9f5f38e213d45aba4f95e2b694987f7d1d8424c0c172fcd2cbd9f56bfe3b916c; P0 0x28aecd4710a79c772b95207f1e8dcc5eaa694989318363722d23b6cbb260c2c5bf41146239f60f04a6245866c125b31d76770516d5ae2a45c7bd16fc2bc465178d 0x1b0b73a8bb457bb9f42065559701c6cdd0c273eb9b0b2aed185457bf583740a500062a9915bc421028e238f518fb4850b957c0066fbb9adc1d746c4ce7b41ca9d9b; P0 0x16db5745e20e3c44e69ed95f0bb32a1eb35a32a689c81fcc89aba490952c04979dc7d33f63ed980996377042ec34a4463c63b7ec861b41cfae2884fe6acd5e1968b 0x11119d4646a46a35289ee80045025a188836c1978aef9e9e274f577c6c01699fee3333c7e63579b9daecc432c535cb06eba79b846f004b83946fa693ad0827ee4f6; P1 0x123581999567de18a221c7d4b0db238af98c22825a2854dd5b52dfcf72758c8c02066c3b16b12f52ab7533868118768ad4dc3aec8c46ef3f6b57e75b7e389245f82 0x18cff962856c6aa83645e50f3b420ec0694327d1aa8e6d6ae84d6b1a3339e52b4d7f244feee46f22bccb6d2d550462aa145d402a260860778443a363c847fd81536; P1 0x267a7b7b948e6cb5a3b9715c19b5efc0f87ddff7eba3da92b90470a7b63e55ca387b966bfb5d4c8c32760541e7fc4bde30909ee54e14553bc1dc26967e9dfc83673 0x136968e6b9e229abe6eea3b04e1cc99f637d744ef50450c454a4e280ee4c15b1bfedaa504e1366add5b28c6b15bf907b9532841459817b638e66c59a27ea24cf8bd; P1 0x178d0f977d854affe82109b5a16e32364ce60c954291f9930b03ef6a00ac454ff329a0bde7c87b9d9adc4dcf3a87eb8a861f1736e13646d79ebbf42dbe49ebd8046 0x195a4d7d10037fd271850d3a8de6d1c359c1b1464ca0ddc24b436a286aa3227f99fcf40c69728d61e3a369eed58696ad95ca432d4813c7bc439c15af5a45bb89c9c; P1 0x282c2fd00846a27b973a9f62fb8c435275802e62599343e51793e94c915eada789259c4dcc8fae8c432d55a9820bd76de81359ad16a8a880bc79f73b7966639415d 0x4429e8767871f5a5783f2d22bc76e017354222581c975f7fcef0db7c534310c6a67210ff422053a4f4ca9b979954845301c26ced80ba37bbe75758e606e1395ddb; P0 0x913252d9c83081132ebbddd16e8cdf86f924fe653795722e8c65c0c5f2192b02fefdcfed919890a6a577049c512f4d46e8c8521e2d7ecf250237380d881f144eb 0x1cc19f96d1ac7e30fb032998174fffa7f594d9e6c11edca06188444d48101dc76290ae765acf118016e59daf1c2851e7aeda898915d2dea0d7d5e428e60e51fa116; P1 0x33aed5b02c292ffa362ff57dbad085d58fb8c833dabacab439fe7af781a75615d4cb2a644ff89c1aa946ba35ab195e8f45537faeaf8da83266d479e84d050aba91e 0xfbe4272adfdab21c9b26cc0694c3b4cdf0549b50b6cc949381426d0e790b15120ed3d23cd99477787c6d8849ad703cf9000a755971e7087ebe01f27682a8b8b1ba; P1 0xf7d93023dd53ae3434f856fab947551d8a082da227b2a02fdafb85a2d01327b6b2529b562032867ad1dfc21bbc422b02cd1113c79cd2b8aab1e9cb98029273847e 0xd50b71a4f307be99b99707280dbada9d21f6f2e54848fc47144bff3e059d1fcce8d57cd896d41b638a9a74c72212d8790ab33852c087b49c135d9f65778e2495da; P1 0xb14c0b9f730aceab4ef2e3c432c20eecca5fcbab4f0bfdf03f25c87a1f63cec8d3934d60ac445c604437dd05689aa22b5d4464a444e326436fbeb1f205143021a4 0x18efd6d30c0c265e1fed52ede008db4595932363691af811360e61326b5b52fa22fa1d6609cf70cecf46df39563da0725c3bde8588f4a527dfc87d0876ae759bc84; P0 0x136ec7d324c26013b3ceeb1a5cbd93849adad69e35fc7920398eec195938e98472a405f82dd0ee0a4504c71e7ceda5d6e8717915c2b1b2f30e3c88dc36c7599e5d3 0x1d7bf09a64c615d937216a8af16afb73bcb90152e37b9b3d74efc19c9ae752dc26930bae002bcd098f9d0012b5991d8a3a9acab6ed4c85720516c3e81a9cd42a3a5; P0 0x1b2a84208a9c8ae8216bba62c8fd5f01fd94f35469f75c6fca757a0cb2af2ec0e25a48a73edef4010c066148abdaf75ddcb945868bdbd98d0596e5353ce04a9c3d9 0x6a561a58117ba4648a2ec9d759818acb8e336fd07602c3d0f8bfc5385169ae1f397a4948bc3967c11b52683fe2e73d153b850af54a492f03af830c79b9d0bee1b8; P0 0x1615b563522e12876cc957a99840f241362d19fdce359b5a5567f1b204ba189bbc9a9489c337e7f537550a7c58f4da6c414b639ae08546e442d00202ac74f3e619 0x9561feb533d309f4c03de083732482ca5a4e4a4b6b5ec5b3cacddcf74af1845b780c50963476ea3d273603f6fcc377d00b59ea9d5aa7e7679d5bbe2b2f338195f; P0 0x2b959c00f888814ec6f69de05b8d609fe42640ecaf6ff97efc13ce6824fc178f28885cd311edd49f47ea0a9e11e293fd33281ef209c9d12471e3556785be5ce5 0xb12af1e9ce62f2388beff10dbb3565460cdccde7d701822a9d501f643d60dd240cb94b45037c7a8f84af117850cb8e7b2f39ac3f2d9b9cb7d9e5ea75975f00f934; P1 0x7a9c69b994b697894e9e7c89edb229bf39a8eb6352144d9df4881055fb9da3a16903ace40cc2786887eff7dfd2077281059875849bc1694c938469485c45d4ef38 0x1954161d216a0509958c4b25e32af98e5c373078d9c63f815fbaea5da6afff58b5f57fceea3e4745114fcaf83333327ec7620f8169835dd9b738390ef7266fe1c28; P0 0x140c3f81ac6d3cefe5f6ae9ad433329e21570ce988666abcc5ab7c173390d9a2e3698b655df1150cd6864d4f336c9cbc01cd49c3d1143418c95beba547cc65f9157 0x184d3d98e4d46d9a2420c93b09ad17938cc1c2ad81b838ccebd0d3932c8ef904076ada6fc0f82c47b635e7b624b1e6151f693d0c7e56e01f283324cc8ff624eae31; P0 0x127496d63d9da5a4d44489b765e1dcad76da40cc953ca8e77267bba28c34333dc821b1ba1813792ce3f7e56d59b8a022fd01a768548b95bb6051ddaea2de77c23d3 0x16c0a066b275ac0c9d4e50acaa4d094ec29d531c7b754e62176e3c03175f6e2336bb67f334e8a1787ebf6a1e060c0a922f6ab0296d4ecc9f3a62dcac5f425def6f6; P1 0x205ac82a538725a0732235e316e7565b7ac5b99dd1531fc6218e8bce66844a6002b58b940de57f8fdc8fa90604c7bb9ae7e73e6d31d9728b278fcf48ea8f5c2b481 0x1c7e81dc98b7c0d251a05fd46091fea52a48a8538db5978bfe2a677084f40c92e3576bc8573186985593a17cb39d864d8b7070762f698a116e65e9ac0257a38ac3f; P1 0x32beaec586e970fd8258773b5430a13b297be59d20f67fde01dc0e15faf3639a4a2d0a94da31d08ba4ebce3af8146f9ae79d792dcfd04f61ee6f101ccff16ad185e 0xf6667b8e7ef9a2c9dac05a042c5efa218c5d73af283ec12e317600f422c77c04b756a18bfbd8ec4be98e86f59ea6466bf13b79003f72228c9018dce59babedbb4; P0 0x76948f3e469b988f53ce9f0c06015f3e1875e5370a326f002d461a841ccfdb872fd6021d2091e4c875b2c51e0cbb7b1f55aaee379964cf808cb344ce7ee25d24 0x15ef27f6e3c2420578c1ed0dccb45b1f40ce9f09da296cd94990360f1c4112eb8eb7d738b8866e488a9d4581219054936d578a26b00ec5ad3629cdca563c586204c; P1 0x1e11bfa26984b0be01decc9e3c15d4d541669e2d44d6b9771124ef33483507bc20408bc392dd66927a2664a89111bd546c0158b99abb4b73e041abbf4db122a0df8 0x302e1d9159529218d45be5fac9757b8ec44ba9e08aea583315c57730129b31930588b8ab7e4e43c15067d45c77950b5cc44d06841b2142351e63e4688d0016cf68; P0 0x488a9b29292a89c6a2e35dca16908d9e738be7cd13af653fa0349cab592ff618edb6a7c094fcff3be09b5ce282d01ced745000e4fb8f092fc83c2b1f3ea6fdb7e 0x19b1c6d9fa66397208482f61177f0322214dc494edc0db12aa46cd7a257739e9e48e29e313e650fe67e230d08896684864594b7cfcd8550bac819c002e2fcad6ad2; P0 0x14a1a25936510c22631931c5d39afde1b65157289f538fb91c9d46d624008c68958dbb38d881b0cdbbe2ea9148d34d98a544204ffe0fe113bcdf1dea8f1648f4e1e 0x12770a7227368344e3752da8b6ab1ae513470373d9cd82a7bb075c7a6228440117168e621b0922549a53527770ba140e693649cdb031f4a771e407c2ae64491d36; P1 0x154f4d2c4113d1aeed7e4168a24f80f7e14e5997d192d9203ec69e220d7ec5365de1a33365066eb3e171ed0583eddb8de970b84140606c85a9826f19cfd652cfb 0x10fe710a1d34011528585ba6ab870c2f648a69d7449e33a8d152ca2bdb6a723d60f489ce0833d091e7096192d93a87eb7e4ba520b55257d3323f35841b14839edf5; P0 0x906582e2d130c17fb0586f8bdd91570707f9e68ba46ed50a329007ea6b93ed440d0402338edc84c0cd1b69fe244068dab73d0673d9e9d613a9ccdd7fb05d010782 0x13273ef748f8b18dd6a5ef50a49fce2a1a4f86fa010784e6e5111c4af4d589f5b98491dbb8db0607ab6b4ed61d3547895d22ebb501150bc41ccaefafb81b1e180e7; P1 0x16ed95cf3a9dc5781c83139bdd3682ac981dffc2b91152f5566bb978fefc0000396b17bb4c7abcf3d07435ea74290426ba674d177ad936497247b735c494889f47f 0x148b3c9dd4da045fcdbc0ec060747e451a1880bb1827d42543424bb524a7890e1a3d6b592ca36de7475b2a1725e0733a2bd922abb8335fdd77d7661aaedaec86c6b; P1 0x1a60d338b019284ae9ee362b38c3668cbf656d1068accb1724fae3f5515ab69839cd2249819810ee2064ef04e050768dd1007164d2d2134e31bc04cffce4395697a 0x15fc9c941245e175fa00edbdb3e13bfd4b8d8e13f85e8e62c355fe752b126f2dab3b980c97b782b6e9175579ff6c636bc2b23c4b14fb9ffd033f32d487228108c28; P1 0x1e36af4ee483c7b882ab8b74720ab9b171142bc8b8086bb13c8a0981cdaecb20cbafcba80e6e73cce62276cdca78a4f07e315a53d65addc3310d955f737eebeb028 0x3f140a58b7dd13df936637e3ecec468c76e4aa7199a100f7fd57db371e3d9d194f2f59e1e7acda66c940a0cea370bc4d5ec5a0b7b94b34f769525fe959133bb18; P0 0x7c56f54a4634bb7ab8a25049994903094f59bc57a35914fa15eb5255ab1f66543bdc23ce91ca2a7cc3fbf6d2f2113c9d8ac070c67579812d8daf67c757e3dd3 0x135982a2dcec4c6fa97864d3322e61fcf0f624b946d5a287aa0921d08741c1e58dd9b444c61e302b144f4f3b3bf95f1e8415dcb150de18be59e808b7db3c98d79d5; P1 0x17668b044b27fa21024d79b270bc1a711f63e11fb0a10c2d9c0e2dcc74f3e4f08169be3e41b9cf5d141c441fe8fcbddcc9a9dbd709b02d2e2fee860910bc4a1b3ad 0x1985b5693c74a7449cb59e753f09bc71cbc5f3a24174f5e9b293c2bfbd1b5e06d915a41fe119db19e045b286a0d09298bd60f5717aa7878c60faf38ad187283315d; P0 0x145b1a246daca506732b68d8c0f75fa53ba4b3649541109bd37e416579145df73764ebc20a05217e382f2fdd3d46c99061dc37a1bebfc047c6662aa11232c6335bf 0x7d13fc17a4d098a56d78fe6734bd0add823e0285d622dea2aa0153b327c159d66313464c1f570bff30fc103b75362d5cbcdb5c824db59982e436dafa88216f3c12; P0 0x1e8e42df3d5a5d58f4c9b99964c28f4199cc4d3eef7ea794c75214c9b38b19974ca47c902d1b94af26e959eb385841ba06e2e4d4b12eefa79a381aab85a4f0f1bb 0x1c2d3ec4c5c3d61693e4af4ac94664d6163f8946cef365f962573cb04a4d980fb496ff61d7d9662e2823148419bc88d5c237a4d3f0ba2747b801cd20e4712e6e5b1; P0 0x18cf6dd15ea225c3e51e220e839e91e6824312d4ab5116a06e5d509bb6017aa2ca7037e70aeaea3fbab0766d34b8273ef3f7818a2cc483090d6e1afabc3032f2668 0x1685cd3aefb25cc3197587eaa6940af8e74f4b862a65ba28b6ff18258f56adcef9a8d9be9ebf48d2a07271aa1d18ed830c309479239c61cf21e042d966195b92ab9; P0 0xfda29a827b945d8874d6115eebcb8416d3c457701b3cad9b0ee15c6b64ba7898b2c9ac1f106fae887ad4fc6c3accc4b0c13203223995b463ab97ac7890c376d2c4 0x133deff88b7bec4ea224014dd64d01b788c17be6855499062ada419cb48f8d285277f1cbf5a2f7db2c8ffeba641d9ce35f09f6b894102a487c31ee19613b82140cd; P0 0xb9204d910c71f11c6f8b86ef6eb382365cae55f3fa7d1fca01fd1ca781be9e6b0bb524cb516945e9e8cd089e32513c77cc526aa4e2a74e375454fe3e40c00a844f 0x1d9859a2ae41c393c8a09815125701734b085bfb5a0aa43d6541301246e928170de69c1ce470e8df4dc1a96b8c13f2fdc4377f63787efdfa66e14673f1be8eba162; P0 0x1b5ef7cb6062c793b64303a5faea4280d0254c2b3b7988d71f9546faaace5694e615d07a426f5d58c5aa10a555b0c9b9c19c7e8bb274bfc2eb58d6d3dd4d2cceedc 0xb7d0a24e0f4a0011a1d2414d8686ce9ef500f9309adeaaf0009acbca8f6d8968f5e5a1896b8f581b549974fed6630db9757dc1713787238eaeecd07354fd0613c8; P1 0x83fbf213bf9b87804c19abf9c63d72635708fe0f9df14d92f8f2897fc431dfc23fb688a4978cefde8e0e742d9c2942ae54aebde0c2be1de83ba88412df6dd290d5 0x1141ff464590e0efc21a2dcd1f353be24223ced1cdeb25ecd77ae4dd84d3a66bc43f7437a7bbe7ae01ae4f03f58d202e8b72367c933ea863076c806e62d0d3c4d03; P1 0x129d4eaf579a352cfc81e6ddfdf89b37de1d107630b204c832f289dcdcd535053e635f81f84e0f5fff80b9fdda68fd00140da4c258bfc434991ec607068dfc64dfc 0x41bc0dd285d047351f029dd5cc4e858e2ef15dd552abd7811b6efaa30b3d3817cee6172f58d0d3394387d44b4dfac097af7ed1a8fc763e0c8dc491d1fadd966e36; P1 0x10e1092935e75cc886a72bbc84703b2377283cab375faf8f130877d8a6ef221dcc871f52943b22b52e0a41499f6ac88fe7a2a96c75026a6d2422c93abdd2e6c8c7 0x16a3b636b8b0747b239aa59f623bdd2a55bc32cf227f930e3b770ad74c4f8bd76095840aed446bf03c5d62103b6c8610b5b85f6beed31c0375179e26b7f2621bc9; P0 0x1004601798faf836a1e23854c0a7bb0da31b2a47843435c1d0acff0c6fc71d2905df6a5cc48d4f85f39e3eea9f19ee66cf159e88fcffc9e301b1db057a516071c 0x1f4adb4779998cb1e8e825dbdaa5c0383f71a68f32e922e7f3746a17ff2057e90575cdc8e5fea4b79c25ca76f08c8ba52c92c97fbe6c7135e3c92b427cd7a3ad3d5; P1 0x3d336fed098dad9d0e9d1a72bc0a014828181ec5029e5140d902cb5bb053784a689023429ff76467c45cca3ffc188dca3e009b69e82274a297c545a40a0f58b2ef7 0x916315f52d403910b3b7883d532231108c2a107a3a12b6e198abb87ffa67b1315bd7c439b1f46f43bd19f0869f4417ce7d720d4a48c5c61e1eeb9ccd8a32547bc3; P1 0x52916539bac5e48d3cca83e96580afd3cabcc9002da5f6f3087923d6300c10ea2004b01756ad7fe0f6d6c528c84a316d5d43e7d2d13de4279069593e3ff9924fb9 0xd66ac7d9b0da6e74543e4d08f8f3a0bddadd1f7f3021d47dddec66c4a19e3c74f99b5580440c425ff460209f875020f22f59d37522a4948cdcf089755718d8db91; P1 0xb396b2aa0ff7cf9ed9631ad2baa55808e00a0fa4a1c00b5902d7970115bbdb5fb857431474f6e5bc83414d86ab3f7abd95f0ab289bc29376471b8ec3a4809e44d4 0x1ddcddbc4314b44d3649105b62bca2bfcc908ea65e59306032a5961aa8346dd28267845034ddfdeedb45355e7086c9cc53f52edecd4bbfc81306073c75f672f94ce; P0 0x1bde465416a4959dd25ea3be43ad2b25d3dfaf52511e981f03f99c1de4c42c9f173f27f61b3fd324d5ab4b13dad3815d7b4fd0f3e0f02f0020f79c7da724b35e3a1 0x10be6334e104e53d1d044b383ec58f8162e538573ce19e8f7cd7d4f33a09a8d82e9d65a1e35fc2193e162b2eb1fcb6cf9f3123f4b907e33a9c96686f67e101af11b; P1 0x11859fe051090e1e36b9c192f72c7733bad80fe76a78bddf107048ff11b60b6b300f8c08121cadfaca245731a7035e9e6e77f554217c017ce8281d24ca18e3ea7fb 0x12011dbd28685ec2cc743a27caad9f585d85ed7786466695fb6924b8a44fdb1214a03fb84226e8a8dc2dba709829aca3af632ff437231fec3bb7edbb2981565bddf; P1 0x144282fd89d6510783ac73446d8f56bd4209b930ad958d7cade3dc7cf845d23f1811855dfb44c32fb1a5bdb8af9b7c94f58e9741f7c88d5a9cea83444f54b99c334 0x5070b334b5215cbb9d13beddd0aea7b9169705bb187096fcf28a7a713580c11937d8a5bc7c9b8686a908dcfbcd4b4a28dd9d20db29e0e2b8e3cc02f1590989e3ae; P0 0xca350cf1e630ba691dd01f6b3c3a57cb021b331d375302d2894b2a9033045fe450c63b8419c0efed1b1d06c507a47e37a0a38290c7544825f16ed29ac733a2eee 0x1c0d030c2c43fef2800eb1dc5bf731ccece62b384f9ee674ad17a3edb25a5d32df58c40df9f2f83ad6bd0afb5bdd50f49ea510c2c3f3feef8e3967647fddd496be6; P1 0x312d953f8f4a84ab6a53fd56ae57178aab73beb843dda411ddd90675437692787f1078b57d1249f43c71aa4ec32b599e7e65f14203ad5a3074d7c4d1d64529e7ee0 0x122aa812e95cd945f320f2964aa7f063261c7b4e5122da27acb068b46d07ffeb236867f94fdbea42e6a2318593f17bd730c661c8bda39c71dc25b3d5456332a2f68; P0 0xa5035f1eaf3a5a520c7586310bef4b3f6e77a5a56a4529de8dbfaf1ebee57ccd7a9ecad3a80bdadcfece80871775264348fe5c6db6f1a93b10a16eb7cf7361801f 0x14d59e836afe14dded20c223b4a599301852898eb6dea7930da6dbb70f757ae95bec39937fcf95533f3cf67401550444aff9d46ea8555361b55945cccd24ca5bd29; P1 0x1b21305b18e3999b4dc6822f5445a3eed659114c86492d5182fdacfd5f0524a80dc1b7ced816ec13c99b14cd76661a4e97ba02735f41b56e26a4e2b6786d8746c02 0x1b7fe599daefc746d186578341afbc92422fa88dc35571a06921634285571efe8f1aedede0c840e98045ebfea15f527d555810abaf49d0194a17d454979c868d10; P1 0x2f43a5410c26c1910d45f3b9d6edfc5ee774aa9e60c606b564d32569ebbb7f69491002aaa6d5e8403af8bc50b19291cbc3916360faa499663f3ddc19cd4844dea 0x2ac55b436fa1e95f9f6448141caedb7f6a91bb11412af5330bec4fa7a1e3f46b2baff2058e443c2aaf0bfa2e808578c3242a427cfe76f72a58183e710138af1cc6; P1 0x7255a17b6f3f2e548d02a248d58328f49b0da5e7edcc6fe041af6a8475adc0c581ef8b037f2bc48b2ca3245551d9a50d31f3b2efb1b0a5c750d6082a665da67f0 0xd130ffcfafb31710a3f9acfe0237ba3d4f3d19d192c6489eeae65faea43c3b6ef212b7ef5e7f89fa5492435ba0da31537caa39cb416f958143d9fae16d62186ad8; P0 0x557885890531dbab1b11fa3f1b682333c28ba14adf6c25be21c42ad2cfd45a0add1498f802068cfae139575360c3d9cf36676a9bb4cd3bb9318b81fd5c5ac94980 0x17480f37fa436054890d7b0efc5e458128af5cf75d623af7ab2a8f0367b5d3bf272f128beb522cd003c25a4b016a8d3215c7e0a1f849d247c31284668b22f4e00c0; P0 0x10f03824fae3e6361893cfa87158dd1e7f0861ec102aa89e5356a94d9d2429e4bd2b08a2d551888286537b254598f13fe6f6c27b8250d1b880d378fb7ddc0ff1e31 0x139eacdfcc5bed047d4c88b619f8945772305541eb81784336ac8bd2d3faf7c7125d8591ee7220a1f5f807c44c66666f718ef025f7e851e132cd166683528855c47; P1 0x180f003115364e86deb9fb670023362a4fffb6a1a2df4f5f4f2c21a3df75408c5eb9fd8884a6e7c5ac5599dd610491ba96156c02407d6cda062e2b458d82a80052e 0x1301fc3b22c62d2722be095f8463e46820ceda63e9e7ed012d980e63830eac43b0efee812137e51f029ec3d932f61aa43ba280c788f366de88b9c51d2e2b57c10c4; P0 0xb4a5ba5c12152faf36ca5c56169e009b1e04824f4f3658635b9e983805c667eaa3cb7f5793b3b0933e2255558fdb24cd1f8642b75cf3d3f3853bf909a02bb24638 0x9f5d27572b9e018b1fa9a53f9b164ce26c8ee6d2564aed7a6fedfe947b280f9e5db903eb58a564e79a5977f156110898f8a829d53d1e7f669ad69422dd2606be18; P0 0x319a6c61f1c7d1d860dad1637672447bb2fe83cd6f3a9d91bf15aa6ab20d1d0a6dbc5c827afafd175752b02a5bc6709d42a7a0afc116d298bfce582fdf72bdcbb6 0x1e1d7080226b55445c8123ea7f688d97f3bcb18479a152b74b536a88cec7f5e11e8adf5c23f735ec9709c9a32fb73cebc9a1c5eea65efdd82dd42160b24c43860da; P1 0x38ae9c0b689528db1bcfea125ac9207edc026bbb6d24f1687a5166d81fe03b3909502446527018bdb610d40e050bc21d7f92306e392bdeb3e0df5202fc292bb86c1 0x11d6c69dbcb1613f184057b31a281d8574f08e1f3ddcb521cd11efda2d11442ccdd1d7af3b9f8da23c2c6f1251e704bee55bfc32f809cd84f5fd7a5f2f17395527f; P1 0x13e3a919cdf688c55c8f9dbf94c96d74008370ef643e56d824cc35560af3887f6617a0abf576dce9fb3bbe7802149caf210982556e2dc4313d586abfc489914079b 0x971c36870122c9e8c7e697b786addd0b8774a6a0cb9b25fed4fbf62e72fc593a60a8202220e6ae484bac1b62408cbb684d96b9b3db95ed00f999da1c76cf42658f; P0 0x2c9925b79e3e42bcd34f19c8f07022980e83ee81380f8d53b0c608a0c8595ec901cd35a4b617af4f58a3e9dc2c7c51a9faab48ce6647ee1e044891634f61938b45 0x15810a2c36300c0a997a72988b307a9a6e286bf209a6715164f93805ce42c5312de7591d04d900f8cf5580de2a76f583b6726a55101245ee7ec6b784a232b574c74; P1 0x1ce6cb681d9fa444cca09efd4e7bf5fb0335a8dd4924aff12150ba1b31aaf4f30664c092da499c3c1506e4721ff978cac323f2a570da1cc91a76e208a878709ac1a 0xfa2e8e737fb67229a97ef4c5725a3e7aff15c13641ca2a2d310613eceaa456d0381e64c8072e28bf6602928cbaed0984c44f816552a618908cfb7e3d302518f436; P1 0xf47ef6b116369254ca4c3074963a67d445e6003525cacf9390d2cce4093089f62c7795ac0ab574245eedb4d67bb52a9ce9fd9dc7060f915138866122a192aacd0b 0x2556fe7b33714e8722f3f534dfa40dd1f8b1c1e0f92f574f553e641b3464231f40a6e7dd4594471cb4c0418912bbda362b222423d41f87e40d3cd305c9a8ac7565; P1 0x572431f949e063323f1f771fc7eea84834fc2be2f4722fc095b236fcecd3489eadf0030dad9e5df3f77e9f633df10d4116bcef589957a84277239f78d236db87c 0xbaecfb15f4be94e988e84f86a4243adf7ffd89998de9ff66126e357bcab575d19955ae936afa8647430b613ca7e873f05aa60485cc6c245ca5e5e033e5590f0756; P0 0x443e9c1de7321fcad9641d346b89a30a8e2091a034d44fec9ded266f18bf6e65133a02d718eab000090710ba2154afa01d3d1f18afab5b67a23b89dab6bceda409 0xd9f98124e3e77bfbec1e1ad82e60be6c715808ca5199674bc15523a6c4841d7d90d36c1dc40c4bef57f55ebd718803045670026ac02ee550cb22042fab34e38893; P0 0x5ccc780e82a3fdc03aa7bb0a9c0e9aa7389cdf59baf6aa397b01f99f8282a5761e061e4f253462fb73beb4dd55477d2e79ff4059d82797a3543c599089f18dbccd 0x192d3b50f0fe93ac01489701e31893d768c0c82b48a44afec57aa713ec66d046dbc10b2d45138e4c43aa9223638f918b1d4ee696848690a4ce67793e6eceffacd34; P0 0x13ceec9dba26d822e624393cc73c3cccc1bd06e8e5f9cbb973a6f0551d6b2e258dab30c4dafd4818d6b8fb70577d23c09846db6e5a9bc0f8f36dcdad127c587bbea 0x8f5b0beae481f0e8f0f3c394943b81af65d9d5bc985f542d057057e0acb8b719f965db4fe73868b2e876cee26faa4aa2f43339b45a55d6e52fe725c2a0e9af4f56; P1 0x5046d7b1e4d5a6af3703c76e1456cf56af845a1667890900bacf5267dcd3345e3edefd07e1bab9a57627fef570f6d33ad25baa2709b096405cdd9cddb8cc3e99bb 0x64a4f850ac247166bbc237d70f7e82806b961c61bf04a12c6a5a071a0d1320d92bd0e0fc19dc8d35e0f30387561b8f0ecc6b25f6741d00ce93619064fa0a2bee35; P0 0x13c8a6270f5ab71e1a479b03ac53f48f51cac3117d609e36f7aa86eb3c0ba1b9eaf352759c5167b783043d3c35c055097a23e8ae4465c03077563d747caa76fa47 0x1ea00a926118c1f4c0f251d2404b146146cbecb5814b89ad51a5a2f452152dac5dd5b4139ce0e8d2446f59ab21484b9bd04e883a3fecd6a8288cbce8f9698fa0e7a; P0 0x1d4f343c31577d851b10cd97ddd3deaf223ba1d4b0eddbffb5819fb8edd718e0cfdce081467b7420b69cddd2fd65ecd939863927805800ba0c88bba1e0e5d753435 0x11e0cd52b7bc29d797bf685bbce341edfa0d8a582b7b968c5a3f291743b2e1d585790dca2de5b2d2addd33eb598c7223d907a6215202a7a90ad5b91a7faa4fe0847; P0 0x9fd05678eb0deab76ed00c24e9e81ef84290edf73846908a9a4fc78e109bfc88e2df7ad36d92464227f9649a4e2cbcc888dd044c63188f68f5b7e7a2749cb94408 0x1f8e675e00f2fb571ef74deca14483b2171833f657bdaba2b378594a98b039558a04c6701fc16692aa77177f37ee5a5ffd3a8e6bd3976d64bf54608170a1a51ff69; P1 0x3e3cc3f9a40adb626d7d4bfa75da361217846939dc7846717a8ea3d3646e8089cf9ad1a9d5b42a49803fb0e83a8d42500bb9051ff2c6c1e4300456990657fe523af 0x1c806d1ab0418406628b5062692fa299882f05491ed8415ecf89fdb37eda9fbffc994b882645fe9364fea7223b7e2c418cbaee95b9ac294dc2087236452f84214fb; P0 0x1962c258fdf29a2be83b634d37ff5e957b6aec539d8cd1f9ca76d378a088bcf9a9581d017b721cd8fba7018adc03ef4e8a5a372edafd6cee54cfbe1619f1a615ff3 0x1c7d783be1615144a8dcceb0b37e3355177962cad3bcafaafe3f772f20e48a581ae659b2ade99bd5138f7f40c91b2baf58a251e8831a7f5ea1ee5f12d7b8c14e28e; P0 0x195d7e5de1fca0ea3ba9f535c04390f73b779387d3381c1381baae917b45a9199a74d0172e1e415399436e4449bb8bce72da08f70488e5b6bfd2ff7ca18acd116bb 0x25e2ce289b3869f9b193a3615701c7bc113c56dbc158149bc5f17bbaff5a60337b32aee6c1456e26bb5b1a8dd27142949c70f8a2831768a1b105f5290cda8c2e31; P1 0x59b58886295be7cf47e8a7a9a3d18f875645898db5e8eed7cef369b8dc21284a37b2b83004c3b3535561fddf011c5ecf7c45e889dc761063e48a71d93b74895b3 0x17e55f0b7087b4b8f6b497f2ec680336c0c6bde60c96f9658331adb8d72032567d621105e98bbf7a67d49ccf28b40f3452d0865f10f4bdca5ae4eab19d15ac1b77; P1 0x23b04973bf9334a247fa776ade7d4fd7203790d72765d71fde1ef9a139388401a6f8ec213cba33a239070c90eeb6726a322c2af49b73473f285e99ffbed3a7297 0xe7456435a8cbcea75483e091718fec37d11ce143f4083587bace3371ee60718ab9eaff49179540e0c9e580e36a13330adfb4e739fa9f5130d44b8075701ddb9f53; P0 0x687726d4016361f6f6edfd954942350e18599159f822e8298d78596a0204ad7eb483925f7f261c3eef38e6f6cba2e1685f2d3eb5f7cfb2ff46dbd6ccb41dc23a88 0xcf634314b5250f57a0757e81b8453aab112c4143b785efc3ecf5cd4b9e7afb57c243308e8b55172e4548c2dcfb7d708ab185b81757b203c9c05bf19d9a08b90621; P0 0x5400d67c3844f0fbe3a1e719c6070765a3777e248aaa498ab1fdd539a7fdc7b97f1c0c20e8e86634780088c67647a577cb0224904e495a536cfa31553fdcc55a81 0xf3d6e94dedd96822a2c403ced2d9dd2265aa1e9542f44165e09353935d9204c06829a9fb49622a54715d0bafeb290e9cf8350e5a5f4656474d21bf18c73454fdb8; P1 0xe841b354d47355da8c3c3381915dec92bbc9242e845ede785a82ef6eed3e117762bac94f4afafd8411c95157721659dda2120d8076dcb1025b6cc7619c32b255e1 0x1628b96d74f220cf3769620c3fb59a6a11ef719f340cb6436e579aadd020eb76a87c7cac6d4fc99007943fa1c69f608515b02a3cb638e75a7593210bb63cc617f97; P1 0x1eb0659489d8b209d4f2f12146b0b7aafe0a9218ce01e7885e7da4a6236f394287078d9d6d581c4756dbecb8608afcffd2d2c30f24eb89d058c4d17c4619cd4d7d0 0x1a9def306b48fd0bd4085877e10d37bdf7a10d2ef8239114c665f6b0fd3ab58be489120581a3e336930b902713a04e449d523a2955d5c26a5b0e393c2ab82c17fd2; P1 0x2c4760516a9dc677864d6e329185cfe691a11c91b01036e20396a9e1c284344474bd61937fae853811be0091e02ab91f9857bef45639fcf86ec972b02d100e7bfac 0x914a6e98613e8f64c58a5e5f3667fbf1204b8036f81b158ce33ae0c0d9760ddef8832f25c1b458fbf78311a16410076ca089d3af9e88ec5d8f3ac7a7209c47237c; P0 0x293ab3765f043270383f26240575b51e12a50cbcbde9b7fde8eb105d66be20a3786b5df477482944993ff41fc73e0bae6ca6c20b06ee4835398723d22252b565f7 0x10eb9a09cde3d21b91b106aa6a9d6f96ca416f50cff85db6e79f789ac145f1d0ba5367601d67632b3e5b3d03afd0cd044c9363840cc343ef76c7552481eda761261; P0 0x8f260ab236234eb49c1b279aab06edefce805e6e8f450dbe1328dfbe4e9af93fe343eeeb068c5e8bd5b8563279d5d18b09df718e1629ed5c730481c8fbf76eb85f 0x9ccfea2c4d322ba8d7a487dbb293a8725d2ccb5dd0d2158a1c5e082d7a86d35e7c21be4c05bd5481a75af59fa8a99c2741ad4892aed184c331c4475433100c316a; P0 0x3007072143f780915d1a1301837d39eeadd75c9e8c06231f7164ee0196fbd3baa794db143db6c9e2c89edd552058296f1eace9f4f23f90d805429a207315ddf740 0x1365f5d328943b38a4c157bac70cb5208483dd8c60b7a1dcc2ea8cb016308b7020c3cdf3b9f489536551c721248a42911d0afc117243fed82f519ed734e1c170ea4; P1 0x1784b193cb1df98c74966a4d63d253d9c2fd75dbb5507417327a816a247cda464197adc434fe8d3ebea00ca34e562c1ef33ce2e808c8fc52ca287526a36aaa2328c 0xa79a7c2a56099695ede0c74bd06735bb273e421b06782a1cabff0033276f36f6e63acdf2f574c658fee569eab002f7b550516f320996563980b20c59574e8a3b34; P0 0x36dd759c6db4882d355747d0957102a928f1166465e0d2ec6b93a7e877eb461f80557ea0065c31c8773d5007428787c3a233c812c0fc901c50e3b7059b80c10856 0x1514ab1a84599585721094b30e4bd01d94bc83297ca83d85c4a7c9ecbf98db735e9e281a46ca8588d1f8d9c53a4dfe21b2fc8b9ed00d876892a23a707461ae61f8a; P0 0xde32dec41be80b0af7d9026d0b8d564f6be59c08763d134f8d28685e6431527def371828fae2a56f995ef7b545df4b09bdc1c1daf4a8a1b590d8da32e5d5b0d2de 0x1b1779f3b74497f87c1acf478b1b598663bb536f5a1df23855ed82ab872ce0ea4b4d0660e5d2f6950a1acf3868d046c90334ba52204f3bd042bfadd790d43b49496; P0 0x16efaf04645d8d2fff43f9ed0589ea68ba0b5c2389c3e90cc71e2c3be81e657dcefce4d87fa0632623b12f18f36abd5e22b924abc44fbf8428063f66a8e6e444c5c 0xf38b8801ce4f077f82b898327c912644cce335f0161e751f9e06a09872367af7530de78d0602e90121260c9e1f17754961de60ab00d1bf63d05a5001566ed328a8; P1 0xe7b2304067e1fd45717b37bf1dc1a48d9b557d1fa9adaeb548ece1e31c0e6d73602ef638b5c24507a1a9ad60513cac086a39fc12a72e1673d0f9b647f5c5702d67 0x1d86500ed29eee9570f1cc3069507711bb296e5e7be8885e97e577a3f41fedf0124d9e7b98bde8c63cccead1242612127819ea7deb1830f63f17bf655e1ce9407e1; P1 0x367b49b4445c4eeabd1a66cc0b9650a35af9b3008abfba6d5e24e3c6cc823a2475f40e7af05f75dfdca206cfa05d6e95a7238302013aeeafdecada639e446a21f20 0xf3346955e754617370b5c08eba65bc18062349a56b81c734378889caefe6354a923044fd0f1c9061bf085f2716eae720260d73d964f29823c8d399aa1cb1f08f62; P1 0xe70c8ab40b67bfdf65e1a2318ec278596428b85d13b08ed9f0616bff834cb03e2f1396cd068361552861895ffee216ac605a73b505c1b62d2cfb6c55ee64339968 0x1bed0a0d417771aa424738c13c34e70f00e68bd5c499dbac978ab23d04c516b41069a2ed530d9dc1e2fd62856ba8cc4585cf22847c0af43244a93ab7fa233a03e60; P1 0x30bdb9a68bf72ef6afa75c3789107cd17788b595f1331094c562813a77dfb6713be174419e28e6381c050a521800b32f9a5c8e2179375e4733dddf5a18e73542804 0xfa6c2c001f56172a15daa86fc4f2e3473ee2956516d92f0a7fb637e4b60647941160bf5209833af823f0d66b387c7574607407ea8a1cc757b72d4918b69bee4fdc; P0 0x7a7bb9d2b26f5053acfef7c5ac449b8b8ede19a39f337129809c0c4cd954e3e489700ae7e8f989869bfd53bc2bf3b458adce1adbc6b9ffb09ef924221aefc55450 0x98722c3e4b2ae6f494c871b041767baa11dc1e583c05d5c7328d58c4700062091dec032e2018d2750018b9f00145b01524d02eab2e04ce09cde9e53d75b99a4e40; P1 0x5ac7c77568635d7760c0a5a76ead51a73d9e5df1aad3effbcb3660a8157ad871289728f380c9854c769a59cdcf54be76c3214829420c9f851f38d41727e7399b25 0x62e9818d7ef60f41002884f161bfa0ef15073d9d29b579b74b17864f35798e8636b57bc70413749be86c83d75dccfd8e03d3aaf26031c06df454e793abf31d37b3; P0 0x131bce16b52ab3df4eea61698f6a9ddade6f2f07bf7562b53d427602b19353c455cb312a8198cdf1a8d1b08feaa26bb39ceaa8ad152eb649880bef3dddaa22ea11 0x14592c3ece8c17527995fd1fd2292be4ffb33a8374c8aba24e3fc74e4b2ac0cca1d715c2578b26887e646f3ae2a20a6730c2d3fab13db5bd11b77b31fc0094b8890; P1 0x19e0df99b972775f4dd61c7aca266fb628ee78ffcd0f1c957e3015bcd4e10d3f29c8c9245474e9b717eb4bf145b60916d06c55502f2b0bcb8f5f8b1e98d2321daaa 0x16d4c2a45f16c14a5291521dbb81e328c9b494498c0fbce920fc4664377a998ab98bf9a638260245c60c0b3d1236b6fa1ffd365b70c845fb1ef97ece1e945a78a06; P1 0x20942473492f0915eb7eca61c1e5a737baa54791a765817e89089056a3a9620eebd9361234fce71ec0bf750d04c64c516d4c5e0ffa66de4de6df7531ebd8de269f3 0x1a5018f0a989c011bd72be93972b918a99c2c54bb5b699235c4ae4b5782b4adc9686c84fc35f1cafc75921d0bd52da0bbe01267071f768e8b6baed28ad6f5fc4abd; P1 0x2b45e207b47f323cc2454ec610d37b465b3307dec6820737483d86e71c5f122b601aea395c57d2b48dd8c07eb8689a0c06fc641142728d437f692fc74f63617fd53 0x1ffb51dd4455681bd26f17705707d49da70458eeb417967f150de5caff82130b00ebbfc07ad244fd9b208dab3256db66a484b7fa408610f187aa9b0751b44df4b27; P0 0x1ff6a469c4f3996fe8d3242f04ebf0df2fa05964fd3a9388b7f3328d494a30787116bd0f2591d9d86f56a7f65866ecbd0a3e9d496fedc63c4b60d203c31e007424c 0x1fba9dd6b4f0a2e7f0097732381e6631e48cea61038175d062b6110429ef00a66a0b15916b6cdcd758b9079b5017ed0cdd90d2fa730c62af3635b4e129b793adb45; P1 0x3eeba43bd2243230f2f38184eb18904dc1caf7c504c3c09faaa65bece9196bc87adb9e2c42baaf34daf1768604ad655d266b7b90d4caa5c8642a39780c6828b70ca 0x18440be0ee49c2052eb4ab1b5be026f54e9c981d68b18b4881fe0cf1e5c34c6ceb0222ae730992211b4bc61e4787c1c921e124ef3ec5219941ff9939bb27d006218; P0 0x1266a283e5cc2d62087f29393bd861ef00291abf40c22536797728eec5b822ac411d464277a549439baa8e4eb91343a00d28290d35c04fa0d9335de63eca02a7b79 0x10c18be198f207f22da4376e47c6f312e4cab3832fa496ff799c68b5cb97cb5f64e74dd1aa8da394ea54af510250d0fbe156cfd49fc574be25929e0d6e0d064c6ff; P1 0x118c3d069b5a0d34a509c10886cba0e262409c7c862c2ba3d893bfd62294eb4cc95a7317c2c000a05df0fbb79288ed1cde9d6505fb28fe10b34c94231dfc633bc36 0x1a36c808661e1563ebc281eee35ce9bb6a32d9142853ec0d93df5d45d38d7854b6ac12cdced1e2dafeca990a9ee5f8d4112184b0f6c0d6f6dc1abda7f0af4a82e1c; P1 0x2af2c5ab49650dede146ba6a337f9aafbb245a0c141dce6eceaf266cf22b537ac3e08b7ce058c8d1cf43e13132a506ba9300a454801604b8597b90e395a8c7959ac 0xf86d07d5861d76064c389741083ddd277d8b9d5c4fe0bd0892db7677b1723bcb3078bbc1ffb53b052cff5d4ccbec1e7032403e1864a6d10ba8089b81977930cf14; P1 0xf1136d9d5feaa930c4c826d7476c736c1e0ee8db682bda300cb1c8ef9df4dc6e44381520c978e9d856ea2e552b8bc4692a9a32cac4d6d766648441568b43898b24 0x9bb18cec81b5bfd78c9ff90a8a5b98252a4d817c5ac6349206cb752550caa6d8f3dbd8c1dfe4b6b2011929e6dff3862c91aff61f45781d544eeb813e97ff2bedc; P0 0x2f583de548d87e003f802831badf2e17d5e87011749564dbde14fbad3fc6117ab59d21ca686d1e3b0c76647127215c54641227eb5e0ee153d6b436b7af8aad51 0x10ac99cc296d10c8a15d73e2ce6461b5b80fbdf038cd4af2dc4825373addc5391fc2fd0cc24ccdf2d834f3c471d04a96ff679e87fc4121b26a4a2d0fdfd8bef9137; P1 0x11607988beaf8fe0c5b328a83aab9627b703f5c8da2c9600cb6b8687875547708284fd57e25d14c2ab41ef986df2efdc28d0feca6f55dbdfca5c45bd53d3eb5d52a 0x10ad2230bb88f39bf876207b22dd6dfa9cf73799ab5c87158e5d58543a68f4d753930cf78b87eeb45b3b175770017bb911b184e38ecd6d64f05707c671abb49cd28; P1 0x116195d51df90a3fd4eb95d723bba235635956efe4be99bea3a5c998bc4d64c81171d1e68af58b35372c148737489c1c604cd37a5699d53e480db1dcf2ca6ddb88d 0x1a117c4640b4ee4098797d9fdd8c5f2fdb765a32050a84ba36e5c786e5cbfbccba53f05d1415bd6a24a4f254c739d657c5433cd3216cf333bda65644aef74b79b8b; P0 0x153c7380166bd31bed461d838976bbf4b51f3421aea4c04716f04d60af6c328ab721aa1fed1cd4a6bc280c550ebdde7eae823f371ee9e6351579bcbad1d86ae86bc 0xae7ba487ba453fbd31ea476d4866180f2c8a24cd46a2c463fe0de0cbd5aa1efd9d00b082c4698bf4c2f96ab9d1cdda27dc17635f2ad4dcd53690c09503d95770dd; P1 0x76ec4f6005614fcf25e4c5125a6db74e448f90950b0bf150bbad03628ad1d5ede0d2c99761d73b71585adcf0c5bdc6e2b40998cf0d33fb48c939244f23f3f8ad27 0x12e07247480a62abf3e29bdb408760241536fb72c2aff7211985601f583b4f77a5d92853deeaad38b332c860b8fb7ebf4c2acaa75cf850b544140d44d297506eb33; P1 0x16454da35e3180f252062ff43ec4f1c68ad93ee5c5ff3621ff3f0a997a26bd827a760ce4213fc3fc19fa1db4348cafb06a5a1ecb02768b4ced59297f2b87312baac 0xa600e9ab3b2423c04e8ad3451f97d1969c2a0f4aa0777dfea66b126899f968509a15a4419bffd4f4576f358dd7b8efa57959df0bb113cc076447717d995ac19846; P0 0x35d2978572fe01469f70c4b9ff259803847c217ae8d1da6a50e6d249f8bafe53984f0a65d6873cfb7c29b518c904a65ce2a6c3b26ae27fe6305c5ce11868e0a0aa 0x14913aa0490d98d5d8b4081ece945ae678502b8ec11f16d49b48c07c89be9be972f120ab6b666ed99d23415fb0fea933178dc8653fbf85be2d39f4318414e47252a; P1 0x1a7038c8269e6be1b3450994e72a142f01edc0660dc70bee85cc7b7f04cc061fd03268502ad1aa9de5030e8fb10407b8ab3165d9b8072d889947263620a79a6dd0f 0x13cc0bb9dc143b5067ae71d268040ae54eb02274408ecc2029fc862dff2bc0c2555c0b57f59cbfe562834e858e4153271d3713221df7153fe910cf7112325e2b441; P1 0x187ec60476b40e607128d94ff312708e10e2b47f7577accf40f1fca0926276bc9b79f1013e83ad736da3db130bf6913b407c4e3dd9cb88425897f3c825ce0faf9b3 0x18b51a75079996725cacf5f78eb319b8c2bc4e11cd150cff4fe2b061f18c645f649a3b8f80ac170ce85a020c7bcc416b86cc1ad6fd0a1176782ce9d05d222da3db7; P1 0x26275145da5866f5443fc6d810eef3cbc4206312e4dabed3a335d878577ed6355d72df61afb8f4dd14647391d54aefdaeff6f5e46a7c662c92cc692089b678ea118 0xc8f1e50f1cb1d397dceb2bebab4614f71045fc66eed22b3aaa8d29b95cae5307dca8709a523035ab9a338b1cf2ae3e8c1f73f1406c768c6877e9b62f5ce867ca; P1 0x9dbada78b03deba831b946410caf5fcf4625f99681bf820bb9fbb6babfef69fba64bbfb21e7f99d783e8613ad49ef018afdb718e2dcc0004ab4f745e634b4a 0x155f88ce6a4bdc1b2babfa82b38c26c554602eefb221fddbcdabe50b6722ff6f6c9429e601fac67fb9e194a1d596c497928d5f774ec8efc74ebb2587837351c92e; P1 0x1c8d018afbf4dc9a96aa39f96bd01a9de9c7065918ce9710c3074b76f1a681dda676f6073335a3301c4017e8cf1fa70048f0d0c95bd0f9760b4e4b37a98b6fdc1 0x10f85446da48ab36c7ce674d1c71e6150306c22526652837942f43a3285df17cf4dcef67ab2ea606dfa5aaf23f70c89f7164fd02503b6f1e63f92450791d5a438bf; P0 0x8ffdb620274a872eab2d10479f4c7b659bb9284724f782e1e25a698d9b5ea3ccd196e716a375c428420472dbc3b548593358665eb9a90da10a9fec1d36e69158be 0x11238bae0a8d0f3d18d177dbc3b5d92b25f7b416a16c8f703c0af6628950c57d4b660b8ba6f46313f469a7668e79a9d0886af1bb4587dad8ebd9d37f5d2adf5c7d3; P1 0x125bd7c9b34145fcebcfe1dbb232b6f3785f65a282b5efce6ea2b587e0b086f3b98648363b8f84e60ebb5e94ac2ba7d99f54215be1d1bcd3084d2e6e0188478ee24 0x4158c1118736a36e17d321187c13913fdccbc9bd4eeff1d2eff3da591374a5bab51ca2a7d73cfc208988fdb572bc5a61b11a3c2aa076efa64fe91b0e442689008e; P1 0x10ae30d0345223a1e2e1f88829b0a93566a116839403f36920b7071e0b343e17d39e2c31be891d95c233871843f110d443df347b1dfdd9eed7bb2955184042c485 0x107e6a0346e2403b49a644b3e305823223b87a97692209a735e79536c69fd3369a34ac6a2fb5a770632a16caff1e1d75c744a77494b3a3ea83376d32062d6c3c0db; P0 0x8805d677fe62be5ed832dcb6a8b3ce13db4019d57754bb52701616a5f5b0fbb64f1f18df9804c7751fe2950987b222d4553411ffb48baaaaf78a21fb98455f264d 0x1acfb3425398a41b75262e9f716714f326ff4b64b9792995ef57ded986351191cdccd82c6a28852457bf13526cd3d60401da1ffb6db984a25fb754656cde9c4cea4; P1 0x2ced8ecdbc40445a3b28ea0ad8a685f7ddd4f51a9bbacd087b04de0ff884f2810dda1eb6a901e338b4b8f8d5771d237c27dd0a3374a2d1e155b42f78d1f7fd3ee0f 0x1d8a69bfaaf491d2724627509f036138e3ebededb4825e106d87a3665908659d8791e58d330194f98bc6681ab046994018ff0101f7d29f52d1652bf11385a1f7799; P1 0x368a6cb9b0e82740f810da083e014ceed48ea54eefb942e844b964544441184825fcbbb94431f93299d746aad2dffe80593c2771df077aaafa7ab8ff323741a956b 0x11168d114b5cf7675ef875695b570b6d958fcbecad43eb6e5122d966957d7b6a80c92fafeb1f7ce33dbc31a4e8b437d690fd76f06365a8977d2557db835c426261f; P1 0x12400b8d8b75b05c171a75dcd9d6377a9d2e0c3b4f960c2438c6b2436defb83a48f2deae8cbc4c09d298132ec4f7bd275068d83512241958e03de708e2289b480b6 0x1380ddc335e4e0cdeec5e684ad2b8184c68e327000ec75e09fc1151277e901e9ded8a09aeffc190a030fce35f1ef53fa940334afe461dd361be8d3689110652d11c; P0 0xbe30e4bea83f13d8c55fe8107c15a8279f5185c1555617b121100298f49ace3a54994ba38a6848c80f60d6f4c724719d43f7817f5348c543c7e50331f0857573e9 0xd3ec28cd7c32be93f667722c5f75933ee31fbb1cc06434336c5c0447b89756868144f31420eb858ae5ec44f026e0b0abb26365f6a516c82ba074e28130a5ea3df; P0 0x57b7928efe0cbfbba508becb79737c5868f5d88c7fdc66262d24e3c889054b47195c02514cc97632523556a10bb80fdbbec5b28157eb9dd377962af9d67a5f4f 0xb1391c30ca97b80993b01f20b8f2ee33135acbf58829168acf916c5036afc87fc081c33a6ce0f872ba98fde467611e93a17e47e13a0f8ffc06c0a491513cd9867a; P0 0x3d5802dc847d5cd57dfc19dc60ec86ec39c298b6d7e11624e3e403417d2407fcb5701dd614025b421c78c6a68b0f0fa61078c4c0d9234ca0749132de380997f2b5 0x1540a44a5fcde1a309e18f2eace15367e034fd1a307f1c48d43b1e5f73bdee5467eca0e20a6c291274f406087ecd31fe0ca75059a349df9b46ac1b24b6f23b9b5c7; P1 0x1c3ab46c2570e50e11dbc3a1ce1378d6c383c3f8c931c2cac8b40e3a7d8f25fdc6ebf0405ab27a68fbd27c2e72442d63d4c1ac3dd4815e07a458b8623c911a6f47c 0x1accfae01f84c7565399a68027f714e0a5b8e4e3ce8a361761316cd089e3b78e0dae1f9a9af9d3073837f75ac61916ce94c3c7b97a2243eb4a349c6917ebbe2f906; P1 0x2ce47165173b5e1bc235232def0503752182242ab4c24df67ed193e0da7761a5783cd411058d3a811e47785ef00ade5b6df3776a6358505a345f0567c92aa386bbb 0x18efe916c7d24a3fb2e0dd586b6e9747c64d00a2ee8b82c93db12f9ca462fb8ce1a0469740bb976451832e119cfb58741ecf7f2cbf56a54b9bc547f73fa47b082b5; P1 0x26ddc89523b025653bf7c1adef247ebd74d14c9a4ccd878e37da6923c83f63bc3c69de7cd86fbbe77573c5736ea078b5e2b09b16fc1942dcba53222ef4657cf92af 0x5ccf6fa26edcc2ba766d68940661479f609dd94e6ad6762c05ef0e1d79ff7f244547fbcf1bc6734292392c6c7dc00ce81b84ee297bb5d5040698cd9eab625823cb; P1 0x21a5c052790c382cdef0c481c981aae5e4967ba4695b0360cc4e837e3158814e3f2d388dcd31c60cd9e7aefe47027d95a387c850c969afdd1c26d2b12e1074ca9e 0x1eb4f7c0d4fc29b516093504dff508aa7e56d11b3b34725d73747dd0de690fbc3be7bec0a19f7d29ba40cd2d276142ca07ef7a332210b6e1bd33a9b540415516e64; P0 0x1d774ff446e244feddee17e4aa2b8973f0870bbd9f303008f0f6dde1abf1bb2d05f52fbdd613c17ed946f02209a6fee65daa6188bb7bd7ce74da6274a4f6dc7c478 0x18c333159dfe74c302b45a3639b1c2ba0ec0b39f17f85c55d56a946cf92b0df2dc0829040a395bbc00f296154ef62e960d652daf03aaf0b90bb2801ed6b9bdd4ed8; P1 0x2652e6aeac00651215ee2e1008184bdebdf189a1d92edec748dd84ea12813cb64255524f183638d5582171348a2bce9024edb3d6c12cbc080d48c1ec040ed72acbd 0xee2ed168116d33adb88570dd2c65b573a88f03de53426ec52be394980df92c00d0513bf42f5389b2f1dc9d11821a4b6b5025661f958005d9f99064cd999796c5db; P0 0x6ecd8af6b68c330c06e8e0d8ddceb814fc3a6c7507a10953d28a5f818e51ac7ea18def375d0e4bc0cbc567149b599af741b9f59032c19a28ac5149f205ba0edf44 0x1b7b7257325e08135490f084df1d7cc2ad305baa2833c2a2b6e21599f94b7d6ae1378a0f11f9bbcf4969b7cf6e350f70d6e4828e434395b8cd52059cf6b1af25ff5; P0 0x179a2d2bbbe014f6db6b414997a2f680efccf2a0694f5d2c53ea0f2a935338224eddb067580bef3e84a502d27aaa3457898050a01413507b489a77b3d4d86b789c2 0x95282c5d4ac803e7ab065870bf18af0f3ff938308a111e7b631fdd5f6867bf7456f9a091f7fd91b05646a8779d4fecd245f605dc8f687f4833b155dd82e07820a7; P1 0x56e7c9f27de466c111fd8c935b9b9bcd65c51e64e4de8c87d2623e4095c1d920912a4c653863398fcb673a1686335479a595a8c3a322a04fd31cfa26fe7bfa110f 0x83dd999373289d23feb008d21b6626ac4643234d2d23e2dbab9e13051ec31fe6cdbe406208c710d998e2679b87d4402ff33471305e676bdc97c489fbe7cb7e45b; P0 0x21f6457fb648fcc3138a732d7f050530dcc04e13cb52e607c66f4ecf88bed4f8183e07d7215669dcd9a39a8257b8b3a723d86b2fdade30f8bc5d9c3d7d673c02 0x153742e7e2233e022c7b0fd7b99efce0d8aca4b448caca6e7e3e1dd6274ad16f0c590f83924ca1c512e459cab5c56d8472453d7faf7f17eee1e3be8c9706f4a5447; P0 0xe10e73ee1caafa87c84955e3c7150208c33c466a80d87ad154366b112b14681dc95ba3a759e15e829f34412c36a8a7125527861f544857654d62cdbbaf036ee514 0x1d3e3688b76a3bb4288d2761d2b32f73249065c599a86059531773740d12eab10edaba660e753f4fbe74ad0b2fe53e0716f50cfa37f8e4fb7c022401bf18608cdfd; P0 0x1ab93bcb7b26faff8f60ea17866d8858ee37be7ce02d1e7146d58f2b856fce805aa93627f864b885215f7b876e788c179fb19b6b75584b6428f1ddefc7e3d0434e7 0x1f259ce20140c2409f42fde5c79d6f881e7534387d075a65c85d60765fe436a5468e914a1d42bb30a38f673cb1867d1382840dfd91202686c60f7972d122e3713ea; P1 0x3ca218575c644d0f05790f4177052add27689ebf97fa7e26bda81a0a341871747941f2e3ea83429ffabc371247616417ac2b65d37274ef99f20e657f8a070524cd0 0x1b49357b20c22d0ef0caaa3d9a0f38df4222f5b84e8a856676402e6f6cb3a1a707c7a595c813a12da70411252e2f13023ac823f807d9c5af16ae89a866c99cb3078; P0 0x174431bc226ed83df60570cb8d20574e1eb31c2ee6fd678f35f652c73e42a4414093b4090b1ea6fe0d8577f5a24b1ee486a7d43a74d9a38b51d19530b32da33db66 0x1ef5d9950157acd8418c84a556f9a612b0f4bc0b0bc3208c0fc082b0dc48a4dc575308481c23b40df11cac807b044f0ba9222e9697a1f046251cacd09dea5a6a9aa; P0 0x1df458c8e3988aa5c310324e5c053fed74e67cefcec1f756726137b314a4fffab7f5f034ef557fda61b97b3e15b8defc7bad574a39f2cbb5e3fcab963f744423028 0x1a17eb050f36eded5c16622bb1f78763a22223f3bd78c8f174fc84b19c0dd02763a4142b95d630d3df56e2069001fb83a065eac43c2cfe66c189198b7412b06937c; P1 0x2a8ddf919c22e3b6939a5f8432b21f394b3223a08b904c31dc9cf07e980917941ddf51131d7b1e28f823efc3820e13f1287d19b87404cc5162776f21f26e13ac1a7 0xb6e1e177953ec332f2aff9c6fa271038fb57b33a59c4fc2cab8645b594177383ff9d8f663312b22c0aeed5f1360c7f6770717fab4ca590cc01d2dedde8fb513d41; P1 0x82a5f3e422fd0213fb1bf70f60224c4b2946459ce5a29880d866c82d82a48b64160f08789619a923a1620fde233c3d4f929c847fb7b5419e6d968cdf83980e9830 0xc95c1bfd9ffd1b58e3677933fb7576fc555284f32940d8e735e116f415c3bd383bf868755bcdb5666bc728754a5910020b3a6b1a2e0f0aee622f6e5f60091dfb52; P1 0x9e61c5186695ede23f051e9387699af8a86f365cac7494118800f646bc464ad689549d13a99f4be17ebfcdfa1748d3adc8f9cc24b956a46cb419de2322b964ab5c 0x9c20f247d04808065ab0057d4fd2e3aa94225dfd3a65a039f3aa6787bdba53bf786df67f83470c5e97b5157dfee5b848dc05fe82069935cb5d214ab8dce701d64c; P0 0x2f9c15c27e8bdadb9059657e03e9312ff2c1d0148c4903b07800f84d747ea7b4a247da0401f06d8d12709bcb7425fed2fb7260953129dfa261539dafd030047621 0x281c4f7bd8b85a1ab3d5a801fb05a2c0a7c2b09c4644769e7d5e6562d8ddf385b21a054e3cfab8bd17308e46ef13cc3dba73710f60db1344aeed5deb8c91761b67; P0 0x3246dfc17bf5813e722645960b997664d5e98ae5038ab83b06450d47f7d148d08de5b3b275771fe9d40150d1971701e8f9e6c89590b872110444c307696ae743f 0x1c5669eb8c2ad15d9fc3014d48312a367d173d8dccc9cb2192e646a7be8ca478da3bc93fe6dd60f392e9a1af59d7779027e6a23ba56f06b667428389ec56590313a; P0 0x191822b6e5f4e23747a053369be60f0fd58de1c20fef52e2c2f5475cd132053b6b7d8ff80334d068613104d91eab617177b51dcc81571c4840c2a05b14f5f480cde 0xbf7a15bc0995c322b75739f6f765111de0ff90de3d687a6acfa32854a85ffa0976723d846801b550cdac7800ad9624f36aba2bb09c98bffe2542a95b4021981556; P0 0x479bb353a7af7fce38808a04441bdc68e390323eab65155b41d9a1684a65b4893502a65ef2443bb8a6233b671b8937e72ede0d7bce3899951e3bc750d712c7b9c6 0x273c8fa6e3c9b3a65393dc8dc6ab36cc86978be7b246a56600e5b8f954e064e090602667696255c91921938b8208a2ec13ac5976171facb4bd4d6f8d60d0058ee; P1 0x6038218803e1a906e665b1aba9f3309f893f16cd7f5bcda15cb960b603e977d741e3a8de7da0886108db0af6e66a779fa9c920d99f4b251eb4a5eb94bffc35c 0x1162310e54e7223019f659ee8cc9897b7529ea2acc27c3d454f60e735513bbf82b7a49e9880680bd4caf9f147eb84eea9049f32a28c7ae51717ea2fd14b295b2c4c; P1 0x12e302d7fa630ce70cd3edff71f0c163c8f08f6d7728e61fc3406f358a69e10fbca5542bb7ae93a73fdd4c086fa58fc3bb3e1f2754450768a302d6f9018ede3d3f0 0x12d3847a6e7e8b1b877e6af18c663f08d47b8994428162a4d1055ff2b4826ad3dbe7c8e338bb713e22c1860f4fee3a47bd791d74a6bf847e140e5017993131839b0; P0 0xb136b26ef5365497188cbf53e9e26f33eb2afe069b83670c98b5da39b2aa349f57bad4cbb27a8f090c4848dcb6811bf7550585fee4dc4a036fcab0cb90e3b0da9f 0x6ecc3dffc165ad046ecc48c8eaa017185318039381b4e6e83a1878019a44e1438d64dcd20125405da406aadbd30475c1e49e60bab058dfc5ab55d037cc059a0d69; P0 0x17fa141d5469be346eb2b382b47f59eac6909ac065ab0f3dd72e63da0c104e0bada82d1df33f0253271c1aee3c48b8377e4bb22c77d043d03f3d618560efc99b5e 0x13becc59fa761d91bc228035789f04938b7153a2ffd34b2f1cef54338a38a5edfcb3ea82ceb9a9b1b0d3a58ce0d38889e8f9e435743b918b2df0f084460d3b0a6c3; P1 0x185e08953dcd683e08c1da9f4d02df11ad7f5d9d122a72a6d786d68e1a68c4d6102a6779969e5bb9c95059beac80a691639c89b1a10571275edafd6edbbf2d601d6 0x55701c4c2d86d4d5b30876c8fa2bff8d75dd9d7a0c723f90040b1a5e562074fc87c56cd867c25f8477ec8f51fc38813178212cd6032602cedefd6060b09675488c; P0 0xe41d1f1ae020ff8594b0916174cd2e51339dbac374f6ef065553fdd637f28b11356b5f11bc6bff364fd93b89fcdd100e01c5da636c02583e661c664872a332765 0x18372316d7a8483afa0216137357308ea57426f15b73efa15ce36e648b2fcc27d55f2b89987607c23593eb2be48dc50b336a752f8cbd14d789476710cac2a3f3603; P0 0x125313a3087bc6df14839bd4f0cf1be2aae89e59573d52711e254ebb06d21269c84bdd4771a7cbabe00f95fd00b202ce2de18e4d1e80dd0b6fc4070482fb65bd786 0xe4c807dd358cb506912c2ff88af14b45fce52f698f49bc4363fa6520208b4a33d36942a03bd6b1cc16454db08e4e2c36eaee72e3bc0d166309dfd2879548245853; P0 0x663a752728a21330df720207fa0757bc2e13ec3331a6953031546b7350b599841442a0344abb030a35130eb96573ef58a511f2a24c25597256011877ebf2508593 0x29fed6990c1952c66c2fdb7033a2a2366c841f1db9d816f4bf4b933609b1b956f7f2aee8e5854409c0914a6d146412d064dd34d4518d0bfe7c2cbd160331a70cbe; P0 0x371cf35c8bc2d3eced089c94b76e31341b7ce2ad8cfcd76d87a5f72567b63e115bbe620247a3c6f32812dfb6e65c97f41497dd8dd6fabdc24ce3bc2770a639f6f 0x94a8a52791a70f2885f5624f9e1a08db48df940bbee11a0dde57937d43d28af39f81828b872188a8ddb74d754fc17b2ed07cca957c1e6e461fd68542fd5576661d; P0 0x2b29b70777722e54e6b1897a74285c0d20591e1262aa4b42d814f0057efa6218792677bdcc6cb41fd30c53b48ed4ae8547bffd4224c7842dd6b0afefbe9585f8e5 0x7a95d055a89d1f467c22e16137aebee7b297b5c89124ad0c0944b393c6a3fa75c2f6eb57efc305d4cc13e892986f06933766af38d14aff74eada354aa9cf6feb3c; P0 0x1d59911ee8fbabaf284ad3b7026c9a3d4e300449e044acbb8c48e72e1c118d7b3aee891023d6e51c996ae59b289cf799f8a69ac12b81c52b16abd3a18c617b75e0 0x19a4f7ef0645b5efcd444f97a0d139e8cffc9335c23717e96b55de787c8dd11f3bf670516020dbd037d15f58420a0911b8351cc7bd41d2eb97ddb5ebf878dcc9130; P1 0x291a2bb4998c4212cbc226f8102f245354932245724f53c6d44be9b3b84dbd102568dd0fe2211e246bd46509888c67a843e1b2c94381f37297a87fc81acfacb9397 0xcb61021f3749420657760d0be5d8c2e6006d9947b91d02d2954430f06e45dc1875d502e30362e525dcd3acfa50acf11499d3d29bc8d8db1c61c021ef2e06d7a5b1; P0 0x50c97f100ead4a72d61d13319d479602941aadcd2e5e8424de8dfa38c2cf12669b29936a42b29acb3fdc2515306492c3a296cc70b17b69a5c122c1e397cc142dd1 0x1fffffffffffffffffffffffffffffffffffffffffffffffffffffffffffffffffa51868783bf2f966b7fcc0148f709a5d03bb5c9b8899c47aebb6fb71e91386408; P0 0x1fffffffffffffffffffffffffffffffffffffffffffffffffffffffffffffffffa51868783bf2f966b7fcc0148f709a5d03bb5c9b8899c47aebb6fb71e91386407 0x1; P0 0x0 0x1]
    [(0x5bc065010a97a162f78b610a077bb97b53886bb266481d591d2d02fd6aa2bf7392c391499b2d8f744518c799a7c35911a7, 0x406a6812060171c3933203bb24d6ec58995efb8f87d6bd3039222bea3312ba7a686ba08dfce724a5f2384a75a25b39165077724d35cce35eafa2ad833d31760a55, [P1 0x0 0x2; P0 0x0 0x4; P1 0x0 0x20; P1 0x0 0x800; P0 0x0 0x400000; P0 0x0 0x100000000000; P1 0x0 0x20000000000000000000000; P0 0x0 0x400000000000000000000000000000000000000000000; P1 0x0 0x200000000000000000000000000000000000000000000000000000000000000000000000000000000000000000; P0 0x2000000000000000000000000000000000000000000000000 0xb5cf2f0f881a0d3290067fd6e11ecb45f88946c8eecc770a2892091c2dd8f37ee000000000000000000000000000000000000000000000000; P0 0x408f501c8d1cd2dad1d7f46221c1e96c701e8a49686a2ade636b0d472b3de67f9e8a15bbab71f6eb711ec1724e3ee409 0x1d00ebc545059b805cc3494290a7cd07e35810141ceae0a9ea49ff158143e2e28fe3cb33c52c4edcf1575933b58d08faa257138a15411e272f35fbfa771b3be77af; P1 0x349356b8ac709f6adbf4269054e904a9c60e79cc6e3d50c4d8fbaf16f9edd567acc1049f632f5634d7aec27d03ae6c7d60018e195dca46d1cbcf226401759ac57c0 0x126d1d5495cd98b290010be9807977610629ca1bd6b597f35197c99fbc3ffc3688dc89007e00b6f488ab8a5f73cfc7b26fe298034f6f4910e7d96cfa364c81a3d82; P0 0xa9c350f13a60382fbe349ebe7dcad4eb2fd0a12da24e50cb38b882db17530bea2cde574bd5eb860816084d753209c340d056dbd7216d013c09181af86bfd100721 0x19b35fef17d50972f0ceaf807ff5fd1a3b73df04a657cba9cdd685d8a2a5d0ce06b89ac861f8f90e5eef28394e8d4b2d3ea842cd1a4c4d82e79f83dd54c449e11db; P0 0x14a4335ff7b2160a46405d177e0992ccb9b3f7366906083e977be126022218e1de531689c908c0018710817ce2251cbd8a5b031f2ab3cac16153d8bbedd1072adc4 0x1083323ee888aa2c6c5e214ad1fbf2e56446f55d8a797ef45e3cac96a707ce863d7e8dd5d18cf50df3a14ac195b3ea92bf2763348b2eefa18da898b4c71fcca2575; P0 0x8854c229a7d9b7477338df3a14443c69617269ac3262de7545aa23dc42e9c07302ab74a4f321369fd0a4e0bdcd1313235bcd0fd7f6eafa4d17508eacacf1277cf2 0x75c76ddc601e11aae43b4031c5b0676ddbb0fa81599bb2448bf7e0fe70c29c123458f35564cac87d37b95e3a2f0fd13324faa028d20117ebe4569bc19b2bfd1af7; P1 0x362fe5c76b9e52749f1d71a65707611b5f80bd5bec38c8243fa09c5ad2fc67785dae75ede6bda2a4d27c2badb32303ffe9bf9a7e4e6a5e16457df844f37fdd0df9 0x1fb6b64f5dfbd3b8bc214b8bce200d47e5a2cfd24f831dbcc3ba9a3eec0002bf901f3aff0d1852706dd0f3cf480682017bfabd7190877709dadb76ad2d9a26772e1; P1 0x3edc28ef3719194fd33d6b3ceb767c4ab11d542fb27bf899c2d56d2dac95631587f9b87a3f18c4291c21d8b69a254cc81c548158c4db8a05c85be4bf4952e79e21d 0x7646d1c8151df01a1cf2fd027533fbc5a3dcb7a4f53ddac6f2c7cc593283ece3e93176441627020c5d837cececbeb50f63a5600a7599ef76545dc0abc0af420c7d; P0 0x1b52ae7dec65ba49a1c3c78b9704609f8f2329d8c3d3a620887096a54d7bde503c4e830be5237beec2e4b3aca86276bdd9635239cd8f267ced223a2d9dc0d5aa0c 0x5d862e71abc8fca3a709b23c3613f93de47485cbce90c0edd672f8351c8c35cb82ed2f42f6b6e7b3002fea56776e5968dd03b14aa050d1db90dd828481a804a9d; P1 0x222ac4133e3cea2cb82fe175a31ea952f88c722a97504d3841ed0407c80e9b1d29979e83f60f075ea477220c4134fc4acf814a833b497bb7e423f40b13fa52af 0x8900670e8065d7ecfa46a30383b6a4574e79cf58642715444ce6777fb678af118efd6e2b844d9d0e8e68455bb4224f7820e9d958368d1530309abd63a7c1d046b; P1 0x49516e4daee9ad3fe329ea3b0b442ac6036dacac3c7f3fe820cd1e9e5e0ad6dfb30f03d01f69470766d84c6fdee85c98e2b00b073f6ad476795bf82d7772737e 0x130c86a3e74a9db1f67b7c7d2894889d2b1ebc4010602df30a7f085609e96ca2105977c5d82b62a861034b7073af46a7b3f18094ec9b49d854aa9ebfca1c6efc204; P0 0xb56e4c9d4160bcd52c26870f174314b0d4ec18488b5109ca52d3257b2e459c293a5d56925ee0b7771992faf618a3d39411194981da77a42dc76c94d59bcc770633 0xa0823ad3c40acc1236141dcc1d5a7bca401876a574d1d84853a9946cd8710091e3636a3cd17d0d0b2a94ef4e26a29a45744f0dde993691165a6b6af7d319beec45; P1 0x64a30bc881a53e0faa7d412421909516836a37da8bdc5b18508e26af3374e6aae5e44910f8ccefdd690ee0e5f3f90b81d8d6d827c72ebedf6eeb770c67bb44c986 0x32853d774408d78c2902356450efad74a1eaadb6bed845e8779fdb3f44232550b0a3c03b1c8dd8320a29e11e72001935304f319835fe0494b1cbbfa6dca583277c; P1 0x9f8515b8342335f40ad5bd07b61a0c079dbbf372cd4837dce467a3ef143545824e6df38baf2bd2f14da01e23225e876ea0509f33cf9031433059a7d02bbda5f9a 0x188f272bfa36b6a52525f09a2937e7347b959d350596bccd5e5bcc3a120888ac8f776de66cced26b515768f0e2bfc82e9a3d8b06816d6ca0fdb9d5e79fd824883b6; P1 0x25b2765080a3929b20d32b7da8b557078f9b191555ff9f79943ef0cf7ad0f85b76157209dde96823e44d37c77635a3b9e948aa06847e4d0e2df1ab881c78fee71f0 0x1b8fe3f60a367467a58edc4ced7df0e57e789ab42cd6c4986df1b96f1491d8db03bc873bba59e1ebe7c741f819e0185410fe167d65c10c3eaa017c83f0753e3c958; P1 0x2f7aaf65e0527f81c36eb8d4ae0ce045f012f80e24ef900a86b1d8675e4c437c2f2c72acce1f0c49d9fa6a635a2b1470ab1003da56519107205f38b36a5964fc83f 0x134b25e510c434521d5ac4a77e063ded5c0365be0a593de5212a712fae3e29b22cfdd628d3ef131c1cc0223ca514f32cd0f4fdb04f0665813e643ae77509107f649; P0 0xba1ed79d287b4547db9057a217626245b7a56ffff04e6680a3f952e152263d718c7fe368c8f9721d69a75884fc6431e0e42a28699edf78bd79aba194ca38da36b4 0xa096d3d19a2c34c0bcb03a89844f3687bb5af69529fc343895b8e53943aeeed23aee2c2e478b8a67c40dc96da1e0992b2bd30d4d1ccd534ce6476179bcee84247d; P0 0x325e70d174cd8ec05adb3c4493760b337611e7b93f104f09c5b82971bd84459e4ae5212800539daaf583fe6a50b31183febbb64f0ea72d7507081f01ad6215b0a2 0xd8ef5f8dad2ef4b76dd7b83292f2dd802e5dcb3b71de8d5eab1bf53a513cf5ed8fc4fcc74a3e5d9bc6949d0e564736f9981ebf20a373f947c53340b176c0e8e757; P1 0xb7d4d112a2730f938c5d5491270ddd5400f633685a1cffecd8c6b4c9fc36a8dc8c53067a1646e2b5239c19a0d0f46d34552679c84f574df90586825fca4ea3979c 0x75826906eca58b544078b6a1f18c46f9c562217c22f2907271318705ebc9d549e0323ea32bd63175d2942329845c8f04796715498185ed09988ef6f8700c62faa6; P0 0x1af83b3795372be621a78d27e6059c9420645733640086215472f135a22427f770e8fec687b45975c8a3068b4223996ce0809a79385ea7b9a1d3e315c335c4fa14 0x11fb128a016251c0f51583a9d55be8dc8f683d9c11656a6cb9ad5df294569e250114dcd18d929d5271f2070cab39bd12e990da62363615daf01d9b46b128e8408f0; P1 0x1434eb3b025783f426ea49232d5e84b294e5a52f4919b69714ebedade83b416bfda761beb65f27e5fdeacb63fa6526535a507d29589566a9ec363ce1b5536e50534 0x6be4e5ab8396e60e8cd46411055263c84ae77f4a506380a011a950bd141fd0528b71fbba16355d7d3e178a84e50a6f7951599e52b75da84843aefe7df2f42a432c; P0 0x16bc9253a3c76ab77d3ac6e0f1ba84cedaefd40d11b08f67108101c2aaa05ee3a9054511ad2e5792163ca7fb1cca33efe7dd59b82bce6f8b77e6c8c0ff7de3b27d 0x125200b5d2843d3836412debd3fa0ea6c16e58d063925c1473575223a1dc416e016c3a3b60a910ccc8a35c343439265ac8da7903196a7a1f4a03a93307fc4fdf52b; P1 0x14fa25e0615f6767bbfb672b6ac9e7bb07f0b0e2aa83ef5eb31cf18fe5609e1a208811bad6ba0cf35fe8506e98f7811aefa1c9122a02b42cbffa8a7e8965a090530 0x1a08aee00b2a407e995d990a77b90cdbab2afbba93edf3e13bde0d9245f181b5dc6a5b4621ac1001df995806a3776e1763922fec431d8ee8fa1c789d606b0babbc2; P0 0x152e1e873dd4d7f5c951bbdb5e38432de0950081259e37651276238d0c25a55604c15e16c140b3066b8716e7bded6075a54642b7720b114f3376d07e972e16d3895 0x168a9ccd1069877a6ff93782a1240b36a4bdc3402f6b2f344acc894465bebe5b80241f955fa1c47ca58a80eee7b4a24aecf9d162b8943933b5c992c08f8c313cdc7; P1 0x1fc1e00abf26553026d1d391573666b1cfa389e98b7c5e68bd179f68bf8955dcd01acf90c8df4b66a12d30341e98e4a96c8cfb20f744000fabbd436fc7eee8df859 0x58a395ea037615d12b5c47586fd0656795164b679db84f01177195d8acd0fdc12c5794441f1254ec992606c47a3aeec615cf5ba9c9cb27000c905fd55e216c2241; P0 0xf586fcc9115eaa8afbf0133ae7893d813a51dcdbfe88d2fcda5d74f0f543a50325c40ebc3e5429b35c434583eee98d890b39ef2c529bc490cf4686832a23c0647 0x5e0bcde13fdf4e46b09a2682ddc551431792c6a518db66ab7ea07f8b05dd3c9d7b208ba3e858cc80ad74be74cf5dc4874adbe6bf4a17d4a88db25ef514f0556002; P1 0x228cabbcc1d601299d98dbf0fcc3f28098d0b86d3caebaae18c9512cc8e7a633e45c6915d0eff5deba5718e0e19ec9f5ee72e2c8c9a1058b351583d8d89a5291f8 0x1feeb061f38a8bf62d37a6e35a47b54e6b74e717be2ef203731a37de93122d9a750caa327e57e34778563e3a9455b380e960904a4c88cf7e3a654b6e3e6367efe50; P1 0x3fbad4428a337dad3d06d50b403f85408270bc66605cb18e48598da0cf79b00515f4789f955b5912795c67e766a0386891eba4d367d4f372666bcbc93be18bfc3aa 0x1d3be2ffc8dee269cc0a4c0bd5fe497c1b70d7d48ade492c8262f410d5571a2d6485addf8e97f66b6ee7aab4c236bf29d57697ea5a21e6272e6471a650648696906; P1 0x3569f705eb1b443a66540d32d4595eedbfde59c5257f371b9227fd1036d7d97ec25d05a905f0fb3659bf074cc2e93076719ac14ac8d49fa47b639454d1638c3c622 0x1e0b17e34e9cfcb8eaf7e31ec79a1cb7a02810553ecd95a860d791c77e0fef211b7dae77ae96dd8c90cb88a749a5fa88e16de2acf67f58644f8be250588524c9916; P1 0x3869a1456302eadc6ebbef7a3e3971b601371782b48c4d3665d444bc660a61ed02f73878a4230f29a17e60e4c033b456159e5e3b654eebce294ac7cd9446f5748b9 0xc195fbdc57824c709157c9c43b9e340ae530b41423c114ac748fc3ecacbf7e482c6e6e32c043a07a6163196d731aa462d34b7cf2b4215d2352a8a469ddfd44c947; P0 0x4931bed0b11d13175ef8bf967865eb73cf965f186a258d53d90aa517a20ab83c6f1629a63670f1b1c35aaf88179d7a3b03880f40e4f6782a1401dd1b23b98aab31 0x17b76ec8ef9d49be6133d3fc50dc9f88ee8ccabbfe995f272c25ea54dcf39a6366211dc17de8f380a1930fcb63bad7e3ee84ca35cd4634aa5944441aa21fd8168f8; P0 0x1193cabd72310e10a8816c2eb55b81ce0d4a779f5f6ca1d8b12a0f31c92ac938417d35da958e02117c618a471152358f1fe6750986f8e5bdf3a9cd47b02177e2ab9 0x64ad3247191d4a83f8dc1101b1d6d3439675fe86e1c7dd8475d09c3920c4b20c3e6c442ebdbeb3dc1cb28638e735a16e92169cde624600b2430dec7c1ae762abbf; P1 0x2797c4748996ad5c329be50a0e2236e4f2ace132b8deb4fdddfe197c4a980dbd4bf7a2bcd880afba6f88ee29053703ce6504b2007c068039b39d8d92762f6fe13c 0x149c049c1c98a794b7ec1b4cfeb8739740e761e104106045c6452a76fc177fdad3483129ff78a546d0edef663510c6202c4084b6d2554aaed4a1362ecc9a6df15e6; P1 0x1a8bfce02cff4531c77aeb4ccc85d5d32cd1e20badd31569554aa77d1eb7b19c931cb2ae8e8b48baed06835206fb2d5d36d092e7bf022274e4a8814259541a78ebb 0xd792f33686b2b65d989e6892fc4513f5ac1209011fbf04d061a321fd1a91da7115c687e7af8a1b0ddf353464a6ee83720b827f87a98ba7bd270023c0a4fa9a04b5; P1 0xb58828dfe782617d99965b3b6096383bc38bf8a73d6028b51d4d87fb1c06567fb406eb1fc0ac7bb3676ea9ffb9d6a05c73d909b11b075ef58a39f748ea887c5505 0x65a9078fbe7d4c2fd661cdd3c4e41ac5e1bc35422026357f8f909ee65a4fe9e2cece05a2fd07ed8fab56aa0e7f8c184a41bad066bad543749ce61c6d0690075ec5; P1 0x285ecf9268518cad8e362f20351872e9c467209442f843f8b206326b1977b00645848b2198bc187eec475d97a276b53b3273758e4f73e8a04cfd30ca65b54eb584 0x1e8f5be90d159e93cbc3032cae1c848d11f124f09254cd36f11319deee65c2540bfacc5c5692e8d2d37e99fa3b1d2c147f8e1d8a4aa650b7ebda36a443a4c2a958e; P0 0x1d2f4e937369963fed12437fd915f99e383a0c8d6ecfce619d9eb591940027784a7dcbfbe3fec7cf3f18cfb5d1bdca4daa3d6fbab9e4af6aa12949854bada6eb58d 0x185a9c97421c81247270b5d6a907393d079c023d60b81a0d50769d6b91b49903e4631e73feff3cd2e91c3d0996ebcf15b62b9a27b4994e6539d5a0ffdc2394f24cf; P1 0x2511d6ed68886336f2d1393c5553bfc54d942c5cc95430a799c7c345b326334545dc6c21f0b317221d634e7f6210932514ce37f82756f8c8a6375e4a4eb8c881fc8 0xd3487f1c882ab76459ff8554e72ffd31c4ca044982ebd662b4503442afb1ffd6cc6fb5eee33d3be54881ca2d56c652c76b6926f91fd5c34327cd9d34cb7d2680ba; P1 0xae609610c7a0549f0888eebf7af833d65b7c88362fd7b9236b92780a7d99133fbc5b5c6538b27032b4d2ec69a4cd3f8add5bb47d8cd0cd264eb6fb65630aca0032 0xa820f0fef8ad81dce512d40e6ca9f759ce2f445911862b9973344fa6778de5e4df8c78db4c8f4b062d29e5b92f325e3014304e7d671427ab9c1aa6e21d91c78486; P1 0x6e6b408bc900f60a213e7c1693748b481336ae5c7194420aa1e9c67ac09cfbaa7f10ff8037afd3a84ce426dc17976dad8cd62f4479cc5a2c6038b0d48c12e33819 0x1e0a99d3d450d26a67057fcd126ad7e0ab188fa56455ea9185ed641afb8ac30181d75fabd681ff1c662e789e95f72bb9c0ddc7120128d56b2924bd20540577e2f67; P1 0x3867c7e06be6ab1a94956f0dc3e835b9e2db5c637b540b7f36a54d68404d3bf4634998faef4e012eab904b94866ed4ad2b437172c6e572f31d0a0f5be2990b74c05 0x1d287654809eeae40f8e1f0a38b9eb50cdc542fbab0efb2742d5b342659986b8438d86676296f0cb7113f18d5a67a6c2e89db846f07afdd60576eb0961a421a56b5; P0 0x1a9189a2b1f1aac1e1f607f0b42573f437fe566579c927f7d13871d1f2fcaddfeb50666a5b9e9bb23b5d9d0f7f25d4c41b1fddd700537d97322d64f51105e9159de 0x12a5ae09b1eb5e74aab05d6951989fb940702ae1f0a1dc38500fa25625052c645e741ae367ec228cd74a3ea9d89c9f70b0b9dbc39e540517fa07dc5d3f48d5b3b2b; P1 0x15bb7b32bd5a0ea1cff61bad9b18502f025753ff35de5a742daf6f81060d1f430d881e919cffd152e8d970d9bd64954073ffb1724e10510406b3db50b1c40c329a1 0x5d742b773ad21f96f1cdd76108c3887ddaa019e7a13216f80c718a3d4caf41b8e29938ea5667a713089e4e48b56b470068646d8bc99c92585057597ce3292657c9; P1 0x221d9c4c0c2b3eaa9ff4a75fe122ba64677bb5debd6e5a0fcc0148d9ed98ff621a31cc93c01d4d6bfc640fd46b8b0cd750ad576d2d0ff933d452aa9de2341492be 0x1e9f247b36ed7646c174561045d264a3fda536617c7b623465fbd02850bd0b3bbf281f207eda49421f41fc282e2061dabf105fa12c73f216c472a7b6f7789f116f4; P1 0x3a9af7b3720c5721e782b3f65d7e5d18c5f5acee9c439b00eb3c85f4025e8ef5614d14ef79cb84c0010892ee587c327bd7c24436564ed49cf382d0335e3d206148e 0x1a7c273a5e6f161cd199193fbd39425d4b0545465b503dfe445595012ee478f50ef0ed7cec5deed722daefd1c378de9856e700bf908508d5f312ebe8841139f8022; P0 0x15eba16f0de711806335b6730097b07fbba19f9c7e320340dcca217f24a42533eb8adb7c15de284de5a04629091f1b2f146db9f07c165ce722e3e64bc5d6ca23841 0xefe77645cd7790f591e60b9c2ad2d67145b5e114d8ad6ef97c85ff2cf5e335fe60a24cba42717556518f9c33abf07ca2ce2a2b6c28afad7046a09d6ffa2778a63b; P0 0x7069000e7f213d72614c09dc5347385d1f1d9d200a92fe5bbbad3b050516ff794a6a789eef03aaae90d78e982da9c04a66846f167ae7218b9695616b52e8e0dcb1 0x1c35882fb7a0270df2e4766a6c1104a123a4145202ca1d59d1b44b58dd93fe0e923b8a7d8182f3cb4ce1d2995c5a93ca33a6ce93f8a90f7e4c3a000f5edaf6bab60; P1 0x31bc0fc1c5fccda52ec11b90610859946f428d072939d7e18366cbbc49a947e0d9745d9a8c96590b93fa1cd7bf187312cf4882d12741af533d8d239a10f1da5010c 0x198e7e4a1cc7b4e6a5d0ac74a299235f725ef8df46c76578d825f5df592b7bf80d336760802c00acb91dd75735760c04074d1c775ebf4e9b1d45fd7ac77641d0e94; P1 0x28d23fad223f8aaf906a11c923d676a135aae2fbf0a104a40cc6b661797cce415d3c5cc77eef56f7397b37e8bee9b9f38cceadf2d126ca588c03b42bb231c763473 0x147a8a3e51811b581a78f13fa9f5aade4609c78d97c9764c1971df1370111ab050310a0a0f56be68f32fee281bef66d7a61afe2adc679046f3aa73d752b13ec4715; P1 0x1a36041cac91a5e9a1350996c60c961ea7f83264f60c34f45456f43ac068ae62a7b828ca1808a8950bcc87173d3a5565848c3127ff9b99e2c135951c2127ca5e0aa 0x16b82d7d00a7b212f09c7ad88d32f46f2e62529137e03c36c32ad6a0c6225dd37c42cfa641333b5b4b5d186d1b3641269018acc9b25696432671cbbe18fe4220178; P1 0x2042c52e7e2f2efd4f3c2fd9c241888e301c7af1f28cabddbd6ef1dd374efc0d1fece1ec4df07c8bc2b5c93afea7839449dfeb856f40f239a29fc72db84f416726b 0xe4e0cc75c42ddb345418088d9f9b03c0a23e67493b2afd9794939f595081ad6881bdd6093987bcebcb071adbd758693dc34d42092a68ef86422d6dae1d4be07ebd; P1 0xcca1319836d4e58acef9fd055499e5e7e5fc908fd855c1f986e1b248c35c3eebc29a45f92fb0bb335fc7476d64e9eb4bd98f14abe05ae13580c1bd16a25f602885 0xfb838164cdce35723418b531da2320d3bd29991ec53c0b3c95cfd0ce7a63197ae96a6cab41331e9e5709ece2d175b42da2fd632f114dfbc4126a3b845c72afce65; P0 0x7b8d91a4ad11de79f2ba4302e189eacb5fb1cc5c1ff173bcb213c8b7e224c2fdfda0da0d2591b3325e139eb33ffe416dcc0a650b6c2b4b9630a124e1bf7e1abb05 0x145174b78c445f84f2ee49793cb871d866f5f94809036b78a1f48f1aaa68da8c4db4efb2295abd7d911a0287d02af3070d04e00822e6dae230a295a98cb2a662cac; P0 0xce6a13dfa4267482a16e9e7fb8e494ddc1cb4ddb14d2a0a1b99e72af7e7193109dedf47bbc62c982be5183d5e29f9ad4c9a806781f9067b018bb2df8d6a875f6ba 0x10b29a53f3863535a12753898487a25a8af00641eeae5b846264dde147cc9411749e3e820d487ceccb853fda9595866d53b035844a39a6d02cfa303a484bda53f06; P0 0x8b67f2bc1c44e6fdb60d955d79bea09238d6ca1e3e2fabb48ad8f59b8ae67143a338d02ce89b25462e430090fbeb75bf55db1916c0bad897a7f8dc09b29893205f 0xa3ca9a206b48cea42ebbbf30c9855526b1609df7966c3093e076e3effa1a386c6693e6366c647d27fb1a3eba830ec3c3833346b64ac8a36fe57f3493616fa6b4cd; P0 0x3465d04e7049859ce331fc3cc66617b86bb38d104c714d2763d9e2fa85c7dd958d1e8a8d29fd143f2b7549b4e405adef11785bf1d6ea5ecc33d917c45ebeff99df 0x4d24a6d141f1105818c7b8de96d6523bb27e73d7177999a319d3d115c211630b4435cfd1c57f948365dfbab51b6da9a33663ce8934d7d7f6b2dadb858f38ad6752; P0 0xb9f88cc9c9cce197abd2d54f1598b1232a1e2eddbe9c5c3254c8695c275950e3b67373c77f91ebf0abc89640f465d4a556c9e9ecf21ecbf05ecb6f4ba3c814d79 0x1519ab1a558d499ccee0beb22bb4f9464096715df689f22e1cb31de67dc8c76d778762c9fc9987a641de1ae61b6714c462ee48123d19ff18d69aae38dbd90401903; P1 0x1bd38a52f8a14ac5832d8450ba8ed10333a99b46600f557c289187725fd32e07b42234f9269781dc171c30bb6a8a3ef71a94cf3d9abc65fd92162b6139de2f1e167 0x1cbc1d187a9fad173352d523539d7dcfe3a0556f55343479a2019a3e90f2266479096550c2a6c5d5e817251ac30571b3c8a27eaa99a325cda4dbc51c361abce0373; P1 0x339b0981a159682b331cad5bec44bea43fc375c768314f8cd28aa7c745b6632a1ce3ced879ab0b4139bcb4057f086f3bfe93b61b7e05029198edd07b3559a3fa27d 0xb8fdb287c5a2e2f7f647c36505cc36356d618edd20f0b631253e946e54fc4bfe955379f13ad7e256c13bed498cdc1f7724b246ef271d32420f58ab6e38be3240ed; P1 0x85adac0d88f7e1119e243fb0a58478bcb2c8f55bfc0b947022ae4b1ac5d9a568dbd44c23e4840193a31511d58271e8d24ce08ba001399605ae4f41d7e8119bb5fa 0x1df9bb3882ed9824410f89362475c22ee2e6fb51c1572b631191c43cf4234efde733a0706b664b85e809270144b62bd92d95ea446327b3a03372c4a186297d7a908; P1 0x38288088a84226ad471c74038760c8a36f210ac406f521142ca853135d429d241e8ec95c1be33c4fc270330b6e032d647621bf51c9a390065fee742738247776643 0x1db1ed4640c3a64fa85f59593e39aaa23fa3fbcfb5953c1cd5fc48fd1617c608df6bb07812c9b5cf48d46a2704a2183cd6e44a3731e978b65b3df69fb061d4a5c25; P0 0x1b8e5b5f0de84b5e1cea40b815565bfa164570d43a075a85b0aa1b0e8bd72f148d2257bbaf0833c76152c6694dd9e47a60a946ca0d2b94e2da1c426f3097e089bea 0x71c0d826f3a7277cc334ccfe18a8bab3b9f0d4c28bbbd5d4723f9de8e95f6df29b9fc9388429cb86c625897e3c048ac069bdb8c060c9d6c87e242f90075829ba1f; P0 0x1945e80baa04665757d1385d20fbe1a630d71bd1cc3ca9b957329df4c4dffbdf0969616babcbf23d7e850df93456745b002a300436189131314ad0bcbd6a069e13 0xa784797a6bba85ab2e156f12d78a58eff9c084ac8c99b28ad4f4841bee04f63734c170448dd460694e4fc33ceb518092cfd9c45e6c44e367d0a0d9182bce1c1516; P0 0x36cf0d859c38b3902e1014b07591536186947156d9e1c4448d63e78c61fcfb8d901c879b341a660f1a4e7b2fa5ee6ad88f4d0c4ee6a634de8de910f10702c3a668 0x3fa629ff820541f4f71eb3db2850539fe2b25dd7bd93daf151bf213bd1b33ad87835d905f74dbb2a24fd80a6c21f13224ce780750f8a1a93ba96cdefd731eb243c; P1 0xfd33486403f0bf212f4cc9bb261789c63a727b37c15f665b42ac3a2aa913f8631367e12dc244dfeefd36bd46be77a28730693cfb2f56a429940758f58602ea52a 0x1014e703a0218f1703b9ffb161000ba32a52b9289e2ffef43a3b6cdd52730de7e8144e9bac6b5bf5eceefcd88df6b4fcee372824ba760f69baf0e371aea8139a5a6; P0 0x814f4aae866115789f57c66d1bb93cd6f3601a381c0cd49db5fcbaf11e0251d81dfb8674d81f274494fb789523aeef6e74d66d51f7a4d3103364d26e63d6608bf1 0xd83caf2e73c680962b80baf9d2b35de66eca986f241cb22d81854ae7c764d1e06c1bbe0450f675dd65252c302e91f79a2512afb3d6e6512a523cf68e841d54582b; P1 0xb6a67600f905c8c0e34d16c0ee85a9173cc91d4fcd80e37e1c786feebb5828372ac7309cbef4b64db7659b0f669821c9725e9aaa537345b0f53208092ab53d0874 0xb5afc4e9e860c1a1b325a515af00ab40ec33f95a2020c865a287630ab5530b5564a32f1d24e8f74f5b184ececc101d368254b06cef55df783a813b8e2fad58925e; P1 0x80f2052191db87a45df5bf18fcdbb83a394e0bf69a67514b8c11c5a323c9af82eea73cf070abb1735f2fd9e2ad4a91241085949f07572f4cade2d41eba03bd5d08 0x2012f3ed3cf75da429073255df920622d321dbd91fb423e3404b140be630304c5542ef90174f5ffc82a88f5c6e3b2096467b051b248ccfb9bc3cc745ea04df4fc0; P0 0x2025f31428353e4e0d2be2d7a8eb307f949d83c3438ee81376743f4a8f6171c27ce94d1a3d2398510bd06a10b06aff104cc853da96e9c3121a3b16696a07096d3 0x1f1bc0d88cdcf996209de7dbcb6bd670a6570c514715bc4c6e980c0ffb948905e5ed3f6b5877d4067a4f144de6dc123fa37b2cc022e09a22d54a7313689e9505695; P1 0x3c7bbb6b110c5887a59ed742aec2333de2fb97ea73f5e5a98593afeab4d1d24e35e30dafec05b52e8d59f6b1ea5d24303350e4fa002a4e1483b2de2017741021d87 0x148624da26e2aded2ef41fe3beacf8cedabd45c017cb465a57e39442fcb1ffa463b0d196db3440b2dbf38784466f15f9fcef57eaf37b96b3e7ba910b7fedfad1fb3; P0 0xd29e0657e11aa892432707c7eb679602df00e480115e8e589abcc0a4dce0af099daf3423c577bfef32056b81091fe0142edf66dd0ee3251954e1d73313ebe11577 0x35b9eb94c1b57915ff4d88ebe89ac639a53a78d587c291034ddbb8457eebde847acd2d3549e695691097559bab30a11699036d88df6cf63ab932dfa453658699fa; P1 0xb468291edff8e7fd6369e20bba16ce9f7b15d22c63f1c77c2a437ebe3660f3dba88dd71b59dd39ccb037fce48b99f5e18c2a050b5d68d4938661f4f2eb8ae3470 0x1bad9d10519c8073dd1bbc08f4dd9d79dc2e11cc80ddb2507f800791564b1eb39cc6658e27f2180c45deace74ac0b89545ff4f0ed347e0b176b656df90a318df858; P1 0x2fe14df19a255c2505f45cbcf71488bf1cbeba28a62468c575036356dd8e6e54d9a87be6f4ebc6868264877b153f1f2ebd83be0727c5b1e1b616394b5318e777420 0x16d2ba4209ef8715758b696d64420952fbbd2cd87b79aede8c77b8e53068c6bcdaca0cc20c152f61922a810029277fb269412202c8e39f76bf1e607744e3125a760; P1 0x208e57975917faa7f985c53f96613874a5a289a7843bd7616b55639aa2f88947764cf384fd44de98d1559dd58d0ebe5a1b86bb295b0446c689d0324e8e35f933401 0x2798a9bc6a4e00d20691325df76a5d7df766769c2e2e5e8cdb06e8fe8210bc6450d6f216c73594fef2cf2d74fd3b892dcf786a367137e159c68fa0c31f50a78ff7; P1 0x61fdec168ac4fe843333b5c38272bf883294096caba7b92cfaccc732aa7250075837a447d3562aa62b4f3021aff8d3859dde36fcff349df981c5ec72ab591e516 0xa2f8ea942efba2f5687780dcff40273c06a215487430e5a1c64f8a505e7c163a6a81c824f6907ee83de513647f08929d11a06ac84e83e234d0dc6a024618021adc; P0 0x33dffd7570c25eba5a970da2e3bf081d71132b78e600c7f00d7b18753dda85683ad09611b02e479e17c3a2ad02113d08765c615880c27cfcc6fe075f5b89665340 0x12a903fd66269513a59cb8c95049bcdaf5db7ca8a12089d05edff422b2f621983a19f119b1bfd5ce3efe92dfc38f1835124b94c48b923d4107fed66e4706b237fd0; P1 0x15c3425e6fe371f8fbe963b8dce43c64717a7beeffd61a77862a8e5bb041a1308266973f612d128a9a083b1cf00e77f019e3d0b7f9adf4181988a68e3a99b36bbec 0x1600823dc32c9df3538c7df386ef8520be1588c2fbd77731784d8e2a5246587b8b2c2014b2a71bcb93061ad6f243d8310b50c3cb9651839807c5dec1fde876b46b4; P0 0xf20b316fe73a22dd6bc66edd38d0f4c3e2f1f4bd8df3fd7053183310b080e4d25e6ff3cfbe826920922baa549fa37243782514306b8bdef739f3a966085c76c191 0x1aa86f01e371a15cca02999079aa2bb4882acd284b8aeb6094fccc93b78b006c357aade7459903eaa4c4467587756eaf205db8e3f52e79ca22ee684dbb0e97d7c77; P0 0x16352af22681e955edb0d8e91b3c39bb6c9da29507f7d9afde6500a718e165dfe0378487b4e1158bff3c3d21f7f1baebc30ae279ad1e3a30959409782b80f8f3189 0x131589765d7cbf64aaf408f59af781678c803e8bc8442c075b618f271f4f3ebc6fa396220e2adab16732be7ee8e696cc886bd3bdcdc46c3baeeb91da9b77c5f3d80; P0 0xb61a1bb48de0d516f12a7eea56cad8d29c55cd077fc5136b67f9b4c0649b9be36a7cfae58b5c58cd1b344e5dd1fa3cdfcc74421622e74cb87dad1ead695e932bd1 0x104d3567c7ccfa6175cc66728ff8216260b22a395529281b7e007fe360fbe18d2ed47ba5f7a83e420e12b56a6ae501c4d815b6adfd7c31d3a6217297cdbecc411a7; P0 0x84defb1245f9b407f4482d7294c1ba072e8eef17c331121b80b8a978030dd68eebf4d57cfcf1da4dab4df3798fab9f7437792a94679f325ad5162f81d52579936a 0x6407c73c6c58c5b8a18d43e92c9c1fd88196e55753caf177def60ce938d7214ef0d24c08a2d867d8055ff4e521a018ecf0464ce5a8271f9fd6703523cbd8e40437; P0 0x138b09f1da8123040495f90cc5ad5924ffa130e721119a527104637540948229fe59e524a4b934212be2c1710a265a63141113273f174ff66cfd7aa9946bbcc807 0x182dae9c81852b8fddb3b93f8fb7e6418669ba2e5b4f44fdf188c00e08fe6d5f39002b048d13d44d48969f002ba85f2d13d3c4473f996c56ad0811c6ab711bbff92; P1 0x24898e43267a0bb6d31c7ced67c516cbb458d19a2c9c77fbd81b1723dee77fc87dcff2af409abc8dc89a81067b4fa252321b1ae7fe999fc5eed6dbe85199e57ed27 0xd793334a622a36abc0c8d1efb8908c0fa83c126f79038863991b0cde4ebe43988d32f92a824ab10230908d0ec9c42810dd747f0c29cae689bf8d74cd97a39dcc29; P1 0xb58894cae2965d08fee51a2eb4b18e93b3edfd416111654f45aa09383e8ac533a5cf1d1f33cb2b3004be7383577a05a12b0988743598560c2f16a7993e117869c7 0x16dc994a85b1851b8904b9b8ec4b0d26c6b2e05f3a64ad4f66442ae9071cc0ce1ca58ece6808b993772cac44799bc9288716b4249916a9d066c5e795ca805214923; P0 0x1055438516d3abea2370e92e66ab8b9d33a2963a028b429c2c1a5d3653a610ee7ccc957e063e64da7ad3a89e4f50a24625cb2d978ebdd41cd2f4a2ce49c9c80b118 0x11421c653da723792c15a478e71ba74271cda942af5a5b3130020db5983fe2b5bc822afdceed3f615c455b6753a533b26ca11eb05f967a2de05fc94373632f760f1; P1 0x129d8d8198a4a6aa6d32e496e1b40744caf317ccab9e1d54d220b63e971aa68cc0ac4625b098b94c3ec333305f07ff97f5a17d31b0d1791f7cf2338e94c6d308826 0xf76a96d902ea0bfd8d64fc251013fdc99b5ce03ddeffcc53ccbe0a46e04a859066371d36ae1f2247bbd3b12d2afa49c90e7ba2e3655904b661b7747ca69953a46c; P1 0xef1edb78083914556bafe9e642b29fcae16e0e38b51ef1ac121b8c7ea487c2c3af8df96cef6d3e46869fe8c0a581d3bc2ebc20a0d42c81ea5d597bfa5554a776fe 0x1ed3ded083f59a2b089336ea2de73896f7c9506242b0a31e0d7910844a5bbc6ef349225497dadfaba8f986ebdc1fcff36a82a953bf89db8d681dc59defcf556b432; P0 0x1db2bc8f64ab2d971ba89e0949f110d07ebd51f430810eb397d68b34e66b10a323cf7ba49bb7069dc4aa74993f52f5501e8e1f67279d1ef90862f943065bd8f2153 0xf0352ed400efac338a441e979cdfecc3685866ea2393db267477270c9f803db0c17256beda3e2e3c44944c8600e790ff8df47211f7f7cda7927ca552c6439c1d9; P1 0xe163c2d9ee1aa6059f6f950168cd6f7fc289ab236c9ef29eceba0097049925a6f07f4808153377603f84d05baca90641b1cf9bea3e29a1634b79a786092cabb9 0x6a29dac35302378c796a13c593ac3a16db313ee1f513878b6c66de17ba3f1297d5eb92f15efc7d4bf3f2c9a6ec03fa5c46d1068341e5433de8a51be51fbbb78661; P0 0x16035800c71fd58ebb388596caea71c06d8c2f44bb020566e4af2a87653532eba97888f466a86bd05eda98658feae57a8de8a86502bf17eec687c24a2a83c3646e 0x18485003ffc25bcaddd48948c31cba74d9af0868e25c2f50889df6f8e0a8362209847e074ac42c642c47408875a1beeeeec42e435d60a9958fabcd99ae5e00e30e3; P0 0x126d1b6ed9b673991932c8f264da76e22fb526bf43c0370f949f8a34841218850edca75b10abd8488f48c9238f83a8379776601e6627bcddd802dc7a364a54f8b8e 0xc226b636d0a4f4f34306f66eb4bc537bef574cd9136e4f0d8885af32f4e10f631dfff9d49b6808a4aed5ccbf6a2be2addb453ef655698e8baf28fe4541caca894b; P0 0x499f5902d718f85052de12ea978d2336efe1f5e8e8b2a4e3c863e65e87fbfdd5c06640cead02b98f3a71efc6502c19aa13a407c78505b92b3d735018ee8c404d18 0x1af595fdcff4af17190696b16231704b199221cc0cd4693654ed8ba6a8eff30d5a4ddf1548486118710272145b3acf5d2e298e728457ae7fd02651a0d45ce5d4621; P0 0x16b6707fef796cfacd5e8839814a3743afb822bcb3c480c50f0f8ac32d4639712be7fd6fd88bf7017c15a01f1d2c05f44c8f29e8eb3a2e16b8552f4217c4cd60a2d 0x13c84f28c1b58bb06f056a25e42867d11bfe0bf0738980411e86ea8d66f3df166af0030dccf0c48e314eb51dd78b8be142d53b53eaa23f5e103593744651cd820ac; P1 0x187587bd4e9cc719bae0f3e5f634711720d4d0bc328e3a77058cdec8dd0d2c9e19cbe0f441f24891bef1fe32a0b8735c6faff7a4763e499343010ae3c208f32f694 0xc01d2336ae09f535e1eca1d3d7af81c6e45c88864e6ffa1712a635d355dfd97956485f89ca147501442b0c929d90ae08b632ff7f1607ea1362f7d9936cd75a6bec; P1 0x902bb823044a5d56fca9da94d9620f2c5455b699e9f4a677b8eac0cfaa9bd24b00245f3ffcee9dd081258e9a110f3bfaf42785e9c54b4c96d987326760dd871e46 0x3524c5aaa54ca1313d026d47cad5db251eb483b797af8311f8d005e196b776cedb4887f751662f55a575182f28a19da7cebb4cfcc1690b53a2845523d417fadaaa; P0 0x5841f906c882639ced9f2f9667bc67736bcfb06303cd1ae76b1af6763f4f8d754674dc42f4fd12178a63e5bd83431544f16ffe76f85cf07a62f85aff372aac4fe 0x15ca6a5d0f81192cfb2d76a809ebe43936d52a12d76d474f24d27ab4fdcdb70fb3fc3edfc3cfa6dd9e8bcda009631be7c7f1780706fe2b0881f19ceef9da849d3f6; P1 0x1dad57f4b98d88849c7c5f49f5a02b3917023367e13564a8b240dd3f95d4d9c5c6879c0c718fcbbda1aff3f4c9b8849206b85c545ddca87f336f90c25eefabb738e 0xcdcf3d774578857a3a1928c3df04a1567eb898d2a22ca92c63b365de2d391df65ebe7c11ce66ec3993bbba233b7900e18a9f912575043376c5f0ad50224cc58ca; P1 0xa57590357ae76d5ab538c7fcec41948c5b6526c34411a965cd4de6386b86c30a7dbbceacc7eac8f3bae6343637062c0fd81bd54b2cfa48c67595448d3a0f86e4 0x456c579bc8fec94dc3c8e98eb07382bc56ee0309fd09ef34846061978ef13859bd7e910fa2451f29a83a80637c5663ba770f6c8af0fac0dd6da21e6953205a30c4; P1 0x12d3951403c630e7f45136c7361299574ab6dd83604ed8a6ade37de9beceba4af9111b75d383184b903eb8510134265db17f001e43b7330b0a4a2ce777105a101c 0x17146e13697309cda370fafb4a89ce56ba428521b8c7ca7fc530f1bba07bab8f25df8f58dcad72fbed8f9d7cd92f6144b75f1931bf3f11d04d5fc830270829eab24; P1 0x214ad68df4fd5d42a6f957838513e080ea6ed7fd78a75f75edc9d30c80591b4262bb15b2789fc91e5a718fe09b5e1dfb6f6aab832be877596ab229e1f1141fb778a 0x1a00558f85dd54f7b8127fe09c33a5178fe182cfbda36d89abc697308daecae9f326a56d28b7400734119bf4811da066de2dbba482fb61dc55d6f66540ba8f91e46; P0 0x15208b0a1e4ca4f0f8a744d613d85c14f51011f51c17308e049e6a1bdf7be7cd4e6760d78b7ee32266e0a9c98ea7c0d091e569e9dfbc8422f03310d51c7ece22d82 0x1d84dea51de41bbaf82e55d30ebd5e6c18dce50089c7ccbe2a2f50707aafa7e2ddca189d80018406bead0fab36b86374bcea861b42af8617b1b13dd4b1f83961992; P1 0x3675f67c4af4bdc20abee385fd85531584d15535e25dc8d8a8525a0689b7eae9bf2b3a64fed21baf730b7766acd62061ca85973cf941856ea60601ea9177c53a42d 0x8fef0d6d86952aa0e4786d0c5131f5f6027d140e4ebec614ec1a494234eb909c6fe5bbc0c1d16c7adbd12493c4e226baf193b17e8e485154a3bdbd4e1f596154f3; P1 0x50ecf03a6f903eac5fc446713ee6bf3c0b34b84659ff4f4d30627f72c81a85e5d97f9142d759117aa77139e54292c5514d35029aaba43e7e31f26f7d54b9307ebb 0x17e35e4777dca046301712ee266e959da00747c0d008f20bb0a3c74fe18ae7a4b39d4750676bc77a7cc2e5fd6feded9bc849b317fa0b4adcff43e09f039cc8f3cbf; P1 0x23aa4e12d00c60a9350bbb719a355ef4ddf6b60a9d957778a6c865965dcd2ecac320ea2377c73a19e9c56867e18407045598738b5bdcc17c692581867cdeb71567f 0x27d47cce08c4f002ba61780b6d529f97392d435c14e0158c50bc7882b0ebc65a33f218938ba1d7c3d5e7043c0c8b5652189cb3e582f8f23d9a5226d726400a868b; P0 0x3193732dc6162cf9f8819baa01e8e018e0bbcba5e38405d4073bda7e43916d7705921fe6386c2ee5daf7467c9a398d700d150de020aedaf4dfc3487e9a4ab0589 0x1a375620693fde2706673aa67fdeb8685fcdd43706aea8c9c27211e5643384e76f96bb176cda40d65d926b4eb9738756bd1f45b8dc754de8fb243af2ad4e26d19a8; P1 0x2af4974b447fd62c690ee7f15f840ab7c107bc8481ac90693590f97d8d50c0173e2c02ef7f5705df0758bef1e1ed5706774f57a7c572195edb68dbdc4db8c7e8582 0x1a1b42eed2c2668389adebc9f053de29355d978ec82b2647fec4fd2a6e79ddd16d96b944b50cb2e3e7387faeb30e519d3e7c8e7675669edc61f15734f5c43b02ee; P0 0x154c63fd957faa691c628fae255aefa6628247c1e940036f422a5bc86fe7d24b51e20976b916cdf2d5d49df677fa0c5fa0fa59fb4a0cff4299b14375d9dc0cb34 0x745eefb71c794063fda4a23edda2f8bfe6d1975e6b831d33ef0387e1f1af1a4e36d8c73693b4a86ce1e865ac0b7bb2053df38fe7c7f38524b660c1805c07352070; P0 0x1a7316396e5f1ac503057d00fac5dde9ad9f2775526a4bfe3d8519b6a264d85418828f7a53994134e776c940b999a35fcfbefd2a91f1100d4a1750c060c5a78017 0x13d853f036d49c1b4ef96cb93a8559738ac0dfa4500fb11e16bc5f02916957b08c48e81d14e15f7ceaad197599558c34f6a46a13e59feaf072cb86d22cd2587b431; P1 0x189d3436905bae8336b15e3392bd5b24090398c5508155c447d81a06d6445e0afc7a6c38e9b8fae0e14d2f80bd2b09197a864fcd5e68e7eaf4af687c3e08c35c8d5 0x38c4580be5ca95095b986d6ff8e84e3ca484782877cf199233c877cad12aa94f1d1c4706853bb2f18a234ecd8fce4dc22b1742d00125032caad4d0b0dae5169f45; P0 0x64b3e8e128456f891451f00c10c26ffbbbe3b3e44431a2f9d2e661e172e884f8a1d53803eb238eca80660541bc31fc63403a6c5ea4bde8706c2cf6df6258d4019 0xb8b9c08a299e29f236de15cb733695d7ed05dd4df38ce041775997a02aadfaf08f03fc3ebbdbd53ba534b3140b4b433bb3175c635703e669d6414fe008779c3b8; P1 0x854b8b8e74530be2f32722e7a13a00520b12f5b75204d01a1e271b4cf36467e66cc7af06f01c31bc4bd352bfee617b4e3b119fa2ed3779d0e71710d3fb2d3464 0x1f5265cf5766f222c51627b37ed82e2400827212367539617a541f6dcdf3952fa560b5644406e48e2b02d11bddeeeb8d7b686aa89aec853c97c1483fad3bc35c0fc; P1 0x3d50f2d987c2f7d3b63c586978d5202751ff7f5fdbe3618cef61e566f33aa02cbf75a52f9b085ef57c9320f646e7db525af723b071c56a439aa72e8b74c32c53f94 0x137623799ce18e7975225617987b694cb1bd04ccc661140059ecfe1c2d3ddf1109f92fefb68646b4f0e32a40ef6152951c8f1bf16e747cbfaa37fad5343a180e3ec; P0 0xbd5fe463284ae05cd652d361f7b8203bb56a0c58dd34dd039d850ff0af12e61331292888c335eaf8d3f5400c46cff6fcc6d00ef745f30d77311f3ae8ebbe072794 0x18190c1bb8557c4ae710b617f7f93e8c2908898a8ace19945b10f5b2972c23ce532f90d0006acebe34108dc27d3b89c68c67ef9a1cb64614fa77a8e604398d62d5c; P0 0x1225a5c484652245e2f400ae801f7aa1141480b53480e28c69035cb2d9d9c37c440f77a9fa72f44ced3ecf92e7b7eef076eb1084ead5c4a2545f892312dbe67473b 0xf63b4316c8d4f4872babf717ac82e8c58f34b8b862681de0fd8dce1acdf1ea5fb4706eae6b09d46b813371f3c607c35c9d890c9311cca25b915ca1825f147cebfd; P1 0xecd5f2a7c80ec7431862d7760708f1964939f91768b284139266881a8209a1d3b8162c96839e07b9f932de16fd820af8eebfd8597f72a7b80fbe52c6333285b9b6 0xdfda8cfab1659798ec48468ee34f058d00ec94a37c658976892c0dea325fe3d26d2f529a26c6e19f43f23a77aac13d009a556ae9197492aa36280716e8443650ac; P0 0x61df3e1894d4235457a0a98a0a708551bb31905321d359a3bb30d41acfd86b4bf4e12142c58d073830e2b27cad2aca8ab0c8b38fb7f596084bb0f301266737893e 0x6ea380feeb313548e9263601b1bf709d4ddf2bb1607b5f0ef879e2f513205443ecde9ab5359ef2318f27261f8ec1523ed4624bf0875b1353da768a33500bdbe862; P1 0x2fd0eb4897bdb37d4637c43065ca68c254eae65e184af276be011cab2e6f5ba7a809cd3453c96c58126974f141b4fb518f4ac592416b3a9c690bfbe8fce798285e 0x148e2fb457c470ccadb6d4af9e5ab9ccb91f630c0b0d9a8d4e34a6698713783eef3abccd63668fd8100162f98e226cf1efd3555036017d6a7f6b7aa17ba068d67ba; P1 0x1a6866d22abc6d2c9f62b14d7f56cf471c21fdb7e8144bf7485a114b2170e5b6604fe3b05065244e7c0614ef032921ff19107b75f41e013c3723c9c7d1739d9f298 0x60e666f5028c96567139e6e74082951b881abbc3667e4568cd3aaf73f6de403f5790f9acb8dbcf961ff3c4842760fe219920096092a1e5b3f9a78e8230f5297ef0; P1 0x24ad9c94eb922de4e12a04755558415265d2db146dae0d6624d0b0d789ab16cfc0f27882564528a4d64d717c5923cb7ad7ed97125d3ed142989ead68481ceba47c 0xc50db2bac230bb1b57b39215729a5d664d2e462e139e6973626b08b04ea44ad67bc5864f40496d0c2bd1c03483e325f86470943713f4c059ae2e150f4f47f909a4; P0 0x4bd70ae7894f7b9ace088acf9249a9e0b039d5ac40a7df45ad019cf04ce2a99045f450efe2037c66deac89d21d9d783c9c5c4e3b091b755aadbe733003d0e501d1 0x1ca60148e5ace8a3d00f0e57c1ebf409647454fbaeb82795a43e1b7055406781f3c82012cf22ec6d716e9c6fc920b2222e770857f75520474e635420d7b25ea3cb7; P0 0x19a5df6ce64aad7718c07b6ba49d90ad1f4ca4ea807b4290a92ff0021e395397021a9d9a05ed9cd5e0ea34ae32279aa2785979a0b748ac7ef9f0ec72dd1f5f6e1aa 0x355410e64b9aba444f4ca6e30965b1d86270346f1df2c1267dddd968504dfbf216bba711ca90e62fe80849852f23e8816bf8a949a180f6a315b9203d8535edf3d7; P0 0x58df54d39c6a3a4e6a6855c20d4177caa16c49f3eae780b8aa9facb18efec8e44b1cbb578249cc1d4ce12a054d1f00ccb51f2b0dba8c94db650d7176be051195c 0x406a6812060171c3933203bb24d6ec58995efb8f87d6bd3039222bea3312ba7a686ba08dfce724a5f2384a75a25b39165077724d35cce35eafa2ad833d31760a55])]
].
