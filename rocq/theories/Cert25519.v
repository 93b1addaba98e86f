(** * Cert25519: certificate of the primality of 2^255 - 19.  Written by /verif/tools/gen_primes.py. *)
From Coq Require Import ZArith List.
From Verif Require Import PowCert.
Import ListNotations.
Open Scope Z_scope.

Definition cert25519 : list pcert := [
  mkcert 991 ([], []) 0 [] [];
  mkcert 103 ([], []) 0 [] [];
  mkcert 0x82d4b5 ([(0%nat, 0x82d4b5)], []) 2
    [P1 0x0 0x2; P0 0x0 0x4; P0 0x0 0x10; P0 0x0 0x100; P0 0x0 0x10000; P0 0x1f4 0x788e7c; P1 0xde2da1 0x7a014b; P0 0x71c64c 0x3d883d; P1 0x39e123 0x29353; P1 0x19f5 0x2d9b99; P0 0xfe620 0x4c6cd1; P1 0x5949a2 0x52cdb8; P0 0x346827 0x1444ad; P1 0x647a7 0x53c4bf; P0 0x35a2aa 0x1a3c4f; P0 0x542d3 0xc2532; P1 0x24144 0x28674; P0 0xc7a 0x1bca4e; P1 0xbce59 0x39c69b; P1 0x330743 0x16a553; P0 0x3eb78 0x533d11; P1 0x69eaef 0x5f2f47; P0 0x454029 0x82d4b4; P0 0x82d4b3 0x1]
    [(0x3df, 0x346cd1, [P1 0x0 0x2; P0 0x0 0x4; P0 0x0 0x10; P0 0x0 0x100; P0 0x0 0x10000; P1 0x3e9 0x6e4843; P1 0xb9ec11 0x5f870d; P1 0x8b8039 0x69105; P0 0x545f 0xa56ee; P0 0xd12f 0x6ff309; P1 0xbf95eb 0x1e917b; P1 0xe48ce 0x1108c; P0 0x237 0x64afad; P0 0x4d7cb8 0x346cd1]);
     (0x67, 0x41f04d, [P1 0x0 0x2; P0 0x0 0x4; P1 0x0 0x20; P0 0x0 0x400; P0 0x0 0x100000; P0 0x1f4eb 0x7539d9; P1 0xd21254 0x7c2e7e; P0 0x75deca 0x17b932; P1 0x89a7d 0x6bdd27; P0 0x58edbc 0x6e9605; P0 0x5d794e 0xe7ff3; P1 0x336c7 0x5d7a9f; P0 0x42ca7c 0x621515; P1 0x930ff5 0x5bb39; P1 0x808c 0x65d266; P0 0x4f3eb7 0x829d41; P0 0x8265e4 0x41f04d])];
  mkcert 127 ([], []) 0 [] [];
  mkcert 0x6d1cafa129d0b ([(0%nat, 0x6d1cafa129d0b)], []) 2
    [P1 0x0 0x2; P1 0x0 0x8; P0 0x0 0x40; P1 0x0 0x2000; P1 0x0 0x8000000; P0 0x9 0x29fdd35587a9d; P1 0x2052167bb079a 0x295b2fbcd42f4; P0 0xfaccef3d770b 0x61166addedc17; P0 0x56636232de3c9 0x6b0a0954e7b6e; P0 0x690177c41a7c5 0x45420b5fadccd; P1 0x57ec007cd6657 0x3b98a4bf53795; P1 0x411a267b18c5a 0x37e0f607e7f94; P1 0x393bc9fabaaa1 0x4894d4d314935; P0 0x3047f9874ff19 0x6555b55fdf9e6; P0 0x5e1ca4aae1695 0x8d138ebee13d; P1 0x16ccf3293409 0x578c2671fcfaf; P0 0x463ead5a78070 0x4c09b770744d1; P1 0x69fa849d17c05 0x468400872000b; P0 0x2d926e8e3b252 0x5b3ea75e30cf3; P1 0x989b41af0b741 0x5a17505e6a087; P1 0x94c597b162419 0x4630268a12c4f; P1 0x5a4c9adc566da 0x464d73f2f6364; P1 0x5a981035c5dd1 0x25bb03d69c925; P1 0x1a1819a5c463c 0x1223cbf886e1e; P0 0x30407778414a 0x2127135d49b56; P1 0x14256e61a1a00 0x4918ac85163c8; P0 0x30f8001cf5dda 0x4938d0da891e2; P0 0x31231a3cc4253 0x37d8eb9780af3; P0 0x1c95a93c5881d 0x5997b1847406a; P0 0x4990a21eb6deb 0x5d349af453cb; P1 0x9f3c52134a7 0x1b30a8554d7c5; P0 0x6c68dd5d2aa8 0x548ac4b2aa061; P0 0x418138e8c2f1f 0x4a2d12b335b6c; P1 0x64da21ed56fbc 0x57f5fff71d20c; P0 0x46e8f0204d68a 0x47ad71b73d6a2; P1 0x5e2c1b95655db 0x4b0e49a3b7d9f; P0 0x33a11743de844 0x6664fbe0bf9d5; P0 0x60172825e20f9 0x206b2c857eb86; P1 0x134397393c756 0x52dd302e14596; P1 0x7ddc455010ac5 0x336910aac2051; P1 0x307237e0d8fef 0x37c19492ff0fd; P0 0x1c7dc9c8dea3c 0x33f45d6c97d75; P1 0x317a24c85e81d 0x5dfefa9462cb3; P0 0x50f95e67e9ce7 0x3147a3c99c3c; P0 0x1641c84c736 0x395bbb7e480be; P0 0x1e26fc4616973 0x16fca513d7e13; P0 0x4d7bb648859f 0x553615ee67494; P1 0x8517816a0387f 0x242c583969aab; P0 0xbfe05d5278e8 0x2f143f8d4b441; P1 0x28a07b2ef46e8 0x6d1cafa129d0a; P0 0x6d1cafa129d09 0x1]
    [(0x82d4b5, 0x3c3ffdef7c0b1, [P1 0x0 0x2; P1 0x0 0x8; P0 0x0 0x40; P1 0x0 0x2000; P0 0x0 0x4000000; P1 0x4 0x4b8d417b58bd4; P0 0x3450586284584 0x3bb9bdc82f6e4; P1 0x41628a3768afa 0x5f18e786eab62; P1 0xa5c3e707798c2 0x34a24d67198b2; P0 0x1963cc5a251c8 0x404d9a606b02c; P0 0x25e55607fc77f 0x6a2603b88121b; P0 0x6743f2f64922e 0x19004c5c350df; P0 0x5ba84e4e1845 0x42d8f2a2ec64a; P0 0x28f43d6bc9557 0x508eccc5fc7a7; P0 0x3b79e2a6bfdd5 0xd194095d85ca; P0 0x1928cc8673b8 0x4eb4d9d00b27c; P1 0x718c2e6325cfb 0x28416ba0b6a57; P0 0xeda0ed36c4e9 0x2eb989126ce8e; P0 0x1402412e64a0b 0x5772cd6bce94b; P1 0x8c2c0c46912e0 0x5d322c8ac0852; P0 0x4f9a01bd70e01 0x4e0d9428f0339; P0 0x37d5c607f3046 0xfeb816ba61af; P1 0x4a544fc80345 0x4c0d7a2b0b64b; P0 0x3502803f9c5e4 0x259cb28ce652d; P0 0xcf71d99d3f16 0x38f03576a55f7; P0 0x1db65a4fc08b6 0x675002e71f67f; P1 0xc3a47fef8493a 0x14b705744ee84; P0 0x3eec75caef7d 0x3c3ffdef7c0b1]);
     (0x7f, 0x20c92d89f364e, [P1 0x0 0x2; P1 0x0 0x8; P0 0x0 0x40; P1 0x0 0x2000; P1 0x0 0x8000000; P0 0x9 0x29fdd35587a9d; P1 0x2052167bb079a 0x295b2fbcd42f4; P1 0x1f599de7aee17 0x5510261ab1b23; P1 0x84a119e9d77ad 0x5c877d3f19023; P1 0x9ceef374800c7 0x1af21dd8ab605; P1 0xd4f0c7f1d6ca 0x5a8507b4c1b84; P1 0x9630d05cc23e3 0x4b180bcec765f; P0 0x33ae85025404c 0x118c2f68357fd; P0 0x2d270fd07607 0x50e1fbe5692bc; P0 0x3bf4f6989359e 0x15cd3a87c646; P1 0x8b65ebb00e 0x67ae1e5b38fae; P0 0x6284c70759402 0x162383d01442e; P1 0x8fbddd5d71f8 0x177c607aff2e0; P0 0x50e22a493e40 0x4fe9e97d95740; P0 0x3a876259c0b46 0x20b1710b225fe; P0 0x9cbba1fb851c 0x3b230b07283d0; P0 0x200d1ae911e22 0x62ef0d703638a; P0 0x59b47aad30ccf 0x314767575867f; P1 0x2c832365b4baf 0x4f9080dd9d27d; P1 0x740968aba26f7 0x4a785ab37a75; P1 0x65a73f6d634 0x3d6aa47c25ab6; P0 0x2291e67cab16d 0x37f19dfcd00b5; P0 0x1caef6deab964 0x415981a1234ad; P0 0x2723ac50a9795 0x13cb87645d882; P1 0x72eb1fd65ebe 0x6aae77eb2abde; P0 0x684e1c7049aa7 0x257a4a6514457; P1 0x19bedfd64fb5d 0x20534fa8fd523; P1 0x1327459067db4 0x21fc8e813bad6; P1 0x152c269ed8bb3 0x278626bc78e17; P0 0xe5121d550448 0x593346d482ef9; P1 0x91d82d6b00387 0x4b163bc24ea95; P1 0x67580c9805988 0x3655d6bd349a; P1 0x361d902f727 0x46175c0f44f9b; P1 0x5a0cdc397b54c 0x119024765a96e; P1 0x5a76df308e1f 0x6027da76fb833; P0 0x54bcdfbaf2a0e 0x4ad3eec75f58f; P1 0x66a1dc7a65bdb 0x3ccf22a0ca59; P1 0x43c76828df0 0x616e4e2d8dc92; P0 0x570010a0184a2 0x20c92d89f364e])];
  mkcert 419 ([], []) 0 [] [];
  mkcert 97 ([], []) 0 [] [];
  mkcert 0x8aeab ([(0%nat, 0x8aeab)], []) 2
    [P1 0x0 0x2; P0 0x0 0x4; P0 0x0 0x10; P0 0x0 0x100; P1 0x0 0x20000; P0 0x75f0 0x818b0; P1 0xf19a7 0x54d73; P0 0x33d08 0x72d51; P1 0xbdd8c 0x502be; P1 0x5c896 0x419d6; P1 0x3dfbd 0x61489; P0 0x4420a 0x6c8a3; P1 0xa99c5 0x592fb; P0 0x39423 0x584b8; P1 0x703d6 0x1848e; P0 0x43ec 0x6f820; P1 0xb3037 0x57143; P0 0x3695a 0x7ac6b; P1 0xd9058 0x8aeaa; P0 0x8aea9 0x1]
    [(0x1a3, 0x39a80, [P1 0x0 0x2; P0 0x0 0x4; P1 0x0 0x20; P0 0x0 0x400; P1 0x3 0x5f3ff; P0 0x414f1 0x64d06; P0 0x49298 0x3609c; P1 0x2a0a8 0x73de8; P1 0xc14a6 0x6259e; P1 0x8b432 0x3c1a2; P0 0x1a00c 0x39a80]);
     (0x61, 0x6b524, [P1 0x0 0x2; P0 0x0 0x4; P1 0x0 0x20; P1 0x0 0x800; P0 0x7 0x33953; P1 0x264eb 0x6fed9; P1 0xb45d7 0x6df45; P1 0xae0f7 0x66a35; P0 0x4bd56 0x10287; P1 0x3c24 0x2256; P0 0x87 0x6d8b7; P1 0xacc41 0x837; P0 0x7 0x6b524])];
  mkcert 0xa54d83af ([(0%nat, 0xa54d83af)], []) 2
    [P1 0x0 0x2; P0 0x0 0x4; P1 0x0 0x20; P0 0x0 0x400; P0 0x0 0x100000; P1 0x318 0x98309a98; P0 0x8c1dfc74 0x2c84af4; P1 0x17fa90 0x8377f8b0; P0 0x688f459a 0x495516ba; P1 0x41106814 0x49939c9c; P0 0x20bfc4e4 0x818a3b34; P0 0x6583ab6a 0xa325971a; P1 0x14209baa4 0x4eeadb2c; P1 0x4b5a23ee 0x9891456e; P0 0x8cd0347b 0x7c42aa2f; P1 0xbad10a0d 0x5ec9635f; P1 0x6cb42653 0x66c78ec5; P0 0x3fe79c61 0x7f5e9a4a; P0 0x6224201b 0x751659ef; P0 0x52ef7072 0x8629d933; P0 0x6ce3dd5b 0x69349df4; P0 0x42f50822 0x2fb13b52; P1 0x1b8516ec 0x76945d34; P1 0xaa202005 0x154432b5; P1 0x578ce13 0x8ea6cff5; P0 0x7b1ab27e 0x702da257; P1 0x9840e357 0x763485a9; P0 0x5486c68e 0x5ffea47f; P1 0x6f7dfdb1 0x1c3eef03; P1 0x9a725a7 0x817301e9; P1 0xcabe912f 0x1; P0 0x0 0x1]
    [(0x8aeab, 0x798c3865, [P1 0x0 0x2; P0 0x0 0x4; P0 0x0 0x10; P1 0x0 0x200; P1 0x0 0x80000; P0 0x63 0x13061353; P0 0x23077f1 0x865a1c2a; P0 0x6d324295 0x5b627409; P0 0x32853093 0x655dbad4; P1 0x7c518570 0x170ef790; P0 0x3376b1c 0x1109a4dc; P1 0x3831ace 0x1ff87d4e; P0 0x62eef51 0x798c3865])];
  mkcert 0x10c9df5fc7 ([(0%nat, 0x10c9df5fc7)], []) 2
    [P1 0x0 0x2; P0 0x0 0x4; P0 0x0 0x10; P0 0x0 0x100; P0 0x0 0x10000; P1 0x0 0x200000000; P1 0x79fce030 0xf5b6beab0; P0 0xe0c37236a 0xd1def5b9a; P0 0xa3f8f69ab 0xf1eac3fb7; P1 0x1b3bdf3000 0xef638d9a2; P0 0xd5574debd 0x70fbfc299; P0 0x2f85db9fa 0xbbe94e81b; P1 0x106e83ea54 0x9ba59266; P1 0xb460082 0x2dd905e3a; P1 0xfa6911be 0x4818fd96; P0 0x1359e96 0x8261fe34a; P1 0x7e92616a8 0x29814ae30; P1 0xcd3826b7 0x2969d90bf; P1 0xcc5090af 0x5387873f9; P1 0x33f2e269c 0xb60db691e; P1 0xf6c57aac4 0xba3bac4ac; P0 0x811db486b 0x70f7dd363; P1 0x5f04c8764 0xdc89d55d6; P0 0xb510af7d8 0x7369bfdfc; P1 0x632d0d93c 0xd5e0dfe7c; P1 0x15496bbbe5 0x344308e1d; P1 0x145605c1c 0x81b0e60ce; P1 0x7d3b74e55 0xfcbabdc75; P1 0x1db9029619 0x278d1a683; P1 0xba5a42af 0xc640e8709; P1 0x124a4a6118 0x462ab9afa; P0 0x125423c98 0x2246c39fc; P0 0x45fb05e8 0x3ff5780b8; P0 0xf3a97c63 0xeaa3164b; P1 0x199e93c8 0xc7c91db7a; P1 0x1292f00f81 0x1; P0 0x0 0x1]
    [(0xa54d83af, 0x4000000, [P1 0x0 0x2; P1 0x0 0x8; P0 0x0 0x40; P1 0x0 0x2000; P0 0x0 0x4000000])];
  mkcert 0xe87c2a477b815a1793787395b23e1 ([(0%nat, 0xe87c2a477b815a1793787395b23e1)], []) 2
    [P1 0x0 0x2; P1 0x0 0x8; P1 0x0 0x80; P0 0x0 0x4000; P1 0x0 0x20000000; P0 0x0 0x400000000000000; P0 0x1 0x1783d5b8847ea5e86c878c6a4dc1f; P0 0x260e22dc1f841ff3c9c7e3d185e3 0x43d23144337fac8e78ce6b5d7963e; P0 0x13c8f04ce2a338c05dae4d16802c9 0x65c23d8b75c65f0476c155d11c95b; P1 0x591464bd8278decfb1f791faffa30 0xda8a8b727f97db6e192906cfc9882; P1 0x19ade0a87c25a4eff450e4eb7053a0 0xb4c116eb467a32aa5604f28ce468; P1 0x119118554dc032bd1b09aef20e94 0x4e465d1398f8ac98fb97a7db9c86c; P1 0x34b557ce4a7b680ed261d9c45d608 0xa361e14a1dbcdb1bdeae2bf85a618; P1 0xe5a388454eed047da56681506f809 0x580df7aa761ad950fbd2e062a0997; P0 0x2159da7c06d246d24d7013b31c7a5 0x94ee73f753aa879966948b034f00c; P0 0x5f680f7c3c2e2e2894b66023a0883 0x29d6007e421d38f42431d03a1c6d; P0 0x78746ef05307b6a8c123bac07e 0x8b9fb9e1de26fa8c66ec89a4d9dab; P0 0x53daabdbc6a7de996aa2ea27e302d 0xdfe62852199e6d7aee6e5bf7bb1ac; P1 0x1af42a66f802c4ac58b38acb105b64 0xe777cda8c9ea5a398319046c3983c; P0 0xe674949ee2f392931609e4e53c7a1 0x32155c7583c4648a4dc37fac6d68f; P1 0x15941f6f49a3a421cb7b0d11f03b8 0x376c7bac166388049830275e25b0a; P0 0xd367e61da6bd24d896784352eac0 0x5597b8b2fc2f25a1d369e4dcf89a4; P1 0x3f063911f35d72572d319e17d01de 0x1b5c247859c8fb3aa7079b467e402; P0 0x33847cbd19f62651ba74ec29591b 0x2f88732a7b070e053bddc2d908e49; P0 0x9b7ea4ace11d444c05820d4c86cc 0xcfb7aab423cd4017f2e338e00b385; P1 0x1732d4b7ffd442e5a9f87c111249cb 0x1ed4b0ae4ded911562df02473e9c7; P0 0x416aed8b83e7b65d4258b9bb1ff6 0x22e89b563807348ab439fe0fe1f7b; P0 0x53ddea703a2f96d8598078688137 0x82d8cc0fe0415379eed770e1eec2; P0 0x49a49dbcd7eb8bfc4fe41b0b2ef 0x1b7acad60cc98ac86ed0898f859f5; P1 0x67f054352c7272e7cde3dd08a5a9 0xde5fe09867b56afd1f390bd45d469; P1 0x1a9684d5ab7751341c3c64317433c1 0xdf966e753e182880ef930bce04681; P1 0x1ae0fbcb6d747e7c95e1c02d51a3f9 0x8d9f235dd765a4c762be121a67129; P0 0x56455853f159a58c7f31b299c6763 0x2115c04fbd6a3d6e3c12c566d18e; P1 0x96aa987d61ad86d2e774ba4ef6 0xe01e3e4e379f68cc965a481654d52; P1 0x1b01ad066b6faff5899d83370558df 0xc0d67e4e65029ec40230326fe4389; P1 0x13fe76b80b54ba7ba28c2e0fe5a55f 0x5b2aadd581ea00b4120643522a923; P1 0x4780112b5a93f8af6ca01976d2f39 0xe3ad2ebe8d7e2b7dc77a737682979; P0 0xdef7a9205e2739d01965d630f3278 0x7eb47565b60472aa29b86ea1e37b9; P1 0x8a1be6dc8e5a05a47fd796bcb948e 0x68b661c1e35b4103c5a6e9f430c94; P1 0x5e5375c285d5b75d742e816854905 0x7c25ff24c5f58f4a4a868c6448ebb; P1 0x84978fca2795c874f73420186bd11 0x6ff3aae136254c545d4fd0c877a41; P0 0x35e8e5f584c2c69f123050a02055e 0x3565832936bd81385c75a5a0372e3; P0 0xc4393a54a6b2197df7c80baba8de 0x66fdc50a7c3042185e0545201302b; P0 0x2da0158465d2d961549a39af92ed0 0x3820cf908b1e082ce9669bb0d9269; P0 0xd8d04eedf0acec908b922d228b35 0xc6cae75e5485ef50ecae0eb2a567c; P0 0xa9fba42514ff4d360c7c8eb18d3cc 0x4d5440b90ddd85011d7d6a9c81c4; P0 0x19b89ffc92b2946defd6913d969 0x5f9aeb92469b4491c7f9ffe28adc7; P1 0x4ea1b704ff00ab39a6c8c67cc40c9 0x12675193b8e3aa67ca606079b5b9; P0 0x174f311dce817c956252f95326 0xb4179e764793a26a2fef701ded94b; P1 0x1170370de0c87a81b93d60dc8beeec 0x796c0be82fc03c2e6d426e67d3686; P0 0x3f6a8be3f62a101580e54b74aeb8d 0x3a68ee1df8512bebdd50b9b4c8037; P1 0x1d5997cc96d603f6a5dffe2dca796 0x8360361021940b1a18fed6e934acc; P1 0x947ab3e2bc6ce251f3bce4e508fed 0x9ccc56d507a8c867340cad18a3ed3; P0 0x69c06c6cb57cb96dbce4d400f19fe 0xb9300a73b6bc293f15f7727c94fab; P1 0x127067331c1ea30971936f75a94f89 0xa39811064403f61ef26ec44405609; P0 0x731df9e7d2cf083b223eff9c9af5e 0x9fe38170fcfcf1a4bc61787c310b3; P0 0x6df622dbccc907e9ebea74069b4cc 0x9995582f14db5215f2b327aa511dd; P0 0x6575acfe7940a1add556e048c3c89 0x8c4534aa8fdf0ca37a4e67ae62960; P0 0x54a1e56cdeee98825fd627858eed9 0x27ca24f028e8a733934a3b83b4c47; P1 0xd9eb372febf893ab7b968dcf11f8 0xa753e33b0ec8b866b117f114cc46a; P0 0x786e80986de7100157c7a246aa3dd 0x823298bae76c483b48f033ef23fa7; P1 0x91d3ff683d8fe6ef62ade31e24bc9 0xc4fb20d734cef264a458b1d6b2739; P1 0x14dcc41558eb17664a1b513dbb0eee 0x91339d4fcb88c53d7d41a52442c34; P1 0xb5600e0f19b32e08af0d67b4906fc 0x4957bcad115692dd2ca4cb7cc3da4; P1 0x2e4678e7a4af86952c22cc30c3239 0x78dd6af4c45be8f58894fe4963307; P0 0x3ed5e77e63e7aaf7bfe840fb39d3e 0x557e7f90af8cc4b374e913ff91cb3; P0 0x1f708cb350d253be4368d061efd36 0x61e460c6a0f5863cab6a74b60b6b3; P1 0x5270449572f705d9fa7c556020c83 0xe438e2afa6634a4072d7558321a2f; P0 0xe0099d89432ab17d4b6d4171bdc5c 0xeb7c1a89301c92f2ddb79db853c5; P0 0xee85f36d5937ea4688839fca4ed 0x39a79b4311c9c10fa3ff341c0fa4c; P1 0x1c9890b11c30a4405a206a03f3234 0x1f564027b99a255ec4bea158cd16c; P1 0x872a803567d2e47dc1e5901816b4 0x81cccac7265355bc70a81cca07aec; P0 0x4878258b7379ce421f401d4c74735 0x5b507f5d9ebfc23d302a34cf4fb; P1 0x47bb6f8b0b4cd10fbb6c57dec 0x84b47125c5c2a2433f622103febc6; P1 0x977fa44ab46b57bb20de41883409f 0x76aba3f969af224dfda556c7bb189; P1 0x79262e54268732d2f36fba255a162 0xb73ecd5214b67c68dfcaac7603980; P1 0x120de710c1d5f88ce1eee8b1336420 0x601a1fdc61ee5fc6950f2dd991fe0; P0 0x27b9c007ef9c84fc233bd5c8ce29b 0x4728c0a95a2f1b11291c432d0a8c5; P0 0x15c7cc1dc5a3ea88f41f305ea73e8 0x399ec04256cabe6a84dc2870290b1; P0 0xe47e447cd180ea94846fe29dbbb7 0x4363b1db3b7e2b991cd350c32998a; P0 0x1388acaea6a25f345644b842329d7 0x26fcbab0549057ba4d7e795f1136d; P1 0xd137e107af1893f90a231729d5ee 0x58202606df3617def1cabcfc828a4; P1 0x42cf433cff4a62f4db61d0d55c1d8 0xdbf1ba305b1e1ced973b90bbf6b48; P1 0x1a028ef82fd9ef4445fef4ae49a6cc 0x84b158b54a9e4de09d40bedbd0b34; P0 0x4bbc49859eb7e32c438c283c49caa 0x64ae039d54d1fbfd76c6a979e9326; P0 0x2b99ab8eb9a9851c75f97839492b3 0xd859ac1eb75e5812cf841d5384151; P1 0x192abae6adb570d0828c9ecbe9e1db 0xa1ca38ef63ec361e984029deb04c7; P1 0xe12f2aacf16914cbd7e1786cd1232 0x359e37ebc0578d1a9d9079961d170; P1 0x18bb5ba29851f016b8bdc1f059859 0xc803ffd094a70bbd30b23840e10c7; P0 0xac14bad3d04c7d5c1d8f9687d4e3d 0xd7546c9bbe79c90c3fdddb25a6014; P0 0xc770c0ca7736073f90a53a73f79eb 0x81c45287df43465a857052c20b905; P1 0x90dd61717efe17968de3515871916 0x974304a17238fa2298925c8f365dc; P0 0x626a5e0c929460830b0b08c3bebca 0xbba4b577ba095feebc3800b7a7a86; P1 0x12ee6cfd4aa5cdb57619e28cad4c66 0x860fd729016a6e3205180d8b3e4a2; P0 0x4d4e722a08ce3f1abd84e19c2de2c 0xcfb49d9c5c1b9661d431fd873add8; P1 0x17322640f79a5e28f7079718fd1d6e 0x4723e1db5a74ca1b46f23c6a464d2; P1 0x2b89a1f1eaef992d8688be1711aca 0xd6eb1d1d1772af35dea6f3ea94efe; P0 0xc6addc39da26e01af2a9526eff0b4 0x915c506193df9ae539a47c0f499d0; P1 0xb5c5c9c8b072fb42a88889a386b28 0x34175534e1f9460769a73e05febd8; P1 0x1757e4799ad15c49bc6622c94cc30 0x9095bf6278a55b489c968fb6a8650; P0 0x59eb401d176388cc10a79266b886f 0x20371a2a4651850cda6d5b218c271; P0 0x476cb2bc77b47a39693a1aeb1822 0x742a8690b1509e2852d3539dc99ff; P1 0x7416fb47f672358515ee1709c0fca 0x7e097e341c361892d11784bb51978; P0 0x445416b2416ecc5d7c62e46cadfc9 0x5591710bd8abd44b8633f13de7d97; P0 0x1f7e7cf1b793f8067c9d1cb0a3641 0x435aaa1b5c8b055e34c31de013cf0; P0 0x138370d6d777777970395ae7a11fd 0xba45e6c2e52db5b6515804b2faa3; P1 0x12a7e5f3e788e39aab7488c99014 0x9211efcc703ef840caea6bd2729fe; P1 0xb78d2212aa3e85d0afd70a155fe25 0x9d12f8fa228178a3091169a144283; P1 0xd43f915e41f089bd3d1bf8210bc51 0x212d58621d0f9b0ed38968f4007e1; P1 0x9781c9284ebf5cf93beb799f9fd9 0xcbf575a5ed4b0585efc9fc232fec9; P1 0x165dd9c0e964bdc354d84cf6f52cbb 0x9236b08be3e3a0afc4edc341c1247; P0 0x5bf4c5db6ab80bf1fe010a1d6c433 0xd1b2ad899f6e641aa1ede251fa5de; P0 0xbd24f5fc1ae3a8386dac49de75d24 0xe87c2a477b815a1793787395b23e0; P0 0xe87c2a477b815a1793787395b23df 0x1; P0 0x0 0x1; P0 0x0 0x1]
    [(0x6d1cafa129d0b, 0xaedd80ab27e8de3ca5f2fb22d5403, [P1 0x0 0x2; P0 0x0 0x4; P0 0x0 0x10; P0 0x0 0x100; P1 0x0 0x20000; P0 0x0 0x400000000; P0 0x0 0x100000000000000000; P0 0x119e4b 0x72c84b3dffef4313c76ee90369f15; P0 0x38ab99a6093b8d26c59c427bb6ed9 0x17dbb00000; P1 0x0 0x4726c4d320000000000; P0 0x15c695414 0xb14f313a2832003e0df7609d25e6c; P1 0x10e74ffc7cd79d56dacfe997a69aba 0xa868cd4e3f37a9c111b58cd538fa6; P1 0xf3fccd3acece8b4c90fc3f432abcb 0xbdd70817144567f7b79ffd24f00dd; P1 0x13608e2e4dc74b97e87d237b6117f4 0x9e10535caff837d7c5291aa75141e; P0 0x6b7735769813f8dc240ec6a191e29 0xda7fef63e9d7012b44eb0b43a967b; P1 0x19ab626e0cbaa6cbf5cea79f50a0e2 0x65129e2b8099eaef71586722e7190; P0 0x2bf0f994250e217a5f866a39cdb7d 0x772a1cbc4df204759de3128d27123; P1 0x7a28f1f60d0198825756f682c3f40 0xc5a158f0a198c844e78c5278e7e52; P1 0x1500085f70990a6fdf85bf7ba5710b 0x9764b1a5c7ff9e68e8907cdd3c8dd; P0 0x6296351db9d067a09d06a9ac0df7c 0xa27df394215b46f6c316c3cc1aecd; P0 0x71924752c08a5469d526b0e456190 0xa408a65f29ca1e95758135af3e099; P0 0x73bca22d29e81705dfdbc25d1bde4 0x1500cbd7bb1659c25e95a8d280a0d; P1 0x3cb7fa9ade9c3c6b37db68ae6035 0x544894318d7866f3a797114a93bbd; P0 0x1e8e3942e1ae5351cd4e9c04c21fa 0x70393e8f73104ca3641dc4c0d9ecf; P0 0x362bfd01b40f9627729ccf421a116 0x4ea08212a042d1f9374dd1823950b; P0 0x1a978256ef1b0ad9553133335216a 0xb2171325b2f1c1a49ecc867d5f24f; P1 0x110d81e88113a95202ac98b0985fc7 0xbf86be0836a3f23e7b5aaf7dd85db; P0 0x9dc89e11e3213e6f11bd2b7b7207f 0xbc4e928b1eee0a099e939a6915cba; P1 0x1310c2ecf8719dcd55f531296ef694 0xe5573ae0f6d4b703deefa97bb7a34; P1 0x1c47a5cd38b35d1aa0440bfc643a4f 0x28070f0ce68ad04dceeba5b7628b1; P0 0x6e443865fd1d4c8abca6ea6294d4 0x1bc45971a75ce48d787f1c94a000d; P1 0x6a1fae5b13ec444bc00fe0982c47 0x7fd4bd56803e8342be3d722fe61eb; P1 0x8c932667a5772c2c2747c57879dd1 0x71fe4636598a26698c235a47f93c1; P0 0x37e4cdc73e4d914a70790d764e124 0x194edff57d80e5c9761410876add; P1 0x5829194dab89275a82fd93113a 0x4d5e3bd4945f807e7638c00287398; P0 0x19bf442c72f1fd843b9b708df2462 0x9655fe00e0ab5d432b07544c38a1e; P1 0xc26dc2013867f2b4c851793f13fe2 0x4891f7e860d2c9d222d333e55ab66; P1 0x2d4e395c5b6c51d5c1ef6830e2963 0x695d4a8e9b68c082ac4a078aef045; P0 0x2fc08d3ec89786828fc9e8ab7c547 0x491c3082d7b3a52763f0c34935a32; P1 0x2dfb72ecfeff92cb60a69aa6f1f69 0xe4e7c5fff7f1a4e4a7840821d6d3f; P0 0xe1617de22bdebb27e98cbce4e432d 0x52ce25a2a94ee92c92fefeed83f4; P0 0x1d7e3de55f34f2d1d131cbcd477 0xb2575d2efa93bf6464d7cad7b9ef9; P1 0x1119d3f61df1d1a23b24ffbfdabab2 0xd50dfd42379cb9efe235ad9f22ff0; P1 0x1867f14424ba5d7a663848d5f30579 0x2716ede1f0e14a2cd2598ee19a7a7; P1 0xd2517188a334f268d29cf1f3c4da 0x2896afd472c9e7936a6c2e22acc48; P1 0xe2c22d5cbf8f3ffe78ccbf016ae3 0x7783d69e20ee3bf78a6d9f9b8adfd; P0 0x3d7096e2ebf57074f4097a7863ffb 0xba83b9ca1b9b2ea43e1482f95f6e; P1 0x12b44a43bf645a096e7433ccedd8 0x77cd05566e32877c6fb20cfb413b0; P1 0x7b77d8222e820e49a8eb7bc02ac01 0x2c1c1d1b66208396c9e0da8cee21f; P1 0x10bcf2a5f2ec2f4c8b049db206d05 0xdf4dd6133cbda34c81eefdf0eff1d; P0 0xd67c52bd625e24e21b57a65ac559c 0xa31574edd1a0be7dedc6b54c7372d; P0 0x726672f5da496037835f9ccf8fdd6 0x86959b1bdaff2d9081466493d02d3; P0 0x4de9047ecfc54a185ccaf7b611010 0x23214b91898e53491cdacb364abd9; P1 0xa9de53eb2bf35e1f37ffbc876d9b 0x3a599df33217093dc572ca5aab5a7; P0 0xea51b1749904c02f34dc727567c8 0xbafbde5ebc386be1553b0f6390429; P1 0x12cc6ac196140aadc0863890e096a8 0x808952037acc622251ea44cf13b7a; P1 0x8e2169968618983afea4aee6683b7 0x142094c51b5dbc59a5329d5e22371; P1 0x37c2a011117ab07d42f274f1e931 0x2a989a902fb9217d482069bed88b1; P1 0xf9be6ecda80f9454013bf3b25ee4 0xde23ceb3a7a098965b2aa5ba2825e; P0 0xd4414bf1a652dec16fe4144e921a9 0x5d1f3bbb944c1e87f26a0cc7e9fb; P1 0x4a99a2f5ae396b675f35b73d7b0 0xd14c927b6590d0999886a314c1682; P0 0xbc6cf0c40eb74ed73ea0f2b368332 0x89b84ebdbb5f3ab59c3b0ef8b7512; P0 0x5195341c882950ea4d506128d5958 0x4e306d573a851f226efe4f75ae6ec; P0 0x1a4be8794fecd04fe0298ded14f9e 0xcacb8bb8eee5d766f99fca73955b2; P0 0xb0e593c6ba8812a579b6fefd65439 0x85962565b5b70a66c6e9c7ccdeab; P0 0x4cc25864d9950e4df840fda38f6 0xaedd80ab27e8de3ca5f2fb22d5403]);
     (0x10c9df5fc7, 0xdcb219ed2ee8eafdb9725e7f26452, [P1 0x0 0x2; P1 0x0 0x8; P0 0x0 0x40; P1 0x0 0x2000; P1 0x0 0x8000000; P1 0x0 0x80000000000000; P0 0x0 0x4000000000000000000000000000; P1 0x233c96fcc8cedcfcf5248154ecc 0x3a61a3e29945a6d1fc9214cfbdab4; P1 0x1d5244c1bcc9588444bdcad355aa9 0x6c639acf901213550ae2a8d415397; P0 0x32887a660232fce9e1ed44c6274fe 0x2a0ab3e1c4cf4e9c42452727b5d3; P0 0x79a4a76349d20a9494451f7729 0xb7cb2ffca7fa29505da32a6e8b5e0; P1 0x12299b667ba25abe03aa3a825fb530 0xdc03ba47c5342710e34e48a7938d0; P0 0xd0368830c51ca8f3f7001fcb5b7f1 0xad0177e93d128635bd43701b40b2f; P0 0x80be63f6f01dea1e40c825c2c934f 0x87a9c9c0c6094cccf636d092ecd32; P0 0x4f2a0f64407e3af902b25d83d5d0c 0x47aefd4b7332e068475e0b585b238; P0 0x161a465487566b50b4594d0f0988d 0xe83d826854e679a3250a0b2d19153; P1 0x1cffdd6d7fed5d44a0313c2125e93c 0xbdc7bf63496a5877da85e7a811016; P0 0x9aeb7c78db6716b691c0e7b9bc88b 0x3bcd1a30f4eafab2d1299026f7eb9; P1 0x1ec3cbff78efe2e0ee0c464e0ebc4 0x69565014e267f3753102231ba401e; P0 0x2fba3a28cf40b588db4d69103ad8b 0xac7fcddd28e9106d8965c1f487b59; P1 0xfffb620462bd54c56108075c8c025 0xe1723356ae877dce34410d5205a5d; P0 0xda9ecb37d67efc9ae02346a23df64 0x7c87574d02bb6f5bb72479b8782e5; P1 0x8567cf5fd906c668c2aabfabe6c5b 0xbe826455c8d8b6ae0a1480b6014b7; P1 0x13839953b71f815f49167bda9c69ed 0x6b1d18c98c938c97073a597a6b555; P1 0x62b3a420c10402662d5611eb27231 0x7d9f34cf48c1279db32d7007c8c61; P0 0x43e1093c61a99215c3eb7c435c4ae 0x33b66f9ba13d9c97cda85d5f295d3; P0 0xb80ae9ee17b5a4d5314898e0a579 0x8bc6155675317bd45c037e1875190; P1 0xa8118985f0bf83c490fecdb9f1871 0x311bce811089f848c57c2df61f3af; P1 0x14bf2c451d3d2a1faee8652ff6745 0xcee956326086795f57deff908309d; P1 0x1704d547049ac68b1c8d49db2ab014 0xd105b7d8a17c617cc3527786302fe; P0 0xbbed730c6bde71f4dfc9e4158eb28 0xd8410bb253b193aa0c36759f7cddc; P0 0xc928040a20acaf842ef251e46082d 0xd705d42de21673f3873d4c067be83; P1 0x18dbe87cf6eb54d1f7fa1290cf3edb 0x33821e88fcf0cbc88e049ffca3e97; P1 0x16d2e878fa53e077e185ca487dfc9 0x69bd3bd6ab08aed53f220d2bbcf79; P1 0x602f574d599842e248b1aeb3c41b6 0xe4426ad4d141b8446ddfdaf322b6c; P1 0x1c038a9775477d2b0a58e3fa46511e 0x6e4948ed3fead187cb5de328c85c2; P0 0x34514f09305535bd62d02bf5e5985 0xb181475e28f689df2c1aad2a24a1f; P0 0x8786f0cde3be3464f15834833e344 0xc02861847057864b24f7f45d8e4fd; P0 0x9ed361226d7254640414c156303a0 0xac857c6fe036bc396420d5a5e9269; P1 0x1000c3f59faa26b6634e0551056c05 0x610fc8c73332150c8f0b9e3603ebd; P0 0x2885dc3df3a1f14fc987f1d470003 0xb5b7247fc908ff4949a102ea7abe6; P1 0x11c10c4aa7290a05ceeb5895104193 0x52153e2493d0a42920e8e7c806a15; P0 0x1cfb198e5dccab41a0c0146e4ec2d 0x78d4422ca05b1530f85f90478ab2c; P1 0x7d98c3aa0b56a5ba3a5262913a509 0x2ec1c2408b0fcad79150322605737; P1 0x12cea99cb65b264d287ee75273598 0xb25f7ccd10582e1d83bcc0d1af90a; P0 0x88db168f631d9fe151cd5b8ac22c1 0x4bc662e3aaa6ef145f04760a685c3; P1 0x3165375eb183a76bfa3a6d5badc4b 0x430d8a60120887089c3bb968d8627; P1 0x26adb4b57254b1ab6da000624bac8 0xd0798fd0cda750ae7ade0299c321a; P1 0x175e383329ceb9f717e292afc87476 0xcf5543c926f3824bb5e5447efd792; P0 0xb8e6f8f1f64d61fab949780fc9bd3 0x667920009ee8fee1ab089edcec1d1; P0 0x2d2adb234846aed22ff81f40c0bc3 0x72d81b894076336e16e3abb95cd3e; P1 0x71767055f89e8568e85a865755c4e 0x9ffd5720aa81b71d1d2eadff1eb7a; P1 0xdc335d61d701df2fb3279d1fa9680 0xaab44db16800957acadeab148a5c8; P1 0xfaaeb787083a45c887878c8dec4ae 0xe6073cfdc6eb50ebd569ccf2e3192; P0 0xe398f5196a098c3b7fb6db4a7595c 0x2fa4f92e8716b109ee56b0e101968; P0 0x9c397ad411a82138785b61feac57 0x1c3186a42fb974f38ad3bfb331cc9; P1 0x6d689f4755f759e64c0ad0d9a0ae 0x223c589eb7e5fc11a46a5168d28b4; P1 0xa1546229b621373d2343bf104243 0xa3a4e1be5e4e8a9e2d031fa57173d; P1 0xe660077875d48a30e93978d200e00 0xd3006e79a83c6530658ba7e0dbb12; P1 0x17f01d3f477c180bc7826d19026cf5 0xc38d80547253e03ee6373e8f05833; P1 0x148f9964c0cd2cb6c080b2e35f6b9d 0x484a4fac6c65db3843abc3a32855; P1 0x2cf4eced03fc6889647e37a4a9f 0xb174a56730772c0142ac02cfd05b3; P0 0x8773a726e41a1b5f5d9bf1ae5084c 0xbed410780e4635406788ef97bcc5d; P1 0x13945831d573855df60ef8ef0059f6 0x40055313c4dc4780b67d500f7005c; P0 0x11a13a16de29b878bddeb75d4ba4b 0x573e16ed098be045db7b5206f2425; P1 0x417a3892709125f9c9caca68fd42d 0xba55437bd2dee7c6dde99baf63825; P1 0x12aaf9d45c7237b5ed23645721d92e 0x50c5f8f3b33de5ce33e7fc80d3f44; P1 0x38207c01ef77d04ba26bb2d393fdb 0x30ba0fb08203e117ea443703003a5; P1 0x146ce7d633613a0444eb82a06aadb 0xc9ccfd884a7aa9a6bc89d23c97537; P1 0x15e5524e60947450cf1bd487bf96ef 0x959dd11d3e647bf6c74ff41174e93; P0 0x60494176b780fcb22ee33d9eecbbf 0xd69fdf7b6230153050888b7e6b88a; P1 0x18c45b0466ffd7338f42ba8e17821f 0x6fc31dbf0eb27e85a8fb99084ba89; P0 0x35ba2dbe2253c453b72258faef1a4 0x317aff8f1ab5a5242188b681b902d; P0 0xa87f43b613ce24c280db4babd98f 0x141d3d602c2ee6f2e8ff41d12e43a; P1 0x37b01e10300f66bb87c5d8f39d76 0x84433097a3e58152b25e4d3a83392; P0 0x4b3ebed0aeecd4a5893ea18e14858 0x931a8ee06cb0d61cab1d76bd6e1ec; P0 0x5d14440782047a5f42a8e7afbadb4 0xd3801493e3c3a82a43e8773016a5c; P0 0xc068e4df88024d29e617524eeb77c 0xa022d149be0a0ed3ea87cbaef1914; P0 0x6e4d4997848c5c8b6ed2943becd1d 0xaf1d985a7d963ce62cfcfe6c0ac13; P0 0x83e72c17b21bf3dad5ba704d867f7 0xdcb219ed2ee8eafdb9725e7f26452])];
  mkcert 1723 ([], []) 0 [] [];
  mkcert 0x6929f ([(0%nat, 0x6929f)], []) 2
    [P1 0x0 0x2; P1 0x0 0x8; P0 0x0 0x40; P1 0x0 0x2000; P0 0x9b 0x539bb; P0 0x42788 0x2b121; P1 0x23479 0x3b35b; P0 0x21562 0x1367b; P0 0x394a 0x25623; P1 0x1a940 0x72d2; P0 0x7d5 0x55cf9; P1 0x8c09d 0x4a8df; P0 0x34dab 0x2af0c; P0 0x11888 0x59c18; P1 0x9935f 0x1ce7f; P1 0xfe3f 0x56ee1; P1 0x8fb70 0x638f2; P1 0xbc819 0x1; P0 0x0 0x1]
    [(0x6bb, 0x47938, [P1 0x0 0x2; P1 0x0 0x8; P1 0x0 0x80; P1 0x0 0x8000; P1 0x1379 0x2e5d9; P0 0x14712 0x289c3; P1 0x1f5d3 0x9105; P0 0xc7f 0x47938])];
  mkcert 4153 ([], []) 0 [] [];
  mkcert 0x70d382ab8b9939 ([(0%nat, 0x70d382ab8b9939)], []) 2
    [P1 0x0 0x2; P1 0x0 0x8; P1 0x0 0x80; P0 0x0 0x4000; P0 0x0 0x10000000; P0 0x2 0x1e58faa8e8cd8e; P0 0x829abcce6312e 0x509eeef5cd4986; P1 0x73376a6b20d260 0x446431d1492ce8; P1 0x52e9bc51dac33d 0x1a6c152edd36eb; P0 0x6300bd4ce85d2 0x3b3a769289adf7; P1 0x3e2f233e71d4c8 0x6adaafb90fa01a; P0 0x6532c8bb52fb64 0x41427d2227c560; P0 0x25bf2febf200f4 0x3245ba8f7cd9ac; P1 0x2cccd266839514 0x3363b7ba28f1ac; P1 0x2ed033a4624765 0x14832f226654a3; P1 0x77563b12f1845 0x29e68fd64a1b35; P0 0xf8f8ec33d4874 0x3ffa196d99c325; P0 0x244708a718f5a3 0x4348ff91d470e; P0 0x282051147b14 0x1c1911edea6950; P0 0x6ff57a6bf439e 0x3060d620c93cd2; P0 0x14be70db5817b3 0x32bfb5243eda69; P1 0x2da7411acd608f 0xcbd877151074b; P0 0x1704ace489f25 0x5787b85e4ba3bc; P1 0x87cfa6fdc81df4 0x46be4176d064cc; P0 0x2c5b50aa97958d 0x631700c7f712b; P1 0xae0d3f0c10c5 0x4d81ef13b58195; P0 0x353eb217b34927 0x653f4d6978e80a; P1 0xb5b699a3e77b29 0x1363fc05fb53a7; P0 0x3551f162c1ff0 0x648f72b4962a81; P1 0xb341836983eaa3 0x32f10adf5980b7; P1 0x2e002f7e909510 0x68b840ecf34512; P1 0xc26434637238ef 0x32de86ce62e651; P0 0x16ef6275fb3f66 0x1b9dab850291eb; P0 0x6c2683d11cfef 0x3a0f2fed5ea82; P0 0x1de07567dbf7 0x2d8fc68725105; P1 0x24cc2935be59 0x6c8cd48b22c161; P0 0x686fa3650bdcb5 0x3993d1f2041574; P1 0x3ac4096a1a9d74 0x3db50578d5164c; P1 0x437f7877c0874e 0x2e998f6cbc8ec2; P1 0x267e5eded8faab 0x5506bdb91e92f5; P0 0x40138325901ecd 0x1aaf3ab7f9fdd4; P0 0x64fa6da4a3f50 0x488f3d0f45cec0; P1 0x5d53cc1100a2fc 0x62d2bf379239e4; P1 0xad1dc8db5678a5 0x256b18dd5c2c63; P0 0xc68de3942d738 0x3c0131e6efcad1; P0 0x1fe995e7244676 0xea7d9a5aa485b; P1 0x3ceb337b8135b 0x5580543fa7ee6f; P0 0x40cb4859efcc1d 0x347d3a0ac3ccac; P0 0x186b4904c08c86 0x52101ff00d33ba; P1 0x77601672f35dc9 0x7fcdfdc4f4387; P1 0x1218b0cf9e0ac 0x3e20ca71f61016; P1 0x446c0a63a61186 0xb6e12386086f2; P0 0x1286daaff7bec 0x70d382ab8b9938; P0 0x70d382ab8b9937 0x1; P0 0x0 0x1]
    [(0x6929f, 0x364981b95cb6e6, [P1 0x0 0x2; P0 0x0 0x4; P0 0x0 0x10; P0 0x0 0x100; P1 0x0 0x20000; P0 0x0 0x400000000; P0 0x244d 0x520192c576e5db; P1 0x7735c45b41fcc2 0x15fd1eef73d980; P0 0x4490fde9c4000 0x5f6ec00000; P1 0xa170e0 0x62ffd175f7fe20; P0 0x56ddeadf82ad66 0x59c05177e6f24a; P1 0x8eca810a384f6c 0x5cf88aeaeabfbc; P0 0x4c9c157b683bec 0x42c975d020ae84; P0 0x2788c32acf112d 0x16759eec29fc0b; P1 0x8f1110b7c7b91 0x6fb3ea100b24a9; P1 0xdd2e5d1614ee34 0x6fc03c1849d18e; P1 0xdd5f2a4924b8d6 0x285b13133347e2; P0 0xe6f39df57e75b 0x582aa498fa3d41; P0 0x44e588efff9877 0x1c6da669f6f902; P0 0x729b79b6c2d0c 0x49b96e6a86b058; P0 0x302c8495646d26 0x7073fc075f1aca; P1 0xe0298c88255e51 0x6558e2eac7e5bf; P1 0xb6127aa83ff03a 0x70bb2877f56218; P0 0x70a2d385f55f30 0x6b8e8efef08090; P1 0xcd1136d1ca1575 0xa2f8ed2c7edf3; P0 0xeb67fe8320d1 0x428b9602ab9d20; P0 0x273fa480f38e84 0x23a6d4f51ca49c; P1 0x1687ee8dcf219d 0x6fe6ca8a7c2d2b; P1 0xddf806239570ef 0x5ef20017b64e3b; P1 0x9fcbe26b4cfad4 0x3c1e39286f75fe; P1 0x4010fb7b5c2418 0x1378f9a72deeb0; P0 0x35c5a0a2e92eb 0x3bf8228fa58fad; P0 0x1fdff3a0b2a2c9 0x4e5a739a715b28; P1 0x6cd398d1fc4dd6 0x234c6cb2a6b1da; P0 0xb0b1d1ee95d04 0xca8f9c28e13c0; P0 0x16baa401e83bb 0x591e88f776f85d; P0 0x4664c452f760fb 0x364981b95cb6e6]);
     (0x1039, 0x6462f0c93e7f52, [P1 0x0 0x2; P1 0x0 0x8; P0 0x0 0x40; P1 0x0 0x2000; P1 0x0 0x8000000; P1 0x1 0xf2c7d547466c7; P1 0x414d5e6731897 0x284f777ae6a4c3; P0 0xe66ed4d641a4c 0x88c863a29259d; P1 0x14ba6f1476b0c 0x6bf348e03c82e6; P0 0x6749008739a50c 0x6c052cedc07af8; P0 0x676b3f9be1bdc5 0xd9f59e6c5263; P0 0x1a50eb74827 0x133f5c6f0329a; P1 0x69128b5cd7f 0x3a82b324406101; P1 0x3caf9ba15e5417 0x3e479486c40be3; P1 0x44c1952cf4f154 0x43e52824e9a6de; P0 0x28db6a26928278 0x29a3c771fe3cc; P0 0xf5e1c021f78 0x1db392deabb0d8; P0 0x7d1a3568008c6 0x62903e8d776c2a; P1 0xac3518649dd16a 0x12a970c5a4f32e; P0 0x31634dda1ce99 0x5ed204d85ceb33; P1 0x9f604dad9d4d80 0x3dd833a9a596d2; P0 0x21e64291465d3d 0x5ef4cd420b8caf; P1 0x9fd55096d2594a 0x1856270b52a3c8; P0 0x53fd6e54eb014 0x35de4c784b23cc; P1 0x33703a99cf28d1 0x64da0aa12d597; P1 0xb44bd5b5e554 0x37fd67a2b5fa6e; P0 0x1bc8ef052adc1a 0xc8905a8527b7a; P1 0x2c90f17775388 0x62c7c62e170b00; P1 0xacf7595f93f4e3 0x16f0d8a763ce75; P1 0x9543c7cab369a 0x51a8ce5c9dd0a8; P1 0x76343c5d18b84e 0x3e950c03413522; P0 0x22b68593787aa3 0xd820e83ab5f39; P0 0x19e03648fcf72 0x44f7028fab084f; P1 0x544f34be7f0213 0x170cf993c83f87; P0 0x4b595909981ad 0x2d82ab741674ac; P1 0x24b700da65d367 0x4db87333870631; P1 0x6b13664ab7c479 0x9e085239e9ad1; P1 0x1bab4105b28bb 0x6bf5fd150b689f; P1 0xce9c5a5aa0c9e8 0x47d3a09d6688da; P1 0x5b739df1bab117 0x66b7df8adb8629; P0 0x5d840f241ff7f8 0x9026c927b8459; P0 0xb82c8c75105b 0x60c7160eb1dfae; P0 0x53030c88b8ac82 0x6462f0c93e7f52])];
  mkcert 0xabaf8c6b094fd0f32c2ccabab864dbecd99144679c1adf804898fb2042b ([(0%nat, 0xabaf8c6b094fd0f32c2ccabab864dbecd99144679c1adf804898fb2042b)], []) 2
    [P1 0x0 0x2; P0 0x0 0x4; P1 0x0 0x20; P0 0x0 0x400; P1 0x0 0x200000; P0 0x0 0x40000000000; P1 0x0 0x2000000000000000000000; P1 0x0 0x8000000000000000000000000000000000000000000; P1 0xbedc40000000000000000000000 0x140000000000000000000000; P0 0x0 0x19000000000000000000000000000000000000000000000; P1 0x747dee1000000000000000000000000000 0xc35000000000000000000000000000; P0 0xd 0x98456e9086f263a6c1b9b484a2e0d4f8f39f86bd12a2a67c503b3f5c9d1; P1 0x10e1ab06fcff882105323aa87752a5eb741cc50cc1b7b175fd9fb90980c6 0x1b1ae4d6e2ef5000000000000000000000000000000000000000000000; P1 0x88ef829a30ca4e10bbfbf1daf6e69000000000000000000000000000 0xe596b7b0c643c7196d9ccd05d000000000000000000000000000; P1 0x2660a581d1d55573f757048f651a68515a05b7d1d49b54 0x712731c0fa3c3d8985f7f85f43f3240728a47d165826b30124c827498e4; P1 0x9526e13fa6c0ff40d40c30282e593ab3b742507319f39bebadfe731ff58 0x9b835587fb714e16c33dffe10c2ce8128aa3b40f8300ea357cea34bd258; P1 0x119ba40732783a63705c5cd291a1d77a4f173172a067f4b502b0cb74d8a5 0x45e7b1d1c65815148d1329871a37ba52c58832c0841d1a77c722b0c04c9; P0 0x1c76910cd68f72fd199c541caf30f9378ebabe1cbb73b1a09a14c7693bf 0x81c672b06a26432e3d04a60d0ef15a36d04343c50c557a26db4dae718bc; P0 0x6218731fea92b151aa10be61f3b74df85f41ff0860ac6c9fd026f68f8b9 0x5cf4f3018e231ba158f70fa09f12aafd4b18ff034d56212a50a33851efd; P0 0x325486363f1d4a29a028918e491516cdecab86e2a04608543b8b02f249e 0x2cea123fa84e08972d63324bdcd04e2b49063d096ae927b3c5f848a77f; P1 0x177ff8d6f38ff488f9056b0ca64763490aff7e699d6ae924a6e0dbd48 0x421de748d64e0cc8907985faa8ba002ebd11324f7aa8c331f2be2b9f6ea; P1 0x32ec74a975a891e874c8bf500935951d52ac863944e3a84c7856c6b1d9f 0x60b2124d52a40d816eb0efedee8db16672869fffe299c0ad4179cb2a613; P0 0x3675cee04f8730a7df2e8133fa06e3fd4751db95d596f9ed3b0e2e904fa 0x508ce4397aa7307baa1764b3d522744bab57ca451eb7addb2a3a91ce76b; P0 0x25cac55f66dc58f9a0ac16b4737d5eb3c0e34d7de20043bf51f0402dc87 0x562a5f1e883e9fc3148961abf017c7aaefa69ae516d0f9d7f5f3fcf200c; P0 0x2b3ea3c080bfafb26691611dea8734369f024c0a4f148632e426df37376 0x45f7800732a7f1ccffe14199126ba4b5ed80fae35376bc1687747acc3be; P1 0x3906e2f7ec612ad194710dccb0aa8436fe898d155aab98599dbdc894781 0x7364ddffbe191843b417caad54afb9ffad881980f1274f5b1d00b16fb5d; P1 0x9b1e385cd29382ffef723d379e9ddf8cd26635e3f3d5f8cfe0f8451326b 0x490d1b94e5919215f89081697ef3eae925109bcac049d982c05ffc3db99; P0 0x1f15342f1b60599ad252d9193cd6b9efa8282dfa37f5c15ad11948321eb 0x3ec2264a48efd2b4422960c37a01e4fde80185edb57987743243c80c2f8; P1 0x2de1b6d0d0ec93c83df621fcee9e7143b69b1e2e1df0572cd38110998bc 0x388bad7b80788fa7f1827fdf4ff72b08f13f6ade7ab779f49875f4208ec; P0 0x129fa453074641ed63d4224c62dd6fcfbb17bd993fc844809c7d9e1bd6f 0x9d9f149e1cc39c9fd6cd6f47e967951d2d84b2bbfbd521e9c68e9f10beb; P1 0x1216b1e686369e62c44c1c1eb5cbd5e497b8854eb1e8929c483765206615 0x20abf72d95a19759c0917602a3e21015af798d12ae1fd025863a6499eb; P1 0xc6f51e5174b626a41bde8019434a18286780ecec5ac4bcd875b5b1ff 0x351a835a72217d5d8918847150669ba0de73657bc4d74b3ec295faa999d; P0 0x106ce01c1fa4d75882a515c987ae771331504c7dfd4fbb29d6fb9f83327 0xa50ba5cc88a68b86e52611d1552b90678b7c6b31c592bbd9c4b6f15d6bc; P0 0x9ea97e4c49c4a8e91b5b985116b8bcb4c2e0f0cb56795f03d019b720641 0x449ce8cc019d951501275b9d5081b29781bd69f85dfe8f57af96a84c925; P0 0x1b6baf72bad7800a435cff5cd9cc9474f163d283e737e3da1406437ff29 0x8b69a59a6216b65bb4084ff413294e5c5dadca4a2cf5ade8aa2a94c9f76; P0 0x7134cbf8ed1f3dc733256354dc41a608382ecaa505427311d8fbd7b063b 0x79203519a4ca212e7a0d1b2072633b530f8e503a88e6bec5b1dd39ad27b; P1 0xaae92182a1dde681e67d838c9d9da8e3e067bb05b29b10a0ce891c00b0f 0xd8aeb34ffe00fdac5af3d39611f4142bc05dfed5018b51dad9c937f6ad; P0 0x11178e0d33a9cf95a2df33005c8a909d280e4615497a7eb8d5be13ad90 0x8deff6c509e8a8ef119cdf52dffe6aa53afee8e45bb13ec16503be289b9; P0 0x7557f2f1cae1f2f308659ea5e047ee5e8c55cfc27ceb7abcac637617247 0x98a4fd38d4ef6583ec676e167408ddfef1ec172716db5dcb6d3c93639c4; P1 0x10f6e1c51f6d92ede7d463aaa6385e23df7ecafeaf21580e322b42f5d28b 0x2efd2529648ab837e25eb7a061c2420f502146610e90ef16459473732c7; P0 0xcdc44f01c66381ee0a24ba673c442267cd79bc514725b83f805a58700b 0x15d5f05704147b91eff992fa1eaf591d3c928d719751276a7fa25358d8; P1 0x58de7215797cec1d00dd839d2c432cac4b3f3d1b750c15152121fab7 0x7dab27ffbccb889d596ca986502e21cf9ee895a46395b14501b90ec73c3; P0 0x5bfc473c023f366fcc43597d354bd4995a40d869d0a1d98a29d75282ba8 0x46999c383c2c261ba64d34ceae66d89f3968b25b54ddb47e4282a2d151; P0 0x1d082b8eeeb7c68ff629ef29b0f5fa757f59a81d0e92111b48a23591a 0x59d2010b98253ff30e16b758406df2547c3b31833f0e58bc0289e40fc43; P1 0x5dfb69ab767680ebfed01394ce68ed8c67bb212acc3aa3478d006ecd557 0x57a01d2e5976a6fc6911f4174cda0fc4a34977a288ac2010b2fcf8cc175; P1 0x5971ee0ccd98d353105da4dd4ffd12737b18fa04b2f3c6095944be317e0 0x3c05c4ab8ced82b67a8a16db2eb23191aa59eecf1497304b435bb0ebc52; P1 0x29f7f5b10f2d49423cabd09f2b7c62ebd71142e283a945c9932b59a6929 0x24e1238996e8c9d3e1d5e8784d71c884c8a5768b0d723b2ac72eeeac6a5; P1 0xfd80fdd2df9a497942e221ae5847fba67cacb34e047fb750daa2d691da 0x5e6babd012fad117dc595cc8fe9b217d27dc56a6d7c36937da433a96514; P1 0x67dafd6359318caba8c1386e620e138bb74e8f658a69c737a46daa1fb06 0xfc0f6ac05e0c2270f781a29a9be2e1bb6720095837e7295c990354511e; P1 0x2e41fb5f7f4614544e6cd93605320840ff3ad172a04b3fbddbe1764e32 0x815d6e90edd477c8d7b3694f92f98fecb37b5826b76e50268e90dec14a2; P0 0x6179f096b7952ab049610cbfe577ce62cebbeaee3a6c819e5bc68ce0236 0x3db0ef8e2a9b0d4df0fe6b7c3d1a45bf552e5df0b45fb68109fa2a7f72; P1 0x2c55a04506fbb2500731fc3c131b319ac08c59e8418f0358046276a1f 0x20d53d5e0de943b3b9f2c36c1cb11377651390a722daea1b40ef0df4e53; P0 0x647685ad6c561752b0df35b8a69e811326841de1eb0338d2b1f288c0a8 0x84a17fca5f31610c12469f84e24774c1122a4c7d80d2c9dd26f7fc5b2b1; P0 0x6675cb843138dcbae09fb35b5e1ba24ca220b74ae5f176e25bc817e996e 0xa904803cddd90bb7d10d18faf5eb612e255f93b3be9fa463b2d43ff20e7; P0 0xa664118bb9ba1e0acd7cb93046ed92cd4abdaa37dddd88d385a809dd688 0x4af232b2af4c356fe72fa24a9be97c8811a5005d573644e2c1e45ff6799; P0 0x20b75d0e6841fc34f87aa2ab4c426670fc74705c0dc3a37d8c4b38c481a 0xa0513e080d8cfc7ecc515dd9374f9694476a2d5508ffda0def104f5f513; P1 0x12b674a9162a9a5ca2c3491b68c24aa14c67f64a3867a338f5eab7747f0f 0x2aa98c0221fedd4ea6338d2d5ea15c822f6e659d8c20307252fd5fb2b4d; P1 0x1533cdb975564a03d221cbc1825d938d3254690b79bfda3380d417ebf0d 0x61a926057346e32e51fd0a8e951071f77e69c95bdb7aa1fc1760f519f23; P1 0x6f1b05982ce26d54e5bace78fb7e05f8332868979e97937e16858802e5b 0xa1f29dfecec89c3b0b325f5e27c75458125724dde336ccc6e3f739dc849; P1 0x131862b73d0f47ab93fa2ef60dac8578ea38f3bc15abd2c46927aabf937e 0x7f6fe1a85125c44031389d568ac3a069848624fada4db30fae31c608b78; P0 0x5e97b3f3ee9998affadd8a6cad8304132bf0107ef350216a6a3b1664094 0x9a5cae31757c110ec3a962566feb3f72fec5d7ea010655617172de45f64; P0 0x8ac94e6f6f08fd8949cfa4c02927efe60773d5257542493ca73f6678a4f 0x96a0a689ba1b3515efcdba8ef14678eb71730d0b7c2753af55fe82fe7cb; P1 0x1084df3903f26aec05fb646e2b84bab4e8da1e2ffb8dc17d5b9cab17e442 0x68a7a4ad68099d79d11687d5955c8a4dcd60503d25d864e93150c5b96dc; P1 0x7f96e21dc528005e30682ab4bfefedee4aa1480cc23711ed04966bc76b4 0x3da899419029c2340a6ce9ff5f93b91d1ee159a80250bef106629f259e4; P0 0x1624d2b89a030db406e018d15ff10d4fbed300356594907a210e99b3755 0xbfbaa13767fb0081b5b93aba493eb5dfaf859b09a52d9d19197c96b3c9; P0 0xd61cbbf0799c5116555cfa2035461d5593e3bb81e9e7a40deaa918534 0x3d43aa8d9051ec65110dda3234baac1c4b71bce03256fbd5aa84f208415; P1 0x2bb91da58c38b8ddb5d59146cceadf706fef59f61322444225dbc0e25e6 0xa18cc4b1466a167b9355dae5261f3c7ae8be94bb273afd8a4a5dbe75dd0; P0 0x98032d4b843f3f10f7b0e1f7515584de804f894673579fb6866111a0987 0x22686b0570abdfef3c103bb09b77936bbb48c1dd46f4a1853a6ff5d1353; P1 0xdcaa01f9b69b999a18f5940baed923e6a5864441a6779208c54d2cb206 0x3f782f2dd574d19b3e86c8e047d276fdb6f64852010129553e10010dad0; P1 0x2eed633677cfd04dd58409fab61ee8dccb635133f4c9cb6841e33162cb0 0xab506b57951f408baebb03e320cbda88860d62baa0630f4c907da419070; P0 0xaaf17ef9e75abaf12c58912c36a53539a637b50bd09fdc75320c3db64eb 0x1aad211343e17d2e31cbbf7005ae3fb46a3f38fa1324b5d9daaa68a9187; P0 0x42519b3b5f34e8ad0386c3bb64007f673f299f96665954ac4959755464 0x1ad5bc52c9c6202d8c9f889d7abe9f887de863f254747185013e6b77865; P0 0x431c1b430409e88a5e8d2e8ead6ecee20fc4136aaf2a43ceb37bd2a7de 0xa99b122309b28462aef2c85230540d58c2783c64f63fc5896b003a72d8f; P0 0xa78d0b514be9b3ef1c71ee8203069c641d8c98cfc54c3e68d50c20d57d6 0x2d9e504f0d5475a17d51d2b47f9f677c8b0317ae91e2550d66768447cef; P1 0x183e0fcbdabb0fbca4fa578d6a589f44758d829f21fc9e5fb42df8b875c 0x8e8e8dcfc7ad4500d6750d6e9aa8357ba458c50ca03cdd228b75b5ba1ce; P0 0x765ebe2533499a15a179d5438fc125a8d7d071eed078d7be6cbe7b2a101 0x9b14dccd12c5c9a0e0169e3d5a0026a0af8b89c18483f70f6cdab81b299; P1 0x1182a8bd1d56a8e937877607768285aac81e31008c021107163ee04ad444 0x608bff972ed1fba68697e446415a37695052f41af4796b115a1566b8776; P1 0x6c95e8c0356260ff5de5c7912895862ac1a1afd08ba356f1fb15cdc8cef 0x93d67b8ddf01dc73cd48b6250f1a98f5cf22d3323f61a8650fb0e35eca3; P0 0x7f4d7006d90f58efd383f7aa251f443248e4e317b1e145d7cc987dc5674 0xa127cdfd0b7ec1695f792977f624381e0f7e5e137de5c21d537e369a4d; P0 0x9745671977c523f27856bfdbaa2d2ae8e5f101d21c9c8611369c14011 0x628965681793a804c586568911b3b9c867ac376d4168aa8a74c6e34b44e; P1 0x711b8c8eb9ef93387cdb12b2a8030e10cf1b20dea87992c93dac4b32594 0x37bd68094f9e99cccdda6767a8881fab61ce2f38ab95615cca5e9c5efac; P1 0x24317945939d068df0c439f10f06201d8b6b5e63ac1fec8812b71064cc5 0x280e7cf6b54e389861cfd4fe90172ba171c644c72c0f63251532cf93e09; P0 0x958829ad02c57301c3acee05b4ba1cb9bdda190bacce67c3af69d7bcd3 0x8ba2d0e2550eb6ad0c636875f4c7d348a9b48bd5fa894e77c4e86a458e0; P0 0x7191b75d43a75696027bd41f2bbe96f1ec473105f282221ad2386ffd776 0x8cff2ff1217e88ad997f2a2876471800813c29ad3f0b93e0e941777bb2e; P1 0xe7964f1e9c807a2660847d05216df67c432c2846fa4afcdf99a4eed0890 0xa3c2fd8427707e52f573e1a4c4768dbb0cbe9f8b52fbb53edd4492dc858; P0 0x9c340f1b8b4b6a9976bb286c3c16a289b9cb53d420631e741f79d37bd78 0xa373eaa57498a41eabc9d11ae195bfc544cc515147b2da3a562ef6eb18; P1 0x1373ab4c3f81bdf82d2860d13a94cb484bad41d8f86eb25986f8c345e7 0x823de0b5fa3071a94383e6d11c3d636b01d6c7573fa754bc78a1a87cab3; P0 0x62cd5346987bd7ea8d0e0fdece966ef174087f9f284ad30185530fe30e8 0x77c594872a16a70a2f251349011c604f0c33ff02b9e6a8f6ae4f8832231; P1 0xa71c6768ed2e58d2a6d04777d55d5af0b47e687127f76d33d3085b57c95 0x3e84112d201a2f1074a8132f050c49bd815a22e112457c3fa3bf65d9bb; P0 0x16c38ea5936d1eea4bab36151eed771c58897dee90ef97fdf88bc7195 0x1c987b606dbf452ba0bd3ae66140c4894940df9ff951e7105a772b52692; P1 0x98691d3b37d79a22f39285f398d7d3b88668fd94f1d3d8b041dfe364ca 0x4892970fa9829ea4ae4501feade6e4db7d22494625a924f4df81d4e409a; P1 0x3d5a919a82cc61cf3b004f3a928fcd44f39c01530e25517d118956af2d3 0x9bc29e51e651aef1a4b6816369454cc635950936ac18b7edf7a2bd2a3d7; P1 0x11a9fb9d549f9a6f7f5bbcb4cc898287b2fcab4654514d221bb8437a92f6 0x3ff5a5c48f11584567edd492f3cb0b4a489f98f9f4ba83ec96064075d0; P0 0x17d3d0bf8eef28983d9b5e53b83d1cb5a1578aabdc8a9efa7e4839c25 0x4ec8eb7032881767be6b40f19c965b699e79e71bbbd9a65393330f1fac9; P1 0x484ea00e45950a51e12b9ee6259d2c91331c5d0115a93b8c7f86601afa1 0x6484b504db1e393224c2bf2b22c9dcd58192ac47409f6a149f5d2455f97; P0 0x3ad9f56ddfff75fcd9b395e747280e94d1c196f2a4f87607647129337c7 0x6d643650bd8c4ca59e350262598eece25ae5183214734a8e2680a1ff0a4; P1 0x8b666213af4493f82ac4fab167651d65d415487c20fa36b4383e647c896 0x1dc8d9bdd50e01fb3842e1d8aa9fe4c197479357ac762afe215e45ac8ee; P0 0x52ac85bf7e054900ba10e64f26de5110e7b69457132b3c9bade40dfe02 0x6044e375f99998de29ec9b8b0faa15401ad9147e5b23470cdb093570aee; P1 0x6bf62f8b25712818d07e68cc5cc0850d94c7076748ab014c1cf1dac9d99 0x28cdc1143c05ef93828db755302b61c5544c6adda902951fb9bcaa00dd5; P1 0x13652f5183b528dddae39c8643953cd701d66717571ec758e8a50124e16 0x4c95d4222535657fcd59126ea764bf17ee4536a226b1503ad0c8c6730c0; P1 0x44537765be2c014f9771aee74d31b9fdc94f078d724dfb2edb0b63f2309 0x503b0536170ea403f19a2fe2838119d2dad4256d1ad42a3a2038b28197d; P0 0x257e1998cff913e877f9716a3622ee5b24b4889c1fcf2d9ab4849898bed 0xf1f34a618e5ed2280fca0d205207c9e805c95e71b2560debf78985723a; P0 0x154f8bfe8537047ad4b2ce763479ad9ffc41c59c53f955b546b0b28c0d 0x7292934a0077a0061028bc67eff11e256bc54cc94eeab92b4c5db03faf5; P0 0x4c756e9dd80a6304c5163818131da8537835b5a436f1b84ca25b1a10e47 0x89f496bcbf60ba7a275febd4bcc076ca8e4ac27cc543c5d071151cec8c; P0 0x6eda19a404932b8393af4368c3f9e8c28074de16a24ae3f46e346282c 0x3e4bdb4317ad2907914960698f752a62a07ad5d476322d5f271c930fd2c; P1 0x2d3562ea9551a56697e9212bde238361a571b7715bb1c7a9fa5bb111681 0x3036c4c28d312b0fbb697d316c1026952d14424189008303b4ea0d53375; P1 0x1b145bac25b8fedb64241e727ed660b81aa2cad49f0498a4f7e5aa07325 0x7d11bf1bbc89a0c7ea6668c2cb80ddf37e43388ffe3a4a6cc076099bbbb; P0 0x5b1c3b4356b30549e8d1e580d2dfe968ed7645c03d62101ac6f85eccf1e 0x665d13962bb0905ec90e17b62f455059d7bb0a97af871368b1d3851788f; P0 0x3d082902d3bba3046c5613d9c6ce254431f10214251fce9567d0d6015fc 0x9c944ecff20f00fe9836dd8c8498305c74fb927e106033d30e84690be8d; P1 0x11d9aae7ace9c1c593f93b0a57f3f413ef5015543676d66f349b4036cf4c 0x9391cd4ad04d2a0d979fc3e4c3d5b7c5b794b2935f24863cc8fd5a1318e; P0 0x7ed7437c9a177cec0e4f1eb4c5ced545443028b30e34b48570b211d653a 0x88da658e0994b40bcbe1d7150e45978d783954bfdf182e9fd30dc5ac206; P0 0x6d1668e43fd8764362a63e58425a029ec5dc4be1084df0a0c0e8cc3ce48 0x276b1786417c82148e4ca9cb0f1275992dcfa4b9c8d06beb65af518520c; P1 0x1219bebcd16afe2950b0737f3fa2406ad78770593d30ab43e0de8c8c89a 0x1a368c825321e78d72fcff245b20744b3fa18f4ee18b6bc35882b274742; P1 0x801242a87451398f7da0884b6b5bee6659c6e1e33ae7ffeb3b45a72a84 0x5c1b8186cd207aa519a98b0a81e0192180cd90fe581611e7483505d25dc; P0 0x316a2305b869f51ac98972ad160e61b8e203137bc3a22114145f3e38da6 0x337d79357d00f142dfbb5e4c2ddc2e137b4739c451c6cd653f84a95f22e; P1 0x1ee27d7b24552c78d156ab0c79c908a0cd9118ae8f5e42f89a39ca08cac 0x1d1b9b0e1361200cedd51490da1190117ea2918e1770f42eebd188bafa4; P1 0x9deb5fa518abf3a384346f1f0912022fd0cf27bd3c11532e209f44ae80 0x7c948d3d045c4700d095819614808d5b2c5cef44beb2baecaeb40eff2a0; P0 0x5a662f4a6d3a13ea4393aa8fe77339629f977f30f71516b99c305f74cf9 0x3fb79ececdf82cae7a25a11ea8c36e03ed472f424516b378ce972d3122d; P1 0x2f4b6036e4ac6183f8dbd58b3bd22e181b4b3a121f5f93b082df1aaaa36 0x441c5db320aa3124ad07b763bb031a80760e860016b7d948c1f511148c0; P1 0x360aa313019df558f6b3f4eecf5bd7cd7fbaa65eff7b209499e6aac22a4 0xa8f78592caf3bc358b141d31ba7ff9b3ec16ff810d69edfdb542edcbe74; P1 0x14c9508f217cac8f5c914df88ca86c62ca6034f9d525d3bbb54db6df67a5 0x3a468bb2c2a9c749f06fc4cf7663b6e4c2e5d82642cae356561b941cc69; P1 0x278fa70c1fd9a7a04d9c3adbb98a86f654f176fc6297fb9f7de306b0636 0x8d8d913341d083ba2d748ab6b79b3b2a45dbafb3b67800f1efa1b742310; P1 0xe96af30361a8fb415d4d1eca42f283c96be4e7a732a8acaa676a97a8b16 0x6434665133504fef9c63d291fc122ad9cb17dda220431d9fc69f58d0d4e; P0 0x3a7c119e6a616ee9e9e91dc0947ce942dce7648b0f9dca5bd5952ac84d7 0x65198fb2731d00e133983d7ef79d70fdcc957a4646f55e542a7e91157a7; P1 0x7711879c271c43eb5385fb6d25b965dda091ce75fa5fa28f602a6c6dfc9 0x8ce1e4d873880b3d2c9d2c6a2f86574bcd9a5d31a95f432c45280b9231f; P1 0xe7361e995a2cedd02bf4b1f5b6ad75719a993eef8aaefd880d56b6aaa11 0x9ad1d1716fa3e5d674d56e314360565dd8bc4cd12c2f73bbf41ada26a7; P0 0x8b9c4136fa64df993d6c264e90f9c51874ad70131dd3eb62ac896d26d 0x6b0b9ef5884bed60b095b732ef9acaa7d41bfa851e00867650786d8f4a2; P0 0x42be0d4b67632455be8dfaa6b8725a86b1ff0a6276df94e0dd520b50aac 0x99a025d1a4b6c3ee39e8efb735145b644f980163dcb26d220a080f9bba0; P1 0x112ee31a1213e3c257005c1f962a1a2debb03949cf3e2a900af49067424d 0x5b62ee8f91f722833ff47f3aba339edcf6bacdc91aeac23001d129af111; P1 0x6149bc7b3f5b59bda8e29c1884770e95df29bda7aed7320177213940db8 0x6fdf59adccd0c75fa98e355fbcfe96ce89eb006878eac804a83b2e4d85a; P0 0x48e5bd87554f18f9b2f9595f8e193c03acc6faa1a71f636bf0a933a53e9 0x9b8e1faa8f4d2a3b3c811fe2eca1df2b01545ede8fcc447bd591c0a4381; P1 0x119e1599442ae4c164edf76bca2e334a689c8c516f13f9414f78ccfeda61 0x49ea3b118a8793dbf342aa72ed03a58a550277be065dc63ce27af175bb7; P1 0x3fa4fa7acbea32b351aadeb066ccd719a5d165a83c380bece186123094d 0x9803686fd8d0b3199b3426a48489819a88f1a4a0297a60e842f43e975b3; P0 0x869853ff2696a93c2bbe24bd742b9694f854ffec215b66c13248348dbdd 0x8b90798ac83d35b7e795cc9e2e335e5a1dd5ce7056600fff64fa49cb90a; P0 0x7173e3a982c06f752fa2c26a4740023e133a626f038c21535a1826efde1 0x4792bfa6fe3af5d47e7788cfb6be68b721eb4a692dedf39fea1ffe14b99; P1 0x3bacf6d9866b9d43cf1b20b4bf2b332fa7b5c98b66e3a4b3b68ca4e2eac 0x2d3bcd918bcba478a628001702d8b04923e640b403987f1fc67d3157bfe; P1 0x17d5cd7a6f41f857ce525139382af9c173eb6ebb356a614504aa83abae1 0x4273d0ebaefa8720d2d7c7d6b6899794da6e10c6a81937e905ec339383d; P0 0x19b890fba64a941a6913c7bafcbf3a38c1c7a55beae1219eb271b1085df 0x741b4d651f1b111afcbb38c6be9843c4a0f9fe7d83fcfe8dca99198c614; P0 0x4e851aef911d1cfd13f1c31c75e3c61da834aa40c9545bec29f69259952 0x7e29129c46ec0dd23ec34710f6c5339932b85325350a199b1dfd048e8ca; P1 0xb969f211766cc2f62671c728d8da3584a9b76a65e7d0f8cddf8c9850328 0x9aeed6af3cd6962eb1fed0a2eed74f50cf13b3a6a2c3d04fe5893695710; P0 0x8bd09cede116d9600a4065862cdef684ad517359316f8b7619c7d46ba7a 0x8d661e91118d557a7c47d77b023ecde8c715c565874e3809874f41ca682; P0 0x74747625786f5ec59e9c9ce8ed9cbf3b486ab4b02d58252a2672585cfc5 0x3aae1b6df46a4c8fb75978fea62af847549788ea5a6eaabe7fcc209dfed; P0 0x140e5fd52169ac79942419a62533f5ddabec25de40cf596c999bb635039 0x3c8cd56006011cfd1035980fc80ae0a4b74bb174961995ad3e10f763d6; P1 0x2ab5ab3bbebc310c1b7cc82cf5abe1ee4eeffb1e2c7b8bb7e15497795 0x5602492ed8d3665fa0936352c3c44013beb514640f5e3f3464801f703c1; P0 0x2b16709ada7f01d711556af182b54fbc36bf5f251380cffc3f52da116f0 0x1bf148a7e3700509ed91606f44c817adf83bd4d0502dc5c09c88f317d31; P1 0x91872f0c930a3548358d5261797c4c60027fef0697aae1b51127634dfd 0x1c10b10f0d770e2b4f134450d70d90b11a7eda2f2bd99c2897b1825b943; P0 0x496786dd7ffa5194145d5fc967b5faa04a69b82810a08f49b015874d18 0x74480279235374e2a16852c699dcc52c7dfd63e48a81ed285c7e5d19481; P0 0x4ec19e9a1b673c22f2058a67b7b8a2e8a09e47aa9a6f6d9cd7e44ae322e 0x559eec119ed89e97e3880bf554e4dfac497e175c7ba49916ac3c2c04347; P0 0x2ab31bca53d66e5257ec24135476bf2adab309ec796b9fee2b53617b26c 0x471a55380352b7d4ab5908e4d11f475893e8af76573f689524dc051958d; P1 0x3ae4d36e4fe1e5417e8cd667fc2b55b96134936fa4640d8a7405bceae92 0x5a05067357764cfef7060027131df16728fb3f254737bbe73b15f3944cc; P0 0x2f3326979932cc09e0044feafc1d63522db7a55e3169168802551d1895e 0x8c6cc7c6246f51dc41276d48d6232ac868e087fe99ac1aef1b013a177c6; P0 0x72db2b4580b47a64bbeedfbc1be99fc6cf4c722029435990b7b0305079f 0x8691a864666d02d29e6e8f858711919bf3ea1f7df0bc23e87518f90e96f; P0 0x6979fb63c2f703c0416b16ad771312fe75f904e40def25bfbe7d7decae0 0xa6d025b3c2682f1aa9249280c8b2ec575a656a885c6959b73a28663aa81; P1 0x144284c3a9a79378434b6521a6a376e4b68a3fcd7baedbb4150d719bdb6e 0x490fec71011ed64ef2af768ef6b9906cb3742b3c85212636a4931939688; P1 0x3e2f33587c327f47f2d8b58b334c9fa199800f303491a0bc0e3c238076a 0x1f3e1a401dcaa789fa9ffa9731a7b52be552721991fa39bb06eb42c69b2; P0 0x5af75506f33d33394be992f36c7b2332700822c8611aee8663bb904209 0x897d4e5ca6b621a204246bf1e6b3ccf0c3abffea8fbf99e759e1d4e4441; P0 0x6e1aba72ca89967a87b76953081b4e52a39568681f9154b0ea8b836f886 0x70dc83c915c9a30082a9e39aa9ba08d61da62ac3f597b6c81a6ef84c1ff; P1 0x946241d11a68baadad2016123d06dc6b7ad6ac6dede9836601f87d0d5f4 0x5c3eaad9e0a57b95ad21afdbfd7722ede32fb5911db11f86dd664e13806; P1 0x631fc8e13dddecaa566333ebd3202a6cdc2e195cc63a9a005063a89d30c 0x4feebc84907c3113931857644abaf5008ab1b11f126e1943cc5fed29d44; P1 0x4a6ddf20fca85dafc4e2ad27b8f344ca93851e5c942ddcc135d86d61842 0x59a177ec303be469991b48d06373b36d457769c4c58ca76fd75ee1dd90a; P1 0x5d95f3734bb163eadcb563956a005c6b886afd87b0943c641abfbf1eee1 0x1fc51e1408b68ce57e65871dc520f80b2ebc6a0a3367821ef7717bb44fd; P0 0x5e10306da6339396404b3d379a36d47fb6e6bd291705d83c60b981ef6f 0x1f6a5c1a41e4cd6b266242bc6424ecfb3146d291f581264a1f5a5766e64; P0 0x5bf9c3b8a55332e9522ba83c13ab5208a5444a74b52eb3909f155941d3 0x4ea9e4f8ff553d0d981b4d5dcf2cfa2c40244717c562571f3b13f0ebc9f; P1 0x4815b866bbe9b820eb8ad954720c0b32e1bc96709de06ec5a9ff7188ab3 0xaa738e91cf630c4b2d4d9a87f107c67600d65c9394c40a69c0a8bfbbd71; P1 0x15273ac9f3115caf8cb08e77daa18d8d293d94d20f522a18c72a4bd09150 0x64b726da771fbceede5edd84adc0ff84036c2922a5637dc5ee8c39e6f52; P1 0x762a2b9d827883bbe61d4c9528e4ff71a500563d5903dd688234a23a62b 0x637c0ee2cc0b6dcaeb599a30cc6b5d5dbdfa848a45dbe37fdd479c4d74f; P0 0x39a5a8d2b035fcb1ad1e3022f8baf1734259c97695150008120e3234a1b 0xcc1f9b53e45db4b70fec6a420954e2fd402b15d17403687e46c431ebd8; P0 0xf2b09b1d584fad2b8c0b7bc1cc2e8dffa9d02d4b81a0f9b4e2f99d4d4 0x94b51c1c08bb6106c387702367d83969555138f3b551b4b89d2146436a4; P0 0x80cdf8c807df0ded77ea4ab3922941603521bd9d4008a2e53830b355ff6 0x13961290c01b432f32faf7b3715f10d3b296b99a0f117c61b478146a2be; P0 0x23c03b693718dd4c54bab4825c8fb3f375c2ca8d9dfc3ef6952770b8c4 0x86f74f5ec5ff134be9d6cabfc5bb6425c6403b050394f7188bf8c42ec18; P0 0x6a1991b5eccc552460644445b687276145b4787755cee8f6079cb31ce8e 0x827c27b03284749a31c8b360b9881e97c8151156aaef8616e5fcc85866; P1 0xc657cd70f83bda259a3ad301b779e4fa1a408ad4f98a9e62023519c76 0x506725a0e8768ca4f235a0c11ddcc1eb8e7929ccfb68c61926032997176; P1 0x4b4ec59d5154cd9b8cebb6cf7e8b12c26504bf9f4655c19c67fa7bd92bf 0x63bc4d9cb52a9754c238d398887acfccdca49ad9407f22d9885f5ba22b3; P0 0x39f035395ccd43a2e8ca17cd522c7b40c7198dda5fba783eceb46315448 0x6d1c99105d69cfa4b34039d04921430209fa4072abde9485c38ad25c111; P1 0x8ab018e3ecdec55f4ca514f49c71f402fd51e020c70a43719e00474abf8 0xa61deba44a92c6bd5e1d91b0d7ef89ac1d8630eee23d0a0724b0850839a; P0 0xa0ba88dcdc5e4b9767fcb97511726d8e20451c54f276282854c2c65c38f 0xa81cc8bb256fba5be9172c780f8f2ca8330a1cd3a1145636c53d52e39f; P1 0x1493a1e0f74456dfcc80b4f586739739a02e914ef9630fafc8bebc315b 0xc1e4070f0dd95aed3b5ad84bfc4cf6ad196d2e8af4cd16c63aa3d70339; P1 0x1b5ef6b3dad9f12548e6011e20270e2735166a32df3db08c262a473f5b 0x699af81c372d528cce7bccde3373e7c7df0387b942aedca056e655b519; P0 0x40f5702c34a3a84c37a82ff6e27563dd445a04dcc51c197bf55ca06f9 0xd3fea593a8a4330bafa2fd52500a06163c4c539ef1b4e070cd2d894c9e; P1 0x20b88ff82b1e0adaba885b20f6a5076a28308ed83eb4b61b0280111d32 0x29931d92ac4fbe34984e3ce2fcbdf241512f68a022c7aba70da45fbb3a2; P1 0x142294bb011fddf6146592206a7e2879dd5e6f592b4a8325623d9ab35f7 0x3161f0a8d7ef190ff8020414eef3e2e319d58e3ffc58fb9eba26817f88b; P1 0x1c687e06e8934e7443b710f173be5c1cbe498ca30890a708a6f9cf21c52 0xa42e922f1c687226936f25e8a29429758a5642876521ef4aef8706f2d2c; P1 0x13a031b372a5b746e2fd878ca31fa33ff7aa8e790ba8a532472cc8ed2c55 0x3e880faac92245514849bd31ce2048204d49a0b3ec2833cb44aa59f38d9; P1 0x2d8ceec1bfc961e82c2a5ca93fd3ea5e175b19604ad5a193d93a92fbb25 0x2d97383a0fe72a5348cabcc7d02162a6eba8a6799043408a18dd3b04cab; P1 0x1836862fc5daa0ebb9a44291b5200ac801c81b5d7cd25b7362e405e0235 0x78fbc453fb927ed96996bb10871911d89ac42e75ab731532a965c7ec18b; P0 0x55412d6d3c3e412196fdd22fede92e29f0391fe08b1e71583b3dd41185d 0xa5d7e7e44b3a91932fddde4acb4ed2bf29f935be4dc1f72473ed2c55da; P0 0xa03328ad6e014aac0b291485a05929b2f47b9c7c4092ab7a5aabf6777 0x57e9d1cabae7196e63ed069f5048b3c2207b1c5d69a537042702e3840a7; P0 0x2d0453187e4b4c34dedee0bbecf25429bc14b5a4387fab70af0968c6ebe 0x19945ee73120db1556bc5ac04bbf87503fbd63f3fafedc8fdc5bff65b07; P0 0x3cfa569fd61572d9e8c7fa515ceee6faa0d253dc3fae4ebf1b82b279b0 0x32a44d6227352437e02099ce9a9f17501cd599269b6d2b27ec1d990c9a1; P0 0xef00e0ca68ee185b2fb43930abe783a52d01a0fb7b403b518d5bd5fbd8 0x43057f7d9f64976176d0314c103e673a8ec2932e719030ed73bdcdd89f9; P0 0x1a29d2f3f8e5a4fe4c4dc6b94b996d60e72c98ac7becd99d2ab8367e859 0x4ce8eb0d3d71c01c95bf85fb2710416e7a3ac35ae923069261a834f093e; P0 0x227404e5da3223dff0279341fbbd10eff72ab5ae475d15db44a0d84c36a 0x9ce01cb3d6a735e738ebec2a6955cd5ce7cd8100b65a09f089bba8af036; P0 0x8f57bd7db54a457b4c9209a3f289b6ead6f8ef50a9ef621fe6b7db4c832 0x2b0f121ae4f9d4d5515f5145bf29f65350764c1f0f2594fb98c425ae2fe; P1 0x15992ef920cb259ab9b963e3ba07d29f05e1319964b36102f04b3ed56f4 0x40e44cbfb2f3391b38edbd3db97d755d0e88fcc48d3a3eabe7807d97d0c; P0 0x1886ecf672ade098b0c7b99be3e60c51692d128ca1f4874174f1efac505 0x39ec9e8609d6bda40e6b0e6faf37ee983a10443d4bff3625ffdfbbf8cb9; P0 0x138af6656cfdd71bd2ce2ab9851ab25e23c68c7d9e9e2965af3c09184ae 0x30739c1ed97aba889513453de982dcfa51dfecbd53f6d05a392fde8dc77; P1 0x1b58deb3dab2d81f634d23387754363e66dafc175ba91202483535a9109 0x53ba7099bc2e66a1ce27e4a6854adacc9d287a1d4d2ee62b574cd5cfe1f; P0 0x28d5385a479337e4e9dcea8ea26ee55f18d5e580c9ecf3190aca87b6d67 0xa116c71903797155836da0a98151bea8de75e5c82e027ccf32d737a8b74; P0 0x972571b4f937504191ff94d8a318aa5f41c2c21723a2fdb70ca87410e07 0x1cfee9bb4d630fddc5a6ef91fe068ceeef8261934b64cfb76c90883b563; P0 0x4e5a51c9d2cef03eac04adb5d8a957374868c33d28fabb9cce10ec59e4 0x490b0add75eb793e615e0705b853be2bcadbd7322782afe941dee347afd; P1 0x3e26e48e31128638a5ab46118f71bcbaae16d5ba051a402c2122a67ceba 0x5f850f06515772e889e337552c4bd58f23dbbfb24bd36cb259cd9bd9ad4; P0 0x3524cd1a92f7e0825c74532b0bfb6a3af3ef65dc76b15faf6ba67640849 0x5f93e21ff0d87b275d01ae2e07f5dc88f61d0dd2a885880451ceafb374d; P0 0x35354d4c42b30ed140bec6ab35b6abc687fb721e2ea6d7749f6fae011e6 0x821cc2d529810973290e4224cbbb9b02d52d7adaffbbc63c42cb1199387; P1 0xc53635dfbdf38b2f95919847d6d591dd7f23a7f678bb5d1d78c877edf64 0x41a9631f8cdbfadab50e412382f6dee9cc77bf94b2622f905b0b96f8c96; P1 0x3239971273489584ee5973625f807c04408fd96f2653ae442e322ae0b1d 0x8f11463d95033692c357cf6fcc2d8b7b8a5f86a5827e1e2a3a88dfe7de9; P0 0x7738371dd866d197c8898af243d4fdb486e26ab0b48c566769dd870803b 0x3b873110bc35608c993b6dd1eba01e4f93a15b0f4ab8c6d062e875ce828; P0 0x14a3d71cc60376b3f841ea4c94f9d9bf69a2ec0f3527adb452a94967a18 0x94b393d4e9e04bac90629656bc3237c170f637fb9eb6bb40ecc4369a438; P0 0x80cb513e627f1b5e3bb1791fa428dd0365e2fe6688104c01c4554a9aded 0x91a0051e6ee101ad8800024798e93aa1975000e4be003810dde3e45e171; P1 0xf70a5ce876f5187a8e684062e752c3ac2d69bd1c9c7db06d3cc29d2b1b2 0x7c453f3ccabe719a50e09edc717cbba1cb611a84218b682628dc5f506dc; P1 0xb3e678e6d1530d63bf34c22d2edbfaccb6b4fc0d6391de7ee3c1758608e 0x520c5c9dbaa8dea01905d24e45ef6f8f862da2d2405d77b9903b077aa46; P1 0x4e6be3b11250f9dc5d207b34213b391338a1f651fb23cba14f299a2ded4 0x1f7b11ca6aa428028e6b86971e7f4bac8a00b02460a9d622b16476b58ac; P1 0xb8b76af2f914b017c8a51557238cf1dac322b45269326414e22c456d6c 0x1deade668010cea7c1eb364359e0c882bc6b9952c91e515a1a55e8655fc; P1 0xa6d396b6f4c0c96ac57bab09f107b653bd89e03edfadd86d9ea7931d46 0x66dac60d5825c8c2ef6b20eab936f9393423020b483be2520977a8b9d5e; P0 0x3d9e68580e3257a8f4ec4d50cec40f1c81f1020ea45730470e71eb6ee87 0x9f25c3c119485fbf3a9f586b2f4a6154ca0266f3174201aa30a957e41d7; P1 0x1270cc872cf8e3e2368a220428dae0a0edbf4724d261ff94f842c2dea111 0x662008d407fc190fac36df9922cebbd7e5506e660b2650d3c4a9a6a7347; P1 0x797ee914ab1a607cda12c290ea90386a75cbc5e1a25faa61f4a29d88f81 0x9cadcd6295e8e65487d8d9167c9f611713346dc929cad6c0d1fed199cb7; P0 0x8efbdba44324b98473932baea7ee1142d4b2c23774e6db19da5161c1d1c 0x5bed5f9e816503acc7a8a5503e9628dd33df15d5c060fd22ec908371d; P0 0x3138afa7fe35eade1f8586310dfc84683669d82709fb3e2235e0a1e 0xde6fda29aa0bdf7f2021f62efa73fca6596b95fc6fe1768899d3dd4e3f; P1 0x240617ecc25ed1bab43795758831dd6f4ab6283ba11866e99fd59d4ad9 0x9e00f0db6747846d9d8713eb9b9e7a4bccf14474a88863477b67ce7f08f; P0 0x916976f3e7f50b205829ef69b6e2a26b73d283bfb668af4ae0f3e938a8a 0x2f24af634d40423bc52e9d24cd96cb68e39039e79b9ef49ce25513802b3; P0 0xcf1f2c4faaae2daf0d996c702a2541647468cb312a7473dc4a8176a7ec 0x8c82af896c1078c55fdce3530caa6c502422674ae0a079d559144b16485; P0 0x72ff03738183b46d0cb8f6e7e8ab8d7fa7f7a972bf950c8af2710aacdff 0x63109cf83686d15ba9419a5bcc9a43c2e4a4fe918ea78b1a7deab2b9744; P0 0x3929670a7898be464ae9d5b352da9b7f416acb8f5e9e51c2fee8c9a2255 0x9e75372b1a8b6632f8dbe97146c278c0ffd9d284cb4422efe56a1b231c9; P0 0x923fca054f4a1ab515c8964d24f12482e22358f50e09a3065914534e4af 0x67574d5dc68a22aa0c1f64bf4b37f7def432b77f7d1716d10ce10f6a6c; P0 0x3e33f797e30e7709240125850058d8109289ddd544bb8b20533be1c8f 0x8e3accbfb063e6fd68f41d9e1173a6394cfd4fa2f4b7c97bfc61716958b; P1 0xeba7a0dc09d90a56f7b8db48c957c4ea7c5f039f2316551e53bfcf99a52 0x826c5cfcef7ddd86b2a75ec6123e073bdc2f633d18a987efa178b23ff2c; P0 0x6313e716c07b7922fe47da50601cf4aa227029e52e93d3151914b3def8f 0x20a9c6c31efa6fb6dabe64eb96778707117de2d20322bc194147ecd368b; P0 0x636d3ae72927f5c944b20294cfd74324a6e2d3d2f54200bbc297850a76 0xa13016f6a922f690af065b91e8464a282ee92cd7342e1da335c82ae55a7; P0 0x9754f545921b1f95085f4c9f82494db3a4c427828871466c44bf60ab932 0x8f92dbd7016884d69fcb582c1a9b917d51a00889c3d17e88279f6366f8b; P0 0x781090b8e4b69a894fdc1d583e84392c55d2c83e641a8c61d69f54facb4 0x18426765754e8160a7f4160b5a6c62533f223ddd1218d545f844f01033d; P1 0x6db1304faca31f3364478498646001dcc23167464c4e7a02b781d2cb60 0x482194a5689944eadd1d66a5a105dd90605243fc44d2215cc6b36b34ff2; P0 0x1e4e090f36f87a49892ef06dc7645a6d89bf238240a73659022e85a6cde 0x4329e4c4f84478de922756136591199af377e403bc6032b19a2d8237f7a; P1 0x348c8a317d9b1a19532f93b6c111235b12c2705533e1bec9a4ff16424f7 0xed815c020d553714f605f25872e3dfd36ddaeca685f28e953a2c887acb; P0 0x1488eec3fcf1205782be20045d8eb7963a6f0920d5d3f6ddc16d32378f 0x38b43a2b327a87881014b924b54214c7e69f4f60894b909ee47d7da8bf4; P1 0x2574c78a95cd1db40de14357d96a8645e5f2da10519ede99bfa14f1ade2 0xabaf8c6b094fd0f32c2ccabab864dbecd99144679c1adf804898fb2042a; P0 0xabaf8c6b094fd0f32c2ccabab864dbecd99144679c1adf804898fb20429 0x1]
    [(0xe87c2a477b815a1793787395b23e1, 0xa118eb0f9d8184bab59e8e45df736d65fba3c64f4aa855bc8921ac18308, [P1 0x0 0x2; P0 0x0 0x4; P1 0x0 0x20; P1 0x0 0x800; P1 0x0 0x800000; P1 0x0 0x800000000000; P0 0x0 0x400000000000000000000000; P1 0x0 0x200000000000000000000000000000000000000000000000; P0 0x5f6e20000000000000000000000000000000 0xa0000000000000000000000000000000; P0 0x951c1 0x1575f18d6129fa1e65859957570c9b7d9b32288cf3835bf009131f64095; P0 0x2aebe31ac253f43ccb0b32aeae1936fb36645119e706b7e012263ec814 0x63417d2de16224cc9589e533f29a4f24edc7fb8be63f893629f8712eb5d; P0 0x3961dc5e864cbd464673b882084135c159779d6ce11cbb535043a16f09e 0x9c2295e31767e636259c7c1deed13941559c6c0579a73061da059fefd3f; P1 0x11bfc67df2b725a183c28bf3ff17f4bc37556a1f97564b75ffa2c7b210d9 0x528e4381e9bd824c534fedc9a8c2c54b207db4585f9ea1608d26204f28f; P1 0x4f64fa107c92a022aa01a9dc714d8018fb4b2e931add27622db7693bfa3 0x2ab2d9be5cddc7ab119c6d5cd8c0067479a78639a092b94fb1a666f9b61; P0 0xa9e870b48247e75233972759759a5e3bdb9f63dd6cd5ebbba6da0b4a16 0x73f48ef786a0c82a5410bcef192dd17d7b44506e30444a6ddbcce12d10f; P1 0x9ca1790bda458898373137e6655d2ffb3eb2e5be3da2108ea8632ac1e39 0x1915cb3e4ff6e29f92d957143a9a41090ce287174db79468d575ba7062f; P0 0x3aa4b0c3f968ae139fb3e28c909963c487bfcd85448fffc903392aac24 0x7ce9900030775e04fe6fc5e1a0b6f3ae9cdff71700b1f2c0fc96994c295; P0 0x5ae1b8cce2d83ef1666811f975eaebf674ead1b91adc8811895a3adbc3f 0x47ed91f9e30696c95f893badb61bd79ac630564c46ebfac55ad80409024; P0 0x1e2264e64d7e4237cbb111f6d03f2dd65ce390ddb7678ab39e2c99a61f5 0x6d6910f52314c83c5d97d0ec8dba31017ab2fd248613c256aa925583ce9; P1 0x8b72c1676259bf99b35e88e121394913887fc882fe0b868a5d7cb216608 0x5422485ff1f494f98dace9fb2dbb7b389b6cc135d9a829625638397d4ca; P0 0x293ac0175656ac37a8996f482908df7f8dcc902ff329c3dbc482fa552b5 0x638b4d80ea1282170594444c4b6af20e30bf7b3a8df7c13642d404176fd; P1 0x736ea9f575f83cfcc4a74f3ee60df40d32b34f9d01e57ed5e30e717d5aa 0x694f9def2b863bcfe29e3efe3af3b25a103f679a95ce819fda29104e084; P0 0x4098de24ce63bf055d7409c80e693d017edc30f0d065e1ef962f3b954c5 0x18b0339408243fcef68a5da014a993a89e2ed2e21250e7ab76b7f98f2f9; P0 0x38cd72a1af84bd15551cd6d527f300321c10277edf2e2f345e0e8d8cb1 0x3d5c1fd1357668adbc8cd1a8afdacb0f87fa1ee62680b76b3d822405076; P1 0x2bdc0db0da0cb0592f613c8f4e26553a25ae654a5ce40245790ff353db6 0x9ad8894953481bb13ebe0dfbd7463f237320abbb500bd35d914131fb736; P1 0x11750be8284f0e3324f523b089a062960e6fc906fa2ca5b75e185284fd69 0xaae8f053ae2ed9801733deb180bfa3073cd78cdb29a508fb08902164a25; P0 0xaa2339fddb42eb5479bb1083347ec1f358bea8c6c02b96cc91fe052d607 0x6d8f8fb5ce21b8c0c7b3a311406adb88cc8672e9fe2eed169f1b4b55a2c; P0 0x45ea79a34a4bd31282a0519c494f4b6397a453a2e7b0f3238336d26e563 0x44fcdedf04753ed8c8ee915986db0b0a72ae2d45022447a3a9dc506e3ef; P1 0x377130c388a210f5b9a2e36e12c78eccde221e23e487cddbd71c442d02d 0x240276ddb10caecaf7d3e5df844ffbe9e810e888ce454cc7646bb87c6b3; P1 0xf1afd44539ffb5baead092c9033c81382fc39d1bc6478f330c351f4e4e 0x4c93bfc17e5eed011591d724972c15ad4f0c7db6a31c19d543fec4f6338; P1 0x444fc1850aba64606b2356bbfd13037184e4a759eb79084f56b40227fba 0xf329c742169e5f91659c1b9c517a62f249b58ee3eb97ce145740ea5c42; P1 0x2b0cc1f35a51e52620df8db61e8d22a19406615af4d97d29b9edac316c 0x3590cbf2c861435418e1ebbfdc94aa2753fc3dcd96b2e829500460504e4; P0 0x10b65d9710ea9f371e7cf7af73fd2dd810824fe8bd0cf731babb64b7720 0x16e3f379ad5b751a496ff90b3142c1fe077abff8bac422ba9f1603668b0; P1 0x61a95e4895ee4631513da0cb6739620cf352f6165d8aab9eb7cd2b0411 0x81c638239d085d3ad08480a21330a6c834331a6451431a1028d3502ff25; P1 0xc4303538919aa687ceb4682637759093815f8e132e9551b5a0525f64bf4 0x9357900ca1515ba1035bab892100b9988dda7494d352741e294486e4b6; P1 0xfce6728bd032db897f6317b6d2494235ac53f435a0e928daa8d637c07 0x405bb5b8ca0216da0c6f86ed1333a8bd775fed021a663d4e2b36235719b; P1 0x30403186ce7ae793aa10ef56e4bffae793995951fe5275b59fef1f14af4 0x7d62fcf75f812110cdb472c7ff884a43d480de33f860197f8f6fed500b6; P0 0x5b92bf47c1941ff6ca4074459fa9a465bb8deaff3cf9affd8f5b153124e 0x904ba4c874b1f0f05b0450a279336362c7e1488ac92ee8f5da6f563364a; P0 0x794665eeec629a2510049fb41a0050d1830e8e30465df0456e712760b1c 0x76494f0a3a3c97814203225ec564b209a6f5546814a0c75daf65d46ffb0; P0 0x517eeba1bed93d92a8c0a2429a2ed697b794974ac9a11651e3c6d0dc19a 0xa5f7104ec5019bccb3280196d860001a7443841d5ec0ed143bc88362c22; P1 0x140dec0994802e1b9d7e36b88d396a8048c711d2fd99b0a341d9c99afed6 0x5b3dc2fe48132afebaa6033610a1a800fd38e1e0af27e937f3588174316; P1 0x60faa871792189bc0b323b396cff0e0426e94dcffd376b1ee6dc253f4a3 0xab899e114625eeca247394185b8b10ed04cd483d38b90796a45e4ce6867; P1 0x156c77031b2d18c3225f74b647bdae352ee2424065117f5ceaa1fd0862e8 0x706bedf360073a520b7b2e5a24d5997e7864fc6bdcaa27a96d516b75ea; P0 0x499d65682040c5000d19945591ef1776b8d6ece77477dbaafb275be7c 0x2ecbe1d5d2a4e8bd96f9b7b79219fb1f19e861a83c56e62b50f54f2cb10; P0 0xcc15bdbefc965cd35de92fad359711c417a2528875ef6cbe1b14eaa6ab 0x480d7ea8eadcb7e4ebb35b1a0cdcd043f5e4cd4d2058172d0c27567b647; P1 0x3c7a5581a95f984a5848120b2eeea3ff89170ec05ac7e64665c67de23ae 0x877adfa6f8638081cc6b9c95ca5cef436014ca8cf2d5d3372d43dfb5928; P1 0xd5d1a064e07b3d643865919d9b2ac3c8b1574cda723bcb692168c0a59e6 0x603ea648a763450b49f2c2865bbd9d49594c23c9e5ff8ae53905be8fade; P1 0x6be831aa760053532236af67fd3d39b834f3c2ccff5b97a4b248c6b2b78 0x83cb33627fafca484eea55f3ed3e53cd71569273276be4273e9744e83e0; P0 0x652bbd5c54b0f105699dab223e803149d32d27ec71ef4f239c3cb028a5e 0x8ae0254f62995e149367320aa32b3275044ac79839f4008b2ebc57c4e36; P1 0xe0abd6782fbc52221eea3d72895820688654ff11aec3abf353824e941ec 0x77a545aee6778b3540b8d04f689d1e580d4d609671bde4fb96d6e1c2424; P0 0x536125eee80824c6a3886d64db97e06ba57d24f4ad3bc09bf2c90fc2536 0x1d3a2bd56156546153f495e59c8eedae00984d23441bd58c80d887f0cfe; P1 0x9f37b5b11707cfd07b896038e48bdeadd7528e6acccec72c60ffe89b63 0x11b8a152725ff5497da478350aa19b4f57f74d3443661db52819303f267; P0 0x1d44414bfdf03b97676c4835822f2f5aeec4307907aa7788d69badf3c8 0x87a1a708af6f6db13628dbb2cfb9a13f87ce11c0d7efdf799cc6d9d2d9; P0 0x6b260cab49890a545175d238c98b11409330f13ac97a64fc20abed153 0x681cea30777f864767ca5c72c2e0c9366d4bea0ed36db67f72e1b824700; P1 0x7e457fbacb1ed027eaa5902227e64198f684fffbb180e8306c3ab700d09 0x6346ba8fb280afe985e7767d58d2b2d993a8e1056b527bf67febc19ab7d; P0 0x3967eb809052d31470f9050f8406e2a75ca7f616b3d8014c9252df8fb6d 0x66890395acbd229953540895de9c35dfd3b00c3391b3fbbeda237c04bba; P0 0x3d3c98f6b8321593ddef21bd759714ad8cc5a1839e1359c42fac3f9c124 0x246b0d995d0c971914cfb6d54b8f246af282bafd4da86c98e6560668218; P0 0x7b99de4cc51a4ba44b46208e27cbddf8966532290adf271298d4179ebe 0x96131899c63d71007c8e92a4eff37266d2ee68854c1e56c38cb6cadc056; P0 0x832f0c2e59680ff588f0ac47de4d4ccc4606e51cb7b30071df13c1719f3 0x1063eb9f7e399a72c51a14c8774493cfd6b71251d4d13448d8ad87df513; P1 0x32124ba651bbc2ee991baada81af1568adb348de06b4adb1d1af0b70e5 0xa93f25bba885b9252329b137dc883cf54091cd537fef79da6849f6d345b; P1 0x14daf3bd846378371a8700567c1f71d02d5c38305f6c8b8815fb8fd44eb4 0x3ce1360fd46fc4a88a6439bea6de5cd95a62bef6548f0278783955a2876; P0 0x15968358e15e2e1798e00262712fc9c139aee4abe4eb5e2260073b8a67f 0x89283d0d222956de5001ac765776b44cad63015b2232b0bda5fcd71230f; P1 0xdb254a51ae492450454bdc3ed4875d360ff9d0098ca152fce4df06512e6 0xbc3c3ed954169405598c5d0a8e9d96a8daddbbcc6376bebacb68e47120; P0 0xce6156736dee9effc4a8c2ba0fed1eae55cc3296e8d52abae067ae821 0xa35d8d8f64b75f6c4a1be3f7bfeb14dec55fd2156f8b898db65dac5c275; P0 0x9b72c8331bf21eb71e5dd0ea9285cafa0a49b4722f7c52a013faf5d7614 0x80067ce1dc095d93cc102cf2a38d4e1a11b4217630d63182d30ef54641d; P0 0x5f77ccc7e89347c0b883a76aa322e0f48b75a27d58b9c821f2065d7853a 0x1c53d340376af8cfca4f67d25d18d47b236324e1a764da948477e92628b; P1 0x9590af6022cb44f3118c95c24d428abb7dab85789cb7225cd686f637ff 0x6499eb5c7d237676f292ad621c97fd91e6774f7f140b6044588dc6c0b1d; P1 0x75e59d813e5f00c1b7d3924b1b8c9d7e55ad66ece4d09c78e0b63fadc12 0x8020869b0a913f93aec77582682727fd398026d582cdb54e68fa8cfc38c; P0 0x5f9ea5ef3a7058b8fe47148d6972dc2a082e8d405be327dea0ede877fc5 0x48e88c4980b9201f5cfbef781abf1d4f828e86fb9659adff4b1310b0a79; P0 0x1ef61f53c5c7de213b54614c856a3726c54f07f0bd5224af6e28c21efdc 0x9e649a67a4dc4fcc3907d0adafafe3aed2883cebd206262a3f7c68f33d; P1 0x1244242da28b1b18f733b924cb1049a3a04721cad1bd31db7a646c64b7 0x4b38fa2dbb1b7d5bf6b0705495f8749e3a48abb87dac0363caf7153f255; P0 0x20f545a72ff5a7b3447627b288ae86db0e767b41f502df841f02e469f0a 0x7f7597cdd3c877340a980a10f28f7bd44170bf96fb6e9d8a7500735f18b; P1 0xbd405d82dadc99fff996254cea7d34d71b081a959c2e7e2a4d046fd1afd 0x9d8a7de9b52217aa780f6b630473a357fba89e98dcd89278b5a0b108673; P0 0x908fc3ce326d3aeb6257f474817020b83ee129e7062951cb7598388542f 0x96d2c969627da713cad78c935f91c840b1e6a93152df5ef406bf417b7c4; P0 0x847f01a28f80cd472e19d95d0fb111543eca24bdef0e878d672fbdedf71 0x3854f63724c53aa594b9c9922f46592727c1bd3b106b9e50dd7e3a28215; P1 0x24f7560d0ca908b6604705dfbfead7e0f9505282900973a9d99fe2e55dc 0x9318ee288e9756eff6e670b0ecca0cf5106fa7c006befaf94804342cf7e; P0 0x7e07cf4cfba128cd6b371de66091150e7605a7b47f3dc26e9cb1ad23bb5 0x3463313141c76af212b3b22f8b613e2e28a9711187f217be91e300c269d; P0 0xffc3c37d94ed97553be525525bfacd9f99ca5008ce7c75762f45c71bc5 0x5f232d211cad15e53e3a956ec029ae0c7d4a363f98c30c4217155b03e32; P0 0x34b81a49bc19af0e7feacab0e4e46137ba1f8710ef907fbc4e72c163b2e 0xfe964007ae604fff314f7b793d2966f50b5bc5568982c129202f37990a; P1 0x2f30956c4f7f32088a48fdd9711592de3c4cd9da74e8966da9fd9e9127 0x28db7db68c1382ebca9d97999fc91f2e7ec2f4dae1b50a890d0c98ceb3b; P1 0x137240a49934bd59ea237f2d183818ea23821c4bf328aa9350789bb8693 0x720ad70938bd175b53e26efd80636e95cf3443d8a5836339203cd8ad881; P0 0x4bc0b036362361b701420dcf39d81316e866410467540e5f02bedc7d7e7 0x8ec0ece8d1c70fa46ce9a84130fc7862194ca52ee39dbc9bccd849f1134; P0 0x76b27373d18ee92a3c09724a6f8fe988693cda26bf9c8914405d98a80bc 0x984b9e157c3a6b1f500e1f6db2ff31a9fc102ddea06b1460a7c4c162fc; P0 0x871851588636b9db071ad7ecd92b0e8810bfacf883a31cd88d30afcd5 0x191ab7bc343c628269193e1f3b3661f2fc43d86e3a3945eaa4ce0581c49; P1 0x7577710501cc68dfcc8f3ee83a07c49d2221d07a6d9cba61d9ab10abe8 0x70148c8c8fab25c89283af99e2d42bb5d598a2b3b545c1767544cd399aa; P0 0x492b22728fb614da7d894ac6cc3c2b996270ddb769d696e0ac13b9dc3bc 0x6d18b4092d072cfb745aa6e3b53fcd7b510266a4fd1b331deac0331d450; P0 0x4553193f70a72c966a33465fdb8eb66cceda94a92a130e9f3df7bec4ffd 0x5e53a20049dc2fd1357d92bfa28d053694fa00741bc1e52de5063d93581; P0 0x33d31156663edc905334c14e0f2a4f5e4d78c7f9afa7ea6f9963c42fcb1 0x9f254955df08c93c067baa8495de768e15726947b90bdcd4eacc89b7546; P1 0x1270b0289677737b674ff65c1c378457f3f9c66e6068fa73de459dea731e 0x294e98f067f27df25c8f920e20c4ea5ebdfb5516bf8e775c4e033f0503e; P1 0x13e06d2a972d864b9e5c091dca02354f6c3fa6e6b482c0fdec30a043b20 0x67ce1d1c80fe37780fd186479d9fbc96c40ea65e8fa7cb70d1bc6eb2fa8; P1 0x7d86a2f8a33b77659c267974fc37f7a81d39ac33d1494abe66b55613993 0x5c1ad4f216d7c72355fd281b05b7c920f88c6aa03cb83455ca5cd2d44cf; P0 0x316969d97fb3a296dcc760d70c9acfa35e354f1cb1553c4baabe6a92f9d 0xa1ac6b40e5cae5858f15b1990489ac87ae8963971fa5721264f97f12c02; P1 0x1307d87174665b81f23194e0ed2b1d49019016b1e3cbfa40a2d888af4b35 0xd3f3fcd02e66cee9457b1ebbe0134abf79ac175d02139487f0e630ea21; P0 0x105aa2d8d74f2c8db2065567565b4dce54ca9cdba058d1857597dd1a52 0x14c97ecab69056698bf65a377fb2393a67dd9816da34dbe0179dcefa47b; P0 0x2844eb7d85f3e10e69589bb0a5bc4a393a56553432502b43192df9a991 0x58495c6cbe1f4542979c800a596b7e3cad9056e18cefdd81b7269f013be; P1 0x5accc1a77f1a5840dc146d080484532d2822c93a2c0305df7a06a9927d5 0x3acf2096c14e1b7fca61f3eee671d3421087e6919bfb43a8ac6ca187d41; P1 0x2849f11dde35bf5ff983c77d3479277d233239e4e5790842604e11f2f01 0x19745ef76d601f918e154de96683253c37ed80fbf01ef81644d10462bd7; P1 0x78c44ab0963007c43a35772cc8c271ec2e93e3a87759c08af1c905a29d 0x18a032b6dbdd0ffa50f8321ad648db97637a5b429266fc8dc93238518c3; P1 0x7107cced17394d15f4ccf3b34c42ba6e7455be539ad1aa939f22f50a67 0x58168a9cc810950795f992994ff8ecceab43b9ae9c616d7df3da615edc5; P1 0x5a6457695fd90f8afa78a21f20c5e21c565872c097010f6d2b10cdc67e0 0x32ab2873918a7aecbfb6d6af28c203c819c0c0017539810a225c1ebc092; P1 0x1de83366fc7008aa73e32df8b5b8e39bdb245ba184b021eb069e6245acf 0x327b0dfc6db9e6a5625a8cf945eba5c566a6c267735a886152c835a29c3; P0 0xed7c296f25534f937cd695599b3d37add33229eca0e4af761206f098b1 0x5641d4e5de2cc434d8ff2a159299498cca60897ed388a0aef15ff0da0ce; P1 0x56ac669e6c83d40ef71069cba30d4bbdcd70e7c898cc274668c20f418cb 0x55ee202d2b055d37b42d41d71c452087956e4aed2b02bb73b7d4052f56f; P0 0x2b023ffb5742af72c8e2134982022b4c79393c975b2239befff0a800064 0x9823bc824ddf4238bf45872426c1302f752184c5056f87a8f42c1600555; P0 0x86d1999e6a71d91817d09bd268bd2ad97de1867eca062c9802aa83031fe 0x3b697d501b0714f8d317f10949e2b67188f4cafb4cccc75d9b98460108f; P1 0x291e86cb6ec319b882c25be06177df3e1d2f404805053809cde6a8ee49f 0x3380985bbb3964a6cc6fbfc5444ec2fb50c1af4cd9673da926edf837d0d; P0 0xf731e244ae780eb28c3107cbb7089eaa8ce556286564c64384c139ba32 0x52b2f1167be7a4b9fc1a2da3db30dd39977591d38cde11632591e04a443; P0 0x27d5cae579581da0f17108a6741b38674ff418676ce366100313e51a01a 0x15ffe601f5b00c84e6b79ed19993fac9d4e536125b1eb5a8d2a9339d2b; P1 0x5a35451680c7969afc2375e93824a1b48ca9c24eca7a57af0248c30c 0x99016ae6d7a7f95a1e2c2c8154174bb97e560efde2921b4b187b3a2976e; P0 0x885b9ac2ac8da2836212d220f5a983988bb8c3542e2c148cad4fb6355e7 0x3a40cd496b38c85262acc65b5751cf807ec56bf6ee4146d56ab4a25e977; P0 0x13c3ed81ebf18c09b6c74292800c24a1e8d8919af83f3a23bf86100b9ab 0x650348bc16e94643c3355253b78e6752af906a3eb5bc54cf2993163f998; P1 0x76dd1446458aa770d49aa14dc11fe563944f9aeeb6ae6eef87b224bd5b1 0x955deee08c97abfb04f70d7ac170d444f78674df8f534264a84f7ac6bc5; P0 0x81f31398efb5821d90ad9721a39a7fd5af88d93829c6be9da7fb0a06506 0x377735aedb37e55d19ff1c50169c5922f560053366812d8f0df5f653597; P1 0x23d6897f0efab758bf52d737177f448838bfbba1b6f0013bd4a04e69dc7 0x8acc4a87344f44985b9ab5599431a6b28010d329ab6b431cc39822a21b5; P1 0xe06b9d555f3943730f3e51ab7e0a215015ea2f597253911171ed4d0b3e9 0x5c23c73e3442a30395230ce026bfb02114263a1ee539024c0bb8ec877cf; P0 0x317303aeb71fc56e1377f02a98a7c94c6c7b654ba692ab7a76953ffc94e 0x497b1976e2c5196437c64570ab1267dc3ee2476cb1f39398a436a2a1147; P1 0x3ee6294f93ce922e1db5fd1cc49ddc19035e95e1a3e2e81ba347f951a46 0x67c3655c3d4c03a9e39cad8d9e6fc7d03deac383138d118a925cfcc81a0; P0 0x3eb65c4900284426d04079600664bac640709af5f5dcde80ff0eea6092b 0x645b08dfbcd1d8f70ba37aa8fe62a64990262ab94952a38617885b46dc7; P1 0x75526730bb9c399f8301afef9abb52bd23d3d34ee2f4c731767dfbe3457 0x3b4de569432f428a4d9321e098af4893fe8cf220fcc35aea5991e93fac5; P0 0x147c2ee340b95c83c91a30c3a1d8c00f10f74548796a097dd652beb0c33 0xa118eb0f9d8184bab59e8e45df736d65fba3c64f4aa855bc8921ac18308]);
     (0x70d382ab8b9939, 0x74c3409e79aba383a4dc0b39dea2823bd2c11fda642b4d133521b47a165, [P1 0x0 0x2; P1 0x0 0x8; P0 0x0 0x40; P0 0x0 0x1000; P0 0x0 0x1000000; P0 0x0 0x1000000000000; P1 0x0 0x2000000000000000000000000; P0 0x0 0x4000000000000000000000000000000000000000000000000; P1 0x2fb710000000000000000000000000000000000 0x50000000000000000000000000000000000; P1 0x4a8e0900000 0x7d00000; P0 0x0 0x3d090000000000; P0 0x0 0xe8d4a5100000000000000000000; P0 0x0 0xd3c21bcecceda10000000000000000000000000000000000000000; P1 0x20a5e28a550bebb6bb61a47cad879e6b100000000000000000 0x36bcfc1194751ed30f03375d97c4500000000000000000; P1 0x22e776c566621e777998c5dc45c05d887 0x293090b34e10fa7bb92891d1fa16ba1848ac619af3fcdbaf2517cc48553; P0 0x9e1c84e914c2fae72e71415170ed67d59cad27f405f0eb413e95148fa7 0x54fa80852fb3f1a8f9b2fcc3646eae47d0ccd3bda45d17db1ca4cb69bdc; P1 0x541f75312fe4448de4469a04f0d3c79f18dde8b9bf0895bdc66a97e3f97 0x9eecd71ad8d278026488d9d4b58783394bb1c2e2878c24cd8f836373fc3; P0 0x931cee48328feeee0b1bf1e4c3b4be02df566d78d9ff11c38c2e8ae85a0 0x9a0d8dfa4b4844656af1e681cca5efa28a8d2649a819f4c17a5a1049ca9; P0 0x8a3b2a5202a745cd350aa5030d2f2e241f2652281f6ed4ceabfe9f71a34 0xfce7f7d1f2994388d95a063dcf4bd18038bce0794ea6f923d06a1430d5; P0 0x1748cc7ddc14e4cf13316e30e105c2a34a611f158361f36463b5295772 0x384a0c2fde620b0aaf810774e6fbc35004211180ae5329143fa80051913; P0 0x1274823833b790682db1a2f7acee573d5197d16087b9f8e0a23d7d93402 0x467502c6dbe8ef6351908456003b481a22dbe9c5620d207abf0f82f313; P0 0x1cea199e2fef59e54ab2cc1894e1321a52ef0ae283c6f1a9f770e431f 0x7b7855ad4ab8b10900bbfb5d4212ef13baa987f40c74699502ccb195134; P1 0xb197199505179e3a377ad48b8a014ed19418abf124b4742315802f1bcc8 0x7900fba732dcd1bae00accf31183c779aae176b258babaf40ed9b360f88; P0 0x55488789ccaf1b42a1ff180c00cd6a86e7822e8fc810e1ae1536ca98b36 0x2fddab29947be37bda6278bfd803e297455b952cfa87cf182c7621dfe2e; P1 0x1ab0a1fa00565a6dfe0f859d5ec0bd5b1cef665bdb993a10a9a6efac5e6 0x9c6717ec1549bad38b398686e95c275568d804f73372a4bca99f273cae6; P0 0x8e7aea496939a85cc50e105622136277cccdd6b18a584871bcc3e26eef5 0x5f941f76cd04893463f8d21275bb2aed9191ab84ded143916f5b5d3cf7d; P1 0x6a6b232fe6c46edf58036b8f36e407a6897900a419d0f1bde381762cfe0 0x2f033b8895855fa3b714e011e78d5b8a2f2a339cff61a6f4054c1da5b72; P0 0xcdf9a2db8d02f5316aca0780f850132ff4724c200642e37ba4207dce73 0x34dc89d671293ee13cf9316d146851c70ae0ed8c63feb4d80878d80c573; P1 0x208d3fb6f9134506e6c790e523cb0af1c03558075c51df09739c5ff6ebc 0x1a3406f102446a8246a8d5ca1ef602da74f71113754fa37d8433039d9be; P1 0x7ff99fa42eedb67a8ec4496adf2a03788a9b4f919878dace25f3fb19b7 0x74dcb48afae59b3c67cb038ffcc4a4ca504ea67742ac92ef147ddcd244b; P1 0x9f17161262eab575d7700d0478a8e8c55d15389ec5d3bd23c6f1348f1ad 0x3472e359abc68e2e30135b207f66291efe3c5740387c9d3450b38350fe3; P0 0x1005d1d22b98f142ab781d29b69fcc8ab900c8a43a47a26e6c1eeb26ad8 0xa9df09cd53b6ce58c8c90417abe661512e8a9e188bc39f103d211271101; P1 0x15026dfea40a5725c3880b05544eb2facc35657f003e77db1481f5f19f3a 0x518b096b50015a43f6863ecfa3f9face2d14129eacdcb33b21070779d44; P1 0x4d756f0e994e7fe50ae86422b50b3a4d366f871acaf94e814f280e0c175 0x1f05dba0d91bf675bfb7854a3a3d4bd9dc3d3c54f8390be614b2488a179; P0 0x59b0f5947a25822562f9ca26c15737fa499d486597442017d09398796f 0x91ac4eea6535dc066f4b0a7fb2add70dda5e94f2492befc3ea461b9498c; P1 0xf7340fd11ec0566af2e5c682223cd1accb6348014b11fa5a9e7ed81a848 0x951ef7da8c8c04c80818cb93f6f7a8fa60f6dc1844804ba0d14cd79e508; P0 0x81859b86947e0daaedd72755c48d2be91ecef33f42e4f3f66cd5876645c 0x25cf059ece65fbd54abedbcb9321047c4326a0842ac1e5ac89c3d0b04cc; P0 0x853844feea0757deb0adb834e1f75be4fbac9d07bfc4b7c6875b643b05 0x8b0d540b5d71eb6411fc4f2678e7b70f05a87826926436030e2e26304b9; P0 0x709f0fa67e289a6182589f3cf9d7c460eb927e901a6e779827c97b40545 0x7c4be8fae9dcf36d6b3bf7d60dccbd9576c6a48f5952b76e3f0cae0571a; P0 0x59fce20774aa05427b56c949fec1ac9cb7480ea2a046e1e48d801cdbe9e 0x4af72328a44aea1ddd6d231a9afddfa49dae2c452880347f56742bd321a; P1 0x41775a4cdf78fa25d07cea61388bcc64cbbf4a8f27598d1ca7fce77f486 0x6ebf49b25813a277ec1880ff796ef520c281a4f2b0daa7ed5c26b402ac6; P1 0x8ee06fe48da91d021f94be2ee6621ea26e9598677df742b20c02a90df3a 0x1388646e1be4ea0e494c1dc3f9471978d49eaf9a75a5e2fa375d624bb8a; P1 0x471cb7c958b022d7df93b7a4434f0cb802b3fa018e398d5c469b9e56f3 0x36a3cf7553d21b648f1ed810205febb48ec6c18752c2aaf98e8317b65f7; P0 0x1163b1a1dd43f13ac135a5e1dfeff2bf2bc238bc467d07ead0fb1645a69 0x1e399f93087d4262f1bb5820668d2520dc64f14dc57922edb52d0b000ae; P0 0x552334a5c12bd7e9201f489e18a4367034e489fa6815e6222e84cc7f85 0x9c82115d1899da0a940a467e41fc74d103a29acbdad7e934217396ef6ed; P1 0x11d5827ff047bc2bc1e9fa46edad99800ca5945b05297074defb54ee419f 0x4d8350ed34baa5bf214dfe3e8803496f509169d8cb294c73955e9172d1d; P1 0x45fdc8eacbcd814dce337cafd9a62f8359a4f9008e13e6eafb6682d2942 0x88e56b474bb7af3763ed324f9cc0cd57b661a9d22bee67bffeb1833747c; P1 0xda4ff824094dc594949ec8d75380d9b78e0cb4814aa8a7e496479bea4e0 0x8d40b260f42655ebe28dfcf5725bc8e66a78dadbc94c51d615e8b780680; P1 0xe86db3f6a652f7b20d5613e88e422020c13c162654ad6dd8c7ca59153bd 0x17c36b670518459006a6da192465d07e3c5e379b701b75e0e2c4f327b41; P0 0x34a04992ae1b93c28d8f4d6053345d66f8d7b766f0c96f51cbbb13aee2 0xd277821f0ddf288eefe751140b11186f49e350a6db77bb8ee7ec8d9e8b; P0 0x102020984c37909415cf9ba1156aa3b2287aeb81f3ed0e997c3384b344 0x3f463cd553c92eba5337e0bef7ad77d3ab925fb4eda4f70130bf3eeb30d; P0 0x1751d2526a38947784c060d7e3fe2247680917a0bcfc8d733eddba3adea 0x57317d4442b057e0a914c0d6101cc028ce184ccb55e36de0709017d505b; P1 0x5890a49f74792155d0bf286ab09a6110cfbd3014027b9901ab919066be0 0x74d4ac87cbfc9943c9e27efb1e76d93f50ab9ed5fcba9a917a820aa6212; P0 0x4f809c75e2711f4519d4fb499c2729b6913c244db42ac4ea103a2b97b32 0x66b6614beb4f4176fab67928b4855c257cdc354da67b696cd913a14fde; P0 0x3d72d4f9def427718479059c1691a8341d9d28be4c7db959735367ba3 0x68944386b0ee6341538f6f18cb2176c17f95bbe61da81666b74b3bb7423; P0 0x3fb3d2e2ba66423faf6a2a8fa0bf376854c844fa65f045327de187df494 0x6633561d931ede0f184c7047b535ce2dc77de23583e0fbd6e4d01ef57ed; P1 0x79acda799cbb77c4680968bb1a2ce76b19e5a8103439ab400888eff0da6 0x57e0e3f2dcc95291323e5c767469a94029496c09fab8a69991510f7fff0; P0 0x2cfb2e95581d50a61a541d2610b62fcabb36172475eee3e68f59de786d9 0x3201caecc3cb18f623d8fa9130a57b5b70349a3de645a46a874c31ef68d; P1 0x1d219229d5b442faff23351135d8cc56a40ba9263b67aefd8e02f5c9651 0x95fb5528197f6642fcaf771de583296a4386de1850d7899142cdec60fb7; P1 0x1060b0834ea4256d39e46c7af1278673d7b5c13248288fe24ed01bface65 0x3c3b72efe94ee129f2b1ea9c8bfe480f5b59622eda26a6b23abdc81aaab; P1 0x2a4328d4898ba187247ccbeca8d8963e94f668bc4e2b014583aa1edf448 0x6698a81f5e335f7215997d72b332f8e0f6c8dfc2298719ea919b761f45a; P0 0x3d4f499e5224cbe6515741a244745c05b997c59e139bc9d0296baa77a02 0x739ba9480686cc954a9b010f14ad2e932b690eea02a8d424b7fd602294e; P1 0x9bb1ab99c2dceb1d1920d19d49f140c51144b73a1fbe67336e303937e9b 0x32bbb3eea704f929566e5df98c1a5f0be16f37d5d5af2d1c784a33d777f; P0 0xefddf47a2a21bb78332f7d393bf7b971c118ff1bb398615584457ab8dd 0x7cdc0c83de0e4b5d039108b3c78a66908cc1ea3d7cc898054bb5122cfe2; P0 0x5ace0fdeb233695cc2905104480a35a2ca494cb57767e13fa835ae5e739 0x8671cea41cd4789f77d473d8ebd07322fda86d69d7173c0ad746bfa88f1; P1 0xd29026a2684aa0984233863c6ceb0b79cf661d6b1b992868f33ef5b37b3 0x5151569f2e66d7180e50f3758ec29407bc01165dc746d9b96571342beb1; P1 0x4d07f7f16d5b15f591ac62787f6d1616fae20d2de79b712ecdfa5cda44c 0x84684e5e55e322b8dfdd54540915d38f7a8f746ee02c4fd776f8daaa3fe; P0 0x661d80f42092d96ca0d2c26f5de987f68be93331107c49e2ec38bd142d1 0x5597e2628de7cacfa30cecc29403156e9e2aac3e4eb9303b9f40ce1f2e9; P0 0x2aac170e5688fb607d829a33a459be2c0dd891bb8e24ad81f7c138c7b9b 0x49acb2fdba8d357c45846842a00e78fb8888d15f6171ca6e788bac22908; P1 0x3f3b2ff24afc377965b3f2964f87e9dcf8692f1e171ea9e32c0b03f3ac7 0x147d4fa41723dcdde96e5e2ee26a88f0a70ddc5c38b1d98875a0e7f2513; P1 0x4e3fb9036dd2471b20997eb1844603a4c4ef8b062a2cce4b98f3606588 0x125725c3c85866ac6859431ec168d06016ff34afe567bb6e71bd119d0fa; P1 0x3eb1f8db3c958bec1ab46be76b84c01da0379b540a154dadab503b4c64 0xa7b09076bc047c43a143b7ee41535be4092ea70ec4eca31a1aafe27037c; P1 0x14792c7dbe3ff19988dee673be17d64beebd0988b74823078258af5d5132 0x8122d9851d273e6ab38480b0114f32b62a3643ddde853678075f2f2dcba; P0 0x6121bc1202a56cb33d1c8e93dc7073f78b366755b3b6f5cc61476af89ed 0x40055acf5bc4b5fdee0be9a63fda60d2bea260ee95ab60f2280be8a5855; P1 0x2fbf0c58104003c299a832c63d897e448de4e9f931a437c5c3f9fc61f05 0x56011da98b4bcff124a7887179be0a9c67198fe5c321e012fd1c0ffce9b; P0 0x2b15448342ea575ea4970acc59e1a6bc31f33b7ed843854db58190187f9 0xd92da2ccced3ea133743f6ec750a82f4e298358373a931da25e4041706; P1 0x225734df1fa31eb136f3f00a24a1f9b1de77c07d5b1ecda43043853fe0 0x16fbfe15b30d3f85fb73cdc3ed8f8907f678697421bd4dfec40de62eda8; P0 0x313b77878779738a09def00009e594959b71bfd48f418795504b1c8bd9 0x7dedccc416fd92f00e177cb0e1de72137ccb6d2413413f191a8ad639ccd; P1 0xb8bbe1fe99cdf503a9637c517acbe53c1059c5e579cc1405773c50ef768 0x142fd494c768d848bf817e05430ed0c873aba4f58437930b8b5fd7fc9da; P0 0x25fa2655597e063ed47341c42f52c8c48bbb7709b9bc638459fe3158f1 0x9eee3e512f6caacd1cb3cc9652ab862b6215b6a999f970553f8db345929; P0 0x931f875229dd0b84031a68494c13e64fae80cbbdbd1a1d78dedeb6c37d3 0x9d32275da15d3c5a965b49e8218dde28be4277091abbffd11b393f2dc20; P0 0x8fedd279747302488323a192765066a3f978c607aaa5c88b86c87c3b4d8 0x44d1d3b510deccc78d8f0c1ad8f911949fcb375e8dfeaa857e766e443b8; P1 0x372c17347e4cc294372cac6cade8812b3f5abc70019fe8de4821b007b1d 0x89c2122d14831ad02ec774fb19ed6a2ee32a43dd4e5a66e23384b2886a1; P1 0xdd11f1f870ef3d1e9662d512673a2b7133da053a0004cf2d6e801f06832 0xa5496b123a9cd123a178bf3f8ab85c3f21789850371d1aa7c5ae8739a1c; P1 0x13e40afb6853a17c88ccfd179806c741f203fe4ffc0b487f65af41a2e6c7 0x9190a8df41ca258edd1a644dfe59f002ec151fcceb0d1975e49f28586b3; P0 0x7b6b211bb3524e10e9ce8fb5695cd9b332aec03e67f1869d93b696fd68d 0x76d84b5910d3f2ac5573c8877b52626ed1e9f59b34c27cfc5b442b0a37a; P0 0x52446945b86596f532d71ae36cfc0b9ffc9ae46dce960a57a3a671fd6ba 0xa809889e995792eae8852d76568a85983a4812358626d2b75b1131c9ce6; P0 0xa4775e1a779b0f717cd9df93c1d768c9a93065cdf9ef28697702485814a 0x5c11043d956b61b1d78e88c98acd3e29f7298bdab867d2bf37a62933f36; P1 0x62bdc4d3260738b028599882e221a4acf20ec38267bde90b4efc2c9ce44 0x128c89e86622a23f9c4e24c55a5172be8aa08ab4e44ac24e8dfb8d8895c; P0 0x2010897ff98c41a530049ef02365620af7b1d4e752b8486358ae7b2c9d 0x49867f2f570390915ebba4a68df9a76f86bf5f7e046f90284af6166a6b1; P1 0x3ef9adeb1265d625e6ba93dc7282e7dd7b68bbea0fac2ff287e6f0d9b38 0x7ba4c0ef374194b981fd10cbabc99b7b7fa4c4feaa1cfbe39d7b4861a5a; P0 0x590b7bdcc01a3fa5353eb7a2b032db9f6a7f249619b046a7472ab120286 0x38d2f932e25852a6f06745eb99dbec415856699aea1d86664e689b1e322; P0 0x12ceb88838d5318f84d019da4bd50ffea4c045a8fd523c36a151142dd26 0x7287f1c81dc36c2c480b9ad835771358940b9b78815446c20a3526d9322; P0 0x4c673ef091647d5a2c20e8a02380c6d8d321ab196e7208463dc7c968ff3 0x57fd31942470a23ce150f492e59692164d26b088ed99e76554c0416b3; P1 0x5a305964960cb62bf96c0a094aeddb97205e2c8c2dc9002661ef29f 0x69bd7b826a5dd49019046dd701e7c0d2075eccfd0f35cf030afd8ab459d; P1 0x823fd922f820bad425b6184a109f04667718d0afe7b7551025f84c88c3e 0xa9f86006c518cf9257525e62eb1c36c42891074a651263bc655705b7e28; P0 0xa845970b2cca041a1b068c211e3934a6dfee21e1e56d4867fd1308bcf6e 0x5c6a5397c551c21485dc0bc6db490c1a8966692062d62df84cdeb65d6c6; P1 0x637db3a13be0ec9d7bff92b2629df9694fc25a0b636a9f83430d03ce6a2 0x20105c12325dcd4fe8e83ca719041b906539806bc80116488a985dfd12; P1 0xbf9f986de25c535a19d0acd08799a4de0ebe999e39eca9eea824770b 0x67fa7a5a6f5e6d1262d3069b76587e0c7d70f43649f0e9ffe6ab7deffaf; P1 0x7df2054b51569fc955e7503b8eaa0612061c01b88f7a26d988bbf9e59fb 0x14ba9de0d112af3fe198486a7a759f52abaca027a727ad9748db3d2a19; P0 0x280b5ab1eb2d2a55a6ee6772a3217f57f560a1aea87c03b9c0f85ff7 0x865e61045323b803028e9be704e942dced8b4e6f191a1337ffdee03bf4; P1 0xd2534ff20dec00e084ea46d5d415f6579777d1ba9203ef5b6a1534266 0x35e39f821a7cbf5c9af9983447f59512f941d60b5a1028bfa34c72301fe; P0 0x10ea347c6a0847bc49925e29cce1cb4af5a825cad72a06a0ec27eda5e9f 0x7475b3e693857f4d40c384ccd24dea109f726c6022d175586a41bc1974f; P0 0x4eff8fe62729734cff809d51d7621a4cfd5fde7181c429cdacc7c55d1c7 0xe3a0b945a3504db3232c47072216b585f6339b7d67558643e4e97cf1f4; P0 0x12dcc4fbfe4729deb4ab4e5c7025ce55f1a2417cb23ef0d24427b7ad6b 0x801cfc90cb7dcb803da9b5c3299e11e8e69fc387b026ba04c1f8d178397; P1 0xbf32bb58bebc48db98eb1ac62245e070e3cd2e78f9de432da0304b8cfd4 0x33ec725c8760c07908805e30799f9a42d39fb231e9ae37727bde1d98d86; P0 0xfb416cd84f978dea21063fa28ab7be38736c5743f6ab0be2249e65d3e4 0x530c3ba2c48ff62b152993f37b5e6febe217255a99f710767b4e476bad8; P0 0x282bfeb873d403c6d0465b57ffd3066c2897f8ac2c87661bfb7cd882206 0x7040b6df48150d778c2d8c0afd9dfef1ca5bbd3ddffcbefacdeecc73e; P1 0x92c9afb1f186474950c33ec9c33a0cb0901a3bbb9bf2299ce1f2a51 0x505b75f9e2e841d56385ee61fea7aa3230a0e1930e429c12d09338b866d; P0 0x259c7188cad423331758fb2474b549d39e52b155060977781abfec79ca0 0x30d6f48b642864da4fe0080b3955f94848140e2630e7385387d7dba7b89; P0 0xde4bb74c245365a1fe3abef468d52af6ce5ccfad6dc39214b67a6705fd 0x5c88703b441bae5bea2d020d010d74bba2ca7d22378b3d31355e060f9d2; P0 0x31df49f052bc753d9cc2c7a46a4499b6f3cb36c3de7feed682be77e3f43 0x509bec972fa16e29650a6336310582f3ac6c6a6b750be845a688c828403; P1 0x4bb1c394651ea351e0e5d37d26c82f3aaf794cfe1146fff3659dd4bc00c 0x2dc111ec7e49606704afd894d84f8f997dc0ea02414182e14cfa72cbe0e; P1 0x18630e913ec7c11516aaa6f8e7dee56e323a4c039e688bd4fe92f602f47 0x3a216c9a614b57b4162336d9d7b26980dc9f498c09b02ddbfa74d8e849b; P0 0x13aea83f7014dcadd6be654b9d14637f4604d84d7b1d8ed520a51e85a39 0x5afcf77077e8dab417b21a3600431b7c320588c7bf5f9e17bdda8922a46; P1 0x60711bf70d3a9e7434d6dc41bd9e9c936c38f0f6eb89e4fd8274d132933 0x6f09e664aa53b6290603bce28f386f7c4248ba2ef49d397c828dc535eb7; P0 0x47d09a7a28eed3a38dcfcb0d9470ca25e1c8021f2f635fa8ec923427468 0x2cd108173afeb04b45915e00b32b86c0ccf7f803dd0ae8d3fe81769b959; P1 0x1765cc5a3195f4c1b3e81bf5741c4a8e0fca51838b4a49d49934a41de8f 0x90bfbda64e56e25850a5d80b3110e874776217e2a95b9576802fd6ee3dd; P0 0x7a09db0241bee56e7226a93246beb405bc242762cdbfad0a19e99bd08c1 0x56577d1d74c9d24da83c83f49464bc6bb9fd23b56dfd5fbad37c2a8305e; P0 0x2b6bf903f416f065d3b88310984e81233573cabad893db7646f2fd4cd1b 0x7e99ee42544cdf3f84a65e65895ecc6199d335ac04cc45640c9eeca82fb; P1 0xbab640a7a1da23410bd870f1df9f127f89f3b009c7e89b9c095a0182a52 0x8333d323b8d248082c0d041c30a0d4ed2bb1d2b8321e90c45d1d683606c; P1 0xc887b5bd483dea2cc1cb8fe5bf4b0c591180672fab59405ef220c3dc98a 0x45ad9a3e74e6fc4d42f57ca8f6100f594a17e25659b919565a3883758f2; P0 0x1c475639f81f7e8300414b3766fe76712fd5b6e5be1a92acf13076bf8a4 0x3f908505a49bfe5eda65c10166a6c5ddd1a2972a2a20b80e59a09d5f138; P1 0x2f1166679776d48696ffc73162d0a98a09a86be73b3d0f0eacece5a4fcb 0x1bf79c623122cac37fb7c30df74509cc90f0741a42a463bd14b82646567; P1 0x91c91dfe782e1db89c074d5e283f6572a9cd4035646094ce758dac5c15 0x397cafc43be99d5ba378d6d8dc8c88d032fbabc0c17a47584f1ba47135b; P1 0x267f6fef76c94f7bda932a57ab72674ceafe354a9e7a272403373b27a34 0x1a5b461951022a949f03e92856d5884f9e3d26c8b28fe9e59c0b6d5edf6; P1 0x817a1a3a2fb71c5ed710b949ff11f04d6624cce1f2a26ea35e6d929089 0x163d82632e142e89a8fb95e0e692b53b56572093d07ebc445b688f865c5; P1 0x5c314c088f317359f513b335f1d8e9861754d20325c29fdbf7d8ec4030 0x885c4475cee2e81273d3dde3e7f333c5b134a3d0f0eef41ceb0ba3a8b22; P1 0xd89b62bde9786ebe502318b478459b3356c37f199c780151924e5cff273 0x45c573fb16c6814a6af46c5f1f53f589ca80bb9d75823dd0147d35e5bb7; P0 0x1c5ab5877e631f4fbc5f2e97565f7f47c44362c30ea74d304208a7c0cce 0x9835c1722bede2f3b027ab0d38fed4d241dbcc31caa6be52031f8fa3e37; P0 0x86f18b0885148a0c7825516960588fd90a3c67a32c2ed71289d91df62c3 0x5c4fb8b9f55e481a161cabc3c771c8800c77904d72c2f36f99e8be40d10; P1 0x634473356bf36255291bd0d40388bb4bbbdf1ddaa1119a836d0c24a7247 0x9fc8707893d4cc0f1a4f5a9568a19ebd04669e4602c7f01f87b5facf413; P0 0x94b49529a2797e73f683288b1cd57c287b058b5a33a84289d07206abce2 0x130292b47620462e1a8a42693846e904d5fd450f54836a5e8e14c36f773; P0 0x21adb01b0f3f0ed5e6f84dc12618acc0e6dd55ccfa1d3218cb399fd768 0x4f422ef0ea8e768ef683b96a3c0a2b28fcbbe4068b9711a7eb7902c4f31; P0 0x2496f0c659b0f3c095b5a7722fa8e8dc7bf1eaa93743e4f2b92242f36e3 0xe9a8e936ea9679bdc9c5ba1626dceb107393e683a6179d46bba9b78340; P0 0x13e014166998b8ed60522b2522acfcbf6435468fa0be96265b31aa4d25 0x142279351a7478f49908667ac7973dec71e0e6232aa48bc29f1194106c9; P1 0x4b8feaaf7f05312d8c55862dd6686288c7e40fff03c2023e561d25d9b1 0x9f909be8dfc508482f2873ad5ffb6c285521a69470f11ff5b03afabbee7; P1 0x1289977efc4ac425ba1947d062dbc4b6972eced7bd0cadc8428a1a15fecd 0x95a0f0da8435d0f53f51114a68a55f09e964d4f446af55b99556ab46873; P0 0x8267c5bc71256db749beffcaecef70f0d3d1c60e90e7a5816d1f10a8565 0x12abf5d5dfb4301fae07cae7b51048fbd1267f9e985588e2a177641a7b2; P0 0x207d87b33576c47c0fea205710dbb375daeee29ae1d90cdf2c6874a9db 0x12dca4379618053760ec463fff32ae4b2302b20ebc982ccd520e0b7c3fb; P0 0x2127cfb99f5e24d04ae693b065907234e9e1086d58f71fea885386a88f 0xb34f4fc8f6e9d22771988028bd2dfab51db79e70cd0ca7851cd033cc14; P0 0xbb45bf3f2c18c9c8e2ac3aa7abb0e5e08a95c91d5ee41f5374d89b067 0x3246a8f31982bfaa531f1c67ed2eb9d0e94d76c83c592e7be961527a443; P0 0xeb902ebbad7a3be0cb96406f839f4df2880bdd20be21b8f80df3d57110 0x94215d3563bbb46e29fcf5f563805b3a2eefcf16f41839a11529c11abd9; P0 0x7fce867e9d1bdefa59b75c768e4f85d602977d639c428e713aa0f16e309 0xa4f8cffd23602cf203d2875474dd2ffb84a14cb68d8f00f9352f687576e; P0 0x9e8549ba3cdd2b70d8b11b8669853c16e9f928e9cd0d4bb378f4a09ac11 0x2e5019be403627f59a87b9f73ea0ed488454103dd8281c5ece302bdc869; P1 0x18fc7549bce14777619365922f2dc5fa0aae97d65b20746c9fff420bccd 0x52875d6e55ca340ed52dd705e95cb9a8f593db4e268b9f6d85509df8bb3; P1 0x4f57b5b8aa3553ebb3fefc760c82957343142c210f08592cc4ec482ca09 0x5878b2be3220e3be1951f48506ac65f563a7fea18d72ceb1ee0f9c9aacf; P0 0x2d971d2bad934be040677679409e224d9df62f6602a16b213fd9cb8a38b 0xf8faf9a0081a41ad6e39dc9eca6010af9e8845d126d0963c38c7cdef08; P0 0x16912e623d502a25481cff088c4f139c9edb8fdfa199fd9ace0ac857c3 0x61ca1da7c84d696e85be8354b78df8db01e4b386d3069aa7e523e64267f; P0 0x37b30aa26ac01614331a5974a36d340a7804982b94c18d658161ed83c80 0x8825e8775457982239f7c749c5ca67ef249c107be75cd4696577cbdc981; P0 0x6bf7692f19ab26458858edc2f33723049882d68c441de096b8a26b85035 0xa3a0f2aaaf67afaaf9ba0967a76d8985fc988fc8d19b947af745d05861a; P1 0x137e6493b89f71af464b234176c30e6aebaf48fc06a252919ae57eb36221 0x71558c4ff53613c1441b9aba7399684bb53ec1b00f9e26b3f800eea75bd; P1 0x95a12de69dc844d8297b9422ea56b2e73d35bbdb6cbf8a1b6d21b43fb8c 0x52987815c7377d124b8d8fc41d38dfee319a2fa1de82a43c2cc7fa32a8e; P1 0x4f789c590be7de3fad8713917b707664c8916a2507661c85ddf2d7c31e6 0x3cc7f834afdcb1a35694253e60d3fe173b9578e245d22411f8d773dd3e6; P0 0x1584a04ff33556bf178941ecca13eb66dc7be3b0847f05a4dde313fea40 0x3a05b9a5565273271f1c9440d0308ae9def35453592aa82cda8991b99e4; P0 0x139beae7861dffea3215de9ac2a8b2a5427a9595f13fc526630fa2685eb 0x1f732ece257cf4d8f2728ad489b3b9cc54f8fc7f0f2873c6baf59a42897; P1 0xb85ae9556960d60890d1f4a6e7fe5fb1452ae975d25775c7e9d69267d8 0x68486a26a31e1b6c139b75e2c8725ce94de7e26a2f78a7e63d6db6840da; P1 0x7eaf19ddc7235118e67a9cef81bb8a32a21aecb338f08e02ee941c5d0c4 0x68374cf119474cbd02a75febe33e6f470e86a0b25e539e09981b356525c; P1 0x7e85889861ab29853171bf8422eb8f7b2eae46109d121b25cfa77c14285 0x546c247e7f6e12d50e777e1f01c7e302951bf65bdda95612c5982a3e1c9; P1 0x53068720edfb4f3b4dbe9d670cef042c8edb9afa81fe26b30b290b973a2 0x4b1f9641f9bca65102c09a2d25d5db5bdbc6debcfb9dd584579c898eb6c; P1 0x41be13499aa70f14237868d67108f039564998d07bf7c76625f6ed3cde0 0x2ee878bcf92ea3777cc5eff3d6e5541ced9fcefc52b178c0eaa1ef3d680; P1 0x19a1ece62635348642eb8f0dbf0715a593a4df8db5dfbf5263fa1791afb 0x398fc1837ea815781c50db4a7c42280a97e8786673737f2d3dda2b0bd7; P1 0x2698fe90eed3bb52beabc3c362ae4cc204e0664c6a908b2028d64b4be 0x843eedf800194110a8495f776ae7bd225eb420fe4d0611f06d2cb30938; P0 0x65ddb8c9addc7ea5dd1785b01d2d66935a9f94491a08524fb8bc2eca7 0x920096919b3d906ec326084f81a2559efbea016ea9a6a476c88ca16a033; P1 0xf8526d305fcdc6b4ca3dc94caeee179d6770b6556d6f84c1b4f6e5500c8 0x94385b706b59d43f678a4ce2435266f0b3688d69c4e83bb585db2ad52ba; P1 0xffec6db0946139e86c4aadcc99c4f9f54ed7dd5a476650ba36f42377b17 0x76838c6b8460daeb13285d5c25fda87826ffe80660556be7ab1b803556b; P1 0xa39e7f40a4fec1c6be3d93d60bba2d5f609bfc3a73ea1526fbdfdd00d2a 0x342c265df3c39c9168abebb9942f072dc0053bd67083d88a7375aa99764; P1 0x1fb56d4440025628ff54d4e1bfc394509a383ec5cfa699759b52d1476e2 0x2805f0834c530e5eb002a9e34d04599d6b190996a6bb0c493cf4baebe2a; P1 0x12a90bae3bf8482eab938c8f38c2a587956a620a60d33dc81bbcbb65f4c 0x7b25b663b28d6cf23337abb502607b989b1a60034ff6431cfcf8cbd8c04; P0 0x5854de193ec91f271076f497a9f2f84488e797456f68971268b3b84b15d 0xa8125149ea7a72aebdb254243a988f325f26df0cb1124543d8812c32171; P1 0x1491120a2ed629e0cd2da3de6be49c82b08b2f7acaaeb9906d5029e4d205 0x3a1bd938014cdef83c916b4a2eaaf5bde939455ced246e6c6c945d74ceb; P1 0x2755c3aebc2b546f08f4aa1c917cae96ae23c52561a6fbfd8d0421f5460 0x5c31eb52db40441e783d9ef5580667713f6a25af499b15855d00c581352; P1 0x630464f2c2197f55296cf6cc828f955965e85500111a481bc46547f4394 0x429916ab93e9f2386e0620137a6aef3a30f82b014b7e67968271c53e2ac; P0 0x19d57380e07a2b1bbc1753864281f5f7efe487999c62265505c0ef91051 0xab5c7663b9fea7d017ef92e6a7fe2e133258e1f97907cccd2464d321f5; P1 0x156131123c7f5d31fc096e3a6ebd3fc2b9727e8261929076f45941bb74 0x2704f48d6108a0a7d8fa0287aa75823b9a25e58f1a97c866a32a51ddc76; P1 0x11bc6b518156be32aac32da3749f207c86c9dd16854caf04ee2c2a87e7a 0x7a682e1828d11cf934963ba8061573a99e181fd9f225e30d54e2e12e64a; P1 0xae8b93791d3f15ab15a51524456241800c8f92507712a85cbc3367f26a8 0x8a304f5d8353e95cc8d415ec6e12b722ebf48e531036f5108f2b65bfc90; P1 0xde745098297fde625bde8975b1f1f179f004b0b8d9c5da545845b0d6c55 0x8948234f540de688993d6bf458bf843847f9ffb81358d7dfdd7400b1bb9; P0 0x6dc5a2e43d033d231da56a763c25f7d615e9f5aba61715cb1b3abb5f86a 0xa6e413de1b569df8747ccc44a1ecda8498f4e78d4cd05ff7e3545c029e3; P1 0x14475c64b3de4d781cb7e7d9c0ed6e0eaae24b667a3358f07e6558fdd50f 0x1e52af5bbce9a9a722ae24c46c9ee45ada0f65fcddf89d029b0034ff90d; P0 0x55b09eec60210e859567fdcd848879d100c08bb7c7826143c5e68985cc 0x74c3409e79aba383a4dc0b39dea2823bd2c11fda642b4d133521b47a165])];
  mkcert 0x7fffffffffffffffffffffffffffffffffffffffffffffffffffffffffffffed ([(63%nat, 0x8)], [(0%nat, 0x13)]) 2
    [P1 0x0 0x2; P1 0x0 0x8; P1 0x0 0x80; P1 0x0 0x8000; P1 0x0 0x80000000; P1 0x0 0x8000000000000000; P1 0x0 0x80000000000000000000000000000000; P1 0x1 0x13; P1 0x0 0x2d2; P1 0x0 0xfe888; P1 0x0 0x1fa264d9080; P1 0x0 0x7d176e0b4b0cc7d208000; P1 0x0 0x7a3fc737f93f58db10bf314a30b1e9824080000000; P1 0xe983671408947e703f46 0xb8cd5e7255890d0e0d907986602bddc9c67ba97196e7941267ca3056254b232; P1 0x2159f721303a8a89030ee9a61205b8b725be166acbc8ca89dac355b9d56bbc6 0x1f0dfe590cd9d85bc54f6df96a681c2f5d07c94c7b4a77dc54a7229c1723133a; P1 0xf1191758b739401b23bded5fdf973329265f4065823c99f707b006accaad45f 0x7f7e97cd178ef6c053d43ee4017c1d92ddc1ae18350ff99ab05d59d28f491555; P1 0xfdfb64dd151a7e9c72e0b9b0012e8b3080a3834c3f8447a95d031316547bd2d1 0xde3d0ec62b72d4aeb36cbf321895273c2f8448d08a0b497109c12f489b2c1f5; P1 0x303b7d0befa988f009ad7f900f8cf23242cedf01fa08ec9b774d53bcda3e659 0x5c5b021c025321741192954188216b1154e01f00d9f83522770dd2554e78c18d; P1 0x8546277a866768fc0f818aaf7af526d99dd37946c45504e2a52baa8125d0d0e6 0x1b776bbea07930d25162ad35f34a44e31ad5e75309fb8e7a6274fca9b38b5064; P1 0xbc9a1be39aea43e9ff9e3972a67888be1d3f3a1ba3d28c6469002bfb5302f17 0x467038a8aad2effd9b3ed28402ab6f4ff081bc0947e8f8e3b63278c2ee40ccd5; P1 0x4d8640b7762c36b67a93ddac4b0f2c4f62c8ff5ace2c562f24d9791ede1a6767 0x423ff9abcd6e0ac2cf971a6f0233cadea24c49c564bb59aeea815d78b0bdff17; P1 0x449432e5afee0a8796db6a7b1594fd57bdc27a0545795ec6856b89907bd3058e 0x524a02b8dc468def7eb7e95ad469eee1ccab3d521c3c4986984e845dbcf311ac; P1 0x69cdfc90000fd297e340c5dec04a7dd7b66a07f762274819871fc7355dcbaa2d 0x5c221fac61c0d6ffe66104d19e84e07208db61a97320b6960d900864519e3877; P1 0x84a22d414fdf1604f8560c58909b1b4f4b21053476d734a6a7fd9bb7821e3dd2 0x1fbe3b0fb70b360cdf1e8c696eca5d7fd5baccb35fb8479131e4ab98c2ef2538; P1 0xfbe7ea61d22ac45e8ff8de11c9332658164613f95961731e36f8edc4a8213bc 0x7b87c61a21bd1607de6d79162713dc578522256259be972e711046f84f99ef74; P1 0xee6f017e951eddd0a3e2eb4c5544abd98fd2aa28149eb2f717d12984a5ab7f3f 0x12b24d6c18eb768b7724f3f7d3dd5b18e34a5a3e71ba3dc0756d930bacfe0acd; P1 0x5763c4bd4f7e2fc946f2f5f869ce25c9566778306c3cf5cc852609198a6182f 0x36accf8464cc55eb112dfe4ce8a197c0a0e7dd3a65cc0db42d86974422d51bcf; P1 0x2eb570cd72941934b1e60e03cc4297a37e408e4cabfe159622b441d0a2f3f017 0x331d6459ffbff29a0bcfaf627910978d4b25d0aa6998888324d6c00a3117477; P1 0x28d2e56efe836e608069aa00ed17961a1811010cbb5b658d777a8ede2cea76 0x1d6a3e0e33e7d36e6f1956bbcfc0fb038ff048f6e430c94db515f9aeae98564; P1 0xd84f89aaa418f407baa32d0364833aeabbf0601f5a5554ec0b3245b907e02 0x4599cc19f91ab66ae385744bcbd7468eab1d8bca124390c56de62e1096cb7846; P1 0x4bb111ae68363fa35b036d61f8c4ca08bd27529f0dedf301ac3a3a2deffa1040 0x539ee148b32774f7f3aaeca65f110118df5ca04f77e1232fded8d83cce9a9b08; P1 0x6d41a2c000a6687724fdd78c6b8b69927b90e8d366af242831a70ed6ee4b8b97 0x3b5822765de225e133be342f95c09f0e7914206ef4a0d297740ccf3336a0bcb5; P1 0x3706f8e91529c26a66984de23f13a8cbb928b3fc8cf90daf3b86eb6e72fa9045 0x4544a25fe11230f1ac5e2c3229e3cb05acd1b509957074665eb3ae801b4d6511; P1 0x4af847b9650373407a860acd7d9289b00346ec1eeb1fd11803fbf1f0e69c6ed9 0x31e303467df86d50e8e12275cc3f33332f4f99ad3ef3b38faa2245031dd105d; P1 0x26e2c23f2d1ceb1f2c2d9ff7578c527de0f6ce316b64684f04ca40b360433f 0x450172c0ac3a455a330d82fc1fc4e86d23d66bf206db8ee551b8855f0760813f; P1 0x4a671f77d723b0f76d1197c10121d2fc270c615e0ffce55c7d3fed18954c9949 0x51ca4e3284e1c9964e809cc55b3211c0fc431bc20ee5e321d22353c59b07b6d; P1 0x6886956ddecda3540b94ef013b5c68bdb1fd2e1caead99d61ca8983e8cedbe 0x63eb51ea169cde66974dad19de73cf0d5fc158c29c4f1bfc548adc741b397dec; P1 0x9bff66aa2de341811b8ac88c055a9315f2a37e6704007196b74450c04fddf975 0x9f32ad3cb4e7bbed9f68a88befe5e1772862f90a89d7f93ddcbd4f81f8a26cf; P1 0x18bfff4e626a683745530e482c1ed1c2e918568730f749f86af136330e4c231 0x28d053961137c98ea810238b76355510820e9c5668a70f4c33c02649f16a065; P1 0x1a070e9b52204319de4539a7b75a19920b372a0048f74e47ebcd2c75b95eaf 0x5a537fe0cb35b3bea7db382afebbaae6c42fc4dfc94025db7f483a979476d6af; P1 0x7f7b4498ea1958e08d1ba8a8c6d5b9aaa57cc6c920244c9d493e460957a9939b 0x1c2261269bde5d8a23e88bdcfa0efa5f91c60951386a6441dfa38e5f6c500bc3; P1 0xc5e277994e14de0e1678c0816b0dcab6b8d88390da67aa3a9a1582a050f54be 0x53e16d58acb9b712cd3fd2a6217e2f4505df411ee8ca807fbc2eee7a24f7f72c; P1 0x6defcda39252b3dd690884e35b9d254b17d2fe2917c3e67c909415b4a9352ed8 0x65fd3f4e16ec12888efb70cc8b28a29273846a5da1823ce24525c3af1a0e5928; P1 0xa28739e7385c715a3713c9db8a236ea9a5482675e28e2e0f74a46b8d9553d002 0x54b45c911bd0aa55f16b194fdd80e3065ac19b2c1488bbbd4f837ab614121ca6; P1 0x701b6f461f22add9bc78c06f546d3315a2550620acd076900a50af80c25d45d0 0x45e788cb47435e1b6fc2051646cbe0eb6024b4dc2885f89bed089a226205a5b8; P1 0x4c5a8496f17625c131b47448c1aebc7fd535fb3a1e0c4232465cf81e079d3417 0x6788c579f377d5eb202f037034d58d67c9c46b96360332d744b9d9fc19984635; P1 0xa77d5fea2f482113ef235ae6afa8cf43b35cc94596c1031b630a15cb8a2d9ecb 0x60302490d899f5f2e9e02601a667c42b7d6d8b1c905afb24b5b1f35ed9c4d703; P1 0x909091e977f704487093fcfdde606ba34d0bb7089059952bef2135fb668ef458 0x7e7fa578f05b7f51a80b82d5df335dba51eb6a9f6dc4258a8bbcc9caaaf8369a; P1 0xfa079a229636ac5378097b3e5f462eec59c0a869988f2f2de815fa7e1dcb63bf 0x37bb5bbcc46568414878c06702bb06e01dfef02225d056072546c7c8f2231075; P1 0x30882a290c28f70e00faf13422fd7b6b761387c6855f38ab2b6622600ae243f7 0x410e5be1ceec75389eac57fe3b8cf3e2ec40bb5a87dd61b95b58669638e4b647; P1 0x42212ddb630416b4440a53b683f0edb61ad5d706d9d6a44a313723af1cb956c9 0x639782956b2d03c3b50ee26f49583a17c209caff6f283b5f308dbc8fa243804d; P1 0x9afa22ab7f15604dd803a5d3fe168db0d11d8cb76d7b94ac39cde62cf18c5501 0x4a2f51afd3bf227ecc6f11c09d42adce4fc162482eb021d85953f1bda6a07d65; P1 0x55fd8fe2fc2bf3886c253d5cae5217b6b3dec0ea4871f7d3e0b317a90a07d864 0x62b27de316c873c65664c140ea184f417a463bb2f2bd349003527247adeca31e; P1 0x98349354ac92d45812256c24f811789285ed7af6ae470a4d5948268c8213f932 0x1f187ccbd81c70a97ea3db6abe43172065bb4c67dadaec056830a01d0df9edbe; P1 0xf1bc24405961128b4893a85bb8913b37ba88e288194b37498d052e06cceca62 0x5db09e4076e9cef49658f729d857859216d074616635cbcf8f178d0b5c23b74e; P1 0x892733534374137a3494887465ba233a7d753d61e70a2f785f3ac453713b6fe7 0x304d384d2f9dbc378a27d19919a4a9514b56d6ae3ca9c0a001b34d10cc9285ad; P1 0x2474319f72ae9e4af53b72d34a67c288fc04697321c29b1e6ef93efb9347ca2f 0x714520e2ad0d3064e4648a0fa8e7213495c02233aa2f5ffb84c4edbcdc966f4f; P1 0xc87866cb6cc18739d1857d9bcea76001c392858668bfd729eb1cabb9694ee09e 0x7d6149f0d55f4be6d972b2673e6f1dedf743b811a5f0fbecf4e123fa2cde07c; P1 0xf5a09cb938effa604c69ef1adeca28d17c4531f37b1dae4b0990f49c14bb82 0x1863621ef9cc507e2bc8b5340dcdc52c6b49032850bd067731b407940c6c62c6; P1 0x94b23eb619cf8775c3837cea8c39b40ef247ce40d76d745221523d05ef7b318 0x322c8f19542013330297c68b0c40609919693fac1dacfb57831868a326baad10; P1 0x2755be9d963b040f979fecd3a7b95dfb1746248ade5fe4d9f2c307cd5ac6e019 0x3e9755f029ad926c8f281686ec26cd545a5851ed269a8d0eb2dc3fff1d3fe3db; P1 0x3d369c5b496a6aab037ff59be0062f007fcabb8d914fdff55d549b195480329a 0x5a259bd002319b926716cfc81dbb8232bc7b48bce62b4db7bba2069862b3fc20; P1 0x7ef9dc52aa043d962f4af5e47e835deae714bb19b6ecbb30660a2f7c69f0eb43 0x419f3b1a98f90c89d23f8327b91b94acb7c20ec1b1840b06daf7e961f6ff7df9; P1 0x4348fc37e9770c0726f8be50845a196eb01f4d5dec446c0984c483e157c035a0 0x29bd1bc5fb701b6202102431303b2b4a8a3a2af6213119638e0b454b035a3342; P1 0x1b387a5dbf8a21d1aa983df7bd2618a678a69e70357deb977b6e15e7de2d835f 0x70ab5ea2da24b64d4d7191eefbe84cbe45d0ab9628454f2495915384beb77a15; P1 0xc65996183dae316bd50b7f7bb034d38e9c893c967bb95f441a83635592a573f5 0x66522a754d891bbeca560372d45e6a7f7491d8062a8e9ac7dc3d2017c2c3a6a1; P1 0xa39650d2cfe6848b0d7f930975e8e40313156c243635b8764523efa663256c4b 0x5e009653e507c594898678ae5d0037407ed5bf4610b44a725d19675bef3d6c13; P1 0x8a11b997d1e083f201e75f4bce4b26eaec33c94e8eda32a4a3a6c8984152e8ee 0x17d33b601b5f68bc78e9cc60b751ad46bfa468fec5052828bd389f612a835c7c; P1 0x8de8bd8cc76d32c24b0137590a5d9c564c85a4f675d54e9386c59409cff06be 0x7e5441f05138612df3b7215ae4b97eda016c91f96e896a3f2385973c9790383a; P1 0xf95c328f9a92de001b91eb64414f0d5d837e5ddb515415c046f8f08b984eaf99 0x4757007b8c414bff9b42fc0985e1bec31ecc471943fbef18e4564fe3c109e2a3; P1 0x4f857f576f1720a60dc4caec252121137cc144d6aa7b66f0cb51fe4bd818d15a 0x45224608a5add3adaba078f9a3888da0ba8914ba5c15a934580ebdfc060bf140; P1 0x4aadf95d5b11c4b6b9ff55cb5e96cce1a34027d111c9795999173a67c0dc15c0 0x4bbd6f63fb19d327092a0c86654245a62e7b60e51f22f60e3679616e8e08bd40; P1 0x59a22dc8fce7029ce18bf0e90ba8c9046377ebdd99cc203ae0cf4b014e7c2fbd 0x484c304b2cfe32810b6bef75002edd6a4bd07a326483a15477d83b979306ab07; P1 0x51abc75bfc37e9252b5761c71a4c5404053f59a803d362586cdae484d5b66ced 0xe7c4616bd8c84041b2efc968940b19c8396fab61ab16d4a02263f8cddb6c9f9; P1 0x3474ff9d7cdc0f93e94c318ff0c7df009a756d76555c4675c80327e914f5455 0x50238158174c551fb0a070b5ae8c248e3ec878e2f75cfb20010e28c37ad2ab1; P1 0x6458d70eb7ffe77825c758a75e16aada0082da9e6c0246de170ad51e4af678 0x3049055d5aa594440ae71a1dda29615021ea5b26ed510d0a89bbf3f6d04167aa; P1 0x246ddb5c456246761c586b355c0d7d0d56628fb1890572e1214667e2f15806e6 0x1344f1f380acdc6c84ccbdc91c4f1e3c3cf60dcb5c7bcea68c6559c0624fcda; P1 0x5cd39ee4c8991c0d4e4288eede67b184241d106af9386f81595fd29015fc2 0x605bf1a17ffedc5a22f3aa4b542bafcee95998eff8cde3bd064f7f8ea935eeae; P1 0x911458fb338675516ef551f6f40b31c16f740fb85e08dc9c65670da6d2cd2a7c 0x6da40bad5859c0b0f7e0d217a1555a70a40310e610ea052dca695e6e826223bc; P1 0xbbd46c424f77f03750ba0d8b7050e45a0afdce167fdb603abfbdc8cff112514a 0x2de3c13da94fb24d31a7291fa97c7ea60976e7ba7af24d40fd7f16638635ec9e; P1 0x20e7723fcaf940a68ca20b24e329def80b11d5ae5322c274ead397f71d8f627c 0x60c27697f559f88c2f8b1f2db010c5cab89e19c30795269440b599e1a9e3b23c; P1 0x9249b2a7b50f1ca09228b333c7c6550ec80882bc7df45168e215fbc3bb04f168 0x4c28358c0a63c47ade38ef0754d5cfb4782112a6824907b555649228765ce6d8; P1 0x5a9f986fb48712fc1cf3e163546284fa443cf903c6777368f1a98c3f7b88e286 0x26886446a5c1070536bb80608b9df6dfd9bf5ae9748aba37d735fcc1e1fa7c72; P1 0x173319beae32c0ab80a07e2725e18937ed58889b9a1d2ae6768f2b92bc3b7570 0x6c4bf7949a61d793ad122cc1d0b9d1d92b2ceb7e29b99e08235ceb5b56b6fcd8; P1 0xb740bdc18b146d925b235796c2ecf94fd21ca6bdcc542819da14bce1d1f0f9c1 0x4b8d6f110d9bd3e9742dd96bb3945266df4b29ebf92e31d23561913dce9675d3; P1 0x5930b4de1bc85b08a9b2881f39a406d80a3e57daaa7ab2ce3d5d10e4f2912acb 0x1db2afb7ff29a9b84efa4bbb79825c3cba12e2b483b4928f57b9635bbc344e3; P1 0xdc7e222112d65f62084c6678a0f91673d71b4963efc79b19255a2f3f3a4c2 0x445eaa228303d740c1f0c8111aa1a43da17464872ee11c85c8b7263f67cbfcf8; P1 0x4909b58ee0106f529229d0f95d8061a5247e8be98a44c6f182795db67a2eecbc 0x1690bb51b13f6e0dee0cb31d8e2540ae46099b2f5aa8fe24a34dc8e0880df274; P1 0x7f4c8153dbb052a10eb064192f62aa44f62a2c25825cd7da3a15cb2f2d9c352 0x1648827ae6cf5096bf3df57e0e218860fc1e3850c1496ae29fa29c0390f88836; P1 0x7c22bdb1d3a0f8a64d53e9d0a0b91a7420a594f967b2358c4de41b230dbfc06 0x36e4fef770e0ebb0eefbd1400e5cee2392e09986734f273cc909f7cb82868b3a; P1 0x2f15a19e293f9cef3deda952f43a43b56595dcaa8d3b110f1e1adce74774f402 0x111baef8ecf7e940001fd734aaa12dc469820baec835b9fcc155b15c368e2e6e; P1 0x492c0edbe48f5cac114ce676109da175f547d0779a8d83e6110156c8e59ab5d 0x3ec1fb89a68687237b23de07148750d8c2357676a16b57ea5255224a758f266f; P1 0x3d8a234fa575db71a1d004186a478d3a3e0bcd307f70608792ebbe60509fe522 0x67cad1c7d7c7fd36134bcfa0e615c08130a84be05941d90990d2dbd8d36c49c8; P1 0xa85355fa2bad7ecb5c73c75d93858cf81e7a982909faada02130eb40d4a256c6 0x7b0e932db621b2ff0c9a1d36caa4af6b92b918fc66e22718060a37abd413c932; P1 0xec9c09096a8754139bfcf80e351ea5db2a92f3ba8380040361fcf0ed39c62df1 0x2abb4c95321b78db0dfd5768e49f7c21359a05f26807c5df6abbf8b7e0cc846b; P1 0x1c87f8a7b54491f878a439046f297edbb434bbe1cab3a9475021ff2c213d30a2 0x6f97c8c769da1c291f633cd37e817b567804f88a60217141e7e048779597a578; P1 0xc293e86d9a08d1cdaa5f0ee2e5a1ba3d5c156eb2de13cd5e77f6e49709809ffb 0x449c2f5239333dd904083b3ac10d9cbf3f1b688ce7060fe69a45633a5193b021; P1 0x498d61b58d60eae0b3c9cf356191c7bb52070e56ff9163b29fd98fae7bb1a26b 0x4d250478710852639c536ca84cf21977842f0f49fb02bca5bf01e92c7055d673; P1 0x5cfd282afb8ea8a8a4784b0405298e20377936ab1ef13a7f4a9eca1eabf33f16 0x4b1497e95da51643fc9724f875c64ed1c77a2a0eb373cdab35e98c303b129df4; P1 0x58144aab4de9f82ea6a07e9a3eb0b62fa0ae4887d1ccba48c42829115b0a206a 0x78577c78225b8c3a6338b0baf2e4e7badd6e66fd365d7950ce0a6f9be14ac8fe; P1 0xe2488a59d9871d63dbf43c3f4f3ff9f24a3cdccc8365df9f3c69cadcd1a53e1d 0x3738a60ebe123e5f8825254430aebeec235e0a6ab1f8118555ca73da288f542f; P1 0x2fa58f8d9f58788559354ca537765cdee465a9da76bc84d918bf651fee0ccb3b 0x62c079c9d9fc47013ce6740e285d14a86da6c77d2d9f1eacb6e1ea925b54d6a3; P1 0x985fb7d5ce723fffdd807c217c6ed844a502beb1cf44335dfc0a7d9d8fc86f38 0x6116698f2fbdc0d9ffdd8b2145aa1560d54bc52fffc32bf29d4bc7f48dba18ba; P1 0x9347f7d34943180981d579a45511dd989236619370203b93609ccaf77969afeb 0x7f5cfe517161e30f81ee6ebdd0169eadd8c9b3642805b9e904e8ba87ac2edcb9; P1 0xfd75987256b9522f1b2feb1b5580d237b443055d743563de5a255d9c9083c5af 0x1b63eae1c1031c9387ed8d5b1b95dd0c0969e7108572b2e6ab5733340b5ca75f; P1 0xbb8ea2c834db177080b79ff8f7fd25001dde00d111b2e9518e27a7ee8b20602 0x7ccf23c9ca519de2504f9d475d91f147e40d206d164cb9d5439cf8710ca09ca8; P1 0xf365491985543548dc16de8f3da41a49875ab364e6a7bcb1c37078a10d9c4aff 0x3bf660e9e465d9b4d35e5f5951b0ddf7f8990885004f6095e6b7737be653ed6d; P1 0x382df728d5e89c56c59cdd463bc011d1f9d03b7fc7f2bc51b0cfa7cea466db74 0x1338488add0af95c404fa0402113ae43243ec47ceb4d8adbd17772198d644a6e; P1 0x5c59c91b87af5e813728d0dd85d4de574f4e49364b06cb8976076901df5c22b 0xfd7b2f998a56543be37c177e850888f82727268000fe49954a112390864f7b9; P1 0x3ebf2dd71074d3956a83ef2e59ac4ec0a1e265e3b3d3c52a5f4c42973d901b6 0x6e15686488df199392a01b4a8ac94875e665d622ede0874e2eb42673a99827e4; P1 0xbd599e02c2c0151601e556fe28cd67bba7e926b4fe6d810176ffef4a479b145c 0x4654c072c17c2aadd95251b2543f6eee8ae3c8b5c8758ecddc0a4e682a7108f4; P1 0x4d49d536772cd9f8e71b805eb0b18f27aeecb98c5a8d4d642351b829e80252b5 0x305ff504f38c9dead5fea2a87f8855ed24f61c46d6ad44ed8ddb294e279c748f; P1 0x24907f667e0fdf63bb9bf7d3a2cae7eeab99884f9c08148b0f33fe67b52dcde0 0x7f5154b89a9793334592de6b912acc24bc8fb0ba4e65952093cba23e1d1a1762; P1 0xfd472f9788f78a285546d75228156236a8f36aa1f86bcaa98cab39fdf4d2e581 0x418626877ad3f0c2f37fbce1aa31c2f60d8cfed27a577daf6a1dcb317bc8b9b; P1 0x43159774a002d932f6b919ee95639cfcf19e576142bb76fdf3f877eb1b604e 0x6a1de49a2f911c03abd5b7a5bb1452533e8dccd17acb0e45aa98e50d69b857c; P1 0xaff3133519d7ceac81d30e297c2d3a57f2d8548b972db26ee800b511146228 0x7d72c109d65f59d607e1d4264817fd5647892449fc15e397d10acbbcb8077118; P1 0xf5e50fd066af810e47f893cc1740cb8322825f3a4575829a162130498772565f 0x752379dde0daefd9fbf695281c26f66b233090acbd076280e9605188d008cd8d; P1 0xd665c93d70dc67df30a15d29b168934a0f2067adb029dd7bf3b6587b1927e08a 0x33d382ea3fef1cb8f59e816f31103782239b9e4d156a454347006d6819abe990; P1 0x29f7d3a99a45a38b5417d7ad662203ea614c66edbdc613316344c60ffb167da5 0x61c35c85fe9fbc3c72f8e6fc6b69b01d3b7c504b3df986e8a4658b4f999a353f; P1 0x955684ce821e248fc6f8b38370f2f28e111e7fb810b775c79467472251f7f354 0x7bab852e8224e61b30fffd9fcaa90920859d66e68c0f4d18b9683662e7255a3e; P1 0xeef9139789eab85b9fb795a477f3fc738fcc7dc75252047bcd58a2657050468a 0x8f07602cd009e6ccabc1a25642a7dcd28374c01dd2e197131136915896c8a46; P1 0x13fa4f6a1dc00510b82929a38944b44c71e736cc5d8f4b4b807552453424863 0x4255d86fbc10253a88961173400b45a2997840c2d8f2e42e0b563cb1f16a75a1; P1 0x44c1818c389fd02b191b6e6561edaaa69b2110a8c858af314d4a0e8cd5a6932e 0x2e6f1f4a2e8f5b34aa3b7228f09e1766a4808c9410519959b8de91355e1e0aec; P1 0x21b07deb3b8bc776c1213539e1fdaafabfa56d4ae281b40390cacfa31d751d9d 0x2718c571cbd695d3b44154454ffe04ef815e26c01aa3938c68814ba2ef3fc5c7; P1 0x17e23a3926e7c0c1c3cf46ecb8fa3cd3de802c47b9928eb9006dfa9ee927dfdb 0x4a7092a9de3e8c50291cf15f0358e81d7698548c905decbf21a7b3dc53715ea3; P1 0x5695192b7493483e95e7c0f2de8d17dc2c032672436b0ce7d9905ccc2bb46c10 0x19112028e6a666ecea034c65f668804ddc0bb26843c958e843d5829c00283cc2; P1 0x9d165b51a158999bada2c0573ae3ec25fb22f7ba922a0d0c7a5392fe5379f08 0x6fa832d70dc171f98a99ab0c0ae5c98fb58d4dffe0e132b63c6974141937d3a0; P1 0xc2cd2a650922130ea79d3c40ad11ae33c402c8377cb1546eb356b32028e4f7f9 0x3b9cc3524e6bdb8580d278d115d042eaa7c19b2145a23a1197eb5466c460af7b; P1 0x3786881a45ef2246e687bcc588708dba53e66aa1088eaba1d04ae2df01a21e4a 0x9420d4302987a6d9df5a9828552135e8b06145acef936fa0ee45505f81b09b0; P1 0x156d7e635afbc22b79ab2f626aa4da08305c741f40d6b99b607a089bec1345d 0xfb674c11d5165ad50ad3f818e3b6e03122f6c55b38d0c24b17437393f5294e7; P1 0x3db8ee365133797787bbc8b97fb8a9deed16027261a6e7a66ded4442712b3ae 0x41364f9981abaf7ed0cf4072d21de43ed919ce6b91f7ba87de1062a5bf9326cc; P1 0x42727fc6856ff6829aff6a82eb40b64cc3d3fe63e55c8b90e58a2a05549057e5 0x6e8b443ee73f81760bba50fb8987a46b178cc0f59a520968b5c355493f08eb1f; P1 0xbeefe9a4f4ecb21a62c7c2e31d63de6695fcfe5f73b341b8ba1bdeb40b4a4a23 0x44d61060e5a745fb450e39d473ed51a80622a81e57d908d7bc01aaca6e475c1b; P1 0x4a09aecb743448e1c3fe605c24bb1f685a9d5b45b31ea7f09588edda95a19cec 0x677eb04e9118fd8f89fc608b94681b76569eb188e10d8e4dd67ae287f3397b36; P1 0xa75cc244fe144108d1c873fe56eda669635811511e68130a5546cc6593e7eccc 0x58aba42e4ff91d81c01a58d4f77cd6fd004d7b444491f39399b41b1334e871ec; P1 0x7ad9cfd25895e7ba8ee52ea1813f6e4db18b8f12b942ff5890cda5a37ef6839c 0x49e18973ed40d9c4baee4cbd0880ad1187fdbbf6c75548ef31f32fdf893027b4; P1 0x55499c5c138d427dae976476445d9c9ae3de8a0a19d890f61a2676c08c19ffbb 0x2704c3e10709d430d475e31db14a20806722f9d1ce4ef6d074467e95893ea801; P1 0x17c9cf15143735ef6bf5e979ec6389a7a6ebd0fdc02f253534459797384fafd3 0x1cfd8f5e73a8137e72a282b6e51bd32d13941502179c6021e60b98daef64acab; P1 0xd21ca0569201a2469e09a653dbeeeae9954c88ed51bd4c1a7e6b97a38466a4d 0x3d83e64e5f66f0a7120cd19cc6bcc5e6d8ecfdbe6146b367f4404e8775565829; P1 0x3b207edb737675d4a12bfd07b18183435ee8422460992f31a3045a14af7d40f3 0x2cb0dcdf1750c74a72c61d2c4aee2c31267a745b38bb3b7abb76b16eae1c3f2b; P1 0x1f3518748550184054d2c2d161000f2140cb7955fb73e9b12a8b2aaa30fa6622 0x140e2289d512d6d81eeb317076f7d13fa3d8b4514a126bfe8fb07a824c91f6f8; P1 0x648d8b5541c99c0142f5f846799250df9ccbba7af5de195c810d6d6414b04d3 0x453d5a4bde793099af854346b73877d52e3ba01ea494223118545560bef47c29; P1 0x4ae8858437bb23755181bb99031fc20a4d5f47cac28e7b7ee21dccc94ed78c62 0x3012e63b6c18b7c3693e92e9c3106233077b5e5441117fd5e86880466bee868; P1 0x241c5eeddfcd31aa28bbda0c78cb4ad02c2451b52d981f03cf5022f501d921 0x1fd571ebc05fcae1e68fa278f24c5ac839dbf35344df44f90e67d83989dc71f3; P1 0xfd58e37765d2de68d28c3433d7a6a065518dfe7617226935fbe66aadf6a28ed 0x7f34c30f9811bde34280bc47bd61af35613f0c620ceec536039a9aaed9a1e2e9; P1 0xfcd591a52f6090eb50012718e3e11441c22e20114d2e05eda63beb5a9aa36131 0x59a50c8ac92d6c1b1d74ad1042757f7876ede60b4dcc07eeef43bb4de284a6c5; P1 0x7d90b486ad98df47ea8a32336a7fc1732ad4bc0c2bcbe36f2f5e03d71d7869a6 0x65a33817ede08fc19cc044ef64107c7e45d457f2b921dcbe75f3805ba787fe84; P1 0xa168c94d71da5ed2c215af0d592ef6b719c00644a67b70f2cb2efb833ff81c70 0x3d34c25bef575f5ec89a1c31afa52819670eddeb68d70039cf57fb0b07ee8470; P1 0x3a88bdfd63e15ad97a229d710acbfc6f5299db6fda580affabe6b90684000893 0x4f0dc24d1280e22b5677e07e2e1692d65b38f34c0a3a455ed74391ad158804e9; P1 0x61a5faa382e14fb4c5b38a2db3bb1884d2d76c69a0d2dad2b3b13e1f92e0c796 0x544b387e8b0bf858b63ba7d75d975896c092030aab333193987ff852c9ff0844; P1 0x6f05ccb4c773bd808e1cd19b20d02be36a0efd688f42c62bcc3bcc9c34c9f55c 0x1ebbd07684972aad18e11c8277bfd2a949e5d93766074f6e5cef38d06a75d9f4; P1 0xec23a97f7e7c4b4405fe35365fbca98e4ea253db3eb1ef976b7c3941996bd1b 0xc0f1634d8374d86a38d952f4b190e9be7f363e76149c1cdf118fa7beb5f2a21; P1 0x245abe2418e97470e11c8a1344568d768d60de9b1836f3d2f6b0a62823a2a67 0x7a6631b5f9818a68739c79c8612a2b317d6af2ada13adcf65d975a2d6d2ad627; P1 0xea1640b461e5d810d310e6158cb0e4ba02fb2ea83929cbc7946cab1182fcc009 0x301e9858b806dbef9859d3de521d70626ec2e9544f97179d507520c914a4b48d; P1 0x242df32551dcb5724ddbe9ef9dc01c4ec69890257cd713ccb464c56d5127e809 0xf2f6a58dd46d615b52e1a27f23fc57c53d0882b735d7314e8207e4cbdf363fd; P1 0x39a5cfa8af50cc2c1d1e0c12089df0811ef50714a19b1fae4e7cb30bd0e2bcc 0x2f9f4ca0ebdef08e4b2c1b47eb8c3e5d39e8531eeed698cff3777b231ec49036; P1 0x236f850d75c331dc7cbf446728056df3c2fa2b2038305d5c60492b5220576d5c 0x33895213d1fbf607c00497f8917082690d5273fa4efeae50f1e22e13fe56b49c; P1 0x2980017364c75f0ab038d558acd4e37774f65d303a67710e15c0efbd9b1e31f9 0x148d28ac5b29f124e1a419997ef15f5063cd09d6f9264b42a11fe0e953b5339b; P1 0x69970c30a4529a488426c98133d468063b6083c52fc0df6f0f589df944d5e6d 0x3a57b027d1608f19b2d6e16b321802f37b9f3f91f6de950ff8599b550ce841c9; P1 0x352f676cfc9b5a3c8fbaa8055906db34bf3fd31c534b335a239b5ca7c8d79155 0x5bec4671395f5c6d85b58812ee657cfe392ef79f082e5478a5233d2c326f28f1; P1 0x84075099cbb6c3f08252b7b8a50c9d68bf0fbba454832c910248a5c768c13cb5 0x3ac4cdd312d5cbea8b140f7a382ccb7ac30a7d6bcc8bbc4f968160021d6be731; P1 0x35f7123dd4e5c7e3f2426151aaf68cfb68908ebfd5067151985c438dc8f09d29 0x7ae707646eb04fc63bbfc4d75c67d8f1e3651e412773190df288fcc6455a98cd; P1 0xec040e2843d9ceb4daa70f474060d2da077c8a0eaec31757cfc92a72f58e9d03 0xfc82279aabcd068314b4875883a19654e0cb4f8bdadafa7b711fd9cd445cf8b; P1 0x3e442009305ca7b612f5f0ae8bcf972d43d7d722dac17ffb4875c79edc845f9 0x2f3b44dea79ce22969e28248b9627f8f91e77d11704a21f5bd9aa16c283d5c6d; P1 0x22db440a4acfa037b7d12624b84fba3034efbe10685da3b9fa7a8206c6951673 0x3dc2fcec5787389c670713cb5c306627978b8b27aa31a5483214499f37b1b75b; P1 0x3b9a0433c73501c0335c050f76afb01b81e197c76efa4a6787a7b2071b49e196 0x4ea93f9ba68c0bba678eec3e96fe46fb7df781cbba81086aa0c538eb58ce32d4; P1 0x60ae4a9f9334daa46bb6c4b982dd71add74321a8ecddb0d5707a112362b1a790 0x7fef81a7d01be5db858ac1e0c8d5efc4ecd03a62af63472a8cd83a1f81be6ed0; P1 0xffbe0adf65f33f912675fc007c6b820b8c7da687700803808b54c967027ebf21 0x5fdd5e93f03a3b9bcbfbbe91d05a9502ca36792712cac57d45781211c8d70173; P1 0x8f982e78eaa3dac451dc8f4e499a26be5940c20edfd508356829e0e83f211743 0x22acf76b3be7a6899e078d568e1e78bf270d0142ac99d03a7b61b976edcced4b; P1 0x12c99a578c888821efb6e83bfa96b547a96c6cfaac77d27818ea4e7bfe2f7d43 0x365a1725c5975c06d6054245bba5080caf9e741df1be36a2c9c484bb07e33eb; P1 0x2e2885e0e00a614dff9354dc28a2ee13b0193ef8c053ebfe95a78bef282e5e 0x167eb50db4312cbccb615f9f22c396946da5645d8d40065bc39431fb4bb2646c; P1 0x7e817545208d687478e8da5e74b3a7c341274b2224d3506a474ddd13c9ebd18 0x75b5965ba4a6f883e9c4b335ccbde1ca343ee2109612c2df1fb50465aaf123e8; P1 0xd87df0f6e99be418882febfe2baa4ab6dd7bc4bf57088446c4c98336e1617e01 0x1f038713c67d2518bcc84692fe012decb92b42b7926d186e422a34dc39eede93; P1 0xf076b0cef3b4b27a799648012b8424df286ac797f6df07cd8483c10c0064276 0xd68ede480676ed7b444ee1dd54f5f6d8d1b6c95e7a34a2f0a017a8e62257f94; P1 0x2cf4cad6f0edc01cdc7934d45a3522238578766f4766208e389c1121a551c58 0x24593c1ede8c9cebc7bde5f51882f592f3f9fe654fad85578b2ffb0ed50975a8; P1 0x14a4e00e28b317c9006713fe6072c0be4fc00e40e377a2d4cf6f755a3441a0ce 0xdb23a9a95203b8ebb3e79ff8fcb4a85c01f68e00f5f51dfc2b7ceb7f8a4ebca; P1 0x2ee5824fe1c3f26b88e64e927c751ad868ac498d5a7a2b17df9701ba49019f1 0x1837a6306707fe8664adcd9044f21bfac2d28b059f26210909f9dd1deaae3ab; P1 0x929ed07a0024fb6ecb41502586e2032a0bcd5b40b8a899009b6ea9a2da2bd 0x783184d066b2a94b29656756217afda85a9750736bc5ea19ed7533b4ec8c7c79; P1 0xe1b9d85df3d98aaa3ec188779cae3dd6b74b45cdcf010bbdb74f56d829232607 0x5b7fdc14c006017b416da389d0201482bbd63a94731ec0572f8c9789ff56b4e7; P1 0x82d0994b6939daeff14fcc7f6b5dc7d886162734b6b64919881d52eb8ea6855d 0x7649359da7edf0f22fe305eb2964cf8a5365ec1e312cbca59d451d7c106f36c9; P1 0xda9e4973d7cf21ca702add5393741d81a0332c93717ff87116dc0fc3cffc60d2 0x41d10fb133fdc1f2125655bb0b3445b2530fc558333458971572934bcbca0338; P1 0x43af52ca72cffe511b05b8cf3cf3603b3718fc4a318c96894c5d7ae6971260aa 0xe6edbaa58d2a38905a875d9f3083976bc15d323675d522adb4485c4ff31e51e; P1 0x3414020926110e802f9a44711a8324ff40e4241776a3d6e545de0ac422ef396 0x1c6b1de7d692a61dd9ea3bb2c7f5afdf0e7f0f2d4121cd69909090ff7691732a; P1 0xc9e6d72e8ef2dfe3b0dd75c9e682378cc53fbf513e61e52869cd280ca23755e 0x351cabb514e79da8af43f2299f9d85776fe1751c9d128c0bb89dcc83c3673bc2; P1 0x2c13893bf5bf8fd94d4717fc4ec5b998af06934aa4813bec3f6c0269fa7a1a38 0x51d223e61ac4eb6998d9771dc72c137e771bbfa62066c3693d01bc4af72df030; P1 0x689a9cda1df508c403eb6bf49dc867f18f1f715e16237fd93758da0255469252 0x5a98250d9544880a23d26a5dd2d5b8d77c3d8b656a12d3833856412238b0ee16; P1 0x803d51e649c97b9bf23052fc649d393140777be8ae1788038902739713fc89ea 0x4357ed4a9250b4706959c7a5f7861c03d9c0892545c2be1841a72cca33181026; P1 0x46dc91a0b4e367bf4fb4d354ce26b5aca2ea8993030b6651e2aa606785745cbf 0x6acf703ef6f0238480649afbef9dbd593f396d92092d7c0e713f71033fec6d75; P1 0xb241c42b6e25754750c9f45b094cef1ca0be16b4b413ddca2add755cea8f2c1e 0x359372836d876d8cf11dcad4311505f91463ff7e3760328a11dfdbd491a9f52c; P1 0x2cd9895c860cb7a842edf87b60028a3e2d5058d2cc6b804b2c8055dfcba67112 0x627a8fafe107c3e453ae6e8a686363cc2d7435f384e5013afe89027f0b24e376; P1 0x978842bfb2498e7683db74790d30b7ddc13e5bd70adbec6c48cc6901b323031a 0x76fdb306a2b03a98b631b569ff0a668731dab5fd49c13f1de50b3b021a2e2fb6; P1 0xdd3b71d5d929381c4d970ba8fa85a13b11e834e2e3d20e9a0e671aa90fbf07f0 0x46e144311c54583630c130ba66d4651d16e9e0db7a918eb9e7b7144877c64198; P1 0x4e7fde0f2ff033e570d1dfe3017094401730092b57bed8cdbddb959a0da85f8b 0x710082c4fbeeaec768b038f494b75ab8441daad98ce5d0be69893a78b35c2bd1; P1 0xc785cdc8a4d576f4c55e8cdeb17582866683fbe82ed4b9490a3ff6a394ad1dc6 0x6bca1a076b9e31319e5dbcf4e6686405641464d2c500127141feeaefa048f6f4; P1 0xb58a453d294653613a4aae936ebb51d00d249c50bd1c5ba00687f2e269b663b6 0x501800f54892d55acce34cad3ea1ecd34ad0d93a146792b88493f0f7877d17a2; P1 0x643c0b65ed692f92facf1a47cd4df618ca2e854789cefb2c49fbeaca00914431 0x559e220cfeed955813fda85426acc15a6682fc8a8e4174dc749b7a4fef8d14ab; P1 0x7289912ab76f9b435733553637b26c4796ad975f710853a269f0f3e11f181afa 0x648c665b35748c2785c9fbb33cd925375ee04d74845fa2923ce309776edc5500; P1 0x9df7f3dd79c950405dd2ed744ec868c6246b7c485a21418bf49f7127e2d42452 0x5f65072209ef98970ccfaeb6803ac24a4e619c630680c598217b9f523e30b216; P1 0x8e308ca791ba2d8104470d5bd725b1d617b9ebace0872a423e18f59f8cd19210 0x6efc714204f46ad9d469f6d7584edc09d0a44a3fde49f7ecfd2c4e134bd30af8; P1 0xc077a90fa15c99af8f64cd231381693e6c6d6a6e245e0b12fd219faa1c47205f 0x4708fd1d49a240e8047cca68e2b902d9528690d5b30a54ae98ef0810e3d8078d; P1 0x4ed7f2dc2bbe0424e4e2f574254e93c131af9e04f421004ebc4b97a28c9e7aff 0x1871c6e332a5196c95e2e5ece5202f0e3e487500e26ea89098ad6bb20815283f; P1 0x9561f6f225799fc306b510194cafda98c68a3096d011c9c1c6445a51b676d56 0xc2e403618925f6716b62058bf65f56ba5c250b4bfa9c33e606117002a009c64; P1 0x2517980d766950e0bf333a380f85bd80691226869f04e5994a36fb2a9db4895 0x56a07718b3fd3192ac8020bbd4b54f4df397d79ef160a42155ada0e4fa5a712f; P1 0x7540d266bcdc4e109565af12db984ff651d5fb405e1337e3b0794d9cb2700ddb 0x453244418555930b8eded0a348cc6bd25ea64c7c684ad86e5edf0418647e1483; P1 0x4ad08aa836ac593072330aadb667fbab1b651870e5553f1929c6deba0dc6f301 0x236909bfd1f9b1b36201fbf7f2d5b32973dfa0f7f371f063d9abe52c1af57f25; P1 0x13978f0dcc8e47a57d097b23c339f76692ea1cb635124626ea62f35352150457 0xf2ec932d1797488b4f7d6595a03d1990d50adbab1caecd189996f1f577ec927; P1 0x39a108383c1695478b73ea7d75305e1488fd7114ca404d7854678bce942de31 0x5cd15c90e265bbca9f47a190c451de7df4766e3cdbe0477c38edfef94db0585; P1 0x869c9701a30cf73b73e0f610043c09ac09b465d8651472b876b3feb49c0bb3 0x3c553aaf846c54946229033406f32bb64864b3c04ad33daee227581bdaedcc7b; P1 0x38e03f893052dfb47decb4972ecd8a544de62c91c8ed6acb32174bcd050628dc 0x36c8d57fe59cf5b50131893beff5f19a251093de6f438d8e769dbe66d5998e86; P1 0x2ee55e80fb0c43945f7fc2c623da84977e872e675726d6bf401a18f9b29427bc 0x6170fc5212282bff7bf89961957c7509ef0d26a1182e19b822f296a59008cf3c; P1 0x945b444fc9100a33548ed7f2daec11206954423739683f057c9c038a1f64fe5c 0x7e31dcdea8843195c937622831b294ef2d7d252087fe190a58f2fcd28b830cf4; P1 0xf8d47c85e6b85ad95b5b0b2c54f412da73b534218d84aaa8537dcb2401ac4e00 0x6caa96919a793352c65f64132a665a1887230380614199d0e087a9a94895b20; P1 0xb88182dcb11980718fdc89faef137eeeb7d1f91b22044447d5e2c0f4daedae 0x25e75686e9d058b44466fa9da9f7243791a29d901f525e7fa5764f717d9f2bea; P1 0x1672c041113c6f5721706ffc402604f2d9b35ecc597be1de31fa7e98746797b9 0x6ffd4c7762b25e8052a138d8dd4c56a4a16b4c292c90e36b78f6e2cd4192683; P1 0xc3f68bbf099b73238520ebd31328370d39c9836592a8045768b289d09ce1a4 0x794c22ee8022654e58f5706e8a04cbfbe9de24a9846a8d69886836cd82670d3e; P1 0xe5e43ea8de0341af6671b4fd10c386ae394f9cd8fc7913c8140e3cb2a6703b94 0x546248644e74a05bf53648b6a2871cf2cdf3779360705d25ebeae1b79b7b2204; P1 0x6f4294f55304b7d872be979d8c0c1667173cd8c450ada0f0848f8b4dc6f842ed 0x5a0070bbdbaec550c34d7320f42ef3be93e9e22958c18d4119cf570add2717b7; P1 0x7e913d11206f33418f4782f50e65c60a342d4bd308d268e9f1cb8c95df7b0b44 0x1987ba8628bb48bac640e8a86a9475a6b6c758838824607a5270f18bfa0a9fae; P1 0xa2f2991d56b0ce7ffc185075fd4d83eb7f2116866ecb3942078fd7ce7b7cc8c 0x14368d620af9e06ea7258aad2cf532c97a181f3b9e5b997fc24a56ce9d0762ec; P1 0x66246dd14a3487e873a4f1f92a086c1f8e3cac886b196947330351f745f309f 0xacbadb290a65f3a4834bee1aa9dd374b386c4dd6fa58e3e6acb980db153aeed; P1 0x1d22e7b8964ed67a77db1d50b329cf9abae2ef14c8f0881d4b6cc5900002f7e 0x34b0237582fc32db8566225e50136ee4c161cbcfd89284ffe369393c3e6d952c; P1 0x2b601e620ecf9cc43df2268a32f030d3177f6ceb54cb0f89927886713b88a3da 0x7d62b22f10521440e0413f6d168fa3039a2f3b8485961f5ae92b89fac7eca84e; P1 0xf5a6203b77f887e0000db9ad0ba23736d9c9d0703df5dd8712f15294ed7acf43 0x2f20cd0b61a8f9d5f54493ef1a9bf3572691f44537768dc0394d1a9da50a5181; P1 0x22b43df853bec394bdd07e1ac37d763ed7c9ded4dd782ec6d3232fe702b0a652 0x36662b1935aeba2ed9ca4092a29ca8eaf63264a1de78bdf68209818eb72a1e18; P1 0x2e3d0bd407f7e1316c932c4b47add85e03a0517433df1fe01f406cc2aa42df3f 0x747d8bb9c7f2923092d6c754ca769a7efecf88b29093813f9d5db39b09c9d62d; P1 0xd40810c87391754b301464b4cb1963a9c559c6192298fb217e0c17c07405891f 0x1b4256e64cccd5a646be516473d8a528fd8b0c0b8469e1a430e1f4a6fc1bb51f; P1 0xb9c3e1601c965dbcd3a017048d428fda63bf2873f48c93ea77c2cb0f9cd6f37 0x5f3d73b11382bbf3bc19500498e41d4837b4f764c49f57ea2468b4039cf497; P1 0x8dbaaa770c9b973fa38fe898000eea6df024bfa7098ba58a4c6e7cf85f0a 0x69a5f23f1a0449b1a391ccd60f956da930707f3378f6c03c2d3310d05ddf6fe0; P1 0xae663127b7a9aae28cfdc6c916f6d873d606efbe3fe23df2b2dea4b0ccbde7c9 0x2b1e68bccd8700dadc428a2a003bd709cdc40f60fe24ce63240205b8e4603beb; P1 0x1d0ceb309095e0a7b51a33f1ee0342d60e26e2094bfb7274ba08f98e85e5bf66 0x253392fca6d90387fcbc0a72674718f9a9033b76341157cd8ed443031c998804; P1 0x159fcb83b52974949d0519f287a63c4e3b07cdde508574341a49e7b101dc1284 0x484538b08925867f8331377131cb76ee94aa4bb0b07d610d78b6a5fc9d6ddfec; P1 0x519c0a6ba372fe7e09c93f98739589b7b89bb0dd7a3cb7f1485aa6fec50264d1 0x535e83ebf0302eb958eb5bd781d648af9bd42d9771f1bf938d686dc874d77ea3; P1 0x6c99b1c08bfbcbcaa59f1171953cfe96a88206481428b98d79bcb9d0a0f90337 0x48cbdcee84fc53ac5e5ec953add55b257eb1f2e0b0859fd7da3242f4b58f4a7; P1 0x52cd3a792efea82b8a10050d5b2285f28b3ef9d3deadf1300566b57605c398 0x2cc48846f44f9811078ed4f56630857241656016241e99536106b6a1afab0e2a; P1 0x1f5096e564b3b5972bb6ff880a1614a7985ef757bbb128e6c711cc0181ec4a0a 0x5e1ee569c6f05795cf0ef3a6086b1acf02d658e5238520e50defd5175652bc86; P1 0x8a6ad0d101e629154e78238ed9a8458564f62a603f0a07ad3f2e09caa9ea57b0 0xc044534349a3c04887bdb6773ab62d7138332f7ddf2fc238833d5014dbeae58; P1 0x2419a3c851525cb6b06e4a37e8cecd4f193e678d83885a5fe4d48e673837783 0x4ae8ab606b45876d92567cbc10aac8f0ff97fa18606940a1d04c884af5795b39; P1 0x57ad5a2b3e024fc14ce18a8fec2eaca7351b7e0b14624d024fda296887fc5219 0x710725894d325997603a56ef0998c9cd485ab6e2953f90ad0dceb0ef04813d3d; P1 0xc79d3d5924a69733392ef64745f35a86b63665216da6440fd1f64cd68ed36abb 0x5f8d3e6839da7774898646dab878c348b669e49b6959a13450d0ba09f5f12cf3; P1 0x8ea888fca3da1713d386adbae2e7a8b52927b17dc8fada02ed7eeec8ae4b710e 0x7894996b30af4bcee3942feaeb7862c7a6d0ddafc3c3bb34cf47498e7e6e415c; P1 0xe32e9858f617bb5383ebbecd50b64b067137903ebeade3a4e899661e6a794118 0x5305614711bd445a0662d9534326de5c2d2e1a19210bd48a1981f8077e7f86e8; P1 0x6bb1f4c41cf96b8d46acaa43895fea9877c3f65b0ad882e16741d7c207ee30eb 0x868f06590bdfc693d9e5133cacf0b5e3c5aa6e68ceeef57b33c556d993d05f1; P1 0x11ae82a3540474da982f4f6fe156f0b48e8a1eda8d0cb3d5c7ea361318b7eac 0x8779312ab35c954c3471c636fa99f2f0dae1343d935685a3a9c51f67b550086; P1 0x11ec42cea33ea4b112a3157d15aafc9b7442f7292dae3f07d47053a679fb66a 0x27c4d02412c8b43b26650b2f6cf9526fbda8662a9aa6ddae1d1e93d9ead31626; P1 0x18b63ae978c23765bbe4e76bfc81e9b421d7484eb8778d9f6700885a63e7dc6f 0x4318c76c03527f54180d82e2b2c4d3840720d138a124a57cf83da4a363527785; P1 0x4657eb22255ba36bcfdb2bd92aeec827df3af260acacc5a0fab4279abfd59da2 0x224c266e5e62e6688dce3bd1dc0985bd7d6d6ce48bead9727b81ed3b8adc8938; P1 0x12614370a17d0e1cbfc336d1666bc8beb652d5a2524dc95a6ba7ad38e72d3419 0x487c219ffb57031e21906f937a56ad0727008f9add2e939d7868beb22bf4d65b; P1 0x52183c6a531c434a4ee491d0b8ce9d510898a0a38fd13d28ab5097c77de86e49 0x38c96be353a2528c9d770a44bbf1f49aa37ddc973af2cf88d745ed3e1e28b81d; P1 0x3262f6b83420ab290f97cb82e22e159709b06db3f321ff795ec43f4c04630d59 0x394910df33187c3135f8ed9c8e2f9ca4b5e34655773473ddfc2d95fe064d642d; P1 0x3346797814a2d10771eba85603db5a18894ed0544a94c546a397cb785a32c52e 0x7f8c93ad10b56258d55fdaeefe606340a2aeb27fcc09f34af495e0b5be4f023c; P0 0x7f198f6f221ce84f341d33f8c1b0244edaf714b32277856e0069e5a835d2fcd9 0x32c3972e911d2f7bb05f4b8c6db60e0038687a672696cc25eecf94076fb5c22b; P1 0x2843f1f76ba1c2ae385be146a326819f04f1d528ee457c09225e52a1efa00c4f 0x55c1924027e0ef8595a6804c9efdebd397a18c035697f23c62770d93a507504f; P1 0x72e875f1cb12f72192ba996f40b4daeb41098e96e9a9da0029e7326efb1b5a1a 0x2b8324804fc1df0b2b4d00993dfbd7a72f431806ad2fe478c4ee1b274a0ea0b0; P0 0xecaa2e2f6a2302ccedb31ac05720688238ced2078f3eb0ec9f22e8f621972e4 0x7fffffffffffffffffffffffffffffffffffffffffffffffffffffffffffffec; P0 0x7fffffffffffffffffffffffffffffffffffffffffffffffffffffffffffffeb 0x1]
    [(0xabaf8c6b094fd0f32c2ccabab864dbecd99144679c1adf804898fb2042b, 0xf1ba0c491eeef83c49fc1b744331bb096d4893142c187431f7b03e61a75a49, [P1 0x0 0x2; P0 0x0 0x4; P1 0x0 0x20; P1 0x0 0x800; P1 0x0 0x800000; P1 0x0 0x800000000000; P1 0x0 0x800000000000000000000000; P0 0x0 0x400000000000000000000000000000000000000000000000; P1 0x40000000000000000000000000000000 0x4c0000000000000000000000000000000; P1 0x5a 0x20000000000000000000000000000000000000000000000000000000000006ae; P0 0x800000000000000000000000000000000000000000000000000000000000358 0x18000000000000000000000000000000000000000000000000000000002cddcc; P1 0x90000000000000000000000000000000000000000000000000000000021a65a 0x2b000000000000000000000000000000000000000000000000000fb9ff130dce; P1 0x1ce40000000000000000000000000000000000000000000000001521eec19a91 0xcec00000000000000000000000000000000000001eea60dc69faed39b039c4b; P1 0x29be6400000000000000000000000000000000000c7be4dd014bb38b2b8953d 0x162216c0000000000007778a91c0dd372b6facff37ea5ac6606bd318fa0e0f79; P0 0x3d3c0e61a0b200000029511cb35fc500ae013abd8192ab273fd39d96be12a55 0x6eb9ef646ded500ec360dc97d3aba66fad01335ae230f0694f551ed107e18b80; P0 0x5fc8a18c5af6fce322a75c25674d7a3d3bcae29dd3c3663f2b0ae07c70346248 0x1d804e3bfbc1c5189c61a656cc00905d55b7f22ae1771e1690048c93d6e78b58; P0 0x6cca40fd5dc87c98617ca4541cbb81dc37ae4751fd5ae3b678f616ae0a2ae61 0x4029dd07f147e9f9cf214b626c20bb9c254fc9c7d0b5bdf5cd1e706290bb9f73; P1 0x4053d5721017d36c6396518087dd464ba88fe5500e5dfd67c31d4d9edf87e9ac 0xf10bda72989665e25b2f91d26cbc5d4ab0ae74eabcd6acd2f1164aa01ba7316; P0 0x1c5eea3b087174fdaaf1d31c69b3ffae371f2d3d732c43171024394abbb1948 0x587b5882c7860235e1b4dd1a0040c4dbf4f21b56ccb70c2cb5a409f25a97a63c; P0 0x3d2a10902ae4108d18284694005f203a3faea49b6b8fc874a5b7b1e63ee41403 0xf1ba0c491eeef83c49fc1b744331bb096d4893142c187431f7b03e61a75a49])]
].
