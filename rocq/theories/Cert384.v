(** * Cert384: certificates of the primality of the field and of the order of P-384.  Written by /verif/tools/gen_primes.py. *)
From Coq Require Import ZArith List.
From Verif Require Import PowCert.
Import ListNotations.
Open Scope Z_scope.

Definition cert384 : list pcert := [
  mkcert 211 ([], []) 0 [] [];
  mkcert 881 ([], []) 0 [] [];
  mkcert 0x650c9ef ([(0%nat, 0x650c9ef)], []) 2
    [P1 0x0 0x2; P1 0x0 0x8; P0 0x0 0x40; P0 0x0 0x1000; P1 0x0 0x2000000; P0 0xa22380 0x2c15b80; P1 0x2677412 0x5110132; P0 0x4107875 0x211b89; P0 0xad8e 0x301a9bf; P0 0x16e64c9 0x609d3da; P0 0x5c5fb15 0x21c3009; P1 0x168f73a 0x4bb677c; P1 0x71753b9 0x2a69d69; P0 0x11cd5c7 0x3012148; P0 0x16de2e8 0x1a4a5a8; P1 0xdae21b 0x293b24b; P0 0x10d2cd8 0x34bec51; P0 0x1b881b3 0x494d084; P1 0x6a5836c 0x2780a4c; P1 0x1ee2889 0x358a439; P1 0x38bc4a2 0x1926424; P1 0xc84bee 0x37b88ee; P0 0x1eb9cef 0x4129323; P1 0x5409804 0x3115dd6; P1 0x2fafea2 0xc1728a; P1 0x2e4aa9 0x1; P0 0x0 0x1]
    [(0x371, 0x63ac423, [P1 0x0 0x2; P1 0x0 0x8; P1 0x0 0x80; P0 0x0 0x4000; P1 0x5 0x6c0e55; P0 0x738c6 0x453f15f; P1 0x5ee7cfb 0x424412d; P0 0x2b74aab 0x310e944; P1 0x2fa1c33 0x855583; P1 0x15fddf 0x4d067e1; P1 0x756d0ca 0x7220ec; P0 0x80e69 0x4c5f489; P0 0x39b8b19 0x31f3fa; P1 0x31634 0x4e091bc; P1 0x7886bee 0x47262ee; P1 0x643155d 0x4ef33b5; P0 0x3daf18a 0x63ac423]);
     (0xd3, 0x52e2c8, [P1 0x0 0x2; P1 0x0 0x8; P1 0x0 0x80; P1 0x0 0x8000; P0 0xa 0xd81caa; P1 0x39c635 0x30b994d; P0 0x177ea1b 0x6385ef4; P1 0xc40a4c2 0x19a0e02; P0 0x67ffd0 0x53a14d4; P0 0x4536b1e 0x366408e; P1 0x3a8d7de 0x55fc746; P1 0x92563bc 0x22d15c4; P0 0xbff360 0x1772770; P0 0x570ca8 0x17e9828; P1 0xb512b3 0x4f40c63; P1 0x7c50fe9 0x15b110b; P0 0x4a80b4 0x18fa6d; P1 0xc594 0xb87ba6; P0 0x150ce4 0x52e2c8])];
  mkcert 11 ([], []) 0 [] [];
  mkcert 139 ([], []) 0 [] [];
  mkcert 0x539f ([(0%nat, 0x539f)], []) 2
    [P1 0x0 0x2; P0 0x0 0x4; P1 0x0 0x20; P0 0x0 0x400; P0 0x30 0x5230; P1 0xa18e 0x30ce; P1 0x38f8 0x180; P1 0xd 0x40ed; P0 0x3269 0x132; P0 0x4 0x1f48; P1 0x1767 0x1a87; P1 0x10d4 0x36b6; P1 0x4797 0x26ff; P1 0x245f 0x1; P0 0x0 0x1]
    [(0x8b, 0x24, [P1 0x0 0x2; P0 0x0 0x4; P0 0x0 0x10; P1 0x0 0x200; P1 0x18 0x2918; P0 0x1431 0x44d1; P1 0x7144 0x6; P0 0x0 0x24]);
     (0xb, 0x3cd0, [P1 0x0 0x2; P1 0x0 0x8; P1 0x0 0x80; P1 0x1 0x2c61; P0 0x178d 0x252e; P0 0x1087 0x4b6b; P1 0x880a 0x13c; P1 0x9 0x1b89; P0 0x911 0xac2; P1 0x2c4 0x324c; P0 0x1e40 0x3cd0])];
  mkcert 0xeb2f301 ([(0%nat, 0xeb2f301)], []) 2
    [P1 0x0 0x2; P1 0x0 0x8; P1 0x0 0x80; P0 0x0 0x4000; P1 0x2 0x29a19fe; P0 0x75e916 0xe39ccee; P1 0x1b891ab7 0x6ed8ad1; P1 0x687cd30 0x2d3a012; P0 0x8b27b3 0xe127091; P0 0xd78c6da 0x157d47; P1 0x3ed5 0x42a658d; P0 0x12e35d3 0xd9110d6; P1 0x190b0714 0xa63e2b4; P1 0xeb057fb 0x73b0425; P1 0x71d0d03 0xdb174af; P1 0x19832a20 0x59a9522; P0 0x222eb2c 0x3d2e958; P0 0xfea89f 0xd75b8a1; P1 0x18a67911 0xb400e71; P1 0x1138a136 0xd6388c; P0 0xc3204 0x43f8e8c; P0 0x13a5293 0x675c0fd; P0 0x2d6cc24 0x51981e5; P0 0x1c4eddf 0xc04fbfa; P0 0x9d41124 0xeb2f300; P0 0xeb2f2ff 0x1; P0 0x0 0x1; P0 0x0 0x1]
    [(0x539f, 0xa2ae695, [P1 0x0 0x2; P0 0x0 0x4; P1 0x0 0x20; P1 0x0 0x800; P0 0x0 0x400000; P1 0x22d50 0xd5ae2b0; P0 0xc2247f5 0x7b1620b; P0 0x406b308 0x73b2171; P0 0x38ea354 0xb74f48d; P0 0x8ee087b 0xce44c2e; P0 0xb4e8750 0xd3be0f4; P0 0xbea3176 0xd3ab51a; P0 0xbe815a1 0x383de03; P0 0xd73174 0xa2ae695])];
  mkcert 0x1cb733b306cfe30dd1 ([(0%nat, 0x1cb733b306cfe30dd1)], []) 2
    [P1 0x0 0x2; P1 0x0 0x8; P1 0x0 0x80; P0 0x0 0x4000; P0 0x0 0x10000000; P1 0x0 0x200000000000000; P0 0x23a8f6fe86e6 0x15b36c8059d568303a; P1 0x20cca6554c5bf97b37 0x10c5da00d0fbb73761; P1 0x1398182871e5ddc1b7 0x16031f1e78322b341b; P0 0x10dfa58bc401a1ede9 0x7d126256f2cc9eaa0; P1 0x44182188cb4f67322 0x14d8e916d5b65f0f3e; P1 0x1e451a971a46c49f39 0x19c7f79ecee8b1c37f; P1 0x2e4b0172490571da5a 0x99c8f31d097f99c88; P0 0x33796338fe9466d4c 0xe9501f018ebd5f134; P0 0x767a7c6e4256b2bab 0x11e44ad1dec0739cf5; P1 0x164ba8b896e64320fc 0x117647f9265fc44b36; P1 0x153cc6433aac58ea5c 0x1870c7e4933d7f5dac; P0 0x14cd4b14a382fe8491 0x7a8814b1e60d5d42f; P0 0x20ad9be569b203efd 0x1559938ab850369b14; P1 0x1fbf3fc450dc2587ab 0x1a0f09a476609a0185; P1 0x2f4b9c305771808cc3 0xe34e23443790acbff; P1 0xe0e92f6cf9123fd59 0x1bc65527dc51ca7559; P0 0x1add5b0ba91895b9dc 0x8feed64d6597d9055; P1 0x5a2e2e3a73cf6825d 0xba7ddb34ca76d5185; P1 0x9765027995a8ebb9b 0x11805cd5338efd5a7; P0 0xaaaa985d837699c 0x147335870391332e95; P0 0xe904a4ae87542adeb 0x19e4ff037f0731f6de; P1 0x2eb37bfe0a062c9744 0xdd8494b17bab4de84; P1 0xd59a9b9368c25aa52 0x1818b145024cf6312e; P0 0x14386691e8590d62df 0xa930cb76c7f2a9935; P0 0x3e4dc1de83e7b0499 0xc93dc29a72abedf10; P0 0x5825039d4b18b23ee 0x23bb920b5cca775b2; P0 0x2c76e81c3bcc1d1a 0x78f88629a712c1b8a; P0 0x1fd9d96a2c4daa7d2 0x43b1628de027b9f2; P1 0x13f26fd051c6524 0x88f7d99a9f559eb24; P1 0x51a9feedfa6724efa 0xb96de65419f030e06; P0 0x4ad65bbc5d6f114a6 0x4fd038b686d85e9e; P1 0x1bbac3ff19c41b6 0x861c082bccce6ef72; P1 0x4e4a719ce112c4339 0x113b03afb5aa8456ff; P0 0xa56c8dad938e4b3d4 0x8b49628238fb3bded; P0 0x2a39dfca64cc28ed3 0x7681951921e257c26; P1 0x3d21f92226d87236c 0x1999d82130097d441c; P1 0x2da5f22d7748d5c66e 0x109fe96e7fe3c93052; P1 0x133fd7e1fb6949d658 0x1a9040c4e0be933eb0; P1 0x3125311b0ec0f2fd98 0x85d38908ff7e9b0e8; P1 0x4df5e37d2f0d567a7 0xf6e123f5ffa8d8a29; P1 0x1095098a3cd22b3c1d 0x1b491fd1b9763e875; P1 0x33da8dab3bd3fb68 0x10ace72f44a618030a; P0 0x9aefca5deb22e8330 0x56911773391b6b234; P0 0x104f74dbccfbe7121 0x2eebd6288080519f; P0 0x4cab4bcdc63e13 0xd393eb4de412d5c3e; P1 0xc2dd3641aa158a628 0x1760ec7fd2ec98f60; P1 0x2611288395969d99 0x1b40cb8759ae765917; P0 0x19dd7509d707fe2e76 0x6847c212178b313bb; P0 0x17ab12ab93a9d8b3d 0x16c4aa1b10443f84cc; P0 0x120d77490cb3059742 0x13bee328a13862bae; P0 0xd93e0f00ee9308a 0x601c40365f166479a; P1 0x2835b5e4b75ebee73 0xd43d788147fcb0e65; P1 0xc416042a1cccc5e63 0x192606be5c38d51df; P0 0x1606495c3887b94d 0x1c3b77da8d6656af64; P1 0x3783a2566d0a319f5c 0x6656417fe7484f804; P1 0x2d96afd8343fc32eb 0x11893ff09b2df2ff45; P1 0x156b030426cd0a636d 0x1c33d585a784ce5c35; P0 0x1bb2d0532720dca2c4 0xc008a8d1f56514cf5; P1 0xa086d15b1d2926d21 0x1; P0 0x0 0x1; P0 0x0 0x1; P0 0x0 0x1; P0 0x0 0x1]
    [(0xeb2f301, 0xeb6e985fde3701a93, [P1 0x0 0x2; P1 0x0 0x8; P1 0x0 0x80; P1 0x0 0x8000; P1 0x0 0x80000000; P0 0x0 0x4000000000000000; P1 0x11d47b7f437360b 0x144e97f481006d5205; P0 0xe5c5212bcf6e01cbf 0x11ece2217815bf092a; P0 0xb308b9144b2b18e27 0x13a5689bfa143df20d; P0 0xd70ed60c1712a5144 0x87a2767b2b215c825; P0 0x280a71d741f668081 0x1b27428469cdf35f08; P0 0x19ad1399c3db2b6237 0x13a41b38ecaa49f659; P1 0x1ade4a831d48992d7d 0x21aedae27ca6dd9d5; P1 0x4f04f8cb50f106fa 0x1c2650d84811aa3258; P1 0x3730920a91a4ab2f28 0x6b9ce328ce3ee74d8; P0 0x193486c1b931a9a8f 0x354d2b4ae66960481; P1 0xc5dfd601fd8ffe31 0xca9c086d9cf968f01; P0 0x5958e63d09b4c721b 0x762f627a0d4e896f6; P1 0x3ccd486995282c7e3 0xf851a6b6c0195b175; P1 0x10c6af68388f777123 0x10794f36991e1eda5f; P1 0x12e6dac91dbaefb06f 0x12cceaab575c0230e3; P0 0xc4f127153e0a02eff 0x17069e2c8b929b981a; P1 0x24ed4a173baf24ec74 0x18ae1719500fb2d694; P1 0x2a6c5631c386a70ec8 0x1a0c3bb2eba5dc51d8; P0 0x17a0b755ea3756973c 0x125621c32d03d6e244; P1 0x176ae75d8da630dcff 0x59393d614031de4f1; P0 0x1153b02cc9d3813e2 0x107e1f7d61be27755f; P0 0x978f416ac615fb832 0xd8c307a1deec0e6f; P1 0xcc87b5a2dd1fdf9 0xf50c93348a5cfaaf9; P1 0x10565383f386ef273a 0x16c728e206d9105408; P1 0x2422d8ea038fdf9971 0xeddb488c1aa07e3f; P0 0x7b235154943c6b1 0x53a07e82949a2e000; P1 0x1e7158512e63395ef 0x170bd2060dc55874e1; P1 0x24fdfbca9bb1c32207 0x13ab0eefc1d5db38cb; P1 0x1af153106efa447fa8 0xdf221976e357721ca; P0 0x6c5d80c06cfb5be4a 0x8ba716028b29996fa; P1 0x54e585f432b4bbb7a 0xd5a58bdcedb3497ae; P0 0x6358c7a305e47c01f 0x10acb90c60a2bc4df5; P0 0x9aec710cc4536bc2b 0x1804331af2c3367e5e; P0 0x141610a7b16fb142d1 0x12b4bc1431539980e3; P0 0xc2f7cb478107882d6 0xeb6e985fde3701a93]);
     (0x650c9ef, 0xf98a1bd27114fa267, [P1 0x0 0x2; P0 0x0 0x4; P0 0x0 0x10; P1 0x0 0x200; P0 0x0 0x40000; P0 0x0 0x1000000000; P0 0x8 0x1a466267c980e79178; P1 0x301558c6db52423917 0x165f545e17f51689b9; P0 0x116e2b35b038728f2b 0x345f9ddbf70f67696; P1 0xbf0b6d23bc12acf4 0x1a1bb496e49809a894; P1 0x2f79a2f2e3b4dc5a6c 0x4eeed553ab893dcf4; P1 0x1b1f0423fde984f93 0x14c68c8ee19b1c231d; P1 0x1e0fdfe36c06e8a607 0x1bbf94c5ed4cbefbdb; P1 0x35a09a43a3bde214f4 0x1aca43d99150b6db7e; P1 0x31fcc3a922415152dd 0xcafea217b8520c49b; P1 0xb35fe355ca64c3d05 0xbcd3699b4cdb5599d; P0 0x4d9aa3941b6e88641 0x39b59be918c16a238; P1 0xe7f4a2d1bc417cc4 0xb770cdf64ee3d087c; P0 0x493da17db742d6024 0x1cac8a72521886aaac; P1 0x3943ca4dc9c006e509 0x1677bed7133e7455c7; P0 0x11944b784c3c57d718 0xc039f1b46612aee19; P0 0x506ca0c89685462c6 0x1afe5b537dca2bcccb; P0 0x195ff2da104cb17c1e 0x99ad28447db384e7b; P1 0x66cd9404a34e08b37 0x13a0188a4295eb4b; P0 0xd69a958e07da0 0x2697f5ed1af091859; P1 0x67bd2fdf1a0e4799 0x14d8c461419a2f64f9; P0 0xf2257fe9c0005a5b0 0x93191b53c462b4581; P1 0x5e30af2740eb49c44 0x16dc53ffd36ba8e7e; P1 0x2466227215f77ef8 0x1371f2e4076e66cb90; P0 0xd2adfb27177a81997 0x1a971b7b16952f21b9; P1 0x313e912f584ff24fbc 0x18d529a78f362acae6; P1 0x2af313da35ac480a84 0x704cb3c5d1a2a4384; P1 0x36e59e3e0da82ef20 0x2581303521dd2df00; P1 0x61f7a88ec3d60827 0x1c1e6696a6b8c65d29; P1 0x37118d1f6000e7f0cc 0x14f7d01a025d2bae96; P0 0xf4f8d3506048c6f35 0xc46351dcfca28c49f; P0 0x53f1bfcb0b69c8500 0x100a417c0afd2a45c1; P1 0x11eb5e5fe69f6ea59f 0x3311618b9abefed33; P1 0xb5a36a00da97d413 0x11130a268f3070d5cf; P0 0xa270771ac452f50ee 0x1c9365b0a4feaf513; P0 0x1c6fc4531ac384bb 0x2fa5c5119fd2b83be; P0 0x4f0fa09a6af1d090 0x10f4d1bf71aed6b74; P0 0xa0337160fef94d9 0xf98a1bd27114fa267])];
  mkcert 937 ([], []) 0 [] [];
  mkcert 0x58c25 ([(0%nat, 0x58c25)], []) 2
    [P1 0x0 0x2; P0 0x0 0x4; P1 0x0 0x20; P1 0x0 0x800; P0 0xb 0x2fa69; P0 0x1994d 0x2faf0; P0 0x199de 0x2fbea; P1 0x335d6 0x393da; P1 0x49d44 0x4074; P0 0x2ec 0x4b874; P0 0x40451 0x108db; P0 0x3165 0x10bc0; P0 0x327b 0x8039; P1 0x1727 0x26cbf; P0 0x10f54 0x8f5d; P0 0xe78 0x55071; P1 0xa2e7f 0x7767; P0 0xa09 0x58c24; P0 0x58c23 0x1]
    [(0x3a9, 0x3618d, [P1 0x0 0x2; P1 0x0 0x8; P0 0x0 0x40; P0 0x0 0x1000; P0 0x2e 0xd15a; P0 0x1edc 0x34dd8; P1 0x3ef93 0x24841; P0 0xf05d 0x20710; P0 0xbdb7 0x3618d])];
  mkcert 0x1fb97399 ([(0%nat, 0x1fb97399)], []) 2
    [P1 0x0 0x2; P1 0x0 0x8; P1 0x0 0x80; P1 0x0 0x8000; P1 0x4 0x11a319c; P1 0x139c51 0xa205eb7; P0 0x33b7c3f 0xae6582a; P1 0x77d6587 0x1d8d7b19; P1 0x370f23fa 0x2964278; P1 0x6c01db 0xa1eb39d; P0 0x33a6bac 0xb3c507d; P0 0x3faaed8 0x1270d5f1; P1 0x157040ba 0x9c19c98; P0 0x30018e1 0x1d24a8c7; P1 0x358b4360 0x1a9c3102; P1 0x2ca3fe9c 0x1b8448cc; P1 0x2fbbf801 0xeae1987; P0 0x6cb0371 0xc85d3a8; P0 0x4f17449 0x1042139f; P1 0x10a9f505 0x4b84a85; P1 0x167889a 0x33a8028; P1 0xa838d2 0x10bdc0fe; P0 0x8d5a043 0x1c741af9; P0 0x19851793 0xc226656; P1 0x9485a76 0x195a3742; P1 0x28853e9f 0x1; P0 0x0 0x1; P0 0x0 0x1; P0 0x0 0x1]
    [(0x58c25, 0x3616ad2, [P1 0x0 0x2; P0 0x0 0x4; P1 0x0 0x20; P1 0x0 0x800; P0 0x0 0x400000; P1 0x10239 0x93510ef; P1 0x5582b5e 0x1e0e5914; P1 0x38f3693f 0x9159f79; P0 0x299f481 0x81f7318; P0 0x2146e45 0x1cf2ac03; P0 0x1a6a194f 0x3616ad2])];
  mkcert 0x28dc22dab6f9 ([(0%nat, 0x28dc22dab6f9)], []) 2
    [P1 0x0 0x2; P0 0x0 0x4; P1 0x0 0x20; P0 0x0 0x400; P0 0x0 0x100000; P0 0x0 0x10000000000; P1 0xc87d6c466 0x209c659e74ca; P1 0x340df862e7cd 0xd7bfdae2a63; P0 0x4733487a7bb 0x27811f298b66; P1 0x4c633d2db1bd 0x3a3da679a73; P1 0xa607c81f60 0x24bbb3bc5af2; P1 0x420bed7fed19 0x20441236b637; P0 0x197abe191be0 0x136adfe8e2f1; P0 0x93a43617c7d 0x8448739734c; P0 0x1ac436320d1 0x2406fb0bdd47; P0 0x1fc425cf40b9 0x30e2f3a2fc0; P1 0x74fad740f7 0xd3533ec55c1; P0 0x444f64d4164 0x1faba9c8093d; P0 0x188c42410f3a 0x9339c264d1f; P0 0x2127b023638 0x116ff10d1d49; P1 0xee20a89d65f 0xb637428313b; P0 0x32c98b7338d 0x17957afe4174; P1 0x1b398a4f7693 0x20d681136225; P1 0x34c81efcc3a6 0x1be983ee623c; P0 0x13113c54fb7e 0x9073681cc82; P1 0x3fd5861e48c 0x241d65dc0fdc; P1 0x3fd774799d7e 0xeec1ca94692; P0 0x573216aeb56 0xf9ad8ae209e; P1 0xbeb5b0c715d 0x10ecaafb6193; P0 0x7029fbcd420 0x5e136b9a749; P1 0x1b13358d8cd 0x4940d86083d; P0 0x8353f1f767 0x20b3ca2d015a; P1 0x3458c1698361 0x19511da9e7ef; P1 0x1f5f6b033263 0x18baf921fdf7; P0 0xef7ce8daa06 0x139bfd9807b; P1 0x12d259f2e4 0x3eb8baf1e6e; P1 0xc08f748776 0xbaabce248c2; P0 0x354d1a9fd7f 0x1669f67fd87d; P1 0x18972dfd772f 0xf17d3e8035b; P1 0xb267cd96b94 0x1e7ee7f9a9be; P1 0x2d8558203ff8 0x2542024849d0; P1 0x43f25898252b 0x187a0189d92d; P1 0x1d5322c42e82 0x817e038fb60; P0 0x19a623baf48 0x28dc22dab6f8; P0 0x28dc22dab6f7 0x1; P0 0x0 0x1]
    [(0x1fb97399, 0x831199364f9, [P1 0x0 0x2; P0 0x0 0x4; P1 0x0 0x20; P0 0x0 0x400; P0 0x0 0x100000; P1 0x0 0x20000000000; P0 0x190fad88cd 0x185ca862329b; P0 0xe867d26b36b 0x1af7fb5c54c6; P1 0x2399a43d3ddf 0x1e0405515a61; P1 0x2c195ecc8157 0x1ca9eba109e3; P0 0x141ba554c602 0x6873bf9bb57; P1 0x2160834f0ac 0x954bb9c0fd6; P1 0x44301f9b9fa 0x18a3da93ed9e; P1 0x1db7be80bc99 0x236ef26da437; P0 0x1eba40d02a73 0xbb8c79777f6; P0 0x35cdb52424f 0x1dc26cfdf78d; P0 0x15acb9673030 0x831199364f9])];
  mkcert 0x788dfeed61e9c29d3cf ([(0%nat, 0x788dfeed61e9c29d3cf)], []) 2
    [P1 0x0 0x2; P1 0x0 0x8; P1 0x0 0x80; P1 0x0 0x8000; P0 0x0 0x40000000; P0 0x0 0x1000000000000000; P0 0x21f9ede32fed 0x24259e041794bd6e85d; P1 0x15ad2edd2c4c492fb10 0x522f071916b8b7231a2; P0 0x380694d7ee931e578f2 0x4626ca917c2d7e928d6; P0 0x28d255abefae71de2bd 0x51a58cecbd1d0be7511; P0 0x374bc0f57662e98508c 0x4b0dac83c62ccc05ed; P1 0x5d739da06663de9fb 0x295e2ef1122b29927dd; P1 0x1c63f78e0e3488f5feb 0x2121945b5fe981de98d; P0 0x91aee67d3733354573 0x54d952cb076ab4806ac; P1 0x776fd9d291d199b342f 0x606abdb97ae71d0181f; P1 0x9a396b82e3f87ce3205 0x59e3a5741c8538a1677; P1 0x860c5f403b346a3a830 0x3429e1d187896e4c7d2; P1 0x2d245c2a2afaeec3ad4 0x981dc7c93b829c031c; P1 0x17fe1c3d721881e45f 0x30b9eca77ba1cda604f; P1 0x2763855d2dfa26f9eec 0x3ffeb3d02344984abee; P1 0x43f11a65db77d7a57e3 0x41c2ec74674461778fb; P1 0x47be946d77abaac9253 0x17ea8b384ef431cd215; P0 0x4be9e44bf43c9f6cd2 0x3a8b1472382cdc261eb; P1 0x38dbeeb44e60f21ade0 0x57ee0364b157fd4a352; P1 0x80448c2d8646b29cfbb 0x4dc9f51f8843209f353; P1 0x64634a77740a37ed4a7 0x2118d718f914ea6c1c9; P0 0x9162156e3b0d2aa152 0x212c842c710c8cba883; P1 0x1241e49bf0479e134fd 0x64a0c028d4de911067f; P1 0xa7fd66fc999ee793e82 0x501514aa4f218afb4e4; P0 0x353281d5191d7dd486b 0x683515f069ed3c8ab8b; P1 0xb4274e1f8602496c2ed 0x117782592b5bfc0064f; P0 0x287dd55d1ee5f26cb3 0xfdb127709c1d5f5ea4; P1 0x42bb9abe70e2b6e5e4 0x7636ddcd9733e86e2c4; P1 0xe7d6bc6eaf5cfb8c57e 0x4597435555591c0c13e; P0 0x282bf64edeecff74cc0 0x43608a5b1d362e53bc4; P0 0x25a814ce17f8c3aba39 0x47962eeadd6b0815ef9; P0 0x2a82489f2ac8ef16e39 0x4bcb19b6e6743fbb31a; P0 0x2fa6d508578fbfa20e8 0x3a0bf70f754c0c18b0c; P1 0x37e6104b394b3486f41 0x648ea219684ce8e8891; P1 0xa7c0eebb1316657b01c 0x55ebdb80c69ffe2499e; P1 0x7a79a05fd07d337ed5e 0x2fea51d3a8c795b9206; P1 0x2616ac00947ba35b63a 0x33316fd3aca41338962; P0 0x15bd2d5aab41ed1a4f8 0x55ec0c39a9588913cfc; P1 0x7a7a2b467ffc6f81ba2 0x1e380cf00b441a75222; P0 0x7932a0a1743f276fdd 0x32c4f7688735e3a31d1; P0 0x15616f6e5e661b4dc9d 0x3c4c36ddef8042ce2ae; P1 0x3c516eb8befee2171f4 0x59d7359107d3b041c3c; P1 0x85e749cdb496a8f19b2 0x101fcbc08b86894df32; P1 0x4502fbc412a6cde8ba 0x5035fd0aa6eb3b5cf22; P0 0x355e432526987412b0e 0x4be2c2a2ce0983fa632; P0 0x2fc499b69f889b6b539 0x53a58d6dbd5e4455dad; P0 0x3a09c367c6a4f84e9a0 0x2dbf4c66ca205e15e89; P0 0x115c1f894da90303521 0x5f7e5c107f3b8acbca2; P1 0x9748d48d9eab0a04eb6 0x4bffff17b3553b705de; P0 0x2fe96f507a31207957e 0x589264202c7c9ffb1a2; P1 0x8225df39115bfc14933 0x30bf6527a3356309bcb; P0 0x13b62f0cd1ddc833b56 0x71a960fa7a2ce24966f; P0 0x6b29a894d00c60ff0f6 0xd83845e6ba81b9ab37; P1 0x30799352bcd231aa7a 0x4d488471e3520cba4fc; P1 0x6316499128ef3ac4ebb 0x570e7a2704186cce5eb; P1 0x7dbb9e2d8c81484bedd 0x436f80b8fe544010fbf; P0 0x25b8d0306bc573e5c8b 0x7327fbf6c36207f8b1c; P1 0xdbffb823b5b79f8efbf 0x4cc8d0826c0b438daf; P0 0x30e7f0ce7b0e0b217 0x435eeeb6852bfdc4808; P0 0x25a648b2b8626e6b990 0x4a5767e5fb6ba72c4d0; P1 0x5bafdf40022f7022f0f 0x6713c8882bf0c29e7df; P1 0xb0447023d4563911c52 0xd62011e56e6114ec34; P1 0x2f8a507841406e1c11 0x6201180d3319f3c2061; P1 0x9f5816b535a2ae4698b 0x1d8de97bc80d22ee11d; P0 0x73ece6b67fce58ec98 0x10edd98b843971f6661; P0 0x26096a4299d6cdeb81 0x1ea68ba1d5aa529b072; P1 0xf95e8ab470c6607be5 0x5ab1267f24e9272f85d; P1 0x887407833d60da07b52 0x5bf6d6b66a6d065644; P1 0x8c4ef369c26c14eb1 0x1; P0 0x0 0x1]
    [(0x28dc22dab6f9, 0x51b4a8e8e6ae29c7073, [P1 0x0 0x2; P0 0x0 0x4; P1 0x0 0x20; P1 0x0 0x800; P1 0x0 0x800000; P1 0x0 0x800000000000; P0 0x87e7b 0x38e29e72d1fc32f598b; P0 0x1ad78dd22518c42c9f4 0x43cde7ff5ef43d2892d; P1 0x4c456ebcc9c381abdb2 0x5f4bbdec6a5892f4ae4; P1 0x96a89d860c81aefc86c 0x55e47485e66e7e122cc; P0 0x3d32437963e36a46fd1 0x117b6a7150b5bba2591; P1 0x511fe86fa2394a8cac 0x7fb753ecd547a8f52e; P0 0x874d9145a17119b51 0x4b0a719ea3cd4f7bac5; P0 0x2eb5c94dcf0b832abc5 0xc0842af11f54f984e; P1 0x266ddd715e7e5448 0x35086e2f3ac665bf150; P1 0x2ea8c0d61150d222587 0x5c6eb980ea15a85d4d7; P1 0x8dbdb2ccf2c18d99875 0xaf85f6177de15de387; P1 0x1ff1c7a909df6cc507 0x62708646d00af264cb9; P1 0xa0c33dab1f4d9259d0d 0x810f922d09eee406df; P1 0x1145595cabe8048951 0x4271448fa000ffca103; P1 0x493cf63e79e3a253cac 0x4362fe048623dafb8fe; P1 0x4b55a4e44ef10deb26a 0x27eab75bd799dca9652; P1 0x1a6f09ef739a26d4204 0x1cbb8217fbfe4f2b74c; P0 0x6d91416f7b0b3d1c62 0x673620b4fb3b66d0552; P1 0xb0b9f9d51c81ae875a6 0x2031198e9f8e55ba94e; P1 0x113140c74622192728a 0x1a3ec69de3d68ebcbf2; P1 0xb6d682f69bcc86ca99 0x573201355ea391074d1; P1 0x7e22527df5941869655 0x1c8b7c90201f9838787; P1 0xd84867fe9ac528fde9 0x4ebd21d134e5815f7fb; P0 0x336d61e0aa48350e17a 0x51b4a8e8e6ae29c7073])];
  mkcert 0x4d6f0fac5c0e3050743c3537 ([(0%nat, 0x4d6f0fac5c0e3050743c3537)], []) 2
    [P1 0x0 0x2; P0 0x0 0x4; P0 0x0 0x10; P1 0x0 0x200; P1 0x0 0x80000; P0 0x0 0x4000000000; P1 0x0 0x20000000000000000000; P0 0xd3964c0fd031ba9 0x37b3c5bd51885c14efff11b1; P1 0x50239c7e7bf7bbe9037ec5c2 0x3bd67bab159f6cee3b085214; P1 0x5c7b0b46efd4733ca8154136 0xe7918cba9a8ce58a3687286; P0 0x2b48385fac672f26f9e2051 0xdf670cfea90945de575e7bd; P1 0x5091120e5ab86cdb25487f1 0x20d2bc5ddcf5cb99ac47294b; P1 0x1bd39e7f1e2f8724c41894e5 0x2d2d77605f4acb8b8abed1bf; P1 0x34b764df467dbc0bcaac6ad3 0x2751162c49f78550fc1e36ad; P1 0x27ed0587f99daaf92996cd00 0x1638662e7d93654ab49bd6d2; P0 0x66055ddb54973302d613f0a 0x23dea9b539f46b22f646271e; P0 0x109db2761ad5061a63483f80 0x36c3d8f59cc0be70e6b70304; P0 0x26bb873c5d9c328f0de865cf 0x40dbb88dbea643d9bd3b5d97; P0 0x365336b3791646469881ea0c 0x3e64d2deba36b2f547a34a7d; P1 0x648cd65c22edd38426717e53 0xec5fba073dc7e5594b7af3d; P1 0x5a31b471d6991a29a7b61a0 0x2f53f9792e10ec6f51ccfb2; P1 0x39dab69a8acf49be6f81b4 0x1958bbd88e6791d4a0e38ddc; P1 0x1097f2abc1e13b16185fb393 0x3752ba955d00c9680657268b; P1 0x4f0d53c4abec53e950cf0efa 0x3225c5130159ee877361253c; P0 0x2079f84a2fd8de9839694b31 0xdd545f265c10f22f361989; P1 0x4f14157b67dd694e22b5b 0x2b6cfd44cd802ca1f7caef15; P0 0x185a87723a8a264988fc33d8 0x2328f70c0f06a16006e15c51; P1 0x1fee0d6facac37f253011c8b 0x27cf89d88df2ca0daa9eba65; P1 0x28ef74ec61cddb5df3661566 0x2064803634715662d78120c8; P0 0xd8cf7df1d5282b7111c8c99 0x2c1197c44ec4113c1fa8ba61; P0 0x191484cf2d8f6cfa2b579088 0x31bf3072a4bdd694b464e389; P0 0x1ff5a27a88ba3a7f49c9e8fd 0x196fca555a76368e4e5acff6; P1 0x10b630b5155574f7b25f4d22 0x488c00f20ced06a30a65e47a; P0 0x43f7e6e4b14cc7f772bdbee3 0x2ac09d48106482f113b0885f; P1 0x2f3560821b9bbe1782bd566b 0x5fcc65fa66fa398c3e46e85; P1 0xed0974e2dcf1537ea74b36 0x1c2738fd82bf8ff46411cb98; P1 0x1478c543a520061deaa9336f 0x2539b0151387946e0c30cca7; P0 0x11e5471ccad85456f89a947f 0x34ebe69b8f36eca5468262a8; P0 0x242b3244da60c95b06cc1038 0x2b50ed1ae17fc1485651fa38; P0 0x183b17b39dd55afba79c8e61 0x31d912ad2988d0942d28c069; P0 0x2016ed14a65ce9dc90fbbae4 0x18c3ea24235e58333a375015; P0 0x7ebaa1bf7df260793b8db9b 0x44830e9a7dcea41f4f90dc6c; P0 0x3c9e36fcff35b22f80e0796b 0x247e29c67d51713744d89093; P1 0x226580c77f4ccac3895f9688 0x1393a3026f5d39c88dd7e99a; P1 0x9e611ad562b5c93d7d1cadd 0x15f7548e3e224a8236cd0acd; P1 0xc7668e375b4776b2a7e6061 0x2096463e839ce28cbbb6867b; P0 0xdb6bc82ce056418c87785d2 0x1fdd6607fd2c7408d9eec4fb; P0 0xd1cdaff4654feb2ea43b04c 0x117f97433bcdc1e4466ab1c5; P0 0x3f44adb2eb5adf7664e7dbe 0x373b7edc86152782a328a7c7; P1 0x4ecafc238633526c1334ccf0 0x565447c9aeb1b01b544c1d2; P1 0xc07e3360cd34afabd26484 0x2b7950bd87cdc3f124a9b42c; P0 0x18685ca778baf6e57fa7ec34 0x26b5a3750f324ca4a3bb6464; P0 0x1359df95ce2b0189f9626365 0x423c49fd32ae3e342713035d; P0 0x38a81a91a382272b63b1a3f1 0x33da70550de4890603423202; P0 0x22b92da42af8e376dc4269ef 0x30c7d1a76250fdfdac958aab; P0 0x1ebae1009eb3c6227bfe865f 0x1a6a4442680c765f9e6644d0; P1 0x1205a440cd035d0ba043f3d5 0x2b8c6685d3c38db0267dd63d; P0 0x187dcf6f34bd2f92255ca662 0x1387fdc4438dc9776a8a017b; P1 0x9da4e538f59941a04056225 0x4cf8b33f1efb023b2a16a33f; P0 0x4c830bbd6d19d0fc93d66d94 0x1a1f26c3dccbab933c7c1ab5; P0 0x8cfdb6d84f25dda7d2dc967 0x1fcbeebb4a6a26837a74abd8; P0 0xd0e7ef6880620f501f018f4 0x3f6c2af27660ce27862a65d4; P0 0x33f24e75b9eeafda53b4d8ea 0x43618d1caa576b2e3675eb4a; P0 0x3aa2250aa910f12d1f43035c 0x18bb8a8103083a07113d2ca0; P1 0xfcc9fac3474b8498339f995 0x257c6efb66787962e3024ffd; P1 0x244b5a8a6c3958fbc62a4b02 0x29601b4801cf58833cceb8a4; P1 0x2c376a10d936247f40ca86aa 0x122b0abecf217147a8fc319a; P0 0x443439015ad3a900b22a147 0x2a509bd4d1d606554853f763; P1 0x2e3f4856626a19b61142b556 0x346af7fe3a733c82157c9d18; P0 0x237bccc6550e1d70557b89a1 0x36856d8cff28b05858e18ba9; P0 0x26636eb2f3d57e882a496b84 0x4bb6e8226f4e53bbaf4a8835; P0 0x4a08868ce68e499eaf63eee2 0x2e825688dead41a7b9373e6b; P0 0x1bef4fbcca8a8038ba8126a0 0x4341dd5b1bef112a2af39459; P1 0x74d619654d7959b0ab883eb3 0x4e8fc8aba21b68878a5866d; P1 0x9f696c6b44a070aba1bc09 0x1a96ff813c81100ffc6751e3; P1 0x1242e172434d6454d219815a 0x383818558252e098495c723c; P1 0x51a21fdaf40361e00cfa4edb 0x32f1bbcc9aef6ee8b8c4b413; P0 0x21843fec1f8b796430de6520 0x956e2210b2d69d8cd8b5f89; P0 0x1205e08aa97fae38a990b2d 0x3ac5af8c60a6567ed3af3fa6; P0 0x2c9ba979c06c0bcdca1c9006 0x4d4b9b6893ddf468e96af05a; P0 0x4d2837607d6a601060a34d3a 0x32666eb0e3390064cc86462e; P1 0x419bde4031cf2cd3b3a0b41b 0x14c250eba94d7b0b67a617bb; P1 0xb2167707b75d42f4ebad3da 0x1e3b867f0d090c7b7e569f5c; P0 0xbcdbef03a0438be390c57bb 0x399cbaa576020d2e95ed8e3; P1 0x55baa967f3d08440336d1d 0x3395f1dd09e3ac7741784057; P0 0x225dae71d7aa2e8c211ac285 0x17287ab5f822631b0d8a49fe; P1 0xdda0ef9324b9170e15cac94 0x11baac9213d5af833121f83c; P0 0x40f2bef362501ae7218503f 0x35b3f4c6c572fb1801920587; P0 0x253eaae453f982001263e1e9 0xe8a693991476e3c3443c722; P1 0x576009f7454d7df56d80d0f 0x1d1c06126975925b0ec0d7cf; P1 0x15e2d56bd6bf7afed142f856 0x1dab8b75884b16e721e58a48; P0 0xb5e5ce157351b6be132528b 0x1e57f6a7d9793ef81e073163; P1 0x17c7fc58bafaf8db4d84dd33 0x190d30f9022eb9b4c497039d; P1 0x10359d17ac62144d5071a077 0x1; P0 0x0 0x1]
    [(0x788dfeed61e9c29d3cf, 0x1cf2213931e429a22a8a5c6, [P1 0x0 0x2; P0 0x0 0x4; P1 0x0 0x20; P0 0x0 0x400; P0 0x0 0x100000; P1 0x0 0x20000000000; P0 0x0 0x400000000000000000000; P0 0x34e59303f40c6ea6e0 0x2fc9e5bd78a56c71cf2dc5e0; P0 0x1d7e3562e0bf8ccd3f09ca9d 0xd60ef67442d089f36d97b45; P1 0x49f7d03e109fb3bdbc4b29a 0x1ebffbe870961f6f1056801c; P1 0x186c201a89ab853dcaa7418a 0x3eda233450f08bca96ff5f7a; P0 0x33042b35294a44216a749f13 0x40349a653610cb986836aa0f; P1 0x6a79560e36eabe0891a71fc1 0x33cb7015a14fcf72f4e1124b; P1 0x454a32aa2093e7cf402e80e7 0x15c882da89605fc8f577bf51; P1 0xc418145d6717d5d9a85781b 0x2cc7ee4d176f574ab5b18a75; P0 0x19e5bd09ee53d3347c564717 0x4112e543483d18ea8a075088; P1 0x6d5f973dd71861b537c93344 0x1a5c4b7312fcb131c9c378e4; P0 0x8f94c52f183d6ff75e8b4ae 0x9e522b801a3d94ab93fb3ae; P1 0x28767b89fb0b3ace9ce9f84 0x3b47d3493fcf8fc39e26fb2c; P0 0x2d62116cffc7f0d7441b2986 0x1cf2213931e429a22a8a5c6])];
  mkcert 0xae39e343cf1fecb5058777bbd ([(0%nat, 0xae39e343cf1fecb5058777bbd)], []) 2
    [P1 0x0 0x2; P0 0x0 0x4; P1 0x0 0x20; P0 0x0 0x400; P1 0x0 0x200000; P1 0x0 0x80000000000; P1 0x0 0x8000000000000000000000; P0 0x5e09e8ea956b6f618f5 0x133247d3024549888dc6edc1f; P0 0x21d75d90fb08db5ba4189b89 0x305468356a070760fd254a49c; P0 0xd680ff197dd9e3a93c36daf8 0xa0c53475bbd85c22f873b6df8; P1 0x128b51f41d362c0c7a856718ad 0x435172df30e798ca9e8b6e9c7; P1 0x340573c538e7fd6d1ec01225c 0x78c1da8efce8977d977c31f76; P1 0xa7652dfaa372e8f1af2c1bcda 0x17e9501b87c091f67432869d6; P0 0x3481c0b7df81c3731ed2a69f 0x431631fb93149ac4c2f24d681; P0 0x19d504027d63993a9ca68734f 0x62f6fd3768ef1fc2d05c6d6ae; P1 0x706dd105039177d1a2dd7e223 0x6de90da1108b3ee9e7210f7b1; P1 0x8aac75bf5c2dcab9fe9cefe59 0x7c12d730dfeec808e2e28860d; P1 0xb0b740c5032b216f28ce3ae0b 0x65de58940c8d6412894af7233; P1 0x771f9379bdfc93433f18f1e35 0x4fa312eae2acf618e3c872831; P0 0x2466b9eb4f3028927bf83ff1a 0x328ce6178d8943050ce2852f; P0 0xeaab41513089705a87a297 0x73de5c57b4f2a1e2f56d34826; P0 0x4d0edebab309c44ccd882d982 0x8ec04f4aea9fb2353086f5aaa; P1 0xe9ecc1704a924a46b581395e1 0x7827ebfe0edd4f42b4c002fab; P1 0xa5bb7a35b9d1cb0d0929c7623 0x29d2203b35ea2d3cac5356f9b; P0 0xa09df2bc8470192bd1504966 0x9b899bf22a7b9912faae1958b; P1 0x115b50b706e6009e25d0083a4a 0x14b981ba0cca7270290e79c50; P0 0x2771a76ae767a9e9e30654e7 0x72deb784fe435f693f1f8ed75; P0 0x4bbc4e0b89548a1f1caceb1a9 0x4a69c6f0ac3b49a96816d7ab4; P0 0x1fc84ae5ddf71e735b5f058c9 0x7f766c6d806da0b4af58eef2b; P0 0x5d402f80de816c1534a5ad312 0x9da2a2b6c1d6318d4ab4fd6ef; P1 0x11d3fa9c6e7f8f3588001f5649 0x61cd23bed3db29041f2661f5d; P1 0x6dcd0cf71f55b0bf8ce30e8f4 0x1c1d5d1f497603fb3c872176e; P1 0x912dd0421ac2c114baca026b 0x588d0e0acef735d58a22fb489; P1 0x5a033df79945e6c0e8e6f4466 0xa067f57df5f0aa6d7e1d16154; P0 0x93aeaacadeb9bd4d28ec98b18 0x8152e4156751b25f8f608ad8; P0 0x5ffe6f92892b1107351876c 0x7e1963a89890a34155ad7b784; P1 0xb6886e1399aceb10ccf46f0f8 0x3f8320ae6adcdac91c61ce908; P1 0x2e4e2c1f35c6c2e294d4f5ffe 0x47323e29d78445eb035f437fa; P1 0x3a300c414215c88a502fd57a1 0x75af71e23b7157e5a879fb36b; P1 0x9efca6a7e974701434be462e8 0x64ff55c18a33bae5ef057202a; P0 0x3a8c1e2744c574e6da2e8b287 0x576722bcd055f0ddd2842dc39; P0 0x2bd8c983d0eca823b42d5b4d9 0x7fddbade8ce583d836c4c3d7c; P0 0x5dd794d0ad242a83e4a484de8 0xa200e3a8a0d4b98eba4bc57c8; P1 0x12d46ce0a3d6b4bc9c01cf6c6c 0x1579b9e83944b29f6124428c4; P1 0x54b52d1117605b73561544db 0x377924374f19421a16da59d71; P1 0x2353393530581100e35c6782b 0x66835ef20dffaad5c69bb3703; P1 0x78a2c077913975ea5bf449b6c 0x4ba6e8c268504310e34e0f156; P1 0x41b2e46bda0e4131aadf819e2 0x8bcb44408b8249211f75d5fee; P1 0xe055569e1098875e4c5681e58 0x8464bb4b08c0e477d16625390; P1 0xc935cdead7ac6702f5e4bd2dd 0x227481f63d1256e6fa20785d7; P1 0xda0b3cd999c8a1f97a13581c 0x9b4709ee5fbea1f3f66d4b476; P0 0x8a63c3316a800e699906e9532 0x65615a4e5367422881d14fa7a; P1 0x75fbf2586fe930ef74e61c222 0x402c5b471af7d0e24b4045b2e; P1 0x2f4637f9e9fc73895f0a547a8 0x6ba5ae48306907f2f3147d980; P0 0x4282c351870d1a603531a8104 0x886acd73903750e1fee60140c; P0 0x6ad02e9974d914c7a98de3dca 0x5fed80e5677f8a49b8de8346e; P1 0x69a265a2ec3f08de54c4efd1b 0xf6b2a35cf887040c42bfe899; P0 0x15d50a711af9c70ee524b5de 0x651c85ae5856fa1721f5bc8b; P1 0x755bf3bb42e4ad5328ea8a8 0xabbf242e5defa21758161aaea; P1 0x1529adb40db93e8aac98ee8449 0x91cb69cdb360ca5bd7f497ee3; P0 0x7a00b20dd8b7536961b49dd7d 0x57401aeb1cfff24b5464ba900; P1 0x576352657e49eaaa931633e12 0x4a582ad05b3c9d9d4bbac86b6; P0 0x1fb941c60837075947fe4fe4e 0xaa1e6108bd6628530b6f1cfce; P1 0x14c3751f82e66112c49dec8307 0x245df5043afdda0f1a437a5d; P0 0x7974f65e8f2d3bb1676fa2 0x68dbd36e722131026eadc852f; P0 0x3f1c10975903c373e9021be4f 0x855bcff21ca18bc27dbff694e; P0 0x6613c80d28c1f1588babea7c1 0x4ed69e5c1ac073b7c9ca27f47; P0 0x23acc12a1cb58c67d4fbb6e11 0x52a0bcb3981855af2effa1824; P0 0x272fd2f0dfd09da54c527b34e 0x358a2eaa31d6c8af95deea7a; P1 0x20e7d550b1cdfe3f695479f 0x63e677914d8deaa39542e3ee5; P0 0x394840c35dc677e9bc42edd0d 0x2e0964f95a91086835de64740; P1 0x18543c30d690efdc167053c0c 0x23a8441e600f3d8b5995e0724; P1 0xe986657f2031306d489bbd0b 0x7546d920454a46792765a2001; P0 0x4ef1441487a0e54cf04069b1c 0x4812d828c0ec39f7691494855; P0 0x1dd0b7f5d9fb0cdf36d7d4e88 0xd2d43f0dfdb50035537399d1; P0 0xff1f366a0c7fe6a66c0267b 0x3eb19d0f52f568692baaafad2; P0 0x168f51756375e48ff2ffe93a6 0x67fa0e5f99aaabdc5ca9910b6; P1 0x7c1ae4bcd9cca225b21cf7d4c 0x85d5530fd16491f345f8f7dac; P1 0xcd9c4367b5cfed5b03eb03b67 0x883ddc425a454a4629e2b7f15; P1 0xd513b29d0a929ce00920ccf88 0x6bc39a6a55b727e4884e4200a; P0 0x42a7c23924cb3d8f030f155fc 0x49623e3d590a1f09db731f158; P1 0x3dd1787660bcc7da41e7d5fa7 0x9b6bcf78bfe49ba4a9047c135; P1 0x1154aacd8f7cf05bcd14feee1c 0x4aea59d98030b79f6eccab46; P1 0x406cfc4ffa9d732ce2ee7c3 0x1ccb1b1cb516d688f9eac6251; P0 0x4c22e8230b8303390c3ff3ed 0x145c69f61773b43499e0528a8; P1 0x4c24d0437b71b9c2dd98d981 0x13c2a53a0723366bc7cb94d43; P1 0x47b7af40177f0230a56f6e66 0x1dba254f05b833abd45953bc4; P1 0xa24f1d840389c6031baab2dd 0x76415a5749f54c102869ff7; P1 0xa087d5982659f94d9808e 0x39da98e705d60e87275b75dcc; P0 0x133609cd2e156cb357d8b475b 0x6664b1097ea50fd3ea59c7361; P1 0x785a96948ff6d050015953479 0x1c15de2ab478dec041cd3b52d; P1 0x90e07056d175b9e6757331f0 0x93151c401337e29f23b3325a2; P1 0xf855d7f959b9244426e79cd2c 0x9f6a02371bc5c4abcb33d78c; P0 0x91dc80187069ba480b90968 0x101613bf8cc3acb548fcb8ac8; P1 0x2f870fac617879befe884dfe 0x69005582005f5f868afabd9fa; P1 0x7e901460a4d64268eb4543b91 0x40431bf6b51d55d104ff5eb3b; P1 0x2f67c39eb9a5ef75e86a4ed32 0x8b04a32d2bc2ed846ea2e9b48; P1 0xddd99c32edc025d87da7e5846 0x67cf63168865ee53d7be5bad2; P0 0x3dda8ef4fb948254464b9bf28 0xae39e343cf1fecb5058777bbc; P0 0xae39e343cf1fecb5058777bbb 0x1]
    [(0x4d6f0fac5c0e3050743c3537, 0x1000000000, [P1 0x0 0x2; P0 0x0 0x4; P0 0x0 0x10; P1 0x0 0x200; P0 0x0 0x40000; P0 0x0 0x1000000000])];
  mkcert 0x10556d4e5b6afe30f884b3399b9 ([(0%nat, 0x10556d4e5b6afe30f884b3399b9)], []) 2
    [P1 0x0 0x2; P0 0x0 0x4; P0 0x0 0x10; P0 0x0 0x100; P0 0x0 0x10000; P0 0x0 0x100000000; P1 0x0 0x20000000000000000; P0 0x3eb145f 0x1c22495cd92287f360c8048059; P1 0x60eb1d53fc02d01c33a53e031 0x9d80b9d80ed6a8646159e4f179; P0 0x5eec54b0979be79f6579e8b45a 0xfe5134e16fe9f32023ac6aec27; P1 0x1eef7c3b4213e04dd8b227264f7 0x944507558d486f9b94e7104663; P0 0x541ec108e6ca82de070b6ac054 0x89938711fa46fa56608fe71995; P1 0x90d9184dd68ae0dc00e22c684f 0x6a1b26c119d5a9f5b75dbd495b; P0 0x2b147bd8a751219c11b8214d35 0x66283aea8347403218a39e8e0c; P1 0x4fddbee6bf381a35aa319768d8 0x2cadf4ceccce06236b5c26c508; P1 0xf46f36c64af494a4dff126435 0x3f3439f002f362b55cdc4d8933; P0 0xf492238d5253ed2f87fe3efbf 0x9647b8a2e9d7674bd21c273822; P1 0xacd5762d417f45a2e08b56282e 0x5657499958f33e4a3882e541ca; P1 0x390cec06f475b490e54059478f 0xdcb2304d32352e5126d5d23971; P0 0xba5fa99a6fabba6f4bbf9ebb03 0x7150801a66c68b287fda3493b6; P1 0x6243adf4cdb1514e028b9405fe 0xfce20c542f65ebe773ad2de83a; P0 0xf4b34f94cd9e29fce44099fc3b 0x21c296de190a31c8bc9b45a381; P1 0x8b8eba23d7c8579eb29b89aa0 0xf29e09e2b5663ba7db5b3db062; P0 0xe13c979f7cac250cc2d2963162 0xb635054e057edef6d5b5a7a3b2; P0 0x7f0929fa8ea7c549ac8bb20396 0x7c737646535b7def12ae3cea5e; P1 0x768744f2ec40c78016814ba2ed 0x5f19becc560f274d5e6d0092c3; P1 0x4536b101125a6ab68f107655f8 0x1bb3ba5e8e71b58fa05cf8a8da; P1 0x5df73c61fc853b53824edbe85 0x50ad510ba3fac9074dd952882b; P0 0x18e7ce60638460a090a5dbcba3 0x4f42c86a0003aca29fdef6236e; P0 0x1809f0187049536ffb47f27bd4 0x486900ed1d7d2b5df232d61310; P1 0x282039dadef1cef3efec4c35cf 0x80836ffa4fe78c2ee693de2869; P0 0x3f32489864b4ae57f059cf59ca 0xde80e5407b4bb0dc93cdbd5e17; P1 0x17ae0b6ddf2209202bb9d2fc6b3 0xf92ef1097755026004a12539c7; P1 0x1db2f97ddb197c72bd45945d4cf 0xbc82acd0a16b61c992d33cf0cb; P0 0x87fa2e7d23925b95d2bb08f6a2 0x4f7a3cec8146752d0467e33e7; P1 0x30573e36980a73dea1ccc10c 0x87ea5fd541e7f5e6a3a6180736; P1 0x8d5f3f7dfc9189da5632e74db2 0x100fa5c64833de3dba01d9b7726; P0 0xfcb08593ebfe2ba3c8ee5c7bbf 0xfd241101f4d3f89518f8a0c59d; P1 0x1ea6647cd6e1e97d8873f4d2587 0x8e8885f9f732608e8b8833703; P1 0x9b795fedf629ef959cadfb90 0x9e03bcc27be73abdeccf04b902; P0 0x5f8a808f9cd5a7741e6b30e87c 0x8e25ae5d6082c4263133c5c668; P1 0x9aa208c3376d5f0a119acb0f7a 0x16f420e340c325f447bf5dfb56; P0 0x2041ae121e4f39e002b99ddc3 0xe339e7b480d43770d920a9f3f9; P1 0x18b21cd0f7b7e3a2aee88f46fdd 0x5a88a8fcc2e9cdf7cd770264ad; P0 0x1f5cebde0a878cf7fef332a1ab 0x9071895cd1de5f85ce40049556; P1 0x9fab58b1849b65825a9ac323ce 0x523ea1fcbffdae888a102573ea; P1 0x33c3fb65617023162ecd6b2916 0xbc48214a0c915628d5ccdf4ce2; P1 0x10f4b8bb58665df10825adc711f 0x365cf4fd15edf0fbbe6a8fa8a1; P1 0x169df0a65cce110adfce467afd 0x35f5ccdf71e7814ff7e0c54ad; P1 0x16486cb0aa3ec3f904243e0b 0xe645df5b9c07253a8573fd90df; P1 0x195cc9d8b53b80cdf2547017e65 0xe866ac6652639b8eb00fc59085; P1 0x19d55a4949442746a600691c586 0x40f1004a6fc369f4242e78f65c; P0 0x102339a58415a9266850a218b7 0x1a1ec4b3cda11eda3d43f6b5d1; P0 0x29c5356b99338ee60d8b4c044 0xf2d21df82e2b47449079b99f7d; P0 0xe19d53ff7493272d6d2b92a286 0x742b0e906bfe8cec094d3afa33; P1 0x6746afd037dd297ae80b309315 0x4ff643ec6c9714fb1171167525; P1 0x30ee93ea4fbe02d1912d9a81f2 0xc76ac6fe932041e04ee6624d0; P0 0x982abb59905dc18e046ebc3a 0xf019ed44f9bc0483683af87916; P0 0xdc96db198f70bd669db3640014 0xb608b39621250ac6298499cb70; P0 0x7ecb64e69232068a0decce0aec 0x9f0daa060761a31dd9b719e074; P0 0x60cd22d5959a62e2e951213a0a 0x4158a0f984f228112378c24956; P1 0x20adc66d85132b210bc851316e 0xee6ce162213fe3111b5a92db4a; P1 0x1b30a7ef647f90b3f2013ef3109 0x8cc0c712fe32c0ee31048b9247; P1 0x979d562fc089a68d984c7ebe10 0x6a83aeb14d6f98b77b34ff35d2; P1 0x56d30e6a8c5b8fd652ac84588d 0xe961374b805c7e831a6fb1fda3; P1 0x1a0d2b81dd0222d919f90e64be0 0x55417324f22c39fa9b09fd76b2; P0 0x1bd0080628eaf1411a17e57c8b 0x1e17b9c5c8027e3fa861e58051; P0 0x377118415efd6e802b9903cf8 0x56f18a5e3ac39191141826d269; P0 0x1cecbd938cf5a93dd75e8e1f8e 0x6b86d966045f822899ab41c373; P1 0x587b9486e9927d64784b5ebf0c 0x5c2975272fdb387eba44328fa6; P0 0x20804b5198d5bb78e546d6ae6b 0x804b0ccbf0085bb6c805bfe151; P0 0x3efadfc6204e7f4aa21b171354 0x61b3c93f98331ef653374fed; P0 0x2486b78d7af81f68b3e950 0x9a30cad1022e3dc94b0365b699; P0 0x5af904e81d64f6a531c87479c2 0x792077e60df3a48c9f9c60f83f; P1 0x7047edbc78b2ec4c335d12287c 0xa5295550b7c7a8ccfb4eeee166; P0 0x68610236ae51d69da4c8f49069 0x94831838eb005e08471d2657c3; P0 0x54653cc1d8cef161fa045c2e02 0x249744aee791c1ea9a5b77ad17; P1 0xa3f144addc0d1e4e3f9538b06 0xb54a61742d18c32e07e52c22cc; P0 0x7dc2cd60b6e3bd50b45294cde1 0xfb559c4c2adf1182dc677391f7; P1 0x1e36ce13b45f8284ffd36d2ed51 0x4800c53e1e45c132fdc1e19019; P1 0x27ad07a1760a237f3266f4e60a 0xf131cf77cccafdd66917a80da8; P0 0xde9a4dd5c97d1bf59d6245d53e 0x17cd511d1d913931cbb6f75672; P0 0x22af63303934bffa99301c43d 0xaeefa2af9b9dca9f06c37685af; P1 0xea32d4ef51b5dcf20b6f6bbee6 0x7919cddafe21707208e680310c; P1 0x703b932c62f87119aab22a7bd6 0xcfc5f5dfce4d9cdce0c872cd7a; P0 0xa52fc667ce67e64026df20833c 0x34e11dc5ead7b20ccbdfb2ebc8; P0 0xab3197dd079c99ed0b53d0dc8 0x6aa9e9d6e0994596b5e154eb8; P1 0x57116d727a63a7ecee034da4 0x743a1b8126a4b598cac75328fc; P1 0x6761743f47214dda2b38da4cc3 0xc8b5812cc56998aa0dca746c35; P1 0x1344a30c958c017d742269a4347 0x332ce3ee037ff2c12677b478a3; P0 0xa056979b1765c3ed131ec9b7d 0xb12db9b334807740a952402574; P0 0x781eea1a13eace8dc7b11b44d8 0x24c8c3ca652f74cb6c798e478; P1 0xa5adf859e20bdedabc72cd1 0x29dbb5c6ad07da6502ff70a477; P1 0xd68a21c99cf3055a5234ec173 0x7a3971e3462aaee3cf720d787; P0 0x392999eb7bc1756eb13a79f8 0x73e2c31eaf4deba6591ea4acf9; P0 0x3363265fadb7fb3d25148402fc 0x53b69301f78a61bd7f4a84c615; P1 0x35a172fbe476c5e96b1bf42a5e 0x66c8b8094fa90b5453ea5a2f84; P1 0x50d9747ebfa62e0617ecc91ec4 0x91e4cffb7209993c72a57d187c; P0 0x5172254f46e627909cf4adae68 0x3e6377abadc368bd85edf84ae8; P1 0x1dc99e9fc352f7b3679ef25aef 0x328275e8bc592b9260b6bc56c9; P1 0x138632c62c0bfcccb19075144c 0x20658b7ac27dea051e14663cb6; P1 0x80833d96ccaad370ac605607f 0x1; P0 0x0 0x1; P0 0x0 0x1; P0 0x0 0x1]
    [(0xae39e343cf1fecb5058777bbd, 0x1000000, [P1 0x0 0x2; P1 0x0 0x8; P0 0x0 0x40; P0 0x0 0x1000; P0 0x0 0x1000000])];
  mkcert 0x4be6ab2c80713e4d5142229baecfe3abc0f ([(0%nat, 0x4be6ab2c80713e4d5142229baecfe3abc0f)], []) 2
    [P1 0x0 0x2; P0 0x0 0x4; P0 0x0 0x10; P1 0x0 0x200; P0 0x0 0x40000; P1 0x0 0x2000000000; P1 0x0 0x8000000000000000000; P1 0x1afb 0x2773a65290a40ff09ca4419a7d0c550174b; P1 0x29032aec3c04d3d5f45df89cefee281cf3a 0x2431045e07bca5c13e21e7087cce50f638c; P1 0x22839291a3334f9d5de526de44321f2b398 0x9854d78ee7ed20c1099569841fd8af0338; P0 0x131b9a3739e31f031a3f8012ff2ae93971 0x8819de33a90891d069085ea62bfb2702a1; P0 0xf40c45f44a61bedb83bdf08f2d040316c 0x313f9742706202d608bcb7c74e1d08eb3ed; P1 0x3fe8df63541d2185bee190e5473f20225b1 0x3bbf8f4217d0f08590527d91d7b88da6173; P1 0x5e10ea5505322c2bc18b60baa1ba1a1853b 0x3dbbb31e34c55f95a694fb6152eca3c90dd; P0 0x3235bf8ec929f5855b1dcf3e95956deec42 0x2671ce9f10d39e83e5c61b50e922e0d0eeb; P1 0x26f1ed229f91b294e73ee79fb367c635365 0x1354503b45831bc211433811a409b870887; P0 0x4ec29ac6195f779442d13a305c6c2d2018 0x15aaa234e90b12e729474d57800e90435c9; P1 0xc5ea8894f04120676dc9ead1b9fa5de0ed 0x3eafe1672d4c55f0a7008beeb447ec975bf; P0 0x33c60514c3f17197e209ab5ad16e6359910 0x44761538504e7c375aaf5f81fc0b8ea6c91; P1 0x7b805e1c021cc939273fe52ad18da419fd2 0x398967c4f30f89df7393f7ab6b0a172bef4; P0 0x2b9d9da8b258d7a2a2a2a54090b244519dc 0x9bfa5df0bbc4e0f78e56dddab384dd04ac; P1 0x2811337aa87941f7ad9808a80d53a3a4ce 0x278265225ddfbe565adec67bba113d1b70e; P1 0x2921d8eba35e9c53d85c598f02847bb4ce0 0x4b956c89ff89a90d0245101a4e98c540868; P0 0x4b4484de6758e8a9a37f7167c2e2664e75d 0x21884ba93e9704943744264bb0a39a2cfcd; P0 0xed077080137d2aaa0d3b6fbab69dce34ff 0xd3c1a5aeb4cc10c2c0c7621b21405acb38; P1 0x49d8f20a0ea1a3bf9fffe49d14fcf33854 0x2066faae9742d2ca09f8a9340137ebdbb94; P0 0xdd52358332c8bd49c28c4f1ad36130f035 0x36c655dfb7be67d297d1fe1d5328db28e75; P1 0x4f0eb745ba11b5740be9705bc0b219e6686 0x31bdabb1dbe221f21b8108431db1e059918; P1 0x4131bc85ba3d18226951c1a55b89e612ede 0x25c464050b7816b001b9c3f74d464929d7e; P0 0x12cad642992ae139a8e022e703b1db0b861 0x365b9c53c3a8f52e9ce2eae6607ebdfc055; P0 0x26ede7f858f4cfdd4f7e47e2fa0d5384338 0x324fe207ce3da81e79dfb571f40183c8bf1; P1 0x42b33609994db8408c3695bd8c5922a4256 0x17c2b57a634ae990d5ba3e0487364226b8; P0 0x7702c31e6cec0d9e07fb6f6d8b2f2639 0xc2c53790b0cf67eec428c29eb49dfc0ae9; P0 0x1f3cd5391e74d0fc40b33a13b62d7e788f 0x362db6390244c9e0e1282294c0087d6f3b0; P0 0x26ac45a4b5914aa6b3da69a85c2225f3a94 0xc7dcea3586eb88ce88a3b8b3bfe2167a54; P0 0x20e47a8e669405040007ee855fea6a78f1 0x238421883da4ff9ad738b2b1a3e1f3c1971; P0 0x109e73b21783930f3c808d491f3491a5e95 0x4f51b5d42d96910ac40bde7ee363bc4d26; P0 0x52e42897034786f0ed0f0db92d81925b5 0x31247dc1d22baa395435309854b88e3c009; P0 0x1fd14e925834b6e55512c159cce7de6a0e0 0x492d28bfe7306d8286795269003e9b9331; P0 0x468cb03e2b29e82e67eb925f8d936374c 0x50e628b99943368714cf7cbf88d3f641ed; P1 0xac73ce2f331a93d1d5bb7da8e3b34caf0 0x3b76808ce6be4286961a66f9c5e8d6c46c2; P1 0x5d2b6ce5f5ef09bfe57f306e329c5497e1e 0x1e323ef7e63e69d11a07e9a0aa617c4ea46; P1 0x1806c2e723da9d85a54959835092f6204b6 0x4bbc9074f5038b0a6ee79501db0e3b8279e; P0 0x4b928d18a873e57d99b51f139bd1553a9ce 0x480a99670db162103141b7914e69ffb4a72; P0 0x4460c62edb55cc088b39343dedc83379927 0x439b83934ba41a751beb8584832c3a17d7b; P0 0x3c385a45e6af16b6f43bc8a99e68f4be3a9 0xa663aabfd1903e024e50bbdc77114ae632; P1 0x2d9835e7476889e4e146ea0aae16d8707c 0x2afdfaae33a23392a73c035c602426a1c44; P0 0x185a0a6960f8c82217cb8a63e1b238c3477 0x43375902264f5e2236c3391f4667aba7b17; P0 0x3b866d29e608a73d2d93de5a0ae26a3e118 0x451cff9973c9fbf1266ba6b985198434ba9; P1 0x7ddd741bc8284bbf51b24e188c0dec120d8 0x3d170ba7e77b9c9031b23af249c1f455e7a; P1 0x62569bf64c47e38d33c1c1069b5f4cbee82 0x28a2cdde8e2f3a6acffd6a6b69b18b532aa; P1 0x2b82eb98f66696f567850b1726360daaa25 0x127ccc9a868060a716d1a7ac5ce98b08d9d; P1 0x901920ebe0c000a3d461128f3e863b9e7a 0x2e4bc7b769cbfd1a691e954bcbe52e8c36c; P1 0x387a0a3f4d05ba244a2aff5ce7c5e3eaee7 0x3e355ecfcd5704c096da5ef3d1791678797; P0 0x32fc6dcc8a6270c87b7d329308c2b1bf4bc 0x4a7b2c74f251524dc97b2764642685d340d; P0 0x49167a8a64923dd4425908efd48571980e3 0x37e9ee1bc65fb5a6af8c25a0ecd2974075c; P1 0x52613251f336071cfb3fe48ee2e5583455c 0x14294c1c50e98ce677b82640db1deb3b1bc; P0 0x55af9fb37c0e7798a44b2d96a19ebf6287 0x4289230e7f78b9d17854716babcfa259827; P0 0x3a536f34017e1768ae850d64a8aeae6961e 0xe68d28b91b2019d6f1d529047ca127822f; P1 0x5789c98f40add9e8c24007645b414d7f83 0xf87542bb2fd2b2b62d88054a9b7a2edc95; P1 0x65aa0e0af65edb75e1784d2c59f2c5b719 0x136f3983a6765f6a6ff4a291d6f5982c6fb; P0 0x4f9e822860b2ad80d6396ff7a671e212e5 0x7e9407f405b1332111b13cf55d0793f2ae; P1 0x1a62ec10ccbc49b0143ecef0f4a9590113 0x2901b9901e2eec760f6a22952f1da73d86b; P0 0x16278fad50e538029d74c91822bf9e98551 0x237a3f6d4da3be183915b498882ae2670fa; P1 0x212a6a594b47ea4dfe1d81e008311f16adb 0x13da067e79779f4a4baf5ac90c50eb5173; P0 0x5312fbc60f4f767caac0dbdc25d9c423 0x427f7a0722928799335a757b4173551c79c; P1 0x74850154342c1c12a4682410394f0c3a43f 0x275abc31e7647343201ec36f9b5885cea6f; P0 0x1467b73564c98d50c6e09435b65494577e2 0xe78ff484c22054fecaf8d94dff92271de3; P0 0x2c275f1f81b2013fa5d4b2fe944a91ffb3 0xe0e0270deee794f23e3b1c630bebc3c7cc; P0 0x29a3fdd026e7465ed40974e6cae624c074 0xd59d6fd02d9909a1062b2b24f558f253c4; P1 0x4b2640d5447c132236e2724d047fab70c3 0x39c1904103c3806c560ae1e6ec00be88cb3; P0 0x2bf2eb60f1e3031c2a0d75f60d462544420 0x4bdac8e312815d1ec5a8901affdf8cc749; P1 0x979dd0ebf4b312d179eae93cd91f457c5 0x431d1bc024f810fc2092ed0a3cb2b8d5517; P0 0x3b57fcf0c1a68f4b5dcd1ce7f467be7688c 0xd7ff135aefefc5bf99361a07bec69057dd; P0 0x266acac78089b8a801cbf2aba31b4a296f 0xdcce1c20cbaf47522e056ca8823ddc0348; P0 0x2825921210f6ce955d407f5a4b2d25f2ac 0x1cfa3cfff702b4fe3f7fb025c46cd633c2c; P0 0xb10225420fa4f54a981f5b7315d0be5c71 0x1a8704b1a53ec2f16703d4e5c4df98840f1; P1 0x128aebebd4e874490c0b87eddd248c76a92 0x27395ced52f9d65d810849f27600e0c4f34; P0 0x14452a9243902ea29f012ea1ac449ca1565 0x136f2182e79f5e3992c2a78c716bf1b5a5; P0 0x4f9dbd7d3ef0d99f83238d85490f4be9 0x39aba8c2a2bfeb0615e3d9399ae8b1e2db2; P0 0x2bd19bc5e7b02ab88935992af44b6260de6 0x2fa64ec4a8d29cc794e980cfdea1154574a; P1 0x3bd3dc6d176732ee6cafceb513623454315 0x325fb02e9dcce0aaf25c803f9a37d92688d; P0 0x216e9267373f030322ca7b7911641a2fb8f 0x25a7ea69a71193c9204ed548088b3d71c48; P0 0x12ae8a8efde9698aa0e94454fecaa245896 0x2dd2abbff443e1bd6c6ad57d493a4e47b76; P0 0x1baa087d4346f17b9ad91f11db8ef935612 0x433caad5f716d20f67ead7d5279bccf5756; P1 0x771fb31563b8919dcdf853e174b40e8b997 0x7f0d8c462a78b4b2abb49da3dbc19b5def; P0 0xd4ad702e44a4a78e50564a9ebc1154167 0x23f1f4f271e521c8699bbbaa59250450c18; P1 0x220bb50b9b6974c7ca9018b5222d5940bb6 0x46129dbea5d881d1b3845c374893822cd6; P0 0x40b122e101351c3c6e1272547a04eb0d2 0x31dc7698f4f5be4342b88b22a46bb27ae96; P0 0x20c146b27f89c9cbc2953ed41917682175d 0x466296ba26ae3cfe8c0de03fe4cc0ea9571; P1 0x828a41da135871ae6086170282b08f0f562 0x231aa00c2f2d3f211b6b2e8e2f0c51b1f04; P1 0x207892db9b26e880595ef9471828c5ab162 0x32ac9131626c044c6d3a82ce79b2d6b9362; P0 0x21d4ebf115c8d7ceb0e1d21791aa4870d49 0x71d3a34487d03ec0d6adf91b3aba904e3d; P1 0x15567d2643aec00bee8aad073f62693545 0x95f7f15ad9ea466716b7d3c410f227aa07; P1 0x250a0df32656350d626b63d22a4fab9289 0x66c2418dc484547be2696bad692a6a665b; P1 0x1163d92808f38a26c852f7730a3d4e85a5 0x20954306f38f32c4225fc64efca51704807; P0 0xdfcc3b75e2e95ff643a11c3e5344de9316 0x12a66c0ae3caf308948b8dc29c5e45929e7; P1 0x92a4d3ed244119485b0743165eec9da786 0x1d1154abd13e36c959f839501a4b6546408; P0 0xb21cb44c6e3ad77fb85e4bf63f088e1ec1 0x218d18ed74eaadd3c1e0fc015b0d7b2b6f1; P1 0x1da96afc5c792099bebe0c59c8a51f1d44c 0x102b850a802878d6e32337053118973dd4e; P1 0x6e3c5550f7c7a91dd468de1375f6d4da26 0x307d601039f785aa283ec24c673377ed74e; P1 0x3df4b016b89d8486c6b8dbd1e234e888d88 0x94944daf3fc0b07c4c92526c6570f80c90; P0 0x122d9920bc0cc1516a8f83a7b57f41009c 0x207a5ff628a03d281ee65d20cbb3b0437dc; P1 0x1bcb6f5728a39428c97b05cc5cc4491823b 0x110aaaa3021a713ad0a3caaec8d7a9894ab; P1 0x7a70db03f0543aa19b5598018c208b02c4 0x216b81b0b027a668222e76069faa4373af6; P0 0xeb711f9f3b1709ab961bed5958a64c4915 0x385351bb7618007116f42af6e746a62b029; P0 0x29cc717bfffd4a2e82e5dae53eb7e5d9e92 0x11171a095e8f3ecf308e69d1e595b98e403; P1 0x7b23cc589464980b31304310522a6d6b8d 0x49b81fb1ed2813d210f8f2d858a45f3d6cf; P1 0x8f3344ef084d98b35a3b42f545636d68b40 0x296648dea34ec04162d1118a35a5d1c4e02; P1 0x2d297ab8b248d96af350c1f7f19e7238cd4 0x72363825bd966505a51d86faf251e17f9c; P1 0x157b82eae01e0bd69a1dac591013822cb4 0xa1efc0d047e5e137a879544097196b7f94; P1 0x2b2fd7f74a39556895cdcd05636fc83373 0x15abcba73dcef99e21b3abd0ff74606e363; P1 0xc5ffc34a2c68807d9716cfe6d7c290229e 0x3a3e960275f2d09953d3d9588f8518f6150; P1 0x5963fc66e4b4c1ee89f34090d7aa409f660 0x513f7b5c5b23b588d4a21165e8f9778260; P0 0x56f8b8f8ffbdd61f0d5936956d6eaa93c 0xd07828bea73a9fcbebbb87af1a6c05a97c; P0 0x23c94ab4c1913a319ee0e3753c85d42bf0 0x36d1b6ee107507927bc805ab492f2fa2100; P0 0x2797c9d05d904649aacd1f9e5c6286539f3 0x1e5f2866d6c229801129a0f20f88b626c3; P1 0x184e707cbc6158bc582a0962a97cd8b00 0x3f3e438fd93e3e77f03c957f6d35125cc12; P1 0x696481c9d291fe297bab9d2694c67685a8c 0x43d05fc0a1d39c2771da3f16cd1ea6d4454; P1 0x792d54556b48cc77242e2709e0bd610dceb 0x32cae92f20bb7655103245a2bdc7f11f15b; P0 0x21fd7c6a930e7217bc877ac94814609a38c 0x45f757c62ab79b50be4f4e4a69c173f1125; P1 0x80fda20435b0357bdd03e49db7803303089 0x15294e0b3d96bf5a53dcabebbadae366aab; P0 0x5e65aaca161bf0604492e2ddfaa4a7eb55 0x42c468ad361ebf308eea6e7512f02aad83e; P1 0x7577106ca01f104b9ecbaa667459070de2b 0x186f43366bd887c15997bf69986687ec583; P0 0x7ddbd5f5b98cc820c7b023f7f7b8e468c3 0x1af636fae5da39a0ad3c98761a4acd7899c; P1 0x1327a598c643afb97fcfbf7473f576812dc 0x149834327716a3ed020eb91c0830136033c; P1 0xb2d0ed1ceddc3166626c63d8a710354084 0x1d627dbc2dec3bdadd124374833064d3464; P1 0x16c097ef896698180846f071c50c8b2ec71 0x23f5e028b8d7af888a0f63b9dbda608b781; P1 0x221321d9c23253c9ac5a2dbd51f10413ec5 0x2cf1b028bf8b00a701adc54421502a60477; P0 0x1a9cfc3a38dd73eaf66cac2b6376ee63522 0x1e05b746ffbf66706cad29280595231da53; P0 0xbe00d216c12b098d696b8bf73a0607b9bd 0x20db4df0155c78ea6b09cd21a2ed84ac8d6; P0 0xe39273bf1b571e6f744adf650ed2a89fd8 0x1c8c5cb2652394d68b4e4a6cb2b2513153c; P0 0xabcdbbf77fe29ba068696b208db458f603 0x24487ebbe631be08116a3cebdf5e41c47e3; P0 0x1158345367db1821fa8bf0332ffa662366e 0x196211ee0125621cc781d8430d5cd31bad7; P0 0x87d1b49ec87bddaae6a29051dc7dcf7d4d 0x4709bdd80f987ced4e4800ac0adc0c3d0e; P1 0x84f9278d59c484a82d0d7696d156d63e9 0x31b1c0c6a8df6fa87cc6842b65482d62e1; P1 0x411282b931871a508bdd20ab1067b57f3 0x2a7245c63f5169c65a833993a0df5b77845; P1 0x2f798ed993231e4dbbb8a502f1ba2936abf 0x1; P0 0x0 0x1]
    [(0x10556d4e5b6afe30f884b3399b9, 0x1f4d7c55f7b6c261d30c446e74cc05e573f, [P1 0x0 0x2; P0 0x0 0x4; P0 0x0 0x10; P1 0x0 0x200; P0 0x0 0x40000; P1 0x0 0x2000000000; P0 0x0 0x4000000000000000000; P0 0x35f 0x2164f4fb023ef95b120d552db12f800096f; P1 0x1d629bffb02eafd2340addeb345c809907f 0xecc0429d0342e458434ee1952ba33f40d1; P0 0x2e279a7b21cafc3d6a3753b3cd2a60b747 0x22e9a56623db8a5ea080b035d06a2ee4978; P1 0x201e35b914ff42b12d90245acc7e34612d3 0x18fe78da3fed5e4ceb12c4b9121bbaf4223; P1 0x107600b033085c79ae0de574ebcc4e6d3a8 0xe22a0853720f8f001cc4df5c6b8cda5aba; P0 0x2a1e82a5b6bd2f913f53c3df0fc0d1fb46 0x1ba7c7a526ed7c037015c2ea05323e2e0a; P0 0xa1398adc214e93d729ad7e3402757946 0x2b3fe7e1f4b8b3b45a3b4ec1126e552154a; P1 0x3149e5e580cc3750b8ec5a45706ae3a5c58 0x2df4712c7727c6b54701633c170c52e69a0; P1 0x37a5bcab7dd4a93309eff3cfb7c48e93196 0x30bbd0e4075fe24f9f9d937add12c193836; P0 0x1f4a5360ca271f1e8af49b51886748c3029 0x34928ff5f2a9d09463f176f952b3804bcfd; P1 0x48d40576637f4fe7064d7f0f30f9e3eed99 0x27f46078829ea36abfd522cf05a2802dc1b; P1 0x2a1083085b624aebc47057a863203c45551 0x1e56f6407265049f73715bbd01921d259f3; P0 0xc20a9fc04823b2df9a79375f98b202b680 0x4648589d2f3455ab0ab7d77592193182b29; P0 0x41147e38658be17d0995eb34dbe577603f0 0x27da8b780e23feee596a648262465c85181; P1 0x29da302e2013b049308e2d43a96f20b4038 0x1cfa3a8c630731dadda93519e31ec83e2ba; P0 0xb102074ef8f734c475b8de698ebf5f9b7c 0x1c62af441c3c06b1d3b4dd527071447c2e0; P1 0x153b311a825ae1d568d3fa28159e5a9e23c 0xa20c6715a158c357b11af80e6f5880367c; P0 0x159f90a31aa67657e02746dc50f040acdd 0x125f75e43dfb98e2cac91b7541fc4ca1f1d; P1 0x8e513178c2d062ac74541838360b3408b4 0x214bda2743aadc30e31f3076cbd9bdf6006; P1 0x1d367e19db370970e7b90b5c34534144789 0x26b1e91ff6d01a270ff052688ec502e3341; P0 0x13ba1cd7234163810e77d5790bc2897f112 0xb2bf2b0690be46a0c6d39d8b2ca59a9e73; P1 0x349e56a3fba3e77da617a4bf81e8743955 0x30ae5dcb72745f8c8c27a05d77138b08757; P1 0x3e7220b633e059abd7e9283b55bbcd046b3 0x32aae3f933f09f2accfbb2dfc1a3bac26a5; P1 0x43a55db65496fce57721fb6f2392bad33d9 0x1129b0a29a95bb9a1316ef29c0834b766fb; P1 0x7c303c03b3bf2bc8f76c20980b96882c7d 0x3c2cca78dd38e0640ffdd514260cb958cdf; P1 0x5f6a15c8819622123445c80a1aeb7315e84 0x2b4c13f5dcffc0982f0eab101a286ffdac6; P1 0x3165a82a150bf59e06a9563f0d3f850d81b 0x2ad3ddbfc3d1a227456610b7843074524b3; P0 0x182a6ca41142c586378fa8225d908704176 0x1f4d7c55f7b6c261d30c446e74cc05e573f])];
  mkcert 0x8e5080f370d454d0f85c00e3e7c5cae209c3 ([(0%nat, 0x8e5080f370d454d0f85c00e3e7c5cae209c3)], []) 2
    [P1 0x0 0x2; P0 0x0 0x4; P0 0x0 0x10; P0 0x0 0x100; P1 0x0 0x20000; P1 0x0 0x800000000; P1 0x0 0x800000000000000000; P0 0x0 0x400000000000000000000000000000000000; P0 0x1cc80566a378f27abb4390b2eb554382a013 0x2bfd1eaf2e96c8033b9db216bf6ead196687; P1 0x1b318562a8d96d5280188bee1b26dbaa3280 0x620d50598642623b0d11f622294b6770bee2; P0 0x438e55ff2157a5f5b2020a08f8f6be59d50f 0x33daa4e79c2643acfb3306bc6c125beb6e17; P1 0x25c991c7cc98d3ed990b336e30a8b71f3617 0x6064fe6ab5f3a287e7f2c4428e24d328899d; P0 0x414a94a95f4551a06760cf90acc0d4583675 0x301fbf4f3443e10aa5aa415ccf31daa3d22a; P0 0x1045f47f858a4f50e87f9b91c6343c0deb8d 0x818b8a9f6cf3c504296247b67c4a65a88d7d; P0 0x75ebe454d91b7aa4e283bdb773814bfc77fb 0x26f05704bdaa0948f1b31999af04e925b7d8; P0 0xaa772fa6777fadfbae981462ae7957efc7b 0x1e24fcf6459afc1708c8911375528f45e18f; P1 0xcc529dbb927bd0c7fac0f74c22711b4eb7c 0x3afadc06954be8ee8dea19d0f404ab16a04e; P0 0x18717a22cfa6249341dd300dd3c413b64f88 0x5350fdb2f07b99415635b3188e30330f3b2c; P0 0x30c6d01a988c0aa34fc79d2d7e043e1d0354 0x67a4c7df3552afe8d24dc22d9aff775d294; P0 0x4b7b166156f38d28e3e352db2de367798d 0x860a9218f2025eb812b9657fa43554ed9a29; P0 0x7e3fc275746d2832846c5abf36914a3dec42 0x63216f56c18c73eb428ed8fab6835402124b; P0 0x450ce9c263769cc34789f3f042e0c04db2a1 0x320abcb04ca561f84f2c30ee10628fe1e856; P0 0x1198a18689a41be421f6ed49d9e8ea845ac6 0x7fffd33ecdd8dd621bba12dca142a539e212; P0 0x731fc5190623f2cf458c0f5a6a5bdb2c799f 0x1b5b43ab65e6b2dcb59a9f2cfb8750228e27; P1 0xa846a4327b626ca5132012c9d3b6c42049b 0x3cc3570b3699da8f43d840951c05bb4d9ed1; P1 0x33e31ded6fa6a2ad651f3f76597deb84b533 0x8ac1676a3c7f158d9b8de20f23dd3f067c69; P1 0x10e922d82fa0111fc314fff90e8f62254e89f 0x3722f2c3659dd63dc6924be484d0898afe05; P1 0x2ab908b22993af4d35be18b7374e0616146f 0x1d26f233ef36019a059eaf3572425d5c60a5; P0 0x5f8bb9ad9d8913e63db2d6f3384c8376477 0x5ef19afc7c0a7456dd4f3c8df8b3714c74b4; P0 0x3f574219609895e2e4796f23a1427423f2c3 0x41bccba4feb95bdbe451ebb5b3877f02d907; P1 0x3cbb0412f39b1489098f057976bc15570b6e 0x8a12895500c380ac22b7156b63f6e8612998; P1 0x10be9e0eed99db238e3368f9140b923634779 0xc25781c306e4f315fa0b057ee5c12ef6255; P0 0x10963aca0408e4cffc6e16bf5f91a5bd37c 0x8405a36249024abc7358d06c7bbdaa1bcc5; P1 0xf4f2a97c83594cfd56001e40d1083a619c 0x3a7e35ecb56fd63aea3702c0e4da6859095e; P1 0x30152c21a830707068c91b8d24438aab1cd6 0x136dcddbaa3d3e7d077c0f6efb86d2210006; P1 0x54e0edca5b514739d919e7db0d6864e09a3 0x1d2051bf593e6b578b6a53da03168769ee1f; P0 0x5f604e62fff9998c75d9f8fec494f7824f8 0x2ef06b507a0f053125704c21cc96d02ac6d9; P0 0xf7b568e30eae2102389457fa89cbdc17467 0x126732acf91f6d0d736f21c0c79d19471a7c; P0 0x261382728c2508942333bf27f890abb820d 0x2ebb18966d261a4e17ca9110071815a4e729; P0 0xf583dc80f2cfcd41b62cc1536bd15c41d4b 0x830f012d0f7107868947037a881433a31170; P1 0xf162d0948255532f4b2ca5697c2da953292b 0x386e26f9ed6fd94ea9c805706dea7edf433f; P1 0x2cc053630ee28f58576138327af31b2548e3 0x68a51f1769d7176174b11a47baea077b9319; P0 0x4cf2433ebd06d71238ee307bae89bec9bccc 0x7921a2907dea5e90d6699ac276b6fd25bd0d; P1 0xce33e357db843f85d65c6e1522534791dae0 0x11a1120e8a54bac020736346e8a42830ccb2; P0 0x22f0e4e8db5a4fef296a0d1c09a94376bc2 0x6d9048c85cb7647bb9f116527a21f82744fe; P1 0xa8b30dd2bd57bc25315229d599d22b67333c 0x299c9f0fb469d6354796708c1b0a2c96b554; P0 0xc2ac1685b09858835dc7da2d49b232d405d 0x6d62bf838e9b66a6b032a1146de8480a97b9; P0 0x54137852cd44a4f1bb53f30b532256e80fbb 0x8861347791f88369dff5d58d49b377f83540; P0 0x82b1437a5077427c78e15055247d28e0b852 0x506126af79e1932d6a6ce0593af54108478a; P1 0x5acc084a0caa2f6e62fef18e652a0d58b3ed 0x21ab593fa3b9e02fef2db807b5501f1d4a41; P0 0x7f73343b8976e25ef89ee7679c5a75a23d9 0x3a1f509f70d38356ce1e337176ab21c5b536; P1 0x2f79a74acd3a8d95d1889ffaf71b60495431 0x762931688193db28b80b6cc4d0fbb9aff475; P0 0x621b4fba4de96f9e2ff580bbbae83ce82cc1 0x128d4a5636932ac9f5ca6492cd7e0965d76; P1 0x4d638c409a0420326d155238af9fb3780 0x63a46ccb73b8623a69a14e18fb70127f1e48; P0 0x45c3de7906a3c908dcbcaeafeb797ccc011f 0x6beb54c5e81711825113e9f4309d803802a3; P0 0x51d63b8a2b5fbb6d943870309f14ec6dc2e0 0x3d730e49224bce9f15185d0916876a21a329; P1 0x3510e89aa363fb40b43ca9ad5b0ddacb47d2 0x48f03e63515ceb12b811293bd894ef5c622c; P1 0x4ac3a6668d77323bd3f8693ce164de50e0bc 0x3f8399562ea90ab320dc8ba3e1fccd11a3ec; P0 0x1c588eb9756fa2b07d956410fdf626b3e439 0x354026f8d0f9ea31a22aae0c8cc1e3ef8925; P1 0x27d9a2de931da0243e1a9ca906ab038175fd 0x755b8a07d7b6b37ef3a0020870cdf10079fb; P0 0x60c6f8bdea3f818ebe6c164b439ea91c7b19 0xbd62bede99ffcbb5e6352b0be589907970e; P0 0xfc06ab1015ed2e1b8af9efba971b80683f 0x8b67dfd3cb8f327c87bc4428983e23cde5c7; P0 0x888e76d0805c60e77185ffd782c8bbc56a8b 0x31e54b65fba1e61c79ddfa58ed00841e95d0; P0 0x117e567024396e15cabab48c3a0aceb961fd 0x1a1bcefd23e2fcbfc111aba49cfad56a4049; P1 0x994630967c67d04abd592787036815eca9b 0x676496a20f34c2e5b073089d76882076291; P1 0x963b672efc8b723b9dfb5219a3abba571e 0x461da42d2fe50fd991eeb8904039ab464268; P1 0x4516eecf0b059a6e1c0a4d55b65b688260d2 0x65643e46f02eb2f05e292764c3384618728a; P1 0x9078eac69b89abd77b47161d92780b0127bb 0x855b51ee78c8f1e38e93617fb8993ce18e57; P1 0xf9ecf43cf3e5a99ff397b67f87b805f8ead0 0x82b2e82649e098ff9d828317806adfa916b2; P0 0x78080351c4a558214adf4cae975489d7afe0 0x73359b5fb20aa1502826d21a39d37ccd3c24; P0 0x5d444903a8388751fa4a424ab5c35bcb5101 0x51f58a2225729dcdaa40f99e9bede12f284d; P0 0x2f334db8bc63ee73297511e8069624088672 0x45bcc6dc8df750de326aa354a120c8c1bc53; P0 0x222c46f2f60096c0fa7e96166b61c894eeff 0x4447440c0108275fe3d0962eccaf6b8ffac; P1 0x418418b140283dd532dfb4ebb0fe1ca093 0x850e4baeebeca7d9dac530807624dbf6bc27; P0 0x7c664993445bc33cc11b8b9d0fbd8dd626b5 0x2fe10b8d787857f510a4cc2dfd6f4ff77512; P1 0x20375078ea9ffe235dd0b723b1bd0133ef9e 0x7019d4039a71039eb1a7be107c9b8112d72e; P1 0xb09a78ccbf1b708316bb6c350e27249f46cb 0x32105095fde104a3daa09f616e1c7aa688e7; P1 0x23391bd9bb454280e0eef092019bd02779d4 0xc2cee892379cf50cf9d286d91943b124066; P0 0x10aaa2baa378b2b76f1fa1d059b8b0cb22e 0x82b773faf52b8b9fd36911de4a5a2cffd19a; P0 0x78105d24d7fac6323c161e385f8ecf182f4e 0x5eb80373ad6f41c0c64f5dced73544770a3a; P0 0x3f0a8161db59b5a9f612705edef830c62e6c 0x6b2fd417498a5965fba8d643ef5700656ce0; P0 0x50bad34265c0eb0a7e378da1eda1a4f6ac22 0x8a48f3930e35eeb5ca7a119e4dc0f917741a; P0 0x865e9b4d3f0e88ea415c32ba4232a1c38315 0x8de971b4eabeeed0a1f0be96528e4340fca5; P0 0x8d82ad1849ae92d22be31f16048a04d1b964 0x15dcfda5a775dd9cef1d980c1d1a0c48872d; P0 0x35bd851d88936f2f431bf3d22f0664690e9 0x158bf06f15e678c0b833cfc5bcb55e25eb6e; P0 0x3431f3b18e3335a824013a8e33473bb3d09 0x30581c7989d6373681c42dee6ea6f5985469; P0 0x106c295786481b00d889c1e7a507d19b16f3 0x1f39782b5db7f4d8df2be6de4c09350e0cf8; P0 0x6d9ce6755051f2a400996944828ffaab5ff 0x6cd514cbe79ca8906f1d1ab004d17b3b9803; P1 0xa6747d67d44b7941b7bd6a460c94dfd06b35 0x6f271b2f42d721098e5e850e0f0c54fa99b3; P1 0xada0f064b1a8586d34b3e923bcaf50547821 0x2d2209fd2040e3bdea692fe9eccdcc143c2f; P1 0x1ca0641de6288ba91e53771a376f75d3809e 0x4190781f205e2facb9541a0600bf53df9ae8; P0 0x1e349c9d30ebd9d5f4056a7c88849220117a 0x369b64d1715b21e0d28226646ad78d2d5852; P0 0x14f3fc7f97c9e15ba09bf383a5fca29ecb55 0x62dbe492a3cfa6e236489bb7e3dd78279b85; P0 0x44ac2a577af1d9f3cdd0503b07e6540ae885 0xbc9ddd2df21f7d800db6b2adb5d31a88ca; P1 0x1f3f7759d0e6d2d24061c983afb5aa488 0x8ad2c0443bc208c324484b6d9b7de65a6330; P1 0x10ed5d8ebefc51224a2de515ad83b994a722d 0x6188232665cbee191e812678b6cd98e9c4b9; P1 0x85ae9eef7631d2f0a625527d2d4a121eb035 0x43f6eb507242ce2cd1e972875ac17d7f8603; P1 0x40ea4245ff016be51d04f1a98dcff49f4fc4 0x4ee06d978f45a1ca28493d46ad6c5412a1c6; P1 0x576efd01b60b1c40465571cb51157941533d 0x5c695b0b8295ae26702b1b17840e59bbdd1; P0 0x3c01d853d325fcd5b5838f92c9c2096662 0x3f1a6a9250e868be8474798202d6798dd5fb; P0 0x1bfaf9f81c8752aa805a7ff9a9dc355a2123 0x7bfeb9a35591a8b2e16a862ca13e01a22b70; P1 0xd811471f549d08e9013e601c4b7b651e0d6a 0x42d7e130a11544518bb6df3e6168324cb042; P1 0x3eca75f24a1efa6248c7d95129c1a2049c75 0x341ef6a81c61b04d526026ea4925ccc857e9; P1 0x262d65d35e43691884f4ec650cfddfdf7fae 0x717f8fd37f9576fce4865fef55493e290498; P1 0xb508a460ab95c99019fd54d41125d91eea8f 0x87a14adf97de4958f32b3c94e716d0808293; P1 0x10284e954a8615380f9f7b291f8a58ad1fbc6 0x39d2255544dfed57d3f6c414c088ca9a8300; P0 0x177df510d7132a7af890bb86dffd9bddbaf5 0x765e349e8a732c83239ee3f35a87fb46fa61; P0 0x62736b4bae34eebb5f0be8e43f92248536d6 0x838fd9f11a201554ad0e730451ce529b4dbf; P0 0x799f2cd99a2a8616f2cd0294c0b15cf839ba 0x4969b4bbd7ce5f4e793562b5a3395396f1d3; P1 0x4bbd7723aa8540f596943b9d0bba73301561 0x83d5552247be91ca4eaab5d21e815b6335ef; P0 0x7a1fc556da1ed719762159136fc3206ab8f7 0x4d8ea1656405c5905d8d80bd04a60a5d41fc; P1 0x54885d9959093e57de38f8acc18d881eb9a3 0x1f8cbfa81ac1b9e9cda77399fa40205fbdf7; P1 0xdfd14ac27e5b7f7645bc1199d374633aa37 0x3c070d613c9c8d32ff86641de7c79facb1bd; P1 0x32a37ecbe72be8e0c4428170c814bebab405 0x732826462b7515d2a9450005e60277c87e43; P0 0x5d2e80633bffaab51835b9ae6d0a5c5e565f 0x39432acf385c2727849e7c2cc7c5ee32e42c; P0 0x170a5643ece29443f2bbd5dfaa8be2bfae3b 0x7f3e98629517e6af6e28fd01ad77e9569d9f; P1 0xe38a6a99581fc073a6aa184f949968a8a703 0x6d1fa52b9266cbb1b8db4df82793f6c47f39; P0 0x53ac70ba9a3b35e8805ac757052ee61d655b 0x114585742e72a02dcce80484a80601373360; P1 0x4313593bdb154c741845483cf40047f3835 0x55209ccc3b2ec359ffb164ae393d64731aa1; P0 0x32eb8e743ebf5efed5bb4b18d750e8c19566 0x3ec73caebcc5de578ea0fe2f6c323da9b68f; P1 0x3762cdc22ba637aefd4af3ea441f1690bde1 0x785b3dde7cd4dde2ecb73d0e5083f06bbc5f; P1 0xcb9298ae4042d55c81bb0542d5172fc3e328 0x2e07a67bcef6ba4c4179969aec3ae588e70a; P1 0x1dc68e8c71b5f85b6f9b9dede23af516b853 0x64d8c473d7f02cf8f3b60b34046aa36c68f; P0 0x477641095f1a18f65da21f119a5cf94509 0x2a0f6be96d27784068c2395f0853a9169d06; P0 0xc6e40389c5a337afe458ffd3c44c1f8b0fc 0x8a433a689454740f8d860e50ace4b438b030; P0 0x86537c2b6f8e2ea0d5f050ed070fa693b15b 0x505a9dd9feaccef33db3c72afbae9a2fbdaf; P1 0x5abd459c0b6f1adb367da598c0dda4081231 0x2b3a01198d1be8b8218c78f9e23b899026ef; P0 0xd212fd308b8bfa8361ec8472cae542e01b8 0x2a29e11b1615f15ea57323d166b12f410bf9; P0 0xc7de8b2dd05887176cd256370b0812c2a61 0xc9a49fed73ea37d72cb4816dc2e9d3da74e; P0 0x11db46d6fe74a2082966ec43ea5787d9c14 0x7a6a9a60daa0fa5e705de0a0b16010b04488; P0 0x694ceb2fa742641e0e8075cdd8ae1bc29d60 0x3cd438bdb47ebb9f1869c522ff79a1d24820; P0 0x19fffb60c653950b963cdf5a3a596cd6e857 0x8926808723a14e9e7d82a07a8dc07025fabb; P1 0x10858f125a9fce072cce0b1bbe8fe1cf5f3d7 0x32d4a5c08cb55bfa0949549afd7b80863d6d; P0 0x1227bec53e17a3162adc9db5a5ce49e13cc3 0x2b92df9613be187cf9ae267c5fba8fefce0; P0 0xd5763c778d98d0b32acf72331981bab5a 0x462cad4b72b74ff57cbba7028c1ca6bc1472; P1 0x4534938d493c621e1e66cd09fbdca88e673b 0x80dd5128ff98ab9efe079773c7afabf45097; P1 0xe95f152126348fc8d6268fd2682c339c3cd5 0x37b7343a730d26f13061674ab838523d9ee3; P1 0x2b9ffe6d5d6e8542392fb3acdc5d92d415c7 0x3a633d6228eccfc8460460d446df819764fd; P0 0x17f46f791ce0c788081fb901e1956cbb75cc 0x24188f3620ae7ba4c66f831a8203e445bba5; P0 0x927bac8eb51eda34881866dff62463165b1 0x7c62e79837378aedeeceeca45cb8f406c986; P0 0x6cb77b6f956a70848bd4565a3351715476c5 0x19826900f7d07e56bb669537220ee97e4d15; P0 0x4928e222e1c9f0558c4b830c2fc3a4333d3 0x2dd9196238fa20fe784fe21008283598bf00; P1 0x1d8a733cf8d2f6b6db3996bc0a0419162eea 0x8e5080f370d454d0f85c00e3e7c5cae209c2; P0 0x8e5080f370d454d0f85c00e3e7c5cae209c1 0x1]
    [(0x4be6ab2c80713e4d5142229baecfe3abc0f, 0x40000000, [P1 0x0 0x2; P1 0x0 0x8; P1 0x0 0x80; P1 0x0 0x8000; P0 0x0 0x40000000])];
  mkcert 0x23108c4e1b4108ec0ae7f9ac9f118677a6c53e44fd12fcacc07b805145240aae82349d3ce0e376778bd1 ([(0%nat, 0x23108c4e1b4108ec0ae7f9ac9f118677a6c53e44fd12fcacc07b805145240aae82349d3ce0e376778bd1)], []) 2
    [P1 0x0 0x2; P0 0x0 0x4; P0 0x0 0x10; P0 0x0 0x100; P1 0x0 0x20000; P1 0x0 0x800000000; P0 0x0 0x400000000000000000; P0 0x0 0x100000000000000000000000000000000000; P0 0x0 0x10000000000000000000000000000000000000000000000000000000000000000000000; P1 0xe9a02b7f54b3c00000000000000000000000000000000000000000000 0x200000001fffffffffffffffe0000000400000000000000000000000000000000000000000000; P0 0x1d34057024fe82dff260f56fb02e6d20653b1ae049fd05bfc78de56f75c66240e7aa3b 0x690703f056e26a2d527405042cfd648d10505f0e8aae056967ac3cb0d71e38dc56235572a12e602fcd5; P0 0x13a955cb63607b66be15b425b32de4042307f67f41e15bbb703ee4125aefd10d074ab77273b8ff803e1 0x13d309869da0f3629a4674d010e134775534dfcda32c26ea9bc6fea8b6115a5937d83b23e2e8f1dab388; P0 0xb354133b21b5c9d7a940b37825fcd444b4aa05c19f8822a98f60767ffcbc9f0af93e762c526706c8dc6 0x80d2ca965a4cea9325a611db1be87fc05324fd0e4548b8c8faf882fe6efc2900cef2f8f18e6ce3379a; P0 0x1d9483c5563373f418a779c87080cac366b4424474a8ab625f1c1ad7f3894fb64d97aecabac14e8f5 0x72119a612612675f47ded7c88770d80b034a2d48250b8840fa3adcfe92a5991ca787daa227e87bd519f; P1 0x2e6276f235da2551e080b51fa6231cf59e2f1544ec25409a636025eb5365eea32b54a8bd86d8ee6715d 0xf99bd98eb04f68720c7a7df97adc05105cdd6f6f1c15b083d09619c5858f8af1ebfe090e05747acf595; P0 0x6f0d929a2cf8c623aab0bf8fc01d3ffc116bee306381e6e23bd650348f112807b1132202856d334ff79 0x1769e1eeacef060a4a8f835293db07b928210ac28c48f8930285e92916be5b55879a9c41f919d59443f0; P0 0xfa246cd3eece7d8c5380ff44e5bf15e75e4dfb2f07a73079380721e8ec33cf59197cd8bb173cb23da0e 0xc63f222ba5ba89869bf93ad12b366ef72c9fba37aff5683df4e93a321a0edfb64421f73e65fdf5ae192; P0 0x460d61424edebaaf3dd66097fa8bb114c4c5039dc239fc5871e22f53a3ec21d7786f3b8105ddd5c0f51 0xa9b34a7b8e8920673d8018de86b9faa5261de948d1ad027c80827b34701bc143ed9f6fa1a1b94497b23; P1 0x66a9410f5816b43ad35e529a0b1575fea88822a9c7984915282c75b5a0a418b41813484948ee44e3154 0x14341f10eb769e5e251000444b05ecb8604a7a42b1daeb2ac9ac73ad61fb3acd46fae4c9fa835bb66bfe; P1 0x17482969590943ec65a0df019cb65221184e2247cb03383dc80084e2478e77162da06060b78dc4fe3f09 0xc2b93fe210b9919c49a638b2e7edc54e489c6d3fa9beb95acc42f012f7bc0d239e74ca244844a7246af; P0 0x4395aa4fa44e851e90891417c501f7b6488522fe67252b69d1047bdcc550399e24ee474d2bee40f0add 0xffc72943a56f784d96b084b67224a1c3885c9692f77532ffdf8419e221abeec7589913b78b4ed774e34; P0 0x749c3c80834bb91d79c4bdbc80bd9f913fcf2eed56eb39f1c143bc9cb2349f8c829727ccf9fd4883065 0x1653eb44346a1dbbcb98529445734a91970d70b32ddecfe2057c058f486e3581e23545a9b27791d2611b; P0 0xe37ad2855f7886e82b6db950aaada40a93b0e14e8210861a295689d7e48f12960b9a9683b2478ea4f66 0x2afb251995a6ad34742ccf65643cf8af51db58f083b24ca5165088060b768db6d2e9c4ade9a2e504493; P1 0x695e8e4616944b82d5c624e3b3f5423ea0d8350d7acfc4d21f8e5404a9f67e4f05e1431a89f27d28de 0x79c8647f1aeae7ea3c2098d75a7175c17ed1210c4fac886da1ca35ff4686d5b2d7503e0563043ebf194; P0 0x1a6f6885ea7367c595429486a6458a7fcfda5d5375c266b0ceaf5579f9f98889b4e1c153312618e2eef 0x22c6aba4586f5c9fba64df91d401784d59cd6b5b24b7a2aa8437c8f51a20a0057da281a13c80e06e771; P0 0x227d66a19e9f5ce13b2ae6a6d838ec15d1259ee02ac27507b287909a3e5a383a7efecf7f5fbec870ae 0x26c17eac89e78cf75e3bbf5d318e8621c0733fb69358eb5087175407271095fe1238ebef0e7dad4a7d3; P1 0x55abd445ee9b3e7b9d5193377d5932dc98bff9181ddcb444588393003c1f239e8248a4786c3256a749 0x6fd6038e235ff8d1918be69359b414fc114bf14300a1f1d0a2ac8a422ef47f5fc2d40f01dbef077ba39; P1 0x2c9627b4a88b3694a099187cacdb510756cd27ef5f44ba3f97a15e895416449364d0fe4f65205a1acc4 0x18c8e2d2567de6bff20d30e23d5e97491d01aba4f56993d976c0a0b4978f39d1b3c7b779ff00801495e; P1 0x23098044799dca2e331c6ed493418211aea5625cf86473bcb7ed8d6634e71beabd56d2a4e19d30a14f 0xdbd2d401c6969ab23ec787bf757d06666b8cc5d545552baed02d60c413d852fd0eb34c51021ed82e689; P0 0x562183744acfcd6aa31935876a112026988a46ddaf4f69ce6a8ca1b457f2cb8594e7638faf9747584d0 0x1252a29ee72b16d3f3f01eb685dfff7ee730cb75c095807a0ef78df0df01e04e5611082dc6ee1d001781; P0 0x9930f63a1ed0e9c84340a8abb0d0955e7ebf5ced7fc920ce062ef432ecd120956572dd274933e4c7b7a 0xfa0230e56e4e16dfdc87307e42f2687eaaed39d36e68388db27c15021d8b4e04fd8bd6fb28036f66267; P0 0x6f68b5e06faab372779e484024d3e788ea94617b4dbe994e9f4b5247b010e30a3740d530d9bdc8549fc 0x8059f320cdc4881c920100d1b9447271d4e4e176ae9b8270c7a5e25dc7e1ec3d598dc10b825c3a5cab5; P0 0x1d5d1f23ddc8ace8f5b4b2e588f3144ed7d236b857a39707dd1553bbdefa5c1e7e9cac1c26a09ea0656 0x18941694dbde4e6ea7fc6bc66c8bb0f45451a7416bc5918b5147d7b0573d45f6cf551ea42195ec5a45c3; P1 0x2274d89314410b2ac25d72b0dbe9c73b5e9bee18f16554477068564e53328123717f7ea6e695c462a9c9 0x6471097f514b33bb14ccdefe957e17f5783d324c5f35b06e4167c0c6b2df4760509e87e53a3d711a4f9; P1 0x23f6c5b9374a82d79a9dc29116a398025dcf286204770bc6370b1dd70a1b740912b55082bc85f9d4438 0x97b1018862916ed626df3e47fdf55450843deb9066a319297b8cc53548c3f9fb07a2b8b671a294cdaaa; P0 0x2903991dcdac21fe215109bdc865b6a27a985c8cad79deb6df6af8e0d558b46fc797ca36f259ab10acd 0x19fcfa5f3ee4dd5989d121977d7927205252dca0dbe17b5b182067cc4e6f534af355fecb4be61503d887; P1 0x2685b9283fbeb9144c3d095060b61a5de7e8bbbe6ca2db6a523dd7cb796ffc3631e985ef0c3bad612917 0xb6ec7efa2f5dc3672ed0d1ac9f429a8e8692eeb63d689d0f033fc72b0790dac03a4cc4247f5df49259b; P1 0x7748a0a55e9b40d205596e037e65da6e0a924441bcb18b72a6975a0105c7e7dd613e4496b5662775042 0x214dcc3496e6341117410b5512c77d9e1d81c6cef324c832a688866823a06f8c4a5753d3ba391d2dfbd0; P0 0x1fa1ae6e2fb3404d351fd120e47eecbff16f48b11d7a2382a9141e4c6229a2b136f3ffdd0881a4336870 0x15e76831962c5a342460db75f635d10406b3157bfbefff8a50af2a3b246f17de1e54705ade977b147590; P1 0x1b5d975cc5f2c2320e558bb91fab0eb7822d2bf5ca7ded094263bc2532dc15879c8907cc3cd4c8c88f63 0x214ecbad928360bad59a778d94af0b6aff0d0a0282c36e6370725eebba6fd4c74934ad2d761dce5d112d; P0 0x1fa393bf4dbeeab022499045d4e8c0b0c45d95ff6f0c37d8a2e8b7d04beda874618e1d3ade4f043766cc 0x14a9a937d96eead1f418aa38f835c445248315c89c66d55629bb366f2dd7c7003bfa0dc3bdd890f9515d; P0 0xc2d117d4a32390b095b6c471bbb8cda5d2e79970871d2a6b2fa95eeeb966035336093c0d80c72d17583 0x1807b5dbb63cb739671487471d27e02702c1c4dd51e36ed280e61cf79a35e3ed446c05ed2a158711ead6; P0 0x1077d2c4e6b42e00335bd24d7d2ed7772b5d0cc16ae5f1d0341753b668d2a4f0520809ebe38d7db2b749 0x413a955f504272b35a6cc6c53c3e5df93c6b83d4b750f59b91c521b8a5c999811fbc0b1d7fd3a7ca54b; P0 0x795777257c96615eccdf47ebc027171e0da227cebcca8671936bf66170eb961d2237e0ae4037b4344a 0x173e7375931894f9203500578d14d3838ee276df1d14b40f95d7e4e21807a02ae20b2aa034abca78e58f; P0 0xf687c63c36d041bc78e920cb44e67502bdbfad42b7297acbd2a1bae103dd13cf57c4a3d12c23992b907 0x3cd4da4b8382080c9ae263f89887d44b9b9b8c379278a7c153471ee0c0cd7aa7491fe256ce1c8684a2a; P1 0xd310bd503795ffe5c79c36eea9244987eb85ca8794488a25d30dc964d5953417c3beb823708ac28084 0x17b8048e080163c0f3319d2ceb7b94309413d24c2b758ad10df0a34167e228326b85ff253178754a0604; P0 0x100b4d7d700ecc65e3a61ec6b7e2300d62a1354a7224e8bb01e5ec074107d8c08b538ddbb33b78d7aabd 0x12b161803c5020c47241384754cdc876e8465b2b6b408367ae22be9f634ce0d0c40497a2f1f1e4d22cc3; P0 0x9f713d885388254dd3317c017f5b02c8bd08c85efd6906fe7658ee216c25c7738ae9d13be41bfc99f0d 0xa41b0274ee17ffc5c666b41e2566aa2c0ee40cc25f39a53f1c255ec78e1f27aec0599eff40ed5bdb3ec; P0 0x300071a7fc0a972858fb3ef0d618655c8e483b69c4058d6c281d6689b99e6e86bb56f9ad7d400d9a14d 0xe6bfed8c4e38c5d3052c200d6679f4210627df49945dc2580e720a204ad571c2b4f4b225a748bdf62b3; P0 0x5ee7e5c2de9576e999c8e376764d641f3471e418fae1449771eecb03b147e9fe2625bed4cb33be174cb 0x69406fc08f79a03b829fb8d6658afed323e1a69c108819d3e5f59e481c84b2bf425d1d3c4d8520ff66e; P1 0x277db6c03d4b8069ed2c9187cb689b0aef2017414f7503a4e109375515c14d5c11c764ad867207296c8 0x11b5bcd25ca935210a1594008d92660df0412cee0fc998a628236341bd2cf8d7a31257eac40e8fd37d40; P0 0x8f1d4b11d6cb8ef579a08c7431b18c958eb8d51e275c3f93db6c629eb7ba8c0f7bba053a34dcf5cc862 0x170a07ae3dda9f5dcaff84d79c0988fff803e2f107b0c042211386a414ff086c077528727e2337acc1fe; P0 0xf234b1f6a65177375a6d55201a70ebe8834d2c91fffccefe453494aead171e7143c0eb6d357e49a1e6d 0x265ac74662819b302f04f9d5eb3b856a4fda8e581fc5ec61dfd8d548f61d7ba4affe774d731b14df207; P0 0x29f40814e4fd66550e31060eebee8d99eedbcae43cbbbbdef8574787926244ee6cebd2f73a0664db3b 0x21fbc1813cf73fd49b8dcc56a4e043d8563cd90bf9b6e5c494789f3e9d0a646392b8050975ff153a3806; P1 0x41deff46cb9c3631390b2d6b9208b5b184fdbf9d348cc6105323e31fe3213791f79170a897a38183cec0 0xa458d4d9e9b0d5a001e1f727d75dee38606e5ede8819dc5261084922b48957337c99e498723ecd73588; P1 0x60494627d2f945b1c794d4d3efff0371d05f0f0d7812ac4fa07e452f1e81b8f72da3bf2fd9ff9c71c7c 0xb8cf277264bd0b83feab0e6c9fb6b2ef62c47dbdc3e6ec2514e994022cc3ad1d91d0ed694bdfd999b44; P1 0x79c1596f0b112df40c44c85b33fa0c3d6f03457c7f832f65af35b8c62398d101e7bafcd7ab667aac849 0x53018f79e7f8e6247aea67279b1384be2ed0302a18406ea75e095fbe364d18e4433d9bd1c4a9dcaad87; P0 0xc47e9cd062c8b554299b0acfd3866f3226de2a66c1b326eefa0ffcf9bfd3a87f6a4027cbdababfef21 0xe824b0bee8e5ed6982da2e96ab464de3507d6b65327f4f34a15bc5717e26b8104c3a4a1b0acd8cb9840; P1 0xc01c80f34f7c97f39c4db180099978dfebfccd90d3c7865343c7751835f1686e911e300f64975cb03e6 0xb1ed3e5399813e0b65e064ec9540b9a24238d972c602201b7bec157b819af0fe42cb5bf92a266520f3a; P1 0x70db070d8f2d0d3919638bc03711155ee563503dd9ac04e4cf36d851f25c0a11a38efc8d04a46c0acc9 0x935e9e87f0dda18c2d044b91d75359bb710d325b832bfc8d080be790fa104e6dc8a0a02ad319b927f2f; P0 0x26b5d5d3b041ff48c7f26f117878ef769bdc549b5f02084b8d6b13582ac83e9225a4bbd0b2f39bc9268 0x2207fdfad05ad76abd36f4a564596c9d073f189b99c87c4b3b498435072879fe7965d8969592b601abb9; P0 0x21073bad985afcd55b3ae6a67e88b4472de77105cfdfaf81b087ce686700509e1b89440488d1f7f8cc3d 0x1b833d1d11b0f886970edc096fd4a1e4d85e0cfb485511aff57b425ffe9a4548ac603e7c77403f43cee4; P0 0x1596500e3571180ed8667ed4c6ed6230fa9bb961c6b78cabcafa3f91097b1f30a2a8fd03ed7672dfa803 0xe1e29a8f31ada3a6a51e50ed2da5152cae05ffc9487074e189061f9d63d06158c9b249295a57654ef9d; P0 0x5af24ed503e326930ad430c38bb4064d1f2e48c05ac7e8072307c5750b89c489a00ba0912eedd5c2955 0x10bd33c300bfc7596c818e19ebf04b811abcc68d4807c88458f61bc847307d5c38d1a29f7cfdb41ca0e4; P0 0x7fda8bf341867b019fac81599534489c2672111ece9222aff5899d8ef7a03f11489f4b3476a52f69f54 0x110415e08e7d541832da367b6e62ce7e244d7ce54f7146e5b64769aa07ddcae40c2f1bcc19b1cb171b7c; P0 0x841e521ed2f52446918ad46801c434051bc4a34ce4530e8d340e6cd8f462e14a8d24a2185c7b1a0e475 0x19c2b8970ba52eed5b0ae5683a4c03b89873bb2533b0ef2924f76ec155a01485130a655d8cd31a72598b; P1 0x25d9c54648beeb9fbbe444f097b93a1bddb52e83d156db9b4b0ad6e1aa21cf0e1f0446e1e8c39d2fe69b 0x17c54f6f80d7dca6b7b5e91e8fd8932316100b8b176cfaef1dca8b9cca3ecc4a3dcb8889a1bf3bdd7567; P0 0x101d4e28abbf0aab0aff8ff39ceb2522fd65ddcc925920640df0f254ff1c7b73b816d3384392868e66e5 0x41a0c7913369c61c8a3711ca727bc1b18d6edc57fbe22b2576b10ca1ffac118c1fe9ea30b05d519f77c; P1 0xf5a9b26b7defa20541f8a51c2aeae7910eaf63a9ebda5b6ab5e7e0b6591f1d48db009fa142ac87ed32 0xc4d942c31f6b07f9ad8b88826a69d4c4540e80d55dd40d1c496c687285e001607e4e0f74da643f03c4e; P0 0x45115b3e842ec452600ef34a008b05712e37ea3c647f5245692eed44f76bcfec2d25ae479e3732a6bb4 0xb7f72f806399ea6e79663e27af4dcab36aa95bbd8c34db72a4f9102bd0f869f696aeecfa8f7ddabfdd0; P1 0x78a56e87ff72f4b34b69fe5e171fe3e58fe7f57a76a6c4d97f462215adbdfd0d48a30ecc1fda106fa70 0x1edaa6afbf63d7b1a81689bfea199d3362ef77ca8a7d25365db3824b63787fd394e4105e24cf144c4c90; P1 0x364c5fd918bf8a0d27cfce4734291e4c73ae2888563773196cd31b1095355d22ccfa6a64356ef04a0ba6 0x177d0db793c8f3c18d06bdc1bf07dc453ecd608b0a428fa3ce4e510a44b4c282a16065a86321c9dafd7a; P1 0x1f77d6ce4fb8f2c5bb9ed82bd50d5ea66979888f739ca6ef8efde68734e4a545d8f2b4e81775e7fc30fa 0x843e676ada234f47190f8f7847300d7e07e72e9662ec46f2644624e645617b1017ed88f36f031d3022e; P0 0x1f2bf71ba52137600c14ed5bb02eedfa3aa5084de6ac59934955352230973647f22469afb28071c7e1e 0x214f4b20db5e758666565f44d74276bfba935977c77611872318c6db08469ed8131e5a37a67d79297fc6; P0 0x1fa485e23aba139a06ac4ebcffabfd1b9a3c48ab3227b317489643a3bcf439fc168d241d9c6e450658e9 0xc5c5f152a13beb1d9deb95243abd434f79e3467f3ea1ab693c9af98618102c7697be36f81d4d26df3eb; P1 0x8b6fab36d5607b2f38e4bce438622d6b1d679565fea6e87001ef294f0eaeeb3747e3c31550a98618dcc 0xf696df6c525921136181946bff7926c779a5f0ba5f2783ad484f7231f28ab9ca59f6b62964203956be6; P1 0xd8c3d992552ac6386f83397023446f2e9244a93a595748415930228c0b92e8d6e9bc04910b1a6fba40a 0xc9ed1bf5f8725f9cf5167c3b94c0141fdb7f8f6b5c6582bc5c440e3c600e846249384fd1c848443cb1e; P1 0x915a8a010ad544c2fccaef9832728157c33a1d9da691dd066f1a9f69beefea2725642ec5f062419847d 0x218d5652eddfc97d39fcdd816155e1e47f8883e26afe899fecd257432a8f7c643acbc809b5533dd925fb; P1 0x4035a872e364afa54ddf27cb5655a8649354295c4fb5ecede1bcb741fe7366c484b5884bd273e192cbde 0x5e8827713d9fa525453f31c7cff05dd477edeed78253364d71dcb4600861767964c159d3ef518950df4; P1 0x1fdb3e3f1ba3b1c49c05ffa96d9ff38b0e0cec30172e0643d43ad14f4a5d7c1cb58c0505391dd2ea6c6 0x20f30bb0b618d48887687017552bb7ac6f94342f1fd932e8b7edac7c2bd94d38b20fa4fd7c8f4be7b77a; P1 0x3dec6af7c8d2d2e8d2b132831561ed8f005e8cf9be1d6fd8f26b13125f15ff302c2a370d27b524ed1d22 0x13206749373bb515c31ae8317f996e16aa5de62113c1ea2fc67482af621866a7d130b848b25820230d86; P1 0x14dda523253909bff31d78d91132b4328c918f091c2c108a9ae21a6367652fbbb917d55e2f2074b1b3b8 0xb286e144f5ce0094d2032823c7adac5666deb204e1555f22260eb28b0e5a099e4ed0b523c274a852310; P1 0x719e40f3837c8b0fc0becd9e8a4d51dff86bef4710483629800b1b91795176a44dd126f9d6fa11caef1 0x144ea9871c0645cba44009bb2ddda4debc626ace99b9e752bc389403532e4e0643ea0422977ce36c143f; P0 0xbc2be7b542f2fba3cb4a3d005fa9842983ae296a74f1740bdb6d0219a6e70b9f18958af6218f2aedb27 0x1ba79194cb22d9dc0e8ab68b4aefe5a5ce6e5c7c4609ab8d1501d23980d0a00942ecbf804a8ce5e1cfaa; P0 0x15cf787c5bece2136f2c95982245e2914df1d55a4afe8c84f24bc249f13ac93215ea08e3488046c37e65 0x162c4a302603e3678d4ce9bae173b839bd3751490a7c5714ff015e0beae5d4594d1842aee2cd9b1a556f; P1 0x1c0ac3ea5150bb72cf11a4e2cbb39bfe70788b4df0e81e00ef7d84bece4cb0b07b55466399f9a792314c 0xcd282385caec00639e840f65ee56c4da11a2ae7e48766989e6a9f92fb2455fd9f4069f9aaffa0ab4936; P1 0x960ab6d318283dc915388e77599aff4630db79df3fcbb75c6a682cc06ebaf5c4f0163a8f5401cd062cf 0x9553cbb43a84dd1e15b3f040c6fef8026d51de4ecf9388ea35d1aac77625513b96eb5c40671c2279ec9; P0 0x27bee085d9cb4f305b0ece8c93bdaf758b72f6c7043ccbbd645abae231a1e92345a5c471a22f4189f50 0x5f0e75f3b976ed4423e1ec3720c62985173a48efb43a912786f104b3df677de4a4f9b784658d2f03981; P1 0x203603c4bcfc26b98657f410d684cadd3323f2cf16ae2bfaea85bffacd86b418c1a6d02f683621a0700 0x22cdcb07b784fc317b85199cb62de38c564669ff3b69e0eae7636374bad6aa5123c639eec30c8b88af02; P0 0x228b88d75c73233e232237a20a19a35163877450e369018925a1128f49dcecbdb5b5924fd7ab1edbd338 0x121354f8d1c47580225d5f2d4ae0995560d92a7184a27c7b407a2774998d45b994fc6a48388e0994e34c; P1 0x12a2b2bb3532c00bbfea567ede0476a389116e8ceb445060a14201513c5cfd683226ec0530ce072e23c4 0x1976f96e0854975cc978f6ebb15a405ebb4f9941493c9ef70c0a9fe3e3a9c9467ed6a37be5f1012d1e1c; P1 0x24fc74cdac923bf97e5a2bd7edf20243d9ca29519a887c94020c9ad4cd43d61130c9dc6ca0f14c5b877e 0x216b704d62b2b5182a8b146c9fe8fe0dc72c08a6373b37f3c91c86777072ee7bbcec3ec5d8a089e81e42; P0 0x1fda159e9fa0c10ae101b07cac90c155e44a642fc24f7cd6e7529c6927bd3ad4b183810859c95463a273 0x1127d6ddfb0cc798e09603430a13f8c54b773ebacdfc2f1d65a5399976d355947e96e29403fefb327821; P0 0x864bd01612b19f93fcf861eb4f926c0f8780e13aa0ed7117a871c62b4153530785298ca472d22e7a640 0x2040f21b15c6cc7a81587389c925b69c507dd03219324462d95b51f98d39e1a051f075df2022cd1f7a01; P1 0x3b560f68a3d655824d041a6fb6c999b08a1f63e5d600f0be7e50ae0af5d9a12997deb9c118a910121c2f 0x8b4729cbd81442d0b9c52fc479b20559a9fff2efe14a302f1f3a8b7b4dc327af39e84284e3b08d660a3; P0 0x229378e9d2b2df52ebc20ff81896bcf93501f0c4f5eb34b5adbed7154b849da199e85b79d3244185c55 0xa2b5550f70c85a29a4d1bfa469a7fc5130ead3e3adff62ff670f840a93e371aa0436e9f366df9761f64; P0 0x2f3016f47f63faa259d67669be071c2c3e508aaed8db5cbc98c3bbe9662264df8d45a433b83bb3c098f 0x69c81b71d5cbe2c5abb98d9e117571f934d81c6b498f3b6630e65d9b4936139b4db11487e66ab5bec51; P1 0x27e3c771f82e159437cc7781e194099a181309e8399186b992f3c9876e0a86a432b79b6b5668f3dcee2 0x1f0208c32efc68695d18d6a3296d5be11fdeebcfa22035fa5e7294110d3481cb0265fd1fe8854b9e46c0; P1 0x36d75606edefb784bba140c94b492ce9bbda7f4a6337f4a0c19b39ff7cc7985f5bec1af3fcbf4f7a722f 0xc86ac9558e1e0fb796f8c015443998a2e6339598a7d6c7a42be95418b77720d2c82fc914b0eb44b62a1; P1 0x8f30708a5cf6f3a4d001c24ef575f810b4396080051440b717c59af897ada04e9a32c5ac58587fea20b 0x14266f443e06662d3988dfb59a73b735d4d2ccf17e124ae41e40a58da3f2123440eb2f86c85802b00e87; P1 0x1728a8cc30f8a9cf8eef6106a2e9b65a325d8e6650b9a6f40d3a5ddc38ef4bf26d78d7005e83208a731c 0x1e4ce81cc1deacbf9e22bc13a81d4de1768fd3715b32a00389f4c498b6bb0489c14c2d916d450559e886; P1 0x345df4931baf3c5993a80b0fba321e544b1a6d13135d97747a0cbf474bc5422e55b7f082dc133d0a02e9 0x1b2ed0065d497409b9bc63ecb08050a21b63345c14cae3936aef64be1ce08912f1b0e3539e5673ae690f; P0 0x15129eeba436cf86c4981a8e4dd317a24886f42da0d37d37cd7b9a65f3216fe7b3368b1c305231586674 0x2303229825445b85e86f6a9b3f639b4a83da0157bd710c12017fcadcbf2a334cff697571273814c8ae2d; P0 0x22f5be03a5faa66380e077ef4a48f5439261b6de37751cbe9a540f7297f26bc4c0c4b4696731c154b3e0 0x1703df7ebd357d0ff41f9bad265ae6e251ae14ac4615930d267354c01231d02b3ad7a3f535b6f3dfba09; P0 0xf1b34f1345fa0c42d059b54daa560a81d89107f50b8f31a6c456745b60a1ad7795e891d21f83d1e289d 0x70276ac302c889da7aecdbfa5fe1ae368dbc8a5f86c6c7c6ea354cf50fb527bceaf7cd285b13437ad24; P1 0x2cd7279794caa81bab1ce844757e3eb6df60c0c8d8cf7b9c1e0cfc82a0eee97d27045b0232b87083dff 0x27cde49bdc78e5a1ca35863b7e67bc8dd12bd9b09bbd122e625285994ee110352564285f914e23647f1; P0 0x2d2f3e65a2d93dc694076646e64cc001cb4e674e1619539ca6040140ffa6d09fe3a4a92f7ad108f3e8 0x149a514e38834de0b02921f1eb76a732dda367990b77484a11bef247d96beb2153c620a7ed1d1c4d7879; P0 0xc1b02f4fafd2f7433d178af3b0c2e18bccd5bcc1a06f06c20e9d3c286b584ff74b4052c020781c29ca0 0x1faad9b9951add062522035b4338733fda0f8e0293bff35117a74047f52524e31d8b982abc18002eea91; P0 0x1c9969fcfa244af811856c46a659521859800d98cb7a9261ea2edf9c664f65076aa5deea2650cdabedf8 0x12c50f6db6cab00935d1d8e3001dcd86f0c8c9c220ab377792b2b31a2304392a54bd3cc3f6a0f12e76a9; P1 0x1418349eb532b8de68a6eddceb8bb3f94154de8d7591fcbe650e89d52ca141f33cad59ec10ac0860ee37 0x1d047add68632e2ebe219553286f05f7a8996b453e5167a58799bf084a3b1592bdaadcbc53918d6d1f3b; P1 0x3006c61b40c3f77b819ede10c97c8a7357e979a56708737fc282598defb540f8f047723612b0ab46125f 0x214b906b73f0417276eece49b6015865f3bce12c29f23ed68cc8a21a4b7bd483ecf19f7787feffc31aa3; P0 0x1f9d706cc35a5c5b38a7c02065fc0a29b4e8294f875d130e7e786d72054ce6b16ede2fe211f0b2e8ae7e 0x1479f92f5a46fd115fefd6c14921c0c8414db65b63db4f49157ae6d826e43c148f41011f4e3eb9d0a4eb; P0 0xbf51e8d241584244c6a9788866adf2b48bb59c46003cd01a114d46971570c2d9a9c90c345cdcb6edfdc 0xdcf017aa639de6b4a8a88bb36314198be2377a64017aba9846edb041d03ffd4d4f023d5e7f64dc8b91d; P0 0x57019fa96ec2d4bedb738cd56cd8c0668e424cc0b5ee75845240fd49b7ac248fcc9663e8c9198334a24 0x1af9ba4d446093ffaf3c89f7b66179e677484eae97c0cdc13bde7eb95cf5db3e45789db704080b4dd9e5; P0 0x14c0a1326345c5599887226b81db42527cc297f5480f2c9db2b6d841015b70764120bd17995a2377362a 0xedabf40f5025d6210567bce86734f30a45818ff1f6d71606c7efc25161d6a424c274fd9343e42f6008f; P1 0xc95ecf9b9c317f795aab8075c0c6ee638e18bf0b135e09396b91263771c807e2318edc08560ea9e4b3e 0x1cf5a0cd31907de093e8e2b4a547ae16593f66ad2de9b855de5cc20ea8f2a7633423c722c22491c08824; P1 0x2fd5a93408f120c085a3c7fcc105470880b2c180601b24e3f9023265b1f6aae1d3194a1afdadbb977d88 0x4803d3c1a801156023996a1062f473e4b4f2eb967cd5767fc6bba67a98ec22952dea10543b91abe3618; P0 0x93e71382a9c85ada07876f43d99a161f1a2c4b621a5e559153db4ec2b3359e18715427ab20762577ae 0x1243592876f311fcac8bf6787e8ba2985463087313518797409c105e8840c09586b77763097b9499f332; P0 0x9831c256faaa93682c96b23167957450c74272482860ec7768b28c5232975e474a9c61bdcacf0b58132 0x872f8be1577b4b80568c60465b5b4d19a1177072a170e71c88d3f9cf3fc817b4c042d59a6ad3d3955f2; P1 0x4125ef502c41d8d20480bda12b2479050ccc49e3e072c223c2d0f004f932a6e601176063349f4ff0ef6 0x2226bd0b7a62749391395ed358a3d7efcad8633ce20805ebbface131a368835fd3d18d97c2c2938868b2; P1 0x428609a29e92afc70744feca387926ef1301601b0be6884de78f56f29709995694999ef355e16b7927c1 0x33ef829bc056d3855027d936859120282dd8961992c56efb19cd1f68d9c5f9d9171d3cc5d3cb0abf7f7; P1 0x99d8fb583fbc801e88b81699d38cd13fb7a7e9fa244b5f72ce532dbce59f634bfaab28665732d27234 0xdd610ad379681608788ce2db8c9b067306ffe8269af904c7cfdfaea2650b361e205e479ea25d853a82e; P0 0x575aac3f34a27e41af9e1705011a7d01913c3a6e561f6d272294423fdaef988a985ea69fd743cf6874d 0xa5c52caab71f4a4147b91c24cd6936df4cbb3b054d2ae0d0d20a55526833cea0f00139aa13318ca2367; P1 0x61f609f9e55812dd2d6a447b38c8b025bc2eef98c85d7f7882479baafc98c656afb43959f1d37d1813b 0xf304a10637b69764e6863a1f86312bceb0779db0817442c9b546715bdb6111dd5d9e93fdf23cf401cb7; P1 0xd28826f70cdd6f908c54b7d53c346ad7dc66084c27bff530caf22f1c615d13352414289ef6bb845c40f 0x8847684d4814b74d12a925187ac0895f57496a8b32b651a8afcf42dd36eb2149303c94616f7420ee063; P1 0x4234c3b9714f523f009e085f7379f276dd476ef605c4f9ab2f769b43374a9e6564a648088db5709789b 0x1cd132683f1503fe705824e787ecd33d032a42f4f5f1fdaa6ee1b51567b48a353e822f57277101be2d07; P1 0x2f5d9aa8263ee0ef3d9584545ae0827e265dda2a53426a0395700d8d01e2008d240c84ea31e5d7daaf56 0xe5352af3513c93c117afc34dcde6988c141550c1d6646238a4e2658090055643673eaa47209bce8152c; P0 0x5da4420bbecd70873bd307fd7bc0cbd5938c09bc03d299e4eaec406860c0def771afa52274ce4e9f7c6 0x197f8be59919d0fb98c83f55de55af8caa903ca20b62af952c18cbff5195a1c64f78339b52fba3ea74ea; P1 0x25155faedfcab00e3b659c6665b8549ef2db645d03ed10c27fb7726301ba788b490fb0f998b47518d6f6 0x123912f7bd6a22d64024b2bfbbb67013f2e4f6192364f3ec1ccf9c1746fdaf032b0eb59dc0447400baf2; P0 0x9786b5696540ac7bbe8172e4ed8f5cbbc227886130f50c198c450b6d90edd58048193b34e12ba0b6006 0x217f5466ec4f4ec92802b50ff25cec444a4e85baed96d74d90947999f6855563b9897572f2cf614de5de; P0 0x20000b56f750864115dcc53ecd364786d98608453219bfdf4d943b955279ecca4bee72b32d0f30f57a96 0xbf31909197ab5e601e32abd05a3bbdf2ac71be96bae4b4a359d64d761782531c78f9eceb04ef040660e; P1 0x825019843fbb4244a97edb4c65fcb8c3f59082382b1f3d4c439bd29f30e42fb8e4ffb2738c56392bed2 0x81d716915e5486f19c6c8000e5355a3a2031e2897b8a5075c86d967ba5c482ce596cb56189267568216; P1 0x3c190c483b8e9136996d77519544b58747952fb53bd88127b834dcd738c0c8a0c472a9e9af556251f13 0x11c229fb636de1c3bb1026c1d9769078a2f798826b7f661a05db13803fe910acd7b2422f688409c20445; P0 0x8fe667aa7a75f14054be472c31dda6e4c72893ce55666e28f6ac5f73a3d6d3deafebe6c40c72c756479 0x5bc06873369f5acc26ad1244acb8c9d9743db6c37e712138c0364256966ad16fa7cb42e893cf0280d0; P1 0x1e0297c3e8a6dca2ab61cfdba909464242dc70da7d2f1f92da69070a91aa493e52aaf8329fc378468 0x12d83d706bcc4f755df28c649b0fa8558fba15ddd0549431bb7a697c9bf419d5ef6df03ed825bd91c118; P1 0x14415aba82d3d35bfd378f91aa504e0f8d6783bd89c4ab6bc1d57d3f4eaad80e9db84dad444e71f67362 0x1b120305f0fea8dd4ec117f9e14b6b7739892967144d94c88d9e6c00cfd7c5a60eb96cf5b782d441fb7e; P0 0x14e60f2887c4c9baabe583b4a32c24feaa31cca79638f624337ca8841944c4bf08d9838fc4f5eff0279f 0x197c131081827fc6ab519a78a5286ac44c68477750f8eb82a88ee0ef5aff383a9d63339c168f5f8fa435; P0 0x1285a381c9091bb6b0662c5c05aefc43336859678bafa63eb60ab0d313d901fe522f690711d2ea4a127a 0x13908858f9c516748e077785a9d0a539f3e647edee3317cd9fc6315191db2c49587808093a25e1529f5f; P0 0xaea8c6a1b6574c775ca597951be8791125dd72f8fc957df604c181f31616f7fe2aadb12902bac46cd70 0x1c39f6200babfdf53676d3d770f6b5c41d30dada6ab934d56c3948b2b79b7bf33f36dc2a282843a99cd1; P1 0x2d718a69ce0a5c27cbcc8d8214c3ce14a70c1ac69440af26476d8453c823e725315890b28f42c8451966 0xc9d6e21db83976020d5caf248ea59e1aa3939670067ed2feddd5c23b7c9303107cfc59f2402cc64a6fc; P0 0x489d46213fbb418723a94527e73bc8f4138f7750f4fe83d12694ef97d69dfdb10a527dbc6776467c142 0x1b3c8d4d60259a245e004dd07ecbeb696fb78e75b4ea94e2703a7918ae4c904aeffda93895d1f17a2b2e; P1 0x2a4fe3488dfd9d8acafd45b4e592a68995e923123caf8bdf92b40a89e0434a522b4a86a718be94f7d5dc 0x1aae9ed7dd7cedfdfd7b10bab809f5c657e8180bd09ed51f325e890f6a95477a4cfe06bb4d159588ebec; P0 0x144db268c5c764e2b24ccb39625b6d6f78e64be3774cd79475f92488908d4f7b3608c96285dd96b1f19f 0xfc02cd754c8818e26442ba30bb5e7856484a60e7edb5eb8ff6d6135012e19df61a13b754bc5fbca89c1; P0 0x7133669c41c844e6d13190ce8251338df4823012ead6ed60370fcf08814a04a7a9faf5b68ba374016f8 0x1fb24b3a8b94b2ccc6f1844a8a797c83ab5d60a50ce9be5e9875217623b749f084be2eedb0183fa0bb09; P1 0x394dbab0475b0c43c1d22e67c97e9676dcef198d0cec1d18ffdab46a35b1eebe5acc8ba3710dbc57343e 0x155061e9da07d833d59d1c54167b64abfbc8e73b527e2cb24427c64efb138b5b3ffadefdd23f8a6afc04; P1 0x19e94f2baeb03b2d2f360aff80759f303c363b19f9627981be3bf20e7ca1a7ec6af6d0911e178221dabc 0x182452bf970cfdce8608ea0a70d7838988ec3a52c31d955ab47860dc69b5f252ae6689895aa7020418a4; P1 0x213e437dbb77cf9ef8fe3bcf4b326e0b36a3dde6e70127f49b221c9924751d41031656c51e2d1fca7ebf 0x9afaea219ba1a8ca41933584cfeff0d6c75bc8cf8cb9fda7d2ba69fa7fedff379ebeb4448d2d3122331; P1 0x559f99f7281f9d3cd4d21078ade6f347dc64a7982d521eee0d32a15e38d36fe828f5e8cf0eaa042df56 0x1665100f4c3b9294dca47f6c266d02c2de07a4af1236ca10845346dfa55e463c5ec61789b784e09ed78c; P1 0x1c9b1588f6b057a285f06c18bb93705e54adf957f0a1b57c842b6ee1198319a183439d65b6a244a75c14 0x1d8288d471179a9cc9c755a2500d037fa5002b3fd9e05d827211c81d98610df16cfb24de2e8d9babe0cc; P0 0x18d5c9c78a5b7b3d5b39e1d426435dd82ab6cf181ec6fca0dbdaa65792254453f8f6ce8237d0800cc865 0x1457b151df0d32dc77610ff8613941ac11244b9d873d5910b59bd162064a534c696ae3af43b6edbc311b; P0 0xbcd368072ddb2f1e93673014f2e94f7c93ee4fb8280aa483e9094052c22a0af241be06cb17b037b5cb3 0x13e3294e1d225cde0c61bc2d4554a6702e8d13b237a09f391e85ac655a64905799b271a1f38abad279b6; P1 0x168f080fa5d0fb0a2cd448ea850d712adf459a06ee03ca53b785f794e77db821a3580b8f032bb9289396 0xb3e9b2061b81656c028c14bc794955f6693621150d901189349df18472db30c91e3960e4c1fcfee2b52; P0 0x39b1d0b4f58966dc1c7d5f1c3543925adea79644ab8693395ba84d721c95fceef180671b76a5c7208ce 0x21450cde9012aa1530845a8c3a0828fe7733c409002331fce0127dada06f096d1bf5d1ad1fbcc0299c16; P0 0x1f9112d5633b8ad9273a3da70e08c1dc412d1e3a0ddeec37e34ce7fb0e83e94e99e34b5a5833b9d8ebe9 0x1c7c289c51ee26fc0b5ecc4a93824969428af6e97f0ccaf49155a50f9b4f16614b738f287ce2ccb7b5ab; P0 0x1723d56a8b50b0e857e8b79e13841cdaa458f640f773d1ffe8d017748840fd052ac9c59de36c61cbf7e1 0xa3a253f933ef6ed45b5b2f5e5c376f0640cfab8838f299dcb8ca6e1ec1d23a4e1cbdc2a0c1f3cb1b688; P1 0x5f73e4070cf0b313d3db8a5dc641755b7a07c53a203c612e29f299fc3ab92a4b30074b9718d924307a7 0x5942796c15e5ad212894b4d8d1b102bb9200f6720d9b0cc5777c4aa82ff7ed3435289c81cf7fde96429; P0 0xe3379747b85e792e0a32d500c43d25f99722fd6e1af94be43e032ed2d2c68fcc69238cd198301a8c5b 0x1c93ab9c8e0ba6d2357e83cae498ac5fd9fdd3b357da612d2b876fabb2b6ee76a7e3bdd1f6c6a3a30f46; P0 0x174a18551799ef68713fc9d7a56aa81fb2f1cdfde462e59e6999ec68865c147ede79dbdd50bf1e1daecd 0x9ff2e62e9cbb6e25711bd7021ab65105601eaef1b687b72c20256c5d50264d305fa8cea7610249d42c7; P1 0x5b339fbbf2b5fbaa0261d18e0b61f42b38d0e238319a85b51c75d7d901353d0d7631fcb54e07ff53353 0x6d22cd8d68dea3f506eb3eb35a62daf2031cf773ac8a46a577c9d0e39b0dc7d3d485f4afc872b60759f; P1 0x2a75aac3858fc101dc8f214776ad50613f2115f9afb2e1f2c2bbdd816ec7510935583a1e9d2411c77b2 0x19f03e0756799412c4e760d694f8f44d3a2863a1d5d860f6f946bd1e8dbffe2cba90888eeedc619c1330; P1 0x266000c7eac3ca089a5a113063259d0a81a9537353b1d7ac28b865ec5ac72ded7b9bdbd42199491e7dbb 0x1f83c04d6d503c02b2aeeff790336a89c9d5e2b49749dd31b41d5e4e816eaae02aa63587ef99a3ca2355; P1 0x38a5ec8e36dac59d907b6d5b186ab03331f7b136894f1c4d0078c4a7acebb29164d4dddc7400ce235c3f 0x19eafb3a64d4ccdfd2b60740f117ee895101c7032cc395c0316e3f6f37b94e1ad73e0cdec500a0cb3003; P1 0x26507145b03396fc318c8832b55ec77f03cccff929fa1c61b0efecebeb6f34d2018e6b8cdf1930a986f1 0x1fc9caad267baf72a7a8ff53ede218def630661c9467b9f30275032446e52d2ad050ce045ae144d33a51; P1 0x39a2d0af7190764b3a340af803aa21b6596a662d966651e549658a6e115c7d454b74c2e541bfe79ac7c1 0x192e31b677ae2ae55b616571dbeae61ec684a29e47ee4e4dabd43a4463017f4f6491ea94d5b67d13bbb1; P0 0x12151be820beb224665dec993941a0219d71faebcaa29470314584a39020822f9ef6cda52437cc39ad7e 0x1faf911961dacb593cb2de782a5f2f4be7599501d1cee27906ea94d4f36002afe05fe91d37897a060283; P1 0x3943ded568a9e1ee1d43e1b83ec5e0b32237fcb677cfcb70604d6bdbd51e810bafcb3da8063b089366a9 0x6d7c97987647f9e2fffd47884611da55a819a63170f5dba4911dc680be8752ee0c5ec9d6ff24cb10b19; P0 0x155dd288cd749c00590cfa4430ccdb61a40269a6b7a0c63eeae253ca8a11ce5402263785070c4799fe1 0x10ffce4ee73150c0d2c21c92a3138a698e7b6bb92307b30c5db93e7e49c997cc3cac50a052ceb85b76c0; P0 0x83dbe5a41403e22df595bd369b05ee9b26ead3a596c54cfaa3274f2ec38d9ffc1b31289dcd85ad273f1 0x209c455e311d640ee6a45c69b17bc7e520f19f34931c2a69ce0646fb3c79b2e54ebd38980a773dca0d3f; P0 0x1e53f7b344b50e4bfebd3bba18b06b19bcb741fccd6a0e610723c8bdd26b09bb88f8a224ae6895edbf30 0x18a04257a27290e0be458047f417c5e10d180cd9ed61af59c99918f6a1fb52cbd501c9e22a5c70e34f51; P1 0x229700f631a07f87cc4d936a76f1a617f2f3da47df4ed2d26af7e9fc4d9236ed8d9996be07268bf9675b 0x5d5259227f982d585ea7a0fc671b052e3b633c639ef49e5b3d5b423c7f0051a940c99067a2c956964f7; P0 0xf85e34f65a38e7bc3a23ee4bb99f992adf2a5b9c4e50d6ba68d23158307f056464873a61c7f4bddf23 0xab5fc69a60c6b50132eac782f390d9effbcdb13b0d53fb768f159143590efdaae567dead08bbdffb9be; P0 0x34591e9fab48f66f3d4f51019ba7ae64aa83c7037332c0ad62325dc4337573ff1523c1dd6a17145fe62 0x1933abe188dadc19b83893507e9335206898e33d83c2a854ddd9835c2b0bba0fac67aa1dee0b34764502; P1 0x2439f5326f6010e70fb2054e0a454700fa9ad8e8e92c06c7511785f469e4c4361d54db64d929afe0a281 0x88520c1eb2262b5e04faddd1cbe68529103984e2a80c92fc85f089566fbc4cf006fc10d9f73724c71b7; P0 0x211f8d54b24272957836d00bb1509bde9453e982101a4be1267aacfdcc1d58621ddf2bc30974e136ef6 0xf9d6c52ceab3a5e189006f4812355cd8d636ddc960b9f3721604fd8ff17d96f3308893af1496fb3e7fb; P1 0xde840ce30d04ac227d3bbb99328a3eb84b9783b37203695af450baf8c730d17aec7f4594eab3d4d1fa0 0x12c95b0b96a75a5a31bbc53fe55e1d5f4f642ed7941515a0b9523c56d4a9c4231c9decaa7f1c6aef2e92; P1 0x1421682125f02656a060eb9a8e44aae87af02b2bf5a2664fcdaa9fbe670e624f63eb0abcb4001d519e4a 0xf16207c28c541d0af93ff98c1cd67011fbc9750bafb9e7443a76f18bbc98da10751fd9f9c69d92f2e1e; P1 0xcfb54f59ec4742aaecd8d03f174d096ee55834bbee93a0d4aa866611d81e31ad302255804ae56a4432a 0x17e095dada63ea3ebce246824a8e4a5971df0a10e2c8803564f0dbc540d4690afeaf0e360c0b258cf3be; P1 0x2084bc9d75253d98596f4729c94ab26b3eb39c89d71bfa753cc7598e93c78cbb2c3b4fe17dc358518f73 0xb002ed8d7f8711ad09de5087d851c4c61fb7bbec51f140e5d36a6c1a5534d7a12432a926657c3d5f425; P1 0x6e706125cb0eb14205a3738f842ceec4fcecdf97947cf5b57e1c7dd97c16432c30cc5b5c6aaf99e37b4 0x17a6fcfb16fe6d6c87d222cf6fc75e47404c6b0ee63000a5574cbc4e1a0fd8605fa61cf241d989bae4be; P1 0x1fe897b66ce47333a8042a5d4d039b3e4274c777caac1e44aec1f4e623736e0643d4c8f366e7a233f841 0x1328cd926dc5facf1230f9709f971ffd3db9b414d8ac0d4be64a7c4d0d77881280cf45128a5a188601f7; P0 0xa77fe65b6ad180eea6f3c617b0e8f8923a4960bdb0717ccfc67b958a6d59bd12f18f369682c3b913921 0x1098cdc771cf4e51fc051d8092ac080f6fda670b5a2286b690efc4338b41ef78edd3de4bdaa21eac4d60; P0 0x7db0e2391dc4828a0701d0ce4679a711f37c8147c1f3952155c84b30cc6c829d199d0be307bd379a26a 0x18e8b15851ddf3e6b03ad4dbb5a03fbb5eb6f403383af48074667e7cec9fde86f727cd54504a839fbd76; P1 0x2363a776710f9bd28154cc7fab2a9c16dca92255dcf39a1ae189e270501fb571efe087acfd8ac2e97808 0x137fb77085f78dbfd99f3da27eb8e04917e351ca72d099168ac823782477b8167e895c965286f1178e40; P0 0xad7d09139fd3f8dcf2979304a5a6519122681b5f915da9ae2b67c59ef6fa591a8257c4db8772a144123 0x1059fd39122a0a897baaf831459c851f0d88a0649676285b9516f9c23bf4c54a1362f248b2639b5ee16d; P1 0xf4010296fcecde8dc06b69f1cbdf07aad37ae2767f50f1282bdefffdd71d1207fb8e55b451cc38bffd6 0x20dd46496bc9e934082807f5b3c030b2c8fcdd69b1e041a190e3c6142b606dfb4e1e6f415979676a811c; P0 0x1ecd589d9fd528f847c27b33f3399437557c1a203c55fa1d5e88edc5d26856d36c23ef00f1f6d5bb1618 0x21ad21e9a8447cbf7f1aabf3672dccdcf10fdddc7f1e8b517b82598a976943ef76d9d130a6ac4c692978; P1 0x40af94089d13ede636b7fdd386cdf3ec0e1e29dfda9e3107d515caf3747ff8aad428f79efc3ae4be2a9c 0xd6f2d5afc51b6570185f86d50a90348f299691a4b16d743a13e5e0cd33fb2073f7682c3bf7edf67d324; P1 0xa4b4c4a056c6697ed872bfb666a086f572cfbe23d3737a0f9616ca36c74c210da6b75c415af4426fa6f 0x26505b31b53f8060c2ab9d6da048b2ad763efa631c78a090df64d0b9a4e3534f1f1dcaf82b638d30081; P0 0x29dd3e595db57e62ddb0f64b1123cc806e1c2b125901376bb2dc0ee0dcde24665efccc8a9eb5f87027 0x1a19a71b1ff961f737628fbc213a2ea2cc54cefccda861eb18b413bfbdd0b8ce6cf99208b46ab3cc842a; P0 0x136d753691dc85094ee201b5a6abfaafefdc79e99ae71f7b6590af6ecf16a2d39c374e67f76e6f02142c 0x4e3ecba8f92d4ec69ce32c9515627219ac0558b1b7177dd1c9c2c22dc86b2339398cf973d473910faf8; P1 0x15d33c85fe94332543613c000e83025325a57def0bfc320289b77979b3c4699dc2426dd624106d960e2 0x1f20b2fb556440446aabd3a1770bb183db4a81f234ee212e642c9497132a9dce6d12ada45cfcb5f1d1fe; P1 0x374403b643cc6874fbeb558cb4a5eed9574d0a366b606c70314bd5a76db2f8d1942791ab288811929d56 0x14096cd9d5c03bc349e7107ffbf84029d768894acf6c6de0dc5cf83e52a5710b1136d39b2b4cb5df4ad2; P0 0xb73151e26a268432ed5806cdc5a8e22bb71c6549ced180c9480e3294f6681a614e3e9c7d48d221980f4 0x1245cbaf13dc035157f52e365724ac9799e13a2140774f02957732d8d577c0e559eea4b5dedc4a775110; P0 0x985a8f4f718a77f21a51282238d58c1f69b562b33d9eae9925d92bd66145392442cff4e4a02d7cbcbfd 0xda1580e38e5e94c61c295c00e1f97dd2b0c6d8bb6351cc825ea1b2f56aae9b6394d790cd6270cc3873; P0 0x54c5ebe4c3045e3ea92995aec5bf6f82ea512da8c89362fe5be039ef03e5caefa0248588d041cf6a3 0x1ea962bb1660598e778823d15dbb5d66e58cf8f69aaae1e810fa9ac5a902ff86e733a8e484fc665a796; P0 0x1acfc2190abbc30d4c8c6cead20d7a9e683655d1ceac253b86246486837a6b2d272b5c9ef110ec0a48 0xe15574453ef799bb0b4bb768345af5ba24a62a0f3bbcdbdc59057c9f66ff66760475138c6e0c04f8f1c; P0 0x5a80c95e359f91cbfdf58d6bf66891fb79a696aa7586dbd9f068d352f2bc400da5b2c6dcbc018141f6a 0xb255cb5707a233bae84fe6d1ff7a198655b60950e476a52a3ceb99b6d0482e35145087b78a997861786; P0 0x38afe78dd32807ebd32871d1d9553e9ab2448436b448b9eb899c29287da76e0bc009b7470008725a457 0x21ab0c3f64bf6a7ecaca32634347b931414dedcb69eef7d54c48c40eb2bd67240c4e029165b47209f21d; P0 0x2053c911fa1e80531d4811427e9a62272a29bdfb72b66f91a661fecb72798769b6c1238b5d14eaaa6254 0x22576d9bafbed5711fc40d2cc7f47e9a3ab1548bda92dbb773d96e594527b556af0cceaa8e4c397af4b5; P1 0x4344407676d463e45506a946437055dbb4a83b8d33fac250b9d29859afe21c732511e6126c99db346f86 0x2156f6d8751ba42df68f7ccb11d95d18f736f177a9de5e35c47d5190c2284959f8d2f47ebec27734418c; P1 0x3f6634e0037ec6977b67516c220b1210f7859a79c1a30c9acff2d114fecd14befb45a3ffc4f5e6f6a17d 0x10b613d711c82dbb0dacb2b88c317f357c282d5336bf791c5507973ebae02f66687ecd1a1808b2d1313; P1 0xfedb997a864859a79a04f6ac6cb5efc62d5981abc81bae32969748308c047d144e75c26c10090bbab 0x1e4fdc11b30f6819dd1ee91f874fecb7f8d8d2796c844fc55163a575acca7035b8dbcaa1760395a79737; P1 0x34682a0d74f3b5435fb61149e1a09d3e74b7d00712905dd1696739a621e64d5800686e9115fc65ec0609 0x1da7723c8abf2a4855b3e7d34aff8f1f78ff1f97d41b2c05eb039d1290c8d0af8564409f222d01010b49; P0 0x1914119b4b31f4f8afdaa057a375ab852330a5a988c5d0ab67407ad6e18901f91d9bc31090099029448b 0x125030cedbb2e8d2ae859868a3f49b64689c02b901d19905d5d19793be3a1f80ac6a4a4724a4a08bec56; P1 0x1321030ff2e44f6eb769650664be02cfca13c85d16a4cc0cd79929804174c741dc9d19fc034a6518e6eb 0x1d5bbd1bd5162ebf5344aa574ed21f018384902105597014b316045864e6a8440152f857742647323aed; P1 0x31294fd431992520eadb201dfe8a1233e4d1b49e7c01ba5bab12b3716f5206d971e36f8998ce9ec94810 0x16154f429b8bdb3f622a1db805f26724f5da7a81f074c4c0d8a181388eca0908995b4892ebee4463f9c2; P1 0x1bd0c1d686c26fd4f3dc08836009b0464c6ecf44062eb9b28edb629e5df3f9562a06756752f4a5039f74 0x6c143bc5b2a13c6eef69c685ce184291e3c8dbeccaf1be960e7038eb23f99422ebb4bddd58618f8c454; P0 0x14d213d45e370e9af7ed2d0fc188fb1ee44c62725d2d7a22e3a8f84df819ba97b821a433efb959dd3c5 0x16ed13822ebabdfc16fdae585ba1fa778be6fdd01f7e6c7f992d1112d679c96bb6ae52b6d31a2e7e0bb; P0 0xefd56b6992a95f86efa1065d10797c4810e2aa8cb3275a03f2bb063c03c28f829e4aa8299503c142c 0x1bc1951ad0e2be94abc2f525f0c1feb85fdcfc847ed608c94e7327e540e5bd26e4cd350552113a4d6cad; P0 0x15f8942b3e62ea90be2a44cf4c313780426051b9629a13f2daa2d6b3b79780e0b0c870caea19529c5274 0x7dd2a9beb9bddf37fa054968020f4a1aa039ca64d1adc364b8c377eb676f4a3d6fc055f7f93d3e42035; P0 0x1c37defee2e2e16b5b93dbe3ecdf9e1d217deee5f54839aaee3ce73b65695ce52593c5f408e02b7eb49 0x22749f22b6065f1216ad058998b99a4077d123095d2d842441884800a134c036c0509e831027a69e9160; P0 0x21db67581f190bf2e08388e20e16f67b133d1c95fce29e9f6a372aa15a907a14ad30e7db2b95328a72d1 0x11278e0f9fbd7c9bae08575b7f654be8545fab2a1da0f521d2a258c7eebf007df213edb8bc262087ac5f; P0 0x86475c4135fff3451380406c15f716c81af13a6e33c54a85a9d554b0bb8ac6531b85f58e8533b4636df 0x160a1a677ba7264b3e302a1b96a5c5cbf9e65db0c25f62f3aabd5ec2fb4af12e01f687dd5765307aea32; P0 0xdda46f76c4b914ccce66de4ddaeb80332720dcd1d3bded5e9ae881dff90fefe48f72a84a6cd0a9e8ee0 0x277c6aa41fcdc4bda8c43ba360f7ee9934af68c12db50340fa9a046f31cedd642741e7de1f160c12ce4; P0 0x2c77011b9807b655968a2ae4bbdef9c483cb676e9032900a4913499cc349afe557a370c595b645a05b 0x6f2a2b4d505f03a488b28133c9291f99b8e7d6e6287cb23ad1114c75cd92cd40349b282848d9e70d7c5; P1 0x2c0d8b7edb8cde2db275f78fc1b7684c751969c4e941e2d05b5e15bef59e86669d2c9c6f8adc33e44bd 0x1bbd2777b2b40b03d0af73a6b0c97f6b0d2385f286ff0f3ebec55a66002fe76aeeacab047e1615753de5; P0 0x15f1920486eaaa1704727491d9f1b9e419a78d54fba0b7234c372e88de52dd83c5ecad4f0b3f83bb7bea 0x2192806484642fcf857237933ebdd0ee72d41ea86de920fe89d53f84c7a6cc1d84caa5a28e11662ab6cf; P1 0x40496e2173b5d8632320439e6745619038b43424b556c849cb86c64675b5d4c125c8d5f86a426c16744b 0x1b9d466b69ba52a7244e2ddd4837bda1cbf69f46425f01b44efc066eb6b585e441ed5005d120d4974c87; P0 0x15bf3ef10292c4b1d5c1b5c845b83adc2605c07a4498af70949f9b16e917686cabff30592823a52abf5d 0x221ab2d536ece4b9a3772804701f76b1294f4a5a026d7357aeb86b57f612748b6219872ad5981619b544; P0 0x212b95173aba2c4fdab04a1fd769b771ef6f47e06c39f0432056ca4129cc52a171cb19717960fca9a213 0xae48ddb44e0466c42b0555bf594e6ded0de04dcd36c0ac721c5d3bc99f2e028a49b9b9c1ab61d4e978d; P0 0x36242d561d4bc4b3b041ade7e893aaa452bb8c7ad583d610d40795515db592016c59bf8758c3d9fcb3f 0xba25191b0f6218f683f000de753a0123a4649fc366631154a624e13dde00100fcafd52b442b0e8a803a; P1 0x7b8588b0f2b23289fa459d683792426e243fd96cbeb1dbf985736b999f1bd18a36dba056de118844ba5 0x1de5541085217cb548d5ab390f42d61719f72d8a34b4ba33e527625c9bb36e721d9e0cb7e8209cbcc193; P0 0x197d299caefd5271d1e444ba681082ee160c6320d33a62a15f3447be43e590036120c14e82fc47fe0487 0x1acf3ce4582400a3b3bdb6b2bac883ad1f1bca5b20032d0b4dd24417c730919600b3a2a6cfeb02aefb32; P1 0x28fee9112a24d6de4d7a78c18b0e4e166287a2b8dcdc9d522f94617682727b26bef143be60b4f55e9b47 0x152f300efea2e803db7e8fd646af648f9e90a5354a12072451fef5526a80f756e5e59429cb2dd458d991; P0 0xccc6c30de9ccd37233afc4014cfd102e8fa25e00799d6f2ac7621e3eb2b00b6a07990e6e57190e32961 0xe6e23b585ceca2a3b276858150d8e6b66e386ab662fdaa49c588ca4ef1a867d8e987fd61f17e193b0f0; P0 0x5f041fa66ba0d8d7e12dc8c5d910c09cd674ed841844b3df3aa2fd4b7aef81743a06b9759606b0c866a 0x5c7aaaf3a2324a173e1afe5e268e8a240a1c5c243c778701f68681a50ef612f38559f9812be046f9676; P0 0xf3e75b89c42e8ddeac28d515529f34a84716439b858514144f900c2d924d774c259f5acf30819dcf71 0xe4d7b9fcc7ba791dc912a61e76cef84aa98060a5405d3ee7dc65043fbef083a52e5842450587dc2c823; P1 0xbaaff0112718ffe49d9ea9e096f3ef8771c1abc657d14661cfe8210f5d5d3b3e6b8a2e6648f8b8c81a9 0x8e442372c46731c8dca851682d407c949ad255976f41663ebb3d534943f43ddf327edd90286db59cb99; P0 0x24135c3ab60a6271a58464e07b2a677638fd4a577b36d5b37266026104915c0ae7f1dfc21c0c6c1d138 0x10c23f5e50822837b5418d98fdf3e8375e2f03003a4e75ac6500372ab4f7480361821511d0856670cab9; P1 0x1004f54819cf291c5252a2e7aba40f002927f7da72709c66555932ce8fd2338d76db67e273af3e58a95e 0x14ebfb0b8aba330933e9f2ac6bef8c571712e47ba7065ca0135f27232f7e8aa29b69cda2ce60c3c6a3a4; P0 0xc7bb8299ecfc2821bcc85720fb36c0f25744ab2af8370133757d0cb03bd24c6a90a2dfed14f496e47db 0x7f219361325b95be0c817e761f1a41cc25228ca11c29e02b43115d75d0f9b29f7f5b3ea5403570ae45; P0 0x1ccedf9b25c1650723a0202abb396e8ed85348ac595e5d04efaa41b7f18cf69a5ff7c843d6133132b 0x622bf9462322e498cf4c53d23e96c0610faa174975771bbbec54070f205a6eb1ae9c9a14ba9b3e9df7e; P1 0x225b5d552884622a3819478c71bf5cdfb89e8f63f6d9243ac3c158d84c923bf1540a1647d5a04c0c5f7 0x1052c3bfc8e734a10dc620caabb7362cfc2072a54027872cfc85a35f60afa73902293a24a72a2841c861; P0 0x7994ca8558729570c7adc06cbe9d407f7705bef038b2f7797c1ebdb2252a925549ce7feb8cb2e1c399d 0x12a5cd2ac9233f0d13705ddc6d0cfcb9c8ee71578b92e6a2da5f2c4b116ebb3324d5bc65d58b8fcb6c94; P0 0x9eabf1bafdc844f10d52a5a29700893a5e32b379420713447d2ffcbd502e858b6bbbd27e7c8c6a6a7c6 0x96812b8b69c4e213d8495704dbc2ead3a204e0cbe8dc15798a94262c2e2f7a80b3febd3a984cc93baea; P1 0x50bfe11c7e6ad85dcc5cf238af1be0fd5b15e8d49bfe1b15100a67898b80b882037503f2d6754b88bad 0xc696b8929ac10b6efd157f55e8e2f5da8fcc9c33c0184843582d298c708080da4dec7fb1ffc387dc48b; P0 0x464b5541d6998b693d9fc79542cc720b84f24e997d6c87d945ad44975ac8a42baa4da79a3c643768921 0x1f33081d10ca60f6c93f77dfa928eac775d9cf97afc6fe4bb3c9ed220e443e2cffc763ec0c5df2114488; P0 0x1bc297daa7d8a91ff1ad7bb610560314010b12b43f75a091a9f12728cdd673c674efe0dd5e892d938e54 0xb123865862ec3c0bdd7bef39b5dc4eca0e8c4f750eb98bfd4629bba91ceda08369694b7a020179db9ac; P0 0x37edd9c93efe326939bd26cdc11bf78ae062fa8481380f0e08eae926a6cf09ade73652a00a077e8b6fd 0x5389cda7e4589d5f1d58e68b567267eb3e35e555d27385a4f6d7bd8b0c243ac52f7be58db903dae4803; P0 0xc705b794865b287877ae229256c1174ad30aea4723a2722727a977c6fda606ae39f98c7025ded4b7e9 0x964353a2d3400614f197ba0bddac214f50c7d0fdb40d0100f98597c790dc51b2f84e2ef62d178107d0; P0 0x283ec926b8ff5ecb334b803426f204351a440adeeed6b6b608ed22820df94e6a7bec9ca806728abce 0x1cdeb4abae9a3ac13d0797362f080aff81d440006764db9f5c4ad99b7507fd0585b380ad99f6219debd2; P0 0x17c506be09c5b5ba7b1d32c4e402fa71a047d9f079c3f85983d15b9db9be043947cde8e6dc17870ef261 0x63378fe10c8d3f9de436d6aa11e89de0c4162c1ebf8d6576f314150f6580b734f8a566366967ae9ac13; P1 0x2317a7e85157f8c9fdbbfabaa6444c4d039836b031f90f7381e61dbd7ab7323fa414598a427d54ed16a 0xea82013fc23c5a0901a98d9e60bbe0352ae3421d9296763427ce4339cf53158905c18c61ca26f2b8d48; P0 0x6205bbe3512f09774401524e9654596b0435dc077253d57e9128f3ea0a267553c83a7552238aac4459b 0x74dc398fb019cb9402b6119cef5579d30364442a16c3d0d3f7038ba60e2894687771044744e6b1367b5; P1 0x30aec28b744b6c981a81e2833acd35cf61ac746801cd0b5bf60a0c1eaf247927c9477edf9a6e305c9aa 0xac6ff59a119456b0744d1332adc9d443d9bf3668fb5de8f98f4b2a98b2ffe1c5bfe7803b60523835a28; P0 0x34ffeb1da00a19e570ca4c38cd1ead3823c77923970a0b26fd80f4f56169874cfc2977498dd7f5344aa 0x165ae34771de3a4d8dfe13811bef37cac6545a5589bd25deecd5395bb31ee6aa8d68f954e8be466c976; P1 0x1c811d0be3fd35a36aad0764b892f800dd95863925d7530589b972b9c93acc2e88dc04742e06088c6b 0x21616341594bc4110cf25a894ed7c310bc9258e3dcfd73453510ff5502416d54747efba12419882f486d; P0 0x1fc6efd2314df0cb218d332297a2629e59066231ed69f3f47e4457cdd80450866930dae3183586bb91bd 0x14927b1d852c1423c44de9c04d7bf304b25d20edf16c54f1dea658040da54137f5196d7b8e29c864e41c; P1 0x18239e5657876922b8e7b2d0c59b9ed5b60a32adc2b28813ed137ad0ea1604b4fe86e39e18e2ba5fc0e4 0x1c50003b9a93d1b80e38faf6505bdcfdc904dca6b36ce3394c27b08bf2f3d1d679c0b64a1e699a5f7ffc; P0 0x16dc4ea6dbea0a1470ddda65eeb412b6f142ec317b1cda670e80da56eb6e8be46d530e56c5d189a8e8e9 0x1d631f4396d1288bfa9022316acaaac846ea49702e7513e847d05f034e50091fe6cffad39108a95856d7; P1 0x31420d2c34998a98d49be5e1c7e456a5e4cf64adff4ca7bba7087b59a81308d9195c0de8622da202c0b4 0x220733b9ff34a47e68773c7b04755f4d9a123e400e15846c59c9317f8ce7d3591484818097380ffd422e; P1 0x420b6638e1bcc7256cc0bceb230295927da67c5ef436a7935ef64bdc5d19e705fbaf53aff28690e707e0 0x2153ec71ef9eab05519de77a57a19a8e6815df4f2a5301024dbc2fe3e037e493385220d1dbaae10b72a8; P1 0x3f5aa4f7d43611988ae502bb2675925c0605361b3ec7c29f1cbce68c5f56b3cc337fae4725cc89b8d681 0x108b81506a95ee43251aa833c7bca3da1fb14bb18935e84a00b18e91ab9d4153c6d8ea0b776ac33df22f; P0 0x7ce7c5c956dc3180214959dd0b88162362e81c180ad709610102d1659769d748a247f1f788932649163 0x206294d2c2d3d07d62b075e6daf86255cef47bfeb80710f098358e7231505ac06cd0faa975f1f37271ce; P1 0x3bd211b4ae45b0ad27152b38e948d9da21b19b22423ed82d40ffe4789ceee4d9a90a8de6231625250e6d 0x1019620ff764637f0667de5f83069ac1d92e387cb3099a9de4a617b2294c8a1084070c9ce35edf5e0d8b; P0 0x7643dde042574be077fc97dff397db8d7d22101e11d13e4b84bfd29e2159752dc66d27b1c295fb03889 0x7569c7d3d1f23a7683ceaaf4dc031c238dab22ad11ceac16ffd820da446230d7021f96a4709e18bdea0; P0 0x18927d707131d0dcc8a10088f540dc020f50657e0b6946c31955d5ff63bab16b428fa10e9de08d4c67f 0x362476170d8da8b36b3f57af5f1ef31410fe7a77681cd56089aafc70e3c24aa59be0457c2ec36d3e151; P0 0x539996a2a4182470b402de943f94417bb9f518efec91cfee25b9021c2663cdc8d1f9a69ac8aa3a8985 0x129abe3a5e316ec783778d4d4b8d4ba02ab52bb32d78d4eaf31c3eaf403e5ffe9e9e41bc83fa608cff0c; P0 0x9deff9007cb7f38d096b9e132c497708152cfa46b41bbbc2f1f6c316dbe0e844a54ffc0b97e9dfc1ae9 0x5daac63599e300557c9d91c9dea62dbcf0fbd146672bb11c4c76b1e4af907b8fe54cd01e7072d7b6d57; P0 0xfa35c16626bce393ac6a640e5e058513aa10de1c7e16b1abfeb51e8741fc43b023639523ec17ad1097 0xd615f663d18e12adffb1cd9a88f4edd1a7fab11ab77b535372ad0a49250d6e2922bc8b7b1d39cfab4a; P1 0xa362f4ff160947682c9690d354714ba22129b24b6396cdb34ea341d771327a92d18f849737d80e3de 0xb54c869065e07f8c749dd74d5e6a97da8f65c3aec5786776a9612f226af5afddd5d9c4d60c81e6a508a; P0 0x3a96442d6b11c5468e99673a3490d5718d81cc586bc3005204363dcd4f6741c4933a9bf78fb4274d42f 0x196d712c0e322b26d0626a939679d2fb470332eb3c708e1c6e9b8e4fc20cc24c0d819a7138a7272ecb05; P0 0x127064a6b44a623b39d8d6b559c90af54f2641f4214e16c5a6a7354032668a9cd400bab3e40f7f8482d2 0xd629e9ee317d7f9c794167ea25fdf5e25b150fc0302d48c533b50ffd611a7638ea226ba4ef72f81aa7; P0 0x51c0b5319be776a89208af19af49401d507f242a131155feb3c1bd7e0703568fdeba08ce9818857e9 0x6dc065029de0281f0b5d65037b3d1b74e025c37a68ec0c6d50b642a22f79b5beca20f5fed8956fc10b8; P1 0x2af0a2c2ad6d134be19a50734167fe6df2df85a990d22b59dbe9a5d6da9271f96d07bc05fb5ea388407 0x69badb16630dbafaddd5d9423e85bd8eda54d1458c029bfe9ce7289f60feedaae7999e6c7b2959a71c9; P1 0x27d9c996780cdc2142b81468eff1a051df0d63ba3bbea219cbf16a95a49aca61f46d62e4ce8a21e8a3a 0xe90c8ba9d6d5c972815406e5c029bca7f320873bb28e08432f805348a86799ecd75007fe30037dbc848; P0 0x60ce7fbecb7215e5bd2cda1a9be757b61d5a4ac94b97f86861a97210a46597cf299aa9ecedffa373a69 0xd7a1a186253d91c9a6085c068a32379c50221675de3e007373a4582dcd41433100753b1eb546743e187; P1 0xa5c1125918504ae029fb8af1ca3ca75ba673202953317d3a14ac32e556f023349b6222d515090474ed0 0x1d256341a91e3dfa761edac1f3883d9dbf3cd06042563fe122a0cd718757a87f8e091bd4251ee5fee292; P0 0x1839f907bd2eb5d8a6a0b331e850503d09ca1879811d9152c48b88274256c33bed213bb8534860db7bc8 0x148252bc3c20952297128611fe093caf4ba12baebf78f60f7420c6169e6eae7dfce2ede10f3c9ce074fc; P0 0xbfee10a79c8c64d1bcb3476739747a327d4fa8ae5d37f2cbfb27044b989725c3f249f2be2fd0146be8d 0x1578ae5aa1ccbe48697ea920078ca5a2f18b1ecf76044a37919241a594cbe910e3ef5e3e768208b237f3; P1 0x1a4ba722a8f9843ef9f6042b1224686a3a7665d66a0cec9a8aaed630391679fb898c0436bfa6c92d8dc3 0xd674d8aac1e5272bc98fcfc47b872fbf6d6a19682c45cc5187ae07ce4e904a1f9e02b010ee6527e041f; P0 0x51f9f4764fe5470e76af4ef65a5695a8674ffa3895d7f8d19d0c37905b7dc307664f3c5558182323fea 0x1afd7ea38257d58507351c29a8e86ad3640a490b5c7ff1ac034d298e965dab1177ad0da388a3c514bfb7; P0 0x14c66d585a189c30a5ea537b47ece938a07ce6108c3c68cdfd79c29a2e5c27db40668476bc117fbdf08b 0xa998d8943f55d39b386fb463d9b889e7023cb87734b876a679cf643d1d340e83f5523569fb6dbe0ba56; P1 0x66894492c51a84f4aee58e9cdd229d5254e1ea4c4f3827a6794845e6455082370da87dedcb2a0f3b027 0x1aefee49e8917d34881e898f8ed72daff72bd482f30aaaeefff85488ef2e93b55fc978e87273f0892cf1; P1 0x29632221f668657b38b3f96a00c3eff2ff2a06e0f42acd6baae1eec52ca9383012f61341a1c04cfd5c0a 0x18b19f42ee269a91a728365a3b8c81983e13d80306ba32b9bfe23bc7c78a91e8c4ba435a9db93333e398; P1 0x22c7d8e1cea92d0d64b8b5215547d3f45066bd4c3c22fd3c9c871872df32d3f616e8b7d25b7b79c05ed9 0x223c27ec1027a4149a46799f6d2ab2a4f073440558fb61bda595c26306c7630707713b2f384d1b619257; P0 0x216cca08369ce65f4a032614bb5ae8512f9e74ed2d7ea148a9b58b589e67adb08e000672475c89ca5498 0x103ef66856781507ead13d613bb51c48ba38a1667f5d5974d9718d3b185a05a72ff499f6fe33d6cfc179; P1 0xf0dd02823c034d3c725bcff144307bb5783423b0d663fb804c2aa09a653908533180cb5c4dca72ddb11 0x99f5160bd9723c84b5c40aa79a9216a5af9106114b49c76785312ad5b4f18321ba99ebfe44572824281; P0 0x2a3f9f7daf26144cd2bb545f478d27365565edeb09a1b6b55b499baa7faee897db1d7c648436cfa9c9c 0x255d5d480c303228007a6924cb33478d4a9beb6b3426feeb99d4f9aa37a1e253b25a2e1c0d1c02435a5; P0 0x27d0cdd7ff7e49ea8da0c38e27b0c6fdde38b2dd02dfec1d5c2b066c63d3cec0dda5853e59ec335f90 0x19464bf01dc3e9f81b3f1aecd6bd4437036789e256ed2a762f6b87a24289eaee67eb79c7bb91ae187c9; P1 0x246f94ac9c0cdb3fe75b8827069cb82905d3819d789483635c31b643a8bf7b6c1182fae95e60f4fc33 0x1a551c47f3a3146182780fb15bf55b209aa282bb4e477e492614ad8d482eb562fa78007cf581ac08a0ff; P1 0x278cbb5108bb91320bed2ad7c98f6c2432427aff23a81246bd9ebac32238ec24a21ec3a73d0f13b70997 0x3b42e8e3fd82aebe16f42a9f91bc0a559167bde18658be2afc4c3b0804981384278421dacd4b08aaabb; P1 0xc84f83102e334d0162b8db9830f5ff1d3422f009525251e0d02787946621a614272cbf5ce659ab55d4 0x158c4d23251c0fa68dbf228dc289fdc6add6e9468efa57d645a67a73eebd0b018c4429ad93b6cea9b1e; P1 0x1a7bcba7cdd5dadb024e8dabf5ae2968195db494cfdeeba22c285843cd0a2145407e22917b52e25883 0x4c208346a7e3a54d8a6c61b4aa1df18a82e73e8aa0d74724c722238299ce99a2328917c978e69ec4b15; P0 0xa5467cfa80a8272651fca4bfaf1970d3349d15ad8d8f1ebabf7d4f5a79d3085ed909a082e01dfdb66a 0x176485d59f1cb0d37b65d25dace83522e06e42290a7f3ed3738ac37be4b4a5ad68837358d4b9d949d52f; P0 0xf9b1f3f69db4dbfbabf2a63888294b7950cc562eb4f475a252ab6d00ade876ed134de7b616936f8755f 0x96046ddd0b0799fe3f9a05bc9dbce5d4bcc6bcd63d22affd76433244beb3a36da138665480ed299d712; P1 0x503a3e1e229bde3a74196c0d9121e111017535ad397273117459f89dfed59b180a7a85ef325bd812d5c 0x222aab777631ee5ac95b29e4022057370e43592ce824290f76d72c5fea848337017f084a744b488b7e6c; P1 0x42955b591b81edb1d290b7a6f304e241c3f9145c661bc57158aa1aa1f993c8e37154e02472b6cd9ba6ca 0x1f326b4173cda0129e8b4794922fa4beef1eab9bb1c534bc16d699308920221e8dd4818c938be42236; P1 0x37830176510af0498e59c1302ffd306d5a2b67ee9c800143a0f104a0906a3a6132f510adffe7c14f 0xa3ceef5772ddb9404056da81acdf4880a1af93602fd0c7e158bdf8c4f9a1bdb2676b46e5c0c29a11049; P0 0x2fd3fad26c3fac7e48cbb3d514f5ea53a1f0ff05b18c28c66fb4bddb8886e4545f70203149f68038fc9 0x15d7ea5d5c6e875cb31f6503298a78e79550e835edae3d30a4c110e8df0e2eba8037a6793a9d8871aeb8; P0 0xd9b77d53980f767112b34a297cd6eb7f199335963ab4392a412857258909829768d3df5f2f5ef22a835 0x18047dca6731fba425bdeef3f1b44f36a768faeac3751d35505840072a01a556973f37ac1c8b8a6b89fb; P0 0x1073699520f6d183f6352cdbf32fcdcf6e1fc1a51dcecd184d198c2938df245940f0086d3772520266e2 0x700c32c023f67e4ddad81ecea0b46d5ff07de692dfff2f051830a4b6894d721e31d35c150b4fd4fe797; P0 0x1660b339c0045513b4f41963a35ef2292abf33a4d924a9e162b3c0f05823dfd40a2e4f61cc1592dcc41 0xfacb964eff4ecafde41c0e166b8bfdba6d0941e30edd237a49d2fc0fa6a7e41a837ed5a11b0a231cf00; P0 0x701c7c49b010e5a1961111faf0144c24bfcec578181f4e22a9cddbc85dc2e5028544f36d735408e5782 0xaf05f230e354fa7585b433a25ead1a60aa1fe5512c8a9f5b66c21028f92750fb409855a205f4e39f8de; P1 0x6d33cd4ef5d17297fae2d37fc468168673e0ab44d680a6e962e57efd73983ee8c4e36862472bda08e0c 0x13b59579b1e5e6a3a3d5f51e27b9dd2daedcba12d655f70d865859270f29a08c048823f680b58ccd453c; P1 0x16281852ed889bd3ed38a771368452f4cd80439448d03996785c715e1ccedbf26a5bf89288fb99b4fe9a 0x151fce6c079671ea17baae0cc5525b9f0dc0f7208a21b87cc3029139f00bbd4a05bb5a55496a110b5266; P1 0x1973ba2c3461143116f1b6560378025aaca915d628b1c222f8ff12d90b9f6561ef7c02df141e76d23f1d 0xe411b1e03ae3b43bb5862852b3ea79d09757be7dc992af944d15f42e11a808dc4a5420c60e6982dbb9b; P0 0x5cb6b09f6f041f492773fa8f2ec2a7eb4b2cb2a964bd6f2b36c0df6e6ea2641d96e01f2200ba5f8cf7d 0xf6c2630e53bcab517433c5af063368d9a0f68772f79200173a8bd30b67201c24ff91e6902b3e4148bcc; P0 0x6c88307c47281464567bc1a814385f075c1b2b5152d04449349c9c04145bd17a4b1f3e39f9c7b1151f9 0x1288e67650d42071d4b7826af2b08b26c4d1a8959a14cd4f2a74a7762c206196b000550f43bdc2d20b47; P0 0x9cc198bc9f628dac5dbeba1b0e39e4608359324da6410934efd3bacecb24e04fdeafad4e876a92dd3b9 0x1b49262292c97a17eb0ca97fe4001929c789c567adfff32e0cf4e39c212b5e20872c54323e986b9ce0a8; P1 0x2a770fea87c5ddf5274e8c745ca90a28691d8f114c5a0174e4a8ade80e1ceaa53c33e3af6e702ab12d9b 0x20b88045755bc3e42f40a9062f6277c7204b198bd2467fcb6b2e0164a2d218d96d6f1c98b24a505677f5; P1 0x3d112132bd35b631307f62c70644df9f4208e4a1221bf47fdb5caac8a670ba29abb7f24235bc897c0ca1 0x8951edcb3accd2dfc6a4ee98133e624ba684d4e96a52583b8be86d2553125405c16e5e204d233aaa681; P0 0x219c5b43d718cf84952c37c04acc3a691bdd2e4ff4fb4121cb08b816840b64cbdca4b193120c68df221 0xa81832cf059af55f04e03ec8a4e08555ce3599d02dbbaea9da2759ad71f29d20806b9e86f5205edf510; P1 0x64ba38e2faaeb4203e6a08777230e721b6487a1af7231b3e4a1fcc6acd308e24bf22006fb0d2d9c5efe 0x618445a68f8dcd82e35e2af7b4af53b2df8a3c5a2663d4d9423b255d8a60dde3133e3b82dcb341fcaa2; P1 0x21e66046b755ad861da4872c60c157ed046b775043b87b8a6d57ebe6d03f6c224e12cb94de28e05d2a3 0x100f1df3460913a3d226209347842ad19d82000b4d6d6aa9286ee8269330fc79f87acf44caf8df5ba4f5; P1 0xeb5a7302d31202e39675f336d297d5e7f9a835a1710ca178845601ed8e68228459b4c6cad2a8787f1d7 0x192ed6c91057bff6a89b3b404e76e2476d9ea24dcb28d554102174d7e6766332fa06cf4d5f2411b4776b; P0 0x121609003b182602031c19aa00c419bed4cd33654737653918dcda8ecba2eeb469002428ea1cfcb869be 0x15fdb3cd61d5fee98a1942c34ebce69e1404267af458b371f397ad7b02c6e9f127be1deb1a592ce2289b; P1 0x1b95694526309f520649094516249c79d5f98dc4191d9b377466d17220c7be1d100b7524d0565ee8296c 0xbe9cb7d0cfea203ff6a45a9d5eb79147b86a9864e530faffb8b6097a93d4847d1db2a63233b6cfe2686; P1 0x818581f632e821c5e8d46ea12ba9191e9b536a1cb0eb1efd2e193a3513ae0a532216c9672aed6d716a9 0x931693cfc3f6fe5c1ec109a08b2467419c362779f9c5f3e80897d01dc8b3c0d257274e51b7e71f1d94f; P0 0x269006330e2c333b9529f87c5f5b3f5fb4d8c56935a8429394090b66ba9b7f3db81ecf616acaa17478f 0x1c2dc7561c860c0e1bffd6824b7eeee19c7ff7e157fc05bb8d2630eb037186ae8190e24e5729eedff5a2; P0 0x16a52c4ce9be286bfc299e9eb3c67944c74d1509119ffbf13cfe3466744f979f0393eb07dcc2c7e8000a 0x5098ed5b79675e3beecc2149f722cabfbe45a4e63d4c50f630437adb54ded889acc5e3c574046d8045a; P1 0x1728317047b9535a7b7a902d03076850fcec2672dea47d7444e77f1b58dce6634bc08ba335ee49c394f 0x1396f2fe447c2c78dc3c917c86bd83556803f3d6ef62fe00064aa72b804ead86dce4c6efb4a19b8430c9; P1 0x15e36d488faa5e9298cf63da0a60053bbf9827bb49df1bd4d6957087ffbd21853f5180cf806af0cbec6b 0x1165d5efa2e53602a05dd7ce5034fe4f5e8d8377808ef870970116e844a9e64700e5f8b49f9cf590df47; P1 0x1143a95db770aa4f31b7b7a30de444b9b5be47e436d6c3730bacb51d7570172789a2e9a8d4353c032b66 0x872e588b7fcdfacd8fb76e0c9311489110012aaec31dc9cb0ec24c1d8996711044a177a9dcbc9a8bb1c; P0 0x2092638c9f6d274461b66dd361882c1a6362425a955d62d5657fa4291b0fd8429d399999677f7ac2a21 0x4b393d2bdb6c324cdbf506eee10f13a6e71c1209ad0932e9c8524f7b607d66c96515c5cc84e9bbc9b1f; P1 0x142c077adf224fffc9be7a17145cadd9845b8b6df9d1c3d38aa5375b464a18b72157c9e111090bf8e52 0x1ffd2541628164a91d22c52dfdcac28fcb25a0cfa5382f7009dcaa30b8009f08a491bf5356e658456490; P1 0x3a5d9fd40bf0a68fade6be5c6f27c075817ab4b8e2099e44fcf70470129287f8df2b4a1ebf44748786a8 0x435a0db5b2e898298672cf1780937c138c68836287c64fcabe0fecc8857a532a251b3461932f9677ad8; P1 0x102bcb05a51935d79614a53acff7b2f1a1ba163c68f1752710bfea80b2561d3d41d7b9dea4ac6f9ffdd 0x14f3d0403da45847b35de9ca6694eae28c24bcf7d46b14210aea6c0e6ac109a0a774ec116a258bc34a13; P1 0x190a258f1b71167b15ac5354155e842fac4044c3810a8c40c5160c27aecd6d32061550255ae6c1853fd9 0x19cbb40c484775044f5af704ba3eb546fedb4c4502168d444073767aa7285db88d5d030a3a90156f07a9; P0 0x12fa179540395c0791e94db96e6da990a11e28d0f628415e08fca972e4880a0041aa8b7e4ce4db95a009 0x88fc66bd68afaa7645087176b79134f95f1904ba3c6388c4bfe3fa633edf4679a35a319bd2b518d2338; P0 0x21728a22c2ff469ee09c9db2edd1a7e7093cdc50221a3212bc3a741439fd08e9c89baff724d780bbcf2 0xb524e71ee61c4377e1fcd72f1d03d3f6fb40739f845e4647d90f83a8af684359c6c76ec40597eddb4ae; P0 0x3a7cab3e2063e848501f050e92e6c242b947dced597eb3b7d4d45212f8dadbbef7d55c747c6294f2b97 0x188ea2e09ee4dc585324b78f61aa00d5adb408b1978d724c1aee52b4535dd40c916e2e9ff4d9287292fd; P1 0x226591026045b53dfca1168f6cc92c9b73e4cdb11c98885125b34e2f89b6c8d7638df4d2fd6ac3692e15 0x5d2286a9c5199efa9b7d59f7b32f9c715b859ff3a90a552afa1b7c70d5d7ada293797238a3bdccc15ed; P0 0xf75fe982bc05bb63e89b139a3645231930b029c0724252bb8725eb52f9f29531abcff7a951505dec2e 0x92e48fff4ae5d357935d1d354f20ac0861e2de333a9dd35a214734a7f0ad6f55591ac42524ab24bf1db; P1 0x4ceba20b47f80a87d3658234e4cb44bbdbdd610fcec30cde4e059d223c2e4638accb019e23daf9cb06e 0xc3fec4a9eb0e511b3c55bf41acb4ad5c1cfd5374b023af45fa35ca942dd4889dfd75932e38723c65ee4; P1 0x88f0bad88a4338445e8c21dd743e26ee7a9813e0b925b527c55c7759dcfe0d3656b0dd4b640375de8ee 0x9b87bdee23a449082066542b06a0bbe1408374cbeac90980ffb14c2d3f769dcf60d5e460eb65bf211d2; P1 0x563b7c7805b2812041e9a0200843d2ed5d384cf8d6676e73e8028f981d3a52ec0247cb511c00bc61f47 0xdd765571645acb82d9635933bb2139c4e52dd2b5d6f0c5cc6c21c9c14cd7f1742070a2b2cab88cf0a91; P1 0xaed6f52adcb84fed67bd2bd56dd007a7167a5cfe9aec8f0f54cbda80ba18716ba021503ea02ae3d9419 0x1ef949936783a972541d41949b0890b3be8105c257642756b53d4bfe7d7fb3cfe947b3c1cea408cd0d9; P0 0x1b5c34ef01ea023b40fc856f03fe0c68ee913be457378e5edc2b48f4bff3f323bb0fbc0fd907befe9a 0x40f3bbb1f4fa6cbe1289f4aaa8fb1c39ea1a6ca9b823f1082f116138a5a31f62eadd3490d803af7de37; P1 0xf0a0da79c6bcf0bd428c391923a0fbcda2ccf4a9a354a78b418857013f6049e065dab331cc10535784 0xd54e8bf7e018f00e322cbfa12497631db6a92a43160d250948a3982b60c2a88fc0c43a48bc7db1fc0de; P0 0x51199095e4e42528662faa02fd086828f2ee31d12b047b93c6fea79c1cda33b10e8c563820f20d2cd06 0x81394ff8c2bc9b7b3878ae37a9d84a90f53c0f7caff6c4741f16a8d0f102e551d844d106713c7dc1c9e; P0 0x1dc3ab50c63cc40fb0f69599787639fb9eefacbed06f3017cc4af08314f293959fc4dc06474d5911b74 0x23108c4e1b4108ec0ae7f9ac9f118677a6c53e44fd12fcacc07b805145240aae82349d3ce0e376778bd0; P0 0x23108c4e1b4108ec0ae7f9ac9f118677a6c53e44fd12fcacc07b805145240aae82349d3ce0e376778bcf 0x1; P0 0x0 0x1]
    [(0x8e5080f370d454d0f85c00e3e7c5cae209c3, 0x4a4bb970241fee0ec738940c97dd67f2973949d39e5c40cec1c387541d31e53155c649cabcf92ad79f4, [P1 0x0 0x2; P1 0x0 0x8; P1 0x0 0x80; P1 0x0 0x8000; P1 0x0 0x80000000; P1 0x0 0x8000000000000000; P0 0x0 0x40000000000000000000000000000000; P0 0x0 0x1000000000000000000000000000000000000000000000000000000000000000; P0 0x74d015bfaa59e000000000000000000000000000000 0x100000000ffffffffffffffff00000002000000000000000000000000000000; P1 0xe9a02b8127f416ff9307ab7d8173690329d8d7024 0x22dc58475bd8dc34047a77f624265deb5b1da356465281cc0dc784aa1a711ba7c22c3d086cc5dae7e69c; P0 0x22a871f896bdb87b629a21ee6cb4275fc7deeb6210fd873439c45fb2fb6d5177e05ea8cfd9ff43b7449b 0x5ad7d2268235fd63e30fb6ad6e83099e1c5782df8c7c655bc9d83a8fddd8956057bd9a1567f8c588385; P0 0xeb5993315677ffdb705685d619ff29746f85eac186a0b926d4db9b2c534b09e63394e6967f2d8f2c0e 0xf08a4d58ee52960707faddc4f7294a00e19730de7de9785df6aee16e6723f966460fe8c609349b0d1ab; P1 0xce42b1687f8171f93552b4a71a3286eff9b52a3f2be3fd0db8e1e28b6097982eef4178133002d8a6a00 0x1dc94dc1c9ccb0db5cd5caf4bcb1b760a3bdfadf4209e5dbf8952046f90c3917aa5e7d64061a5e22c672; P1 0x329aed01a0d0465d4e1057d1d4eff08896df44e9a0d7300a187912550e2543634a6bd56b857e7abed70e 0x66a908d937b8b3b0bf8d4799596da9d81e7c85d69452f3de133881bc9778cfd102cb6c6cb11d024e91a; P0 0x12c9024074c475bfcf0d67c02b9c3ad0e2cd135fa423d51f1ee8cd128a297ec06b3dad590c6d987b4aa 0x17c26a59170e17a44cd74c4953ff29924737f857c3e2339d813270dc656fe315315b961d690305a789da; P1 0x2032c33a18ecfd847ab4e28f147d129cdf1054f7e433af62ef82d32fa849518a5b8b5163b9dc58e292e7 0x1404adaeb3510fad278f967468a1a52843d718900913b76734562915c5a531496115cfba8b41f72fbfb1; P0 0xb6da901348a97a1724c1133e7df59c96f65a93541ed6353d976b9a48a1e6ac7a6c6e61d2bd01d5aca1b 0x128f8cf74a33d52282a9a0abebe5ed770ee8caa07318d189685f79c599067eadad5b4bda18bd91eef56; P1 0x13a6454f83da1365c0c53b913c98b2c4d5ab68cce88f700356377efc6224efe88e88253abeabd3469b 0x66e0f00f10c5951ebd9cdef72caf4c559e17920fdbc540e18a8b76fe8c52f698c4d16f4179944f3943d; P0 0x12dd7d4462f54c2fce44545d57d26d37d6392b398c09f3b45fe7dd1e245826ffbe3a859ddf9cbc43cbe 0x117c9cb3024bf331556dafb76f923679eb8ea4cce11822bb3a955d76b4bf0701d4a79c0552287121d56b; P0 0x8b87d806536f5712c66c9d91656baadfd1428ef3520f0e008ceb9f6888ff1150d556e7b99c13307caac 0xe5ff826c4875b8c7634e173a49692eae08bf34e09a09776b31a97a571627f1802ce14302c52cb25604d; P0 0x5e49dfd7e6a3bef40e35c7e71125cc6f43e2b92e87e145caa09f353d584a3945b4bf4973de7836b8d99 0x2042196e2443f3496059014cdcd19b58422a7af3987037bc79106dc40013c5f0e688ceb81e370fac2a40; P0 0x1dad270ac16ba41158afed79b774e6de8f3c8a0855841eeb3a7b267caa400dda2e97a9ceaf7ecf45af8a 0x17bc0b370aaee810c582bf6e2e42ea67edd6ef84fca00e3dd45ffd4b9f8eefd43c2f6597c77e099ed256; P0 0x1010c04b376cb13a65a9d11271ae8510e447789a0c15336228f4d4c7b9990c8daf9d85ad6183094c8e89 0x218b9768efb7ce58adab9ed91c77a8690d177ccaf3a8f58a717b8d7a7c8372b0abacb7c1ac2eca65740b; P0 0x20177d0a0c9e628fddfe31499517f7f1373bfe8889e2d8bedd174cc7466ab55e74731517d25b3ab8ed7b 0x73ac721a04bdecaf1a54c2d0bc8cae505a26e37e489d6bdea8beeece42b714d307e6c40bc6eb12f4e0e; P1 0x2fb2f16e85434ec7d0ef87aa930eca807f1c8155ea1bdd8cc9b0542b4a6956ae4c1d89ec11166dc3670 0x10cfd23669b5ad5d2c45ce4429b5f710427670d7abc5a032df264786b80b86ce50f1f9c58496c079d018; P1 0x101ef2da3ae6f7037a9a06cfce5203ee64536408a28cdad8049417bc3ff70752cd2b626f507ca5ead3e5 0x1bfab162c06b23ef374a7179cde5e3b19a7b71be5ef1c5dd9cdb4634766512b4d28e06b116b7bc76af8b; P1 0x2ca6b66194f1e717f221ea354ecd2fdfb2aca828d5afc900fe3083fd4d6911b683d1d4e73b8df8a7cd03 0xb234cb3b9a03da294fe6a9d4aca9dc601bfc4fc101a983da444727a641197b6a0a79803be151d52aa7f; P0 0x389aeeb865dbd3c34bfeb23e8cda38a3e0ead4b9d07226ec6e2d08b7bd6911be7e3c74b0a94eed8d1e1 0xa4f6aa33ffa33ce6cac6ff782f3db6c34f9356485563f8749f2832b958340d5a225a301ded772596750; P0 0x308147d35d39565e408f24747ae171f9e4a44921de4afc01fd8d3ecb1cdb74f182d90e8d120da9f956c 0x16b2e6115e2d4e3017a049e71939951c3d88480d1b7dbd136ddba0b59f7f8a6a961f30d34742dfb2d7d4; P0 0xeb1a3e1b489da283d8e09bc4bb3106dc928f453bc2ec727c9e90a9fcbc5bf2756fe8395ac2b57db9cdd 0xe03cc3581ece94e3c3064116bd8e8d3492cc638b74a2a21ce2d0792fe934f905c9a84c450d26f93b823; P1 0xb33fb9224692f9d194370a31f535d3f32b44c09ebf6319aed20221f38ebf6609fd30956da198c874ce7 0x1d2de5e3499fb3a18147ee6f7fe359b6eb3ba18ad32fd4770ce403f5a72d4be222259df0e15942b073fb; P0 0x184820e44aa981c8fa8e9c2dfe1c3c844ee2cdc3aa239e719c9d3c5017912a3d3dfce87c9ac8f5e80e3e 0x19de3033409640cefea75fd9fedf03e7e4fd1c185919cd65067748a914530fc9d7f47043adf424aa2d7b; P0 0x131553dad0944f0573a913fa4d8b3d467479b2b4893173ce2bce1a7a7432742040cd24d78da97a9e6b40 0x8f4e35ceaf1610e566e09808028c4690730bd5a18fc7be24db7f4ce9a338b026b4687fd729e8d1f29d9; P1 0x49359625f8b17ae409315569b13c651dd7c022d80a7f76a7f3b92daac0b059c40e58271a7d6fa35fc28 0x76c5b8df8bc494e001a8210893562706c69a9359332aa661a31e0923a0c25a086339fd3fe582a35df3a; P1 0x3249ef4045f1d800c0609c32f529c9db81a98496cc380e1fec36757908aaa21beeecf0a2ce933c78adc 0x129ac45658eb0a172ab75b712a6398f6d8bbecfd66f25d216dbc56491675ac45ad230a2d9a92dec260ac; P0 0x9df060ba7bb82ba9232819ef6dc39f0126c399a57adc62747d0d52766a49b75aff9f7d9b674fdb90da7 0x6540d8e91044876d28e02f13f982f3192ce7234312e7990654496d56cdf1b12c9d24f00f3c50812a139; P1 0x248c30ade4ef69a9ab79735a9c3eaf9a68167b83c29102bb858c551330a13beb3580a82af0cd52a0778 0x1f8005a2fc6b7154f59ca36e632856750a4a9fbf6526b6b31cc03ab4098ad4325442fc1c0fb6a0f33c6a; P1 0x3898854ab2aaa949aa813f807f7ddead6841c74fff0bae0fc93dce961b543d0730b544012b5ee06a0113 0x22b12b5e8f5eefaa0db12563ece28fc67ac03425d15e88cedeaafa75ef830cbf1e9a9c2edcc378068645; P1 0x44a59bbe1a05e05e81dbd730c41e49ba66506fe658708fc390da5e07ca78ad5dfbd16835a157dbbd54dd 0x198c30bafd7abc0539cd18e690e6f8d919f52c98bac8b7b5ce79200fda71ddb038c2a21f0f30ffef55c5; P0 0x129d17e8655e11b64979acab4675de6d30148ce7080c6f3913b168b0b7825980f241ea08f7607f05d42d 0x3184822b6a6f884c544b8fed774478dd928e73052421cf6083ec8cfe6f90910470ba7f852567bb0c1dc; P0 0x45ed85790273537f3c8fc125676d3ea35c4cafa128157fe27cf72955a9ebf8fd85d8a94ba2441e0a83 0x150f93057689558228c37b327fe12fba7b699f867782d5706c51409215749c0af9b2f55134b6582cbf1d; P1 0x194cabbab9d2d869628a45b70e308ae67e5019a7f3ca442b3a23124e74a2ef61d7e4b2771fb11d948adb 0xe947a31a59f16419aabec3d7d2eeb2a4d1f5985339a5aa0933fcfde866c7a5799506d009dfd15d14cc7; P1 0xc1ff3b3176215fd564fa6f13d9c09959df5eae2b3b38a0b5f0f1001d410ed3e81ced8c06b4c9dfbda62 0x1e87f015ece5552acf7a5c2a9c9a57ab22c9fe440d388d776c48a8c20f7ee24171f040499323ca2b0560; P1 0x352ac62f4d68cbe1a866318766899e0edb88bba516b4f2e26a8b7299cc31bfa35e4d3777b603d62e8a52 0xa97b7cecfab57e5881a6ea6cc392fae001a2d2249b62d3bfea3b9537664f15168e6be192f656382550e; P1 0x6665c7e92207fcab738d0f4d7c2207ebba33056a96ec60e68079057df7256548bb4a49bcfd77dcb9bc1 0xa52499d0a6a1b862a4439457bc5d5cf3771832e1e994cfe804ac0be99763cdaa76f56b2a2900771a5f7; P0 0x309c4f0df4c22f19a6c134d1a51565358875666cef63542092402b0699d17def7c5bffae5f96a88bc3b 0x6c92a2095d1e69bac63f15b97cddaa2f6717775c911e965f275d9e318f39457c408b814794b88639f26; P1 0x2a05c6ebb880f5888201726029eac62a3fbd4c249962df4c7a346890824f3225f864c0e2ae5c41bcb7c 0x13839e43be269dcf3df4a619aa28f2d42bda096a0681f0d3955761578ae1804618be2505a986c3d6ff0c; P1 0x15b84fb9ead779f43bcc8d4a575dc4cc6cd122d40b21bb8ce3645d93de310003b84a371cf7287b342649 0xf4e70b4395f0121936bb1149e3568bf8abae2fade780bb4f580ffe87422c1a9acc3e7e646c70405ec87; P1 0xd5cf3f01e89af2409972ab28bc8378fb472255c373febec2712b87d019e258f90b5247d39c2829bc715 0x942d00c6d7315e289c5082217af97926a4b277038c8cb4b7783880f18dacbfd5d0153f04a4f30956f3d; P1 0x4e451c69aa7b95487c18c3963c0fd4685a8b87e969af2b64ff7bfa49f2c2281677f9def557acb03a07f 0x5e6a73d22bffa05fe91cbdbd678c2f39922274b2931cfa6bfee0243f7845c6775922963a86d3f8bec63; P1 0x1fc73cae888208567a6e4cac9d5a797548f07c33a9ac1b8f416d25ed9aa7f663fa074c81a6ba82b392d 0x1f53e7d11f649d3a4583722358d86eb1147258d0245c3a78d6753fa464113f3cb73ae6569cb57a513fd5; P0 0x1bfd36b21ce37890bb5199598bc8cfae8ad74a1d52b194e69384358645dec5e0a5eb58caf79575513b57 0x1d24f2261c71685ff94d266bde3994d7d4a64db3bc93cb0816e38fea81523645e6ccb3665d8e6b9d832; P1 0x30727a01df6660b28f4d5d7eac02b9228baeb1da532abce81ebe20918c382dc791bb7433125821adb1 0x1beda3af974c102bf83b2417dd7c526da933edf0037e1246c0517ffd83fcf0da95866a6a76097d9beb07; P1 0x2c7d1646bdad4156f6adc9fd9720951105089c3446e583a52c375d48ae51e9b18c51f2cad500ae0817a5 0x5ee005c1a1f4d7583d767ff683cca03bd7d2f70e176cefd72b37dc380f82c02f276abcbfdee0b5acfad; P1 0x2016928cba90624d3ddcfb090c16a39aee883b5eacc73d3a81ebbd107705d80b33933a8df184cf23ed0 0xbca0444ef6849ebb55402c5da30501d780daf37e7f52ee1b530597c4cc20d2728f8ec2296d9abaa3e02; P1 0x7ed61e9d0b867a313706a140951dfa4d9425ffdff29707ffb2ffde9850cf988a43957cabc7307a87436 0x443bb1b2a33a01f61339626d1c2aa3508dc45d97b28e60cac21e877f8d674fec1565b4bdf0f8a9fbdf2; P0 0x84c6d50556b41099c14c2852616f3406aeed12c02d20f620c03205e4e2d0f6a3aa22fcb3aa988b5071 0xa42c25dbe4d44c1a7ab52f50fa4b4f59be9dcb58e5b456745fb1cd296cc08c224d1f09fd7aebe9a3183; P1 0x6014f1b6a52fb57a27158bf07eeae39b3c4d462d51f9ad1f7e8662547c04fdac99c2074a491f36fe3b6 0xf2bee16315977b2ab8aeb5f9449a6cf9ec8b2eb8ed51a0be59a1a5fc4866f2ee2f9340fac33e1c8187c; P1 0xd20f5edac34917cfd42072f37a35dc2645bb5925b37d73c22dbaa3f06b81e9220ae6a7e165d8099e14c 0xd4b8ab1f60bec51a37fcc1812cbda17e54a2755862c69557726d105bf7f81ac9fccbb5b6ec22ae5c514; P1 0xa14f8178c70e32ec93f3eba8e17ad13551b985b985d0d189a3bd4b06bdf677641bd5a7afb38fc018d4c 0x8eab2ea6bf475a04acf1420e1cd68fa04e82579bde9fa407b8255eec63b8e8df0636ec079d12faef414; P0 0x2447b18c0df96a81d29c23bee97858aa6fd94f5eaa00f1e432c978ede7f6a8a49c7cfd099a3b6b323d8 0x1828ffbd4776e55d74a92b57bed2baa12b27bba866df0555b33eaaa9b37523dcf40a28678aa965c79638; P1 0x214b253c36c891e9dfd1acf92c24c072314dc7bc476e029fdd77445a9b9520afcf0b01586c7d104e6b3b 0x2f5f8fb50e218082fd510d91cd6445d9e227980ceb821386fe74cd82335fa06fa609e0fb2ff37bfc455; P1 0x8001552322431151db9147efd12dece91a3528e55aab01ee4e49ec82cdc422bd33654437e47bd2db54 0xfd857217f189f12633673a09cbfde752152a0c32abcb47d5fd5234b526f3a73eab6336d2a54e688dcde; P1 0xe51f9690c5642f42e5820e4757c9e3b7fd1fd7055812e88634b8c7cb3cd0979110ae6656c3e10983e6d 0x1166ff1ba61a709a996e6be3e7fc976ea99dd79617cd6254877a7783ddea9785265096a24f942c017b0b; P1 0x1145f739f61439c688d7bd96e921dec356bfaf1b16ab233f709e70687874390bc65b3042481d358b0a44 0x1ae17e049af1699386882cbe54047214e372b15aa4a1b8e55da5691e5f1385436393438ad1779fc0d76e; P0 0x149b67f0ce00852ea642570543e8f2aec63e69c4595bde175fceea1f8a54be9cfccc75e0e37173dde5ea 0x117a8638c356cc0fa431c5c790bd95fc570aa3f25e6f99380928d6667d8f5de59feaf64df4fbae85313a; P1 0x116cd112fae7dbc89d25ddbedbd92c2deaa37a19cb8f0def2a589fc12ab8dd14deebdd8641ea01ebfb3d 0x208e710cff3c5e75a44b7a3664339b02302a6c69d87e862bdeaf4c6fa109fbc22b29995427387509467b; P1 0x3c748833728af948dfb1c49c63aec4e00e8feb2f18f7ac72dd261327a2120d7bf2f8bdc7cb29e21a9a9f 0x12b3bfab0661435e374ad6b5a850b3df8ccec809afb3ec40f3d90a117331ae6c16b55840618eb8856d63; P0 0x9f99a4c7e79b0ef6827a7ca740b1d952ddf6c3e5bcf832ce25d3fb4db7d856c5ed84d143c98bb279a9c 0x1e9135afaef905d441f3ae8b972bce713295519b2130fd01a999f7a81fd8fc39f88d17c4334d14cf86ed; P1 0x354b15ecd5c24cea99532224fee738fc824f9501ecd03a8cfd8a08ef8024704c7b42ea1f10949a1d788b 0x788edcd55c82e80c92587f31c74758c9c6d3b94a0076515d48facd277257ac371a9a7bb664117a60c57; P0 0x19e7fa558e2324be707af18b89562d0b183de81b9c180454c6c1daf5cccd6a198b9fffeb24876a00b6c 0xe50ac7707cdff92e730a9e2f3601efb0ba2b85adba73988838d245f06abe0db89062c1e6a1acd5b4e65; P0 0x5d81a296e40318a6314de997d07832d17c9b70b02eb516271c6de03c2d4827aafc501a12ae60be0806c 0x1ccd10bc77650212c48fefc82cf065cb7382662272259a14e93b4b3213564e0b42d7f0d69e0e839837ad; P1 0x2f5006ba274994947790d651aa6f7b19696c54574a8f58a62d8852da7b9fa5fbaa2e1a2653d484be2269 0xd32a596c403a3dfee8a9b2d6077be911505d8c13295083978fb09e3158cee5302926668fce56e5f7b19; P0 0x4f7ace0273e71eedbb97f9958bb5c1a2140e10376cb4e5a6f4e991c416a61126e70e374833d7a406f5e 0x1fac4ca4cb76443ec2cffc053c9ae5e2c2434f89a6d8578e0731c639fa4352d778cebb2595eb2ffa12b3; P0 0x1c9c08032839c7ba62485b63c24810337faa343b9f8756ddbbc4fefb1968c67085cd7ec9389dbb6c3bba 0x6043f24349fd2f07a45f89b12e344f25c49ed80e1bad54ff23ac6b1d12b996f1fb8610fe378f9b8e84f; P1 0x21091814c3995f61cf1558e1c1731374ce40f087553d14f99690b4a84d1cc757ba028cba0d00568386c 0x14e5e659323782c2f8129e6b48139f96cb0bba30759a72193ab08570e75535fa5c93489e914e1d1dc96; P0 0xc74779177f13dc5171e692209ceee06eadfec6cc410b0c2b96626d07232105a87fe6ab8e5dde6e9a2 0x181f3fb5adf921f4ac033dcc4e4704ce4608fa50794c7d32d82a4dcff92fa180153da142d165c65074a2; P0 0x109825b65a30b0a9890d0f26b144bc14c11215fabd61c29a5a8513a2178f6430a74a4f2eb84e7c7a1a9b 0x1fa8c867f1fb880253bf791daa17361496e3349e059ed481857f43463b2badfc6865fb20a766f63454f9; P1 0x392b5c13f837ad991d0aff073a982b7a489e5656b5950f2db37d54bb048acc6f86a0bea60a52479fe943 0xfe85e5137cc6abee0a484418fe52dfd88a445d86cf9e02e12d57a97665a55684c2b1b2bd386bd5ee3af; P0 0x7378057f9a352fc58c14786fb981fc4589365d64ad83a5886eb923235925f8d00e5f94d487aba19bfa9 0x1cbe1991d44cbb9708346a19bdf27b5265af80fe7b71968a53461f513d03a68d7cc2bf1c12277d5e95a8; P0 0x178f742453cda9df2d009652ad26800433131a658ae122541b9ab2cadaba0e42effee6c5132fe4327842 0x21b8aa0ae93eb3bf078e2d85896a362e8f2c5148d0cd347a13dd130d2481ffaff75e97ce55dd47aefa5e; P0 0x206df44c0aab592c3b8620c7ce756a36f5b8ac342f9b96643747b443375ede7475ed8ff76df506b88345 0x193230a00925453d6e6f9c6c4ba6c687be1e70d8512a3d7a339b86d226f6da8828217060769ef1a7182f; P1 0x2435b2ffcca41052d164f08cede10f03aec77ada58fd64faf432e9a3101f67508e71892c3f134e4bf6f0 0x1490e4be9a3e3aa4b21f036966417cd67ac0a6a3355d78c53d23f9fd9e13bb59abacc6b51301868cc752; P0 0xc0ff2691350b816900a5bd681c45efefd676d2d6692cff10c85d709435e085d7f9d99f12a9f5abdd32f 0x142b9b72c3317fec1bcfc190630c4133a0a254658340e3ca5555fafd157e7e707b4e264d06187963a7e5; P0 0xb9a470fddf91a12565478bfb7e4f67ec8226ee3d402074612d5a02332e9bd30dc32b5334a613a20a6ab 0x1137960191e12552827831eb44fbd192813a7849d993c0be514ce04c0f82514e96c86bc292e04896a83e; P1 0x10e85934c712bfb4485a28e05c57d05094f8859e6dee85ec8b56e9468c549253e7682db4b9324db51b24 0x15fd691f678881c016827174f3dd9cf14af50de1df1502cd500a0e43e0772d03d20d0520cab7f21f29a4; P0 0xdca56f7428456d392d0bb65ee951f5abfea0f80acaf8fb956a20e0f94223e21eef8e847d4aae1882f22 0x1733f1571acee6309a308b84f375c0b79cd9b5684d6a0d7af85cdd4b659d15383300becab7d885ea004e; P1 0x1eb52214ca884d301680d79f2f5e6687a449ad67c34759dc33dfc065accb0cb08eaae8ec2f34382b89f9 0x145307157c28ab7ada3d0eb3a9a2c1f7faee480e5725263c844db41ed277cb85c43fc49ab9e8ccfb583f; P1 0x178f9aedb113c115e8b733cfdd8ffc2248710ac07f17bbc2c3b3373465ad816eaa482f9613f64e582335 0x1e4b3096aec60d4cd6f59ea789b68229d207ae0ff1c1b1822a0db6c2bf32fc202b4babb76b63873539bd; P1 0x345805851044112493724ae2d60492fe486e35913a194679fbb813303eb86cfda9274b46ccd0c4504435 0x6acde0a0f951b9a368b945921fa9099aaa89b2db703a40631289e4ab98b5a6dd1d0a449fb81995bf4cd; P0 0x145514365d9afb6ea68f657e7f68838ddd901f6ee565f844804c275394a6146b901811a5cb35f5bd8fc 0x146bf4d83fdbcaeb9d9caedc81c19418e35288aa33952f7c1e7d4e260a7449ac4ef7b1f11bdd3fe4726d; P1 0x17c98a799dd77e0aac3fff287bdf9c246a6844f3998f7624cea3bc3ad67df67beb74c99d155ca75742ab 0x1b7e5746d8079056e24d8b4e011d8497359ec0c848e8bbaa741566ccb8908c9aca6db4a4155287ad3e37; P0 0x158ea126ef80b31248a4a30f65275ff0aba2dc3976c2689b8917601129553fc06cb2e1eda770bb3fbf25 0x743a9a7d95c5240698763c7f39a9550271cbc073db663f84c053a677c76631fbc4f1677dad6c36d8b9c; P1 0x302876e4b6960f17e9c6481e773944d1230f9ea0fbd5bbdb9786406461b52d20acbec1d7247a9e35d9d 0x99575123c1b57fe6cdcc08ca5d94e5f5ddc9ffb28733f6cecd4e8fd2cdde00aa66a413ef6f1a586e1f3; P1 0x53d26a187d249d487aace02c17c02276eab4a3250bf6993f9eb183b4972da7c5ab3f7dc72d587269343 0xf767be9039f9ce696e53e8b7918bcb4f3dd65a088563ebf2b80d6d9cc620453ef953c3aabc781097e9f; P0 0x6d19d680042840fc776224969b06c9a740ed060f4a4d0a4903d8a182c51802c1cb58fee92ff0359aafb 0x1adcba313d614a198e14d5a453ed4609633bd474a5b9f7e6eeb6e4bbcbb1bac0fca719633e15cb1706d6; P0 0x14941a55122e33ce116de00121e3ed961556e85bc160d365b1d40cce1443074f8e9fc8eefb25ef4aafa9 0x1f3e5f3f1141db85ff6b3d2f7bd3de9bedd0447abd81564a4f13720858b2cf3f5597cdc75f9527b98eeb; P0 0x1bd6c9be0b5a48346e1258b71ae0be468e1b6584cad59028b7a079fa423bf98f8d39c1d4c02fdd18b47b 0x166c3b782f4947d3c898037c9e0133c6fed84a29f20bdfac3735843f0ff7c5b46cbffbbb20bbf7186a4e; P1 0x1cad695c364e6d5cc86f6587547f6dc36c9e77c2f799566da4dfd449a79bf1532ce91ac2d63665b3a352 0x155cb22fb7dd691af426f5b81513d71cccd8d9aac5e5d635ad5ca671943c2ed2d4505971c9b4f5158396; P0 0xd03a41e777cae7f434643ced3ff31c0161d85af08ee15caebe21c633b7af6921acd499dd8d4b056fff2 0x1ee1d8504ff664dd445684d01c9012a3397fea85d0d2ea76ae1ed441c5df548f66b649607f383cc18152; P0 0x1b32da5f3a031667271735399682e6cc32ebe32fa3d056c1135b0c20d8c029a91cd051c22fd8ec098d6b 0xa3a414a0d726b803957f1e3d2a4272350247f2f62dbdb42e783c63a25b69a7c5ebd8c7338ffbca530e9; P1 0x5f75ef775ce52328f08ec65399231e692bf6dbd7fef6bb71148d07c0de501cfc48d23cbb9ddb5b75cf5 0x1435be005283c7247a92f60e82b0120b6a299d1b1b9acc044515516ea4af0e8ff586c942eb388d557d1d; P0 0xba5f2efc8671c890cfee10126e982c9b01203fdf3e085d6730c7354f26024df207acbbce17128b66135 0x2d1075ba14ebe4436bc4f4248a416f6ed201c6a54d7ef72ad81cca430ab54238d3353e834fc63173204; P1 0x73d4cd9a856d80a831eae063c0afae20562d0813babf76025881c196708dd5ea8a04968846459dc7de 0x22d2441322f05f04c1c9de81144c4b3d2b70d2fb6a17ef390c773f89efd1f3a04976cfb71bd47f7369e2; P1 0x4528d4f0ebd749eccf0156392bc64608157158ef80d090d3012cc2e9c93587d727cba7bd3527145ed24e 0x72143548fbba018a04009f22b0f64ce4e0c2a125bf28bfd9c3de65f42ae3d32ea6489d5fda83dd24b5a; P1 0x2e6495590eb3518546a9d0958235432c6bb532c13b469f40c5c31d2e251cde032266703cd46434edd26 0x13897ff68f8dd8f885b4af9898c5c4f1448492e53b0f8be7b7992bac08893adb5ca25ab2a45e1d8b8942; P0 0xae2b4bfb7a25755212b896be88bc2f62b881c7b442ac66c50372a0dd9d7ce57cfcd78e95b5601ae0714 0x9e379656f6b03c14f155eefa2a7ebf05ff1e657c3296bc79fa2255c1aee490820a390783b99ec0c11b0; P0 0x2c9e68376799cda3b04e6d5e03c305bb314058b9aefc9edf395ebff1922928dac07588b19a209f66a94 0x14515dd2580192b4fdd2ccc1c73d205f035d18200e9d3aeeaeac589a9ef04599388f886364f378e17a2c; P1 0x178bc11db65cb083a538950fb5e30811a5f2be6e5c1801c6b1622ec9086e12b61e14d4b8602f6be47fdc 0x1b72619faf38d4621c68e3047949f190edc0f0302b67c642edf77a8eae37f771350b5da450cb790f1884; P1 0x2af7c820611de48cf74d53ce7c5877b125ef6a01d91a5ba01d930cb7285496d7e4f4442fee85d480a011 0x17528828c849d84c856cc17ac9c5dd824dc4f0c0843967fae45187c55a7a38db80b8c25f0887c1cf1f3f; P1 0x1f064e9fcbc744b6b57c213e1817583fa6d7d0d1c065caec20288c39f0e1f1085e133f727435f4efae59 0x5140a5e851ce58be2dfad55696cfb9c63861be49fabd5c925a805830cac90431e39034eb787e6adf959; P1 0x1788f687bd5d305f8829595bdd15ec8d71d37a603598762c4ecaaa42b3635830283a5ee97053a8f53a5 0xf014af4805027a6d9b98a941a91c648800d2d49abfaa424bab72ec235023602b67ff9fda1bc312fa12d; P0 0x66bc9652b352e897f74d481b0f9fc8635b61269882d7e4bc8ca039460829b3bcbafa8331550c188cd12 0x1e2f8f627bcf7e3ecd381611450bac7c363b302d1adb4aac27d8c7e30a3b1da602ccb318bc90e6997037; P1 0x33f8b5cbc1eb33375a9501fa710ef3ec38328df1ff85e6fcf885911b1a65473bd23ea7ef8c2523dfc617 0x1c35e34fb015ba0c6dbf6ca03c1bae756229f371aa1c81b1f6289e0e37480761d6e88653016ed4ec21db; P1 0x2d646d92bf783309a62bb02c98d28aeb88fb0de8e5678a346ea1cd0ea0f9fb9535e4b3c097dcb86300af 0x1424e9b524ef1689bd27d9ed6965b3cec88af994d1731fabe8f96bce34e1d08c6a3934e699570af8ced3; P0 0xb9294bd49347b72422136668c088305b7a8e1daa3523c84a2c0426078db354fbd76641838e704fa51bf 0x731f14d480fbaa25764addbb9091d88979af85bb8889a4343879d6c4de4b1c74179ac54f8add75fcffa; P0 0x179f5161f080129e530fc0630543638aebe7b36e250a54f7e33190230ea1a2206931ac3fa673f02aeba 0x15b83a7be20599c9469935bf758c03ca2981b6129957b5a4274ae77703a3f36f2b9c5ddad7de15fc9c4a; P0 0xd7419ebbcc4dfd3c387ed5f17e4eb4cc1bb42bb5fe93de830c33512e1d32ca486b35a67301e563ab7e9 0x2bcf0c19d87b8519e64cd306de0f1569b5cf4ec2e81a0f8e6c1512e9d1e8f010ead5ebdebfe09ff9d2b; P0 0x36bbc3eea0dbe09977f494d4189a2bb9084d6ef37922d16bceb3109805986565eb03c7be4b29fe241f 0x99e821568b3b3ec84da97475276bd732cd587d15106a9b8b56a0c37249141dd10870cc0cf2b27a672ea; P0 0x2a388377b0898d3142ca59b5a208b5c03b1a97608afbb5872832669972aeddc48ad9f52856ef2f841bb 0x69d57fedd54a87fb0ead839b2166eeb2e7dff6dd0027736fb239a876ec680bcbc100707b3d39ec20b39; P1 0x27ede1d092d3d67e583d03b1ea97ce4f94032e5433e9e1bc7047632ee430fe7c8f94c4e85819d91d3b6 0x102525fc69457c1bd6ac595e8f35609c6e83bef9b6c49c0e7c99025574fc135c62ce0f94cda99e283bcc; P0 0x76f0f87e3c6b299dda278e2e897811edd21f7e1f9156239c3226f32e09eb7391db3405d436f03703138 0x1b0ec45c305d53385692b0ee5933fcb907324c8c86a00620370784c28cf4039ca37ee1db127c235e13d8; P0 0x14e10ce4a6829190aa22a06ded02a5fed7beb2bdd9c83de699dc4d0310007dbf56d9e4f750bfb3c2d2b5 0x7b9e6085fdbb9be63a1db13545d81913229d634394ab376feea1e708a0cb11adb50c81bdef4b990797b; P0 0x1b3cfbd6b04b0387c18b61f3d814a391f8dad1357e3427b8e48755a09e68ddea89f68b9180b31222494 0x8ccc6d514256dcd5b60d00ccd3573d42657bd827c79af8f8fcc22ead9713d233e688790cfccca7d4845; P0 0x2355cc69e47843682f96e7281d7b76adc2b88e65ad3e9cfa593a8d6321ac052b6781dac5dc5a7a9ded3 0x16c4889ed509f6cc7de3de86f1a120f145563367cf0ceeaa4f411a1d31d6d3107cb2947b652898086756; P1 0x1d91035805f74c23a043dc71be03767159d63e580af618f89cb45e864041134f52fc8e5370201017d9b4 0xfc8217f458c170b991033a90245548000dda03ca9e89944bd5f47a16972ba94c1fd820a4cc43cd329d4; P0 0x71a5de8b4b266f6d4ea7f4bda92b85bab846d5f69ae0a7f4f31df82ca90f2483195eaa561c6aad57683 0x1801f74d76455d4437e31f904e1359e3f23b3adea329f6bac2bde2dcb432fce061d8634f607281c9b59d; P1 0x20dfe8478c02c80e3e9ad50f96e4bf5b73e30a887145b3410cbf8931eec384048dcd5bce84878c01ff72 0x69b484f9e6ea0a55070e1d8e0d4194c3e487a06ccebfbae9be239422e71647e35567400c12529705280; P1 0x27d502f2df7d6e8cae532d6109e10e52bccb96b7d19678a93c5cf9d7e1d50f88f2f96642ac54f94d187 0x222939829649a9f827fa18adf0c243f60a43376ba12bb05b1442bd236ba09a03211b0ccd7aa82f2823c9; P1 0x428fb9899c796e6511ad94fdcc69baed682641ca5d157d7effd258ddebfbf5cb3aaa703c2e3bdb6ccb7f 0xc7c7dc7e5aac88f91a75bcdd9af25a70a167ad201f1af85a837d354ccce23ff1469f349a87fab480ff3; P0 0x4724007437f96b674deb30aacf3ae6db0ddf36faf8d4863be6d15e8e33c50dbff4cbabe95404c6025cf 0x1acda96a027b1a5aac6743a91db8999a3c32f7ef91ec702aa39b78cdcc0f7db25826c509e10f0f6f1daa; P0 0x147d0ba07310678b43ef3392d9f0a8a20b4d6a95ad72886c2658688e83595edb11abd7b24365750b7241 0x228aafb100be35ac3ee43e09776d196be43acd959f86b7fe80a7b8c139282995e3476f73889fd14362d3; P0 0x2206d21ac7e4cbdcace6fe1a1b0ec46a9c53f775a01a95ee3e2a54455cb7073abce608617d3ec4fe52ff 0x1a290be167ecaf93ce617aa42f58ba2b20c7b623af408df2e7d8facc0afa133a3aa9fedc31675d5d02ba; P1 0x2708cd21f59f1c94a8bab66fac1b1ccf499f200b0dc8b19eaf192cd60ea763617149c932da3ea6cc174e 0xc60d94c5011c4a06c3356b59b73dbeddb0c01dce5fff06aeb9b2a3853af0c1dd67650957f6677ce7d9a; P0 0x45ea60a11f06b27a8248210ede291290591fa1938473087bfcf5de3e46b5edffc2ee430e406c08ab97e 0x1c9aa0164153d2c1e2dea5c5319e2909b544db5687a96de41b9959a04d50fc79ae61360a8146bbece6c6; P1 0x2eaadf9a18e7c16888960bb0c504d09d5ad0b083c885b9acda1350caac0234b34f041e390e64ee2a04be 0xce7d838bfaf95328f8089ab7f9f7ab8098bed4001e4e266bc1de2c0ccbcdaddd887cb13536618fdb92a; P0 0x4bffd578ae2c8f7c7fcf85008f309e9bf1616d0debce16cf5058d9cb53205f003be37282622a53e2899 0x1f8c62b85c02a6442feb4bdd31062f12286115265058e18569bd4860414ea40c3934c1ac0f5f560882fb; P0 0x1c627dab213d662f7bb6d9d9ba83c0b981f89ddc734057e7db6d4c183dadeb4a5a12760da20034d0c381 0xdaa1639e5da0083f417ee527a9e20cdb844bce02ac89fbdd50d4f3a05dcd0d28ee0cfe9f72f47263ac8; P0 0x5532cf4ecbd17a0805f71632d9cf550fd8e3be7d8848af0d197629e14281bade5f68bcd613aee1d7615 0xda9cbac032f3453a7c2907801ebc533b2b826f329bcb06499afe8ed5d6f22e5c701ed52069b79f16e1b; P1 0xaa5e5b4a385e29ff4ef972ba7336b6165179824a5125180bb09e6b58e3e5c551d3466acc6ab27bbce7d 0x9385974d2c2ad69e761a05245976c32c9ff368bb3890f9d5d132ae106de6256c6c6fa7eca5004d5faa5; P0 0x26ca51d3fa80df55a9bd70ab3089db6e9a946ffdd1fc723125563b9225106883f34943fc7ba51d3afb1 0x21997b7043234be905250d681a684751d2767f4468acce7c6df6b68e40f8ea7d9cbce08edf0347a23d8; P1 0x40642cdcfaf696c68ec82dc1b09d3f250e0469a4a9937c198c3cd2fe81534f731d7a747c4ee75809f6 0x231a8b8b968375a75faaaa391bd51141b82f3154396f8dad8361bc3ac37a0b801c227ed73fe2c26d8aa; P1 0x46491b456ebe690c1a215ea3eeaf811005727e8fb5884d1f7a85c4d00ff3d6d869201c11456ad8f7a3 0xf3e5954a33f83ad0c9545f50bd714e50de0fbc0ee5110ba70b0c87dfad230276c19f12a6e35ab51f4b5; P1 0xd40e9f4b0c9cc1dd9f3f4cd428c2eae00e3a85c087caecead680b31be6a1d41f56c3bb724424afe9b1b 0x12e56a2d771718013bead187fb707e77e767d41b76596be2be2f9aa98a5fdb10ff9b0124f2902145c5e7; P1 0x145db7085e6b584d8c1c10545eb6aca4746b8e60be0c18d56efb5f9ec454bd8718fd4b8c5918479cd725 0x1bf1396e5be04553f9a62f1a5c38e17b69195941258f87f0b482fcfd93771cccaa5e50a5393cfaf6f0ad; P1 0x2c8882df17c6b947c80efc71598f83735c4d5d0cc1600f80098978d1eb202d8da8471f9f698939d1bfbb 0xb54f084c384cc4a7604cc160044e27bb2098586b8bb64f88cf2a3c7c245dce53729c576519c3c3c9927; P1 0x752fc5e2ab81bd8226ce6be54a781bc7f5636334bbd08a0b4f1bf57854320cb36f352f6d4f7170278f7 0x188bd642d3d28cf93b60ea1e432520baf1007e9a76175ae72ac2b6f0ae89b5596d4d0341572fa64b693b; P1 0x225db9f4a120b7031a34e90a96c164324625ce1417e8900d8ef671ff11c66fd3d12d7bdd441f889992c7 0x1e8e1d0c4e958090eed70498377f722c34b005c3e69d80c8b8af48ef93ef31de41bdb4e4f448d31305bb; P1 0x35404a9395b645639b3857a31bc40f2ca05ea8e099341e390ae86a6b1298a1010860c62dd9f7ce24d9cd 0x1261d655be7c4773f45bd05930db148ee2650a5acddb46ead3c3d93ef24d8dea18eaa7354b8e2d228dd5; P1 0x1345f25120c5feb956289ad16ad982fbcccf490309e10493d46e8e5c490fcec8609ada415f19ce6be9c3 0x721a0c3e8f1363e8407c8dc0f1e86eb517eb2cdb9509e2ec0909b066e6d93cdb563541960ad10a4ed3f; P1 0x2e695564046ebe46f5887caaa49a4d82ec5aaff92637c1d3fe8c10f9ca6066f89e823650d6ebfecc959 0xc5c54bff54a6a1e6ab19462afd16b55a22b82aa354a9f98f48a7a96b5bca753de208cb7feb18928b659; P1 0x8b6ec218c167adaa693b4ad2cbb9b0d1f0a035910dcb0bdf6850455d63469c11f4254f780ee467d5cb1 0x14855f0f22afb88386757e8ad972660696f289065cd6b9c23578c86171aaaaeda67a94ac78ad35718e61; P0 0xc02721e4a0366d89b81350b85c6a6884cab3f6e6a3b61012d7384cc72940e76902082853b8026aaaddd 0xd7f6428420f5d63320d627ca0b1fd3ff71a404c03eb62cdc91819bc0bbdf676e235abb73d5d3d57d054; P1 0xa643474ea61e35a833b443a3757b87dc31163095ca465b6768886107bd30ab8c1c24d30d87607c6f0d8 0x1af2fefdaabce8effdbff15e928421ce0da0dabeabafd730d18399cb3b91d49092f9a0200a43b2a94ec8; P1 0x296c8df3e3dcf57ba86120d72829c827667be730d764df1163b9ac5a5f504c6df3055db7d2eef5b924a3 0x1de5ef5f13ee69bf1fa3af249a7bdd6d129b82209b63d80ded1a1d3226c4ce13fba3e58cdb702bcc8e6d; P1 0x32fc64e5f8a8a7d17df7711cd143017f9bba3e3c3702c7e46f1d2a9ec3ad87b1d70f78a8c19914b45692 0x1d47bdf94e8d6f62f55fd3733d184ee9172052f0dfc5df30f802a991fdcc17fe8b2b924a81ee79d041a0; P1 0x30e66e5efbb1fb5dd5942c6803740ae483f6fa96b5e9d00cd80e660a89ad952a8c11761b64aa058cfd82 0x19091909ab8ef572b28f53650f43d5a43731c48928d05f2e2e9fd40e0745294444c733bbfe6c1076bade; P0 0x11dffbbe06e03b93ca6a3838c77643d684fe4d5abee4ac58834dd1c4b7c5e2b8e44fdb35abea74ca7992 0x137d1830b8fb26d1815ee5a03ee4218211b6837a99f9ac34c94b59c49f7a1252122c1b446f4b74e1d252; P1 0x15a9cc713fd0f937255bf508aa4881fa130c306ff258d7bfb92d153908859d4650384d63106bd9cfbc9e 0x105beea45eec908bcdc53751da633d990500af12ae135d665824f283f9b9a57a87f5c7aa13c742687d8a; P1 0xf43b03694c7efc8382a504f59e23d8410e1a580b26f253e867217e3c54de91fe7eca1e47beaee0effb4 0x218b3e78f0a5d8fc3c6f75eeeb8034d426065b28a1e3cc67646f5834f30be8c727278b33de5a779e9ed4; P1 0x402da5c00d8d0a75ddeafb47baf5d8c0f5fc549f30a94ac6df8dbf8d9c321bdbbeb689efe3614633962e 0xf6c38258f6ff72415edcc5d354fe76af33284b3a80619fce00aa2f9763dbfdda8f4ace8267cba6a2992; P0 0x6c892d34ca59c88ef7114fe3ea12d05c460e36198fde6f3363761e177b414f73bd9d899785c5618942d 0x1636e578d693eb39b4b495bbb943e586adaf8dfa4ab876eec4ebb04cf4e27d405f71524e8a1c5a37af87; P1 0x1c259e559ec2a28ade04009f216cf0b51b0e5e76875d1bb568bae65df0cb69fb65d49038342468a55f17 0x110e27afe9f80487b9fc7337fce3e16bd659a010a67c4657b5b0a54a473aaa883c54855fa37b9962939b; P1 0x10975bd33f2175eaa7cdebb13c0a42439d779d1eade71b97af4b195a3250d21ddad804244b2f00db9225 0x1b57ff805c6740401d6d7b60fe96d68d7cb18fafe5d71eb62c9ad6217780132a19573f52ed9952bf587d; P1 0x2aa554b4ff7cec1c1da709079ac30498b9a9c8986589093609d307206fdd39495742ef59a3df9036f512 0xe95538ed64e843f0f3065054adb2a0c43b3625281980ac184db26eb08c6d063783347d31bf3aeeb8060; P0 0x610aea1b447861099b61dcc894a37ff1aecfd0934db33941c6a2f2172aad66cc96539e411c622699b37 0x70dd4f7b5151cb6d3421482bd2413cedc9a3eda5dbc303d95dd1991c090c95298535ec66b8e80908f19; P1 0x2d690fc1b534ef94ce918948c4d923a751402ff97e37511f82d58eb3e3ce9bcacd38b36cc1d0ece4948 0x20b1066a1a32beb089f1c5f3c28bc06b51318bb4aa2e8eda8eedf0751f8bc6ed1cee39a5afa63f8df51a; P1 0x3cf53cb1a382fcd8151f528de13f1aaa09c0ccf53fbc2c35b3796ae9addd47f02a0061373eebd383cbe9 0x6559a17ae464a308a7e79ce4f8619a84020ca640a4252e82df70f38631c0b151f6f50b501e8fcfd910f; P0 0x124f0b858885fd84925e7551e2534fb70941d5a0454d54c2d19081cf947a1c67f17e26836c0dce2d427 0x125d674900321a6d59b16ca15692ebf1f8482bb68f8fa7372d8aa36b45176f4034a73ec454ba7b569e0a; P1 0x133ca74c6b6102f091a7fec94385d22ad8cb556230d413f6b863d537ad7ad0f6f950d6cc9b54d52fed20 0x169a225447584f51184284bd5b26234cb9fbf48b9d470d2b23e5ab75d2371aa2a0c55810cb714ccfb9a8; P1 0x1d234ad23f01557c93bc66f6c80182bf50b7ea2b20a48f1373d94a3c7df025fb0be31df85eeaba74f3f2 0xb09f86d901d94f4042b9d9d87c12a74a66b989e54bc968044563ff1af02b28434e6317f14ee5d3aedee; P1 0x6f353ce6bb499ec7b7588933a374caadd6b6e620fb0b31162d43a61fd0c9085eb47b079fbe084518bb6 0x1f0b4c33fe5ce2936a2aab83c1068f5d8af8ee44313c10c3921e54c03c89387be3a8d0c4251b0eec30f2; P0 0x1b7c0fa111aa0e6f2d6e28dd0a88f955c34e5d99da412936fd10d0e57ac6436bc19787065bb97cda5b3b 0x1088e7ab2577abf64ca45f90291b701f9f896a0e448a2346ba1eef76df8daeec94e9765c2838a7512099; P0 0x7cc08657e21e7d9126d6d3df0922a57d4f88b6463651c568ee3ef44608baf97a3c1311f43d71d6adf24 0x3ad2010ceb199faca39f8666aceebf0bde6b94bbec463af610fe219a7a5b38dc9ccb6a38920e5d3e30d; P1 0xc55715332cc79972e1ef4780eddeba1a00574e49dab3353cf5602e401d7b8d2a29cd545975a97ec066 0xafb77f12a9473b33a6a7a8aba2b37684b9c35cefe732b392d027b803d5e0dc9d7123bd6e486ff3fa80c; P0 0x3708e649e171363c3767f4c932402639cec577999645d3ad46be6be8d91a5c9ee4d431302fbb17006ba 0xaa06a98e277db3dea5573e5181369e98d80def5ba2b4e6ff47d38a27d5fb2772f1c96cb3f3d7fa544b6; P1 0x670e390d9dc46a7c13809733db4db30121707b36be21291c78bce4b58e465a998a649659f08defb2ee3 0x3abbcd66a99d0a976ada06ac8b5ea4bcd666b24c4ad014885c96ae88dc005f6d636868e263b970eda75; P1 0xc4c2386b968c2c91acf73d168530acd88fba31cdfe3c655aa8d7b51437362272b2badc69972b1b7497 0x12095107f78326f89dadc74442a0291af16cfc23d4d9097fbb77465769a724e5f1a045186cc96485c6ab; P0 0x94708d924616ebdd82917213daed7fbd93edc61a7d9b985d70cd4f3c132e6b8dcd5ee9a402fb089c86a 0xbe6cedaf06b243149a1fbb0d5d85aa3da179b603649307a41b29b8b062bef482fdc86b56eaa46c9af; P1 0x814497d94cd070178912b88e80b1f85dfdc75055c690f1436ab8102318f4f1b5ed7b25014029176 0xba59c1af2869b7f54632a2ca44267d8f42086ceeddb1921ea44b0dcb723784950a9c966f988f042b7ec; P1 0x7bcb756632417f1de2cfbd762a8c73980db2bbda8f31e03be614d374e6f522836b14d3aa602d88610ca 0x21b0cc1ed3367ae8317c7aba7b827b1be82b4093ed11cdb0ef10d25e1505eb3af737b56430eb392f2036; P1 0x40bda90aab1b427b73f99926fdfefc828fd6efa742ac97fb79d38d3f559ada7d887b38b79a382b3e978d 0x28706dbb8693665aa3280e2a25d5fbf98d7bf107c79294b89d3d8a47b54d7c0b190c94ab3010cd4cdab; P1 0x5d466509bef80fd30ebc3e5e904c68e1f31aa61d16b91317abe14685dcba5512e5f0e621e5bf925e08 0xdd3b5f87f90f2b715c84b34d4c784e42a80972a2fd84c927cd70149051ebcd5888e123b71f75ba183ea; P1 0xae79e8ec1e9ec4ea2710d0e5f2e0787cb4e50425d2e0f03a737ebabdaef38ee79ce2253b22625edc90e 0x11de469fda9b9feff585aaafd987565c1b1aaff2cddc1b0d155d6d086992e10d8625393ecb1b1bcce55a; P1 0x1235ecf6bf40b630279bf02629a8a8273d8ad1bc041f59e2f3c41d99cc472e22559926987e794597acd8 0x213aa1f6ded9d5486a9cd9495e8210c980a32f0239d23df542c70b00e12cca5fccaf982a52368dbee2f0; P1 0x3efaa24c6d81157e1b079f0f4951a2a47798be3f928eb9e10694f2b759ea7e2c886fb3ab906894de2c0a 0x1b3300d268e7d62809127c3e96ca55147025f85bf1595b45daa28d3c54e380e8830aeb38c7ccae7dfd6; P0 0x15191ebb5bcb600f0afebd60221e666a186683b7b5440be450ea59cad7b68385f0d8d0bb247b1242c1 0x13fdc9d21dc20dd0c116541e18ec18325a5a4b432459df4b03d3c00e66dcf5f9677376fe5d930e0c3c53; P0 0xb65cc64edd6230d9a61aae520006a59146c98ab646dd994a81bc9ff4bf572f98795b2c450ec1a92ea4a 0x124ad110027f6aadee4b90ddeb8b84cc7f58d8088215b7101115c3302c617f01e98bda86176a4e718e7f; P0 0x98ae554b1b08a9129aeaaecc2fe011dabb3c4363293d8933acaf72126630b5765781eae20ce402fd869 0x22d8cc18472d66bc8354c28709cb110e4485f56a495a1441d35508ab25ee1181e89f1fceca0b1f0f7248; P0 0x22a164867795519c2491260a467d1cb8285b0390a9d9b5dabb2167eac817e418e50f306bfa707287048c 0x4a4bb970241fee0ec738940c97dd67f2973949d39e5c40cec1c387541d31e53155c649cabcf92ad79f4]);
     (0x1cb733b306cfe30dd1, 0x221d8987b928e795077e1a07f607203de4a4543d28da162105c4411c3bc5adc9110b6b1b4895b9846510, [P1 0x0 0x2; P0 0x0 0x4; P0 0x0 0x10; P1 0x0 0x200; P1 0x0 0x80000; P1 0x0 0x8000000000; P0 0x0 0x40000000000000000000; P0 0x0 0x1000000000000000000000000000000000000000; P0 0x0 0x1000000000000000000000000000000000000000000000000000000000000000000000000000000; P1 0xe9a02b7f54b3c000000000000000000000000000000000000000000000000000e9a02b803 0x1f6664b646bbf3f0a5d4dd17641a0ff5731d77b2f7460f074e20471a1a552e0a822b551163b6de79248d; P0 0x1c1e4973b9a24d3c9cd543cb0277f923e88980a5bcf0e936da0ba0c1378f7bf21fb2dcc323ac57600d69 0x2400000023ffffffdc000000040000003c0000002fffffffd0000000140000000c0000001ffffffff0; P0 0x24f5d6e1eed21da324d708de196483e4d88d615a1a17f3a1e8ada6a50ba1f51fa33b519fd2a0a81d 0x5a92f7028fb32eb1b4896aaee27f858c522fe2a344ff2cc9fccb79cf80f7b5e802e638529454c140253; P1 0x1d3eaa81890f3e60814212047f6d7cbdff3b5c8fc8c79a26a4a41d9101ca60cbe3c6843ee84dad961ee 0x3dd9a17798f44f50a19954a0d37442e9f2758e07f3aabbe03ea3eaa951e82743fcefef91da5cb3a084; P1 0xda31856fad6a645654579a5ace37fdc25480e3f0d95dfebf430e8bc352ae7a0e86b63576384107a5 0xd26c688cba24fdcc2e8624d17a72a05fee52268f14620d7a487205e270c7639faac55e7e752a289b36b; P0 0x4eec12dfc21dcf9b6450405553d694c28ed1ecada55e1130f636992384adc9c3d1536b07ebeaedeaf37 0x1dbe8028178bf24345ea58706e21a8fe62f78bd976add7d0891796864006857a9d0be37e2d0578c3e5d2; P0 0x193b1f3ec79f75012974e5cd643c4144fb023cbe8fb6201ccd8dbcdb8c98868d17d9a20670d96f27532d 0x2290af2779ad422cbf9d2c30a6a430cf0ea3726d4d70c1e6b425b113157028f861eff119ee2d4b0e0987; P1 0x44254885c929e2a930ab5ef800b205333c497a917ad3eab1b3742c4b1e20244fe815e4a73b59ea20b630 0xc44b9630c7f5f92c5df43206034f9c25fe29505bf915ac6f429823cca382a0181c759e77359924cbd32; P1 0x895c2830e74b7428d4ccb4fe924c71be811540ced5ab0a4a0a09299f6df92da4ea4ea3ec48befe12a47 0xd3396576af0857e5d7a3a16e06bda8e8f5a80b5d7f6909ec39955448a118fdcc569097cd589593caa91; P1 0x9f0c443e28c5c1f2ccf876beb0912d23f0004d5291696ff6257a9d90bbb973eb7e9103a045d3a56b748 0x18360ef9fdd880c742e0f5d867802b341be958743102ed680d37aaabead7cf7e36a8909461ea5672127a; P1 0x216f2d28b851e4a86a09aace8feb3b8adf93c3cd31bae221ea39d392a361811fad6cc4ebd9dc4e14272e 0x184dee53cd5591097a7c08cec7034fb490227bc05cee10df203e877f77713a3081c816a1614c1decdba; P1 0x21b13c8a4adb451eefcb9fd188af232f17ec00d52ad910d8ded56f55b7af11ba717a18891839de089c 0xda0888fe8e37ef1b4798a49355bc2b462572d498608c5c5059a9373bf2492c03c69c8aa2da31a611aec; P0 0x54bbd7306f8f722b185d811c5915a0a9b45baafa51ef2a5608f542f5e6bbb947897a617f9c3e7222fa5 0x6f9bee89ba607d927b8be09ed0333f0a6e8fa5a2d37c2b526c8e5be00de6dc0acdb01d0053ce3324cdb; P1 0x2c67e3d5561b83e3a54ad649c53d4bb5310a7450414c71f048b98ef249718ccd9f6276ac61ce0cc97c5 0x1088ceb1a34b1365ca1b72dec8c2e970394919297905a68ab5d39a739b07f5f37e1d6802794c053aa7dd; P1 0xf97e1afa64b6238b7b55d402753fab17fa919fee5ad9645a84f7f5336168f841bfb078271ec4dedb740 0x1598de65f99ca24292fab1bb988e680f6c35b86fd59f823b8d127514fdd25c6b37cc56e4407ae019ce52; P1 0x1a9ab8ff11b881389d7a0494c6bedb66997ec12d6ee5fcccb3e8d1a496ce757be3bd731a62c45394b685 0x18251ce7454cf014d248ea1e4bbbbbd511b611671efcb12c30fdeb87a41c71b741a0734ac9c7c341eaf3; P1 0x21407042459007ff6244b49d7af8056ab2fe06efe17c11bb959811969fd1f9abc9b2be232484a892a9cf 0x10a565d5cd873abc8f713172ab98c8b8fd6f4ea4fbb4a2e33669b7193653b45c27daa0a4308e16e53e53; P1 0xfcdfd6667c5daad04af316a6ab9d08ea369d3f4b0ef0b6b62a39fd9e35a70b3d772cca21fe98d884acd 0xb42ff3b3f2f6844487c644dd107db8b464745667d39acace12e591c875adf320b915d51c203d7273d75; P1 0x73bdd1a6ffc58d6de33268d33733cf3192557b71822f27110c893ffb6f2dac47f7b3b55ef53b6d580c0 0x10db571c879dadc0fe42150329fd4a5e8bd364830893076aec85f7e6b6e700923a0c7096ff8312579232; P0 0x81a88eb65715893c2edb0785098587d156883fc522df79f56b135caf50c800cd86e9135ff55f9526c0e 0xc7d8310b765d157f1e0f1f02d72f4efc510b2d8ed1cc82f67d9037065421c58102702419296be014056; P0 0x472fa243ae8860d370e44a0db49a0c9958482b59016a82f35dd896e1b3315de4294bbe492df0a3d66e2 0x26f2ed125e278f54e9b101ffda5275009e05fbcab478161658fb961bd7b569437ce8c5a4b4586cb6862; P0 0x2b4374d514dd23b800ba2127da2e375d1ebbf85932015aa718a739f6bb9fbc85eab05bf98968806369 0x223b875c2d7cb0bd642d83c658c8f599100bf2f4ef4780a96a767ed4575005d7c9f8c1a22731ab6199cb; P0 0x216b90846a1277aa3d6da344b4e57e7aa00adc9028e7470138b0fc7d61785d0add2246c51bc3f4eda83e 0x801346a8c8b07d837a6e01d3130e761f74a2665bc87caa1f3a78e1799ac854d3134e76a5c695108425b; P1 0x3a79a391fad2fcf58716666dc5ce7b2261da0d3bd0b6c2292994fd86f05b5493097113cf05834668717 0x16dca2ae338e7acdf308bd1774582bb38c21459f5972487167b42411a2fa211cf6d6e30a7e06c10751eb; P0 0xee7dec32026122c295ad152e394ecc3f8cc7ae67886b8ab2784fc23ef30e7c22a10340fee7dd9162c16 0x50b61b7e446d290f81adc0d21b3498bc81a47a9a2d1fb3187e1acbd69e357ce6dda3c6eb1fe03cc9dc3; P0 0xb9c7c88ef89bc555b60a5078ebd49b345e3b57749d5a886a9414ad78bb985f7504648def39a9782a8e 0x1b3ee5ba73744c7e2699b6ed61a951eab88b2c18f1a79f678d37533f95f507854400d1160b78bc8ea9b; P1 0x2a572d20399b01e539c13f484ef91662cb680c234d411ed1b447830fd70f076823807d29e553ea7ca9 0x1cff58db998aa25f47438aad0995779e8b7889d086e414b34b8d16d810bef3b63023fb67b200c9b0eab9; P0 0x17fae502802622859fc6eb5b92d3616bb72210e340859f2e23b059a608198c11b177c3be96759c0e4daf 0x135032f2fe5e080cdf2a0a63552ff502e2c7357151ab022c41ceb034fbd1bb6dcd526e9db878256248d2; P1 0x15466fff37abee2555a4d92dcf84dad72cb66942c9ef1ef9abd0bdda34682dcbba878c09504e7c68330d 0x18319f1f505b14faa943a5873c529b71157e39969922964a36ee1a87b781895e43b6f691b9323528dbeb; P1 0x2162ed2d972b776106c51b9bb3f7ae5c81776eadc62e93ae8690a33d0171c3d81240cb2c5e76835c3158 0x21375c43a92f407e022f2bf2002a5e9a79e0fc455bd13fc1aa909acd8c3fc798a15e136b370bbbc0c29a; P0 0x1f771dc2ae809ab0bd29915c78ec789dea1c13456841891550fd08e10733aa6ba71bc45c52086d3a0be9 0xfd9280a9aee3cd660e8b27ee915e739996d4cabd774ec3a4ff2b15551106fded5083ff08f69d6c3886b; P1 0xe53730f5ecc7239a0ae36ffa7f454351643966b086766af3949ffca4c4cd73484fa38afb4ba7626a0a0 0x173cd114381d99b67809c420e7add59cfc5b0e2eda97e9da88f65a8f452edfd06576912eec242647b6d2; P0 0xf6651c96f1558a4b951aeaf739833bc2d18868a283368e0cd861f8448a4734bf37b8d204a741484f107 0x16752f1fb0f6289dbbce5ab3587db11dee99fcd2192a3b65282ddf6b5fb92d601d0b6fcf7f6a0f62b08d; P0 0xe6229da7593490034cc8223963df228ba21a8b4839826fcea7afccb3dcec4528e490fb8661cfcdd3e91 0x7e8888fd099ac818dfdcf53fd153f49ae29c77ff3beda94ebec44b7dde61da5a56b44ead647aeb65e48; P0 0x1c89ad986122709e161a7ace4714a3649582637639119ae1dfe95eb4d28fab07e24a1f6645427439956 0x191d66369ade5885dda0ee27a8967fbbf0161cd2b2ec76deb8994a5218eb42a104e1cc87dba263ad130a; P1 0x23fa09c2d688c8b2c75162b0b279057352e85cc5993b29befac5bc9f1f2413063789d4817bc9d4dffc0f 0x1be112a9885e02d31eb3dbf6bf776fe7129be09de437d060e6c0cfff742b2901e1807d6992d2742b0b89; P0 0x162a8b0d8a611e9c3b5174239271d00305d81fbc86788efaaa398325c13d9eda843f5e48b520745935a6 0x21e92b62c24eaeacb908260b249f9a07f843b94755f3176983f6cf2671f99d7383c3ee80b565276b20cb; P0 0x20cb82af85b96c83fd8976f87a676765341167fa2912fe2a8aa67ce9a32ed2549e9e989188c9f2461f82 0x1e500db4bcc07d57f33841d9bf3affaea5fc869d2e0c0c39c9714de92f93c69db4d3501eca30d81c11d7; P1 0x3468d5b0de908d1438830c8daef9ee48a8c47f1b735a3f4b04d4f345b089d585b74de77cbbbe232f23d8 0x108ebefdc7c7063efd5c3471832494a652003821f06cd6817c8f26b252717d561beb45d95a50e531f9ca; P1 0xfa31739d68464cbaf557b5102bef490f534b345ecb3fea86ff2a732ec7664a730482c76922c1a5fbcb7 0x21e57f838e7a138d9093969db82d6607fe9ebfc90343f3556db13f2110b7007813d0864d0fb4576bb861; P1 0x4188d25c55e4e43a7610b863c82c9b4be19eab65421e75e008a8fb2f6972f1d998a1636ab14b22d47da3 0x15e265550d55708d4dfe4ca9b09ab846e95540c70d883885ddba28ab39f97ad0a659e8ae61a1cf4c166f; P1 0x1b511351b4522bba938f5a02f30452400e0fcfdb413c621dcb0cf22bbbc583a326b168456b8efdd08d79 0xd5d30e0e2308ec41ee3f0958581b0bb7e3a9333efc5e3eaf9d73904dad26901ae0d74c0e05ae6b5579; P0 0x517e726e2f658efea2e6aeea8020e170dc9b3bbe2faa449fd410f9933f00bc2fda59226f6fd6e4814 0x217bbe9e862753ac974648d93afb40ef527a63d17fd03d29bd0f4488efb58321e27f2492af728a37dedd; P1 0x3ff2645e0212b6f91db0345ca6058071878d579c2a8cd67658e97678e1ad6d8f3a33cd612216af96e31e 0x21776621e69ca428e4ff4bea81f928b75fd8d78fb0f15a17e0260b544af177b7f6a03479e14de3816014; P1 0x3fe1cc2ba43c4c61588ee0eb7acaed0a606d05a3d1ba28e814604138157dba3ef085d59149b95db8c4e0 0x14dd3135a862433508a2b927bd916c0ebeb2081a9246ba6098638a981a7925f57638c6fe271f458fa840; P0 0xc6a18a87a83c08a2612fa9c083ce147e3340c4cf2d1ed387199aee3bd7a11beca6dd7967566b53c3286 0x1f00c557367f82f9d9fb70dd819fcd57acc7bbc57ad4ff98861ba655758759a942978c1a587700360e9a; P0 0x1b696f0cd242efdbea85f08a4c4af7aabd77c917a5d223afe8eae79adad938effb8e68397e6e97190d32 0x10dc93edd8c48ac3d65acff80321898b93cf2b633b2d9616c33a2bbbace4d8e275d60d74fe3205f148d2; P1 0x10377325cb4f9008a404dd5c917301af2a1cca6fb92cc4b1fdbd7e4dbb2674f5d74ebea8334b8761766e 0x1d5e87abcb370ab275f48b56da39b4005c3f6af3242d4ae89f1477fbcc3e039b1b8db3e5f2fa95342eba; P0 0x189954b0e5a11ea6f497e71ca5c9ea3f91c0d9503064a995e03d2dbb59922e0eaffbd1c57c5266baec6c 0x32ec88f5a060d12bd295b55872e31fbd2a2a8f44ac77a10b9ce8f7fef2db33777ac8fab69a07ce9b6f8; P0 0x49f4ce6218649b941867f407937e05c2785174507c3850f176c34bb03173d51756edeb1ebda1e9f34c 0x1f1a1a814ff9b4384e30d7abf692544983ead60a6f29d9c51f7f711113cdbaaf990c15ecfe9a7ac7ab34; P0 0x1b964d4b1af1e974329ae3c7480a21e97492b0871b3c0a784f147a2d1f4030549f94379f4fbd9067b495 0xb7c349677c14e252cddf08a473a7762c1ca0a725048eb20174993f73140714bd62e81caa0bd5a5c2deb; P1 0x786165db6ad101d0961eaf066af62f4d2ecba85acf2eecee1b4fec406c70e2df5ac1f43ddfe56dda3e1 0xe60d9dd8f9fbf7dfbbb44026cb5e30c2ce0b56c3b0670f1a544bf1f69c92200315afba5ec0d63c3f5c1; P0 0x5e55713b6603f0b8a2fd19ce0c502b4e2749f14aad307d90cca000c420938b131a16678b86f09d2297a 0xe1afe0864c337caf9e964310e1d6c4afc1b30d9239ff19b57eb5e157b7a5e6689cb93991fb3f121e0e7; P1 0xb592f4f18fbd7445c8975abfe214970566237c57c65fe2ce106c86990ff87ad6e58412c4a69c59a7f1b 0x1b48659291ecb3d6c028f1ee6c02d0f2806ff7e0a7bc03349f58428f1eb67b66c5c7bd3f0f3a093b2d7; P0 0x153a5c497f6ef023f3d6359d2ba53c11855b88890fd361a11417ad8d7f2d056453cb5fc7235423c613 0x131a725f4e457360ebe207ef2c843de3e826e6251cf4bc7fe5726299c8c3781028f9b3d7f99fad43aa0e; P0 0xa685400b849b0516e7d39c08d7abc07ef7bdf3260eb36a0bc066a5d516488aa2568a035053344e2280f 0x1795b750ca3032cc48bd717b7295e3ab03cec6df7b5adf728f75e9a2134cc86e858c57d900f6ceeebf85; P1 0x1fba0e78bc68fb20d6f38c113c0fe474643490cd817eb90758787528efba05b52d7e90b9e4bac224ce5f 0xb3b439d44ec441007ed3ce48588f77ce856e1304ef2b96d71516305e316a12f15f76371e4a238e465a3; P1 0x731f1571e3d4d7b0877675efd090f1516981f7e0f73b91dde8f84e81c16c3025ca0bd2fd237834cd1bf 0x1828c795ad7fb865961a0d0e9d87817aa9d720e0a2c812aaf68a0aad04842860de35b36013b3940119a3; P0 0x10a5453c602065ae5d492a0f7b26a0cd9596212958f510a93e7e38b74c66a818c7be29cb4115048d8530 0x9332b2aaec0aed88a362dab98819576dc91ec0c5b8579209fc7d0bf2d74d5192e76b3bd533915ac7199; P1 0x4d3d8c9bd946302a46a094cf0a9be86d7e6cbc5ba35fb386dbaf74baa9192eff623bab0ba99ef68af68 0x96a3218b5cba04a803c7ff33db24e5b9b7d025c4acf34174a78a2667d5d968959b67f3615761ef42efa; P1 0x50e45653a08533603275aa6adc2676531292074006055535314dde0994175b2b1b82aae32e519bddb28 0xccfa1c9bd347197ec0f9e174845f3a137f72d8fef67fb7e72263290509f2160fcaf6b5a2c06f0c6f4a0; P0 0x4ae3b5bab97d7c75fe4099830b1d4eb34480be012944644362310736c4c8275f5ec69790cccbf2e3fa5 0xd96fd66accac82843cd895da34ac1e5bc6cefa9ff77e126fe839c1880b1825d176b0dee7eb07c3dd74b; P1 0xa88aa2ce10d649a67d9aee319ea8457341b08943cd424308abf5ba0c97cc173e5224a7680f1e0e392d9 0x1502ea4f0848bda4ca912c08d47a7cdf24cbd9f26b9c4bff9fa62691315b9a94af5a226b84c97a3469c9; P0 0xc972580e369233800d25e72f6091b407b637b5ee2813d8ba1058529c32589432138a6819461063bede2 0x1dd85ca5de1a7d1a1b14cd35ddbf12f9d8d655650d6d009b93eda88abf46edd7e137b02b5eb05839944f; P1 0x32ce246376446e5e22a4bad8da6a1e69de57866e3a95a971afe15e9960e421ade9da843e714d5de1cfb0 0x21166c06c0eca8fe1d99ba1771a4cc10d538420301bc6f2d7e667d3b0557d2bfb9b4ad1dc22d7643c212; P0 0x1f38d53740474ea6f8c158e4c5d52fda052d215faef8e0dc638205c839b4d57340cd2c103e34d9ae3293 0x1107830ca2d7c2c380114399f6018716f28eeceb4e54d61234d2f4275dc2c566c897438f9c322f892e41; P1 0x108a719c32ffbc25bb2db50a56525af0a1920104779bbb55912f0350a33e3d5545f5389dbdc79e1fb43f 0x1e4c082b8893ef33a137e093c537cccef0231d82e8b0bad4d1039e9f8e00ae2123f70bb57f42add17c93; P0 0x1a2d77474eefe21bd62eb80d8aff38d782a5cb24909e4125c17e3cf7cccbae27a608e3934a7d167e66f5 0x3c3d469556ba4c3f376899b3f2c8d96b6718318c2c4d2663790899b7beb6ec3ecaabdb3c4cb89a8a764; P0 0x677d019e8dc66ff6d433b358c44a23b72df0f221116c565cff9305b986ad99693f844972940dbe6bdf 0x1614c7674c6148c27304a087ffe4652d254cf5fcbfc00213fab3b472caf18b5766a5dd2ac8d9d027901; P0 0xde7b5ce3beddca4705a590ced671eb6c191446f38239872783b3839824d18cfa398162e64596aa01d 0x18b543e93db2b0fadc7e81ee4e740c6686c597140efd6de8d9cdf855072bf4a4ffdfaa83efca6be7b54; P1 0x22d21cddde85c5fd8a9760ddcef92c7cd428860af87d1ae8b9fe163d708e4aa0ac184b578d4aa66372 0xb38578296c2643c899481c3d1e716e7352a22ff15eb1780e8c9bf10a0f9e9732a3d38cda0f1685f910e; P1 0x72e3354bcaec6b51e4c7aed736b3aa3ed2d2806937f3e9b80c0e41e32b651823a56d4cf378d5f49a3fe 0x79a8db3b869fd8af6f0c9d4dfb516fe2e1fa157e2e44275243f0699a4611522b813c828c7949eeded2a; P0 0x1a61b9653f3d134ffb3decfc37c6a7d6482c9d37fe8f0fca45352c7f52b1dc76715f1cbb7b47c32f938 0x8e9bf04e1cd7307337ae728ece1ef3f9389ca40a8c0bb2fccb70b8abecbfc84c711b302e16e1783ec2c; P1 0x487fe285515fdf49d6ebc7453e320155c10fdf5c8d1c20477f4f4e868a2c83087eff206a6e7c230a821 0x10d17ecd6306b469c4809225869314a911ab025af1a1609322190236614554ccc7bea470cb709b78212f; P1 0x102228f6f24b874431fe63b7e169016c8e7edd8389439709321ca528dd7264c711514a2f9b1c92eb36c0 0x1f55dbeb58499a02878ecd2dac588c44451e2e6067f0d24ab94cd382ad3c2db3911dff001e6f78b85a82; P0 0x1c00b46a92c8012b9436d8d2562f136cc9908977ca3f4c750f5619eceff6bcc3352acfabb786c222dfa1 0x122676d8b5876c4c52fcf381188cca6e1cdc810467fed854f05548cb1c8483c74c1515b5d0dd8323ac93; P0 0x9651d6d7e79a0dfe7eb6904d94f85cda109866449c120e4ad9245aa88cf0dee1dd6cc6fa5b3d88ffcf6 0x102e636b16ed116b5210a74a3d65d8429b8064ebdaca5054cb454203d03f807872302ddad7512046c593; P0 0x777943ce90262d46f8434a9562df9773457031511c1422807a835990ec980dc9c5c5d1f3db0f6576ee7 0x219403991de0d2768d8266bf08401a40bca3e905cf0fe335bf09ce9e304b51bf0138a78efc28c6e59ad2; P1 0x404f392a13d8204f3f01db420b3444c5ea35f30575649322fcc66ea0ea1ca8692d66d5da91b9418ea68f 0x185051f1c8dc24a3626e2ffee2638a2cefd2429dde7d29bf3194e8af79b2f7ad1d36fa76fc5d124c08c9; P0 0x10dbee4ba20f9ed35659365e0e0ec72b021f4c34285baf9ef2de84e3f498c2eaf01e6f466ced0fd280fc 0x2229edc8c74dcc9c514093da6b224422c85b60516ee044b727e8be53f100e9dd3f04ae6efaf8279d0c15; P1 0x4292781480806c4577f665a72243554c8ecaad61e0dfdd0e009311b47bd8edc725bc74e751753aa85ae0 0xceea2ab77a69a07fcda1cb8f8f74ba286fb25c6fbdb975d190e78af2a848d849b8df032b318a5be2292; P1 0x989fcad81a216927b629e1afd9e991845a3dab8cca0dd6a8843b40c14d376475f1118d645f829789624 0x7752d0884a85d7a938f236687ca6348da8343579e79b08e3093602e9b4fd05bdb32883e025b121724; P1 0x32c1b0b469e4e9cc930752b63a968cf7911ab679258f751214531196aaa0361db99103f2d313957 0xf2750bf7de788be88fac76f287309c2c4d932c912952a3ecbf1956f70d4e6f17e45ec161903558bed19; P1 0xd18fa995b71e96f5c79ec44a5bf2c5606911447046ad505e32f68f3c237c0b8adc96b5f0723427d4e47 0xcfaefa074f1132837ffcb7d72d592f40270bcb691169e4f0e1f20863f6847020069443424db6eac23eb; P1 0x99c2ac48b398b20e085f766216ea13404c5fa0abbd596f7f5f3c7a4de8791eb2b4db5b8ba0312b4e1ec 0x10e6621577314623a88ba10ede3710b47587128ec439678998ab130dc8f5153bcd4db1a06f3a30989dc6; P1 0x104a54e45f39843c617dec5146b9742afea7af777ece2c5ef9040c846d39bddb2eca8d4df3ad768ef940 0x1ae637e5dd803f78a2a3419503115eb4071f0514642997402d3f6307cace63966346054b68a52fe9ad08; P0 0x14a2a795a46e31d9b93ad5180266b84a04d0e6910a65627d011bbdfcea672f04595d81e4bb8159715057 0xdc872971c8b40e4d59216a2520ee8ab8f9239afd8091f2d9bd0534539ff2203b47db065b3215ef0fc39; P1 0xad5e1cb5fc5c1062e94e48a8480cdfa83b729010fd19f919f3b922abf50db232c0191dd7e98f9d14054 0x67464b3f4158af1263a019b787f335767483edef1fff3f9ebf6448d4051eb1572e51bb7a89b4df168ce; P0 0x1302bb9e14f62ef7a0cbb19bcf961a92cd08994918e02afc198c3e811ee5e349bd7f7b070102969b3e2 0x3f3ef614fd7eb9549ba272a58644a6d35ba9f2c63836a753ee23e3f8fa742503a45168be8056cbe7442; P0 0x72139140da9a26c352420a78fdb4dba04fd50a771188addb6f310f212a2ef1d73a343ff0e75c064859 0x4361e8fa8e441729e47d08d87c64a8fe732229a301a7562ab4d11392ada65dca5995516b5344fb7d5b; P1 0x102f910c3fefe801433da8daeaebb73d750e94d3fab78538625125c12f60f47fffdc6026809da41e9 0xb706cec5182184c2873b96a6ffff92507aca00ce4ba0a265ed13dc08f9fe4c5b977c165e498355faa79; P0 0x3bb579eefe5e22268a92196c95c13fb9c82c94b0b34d8aec30135eb53162077eb93340997f4c0f43464 0xe86806bce14f324136c737571f60b10fa4378351f3f45a3b8467cdda4c282af071d42fd8e197f05db8d; P1 0xc08c03e2235d4c41c829caad9884a6eb508e6d07b4f1a51eb0f0e399319be2ceba6d44490220943b3b0 0x10ee7e2be54b1381eb6db7f2587e4788da36c2d7f7b305ab95b1b4688d545b894680b5063bd771f2d4a2; P1 0x1059fb0cf64422d4400eed2c8bda10fc86dfa8abf65ba4915a56807325971c21e7743a8bacfbb78876f4 0xb89b0807e12cfa1a9d4df85e8b608226db089adfc5face4d4d0e346d9977b57d72966911c8bbb5dd3d4; P0 0x3cbe5ab3c21e6896cf8815d42af9323fe609524d4c87eece3b988ee10cc19d062aeae61b9d2afbe01ba 0x1252d714d3caa28d6751440e7e07bfaf2f79dce7fb109afc2cc7deb3e525e024aae8f14ef59920c9c0b6; P0 0x99346375fa4e65a469e5adb12ef209f704e33f4144d14ebe406265d510a58b22d7772a0f094d57ff296 0x229a30dc8e5c84407866a772f28f90e1c1c20a9a98679f7a321c3fa93e6769cb5987f5a2f7fe00f702ee; P0 0x222564ebc223a2ffaf00a6dbda5899484040bcdc0dedb448ce568410ab6e3cc7d5eb896313df995437c2 0x8f05d4242c562b2cdb7f6ac8b4d64270952b661f7a08160e1552d328b0ce7cf540ddd017f26816b9e2; P0 0x2475da4ff156bd778393a2b1510573f5edc2b1dbfaf6ee93369cbe23d2df38962fa8859b246342735 0x1027cf9d24cca00bded84bc6918db07d1ad423632668ea3cfe40a08eeb2e474b4d0049b7ad5ad04fa23f; P1 0xee306db5b58957ebe3db1af2b5db20bb5423889f6bb4c97dc5d580cf1e9273f4b888c2954aab62aa7a1 0x1ab8a6791366c1df06943f8bf1a2921f5996a3fea429afc959dbdf14b1eeafa3e1318270ca4ccfbd5191; P1 0x28b9f1cfd609cc25f7d839ecb52821d0140c938122ea4a79d832d61b353713395f64a94242ce1b7a78da 0xd84968b3a1e3166e436fdab120edfb250a8ca0e8556cf7201fa63755d8900e3ca320ce259e3783d2048; P1 0xa6c3672e29b88fac832859a35f5846898cd49234d96a93a8766e94852edd3ed9a0008a57c22b6fc914d 0xb5ceaaff89921ca142abbd1ea924d9a0f712817d09ac544e12f478923f3013389e442c475bd3ce1b9a3; P1 0x75d4fdb950438c161786489bb1520686af34070eec8c64592a03f69dbfc5327c25dbe7b82537cc51929 0xecd0d6e43ed9dc30049f3bda15034ce0c47a0bbd4e6c0c584e5d07062dd159cde163cb99fa04a42e19; P1 0xc7ec2f7697fe3e0d4e0139a2c368d1ddc576e8125c403bc7b56216cc1d1c87ccd3a21e6ea0a19222e 0x148addfc8b622779dd151aa8ccb286fe3fd1753104a22b6e6d03e15a527b5f86d78942847c57c5341b54; P1 0x1811c37aedee58ae46434d8d742588e5cfe961927721e82e902dfcb69fa6eda5fceb18b5127c7d6b06e5 0x1d11b10db709d8b6dd5dd73e50be67beb754792c444b8282654a1af3b5b6f92c51bbd3b390cc8683af2b; P0 0x181945d838d18095a8d0d5f6444c579117fa2da18caeb933b944c0fe4fff8f18515371c6271df416725c 0xfa520c8e76703dbc8ebea30463e404444f2df9d85f6be976ecfe99dcfee449d4a31e0c5c1efbaae801d; P0 0x6fafed7c71c458fb601614c54022c2dd82d10c1be44db3f6622e1703b579f3fdb68861cee038385fd74 0x74feac68082977eb70d39cd72da683dc517f422f06a09a448f96525f57ae32bc5ed45e19c02219b1b95; P1 0x30cb7a6fd4dfc3d42d5d952db79b23d859664d610b24dcf07f15d68d15424106e263615c6f17e9522c1 0x198070302f4a6535fea2ecdfa1909afc8b520cbb41bc4875cbf9edee40ee19c94ffc070f17737765ee1; P0 0x128bfbe18bd203fdcdffefa3c23bde3453d89425f78770738ddaa39473e47c7e48174280f422bc0158 0xe9d7f78cce0e335c4007e73517b67cda7bdd222fbe0f18191f8d583492aca8edd9ad6431576a87620e9; P0 0x6177c94a6f3481861e72b6a3b9e373a21edbc4c18f0f33a855b613391cac619cb8efc8e99a9edee4f79 0xc13587148f2452ea8a99cdff5421407f126a3b009f254b04de3135939b829ddd6cc2e634fe0cf127f48; P0 0x42899234c6311956228f7a4c27da4ef6c36a3385471496d46b4130d4c20211a4db3422d021fdab8595c 0x133eec0a5945eabfdb2f513bf83746fb0df0fbc79a544c12de0ad335acb4ea965584045eaff2fa9e9c24; P1 0x152070a2746f0397bb78dd5992bc265c5999e408bc3cd4630987a5f174a469aaa450db97d3f4fe3847d9 0x11471a35ac90b4fcb57e81985eb2b0a32a17bac5b51f9c2605a17b4ca568191dbef618896ad850834ef7; P1 0x1106e08655459bb438c2a45ec44f9463d7a88900b3c407e4707c8b1b81d0d31d3855f043146d1b4da60b 0x1838e6adbe40bdf50a8503fefe5d557df040a0fafce632d7a6927170d59d041deae5e47400bfdda15ca7; P1 0x21770773f0f35778a88b2e7fc75a20c82dea36a5296dc153ca13bc9ddec00fe3fc697b8eefa8b14810ca 0xbf6dde1221bad6649d61063bfc9872d7891a23c755e0e8d138b2cf2a6056bca47a6141cfd6a3c5386f8; P0 0x41512d1052a52eed7fc70afc5cc75463d787c5a309f9084be45bd3173171127a5a587aa075be85a311d 0x1bae1420c7577276fa46cee631711551bb7511df843136af7f82ce802cb5631509204708cd6c2f30b893; P1 0x2bb37cd618c89a9d4b3bf4f72794a77232158403f45d15aef711500eee66f3c3315a4a0796808d837edd 0x426fdaaf6c5b219560d8a428b46ff09aa6dc7e38b0a246f99e01bba70450e2cd2cf53e73fcca76fb765; P1 0xfbc1850c5a0f527d314320ddfb2fde32d9c3d6da2f6997834bb8522a7c5b3fd9d946e35df3fafe3b6b 0x1dbc9bf40909f51984e55676e7fcb58500953a358f4f8f250a0d00ba53b76c97022d6ef38912c1608057; P0 0x1937e9e17a9ca429125f1e60c82f28b22634764a4a8b94cb1130d17e4516027a73a085331c845b624cb7 0x1076dfda0b5fdaf1470e05505df959f0c151dfe7dd1f5dfe5dd9a4e88ee1385641917221ba1fb19e1f2a; P0 0x7bb107a1b23b3187c51b05d80eb9315c4f4cc3767eb7f7fdca88a862083d82b02fd3996cf0f0c6677a5 0x1550a1c03556ac573332e3ca498846e956be721fd44b959ce9cc0663cd7d831a7e79bc29efd32151ee2f; P1 0x19e9ea634e98aeca021155816a42bafd08361ad0a582a84e84387ca8ac6ac1bb1885fa679984d4d7c7ee 0x1fe9b017f77226968fb905a4d63a213f80ce0b335cd07d226bf2dbf717a3d0a6b2dfdc84d6b2d95865f4; P1 0x3a16b4854ab22a7d25932ecd5567960d9c333308444e1e35e9a8b4d7ec62dfddf4c4911bf9330cfc62cb 0x14515ac41523475f4375c4bb3b873ee6a8c2c24784cee180eda68a03fcc838017ce08363a1c4aea70065; P0 0xbc5dd044fa6d613faf30b7430687404eaa9e73eb41d2e8a066173d7ebc5e78fc4c140a8a08095ca915f 0x107208ccecc8908231ab6f79f8e0491afc1377d8f6f93dc9b6662c2efb649b2b39d900c5346b2b4de44a; P1 0xf6d0b23a59366adfdfc7a53bb312c8cdb9554518f3b6c55eb3c977675a9ef043ca661f0776a4d27dc39 0x1cf880aed1c3275d5cf575086c8936b0e2b0883a2b81686643ac1f0946dca8fe56fe8c9bb73db1930d3f; P1 0x2fdf28b2cd1dd872a6d65a23d5bc057af58b9d6a11305e6d47602a17acbf0c987a4805be195c25c6a05f 0x137321aaafda23c16a85b241381aeee59f9c315478ff953374261258e319cfbea7b24507ef63a3ad6873; P1 0x1593abdc4e65431144b20090c30b068df756304a03673f6b3639bfa8b318560883a5dcdf45d64d4e5a8c 0x201ed75354c7a4ca4e2828253df5f7de59e176074b16f82f71632e41d75f15339be600335f9a48e15706; P1 0x3ad8d63b282a22760fba473026ffac98bea18421313c407a07835f83bb7b2dc1b378940408a3001ef567 0xc37433d4563c0af48579d49563055adaa1d11975b57a5e3aa727656427b9184fc4b4e8cc11076dbe231; P1 0x882f5e17990cda06ee715316286ff92746bead8f7b247b8d670f54f66bcc7e4cd1d16570624e004219f 0xe3561fb3ce9c67cf99da957921eedda266d40fe75bf87cd2732cf581cbb4ae894e1c1822fdedad752f3; P1 0xb83cde23c76ba4310a8f575a5d240d5ff515c86cc7a37fbc192220cc6164e808f5748a41541551bdad1 0x266a94a8b8572f8896bae77233a72cb97c22125932631ae25c0bd8a765032f0262e4a51e9fded6105b1; P0 0x2a16a117c421f01ccdc2f035a1a4afdf2ff5a929ba0febac9d392f544544a0252a3888a5b041a91df7 0x125f4eb4610d66458e09d2515880769d5834c30afcc4a6c7b231672630d0f72d0494776172ad41ad0ba; P1 0x1340a4a29d3ac1a8d6726145bf953bebf9854ea4b94f364e513bb54604479b1b65b327427a41684b5c 0x14cc6dc179be10df280e4421aa0d9c6b849023a4df3b390bef82ecd4237a97a1a48736e936f7c919142c; P1 0x18ac5b67b15f33d5665ec6fb469e10da0a8a203d79ff69ddac49885190afdc4c2c996f3ca6a4158f46cb 0x1c937bf744a14c434fb651c372fd1425e9e23e38da3d0bfa35f77fc69de90c5a6a38a829282d3497ca65; P1 0x2e939558b6039f3d6cfe5ed8d1558d566ced063760c6a371e7f44d1ddbc58e8c52781a387697280b39c6 0x48cb3bd6dfcefabcf02251a8d4373cebb0faf0abcbcebd468688da2865e2d6c1c2f8d6a4ee5edc06b0c; P0 0x971e943fd57cf25fb9e7c709b598995440609231a8e08e22ed28e1292cd3b29a820f32ea7eee949f91 0x2151d268821ad25399dded3538052320705faae43ff0cf89418e57ca1c8f2d7a4c6ad8f686eb7a62082f; P0 0x1fa953d611b8aef0f34baf81eac4af59baab48da8ba34b8ba43a5d9ce2a25dd0b43cb03694d540f22beb 0xf30ef7e77b7074db140508cba01116b787f750394d956db1fb4ec6b04147aef14eb3b32111d07384c6; P0 0x694d08b900ae67c6d3fc4e1e4e05cfb3be557ab60f4dd327a758ceb66c064d928b4d70e1f43cbfac9 0x1f8d5fd9fafbe5e01e7ca0d747176329e3977db1dac9a54a1fd4bc1637f0ce58e579aac14f32fa9ee80b; P0 0x1c644530fb04b5628e78c541cf07e4f1fd67fbec56fd9ca09e34bfab785528cccc52956a5558740b2837 0x1581a2e3d7f4da053f7a01770869b4488fd57f18f3961044156e62c5acf89bcf2446707f9b6de4653e92; P1 0x1a619aefcdc38e0606b7129644632a50b753d0ca8abea48bdde8c35bf0f0ca940494a15db3c57668cf5e 0x19c92da70dcf88cad6d215a464069e2973873146601b9b673a87cf8e46249c13c2ab4954b17cb022c0ca; P0 0x12f660b540d3a20e2691f40c9495065a350a47236cb99cf006def6389e8e0f29aab5285bc923d6416ca0 0x3e3fd3a4d5e057b8a704bf2b6d9a9d78aea97f057b0973b2e60cd259754f3099d0443e2278ad71310c4; P1 0xdd04e5cc2b7cf30c9770d5c7d2c199b6903e9311e63fda0e0f95be97fe7fd25f4a8e1f810421456e77 0x136a55a60b73d7e3dc52e0fca8ce8c5d9056fd7bb48abdf9e35cec0c320070995eac09b187a35c675ff9; P1 0x15802ba82bd982970f9981dea18e9b383b31055e6ea8eb59dab88c147ca7bba1dd0b2f358280296e98fc 0x15fd9ef8181ca206bba3fdd7509b2a0d8effef113f11628c4710f533e1bac2ec8e5dd9dd121c8731c6a6; P0 0xdca9a81021c919ae78e2040ffc8564c9553661528c92cc79acdff560cc7c42a72b16e0baf03037cabc6 0x55263ebfe6b754060c59a10600f0539ec1c81d609a1917e3dbff2d518d377bc444c75002a73129a74fe; P1 0x19d8bc0f5a593e859a33db35bf3126b1128145fe4697ac0331ce2a575bbf255627544ea7194d2781d6c 0x8f92363a91ce0e4b8b2917310a5e891a4d6c062d8d4ccf23e6f13f31e9a718430695530c0c0dce0aedc; P0 0x24bd909d903d5057b129cf085a707369f184dd09d6007b24b58d9d1fec017d477e9bc0d2b84227a5ce5 0x60c2f19865a6fe55e3277558df145e1ae1f4046fe202c1549c2af5cb25ae1720dd9163cc96245a69f1b; P0 0x10b03dbe3014a2bc11536cce1999331534858295c99c173a4a73215f80b197fffd02ff2f1870d000fec 0x203edf7f8a8ddf3de546511fde968f5c664e6d155a49cd96b4d05e04af3a4f99237a47840f07380692d; P1 0x3b4e6f5e0f3d6906fce345cb46a214c1f9f188e752ed0391df11ce459a4019e09bcc81c2f2e1417561 0x4de2446478422636efa932727f89d620baebf4d29a9f4bdbc58e8562cae0ed09c3d764fc76bd52864a1; P1 0x159fbcc12644466383e71f30b3e87fbde3e584dc4c47e05eba033e633e026bb2a447cab19cc6ca2df2c 0xd3f7db3f481e8a1ad15313e4bd912a17ff9c269c78694743cd02948b037c2a44e2561534f59e2234396; P0 0x5015cc7cc755437ac82f4ad25cb784057d4d7ae771b3be22a573493162502dc41e272f6a42c9eb58c92 0x3c3b8ff4aef7e9725f20c6cfd919c1b2f77e493672e0bafde8a4906899e41542e198ca8bd3c9b72d2b2; P1 0xceee3d3e0b10aef5b80debbf88c67e3776420b8829fe9065cfcaeca34e454f9f67a5e90c1ee1054d15 0x278bf28de3f4d4d422dae879dfcbb74828f5b1920018e1752187257e9abdfa085eb09e73e26a6efb263; P0 0x2c9a0278fe4b81fafe5a964ffd1ada38ee04bbc0f4535dbaf3925f80dd4c75a0ed6a0a29369cad618b 0x117d1534a474f422ec4b6bf9fac78116f439d023bbaab912fddaf828f078beeb313dd1247ab37e07b6ce; P0 0x8b8f5b37d597f7df4eb7953913816b88b55b9f737acda9e97540f452deca2fdd7bd9306ea9f00afd726 0x78cd828b5659d6eef63327c944ead7f57618f56d46bf8b9489255ce5eab96bfd25e45a84d78b9c345be; P0 0x1a02edde64bb24c1ee4e0a2d6294851aa54ca1dd795a333e2c51c0a55ecaba9346c989c386bbeade28a 0xd2416e6ce64fb17468e1720c5d3ccde829585b29c874e74ba6a78eeb35434b46adad84a83c2ee57185a; P1 0x9d97b259fbe8fbc2acd83180cc616b3572e49c1c00decd15e96cc0093742ddeb172a398a5dac055ef62 0x10de6aa20c453cafb7a7265d1d360d80b6ad8aa3a372cb827aa2e9e11dabe45c87381010f06cad495a46; P1 0x103afcbc3ce2824032b9d8e3b56f7a9b3e8e9c1e96cf31bcc7c217a6445740512a41ea4f62f9c0eda056 0x22ae8d2f212f847fbe32889a900cdc1c2e0e1372b1d5307daf4038dce4552377eaeca2ab3be7bb79fe12; P0 0x224d9ff02453c5534c2513b763f56dc7732f82cd7ec516034c9429eb2143e4a50d12a09c7158e0da2a7b 0x4a4c7c7d0eb82fc719de2263ed807970391adc3fe0c84ff947387983025b6596acaeaf01816fcd141d9; P0 0x9d6eacc62b7ddf065ad4e5bd71aab6854844f8ade0bd462cddf1fab744c6697d9bd84287d919797d4a 0x13acd081d2e4d2d0be10c89bfa7ec29b24e554ffe5205aa28bf4263d12a970c83b514b6d2d11b0a57287; P1 0x16146541eacb738ac589a9744a926047eaa1af9dd12da30d9de1337d6e0136767bfd8b3ab7b6de4e96ba 0x107fb541936b7e777c3cf8a232bca3e2e95e829b2dee7bb0d719c87615bcaad39f9eefd8eab8f40efa88; P1 0xf86bcb5d6e62f59d80b03cda7d13598cb294739e7d30ed58de250636663af4b618d63a98ba56d228055 0xecf5456b183250988f03c9039e4d8f9cd1de7ebe9fa6a1da72e155a1278ce76da81ea2b02078dbfe41b; P0 0x6414dba8890368fb3123c9df5a276d602786a68b0574da8a8ffb93a5f3b9e9850c15d8936c5a39e940f 0x497bc3822e182940486a6ddedc229e1a3fd6b45b5b22336f300fe1a06820568f800e0e23f217db6159a; P0 0x99fefffa9941f6f40e07857cd96042ecf16a0a2bb569504f464e2998c944af317cb341c3c89bc10cb8 0x8e97ebd669572d411684f9db18234eecfde63df5ae5f7c95471c7418bfee548ad0286bd433468bf566c; P1 0x487bccdff287721f754e18da2c0a79029bfe308f72f1d1274f806fe1c26ed51c0eb0b12666042d99a78 0x8fdf4458abeb7f2a329715e74ac506ebda6cb2ddecd24b331af738ebe5e9df257e09f2f208ecc5b3728; P1 0x49ca16662fcac9eeda45672a69531fd3cced7277ec037b1ccd64903c8a5af582f726ddd60e4dfa957ca 0xf069d3f040507ec132a9c18bd3bc35411485e28ff49283015b1f0427d8b9d9248a5c97362f78dd31296; P1 0xce0b03dc520deb16aa9046168a6b83da1581a9aef6f5d5ea410f7460f56d9ff46c92d4340fccff678d7 0x3ae9fbfc0d63c8805aa44dc1ddbb666491dd9b6c0c5f86e9e11e27643e2a8f3d294357eeaaedf747b41; P0 0x62fc0ee947fc1af9be1640bc12616aa6bac90b7858aa4743968e93ae6208073679e2d4a2cd700a4fe5 0x432a3dbaa0dfc24fd0b37fc7a71836201a570ea6452ee8d5a543dbeb5847b3e2d2027d700db68fff58c; P1 0x1014dd91140131a3dd32f39da390262e786533b5245d91ae9edb5cce47266297681581c43b5c9de7470 0x139a046123249dec1e7a487da649bde5bc960c7d777c6b36375c60c4282ea93c0dada7868e8058f4a9b0; P1 0x15ea48ea1df441b7e6f072b2010546625d47645d8d9bf8ab1b6b80fe9e6884b5c50528345d2e213380ac 0x107d3bba0dbcfde02ced1a569900f71bb9bda61b828ba1f97e77807aaef342a11a68d7b3985a6164194; P0 0x7c10a582fca1c0f2bee65390c753f00a861524f1f37e56bb078fc63640359238c00629e4263db6f63 0x22da8f134203ccd03d7ce6aa362cc10db75498ceff2dfc1ac1e1d0d688cb9ef6a1e78db9b5363196ccbd; P0 0x22a4e4f90445e4bda6ff4296c64b0cd190429a82417d949648048af16ad61082c9a6fb5a94921e3f1ec2 0x1636fe8b9473f9623c3dab0fa1b93aca1767236ae86acad16895c6c3718c9af7a2ae4410e5af3bd05127; P0 0xe12eeefc9b4d662ba8efc00e9aec9d1cf4601cc7cd5b6b1d39f133bc72856f095facf0e80b83a1fc08b 0xd19838ba39010a08eae2cbc166692fd1bd5ff5d8eabb7b9c2b6268991b87c021ae4057a4783af050976; P0 0x4e4d385bfa70d3a49de03f64c4dfbe086336ebba1ec9e8dd20a4c22e767894a0674f8bd81725955c0d5 0xa5ab315f46be94652301a163d0b74db27944b39c06983f917152da565308016aead1681d652633c6d7f; P0 0x30ebaba439751050ab3373f957f12798385ae7372c167fc6e2e270cf17dfffe5652d62a11348e25ece1 0x5c547f21e0d61cd84eacab04ec1b1a889cc64f34508eed4651bbff8efc6a45a498c48f734e54531d650; P0 0xf31e2cdf693fa35af12e61ee6000910a177d47dfd2f5bfa0ca1d4e0024d27b928d4bb3e3045f0c7ee9 0x97a4219bce237fbf32fae1cf8b0b972fe96d87cbc3f5424d161d8065c72c167e4cfcb99c244179eb9c7; P0 0x28fca31eacb7e5ee420265c75f838e5c47954db6c319744ff982cb6016dd33701e6fb799f54a013b1ad 0x1f6b4bd67af85e54c0e6dbdc34431ae237b62f0585ba1fc856904be34eb5e7b4592a7588c50de37d3b74; P1 0x384e2413aa900406859847c51e21d73ea7b4adf8e02fcbed0605901984ed34ce69c746c94c79d779eecb 0xa99678efcab5d64e8418081433f5ef04cd0b56d6b6997e45d2944eb7008f887e4e3a5c879bcf89c2c65; P1 0x668665d909d6b4cca2b3cef7f4f2278205f26f8e3b2e0e4f30525e470a00da75106448dd153432e990a 0x6667207ffbb213cc16156d8068770fbe7063b08ec33936cf6e7761dc468fbaf6f92918103bdbfcc6088; P0 0x12b0eb413224e2e7a4dd53f08d88f9839059cbe3268440c95be537dd93bec18da2563905fecf2396388 0x1d2e791a68727dbc3a61e7a02a061b10ee9c0ca82cf7dca39d422b86feac9a2ff82af330de80f092e38; P1 0x30922bd3d3e7e18802d7570fdd0189083667f5631c25746f8124e9e0c48da93d851ca48782e2c501a6 0xeb14722725fb1d3616d11dd4bacd5f7518d1def97d965992accb63b0695028ceea8a3c070f94daaddfa; P0 0x62804e3c695ee5fbe29297dd0282ac2e810649eb101039004b3a8c00693415364a64a3b294d61f86c7b 0x128fe6daed9b5d76ad76c06604f51a189ca873460e548ada7c5a9ce43d3819effc28514c31fcf69d3eb9; P0 0x9d381d2215835fa7a054a42b9b2089fd2c197a6cefca4ee755a425a7268ffd5ccc87641e087156ed273 0xd20337611225642b4c9913d6d888a55db35dcbc303be49c1b763a0b0ddd026ac6522e45f4f00914e0ce; P0 0x4e9d3e4ca47a060bcd28e26edd444419ef716cb3d7e9cb864d614c71e99dfd58cfa10f5263967916b2e 0x13abc97e266965c20f19d8f49d7013f15a0048902d75f10299e625cebbcdfdc00dc57438d5ded84cab36; P1 0x161216ffeb952ade552e2fa1a7cc426a679255cf5f7aba04efa0700d865d905fbf3d54d29c5e392d0328 0x19eff0f09d60f7b8dc209246cfab93bc40fe33edd3b07716bc3c723162bcc6e2602b7c7799416f141320; P1 0x265f1caf9854cae47134f7bc0f399ad0814e6e24b3e04822e819826d1a3f9b652f4ae3435a1e4bfb901d 0x1346373d69d63487c4f0525ab0f563f13ab4ff34d7e7214be2e2d2c9b170016e5fe9b9044abf81c02153; P0 0xa983b84e1a4558a51f9b27223c0c522a8e3088dd54d2562e2cad87ff1a78f160389f43886c9004d698d 0x197beabe8f1eb8d9aa617d203bfbf88cbd4a6e7afc07e314b1ac0063222cc707ece15a5cefb450c8c5cc; P1 0x250ad1cc57090bfd0c3bd7de2edf380aeef3215039b0399cfad5b1d54a581022413b0407318c4b91ea7f 0x22292075660b47582cfb0e8918f396b35c78a3d3cfb848f15a19808dd6f7978df2c1f2653dd0d7aace71; P0 0x2147abf507fb22606493def14e7bab9dc5ca29875560aea0dd4aa96ebba68dbc91a60bee01959b06d457 0x198b73b55385cb25f00f3aa900edfca443362d18694c018ab42dc53218db8726c067e06184d68e3e75da; P0 0x129c047c478cdac2ed5024e3289ad92e886ae1130ced382193c718ccdcb7df32829793353882ac941c77 0x5eb88dc49d79c7c0c83b77ffc8d16d165ab4d15f178acbfa7a050b58370813913d27ca54092be28237d; P0 0xffdf2bb43d55b8771512de5f33d2d467c99c84b60c85fcf842790cd7f857555f34604288c2a0ea3d58 0xc765fa4ea9a4254bdd8d00d58bb2daedaed8b19ef0525ca54015ff7231e5dd4d29f5eaf171705888e31; P0 0x46de5b697e65aaf66492876d3c93df0645149b607b269da20085e8b2ed465f32793b5c394b4e407de1e 0x12a62f94eb73d236e8f27c2c8b75268038306d34230ceda57f7e114f027a34ac1839493a8510c911c4e3; P0 0x9eb27c9a85ac8882eb1c0f194cbead87ffeea8a58318900fddc6de2862c3450fa3ace6172f93b50f985 0x3173e410458faf6a4f3ad60ad0d101531e83c29ae5827c288fa902272dfaa810b2aaa19ab83842874b4; P0 0x45be9e36f1187909ff0abd270c95537acd7516582e33a769c82f2ab3e9fb27578c6289eaa8e7b8d6bd 0x1bf01992c7160d2179894d542ab4373d72c5a9e0209d19bc6a84d8dffcaf6b200ec1b644a9c1d318af43; P1 0x2c84ed6467ae38f7a0181baa005f08fc9921643bb5e046b11e1f6b2c6160a183b3d8d0ce4d3ffa2ad68f 0x189f27aecba2a5750a611baf1452ac6ec690cf2f173d90b406408ea395c929a85769b1e7a0f267278753; P0 0x1149f37d7cfb49ea63a7a1ed45055ee1c1f5ddb72fdced0306280d1b3860c5a41ab7a6ee121202f2a0bf 0xf32564b693c87ea7874f58c28042067c93628ac8d21a086c2ef288616bf11295da89dc7075f64acb3fa; P0 0x696077d5461bdb8172e4f3386928010fa591386411f09a295f8c73b86031a126c556dcdb2869b4904e5 0x136467ba4054510b40a869316330016f033c0d7d0b66605fed9ce6c1987645fa564b3a913c3265bf3a2f; P1 0x15730bc1d6404fbaa5125fe622c087642a94c349f8b6e41fe817d2793773e5e2d0f397088fe089e3352b 0x14268998ca0a0a33edf10e22483a78e0efdff87c592c550a9faf71ab73ba060b22c4423170ca715ce827; P1 0x1728e55259dc8f863ddbba08e4524d3dd752248f7706ce1aed4a919dc99fe5e63c6a191ea464eea6a8dc 0x20b7c38eb52619fbc3e168a8b1bb69dc653c765a674e74527fd9404714e3ec04d5a3b678480eff1a1c46; P0 0x1e87306a9a78c1c1a313a3152cd7b96a71167d7835841ede3b16b42546636bda2f8f225b0f6e42dbd9fe 0x34f01f79737e53c9e838b8f509bea0f87f2d39fc6fae014f09b1e4c6ac9ea23cc289c94106bd76b80c6; P0 0x4febfc1738f3319a931a4a15a5bbb342a83037c8bb66e27645aa73af61f311ad38dea26b77a040028c 0x1c2ba839c74fefade986d8109da4a08cd21e2cf8474ef1d2a20bf40eaa3923e483d4d2f2b3372d9280d8; P1 0x2d4387073d9a35b93ad43e890c842be86337cb1bd01f95a9880256cea6c029b9909dccefe1ed2fdc4f3f 0xda5d7c831b49211f903d6fdcb7ad37ac2a8e47a8b6307a8d3f4cc844362eba2808096f31778bc448511; P1 0xa9fbd6d6be8127b6cd52747781aaa2dcd48636eb0a8cf0e2fbc256b5d6a90a9c314b0d973714236a8a1 0x70a75ee052e309f3eaf5b885443755199f440a867c9675909666ac4f084b860ef12ab9fe91f875f3fd1; P0 0x169ed93fd1b00cbed9d412241247f9ad68bad1c500d07b2f6dfa2942df337d00176334e7234e9c6278d 0x19c91282e4f00d0642e987ce1e17ff83508ad8851c3228d242df18394a5931f820fd8dab13dd083baf84; P1 0x25ec7194819e23c14aad7f1950d8b851d79f095526c0f9e0cc957cc00e374c114d6f8a3fa94f19ea790a 0x1b131c752b9cf66f2410926b22c95dba8e36238bfc1ba4ab18ec93926afb3d552b4cada47547e69038f6; P0 0x14e7c1bc26189f0c59cc7107a094a1a389565433667fd7c56049cc0d528eb0c037c42be0139463bddab4 0x4e15d85c1cc3d3dbbbe41cd00a16536b02fb87e2f13c2c2f13c86967a8b213d0792cb7c101504014370; P1 0x15bc6a3d1f6c3e179673589f31bbffd11e54e92dd17294a848a4d18ba56f9cbffc7ce12d46ee2b9b4cd 0x1ef149db633f525c48e405ac0e8d54c4bd1e87adb4c0be61e85d83acec8c2dad18dc95b6e1e7b934b7a3; P0 0x1b4e151ec8df8a7836a1bdb104cd9c62cbc716f6922350f25df649ee1189c0ef6357f998a45e8bd01312 0xd7b1486e1d6539816a7afc947fa14d7f7ecec503bedb43b191ea3c8f187182eead4180613db6b5a1a17; P1 0xa5d92360a8b084f6f856774e06bce2988879743e59bbb3383799babb6f4fa43233bc57f37d78afc2543 0x1f031924f1f04bb39c0aa6c6174a128e7c314fee83fabd008801764df94cf06e653733ecdf84956e8f6f; P0 0x1b6d8cc8eaa947b66a0f0003e3c198b38023549cd444e194fc0d55305fdae937e382c5d389dc54095061 0x6ace627744d60e929e89d9b9baf25e5b457f79a470a8fedbe5fad2b560c9611cd8ebdc07f490c6ae7f0; P1 0x28aa8b4b4a74021867d9f58337c595449974c55254e0d597aba76ff22ce6999a438c5ae3e14316532e6 0x125c90ed034f6cb96e27b6f9a3fe0ef995752a850bb995ee054ff4fe6bbe5692d86a611a8fc5d69a923a; P1 0x133ae643048a3f02c4196f3fc2d6ea227d6b361ae5de382736aea2002125772171fcda4dce9bd05e60d9 0x11a2678ebdb9034764a1de7fbc0fa44e2c684f0221ccc9135ab6a25a8b3b5fabd0533469e1dc0c1a861f; P1 0x11bcafe87087d9ba1f120d06717f4588d17bb18c6f9fbefd3274eb96aa084bf5052a2141a87358a15307 0x22202bd0210b80ae8124d580036da9e0483dcf6995d3356d27cf81cd2694810eefee50d28f72131659cb; P0 0x21363b2a43aaeeb1aa32e1e909e913102b006e86a1d011a69aad4ff0f1c5398d5e451c83a22ac1c1909a 0x1a332db3597bb83e0a8ab4ade047c749fbdc4c535d50b962dee0fed81654842099c6cfbb37c834421b3f; P0 0x139387c95e77e8fc1d97f685f6462f631c79705c7243dd251a3fb3e0458f1aa496f204bcc51d23cf251e 0x93e6c9adff53bf5f020b83352f402b030920d3cc45325b48617eb93096ccbbeffc643538757dd2bc203; P1 0x4dfb003e66a501d39d86375ba445437c66dd4e7c677c61ff9f2c5a48b3aed9dde7af4266182d02df8e7 0x216417b2e36cdb591d291ffd3660b993d5790d90b592d13588d3646b5e585c1609c09509cb38c306767b; P1 0x3f982ccbcb4e84dec463745234da4dc84efe79ff0a5bd05270973b884eb12de9e01d1aa9dfd17397154b 0x81787f18c25a59654c85eb63f3b95578b191de94820c9be586cc0f4a21fa6a1fd930edf2ca36e6e22f7; P0 0x1de0cdb6be75cf6d0a15d5cb847f1d3696e8d2f5d730bf3261b555c4a5ecc0ce0fecb7be5bbcd6629b4 0x14ba70ce43343e2e045d61f70508672e649f1cd6482b847bc276f93d297a0ad0f3572918b0ccd151c25d; P0 0xc40e016d34957cbeb3d386e4c8523ce553240ba303e59dbb8f5049c44be6a0f32cdba365d4890d13a0b 0x17f8800baf75da941d70ea2b57d07d400d01568fd8dd639fa8c5521e1a26f1adb837bbbbd50c89f9b9ce; P0 0x1063006fb02bd23f2c1f0c6539a6336b7ee025d99733e36daa0e54f108d843cd9676baeb3cf0d562c2dd 0x2032ba1d6fe05b58c2bf78d327d2f030b6c78abfff5233c1e84ed4a75792baad7557af990e9d2d6d4c57; P0 0x1d90e516060425f651c7724c443cfa64464da3b56a8ffe92a2d540815e427a66de283dd9984cffc6ca98 0x8839659f539e532e299973ee0e85d659ce2587b929e5ca53551c7be07a571f5d10a864470e6b0e5d779; P1 0x42272782e670554e6180e7751277ab6c189aa88ae323389f30429a13a87fbea3bd537be49a0d149457b 0x14bd2a4f2249e4a6d5556f663c461757424d9866cd2ac55867d7309a745b9159855f98f60f0683f46bf7; P0 0xc4418f3b8c926dab14f924f9f715d5663c03b6964b239dd61cec9e02c496aecd5f55b4b321fc9314c42 0x623ac7c61dad6d42166d4f57f98bc26c6b9a4132ce7c4f6728ed9abf43ca7ccbf02b3cd45a8e20b506f; P1 0x2265bb3704291fa9f7a91ff4c16b3352ad0ce212b540d1f3c42194a5ed16762968c0df901b85d387202 0x13db0ac8fcc6781f33ec404c6caeb67dcb878c8ac3b0def84cb756b7ae0181cb620d3fb10b651b4f6a0; P1 0x167ca06303367de83386b2262d9523c11ba463966d6153f559ac4187b5aa5e9aaf123d25a2e8dc5269 0x8ffbe032dab4a91344a68787231dd348453861101380cc3ff48dd22c6f03d4a489ae16d71088bc27d47; P1 0x49e771dbbbb84200edd718159e9e3d1515a7d49742dacbce3026ecbcd2b695e749e2720d39ef152b229 0xad2074f87a65cabcf26e6477a818eefcab34f4a9a324304c1ccd0a26540f215c99cc9605cc4cb861ce9; P0 0x356ca16a4f6aa76ebec7439de9e63123d168179ce530411aca2f59c8744faded97894ad6605da04538a 0x1bece805ce79e326a35a7985946619ead940a497329cfe0dedd7d1c60f747215f57c443f12da0525aa67; P1 0x2c7ac06d57056c0c989b09cea252679d4c71502cc77f8d15d9e7129d3c2d1d67db8ad2d8bdb2d1db82ca 0x1abcd3b00ba589af34bb0f31ec11d936b2d330f7a65eef43d5a54d980233b227269a2f96f7dd064675f8; P0 0x14635702bc993fa231861b00e8126f357ee9afe413dfd8bb83bcfd49bf6b9455e945e41da8e6a6b48903 0x185025c45ceec98deb59f79757c31a7d3607cc6f7c9883091137121c9d3a658e334d336cab8e27cf23cd; P1 0x21b7620ffb4a750f346b84bfab3483faa07380a041af659bcc647cd6ac89af4a4609b832f44ea54a538f 0x99f0455c2e1d69f6bde006d4dadaf443426a7a8f2e8e9171c777be6b8d501902fa2da083c0cb2898793; P1 0x5479f5fbed25f5715939fc4121abb0c4cba06ec9105b40ef14271c488bdbcd8637444cb23960c7e2574 0x1a4e5cba6c6a56994ecb4c1794062ad5036ee2dff40723cda10238d6e12ff156388981cd205a0c062d1e; P1 0x2778788efd6cc92bd9bbddb77e505a20389c660a30dbb5af5a29a8814856dde57bc392b758e3d57d385d 0xa8dd60391f6a585621d7d2fb9ff15aa49e1b4827bc55b294805cbe435f37ad07023330e045e90a69c1b; P1 0x65a712bc2ddac359071c9e187e4e7eedc3e9f39750c1fee467029d597baf05df7094852728334898436 0x7eaaba29c5d4a9b7acd1a4a14f31f010c74eeec82b98b6e042361299e25609a98f6a2ddaa5e7c41939c; P0 0x1c991bfd12840c4337e04577885a4b0bb3cb1c01a781467eef3644c497a0f6560f0c2cea02d6cdd7001 0x177eec64d75f4e6b9c602c64d45d2d47fd238a94438f658fed7b503a6a7121591236174ee1b6c7448b3f; P1 0x1f7cd998968bbf39e95035acbac9903f7154f14222eb5eb00ef4dc0eb6665db334852fec6aff0926f2e2 0x218460b5024597e14f5d7fc842ce95685d154d5334f41e0ef249b0270020dcacb02bb18c9530bcaff280; P0 0x2009b1276e4174ab93c85baabe20a0817117eafd2a11064ac01fc4f9452b4b9bf4018031756affa2e496 0x15ac672ef7a9dc901d62061b77991cf8ca13d4994cd20804ca4d871f79ca9a8c585c290704d9e4e22f8a; P1 0x1acaef2b712c6e76f288c8a019c2f0fddb1d90c55ff22a235eb40ce47c2b599d45d452a1e851faba2ed5 0x1ae7b512a30569ffe20d82fc7693d9da73fd6f05abaa0728ce29f3f00a8505ba65896842b5e1d48709e3; P1 0x2949e0f1e72a298e1006e9931bba88f77267f9ec89fd9907bf1a108f031365cc168a453d02ce612e78cd 0x46a02095606b2922b975448829025f5a49e77747eb0534d0d425c54f51e796376f290a82df193c49035; P1 0x11c803aa2f5a478b29e08326cc6407e953f830be0ff36b42b6c506c4ed97fa5b7130a86f50a865f756e 0x10aad328b626fad7c29ceb12b040f4e253c34b0bd803f875f8d1239155306416a818d10e59102df3bd24; P0 0x7ec26a2a7a6d3467d8f02df14ce440e06fc9c7904d63824d4e539ee78c0e67bcf285820aadb8041706e 0xf3364d1daebd9c6ab646575fc966ecdf738c3ca87672c06771a9225f2aec44476fea363df70117ba942; P0 0x696f201b598a8f6821b4cb1ba613d1a87e0e1e79ac95968dee53c822bbae61ce58db4c08413d4afb809 0xb36fd053cb523d48f6cf495bc65f95de3bad276d388b8922dc72a4e78f6aa6700e8113b38cd1ac312ab; P1 0x72c77f3d30abb724c670ce8e017e73efdaa9f977082f19d179f6eb4cb9eb67bb0cb45c8f91e43ccb77e 0x3686e9e6c84ab11163f393cd4ffa2c265cf5a1ad58c895b68b4adf0c5d26d80d60b1242e9f7a67c494; P0 0x54cab433bfe9e85bafe41ff9c14bfea37ab2ff647353c06c22b9545397da87b93119d88d12a4edb7 0xd09e4d4b2a263fae0fe2963245ddd5b71aeebf2f94eb6af67e430947d7fe9d4cba6eab5737736418629; P0 0x4d92ec07ef18b7dc7ae8ad03ecbb194aa1a4a24b269342347e034e0495b0cbd0ec4ee7b212ebc92108c 0xa1b15c328f9c7a8550ee806c745e00f10c3332d81c680b796d41ddeb175009cb24abeeea64737d16c45; P0 0x2e99c4c4cb14659b75bac12e99585d191852419fc6a87e72d49d5154a988b0f8b1ada9832c6c55a0f06 0x174bfade6bf6b27dddae6c6382ccb1781578472119ca0206a46e405819e0ad8a2ff50471fe92d7fbc4b3; P1 0x1ef4e2a32c7a96bdd60b9479d6a03c531f826d1ba01a85a0d340701a8f0d53867c26b366fe2634dd8cf8 0x1dfd32634f67a18a972a88e825ec0117dec5e89c7d91727de6807671436aa12e1ac8d25aea93a4966bda; P1 0x334bda283a96850ba445a16aa997cde935304fd2599b07a203a3e17c97ab9210e73631ad2b66bae6b76b 0x1bbce96e9a7f4ce8c52e5f9c404bdaa4948f9178fd364e5ac9ee7d8588adc5bebd187f0839d6512013ed; P0 0x15f12fde922367f9b0b04e9eb61da187ae7942bb7e0e889a9d8e38b7772cd8826c05eea6aac1c78185db 0x1b76dc3a4000a76d79c7d85465c0bbdcb758fe521a5a1a5453cf2e09dd098d30fbd376e6c93c9793d89e; P1 0x2b05cf47f96d7ed6e2566ba4110e628c58344d4854b05871fe93c7d8a3520eb6f58a7c4734b9c40e6df2 0x1f020271facb591fdf40905e3657a3b800ea8fd0ef66371659d6f4555f82d26dfb2b0007d9e43485da76; P1 0x36d73fae83291e082470bf400f27979e8bf001d365f42515f9c23dbd0b0d5bf49fdc3e6830c4c4512030 0x797eb7d7b83f8e7cd8f75932cd799417cf5f585d489881e614e8e7b4b019ede6d80012ed180e90d0598; P0 0x1a4f76187f52cf4132df6176310578833b033984308719b6229dbee201bf03c1d878fec96d89a85ddac 0x11abfce37da2e57e70b92913d8cf4d39500a7fc5d73adeb3793356443d09de90fc4dd3fe223017f4ecd4; P0 0x8e7fe2ff7096fbbb0608af4226c2a640fe6c7669588429f9823b961942bc0292686aeaaa034d93b0d0e 0x1fa04a33f2e0c208a57943dc2ccdb3abf0ae6dc870146e07d7d3ff8409d2fbba52c476a2896878694d22; P1 0x390cb3fa6a244904aa1f7c0b01827c9e08935c2a7065a011d1c265e53b9ee9c2166c6a8b6011aa12213f 0x8f4b3eaca43087edf38ce3e1e51d63e1b93f5ccbd96d914b5d1d4533975fc78608fe513dc1f4b1f9799; P0 0x2499474719684382d9fe07eb285ec5337a4fdeb6288fb353d58156e620642734ddde16e15d501a77cc6 0xe16316cd1e8c3b71fc3a7cd6948d2198d58fbb7a42c145a82784e77110d23ab45adf85cdf0b284d79cb; P1 0xb5177b25623d8f52d32d2bb52e2001eb39706b0fd6e4a28eac81cb856344c76a05d04721aed6b2f161b 0x11d75e09e47dfa985ec7b2364c15a134c622e53a0b531e3849a46a6414e9908735431d3937dc112058e7; P1 0x1227dabcbaaa0810abc9a756e3f43c6e0c736d42fc451812d8eed55731ecb14c9c9473f8b370694fe30e 0x15c587d0c6ecd2627fd185f005b2fba4497001d39751e0ffafd7be221e83b95883de808fd9b0b33c4874; P0 0xd84999bf46e55276f57853f7164d721bf6d9ab7ed96df031414d60a73a80bdfaf7024b03a8229101cac 0x455875851ed5057d12b102aeeed4205492bc0294e3dae323d01b950af8a426817ce890ac23c6134a824; P1 0x1124841c719f231bb415dde7e1d1b5b43baa11cc0b4f781ce2cc4b3e36d995f17d7f73c0a57d1866810 0x1c4594476df85b8fa950be3244ba485db48a6a9d6d4f28ab8ee7bd11b075385b0b280a77e6284172e510; P0 0x16cb7d56758c7ba42367237c85ee7dd00746f7300e43eb9b3b2ccaa0bd4fbcaed9693267262991bb6e6e 0xba788eb919c1cc945f00f750761f10a8df29ed0cb8947c5be804deead3d0c9bf17b8d12d8412718bf32; P0 0x3dfa328231e016d6a5e41880b346279c18603fcecff38eba049cd245b22d3f4012188eb64c7d5e15f7e 0x175a9045b785a4f3d7b5748f3c385743776d37db3152d0639edf620bf9ba7cdf68c78ae8014130c145e6; P0 0xf8dd84c705e7ca1e92ac582cc02044667d679e4e4832548683f1bc2d93b22a09d1b28edf57448515662 0x5cf4e7230f33a5a4354494379f3a924e34052bf471a8cf0abb2a6150c16116799be013e5b3330050ea2; P0 0xf66dc91bf8ea9f2018e3ec4c1a95276bc0ae01256edb537ceaecc7cbdc4a4c577a2e39ba9701f3e334 0x221d8987b928e795077e1a07f607203de4a4543d28da162105c4411c3bc5adc9110b6b1b4895b9846510])];
  mkcert 0xfffffffffffffffffffffffffffffffffffffffffffffffffffffffffffffffeffffffff0000000000000000ffffffff ([(96%nat, 0x1); (8%nat, 0x1)], [(32%nat, 0x1); (24%nat, 0x1); (0%nat, 0x1)]) 2
    [P1 0x0 0x2; P1 0x0 0x8; P1 0x0 0x80; P1 0x0 0x8000; P1 0x0 0x80000000; P1 0x0 0x8000000000000000; P1 0x0 0x80000000000000000000000000000000; P1 0x0 0x8000000000000000000000000000000000000000000000000000000000000000; P1 0x80000000000000000000000000000000 0x800000007fffffffffffffff8000000080000000000000000000000000000000; P1 0x80000001000000007fffffff00000000 0x1000000007fffffff0000000100000001800000017ffffffefffffffe80000000800000017fffffff00000000; P1 0x200000001fffffffc800000020000000a00000004fffffffafffffff80000000f80000015fffffff3 0xffffffe780000012000000227fffffffffffffdc00000008000000388000000e7fffffd57ffffffb80000022fffffff3; P1 0x1ffffff9e000004f87ffff9a5fffff55300000924000017347ffff3b1ffffd97300000d9d000041727ffff83e7fffaa4e 0x46980006d898000123c7fff81337fffd71580009cef80005360ffff545affff7ca4800053b0000046d47fffaba0; P1 0x26eef4878d28a95efe996f96786adf26c250ae20a8ffae844bd37f80a73419bf3c43a6f2383bb4346823f8 0x3f020ff1f9329b6574611079ef9d6288259b896679b98338f62b0290b1e5fec3ff9e940a85e14cbae06ef0fc6c066bf8; P1 0x1f0407bab2da1a62dddf192a65c19f70b76e482135d6f098528d1d197da47a6eefc8033b255b412a09dc26e583396fba 0xe8ae438c32efe52028cd9d4da975a22d23dffd81bcdc6b7a0d370e6983f77aeb069a78fb13e40ed3e238ae307d8bf03a; P1 0x1a6f8a21c017579ae284056ea1202a7cea8f294022c6770d0fc40a510455e0ec82d55d219d29fbf393c9a3e41679170f8 0x2bc84e7ecb9424e04e194cc3125a1d47011e7b5580f55833fabec6ad3ce04f8ebbe458b2b55e1aa1f0fe92f830630b40; P1 0xef9ce32ad26bd708dcf97d8525752ad2c6dac27f8625843d951a416c89d52704367661bedbf389e1cf66cbb2dd2ffde 0x5b8723b0225b45d276aea49037d747351169c1d4f2b4d9fe9ca08e36fe439dca91a4d219f3b69bc518e399f095d01fde; P1 0x4172b56bc25584f6f71a843b4e43183db2e4193045995630eba320460c74e34754f31b64477c7e6ad75ca1af930568a4 0x30c0e0e1c7002d2ac71b544d63b5550359a570d28c2a7053bdb5123b1bdd7579c6749aff1be3f08f93bd4e24047471ac; P1 0x1291cb4d85ace92705c0e0eba91f793a79482fac58fe18e177255ff103b358db8d19ef15f3eb9060cd922a1f526095bc 0x373b1ff377e3e9da8129ce57977b1f5add7f6e612e642c0dbc202a42c57ac34008f23b5b2f28ef18a752d62c7f132cdc; P1 0x17d4eac4b774203f675c1cb39006259531130b086c82945fd71a5f5d3f269201dcd133011e5b367d10747cdc4d53b52e 0x62f8268e0ecfae8df3b0a68491446f0ffdd7ac32fa40d2900f7affdfeb9cae3a0302a322d512ce2046574ed23e5c6f4e; P1 0x4c85dc1ef8c45e81f15d1e4c616d3f5e56d7924b863963dfdf974c2e9037e96f6bfa787f2cdaea7e68eca1c71d9c8865 0x3a3a20fc61651b75e20ef53ff7a9786251323d130db79aa2983a9460ef056dda4672e7e0a8e474714eae2fe60e85ffed; P1 0x1a7cc84aa57c06d60da50a7dd67b41a1388623b60f52487a211fcbe0ab93e6134d668f78acc60e9741151424b282c9fb 0x3d39641aba844dee85352c7fb7280bae36d64d6ea833d5234cbbf739c0ee556b4274b579798dc545ce11ee2562bacccd; P1 0x1d48cd24efde01204eb2b60cadfae898438feb87926fb8bd91a22535d565ef548a576c1efd1ea5a4f4575a7067bc303f 0x4d4d4978442aa99ce66064c9fc4a535c8773bd93c8fbfb33b582a14b231326e860c2a4c9301ab1cd4cf02ebcb32e891; P1 0x2eaf2b0f40e0f62573b384a112beff37e51656057fcec857eb5bd2f7842012ed49716ef30ef0e619b0e26155848b47 0xf41816eda4f4e321f057ee8f99604573d355b7c09b22cd8f16e692086d09e0637298cd85f71a25b441ee6171995acf89; P1 0x1d17bdbf2a21ee7b06e8b7d53aa896165c0ccd053f25dad105b6ba2b0fd3b4e13e92e7652355dda7a09591a5d854bb428 0xafc3d49650563b532c48535b60875df70ae40628a95c250e1eae31a39a1083b71ab4c59f0f70bb268c22d0aa327162ca; P1 0xf15aa4e61ebb2b964f8b422afe9b1b8cd86c63b4a904ca37c1e64274ac3c1c6b612538d36e6f350d183838fc949276fd 0xb0e9cfa30151cda67dcfcfd1e65fabbf1f6d41ae6cc7d6a137daff76feb3d1325aa3ec8d4c9cb6957115a42e1d7905c5; P1 0xf484a61781e3cb347d9f42848e389a1dc6fc1431fbc65fbb9e01b05e155659999905bcc9e0dc7a49225b1995e4139dd0 0xddef75e92c08902a2feaa7a01096ac05b3264e0ce2a0f6334812b06f321b2c82b2752ce3a29c9d604b79ba6810ca3102; P1 0x180cea323eb6bef0e10e117fdc8576808676dc990cf940a69f6bd64b47cb1b6f5769d724edd7dd95d4dd676abb72c7a42 0xa878bf83c73031854771564897f040857419ec9f4d661abe880bd42918707a5fcf53feaeb3ed42cb7fa33b4cf840024a; P1 0xddbd68a2207fca7975d6812471b360a31fa81576fdc1593bcc1efebfde52fdc1dcd41c7b8a79e8fba2b748a1c0ec7d9a 0xd49c04f2f7b009d522116f9c332328d1821add18625b88adaf3b004901531bbfe7e31fb4a74e9dc63dd9e3c8caf6f862; P1 0x161258e90e4e3da5769e9a44cf9633d1caed891204ba52f44df4efdc1ee29debc8892820ebf841054e7f41f0e52603513 0x8fa4c2600297e1557060685e1771ddfb171da663af8470dab9311db4ae3cf37bcf08e6a857ffc575a87510b53d0c401b; P1 0xa132f661c2fd508c98f1d04c583f02cdef18d8b23c7e11892162363629bc161364216fbd56feb17c1caa05c411902aef 0xcfe17e1d01ffcf3b27a1ce9bc8d1b78285562994fac765c914deb3a15defeac4d8dc3e2df7630ba1f03f9576f2bb30a1; P1 0x1519ce123acb38c1a68150868a91a803abff6b518b889ce5dcfd75d17f8592d2ae4cada109ffe025723e00a8460b47491 0xfb270eb7b219160b6de931124660d00e716a125da005ced24d66066aa8ce8afb87085fc1ba483b1b844cf46c5199ff13; P1 0x1eccb39a3681c2053f660d981469e50fd422376fc8a666ea94aaffb51aadad0f4efcff73406b6d17fa3565f58b824873d 0x58eb528190664181c5eb9f86241a95b67b9fe636fa9b03af9a01b1cae0efe0bc5430501b708969e6061e584589de3e0f; P1 0x3dc542134f7955b3ad976cc38b2e6f24f77178ed5cd5e91605b03556b6cd14b5b7de2d38f84e1f005449cb356f4d46cd 0xc3e62f7585b4a43896387c1f4ed63b5fce134d2aa01c8a8b9ef17447678b3a33cdbc7f40f3052f0a31734b4bed6bd08f; P1 0x12bd0f68cb3539fa237901f25d926f0b1c31a8a2096cfa9c44d6380186857474735851ba7efdc860059f59fbcf583323c 0xe03322384000c79738774b008660ea3789ad9fae61dd9ef4ee5a69ab95de9f60ecb636e6b594d147ec880436846891fe; P1 0x188b30c322dfbb5e8dcda477ad2a86210dd5029124f5a36f497146130852ab1c62f83607b8c5f27056983b7e955f52bfe 0x4116404f6a795f25c70573d4428ed4063e56b5a9c042f399f97e639fc2d630d80cab21ea733d54f1b9a19cc519389c06; P1 0x21189d2ee3bf7a1a38a6a5d73ee699b91ddcd773a7037b2efac0201b87240f921d9c3e7f0db3e17b8dfbf990aea6208f 0xd43890e4c84c2cfd44be2ff2481ab257b25352caee5a0fd9d4137f9885b43177eabcca56202000e659f4f1754a14c0d7; P1 0x15fdb78f543aff3447f5a801a47a7838e32910ab479a005c8f01ac790ed8884288618b1c0faf61211204c16f7701691c5 0x3aa0af4a81515d6a457b0281e87c41fda11593c7aee0b20b6537693f7d8ade1c7e7e872c726a617b9edfac946dccfae7; P1 0x1ada6892af82ed0a5ccdfaab6344964a6648c9c6e678448c1e7220d5b77090c90f278a7d3f58018952af54007a96364b 0xd7e2ef78818c52e104177a79a561d951ee791b730d47ec7bad29191cabd476e13d66d91252693256877e877892b62f2d; P1 0x16c1deed034c1532c040e746b8caac04db8814fa43a0e472ecd179d53682c4d0cf71a4e6f87c2f65bd581a2f0f5a7f74d 0xb68ddb0e632f2c0be2c47ca7ae64f2238bde1c1d0f1c80394784aaa8e70b0b3eacfce6d8d3f9c91eb5b5aaf0d703131f; P1 0x1045c0426fca3e63240f3b376398efa8aacd652e1bcd0901d31b702abaa244fb1eeb2c67074224f62764924c31afd2959 0x9cb50e1ce78b8221b36de9b1dac944526d4224528022a815a9ba0234bc7962d8b89189797d71c434fa765bf9274c64db; P1 0xbfda52805fb13ceba105cc37c49d64f625474f64bbf57c8b55c047f67ee844d32c1feae1d11515356476c887a7a83926 0x469b4bcf0b48a3e0ad20acab00a4a06ca3f63e5b4c56f67e1f03fdcca2d2b68bdfc9a83d3533f64ab947127b2f2fdfd8; P1 0x26f297543aacb74a417b02f34334a1c013afd81bed776caea2892c08d85e572ef9984a66b4c7de55568f29e631ca60b7 0xa9f01fb210ffae84519ac33ee49d6d01c38bb7225c98cff0a6153d3daed5dfd4f0d6dadec9d39e2a10c0f699bbde6d37; P1 0xe19dd629187c1f96f99611d386169bf07368cb21e21f84877987fe0331978ba83100818db295fdd5d62b4feef5a4ab31 0x304c722ad8870d2fc3a4464cd2227ead898cce5da4854854aa344d22ef66efbe6a020b3e2898fb576ccc8dd9dd9c6ed3; P1 0x123983481b1aca4b91d99ea120414207b2b7714cf3a6fa35b2e201358d6905e53b6a860a63fa9f57069b91733dce6f7d 0x59c2a9133e6eb85312116e6bc5203769f4643784c23762f6e2f106649685b1ab253bcaf29f67056ca39caf415c12734f; P1 0x3ef1db28247c0bb346fcb91a4b46ae08a7bc62c644256988f9369bc6554ba1cd271144a8f97ff91499f8ff604db6364e 0xcf8264c037b6ef50e84e770a4df1d3ae98690f608c7852cf5762351512ec17de6af988679c93feccc91671b8b3ce5b10; P1 0x1506842b2a9f25154deb241367b9618aacc5a9e4047bc9496b24d36549cb915cd998e2e2115e4eea2a1a2452fd1615d0b 0x97c309cf8b9094adfdf136a2482d4b02528edb9c1c37afd180128e33af9f9cdeb2332da94967795ea4636982edaa1f0b; P1 0xb3ef54559266db75d9fcd889b450d7256ef895778f5256b07d9da816d744915cc700d51aabe54546f9aa01a71f70e8fb 0xbecbeba66b2f90d217fe0c380e594eae3234b2eed6b4027a3de523ac5f6984e820c84444f7028e53a503101358303ded; P1 0x11c66a87533e71ac01682f6e87a7494c0e4dcbc7e03673e86d13e7af5ff19ca35077378ef0e7d8cd5be9dd36422b62fb6 0x1aadb37a15e984dc4786abaf46f6d3c90128086f344e029ac2fb825caffbe63deac5265f5873bb00193ad5e926bca88; P1 0x58f7ca1ba9202ef88fdb35aced9ff121910432af72dc56ba4d43dac8a2cb485cfdef266da15298b55f28cd3ab754a 0x3f483e18863458e49ae3362c167332b19f535bc8348a86ae1b2fc4f9b1fcc7b263b1888753da61071d51d5ceef8145ca; P1 0x1f4945e61dd2491aa01a643da5272d112725ba6c9c72bad8a02e2d70db34818d4d1b43905afc2c335e6df7c6926b4e15 0xf5a5ae03ccd5879889dc2b4990d6074a4033a9fa877445205bcec0d2346c9573d362a1379019b5678c2cd70ebba054dd; P1 0x1d76d149a1a7fd696ef7557b652dbd83ab03e851379ff50d5eca569e45c424b65b6f471750de9c4029004871478825352 0xff555db727ecfec7af0b7f26e0141d149a6217a67d51d9baaa433628da0c4cfe6d05d8bfc8260c789aa270e49545e0e4; P1 0x1fd565a547ef279fe96fd19482838017411ea9a8dc10012b8058158d13278256c48a7ed2e6e905fa9f8e3af195553fa1c 0x46daa42926c5674f0d8c145af03aa83f156e5d8fdf82d50a420fa14e911cb8a4df8966b7a798b7854544b6f62643903c; P1 0x27389905011d79fb1706828bb12acb8f1caff659e207d55f979345ae7c1984b24c8e5e14ad13e23fd78b5fa28caa0479 0xb237fa8ce0b4578c4e7cce29c00dc67d644451590771e8715f10223f7682d9eb7b87ffc6752b24c27beea316ce012099; P1 0xf823c9530c75974701d256aa09905280bf1cddbb4efe040ccc7a1ac48730aab6ef6b5678027996d4557a6399e8ee3ab0 0xba4f9346a2323785b4f85e8d7560b453970290b5a540f93ae4e513bcbf869c671900775d7e106a94ac78aa70eb9f7192; P1 0x10f2f757dbc068adeaaf83b862731c8547ae60cb59b468d2e91821104da712e6bef1539177c9192907feb822ac95cedd3 0x7e8d9f6b4f0a8830dfe7094d0688705ea7db66f39b0d322f7edc6c4859868eeaa493cb26b5e123b096bd5f786cd95c5b; P1 0x7d1f6e8d4293d1a8c5404242a0da04dcbf15866d511760ad70baf1a8c33c53830a7719afa5cb8711e50040d261984e99 0x4f0ad6fa55f616fcb72ac78fd560dfc6a74d130bc46775505e675d47216810752afe173976eb19b8a1586dce58c75f4b; P1 0x30cf624802482bda6976ec4f47071614a7a01521a4d1dd75024d436548c04acc27f5d7a6a0306b8e9e9907a8cc9c8206 0x2e2982ac746a89534170f2167920956eeb51508844b26a6aaaa34c39c62eb7e94fb851edc0a9013b12b6549c80c201f8; P1 0x10a5e3622f8e5bc57f82b89b7492cecda236f0d6c35be382eea773aa09cc0ff511f18c2bc66d8140717aad1d9df9a05d 0x56b95aef32aaab13fd073dd95859c55c076ba2d623d409e35666305628cb99b5171999ac1be7655f29c0833e95c160dd; P1 0x3ac21e9a881de978abc257b8dc6dcf52d6b30a2fd13923d06bafe1fb29e312d3282c49a39a4ae16b1408b97c756af389 0x74a1b4becea3f3f103611cd9179eb89dd953e7ddb4203e1141a3aaf545636ea2fc772762321a134c5e6d51b45d2bf11b; P1 0x6a45e3e385c2c03262d71cca13fb5fa6bdad9bdc164139b8b224299512404b86e4e1f175a7532c76a6c3ebed91cfcc6d 0x3562488da20ae83806d8953e5395ac2ea69f2cfc9fa82b17d5187a40a874ac9ed593e430ff7811a14b7e50e1921b7e1f; P1 0x1643af8c8c311c060de0171aa11758130110f46f28b71f2b13678af9e7461deee5bc9d8c0143975963d748b9a88397de 0x114be79cfd9eb90ee593a0c1c8b081ed67c0db0ee78d880ac2d2dea975cce07efafb09133ca132af0970937611dca760; P1 0x2565688c270c31ddfcb51051858c75f1175d2b46f3c056b043722fb4d70a4528668e94e1fc313e0f7d0329c45cea6d6 0xe319633c4a0764cc6c29f5a18a5e2242ad4f123c0409eb635664f846531b6e63d77d254ec2937362dbc4bd9bfaab6ed6; P1 0x192ec1102e70e8351712a578cebf91fd98c999b6f8db72604431f296255e68ec12e7c3662fab4be7a1353ec589c0b072e 0x612202d0d4c5d4a9e9c66f4cd071a395d5b3a5a50bff5f63954cc8158a246700a433ba1d90e4bc6e740fda010fcc3cf6; P1 0x49b5954e017cbac593ddebd657d7b7e2547a29f15f3c18fa16a6cde8f3126bc00980ec1b81da2f510b1f92b0f9d999fc 0xc3e684f6f0389cf7983c275aee89812611224ba7fc21bc06e86d9ffc59225ce6ab714454b563839e2bb800b90f0212c4; P1 0x12bd1fc46c57af5905dd0c76e49fb2f60e321de28beb0d7d5ccb518a87619a61b9fd22c24198243b7e6eb0e86d314543f 0x33b58e40d462f36b114b67f7532488026a9edbaed9ed391b34b270d51398315d2d7d6ec63f704f301b1775465bf4a05f; P1 0x14e3aee096af79e30c060c5cebf21a927760e6ff8d2c153a5d38bb1f5e3f9a73ff321125b076c1acb0e7b2fb8a106352 0x2e10d1c8f4bc5685858b105478f67d7cefcb409cb8f0670d61a4e2e661f6b3f0988792b656c3a04ae7c80b1cd12e29d4; P1 0x109418fe39f807fb4466ded7afccb84d133c485a7544fb3a22d877dba6615833165d9d30ab037970233dbe11cea6747a 0xff00cd5c973c6e824e4d26db6504f75e5aa4619e148046eadde6537d531c64247390b0faddaf622b0452d7963cb1a39a; P1 0x1fc05323e340f9fb6db845635402e4fcef8116c571f1a8ed2d58588f6ee7a265371a7483113fb4a532dd561737b3add10 0xeb86c4e83881d7774a25670b26fd7eada73ec7352e7f2201c4dd296c24369ec04d851420d87fe6660ea2cd3b223dce58; P1 0x1b16168ea249be55fb981186a1db1798babd0742d0b77b48c4279f86f317422f1c4587d3d66821bcd3ada7d3c9c995171 0x628b7a71992a8c93000d333a78b0bd9247bee8293b0f33ca96cde36b45e3ef08544aef3208907165c0163862551ccdf1; P1 0x4bde2b7a5662c074a9b884f653bc7b821e450204602425b671d23e4122a9448c0ea1e36fc7d0c5bf529daef2d54254af 0xb2ae3f5a8d728721831eb722838e6871bd179ad731759b8d20ac415746198a374110b3ac9a7f9cde0919db4b4e0a0e71; P1 0xf96d8d6836f27a80da2ba53b9a6b333aa5faca32fca39e615202517b58f194fab0bfeb51180cd79a52672a4250fb7d84 0x29d2db3f37285329a7f28642e1a254896efa95d58f48311e2e5224bbab2912b31b6e5f1e440ef69d9657878e4c449946; P1 0xdaa6fcd5e4d418df04f8daa968ed70d60ac14afed4caffa36b2b6e5c8031323e9dd184b671262f16dc3b64e09d7a014 0x878e6d3b031900986ce8ae1a1b207973c21c080cbe34891a254902e3d1ecda8de12087e4fdcaf7e9e8096c50bbc11e5c; P1 0x8f8f0ce332ae3936480fca6b6acfcf1237d2d5a0d1b3ad73db624657f8b1de05966438753e42d84524f7ff46ea8d1b0b 0x5439e165285c313d8bab5e61545dba00587458f2dd82ab7cf341c8fbcc240266e6b4cc65b78754e5a7637f4e4f307d2b; P1 0x376c12010ff6e4927d7545d4025e63a82edda6a433c09eb0321a721c4df2cdb248a4900bf7e3dde501a730bb710beab2 0xc1ef033925cf16669f4c987352b13718ddf5af0033416174947c485c6862496eafd91e8eb11b95b04f971350dfb1f524; P1 0x125d484065f82782e8c45a8a05753836f7028ff98dc697ffb6f98212ab418bd726c88b079b6d79a9989afdb4a980a0ace 0xe9e956999283e1b1605007f04bec16c3359b783298956c328e44efd93993003d443d06f20a4b5a47bcbdf70fd515e4ee; P1 0x1ab7528a49b189eed8ea94877adf40d2ebb9adee91e738953c6124be5c42ec6c010243ebecaeab5efdc92f47969bcaa7d 0xa6569572c385477284f08e45fef1675567c5a25faffb93cdf1bc5ec6ea124c9a2662c18c8d091af775115b6b39464505; P1 0xd828ce332bd60280c519163921f3c1f5a52145febbd7049722cd4b22ab36f04e19c2e5426cc5c766e8a729ac027a89a8 0x9372a21e15a760328ada212fe279ba10650fb868d097137ca16d5cc583479c0fe56eb2f46289812024bfdc6c1929edda; P1 0xa9d9b306aca730f94693265c35798c35ef714a272225cb710f90066deca504173cce77de3f4e7d289a6c61f8c3329f72 0x1791a5783888e4ac7ce8e1f4aa5115bc6e0ed12d00637b3aa28ac531bc963c57a576ef95d04310e6eb22f10c04d55aba; P1 0x456fd30ee99aaff1ae080c4eb160f616835d6e6fcffde8910ef4536f87f85c73e8c881e1e9f2938983b92d75a37948f 0xabb093b3aa98fe9c3d8ebf08d800e0bd2251c34174143d9d78e4e0f8cbb7f69122acd5bcac9960a0baa822742d8e32d7; P1 0xe64abe3ae455950d1238c486b485293b68f2957f2857596d07e0c0aaed9642157288d3300cbd282eb02ec52d7ad4e343 0x150071ba280175ec11b70e932050a127fcebab4791d35ed2f0287e3e323c7cda4dba6a2b04eef72daeaed952880e4465; P1 0x37225517a2c38105ac47fdac7be894190798c3b78bec6ae6d0f5576ccbbb5aa0f74d8c108d3be1db0c9b9943b1fe4fa 0x2d0dfcd0f64bb8b0fb899ffcc925060a986a25807e7452f82ae980168813525079a0b59d64e2a2d1430e3ceff5c384ac; P1 0xfdbd74a3af7642a6c0c34c562bfbd70a38e05fb4f0cbb3e36fe8d80dcdff3733928531a769b50fbefde4b8c46753ebf 0x22644d0fad4676a56ad224ac616bd6affad31fe1af4697b2a69359fdf623a2500516cf9ce736d109a96d61a67c08e5df; P1 0x93d9788eaf10b859109fea0162033dcca35f1e4e36980497800546f085c87a2410c7ae6576787a24c84625726f1dbb8 0xe503da770e566a0798dbffb22aeee8fe03b4438d52150155463f8d9094253c4dd11dc3899c899f572d09fb058fa34c3a; P1 0x199bfc9cfb1bfd7032ac0818f91794b93cdec9f14e22fc4f9ef9b689d63e21c5b22911574f5779a8df522258515922ac9 0xb5b64b8acc378f578ef5dfc09b489f7f22009a286b8d03747399f7547a039df435d51ee4a1e80002a89d15e9feaf2511; P1 0x101f6914388d71d35fae6c95a4eb79ab59b8a2001ceca43717d24e30b6b8677af158bf10a51e5819f620137fbc52ceb68 0xf5a17cb962a24472d1edc6a7028333d283b6f11bae07da88fffa950205fe7e0d9aacfd26094e6c73d314dd3aa264c1aa; P1 0x1d75cfd31e97989d58a27efc7cea8442c32f41cf55217417ffdb01338f81dbd3bda6eef00008e9d7b86bafe7f81c13aa2 0x6a9d1165048b0f87c219fe97a8ab5323ecf82967626e18204b477cd1a89b2101571beb482cf1fe0ce82fa7739064c46a; P1 0x58cce58bfdb29bc90e410f492ce927f83dd582ba95e26441ccb41e0f48e3038c32ea7672e54064b69f85fc2205b19c64 0x2ab76b02c032988aff4f0b09341ec502a78f293d38993d89efbec86150bace5b0bc5bb5882a733922024ef7898b6942c; P1 0xe41650e23755e2b1e32ea1299c040da9953781e50980ee619fbf295d8b41db6edb792acedc1e88773b9ff6fe462b69b 0x9549582e092ba6c1070de6cb766e61f119de3daa95aab97ab71a2b3c22d2a6609fceedd71ba2fa29c5f40fab6d0885bb; P1 0xae1ceb51fe9b732e35e9dff3270e3630ef87295b9280fd4479475f3e02a15a4bc2a73eb92328f199e8c0d5cc9f4c2aa3 0x9c4fc9a6d6dc72a7c4eb4226c41aeac1bff9514e0dd86dce519f658a7403931a782a87462eb13ede6d6253215e63d7d5; P1 0xbee2ad42d35963d9839f684945ac427051d60655cd8a70e84fb69d4b329332b808d27708d596d82097b08050da3c478e 0x2ae973da48447b3256244ca918ad13b4023f4b40cf4c528b659689907c63100dd8ec82fcb83d3e3d6c9ab178fba73600; P1 0xe62ddcf6ef7b842eb38b3f0b22b9185e2dae7e7c3dca2a9300faad29e3cd1fb48ad0a04342c8cd8345dde8fa280b6c9 0x6d0c5c68e0e98bc74844d0eb69d9d300400dd0c9dad8e6970e7ee71e41fe100e156a8c1e7956e616bb7d09fda148b6c9; P1 0x5ce70e94356f07185c176fc96fa8b7e1fe78fc1a4c065ebf1fa632e8d02805fc0825af911070a1757b3dd2abbb478059 0x71c5db39d6ecdde54f9d1fc7383f5425c15e7a2d35e8ed9c3736fe77f9ee6e3ee112de1990931538a4ea3e07066c53fb; P1 0x652088e864fbce79418e84b4a1ad5cc96e23abe5c9910184cf7a9a98dd04c62f28c78b3f5e707d8e5ca06df4175cbfb7 0xdf55dbf7b2a31aa83c2320da766add3f9348bc99437356f8e2bed4eeb6d0ef43764c4117b8dfc91c2882893e8e062fe9; P1 0x185ad640ab16d081c1efb462af4080b9192b340a1358770fa4de2d51e562ade7be8012e957e19a1948241a0be185e48f0 0x6ab562c429fc935be4f39ac32e65c6d52c6d7f3472340d84f1b03865806daebe1d16f549cfdd1be0cd4e401fa0250d12; P1 0x58f56c9e84869f4c5804ba12e60380206a3c40673a520eebb8f3b8acd410aa5f7376af2ccd4ff88ec933526b686b9cb4 0x8fc3d4f7e402d64b3f60e3e136e29bee633c27b714c0de405a62f6a17af31e93ca75958d1517801e5e18b5d5f829473c; P1 0xa178bb76271812d205d800374085fcdc089f00759962e6723214763ce1b3d27f2c1bb13a94c64a97021507d01e3dea61 0xd6b2a6419480f7696d849f5dd6a66d1f70553539263261ca8e415cce202836a97ecc27e0351cde84424de27768529681; P1 0x1681e554286e67cc0a46b86f4b91daf17e983e6a4e9a09e01e4ba7f4d0336647778cfe56fae6e9aaba24b5e4dc82818ba 0x1a6be1997876afb61259d0803c459dc410fc8b317a1ecc610dc3396f8abd9005bdaa94d788e5e4c7e7650f4aee66f2bc; P1 0x5742e931323e1536ab24a2699e96ca2e5602e82df09a64b0cc2f431c1095009173e2050f7e64468e54c22b3958a2a53 0xdd8d37f821f5cb229c602143c65cc6bc77e1bcb7d0ca127a6c3656518bd97762b529933fbcb22c987465db385d7a1e73; P1 0x17f7a41123c68b129e843efe29ee08a440cd61e6dcb9e7c4b460c2ff67e5cf14c509d3eaf9fd27058e553c1622b6202f1 0x5b8e6bf544c7c9d8f42578e069b573781eea25b0ec7772b699e637ecc1b8e26b45d1f817c721e4af26bdcfd259d85243; P1 0x417d1ff8a10a933fcbbfe405ee0e3a08d00584b6346da8233932e3d042dc028f67b3178001b2f0d308b63eb7bb62abe2 0xe3a11166e78d35c86880d43723088b2a3b984eb4e5f4d1779eb15bd148af7649ef9e6613f80dc940ba1e72a8be60a6f4; P1 0x194ce1466c685023a4d0711da1df7b6621fc5da660b79e434d680c6ac166fa9d8f9d8ab9f8f948d830dbc2bc6c017ffb0 0xd5e9acbe155b6fa256c4b03407f6fa8afbbf97f812e4d6d86f4eb30b35c293560cace3ee677d39d0b244453667dab0d0; P1 0x1657d5d806c3a0417dad273933a0e2ebab145966203c3be3450b898cea18b66711885cbd22501d580f9ef17d0169c1cfc 0x650d530a25d056608ee13f5c0a0c8040fa03d7a101e9d25d9a1344ccd9b9de3efab58eb68d9df4e6fbbbd4860f596efc; P1 0x4fc7086f179ba07a10d6fb29569fa5df1f7912c148024645db92ed425ff6b63c4e86ec7d199a80b6204e76142dc646ec 0x362eb9362ba64d3d0807805f2f514fd0e6038e8fc1b72012f3de8a3f8a26562b1efab4a4a8c7dc16ef928347f471570c; P1 0x16ef7d53dfc25dcc9d1c445e900b7b583052b0a6dcd5f51379f702b9a12d81ae7728278c0895abc9d9808e948ced1089 0x38217eb9a46dab2fb1b5c6fb0b5925e4ed5fccdea2cfa86924008f4033a4b88b9d1032ebb2369dbfaead1f95394f61a9; P1 0x189d57a6450f474c0958d0327e1f3f35828cd9cd2516a96a9b72467e678c1c195c3670c0a51fdc392b4faa4841419bfc 0xf0859bd4e7710a7b3b1fa3e850c96f487701974c16ffd28a611e0719aa5cc23f042fdd9ac7dbec1e58a82bf59c609f1e; P1 0x1c3f593d4f80fe0ddf41d1575935728770d219a46f6f5cb39ba8db62e228678870e0c998bbd8e033cb9ba4cf84b2264d8 0x353394dbc595b7abf409981f6f711e9379496f67c1c84cb5402e145f0b93207c50a161e3895d2119a92cfbc0ddeef3e0; P1 0x161ccc0f4bdf21aa492c16d87103fc1fa1d7b0b1d47edde5dcc1a3884bbd9eab7946c01cf87cee2fbde47197fa2db6ca 0x2c43761ea1952e9af08cf64fd2ad87929266873e88dcbaa59d64267059a527fe25f0aadb50fa595b5fd1bb0433d3beca; P1 0xf4e84c324283976e76a3829bb7138f98d83d6664022a97326ac868e2c757f6e656c26de634c5cc29f81099a6a86d3f2 0x99afb0220af2760bdb043c652709ff2db1e9db47ae137785503019c8db727b26cb5962fb72558a11c50749980dfc2ba; P1 0xb886f235f19f3857b65ffe479a2b94d450bd530bc4995082f88c7636d8f74083ece0f863630831c99696ec4c410612 0xf9e3c5172656f2b9281813d078bd1799744b00f8965a868d34916d49750ad66c4dc3ea8a3673fbbe6f75421ff495e45a; P1 0x1e7d9c01c4ebf8af0be94e79fc7b218a1923c4317d868f66db58633c4e6ca62462192f59744cbb3ed4dcc83e4a415452f 0xfe1c36597f3924a63aff1ef3e95171a6c1c1fbe6a90b7674c43e8114cf3da72ee57b5b1fa20e297f15b2d06bfcfe2477; P1 0x1f877fdeb0f26345f63b509a369334c70eda17a78450e0a556759c8fb75695d57a5beef1446e745705f4f4dba30f40cc1 0xdf6a334d7da01f5437e1d16f06dfb2aaabb6d794d557c18fb2d7225d8b15dbf8e77da27b6006e7fb88c5a01a839f6b63; P1 0x185f462df0ea1ed628f1bb71bc1c70c2c61b8d3cc5ec204eeb587881ac721c260ac4db06428ca65f4db2d323685a5bcab 0xfc75835a488f7a46d593db73dec00e80ad046ebfbe4c571ea553e6437a764238a7ba39cc6d49e977ced7ac1f4db18d3d; P1 0x1f1ef2116258ca3f653a39d8fc55ff2ad122af539e457234f2ce5671a1b664f5a1138c1caff2f68375430c6a20c763298 0x194a1646662574290bbfe42904d3a492e6bde6a1ac660e95a39c8e8818a7e034570b4256797fa89156381cca902b3aa; P1 0x4ff1b95452d168342757005a17ef88c51003036fdbfbbb9719971a0140ade489ccb80ed3869c93a4f4bb6a063ebbe 0x5a905f79fecca9705f643be30f6e19856dce1b1d04ad8eada10113c229c190e91aa1a981fb43e50156cbd85421e24586; P1 0x4013a91aa804a540c4a4437e200ccb85964cd2d6b4a657e5d3b64185ec54ec04433984cff0560743d1824532db2a596b 0x96132dd84d2187deab53836b30da6edab5801b56bce9d4faef8edc4c811f1a92b3de4c7a3d6800f1b7f7a77e9a1d5db3; P1 0xaff4f652a16900264ad41907b5bf62b40bbd5a5beb3bb3d69845ae80ccd8b97ec201b491ae23288ff259ef00d97e7b56 0xe23197a01b9bc8045a96588cfec1bdb9b43046c38521ada454d517cc4fc5066edf1d5c6a39b1a8394f8db0464b3191a8; P1 0x18fb732a42bafc6fd1a8b0a6459a9a890b5a1df8a3c3405d0fd75f21b923b8fe4b568dc469b6f239121916756de56e20b 0x6a294014567c64925725b6e27e6569f9d19aded1863062b6402db8f3dd119f963ba67a3c176cc43d444bfeeee8b65e8b; P1 0x580c5f6cdc59c7fa73f7aff90cc56bf738ab4cba9a6029f0e642f671ac4bac375161a6701c1369d598346b33fcd4cdd7 0xef2f39c4d1223af408048ebbd2c0564bf1e1adf1c4212ba2a8f1babc3f629ab5664272dbe4c32ec6eac0f4d1fdf18cc9; P1 0x1bef26d278397e22ee42e9c872d038b77982f586103024517113445a9da58ad932cc7b945c7955ca1890c841b3ec038dd 0xedd96a155f7a2affd6aadd248475e3672272db890226c11b64bffcebb029000b108399019627ce6db6a90401927d247f; P1 0x1b9f88e212df38b2924ea3a2c4173736248bc5b87fa75d6b69a5eb8f56daeca244dd29ebf8644c86d0311fc03fa510f0b 0x3828a1335c1bc54e97dff96b5b99b44e4c2a872cb386e5cc25a66feda80d6223ecbb09e6c00c881f53ff649004c4fd0d; P1 0x18a399f27bb526519ac5c891b0cab697a1877812ec064a281382e8f9ab960f962c323866484b309ab06df8e57c5ba733 0x9e5cf1f3fa477932303c7b62d7efad832e61035f8f5ba59c5bc19c68330245110f97b9afb6778c8cd6a97dec38710c85; P1 0xc3edb8cfe9f2c571745b29153c4d8946ca577ec733e16c63ed96c517296c6c43b26d9f3968cab3d9e9eceb3210623759 0x27cfc6cb1054e7b56a4e64e3cb54db3cb823be1646e014da4b347f7881a5476acf120de19d383a26a6f3f1158c6fb18b; P1 0xc61ee69eb7a0c7c77c94197f5970894dffa3d23d7a14fd02acb3bcd338b5d22e13d3f3876719c8e885c9afd97720481 0x8d2ed5622468a938c3e43117d6ddfe0fb8a072103019b0ba744979a8a7154565ca842762e7127924dbf8f9ef8ac90773; P1 0x9bb93f3efa79ac76ce2ec7cf0178b3c5683a556dd7dbe8c03a31805a4d67474b749bb91c7af49aa382e740c29ad87f0d 0x1c5adcc2bdc1c4a6a985d0563e9c43576b168d8c3d067f3ec84a042ae630b79ec0f70db75eb85f4a47dcb2f2f8737a5f; P1 0x6480115219e3317d5314d50efca08cd398bc250bde6fc8c700838dc223c961819baaecfbe63f53ee2f4f2fb0d87cc73 0xb8c0ba78fc5603fa6adb08bdf7325400a254ac3ba5e2db8896f37b17e7c1ea5bbf2b862b8cbd3d08633bf81e85392af5; P1 0x10aab3a4c50145d30f0c06fc8aa0c72c358eb677887cbefe2aad55e5283347312fb47ff4bf17a0138c329169c0a21cc3f 0x8c558f22dab7bb6c8692dcb95f414769c40842cc5f7d91621a6a0c8757392808ab5f146bf11957e7d2cdb4027ec06931; P1 0x99db624cf8cc503280a0ea5ef0e94339fc49aafb75e0177b732ba7209bf6112feebd1002f77a5cd291229edb8cad07b4 0xdfc82abc5cc22c69b43c98a115aad6149a5e1d9da3ab2a293ea38aab4fbc20ef2fd656a0d40264d658caa103ee1f7e76; P1 0x1873cadedee1b239b45167c5e17f77d7f1e27a9d97093147fd0d77b56a8147f892dc4d669349b703424eb8a3c0a636816 0x188416d1b042b1b2ddc2d7d68cd1b8a0a7404aa168883de2f8e5a8e8d04b5574f267b08db8a5e4f79d900db4987c24de; P1 0x4b210ddb6a5f84b0dabc690e2c9d892b9f2cecb23cc2e172bb6279b27aa25833f80a44ef77cedd76f7b8361931ffdda 0x69ef0068cc6377c667bf7d5dd8614933862f4bc7446f4773f67926fce424b4568e09bf6b74ade2c832279dde4bde5ee2; P1 0x57abdaef76aec9c233219642da4e5827eb24196364ddbfc4ffb10581041624282f0efd3cf8c2812b48c72890349e67ea 0x6914b4d79ab3a569af6e3f00ba2eecab764a93503e71990b223833a3220aca6508f97114c24ab4aa4ef4621872e3e6f2; P1 0x5643fc0b3caee1c8c489e06810b79c85a4b352d829121c2daa715aff199335edefdc3a66b4f4eb8bf38d4e3cdecf5331 0xfceff127fab139224cae92e87ab3cdac9609fafa9ea3c8904b75e9a244c5257cf07ebf729486eb0ef596aef1b1d6ccb9; P1 0x1f3d28755c2be97487426f49632c9bb2a471dddad843203fbcea980e809888dc435e7ebb17cf4d9d260a969cdf56e77bb 0x966b9643549df38920c1315a080ac661468352a31c62723fd891b6e5fdd841785c04a74260b57f81115a495c6b75331d; P1 0xb0c4829bb7499c998e1bf989d206860a3cdc6eaa6c672561e590fcea7f8fd738928978ebc186115c4e0200071c529a79 0x3d2ccfbf4af9c5a4fb01fea8b4c58638d00d7ab0412fe95b36685cf89fbb65a4b1db96c18bbe8f79477450021dbfbd0b; P1 0x1d3cc5b27827707ae940a03a572fbf61e79197e1938279c8fcf4e79cfbacfbc739065ac9b0e5615fa81037c9d6a17bb7 0x7dbe7e60241c836a489864e6adf019f7758a2798e89e1b3b6b5d95ab72fe995a072283065d3c6cd94a94654b16a7f8a9; P1 0x7b872a5370b874a010ff981cd20c34403e5b82c611bfc203203bf6bd5ecd5acafd09bfb8f1c403773b1024d62bcefb76 0x397f49b81a673e43406eaa34a7e4b01093266be00cb54fd714b86ac00647b3e84671b05c0e4773652355dd52ffdaba98; P1 0x19d3dc3c6b4d5f3d24206699c3042e7fc85ea709f69267d92567105c19127796417414ad445a05980f095c2c2c89129c 0xfdbdecb410b35254c32741c0987ef84dc356bb3ca31e7b991b2664839501c0f5f090a50517407f27f05f318a724b871c; P1 0x1f701e5868b7f2dea6fe56daed347d8f16ca9cd0f9d287efb2a68a8e068a2722174fb80fa47aa43246dec992f703c74d9 0xafdd8d630eb51e69003a9145ae81a9198e084ce67b6d21e84b5401fb149e4ae6b2040cb25529070b379b9df133a98af9; P1 0xf1a14e15b27291a3e80fed5490aa6205512805fcf6fe6d9e841b24ca2b2f7ca73546c1ff85cf73fb791bf26d7e8e3a1a 0x83418bdfb4b9d7f5a42f7d48e6bc18c66c4aff2cc01d625046ad84c47ce30c32127f01ddc400eba511cdd9477af5067c; P1 0x86984bde8df95646794dae623c176d7ddd5707511f0ef3e69741307c867d63c6e4bd0652b98c7faa43834845a0f4c9d6 0x6c80b81c5aeafa46e98ccc19960b62de518c7b9594d7ad1dd5a98679f5a86ce69ff8a5115000b277ffab0966d3f8e1f6; P1 0x5bf9b8211af3e7f7cede2fcf0dd33994996d91eac0f54a392b99ab16b8878c250e46f40717b81ce7f5484757935b7628 0x3ff024dddd49248f1f64489d94cdad50d425373f0d7f4d536fb28e158f8acc99dba37bd1cdaaf4ae7aabf623c38026f0; P1 0x1ff026d4b0701f4ebf4deb7632a3189295d9db01aa9f8ab31040fe3a6620da56970768395eb727170c5838c1caeba0bf 0x913b95f1d737f73fa5de9d938bd154bb03e6a67a7b4fa935d9dcd04fb52324391884518f4647f0e975055a33f6c3e2bf; P1 0xa4c91b74d63405c046b69b2497723288057dfdecf98edb5da65d61a35a302d3efad64ba7f04941ca1db20796ddfaa4c4 0x3b9adebdef0bc512e3ba1dde89801542468007b0222ab976d0df998ba3ba76bde7671a6384ab837e1952c65b759a39c6; P1 0x1bc180b89501fd06202d021eb88f6539499edf39659dbba651c9c4815edcbd07a8b3905c70c7b6b61e520178aab3291e 0x1105d2eb01ae38c360d9730b235bbea76d9dbf9535d516f16f135780691ae84c0439641157e2dc6797623953c136b366; P1 0x2438c4a425b35ac2afc7cc28c10eeaed3f958ecdb4946bc8d18932a5790afbea3896fa7269f814e79df39f1ddd9093d 0x51c57bbb34066cf374d55d4c1f57f26139ff79f74fcc736623c153e295e869799108d94e4f71596e6694bd5ccf58a285; P1 0x343d214841af1f71ee911f935733a42666462028c475f04237b043e57679f83c07263be59503f72058802e725f6793d1 0x76305bd401cb1006c0a0fc6cbd0e8f9cd778de606cff7747c78086f4104dc7b9123aa247e6e928dee3e3e8d7d0a0c603; P1 0x6d213b9404308f8b23ae68cdbcbe9bcda349ac34bcc9595e63c8a74452b0b9c83742d7411932e1c039594074a224490f 0x294314b24b35363c469fe313913854637999c23c42bfc043f48c4e5832ed8aaf3fc7557ab138546b8bc856f39bf59121; P1 0xd4d1c69e62d824d5d7a7c3e48d29b51cfeaea8f715d817d9648aaab17fc0d9c07696609fffa5f5a57496b40bd7b8694 0x658d95f6e94f0500cb02ed090bb84a513be233cdcee62acc506617a388b16f2b029616ce01acc713ae5bd892e05c5316; P1 0x50920d46bbdd6972aec2d332b1c81fc9093112a36a818568d35d2d7fcd06c19eb74e7e9d232d3a4298a973e0f8b1731e 0x5dd6fcefce377e3a2eb378389c98ec46462b3756810765c4c6b23b65909eb10a7a8913a48ca73bd4878b30579e3ffee6; P1 0x44cbd0a42d542a3a82e4224f8d3a26445769a53689d378fbb430aa23d7440cc8af0d2136bb45b9d091d5bc913c9c88cd 0x2d389362b3853da489fa9cf28aafe66aefd9a197357ceac6e3b179e3c0b5360c745b6b9a7eed0273fa9251b2f29ef615; P1 0xff9e0a3064bc45f8a60759d2f81c4a6b93f4108d67c2599985e02cbeed837d0ede0bed4a13f5fb6c9101822008aa7c7 0x936ce502eb25b104a64a942744c4867c2200a9aed8c0445f68a0c131d91af0b469434a13fb61fe71f5de46abc57b6339; P1 0xa9cc7aa6c2c3d3a54c5a86629ec16b00bc901c32902836e14daeccbe6245cbb238cf9adb49a17a6c713220be2975c0b4 0xfb093be2261be61d7d31eb67471071f880a6663c28103b07fba1f1c0d0b0b530abb75dc6014ee4aa745618b29bec0616; P1 0x1ec5637857546d1185925c08076fd6d0bf7736082907b9c74b5a304249266c4c495a6f1e217e25f141eb0cf6d7fba6221 0x20c13321ed538c1f00bd068c4f371938fe018ddca07e2ee79715486a198579fb91f9a552ac015df9952eec70392475e9; P1 0x861bd2d3d66881eb8a14b4c09be68c13c9324aa527fc829181e776740ab30543fbd537c2e6a253be514cc6f30fe1548 0x4bbcc2f1f6576ff81382063e882d35d1114c7ad247cce49adf3657d7eeb7e40daede32d4889ad52273aac24d74abb16a; P1 0x2cd04ad15c59542c26579cab59fa7f82e1dd7d0a491b92937bc12d440459580532b9f3c289d92659ffd158a7aed7aa08 0xed0a9bd0874a13df6cf6f776e0973e0dad7a234baad2ba5ed5da0fade92f941cd6f3471689183963453c8a04cbf729d0; P1 0x1b6f949e14b3fd08a224bb1cd6b801d98cc5113230c5738c7e891ed11e1bce580cdf47b3404993060fdbf674a1f18f8f0 0x56116e292d849fed9b690e3fa049387e3b2f7c81f43ee5047e9586b61b840082a9fc1bf6bda3bf9d4845613d4b818af0; P1 0x39df6e66f6e9219ceff9143f1b3be17a861e5bcf72c51f1bbdbb6fbc946aa2d8745dd8149367475096bc0f2b873334c7 0x1f7ebededd40ff2cfc4064eb8bb86850c40ee48dcb487445e0aac84d5665f6f45ff96f9813e74a754df591069c276c7; P1 0x7bfe1f4d68e3872183512bb7321a72ed4d4e341a5419e0968ead9f9d4f97017d310e1047958b69b3341611855773e 0xbcfea5d6d67d7cb970dc9cbc42ce1bb8cbc9a5a14176ef2b8177ee1a34e49965151ef29322bd4941c56e6a320dc594a0; P1 0x1170e01c2199129f9dc132f135a4277734ca74585cd5f7ffa70a9e2b1d73c561c6f3cef427da46bde6df736e39d2508d0 0xc49c2459c0e5b52080cf4448f18d873d8bb00e28999ac714b9f0cbefa06804f44e78bed042e57af0c5d29e404637d0d0; P1 0x12dfeedcb83d8660da1b99f9a273adb7be6bb84969a269a86068807d57d6de2e75f94a6ba38c058cc06f53bd0cdc54c7b 0x7319a3754e547d0bcf81697c7e02bc2bbe3f205f34838c9e52bc783b5e6f74c8ef862e067017ac80cd876410152a9e7b; P1 0x678016d9734f98b2a2577658d6db307f58d23bc930188332d9bd681ecf3cdf39f4be884552c576f2d95d04972023776b 0xfb4bf43200fd4d1621f733dae48150287d4014ef54da2c2db16704563186e2dad61591b370b644fbe675661d4113959d; P1 0x1ed5c0ec618594a779eefdd1b256ce2025efae7db67b1be292e9e20a2ad6fe90fa8b087a99b76bfd5a3ea647d278de620 0xd716253952c64532e9147e513fbbcff370264bd7f9c2d94caf0866c51bb0cfe56af70d1a5699eef50bc86873b50a2ab2; P1 0x1696c68e16899c2255e9f434342dca1235d91dc6ced119d477499961bd5c6de5bd16c56e727523c0a57eea1435bd271f4 0xbaa57be45a8c7ec4499a06b75264ed426f09eb456b66472bd010a51b6cdc21b4ca4852b78c8cea13d410e8b57de0397c; P1 0x11029c60187cc380a202869d2242335758da61277abb78a9bcd9f42bb7348c3440dfd5736bc7ffbe578c463aec376f70a 0x84ef8b9ab9ebaf8c872a0aeddc6fde2e35a598bea4c93ad36e0d7b93e35d09eb8ed2185a792329231e9af8643f47df2a; P1 0x8a0fd03b0d872d09b60010a9b34984f54a1eb216c103914ff4dd217115900e9f031091c88bf8f7bbac1e7c6734eeaffe 0x4a25ee19671cddc1a2c2c248968d55910d53a24e417d255fa6a2a84e3a9242bc783fc9bf89fe2792a4982611a49b15c6; P1 0x2af3e68ac0cf79960b22798a3d74b9b58fe540ab47cea17221045b3eefe91337de96160a6a525d289f18cf85962704b0 0xbf4ccd00c2cbda91a365f55a029d7ff8671ea97ac28704685e00ca307677bfbfe8db0189bb1eb59cc0ff471fb5632ef8; P1 0x11de761e2fe942254512403e0c30d86b9295fceeb65675166267615b4ed3d32c88a8756cc1da4d15757233f4e53ec8904 0xec1913f60a9e34e0a0faa8ad9aca81003fabb3320b48003c5642b87b8fbd560fd1b929d6b75ee7b50c87641a6cc8a984; P1 0x1b37c7e8516606ce0c20a9aecf5b3ba35d523b5bcd5dcd08123b157433e5dc7ecb3cba6f7cb472a3bdf4638d3d53179a0 0xe6e208fb037f184affa34b591054c3f70b80f8371cb56fdf3d159060d9525466ce235084aba53134735bb575323091c0; P1 0x1a075df6dcb9664cae91ea8d6e0742a4af7c5e0cbdd23d1c8daef9588df52a0ef551b3259b40ed0a8aad1d8942c2700fe 0x8294ea107c1eccea7035ef2156c3c1a114d1213a8267b460f751c629f3ddc9630a375ebd5d5ae447ec564ee2221d20fe; P1 0x853728b06e41df662f5923c5847dff37a5354e11b4ebc101bf5483833c5e6f3cd8ec6f1a7b0abd73ee5986e0a5cdb2a8 0xb246f3c427864bc3cbc56b1ba07e85bf2fc2308eab477bd70b89c647f7715077927c8c7b6011a3c3e0565509166aab0; P1 0xf84d7d4dfcb4b0466c0bc635bad3e942804d112af6d9fc7f5248b0c812fc9d94abbb83804cb6dd32c3449bae3cfb89 0xa820349e5e0ba46fbd8614781ff3f9d55ed00413ae33ae3fa71f8b41cef654679d7fe768c53920cdc52452225a596d89; P1 0xdcd4923a1baf05d170d091319864c4a176113e7f54641376bc6586e7de652a6d254844f7db328ef0f1e9d41ca13b0bad 0x121007d8474ea81d5f04334397770a8704fb4ce99b258e92a5c32d06a518c59a99713796ea63a1a755e81baf97af24f; P1 0x28c8436ca9b082fb5a4fbd34d49578ea37bc5e893d4b430a24b9e506e90f9bf6250ba8df49c06c84661d584204e23 0x9d0c75751dd5e778271e449e80b756f23a85c5f20e908175ed737614504d9f7fc9ab2c8cae4f61d05826521d916b36e5; P1 0xc0b09159beeed9a1c3a4b784fa711e8bd55198cd8f538a16d693770485ac5cd24da5633ad9a87f951f6b134704fb15bb 0x5041fa85e9bc202698b477787b0e0aa276aaf876d12c6cbe6d5c85fa7ca44bd1b6a8e8c7cebe94d77a87877cb761e76d; P1 0x32529b29be803061296e3ae1374a5baba3085498b588ea9822aa8018f21c0ef3f7251e25caf375353c697688ec539678 0x869b77f436a29fa8353579acc9772a8396fadd24c1c6168c985f9a2faa8859f8d065fab2fe4280db1a966bdefbf35f4a; P1 0x8d8e3ffc4642b7a99ef84dd19437263a884f33b072d6f58690de8a7864499c507564da19f8df443f3006f1f3179e51d7 0xe35901d2798421d70cf83ff3d703d17000097c0716a7d04540de468f6f05de54ebe4962e646816504549293e6386549f; P1 0x193cdf05b0fb847c30e814a44a64c9888915e57eb8c4ee03e916593fb222f84d57ee7acc2223ba2ccf5825470c15ea6c5 0x939d18120d9c4129e269a810cc5d48ca833d92d015e941e72a00e9b14bf5c8d52f61d3ff0fda2bbaeb39db931a381c47; P1 0xaa3b9416881310a27c9e9de1a49b18b929170b9c3d065a00c674afdebf314574d52a2eb14aa130fa45eb53e309ffa560 0x6162b82fffa90db6a0ebc8c7ed1ce1ea247e545a27fdea2d95f94a66e8424a39a0195d450c9328035e2a79aca65edcc2; P1 0x4a17eb4bd205c4ab91c3580864cd97030ad65b89b77dc7f094a2f320e1df5f7a1444d1209a0a74ac795decb796e52ff6 0x6eba4dbcdd5a1c180151c3a942afb5c919cbca0b35de375be9cecc5c9d8927f897076dba8601f6f602572106809135fe; P1 0x5fc944c6b88c7f2709512e783a98ec3d24389c0cce8759e4ee76a259c4dd2c7f2448b91cb971ea3ea6215eb6b6226e30 0x4965da0481e08b482db53c395253f52a166db231856c05651ae02464ae5e1fd4de7ae1232590d8cb3de090f2060be38; P1 0x2a167db8a6986fc79e498d8e2d24e7d575eb41a75bee1e084861aec21c8a7bcbb879a9629a829e66206136c7d5cce7 0xbb77c4aeb9b53ef0b1ef4645c8f59de87992d55af89ddffd99fdbd718a26c9ae3a1184fe7848a1d74a27b1aa36842567; P1 0x1129062bf69b6e8255265241efcade80fe9cf49de6a1212128f53092147cc5aebb73648dc1316cae508abcc41c6130d62 0xd80ee0138925872e3ca7871e1bb03f17dd6eb9bbcca4fe037a38bfe811af5b21c41b819bd9ab658b8308fc73dd70ec44; P1 0x16cb235fc7b690b70420b030f3603a813148c381a5169cbc368d9cd4f4cbbfe49afdb78ce5f2a7481a69c9e6c694328ac 0x3d8662f4b9df53069fbc20aa1058c264adb57f146af1d6afd128ab51fc1e58a03ccf86f05e01bc4bfe26136a645e0ccc; P1 0x1d92a368be0e973bce9580823192bdf2579394f1351750d58eaccc26440a6dd7200ac6f456c30585a387a95bec3bfe39 0x5b4117b7886d03583419a672e35d4810610400564b1722723673fcdf2537768fdc2900cf32ac641566b0a61c79238359; P1 0x410eaed310c68ba8a5faa999ba266408aa4cbb41a1b9b8a3ea2a707f98edfe9459ec34fd1742dd51a8514fc6f8304dcd 0x3c02fbca53b8099f1b9d17fc19cb2b7b6acc7a55631df6ae1d79524ec7855cedd1c9428939f352474bbe7f1897a4b7af; P1 0x1c22cc1f7c1be6ebb03836f65bebf45fe59e02d3d2c1511f26f24b410b7f9735d3e20dbf804be30e1490e9d2bde374bb 0x1ed1f37334fd075d8b6046ba161f16982e55bff9712c5915593b0894661a037da8889d0f9b2d01462821101059eac7fd; P1 0x76bc27cd4177aa1eb603b014f0e24255955237f97c20819a8e46e584efabf22e760ea18afb66fde579555a705743a63 0xc600734aeac692322187e5ed2682e4444fe0621d2f41edd2bdddee463bd0a4bdb6a093353894fd8dfc70874446f2da75; P1 0x1324964b02e2f1e010aa6c820e217fad5ba97d991617089e75782e62bb334ffd708255e7cc25cb1410537b2b32dc51bda 0x525609b69149de8f9ab50c250d1ec7c4c4ea0720e3a40fd73bc37306ef18574c5b676127c01f5b90a25ceadca5040ecc; P1 0x34f67646f836913f41767bd7ec72384c65f5382bdc2ee103b2601a4c2b7d3b601d4901a0c3cc0e26f3ac50364908625f 0xb82f3b171d5c73139130b1dd07f78a6b2840f1936707ab930d59979a1d4e5e97269d458ad6eacbe938ad215e277e477f; P1 0x10907db4ff4aaadfa91d62ae9d81128fddf12c9d55bf6f0cc48e75fb5b564b705380e56df584ee7c18776dc33eb3d72db 0xcaacbe16e2a22731992d97480090456258de780da6097045a35235ba8c8cc1f74d732401d1773b712a0b58073934d4dd; P1 0x140ea2118331cd466be21afa03a87a752570676012fe2baff3b26a1a688513c9befd3afa42ccebae1be6816012aa75a45 0xb621ad9218a5030b4b17800a3bce5d0fc53886749714bcd9b135aab2c59eb0daee94601cbe28a6eb31c5074b5434e7d7; P1 0x10327ce73e0c7871bf8c5bad8086a612d3634fa71e270f1da2a55d968570a1a6e88b4a25e04878c3c61fbafbd64e91f9a 0xf73d833718cc17c7d5ca96ead663a537842ed7760cb01b80b2cff613c6aea58fd3fc09035d46ebd7e99f4a3f97848cbc; P1 0x1dd8f83f83aba2cc6fc70eb3753cfc06a010e4432e7278156364fbb86eafbff30ad4b593930b4c9a020acd834e568206b 0x2a4d27624bd50978015ca812c09ed0bc1e85442171c507957ee54f708bea00fe141facd5085fad6e6ae3e62853e4748b; P1 0xdfad059f0253c38422f1c0736f5302f3e4318d1441f12e29ae78a82ce0f9aa90bb529bae31951ec804996da167718f5 0xf4aa0c6f2dc9555069b387b3d2619f41c767a19ab3a501997f53e697c3080e651965181a3ca8af7fa76ebba8f3c39fe7; P1 0x1d3a93150e7166d346a251231b84747f486bca8108227fb4231ddd7fe69b12ef552faba05f732c68d2d1097e91a370274 0x24067771f98e7b5d05349286061c31c5cb72238b2b0274505dccbda7a87482d051e38278338515c2f4d635f029cc8756; P1 0xa23a383be85dc415725cbd426cd76f446a6ddf244f8525ceca729aed86d76345800fc5ccc2cc3e4b83fa0334e89d70a 0xedfad62cc717206e798a9068beb897e79d4a0a4a35f4f106fab9e600ea972ded4988bb79bc29c577fdfad12c57c178d2; P1 0x1ba74ccabd6891fcf33a183680f643c43a67b2193a1e4ec3117a0cf9d0f688876c7335435382a5e898d1eb477824758fb 0x6c471aee29ccdaa9936ef4d40d71c6e091b4238a2b323ca58954bc837fc1c9f012bbb9795b2933d886e25888c59a7183; P1 0x5b9824f1cc6a8c5f75335aadde870939f832347621292e9bc0d31ea08807827d87b362e1e98b5cf6ea98db01260a6294 0xf2492c31ee04e5b1b42b418f60e63c6ca619de831956c710c5273d3d023c3a10a84525333483c8fa5879ee8de9ec34a6; P1 0x1ca9cd8f14438693b44394f85696ccd5d8eee899b8600dd09b35ea30db3f14205d6754b72f565f351f9bac83da9438fef 0xeb0db639e3f9f78564928c375bcf54dae4816b633ed5277ebaf564a750deb2f57f6f00206932f9b985fc29953b0b4737; P1 0x1afa45a949848e2218cf0d38213f6aebb1f32ed3a3b5116e9eccea192f7222a3813bfc61b9f5098e7070bce354ce880a6 0x49545e36f1218897ca291f1eddb2795b50a749c715b89a1cfb491c3d0165186a2ac4af44ecb6d5e339d0bc4065fb9c48; P1 0x2a027312987f858ee4fabd9b9b147c5081dc6b99d06bf1101e2d52e5eed51aa31a40445adb51fa2dfebb71f7f14fca78 0xfbcd9c860f8d6d5e11666abaf5e24b5e95eda7f1009eb12861f0c1a24b0965ed139a18d426e14c7b7f5c70b93a7f72f8; P1 0x1ef59ac25e1cfcc408a236fe68a8b18a5bc941b4331dfef6de1229735025a1b997a25fe42621c86e08bc02d81f6c86a0e 0x7fb2d5f04748fa0c8cfd2eb771972bb03d9be71c6487c443ac884959c20d09e6350757290951ffc235ce176b422c0a8e; P1 0x7f65da65374e8372b43d1c2a6b8621b86a5bb9c98495ab4f1c4f42d4011b6f155f6d3364ecf97d055b7eaf3472e3004d 0xff0f5d4f5973cbe3508b1b15ec5462b744f0290c5675c1182bb0f92207745ee7f520c2de2d12f069114dd6592561cdd5; P1 0x1fc3f39a04b07d6ae6bea8e70ff0faa5bf3434b8b3dd55944ebffb353fe57eb340b32c84dd4eaf072fac529f29379e8d1 0x2e78f8f4d5d16587f48f7f8d0c5222810431ef93e4640bda8a6358581b74c1977ca57e7492837f61aebc8b0ff94b8f43; P1 0x10df6544a8f5fa74139fd733551c53c2c8a03123e86a0f150df3de772402e320821890ee118da2132b0eaaece2b3052c 0x779258f1a9b2ed8b7b2748e2ef70e6c8e77aafb3dbff689e4c9de196187094f214a051a546377b93b38ee370118edc3e; P1 0x6fb2c4b47ca1e3752c8fbd18b508043a4c59c480d4c273ba54ffbcb3d0b28c49385dd226d4cf96efe99661edd098f7fd 0x3b223ad1d67bd7a7e1621e72ac5d14f6cb8427c75961e6387c30a31b590a1ab14ee8dd7b89cca0c59c2350636d1e3605; P1 0x1b519760cc3b9ef96439259a0f70cf2d1d987ec30cda6eac526e20d8e27912149fdc0974732669409717abce40d01f3a 0x5c35c9a13f62ffa8c52214182769c54c5a9025408173e4204d4a254b69b6f4c916e17180aadf6aa8fc4ad7722df4576c; P1 0x426d6872024403b2d2812d05e89dcfb1780ab8f74e3edfc54ba579f407c5540386162db1215b4c4f070ff8861426088e 0x8083e5040c5485fb7f8393ab3ae2b91ad5c5be8eebcb9deb6aa727478bd423286a151d710464e2420934183d8b9b33ae; P1 0x810851f076b2c53873b07d930b1a7f356caf0aef992f2db7f1720f5d9b7aa126131e39e460cabf2f212b1da6242c8304 0x41d2ed7559bd7f6e084f5c7dce099e35f08706a31d3fb765a03a50e6fd6bfe98f9e9a7bd4445d0494df0ece74a72178c; P1 0x21d994c010b7e71deab6e804290067460b3fe55ec47abf4bc1f1eecfa57cda17680078930406271488f1af9528ecd4db 0x1e29af793373073e478359de473facb73ed1415113078cde4156692b4bf2e977c59f0813b40d47cfb2f268f5fea1bdfb; P1 0x71b97d42a50bc87b76170b4c72b4a93c4b4508bf018fba56ca83101b74ce52386c56c7a3194629ababe385c2a362f04 0x14b29cd9be091953770f5f32a0b5036420422b0230fc428f85bfd2ce2cbf2631c385ffb464255894980de491579b5736; P1 0x358ca41092f92d62410458b1d66e9995ea7c26689fe2ff92e8b4520c91532ad616bba22e27cd8fd3cf64f1f8eb7cc53 0x7775ee44eb80029262a9f7c3c2a83971b5a5280f0389f22304fa91935ebe5272d231e456d59f9e8dc3ce603768eb4b1b; P1 0x6f7db3af7768fbacd5ec0b507ce28a69dfca89d7f103f8d29a052bfdad7ef60e35ed8c472e30ac8cc8302dbd14e7cc04 0x56ddae845449ca98b1c621e9988bf0bd141cd91fc348a101e75760b69b34bbc8eba26589af3a71d9270d777ee81d75b6; P1 0x3af3626f6026850374aa207314a15102463d745e15b685b4df5067c09347e5adb9ef9d78d69a0a134a95964b30782c76 0x9534e0b6ae4536ca2a98893f0231b50fcce25db7e2e41dfb3f30a923d80c84c537934c5ef374780050de61a0b32fe73e; P1 0xaded31016ca72275f14971d803a8c99e9638568e1759825e8615da76822341caf303784caa9b411f8f4b30f47c33671c 0x1f89a046054b3f5d8e99dc439be69afa1084fb35989cb23908c48f16e868875785bc5689452418b83f3be987577d4d24; P1 0x7c53d9bc922fb4ede4708108f54daac99a3e0dcfaad57c54106e0ace4c771bf7cd44569b9a10e094f4cbbbd92d51126 0x85e7b67441aebe799a3eb01b23e1b3689574c18679103b42c673365b0fa73838112d531350b2e2dd3e9a420d5ba26b46; P1 0x8c152a9f282f3aec4f8a734855a7656e90c7ee49994af7ed76c7be20da3835872c419ba3d28e4e8cbf8734ee71e29d09 0x18203f15fa2f82fcb4f036be84dafa7a61ec0e466bb98c2f815f26e536e1bdae145fd853e86055f89b4c50bcdcf9cb51; P1 0x48c1fc7e7e68eed07bdf2f8803485681404fff92e063db3bbcb5f98152833f18e3b1c4a6733b3a74fad28783a04d29c 0x937f7dc2f3a3d7016073f9fdc392144ea54ef1e1c85d692fa71ae693db66e441bb20f25f356284fb8b3f662cf41bf1de; P1 0xa9f753d7d207b7be28991af60f75a850ad6407abbc056ba82925ff09e59a120aea2efb1e42ba5c99a72a34d2ed2578cf 0x43f4b8b3647a25f8c39bbd601cad979d29ba0dc09d7bd3141c59bbe9826b1bb1557ebd0957ef4c1526c764dc1fd4f1d7; P1 0x2414053d03a3adbbb2dd820a9398f92234324e92548f5d0c67fce117472df1c0124d71ef9b25f08dbc3ffeb33c5a1166 0xe866135cb721ae7ffe168d1aea400d2f6f5eec4a2223cb9533a275975a58d32c2128f18131ab72684e33b7c441771688; P1 0x1a5f25796f68bbfc45b49e2b148c853ffebc14212f0d9dd54a58dbacb9e5ffc959e281bd0468975486d52d8ba2ec797b8 0xb5934b08475e6b66397200e7a53e517fc5ccbd463875bd0551f3c450d4f49a08c5ed3033563f200315888330379ee838; P1 0x1019339b1ecd6a8c782b6994d7aaf6e5accb5c30ee6d53fc5e6bfb7a3f6d15e257cc3d961be7e03c92601c6691cc5e8cf 0x6b6f905dad77e1c3db6b9f93d73763ffef6fbc790384da52f9cb7ab459e2f7e0e108b2349e5639e2f2e7fc712c51014f; P1 0x5a2ce699a350543bbbcbba4db32908e16b65bc743c316237a41f1547f259ec99d3211a1f83dc93da23336443db655bbc 0x58bc57751c8abb0a9f8105d661d45b6d4e4ec0eab0c6b448e7a237480b60e9628794461d7f46e70fc774c2dd364c87e; P1 0x3d840d622b0436a6d4c39b77ee12e21b724c40aab46216e7f3351db2f00733d41d94719cd12ae10346912501be6a7e 0xd4624549b63520a97ee8aab3624c8712caa74b8883a2bcd7ce8ac5fa98e99403af8f5375adca668099e15398e8a8a686; P1 0x16065d0f669f0a06f971c32ce47507d3522a1ff9b5a40147e4e2c91d0fdee07759600177c452a0c0ad84611212545d216 0x5e243e3b5e3eb543ecfdef5d69ae2c6811b85f0812fac84e56232d7ab46bde83c631660efee4ba50697dbf26dda9ee5e; P1 0x453d45aa5212bc57a1176790b053378b0b71d571cbce5971b435780cbe0da477b6fed08c6d2bd7f47d058b0fc800cf83 0x838c870b79dfdb281b161dc99ac205c4c37afcd4e332158746a05e455feb1bef94b68200593b36b0bcc078128c1ea48b; P1 0x87323eb3750b046117f98b380a9987f4d099479deae438acd506fd281d4805bdc7307c1d8aeeb195d314e287c0cc37f4 0x4fa75706b77b310963f61258a81b0e65c0c49c929f66917ec9d99a6031a87b269f747ee706f8bdfd79cea0f1c578fee6; P1 0x31916a319b2df7c13d1ca848598333cd3b58c1a987a65014afd3c003904e56ea52b0bc2bc0bf73a3499f87d6ed43a870 0xceb3912da46fd90991890ecaf49444c953845c7fd80761161caf7faa551577025e0a80a3a3595ebcf2319c7ad01e15b8; P1 0x14dcaf7339999643dacd1794bde4d96b5d9a392369f18171579694af28706ce2f0b65680e9e0b0e2d2e91bf96cc0cac0a 0x125789c6e030e68f12943dd3858963fdbcae1120f50bb5ef512357ad89d53f4994e0150cbbe4455e2410c7f4fdfc148a; P1 0x2a0da9dcdb370397535baf1a3afcd657b37a0eeaa7a63c57a19bd96d3dd1ed58b222c3f55773321d02cd0914bc078ea 0xac59033f4843ab281f92101b709d1a1a63825ec98673e94e2df56442ff9a8cae23b53649bdc83a795fd02f69b66c2db2; P1 0xe80f76a0964b70c2501313b547ba94df31871906ad0ac76e4e8504a6cf77bfe6ca30cfdbfda7a3541a568c672f8c32b3 0x780dfb90d7b0cfcd2c9c53ef6ab2acbb09a7553c43978980451b48c132b24d075acb016d596a38236450071b8c3c523b; P1 0x709a39369c42075b1193540d750f3e584822fcbcb3820e91f30b98d88a1c226afe972c7cc79fecf86fa8d03e018f8131 0xdc8f1f0c6b9ae031347ce8d3eae7f23e8fab7decb403b7c409291325e17dde210ed1a5cfc924a25c3ee843f5db33463; P1 0x17c0c9ac2192cd6099e76304e4c03e8eeb53133f921f7461c1da825e5e2173ccd60665816e231e7505452e30b8b7dc0 0xec33f094ab156dfdabef6bbd78ce700d96dd0f007ae2667de8edc90f84edd3856bc0c7f4de57e6e8d5fbf99b81e03a52; P1 0x1b3df9c37b18588e7f2d8c4ec33494adcda94ba38bc76184d4fe4ffdc245634d8a6d00228026a56e2fd63ad5d65c0cfcb 0x86d3fab406fcaaf25409755cc1f893af14659b78921b8289089f841366553a0ace6c5c00bbc8227caaf6a283e7535453; P1 0x8e0533f76330476d99a5e1832755a18fee08e5eb9b3e3b4f1f60f17fe340a2dd3303f0131be7b127e3d6ba6a8b57ad4c 0xa351c45d282f10afee106181185a0dd49055686e8d80e332c2178e67a4949de4c5f885d8d7d594dfd98b99db288d31e; P1 0xd0627458f57c48edc517898483fb35a91fcd3f85e15b26207beaa870db509e7a16a42c297f90a89d875999ef8e2c18 0xe8aceea0956987b53cfcf88cf0b69df625d067fbbb985f600c9a981e314777f2d9c2fd8c563b710b2026e8875b831b20; P1 0x1a6f3caa92a0e0ca45b0e33b33f4cb5d9cefac7b4690f8d300ad2f585759a2f51a7a5410ebd7af513deda1c9f20eda0a1 0xf48946c54e27d6bd840ed39dbb29f90aa373e4e7d192246a79e00464b19ff9d0bb30c0da7b19203b653aa4592c2d28a1; P1 0x1d32bf109df742d988a60186e48fde6a6f75e1736771618460fb9effec0bc758132e241c05c999554d0f2c5e608cbce31 0x20d13663acc69ffa2b25db02cb8a14d8187d6942f1fc5d4fdbd8a4973309ace33f90a943a208d038e437237656e538b3; P1 0x869f1258afff00545f962ab541b833f334bfb403d0cd4be11596ddd9d385531cd0e45fd933a87e7823b04f0e4107fd7 0x3fdc156a0c48cf4f77f7e510ca2f1fc95dcbe1cce0104ec6f16c175b37b39b6c9b778188594d4b7ed49e91cf65aa1a29; P1 0x1fdc1f7e04370a3f190fa8e56a22f69ef91fff0e7c5bc4b43d4ae452f11f3323db75a444ee47457a7dc99cba08852cfa 0x3d83c4458695ebfb623763cb0c00c4410786ee30df7acb872a547dd5c08c1b6b6f44c6d00a3cda7160ad43b23ec5e21c; P1 0x1d901eb72f8b71b96a00b1fcbe5654874f02263d656e47c9c0bbdbeb60afb164c6e4567c141c80f89d77067d68ae0063 0x87e521a16b3c79f503c38c0e25d501c79a8e83d52b3864157193cafef067df409a4c925c304027ea465418f11648e683; P1 0x9046ed1adc9d4c80817e4de5b2c1d29d7afbdb8092d6b72b49c49d20539f40870400a0e089fb175e18f4b7e677e1ab96 0x32a0fbad05ce5fece82bfc214d51cbeafa17ce7e2048f7c35e51a36ec08b8738873cacc78cb22caeb9d96a5e7260f9a8; P1 0x14068f164bf13b87f7faa21bfbf37570627a86b77a35c146761b1d110c438f75352203443218b7010986144350c024e5 0x934ffcc1af411423e59e68625dbce9dc42ff04b487b5c421e80f09d6b98e7e9844b97f8baa5db916d887e449f3b0a165; P1 0xa989ea88d0b995baff396fd394ed5432c7aa1d92b8c7a1f7f0134e628e10e06fc3b400693fcb0783014fe52931f93c26 0x1820b5db453fce3744fe6e8453fd1367c2ebf59601cc9f958679191aa3d2794c2963e25c1e18593a24c428bf4f399fd8; P1 0x48c4c8e29fa24b36482c70a69dd87b3963a89aaafb95c56e0e8b21291be082fbe921d3bef108e95e6afa1d264cbbca1 0x69b629adbc7c65d0eeb5cfb47b692a288a5f9bf07b81a29f4d488498d7d3c6694f9505649b4de2592c4d291128c7c921; P1 0x574ddf9f9cde515c98d41377d33e2f4c6da34d87009445e78c4fd4870e556846b80f36cfa11e347e0ebe77dfe9120cb9 0xcee5b63e5e3c03858d89f05c23f5de27c6d9fbc526c09de80598bc5925cd26736bc7c0b1efff6193b049117427b7b93b; P1 0x14e6cfed7d9f3d470b2f9e46973c706a8d5f29a8633d5c1b71a44d7674d232d2810c7c8d0a19da4bc5909e4fb39a9b9d9 0xe6f20eff4d8a377a6dbf0806a140d13ceae530b4199e9d7f6726c57c7f50086d2c46b98aaa7a6e2b7d328ea6de6a610b; P1 0x1a0afafa635c7c02f1f2632fc3f8a3fb5cbfa013e3d2a4208ce063c8a3d0c12fd868f90a75d8e7b0bbbc2ba1dcf3789f6 0x8d02ccfbe16423cd9dd170a848f10081e114d010f08edaf122aacc5a3b9788336ca3b0d218c87bfda6d8a5b6fb0236e8; P1 0x9b582baa9cb47818d1dc8867a8921d0ee12c1e32d976884f8a0e160a5dc7e68f9cde117fe3f4ff52923fcf033ff32e25 0x14f4273c2a10ca5c0e6db33af2e5c58279e4a9f1f34c769e43f22e29dc75a28a4855c3582823c807d16193fdeec092a5; P1 0x36e1df86e8c6529fc5a20565d1c35cbfe746d27a7316db014494d44987ebe9432608817498d2486c7a9716262c8613d 0xe40ecb785f5304f09babf0e1529ed3892303815d517375e0c8cf1e24074cbee28615bc30f31950175a61037791c99def; P1 0x19654b692995cdb50958879d6395c276f9f835e443d900eb0ee44030accd160a028439320256f799fff4742d65fad5285 0x57bb161a85fda2734def39c212a96085f129ad0079db15527e44343e75f649e08b53d14a1bb83ee0422ad419a1275cc7; P1 0x3c21637ea7756d7991fd974f156872394eaae8f7e806361c015edabf23c3a66190fe0b5d4098ab8368bfcae3dd18c3ef 0x395950dc0dd0a7c9544731551119323303e8c21512720720e3c2d948ca106068634e9910b215a595c7d78630459c0951; P1 0x19b1ca56a165972cf382be921f4b1383cb8840fe74fada2e7b0bca94666cce42275264ff314563b831adeeaeaa94f75f 0x7b7ac1d305899ff6b0906ccb11f71b96d69c2ba3371fd82d0c386abf6b7ef06a1dcd2dfe1cbe22b7bd988451b4b28ea1; P1 0x771e623c2e66c65e51f2c69fc7a22f7e12f1507cc056a3845b11dfcae928fb5b67f7a962cc5c8cb52e0a3f482705fb20 0xe37112111bee1fa8920e610be6fdb13be846c385f186175cb9fb807bb9980e14141dc95f1b14d7e730a4022645bbfda2; P1 0x194236ff697d2bade35ece3cd47be83d70bfc60002aa0d98ae214bd6928038efae414832b95dd379a03c161d314d388a4 0xe24bee7908fc67bcdf1a47849c75f3158532d42b7a05a27ce67bf77395c5124b471d5a969db87011cb9742eac8bebdac; P1 0x190144f2699dc61fa24c63cc807310754a56b178f8d056a79156e4c37424498da67c391f4ec930e0ded47f132f12a6d37 0x365aac8877c4d8a24ae81d86fb950a7300b12c93b17dfeca329aff71c9af26154ca18a95160cefdbf5c18dd1a0d94457; P0 0xb8a60e756c2eb7cc5ff718484d14adabba6d558dd62dd514cde3c8ac4a75f20071817bd16c39cdff13f2af8563ba24b 0x1a841a290ffa51e570e6511a383bf989ce482318afdf1bf06208811cbae6489a7dc3fd54c586cc00894b428d03f7f7dc; P1 0x57e32f6a88761380eb6ad8db487f18fd9c0613997ee1fb7a73540f850f68de8cf98872844c0d610528abd190e2356ed 0x966497cee6d25d22b1b6ee84f514df185642c7fac11c1ef5495c825d78520c9acf6e6241793cd593203fd6dad327e10d; P1 0xb0b412dad4512a03bfd1684279fe46c1614ad8ff24ad852a0b51ad708907cbf21b6a886f7a8266814b027638c8261ef0 0x9106931f2774b71327f58babba98bd56e582c393ef3628894898c0781fbe40777eb1e593c9e912128057e9f453c1d442; P1 0xa450e5a90969b7edcd86468207847a59a6b6558333ff4400e47cfd569c00f4085d6cad73373d093049c5ce9fb559f670 0x815486d3ce3a58add94c01933a325271cd549e77632cad6d80201fc53af21ec826858b236338546e50abe098c45cb878; P1 0x82ac97946fb11d982c76ab168ad4cc5177036f0354f71bb47117b625b7f05bdbb373cd5d603c9c1f41c719a805abf4f9 0x88e6bd3405df555598c0f9ef64b71c3588047e0b531e34892829b22042c3af1ffc122e27f0a804a22bd179c8bc056579; P1 0x926bf1ff971b666cddf21d9b284c51f92a09f1a08469c3fe45b28d258302323474759da0df9e6b823ed847b1bee7fcd5 0xa480345a1290937c0678c83df466ef7bf41c9a8a93e30250a3e415c30b34f90242daabdf081eee2c03fa034a6ccd6337; P1 0xd369068f9921098c5e77eb21dd8c605ddb2fe6f8db4b08dc22981b03c21c39e95a70fe337a80d9e977c21034530743e2 0x141664161f7ca9b11aff96808554663de0fb7b87a48b8b63a77f409971833cfe0fc764c05297d2d7122ff8e73c1a6f84; P1 0x32703319fb45ce7510f118ffa0b7de9a3e865e95cf9b2ea81d4e2ca3b52b6da01816f12fd2c6fb1489c6a9d1e2a4269 0xe41ac57bc3484ab80ebb2ac42e4675cb1dd0e1bd8416bf367f4f8639482eddc47984310b4d7101ecab24f6a58cf1ba89; P1 0x1967f652252a84c530e1d57f5bb78924de5ae65eef39bed2af701f1a3f494ca95c2bed2031e9854ac738cb7987d621f8d 0x2a5785520ceaacb095f02dc37ac4e4729c6618ec4af319b9116e32fb40941128675226044833ec820ea0a9cca91cda2f; P1 0xe01ab559ee047c6df4b58ff23ddbc76b24e6673cc03026005e217e54eb0510e5e8c07369fae7fb64500e00d0fcb9fee 0xaa85abc9bab90ca49d992688fec840d60c7543846841c41dac1c7bce7f561a569b970f1252eecc90e3f08941443c930; P1 0xe32b9be7bdc1cef7740cb2f91884cb51623e38729d2281b5c9b52ad59fa2ba81aa1fb007bf3298df5e4514d6279f2d 0xd51a1721b1c18f1b164f72ca1aadf256ece563beac2d33c65aa9d9a8455960be837ccac0f46bbcd7ed9337acb0a0712d; P1 0x162c8da4d8d768ba8775774c4687f1fa211a8e788625b911de6070581badf83e0abf55db81114ceeff12a640174ec7ee1 0x522257ad7be2043586b1f0439381aff85b5c96865e02463eaee414ea2485653876afbad80585f27e97c6ba67897e02b3; P1 0x34b4098d16f224ff65959d55f082e6723cff4953a4713dc4240c18bcfa152a313fd10abc3cc5b5ff3a8bf56c2e20f8cc 0xa05d02f913af508ac8915ecd0eebc0d63b5bf925350f0f0d6c2645f09cd64f8345b7c3cdccabd087cc87c688aa978b1e; P1 0xc8e8cb050338916812b78e7ee987f5c4ba5397e87e8f72b007289b0389b1c3e6b621720284dff61c544113b84bf26c5f 0xd81f5dcbee8c511873bcd6d347d6720704446ff36b6685ffec3e45553302489fd7a410427c8c1a75575e540bcded9b67; P1 0x16ce9e43ff89cb93615f08da32b335a60d45de756ba5a83e8394bfa5e6fdc1034388714b4147acbcaa56ff46b5d16d12e 0x6d43dcf4edfbe5992937b37dc3f60d201e12e3e60887dea5ae1766f405f733d07ffce22ba251bb4617bbd7c97f2e9810; P1 0x5d45b84bf325ed7c269c9791f3eb7eeae79cac63089665ade3cfedc7ee8daf9b7885e6befe3b7b57c55d0fa697ae7cea 0x572f96897b97ab3ecebec3e4df6e889a3a0fcd5eb3e5d25655c7030bb23082cf868dd427c29ffc6daff86bb257d47eea; P1 0x3b62c2542203bd81a4871e3849ea7240a88205dec739e96cd2e78cbcf48b5519d67ff36fd53f9fc5397fbbfdcd2c8868 0xff9ab0059e927af4b6de8d015f2e4b22f11ae5b7fae0227b6f228ae035f6b6e7ba38757ad893f016d687a3b0ca22e430; P1 0x1fe6b1046e364a6b0df7b9a8427832cde439b4b790588ea413b891a5f648e93f3e352deb10c02da1d1da9c8ad37064767 0xcd594ad4c9a07831e9cea2652e046c9e1b7a54b34b68850012208a1b80d9363c44c679c9e6fc587b8376f0087515967; P1 0x1497041fbd17dcf05b275a1dd044c3ae4e75f39a80de0af042f1c7de36dd5a5a6a11f0975243478af80c7bf84c84958 0x28332f62e911ac5730ee55189a250644393ddb7226ca830c599311ab68fe919e2577a58d3cd2239fc558eeb02d95d83a; P1 0xca01215a607b5635a123a6b40b9944c2289fce580714c545e070d4236fcc598c452edf39a51613e9863d4b963c547b8 0x6ffbfc5d667419b4730dace9f080df46ccfff881620a6b2e01408f664d3cb37f59c41db84e6a7c3bb4c4e7f500112200; P1 0x61f8f9c3ad8f337a1f2c430b1eeaf34af460be7375e3114b0f5e0bd60831c41d205d3a78071cbd3ed44fc61d42b2b244 0x1a24d678bee33af0d7eb06e31d63e95dbd3f02707cdf88fb4fd6f58fed5391185cb56e93d750d469c9eb3e2453bab244; P1 0x55701bb18d3dff1d300eeed05c90e0551e0c9299dce8c298a19aadef8c96371bdc3f394ac6e9fbf6f3e7c92f5cd87ca 0x42cfa28cb95e0b76b55dadbd8d50d8f418cdf6c789d3a86df87e3a8b5b6e246e9ba9d07eb182df8cc79c4a8833b2cbea; P1 0x22df7071acbd57ec162ae32743284ea5cf8e74f9b638338fe0ff9daf3ee6da4438fa6b61ec7553debae740bac7e9fc1f 0x53b61adbf63583c81b592b44ffa2f1c0e1d521c11ec76a79af7cfd5b8298a06a592dc1cfaa37d9541f69a1aa793dfe7; P1 0x36bf2de9aa74651a5ac36e7328f495d3a1fa8d0f1e5d5f4bd23a26907ff3dc379e4b6184879b170b7c94e8060e3c01 0x805cb41443667e652cd16a6a3433dd5c920ff254595f9ac36600e8a9ba8b9e41a20e858f2921f08f0391add3984ac0e3; P1 0x80b9ab4c6146e0e58214edec36c8e2a7639337dc9bd0159178d380d1996bd45eea5118fd82a172cd628f3f8defa1d5d6 0x2e70162c23f3b4295e2c5dc6fa1b9fab879fff0ffa6dc7f889bb85f7a10edcd334f5f72a46104e4df644a7df38c46868; P1 0x10d8f2168aed4f8d8ba7dc60c8dca3d86942bc150ab2097a12f1597709935b5b2116a3744278c2a2e37547c81027a0e7 0xc006d6c1de52f1cddd68af0c05a893d06027007b3d41813f76ff07213f9bc2234fa2791920191761e7c5d9fc23d0f567; P1 0x1201484a3257712379058489be3aba4949b1a519a261a987afc71fcd89b102eb0e43d9f22e42321575e6149b354dcff3f 0x211c540f96e2a9372585012aebaf60eab7dab401f725e04e4fb9ab56d7eca756f18edd3bc3821ad0bf6d67580e199e21; P1 0x890a19d07d35a5a048dd6edab6215571221116527ab3d0620c20dfa9590135596c93f548bcc7a14281f2dc96654201d 0x2f465dc8b1f1cacffd44b9a5b134081c652d99ef8123fd2f4b562af3f5081fb5edd7d3747db10a5b2d4336c42691a09f; P1 0x1175d38e3ae70ea6f72bff2640e683b8731f2f0a716f7c17d0ddff4663596c38a0cbe86080b03ea74e43c600538e47a1 0xd7f34035d2d2b3a3285892f67ee24c68c9587eac2b5005f01d9c0e18777496b7593e48bbe637253ff64aaa5c6d588d23; P1 0x16c54f9fabcce34eed06361bdd6545899149006be00b124c4f5ee8b7ba7f07e7696a9dbc52ee0f59af4a77d47f2ec49cb 0x20163b23e1db558fdfc1211265bc144cc47eb97d6d9e0090ec172b5a2e9debb8e469721c42f934d97dcc1b6f3aab6f5d; P1 0x80b216e60966c729eaf7885c97266ac3568853d156c977fe7418ece78f0342c2b380c17fd187f8784a5b1346cace0eb 0x86252824af81803b2a74c793223633dc7cf2999094be97f2cf2401784c5b92e4f3f92bdb950b1b03e39d741da20c707d; P1 0x8c95d6d61143938e9cbac6d70eecd16c16fba088478784741db3524bc5d000029c09503f98f0c831c911d80145d1d018 0x350bf6331a0a529a45b8fa36c02307c3647c6db7a06ce5a7b6bb92eeeefc847d08df3b315e30541e98910e7f281d0a2a; P1 0x15fbe9007be586ac67482c52b36c4c6d28d47dd1608e65d2c9e4f5eff52f318a4b30477b106bc2fe547b35f6bab2b313 0x3e19844f50b105569af46aa7369a8748b5d59c4012476e5bc01c41e25b0aaf8f5a914b7ecf6499be615c0b2c968950db; P0 0xf105ea186f564f2722a606406a94f36b6b0b62ff68444912f2d3caa06d673229b8fd2867df141591d2fbee0b7ee0788 0xb79326b1f544cd8970edcd4eab50d7367d7489c8e397614b6ebe55014f7a621e9378f2021ef06c385d558908ffdda2e1; P0 0x83a3b5e7e2e15b640c71761beb4026208678e3699aa451bc582bdef93ed27dbadcf509baf9df88f78e6d66133ecb6928 0x419c3b6b3eb3b2cb267e89c4f5e2b980f1d2188a4bc5ad34b51de3e33c32ec597223592552f2d10628f6475a1ce6f2e9; P0 0x10d0b584ee5647a15f1fce7c59cd04efb793ca6e9ffa30d849542cf65ae5cead0b7971aa6218b7521f9391d5e6f4ed88 0x9771ba9dea042841e3d4b4f046d82bda22ceaed5aa7d4b89015da80bff2880622330d81e9897cdec50ce039e401e4599; P0 0x59975cac918358a02e74c8c7766945cfeed8998b68ba1636358f75968ef4a6a4faa53138e7bdb2924e5a52766e218559 0xcee1154c296976a0c638d750a853da7d94d050edb6b4842e4517490ea50618eec4eaa0bad1f7efbf6d83725a50e95aca; P0 0xa72f042d044c1bc13067addd561b55d71cfd97dc348c58f1d524005124b4c1e6ea8647e4cb2d796f7849714f79f08716 0x58cddcc649158ef44cda4f73326bf8639485d518122932a743b56061e47c61fe520d6455f0d4c39bbf9755b61dd72e7a; P0 0x1ece2d53a635460118037f98a326ec115a8cb466d98559a87111c1b1e6acae176d83bd25b038a95a9a939e721ad02bfe 0x91ab2671de7949281d5428229167130a90bc92ba3b34081663b1fa1538af35583080b7b0bd25eb36b5fd0152d82c3e22; P0 0x52e353f95fea9b9956f1965b76cc4b21702193617be64d4e6628d9b3ca51f7b86fac3247f2a8765aaf7b0e2377938942 0xc7bdbd8b457d6fa44b37da86a408016de65a1753f4937923d510a2073aa9db9fd1ef86369d2da25da67a4728425805c6; P0 0x9bd8894ff2048f2805749554ecd23577cc470a5667fb1df800c6a6c9fc796c455f300383c9b68590d0e936d33697b637 0xe523f664b9bfc3bf652277742987b1f9b41335b7e9bfb48c9912abab311b35318ba3aba093dcd71d82f0a3ba46d90b5b; P0 0xcd195bdd81019b422210cd980a028f53593a11bc18941164056de7efc4be931bf8a632a38b953a0d843598a8aa8f10db 0x9f0961c550eab55e1a552a2828a048e71a5c72a615b34b5013567b7e77627e025a0418f841f71243fbbc5443af560334; P0 0x62cca7cb1fba5d3325939faecb4ad84a2299a0fe616b98c02f258990259a64398815bb95b5340042ea19cb1117410f36 0x8c5030af2ce6660d94838cbc56a497fb1ea481c8a4471ffd1c80081edf97b2589ca13cc1d9e3dffc306f3e5a563b51c6; P0 0x4ce7ce5e0fda3853741154d8893e1ee8b45c0c14a08dd2ffc777a86f38aef1ce1ff1ea060b218f8559edefc0b76c80c7 0x6a552e0b15aaa2bb90a98afffd7bc6d24472ad574e0b8e5e0f1fde36972df926b8428176817479554692bee18acf65eb; P0 0x2c2aa678c995ae5795554c3cf6b8a46e455644d6d856e40c715fcfaa06af661c5582b818434f52289f074bbfa2319038 0x5364aaca2a6b147cf0ac42947bee9de06fca03098db8f47582ac35cd623f7f7e011d1cf6b2d12b84e7fff884f8ced5f1; P0 0x1b2a6e54f763b2ee34e54e1405b14c24b26897ae2f88b7c18c3fa11043ad3c2f25dab85bcd6f59aca84124ee3a8dac59 0xa9d2a8ccc1c3578d621f6dc5ffd22143031cb9918d1841364c9865c14886f571cb5b897b10aa48fd7726ebd2d34993a; P0 0x70a7d037b70f302a1467b3aed40e3e28eed0232efc2b93e486b23c85148737501f624387a5cff6b7b77157d6b04e78 0x8a9e849b38b7270198a2fad77f3a9948118c82d91a1568b1ca0e270ec623072b2fd3c99b73dd9847c002c330d5f6af9c; P0 0x4b0f491f4d6fe8bc791ba50e5c37390483602ecd96ad8b388f0b1b563f15c33fbbdb0a2a0edc3a76ae515a5e3cde3295 0x1230c3b59ad730d77e44bc5b407141a5070e699e977febb76f4d727169716af4616416de3dca572beec11838cd24d9a5; P0 0x14ae4cf837e7e48c4ebfaff129fc3bac435bee3cd18f94350ac77fd3f5006f660a3e726a20bd94745007c6cae88c8b2 0x4bbc87d00376381205690e6156a1e7ba3d70f6924039f8da50b20f89c00c950c3ec253d0931f2998da93e5cadff9ed0b; P0 0x1668026ba399672938ed9b9fe8a179f145faf3c86f60c3b19138b0aeb31ba9fb9c83925cf3d5813c56bd6363764526d8 0x15d6c2107dcd29fe98fb9499b143684b8ebccd053a06ba78e34ef0fbd21c40670bace611e9309721338f5edf9b288551; P0 0x1dcefffbb52fba0e5de2a1cfebf2bedafbeb857084d85f3c3cbeffdaa91bec321ee3518f86e7ad24bd9dab4ec48a74e 0x12ea56465d6b00cbaa401bcf02caf2c86e950257ee391865500b36e18c9ab0daaf1e42fe237702a406990a5ef105eaef; P0 0x165caa3bad92dd53568722dc4877811020ba5fd194de3fe9f858e128e9dc5fd67abac621d8ee231fc82c8172a9b5fae 0x2aadbfbe3a4ba1de65bebb20d7083999e297c1f688d02efa85ae42a789dc12000e339742a5b2c6733134c0662d8b2acf; P0 0x71d78d721d903ad310c96d2580da15cdbc8cf66d58eada013408a84a3b852fd99a911b4ce392c67fe5453de429869b5 0xb758443b4ea9c6f8d88df21c389daab249a97f112a9f193e955b6f747e1b08b98609753a368cb689710abfd18c8afd16; P0 0x834f4ffbc56c5eb81cd1a151f98f3958d3b9c737b7c74e818d553439118eb45dbcacd6d240a7918c1b390de7bb381f3f 0x83c1012710007599253fe9504bcef22dea25f6f6de72e7652b0990de12e7efd571c0492fd448b6b7bf7950daa1249d23; P0 0x43cf18b0b747ed21ef18a8cd2ca125c6de5dbcc20f76c5d9333f436063c25cbf3826554948f060ac583686a974da45f6 0x4c099cd9a6ced30d6874d34b0f24e9ebfd63e063a499e1db1f0b26d765ee7e716f1de21d82da9c916272d3320d2638bf; P0 0x1695b57da27284331581ba829ee1641ef9f1dd804c056c59c3b87ab6970608d9cd3135509af37b6deeed7aa069053c79 0x4212d0d58f9d01ab5b4a24cdf3bb96b02c71a7160bf2c952d9e88d559185cc48b350a048e0a7961e712a2a3bb44d5afa; P0 0x110db5102670e27805b7150e400082555784fca3f30fbfa4a904867b39694f42bc9e4934ca48703fedd9f90e6f520852 0xdb888cfc0b80a8f130079f30e14580b1a7303b8b0dd6d0d9361b355403fd03beadf6478c8f13da92090ec747da0ac476; P0 0xbc42ea0d551efe7b8708c903c549443b12efd1ecd57080f6907b1e0f1f9c2f51f5292c88d24040197835b9be1c381315 0x288b8fb4b9d7f82ef965768996e99b6f88b83fcee579e12520320be3449984151d7f71d5d6c0f9188e046b2a0434f979; P0 0x66be8fdd900b54b56d5e0ce7da5e3e9fa52114b95dab47b20962993961c92a46b71786444668b00acb46dd86004957e 0xf9b716cd7368d13c3d0f2e3a9c0d5b9f8b050592029f7a049ba4c245bb3a9c91c1a513ce134552abfe768cd0744930af; P0 0xf395ad4d4644db9a60c39f814c6fddc342a915cea2d4af40bf3d7d63cdce6271cf4ead73b6d3d6faa5c5d74aebd184d8 0xed11a124de5053a99892c1a5dcef4e889c294150043ade45826e2a765e8eb93e620d5af14abc3e7b18493fde50e19c79; P0 0xdb89a5950ff5a68371e841f4dde8d29b2c7c015df359b0b129dc9e66d83a5efdc23fe0d81c6b1d87540eb5a22096cd7b 0x3933a59cd61f6485e45614c1cb8e2c8ef6e0f0926b93ea003483cb9f29b4117e626d5a2fba8efb0c8c56a0a32cec7eac; P0 0xcc80a2b3efad75fcdf6eaf92b2d9f0a1a308a7970e363c5c95da1c64a17f26b53e86402702ee68993369282baa8d849 0xbae7ec4d6251a851dd3ce15775b15b2ca421ce019445b049aaeeee7ffdb4b9bb9b1d2dbf15eab5c1ef802f46a6769bd9; P0 0x8875d57cc0a4dc9f92728b63b8d117c66ccc4f3bacd5f65d75d082834c2687d922fd9836e88b4108c96b0431b53203d5 0xc172277ba7c55c5b7020ebb94f07eb2b75be81b1deb6cacb14834cbaa7d0afe7633ec197933f06431d8df21a2c1e81c6; P0 0x922d526fa32fe9e0e83f336db400ad4277c2e6e956816a4783b5fff3cdba3404d16be612fd014a857481aa4bf9620582 0xc9137cd3a7b0470e2f32c535af9edac051a292d7fb4065dc1aa1375c84d9b48233fa7003d5c9d6f5f662d940b5932aa6; P0 0x9def9b80219b6d2f717b1068d94a9fca6d1c146d61e3464edb5c52445e88cd5caccb7673dd962842ab67711233b6e7a5 0x70746f905f3cb324fff803a7b3aa65348c798b9b9f364543937eb1e8599af608193aa0ec68b87fbeef74b755f175cb49; P0 0x316616939ec9efc4a492b6e9040e47b796c158348f64b6932a642a1853d903b4117e2f1d6ffce9a5d920ddc2053a3919 0xc598ddcf43d8578eeb43750cab76c3be51e64288e17b8c5743094b6b35d4d819f3f6e8568c60faa300a90015e96113ea; P0 0x9884a0a924bb0a9c40d2823c1c64559f8bcfaf2a4c9b767729775b0336c261e22c30388686e8cc0e6ef084006c5bc900 0xe50621856875ff19861b97a291fe9f7e6247dc297db8b42ed4d7ec7ae939ee1547bf4490e0ead0166c37da74793c5ae4; P0 0xcce3f81e4387aa5fc01f61545312b5fa0e64308ef8177dbb37498ffe29a6981324adff3f4a03e02896c99a5b5d74a4a2 0x3134f31daee4bea18f65580a742c4587dd079fd6a4ec80407439f35ee719bd5c7ff36326a4ddfd158a35c07fa099bfb2; P0 0x975500507e3fb5ea3bcb33c637b5687c4dc24204d2ec1a7513ba82fa4d3a79b7252d9f4c0f2dd4317f7c7a06a17be98 0xf5fab0de07b2154a779e0859141fbd5094e402cbf78109d58ae5ac200dd7506e53586e65cf2c4fb3526bc7999c66d65c; P0 0xec59cc06e693efb854c4a74f3fef4e065153d5c73ff5ec9abf154ccab03e22bdc8197158a823cb209f05b09f8f141439 0x9668839c069babc8357f10f45da064c9bc0fe64e100acea2a778c97b2678b0f069d529a28f1573c764965cee33e20549; P0 0x585ea4e60a2cd9a591104c943cb29ac7ed986f15280480d2ef7a70fb1dfceea9382c02bb889a2cea5d704f54a0b607a8 0x6a20bdd6f3877c0a80a3830927a103c3e4a008ddc7dea97e626952500bec707f0b5542b672b11f01ecd869110bb5f679; P0 0x2bff216604302ca9d07cf214d75a1b75744db9fca2d5840889753d8147f54cb3c818f5f9b9fab68fb4946d59866230d4 0xeff0585c4efa194e23cbe0d28306aa62491044340a8988f04ce037ef97b0b174b6ee350dab4fc26505455f1c60c8f605; P0 0xe0e2a6a2270aa7c426df10958d64f210c8cadf4874c9b1462e6c3a5e93107752dec252e407e0cd8abfadedf2e130219d 0xf9eeddb3f4217f5517ea8efd33844dcc231154baf44937d6e0c14130142e60af3974c1c34524ac752654a9b2f56dbdb6; P0 0xf4028a290b8349fd703f9db122c51f6f6279d15813e409c11eacaf364560a81a4ea78ab6f1456b73c3b093c6dccc787a 0x46502105336740cc30756cf935b211d4cd002044af2bf748e1abc330b30dbb8096250be360cc39848ab5748e525eb5de; P0 0x134feb237f9eef53d52dfaeb1fd1f5a07d667009c2ff66868bee8e79f9a89826dca8480bc2fa49411c51ca128c8c6d36 0x2d436fa7a5a1aa50243665cfc384aee77ff214b12170c89ecab1ab959e7fe85f3cc80cc79640c7e464151eb0d4c819ba; P0 0x800c70492ae57eb087593ddb98a3267dea4e70c56b8eb8179bea05ea7b11db0fc4e9e1805b99f4dc6985a03f06c6427 0xde41632ed5475d0db56106da211d5758efb08000925109e46db1c233bb67af46af5dcbd2637b6d8b88b6f4a135a23f4b; P0 0xc0f578b8be1d552790d8431b959fe822666abb48696efaeebe6e6524bbbb4ce246da2c724739805e24e4aeeb10bd23f6 0xabaa6042c780edb7dd8b7a48fe2e03666191230a9aaebfedd6dfb94e4968e7c833d3755b6675c4988cc2b454494f23ef; P0 0x731d0dfd33695bdb8668be15332f31c75e4fd2f31487ab877d9712e5a58f83924c7888deb5a277e6d00dd4e196bd1693 0xda1e715a9646fa6c7ecf82dad49a39df715498db8918e5610434a34e5c90c16ab0dbfa186dff94ec9302a61c174a4fb4; P0 0xb9d7dcad0b5d33dc249a40e0c5b64cc04b3654607b98ca8609775182971e7e07308317bb1a2bfbc15ab7c7434eca30b9 0x40f1623d1614fc5679fc641420610cbe2ea1b2f9bc246f899d18b1db7c78562b0dde45e0f42f6e597c7ae5ced3aac749; P0 0x107994b8a7c0e529f0e9f2f12031657cfed77e5593be3b08b27bdbffdd060bd6fa1370b268723ebf3517c42ef0eeccea 0x3f052514a1483c503cbd788c4719d7b6e24610be08f551f22257f42e638e48b3165e2e8baca4a4efcc2141308f055fbb; P0 0xf83885a9f8ed2ca535c2f12eaab137a1a94da90b19781d5b6884324aa6697fd4a1c653f27778a49d681803228635605 0x27552c2ca021b1c65a796ebd61f5277c46d4b0a6d0286dece8f7721d0b96a35d2562c5b3724d830d10dc075cf37da89e; P0 0x60b0fcbf60bf95d822482515719ea214e2c9e90ae3df0dd8b28c2a6937d106b8c3045aea761e89befa5926de4f9ba84 0xe9879c452ff963499999637e3633405959ec15e77978fa35e754f7696ba4630093c192fa7a859658635d7943f2557c08; P0 0xd508224c21b0f4ed87a7f529bdcd0a29adfd7eb0235c94032e914370d9b6d65b0c034794bc3076c5782808c3f9a53f3c 0x7f9931d6862e2f369e36a82c794a800ee36527166a1c9070afc3d702582afae6127b23546eb490a959b700c2b30cff7c; P0 0x3f995b1f7542092ee9e191d4c33a4457568a570644f7bf057c6da63abbbbc08aaadc70ea9f58d434b19c1f81085872bf 0x18be3301da010f6e0277c0e3f1b81c78c7d01afe6807ed5f38794e1c4d6f26cbeafd6283418d20b9017a12a262f0b6cf; P0 0x26436e019c98957618fe00d4775b3bc0887fbb3ef5c67acdc9a88f050d9e0bc1909435340c8e2bfc6f5ab0e8a46ff11 0x3ac24dd98011249d0955240498447ee70d02dbc473ecb2f4cd59e527a45c0fc05637e3472e5c9aa6509454474cf1fa72; P0 0xd7c9ec0a35a6e67536468f6a16490fc26526ec1138e27245f16b9d7d0f0fc33eadc37ade2316d801e94aae6228798a8 0x72b75ed6285eb05acc7c2927a2d59907b1922ee47d5c2dbefbcea2232770a3397293dda7c6f5c91d61915ee7522e736c; P0 0x3367d3cf7544053e0e1e2e458d90e4ee7bdb7248cf6dab486b61e888464c62262b4db4dcebf22e73357a87c4fc3657ed 0xc66894cc2efdc1ad0ed933749c78e1d09646878f7c8a2709d95124f34262368c668650a03476629c5895971edb108d7d; P0 0x99c5f0e515136ef56490fe2f925ec379766ad6b939af190a1ecada765039c2dda2bc7c3eb420ecedf2ea06863a95fdd4 0x126abb1c0be6838c236484f0ea930ce2831b426b51927f757c8198c7cee5ffdb874832c41aaed76ff615fb241668ecdd; P0 0x1532ecf6da841da0430932b3f26eff7daf4e3bc490a1b8a1f7548da86d0ee6f0affc5ed565331948093c71a21ceed4f 0x56ff0b7a7feaea069285673b215bd499d9a1d7eeeb96fda65469c1f9f8298f176f0cf64ae861259806f909aa6c872418; P0 0x1d9059ce2c806cd6ff7811bdaf8fdd570e8ba0aeaa58d4cb268002a5ac2c4ffb590ec6f89fcadabeb6555668980a98b4 0x4f4d78cdeec1110891fb065d12223ede916657c866a19a890f83c59e93cb380c77a00f1a7f8a32814702ab5fee715af4; P0 0x1890e800fe3e7e24c9199ccb06aa7d77c53e14a087bdcf944909fc8885c4d5f6099206c462825d2dc99e4faa708c0287 0x376a0edac7f09eb85656f8ab2316be0e52e2a8e3fdd49fd5db5f101a05c3dbe0f9a0f30aac34ee22629cbd8a8c447b17; P0 0xbfebe524ff3a04e19135330986438c9b185b1cbeb7db4a5261daf8fb6a64eb48132145e9fbf4ffebebbc62a44722dd5 0x76b79d4d425a6466c7f0e359dfbc193649208fb090fd4eae6c52acbecc3bf517ac7d91ec02003fbcbec13c140bd949e6; P0 0x370dc8b57e480c7e25fd1ebd614186b9b9646529e3a6f85391be23e6420d74e648a47daf4bae7d4e9a9aea5fc494efd4 0xc0ea8f931199ebce38b7b169fad3fcbf03736b596f0d92e3ce530cd239c8d29c2032a3bc08811f315ff5bb43e5d5ea78; P0 0x9160ae4763c8b13f977e39fec2631ffa2e1a0cb326bc8e445de2155cb6a4eb46d354b29aaf1d2dde405bf85aebba4cc7 0x94865548ddafd13fc9fe02569ba019aaaeafe1cf3fa4eb53458c2c437336f4c1fdc6708563e4fab3cf2e1e9e9e29e507; P0 0x562b9919a504d5f5042840aac60ace5e9916a2df855f7ae60eb7dadf13c515d7608046ed2cbccbfa7be93271b6a251f0 0xec885a4e59a3524358609c8548162d1a42c5ab9a0051e7d058c051ea41417753b5fe447a99a5b41bd4e6f6b583c5d821; P0 0xda8baf20885f8c35274079ce831780d11f7070faf8eb20f24d8dcf3860adabdb211c377815b6b9693e1c1aea9d6c14c4 0x925e7b8ef2e768acbec83031baab71c90a804a06a7d737320efe15cdc9e2f5bc49e6183bc5f86cdf78f324e8bcadc905; P0 0x53afe7ce05ad0292a640e408cd157c35462968df9d25d846a7a832dd33c7724771f7f3a3c8f4093e8dfba5715d8b7e63 0x2e8c38fa310807bb306ac75ff1b9a4f8648bac201960b3561d914907aa681e68708b8f620714398ae6839d570426587c; P1 0x10ed62908fe5db0e1530ccdff01c4fffae53ea6757ea5cc4727b42c0b634c661e71ec37594558c6fa6227bc47c46f474 0xe4b4f8635646744f32c75fbb66e115fd1922351ca28b42d8fddc5d43269d8fa897807f1bc4de49db9cfe70e50311ec94; P1 0x198a5b4be5cbedfe9f57ab822097cabad81bd1d30494ab6dcd8f6bf084ca9c28d85cef28974eca60ff1d2201cb56ef252 0x76771d843ffd6feefe7685154448b1c4ced4a7cc717b1ef842e03db1f2a7dbe11f1dfc0aff9b1f4b41fb88f432015d72; P1 0x6da40d44beb0b73fb6f841f55355f4d4067c9236b0d6b8882c0c95ed51634dd9deaa3a4182af04f99a8c03bb0b21390d 0xc8ad3dd10163cdf0f4af02891714906318f0cca1b227f526f6e5e32234abcd2918b09f8c661df73a71d25e52d5214695; P1 0x13a9e4ba65b2a2ff356325e1ebc866894fb26b0ce4f686564e724d720718368c80c279e54f6cb2be4a6432a01ff0b05af 0xc9c7899b51a4c2503241fa9c6cfcde3870942691e8e126d49bddaef2ebcdade1236597865c36f95ca94e32c96ecaab21; P1 0x13e15e33a3f4a85ccae411c0a0d066d2889d0c46439edd97f503b1e2f246d669a781b04fee43018b67d06af7dac09f3b1 0xe7b5746036cf3386ac64f9d54c23fd3231d27fadf041219e7b7d3076478f2625674b3c8ee2589b192f4d8e7668fc2833; P1 0x1a371f146cfbd8ba1aac588ac681f3e130780d2240d4b27a36ed108e74699aacd21a912ad9a91bbc26d9c006a23efa48a 0xfe26e299fd865031f8623cc650863583a308af0cd10e6103996d9085a10ba120964c5569390f96a37b3f53f9595f98dc; P1 0x1f8a25f2342c4168a45df0a0d7b8cfa70b1ba923ab2849cce7817bd18239172c34c3f68edd2c61cf638237824cef21270 0xabc2d0059e9f014c617f487110e20969b29c52bd312cbf3291649312cae9d54790568b23243e8ea8a254a59c5c0e0c90; P1 0xe67bac4ee6ebed37f13d46f0c3b010300afe835b7d0c1fb4195b879b034d17eb1a60218831595e223b4e5b7cc72433d7 0xc868645139f6d442beebd5bfe940335fbf43cf772a7081b6a38c3268ade6138b8b67cc88eecdbb374e003a3f87dfd5d7; P1 0x139c68ea127c0a686a363db01e3cf2c4df03d0ab77d17eb4eccf4e1ecdc337f42a7c777001eb22a06b755434e5c03a3ce 0x260beff4abfc8fa7cff6975d8b1b1c7e86410dc85f2de064b7257e091a96ac3ceb143c70354f5ec58daea5a25e6698f0; P1 0xb4f179646010aa816c346d1edb1f1be7ec46582fe3940815119a3c34e5531953f1400af02ee71f8eb47ccce4c7ccb7d 0x8420e7cc05fb1323a198a26df89854a6f7240ff0c6f4636f06f3d03bf25d56361ed88124c4160122e6e7e3ae41b88d7d; P1 0x8863e68a561c7fcc58c4c225e3bb73c302b96fbbee73aeb016cf1059f20e136c3877d729638a4c89ffe85888d8ca8435 0x1ae352e4780cf9c4999fae1b4bb92f06d10fdf8c9ee90d430d32516cf1343041990e0dd13cfc835673a055f630906247; P1 0x5a5ed6508cd651a828fc7f1dbcb523cdef58fc9db4f71214c9aa8f3084f2c752c2641e74d1299abb379fe6003c8cb4e 0x3d221e1b2f0e662e7d969779475b35104b301bb44cc1a3e3b63c9ddaa0080fac489cb5916ccdaa43751e2c8caefdaab0; P1 0x1d328dc9ee5f7cdf43abbb8472f1d0dd877962e9a5ff6634e22d1db4bda68527b03bf178d6c9faefc607f082888da7d8 0x6190fa301fdeace6e06962a0301893b44af3ea8841ea1e8423deb68612103f7a93722e57eccf508d1f74486eabea19d8; P1 0x4a5e5f65c59941a8b5ef8f7d28b8c00c9ad63df68fabc9249dbcdcb48599a610a1fe1ab124bad83a9c1785a5853b3b1d 0xe9fd6b8fefca595cf70af429bd1f2c29576e32fe18a39df334499b820fe1a8592e64cf1c0c2c20604cb0defc2833079d; P1 0x1abbe9153945fe0018da2768cec909ee27f493d6047054ff8b868959423675ec69abec10fd1d6f80e3372f47a4323335a 0xcf24762c6148c38a7ab176521650d27716e75f5fa5a3cc99e9710bb308686b9ea7f2dd16444db0a2a8064c6a74b31fec; P1 0x14f37f89a70b7f423373931aaa2fa2a632b9d95371f9d52fa181aaad5a618ec62f8f3a143dd6d1651a738b387a5f25873 0xa6a403fe46ba62024fca4836403df76af79a63828537deddbf48ef837475377178603d3d254617dee8611e7bb5f85b93; P1 0xd8f23c85c3289042bc43212790df27eef46aa16f6f23b1beace8bbb5b2b3303404665a8856cba1dfe789e047ff0f6963 0x3aabb5c6e799e333c1760cb213fd79b3edc9e6054dbfa436b862f254e1d1aa054b62ad71b8d6c8bcba35a247d6331635; P1 0x1ae48314f37c0127534f533d385442280dfe8641d3b7feafa0678296b8e3231fad48f361fdfa5830356f3685c88f4bf7 0x6a7f2f1d05618e338eb5c88b7e2606495b313db3894ffe85d5f58d9dc93f7a87aed8a1e63cf9d6b530199bffb6a599e9; P1 0x589b24679fd797a3a7887a8152a7964d94a70c6952783e70fe6fb893b14ac81645243f3c6bfd8bb8bf0bf41f811d1367 0xb0f7faae1297b0504e01ac5ced88412db20017bda6593063ef81398182a0eed8a53058e1a96ecfdfee242d029ee1bf89; P1 0xf4abd1ca15e1cba4644610d8e7f896ee5896b87690db8b9c68f4f218fdcfde2f8200238d2960478840bb4a4b648e8b88 0x73697b35db0e1aa45791b2e6bada7072b0dc2fef7c9e22a80b57b5b75dbd1ca65bad3796c258319e882dee0a18cdfa2a; P1 0x680fe051609252aafcbda59cd7ebf53d9ac4930529cf10d556f3c88aa21348328811218780d9c6771932254042544fc8 0xbca3d8d3a21d4555601aad1ade05fa86eab22d7a40157264f8326f5f020cf76c36699d0b2fee125ddbafa54d39c86d90; P1 0x116021ea956827f436f91f874584dbfdfaaa91569efd21a1179e78c01300f28493aac747965067810b9d67492484f1684 0xfa87905dbee0b9a42c2b94fc26a3ca1d72144c595d6b24910ea85f6947bf436081d1209d471cd74320f82ab94816f884; P1 0x1ea5a1b815a2fa952ffbb4183a856816f475208e8fdc5c6e31a37bdb0b7c56c97f02b07eb31097b1851835a70b9e41590 0x4cd00a0e91929e7fb8d1a121161da2b36ca2447704c3d907178903d61c095719e58b6a98ec73339e35361e2489c41db0; P1 0x2e185e11fd01812230f7107fdb2fdb352a406befc90997428bbaccd5955e46dd887dbee34f31cd4bf5979c69e21848d3 0x95d1aa163df671f5d8c2323b8ee0cfa4ae343b942918591fba771d95ea58536cd1ff661ccdaf8c72e081829e93fafad3; P1 0xaf5b776a1ae732908ce6ea81cc599ec9b074c71274706c3c38b8c136bf2d3f060a5a7bc1a79861dd32f785bf620b2b7a 0x148a93718b92f2e7c2e0b27ceb0341f0893beddc15e4e7c62f7963fe6009df98c8dd31c1982cc8c5ae648f67b9c4bf4c; P1 0x34be41a124a1212be35715b5e6864be70c1f91b5be74c1eab173f6223cee4737178f7b4653653ae8b4e40155c152893 0xe37b7e1d7157b198dc0573c98da25faa39e266fe190907dd544a21d3afe561f3e592012395dac2c57a6ad3502ba25b3; P1 0x194487a754adadc5de3e8ad3e1ed3946fd9cf21cb7daa1d115aeb32a977b9e8cde05108b0aad935d12af35d1e03b29c 0x6f586c1815806a1f6d144596f209f1de1cff41cc0446eb0076bd7704e1ef3c983ee9fd1d747c604d3f8d34e0515628ee; P1 0x60db988ec1b0f171333e9c137effc1f6d2ebb04b3b129e8638561f56e812287e5aa5a6abd493fdf240098d8458df62ad 0xc6fb5118319d7fbdc2e217b427979000373a1fa1ea496c940fa432c65be33324510be413bed47c153e0211a39dc5dd35; P1 0x13553705317c27c42131b3172b203e6677e7a3fa42a6369a3b372737d047b26924e97914bcfb34282b445aa3d06484934 0xe4fd4df0a3c744c0f89ab5b02e536bfa4287e8e72e2f830fd75936b741fe9206fc55e85964e3c13114cf6c876fb56326; P1 0x199a85aef92329e1dfc06a2ebae5ed1b636e230b2ea3a271ed4d83c1eca941b04cc007f4ce97ae07d9be0cfc8f49ff435 0xc1ed2d854044aa7626d1aa61ecd123132136d009a042036208767bc43cdcceb809aa7cbf933bab455193b8bc90e4c77d; P1 0x125cef4c077714c3b816a265a7fa7bf92420f78ecf69b24dd2abb8967979f0591ac827319f11481e9731720fddbc8d9ef 0x1; P0 0x0 0x1]
    [(0x23108c4e1b4108ec0ae7f9ac9f118677a6c53e44fd12fcacc07b805145240aae82349d3ce0e376778bd1, 0x85c53119b9b248f2347795dd822483d348932e7b61d2aae93e5394fdcec98fc38fa82227982ea38e458ad625d2706fcd, [P1 0x0 0x2; P1 0x0 0x8; P1 0x0 0x80; P0 0x0 0x4000; P1 0x0 0x20000000; P0 0x0 0x400000000000000; P0 0x0 0x100000000000000000000000000000; P1 0x0 0x20000000000000000000000000000000000000000000000000000000000; P1 0x800000000000000000000 0x800000007fffffffffffffff80000000800000000000000000000; P0 0x4000000080 0x3fffffff8000000000000000800000003fffffff8000000080000000c00000007fffffffbfffffffc000000080; P1 0x1fffffff80000000800000007fffffff3fffffff00000002000000003ffffffe3ffffffee0000002c000 0x29ffffffe5ffffffd00000004600000057ffffffcfffffff9e000000480000005fffffffefffffffba00000034000; P0 0x6e3fffff777fffff2e4000020b8000017a7ffffc41fffffdbbc00006da800004083ffff7403ffff9fa40000bc 0xc000009b3fffff4073ffff2f180000d2b400013ecbffff41bbfffe6b7c0000b88800019523ffffb7effffeee340000bc; P0 0x900000e8e0005d073dff167355ff932cde923a0c31c0f0b7cd5be1e8429dd84b513683bfdc841cc36d671b4406190208 0xd5cb2442c7f9fe2e8f840b7f3fa18ea7d72c3c667d44126c8b1480b377a5328bc26e5636489dbc7ca1dc871866198c18; P0 0xb28bab89a7d2011ca1441c37f5165f1de6dc00bda7c9e0a6399582865c1ef09df59bcda49c8673e98c81532f5c225b48 0xe19cf606544b7924d06bd266126ed1b90bc7d837e052403e9ee58eef6ec40b923e805ec3fd9e741b68e2ea97257c9d88; P0 0xc6d548b3e45391177759974933e3ff7e314bb0f40d1a9175130caa2104848659a88377528d0befe8f5d8e08bb992b3c7 0x864502fc512be7f7756ca1ef5a8df3b7aebe702e7f3b7df9dcf56ae38a6f12f51eac4b2a8a6ba3d6eee1e5670642cc07; P0 0x466c51bac106a276b220636d15daae63e2ab6bc900248c7d2f8476ac7dc6bf40bdb0681ce3222b05bd8eae20ebd44358 0xd7a52a020ae78a9a045046b9540537d714c65309ab150a689ef314a9829b23e086d654a1633a320a04f45169160b6b89; P0 0xb5a6d71e9bd7a4df8358025853d174b2207ae4070a6cf3952b45583a23e2062c22353d9305e0261ed6ff895e954ae21d 0x3b9a0b3326d569811c759fa355971cd3a16605ac5dc47ef0201f84e1a2e826251d41eac4a0c093abd82d86a18c3cb16e; P0 0xde05ddb0dee86f34871a437dd53b71da390fb5b675391c112a701ba4cee36c539992f7397668000a9f38e9934e458cd 0x62c51641059f84d1aae21e00a9f1f9db4e75aec9c7c20e499ad3b33a2c954d793bda47abd78b8bdcb0a3fa9c2b6da411; P1 0x4c36f98a14a00d5c6ef672d18a4c528292318016cbe276a65cf22a10d7e5e2cd8850b7572be6f26c88cc6d9a1dfc68bd 0x610e9a9d85f412bc3d90bedc16f5ec8c8bb55059040c06e51a8cd370dc4dce46e41276c4251651dd38fa5e72c93bfaff; P0 0x24cc1200a61f82fbed3f6598a2d08b0bc520cb0f2c3f9479c4486c1a55effe1d9eb1a7d8a7b679b1f487bb8820511305 0xaae0106d520a5fe926df0fc3857966ad704184992e4035ee7931e0c891f248a25103cc36c67b3ea58230b5d135f21d06; P1 0xe41cb3dbe2a664f385837d1e7ccef971627f2387f77f748a5e1607db48a1718f83924727b08c7512cedcba5ee8d596a0 0x85d930eb2c3f05ce686b530af70866ff80586a16697be8bee0c37f7ebb30ff62f80a2c5b2e47a138d5ff2d55a61a4ee8; P0 0x45fb65185403878235f453daf11219e7d5704aa3c7f1802a5753402273049fad4e4fb231cb966625aeef65447dabbae0 0xff775218a06644aa54fe98782108731f078983877d4e3e22cab17198052137cc0318a700e3293f256c6fc17d7d1ded20; P1 0x1fdddda54f98949fe4eb06b079e97fdacb7236304ae1226a7864ab6bd9eedf80733f3e26b5fa14849ba444471f9add847 0x652836bf20422a0498390c0b0270b8ea3ca55abb435cae27af85501cc82408b56bda9a6e55da02ba1bea88cca3766047; P1 0x4ff18307edc6f443a423a80501c92a19339ac9c58e6397c2c4c006473733226b69da57d6697e6a0528e22f00549c2df7 0xcdb3a24380c51c52410e997117e65dcdab5ea70469496fd2596368274f48019f0411083054ddfd503287ae07f3eed559; P0 0xa5492fec6d7b43c77702fda5170ea466d2c93f2e703350a56fc7117dc04ea210318eac406f67fdce366dcdf2598596e8 0x7d78ebf69cf7a00c091429241a11e8b5ff3f122c22db0c7c309fcb86b1d2954d1ef5821ba196d28f8e4a25c0b2cecfd9; P1 0x7afe9f19cbf75864f0453aea5fdcd480a53f9bca59da61e3fd6ce176a86df050bdbf03971364a11497dd83f1a9b6d9a2 0x2829a3143811d6b19b4f60d04010c03ed34b8af0559f0fc9c71f489c673f09a751625f42e2e3b3c1af70298985b02584; P1 0xc9a1377ebc4939b97c828c2b801b2aeba3cdb87051b1c072c0b4ff52da52097d8960d622c1d6c60f75990500498e21e 0xbf7986a4e1c4c591217bdd67306c40b47a175c28970afb3778d90d86dfe3c7ce2f434cfafcc4765d1a7a8d1f8a97ba3e; P1 0x11e6d21352f2422baba6a0e0027b164e7ab9aad2aecf12acb395aa0287922a9e7eb0ec709aeaa8771ffc67f7309f731cf 0x301233993712e0ce3b7ac8827e9aa390e7803b44996f9d8ecc7d792d73229e9d2b2be99cc0a6541729ddf91c333b7fd7; P1 0x120da94981327532b294d1504ce84652688a0d3ac1a461bb055dc4d36d9fdf9b1ca0888eda3ce7be96c68d3ab7c89d6b 0x286d8bad002f8f6f5c7a6c2498f74f82324a2bce075c7dee93faf824bd9c1874fc56360a854d40ad0953df6765aaaa8d; P1 0xcc4d50c9b2cb0dfaf8baba2e23e03770203ce47ca56dc1c4cb953a5f5affb716aa627ce37e23e56abc3a2a613bf3e4b 0xaf06c6b0f4f2ade182eba9e8be97c121a7a6efc4e44fbe94dd1ea5fcc0a0ef5f45070d1607f313ea348e63fb8186619d; P1 0xef5487a7b2caf4a7292f86e7a0c2c61960cd8514bce69d3fa9728dab972df7124dd5629ee9e5ef1bb5d2ef817a82b311 0x6d0b5c778b97136676cc3f4b5c2e45015d66f01917ce35f810d13b8fecae3c7b469e9f1bf5dc0da4bcbf560199ab67a3; P1 0x5ce55a7dc115935128f674a40b694ac3811cb888e32b9c4b279e9de2ba458da4eb66dd17a0d81d56a5c271738ae2809f 0x98906ff746e0e8913e33c6b0d6f964728d08c8e2c43961593e3e39ed71f44c2a057e350c69a49c0ea7c140a9724fa431; P0 0x5aebd673cb532f830091f72fb3e981edeba193d57440b13ebc702c8a1eaeb0857a5d8f0dd44c5ac10f60a160e82cb84a 0x507f2365fd39ee566d28adc56ce6ddbe571bcf6ba433b7b2f4182a920292a32df0acb002897cd459996038cb4bb989ab; P1 0x329f6a87c4b500a03eadf66bc76689e1987e4bd365a81d2ec202232d47b52ef96b9d3b77adf001c467d634502c012211 0x340a64dfd4998f56a1625279a857255d3e9ab7917710c7934bbd70329ed3e662b35580f03e9ff7d03e17d6e8165e1283; P0 0xa943966f79aa0067066a5b5f8b8ef30e9e76361359697c584afb1d525e72215342d2aa2e80d14c9f1c75038c7afffa5 0x9093cd399c4117cb1c55a971ba4326db83a1b0bc0f375c3cb5c8b6a53812786be955c78f0689111dc50a2fc3e53aaeae; P1 0xa34d386c48effd7a0f3464c1f71ff0142108c4375be4b495bf056ebaf3b312b0b93f28b9c03fbf0c7fd52a25e6ca5fbc 0x1955bef29328d55884d922f57987ba114a0e7b9e3b7a637026266b7d462058a4c69859ad77e76ebe9dd2e07fbadc5c44; P0 0x281dc03bc40ab1421354d19a930fca5f16c77b35938956696ed8e05e32db561c8a6ab56471b3daaa8c67a262f343850 0x9beee93c597f5ecfa38ec575cee20c533a0c11a2a18b58e7a33dffc47bc0f16ffcf71099d910c9e3d1a1c10fb5552a60; P1 0xbdf65acb2a2b1d8f4f6e71dbe594350d7d2275b27f8cb331a16d824776265334eec41f10628f9de6dea2fa8b190ed2dc 0xd526f7f81dfe6b4fd62dac83858e0504a76f8508e15247d1cc2c34c0061b915c6417da9459f4193e33b6aab0ee961adc; P0 0xb179de916fc30075c9a331c6649d36b63faffef2072a9992ae170a2337f8fb2dc52e66bc22709f61fc5caf84c1c04263 0x6b76e7fa2166193489fc34672741faaa9f06dafac32f9213b03044b2debfaf74c6c27b93d7da6db75bd8fd964e61af73; P0 0x2d1c9d25c4b77fdca9098f28d4fe22e76adb78f0a77791fad2bbf70fa5f066ea084b6dc762df0c8b463e7c46dbb2a9b9 0xf4dec4094ff306ae180333826e1f1cd120443530e5d773c50fed8cf7771a79cbc6f925f21a1d7b6f45de67825d171762; P1 0x1d472cf14ad5861fc9c01632b6177a826323e75a39fa7d8a213ba4c1a36bef5323e406c522448099b88c7fb6097d9cc8a 0xc89baf7508d3f7476acacc0844986a761873c1137e153f4fb9a67c11243a6268d3a02cd0c5291418391af80b6b574f92; P0 0x9d33a0d4cdc51a9fe579ca9ee2c49f4d1ec18bb3610924b509985576cdc595360fd99fe8d51d562f5cc3f2bc534a4c4d 0x48dcd4205adafaacff0465437434f89ad8099344e2d9131246d4951347875455212c25ead65fee79c7cf77468d41bb91; P1 0x2979eb9ef4f9dfe35de95b691b0ca3c6a5f01882a8ab0e0f449beaa37966fd0678834ceb94825f11c5358c59d0d75784 0x202f9acc48bc04969da0aa9fc0f0667cc3d25b6f3c8c9286f973bc20c84f87c45a0fa2182ae14236cde3ea6ad6f5a7c6; P1 0x817df1a8d98416b1919bc0524680c404617e5451b42f27f7eb4bb12cb0fcd3ed5a581bd658336b46ae95132258d236a 0x51eba429eea8b2074525f3aa09b02f50a4aedef48897bc7cdc6cf1870cb467120eca0ef2cbc7ec672ced3e2b536cfdb2; P0 0x1a36f6c95748ab05e7bb68fb64949f86581d0ff076d7927537a34f46d786c4f4367d3766f4699b112239fb1d10aaa4f0 0x1125cb19ab58aed67132152a0e7da0e5dffaa6c28179c0e47f79bcbe76836f45c48a3d81ae5ee7f0e9d2a2e18643f4b4; P0 0x1260a8dbf4f072c944f34fc637ca5175ebba0876bd5767155153632cd1101654b470c64c13c499818e746e79a93804d 0x2a307d38e0cd17cdf39321978974c26156aa0d50dbd4a27d1ab326d681e1e345dc6124069796dbb8e936f1390ab31edd; P1 0xde7e48bb8b061c7d3116c443ad58bf4d909187f217440f3209a135da5fe66f3120e13367d8c3dd6b45ffae9ac0cf326 0x11ff6f881ffe55bc33655bec567fb7879fc5336796a6c056a804ecb6f0c50c1094e8804435674381af6fb0128d9a08b8; P1 0x287d75eec0db064b8ab7839b0b1e9a190da57174f705232a13006e55739201c20b8eb58f2600da59ff48a42b03821d5 0x311ec9fc9b76e307fd7e4b50fa328c62b1b764107a5045f265d8f3dfc4505ceab3afceb073b7855936cef0c00b902a55; P1 0x12d99a0d542d3052cbc8e8b796ae72abe47b5d24525f44b6d2876059258f1e509eae96ebf24e6402e52c94049b7f5abf 0xf5aa8abbe416a9fbb523ae576760292b443178994157d28fa04d0a8f27b8ab476e77787c39597971938e61eb84bf5b31; P1 0x1d77fbe505e9ad689fd35e9cbe9a68df750afb5060b16562c16627b1cccb2fcee5f616d89b6e228e4c3221f77d3a30dd0 0x5876ec58aeef034d3dbf515ddd0389e2105f62d3d82ca89da59c9e2dcf06fdc09159bad214886483cebbf7bb4ad6cc92; P0 0x1e91f9bbb43937dd8f9aeae6e63b72ab35e7a2eceaad03656ba7ee1daefca801b852f3960648028b48acc6e3c2df6c89 0x85c53119b9b248f2347795dd822483d348932e7b61d2aae93e5394fdcec98fc38fa82227982ea38e458ad625d2706fcd])];
  mkcert 311 ([], []) 0 [] [];
  mkcert 881 ([], []) 0 [] [];
  mkcert 0x9681fd ([(0%nat, 0x9681fd)], []) 2
    [P1 0x0 0x2; P0 0x0 0x4; P0 0x0 0x10; P1 0x0 0x200; P0 0x0 0x40000; P1 0x366d 0x7f4947; P1 0xd74b86 0x7ef9f4; P0 0x6b1fc1 0x47edd3; P1 0x44c042 0x757498; P0 0x5ba95e 0x75a5a; P0 0x5bf5 0x901183; P0 0x89e790 0x393fb9; P0 0x15c69f 0x79298e; P0 0x6189de 0x8ac5e; P0 0x7ff3 0x948c5d; P1 0x1253a89 0x6bd12d; P1 0x9a7884 0x55655e; P1 0x60e7a8 0x2e0400; P1 0x1c2323 0x1aa369; P1 0x96dee 0x1b2fec; P1 0x9d26e 0x4e9e6a; P1 0x52225a 0x6bad6; P0 0x4d08 0x9681fc; P0 0x9681fb 0x1]
    [(0x371, 0x21505b, [P1 0x0 0x2; P0 0x0 0x4; P1 0x0 0x20; P0 0x0 0x400; P1 0x0 0x200000; P1 0xd9b76 0x12e662; P1 0x4bf27 0x5aea7d; P0 0x36eb39 0x7890b4; P1 0xc128c0 0x27f760; P1 0x1539be 0x2df93a; P1 0x1c15f7 0x7e962d; P1 0xd4ef51 0x4b33c5; P0 0x259346 0x89436b; P0 0x7d2f36 0x21505b]);
     (0x137, 0x4451c6, [P1 0x0 0x2; P1 0x0 0x8; P1 0x0 0x80; P1 0x0 0x8000; P0 0x6c 0x812944; P1 0xddaf36 0x5955c2; P1 0x6a0d06 0x59e91a; P1 0x6b6bfb 0x37b39; P1 0x293a 0x60ad10; P1 0x7c3240 0x6d58c0; P0 0x4f7140 0x3063c0; P0 0xf8ec6 0x883052; P1 0xf676cb 0x1c02e9; P0 0x53698 0x46ebd9; P0 0x216b47 0x4451c6])];
  mkcert 0x21f701ae83c3 ([(0%nat, 0x21f701ae83c3)], []) 2
    [P1 0x0 0x2; P0 0x0 0x4; P0 0x0 0x10; P0 0x0 0x100; P0 0x0 0x10000; P1 0x0 0x200000000; P1 0x3c4c2f 0xa400023eb33; P1 0x62fc135c4fb 0x1d57c2b5dc21; P1 0x32b311c85cc0 0x1a3632509242; P1 0x2874eb295d87 0x1389a57e5f33; P0 0xb3d1b7b45e2 0xef632560303; P1 0xd2e71a726b7 0xd1419601ad; P1 0xa127021b1 0x8389d8860ff; P1 0x3fad6c78ed8 0xccc4c76257a; P0 0x4d284571b49 0x1a64cc065a89; P0 0x1482a28b9d3a 0x3535d372c23; P0 0x535c4f91c9 0xb5584d225ae; P0 0x3c83c36dcfd 0xb51252df68d; P0 0x3c55187b53c 0x11e3662088f5; P0 0x96bd4fa4733 0x10bddc7e5a0; P0 0x8408bf213 0xc96a9548687; P1 0x954da663939 0x195dd1af74f7; P1 0x25e3bf7ced23 0x251bffa01f9; P0 0x288b847608 0x62e189be419; P1 0x23fbd3dae03 0x37a63f3ff99; P0 0x5b2d9f3380 0x145ed9096ef1; P1 0x186f3b26bfe2 0x16afedbb2e9c; P1 0x1e4ef1b2034a 0x21ac38357ec2; P1 0x42c426d1828d 0x46a25f47da1; P0 0x92e497d54f 0x1705260db714; P1 0x1f344f2f15e8 0xe6fe127cb68; P0 0x622f6492934 0x9342c261ba4; P0 0x27e79ba33aa 0x962cedaa892; P0 0x298000f5c99 0x99a0e941fb9; P0 0x2b6e2fb47a8 0x1211693c6b9; P0 0x99c8ab761 0x1623604a5fce; P1 0x1cdbf41ac8dd 0x16e7057efc31; P1 0x1ee2d780f002 0x18f7fff52b3c; P1 0x24b5f5c156a7 0x92df22bf5eb; P1 0x4f635fe83d5 0x2004dc40e133; P0 0x1e2f40e49dc9 0xaf5951aa50e; P0 0x3894411072d 0xe4ba0088e7d; P0 0x6044af58ecc 0x18b8db58bfa5; P0 0x11fe99efb472 0x9849c7ed783; P1 0x555a0e9bb70 0x21f701ae83c2; P0 0x21f701ae83c1 0x1]
    [(0x9681fd, 0xcb307a71c0, [P1 0x0 0x2; P1 0x0 0x8; P1 0x0 0x80; P0 0x0 0x4000; P0 0x0 0x10000000; P1 0xf13 0x191a653cb87; P1 0x251b5fae15 0x95e27766963; P1 0x52adc765d73 0x20ee8227b0f9; P0 0x1fee0e61dd17 0x109ce4e524ac; P0 0x8202c022ff2 0x20dbd449783a; P0 0x1fc9dfd7e8f5 0x1d1490589b85; P1 0x31cbe60953f6 0x17c5cd8ecfd0; P0 0x10a3922be512 0x220c18e564a; P1 0x44427a69e3 0x16d8b3a3c9df; P0 0xf5e22089240 0xb24944bc981; P1 0x74fb26a17e7 0x145359563c0d; P1 0x1853acfa2337 0x1ffdf8b4396d; P0 0x1e2245433c86 0x15d02ae60c57; P1 0x1c049b18d14e 0x57c09d232b8; P0 0xe2b8146521 0xf6aab35791d; P1 0xdfeca6db986 0x4b64404f780; P0 0xa758a554c0 0xcb307a71c0])];
  mkcert 0xc6bf5fd72f030f ([(0%nat, 0xc6bf5fd72f030f)], []) 2
    [P1 0x0 0x2; P1 0x0 0x8; P0 0x0 0x40; P0 0x0 0x1000; P0 0x0 0x1000000; P1 0x0 0x2000000000000; P1 0xa4df5a08385 0xb78b45e1a2bc35; P0 0xa980e77e167e17 0xb4373fc96d3aa0; P1 0x146d2f502236991 0x6ce57ac06ae581; P0 0x3baa703287959a 0x6230ff029b78fb; P1 0x6105e817b1c2cb 0x56d429144c14d; P1 0x4bde0f3a01ac 0xbbe436a4bb453e; P1 0x16341b6f8f9e42b 0x56eba1d1671683; P1 0x4c071926db78bf 0x8c23939d723de1; P1 0xc5a07c36e4ffd0 0x2718fbd179252; P1 0xf61ee8c9f61 0x4ae1760ad0cad9; P0 0x1c365788c1b2a3 0x8386603bfccb64; P1 0xae13fff197c885 0xb7d04dda462f55; P0 0xaa007fb7fa12c4 0x71aef0eb60ecbd; P1 0x820db1dc22c58b 0x87468b7d7ad2ed; P1 0xb825e0dc19eba2 0x4d5507cf55aa54; P1 0x3c2df1df53e60c 0x682d936866b86c; P1 0x6d36ec79fb01f2 0x964e5fc5ade7f2; P1 0xe357d28350e6bd 0xaa27cdca508575; P1 0x1235a78cceb15ce 0x8e8f3edf8bdde0; P1 0xcc8351cc31541d 0x23f7488be5c34d; P0 0x6822d6ebd3432 0x89b08652dfc03b; P1 0xbec760b761cb84 0x8e514768eba276; P0 0x65e8d6d328552b 0x2b9963f37c0fdf; P1 0x1320f0c98dab93 0x93185508bb01e5; P1 0xd9bba7539b7646 0xb0d8f5efca6d98; P1 0x13ab8a38bed531a 0xafc109d2ee67fa; P0 0x9b6bb44c5f0266 0x96096af5c0ca2a; P0 0x7143b4b6fbaa3f 0x94baa06c579833; P1 0xde98ddfd89eff2 0xd37a7e5fa4f24; P0 0xe10660e067f0 0x2b5a3d1f595600; P1 0x12e9aedfbb2511 0xa90e576f42a101; P1 0x11f99b3e655f83a 0xdc943c5f44a9c; P1 0x1e99e03e269ca 0x957386daa58d4a; P1 0xe0c3ad5d1daf84 0xb7663c0bb55e0c; P0 0xa93c856182040d 0x52542541776ccd; P0 0x221a87b5d852a8 0x299ea8f956cc51; P0 0x8b731cb882d63 0x385b0a7bcd5fd4; P0 0xffad7b2a4ac54 0xa2418ac04ff2a4; P0 0x8476f08e774b56 0x7aa4e3d9890d06; P0 0x4bae8b65b7a292 0x72654d899d5f96; P1 0x83b03eb22ac0db 0x43b6b8956079f3; P1 0x2e23f59dab548b 0x139ff99b22a42d; P0 0x1f014e85bf1dd 0x9a6810cf71ecf6; P0 0x77f542c1698be4 0x5c9b0223d39e08; P0 0x2b262ba7399b68 0x3d9c0fb9738d28; P0 0x13192b92eeb03a 0x40693c771214da; P1 0x29bfd30dc179bb 0xad6a05bf9d4053; P1 0x12e9ea7aeb5646d 0x6046ac481e0c6f; P1 0x5d4660fcf057af 0x1; P0 0x0 0x1]
    [(0x21f701ae83c3, 0x3b436d3d817350, [P1 0x0 0x2; P0 0x0 0x4; P1 0x0 0x20; P1 0x0 0x800; P1 0x0 0x800000; P0 0x0 0x400000000000; P1 0x2937d6820e 0x1265209456372e; P1 0x367b43fca4124 0x72fd2a50605b6c; P0 0x4287650239ad43 0x5994ef4ef005a3; P1 0x50c130c1e74aef 0x5568703e305a91; P0 0x24b3d30dc14c1f 0x3b436d3d817350])];
  mkcert 233 ([], []) 0 [] [];
  mkcert 421 ([], []) 0 [] [];
  mkcert 0x1038119f ([(0%nat, 0x1038119f)], []) 2
    [P1 0x0 0x2; P0 0x0 0x4; P0 0x0 0x10; P0 0x0 0x100; P0 0x0 0x10000; P0 0xf 0xcb6f7af; P0 0x9f7b1ef 0x486c730; P1 0x286cb44 0x65f8ec4; P1 0x5023e30 0xd263c50; P1 0x1552435b 0xb72517b; P0 0x81411b0 0x55764c9; P0 0x1c25248 0x363c319; P0 0xb55ba8 0x78b0319; P0 0x3820f68 0xba21ed9; P0 0x8581798 0x2d3d489; P0 0x7e2f71 0xe0b3922; P1 0x18521d85 0x74a266d; P0 0x346be0e 0x42991b7; P0 0x111768f 0x58eaf00; P0 0x1e77987 0x8428e27; P1 0x869ca78 0xbafdb5a; P1 0x10d7af78 0xf2143c0; P0 0xe1d2e82 0x8c78b42; P0 0x4c09c7f 0x28f1b23; P1 0xceb910 0x9c5cca2; P1 0xbc6e1ef 0xffdfa97; P1 0x1f89673a 0xa0931c; P1 0xc6b81 0x1; P0 0x0 0x1]
    [(0x1a5, 0xca40d43, [P1 0x0 0x2; P0 0x0 0x4; P0 0x0 0x10; P1 0x0 0x200; P1 0x0 0x80000; P1 0x7e4 0x594f564; P0 0x1ebc8cc 0x8714c5c; P1 0x8ca1060 0xa66f680; P1 0xd57d355 0xd879935; P1 0x1692926d 0xe929b3f; P0 0xd17ecdc 0xd4aa0dd; P0 0xae475e1 0xde7d70a; P1 0x17d82ac1 0x50a39e9; P1 0x321db82 0x4903464; P0 0x148ae16 0x6b53166; P0 0x2c63043 0xacfc807; P0 0x73502e0 0x37f4711; P1 0x182154b 0xd93a9ad; P1 0x16bae5cf 0x1a84341; P0 0x2b5a02 0xca40d43]);
     (0xe9, 0xc9e800e, [P1 0x0 0x2; P0 0x0 0x4; P0 0x0 0x10; P0 0x0 0x100; P1 0x0 0x20000; P1 0x7e 0x46753be; P1 0x264291b 0xbb92f43; P0 0x8794e6a 0xd2edb3; P1 0x156e41 0x4e80af3; P0 0x17bf733 0x656f6fc; P0 0x27a62d6 0x635af26; P0 0x260a2a4 0xcdf11c8; P1 0x146dea24 0x2a78824; P1 0xde6cfc 0x83a1d9c; P1 0x858a1fd 0xb1304fd; P1 0xf1f7c15 0x6ea4e07; P0 0x2f2cca5 0x81834b6; P1 0x814626b 0x35aa753; P1 0x163243a 0xcc76fcc; P1 0x14232a03 0x7abca43; P0 0x3a0cea5 0xc9e800e])];
  mkcert 0x3537f9d1b9 ([(0%nat, 0x3537f9d1b9)], []) 2
    [P1 0x0 0x2; P1 0x0 0x8; P0 0x0 0x40; P1 0x0 0x2000; P0 0x0 0x4000000; P1 0x99ee 0x11a7677502; P0 0x5db323e40 0xe40b597c4; P0 0x3d12e23bc 0x1ef9c07f34; P1 0x240eed6874 0x2649be154c; P1 0x3717b0461d 0x57855c52b; P0 0x8feed1e7 0x230ec6ee4a; P1 0x2e303f11fa 0x79320431e; P1 0x227ffb6e4 0x240e522044; P1 0x30db30726f 0xf24dbd2e9; P1 0x89e68c599 0x2d0cf87b91; P1 0x4c45c8f579 0x2638d722d1; P1 0x36e716f4a3 0x2d2ab98077; P1 0x4caaaa1233 0x301a8ca4c7; P1 0x56f5f2e645 0x1348cb6885; P0 0x6fce6973e 0x54c2f6b4b; P0 0x870007e3 0x1a1440c1ee; P1 0x198f38fe59 0x25e869fb37; P1 0x3600fce8e9 0x18a8ba4241; P1 0x16da0f08a0 0x2fb0ab4d62; P0 0x2abc63b63f 0x24e030f6fd; P1 0x331a68aab5 0xf24484a45; P0 0x44ee06d65 0x2cf0a0739c; P0 0x25f2f6d251 0x26295a6987; P0 0x1b5d50ff2c 0x2366c4b265; P1 0x2f193d51b7 0x162cebc373; P1 0x127afcdd99 0x282a3dbec1; P0 0x1e502daf4e 0x2f481cb023; P1 0x54039a3fa8 0x24d6d8212a; P1 0x330083dee7 0x32ee6209d9; P1 0x617bebb07a 0x3537f9d1b8; P0 0x3537f9d1b7 0x1; P0 0x0 0x1; P0 0x0 0x1]
    [(0x1038119f, 0x3524b3dec3, [P1 0x0 0x2; P1 0x0 0x8; P0 0x0 0x40; P1 0x0 0x2000; P0 0x0 0x4000000; P0 0x4cf7 0x8d3b3ba81; P1 0x2ed991f20 0x7205acbe2; P0 0xf44b88ef 0x7be701fcd; P0 0x120776b43 0x22754a13be; P0 0x164fa1f8c9 0x3524b3dec3])];
  mkcert 0x15344d898fb7 ([(0%nat, 0x15344d898fb7)], []) 2
    [P1 0x0 0x2; P0 0x0 0x4; P1 0x0 0x20; P0 0x0 0x400; P1 0x0 0x200000; P0 0x0 0x40000000000; P0 0xc12b153c17 0x5bd43f2328f; P1 0x31b5d6bc199 0x7c85ba37c63; P1 0x5b68420f13e 0x10fc6e880740; P0 0xd9b62164477 0x12f6b75c25ef; P1 0x21eb79f2b0a8 0x10e027bbca2a; P0 0xd6e3a46fb0d 0x55d33139599; P0 0x15b60f3e65a 0xbb29df1851b; P0 0x6740839c0e9 0xcde8a4f034a; P1 0xf9f09ce724c 0xc1744557a74; P0 0x6e4f2ed1de9 0x11dbf9b43c01; P0 0xf0abc4fe5b3 0x1425f41480c; P1 0x264a23043c 0x8a1463bf63c; P1 0x7065010f790 0x750f6845430; P0 0x2863d9e5239 0x10c88b93eb41; P1 0x1a917ffc8e76 0x186e9690ca8; P1 0x384d4c3a57 0x49a2b3d0f4f; P0 0xffb642e0b2 0x19e67fc4d23; P0 0x1fa2f18893 0x13196a8854b4; P0 0x113406ce8686 0x1b4a4c99ac6; P1 0x463eec5424 0x28f57c9608c; P0 0x4f1e1b8b42 0x7079f74e262; P0 0x2549f1e2ad2 0xde200234366; P1 0x122dba1c52f6 0x122cbf08616e; P1 0x1f27fdb0d123 0x6012ef60983; P0 0x1b34c748b0b 0x1299e340ef2c; P0 0x105149428f78 0x30b118298c8; P0 0x6fcfc91f50 0x9ce633b0a10; P1 0x911ebd95cac 0xc9bb0592f0c; P1 0xefe642ed62c 0xe58dd5123ac; P1 0x136a38b2aa02 0x115b35e051b2; P1 0x1c69c5ab375f 0x64264fa999f; P1 0x3b2079cc33a 0x14b84f4fed0c; P0 0x143f2624431c 0xfc7b5829b8c; P1 0x177ca6ff914b 0x9642e68e783; P1 0x8519c80530d 0x13021686b8c7; P0 0x110a1a2edd3c 0x111bd38200cd; P1 0x1b9bb9bfa9a6 0xec4eccd48a8; P1 0x1492fc108979 0x1; P0 0x0 0x1]
    [(0x3537f9d1b9, 0x128286b2f8b1, [P1 0x0 0x2; P1 0x0 0x8; P0 0x0 0x40; P0 0x0 0x1000; P1 0x0 0x2000000; P1 0x60 0xc62ec6a1b60; P0 0x73c4892d129 0x128286b2f8b1])];
  mkcert 0x1720b72947fc8b45d9 ([(0%nat, 0x1720b72947fc8b45d9)], []) 2
    [P1 0x0 0x2; P0 0x0 0x4; P1 0x0 0x20; P1 0x0 0x800; P1 0x0 0x800000; P0 0x0 0x400000000000; P0 0xb11a58 0x169c12e34fbffef368; P1 0x2c34ceac4409f3e694 0x3a8baccb245cdd0c; P0 0x9433bd3e6b9360 0x143fac0a8a9274ec30; P0 0x11ba613d8a3a374c9a 0x12acbb968d35451876; P0 0xf143e701bb6f567dc 0x1010007574de7b00e8; P0 0xb27d48f8f640970e1 0xa95e928c521587e87; P0 0x4d8536a9e9d5b6f6f 0x5c2cd98ff3c89cb1a; P1 0x2deb93397be2ccd77 0x72f69b4de6af44069; P0 0x23b753ba4e60fdc3f 0x22cdbd7d0e858feaa; P1 0x68bf7fc5607c937e 0x161411fd71e9a795fa; P1 0x2a273aa253fdd4fbe6 0x1475f1a4d270c16c52; P0 0x1219e8b208def50511 0xe00bbe919bd2f69db; P1 0x10f4cc8e273a38523a 0x1044d784298af96d88; P1 0x16e36553dd8f5803ab 0x1f953b7153668fd8d; P1 0x56421f24f6177217 0x14e175e73d714316d3; P0 0x12da18e4995b9ca57e 0x10cbf4d5b176adb41b; P0 0xc32deba65d97d6b90 0xd9c03ad5c7eb5fdc9; P1 0x10044ce8b45972c01a 0x7666a9ebbc577f798; P0 0x25e2531f04f4c6fa4 0x64b3d92632ed8d43c; P1 0x36cf416c539acc98f 0x37e92ca0c1ff776e9; P0 0x8729b932e2467dcd 0x1378b80bc532e1bc4c; P0 0x1064b14e2588e4c223 0x1365eaf7d6a8dab7e5; P1 0x208a306f25973bf458 0xd971ff30fe5c48f1a; P0 0x7fc6657c33c9ec2a4 0x13f7b2eadda7b8dda0; P1 0x227a7496bb67c743c4 0x7a6dbc2b5c32302dc; P0 0x28815bd04cfc87690 0x15b7f238a9a71edd00; P0 0x146528e7422aad9428 0x116421ac48c2ffa218; P0 0xd13d14b56e979df60 0xbb164842827cf29e0; P1 0xbd2cbd2d598f347de 0x1645696c1d381246d2; P1 0x2ae4765a8f191651f0 0x23ee26155ccede418; P1 0x6fa3a24edf1848ba 0x835447ab38327bcd6; P1 0x5d37bcefdc7f16ac6 0x14ebed1547c21125f2; P1 0x25da06be5ebeb2f6c6 0x1236fab912e7cf25b2; P1 0x1cb0d903d9ea29c2b3 0x14dece328bc4c096cd; P1 0x25aa9bbb74ea42ce20 0xaf756f388e91a6732; P1 0xa663b1e37d5d28c91 0x34c020c86396b4f9f; P1 0xf0a1294e345372b2 0xcede7acf940ed6a0; P0 0x73a5cd91ad8c821 0x10521ec4a4d7d25b07; P0 0xb846898bce5958706 0xdf5b7b6f31873e81b; P1 0x10da29078ab53152d0 0x1489e3f01c3c54a362; P0 0x123d44c7aa305a0768 0x150d4091b1eacea25c; P0 0x13297eb15ea0be0670 0x8be6c39b4ab68ec20; P0 0x34e45a99e74513bea 0x365c3efcd15bb28a6; P1 0xff8a69a2ca5a7aac 0xa09afa99974ca3f7c; P0 0x45b490af51b301b00 0x283ff8ebdf3606110; P1 0x8c18884fded7ed3d 0x140ba2be5ad81b84b; P1 0x22bf70af0ce8dc66 0x5c6f0957274577b7c; P0 0x1716ce9235639f884 0x16c891a053f30d282c; P1 0x2ce378162047f2e564 0xc1bffccc2d387295c; P0 0x6571d23c88e00c2e7 0x153e411a5d831c2041; P0 0x13831b8151e445666a 0xad6611a7d714beea7; P0 0x5140ad421ac9c38c7 0x7ba191751fe8e2d42; P1 0x529c1a28e495a2155 0x1097b7545e2ce75ffb; P0 0xbe7738b4fb7141243 0x154e4106112ba5b64e; P1 0x274115c60323b6ac18 0x1394247034d97ba730; P1 0x2125fdd7b9ff31f100 0x9af9b028748550900; P1 0x81ced03b075314622 0xb4e40263bc980632e; P0 0x586cf50df442e1fa0 0x87e1faf27aaedada4; P1 0x63cb425ae769591b3 0x25b3ba561699f6265; P1 0x7aebc4a77d65366a 0x1720b72947fc8b45d8; P0 0x1720b72947fc8b45d7 0x1; P0 0x0 0x1; P0 0x0 0x1]
    [(0x15344d898fb7, 0x2ecdb56f00bd7d8b0, [P1 0x0 0x2; P0 0x0 0x4; P0 0x0 0x10; P0 0x0 0x100; P1 0x0 0x20000; P0 0x0 0x400000000; P1 0x1 0x8df48d6b80374ba27; P1 0x6ce9acfb1df3d3cac 0xd3dd09ead4bc29a16; P1 0xf2992bc0ca755c914 0x965d2f201bf671dd4; P0 0x3d1952d37563e2f98 0xc71033fc706ff67b8; P0 0x6b15bacced4212968 0xe3d0d96a1ced87318; P1 0x11881c3a7c8ea76f1f 0xd2b3fb3ed31c79839; P1 0xeff2bb4209dc8d7fc 0x9fd48092172f978c6; P1 0x8a1164c8c4a120692 0xdc39a85d015f98686; P0 0x83101d10792987f51 0xbc77a8082b8cccd7b; P0 0x5ffd014f0b8c4f229 0xecfcb2e9c647ce758; P0 0x97c5f375afdf53ab4 0x5d5428c7d40e2a7ac; P1 0x2f13a73725dbadc6e 0x1345f2afcc2a7b37e2; P1 0x201f4702712a0ebffd 0x1015d5ba3ce41ed893; P1 0x165fe06e0422c27bf7 0x645698bc94df72173; P0 0x1b34f71ea9e8ec3a7 0x1588a6923c3cdbfe1a; P1 0x28196baeb36c9f29f2 0x1573b8c27fe1c86d26; P0 0x13e5cfb1d32c1e7f96 0x253dac6d5f939cd7e; P0 0x3bf757afdbcca206 0x13f24f2e4e9ac14ee; P0 0x1133ed22e622d8b4 0x2ecdb56f00bd7d8b0])];
  mkcert 0x4d4ccc69f97d91fa4d43bdf ([(0%nat, 0x4d4ccc69f97d91fa4d43bdf)], []) 2
    [P1 0x0 0x2; P0 0x0 0x4; P0 0x0 0x10; P1 0x0 0x200; P1 0x0 0x80000; P0 0x0 0x4000000000; P1 0x0 0x20000000000000000000; P0 0xd3f414eddb8964c5 0x3e0030090aff00471f3d165; P1 0x6375826eb2b3716f9e57b06 0x155621b6c04eb456acf9778; P0 0x5e3aa49ef68fcef3ce0013 0xd26e33e899950d977c56b3; P0 0x23cd88ea0494a8a128be0a 0x31b0d182517ae1eb632e873; P1 0x3fe2a0cfbc56a6b7d8d05de 0x1d4488ff492c92f55ef00f0; P1 0x1629b925f7b0fcae7e1c71f 0xcd48f453d30849780528ff; P0 0x2212c764a5b366aa6a43a9 0x24b5e6f235792737469caca; P0 0x116f28d6ba352945f72657f 0x10bad9d6b793e9a1f20b8c3; P1 0x73ddbabefca859521ec2f6 0x4604527ec6a4b2f34bf42c8; P1 0x7ed7078174cec72c81a7ea3 0x126df1a124253033a779783; P0 0x464d3f6c2b7823c4ac9658 0x92411c6b88c63697988e61; P0 0x114b7ea1f8ab7c9abc6067 0x186d02429b3895ccac40a08; P1 0xf6fbe1dc26ad13994a8b8e 0x4914c5cb9c437acb997f5ce; P1 0x8a2f62536eaa728ce37c2d7 0x58092f7c0d3e74af899d3f; P0 0x644348f24d56a921ff2bc 0xd39be04dfdc1d1b58e8fbd; P0 0x243479f16c38f5162b9925 0x2a17a5565b46f32576c34e; P0 0x16ebb0bfc9021696b4d8b 0x14c7213251177dc5a7456af; P1 0xb2b82bd11d1e26bcbf5335 0x21b5880043a4fcb11296517; P1 0x1d665c2209df21f5c877768 0x31570e91ea0eb46d9ec548a; P0 0x1f7e5191ca35462e82322c1 0x3456701b5903d9232e91945; P1 0x46df68dde918f7cdee873cd 0x612f867b0a1afbf33ffa9f; P0 0x7a2fdb4cb7a9ebdab4d91 0x13ca390a86dc277566ff272; P0 0x5110702ef3edc38c41ed78 0x264b4cd77aa8ae8d5ef373c; P1 0x25f10a330e74476e93e417f 0xa97c98b218d228ec66597f; P1 0x2e73a41a07cff83bd29b40 0x3a05f1f415f8197f9be1d42; P1 0x571b73d6aa0a11ea63bb230 0x3c4dc630413e82cacec238; P1 0x5e16d897089a1371f15f4 0x3f6da053798d3d5ebe7cf4; P1 0x68177324bd368d13f1980 0x43c2b940be7eff2df82daa0; P1 0x76cc0916f6ee1208504fbd1 0x4bcce4b5f0f09cd97f541f1; P0 0x4a546fa5470b48d1b62b4fd 0x44d418e3d16b72e06104d7e; P0 0x3d4911ae4413e0919fcbf2f 0x44152596ebf318f5d0eab13; P1 0x77edba7f44123ee7ce1d46c 0x37b91562797d05feafd8be; P0 0x282b38d5b92f72a1ceb38 0x31ecb24994d17e20f7e5f3c; P1 0x407cf4b99398089a16f50b2 0x23ddd2fc08e9f6eb202db12; P1 0x2148913becce8c37f1db3a4 0x492c26743964f28f86952ac; P1 0x8a87d8961e0bd6fbfd8287f 0x2d9e03a39cfc5a183c8bb7f; P1 0x35d727198824930c9e189ab 0x162a411b196685b8fb83d0d; P1 0xcb6145c52e0bad5fb0351b 0xa18068410e0dca7166e9cd; P0 0x1516c2e86cdba3675ea99f 0xd2156099cc40d0eea967a8; P1 0x475eab0658418269d25a6b 0x4cf2c803fb8929ab5e1d04b; P1 0x993258e32ecdf056b95aae1 0x3ef203decc592beda8a36f3; P0 0x3341a3c1266dd9ecb2ead8d 0x3cfa9d4451d13d9595abdd6; P0 0x301a9b6eb9c49e98cc6555d 0x4c59a2a14afcce037c8e3e1; P1 0x96d2eb8885d5bdbdc16dea4 0x1ae229fa83d0ef3a3c5daa6; P0 0x9597c037214ddc06af7bad 0x2271e37f2d5b0c91e9988f1; P0 0xf59404f42fa2f862bb3cfb 0x86e05e64acb1fc014efb3c; P0 0xeb569f06d88edde6de971 0x11869a9d33e88bbbaff51a1; P1 0x7f2720637d9a13d22c061d 0x19d97b1960849587bc48c3f; P1 0x1149d7af4cbc2ac7fa8bbef 0x6054aa52121f36596224d1; P1 0xf017e7a4018a69a4075b5 0x2302808c3327d696773a597; P1 0x1fb660076726577fbb26c46 0x1a755a7df6ae49884338b28; P1 0x121ccbf23dbbc8708521328 0x1311b26c22a5823542004a8; P1 0x96887e1dc8ed7f74509b6c 0x4ab6d65ce6b03c408b2156c; P0 0x48370509e24a18e93788e1a 0x16e2ca0deb1c164f7af1eea; P1 0xd8d2d0a2794183e158e988 0x10e96e2130b270058699650; P0 0x3b33367c42c6b555881dd6 0x3724d157a483577f8378996; P0 0x275692bb6ac4cf51613498d 0x24c995081de16541ee15311; P1 0x2303be404ab11c9e1c21734 0x2f5567c04f0d51e4b30dbf6; P0 0x1cfbee392c8825daba46c15 0x4c3afaf22aa10c3feb7d319; P0 0x4b2cf36b3a4499b4bbea082 0x24084580e0e9fd0fa1c7133; P1 0x219787b8201f3cd7c90ccc5 0x3f79e1265f4a9979f459b7; P1 0x683faeaa597617376cd3d 0x3c94d355f9340d04443aa7f; P0 0x2f7a894a13277b7fa4778dd 0x32a6db5668dde83ffe5b37e; P1 0x42616393117a39d9cbc60d8 0xc14171346d23a9bd40bfe0; P0 0x1e3273876b707981ffb932 0x1dab4d102c1fd2bacf72b72; P1 0x16c66df6bdf7a1f401ee575 0x4c9f184344b8ae42807259d; P0 0x4bf2ea729ccb3fc97f24983 0x15a5785e44b81f524a1882c; P0 0x60fc811d907897f3d5955e 0xcc7fdcc5d639ef657500ae; P0 0x21d026dbc40ea5a59b196b 0x1a5ff10ca0411c25179a90f; P0 0x8ffc380ec90f554dfcf64f 0x253877feaf2fd68ec480b10; P1 0x23d81257232c520ded74210 0x273b826f353bfd4c3f88610; P1 0x27d2ddec7970348de043d7a 0x7de0e0ba6d9b15984d6ba; P1 0x199f89517c00a56cc3f5 0x281f933a9a088e88a0ad4dd; P0 0x14d390824975ceecfd3d4db 0x1d1ab82dd0e17492951e304; P1 0x15ea91f05d452e418373f5d 0x438a84c677b508092f18f1d; P1 0x76074776ca077e9b52cf532 0xbed3b5daa215a46d22b604; P1 0x3ae2c0234c9b23909de202 0x40068ed35639392b6ad0a62; P1 0x6a0fc3773348962dc19fd88 0x359cd06275369c3f50d6990; P0 0x252f0c3ec4e9161b5e69061 0x2cf1895c01068eb38b55181; P1 0x344305475c4047d10e754b8 0x35229cf5b0e65de825091ba; P1 0x490c96871e27fab271af0f4 0x282262705dd91967e5855bc; P1 0x29acf67992458d693f7c29d 0x14a9f146efa477e7f3c0e5d; P1 0xb0c371f3bf24cc6e26168f 0x1; P0 0x0 0x1]
    [(0x1720b72947fc8b45d9, 0x26b85938dfa0df5b5c921b3, [P1 0x0 0x2; P1 0x0 0x8; P0 0x0 0x40; P1 0x0 0x2000; P0 0x0 0x4000000; P1 0x0 0x20000000000000; P0 0xd3f4 0x651d25bb4ff8fbf85e2274; P1 0x1088734988acde3b3c0383 0x20eeb09a168e49fe113c903; P1 0x1c0f82f59f77338509f4c9e 0x1b9ad276317466bd84b4470; P1 0x13b74c1d4e58546dc4c1993 0x4b9df73875fcdc88dec39f3; P1 0x93f1068fbe8ecc0ac1de6ee 0x2fdbeea8cda8dfa9eef3600; P0 0x1da198c0278b7d2ef1e7702 0xd81f8ba3b3b9db8c4df42; P1 0x4b884d03e75e084e2f4f 0x2c197cd583ed720f519af37; P0 0x1928a3e3f0ee47f93151915 0x3c5ec102b52c196c11d8d86; P0 0x2f25ee2ba6d0bf9ccf556d9 0xdc5744db4e1ae9662a381d; P0 0x27412ebf1a3964bf556b54 0x1ab6f09e1c01ef1851bd91d; P0 0x93b838b1119e4ecf4ae460 0x17e2bca41dbcada31e11da9; P0 0x76173ffd6a72b2f0ceb2e9 0x3ca36cb4d5802c404442d9a; P1 0x5f22dc4329c4f5972d5a026 0x183a58100fd944ce867be2e; P1 0xf2ff6dc54b9ade9c47d1e7 0x2aa65bc1ae7be426d5c8b4f; P1 0x2f10492f19e984dd55a37ac 0x2be9821cea171767652a1ee; P0 0x18f2031cf883447dac61a8f 0x26b85938dfa0df5b5c921b3])];
  mkcert 0x39f9994f7b1e2d7bb9f2ce75 ([(23%nat, 0x4)], [(0%nat, 0x60666b084e1d284460d318b)]) 2
    [P1 0x0 0x2; P1 0x0 0x8; P1 0x0 0x80; P0 0x0 0x4000; P0 0x0 0x10000000; P1 0x0 0x200000000000000; P1 0x235358 0x2fa0b2a2acf6d3fc219a18c8; P1 0x4e4122a69f707ecf60ab4e77 0x832c0512a18168931f9a1d; P1 0x25191ac4af847a9d34a5b 0x2156e6ba8c456a4e4b2d98fb; P1 0x2658440d7fa8cca6a100f68a 0x17c727ce8a0b7055470a5320; P1 0x138130a837093878143718e1 0x38f6785db61efe3c02161b2b; P0 0x37f7dda3b949ac9a77881c1c 0x1112c5a17dc9734663fab86d; P0 0x5072b4bcd7882f74a07eae1 0x735f48127d4b5e2316f7794; P1 0x1cb3068dfed9b1244491aa7 0x1be56f73d2c56e583aac4acd; P1 0x1ad89697b40a2ad1ada40aa3 0xc72092183ca7df1c50849d3; P0 0x2abf1ad6c1402348a6cae61 0x26882302e8794b66c7ca4394; P0 0x199bfa57317adb0f89a837b4 0x29af8988f54def2dcc8a804c; P1 0x3bf2491a5c0dee8137629cfd 0x2d1728f694b193657de8d77f; P1 0x46238d1194ee1acee61a6a14 0x20f7b6b0e5905fe97cd68ede; P0 0x12bf43d83fc497e3e968f3f3 0x286ed20d0f3e2717e2e80075; P0 0x1c32dd35ada180905f1829ca 0x2ceb7851c874e7c05709027; P1 0x459be32bb0c8c36327e288 0x2e6d8b601ca5b8f91c83d3ba; P0 0x252e4209713d7c228e02af3c 0x14979349fc56e2f5fc83c4b8; P1 0xea0d024c5f20382ee9788b7 0x205fe2c461954fccdfb1cadd; P0 0x121424c493e7a230622c6039 0x1589d68fb94fc22371c3aabc; P0 0x80075935bf2e0f9c9b251dc 0x18dbfec9c21696cb79efc884; P1 0x1551b11598da40b0af2ca568 0x229b1a194ed208f163bbf98; P1 0x29502d475ba8e8f5c7e3fc 0x72e561225bd745630e05a54; P1 0x1c7680e156b2d6573f32af3 0x2094a0f932d95b8686562c11; P1 0x249e7941a77e55c6e972f486 0x1df36405964a0659af0a1d04; P0 0xf79168c20260ea52f89401f 0x39b8c5fa33db32208ff8a7e5; P1 0x72f0764270097f9226bd70a5 0x170cbfe6dbbc5f44165e449; P1 0x12540fb31067d784079f76 0x10e905235724486580ff64b4; P1 0x9dd63e97851b204768e65b5 0x1134e0d09e999687d5641b67; P1 0xa36abdec6f6eabd498d8235 0x1d61e5a7ac7369bac3409ea9; P0 0xee42f9f794752c27ed4e91c 0x414820368bae784979f9c5; P1 0x9304ccfef1001d566fc1 0x14b6ca0e624170a4bff541fd; P1 0xecd4ab0f4109395d3f3d7f1 0x1f2f78eb2c47e9cb698148ed; P0 0x10c667946a27675c70f3ae64 0x316e8ae86e14836a2964ffb5; P0 0x2a25c54cb7397d087e1d655b 0x2c9be84e7aa85f85e0cd8962; P0 0x225313f449523c90dd054dea 0x1b7a97694fe93b75c75b2192; P1 0x1a0c7bb792d67641aa992617 0x10b953c3c70f6787e7030405; P1 0x9a60d62f42fba6acb64a93f 0x2ba60b5855abdeeac29c4467; P1 0x41b994e372f0582aa7ab1464 0x1c3d1a9723edaecb417cf92e; P1 0x1b825c376f6987ec27fe93b7 0x2f1833a6553ac28e620043e5; P0 0x26418dd69c210566d75b2c6f 0x26ff3e85b6920d1a63a70a1e; P0 0x1a3b420b4a180bd2a1e46163 0x172d981b0ae88d8a09362f45; P0 0x944385ad477374f7704f7eb 0x7478190eb4113533fec0032; P1 0x1d3f65f49ceb14442c87960 0x242b119f3f04f7e0fc555aa8; P0 0x16905b15ba39c0e313c89085 0x22f57e4b295ba64ce9fb7b77; P1 0x2a29199e97b8f0e082e624f7 0x2beae5ee2096c500745f7bbf; P1 0x428993bb581243bf77de39ec 0x4b2d1aca945023b6ee1d026; P0 0x617b21b168df9bbc8f63d2 0x3934a5b668731d1685aa2aaa; P1 0x70e49e63ac151918bdfaf32d 0x1785d58ac5c4238f80df1837; P0 0x98b4cf01e48bac57fb977fe 0x353fefe93d7396f597ae20bb; P1 0x61d1bcc476e6360477757b69 0x1d954ddcac607a1a8c84ac35; P1 0x1e30f1676632805a47ae4a76 0xf74dfcaecc3358b58df8a04; P1 0x83ddc5931b30dccb2207ae5 0xa54e3c7287ac66ac58a2f77; P1 0x3aeae2b9c9627101854780a 0x1648fb865fb46d0aeb8aea10; P0 0x890f23003e3ecd0ea098b0b 0x26e2545ad6ba06c2879bdaf9; P1 0x3428d492be6b5c21efbaeef7 0x2d460ee675ff3ef4a46e137f; P1 0x46b5bfc243e338e1599a8810 0x2dcb78bddd5be79e790322b2; P1 0x4858e30fa47a30138a32370a 0x2946e50df5a039ed5f0e53f6; P0 0x1d63660c5760c70a2fc83141 0x4881546dab28c6d67de9faf; P1 0xb55aaa0ced8b26ca7692cd 0x35d89d13fc271cea7521a591; P1 0x6405cf0fca30cc6fbbc5a006 0xea870cbf616bb2bd5298184; P1 0x7697a9af4dc0b36b4a95f89 0x715a096129695d69ed1b083; P0 0xdd9f8fd473d46f246bee6e 0x13e87c36922a425e026de6c3; P0 0x6d61784967767b42618a17c 0x2b9851d4631a5b70dfa562dd; P1 0x41904644cbb07493c5b952ba 0x81f52b16020e0f01e076a90; P1 0x246a1699e617c66eb62cd6f 0x169ff035332e48be0111ec45; P1 0x11a89c7ae0770501192cc296 0x1d63f9a86bac2a48ac9cf2a4; P1 0x1dcc95e57079b96c9a8fd4fe 0x1877c924b6cff91ab478360a; P1 0x14a72af22062f980ab4c075d 0x18f0b926b9b9116be6fa3d47; P0 0xabaa6a19c5087289b2fec51 0x273f0a165d2fb2a2e6b4baac; P0 0x1a915b31396ac68b782aa0e4 0x28315e215ea9f0270583635c; P1 0x37bacdb467a3125ea1b61c15 0x30b82568225023c7b1c2d687; P0 0x28f0f9a309dbef7175aba7bf 0x328cad95188d410504649ee6; P1 0x582674e5534b39604aa22c5e 0x5a71245b4de4f66f1f38252; P1 0x11a2e9380f45acf2d625f3f 0x31e7f401fef4a561a4de8abd; P0 0x2af5cd8a9fd61287c47b6c6c 0x9c8e2641ad9ee5e6b3cda2d; P0 0x1a6c2c0e61973126f1ccb40 0x2eb34427558ea53546d247a9; P1 0x4b3c82dd10a6410d4715674f 0xd453479eb16c9aaad0e9207; P1 0x6133937acf04a7bc7cb262c 0xdcdf49fae13dddfd9f81e46; P1 0x692f3757521e5053d46e94e 0x2b2d0dc834cb7eb2b38791a2; P0 0x202797c4e4e4a554688978ef 0x2a80e11188416db08a25349; P0 0x1f29242d8d7e2d1dc9d2b7 0x1994203148c933749eb1db2e; P1 0x169213b92fd9b6812dc35fbc 0x3829843b6df71d8ab57b6f9c; P1 0x6ccfe4254fcb8fe8074992ce 0x2c0554a7165e9e87e3a371fa; P1 0x42d9c3b5a39a530970a688f7 0xd61a76434748843ef63f565; P0 0x316b0a6b17b405debd00d37 0x165a9941f26446c3dfa22db6; P1 0x113d05170d5bc028327cf0c0 0xd4466cb96559ff3faae7308; P0 0x3093e75cc4492bca063f91c 0x39f9994f7b1e2d7bb9f2ce74; P0 0x39f9994f7b1e2d7bb9f2ce73 0x1]
    [(0x4d4ccc69f97d91fa4d43bdf, 0x1000, [P1 0x0 0x2; P1 0x0 0x8; P0 0x0 0x40; P0 0x0 0x1000])];
  mkcert 0xa8c55f664384d6fe203ca16a45d7238cad2d61237ce2fa5933 ([(0%nat, 0xa8c55f664384d6fe203ca16a45d7238cad2d61237ce2fa5933)], []) 2
    [P1 0x0 0x2; P0 0x0 0x4; P1 0x0 0x20; P0 0x0 0x400; P1 0x0 0x200000; P0 0x0 0x40000000000; P0 0x0 0x1000000000000000000000; P0 0x0 0x1000000000000000000000000000000000000000000; P1 0x308a05a320e270f98cb10bde6aade8c78ed 0x2d55de81b8dc4d4cb6ba443e8303d787ce0e4452db828783c9; P1 0x185b28e1dbf0d7ad8686fe489f4a9b60db763a348b32bc09eb 0x2e0328bbc9e046998285ed675bdd7ce40752af75f2b43fad1; P0 0xc8b5f9eb54c475bbcc0399316ef5ced3f57dfd774f3fffe 0x704ae6c5f91d6d6082ed0f7e72deef78c607ee868a1a7b9107; P0 0x4ab6e371d9b56c5a6a6e4900c1558e12196b9b761790fe699e 0x64a582e3d3a2b5d54f4a7e9096a98c22388b385853252ff5b7; P0 0x3c05414d67f518c78c84854113b0add29c8f9221c23023cc7f 0x58ded05de4eecedebb9e531caebc530bdb8216c63f2fc9e484; P1 0x5d97f62aa680cb57c042073d43a6e8b461f1195fb614d67c0c 0x4f70f0443bcd726d1a42f8331e5122b076ccfd08e5c2f3e5bc; P0 0x2564ad43f4a45f87c83a247af5d4ae8793555f37cb2d1bcb59 0x819016b81923455354420ea1e0dfd8f7a7022c51f913ec6e55; P1 0xc6ed3eec9db472484e0e8324b42d904e0f28b74811d3a4d244 0x65e85bb44dae6c84821584a9cb4117fbf8a5dfd8859f32c8e6; P0 0x3d88ba13f696fda56cde9b03567595ac11d65611d8f9d14ee7 0xa63c7f8893e1d7b3b7081924904d1aa60d4401769646c9279f; P1 0x1477abccbab9a0e271ab6af954d1e748794f5c1889e1885879d 0x64134cbc0821709e1e94ed9805ef5e584c26571aec0b8e103b; P0 0x3b575d0ba999d1d238e7d2876b4ae93897044381131e4f4b87 0x26e6aa4ea446087c0d768724614be5110198366c29899772b4; P1 0x11eedd68484a243e92d232fc506bcdfe0500486f41560ad277 0x88f0cbc44b2d64406978464673f9c855b52f617419d9f0506b; P1 0xde3a1919b4637e3786e893eb66adfd5706398927fd16867940 0xa869396032a6b4549bcd06745ec115b747fa4c8076a54b1b2; P1 0x1501a8b54732ef45154e53fcc23ed7122ed5be7635193ea70 0x9c58fa45e6b058a7e750bfd68968270547121e700181f69b38; P1 0x121ad63d4a0edc105dbe544a8aa51196371e2e888467b4823ae 0xa6828b773db01af25f7f90a736343de7ae95938bb923c71ed6; P1 0x1488ef16f5bd773329c7e74810d00950596047c9185678415b7 0x4bc23328b1b3dab5feb9426a9054759a954aba6ad9a342c353; P0 0x2201bee687cbcb761bb9718bf07bd718d0f61dfbdf32b2e1b1 0x2b64c94bea9eccf426cf8e102ce70d1fd72dd53c190ae00da6; P1 0x16507d7c120391eb072a5785c4c399e3570d04b93c2a97e7aa 0x1a4c2489af4fee51cc03051a325f88bbe32358862a1aa34e6a; P1 0x831f7d20b65ee9b1365927ed3b85195bdd766666c5357e06b 0x5ad8c522278479a661d4076e8da5c6c8f9d27b30732ffc9f77; P0 0x30e6c08f1fae6012a3b5343129cec7ef4f5e94b9db7620218f 0x94c494be4c1ae0bccbca4ad916033cde8518eec6b34fe5a2d4; P0 0x8322b765b0e3409ae8320fe5f6ca2cc408023bbbdfc85355a7 0x6722459a172d83133921bc688f3c863e25142c6dd69a61e04b; P1 0x7e0c35115cb830047ce4269a28438148b696fe60311aae9b67 0x33a7e7183b6ccc77348581ceea149182c1b08fbaac3d4ce76d; P1 0x1f9ee69b44b82c24cbce449509f11db518b6c3eeea0437fc04 0x55b97a0088adff3dda10165b07fc127403e0ba1a8a662f3006; P0 0x2b8ada6477a381098ae54cfdc65022e4d770fe945d016f1234 0x559de306c316aed28a8925f328c24a10dd44c15baeddf98bc8; P0 0x2b6ed7da226e3f1e386dd9b82181ece946582f0ea0b10bb94c 0x26cb2414214c45543c51b47b3f5716d324ec24d7102269761c; P1 0x11d585e012228506146c2841870cf0eb007dc70a76c489fd15 0x871288cbbfbff9b0b8b657c2e5d586206fa2f65f4c41efedf1; P0 0x6c1a389e5eb2e35ec01f109b6b3606447da84a01c1d761255d 0x998f6aed5455ece373ba9f3a2a13cc80fa6404376541fc565a; P0 0x8bb8696a958d96f7abb34483f1d848a1dc6c2d7f48c58304db 0x625e73f1ceaef2cda009e26b09baf85177bd2e6c1dd8a87d03; P0 0x3955b5c8f84d1b6af0a398b20e66a3f485bc604bad86680e0b 0x73c9e4fd521df4b2205535429def6aad79a2fec8e400a14ed8; P0 0x4f7067660a4fe4c3ae9d7efd0708e0efd7ad503aebaf5cebf8 0x1817607ac2f7278b840684c43de932731e52782c49a63c1bd8; P1 0x6e0bb59698c101ce1564a7bd1c725fbd028dac3e402535ef3 0x28a4c8746eb147d8838ab4a8d7bbdd78cabcc0e5a5aea22717; P1 0x1393641ea14b958d550d6f1ab36153942439258c4210f71a3c 0x3ec0b6334bbeacd76966979cf268a9f583f86d3265a636f22e; P1 0x2eaa6ddfccd038ab616a4bf0665cf9ecedcec98c624ebf75ab 0x252a2e5ccec349a0cd00a42a54141ad290adff4ab151fb1c77; P0 0x82f19fd724d775f8c482f52719c166147a711e62bcdae8a77 0x6d6b65df2083b42bf3407525664a4f98f5b83a85234654a9c; P0 0x46f0aaec68d3975bd01b596dc7664c9258a553de1744f867 0x141f2d862054b52b94e4548d50a8baad87c946eb743527438b; P0 0x26626b765ca359f98078e391d78550d5fbcf6bfdfc959491b 0x9f3f3b23dda7580154e5a8bb23d067607ff6021b90d29a1a18; P0 0x9642ad5f48d33a813b2d83823fd5ceaf88ad5d76594c13257f 0x81570dae4420eaa7f61835e257d092662534d943053ba942f3; P1 0xc63e4184cacbb40e1cc721cde44198da85f4a7ad319845620f 0x5590a55889aa878360d693c0eddef731906ade491e7b20a555; P0 0x2b6169c08f72dd4da4aefa09f2135259dffa66a0dd27aed78d 0x5b5430efa522507da5e5f6b6e2b87ea215d9fe3c5c38fb822; P0 0x316bf9dc1830655c0fd6eedd39a28c9f4dbf75cc690519d1 0x4fc8ac1c6856d11bad88923230058f81db3dbf47499c5516e1; P1 0x4b6ee57e5db857b4df31ab2a366b5ef64c71a4edba62c1510b 0x36baf57a7a2b03f5a85ee1f8d4980b3f0c9b444fd91a7ceb51; P1 0x237f27cd1d361bc6096f645d9eff1818420a673755a0b337ac 0x651c6459158ef2ba572952c15c8e614df4f7afa7befd84bbfe; P0 0x3c935f0221e3cf835bdb10784b986267a7332a757b82f34f03 0x903ef4968dc0c2cb795e54fea298443290c14f5d7cf81e476b; P1 0xf691c7f3e34cfd410d6fb421580ee9466b081b255f53ad71c1 0x2cebddaf0a8ef2a0aee89411d587db11a7756c4ed9d16d4aff; P0 0xbf4e3fb29aeed2629b3ee6bd6d59be584f6a148cb890876cf 0xa6b6fc92fd4fc5ab017809a2643a39a1cc383c3d04efac7c4; P1 0x1495e0706fd19ec7591c84a8f710a1b4c34e78c3f33e9dc03 0x1e4258677243dd79135457069d8d5e1cd73faff1194762bc87; P1 0xad9b432724adfc9abb0c6bcc35651c290992500e08034ebd8 0x78423b8f1ba7aaa376a951c5d3b2b93d2d269fec3c96ec0a5a; P0 0x55b0e779c8f22306abb4398cac76ba306b7b48f377976c68db 0x2f26450fb78defae8a4ceb24118f3cb2f03707dbf8f7702103; P1 0x1a582250d8f50990fc1231fa30f96924997e2e61db6b382f07 0x30529cf4999bd0bb19226e9533ce940d7b5fa07f7e6262bead; P1 0x1babefde41d7d2b5ede80f96c46a95f074bfd1b19c9e87c1f0 0x526d1daf5ea75160b5e3940551a50fcba09343f163f11a6f02; P1 0x508330e74f8398f9a6efeeeded7b2c0e81b6537c859c34c175 0x254baf4b8fbb8dae4a9759dad9c2da20c26d81baaa550f40b9; P1 0x107bc420ec165a84bf95125bc0e90e10afca00c7ee799dba8f 0x9ebc87fd9f9c7f65b0aa88c413a2f21ac770072d66822829e5; P1 0x12a98d92c4366b14c2a31407a577d9d8e515a671c92399c1cb5 0x3561cde1600f9a0ca8570d02584073c897bc9c290ad1ffa8a3; P1 0x21c4f3eebf798b1576470393f078d51a20b0b0c6b3cda201a8 0x546f177aaf13db1d1396a8f03a3b9ca928750af373dbb6f31a; P1 0x547b81151a470811f1283b9e6db86254b86b08dee866639132 0xbf3615731d907a580ad8502d8497bd5592857568b25806e52; P0 0xd8a2a0d8a1c056b0eb7be48bf837d9ed172fbe28adad7b6d 0x67457294dc649a44ad110a37d760a1f2480af0ccb589a0168d; P0 0x3f311f87a56a6b098f32bad1ea767bbc730ae0adfa5e5f245b 0x2e3baaf1f73f1edefe39c00704830fd17fa4156fdb64c6a888; P0 0xcaa42708032223e809514015480c27cbbdd5a92f1116573fc 0x17daa771d1d7a0a70e105f36ac9f6c4b0c4ea2d1e8e8b2110c; P1 0x6be3b1a6fb3e51883f4221380894bfb03e008fabba0e687da 0x484efe5057187fe7434dfbb11be722db3ef27d020a999956b2; P0 0x1efae2c4d38fe9eb8774acb112a3dd93a054f419d290104e97 0x3347a2957359aade384f3d0bdc82189155ba0c0ee71617ecaf; P0 0xf94bc48dfaf3a148aca7332af528ed42efbcae5968f888d20 0x6461a5393702acbc1acba35c734a49acf3ddd4de6753c0e241; P0 0x3bb46b07dc4ca27ede751249a7c2f21f8a54340796b4cd2bf7 0xa124a86d0cec1d243ee4a47e964705cf05f8e7c6a5f918334c; P0 0x99dc32c2a2bfa61cebd71285ba1293980752216dfbae6ae413 0x9901bd0778262141ac9396cf1b0770de03df439955176353c7; P0 0x8ab70e532cd0263da340cc7ef70edf1f3a77a9ad1b43ca2c45 0x5105fd6797c645f3ef3296f9d84e7790977cd1f9cdb947d5f2; P0 0x26e5caece557fda474329822740ae2f6194827c6529af99c32 0x3a5858c95cded1fc35d48506ae878d5ab7ceeae4bfcf2d18ce; P0 0x142b94d345d1a13adf82e6a7a235f306f2548a5fcc3b2cd6a6 0x5eecb9152e63671b7606b94c2ce0e80956e736c9805428ccb2; P1 0x6ac7ba20faec6015491fc84ce5efa4f1cfbe4a5dcba09fdae8 0x8179ed1b9dbd5ebef8dc3b01103f9efa0357a5cf85ad151350; P1 0xc6a9369310f7913cdc638d83be57b890da8846e96522eed7fd 0x8d9c15993b617e37527035b8b1bd9d405868990829536bf599; P1 0xeda3a841b0e8e0ec190a95654ac1cfc4b8bd211d63d5984242 0x793f8e198fb75ad329afd4e64dad80fafde54e24486a3645bc; P1 0xae36cde5418d0b7560ed43b27e63a13d487c5b341cd07bbc43 0xa14e21538716820e97caadfa2312ed6b1a3700994cd015f7c7; P0 0x9a2b6f1116953a8bd5e20a2dabbde55cae562418890df6b553 0x25fcee06b13a4fe73566331476de98c25686b98b511039a228; P0 0x88cf25d3c5ee2aaa30a808a71e63697dd26660d8048c72f99 0x16bcc234a7be1c818056f1067afd2f40e91ee4210d4fe1f9c5; P1 0x62061650e933882f1aab8bab3f2639bc517de52b0ef87bcef 0x39a19487bbf7ac8a75e7d289a6ee20519ce7ede2a1c3d5e895; P0 0x13adfcceae1202396594a3605add8913046361ef7e9ed5baa4 0x8cd804cf0b16de37922f75350155c2b139ea92d81adaa1340d; P1 0xeb1363e65718e4a6fe681469818fcf28d03acdd74afdd79072 0x983759d0e03f551248cf3639408842e0ffafb434291761289c; P0 0x89490989dc5f56f25ac8df85fe01f84e83d7b98945659f7069 0x3455164fbf197993a020beeb54971b7ec07c93b62faf473925; P0 0x103a287255788744e36aecd0fe12c800cb08e6ec692351fee5 0x50ddef82b76fcd97e638e19e5b8b84cc9dac85be48b4b21aba; P0 0x26bf5f12f6f989d54eb6bd21f8afc55d33c0e0ee10086a9fc4 0x792fdf855a6f39b8d8755b177403d839f1513f89e4f1415718; P0 0x5704e01b3ad394d8a1293eb91c5872ac4eb50aa90bf2bddb08 0x4432a25ac3abbf8abb3855f28ed4d9715645fb3bfe3508e7a8; P1 0x371d898b0fd16e4e75463de59349c50ff77e86acba8720cf2a 0x5d25a66e3e776695d8bbf5aa7d54300cd23c4a5dcd01ae5d22; P0 0x3368bf88e2a824d8311c1c39fbf44e62f7b7150e792b7268fe 0x2e2ce6a8b5c9fa8dfe9db9df43997a0e3524a9aa3fcdc27fea; P1 0x1944592e4a318d452f883db36268bce8e73f3179b2c8cf898b 0x31652efd4c0cc8deb8afce4024bb715a1836dc4ac2953c4a17; P1 0x1ce9e35b33918196c27945c529409a8008681c34f49411212c 0x6ab0b6e61bc0e24266367857b3ce1f73ce4e6145147b88b45e; P0 0x437202684ebfab7feee5915947b851a66303641e3858308971 0x6e0cf1f5a39bdab47dcc18575afa93776729fce6a80b26a801; P1 0x8f857ce82a0a3333f04b2c9c5e3940c2f0abfa28169ee8aa66 0x7bf25be574bbdd222da01ea78c154dd4fdba5a605fc9e737b0; P0 0x5b070538f46d5efc65d0e6514c3e0ed37fc9cbb85776979263 0x1f1210bf69082d3e494a4f92109dd622b27ea3090c3ef88447; P1 0xb70abb9c20220a14253541e4b9ef5491dcf2cd4f6fd3b732d 0x10b6b77113eb4a57d8104782395c2164aa55af682f91fe006b; P0 0x1a7bae5b759f357d171b3442895911bed435ad180615eafd3 0x5e2eefe6c688e1b74486e5ddbcc07b53eb320ac076bf48cab0; P0 0x348f3552e321963cec51dcaa16f9e5df012dca496e176509af 0x159bdd558a382c39278bc43ca840a455b2bf3ffd5887157423; P1 0x5888fa65d058382283cce14e32fefb0fabf1a258922f7f2dd 0x95c461dcdf02568bdeea6da51fc2f8ce084a8544a1e835428b; P0 0x84e7327a7a009eeeda0fcd5c398e72d3ec811d7d1da492f211 0x3feebd8a036675a615762b2effa18e0e6cda13def848d1d516; P0 0x1837ed841ba8a7573677a8439ba3645aeefabac0776ee687f1 0x3352476f85d7000fe94d1c65a70ce74188d1e13c413ebfbfe1; P0 0xf9b34cef222645837c359a56fe8c00b75661d7affa62aac38 0x5a89f64b03fceaf190728687a4b7ab535ea8c8f24a4e7fbc99; P1 0x61241b865dad9fa76a2e9152df1aa441fcfd694963dbbb0403 0x1fd2230e9d3a1046db14d6234cd1f9facffcd6675271e94f49; P0 0x5ffe8dc37841d1420893f6be1a90b52a858db39e7a02b6ef3 0xa0c2f797a91e301b070d778707aedbce85f7508c7efbe88d68; P1 0x13243bc7cf7b5e920f840f0f2103f2e35c7bd5fb500ed4e562f 0x21c7c78911974ba79eecfecd886ca4423591ff21cbeabff223; P1 0xd85cbbaa7ed615dfaf07682378304ad2eb4010de25d615cfa 0x9da8e2f16d98253e10190a22f216880f7ff8872d596ea3f1c4; P1 0x1268f5795c6b61159603b402556ea7b0fdf16b6fc5a0e2c48d3 0x846b32c5bc75adf381bfdcefec01a3bc554c0cfa78cba35f17; P0 0x67e5846ef2cdab15691f9c7388a4f8ef58b3cccb0cf1c09a55 0xaaed76705821689406b5bd840ab0be97a9cf9207ed493c822; P1 0x15a3936fdd6a41fc517ea4ef6085ff786a51a71978e7f420d 0x2d300538e81cff9dff76b13c3c5ce3eab9c12c9ce1eaff9b71; P0 0xc1947706bd48059c68a4fb31d0a37f375afff926fd396a05e 0x6b61439f17fa7f3e28bd31e2000e51fbf740fe0cf980f16727; P1 0x88a3e4746e0ed92f8a174171c1692e26ff9eb2548b1f7f0b13 0x6398b752666550055e0cb59659c1dfb9c1ab63239aba460019; P1 0x758cabc562fb8332c346fa1624e68b41717dce1b394494e346 0x3ea2a5eaabd8b511ab450be14ec342bc65a7881786984f67f0; P1 0x2e7dc1fdea5c81e5ff16235ebcdb247e1f6cfb1f2af17384d4 0x93c647210dfa41ac08eebae0e0fd952cde8e726a5a7e6cd7c4; P0 0x8163e34fd42b9fac183d80913abef0ba6c95c5ddb8c83dc055 0x1f04d1c8bb4ff845bbf3a068ad083353ba581116c97a0df021; P0 0x5b3765b421fa2063618ba92421bcc388fde342bb9c1af289b 0x9ac21f8eca0b48e93694ed8ae2845b144460a01c21c036ea60; P1 0x11bd16e5745242e2f6a1ac4debe62ce6e31e25f5073925b432c 0x413c4ea50a5a13973ebf4e057816de80fdd1696f8b1aa69a3c; P0 0x193738c3d76616a09690b9545c09eaabc545bf06c356e77aaf 0x73bbd326171fe9365fd415a63996f0e7b09191f4a77c11f633; P0 0x4f5d1a5827863be033f8e3f3bcdb62f6bc5f3834a8b447ed0a 0x5c904d056232095d778bf4cc167191b9676b35f5accc0b5b2b; P0 0x32c46896cb230250eeaad172d404b84ff1556f88493ea7718d 0x5f4cfaebd8742dde71079b052ccbeeebf4a6b403266ea1f522; P1 0x6ba0b6d1c264fddb8859aad53460dc1e400a50c82b7105d915 0x32ee38e565960a34cd5a689f5422bde0a9d18bc4f5d9d7a4d9; P1 0x1ebd2bdaecf3825f711e0985f051d45faf3592ec965fe377bc 0x945d7b72462d0bb28f406984a6146eb3f1f297a4be4cc0496e; P1 0x104da685328eece323a4dd4a708fc6b40acca25619e017d2c47 0x94ed244854b147f843153a4e8a499c83d5c6fad8e858755563; P0 0x836a42dda27a5a5f30c35a599547f9067178f740e9b5199767 0x1bc5065f174c5026cf55dca64d8c0f49d6e6a0a7db76a6ebc4; P0 0x491b8983f3bef98bba2b562050fd1876edbc6bac663ccd67f 0x8e52eac7fbb7c8fd587298e5c55562dc978a26ab659cea8bc3; P0 0x78056b4e96358c73675137be294d931dbeabdc438f57fb2396 0x8b669bd9f11c544140887b88c0d95602981e7cd09f71e619a7; P1 0xe64893ed470d95bdfae55e49345df3e8441f91ebf4b8fb95ab 0x3154f665c9c7215c63f00f33c6dedf52e0ea6da81da126d1d1; P1 0x1cd6e903f4ca9b8d483fd6354eb2c5889d9517414494c79697 0x11ff3e3813db48d70b090d91f23cd96b62311479ea4b725a2d; P0 0x1eb4c243d1193b7ef9d41a7dd1dfeb2adcc169e9e9801642d 0xa8b1ad3b7828b59def96946fbaf2af96bf4f6b83267bcb11f2; P0 0xa89dfd5d1b8b6471ae00ef9766d105332487e37f455fb90b8f 0x55e4b09641ecd5cfb20587cfcedc9638e74c984de514860447; P1 0x576d972a2f844590165cd0b39b780b3413ad7e7d54715b5b98 0x763c8268b33db35a6160e8cb95340e1211dbea54c42a51801a; P0 0x52d54b74ba0abe80bcbf2c86161a0949a6b689a23b7e7bd9fc 0x3271727d10ab354b1ba6ab46870660ddc0b98829843f00f970; P1 0x1e2746e7b866a782d59b3dd89bc4cda1789eae8af51c0f0a72 0x2e13f63ec82bf1e82d8451a636e5145da378b0f3d57d216b4a; P0 0xc948ac02e1372f9a167a90253b7c0de2cd99065d30c0abc0a 0x43915825a5ba56e8460ed00a6f73dce21339c54b782c40166; P1 0x361a0ad7fad9d952c0cd968d47599e58e2151c74fbc16a68 0xe4f41fc68237839f6733476f23f4308cbf2457a9d594d8e90; P1 0x26d31a4bb77c158a1b9916fe66450794d5e42ea83f999df9d 0x698879313319155a478305a66bc4702c485e249b4325100b9; P0 0x41fd7f3e79b136f70f8562a17f489a88fbedeaac09d6b9fc 0x462d7cb84d63a6d30009443eab9471a32ca741fe6e048adc7d; P1 0x3a5cacf8496cd9a7cb72c3d6bdeef91030032649c675d55bd6 0x374b46f0fc89e25d1b83f55e0b05eefedf2bbf76ad77eb7870; P0 0x121da934ef9ee47a8074467cb4a6e820fdf8f9e1c4a4584261 0x4fd4d947c0accb65bf1933586cf495f52d4a9c9fd894e63ead; P0 0x25c2f6d0045e6e6f6c00c5572d667eb0b5033262fa7ee19d39 0x33cceb583756978b8d87258aebe87b6ac72a61dbbd23ef1d8e; P1 0x1fcc4875265e0b663858961567f107714828839325eb28fe15 0x6bcf555c3ff85df191c82016dd47a77105e6066b6049190a59; P0 0x44de49fbf0da4217fda208db04705294ff0f2a086471936bfe 0xa094ab81b2733ad60521c5fd07e7781f5a0169c34534d74157; P1 0x131936f697ff951a5959069725cb134f5b917b01d6fb2bed95d 0x1108d593fd34a800bc52bf53d94d769ff0c91b182afd35f49b; P1 0x3704d2a9e8ace4e2f90ff42668645f6bebc2e2e2e7cecf3bb 0x8d962b1a0ecbf59b1ecb9016045b641cbc8989dc94c13d1a71; P0 0x76c7e6d0bfbb33281e76f4f31f5fbe92bc7635172a42baca01 0x49ef235a7524a6823fb8c759d2cd128ebec19fa0439c2a8eae; P1 0x40c6f6a12078c19fc717b133b0bb793d5735dabe0c51c1b2d3 0xa29bbed13a9569963afba56318f2b6e0a2a2fcb4fad86b017f; P0 0x9cabb97c02a4b364b71e405ca73de263caa5124345771e80aa 0x7fa966e071c3c8d8965aea41e399633474ce48e45480598123; P1 0xc121b9050f83f0eb8cc9c237ee6d984ba9cba814799f43e36f 0x7e9e774a2f624e6f2551cae534d5cea4934596445aa9f6af75; P1 0xbdfd5bd5f0828ab7617b37f83d4a99960890b8a01e337a289c 0x27acb2ecd1964a9b93d2d710ddf04319afe002cca5346e03de; P0 0x953a1ceedd334d8abb51761a617f074cbffd8b25e29a233b5 0x63cd0a8e099d79ab7d787bec0442b8e0562713c3118acaba75; P0 0x3b0427ec1346ec12dbb6aa59667111e7961232344a5b3023b7 0x69f5036c6cd95f8517628a04cac9c70112a8c2106896ba7d04; P0 0x428582b505106826cabd377c0529394f86517309d6e8651f6e 0x2eda341940ab8e5e91ece7c9da59c50db6a9a0fd37555e6726; P0 0xd01b321c98d7ee8e37219296e47cfe8ef17a7e1b140fa35ea 0x2accfff9215f260b44d773d4d3d76fe5b749cf3872fc5c8206; P1 0x15b5732bd776473559c92ab2b335833e8dab0d45a497617756 0x5cf9ee22c4069f8442028646ee85c12433ce29d4e78bd08426; P0 0x3338887de8548cd02729b546b59d3030415f6ee2cea557a5a9 0x611f44a01ed1b147818bd8e99cd24f0da66ddc4e92e3df73f9; P0 0x37e3fdca5d051df1043ea562cc754ef1eb307b619c21199f51 0x1a341cfa8a7b5aaf7e19c8ba68dff89ce9654325373ebfc20e; P1 0x823049636d6da8bb626a8dbcb8dbb6db1c699c0b7f6e1f75b 0x7511f6c22848f292d83f5b869164deae053698fb335198767; P0 0x51350d4be8776ba800be60a2fce184a6f4aff2e43d3a298b 0x356b7cc02c544c71c1db0990131a76f0fc4a850017acf631c0; P0 0x10e89aa61d9cf068b33f1513556a6c2d2e8bab7a6598a764e9 0xa897a3880e9d5253272248e2623d44fbb78cbd6563cdb2f495; P0 0xa869f40e78188fd3f6811a12f89eb907d635430f035dcf1ed1 0x107af4080dfe2d955064f50a419da22a785447b7105ecc9216; P1 0x337f397a45e2b907a32f2d07d9e82d8cc698919b5934344cb 0xfe09aec3a9de98b0030e969bf60db133f7cfda5e37f4aec57; P1 0x2fcc4468b50c4fd452c23d7a62b7aeaf9dfd21e55dac7328a 0x8a743f793db7abc4cbd68b6b7d64bf388f527eab4497f3ffa4; P0 0x719547a52c39dac9dc3b9120ac184b2e7057c3b52c68b05013 0x282a726578a32fe5f602ac592bc7f52b0d9a76d9f1a91b9247; P1 0x131e3d39c78c2d513d97bc01dc5cc186f1f1e0265bab9d77de 0x8ff6ad76e13e61fbf6d9474387e0ef66311952db81df471028; P1 0xf59aec8a28af6eeaa0a188338a0c98bcd89a3f822307548b05 0x997d16ecc294a7a00f8b705aeb79d81b4893d24922475b9d81; P1 0x1172e224d5785df03118a82509bb6aee1f9c15e9a905370c32c 0x4ba52155c497396302f8ae122dadc7202c623927578cf1c83e; P1 0x43cf55c0b63288337cb18d7e93858cbfa5736373005d3719c1 0x9dd4f36fc9fc134928599ade6a8ac91ee242551882a051a395; P1 0x1273415e694b7f66eab8e2953ca51c028e8373fc76137365293 0x82f4c5e976693a3f473de7a924c7b871dbf3dbf6f80d8c9b29; P0 0x659d35a2b370cf98f37c17f64d6b3c710b986684a248acc4f0 0x1986df0f508e1af3db4707a9d7c755e25c5cc475ff7fa000c1; P0 0x3dc687dbf9bf085c4eebae34c09e78b4d5620a4854d0dbafd 0x1f9d6d8983d4e5c959ac72ca9ef83f764e409f68de5a705c1a; P1 0xbd832203a506908f62b0d413f8ff4affc4e9ba9106e95f049 0x8c8cfd229f584f6814f8e9f7947a8067d6084efeb4be1325bd; P1 0xea193160dbd689b79349864178095d8e0a0289167256109942 0x44e801d1a8e0d783df3f2c2f07ffa0c10da578e8497e31e0ec; P1 0x3844385ec275e8029b53b56b34f2a6c63c3adf16c11a1c7204 0x186a726400d74107c63a128b36831dbcf2fb49468568b59854; P0 0x3883dcae8d4de3324eaaa501e11bef4914da04c02ca42dc43 0x325520aa0c9c7550b21b0e0d6f97fdc6f5a332c1cb3818af37; P0 0xf02ba7955f17e632d9b0bdb019712c865c6499950d2a04386 0x10e2fa3a17454dd130cbe41e67cdab86a7aa5c6e977f9341f; P0 0x1b08aba07116bea2598ef1fafccc5ac72c51f7e3ba901c6 0x4db63542dad1e4fb1ab05751b7d5a2313c225e81115456b4f; P1 0x4790d8de1ac44e6e1f99cc57d834a1f9d8bb26555d5c89c8 0x258d433cec07451628bcd0de8a597c5af98acd8a80147c49ea; P0 0x85af745226b08b06332d0fa6034681181201e647c6264b007 0x172a1c521ea2afb59f436c370ce229714ee49264c98fefc97f; P1 0x65bdce860233e9c68e6cf780f71d8ecea18b2deec513433a7 0x54535a5b2ee36fd456b66c59395c0781f1a044fc80450400bd; P1 0x544407cc7e75463a5719ab262023f45d1d03732936ff30de70 0x1cf9907b99222f6dfe621459d59ca1a06e70273de6e25fd6c2; P1 0x9f2eae6082b28a2b859e5d28b3b10f14b94fedc9d5001ad0e 0x81d6b7c66c9cd05c01e9b391c801dc0abc302e69f65f1e7e3e; P1 0xc7c65c37030436dfc7d1ac192089e9f0180422de462b2ba16f 0xc3f20b564a3e5ad65d03da99c41fbbbada4738817485b6deb; P1 0x1c6fdacea68f1bfe8e44717f1dcf4aa0ceb17ad1eb9c3a059 0x725b9790df6159e34b4768e7c76a62d82fc44bdf01dae608b7; P0 0x4d7ce43a36d703e6a71f9e5ff26800cebfa5cff36c78ff7d5e 0x20f16d5a720314b9ad0495230354cdcc732810fa96fdd84b17; P1 0xcdc4ecefbe8c788dcfc82f842444297b8b49b21a4338a9fcc 0x3822cad51e1a3251ec8e7855b61cda6f30e8ad8158ea49367e; P0 0x12abf417d40257eb1934e6665c3952f9ac3d978b8baf08ae07 0x909940e78711dfae78249cdf6c1f6541db08ad2a0073644b9f; P0 0x7be36e988fe16ab79150942480d73c281180f395b297305cee 0x5c16655c47069e89038455f939e695cb2a23f7a18b39314b57; P1 0x647e1102b9d09a75ab1ccc7f6441b87861059a27f3c24b9dca 0x598a40dcbefca39565c07330784062f139ffff37f0ecc485e4; P0 0x2f81364a539aecc12b232ef67b255610033322fc907d881326 0xa76fbd431a0b47a13dd8506a022c2615f24b95349a1b46ac7e; P1 0x14c399d58c775ca1ab963bbc9ef9f384bd491e95fd037007dc3 0x184d77030153c17e280b1ad87e9e8ee1ce185a346ba303432f; P1 0x6ffc024d8ef05a78e09950012714d8e7fb522998b236888f0 0x548f7ac5e91b359c3a83d755b381488d2ab108da83fda88d72; P0 0x2a5e2ecfcdad767d277169a0be4e8878505c69c624549e3806 0x37b94177f8cbfeb0d89a365eb0a35a7e397a2821b168eb8792; P0 0x12660147b222f6ac8014bd2d7754c97cde3c6cc603c08fd65b 0x39ecdba532903701990a85b272080c1db1cda44543c4cbf823; P1 0x27c30f3ac00eb9f75ba30513f7353a01047ea6a5e81e919abc 0xa5fe8019eb644af253c0b46fad710cba2b92d9a1dc56a67a1e; P0 0xa3435308c866bd3290c4fc75e576a51fd2b68cd3063124054f 0x76f15b884ada32a4cf812585033cec4c4930f78b6c83fd15c7; P0 0x53d37241e15b7af32086da1a827663178994f8571c75076f14 0x6b704886416d52efaa95060c5d47273a199a04d608af8f2bb5; P1 0x88ca2059e40374f08b798e0efed88fc7645e696863d4d788dd 0xaebace7f48206a02ac0df1e4bb618a8ff139ca6098c0182eb; P1 0x169cc3269ba586b6d50a3460854d46f986594f74855d9ecda 0x280099c857308d0d7cd63aeac3a75545f9451d14af02ed0e04; P0 0x97b3dff98dfd319b9875fc423da4baf114bf7980c34899f0f 0x2407db07233279c311bdd7e20e7dbeebeebba6eb6c21cf8913; P0 0x7b1303078313421f0c753ff6c14edcd4149f3e80e0816967f 0x3b6cf3b799cc845765e70a271b818fdbf935207e934f47351c; P1 0x29d9335192af524df246f1713d1fd1cf639eea346181c07b5a 0xa8c55f664384d6fe203ca16a45d7238cad2d61237ce2fa5932; P0 0xa8c55f664384d6fe203ca16a45d7238cad2d61237ce2fa5931 0x1]
    [(0x39f9994f7b1e2d7bb9f2ce75, 0x505cabdfb2b64608e960cedcaf2e098c8c98450b2cb076922b, [P1 0x0 0x2; P0 0x0 0x4; P1 0x0 0x20; P1 0x0 0x800; P1 0x0 0x800000; P0 0x0 0x400000000000; P1 0x0 0x200000000000000000000000; P0 0x0 0x40000000000000000000000000000000000000000000000; P0 0x184502d19071387cc65885ef3556f463c76a2622c075 0x3c7cc07ab1dabcca212fc55835b6e2b08875fd3b1515e8fbb1; P1 0x2b5b6e8137c15ab2fb6dba9d384c75464d01d68ffeb20ecae3 0x762c3b35c558e2b8520bde07759beab4ea0e4a60953f5fca89; P0 0x52be7e2c66b2587227ae5aff8c1f55d32fb560e0b82e715f44 0xa11d7827df88a67405023997dc7232dfc0d74e1e69a4cddec5; P0 0x99ce78df44b7253dd7ebac743c59fab8375aae448a7d69971a 0x9c5abfd2b6cd49cf3522157b566db9a1bea7121849bc671f6b; P1 0x121b3f485d010d17b45916ce310e0fbcc5b9a715d69904c0924 0x5ebc3d3befef78fec8e53c0a6569144a0c038d8276046ed746; P1 0x6a5ac1f7c2ea139844fe6b873c3edf0098adc8f0eed92a53c5 0x219bab153e415fa4312cf5c0546d4dae30e7a669b5176d2109; P1 0xd6291d0d7c158b555b7cf78e80ad9ec1ed58294ee8e725ee9 0x5b18f6b6e93ae04ca920cba576a5da0fcdf34a43fb0288bb37; P1 0x6257e9b35b7ba7ef8b5d7c4487e93c1c48f98a655c9519e9e8 0x1680a99c44db711b42e5b32971d271b81ca796c627aba78a6a; P0 0x30014c725a0d8881dbc45fad07667fab7b0c5c80fff9f0f25 0x6ac334f45bce5e18e739bff07728b95e572318882dd00c9285; P1 0x8712cb97b0e81dd9a2510f27f13844e4c2a4e73fa1646ef1c5 0x4486fd6e34b5a21bf771443b733705d6761553a9aac81e4af3; P1 0x37a636d6316ea96050bb628df72ef76f21d7124e1dcf4773ce 0xa1a7e013160d992ac494a342f79b970670a3fcc40f98201548; P1 0x135ae574eb478f1af0bb71fa3d9e052f46cd6445ec7da70c122 0x5c66db0ed421b800a02c0b1416f7906560f5814b9f50ba7cba; P0 0x3296fc8b3bfd9acfdf7d992e2b8d4064a49900b80ddf5ac4a1 0x73218efd30fbcc11175bda776efe6878713eef023986619211; P1 0x9d1428a8d20ae9d9716f3ad011ef625d853e7144372ea4aad6 0x7930326346f77fb746580c58944b3269b39d7a7fda55445ba0; P0 0x5705571cf4a36ac046d6ecaa517fc0619917abd1bf7c96ac84 0x62a6fbd847b3390db1d6384072d6902500e3829cc1d8e4e1b4; P0 0x39aa61baf83a2af90c6f717c6598cd608252e8b7f0f9f258de 0x79634284be6257f35e6b996c3f297c4a0c76cfe05cbea50456; P1 0xae9d77999000e47ff9de13afaf60165d2ea5d803812fa97a16 0x7d4e4ce052e106dfb3bcb59f1030c3cdac50e30afd6e2ca166; P0 0x5d08e24fd428785e42c7692963eb8da58bc80bb318f8e877ee 0x3fea2e98a4661509e92c67c199f0277e85ed3b1367e663d23a; P1 0x3068f3114ee9c4163aa1016cf629a0e337fac2db2ccb41807e 0x3177d9c47a71f72f663bcdc9396fa817a218fa91ac003a032e; P1 0x1cffc20612cc9d080c395011a0e43110c5286aea50d7b752f9 0x200fa77bb85596e61becdfaa1117fb51518a2a58ee533c1fed; P1 0xc2e63af8260ffd6e9532669b1d4c86de9ed4a267acef98b21 0x6bac0bfa7ecd63bcf871b19e271240dbdd75f1ff1054d7523f; P0 0x44b13c6bde78bd01678fcf0a4299bff66ac8cd2da256b7e687 0x849f03ca5be9d3a295c85411bf88c558c2acec1df914a08f9c; P1 0xd06dc7f0a5117b882d18c4a168367b75f2adebbf70473321de 0x209b6530d602c89d9d56f994acb34ef96dd0cac7bc625d60e6; P1 0xc997a9610816036f1419d14835168823d6f370f79b876ab0e 0x40d521b4321aa85daab3fb2009c207fe7735e2fa10decaab7e; P0 0x18e7b4e326e74ba2986a60d79ec0948760468d72e0180b436d 0x31c5968425fa257f6f31ffbd184f37f25f447ae24ed6983e4d; P1 0x1d5b2dee1f352c4ab51bfd3d90442184a4511264f18fc9629d 0x2b5468babd73e22e8c323f3f4e9250c9a69afd155bfd798c0b; P0 0xb1fd4616eace775634fd11541e789578551ec87b327285f7c 0x2aebfee041874fe8436790acc1dc5642ce78b06f3edface6c5; P0 0xaea77e76c55fd1a0b76046a15e725988ab72ced963c76492a 0x675d74ac35587fdebc9015359932eb4f81b75315d86cba663b; P0 0x3f4e848de5df94089397dc4af2f1c38dbf9e382b1a507b228a 0x735e94084dc6eb2c925ffc586596b14879592e5dbc1841361b; P0 0x4edd6ae9ffb5dea36eef42e9787dd791c77f9209cfe3fb3a7f 0xa5b1b1d4f6e9dc90aa029490f00b12fcddab7f063d94bc988c; P1 0x14558c0efef8f00e2d680a504a0cf4b9a5bf2a509c2f34c43fc 0x2f2e57121b2d901e52b149b7e1795fda8a358ab519b920f1ec; P0 0xd3093e787f07180a95320b2ce06c24b8aa72441063184f9cf 0x20512c45e6d2fde6b697f8b1dd8fe6500bb4070e0ad217653; P1 0xc605fc0fdb111620c2d8eeef57994bc540c2c3c3ab1214f 0x6f888f1ac2babc18b7a09038de7060ef4ec5a37f0a41292415; P0 0x49b5263616ab308d32561f69f9bd13805636e57676a95d7c13 0x53fb42ac11629c96470fd76dedacb88026eb9a19060f7f96f0; P1 0x5394546832f973a5caef3fc6f7de919765808d298122f97a0a 0xb2aefd790886f51821b303e6741f05c99797242f5c1577802; P1 0x17a5b4da1730bf1583d4f7e4ca59d2a90fafde80d59812e66 0x44bd01f704a592c20030a5aa9b270aae01d353bc0781c20bb6; P0 0x1bff0a81da815973667b92f08451f22f5edb729001d73c2d25 0x3bd619def1a4b4501753d83eff0651cd19128f851a9f904a05; P1 0x2a6dceb748c9958d47b61a8931636d2e78b10664ead5b5facb 0x6d99e84164a5ad42d65f80fbaa892f322fc7d03b0c2a5e3ec1; P0 0x472d064deb8a06b2e99749a4c95b5a8711362e9fa6ec1ba530 0x69573ff74218d8d7317cf286ed1bde17dd05fe82f7224e74f1; P0 0x41bffe6ac7603b037ff681d399271213a5b1a056aec3efd6c2 0x6f69a285afcf8eeb3a849493a5dded3ebd223bb5731462103b; P1 0x931898d998245f834fad42d3fcf471edbde46c0e0cbd7a1607 0xced802abbf8d6229595b3c1b0a6977b4331d24abe6a9608cd; P1 0x1fb02c1a1edaf0c8e98f179d155d58c3d7abcc7d3cc093184 0x8a40264b0f1d06a21ae818b13a4eccec98d3b97f466e1f2706; P0 0x713fdcf88c25821cc6abe4b6376d6097f6e5b4a16060a862ef 0x5d0a250b14bfaa7b74382df028ea7ed99b089cc8423a100787; P0 0x334a67896f27edc89d429b084c403cea2aa3977bdd46a8b048 0x625e58fbe6aa2e604448bef945dca3274958ed5424ade482d9; P0 0x3955965b5ec47dbf4ffd97da5da6fa561fa50f4b41fa7f6e31 0x3ebd4fafe950f16b2eae8b73c1d5690127b9e7b92a8cdd1f2e; P1 0x2ea55f4e9d0dbe9f87cc3e47c6fd843ab3d838e049af61a34e 0x8b59fe17741a0d259ff84ec787272673f8eb06186f1a0ab1fe; P0 0x730f737f512338a12f301aa2acb9f2c55bac5a3eaa4ff7e6a4 0x285dc14f5781b10fd500c499c9efc9b42529c55ffed9df4158; P0 0x9a79a2adc1bcf54462774304ebbf8aa585d39018eb955ea64 0x39835d2042768646f49d4887b838e0e884b2ef40f91fbb5854; P1 0x2732bea0a7b2b28cdc9a371149f6491dd880193ef3ff0f2ac5 0x9ce37817a680a5b502dbd46faae6fed9c7ad91fa873e1db4e1; P0 0x91d7bb9bef7d41c980d58fd46571f16f290f0a5ba79bd4bcd9 0x73f3168d29352788aad7e516d4aa5f4d51424cf83877d41d86; P0 0x4fa8f76ecd117fc78eb5a23d8ed83959ee400a9c2d8c094be6 0x8f3d46c2d4ce5e88b31cac557faaf0f91ec71c4f94317e8d52; P1 0xf323eaf65581366be3c8b668dc534906f0e04f736e2b893227 0x9e604b535c8b2a2ef28ac760ba0b7fe5f48b09d8b6d69c4fc3; P0 0x949f1d8519d14d0847a12e4e359d25e37f3d3df87e27b17d78 0x4d3f61f0bc5331cb94cf6cb33ee3d0759a14e82ee83e5737a1; P1 0x46b6a50e2a8a72b0dddf3c67943f34d966597cf434ff7e9968 0x3b034d7c69fa848e915b386284dcbc4335bf543a2025eb6eca; P0 0x14a27569b587c836f9e22dd56d599aec19577747226577283e 0x6c39b11b7d3013276700f5da0162c12c49ffdebffe4e87a50a; P0 0x45666edaaa78685884b29e5392bc63338697f78a635886e992 0x12a3b6947bbdbb6dcf2dd3ae9b6e80e5efd2ac9a0d0c499a4e; P0 0x20f001784a5eb15797cdac1c59552c74c017514b5cb0f1fc5 0x2c0e8ed7206f9c6fbf0c3ec64cadf3079e51e43280070d1e85; P1 0x17006da62917ab8fac27d2ad0fabdd8ad54bac7397fcd30ea3 0x37c8f93b7201d0d0741f61caaa32de7c21cd1feb85d6fa4cb9; P1 0x24e0c7a4a78a2dccd6a4a8687fbb1e01d6bc7f9e2cbd6ef4b6 0x2676c85c872ca327371660ab87511d2d807209292182bab520; P0 0x8c4252a8376c2e455fae49d38216d41ff5243c42b61e57f6c 0xa2980e68de37a652e84c303fe71186f924202a3fc72129557c; P0 0x9ca49db81615ff7f76152a0d4ee84afc1d86dc0a87924d0f1f 0x2fe0de65adf74dec0678d274618214db9a0e21ec016461c9e3; P1 0x1b2a442579c57798d04595fb702e14b541f604e19d5dc97144 0x17c6c307149b0c9cc850940dd14d74c3206d0c10188e8e4a06; P0 0x359805ec7cb1cd7efce8e5a3dbad17da861a234643b656a7d 0x608f8ff0420c43d013d655c952096e689e6cfc4d1e6cc3cc3d; P0 0x373f12ccc27ce6486b5b32e5b1d346b63eca371e191eab0e4d 0x6e07acf66aee22646178eb766676019336cf0535bdbaa0a832; P1 0x8f77beac043bcbadfa43df5db139882420614a2e923bdc76b9 0x8a6114c6175ae2d095a97c7e61560ad740b600cd75d5275bad; P1 0xe2ebae78c8685a190f0cc7dadc89ed90bd7ebd8a70ce0f5f56 0x34bd9d007d7fbe45ae4403a28553be194b04873c8877e401b0; P0 0x107b3bcf5384836adaf41c3e77ca07ec93c816bdea7a5d0546 0x4f7eabbff47df452f91441f1bccbb98f23cf4f7fcf7c9760e; P0 0x25719be2e9dce698b41db06cfba143c4605144e31c8c1c80 0x56b96214fdb06299d224edc538e60306aba29141c1619abb44; P0 0x2c90560b52fb6f315128bd71098af1e4c69cfd9dcc2197b31f 0x70813b7fa98a6d9ab9c66d7daf6be8f745008b6254a607f3e3; P0 0x4aff4168b18beb05d761ca493a99824bf7d8ec7307f6320276 0x688e233d525f52165bad25bbf3294ec538c4a59429a0b537c7; P0 0x40c5e036ff04fa291bbbccb0c4571156303c19005db524bbf8 0x58bcb21b2f9dd85b9062d0aaf745470db5b1f40d294fb27249; P1 0x5d50270859734aff4a3805f8d58273dfb8bc0d29c6600a2baa 0xa32d989024f860b964be27ef1eeeb8c6d3cc7fd5e0f9d964c4; P0 0x9dc54445c3b94242f8d2771c1b388ef4f17bd2f23889148265 0x5273df8060737daaeb98cad3ce7f85f4cb79f143a552e49ef1; P0 0x284832603d1fe45fa5bb537119f90c7e1658b56c1c1e30ca42 0x89fe8b417eb0031d0fd21c9bd697ccf0c6075e6e63217921bb; P1 0xe1a8f59954cea526bd0e589959af2fd345f83b46d600b147a6 0x90e0dc5783ddf5eca5d421ae09d2065813f12965a1f1198120; P0 0x7c5e40c991bd02c36ab8cd757d53d5796799191411b60f577b 0xe9f08adcf0fc359e1d19de3fa928889de604b034c1acb137f; P0 0x14445b140121b82ebf622544d3593df85ffea488c8dbdb319 0x19d65d4839afbcf7ff5a32786d8ca9a5e9241f0eb5906dba06; P1 0x7e933dc9e786c76265c9c08a220c49a7ddd0252d7f1045573 0xa570875acb812d1bc6b000784736dd5387479cc766e2b16f5f; P0 0xa22c84f405a74aabea84fad1a99f47f029ee9f8b9872bf6df7 0x7a251987d6e355e07e42510eec1ed39a56f7394f66133dbe0c; P1 0xb0cce154d3f48cf1276bcaa04d07e55371c915ba88d59e1c1f 0x998e6fef51a0095f187fbd3b396a0680f8b2015c8e730f3ff3; P1 0x1176d415c08b0d16c295ec6ccc1589201d79355e7d8a6f4732c 0x8b1a9fb36a7ce2e8a966b91e34f2ac538ae67b73f83131c38e; P1 0xe54dcc4ba5f7e47d3e33f13b0161a71873aa5f10efb9cc800e 0x67a8ffbae3b0d758e597c1d8280f3f26342a35786e158ce4be; P0 0x3fab2f120ea53acfe2f2b87dc88eaf09ca3b7ad4cdc18c5c88 0x11c07fcb5a0c55f4cb736852b47010f8dbc096da70604145ec; P1 0x3bc039cbaff55b13072d2fca94b8db24b4a48d998746ef64f 0x789b58dec25e9f3443fb333c9dd274748f3b8283f1cff9a63; P0 0x56301609a99fa8ae14c498d6087bfba4c60053e78df568ea 0x9791e33c3d9e513e3b154b1f14c414fa5ec158699f47401ab; P1 0x1103e6908d51118ba21a88d429ec768e677cc6e47f0a878f5 0x5efd4ee343d38f61870c6552cb471d2a199308e45109164aa3; P0 0x357686c5e41d5bae8427fec53317d14ddf338114e825ff9218 0x219eddfb6cd94762b1999cda2c0ac84584e67780b318a23101; P0 0x6b28f1c371d754641f3f4f6fdd702f7f96c676c32251746b2 0x5b2afec402c96777b0a6737dee907e31034ccd0119959a6a8b; P1 0x627edbfa2aabac79953b30b78c6a8ec3e4689a05276cedff8a 0x6454286023007a87d53c7fe3e0a24ab1ed426c280b8121ec74; P0 0x3ba460bf0416d36417b64e5373799d1316f70e339a497f0c71 0x95ddbab42f35afa90dbb1444777a8431d5f87072b00051510d; P0 0x851432a921b57c5965ef8356c073473a4802c3dd2a9e5e7f9a 0x77c7fe9d63828256781a0b3c0413bc9facaa764da16c4f44fb; P0 0x55030c14fbb194f6743b7b5eee0dd378cffceeee81d0700153 0x10356d6718cf1cb47b4656b60a63989284b53bab6165ac2f90; P1 0x31d04d0cb09b89322962d25c16b68615ccfe622f4190cb878 0x15417f79862754e3268726c430a495a3a5a7383232a5d1ea18; P0 0x2ad54410dded792d4d95815c689220f235a359ce91a3ba2d0 0x8d1658c48bde243ebb652dc5887fa2c36e2d5c37fb6ca422d0; P1 0xebe3a09aa2afcd09e0d456d55d6ee1eb489ebe81e408af4eb7 0xa0167bea05886968a8b8a2bdc1b9b5d359a5d89312477848b; P0 0x97d9f62c4ee4ba294ab4cda0dc5a59978c0588e497ff7f3e 0x97a91af6a40da8351b834438dfb800ad9d760a80087c2abc1f; P1 0x11091d73319acd007da2510f216166795fe2a0e724a58d7b434 0x884e719f2b912aa3b5435d716006b80f806b682c02056c1d26; P0 0x6e1631c31ecef51551ed2475fbb1d803ec41892615f812aca3 0x505cabdfb2b64608e960cedcaf2e098c8c98450b2cb076922b]);
     (0xc6bf5fd72f030f, 0x18255f9e7ed6ca589c454bab54422a3e3be315a1e379068a79, [P1 0x0 0x2; P1 0x0 0x8; P0 0x0 0x40; P1 0x0 0x2000; P1 0x0 0x8000000; P0 0x0 0x40000000000000; P0 0x0 0x1000000000000000000000000000; P1 0x308a0 0x3b76636b21474f7410d0f9e035c75b22352fb741eb4525a820; P0 0x14f33f5ca0b800495db149cbf1b0e2163c0495a4b21fbbcb95 0xa4231ad4fa06c81fb24e6892a08f9d03d1dca6be1c51f7a851; P1 0x13f42d0c0ba30985a3fe84337f5d4010aae497d25fc45f9b7ac 0x1982d5504fe338317c8e0721f6f88307267d1be0ba025e6ffe; P1 0x7b65fc0edea979d5325a9a9221a2c1edb5b7d4192d4666cf4 0x48fa7a5cfc9df9f5ee7febbba8109b184244059cdf147bf76c; P0 0x1f8e824137ba73062fc8c81563f74a4cb60129a5d075ab54fd 0x525d3438a201aa11ac0906ea7e343759b90d81db843629b229; P0 0x28320f10d18834e7e4e2a1e777259faccd6af76dcdfae8736c 0x2449259d191a75d0c9f219eed927d43938852e18c1fd37800d; P0 0x7cd2a322f646a22232c92de62fbe66fe70c7143290d4ce787 0x22942641243073823085d499d036a4ad239e07200b4cfcf1c4; P1 0xe2b5a230d81dbe02b13917d7466f1c55fbebb0fa1e0a224f4 0x9c5fc2e202c03908fb7a906c568e0cd26621f6b722def70b84; P1 0x121c6877ae6e418fd9ec7e821b5a3e867e7114493732a1527a7 0x5b22c857f3d4855f174124ed4d7dbf3d61167221bf6e6342db; P0 0x31368efc11e508068338748638d4abc65fe6f8dc6798a45075 0x2e9153e8d7b8e798bbdf72183f303e33effff3a8dc95e0f30a; P1 0x19b2b8b0b575e047212f3257b321ab311825c97c8aae5035c1 0xce26159dbf495da6cf44abcaccff82f72b29f77083b532a55; P1 0x1f79bf72fbc523fe30a75e6dd0ec76095d416b706379487f6 0xa3f1e4cf80f16c980c3420d7aea5613d385fbcb3e3a8246470; P0 0x9f41be7a4b49cbd5ed3aef254e432f666c542e0bd13025567c 0x82842b69936af03de981e64a9e4df321482bf7a055e74e5a4c; P0 0x64eec1804d35c413edd71ed7ff5bbb88f66cc5f68b4c920a37 0x9d902981dc5037d74a3518ae72793d791d4ecbbec2bfce5e9b; P0 0x93197df51c8c29c835975e73371bc57245bb369c3e5e2c7c35 0x780da351f671a0279437d13f79cf46e41716e299855e9d064a; P0 0x556603d3af58630eab9181934d0bd4e868616f1244f5b7e83b 0x8a12dc84848bc06063c68fdea9518ff78fb05e32784bedc6a3; P0 0x70f5b6ca23ac60f957c0de6cb9e6a9425334f3d0f1afd6ce36 0x64920835e26e93e66c78f54932ba7ec03f428fcfcc23b6b107; P1 0x77dc0fe1c511acbea35dfa4ff69b8a628151e11c858b4aa763 0x9108c15ffafed33a77485a943f110f7d25b5ce3037a3fe98a9; P1 0xf9459133430e536d40b49e4c5452004a8823913305b4642b55 0x3d6c899d76e9bfd2427dd449de8c82bb582b3afe57e2c31033; P0 0x165aeca5958cd75a2d07891313dbf5f7c11481591e3113be5c 0x32b0d067105daaa09e6cf2f910308c6e02f4b0cfecf8c381d5; P0 0xf399c39979da88f8e87ab910147acc4bd53846832a764fb95 0x9036209a3facbacd71485322e4a1e35ba7c66bff670e3f6f8a; P1 0xf6739a94435adf95933cd8f92c3146ad8a532f2dbc811cd1fe 0x87c36d2b91018000bc980f4e72bd6100995b87bbee513ec92e; P1 0xda6c2dba5de90bcd19355062c24e98947bc310604dfb0b5c9f 0x8fca3678f4841f6075825b1807630821f2e9f909c99105cddb; P0 0x7a81a656fcf6e0212907c77f145506515fc5ec5f1418ca2283 0x9859e9c4912061d175803a1b3f48cf9ff9dd9054935e40e40; P0 0x898768b9efb4fc8efd8de57cc3ecca90f1f124316a53e389 0x4c68a2f80b1a035302df9df727c19f026113109f9964301ab5; P1 0x452f9decb98742a87ad70a7ee2adc00a759abe8e83a874fe57 0x8e09b6cdb0c16175dccab6aca384d2113e00d0b4ca72a19d9d; P1 0xef1428b99106466672140e13f32734fe6fbe0f7fa1ee1231ea 0xbd46a9c1cc9ca14006b7d4024fc39b0024c3a4222d58998f4; P0 0xd445b8ff16cb23e6c100f3ad78e053b125e440e8770ca7da 0x6e6a8516818958a4be1f7bffa21ff25aa7b84369759bc66e22; P1 0x9079f664ad3c6fcdfae2fdd87a25ffed7c08bed25585f8f61e 0x63ecf560a171fc3f05af5b57ccbe99de50aa1352f35c7d030e; P1 0x7653dad5e010077c59523fec359774721165c83b95983ab4a1 0x345aa8545944d5dd20c451dced874426dc0c55d923d3b2b475; P0 0x103d9cfccba16c8c1ef45d5ebf36ad440761ffa3276a5d07a6 0x3bcb4232aeb971cf5c3ddf26e5fc4b76f67e82295fc39b8167; P0 0x152f37df23558dd368df73adde246046b87c965f9d1b8ccc97 0x311fdf05c50b5ab563ec4c51e36720bd338f9ab0e9547fb65c; P0 0xe4c7babc2c137e6919dd61069889ee3b4cb7a3ceea7989e04 0x2d76d38138a8339ce9af7970f76f003826dd33ea9186f01244; P0 0xc3f4f9609a8f7e3c269edc9f976f997ceaf15361629a68ea3 0x52263053aa3869cbb924586127b6042d846b2fa3dd0bda8c97; P1 0x4ff8dcf4c533e540315899ae5cea36a72277c61a7c98ded3cd 0x2fbf9d0e1433121ae485fff25d647b5e1adbdbdbe3b48a8b4b; P1 0x1b0494b3a04bf75b0d8fd62e683d2265c1f9ac99e711d63078 0x53a69c0b08f8740e146c504869fea88b0e4d328d6a9797b00a; P0 0x297615c8c2908f495a7429c455809cc4763040830cf7e29e6d 0x92ce4afdbf8b712f3559ac319bc4f2300e0d90b31ad52e4bad; P1 0xff6616927db95e38de8d400ed197578773f0c1c0a17fa2f72d 0x3d068154e70d9b2d8438413dcc12c3f0e53404d52f23bdc2db; P0 0x1610e5727adf7b9e2d7383a7f0b5ce5e7a17f4720b704657e9 0x3e9cda46014437200f8c6f82029821ea8c7bc089e1cf9122ee; P0 0x173a93f50033043224e8c6cae7b30780308337cd2136169703 0x49ba83f8dfed269399c2e28d14fab1b771be776fe1ba71f4ab; P1 0x406ae19cdb14932b187a83032014c4e5f8a9ecac0306fee32a 0x7f0e7a474795fdb454210e2b43aff629b247fc5fdadcd3f914; P0 0x5fa70a985749bba480e53f7f048a8be6158ea04918d6589783 0x70a17c29cfad8f7589548a9a713a148b4ccfa70a7dcd0f2f77; P0 0x4b2a478f8efb05bdec4d035a9a3650ff0d7be3f77007eaf2ed 0x8ddb72c7c7bb0429a9fb624c0109de98035066835c770a1f1a; P0 0x773c4125615cc59be86f41c97712cc2534de347f8a08e59c4f 0x8f133bfb2da620a74f3e39bc0e42c33c16d3412eca193b3e7; P0 0x794aa2c657baec939e36c668b6ad7dbf7beb2e97fd42e1d7 0x50ae46a46fecd94df0603b40d3b7c053588fa7044098ea1d9c; P0 0x2691c06513223cf29e86973ecb01c443ebe774e13f59146c3a 0x378a683c7397fd42ff9ab6dd9f79eded9443174217a746fd82; P0 0x12471e98cf83b02f92b32d79f8f34f85d95e1308726f26e6b0 0x26f378174477571e32f93c2ce28190804b8d751f75e74f10f4; P1 0x11faad6a0337c9ab66a7ecf50e2c33c7030cae4a2e488eb58e 0x85a65df20a34bf49c05721bc023cc4507a844caf38e53647d6; P1 0xd3acc403b05158ae51f71a84da99a9974813295f32f6cb8b2b 0x164ffa1dc77bc7df9a883e15caa1dae30f729ba6e4b0f42137; P0 0x2f3274140e702d0e6e0fd38637d161424165453eb13cfebd6 0x2fb66ed67ad7f8a3690b53cb7ffb8c769e3dc63dd37ec1d82f; P1 0x1afa320484fdcc4e0413931144bc3fbf14a29469b322d279fc 0x46724633f7bc4f13b7e9bba59384670f2840f59d092e6bc80e; P1 0x3acf4e43a44ebaf8f4af6b06624a8d5b4c819124debf528f9a 0x79ac26ac38aefe5d5a1d06543b5d414bb777352da1be509bda; P0 0x57b7b5bc8921077b3b0478321c72b453a5ff926be0df092914 0x5c19a65cc69684da792d435085041986456c203ab0fb7e92a8; P0 0x324295996e9ed9cdc693611315b20ad1b7bcd3117f9c4d2740 0x7fbab7a50de15784c6b7be9cdd7878a6e06ad5dc6856dffc80; P0 0x60ab105a99c5b32b39013cdf3f63c4b2281594263072c2d48a 0x9bc38e7ec6cf72050470c2976cc62e3031f8521355e493ee82; P1 0x11f84bc51f7f36a34d04cf580bd35273ba2af04068bb69bc778 0x3d84d3f5a0714d6d21acab6e5a17b7c1ff021b48a46a727f20; P1 0x2cd93ceb08a0708b97cc9d82e1938ffb5b95698b83e2e72a7b 0x60c2f71fd1512f5d6ab036508edd3e1936316a17fb4b514e7f; P1 0x6ef3e88c0930c08982f6c0400424f23c7fdea694d629a6e737 0x1ef9aa6a29b94e01ca6c3463b89aad3fe7119b55d0b087170d; P1 0xb5ebb01a023ccdae5178ee31a2d14a04b85211363a247d73a 0x7065a498b20e5438530084d7c3e60535784680a7b0b2cba2c4; P1 0x95b4faf7eecb0dc5b9d4c49c058185a6cd6fbe44305190c1ef 0x541a9accb8499f6ad7e5038406f4fd597a7b783a5640009283; P1 0x53d2c378ad5c6c8f1f283f1cbef4f382b64976f8152d389591 0xca78534f1e0d6ea680c5631af54ce42485cd2ff12e7d4292f; P0 0xf2e5d9591e37d87b115f99dddeed658e04cfc5db3ad66281 0x9be39166a56772ce4bbc9882dc6ffd45dcac874ad3b9899dee; P1 0x11ffaf5c71916a21e7a50ca61cb1169430c4fe9775df4f56890 0x673052df333cdc5dc5b2ab278582860d4ce28997887175add8; P0 0x3f174832dfd8b02887016f31aa80aa7c5c1ba0e74e1ebb7850 0x445a1c0641beca2ed3b632a766c9306b248e21a7c7a330de50; P0 0x1baeb51994b683dcbf634d29d95421b6c4a09d8994e7eb9815 0x9f2f87ce2bf986fa2983ff7358b56d83fb7f701601d4be3fd1; P1 0x12c4a1b9817fa5c6905e615552c88f214db9879ef2fe3a19df1 0x7b8b2573601073bc4e677842063cdce43a53e36bc15bd3d13f; P1 0xb4df554b33bbf92599d84422e1593100ae06208bf90f355c7a 0x903d9a951ae3685aa9295de17a93f85292ee69fa472dd804b4; P1 0xf68d2912658875d373a732d12f61d157bd690c34fd617e4919 0x6a34f83b496d5d623cf49e893ff7fddf91a5bf7d37a7affc25; P0 0x42d5e92832b50df0e565b9cef4cbe519e9b545c4f5b099bffa 0x46f79a016009a45a80c641cde77a6426b66d3f89c9286bb48b; P0 0x1dd75e3e5ebca639bda1576ab65dce1a889c227e0846ade339 0x21ca0e1b55f43fbe449b0d439b2f548d42661bbec51b38ae1e; P0 0x6c3cf1ac75559f6fc5e38002a7bc1990e2960840e8b2eba22 0x3e9f6e9d336bdd3b0e0aed6513e3598d3c4bc2bbe3553e4be; P1 0x2e78fbeae4f1cee0fe8cd16a7d821accefb38568aacdd260 0x28814a9c3353aaf9bac64df4f6521235b4441bee05d049b0e8; P0 0x9b8a163ce4c53ea808ed029782c538f396e86577bec8e4356 0x967bc13251283d472ba6726e96b44d34ad297ca0ca1ad3821e; P0 0x862d6c9a2458865f44de4980182a9a285ec56721784a51c31e 0x458d145c09f32198f4b2731ddf0458c676f365a117952b2e8a; P1 0x39531101f4e27ca320e62c38efcb7e626fc1a80af2220a1db0 0x67f53336d0a95fc2d0826bef64a26c1f99d2c67f19f36daab8; P1 0x8011d96806e54de997de9a86b5d613e676e1f7f1d4e1be47c1 0x64de9af96880a5161db1ada76d4537a6a8a40cce7db0bd640d; P1 0x7892da6c940202a5356daa440ccb2b99548a52a73d8b30eaa8 0xa5daae0db76e200c062a4aff15cab3a7e05365b7cd503529da; P1 0x145f9c898342d9f99601f388ba214f57e23aa00c9501f318e84 0x27b5b70a5f8b8398cd7b4d08486511780a55d1b0b90fe3d2fc; P0 0x957df78acc7589d3182ea8dcc4ba3b8dcb2167111375461b2 0xa5770bbc74c1f2d8e0491a6bcbaecb637787b93c2879300f9a; P0 0xa2394c1a3bbe9d21d5e781dfa348ec2a403a6d797400129c41 0x4472ac963f712db99530054b0a29e0e06aabe4ef28f931aeb1; P1 0x37853cc87d36fba828e10df04ef5815eb212cce5e6fb015350 0x5223e3aee106b518875c2130ff53f00b20a2ddd9b1de93c3d2; P1 0x4ff462ee52dca1dd187d61bc52c46538165cc1306554a24e40 0x101e4035ba36a83adf8a29224409ced28567425d6c2de159c8; P0 0x18a11f2898851785f44983b7c6f301adc6d42c7aa78227c32 0x1cae72b87cdf5942adb5c35ca7e810ac3d7dd7446be82c8c4a; P1 0x9bf982f18fd71e15d3e3feb4b31b77c2a93754fbfe88c9f57 0x9db1248a7747929963f1f953963aaa804af697cb8eac430d73; P0 0x93571916b4caebc330ff9e9f5f6499935c7b6a74916f343ddc 0x2ec08dd8fbcdb36728cf218cd895b8a4f4d63dee63a12512d5; P0 0xcf379540fe34bf32d6ed9625903017d265571710dbc35d78a 0x90b5c3476eb45999ff1d3a2af86b6197b99b535decd587babb; P1 0xf8289b103464d1641734f61c44c12838d3c372d1716452aaac 0xa0f66b644a14d8a3184d99f34b6ddc67f0c8094ec51116bcee; P0 0x9983f355ec0ed59b73f339aa948edd3a3dfb4fcb4586b1bb07 0x89cc51661a2dfeb1d118a6511cc400b107fd512daa2e12bbdf; P1 0xe104cefa5320254023bb8236b78f753295fc355949640a8bfb 0x8c9d30d00d05c625c954a9aa66c0f1ac801aaae0435094f281; P1 0xea4f2d0fa6a70b76f86bfc469ac6e45c3297bfeef54cdb15c5 0x463ea303ae6fbbac03146414e6ebf20a1380a067522f2776c3; P1 0x3a7936acb6ed7f3e59ab41442f6955aaca797d9a08c6af9b63 0x8bbcd00732ecb4f41fcd838ede5306f55855346cc83a555159; P0 0x73b2dd9229cf3c3638672c82dbd7fe217c4098e712f8025033 0xa54e7509c6a5e728b6cbce5154c05e43a21ab84897e4cdbbc8; P1 0x143d37f1647c0499cd2d5d0bb801b62befd39dd87ae767eb0c6 0xa6d29fe3cb20375fc90dba5f8ada5206666fce52e1fc0d8b0e; P0 0xa4e5a244d5184add1524fe012855a2a8482a2f771e7f4a4e13 0x26a980e6d4e602f2c2a42efab9850b620cbeb26a11c5740bfb; P1 0x11b6a5dc1f0b42cf5ae31c9797f793045b87e39a2fa8712beb 0xa00a699b50a1cddd0895aebe9c2cfc477f764c6d9613c09d61; P0 0x97c31069075bf65abcbf54be2e0bf8f165ffa44a58392ed36a 0x26cb0e41b4ecfbd1bc8174ee955cd15822abe4a0ca22e826a3; P0 0x8eab8e7de28da06aed604395e14e2724e4978b965f88fbb20 0xa3ea10772ea8015068029fcfa008e5799c9dea303bdf546469; P1 0x13e65119010e2698650f0e8821a03e32c64d1d88bcc0422cf88 0x41dd855d8b77c66aa9703f36b0223f26e6146ec244caec60a; P0 0x19b473c2a09da06c0854056f6f88d7bce7595540ac5320e1 0x2e0d7a8fc47f63205c9ec4ff6a9383ac006ffd8bbbc613b291; P0 0xc9100be631471d960870ad769ae9b6c2073060ed7d541b796 0x6ad1f24d327c5084c0c2a06a58c6333ce6ca601c8740ad3d3f; P1 0x87381a10cbd7a4dc6257d4a0cee824f6cc78de276f5950a788 0x84bef8ca05c191bcb5e5ee67039e6b5b3543582cd52b7a82ea; P1 0xd0d246bbd7aaea320b6057f622fd3262800bf370609934ba77 0xa9e105101ad7e69ea722aa242009457abeffa9ebe4b6a7713; P0 0xaafe877107c407a0071fa00222287873206a16429b152657 0x42e22749fcf6aa5ee48477764f60fd56bbc910956c769dc914; P1 0x3502e9499cb4fe2ff0b5f9eed809012a0ab07c19adbe6d6870 0x654afb00e22c05c2384b92441de5fd126acd2c96e18a7614d0; P1 0x79967cd56d0de233c73bb0fb769c1462b0fe84fbf4848a5571 0x5003be10e1b9e3696131b4d6d864b7dce0794d1d033145037d; P1 0x4bdec1866df07666faed2d0be7022d482f5775c7d529c09754 0x4ce6e91243683b45a37b9d3e310a190ef5d1674a6640d9fc56; P1 0x461507ab0a466c5e2505cd8f6abc747a2f34743786dfb06bbc 0x4899c95573b1964919fb6750626f9e44d8fe61008971d90754; P0 0x1f3b1aafd7b3b3b19bcaf56e990665e15fc4baae39de607eff 0x2397924fbb79d515caf5eeb7b18c424e521e4299a99837bfc3; P0 0x781898d6cea16577b65dc0a1aa89feb6a9158653593617d99 0x671fe65ebabb15119b3219e50fc0a95f78648fc368aee580e; P1 0x7e0668d8c556ff562663453fa1870e836c260defb6bbaf42 0x56fdc132dba8eae07ccbebadfe8089f37aa4ea3bcedd6562; P1 0x59ad6be18e6d0cc479ab93365016664ae95a5150331268 0xac2aa8b20ea8e487b458725637102e5b7f978160751922050; P0 0xafa16f69863e06411a8a58b3394f525c6d0851e54aa372ee 0x21d11d5f0b30bfa686a769ca7459631979b388e43e75637596; P1 0xd8d461d3011283f62ad77dd49b2cfd1d456be0bf97968bb56 0x1d8539d1f6807c039ecc82e746c83619b35ae5c6551112afa6; P0 0x529dd65aea9c8b8ee1d34612abad5ec635a95fd857708c2c1 0x1b52e5e218f6c63b60e1b5b90f3ce714470acc4dfbe2ee7a31; P1 0x8d8ee619c8d21e43d353a0e8d546af891ebf8c9a3cb6e392a 0x36c94312ce92a00306c957ef06718704e1f679842a23047d64; P0 0x11c8dbee63c3b3315515d8acbd911223e14f668a29a9905965 0x634fc8b38a3ecd75fb33de1e538709526f31da5b1f1312e2f1; P1 0x74e0c28d8a292774d1fd8a3385e30129f4479c4ad9d3c201d7 0x8f52b9d28c57dd18d77ed5543700f0a2e00e1138a7b5e4b0ed; P0 0x79b660f526556c3d4f7970fa445809d8f25edef33c313b0150 0x7733cba52c931084a377e332648725e2a9bc32940d8818a879; P0 0x543131a36c9752bc2308e349f8c82cc6fa75d126372908a2d6 0x4a1676e0058277060ab5e64daf6f4e813a92579b91773e328f; P0 0x2085f91c930bbc9c4da5f90ffba04831a3c27b318dd55c3291 0x4745233acd50446bd1b748dc9b6ff813d24f4511c386b3affe; P1 0x3c316da6d5a9dc3afd7dfbbc3b22e8ab296bbab2353cce5ff4 0x243cf6151496b974951585e08c35454b74a97a7b7503a18e6c; P0 0x7c7edadb7d02110bf5f4b9e33ea0dc713ff5559d789087cd6 0x75ed88f9dd54303e53c19c1a0a0b66aa8be58f4747e600b8ee; P1 0xa4cd91afcbd3b3ab6b120d089bdecaac5cbc50e1be360541e6 0x3e866750865eb159ce167daedf1ab4f061449ec3c5d9ce3b6; P1 0x2e53dd9495457505a3400ef86f2ac47d11cfd91dac09cac0 0x3386ddc6c9c66d13a2f22ef28dcbe3dd16e4dea88aebc86688; P0 0xfbb40b1a1c8c47422a4b82225dfb6c82951876413d9d43e35 0x665dbe53b47561345eac8fe7007d7485b82bd2443354e5d6b1; P1 0x7c2d9c5d49e8e83d39ff39f51d6237be5e0949fbc42307876c 0x367d69807f8820b63ec11783f59899bd289289dc0fb960463e; P0 0x1197bf6a507d2666aae4e40beaaf7df5d4d7a40dace6150498 0x86ee3bf86cb30078ad9ce4fdbc70c8ffc5daccff5a8c8d34bc; P1 0xd7c04b901b845f128a3f86c8bea4ef084abe5853cb8f85a0ab 0x8d0953a373d3db8bab2e4c9fcdea618785728fece49a715f0f; P1 0xebb8190b2b4a81b75032817fa6c8400d409f6f06e703891407 0x7868f7f2b5a3f9c3a7a6b3e1a7a833c33c94056661bf8d95d; P1 0xabd048a627da2fdd1d01f64eb396559bf494b0a80618b665 0x4568d0eec0a018c0858d40d23b1b9e5d7ff91dbb0bde862473; P0 0x1c8bacd52aa5552a8085078145208a3034ab2898d24ea94352 0xa3fe95aca597e4a97edf681d614774da7b8af571b2fb60a053; P1 0x13eb4ceb53c78773dda27f73f87ace5c79d67b7cd7e8535f365 0x9e679c684958dcbbbb08f52882c21f0eb9355588fa3501bb3; P0 0x94acd944ec98f3ddb388f4722b8901c81749cb970c646241 0x83b1fc7cf5e2d5270ab1f253ba8d69a2aa0df9d8a9913d1336; P1 0xcd87593b73b886bcaa04befd6c7e45ad2baebe2c439b3b4275 0x5d6c04ce10dd265291c7b453d9b0f3535b208c0c9cf32f3479; P1 0x676d134a87e1524e472688fbf4a68fd66b8e9aa0ff69999a73 0x23d27a27e42079461c976242ed5663383af116c1ed3fc50279; P1 0xf34ecf6e6650ce534d9f7d4993486c880bb8955cbc94bf1fd 0x65366fe5d89f05a22bb754d61ff2700f8505bbcbd08c2c0ffb; P0 0x3cb2981a32566379ebd580a888f7173387513526a7ef1c13e0 0x18255f9e7ed6ca589c454bab54422a3e3be315a1e379068a79])];
  mkcert 0x192a43d8f8a55b860e20c52b200024fbdd5c39850b80be9fa08e6156d781713c6b252c7 ([(0%nat, 0x192a43d8f8a55b860e20c52b200024fbdd5c39850b80be9fa08e6156d781713c6b252c7)], []) 2
    [P1 0x0 0x2; P1 0x0 0x8; P0 0x0 0x40; P0 0x0 0x1000; P1 0x0 0x2000000; P0 0x0 0x4000000000000; P0 0x0 0x10000000000000000000000000; P1 0x0 0x200000000000000000000000000000000000000000000000000; P0 0x28b0f79f72a1e57aa8f23a2e3f80000 0xe272c9f82f2348829f97c936dd3d62144c4f9a54cceb5a380000; P1 0xfeb657eeae66e722caca7e8b99baf07dce 0x30db33143a1ca2755cbf62d803a33b52c5e062d56eb3d58ef4c4f3f2f0414fd98638de; P0 0x5ed9d6b2171866f312b5fe99c547b52b859d8ffee13ab990d5c186f829387c9e344a3 0x1d27fd83ee0c85c17fd0f01588e2fd73945b5cd8fb49346ba2980c6409965e6a0d4fcf; P1 0x438f8444abc66697b0b38e7867e5dd59b18896b873fc2c46d3d9697a8ff62914885e3 0x5c7f84c55ed18d4ee5c5b3141d81215c25e01bfc2d6aa7ea1addec6cafe49d6bb6094d; P0 0x153fda629925613bb202632d18d05f5977d70c5500958c5b530801cd7ac5b6045b378b 0x38b72ef6ced32e650148f4e3011a2d9d74e2fcbb90fc57ee86c1252fd40f13dc79ce1c; P0 0x7fd272ea63775692ab024935c670074076a9be53d9243f982b73eda3306a2da99e48d 0x160b03b1d66a1f37b0e5a694595ee77153c1b6fbf56ffab6118b6c9a4577a826b893f75; P1 0x269dd7ee99ea5f7454d619b48f33b5c0974e9d731a57ebaa2334221aa048cb06c5e815b 0x133cf0e11abf3b77f79a863d3809e88134f829b144f72cf06ea673badc2de8bbbbde335; P0 0xeb4fca3216c822d2e5b900ec3aca22c4cd2f9107db4221705b90ff1a4e73151e1490e6 0xc653426141a90a3fc030124a079da498813ad885bf0eff47f80070e22127d91796ba2f; P0 0x61afe7889f455927efb7ddea9966fcf29898750a709a46c1221f9373436147d71db324 0x141b051f53f20a59ce5fed2723335ff38d223cafb4b5d6f19f0c18f9681af4105fc8ba5; P0 0x10103086ca4088af5552416712db467cfbc12772adb4dd957d7e7aff9d6150975bba89b 0x238147a5fa0869f4df4fb3f34c3c5c1edd7876947dd842a0e665820f1282ecec5ce1dc; P0 0x3217e83bf850a02bb35b89134d009546c9340abf285e8ddd74da97bb5700914fae929 0x15e52ccbfedd065629c6b361a28418fab60efc24e3ebbbca01d24c778d9c223b281431; P1 0x2619b54d048b1903e450a4e3dbb2477972a93398399a15079440d55c68ac1bafb5174 0x16cd07c190b67fb92035d17f230f931c189b7412069546f61bf73fd335a635a99b3e996; P1 0x29514fccb88482b4a81ec44a5501a5bc499e6ac657da382bd282b9d92b5f5e08953910a 0xe79e326a6003bdebb5f56e9aa34bece7ac5514b696c48eb5947513475fc4ad786dd502; P1 0x10a79805ce7d5e966856ff4d60e2e59c936196ab5f723596ee7c330433d1e74b5ceb758 0x65d4959e9e7e5db7e7839dba7bd3dbd0619a9ee001776c18df5f8df9675902d445f2a0; P1 0x3381cb8e451175d0a3fffd3fc1ccb25114bc0fab6b398e248cc8f200b8917618c09cac 0x16732e19d15abf988c2984990fe199e954899f9f967784ef0d95c0246cbc45278e4e64c; P0 0x1407174a1c93d4713818a7d5a4b5b10d4499cc797139970c77c89152b8e6eca8e6a363c 0x374de42a41df429eb85bcaf899ffd013464c4ce70863d920dcfa13b5d3b5ef6ee545ec; P1 0xf314636e0813cbe78e69d616cd9115af387c03a380b95ce2f0d0c2c1a8839bfb55375 0x7f9688ca2ae428dd503929a60feb630267ff416e0181026a4efe294097948e5698c92d; P1 0x50dc0a3bdffb8611bc33d3ba618f11f26edc9a5625e52747e871ce57d31df2e0c66c11 0x9e8a62573073aedb810213d74b89f97d0d4f78b4fed9885e9f67e55c230eefec61f09b; P0 0x3e6cef0f15e40f0927902461399c4f486917070f1490875d6f558c568795279f3cfaef 0x63dce09c0a4c72dd577d676869ab5f4c5c592a63e2ed3f278a4e0266db50795aa36010; P0 0x18c493fffa21d105665ea87ec49d77f8b42e0b80dc450e27a4f2fa96fdd2a5c98807e5 0xcf06a03ac2a97ebc78778bfd33323189bbe070c849f63885bad59c45debdd1e1ec83fd; P0 0x6a72428bb59577330c53b57252aacca663b74f76208de690e7095c22c44adafdc75b94 0x98ce9ecb5c14cd9dfcb3f70d776acbe89cf8a561a8cab03a4771972fbd9cad124f4ffd; P1 0x73fbef0c85a5c7159e665bc78f070bf1372bf8c2fd2dffd14cf9870735e0e0967cfa3c 0x5c357ce171edb13686d287f21719aace906db28a3d3a3c0aa08e9fabc665daad42836e; P1 0x2a3bc8dbefa7679347a724b34614ce15dc386b7a2192215c779d12dcf1d9e94743ff5b 0x131bce22578a452d7b05cda51bb868cb0329fb4a82e93341b00dc51900ad1d24b76e0cb; P1 0x1d04fd33558dffbb33d295a32381b1a213e8b86c2d8079a1fee99e6c2ce8022943d1329 0xd33b8da1a1dec2184c2acbb6936d4ce73249c0e50a616fe13771b788a22b3d10f0bb13; P1 0xdda1ea1c2ae36332e9920ff33ced817cf42b1a4dce828e21cc2a17a3405af0b82089fa 0x130fc464fc9a3e129ccf5e7d86f8086ca2179d57d8fd1c548a1fe0f298854a07f58317c; P1 0x1ce0787ce6a6ae58caed11c4cc43244b8a7fba34f231d5643bd79b2bf389e3a9db5076d 0x946531a61645cc8529e89cd7cc52a2373b5f847f17d20dd62a1c2234ffeb2d21bdb865; P0 0x36b114e541aac1c5635e37e774d0e6db236da7e45d64eafa759270e668839159f5d4e8 0xdfcf6306e3ee79e6e9a3c7374cc0f8f14eaf41b8cead0d83d0a6d1bebd8e06ae588781; P0 0x7c67e549ce9065cd7b72c017fd55fca47f4e67a865586d40dd57b5e068cee94a0526b3 0xd22caac63532b2b0fd627e2e31eab1e51e04cf866afdfc8e28115ec8b6f402418ce3dc; P0 0x6db57236650546b6f51022270ec41d2b6a9c368a24d772cb54b05aca0bd673337c745a 0x12aa4f4da1b1c5038d1b643c3d429c7f7ffb5126f92f7c7475898127976677055d89f1a; P1 0x1bb0441db33571425cd9bc51e709a85e4df4da533f253b770d3a98ce6e8d37727860f80 0x13471a45288b58b2c660639fa8b62b0e94e0c1dc06dcf3d3242a8fc922c096bd45590c8; P0 0xec48a2117c520037844576e34a139c4811d5d5abd0524ee63578f20030bf2bd45bee55 0xd92dec7ff25bddd4421de9c8b022d8657f0d87e43763e5dd69c9d894a530ecbbca1e2d; P1 0xea49879654f212f7e771cefe7017f2f78be2d11928607fc0242b396143a120d4e46665 0x4de91d56caed4ebae362b99874babc1374eacc8d79db236f88f780fa4cb60bca93354f; P0 0xf135a5d67dd15c4afb41a3968c6a7ed29b30aacdc16665543f9c4b91c6c29bbfa0941 0xb6f6adff6211a558911db9e9b27bca2b8a8e3f161e943ff30af20161a67d14044dcada; P0 0x5323e03d3db30e091085fd933a17802a82cbc42c888ea0db9a2a04e1bc97ecc363c74b 0x187c6f8f38b742a3c124c203dba305d461f0f94f014010d7dcc6d7075909d530b54d057; P1 0x2fa69803275b66e109218c697d9d294bf4e8d15de8b96678c17953c689a28f72a6c957d 0x236a8af2a02d2c30e9d365b781425c703f13905c2173d0f4afc55071e96b75816bcf7; P0 0x31d7d4207898e80acff46ee34679406a50fce7bc046f30014ffe3e6ab6f8cd624fa 0x10dcd7933858d9cdad46da057149f22c039f884cf9cbe2cf91547c382098030b1cce3fb; P1 0x16994576c57a7e57aec7edd3ccd63f46187d3c589737c310a6c107f130f46d709921643 0xf4907d2d318b2c548f164890a80596fb4a7547f28e0522a519d937eb2aa7bce9d76c1d; P0 0x948c626587d7a0d7a14fce598add09bf78effd648d96b5b420a484540ade4abd556241 0x2cb6bdf979711c850164b4de98a531389f1d69a92c06cd3ee7fa1d6de1eabd725448c2; P1 0x9ee596c63bfd783127ea10f1c134a4f0372c513e69468459b0e06fcb8107531902ab1 0x13af9817e77f1275666494d2d36e9053be71015ad623c1d909de905e36527a1ee2b8471; P0 0xf665373e3e6e13b825e661503bdb26301f632c44eb1eaff64d1530e79212a127e6006b 0x181e57e0e6db45b284a878315d2f992eb592fadaa85f78cc539ec24d324948c222820b4; P1 0x2e3b20b5afc87ec6b36d226611c7208c984f6a0073f39e013ec643e6e76ae2b8887aa41 0x132e3bf38d6a85abe7f4984376c80c9b8bde6e23178646a7d79d3fcec067c4bdbaad299; P1 0x1d3d11b69faa2baef96e357f022e4d87be6cc2f9a3eeb284bff577123bc757ced5b0213 0x177f0dc44432926bc1b46fda480eba63a57f495927badcc162349977b1f067981480c1d; P0 0x15f02c2b5302271e3fa67394dd10f25a292569e517ed552c03d8bbd000a0b1b4dd55e01 0x12a694e763f92ba7cae346c9ba666b924c3204cf583e842ffef1d621eafe89b0f385682; P1 0x1ba535a8fad27a4cdbef9e17ceb2dbb7e1928b6189759a09f1ce26c925ffa4010570bf2 0x328fd94999baed9d0bcc3a707c06bba8d956ce78709ae18f0bf923d364b228547566ea; P1 0xcb2dc32b73306fab7d7ee997f301f23c932989b21c1bb1fd907b9c3da4a4880ce6c24 0xe96afd122450924f2be8a9c35479e2b9d1c573f072f8a51182e63ac888338c4e6503cc; P1 0x10ea1e53bd87f8f71f3d1bd2693fffd8587bb3b0d5e886426886a4d36401e5defaad71f 0xd9cd38a19b2eaf4a2e959c34c2043d423274ca6810328399e6477916b8115609c9ae07; P0 0x75d0db507da17af4a180e43418c78462d105468a65f683b4d8cc104b62452a6754f21e 0x17d695a50fc66ffbb8c93be7f761256dd4ec160aba52191d5f5093932fc183625d9b2df; P0 0x1694d079d955eae3dc24f0097a1f1b087b1c56cd37be9e2f4292e20bc54fa292a64bcc4 0x10c18049858afda0c6b06a1dbc47f8e001fc619213a7a755fb676718a1944be1ffb59e5; P0 0xb281c405e3ebcf934307a0590e1c54029af3be0e0c777d8909745f2e7ea36d0c0ea75c 0x45e3b772ab9992a8253a43ec4a66d5519a362e894bbb606e9d52df4648f6445a77655; P0 0xc219979f88add14bd333f92a22d8b2c6491fd9b2e8a445d7baa6388e75518360bcf 0x194223aa588be45ba7056d4655bc6de6e720354ca2d899bf8df118d7deeac2f9defc50; P1 0x32b4344415033562f1fe0b8e916745d1f7bab772a0365328bfc9916c1cce550a7d67a 0x214ce76447cf5006ceb144cb8ee61ff61b9c3a9cc2e95bcf9d59e56fb2e4e174dc652a; P1 0x5821a02c7d1aba39a0cb799af29a71e6e0cdd292aa8934b317a2fb08f2e9b3104b02d 0xf10e4a45c63cb511c6d616f430bf42ae2da363087881041f7e5f174568764d47f6f8cd; P0 0x9051145fb4d81683998ac3d27a87d3034822b1f224efd413f6689cc61b267b2f92d34d 0x131333566246eee87de06ee8abf31dfb0783355846bb3911a0a42cd6cdef75c556ee94e; P0 0xe75703e3d4cb3ce754d9ae4afd361f4932190fa8fe878e04dea9f478533850ca3d3760 0x592fa88a9deca319bbc47f2d15932ae5e4b307a885634eb362fbd0dfaff18d944824; P0 0x13c145ba8651d5fb19e855821752fb0eca5ff1092579c5c2ed42bfbcb8f916bfc2 0x1451c9b69a91b7498992d373b5b84887b4a6d1d3eabc6d7bc3e73372d375208daf51142; P0 0x10682b1a359cb0383fcb14de434008d95cbd27b09709195eeac016e3d2ee6a66de994da 0xbbac26e444db4e115c3c78c75ed8f8bb6a2af95af41b2dfcfc45079d0a55d213a94b8e; P0 0x577986cfdb93dac7d3cbe48b5e85bf0991e45172f4343cfdc0d3ae708403e06d8dd306 0x1261d1fb176b1804415d6d4c8bdf8b285d7ca5d5d96e2da916e635c6395da51f6c58d1a; P1 0x1adad4ee158be875ee5ea384d38e533a648ff5f184261768409f67f7e0db6a9be7daaea 0xab5b0051509851de5732ef6d4e6d279fc5b9f8e58a939d8fbafbbbf509f441b8707d62; P1 0x91d9addd694123f1bb5ac03695fb3669a2485b94fde01cef9fe766ab6d4d0ea782b578 0xf82f1b22187184a83b7125855fb69002226f04baddd5fc777f8b3a802a59ac942632c0; P1 0x131f4bc92b862ff80fc731f811cbe70556e27b6827223f0ce20155a34f9762a9e19347a 0x45cf77121c00e0f7f3fbcc778a2cc4ab7a82cbc73b3155c84ae3cc7e3ffbd264e4412a; P0 0xc1a92b66786ad8f8ca0036bbc82e74b3a0a0ca1be025f3d368c1cb8c5ded947ada53d 0xa2ac9cb4ed2b2e6f15f8ade31d9647723ba32118f591f3205c586853a8ac678a135e79; P0 0x41b927ac4a275d385707530eeccf6429f0126452f72853eaf3d4d2576fd2ffc729a5ba 0x11c1feab4afa119d31ce1a252d6e2d72e7fb998d724448633867eba2740da1f5d09ad9b; P0 0xc87e37d2fe48c327124071ab22a6c49ebaccf0f66a05bd741b4771768c3ec7343d81d8 0x137001c26551020af43d90aaf7d504b14f9724353faf6cbf54f05b624ce843ba109bcf1; P1 0x1e06f001874b04c892f7b6eaa1b43b4796395ed3c920fdee9565b52908f2b131ad9f897 0x12fc3b19a49c084528aa3070057be39f58b9a6ca6fe087fa1a2ff4db28eddbb98bb1a61; P0 0xe52b2d5e856e72d0c33101b0fb7acb19185579bc9b408d9216b5a6a9314ff865bea0d9 0x2e6dbb07002d717f263cbc5aeff9447350a0984b2cc13acb5188aa2cf2630be8d74e12; P0 0x55a8b6f11b663d19e96a6e625a9ad2a7b64f9764d26e4b636cf851a32f2bd01e50a5b 0xab5a9c15378713890ef0809772e4e27a6433ecd15608701d59aafc2eddef946e68c687; P0 0x48ec819e0bda4c2eb6e6c6e579789e83896cd10bc1cdc3bdf2aa0e5d80360840bf7c14 0xd99488a31263b00b6e229e3161d39cbfc210ea2c5944938f42a8861040dd683253fa5; P0 0x75938f4bae87ba33b909388deb18f33a7d25d99f53e0c4bcf852e7284fd41a354c38 0x3b59272264faa90d820f180ab663fa95957a778b9c3b70369d8f63df5f2dfa92bc70d1; P0 0x8bf6dc11e8358b2a29d095bc33263884ac64d5394cfe65ee8d5f1e8d169931bfc1308 0x721bf51848f6bd5f8264e19c1d7d8cb66ae7605ee7110ba7491caab93b8fb15e142f69; P1 0x40ad6c470741a33f55589f6b317da114248e28136d46c523ca453edaa60eb6e10f55f9 0x10527dde6a3e520379e3ede0c183facc70080d998d9a38f372f79ca8c184551e0c7db93; P1 0x152c63b28e4f4437a1f3668c639986b64366ae0dfdf63f8dad6cfdf6eda7df1e36893ad 0x338acd3209f7cf63dc0a24ae192edbd94b0a8fe6669433d2c5f0f46f2736f7f3db7757; P0 0x699116dd493a5905789e27ecdbf5e6664ffe8e9d6d87a140aa5f10eb0892559690601 0x100df98b8225a769d5d93066965a106c363e31fdc1afeecc36543a7588fdd2c793a02ca; P0 0xa3e0ae194d997452093bd7742641f80f48389ca0e4f2c37fc32c88b800321cc8f450f9 0x46b683f662935fcbbfca25c9d3d302bd6cd987c101cc723c261f9401105e7ddc9313d5; P0 0xc6b35e3bb2e3db9a6cddb7939c76146013ce3c00abae01d14c9fd40870c4fb6a98903 0xf33f9ae7e54273dedaf05009e14e0934b549ed1414da919734a35960f23c0bfe64d7e4; P1 0x125e87a5e521d965942fa3344f615b0ae550cf49e467d38dc63630463c6701b687acf0f 0x6c0887c0bbe8dab4dd944d7c0a7d7674959152db38c89b3a8a9c6512ac1e078029c377; P0 0x1cfc8ff5005efee0a6e934d018e25b99c2bc056a1362b6b806803c950a96a31fe116d3 0x146273c8d5f3b260b05794296ebcbe9f9c418004d1d15b242a6258d27f11cf33f5e2d4c; P1 0x21063ec819cbfd8bf6442fbefbc99fa4afc28490c1d64f896f99d6b42147ebfc46f90ae 0x17783bfb17b44dcf3ece8f1681f8ba9d271bf912cf66fadbc707c7eb500410cb9a69de; P0 0x15e371fc2c7483a4ffe84bffeea2cc87ab83eedbc2cd7525087c76c8bba6b7c6d445c 0x84a2e140c0999c40d0b6d02120f4f913a8e7567f204ed13aea6e527f9cb7b436124100; P0 0x2bb140de77d49c2023a0de789b50a2638b9ceaab31f25e667c0ec0c9f7d5fd03f90925 0x150497f0d9763f462a0a5380e261401ce638ce602f71a9dcf86f3b7d32d58cb5f430a3d; P1 0x231bc43360e0cffcfb485cf1f92a80529a82d8e613cfeb841fd7cfe361c7708b3d74ee6 0x30c987294c2567f7cf16f9b3b4c6cc72bfabb469ec19b0780eda6fa439969fc11da448; P0 0x5e9545603d81b725cb78d8c10a4768198452ee2e7afba435a4c03bddf4dcce579dd5b 0x172f042f20fd97bec78736d8c03d05d7a0a23ce44360c7898a174b6b08a01a7bd41c83; P1 0x2ab76a188ae51737904a00eb4afd34c8021610d6f86affe0e9871761ae052f8d85f47 0xa2a9b4d1a229a17be22c7196ecd5494977b1ab5466a8549ce6973343d053e5543507e1; P0 0x41b6ce9b3ff37b5b532a4d3b8f242f5ba722b120f13affe1db2ba4007e51a8ed724123 0x136ba52bb4062ad1f91890d2e39f002475e8de184f478e3123432521f1ccde762643b8c; P1 0x1df977b4679c954366f5b19e95cfa8b7d702ec06af15f5f4074338ce3376c2a1ea4ce9b 0x15aeaf87bba439baf78881e9d7770d8773ca228cd5d270f8fa87231433a8b88606368a3; P1 0x255cfe519fbc212ab7f4c0d0f41e838118571ad1c6266c41f332df8f0c0f3a62c37b5f1 0x117110fc81b76ca7a63f2eaffe28882d3bcff0a4f1257e585aa9e2d67942ada92860f3b; P0 0xc16b0d051393d47e1a07820cc6e82df0ee9f533f1a5d20fbc4037901082a68ecf89a64 0x382bf120c0e63161ebe8b7bac8e2cb2430cd7d4fad3916d8f36b4705086ae6b66febdd; P0 0x7d61d48a096ad7d8c2abf82622dc3c898c91846d2df802520d5442dfb8f172032a89e 0xc9a1304514ea8a1f0fae5b88c658d3031ecee7c636cb374785ea606dec3ec0ebb5cdf7; P1 0xc9f060d032344cc6d38446cd032c94acebeabe73c153a46f51de910f9b1a8a24d24026 0x6bebce284b9470490cf3cf4de49f09d7c1a55ac50f6ebd5368081f220779b2c78eff18; P0 0x1ced27e63b4575d87410dc417f9e93f0acdd49819eaf3482fb7141d964db70cacb389e 0x11393c0595915bc6cc0d6c4bb451e434db66a3f9f449a1f0f28c44c62acc362fed9336e; P0 0xbc9c8137259d6ddb434b9c5f6d770695822a4d7a857ee2b9c99acdcf9ef21e5862d875 0x182fc4bdfacff180d32e1719dbefa17e8a6420264d36bb1cbba0a857bf644d4254b4651; P0 0x173f031c2700f1e9fca31acb54238238b16112abf6b46075da35a4ec64c51bf3ee5c91b 0xb0485b298eb63249490876289a019ec394243521da9e91119c1f935438b97c7af66ba4; P0 0x4d2de29b7d881c9699c441285118998974dce78e29f383ba57d15aef4013b9acd1877e 0x1491162f1d06c53c41c9696021b9c8d45fecf5f535c19a4d2e4875b956cb3253e8fd21e; P0 0x10cf02d30f102c08a0ecfd83a5c70cc424e310c375aa67edc66d4f434c41e9b087d8c3c 0x18156d662eba9595ccefd2e7be89b26c49f59fb3efa1d6c136425a7425969cd37be00e0; P0 0x170c7c6731d3e6fd3d5ad405351f5cb7ef64d969cb24295fce3da00ab0288ebcfa31816 0x1904035595cb333575b915e1aac4b05bcac5787eafec1242a7d336c3cf118ab23b5fee6; P0 0x18ddfcf73ae70f93927b3df1e4902d056511fefb9a0b8aa261041dcdb22a0f6c1787bc4 0xcb494a5f013dc94e3aba931185f7ec7e9ad15bfdcc06ad060159ebbb554184b0743948; P0 0x66a2afc77b60c0eefb0296ad79c2a59bff45b320893f647943819729467009617ac398 0x2b9f6e1b8769dc369d99a87636bda2d1fa569464f334045daec95437e3a6574d4c6918; P0 0x4b9e54978f62ce6e59ed219bf722db78f21d5656422c00c713e46c96a447ff4900758 0x16b16153b40e3010bb6dc4b23d587a33ec531fcce79be123ba160b235dc7b2e97e4ccd8; P0 0x1476ab6c7102415e94d828804709073d40f61d0b714755f77f2c82e0c569d66ee49fc55 0xfdb548942967a534f6c05d751d60336e1c7c4a3f292c2742a159081ed14a833538962d; P0 0x9fdd237bdc78d9fcc1aee6244d3541a7e9e4449ac74d67b062c1097f71bdeb0d9b89a5 0xe03f07b7f8989cd33c460e643d6719e5444ab5680fc0bae21feb85decf77d0f50feaa6; P0 0x7ce421a75b7e09dde8f1ded9ae9350d5ea88247f79e7e479f4975381db73b5c9c253c6 0x12a88b0ec6e63ecea6c8a24fe1ab6d5660f921ed874ee4e1b46065f0432555399f758ba; P0 0xdd5834f3ce3339a131b6befdf62fddc651b27f1f6f4a62177d834cf85c6a9cc70930f9 0x143703ee7b943795ccc3a39eebc3dd2db414f6129ff64a4ec3dc74cd30a475cb59395; P0 0x103d0b740f9e9b2505a6a962b4cc49b6ae27a8cd9d29db41a449cf727423b36650f 0x163143aa73fb1aff83aadb83f1e7ffb2bb2c3354d88b444640f7fe8bebeb0f6cbb11810; P0 0x13922864635565aa01f873d69f4e1ab4fbd4dacf46b816d29cb32a51ab808a256878035 0xc89997c107dc8d5bb2b2df38a5de95503922e2974be929f1c834c68937a133db235dcd; P1 0xc7e1b9dcd606a39fd1aa72b154703865c1980852928d79c508a8d592a75589d3549173 0xa5c7625ea791773b2c0b59351285352f0d5cf9cd00b003ba4a38f5657b64719b8f45ed; P0 0x44417ca4892a8681052c252cfe35c4b2f50ae54ebe10f0a2f4c5839099f9575dcd1319 0x7e6da16a23eada3d0743bd94f1a93080229fac0c7ce7accdd409b62edf63e8f7f5c2fa; P0 0x27b2b601d7aed467263af61bf7e05d0422bcfe15e5211a2252794f5529361d3eac38d4 0x2a61eab4645f20189393fb122db1f315afba20f9efe5dbc812dbeb4d86710ed587c758; P1 0x8ec25e4223700deb78bd658ff867ed3c0eb5edd5c0985f9faafdc6212237b90bac766 0xcfdf36beb591f8fc24b786f0f075ce917d705e247247c0ab3e1c34613836a5b6183036; P0 0x6b5170d4add5a717740f52933c17fde4f9544acdb06acba8e5dfc080f0f5ca30b68ae1 0x499115a8a62e89ea2318be9fee4d7e4fe00b6dc02ac9c9507b9a03d7dfeca1ee60447d; P0 0xd70ff55c5b884e21d8f1b4d7a4fa1b55abc0cb811b77510a8c918c77601e9e00fe8d4 0xffbb962b81d0ab68a3c2592419ee7884310de41dfa5c1895d33576f15ded53bbb8c03d; P1 0x144d9d6f90615cbc96b02da8f98acb953856605e85e13f85c34d1d04390e052f3546e7f 0x4203cd979491ff3412ff594793db46cabda84e3aa4fadf72a49cef285b0273cbc28a59; P1 0x15a59818f86c6056a0e5bc494b3a2729699661503c6caa2b0dfe69446d1f4b7c907d1c 0x14c3f1b6a79ec4bc9dfa76dcd9dae4165eb81102db8d917c5de05a5bc06ea877d73ed1e; P1 0x2245153a9fd330fc2c0b7ee3daa2c45576b2c717c8e905bec845fec46fdf1e557c2b32f 0x2201bfebe8cc633ef5ec9740fa79de308b7236b6555b4a8eb35c7534740e8cdabcc77f; P1 0x5be904094450112ddc27f4cc2ebdd8e73315aad7c954143b5e0a824b91a78f496b7ac 0x127d691a7ba98d0ae33ef1c61ca4ceeae65ebd9109ff2b3396614b6329f40c6ae67834e; P1 0x1b2baec1e16cf1469e2c670c886aff357769e93f557acff77e1506d1607535826586237 0x112ba7e1df0723ab627a76330a5b4b42ec7353560a65f0d71a930334f74b3b3f5d1e0c7; P0 0xbb7391a5fbd4c2d412d1a8e189fc4cc199ad327f0ab65001df77fb8af0351e853043b2 0xb81ca951e60ee9e926cf5924418964d30e867980ecf49e7d2547117c26ff13f4533753; P1 0xa85fc78e39ffa9892aaf0e6957056b22b43773da75d751a4a5937bbcfa415f952c4739 0x7416ef3afc624d3e7f557246347b0a828b959daf89c2160b115b36f11ca7a87afea83; P1 0x42f11f4c532f18a5884b41bf3a35e1086764ef29d7baa8ecbc482fc40049ce85d916 0xb9707c701f8cac497b6d67fa7c74fc354ce8e423ea5fcfc627e97a44e57308e0fab1f8; P1 0xaacf92c9eadcda92c039efea19ced3fe304cd702ddd49e70425fd66d3ffaa040d98f39 0x24f1aa0c70296cd5436d776ed5cf90e40ddad06c7b5b3932efd55f099af54563912931; P1 0x6c78eedb989e152a6d5121f2f974118b1a9d0c07291ec8a8a01a323f9da9ceff87532 0x1739ed6db9f39cc916c2acddf4cdfdaeb474a0ff818f227c34711c49c2ac232e3d458e4; P0 0x156fd466a28f647f1938e14c202b3f0c829918daa39b6feb66907fb637313a636f566bf 0x13be1ddb717eb00a7bd7a6c21ac6359ca554cc757fb8d4a312b915aab713dc232037e97; P1 0x1efa28daf96054dea2b334d0fd5fca450bef463a72cb72d81962601bfac6cd182ba401d 0xbbcf7c7bf62e1b88b924856121846a32af213fb72bedcf03e47af4348c5dbc1acad997; P1 0xaf34f48a0d97aecbe1838a0cdb663e5a1ce4e9b49d322c731c60ec268cda86975959f2 0xe3d39780574817622c8bb38d007eaaf67238929bf0b47785886b1691b283ab92f23f04; P1 0x101d26f02e8f86310a7dd8f92fabc2c6be18d5e37f1c83465e3bb833b327f21b7cc92be 0x4b8a0ac88f2e7c9e8543b5bb474d2c52fff04892374ff948c67e44150d5cfb2303026e; P0 0xe2bfe3196ee2017ad42cc1280c3e7ab824c6782975167b5ae32463ebb0254b490c747 0xcdfcb5dde4229b95940b70d50ae457b2710dc192f4e697987c0c18480202a7ecdc4113; P1 0xd2c2fd5ed2bb7496c4033cad3f12c518656c63b5e731fff0a5b14467a95f293ff8ee05 0x18761cd3207bfcaf9a1ff1b1f22b2e061f9b7b3b1d66f3eb9f1b6ed5826c06f0e2caeef; P0 0x17c6ff7b1dc5252f4a3ab7a960ca3b3a98ee1a2ee4950c050644b8c78a99208671fc335 0x95e78c339fdd9cbab9d11d1d48d3a4a92a615ec8c9720c078918ed6f463a0aea00aee; P1 0x6f9ea0fda6673bd889c6790b4b67971af520bc57835134a2d95ab30e9170c2003172 0xa81147f2cc84bbf87ce90637abbc4c52dfa47d8ed03142d9c882d5375e4030f8adf6ea; P0 0x4627470c299a24c5265374a7182f32a9da6871794d6a5321126b58ebd63820fd2b7ef5 0x1235f92dfd286a5d682ef4176b02736c07ea1e163759fc50d5ffc300b60ce0186966371; P1 0x1a5b50a0edbc106fd01f08fd512ac07d48e76f65947d963db2ad8b3959a7e6204214d06 0x42875083f4ee0fbac9a7190d31c5a5f243897729b48645131ba969e15050f9e35e6418; P1 0x15fc2d5e04534d774db53e08100399088c85d4142a2557974536d62aa73d71c04fad28 0x2a570b7963d0bbd03721133c8a6cdd92b062bae4bcb163c576af489b7f81af184f1a68; P1 0x8e7929d66477a2d41e35c25db6383321149d71497deb0e337645d0b83166e4f6351eb 0x7f3c3ff535f81bfde72e8803af3a1e911340400b0a0fd357839de51470b4205ffaa0d3; P0 0x2834e17dec224e3d57c67180d014f2a046019c2617d4a89ca215c0af5f7834c060ce46 0x8ce642a1d321327f3be5c9718abe7718d0d146af6a42f1811af08783b552cefd25a97f; P0 0x314e57d802c14240baf5acf3408bc379905273f60cea3e90f8cd8150384479df7f0ce1 0x1669623877e3448a90efda74f2322abc2880eecb96727402b0e184812c780a00c99d81a; P0 0x13f5a083f90032ba1b11a051d34bb3cdf894090de4fe25962880c123f8f20b96c34b7e1 0x7cd46629878fdc18a746fef0275694f634e98d722d4de1c78b7c8a0b3034d7952ce0bd; P0 0x26b3573df230dc74fa58295e3f64cd45306ce4e3498a30d369bf83a37697eb2c5c29ec 0x13fafbd0c41eed704abfc9c914379abb54670fc2fc20f19093b258f5f92ade559191d15; P1 0x1fba51065a94585953c3396fe06c5fc0bbb6f2c1772ce640ccf3e04964026b0056146cd 0x5f8e72f0e7ff9b4f4dd6e232fd266a9276bc70e0454e412b97d5d672e9a95876f9d417; P1 0x2d5b0b682d63aaee3a6518c79323b4b9640e13e85aed0ebf8bab4013b099c05369267d 0x44ba45b2bdd18315a79c6e7aca499df13a4655644458bef99fc502674359e5faed3ef7; P1 0x177665a8d68b570eda24e1bfbb4f940988efae1506f6c4e4ba5bede86a53f40d1a6169 0xdc39c4d3cf7ac35cc61ad2920fe78a1e73c3c7fb0441eb29bcd6958da4a1198dedca03; P0 0x7873f0c69be48c01e10869c6b9cc3bdc645f957f64c9f3655d7f516bc6d8fad2eaf061 0x5b6d009e9e7538e65228719a499be8b98d4fc020893aea2813eadd2cf519fa97e4cea2; P0 0x14c274b8635051838c01f0edb404933ce497ccdbcda80b930558f975d75dfe54a61e5e 0x1845ce9a0f65ad8c7cab9339ee400b809e5988537cdef9e878f738dc97f5ee2ff216772; P1 0x2ed2e6c356bfa8f197d3a74095c5e84887bd311b3777eca25a4e26685d040784a45b7e7 0x1c1d27421a4171261129a20e7ca2e7ded017d89421934e415a3eda5c0b3e4a48a9eaf7; P1 0x3ed0fec2c7a60f4192dfbafc7c4c8f9b6ba6a6463397d63b39cf65ecaf9e4fc6d4290 0x26561478abc458afb64f4eb4793c52a2b3cf5342766d78cc2ae07b9aec7f7f232c16b2; P0 0x3a66ab01a737adaca1c645b637befc4399f9db26517d0b2e61af411a247519e5c42ca 0xe9cd87341b00d7dabfd48a0112818e96638a5fd9f059abc7d795c4e6860e7027a274be; P0 0x87c34abd371b52dc3b2d3bd1faaef18b3fb10364295ca7eb3aac8bccebc26248268101 0x1013a686f85a86017a8a1cd14a8e587430c97b7cc23eb0c4dd21bd5665fa2c7f5c2233d; P0 0xa454a14aff54379bd5cd9b0b0795f2a7664497aa9dd26d56e3cbbb8150ca1b36ca4e79 0xe7407771e5c53cf832262ebfc498e5a9a62adf306193a9bc7a0c1ef2001176a4c5fa7a; P0 0x84d0fffa6a9bea2d5c9d2115207236b8e1f73f298e61652ce8b609c4b56653aee1a3ed 0xb1d6b3df47dd49018417e06fc5bef3487cdb89c210d79b5342b376008722a44242ae9; P1 0x9d187544b7c7e4ff3784ec1eaf7698a6a72a6ff089c9ad4ee6db20fd0d5468760495 0xb4ea033e770d902be028d506374e2b25b72305ca77006520e93324f3179efb52a3464f; P0 0x5149b87c75b824043da271f1f23b83291fe7108312d0986b2b05db177e1d8eef6f9fb9 0x5b4c656e62f4d3806e65fc8d07ecfc298f20fc62e62db71e4889c21a6656683258e192; P1 0x2967514e3355253215712fdfc05c66b76d228169bc1c74ceaa32a55f9d381bb8c67bc6 0x812364a8cd67320decf9732dff782c0eeffb6c012a4a3606ddbdcc21fef5065ca84b9e; P0 0x296b0f27130d522533c3d4bde16ccc93a84eb3ab9eed33d0771ecb19cc94084055207a 0xd93b3d005b68665bf40df1613278c538dab010c18870ea195aaec3e754b402ae4ea2ae; P0 0x7533213b99e69c27f265231a6ef6d7591cbce932f6eed6e3e9a747c8cc8c3f80245a31 0x1164c8e4d767d511c6a8c59ff894ea2486b978d4cef6713881b80e962e88bf03430e02d; P0 0xc05b0885c0e8fba569a6c942f3fedb7c0e9799fe69ed02edc497018eb2ebad0f104284 0x11064d6c29d9241248e856ec730fc0f18d6dabb0b57e2962b9d409ed4ac9be0da74cb4d; P0 0xb847752bb3fc775c1017cd14df69fa3923176414074ef54dedf9a57c0cf8dfa9942c08 0x147e184380ed43d4c9e9486007ad6657b152ac530fa83d5a9d932299c488a6ced626af1; P1 0x21600c4202fd05b1a07ef10bb6f9c9f956f67b8c9fd922027ecd2eb3f29a7d195e32fcc 0xa864ab14a36502351161d3eca5b4693c6e0c3b609e6ecd3580de03c78795f419f6e2e; P0 0x466cf56c96411f726abfc3fa98b12d063c1d6691eaaed344ea9fc885ddc61ae47cf9 0x873599122e09a476a95e1c09bbdc8ca783b980694082c37988493008e1b0c2d5c8a8b5; P1 0x5acee495c2f974ba6aa97374571ebdaae1e81912c509e93c1879a3aa71cd33c5bc8ad4 0x9bafa158ab28a7891c991829fc472952c7c139096497b4d88f639b599c6de8de8c4d26; P1 0x786549cf787ffed68bd027d7abae5374fbde6e3a98df4bf05cff0dc330d915386b5c30 0x15c9f126a019ddae323a306afba1c7f8181b174d6983ba69ec26abde0e5b0104943b9f8; P1 0x25bb2929f534f8443b7c2f7bd0b61b2e6c3141ce7c8deeba255e7a90b00ab7b6759f93f 0x9b9570365edabb22fea9c584ce60746aa0ff4a2a8c33027805ea3649dd71e96d3bd287; P0 0x3c1e655f5ea531b9512333ebffb852fd8f1714cd852b27b035354db4eda562a38afba4 0xd69f7d1be6bd8d22eddb0c7f690f468186cec1a17f4ac67203574fdadda08037af9eb5; P0 0x7266eedad057387efd7b9a3fe16e6ab7e5d8fcda08ce33df396b66398f035ef66dd432 0x1751176dde9fe9a2a693aa217063d2dc36020c29b3fe34166247efc491851b92fbdf51b; P0 0x159aabfb988ceb5292ec4d7c66518624366f3cd7ac94737dde6f9029f89c7650726bf37 0x1823dab5e2f3a2212f61625cedcbd39d01c0fe8aabc46880a2167579c09353c47ee6f18; P0 0x172821e0c307f3e73f539ce5fadd2da05195a308679f36849f8b83b7888adf1146b7438 0xa0ff40aea148abc0724415ec56825f444db80954ff7f35513cf6df369dbd3ea7248ab8; P0 0x406001835b034a825534c193fb41c3ed25721b40ca8817c7b10bf42cec1f6dc16f470a 0xdbc16231842979163c565ca531386a780483eb55de9bf095edf98e87940fd3bb5777a; P0 0x77f064228b0ec3c1f7b30b98ea98d2fd517aa5137e7a76d46904da36f2b68f62581b 0x5b881a9374d23460c246bb09b9391ed3748a025d4926f2ccdbf87669826d7a4bd58327; P0 0x14cec5472c070a8200f2b71adfb672c4393f227374000232683e639d835e0d0de80947 0x170879ac371dd08cfe99220f6b6288d970d62bbc31cfdbc74f674a7e8d985b5dc60fbc0; P1 0x2a29d9911456837d245a7a7db8b4d2a3a6456cc2fbcd463ce88240dccb2fa2fd00a46f5 0xbd61a3d10dab93cc73ca575eee4f27f1c53e7bb68cb1db133cbc2d8b7af8dbb8127d8d; P0 0x59133661fcb6a0d986c01745f775788d5b879b491392adcc99560adcb33d4e5a27d816 0x16bc7bef9db23e9fdd7e70582eaa870efacb637986d572ffe32712beec64fce79eafa8f; P1 0x29156e0e7a08349ca89572746acff05a70cd67d86486659a07473865a48a13ed86c4754 0x1787d53adbe5dde41387b1fc74df590365855906b648cbfe010bcabb723667ee5e2dd76; P1 0x2c01282a542a4c64b1bbd8176d2fd7d4ed8e9f4584f964aa462e8b0535a816274492ea2 0x1364f2609bebc7db0f0a32947fffb964b49d3aead1998dcc28aaece593ecd103162c0da; P1 0x1de4cde33ce1febbd5686015307f77aa9fd5315bf1731dd75d16d5493c6a26ff1fde3a4 0x14046777bbd6b7084f052dc6d5666b07a6dd372a74f3e439ae35982640c0409c910f6cc; P1 0x1fd8433941db05975c56e035dcb8fd84e8c55495025cab7ecefc9c8a592a847373b1f09 0xa4c30cd88dffa2c943b4bea4e2c0aa568d95c6247ae9dfbbd48d72085de133d5b16321; P1 0x86d78a97c329455ca1726a14740b2027f1e4ff6ab7d66402d6742dcd40dda2fb19e332 0x5b1aba33f025cf68ff0966f3d2410fdf3337809b5747f545920ab13cd7df7c275f74a4; P0 0x149d287565da41ad1b43cb7e0142ea612c2a6886ba2bb27b13f6bae7daf61668ea5e87 0x375affb57d9f28cc364d4dba7ae892d520d08b1e89bf9cc6870030d24719e3fa88501f; P1 0xf387aa6d6b12c9c0b0a2fcf66d2204edaff31230804a293834b8cdf77573ab62e0275 0x14bbef7e09ce5fc6baedfba460142c80dee4256ddef749e965d5ad0c09ec385fe1f648f; P0 0x1115559d1e161424ae4fcbdf8146f1c6b4c9967575dc8edd0860d2141ecc5ec839cdce8 0x13416820e09767bfa93a26f94896c87dc6771518d94d839dc29528ea8a6f5d3af1fff89; P0 0xebbd165a522f6ba51527baade8552fa4c8d7656c844d7cfe1676c98a6e69aac1952de4 0x15d18568fd1e34aef648dbcd3b3f9fb5e74408d52a36fea0d0fa05ebb218450ac0e8315; P1 0x25d56d82c2bae0802a999644c85f8aee9550e898f52d3ec6f7970b72ba63c8e103606f9 0x75dc5224a9c40703338861f383f4fb3b37f5f77b1e10238daa5f88594fa61d4b77d1e3; P1 0x44fffdf7db64dae64ade6ffa1508e277aeeffb284fa1f47fb67cc799dbe6de1d294129 0xf2e113f3931ee0e57b19ec11247d394655c715bc8c8b9f1b694125ad5e6cdbb7ca15b3; P1 0x1250439593c9f91fe4a4d50f813708de8b9ff3fe3c2f4a94dc5c1add9fd9460748f32b8 0x185172bfefb90be06f33106977b2983a51501b27ad6158bc85516c399a110d84726594a; P1 0x2effdb6487a2e3178c1add02f15cb7c98c4460b941cae4cac0ff06456c2d04506d1b5ad 0x111cc149917458cc9d47cd282a078c2c6cecd6cce55aadf10ad29b62f0e7748c0b96f4d; P1 0x1745d8d3a0afc855cf883a43a90f0ad50b35cf6cc6293895a30ecf674a248b6dfed84b7 0xeca39694393cfe209f7d06e807e74a3ced3f2c5606826ff2caa166e675f0e823f8f211; P1 0x116273983940f604fd9898e78933a446828a16b7f5f5553e63290294f5d04952ea2c3e6 0x3cbe04e7a450a907d76c76d920dc595d22b262c434d8344a321a70b54c68839a765678; P0 0x929ddd0a6e8cfb3f636ec3f3238ae76081f656cf5b88d31c2431663007aef17f44977 0x12335ddcef084d52daa14653d74fc0891ab5d97a8ac607d0775f5b647c7b28236a99ebf; P1 0x1a53c58ad0c1de448afa53366763326805d340cb7e334efe5db36f242332819f5f86083 0x492e929f2258b5f69022c12eb7cde2bb41963f1868d433e9289c5f9df1da5ed29a92d; P0 0xd4d17e27b5d489e698d58360e2601a7545586235e08f1d9a8a80b08ec4cb2c6be22 0x812fde912bfe60307b08fb45cff53368e233c39e3f4c266fa2466d8124ff5fd12dc17b; P0 0x29731049acd3a46f105f65da591b7cd2c8e4a35c410e4d39e26073e672bd3eba1a0b0d 0xa7ec8f0bda9542ca4766d803e53c5e5735df40ffc9aee353a253c6978aa664aea5effe; P0 0x4608a24b497cf455331aa6d5f58056a6168cc14de35b35e98158839b2f6c1e2923ba42 0x1a45987fb12cd5fcf88d6a1a14f1e86738efa11daba9e076d95e027e4331d08c1552b6; P0 0x1b6d632267d858d6a6ac8532826276c66d13afddfb4c3432e11d213c035fd90a4f180 0xcef9c89ba1d60a8bf0b81043f3ee3af7b214acb9e07ce1ca709772b667a5948c025ee4; P0 0x6a650e2aff1336b545fe81fd1558f03a1845e95817ebdceabc3233571f50f5bc6d29de 0xc29407fba4aff09d0e732dafe5bdb91292949f5dfa384858484afcbc4d124bbe1b937e; P1 0xbc0fc05ec5322ba1137d94fb079896ca0b91b8ad3ea687e9d9d55b44e867552f092a51 0x1462aa9b1b895291e96f7a6d3498ecf486839c058c2624169d560ced6ed5911611c0d11; P0 0x10837834fc3f88b5007cc729e2a30f9f486473dd6371cb7f65c6d9301d70fcbe460a6a9 0x1425c2591d966fb67d084372aa796e1443bc63cf198dc19c087c72731e22f0aa5d0bc2; P0 0x10215e12db0cd795dd68984de15724937c8ef66f637396b98c7809c71623bb6d5062f 0x10c45abc14f3c02a448fae0ab5efeeb530cf6b957f97623f4f4338d9b7f3ad0313d627b; P0 0xb2be94b23c4ac90a0a2585d57af68777adfe9d1f49afa30fc1a6e54b2c8b19b1cd7652 0x3387a85bd9837371606abb5d296b1d44c66dd6048fa6eb1030f01a320045e872df295b; P1 0xd3086cc56c5e89ccb011264e5a0e0a5e901f1fff0c81eed4df1744e21e50432e0e67d 0xeb316b3be3b5088d1f54774509c484cf3ea8e8637e03ae4687f86c2dab0520b6df5787; P1 0x112c3aa4a3db3e464a92d841d38489839954662e485e0de57db44fca96b1f31099d8e67 0xfb6886f1582fe3f2d25973f4c75458bff052682ee786280ad8530696eaa3927f896251; P1 0x139f5146eb38f61c35f8554258fe7d9796f1cf4f7584a6dcbf26d006142724730c58039 0x24523aa44dc57bf429cd6f5037593cad69134d825ba93e60f7e64581a9d6a512ad4cf3; P0 0x346c4a3206aab529719b0e69f1a161e6f641c43359efdc441ab5822f70877537e7696 0x18fe4f6dca5a6c6c91ec38ddb762dc442ebe0f0004c54e48be7348fd09a571861f8f40f; P0 0x18d2a7c8b5db2f914e250bea3a896b83091fe77d047c1cc362070eef49f38e68933e16d 0x1194a1374f7e851a965a56eb305a14c1751134773a668f2662c6e48c97f7031d2697326; P1 0x18905e542807d54b017b7f2d2a6e837dd0fd933ff2c8a26fcc5e6918629e045364f7101 0x144af666517a308ab34b4c74906179e486feb5f652c193cc5280021167fd1e2ff492981; P1 0x20ba4e744cafb4553a51b6540adeca3e1e89aff189a4e84beecbb6ad42cf42970ee75f1 0xd1ecabdc4ff2997a26e7d5670edda132c35a30f12dd77ce96f47193b720f6acde245ab; P0 0x6d72acfb3f846ae14fcb1b1a402e2b10008be7b216ad62cbf9f8060a82f1204c774581 0x95440b9fafab7b18d84750ff5f089d03ba91e204467c1bb7a677c3e13bf452343546f2; P0 0x3755d444856eba268a2110a861a8398f601dc2472f1e1cf89331b57dadb3a1b60f084d 0x5629d7ab2139c5f589dd6f2dd0addb45afb396b4b0dcc1e39d9d8d4acb445519fb1ee9; P0 0x127046edaf1ccb21895107086c0199dbe26a9b09a7be7118b9c64e44de7eb8f8ee426b 0x380c1eec1aac269325e90b37ba4ea840e76be6bd01884f1c79c6fd7d7a7995fbf88e4; P0 0x7cd3ee1351f295a8c04e969b4d20e34f55cffbfe86c28fafc2c2176448060bdd7f3 0x185ece4fae95c4c267123148890c210ed350d5ac1789670faa5dcdaa3f67b97a9b6572b; P1 0x2f338b790db0609ffcd94119735ef2c10b5467d29c817c2aab9cce9b8decb58c9c320c1 0xa81a9c9c6d033ff22ae2ac01623877526a240d49e6b24aabc3d02a2108526746463a6b; P0 0x462f1160aa453e209363971686780495b090cfca090e4b32f289f1bef595d39abf92a2 0x304c70d9afaf7d7f0111dca30596479e05a4ad384c775aa849aa627fde959e9b51c8cb; P1 0xb965617af050224dd77b49994264875b40e9d68cc4dd3842545dd9a5760a826b239a5 0xec9a796c7ca584469dfd93617c4dcac2e47cbff40dd9814f904c538785bdd9222bf8af; P0 0x8b08e67f1b0d77581efe7e6e0dd69f95d6c06b61e80ce9a2c9737428470b5ea4d71c5f 0x16111a4d2cf95142b03297fba25529dbbfeb4e5da2e263e3c0b95255ceceb5aba020bc8; P1 0x26b32fd6f3b83c86a4cf4685fda56d224b8d489472301f982a2fe1f75fe063f940f5ca0 0xe23d03d734b0c176b0832fb0c166e718dfff1a4ccaac5858b411ea914a967a74795820; P0 0x7f1eb6d0ef0dddae8a00b893d13eb7066b69456ec6ff85dea7baed498d2065c37d5a2f 0x160d74c2970d9372d88a0fc4aea0e4b9c27c92e7e493741b27e1838f2f21cc24093db77; P1 0x26a66679e355bb676295f780460f21629c3b0a663f720f2a2b031cb1edd1c4ec01e6566 0x6c8a8bf84d5eb328ab75da271c0c85abce9d0e4036180fd9a6afcd0748d41814962458; P1 0x3a84fe053648fa860f8c0df1d6ad9b8ffe4701e3dccb537ef49b13f37d90f5f68808a8 0xfe061dd68565e51578f70c8f786c9e749c5ae62deea488a3860eeaf4a3e68e8d3d31e8; P0 0xa04311bc6ef5346b403a73f3f969d4e23dbad0bddefb06a02da87484ece835ce34ff8b 0x6f041a78482250319087182d1a38bfb62c8a74edd9bf322c97834e6e702449ec977733; P1 0x3d37f0631ca7c019e5508488b51fb5cdbe3872c6b3a29a8ace3e60ec620ed4647fc293 0xd516408890347a5a3a2167b340d66084e643c2cb5328ad93d752938c1efa6cb37b920d; P1 0xe18a6d5be56ef6e5866e9d488a85c8bcd9e877fd4e256624269cd594fc100732d81f29 0x1627814acae0d8ea91a75ad7fb1484111482a5c944da08acef9943cf0570c6b93244e73; P0 0x1380f5ad382e9ecd73b573c26f692b1ceaf6e8ad4f817f468537ef6095b4fefb4c626b1 0x5995efcb2f6815d3de33c66c9fd85a64e26ee8e09ed1900653af3276376e4c6ee38212; P1 0x27dd5e0e272cddd53ac9f695cd0be079b35ffa3c578dd9361b872bbc602e37d78d8d81 0x5c5a5ed2c98f164b43919475efef2e55b92721f221cdf92b1a6df88374bd69bbf64141; P0 0x152ecc6803fed9bbef520910ed4ff5e16a8db5f2c20fd8d3054e66cb04dea6ea5547d0 0xdf76e8e546af1e0f5e9211b215fbb31586f0eb533fa2a47a1833836e95bd7227a29fd1; P1 0xf80b38c17b89a9ef7fda43fabfcc0d299e17291f74e065991a4162a521ed05eeeb6a64 0x43b9cc47145e28a7835f040843068f3ebf0231e43fa4fd34df8fb33b5e8cbf39f6d586; P1 0x16c88fa7da3b76fa814b036b5f9a46692719b978d45e2e86bf91bf263372fa7bc3b9d1 0x29c7dc63de382a04740de575d015777f48db529721fab8eb946e6577e37064b74420d1; P1 0x8abbe7ff197cfaa7b9bd17598a844db5ccbf63c8e65602516afeed42ae225b0c3c411 0x6e5c54ed666c9e21f37df4343286321697ab508042345a029593cab2c2b4b6ebacfa0b; P1 0x3c7f74236f0e857b54907507393c2ede32cd5267ef656d6022652f39b298422abc0a32 0x6764d4f99b5f799c5dc178bf60f973266c4f2ed1265c0e13124d42b2741bb313cf0814; P0 0x1a8ce6cf5aa298fdbfe4391ab3731c11e0aeb88d891d431b271a30f094aad87e022263 0x108d97e91fcafa4b99033785015588cfaa7c7ff861a9539d3b024d9d3f30984eb16d09b; P0 0xae367862caf360894aeb2ff1f8a46552201ab1800510b0d1bfb569ddcffd72ee688d5b 0xde1a15ff34d7709b8fe815ae72a0de6d33aad04c12d4f35961fbe7280dc9609acd361c; P0 0x7a83997fd101657e5a5c04e2d06872e3cd023c3c5e64edf1b511edbc4e3863c3e17ee4 0x1213479a32f887ef89ddb0569b55765825893bf923457d215288044cc94ca7352d127d4; P0 0xcfba1c27a08ba0e623c3a303ca03f84b9110b3bed2825224d9a7fdd14e4ddd85e7f5f0 0xbae4cd94c4fea69f0565e346c5f854ea31033c695a6628911b74f600773075d9633a00; P0 0x56c013f1e1baf1fdc82fe9ff62a6da7501c1a90758c51d624e5d825c92cab9864954a7 0x1e9b817784c477c0f114d7865b7e1441bae1676c750b8af759c338c9d0ffb402e7b42f; P0 0x253a0e7a1829aa8467e5108d23dee6356c3aefc749962a6310da31ac9393282aae214 0x46aedbef017f98da5bb415e16afc75e87f2b97a2c88431aa43b361a1e837586e7bfb15; P1 0x18d10b2b45e719096a612b61880a5dc8b493442c78596edba9e1bfb9f5d06807542322 0x420bba0113005cb593c45fdcf827b61b99b716298b34333caf16a7208fb01931942c04; P0 0xad56556bfd8dc61aa12153dc5b40b8088d30913ed8d43b9e9a6a9f9486f29a71560c1 0x82c52b73f4e6756258d09ff48387d9a5932877cc48e8aabd4917f04aae2b792d635809; P1 0x54f1798b07358131d74e97fa31cc922137ea02546e14c7934b255ec0b645d09c91ee48 0x136faabadafdb6459cce24c0390d652c613a5c687f21a17c4470693658a998eca516aa; P1 0x1e05e320fe420891c8016cfc8dfe6e5677e7ff3ea70e7258a87de8b16c69006bf6310 0x8bfe2c1661a6badaec932d9bfd0738d2d4c36f9b2733ff9126d62975ea563f84aa3058; P1 0x6158ddb1952f0760f0975fb0974f3800a8d80b3ed3a63ad95e8fe2f6159a006adc80f9 0x366b42f5072cc67b816853ece95353981585ffef0a149b5731c8149f021983062838f1; P0 0x75ae0ec9a670301c7bd65bf855fb706a9661efb5244cf26a913d8d3779d38bc17397d 0xd480438629c8c34a38904f8ff060e2686a14059d200086880197f4d73a065d69898b6; P0 0x7026ad7074eb811b0e975eadd8d0b0e02d843ec4e019782176e6dd58e36d836bc5e2 0x14bba3a6d06390986bab41e7082b34ebbdc79acaa52c352977c98fbac3fe1e5e9eb6ab6; P0 0x1114d8a4aded87d77682050d88b88b1b69dabdb6dc2acf504ccfea3422b37f33f5ce577 0x16bd87848d54b36a50e116d766545613be22a064e3e41d9e62722a4a3202d0fc92abbe3; P1 0x2919352abc4f048204a5a7875b269a3d6e763aa6609ac31bc8b4e405991c68d7a00ed0a 0xf65ad75d5f1a18ad93da45c4f611fe2886be47cb960b23d51aa7b0351436c69d295fcc; P0 0x96bb3a8df96b280df3a85fcd7a759b0928681a6099310a92a92b66161ec88c13acc055 0xfac4c7c561005814b539504d64c12c01ff896a5c8ecd7da0adf110360c0e60f1324e7d; P0 0x9c2e505f785cc04632bb089bbf475f5e622d012737fd8338366fa7e1c5ce511b4a97dc 0x7cbdcc75f7172d41f1196020847c739561417a3e5b427c36f1ef78bfa03afa404be505; P1 0x4d4aaa2170e2711f2c4eaad01ef9b7fcc195863166bd49a2020a312899b736bbaa4916 0xf22224ca80c978ca1b3d75f7c410506341d76a68f6b00620e17ca728e9aa54b98c0818; P1 0x123383bf7d8b31095ca2199cfcd0c5533d19cabe74de0fdbe547e8a214ee0760e1b2ac1 0x139e1372fefc2407bd3f3e0d45793e0c08a95cd1262e3f29f79ca21c4191e856a00f679; P1 0x1e95ee79a385407adfafaab1d584bc858e6135e89609761279f8c6790ed9bfe945d9448 0xeeceebf3102c9f687e4d3ff5a6bcc4f96c4b031b2a8dc160d0e0693522b22a2a4c366a; P1 0x11b46b9012d3baf6ce1c4b797c8bc670445009eae2b6d95ec9787ec8dd5cf2a0a132d49 0x15091e112d9a131cd0e06bd3f8522cb20c218f31cd1fd318e06c7e635973f758d63209; P0 0x11957173e4caa7c1f387f0484344e67fcd23f34e3f24a65f1d878932b33175d31a5a8 0xb89bcae9e44b5bea11df6a5cbf12fab923b10294647d52e575912d58c7cfdb695beeb9; P0 0x54a44f8702163604428881f5112b8216ea80b446d4d918ef833fb85ae4af1920366c6d 0x133585fd0094ad259256f1180f97abef06e67a5eb1574f277c40f4ad437abb92d4f4ef6; P0 0xea9a785138f01b6720966a37bdb625b653de7378445d31f549f4b7812e1d438b24e616 0x128f3d2e57d20c336e29f6f2d1e50d705ce164f3d79b40224d2e640324f048e5580ed4a; P1 0x1b602db8104029dd465d0481e066ce1af4072cd16d9224332307e7472f6b00dce1a07a6 0x7ad2d99c6f219414b4882634e7940afb62992ca25c7ab59b84e87d55c1a71d51c914be; P1 0x4aeef16367200cfb97daf185933dc4e2a42769b2e692d4c9e0242954c51afbe60a8d4a 0x74f89c50eca46f5cea074c0017c6fe5da46c1a1bdbaa8492b4b769795dffa0f32af182; P0 0x21fb3066f2551b3be7e4560149b21be048e5ba4944371ec147da34c1b0697bcb401eac 0x3ebd9ec7ad9fb9f741ff6b88f083136b4ac6d915aecb0845d211cc27e720c90a3b1650; P1 0x138d87ddda3e8dcab8fb91904cfb47275d65f16b0cf42d8ea9bfebb02a96af753f60fc 0x120d1745a7dc977a3010b59ff68168e5a3c76235dc183fcb664b0b5beb2b2484d16961c; P0 0xcf2bf54b27d6cd0f08c2cf44fa21c793ed7c65782cc8e179a2123f2ea5f500bcbb0681 0x162f97d88a644a169b7a095296de3b27ba758b398d9288fa3411e780ab3545f13ab72c9; P1 0x271e6bdf9b1bc31324151806674aecee4b4ce3e29d89ac6f8f39c25645412adbc207d17 0x915f587eb9a83877eafd15563240454a34a235032d176608cf3a7d174589b95aaaa8c1; P1 0x68f8f64f6f27b76cec8d419edc3132532045a22568e898af832cedbeaf8bd4fa1b5d1c 0xa96a324671f8ad1cc5b6d3a800bc575c1c98c2d6b3ab364740c5eff38d69f2f2936a3e; P0 0x4748601c97423e4333ac6d4c8c14673e25424d98780da9ccdca40443b2d1b4fab9ac4b 0x1adfde83f4f8fd08f892ac881ba5a116f327310fa4b032b54de55c80a9500d39a072b7; P0 0x1cb332d38f250a944bb1edfc4c8e78abce54b88478efab16a31ceb78672c8bba50e42 0x30b1ed45fd6c3b36f1a4df26a23253443806b79797d3db44e2de704f21396564644583; P1 0xbc73b1bafc17b559f3bda83c677769bdf427f85246607e2950e1d3ddb3fb3d67dc969 0xaee4f5400bf56b0125da8c32ad2030634666fa2c3c21d0896370458d026b5d2b228f73; P0 0x4bf7e9c1dafb2f30ac2e11501d98a4b52184e88a94f5947a4a33277ff1aed7949e1140 0xcd4228ec428bd2fede88b9a1857ef0f923d361516f953fdd2a2e836f17663a6607c4e9; P0 0x68a2f539e5286b369d7082651d2c68e2634614eab4673a5c978d3da59c7f76ea4a5287 0x17fbaaef1d193a41973528979c375a2c3440e96cd6004aabcef83f2526145b74e203720; P1 0x2db69131c17f1baeabd417f710c78f1c1763c6bc792eaf2822287298917b98d25ba9a6f 0xc8cc0927630b5fb63bccc6ff730c592cbc17322b21251934cf3fc949c6f98e5309edb7; P0 0x6423266a590b85db049942f8a968c9ecd9906aba3a5aac30a1f5e52e517cea3633fcbe 0x7d9dbb63416e91473365f6137ee13b7f052c1325d5ca5a91390e072b34c63c420051f; P1 0x4e61247a5d8e74724eadd3591e14b37e5eca8f1d4d216634aed5e089267f27adecf5 0xf56dcd9c0e77b6d31e968c2949894c0c79a47fce4ebf72bd7beb0092bc76b4b140c70f; P0 0x9599b641b343d39ae9c93f18bb55d3892e92245809d88d6c93e35287ec9d1e324cd020 0x1163657ff3a86d8778b0384f837c1bbb1bb7027c97d3b259da9b36510cde167b5a84a01; P0 0xc03c5530ecc6d158fb968f891e3b6fa808b17f0593b6d33655ba300cf08721e1353cc9 0x16447052b977712c4cdd71f4b140bd87b600f7313316794342732924f617aa8c917f1c2; P1 0x276811449316470e48b6e707fd09b8a4c7ed793dbfd11a60b0b85fbb074c6c9bdad534c 0x2e2df2379bb6985903d86cb3b02e3e735bb6baaa9c42603ba88b18c0438bd7491395f4; P0 0x54bdfc8fe50e87be9c71dc2c7344d08994edb1daf4333a6307f3ef833b9920737a983 0x18cac2d0d2a272f713229c4ba0210ecbb2ed7b2746d6268b840f6e455c89281226735bb; P1 0x30d9587653f15fbf0f7b297320d06c16b5545ad88eca01bef4aff0e2331b5edf8bec9f8 0x1771d50f80a25f0a9836f55270271c9b42d0463cf65ba084ebc118563e69cc030117d6a; P1 0x2baf0537dd51a2cf9bb6c6330da0d5aed17cf1e92ca670d84c8967fe87ab3bc9d36a7d6 0x5c975661bc82b098f756798194c0ad6d9efabc74662d2661945fe1570357c75cfe5c6e; P0 0x154acd61638c1538ebef26977fa76f0130a0f818a38469ce3901260b1cd6b59366217a 0x16572d362a27adda786c93233a1104e9e7f632f51cad623f695ff812b6948dcadb6256e; P0 0x13d53fa3ee9dd9e1fb5c03dd76853f78328db46bc92bf958e348fec4c56785f5a5fa777 0x184048c4541d564549eb83c3f627cb986359e82968ed4956e91a8553053d7508b23afc3; P0 0x175ecd331d1826aa20c2e9c8020cdc4660dc3b16cbb1c4bab79e93e0cccb5204f5868bd 0xd6b11cff29e95a32962db4fc1fc3d13de372373f112506269ba7c4720db6ad494e399e; P1 0xe4f3734589587dfb70bef5ea08cc7ce7d2803bab292af14ad49854c059cb5df1533c4f 0x12eed1c35cd8a363d646a82490fcb964bfbd9dd0acd22f5bf17e36744d68be9408c4b9f; P1 0x1c7cfb21ae10734b8a07187a6d216fc3ca419384e7fd6ff7d05569e71c62b2f96336977 0x1; P0 0x0 0x1]
    [(0xa8c55f664384d6fe203ca16a45d7238cad2d61237ce2fa5933, 0xbbb00701618e7c9e8c8a52dc4db42bde18282f2b92e43bc9405c6785bf3310d537bb, [P1 0x0 0x2; P0 0x0 0x4; P0 0x0 0x10; P1 0x0 0x200; P1 0x0 0x80000; P0 0x0 0x4000000000; P0 0x0 0x10000000000000000000; P0 0x0 0x100000000000000000000000000000000000000; P1 0x14587bc 0x18bb179d021d28800835d64578a3ff38c808fec8a84700596edc213fb885f4ef4c144dc; P0 0x184dd682e1de90cc8e45da29e8e3ad64e64b7ac32783b2c9d43f0c365380588b62735ca 0x1032c21b7c9762febcc1a8b85b93921c69d06e70f2f9028c97d462198f104c27c14190a; P1 0x14da5f3fa4e5b3f18d633341c2f47b20b958120b02d9e162b9b11692e052c10dbc34a52 0x48bb75e0c7b390f7995ce596829b9f3227848254c3b482797c2e7928fb1720bc64df0a; P0 0xd2360a3c2fe78b0ceac230f93ffc85cf5c03c04d77e5571bcdee6a09c4fc9417f7158 0xfc7b0d7e63e661221b9dd646b71c76485641856199db62c6863dd64afef39a169320fc; P1 0x13ca431bbe8347d762322d012c3a085ccf5142ac95e477593b857066054ae85a21875f1 0x151dbf885d6a542736eab94c982ab85d45d54fa8339acfd150a3f4768f9eaea2cf30fc9; P1 0x236fffeec23e104e7a2d9bc0c0076cb3ebcc28805e2b2b54b11ae377c1f3728d064c6d4 0x12be602eb8c2c90e79d743d256c0f0bb12a1d30ab461238891153c5bfffee3fa3afe0d6; P1 0x1bebec7867a1fbe418b429ad1348378f9eb028cd890e9c3e1ae73a8f80c80d5c102d7eb 0x7f131555e77f9970cf982cbd59ab1d6a971fbec61add8bb3e2fef0e68edc8c8651481b; P1 0x5035c284b91db2742ef5bad4794fe0c02d01a3490f540564bda3663fddf38f904f1115 0xf314a08c9a4fb796dd87a9ee2e6e93dbf2a60f481aa0f59bfeef63e649f7145341645f; P1 0x12580a80fde97008c3899e859a72c0dbfd1ca7a2e02506855cdadefb338e9ce7d972912 0x4e431fb050bcb0641909dbbdab69813e15eadd6f6fdc1353172637da202650ed040584; P1 0x1e6c87a0a873627801a3e1af11da24ebc1831cd9458f45c1e351c5bb41ba20fb3c2741 0xcdc86048814c3bf3a6bbcd2cf1fa5464b499e41c6e57a853f4db8515c2f26e06f58299; P0 0x692bf95d4c6a76aa56c60c33c0a42529248c4fb79539490444fbb2afe30692fe61dd85 0x1877c9a3daf8b63be7d1abbefdb6f8dd8993cdf4a6608df7b4b74e757edc60f6bf7f30e; P0 0x17ca413d7ddf8ad02c08e2e34138360556fed891b13f531bd70f2cb6673c13a4fc9a043 0x87ddcc21b060395c9130bbf669e03192b4af5cb732249f1c00cce6109720f7c4208aaf; P0 0x2dd8af84fce5c5f2ae10af61fb9279af3fa10dc1dbd3dd6124806d046d5f612183b1d1 0xdae742e49c0a370c9e9a9b8f2bf602ff4bb40387ad0c7eac3c0c38166bd257693af82a; P0 0x7702c1e1c808564e859977de938530cb60f59fdcd7342616a092a1af0c1387a0bf957a 0x10599aafe1cfc043a05657e52ed2440963a98316eaf96f6baa4e197887a60e839f7210e; P0 0xa9f6dd8a26dc9fda821f244aea121595211ef29fee3300e9adffc45af0bcf935936496 0x1802c1f8f26d739d2ed7d8384eea90df8426b3ab39f56892084f978a8827a5d3931602a; P1 0x2dd19c5438c5e8866066f8dcbf757b9259cb7ad73881e08e7e84bb6a4a82a6e0f2be189 0x1282182428d125008079600a48d226932f9ee9c13aa50d939c923904e9e1431afcada49; P1 0x1b397470be5d32a8a4a009223eb4897d0c2836af9504b1b9780db8dbbfda87e99db20ad 0x1769244e00576215846f61d1929d0c6451cc12cebfd3f830b28802d3eb3e912b6910127; P1 0x2b8ea896c121cee3d98dd13bf63702257b5e2adc7c0d105bbb6ae04585415bc478cb7d2 0xf8332142d8f82cac0b62297a579484e6769416479bcab716fb30af697a01a297167fa4; P1 0x131fea87e54b06040a9d2c9734c16844a766ccf25e64d68fad24f282bf8c224c29eae32 0x4037482bd91eca82e2d9c27d72769940918d8d6c459e051693352f066968b67bed542; P0 0xa3dd87acfdc81fd845cf6db0de415ba38b88c3eb1168bf09a4cdd74dcec1e9c95dc 0x14243cc1223016f8e90d26c4aeb314fcb75ecbf2eed473d8fb98c5c131c66120cedef00; P0 0x101eee56a11b244cbe1874220d8af8b64001244478580366a231eb7477c923802693986 0xe4a2e9696346b951b5e450fdb4f39e61005b061c3d1efafbf4c0d7984bcea32dbc5cd6; P0 0x81d43fd66a2fbd8de682cc91f85a54fe0b33588aa7dd02c9748198f0da75000244e251 0x1593152c5f4bffd579af4a42306367dee6290cdedd16d878f62dbc2735e8210e19ea3ed; P1 0x24fe193f92b1fa890af0538b61dc60e2032b052a4d344d6e5a653b73b905416dbc5121d 0x16e62f2aa1986c962e1c779ab0430b9583c6c4c422047d5f89b0baa499201d0badef447; P1 0x29acabdc5a78989c4d6cbc2a45b7905b24d9c0d94d0796610ac322cbc9fbb7645517a10 0x1292d56cf2be1dbc014e23314d578c81d5d6f45c965008c24141f6704a12ba445e7d4f2; P1 0x1b6ac981ad584d7a8493cfb9d045c7d525b0435297ce9ad2ffd67da5dca90d7487ac1cc 0x8cff1b722f6e8a83d795f933443701840602aa27881f30c65e64d4bd593fa5b2636bf4; P1 0x62bf7a4ed8479714345a16fdb9e5f1672ca18a1be8bfe8bd05b0ce3ce87b9317960065 0x18d631223291c6dd88edfb08ac0026c3d11a24d99a53002187b88c832ea0893287189d; P0 0x1883374bd37945b96b385ee0422ba225e5eff868d2125010c05f15d7f1f70159fa955 0x649b57e55c622f51eae9af66adf420ba68e863865a1da19522c5b20d4d9399dd7ff536; P0 0x1923689155c91696feec5b3119f6d58dc97b71875234ed9c6aa0147e8f8c70c72865ec 0x86c48028143e5e333de1ebb70d67516f75b422d1576a366058e1f88be382fb4b4f94f0; P0 0x2d1b9cf2a59f15f0e4cc65807192a82545ee600c4569c34be433e73f6c0841cd3b2843 0x17d332b557b05df087e3226f36f1f11c2c5003f47f58179a17b1ec3dc93937f964e9eeb; P0 0x168e667b06d9cb7347702626d96a79332bba394c410d1691e86a2621b105647904d0599 0xf614aec22718a5fccbed1c1e652251a9f554f58420e35310cb684f2c01ba738bce8fca; P0 0x96656c827bcc6071d3b3ad72f999650bd7bdadbfba56273a12422c7c09a07c77b617ca 0x4a4528b722d15634e070728b10a6895d3a8762b4fa7ec3fc1b84d7dd181232ed3c195e; P1 0x1b663ad1b33123f2ca6a706fe10e4b82bab7dbcab0579afd5f7ece3aa99dc8807ec970 0x160e382b274a40fdb2f98b15e8c14bc789a7b5d1b28e3812acd4b034fd5a04eb63286f8; P1 0x26a9137aecbfb55dec35a939322921c05fdf088d07203cb7c1e706c837b65312ae7d471 0x12de1155f1bc2f91bf6121da1572dc1bfc05fc3968f9cecf3bef4dadfc0ca28873ccaa9; P0 0xe2553f1eee784a72b4323d81f6033a3f3eb8f8df850068047a52f28554f18bdf0ead87 0x18b25ce880cfb9e7ec51c2a277c46bdfdfeec5bc0bd48f7607aab8d37a02f60b3cb01a0; P1 0x30796283762b1ef1f4e461b43d1cafc048ec7501f184cf008dbd075b94ad5e7538caea5 0x1789aa310281faff75fa9643a11ff54c2995cfe86d1a853dc328fa6b59deac9987eabbd; P0 0x160401384f2c2729aadc010c2ae407dcb8961fca6b02f2e41972403fe8c21ee713f6e99 0xee1e9ddb354ec010f2e873c6e2ccb0add33083a9cb5cad82bdfb4b6efc5ac75b240e9a; P0 0x8cd2874958768da39947b2f3d3dc38b2068c3f0d458be8ca54adc42d5c198207b9a4c3 0x1888db667f23c70370044f9fb01f5b88f74fab805b44904527519caafd27457be79ab0f; P0 0x17eb7e37d37a31079ced5739490c2d93ad2188dc970dd511d6f171c2890192f446d9786 0x95460d401e36b569810274ffd5e9328b86f3f73861b6b2801a0bc1aa9e57ef1f9555b7; P0 0x37575118e5deaff61a35d8d260ec553ac7d30aea74662d8d99dcfbff80d6affd91a811 0x7aefee6dbd511d3fc3317121776521777b9f5c19393bfe9304347f2398b6036fd7f19a; P0 0x258938cc1d689f48806d134d8919daaadaef79ce5886635fbb154c7c0c01eb33364e0d 0x16e977222d000f9edfd969efd6a3eee4679986bd0c209baeed0f2888c1834f3b96e7a89; P1 0x29b89e0d3cd554c5eb96a5527edad8c405aa90a514237941ad019e8aee3801cc8e3255b 0xbc9f23aed868e884ee90b2928c5b6c6e6b3846315fa981c9b57024c6e62b6ccef68ae5; P0 0x585c9d2393ee949b233c4f9f49e072bf65421c564b605512eaaf8dc5c12591c8539a90 0x5d61c3c5747a438092995fb763473152c17eb899d714cf00f739814d6991556ed86ae9; P1 0x2b50998986e5f518d7320432edc5a155f15617ab32a9f3b0ba5cf53e6523eee9146258 0x7f18a767d85fe50aa63f9e1fda3af2eeb2a11a048743e1870a666c46c8c8f97c22edba; P0 0x281e657a55996498d159b66d970f702c3ee424a956d78010f97939362d86844566fcf8 0xe89ad546bf8fd4197ac56b92f608416486b31d433da19f3fe61b75a78082b8da3d65c; P0 0x8660069c0f6a0084dbc9d8b8476916cb431808dfc36dd97b307e3c93afb6e863411c 0x136643046484c296c5047a9b0a812824fdf31bc9c55bea1790f47fd21b5c5d2a72b5c4c; P1 0x1de8dbcbbcfb37d337a9c5ff9236bf60eab95aead2bf39c4e26b60411ea2990a5dfa2bf 0x1329f242018830475bbf6321e9fb8346165800b96572ec1c24b69b56aecdc81fd6bca7; P1 0x1d3000914bdf747693823b605f3ac7011efa52ac2fc9ba6fd81828df67cbc83c1ba59 0x798de5f423f4e6dcf3b45070a6ca7e2e7f8c5aa610b6b49300a08a63e64252e7490cb3; P0 0x24b23f0e4da0868603cab374ead66c69064ec3e3efbec64e9c2f8a125fba821b64b72e 0xb3dcdfa5b7959cf7b3af63e7f6b4643714b17c17829e207406c70c1fa40466c8c42467; P1 0xa0b12173f14341fc4fb2fe78d174a7780ba83bae726f7b146097fcf6638496726cbc98 0x9b87d267f36d43de1669e7b4d2e26bc9d21109094acb4bb8785274a83001eed2af8ba; P0 0x3c13dff2fe9076bfffd7423ce0eeeb5b6be68f9f91e1672c1c1778456d21f8ce2232 0x1095a385dfecc4d035b09d64ca97f0b67748f37ab736355acd4ae92575cb6c010bc4e46; P0 0xaedffa3d7bca17eab6e5ff35197c9b9a1ff783383add187e3a22b4cb9cf2e28f35a84d 0x16d79a056b78d4f3fd6ffbccbf3096ef5ae4c9fda84305c86d8e9bae7de291db8963d49; P0 0x14bbd46087315a8046e2975fb7c014f3d7ff4e37b3405e8e46a028ff8220d7ae96e44e2 0x59e9b51cad014e61d343f8cc138e81dd10e993cfb1de8ead59a9ad8544b8c5584bef23; P0 0x141407676272036d17fb7dfeda592d9ddb2bdba0ff4cd4918cccf93b1423d4df4a88d8 0x18444441ea00cf98569731fd19771bc0f5634a59e593524422c350442c0251a64eecee1; P0 0x17667ac185528b1c2f5d6510db26ed880a3860b16133313dc9b98687afeadf8b019a6ca 0x7f44c08c85a675bb8daf0186deb9076ab5928ee036936eed9579abf635cb8bc9b986bb; P0 0x283a41489c7c67acd36a39a12979faa86ddb385a05ca30b6b73e06149442a5008108d0 0x125ec36ec96a03fd34c182f4bba3d684248cc5c01d362d3f4c284952f296b1ed6dd2e9; P1 0x1ad1e730d7dd947b3c1558528042bad57ccd2f53bcdbda83254b9c44025bc33fcdc30 0xc2027b34148d8c76aaa7d79d5957afb1d6714c392598e3f1644e28aa6c7603c2e3a6d2; P1 0xbaf6cfe10797f6ae6a598e7c8e6b84d7a939a3e654a55287bbdd0c7291b5d99d001646 0x151cdae96e8fbd91706d0a5d7f2c3624ca2725c71ff6971be3b231af5476b7867624c1e; P1 0x236d00a59a6ccb50ced66d6816404df2bc68ad790f28676125601417d16246f8a1f96ac 0x123d81dcc18c47d76b5fba7d30451f4b30f56cd0c9643eeede7316aea933606baca6f54; P1 0x1a7123f039ae724a4f49f12a330b6b00045c1c02481cc540f419fa1227032aa8895f1fa 0x10abdda26c88685af681321b81d4ae195c35e8aff4be785ea9dbbdae5b7844c120eb9ca; P0 0xb0b5f2aed3615365e3d55f562888de7a52fd9e2fa479a02056cb40af74354d59b566ce 0x98a2d334af7e1ae0743d0ceb681d3c4895b2843f4fa42a89e6eeaf9192ac1d9ac0ad42; P0 0x39dcbe6f21de236354a0da26ea2286daf5ebca08d0296334ddad6aaaa88cb6b7a20e27 0x14858f2c0396f394d3e091a6f17f1f619dbf9bc90ceab42bb809ca7c8cd60c17a2c6b3; P1 0x21786115968a99b9acb7ecc92a1dc9a81725adc9bfe065b5ba70deb2559cec88a7c44 0xc572783aa191db8d2a02c5dafc4aaa2c7ec43613d80655aaeca1db89d82a8b3ece6176; P1 0xc1a5e64654fd4231c84d0f8d7c66ada1bdec1c4cf020b77bd3900e325d4be1d34167bb 0x52e3efe5c88e0ddbd9e2a96d58e8e8dae739d72210eefabac0d013b300ba860edbc6b; P1 0x2220f1f67c4c0157d9be9af4bb16885edb2954a477a578b81c8c6a2ceb7d3c53225b 0x180459c12865b9557d5b71a5b5266fa21e225e212b069e791d3a08538182d3f86afceb5; P1 0x2dd7b0d6c3da389fe100a1799975a62ce2f023184cfb051de891060289b1c464133bcff 0xd11147b4c45d9156ffa0dabe6303d93ca5deccb9817b1611b3d9fabdbd02dc97abffb9; P0 0x6c8e601e2e09a6393d177c32f05a9cb65815f3976583f73158b87dd38e167bdf8f1f93 0x379a67df52d48d9633912672caf260a20191d38a3e91105c2f4cb53b95ec749803726c; P0 0x7adb687efdd1e5e9abeb0d840614a12593f943c0d4afcdd3e6b98c8b4db81eb78440e 0x11dba3c406731b1b88c2f7479d342a1f149edd81786b4180175ebf83e1d9d156ba6faae; P0 0xcac2ef7104da7bccf6f92db98be6a51c2674d2ecc75bdabdcc69892a1cb06260ad63ee 0x8a6ba81d157f447951aa581c4ac7095a1439567a9b6637f7d82765232ccf0f42d96442; P1 0x5f2c36a894c7559ef7e5d971e47f8f2d4c5dbdc5f8af891fa0f40250aed9d5cac836f0 0x1835275ac1ef4ef015aaf81de5ca101927bbcf056010787073e15c26e074a69b833ad78; P0 0x17495e46f753513ce791a238e7dd474d426789b79637d312e29335e721ea59d3c560ee3 0x13bddda833d32afc735e0977c7d10dad1663d2a719f01363120a129f9c8e27aafdb1fcb; P0 0xf7cafb26b415978e027c78867dbd21a7c6b7154b7c8e961fca94cb6ded4d4a784e0e0d 0xbf0a0bc135b47e87fc50b6685017e3b3febf8cb409ed29fa5bb972afc6dffb9b0db4de; P0 0x5aa43246bb15aec84fc33bf0cb921a4f756c7439765000a83198930385a1270eef3500 0x1578a8296868e315e89f4a526e2f913aab8c35dd1a837cea8eeadb85894ec9e9d68bd84; P1 0x24a3b1a0eddde69b272def65a6b01947a7bbf6ec08545ab1720a9e03ae1e9ddf4cc966c 0xe041c0dcd33c9326072af8eebf7af0ab063728ca0ccc5a155347e4e2baafedecc8d22c; P0 0x7ce72a3416f5413fdfde86e138e8ac1e8390c32ee2595dcac4738b8f3ab03d49b03c83 0xbbb00701618e7c9e8c8a52dc4db42bde18282f2b92e43bc9405c6785bf3310d537bb])];
  mkcert 0xffffffffffffffffffffffffffffffffffffffffffffffffc7634d81f4372ddf581a0db248b0a77aecec196accc52973 ([(95%nat, 0x10)], [(0%nat, 0x389cb27e0bc8d220a7e5f24db74f58851313e695333ad68d)]) 2
    [P1 0x0 0x2; P1 0x0 0x8; P1 0x0 0x80; P1 0x0 0x8000; P1 0x0 0x80000000; P1 0x0 0x8000000000000000; P1 0x0 0x80000000000000000000000000000000; P1 0x0 0x8000000000000000000000000000000000000000000000000000000000000000; P1 0x80000000000000000000000000000000 0x1c4e593f05e4691053f2f926dba7ac428989f34a999d6b4680000000000000000000000000000000; P1 0x6427700959cdf909fd82dbd1413344aea06a48ba5558e62df8183036f304fa1 0xe64b00fcfa5073c91d93bebcf7699909eaac5fde599e19e2d87ae2364f72cb29721f02d2ffd367c5b663d75abda671ad; P1 0x19e55b7804c086a5df843fd59d3ff2cae23030663177205f41375d0724621762830388e2a996b1e13c574be99c67c09d8 0x8f8344b8db87af261c27deed8a5875d8d33a6aea1eb27ccf3d04e1a37217bd34222893eaa6c9609a4a066d0672859ca; P1 0xa0e7d42bd9c9f94c719d9e5d2b3835924135f96525cec77cc638f670133a2bd4d6e55909a938928e8d6842dd2b36a6 0x4abf36f4a33bb44cd811f4a682c28191fc5d01912fd77c5c332f23427759c44fccb4584258d6cbe89632b9bad9540436; P1 0x2ba63530f66c6bf07313feca7e1d94ec3f0537e586613dbad3932f60e2e790fa541440dc9c354650a32c8b448438d305 0xdc79e2f123a87d45a32e45b6dbc3344508458fec4368f3d3ed77538d62030c82099f2ac19dc366071e60fc73c0d7de89; P1 0x17bc3702d8cd7e55f835c37e1a8368d8918db350e2bf6b3c851c927619cdb8a24f37193e204927c540411e82fc1d05d6c 0x54c5172a7a5a4be7f2cd4d222b0aae977e3ead8a413207ae474a16c7c41f70e10b1608fc97bd1485f1c4f7d5b373871e; P1 0x3823dde1138873a34822610c7625a882afd4cc09a2280739bf23936ad3b51e3e406b3183cbcdedbacb21569c877bf87f 0x6f5f217a19f728629ec1a7ab711ee33fd3e70d7d065cf4144535a5ee0a6e938ae15368b193cfb83f8279ac001b5156fb; P1 0x60e744c37f089ec7f2f7c52125a7c9368e65256a2a5c690b7ceccd04e3388d1f0f4ca1b796186f505aafe60c56eb32a9 0x536e89d2ce19c0656ccbca663ab2e22bc1b60b3bf1864f80536daba1739d20c0f233b74d78c0c5feaf62f894d5f56147; P1 0x3661ba32da023e22e79e9ae66cc6dfb28baecafe92675515c50758f2bcbca2f00216c5371a8361baf44e25b4a5138b57 0x7b7ce51c5b3c3e4786c6c0521d8148f1bab381e73b92dbb202b0df981355fbf10616078902fde384f925e7a722ae3c4d; P1 0x7722823000600925dbd60d24c3e5fe7f14614f2230cfc5047b44a593f13ccfa3b74f80d8685c169cc2d6985811e594ee 0x14ff14fe1cc9f1e7b4372da73d702a548b4f498066786dd2f68669cb26833486ca803dd64aef42d3035c96cde39e5968; P1 0x371b2e510eb31b1a30d5a7386839263bfb21be85cc5cfd3ae123d5e1a413a3ee866d6722453d4eb4b40dbf2fe676851 0x23b36848e8379e54843c4cf72431e7bf2a3af839cc10de3457b5b20c3e757234a10a4e86c4157dbd64489fd2cb51f1d; P1 0x9f5187ddfde890651d7fed25fc1d03f83d95c361a9383e77897313e16b15c1c6a8e97bf1ece1e4d2e584cd77b3995 0x72232c5fe629fd1be22bebfa242e098256b03dedcdbd1366ff1c81a1dc37f54f954d0924a313339f8f3736e2615757a3; P1 0x65c6b0b525cedfe63853c09ed7d706a171d93c589b9e27ba28cb706722c0ea796b80c8ff9bd686b0a4e958dc82e03aa3 0x75851f471ab17c6e28407ae9363ab0e946d19943d9b77e171b0135262c922732d083951d11960a84599c83ab206f159; P1 0x6be5e7a1043488bd913dfd0d00d09f6b85acf23eb878f63022997b5d1b7d6103eea5b5998266bba66a8cdbe594f51e 0xa1378a5f4057e9753f31eacb21cb293af24fd2030f1c938fa0b9ad528bca1ff18b4bc312f9af536e3f03de5a6a277768; P1 0xcb0dd0311d4e1c76c5f761b07c53bcd1a1de6943c764376416bfda60120dc12970ff5b576905c1e3c9cd4be70a86d22a 0xe3e966ef1f0e07dbf379c351cd1d8d8b2a97e5c8c5462ee8c8dddd19bd00aa878795f08b08f9cc5f73f95218ee3891a2; P1 0x195cf82b13379ab291ccafad4c5db1bd69c11766853471dfc2518afc826655528440bddb1a879692d44b3516ee521e37a 0xb5ee02064ae753198f7d257f864aadb52d75b6f91652b4d5851e95d3fabe264e2a954c54c91cb6b74433dcf1e2e81b3a; P1 0x10294d8495344f5e7bcf938752b0bdf6110ad1a22cf3e3be0622c7da19f000bc77febec07fed56c2f6a1c2a90011c6962 0xe44ebf55f8f5606eb25132130e86395832c0b0e6f3d9611694d8a96ca2b84e8f815ebb250b332428ca8149264afc8942; P1 0x19738ba1495b45f52b811b09873a2ec9abe041702e12a37b132f1932546a9124bcf79467b770d2dd4782c6af80fc922d1 0x5693a0659bff07e147abed5855c400bef594e9443f9ddc2924887dbd213fe6db32b421311872eefcae8daf1ab24c4d25; P1 0x3a8f09cbbbff57035208ebbdc67de93035fcdfb79c7394b83f7d1bb267f4a89d538cd05728f79685960dc323f039a214 0x657a24bb338c5049022ae26bb3c22f0655b9ac4f267273696a6091f53b67f337cc42a38a6756fe133a2aa2aae4318bb6; P1 0x507336857cbe10f3e27ddf6609719ac54c03a3d57e3fa5594ee23bd2c4e444e297e1d2b44b19a0e7410ca2b8f8b0202a 0xb890b411146a0870d3b189c3d9c2ff0b61aaa596f7d4ba9b02b7f32dff2c1bb49801956a79a6aa535b7682dbcb3f1dea; P1 0x10a20a9473e6ed28905a3c75dd6ee977c3df592cd35982cb6cb9ea197fd089743ce899ac8fde5141e1546ee0fedf13fec 0xac1ae5ba25dfc652cf70cf44bc6f4e26fd874a8eaee99ad95d8521fa56b68bbbac23ab245f75b7cb7159a327ea1d30c4; P1 0xe7684f0b35b5e621ee5107a58f946d807ab7a1a9a436ae5952c33f150efd4f3f4a149e6c387e54dc39f0d264fd717c58 0xb807891e7fbe99bca397c222e240c70026c26fea03d383971f7478f0878ed44583c0a5ea497c2325ccef6c94f4c73898; P1 0x10895aaa9417d438f88e3663e864d84c0a74ff6fc03ac52c2fbf7261a6346b85c038bc6f714c8d4d29311143d4e0d3660 0x65c2288c0250380e9a5ce2616df5f7d4e3d16ad46bca39a9f4501b99d3e0736119e2c08b1e65d828715ab90c0c20e760; P1 0x50e58e7fe8e5b6382a6cf342512a3a774393ec556fca6770a1d6edabc8c821e33a3fa45e103fc848e4f066793b90ae52 0x9b2ebf4d1d03fdf503e4c30be1dc0ed74211db011f2d28eb128cf4f0eb613801f924f10f674f12bf5d7351a3e739572a; P1 0xbc2348615f9ad6f8c6d1666741f9a9f4399140c23e9eb52947c0d81932382a49901840e64d11afa1bc60060c5e47e008 0xf31d883a405d05806e5f28abd4e5d1f87f1a97d2956e8e1e13b7dbd35fa361513706b56682dadb1748c02575d1703a30; P1 0x1cdc2280d77c23e52419e8193841b25ef70eab0ab2baa853b77fe3bbbdb58a1509c9f191a7f15d3d189ccca050ab9ebf8 0x57af14f63a97f594faa373081e7a671dc32465ee6544ac4dc4600b63ca6a653077dd29721618a9e4ba111b62e04bd998; P1 0x3c10effa0c5d9552d7bc753a51a6e25bcd3ff138a542b1e96d3776d7775fade4e5bf0a3b8cd075895fda4b2dd1f4c4c6 0x52cec586873894a8a85dcf2a97099096d5818fd6563501ce210e97cf3bb2f0c391157523098f533261966cebb72ff98e; P1 0x35923b19571462346d7df9592c1358c732c96552d9d729a0741e479ecf13a7442c4a2283213e0a08316aaa69ce8eeb78 0x8fc790b09429474a0da18a57b62f3fbecb084b6ecaf50c32a0197234e43955b4144cf7d2dc0b3b57d13ba609b19116a0; P1 0xa1811e6f13a72c981e217fe229f875d643754504a2c734e0d3f4f6320419e0ff9a88858e0df99bd38e2607757c7a070d 0xa4e183249baa8e81cad160ab1844530c682a91b7a6a50d1b997067555a2b02aa508131c4a662ad6f5cd5b2e9878c8829; P1 0xd4636d5d61f549e300f7585a6df34ad10615fc2dc26dd2b48667742db3c92e207c4e5a9c45b0e2b6f45a46a2d05d2676 0xfa7d20d7d0dad73bb5e7f29f84df5f2f56dcbaf4d4f59d9b1fd8881b2016b213cddffdca225fc1330f02f311c0b80020; P1 0x1ea31429d35c8187bfec2edf8ab9b07f3a85909fd4db923e53e9fd1914869ceaba9e736be78a49fe0fbb97f8718ed2e46 0xa5abe2645af347778bbe4a51bdb2206068a8f4e24ea1737528aeaa889ef0365ed026ccdec3666fad33ac7651c92d088e; P1 0xd66e0a7b2f08e61c98cdb32d3d8c16af22064395124afc386e7f8b4935ec2ba2de0d19c6b20620e99825dd00e0001d95 0xe6b3b99a7350b04845ec694c249e27db9d1ba3a98e0131ce18bd36998536cfaf33af34910bfaffb074b472cdd7f73699; P1 0x19fcedf5d3785aee3e5097346f08f60776151dde44b60dc16374914b1cb747ca3c60c09999cab61109aa37770fb14e660 0x86f1964c5a41b84498c6e7a44e09bc64896bfa8dfb07d256878fd1b90ff9ecf22eacc113299f05d1ee916091de9cf1c2; P1 0x8e439aa884f89a5ef7bfe6668afea4e09baff5a927e500d9459980c648b9e3d420d12be7d7f6eba32c67cc232b88bedd 0x29f1533c9bc904746e261bdec2ed74b0aed2e022bcb0d9a2faddce3a9b5f34186b91ef8a46ddf130b3d577f5906d8bc1; P1 0xdbe604e7a281e8ad8d46fd6502b1688b89135959d66ae62c2f49cb3849830885917098fc0697608c0c5079cc8eb7296 0xece577aa9b0c1c27d593ce2facf43adebec0080c003004a7997a170fec86133470daef2f2b81aa8140dd6d030bdcfa0; P1 0x1b66fc4a3ba0f8ad6ba6d6d717b434419df0e311b143f333c3f0a4690d533d288a1680d554da333033a6b309376b5da 0xb6153537794efd2f2de15a0325d28fb0e1aa8dfbf98626216ec254a06308431dd63ee67a6653cabf1202a5388b12ad12; P1 0x1030452d94d4c76695a7813e041d5b35348d5c2c4ea41bc782b18d7c6e6d5f6e47c9bd63970223c3d72411ed74a7edb8d 0x5bf09803080b85470f312ef0eed0fc43c27d3e10c2920f5594fce1a253e3495f5e32db356d620bf43c05fcc2976b7531; P1 0x4209dc5f0f55bfe291a75c4a75bdb63520bdb3ecae788d5495cfa8d844b99969255437906bde6f628735605c97110553 0xffc61cff9bb2e059d1f50a93df19ce5dda0d46749bda139865257d56d3c069d8894c7927fd082b1809ffd1bf21d8f779; P1 0x1ff188e2c2db839d952af474cb2e3e5e11a0618d4683ef9312b87a9ac149254f825a03ddf2dde33ede8c246a75775ca6f 0x569150a49c963b5be0421f12190dafc44be04df9f1f7e0d3ca2a82da26e9b2306b2cbefd4253b2b28fcba2621814b785; P1 0x3a8be9561a2b3b8fbc3ac453346f2047988597116c15837c90fa3e703247ab8c2eae8eede0c2da3bfca101d0d67abdc1 0x84b1da2b01d9db10f0524b5bc1732ca8ac7fde31f04be82bd6b145b0fa8c033774afbbc45673e191df21ea166da2af7f; P1 0x898fc917869cff161b1a1b35f0d7d406138cb06e4c1149d2651e2360fafe4aac24b88f0d54deca0de84659194506cbfe 0x9d5f163e681da019a57e686978045cc7e97d4ffea53dc59ef0c7cfdb96479df25b542c6fd8288be1cc1acf3fae670e8; P1 0xc17b89341fe8caeff077d4867e1ecb5418d6e82f2e228e47bffe3b97b969efe688cb00e1137ba4ee09f3e948c9b428 0x1c29066e0f3bf505008b3ed889b7149e8ff097c7ebfc49c2c0f5fcbe57d2860068137a04991a4d61efc6cafce2194e88; P1 0x631fff6457eadaaf74706dbddf2ecc4388413c10d5d29c444f39bc259e71f2e1c05cef055175762d22c0f4ffba92931 0x3684506aa5041a07959a2d42b746a59b44a92b0dec8186160cdc120b34b8e7b00f970dfd400924caac10dc4b3a02f67d; P1 0x17382ca009b5758b59efcefb57a1e494f0f8086d6b39f09b4b6299812c7799e1f3f897ce630a3183a95bb5a493105d72 0xef2f0935c9b19cdc7d6f7a64b26b0b0c0aa7a1c9d1e1e0c1ace32d2e2916c9aa4607d647b181f0ae68323c306685b5dc; P1 0x1bef1b7ada15d0b2dd54e1a4285ba3a9a062092aae35e0b7f43f93d5d901b19f09789d476140e67e22e34d20a195affd6 0x8cf937c10089aaf9383a10da8b68a86c5485d0e9d1e46863503fa7c7bbc182a8466b8ad1ae36f81dbb7a7669310976fe; P1 0x9b430f31345c3d184ab41eb7faae3559c1e9faa598a129214d68994f5f7169da9f04c57871dfa08c18f63bd81b3f0211 0xb5968f323640ea5c59d6c15ce4b328a39bb9ccd1b5ca09ae47fb8c7e9bc4fd06d53eaf5524f6705609b898e82a9ea165; P1 0x1019c7e123f5103ddfbe241bbe596476b433f46dd4e4f66c43be0913814193cde62d5341ce38016535d6a9a9a7ab5052a 0x32cf3f30cff9afe81f61bdff22c046d4a87c0c2d519464c8d610e209ada2459335fbedf4bcf6538e6f6db0c6f66157d4; P1 0x142b38eca38ddc5961a1c58fb308d85807f16bcd07dfbf7cbb8f014d1a3b858b135f82d1e9c27e9eaf785a1803666f5a 0xb28c1ae760707d120914d5d325bc3ffda9e5fac3436c946b50ed077e92c0740e3bb51ad8613f6241750cb655e2781fb2; P1 0xf90e442e64037357d231af86a44c0cb0531f3112f3c9f9fc284c6ecce5e4642b63cfcebe3e9451125c0a43f9d9945a28 0x251375bbaa05401d3c69e1c862aa8690372af8175d221b90e4c3ebecb1408f2f1ece718772b5f633547b786944bc4790; P1 0xabd4305de4ba89531fde059c1892564a2f901e591080df3f2d08e2706146b36ff961d0f82ebd6413eb700676b607abe 0x7aeabab9b4aa76ff2dccf76e3a4ef4e6678463576982101d715e5c256b5fcb78fbdaa24372e609871338e6d9d2ccd0a6; P1 0x76092265c7c6449629e415811301e11e59c1cfaa500bf1540edcbe3fbf8b25ea656e78a98f524b9001b40389cd2a04dd 0xd0cad2ed2ad49250eee22de232d1812cdd889175e654c20939f846e5d8ac532454cb6d558805eb9c9a1eb8b85683c301; P1 0x154946ee5e355f66f016d53952b55f8e9e51e7c90d278637344b3dcb8bde441c35312408e746cad91072452641c2e6f00 0xee57147871d3341da5169b28f689ce95926ba58f9417a87f6f00c1b9f5b4ed20695a39da9fa16564da5266e0237e2f02; P1 0x1bbcc0f5dbe4a39d0e7bbbb6a19cfa2e63e59722fb32dce5fdd84ef761850a231ea96c975eb1947df3197265735e8f403 0xc9ffa9cfa68e61b14dba6daefdbf95737593e0b63e3c97953f5e77a49da099ab531e67d44c4feb6423cd9156042a5faf; P1 0x13ec6eff79fba6ecb9dc549c338554249a70d039b5a9bfbbe3b342ff827a9ef87eabfad10036dc6d1474c596327dfbf9f 0xf4feb29cb9a6b86883d959af12503d18c15fc46b4694876dedf375792263f7d95e70755622e867ad24c6df8519d027d5; P1 0x1d4ed03c35b0910f79a00e032bdbf307302df2d9961b515f8bf3338db9336f4a242c677ff859b637e3fd363554c4b4afa 0x2937b9f735bff9950b5dcd30eb738f911d60e7bfbfe93adb8f0be896292e58e0e36868e58be83a4c874420f7756e7624; P1 0xd45cb653d0fa1ae6c4a06bedce3d8515f35ae6fc11e8ba7eb81c94cff1acc51df19fb3576bc52b6d4520a5ad2f5d0d7 0x541fc644bcf099a4d4f95ba39bf7a7b0c11737a06081e9e7dedcb944cc9ec290ee8c474b10bf101d61795e0c1e982a8b; P1 0x3749bc1d74641ba4f53c2aa9f09026189d13382af16fb1ce2aa12f1bfa3f8e08adbc79b7543226eeb3b812e6b6a79fd3 0xb56cd59eae0933a57a9ab6ca04d306f6cb319385f439a855f430bf6a0e0f4768e5cc66fe9c984b8e6c8cf4938ff3829; P1 0x1012628aea47a95845937b3ac9e4920f0bac3f320eb30ccbd0a854b5024cecca7673fe4bd31280243517a9f47d1311f 0xc47d75d18d7ce4cd854ce4524e162160a8192b765527e4dcff341aac69e48f493254eec7c8023e69d3390bc6774de535; P1 0x12da0b3ca4b09425d442c5e3391417dd7cee1ac1c943f48a3abe8da91e489fc9a566a8951e0ec3f9fd2c6edf92c5dbb94 0x9f4f84b1822e0afdfb03adc1dd143a0614c9722191ae67a23888a1987668688a2d61224dee66bf95aca479a0b029c276; P1 0xc647bf0f541626ce0f86cf3db6751403551cbac3cb8151b1045529964a82e0dc52f330ecdea75356242e4a7687c8c7ce 0x6d04723b41f1a12e7bd357436bc4a526df49b3d447d9cf9e130aa2d1b2ffc883dc63b771763be0df622f5e602a4e5d3e; P1 0x5cd992b475f54e8291a04113d5ca1c8458b85ce2eebe8870d58b3a72035cdc6b539b026ab6912e2e786c5c2c219f1407 0x227865a9d47557cbb93353e87e1ac0d02b56fac78093db830b6aa8f01762ebad6a36a36b51f80abd1a8a73af056e17e3; P1 0x9486741280b97466d6cf97074ffed4f1bd8edff6fb194fcc8891638cd74c7f5b43e1df40d15b738fa2eeb1225f3ad2e 0x856bd983489e02a0c6c844771b81a84b0fd8b9bb900516ea6fb270c4c29b94264837c8c4a37d410092821676cf03fce8; P1 0x8b127ae3ec056e810f6d8e3342f54728b6f150e2e4b39266a905e4bdd791a28ef2832354b9043d707a998f77eaa04516 0xe1927007a059886a8e75f52ccf0efdd83b6e24749a35ec3e0fc904648888d0c136aa9db73d80bb55edc044ed6b95959e; P1 0x18d857962c32de8e6d15127a981d612485af5d1703074b7dc4008e51578eaf24a7fc86676ee3598aa1b43411d66fb322e 0x891403623594bf54605f951b6eb9a93b25079ad05981bd056695c54a9991a31303c396b1e9225eed3cad0c016773b25e; P1 0x92ccda5f497a0de983d58212cfddaf394c1cc90c5447cf6cfca40d21b18a37e3af86e2a32bb7ffa2fd3ba11958129187 0xf9e4eda6547fa0d608a9a3b54260ccecccbcc1560552ea63139f55389f5e3e4e425ecbf67deb6b98b549475a6ecb663; P1 0x1e7de460b7a885d79b69ca2d9f4694121cdfd93609f9cd50de963cb24ed016552d40994bc85e0e0ef1e7f142685403b 0x3d783958910216247744a2ad228a6d6c258029bf8e650db3945cc2aa7cb923423f9e24c486930ac8170a8c6e42658711; P1 0x1d85079409f6ff7228eab24e7bfe62c37ba2baf9970ad53643f5119e56511ab7535e21cf6df355daf52a801639a2e95d 0x4ffebcaa45f618bc9a5ea5e0dd24314624f21fa847ff25a50680025ba1b7a0ecaf612182dd1f97e1b3705dfc913a247b; P1 0x31fe6bd808367f3fdfaa62a6683ab1c9920313b07c785b264597ed710093cd52b8333ccba0396c043eff3eea76580df4 0x17807f185c48303612cf3aca04063ac62cd9d4112783d65e46b9f8cdb5942a08fb2df96666ca0e15fcbd8d2f554f4d96; P1 0x450aeab7014dd75f82d67347de0e7ea7a31782f814cdf77af55a251dce5a9b666a170c3ca38c938197ce1d87db1a4c1 0x866e1e6b898a7bdefcd73e0096bb4a60824e12d4245f84f9f3cfefdf57b4d7e837e92490da9796765f667c0bad7a3c15; P1 0x8d2eee6d78091c313a07e2144f7528814fd814e97949643a5a793265ca6f5e16210363b6081c808a93cc4b8ab561cc98 0x72991527b0e8355f9534b9cdb9c6597fb57f205ebd7145f07ae6748afbcca84e5d4b457d43a23935533faa27b290732a; P1 0x669964c3497f9c8ccdcab83f46e174f2d586ad9913fe4a2a525ebf55d3b2c43a807fbf062b7ebac357aa7ffa908729a7 0xfe8226eb4ed7dc784cab41fcd6d99fe0512daa3e8d4b1add60fdfdf94eee0bd68a17356129bc685145006d9a23710c3; P1 0x1fa0d0eccfab640d920b8e1bb6f98c8df94ee7a535767c6404b11c0dd9f41bb00e140abad1168daa0da1e09c66e982e 0x9b03922174827ca09eb61eef074841bd1fc7de98c388050ac233d8df69942c2c1dde9b027d46c321c1a32b264522e68; P1 0xbbbaa6028691d67b018c373e649509842fcfb7955e8854ca36fdbe6afa185579bef1d6118f38db1b7cefe544bd352f 0xabf706e2b42e217c3579d8b99ba85b88a7a314d3744c26a222c0ceabb71fe2182ee003a6a16ff04cec152a147664a963; P1 0xe707e3224cb975eaadeba3be0b40ed9027c3191a0681d24e020f9639b00dc2a91a7471e0e88b483e8413ee48685442e3 0x74348dc0604f30967078ef65fee0e933a21be061d1869c5e11db1631908300ea6610cb6d77c357072ef2e00959985199; P1 0x697f568077d8bdb7d32ac126efeb667a6651403bd32cc8550eefed7c2d27d1a45b42d2f9127c1117c39c740cdbfec1a9 0xab1d5e2c91133f68a7c748749169695bfbf987850b05a4b40397a75405bd427b044d8339454ab3feb0fd50e46fe24af7; P1 0xe4c07e5c051aaebd027f68d2635f390795461e5ff86d4d56d530085ae653457213561e39f38a18525f0f217e78fb732e 0x61dd9e3a0ddfb2ff5002bcf7c5f35d4671c32b21f4182e176b35c0f4b2ef7d7063866a6b1ce24ce2826de4805f5258f8; P1 0x4ad3638521166055e505ec11dcc6c2ae6c87b4f6ea5a25e9e8d85e6333eebdfcdc6f510b71e95488191b6395014714a1 0x9412939bbe0bec9048ac8ad31e57fef3ef17b5c9a0e973fb301afbc640413bf37cec7bb8dba3d95c9d3464193a75d32d; P1 0xab4af80a55817c6af30b2d54480a8fbdf3fc26aed9ba42fe3335837fdbb92aa94f14478492a500d1c99b889688c45deb 0xf0a0e87a0df53ba494285ae74696977ce4ce74e7cbccd5c49253fd9113547b94732a2e437ad5a56e718ef9a1c5929841; P1 0x1c45c32108bb56bb9dc3daa871d42c27404dc11f2f38d20fe6dcd30bd444c98d3025239c2e8cf0c427a86029bd4f40da6 0x198b8e3ca2f695385075a418c6b81869cd53ec5fbfc9458db290bb26b41ea06bbff10e6dbf9d073ed2ab738994d2c970; P1 0x5191bb73968e822c7778fa74fe491270e8aec576267742f1d101464dc212ae942a7cab0298fe35f16750ea4182feb49 0x95b152c81516b61b574a94c210a7fc57a51bd66528ce6b90b78b36244a62e3bb5b9fc7c924183ab9f6dd0b826f1fbf35; P1 0xaf0fca60f7fcc68e4e9ca1a82446ec632d415504cd242624236ef60d22d682a241eace900c26e661278b08aead57c413 0x722f2e6864df6ff2f378c2e5ef68b2aaaf6fef8268aa347a22cd75a87874a5f9c06e7c2938cef4ef026f5745b3d92269; P1 0x65dc1c0e192b7123cb251697347e7d91c96bbadd6fc1ccfd3b3d7f90ba3f6221f4dcf4bcc95fab577780485ed798c5c9 0x575cc9390b272be58335766d5861ca13b777d8953a6adabf7297d02f6c71872f274f4c7b71b1101cb2ceb23fb04913d7; P1 0x3ba064cc097e886e0e01f9dbe657d2da02abf226c71ed261c1ac77e56a3fa44be379e2ed473260e5990fd323d2520170 0xf8feb74c2c4febb4d86c36fc618b9033f1049c61ba1e906112b1cdde1c14fbce0786a5a655267fb0917f4f84ec0da7d2; P1 0x1e45d0127a8818a95709668159b6b78dd54ed7797e841bb69c8567832aa861c0f07471e0163d97fe6144192f0f8ac7bb1 0xe5ab8d4ea2a078d837898b2a55f2ba654dbed7cc7fb72b4cc1ca623814bf9dc035de42db3c62029f8119cbc1c22f6705; P1 0x19c18bb89880023c114db2663e216ddec83f80edffdf13a691cff1a6e3f370a846d7f7400a700f3e3ec21441ad921639e 0x429297f2b1d58fcb01a3c6899637a74d78e0ea7b91fb67106f492cedd616bcd943a3bb54882b9f828d830493af0bfe38; P1 0x229fd4959d6a5336a6a957d60a2ea9ef47037da8f7544151123aae7ed058725ad64a7a351f42b82c204c64867b75f77a 0xcd1fd8dbe24905d234dd25649d02d0b7ddb54e836a84b2eb13f42bacd62d582dc848652b8dbabf0bf4ad1d30c703a2b2; P1 0x148b80a8ccabb177478b55ad2954d95bd94dfa7d936562069603311ac46da193a5204fd7996f7b88b578b7c1ad67986e6 0x11015bdc511871285d550dc14e229f3ce7328ce89aa709c7686a93cf699c9a9406dc1f7d75875a8de868bad400f31836; P1 0x2425c6a36e880f635b760533d00853f10abda1a88d41d6c1016787e851eed90cd7d01e207b00865f4c6f7d5727ae467 0x94ae7726e6f16f62f9abf3bee83d5dfeb363e84ed3e1e3f69857b33c7916b53330b4292bcdf4328e2facc41bfe903d83; P1 0xacb4615656bc9337619809d9a2491666e90f74ef4e2266783bfed2749acaa29ba5ca6f6817d9872b82006058ef476346 0xc4eeb44860a9912ea0ac3813ecdbe7d1fe85c4b38c08ba68e7b275a8a9061745d6cda671f2aeaae30e10bda1537993a0; P1 0x12efcc545131a7bfca18a9eeea3bfb8329033cb382218a7f205d8180048e75fe08e9969478acbea9e365d03662db2559b 0x129805dcf1e85f0cef12d536fdef1724200029d883df92fd86cfccd85daea4c6e07456f10d0fc501a3c53d93c9a9005f; P1 0x2b37634110ca2e4e157839aad26528f349932eb70b0cdc1cc700df3c3c82ee861339f3b69c99a83a33310f3f1d466b4 0xce45d5adf93d93e05e1d58510f0da0cca83ed69e8610e77969577f00b8de4d6fea75d31a11ee63822ea8e65e377b4fa6; P1 0x14c68ede1be84d8542cc01094bbf35a82c4c539085d06e1ff0d16de4c0d61def55590af2dd26613ad8a39f3f1579e28e1 0xd52c03a0654ae3612c87ddc98eb0ace14ce1d48e1ee892d26efbf8c7106ebf4d96e92ac6e84a1a93df9a63287ada5935; P1 0x163048b344f7d2df8c90c2736d212de3baadc06ea2d7571a5bd2a71e037675e7f273807dc3de1449a0d227e8e187ae8db 0x4e32bac62e98f43af7e7bb111da6cd83173dec6d35c491d07bf344c7155c76b1a13d790face3728a96c33a12bfab1c91; P1 0x2fc5e7bc8427fb6b6c29b63fae5331076d597b8b1ddef1f3ce7168826657bb3698ecb7ee08b9e164f62efdc44f56bd79 0x265cff5f007d099834cb59bd853bed604ed113c09cfa8ef710b955f445861449cb88feec5ae304ea9bcf1d0c535f95e7; P1 0xb7f7b317e57bde515f9cc06dcf2a8d84b800322274061713bfbaaf6b2a3d62bda77f2c22d3227e03e614da1473efe54 0xa15e17b3add868aa3e9e7931c445a4f4ca379f20f25bb513d96f8725251a905265b20bc45a76400009e8c85007c5b926; P1 0xcb6ef8cad59f4bd8ea90f5190f0d919f95560502f868885201b805f021a3d259ed6df21a38d679adb7cedc9331871d36 0xc504ca7e192bd4dd027d77efd956796eabcbf2061059939b2e24ddd839f4fc25ad2c00a6d4c96dabf6653182b6da1e06; P1 0x12f40bf7a0db2f9a184922e276d012e5d8de3be45aa0e4c8854b6eecfd9f822f89c7be803fec86432c4ab467a978cbbf7 0xe98f30c4dc5e2c0b062f830535baa358a787558267e33fcfa64ae21f7e6c5d6a244f029fde26b592b20d498c4414d153; P1 0x1aa2bedbbbcb80ecd87f9ee3cefa0ad5254f8de39d1a10b0bca6b7ab75543b10c0eb616c207889e66e2411da5974dccbb 0x94d5594f255b93eaf021d5f801787857961ed382be950a8b104c8af03e32886415ab97a03878bc03f7c6664af29d56d1; P1 0xad0ec222801c5bbb16d9ee61e7ecc9fd79dbdeee075014cc7b7cbf9d7dd85ccfd5b66dd9bbfa3be0ca6b3140c458137d 0xca4ba682a6cd7cd6494365c0562f6d719f1e35a8064ee033acdf1f3237c14f8797c1c0d08c6a9c5090ca1dba91b5671b; P1 0x13fb6f242582f70d348ea3b1c14664fb977a1cdb4552e416393a232580d288b4c1251b7535d3254482bdb580b6f6a68c2 0xf89d80e58a1443d4772c1cd66726bc26730b4b2ad366f4cb39fced743b8c95618b3c6cb518b5871dd9a7a47aca8b588c; P1 0x1e2e315482bf1f056e01e9fffa87d4af5cbb3eb77060a1b5288a2439903c15239d22e44fd1c80927b1ce57ab2331500e9 0xca9d338dd2ed03df852a7641556b8e885021208ab6ad7942c18f035c2ce484febb689104cc3ad1c62c301c73be6f5f75; P1 0x140b8ebc82e6922dfe976c38d4a74138e9c1a699c26928141a7779e084d3624ee28d0c6ce6bc815d718f6218a3924570e 0xa48002ad19f6a8cf6f31c2092de812ffd369e1bbb1a223ec7f3859a78260f4e2563d2917208e0d1b17aa2e268b11bda8; P1 0xd36886e0ecca50cd1518e6307bf3f62ef168a9dd7b0741403c3afc70c94822ad9ea458413ea334dda54a089a41f9ff93 0x40e815bdfc8c8b241ea720758e48267f0fffbb84ad7a327bb25233311e1e4ef63dd4793e9c3f9e688e4a2958dc47a277; P1 0x20e9ba8cd0f179786092fd33c393f40c97893502adfc3396f8339a35d169be2747e755c3dbc5189d2ab555f45372807c 0x808330ed160e5348dcabfb6543f57132076eb8b46a9a72a18ff15729eb7a228e6c7762a7cbbdf095933f833997ca12ee; P1 0x8106e85064195392a1cba45ebe98ee721486d4c9e9630ea13fd1bdf65ddc47b764e53e0955d4d59f6d0c858310e96506 0x1ebd0ab9299585b391e45fa002d194380a7f57ab492a78711904ea30073f888200c1784323d9d4ea2a9ea577ca5852d6; P1 0x761b4387732de94a14ae56ba81e17674975b129492a5a43cc622220ca17e540331f017ccd4def4b9d1a9a4d9186fdec 0x7cac37611aa258dabc42f74f8a92a45fb1177feb230b8cc6d8cca70de5a37c75a7ffc3075da7c8bca865443516f0b8c4; P1 0x796e93011087dd0480911a73a81daed7f27bc92b1bf8a17fc973151f442d6379b6d9070d0f5959ccc4549ba627cbf667 0x56aab8944c468e487d19e0c7acc0cff5fda23d97ed7b6582b37ac3a97b5239f95bbe2a7ba0e731856f1b00910d5b7cdb; P1 0x3aae4bba9a9471b6c25471ef669c63de5fa63dcbc9a5d1f6f1e5c9e747d4b85166cd4b7e5df2ccca5ea84f190441db3e 0xbf083dfe2c18ad62b9be1f1356c2dcb7c6a1dde5dab7c9990c53871fcbb53da55ca5bae00e11f5dd064e95f1e8c55bd8; P1 0x11d1a998a69656346e50dd151c917ad66730e1251339c4e5d3415ba1f998b8f35023818585324a55363061f587644efec 0xa021b3805e565cc1247caa27e790ebd415df1a42febc1a4c8b8370b151e8f8d0b114a74976f600bd51ecc0f91ac5f97c; P1 0xc85449a075c215012c7b4081b9108916ce22f97ccdf2d78aede7012fedf68fc6810cf1a50240b1ad2888fad52173f3db 0xe61f62eb86ce9a7bc5364c2eb37d3b65d945b6ebf7fda71016558c6965228563c480082bda26dfee2474f5a9734949bf; P1 0x19db8d330a2fe1f0d89d54d75216efcf17695c874192daa0c9298f0ce4fc03763cd7c1603bc9c28db538de64371f94f38 0x21c1cf84e96483f8c9d153f791a8466a843fabd29d9d134cd25dbd1fab310dbb14715327dcd5860d18ebe01dc5926ada; P1 0x8e71475a598140e6609a7d2a48a7ae8368e7ad610924eb07b83e3e6f27d8ba383919b650ec2ba4a65f52f261bf5ee4b 0x73677aa80781ab963e30895b21e8be23d87afd27e4b13737a803afa8a25bb450ac5687e669c011c22435fe600c277497; P1 0x680c440dc9723fe50174cffdc47dd7757a73292a329a8353828af3b957f9f5de104d3c7fe7b42418ff346c3218e950dc 0xa574b478cfc731cde7c27de490b7c354489757cb55fc9e595a584445bf3da43e8a0deff978d12f8a380ecf4ae27d34e; P1 0xd5df4baf911a5fd8418d760deb5594d51f98c6d862f0fe23b8cddf28104715a0a1f7597327c6ceb4a4ed6b8fa819ec 0xc019020017c56865b020b6011a5d71cababdbcba97e3bb707cc93678622185b296bed1cf5a1a3330adea6230b914e684; P1 0x1204b0ae30f61830c07c83e43a6aa1fca3d923c1f0dd1a9e7a05adf3261f8691ce4002f30ad050cdea639a09aba7297ea 0x68af7acf9cb22b0de2036623a35eb57b01c5590ab37642348c982b962b5b9cf342a1ef52defa80098ca3f73fbd823002; P1 0x559e1823a42710957b647ff4549f2057c138e9152097af550875694b0666e17dfff72996024a66c474c39492b654cbb0 0x9a7ff96e241f18fe700d80f99fe63f80599263c31aa3f5c362222ae90583043ef58bddc68465fdc4e9004e9b02eacff8; P1 0xba7c7023e3896528f3694006f84377ba87ee94ac61a862390854e3c8501d8e748bd614a60558328ef8a1726e1b5088fb 0x2354ee5edbdac740759af944cd27ed0cbe9141c1c851bbefadcfc773d7ddf81fde4e551202a1a10bedc07afbdc6144bf; P1 0x9c0aab678a53bfebcd78f7e513e85004b95cb3030502549868b0455abaa03490de2b4516bcd010ced3fd5da6fc4209c 0x79bc3fea0d961ec2205de40e6061dd47ba8632a92224cb8511025c06c0f2bf6306af72abb501acf8ffaa45c6e0086aee; P1 0x73c6fdb26121cc7ad40952eb692f353deff451d40fb2985f652d7132e571d0ade968eb2b360c4a1fbaf7a432308ec010 0x856f20ce6b44c108e1e080d5dbb53d415f881a4651e4b5bb4d3d40c98e2c1483a73da2bc8ea68c62b27dd457de11358; P1 0x8b1950a7e5556ee940852a4c40b76f8d23a0a7ceea8228d3be81e69afb66b5f71c4fa002132e647677496cf0af2abc 0xf55621823c16ac36c6fa1408cc2cf72155cfc4340e84fa8595b47af2fce8e9173e30234720b4535036e2974005180e0c; P1 0x1d63bf23b9dcd3536f66008112ccde08deca650172be7c1aad6348bb889fb913596180eb28e66798c73a55683717af4ca 0xf006a9a3ba630eea30296d53478085bcbe127d8b5839f5c59b4a4413f5bfe04daf82c97fb188ae41f307f31233285062; P1 0x1c218fc7ec3201ad2f1a4717c4a1acf4a2d135a270a6596ad61e3d07f7cd525660d7eeabad409475e6be47645aa32d8c8 0x4488af80eb65cd3f6eab9d3dc5f0ed8c08bac6d4a93ebd69cc0c671a6c978565fce63e0630e641b82d4cce12bc436130; P1 0x24b1cc6edcb367ea661d93d67a5a1b483ad48bbd567c10b8c28e46697dd5034cbfaf363b32e2e94fb2e567449405488f 0x54e1d468ee1844bbf520f8ddbff2513a80d545a6ada9c8705702b0d089208fa35ba6dd71e635ba06534066d8e70152c3; P1 0x3849f537d9e0d23d5c85a02e686f20f600c2c104fc17f8f740b602814ade579ebad5007a30ed12e69840456ab41328a3 0x56d4108c84383d5a697be4b918c5b824ea07497817279087727ec3e41712049476347d38437dfe55bc8105773502a4d9; P1 0x3ae65593a545480c8c2ccd245cb29a07db8251fde4d6fca5d692914b9877c4df71d695a5cda649b3fb84cb85a0119492 0x3bec02ac910a3854bbe1306607864cc7b4db9fdfff465c5e27e6a77c0201b795095d72b2321713b7a91fde044a0a604c; P1 0x1c0d45a0f21a8ecc973b99095d92b9c71525bca323f3eaefde471637b31464a2256a59be461010f82bedaecb01c84e82 0x6569441c775be4cb0e99a3cc82e590ec54756605808fb0b29a2fbc6177a6e66e3be256ce8902c1aa85766aec50ba16ba; P1 0x5058760ecf4f1cfa1ac7624b942d130cba21c1df64576d5abd906b1adbf15c1840f7efbea4fef379e782c3e493f72331 0xb1f4d60be73a153f5f9f8db68e8a9743b3a7209b389ef30a1dbcd75d0012ffb2d146939f2ca4518abd4c4ee633c5645; P1 0xf768f44a5ecdfe79dccd21e71d96f98ff37feefc33fe4c2514bb7ce4fd25a97e6fd2aa68f118031f7ed9d0960e6e77 0xf69255ed32a38bd53dfa9233ae0d2dd87df1e8c41a56189ac8dc30759c07e5ae8c8f292e5762649edda6fc5849152ebd; P1 0x1dafb2193f96ee561741223c3cd41e31418bd98c73d84614311d6a112bc295ef97527f277bb460d76953ae70a7d04c954 0x72f7d578ec68523d75eabad4b2a3785feb5012f2908d4dd6a02daedf199ec87109c136ee30885a6208dd930f300c0a56; P1 0x6743541aa7cf1a23092cf6aab486d99de89032eaed67332781ce445ed8e11e3f5e5249987c92cb8052cd406e6c471792 0x670a2a455bc8be988db68c64682de1fb5a913cfb8a70e29ffacc4b7384a1a45c748739383e568860af745e26eee5b132; P1 0x52f25cd6488313ec3f3a31c5be536416dfeffd5b95dbddd2ab6ce58c4855a87b5bf2447c596da5cfc5dd5aa1f5c2197d 0x1d8d2a94c9f41e48f0875be917215d138eb7ec6058eb0f4e3fa02584f284284ec1d0ecaaa48364e83e9e384236bce361; P1 0x6d292fb4979dd083cb7a711ba0010e792a39f97515cdf32f3157eb60e4b38a64f816e7534c894f77c1a5b6bd87b80fb 0x65af3c742760b37357d7dd1f2e518d54c76e7bca05bcc2e088e72d108320b48a1ceed8e95311ed01df848ec10c9031c1; P1 0x50c77b4eb84d95eec9a37507df09ae232877e4be09fd0c22f02f3f0f61da9e3bd587491ec2ffdaae792c89d2a6d93a94 0x273fac60d866da92059835cb372e0d426173da9224abb38422bf440df4ac9f1ed2de2a589abc319db247124e73bbe286; P1 0xc08ecb79b58414a96b20100df61e04eda41b39961de389c257dfc34ea562436798edc6684ed2c06ea51346d0a0e31de 0x85c91de3eec6f18e9fd42b68c9b87f65c209e94fc67051371f887a6a522490dc197cf21756846eb9ccb0df52636c78e; P1 0x8bd52e1d930a34dfd4954e589bf98ddcfb0f89024c429e1a987ed24b9378778f2a63832aba734ad3ef183123f75af9 0xcc2f578792916341c7eb41f22e75df45c120f7d2b25a5ebb63f19e79d55b21f3238d37f7be7c3b9bd071debeb39f66ad; P1 0x145b6f882a699e9fc06fbcd0f21e7aac09ad7a77d990e7d4baaa541f755c669ada741515519a2e6eed245360728682c19 0x1c8d80dd97be01bc2f839be527927f7cafbda8515d5ef48d55f7dbc180e16d4a53db3112a91b548645f549ed930fd197; P1 0x65e84cf5c521e78dadc0528273980ea3cc794c9e8c404a6c6738d9380de619ee04571ef9a9d7e359e376fcb575a0779 0x9e1e546aa4d5e508ecb212ff5763b773f2ceede1ae614810b340cb36d15e48b1a82f1fc8a3805eec02340ddb75d311c7; P1 0xc352e7971099a2e3f7ab2025c15bbe21dd64b35c3770d37cb6a59efee47f2c9e66728215d2cb6856ff48c7fc46ce026c 0xd7b501eedc8b4f75475ea14910e8e4e7358604996092d54430eefaeb317cbec10dc44bd30f2b8bda5a108a7b081aede; P1 0x16b831275e473321a82bc8772633e9b19800a071e7467db765570a766419f8ba846d4a66801997e7802d789f5c2668b 0xb72ff74ae633bb0fa282c1450d57341013ae9547dd964905392ba478c1b2422497ff391ca54ffa5164aa335ab0a5bd97; P1 0x1062b3913a300352183ebd7143bcc33bd4a7e78255a52e4b6c2716043c8e509f2740b76e0f743608e4bf5da2ae70d8ad5 0xcf70cb7d7ecb8b892847a98234f94dfdf4b6a2185436e128709355e810461baa269bf19c835fd92d0ffccecc99e22373; P1 0x1502f358f4538c4bb900bd7b2f7486e5a05be3c3e1e31d619757fc5de08d196e6b3580dea0f8e7a256877bde86644ba9c 0xeefabcccca2d5bc2e46b080c15141f786c8634019ad25ddabce3e3ba5a1e09e6a1397f83dfb543fb4db2d2dd471a7b3e; P1 0x1be2e5944264947f620327de8c225023f05169a827b4c820d6774206f41b840ebecefbdef6e2797b978f813057c94d789 0x18c21207da7974f005fd9e9a4480e016c39b2305b20e6a8524b8dd355cb653b6ea1f4c80bd273a88bdcee1db7a0a827d; P1 0x4c9ed019c4601f1fce3b9c3aeb0bb83074ca96ecd54dcdb71ba76294e5052fbbd3d40b9e689b17f99aa781120f12b22 0x394bef33e283349e65b868189eb90cce8a7ad0e85fd18d1077db1cf573427fa8c36965c514a68c97cc29d557b258fcc; P1 0x19a5ce16458e2388c61cbb32bef29051c4368f64fc9a20987fcc664421cef882ce9d60a94724eca94aef46112b7005 0xc50f403dcef6ddf4ab1bf95823f5b31c74c102a9195ed3141998cb8d94b1fd9b0b856ea792b02e300d5f3e54f82df5e1; P1 0x12f60f38f6fca51e093eee4eafb6ef585824976c397bd6b69bd7976b0154b8aa4abd5ddabc5e76fe1ee75ba88bc60d8b1 0x3c7e052bcd9d06a109940015dad1d39d1a43e8c174952df2dc4e51f951db914b332408f575315d69f22b0182ac1a2eff; P1 0x1c96a0eb3f357e69ba545e44bdaeba197efc76b24c7d7061f162bb2b1a8dd9a97fa404291721dff5a2a121058342638d 0x114b381c248f0c257f796e7d05976b6799243ab9afe19f205c11ff962714cb72f0e5648f37ce83c66ef13753e893f6ab; P1 0x256271b53497d096574da4af270b5ec7aab1fe613b0af863ef75670c114cfe5988c710749b5d2d9cdebbebc384fe9c6 0x52679d012383a67fbb54d28500aaef2fc73f7b1fe71d47afe67839777b018320ffe9a05ce92b25d802c6e9a386697280; P1 0x350d1508e3eaa05529f0a23db923475ff2ba931c8b980aeb8862c71bd498fe061a4231e24d730ed9c1eb7bc5860acce8 0xc976b136a27f6d771a097af2f69c4a331b0e41f798aa88cba2874a1b56e81a28845ecb0b6be93c0b34c73ebec0394bc8; P1 0x13d17329f486cff7635ea940efe5e296b2ef5d7c945c362f42c92587fc233ee6d4c99426717695a79c4f1d7bea8112e33 0xaf83d284e165fe0a859cb04badc568373378c14d639158f96a64e98febd5e85c7f12444cf3513e396694210639a0ac97; P1 0xf0aafb659a8cccf1dbb94d475e3ae181f4d0200abee912892ff4ed955dbc46d953128bd972d6dcd1db316f5d1c888436 0x7b0b4f0a9b5d33e9e859068b92314433652c9c963e60f0468020a4ea8c2d81f1f97445e71534132808893a646a2877e0; P1 0x7647bce82938ec7285f7dcd3929c6b9e2b1efc8ea7c2d45787707407993d19e75a0fe68bc4f111fa3b813c0936a914c4 0xe8bc61204c2787f0835cfb67656722d623baef24987b16117bcf7b4ac8079f964abd1cecbf7454c98d5e65a08f284ff4; P1 0x1a72bf552aca1fc7959ce6d76edc3b6dadc2649389f4bf0073d7605711ef895685f4913dc4116c82890255f78fd4a7d43 0xf4d81712f56553d82aa08718666582e4476e13c2d8bcb54ae4f33f8b0df65431d654e06e8a368eef1d931e8adb5c0107; P1 0x1d45944c62bb758a2612b5a20b1acec201007831d2ece89855f6b8a9c8654bee0c8641f7a82bcc502e66b770bdcb21d1a 0xf9c2cecc41343bd226d2c2f614fb6f3ad384cb25868f91e7afbd93af410dd6ab9d0936f836eeb9bcc3f8d90ba663dfb4; P1 0x1e759150ed6ef96e30c53ea48ad0a08e8490b30152d7aa1957ce67464fffd4ab791c9e95c9efd893f789db157c6987d57 0x858496c206e1978024b5275cd395f282c62a974b21e7958b018b1c9840a666b4e9cfb1857eda90c2a2d3a79c06dff00b; P1 0x8b4612a2d80ae65c5bda71b145cbc1f8b45564641129b15f090a7321d67c16f2d912c7ce65edd3b9af2fef796b68395c 0x1a546484cf1f84bd8438eb068e441d88d834efb61708327734ea6dcd5aad94df3bda7f7d35e5709e935cde58cbafc09e; P1 0x56a807a3164b4b8f60688c094217e3fa6ce4e479e6ced0bdaf5a7449fcbab39eb72570a2a226d1e140bbbd6db3e2368 0xa6b0129d552e14de667cd3065dc18afec2ece3267795b873b5a38a64d9f378170383228e26044f6c2967acd6a453350; P1 0xd911a27b484ec63261069d51bd9dbf2e6a24ed898f66d0a604fabacd5567452b451422f2fc78cd39aabc48de15e32c 0xea986435e20e0edf85e21f5087fde1402fe94a4182802a4c2498e90944280df7befbb7bf5a63682d217daa41c0bed93c; P1 0x1adf5e3d350f08fa94e7bf3e594113160b2700b6b59b499bb6f654d5bceaca737aa1ddecd640d9c16f86e8656930b20c0 0xc136e6c9c7566572009263b3305637b3dd7fc4b2960ba9f7fde9dd284b2315a2788652dac9b185739851d9850cf15e0; P1 0x123a7a784d77f1d4520411a037a601e5a3bdb95cf59a5be0a274e01d83331b3ee4e1985a06dc1ed73ebf7a1889ae404 0x78af07cacd9758ba83ff0e9e92eec8732ce04a1094c3b586ba513af838ddaf0d19f24c4e4d0b22ed30582762f10ff634; P1 0x71c91df3907f6003131b171ed416e73734ea9f15d3983140be8b6cd0936499d789dff47ce48f5aab2ee475fc84cc8350 0x4b515b0ddd9955b323c943b3dcea2d54fb2c554f75f4f86ad26f720eeb10967e2d0f05cadf53d80fb80a01e028492830; P1 0x2c518a69be01df14ed4d78f398e0f5532d9630cafc45091ef91bc79d443af197c681bb3ea488a44e44c1f51f684995ed 0x6219664cc6149fb5deb4f2cad6139b75f0931ee61089cd655f1f05913f69e8a1cfcbff101608aa74cc9a08e305ebc389; P1 0x4b2ee9afd70f7e5a299f66cba1f97b25159a9ed05b8a29ffa2ba00b2389a93a55d4594a52d407712664385bc27fc2fa8 0xeaaf0ca0cb66ca7dfc68e328180b94e2137f420158d5fddf4dd0bb9c9e3990a7ef2ec56854d0abd0123db2ebf38cae2a; P1 0x1ae48f590709af18f5d87e4760018991d2a0fcb6c78a6938aa99d5f161dcd26b15089e2eefb7bb5db89fdd9967793aea7 0xc22ddd17eba82132c42114d8f4f500ff18d6c7eb896e4ce50cfff6f1135f9f4182e311792d8337b64a46e666880709c3; P1 0x12693169f750bf5122f21a0b29cfc23c6d839e57753f0318194250eedcb27204afb3647297932ff099aa9737ba13acf54 0x5d04bdb461041866c8713881b7afd07b492631145bb1a995f66d3d2bf27cdbd8dcaabd923b3a8dacb9dea24d1dcefe56; P1 0x4398e3d71167b0681ecd6b4f7333f3a3462d5bc8f7d2c4606d13e53e867fa8868fd3ad498ab69651fc5b4e295b0cd0ee 0xa7764e96184085dd0d15fe6d4dbbe3dbd5adfc9becfbe61c369a7b72119486a2a82f7106233686959c0d056432cf90de; P1 0xdb172268bc44b1d31cacfd3517f352413d6e53605130c0d2b3638be4af08506dec1122bf3fd78b7e94e501c172523631 0xccbf0628efae6680f560a7a3d3d588394349a2a1e78935c1329d651dbf5995225cff79d85222e2d3ad47b1b25cabd005; P1 0x1478200b6de7316c4de6abed1814b0f87aef4097e09d4493c69c51ba26914d9ff7b83134199760123c5120cea9104e4ff 0x333a157cf99b38fccb99ff73152ec2c264629daf08458e20a73bab29282a0cf1b5a2899f3346bffb7915ad1ff5518aa5; P1 0x1480637b13c5620189873dabdd1c8bbbe589a2c94005851eb1cd2ee978cdced1eb82c7e5c266167fe5ffe709f38c9484 0x3d5e5dd3e3c0d6bf94b4a19c0e0ec6f99cc083a67b76abc2cdf10f76433b2048b18750f6d781973537b50f44d7cc166; P1 0x1d6c3700091195a0b0301340036ed15ac41dd66269e4f72ab87a5d926793da04bed9cab92767c98cc0a7b4d5e34f71 0xa7dc9e27b598c1165e86b1999fe95ecf222142885767fc101fba32856a5eb5a99e4ecc30f0b8209e1b4371a4e70b2085; P1 0xdc2328f009c4e990e2f401cc799d09233223be6f86ce71d38f51b822230ab40e91eb5d4868ed31cd925e94a7fa310133 0x1d8b8309720045826c21853a8460c4e285bc37159aca96df1604d32cf18ca9641ffe2fd8c25e6a7cd2d995d7ddab5549; P1 0x6d1cf6f66510e210c1b40a826d8b55b500dc5382f8e9ea7a2f5948b1d4e329a720520d40111921648cf8b20c7b85fab 0x4fd71107213fdf3fb4f59566d6df69694e00a8bfde5e679459053810bc75a57b2a19edba2bf64458164f50700a22c0d1; P1 0x31cce26003426f5f404f7371fea621fbe0a702544f6d6ec055efeeb3903928080f7b3b17f585ba717876c5c7ca13aa72 0x543c29f0b5b6f3370babefcaa16582ada0235a72137f467a6e7be17931c5541387abad43742e61f9acf06b0a4aa0820c; P1 0x376f13534de873cfe6c45b25cbdc1d087d4bbee3bb751ed56b25d71f93c27dca01868d083410397fc49c311fff01c620 0x348ffce7e99128e45ba0925aa2abb989c23d10fd233845ceee8cb54e8c43d21c639b6885db3c0ac78f90c0cdb4f940c0; P1 0x15959f7577a69d6b2bd51031ae889b6262aa96e94dbdcb9010e69c22042298ccd89671b4729b90759ee2e321338cd5d9 0xe0cea5aa379e3ee19edafe4862cb668cf205bfd9964b6d3d292dd1bc5a2f5eb5c7b61c52358cf1f5e35656aad9404e85; P1 0x18ad49171d4f69b2fe0d54167a07473599267cb3a4243eea0b4581a026d7baa92bf0c31da446511c322fab61275130688 0xbb934b5e1363f40979756cff9ce51a5f42f6ffde513aa882c761c0397ab2991e785a771588f6794bc19b779e9eeaeb1a; P1 0x112e109b6291d1a7dd45f96f159b848558b2adf7693576b752803b6bd4525eb86d4e1a9f434ee096a756e15dc66ace612 0x52a511b216fa2d1e00c359b2031b9128c576c1e9cab712dbd4da58590c507c6b75f0f5d5218e4c53c456757242834132; P1 0x355c538bcf060cad223d9eaff36d5677b869c9d1a3a3789deb3bac1dc4e42e11e61915ae8fad2d6d4142ab19fbf4179f 0x1b00d08605b0fdf5452695ff38c51821e489bb3b18863b8c347deac3fe85d30d57b36c08efd6a45968a7b05dfbc2c81b; P1 0x5b257f9de1ac9f69d5dea215ffd46398bd5136170b2af3b9efd23663408560f6646bdf8870936f656136b0bd209c9fc 0x1951c4416f4115063b38223f410361fd592f69169d023483cb062e067b3c1fa2710aa680f97c01e86f8a70a584014d7e; P1 0x50224e51f2ec0bfba3451aa47d5a60befe880540cd669a140caa3fbcadbff93df5afcec7b5cd25365e442d67799db31 0xa50531eb672ab2b7f9550936dbdcdd1acae133d2352de46ff694f784cf1fe3b6565b1ce80144fb8f4eeb69d52df4c405; P1 0xd4bf64e8dfd6100219f292b11df39d926db48e62339d1d27ca88b4fc006c07bdafdf4bc6240ed4b6dd2832c08c425146 0x4ee8ba29e819c2d6de5db5719ed5cd4e320941dbb4bf2d314398faedfa60855cc7a065834a6b107926029ac60f9297c0; P1 0x30a54a06f98a9b1b5d86f8352b6614ba7fe0f4751879b286479109b121676d3825155ce3db5c6700aabcd7d9422fa59a 0xba2c26c1618aa792e9ccb0a5867c19ed3498b0b5aa17f4344a64870f5c7540b01baa8105a1ea0c40cd5d38dc5d7911d2; P1 0x10ec85fdcb429fc68f070ec21f1507b77594062ef638ec04acc539438407e33ca93a5b662fab0853396bc4a2487044b80 0x3d4dcce4455255e3d0929dab807d71b69ec104e9a891335bff0583f6c8ea7917c34c388d103d0041be024c86afdb608; P1 0x1d5c56935caf14fa0585cca76c15f82937f238282d394944f52362cb73a92d4d72833e90e68f7159a901fdea982a46 0x4f4d06407bfdcbd978ed6e8500fadeff5db807a4d9e93230b60b60f0468f86310986bb04270b99b22d6cd5f8c9808d0e; P1 0x312142111ef0a115f3ee89e365c56e3e183461040d66881cacc7efd1435de53c76be97b1eee4c8a896705c1e038857f0 0xd0138a7d107604327d159bdad86776f677642f6e958b398bad27a5e8c9172a49d9d84078c608259f4afd02ef576be8b8; P1 0x1523f85122876965df72e5b20c70c0defb63d5bc47d940bf3c9ffc2f262f38a428c7d8ceab6b3f8c9ac2de556101e712c 0xf34c14cc386da926d6d5ddbaead69bdb4deee34823770dbec85277a33b4fc48d446d9fbff1a6113c7cb03a60961325bc; P1 0x1ce730c301c2477ee911ac4bd9244852441fe61c0c8e63b97e84f248a50219a7d7d6dd8d2fb4196fa3e1c5b057fc47019 0x98fafd69fd2e521f2b048042e4f29374f265135bd142895805f385ee1e0e2fd885fb6280cd7bcf16d42e6186d48067e5; P0 0x5b6b0301ca842a4ca0aaec655a4efec6cbc1be1d309e37b93f1e8acbcb8e141593408857ce0c29246c6e1a2c29c3f453 0x7003bceb4e812222c2063bb1b3b89af8bc61983c65464b80fd895b105e1ea448ac89ea388c075084386ad5d50a230690; P0 0x3103455bdd9f487c19e0ab1adc5aed0e965fc8e4531e404d68a7ad2bd8b466b7c6351d28c791ea97f2865288ea14c38b 0x9f6a6ae461c30f13ffbfdd14f58fc4b5bbc71a94cfa186b26ed52739639d87131535425e158bf5192792139452eef68f; P0 0x63455d0463332ef72584f0fab06577763ea5d35450c6a6a6724a272d0f118b1eeab2457a270c281a63c702b28c4d3364 0x428114917e701333d73884f46a0e6371395c161521c8201fde25d91b10c9eea3aac9bf426f7739e805abede95b7e09f5; P1 0x228d9f6182f48a982340d3acfcef97ff89f3a9a4b544b2ebbf6eae706167b6cb4a9c6c98419fb141473e6174e0724fd8 0xfb375b4c1ce6b1f2cbccbcb1869537be0f5234a4121ff7326b77b4e7ac2934e5c5723f7a24f5c844df0ebfbd43c2d2ea; P1 0x1ed0b31ff37dffe7f816d2fb634e69f872d3e16ae7794e7096d9a6269f266d325f7c66011cace437dd31883b80d5b5c54 0x98cce795bb01d1a611d37e4261abe18224c79b2a64d82bfc35d8af17e9c4188b62fae7d11395a42e5e2d26e30a618e0c; P1 0xb667ee076c6785d7add5ed90d1b87c6c8211983828794fa55c85f0514769480ef97f7773b677a9f60735d7cceca5fc62 0x2d364f11a464a0f7f327124ccbb8809da5f7be693a42a3a1b00d4889bcd41a7da6b46c275b23d94dd0e444b9946c8f1a; P0 0x7fc2351a7a89fb86e5dcfb6f6f7890d40f98d4edb5dccd44983eea2487e3d504fe66b244a3e44afec0cb71357d86451 0x99bf03499ecfc7031f94ef5ab4846663248a0d3196b7e0dc5e87eb6e69f6a7ed239e5cc3448e7245a64d845141530541; P1 0xb8abc0e7cf7449a30c2fb650c4d60eb761174e1d52996174b6d3331d4ade2b80d66091ceb9d10c4250340d4f61a0c609 0xa1a92817caabbb3799e1932efdfc0e8f7e916cf6d4e96a86673f9827840d23649f00f31f74381d2319d86ce5a8a5cdf7; P1 0xcc2c6867c53a1389a98ec361f026b2dfe117c01c0b6d494b8ebf1164541d860ee63424c9fe79a5e48084855f4ba591c4 0xb5c0520e28f2c6e048fd055cc361da975bfc37343456b3582c12b94dcbb069c63425f0ff70dd304a2ae0894d0aa2996; P0 0x810984833571cc67802578c9fbe23aa44e2da6d7e6ebf7c6ea381767210f1404ae1a21a247ebe2009278825d68a3d4 0x322d00d9095afac183f48daab8afa3d676f786ff2a476d165647cad98d8bc2c395ada53ed41f53323eb898be4796d7a8; P0 0x9d59c3e13f58bf09c288d5913b83717f61bb917b2b1e95b8ba9a2ad1aa7413815b76969d3e26ad33972772197f4c581 0x8bd211872eb91a1de36d3302f2c151bc276d886f2bdd96dd179967d2b0ecea730b732d047662ce4f72845f4a5fb03c4d; P0 0x4c5dcb698fb8e5a2333a4380c1fe6d1e68e627586b5e14c2afe3b49e6002bb3474b55a7e33e8782f99948f807614718f 0x98dad7bf769abed98ec89e3830ae6921c23ee4cdb47f4009c26c464c545cfe18e7fc01d8cd86cf8a09c31a8a75aa44ec; P1 0xb689368f0981d53305054b05ec91c720202e84f8d3b8e14375ae1838834cb686b79ab310efa91764b49b6ec24d6d9300 0x72ca84ae2c0b54ba4555fe3612675ae106acfe6ae56ae9ed430e5112553892bfd8e748be6831735a1fdc013934386a20; P1 0x66f1fcc18db75a86642258e961516cae41a35623b88cd071fd9597e3388175e95761f5739952312f6943868761242784 0x4c73ebab2258b1bb8dd0dbb0c425744e4d0e13d70fa4955fd9a2cf10528eef6d899e29e92118512e673905402dd723b4; P0 0x16d5086b311928acc81ce0f3bba45a6d14c6a505dd6def1c9f6922ddd357463a005106a46f663179dc535a84382504f6 0x534a5db1dcd84a9f533c950d80a89f5ee999d93e7f92b5e4f0437e2f4993ebb3dbb8faa1e70d02a28a4e9aaa4598160e; P1 0x36329cb744a546ed77d1a2efc9f57558bb70c2ca867d156543c2240dfc65cfa95a7396a932d139a168f28e127f9dd016 0x16764e85f84ea6b2e2a1bb5bd81ac29cdfba4d3dd33df2fc867d2912c5608a3cb70a7389cfd38d359b5be38d39e6d1a6; P0 0x1f88c2b824456944c036c6b24b067b708a93ab0f2d311427318d50ba44f9946deb6cacb6f201e23d6be0dca7e72cbae 0x717b72d976b02c9b9c781dbef2542eea087dd840350245edfe7c57eed9f8d62a00af292b117ea9da9e2b316cb8e21a7a; P0 0x324e36eb8b45fb1b93177f36378768ce8e264e4c37f04a1e333aeac999883b2ac5798ff4a7f6a4499cb5357145fd4898 0x77da00fb4e26a2e2875d6467b3dc3045a5e370c9c9b3f84374506109a746a18f1c10c723f706a293fd6d19e823c50ddc; P1 0x7038cd1e9d53f7dcb68caf6750b0ffd8491cbc8ef67aa7362c9b3a8938415f4fd8f5a03475d1e6bd2247fe5b0f0d6431 0x702997a19e028675b319e2d7fb4d9aa73d71813c73f32d211f8849431c6818075b7c1867165117e8aac5c1b0eceb4f1d; P1 0x6248d6deabadc1ca537a38363d8d64a7eace657acfedec19fff75f9fb7f923d852a602b0e8d01f45cb7c7da411b2073e 0x25392abdb9c6233393fdeac077d2781b34b5f13f52ce4fe1c08e4b57ceded5d842e424baba349db9137b27152e89a3b8; P0 0x569931ee752cdf96eac2be106d108e05f59a2488c3644b39bfd66f77d6bd0fb65c71736ce1020d240ff7c978f457b1e 0xf708125805befb39d4d7630444f86cd6dd2d1ce517cdb17da54282edda5df223b225ef039dd3221735c3e7ffa09fb7c6; P1 0x1dcc1274e03cec798362d99065c1e586780cbd1894553f14dcaab3618ecd15f8f9a448e1a545e56b4707afbc00cdfc48b 0x6b49562a468b1b7a67a6ed74a62d85fbc52fbe9d56f794a8f8d33c8baea4e4ca557b76f4d198a66da6ececedf5caccd7; P1 0x59ecc6133029e55d5c00903dc8a006d3a02f0d11bca269bf57eb738310eb4a91497f812508cd53b0b51539bc9cdcdf97 0x4739b116b9303d46b2dacec49e62237977d1feb51d7c831765e3afea80243950d245f2d1981e55338cb7c51ea02c194d; P0 0x13d10d3af157a7918fae1141aa9e79d86446ecff56bd64dbaf9c39577ef9512efc443fbb480bbb1842f0701cf0f1d120 0xc26d6cbadfe431fcc3eab100c1e9cbdcc3026cf96545eb5bed887f4f1d432cc8783592873ff5b81e9c49c3b290390fc9; P0 0x93aa079100a6b9684fc3cd3a083fe9c5fc391cb66dd329b05dc058c78e3284b62de1ce2813825bcaa5aa58237f81a5ef 0xba41eb853df7e753763ffc9cf5dde15604caba82f7a78795d02a68fb1ee822872c174fdf2e0704bb3581a5aaf8bf5a74; P0 0x8783db37106399275580b3b2afb05513e2f3640ee1719c987745c21558a05ec022b7b6549c7ffd2197e316de72e35cce 0x2324f14d080fd2919c5cf57c165e57c3317c5cd2f51669d9e27cfb71e5675a9e823096d0cc8e488f78d3efce40881606; P0 0x4d31f4fd150b862adf13767832cbee2adebd7b2e89b20045e346ac57cda56fcc097a61d946b9abd7b923778f6333c07 0xf8b3f0edc355a11115c65185c7fb49a064b63d54226c67cb1f72474937874a3a4dde0f61dfa13ad33ebdb14d540f1ff; P0 0xf19d214779b3bce427ac83c3c075652674fbd8d6fa6804b407f2fe8aeefbd46d03b46bb0af818ff7c092a472060e26 0x18084e4cc4ecdb0c39cbcf81424806ee932295529162efcd505e450314312a2a5a65cf56c1a198811eace336de07aaef; P0 0x2418ef361ab96e5d532e0af0a702fed1a7cad131a712b0e63b3822b3ce624897a882312e875dd29e51b0bda8d1095ba 0x2d387a72a384e6e7105cd31e2e12adb70d5ce7596a923b3f956147d3a5eb786191527daa1f4163bfab8001a8d8a43e93; P1 0xff9cf04346b7505ef785e82655d35215567eb0c82100ee2dcbbad58f4563e3d1ae86e5b295b318fa35ab624e9e53cf1 0x1a4b228debd6bff78b76716a4e21f6b4d9c828ca4cbd0cf3dbcad2a5136c0151b6a55a5be783465e85088903dd15178f; P1 0x566b2242f73a04ae461ed823d3b932ca430bc1464cef4ea060d5b6dad43bd45bb27fda0ad6984549ebec1c6fbc2b252 0x430daf3c0b9bfdfd9de748e18ec4ca497a6b2037e91e462a199c427f7217f4f9c142da99bae5dc6b560d69f1b322c6ec; P1 0x232054e9643ff57e869f5a9214c0d0fa80b5ef382a6085730ddcb6ad4aa55fa520e4193ada8f7dd6a49e44ccb86532b4 0x88a5cc45b15691ae44267ed491341068fa54b1f9a038ce0ddc0ce4f6114a607f4b917a1e23e23639d590c030736b3844; P1 0x91e128d6028373f7fd7baf513acf1342d68c243be8ebd1f607791e2f2c2b6ca650b8a35212af734196a055169a7880d7 0xe71e192b0d868db463b1ced8533def40bba71b302b454ba65966319c254158614dc2432ce9cce71f007720993034548b; P1 0x1a14ea9eb35f2de4d2b94104c24ef4e9b5e005e4c99e59499572237eb2cd4dbb1840e218fb4369ca3c0a7e09795c7fee2 0x835b76ee8be7bb4398747d40b863e6113cf05a43067f04b121451e17e8ff1aebc1c598401350d30dc08b886c9c33556c; P0 0x4366bc65e80767a8600d945b0951579fd040e29ca300d3b7ce7f3a820ed6de1c5ad19b135f8f01beece1ac43f5fb1ccc 0xd116fb95bc1aa6b30578a43cece76367312a4a30b9e0f392424495942d47088e1cd61a0d24e066d33687eaf2552249ec; P1 0x1558d11b5643d9e6b73a85b47bd784b2214e05348bbfeb41c4925865c34a024df54d83e4023a7adeeb06a4e78cdcebd81 0xc53a9e42f3a032432619e5e484a6fce1a38ef023bd8faf2256e90b84bb3304e4f1b8c931f90f441f9a0c2efdaf93192d; P0 0x97f344ff2321a82e638f70dfd4f8d1bea8bb25b6454566a099977de3749ff20fd8163d7b6d6ef32d5529d6edae032f88 0xfbda1c897e750fdc68cd2022ac0eb6dd1b13b1ff6d6c85cf0be77ae69c1d2db8a079ab6f188449058f4f599bd074afd1; P0 0xf7c56dca3b5349fb6c1f5c583aa3279239b52ed838741ad04d77418492be11bdb8a5ae808043d205d48c1137ce7bcd14 0x692fc04340a808382b2b9c5a6a8233fc6c2853dd7b620242a176ec9245cae2074082523d28ce7e398363f4dd184e14a5; P0 0x2b38349f542087180ca6a0d4777f67fb4599450508b04dd9c8ca5b5f13eb46e5cf6c98536d645a6ae8a4db2bc7a5c632 0x421458a39aca3a27113cf0facfa5b9f4e4820a90a2f737cbb930e4f942d607ef2c43b0e49ec46d7d880ec1b7ed8627e3; P0 0x110e7f525411588ebe16f517a72373cd9d893b023da1192926ec6d58388ddbd83f5c9aa529acaabbe236448b28b88710 0x4f001f2bcbf7070dc5808354293ac7b4fab71949c2284312975305632b13d0b1d912b5cf9adb162a2fea06688e04b719; P1 0x30c2267a175c327cf6317223bcd6eea6ba7f616e046505726a787332b85298a2e2dc73bf4a72d39bcec17edb561ee337 0x1abce5f37c4759eb223b13754566eac0977a514ec3f468a14e29d36b6364408d832739f5f7d525a8878e31e9fe2a02d; P1 0x595d43002d515f94dedb2afb8f2460e43b583516dc42f5ad7ec7aed551f0067b77bac418ecd846c551e0db9f02664 0x6fb694f1803e78fd9d660a99dba103ee8470a5c3aceb2c6545caebf2325031f7647a3f820733146f1c497786fb5d4ce6; P0 0x30bfd7618b40a5dae8ddde054708ccd3444219bfa4493bf05ce3a43dcecc8dee4f963c11c5dfe95b3da869f3cd1da3ef 0x9a88e35515de2b3699955f7469cb161800453415eb8ffece9fb02ef4a51ce0d0650e48353dbaef2041da18cd7bb87347; P1 0xba91f569652d123645a940289d45b28180b5b4be46b769db5b29e8c2e84276c4ff6143b0c81b30621bd83c28308cc734 0x90c408afc9af35eb7207d03ae5bb55c5d96cd5bf934a1c0e330578a899d81e53d9a2686b32ca77acd067d65531c8eb06; P1 0xa3ba3fc620bacc87813cdfabf94ccf515b59d1ef5f8fb2c5157ac6df0a9067e9c958384c2449a6ad02c447b3f57ec35f 0x53554a454f5f9990280c8629e990a6481b568ae815c10eb778260730886e892fa9f0d69bd1ec5666c7cf208e18f10d9b; P1 0x3640d526b215af6d353df54eced9114c6766562610954c2dac6836c23b3b4487d8d09921a882fdccaa30e5b5053c1764 0x71dd57e400e1e33dfb6300c2ee54c805e16d3936460418f01d6ae62248a1c6c6db86e19e4ed0b541c13f4f85b36cb1c6; P0 0x32a526f8269db44a2bc31e31b67f0f07602c3727d88c7a2a99e1f2b814e49049f86db1cfd4bf6b8631fcb33b664aedee 0xa9d3d773ed703c246fdeb794473faeb349b648545647478027103a502beb0cb199f01587c55295a972c0e39daa99653a; P0 0x70a961c3edeb83bcf3d8b4b92418e2f0e8c4921f31f648b000b34cdeda47f6d87808e7c2904697c5904a07cce2cd4579 0x2017178011e8f708efb2aa0c0e58e95b0f2e4719efc66eda48a7f933fe942298b736a38d61993a81bc2019b58ae73ac9; P1 0x80b8fea7f4b71d0cc464ade7ac6e46ee8fd9d53662ccb5ceb3cf19aac989746e45a995071a96ee89b6794597bb42fa7 0xaf16f72f7d7d1febfaa653bc92c6b1fb47bff143c36f8bdb684892eae2f51301953a96800470161e0334322183653c9d; P0 0x77c068025867501ce24cffb9d6f1b863cc3d0ec8a6dcd38b78dff2d9871d5ef5809b330fd28de6ab6fb1149339f93bb6 0x4a6647d87597618c894a82ca5802c332ab71d466fc24463f3ce2f42d2c53e18bc6ee71d360fa05420da2e639fa7ff87; P1 0x2b3e94ccf146028f31e189f5c9b917ee1ba302f14657398f17457e342ae0b4c5d1aa69f1f72eed511bf94d9db34d1a 0xd4663314e1f616adf59e67a58570474a574e5e43ecd982aecd7207b830c5eabaf911a07c96a5a265eae368d78a79a5b4; P1 0x16072daceaa29f2cca8bae2bb3a169741940e1e417c7f63fee03e12e4a75e1dbb860b4d7623eac1846e0189feada41b24 0x162042dd5b7155b326633b84d208ba92f541d3075f3348571d79933b43de594805ddccbb557dea3a5f3cfc8f630e17f4; P0 0x1e98f8ed485399da9eac33f497626a69ccb349ea3ca1d7353488d2794f5a46bc6d1260527a632a8d84eb8ecf67fc074 0xd7d498f61e24bbf60c15d669a9e0b6e558f884472a7124215cc9a13b8a93eff9016cbccff6c1512e123782449e73b874; P1 0x16bed92f63351a1f052557db9a9f085735f5b2b02f6415517caae808590df23d20ca1f38a9635916f64def4cdcde0e515 0xd735f9df270318cdedfe601f11475c9e0ba915a64a69e7eae98a2a0e4876b2920a8e97125249b6a828d03881545da3b1; P1 0x169d76a2c7ba26eb65d3b243b939284c25c61140e9a5ecb1e3787621e89d45c7779ea2c4b60eb5fbb9a75a4d182eb5408 0x38825ebd7d963fa66114ad53a926510f9105e4caaa966dea705ae51d7997805560544090f38f281cc7028aa97435b92a; P1 0x18f297ae84e9f9dce74fc44498ca6314270e88cdb67fb955e3644006336d9392ee88b828daaa5a3d58b5b5fd11c4ef4b 0x6a6eb4ea19fbd12a1449f57b6a47a9e7da772b14b413e0911e7f8469a236f53083ef2dca7fd6cead8235ad3f1421f417; P0 0x2c3fddb1d68ce83c3a1762dc4ddcf861fd9330a0ae00595cbdaa1bc44e494e2792cb85e96268edee78afc3c67a78dd03 0x3addc9e2fb44bee4579ee4506a432bbe975d4ae4b45b1628ca2dc36a4d603ef2c3c2194c4a72fd5806af72d197aa16b8; P1 0x1b127f4215ee66073b6d8aad2b0e550007eb7ae7dd5cc438baa2c74a4f59606dc44fba982b63418222cf4430eab35184 0xde5a555f819860ea37e2765d553abe4e16009b7f3c74593aae0c31060151497272bb3a360a771427822583536b988634; P1 0x1824197e390c7edd5fd54e7ac7a89774c5d7b03f1325e9bd63e04898d016c4b6454fea0a87ef83cc59bc5e5e0cb08c4ad 0xa46b801b4a7ac4174da5478470a269eaaeab1ea3810cc1d886ac7e11498db75dfe60a0926e6f8421e1315df366a3e669; P1 0xd333d28e9cb1b682ad3d15302d6a0be084840d03227f3a29a5e322b8a6e1cf67fef22ed6e1e0ec0f5955f4510b355810 0x38f12dcc2d0ee92408658bd1661c69fcf1d95466c873a47015ec6e91a3f59610cca8876612c9edfb7a578fb4b1cc8ef2; P1 0x1954ce812ca98d839e596f25e248bc3a2180e0dacdb257fbe9e2e6cdb009c70dfc7cdbd6a73de6d032f0ae8a2b673bed 0x71267f5c879e5acbee48e68480c1f50285033d4df2a651329cfaa3f05718ecd5c524eb9e9a1023715969a8489a8d911; P1 0x640604737d1dfe57b94e2fb896bb4bf28b0da97cb297453ed5d682016bf2915d248536c2a95d9c336e1a10e1001eb9 0xd9317be0c3cff67e55fe9e84f6249fda7ed0783ffa38003481e8423e95b8980051690425b852e396d3f079a878653827; P0 0xb844ed93b3f346ffa2b9d26446c1811c94862d1a0c55bf0aa3cc80fc76b9886328096a5d4041871314039e25fcecc409 0xb739e85c1d5139d11d3cc0fa911b2bfae40a41fed022bb16e5fe7e67eb1aaf445fcb5db86c9d5071177722235a6894e6; P1 0x10647ae99fbac8a3a0ae7ea3ca0fac02909d0173b606d8b32225ccecfa69bd56c8faf63f60c1666d2ff85688cbdc65569 0x8a9cd4bf6e5d0cb5c30b33f6ee2b5b9cbc0bb40886d6dcb40fc488ba288931812d337c10a63cf5bf8657ced6a9624e1d; P0 0x4b0d75725d18710b6f47e4af96d06aae3b971914636482b5e80eb18b0a74e3d440924dd1b5cdc250cd1dcd02776002a6 0x72d1f1dc5ffa8c2fa63ce4d6e444afa4539b15ffe1294dc7a27593d6a339156b691553816bab39475e900a69ddbde8b7; P1 0x66ff4f2a27a10cbc58d47ac5c1d3ae5c9e85a6086ff064da101ce79d36185a4bcc90bffa7a24f7e238bf7402f0a78cfe 0x1fc5406813dd675f6b4b6cca344004dbd65b5caeda9ad4860f901f74b88bf0cb75d65619c5658aa071e5cb43f7356188; P1 0x7e2bb2aca64cc121beb6cde33e790cd10226ac837a46b509f1dc39039840b53c6138c443cb032faaaa7dbfd954a9021 0x1f28d3f7b19d08d64de3a274b4275447b276b23a8fc3941838078309437a2251da2ce064fd000615c92ff153b7f7a8ad; P0 0x3cae9d8e9edc7a7bea850f6c20818ff5b245217ce243bb3795081513130dc9e979f7bea5c68281f65bcf98cc4213228 0xfd0ca2776cd532d76d9fa58643140659cd4a9fa1ed7a3bf4ff0c4d736f7278b725500dad5afa8decf5e969335e3f94f1; P0 0xfa21f9bfaf6af7eec3b2539c4629a994349ea2be85ac4422468cbb756e2c98de52595f99af149c8a9e802dd46cb4e8b5 0xc9bf2cb85fed3c7f50fa8b57f608793b8ab55a8845afd72d7382fa0d3d78aa1a42f548b56c734d6ea6656c283730492; P0 0x9efdc2fd499192c3c8e8ee4625cacaa129815e9cfc6f2eecf65ea79b18f98df44b6f3f2670f3e5aab04dc3873de585 0x4109d95331ad284380eba81f9af477a7b4dddec69b56e5e98df9a18825dbcb108e316ac89d1bdfde82b1448a41577b85; P0 0x108600bd3f9191dfea6506d043a9421835dcb057110b16371ac1288e3ba3a38c6dcd6688df8f6b7b2338807a6411a94e 0x2376b626aeaf0aa730782c9411fb48d3d488a84def849f070c3461b4236088d4eceb93e50ae580ac74e4403380ec870f; P0 0x4e9acdb0107ec80bfb0d7b1af642cf795e14d5bd69a14c31d2335852e141c6f37f59843b8642e2737deb506ddc4b58b 0x50de14eca51446a08b76a3bef2d3ba53c30fa75ac9eb52fe1c395967bcd161e32d78dac702e9320bf90e1e5fb2810270; P0 0x198b8dbc3350cfdac87a7a8d139e243d8b5ac0363839e5af1b5a78130f63ba82a66b71eeca16e7f4b4fd3cd30c571f9f 0x47e347360309e88e8ee921bb72f1ec9e67b1d4666ad4611786b369d8096e8661c8f0cd37fe1044ff278e0caaac574593; P1 0x285fb68ea68fc74c8e9a5acdd7c4e970b2593835337473c5877fd01661328bda25fb162541398b9edc5cd04f1ef0c6a0 0xa8b846275df8de4b28c28125485c80805236af065422ec890adb8cd5d171cb924b65f99c1bbca670dbde59a3fa8c4af2; P1 0xde64c1712e4e8de81edaf37ad96fcc02ac28c4eb13333c670b6837d4681ff67d306c662a3d670a75b919e8d8560881d2 0x8281539585104c4e7557f5a9a0911dbfe7ab87e39db777537bf5f6b7c80d4f3c27c80003d14fa77d95a188f42c0aa632; P0 0x42879a39331ef38951dd3be4a431e802cc338d0619f83802f6ad0718898a57d14650d6ec82233183341aad43052ad6fc 0xf3741ca1371c985bda41ec0c19cedbfe286a7b776860d40de4300e4cf7ec06e4a3797c915f19ac754de14a532933f290; P1 0x1cf0b460807dbc97a257ff399fa21d7eb30b846e0b8a8bc823bebd11fc9a7193e45663a7b22951db63e01f3070f3e00e5 0xed7c182a81966cfe2a921416c7f7981d8f99d5900c22709dcba925bf9537a307731ba6434d2101e47319425d63310e21; P0 0xdc4f00e61f660ee32c7014530f2d902c646a9c67babd9e58f6f1509eb1857daa42b5a13ea7414321957933098c08077c 0xacaa9755d68447ae36eb7a557936a0a1147acd5143144198cc4090ea4fff0b771b2a8dfbea84004880e2701a2c2f678d; P0 0x7475ad08afb907d98155e7ccdaa2e28919c322a4440dd0812de661f577a94279d2f46f7c253f19fb34fdef7797c212cb 0x694fbfc86a673400db9c872d218dd6eefdc61714fc582d64e7d987bccfa056c4cbb24de7008483030217f89c2c40cf78; P0 0x2b52842a54a7000739c21b34c2c84f8f416f8e0a4d7d008e6135ea4832320bfcd3dfbed18152050aab7707c111696998 0x78ba981e74b6ab0b71cc74727ea6bda13571960ed96bd08e373a1d7081cc58665d7fce4099970d14ceed53418de780f8; P0 0x38ef769df4110803c274c57008ff0015d3ec510b9ecb6bbd45744f59af66c2c706c33f022ee428b6d94acef25fb692e9 0x5aeba919bbc3609697a780a388297279c58bbef6f7340e7808bf9a9b09888e2860adc9f1a3e5ebd9b9c2a11b3ab0a095; P0 0x204a8bd5fcf7151b6282e9d639f333bdb05e7cf049d2e4db2ae807d27c6181e119ec7d8c8927f71adfc2955626e4f8b8 0x89ca0153179b7bce883ddbef0dfe4dea1ac9823d4707d33d034cfe71fc417cbc48b98d3ac27dfaeeb32e918a8b516411; P1 0x9453a9a20cceda13ef70d5601509eb9db60ccc53d5304b98d49872c4aaaf18bee24b7b989647aadaeed2bf6dec8db71e 0xe781f9b097125507d3dc91d0f5e1ec1cc34cfb806efe43ee387440c5ca17feb0fb4221fd0626b080ab6cf11417ab81c8; P1 0x1a2b7a5349048ab3f1c00b3ef81196acc662710bb1bec2d883cc2cc7a03df3082d23dfff9ded2abbfaf08f955f799d4af 0x112e44a303e91c1deb8a98f74876ed88dbcac72719635661ced85dc95c1be849a2c52a8112cb80ac3df62a592a20c6e3; P0 0x1272d7a63815f63e5e20c4849529094c56c4e2badac588e39b1c6c05a4da1b2f5f80f0019eb3de85c94560814751134 0xbc7fa4db8523cf92e7d3ba2a8a02621e087ca3b8d6a43a8d8ecb6d4c7eac5850dde037045e516eddcd395f0f31e7deed; P1 0x11597738ecf09627555712d2456177d3ecb2df391415225fdabefbb63026ba56e20c8c741e6aa019834bacbc774ff9f76 0x947784e72e366beba2131e419c414422079093d5d326d14234c4407bf2410fd94cb8c241340cfefd165171475a7f46d0; P1 0xac34d2f042b6379aaca04afd2d0a209e8a8872c0be78d3ead757b41f9b26450ae88769b0532b7114fbb3ea882f5e7bf7 0xac02a8f8f4bcfcdff84d6692450170854c0ecc0770ede87df385d3ad011e0b09a35864dcee2c3f0bc798ec5b898d930b; P0 0x739393159c497a140d30987027abab30dac0d9e8a5e816d567f8ac4d728b1d4385c492bc2ca33a86481dcfeed906f2b4 0x847eb46e5a10fb9564d9263bb04b335499b05727b1021cbc78b34edf9c45b14644cd9206034c5d7c16c760294511c79d; P1 0x8925d18fd15b14c63e42e2d15b86ee4446f21a0faa5ac386ef9217d29ef12b915b0d2b4561316e24a32891a774ebcfd0 0x756f5573a25237f56ba08755980dd6c2b62d192c7630decc80b71c6faa387556ea269c88e812ee469dfb0f1d8bb84222; P1 0x6bbde90dd257d0f1624ef436cdf4dba668b78f542f15affedf52cd6d733d06a20c2d73cbcc11404f33b8045617c11b6f 0x12e4b9fc190494eb6ff8c2cffe776f4fa5ce247040225d914fe3cd64a1f07a9441aa24ca7d1b1385e7580f60f25bff2b; P0 0x164f68343af898441d1cb0537715f7c2e57b0fdc63b72281eccdfec61ea0c7749ae9010d14ffb443e7cdb0f2f59bb87 0x2504ef60d72022f10854c9fb4fba2d021818fdbc7d75035965d9b68fbf1d7171e1d82f85405d4a630965dcf22badd494; P0 0x55a6d4a590bf96ad210061722a673cb4302bfe45d6dd9ee0933ae0456dfd5f32bc85702da5a634f40c3fe1849c5a863 0xa70487568cef9c4a9a3f4cdbeaef3ee968ffbec993468ad6566e8f264784d45f546ae3326725d492ce7b6f41749bf617; P1 0xd9edd14edc42d69bd9fc188d08cea22acc58d32dce3da6245571e80982d087b6938ad9a104f97a2b76f320628bd2374b 0x62faa0f01d3c3da3bf86795975072f198ad483295fc854a649678e1328ee815ff2c99e7264d43994f76795e1bdd39271; P0 0x2644d89690883e9be3cbfe20c1231ca6a555ae5add6065186603a673171bb1a61a5c04f3cf02bc8bf0bec0b87e4c9190 0x7638d6c8323abd2b1cb9cb54cbd005fc62b4232229d61650bb4323d14467fdb786ff1d2147fcb29bac376011d085a231; P0 0x3698729f3a17709f3b3e7f7dbdc6b10fca5cd9eb3dff1cba18b3175d8440e37d647c5931ccd7bc0394fd9763b933ec07 0xbac5f4c968ee6fe0c55443836cbf3e4f30418df1afb23f0a4a07fe67ff8fc1473af59da1c4423de8cfce6e6dd528e73c; P1 0x11088818ea90d100e8ac1cbc870efc11f33d9a74ecac2fba56caf667228438f62446daae20e9127bc6da952a13abde7fb 0x702bf570018f5689a4dd04ab05e117fe43d1616ae459cd364bd4cb0c2c87959b1092a6f1b975244683581612819d435f; P0 0x31267e4e604d85dd3b906343613d0b3d729dd152ddeb628a35137be76ebc731e15e08485621132cb552484c10e35a5f6 0x27da03aba592a0ca0ea218c6dbbd967296b6929b1356a2348f9f965c58dd9b0be6834eb0f6c5dbc20fe0b078ba44e9bf; P0 0x63426c88cd623af7554312665169c257794d242c1b1792076fc2705a758a218a3a8f47e9dc9e1ecb8a12c03031d5681 0x110152f79e35dccaa94e8970291b07e162aa1f322070169faca2ebad2abcde9479402613e0239ab3820587801897b78e; P1 0x2425a0d47abe937a674588ca285f34132c79b7669602f3bf8cd30c743ed69ed259f3591e902eec4b3dae74d00cf5188 0xb4a2d33d732f27d96dcdb2bdb00cf9894f7a511efbc6e2bf95b6e62dc9d97822e58705cdf25f86ecaefa211eab683d70; P0 0x7f75609e720e725805950acd6102062e432dcb006fa75dd404410cce30ac7471e679cb7b0a672498f873016af3f3b16d 0xf1747af0cf3fb593be3fae2842b981e7c7bf815f7b13a387484fc571852f43107cbc258ec5deea10897ae69b96fa6809; P0 0xe3bc84790b7c2daab265ad76d8af8910f64a7270bbd4014ff53c46bdc1adde6683a1d4e751dfb9bf2ac2c0121c7fc2bb 0x23553d2d6959f1252b1a014004546be75a72b2248366d127eaf0f919905a74139b5004b14e7205a71794bd20c65fe350; P0 0x4e06b1c199539ed5e5d20a1edc935ca80a8843f827bf76b61e5e57a3c2fb27af2a5cb93732dd4d6d2d377a15e7be47a 0xb3056d0822c542888efa06b364fec5bb23d0dc64caf5da7c25633a55fc84a24af16e4453976fdcd87120e1feec15cc32; P1 0xfa612d2da2c2493b79f95631720925ab9b2c8300ee8ea5f44eef49c907a6877ee24f0cbf709b93dbc3f4e6bce06eb111 0x2d5379f58c5728b2b6973c636a6dc1269eb9a6a1df16c72048276bc75e5ea20e6b89407783c7c9edb5ddc8024bfd2fe5; P0 0x8067418a2a9af03884fda28b81704a1c0e73781bdf499d9c51943b07b57f1cf2a6da66c4d9db36876435cdb0660f848 0xd6d1475c987c8361d73bd6293fdd0d88f9acb50d622a7ffe5340109d2c454313730d65139112ae071e32155a0cdcd281; P1 0x168851cc8d00b4a123d988c14877301304181205eb5100e4642e51226bf0c91904a1b34a208b0f97093834344450e8c90 0xba5a1d9e68f5b90dce008f6efb24c633180851e255c579ffa536e74d4489128796bbe953d9e8616eacdf1745e0c39552; P1 0x10f4e25860ea846f726a7917ef377dbb4118357bcf5556dfa62d4117cdf3d3577277da585d563ca7fd65180d2782ea4ba 0xda9b9ef215b9193c5d8cca9b381f4d5abe8de4f08db1f753201b39d9e5d4276f49df1b1dad5c2422fe138fe8339152fa; P0 0xbaad694e28d544dced5f2f21bee7139ebe63cece749493f322840b30e2edb27eb76880d08f20f38f4aebd5ae6395d95c 0xe7565981ef9b256b51f69cc786ddfa3ec870670d86e0cf5ce040c1e6a8357a321a6d5f3009fe9e6f62caf7c7662cbbd0; P0 0xd10cf2a8c10294520ca983ac3777dfab02c5e2c0ec70fa7d9cb416fd840115bc6eb816cac0209491df77ed9f124ea633 0xa50f0c33563d57eaeab253556a0928d8eda979c14c50a024e0c9cb65a85b1f204c36037616fe149a454143627e17b517; P0 0x6a6c669c9bc408e659cdb3b0f3649dc3bb04801d73497366d35cca2746c0eaed004a5a14145c5311baf6ef28c9865160 0x209b952781b210f32be30449d25e0c7c776496d6703e09f76d7054039c13a61f12781169e5b2278d6474e18284fc99f1; P0 0x42743d7d52a94ef5f211217eda89cdee57728fd1124bb91ff4789bad99fcf95ef137d99af07b83b341095460c5a5ce9 0x9365b43d0110ffdf13faca9271b067bc69e67dd66ae50db0dbe8fce763dcd8dc6f66713263d76c1f073f6f44c643e736; P1 0xa9bbeacb8c846a9b01c92021e492ce3cc6f432b02ca35e39ec989669240378f0242507cdbf9cb7f3489c39203f6648dd 0xb5c2091ef2f2674feca7d284aef638d26dee779129b9ca18af5e1d38055cf5e98a04e66fcefbbd1eb08ba8c8b37dde81; P0 0x810bf3f796c62e4e7c6b04448cde259dd37ac955617f7963605ce637764f4912c8f6f9ff94a899bb8cb0adc17ad56153 0x448f53421e62a90f6d07f8bb2cb125955a81b25d5d0c7d3bf7b29b37e72b71fd8cbca0adf4452e7ed44d3ae50e0df9b8; P1 0x24b8e8f27e2c99a17284fab06284c14c10681592f459bc65dddfd5cbccbb826cbf301afe26ae0cef6c171052fcdd90aa 0xcf46588158f6f3af67448eaa211004a182420ab5ba170001bb301d21c62cafbdbc19cfe748617c938a4e10940209b222; P0 0xa7d2d675b33533a77c423bbc2fbeca81b43a9040f961040969141d1da2393e198cdf4b3b3956228c06edd068261ac478 0x329d911a56cb89629228f14406be9f3ad0caf7405eaa2065b75dac5cec79e9ef5e6fce55220b13e9119958ba5281d29c; P0 0xa01eda99674d0595466382ff7f4c2e3fa3d6057db82c21f3b5c1024ce912a3dcb627212aa313617714cad1ef0fdac7b 0xb7a5e64dd5d831d672732478db61ecf6693b4a6f802e574b30fe01644b296395528843b0410084fdb435f75d3d4120cf; P1 0x1077d358bee8167b74c99e179148ce0bbeeddc819a1dfc7c936f49d1a3114cb9c7fc338ee52236c3b9945a67c6d1768a9 0x5c2441b6733b6332afa580204fdafc91b8d98a550eda1cb04f27a2dd7f79f471afdb57681c6bab76d2a69c72af50b9d7; P1 0x425428bb5e028119125f199aecf4adcf64bf802bae7f04da63a552bf754ad6806f17931faef9b6c6a8a96a1f7aeafcd2 0xa106d90dd58a37e8a9b6cc9ee02bed4d0a0ef6dbfd6317dad9540feb3625bf307d3e620effe87ea852b245f57ee9b0cc; P1 0xca933a64968ca321f2a295e81cadb159ae35929a7bb7aa2b682c5391c83d9fd1d8767a2958139938d4e59f3bed48753c 0xcd6bd260d3f13ccdef4c0237be37e6b3194eafc884f66a349fdf3e2f3dd7961f59fdade0da078af9f3cc9db60162ff2c; P0 0xa4d5dc589d448762118cc9b25088aeb0e1a305d802dda44bad3dd0dc29cdf9241e29bcc189a6ec51fe38a2bd7e31bb5a 0x5c27051e61717f3408e93fe2b17acb67dd031e61e80504db33e0ef1b476a34697c2e4a59b4899d84f2227ac286e1c22; P1 0x42582340cacaeed725d6d47d2762ead8849aaa069229053d229613465062baee14c1c7f6ed1e8b44fd5db6f4ac6e57 0xc66b0f551c732174429f20105a7affb6938acff2c46c8d50a2d95572056787ec3d3240224fae51b2aee3da9dc8a68f3; P1 0x1339390faf425eb3e678e2172fce9e7951196588c8c0897271d38a3bec670bacacbd914a74f6e972d6297e1c0438279 0x464df525676401e450a73489b7906873327530f0f1b04d08d188383dbe1c113ec3f859756edb99348a5f22dff0aeaff7; P1 0x269d739baf97011cef7a488ef2d2a4a07708a99854ff96a0a9bfd681f9a1858bfdef382cd4f004939e137ea38ceee9ed 0xf28baadc51331b3e0fff9b5228e4213b02a03a2fcf7a7b22e282f7b23fd34f885410bd67e10a583140e76e7a2744362b; P1 0x1cb98b6770d9c4ce8ead6852c3bc82144eeece15ba87c4f327c0868b6e43dc004d14a2de8e7dac9fa81cd71994980df05 0xd975c6c73bfc41effd268ef4e6604c4019539f78a68fa8363712e5c4cda2dcd3eb8ba355d9875ffba49d33bc95275a33; P0 0xb8b8e12d10274835a6c4c14391a4d3bc0e7314fc91a1038c734ee0c485cc86be06cfdde6e2549c6dc19d5771bd0e47e4 0xb6784d00401b33c8b9b53be155fee13e0ed3ca797b24f53cbe8c377db7bd19a190975ec260adca76d4353ce5bff016bd; P1 0x1041e8c094517db64c2e04f17c66fecfdde1579e7a870c84f2dc729ee76544909b9f1d0b337a6e2273944e9cbd1485f30 0xf484e883070007e4c8c47b84690533886ca9bf5b91832e411c0e7d3ef69d59d5eb640cc37290cda20f2f54f63a189c82; P0 0xe98da03a5fa506d47b2d568be4edada8547cc89dd6d7ea3617ce01603251b1d4e2b0e302a0eb6241ad57816b16073aab 0xc5e00458ac39ff8921e358c1454003d51131c5b4dff6acc7a70bd898ab205d92c28ecc400925b4653291456028d2f433; P1 0x131e5157028a319c1d3ba509e7b1bacdf5a6e8b5382460e3eac3d2314ffc85fce313b6143abe0194eb0a19f81e359ab88 0x6919c4e3ffb6c84c98121b2c878fd0b1653b3956d433a64a126b3bd189637c57ce1049db8692eebff2bf51071bd1ae3a; P1 0x564c4c3627739942a7fd681e8065c87a6271248562bb7b7e216b6578db6bd23431228ace569afafefed2bf4e882ca824 0xfd1cbeeb8300244c00e9cf11e18460e97ab7022067eb65aa8fd37052130bdb71cdd9b65de2fab220c1393bfbf3dc7e1c; P1 0x1f483a92fa5aabdc84b35e0f25cbce5aba4c6b7a04641e8df0337c3d718b5d2b2aebe5276fe4158f095ef286528d4685f 0xc214c0a8e7df437ffbbb24f24a7fcc85ae97b693c4670039ac8d23074ba9c824cbca366ab98e08ed6e878a82eb420c73; P0 0x932375aeaad0687091d43957bee1ce2b5d249a2bb4fb6ed91111066e17d0b860cf885d00ac110b0f2e0edb2fc2d3d67a 0x7fe776e3641190680b6239801ba6220904668d8c3a67aabfe488ab6aa4f0624ed63206e9519bca299136397d78218db; P1 0x7fcef27ac5bcde694ce77ab2cc008aa810848415e1519c1b09a36a9ac85bd127818a2291d0b1bd5592a9bb35035e70 0x4504466fe61bad528ea588f59a16a681332390a9f7340fc23a75fd09b0270b2a067abe6dd3904ec4bd03389eeed83a62; P1 0x25369c1531d6fe18d231c6128888a84cfb418749b00f9a964436bf873e7a8a12f43f2393c86dd491fcee4142b41f520f 0xb836f84277b4b511c4d69d94242f70595ca287cb825ec5b8e471d5f8b9c1f42349d3b155731218af760365cd8d9fd74b; P0 0x848f10ad38df1db5fe6cd77e648a31e2f5a4848c213462db29ac8448ec6e33a00a43ddc451b586cbd52d80af469a2d16 0xfec07f524922f8986fa6d3f9607b59386a87a7ff5e88d64f34595364c90398a1851b3d73065af5a38d44905a1fd04917; P0 0xfd828d6683e1d8c70429fdddc84937da825513f2ddea6077944fe9b243666b2db3fda4687bd061d50d26800c6f459218 0x77d1c7e2255957b7f52a2a9cffec556fe7eb2600f862baf5830f72937f419084f294d5569179db39ad9bf509bf1fa749; P1 0x702967787416d28a3bbaa9ea7fa03db9db3b82bda01340b0ce45e7607459bf528644ac2bf064353f10a7c3ea701556d4 0x1e94999ae82945aad17b0b2785af45d4d74319d2b8bf4e8a1b61678080490211872dc3e2e5025345bacc01ad385ab066; P1 0x74e54848b6146942027c3708783e9cec9679f45bc1d0a0833247e22b3a200c9630e98b38447b1e3986bb79e17f52202 0x8fe8720ba212df06a6068f35f55ee54ca8b06b80681c614cd183a634eea5134e8e55cb2589a0bd0b7fa02ae6796e3862; P1 0xa1cb04efcdea687b98ca73f4fecab1ddd2c9504a0a0a6b2221596194e4e33259eca0bbb735ef31a43d87ace741a368cd 0x27dba0a70812bbe71d889486d5370a231740d819c433591e8b77af80281aece70564c53a3e3730042884d8279f5421f1; P0 0x634a75f270ebc60dbff5e7fddc609fa2cc54f5a7cdb8e1eea9c839169c00288c29195e7e0c9e7ce2a87795516f39535 0x15a38de96b5c700079a84a9531cf54a8427031864d2c735d99aecffd43266889b1fe48f1684f25b38b41ca0d488d8112; P1 0x3a87b8ca30dae5e4676acdac368303c8b8d49f31b4cc629999e9239bf718af362aba3607fd69b777acabdfd2a1cdfe1 0xe378e85113a2284b8eb45a8c8b1ee2c2e479a264f8efa4a2acd07ac623bd24b250925b2dae5104d50f67da08fed5af75; P1 0x1943f4a34cf4e117e3a2319a723c4a195f8fdb71da5f852b121b52eb886eda6657caf63200b1572890f9bcbe095df863b 0x66dfaad78014aac0fb140c33d45920a2234fca0208fc30ff6b50158a2be0f48349f915eb89a88219a90f9267ca969771; P0 0x2956ff8ecf84879719dd30af068474a30ca3050c83c714a932e3def2e846eb6b91e71d4c1adf0e1128448d4449732c5b 0x52546e069d2259b96cbe7ccfb2da985b7e72a9b66fe9407b542de93976f732d1d36a6946adee3b76b911cd6a0f240000; P0 0x1a7a3254a04acf3aee8419c52726bc198b0feb76a5f972b03914be8544dfc05f39a51a097048de49d95f4b06c320b197 0x70e5e983e2195e553336495209a82e82c7bdf57f4d3a5d95e820244ade3d306d6ad7f6a228744b31421af6931eac0a2b; P0 0x31c9facf00ca0970ac9b8ec42e115725c0bfab5c6c20868a9d70f72d8cb42a1f41db200091a4268704acce5a317f5d71 0xdf0330e113f4d76d719800a1aa41f07485c479b9cab265564537532cdde752e4430bbc983a9f53bd6cf7a3ad280c5076; P0 0xc2468f324f60346d9f3175c9f49cb7ed1835c5823acea08397d1d50d5197c48702ae55b96e5652422d49901940a85745 0xf7278753f1c7a0aa2c5ecafb5dc127287b3a5584630a6dd722ccacde08d264ac1e0fe9485f89674b40284fdd5ea7b565; P0 0xee9d4d3e7fac87628cb791e33bfea46cdb4e24f21bac4d054db9f4310e28a944976ca32bf307d889adf82a20a63ccf33 0xa92631a34e66b416bb51659861770196b0103213dda01e8e817630db276950de2f787baf998b75c020d2ce25d58ebaf0; P1 0xdf86e678c73d98e7739bb7cdced539fc382e9f2587001c55a7ca33e803dd6e2be60e0d1532b55fcc14292f409cdaaebb 0xca059a83df2d29ec3af50efd01bfe5cf3e30cb13307b8eee164e0d92e78ef23807bdd62032971a41613d10f59f63d0ff; P1 0x13ed9afef0539d4b9e2fbbddcb837a8b002a7131ee42f720423644d160ec7a13638d57d908fa295b7758f2c523cc7801d 0xc082e177bf9d58ba2e2fe6a8163ab840b6687b2e8fa55971b75ece6f8540614fdc80bc7c8df0cf7fb5e663f0303e89fb; P0 0x90c4951d639e57bbac0ab0054c133773e5a9e60a5583e160cedfd281624ec84c239172cacf08164fca2a1535d4b6738a 0x12b9d683cd142df3b932be5a2a1150806243214623c64edd3996a13c9e2a0515cb81bab5e585442653cecfc898499b1b; P0 0x15ea9124715dc59f410a25bb95896e380603e261ee728ab3d17d1bf23c86fb2ccd4d16e859723314fbc37a7a3ef21e3 0xf62c22b77aff51dccbb40372f73005eb112c326c573a69b8b30d541add2e49eff7be2265d059f21b5a31bef5fad720e0; P1 0x1d971b4a92854728ac28409e7a21f2e4e24af403c345015548b90384e43da9cc778c0f6174fdd652abb3fba845dddbe3a 0xe13099b86ef773211fc5f5bb376448eaa436a1f78a279f9f6e1e9fa97e1505cd2274a21fc6f8c691502f41bf303bc9f2; P0 0xc616777034868eaee1b291e75ede491f6e9711956a830801e7e1f97f03f7667071eead61cf5eefcf61fa312aad3a1242 0xe831a91a2c365c9eb59d0d07ba8fc84a6fd603246ebf35c031d1cef8ee974ae0ffa8e0d60f1c9d9ec5e53352b20d231e; P1 0x1a534184337b60b77cdca8a4a0233df3e149dcca04b123d4617756b0d7d68b638fe64d03cad1c81c8f1b8a57b816d807a 0xcbc68f4cab07d57197b4ff8a0f2e1735e9702f576d265bebc8a58b8196084c0cd40bba28d6bca13a72d95b15d8142e3a; P1 0x14469028b241b7552235da7234addba5997539308da30b29505734cbb074f6ad8095a6cd4be55da63978a2c76d20629ac 0x4f623f4e350c03bf07bc88c362817cba3e6913a1e2ef1effe80a350b73f3e8df4d772811bdb44fbf6b992c0bcc048604; P0 0x189dc8c6cc459d830d30911641c1aab2e347aabf5e90c0b2509a7682cfdcf4202c5dbffe485970b3319149f712b87bb1 0x3dfa41c7b0d58ccd211b12ba29e27b280b2627a7f5763cb2e9cd3a9488e0ff1680bb248006fc6850f3076333a664468d; P1 0x1e026ffb6a6453833425ea8856f16a391358f26be69d658a19d0f93be9a49e72864e9b69d6d32a7975a0c39c32ea5f27 0xa9833d052ff54dc87e1301cffd186d7843283d35ef835be389de5ed081c9b435188c5836246f07506626af4165a9d5cd; P0 0x703e89d85b2c6eb62148b3600a50fc2edac9861583124428ba10b759f84e889f01f44c41069f0af1a28780064da0d88a 0x49c5eef9e00e2e008358b5fe5248cf7c57f079f1e40756f5685d46739596f37497cb58821c977ae3ddbbb9bd8117662b; P1 0x2a84f6a85ae0f91e29d401ab1ef9bf099f2215606abfec50ba10d28f4da2ae4fdd10e23f9a1fce18b8d7a41931459251 0xdde32efaf62d0f42d06c42ce010680cbdecad1fce31e4f058466abefba992d2b30e92d6885570f1db2b1975049fbe30f; P0 0xc05208b9a6b986c05a90fdfee985caf0f6efa8fea16cd8e9c4071556290c545809b86ca6488c1bf7282f3e56d860dc5e 0x7055ece7ca61550401c8d383455dfce6ed7110058b77723dd6bed8f54410a4eafa72509fe7db7c18a7aa31fa63a98ea7; P1 0x62969843fc7b7c108d3af04158b7fb76b16d4aaaa499518e962ff7f6249fa1e72e98c9fe84bb9323172373688857e5a9 0x4cdd733fca6343598d4c9443d6670102af16a835fad4431333f052f1c1c9ebc2bb27a45896eca8c060a01c31e9a625f7; P1 0x2e2877fc20617e33bfc3ac1a3296c9e98bba2d043a89e5c1b8ac98d9f2f8a26c160907e026d8c3a4a841df4bfe443d51 0x6585f52648330e4f0b5dd926472481f0dc0092fa7b181410fbd76631e0e11bc57411f488cd230c1ffc730837de1c243f; P0 0x2842f988d9819a427a022a500218853066dcef48b7793c786b1a2cc0253ec6152d59b3ee97ac4583c41b32fdd3a8faad 0x4ff9d2c6eb6edd82973cbedbe611df20992690d3f5621afd75797c968d6c20dc53ecc0ac6fa124b9de5a8cae4eba76ca; P0 0x18fc23e279cf5f346ccf52c9786ad26ff3971d3c486710863d811ff5a6dc5e5a1093b50dce629825f457627e0b44a4a5 0xf970ae924e786a03d429ddb8ae7fba8d0ac368be6c9fb766d6152b2d687f9fda0c575a2211e26afaad077c06af797445; P1 0x1e618ca63a76c3bc2ff2d9ff025f965480311fd2ab3587e1282b9e13effaaf5d77655ba32b9980e636d2dd1518f0859cc 0x533cdd166d0b8bb81c65cb046e395198195f62d4e3386989882c2a6294e1b119dae4bcd40880eeca9aa038a3a6f3328e; P1 0x36210ba9d850a87f78c4171183a7e772c1537836e0e618964e3a0ef27b959ed5ff9d801ee32dded40700ea5e653d1330 0x62348fd4bd5bd79a327bb4357fcacf2b34720b794a5e5f0d0daccd449a6a8c3549809402fd3bae783bb4ff1210ad3ef8; P0 0x25ac48e9a0369ab86c575150a788581725438e88d83dc5e07838b3ad49c267a08aee3e927352b54ce34ab58f38bffeea 0xada23dc9cfa2fdddd7060981606131ee3078a9a330258942bb9087e8ee5e85035f772b025a67a72e787576ca4a881322; P0 0x75c4ae5504f6e17284b9a9a476440fd8eed0c8dd8a956ee9d4b951b1af95ad503709bd53fd13b1a3511ef58f2606e683 0xb54a1e2e6ca5a4ef246518704fc8e26b8c1ab8ad6d15803b8d453ba0c0f4721c618621907cf69bf46354406906ba88ab; P1 0x100c3c846380fe9bf2006ffa30a1990ab01cba59aeda9cd52cfaab06527316d946566246a13c5791e9c5fbfb8080656e0 0x5172b315e380744333c5e55d730d57b84996da39f0b131fa2e760af4c9400daaaa196d99e2b6db282c271961d1c15dd2; P1 0x33d3916fad7b0bfda4e6e6ec9a25d9adb5ee0819e89027fae37135f6a6f7d6b9caa9594f5cedbfd5ba7cdf189bc5d6f8 0x34c8c22b561cd20ab2a2dc59a68f7a16913c748ef0db9970e1fc7b1bc3d7eea58269786683881460a6fcea8a43e73720; P0 0xae22c5191f7f83642476eb15f1e7d8969e8b93b2cf0d7252a783e2c460e8463ab9f9dd59c3fb3ac19c0e70101eba9e2 0xe2b3f7dab4e0b0f490e935bf4bf1ed35e6b880db108975822b226de4bb3801c07b5a5c84162ff8603398281ed9a2417a; P0 0xc8c24022b32d6e8969d0773dd098c6175e92377e637cb46bd4625e02fb79dce261ce85e462c8b242d7287508209270ad 0x4c6defe02a9c6218fe437711ed8cf353972dc0bbe92567511c61c7f34b844a07bc80694f0375cd40fc21c3751c31db6d; P0 0x16d175a33ef57744f82e9a5ce02efdd50c1790e13ebf7e85a01ceda052d7fad253c28afee804835cda35306140b0ce35 0xcf5a1c418edb7cf9be99fe91471a5479829e7de11c8992ec4e56d76be0812dbbd4cebaccef4323cc9fd306f848918d9a; P1 0x14fe5b2d3cc7b9cf340b6c29d118eed40001ac819454b7e0c46c7efb7f4d516bd37042f837fa2c0844231149ba49dc74b 0x2f323a38129bb0f95e98e3fc59166cb0dc265b57f52c66554e30dd0e5ddc5fc97500917cf208094b87ec1a00550b7797; P0 0x8b37b3b61f9e48363cdc6f93b19019f7af1ec3924e03fbae68e188f62a95af1b406bf724a326a147a8c044d263adaae 0xbdf76b1c33d53da3d398a807d354615220aa266798533571fffd1ee95c7bc15f85d95fbf25604d925966248d3b7ba0e7; P1 0x119ee868f038af1e0f6799f2d3588371ce63c6866a336b09e88812bdd4d6be5e5403a5d5f1058ded79ae5601702443333 0xa69838dc0c062439585afa7bd874b1cd7c678a5ff0994dc87ffa72648c3ab7f8fd929206b7c6792df57abd8fff21f5f9; P0 0x6c69c440f18740acbda6d5a4d1d5ee2a1f43a4b8e4b3625f0213e9ce977e116f3cff559aed26fe97a5c67c29b7c74098 0xab21f5d81c1748b72f2c576dae93355308761ce8fcadbaae70ba391bdd31aaeb58f369dceab60c2ef031e2cb17b62fe9; P0 0x726662f00355b55973cdd5abc38edf22285a764ba52c11d7e3eb8a55bc24fc955f11e937802312bdc3dbe1c4ff722051 0xbfeb6d3af58cd5f2c2040475095036a2956d4849de277c9a6194261c28f835a111d034f6c42d8b7234bfd644947ce4ae; P1 0x11fc24aff668474fe4d75787708207778cc7336a28ce5403d016357c3bf0ebc2c0549758e13f1df6256042085a0861f26 0x76ad222fbc2e146d49c4d86fa14eb92468ab841206a94c94cf5dcfe194b9d9317745aa5ebf66f733c5770d0e3231b876; P0 0x3704109b3a8f87ff3c636998ac9a99ba558670049543b3cc69b37f940a11c02bfb06eb08b1588f7155c2f72f00712dc6 0x7efb982d3da7e2a72b4b242222428a8ef02247780913bc6233a3ed8f1504001f2e8da8c8811238f84b293be0e58b9072; P1 0x7df9422097bbd71236e4fe6c22c798d6213e76185877743422f16034f9d5d78c8faaa22180e162ffab7fce55525815e8 0xc1b05eb98ff355b4bfd7afa77103f20d39aca8ba60613438d8ac3d6d8bc0dfb72e907259be6e0bc3c217fc326dfce650; P0 0x928b68562d3fa208735f5c976986e01d1a75e98963497192f8b4894b99fb8a8de70284321b1445849a9daceb970c58e7 0x3a8da00fbde351891041d1468f3e11b3735878d25eed49bf13329173a1ba38385994390ef83dbcab81e9f2320a27ea3b; P0 0xd647ae0d775dbaddfc20df4c2fcad1e8fe426e03d27b18b51119bb78743dd409ccf0f92d87946787ebba84622018a2c 0xee3f856514ff0757b7b268773da7fd1244e45b82e19e7e937c36962e378fcac54c0a275040301177bb39751be69bcbd5; P1 0x1bb745795c0996dce8ea3d6b194a18e793524adb821f5cb14d7d76060a433d90d7b3e5783c8cd4d9b52d31a3de30e25a9 0xcc9aefe294c460c981e1346735170ee655df286fef8ae379c77100bce5c7222764f1f333b25c0d8a2f9b37f87a030287; P0 0xa3874c169a7cd0d74755f950b194e04d80c5bf4e50fc45d732ad924722bd060485a33e57b9ea147b5ff06e790fad0316 0xa11b7e2c7997e295247ba9cd4935227649d18a2082aa3c267287160b3502ccd3ce4585cd16a64865f2f96668130b7a4f; P1 0xcac72f4f990500e9d8b5be4cbc08a9c774a6487b0b6e8e6023e49185b9e9368b8a96da6febf7dc4991f0061e845b1756 0x932fbeaca7aacc16cccc6c493f74fe27c30ff3f5f5c830e0972c84bd843fd8f5335b88d96d0d8cbe4ebcee81659c8720; P1 0xa93fbbc3b3f0e8d8c3acac8feac5e555e16e630c4496f86344c733455eacdc954e1ff0fb77359753602ea5c6cf323163 0x3da5a112b016823c20d4ef70882df601497534d6945c29a45a5a2dddef78430f0506c9a1450722c4fb2f42b16a017d87; P1 0x1db0b3d7deb473dc2a8166cc199c6dc87cb3a2108a7e819adb05b4ab09f9cccf4b545f554161cd7f7d2037b19b699396 0x47dbcde06807e9f443a07f698a9b1445b83d2c07314f12cef38babcc4bef7366697562833ca2dffcef2ee6a535b7e800; P0 0x142ba8ec5d378ca2aa3fc961067fd1ba257845ecbb24722b6d4e127a8b06656706d98cb9221e503178ed9b29fceeddc3 0xc4edadad77f6250256730d297e6cde8c05256cefcadf7ad9d5a6db64c0098f10a4bfce2cf3dac1ae9f6e7288965f2667; P0 0x977cce9ca8b4f01a239e2e4191eb71ab1324c22e7545c5f968c6e09b80d3b9455eae6335b99ad62c4692b41b80f58148 0x74d4617048e7478483d250bab79e875a53fcdac19ddb57d6c5f8d2f38b28e0835ae302112a824be129cf6e0a1dcf2219; P1 0x6aa250fe924140bb5c89ad08a845c8dcd99adb85ca9529340110c6bd0320005fea8dd0f98d788c0b5b8f64ce3d1632d0 0xffffffffffffffffffffffffffffffffffffffffffffffffc7634d81f4372ddf581a0db248b0a77aecec196accc52972; P0 0xffffffffffffffffffffffffffffffffffffffffffffffffc7634d81f4372ddf581a0db248b0a77aecec196accc52971 0x1]
    [(0x192a43d8f8a55b860e20c52b200024fbdd5c39850b80be9fa08e6156d781713c6b252c7, 0xc1c311fe41c771ea98a50b660b15b27a82d7161575cd1e190d03219146d0c45f3a4774115e4d3906d3e23e4c0a292f05, [P1 0x0 0x2; P0 0x0 0x4; P1 0x0 0x20; P0 0x0 0x400; P0 0x0 0x100000; P0 0x0 0x10000000000; P1 0x0 0x200000000000000000000; P0 0x0 0x40000000000000000000000000000000000000000; P1 0x0 0x2000000000000000000000000000000000000000000000000000000000000000000000000000000000; P1 0x8000000000000000000000000000000000000000000000001c4e593f05e4691053f 0x2f926dba7ac428989f34a999d6b4686427700959cdf909fd7856aada4e38aee88d33cfb92bb609eac8a0bb7bd5888db3; P0 0x8d7180bd0d06308030770b1c9249f85b285c1617032ae3cf6aa2956fca849243950c6dc02ae3340df619921f3151142 0xd07b6d23ad8ed5779fe6647a3b82cc9b58643aeaaa09a00629b2dbc76402f499461d54c7370a758fdca4862b489a5883; P0 0xa9c8ccdc08d848e8114aa3c0498c5ba6d037aa45ee445ca1b2c9bf630436107e2d6465e5b64b0e37586d30ffb2e24964 0x64ef24d639d5d6448a52db6f527909b1fd0c5dede0b1b3421b836a4e28c4cc33052033a965fdfa32ecadf65088da571d; P0 0x27cbb42d2a7c003482e16fac098678181cb7af5eaa809e472fb607790abed16d3e38abcb68b906239669f00c077f19ad 0xcb8478a761c821739fb01aad5efc8be7311a2cd528237beb2ab8ff20c746bc2ae8eb2a61bb01b582225a8e65f3b27b92; P0 0xa1cb5be61a8d948c364f4847d03fcc54f2861ceb3039d7d756f27850529d264ba6b2eb3ae28d5ac9fc68915cd06f3004 0x3f651f87ddae513573973cef4709ea4ba38be719d78374ba063444be349efd6642eb51723e4e1a1cc5f5cacaaf66978; P1 0x1f65daed8865cea05119593658108ba05159cb4c484e7f8d1baf21da75ef505622052d04bd63169ae61f9cad2d1cd9 0x2fda556241a9674b1414abf1d98195bee0b524b20d4a4fbf8d4ee65b28e869ba42e1206531c6e1e241c3b05858479a05; P1 0x11e3cb1f37dcdb84a4c0636cd58d9025e424677f59fef84f22734c0dd745980f1cb4d42bed2ec2e30f16765a48322a83 0x9db835318ac6920746bdc0aadf66a37697ec94ba39a2017fe299c4977aebbf70b2fed9f7d74194acbd6294dce4b8f459; P1 0xc256eb968cf93336f5e0114081c3b03031507bfbaaa5441dc2afc62d43c97c24c72a717005062ea3e9f576ac774ccbe7 0x748e17a6d8badd79925050b054a66074f7cd6e621e0c418818024194e9a0b3ad1d8b900e65e1c2a18818c7dd8168f61d; P1 0x6a22289ae7625f667a2c14a2745092339abec58848f4f268b601f21e13a56083dd333fa07fb941c6bf33ee6d8b20d04c 0x53946a8806d6dd58bcd0a4e30ab8d44e4d8db645af0c596520673bf339166db1b995f2a23b4e2cb4c8be6615a0c1c06e; P0 0x1b49931f8e0c29e8acd10d863e4b3ecd9c810b42a0a9cfb8015cc1cb9af3574af87ff1f472b4503bdcec84b40adc6d3d 0x13812e4d6e0268b024856e4f37d2c14ca8b067bff65f9fd6f7c94eab2e47615ac650c98268b4e45007b57ac5c0c57dd; P1 0x2f8dc1e617a49d7c291ebd80df6651fec1fb45dcffb4cacef8834532653aaac7c4712beba5a81e47459897d4bf66e 0x2f097369e7fadeaaaa4ec165b796a8ce4da4427ddc0f55a184a56784c63680f7ef49620c82b4f897ac5c5439a7829828; P1 0x1148f17469517f43a92f2a7e1e8eede833240ce19ff29c5e17a67b178f7294a87b4885afb55da489993014390e80b6ac 0xc8b4b95a1445616f7c03786d06d35cc22bcb48f350843d63da596f34cfa64aa35e866cc7c1ba285297bbeb1c62af713c; P1 0x13ab5c263d918759b7f84bd66021257cef4b06512ee822711af07868756477a2e812da06e5c9574f7a56faf810722fb29 0x46e65da2729612686f243a0c25612ed6829cdd94a0bd24737550ae7d4b3450dfc938302549ac10524ede90f722bea7b5; P1 0x27459502719ecc20e611644509f7ee4fa28e8f3f317bf3f8fa53d8dafbde5968da2a6f12d71181b73547fdab6355ebbe 0x7f9919c8c6a6d988b5df4fdc3f9d595df153435d8798831bce27bed44db8fd2778f5aa54f5d318d82ea86912b182f798; P0 0x3f99432509afd3893f34148a16624fcac0f2bc2be3fde962abcb1441f3d6d8472daac781f0a7c06335c501b9f7b3328c 0x525a354a3cfcef449d9ef50c38491ae8a4ec2c47666c4b69580f2ac23e0a4f7a2c13811c4cef2f7d84a44c652782895c; P0 0x1a7de9ed125cbde83d0cefbf2a9d2785da1f949ad3c82cf5a516ff7d0a73cb0242595cc645308019071e064d44807a50 0xd136d29220c29a6dd66f5276a9c00b7817ff210a371fd2d14a7ada8f83fecca5dfc9d7fa912932a8ba1848dd9a45d720; P1 0x155f51f2038af46d24bfb9e7b4d7a30190742cad9284d2a9136be754d302ffc3f699c667efb7c5a87d2cf17c5f92b8a83 0x2a14f70896565374bae45493e3a39bb934ffe10c2c6af9c5baf0fb711cbd5453020ae60f6b832bf4e40f154975805427; P1 0xdd5c58cb21ac6875493bc8dffdbec3a46c6588be961cb1347d0907c10ff01b70ca47243446be284fe5caca96c3f454f 0x5d289a79c3787ca8243e327d328513b74a3e90bafdb2e900ef51023bc1b97c581ff089a1944ea54a82470ee8c5027265; P1 0x43cd0d5a3692b2a0e402da922dd5c3a2358209566318eb995514c2333ab10834439050d6c76868df04be3b706833c597 0x8b05cf34778922cd6be9ed74f948573a1cac04fc2621c70b730950f0d87534eac9765c60043fa4fd78b7994a624a45dd; P1 0x96fe9e497322f66dfa0abd93627c3dafa40c50e3294f813bd6c755a183424d7024e3af8d5cae572a917f9130fe7f0e7b 0x175c201af296de475dcde8258fa8b2223305329276096074a3385b2709487e08abaad718f96d69ae8dd0d698809d8d51; P1 0x4435dd7ddf86fb8f47dfda0994e5f2dc2c5968dd493cbf9aa43b5239acfe0545b4258cb180f99e2f9336ff1d7d42af7 0x5033f4f7f2c2f327f2f4e95eda8d0a886cdb608f21e51b6022d7dfc3a9304f911fd3344193e9789111513df27374cb4d; P0 0x192083a67cee288fd3ae65d6ecb2824ff7d5e58771e8e43bba4be99d3d92c5d9a07dd1231a9bd74e1358b4058072ebe3 0xae4b51c7c0afb5abab31810a0ed2cb6d46635950644266e4231a0f8d6056a5f874e303018852c67d145730128824e330; P1 0xed54f2a91e338b6c44f16d804a2972ffae77e77fd6a168a22b02b2d00531674123e49f21f1b893e4aec241d16d374d2e 0xfacf578b6e4138293f479879c90b5cd9d8bbde846522e9d6b7e4927071729f70acbec75f06b3b9805fba73a66a24856; P1 0x1eb733dd609878015418e9c89ad4ad0b0d9e93fce2eb7c73327568768fde0a4c87b9a01b04778c6c6aecf2c57993871 0xa444cb852b4b961a0d80d1764d2d21da11c49679ca8f16a54791b4ce30467e818d9d5ccb98e9c108c0a25258f3bd8605; P1 0xd2d06e7ec008a0d2061bf812732ba1faa99078c40e7eedde9235d25f02a805853cd245917ec26a17b3c2419826bcc2a7 0x903b9fc8aafad21b47e729c6838c5f91cdf094bdec3904b59267f1cdb0a42374885af40829078c8090416846ce9b482d; P0 0x514321a4ca93ddaab48f764959cca3a6bcddec8fbcb2ee3d657a6ca2fd8ab562627078d167d7c96550c8abda09428cf0 0xb467165b12889bdadb6ac3a73f3f517383ca8f40d1b0b9c4b026a2c86f7f09654205df82f6f3c5d926c13ca160af9819; P0 0x7f2120f3114cccaed7ea9d2bb754ad04f2b65aa8dfa648abd5f3506fe2c8f326e557ed1fcda5698b8327ceda9a10ba17 0x7c69a21a0dfe3d4c6555a5550257cc4663d3cfaf60c9c4cb53a65bd699512e983d2b2b36ed20beb5f8111366a1876b1c; P1 0x78ed013f3b258499d1a615d0d26edbf66b01328547c1f3951dfd8a00741242b6c09d7c20ac822f188a1b62fadd5b2349 0x80f1f0082d89a58cecb21dc7cc1e8cd0979801269f87bf235e49a16c92434c43d38f54c5b4274c8880d2e4b75cec4b55; P0 0x40f2d4adfdfeb85b972407f6c860455937ed8f4fc30c4134aaffc36e1a2a9a57e71dbbaf2db1d95386b20b1d49d0254c 0xd7e6d2172c255d48ed33faccfbd5af0c73bd1d14e18b4a96b4f7dc03b2910548fb4e977bb8d81a63392f946e50ecfd15; P1 0x16c2b0a02346838b4c1ad9ce811829cb096de17db38fb60bde5ea709e9b817c942a587ece2b7edc4d6bd4a0a652a2d5a2 0x175e3145ec1484136fc7cb6e269e0d12ba3a820e9d78ccbd3f23470ed8df5fbf1e2915e7f323ab40d37210a6c0ce1dac; P0 0x2220f82c940e64573b075b4aaae799efc159709a3fa411f2cb67c1173671204cf9aec0c22d01a4557dd9da52aff1b25 0xb085c4939d7e75832455dc0fe47f7d02b6a60f7cd14c8a265a37f5545108cc1e9fbb9ec9164df56596db4e2d38d54cf1; P1 0xf3706861a1c3ca84a093dd4ce7bffea81fc64a91beace218f9c2ba2c4dc698b51ea0cf918f440612e783b037c79d7dee 0x99155c2b6db243f19b4de188dc5a7f4d1dc3c17684281165b6e778f247ac7ee3d29186145d3ad52a785e411aab4345d8; P0 0x5b8a89f4296e52ac1b0057250a611b0adb003cbe3bb1e50414bd9a88aa1ae0ec50656581064752b6aac2f08f8b867ace 0x3826e895db4347217bbe4d3f40a9096f0ed6c8f86e17f477a067005ad616045931bfbc40b8f474f8bb0143635283fdb6; P0 0xc510bab6fba7c3aad1da8ef2b9babee62cb2059d7de327100f66707210d909f36827966697769bbaa7a487a98eb4856 0x70f16989ecb3f95986c419c42cd10f0ba09fd1756ec4b5392574f7b647597275e196e2f764ad804efd669b7aa93ff8c2; P0 0x31d42000904f9384a683f866fc251cba26ed73434dd8f2ade27d634a75a9f324c7ec4f8cad3f93ea38c3b26af4736ca8 0x2f864316129762317e1ba1d8425519c736484e3d731941a442f69223a2427d86c6d82749ae219fbaffd3c729bbabbb8c; P0 0x8d2930c67839c2b68e29632ec0049ec17a90af70a2976ebb42262ae0cefc13d8d1d7421c60e9bf2052a114a4203a670 0x415d1cc293e7eaf1417361ec0310070d091b8d9ffb3e59699e5e456d95d532896ee4664f2a9881a9cb83d94c0cf22040; P1 0x2160d4f16f6cc01ce5be56e4af01ee99c4bb68cf6955432d406ddecfdfefdb8ebcd4d9de5fd57a1f8f8c7981d90b5c0b 0x36ef93d524f4005c0691441df1e2ac533f9dc3dcc4171f6497885a80bb601efe7828ddedcc02c65a6ae7d8520fd1040f; P1 0x1793e52691e0d34c74c2baa44a61096d6a2549029696d302aa03fbae92c936214b83f1bd37536f6dbd70c47318d99396 0x1e1902c8783b972ec5b645b6d76ce33e7197b9c7800138103018c63a3858f59950ffa4417235050f445133a5a84e9f60; P1 0x713be310eba63df02d46b6e4093357b165fe95553e129dc5bbb084a61f14a4ac086b5138595489bbd08fedf26d2b2e2 0x61688f61f68d68d9823c88ab6579c908f6b65a2003d91a235c63b0e80d831890ea1beac7cfee058eeceed06d143a3a7a; P1 0x4a20ceba197c26918a587167e31e15088dc2ab1083ffb4a869f97ffcf46d475c409ca1414160c5da4e651e832eb77e86 0xed054b54a41bf2106e5a5a385500fd017699fa2febaa243e3d5fd7a567df73c332a81b89007af4432dc0079eb477b816; P0 0xdb72cd96bf54db6e5c57e737317d799cf6c75f40430b7704734e36f4f72aa06aa1d74c25be6b0989218ae3f132e760e8 0xf8f57f6ceb5a7d69095b4d7172e36b28e6c63acdaf41d400c4e9c6aeb2d4c275ada5af060d60b887dcd9a62c39d5f1ac; P0 0xf21c92502de70e0ac25418f1c816613d832ef4bf5ca9d90d06efa9820e092193e4acec408faad2958eddd5f5e63e9a86 0xd738fd865a6376bba33043e71162c49c4f3b476559f4429d40a336dc3fb71adf2808c8b0c706486fc7479687e606b5e; P1 0x169e18d0f235ae43cedd7749217f1f586931d3fcf97201e5c495723db8ef24f88cd1378cc7c66d085c68fc5b4b684d0 0x6f89c558a968244394451d3d187c8abaa46b36b965c45390086164e8aaea5fb01e1fb0101325d8c4f4283c9719bc7398; P0 0x3098c347b3ef34589a6c3c3b4af32397a7ba6343cc247da7741cfcbd000b0185e7ce9938ce2370e8a26be2d6305d58e0 0x2aaa1f70b10dac6c8c1f17b9ec2edc0b53623f1cfc3aac1fda7442bfef7b2f1272e4632c79680ecb86987b3f19e71da0; P1 0xe3886bd7f403e72a8a2be4f7098393391f9d89ce77a2a644a407ba9d2d67f9526bb10cdccba8eb0ac6aebd8f746c8a1 0x2d0b8e6b5e06ae2dd914d363beca9e097554ccfe16dac1d349a55ac3bc7b0d03cdc84d9b5bbce32698b634b59885ead; P0 0x7ed10974b83b7263b9b595819a4d188ae4e7578c66f30fd50ac17825e46dda86cbb88d1e878bea559bdfc2b70a4f9 0x6959c7440f20c69c7717ebb0e53e9acb8ee58f889b95d215a1785d21541946ea52ab95a0573518ee5d99d55b1730840e; P1 0x56b589e3f9ac92a6e3241b7012afecaf7dce4e043a03092930f01f4e32c0c29e6507c83661f27df84330e17c95146d3e 0x4ccef1cbf247fcd1f2aa9c5c1067bdc92ee2253cdfbd392bb1c03b3839d86a84e69efc25cac35f2019205577e45ae0ae; P1 0x2e170db640ec953a6ee48b030f9cf97213fc9b65f343c53a8191a88ee8c28db183a8d00e2f2b2ddd5581f17d99054551 0x1e5d46170eb750e7602116aa43f7e418b5c0a918a9a7d07d9f210db24b38201f29a44ddd8b7582eb9a81b2b6e644d025; P1 0x733fcd2cec88c8dd156773ba1b64ca341584bab39934014afca4827661f239bca0d7fe33096fef5c2615caa131c9af1 0xb69fe93f7db9ec83809dc735917298088b4a5a112da14a3446e06b90430eb6069b6eacef2386c88bf095337fffa9176f; P1 0x1048f8713b04e57b4ac05f82c7b9bb9d269541b6fe1cc6c8ffd800bf072720f8e477cae6ffc696f0d40517f92a7d71584 0x9e6ad3d7142fc401485433001beb5b3a36100583887637718bb0db3a0c68596db8c75964844f9b94ddc966ee92c175f6; P0 0x62080a119a53ed798d44ab9a69e5295d963cccc6eaa8f9182c4b425849309a5e505bf3551a661a902754ceca403a0d4c 0x69bbe82f05dc3b43f0cbcd72f4f2723983cfb574c000678139f932a4544c162071da57a4fbcfdb1033b5b446b995a340; P1 0x57575cc7342cf73d46686ee1a7f97ed1ce75d0129680cfd40bc3b209ad6be32325a169ef473de213676ba66ff597b47a 0xdb88f67500100de2b78ca795e91f57f3135f442d043a6bbebbfb28afe26a41a852e2a49feb233ddb3c18902028458332; P0 0xbc439ef2f7b09a68904a172c61e05dd87ccbc87016ca64b55438fa5fee257bc9dd164e548d514ec8a5d6960dac8839da 0x332921906a5faad542d20a631765e196f39093edff450724a878b8a63106872a78f042255bc698b50e38ae670cf84ed6; P1 0x1472d3f69e157b34659b3f91f34d91d7f7b3dbe8a158794e2f0a41894a7d4218eb3ab196ac6a4f4d3dda4dc13644614e 0x5e2ced8e2d04915f23c272923cf238a28d196456910b259bdc2dfa104feceb23e94ab92a942c6e30745a18f0707b01be; P0 0x22a50656ee5f62a4451d1feccaf91827c42b7413fc6c53039b52a6fce0ff2a9b0372063b9dcd54ef03a313e1d315f2be 0x9dac945533ffe3e390421a641650dc024be0a7312ff8903efb4a3164ed47402f1c7bb541d80389441599a9a161a48faa; P1 0xc23a44905470bbb5956eab61d3ef023333af5993167e3977ed174a2606efd7211fc54b94db1926aafcdb66c541737151 0xd2618d3537dee4cc9ce03fd1f94028cf3011ef1fe5252c9bf7985797bfb97863f89df4f87cbb52e12fb89a31c987d965; P0 0xace430d79fe1b0e4caf4748e5ff96a6979e0a44c2f075b9518295da454fdc67cbd788bd6a9710242947b29c721f78c07 0xa776117677ebeb915c04cf3f5b02f52056804e49f3e56e84b7b24592a25312740c41ff298148b6a2c3719e425e1e5bb4; P1 0xdb16827955ba9b29d60582f15095ac081bcb99e97ad39e642edeee8eee56b9705fbe65fb894311b6ec51f3e42e706f69 0xc973c275a784dacfc144cb733a2c5349af191d4ff670ebe670b1780643514c95d2b0b4678054ea8d1e02bccb57ec0ff5; P0 0x9e86fbb50a79a8eebcd7288a178a0840524c726010cbed43cea12150bec4c229c40de3d6d590aa658dea4611767e16c9 0xcbe322285d07702438e2142ca3dfd456417f262fcb3073002f7919f3fec3542c192811429e2b95aa28c973d7d1bf332e; P0 0xa26201b19bad861d805e7f0e0b80d9196e93155924093cf7989a7a881c2be345d72eb2d3de66c39b2fa38d71e07d37fd 0xac02109f858c8424fb3eaaabd369069cd71c3b1eb4408277b76f17d7bd03f2faab4e765bba5cbc1c4a06d7caecf6b09d; P0 0x7392c65a9f073bdc7cec3618b5a9fcb60e9a9db2f023ff31839b7c48aa0c725212573915882b6f69ab4a8ad19c9ce53c 0x9488592b163dd23d3a5624d835bfd6854d8546e08cc24632151762b631c08382184097f571d9e55cab2df09ead36aa55; P1 0xac5bdf715d1c32fb46c6f0a60c957f38cfe276dfc912f23847888928922b8edeb4355e0d1b2d88e949b08a2805460159 0x79347a3239c00c9fc87a07ca835b82724e08779b7463b1e36e6b86d6745ffba4dae17791368e2f2983448cffd43b2477; P1 0x72c54c8ab2a5d5b3a9023842a238b7ab0fb5ea348a31c007510c30a7f93c5537c0e5b900e5c1bc8e977f3482e670a4e5 0x9990a61806ae6549f6b4f802f2bf62814d79b9ada3824da19ba5593d0b24b085a2f127db7ff7a989fdf854a4e8db9ec3; P1 0xb83c7087fd8e485f90aad2d19a76f42b977fb05f3f47a7b313750828502ae5c7600cd541f49005e6c5a6d0ea10175ba7 0x9e2a3172466dd30ccd1d0da351064a51a41a1298223d823e3b915620371d91a36a4869a370e590df7c7ac523547fa60d; P1 0xc37037faa3f73d0bcabc8da48b875a74d8abe61b28c3ddeb2c2e0cfb2723fd75f164ee582690696b4bef23be015f85e1 0x5bec67c26b0d08da0ed42dbd28bc7f75a571b1692ff46f82bdcc2b6c300f400e3e63dbffb14637d100fcca6b2cb68c3f; P0 0x2101ec13b09eaa1e423af83634f5e2155b230a730c4822c2318d526a12251ddd6d79b6e003ef70f864c1e368cf1af287 0xea4be5acf745d8c503e044aaebe8038c68d2ba5488d6c026b2e0871f5c148e5dbd2ce2d481d7062b594285e4ce9365dc; P0 0xd66ed66095737a755909dff7e2dc59b91c7aa577484f7535056b4639aafe439691e20fab180251f7ec5ebcc2ac341307 0xeab011222d103eb7a65a95059e2dca10a67b7fb6079a6d9f4caf2f087959e1dfdb23f985093c9a0622d40882485ba9eb; P1 0x1ae4cb0d4150a6f14426c31dfb71b49cc38afa115af7c62c5fd2e34bc60c7a9f65ca6c0d0f2d806a4c22cab90ba700cd0 0x139f3bf02887e558956704e3c5d78758c793fea8c30d99c07df8db1d07287d868a51f99967690f04dae445b58d412a02; P0 0x18105f1285f18d4b3267b76df4d46354d3a8965fd7635a44feba5f6282301d92f6f56f5a3eba3ee64588d0d84c2361e 0xcc9b64347df4b87f754f1d6415d99990d0f28e400e0d4467a96cffc9712bc21405cebbc2c7406516595f895b44e98a8a; P0 0xa38806062787998d26d5922f419dbd94bb5fb74bff81ec2b7e8b588f880b622e1409d67746305f55bb733145e669a09d 0x588017275ab8fad4ccdbc08c8a2aaf700fd2bde22def233802dc4542c22f0f53311e9e85a80d78870217732da92fc6dd; P0 0x1e98500237d1fdc723392fce3acabf3afe9d4b204122bc84b8a287b898573d9155e1e2f5b7dd4e8f526122ab0818f1c0 0x537d1420e31ba24c6cdffa4dec8ac80dbd2c3f465542457839d3ca4b5a40bdf947a54b26d6ac1c01d7cba8b4bef44189; P1 0x3674b053f9edb7dfddf42fecb55d76e4c419302c15f2242e72237c21454c5384610ccd13a517f286155ee0b5240025d7 0x3e004230f2923b04cab81206cbb600464c496efd8f192daf4d2807637c7f83deec962bd7c609d4cc60c4758b0f4a480d; P1 0x1e08401f8d38360b2a9d1c554ea9ba9301a624f6d1a7a9b1ca0b8948365bdfd23fb8a3322c6c20808275c40c01e9deae 0x6139f97cc13da7f3be28a59bdea73570895475b1f1c879676487d88ec810922663d65a659e4d0597f2a1ce102ef7bb28; P1 0x49d9f8632e4566e26decbb78497eacab293863d446e1d40d4020fba043127a67d7590e679c2cf5fa3b641398f20a91d8 0x5d25bc4d6d6f7ed25c6ba42eddacb54343658494ab64b81083043a2f609aaa19d22188a038a451d5c3ca01b758b3d078; P0 0x21e470603a6674864614513f9074b86449876b9e7e9ad8e7e9432c2584a9c6c83de243bc648976a8a779398140b56aeb 0x97bdfeeb8528bca549a1c46f5fb2ade0c854d5221823c99d74625845332b40225b29e3d0000054b787ebfba6071d8daf; P1 0xb3e35f787961c3383aa27d51baa009b5c38e5b95e205b818b71ac32bdbbb30ec72e94ca3414eee6e4f23ca727bc6eefb 0x7dcbe7d0c1c7e5b23caf4ec77e9312882fe0369ba743d2cab73e936145f6c758061fd255dac0ef2010f58f859255ed81; P0 0x3dd0c2cb543af1488ffb608a67bd71f2d94a6c10a7033c86a797c8f68c75530e175d8533424d8c29fcb6850d1ffe5110 0x3e0068603056e8afbf223be7306beea332e00e1c8eecb839d0a5e5ab0733ed22ea92354895a69668ef51bed67c7820d1; P0 0xf04328ec1f8642007f298e2370d50deed0e2462573d01ce797fd9fc64274a6346bc5d18e76f7f85f906392771ec671f 0x6ad39577a4d62d11deff2b43d940aae2f5774ec6e5c94f58d161af15fcdf24b1dd676506f3ab8ef07ab4ecb02793a0b4; P0 0x2c93e6a6ceff942d11d8b99622dfedc73f95ba7aa2acd4f8ad2ba907e5360db52c19c7059a0df11a7c4db0972cc491bc 0xd9fd7ed808231819f9e6bd3cbab5c79322a005271fef0cc0e02026db83e4335a4ee38bbc0e770e052566d2463e48eb1c; P1 0x1733f781c6749e513e86b26121e6bf0a6fb018d17003aefb2f1d4dbea2961980013ebc4b67b7c9b6b6830157028f81740 0x391acda7d4c390c4759c890e1ed7defe854e34242192fb51914238e631d5ce4e5188e4873777e7236527220a47ed2460; P0 0xcbcf263280c86f9621d9aad8649dd85325b342f6e8f9898d371c9f03e839dc0e38032104f75784f121a68024b9b3e37 0xa1776c33437d498f1b94707cf8235aa488d144f2351c2d128d9bd3a1e51224270f0eb5dd7c8da616c50da06516e4624b; P1 0xcbaedb9c808f406c1f067333a759f73755038e58f291b540af8a44b51405f60e16b9d739ac20e67e05a67a0c5d5a9383 0xff0f9ed40207b46eeeafbe6b55330f424b0283fe6a6f7639af55a0e42dc777969fa99e0ee7bc34c2b39105a4e58bc519; P1 0x1fc403ebcb6dbf0e20803f6b6fecf1f426e505edc03c52b4c9be5a8b2c00a6e8ecf85efd95e3461910cc110e21d945c0e 0x616628659b447f77ab8522abbeab0ad14472bd977f7eca9b13f4726a99fb5f3fc818490f07ba005e084754aaaa16098; P1 0x4a1d26c26e03180f1acb222733f5c0dd006337fcb99c9e02cc5bf36566bcf56e17182f5e85f600679fc895fc658c9b 0x3a5e254aad52d583a0c623dc3e0e1b3d33c777143b2e2601a6f87f8686e42bc2cb7214130e1033d97804619daadab7df; P0 0xd4ecb853ecf7d770c7865b5bc797495fcd4237e27a521c1fadab02514d28483cf4b08e6f688a4ad35ef34674a241c06 0xfdfd08bab00d7dd6c53834d2f4a9a4163a1c764db30688a4c4097d6b209e4280c538a19dbbe24a93ccf9a2b76889078f; P0 0xfbfe1d5b4146d88a60ddbfa8ce61989706e2ee2165f31e8d8e0b0a64810ad09aef3fc922e225bb28362466f68e237374 0x9bb1282e87ff9883cdb2c1613f125106ea19958ac25d5170a12531cc84098c3777aeb02079c6e611c9be9197798b0c5; P0 0x5eb00140ef562515891c790d27e8624d0f101d0131222f4e8e229f39daeac936af85bea01028ec7009f1928cf32b58 0x697601e46e5a0fabb850b9fcdddd6314fb189941e9f86d0f8442b1f8e8ad5e50c28bc87dd283f244e0baaa60cc19e711; P1 0x56e407e6423e61258739d2e8d8e7e5cd8a7d9e563b6bb6d0b2d1662a672e1d4f4661dd5f67dc95ca5b0cc4c24a8e270d 0xe17d5e7522747419f38aff867c4d6e1f34aca01cc83489ad76114495e0f0dc0e7b642422aaa3c55857a5bf2768a5be6b; P1 0x18d3b3ade8f9d296a0f94fa95e2cdf92b38094448693de08e5d057d587660560cf229a96578568df6bf510b2d5a3cba50 0xe5464d487ee8ad6b0d234ff2fac71e52fb5ff0cb0e3ee46b627f58d875756b706e59e5d684c9a482a799761984737f82; P1 0x19aadb3241c0cbcbfec54594e6fdde7cf61b8f1ea3b08419bc3ceed335926e8907ebace09efa0c569ae4f25e5c22f2d3b 0x7f342bb3de46c3d6f41184c35f905d53aff394329e8383f4b68d9d480af6588ba8c099e5bf4bb848ef88c7e520c5b787; P1 0x7e699bfc7e24dc366676d94ef3ecc5706146dae70f6292a7d97be79ba98f79db421d30cbcbfcb12a6351d9bbabed9a79 0x44d5828d22e911b52e931720e67943248a438b54f73b83a2eaa261900e8bf10374b4b14aae3a0864094c3655de19cd07; P1 0x25043edaf7f71d07cf73cdac0c38802ae55a173e75f2d55f15f351bd9aec8a94ccfd9aeb762196fc3fa7a2c314c07fb5 0x75cfe9d0924035d5b84d6c22e1c6175c8c63430ed6af382863c31b5c8a5f5e1fe912ce1e5aae83f293e271e1fdee1113; P1 0x6c6f6929351112668ff548afd7ac1c4fef599bb0550bebb37f3bff832460c76aa8c43310260977e509448258cfc48565 0x46fdff2971d9f5cc74862b407f8552ae2b84643af4b8e9b703c0ae57bed5967ae86417aff3b074c871e10c8dab90f573; P1 0x275fc71a0103a5830fefc214ffb48ed03a1c08c44e8a7a3d7f18db869cd5e7e74d689981fd85762a1467f8efe9976140 0xfba5764a13b622f183d0fe4918f6da9b27b4e0e9a1851bc7f4cb4be9e43b359714507b4cdd5bdfed4b201da95996b392; P0 0xf75de0e6f4ccf0e9f2d721f58e2a21ed6ca92d133613168e9f4ce9a8da334555db1db370081f45ebc24a52cd244f3b05 0xc1c311fe41c771ea98a50b660b15b27a82d7161575cd1e190d03219146d0c45f3a4774115e4d3906d3e23e4c0a292f05])]
].
