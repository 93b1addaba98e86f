(** * Pow384: a power of a small number modulo the field of P-384.  Written by /verif/tools/gen_primes.py. *)
From Coq Require Import ZArith List.
From Verif Require Import PowCert.
Import ListNotations.
Open Scope Z_scope.

(** The power is 0x1. *)
Definition pow_z384 : list pstep := [P1 0x0 0xc; P1 0x0 0x6c0; P1 0x0 0x222c000; P1 0x0 0x36bc9ac0000000; P1 0x0 0x8c7152d7da8ac000000000000000; P1 0x0 0x39c91b94bf4c42df65f753a6ac0000000000000000000000000000000; P1 0x9c861336bcdcdbc3e9 0x5307614a6a4a52f30ab02c6020e08a2ac00000000000009c8613375962eefaa5dcdbc34c79ecc9dfa93772d3dcdbc3e9; P1 0x143256f989f99d060f22f17754b7ede8e49cd807d2b4779de8667dd1db8bd0d1de9364cd35cd95d851d56d83bfa612623 0x9a32180aef089c48c197742263a367716207319ad3bd3c14f09d2af59ed1459c4be4e8b4927e12016be0bbafe9429eef; P1 0x45a83b0bea9656824ee093ba304282ef92c8edef11043efbdc0f892631c9dc4004aff5608bb1047aea3a0850659346689 0xc01bb96a9223449a8f124820b5a2e6e14ac4a00cf39f74ca597896edc3222e1a2ccd04a6965656483335a75608130c15; P1 0x6c1f32d85e7c327178be88f37aef1729447ff05b6cc579f64593712277cbc946e1f1e13814dd429a9bf9e8a32a5c31a94 0xee98c649c2c21ff147935d1da8c330be92a24e9b5d504ba0dbc89d464424c9a8c90213884423f6fadbfbfafff202cf40; P1 0xa6c850e5e97ace539febee8df5f05b3504d2467ce292103aa25012c1c14a4b5477ceb9ad8dff474bba2297f16d76a526d 0xc8b60db2d2d328b5c0271cd04cd66e20fc84979b7d22ec1efcfa4357a002be693ee890b3f60399adcac57d0490d1126d; P1 0x7605b9272b4f03a1e10c62e4f4a94f74209bc922877e2c689a199b92dc32436ee953e9bf36646ed6726904b3eef73fd85 0xa490bb844b2e863add4fab92a5ff0ae6c5caaedce1e3c95a4da934bb81db61d7871707f61cf85648e997084e87161a71; P1 0x4f57518fbee20be482f3d370e7447142cf3cb3ba45ba0eb9c260c6239cd7c859f4cd9bf5d9abc5986abf4a6759ec2adc1 0x54e3998eb926b1bd48213ac0ea2e11cdc84fbdbd36c61d0b5895c9710a610bf51c274ede4e1866ab71b3e8917098744d; P1 0x151c9d57828b3e1c33ba93d2040e8758755db8d454383c6f44ff37585bab85ab474ff0e3697af31d0cb337f8eaa416e8c 0x2e0e0a6cd7891595933a98ea56a3a82a18257534d93cb3f228647a9aaca8debe7133fc3adebc33965156ce5eed87e478; P1 0x636c963315724660b10f40c51862174c39d4674b582419a732df1cb0c71813cb9117d914e9e40607c22d8f237dc56933 0x8256b4edcbbd86b46a2fc3bfa73415f49de63ad862fa08d8b6875facc03d8393d979cdd2f38706ad8a7dc55bdb4d0c33; P1 0x31c521d7adec7aa8592b53aa2ffad3ec61c02989b779bdabb7e2b573bf0c008933b0d70b629d0805f594e4349ce5c1a19 0xf264c52c6af2df191670874ed316a76a7670ce6f5e4d6cedeb85bacb52a28ee0e1e2c78481e98ab301931d03fd7df405; P1 0xac220155f59317e2582a350b3a076ce9060c427c5303938a80c629df44143999807a01d56a213703e7c1da6e1e8af5165 0x849d5682837a9c975373e60bceb5d47f2da0914f5270a81f7f7ad17e485beeda7c69c67bc00d85dd6f4aea5e0279b291; P1 0x3385f96f5cadbe9039b37a9a99832c138a320b2cea566186a0a272c31d6e4996dede37753d741a9aa6c8d27f50eb37e6d 0xd90738a763ac6b5ade9c59a1d4c12cf2f1db94897fcde9996041bcb5a25f5bbf1cca1f39040bb0fca1d5bf0eb23307f9; P1 0x89fdeeaff1808fdd69d1e6359c07839001182ba631a3d9deb367675c83b8b88ef8d109f0990af5b8d4cd48fba295ceece 0xb2edf419af9151529ddc46e4eecd0c133927534e081073074d859acccd36e4e4d0ea2d5b840782d229f0ced97adfb11a; P1 0x5dcbd3793258990e2d3a7c616708b08b9b766f513b5461627e29dc188cf1787ae7fa5a46cba17948687bffc45a6d439d5 0x655ae2d16a31f6bddbf2bee0ad82abc1558853346398301db91ee2d0b1d016f07de6ce6c60fc600020a46e824c9fc985; P1 0x1e18a16e218061f990c0484c212e18d9217dc1d36c13e038496e3d618765c366c1f567820245fc5af426a87c88f8e8480 0x910e00c4a3172d029b39329843fab1e0d5dbd534a93e967c8e629e2118bb8631a87d6ec1136e8536cc86c0db85aff9ac; P1 0x3da4a63a20b202ec02a2693b9bf8a8899a97aacce78f515cae58044b6fb8b1e6139fe74346a664368caa6495dd4233e41 0x68a35c202ae9cb7e12ba1c020196cfb319d80162dc39769fe3b2ed23b302813747d0c878ab75c3bc901cfb2d0c03c901; P1 0x2013da526fbcce75c63f92c3df6c0227086aac7749c8ae2a3cbc01f16494fd71e8fe121a11227c6278c6eb8b14674157a 0xf1ae3dcff8881838ba51545c8265f8797805070c31e0ae202e8d61f2176ae66bfdefd7e84bc50c6b31366a3c549aed86; P1 0xab1f253b3dae2500579f6e676f6a7e2c15443da31a73bd802f2a880f08633bf8a77ac7fffefb96a1b169284c68fe8accf 0x10a72e2dc44b134ea1aeb07e0596b9104c4841910342e629c1c2136beca9b5d8e78ec7ccd06884575c6dfd566319467f; P1 0xcffe36406ef950f27ba77ac5cc59242497be98663242afe54967058f8c09c0ed272e587fb8ccf67983a66cade6e67a4 0xb2f53ae6088dc382390b1eacbf2729ef7c46334884dc9724ac6d12033650eee07deb5aceea0a0b14c3c75b53b90acbb0; P1 0x5dd3749d424eea59afa418612c81af35072afd293f5eb30f842ae089763e6af7fd01ce22423f7871e721280df7b0f00aa 0xddb92077214c8bc099df5b7234a3779f980f99ecdb859cd391c314b116278e61d652b989a4e98886bd4133e088d62caa; P1 0x9006ddf237d7b743b9dab35d6195a93ec7f85d7037779f6fee70977b20f3465ffa8bb09d26b42fbfb2ef51f7a108732f2 0x5080eaca2434145fa3d280a4dfc42d948dc4d8f012988da61929f74f89121e142e55e92b70c1fe227f47ce3000a9bda2; P1 0x12fc9ebf7a142ff561efcd3cabfdbbb7895f0599a67b0d63304b5b76940cafd2578d278ac53a38bf313a53fc79fac3754 0x7194221db3bf5116f1d7643fa43f27196b8b0c6dad0bb1b29f57e8e9c70cd4963ff8b8e93c153d039c6c4802b4037584; P1 0x25cb14e043adf97dc9d78305379a2b353d74266075477e3fbd7e23a54192b6dcb11545451f905fc7d401aeca13b546451 0x73cbdee56e6a9e19afc509b27a9c2fc4a53d209199a878f314ca197a930986d7b6720c5394f2761b6621f0b34fcb7511; P1 0x274899760a5ab83117ec3d357c61b5b8d42e5416005d2aece9fb83512ade379f5429a08ac3369792b289708c879e0c11b 0x93e7d62e35b6eebcb93ed7d9fdfd68aa6fcfd76a4d0e7da6efae1599108ad884682596e881fa6d96e07bc5dcfcf46a7; P1 0x40170d71f934bc57941c4ace002eb81aa627851e57fa43077b2c9a28105c2acab1959bac269b4453b34d6f7a02f4d12 0xbccd011c31830ba1a28ba0546101d471de0a10fc2d7fb6d6b23ebf09fd7ee9f59dc37bc904aa168325573aee7b04585e; P1 0x686e4e5923e8c056f0f47a731ab1285ab8fc3fd6c9f69b3c911ed836616f86af9ec14b59a3a7b6ad5ee508ca1fe322245 0xb188b26baa4d1ecad2c6a5e574bc54558a86541dbd1aa361c6aa07b7016c2f65543656653087956df59f579b7f7b4075; P1 0x5c56bbc9342e1d782ca83670af38c217561a1f33f80c9567cc7677f9fd2d78100aaa851953367c1c425d6c46beb2d4d9f 0xa094d482299544ed8f8648b344192b52e92d310a8d3109ce566b605d9ac43dc6372f77619bf5ebd91936a279fb15cf4b; P1 0x4b8bc81ed429e15a99f3d12e4a31924ec5266bab5ac50e5c66a62393e4e527678cf1dc264dad975088f4c4b0edfa21730 0x34661859da52d91342d8a59acef5ff2e83daa2a24c5af3bb0666228bf469a68eb07995bd2c442ad5ea320acfb18696dc; P1 0x80b39f4eff574026740c6456889de5038a84919c613ea6ee71974080cf2dc0d373f075ea608a2fee4b1616835e5e1fab 0x63b25a7b058c7fa05b1067f46def653e1e6f76ff419039996136d2b87876f863aaa16906330e235d628e7ca654ecbc6b; P1 0x1d1e92add302d5d57838a11311c6e625b6a0ab1fac27affd545c6cf2a6ac619266f71444f604f1d789a92226153ed8d89 0xeda0b3d4f00a88a5261d9ef4fe72d26c64b83951815c40739f4adee5e315eab440fbb5ea4f5316bdabb744e2336d8635; P1 0xa56e356329b6453b5377a21d1d05359a5a8cb6cf9b7f25a2cc412b6a5e9a474c3d551d09e8e6b3283fd3c825814db2f87 0x1154c270de7968fa09d1badcd97fa5e73f60d0d32063a69e12f9563d97b9d68c637be74c76a7801861c091b936bd8333; P1 0xe1466a607a09ed260d6f535dbdcb6d78daf05365bf0aa730d9aeec004a5f93a6293ca2ce775b5944b785cb5520fc556 0xc82acd8135801bdfbae2c6bfaffc27dca7df208a908c48bc861e78b1af9c5e78200708cd664d48127a37579d58969742; P1 0x75622e3179386fdda543c60b9828960f1a00048c197f5a9f094e2c8b8af7e8f672fe0f9eb4fc86922bddd75916df3e2ee 0x5dd9f94b1ecb1901913452758ad5f25f0d81f3a74ca67cad3225d161fb235cbb0e3eec861d6c081b64cbcf72e86ff1e; P1 0x19ce128ade5dbd52422195bdd220bb52dfb9dcabb7f6cdb4600f177342017e9b1560395600e4617f56d630f79d81f02 0xbd1686844dce02a0246ad5ae7a9b7da724017e4e7e5c856454203d386be4ec817e7ac2719a14dcaf2d43152fad917932; P1 0x68bfb374103abfd5ae1af461bc6b96d4414de4819d1cc4435a516698ae79620c503c2ddcb78b29992bc1db5f8225406e6 0x4d469b0d9de429d760cb34d794147c4ed1057a0a1bab7ba597327be3742c257f9f7a11b6256ab93b7f9969034287ac16; P1 0x117ea98f83c151e69d6cea01e91a8f2173720eb77306e0abb96a11ea4b8bd3ecb7ddeb96d9d53e10880501520061f69f9 0x722d763cda840b622e8798b60599944ae159aca43389b1e5a66909d258743cbacfb18850b27eeff1d15c78f288b240a9; P1 0x26316408bbf6ef5a3fa69811adbdfb17df46e8b5c26fec67d07b19dc434d8fdfdd8893af67e1138450f123f4592115a1d 0xfbe08f7be893403950f36e4c2ec24bd4bdc9de5bbe0e90501fab883d531949eb226c22edf7176da960fa92b1a3c94e9; P1 0xb9dd96c24a7e9092f4b07daea59c9e369df4fb0bd4524deb8503302c0bc784f22ade370719bcf67ca3172a48ba2f181 0x2793bcf5d2a5a0cd07b51e05f9c97987b3f784e2f4399614b849a78f586b7277607fd6ddfc3f58b6f1febb6d29adc24d; P1 0x496c2a016fa43fbf4c154e997c2e0f8641da42091cdc46f24224ab1c42210abdbd97f207dfd6f851c54bcefa80c1a2bc 0xf9a6d710d9df132ea51525b7d84878ea375884a6e10c0b834a8192630d754aa798a21b2964d7f40a35770130b34328a8; P1 0xb6987c53ccc4dbc2b3ddf01da84bcd729a237528815bd60208a7cae26552fd103109cd4dddf1da429205dc2e8cd265cfd 0xe9c500af0399a45b922731c848f060b255caed9aeb9044a069d28498b793684eee2efa4fcc0f95fb81d1ef9ab9e187fd; P1 0xa01a2622796f4378acd0772646c236df9d1c64a76ee6ee50f2cdfe59161f0553e163ea259546c36df7f1512b850c5ba30 0x97d08f3b062367d07448b07843655daf9462480486162b41a87cdccc7d82cf6db0ce2e7092820c42b63c54082c577a9c; P1 0x4385c62884f80d59fec5d80b131a8d91ec0dcec72a8d443f2982112d3bbec6b467b36c6952c5504d6f4a7a5ca34ab1ec6 0x5e14495493b5438ef5adc4494e0996726137d6851daedbfb1eccff41885ca3fbcaa5f7bbf9b1ecb6b0cf3c7e7db7d386; P1 0x19ee2d983d052796a399a6df35a7389fc4f247b259fab43f6131565fc42295e345540dfe1ec3466cfa4679cab8241fa5f 0x1cc7efe639135227bfcb9b2a6099e9f7e0bacf6e217205928d9019ebfa2e6fef82650bcd4475f331f8b667f7f67bf40f; P1 0x26d4278e7ea7ab753f2210dbab35082f4ccb018c66e5c3a24e87d4583512be4bd9031bbc3861e4cf61b23a3e0cc33e43 0xe8fc5d053f624c2fa8245bd9978d977faaa97f53ebe642f885dd4cca0711d9a1d291cc25a8e7bb0a07b8cc2231d268cf; P1 0x9f07c9089542d2d3fe9a0b7f0e5c3c48f95633068601178b03d892ab32a2225d706dbef9ebd6850649a3d1aac60b33a04 0xd5c965ad6f8b677e99a171822b085f2861d83875c922e1ba6b25c640a5a70fa7ee5c8eeef88e21c75bc98130b6ed5290; P1 0x85e6913a92c315fbda59654bea3eb005c75213d9e5980740ab4af72d0f94a09fd67f04cd52a195f9c6f2839555309c708 0xcff54c587308301b4fe301e06b24dcbc8645dc8f374490d289dd355bd8dde06d64bc486bdfd438b2d09b1b1e02109308; P1 0x7eb2f561b1920abf4c03406cdae4d2a25026f4407fb207e85c0cbc56e34e9d51675885ba30bde9f1ee69783f6a301a09c 0xd2b73af447b9b12c3400969dba642794ce551864a620c66f954f6cc360c0cceac27ed8c27390040c92d2d24ca45be39c; P1 0x8214d7e6955f18d093a6340e2d83c3e4fde1e985f70d10acf72fbbc7fbdf2f1477654e34a9b0285abf7149ffc1cf45b45 0xe11d380cf14bd1ee2fef450dc83b833e6b125b94a8f4de8f56b680d021710a9f6889fa47024bf8d13b6b9380e43cb005; P1 0x947747e55f84b55032f5e2f523c6e2e163c91c075499cef67c89539e30aba29aeb6d70455c837ebd96956474636987e2f 0x83a96d896d9a26c48708eb7817d50b4fab4104ca9f53e2120e0641f744b2dde492b099fd82d7490d48bccc25df0aff5b; P1 0x32c920ad575d97bc0f742c73f5be176cff437d1255101d5bbdedbfb119e2a47af248623114db1a65fca3eb5e7643fc1a5 0x74fb9d51852fbf2ba6d7e60d3378d3ab3babdb21d4a5b86890df7addce05b075118dfff0d42d9c867a3081c321cbdd1; P1 0x2817be67cf6ca625e9977e3e701b7939229ca5d49e2b7c3b7898318ebc0237a6d654246645f27fcd17010bf4f4cf4a2 0x2bb8fc6e2f37036c890d6453ec2b9b0389b1b45e12c8fc8535136f883ee62524c6dc2cdd4e7298f5db710139dcd82c2e; P1 0x599bfdaa45f18f5399708d8a982563ebe59f1b052dbc40d6bbfae1ac7aa73ee772404d377d9c5f9a37519fad169b0a8a 0x66ccdd5ae10f2f970ca91cb2f4e61405dbb18c4ada59930d9b0a428c793e24c31cb04675c7f4e746ed8a18a6d5992dba; P1 0x1ef5eb4076af9e3996a52bc284b84781fda71a58fa569029ec74901f13a1c7d3c0cf404a24ca051411117bcaa4fab00ab 0x8f28fc3df58ae57504a8766172dbd92bd23fd3c49b599fd44f40a6221105a4522f934b89329410402929ef95c59e065b; P1 0x3c0b1c45c329f59e9e6a67caeea4da71e3c23edffacb8395f4e9362278b7f8685cbb8630ae5bc2ee07f7e30d4133ff63c 0xfb7944f513160b23615080021d4ef723d3029847f3a5db7e7589b23eb343f4a5487bfff6fc7f8f3afe6d11aee114aa68; P1 0xb9454500204149135ddaae9003ed11bc2e99820e92a2217a51d6739f2473c2cebc26fbae4397793310a95f120bb150d8f 0xb3728c0ee607846c8de6cd52bd919b2e1ef2e744bd76d3413d213fb0a64b6e66c9d58ec21372ecd3fdb262984f40888f; P1 0x5e570a5667aec2c1f39b6674138483c1fcb9f842842a047341558f5508b46cf171658a35f9efbc35ef4708f4ba8231dd0 0xde8935cd17f367c63cb8b75aadb98a16fb1516717a708003ec9b5affc6c1791736b6601209dd243d4b43edd584461c5c; P1 0x9115b223c0c5440c47e576504892e3ecc9949f73f2a456da01c5d08d8357dd312d329dc7f0c8fc66aa92a77ba7d1cf0cc 0xb3e3a1530755d66c648db5f29b46aa079b26f76d8ff906d216a5c9fc1503464a9b1dcab430de388f8034796b3e8ffd8c; P1 0x5ece1681345ff0ae2dd0c3458ee96fd5d0c070bd30114883f3778d1dc177bfe440afb65e90abc91776e753f7adeb9d8ff 0x5707276a97ecbf24169c5ca18babcbcbbe05194f043215053eb2241572f14f4a03ed91ffc824f8324a47a87881020fbf; P1 0x163065be38dea7a6f5d8f489158d83fb839aeee7e5cf736f2bc3f481e2f986155f881309a1221dafc155c2b99b803ba85 0xcdf681dfa97da6cc441e7bea868fd74eaabb3a34bc7a5fcc40a3ad0031cb7ee19a9372309cadda371806c4759f730091; P1 0x7c478b068ce41d22ccac00195fbea7a281bd27fd97e7c561cbd41cff3b952ef0d8c14cff574ae4d775d00f64c77e4551c 0x8a2eb7de38e74f290f678b29faae50574471fd5bb0497c71ec59e308745e47dd45df32fea613ff303e43e40bfb302ea8; P1 0x37f0cd11a1f3f80b9e45e29674e926baba51888e9f729fe2cd8cd65499f328dc7cee0c7846aac64e0e1ac7716dfdaba7d 0x66bfa8e5b1f4d33e8eb042fd6d014e3d070f170e832b39271f2f1af80ba4affd47caf9ffed7c17800da3108d79e4657d; P1 0x1eedf78f5ffdb07db18467e24d5f906b2c285599a88ab44312426d73eba2042d4a125234f95eb8096b2af2c66d7513085 0x105ea13594b225b4ad35177273dcc3cb7f12066a1aec6b46d9cb8d215fe5131b9915f8b3a3489f1fa55374b701ffa4f1; P1 0xc8f9591c96edd6f16be11f0a50bf2f6612e0febceef32da0a81186cdfe0ea5e264c96ac01d8a55ba44f7eb5715f79e0 0x5f774170c6022a473adeba44320e0ceae66fee0b87abb58b9630d0079019a344569a0b2697674f640a0a9a6c260b7c6c; P1 0x1ab34b97b3e61db75852e9b673e39bdd5ab857719228c946b5d26b8bed248056a2aef6fbddb654b993c0c220151605fdc 0xe3857ca8d505ae245e0d97a33a72dc3c318af977bd6ff6ee1639fe46f5320172e819c2b7364177091c67b915366a029c; P1 0x97a88082a26f0e54eb800ed952ca7f7fa2fef02c643007a4fcc19a94e4670feb6e0ac447948aacbd7a2bc478a81960bcc 0x38d7d0e8ee751e0e99273711693ca9b888be74276358eceadce8537b6cffcd755450db1d0c84cb461c47bade3027c08c; P1 0x9775900db8b55fab211ef924b9e4e429af51d9db7653a6c5482dde9b6b09c52a771f9e3e7407e9533f3c5c9287bbe1e7 0x22daa29b8666c80e4efd37248407947bc5d327d5e815705e75d9584647e6eebc866e2a4480c7d759b0f448f4517778a7; P1 0x38f1a6ffde60e94f92d6f6d1015310c577f3bb8f35b69d91740dd85ff6dd9a2e882e9a75d7c4de129baf46c807c1ea13 0xbb1116abf9fe17ae434bf5894cdfb7b1f72392caee06b217b0680a74bef2fab6973ec56a0ae1484d32766219e135c55f; P1 0x66857a32730dd1a17fd4d4141d588fdb4da6df27fc80f0af1ffd4b655a41f61d2b9c0ed9c3c4625fe0e612d54b41b2d10 0x5b32b45e4746139d1cfbf998a1f6c44eb485d48682e3e0ae42f1af417f09afbbc67b23c78b4c52f93a1029c06e2b5c1c; P1 0x185dd0b47bef48333e26500ea33b3795cacca28d5fdd3baef787d7d7c78e6985e18ba97f8c7b7aae23001075c36529665 0xf9f90e5c44e00ffb307d87a06e7dcff4b52919c03cdfb2c4f2d78208b0f03836863ad5720e38640532386f8d4e43b25; P1 0xb710d42d52b60ecfdc38765b71523e6b5e3b26c37d319846a691961a552361366cb2317ebf8ec4bd17b12eee04219af 0x77cb3594617aafdb72d53f21c594d2d1a80c247f1fa64aab8e9a052b77137eaa561e8d97b5454948188286b01b1b01db; P1 0x2a0ae9d6795f12d2edef94adbc3520d0be05b4ecb277fc08f321a697bba63379b6fee208713384d3bbfbf890a9088eb43 0x50a5b0ff91387d34cdbfb0c86b0eea9ff03323d202f2a74ee3c1e0d1912e611ff224b4d758c1320733a4ea2a9b0a3b6f; P1 0x130dfb6606efadea06cd14fe153a25378117931e4f2a74525c63822117fc01ca84df3765d875e8b64dd7246b18e5d542c 0x5cfcf425e200b0444a44a4cedc29e93edbb4005d5f7010aa8fe2786259156e10c9a1dd1f8e533d4f2892bc22e4018db8; P1 0x195517119a66415a65aa6c99e30087b94ed0adcfb2fd2f00888b675b6cb86e70450d54914f0980d2d11f45d91a194aafb 0xe528c99629903bf0df21ef5ee6593884f40dc2228c306a800340f4bc401415f18277fd751c175ebce27fa27098471dfb; P1 0x99d97f5cb304a23eab46d57b7fedf5b3065bbc962672ac5d97fa76bf9b82f65aa749df19b30ede1edfbbb24b59d557db4 0x7091bb99c0fb46c20c018bc6e0a1647e90823bee317ecc6089ca3bd39086152b8cbd5253d3e74a06a3e2dace162f6ee0; P1 0x251fe15570e1d92177252cbd667b65c03edf023b79db828e34fcd7c9575321b2d777d5d3ddf3e5437c5b059fe67882fca 0xb486460a6c4d1dea345ed9b438e939cca00a0ad9c9bea4bd8922849a5b0678a7e4b38e0fbe14e7cb7d49ae5932c75fca; P1 0x5f79d2b10ac7a4d69c45d6a3724e2a2369ba7238cd7630ade5a782ec9c4196ad72614bb303632603d47a0f41dd9aef874 0x89e36cb223e2b83b3e90db3bf67bc5b1712b462762142c6b53f030577ab0f3723c75ee64cc7b68b69f56316578598124; P1 0x37b3e748755c519f83577869a7a6c4db7e68d195fbb24a3f4b6ec068a3fe3a8be49a88456db5ed0a0907007872a5568a8 0x254da3092fc727b2478f73fe17df4eb8ec5e3f6b90161dac360386bb34e80d90e22af11552c9c17898073018bc750568; P1 0x413a6811a6041d6908d4cbf5a5cc732579d6157db2ae9087923f015398715aa04e820150ec2af84aa8bdcfabc31953cb 0x7654ffee86bd4fa108327229fc310c9f67fb85c4f088d8bce973801fe90dec62fcdeb0389baa61319255a71111380ecb; P1 0x2905da1ea275003c7e971c9776ccbf7ea13fae53a274e2e6f9d5286e03ca1e829155eb60860b1b3ea148684a44421faae 0x42b64fc1dfeb19f7f1f89e46482539458bb64fbda5d2bae1321057ed3138831bc2db8c88cf8cf03b68e4405f8023f65a; P1 0xd09e23819faa10672c3e618ac51a96a17605308e26bfac97e0c34fe68fc5c891304516e1c9880f619ba0490e0ee72368 0x4f3e09d32b83e455553cb91a3c7e1b04110e93a198c1f21ab0959fc21dffbada1825f455e5ebb71ed88f000d83043f18; P1 0x126582d2d1a3c18b799b0c3a9515e3653be60a092ec53c715f22f663811a1125473352fb81112803fc6f37d1f12b31dea 0xb82fee2223737c35c5d652a37c83f97884415191591162c527ba671de7e2750dbd0eaa1b3b7eadc35fcd6c2c364cf8ea; P1 0x6363b377c8c1e411ce015e43f5b5e3978c6d3029629e16463b3106fe8a6562115e74042369d4875cb5bc85244ea9607e0 0xef4f50e100ef6b3268e0dd4fa8d103836047e03bf2281b0f52706b0378a776f46438510dcbaaeaf6325d117e66208e90; P1 0xa7c7e5315b2043336c988e102b3bb4eb64c13afedc901e2c5c9500341d3029cc87afc903baf4a51dbe5250d26f34bb3e9 0xc3384777b8fc175adfb75f62257e40491fda7a0102737053a1effcc5b22d62eae4669d4ffa8f857f160a632e5bfc7fe9; P1 0x6fa716efcd1b73d9fe2c86f22d8e8359393010013429af646c678d315aaf1e0b00a71549159fc3644200099788c531d16 0xd405ad345a3646772740f84b20b4c18942bf8d37ae1153b1462db28ee8272fb2ba248c8ced2171f9ced170ff33df35e2; P1 0x83b30d3f32fbe998ac0f43371a42836f54dd422b5b2c461da6679c8d8b0dd17fdcd024e82f810b194a3e9929f06120009 0xb55151ee40717cbb6952040ca2a3099fd3146707e027ec975c26604c793c758e6be73457f565ce56460d0e799afa4a39; P1 0x605111c3e3966b883c45901069f04ca3894d51c77a1af7e5a45a29305f53fbac9f9a78474fbb93e864b0050813aa9e312 0x7809f5092d3dea330ba3d562ddca603c0c64d2308dcb2257e243904796c846d39c32a113a6e5e24c844c3c1ac4d5eb5e; P1 0x2a370094cfb3582148578e8f9e218c5b35f2644d8995d14b556059ee4ad2f2637885f540c6090576b0c14985d52fa9b12 0xc0a8305388e8195a8b851a53de79e4e4685689c73e7d0accf20ef0c01be30a3ffc0e78064978c670245b985cb4cf2942; P1 0x6cbd893d931773f1a50272712ea0db39abbf35dfc74c31ca00808a821c5b5473dc87a33e2b23def3a720b999694c27dc3 0x7004c6339d44eb2b1a806d1e04a648a62ee7c349876271173061ad8861f6aef11a97a9a3fd0900a01b7928fa4d5cf9f3; P1 0x24c32222f781d334c8ca62ff27cd7d6bed8d9a293bc9b666c005fd61f3349fa9d6cca7195af7d05eff7d898d417084f4b 0x8501d92198ddb87c0babe60e749657e5e5361f3596489b31d1c21ea066eb07507429e5967138b4614a567a627f67a737; P1 0x33d430b83e72a9bdbd397471f26d5510f6ae1917bd77da60da8f337fed616e951dbc17821b988bc71178487001a4873da 0x7eb9df863b122acc6a937bc94b2052b9db451c28608421dad7c5dd1ac61f226e58ecc5dbb3379551c26182fcbc0a19a6; P1 0x2f0c9f3db7fdcac2f7ad25c6e1f984d1918cf4d917e8bfc0812915fc25a973e3974c7babe95955f9b11dfcfb2edd1b348 0x1090993cee5c5afe3f4d54eb9be0a3cfa83161fce93b22783e71b1e326cd50bbb6dbd7056128b8a882453700d847cef8; P1 0xcdcb9f468d3104daf3783985d06fd7bfce15e53fa2b2d107a861fc33ac38e9b5c8c64733cecb670fcafa86beafbfdfd 0xa1e04d80ec30b6342a2df210ec8f279a2fa3d6cb7d1794af5de7155b26f5b3c56820ceb666a1663139d17b4265acc0fd; P1 0x4cc4ec82e99f0f131c6e4737cccdc5c74a45f981874fe2ea441c075670c98734fb1d8342c2a243fe8e75a3fd1d0727d1b 0x74eb015c0d82d09d53d75e15a9f9bdf7afb4231cea1f1abe809edd3d4d70b40df1f894123901a5937f04827129e83587; P1 0x280c5cb93070e752bce49dd31ebbef16c50bb2e37d75d157a400dfd4f477fd879d8d027b4f4530cde04975c7b33eafa5b 0xa1e060b590c05c95d85d77fdf4cb9de021793c36e41f30bcc7225c20080a0ada806e2ea1437fa0448df32d93da7918a7; P1 0x4cc4feba51c1f5d195c15c85ca9e4b05a22e8f5dec575543a923d8606e970c535cca547519b4066f5d6bcd54d02570ae4 0x6dc09f48253713f6d125e95e9014637d6ed6ce8893ce0b754b9b6079e9c234c6e323baac983b51486b17a719d53be630; P1 0x234a326e0f4291221fa398e3afdd352bb62eab396eff903c11d2719a9a72ec6a54dceeaf4ba54b7d95d64fcc94cb6f513 0x4630524245acd97918bdd3adc3a79bca83383e80307ae26dc48dbce058ba51ad8d1c69be56533703cbc9ccf3b9f26113; P1 0xe6ed894650a6227e1c31361c056b18dd1321786407fe50c1951a88717ecd15123d81ac7608580609dac202ad5f817133 0xe3791c93c0565e03307cfcec82b62fadad4518b44ffdc4b017b9dc27cf67d605ef6eab79f6a824354049efc0004a4a1f; P1 0x9798017b8a783ac9e772de57babd72ffc6f62ddcfe39b8380b3a3b414f6609561e338e39727ecfa8894e71ff48fcfd442 0x35d43e1d8bc88e8b14ec481977020437e75d76fc61be1766f5b17777c0a281b852bf462e68af44470f3d1465c867114e; P1 0x87d2d4360ea29bbd75eab10e97c5c11ad25caab44f49b267af8b1efd20e4f7966c89e62c170281b9b065a13e666753d5 0xdc9357020a1dc5f55e7f8c7bb0e5bb69afef836d5bf584493d0d359244e0375b9f132f2a60d0aca1afade630da0c105; P1 0x8e8a2dc26879e1fe99b7f7b249b76774b35bc2f42238c0f714a28885bd81f785df40bfff5643dbceff6c8a309df64dd 0x8598335ad4326a24072cf7c981d73279d9cf5d18a192c57fe58b9323fddc854db98771188dc8097e313390c23f45de09; P1 0x34499fe30cfc433216e65395eb62944a89af828f7b2e1bb40eed903c70ba7b096df3d6b8e8aad3cb6ce076d4b94c63499 0x12e5e59037d5760342cacfc665b78f2e028f8861b8f9859e060a8eeb93cc8ec8bbe2764983b8eaa0e42288990de98865; P1 0x10bda0d974aee38428285f1733f56120b2ef2a2eb56b4095843725259d852012a2ee9d88ee8dd92dcfbc1de258030cce 0xfc22bd088898565855f3c67c280179461fbcb126814ab183d01691e7704a42e660bb9c9c80172d923b7fd47a3644aafa; P1 0xba3f4ea7ab145952f3ef9ac2bc8c5af02a84552f0056e6eb921778a1ef8008bda1cefa0cc322225c0402aa295e0eebac9 0xa30a476d0f6ac6f856f059d578bb0ad2aa35d7bdc0092807511157733b329713217f0d029bc1706e164b1c5d4fa8c79; P1 0x4de09186e78fa40c5cc04d8c050f561493b0d976237eed49c66be86117d12fcdcc396889d2d6cf486193002a3ba3592 0x6fb2d7e0e353700df063325fb3424d132b14a0ad22d9f10019dc9fc75818069c454b56347c1fc9ae7548539d74a103de; P1 0x248d6f1c73ef7ef280f4ac492edac146c301c4ccf003cb5df3fa72c25f42d8b1f553fbb45844f0a6cf553b7192981e7ba 0xbe53ef680fc6dc06a9c7601c175cd8da451cc821dd305571bb43f03c37aa416f0127644ff56cd7a0fbf5f443c9055dea; P1 0x6a20862aaf96a8fb05489e7814bd37257e577319f691f2b5e46065581a61c19942c1239e20e401c923454723f025686c2 0xc03721a1a37e01c6522aadd576afb4ef099961ac5f8db4646ba71bc34d2a14ee3c0980a75ca7db3f6cddb4581574bd72; P1 0x6c3e0ebd71d53fc2d5df4b012796f7bd87d5f165e6c45b12f27981dd0b978028d8c4c72af0374b2d3a1b3043bdefb356b 0x8f29f9990b6e096763919013c317d71c1f354da940c930295bb587da2621640f90df268d7c6786822a3acf1c190d869b; P1 0x3c0bf0cc28dc409c6d83a3b9883ab87e2fec3cb7892dd0358917c6e6ea2e418a43835c2444901b6da50c4cbf2c0982ec4 0x540d55bb20529bb5d23cace4211b2792001aa8fb498f9b772393e6ba6947a7e8f74c354386e382b62819a81d66cfc4f0; P1 0x14b290b77731f81dabf39cd5b612975ad7cf72b96f22436de6f63e4f51607043339a1672defd1238788f8cf5c9fd16f57 0xc27517be5acfb0d4752ea6dbcf7228e8f0474c42ebef9c5de6c7d6d79cd44df7fa88661356d8e8724dc57f3d8b55fb57; P1 0x6ec8422869e028c8698fe0181e033597c9adb88ccffc20c85e31f0c98fe172b3f3d3416fcc74ecb76b0b471b9b3c1ac8e 0x125a0e210e0635e3d8bc7730cfb9160f04cf5d478e946c675f5506ef7127e75cdee8adcb9f504a670e01c483da36475a; P1 0xfc973ff07ec64f6c35cad37d2a4b35d99703a5afc2d04488a1361e7c6cad9e314969b5e7eebd9ad1f4bf677b19d38ab 0xea5ad5f1685e7cf8e575146424171f416695e04412899c42a93bc20a30ec61785235e6f74abeeb943fd6a37637e1c45b; P1 0xa0e7a38256804bab582c51da60bd489e53a5b6736d7cfbc1be0fbbf8fccd9a76d2b6446ddf108c718b131cabe8ffcf7bb 0xd53a30b35f0e759f0303442727de64244e515824c377873e82b84f93ca607a692c2fd6cd018be933bf610b69b6ce9be7; P1 0x853369b3710aaab48b847ce06d69362fe3b1964892f682be6ab690618c4076b8c89bac1b239f11f917104f8a337ea59fc 0x3efda980b15003837330e5bc267676665ee1a4dd3f34b7efe952c1c646988ebff4f76f15f550863efed4959bf86cd748; P1 0xb9fe3161add4b7e09cf21ffb42ca226dc588ed9a5c9836a165f429241badd74bfe051c72a04c7b52c76e99f921f5a7fc 0xdfc083492ad645274ae4e4f345d2f2403f904a21b0470e6d52a84ba4c81c71408461ec471eb617f4762bb8d3576ddafc; P1 0x92acb81eff48237a33abd57b1ac53ca8af8976ab9d8ab091a5af569a15febe7d72da543f985351e8a57f66b0756295d05 0xb526950fe37f9ebe4d0366e44349c642feb3eb843be856b83c12fea27b63f7e85ba2f753768ce337668a0eac3d233dc5; P1 0x6023af72cb6820206c7b87b2832f79c7a564ca90a999f6c2d0b10b4225bcb2f45934d05f43fc6a6a200460aca8b30782c 0x592dcc46694ff05a6a06877c0b03a06aae583de5c9b6cd5564b4f6f3a6325789152a5532686ef9133251eeb484722b58; P1 0x174ca82bcebc2cd2e5b505497ee7781408e1113ef314dd0c3ce931066b65ae2af8b7c2c90f9cddc8b379a710b846c3aab 0xd1d596cb2ec032f851054b8ec9bd1b49cd22ae0c8222652530ad69d20db17ccc0702661813759116fb6c5ec118fc65ab; P1 0x80fed5d106f3445402f133ab7bc4c2c972cf20a2f5f5d83077f4d7dff53f410c0a08881c20066283ea1280781af42af7b 0x25f0acebea7f988213b115a82a08998fa3e20918e7871569fbf00fed2b93e7cef0d1356d8d710d52a14b64f33ba73227; P1 0x4379730a8b2d26187af4df9d8b144e10935558afb7c94d0ccc0d2f13c36df02c6f25174a0a3c519197d552de8db9d481 0xb9f9b75e470da056a27f62857d5c6c9c0f2537b6bc74a811d3c3772bc2435593bbee77a99a5243936a3d929aee38ebcd; P1 0x655426f55c93e0e9a543cada54f82a0a6c33fd76047b1484dbc53147264e9a27707abb2b0a92982c86cc983f72cdab20a 0x80319e57307eae0f85d23af0c25649cc9e8a5d71b5e870d26d16c87b2b816f24e6c725f122b64697c1bfc6cb5f72cbf6; P1 0x30253df7e3db3d15646e81d60df833b1e266d18f4cf8e1d4699bf15b7e7d23152dfd960435f4927316edade173adc61bb 0xb3918810c48adfdfd3d29b6058ecb903e37d5e28b3864bc2ac4bfc1ea1fa999e57622c005e84e41286bb504e9dfd266b; P1 0x5e77a14226a0013cfeebeac8e5451bd9c1b8066f1156d6bee562a36da7b9fd5d93b2f614b69ede31b726842a47ff320bf 0x5d4243f8e4627c33b21799dd8e06899d8c4b092280068ceae13de4dae07e55705f77816fb5524853239e59c7e70a696b; P1 0x197ae8e7773d27e9553830595891ef0d551fd39d2be72e8efd4cebc5e2a9a398b2966f33f3c6830b22624669f491dc234 0x6dbdf56b9e6dfe8d25b98ab2ffff7402e24b22225c91fba50ee5709103fe6542f9f47c127e6a07b675f7a0ad5e5922e0; P1 0x23487bf574d292bfcf51f64f2a113aa0661ed0870d382effc583750f068d576a7a0003b747e12102757f05f3ab23b2315 0x88090558ee49239fd58fcd770d18a77e75f0a9b23bb78d571a0599c45a3a4ebf884162ee13883da61ac5d4eae83e5315; P1 0x3637307fe6284b6567b6f655ee48f938362f57d01134d50091ad6dbbcf265dc21f238eeea4be32c2745606b55d240248f 0x75d83859f77bc0a183df72cc0012ef48829dc9b8acdf80e8366ca5c178123f5e4d3703f2a4dfdbaa79c48893bfdfa13b; P1 0x28af839908542c19a40090a77d66cf608338a5090bc97aa9c39a22e9b1f24078c9ed89ae7bf89ed4239d916fbf9336797 0x59e858bb3c5288c2d2d68cc272aa685fe456ee3993529d1b84ec24ef3025dd228e00f000cf5c12686c156bc0ed3292c3; P1 0x17ae886e598bfc52f365e446ce4fa50a877c053e5cdd4ab29e696b77df42dbd95fd7f2f5436e36ef1ad23a4d897989cdc 0x35066cca4936e3018e30f63643d2cfd63e95c69bae4ef4075744911c45eb0199a9bc435a3e14ecfb9148fabd234ca348; P1 0x83cbee7c78598a36a0821ed5e82db8a122fcca2781582923bacce2ade1a1c3f5f564d025e71c7dc4e4f6d24488b9eb66 0xd434a6a84423815b13d1975fe286a6672579ef516febe3542c1fd4baef00a4c32a61bbd500b06adb257a15b30b731e66; P1 0x83ed6f241d47daba35bd790f5b405006c61f64ba6a12f43e6ef919b47d93582abad098706b68816d43f8777618b555d7b 0xaa367f7ccce0e4e5a15b1c5adbb5b513f4193adb5ad01bdddf0cc366dda34dc7575de9ab713b00f700a62e23a256252b; P1 0x54e151b0d62ea33fd91664438427c9e49c82912fe8bec0d6731f1e1972d48e79469c426232e36d653182aa3133a696313 0x52a75d948298ebea5bb11b96ebd6fe4bef129af56b552346cec9364dc277e12a2ac1d21dbd0923334932557135dae1bf; P1 0x1403bc06c63931c43a035b77cc3c625d3430c4bd10f57a1585c63a9981f85b7757e367311105446fd69fc89b143b0c378 0xe6c0f20651977b2b3af1a117c39032fe2a8166bee7bd35df8d47664b074222d026ddacf2bc34b768c341a50d50105984; P1 0x9bff733b76ace537908c7b36dddff547d5185d42647de44bc26abda324ecc03dc59ff6d79aff4272995e70e6044e91e84 0x632fe6ab3864d2b3112b95a249381242d160123e561fe8338c6922f3e547a160230cc3be427b3eab967794a20285af44; P1 0x1cd29007343f98e0100fa446821b63040874c64639615b05de19cf9b896f2620b914c9d8cf0db0db6b1f51b31d965eb51 0xa8194672f57b5cf0f4fdbb8b49bab221d9fbc5f90121fcf87e1e4b92b9b509ae5dad74baff53b21195a0df38912e6411; P1 0x52c8e3384a06b276918795b9898cd93c57489a69184b141ca65c34f5fd27135b34e45fc75ddf5edc6ee9faf779e835ab8 0x7f061e41554ae08b7bbf9e470ee8d42cb1774e466aaaefa42649e2134b274a68b1778f211f965841b2b01b281532c844; P1 0x2f454d9fb0f2c0392b4a962729b8f0970d818d5e9595cd860d68f6f10074ca58a43ff0449485695b1551e0afe69c4b547 0x43ee09d7d55b3d16f5faa0a6b1fb9ad8a60d32bb4a7ca20b45d8f122236caa55591ea4760accdde22bc4e7df60808e07; P1 0xd84d8ddf58783f2111bcd1a96b510a42871b3aae70f7f89ec495f27baf56ee1415a4fd270770f1469aed976a44c13ca5 0x287b1f20922351fe2f2f45a64bd868c0ef79e03356f3af3a4f88dfeb734cb20d98dbfa176293b1b986b53a084a4e6ef1; P1 0x4cd07b4d41047533a555bebb1d4646ef9b367c58f13c554fb2b7a15cb39b677cfd0373ced0f3d3f5d0f664362cbe7353 0xa240ea970c794c71c32228a64fcaa2eac174521adbf43bdbaea9c4fb0356bf10afd11c5eda8bf778f692d7a89ffe65df; P1 0x4d20ab05fab62dfec07969131b0f5191781e8fa3273ebf524b28b2f57d3194000ae692b29f645533a23e6b42c044af180 0x6bd73bb147a3447e8084fe45294fd4c1ce42b048b919de1d18d0246363fd579916277600fb458903b7ef0b1bd0ef948c; P1 0x221238a4a2af00f624fa87abcb635e5b27f032220bc6365ba044d73b62d27f7771d5082ad4767a0d15bd003d97858776b 0xe49ebc0f4582380f044ecebc81a6653ba29b3bfe7d5fe688fbe5a71b4470e0a315a737003a181cae12424208e3928e2b; P1 0x9920590de89c23b25182548db944375bc0e6fb8c6c3d79da6be10014c14bb47660b4c8bfd4988f115755cbb5c935df057 0x22071b19323bcfbc9087ff7b9d456a43ac29535891bfa0851ad81fe667ee0c733aa155a1e43aa1b015424b964b5ab703; P1 0x3646a8be3b138252f8bd8cd98336ed6cbbe97bfb4cbbac10c426677df30410641990a8727081080dd9d779ad75b89cb8 0xd68762aa21b448f625214bd5e74f8dba0c4734abe961e011fd6df1f712653e6d138a43990c3846253b54e7b0d9081524; P1 0x86d4f86a3c5bbebf77111ec369d6397a688a60a51f35c193c06b52453d7b8d8b9311fe042db5720e6005e46c14ca989c1 0x11d6173e45feea48aa57811f36af6cb11560c66da0802221dc9f86fb8e8e0bb50d8758dfcc27d9b6fe55a0249c9ca681; P1 0xee9998daa3d8c5589dc488e0993e75e594208bd84d70acb45def2d977ed39c7ff15af79d199b5be6ddb8289c80602f0 0x224bd863c9489961b209d67d5650d4058001d7a67bb8336829920ab61a82ef5a1ee9528efec72d7619c5f4609a309efc; P1 0x3722cf64221d2e1b955a1a37dc4390a5c6bb5e1c651aaa20477a02a7e1c29a22c497696539cf6d3f3f6d786c43b164e1 0xafc7a59d18f09992d81d551cd08f65b6f62b5eb1bcefe78bde05fd25fae03b6aa6b996f513cfbb21ea5d5b19281c5a1; P1 0x5a85ec17c21b33ee73f44fb0d6b60dc72795b1cb0d45183dc2128f473dbc6628e2472eaa3ff61787cf700d55cd35404 0xa5bec1bc257b9be56eeb2479c592d41bbb7fde1bf3ec255b79d292b506f8901c0e6fd4704c19c62f6c8d62de46b98b10; P1 0x507b96e882a8a7ed763c3a460e746fec988852cdbf2c52f54e0c828deb6ff1bae597d3057aa4d6c83d693e17a52fd0e6f 0x6d69c8d5a5b136959b22cfdc7f6406112df165afe9a8abb101880bf3ca1c65ecc339241c8a003eb4ccffe5fbaf99a6f; P1 0x2312708d38ef02c928b10f77276cb71ca45e157c111544618257b89c532273239ead052b9a29e15514b0875f62e3541 0xf17a370c10866b98c84ec7d95020ddb8779e4714324fe2d85341cf47e1ba629df438758406e95536886b4d21f34b06cd; P1 0xaad5807debd644c7a4ff8bd7a397bcc03eb02c498e13f9ed6b25250fed962988b9a76e0ba9adf5b0c613c5d6bb7d48885 0x86abc2b21f30e14f4165f7d4b233b4eb46319c35d95de79970e7d314833bf30d8b64ab84530d6d0fc19ef1e8b3678a71; P1 0x3522324c1d0377c91533d32dc6fc2092f91442accc7c93e651b23d94518bc198e9975fd0871265f883d731571eeeb3a77 0x85115bb65b32edfa896ab8070001837d84d5259325fcc326c4b13ab5c4948aee6bba8b91f9d30f4ce0fb8e7b8c7b8103; P1 0x33e047da9760a314741d287a2fb8b4329500221a15948a61c7ee17f22b9fede100052eabd73971552be558ace4c890b8d 0x16d93023eefa5fab2fd01404b8d704cae7df5d9e4f1d50cead1c546ef6874221465ee4af66ffd106f31be21f635153f9; P1 0x18789669e48c0ac89e4c0c4dbe2c1a70bd50307e2a408210f527f512708e69db77e1bfb6efd4e4ee0dbfeff7e85dfbb7 0x24368328ead53f77e439ddeda3c33e077eb2aa58a0362728fbd52007778b646120b4765a98a4665cd191b952e5bede03; P1 0x3d7885f53e17604b9d5b926a4fec51f18f574a1c88152c3155af7f2816eb5b10164711e44b15cc70cd4963a23030a033 0x3d25d08a2a616045f476bb85a6497acf2d8bd0345125ebca0afb800eeeb3796e149ecbbf3385de198de3dc7b340f109f; P1 0xaf44839d782999957601cbe17086588b6bca5370b0fa9b2b5ccd9e3c5dd37c0e75883f6341be504888b196aec675f502 0xd9b874b445c8cd2d95534c18c720da279d3040816ca172158afc870a2f9c8a3bfb2717055993bbccc58426cf5301160e; P1 0x8adfac1130fcf402ce042db68219c01c0a3c5857466ec6bdc7fce575551d7c2059fa2c9402f4d1a6ff3f7818577e7c9b1 0x55422f891ff28821627da626136a8b0f77a7cf0e025cc13391dec867b247e5cd5dbfb9b20cea87f9e7ea0b2f9004b2e1; P1 0x154bc382340f5ff9f8219d51af8886f7f3076bb695507de8079dcd1ba7e30254828031dfda06d6f0165f8db3fab91ccb4 0x9e32455c78dc23f33886c7e1831bd1707480d2eee200bc101714bded3cd49448607d2d9a582e8f95c3c2b5da1bd5c1c0; P1 0x4951919dfc1371b10595e440aaf886cd061d9aa5a8818e475ccd1d0e491a1035924e08ce5b989e4a84db80ded6567c899 0x32ac8847243a5eaeab6627a1948d62c5666f75bcfea77d742936cf8dff1a37d37ea3fe95411204a8f0fb7992370c8899; P1 0x785e32265b85c42f1d398c41cb8bb633dc5b74b9805f6e4d86f607818b9949f9e4da063de4c82af946bd4541aefd09fa 0xf2a07a7bf7a8031cbcc0744cc16f1febdd50acc1d37d5146ad18794b88956d4e5b8eeb3e74df9a709f2a2929adc01346; P1 0xac76d920c85734fbb515ddada19233898bd994fe7c104a0b8c3650e942f0c685f4ada274b248f4ec258ffe7bea878dd88 0xa64d57f42e640726c5b987e1911a01aa13d1565041c4bc2346a6aad46186cb68890df12a1b8c2ee2afa42938f5e27338; P1 0x51064c130674216a47453ad69b953ba861bc78b6ddea4a14b2bc3832bf345fcf9c00973b55bc8ea90b5d2cd0a5e2a0993 0x3027568c5c998df113cc942c004ea0c7eea34d50f8aca3d2ee491c88f783ba9a2d8f2dc881380534f66b93a13ef25c93; P1 0x6cb14e017104d642cc48640bff20556a0e2d9fa8e8d97234fc1171c0e2cbde5776ebf7830491b33cc3be89d819810b92 0x2ad29637d27662cb9c404748818ba71286f555b90390a68c1ebcf043a66e0c5a753b26d4284f32725c801c8a6248e07e; P1 0x55f54e3d5973316cdbdb434dc18fc02ebcdb195c8d7f9bf8d36619385d37acda30ea672bf9214e344c050ccb7a333628 0xc880512ae5fc0e415c6a7235b432b7fb8457488333cc598667b31d82b5e4a44784a1d8270bf8e2761ac37c3da70c1e58; P1 0x75c68f5b38fcff4a9e1344609b74e066a00b3b661a11d4dde05bf72d966f3792d86c0fafbd51a36d37e2dfdc49f8b338e 0xe2a887cdc1b6b55ef49990bf3942df9be341344ce446a98cb1371e6f200575ddb6636dffafb52e296179136aadb41e8e; P1 0x96827f0b5c179fca2abe59c9a8c29c331923fc38340f332579f4f2fdef511420c0e399ef901d664c6abd46c8607737842 0xdf3e70088c6cfc225e3abb5d35e34d5362e8b1169703a31d3277b8e0ffb915fcf27d39b35f184e0319e8c7b6df768972; P1 0x920260cf035d0768d4f3e23acac6994ddcfd3a73cd37ba202a2ff6f2c31828eeb56f56ea36242978c8b2d15f2351787ec 0x24fd75009b7173663666d390e6e401e9d5f419a50dfecbc1823841a1b8783222546d807cc0ddc6946512434177be191c; P1 0x40232e27b4b8796aee5d75e53a55c2f7c6827bf3f337af7ba0e790bba95e1e5dca967e50a96d1a73ad132e1ebb216d2d 0x20c88a787937b0178e9f7e9fd2b614750abc5e61a1445a6ce7f5bd701b45083a3e12cca69080206acd6e09a17b6f31ed; P1 0x3260fc9141512d033f02bf828632c589acdcc50e410a99e5118800576867289cea5f66262d1b2df69ad45189388d0cc8 0xce0f9ce5f0e2a19c4b294d109bd2c0de4008ec7bd53eeedd226b5fcf1f605a8033ca5d5136f0f84ec90149421fac0db4; P1 0x7c65d9185e160212a4c574ce04953f92930795d226b8ce5ac9cef471ac6ae0bd07be3b178f357cd319e783d496234aa12 0xffb9aaf41de90c3eaaa409d86c11ed4b52977293951d1a2ac0b42441a847b3e1dc2ef23e9e3334370a85b0678181f8d2; P1 0xbf968eec23edf94c50e4f7ca03e3dfacb3f8aef976e3d4967ae7edbe5f178a3fc4c5d2c1a546d2334b9f23f581ded1837 0xeadf89c55290364034799df8ddbefe5df824254bf5a1f81b85b794ae536fb2e17fc6f9089064139a213bc3f54fb7ab67; P1 0xa19e104a8823b3a9cfd300bbfc69cdc9095768d80b6eb73163b6017a742c975c08240199a90b227319a40f39cd108e5b5 0x95abae6eac9695835b4843c5022b0f5f3c23b68da16c668a7766bec3b3cedba25d1e5a8f4c98130164ee6670a9420f01; P1 0x41a0f9237eb55e41170fdbe9f4e47ccf753c193daafba36422d790c92224d64fa50b1dc78840496cce5256f6dce7b1214 0xd307e38d19e2baf78f75a07a83cdb8dab06613157f8b9e4c2adcbf2fc0c3b33f77e435f1e67ddb8d60f4e21e87387a20; P1 0x827881029f7d0735f27a9a0fc65b7d2cbb5c7188dc49e103722bec99ddd4ce1838e4f69cba7558b87dcf3e49cc7d78469 0x9eb032778487918799f066b8721a6f79371821ca91e3ce3302cafb19642702041750c6b1875971a0f491395caaf5b469; P1 0x49c679acb8685b35b0f9128ff0ef2cc3ed9bfcb3f06271b1b66dd963686f368df9add17321f0a7d02217002c91b8917ef 0xaab9950b8a52f0aa35ec4021c720b8902b7dd668f5d7bea2136fe05becab39ac339293c0ab223840368b05a54ceefcbb; P1 0x5564405d0fdfe248b7bb094652c032692b9d85cd77a045d36b88ec5c654e40734a5e4118c49c7ea1da1d878c7c55d72e0 0xac38def27238d6f4cc8e1604bee02aef0d3046ebec91274f32b0a58463c391d75355fe8c5cc79f91e115886e3d5ba0c; P1 0x56e55a2a1049ce124ae88d0f765e9d3abdd4ae4347a271867999dc16769ad2ba3bc4a3ed1f668948545bc43f5ba08ff 0x1b2ac075cc2d81d1b6c86febb02ae907836823d52edd7cec4edb3bad4982fb51e3c777a9f4f838ddbfb8a689cbdb4fbf; P1 0x22988cd6c4f20970567892c795810d348ddac7985950710845bc6963962f6905cd6befd9f0b180a8036eb80b90e79f26 0x1ec8860353e259ecc8b2b03f5fd8ba49f084babd230ed3eb1c0247196c4abf12ef63553777e9478b171e5a4afc78e532; P1 0x2c6b55bd642b3f507758375557cd059098bdf4e2b68072f2e05e0b6a4b774d21f264d7c4b8cfe5d7b2a1c501f94e6e76 0xda819e3ccca18b07cd3c12f6550bb0499ba317c254e28ca83311804fd8f8e84a38f0a78730d2206d666a15454a2c53a6; P1 0x8be0c2584db258f786bbdb83344ef384e699240d3e7cddf27383cd1450af440d520d946ea3d4455131ee3bc8e620de858 0x7c88c5d7c1280c5b39437abc82553e6dc1747960d30155035bab081cbd731da8e4b1edb5ed77a44b73c59e7056caa408; P1 0x2d6f968cdcf158ba5cd19523dbae3fba16411aa9874e24a4b0075cf06a013e9c80ededf684acbb88fd89eaf87d760a285 0xbad46f884629034f82c2f61ff5579bacaf03061e4935db46c1d26ab25d5155ab26ca997cf1675d6e0388305a9c1ba585; P1 0x664309c4342f71976808999bb8c94120b2c65cb22e0948ab18b9697a37f0b09af6dcfc71a17d5d9f58708a93f60b96670 0x7e77376b8c43e0c02e334a12ca9f854b2c48e549cb14ebbe8b2f1ee6d147c1da51959edd2a171aa7f67ecd8c7d99fb9c; P1 0x2edb2d8dd40af4d8e23c27b0b98deb74b1d83e3af08794bac283ddacf9c631308e97031ddce6f3aa26e19afaf5ca8458f 0x74f8a147f30a2575285644e927e3110c2e6c106091251af1d2141fb69dea18bbbfa0f88c9839e17b852bd9d19cf9a4f; P1 0x2815b2b98ff2bf24aac50d9fcbb86a4bfc99b98a874dcb773ff65b270df2fbcc17ba259dce879d02e506f36f208a5ed 0xfb82b4eb454393d2bc0f9f0018d5ef5cd11e3350ac179fb643738695b6b12c17c583c7e7706aacf4b8a141fe03465a79; P1 0xb9532d2132786a987a9da6e6ea160151e325def779140983466fe5211dc50319c95819b4602a176ada35fb77021275ffe 0x81e0c4f9e483fe10fdf3a10fc40b4468c24220d275eb86e74030e14944c9386daf376bfe4892a1d07acc23762e6fe4a; P1 0x316b38e5dbe16529a3982fe651b61c1cc251bff9df659ebd9e79757f219c65ee1801b10218ffecb1c6156366e43ef07 0x3f86b9f3cbc090771e4995448e1cadd3d99140bab1ea73696b8a155dc1df735b5fe4bd153707abfe99d27a2e40f70fb7; P1 0xbd2b0d1e46f4303f81bfac7d70946cb8c81fe40339a3eb71f275e346ba18fad19419dc9da740494d205c88dd84c67b07 0xea99e9cd37cc666f29ad5a791ef619199f493a0d0577fa17588c66243791f2f7d34025ccbc47e2e0996c6e8875f1f4d3; P1 0xa13e4cf759202d3f9bc9734aca52f945f6671dc9d39916761d4b364532832102d5cfe1e9d41762ad792fc415979abeec0 0x2c07bab37bf07806f06be85ee1b79ea678e1ea3aa00d1a251fd59d667e51d663d15188ac35613330ff7672765a96b5ac; P1 0x5adfe4f146f8ec2b3cad98c35bef658eb9b89fad2353ffa99d09a4f891f2bcca7a299a4d20d282a5ffcbe1590ca25131 0x70e1e14116a3c5d06760ceddaf276e448b12929688a792384932c5f40aba2cc83467a74519070a64eb6d54741a7a5bf1; P1 0x2554d14d02d16e7c5842541fb1ce5be40e678e2bc5791b30e995e80a014fa75bd55615e748374d34b4ba1bf8ae942bd07 0xd2780fc44f314bf81927c93877291cf1ec36da47fb4a10637db5b16ecf270dbfb1cacd268f660b7518a5bd4c79f16793; P1 0x81c6e5a1a433c9008b8fca7dd17c8bcb727b237ba1bcf4729f5124fcd641f9f3369680862e0945417d13c2d8eeddbdd54 0x927d8f58641f7f5a74b06d02f09b8923d8be0f61bfbf1d0634063d4448c5930ee8d14c7190d56d0ac1880a388dff4a40; P1 0x3ede97d097172dcc4a64d16a6b9d2e147ed75e707bfaf665f8fd7640bb710e212e61c20296517cb92fe35a84d0cf7a907 0xb0c9d87e35bfab8ade76bcbd8f6b1ac1fa481019f157f4e3cfce18ff67d2a0b9a770dc4f9230f8bb24465bc019646907; P1 0x5b909e9e6961e0d5098b8bf5fae6119700c9c2e9a53ad71e9de28aca2bf8fe17460441d87a107449411b0ba0b63f14add 0x670423f4968432c987be4e21d10776f6348620f3dccea49c106cc3168e5850d2cae22ce0adfdad13594ed3f172a23529; P1 0x1f173fbff85be7e160efdcea46474cccfd699b199e1ad6775a0783856233fe939524a3481956d96117131eaa25ca990dd 0x7e4f20cd4ab19f7a770461c098bd9d778ce6a23ad2c117ff8a4119a670f94f5451a5ced2a381d26efcc6e19b6fd197a9; P1 0x2ebd7d8f82532f6f92a8ba31c22291c162524b2b309c834263e6deae125710cb5f3e3a4615ca189c992715f2897abb582 0x6328fd0cb0dd04f7add3ab1d73a46d3ebeb3f93babf5294d54389cadc150c41358b720074a25c62d0aa76ed10d2d584e; P1 0x1cce8bb5e72b39d7466e0634cb968ec2f71ac47f9db788d0045135187204ec590df14efcfd76c5a575db3259bf5b40d84 0x5f87a58b4d2d3fb8bd17ced2b702a50c0978a76540f86232d4c297561dae996fc77f00966bb246f4e4715468fc48aab4; P1 0x1abc778e0d6fe23a28cc04fb5d50d66487e98c2cd4f92356edf65f143f949800440ff01a9ce6b4552b92012b7a6ac6353 0x5175cd1f1b402638f547228f61a613600292f879eecded6bb2b39eb9699ebc0809802f5fc647f216a19342c6bb971213; P1 0x1370d1821d8640af7fb2b73d1a043825397c71c929a2536f4bdf6dc391bea1e8eb0745e4e9d6dd91cf7f58c577632d329 0xd705111e70a4a43f15f7af6fffcab88e3187631c911a0997321cfd0008d60c1e4dc018e6a8d2fabcb5386c877a7af415; P1 0x877322241a2780aba17f2e3ece1ab08326fec32141dc682e0ca594fc73e74b792d530c2bb8dfff7baf0386c4df7560ced 0x894bad93f725ec02780a170ab678748f4b1bc3af8134483f5395ac56d6878de1dabb16f500aa254c89c9357bc0268199; P1 0x3739909da6b00a49764bc904f92e20bd0ac50318f675c35174aca50d35fb34e1ca4687456311f5b23ee339e2929899554 0x831f9da8ecb603c3ca12dae32fb951c9fb04c22ddb3abd8b271e0f050a3e0a56f82b5b582332edd3ca6e0f5fede436a0; P1 0x325f0771d5b32e4e8f7610d32894929fdcd0a16947eaab461d6f8633a476ae71fd0c9c4f49d332b6a2b8dd2ac8247b6ba 0x280cbeaedac0f47c8e99bed08c99e45e08dc8517d976da4bf7f71cb20ad33f338577f379291c878cfd61c3f5aa2666ba; P1 0x4b2fd2ace169df9c547e2a5ad30bc85791f8fd26eac29ef7726b101e0b23b0f8816b907e1c05e2c03f212d9faacfd936 0x5a1f74708f09a7a30e5439e3e0abf4b09911c3675dfad5781f03cbd02a1c5967aac82e4f970f4ba5e4d56eedf018cee6; P1 0x17cb994d6998b8fe99e432ce5eed4ce1bbe9f84ff771eed4c80a086be809d9e413371ee65d592ea55433450a8ed06eb17 0x732a107d954a48de32885133246041b62403da31a42f14b95fab854cefb6a4bd4fa659e30850f21220497f2491a7ac7; P1 0x26db1d4baecc3f94f7c4288661114e4b323dd1f595b3a0f7a3f58e237e0941f70c894f1394b0d35c012651ffd40a1e6 0x985221f2631650b8596ad1284f2f8985628d9dad44273481aecbf4f7cca3fb9f47ad31acbf30c3907ac5b729ecebf232; P1 0x43f939ff3315c5e56639e693c1850c5d411e07a462d07da8bb59d206ee1483ff7939bddb9bbda2c0de5017bd75b53f381 0x7d2d3425e8287f1d1d4f690a33c21b5f5cbbedbc016498db5c4c709d6a29b694fe737a8e557646085a60c8a73682c8b1; P1 0x2de7e1ae4b7ff0b9608e6336c5d2f067bee955e0c3dfa73dac157dc19136050c3cedf31fd648a4d7e6fd9e3d0e092f1fb 0x6b8801ebb5090df831b68ef8dfc1404cc1186e975d411f79aeba714c22ea2ceaf4175813d5fef187661cfec33dbf6e87; P1 0x21e03b65ced734cd31839d36323361d23f89b0625cf40f971676d07a7fa077c21e4e85768883e1614c7a1b7eeb0b991f0 0xa7680193c493bd5a1bc6ca7f046c87bc3aad908d982a0f41fa37889f372dc6a673507701c0ae335f278cdfd416b5183c; P1 0x521aa53c0de8386f6f297cf70331e8b5ef38283d4ac6f08c30d0c030d7f886f96ed50ee24d80d1e735cfb89b2ee90f27f 0xd733b259c5b77e44bd1c3da659b8c3c3a8bc6df11670f62c35234017549e3c89ffc4c04245a6abd74bfe22f704389b3f; P1 0x87ade8028097f6b9822f91943a78658f350ad80b61bf083c7c32b58adf7b94b1f23f694f2b67f365b5b824f767c92cfaf 0xd49c027cab3b2998f01a445e40223d48f8c9c6deb23004083738d809c5542696a18419281e411de2d1990b0a911301bb; P1 0x846e126522aca54a706b2e4d36b703718ae46428b04afc0950d8c5dac27f25656da5678f113c0d3923d6ccb39294cad59 0xc69561331d8c20d089dda9f3814860e1f37346d680607c7394da028d435f5b271a63d37311957c9649105a546889c85; P1 0x73888f240515b2db5197a4f86d8f61cd95d20a6f983ae709d8af82ba400df91f1fdb8530774d8585baad20de452f7e6 0x32bf52a184d82f928ec33b7c2268f8d23b5351f06b878ff2eee6011acc36d3a0c06e35540bda3e710b174978d06f5512; P1 0x78b78729faf692351d800fc81cb8fda6090bab68926255eb7071e5ca583dea053156e97c3b898a7b2a55e980d9b4466d 0x57f97b118b0b4a20da1d064e86b2503c073e31369ef8ebe8f3119691b98bc015c02c66da7b77361f169f1d75703fc59d; P1 0x16aca394ebd903dedb4e86c6b90718327a2d4003f2e5c6848082b26b898f26082e51edee2b239e5d4355a35c3ff5362ee 0xab91acac8c9c4a43c726b61a48d0316057df926d7ec5062db75b6a30084dfb17af4fff214eb5e309daf9680cd1f7e5a; P1 0x563cf3aeaed64c2173e7a058514db5cd5e9627bd16a16bb1fb7ffa418a09ea58e6bcdf825fa6f5fc695edb988125518 0x264b076698b8197f4f71331e169ec2ca85845be299b587caa1c8b4c897617b68029e6ffe87795d43f21ae37159faf0c8; P1 0x44bc523d8c02eaea489ed7a2aeca03da766653214a857bc5e4be61a80066d6b29cd3ce0c191ad12a2769b43e1da4989b 0x897824b7cdb0dc4f8318e0cb529c05b8f9350f486460849554ae0cc2c3290164124307c288c6cbb7b51732dcabfeb9b; P1 0x375d5bc360cd4191d435331fd98866ecbe28133878553e67354d5c28b08766a0a23fb57551dd70d3206e51663eef7a4 0x833596652fddf8fc02408d87655bdf5613e92aa73df6c1b9c1de4a2d2a7844d23ba99f0a771d91b74bd237b2ad6e35d0; P1 0x326fea5a61ee4c1d74660837b9035f91d7e80fa2cb41a1fd817c21079196c91529c7595eb8d26e27222e8af3180ebdb66 0xdc7bdb62652dfb7be81a807c69b9e7f494c146debc1c5b10fcc6b8c3e2ab2ffb5ef933f5409d66a6778104ec79a94766; P1 0x8e6bd5be3fd851043098d4bbdf5bce74d7afe624069e6c55951059930c7fbd8c5dfc322f77e40c3c938e41d93970637ba 0xb0e44e8a48b15e9da3b45dfe3ba885ccf8b1b5c5fef29267071374ee65b61798ca0eec6cfa1df03cfd5157bece0b0f6a; P1 0x5bac09b399c671c5de8f714208be2a231dc1384cd1697e1397d5ae162a365576c02a0544b391dd50251148277cf6a24dd 0x6239676d1276a6c70b0aa6b9df892c819d7791557f95d9f89e5f3fb1a661ddad84be99596a2aeb79df5b1d25dfdd438d; P1 0x1c44000b0bde82e4263f9eea84a265bf35b68df8f19727a7e8b26f743d4a43294f2d09a32b1cc5bc61ec11a9d0c9f4abf 0x6f9ab6b2594505bb251ecf85b2ab8acf4a6c79655479a7f23a585954a589be51605158518f86d064695a3c163bdc96ab; P1 0x247da5f33bc77fe530f561fd71e683eb517ef823b7048e91d4131b203132366526794fb7f62b08be6f8359cd855f61e7f 0x5a3ec6f1ab3d3e67499c4e53705096161a4d3985cd4d92706050d560f2dce09a1f3d548dd6cf9a6e1b812952dcf0292b; P1 0x17dc26752b0c8bed15a0c65ad436456463d6b788e4da2e3f67c65495f641054852a599a581f54cbec978770bfb125a53f 0xd1e663821535e53b443eba2e65e969014c9445c76de5d52f785aa938805a6244d9938d8bb2b65a5a23076ec6281743eb; P1 0x81137e5d044a7cbaedc9b0fb6ddc22db37548b154fb0944dbb32639efb3f41d1f22b77a61b744c167ccae51fbe6f8e63e 0x4d2e58af320ed63a43edd9f77dafa53c2a6b17fb706002d198e130f284c8575d62ee60300a6ba263f788edfe71eb1aea; P1 0x1173af4e0958df62c95e2e205fd396f6e4f1a695e59b6b66a12ae222d515c001b9c94a6196a792f2faa2e6f552bc1091e 0x5ba383171e81de9c9075fef31a63fb529adc1576c5b88142203fbd1b7c98628a87fe3e4ddb94566702ae3e7331056fce; P1 0x189a3db9f9b162b7262895a9c2c4583e96de8855af509ffe89c7f1f667fb4dd66abaa845dff6aa2a3937a0ec51f5b7a0f 0xf97ab3d4ad02133bc3a03eedac0b854649cbc83f8e7ea64528932dcea6692c60d399c345f2db9a1719e54a321deef3f; P1 0xb657f17ab63087835f1410c9a10ce9c4ee3562b8f1ef527b029ee7d5aa2f116a8853b8f31a63f51e575f2169858f07f 0x597b463bd65aad7480a90325bf8e5c9338f86722e75ed3eb8159376d0e394d272660c097a7510b0bf2dbea284a99428b; P1 0x177535a5a0dbdb36d5a96814a6ba23c08f28ff9ab7bcbb65634bade3f9dc1516cd59334d9c20fa7b4c93efef8e417802e 0x50d6ba92d5958181853531dba86c703cc9658f8c3bb964b805fe5ae7f41c52a3bcd634972cd980fe925de2b67d6f19da; P1 0x13252e8a2c372b1c468881a990af970c82903bdb4421f71515f686dee3182c97a34ef1cb5215db2f6675748a45d68d663 0x3083461ec5ed85721c24abced4e4004fcb5949eb301486a8b5001770230815f77fc4341ae60ceea45b86a36d314c7a13; P1 0x6e51e3548b15c4daf42bde384aace17d5cfc66cb02b440ece93a0455af22e1fdd9887daed0cec386e46ee0a848c82894 0x4912dcecba96462ce2143cdfa9df895dcf93a59b959477029e2965a2668afa7cd3318e14c99f416b2334e52c12b18980; P1 0xfa4d28a1dc4c191b9b16e4e7378b6da9a019588b033b57b89ad9910955e5572482fef57fbde0ada114b9a474bc69e6dd 0x288de2601a51fd063d7b984417e0d7efa10c2b82bd98cbb6588e11a571e31376fb53a34e1a068e3754fc4b18d6a4e6dd; P1 0x4d17c08e2b353f36345eb7707664167cd3d2c6207b9f03c56d01effc577cd2c4bec3b29c4c410f111224844fd7e2ebb3 0x227e9d4c28b8c7105b5c49c55f0e73a9b736ab197be283cc434775933c4b5622901def63978d5246994c4435f0192d1f; P1 0x37c684d95d3c0875b8ab9d7c4c0eda5e3d3c3e214e55d218043b97055c77f5c024de9ba14e65fb3e7db5c1cef6b7407b 0xab53adf0db1999a931cab5ad1573c7da6df6942737b1ef3f1c2b6b4016dc16fc5474bee6d0deda75b6d2e84b96ce3587; P1 0x55feac4b83cd44765d13059d6abe0a859b0db313a2f0fd65cb1fcd7f08a0f497134cd4240d3747479b4adcd0b28d3ee31 0x22d1ebb7e905575ad12997b5aead0886cdbde0957eac31737fd1e7f5fc64053923beea4022fd611d5dd61606de520c7d; P1 0x38d530fafec4be4a7793063695b460dd795b6866e104b5809595d20eaa12116afc302b18e0b2c2caaf127e57acd6ccdf 0x9e22348348358c00e81024b33f981a57596ebd1deeeef67331aeb56beb43f4272bcd51f04a00c806bad167424516494b; P1 0x4942ae0b081527c6480e0a0f22c3e383a5d8931b32f2a8b070621bf1dd915fc4a642a29eab9f2f1bd01e584f43c25b11c 0x239da8c7a9dd30ca55a1a9866cf02f2d0c2f2282d5fc4ba1614631c30b7dbb7412f249f385cfeaac38a5cd4d8aa400c8; P1 0x3b75def49779f7cc1aa54d9d127cf562162a6ef52e28aa567fa43ca198f9119b778e90d5315d748ed42795a92ac3778b 0x3b4413dfa9e6072090a6a14ad42801c565df20e8a013751eb54545a5e2ac64ecc9459aba433aef44030c38c5adcaca8b; P1 0xa4a5672be81f016c867d0618b1cfbc345ed44e2933815f3166661bd4a7fb8a17953cbf031069769fbfd587440b538270 0xbb341ade3d7b2222d2d8b72831cb88b0d16bf0fb80b276c7b8b51ea2cbbbd0f3fc9adabd81c322ba915508ad9e9f5c1c; P1 0x66abdf64b431927c55145741707b6c5db91626c62ec05611ecc0fa3ed9d14e921c70ec8082f181d425d0d6e213312e63e 0x7c5f723a5f162fd4b11aa1b9c89abd35a22325eaa3540627ca354427a68e38af2242f26591b02558923a98cc82248afe; P1 0x2d5173aee4ce1419658c5d7a1172a580c6c1583d5383cc28a271ed9c09c127bbcddc398b2c8dab65196f309e783d375bf 0xa1d872d500c5ea1fc5803613ee296b007207f7844a1d044083e1edadffd8efe5f0bd0952445281749b2ea78c6a565ef; P1 0x4cbd79956c717b49336bc79d804b59100784aadb5acadd103fbce2f6e203cdaf4f392b4f9a5468af07c85b06fc9bc73 0x4dfee93408efbf7814c715466e36da9ddd6d7706c6b148ed917f635c55a841126f086f9cfe0fd771979bd0788fdf39ff; P1 0x11d28095abcd49d4ac456ab6fec9a57d11608b8e5ca13aeeffc7668efeb94175ebe0bb8bb67c0074978601c5e6546b40c 0xb9ff592653e980eefefa48a89934ded04b634c415a663900098609fba2fcc8b8e49ad8233d8e77eef1101e5e16094418; P1 0x655a4a291702beb63ed78cd7ce978c101b955e6f8ed6a758e8d7d28307e050acbfcd9cb6f8dffa5270b3c846d3fe126fe 0xd1790ffe8779e15b5d48726cee5634677a9efa25dc6e5d4032c795a47ad81adb3b7a8838caeadd8a874a11670d7a41fe; P1 0x808d2c064a9cab17b57b1bf2195427ac0e2a48ecb3f9877850dba93041adffff7c5dcc275296d612b6a4c85844948a3b0 0x93a6258dad7758e70f2730cd517ce54a6a99e35c7d87c1f3176f26e854aa52d9bed2982003f03470a961ab956e8c43e0; P1 0x3fde2c3812d8b7124552edae6079b5ca243d5b52b8cb49cd5c6ef9c165d35255011e99efcb63d968655d920b2b3086b4c 0xbffd6fd2875ea7f0e4c8c172d0bf3fca38a1975dd5e6cc6deb4ca4142e110bf554e22c7666806fb0f41dec9866fc9b4c; P1 0x6bfd1dd1c5b94aa9e5086067b871a2eac2481ba1fb5e208dd8a536b853580cf0f78c74e890cab19d09b6b4e0af4e1bd86 0x93ccbc1595be473171c09a0f0b94aeaca48ebac04823719d9fbe40da3df7e934412f3fbc6b6b9848c9eb47a502df2c46; P1 0x3fff92cdd0eb2a14389be007c01192b00777b1513b99e0da247ca467e5d2ec71fcde27728746c4ef08f0538340176c949 0x8bdb9250bcf6b684ee2ddc4e04369aa7d300ba768e99c88694f5285d410b05abd694e9b7970775c0ef0830b214c86ef9; P1 0x394e21e981398efc83f5b9388313adc0164d34c2d4427c514be50493626127998d0f961e54865bdfa0ec59236ae08877b 0xd7622de0196b7d7b1b1e87da38f73eaf9289d62e725870f48ca279d83851c337171f8973a4729ea29bd891218c0bb1c7; P1 0x87e88b082ddeec21d9e9d0a1b23f172ef0471e74f3b04f4d27fd0a046fcf9f7b88750b353d7212cd511cbca428af9da89 0x3d4dbcc18181c22ce8b397fa9c4fa0545bb3098be55223e77cdee0acb7de22dc30032829ccc7298610c29b1e89ab42d5; P1 0xb029aab7b79654e7db4c191063e1f5e87457eda93eaf8fee5cde93eb5df21a64fb3841009fa1e6c96fd96c9e4b950f54 0x1d13861bc9cc3c970c496f65ccf3953480ea1fd307e4c0f76319b92e4d6f537f0c3b636d7bb714173707d963b9b4e00; P1 0x27a12679b92ff3ce9174ab629844c21b2136521f839a549473bbfedfe92b637f8a6e61945588115b9dba34a10a4281 0xb99adf41e9acbe66dbd7132fdfe9f12e3419b537f8a4d6a7693f429bc0cd6cac8d294dc664d009fa9327c9be2e3a4281; P1 0x64ece746f94d87d2e42ada29b1685107bf56af60e556c365b41b076e8ff3c33b6b5bf2fff800082c980d3cca9e90e5a6f 0x6e61a283ceeb0caf99965d09bcd0d91c49d0edd47eeabd0bf924e0410ed0a8730be3c895d07e7d962e88c1f1a5cf967b; P1 0x23b209ac5fa7ea1411b0f8ac729c41d13eb195db1a5a5d275a10d9e81c71b6e4178afeee05b194a9b3715d1f2ae92fdd2 0xc489da9e36b22b8c52caca0acfcfbcca183cb654d010cc5a9a7b0044e3cb3e8c0038d9155ad55360f6734adfbeff72fe; P0 0x96e360fdfbc934507cbf870429ad74ac2687eb279c65b9ab44fd05c505e3630db84d3328d2eaa53ef43d03b18757d3f6 0x7f567d84580bd8b5c743bcdd26d30c66508fa7740f494bbeb0fb296feca030a9939c52f7137f3c88e31e8bd6d90307fa; P1 0x2f813251695d1088557a2d5df419604ef54a5378c6db2bb228127bdbaf7c1a8900fbb4df7d27eb1fc7834bf701780695e 0x6e0a0e9c06d20980fd8004790b2bd5b1108713102f564d2e7ec5f039afc3a9d7b1a8066b18ceffd0c1fd86648cbeb0e; P1 0x23797bb66c29da5028d985a9b99217a652799e5ee27d34de55caaf42babf4e9b2c49a48425ad88749db00bb57183c7f 0x6b94365d3d128034388fc92d5f41508457e889395cbac0ec3935176118612b27f5a179219de2e17941ae09ea5768b5af; P1 0x21e7ec70a24da936d7d1f27f187316f6e9d867a169060e30f75a564f3883da5d6342b4fb4022d432b6c2706323a2f9f2d 0x1658da5519bab8153bf15d48a66fbda730d46b29d5bd03f0242bac7787a5c56dbbc7cc24d5fa55469928c9e207bac2b9; P1 0x1768b4617da1f16bb3f53ba3e7b10812942fed8a001dc4059583be87545dae13210d4b48902381da7013a46e0df6efff 0xd2ec5656605c77f5e4357834c03690be438d287a9ddcaecd1e5a389224cbb3cd309dfa08c644655f3cf56ee2e141e44b; P1 0x825671dfc1d9a3e3b412d447370d143152db8776c3a4ff4c09009fd8352e43da2d0ba8a8f83be02d4821e1ac7cab11dad 0x6263fb0cd404844932bb6e8277173d46f727cfa71312dfed61fc6d98a81f9d10f55940530ad4f173a2ea153d86bd4559; P1 0x1c5c8671775532e0d5281ed2f845c316f2040e300531a4c30147ef992d4929fd7fcca1389ac5feb3007eaacdcfcb1e030 0x84bbf1bf5a85e4de43c039ed25c7159f6b5a56fd5b93ff99ef4321fb9c7d8e10216d4e88d5f7f5ea8994e00caf170b7c; P1 0x339dc4764d65a053677a388e9262be3315a70ac35007161d751aeb5537f95bc04dfe281e15ed6ee3c1a842f87cef17811 0xa9a025693f645119bcffae52cbc0a35179380f84da4b272ecb93747c96a690c4c6536c1776de8ea2cc31d045f88028d1; P1 0x544ba02ecf0af60d105b3e0d3899123cce6805df25775c68b4a54f250c558ec8d155bbd9bd9367c74d46e2960f248732a 0xf9a28a52124b33f612e5e209dd055056060dced4ada3db5baaa9be0d7b72672383474c35afb875de69d7f5144c6032b6; P1 0xb692323541a586387147450e7b18281e1117d954e9ef0a6b6cef4b8a45390f8a07cc69a52c0b42c9d42d9da4bfd9d863a 0xe69425cde7ab8781992926c39d50070e6be8724488a97fb04bead10f3a674207b392227ba02ac1f0cc3ed46b9c28b6ea; P1 0x9bc2e73f49f4f04c7d7264e8c66c5b09cf001206b4960f051ee956315bfdf191baab8ee9bbe8560cae46e4338e9e21f20 0x51ec958afd5554a023ac8d409fdd45e6ef2ac36121c2fa44a13a36da3b81d318502f3d965447d3ec8d95803b37b4c5d0; P1 0x13a9acf482f2a06d99c64a8fdcb3e400bffd01b1454564b59824747fee94149ae922652884de80f8a102defcd02f2bebc 0x8facadfb81e08663e4beb784656b0cdf203346e1d726a9dd267df7a04a9fadc575d772a25d243697b5d76f5ac3282abc; P1 0x3c79c722ec79f05b30314687b957f10e514728407e16699809c4ab57cef1067b45987b862205b11898d3295d7da2ff49b 0x621f8b1bbe3cafa4909914ec3eb0510a3fa9660376717b710a3d7e9abf7551dbd6cfc0cfd8da68d4c94a2c5a50caad5b; P1 0x1c351fcb2b784193161a1673d1e1e9b6a4f89ca1557ec78f48177f471cd582407f5d4ddc674638c504a49bb9951457f47 0xf9baade6a59c5648dc5d5d8c22e33d8f2facbfc56b4585a613a91df3be480a9a56092fc6a5883db35379e5d53d46eb73; P1 0xb6b582d0e1973dffd06bb254ec3ca711ebde38684a326403e586d32da022eb821a923ddc2ad5779f3baa9049090a08918 0x4ef9714bd6650ac0d51046e40c2ecba2f246032a2d7599c3d3de0ac2aabe34f378a013add15c82cfc18d821d81e48d04; P1 0x1245b711dabc81a2b66702da787e8811fc0d6aaa50475e4a870f0107809393e66a32a5295b79c2a21446246ce6937829b 0x90f093e03491f9ec028545ce022c7baf9ae9e5c279a64ded179b24af02392d1c665722d53d8f5d7cfaec8105a2d8635b; P1 0x3d8ba6555fb588b3597884d2cada9e88c56a0b9116b7d10b858b5d63a997cc4852bb00c833264f52e046ae4441652440f 0x93ee3f4516bc896e9fadd7cb1a85483a8c56cc2301345c7474e4593c434b5e3ba4025ce2096931eb1d8ab2b0e7cc603b; P1 0x401c9bca4928682bfb4685d2774bffd4ba31db408bc8b4ba08969bce646198c3d527f5fa73c62806a5e71eba76592a24c 0xe2db4532215b6070cc90103a064fa9b39795020af776526bcf5971d2f60a8531056786723318117564d950cb38064578; P1 0x96c5e97cfb06da4fda26a3b5ec8753cac48da66e02d34f38d55af9cf560a302919b265cb944c767218e73bf219e785389 0xfb2c965b9742a21870283c8049d989e3eb313f56532b1e9880fd13c308a40293619d57654d47232004ba6de6942f3689; P1 0xb8d458f4b9ce1717f5c6c1620bf9a9fdd5bc244cbe769ec76dca4bad831ecd42f23e6116a42ab4a4f993b750255f19ca5 0x4d9ff9bbc52ca444eb3cd1f8eed25e0918a827f8418d2fcb18bc52b0288f4d0ee0efe9442c609a794cd937970d029c71; P1 0x11a73826579bf1ac0151f112a102cc1f17c4738d3cf05d822478ea348f516b183bde49751c4408e5294dd02b68b3bd071 0x43625f8fc873245d9c270841294f307d2aaf2729cfa15d9277491e26aeedd80c0f4913bf471fedd17005a8e913a2c6fd; P1 0xd4d7addec825389e37d26775ae04daf733ca57fee2b6eec5278d5ed720d1a33c142bcf8dfed8860807c8f0df6357fe2c 0x4d95b7013fe8f402d5fc60344d3d7da99834ab2b892413d15181e32c70299791ed8151c175d71fcb26d725a36ddc0698; P1 0x11a28dbbf80afd00c57f04c462eded0d0c194998a0143935f7e6026977f607d692d87cd0be6d1dd4f363d24f41c47abb8 0xf6954d6d499e997bb70eec79b423ea24a0421a0490a6f765a206712f652afedcf62922502ec1f08db896bca55d5166b8; P1 0xb22275e8f19792e7354a0c554dfaaac463b32dbaf6a919f0fa3ed8c40a5e1c1567fae84af729280d66c5265105324e18a 0x42f22abcfc6bb50a9d7677f9a743564fc4e41cdd9e75c38e28b65748a76ee56f5a300a000e05ef2c62785ff486fa948a; P1 0xd215256b4f17e7e1bd04d21946478488e7c181c0cc79e8a353cd2ba3163a0b7b2bb2d96b119be65ef1dc7de7453cf70e 0xf2a773ca2422665fd24b523f41bc912b4828b93fd3bbb36466433f3b75feff98206ccc6000edae6d5219d4ec51db33be; P1 0xac80c355d5d08fe2027a16010f555576d94a0b6344c9197713e09d7547fcf74be7a04af5528188e3e79ce7c8b522aff63 0x8347eae1b523c72dbe55b08b8fb2e7359a5b8fc6f3d7e3f3936ac6819ccfc14af232c72b94263b81fd41e625f49a0b93; P1 0x327e02f15810de60f603f8ec0d5b3a490dc0c610ba0a190a10868cd8527dd0523dfdcbd245f0b5ac9d33f8e8e0fd7ad0b 0x5f992c9a56932a8596ea0a3457d670d8d362f894e04908d5e50474ba639fa167743817bd0a4fd901f7a1d884d06f39f7; P1 0x1ac64810ab61983520fb48d2830ad095c89bb2a9a8a3a96d9f98bef7e84e16b547f1bb7c00b3600bb6e1927081f2c1ed2 0xd1b951f8a48077b0cd624890ba327df64823104f7490483d6cb6caf11293532d251842e1ecd98d9579c7470e6f03329e; P1 0x80dc167fac291b07146e77a95117abe4fbf6640cdfaebc9b452d6392e80f93dbde0f70b24516b1f4d577aa4c0105b9f77 0xf6d1e7f9bcf456a0b97651a3836fcc7472589b78224ec11d1ab08ff65842e2c2efed39aabf439027299a6bdff4e4d1a7; P1 0xb27a10746b58930f4f7d6eebe1e34ecd88a8525bb79c205f2cbd44e0dda4a5902dca6123cfa3d6266eabb27dd8c8edb5b 0xc57c9412b89ac9ddae187ee935e57996d797e6404505c82e9a3c43e62ba549fd2a8891712392323c434a61f00a881ea7; P1 0x7242ba6371ed099724be73799fe80f59f9a020c721e414cfd475ada067e05324c73a41a81f4b5a3d5edfd516d91fa5a63 0x8af6c00314791d4ada0ad37b25ea50f5e0365d563599d86a3169be81f141cc158eb6d00ccef10b58cd364dce1f4525af; P1 0x389337a2ae01e8521d82a020b7e7c4739391f7530530b3b3a7823d0f09a47222c516e345672518c28a16e303fc7621d65 0xa490d5212a8bd03cc2fdeb3b6a460fe7d63879c0adff1cac382c02c4f3fd8df638463acf9c59ab3a2540f42f65fac0f1; P1 0x4f576a4237f267e4945ec0e8f9f206add941b780ae31c56124c9dad40f4bec076d2dff3c933c245624d9572e1113e7305 0x911a5f8dbe1c2a28592fa9e098ab55c8be6cc3b6e74410575e9be9e28961d25c5cfeb1b13ab3ccd2183fdc0eeaab1591; P0 0x523ee2f61dd1070e24b8506fb14e72e8585a0e5a17d0b227e3ca1a8beaeb1aaa1445066114b382473b85f9070f819293 0xd5451c96b2fa7a3c8c82743f726cfb4eb48bb4ff9c624fede111d3b18772f051382ff3df39833b9888473012f508aeb4; P0 0xb1ac143b32429a4babda98849cf0c10427aa78fc851e9e46101bc05915810ce25e5f2e657f8d00ecc2249a250cb7b419 0xea8b9ab366504bffa9143133c1d5abb826ac085896363278506404dc97c946dc42e262d845b16427e8a960bf730e2a9; P0 0xd6e382f153583af2c1587a921b13bfc35d9d9dbf8d16f6323e470c662165854ab20ea1ca7cb7e32489eacb86b027b8 0x8ffe7a072b8e55a5532394ab1507eaef97b92318485a9f8ae7c9850909de33d50153a3c1d26f5e4ace8ea8516cbefb49; P0 0x50fe494a630e47d7b9c61ce3449f28f8dfc073dbf0557e4b94a902320a9383cad6f3c638e3afc0f9b7048fcf6fa5d6ba 0x1e10894d4a2130ef799a3d236efd52c38bb84a32c7f62fd34e5f4ad8e467100c73fa593e2cef0c4731373fc6feaa118b; P0 0x387e13f90acdc4b723e4e6a480f25e672256b4434df054a74dd57178cafe4d73495c27fc247264c30a2bf6fcb9eaaae 0x2877d339cfbeef3fc32e03349eb0b2e3c65a5a696f98bf39e5c4467d2d59a65eff2c9e61f40b3dc7c5c98d90ed6e6c27; P0 0x665aa181ef327c94445d13b502b2b00d9800b9984bdf00ab1851d7591aa6cb051c1b73efa44c0e5eb4c18c529bcef3d 0x66b622e8099bcf3ef039c855ce603d6fea2b55a743b872d5a018acc80ed589c0307fdfd41cd32434385f6f497ef1dd2e; P0 0x2935a5668e58478fa2bc4b170749d629784b71c298fcd79a82235d9e3782618f5fafe953da2661ee39d532da88db8fae 0x1f969752f9777601cb0288e1dd4076447bea605d9ee305b7bbc8caafb697c7bdb35d802bd312d3395bcea5a4009003f2; P0 0x3e5d13bc71a43c26a1bd610905a59af26a9eee46fe2ffe5298c29f8edafb1d8d1c79a2f35e36364f168f43b2918c3a8 0x5d5cdcd62f5157b0b54db85a689f11577f564698d1ce33bea8f72393cf5e7afc8f207506fca9394c8b6383a79968546c; P0 0x220c9a2316d3f0b45e3212e6623939fad35a212e4992d5cff610d6175eb5c0ddfd3ac8d6314684a639480629ec7a88d7 0xee55c784e59a0f7db30f1f9381d9fc2d69676312c4a4d12b452b304b10413ae32677185b20d9db528c809a8b8119667; P0 0xdde39bb934aacf0f1b4b6930ee99e508b87d61501d26de6c7178929fbc8295e8ecd51d37e3eed0974c496ac7e22775 0xeddb5b3239d76644d9fac19bc5d7effc4455935931f83a812d7dba803c1db0a2d2b2365cfe90faa585c108f29ed04e6; P0 0xdcffe2d0278488de3d51c426b2016eef67f4fc32338038ec258cb863d8bd17db173e5ddfd86e744ec2bc9c3f305d14 0x45bcecf825c159063b4609e36c50a6119fd07a30ae72b7792c66a7d07457403a8d2dbf6439ea725733285f7ffd245bb8; P0 0x12ff632aac2c241dc56c3f523fd5fc242695f22c9d740544f0d89bd02e9be8c70e9e905594eecde81846bd2579ee2aad 0x554d2cd53ea54a93a2e3fefc900e25b63b569ec6c3e709813927c4f780bfbac840ff1f0783ea1d98b84f057c168a7eed; P0 0x1c6c57099bbb721f0700b8ff4595481397c75ccc5e487365a1d35da607a52467046d125622504c13c26010ec9ff419aa 0x675b27949f218784b2013b2450f1294d170f2845d5d70eeadc2e2b5cdf673985f4387ab5df87bb8d69ce479872664113; P0 0x29ba7a4ec1d4bba7b88d54dc8375b1a42c1d45e45acd5a54d237f95102ec74421bc7190bf7b7e1fa990846f85e054364 0x671bc196ff28a790c6db87b2c6c2d1aaa65c9988cf1b150d5dc92eb9a4d5bb09ca7da8cdda4f41f503c0ef135b3eacd; P0 0x298758c9e9918f35272d4747be9af94584a11316524423386949c0ebc5ce27db84058b500f3d157c73a68d9932a285 0x50e35eb22b713008f9ae36eb063fe648c7c4ea5fb0139b229946836b0e475b451cbdd55558ee2069e90b83adad3c0aae; P0 0x198ee5206e271ca85c04494de41e4cdcd27bf3cfdcd5b3617056c58cfc1f88f1cd2128b3d1b4aa6bcac20139680b7a70 0xf802d20fa034d0b85384cfe9dea4fb6a6ec59c1f76073f37662feaed8a094504a93653d5a664fa714f93e79960d88b4; P0 0xf04577063b02790335938f53eb272ea9b16fa8c8a04acd3b479fff532a27b10741c0c94244a95fa643ccc05def8fde 0xd3a834d4cbb98b900f854bcc44a9b9a0bb69e60ef7a41b59d2e10fa420c3b37adbd15da2d2af7195157283f479374e6e; P0 0xaefeb59c2a06633c14cb909f8bc403c2fdc1b0ee97836b758a6c980e1da798846e060567506b01c0942fb28d3754beb7 0x8868ff7ad5e1d5377e619fa36c77ddb7a70bb36c81610d577f4a8cc47fe7ee01c23ad25741e0dce527ea5d9cfe9ff5fb; P0 0x48afba831603ab10a813c3a11e8b3668046844b83fa60060acac2de603a5c023098e78a98bbd478ca0a9c5f8995a4584 0xdc0c98b4453f0b148e2dba0bcbd1c26498a65e010cb38b13e4e6e60a41887e1445a5d5aa6c1aa749b919786e277ea99d; P0 0xbd25a71483016a20aed6f54b7de4ab1137634fdaa4428df12ddac8d379f9f3bfe06d39b770814ed3d24d75c499c9249d 0x6f28f837a301d9f608965e8619daf9278d0306703e02f8157554305845312d3043beb3cd44dfa6e7f9231a6cd6b5cee6; P0 0x30448dcec16a63828138c8e39882fcc476f82d845167c725fcf2967013fe17c66182cff8e51acc67554c7cfdac79449f 0xc5d40d1e1bafd457aef0275164a42a400490f75539c4e11bcf9c1f880fa63ce6ba8f144c6f1aa6927338f9756cec3b43; P0 0x98e00bd611268a61003c962446e4009fd03a2c5490aaa59b9c0a072ff5af6c90608aed8e9570040c501fce34a23381cb 0x5bbac760dd393fe510360ca6e7d7b465b76a4b06f1430d56506545c196f03146985a1e75998c3a9c16caf9a57b737554; P0 0x20de5205314fe7335dd3eba83d824e2c1b02c877e0aa2a7052cd032cc3bd994d635ecee00271cf97996af5dea37f6f18 0xf4ec6d04ca6921e2fda393bff3cb9f354274b1a2eea4fe17f2e327c8ef3909f0c79b27254899e797871653dffabd52a8; P0 0xea538a2a511aaee3a831e6fa948a3e893139b8a40af54201ead32b7df633039a7ef5f29adee99d6a8cf8c179bd12e57e 0xe777b173b46a4f8abe2f21ca2f0e6a723db467dff941740744760b53690cf37fc3a3b2dd5b15465c3cb1e1f03d2f3be; P0 0xd1493a35442aca28eedcdc7169046758544700a1a6f161faf68bd6957c70f96509a0f9fd872e8a8cf4ad05542e36d4 0xb6d481b5ed8b5a0d0796f0e69e6877886cec75a5cb9f457bae2747668d63518c7555716626463dfa9a60a5c093f877d8; P0 0x8292d8d5c4cc6d87e098f930cb4cdab1bfb2cf58ad27e707e33403b0ce33ab4abbf6de289a7fc8bda81141cc9e4bb809 0x1ffb4ff57f828c12b6f3ed6faaf8f41f4ba1fe8cc7db16ee52566aded7a184cdcb179b9774bd42f7607d088e18e63e49; P0 0x3fed4135943180b16d8481e80fd415c2aaa0baeb7cbb1351448a6f45d4f007c2c22e5194bdb4bdd86ae758419cecf21 0x96781c0900d5b21ea370a0781aca1ad3b10a9e061ee5f521622a6f405b92780c56ad7f6b971adb3505e74a20c4223ff2; P0 0x5870f934d87d2d92b23f21ed33ee1b95afc4705dcfff565b6f0b22558055871a7e1501fe86c10f30b4ce0e603ff737d6 0x8a347a6caf8a86bbf6322a8087fd36439663fe4465dfa400a3023545e09b0cc40d3694543ef3c8e8bb5f3189dc38389a; P0 0x4a9c9ebf23f46efdff759e9de5d1ef5eaa0301f58c2b4c72e8fea67ed2c89a11127c38e01650e646d93b7be6d3469d0d 0xe7b3ca39036e9161e94fea4373115bd1a704250bfef1af3abb9f3289a33867959039da987d6a4675fb89154f532a59b1; P0 0xd1b5f5374faa5d1b06b1877ce57171857676958041e4d060d45d60822e6b4a7d95131fb09965c78e1fbc0dd6e1a2d3cf 0xb35c96fc6e6736d58cee5bbed1d8533e3d068579a226fe3aa7cdcf4fac53e05ac83151f925c2acefb56a1c7035236030; P0 0x7daa9ca1e0e07b288ba5b1f044169db9b2554f582c43e300baac6f3bdfc2290c9490042973b1aa620c2fb60c01464f30 0x3c3faa9e02dc519c37f41a0e2313afb70c80b34bd2dfcb8dec8832839bf45ae3128802e00cc8d213d9afbb93528a5830; P0 0xe2de7cf7cd2ec05897e5c6386b5a4c972b095e7fbd4672bbc366039971efb4b5238957fb515bc73c173cc1d94c1825f 0x33b8d9ad2eceabb9d6edce172ecccc9582eb3ca749d247f96a0c6ee5fc60bec07f3c4fc436a3b97a20a69c2086e28b5f; P0 0xa732c34a2b0b00591cbca10be49e168285218f3ceb6843c201c5985116faf045e4667708bf734e066e4945ef0643eba 0x3314a5c8f6bd1648ca21467f917bc59cad4538915b87dd7a0b9c9023baa0ee313116b976ac87fe380f44e7c6c4008bfb; P0 0xa313bb86512903eafe570125ea7a4ff7a0a30674c1602513211c057dc4f3546dbfd54ce00ec18d660fa3c0c5d362035 0x88978a5672564ff434f5bf2013197c8a55140f82085b9a3fd45b0960888b5bb6ce3d9bd99f17af588ea4747401c0a84e; P0 0x48e15cb05637e73bdd9d92756383af81dae8e954ac7b65b8565e0c6736bdba89830ba393a504a73a2e774247b65ea61f 0x229dfc2f56704cc35d966acba20999d0f2a41c15948b4023f87a2ec2d7f3a998d4c491604ead0e48d32ae52636051de3; P0 0x4ae587bdd73150ffe0933b01922f271d8e985532c33143b7b3970c418dccbf563e48d47eb638287326e475d7bd069b4 0xe28e827d9d6ed3cb143ea375248c1b469b1ae0c0f5333314bf368a18255611ec258bf6295e9c6a24f37d03c36e2ba0fd; P0 0xc87fedbacfd6266d332f42bb563d23e56e994fe1a469c327f4a74c334a4c4d313392853842ec9945d83edc49a990c700 0x879794868a0e60dc7027f4ef36e24577da795cae33085ba275b9bcf7518c1212b74847c738ab1c25bf66ca808fcc0109; P0 0x47d13866727ddd7433d63d2740cbd0750fdc5d82ce7312cde50e43a02820ef9a4dcc3be1e641cb7a2482c1e1acd50861 0xed6de25c806f2e83e7fd3c5771812a8d35937022499ab8c4b17ca7b4d5a58a7764f2a1d41a2b71ccc742823a612e1ab2; P0 0xdc34a449d0baaefeb65822966e01a9515bd64982a0db0b66cbf40b84c6246990d75f1ab68b150c46c13c3dce136b26f5 0xbec74769bb6bd5b34d83d3eaff02da3e9b85f5127d3d193d3e084b03f4a12a8e5996e1b1aa1f9f722e7df009922bcab9; P0 0x8e2c69210c81447d7c07ab39491622fc550db33d8a83b5bff59d7b434cf3e089f93de4df85140296118ad42bfecd7acc 0x7e7708d3c92fdd1efff115ff3c4a24cef5bacd6b31f47d1532ff9db0d37ff04c79e59f10901bf73a3e0c751abd7bf47d; P0 0x3e796409af3e13f25797e71049b6586413948632caf50b7b9828f8dc944408abbd79b4c6a2382673cb8d313b7c039a94 0xac2933563726b8f0028152a6cfe140cadbad145ee0d7c420d16f49734b393ce0d1911cd03ad835e61e29c510e7a01f9d; P0 0x73c7639d560529ec47d42010648578a5937cd7918f14702a7df3a6d2612a7c2498f1e555966c078efe72704a1de2ce79 0x13306da11284882f999514efa5fc58fa7b322a746e6a0757ad005039a12d70976d10bb31432025ae031794a5fc0a34c2; P0 0x170396f34192d074aa8756ef8fc1155a8ff6006c337c64762d6cd9a40689339e8e0e716e179966eaaf2555fb841a674 0xd1eec77432021058c8cf6cfd4255b5b86968c6a4376be3b370f7e349a3601da901608bb07432eae3a3d91945d2490978; P0 0xac27c063311a3503ee05b8b395832e6f98d0534240ecf5a3abd18065b3ee7387dc47f0c19e52f6ce2f80d57e994c522b 0x60444905bd339deac56a3a610c5ec761e4a5f2e6e79e091b1a13e9382bebe7c059e39ac6192e841dbf98f662e015fa6b; P0 0x243348fb2dc77fe458b1dd8f0cba98b439e0d93e688dafd6b65ebce48413a295383efb8491feb01267c5deac9a85942d 0xe135d05ae78359579b7de6ff49b61dcea92e465349f16a570ba9386f75f706326540307c8ad2f84368902089e508bce6; P0 0xc61fa38fba2c97ec08812f14faa04ae91a607d98679c9cf35066eb0a7f97b9efd3e898ff7877b73a6430d361c6d3dcf6 0xbe813862f8c87a9f962c2158fc10f77697376f2206ab0923ef993710ce60a3e66aeccb0c6f8aeb151f9946d79c967b9a; P0 0x8dc410ecc973c32b98a79871014453044d58bd3a02cb46076950f42fcc3bc803d8a74eb0e84f5292c976ce2aa2980678 0x9061d479fa15004b8aed9411e98127fd313b01671bbe5796d1c4e762beea337b4a5d1a3cddbdc4b5e1165b7766bd5f1c; P0 0x516e346bee2164905a2efa6dc5d4cb01c52f2b16076052792f376782ca44e19e1c89775164925f5186aebb062d8eb26d 0x256a72d0c8f6b295e06df1bf9c459e49aa2f3ad1c89eb0ba0bac2d1f9a929ce351393446a273a65a38d7d081103c7d7d; P0 0x577f173a27c592e1cafb722171ce8d43ba4fb27126f3b196dfd6bfff10d5f94ef43d289b90018dab6b27afa0fdd7d25 0xb6547963ebefb1879a15c6be085801dd3198e7d08bea99b8d30768702cb7b7ab4920e1512b97adb9c8b433c9bff8cc2e; P0 0x81dc3879f69b41c23abb83c64e7c71b5583040987a2cc1b815f61ce8c77bc19f0d873a33645b88a021d26670a4e4460e 0x9bbfadfd69d1611896caacc3ad1a84565b864a6790378863b9abb1a8fc32f7348633aba7687f1f0ea39e471784dd9e52; P0 0x5ec1ac35f487ede1fa1d02f0946079d4da36b184b8c31e9a9b871beef09b32257a96f70524c2e08a179d8109c0dc4dd2 0xd63b06737160255c2cdbed87dba515c0136b4703a38d3ed8c40474b9cf3d32cab666ccf2bf0ed38042926d130c59a016; P0 0xb346bc64faec9e26e3d44680a6c0979c28bba865b94f4ea4ac5e6c9d30a7dda6666e21fe512df946df456b95ab5656f8 0x2a0a95f252ebd0fdcca581d83f7067da206529708187d4e3cac452ee22cf087128c19d5c4a666e664d401a446ebdd8dc; P0 0x6e779a391f7d4e6fcf4c6b49f7234c27a76b4f6e4aa9506dea80f87c725ca9e6b2d245a7179325b9a41d2825e0b139c 0x1ed1789cb1e1a05ba10cadc6d36ab440044e2fe5a8a02be696726c08b148f2dc36e19f08bb4cb53970656ed5a9710ac; P0 0x3b5c3aae25e9aaa1c470cb07cc7b1b129f7429878e2c541512856902ceed0825c2d940284811ff59e019538a68a9f 0xc8a83737b56a6d44974253d3ea62f302610d0db7128d388b0ce3932d469597fbc407c865caaee0c0c7fe764bd4a47e2f; P0 0x9d4744cf907d627dc59c41424c37d9fe2a9f8b1c12b4338d8513662997e72bb1989c74afb640dc19d8c820e4cf7a0fee 0x4f6715d2e18003eccbf0f996acf844dec80ea38f0a79196129d20fd6ca0e800ec2f90f0f3ea7f2ca6de82f3091e45c8f; P0 0x18a0c8fab8babe250bb866d221a58d622cb2b4e79e657afc33e4192c0674ebe18ee7903bfd3b0af30ee6e3a92a14e225 0x33845f496d13d470712130617197f634ceabc288f355cad2c4c858cf05a8980c1465ce34dd3e587850c5b5b32843fa06; P0 0xa5e0269a8a5f71bfc7c6408d7e71592d28f7ac6a7a5abdec335e1a6aa8be71387e6880e80374ad8e2c8b30799ec21bf 0x7abe497ec423a48eb7a90247ca5895cc75569baf39a33a965a9ef39536ba34b26525e5afd266a54b0a01db4d3fd9e3; P0 0x3ad9eb7e0036a862481baf37ef2028ec4b9d5677aaf62d25767d4f9b78aef2904270a2cb0baedafe3628d54f2e06 0x70528ca82980f5810fdda0ea76459ba08a56fc14c33d659bd5ef51a881825e2e1131df46b4917d43cfad11845a7bcd4f; P0 0x314855b18d53c949c11209213c297676c229d32c8cb8f85874076e64aaf16e25a8bd08134a2a75e24570d5adcba76e94 0x9a60a3fb66eab77b8257b10d1ea8d6d62d533af377548e1bd7fcf67884cda2dbc33445e7abed9759997ae6cc46390cf5; P0 0x5d1869c5dd69b0bc14be3860334fff35f200d1356a0229893b760cdcf830019453a5c65da5363e732fe32b4f8b6464e8 0xea4d29be448219aeea6572a3c33ce0ba7b17058d30751b89d51b78829ccf4e57831535aad89fec89597ae8ac4d264761; P0 0xd6712791f8818c92a767fd15c97cf24e1e8183f92c6177451b6944e648da3324bebb6c321fc3481c1b5be8afb36a81cc 0x131ab114c5579eed32c49b58849dd88a29bd458c6ad5f0ebc3b000e8763f1974e8bb7229eacf832906752de5521d748d; P0 0x16cf9118800d1f6154c4cd8f737ca95087ad1e63f70af66e4fab48c2f38ce084aaf204a06c071392c00f697543770ce 0xb39d3139a0906657fa89af1774616515ae30c0063381783e61cce4f3693b36606904c705492dfa795aae7e1945398677; P0 0x7e05335c00affcacbc75ea331aec1575ac6ab74ca5e4dcca0e8305dba195df9592449f026b735f3446f407a59fefa165 0xd95e809f8351f6463f49c7aed8580ff39dd8e5c880f60f92c483cdbc76d02b7a217dff73807a4f6e5519dce7ed8e6cb6; P0 0xb89158f122654a6a4c54b58b1ea5b3354baab84e29909bfb033a40219489c1ab120e4da919c4beb15eee6801fe9461a7 0xe0d0ff26f15615a81ae70662df2f19b1b8095f051bdd0e89cdfc11bc37fa7982e69a33d54d788384d6380b54c2a6730b; P1 0x9412cedad2f2115f8e58e5dc86fb85a4e45315d35842dce7398bba1222eb5ceb5a54b83250f3db46d2560a9e43b1f4cd5 0x65cf986382b94584ad27ae922b2a6d0d08295f92f884818576f09285f725259db04c7c3f9279d21109770ab812b1ea81; P1 0x1e5e18f0bc976fca9e5882a2bf336ccb2fcdf6b350234a52aceca1d8565a94fc106db3c5af9af5e44460a2588a75fe5cc 0x85da52af928fdd0ab54b784ff5754ceabd9d610bd3a90a1f4d0d7e33c2d363f89183c887fa101ad9ff1a687fb5b8e1d8; P1 0x347d6f148503083f979c7ef9d451d0f4ab55765cd94ad6c033bc80913bc9b4e26b0fb8cd8434cbcd44a29190fcb719121 0x6feb60bb52d93c35e3c722625686ad9f7a53d549e65ee70da5ec6b704add7ff91831d57944b980f0465f63930525c21; P1 0x24b278b9e2bba33041d9daeb224bff97696bf3bbb28b3aa5a757fc5677732cca83eea2dfd9eeeb6a9e474878d0322aa 0xd88a42d947d6016c01032a2a5dfe8e74b6f51c20bbef65eba39b7548fdf3f0ea34b0195489e23ab5e7a28ebfd88ff5b6; P1 0x895f349c19b380efbfe2b3e870e74689842a618a00be2d8b589ea29c6558f156934b9422ed7f4d022efa1da6cf8cccb6e 0x23ef97620335511a4684ae9362306c0e67f2b476c214e099f58af2da04b969727602d7c1721959ce022aad0996c32c1e; P1 0x3c88ab89b8d81477aa900578ed909bd1388a54d92a86e4bf5fa91b73947e042849fa8633e7cba0979fe446ac10afecca 0xc15e0490c4e25541926b905626cc608cf60573639cfb3165f0a9cb13792ddfc65b0f2312fd236f8bb6f7b92ad05bd6fa; P1 0x6d8b2c0f3a7206167aba45b745bf2c92845d0eb8e58f2e9b12d8076bd25e000c384140d9f3ba2fd086ac0db905dcee517 0xf1e7a3a6ba8274227df539ed3b49fc1697fe23cdcd73d79bce74317e5cffc34f18f58e0458cfd1a0ef20ca42d8f1f6c7; P1 0xab7076ca8000f7234c448afdd539cd020f767ef093d0cc97aa26219f9c219625ab1006c6c866fb325d3b7dc3c94bc369b 0x1bd6cb255593913ac700f61a2249776c3bb814ba453bda5500e48999aa94f914a86b91d3b46bbd0594a9a28e1b88e6e7; P1 0x245424d9ac152e2506013b75da92b0e93a9f753dd65d5e491658014d5019684657e8bf2a1f1b125be2fa12d54073067f 0x1df32f4c422cfa910f2f8b5a6e359a1c1812171dc4ab621d0e92df613f8b9748cb4ff15e4d03fd6c034f3688bce1bbcb; P1 0x2a0bfcb93e0aee1517ba57a8d3d84aabc892b61b80bfb5da7de13b8164f154c42e3e68790351bfe61b353c752425972e 0x74cd9a07022609f928da336c79f274f7826155e40a4fa6c65edf8a00ebd0c9d3f0bd2dc89236e01e73a993ecbb47fada; P1 0x27f83a88cc62428d7e1f93fcb54884f01b71542fa1db1662501d7531704fd5d544d2631db465a84cfa2af7107c573c16d 0xabd1781849b7658699b06600643d2e5237b1ec5437f9cbf24b94626dc1a8fe30c724d964b52a95c298e0ef75d631d51d; P1 0x567d216051db9cdf926af32cc03408ad1705838c221695dba49d01a0208f6b3116b5fd16fbd78c82ccac9063f1c9fa4b9 0x86560beec91b2dc8ecac3f20b34d61bc6f5aa0b3635ecb7ac9e060abfa83f1092d3b618546d7dee4b76cf79b3ac6e425; P1 0x34dea50f7fa478a6fde99165c9b23e2a2389d5f5c0234756d556f6d16ab7612a412a2b4f41ded93df3aca78b9a6f47338 0x88a6146ba1c86f4a6a0535666b49a391d94e8f3ec2c797af8081e7350efbe86571179da76a6c0c76a182bdf74d9b9364; P1 0x36b4a914a2d4d38983c00ee1e524626965844e7fee84c53fc94fd76e73f04f151ee3ee778b3d404a94cefd8ff0d4ebdb4 0x6837f42321f279bada87b6fdffa75c9b6b0c4c1ccac258ba84c4c0176ed36f5df27921b1973e589ac2d57d72acbeb274; P1 0x1fd221f184a070f87b858a4881b7c701c6b0a1c29462703c4da28753513e8b7dddf4e7d54bcbc72a34dcf547d9c86289b 0x34e72c21ca008ae0e185540baa4bdfa17cce1c21a9e2ffb2e11523ca7d99070ff80055a4a3fe974555c569d1a3885f5b; P1 0x8330c02ccfccd78e88c57922e0e18fb92f1df86cf5bc0cc5a28feff9ae442d0839877548a8a81d4b26bd29f7e2c3549e 0xd21e9f7c3779736b3a73ee9f81c08bdb1e13c1932256e873435e18ddf0d8c3286718796c14b2a4550ce95549ed3b50ca; P1 0x8158b0fd2b9cd841380f3dc57aa0255fff1b07df17354f7af92c5010cea91c7bad2950b5e4f8a42f6a4db5dd876793651 0xfa137f0026598923a98229c93aec18521b15901ad0daa880995eac8a399fb6756e002dd9870f4bfcb29f4debb5bbaf01; P1 0xb73790264af24964a6a21adc343f6a3c1762ef430db08e3590635b01f03cbfbb3bb19e8527796f82f368757d6c1a0a266 0xbe59a83f7b3e514159547e64816ff43673fdc6f372d185d5bde10b19c6d1a29ff030360d21d1c23a7e28b03f5ec50a72; P1 0x6a26e7db7c3dae94e3042dc4a4956378469834529a7e04208379a1d1903058a8a59fa684dbf2b7ecd38078244bf4d6d67 0x725e55c3d8d73b012e61d75daa5294b393e5acb0927fea455f7abf5ed9e8e953b3cc82a70b676ea2d1584e274ddaae97; P1 0x26521d5c2442edd38730d69706cd9d075100ebf3045dbe8319765c6e3d42b382a3fe5e546b5200c4d969e0493f8d28157 0xf495602ca7d4b44533d83d1cb39d188b2004274fee7e90564d369155865892e8e83f52bf4a5197c183e9694cc3b5de23; P1 0xaf41d0deaa07c42d8f4cb89b67dfd84acf34312894ed89869290caba09b576bda0633e512066532e8f5e8b4e762899689 0x3bd3287bfff0f118b56500f03a841ae0964cda2062738781dc9d7ed855bad9ee8b9364085db496d36dcd331ca57a3ff5; P1 0xa7c421fb015f5c38b52a5543cd0a45745cf6a3c6bbcf427a96c1bc681bae3035e8db4b2ddf4e16ee6591a68b8190c945 0x7659ef70add677af7012fcca924de169878bd8c4592f2122eb3a578f76bc6e50ebfb9f9bd9bd877f8eddf2489b7ecef1; P1 0x2909463f2d6aa0bafa5c79569950ec28755d67335c3c5e6db8225025a0ba995a94f2fae97868f6a7807744cef5b4d4901 0x647722c10652e3c1b9a305369131e46c66c608d937eca37d133cb36bfa3ca102ddf352f3843b381389b12f90b9863b8d; P1 0x1d91f7f218d55ba9bb939aead91783223fccdcab1df6680efd62d59aeb6ed64647a919b3e1af7604074150979d6b663e6 0x8a07af24f2a17ae724a9c832aaf3e2558f94f8c2ddf615e8546fef8a9ab74d739caa84cd9cf0c97c190742861041efd2; P1 0x37d136cb29132ccae02e7f5c203212c510b03f0083d3b4539f84f2875588799775e5e8ab832e78a42f3f27a6fc8b61ef9 0x5bf8ade7a0f24a500d90c4469e984d3a7e2fec42faf9ea6a831a9cb9ca0eb9f3178fa98b9f1c2d8101a82d1db85b8229; P1 0x18c80de70e81398829b8f3c6f5fea6c79b078c468ea8216e8f0d26f33b576610b66bc2c7b7655bcd979498eef8454ff8f 0x64b2dae6df36943ff65873593ae5a274ad3fc4f083fb731801888b5573033dd30b851d132d41066151c774a14c40fe5b; P1 0x1db529fb21f74c1132f159244b20707e2b584191be813ccf2cf5b114a832c8dd6f85ad2c7261077a4877bca2aac9afca4 0x930fcb6cf8fa204de693d6e1a75ade56bd884777e726b649f15b99c16ae4beb4a659eb25b91bf1dd08457559074370d0; P1 0x3f5c5b7276c3d3beb74462de0a5aa02c8552d95dd6b7e2d091678d5a68b398ef55481bbf54c95729bfa9215171b1a9b75 0x225bec3dc586e2dff2d68fd70c827dcef52423cf5b13ead4417a5e5e8d1454c73ed0886dfd7fbf16fb8f585d8a2a8775; P1 0x37568d1a8cb27f0e7882716c1b06a4e3fadfeed57b5e231c98301a6206935bb8ac1d45def427b040068f1ec000601490 0x76d7ddac63b14359a38f606408275e804038f7f051bb3d9f2b6014aa9b7d91f546a572807f21567425dfdb8a69275e3c; P1 0x2960c8c8c28f7888f2fd11073d9a002b0cf9dbe8c47296a98169e78765583bca0b6828c7da9f3ba22c47c8052f381c524 0x43910f0ddc8eadb7b4295c0135a783fd1ff7684afc8b9c4b42a09950f7bba0102fabd2d478abf52cc1bd93b3bf232de4; P1 0xd5ff00e7c06dedddb74d628b0d38773a8572ffc66c5c25e6b808a9b839519ddfc8fdd2da59cdc2a1e1fe396369289b41 0x1].
