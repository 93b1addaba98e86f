(** * Root384: repeated squares of X modulo X^3 - 3 X + b over the field of P-384 (quotients and
    remainders),    and an inverse; checked in [Nist384].  Written by /verif/tools/gen_primes.py. *)
From Coq Require Import ZArith List.
From Verif Require Import CubicPoly.
Import ListNotations.
Open Scope Z_scope.

Definition root384_1 : list (poly3 * poly3) := [
  ((0x0, 0x0, 0x0), (0x0, 0x0, 0x1));
  ((0x0, 0x0, 0x0), (0x0, 0x4cced0581dc1181b6771fa941c07d2e6e7e26391017ebeedfcebf770afec78a439a9c67175d12e62d57a37132c13d510, 0x3));
  ((0x8a44b0b1b63b0e87e5737992b181f0e573546ce62102abb1aac278919c1bdc0f99f457a669bf0582d80d000aafa46c1e, 0x8, 0x170b72c84909d7c150e894431d95a8263de3677bb02b1c9d9c75bec2ef59fa0299a8b94666f52b95ceacd5571d461205), (0x6ac4b20c53e8c3212d613bf3442ea7404b989d07eb9f20edcbdde8ad7770613b16fd58e491c8d1eeec6886d599da321e, 0x19cff94b235d8ae3e9056d9ef4d33e5a74e0804b285e2319ace318e28df0b95a14e7edff6d0fe46c83e3cefda61778b8, 0x11cb73020dfc2085879034a88b5d1be00c996f8151efdad24ca4fc1ce93d6589d92a397b6da178527cbc1678eef9b320));
  ((0x1139f7799524bb645e9200471b487d16166cdefad51e90b2b397351061dab09d819ee7c5af626108e92677b83f66b876ebe13cc2b365e77c0a9259fdfd11125445c58046554c0dced7e6e5ce70a232f459ae17122103e6f942a533e9d72b2e2, 0x5f01610ca2c373de88d361b6cba1dbe91d1b1399dee8fa2e554271e724b3be3c1fb71919bed6c9aef3c65fbba12dfe38be112aae42850460c474ea83aa656f8861f3aead1768779dd343842e69bc4759a78fec0e1d30714f4ddf144aa48be3, 0x1528100dd4ee609fa3685911a65c5b4a8c885a3a91ff11d4004fc2af505572af68f9e9b70ba851ca573d3e43ecb3011b), (0x9b55ba9dd0fa4f2ab1358ab82d8dd0d4a8132f7a0a98f04eb52a219ad73bafdb628c99f0e356a5bd9945e8e7d6284e66, 0xe9f4b35df2ea80d22ad8a6100293efb777d4502e2c3abaeb333c3e89ab095164a7cbe8c9c25b47760131be0919fb7103, 0xaa5c4ae766ca88307fbb870fd7c824289d413c421c76fe88209eee0a0e5224f6c769afe4bc4df4d133b0f9b9aa6fccdb));
  ((0x5d6c8dfa005fb83ef9685743356b577f9f26facb6bc3fa217a41b379b574c1cbd00ca916ede913653b923092214ada751032318a8c5fe619b7f54fa1607155585f6905fef83c59165845ea72a256c37ad7b90357260980517f363bd0b615b716, 0x2203b422cb53ef9d674043726cceb4054819f568882518f9c6b07807f4a804cd57e5dc955bcb00634cd3b0fab4cd3909ba9edf353bc5e75aac745e8f4c0cc95e0560990456c8aa0356b9e26a64fecbca776d5735015dadcd93a8fc9938015873, 0x2f8a953094b899ac44a4570fad39353d57f41d3fbbf861f375d4a7a58caf4f82a13bd21ac4db4e73eed9137cf413a30ad), (0x80797b6139adfe211e8d5fdf218a27f2f025ed005af448a5f65a98d9e42215dddd4c1d277e2a426d0e82fcdbe75b83da, 0x667a274e162aecde078b0b2c9caa9d748da33b59b02940991975fb174fabab17350408870a134547bcc559faaf8be6cd, 0x7daca015b85dbf1e8b0973ac8e353ca8046ae8fbd87c6d7606a6b57c9e14210faabe90e71587bb2988ebcb1e30e3d345));
  ((0x1e300a3b2301ba9795ef9f1934bdb24e2acff3357464799152566032567604aa73f876ce3448ceb9ca5214a8b8a3bb284305d9eb8f55016ad806160385601b9ed1b449a495d62d36c2f6409b285090f213198f5ca6134a3be6843f8e2720e186, 0x1282b210f1c13b8856b5e16223fa4dd81db342f767f27bebb10b7a08b5b0ff99efac15a63810b7a281081323460e4b4e3822c4603f22fb47643f2bfbdd2d0375eb6f925ee2f5288a44400c356837612ac54044546eaea590041185e33d36d6bd, 0x1603f923a40517c742fbe7df90b966824a772aa3d748045535732f55257ccf242ee63876b8e9122fef924fd89e05d8655), (0xb1fd04b3b9589e5eec258890eea5778ba021fd3e7ad9527b6127c4583d06189c8e33184f723649b260d21ce94435694a, 0x50dfc887269029b9b84db235d7753f4da18b69522599dbe069906119807c30a26a4c99aa10db595b65a5834ef83219f7, 0xdf8000bf405be2bd3160e2282c1bd0d0d82efd31997b7feb7abb40da5007c7a5c2310b4642355913b8c6eecd708567cd));
  ((0x2a5e55ddd5bb0f380402742c0b78c81f7fe0dc97e806a78635977aa63926553dcd1cdf40ad82bc675e9d50868c628744be395f70aea6a37dcb74caf6ab4225513d6c64f4f632fa1e0523e0cc03ceedff4d2386f40e05a6af8cc1e6570eaf9cf1, 0x3a8b36250f34a3fe64be869ff4adab7d9277d3dda55e15afa490f36a3af7e121e525fdd05956b82a76e884dfa5b8cbacb2f138c060ad1ed5f68b1dc165c637892bf15a3457e04658e98a3d820fa9888eb061a8efbcdd08cc131371c22a8f8ca9, 0x399b6311d0672c46f64e878c6c94edad6d2323c013c81a7dbbbaafe539ab739305ad7b2aa60b413db412cb17052a51f7e), (0xc0b67a132de7d5828f8ae18648d459f4ad67b163512f4f40aa052e910d5e2488a55259e444215607ee8fe958d828adb5, 0x91a5b65f673eeeed7046798dca136a6ecd5dc296b9bfefdac4d31ecbaf711e316191fb6898680e2b132ef64fc34af3c7, 0xdf0182d0e09a59fd03f5c9934436a21203e85cfb198b50b4249e228b209391de5a36484dcd819e50f7f66130983546ce));
  ((0x4c221f60dfbdb1dc68340673cb99ad9c3d724bf5d9be7354b00320d35bde0d796d83a12483b6fa8ea6a1eb2e1aed92fc88ad52a39eee04bf5b1ae1167209f90f0c8b9051b00cafa95875b6cd78d6048631e41e04bfca1b8457650f1e10bef02c, 0x3a490497a203ca3cff58440643760d70f601419d8a8ddc0ddafce3d58684b5dbbe0300d2e1098eb95201479c7749b287064d1b204bdec896c57d4b15f5d855fc71b17b59da0d11bd7166361ca81ad40af22b52ba1290e8a2552a2d1cb2e92bb0, 0x3e96838a967fc69f1b7617a8c4fd561f61d16e216d8d6b3665cb1b4c423f117516641ef3e4a6e20bb9fa373b6ee716e89), (0xb4d5a7c3e09cf9e6f307e49d5a222f50bb16595d842a683857af489e4665445924226edf082cd24e114e718d162c2a65, 0xb68ab7b84889bd9187a9b9e4d15c183b8d94d8a82fd5ffc0f5374d9e66bde2de47da10734cbbbb4db8215a19feeb4222, 0xcb077baac30946c952f5dc76f739a0d83fd8b5a42f1bef5f6dc8d0990d2dd4f3c7251be55e196fbdf6065ac4fbad47d2));
  ((0x56df141645e84a603d157f7994b189ba7eb186495374e7b657311a53b8d5e231e3003143b0f991cb92c6cfdd9d5b19538f1540ac37d4f98f560bd14b94c0f8bca90449e592511a9464ded895a4976c8c65cfffb7ada0ac15a222681849229e4c, 0x304f86f8aa613f926a0ad2ca4646fdbc609ff35a2585946d1d8cfcc8a52a4a445c416d2117ef10cd26792d8e67b179c0df57b9d5ae295d69b9833fbee21fe344ffb6e2b26c7724619c635bdb901b2715b91950095c14b7ce8125c748eb5fd214, 0x3840d8de5704ca832350279a1ca9ca97028dcc0b2c49f4ac840a903f1bb4ae968bdf24496b36cd231cbde3350f53887b5), (0xdee0abc3b6931ab13517413a1485d4236ca80ca7306c5abdfc2740628115cd314fe87feed63cbaaa391c0a881bcb0ea5, 0xe53bbed9a819d1e0d51cf3d1205c90c167c69f78b5f9933053b16e9924f1790fc0759091ea1c17bf5c8567331a665480, 0x9d8fba7cfddfefd3e6118549fd3bc9a5f7a6b06f89c2ad3a35ad193405322ae29c03a297f58d37e48909e1fdf92420b9));
  ((0x54a939801abd0812125774f72042b4fe2e817891bdcfcb4e07d279113cebe075d17f7b138f49dc82903e906f3af3024f1f9af03181f7f5c430976c715a861cdb43e8456aaf3e20e4fc0f1b46d6c05abe7f9d4caa8a57fc9d92cea3b345b330c8, 0x1d1871ec44c00ec6e27dea73444d382e987e4323525758e6a240462e1914089dafacc6921ad5c150355f57f4f68ceead739a7d540b6aba5802933cb91e2465a28c42767bf54767e364823dfb23d17790cdb022098d0d6a8d5a0ba45af38afbb3, 0x3028a9a1689e32d5098e3c6caa57de504c72a47517e611e8ac8f5ee73c518589dc2b16dba5f704cb55e9569277e97efa7), (0xc4959bca2099740bbbce86ceb1234a58f7dfd6a2043cd8178d5d15d6c5f3a960f8ae86a9acd8b61d65735bc4eb0eb721, 0xda1cbdb5a5de55e2f6c843eef5d6df3bf82f1bae736bce8a097bbff418affd3c3cc2d38bbdcd71a2c6d9c81300cfebc3, 0x508fe5f12d06eaa53b0ba287728aff7200f091781245bda807624cd4053b74bada4b9626037b947af3e5ab3946aceb34));
  ((0x2930079b3acd6bc81629bbb40214ac170a0b080a8bc3dbb7a03fc99a4df2aa6eb45c0707784c7aec4df1a0dde3380ceed6ce7df15f22faab4ded07e272295e1ac68dbbc082d41324595a65a64be060baf79bd0f80cd7d11d7e683a2359f65515, 0x79b466f969cba8b263774d867749c6bad5e50634ac06ee4c94195603b90db2103b36091b8d994fdaf956ca82357cce98f74b6712bc844f08a947c740731fc173ff4163c15b0e726936a0cea41834ce872b1be04e4db622930e4bb386ac6966b, 0x1819e39c824e9222ae7a33a1f83ff3a905afdf7bcd18aed2649d2bdbac8afb4f45cbc896d8e1b4f8845a5114525ccea71), (0x983a359be66dee0e0bcb2943b5ee5d07a0eb26f8fa947b976c734348c9b64610e180376e505d1f56b80b4e7d29a2b2d6, 0x9e9771b0242eedc03c70528e3a0b8dea7ac341c52bacb807590bcee0b4c64c0b9f83a6f3d04d62a237946098c7a77d59, 0xdec029ff7e1a35f31012c2c7b65fd63f104429672531d3f1109f5c8ca284997173a1b64fb4f3b78047b4888fe8b90412));
  ((0x52cdff1bfc52911572e8e6894a4b38f32f5358f1e1dc3fd1e00eeeb59caca2914060af63ae006389c8c955ccf343e66627ab2d4f247f0c90045c02fa5968aaa63e4bcdc9aaa78514e0a90764f45efcb3545453ecb9dc212492e0fbfb7b568660, 0x3a26e10c79cce3136e911ba6c05cbb25868fb364658f5e909841444d21dedf44a289ee50cd35aa538257b4a0bba30c4913c3735dc9e2d011a2f65d394719cd23a72d4a590dfb160047a328153ddb24449acc498058087f8a1cee4ab5e6f63f83, 0x3b09e536c78106fae3c42e797f067abd2d47dbd61ea9116f7eb6a3f0e5b9f1a566399f9080c45392c4e9ae35477e75469), (0x51636e83af9ac551e57d3f566b50c6ac55c7570e0d85e0fe48550e1bc8f3812b94ef5e0ba6eedb497862e4e3e7852d84, 0xe03919510cc2f5c736ecac49fbe25ae8a0750b3bff73f4dbac048f0e320a139c379c37834de4671aed2f4791d871761b, 0xa3de502bff767c2acf5f0afbce35ddb5b0a39dabf511c4d0bea77ffc2efa998defa0831d40c17f56c308c5f06d66e73e));
  ((0x56201a32a41e610a82cd68eec4e84ee5aee2ef242a75ce6f9b8d5c0396e50a653d7d7373934e46f1afe3c96434a6ea8b3a4ecc2c1cdd276638784ce09cca7380048033e839075f5b586c738a39f88c659714a1f230fc582d5dd7663e3fe6d04d, 0x1f78ae9607b9dc61f188da303df3d340228702663f1c06f4544f9169b62236d3461091da8ac73afe6f4cc3587dd5e398b6bd08170451ec641fa2a71f42af86bdf8920daf536dd3a52c0891cfa4d741a8fb64674ad51110cc8695e31880378ee0, 0x2674484a9220cbe16733175b250456b34d017d558e9d0d32afddc259cc5d9afc1d467ba603937bb8b28839fe85a142b12), (0x110d4cad0218de183e148c60d4759f5cd56c3acf5ed4c250af9e4f1e94702a9a70f64b9faf99bdc956d190c9bb6d119d, 0x8b1b63bce976241d51950568814c1f3e5b8e12a7e93f199b833bb61dfda0f1ae6a04739819ccc45edc9a7a7ebbb42a34, 0x3e4f9710c9d471c786ac288bade0dbc302261f806b5b9dc78f0772ddecbd44933dd7ce36e26c98d20b8bd33435182ee7));
  ((0x145142fd6ae41932f90fec9c76bbb89c38e18823275014e6dd89b987de80c85311182547ae25048c6b4f3add1b1cf65f9331450b6867eb558207014e5e69d1f3b1a7b515cd5641fac1b43f94733321747de365eb69c802080e636c379fb264e0, 0x48ce9eb1082c11cb4ff548d960d1c134fb064c71fe648bf52c36dbf57bd71a191f7b95dc2ecb88c42a666b86af8d6993812841a574c695912016561df6402c98148ffa43e829c78565e6d1fd30fd368e6193e7fe40957d2a111940c1d80571a, 0x8163be7688d43d01fa432d01b078e02eea64f87cd52eab2e3ace211cffda3b504bcf60add666301b42e52dd02eaff310), (0x44658f03b6b176d0787cfa6961c25b3a2579825b76a9c7a53a75099a0b7e3ab3385f311bb1d942f6f0475433a5d0f4a9, 0x3188b388194b7825e8dc8a5e52b764535ccea5365ebb969d08ba2de06f8ab35cd858ab7b5dbdaa65d7c99c05b12ddc7a, 0x2205f7217a1e166bbdfb3362eec6b710a5bfa85a405c0733465475dc5cd83ef38ac7536f707f802447bb1fab516c049));
  ((0x3f34a1d46fc0264d215ad9dfe7a883e35d9bb5c7a1117d8ee2e61285b99ab24746ef0c1a8d92cc089bd78fa35f1bed6b4a972324f40ae86c1180aa9f9c09da0a9bbadaed0812509bda7bf701b582e188c05b55eff7b1d826a170154d99d310, 0x15b4fa423c734ec21197614eb8b4937ca6f4f87a6ef8559d7732ed2ce9bce000b4e35ac8a67e3ad550b20258317ceef3718bd578d66466d8d11b0c8eb063846f6b1f64ded60863e0f714bd2f20f081588f415e52c2edad32b6fc1a6d24e7f, 0xac6111ad8a1a40d6b5ee10e8a205c798aaade5ded4c85084f4d2ead237b5baf9f9f173ce9ed0a2c805e2e14814cbd38), (0x502fc3888d627f0871f2393fc7c8d9acb402713cafd2fe7438fab3f6990ae3c8a71c3828e3de00ad6363680ecf3067e1, 0x6ed10327443d359703928c772c06f3ff5f35b02432fd61eeaebf5519b8f1e1e678d249419f8780f522eb423c5b5a625f, 0x8dce63e08c9e77cda11d2280579d153b31dd314cb121555b9638e5aff724066fb1e9a1fe762cda3244ab405e02346e31));
  ((0x24d5a488e20dd7103c30d416f782c2fa43c2778a96bbbba1342c0a9385436981c6bb04b68587dd3e84a929f654747ce17d7966faf62f17f0bd7d91e1afd00fe7e190e9e580315d3becb653d01eb67cbdd59411027e826ea764ceffaded5a7eab, 0x179151837a35ae613c2dd6f8feb622d41871c9db18314e573a43e8596224db2627af844e30ac0739f1de2784e873f086ba769523e441df70e353abb8de6264e286392d004732f36226a4928fb810b18d54ef5daaa95c9da0aba12a11cbffc260, 0x17475336f5af84472aec753809f206242c27934f71d6907a63793b28a015fb6fc77caa1d959a71b06d8ff2651c53501ea), (0x36b6e7ccc128f0e7e1721105261145258903f2a94d904562867e56e26d59f1e70589793540aa17c8571287a50f1a4e4c, 0x78926f730949f55ef058bc26ea17f748226b3d691214d4967ff096d6ba6349b9dac75b10b34a4c5b4e7c6b3c7d8a0f88, 0x71a0a63e84ff2ce6204e03bf0e8a2ae06f2f3343c67ec95a7fe8119237f066fe187e43b5e3dec20055efbe5c67057170));
  ((0x201d05c20d678532a250377842f9ec8d6d8798a3fd295aeef693502169c187fadb8d75be268939197178d852654fcf42be4a5095ab570ca99642e5c3e4a907addb9ba02346c37e3cae2e840b905907591c753f14ce4e776d63d0045c65630a81, 0xf21c30a35cb6ca7a0c942eb5ca9de0483babd54e9b587816d0bb87e543b48c1d685afb8514c5ce466ef2da024b581b19f4d68cbfbed068028844a09f5fa9848caf9dc6a8a1afdae6ebe6a12f43d9a21f176a7185f063fff7101b18bc4f65eef, 0x100a9674ddb85f95bc0de1619faa0a16a317cc326a74464260d3b9d234f7f89fbdf042bc7495ec30d5b1ba153081c24fe), (0x6479d81bd6bbf19142c53302be6bc5a48c82b822b4f4964b54dc608f9e9225b39349f84164d4750622a4a01328f2e111, 0xcdba6907708d8980dfe4aef4dbb6d6bc20d183a1b1eb54ffb7946195868f3782d39428698ef0ff7ebc165823a8e77caf, 0xaf53a8d8ad0c2d174cac3ee8625510fc7a1ebfcf6d0bd08c116b4bb09f02865561a8da057566ae5f643f4fd080b52abe));
  ((0x548c033e888a1ea94738ede4e74794afa5ccc494ff6f5ce017ca4da14e8e5bf56ba2f94e43bf458d99426ff4551e073536db63305d85a0fc69b0f0f0324d3f44bd56391cf167ca1fe5eda9ce9be5ff2ec25d937ef9bfbb8843edf9ae1ceaf5d4, 0x2406ca451782c28163675517dff18f1ce59040bcf0d0d9a5aac094345328a20fa1cd3050615a733db7a75ff6e8f0af176e31e944f06d88b075d9d7d07efe2647b1309c1566c6ce02cfef98d065a8686b5ba877d7a7006f368d144579975425c4, 0x2972ec982603ee0799a5e87b533ccd6125abdcaa249c6e6ae9c05999b6098ef8ae4dc29fc6615ce81cd540587a0a3e99b), (0x7719edeca3ace797d5e974d6c10d621010d2a037326986dda42e1f5f84292f4169b9d1456353cb275abb930bb88fe935, 0x5b84f0d167f3fcc293059f0ed8f65c459165c6642c852c62a370bac8b7c7b89800924465212ec0c3d7a6bf1b9ed6768e, 0x1d9a8f7d77ce2fc7cf1b4aeaa466c9e199e104c2454e2f02d6c6fa5e4377ae06e7b412991a5bc37aef1d3bdcb5064184));
  ((0x659c15b1954d8e23b890a1e1e49515a160ec4ecc14e2c2366de81dfbce9b235faea9e781c47e0f372b1e42147e20407e166ec84b40109a5d20ddec3cc35179d7db73feff7bf5cb39bc71825d91f89c8f56cc557a998b7f2cf099fc90015cb37, 0x106f10ab5e2c38002fc0ebe91f047d7a6a43482fde9483d0f00dc82b628aac42f06e8d43d7b4cd7e9946a386aacae723c42ebfbca6c42844959f89c490e69640918a9ccd635777b1f8001b975c523c51c7233ff18986da5a13fdf1864ecdf3c, 0x46889e55d05b8a09b82d76b4bd4310504b1444b2a187618ff8e833ab1a3cbc3903368e00bb6a63c020c64a2cee503341), (0xac007dbfa4cc0e60aa32f6943aa2b99674875a45b94b8b58bb63d079fbe7634a3e56b20e34a7df175365170d1d066730, 0xf9ba179e4d05017880045fb4f60844085cc36b03f821b24cf879451dc8265226c6824f42993c82aec1fc525aa7fd9e58, 0xe44e3def00cc2318595198c3ccaeb6bac7615d191f46125d1f9fac03de3565939443f2994ba9f22b80654d504ccdb6dd));
  ((0x85a3f11a1f87132e67d2dfa389fc7e2330b31424c3c90244c5bf8cd59f915a964110edabac7ec31f44f0640c3f9db61288e4961098923ad7dfa77287639293f7a80a2d7832b3a71b5bcf8372b4da86b3f6dedd64d3a631de23c0bb798284150c, 0x3d16a3e734dc9553c9e614c2c0afe30f7e6bc787305b3b4b2de1733fadbef8ee7300b847fd339c69efce9c93ff5dfb769de37322b54e171fa1692e819793dd2e6ab48ecaad1bd0b8f8efe6dd52d9370c23c7a10a0008d1474c67ae89a1e56d78, 0x48937ef6e3c6b73675d18a8505e9b74c655730aaa829650104e1aabb62de716628bec52b46fa3273a46851b96dc40956d), (0x5eb71dbfcbbaf9d0fca455fc77f542137c59d8cd09a1c9f32592a2f64beded445f109647f2f9c76f0b0c2f52527aad0c, 0x40ab5eded43c3d13d6789f8394920a3ac76ed925b6cb01bf2e9574a49b244ae6650d7dc8c547fdc35ac7f087eb1913d8, 0x9f999f94cebf6d2a2ab21ca035eac4decbab1b9a4b84bfa78cd085291fc27103f3a18880d195e5f61b054756cc7aace8));
  ((0x1831619470c0775dcc5f27a01ea8e83fc3bc0928fa827fbd014531c0f2e8d1d01f5912885706677033daac2c466f369c1e88e73851671d40b43238f53c93e4eecdeef9a7da40fe6b6d10deac9d760a2de8d53b34ee8434c38cdfccc939dcb99e, 0x1dda70811febda7b9ee6fa4da384c371b791ae4ccf462cc34c60532c136b9ec2718694e5730c04534757808b7cbe3c1808cd799ceaf79f36da984ae07fd3943a8012f9e0b98851e1905b976ddc25bbfe19cde1a40a6683c3abdd34e45c31b6ba, 0x1b0efd753a1762095d64c2d2712ffd42b3cb7fbc8361c26b69d4fb481e8af3a4dd1b1b161276d393a105758e3838df1ee), (0x56027e38e443305b474a84af51ef4ab795dee17b4326835133076b2425015dbde7a5b1ed4ea5c502e1fc371890d6ea2e, 0x443afd3833ebd061139507e69b898fa49ea99976b421903cf2103a42c7838c8e4f293266ef963730e669bed2fe308d7a, 0xe0ca00349e029d6da2aef5ab3f38a688fffce8e5258151725712eda67c909c17b0220afb523005d8d4c9a12c615334ae));
  ((0x23f36a351986f3088e730d860a3885bbd3b7a7d53d713b730059243480376bdbda13c37d0ce62c2079e59df0331643da8cfd90cac6e7641c962093d1d580e3563f03f2afd5cf0d14e62a6400d8961ad7d312d2120f9bd7b4c0263a1bbfc3b8e3, 0x3b3897065609b8090d9461fdd8170c8108836e75dd0af23395007deee9ac49a503f26898a7e8b72f53b0713c12d4bfa4f44ade93483da8c0ff45da74ba8f4cb9a4cc31a9aa4e7c9bc99510058f5395857b533bd412a5aad790150516c69bf0d6, 0x2f961dc54e69ccb3d2fe43c2bdd6b074d4df3840fa3311ab24fe7827fe07bd46997701c32f7528417627c451cf6a20c74), (0x8e84142bf5ca62d31b528f6787b729d7032370e7d8d7af5d87a03bc6187d18752ea82cab553213bc7d4d0e29bc32aea7, 0x9b898124ffe7f2acbc29a14e720b1db418357a8d47ffa5960bd10dc3a6b719fae71651ddfcf99e15409017eef1006e76, 0x54814739759c80be4148a013bcba3fbe48cc195451e542d5bc7faa72b0fe35d442b77d591921c58952df35f882b023ec));
  ((0x1ecf018df31bcfe3b215f4a6e0b1c8170b3efe69c4a43372edc65bc47699fac42ca307574d0ede7c2b39c0d5706a75d3b63b1701536f18018319778f790bf1aefbba9ed2c464688d275b527668a301113ed4d28a1199e8165af99da19efd0fc1, 0x85e8c2f05d11cd9a62c178f9200873d1e19ca6083645cce234ba58d21f6f490f716662aaa2a0bb3e08eef2bf689597502158f4dd36a60c10a4f7e62e40b920e81e0a445194b67feaa7f1b260f5d8d9ec90490ab850993c9123c9885a33456c6, 0x11045b1f865ea6de72a4d7c98662ee7570fbc10e5135cce2de3c33594e3a356559e5381f5ab1995f75b25c6c71f0f3bc6), (0x5df66f98f780aef73e6ed2c3cbb579abd8e701889ad56963ca58be6685d50b95f71db2582b5e3b2de23f7ccd3db829b2, 0xcc2fa25e50af228704efc8bb3268df2678ae649bd89cc589c83891b126b08385dd5391c99948aa39dcbe3a96b478e6a, 0xc0eab8ba581464325b2288d2014e79b23f91070e1f8eba6f7c22c6914340d53e129b8c30484853e9ee5a4e35622bacc2));
  ((0x5c54fc23450da664615d0fad5bc79256b890ed6ed0f7977d0850b652cf464050afd67e7b542e7ec22580590a1f58b4841b54a89f846466d6e0dce0e1fc5ba4bfca2eee2f24ad452dfc9ddbb5236a00b35d95cccff9a3656265281cd0f8c2063, 0x2b9e38760532ec55a60a29c495b149dd929d5eaaff938edb21543f09a02fe64c53fc3ff8db311dc6824597255d556e03471f03825fd798b5a81e17f5f4a44df43a5f1db457bd01b49ad69f5d9e7f9cd5911654acf2e0b81f0ead8bdab6e807da, 0x2426396615fa62a48099d43cf9da837a5ee4b14e165c24a4083cf9381fb69004ba1fb3671db435963b40d5ee3e06f9e51), (0x24b000385627cb2dde82c68bb86c9c7c36832f7f7e6624ac1f3b9bdb48f66985c53e803814289b85043e2d9fd806f2a7, 0x6945b4471c684cf017c1b56f2292c9605befc8b25e5fa6ac96ed28be2251b18870451f63aea7395dcb2bb9da1ed5657a, 0x93ad53795d5a87df2fee2affa3160b7f42210e4fa7220438cc6f0aac552a3b26f109023661ca802a90e6bb3728ab8d09));
  ((0x2470bc5cc4366b0e378dd0afe5807dace25765fea3e54cfe92c226a53616ad7faf8a494956dd39dc0ade62f995b2722f4e6312c5e61703fa9cdb04b486847cb680b686d178416fa5472367424c406e9b4bd9be53cae2df7b8b418c7b58e2e469, 0x198f3952befcfb1da514c0854a75ad46c6a6be2e3a8de26c79925719b13d6e9187226cb3450f77a7c911b98eb0caa19ef9450035e9ef0d3884638fed9e4f8de8373bc680b3d6a4ff5b94b10411689efb7cc20aeb97543b1abfbb8865cbf82ac9, 0x1552f9890d655d98b3517041441b781905c31003772937e5171f34553e2e4283b6295b78a4f58145b015f06062e94d400), (0x589591ea89f2d86b632985c079080651585e5ab9c1aca69e28ba0b1758b48235b0abfd52d3dd0eb3f35a671911049a9a, 0xe04a22853fb0a4b43a12d1ebeb0a586ebde2b769a334f5706daa82403003a23985c9dd487a20316beec5482d8bccd5c1, 0xabd8dfd2a30beca7266b3bb62d86e7eda80ecb6037e04350bdedc04938bb4965a348ddc1f7b41f6dee01c83f95e016d5));
  ((0x5a587ca2e8ec9102900396e62d389d55c2c0b46f4aa96dda5246533d16e2aa01eeb1870d6f572eac1117ae169ec22e47a453e02d1d00f55d8df34d8029ffe7b667c170b3bcb8fd9413d4f58e5f74d835f0c2658d26d44af33d4a85b64499c62d, 0x229c5788b472d3d8652a74a958b4f54b7bd289d13fa4cac914dc363e718bed4983dee488936bd6c60eb5ff9ae2578baf442fb25478a80d3350572335e1ebb780ab7e1ec9de08c91596da748c6dbb25f6180fac4b0a825f45e833dced7d6d0b11, 0x295821256aa8ab40f81faa57dd59e53b91e17dc387f43de81b918538a6ba9ad9d86fda9b25a188f2533387a9c9ac3199f), (0xf76da705da14d6658f21341dda744ba5c045080b82fa9cbedeb17b7a5617d6a3e2eca629ad538f98742a7a6eda214f71, 0xd5592a6a10c08214f016cb39784eb51d3d0feb3fdec8be08773adfd83ddd1c465a2de1efc49c534ba25c73e0bc2d4953, 0x779e7f2b05f8489c239429bcbc19dc8f17844d76a660a3561b13afc6bd8e2d8f4b86ced55d95370dbd16e80736ed790f));
  ((0x3bd1e427ef728ebd01daa47fd73525016b1e72d612fced5e780efdd1b4bf6dd0cd06b7de387fb131ae2f03cf4054171df8cb8b3dd968cbcd75ad498cc3dc0dc5eae06f2ff862df9be9a9145e437a09a41c2561ad69fe954d7d4edfad2d3a1072, 0x10c50f77bc23c47eddb541300ea37f71200c09079535da9a40a6e42ba3cfe1bd4067b9100803bba17330a3a13555bf3a4997f34032a1d49c273291b0fcb3097b84179a91b3c89cab504f2629e40c2c78eb0d6d7fc2305f14aed76761b26a22df, 0x240b607283e3367e115dad9aa4d8d5abb52f9c68eefff4840bb9e6f859c0560c509a520271ee85fb7c4ffda22d08c1425), (0x70e33afc88d96db9818acddf6c7af0c19af0e5678e1ca240a33d9a2efc6fcf285fe66e215c440c46a7261b49930d9df3, 0x4046f459236fbfae761a1278b10bcd512f3e64d6d1cd0605adaf07c1c507448edcbad5654237bfa6b341af849cfa6463, 0xb0972075d2319059730ffdf8e6245d8bb4e27e76cc74189a27f5f97c6ac59b812107ee4f5542205f8d15fe0b7e0432ef));
  ((0x1a9b222d83c2b7bc47a5a87bca7f6f5a6b877f25c08b935eceafb7293c641b206fec400a98357a15da883e37efc6a810d5a7d0e5211c7802a3c14efdc965de3697ce3310fd5ed6fc7285805deb4d6c4bfe4defb58f170a8381d8d4327955a3a5, 0x248c33de051df259d9377e5baeb4c8e088f6bb64178bc126ec3a5849e24be72845c1708bb8aa701ee088687aa4fc36da130df13d9415ba0765c49fc4955c49cd8f91f64bca3608b4d9ab2a9c1e55b240a4f6550980b6d098288e72607a650701, 0x21951b92e95f89a3289be336088583ec600d6e21e70c00067e2a2c4e0c3f3f9b3b10a1077957557690e2475bce4726552), (0x35bd52cd8c8f30e4988cc6a428e5584b42b7ba22b081f62dfef02b752979597da0b9b9f9531e1a837f015ba8d708c7ee, 0xd654041dffa9fc536580d41918e4590e8591c8332b25bd5b168517f5fa0b988cac99ec5024cb26987d762f21c2ba8691, 0xcfd85e2782a6f2b6dfa752c506002a151f1ef1904329732b8d5c99a394834742bee0d2094038ed29cb0cdb9c7eb26cb8));
  ((0x686afcb197b7f291c69bfbff08e91a07c415c6abf10b75fe41fec393c1ee3cef3b5367fcd4388acf097a5d2edfa570ac62dfe6550f377108ee9e5039e23c0133ddfcc233fb9e788adb6510f76525e66533ce3f49382a70421016aae7e293d1f5, 0x32a136c63285cffc97b12d4dabd61618fc1e20fad304507f7b059e85901986a48b2ec55bd5d13f8f330ac026728e87ae506265d6e03bf17b266ab32ad16fbe7c16b4a63fcda7c24499f93aa5dcb1ef6a8c67a8b5f19a110bddbff0014b8d4f25, 0x304f272c95e7cbdda435a974c6f6bf458e7cabecee25c353cd4205e7a0bda34fcf4e2ff7f62b509d12478bb6460cec0b8), (0x7e60254a0202b22620defc41986610773a83f8669e99bfc96ca732ee07d5149d9cdd1aa5d3cdb5065136a09cf8a96a39, 0x75f1fb4fa2a94e4f77be76b1d5811f3419d147861907778a05b198c51d03072628b1e6cda9e815d4e01454d81059d011, 0x1e69b3000304c4719bf017b84348f47d0be6fbd042b3a07e724973c849485514f964c85dc73179f2c0e380444aa61b9));
  ((0x86874234fb213760f4731b139fae840b31628b71c97aa7b1922c26a57571df0afdc1671da3ef7334a7a7907cb120298ab09077f045407047059303ce32defcd8d33ac5420337ba66c45bd6dccbf87c41cd220e3599d2333de70c7f600c6db4, 0x11582f464247ea5b042f79f4cebd81564f0d3dc6dbddfb841e95a7d6ff61eafb768ff69d256f42e337ab72ca724081c5d4aad47b3fd0041d99140233a6ea2d3d7bc3513e12da8e41f13c3cbdaf456d604f274ef9c52e47297b3da11530be2, 0x3842598c1cb4d3b617f46ecac1d5392d51d88d6351e164129c4fb822fa7676fedd7cd5549e481092495dd3fd7c70cb3f), (0xa41285eef918e9b82b92df7dd52a1d15c5eb1d360e65be55bb30cd9a4debf4b4ec48bb2591293b1908bb9f6cc8ccd185, 0x2101d49e5be927c52453d4064a6fde59b716946f7e20e0b6e83535eb1a54f6b87f495c8a3eecd757e755e547c55573a, 0x4bbc1712efdfa9ceb94a65955fd6d24ceb46b60f2552bee54c7a9732e88e5158eea5f65aa1bc3a814e2b1ac2b9724bd5));
  ((0x5dc06b20d61e2761a7030aee48cff548ef38c31cc2a0da030a3abc6daf40fbb8c3fe4a13117db9620331f5a57d666846cfcac9426208d25267a9efc739882218ff6821727c52cfa4d072592a5f4e05367e92dbc9112a169fd25f0955d94a52, 0x6b8e6a29ad3c32b6d6e91ee99f382bf12235f50204fc5ec4197363a6def5fdbaace9f80162b2493627dabb4f0d4bddcd49aad3e2e2b045b91122468a97dccb13717c96869ca03265590db2d243511c10ae4e2e9da24e6b804f3145225aec1c5, 0xa44f73e0269a5cebeec7ba29f74dd550a4431784084e3faad03b700dbcddef838f6bfdac2831a7d90910debe9b98d5c0), (0xcbf7876ec5fe6f5c435f0ee8138c951618ce78dfc2d8eec264c878d6349b0979a4003896f39088ef67db9c4e5941b5ab, 0xb13119115be472f1b8a2512aedd379d2ac81af030b9274568799591bb82ca1ef255d02ba093757a76f455019cf4ae025, 0x84103384c583bb3a25c785c4aa05fe482275bc8c7c9ae1a64cb45a7070de14389c98bba9dc67a6d30ce8e5e1406161e1));
  ((0x36d9c18e609bef9b8ebe953c847019f858d4d6af7660dceef6c1293a261b17836737d54a484b0afe2a87c88099dd527872634d85c35d8f7535aaf76c7f6a070c34918ceb5d46a251c47cf806e09269cbad7fa4b39c43f21def7c3e05aae1bda9, 0x1470bfd84d57d09260485918afd8e65e21eacee20ffa3e49a62a14989a35b9518fca5acb03ad2d1f60d91edd9a1311dd151e3da0ad8b01df76832e8c24af52acc738dd6afe060a3a44fcdb2f8658bbb66ac7f7b3d07424d2066694b0621ff644, 0x21978253e2c1d68b69ee6fd48723373d754813b7b89834ad71dcafa1d7c6aa3f50a607571d9f3a413c12b23c9cba6bbe2), (0x7b81dcd068778bfb504a693aae17208d045bb1f4366138b6e7fb00875b20508f11130c7dd9ca4a15dd50b8ec71d10082, 0x91556e22a893df9a1c3565285094708f4d0636f169295909e42dd03854ab90ee74190ed7f775aa087c1a4041105cebe0, 0xa561d06ff40c7d605e70c13f2224f8ac6e3e064a7b666f899cdd561730fc8743c4d23a8027f6d2dd0bdba8914dd94514))].

Definition root384_2 : list (poly3 * poly3) := [
  ((0x3856d52b1df468b77a0f2866ef459bdbd4ba6b2934334550a80d8084c70d4a9c8d6efea16c692da229888863426a9aa71337bd22699273cbb1dd5f200dbfbd60b2134b477ecf1a63728b695b99f69a936b7a30597f7e14b5e08c475d2885219e, 0x200e35fab70607e0035438be3916be7868754e8edd6c2a81a43307a3e5245190cc7eff8db9bb2cbed528308b85c518719962bcbbcd94e06b4653b7a3b33167e1cd07cc1d6ded57206a45c983145fdd3dbf930e63784c6d1e474cd043e6027c99, 0x2329b5fa26c51c28744a524c933222f2bbd9d6f49c2dbd9fec457d3e012f990af0ab3f4ee2196fade07716cacfc631efe), (0x31dec6d61a75268416a747485a3081382c94e609e6864cad3716a0a18633163852368bf185290db9ec7b0a25407a13a2, 0x1dd51402bad5ec9d876ec572d42ae8c6f99499cfd98a685a2b01f023ddd08b9faf72ed731b9c50d40a0dd30aab864619, 0x976214cc972e2e57d1c15b86ff0400becc6045fa7008ee7686242c43719d7fabe0bee347e08076f9ea3cd6ab85ada7fe));
  ((0xa95f1ee26f7ad601df083f44222b410abbc47dbf2365cfe2e7ee032f777c19ca14c48cdf42b41890f241dd3f0f5d0d97141536e7c691716213d8f315889ba3291517dd7e98351ddfd0713c94a67913a6c3e37841f4065980fcbf307f334139b, 0x1adbc282f66e21c47a2b4eff10b2350786295853eb201d3d00daedbc0d5b4a66b62c9e95bb603b71ba19ea4ccee055edc42f7dcc0e330df17caebfe31384e44292a2aa005de26a402a5f59b4808c3f3f9d65ee4d600a2e6ef4f1360a07c1640a, 0x14b038b761a9de7732b3d498d2eb079a815f75a57399b6505f6ced3c02149e1999d47480383ab1ad37fb2842845f10f6e), (0xb08af426ca13e184359cc4384378823cbd7d4b3f997baa47599af634ec7aa1f576779b78941e67558ef955d5491cbdf, 0x61966155f838f8c792bbfb31a8676773f37621093b346b92c9555a7330a5347123e3a3ceb1a042f090d7f247c2c84cc2, 0xb6f030afe73d6848e9eb246c00f5b1db8ef64ae2b32f97ba71390b596ec432849f3a938a5e29bb9f23038ba86cbb2f63));
  ((0x29d894852db9b914a66a8338991dee14b7fc49acf08c5590b5cf2117e1187b5aaefa70421188720e1ec82234378115c857898f34de6c04f062e7f11a90caaf09cd0e4e02193759e29dee0238a879edc91db8352c9c626fcae623ea7beaef2560, 0x2738f2d75c14b9127e04d372ff7d68f4b1e71c80686f69f0d85dc7bc8820a4488f8d1a31c6fe8682be820de9691d403a9163a8c528987adaf6ec8d3a72f47a859acc9bb34b7ee812193cd574d8c285114869804b97f23eb32fb93a6a20a2c24f, 0x1bd278f872602badbfa02d9fdec2a9498fc18bebf49d6301757b12e9ffc331296eee928e102145096e497166e383c7dbd), (0x5993d09b2ebf6b5bf3e6ef40dd7e13c4a4169397707809363d513faf14e241fc6fedda1e60db02b123d3055ebd622e61, 0x8964d507acd3dfd8682053804a296bccfa28eeaff5278da6ecf8d321460edc7e8157811b9998b00e9c2b0762604bb7ff, 0x546d6028f508e06a05d2f5c48b5104b0e4fa128a963b2afedea34f14da68bc76d3102a4f9c7bcea7fd64c6a99a005216));
  ((0x1b3095c4251088abbd7c0d673035dac13252d01008a6ceb8029e2fca2a03c2fa0032bb3a39e2ac21d7cbc724178a423c52b402d15330aa82e3c27d6f6b5c6dd6312084a0ce4f56d454ec1d9ba174c4a0a9f2af74ab8a9ecb1b569ee7e7ccd177, 0x85a9b6c602839dcf3ecafd5e91088914ff90bcc52fc15feb357a7d9dac8bd4518155f38b0bfdd15bc162f593e153773437499ed18952d3370c1dbd10791d56a6e6419c39e535c1a27860f9f7836b3689d698e07191e2d2c0af8015377abb32c, 0xd85a814c0e9b670157e39e7a9e137dd22d261b9488544f72cf0c462f571b4a25111ac6ae41bd630b87e67908d5666157), (0xfd4d59ad17045e128ca9d5e0ca6a984ca2c566154f7d3d03b6e8a4572cd316925f8e8c661fee8aae151ad2956eaf378, 0xe8c986d92863c199a074d1169317c7a8038b3ff07007a3a65c9837344bcac1b62f428c98c2d1bb8155a0af4b2daa0c26, 0x67ca3463dc490c1bbca292793d41e8b96cdf00208f414afb3cb4470e8e21b54b44a7e498ae69a6d4e8d33238469b5bb0));
  ((0x38a20e79b74875b6eba3a459fa4ef4f032b5d618524b7591a0499c541d03ab3da8ba151be9f4fe1ce59a1153ccc6a1314b24e9311d5f06e9c5d4d90cf6becca14618f3fd62e366732b93a45e743c98996ec01254dc7dbae990354a159f71ab41, 0xca0081a54f83e89a1b577d486a927b527d88a2eaba88b33c4cff75dc2b3c4442544839781e2f981432e2f3726440ed15f9cae63d5e074325c5c40a1bed14c9cd72a3725c7e323ed9bd865960fb5d0d35bb8001c28d127d572e63adb13b7ee8a, 0x15ec12aea597584b069bc037285c0cde0c65e5f9272968e72aa7fe46c23aed441c26eb745cd79d0119047794d1f009f74), (0xfe5e38ff6fb610c15912718c5f8b4478394ee5c148100ee909c71710eeb659b98b7586381af48c9c406bea1b4ee77781, 0xd442cc2291638a63b8a3eef8a958a8452180858977a2b2321d307b5f57ccde51b95bbf3075147bf0ea11dba000c92eea, 0x7db55525329dcb9ecda8e7f163a06fe85135673dd79c969c1fe9c71e6af51f94c158e7f346b3238758085866d5661518));
  ((0x3e8b6b8208426f4f24b97daa28a5d56095d560ec2f4432061d7b968e4e1720e434b71df01565b8624d316e7d3d08c7c0ca3115bdd0355a11133835881c9342f9b521987cbad9e826f670f7ec58035bbd8d058907c1a4d1eb5e1a11a02089b4c9, 0x128542ca4cac82b282752c17d0af5e8b38720d50d31218dc18b8419d9d197da2a40a17c3c945431fa3bb868c4b382c7ef6a59a84502d0847b2dc7f6d2afba78216bd1f824fa4e380a243e62e876700e1c0642bd9ca20dcf529c36b6d64571c5b, 0x262fed269326b6038ebfdfaa8ea165cb25e981ec8b5d8be2bb38f9484cda9cb480ac7b7b70fb7e6ce033a1af8b537906c), (0x286f836dc9281d2ad4ac66a628e9cc015fe7665da578f043f5defc077c956dbe7ec3256e1e92e0d22079d28c91c941ca, 0x675bdea5bc0d8a7936550f7645afe7d7061cb880536698ae0532ec1fbfb7db2ea9041b2434073a4becb97d3422c9e3cf, 0xf842bca3aeca912fba6a5eadf624290921b00c199cabb3b292c4f552f128715328e1eea8ab2cd72cb2eb862055a8e740));
  ((0x3c258b08c7c8e784afb3be72ae438670b03387816bbdf45622762a840af05059f72175879c9a942c34608f22d5fac5bce74e84542a5b8ac8aa448f1ec85e8bedfaaf7355e3bb65a3350d7a9575b5c443ba315fccf8c988ecc9f90710d842e2aa, 0x483be7b5b607df19dae3529d0ac176e97a36f29d695cd7d2070390cb6df5a605dc7c293d110daf0fba806590805987b20981c3d384df1203c9cb28fd96e35468346e9030d6734aa28f4ee4a47168971e15eb5f207cfbf587f8d53d9db9e4f19e, 0x34a6c4e86379458d94c23401a3c1f3e2a63938f2d31c8c0734f11bef3768898732efc5e63daade83bb460b1004cc708e5), (0xed829ced634fa29a9cb350a78f33eda04bbd0bf124bb2189a75806b42bb739b67fd2603e20dc08fa6dc51da7470e2e0e, 0x369d4f640a9c78f2b14c3f8ea8057b08241586c0fbf139414312acde9116c51b940abeb26603d82a8f04b6ec249afeca, 0x86de08c92ade37a90eb80209e31bb802c8214931c0ce9e7211c89a7378f4f87629e394b112f25ccdf5abb2a8e3b6eb46));
  ((0x1143e0fe9e387e250613e3ab207b71d1ae71e911514c86a02f412d2508d7260a78247039135b7336a6995b1de40a5b0caee46edf814a331b9c79e5a30925bc4faddf0c4f57926f5a8bca3d6f32c90e0e2567510336bbb43ea3d5fa41063b5bb8, 0x15515137f5fc31a5b133557d8eb3cbccfc161624e714a4d359e4dde3065dbae470660769f722e61eb8a2915b4585cd8a7d7d552841f67edd4996998018073d7e7cfaa3e53f0b9f4e8214032e68273289411ea5297f1a2f8a720777cd3ed0a6ae, 0x1db0f0e98502e82878965b33690ad9235a175d04914399688ba900fc29c7408a65d1c23ca2625bedf4af43182d5b22a3c), (0x3cb151f097a9da3e0032feabb71cb55c9a757f29ecd3fc4083a2f915676eeaf8972564bb04dbe68dc47f32364b1563fc, 0x2814490ef95b58a7545c95aea97ce43b55af3304434b73b73bf29390391e905da17109e33231818f1ed25fcadb3a1a6e, 0x9e4fee1974bd77a5be4b574efed649cd5a3faebb66ff5036786ee2d844f1f41fbd11d18c06b6f2e9084c88d0edcb4ab4));
  ((0xedf690100848d9f9c0244115e8f9a59f8c20a4da49f28c3b2c2447d49646fede6022671b0dfc5492b5e8335fdaad0fb7c591b167dc469cba6a7ffa50f1c41545c01fae125acce232dc3ee84275f58f0c3c95b1d8b987d77b94c325527e8cf61, 0x1d5f993760702e216c228ab06dde767305f77157c763c481b4e6264cad3c204d65f5004d9f78ab7adcd5d868fe03ebf5774773ac2e7ca89709945b1468ac7a2005b162118819eef2c940110cdcb9bdf91c5a7d5ee150701f64fe97dfa7d38136, 0x1770b688038f201c1cccde30cd7b569a254b6a33fb34ef90246e34bdde4d3e5624b786eddfdda3f9ee94ba834f6d33422), (0x90c9e23c1b0878baaea37cae69aed569d17c8b6566778852513d498c3ad867428981fa07aa40b528a48671605a664a71, 0x33eda2811f0b6b03357201ae576ecc97a0b11e05f2977710c75e39bff975d104f21d83b1169ae735aee08fc369d9ed6, 0x42981769a678d6b4ae1567991259c7cfc89fd323206e8b0884ec75361dec1ccdcf9dc6f6aa79f1336e113724cabdb176));
  ((0x81b150d269a68a2cdd7a09c754b685c8044c5054eb34e87daf18776b6774b181dfae4c65e1add5cf0f0f2cd5eab54b406c49d85e7c646880eb96ac7dd55529541a25d264e5a60c4d1f779930ca276d5902594522c7047ee81fa1f24315140b, 0x532919da23da688fe570bfcf62dcb09127574733b2c39e43291e1445ae90784ce33f16d0f1cac3b72fb2c1873f4fe5c46c9f860c64b1e45607247ff22d1a4481167ec760561e13f9cbd294dc91c67a985b5a3d5eb0f13d41bd476d31a703dc8, 0x7f56feb59fee66dcedd7ae884de2853c4a223dcbb2849f7d9e92d444fdb01901d67a793e03eb19aceb7c19b86f6d5ffc), (0xf7de8930b85c3e2c49d7cb53a13cb3e971830101ec66b730f71735a54b74db5c03d05296b25eafe2ba6cc145e4d166c, 0x58b28fb9282b342e732dd122eac730f7a2412702e8419358bf0cca60b01706c60b5e5af32fc692f9c8bcd5afec0c94cc, 0x2dae206aa06b4784b3acc8f29e89aa69017daaf981a2f88939d5cbf2903628a0edfcfe96a7e9b2986c968a5264e4438));
  ((0x97f47a9c28324e439b157e704256a3117dce347bcbe32d7c0ed4b87535cca802f40d5f6aa0d51341cc9632b23baa873e4506e504defbedbde43ead170738a22dcedb6128e3a514d7d23f59a27b0cc74702574cc2b01fff0fab0279a265309e, 0x272115d8484e031fcbfdce461faaf13db032cf4d9c94063718f1c78fdc3524c37390c0b50200a3fbd453c6d8f252a2e196a8cb41eb32c6c55bae77ec8a8451d19f9572f101823cb42133cf1af340a9148c869f0b3b6e7663af8801ba38670, 0x1f2c28d27e3a8f58046fb86cf72bf8f3b80b4bca49ab25d448510058df4bd8d0fe6d31b06bc9fba8c99c6c63546e4882), (0xe39a732badb9d0dc5c4c253c1bab852bc1b6c3b6d7b839dbc1bac51418c6676e69d60c8c99d4cad3783783ebc4cdc22e, 0xa6de4425b853ab2ab7638b045f0bd8fbc47fe833ebd766afa8dbcf6e970a96fe3859291d9b17c1a8d32e5aa7db29250, 0xf37e420de55f49b65aa9e3293876d9f7d5c510d2e8b3914db99a5a5aca170c5369c56938df87a7281235a6b67a675f12));
  ((0x5f3d438ac75fbd937af619cdde3f074c591fe006b4b845bc84d09be5525e0112d5230316f326965f7daf39d8975c1119b6c543a873647564b8118d3055b771193333b9832da0f50088c6ea9c1cda707eea636794d352b928d6ca278494197e1, 0x457c80b3bde070131a3fa15c2ea36689b6086c061ab8a5480e5132cf6bb8c46e0aa71f069bef42972ca255ae1197dc1e04497756960fad3b630ed15e29f33747aa12d0746ca138fe08542af9e88990e86de86d269011922a445f2ef1947019ff, 0x4682f4c26676debbade6b6a33d7da5b2231ee435db50c2920b228439507c721d7b1966c0305eb07db94472f357ecc3548), (0x917325fab934d96c440f4dfdf59e0e330eaf8eb784e68e860f5f3d812720befe671d794ca2fe4a6aae6de71a129acc25, 0x19a2bc756fb66792bd109281a31dacc7aec5a676de97619309b7b927f91d9cf80f1e555ff202309a5e71fef6890530bf, 0x3ba751c35ab440fd4b8c05b4fb39766c7f94225a4a113edd8d7797fff3c87ab34b4080dec20da2cb3a97b2be491c188c));
  ((0x395a6876c2ac3d38132eaf2eab8ca24682ae9e941d1a63ad88e970734472a61a52044856d8579ca663e07c19ef87fdf6f8dfdecfd930afaf588aee70e6b6bc6d367dcf502506227e7d8d6786f682eb14760f48f04f849d6b6d7278a6ab36a26, 0x42bacb51d90121489120e1d47577bddfe8a270be3b79a724e8c06b52f7088e5d099824b8b1da471d1ad9da7e3eb01f7d4f2af814701e3c0c97251dd8cd54af5c7b3514a678b186a98b79182f5682a66b6e6e747dabb9a703425b00ae5901b2e, 0x700e0c0b7097e8a9f9b1880418e191b6faf856229b5c46cf5553d79491165ee635fe2de867cb318a1f50706e50a0cf13), (0xa6219433a567158c7bfe6494cf9b86fc5d04f1be696ef49c4cb0cbc3c1038f41ae9422493924f8563c0d3821812d7dff, 0x66e4f044c723d587b90a717fdc1a9ab2bb6d1b3c4cde5fb54c3af7ebbe991baffc251b33dad6761419d349f2c9a4961c, 0x673697772f2c7ecd82cb4bdc346d5f5c97ac444fb809dbb14afefd3d78650289a07eff91db2af26c8623da9d7bfcdbbc));
  ((0x18e4af6440e153700fb592065a7d5a9579ddc5cb967e62288536d8996ca53df05d29fb1708865f80b6fe76d9ed301ca3ad2710b9d43e43fc17c07a4c15236c3c0c08116ebb0f120e9d6d82673ef0152f03059ef4a772d5036baa8f1a977fae7f, 0xc7c38427b5230714086cdc5c41cce13ea4dd673c4bc0230e8362380d4c33f393700005193637ed83f7b0d7ec373651b014eff19afd60ec1b9dd2c98d19531a3d79074d4c2e6df23e19a4568b13ce4be23c1e25a81c3465780e7fabf34d0be9d, 0x12c2808c8847064320c859ab8af326bc41a59f3544b9861968de9bece34b6e9749060efea4a71c816e8133259c9dbd659), (0x50e065dd0b04b2c6b8721ed59a984d5213fbaca440003a9fbb7549c739e12b1953e7608622a3bd7e86bf3e4db05e6480, 0xfe4d085b1e506bae634d3871b21edf29ad21162680b4bb58e23dca2daf9fa118aa8544e24978a2534e228c5b5bbeb6c5, 0xcebb14f0c1f15f33fec214adb124bb5eef53b8bd298837a67dc8a886a15bc47873e90f07477563812d279e9c125d9821));
  ((0x7b3a53cc566e810570cea15dda8a9f6ca270e653d0c112f9cd30f07a263b492cb0cac541ac34a41fd5ba9965f046a19aaa60553ae5b70dd0c943abe4e46db8f5d52ec4745725b9367b9c6a28938a0a16960b04535fb666db36675d9d772412f8, 0x321699530a8c505d28fff4d16836bbd7ef860a97b0867d2d67ab175e106bec6375f17184e64bc26f5a481693226fb0c676acb168d16f7a168ecdd3c12d88d0b0db65c30f0bd0500b833750e351daffcb8867b56208cce1c6e3fdad0ca73e2f49, 0x374112803c9d2971b6126229b5a8c46d1881299a6c132a0cc3b6816b057df4b1333bae6366fe789e7f9152724fdb0faf2), (0x42d9163e79e846385b6dc5f7da0cbc70b1fee525a35f65fc90f28af52264133c7eab8b1fdccbf7061358b3ffa2555198, 0xa824130bbf03f969a04d84aef3cc7e205eeccb6372f9a5e079c221ed43767c934161360cff17483d7f18c25daed061b7, 0x753d9554c2e3a3bb3c35bfe3d86df05132cdf54d02b5792453ce3ac909bae2ebf2e41ecfd68ce48b42653ff1026b344e));
  ((0x2e34f8f9b7ddd928e18c25d9320459d672df8463a20018bf2d62e53d72d2136b9d76bacd41bf2bfa719de0ee4ee973c073179314ed2ad4c024362f0b4732b21fd1d150052cf614bc032f8ef95cc99b04d19c8c5675613e150d2fc6eff9cb9004, 0x101c06ec30d6aced2e79799d52adb309e4604f315c589b437e9343e5b4f501d928cf6ce9eb13003faf2e88ceb376a526c5b03fceedf2652a1df121bc60baaaf34f4935f372241a41c97081d06691852ae08ea6ae1f38b76cc3cf8d3095ebf8a1, 0x14cbe01cb67b38494faebb0c99ce20b599c8595331ebf574d5f820b103ea1b7e9c9bf61148fc16c0a120323a02110eab7), (0x42116736dbea415ec6b9b8ba9b40cb31f6eb0b03e516eae18f8daacb9bde046f3bd54a3c5dcb60976e30a26080542684, 0x570b51869d476d50b729929ba1663c4f15ef4dbe27af1b8396cf56c1a387844397f8d595cf6e7775ce9aabb07eb20abd, 0xe47aeb4643657e09b2a84b1640c4fd722e5013f3f43803f1994b03647a8573177afb60729fa074203fc1ae8af19beb74));
  ((0x2e9df27fca9eadcabeef97109184a9dd56e80b4dd051bcefa712590cc895a566f9640dcf0195f39f3cf3f941d19fca8d6b5a0f7e8b9481c522422091d738fa9e4707b05a49f1a0cc1ea73191ebe9a52245cf9a2fa61c2fd7dbd6255a259ea7ff, 0x3d2e8ee429e6401ced07305be2c133b21188e6dcdc15a68d220eba53fa73a5fac9fd21000e829c7dbee841cc33c449f725c2359da50d2ce1e219d458c29a323d942500ee9b7dcacc2d75e78c56200f83191ca5f4a7c33e1744170f5cb37f167c, 0x2f748ae18a7fb57d03e3fdbeb0606c90959db8f8fd540d73fa76649f61c025da753fc6e28eba0224aacaffe509376ec22), (0x31aadd700239123f2818d5adefaf26432358738025ad19e41ce2742cef42a5fdc75d5c0362d8077329585606f176988f, 0xbd4b0a8b949cc82a3afb1388ed1bb09396d86a1c8e8896d497767d0610854817abef3e9cc85b651ecd32cd9008450a3c, 0x5f837a398f3bd632eb3a4176639758d4032df39943a23baead24db569622f5242f7eda191d157825148e9e43a2a200fb));
  ((0x2a612678642b505ba38dee868027959339fd8baa167f8973e60d3954bb9bf92620392f63963c9ef9d442710291e7a4952d6743b4df3e2ab20628b5c4f06579800747615e3164e4346b7e809d73ba6660dc86671d9c01fb6aeb7c651496ed2ebb, 0xab1223cb3c5452a4cdef786f4f1600d2e643a8a5bebfd47addbe3324318ab37f164e2a7dac3a953bb542aceeefcc3414f4c5bfde186996e1d9254ad320cd75c6d8aac0ddf871743793ade84267c01f6c6e95f8ec6ebf70e83e489417b018c31, 0x11bf040ed575f9f5f9677a4df4c2b8de8aa120bb86b402b7861cd951d8df2d504f2ccd2f288334d0c0f848a134ae45646), (0xacf9b44e80e642fae744fb3096b52355ba8a29214a67a138475e9916e1b34aa133731cfc79ea5a02f1c3c76100f5311c, 0x9ab4a5400d6493d803d5bfdb96f1215a93d7db8c2263cd092d681140e7c565e92badac57d3955323974e07c680fd9ec1, 0xfd626b7d6a017c85488cb36d67fc50e7e1586ab9c33a950bc215e57da4f2b6496001b0997a21dcc248604ba3dc371f0b));
  ((0x5be269985930c839de69f1ad97d36bce478aa8305b19926763a16a40434047d9920c9590caad9ad710d11b84ffa7d8f47859ed14804a066fa694dce7535224d396f470da2397dcfddadc32ac1d1c23b6b9d34420a54f09af659689f8724fbeb7, 0x4b3f13c0bdbe7d14cd2b24322aded3801240df9f83a4ed11a9d06aef9abcc236107dd1ba145d52e6593af1c61f9b8cf18ef029d2a6b32e80a2bf2068e7eccf3f34bce31e16e28bd7cd3acb135ca81e60cb3670f51af90aa4f3f6dfd38a4f280f, 0x4a44b7002619c51304c344230d3fefb5703ba598d0e3ac94247f6833494a40f719343c97d8d27d9fed09ce3a257c038c7), (0x4ec978a24cb9e72a0e7df4b0fe8540f05dfe57c82c9831d1415a08c86d66608a0eaeefe89c4c52f148c7ac6095427127, 0xf6c3efcffcf1e53e7214a532e2be316f8aa75dcf3d28ab22d976c080ce4634b7b97136c0f1bd99fc59656a1332b4099, 0x94ddf14670256167700e7a354aeea018a797a246a4b7c773cfa6a9c6c8c5a2692208ac1f24d329c46b1d1719fc25061b));
  ((0x561b6293fcc1793212c67ccd60c1ddb8ff7e1a9fa915a9e9f5153336853c0ea9d227423d67d9e7371fcddb3132671da13d518d7ba0addabb60bd3196d35d9388149d93b327ef827490a6854e8d437c1437a823a3baf925412021113f0921626, 0x19f917c05502c8e116ce88e46a2952e3035f5191c53a43cccb73d7b3d07b1ec7bd208bbcbf957e4ba50525b98bc44f4b7a48119b62d259b8468d58009c9463b91e143471729a2cd50428feea5a7bd92c195e21a0bb1836a837493c028aed002c, 0x160438b2b36438a8e5a26cbc63663b72f52b37c2702cc478792fdff8b7da660d2d27e6e743a2b79a401a94ed07166805e), (0xf9e2fc582a770b876bbdff2efa1a6c28a25dc60a894a4ef65b14fedaa86da087ceaed244f88823abce506dcb01e68c77, 0xfb772817d9adc7979ac394778e31a9fcc89f2e864b55adebce57b8a0dfd3cdf8a3b79c89fbdb1392feb7e84a946a202c, 0x7ed67c82d6029cf3c9acf3409dcd2ffe864b7d5816a3ecd265bbbfb8cec687d9a7ac08bbe4a15fa6b015eed8058ae294));
  ((0x4ac32933c8ddc3dca891c9fffe13df82c12156828bed0b71046401efa8a5601434a095f4ad95b58ad09e200aa6d75eb779e7ac04cfd9df27d65e291bfdf29f24fb3da6f06f986688f8c051667db6a0fab2ab9b3b1acd453c5e773c83498a1daf, 0x12dad86ff61b602c0e8de558fd45f277e7f74edd792851ee1714034c076dd43c23f2119a7f5da9c3b848f95b0b70270485cfb24c09873eb59b321b68b496d1715f28b2c5cf701ce354c47ab42553d2d580f923d4d7ab5fe9827d9fcae6661128, 0x2ab288ddca5333745d75d281a450a6465eaae262f550f038e5498c91e9e023f642b52ef145aea11be021e340b2235007f), (0xf4b32e9329114da4b1e934e498148959dc16946a30a79cf9ceda79478be9e5253c61e5d38424ff537859087787030b00, 0x799eb8e5188ad05b8ef76c4bcae3c44cbeea0147c91219aa78b31dd11c9757408db7e42331a802674dff82a82633ebb0, 0x3aefeca47273b91813cbd256f00ab8aa43234f7368f6703b244505e678777098752112168537aa16e241f0f78bdd7e57));
  ((0x10cd34df3a75b40a62711a3caa82f2286ab1795bb4f4afcf9dae717148963fda569bbc99c4505a4edce4d81a5b4651aa9c8262ef9739dc9cb6304ba162f0e7257e64b9192cbaabd66774b8c1f18e7422755a593b8dcea983d33df1d7ad978987, 0x4122f59f232dc89f18b122990ce177c748a9a1a46ef40a1df556661dffaa965797a8671a2fcf8f34e3c648b6f8f7a09d5410d37bd51428270fbdfff5a72863a015d83e1972d967bf47fcd5a8f00bf816c1a5a1e68178d365f66017bf922bf71, 0xd328118462273c7e674873e835575726cf652dd3ade3efff6ebaf71457115160c6ea85c389ccc8ff9b147f274ac51892), (0xcd6281381321cc5bae71d37e7e8da7c1ae311b5314fe25e7c497bbf531aa0d6b4edae9f63bbea1c123d3b8e01731c387, 0xd95f08d962237bf4fd71b3b86cf8e0873e88e59336f23493a11f839bdb474215d5a58582ebadbbe51e57d1a87d2f261, 0xd5a5e6a61202707f346207fc5792236985748a3c15e2af5cb87d625b577581a68e66e45c52d092b152b97949c767045));
  ((0x6cdb6af071f2ebb4e9030f46130c933f084b01d653aa6ca39878f969a92db923573f00205c21272f69d5648997969db60eeece98931b34dfe1770e2bc0acfed13325782d219db262dadccde2212ee144cc8ee7a681a99d0b4d266b315f03ea, 0x357f0cabf7229716bb097e40fb0431ae2b87edea62145af138da2778c07e420028e569040919e86fef4cdfc0ee8bc29713e86acbd0bfc61eb2baf293fac4c1968165e320feca1985faf7500e5ddcda03ce464a4a84e773ff0d6b5a97b2f018, 0x183c7c99d83ce3cbc24106fc2265b9b33ca17425d4170029d4704b117e263e8450c9524191f60b553a6703c265d2bf6c), (0x2b168c2cb167267593afef9332676b33a3b4733b266117aa9b14072c78aab126faf7cb151985202db601f6d83fc00bbb, 0x5feb8ef52ea6ce17730678b4c76c855496c14b460a661cb1184f2aa44f276826e94cd2578a4378dc74f96e703e7267d4, 0xac4eb8c9224fd1a840180b09d3cda9799b910de99868d78d0bf5320bbafbdcda5e9746e2caaa53014e9ccf136f5926be));
  ((0x26bdac44dcb7a5e6db2237e9c996645980cfb4a1123981cceb82158bb4d4966811ff0f6ad8f3e26ec7e03a79c897d275189b6947b126e7d321cd13c9227b9c8de6f4aba1758e6976e9b8f031aece268733f4cc94a0ca30173878731d9d92102f, 0x22cbe01c9dd2f967ea05036f0db8f7d3d8e11e773520e3850241985862f1a795bb7a6b94e5d082446c9d1142f91e39e1e2c377ba5fc76b002479658e56ec5045fdcd1e10799ff652864e4a8e90151f770861a2fbc611d7d4daa99a4e9caa4939, 0x1b9df1ab188d60a63bae12038e65339eba49084cc1370cc9da79a8712f88686145b8566362862609172df1c96f83f85be), (0xdaf9992bd78b3cd5d8ebb71304cf315ec202ddaf964d72e2e30c0bb3c24b3497b600e6e1d7a34fcf4a81205495b505c8, 0xfe9e46183bac3cf120d049aa6a6fafc31c4cf089ab1ec9f8956dbb5ebcc8a3e8d4b0eecb03622a016b797ead7b990141, 0xee3faa485d9b5e93be473b719e934f6117f619b18b9fc3bf39bd08cb7f8dcf3a1a2f9ac670c838ee787637b06fa999ee));
  ((0x8e31354cdecc5800c02333c91b4634d65bbeae294df9724202e6cba19e144ab20989b0a15748307167870b943e177819fdd6353ade35e921ccde5968d3bc5f6741787d4a59fda836c38db9a8975fc15fc3027b582f6bd5fdc03b5274466ba934, 0x428679dcabd9a12bdbfb3fe2926154d5cfe4f237679d8ab8a439b70a9dcb51664611a633c3588debf11d800193217ce09b1254a5d9ec852c751b12cdbdc32c4cda000b9b0322236dc64a830e9507df9e08a2e2ed1e31a9dcb668d2e6186d332b, 0x52e02c94450a4adaf7597356e95e665a929cdb1af98199f366baed6b618675ef3afdb9f538b90cf3c3f323c0374278629), (0x5b9728daaa69c67a874b715f63b9e1d8f31b34088c466508a4bdbe11e3a4ed1ad30b8741e1fd31772b54ee5448668f34, 0x43be6fadad074570e6cad028aa718de68222a539ed69d88ff892ae90a502069108e70f53c1b1ba110e0218c047dcef8f, 0x8a814c4216d7de7ff780bc5c8ebc5d19db1fb53bc81388b19fcc964ab157c604c0268d9c088bdec77a8fd2e42fc9f456));
  ((0x15fe4cd40bda8133498e9f32792fbbb510caaf62e132bc7e434f8dbbab8e940234761159badd1c7e855fdf762f8356b83f515fabff8fc51cfa33dfe0352074799e842e4664bb1fe74e794ad08bbd19f173d68d73cf230cee126789c54a7a4559, 0x167baf90db35d4704131ce21fceaac9f9692ceced3c64a77e0a33c07c747fd4c72089cf19fb82c1a2cad1145831c605a590601364cb8798954193dfa258298e032fff6d0b56436da3165a4f68c938676b4b4d4e2e2925fdbffaed0a18659ce6f, 0x155d7afa26b9507db056c5fbcb45233a81b45fa78d8000cbd4f79250095df02d537c38406fc9257fc3a2057b0e0692772), (0xbecedec9932f0ca042bac38863fffbf299084a2c8b19cc70557c39b1442a953b99a5a709f92f903ec802f9f14f86cd29, 0x7c5d38db205b420ceefeccb8fe3955d760e152dcc08fc3735f9adacb05388a8be346d7d2bb0272e15f2a37ec7a4e0903, 0x7508ccfc926afc90af2176bb237ba7d905332ef3f3c4b04a298ba2bba2e55d58c36ae2ac061f99394d4273de72a8f6ef));
  ((0x221dd2aeae28270b509452a1bca65b1bdf41658df8e0f48e1c5d685b351a045feff8f7cc0300a660cfedaf3243d0056aeece178d33af440e719365de3545b629a25d2441ce41d1635ce6148c0f39d46dea26aaf045f1c02b13cdc3a06055ff2e, 0x100d88d9d0ff8440876186da152ef7a8864c8e8937814a7f0f205d3ac9f27959df543c08c22c9b3137e5653f72daf77b9d6459b1f92b98c2e2da2b28023adf8d713ec594c4f8a66f8ed84ce3f2798720984d6f90cd574df08861b59ddfef0b95, 0x18b63ca2ffa33661d9f17b464f3b9a14a540945c72ef057bac3f09b9ed3ccd7994df83ee8a785e3827c913771bb5c1cbb), (0xc0585ea4bd799cc30e7fdfd58c12d74b474bb9be71e0de9d1883303e35d8dbaf3ae79a8bb42239582dc7eaf16da74b5f, 0x47b2adf479c860eabf96c43cffbd671256312b992f69e127173a607e4eb11480a409b52e36204ceea7d8bc2b15652a69, 0x76df6b6a6c2516e974ba16f8f42dfc349267577140ae723686af53395fd6a4eb1af2f1712bbeab22bb92ccac1aefcab5));
  ((0x13fa48a3f3202e46bc78cbee4f5d9fa5608b66410290bfe9684712aa111dbfd23f39dcb4e07aa4eb4219129253bd35716fb8c7ddedf3a97ad4b6e69edc8044cfa568ffa7ea0da1937bb854c8c64f3aa6b6f210a95650cf1c698670448789c5d3, 0x108fa6f69d0c9e2959d6166edfec8812e54a21556dc1fff481a2f9634bf5097161223fe33fbdbec275269c6d28749d127ec02907a40efc90b27ac83e90670493d39ad47500d03e8f6366c26001fabcdd0f22918661ba5ab0021401aa65dd9018, 0x16c4df9d9cabda4a7aa3be5bbd300f73e211c0814f49bfae778086f6c4e9d565d2dca9a663d3238a36475117437b660ef), (0xec53215b351a8f7060a6631109aabf6bbc078a16989ada2263db11ec125d33f3f636ded81dc35388fe2d34c76bd6dcb4, 0x6f466193beb5f067963af6b209fe743d45db81bf7e4c61ecca7f1508c5bc7d7768e7b324c27ea5cdbf0957d225d30204, 0x957b0ae26f524a95e6fc2b8ff3f4fb540984b46d9231e6b5ade8565114aaecb0337107d0063d4d894186df84afe3ec41));
  ((0x26fd1719c7cef1c97815fdd724ad4333f6a00bf238b52965127b7d1eae91f92876e96722d7d213b5a246c117dd6ada8e7f58aaae9866c9b591d5b7c39f1c34fbafc330becd598a2c4fe299df7e0697ce4593b02de2637270bc06edb2a43d9b2e, 0x1a3006512ed5973fecf08c07b22a6e9b357447cec5cebf0296b63f62567a7e7875deae5bbb6ad42b840ff5bebcc4edb99943a9b5d3458c30660e62e0c207b49e76057662d6132dc8093945056798bb48a55512ccf9007b2ccafcdbdafdf8a94b, 0x24a336e338ca911f98918b9410943b7306607acdc678618ff3c3448384fbbc52e4aba251731a056cf71272da8fc05c18b), (0x7ff690b6a68f44f9d38fe9a8f1fc5ab90bf06bb3c0c0564edc646e20eccd16d4bf0400243ebff57f8622c9848c56823e, 0xcbac3d7fdb1df558c619deb972489b211a481bdc9d1c1e9fb4f28c95552411dbb7d7e1f0389bb7c2b207f144e9a26e13, 0xdb0476be7c64fa6af3f5b3986dea52c870cbd38bd5c7612443fdcba01ca01a97d9295c8e0dde596a910fa892f9cb7e86));
  ((0x688f7ae34f6f39705c510de9e646852a6a2990a091d794d94c086c5c2da84aafbde103d94d27687478d2b73b7001aac3810bf12637b7c857a2228554b13cb28880b2cbbed63ab855a80f1ca307336741011f7b3c0d9af8430354377d4b83a8f7, 0x383810b8bae14873edc733187eb9de96bd53007fb1e50d13d69c3cf0fe96cd82dd00410fe19997bc5f377e4f97558c216b6a186f4d09eccb4c3967171ca10cdff417b13b9b3c33279c650943ef926d5a72a7a6c27e531d0f8f8bb4e13d17fd1d, 0x3af20d927bc1de605a840dc8b12f7a37e2566ee7fdc5ae1d3b796ddd85572c293a01d60dc75d2bfeb971d6772e0110666), (0xa51bcb0762d0f3230f1d4c071d79984a4028e9f7dffa3ed47d25a7ffdab0295607bebd64de9847628da80fff2072623b, 0x3bd3890b7dc972b842baa353ffc417c701fd62aca45b97cad846e94e42849551256cbd616aa2429a419d1ca913bf403d, 0x51616d80ff380b92a5cb72e3e26dd60eedf54d413830877f9585bc02eaaf8671e07945005d3edefe894faf1ebaf4723));
  ((0xb6984dcdfe5d72551e67d1919bead37d5da19b8c1366aca4183fa7d25fbe63b9ff3c1ef11bf847bc440f632e9eae56b82f4c8d3636f53591b70c53ba9b21dc2477ca261676ac3f082d95869e36f34d8785eaf61336ecbf4fd07fb257db5a03, 0x7c30b02d353ca7b144a31973c56afed8fc89c74ffe82688070fb6dad96a5faf1acbbdb5b9899911d4e1a7e8d4cd1cb7eb1ee4eaf18f33d4860f93f1efcfc9945ece0c5b592c72dd48ee119a42440f50980a3f789c4ea0e8cf6b17c058dff9, 0x14d86088472e317cdd624cadee3af98b8929d50380988c0d939347894f76af46b8f2f844e816baabaaa5b8cf39fc801a), (0x3efa490fa829ed9bafbfc42ec7b96e37bbcb9d91a6c8cfce2a931ff28775160dc9de9dead83bddda473fe72f7aa7c47c, 0xa9630b2a64370a10bf576bc183efed4fa05bcef8f4d949690534ed05e6ca9d09e70a4f74e2887cce2ad4ce78b6fc8db1, 0x4a74d933199e758efb7cf91a6768a4994e375a5a40a5af7eb84b45818d462e3566bbe0fc4d7280f73d6c74c3ea69f120));
  ((0x1d8ff11e3d4955187e8d016db9834bdb946c63603ea3bcd0946caa6f587e7d87516065b50a6df708c336744322163b21fec59b26596c194f63db8e103e9fcd0e31368a001f91e2f6900c7f27483daf4e8e3647f6c696f8c4e6d7f6d5f12dc37d, 0x67f4c7b340bf8e9afa21d0d9a52ef865b8b5dced83fdd2a287abc33c2684f607688cf4f0ffa4c8f4e96a71940d13ef72c2d38b8ba76c8c43b8c7b6bf3051aa91438c2ee8a492c76acf62bb20ea9a73486e8bd7b40c591b57c81a24c07aa5ee2, 0xd5ad63b19f637ad69e368f2674f52453f65e58ef991fec2008bf66812d2db9761cb006b6fb92015e992e502251451c5a), (0xfc8733d11d608711f416d9c6eba970c8fed43348236733153bc8fc7f0dc679862ec37d2fc5a191692306ea1aef4a038d, 0xac312a2e6c5af02496760b84cec993ceaa157e0d0e13ba8b4115c815b159964fd352ffa6bdb0dfdab150872e64f6f51a, 0x89390df76730f78c39e5f560e534e9a36c50f1575e5792dc00556478befa7d751d7d41f3f9b2474ae20fbd1235dbf3bb));
  ((0x3762aa1a4a6bb6d7fb6902d43916a9cf1773e06962a29fa8fee53173bee4b5b7e5754535d7d198af76478b6070b514c43ce873ad6b6d13a526cf81443499e1e651e17e9cc7fb7de50e9a70ae05d55e53a5e7281acd4007d4753b81dbd64e6ee6, 0x16119d0721ea2bcd69160d6a5dba5e49ec5ed7e03dc65ee1dae153a4a00113b4e97f7247d22bca6de51dbade33b5b2450781cb84a107d0b955f5206d10d8059705121fdff89bef0d7ec721fa0d185827e912833f2c0b373c72b31ea50cb23352, 0x25f35b85656c63d51e9d6a062c24dd4a65d91706c38ca2d0ad4d6cea271f0916b5e95cdfbc86cad447c30ec185e39551c), (0xe2ab25aa604c5c9fab18069352fc11de589ea2783106793ad70b5fb80242619b562dcc8a2377e1c108e74b36916b64f, 0xb294587c78e6428ba5ef2c61a0eef4e8cb3350156d79fa5224113ec9fbc887533219991898da4b7365f0964f89d8147a, 0x52980fc068af6de433d2077f8272208e8f99b3b6162bfbc3cff7ae17895e710a4a1e04eb7903212fd55878323cf49989));
  ((0x2292a94df60755872d253c4d399c38293cff013ffe574a490aedba71593ae9e9c033ce587dfdb5978180a1fffcbee59ac4c0af0f62ba36a73a91e93e35a472f945df4f736561cd65c35901dc5c0b972d13bb3e2597ac224da33ad1bfd3768a68, 0x7febd635eb7e795b7decb2a7d6ec6e7e55d31da36e5ef98efdaa6329510fef9014faa1c24c3351158aee9fc5f05cee66288d6ad2e18d60abfb01356c114854a37825f2d2e7fe67b21f22f878369cd84296316670b2431a268fb2cce2cb3332d, 0xd5a81cf59ab8b47b147764ce5bb6d38b7a436bc7868dba4c9d0d9bbaf0a793ed884aeb906a0634b7d67a1cd09851f2fc), (0xc977a031a82dd4337fb28095705b09a0c6e1071c2d23c2e0f02a9eb5bcf8d9278df3f51bde85b5c8a8a29e800c680409, 0xd2a3023a0f2828f65070ebed35dd844cce41a5cd1bc0f29afbf8b7f1249892148245334d3941d32e11656045d652a445, 0x61e2c67b146291839d7275f6d693806527af3ba5fba65d24015a9a2797d20b628a575e706e858aa552604e41ae5deda1));
  ((0x305447d3e9d88654c8bccd32e222ba003cc05437add36bc0794d81dcde9a3325d6d13deac6590def5791cf65d4297ff38b441c6b7b80c6973d6232dc5bf742b19921debc27d2e38fba9426ef17784c435ebbc969be859f0eab5a7b68fa778436, 0xb3ac92a0611c2eac43f75dda7e0e9c2f0c63841d6a06e79844f9c440019bbfaaed1e42e805473b9d507440589898611916c769d249353fc5675fad1a9354e4732f965abae535b94adf8438de7d8894a2f7055d08f2e66e32733e542e546a167, 0x1b7aa585b46b8540a3cc4455a93dd6c779f9d014329c2d13c620c0e67bae34d9ca2cc2eabb5ddf98493e3e623b39488ec), (0x6548adc247d6223bb7811aa5c9078c4e2b14c2b97ff062696d9e8ba68b937e8584177c6015f60376274505372123eb27, 0xe212fbe927ae525ef95ec709fd2d820dc096fafa30a0744620e20987e266738218d5ac885dd784047c6472dc088981af, 0x2c7add105392a58a40d84617c9a6e77146fbd9442891bddadd9447e2b267d84fbec1287d6e5b53fd9df0212230b13e9a));
  ((0x1792138c730ed8ef1576859bbc7f20c102d04f7a97d3b2169aa0b889ad30976a8e35c3a0fdc0533f44e28481023afb732032e1bc42cc3a3630419d1feb5fdd56b90902c987005575c2a427e9764105d1fea262f17df744686a0a724ed739b0db, 0x25199a6a35a33fb64c135c192c4e4a37faf4b752c4c51a1b6a1eddb5de69cbaeb4607976dc2cbdcff92fc9f39b273fb88a68e6b2a1b3af0a18b395232d488ff43c22d5b09c278c1745351dc5cb141ee342aa7aa605d8fa7e85fda3de8aafe39, 0x102071efc096092e2a0d3c2e4fe1cb144027e76c6b603ee6a9a5da7b858bc448b05e8498bbd60b6be405f73bd7d44ab43), (0x79aac13e8d03c68c90526cb363413b50a9d92561574df63a7606f7fbb4b3fb7c48a724ab76dbd92aebf5ff52a4bb758c, 0x8f9bb498f8e28cff9fba7ed679a6e5dbff6144864d0337d98cd0a79a51a5ee63cacee6357084aec9bd20e1341925e96f, 0x87fb50c2f083715c482e4266aeda4d5ba338c601267ca1023c84074c66df13319d46fe78baf434c2ed290b1cae192dbc));
  ((0x2dc60df654400267450740b20891ccc21475917fb24fe6df0e7742fb338cba572db5d48fcd77283b7a4be4c90ccffc7a8be3d4d4a86a9489830cd9796e0a9a280359b39438314f72ce035c330b8242194b82a64bbe50b00460909509fe053944, 0x15abe00790f865c4777a64e80704918110acdcfc1b3e4ae8e96b61ed3006394bdf9c0aa07f2e6303c7add41214c338fd7a9b77119e92235bcd9132e6ec51ba758c0088f2bdf99de3adaa74f810775c4ba6ac0e83c394c4dc08a9660206e744ec, 0x1aa815d91387f961426a644f52d7f5d82fe57c6b5f6f50741258b7613755a5773b436ed8839da5530a358c9fde443fb62), (0x439aa96835219b908e5c6cf9dc25ef562374ee955801f6a391120f63a37daca14706d04f504ba5331f62c7f5c5383654, 0x88ebc9eb24e1634df3ca275f92586c42d0ae71ddcc14df5cf1d005bf1d56f7a1eb9c3fbdc430926db7a8c5434973206c, 0x18461b7a42a7b46c1d10db9c6536d09241fc1bcd48d94274a6a4db68a68950be1f4d028461e4ef46824d2e8c95dffd53));
  ((0x7ca5d8cf1e312011982fe0383117bb1eb652c7a458ff5bcbb1be49c4e66a4aba6610a945c920ec2cb08519f067d4fadb4c28c43ad43e1fd9a4cdab5059d511edc7d53209b68ee59a190db08cbefa46b444eaf5619e8ca50787dbdd4580599a1, 0xb0c8bd961c93d59e1128660cedbf82bdfb859ac8b885a5d57df6590a715ef4301a6549706cbef52aa75e76963c36bca881ebd5c3ab7f99e644049d9811492e187750f8b31e1a05b7ff4e31ce199d231b8285d3c014bdb6788df386e60d7fbb, 0x5cf50f9f706225b0ccb577dfad5012b7c2adef5010d5e234a23f0c3c97ee736bb0fa05fdf47248df73b7d9fca488632b), (0xd30b8770b951b0fcf36a5be5c80e7b26edf223731336f0a0c989ccf9ca1b2c516524fcd1828edde9e85749657609adb1, 0x8526d2295d2a0b80201531b5e7ef4b1fa6ed76b4d0d2a6f664bb9c48b877d89d7c9da08b56dec3418d3bafbb79fd3c43, 0x8fb18a4c5e482f5d656107712de4c4a379f15b7698a1877f073d9c725631c5b024904e8e663f726cdd9ceca9bae4dee));
  ((0x2cd8fe1fb97a741daf62192a2d8a70291b25ebd77f496aee8927b24caf057ecadee3ce04cca3f72472e506615eda4e652013d245c166caabea5f4fd425316a337794218fa8a94ba97d2f4e82d8beaff89f6f26ac2d3de47244aaac648c0415a, 0x1832fb8477de5a4af45614793d1bd68aecdf562a1b06681c70e7cc97bb26323c3d15d97dd4eb08d0f4cfd49b5803dd92b3670c0d40e21f51e60eb1335d7d5a24f6422007547a63796c3bb7d683de881e56ab08ea33e0084cc3f9d0724598db, 0x55020d716a3ddba1670f139eadd9bf43234922e165f03f521b7e4727930828d5becedf5095ceb5bfb9f5ad07c95da9a3), (0xd41af25ef9dc863b81f2764be8f9eb3c49b4337c806ec7cabf4a2ebcbb2e72a78f109c321917c4d1a367c790e869c2fb, 0xdda23d1e0aed1dfe23b52a481508e183c980b91bccd7e73737de1271ff62e5588780e0862b5d4765559b11b39feb37d, 0xc951bad1db6fe4473c385be398d78432eef4199607d811d430b22119a17327fd104b93f78e6404f7b8195124bad5ae14));
  ((0x68963a0951df1855b1f69068bd521c764c16904c8cfb751838c0e84f82b427532f4b98d85a5b7ff91473a7e381a9ff8bce164e41109880cee05fc042e80348c87b6946036546a7298031a082a16d38d855e677193fb6b110b7865ad08f7f2dd, 0x2f801410c9728e8532b8d4839a8de3db574fa0dec417367af29af41ced160cf469be20ca65885940c6cc8f3d28183b4cb67ea4cbdad6bd611c0a5adfa4f7b2f3da35a12981d5033dfde471d3c46595f772779ce4e5a855d5992bafee4cfa3fea, 0x3294df51da6b7b9e6fdf056c81c021575b3d8634d171f5038fe36172f02a73879e8623e50e76e58ea88ee93cbb7051d66), (0x29c3ff2f910d75abb3f5ca4425bfb9a08cd19ad58f092d3e2c20a91b6b38ef43b76bf0cea97bc9dfad8224d3d02af576, 0x746782ce21091366f7d2c648120de525cb27a9501573975b8ad87cdcd6d769d82143490a65f8d1e0a8983c8178c57aa0, 0xb439e665d201e4467f9023c916524d0c75653e358e2c247103712478434b07e4a7b10519319f92a1b7f64f69ed206857));
  ((0x312cc12323cbd21b7a6e6fecdfdf3b3d630c9a4b6ec61b5634747ef53e210ab202bbe49511b26e2541f993efaf77fe9231790b596cf36e6509b8ede47a01c3c8835f6735b980ea5939f09a9b254ea079b7cb46531d56a645caa4c1c3990dec26, 0x261170a550c1f104126aaa06fe08f0b37787f0a62af97a01aed4d1a95120082b3593ee5cbd935ab17b58ce9db050effad2d6cec92a4105a0470305ff3a7897b0f40de072e33a6070d4405dc96bfcf5a10c490f75d89369115a6069ebbd9d8be5, 0x1ec60e6fc099537dcb383f3547d46e11d07d33357cb09ec1092c022948ea4d89cee0833252d97aa09a72ae6b36f7032a0), (0xaeabab413b6acb54a07005fea45a13b8bc18a3060400d4af3fbf919dd706ebb919a526848ac3bd8d5f1ebb7203ee4a8a, 0xb916a24c6333d57d5f44eb6d9722efdff8cdc3336a8681cc418af84165f597a871d728d7e26541af09316c761dac5fb5, 0xbe08d06b75da7b2d9a51737e4c73b358742777b84fde578a5992cdd45ec0ed7d08933c13782277f5fefad5bba5643587));
  ((0x5272107ee8860c6ed0c1794706e8827b7a02342af073eef80a043a88e9853af6343e6606e6c91ef97e38eb2a13646708d56a8a03039fe1d37d1f1a457262c3018690b895fd8065e1edbb6aced5803388381db914205212bbe53845f146486cca, 0x2a5308fd4c7e7f68fc322312c04a68e575c2937543e8c4fed05683666165aebb948e752236b135dadca37784130cd4a5d5be06dfefcf611c7482be994cd906ea991c023dad06fdf418fcc4e05452130de2bc76479c94d197864c14de7c08dc21, 0x33057d2f3704e9bbf079ce98cc027b1ea38221deff38be661aec0939cac7931f68766e417b7b8659945aaff385b16ecd6), (0x59f22ed31c105a9f81b4eb327258c6e60769895ae340f6755efbe67c840fe339f34043aa198850706d6a80f6b2ce0b8e, 0x515071876d9a5de066797bfb64177adb1d9c2a668f0c65d56c2d8411f17bd039ee08e636973c969227c977fa5011f007, 0x788fb31f14220f17cd3e732955dca0c42ddf39d7e2fb593b6cf40a8953380291b78987f21f75e419f4d2bf16b4120bee));
  ((0x16fa9d10dd123226320277f28d18b8a9f17cce54491cd29d6bdb7b5c3dc796473f67b390aee8f756bb46eebdd4b3b2f437902070e12077fe8479d903408b44efa7acfcb1b03f08f4b3ee38dee0f90d0bb8bf2cbbfd4f878001c67cdcd5e3f03f, 0x1108f4eaeb6127a398bbca8365a102e1169d0c1825f3dd868fbefa0e9d0150635cc10f815ab3a3cde1e760eb6440047e6a12db587e7a0a27c4ee71788dade5b3ebc779ca965c124911a68592f3599d37c710777a86311f4815401d2b211f77b7, 0x118e12137cf90be86c5b9aa5a73bfbfdcd23b979c3f7f016c0fe9116a8794c34a97cb58dbb8c8c166d2cbe7d6cf71c274), (0x2f37867fb10fbb60fb68517986ad57787ec980d922fb49f43102a59c97c2658bbd4bb8f48b92f5dd6bb0b60379e23743, 0xf070a1121097ec9d02b1d6340974e48ec07367e9c2fbd2722f2855b906262de5cad22c8b935953f07437ead56fddb6c7, 0xec0b9904e8d3bfd58c865f5f87f752c579bfc70db963600f39fd0e418b1c7dac39359df89619a4789c8c28e587938679));
  ((0x8508525bad7a0e0d213462b40531e3bff6ac539fca7f49a46677c152b801dbaa4225970b6a8ed955bc6becf3132fb0fd19ae49d5d10889eeb5b33e9a89a984e73ef2f3412574aa5f837f1648995a23f2a0ef8cab901a2143bebeff2c5d69e7aa, 0x414ced806ba3698d7f35f07855c52dcfc5555c246875f5b7243005622c8bb51ab0429e9be7776180e8ae9ff239a38b559640722f3c4e9c3346cb40db92956e14dab32cc6b5fd66d3bf47e1bca0ee29541ff3540721859e85c0f412ac8c5814d6, 0x3c5d62eb90d90c8212c85587d89ed7ad25935e3529dd70aca292a9814eba62a6a4cdd76a5c2801bdad18faeca05a0e269), (0x5009469dcfcaa5b19ab8a742f8b120437f248d879b4e02d8a08aafe3fae9285f1438f879dd9275e33ad2bdababd47b13, 0x6f4ed88e05640aa429d43071dbb2bde216225e70c3ab0a229605167f91852deca0d77b3785bf691b156386700399af6a, 0x2f9b92c51888c9f745afd58e2d72aea3c34542da1dca4135efd87a0d570ebcbad9cc268194b4d8f2231ac8d4d3258203));
  ((0xc6bcbf583a7f272d54c428cdb8f45295985379736ab0cde66a8b511c6d02df66f7e531e5df3222271bd2c90ba4110558c54702f34aeec5e1b9b6e8835e8486ce465b5e31dc45f70968127e94d653034a7480fa69e0a2a841f70b86ea1f91379, 0x2a8048f65228b77b3359b9ea126679904a017d8c144c7078a4c2de09be77b05a4c93549c88eaa1a0f01c66054c98cbb3ca91cd5c7a95296a6d0ed099f087180db33899ad6c64e0252d94cfc77fd7ce3f6a5104217a7840d2830f36fbf5cfd9f, 0x68b9a2516772062eb9eb3eea6c498d0d37515b8308b9b1b54f776de0ec13eb5c0ef822efa0396e18c7f1849c1592a00f), (0x8a7e89275bd310a62e4de4e821939a00285d3b0912877b76691171d6c35d7d84202cc280b9bb59f70bf167a06ea7caa2, 0xe7591134ba57478409e5cd1461ce7536eb57264aff48905a7ba31e660cb4fe1d386813bff9c091520c654c0d817d6e5f, 0xf7a02d90a5d5ce5fe931a40ee3a569819e4a3aaa29882a9c609a5141477f380a9685bb1e9eeb1d887f212e52caa00a80));
  ((0x8648226233f056f35b91438e5e6a3ecf243e7c2d4992897cf2652bedaceb5831623ed8af584ec1d89b432a40ef49a03a3a64e55116a53b4d184c67d36835db644c47d28edf9843d8c79b5d4502cc5cdd24d7159186cdcb994d3c220515bf1383, 0x47dd6e02ee327e96ee916316d9ff577e7ef83c15decbec8f5c29dc1fa6dd3a30616eef32f12bd7801c1fe42db7d0d28b0f9f8769713d51c15f332333a711ccda5c3aa5a0b7ee01254572479fa1c7bbebd0f050fa044124a3cc4ee93229e3dc2f, 0x4ab92cc9ed949e91ecea3fb76142f66448937e8e9a3e3055524ee90ab4e519cf456db919bf48dcc92e075f85e41302cfe), (0x853dc65a8691dcebfef1695ee74992ffd0a4e20f01d7542b13ea549206e87354c7a0c8a3ba908af72d9f23c36542d207, 0x6851ea4b895b6fcc1325f46371c3f29711ad63097c2b87e8209140f4eeae24581b3d0e4d77c511a5f96d792aab50d96b, 0xbed03a24316da0cc9b1e098f0104a018a1a070029ec99bd719a6a97819ea17f573bbea542a1740c25c969f50ef5fe3f));
  ((0x2ea89cdcce5b8dbe70dc3863b51051682687d77fb08ee4080e88a84d079e8ad0910e6bc8345dec9b8d0e546f28fb3ee3b2536676427fed60b99213f1eef57a9655446fba5daa8ebdd2ec449ce3d5575e6cca4b3e2571a0700fca073cbe64ff1, 0x2aac0b1f4023cfc11a95bc5c4876d028620d8dc2790e35fabcf1e86956599a93d9e6a017aac05aecba73a078fb66838843db3b7c04b2fbe1b77b912204aa42dc21da9137b5e0ce3f561cee9ad3952f45f915a64464ff9e220f92c649435d4a, 0x38975d07e4728ab59672cc7b0443c2d2b497d21f2f917f31606c06154ed5f98826d78c8adee97d604c4484b82bdf9b5e), (0xdff673ef8c3f4b48b099f5324e27463d1ba97a735a4316c87acdbc1cc3a6efb3c79cfe7baf7d0495f458f9097620a8c2, 0x9d80a8c55aa3c99a0fc9dc387e08e5593cd6c9a12d81dffd3e5111b82db4a20957d867f973e3a190f692dbacce95e32, 0x4c73b3a3e5790b01f7ea76b4ee134d3f0052fdbed9d57e13f94771b928782d0e53cda2acb0f61b21b5652e257dbaac0c));
  ((0x1c399180a88362dc0bd441acb70272867d38c2481f83de089a661e264c9a5ea390e51657f5ee0371a7b84fe77ef1f47bf187f7d7a9f63bbc5ae980017ce2d9f167852c97d6bb38dc3e8245a2e69c1053241d8d6900ab3bfd76e7deaa9369d75, 0x6d9a6772f4cfa75afac193742dd0b0b7bb18419537a9b450cc202ce6efaff8fb9830224ef26ef982a611b9a1dcc2c58b7a2bf5018455c8beb8fd89dfcf302335462cc4a640a3e79bd9f4934fac73bb344b5098db47c56b3cbf5b90694fc7577, 0xcaa4628015eaa6e7ebd46b12354239bb834a64afb24ad0cd0639ae988e585a61242890963534758d1b313f97dc9877ab), (0x8d650169cbd50d0673c2b5e7997472ca5ce769a18b8ef3bbb2f8898c6fecfb39d6f8ec06f1c147e36060f4de1bac8b79, 0x7549366de5d6ddff6106634cf1e2c75888e915fd2864ffc43cc16acb717f5a8b771391e8c3bd41c82813332e00eec04f, 0xb1dbbe357c82be787165d461e10c5a7bf752a6309c63fdbae742ba54bba8f9a209df96f19668ac15f623ba3551321d4f));
  ((0x30e575716a0684ddbfb249bb8a63bf20c67c3c4b28f39af0a3f966f1a286e96f08d9f256fca38310d7b754379ee9f23bbce39ff64f6b132e81778bc3dc854167dd4cf0b3c0ccefd1f6468c5b64e8fa7b3d7baec5f76b3c37b9683de4edb649d1, 0x25130d5770200d7f4960f549656a8ee3922001ebc286d61ae32c4528677d361147f0b55bd38f036aa0a0c8085dabbcfea0989720490ab324050d7a2f53ad96db5bfbb60c745488a412b33fd5f905cade4f52cbc79d71e051c2ff4a3721e7aae4, 0x26ce936811db51214ddd9f7fec9106d85de6ccd259e9c876e1cced898e3bcd02460acc30bc81f228dbbed3de987989788), (0x82e3e6b8260c66707b0d2ce728ec40517ad96ac21d5276e7bd86b37a202da71b42b66473eb04a12e62b1bb7014a9bf22, 0x157488eec1c9c6c7fda5994fa1bf23143c61d4271125fc4e556f96e558b0494c7953e26cf0d3499a327e9dd5463a9ee8, 0x6abacea41028c47239ce971dc6139f720cef1a1a06db50f60c264d3c133b695ba85d4a7f11cd48c3955c2fc140f3a9ba));
  ((0x55e160a2a80b4ba394f07989c3253ee3fa7b42283457c6dfc57a90a5e82d2de962c926071386625a96c1879277cca91297ee5001601d92d43e0c11aac26cb84cf9c329fdc9b1c56cee652339d2fb82e4889341ba5057d7271861bc66b0c8d2c, 0xd59b83e021b823d7c59186690a57309ef6b2b292aeca8d77669e86a8c06f0503f3b6aa078e2bc646097c833c298ba1211d78b301e03eafd0238ec39061e090efa936e01c2bcc539dfbb81cb0351c209375dbd3bb35e709e091320d20aa41005, 0xf46dc7603c1a0e3af781d62921fc84d28a83864465b49a05fd55115207077ad389095b23c193a9eda451ba523403ba8a), (0x51c38e7fac3a58e1e848c8e430d79467892df01bdefd41892639255bc125bd2b3c43da56e83f3db6b208594a395f7fb0, 0x3c83387e6e88de0d059d6b26ee8194d1d4625a6e0e1d844ed7f49e79eac6ded31ffcfca82bf34c0e59fb15c2fb5ec745, 0xe0be0b583a457f5d1834345a5ae6a7587810840fca5567817cd4f3dad69be86f20199c7486b1b73a77b151d6e40df9e));
  ((0x1fe0ae11c171204eb77b8036685643de67d981701df046f0ca33b1ecb1c4d76c7581524830d120b42265882cc86e4fa0e2e7bff564b583ad38ecd8328efdc3f18834f4ce43638f5d5f9496982956010d4423f5879b94c7d6d0c8719edd88e4b, 0x3b324a6a1af53195aa8dfec10cd94bd73935560c692df9029b388251b9826f84a1128f5528b8f380ac602bf748785592534e5434a08182fcfab3f504b71258ad8a8cfdb99fff0d0fa50fa0b308e487dc5293f0391aba5e67446df260c39103, 0x1996a70f513264abcb7154f71a4f21c8a88b3798eb82001d1d733c2c37af234d1fad375cf2b34a5cec6685818345ea71), (0x9ef61127704b21f1e35c39ed03c94bbb267b7bcd7b18c117a626108d5ea9549a5f427fd3bbca699d539c0025bc2f360b, 0x730f96d590bfa942ef2b796e2aeafc617d1820e435dbdb1505145e9a92fb54d73330f0d6900afe7c3982cb45bbc7bfa7, 0x3b61f71b38744c31a608585e4c1735d89b7f587ab37e0584f70dac9effc51780ddd93ad2bda88c68dbae39a41c6270d6));
  ((0x1003fe89dfa82d47d4862ee8efae314b84b7386e031a138aeb2d7894e567de4959a6fab4a184dcc0453819ccb3293b6181c86f4191806ce6d86bf14e6b6fee82cb3d72fe3e5b2027b2f04b4b9437666fe7b78a8942f4091f4aed989d10f7a221, 0x421ffc1bf10c248bcd83080ff8643d27f3e7b3c5f9886a64cd642487dffe943554dfebcca66a6f1c4e990b80b572274be7117db62209a808e5d00d6cb977e055c4736ddf7d990045e68e2919cd43c0eadd1f729032a09f7e0218ad28c2bb63a, 0xa6c8ffe3ee39704d37421a7477a1b2c92ba0f3f5ceb37d7bcb6df7a40590a60aff97106b05ca2806229c06abb80f0f85), (0x91df153f680d5653dbdc7a1be38a1a9ad8747eddbb18f429abf92c3349e51c6613ae56366ba51b50369bc8a5d7413dda, 0xb4145f3ce10908ca179e0312e9be3f90b8787b0856c1d818181fbc4c3225ba154ad16e5af8fe2835a17a39d33d4d2670, 0x6368049d022c22927da9d9fc1df2586e749784b943e4de96e5ffd553fe70eee0af72291c95482551495105021e8b8186));
  ((0x29f5baa6a7b369023c86cf40a6cce4e2021dad35718ce87766f4a5356f88824be4c7501e0d33fc1383b100db233f8da67021afbcb4dbe6827a4bd9d2e87cff0a9463a261090843c24197c81ba9e46505052996af0a6d56716123403b4dda313c, 0xb94c9e265215c8e1b8234aae905390fdca128885b7596c86b4f98f87049b5ca509fb1953b46ee33f909adb83eb75ce1adc663a77ad9638f96e501561d73e16cdd30c6da37d02d84b0f15e8e682758cbbb80b8dd190463d6fa322bc08a1fb5ff, 0x163c295fe642857335fae8d078e6d18c3f0b14c828f8bd5112ca0ad5d9aef331ec0ed98bd3e0721b439277af3da37666d), (0xbd66b41dd597547abe2cb81371136294af429a1ecbbf35b3cf7e46398365c4ebc177a453e1f57185a9ce14c55ca7e2e0, 0x5ef30288fca3f9c9f7cc4557d36d3aa995b42ecc70f3ea04efc35c4a3c4dd8f86b4a5b05aba4134ff613f7f4b5e2fabf, 0xa370fc7e6bdad1029308735aa401293d621f75934b7caa90880a3932522625bc8b23e446f2803dcda2efa571ade04211));
  ((0x246022814c1342e7c20f0d5128b876a5e09c866146f9835c5f7323bd39cd77e262a6b002c265d286831e8e70476acf244d044a904ee33facc372e8156defc8b479197178bba03af8fa7f77011848b5d1fd5ef7dc8b0ae646b0e607eecc095eee, 0x1f4ebe5c734b63bb3b6379ebe2f92dc8ebeb0438ca06288f1a21f633e6ef7be2c243cb024915d6fe12fb52d6e0d50a947d50af98a085894fc0db2d78b8b0193c3e1cedf75614c48109a47b597fc4c34fd47d12a731006447a225ea28d1c4f784, 0x24e1a8f97f40437cc05c9466fbf15e1785e1c37d2fb8e7b40007055277677dd4fcf2593baf96a1e650f1c9001734bdd5c), (0xd88ef0b2a93f298f4e5d7e032142108ab2ac0f319541ffe0b5ae7319e16ec90602161ab6c98b23ddddfeb92b4cdb6ece, 0xd1364173cf9ebf2580fb1329c707dfc16045447bfa20df87296842e409a02bf65aa3a604f6a718ae0c06d76afa3a24ee, 0x96d62efda2deb763a9750330d6429967b7af898ff25da79541ef7b4b00227f0b31fccf936b167267207deefdd9cf6900));
  ((0x49f8095a7479eb2592435ffb46b54b01eb7d3f32306601e5e2ce7076e24887c7c327a0868aed16ddedcde6f73fb3e6d9b88d7f2f47b6fc54bc21716286efdb540a762d33bc949ae605cffd822602529947dad4a9f5378ba0bf9c4cdeea3a2820, 0x1aaa3541ed71c85e7a614b7ce6e227923a97efedb9b41f80d8d04f7e53586337bb8dc6d73ad5384e0618f0d8355f19c6c3bcd8f6196c74d8af8aea94603362fd52c470983f3269731e7669bdd14c77734be7e663121f1e9a4d3b011ee25d0722, 0x2b4ca99b686d3bd3e29f956dd05e16df4e0286a4d8cc63b03e8679f09ea788346fe40145d20b625847dc1cfcbf37870d3), (0xb18c779320a6a8e2c19d8349e0df869f6e9720e3f1846de7de85374381e1da76708872183e520f2746841a2e328395e4, 0x8a9377427d0f443b6ff92fd357fb8185b91a39abdbd048fed0f8729c3a4afc83caf6685a14a721cc939783d47a7eb22a, 0xe6124dd16f4a76f61fd5338bcaf9d403a396c973781fc100b637e5414279578fca00c8824757372f28e1a87be5e03a17));
  ((0x4abb65cb7d85dc6108a2b8bf5f31378ce361d44574d5c1da799f11638b16ef673d9975ebca465349e9c74cc28c39e69bb1e81ccc7c5765ded38d809c6489e88b71ffc527ee0b3d7d57f7b4d108458cb26c66fe762e9bd4a847e1773d62a24afa, 0x3e097ebe07faef1bd642051df7fe2d90528e67df62612db8e9579c0513b20850fa1158812e7bfdf88a7fd84cdb6b006b472647ad4fd9a73694e81c5467f067452f41a06c7f216ab6e45beff2a7c811460a8162ebb467e9078fc2284987a50e4b, 0x3f673cb7e250334dfcaa33807d7258318682b32c0bc979e29f8214c6a9d88125d03a24de3b6af373673f0e2db81461a99), (0x3f62a8cd3bd1f1fc93a0a02c26a1f5983d45da51ea8b04c998cfeb2bf35783110ee5481b9e94fe3ce15220e2e1adb2ca, 0x22d0e394b06126b888d4d6ecb5b4d832fb097d311e40ef98f01a071ae1f698c7caf690d651705fd45af13ab2ae6e75cf, 0x290dde873e84b57066ba2fe9bf8bbb417320b352ff73d20b5df014c3950e421cd6ac457e196bdff001756255e37812a8));
  ((0x359b147afeba432c90ff2bf3b2cc7f1e520704a36ff25738f507839fe47c442ed857e494c60589a41bfd51b8f59b1c5b04b288d15500b2fe63ee4824ded2c380add8340b17d04922c66fa582b048dfb8fb17da2d4886575a09968fc86cd4922, 0x1f9af77ba6173d6fd781735d966d6269f02e7cd385fbc26dc384a24d356514fa322bdb9ac603bcee22ae8fbd922e6074f6467adf5fd0acc3d93859fecbf095b11e52500a05a59bc0af213d4b1b26a0b3e79be52443099c6872abfc7ecb7ffdb, 0x2cd0f5461a275e22c8074597b0c200d057056c574381daff6912ee988247a64c32a7003ed616002d6d3826fb2533a011), (0x18f102dd92e36d8ab7be1561647cee29f8d992b463a5f381b95a74e8b2a9ce36bede5d2e7e51c5267e9a4e10d7a3fb86, 0x6d3432872fa91caf79226ca946d9fa98cc360278d6341d148f43c3ed470d66c8e750ae1b567e55c65c5b018d0bd31d97, 0x55782929c6aefdd8fe0cd8470e003b6842a5b91d4489df872ccf6e33b6a3a680daeb3246682ccf7e78ec170dc461b952));
  ((0x15e0ba210bbe058d2f562a701c41e6599ad368e10f990c472a416061544d3cc40928baec32cca26b263091b8c16af1179354e407ab2cf6833d7dcae1b301e482bf4d355b699e47bab7454d4f80bbb70aec64fcd182ecbf025d92b885176f281b, 0x88fba961240104543c4c4724a85e3d003b5608ec6ff0762a36e50bde497ae3f249712f6e6aef3e8189de402906f5968ed1354ca8a1aeeaafabde3d138342eb34b3385ceb1e9ff7ae30f358682241ec1a0397736b2903af69d1efeba19ee21f6, 0x94d7febfecbea1e29243ea9c20850e0c89e68bf6b8dd294d352191b46be0b6f83eee2575f09f3c25b0d3d1664f3c5d1c), (0x15ad5fd2f80d8ae1a843665047966b9a6ba70bc96debe556c24b25f125ee8a92df4a120d2027ad08503d1e9e3970c9ff, 0x831a5ed0fd3e76c9890966dafc542825bc130dc3370cf4e7ed23de84fa5f3d0c992a14b374195f40eca406568f09467e, 0x56a0b1be97a494969420f327357adf592987092aba7b4f6b93215acae2b93f84f34657d0a7e75c19650390f6989594d1));
  ((0x1a9efd80117867ea01f7991b6c4b518139f39e9fa4064270352560e59a8a8dcb0ff86b9362fb5158fc08146f0d7456e200355bf63d23a7db733c1205220e4a0de84a793a1f5edbdcfda92ee8d8ab6eeeddaa89aae8866a043d06d9a0b3ea4a86, 0x8cb89ebd4a11431c7887f17f28c55adbff454dd03d966a1ac718c652e9b4bfbf5da7063cbdd95ddf147baaa95c441c63e273114c375f1be37feb332b9d59e8f8bf1224a4917d8620b0b033f18f568ec2ceb54976595cd1697149a647549f252, 0xa9c0c7d4fb44c30a53b9d483e48de2c13564efe41104753de8e7f5e61ec456484edfc5ff492a5ba90679c4a6e5154eb1), (0x5e9157b225300b2a31ccd9ada5389800a814c0ff42862c240524a8966b04823543ab9dfadd9cd3fee2f039862066be47, 0x8c3b9cde3c09d7ffccef8760024c56dcceddedc26e575d2aef252915472f8d18723ba3024199b3b26aca1b8b9026b99a, 0x140ceb3c49bec4bef49a3612a88b677169e8b50e5c0c31ee40d37fade547af462c602ee8a211a712e81539171d4e16f6));
  ((0x6973695116f9043d020bfbd97601aa0156f0e9a416b0b800594ee2acd66f7a1bcdd9eb4b7684f3ba52dc1ba9da2afd3e1be4ad9ccb911b4d7822b6f4b7c4e872eec197f28bec284a53927a58602f8eb05cb3ea42086ccbcf61a875d0b844f8f, 0x789e6280dbdcd8d6f19befa0b9e2c44a7542493d7d203bf3b9527a7286452a86ce8d30e05fd1686cf5804c7565a7171bbd31c06c421626d10f7d4980b8d6be5c62350256cbf3216a8ae74d57541ed8b3652fb0938bd47aecc77e48e9fae172, 0x605792cd24586cabb999ee901146e62823a6109e3db3dd392651f4e00f43eb6af01a8ea6308480dbbdc043183e7587d0), (0xace4a9b1973aa8a45c6ac126eedb35d6e4544b72f622436985f98af774805f3c7c8422b1c9389b0d9b3c67c9cb35dec0, 0x60f60fcd89b17db191fc8b565b5afef563aeb64e80543ea44ee2254e41f3ec0f9caf70aba8843c60281f127053a66b06, 0x3bf66f8308f3e77d38df8b2c6c4d4496a2ad1385766714cc94c7db3130f87789c8619d4e20ce6e3c66182aac4a10fa14));
  ((0xda0c9451ab2485404c63c725cad6990a85e4706f4ee64d80f155c0cfc87600546b7f240f396ab6b65cc2636c924a7b70bd5501d8d3b4ff2b2b1b32a89cd714efcb4b8a5b93ec9e0a1c1c2e81ff4ca159addc1ddff7bb0f020865a180f72c09a, 0x436c412af444260166617829f3e0226aed2835f8c61b7a7d7904825f8007a107b02a31f290ef4316d1f6b845358f514b9db74039742dba1d234240ece4b841b88e0c3fabeaf7b93f7afa6c2afc0e9cb6d2cf5d85b068fed145d7af959dbf355, 0x9fda4a8c8126262aca3274a660c0665b9fc7a6b27ef87789d5ff1bbbd70e686ddefa3634fc29c2e15a693c5a6c81a666), (0x67d0dfed5e7e12a4dba6260f028b4b08e6790ddb40a76b9e84b9edd94962f8d06280d0d7213d2f6934f923731130f9a, 0x148df4f591721d74043b11014d8155c1e9c500db7fea699a0edb215dfc8b0e5e99488ded1e7c50a0f2a83fb194ee2025, 0xe41f894840520f6b41b87c330442ac4de3cfc6790fff99004d2666c5eb5fb91f9860ba5d75e18c6cd3d5e4746ce2ad3a));
  ((0xafdaa665e4523ce52778f5dc7d8140d1a2215736c9ecb9f2427aa9aeec693f27677ac15e620bcb8a80239994a042e17329f789db269df50f47479d125f5754f0f77cf42270411c1df4b2cf86eb566f29d8f1311b20e990e43c2edb86985928b, 0x3cfda7e76bca9b3512de81f823382e4f382dd9bed0f64213b2bf8931acea9b0c8010d1ba2f79299f6fb8fab54bb10f6f6a21e2f6b04a3a74cfec9f3357ddbe7beac6c0120970e7202da52555a0711260ffe975152a982c83b6ac8908b32c1f36, 0x26f0f686ca603b643431971a2501cbdadaf5e48ae13232677e59741ce81a7672ccfda1a426709a4384df57b8d76d26b89), (0x77f643094baefbfc8d1c65b80d0dc4537b67928de0a33d4cc51bdc8d3cc41ba2fa705d9552b6ad717c54b9b2a4c73b6f, 0x8b5dfd6375ce1056f3728b68b2fd8898702153300cab41733cd5cbb2b3a0a3988ce85b375d6507968e4ec5ddd7b8e046, 0x683b37a66acdd187d1db59a49866b6cac179c33455a5cc94c3f0ab700b2fa77e2ea73787df6bbe0039bef9de42273a16));
  ((0x220cbee277605842967c6e893cb94d5863e7d0354c6624b3e36b4a58d6fbd77c21f266f9d7e79108f235277c02dd02101443908e555aa4a3a83504425bbd388e3813b3145473f1f5fd8d390208fac504b4ca31fc434c2f397570312e871c684c, 0xcbb9589b7edd545a9c3f479453411e2607c095a931172b6bee784013aeb345eb307586cb8a0116ae731084fb5fd594b4a03f35234ddbc31817d0ed47b4416620e0a57ab0ff35d1c45c5c4f409f8d9ffcec5d129b4dd9aa8dc1e79badffc4358, 0x12cdf4a8c0fcc16c73b014a9c44522d6719922040a875ad71b3531463ebcf7039a95ccefcc7d7b7d0bf243872f7fcb4fd), (0xeacf28fc0e97201f3be4cf2bcaa79b0da937d4d4b28728b86e1a13a7cec993e352a37d571f5d0a27beac87c0651aaed, 0x4050cfdf1a6f45a1c06266fc2776903130d4ab32fd91b64e0411545eeb0c507640b02d1e1706a40c61c95e7a99a82264, 0x4c4125452b63ee77492632cd0ef611271a25633bebe3f012f47611d37ae247bde1c1fb17aa51a857a654b420edbbb8e1));
  ((0xb7eea8478991ee04a5dcc17f7ca21c72543aded55b13d5ef2c3a1bbbfc94960abc1e2ad75635a3249a88d6ee00d74925c67985e3f01a58baba95658e1a738d690903f7e77cc54caec2fa9eeb09841eff90002673352a22777aad085a2ad22a5, 0x6d09a277f59d11792b79503c367c820698e334584dae17c0b7c0208b7832175699724040f900b44923f0fa34fbdf0e5e87d160ea21c8dfddf865ef13ffc2a722f9c11badcc6fa1a76845994ed9c0ae8d9479be831b446cce5cbea02ac683a16, 0x5d0ae5afa2407654c3a817572e08d12a4ef62a349982266670bfb7a94043664f0ad461e45253be934b0ae784bd16a2be), (0x529b73d7701610440fee1c62c35d0434cb9b9db884a47cfcbe0668747be474d7958e5768905a17383173d1d072f7668e, 0xffb494706d5864bb98fcb01d915494dc854602c48b74b5b73ac1840fe2d92940fc56d0c39ed2f750679f6c2a9d9943a6, 0xcd447d16c1c70fe262e20f085b1495343505f658fef4072962c17340bcba014f59ff7d95be5f5394a6db466b1f251fab))].

Definition root384_3 : list (poly3 * poly3) := [
  ((0x7b0808de9f5e05dce7255f8c653d97ba03ddab15e4f4420dea7feced1e6259b0e8e6c725d8aefe7361d1ac0bfdfb69bfa622ba39170257a99e5801b25aec51574637fc66fbd44267b94068653a4455fb566274cd887fb170869322a7cd95a0bb, 0x3161b90dffc6a03f6feb9079bc41147fd26ca6f0fa685dd6e5196c764f366a6f9bbdeca0489b2ab1616fe6450a900c0a7bbceb4bf2c71e331ff1fd4693268b60c248a3873c24b89c899d26c7a9b1cf791b86b92f671994e18f17637248bbf273, 0x371a6b1eb8b8d0cff0561b31c495b408643429ae6640df8649ce1772d9e58135304a0ae61c166d2627cf2b4b2513396bb), (0xaa852c9be7421850b8f9dff564220af58a114c492873ef6bee513c5724c1bcd39a1f2992a97af3137c8886481f1667bf, 0x112eed16af27632dc032e2eb8cb586aa4b1d20eddf57d1cbce77755b43ca65c3fc14549ca721ccd6f91f152e4d5f3277, 0x9facf2ea7c14b0a864b0990f2a90671abd5fb3bc1c5de3555e0b2a363ff7c463d4c6af6328456fbf5bf60a8925efe0be));
  ((0x66e6bd214064a4e25897bea69b8da764f22dc6f097eff3cb28c7dc726cc4c403d4d311d31fb54f1e8c3d1ae74eae6bd16240289def4aeff3bee7d5f85b808ba4cc083aeb41cfe0d04d93daa30d9526603b077fd395260b9eef27c8c054bc7a5, 0x1de1abbebec04287b5666c1d8671f61839d4c58794c7694326969a8e2568912947b6f5a8c207ad064a18b15da920e47c2a9913093355812e3c0939acb5c9dd776a4ac28e8d235051c27abf8ae4a5fd1d395338939581fba0bc7cbc6c696077f5, 0x200a7f7d49e02b61995dafcc850173cdee8a2b6e3763a90d09e1ea28385864c1f78d7e032d74b6aae9879a72db967e0b0), (0xbbe5c8dd10a5f52227e2c29bfccb725764aec973a9e362c0887bdadde7da3cf601fbb9f2f7d3453070dd534f9e3a0666, 0x39ce81b883e3678bedef5f4a7026e0eb492a3b026889d904ba232664aa12e570a832af62b098d8f71649ad1d442225b3, 0x5dd057dd5f77a7aa7dcd8a04661bc4f1355e14d0dbd9bb58ad951c230e33dcdfceeac4b17d407307c377ae031151fa91));
  ((0xcb62c2c61286874f591b9bafa9916d4dbfc955f1df94f0864ca21b31d059b507a13047eb35ff669cb3af797d4e35c83bd5fca8db1f58dcdf9cabba34f51b81016b231c265835a74ce18944c503337be8f48e72a8503bbda4da9b0dfad4a8c78, 0xa5094da710a3078e6b0088b4af4781d538d558e73ddf39a66a65b10c8e63623448efaaa5f3aeed141e88930fb091e0913803026bcefe6e1428ebff17157bfe6bd6522ca863662487a7fad4c21602ce4690cbaf15b9ba25fc0fc6702c8d0cc15, 0xfde782dc93e6bb587599606caf02572131ab1a023866d8e8fbcc278dbbf0e39f1bf2b8600971bf663fad6d735b10bcda), (0x3e34b86cf89f4ce7732676c90603efbb21cdfe38f3df3921e36fcca6f141608098709e9e44472fc95e44de8eacf7477c, 0xe8f2b22f64a519ecab2af262c1df00b76713758a19a50cd66c427f5ce141ca484e929083b111d37a290261890cf041b, 0x543ba6d99547cfe43022345a810734e5401da7847c27abcf6314b5411d9836081cbb0ec8a1b551c142c6c1b5fbf501f2));
  ((0x2dfe5ad9c2e010eb0b57b7e0c55e021de64f2772cf49e6bcd9fd34580149be062b15dbc08f0b303edddc955a5fb6b71acf33ef01979be54441519607224c64f4a6f38767e76b4e9db8e0af93ee678f671695c7df24b4ef4bf1cd48b608a1f0d, 0x850c73bc487aeb86bb8565098e875edaade4bcb5a33d565c9244f471ac5a585fa6b553d5b8c57c72b97b88a36413a784c8ee83f286a569fccf38d2e2471e078260c2e847ff13d743352a3fcee8aa085a462dd47b7cc91cb5613b1218fd5ff3a, 0x7ce929630ac3f1abf4a64c2c058d164639e22745046cd7b1e9e7325c1e495c7907dccba23ff767e66c0dbc7cd1761693), (0xccfa09d40f19fdd4571a2510a1f7b5d9639646277c02be3ad4bffa58495a1500d5b298ebbbe598553adf62df5f82afdd, 0x977fb79c540031e178a8b726e86d3b7de148cf2877727f0e0665f97986b3909f7b0a4ce98ad7be69b79819face247ec6, 0x9612d4fabb1210c61b3dfbad75be7586c09fde2b3f72c80f29656cb193ec8d68d7474720a4107d843585e47092426a28));
  ((0x354afc123f54234a6a3a61c2fce4d177f4ad0a3f80befcd4ab3248145b0bd38612f8eb5987c7f04051d854f4844b514a437f7969736d68e23b4717b9fd7c58715c135266e7cc3a8f815ce63dbccd5c451c02e2f34df520c99cb926e985963872, 0x1a6550767f115cb1ea58d045ccc854f846689822af56cc2480c5ca4bf0aef8bcd4065ab94e9e22372fec834b6383900b59967fedecb69b6bb78782cbffd4a95f6b5d2987ea8361a71ca8d6c61ecc211c5a465df9d568d104cfbc9926ddc2f3c9, 0x251e94ef90aa0cc16066e62b0fbec25de7161906495bb051b768a83cb6e4edff6b38799ddca7451ba62c66dffa7dc2e3a), (0x5e3b3402fe9d9c508bd997e15f7d2f1ac9f6fdd09d98438b84ba76d26a9e380695b07bcb5af5856d3392622fbbe6db3b, 0x577e04e5df3d6dae91c7f13a252098e3b8a1d469088236e692850fc12d2c3fd9591476f70d6e99504929cfebbc88ef45, 0xdaca67378f67fa69d79d6f093863b4c3e53b2c1b6f82750861b9e48e154af6d642a15e00f98622e0ea1ae1eaa4b11b2e));
  ((0x2cdeab4d5fa045d6e35782b83ac080a781c31aa89ca34554d05e32e6993f4f69c6a6003cf2d86b004cc46e93a9e1391968302fce53403b2deb85fee974e318051188724a325d541ec0c73eeef58d6628788d0c7adf5dcb9fc57ec76579b93590, 0x381a461d1e6aa6e16c306155315f341b6ee39d3e739d655f4d69958bc13b20912e119682b3afad29161f6c0826d5f635ef6d92fe03f103d4a7d31f55a85401997943da099e56b6f4a42fbebcda482e06bba3f5215f7b27f094cdb36adc4558a9, 0x2eff0c2d1d1f2a7b8afc6bd35ab6cf0630a4a47554cf343f93ef0727eaeb388fe82d51f5891041b5188c6fe16230eb9de), (0x77f04a1aba4cf6185e519b3d219cbfc8993d8afd55048d64ae6a8f0671431b6d9e914210ed23557d92184977afa39de9, 0x7daa5c65f52ca7f67faf72dbfb26ebf0ee1c9ad84dd7df1ac3b0d6b29f93fb2c379ad6fdcc6311e35d5f010d29a5a91b, 0xbc437dbdc6c88fc28566562b9ea728ae6c8599265f605bb07e164d9a4efc07fb84c99868762567a9d701d6ac26481277));
  ((0x377465b7ded5e5761ae5f729dc7e210dd9f9502b50742293e10b88c63021e69ba945965c1aadbb2345f5a72e312b0840f772b469cb02594335e3e810f9a2558a072769806fe6764cc4a2a4336489a6a949da34b00900bb38aaf0c8a69d7a227f, 0x298a0c5c06fdca35daa85486d514a13c0f48affe3af933a34d7736bd33ae87e7ffbc37632a9c5ec9201db7780f7e93079e25b8f3b5c1d813192d387016dc620b58bffbba428013dc4a758687e3647adc2a88c0183893784c58c385bd0508ea3f, 0x28d719178526ce2e5c3ed15bfaf38b5386b5c295b7609cb0568e003d68253c646352a8c7898e7ceb4d1af536ccb0a9e06), (0x497c14c81e4927647c086fdec180b31b11c83028453c8437c3411f1319d57fb5056dce6f18cb3dfee10ca6f59fca9430, 0x4cc224fb1dc25d631ad1c53dbd009d6be23517d4608b6fa0468a4c25753f12c4caf73dece969b231f1589f349b197ec3, 0xfe0242b5390132b9a2092e52e31b542d51b115366def9f3d12d0778dc0bfe7eb22bab5da7d5b26bfeac88a8651bdb370));
  ((0x2db394e16286d52c08327514e849ec1209434a6994e95126851f2781a7cb4a2e89c3d1fbbb6a6d5e91af5fb609f78db2fb1f9b6e8cad76c615068475a4cc47be031248bdd0a9b91480bee711a0a5911d9c429fc418edae244b2dcb3f2ba7134f, 0x4b9e20dfa55a1822cb4f947c1d38fea581d0bb4a7853ff3935eae557b48189772154e298f2ff548e54e1244f90dadbee41b0e02503e99bd8735f9eb4a366fcdcb21979ea7f930746853ce22b4b7cce877fa29ff4446564f022308bd2bc5f7db5, 0x39cf0d3d8cbbbe30d98ec86bea65f996cd4c4901dc7d00b717106ab34f5c40216afcc9fcb49f4ef7d7aafe288f1e9ae3a), (0x3a19da99a2647d76184ad2dcaaacbca9ffb1a268d8fef696f0b56607803644f215e9a78f8872b97ab8a334c1ec79864f, 0xdbfe7a117e5b45ed4abd7d61be6186e0c6831c15fd6ed020a9c5fac7aa147e32b93626ab0a71966fd9a2d61b810364b5, 0x34e592ac8c69ccf2903c6f935e7f60284bb215380d4ad344144dee1d9feb87dad0be9fb9be0192536142fd35539273c3));
  ((0x1b46e65f691377e699a5dc00653cde5642029d2523b51292245233eb85f3e0a8bddf5906c084c488dec74597a765041bf338e24124f93e24dfd6ffd5c8cc949a63ec2cd39a508239d5d3224521e54ae7318513dd7513528d15b6a7ea16777386, 0x34781a6399431ecf44d3bee5f89fc70149bd68b95008d39a2167019f143deb2bbea9cc8c4a2191e6bbf36bee3d2237b5a9889a8e1f52915d563562c52a1c8c5f5c8950bd8ba63fcfd64fee4594328028959d1ca6ceb8d9b249948cdd3ef91b9, 0xf5da4bd5351897284e18919f9d281b94c3b2705225e3349daf4e38cd86c370ebfb2ece1ec25e106ba26228309eecbf96), (0xadfb60e7c72f6ffd8ea83d23140bd269a105293558be6ef9a212b1d52804ab71f70124662fd06e0aa073fbe04871f1c7, 0x3a05cb8804ad0385f5e86fd07f7321b7344793b7f824ec9e00b53a58fc771f52982de4ed4a5db0b3347951187684b839, 0x502156fc46f0a15391342b72cbaec7a2842cb0fa29b25b9469970b6d5ef53019481af83085880762799189647b009184));
  ((0xae5e7fd20916f9321426cac1a764358e7f05e83ccf2dc8af67d74855ff2d60f82bd96790e94fee87be90d1027584f02ecc6ceead32dd6e2b97fb5401e14eeaec1d700647db70f067c97ea373d57465d30668b0884f920c18a2870c80919e29c, 0x786741f5de9e6d933e12ab64371dcb6a25f912ad4b94f1c90fb86400dc77dfccb0b9261cc91104c201f81b8a1a87dce69d277345275a9e25e12db24fe65cf89420fafa22528fd3c3905b4a3d4e9fb581f8f207a5b700f62754676084192bf15, 0xc54f9e1680bb176d7d5c0cff86ad818a008bf738ab14f47bf8cc4bad05b4492d129a9dc660a995a567d2b64135f2204a), (0x8a63654fca17913f8ad426a421b8ac05372e6feaec333d5e0f7b7a8838d6e816686bba11346da620de4fa5136035fcd, 0xb9d8230d880a635e252ba611dc71713183e437efc5c4fae5e1bdd722efef2a8a98346b4065bad982b78f117ec828310b, 0x7152ee6dba24c0ec14e5077ce04653213dccf18cd7e8f32eed77c0ae0f7707b6bd0dc6a33000815088568b52c4d54463));
  ((0x315da8d34308a57df7dd21a20b2b8ccaabf7a69c08aedb3b31268eec6456022e67ab61ee023efb0644ca6b3d3f2b0fcbe0e670c1f80364eb7c509fa7122ecad2987d9bb397574ddb5393d8a4b3d6ea0acef4feabb4d2b14ebbbf57ac173eaba4, 0xf0d1707f9b50ec10357e80f2b0d70cca30036218b8a31d9329e27d2aecd64f5b692c372f1b70a441d08260f0619b403b164a08c41e811bc00e192a02ff81fdb6622bbc0427ef555ed59f831880dcca5960426ebeed88e6f2d352b0c613cf29b, 0x1251163c276edaf3d7796be4ac3bab2f0659945a7dcfdb8bce47cab51487532594e04ddb806aebcedd8ed2e984f41aa31), (0x7f4c3227de1e32261b112ba0edf67696d40ef8399cfd7a48419c32f6457b405f49d3cb289d25e0e16e798f178ad307ed, 0x73c834ce5db9de1a9bdbd9dcb419f1a1d2224159cc76b7f81ed8bf975ef516f75d7a176a92fe962b3b483b23cc829d4f, 0xd3ddd73ee6585cd4603f913477eba30edd187a2dd56ae92049cf98fcea6d0034c583daf7496fd94f049f98bc25c21c13));
  ((0x397fb72a2b636cc9e7783ae29707122b1fff6e6544d1c6525b4dc1fb465667e7961093711e6f5f4a0e92e8345aa59b3d63789709f0c53633457994038191cc706871eba0ce3d95c963f89c81412ff2c7877d929a1872eff839ceaba5bbce4e71, 0x349b9ca0d68e17dcd80a91f5c61b8785524a0f3f12476f75f02151988c147202c2858d27a91ec6a6d2a146866b5bae35492280081ceb468eb6851de2636ee5a918666547ea9c82c25d58b87d539c01f4077936181c04d224e7a5dea255022867, 0x31518097de6a17c46bd06ec2395f85ce74fe71f5279dcbbe9fc519d291fb4946e2e9d9bc81a4fcfb091cd9930b51ed804), (0x45f5d401f7cb2971b1e698a9e48695f56e753895caeb8a4ab436c91e8c7e0e7261e8abca83553073fd16afd9f0a2fd7a, 0x55e5fbcfa89d2bcc90c6ac96d7dbc3b3f734ce36b770d90a404de6606e300c1a03a5b8373c622db06a7b64b2ad89976b, 0xa8b2430b3bc6b2311ce4f8b4908ff199a6081bfb4b1ee90f517a36540fc39340a060f90524e8ee234c75edd435e857ce));
  ((0x21f755c797d813bfa17833487c2c12d1fce910ad8bd7c811291f288b983dabebc538a134f148f2f47514db9c8306434534cbbab4e564a034e8430c99f0f69443bf1adcc6833c02f68c383f9d302ab3348e5d466f7c24718f3071a077f1785a74, 0x215a691bb71b4ea738f8d8dcb18acf044d4f4af29dc43dc0d90101f62c7c8b0ec0edc4e42f4f7b9ec507c021e9eb26e6830f8c82e226661ca700e2110d4d656ef40faaf8e1d7eeec57e8b42e576e4b786da685c6e3393395077b0fe6c225605e, 0x1c685f8f6bad1af71ef8f3933f5cdea8950b81c83eed270d35587c14e8a48790ef51470dc4430ede27730ba3e1f70956f), (0xb764fe5e1725eef06db6a62dd5f52eab8991a3f0a452e6f73683a6b6d5e5221b61affde02b98ea77d4fa93e21bba9fd8, 0xc4c30b56e90e65f9f2d1ed20445526b724ceec53f30e404a1243103d6931d053f83defe6155e4619bbb6d5d2dc851f36, 0xbfd5fc2e8452a1e8dbba964b9b10e66079cc7a85175ba2a011152426e9e56b42e58d014410fa08563474ae32d5b7d5cc));
  ((0x5879ea0187ed8a35e7f953b8dd07693d44ef3506384749d0cc7d0637ac5f3d3e1184862537e6fd8029d065b78448993e54937e285a7db825f99f5f12590774a1b5c59ba4c93dc9d62a3920582e226a3d626c13bd26e0da800a4257020f434627, 0x2b216ea602c99f6f446a064859264998254d8c4cec3f83ef445f3837580309653844fb19769ef7daa34aae1c7d8f26b92d3cdacf3be01b2134061e9b30bd30c38855b49e978cc161cf9ea16a348d2eea4b704a35efdf8ab0e416226595c548aa, 0x359598c699b6353def5ac682882b6da618f227b06e24f66a45ec907503a30083486716c406042f046f5eef7c2d53860be), (0x21bb0596582a0dee1b211706c662ee8ae1b303c0496ac9338b63aa3894eea3deff2b98a76c33b58d524f9cfd5e2a3d67, 0xf67d029097ad903fb058057b4d3ed318a0426ae1c0d71afaa8e342922cf520dfe6bbe6a3063dc6d542b1db495cab4efa, 0x80f98db89d6562f170e9a26037e83161f087f81e7727fda0286d6a0ff2d48f0e20c6c33303cf70eccfc9b49449fe0012));
  ((0x4a846cf7a4c21b3a69656c01038582b00724f954812a39cd8c2d5421e343069c2d30fbbbc0e82bb39d97fb010b43e2a6c2857a1795ab6d5386d6bbf2e23bd7131030305446b8af0789a027ae396b849b1f2f580525a2247918022268a6c87b04, 0x137edcc0fd27101bb80021f6db64f7fac7da74c954a5a60f40befe22230177ddecd55dc8d42cd9b6612c417d6534d1ed729f7991f73b6d7173dd0573096a00f859c701640a99ecfacf1930b978c03fa50764799a9287ecc3e107c607003b4469, 0x1d240c9b21cccf44d91d400c0eae4aebf8766b9eda47338f004ca21efa3b3a6f92b629149438923e8b370cc1297bbf724), (0xcea64ad5f52da9c7c62ebe7b4828459abc89ab4c9269e049ecbe501ec20b2cb05daac16ba2112a86bd2044fcd7d0b4f5, 0xd6c391ca65f80ac6e63ab3a0c241cfac1d9fe49e1183a5da341622a769b62d6acd14fed335fdf8306e7cb95d10e6ef4d, 0x51646bc44a9e27054b8765a078e50b8e39320db3c6b154060fb380d3bb06d94a1080cd7fed7a45aa4eb2c313ed91e990));
  ((0x28f9262d268985c970e0c31abff643b55b5bd7e4a9283498ba4656c1cd309f1e5bc0fc5a7267acb14622b21de02362fbefd34893f7d26aecb2872fdad99993774d8b390f947ffc253df4f8403fb11f8a66531c061655b9e108c951368d3c839a, 0x7c39d30b1d9f9d6a598bca567ae2aa900dc38fbb7ed19b0a2fea0a8877d25135d3338d78e95bb4adf02a3c905925396d7f9275c538af9f8f0f92b20b9267e9f28f1d604f8504041771e6b094f795ba7852ac1df4489db69b9fb319c57442864, 0x18535032b57a0740c1e057795af130ad2dda94d81a20f8296dfec4570262b8e67a36b823c9c2da08f2b92656d06d7b6a7), (0xf166e99b12f4e6e06d4d45b1525d318f785accf262cfcbfd0da6a38db490f847eb4c57a0c69e36b9ce6c9fad3ca12013, 0x133b6f891541394e68b4768bfbc14b55d3a3142b73e6262ac3050a5677c1d620a813a034a4b47a82600b0ea8ec4eaba6, 0xbaa55cfe091b965244b18b4f15f9dea8247f4bdc3bccd384d1ab2f7ec0c39092ea4ee8f524fc4bddd1ef0116f7467470));
  ((0x869fc132dd892450f0a66d1becea8496a7192c3e9481aeeabb88682b69395badd5954c460d7544a7860dbff8ef29c969eea8ea8af00bbfeeffe132155cb3b9e7f05286f9e71b8b7e352a84b94d0f679ae0782e6920a142e504e696824b8bca0, 0x28d4156df70be1500c9a6ae24cec743f61453b7aa93370ed81b1812bfaa9b82b8573a3b66b0c3eaded5eaa5fa1ebfe35d9d565a8bd2bb2ed11c804d9a732d276ddfa34d1ce330e05ecbb132b1e4b32b1348d7cb9920adb2f6a2980f10be76729, 0x2f9b16bb0f12070775939a74cab50202b19f1f76bdb11d694f0e73c83cde30b35ea4c681337573a93f1753ddd9fd93b3e), (0xecdd52c94233b4b3a8bffdd474ffb77e1d722557af56a2c87658288c640e9adee9ae06cddfef3771d8904677b557d209, 0xbdae649ea452f477134a1bd95a909d7f4194e5c5be30386fd364e26b58d499b1b81048db2e43d4001a2e346e3d70558d, 0x2b15867fd1cf57be4c0b53d7b830bb6da67509609ae0d918e24551829932d5b16ef27dfc4f30ecb141eacef0092ac682));
  ((0x1327d8e495635314647afadd9bfbdf43b15ec8764f33f1fa0687d3dd32393856ec14ca3960d4e525ca14802a24602759ced582698c74ef16c53fe7bf55235c615cc3e72aa373868391759a39b07b925c7dfa6bf94efed4184f31d002bc3a69fc, 0x22cedb342824ba7cbb318c5a24bc2d11f61461dbdad0b3bbfefdfcfcdd5cce500b09094a78d1278bcd216f15e78e1f6275c131cfff6d8fcc36ebc52e080993ea4c1212f478c0f0df40f6849adc57102d0e050a3d8fdb38f349e805e2aee309d, 0xf205dd5d71f6baf0c5d636602295a4cafbc750794e59f262a7bbed05ac479eee0c2c2415c1d7dcba05621992bfe5896b), (0x68d4302bbd2914a15806dd50cf13972ccea2e19a8379d7187edb35b2b817aa890eb0e1f4459f232497f14f9574ed658d, 0xe931fdfed8ba7a28baa419382e21371d3984b2676d866c581cd30ddcded9d76a43c02bff5932b6b15165e6dc709f7a63, 0xc1c360a64d540d4192165312b4c91dc6f6e039d824f86fd03aea6564b94e812d355ced3944f645f889e32e821ea7c444));
  ((0x69e993101354caf953c561215c4241f4711ab465167ea4ebf65b278575a671e364a93ddb3079858e600d065ea4b76d05c9c504f1938ac3398af7adb0286a08a947181cc6b52101294422a5eaa320eb7a066ab31b85ec4b8b560f288417d10d1c, 0x2c0067ff12a0bfc0cb5ba2422f4ba8e50bb581cc1e59f61ca387f448801b9fe5fff88a299751ce053a991d44f9ab6016f7d6ede8537337db7e580b1d3615337c5c6a354d1b72496bc658c5a6d35aff33db975e6f1a3fd7e2de08cc6ad0c6527c, 0x32b1483ad31e10f63b7c7546ca7a788662b2131334b33c12ae333e3886d3f6c8036802281053000f44e92a2d88b014ff2), (0xe1f5e6e0c8125e03181ff870b3e96db340ba3a129b4f63e9203e1c747cd5cfaf851d13b41e9f9f6f3429be5c7767de45, 0xe01058a6c03d4eddde4f3e03671852beab2468862238e41b25dbc2c59b70a719134e7f65928f7cb3a5aacceaca0d8852, 0xa344fe394c5e2f6f900572c347998c9f1cf32722768469e50ac3208e2eb1d848c548076ef52bdc4054eb31b05da24353));
  ((0x55bfecbdc67109ebd797f53849ce3466a12766fbd6b33a451b52c0e10d46d2aabc9b3b1cd4b18a23d8f8bce95c2900b7683c77c42d186822c5472a340d8c2cfd9c1fdbe3a1acb8a5925aafe2509cd5f48d0e3a05914dc6bd0dc832a6dc81dd61, 0x1f3de5ff9e1c5b38a97d28de17227c99544389cefa8311cdb6d35bfd16f8064eba33c9bcd2638f9dbec27901922a88c3a9d955e1c84e89df6b8c82652aa1419414c978c81f0cd110a65120a9ea4880dc870b9963999302ab5d15295266e743c6, 0x31cb8569c0d11fae39ea9b635856d5672b51ccb329003659f266113b074f02def488df035a560633b399e8e12fe3260f1), (0x6fe87f85146662c348f496749d2acff67c0148469f0b811b657ddece29235cc063c0321af52b6d6a716493edb4664aba, 0xe916388339be48dde828bb2f5b9e67179e1b127d6945e88fc40615a385c52e35c96536dd75a48cb7dc5d2bb25cea970e, 0x58adfcd79dc3dcc15886208513e0b027cdba220216366280c51fa8d1eeeb9e39a32b0124c8a60826d76cd0d6826580ae));
  ((0x30734d65d7ab03c5cc1e5a8439a44e2ecd5665ac5f68ba7cda962436acb1b3d4a4cf59b1a11dba9cfcaa2610e17ff4f41985486c6d1fa2b4bfc1a9e60183956898ca909478ef13d637a4331d318a94d31e127c9693c26c7a4295c6d86e3cfa96, 0x937771636ef96a3e3ff23720c75a519ca4aaec8153a155e57614c4bc0c52c2baa609f7e70a3b31c5d480c2ca9f64c1e0231f894f09c8b72d1deb2736b416e8386679f890828f8378c99b3f4622116037a00d1984941a36c6d8e48c51081b73c, 0x17de9a5fe8c5bcf8964cf4634d705b126d96dc86beeec3ec3845bf5742b853cb763dbfc29309279d0dfe24793c3b7f6e4), (0x60c854b57ce82ea2e00be7698fce4c39358c7c3231e22605e8335bfe132a9235e41512ca5920345ef61af0bbd93c223a, 0x86502fa6b4cedfb45ff5e9f9489416d2295d6d36e131d9d7ca56043ca2c30515347cd05e5ee30d2dd88e4736abf94cec, 0xdcafd5c9e33b4781c210d127f9f987ddd6bf5cd602192a546e760b7ca63f20067a1d858c209a6e5761f624543cec734c));
  ((0x457a851badb090d81f1236f11cd47a43f146e03e62fb221d7feb4d1c19c0d52a0cbf1f1b1f11a4f455b8a74940ce3ee27231b3ac6e3ff9781ffcfc805e8bd9a53b3bb10cc720eae67b80c1944b623c2f4a57783d0049cbf6e4704734a4de786c, 0x39144d97233de3457ee4fe13efddc46adc55b2ebd53a0764921710bc19e0611add66decbfa350498f280deda77a13f975b844380426fd8267feef6b07a8487a929d6e67289822928d30babf2eb3ee63dfd71695a64e136e295ef05c4118f0979, 0x3281160cd09d78f601043f6ce7d57b49bd7bc845581c3311c8d0945a84c5d538eaf4407b0b275556610b380f0b59869a9), (0xb4925d07da5086091686225507a88f4c693e32643c380d9e906e37ac2c4aca32dede67bb23ed16883eb963b235fbcf90, 0x573be078718b2b639dbe449a7aaf608d0525691f651c89442b508400387a9f5c36d3a6c5eea2cd5fd9af02f9618d69c9, 0x4fdc41697c6cb2ec6de27ab9413ed2124ce10672403451967bb9b0a8b6fe5a451c913b1a837cbb1cd3c6d3023d59ed59));
  ((0x105458d0c12e3c5f480e919c7541e75cfcae175d2d0aaa4ecc26d8cb147a9b0a22adf80e3f0913267a647c2b91dfa8cf17cb7a59dceaebf2f38b6b9381d6c24607d76d72699525340dfe202b2243515e6b1e3631192d1f23955d3a29bc1f2463, 0x7797feebbc952fb0e469b791afeee3f29906a8a0dccee1ff9fbf6ad7f6575153f6c0c71ec49db8477395f669075225b8db0ae36cc60cf1fb0fa3d3a821e34366c56a3b970e121e9c13feaae555f7556e54d0838fc7a438127bd97cffee1fd8f, 0xd91fd773c505532edff2efb48fd6b5126eaa887929600c709fb8e3cbd638ed630ee0b28a43e707a0ab4c74515c978d9b), (0xdf2bb07e20baf4770635e99dc6cef3eafb008baa81c9323b8cb3793d5fd2efc7fd79c8a112517009606042caeb4f3b83, 0xae349fce5bbf9fea52ebe9c6ed0735c191caf7751f8b38fe1cc1f5a88d21f6c8a042448303963423790695ed50bf4905, 0xa55731a99a078a2ba7a1bec8d228ba8e832b99ba7e9e0b3295e4612bc7fe8a8a50b43753fc23e4ccaa80f065050eba5f));
  ((0x4383b8c606915b1ff24fe135d5e4fccef0996820ab2358b63d9eb08edf962707639b65057f92d3d9e396d1697138219f5e46a7829e50a84fb362b5143b2ae343399882c1e79718735eccc916cd7ce90cd747cff50b92947715ff0f55315b71ea, 0x200a182aee336aca520708efb025f9c2b16812134268f41bd519ae24b3d8c074d3a2e52b667e5456be8fcbd216fd034a740b1aab0bcfd5030bc1696b700572c6029ce0241057ed2610fe1cc423830fff2825c6a91dbbcd0e0404aef92255fee1, 0x2d72e76ff106c561fb6859c77a3fde5b4549df0b39f819cfe54ce8f1bae333951c1f0a49895405784307bc677bae2265f), (0x5515e59513469be046c1dd7e046563411663f31f039382f76e3ea1a48a2e0c9ad1111b5da4e827c3b30df7025774e053, 0x9c2cb5f5f148caf3a09feb472dcdf77c67815af4d8b3772bf3e8a7653cadccd03fe6dda02f53f8ab984e1aa838fe7231, 0x9c802744d3f40912cc1a6b15baa745ff82db6989a69dd62ccac1313898c4106ceb18e7317d5391edb3f8e6152cff1575));
  ((0x394a5ba8421f601aba965bbef8ad426d7bcc3d658abc9b725a0036702344bc312dcecf511360c9d964694ad087d4478fa78cb02d6031cf5bdb3d156409891fb2668167a5bf9fe232d6508c3375e624522881d02c115ce80caca04b0049b519cd, 0x1cb47be01d5f04f300197bec820146e4291d116041b1c9ba3fa5856c203d7c6d63c3055455e818c625fa84a05bf36d7b1aa8272301c9591a75d6bf78852dece17cd0848c233849d2a5bd78d1a2a028a1c94a360a1cb93b7edcf2fafbe945491d, 0x1e653b56a047ea24097ecdbf6ea616c6d21b89b243a75fe40eea6ae4d2db8d26abb5ac5a8b82faee74d7edb8c8e593d7c), (0x5d3fc98a5cea5ec9731cbf103aa2ff7dd8bd94e28dcae894ab65507ed71e7a789465e66b88540d5de514efc3963d3356, 0xf4cfc63179ece568f995957bcf5b53af005a4f2e27b850b6aec59bddde47f783e833c564f10329556b499d1fdf8579d1, 0x6eadf3cd9eaae599d64e48efb0fba5df2740c85bbb84782d40fede9699524c32b199437b0bb97058d6f191854028cb26));
  ((0x3f830abb31fb88f0187304fac8ac49ea15a4c7627c33d0e727d4eafbdd2ae60c4b0478f3f8d5ed022292083847244ed7b022faea549848a8d7064cc980684c5e9ebd5603d2173bc7ed9910ee8b2bc824ec6668907600717a8e820a670f72ecbf, 0xe5b5cae564d82d4850be64e291af140a16038a73e45803d5462aa6185314985c5b0298fa91e6d2c66c3223a33f353319b50591b10efbc576bc319c2926c5a04fd6dfce79e5e0b4331f262f2f3d0b7903de145931f9ebbe8f87ef16af2bccf7c, 0x1ca4c209f0070f58e791a65e67e940a16c096fbeab461959a156bf63a90719db8852cfbf5e1bc3e522b8dcc3d5b336685), (0xab7e8a597404280823d8019822974ad10acbb76f4a18b6357501771574ce813bc4f64be18ff8bb0c72404a0d05e24a63, 0x1a83df6f90b85279a8f4ac32bb76be9ba7651aeea7541d6e2a512d3d43dde5719b1cf9979461813e2784f2ee4bb8dc4c, 0xcf0c41d6ef94f2106347b01744e78d57d21a22e473d9d2eca41fb505878f8500663dcad5b51b37fe4d416752520a219a));
  ((0xcde472cdf5b6e545f12a4b46e4cac642612765676c6cd535ecfeff2e6fc1072fa23bdc69b5443b9b5bbeb9c234082fde610e71e3d816eb9631e7db809164cd1301a3fcf33d47dc302d4867b1decddf143ac25a6079b05ac0ae72bdf226c16f1, 0x323df6f318f1689466c37d5f2ed9857699b77d39dcfd210462f0b039192f62c86449e7201e700de0300fc363abb5df1cc741fa1a76ebf56bc10f38c6c26d1f730978b19184531d12778659af56e9609a48dce97aa996b7ff6a573e11631f49e7, 0x30e84965072ffd357056116694f5430e2155d1b700d52c2407a9e82ccac69865c26518c314171c60c84521b263bf735ae), (0xf9804a8c86d0054613da1ae728e5b56f2200ea0436eebe7945f1871c701e03d9713662efe66cac46fa75ff70dc6be03a, 0xa086bfdd77489869e57713d75f3238707151f35fdc5c92ea0ae20f611d7e71ad382ed4691700c2d81536afc30329053f, 0x5df4ae1938af8aa506b782376680502f3aafce2bc082094a7bb78af5f1591b71423bf824ebba2cd9e7bf0d0abb482346));
  ((0x235a5ae02ccc0f8a1d53a68a7b1f08ce9dec54f737a642c5f338be45076de5c0b8b0068116ac64e20f9ddf1dbadf3cb932042732f20c1e3890d71846809237c334887931914237caa62f2b1e04e49ed385a96f2db7cf02554ed5a3f2b16cd12a, 0xa5893f331234528a0c7df2a289d3e14f9fad8e96a912b3d2e3a096739c285c6b96adb87de1cf5c02b1ce22237272f7f84a3035106dbbf6baaaef36c2466ca887868c4e08c2de6c55a7bc07a5a97f9132d46ef42f181e96dd7ed41841005674e, 0x1833fede602758825b61a7f583ec81d56383b1a48d554c2deb9e31462de3b1e14a572e13cd070315170f399bf4f144953), (0xed9ac4b98036236b2de7cc55cc313b3d9ca4e29132082108a312519473d63d7e76d37e1a91836873e963f4d84624698e, 0x201a3b67def0031b7e92851f0e0b4f409f8c911d23289274ea422f81040395c43057408b236d98d3feddc7c025aeb776, 0x945e8d32af2aacd45b006fb0d2157e8b72b1fc3e6d9149a2f2f6b8c03da7ef5243df110b5281f7462fd3f9ddbf00eff8));
  ((0xb2a1b2592acc2954d877254d7d1a311a068fed22a70ed5127e4acfaed894fcdd6743e40fe4b2dac7a79d87ee4d3b66c039e365e3ebc2f649f997b45f037fec096edbe2594537b24345f97a1ce1277b5a74ff1f3d0a9e7c0f761cfcd79bffb97, 0x19ccb7067841093b9ac1dbb1b7760008f29026dfed2794799f4d7475b54bb36280e1c25f77a9e5239db06bacaea097edba5fac389569cf4e737785228f50cb45e65bbb5537d755ea31e2953f04914d5d0d0abf5db5eae946704938fdd0376fb1, 0x219696b4f6a51a3e659e4bbedcce1dceaad59c61a5bf275a642c90333c395772b510f9d7f007e83b0c479fc74bddd251b), (0x88e357a20b7c2f562cf8ad051487a096569420b6117e9ed00da0972f7c86d053e6e09b4c76e0358e1812e143e1f705b, 0x9bca54f0f679858a66b31c8e57878e6c396bce7b6f19e3d31af16a3b97087e757148c05872cff5432ae00bd79df46079, 0x4573278af05b1f3408c272eef260a40441978e59a14434562ba06ed6d90e2be34ef9455281b5a10c223df41c5c35b75f));
  ((0x195c6ebc8633bc34f766873a35368894841a399e65f1b913dba98adff585b7184ab21287208ea937484cb933e79bfcddcf8438483c88421b6a95ab462127380b3421f385b2ce53cd08935341dc0efab1a9d3d2ab3bff0d7f5052ff2c1f7c6c80, 0x5a721ad5da9507ca98872b40ecb392e8fe5dc2dacb54e48643a096cb12e8c664608d570e6a1d4f2135bb249f212d8392790c445d7317e797637caa9d3cd6c93724385254627a77a3f268d192dc7c60dbb5d92df418e48dbe1340b1f1623d068, 0x9bf8d35ac97745505ef60fd02eba9b3bc4382425ea8692549801901affa91b39ef7cf214b2a855c2f9c87c83f84e1697), (0xd81725f789070eca626d2df5e13da391ec0e63cff67d8043a771ef3b79d2ec7b03f12798d689fc865f3a136c19d80fb9, 0x32606c1294f1051eeeb7506e5c2fee7efc57732912298d215afe33920923a3709b7af716d4ab6df3b077ebd1429d76e8, 0x66cbd374ea483152ed8513cf55995f4a8a5a4863ff0a6ec9f84dc9056636860ab77b3d10edbf18a61c0793d993036d15));
  ((0xc236f5a73031ad99bac05776d0ae956d11f60ceb2ebec3fe2554d213405817c21acadb716100fb651ce0d67265a4bacc4daf4413966d7cbb9a77eda20d78809ab0e72eb1b57fc1676bdcca139c47d5b39eacc83244ee5d956d50707b7315d56, 0xc627129df9f1d46263a862937931e3962cc1c9b6472da20093772910d25e71f6bb71662383cb252efb98f7a7b30958463050082545e7bc19e878c44dc00fba6894164c8e9193e8bc41c962a5f754b1da7a530782714a84692ba4dfc358f5032, 0x1334986da1cec30d9436052f409595ad7403daaf7caaf1bd2ba25e7f40590ba4b662a2bb5e03f85948e77a2eeff2aa6cf), (0xfac06597957ae42606c233164744125fa1b64fd42155da77f5fcd4993399d7b9366963c79ad2bb4a139a8371c4010207, 0xc4b7910179821d242a2fb895abcaaedbfa8c7aa0d52e2e2b64e7a5031f951e1452ad7562d8d28248c825cbde1bebba42, 0x1596c7fa9777f712cd1666778402286abb993f9a5ab4731919d45bd41dbb7dbad2b98fd6820a745c2a73ae5d4f0c2294));
  ((0x9f46a174988597c0032d7bd30bab934e8099ef62816a9c7093d07ec41e3d1842716c21841fded4dc21d2f6634a15e74d3ecc97b857356c0c7457b3e8f7865136ec1d686405023277fdd0600c7bab433c0170e5cded9aad124df03ab0aa492f0, 0x8bd6f3a4c08b9b217a65654a8afa08bba80f1599e96e68488259efdf68266a6b92000fcfc3279baf9bb3ea915ded480267f1280a024493fc07676b9b41686d058c43bfc0de42f7a7ecb97773018547eeff3a344cfe6d8860835ad682533c34, 0xc6eacc690f193aa48bb5bdf95fa490b65881cb03f4888ca39350e9619deed94029d4191ab2d09e42a1e3a231b1313072), (0x58b7fb0024fe120251ed37c60fe68977d604086a32e8d291ea0fd10e858783febd92dbd7b61f9767cc436e64522b8421, 0xecc6e976b8532e7025d86a8ecad9adf9b535b8a081946f2a128d410fc09480f176591ceb8818ab28e2d16681687a49c0, 0x19d2824ceeec56a989a615da086201a57e98988fcb7bdca3c0ff5e910c423fe9d5c4d04b78a3dbc84ba252f251e04e3e))].

Definition root384_4 : list (poly3 * poly3) := [
  ((0xe54da15f75adc3b21345e0999409ea1b31f15ebb356a013bd58ddf2d210aa76436c2391e48f7f5a2d7dd1af508fac23d259ba4db660354062bb642d83bdb50d99b7f75bf686d9f03e3e7d2d588ce0af7c20ee5fba31d4ae7cd14d526d54c250, 0xc80ecf881b84e91c377c858f962faf131df6f86e55ba238b98f52acded9832d310d17df04247507c840be44099837445fd93a355276e008ab6d0183c14e992ef26262508ffdd8e6957ec138c130f72bd24d57e28a2e09345da74a80969fd21, 0xf4b58fd60b3e5034cf3abef105c7e77b9c27a05771341f29895fae9ae1c98c3746610558ad813a1db3af3c8e7e0030e9), (0x3b5bd121b2ac7755fc77ac261343ebc8412ca47baf30c80ec27ecfa530301116fae0ff4c222b3e7d5d1be2e32c555e91, 0x12d93059374d9a60bae696bfacceec550ce6cbc903486b0f981ea136c4a41b12bf49e71e9a5a3bbd2e732cfea7d4efe1, 0xa08256c11950c4c14b3f854b674443fc6992de3b90192c4f43b8a08d9dec799a9b3dd08879c01462e094ea1b0cd4e1f1));
  ((0x71763bc6bdaff39a1dc0b4d872539670db366a63ca1d108e9b2c9d6da6b175f14eb9e03db551be3ac29d904a9f0933d32e51ec09b6b01601adf27385e46d265d213dd5e96464e5c16c0db86755d9b8de6e2041897ac7a353c1aa6cfc3580b7c, 0x1e31bf1becbaf14da25d892e2df0349969caa4eca59620531c0d027a803ae85dcff061c1ae9ff2eab2d201c9710c07caacd108df25d115ff048dbdd73a1252d702ec1681726cca434af20c91e4729c8e58b3c8fda92f8715eec1bb369464c226, 0x179bc065e19e597ac174e4d876dd6cd6d44fae01a109f1a886700b4d49ab841c7e3e9fe1b6e8a98e81c35fc0fc1253837), (0x594f8aa83e484c54a020bae66a8485646fb67066a43af8efcf3a4a4b78ce6d834089f8bbd349222e89fb841649631dbd, 0x3deca7500665a40706bc62e30aea9b77ca8503e165cc448db88b48ae588058a7fc1bd5445dcd6377d3c0255ad041b4fe, 0xf809a890adcbd535d00917805e9e843d2d5cf825d6bd33e17dde27a7c691222c6d48b708f9888a10f44b420d0166999d));
  ((0x2400b35cb1f78ac61da731466841b879d5f6a6a052ff462f9f91ee71993e5f70143de7dc73291edbc526a39378751a270fc9fdc17b4c0f9ebf43bca51c3e270e8e66d2d70035c4ec0e19fbd138d3960c7e209a0c663db0aeb0024c0ece819604, 0x481ab476105702d8bf8f703b63acd6e3a10e4e47babdddf84c553ed9fbb41b4e85bdd7a616dc582e9a46d6e4f494047e4932eedfd6dc89330fdb5acfe778740033e8b72d2b4eb20f2d774413606a69cb85052adeac01947d79e2c11d3f6e6646, 0x38d03a13ceadecd242b5f78959be0f7760fe86692dcd3ac26a13b337bf5843d7abf622022594f84011887c676369254e9), (0xfada201844bdb8a9dbe46775f5b1f36d849266a160fb181a9243e2e2fc22b58e63a8016f77a13c745c269ace316d284d, 0x8dcfd3ec0c3e9fa520e02fa316c49e00c8852c67dc9d19931a0a7f1fa4e11752ab10914e93ae94d08f8907c0197a6586, 0xf331da87e366dc9356aaba24f71996997568638224d09c47ae6395c258d25fcb5c28e7ddd7f712d4bea2e563071a039a));
  ((0x50d6da99d3ec9d4b76c051c37c75067b5c63eb08a1cb8b16942d48973d9613a385cc1a44a7abb9d384e28387eecc4de55c4a36678a50673132f249003f0b6ac45c860f913cf06fb3010dc833a7579fb4e33b49dbfcdd165c5ad8dcab501c83b5, 0x4550ec07fd4eeabe8854ad456c9ec431dbe6226b2d2b0f4f2d1d56a11a297ade805901e581c0e48d49eee66a16f1569dc170e725f5a87b6e6783dbb629e0c1776540278338cff008df9cede818bba96a622a1ecc3743d8f119244bd01cd455b9, 0x4e0417098aba3f881d392baf689cb750e119f7be97a4fd074055fc652d0744787df57b91aaeb06bc7b4c9c3f41af90cb2), (0x9a5dbaa8ecff6b00c4f238943cc0bbad2b2da566606e92b80c9c5f83ace4987b9e00aa53d29a0538aade7ac532ced65e, 0x12a8877d554569c89a99ca54b47427f44e9820f1e8781244996096234ec71d3b92a7faa90b3d96351534f0cfa739223d, 0x6cea9b4f71ec101f6ff531246c1fe0e971d42f784c411c3db917204f37fb2947c85a0e662d725872c28faf9f14dd4366));
  ((0x4c3717cfd46684c99c7260e299c5de22257daa9fb8773cfdac5ed8efe404d899114fb98e628067ba7761db3e575f940101bc66a8f064f16b327c47a596adefa99ea53855dd7462623899d77d97ead33a57e42a210b08216afe4b54f7e4d59fc, 0xde73388694eda82fc35efd51bd20af22c02e822d331ae860f27529acf9712414521a4ad4770728165ec83fbabbdaabb3346bcac7d2ca9c4222b888f1ce2192cc0e480e0d03e78974a78364bc0d9c0d498dc0740f1acf53ef535eace7c785e4b, 0x10fba8446caff4c137cdf32167de81b26f299bec43fa40f206cc8321361931eefa1357c9adf8a8c29cdf76af10825cc09), (0x57077806c1c4acbe4ff1360cffa1d55987c2141f9bb45a29787837d1231d99091f9f91bb9b381798b60463dac96dda40, 0xb1417ba91cdd48eedce213bc3049bf98fd1bb9f513e535e38cabe53355cef7d12e9deb4dedd683070b4696039f00612b, 0xa303aa49dc57df5e11a779e643a4d17504b65f80f4a1cdfeebe8aeb511f9a55b6c651bb2e5cab202e55e558390c7bb66));
  ((0x43baea42dce0e678ea0c535f5bf66e91cccef094af5cd72bd233fc17d2e6005d1a7cbd27544f06746d46f8fa2b8b43182ad5b9bdfb6759930f39cc1ceee0ba9e962910b5e4eef9c87ab3d605dafbce43e50eb1a30e428fcbae53a834b0e3bdd0, 0x1f24eab7152ffdab2e844c2d8d9b47fc5070b05209c3dae6c7108a816d48fe3b5d7f0ccc73be919b4e15f77150dd56eed16617801ea426119c52c4754d1545129a92bfa1c7eb1bb53ab2d845f8f1417b35ac80d33d2310da75fc3b9f3c3d0755, 0x220fa9f43e8b75514cbaa12d2426cf4433760be05386b650536b05a8d468c9e0393998e63aae253e3bf9a0530eafe0299), (0x546fb6128796b41cabaf87d8eb799bddcb687e2d33c371b2a2d00f4310c6803d2a28f3a1c0821a5f4c8d8ae2edbd6610, 0x4b87a5ec036dc7d8207822ccb100d3bb40f0a249c6d1e13b4e6d9c2057789d139ca86e27f5ac605af00d69e0eb50d7e1, 0x13e3e375a01245370facb441c0b1be3149cd67ddf779367a80e87689923572841d718e8f424c3676a22e75e0af0990be));
  ((0x385797596b0f3799fc6e2a8e269f21baf8b65317885b30c97e32f792cd825d30ff68bd5cff3730eb49c51612cef6eb355e93b53d82ecc30cd79aeb9ed97c676e20d7a69b222fc6edfe5b81de02baca41a9d160ded2c5c9a940863d065a8622c, 0x76b2b34e8ce854142924d76aeac65f24c418e525a2e1835c87f30c9e872194a0746530acc0bac1a49fd6d8e34fc05e8ff99f60b0061f4647077996f61215f6140d3fcb5072b764185ec66df5835f3cb5da2be994f63445cb5b87265ef30c29, 0x280a8829f571090883a7ba098d5464e46ef0351f6267e9844ca48072348af6ec4aa4b566933d2e3e85b2c196e326f644), (0xd141196705792a48760860c6d952ef2845c0cb599e4addec47623a0edc3a609116aec4db8096644e0082af85c71ceeec, 0xf38bda43f5948975bb771976801727ad8a4a0c8ce5f4825a6ab249cb7c0cce3a557b9f79107042b5e4de24a125e32e7d, 0x764e130833366cc8dedcab8492ba136fef577e431e10b35b333ffd3d6033bf6ae83110e9eea3ad416b1b2c586a7f10d1));
  ((0x43896a1c2977d1de015814d25ff375255627560a851f299655bb1bcafa3b9318db6c3b65d21619a57b29860de2a41cebbd84df7077d7c87d988b8a086a12542b67e1baae74c91ea774afd446084e889ab7a2906d74622056fadc9787c000168d, 0x1067401ba751a3efbb9d7897517ac2cfd6f5e0fa9c293eae18e46ab483eb4b5084143f20ab2724bc0b7ad5620669ce1ea659be24876f24af8b5a12fc5059bf272067013d50057cfc76ba46b8656aa221a41d526088fb598ae94d27ee3e26e30c, 0x24d1ea708c65e1bfe8e15718d2e06f25d6d06ae10b53dd05cbd20c0f440dcefd6eddc350b5153aa0fee8bcd6c80470934), (0xabd7381046369c3739605fe25caba40419af6dd737c4e378b48b76c21c555376f12f00ed1235c8b092acef4ecd3fe3bd, 0x12b21bfef9c8dc75afb07810003431182e18781edec20c87fb59cd677bd9d7b49b4bc2688367e4c8bb2e608b373b3ce2, 0x7566bbf741ed8fcb9043be01c60abc55d1006da284d544229523250f6feaebb74c8a97e3b0c62f43e2d4b4ada3142f78));
  ((0x52513d34cd891ee2f8c219f9e44a0f78a9d39bab80bfc419ad4d9e5b3f1936c2dfb10eef42ef3c7651e76c222b259d149301621b504bb861697cf48d90c312697de32dc1102628e09a6a5584e2c9357ae8386974c9e8006b2f2ca9ec22998b7, 0x102757f00dac47898ab5356a61feeca1587ae8fbbcb3ab8e2cfa19616b7b3d518b450b6df68179b8c1440ce0b281cb3e32492f87ef3c6c59b4411f45b605070239413072fb3d8e98840ef0a5327ca193bb09c69329602df70e2194fca9907c16, 0x1407f6011b78df4e4295061cd284b0ca155521473f2ed823b46ebe3151967002dd341021f8a583b74f864a09de3c1d312), (0x5568df28600f1d7390562713f3ddc0c74d467e0d6d5d14ca5773138e36bd03be926d004b3e9e4670eb308695c7deb040, 0x7aece9bb4d3e41d870889c005841dae90011190d576d1c99d9c9ba0c3a9efce4532b8900f3d093f6398ad665d88b216a, 0x956b04c3dfb3e47a7882a5c713a761eb3472e646df8dfd0245c79c96eb02a8e9c8bc4ae7b01fbf3931814330e1d4a86));
  ((0x2b0d7efc2aa0dbfa444184640904fc5a394da2797c108010164a6b047a0f6ffecccef6a0be7f55116d73c78b6fafabd66ce3d21da1f7cfaac9b02801d7ac907a654ac429753775d8afe195e97c1a1200f3662a71000a0584c50df144b294977, 0x1a2a6950170e6668e3a7ca949e8a1af5f2c6e09b058bdde2df84a6acd567c8a030e15d71dc09651cb0957ea598d9f52a8ac13c153db2d4efd93e6a8372c6dc24ce5f7a14f88da8f2f3856c398d060ccb5dafc0e492373668f4e09a8f47bcd3, 0x42478310ffb02c5dbfec66614da3c4ba9d72b3be4f9a410c321cae448c678fd68131a6bb74836613915ba769771691fc), (0x2e32ca0f155efd614e1d4d93c2fced0bf453c1af0a2fd6c0b914b0334165d99bc89ff1f2001718d6ff2a6e631f65e0f7, 0x8092c885aa3a894b7c2370db50a9206449aaa60bca829be2eba1bae29d79b72c4ff19656a4a016f39d156c958052d0fb, 0xf736377e2570a3948d75aaa5b5d00b4c4facf28f79db17440f38c679c4a4f71afc5b3ddd800b25d9d7b0a3546e3dcf4c));
  ((0x4a80dd7598f7c38e73db1d7cb9adefbaec8215a82eda71c74aada83de00b7467b5387ce55264a037580e50ccac7d23de4c54cd45d21038b4c333b550d2a328f0bc1a7088505a35923e61dfb6b191dd5f8c754b2fb659e303a4781e97ae3bd1f3, 0x479ffa5349ae7b372494e72f958c9b179cd46e5bcaeacb0c2a73740dec01c6e309b21b793832df10ed00b7a8870f5ebb886202189f0ca125ce10accf001fae6094e4dd3575b88f720e621f3c91189e964bf13ae2bd470f32aa857e108ecd7f19, 0x365f9afbf582ca90cae459ed2be60ae219350bd8e8cf76df3b075111cc9fefda4c25f1b40ae1d319de01c69e2c73e16dd), (0x5db2d277a95ac2c8162acda1cb1df3f70287bd62f064dd96b8bfcb9b6d6a48bc81c268defedeb6c81e1cf54b819c98c4, 0x60afba9b75bfb20da2481e4928541e2f6a1f219fb3cc9adf11aaf030fbed238bf6fd5f0b42df7818f6ee97d5755fb98b, 0xbc76f2eded4951274a89d5542f0a7195646eafe634b5873ec437a2d241910f61631075b3c10c51a0038acf6978e1ed4e));
  ((0x2ab64e29bfa8e7316e45af5db9b04152d24d319ae21cac54153dbc8f91c4098f6f5dc09538c0856088eb147370ccef606643d1424bda27bd985a1bf4fc75b3a542281cab185f36c94efe8a75b369f7f326ddf2c3087310ec3fa18ba53ca1a68f, 0x29a0c4a24790358950eb3d796205a6e18a716e0d419dd78c8121161321461c01066c82074958e9bccce34e5ac69bb725349521b2517a09b5c8ab266f91fb99797c4bf4320d7fec8368280457dc8fd09d53281982b6279333500db17fad8e49f5, 0x24eb6c09a33c889512d36c70bc1d5a4dfbf2c043766dddb809e6e5bf68693eda6eb5303d60131df9cd1b5ffe4d12d0440), (0x61a2c9b24a66c1dd4a26d3470e20719b1d7c3e4f1aaa7a222457210e1f5b630288bde6f0b13fef49d6b11bbe6389abdf, 0x228120cac0cc4f0474722fb2bbde68591e21efda87cd67edbe4ce9abe024e30116ea4f88b125dfda32ff0ff54a091329, 0x4526f89396fb8259f41b2d97ab4cb6ff1a4c2db501ee6d1daac8e99f992458273c1fab019587716a8acbb22aee1c075));
  ((0x597c7d89860ca54094865429a5d96da59039bb1dd53590c204964dc34f1c11833997c6efd3c0dd25c7fcfa8fd666d6fb03ebc1b5cca0f86b56777ab932011be937053de794f00224336ea4f4dbcb2249b4f7b5673cecd298d931a60a295649, 0x59ac198f4ed5071caee9dc7cee0d8db4bc0f823fabaedc1ac904ab4622fffbefd1cb4e3a4b2f02abff863ca0dc1f0cdaf06c18a1f52cfd039ecc2ef2cecd015b6dc249ffd41925ea36f0a0f144318b42786e9317709ea9adee2b10a1f090b, 0x82a8f9a5624ae6d3ce220157f1a21b113f464bbb1b39a14497dca61eb528c27f7b895a33917ee73f554ea7e35c4c739), (0xbc7a57561c483886c53ba7a46abfc6bebe7fe371a8af3a388c810b8715509f5756885115864aceab5f62671d1ddbc2a, 0x36c7cdcaa98b1f06cbacaddc8412df6b89f74ee6dd5d76483e0c6c690a5970449baae457b3566783d450c9fd044e3f77, 0xb523b2e03ad18f37ab7d5eedc0362b0f8d3afd7c09c49138489d2ffaf98d1a14be6b44a58c25bd4732867eaec2c69e0b));
  ((0x17425a9361d784196f54067007fcc55a7e9159c86e89ee91f7739d88837aca0ebbd95e944ee17e5c6c1d4e76387e5258009072b5c77aad6d737d79e29ce1475ee168fb62e1083235761df9d538be38d5bd6b38e4142e0623bb413406f3fdcabb, 0x2674754a4d54915e446c347704a5df8093956d93a21e92d15b29f54ae2b836950a504d446c52ee6ae46af8d3ca23e07e67d84af0ea0b3e741fe34121927a3af8e0ff24ade55a2786916c5a2362e8bff8e70b03c183c159aa209aff1b80009e09, 0x19ce6ff8b01aea2a58910f2b6e2f035585eec74a664587500218d6f73979e76d810efd569ef11c53c894305adde29a243), (0x7772ad39116dd06fb1932f8ec250dd62e502f82f7dc38c332fddf2c217abcec63c56a3e821606479775a10cc86cb473f, 0x873a69c61b64a5584ee7008be4b8f59d8ad4b2228dbbb686c9f29ed6ec2205b93da56c6915f889c24d29c547dea43653, 0x71787e812f7223f3c4504c6fd098c8b116736fef1529f9bbbef9b7483c92f7b9bf486ad8d05edaa40f11c4645c742c9b));
  ((0x23f79a5a6ab06249fa1193cd238d02b6e9d34dafb0775636756852c8d267c5d2d047d87db442e600998039f9c4a93e6586da6aef632fec2dc6e95ef2bcc023955052e064bf18153dc696971d89e81feef780c7d218aa1236f2d47e7d3ad3a211, 0xf1713015060b95432aa44f1574ae2805648c17ace90c3984393aa2e14295629c74d692ae5e951ad3586e1b46453fd315134fa96a4efd79fc0950af4d7a57252208a8f3c8febbd42d3a5b161684c839b4b69cea27c5332eb0742c2532f00bb92, 0x14835208dec25549d1779f15c4cf97539614f74c45023c0295fb659497a8e1e3e76c298ffc935a0b7a0d837e171552d36), (0x9297ed53c8f0dab4bd50e122c91424d0965f968255391875697cc36ed5eb3195e2fc446407093339b14750df718d5b2, 0xf6f720aa7216b1d4d6d2c44bd07928ba1c041d1d12be0b4fffbfeef6d9bc3449d3c44a3a9a23816dee4a3d7061c55e82, 0x55ef7d8db7ef15de256bbc9644a96af7923e4d3053efc218a2d00565b549af87803f430e43d5e14fa8e2de8993ab2bf4));
  ((0x31bf28eae73087f22d038859cdbd623514914f10a60ae140708307032a97d5d569f1b191af5aa9582ffc61893acf43452a429881e6cd0bb0f5859d2a579a044f74362df32d3ce74e551141c26b2746c20d33f387d25080f7aedb7aa600e5b508, 0x8a7b351ffc6dad1f5998559371dbc0913056e009c043ad87d3944009c7284a3017a6df3e0d95f86f23607cfda292ffa9c275297ad22eacda8e1891310d69de6206e02b7e0634d60667db5ecbb2155f3f98b3d42215f0a4dbc8bd9cfa4f9b3d8, 0x14af1504c1073053591e34c86b1163b54756a54596339f28d6cd262182dd6c709c3c9bc05e94c3c16ed18b166ac1c83d4), (0x12f9fcb8396ac7c176e4fce648827e7933c18d7e10cdbd398fbc8e8a5f7c14c9ebe486172decc9d8b6e53f2b16d0b1cc, 0xce392f38482bc38ab084efe051025a43d9a0e269f6ab67f0f8fb002900cddb2a16416c71980243a3040b972deed2c910, 0x7c4cea8bce87d940c0eaf5acdd26295de02cb744becb7c9b5351e69a34743283637f03634e0c08bc17c0a81af48d06d8));
  ((0x3c15c55f50588ffe760bf0d5a8744d1fe44bdd7cc76667618a4c3dcfbc1791ce5ddfdfa7dffd6ffe9b3c490c96313c964631a56f137ede087bef25a094001a5c987551f61d20b8ea9534031c2304b95b8a65d8828c84f4ac474efccff3b56188, 0x121ba7d75fbbfe2dbfd5835dd367dae7fa1793fe3679d18c384ba474e0bbea6554b42927f8e62ddf5c84fc05d90846c3b97edc302e736e484137f0f12e7e8cedc46d4ac6336e03478b1a31285cfc666c1e5bbf7ae3bd858a606b8b47fde4a75b, 0x16d9d77c582f3d8b406ffb960a75fe85eda06c5098c794816adb466475c217b0e31b061f0e7c2e10535a34183fad550a6), (0x51cabd84129f2fb3233d9d76142a2c6988f54219bebcc05c077e85150642f52e7036850f0e374ee23971557310d8cc18, 0x7d33ea70523cdfd2c7679b14742ad0641afae8d0b6475a9a400dde448e9666671b3b8bbdbe094563cc4dfb6a650dfddb, 0x24ce60d9ac4804e51c75b8308b2081fcb5b548ca530a8235a64c29a0d23fd77691c026a349d3f048ca859fc418958ca6));
  ((0xacd395e5c2b23f7d825d370a9a2c919447bedaf76d949b913bb26b88a39f560a3c134d5baf5b6d5e0b60058e0431b8b452cb952540221f92621662bf5d7ee61be72a79729ce48c904e8d1cdc73ca813b89a57f4b078abf975ad96c309af03ce, 0x19673241cc36304faae9a56ceecb52b822d892b54e6bc7871575ccebd03908cc16460f5fdb7546a3561424393701c56be4eaeb60f9541d38fbc9bcf50003b450b099ab08f6cf8aad1c3b3990cea33172cee8ac0ef0af0abbbc53ef28a2be2ac, 0x64a0b7c9edb7c67ed8e0f3ad15589c8209c8b9b07cd9c4ad1005a93b19e473eddd20bc0dd8505161769a31d65f1f1a81), (0x742257a52a669d1d3fb3216048ab116cb00b7442cac5db7ca654c63094991969bf4896ffa9415c87f703a59032a09a4e, 0xebd3402b184597ef6200682fbe702c0ddab3b3e4c2d288589aeb3da2a0492fd0457a2f9f9e35df2aa619ff76bccbf208, 0x48d51759dd1111c95305551c6b8dc0a4e128a430207b7271903e1eda3112a222188f7a0a0419c2dd4021ec9170f095e6));
  ((0x28427b9f977a86ca6a6e7e0d75044e6bf4eaabe7e1198322bbc815bce2dae7acb8b1152b5025404e679fff23424d01baa22cc567f578aaab690ba4c4906bb67e8655fa87a90ccd2affc05812324bdad2fb973ebce4edbd75b1a4cda561328166, 0x63787ae7a0e345420965a9d5bcb3c430813b630274feb180065a327cc5abe68a7c0996d6f92d1f1a6f09fb78ae3fa72d16dcd0c34dd42b5d7d8bbe0fd3424f5a4a67904b57a1648d23c10de6a9998784dd01964206548cee209e59282995146, 0x1597bd94ba8a341b3db576531553d0ba05bd48f07e4830fa3263bff2cf796a3e34aaac2a724f1d76e15b2b18749d21af2), (0xc2b5786224561c65e3a2a0d5844844dc4728ce86996817624f5eba3021a4d8fe6613ed8588d1350926daaebb6555b72a, 0x3b50fec883a40da2c1c772ec54deb901aec5c0c7e53a24fa6c85dcf8e76de124a091851bd1474772d79a4caa7e8e2f86, 0xe308c08d629e174457ed3dabf64872669ba2d0b5f7b93202a023b83b85ef749074cc405ab0d5cbc15b7509e23ad9eb46));
  ((0x1f90efb76fe889817d01d63ad50df4b42c9861171e3b8e6fb7c3b3d728717929b49f5f58674cdcfb37b3df7362d29eb874271fa9bde2ddd936abcf37787e8b29e89178d12aee919664772d1383b4636fd6afa4eed9748e7d92b6d38d21e69e4e, 0x3c68f0d00ea0eceb8672a271ece158237b0281c0a6862ba4f6853ef725c1344cca06134b168e44158640ee95b1265e9ad6244e7dcada2bde0dea308c719ec4e18f5d416974983a27d0ef175c8a65e3c71b3e1423182921500d6f546fcc27ed24, 0x3c3232423844f5c7bbc1f5b6c0da58b63d7a5eb75a42f4103912971ef23ace167d8ac2e25a09191dee630c180d8409199), (0x7f4a67b80568160ad37ed277943cd995ed86696415c3b53414066b4f69a24c45d2fdc251c662086c0c261c00cd20adb2, 0xd14d498b99bb7976ad09e3360853fbae8db8798dc6deb6d973c3c2263eb25e380f3b487e3d94f24766b43cb8c10d8334, 0x4b3ef4f9d58c0d8863076046dffcb7cf8c07ec0f3774a4b5a8bce4099dee479c8b6680a144398d9f79d91dbc1ec71821));
  ((0x24ea6fea5265b361f6ddf91f708c98b6dcb3e0621e0bded34b3a5775636648aa3cbdfe978fe9698a135d3491c672e983fc614adbbdce60c3b3ea1f48f783d0043d9e4d63cc0b2fc2a6e27304566015ca6c7494cc513bae4ec439943f3bd0cd18, 0x6a2c23f4651d30d3222afef3bbf159fa5b5f2e47b375a71b2269475edaba80ab93c63273c860d734b8248cc8ecdc37eef488984797880db369edad7d7e277aa4073e0abb27d39a82d888c3193f2ca2ed6e0ee13fbc251421f344d1386c3dda0, 0x1384d56eb80f0d9ee8a817c38c76bf6e42ce6e9411031cacbba0339ef5968b8aac535aa00672bf064fbb44c18812d310c), (0x5d6dc25dc9f328ceda5ca09bfdeebc74025da99b34af1871a691743cf4c05f23d3a367e8a46c907380d59b373d619b5c, 0x7332646c4b4cf77de123aff9d4522f27622bdc01c017b36a4ddda819356128115761ed4d80515d890d302174363bad38, 0x3e27b8eb9c23a12d9b97474b4581d6452ee0912e9c7f4fed78f12e81c9e3b7a1405b140fcfd4c2738a4564d90a2a3843));
  ((0x10c87cc6d50fa165d0f0688a7dcff42a2f056a67e077ed549de624667d1c298ea836c8e0979ccb554a408515ab5deaa42e8a32001cbd2ce02b94b97285dc7e55389397b0d020f4ebfa87a18e14ac8f48a09ab49413c20cc132dbe232c60b20f0, 0x487191c692a2378600645c18133dbeeacbde04016a2e7e7f6696729d8e81e4b9066c4f6acf6a4c0ab02a83cb22b037ade293426f25b17165bdee2cd0a7b3f69a989e1d60c4c0b0d357785342cc6f241d25e11cb8196cf3ce245852cd59b3c09, 0x8e7a43e90b9b349c9cf9085314145f54ff4c58e0a0f3e2a5c4fc405e751e9ab9ce86ddb944ac99308db2d583ba8c6e73), (0x1e7e3e106b8d7385c8424b27ea077b102c694f29301883875f91e2456e3bfe0b7ed41530e06f3050799bec983257ef00, 0xf59fd9b7b2088e7729f0a58167d026cf69f14703477117d7a75e134961c3b4dc77fd31eb98bb73a8070a9c0d35c923c9, 0x86398864f278d47c9053a364b2b15a12887adb9dce2c704db60a52ffb9147afa807d59eb4c0a466ac79ca389e1dce176));
  ((0x4d47598e699a92cd738f45cad72bc74329e27800be4489d66694bb24c676dacf53cddd4e9ffaf2531695995b105df587505832597c167633654ed7d1a0423831193c8022ea5aaac26a76c6c7b919eaca6ce87fe6ccdf7045ccaf8c3cc2f49906, 0x151d700ab2a54e27af5ecf87982065d04eef4e61308233bf2ce550a1b9158a663581e7d3f1972a83122f227ec0b94097db72ae240253b0030fcd625db2c85b08b20e5ed0a440b3b78e182a79e335e14e181911fab1eb3b582bc989e5974680bc, 0x1dec60f5fe2bb7b5a97b55deb0c7476b8c51f80d1f5daf8660307db8b744da54a8560098bd592e5099edf3ac001777603), (0x64f5adb19291e920e5f26e6b1927176a10719c9393975590350130c85c1a5bfc4a3ed1008fb6c6c8ccd2938ca178c9c6, 0x2b2bfaaaee3e39c639d866a1aabf549da4274e104852325cc473b0c3262f394a5adec003a68d28ac6ab264e5e6ae16e0, 0xc189b276ccc6bc60780b89773ba897569eca5695f6e8d809544918047c91fad1137e06048ddb038faa7497a4556a4500));
  ((0x1395bd6c70151bb3cc45c4ec4a144d1b4155ebe2f3815611175976649de48291b26cf9f4cfeef87e7ede6beca29b5cb6c747f56ce626d5b368b400221aff94154b7e452c7d4049f0a0b5ca5743a103c1ba3f274459e1ab4643bf6300e13576a4, 0x2be639677bbde6110b612416fc552237635c12a893a6c2656e97f79f769a92a4ae4f4304a41faec66f34191e21d151226169bca3c4f8c8fdf16d3826738af467b330726c3250f28d2bd32cfdc8c632c16d8a10be668a51aacc1019c966653c58, 0x256e194d7787e3c572de2f81d449472599801f8d77252b9fdf584e99805f98d2b9d82b1a5ae01ff6dc8f20b34ea4042b4), (0x6b23defc02af405375753409515141ac197fb3cfdf0b06f8aa0dfa69679fea2419620bf9d2553bbab17e4a8696e9fbc8, 0xe21deac9485741cf3eef01f68230c3d09af3f4efcae0dc49b47288b3baa0d15f7e88a75d9a1a8ed883de992721aa9ed8, 0x488451d938065956daaf4fefcba8799ed930b8f573e668a08e70a1dd70c4b66dcb6a8cf36aa3fa35501454bd95342b4));
  ((0x266f616efaa497264a091ea3805a8e8529cb3df94337f3f4dd4c6494c12ac7a22adb5125bcb94a6a32de2336378a084f66d1c21f142d5b19bdb354e223cb5c07eb5c12d332ac8ee0fe3435dc48f84463df1929987618b287c6e867b928b202b, 0x629c54c34dddf221c603ccd4a90b656178b4d07d7c0114a210bae08c28a43e634bcea78beda610fbc6eb62ad79c1fe3b1b90a5015a1188d49c6fa61486cefccbdbb47019b7c3a0762007938087462ebbe243cdb6f6f74c05830292136e8fd, 0xcbc1a5109c6179ca8a421e6f3aa81d315b13718e84c944978a549dd07cba0888ed841051b822d62fce39845b0a4e7040), (0xd567077d6265977bed15833de71c058b09c1b08c092739ca5bedb6915c69599866f99039f29e103a207e870d9373a86b, 0x8972e5796c5fdd75a3c13eb36bb8fb0b1ab3f4bfb9a801661d5bcb17923074fb46ab47f5d48eaee4c66ba6915ed1a2bd, 0xab14ecbe09521e905be4cb8a813b4cd3516020d5092ef80df9ac08cdc21e00b19513bcde043698a114484a51b496e370));
  ((0x371e6f2f6dad39367399dafede9bf1b697c6409dc5c241753c13b93fdc6252b54a5ab8af584f07b3247ac229485d3a8bea13c07eb8c3674311999cca4e21f1056b55da7a348f0b9979ec3b53295da296d1860552c9fd419582b0fc9b3109f6c6, 0x224d96710ddbd6dc16c6abdac7f29a0daa413411af247bdb3463eaaaf632b12f597c6b65496f304de9f7b5c1b7b577414f7592b5205921b02446453b2d7587283957614438074554186816e95399a84ab0c3dfd1f05ee7dc24a9ad72c0f51105, 0x2be0595edc66568e9f0c699921c37a471157fce6120e0858d998bc241a9673886b3aabd820f2d3a9ce8f4bbc8e2d40f26), (0xe1cd08950ee2e088b1ddf2215548a652737df97d9bec021373e60d0ef8bcea5788f258c2e1b1790e93fa48d71e10a97f, 0x6be987a5122e1fbcb4566712baf8cf2f1f5f72855c8f309d3fc99c1b020120d1d37fb81c4fd7b6dd34fdb8e210bf523, 0xfbf94a2d7118c74e75b6952207474f348f4d4a30fea5a2b623f265c219de9ddbb18d161dca0ce9c1fa16824f3a16614f));
  ((0x3fbc4d722bb2192c6719f7b4dd0cd8a2e8d6c41b1f98b5a4895af630f4a836e015e8b4596129a86d7540cb2ef8d5f0994148b5bb97157e1c0dc48ec742b6c2e0a0b698c86dcb57466fb7fb2ad1015bf8e3b4278b7268d34f578b1a2a37e17bf, 0x4a69301e873d07256c2e24922dce9a08cede7633fd2f2d201abea42e08bde7ed42dc77a7b96cfc775ff284604e596575f6702d059037c5472b03e7222b11618f526b1839f1e45e8d1b21e0a46c65975625e7397533467c74962120b8cf3a3ef0, 0x4a4b5ae3994e602de41f93867abc59afbe3a9c7de5a4244e20aa5c47fda0416c3cc851c2d0ab509cf955bfcac025a2b43), (0x6a76fbcb5130972a7fed630b46b35d55ae1dfb6cc4a63f50640e42026f884b78d4c01a2fad2d440fb179895d0c074060, 0x2b3f9db13fcfe546e5143735686d67a1504e9bfac518c9a5c670cad05904ce1e045155f12d8cf23fadffeacdcfde3d88, 0x7c39771a2d63bbd842d72a0c62d0be254f31bfdb45c2abf4bd81fe29ee2597ab70013b69a85adf5550475804e059eb91));
  ((0xc97d7ed6cc8b0efa78581b0c3b4d873334887325f725e00ab94e5cac827c89169d48727d6f25e4f24de6a8eab7048445443b416861a255d36e437c341ac153266cc7ec5df6076a1dbfe3061ff4fbef16e261c7d32e53c69c30dd2298eefeabf, 0x1215fd7a91a28375d1c4209aed79717194dd7c30d453b564f9d9a07c884029a3df809a6bcb32e7fe70e75ff8092c74203f8763a835d698bbf5e5091660053e95096b0026bdeefd57063fa587d0d05b4e3e8c57987caf7462630181e36510d037, 0x12378a798dc22d7c66bbfb40c69880e1380bd133ecbd1f9d54c08dea7ce1e57d4493dd3949e433296349382ebabf0013a), (0xf9726f5343f1a31a084a31ec8adbfc418b03c782295654e8f97acb10faa9dc00142f47c004b5058678d09b51d6679fbf, 0x9dd8f75df42807c7f26476c0677e51e220fb78b9e3c363464f82de3005231c0c88883d3902f3782fe2e530ebc7de1977, 0xc66d0b183cf4ade99178d353e04abc67a180aa70b372b3c2e14fbebfa63c365a9fbdb6e6ebcd14dc0b8cef344081de9d));
  ((0x496a8d4e2ff650ef19c37c758cd8af550ae0fcdb4844a87827c201576663c4308eeba9373559be22b7b49aa88ed342babd130b9f6d7cf3391fa5b81fa43655b8bffb6b826e7ad382a2b8a8f53178096dd77a054b2293d233ce43f4dca4db693d, 0x2e25113665e1fc868d7c3d2bbf5723569dd38f772da502004c92edfce8c65cb46c5a0f1fbd6a428a47fb88a72a6d257fb05fa8ec1c7912afd9257264618c3a69e8f5b3f27f85d774606ca4d61dc5bbe1b9f1b07f00ca4917affe855573b837e1, 0x3b16bef661b1a283a6a9f0164f4f14c867b0da671f40ca91dd31793000da2940d95b90a3008063421b266344d89760d15), (0x34de4e322d1d5cddd4d4500d31b6d62f2655c921129d165df10b68cb9a87a731a962589129c7805931c4d361dbcfe71e, 0x805270d3bf09a13c8e9baff609e0fb10ebf956864f17ff6a3ba3820e77408c5e5634808990d632114a4343f79bbf6ae5, 0x25be1a054234a19e823f5294d1b8c6ff2b20e3037efe2058a796de91f1b0645e22d9196c092c17a40a94c706be75bb87));
  ((0xb5a388555f94d2dc4a40ec6de7d288136f7f1b751683d533dec0874323c3d7514e9bf56ec6e604e067d2c19b18b0ce69e2cf0d194260849916de830d1400f21c59bcc34bcc3afc5216e58cc7c856885a9f4320420bd8d36bb5422a30eb95c61, 0x1ab65032c617b2ff074c31e1fdd6acad02f63e1ee6bc99a0afc73cdf86f88271fd8f2677918a39136add21eb654c5469e93cbfb621938262e9ace2e96746a94a8e4be9360289bb0d3fb40053027d8c6941e97dd82af07ad6016d8574ddf54ea, 0x609ad4c6969cb5d75ec432e5517da2343627c8cb72b09c7159417f78efcbb6f30a2967f2be4f3d2d2f97a8a41c1ed676), (0x1bde2326e5d583b19d75dc5ec6dc3881aea9a1d3bbd8f37225530e17d07b983b3f45d1239dbad6d8802a1b3198a1ba45, 0xbe1597f1b3f29fe628b9861a1b1c81c31172db0ff9d14ef1d9a0cc79a3107460ba7d8962a4daa9d33be12ea87e826338, 0x797dd158e3643eea9c133489b2c0e173aa8a1de18c0460a2be4582d45e50af45f77b4932813e89b8d3e227ff771c6086));
  ((0x3621989e64829b4253e48aaa129438dc3d14820af6fe1f3dbce2597963b9cb3a798841bfd6e25104c3fb0f2b780cadbcbb6194a21b7596ecf57456f1fb638083e0af49566e072ec56083b02d1a11f6a4dc8a2f893b814b50cdcb4db901c64253, 0x114c81d525710314fc9196ba4c76ca31c7c90e2936e2bbc957cc2381e490a8fcdf48ff63c67d2614c47d3b6c4e736535122d5be75dae71e4426a0ac847f4f946bcf5e5dd8d97a20854beec0f5267d0d12b46ceaecff50f7e522be7657ef3f3f0, 0x1548ffa4ea0b1aed0be334d48e64b493675025a66ed86d8ad6b38b50dceaaa8f63c6677423413e125b7f9a3fb5b024d27), (0x91ff2800f776f010fab762ad937e8dd2c28f0704c938f5be2cdfea2257a08dfa719a03f93e2791602d1cde5a92d1a2ec, 0xd8b71d0ff6dac87be7e05be3148d35d91c762b8248bb234696947c92929b36079c596933bda98e0a2eb3bb821c2cc240, 0xb264e8562680924139e6776d51169e71e96a90c86b62cecd67a0be4f76847b016690ca84d43fee54ea935c51e18fbc0f));
  ((0x5a9ed281da9916e60a578ed020e70d07b98d2b51e3d9a15ad33f758b5760bcc47fe5610b1cd16135ba01ecb832a8f40819a850d175ddbf13786de1d47eaa2684a1b2cacfc42cd1be0c7179570915b0f4a3b1ed293c2211bef965a508fe103a4e, 0x254c5268ff4c1db4397e937c406e4bf42af99e387e04eeeb12d64db8d43ac97699d575d4e201c2e01f4229401b3a4c7535ff6c2f4552c67d6faa48fb8dbd179cb36f48fc277474ce4c2677e1c1d4676dc07a8319c52e3aec7c1139081d709635, 0x2f7e0e099408de7a68e5e71a263c424c43256f84e0405b047615e0406626e09c91423541ca3bfae3af1ce987e93bbb39f), (0x5e777a5d0640a8c42c9ab9f14c6c6a117472938f3b4479e2c9b95102e99ecdefcaf1c117577d03a04d687ed19d0d7bde, 0xa09bc2bd5dedf6f9b9c36f26066ab5c4ddd83575c1787ab0ffb911697922c68ef8c6f4300e7cd7deb3e513cff0cc9c5, 0x2d75971ccfdb1deb61b9334e9351362bb1672fbfaad4c70fa7bbf1faf0b330fb1df7d52cee1d1e7020391eace75c95ea));
  ((0x111d24011e774008729c08121f523654ccfa49860225723d7a34122c9e23820794a233fc5b22fe57d9d39f42f35ddfd7f660957cdd439399c20f6599d4cc77414b62ab75b5b61a8d6e98dcc1f4d01048125f465ab0a1ffa4922c65963ab1a8f, 0x26c0765fe8a5e4d02e379eee3a2d03c7e5f6c4b85a425cefc1638c8fb348e469e0b9d74e1ce7a68c85bcca0ee5a271b19670b1c57a8a557231bc8e4d9161240beea40ac42ee9923be95b961f6eca7dfcaf099c04e80bab2ccbd3134c78d670a, 0x3a29343dc50cd50eeceeb69e62d6ab627532f79da816347866032c76b83ba632d8fef28fa07b913881ee031ae476d66d), (0xf1fcdd56e150f05ac14020b0b5e8bfb568ec93d7adab82102d46558112b9a8f0dd1b5111de0c534496a282a418b90553, 0x515c39f921ec2c8e16ec63c98ccb951d93686b0d0ec8de7c2512f709a22df8fcd1bf53aa35dedad1c73eeef98ee38362, 0x9e18ddcb42d698577a0d0ad4ada22cf60ec019ccba90f6ca8ee439cc43d47e462637532b7df03491df5f6998a4b538a));
  ((0x1e267c1f4da2b9ff862dcbe20b40c63376f124a154b1c7ada93d2962b625f2d1c8c4f68cba4f2e3ba28bc255f58c4b32c3ceb63a035380df9ae2bc948acadb9943aec2b8eb96b29fe4562c3818dc61c8556737fa1f0e437cafbfd49da02bca0, 0x1d4b2de16b58b49f86dd0ca062011851d6807c123b14cc8b31e7dc6bf0074f7b3bbc6a8719e28790c9e00452fdb63155895bc4eac44184a5e4275bbf41c049b7f4f43132ff3d8a474e0be33c76e98d84ca3900030b4c0c929c303a92bdcbe2, 0x2dae9844ecfe5fd65fa30dc65bdfa2242d88dda328443d7bd7f70d7d42d3b158b47aebcd0e1a4702871a53b0838982a6), (0xee75658bd2e6e4f4a59c56f8aa2c830a29a9b7b24d2858f7a936414236fdf9606a2241f3a4168de06217b14a8650f809, 0xb2c6bcc521aef3ff1a11e5503b6f8b1d51167d4b29c9807f03fed24c339b916fb49c3bce5dd465d2b7df0d13ef2a00a6, 0x7651d552bbd2c69cf3afbc6f7b4c23f2c146a59e99ec747f046c4e862c5a1ccf2496fc1113c505d748f6037d3caed6d2));
  ((0x3194f3b8264866a26afd82187fb5abb0e7013b5022f7d696ca5ce82bf907f9a8ea45dc41d398203b98f54866e319d73de14a834025288968070f037c8e2fe2fb13639fce972156bf792e8002fff8ab9223f811f382a1412f3d34769cbf0eb3cf, 0x10684af9307229c5e10b9a08a734e28f7876e304fad452885678b6bb19258f2045698aa3dcf562ff931c583d4fda01f879ce2e9ac85cbe0c2245a76f726268caa0f1806343ee2af3d4ec850d5c81f37afbc3bc599b7f85182ea36d5bed1be293, 0x1fd54468e33c5952e90e50db229412cfc13373c9a4c10859de18f19281a564ae339d291b17d94f54a3f1bd4dc254a957d), (0x39cea89dd3ce0dfd01cbfcf47660d96921f7427e36d7abb6603404a60cd6da79b0111e1fa03a0703acf61261e6b2e1a0, 0x3d04391af19f1627cddcd754ddcbacc083a114987aee1409762246df10c3df1055e6669608b91c79b47da50e491a2f87, 0x1e41e1233fabb2487c1ed4387c2d37157dc714a53c3c4b70fdc13fbcbd20b8a584a3486ea7675d2bb1bf7b9decb848b1));
  ((0x453d4e6c4f4e3d8f98c3c73b636b37e823705a64644e0f6241cc52b388416f814a39fd503c3bce06737b069f6f132d9bdc756672c0aecb01b16def1e895cf092cb45de7c1336797d744b8717be2e73646b05f73c18f98a26930c945f638d11a, 0x112ae1e326db1bc116577bb8b8831d838b24918c3fa5ce9ddceb3bab89233ee52fae84f34a2bed3050005a724b1b8512f688ac69a2c5e4316868e445f5ce27c576a8c0580c6dea73eaf016214040c86d782f1929d7d2ac2431597dd1d39e433, 0x26efb89590a1ae2f79820f122499b49621dc458ae508a202e2db3eae69beb425efd2f46de7c96d5e7083bb7d01c7fbc7), (0x1f39441d9ba26b043f85de8c448d553d5dda51a731d4ceeff52653d12e7457393ac427ead14b5b1050299ab67df0c5fa, 0xd486c59c83ce16a89015a3ece73170306d149ca0e33129624489e65adbd5f1ac06038a35771d54e4fbeb1df42157f00d, 0x73bd6c0c4db1337a092141882ae060e0bb3f0faa1afdf0944948b3a8e3cfd0a9e6f856521df2cef461edf4266988f35b));
  ((0x39a830953dddb65d5bccd7dc34af01e5eceab2af1fc2bb233b79281abfc347ed1478c462d4345248f71d1c9b34578072edc52f27fdc7d778c7c95b99e91cbc80138732d498f41cd2bef0fe7c6f4e00f8a898774902676fa77ea7a7308ed1a260, 0xfb3218c73be4c3c1820dde42f63ede4626df7faa2a5c38b633aec51b0dded21fd6acdb23d2ae21b6b20fe33329d011a8d3a9bc75add86c0ba3589443ffdcc24c85447274116e062c1d74c8d5fb917f2cfc0f4d6bf8d85580dd394f1a2eae084, 0x169a6580e82bf42baa8737109e520f2b25ae715b1c70ea2ce77bff7805dae67632261ae0161254b74c3a3a721a0260767), (0xe3f7d2954132562a499115555e5b257a0fe07fac18616692044227e86dfbae2f7313d0b1030adf4190d89b0f9cb26464, 0x6e668cda67019722d2f74bb56a286e4f1747eaeea9b9b7f875e4e0f093d703623826630590dcbe137ffb3200dcf4f432, 0x8b0bd0b926cf4b3ab836d78b361541e0cf10d973bab4fb57e7dab0781d215267f49f2676643d30c39fa315996ccb6ad7));
  ((0x23fb68dad75292c53f3de187c9796bd279d291f519d5b8954d5fb2b795c3006fa312d72b694ae5103cdc4f6314319762a4abc21e87e51aee0ea1a03ca4f882f5fc6c33a4381df2837cbb3eda67dccc11e903e23e86b25230518e5522e201507e, 0x16a8be73eeedf467ef7a69a42daefb03b4060dda3f6a215b6cf37355b2535502e1c346eac2e61fa65f08712f862d11939d3bed01d192e873fccd168a8f4b1e460c60a5c01504896afdbb8b2eae010b0b7219d965fee18b4417bc10020382edd0, 0x209d1f374dfe27e6e4bc7e59f727afe2c2dd6a49060ec48ecde11b5d3224f84ce1c4c5a54d0e0de320a2dd665e0828191), (0xbed077c8f9cc08d9ab81c084c941ecd5125296583addb8adece1081b6bec914722b5eea35fe81f5f356032531dbd834e, 0x60f26be3f81535f8c89a99902570315f66e32ce75421e2db0974cba7fe074f2ef4c31fe8bec96ad43d20f75ce61f2ee4, 0x850b91fcfff8611ac67c4d1e704f46f79536dac1e991ca0750427fcec5281c72033e9b6ab5beda769c2d5863ced38d00));
  ((0x1e3bc9fbf7a4313387c8b521a3d5d1cc0a62fcd97d1bf7878f853c3847aaf2e9450b737fa4ab4504dea294b08dc0cab4180c6a026da4ef33152a8f09f603f0c14bb46cfc8c4f823cabdee54c042cb6aa1b6629e1a190c4c64fffed00b5d7dae8, 0x14bed9e9232879296e6398990336c7647c128fe6f1d060ace4bce86be29849eff7638d7a0f60f8fad55e038e7823d5b9bbcab3c9595791a61454078c15ec6fd9cbc03f05402ac1e043c9cee2354052bb41e91719f586377e134bb06be2b5d06e, 0x1ba7ba521d3f3d05fe50fde68bda69c39f9955198d42be99aa0d1b172a74b4912deb74a0cc47353d99ed7d81b96803828), (0x207e0d0431be4741b445ddb38c6af485c12f0e7e979d8a0b94f3bd92933938cce839b5a2975a46e2b42f61b3a29746ac, 0xae985c4813ab30bf20330b43bc1473dc8f870aaaa80612998eae4f2384d7bfbd2be7167950148c3c4b95b7490469335e, 0x1059f7150dd6e700d24f99249f9635e2a7e84a14a490cf0d687bbf9d1e061846b1b7141df289b0e7e4a6b5e99a81df38));
  ((0x6b11a7756b5a9ae0b020145709c38c7658e9f0be4d17f6c5574ab4339c0556c4c3ee6fa1cbe1935d9e9ce023b492a3855d5833c5ed0fdc1e339c076a9c9c1a0fa651c7836a1524e6879b82e0fb2240c03271dd11a7737e47c140b5461825556, 0x50380dbfaab9f83a4f61bf45f655eb3d23ad37ddf55d7bbf26c8e072dfd9cbc50a3e26e4dc32960d1b96e2ec7d1c81c7a2ad17f217f30ded2ff14cdc55da7d72379f444d733c76e11868ec23288bfa20205480cd5f76b5d1327f46e7d05b67, 0x7e5c2b9ef09244c8db587d5aa9f75037856ce5d32bd5caa2aa72733ff847ca8d15a71c1a0ae1e77d7e9f9a03294a61eb), (0x99c02fb5b20e69db194e1554a9ba39f99980637284dcc46aa54ec6567646ccd8e90d90f8e2320f485fa6c833242c4ae6, 0x2108d2607991f41fee8810776dccd5310e436f9a8c061b4a90d6980de6989c119dbdc7bffcc5be6ece90b7a3cad48517, 0x11f0d23a6268154adef7bf19fa057cd528dc6d37cc422c3ffced02c6e80a222c9230b738eacb61418005de1f6a93606f));
  ((0x163a2254cc6c162b9258effb8a98af77637d2402d5cccbe42f0527db5678acc73d96b817a3439cb5f5190d588c99ccc12bcf66b32c875bdf8fad9715484b3ef0652df259df10df9763d665ea77c974a89ade2f40981c6beb123750019b2c632, 0x6092122d0cd44624692a6c151ddbe6ff611058acfe13e80b6c955801aabaf9c4be44ba9c55d1fe91653ce5108cd8cc33ee8c5ce78a05ed5e22db2d85bd3dfc593250291aa78a6b1a9bb21df456796e33bd1a271086cb9436d85a2659786b7b, 0x1d95ad2389afd1e7b20beeff4b90841eb99ac83005b59c20724e052f69786d60ee7d6f5c13a0ca9399132e93a9f662fc), (0x5fa88bd7ac8d4ffa2690c0ecde40dfe1baf86da54e7e3d2607bdb18f02184cabaf9660809d56f641b5ce7595a77385f6, 0xc7bd2fbee544ed1eee1aa82f2d17e7be18454e336bda39d31dd4c13823ff624e3e660024a60a5c80c6124629535a51b5, 0x626856909563af9a9674e1259110ea3bc5d2470876df62eafaf89f87a9bc1398ecd73bff5d0a05f750a1362b2b610ee4));
  ((0x2e12b4da7a3fd3c0856dfe991a58681d9568ecc8053b768818339a96b4cfb5067f4087fdf36283df4f4d69b9fb02bae2d609060f4ec23c9328a683e40b7966a87b5bc1485e6afe398417a347297f26f2d5c9595b185dda94e6de54cbe1b14163, 0xb59833883c9c1f204848ce1cd0bfb28ad2e9eb29c735e025757e14753883142839d02a3ed09389ba9d8437da391870945dfb4a88502c16423efd2bc6f3d41629d8438990f5ccccd5146e8c4e1574728f4d5401a16c795a417a17ea34a535008, 0x156ded725cb24245ca26fe6ffa918b8fa5037ee4662df444cba81aa669419de642f1975bfe4c8006b9ecadc63368ef7ff), (0xe1122cd6646c20ea75e12ea05930f1b358d3c30c122259a98d6c536a2a0300383275bd47fa9ce03c8e8fe1830f20b847, 0xa3a6d04abdce1c66353ff8f0d46167f36fe3f88d8c0c91ff2d482103c82c08e9a64577486c4ac1b19517310cbd8e6e1c, 0xed7ee277dd810691da07592913d860ece0f6ed442a041d6be75d2c959d1df2092165e5f2e0c4dabb7485dc78d7b1b958));
  ((0x5b1a50eb53170e032b99b0911f4f2c9b85ae07ccbc247ec5690a3ec55a0dfcf957cae14664ff2314fce000a9204f7470c3f5763ab9a6a8585b2715a6a574d48b413c8a7bf67abc92c452a40b1d4861283347e6e6e0fb463dcbeb92877e9f7905, 0x421afcc558ae6b6a4ca984ba980f2e55134ee7fc42142f9c99418730fe0403b9a54b18c4f05bc925ed52fc99e9702430b9c120e5dbb5d44c101e272a820c3a7da230c08b5094632cfccf3c086b09684b99d75e8588d6d1c5f7f86d5f488f8880, 0x49f3527b2e008182faf0ad0d2f6d3f024f75d8da27db6dd8041ece4e2c0e8ab27039e5c5bf160121b7084792328ff37c1), (0x99fb0f765ab34314c8a0c2e47a52287d07d6c5b1530bf0ac9fa0910d3e9636eff706c62e85b3e9c703e5c1bea54490b6, 0xa92fee4ffc4b97ec92149aa385e7869beb007b4175184ae141406ac433e48eea7f3c87a3fd2835dbfbca3afef01181c8, 0x5a6f08a1933272642b10ff2608c3ceca5689b0994d81f62f88bd184669ce29cde07bc4534f27c291d82014be820f8461));
  ((0x23dd144836e889028ddf355214ac4151c189a3b4a8a5c54d0c04607f18bb21fa800c4e4534cde0ceb4fe51eaebb6809813c5af73044c59c8562f8d6176d84469240845f482394774fbf73485846acf68719677aa6a0d225bcbb9a85dc1f60d34, 0x995ba9a5ea480a2c2c942ab80461b4df84bbc5fd5a9072236669257271271b19e293c9b6fc3e0383c01d413bc61245a9c7729be803c93661d2a187fc96d749f79af2e888391b65993aff8ed087b1188218734c5eb1efe8a3610850cba48d0ac, 0x13c713145f246ab1c498ce824fdf8a9c445499dc926dca6cfba5bd4a3551edbc66c792afff89cd9b5a3ff116f54e33dc9), (0xc9567559075591dcbe9a588bf743262640a1e1218be3e9e0b5a3355a20814f5eba1d2825c3bdac7be597e7a01091b798, 0x4f181f8405de3ac9a93df9cd3ed380ab299452c825badb82c6d9e15da109965963f1d6f30867e1b13395809393c086cc, 0x19f775b859dcd07f44fdfe4a8813ec87b2ab2c577f54490b438f0b3ec7f9c165ff28f15f382cb3d5a188bf3f773a4a38));
  ((0x4d069bf489ff8dfe0b654fd0bedcd122ce70a125b5761e3e5b3ca27b134f0262325e5db9c59599f59d4049de2a9a02a8dbdad69854ec98d3732f2f6418a1ef62e7ce142a519bd4ebab4f42cbae1c5bd20a7646e3f5e0dab019076b3e4af9a61, 0xca4cf694f55eceaf20b6073fb3b00046002014313dba98199247ffc11a4744aacd48667491d2018936955a6f336472c93ccdebe34ad744e659431389ec65ee86df33ce02725fbb2ca93688872aefbdd3e395efaf44ce820d2f13b5bcd9509a, 0x492ed33d62a78f0ff84824531cc84187dfb476216f526487d393ad950a3a9e3a69d0d2faeca781e599d26ff25c81fa87), (0x2f0b5c9b978c7a565bd7406a75c3f596f51d6d255b6f9281dd9ce1f3ea130c7e1aa98191d236692f1a709bd7d5eb18a1, 0xc639284ea939e6a2b4bbeadf26bbc52aa86a187806a4dd929cbe6dff0a6969477ded62d410b9444a3f6f5a8a362bca9a, 0x28636d2d13204b66b93e5a42f07e4a59e064eba80f34120ea9f48eb6797faa01807d95ab4167925960d5f7ef70eda457));
  ((0x12c40aebd14a98c9314de553b122aaff71635327936aa1fefe3dd3dce89b9e27548f96068a8ec6266ac9384a26ac4975cefd679b57c90363f0ccb5bcb1f6e6b3a70321d7f6c4fb39c95987a75980473124dc96bd947d77b4622cc4071220145e, 0x1e96aa6f077f2d5f95a602e4801063602d5904b9fadb2903e53f725695ca714630c2f8dd0d5834786ecf00c0d99b3ebb9b0aec0eedb870d886553a7b7458a13e19ffecc20e231bfec9769de0f073548f2aaeb3e880f35bb09e3d1e2d27f33ba, 0xbb72392a44ee38d42a179aaedfa33c6edfbae004c34b3a3eb3415d4efacdfe36efcceec647360296492c8f8b45867364), (0x41fea4040db06f02c05c31dca717293878fabb0977132eaa2b97cecdbfe805fdfb698e3a848891f9238b6fad0b8c105f, 0x7b335e91f45d4274508c98d2f78a7f9fc36d2da5db85dfd469ee3c93f1e94dee4d93533adcb8a4b8fa4e5f677651f582, 0xe30c8753ee07f076e28ba8c57bdd5c69dc2c6aa90e7ec724814d4e9b3861470d93cb633b87c8fdde4610d9ec7ccd9e29));
  ((0x419144550dfcda74a8d4d7caea13dc12584d0b09151e45302cebccdd30ea4d9f482cc1ae63335679a60bd8efc9a4187b582613efbd723b721949bdc67915d55ef44869f9c9e0e2ae49df9a58c107b2148bd95bf7ba918b59f0ad11a4f3bfa247, 0x3c6af3507d1fb61f833aad67160fd0bb325aa4cb0b8454874a60e8318538364fd802c0bcf296848b5a1462ce78d6f80fe09f00a38ac311bcf726a360a8ea68e2cc060d987e8856c199fdd1ec6996b7be1b9e8c5c9b4655968b4527dbf7b7cda5, 0x30c781d86e802ee4edc146a1e0f63f7024f33d2e7cf4e47c8cfa5cebfffc6c26345876310a4f858b17eff744c02bb317d), (0xa6233e5a285969d9f8b0ca17c8ba0e8385d8698212e4aa7a5ae4a1953094a8012a6a5a780fad64056f6320cce7f0d3c8, 0xd7a271f4931f1cb53d95f9433a79c4b1ce9f465eb8c868f1bca1b6e780780d22f45f9e68f8ac77de04ab7f752dff651d, 0x9579efde856a8333fa2e5f955d32d16829f70415a5e87e89c2d65549239211c9483bf2fae238c76e5aab9ce42fcbb1a2));
  ((0x4b8d5601e5eefc713243cd61e16a0c18119c48fb67c7c8de5a60db83929755445ddbbfe711d8106bd10cf507318993ecf2e829f7b2cb24cef2ff55bcd3af6f88e2bfef28e44b607fc0dc1c629e131857ce8487a9ca8f0513f187e0115a237391, 0x1a2fa327c447abc97e2d6efb949a76e51c800db82fdeabe2c9b76e0440e2a68a4178317f74f2ee53afb30c43fcbfd8ea1a6f0ddabeca2064723974b04c95a9f9139149ffbfaa47600fcad76af31b39e374ed2c7efabead012a3a4122dc9d798b, 0x27d7b0fa2b987eab3d0460cb7a2054570cfac061b4eb703e09ed9699e53cd3662631a7609b9c81e2f85f92f442bf072d1), (0x36bcbb02a0e93832bf227456d9338b3d6ec489fadc025826d5af40117cdd3fb2d8b2ca8ae412065587782aa8a003af11, 0x7a24e58030f0a370fc3ea19c5b9ec1c4c424471833fcc5a17e17b29bdeed53ba3fd13a94f2e16a182e2e3778161ff937, 0x86fe2e2d10f0b5c21b62fc24c421e3251249ba6cbd59ea52859700b4dfc71a4b94742bd1459b0ed73c06a6e5e10530c6));
  ((0x26a62aaddfb1066e4d18d479b14273fd3ab3fb4c1b5f12152ba4dfa314eb2c0399ef1805532f553c8b406907847299f9a00e9972020a768f3acdc94c77e0943cb95a0f32ee71f3c183f8f5e299d19d6e4eb52b0de59dc21254f1a4a3f2c855da, 0x155b7bf7b4647742afd9c452deaa1f924d547be464276ccf45ef6cd651d4e87986938e460d0fb83887212a41db7ecfcaab9b6fae675a1d66f80d8513ecee353bd3f8bf936c716d3521ecf45ebdd1afd6378374abe6036f4ce844fb914f9c6a21, 0x1498eb43d0163e66f1392a44492eb3a3339414dac805de8c87f47335015d2624d4e34c00444e1de4f026d742782b2cdea), (0x407bec542d86ba951db1f18d1cb784e540536e5fcbf49a5911c5bf0dd645d6763d9263532330e19a1217ec725ea4a3b, 0x4dfe523e24e50fdd7b4517ec6cc78805332b697fff059229edbdb47f8e0167982dca660de6a13a8f5f441a241d39eeb, 0x58e7df212ef5a608e5505dc73a55d007e361d93ad8407e7f684ea7e7ce3e0a4711ff06a1ce25f7ebc5771ffddbb89173));
  ((0x1040dd89311e895dbead91ceb5b217e4e0f02ade1dc64e1f16323cf70dc113c5cacf85e86fe5d61ad39e82e23144b0d7f24cad23c481d51b589665cd9afeb0f2df45ff64be7596a005d72bbf78e924b9ca1728b3fc97c6835fdcfe055085715, 0x94383347871b2f08e01ab1158d4737ab745b7eca4486a840552176f8cbb3902bd9d97d85ad3c82682f63e1d7ca36cbbbb2112c98b0d440492d6e8adf5cf5988e735784bd3597eafa65fb021a5d4286cbff2029a7a184bed7f43ad46ac4a4e3d, 0x5f851564526c1a22be02d9304dac85557955170d722a89f940ca6c4e02b491065c79065187033400502431217fc8a4e6), (0x321df4a81ef145cfaab301afc799a853dffa4668b11ba36d7ed274550e4d8ef0198717b31e68cbb2c80d1a5b6dfd9cce, 0x14d5b2914ec343e0c03f7a28f0e229a509037119a1809de568ee4f56c21a14fb6d35d74f714e43a0d238d7ef3c329985, 0x7d56ced754180aadee81f5687d4ec11879c3f9e21ed652ba6be011a518844e0b13e8827e82fc798c6928f741cd11849c));
  ((0x61f0192ffc2a9e4df012d906a5ddb5c684e609d0058686a93a56f8301b1a4bc562976ce9926539bc0c542e6aa79be2bb3afddf504a5f4734eff7457deb8a6426f327e71c2cb8a54d536c4e3e8152ce1915decce5fc6fbba5080ade12385e84c, 0x126973030b7bdb5aa1521b52593def3d8c2ea03e822ce2f555ecb6ab8e10cf6fb6f2cec913664569c5352e997cc3d23421c57fb9417e1ddb07c724255745c3c69f7e6a989ad24cbecdceb34b1b80819fc312677569932b4e156dff8cf5f56e7b, 0xeadefe9c2294a77ccb6ec102c0dd784e9bc5e805efb220817b2d77e2026312c7d6c97b043852b386d738ca6ec95dbcae), (0xdbee05e647bdd875860c99febb4e2e00b920ae5d3121db58220904be694afeeeafcfe19fbff87420f03d80c955e7b790, 0x558ff5d7a7f62053ada83c46794ead2ce9325da32f8738689d33b1265ade4eeaea58f3a72498d3ff2c0daefca08f9fcf, 0x32d3e2ec4fc6d972f8bf2c2f6d817c89860f3624687ed9d63f1d95084d9e549e7369e38bfc742895552b7ebbf7c54407));
  ((0xa31a0ee73de06426555c88cec0fa0b509fd875a6f949db0f30cb5cd4855b00e5eb9699a136df374d95ffd689987799f23ff1b8ec375d6826ab2610d5848638aec63161b8a6896585abc752c892763bfb496ec0166884b48dbde71fc53c5c512, 0x3071d871f464f5bfb7069a4953b7539271ea7108c898f1b3f619c088ac6e7ace9ff05cc0a97bd33ab7f342cd637a97dc76e14d297e99be1db287f93a77d274fad949f5c98e5c9f09287c8c22fcbf0c1c49add3a4e8d877f8c5d22fde55829cc, 0x923450d43e17d8f9c6d2133a0a41404dacdc4a3065296326e291d04b51fe1c6ccd22e8b7f875eb8e8cbd5ab94c195a80), (0xfb5563894c4a6dbde755c0a096f8b936489543ae75e8f89bf60e53577a4862eb9b9d591beffb51d4d0489a4324a38532, 0x72a4025cdbc1761862f5fb19d2adf11f8558a693c83969d6dcd9deaf5279d2edb83d20162d9228b48fd5d6acd87b4cb2, 0x6193ce2a6e24daf8eb48c43543ece679c2b4bdbaa3c1031d8eeecb31111d1f83a668134a0efbc97c9952ba79fd7bd654));
  ((0x1a387cd595b730e49e1096a6e4acff3771419e94803b38d49e2a36f604b81bc7cc6ef05b2aa700c5e7e39fad3124b52a286ecee31006212c78ff2c51087e221082b01d64c9f0729bb97c7d031f24a2ae36a0398e7f81fe08bba083223f74ebf3, 0xb28b1f8dfcaf10fa1990d3063ae86337bd1a8f6dc79de7e8b40330ef7fe792e4080c5a1c373e41f7d221caf7253505fd3bdd14f8fbba0ca7ea4a82472ac36dd4cfbfbad7a57f3a377f4175b4f8ecc0b440686d55312cffcd872b087c828a7ca, 0x16283703489610bd6ecac40aa4a2931efaf14411973eda3772f8c4fd3792a6c754120f8d81570d5812e72748b011e4a84), (0x165e459e8286382f6a0bdf744d5df70b278181119ad593c670fd43e209677dbe79c35238a96cb957224cdbc628e5c6b7, 0x510e3068ad42ef01a3036e7be1a38988f5b3e79ebe9d9b9e651ac4ba288efe053b024b7afcea6268ed5da16b3f96e0c2, 0x2bdd14df1029716b7ad5ceed58534d7c859907c159f52a6405490f7ff2eece842a70d79136b2a08e91199dd77ba919c8));
  ((0x85572bb0a984c651ceec30e9c99973eeae3015364bc5246dbbe5ff69ff2ae8fdf4bc04bf902505de9ab58524279b3710cfb7f3af355c60c080fcb580febf3d5a394b7d2025d4290f39b6f3b234e0efb6df82d34990f6e604ba017eaa3fde8ce, 0x241438442db5d3127d05022924e73e51bd5c06e531b1a5c8559c30e5020f0b328b7cf9125904a3dc04abd6f1a51f4750ad72d37fcce43534de86ec61d5966ac0b208d42ff5cb244117d48dae771b39f36ea02153d33280607f06928242c8345, 0x37e05508aa8093dba4df2d27ccab28cf3263cad1b4e76919d6f114cf238b175cab339e312aaab7f1e0b04a61c584c994), (0x87b9c647be31d00edd8f165eab4b028b9b80dc3fd22ee03ce6bebded1a63b692161bd4169a438bc567b6c18f267e519f, 0xda70723a05557934ac29b522fe272ac1f3fe89713704904e730b4e1d4d65874b0896052ef0fc4f22612731e216992e01, 0xe3f1b3c660766e2cc49b04346d9ffa3f001a7f8a9426451523a5ea5853ab6602bc3cea11aaa1a0e44f7dcb141f9f1d48));
  ((0x74b63a829c1c19201f4204a40edda7a2cbbba332837c000fae874351797ff50af5f491a740e9977aefb72f1853ee2466028e79df811fe11009cefde8ec45d473f4d8c584844c520010f398b77cd87c24a5c031520f1bf252d05340480c20810e, 0x3ce5283e25f0f5f0f0e1ba4e7a5516a194621b715d1184126d881da79eeae828c7f564c09082748941528cb22ea1a20852df07539df26949ba406adff0b1a18b360ae73151860113af343ce015637dba2b9612b54924672135d8b92885e994bb, 0x40cfb0f0b049a5c9b68404d49bc0e914f2677bb3601eff888a9b00408fc202794d154fb8eb6e1578828ce3da6d80200f3), (0x91f912677281bb5e5337eb088a2c07653a5e729f59686b0ddd41c30ffb9215e6403077d2f322209e6ff80e98c2b5facf, 0x89e540a4aad762e50ee04ea2cbb3fa392be5f63bb08ec900b0d42b1f8ec16bda43e5125731c20089bbcd7cdab3852fa9, 0x6c8636df204730a89f11a0bbb401a952c57313cc9dfc798e9500db400d06780d1055607d77831f1eadf93882ace27924));
  ((0x2313ed24b902253975a0056d12913960ed5e04892e16d4e2e1a449f0e71d5a136a51a7ae82a07fa688bf4d07f0cd3c4817c9ab64950e581bcf3f958d198fdad23a622841d1d06048f0a45e0f2d055cd8bbb0a13f2645190235d25a166eeb3751, 0xdcd9e0c376d86edd1773b94c97de3fa75f8d4f383d675e4ee91f8045476795dce3c2c33f48d33ebb22bb4071d5f9679845b3e853c9e00607d0482d6d4005bd274de62b3cd1bbf931056997d2ed480816b99209a5db7a020bf66cf7d4b0a6dd9, 0x1500ef1544cefaa3c587b2aba68f367f4ca8a80dced001714987b46129480eeeeb38bb8ad84d154d048ccd7193ec77e78), (0xe3175ea9b8c0e5fa0d0e1ec0c6f8d29aef14977f3f2023ab495638303183a93718f3f9df9e8a8b0d77f686dbc272eb32, 0x70b7a12906e7f9beb434f43748077ecef6840212e26b884c10f4ed11374ff48c94d59c8175c888db521513b69f7232bf, 0x4c11de8542442da891ad1e36ff1828c2c72d1fbcbf93218fdfaf98c45ec4befcbe02d3db557a4f51e91f8d1561ac5b71));
  ((0x1419281c6d3fd36537bf2e07ed3ac42f98219fd0d7385e60030eae045c7e034bb8456a23560a862d2bb1b04a73d7e6e0bd5e01903963fcf6aff3e90a48132defa0144470765cc4cee953df4e6b3ac62576c78c0756673e479249abcf562feb29, 0x6c82988126b816d8d64ffc6baede6c16e38e792ae21eeb690ad700beddeb86ef034bad58f3bc6e2d2fa712433fc896b03e6725ca9c99da441d6704703eb94e19f88e8d38a8b39bbb256edf740d8a4eff8b857a1c382c0ec25d2031b7bfc55e5, 0xfc669cef4bd04e02813eee2f32b062e7be646787c01a64d879323e3715e4b28706e508f525bf123e0fe0f1a7ed3a4220), (0xe0431bf9f1ad4288691419ecebd1eb106a1ef41ed633d697322db55dce5d76b9a7c149a6d68f1620f26d7a24d6a1a0cd, 0xa4bdef8408e083684df29faf4363f9ae5c7cc9421f36860b16e404f463eedf9872e1cdbaecf32887e2a23114705e496b, 0x571606315575e72bf6b92035ac78166967ecc518c5c76912a4c40c7305e05cf663970a8174ef0e4ee25637d39ec33268));
  ((0x21a0ea2486a2a6948bb03481dc9b14d41e6b59aeb8ce7e712d7cbe5a85fea05bddac292fb48f918f45d646f4b5ecce591625b169cf69b46f21802403b967f949faba906cbe2f2d7599c45d796fe503d4a650403c34c0e93cc7585149a8831621, 0x8e36d17546251aec37fdb84290d121fddb56b8d093554880bb63b56a4d48ad34c966c6322f144fb865629e8255a3ffe9d49c9effa6275b11a45feb6986817a393917ea8c6a5a7737d4506d43fcfae79ce3bc829e9153f52b732a5f29b9ce236, 0x15b780982c486f4356ae742e86880eb5014654c9689a411444a28a69be50095d3aab0bde2313d192002f20df3fa2f3545), (0xffb56b02d90cd652dc86027fcac91aa842c8263d063ee3a8a86233b2092c8acc0e4c3590de06e074450733237e86d94a, 0x11c099a644a981e10393ebddecf424ad81c263815f37600e94caaf656b26b28fe984a1824d156eb5509355aa52b07464, 0x47dc47351493f6486d6a914e44b279f87c812b2d7420fcaeae14e7760e2b4f83dfb76107eb4df70da29d1c44c158814e));
  ((0x2fd7e4fa43311b8ad0fada2b0bf67927da58807b2fbcb903ce397c1b1183edf6b5f222ca6ff52049ace70ce172fc3ac3a775f986eafa0afe96e9865acfc755b4f10ec87d316cdd9453c3b3e2af9c29afd638cf53a66a943abdbd444f87d79b0, 0x60d5622510530e3091e04231a1b2efcc74d08e8fcdd733360ef273213996ead32ff2919bdbf411d26958b6f5234cac98e26146d4810aac04ce9fa4e8d13708c8e064fb3c889f61dc4fdd8eb2e2c771f3371710a11bf196635e684b0738528a9, 0xcd4d9bd8d0f9732fac059cd590a5a098b81ab82981fc4f5f62ae4ba4e91199487acb6d0ea6cb6835e9d88a07114baab8), (0xfed33fc1bd55791bc9f7ae2adbf007a0f1244856dfbfe5d05bd2b1d2815e9a4a3273b63d3f3a44792d702131eefb0214, 0xb3c4b818bf6557a43d447ebda457872c3df8dea4be95ac7161f0f1dfe478560709cc6393c11279ecce4cecf9675e6989, 0x864a4b86ddb34a2ded1df0aa862bf64d5fb75ce188b6ef1c1c6525b9180df38572e1ff5c3c36e2d0e5cb381da08e8a2c));
  ((0x38962b2cb7ac02b522b45d8928363de1dab9223f788dec10df65259ec44f09929aa5f13dff0931eca184dcec785d1f652587ad31f40abccb6978a73965eb95750a0b50383d21941c7bb3e103a6518226bfb048621fba3a03de6dd8cf99de0742, 0x1522b6741372368fe374cf8614efd28046ee6cc824809c7cabc585677b8c1b3553a60c82a0aadd2cb08497ea131e04983370c5923315e8c32241115e7b53fdcb8919711fe15b482653d8a971151906654d1427fe1fad3c506063f2205abb4906, 0x25ceb55bbcb0fbf2f340541cf5f825a735f9cb6f6418a60659da2eada9f7eabc7d2a2c516b5252b94ca66b153a58c76c8), (0x7f601b4138ad5e97adcb9d644834e72280134628554e5d97715921ed4d1ab390f6649c49f49d047424ce768e974d0252, 0x3d9090760bfdc0813a228a127ad8a1ec336d2bb54a9a54c6ee2bc38626fbfaaf3ccdc53f8ee5178290bd262834d224b6, 0xd753858bb919da64300f75653de0bb299cba6ab7a82471013277c726d09255460f242006d572124d57cbb1595c8acfa9));
  ((0x1f12b68da9264646d46793b7883fc0763a74b5bab313f60ecf0a8accf300672ded47a85f026569cccea28122b29609a98372c54e443c2a2330df18c3a621e1ce4c23392b668b5068a2812241fbd048addd2ef8caa66cd5b9efb26ca25021389f, 0x36570b34de82286b548127e623c9162610cc6f0664e198495d6fb1f7160543c654c0fd69f781e779c7655c1ec1150d2b2f1c53b574a0d1141711de31a681d85abac7ddc6a6c5c87d35f97fd55b4e2aa1c231e40796b334ec4f36c99a5c67f387, 0x3046cf22ae5f32e33528943ece64d59a6376c1cc3019e6a1397ca4572fcbc1d72b401503f597e5c12e4fbefe75806ff88), (0x7aad02b53cf08d190ee0edb941ead6cb4318b753122fbfd964982190eeb4d97730c0dfc3c5a66fb722757da637c69ba3, 0x7d47fed5b9f9b58414953a055315dc05f6aa76589b1cafc3c5bfcff70667b4668ae202d28a70317e6c0ff8b6141f3313, 0xaa3f34c449c64ef1a3e424b103d51d57e721647b566314bbe167b87c6de22ba1633713322714df063a3589694dac95e3));
  ((0x31fe8e3a888a100c712abafe7c4f7dc548c4a08d253ed1591e326bf84e0f429bd0a45fde02762dcfa24b69282a1f879fd8b47883e19bc8d3baa4b346d442dd00f02ca8813e06379b10ae914612d60d4dacc17632f7c840a8a7967289272fe83d, 0x21f817b5ff0bbdf5e24a47575380469e04396f58571c6e3488c68ec5521b991b051c0892c46e3bf3c01e8ca164cc1e593be0d9204b0e047e03e06ec639e04fbad1b37f544c758c5efb5242df4e96595d9db1676c4a900625984603e75d6643ab, 0x23421c37da31ddceeb64ea954bd1c70013a5ef5e860d5e01232195c8fa8bb3ef625a0c3292ff2e52bd4e2f94e8670229f), (0x3b91fd0e3a77708654c5d821a3dca48f1461a9f367f87fcb405d6226f4ed9bb65f955de46142a96c1230e9f7410ce726, 0x835ec0b197eddd1e37593e3638ca10d4ce9a5d93a1c83b99d645fa0c66a387c09707251d96f30c2dc8d153de3c6b9683, 0x7764e4f1bda4ce78c26d73ff3a68be757be26c04f6d6839014d012cf4434baf99abe22e8ec8b4a0514c79b9620048cf5));
  ((0x24c3db36f0c5f95d814d8fee986d99559772eab3dc27e2a71eb34be9e41a0bd920a299db39cbfa0740344ea55f932064ef77c3975ce4a911da9626855c3fd0a00df02c67a5851e54822d4fd4cfaed0d48a6786de37f0100a07bbfc6454a9fdb0, 0x10b4ecb8961155303791e0f971a83f50b14763aa3766e2204a03577a41f22d9166eb54d78133046247ad1ed20464e06da8463e4f5087d26efacb7da45f048f6676f0b23d10092f13950376d55362db6e9e7dd239393bd07f50eeb1ee42460ef3, 0x12207a7fa860f4616ced73fc869a7dcc56d589b2d991ca5a31ba4e023318a3e5c25767793988493d9492929c213609b77), (0xb69a989a74bbfcd7df7dcd269a165deeede27dc6895dce25a76b1352742c98ed606014fe49d79efb56317b6ccf339934, 0xbd22aa48cb76c4d4badf31c2bbc05bbeb2b334f35d68455be73c326a78d9019c3150f8cc67a81be1f1a95c2891c718a1, 0xca6b2a06c3575eb18732598c3a824c0633e2dea2437d858df6ad2a5ab3eb7d6fba9a94b6ba38907c488891aedde308a7));
  ((0x59bd11adbffcbe98a985fbcee2d701751190aaa2dbccfa08348a49ab5970d42b247e47c5ab426982bbcd6dfd6d64dd1b0e6d4b605d719ca9e3849515867f85fd777ccd8d700810b355ebf846457c3b2032cdc6364b67374c28db70702ff8fa34, 0x30053f464b2023a5458f05e67a58b32c7cab757a2db1ef1f64fc9ebf3f52c93ccdf0eff3ab43cbf1766e8490cbe98957f6502fcfc58f975e8ddc56674be9bca9cefa911c9feb6722dc0f273330b5cd76adfa9cc6b2574edd7e673b3720b228a6, 0x38ca8efb158d699b566c7461b08ddfef96de1dc3ccaf1f9d4987ae89c9547ffdec01e0801c5396cad8f79fd81337ef319), (0x4f060e8601c231e3ff8198011b2a27823881e2fa901d2506bc3c976c77914e3b92713bd4cbfa76657d7ba5e85e32f3a4, 0xc45ed23b2a117b87491db00e8747930ed9ea5ba40d011f7cb3077fe7b588ee6b841122dbd1ca709945e2c54e58a68648, 0x9a287231cb6e196418676e050778901c90e45cedd03a0317677c3f8396c613996e898388105196d185f54afaf6a74105));
  ((0x46f5199a2faff644ecdcbb809143ece5f78d8762619fa3c29f1db8310544d34099fa06639945b04b5546b195ae4f55ee1adf0b7772621a5bfdbd3eec68b223207d74b97a93cb1828bb006aeac6f3807472a03d406dfda8ce8fb0a8cd9bcc83e9, 0x1bda22e185d58cab531f7653cc1a2ad2c279f7eb9d6a7746e8a82f865c9a28c6cc1054686401ed1029f9b9dd0df1a88eddf4284d32e8496c43cdd7f8558091547c19a3902f6d1caeeba59d5870470782f251cb51845e68980d45c5b3a64c49f8, 0x20c4ba63ef11ab9a24421e54c542d0c2f39d055cff67994667a1af14bce2bb639d9c7ab37154e2d69a19ea6b86bd25e39), (0x222b134323dbc49a2ae859017444df00c2b7dcbf9011bb0043afc500944cd707445f1625ae3c60d3b8bb24cb645d41f9, 0x4f9cdd8705e92efeb486ab98805f1dd094193163bce84da128039d04f71543467164df30e0f92ce712b3d15108f4e138, 0x7bfe390cad1c98f6b6ae074219a591eecb26cbecc99cba28014bf2d0f60710b203b0d9a6e1440da581c10ef4786d3d2c));
  ((0x172376ccc5621d9eaf86e289b350cfc51814c5ce1f694c5c40bac5354e202ced5411ba47a56242f9360bd0eb1226592c266c82a49b5eb0658fcaa2ef30f7782f9215db98998e1f37d9b6d78f1d65a2a17efbd8f93fe692436436d51074ed2b72, 0x1204c186d69a481ff89f147b62acbfb016edbdd93c2ae1680bc63d94ac8bb30ca16b1ddad35d5f81333179278e776372f52d84473a3d1aac1c582e8d8eff9ad288359f5b1d82abb723417582ec984b64c76cbeab0a282cb20ee8523cfa89d87f, 0xee0647e5b1125c8de4dd0a388d8d103b51144c7444702d1138de526b17267234409a73d9d5e348a1a3e01800f0ea0d0a), (0x195db50944b03769eacae6bf963e5365c7a1d4368d27e7b549ca571d39bc07bc885d7dafce24193faca0c3ec66583a3, 0xf6ab000b0e684d57003be60513abb4fb05d5821a97c05a1941423fe3ad36520a54a101123ab00051d8f21dd6be3f822f, 0x33bed39daa4c58730cfc918b056e6bce6d9ce771b1bbb645864e02fc64b9ae8563df8ad707fa2eab9da5bbe64b98df92));
  ((0x1deb25830688d077996d928a5a61677b772c4a8ea77b2ff0c79ca0d80011bd532b50bc0c8eb4dec6caa22c6d7b94f7f2f2e87a5ce73d8f7da6903665fa51c9c629f6a99502c565baf2b6a4af3ca5e97ae42dc0edf97a8ed199113f992762ca1c, 0x3235bd4eeaf58cb15a129e7577b10aa03a536af49ba6e5c4287271a5f6bbcd3e5e6eb716c69bca97c911304322362e1d3b2a4b42f91667aa0a0bfdb7f5033832edd12fdcacb5edf314446d4c6874b4a81b787e2b379dbe77504d13e580cbb5e, 0x10db1ec6fcd0afb0253e5ad435c929d0b9d950abb1083d3daafeadd194f75b3019af4f07ba431eb8816e4278e8ea7de62), (0x27f59c96f426947e17ad91f06b3790faecbb6bf0d8f046d55fd80b5984c90b9b9f35bbd443e3f35eafc336a1bcb7c9a5, 0x404deaae8b7a7b08312f188859f5d837b5b843a287de68e239cfb4725d0125cdebbbfc725647dea7f966794db744444c, 0xf9d3cfc74e9e4d0ab079ac17dc55bcd7fbc5b796e441886ce878d76286509c1661411d08cdd5a817671bdc76088cd0bb));
  ((0x25a7fb5bf314e4f6d9138d963e5ea8489673dc570f7d7e832124f9a99312e307dd239d88ae0cecd6737c2d17dee187baf238fed6f23d3419640ce9440ca20630101a4bc1f171af7629525276f3248f3beb972041466407ae085dbedc15af7d67, 0x492609041a7fc69f152a72075e3833e6b3a81ad83aa1813f19a98ac9338f18a14b8ee9ce763a4c4a3ad3b12becca13b777e9c19eaca9924215d4b5d318ac2db7bf7218d756c525b76dee8a8f5f10876e5e147ef491f042682d4046b38a411672, 0x3398e23bf23a94535abd932c25925e7505bdfbace83e8ef5c09dacc91a61206cf328d294fa57323d8c58c74a0bc628293), (0xeedbeef13121bd96808ec0d366c7ce4563558cca63ea89c5cf641b0aebb8b520359400ce4b04df737d4485e317901a40, 0xab15e7c3cb3ece8be17c69d11e6aae413e046eed8af28ef8e249d365c8735ce854bf17a8590d0e637a7d23c989972412, 0x2e7c672a5bced559824aea76c9ba75c43512530d679dbcea109edb083d2371ed353049182db20a2deee5cfbebc8e9fc));
  ((0x12a45572a6fb02dafc05f2a7976cb35deb24bc0747dd3c40ab20b79dd103cc820c1943af99700533e62e917f9868fab5fd64496baf511ffa4b52de67e7d642e2d71957aa6182a77a016c38ce37b2cbabb7fefce881535502e2064e32a501c20, 0x288597533c33f0d683626a20bbffead9f0b39dce864df24b1d73209420cc90d93c074078d1ce10c0b766ed7dee111033b760dfe7e666155b5643f9c058fc444e38b651796a8c1b535cd028848f815bad2422df34a101986510b98d6d2f8d9, 0x77db8b4b22442684677f6c8e047648b89bd590e3275c97cf4d7137d8706a9cbfc2e805de085e756626469475a7a9a811), (0xcf8b0b3f83ba87f147e0b2fbcfd17a1afffd09859131172e6994e64d66881a0d6481c4a6fc19623285f8d46fe0bdd320, 0xeb17216118e6e3cec109b9bad66a355f4c8081c18fdb3d932b6097b50f7919d593713e68ab5f6e7efc31260e0b785129, 0x8eb35234e229972385fec2933b49a1d044c4de182c1567373cd9a67f5c65bb7f6e40f80ddbd9713ad826bb95fc4cf785));
  ((0x4ea290843897ee5aaef9601dde7d6893185dc38367e911f65c4c2b9118df4f946d036ad62a2c719b0ee763ae5bfb9307f0e09c8f124ff82ae08d44a7c46267aeca466a252f1ce9fb8bd2dc2a807a9561bfb7e3af28a653fd10c2e25270b90a17, 0x17dda73b9785f1544c238b447d375bb71b246895ce5348c19a7b1dbd9a835805ee3ea0bf2ce0cf5a9d517c9352a19e947524431d59f1233db19a44a8aa82b7c5aade46685baf6eae1965c8ebb65230f3e9bea7bc086c15a92d4a954ac6153f39, 0x2ade6c2027ca0e5364cbc24a4f7e6c8485ebb0d078a31775507847adae42c885af29cfab0cdc953c99a1eb0d4b69685ee), (0x171c8761cd2ad82875aaf163bfda0b3ec69fab5faa3f84171b46a23c9ebc0776b5be92962f24698737074ea3617619b7, 0xd8be7dad8fe107cccb4d63906819173f31ed6f03decc52ac2ed927ee534950c35ccee00678f96c711f14ba10b47ef5d7, 0x3fef9101f7859d78b8e87723c87e271043054a2a4f40d6edd9234f9e851f57fd7118ec5498744fd91d4f3a3dd5445f0a));
  ((0x207b7a2681d3721c59f315414c8fbacc8d8c446b3dc1c6e5fa8f8789c3f30160cb400f9f66771d4fe3e21d38e1e0a138a8d923d10036f51a8be89260f516c63ad41d202a613baaa2364620bde6737d8dc1ab26e1e86a4534cb7ad5c15635d274, 0x4ca76397b5c6d5b7767076693aaeb0985c2d4074fa7e0f7e899adfb2467b1ac0f8a1a7cde21e755289b0eb9d28b9aa046b93fa93dbe3ae3c516ff25b21e669b6d90ce140cae92cf6866196ab14bf94482c63f839a1a28c9252843c38c4173ea, 0xf2f4aa9668e8f2769397794aab4a7a96a46e67aeab1b99de749fea348b09e19cb105bba126c60953b92e17a58aa6a85d), (0x7cf331a9afdb8af5774d4cf04439ec6d8e9d06edf1d247eccfd4b95e4a2a15c186260d8930f1d09b7dda2983f3973c05, 0x4cd8a29900feb48919c6a160e33b42983f1b1026f23131e08547c98b3d6ffb6058b28e1efc2fcb7d458bf9306ae939f0, 0x525e01b946c163094190cf673e9db493795a1a334a2f9841c707a0bb5842e1e133750aca3986042093be42350fb0fc66));
  ((0xed627ac019855c0106c4e5c21a566b3f5a3dad3142893c8c456862e59ff29dc39e194f1ce7e152361385ab40633ef724664cbc7222e25b14cc3fb558d88b7f161efd3d673f45b07d03555eebd026243746d3f3506d087acad1375c1187a6285, 0x7f3840ea137fd223434afd28aea8639ccb72dc84dbc84fc30f478ccebfd5087da3ecb2d3387a1e1a52bfbbdb89000ae6e7aa71fd99d264db2d9f649fd5bfc25cb92919d7ca130a515d8177e43fa0cbe7789c7d9dbcd94ce21b6dbb734533ef8, 0xb6f9fad5727c0b6f2223d0fbf6794de7a2e7696ab674065d0cf66c4f2db03af8d7e19d1d163383dc4b42b2d464189e1a), (0x550e1ae5a0f5440af8f4dd18d42310bcccae4436a22070a326f9a5894465534e86483d8dfc94175c4fa67b6bc759ae9e, 0xdbfdb84040c3b3a1395f793371d5532611f739aec07a9d40da5e1e1b6039be886f1d21d36ce38c23281e32031c140258, 0xbc676e2d3856ffe70e6b07a78492c0299be4b3e37ee3b41206916cc950cbb73cdb579d793e2867f5d68991788aedf502));
  ((0x6126df236228f9a28b54226e6e53e04eb7b859033033bf2c1d968447c3eda55a53db6fc5b21cae1856a09cf6af8531e224b0febab6ea7d08bfe5fecf23953f3b269365d383292a6cc4abb588179f1264c5efb8875b1a138377cacd338dacf552, 0x2999e9ea75530abaa0ec3efdb45fbf48abdda68efe48e556e829e5c2ffffde3248a05740727a9e3d5fc3f95cc9e4be785adf3811fe18278d7f43d55395bfe20102faaa9ea845b5858ae229e74f0b21a79736a04f09bdc8d15d139fe8d29ac378, 0x2da35c1997ec7d3d3c7cebb24b5a077595c5b0ec5b16888d23427fb8d65262d4f85044ad88ea49eaa3c46f1d5b1dfb18f), (0x21050e22c4f7d9b009682b4070c03e47b1316292a6ee729afb2a6c5c531705ec6ff119fd7de31f56b2a0d87ea18894d6, 0x5c9dc41fd7919b4cbe4b665f6b94265d6dcccca5a4abdf965a5cff84be0335da525205644cdb598990c9d1238aa34878, 0x56145dfab62ead34784ee1cbbe261c6a7971f9d2b83ddae3128727a914fa87da5e0c31cd0f3bbc974650e3bbe664d253));
  ((0x12afe9283db89f6463ad81fa53fe95bb5d1f2e4ebaf8b0800218e58b431a434e014fcce503ab80da8e101adb24e1174fb8b3c4932d8e1e7a5f845a281b222d51a8455eb0b418a4cedfc6d607e21147f8a7c16329d39dc902389062d56d4942c7, 0x8af22848b6754290bcb3697dbd8d4ec3668c4826dded9a4a06d26018c5f5c983e33622c2bb2adb316e66f0585a9664025673ba29355b0b6adad8b8e1eb74fee42932a4ad19edde581e5f1257638b782bac561b92d43e973f2ce468c128395c8, 0x8e8b7f02bf6511902964035980a1e6c2b7789b134016945c5b787e480d1524cffb2f05a6ad710787e53b6c69e264855b), (0x3ae77e8f7be3bf8d4b2e507c4bd0de6b301816e6476f5c0eb31e36ade36d070d28bde804b58953a3e371237138d52ab, 0xa1cf48698540e7ef70b0636bfcc74e7cafe15ab2603ad2552ec25288adb69212be8cf964c18ed0c4730b55f4c2ec6368, 0xab67022c629ba10b10d61cc9c571f1f9410524c596e35ab359fb3b2c024774c74cef79da6fe05cc969c92abba694ad1a));
  ((0x410271d6637c15b7555bed75abe3ce82a5856d9374c7af04ab6a91ecffe8a0c40daac67d52e07cacb43e8b99a251286916ceeeb8bb67eb2ad326e966d905bfc2eb75c4aca3b2b0dad61d5e96f496384981b2f65527fa3216d6b6c69143e3fad3, 0x226e89041950d1a2bf20ce14cccd89193af6cdde916f2103219a95f6995f94d010a636c2762545f0da3e682a97bb2a615f32c25ba281a8d401fc5a55e06f31cace878d58fc341a9857ccf2649b659cbb4fe2a6eff76c73cf5e376fcdee2d0f26, 0x1c37cbe9ec44304d80b0315f3e7f2fe2f1841c990802c5c068514323b0583a4b0c9af4c226439d79014602eb87b0a5482), (0x56043e56984727634ec48d0b26e83670a3e96d38c8c44e1159cb6c8761f708a560b88225e90bcdadeaaf4f4c26efab0c, 0xff0a41b927e765903c88fdb591eb15241e891e92e23ecd1d79de534dc44225eb021af1a78da8fc1baef7249816299db6, 0xce21531a6b8252df56fc3de014db855e042da5201d95950028070662166460169746539b7485610975f629ead6e04b6a));
  ((0x7b3a1a50bc2c367fbd8fd99f579c0ed050d3d3632c741f2b3c12e18d150bd2cf5627d90002aff7b73a5a0c1b436df687823f1df9ddf48a58ff6a8259d192627c908ab937667ef28f883b7354e5ebb27b2a110973bc29308e288e7391ea2deadf, 0x31cc3345dcca9ae58fabc6e4982efa0048c7ced226049dae947dfac0ca0966ab92d7f5fb27f5eea20ab7dfaee0d3c0b053596e5798ff8494dee3fdb34ef71661072f57deceed94c786b6a43f22f58f7301bb5c120cab07839ef91068350e0fb8, 0x37a879adb2832290102484dcc86adcc155453f888e800e762f560dcc69ed74e21be318059caf725902220c9b7fc43e0eb), (0xf5ff0db8b368dfe7b187cb6d22f84a47382e908b98406eadb96a8c3cf92859ee129cb90481e6f53dcca30dbb09a9f6ef, 0x79c74fb12b07091e063f6a6bdf26be30b10bea8422bfba4a4c668486673a2bb8e739409a34908e6a0886d93aedc8eb30, 0xc1fab5e75a2bb38b07678c748e782408d257023d78e93c54fd55bded5287ee2f1d35585e249ad9084f92f524129123eb));
  ((0x375ef7686738c30bae819632dc93fc82c3fe3af84fb33ed508473eba7453e00db71f3a01773e908f8860dde0c0dce77bf3ebb08a7a54740c682f009d1ba0cefe9787a2aa488e7b1f2d7d7d283b327217f835be35ad2d1a7224072ef4fd098e69, 0x2c198d254bc97cb2a6471853e7d3d8f3c1a05371fff382ceff132fa1f16b489d5f1297f2a21cd8a447a677858d8646876ec376562271b6383aef86362c763dd3b43efc51772f6cbe8863d7651965f66316970329af7c84a4a27c2966723e7f82, 0x367ae5e5cea65168a5d816a4d101d046235852113d13c176e7cc5c38ed8fa8509e88b1b0e454f267f0a6c3accee7e005c), (0xcfe8587e75d61456ded29a2fcf8e95536ae393b756564916d8424584cdf805e2e41318b16b47ee1e6019e70c42e3038a, 0x2b9093c42940197937fe0bc51044bc41ffca49e920c7d76879fc0d2ca6f4c825c02526eb46e7df3c10a02ea199962a12, 0xd59e2943c758b2c666790d9181a60f5e2251b90be95bfe29a4974d9d9de588a25407b87edb50109d0719d427f39e2b51));
  ((0x15d04bef927cbffa3f57d63fa07fd4892dd07b68b24e6f75acb0c5a7d4521dd6493ad169acb333315b8894cb1b99dbb5ddefc578bdfaaa01f1a4b6a6a6368b7e91a7b9e4660120ef19582ddce495b5cfa49503f66221cc6d705a74e742219abe, 0x357b2c7ca185242a907f416fac05c8c82dc303c5cc07db54fd3060c1c247cd01003d3e5d9dad515b3a845b8fa2ac27e18171e3092939c5507f0a8bcd513c5de13a8217787227151a8aa72a470a6405d8c39f7287412e4ac8a54e4df98b2f6f8a, 0x379252385e7e5f86c79eab5cb4b77069f728e607f242588dd5b04c11ef02be8c74354448ce07f1d3e7f1e910447629614), (0xc94e6b6ea1bd2e74db573f3b3dfb1d323df90f1075c4994d0f05e15d84f735c2d3eab65bc842d51fea8f9df6ddfb0b62, 0x26327e2ebad68f29d5ae5a03814e59ba01bfd2e822460323d57ee08beb513a077e2a16b64e97a44522bfe3207e58282e, 0x9eca812da81e18adac8225dc0e2e5dca7c5424f1a374c192d85be66fc599632b05c2775f4b6a5c472340bd13e086078f));
  ((0xe37999fdbb2c132c66fa59c3868c78ccbd0d81db8296817b38e446a6da94a54b7c3b6afff1c57c90b4b999b96d211f6240345acdbf91086c0da053b39d8d0b262654935fbe419cf3a7c09500a38d9f7e565b2684891a7cb836b4a88535dd570, 0x1d8d270b9c5f02b5c3e833fe2ffec2a6b2f2fe602e2ac392e6ab7fcce825d060d9f55217fee2401e04f14ebd6a012dc8c0a0c5469b7874d63d6aadc35eb9cf664585d5a0f3c50d569917f2f3bbaeb5616d84fb3088b8c3b0d3cee8bfa3b3d55f, 0x226ea15dfc2a985591af0d78cae03cb8ee15172c368fdf140b5da9cec48bc9e16358bb3e0a992413b43664862244a1b29), (0x59999060abdd38022b819c316f9aba5b7ca20554138000eaab07d3fd60046d66e5e268d0c1e1f3411b2d57987cf41134, 0xa907dea2ef8dc3390af3d691e1058c1abb200eeecfd18744afcb33c18a695be936fdbfbd304e6dadf1bcbbb4df1615d3, 0xa7ae912b86a6c71d7de08294d938210281b8cee1918dcaf158c2c5d29b839c5efa6e05a0ae08f52284e211b9b3adfc8c));
  ((0x426fc797dfb6ad87a5d7061add5560a4b7bbd1019e685faaa0526ec7fa810ac073b9c405aa2efb265338018ef8653386140614ae6034f2a959f8c93c8796fe264857d6d0e8f1981fa7b1fc4fef3c92e35258a7666856e45881e00db6a566c5dd, 0x20f407b7d898320b47580a3d2eb1c1aa57e8e5c2a9cc2b87ab3f6901e7cfb92df24ed2e2da1efdefe332e8ba1a0e4acb879352980832da0e8afff63e612fa6f581e8c2b6e6653269012e99b1b614843faf1abd6cf2039261f8291fbe7a988db5, 0x22e7b9a3f395bf29ed214b8159a0bb57a8eeb0afa85f48e233a5dc7c015c8d5b4bf531d22db8607c103556023587116f7), (0x4bf5d6997f819335b1d3f2cf45b54eb3c173a2b017cf892d79265d9bed19b72ae943816131d7e7cb69a62db0833f8ced, 0x25c73acfcce397cdf89e1b7d173e106d333673ccf78c6a522ff65f474300a7a5cd7b12566581a85221ca2bfe61d9dec5, 0x6dd15f11a4b536d208ace29e05693b3ecdc6a62b835d693489b9f5ef934c6f1fd7a1dc915f1a322d16cbd2fa1cbe5970));
  ((0x9b97d8197e6288dd0e49c0e651ea0360e0582a1f85a682527f5a2d671b95e6574ed134e833da42622058636d2741b681dc0a255303abca1b5c30118f4dd2cbdbaed39b88073e4bf46758fb37babc7cdcdfb61c729160a3beec35cf865617cb3, 0xe225bedb4a98964b5c1d1db6f1cb77151324305c664aee4eef08173c0a4a6e72e477301a4be3af319077fe147d3fab947bd890cb30eb5ddf7908b9d64f9176429d6ef8f56ca6fcb33f7b08777d9012bfca9efc9ced9950ba42bd043e6131feb, 0xd412ad32c5ccae65cb19a3c91c3244e660c0ec99812bd126b91f6001e674bc8db2002cddb3dd8cdc80dc24b4e9ec4f57), (0xf16230d9e7e12e542a3f23a8b6058130bebb910980df4e2c8720093db55407f5edf752c2e7769197a14f1c9d24a7d61c, 0xcfa30bc86bf0a9aba547d22047d0503e69e62091fa1c620fa41eaf2eae0019d9e69445670a9b3c9b00d401175608d3cd, 0x4ecbc6adf3b6941c3d9aff8f7304d08881a575af9c046061e5af38cdd68c10d0708a708874ac8a39519447d4d3a1df50));
  ((0x2659946ccfb6adc45da95d8c3c6f6c78032a54a7e4c877bd89268c67314f1440181281ac67dc77c8edecbdbbcabd4a6db12cd9dd5136cf72856262bf5449c4cf39254a0e9346be50d2402b9597c7445edb497342935d0645ce004189b1754c1b, 0x746d56cc96a5c3a6237aebb31e403d2033e32d8cf9e2ad5241bbd8b1553c43c6b67170a0eabb112fc9fcddb81bcd414349b90da9be8f67387fecb525254b824a918c11e383b4443ff77b61491f6fca90ad51bede06b950b8a7ab0c34a3d6f76, 0x185c3a0e468d6384912132f34bfd9cce32f08bdcba78f976567654453defa04446f203ec5aa8d51da7979ad70de04b7fb), (0xa68d105b009fc71d6b9e81fb0b83f745aca0ec39bce428cae5be91445d55cae824d2bc46d87f04f107480ed7a7e1212b, 0xaea5bb744637fd211bb7726e8d27c5af8ce27d07b1e784fc10895ba2c504cfae0157b23fda3abd14f6c290e9e349a2ae, 0x4fb1c17528029285f68f209f5b5a6d846c7789f62b99fe7b7941b608478ca941cc1a7bfe82d4c47543e88c51dd784ea4));
  ((0x209fe707a6e61214efe72e121bb6891c8ee12891c84d95dc37d36ed5c294a1bd3e5ae96cce55f7cc98476d93a4b11613706cb21e90f55e55017eb9cd823b532e346950fbd77762528b013d3ddf17822d74257b2bf198e903ca77595f916067a8, 0x7718d68edd5d4908e52521a8f16a5fa576acaa6a4f2b72e01aecba863ac3813912888aa8e771ab4370deb2a9dae55a27d084b248add7f3910342fe061a2a8103c70abb351417185b23db2e77693cf357eb3f39a70e5e2972230a5b2af60b19c, 0x12945a379572b17640210a57c2c30c255de6f055bf7a165d25621f4c2c4b0bf203d4e742553bf69fa6e6a9059041e0aff), (0x4c31b831d84a16cfaf101d2a19e595f2dc85bd7a62c443ffd3fbc260c01af101a71ebd086279a9de0656aecfdfafa3e1, 0x88ddad74b9b319908ed61433d9642b1c77b31375c35a19138b0321ea6cca610b3ce99f250abf5ee3948d67035a8979e0, 0x313c3ea3515934534ea074982cf3348d16702fc53f68f65c2173113e4643c6005f7b6aa81194424eedecd835536c778b));
  ((0xfcb9901be21aa1c184e31c28e1c8121184ab18513f10a01a97b8f33e8af562dadd736dd45342403d23ee7ac06745e79df396f9dbe4b91e39b95ed59ad3d5629bc8b8c95bf9f91d7b07b3b67f56743c51a50d88a601d7783e54bc842d52ba036, 0x2d74f50fa963c7c24bb7639be6380d4657efae54ca3f1eb848963a63126373dd2a24dc4244273cc6a92ecbeb5db61767b2abca310cb2d42bd333627ea4c5d1bfd46a3d24a5a5d607d619c6bc46cfdb3e00eef1c13991d0183afdad790d516bd, 0x82e387d3828e48e47de81ff58fc0553a85bfb6be3eb699b07c2e257aefd0e91ac099a2c563ce4d14cff6ffd11c0bffdf), (0x7bcab698ae82247d94e99cf89413d3b848061ad012bcc5d55c86dd6d6ce05d9f61cb33bffdca0e6a17308a53fa7dbff7, 0x661288d0a2b579e21036753b6594e170c4ddd29a4db70e9ccfb0fe458bc33c34558a5ae38284d1547920b0c67f6b62cd, 0xb3f2ba8870bd443a0314e50b2cf172057edc00bdd4b87bab1765a4fe5c7072063be0786f403f06edbd830b1f4c1038a0));
  ((0x2b0dc5eaff64a29a1e0b712f81c8d7325fbde128dd7240f3ae6261d70d871482bc4d48b76eb9580730fd3d724d96897ece1767ed7ce7793c6756a60814152d9608278d4a05a92d17ae3d7869f5a1fd12fd8447cbd466d8d106200686cea07bba, 0x25f365a162559f0e4f71814f846aefae32e235b59fd80c31fad53687d30e1bae568128823076b61496e94e4297edb1c6b17e102cd33f766393115c527fec0b6b3b463bd61ddbff850d6a6d71b034fd376723c2f8a0c4fc3ffaa04f7c4d4ec004, 0x25233065f092b2ce06d19edabfa2933407bd10556d94991a243f68c90cd030e59a27719f2e1658d5f9eb41853398fb3d9), (0x9a69664e8ab3439b60de75b045465b013675431b5cbf6dbe0f63248890df932b120508a5f029a772b1e6e0da901400b, 0xa83697ec8f629625427bea794b713ff1c81784e4ff6a8a1de72656104401f6884d50b6da1c6f5672ebc2d38b011e5a, 0x4b7bfcd9058565c6bb416a4c9f8822e65d28582488a5bba59e123c7fe677932147b62a9b479963b73b5f76f086ae7cc2));
  ((0x1dc3424cd2ce9c86848baf3dbd8ad34dce7eed474812b88159e1cf09df0615c7421a8f370b535a4ed1b9f6ff4d6776ff95462ccaa973d2333d373781a3d9b773568121f442f9720d8193e3683c9fe25f1fd7aea70698e72052123461743b42, 0x6ad8a48af1f82795d4e2dc46f9d188859dd69eea0c38fa69dd68cb888543b45ade38e0df04ca9e5ebcece7300e33ff7d1a4cef28fa3c8589eff93a9e6244ed467fbac6fc557a94e945bd753b0b06996e1e6408b19674f8ab8b799ae40f87a3f, 0x48770a67ffcd5d0ea60121e95854328611e133d15dea3d0e2d482f8e6a17eccb042872e1654057afd6c97c98339da31d), (0x9cb2ef09354a45e9bbf7482bf595d4049bd69566e8f49f6d1eaee7b64a41e33a8c75ac572d85e336185e3d63f3a14a3b, 0xa639955dd154a0c9732ef217b34cb60ae4acd95c19def6055d4414633b1e16deffc66b867a4a8cef82ef374ffddc2b73, 0xf82e00983ba5aecf62e60b292923ff4c97725ff76deb17f19f1837226fcf7f4aafcd1517b084183a0c8d7e74e45c1c79));
  ((0x60b2ba4f3c667970d20c84809711de2204aed14bc7767e7ce7d27d3a0f35d4fbfc2707c58070e3b05a46506a669c1a2771ac2ae69dd6181bc14b7dcd2f95ac07d7fcc4b478423b70e59b1be7de8af9336c520b4868921c5e23341d039ef44432, 0x482fd75a670d2cc45a4d4f60805b21e8815836191ff9154f371f4f95974ceb59ee26596d2c8912c933523fa86aea99f6747a10fdd2105a8869da4af7dbf540bb600ca8eddc9fec7091ab6f3ada69f5177fe2de4dc913d58df7f0f95b66dcb19e, 0x46d8d3715214bee7a737afab42e17cf76536f111d364f960113b3d4f5be5a3b0e48c610f49eff35b7558d89e541b1f551), (0x8253833456e299cc8a65b157b5cb8d1e223aeffd472d48208b5bada5e72bb31b2d638f701fdf6ffb1b101f68dfaf872b, 0xbfc2ad655912c111b639281aa65b9875967c60932e3b37345332ff2d5a83356df9455a631c776dd437aa3574e137bcd2, 0x39d8a0b3d3fcd1a612e8076772b7e039d348b2e2c8de9c564393a46d1c9137768ff7fb6b805b088f52ebbabc543ef253));
  ((0x1a0040115920a037e1d0644c14dddcc24cf5b85128ce7c8c0a3a81835e2790648b471e58eb566ea5d4ee4244afcf9f745ef488f8ce06c8e3b1610090eae708d96bfcb0aa8b665ccaea3d3836d0b8c44de378219b36e6850372d8afa66a0fa094, 0x3ebf52f63ecd2b61abae95e32e7bcfcbca919affec28e3734be6509a89a75b402b80fd4b5c08001566fd252f6315e7fa54188ace7d842f18191eb015ea8b8be1676f2267d97ec14b911a28dc6ccfe983adfcc13c7eb440212b2c1c03033390f, 0xf1c06061abd567c0e8f1c8b0f347d35add17616be7253ad72b21e7703d1fa13b2b2e69c272b311a66dca869e1a82abf7), (0xedca51065b9649d26b0a4e1f770b75167fd0d618194a727aa443120ec60cf18ae6003bceb5bb64a5ef3d6418e210208d, 0xee51c53df4cdf2354f0fd146a3cf68d58d6b82ae1ef3aaecee733001e19415f696d1fe949458b0a31641ded1f15d7af, 0xfda4105777ed15cad3f56c383f9800832e8dc37153179a28c9b1f9a5ce3cf0468b1232767f0807ecdadd207bcf5ced8));
  ((0x8db03df29801c04da794cf3e2a05c7f5b1592a7f37ade7e6d135c08c8e9506b0dfd9202d0aa33414e6a0f72f803b25493074885402cc8e653ff7a7353bb7e27ba362518299c0731e1977f436c302d9586c323813b3fcfed4c7880eb4922578, 0x4b6615b834ab39bddf0e6c8cc1088aaf02f4e7736288e9e9a0888638f35a5ddc65cc0ba422477a1ae8b8a1755c49bacd5e9ade6a89721f2cce0fbd696a28bdf236bcd5b2d6b623cc67452242f6a099d33a9161b71dbddfc0aaf3bf25e4d12e, 0x2142f014d5b27f020ebf39b27e4b067b7a133158fbe2e16a0eb3d01250448e344aef2b571b12f15ed43009c2c6b8d5d5), (0xc6672173188e85a5234feb9dc28103d060558733c78cab70fbd2c8a40bf7633436491032c6b532b52296c1e4f078f821, 0x3ab92adca33f50b123016331b9eaefec11388c57c87ce7810e073ee5f5c6deff2c203b09dca309d008daeee5be179de4, 0x4f21a2f15ef02a01174372f6e76b5ac879630b55e8cc28d57382b6ad52149a1f162cf50490b5d73c5519df2888531c26));
  ((0xae46664ca561c680b909b0b1990231c7bf21300ef7ab23be7faceba37dfbd0a9c3b04f80014db10562809c01c48a469c7f4e5245b1c952720479e171531a241654b372b2d2320b3838ee872abd62c33524a08669d237a97ce122057e2eb1858, 0x756b9c129593d9202789c5b702cfecbf372d1af2f06f4fff05a1e839372f2bf87ebca3f6a253c4f4c33264c167e50c2f6563d8d5fae2064d00841bb72474d6a0acd818a7a4bd531a9e0a173903c7b501719ee4ba770cff707052f453bbc3a87, 0xd1818c1c6c23f0947664a1748c883fc17ca9b87554124bda39aff4ff041a33cd8bc7ddff56739bd9ee36e70fa8870678), (0xe96b3628edb3790806f29416b71f947aff3a5f62d82b83b48deba9ad61084fd7c1549df297e82857c83991da56347799, 0x2f7d27a6205b1aa93334a027acefaaa73a5dfb86ef4f5b4d1a506c05890cffd9d174ca4469f16ce4c81ce93fb1ddbc9f, 0x58d8a991cf049872c650a1bddabf1709a77473480e9356acc20d712634d514790b2343e72f8dba74b5bab84c93ac5c40));
  ((0x9e3c9979e4cc01d3762ef14a75c955e4ad66b7bf2a28ae4fde86eb0fc9bd31826238a908d61efb51f42f73ea35651f865667118d8d08f29c936e931d9461c0d6ab74e450e752937b89d4c8fe8d39dcc8e5153fcc53a302b64157bfc56e72179, 0x9405814ad49f813d0ed1165e826a9660d8d2d089747983e7dbc2be81cdfd48008c02538f4f5c6f55837372a2e05aaac6f2979c5b2072b1cf42618c6558489a5bd61e2d5b3d8db697e8ba96caf7ec578105ea13e2e819a105a439d248a158e88, 0x1075504f8374dc47394b638c31596869e88e46c6cfa3067707dba496da42f2e2ed0592b42a40787496416dd0f0e1b3a1f), (0x424e270b732dad8a705c214ec94f5ece0b1811a67edd9bd756736d75bfe75bb915b7dcc67bf911272274f1a08705b2ea, 0x9932142bb84fc3b4ed37942ddda6c1da64eeaca526c44fbd70e49e6260c1efb5c38cfe3d49710c75dc1b5cc7208f9d16, 0xc0a1dc49d0eb7d004d3b0d8b9576cc0be10fd41ef42f3bc7b33caa2511163e53b1ac5ada03f80d0a9a3afe1231f1960));
  ((0x452c10c2ce81eee86721e61e6478704e80c4d81f678fc26abef4756d3adfeda44ce0246b976f388735826ef791e3f2d4f5d5942059cbf1da30ae8c39cb071490994f04811df1ff44b3c6cd803f2043b2e1b4d5efa155a0cbcdceca27f422ce1, 0x2b7d4c2360884c5c89707b6bd0dc18d77f9dd0d06b4a20efe102cb047b22acda0c1544afad91ce7b568f767d0ea4c59fcf6f6942b08af8d94b3e9d8404c04cbedac2b6be01d9357455dde2bc8902cd06dc21d17ff1cd605e2fd59e38f6b095, 0x639c50aa232eb361de7a8a89e97e24414c446d4f3deab82279c89dffafcb6b01a310911c794cdaf13482e4bc4842bc4d), (0x7d3c2f0960bfdf9d660b7c092a15e3dd8f9ccd866090813da02ed96883a50bbce043093d05fe75abe13c6ed98e28b2c5, 0xcb402ccf85d8b510aee9cea738308c0551a363313114dabcfb7089cbf6dc79d8e2d265cbfe84667303164cfdc8eb0a4d, 0xd94e00f48af7c281c6e56590017a6208925ae4d5f18f42458c5b41e7ee647374a9ed452bfc00133ac3cdc745906a49b1));
  ((0x67871cab4cbeede73cf0a37ba2a2a8982b5cfa3dee7aafe252cead2c2ed9a4d1666280635683f54a9c2dd69be92f8a11f95635c138a3f381c0d6b74d8c8e0982be7148859db60ee968c494bfd6d04e51bcd2a917e51631c7a1d0bb0c97ed7d1f, 0x3757d9e2f8ffd20642846fc8b317c00a2ba81d3668bfbb7fd34830c63373019a6072773bcab667a55a18ed035484aede1a5d0a9beacaedcf1b95fbfb4a62663b2e0baad4fd33ef61ed6800ca0749ca701489e463e37d7a53127ee9e624c23a48, 0x39f5b30aada26adc70a0d226959fc79d8f0d5010166e9d57ddacbbed9b130a69d68bbf718a5272b5c684ce65884171971), (0x5db6af7b5959d119d72429fb9140d3f30f74b823703d7b6050aae96c0580ce71880797afee5797dc24e9a594eb921258, 0xc1a0da9da9b491c40e9580fda0ac055c181226caf8c2564700bfdf0e4cec1c9b66dc8d92f6972e9cec60a48cd6e21d48, 0x6a70f5716b9efcb0d86cc2d21facae9f2ac004363a1afb4b6485016410fe38edfd2e3aa5d59e1008d07f6f41e69e0827));
  ((0x304f4a956e745a075ebfe5d80df339e42ccb3d0b425fbe8b71180fc67f435ae2bd4911c379085fc3e5a2f6b3b44fc1907982ba8cec48f2b0261a6379aba42b0bd9686de83b9cf4d4446e3d030a97a96c35d00e90b7224d629a873545e9592986, 0xd47450e6a3634428a04049350b0deff416f2ad0c5c9a72b424818279a9990d4b5812a9dc118c17e6d540623a3cacebf77437f0db407424334351b36c0656118075abd633db0e4d8db18745c57b70cddf42ad4d34cc9a4a440bd269066ab9533, 0x1652722def49858591f5dd4243090d015fe0d21f391ad1124537e1ee189d38b9d227fc45c9f898eaa93005b7bda59870d), (0x161e403634ac7086a628dd56af640d11e85fac7db85e9dd1469c02169f0e6585f80e5344667a30f7503a35a34a3f16c6, 0x729787c57f2d695452ce5996398aaaf1ad0d0202df82327b589eec4730f059d12477fcf2af27abfc017f47669695fe93, 0x78c981e56cd6e22b36c223ffca8b10f0b4f375ff59553e3a9e4763f63c3249431156801ad2d71f147d3379ef0a4d63f0));
  ((0x2071969fb55a029e5fc2ae9b6bc18aecc7e50032435c6a6a7c1821664c5b40a2afbd804f374fd42e17021a90a9e26db2f77564f69f67ffaf21edcad600a3021d0d81233f39f13dc2fecfc9e46cf55ccebcb4510e2e16df29b2d6d1ab5d0d34cf, 0x11194ee325bab42206a9270762569ed8d50599b5ae47bfe0f9be55741ba33f324ccaf921b9879cb1f399c5f34b3ca60612b045a39375f93d2d9cd62d4e6369caa67865f8388a7c58457675188b78cbb4940de77455ad36b920100b9ad6df7946, 0xf32315f0170d10598e1c8f763fd23ce8303506fd4a5fb06017eb852a17d37f4ab3f44955ae255b96f48e8924159837f8), (0x39fe6545bf801f8cb6c10a937c7dc2f8084f9390eb92a85170dd900975009464f1e6368521271f64eb86d3266a264ff3, 0x9050f7f20af284cf86ed0cbc70febfc369a6606dc3927516d69c737d0f17c7fcd4f7160a9c343f18583bd4a58040a98a, 0xdd73b6b74b502d17595ef91be7e5a1eabb2ba2eff59104dc76400cf7812a8b494ae02d5f8bfdf24a180bd589eb0c9aa1));
  ((0x4ae9714593b92a88c191d35a89c0f8af00c63cf092e13071b7f3b5157efdd16c8281d8423e84efe706725a287e0e693f36ea59770e510dede630310e27e029ac7b1eb3e448122ad93159fed44a70bcbca2b1d971b82f8dd2f4f7db6d0aca5e65, 0x3979cdeac629ac270f950a6c2ec5e54c2a467a00dcc08c0c17db2d5e1b8f272899003cbfad080a90a051644d88484199ab428f8f7d60611710ccec8a2ca0099e7fd17179634271ad0b5a80986c279ca42474848652bf0b18c8f66ffa17475418, 0x2f463d210ca3aedf15ae684d41231814bdcc6bd4c2c5ed4f44bf4f011dbaf27f42b20c5341c9037da14c42d9ae853b910), (0xf9e2ae2cbba66de22769c8f4df352d2e9b1362f0440a176afa54abed66b4d3a138132f810b6318eaa1772c896664dc4e, 0xa304753032ef3157b82e9acfd11de90ccb55cbabd458c9bbae814f19af03ac860138d3d40b248f75e6105f5d5119dbe0, 0xe2f6d534e4b8e1447ac56979b22a48ae7b1806d29a4e51ef1580d4a6562d85edd73c7d153b91aace0ed8ff48b23e6edd));
  ((0x56b9be3776da665972b8ef4a423ff7fa0517216bf1e001f185017e3efec5178e73e05585efc0ab42715bc51a17f3474810a91877bc623f54b8983423000ed13445830c168a27bbdb8a551a4d465768fa5af8a0b6f6d5d159a7669a8f05915b5d, 0x3c5f67f5cf7710878267323ba2af668286ef3bb876a7cb1e79b169763c02f46768088f727c2c48cbe4f76ff11b852e8a900413f25439fe411928fbb62fcf99569399a383999133ba38fb46f5e2e944a93ef3145655365fde7d30208851de1beb, 0x47e8f0406f6ecdde489d1d928113cf8a27bd52a016c48c65935714180ed5d6a0493b8738d76558a5ab5734a6db0bb2536), (0xbf5f5e5cfa7294bb385b0a992a701b9c36edef279e603b1c4ee3ebd08f39316c47f2b93f7a23b5d8d22c78c435394f21, 0xb4667c1c5397b16df769936d2cd155a9211689c93274b997d2c34b47be5007bc5b941e653662adca71005ad714c6643b, 0x86c467c68c5ab60c7d238ff2144881331bb43a7c8f06829b3de30894d5e234324b712979614e2e8205ae352869bf903d));
  ((0x38fcb93d92e3527d5a8c8b90cc639d4e7b8f840247ca7beaaa724e15f1fd4881e4f35d75b85ca3a6a19e92583b95b92e602a187bd91395417adf25e7dcbe9f41b8227bf11ace9ad7bc72c0500c626dd61981532637a7d7d8e1f198a2a21699c4, 0x154937df204cdb242216a6228a6d5ab76152e4ec9b231562e6534941d2d4cc61a97c2f304abc479713eb35ed4478d5c897766d2b1e2b897e525975ca9a2ee91c686cc2d75607ee97a1d69e79fe4808525fa02811b775c8ca3c801118fd546c84, 0x21d745d812b3d4eb5c5b35059f28e30e34ab71ef58079e61129354badd937a8e92b940bc6559c8d0a17828cb0ad9cdc0a), (0xc1a149224e663cf43e15fa2522d324d269f3197ed17c70a8d187e42766b8d782b1fc35b61ce08151abe0de23a30733e5, 0x82aec86e5ec159731c196ab4f266df4a55595aa3022e8397e57c607d6fe6a81e3a4676a9207372fa383a6c2a0ab2ffa4, 0x1a4642e08e14c84b7f7c3b1c1f4d0f65b940d1cf907d0fac84c81b4ecb9362cefa30c3e2f067b2cc70e55777d691e2f8));
  ((0x80c61cb5f01049f8a49787f31c4cdea9ff225689a7822e0ba385eff436e3b61a305c8d400bba492989c88457f5360f74ab74bfa3778136fd16aca40ce450ce8c386101507ad15ef92381f56295c0d2b54f311606072a579b448a9b460cbf860, 0xcf201754020425859f0871fc5124ae2e2bc106c40851d6774ee31dcfaa74557a87b24ca485c4b2deea33e494a691bdc4be66f70db880743458b2db0708d1950861399dc54f5331d85f79ba24afe7c8216446da1ae911e0524d3c45ef42c5b2, 0x728c11b9c02cee405b8ec93c0d3b4e367b0848bd1e7af2beae416cffe48599b92e01da5b708cf42b85689a5b11e79058), (0xd3596ea17f11465c1183afea539d1d4b3e884a8cf5dcf5a82fb5911e30e42f0ffcbc9edf30a2181ecb04c0aaf0e59f39, 0xf6abff52846cee24e854d621bec01d431264966fab8993e91221488365a83e0a79869d2e08ae0d9a87ce702358e4565a, 0xf7593b15212f0b1b6ed9a6dcd17c13f60379289de45415a8c07cb7c4daa02e494ce7236cebf21467bd791b272ebf01d8));
  ((0x8f041b95c4bfd37a51de7884f445cb525b2bd61829fc13b946d8e42b43cc8c966774b44de7aa3a0612cb8ec2bad924490a078faaadd1a956b3a20c3fb7c4b454f59f517e7e1c1b29c34e008a87376d1eba9b02a73368551b5e1aea2965e519f9, 0x47b445d251601c2884f7b5670d9e8ba3eb1103b090aa3babe952009c326085e340ebfeb1d047b549d751f9b0422bbf51524ff631f9aff96def41b928b489bf841edca8572cab8e558cc02ec39b74d2757454bf8588b0eb574f679e5f49e8343b, 0x55310d8d1126c8fb83d6efa79de87feec832106d0ec401083e86c471d604f20fbad96b4f23216c99325a54cd2058df261), (0x1456efe1331c513b7135c30b74fa8ff70147c71a1f12518123ddd631310144774825e72c98a913e651a4844fb6ef12aa, 0x518f74c4bba5c844a650e6325b554f9a5a4fd0503f86d56efde9155a5a519eee7467c993b7526bdb4ea5744eb4c75bef, 0x4c33fecf2573c14ddf321419349ff28718728157b5ecdac781fa740c4651e6a19f897d987763bfed0e54729f55c1def5));
  ((0xe91797081dcdddaf9cfe7a3317f8e2fd2fef767e5ee5397b9853672d486926523bcf05637ee5e6aa87b991a1558d3ca688eca4ca0f416cf37965ccee75eef9c4ce20277f763b9f54c377715250c6225e562e846979f4726fc3fafdb640348e8, 0x6ce40a2f94fdeaddcda696d1b6013923aa6adf8fa0ccce5aebc2819abbccae029e429a5322bc7b073c2b4c347aa9fde1591d204ff12329f40c2d0e32cf5036f10a1a3c92e013b3a42f202d909b201d7431f99bb1c8b9261969f9412e737e3c6, 0x6a24b766679d06f782ba9f31c1fb53e90bc4ced4a1b34424230e381f7bb1e5677150f01d8e00a77d66b0c9146916a314), (0xbf0b4a08528ea62b349e319a63b0bfde68348cbe1e89ef85f6876a5501fa9a31328c42ad729ae9bfdebd202a83ae872c, 0x695ae3bd3bb3fa3b89daa5b319a76523c22d7a2b3d61b27331aec7b0158bae6b7c18319dad0bc8c3fd39efd8034c2024, 0xaab73a64acb12523bffd7b0d9f96dc9801fe1d11ed623d848c82a8111b74ea215f33ffc90a371ec1c410d3b646c08104));
  ((0x2a28901d59d2c28382a6a9920371b9d25d2bcd556a77f2700f268ef5e3f68ed7f3e54d60c8070008f9055d78be178dde620aba16742c154c5f6669fb12303a7abb27c2c1e71ee6d8d175f922ad038f4073737d2b671700863185a96840ef79d0, 0x22280ddf14c4af766a2583917f89200dea56109fd9db6f8e79edaf6ede911efede92d35b983bdb90c6c92abafc2e541f24a95687474ea049d8ee32a95c8a8294f8c5201afa60199962a85c7052af1aa85f93eae0cb9a2ee9f6742c15f44991d8, 0x27fafbccb281d3bf017b6d26a43fa660b3c2ad7b11994906bac917e51fe103edbc3c591fc7cdbd58207ca7d90eb45f886), (0x5f39aaf266e477aa894055318a266608eb8a3c3ec085e79cfe4133b3aa396cdd94f140b955a6d017294d3418efab1b60, 0x73299e3686cb482bdbcd28095329faa088c92eb8364fa73345c96f38e7dfd234637248a78263dec301f587b70cd04298, 0x2634019cd7fb7902112c2016a52dc8965e4763b38c79b853fd5d997e1426f672a215e988bbb6973f54fe087f956ca726));
  ((0xa50039e14f523894b99eaaaae463cebf5ec86cdfd9d6bdabcaf93872b9d79c66c3feeb6abcc08719b300e250f625817e46cdc0960324da915c0829f3707ce4096d221a0caf2c301e17ee9e3e1cf796803f15343ee29dbe60902920e64942432, 0x1b5e39821f06798aef3b9f85ad4e8d72173021c814803944e02ee35c269bdb2ea7dbd10d3c2b224ee8e7c526ebd16969b403573e0d128360c36bdda4b149a3ef86b72a9bf2174d9e9845edce423596ba46c1823b2aa94100a540ba0639f8376, 0x6154ab6b3f35f85e7af26671ad251b770168babcc260aa56046cf664f8ab665b8967d8892d58115d10c74588cae08c7a), (0xa01a8489d9c95abaa430939e1a0298243f17fc4c26678a7da66c8f15d5126a8c97f9cab9cddd4a99c57321a75a167a32, 0xa9d90c51cadd8e8bf53ddb1e1c0348187cb034adcc2371cf1faeebc7bc15880e420d56a6ddc1e3f41e2e618e67fad316, 0x53b11060d663bb92f15381a5936bd23bb72733e999a9aea38099ee117034c212f474e8a9d03492bcb6fc9ec9a44e7426));
  ((0x2151c833b2311078a87f2dca8ee0537de89133e5c08368021b9a43061097ca12ce73b79ff9ed4f6e04f667121d753c81341927c415a6aa22beb97bf2f3f40461bf520af6e661ba7afe766bbc1cc4341a780c9311d85fb043650dc06e4e27eeff, 0x83580d37dcfe3715f94bde16ccbf9d8f548a901b30f23ceadac4f90959a5d71e284d14b77412a1464b2f5086843c0b50138dbecb6c4e1f93b5800cf80408e7ac39c1d42733798d8354e98d97380232c2ff288723d1192ddfb691fd23e1223cc, 0x12b73d6a6517bca799b2c7eab90a3bd8d21f4aef0bff7fb646a6285584569843a3dfd192b5509081db00499af8b08a54a), (0xc11f5871b1b67a3b8332cc89278b7e0d84a3f08b30da3cbabffbb5e9890094e7ab57d9e1df286746d724a15eee687143, 0x9caa8a08a422afad8e853b838a750107c9b8127396554a71ca94473719856d3dff4ee586025de7b89955f121173a2e3c, 0x239edef198f9ecc4098daacec374c02ca40e6cd463aad4671cbb1c446473e9445c0c650d40b942786881461adb7ee2f2));
  ((0xd14aaeff46391766c4ac5f3eb0f2cfee47392f6ac4270b85f760d20bd1f8504027043765d2360d529351441d61430d31467cb5db04b989b86b67fb1013c81f0d8c2ceb6bdcad5b9d7a88ebc717072be3fb4392361034db3a9ca05edc945776d, 0x17cafd90626ba1025660881f6c450c690f5e314aa41e974227aff3f8bef5e5a468395c4b3a1e0e8fe6b5144b5f181f642fd03e530496f69a0c35e3275746d76a3368a8bf865f9076a5c9af677ebb11ffe2e699a40c75514ab303ce30a8103bb, 0xa47d09bf56b8194de73afb8972904188ab0150804a07227c4e5d375c41b224e2085c7e84963df957edc5860599dd4eb2), (0xd14a6297deb9086a3652ede35816fdab8029312032ee2405078555036d2d409aedb41c97189031936bb09ce8f3a175f6, 0x94d3de58a16f4501133476fa6d2ca9037ba5682ba2090b6621988f8b655c232a72f97f05ec72bda47d4fe87b82e81bb3, 0x8ec303658cf61b2906c01dd8d9d06685903d7a12137ebf35927ace3c2084b11402d16c4495d277304806aff55503e1ba));
  ((0x31cd711882560753381b5e07df739c8313f5a9951f6d15b58278fb1c6ee79d51f3c75e668d050fe56a280701490895b5e3575734837b418e90e53b52e817b686f266910331372e8f985600a7ff27c0d2fdb34b8d24351e752ccb9e273e202e1b, 0x17e2e739a922c15d6f1f2d438115f2a660d2cd1fa92d635b25de091b12212b6772e488fe008bf4fc243d4c3226a392a69bce7c39206d586ce403db0852ca3a2cb4a06704edaafb2ef12ff9015e76847d8d85f6f918df995783f8b7a2129094d3, 0x22ec9cfa7b934394c04ae09e391469d40fcafb8d489a9648d77ade71f93498ee52a6cb7726726811df001f684772bb4f0), (0x8b9916d75776e7abaf50da18a953e72883ab1cccfe6bcacf0b8e410a83a768fc7424445ad7b9bb3f89c0ca58501ea43f, 0xb73618b734aae4f5d973f8096151a50207ccfc6b6c1c0ac08245d0839302c43890254242ad9338735b66140dfa06c76b, 0xa7255c3dd41837a90d9ed27a0805e06e6d290eff018a951b6f729b054789944bada829b2443a18d6740831d232863afd));
  ((0x47c7b2c54c2cdb88949330ca41ff9f117ef6bfbbc652ba0a9cddd9ea259cc9b678ce04ed4dc79a6859e8dba350e2901e807a5be049a08008cbeb236c5165bf8df7dfc0dc8f30cf9cb1c75786b3ba0874f218fb0c3d61a0a70166340392488574, 0x20be301d40e2249e6b39ca635dabb835db4d6a2a280e361b3dd4a415acd56e39ddef20affb1d9cd8944de05527c0fb66b2ad7dd4685e286d0c6d867490883114a8ddfc550dac20465a6ac209c0b23dbf125c44d205d7997a7f8b9ec018c60726, 0x280ce28d0c37fa8c41ffb816c89818c0f475f5b28427a549c15f49c7a1f80fc406c8d583810374eeda8eeccd1631a1359), (0x5233bb24102cded1c4773bbcc5f47284fce467b7500212984c51a330783107ee626118dbd49c7977af47674d4ee37ad5, 0x38d640856e51bd29ada7cd1908319453a6c7dd8c6e31cfd06fa0b8d85d3ba0dc5d2072a889299f0a79acaf9c906793da, 0x2c9b22d45bf334756a9e58076c19736556a6b471c2b7a28b7de21b9f7de6041f29ca07a148eb2010027b57f807c1a4b3));
  ((0x5f15103d4e3da0a650838b3e6e4e793b9e5952c30c356751a32bd3475374a210dd51293bed74095eac69dc23e0200baed32eb4e23f0e1e9ec819b4dd90f204eb246ee61362221fb006cfd2955b254aa129e22963db61d6821f539b5b3b8daa9, 0x254f83f651b312f4b643131ff10e91a7f24ac49ea557eca01cdf8fe5eeeace0faa53177d0e98286854264ec2c2f421efbb166692c648ee220ae0fbc93210b00b4a5644db58de3b48c8bd8aefa9104b01ec15187d6c72e31ef5ab023ed9736d2, 0x4094eed605c6d361df513d839db437310d67d344f4051fed4b49ea6ebe00d440004013c19abf66313663d18fb501075f), (0xeb814f3593f78d1b656af6b6ce32b246e4ab047b850ef3a038ead2ede28c7bb3df0e3ef594ef9fff88dcc45c922cc9a2, 0x7d48728595c56d0afb519b3aeb656111f5de2fb2f9572974c1468f97861cec31800f0567ecc888619dde87a1e692afba, 0x78492647f4902243cf80b9220d63bf531e6a563b8042b4d4fbfe55449ed088aa9bb8bd708e2e636ab8442c97840d4a5c));
  ((0x2352c7f0a5572e54a3b1775e30429866bc0f7dfd9d75b92165a866924848f4fe6601e7d15b19e34e4adb28104b82f0e80ad0e986e518d35767422f7e76567d1876cb1591ac96a362d191ef36d9983b34ced5dc1b0b8d31a475b29835cb28a189, 0x10f50adb1fdf726d066f6dad24a71230acaa798a357e5cd603f4875cb0a62da935466f851ebc8c03eab1cedcba58a5a05507624591d29794506000185bf4720a696ec8420b827f3fb5d64324178e25a9af2506198d309deed2ae72ccbc36dcc7, 0x1c42d9f26313c6ab95b21c45c15eeb1b7f98a6e91ca2d61c344c5ece82836915ac1aa469056c4e03e3b07f9ba1c22fb6c), (0x435d334d505c7d49ab6bbc8306618319c80bb19c147064ebd1a1c5e13ce2e218c52d3d458365afd4aabc1b352b21370d, 0xeacec49168c759966660cb92368658156686bec285a723f30097304493e84e113309d237dcb02d25015c599bc1343a3f, 0xe810d5d3e33eaf9569d0c1dbd89d83b7999072850590eac92965cc9f24c131b28dc7583a17050592ea3e806a44f55630));
  ((0x7fb9d806c5071a1c35f22e973844fc66afd22ff58069cbb683056c8b670e7040fa491c4e0cea55b896080afab0457ba168e39d755ffffcefa524542ab1a28017cd4ff29c26dc9ed1eca2479bd04cbd5ed857a7985bf210c735bd5a6187232b48, 0x3f1e02a6dea15e2cc1d732b822aa90e7fd80e1d6cb12b4c47337add42945c231de53895325a14a04866c70af20603668391915a7c07768cacd3c8bae364bf82b516ff5111eaabbc7fc469eff5356bc755452ba6ffb7e68b8c75c0c8082887892, 0x3c89bfd88555422d0355a4b1a00c6b9c9cb413c7a629d8bf5914694b26451543e121611a54153a8b310298f9b042db6c7), (0x5ab76557d886afa4a2626786926f95f8d91b2fae413bfe5f68dd2ad183e201e157fa0e236387e20733dc9f29de629bf1, 0x683a90b75d1984cf7fe2774f84634b2b78823d3eb5cb397c93e1db57e0fcd0a49ef2b9733a8c3044a44aa7a0e90787d8, 0x9de143d3dae1f076bed76fd368de902ff2ff262a4f6f1e6e909416f86668f20f933a7b6c5d71c8bc60b892103c068e28));
  ((0x26926400e84f1f47573850de10c15d25ea73d6139c7ff4feb8bfb1770665803d5444bbbfffcaa6f8ebf18c7bf1df9078d8afd647cf957698b5e9052d8951609f5cc9e0093bc113c3cf9c063bf65f2bdcde9188ebabe0101023bb89f306d7cf91, 0x1d3696b516618a8ed47968b40d859fc65b3bd34ce6d5b201f8099823dfc2d49cb91cb306409f360cae63c3bf7e1ac0731568f4d8b520cbcb4cd3eff414393bbd930237713e83add3030eba6fafdfe89ed827395622b08b22f5ecb44e3f841ea5, 0x1be6e75f95d906d450e8f3b6764142e81ba1c5b78f9e8ed035a5a5dcfd49b59b210330fd6c511dd75dfe867bbdb673881), (0xffb9de7778c5e36b470a341fec4bd9809c32916296c19ec9a7b496176d4e8f38b0c562f84bc0774b75d474a541f44072, 0x9a4b8ac1628bd32f1586b77d12ebddfc8403148a8b1a1601ec62af2171f65e8e630240a94922da13cf63fc47a9f551d5, 0x6a08ffc6d621c8ff5b815e8f30892ba24ad2fa9982f1e809b9d809bcda3ccf4d3f71dc6a652ebd36a22021c716da08d1));
  ((0x26596d63ec90f4a5fcfb0276cdf695d048aa1b821c158b8c918000e629b0876d4392211adc83ec31fd92b44ae3a31f1a4f50bdbdeede1a2fcf76a3a88b7442eaa4e81c26ecdeff271d388ee08213acdc46240c0871cea901188dbf305c79b4e4, 0xd2d61afdc8c8eba80a83af50b88258b612682d1ec0ab1479519a50a3cbc4a0966566226bfa260a50768bc1b2953e79067f5cc9262e1731072bbb8d0f2943b2ad59e7ddb8966a3e3e23f0b6f0d29ec163b20c2ba2105a25d888ae9c0d7decfa5, 0x1b4993c7a930218a47aab102a8b35ed9770a1d86eae5fff9ee36aa91fa17891555ccfed17c9b5de47569c4ff1cbe02de2), (0xbada84dd90f6b51ece11da6ee68e31d90442bec30e8d29c392966ce8d48366c86cd8972ec4351a3c5d9493e8a4e8d648, 0x6ef0bc839bd863903c8ae8c03fa1f02cd601e8dd8856b3a0738677c480969154cd5d45356c4020cfc59622c5b8f799c7, 0xccfd1cdd4eeeededd6b9b3c441186fbf0dad780f1a90481eb58eaf51d7f0fe688a4a6a3b6f6597d05f0bc07e1803322));
  ((0x354e502f0bf14055773ee117c8b32d05dbfe606decafe57bfa98889ec621a5d691fe2fdf6cb65327e7f9f37bbb53b046c117124ed7f9274fb0c65cb841149f962e7d4f562ec2dde0f6e4b2376feeaf85e93a62a653aa0801f0baa0941d4dc98, 0x313f676f5673cb66ed95e0fd9a57b43f25bfe1dda23616db503ad39912c15fe7f95401e03f8d9b8e89c1cbaaaaebae8037d695776d208399667250afc56ade2835120405b17b082a70c9c54da0cd1c1348da18801f2bb226242ecc131339b4, 0x44b40da0cd800853e75051e0dd3662959490279ba647f2dc2c1c7815a05c5da719fdfcf9dddb300d5195ad9b80628408), (0xb53bd98a5572c3c11c3372eb247557884a84ba8e2b9f5d828e1e0a06f048105bc71339bdb06e2a92611af6c94da88a98, 0xa7e720c3458f0c9c413130c9185040ebb549f51ff5e810d9a8102bb0484cf5820253c51f80314b04c87cb2b1b1b3b278, 0x6c85ff5749bd514cb4eb6dd1a5127731e1420a91bb3bf4b39d346424b5b51cd937f9b2e61546fe1592d73525e6a14965));
  ((0x2ab5f480a0bfa9f0c4ba25026debbd552729f045c1cf824bfaae120936cfe1f94d9a080102c6c655e445923c8a80807fd24a2d9dcc60b57f1cf255fdc1ee400d3f9a15ea058af045f6270995a8836ce7777cb2c7c3aff144287ba2f5c313bd81, 0xdcd8fec021e76192ffdf18ead154731f951d602f6eaa346622a80797c5adb908f9b228f854465adae1090b01794963733a5f48fbf8ee554ae0bae6608fb9dbbffd054eee99f963124e7c0b3edf4ff50c27a5ee3a458bbbdee6c21d7b7497ff3, 0x191cb976f5e72eb17ba837e9ab3b045ae6b5de2a9eaecd5b0f3388c704b75454d692ef612ecc43c0bfcdfd3c00802610f), (0xefe4ff86ba7e192253f64a4c4783a018d1b4732284fd6cf4bb9f80173da96988345e767cc72e5b7333a23fdeb75c92c1, 0x2a76da8298bf6b3a11bd58994779e3cfcd740a60a960184641b95b53fc2239ef4c5d7230e295659cd0d0252267d14113, 0xc75149e5f4d1e303ff40fb9f8b4f16ad27a916d728cc102080c095d9de4852bf89957a48b021cf0f369fe3b987b3caca));
  ((0x13d6d83244a7d398aad83648f1456482deed27bd636cd46e31131eedd6d34daacbdcb33a774b9f6691550c3b255bcebc26c727452e6fa3e842827a416acefc2bed5c5c173cac8910698b60a2815c32d3b628a630da4aece0d05737a0a15c7129, 0x2e8f76edf9889f3a4056ec3897fcdc0ee706671578191b5472b1f5d9486c9134cc02fb052027c2ce54b5e5bc3ad2432b0c6bcaf530b0b0ab65342a02d8203c2d09b2e199e55ecff0d589a462532c03e78f7d36ee8db07666b565bb541aae1a3a, 0x34e2805a7d4e2cefe5b85c864d35a3ac56028baf4005201c5014022748d3729f85fdb91214644215e967cdcdf5933ef57), (0xa6377cc0157a12fcdc66caa476757b3f817e6d4d24eb62957969927fad8564c2ff374841cdae306fc8976011b696b26a, 0xf6b39d6a0153882b9e99853da62e9b0101796ce53f9e75348cc6277026727d60109bdfd0a767879755a0f75dc3f89914, 0xd6fd0732e3851ad306c37a1301175166b09cc2ba038e2ebeceda86978c5f8e5146c589e6bd2a5d3ee52dcc51fbb8f980));
  ((0x7c520ce0648697c65682e6222b3b91b360f5d883635da79f039f6232e4d74e9b466767b6e13608011f9241c84643c065049f4183de91523dd1c9da8c4c7a2bdc470e307ac9e9072059f2bbaed8c5d2a0153718e70ed64a8c922fa6d0d8900cf9, 0x362b6c3b3457d095a49e1bef43067a063368ece8eeab14e04c0543bbd0bc8dd9271a6fb4c0ab0dbaf3fc3959b3c7232c0c5bd145ce47c8369a6a8a7bce267aad50d15924fa0877fee8d940dcb32e31a556c6404b3cf498f272380ce9a7d8a959, 0x4228f0e85009ece7d0e8815151ed71389c8e4dcaad1c167a53f2d7d2c0c3719078bb2a507ea4b3e1388cbec4fbf0ce3f8), (0x9b0406dd1e687445ef139c7ed300421d4d08bd66d7e5b4ab99896805dd43b3d661b630356c886ec8819239128deb60dd, 0xdf17c8674183805b9f1734148a5f291acfb7ba1c8e6b9e42d44d41eace78059d1713e8b03ae42ffa3ab665b3995131e9, 0x7e93395a084c3d4cff783cc8fbde09fb45d3f5cac115cd011e2dd531d9bd6925b71813af71ac947e6b2841af0cf92b88));
  ((0x423089d6187079ec9ed242b51e6452210c9437df80e02a24c22b9d6edb09c67388329ec43c0db05b126152d8f8a1902aa7ea9be54d65549d645a589371c9414b671b0ea668ca72891ee0ff7b19c3f46e2518cefb68ad3096bf1656bf1a3b3d53, 0x12c6de5e93f6e9920bbd87b6332301bb82cb3afb16d8642aeb14acf8a91e73d6d04c3f3194f201a1b5d7173ae88686b83a6bf0d37eb721221df1738ea5181edc0d54749d0026b0b22e1200286cfb32867b8c2cb96205edbf511f050145261aa7, 0x21774778e829f5f87371feb5bb5088df4166f80f8d9dca13783a046dac2b9c5b06c069c0787c189bb2af215eb3bde6b50), (0xc89a7c62e1cecb688834e6be0d49dc273e4adccbf76fd605254a77b3720777d94dd7cdab6ead9d90c8060ef6748d651c, 0xc74653134c68fb7fd9f62abc241219c3571f1551948f1aa3b968d3dff489e78df3bcc684d490dbecf6d81454ca29b3a1, 0x8ef794dad5d0faf8bd87c3ad7d25a9c7cecb9b3dede1c27f7d84413bd86bf36315db0c3aa2a52d0e1ee3cbfac17b82f1));
  ((0x42c796b74a423b20d076fbafe99b27fad45bb51d79ad5e0af93deed9c83231b29b0823692f49cc14d624fd3f0a198041fcde4041cadf2b744447aa25bd40702d21267fdeb849530ec514717920783c4698b29f0c3908745ecc2ff24346797313, 0x17f481c32ca94c315df70da9c38f5953dfa964701d1d1f17bc5a49aad9c82d36063e0a35e756f6c0a875fe109c24a66ed71a5d2042fae8f2774a5cfe80937ad41d50dee02694926667bdc873f5704f2af3d54ef0bd89cfe6b099fbc2af2ebd46, 0x26ab49796e7c506e96703f7f642bef26e4ea6da4e710aa0c3a5fede0fa0e36052aaea16bc7229fd13593ebc6989c068fa), (0x380dd8edea33e6b9a7b908f2a075066cf8f274169653e4227e06f37958d662f00bc456408f8d782e28929754b66b6a43, 0x55f58e64f087ca5e5f4696db3df39f028d4815c51e9f4ee4907fa7aa0362b85455f91be7e8d77f4281ff4cb8c7e8e0f4, 0x947c3a392c3e7f5b79cd8134f6051b5bf1ac93d2c92071c4dba21b66d78aecf4b46dabc20e8abe4bd13105f67cdcb796));
  ((0x1deafd4d02a24c55363db33ca54a15be971731084d1d6dc1fd7f45a757a75f6615bfdd38d23404e3417f8c7e64c975a4ee14ee4f73aedc52241d0c8fdaee9c506da57b732ca4b72ecbc20c5301ea5edca7bc4b3e23b8f115ba98faf6321f578b, 0x19d70a1f5bb46a5aa725472b8ce4131f21d081a9096370c560acd6d90cf49c13ee8400f48603a8ccc59e0215fa316e023f3e9d3ffa9956de0d3237edde5e9125d2fdf9c2ee5a89bae2eaa7d33ef0d91239252e7a32b9e505096bd51f01782595, 0x1604304a5209b5ef6b202d293525fe9c6a3081265b36d45ff324bdd806e0023131fe6c1c7581b3da74134d35f723a7047), (0x3d3522c2b63cc6e216e1272031c6b7ffb1897ed4d1eda2e1dc39a838f14a79c31901f173ce78557b268592452b74f414, 0x7646eeb560ef8987e5b181abab13e61e7bf148c0a55234b0ff041a4710a67d3327f6037a35404b5a113ad54ff5ac95d, 0x9c67a23a583fd7f62d55c8921696dcc4a9803d7cdec0bd2259a63660a7cebd604bf3b620b7742565b43271b45820d07));
  ((0x2b5c999f4afe89b87a4a85d5f39fa202ec4bba956b2b696ddcbeb3b0c0f1058cccb34b29c80ea844ee5bf6fee204b71380dad00ce3d6d9ec19622a5a02bfc4d43dfcc3ecfe30a0e99124f5a726386f26d39d9c2526e88d298ca16b342a2a2c, 0x1cab7defb8e76869639d2487ec9ccef7a6f68ed0fb04c53aa9ad83add02092a0a5d8d9805c8a3e724d8b2544b74d7f406f60ddb27037303d528e2e5f16cfa60ee868dc27dc1317fd64879015790891d51f154139bf1ea65689eb3bcf6ba4a9, 0x601f5e9de97ef150aa74c15cb43d7a29676d451ad6d6093b0dec890584af57a8d275a93f08a79dba9658e01a0c4c5b6), (0xe08b78abe1848bd7b9dc893e526a1063574bcabe4976dc637a2b3264f9e1ee3eba218d17a7f62d2a3f28e83dd4f4eb1c, 0xdfe0933987454cf5f7cdc30d5f03d0cd2043bd98316c8dd6fc324395a225b22778f2692684e660c52c8044b289ecea83, 0x87d9d83309950256a9429dd4e82b874da8a5f9468e4de6edb9c305ad51e763cd24a5c01c58c8a8fdf00921250d5c752a));
  ((0x474a3b59a2f2f681fc4802fedf02686a991702197d8018003ac079e2d95962b9af0005ea20d7f6aaee914493393df8d0f550f1acecd67efdf31a57e2d0058d09ffba448df76ef496599c962bfebdd0752ad81dbb4089559f93f86f5ca69eddd2, 0x15a136337df4bc6f26fc193536dc5cae58b26894ee2641b90aeaf60d91352a5eee446853b4ec0f70e1b2625b7f0ade4e220ceb4e10f96e097a4aa8bbb0a024cd0cb014977e46e1eb3205d3a8349bf69f7c2055d8dedea362d429f63bacfe2ca6, 0x28a60b8af25eabc1a1b37b0c68c49053fd359286581d19af925f47602aa846b84906eea481598b38de3cc2a89e4aa9ccb), (0x58701ee340c8e0386958e219453530d311467cc28302c1f1a96fb2bc4cb0208fa7ac7c99bb8f2c4c25bdded315ec04a2, 0x9ba89225eab8db419c61641d484d9b8e3fc17a1a781b0ea0a0b2ac035e1ea48efdf6acf902968281c807c51485aa7082, 0xe578b3356dc87635ef7a70d54eeef9bf961df73308f78541c76b24e20f6b6282fc4886384afedcb99d642f6bf5d959b0));
  ((0x53b9b468078f6f49fc8759f7de34f4296eb7a608b6818d7528005d16e0c75d6725162d823d1efc47961ba6a6278640000c35a12ac39e3d15dab9bdfb32d3f118c9308ad1cbaa33c0aeddfc83edddd120b851b6055862d30190a163a549a6b054, 0x3db6c449f6f555bba33f1ab7d0f5b12d08b8446d99270a751427dd6afeee3421d1a46bf1a5a85908b437f7d7538e93eb02448f812be3bbc0efd86f392989706fa37cdb420bfc0b1868d3b14986742a32b1406d585a94f45782c2c6731321f042, 0x3664508bd8db5d715ea1ea8e5a5aa5b03640bf7a5a3ad9ad11b47370124ba312ec786022d5ff9ec2f0f983b3b8e8d52bf), (0xc334ade45ada6655c3cfaefb94255f3381991802db91b25d75d5cc1afe8ab2fc4a0a8c4cfaaa418fd2188c37282b52d8, 0x69c2111de17b489c833d2ead3824178e77ea32e8ca949240af910cb39142b5b0ccf6c8ef70bc34657acc47366042390a, 0x9c2e529b07d66fe99e65fde04dc914d228e4fe577e7ea729d13e06b851d4d1280cb549368efef076d5c88f0f926de283));
  ((0x26b773ed6e8d1374f6dda71b092d378f35fae2cd67ae72214790fbf226150b00645554cbccd782ece439c7d212994e42fe5790f5b5ff37cfbaf1b4ec0488d3df4f6b1b3b8c521bfbe96844f712d91136e2187dc5f2ec6498318ee5e895e480c9, 0x1c967f00b33f468dd326d9d2326e728362848d93143c48f82c567622a9e5fa2fce4b738cce13eb26e5876ab7ba17a2d6fa0ce45a32c83d3e6386695cc6bd9c0539c6dec9f893be1c9ad59051a45346c5cd78c10a64e2f3351100c953a8819e0b, 0x237b9152ba318fd20815f1b3ba74fc7de30f5aa7364c16099849c6914f854280cfe81bf129c9cd6fbe7f4ddf634ff0238), (0xb4f35372988ec3589021b4f9761dace3bfd46c5daf0be021398213fda941d2f6612142374f34db4a9571b5c4a89206c9, 0xa6fe6ff9d116ccc4cf149c93d11c185d1148ce0268a084f455074b407f5533cd78f2b6084f63538a28536ca05c6ecd2f, 0x733503feedadd4d60b9a3293b2e6abec83f3606bd6279c5e52e1383190fc5619e75fc4b27d467a89c867fc97f9554cc7));
  ((0x2d1882d6d73fd70a8f794d0c62f436f14a2377e3fb7d58b87ed802e93256d960f1f2289ba19555936a2f4de662bddc34a6bad0ce18a50eb0ff47d3d1cc6f6d78e1d8f62e6d027e740f970b700f271ede20b4abd6c630c273a79e10b385961d8b, 0xf8e35c8028cf1c8e45df3f6a16ce3ba37045bc9dff81ddda8efd44103652000c21e69e1d90da07a8b89a6273bb87523789e4cde0fba67ed23614509b810c6b97c376d6671d273c9488a367dd978cf75c32b5be3306a9c9d4e48e7c22dc820a0, 0x1ab568b2f0caab9a5e595640b9dc2362a1d6f5ba729f4812af50fb98c0472982d80e50f1a89cb5ced8129dee932db3d99), (0xde4092d5270a938307893cfac98d93c71f320bd67c6cd74ca3e708921e335e2a672281c149f1309fa077526a226e927c, 0x7f259f5a876cbaff29594bf81b9b01086b5899fe78d73c2503617964f17d8b869884633cdd483e69279c9070f6d3adb4, 0x6295f56855da42644c719941186d1efc23c19e96ebad5d3c363bd57d27f2899128bf5f5510a14c1268a3e238d1c1b8cb));
  ((0x1d61b315bee1689bb19f8bbf5ae81eb3305916bd6ca89e505b741984e276c40dbf9ccdf2ef7de9fc03ad7508190dddab764c76e068ccd97ff04b3b2ee54086c6d05a8241a48f8cc18bdfcf99e4101ae148ab32d47b4eb75b4ae5572696778a45, 0xb640b938243c027c358e859f9e167f09856f9afafeaf040b793acf4070a474f589bc2227e978bb07b55881b4a4da417338624889782d62a5c6182dd03b2c7922e77234fcbbbaa7d0f168e13575ad5c31c4da94506f65c85d9e11d860658c152, 0x15c39a2888fa3085ff7b2b44487890b9d95ba4ebefe03d1fff50c0f359d27b080f7e030c77dd24b30ef542dcea112db95), (0x9b15f864f9f99e4f3c5195e40cfe3e47c864e5db5b62d0291d64e1314a7c3c5f733fa85a8e50721fd6fe3dddf53fc5d5, 0x37ab30c6471057d36b304992b1c03f22f76b297d75574c63d5c3f7bcb4a1c99b2f64c745bcd5f6306b08a113ecc46aa, 0xb926937225ada09534830653ca287c8705ed17282ce4a8e23d73c0ecf1300c86274c040b23514f51455587fb1afd85b8));
  ((0x1828e4cbc926b228fac6c0b2625a14d8bc3bb6814eed1fa9fa8071c5cf9db280e13713313607e3bbc336dd0de6da2170d3d209798578ad26325508ebd026aa96ede8272cd6942b840356ed9a715137b8cd10529cc34ed235346a5a021fea078, 0x282d495914af2ec9a6ddcfb98516fae5a87a9c9f37ee6e1b79b9a88d9a8347af73f0e2add4f73f665c8dae11ab405547a0627b165f8ecfe60134ed460eaa31070daa7629d9c26daacb1527cb588c875dc96c141547a81c71dba08cd73f5d85b6, 0x2721aedefe6f2e050a9f0424da75ad4da589f5234f3e5cd51e67b14b1c8ade17423feb76b43ed8aa11c78b5b49e6f0174), (0xc880eaf2a4c8e2afdb3f02962a4425d295852c2dd508955df0cd87d7023093fff8c1e9c4a976f7250ce624e2a92189b1, 0x141a59066e6dfde224e82beb641c32c66025a35f008360dae74e3736a65eabd1818738a156b22e481b18be88d83fedba, 0xe8c73107bf5cf7b51c1681aa459f0f2bc2d0baeecd33019b06ca5cf415b13b1902f254ca3f89ea58279010ff9db83b48));
  ((0xaf7ffd475b44f6e195804e52e7fe3784b608fb4c92769480552edfd9057f86289943d009162ac3d5ea47f4a267fd648889ec05ab412562caae5c3155216fe3a0eaecdfb1a5ccb48d1c76f0d01ea51ce7784edaaf9824d5f4baf5319a43f81b8, 0x3f815b69a5c2bdd0007d4b6ee39efa5814859e6df42a1e60e9fffb106d21b93d5d5679d86f4a9e7110141132da432d0a69ce858a1cec6bde8a84be41f672e5eafeb262266046a79e886ad027ce1adffa2da16d4dbef3f0e81b83e2bc1b7ef1aa, 0x3e932bb43ad050ebe2dd61a7c8df4bd7bf8f9b19cb8d6582ee094e7c4eb5601fcc0067927608d128fea5e4cf872fed423), (0xea6fb44b525d90485ffa9d4077a0fd5d60fecb74577a17c360dec14801e35a8e2847fb1296aa162aea164b093470d819, 0xb8109763ef57b323849b177da165bba6eae142d5524eb47cedf0ef8cd4fc4c19028e10265549d99f662099423e34a2be, 0xe48d1ded6901c34ffd4b5dc006f1a4402eeb3679cc2777c2306f3741dd36c0c7dbe453fb239ef2bab869c6f491c09597));
  ((0x629b878f2bef21e6999715d9abd71a63ee4c365406f9d1b0ffa66f4b629506671fbf93f81649070a6c29e596d772aa594fd8c6527fa6f7e7f6461a575879d00f3b14fc9db0802fed279c3a375855ecbefd8e50e1dbd037d8a851f0c83e3bdea4, 0x3d384e3ec6add3964aed5a7963e970be14a66f4d227cc87462623285b085b854ca0c4cfa2e268c45006039418d3610f2855b94e0d77a98a9e75667095992b7f01854ef8921b38f8a9e058e59d6d67cfa804c5c2ca75faf78842b1f24d37bcaf4, 0x48b144b006ff38dee33ed2b4abf9715cb432c5770a4939d07f7af966603466ec63d5a02d3e4f8315949523e247d10778e), (0xb6d359fd91273b97f598c24c64c7bc4bd6c811bac2e7ca0abefa6ce085a959210a478b3b962d664d43e28e80842a8755, 0xe0b418715a37b485ae3599cca47c46a902ecddfa056929d1ce4ad0ea1ce8750151b548cb7e7650f10773e6e413edc28c, 0x6ac45660a0274aa07b971c161b68e2aae90a068fe66e976f217ce2bb18dd1651b061493e6f89b5f645600e5e119ce143));
  ((0x383c048c1619f9aa64472b064f0aa0180842fe14b51b5020d502d2aa283a1503865b47758d563c47d0f32b5cfee5fd2220482d797021a5f1e7462abed06e338b942bb7e226342c313849d74c2030e748e52bdaac454ccc7a421b5532ed512727, 0xd5c1ab4b22926a26ba6da239b6340b811aa2bcce470e5516a6731060291c03ba610fe7879b6d8ad0cafbdafff11101ebdd1c44ab2bd0363da8055e17eb870dd713ade77a3e23af5170dfb542e1f5101dc84b3d0f2c14b33b5fc9352f4869b79, 0x1e350a955bd033c135a51075eaace4ae7e5258649b35ab4b73265973a16268d8807abc1ddc9b1f6cdff71bda26669ac3f), (0x1ceeac627cb92708d5a35eb3077decf8d0c5d77a6152930090ba08481c7445d71da1ea11a9e6aa8d13d1b866e863a5e0, 0x7dc216ddeb06fdce25514a3fb0f1e541758375c18de33eadabc92907b0e0f8625eda7328ea8e5713022b2d30af20b1d9, 0xc6cd32d04e775c9b15b6b65be68e183a94ddccd297740a557c8d3e9a5b907a0b75569181c71062edce6c200ec4d4efe8));
  ((0x3a9a1662d6b632eb7b52b1ad18d7ef57d60a268b1e0e2d32515552624fd231ffe37a959a3a1f9f0b5f890be90570654d4a2d84e9b1794fe2e64f25d4c3ebf093fa158aeff066ced5cc8356fcec1a54425c3c800ae707711b3514df546cefc92c, 0x2e51d507138663763c408a34aa13918ecff35ac2b8470c21088f0916ea44cc4a5068c09a2ad91dcc62ccf3ffc5db02fed339a4e1d1299eef6f1ab79741e224e6f1dd3a25c2ff96af80136a21646379a2a84f35fdb2dabdd6ab2893caf802fa50, 0x239dcdf1e10ba207632f239b911bb46bcff5d7ed8205bec38fefaca04ff31757439e9e0089f5495a7909e44b593778a13), (0x8bbb1fd97cc91131edd0beb2bc935795fa7e0de9daa15057bb6c29146a1cdced10b4b71c58344b6e96db6138c08522c, 0xec1406606e934cb8e7f5712c412cea592a3df3976cb90424fd04c3a858c12fb1b6e87fd05286e298e8ffae36ed59ea00, 0xb9c1b888478349293cdfbb055039911b12ec4fe65987b3e472b4d9a99cde795b3608592ab6c00f777fca66db9dd340c4));
  ((0x66ca90aca828f7cf821e10411ed048619410dd5eea27cef7a827c60fdca91402d57a3c48f7cfca36b3f6f3b1440cbc2af0ffc98a44e46c319e51ceccd60308ccc4c6518806fcfec4aa83808dc98349503f246c55bc8098313844dacfa6bd55df, 0x2870ba6e404ce6029ec2add22539f4a3638fb57c417ba9d5b83f1fb431f8e4d7d7d00a4b2c7590349f02bac2134090f3b86d4f16a0706626eb0929320d751cf5e1d7fd2bda7026441cefd8f7800c41064abbe01576a3edea8a65d8d79cda573d, 0x27abe1a12fa9c14b371a5ffeb8ff81b4c6205acbc6685dd8d62038ca479d33b089dca338cb30c62d1446b7ccd42f68bdb), (0x9769669278a3599a861e617e0c3a0100fefe49b5fe23cca924d4502f568b075fa9b46aaeccc62b98addf6b6b27528d6f, 0xdc871b5444a20b341d0ba65bcb0dd1200b2d1493a03ee6001f67bf4e4f0b163020755bbd1b46221959d022796f6a683d, 0xde63ad3ff79cb734c40bb2308131d1c142c753202d0c6e476c11cb2f4b827a4744fae4df6f5c0360a4b3eadb81a6216b));
  ((0x72f4d4b78009245d4a31d817eb0c2862e7ea21dbb73bd2f5325bbf4ec2c0fc20e76e22affbf33ae2fdf542bd2fa9e11861355134425473f702b0c90e359242c0017fb0ade1cfd1f8ce642cb064912934cdde2df0a18ab3ae5560380d8c4945b7, 0x39f6a0d8496ec2109a65fa492e5c646bcfb20c9572c2e428f4038cac933951c5dac9202f2bd7aae44b62fa60e6b1643112bab379c77f1eef08e6c0ac9ea1259b068e07bf4d7c0ad0163f2f99bf7ad4b0d90fc798770c29657f4bddc65da14553, 0x4089c4a815c361f2f6584fb5843753c294e19d7e2314a6bb78c10dc708544f6a8bb504a3a863f6f6aa2a668e86ef0890b), (0x290d115415fcfc31e35ecd0c3ab2cfeb065ae08eaacaaa689a2f63b6ad58c27ed620c4062479e1389c753de3c32fe1b8, 0x8cc1b41ddf35d0bb1abacb55e310f003527dfd04839650b9ca6a665002b5d148c80f07dd76e0a819edad1cd2d4668bc3, 0xb5feacd0dfe9bf3bf1f335553ac8321fcbc332e0c11bc2252b5eacb7d9d38bf5100a35bf155bf0750f8d7d0dd6b54889));
  ((0x3c0bc392223d1c7f92e85cecf093deef65d74561b6cce3b1885a9baff9155a49dcb374e33011381b96926f865e28acbe3d6ebef5565058b4b0c0de5a65bd64acbf37424ed09100e15f412fb4f8fc106ee10e2312046d30efa18ca13b6f757074, 0x26d1a7139e20d1551c2a26d1ea40b760e47b1e5ea7bbc2689a1063b4bf0f89075212105c02baf0b0bd5caaf6c1a4d760b73ba614b587bd5a799e01ee59668283a14017bdde05a5bb9aa0f045b3aa51f51bd092d6818128e73a660a51e1ce059d, 0x20be8f09dd5824ba5b845f51f42acc1a8bea92272665ade1c9e0da7dc66e06d681dc7f5762916bf8800b154148ac7ee69), (0x5084867586ac15dbfd11fbe57248f47fbe6039b371557c1d4315a8775d15e65e2ca4a8da88574994b71b92f4ed363e14, 0x38537f49e79e0d2d2cc284fe6c26e220d3f45a9a5bf1f5220a8a03d01d6127c2162ec8a74872b3ad45f3ba3fe79e821f, 0xead6995e18e24c219536d64b5d04926d1d1eaadc9c15e9a5ebede19baa46713f6bba404d350f8f8701e49a28ebb667d5));
  ((0x1f01560bf3c88e42547ce22564e191068f82228e55dfd6f534f7904e3a56c0984bec5ed8f4e3cfe29606e916660db3ad02bb93469fbf8e1c0d22ca72ff4b127d04a4956d91284a44305d5e32f3c44bcdaee5b40122455ff85a61c4bbacb8712d, 0x40a266509582d313712b08ef7ae791a6dc5851431326e3046ec649df6ff86b22dff694a0ab6449a6feeed176fd21016ace8558d8169d950a3c3e918060c697bc59fb93ce93360bfdfbed8e472e3ebbc02ab8bc4fbbe0f0103c161c4d9761f156, 0x32664f393bf00a8fbf6d04236fce61ecc49321929b55b95b9353d27e53ee939290bbb5cc7093308964b7773eb4414c616), (0xc0f198c4c527e6543adc9381692e57ead38d7f86d1c6654f5573a7f2a8c613603223f4dac32b53cf9506da1201598a1d, 0xe46b44a79c67f0437927eb21124d984f5ad09985cf7b774ad8f25f4f50243ad2f15e0177d3505622023b878a09089780, 0xb33b75ee00cb6f2f0e72181b4bdd1be3db93ebc8821932a6d7b7d9645ece195cc0b89bd79c7d679e4b267f58060ef0ca));
  ((0x5ff68d16451fb84d9deef6c2b63ec824a043c962aa81d88de9e54a3382d466686852c601c375d8e1c909290be2f7d3ba964a07ffdbdbefdc9f3da94f43803e5efdb50e9cd178e7c3a158eb782218c72b7a6c8ade85f484e34a90be2e6823a531, 0x25a63fb9e0bd100dbd561a442e43e18ca93264f875a28830d8d1751942478ae457ca3386d00a191035b766e98c721b41c8a83be9dc31bae38578c8ff74de5514699d73f17f243ddcc24ced5ee37f0ce578d9e52b3c1bb3d1399c7b800fe42f6f, 0x3526f5a2f690368c4df42f8b062716cd9cbdcd4643743ed51e8bdf91078fec3fa267607be1b946bc14df2a6316fff565d), (0x80aa095f956e8d73f265ceec39e57248fb86d0ff33106a4474d6c1620bc9a0e2eed0da098d54a95442a1827bee104c7a, 0x6ac7884ca2925867a72b09e842329404e7c82970e4f4c2cd4116d0fe164b25370554350f4d01594fb1252de67109eeaf, 0xfa036d6a780fc914d9aba172ee3c1484c354f1df76b325906b110cbe8bd3a46b04c3b705952018497d1f3b05ced20a4d));
  ((0x3e936977381faa76312e906ec4c7e1a0d983d80cd2cab5c72e8f813780e1ffabc0f0efd3a26606ddd072eaf2f1764c1202cf8b0e3764541cf3a75a0b0e74405ed63d39eeca0b13cd75c0fa99af5c68f418ec77a4d087453cb5ddeadeda1b9228, 0x4941edd6ac8056084e77b4e3f1489e050a84ab96cd7ff8a575aeca58dfbbd63237ff2d902381bb834f6e3f39201bb646a665ba979b0257689ecdf3047a6643daef5597e047981b3509059218535a1e4ce4ee16b6a820a80d0a6c464afa7ed3d2, 0x4045979ea752fc3659de7cbaeeb9c3a0d4b904c36a75e20a22d7392afd4992532aab09c61fafd1ee04edc7fec792b228b), (0x66713e6dad4a2897a8b42aeec53872500f4bd08a4053c9ee28973063f932d0ca7828b8527c05d53c50c6047021698eac, 0xbfbe3c1109d03fb0347957180677187ccc51e64a1dca8ffe93fc8761d5c1df4a050236bfeb1fe83d6e1afa6f4545ce00, 0x29c41d3921bf6a836337c453018f8591cb4ff4a6a1c4cf5949f5506d31ecfc4ef382acfbcf5469a109438c6b622cd90b));
  ((0x12c5817d9a8dedc7b4f4eb209c951cc0a519487cd08de97e8ba060ca2b4ebf936f6ba19ad686122124b1a0db5613b5ededb3eed303075445ae52efe5a13836f4b00853fe2c3f6a4ed435eb2d66c3a37d6804c268857530fc2c144a2d9d0c78da, 0x20b60007a69170c705e6b2e6c21e3e477fc71f83ec9733e5b879bd438c2482ebb0074ea17edb8c64126c7b9bdd1c1416739577894feaf6b7a126b4f064fb9c52ce4b9066a3b75b31d840ba40b9a0c1f6b5da6ac924ea365016ed7a3e6e1128a, 0xc57bdc93edf265ba3fef1dd90c35045dc9632ea11198d805ddf4db47c26026a0a8f473945c12a223d0ad544541a59203), (0x2e2f5673eec780f5d2c2b572ce38f9ceeceb7c61e9266bbbab7b241b3d600584d3a147266e2a39abea0e539b0a26fc6a, 0xe58604630d3ba976e794b6808c35d45853f01e94f9149a6323342bcafe64368926b9586d56719074d19ba0e25021131a, 0xd1de40bb3715e86e3a432722bbf74acd4911c7a22bf07df69c69b43f8422ed6edbb1d82bb54363380280c598c0de6036));
  ((0x70e8c4901b88388ec02162af5cdeb227cf67e61c2ec961f679dbe19af809288ca04e9041cab15d32f5216180fbbd41d43b4dac40dfb093f4d31864fb6fb9460f1be2578a68f729896ba8f4e0ed9a137d0fa4048c8d1aad30c55b99f5382d45ea, 0x339ebface2d470f764e575c4fbec751e587d6c9360351a3cfc376a7d462679884808235e8dc9955af6bbfdcbe20db13e55c50c689792e5699b87f1eaf5972d19a8072ef48726412a9b64c41a486a175cd230182a470c8a591f8227583eaac41f, 0x31da87a9251b2986730819079fc4e51dc21d6d417ba08c9418bf0b9c825b00e28fa33808e0d8fbb4e0fa6a3e6b91ccc53), (0x991bc4537a9b670910ce87a8805461b39be3d171d79f4599dc0eff8447d2e5766e4445beac03d2ac44b03c1dfcdb694e, 0xe64d131a3ecef8272fc4325b3b014fb9798a75c4d997c824bab6cfeecfe2c7aee3bda3667951e08907efacb2ccef5ccf, 0xf34480ed3ba0bb308597006809c3026408092435aa2e7078aac47f09125220091893e4dc940c1843bb624fa83a4949db));
  ((0x835250ccfd982d3cf89e1e42fa7c8a62ca4bd16caf0bf898f3879fba600921bf8cec35fd2fea92a9ebe6d328ad062c226cf6cb2d06905594561af798bad28f1ba1e16dda11144ab08cc06740c5ba28023d690991144f5fc3ff59de5071f857a8, 0x455b8e107c82221c76f4cf82853fb336c71e9d5bb3b8c896c89db1275cee379deed9873d82a61d02d20fb9e86d3050a2feb61269cd38999d6506fcda8d436f0012464f7fc42c27c3d726b68bc0b7b2952826a3bb20cf5ed8ef69a458bdf9feff, 0x4a7ac9a7b52b9838b5749e6359ce28ffb390e08a800fd626dcd0350748e87333d8bccb85a1b609517ae4ff639fcf39280), (0x9cccbc9a094a3591e5872b38047a57c17146998f73d94855f9b9aa0a386cfc8f50d09d9d6dcef83d90cca0b70c03e00c, 0x92186fbb2f7e0414b586087d5dd99d73852ab2d3a05ace3e8e4e641841637c4a73e41a3a07c9d2272181ac75fad50631, 0x411fb4ca98a304b76289c1e104da5e7edce9778da73c50477aba3a94f5161a520094e9d78369bfee2dd413b2c9a98d60));
  ((0x164d29fdf3d9f049252366d56862a8a3150600a44a649fdd56a5bf020df1abf5b19c7d8b11782565628c638b7fe36719a55d8289aa7e3eeeffc0ebe8a494124a7b5f18932bdbc01bb6d380aba70b78b0da3f6e3ac5840dfb2677dd137a05a74a, 0x4f8771565ed6be8a145eabd442eee9c3d1754e1ec83941ff207cdeaff82fb58b7153b34ce696755a29ed2cb7e66ab029b9f2e22d2a5fd3108d99f7c7b6ad45209cba03004088d0d51f360a9f3116a101a4ed89f7636bf977830c7b2c2c7fc4b, 0xd4da09cf221f56b08a499cf9bff967b99543d376e832068fcd2497e5bd34c029c5f4a64e7999aa81af8c2451be1c39fb), (0xa0d2479746bba6c97e6b26f90d6edcb09e9290002bb4cfacdf7f6c5f5e38e830e12f4a2539e95f0972fd4dfc474253da, 0x9a73d3e90100c975ad05eb83e0de923d930619b53e65419d486ca72b030e5ae1182a0a5d323a2612e494b48a55786d23, 0x8501cd576a9c576c45e05505779d912d1d9d0d249244a59b212220b77e5a3e34449876fa10d67658e9154207d3d27c5c));
  ((0x30273878b3dc0338b8a832ef5d62c09306d729b32cb789155f95e08e63c285d6700864cad574629c79b0bfba88166d7c75b3a0dd5d8ab6692342902266b05172144cafe7014ddeea77382faeb637f3c85c5a181dfc9edbc7187e46163f888514, 0x14bbce2de40fd513d505720bc77fc0a69159c565b4febd58c4afe3dc32b23ae16bd8b2d375467c94e6417b1bd2ff4c0cf21c714c7790a1037d5f03d63c77ba70d83663d868b1c6ef43fad3f3913ab9dd5890cf2422edb3dad0d67048a6ffd497, 0x1d39cef82feaa030d1a37a4ca2de57d83fb074c406e1140e7edbd5c5bf143c7a699ea8ee518ff1896613fbfae8e184e76), (0x72754b560ad27284ce74ba6d899ca6e7d50cac32a545a0c29c712614018a0972c3aded5fbbc1ce791dacb0f88ad37538, 0xfb6a8232a3e48453693ff51f8448513f2202d76edbbf993df82bbab664f99da4306f823fe32fc96cf9d9566c12edd2ab, 0x2b4b8e4388322181d603d036ce2a97ed23346c3a9cbb1b8af2871028ac2a538f17701776a70b0d83830ddcae740a591f));
  ((0x1983b987cd11234fe50fd3f1807591468bb50b977a3d3247482338a9fa7ae175511a8db572edc4c3538ad575355e58ebcadbeb45bd89529e8595131e8fce7cb202ab9f8e31c59ca4ea0b61a5097b958993b0a8f915453478713ec977ca946fcf, 0x23265f91865d572e15daebf96dc3ca48d4934107672ae70cc92fa9535377dd7a326a5c5d99bbb5c5436f9f5955d338ebb8ae817c44b4790d9896910a19abf0cd58fe0ff1880fd341f8f7115806cc8e03588b3b703551a0dbbe19c239cbe2f62, 0x133986724ff7d9274020f5c680c893b8b6d0178931a8c14c7eb73bed12ee65a279531a4d0e3e5081f62b17fce8e80b9a4), (0x48b357a7b520ae1a0f188254c233048e8fbacd90d53e0ea6d18b9b036c1a7d13e6de7a29184222c8d00690d4614c94af, 0x7d5231421c524c0f72f18f924b51f6e125a198901fa79ba812a6e97864bcda06b6461d1cba9a7edb4d5b86912f4e1b80, 0x24f5961dfedfb223ee46936a3422058d3b3af400dabafa06c80d0b48b441133b8191b27d8df967f1a160e6946feac0b0));
  ((0xadb5a848b937991a696a9810c0cea70cb7da3af3c132589e2e4803675b61596db7302e32b388aba53afae7502368571d473fb7e1327737b972ed7412370159b1832c55cb2cc014ed22fccbc10f53ab1393b8ed06de29ef46abca2f0cf82c366, 0x199d6e40752d585388685b8a800ec5d54300ee63994da05df6bfdca72d99b34aed89db013e7aa78d361ace709998928c35c814b663f9daba4ee6b73de0c8e8b9934003bbef0c42c9decdfaba24f279854ef0f31d6915984be3b358a455f3b19, 0x62594521a4ebdda60532d6c5d979f664819dc15ac1eb20338c06748e67d71d2d37a75e77018cc481fa240be23dcdc2c5), (0xf77a29d4e580e50c6a2a17286360b9ce9274042a135ac8d677a9ceee575d98245cd0fe6e9eabfd4d20bd11aa1c329307, 0xdf23ab30b54bfa5618a605d543f6361929d02411430f1d3c07c69cc1c72aee39762669947e8adc5c0529ad8afa1ad419, 0xcf93168f3d5fb49fcbcec26491c44ef3d455a4f293a111cdc9470e05f3e878afa1ad134ac886f4932900f4e3955a5e65));
  ((0x6c91ad121052ef650059c19e4b8522d6e111764c2605c94587e5f164acd1639255e63995d7d7f664cb2cee4985da9c6e2c1ba87e995f7b76b4e9547f3093dcaf5bdd860c475d615e7a8bfb6923cc06d00a4a2e3a4a22b2f7a2bf317b5ca007c9, 0x327f7bd8e3bc6a22df49f71c28cf89899aca8236fe80697cbf0ab8353438906a70c359c5df4d93d0b9e579af18e6984c93694f353e9e6705207c50593a5ad0200554d88ffc417ca75047e8d88d0d5d00bbe1f440b19971fe17425e1a8cd91d27, 0x44cc0b3c312db3811267d53b79aa80ea18ba6219bcb6e73b298081ca073daf4b566c66acbc47df7903c2ddcf263d0aea9), (0xc090da50fbba0090ff7529fb927ac165f37d72ff9ae88eeea89892f7929ed7f87ba0ad04c58bbc9bc60c150b8944f9a, 0xa0bee318c4064284fcc2546e2238183d97d1b13a86c8dd0be9f09339c44a07d70142cae55283923611d98623f7325e43, 0x785510250533fbd2981c1c2266dceebd4bd326659d4c27ec51245725029b1caa4d8f631cdb72efabdede750f22e23c2b));
  ((0x2d56ec4e7646196876cf94b36467dd761cd711a0da942285c45d2d0840b519eb43508dab8b17319a95b8c8ab30c6d7d45115d365126bc8624ab5c06b1a1c211bd1d72149530be199c07610dbaa1b92034d51b56b2e8beacad65600c9e91e95ea, 0x10f866ed4f82f92b3d60ea8ef5c4f1773ffd77b3c879ab0063de78e51cc4be8fc71c67413d31b8a4667292ab09698c0d11c7d383364427d9f9e8a0fd3c48d81956c719565488be76598b3000c8a9fd8c16dd21a0d8724970e17123644126834a, 0x119ef38ba8ddc686c9b4b92f8e1a1405acb153bfe3f681de7f0d09473b2b403c576ac7fe88e2ffe8e1fec3679307bae98), (0x164aeb7f76a7e54e72fcf821f54a602a466eb4522b91aa88f243c6c577b38d1d5c572d374cd98d97a686dcecfc6c50ae, 0xdffaddd462bc2b687d5577e4ea4abea0b8feb66abf19e217376deff6a678b8432cc4e712d4d7cdc6c1f0425d722ddfc, 0xbcb8b4f97ad5e18177daea49bc801d07b0a6a8748a63710c1769b5d8c329dc1732db9fce1b52346a229a898d8c986f88));
  ((0x63147f92323848685e35837a3e991b8128cb09067f370b9ac2f1a72e70d56507b58661eb1f763a39bfc17a6d48131d4894660005b6aacae8c9afa97f3eda0f88c6c5a8545adf53694bb25617720d52ef3b7f76c930e35bef923f52afea17b27, 0x29bdd64c0655dba62d2485e00ce2084d2d13131de9db248db986a07c4dbae10104665c50715fedd6aa13ea2dad7e58caae2e5109002daa6b993a9b7c11a94072955da528b13ef75f7c13da05f5e251e18a7ae6f959857f73fa2aa7c120dd3a9d, 0x1c301995812c5b80108785dd0d576d10d670797a802eef6effc2727788060361f1f3ce572f56175ffbe4793851805b5d5), (0x5c30d99d54bbef4cdc33d859f15ba1fc16da40463a2e01aaa53bc5f0f8c9b1bb427ccf28bae7f6277aba96b5fde3ad6b, 0xfdcb1b477ac2142053b3c96d9f0d10d250cdb76970bad618e44a343c076a32187322e91e9bd523cf3422b9a592066c6d, 0x409ff02a387162b022c7a8895d5d99f674f7de58472438e9d589fd8e34cd5f6b916a3835bc66a73fa8e393157d650b85));
  ((0x2671cf4854fa20bdc2f8d47149628353cf10b08e0d0cc68e69ced5eb6d9cc5e67f1ec21d88b21a2564ecd672b84190fed5d483297a9a6f0c7338e88b6c22872c7d47e013ad499cd0c970d1cd5b59fa34f413eca019c52c79d44bf906e40e2c94, 0x4e5094155ac4a780953d531110a971fbc0a0a077cc7e32767d224f3bdc848f15085aee53e8e444a0b255761b50d2f602594db947b72dea2e8e605e0a446d6330b55616a5ead91211a9b5fcbbcddf0e076aa0939b82ea163d24de4141cce4854, 0x15b17c78a815919649ed1a0d8d8b778f8167e07cc37d663e3e5a92e06e646a571bd1691793e084d2abbfa37898cae3d27), (0x156787392df0237e72d8c3c23f6d31bab08e974a1454d4ed45b015dafa23f34da20204bcf483127d2ab5d8d5cb3a556d, 0x326df226621e4c778d50ff88e467880a23acec4aab83646482e38172934b4461db05442f92deffe3156813e1615051c8, 0x4a4165c96628ebdf2ad97f8ba7eca2f9a6ade7e2318b2882c3c0526a2dc89c60f586542123acfc04f8764110c401e009));
  ((0x8c7074b1e9d7bee92d0aea18152e5ddf9e55c44cafcb45208f3daee2fdf7b9f3522aff73ab385312fb5684f4743ec60fbcd5df1ed5e5e3456e97101439163d0611a10dea9ad7f86cf214bae13efd4303af5c43279ece63c5e86f49e4fdf9626, 0x67654d74489756d93152d111bae8352da963a74a663e14b996abcabb1a8a864523a2369e0b71b1c8b29bcd18dead933577cb0c3e84ef0bac75aaaadbc1e3ce4cd0dc83c8813ad21d3cf49b7d71be795cad222740103f678a0778764b45972a4, 0x56f78a3c076d279457e38d58159bbc533b5390d53d7516455cceb00782a8ebe04c05ccabd38f8f889391029de9431980), (0x69e6fce1fee2c7104dafe687d73151d21726c5a3173c866453a73a33bb0a2916795387646ca639ec7826ee654fe778f, 0x468aafcea3c816eee5efdf3aa6ab6f59e2b1dd00da6fecda4a713402c35472bc0b4bd9787d6e6a952c8111350fcb9134, 0xb5b185626c1a939e0f4d40085c995f67bd6c2ea90425756c56100bcce9d401c1d2fc7a679e9a0e55881fc00873b485d));
  ((0x1e0af89e46d765bc2dd044f96b72c22fbc82f5c19c5af56aa8312faa0a60ed295d2f4c6d33adca6c3a122e95ebfed471215973af758be99c0de4e3d60aa749480dba5eb21afab131c537331c27f93f4be6f242ce3f45de73701a33cc8137c9e, 0x26b0c435b96d2bb87a15e6ab3540edf1305d7d169d626e6e0d65b60a612aad4576a6ead2e06a99bea4d7241be0fae183618a1b38d5edcfa771cd830970b92c1d229d102a132f30f15d11a0ddf5b92fb8e83943c3e6b0cc21d292591fd63438, 0x1589544d86778ae3453fd0af4b41943990007c0b8f3d2b031a20f2cea62d233511bde1196aed3a301158d267a04748f9), (0x200e9f5b5c8de0a3305554212ed9856ce5e9d300d4455ce3dc7765a0bd542f95a26f4f63ccb2c562071ae1e0e7e322ff, 0xac8be3c8bb6fdff81f5e86ddc683c2ad93a2e124c9b64104fd995cd69ad01df039e6aada2d8a7a94cd256f5179d55d38, 0xbc688ff8fe94e4e1d02cf0e2f9dee62150dfa12abd50756f0dad4b54c8c17f30d5f06c4bf043cf52f75d4c8cb51fdeca));
  ((0x4c3385c2ee3f3d31e013af99094047d6357843d12851d6b2c1dd4dfad03e521d017a61e890d574a2c9ac454c33722b0fa1d07a7d5ac8c4dbd376c2515f2a95c7ceefa27a6cc1d31edbee56bf3f958449d08c1330f544e8ecbfded5313d5bc144, 0x299a69e56fefd51433f284407ebbdb5a9beb4b7a5a551e3f78e19281ad6c03d261913643606eed80f8a9dfb1f4f0980925981b8fb3a0fbffe845e02e49346edb761f0ac66159524c51a27aea86f822436a461ed40cb0a9c5e16dd14d3982ee36, 0x243792b064267278f43065382b0ec9ef09cbb6a7a2c749e83030852abeb357587148c1159dabdc7f7a2674abdd1ebde9b), (0x6bc4f9bba57e97d81b14141ef8e9038de55271e1dd73b10a6728d1ba57f4123a0d2028df4325a20205e0b5c314fe2145, 0x645d8a65e7960d729127d357e4a1ec912b6235150bb755e97bf1d9ef85ba90775cbb73c6f172f8e040544e34adb3e326, 0xe14b7df80421fc5855b32ba52d66efd187b6b1eee644e17eff9fbd39fca7238886241faaaecec921f1b503dd0661ff73));
  ((0x350079d0276248424806713fd8290402daf94ab401bb24bfb2c27b9ef926931a15fa580c95a2cc477aaa5acdf2f8b8aeeb556776bc7ef53b8518ca0121a8462d16b0a8b38054c00c33c70cecfce2a0346103709fc99c951ef4316d26691145c3, 0x3b7ce565ccb5ba862f0fa86723493aa5f139a68bbb4cca6ef09a6bb44bbd29e213ec09aa73652452570e51ccbba8182742c03cd1f03a81b9b6e7aae87f8c8e6d8411ae6a9d6f0ef26f2141fd10c0eb17de39746a0b9d158f6085db05e8948ff9, 0x337da61d5dd5bcc8221daec84b374defb41fd11e6f64f42df7963693f8cba96ce4de63cfd8c155a1218c815cf1a8d6c25), (0x375a4d2f356dda3f5b556a01be428e80de8548e28fc08c5c4c38921d6e0117c51bafecc61f65e94c2c086e1d557e989c, 0xccc92be7b3c81109b52d9972cdbb9240b792f4e6fb11edcbdb18142f24eb01b976d6011159fe13a435ed245033419e71, 0x1078979daa79c596c170482089c48a4a29a0dd03f65d855816201bbf165412f802b40e750c734300e258ff01644618c2));
  ((0x7e80810aa4a48859f0a8e3a5c1a5bba8b6b0646d42cc4fb80c91de0412431d33af0f899e96ec970e52b5891b4101603037c5c5607292bec02a853e77e4259bfa3810484e5f17694b4ba74b6d42f5df5bf6586050dee8472befe014204019636, 0x5165a96851ecc236d437a97cdf294d6291fa7d1a11262e08270ab8e29e11f92ebd4c0108faf9b30b2ee8fafcbb9c83297b66d855bdb03d3fa51d2982a5d5fbb0c002916e03a0db63d8a2891aba9ccc746b743ea3b13600ce576cdc3f705be0, 0xae1e8f34d11edb29b460288e8f8e244bbf3cd5661c6bab0c421075142a2277f01feb694e32a7e29c9625aa6543b0ebe1), (0xa26d3d6aa4bb31ac63e155e2d2a495c0002ea2877904b0f1e34bada0506bcf147f0754d273a2f90812b58fd3dc33fd86, 0xf525cd2c41edf09d1ada9d97617c760a50d2459ebedc69987c815abeef5c377af96a62875fbda534e2846c02dcf923a4, 0xe57eda7e35c8de0211d78547d2c7677abf2945d3c22d2d58bbe0022b26b7ad729025ca028de0960c179b55691c65ff3e));
  ((0x83dfa1c621ece02039627b934714eead5de55065efebe4d3b82d0e7a824d277b09e1b75c38578dc163e12aab04ec77317f01929518a59b2d3065c806a0cee4bf97ea75eddea79d9ed6b9aedb0bbec9b5fce4afaab478bb2e623b7868ea17e33b, 0x3dba13a53cd248e36564922b2468b779c4c12076f9088b75f3c0f0d48f909bdcd728170c8fc1133aaa9756f572a9246169a9c674d11bb305161c27f572e4194ab8207ef7cd1aa98768775e2f896fbac53f08a784c3b54c54b870f29784e27c18, 0x4772e5e3bee542d4c8f2ffb56ebc292707e91bc822294a929f020e491408cebf3a493bc625e0b639e6e5a2466cf48bb81), (0xacc9d3a9d1a264a91da06b64bb4b1f184cc9e5346ac5cdf37eca3ad52d9b2d704f02ebebbae82a2a8c2262513d71ec5f, 0xdf44b795969bc752dccc91c8aec51e45be2b19fdea4766c5cf54b28522ee43ff1392a46cbffde187962b798466e76a58, 0x54165b9fbec90e8c82447005bae3381d0a8d9e69f236fc5e980fac1ad8e0adc0351e17408868c6c9fa2a5ee2817c7685));
  ((0x2c019501ca14bf6cfabad1a7527744ddc8b1a2967bedb79dcf165ff98cdb9b0b546efb11e4674038e62f435180d7bd8610d601193e3f0c729d45f782e38f1dad596744f22eba2c4c44a211e8fec22f034c5cea770a42f7bce69be79c28de1e67, 0x8496bd8a9bad544af30f9dbd3c2da03fb522864665721f043d30b2d1c7509f6cded54f09b639d1fef807d8bb9d5089c5ab3e01d1031c7462bb9f304b73f803b39a49420a2e1c49804d217303db733541b6923e2c25e191f135d53111e60adde, 0x1871775cdbb5af1ba8ebd6ca52bcda77a82c048a62a52045f46a8aaa932a06ce4be37a04aa0608ca7dc40874472324e68), (0xfaf14063e4b1c1826a9b4ca2d477c76fb79be4be1889bd8b63692ae56b112e3ca79a41d3d5ea7d692a7efe554bcd90a8, 0xdc538fcc17b962bbfa7d7a8025261a4411f22c70f197c5cd205078565e1dc6dd54ef59783c0007b42d1d68cc28af980e, 0x47d792df0032f07eb7bf7d916edbb529eba878a7f7951574d51570b800b2d44a03db5a217b6032ebccd59d4676a31ea9));
  ((0x251a32b6e3c7833471048161915a6652bdeb9c40ff23d92fa6326b855cf05fad68927a5c051b6939228c7c9ff96f3ccd208df22607540e80d4afa236752321b9d02857fc5e4cce2b0a781aae989004d3ef0c93cb87823d7b71c51638fbd91203, 0x60c8b4d248754d4c0e0faeb0ac3a583a52d9058bf763927a0b087f07f43891133e91aeb1e8ec45306bb04dd866711937e115eb8706291e4a7c2f551c663287b44883d873e9a5570125593f8c83309a65e4d82d71a6529dc739cc39dbf9178b8, 0x186f4084e718181fb9bf0ffa91a4b356933a3f4c969130abc9a869178ae4cdad8a09176e9d71a7c1e3952f5582b8f4c1c), (0x1770f7fc92b30e01ba37a5d0070aa82395290fa8f25a3b7a3c454d7948611c9d7504746e6ac0a956bbad847a05745403, 0x5879dcc11833ca404a732ee7d75af499b953d7731e8f1985d4d671217c0626c2426b59589986ed516d55887730f2489c, 0x3247e3fc3c95165f1e77480acff82bf9ee6a9ff7a5dafc91c61e065446f719dbed4e47dc401f47b8030c3ac4b2ea6d63));
  ((0xa6d7637456983f8b517e48baa19131e5205828fe46bf7de61323251b5d194ff500b15691d73a1d2fbd1e62af3123cc27bad0d2620cdb01c2e44b666e25c62a993aa9bc3c88b39741b92276315b5ac846e5d826f5cc81dfef4aa73e6665cd1fb, 0x2f686a95bcb1d23117b0afffa19d64f25e3a7007c9a4540863d82fa1e7506cf3f8bdf00fb8b09dfe4ea82c78c6620fb3a250eb4f18c83a2cc075daee337fc6e29b3256a04d251e5dcbada8ce6e3249bacea45e43b5fcc48ce792f93e5550176, 0x4569c8cc481211827a664674d1368801980785223cedb6b0e656426e9c4b1aeb8576af1381009a6dbc3241675232a415), (0xd36f509a7fb5d8d8f3cafafda5b48e6daa98c56373db987848ceb109d73535bb525fd0ac155365d8ce067242b33a9c84, 0x68fd6b672cb17a3b694e7c749735fc6c878469021c160af986397f2ec133b79a5185640cf2918d0ba6a1ea7d360718a6, 0xae2aec5a3693252787bc2fd9d929f975cf1b1e9e9852adae53fcd67d12b4803c93590efeb75c4bfd00105322b1e6a852));
  ((0x2adca2332313495a1af05f2c47df3bdb304693fb411f6cab75ff6841b4f18f0c9fc61e8c142a6100cb796a855dd07c38bb854febf99b75709358ce65a04fc3830a8d129942cc51940f6f82ca4b76874773fec67afd30dcf0910391df598af03c, 0x238d3ec63b329e3c59f574298b32da8ceb9a95c14a7a486a27535d0e51fedf49e7e5569b9e3232c70e17c18bf1ae2176feea75531407c994b3fac34dbd902ecfd6672dfbb3a001cb7be8a83c04f7049fab288b2bd725e2af98af255e08d1d827, 0x2ae3c3c1b22a3c46a880bfe2681c8cf1375892dc07c8656b530f0ec810a7ed17cad5d76a0f265a505f8b8a67a695096ac), (0x6417648487dc363064002570d912972c55eb571eaeb0d7013f0dd66fb23379f1ed6801d773b31f9ab5b980733329f1cc, 0x6f8edd00f774c7afffab9e08ec9b5f011c7af25b671567e893050022fd7c0b63fe1b409f55b4f1451f680afbfc30ca9f, 0xf91367723d1c104b714d5bff400895cd881fb0220cf7022990e20ae35595c32347e26fe1c86363acd3d18e5f22f8d5ac));
  ((0x41218e2764f5e16696dd5160d6cecb4cf10d2560ef2c24d0e2cc3aed1cef6d600a13471d3627740d2f777f5bba19f47649a76f3d95bec08ad63174c7ab2da5725eb30f885945a78920da8e614480b33e16e3fb695ab3851c8bcc6eb6ad706c83, 0x48b5883ea0e640dbcb1fd8026e77dc3c6eacdd2b17449d186837cb0c37ee2ff8e09691ad8eb825e59baf8d0e4d80ac2d510c96fd813d54c77205a4dc3e5f1a4527f21c87a1a795992ad24545d36b5399e8c09fb285142ffbaaeef7db5a527808, 0x3ca662365e4d4a33ee3e33a3b347202e50f5ae85bd7c98fca8bf22efc7f1408bf462f5ca1572259f8458cb38f8449515d), (0x637d9b32b1a99c0700223d747a11765524479a24aa589ac8ab4bb2cd74ed2313477f91c81c6b4b0810dd33e21a32a993, 0xa279fb872432bcd310f4174b5bbef8a546ed6f5ac37dae661760c2d54916247f8103b7d07cae5f6e51c912d7b5d2df68, 0xaab2867764a6b7765e813b459462f4d22baf9238a57c08ec94f9721ff3e0add4c66a3769aed8c9427ab4e3e27f0a04ee));
  ((0x41024a42ee33dbd6633346110814c2d90c8385cbd11422500b073d628164e5b71ac0388690947bd8b1450da67bc4de98a79ecf237d43f267b2d12899dd290e4fb2c6a7214c28d44fc4975ebb39dfa507a57b2cb3197ef877c5595a55475977b2, 0x22262c23873c74790b02d9f4609145b9c25d4130459857caeddda821110006f9ba8892b1633d390a6ae8f72c684c3e8de2ac5e4b97b7216778a5c2a4bc53cb36a2576adfcc2dd50b28a542879b1f575ada907227babeef441e8348fb3086a972, 0x24140f707bba5e5e092c0204c20895c461da231dba469d3ee22366301b437c9874c693ca08b4ae3fc58c61989878f9888), (0xdc2d2bcaa3e1e8560daf4de9cbb9c2b217fb8de715c89e85aecdb7f50c6b6dc12255e58971474c75275bc950adfc181b, 0xb6dfdf6b9236cf42a46a5ae210f4bb9e03136210db95b21358eb4bf9a0893e9ed0df3abcd20018af131046cd453ce342, 0x48690f5b685d32a02ad2371962ec11a33c93cd05ae93cecfb30dc0bd012df8b852a5e8a2ce3a51dfa13f5ecada32bfe8));
  ((0x1f0a05b780001c11cdda1344e74427ac64b1fed87c0cc6236a491f4f29d2e79e8262a678eade45fd4b8e04a3d7e6ed4a0772622b04de1baec10f182eb2cece4720e3ea1879b1db853cd328bcae8d97b93f21711d8b4d1e492e6ea7e222b78341, 0x62523f9067d837f8c1a93ce8af044c74639cd322408072b2233429b41bba204853715ebd2531d360c5218d58b998d19c36e954aa08501bc2096d4eb5d7b57f61bc542167d9e7723498e04bf8ce05bc4569d455f345b1bc18240e4dcad437984, 0x13ca300d1714c464432a996db1641cbf71b5bc228d6c3e5f6cc8e4ac2ce9b2625f4f8bd923beec2395ba6e5bed6644d42), (0x7947a50ac666c8a164a77ba6766e35312a9eba989cf2e2aaa110ec1f8e350ac4f658f5f4d0bb25ca950a195d03eef01a, 0xd37a3a469ee3507078b76914f46a6d738865b369f901db06bc81e6d894c1d7f32c07c29a2340eb7d46a3e440a6c85850, 0x6de240fc776754cfc204872c134639f305a9adca11eb76b1beaaa197a00c1d5f57e74f6d6ed14d69ad04163e99f66bf6));
  ((0x3678323f342a464190bd354698a642839869eab75877554aa63e321a7b32668af4337b686b093121fbfe36a7fa3c9ba4e29dc14fdc064c0d2409d6a7caae5e2a668f335c579491fc2cc014415be34523347836c664671fa77fb6875988277845, 0xe26b4c69ae797adcd72076f4d03c0e341ed0a4423147883217bd3503c27c2c9003c4f821341c5b68a53763a9833ea145490dbf392cc142344d04ff479448f06091227fe71512d2abdeca510eb20b750cea2bcc01249d0427cf75a8c468d3334, 0x1a44f72f302fcf2f994c150d7cf5a3f5502f85201cc325b5749c366b1b5fc00d187c25383501b7a6a08842deeba276361), (0xc8ebe175362b08600bf6e886c10b49d020d879d6884e41988729a30beb57ea8deb026a08cfd46641468c084cf4a696e9, 0x776580d3983c5caba30fa8cb10bd6b0e0be72845fddf2b87671f15e8943d908e83b051a10df35088e629a24876f32af4, 0x451af9255e95477d5f7a4c5126b0b9028814861f7b7ffe28d3797ebb2f952b7dd05645c595c3b3ae10dd78f08a705b85));
  ((0x135711f3c71c2262c91b7ab971da74d3e2e544ca9e6ee76acb15c477d58e700a2a7ed8c6319d255ba6a79e8d8aadc39e0802063d2776d4e7648a927a8f1a0a055ea09e45984c9e2699d6348cf93f6fdc7a34f9c42a7aa572858a61dfab0ef0a5, 0x598cfe953f042a898ade896d271c93fb3a9893b7e961b47dab8de30a5af8aa4719b5213de41774335c6cf5c5ba249f2d6d8b654afddf140c6954ead1f1d30b713e22d77f1e5e1b1918cc4b6b7af66701f190377134ac1c413f0f73fba39c434, 0xdc1fabfd38b9a6b74c3a8f4f33c0704f0086ce1d0e2014cb31b555e89b3bb328c7647e2855454a2d07b5e2f2092d71b3), (0xd5c2d9b5e827b6b89d1c8a638ec7ac95269e2b50184302796f4898ebc061539422c17c345126d90789a4d61debc89136, 0xe509ab1eed4251d2312ad6a45e97b5a0634aa2eea021a10c2cb4199858f022791c49f271772ec44d5335a4cbc2bc2f84, 0xcf7b226643573817bd74ffe38ebaa583aecc33aa440596d316fd9dc76e9aac07033b708c89e33b0942a1bc613b2457a8));
  ((0x6f6382ba8c65c007be77a489fccce5275d8a192e5f16d62ebc69a8694435e1044bf8281146be1970883f0a347d0879b855a1f1f8a4d24097e4910e7b793bf6bcd7bd1ca2caebc828f088094899b8a27135760cff8e1531830e6d9214954d04df, 0x3273d4e68bd51a0884456cce64c0f227e008fb9f367b876f35a06e1f11fb82b8a6ba586094e59f971b9a440464ce087e392f5c3e917f06999bab5da88202fccdcd737690904bba9f6273088cc7dc721331101724be4d218dc8f1601679dcc385, 0x41fe221d91635ade236e938b2d028261fce6974fd49a985ab09df13d3fa24db8fec6ceb3a4b897fa1a49f988641d98603), (0xa3b3b76e6133c0733fbb677d84a8582008281bf2857021172b779d37f9e4ea37a99166e3d32a74f2798afa0c0e1ad043, 0x6dc2f098ef1261a3f8f5e7d522fd009df9599b8ce5cf08d75f3bcbf5690c2f8f77b980a29371a6ca62d08692d837baf5, 0x9705e7031f9bf628b3ef76beec1b77c10ebf9e95cf31e287e5ec937df9972418f1969c77db73fae908d8a4a1497767b3));
  ((0x26daed7689584b7b39f336abaf4af11ce67c8fa3801693f1d6c1ddb376ac7d3856dec5b14c592be80ee3f87ffdb0f4aa246a8eb6e230eb6ae010450c741d229d6a1a11aef5f652ec27b188dea9e14e054efeb9ada42549617aa8ccd176608f2e, 0x1abb1704a65ad06b6b649057344a5c4c0b30be45709bc6e9b48589e8b9accdf11b273b62e439ce3cf50ce0b008364b43b4a22698b0552f878084618f1af4b8d77394369491d14a173b82668c431d7f16e1a9f1c80709fefccb107c0257201093, 0x1fb7d08290bc60340dbe4782d4487d98373457d441d0ac4c3c85068f88695a8e8aa4f9d836f5116f3c257eb1266aa8f21), (0x93defb7502709404e84491f4982a0ebd6c8a93c352d26f24bbd6c8f776503b8c0539b5ae92f2a2d59cd88b405c888097, 0xe7bfdfaf43ae489e9c691544cfbc9b0b9efc4d3f668f434c3d21e779f1457b4055d6dca7228c2274ed82e7532c8a663b, 0xc0cf58e8e25dfa20d9d91440d47d7ecc6f7b2f3f801ab81195573098f57e12818ecffbedeb02e9a342be0b26cf1b3ac7));
  ((0x68bce9a759f821030673323c313c2b29c2e4377068de8351be4cf90149502a2919882ae9291489bde24681966c4abecb8c8b70c87e59835d92d95330cb525b4452339712c5a3355702850ff54e2b1042ee97f04713871bbb90f31733a265bce3, 0x2b91d86fe74f0c33ba224cafac1f766e8b12efc1bf83d27b5567e6f512b0f8a22b80ec3764f13fa66793605505854424e0e4c2eab5aa73f72b0a837206f37e6146d4f4dc8a27a0783980aa1aed3ced2951db93eac1202c019b2733fcc01855bd, 0x36430dfe909af8fc78ab9ff20280cd116873a2d012c4b0ba405de2019e8a3916032d072f4dcf0b7737a22583818b44487), (0x9c7d963531e2ed502ede77bda68717d527d50c599a53341ad4fb14b89f958ee22892daf25b58ed89ff5058332b179394, 0xfb2eb9b7e044692bf40fae2692c1478aa714fe2745cbf24c3936d36946b94620a586f2f2eac80c78561519068817a295, 0xafca4cb60c69d3d6e0f4a1eaf3a3d9424051d0a59bb8a41f9945fec7a8263c02ca9580f9fc5895bc8042949099e400f5));
  ((0x677ff95c3343180cf836617c1af9533649809082e15b90e5aae0928f16985d6a8ea45c33a36b2fada4e29997851de86033c8ef9a3b3c11ebaef227dbc0a72a4d5146b8cf784de96c95062f16f95096e8f0e4454e39099d25f83116542d42113e, 0x24379c8473c88bb8e4906c00fed3e6a4c96ab9bc6466066487426ef3edd6ac0e247e464136fe4f2a2bfeb5b8f4d678205e2255a915ac1e5cba9941597fe54d69de6e9a0732b5dda8d799ef99372f0606a7e5107dcaeb47c9a33607912644d5d8, 0x337824e46e16def56ba5039e2753497ec8e7489e5597ac60feedad0f34c2c044de304171a6ec3345051813407423a3b32), (0x8be4ca8737c3909a58281534509e00df1dfcd3a5894cbe96a9cc8d5a86823c57d7b65efc15315c2ce4f6e6b779e50bee, 0x1ab58c3e07c6a91a0a7943b5fa323f8d2c3a2b0b25cbb93a3462fe1258fd841c8d66df50058996a5c3430174e1a5d846, 0xf73ac19e7a5b52110f9dc2f81bcf447791e022e460aa07c8f1b51bcd441e81c71f5b93790aeffaf1be2fc9181e3c5e9e));
  ((0xf7a6213d67de582d94d6e1969e5d16e7f3d0de14a7d6e1367ef640fe5ed7898cc7ca77230c8e3d17aaae02493dfeaeb2a41b829c654265d84f8d937440fcfb0cf2420292105981ffbb3f56c275f7926afe7168e13f923a8868a8cc9a4ea1782, 0x47a29bc1ea80e61f0bfe3e56e244b224033de8e12a950ca32f534cea4a11569af32c1b8edd3d3d26842170aec70a954faa4ae51c9906110f52602640c54a485444bf439901c5b0f1f8c3504e95d8d7a5e5c5b48eb3b290c7b4cfcaba4869e112, 0x3dd4464a97197a7d9cec4b49263fa238e519b305b90681d73fcd03fa7f5a0955a1f1b280454e997402a5309f2b7aa99ff), (0xf8239b903db18b693738ea3424bf587a458117038813b893c926917c44d18df0ba5461fd2ea495c201f05ca0d12ed746, 0x577a2a69f72f23d3a52a4e63c8658a5c356d23698f25a09f7de8d042ab8bd0e841205adf503786f12b98ad105cc68eb2, 0x85c5f82fab3a30c2b207290258b76f810e4ebba3037262358826efe7603f421ed0d2a3115266a39c6a7a69e3dec38b77));
  ((0x1b6dfd3915954b37dfd3e0641f7b87a4d46c7a08b0a999a993ab8c05741116fa2f0d847a1d59e6bb92d976479103c2d6d23fa620c9d7f56a48d928fae861507e5eda9b7a123cdbea38c72b8387252a8eb1eeea5c3a286b3263ee3c7869b5f735, 0x14f923ddfcb683178e91299173e55471b7e3b857af7f70d51f3c982fd906fd3f7c4c1e6b7590d49ac61f2ecc2a4dc69c5657bb4a865837fe553479fd22ff8524936c720652a59f7f63ea2ce5e0467d0eb15a0fc948814dce0844d0c228f00654, 0x1f2eef19f823a21e5e7e4a7479ed1cff8b783a406e3d591cd9fe580f84993e61b07ee29f7a766f11ddc047ab7e67a9a1e), (0x1d89b5aa1712a11be9dd0e090557a5af9d9f42e8502b527226e05d3a758d16eb580269714f1db529b003a064b4f82219, 0x537377cede330beab9d9b7c95c02d2fb8443e334b8d80351c34d80c124037e80cb77b8e68fec65c92da335c400ed6630, 0x2fe57e19a71050f8ed784382c3d8e0c17385884dd7c9c5a728630b4cb2292aed141281592fa88770c9cf83d20b2008e9));
  ((0x95e73855187a420a4f75949bf9ffd1abb006d573fa6983ad7e1a63a82f431d0d0afadd268a5a8e486f4e530fc9a31148ccb350ce474b5342349f57cf088fe684cf00fa6bbe42aa87677f29e284bddf872962cc09ae58aee3bf02ec88da8d113, 0x2b04aa7faec812bd59742d5e0fde014048831ecebcec2c8da1a07a067ebd41b90f1f41b3023035d2e0e05cb37d1512c93ae05a154687c26b4a2cbc10f8f926729e95b0937b0b60dbe1ca339ddb2bfcdbf4900bc9f857055ee7f23fc9e7f5536, 0x4123d00abb1d9881576f4b09d41e5d6f2fa4f071aab16ffdd864d491117cc5f5d74efb731a96b4a2c824d58aa5798737), (0x622a4b4ed8762f67306eee586688f9f1b04cb2919c09bb879e65d9c0c82f4accbd88cf463ae2d026e9cb5e1a09028d84, 0x323fccd37a68f7232eaa23850c2ad4726ab094e82ea56784c22ee579931edeae4128fa2791c345dd46550c1ba1127ac6, 0x5ebbf3f3f7690b37b7911ced7ccade1f15a974134b53bb79ad056402e6e03ecb77438d2705e700d7c4b69b45ee19dec));
  ((0xb287be9eaa9400d873069762397cd10ed280e9bf08f605cb444bb6d8b0f2644af38a8c365b5ee671497e1bf73f67289c9ce9f5d4cf0128c03b121d21fb7750581f9fab0f7b1be95137355eb311ddec0b7b1bdeecf82bb1582fc455fb861b73, 0xa84a557d2f6e4d9ba8e216792eeabeaac5aa37c2f01555e48794f142c3223f7bc7718386da3b3c4a83522f837569ad901ea3d3d8b20d8db72145dbd41f01959418a85d2e746bf0c35f6ddbdaa0be678455caf0716b184d1bccedc96ec9c03, 0xed09adf754538a0c610fbbd5848e8914e76709dfc37b8299fa01ac767c0a7accc67f1c08500177c4eb1dbb739b1d7d3), (0x3759b84c082b67995ac46302bb72a2868d779f51396a6e21664ad48faefad7be2948e93ecac277c54eda182f57cea883, 0x9f45f1e1485b3225e380030c495d775ee7e558c1be64a63d142fda843458d0c381e4df1fb7daeca2ee562c30ef32e863, 0xcd1476402f435d2bce96632133e21ee835262b4a44563687cb580326fb96f9c96ad418fca1ca386dfbd190931385f107));
  ((0x4c90408a7a317eb759ff9fc0cc8caeb8dd6538f0aaf8bc29cf1073125031ea2a1aef28106f2c6a62be3d99211fbf1935a2710a13ed7bfb2d4bfce46055a6f5b5a951123be78f9fb797bffb690225456d81e46a274df4de3f8679abba8982321a, 0x314aa028457d7b30f981d65101dd02990f0505c360ea64fc8a2b3d46319bced6a35e1f53a81d10dee6e075df47a3d916cd7068003dfcec7d1961e6e7c579dad31c17636753d75736e04c9fb06a74f335e4d6416c4c45907f3ffd37d221086d94, 0x2a8a3d4f39d0ed955eeeef688c3d4a93bb0e159ebcfb3aef65e6f7febcc4242d61651ef8d608c26fafcd7aed64e621dbe), (0xde3c94a277908d2cc8f12d43260676d4f3ca58b5397bcb0ad630161647937590bceb0f8741a716906c5c09adc5014dc3, 0xf49f7b5dab32ca4984f97a58f1d1e73671d4cc044505d4f8244425a0bc4b828274905f9cc83f3772d0808b0e76602d34, 0xd1d8f82297964b031f7cc60ec9e0c5e12b535ccb5fc48ad42467f7b283a0f196235b7f74b0d80ca599a39e0b4d501bc4));
  ((0x785345abc35a32bb26bbae9dd2656e46242acadc289a20a1d734767095ea4f179ba79770dbe757cd6d3061d4a8953fb46e10ea2705da9d149b2c833bbd825a68ca52212589339bbbc1090c9aa98d82b37df817e4693a656a01a2b748d77c101d, 0x339c2653ae244f118d262c465f16eaffc688eaf6828b8f2edf93b44b1851a8a6d4a73b597c5c819b6b11633572a30ece4889fe9270f5131dfccbb8bf1a57cf863d21b01937e41f06d21d4bcc7a62fab81c812b7332713290a344e729b54a2c40, 0x45a23fd6703ffd0bc7be780a3616fff0401d93b0d57a019900a991b4d832b80fbc4eaeca900c6a45f0f79bf1cd08d5d68), (0x81c2ee2be0325e76200b1db627f8da33e408680a6eeeb2d5cdf35131ecf1548c7e4269c21e2904976f80a53214040ca6, 0x825b1f12b7980b785eb77b158017a94cbee9f9df1c97e65d5aa82b8bea4dfdbbfe199a61245d91b526710e83cc51158, 0xdcc109be6e431e3a87d08365ff3c4b1e5d7a534068e24603702d1da9a167b50ca808245f36083d60e61435085857aec0));
  ((0x4373baf6d1cdeb9fead87aad07ccceb889677d9ee415b005191b9f696a09d8ae0d43ca78140279b7aa40e71ed33e96aa9fabbcf67c2539a91b172d739f19bd4f80aaf9701956904e25ec72760b57dbbce5706526dfae5eeedcf3ad03dc9c572, 0x391d340cae85d62120bb1c8eb62017d8fa92ceaa000e755bb3e9e24a377ad018d2e6871d99162c6f27e5333c20cccec88cae017fe1d0bf94ad30f15c3f96a8428afdc80de79a3158fbffac482923b41e76c9b86c53c91313f95c436f4992a7b9, 0x31b222ac0448a02bb06690e79499d8b514b857dc33c8e5eddf525393dc7a9488194714f59b0a457ba9d25bc1421c13238), (0x24d0bb8bcde61a332ce0a71868881cbc93604344a69bc6c9e0821bb2f9f858859b54aa9d82b3eb4244bfc5018e80116, 0x2df9b5c64f9d717382b06d5a4df973f47a3e4aab679d71eca49526bb6222c1c020f7b378121088ac64592db81de751d9, 0x2acd42a7d24c8ad33d7d4cda402a5f7ef4c414fe5bac5f7ded977517cbf4855bdf28337efe129edc6db62fdc0dd35178));
  ((0x49cd1d061738772a0c147ad172920585230c764980c5bbf3a47381970cb7fd2575a682bdaa32b441b03c09089c5a6bb1273eb04d31f5f5c270d8520e7f79756a581de7a0d8cff0b569b677262a2c9a29eed9af33d63f8dff283a8f203afc663, 0x225a78bd132df07feb8c7d9a903d3696a305f91e081268ff4749961c504b0d7172bdb04b1d56f533aa8d0d42e0371fdd45ea7411673967cd9e825927bb6862c451da01a3657b19ba16cd77693bef9f7ba6a88e35a0c9d0c2fd73678e1081e12, 0x1e7eb143a06eb0369a4882a4ad1f6700c965eba7d02cc3670c392ae8866104fc4e3453b0ba0c487c070a978fd2c39bfd), (0xe4070a94edf0d595b7a202188cad7c5ccc3710277a8dfe484b007cd5369454edae29be601afbf55121a89aa3a1effb47, 0xa1e86d3a388570fbddad25752e8e90b301f040337f5a94c1c09b7053f9a06622e643e61417cd384c137c448db8e7cdae, 0xf49dccdc58518084d37474e32ce7230771f557e72b41f00175dfce10e8dcfb5eecab22fffea04b5f9152a32bbe390f4e));
  ((0x5cd5a23eff8cc4e335619eca5545caa63f410fc12e7e6789065d557eba05417296b6caf27d4a1aa012616053fc19d16710b4ad59d948d8d6c246f199b369c74d8a1e2f3c74d6d290d9b45e6abb7e8bdd4e11859ba3366a861cf8499453d8ccc3, 0x4620fea646bc3fe4bab7b4dedccc12215c63687c9aeda6d52f9e9e7b3ef557cb4a75a1f01ac4ae943396589bdeab05d15c4e7d4d3281f95300fbde71f07a2720820d3e1bd0fad50e387f5c8a94c5cae7b79b6d08bfa29453bd407116ca5817d6, 0x4d7644586dd7441dfbb08f623b60cd6799d1cea7547f57cf3480666a125b84c7dec5ac51e4c737ac3ed4dd2785faedaca), (0x9f9ebf8962faca84ccd8dd173e609b6f87b51f3555b45855cdbe731fa75ddf60daf88b8d1d855af191a9432e0eb62f4, 0xc69a7caafca97d13e9a303756db377ae2f0473a26afefa336b56ce12ee63e6be73d902eaaa0e1c8b2e49ecd2fd5460b2, 0xc7df49a2da2a9eb1eddc136d84f89e6af3ca4b46c6711a65bf65fc39e6e28d8d51926d6ab1d4322542783c3a3933219e));
  ((0x5d0ba0e5ee2c6471ef590d05d9b158ee356659e1fdd9206726d786e3ac5d8f0c1a0b9ac01bc338ad7636ed3aa8bf151132f02f488a28b31ca138f2742d1b7e7bbba4877d107b425001b5cfad5e01fb0c351a7c463dc1fd842febcbf295052bdd, 0x2ed1e6083f5c4f44bc617408c62be65a13408b53d2b7f8673c98e55c4abbab73011ec4a8ff2559261623808a4559570bce2b3573ace53733118083e55b5e8e1ee1d3b74b719d84d8f02a93ea1bfedcada791c6d96f304c197de7202dd3afa9e1, 0x27dcdffcb31f94d5da9a6a47287fc157bb13ed11b445a93811bcb257502245f78ae175804fd80df8b0aeb1e7defece2d8), (0xc45384f0abdc80470745ed8d7b27906265da1b726906e331cd1190c6d5031c479081bb68d44ae926368abb57cbfcf7ed, 0x37bdde6d262fddc6836dfcee2af35be4c9f5a527517a9158eb7074f8bcd0c0ae42ea7f49e757747a476dafdea29cb099, 0x2bd8aa075c750977b3d4a36651332f87bed4f44c9a9cf0d06174d66baba7da41397837df0ae8651588a5f62614a64458));
  ((0x5ba97675d6ade2226887444d55fd5ff2dc84735502aed466405059ca9bf0e58c57cd7a5100646b5fa542c5ba3a42733f27019fba79238fa5e5be958ae9e1d744a0717d71534a7eadb9c7240bdb630ab4ca90edadcfea9a8c521508691df769c, 0x240cf455f0b99835bb6cda8d05e0db052d42ea2788b354795c240d7a31d434a9c5d5919b3ad80d80ece86c0095dbb64f6033a513cdab8b9fb80b51a2968b6837d7eafc74419c6614228b281d08d20cf4996335b9e262dd2dde160f4ef2f614a, 0x65eb0441fede54d152150ae8084154642411260322d80eedecc19a686b54983b69f3879e8b161226609f049b71ac56c3), (0x50f5b7071aa936df4cba1141fa41c4e86aee0c8f3d97a140f0c840886a5d861272f4a1d46a785504f16a9a8ea1faab05, 0x71f13d51f073b98eb8d4df2d5f134b1b010b3e7617ebb8f1398d9a31a8155fb2fb67f87609a7425f093538b650cad224, 0xfd5466616578c80da7c72911553f9c2934ee870fa717cb4c20de8ad3af47635839a7ae74b8f7bbd4b2e4e0e2581007e4));
  ((0x43a8c2bbb28f876cb3626a61cfdf398d3194a85916669e8db2772ccf832d6a5f5d8119b339bdf255b22d6679f087f595a81d2d938b33e6901d0c109af8938dfc1fa6b3454f86562a76b50dad1ecc9ff1c50b02fa7b42e9ad01e38b904a326b51, 0x4b36c04d1acabad93efdf615c053f5bfba6d9c9f9a91e24ac74e16e8b50c74b648b4579db41e28ff4e5d494286ef8c6e0c1b365e43f9bc043925c1dd2d36af680ddfc34176b1ac8e02a22b76af0a4fb16b03b227a536a976bb10c3d85d3c7c74, 0x3c301b3cbfb1ce1c079914466e160294abd151da6e41ce0a98afd535cc68c9292e9f9d4772dbd0b7cf72cc1af69f75d88), (0x21c0b4934f14e0c99f2d70f31febfe5dd38b048d4665f40ea5f81b490f39640b4899fa5576b829a624718c730add3b6a, 0xdda6b277251846954404e29eacff8d5c93000e2a48e9dfd31f92bbf194a0fe6cd1f484ed3699b92cf46ca03c13e2233c, 0xde7f723ab697c2f12a65a3065ded2a5b4780f5977843fa9ba1aa9ad280bd199528cf092c481ebe1e9bd5970079fc22b0));
  ((0x73992c541c275e6e844d2fb4fccbaad064a5b99820888cba708430f863fef70934029889d2d43ad70c9776396122509d8f69a9205f7c018ad230b6348d97003216fa7efd6f39544d9dd972efcf1ba45038e94609ace62f8b37d5a4c2aeda31bb, 0x3a051b81a9bd1fefe63f23c4e9810df62592b003b313265b722a88bfc24fc1cc9f1ebe9ffc5cf7019208b00a7c0da11e8aff191c7c9045bae8513df21fffc2548729439d72ba40eb8072a2ed19dc2310b9f0efb3863764d6d0e897bae806260c, 0x33eb8ede0824fcdf01b1f1adfee43d1a198ab3b55b047f99991903d6965c54ea4fd7d92c9b1b44525258fb3b8fab4dfc3), (0x2eec0bd7e685d26b40823edf248609e2d508a79e22661731c32146f90f0f5bfa239c8f5d066258988e3a6138fde2e19f, 0x9f04efe45ece1755bb589dc4d0f2c2b9c7184abff22b735a6e840f11ff8a323ac46c30b29f28d2f593adae336906b33c, 0x45f55d38eb0ad1520a117216b1ca8b72afde17e34493fbee1f65c835b3c9abafa33e8072fea39b598f82c3380bc1da93));
  ((0x1a138799faaf36ffd94cf2aafa5ad84312a131701d2ac54b1fa22fa6fa76cde443b0cb4f7bb1da36a608b5bcda2b33603ebc1ad25e76c0d037075073a71ad7be832aedd071fe0132f7cd025f87c03327c0a82d3fe8f72d366cbd12ac7080a047, 0x5bc67ed671d6d6a04b59265ad5e0cf528bd188e500ef5cecedd67f26af5bc096b84c108dbd336025478c8fd3f77cf6db4ccf48424f61fb2fb6c23fbec29a929338178c5c2dd4168f5ef5bd74d49e663c4aa428879ad922e2f5c9d90500731cb, 0xb5c6e0b838084983ba3a0d7317ecedea1eaac2e3e79d9cbcf33562de2ed1f6a2bc9514b7f292a247f363ce308749ffb7), (0xac53c486e8c3dae3a60e00725499ce3e0281d754225a78657a6846586f8d3dbe10078d525e66fe174d9fb0d515ccf788, 0x36973b8d3bc7eb2042e65c3e4939909d31d4c15594e2d7b58ebd9d60586c1615f810643c4a9f0c24a5c1854f187ac69b, 0xd8d635f5dcc51ba0d0a1c48ea583895e69c8f383a7fe8ca6a020efee7ea72ea5291eee01fcebd1e28256a82744f4ef9c));
  ((0x1bbf18be1a5e7372d87734e2a3a26a9c5976f0da6b2ee3daac029d3d3baab714af63c761e7c997a0e5192604d5d857e7075f70a9fb7f26daaa76c5516fa2d3ce822d9478ae9b5cfd38d8a218e40e06c952a8522f3cb7a311fd9c9bbdcdd7eb6b, 0x371ae629a71ed4821d10e745d9c042974361588fa7913aa5912b515114396cc7af3446d235eb3623684c374af48fdb05e7e3b1dced7487c25ec36f6c9f3ba6af5ac762848229d724435ec21c26bf44f1109d05c94821e2885bdda357b4cbfe8f, 0x3569071b443e2a0efc60501b47787dd487969f02501499ca3c41887cdcade91064112e8f64a4f831ef58b8bfe8c4cfc6d), (0x222e3aa929e3e8205483872ff7f560c1a5b96ff40ad36d91ac744b9cf1050aedd4fce8aa15b826cc2aa5f72ebe0e1a2b, 0x11ed46f993a93f64e4a78380a748d9131e0e29eae7cdf20e92c3a7b594baddefa16ab9f2fba9dfd79aa629aae2cf42f7, 0x866274f2cc47364e41c8577ce687ca8ba83139944609f8ab7248d2f1ad99e352814f23533f0d97db7c3b92ef6a48b136));
  ((0x5a59ace7ab242a8dc0e92e91aceac2d2ee63109adf7844f6dc132acef4f3a17a7abfea54c00afdd6f5d5dfce0a77946518e6c68affa7748b0c2ccaa1dbfec2817c052608bb99add95327152eddb956245fc38e75347af2bfd71aa8253c80575, 0x152a52273d4de66b5c8a73bb46f32688cabddf67431a9c73f048fa775bed4ff249d63d76cde120df96c7f41df98ed56f73eb15b2014d564c5c3348cda80db528cb685629fa774e62b281186c39a85e7fb93d3aefaa5d7ee604ee06063e9577b5, 0xf8c5b84627648b1c6ebad0cd48d0cec566ee8ce7bcf77e8754d9de79b9da0f8d6323f30a46dda30fff2a6ab0c37eb927), (0x6d4c7f177a60f3fc792e2fc11ba54b9aa2812e919601eaa132c56ad25170112e9aa39db009308759d3b7faaf2d32efee, 0x9bbf6da33478265382cd159034f85429a1efa598ca56e8ce09d224f8dc14eed3ee49f2b15daecc9827435021a07f378b, 0x91d8f3c1fde966ca108a0bcff791bc9f4f507c0edcea95adc987be4158f54679620cf36fc1f240172bce08b5e1eaa9c8));
  ((0x353ea5890bca0c2f5a465c62cacaf36ea0d5462719d4f43549826ca19573536511af90922b1d160f564f9f546e859f5856f403b4ae5b9873a3ae9271f1f718fde247da7312459cbd37691b37c562b97e6d508044fe438125ed52bcdc4fb46256, 0x18ee1954dd318f4cc937a9cad1c22d93015121f4f8aa3c2d0beac234500cb7e71ae2532b72bd1e3fd63de14768f972c0a1e50bf50d63ddcbb26694c92946dbc1d2ee526a6f951cbc4306318d104b0a29154395f0cb0fdb0cb078103e3ff40446, 0x1d491bb165cff6a68eeb9bd7bdfed6bf04d794f201788dee1e28ab848903fd09ab3cfb40a442a2589e9b0c68feb6eeb19), (0x53b390993c1c27f00885c71d1f2166e88946db3802d9a4384471325061a4ea809f59232747a4695e939363af7382869a, 0x56d82f63e707beb7cde448dbb331bb1893da03a4acf99e004a6c162851ff76504df14889be42aad54f5e832f89d5c64a, 0xbc2af3da6fd4ae51b6f3ec31415867c2653ae7cc141feaf1c4f750383e742434956dfa504bccfcf9d2665dd6d58a1532));
  ((0x264dcdb2797237e09dd312eeb8947ea9875180d7dc97afd0127584a0e8168c9f99ce715f760f6a213078df05cdc07c568675b26b8378161b697cde01218ad25bb312d4f0240489bda18009ec5bf0b3c1d1245084f8846b6113555af1466e9a5c, 0x297f38f159a219652f40e016774e0b490d978d09c8f05fe439081c6ed934177d6d8509b27ed8d0f9e956ad9153ed7e78aa1f24888b16d99d57d615229c7b96627f6a7c58e2c10a73c05f303d424ec86822d35e7bd6a39831654aa96a55691c10, 0x2376f21429f3c6852f46bb27bd8c42abdb85912986de41dd38ecca028fd42bfe28e535ac8335a41806e439e9bac33910c), (0x3263612d16beacdb2aac7f694aa25ac730bd4d6ab3147d5284d6c9767a480c7750a631b770be72c78e9e2b0f9826c580, 0xd76fc222a72456b33d2ce393d5fbe3dcfdff7d52347cca0abeb927036b3bb3355ead06fa5f8b462630b211916751e010, 0xfed46a47f6b938ff6804e1ac89d142ec6b6ea328d9702c92ad4d4584f0dafa150acf2cdfaafca574bac1fd2c8b03afe4));
  ((0x80af28e915d5481af2f0c10af4ca563690d5349528cb655ac36ea45d195fd6e0f8120232592be7825c669654fb67ceb125ec5993d9f4af42717c1684b15c5f221c46dd1780991092f68897ae24a3997de64d2101852336af7c5d92c3d7f66fd8, 0x4c1b749657347327a49d3988269504dfae87b2e187085d97120e60df276b0efe6afeb821bb30d741edf437ae7c4d13ca50d11a8515887022283356aae1859da113ca3c35e095c09332cd9b352b0f36060c72107e3083aadd2d165e08de11eb15, 0x4129c559a31454bef2ec003856445462e074acfb97e0b22adb12d17b6cc5f49cb5996e017e3ab00f68ea2d4db6827c990), (0xc664307e6eab3a9eed86f810fb24814cde09fdfd43226acb08846994a660e16655b69a4f94e7793a724a3030c6baf7d8, 0x3ae60d37b002193cda46bc4bcad5b4a0d395ede9a1aaa7bcb08053ab73bd4522373390d7ce8655d91dbd430c36861195, 0x11c0cdf45fd2da7e7902898cb2f3b0ca0ba20943c73737933c316831f16917d154b2f6584c6c3e66726ced630f0d1fc0));
  ((0x2737221bae8df1e034bf950b76c85f11f8d2c0ee1d408421cbb09490f5de072e3e25e4907d19f406ae713b989d7e1e939c5604cc33ad0887e84f45ba789d041e9adbd7f77d999273f2ebd74d4be580520f04cce16fe70b0be5d4cb64664bfb2, 0x5e8fd91f42baf9640eab3edbcfaf006ca94c89c3091db81e263c373244dd46713d694ee421dbcc32361287ab5fcb7bbdd8d86a75a20394e1b9a3e91a96a1c488c5a42c4f4470d89b380102304118b1499e133f5a788152177292d0dacb4893, 0x2cc2b659d8f5db39a3da4699c0a9919cc7b61d8de80f456f10e9a7bf53a46b4fd640566e8494b0ad90e227d451ab4daa), (0x79b23187cb192f5771e15c700886bf01c25f0e4a089607262bc1cb528ac46d3333010fcbed2d3d47173c530974621df2, 0x9810c036fefba846034722bc30fac014bf2a3c141a8576269901804cd2fdd5f2cce4f872c04576b3d45c3f446146da83, 0x923db122f217a14b1cc18eb6c6ddccf68f719641e6c2bab9fcce2c8d11cd90c1dac7dc29bf6386ffe506f0d5ab96b263));
  ((0x3420492d74085178c56f2248c165da2c7a1a840e99625699372629df65f743eae1fc7899821f796bdef83a20e29f190958f07d6982ca1493fe68392d2ed30249eff25b05010f6430a677b93f06c5a2fe357b800dadf2617a506b05583ed4d2c9, 0x191095b64349dd7bc85a07bbb49105770f06c6fd75c24e5fd52a7f65a4a613c22cb485df2b83e259f3cee1d8ba7bab0ba7695b729152391cde7d6b0af8ca65e114372f38235b217cfc2a9fa42e19ca8ddc0f370edf87a9015282b7941ed8c57a, 0x1dffd13eb4a6e11d3bbe69f4cd7727eee84183f7b357b3bcdb7beda994131cfa01409da3217fc8dee91614a220ce7e500), (0x375088c0c9b34e4406144491ac323004f2bb9111aa3ddecf6bb4ec5dbea9348f2ba00051a60a300fe913743eb85b9aad, 0x530ce8d7f30e575b45da819cf0fd6d15c150aba40b43734572677cc422f085135c2627480413b303a1ee506d83a7fcac, 0x97a9c7a4c2f151309db8b8a4c3ecda50433d24e80701237289d8cc089d0c5e8d3ac1ce19bc3b91a416ec9011c5246c10));
  ((0x1d8630bfaf3468e823601693aa5d79faf657c8b6a809821b63f270ff1ff02884b15c1314d71606bd807e8fff18c37bae7cfeb2520e06f19722bfd025f7f255fc7e6dac220d15a5a73b09650b9573b0f9680e491d1caa16fc3937938d18bcbcb6, 0x1af539945f679b532279875e9ac4f273c57ad64dacd73bf55ca8aae4e76b43fa3cdbf42cdfbd130a4567b77014317b4542f8e1e752e593d8014a4d1c256ea765c7e22884211c69b0ed0e7f2cf5bb179d2b3e47c18def53c916541f82a3456de7, 0x16a08ede9c7c236dc295b3404b89e196c7471c49cd05737baa75aecab29008daf3c5acce38040d0f9a72cbede89f54b76), (0xe3a263bfb6833e4a0dfa0bd457df84c4ca6a939ba7ddab4f5e8bc53e37a1b137373c25807738ec07efc7378ca5be2d9f, 0xe6431d7f8fc2e5933db92631fe14832edfdcebbcfe13655f2d394b2fd97e0f03f09014adf6b2c909935b6d36c3770edf, 0xd0cb28eeea3d8e8490dc03eba512d6e4c525aa7e25f44d70351ce06c76afa519fcc46e9d44f6ef1117eb35c1e2b62fa6));
  ((0x70b1506920e3ec4d48dd64270e8bbaf5cf2959ea230133c2afc46ec5068114555232e1e8098c994c14348032dfbbbd618aab4c315ae46cf76ea7a3fd4a007a7b7c159336793eff4216ac765aaebc4dcfa926674aeea8bf09b011f513011b8cea, 0x3317c4dd5540a7ec1b99f9003567109d046b9f307b82f1a8e3c9d8287fbaaf3fcf2bb8ec429fd3e39506e7d8b89ebe3b22657cb6ad4e2d6bc1df5e157756a4acc9dc86b7b98e5a37565d20ff3a3d1b3a85401574777f6cd992a34e68c1f1b25b, 0x4414e2441911334e37166266b8a44e541477f780a9500ac03c37c2df2936e3dded329eda03d885df89c16fddab383f31d), (0x6d04f9a205e875161f28d6dc227ebe95763333b2cf0780d6f48fc7f569e7435cdd24c5eb850dfe7f5dd25caef421cceb, 0xfc9f83e34e57e47c84cffd3351016e865b9b697543404efd1eed6a69766dd10884e0786905d042b45e7d47793e0d8139, 0x2fcc55daada6e156b1af5c77830782378a973d4049f8b8daad9ba21516fde257cfcaacfde5e5ff28619d70d45ddc47e));
  ((0x1c4db29b334d9d0e79ec9cb0804dd88f8a3b3d8743991f78477c29f1d4b258c46f19a5ddabb2e6f278580579f5dd7ec2d87f5d17fa9124073d91b966f81cf8243ea6aeed875855b4f34a9ba119074c1cf12b91de205a061664c90984a62579e, 0x2ad785bef4a5ab0678d1eb7ff7b20a5647988d06699bfe15f2e66e7865855ed0b2e23c70b5f183e6ed2cd3988801bc0a5a25c9db6c5e4e569304e1576d0f4696152a9eb2d4d761669a0af6b975730d62e54a9175cdf4d933af4c3fb53797b, 0xfbf092d7e6aaa60731532c973a18d19df78c07e7323849539b6604c1ab738933f4aef95d4005a82ed03a1bacf84c26cd), (0x46a975f914594ed545bc401eecf9f330533bd5b9eb114e7efc776e201213de1c257c23da1afb21a2fca4efd4e59ec517, 0x5bea29e79f0b3adbcc0fdf2f0216f3857eb0d5bf259321311d53e396a077c341d7887bfed04a2193450361441ae938b5, 0x8d28ee39f73788f864fb78902a7b82e5aebf9590362d414d87fcc34047807d347acb62473611de262035b4ad133bede));
  ((0x1e699940e92417571ab0cc5d9dcafec68cc6518984099d8e958165658e6f2ac9b7e7a1ef8118441582153de161f7cb3e8178799275db3abce38c6184d4653c6016b65392c82a7878a06652ac99b2c37d11afa1c4c98e645512881c8b948abc9, 0x175a723d719438152959e272e3c06f30d8dc9366e565311c8323355c1495b0618a41432c43bd1b2198c736f662ea5a7909ee1325f8e516618bce468db9d306b62e01cb3be24bb6a5f80908b02169f22a2e22c2e62be539bb01b925e25c5b6e, 0x26c8a698f833e0c449297395a1eed18614965b16f135ffeddfda8448e016454c80507fd6430adf8cf793def65035aa16), (0xab475af80882bd813fcbd3ee481a40da87a4a64bdd2e1846a7a3d68b06964dd459f7b12662ca9eda5bd72f2bee6ace9a, 0x9a1779d7cb1f36cd96c79b1f012f48e2dfb69d462a9b5feca6f0193948a1f8f734cd94a4a3766e3b5c470c079b988bf8, 0xebc1d0bf0faeb033f0b6ce0cf994a26c695ab40290766d4414312203c8fe93456db252470b987f4d2ae3d0d59f9c2b7f));
  ((0x552728dff56dd5ed9560993b4148cb60773103cc590646f1fc884b039dd407238b3a8710f0ec3fcc1dacf76a2c9376a46d3f101fd9a680947cfbf160cd885887df1b2dedb474c728e9f6d6bff95d9e627f869ce0bb1db22ea5998ed9e708941b, 0x4124213ade88616dff087a5d010e2336e760e5c805033038fcdedffdd9127c8e09c2b1050d89686e7d4c431e49023df0323259ed4267e708dd29d751b21773d816797662c8e7f8d187069aa1c8d8462633fd6479acc54e1dbb9d754f44d74e2b, 0x42390d29e7951b6cffb357995fbbbd62b85eed5c25a2006628250b9a570421f21a9ba77cecfe2a6803db8907a63c0f20d), (0xf70fca6776e5906548f54c1dd35697873fed05515c02a09e87dc27c610789b42bcdee9fc16ac30fa8a01cbef007d19bf, 0x17a1a887deac34bd6c1567140f34a4668bc71ecfc6726c72250632a2c819f382e81a07ad678aa92aba399ee79992c9cb, 0x8a316b7cfda44915430a676bcecdd8dd629f0abc57b6c74ae064f2d8be7c97a06b7b6916ca1658df5913d10c225ca61c));
  ((0x7a79fcecfd40ab748b5f7510388a51a4bc7efa9dde6bdc90d446b9281547c95eff7ad3bdc1a954d82e98ab70f366f1a3430c76235c6936d8ab6ac73a712298a4fe969877f3a1544b8666fb62ce855cf0e815e28748d4902d0c74707adec4ce5, 0x1661c842275fee7be3410d984a448e7907f80bfd9cc8ab34c968b38ba7428548cb798a86d31648d46142c636a030743e0e7b587e5c66cb7f582485a3704c7d0ecd7381be8b80c524d82d3cee1ed953888e7ee7a532e901887f99125d93634802, 0x1ecb6d0608d07593339a18099d4e5d3d295d5a7ab5ddadef237a9b9993af01e70694abb60b73de3bb4013a7c58bcc1319), (0xe78e087e4fc81f7de727646987369d142ac630e58cb9377b5ff5c16e7784c69f4628d0a01481acbc9412a1bbca1637e6, 0x6d6d7fdf95a649a7fa0fa4940756046c20e3cbd2d0b4fb855df453870106fffb26de8477b573da2d8d1858e710bc524, 0xa86d15e30c30064fcb0bd85084d31c5dd8ee30c864cbdefaa47171a0d4f05d734deccfdd9d63b013b3bda4cf522ac90a));
  ((0x2b336ce8331ea19f9c0490fb71be17f05cbf442fc7b400193710350778c8eb293e837afb534ff5ae5c787d663079c1e95a9de76e1b65568ddafb5a675c4a81b47f01aba56f174157d79416dbc6312a42f008340ecb491cb9bb0c9ebb45bfe7f, 0x213f141df07b1e9716c5a64bc2b90a32f293f7db4ebb48d12e1483fd5aecbe4ec4519aaf0651c10184aff467acd27f3291d382b29b157c088ed31e6350ba2cb928ff03c941aeca1fa60c6be5eb11cd1cea0870bd74aad1bcfa010e1290dac735, 0x27d4c99bfb7c7a09c4b67a6bc525a4e980e267b1d361e4ae33c72b239b39430b6ef02d123e323c6bb36b9b2c3f1d29b0f), (0x1688f3b9669bf7bf1fec7b915084bf2e5d9140f63206cf4825013fd6849b06f283f496a445ed98b95677febbaa1a9e23, 0x13ce219bf8a75e3a6318789ef975fa7710d10cc04c8367ee9d0f8e6c2e7f270e16926201b705de7220347912e7dec295, 0x8c114bfc1817e2e5b2d91b7403de1dd3dbcd3532fd81f684be5c2779ad36b8bddcc1b1c27317ebc64ce7d9a09730af43));
  ((0x6809c36877a3d9c4e596923f08d8d3f6cd79df18043cb3aa8a909cf834e46d135dcf111f70d961e70ff3f0642a1bc70ca3272cb890e7c420a5fe07f587ffbe9c6115306ff0fa39c2256526de644f75abfe9994770b17c4dfcc42248e003f30c, 0x16fe479deeef7c2d0442cf585bf8a1ee198539dccfb7c1b949faff38c4cc9939766a5c61946b1efd7e795d06e837379dec6f792f6329a185ec1f924ee412daf28028edf416b824628555666c0c624d0650f45b0463afc3d01ad67cc5066fb724, 0x10019d9efc30630ab1428544a1101f523fe794355d8e51c077bae90118611f8bb3befdec979912f71c974dbd9fba17e56), (0x274fb24bd4c42b186fa35b9724a7634a317ddd122060f095e481316d2ab133fcf0ffc759885958da5b3b5309a99081b5, 0xfe26cf7fe76ca0fa17dff5c7f2292adf4996aab15dd746ff463924b620871eb66f57b1be387fdd2b1a93823ea3003d6c, 0x19f52c7024edbd377c92a87bd0b2c45460c6b99ce54a3103b9afecb40005d2d45e9405fd77d4e9a418d6d9d4a68c4bfc));
  ((0xf76b8b57de1de9295c34a104c788f87ee08bc34fb15369a538df50111c5c895971f9cbb038b1e528993791ed4b94a0f241b7dcb35f49219ea598b969264c907ca469178722c59ac25b580edf0845c4cd1159d10ac3a7971dd41e2d146fd021b, 0xca295887efa36743e5a969ed06f31d86386e548cbd6414e1181c8830f3673ef886742fa9396844309a3f3eee2632e7775088badf4cc770ab8685ab62cf3b4e1ed87e7c0968e5ceace8cdec120377e4541f6ff345a9bb5db1d421d5e8ec30f7, 0x10c2f4f1bf531008768c6e451ca86992808515b6b1b67e88ab2e46a4e23269f977b88304720b5a4c7fe92ccc5825114ac), (0xc7af06971220d198f4ea8f3b0d9a7ed394e50d8ee1beb2718b4b574e0bb1a6f67e0a26fc3c00dea888766a4879615614, 0xbd870864d8764d91d72fcf24e0b0282403ae2e4043a845b7507fe5a5df65e2f1c9240adbf5020e526f13ac4df0a3d28f, 0xc297d9918bb0971989659321cd3f9142b73352c35074b62a4c5e0d748e1f19a42fde2a17fc81b3261ce219783a0e04c4));
  ((0x5672b78059443f8512b04fa7e77e9b67022a14f4c830c703ef0d66bc2693d61c700e8ed1c196e50faf8a09065d8fb6aa0dfb6886c2ad3db7482c6b72f597260a8d97ff9f988ed8603706a204d2ca2371cc1e5dc167264ed23b4ac46b3562cd11, 0x2c611d06efbe6ac4221b60363199ae358fa982a0c737577a673758618d759c4e7edbd1cd8af18e207ed5dd35eb745654c46466dbb5f4b0e0f5e4c5199c3774d5f352edec43a2bcdc2ccfe09fddd62b0825c057e153c8b41dacae42e95d752ff3, 0x377a252f83647350cac1b5b91f3294b1adec2c1effce2b3767b444eeae8de015dc2c15745d7797250fca18f50c669e34a), (0x61745f5242d1c7a2bfcce26915d96ec0dae8a9b6c78475d1c9a7a779e6077a306daa1634c79aae687aa386a475eac621, 0xf01f557987118ddfed8716aa00f94874ee6610eac55ff63df8b5aa6532e93f76685a23e51842f6ca1b1241afbf338433, 0xc5aca173c1b122d24a4d1e7bd6ad5793d3b32c8974ead974ac350a9b1727484c28090ec66b2615ae0dfc60e218335ffb));
  ((0x6f4289f35ff571a867596d1eb455e46f79ed0978f26433dc946959e9d79c4398d4c0ed0f9b49d11f6486a6ecd730f2ae21e130ae428bc9d83206098c1ec37e2c2537105d1eed6aa35c8d30855f9d6f4b15b9e182f496cc100bf2dd6ff6dce4d9, 0x2dcbbe74eaeb15e321d29115ebd5ab70a594d95900d46044e5f589fdbcbe695e42012245d69ea952047c02c5e53bc23f9cc74cfb9fe61d259c9cbcc9a4d74ddf6c121c2b79cfea5080b5b7c6530166d0dc5da70285b2d433b9130623a8c411bb, 0x341a4bccb64f2c0acdbb9e4dac381b8095cc2abb526f35524a581ae612e59b820c28cbb668d66678838b5e891ca25a23d), (0x649329e23294a5993d1675703bc10441c34985668601b3214bd47bb157a33aa0357b88f599833db8d0888a51cb4eff3a, 0x12ba8d0ff9b58e9d1bd38e9bf2917079bced7065e3d72f319c1c9658666e716c7f48a0fc2eaeccc10d10c7c5df3a1b77, 0xd4e90d75925e7b4df537791ad33c1e319d911c462797df9c07feb15d306edee7376f45241b99186a1bd6a718c54a0767));
  ((0x958c47dfa23cfb7bc14673937d3129abd6b1926e69ce3fbdc8a4d5ce802216297c2cc58b0eb45cb42b50d662a8e46b60970d3684bd4535dcf81d0e4c4fad17ec5d3229e652ad30d30ca2a9b422043e5d457ebcfcd9da037f16090225e2292eb, 0x3520a3bc192260049773652df50fc1543897fdd860af0b68bd3e664a91ed13ea256dd1b6c5328b32593e00cae157a3059537140f0c0eaa0afb0f1c8699e96dc4f2e44a49c4d63c34ecedaa88ade645c9cd973f3756bda991dafeedf30dbf0104, 0x2bbe216f86eced6a56616d561bc688e3c9113d5850412a2dbf95f33e82ca8e57947976d8dd2a4755bdefc14cdb090f1a8), (0x83b0ec161697e7ad29266522a97e55d04690712e1bc8f56bf25924ad45173c9072c9e0ae632ca9f5cb381b553fd7522f, 0x575a6975527b02900cd502970f803daedef869fdd6eceb80bc61d7a072d43f58b72445cfedb9add514afa236614f1446, 0xb24a98758a143638b09dff8525e3d2cdb9aace3c9b2863a966dea9a84c75ebeffa2e9f448ae917c56dd37df69dc631f8));
  ((0x24818c52d23f5cebbc45a5c7c2417eaafa2a211b1f5a13891be22f689433de10198ae14b5e13266b8592d7f88c6a27ba96468495c8585006c6249c3c2f4c2113974848d30c98fc10d7f4de2430dcd3b47fde406c8984a85fd7a5a7051eb73456, 0x254152961c72232453069f12519d1176ea8c7366022d0f28d5d6e7e62e0a67eb58c6954d2af13441da949a43712c309f8f7a156e0a81e2e5fcaab0207d0c85ca095af80c17ba01bbb82949f23920a18839fbb4db81b6befdac207bf2616c025a, 0x249c0d04e229c17b39e1b288592ed8c14916b193394d2153f9d24b8d392d82434ddc61161ff7d74377338eec18ffe9033), (0xe97a56d3163058757ddbf1abbfeeb9ee3834b12b246f2297669b15d8f6771c409742ac6259fb4efa00de1304c960b2f7, 0x86857b90b88feb3892eccb1f214bc32e4483d28c933327ae006b9ecbe16511420a9c7bdbe2a0290958531d60f22fcaee, 0x1bfc90acc5745a509643a679216285817becec492594aac5b5af5b3a959818b66c39f157cbec45887b1997c496496d27));
  ((0x8d31bb4158879cdcdd660d9c660a0453d66fb80304af08eafbd0cce38b57cb62740c7cf51bab4a4fc35de7e0b27f8589f2da1c525bb1393245f3ea1fcc2aef5e642ca5b4b4ba9419f342d247192fbe6f6ee66a33dde64fc948349adbdc1b11d, 0xeaffab6b3f5d8243f3f96f34c4a1beae3ac5b64ad081ac64e0ead89da4aefdd53e06f045da9c6b5a6e9726998830c5d316b3a1f562d14132fe7c2a6877680a2702c65b909209cbbe58a34c64df7e07ce5a842ce4633534f83bee6c10045591, 0x82ea411a2463af36aecb25823f3263d0ba9f1d3887735392213c4cbb8624762d2cfb6faab9a21d34e1ff281062ad04a3), (0x7b7218ad45a601749cf14993618a3abbd0de2d1632964346af858518fa2cc7ac1cda5898d49fea88eb0523aeaa7ff7ae, 0x569ff607b565adff21498904020841a39391c556f78d1862dbf7db1b2800810cd4109203276876689f9fe68fd586aa71, 0xed2c51f6e9e27c57ff7991b33d7fa5e242dd20277cd56dab1305119ebadbb8258c1f595b67dbb6c54dbbf0a020010afc));
  ((0x302850702b854ee1b69d33c9d60d6994b6a13dd420910c67538996654c2704e08cc1577d5fee084621d009086eff5af6998f491bcb1975feed5dadc2bb5135c398ccf44d1a9a1ad29572d1e2d59ed5b4245087b2a1c23a298d4f3b07f44b561f, 0x41ed0e559711112ce62399597f433142e9acb8a80ecc9ac837319a9571165f3907832a018e19739dc7ec76f0a0a51b0d9c1cfa6abdabdf06822fda7bf632a59e8119d8d1e8c834b79dbf9dbace71789415beb838fc841476b1dbcf0a5dda0cf6, 0x3953d2384b764c1ea15bc0e19377b920c7ac5230e5327c41e8a33f98fb86058f7f9dcb1585ed32917b46f57a0bb67c30f), (0xda931809801882b084263498efbc300c6bd0ea1895aba92b1fc7b37694d8e6c0eadd888c90da668f6334ec30ea8c8fe3, 0x8b092425d25b8e119bd4129bcc5016bf447016a74ed1e024e703aebec58dd874931ad1af7c2a9dd205be8a57bf4c4fa, 0xa707ff8fc5b6b3d75fccd3b555e00f3120ed528801aca347c96ae1aa2c04aaa5aa3b8053265c5d4c1d4f424032537b0));
  ((0x366f695a5f0a9fa14654e7cbecca06309707fdd675263ce0666f68595747a3509b3786a255de2d445ad307cc33c67a6a7febb36889ca0c47aaa74e4b852ec9ea8c9f8e1c4af1fb41229645199b90d8af15915cdcc8da2854794f19146cc0cd, 0x20b2b02d31550559fa41b1160ad7cfd3aa3dcb5df57b40d79ab3d1bf18b2f279df72aee20e69e4365c25b23e33702a4683987164571b29759803c3f404af64204379cb028a7d6af57f60e9bd9dad70a7510f4d85e3f2fa1dc71bd66a9fce7a, 0x13660e598160b7cf95c12014d25e4afbbc1173f60bfd4be19fff4a210d46e892313e70d8e646ed8a0cdef85ee5925501), (0xd2335609bd8ed69f08b527c7a310082344e7a4b68b9bb40d77015c7f639129dd4a3506cf8e7510075dc9a9d6c6972016, 0xa37bbb0708a8ec6ebb58be0ba57a59b08cb91115da7dbf36c47514b0bdd8844cef7105dfddce01a5551c8a472935c916, 0x5e4f7def46aa5b1059126dd911bb076e3db97582c80cf2dc873f75cdf77c5495bbb156379cb16d6fbdc2077bd560c645));
  ((0x2423dd8b695f7b557db61fa0710428498719320492e8429ba083fc0dc7d305659d875dd2fa7a4d52afa7ff92dd51f5b718a43c82f6f7b8019709df62c2bc4724d9acc35f54cbf8ab164ac74fb773abf9414db1d5c086005ee2e7ecf35312b703, 0xa6c9d84e46b37b6c615e883630d1691df8c51e7b41840c4b77fe14cb96bc760b3cf4ce11263658f75d9a0cb90ddb2cb293d289dd9045b65136aa96c08b6db7b456fba0aae58853d34906e068d28a7978af1f2dbb5caed9e8c36c36dc3ead4bf, 0x16b8275259823601cdf4d0866ab5d6d4e6a1114d98baf365e810be45b608a4cd68631002faa299cbcdf4f7998f2b7403b), (0xde601f6a7ed6659f10702f190df7a149261249c5e0510337be69637b983ae16e3e247263ec5848c61a91da03708f22a7, 0xa34632e7f0fe44557a3975717c1372bec56827359a487129ecb03ecf31d138528473124831497c441fcb8104373564ab, 0xaca26a5c73670df3b6d65431af9b84f0a290fca76bb6f3c53663306953ed917ca64124006255a33122c57097bd4c8dc6));
  ((0x4211c88b1f00e8f539dd58aa48671e3ed5cca035ebf451c32c72425c584426b7fbec41ab73996e8c5d446d291ce2ebd6e7983858fc447bc93f08cd29483af7338132f78254cc9eb1eb52e1ffaac661421e20304c69d5847e08b90a93cf031f6d, 0x22edb5d59b13a1830b48404f95f581f73b96f02a9773660477b820d8119405a50176f675e0dfc01d00e700beed18bf73a2634e389c1cf580e592febbd1a9a0661eb5a7da3b8d7949d6e165f191d911f0f876c70c3391a429e0719338a06dfbac, 0x2f14dbe9f5f7b7c0a76cdfc628f16f4d2cb947731df0f9df42e6eabd9ee71273a1369ace7a0cdfd9bbe8249ed02eb20f3), (0x7e4e5cebd6167cb244290dc52fb3c7aacd3bc1367dd7942de0f67c2b3028174f74a8555fbdb70479f6cff7451d0f249e, 0xc9d526a57f9381fc0a75fe1a3ade9eb32087fbcc0c22df0e1b601e301a1808ef4d41005dbf22671e6cf15ea8e7894892, 0xf7b2367d785046617cf45a53a598d77ec9ddd75c0233f3efcffc9cf14605496a3e48c2a95a35880d4d3eb69bce47daec));
  ((0x752ef8392c7fee10673808c832886ae241ca6090194aa4158c7250cc199e3feef10414cb0fcaaec9fd263fe2657844197a6a8e10d3d46656791effabef1f9a80c3e1ea90b676b1a009220f82d3a21885f53b708c6ac6d4e0249f41204deac69b, 0x47e7e63459ca57a042eddf95830eea25b34125b43f2f0087715e844438a21907ee5173b41920ab47e4f53bc45f154a2aa7d40a7ad121d7e0f5850ac78973af49c300c27531a765510543d20de146780cb9d1be6fb2bfd1fb4a994200794d1499, 0x462879dd835d7ab997db892a84ec6c72afa7326e4370b0711a0773b53b51f30b3ced2457ff0e232c27c4776502b23c7b6), (0xacf75378687e628ab64a784fb71088250926ae298fbeb9ad4f784ac445499ce68fac8c3ef30b6d4ec60d3c79b2e3db1f, 0xbbfe0ec2dd4e713834c529c040bc0023b161e5c17f59dcaee8831ba209270ff68175a60305da7ecd3fc6ade236b08161, 0x10b0df1654c3d0c876706afb93527179b58682bd3923b2fcbb7cf38e47821cae9574fe1262d1a099abfd71394c4332fa));
  ((0x75ad9d027d4d4a755d3396a2d635096c79a77f2bdb67560cfdf85ee38b7a3baebf85195ebaacadfef080effdeedabeeff516d756208a969e57229bfc5a2e7393723b71f73356fcafe0ee4ce3fa1ad75b9750b90e1fd7c4d555236422c2454aa, 0x53959e1e40b97277cbdaf54a11638ee54fae7ae52acfb5749f55de2931343e4ca8db79dc01020b1cce4eb1619ea60a85ad04dfd0c4a2380140a8a6646ffe6b555aa5a190bc0c2ca0030d24d3e8a39a7099daf4337dde80a3b72d57e1f37b6a, 0xa3ded3ebc110fb095bfb1744b3851d6a1c986201b94e66287fa68aaf52c17f03444e0dfb9f74e15f96134d94c8a75b2b), (0x5e02db777f3f39ec6e35c4c1f4850c707db79a8860be91bde57641a9093cd6228ae2b69ef5c2a26db1280bc65d6b3dab, 0xf805a06dfa8bf8f13691f789ffc1d09c6b9283f8dbfaf2bb08f289a4fbe6cc63c8c5ec6f9b200fa97560d84632fa3d84, 0xdc960f7bb3d4370dd2fcfe1f6d41e61513a0c3dbec03ce888ce6d35df147c8fe911f6234997ccfb46e981068d74c2ae4));
  ((0x803d7e76f813386c3b638eb0a129557f4b508bf4b599692e74d8e30e9167f0fb66e8fbf93312ba5dd392e4f3a40018c4ea445db63e29bfc2cfc3bb1be6e2021159e57e80156c4568b15f1c2c7540ae6a957088022cc00561cc1d4ba85aadc373, 0x3906f92566710a4de51e8cc2f987eae2a2ed21fa7f2914866d0ee42bf242c7d8bd8aaf457e77f4b22c21c5a720b323f3692de9de4d2256d539d93b08fee5fabe6e2e5f032116649e2d1dc37fc1625e29e3f6d2839ee957cfbcf8120aea49b765, 0x3cc84ce9aca7ed22d98cb90575ce71297ce09651fb1ebd3d246e48a7f17d263402e7e4d21acec6cf1e7ac579014fd5463), (0x1bcedf992d53e531f2b4a0e6642efe128f2553a9c5ea23cebb1f9166ba567a7688ce5e360c5d8445f40187ed0da285ac, 0x7c56320ff00a77daaed906061a8e79068be4e72076977f175f878187e4a33ef1afdfceb40c85b1b2df1088fe3a55781d, 0xff1647c2eba8f3603ecaeb4489fd1c2326d860fbb25f66261c3facc1c2edcfcc0febb073304d0ced457a600dac0e463b));
  ((0x4a57f514945d0446ff624be84bb44d96ee4b48a39b9fb6a3ddfc61e145107bb75582d9c2f23f4b9c89a46890d16feb2bfc40a513a935a40e64269d0f00309366528d9561a9ae5aa73057e7c37b861144355fa1604846a94aab14b881841c0fea, 0x4c42d1581056ed8a7543d06871a2b12a85d2e9656b165da0970b84162dc4fa375f554949223d453b5be40e303b2297e829703df0e58740a9e756d8b3edd38531ff3cc8ce6b2fba260d94e2026fa23b60cd192b9fe7ff87ce331fb93ce0a32f66, 0x36e56c4d1fdb94c30dc46822c493caa9d060f7c88ed8043c36b74714bb650ed986c6bbeaa4ff9a7fd8bb45eb4d17e41b7), (0xa1c485d5334e8044656cbc74be5209ee9486a68d4d3844cb1d439f8a5aa2b639e3b3cf936c84a0c371d3f89be261075a, 0x7e813c3940b3be826d8089582706a2b58ece089762a131e688e9fc092de640875e3fbf22ff779445c7d5e2308f86cb08, 0x46f637c23dd7d7677fa41a0b53b0fa4d46466321330d28a1df501bcb5d2d21ad011913eee560bac20529091f7181713));
  ((0x150ac1c2f76b24fdf64d0e275009802fd78b13be3781bf0bcd232a861c0ee1d52f6f94adea2b41647ad7d773a1db4826fe069992691c55520f8aa2b93028548d36e823f0fcdf20e65597ac13e1d73e98cf1ac27b83ccbbc166ab68542726804, 0x5e6d3cdb24b2004bccfd89f622632577664c0064f607d8ec95cbe40140a7a4ab22502e50707d53bd7ceccd80025be0ed8760916829e23d5d07e1bdb8a64ae03108c246e59e4ddb481a7bd3a5afeb40567d264ebe9bfb36b461ea13dce0ee1, 0x445965959f92006109a462a95d795868541622b65c3614dff80650bace4a2f8eb3d10d412ea23671c9b6d2781825ee96), (0xedb73744ff7fee095a2d10d54712746b24c4aca1f5ecba1550ab9a9d40cba3e14e94b21dd4875baaaec3588364bc96a8, 0xd8f333bda59771f4d2b76cd6c0d213e022c26e6c27c7d3880dd5b18b243df568c86fbbe5a5d188bbdf2d20a468280da1, 0x726b9abf3e1a0e0a3a776296d4d109b8806e5b24b6e3a8ab16308536e6beffe6aec1125dc253fdd4c42c37c74b12246d));
  ((0x3a2f9eda2d1964302f3706e0e4d31548d0553dd4fa470c4375594278ecc69058f4cd654183a02adda8a9e36bddaf4f82944b0cb0c832472154463566517ccbf3c98af9b9451b595d37b653910c296ef6ef299e8ed2417cf49c2b05f703281ec5, 0xf58018131141826cdd11405561f05fec8a0e95ff6817538c802376ac76a403893cfbeed7bc46edaad48c17b07fda6402b883926e203018d9849ffce352b65062423d7bf0d2e2c58a466bd4d703c8dc19f2f8da5c5a6fd08312d95b2d9c16a7c, 0x225c65b47b288793daaffa40571fa73e159f7556e4f4e96847b913a5e34c866afdd6ff68df6d621a3b1d0b6e226b3c861), (0x56f7cc84688d3ca1e08db621729036016c1de9150f028051e3d8644f5697977e1fc65b0887bb9643dc75a5b37fc240a5, 0x3eff5e176bce2bed9e672c74feea36a6093b2d33562e34d8d17ff334b0ec7b447e0f285fbc1e8edee22d10d8e8e066aa, 0xa0a8c743f79e95add74bd21bf3a9c6eebb972c38ce0e7c717b415e829f28fa60443dcf7e0f02446d6743ec99b3dd95ed));
  ((0x17b94e182baacc917a7135431117170240ddb1c9e1f55eb3462e02f8b0b62e391ad764ca9cbd96b30e32701c47d359ab5f06eba32a78ae2adc6ee64265496691f69105e9933965ac51b5125a00c1bad150cba38698219463bdbea632c5297487, 0x1e4037277e2833e2a88de4895c2fe42b6af32975f8c5e658a02637448f0e7ee54f64c22f3a20accd921abb07901a4cdc04a221609678e78967e835ae83e21c700172d4d1d7b2633b61a4ce78992c79d5a51801f87b2ba7ea53941d095d5ae7e2, 0x1ab2355a6995a5956e22934a7c531c1da4eb9efc1323178b81910439f28cfce767c58cc30b2c5ae280939e454627f4780), (0x96a9d7431838695922f803f9aa018fad2f9415b824ed1d20f987ddc3af70638773b3db679f2f6e58f71900bcea011f20, 0xeaab6787d4ff4218c3652f16c551cade20b4b42fd8e0785d4f8a05cdb6b534b98d3c97455b0514ead5b8a3ed288762e2, 0x9c1d10a313392471f9ecd5c776c918097fa8fd77e4458de8832dc886f475b08579207cf045aefc402a0b7ad23ff82c21));
  ((0x55df4ea3c8c24fd545cc655f005f3ad41e508e720f17ad4e55df144a366cc40d3c44729010e1f51d8c307c0457b2bca3c403382052b66f3f63aba3312f1df0fcdd1cf280c684610bbcce722d5ab84cec415340a683ef997305201612d4bca1bf, 0x1c902dfe23bae95e176822aaf6a16490815b7972551b0154b91b6700233983b9ae2e15d50cac541fa7702c03fb50593df09ebd367779d6bb81cba461a0aeaa5ce20b3307f7f915367265b644d3d3212d35315638f4370a8f10618dd97f4fe194, 0x2ac794f2c139f5c60d56a80176b097aae11576cf5ac622cfbe43fc550be6031a510240565e8cb80838a3118dc89f11ebe), (0x5be84ccd36fea137d649886d978069b7c9d858ca07bb4ec53062373b63ae45fa5427d599aab8cddee251b244b1a2ddff, 0xa1609ed2b27df26e5b3eafb64b3ba805913dc46358efbeba213a99042663abc9862c866a030bffdad7a001251679b9f0, 0x2591c80863dc51a7c49c38fb9db0f79fe454ae6fb799704d81143559b5adfc31b77e268f335d651d1467e58ab01e0945));
  ((0xe36170e091151cfbba7cfb34ce7353a97e62fc370dcb54b06b6ecdf7e7cb5ee5cafe72f084b56ba09b9c36b3830b145b9022b06ff6273ef05fc83e238c31f45a961b4b48c9fd09b9c3b8ac589ced48bda1fc3edf347f3bdfcde395be59d88a5, 0x1a77b8e0f653b4c387517ff6fcf1367e11c4fd49d4ecdfd41150891fdb94a935876d3fcdbacd7256e9397ab8761cf5610189adff3f29152fbff540c91a644841b6d892427fff7844b719a5873282d334b7d3ee932c0eb397c808fa1db68076c, 0x913ee3bbbdac04b4968f280fb347140c0a89a950a941a8856fe8668732caab5062153f269eae77e739ac99b58bdc23cd), (0x50ac23a8e2949a49341ee78705f3ae47a4283b89ab106eea3aca5345263138caa47afaa25eea19f2faec17cd6dd462a6, 0xcedfa49df7945cdd116d10b5228cb8b3aedd13e549b2d28912f58c344093356436c18aa1ace1802ac99a5c380d93c3c, 0x665d1aea61b4d73082ad83188f7be82e7de9bfb4a481c638a22850da9a173a47b1f6a6f847f6ab1604418af61a7a440e));
  ((0x31a31bec0dcd1bd5a4cf9ee656a4d6bcd3068d60c07353bdd06a025429ae1fb10e2b2336ef4b8d5b94049599b422d88f969a747575aa12f0d3cee4ac199574c5f8494c54d2d0848e3275757efc96016453a634493ec4a2bca70be4ebcd90778, 0xc47d1d25209a4af344562a8c7b8dab41703615824c36e7657f455d68ae4eb1fca461f7017e6a3217ee04584414849932d41718148c3a85ceb78c40ad47aadfdd3d258423c419bce45a170c7176ef03c4d9ad709e9a71402cf05831adff7d6d1, 0xbbf6011180291b32cdf07b14718b5572769f8245d954d52813abd790ca6ab8f342a983fb0dfe0625ae757fea3163fbeb), (0xb6072660a1da6523decd91b88653f6d45bc6ef681240c4cd494ae75d49cb459b73ebe5264841750e1b18ceaa7a49c41c, 0x19dd900b6641b1f3d36de28c82597320b2905b6b3a4ac39db94805ce8092cc90f7603d0b9fda484073fd2d16b05d6891, 0xb04eed13bdf0d2d6966750d84d649856752cce081c9bcdb4274d60e6f85b65cbf396ecaee99564dd723b8baa4971766f));
  ((0xab075a491aed6d6d5d8bd9ca762daedb80cb5af4614b66d84b0d0f1f2ab96934353f87e091c7a10b37422358a81de659ace364c8bcdc7c34ab895b5ef8560810400b00bcf188013140084df3256d2033a21a43ef35c4c7592307d39c29a2c23, 0x246e573954aefe173192f6cfbb2872ab5d702974ac1e2ca1d97eb2f1811e1306846447b39485ae757683380f92371299db5eb70ed809a8f2bc87de4227ba6049ec89725bcf2c5e4974d5fa377b41b86a9210f37ba994942cea6f46911def2b52, 0x2699cf31b3aa0176727b5bf83e8a87ad211209e3c9fa4d9549a7e18912d991fc3f644806e805fa2bcafc10a5c08bfe2a7), (0x1b4661522d72885ea94cf98b3843c91c05511f87117380e0854321365943edf6d568fb7b6a8c030226b6b58afb17c113, 0xc8f9698df523e6159da7314d88480d9cf052b7375585bb8a309ba144f51d108ad67febe9bf2235fa7a2742553c51d754, 0xd9a4478a324e917ce330dea048fcb3611e88adfd42eecb127885ee9b29e0e88a19722a92d0281405fca728f9eaa37173));
  ((0x6686eb397087c2a8839b5eb917deb17eca8247e439f77516de6d9d5f9cfe6f1648820bc5a9ac32c4c9bf5387c4c324a02e69dd382725ff3dd91a863045f9065c8d08529d4ccaafc93f9265192bf2811cb94ebc9f9302dd89cf6d42abc1319800, 0x3783d4a26dab852c5c0fd4a5da8789dac60be93ad8b3f23eb15f077f97fc1067b17a80b5d088205478ee25e47339ec99f75662b89883b7b32ff2f58a90bea2e9c564f5b468255fc085a9a63a8c4b41a149802ec511c5de88131161c41c0d7747, 0x2f73eba70e2a6aa4232e55dff976c7b46874a04f9a12c24965e1b366a44125cc3c4d9c02d6aff7b6db9f06a92f8553bab), (0xcf470c22a4ea9c0d817b200f1a5193b6ef19e8d51d0d41d0481e8ae7c2aa1a01f8239f5631d239d3b5511d40259feee9, 0xa5fa60543966fc82d5998b4758e248c078b3d5a6933f4cef0c38c5c7c2858e261adcb92decba6627e5f72569754f25b7, 0x30ff606a320c7ed2150add64da18683414e9bf1430e4fcfd551e01d047a6163b3d146beec7b051139c0df4e02ec1d948));
  ((0x131002eec0a3ce0da3f934abf6ccf5a4f060aa0bc80bb869f9e3a67c2af6dd7ea21b073a67f9b961f39fbd8bbf55f433c8187309b6796bb291f026af69e76efd4ca8d2d3596ce0e5e5829c35ef5b77709d6aeb783c402fba2a367a6fb1fe00b6, 0x2d04d5bdf66b1d909aaa7c319f81480a61c5f867519c9402ee07bf04facce4c575c76d7d5561dfbd64995841e8047b80d790bafa581d61c9b54660528718a9e1b58d8576fdcfd0da84b5e31e372384bd8e69ec46e2e628dab80b1ba4279cc8b, 0xd7172e0066835294f2be36e0dec73783385df8f31601773b45b06c4364bb06b6462caf4d4fd9f03fabe5cab27a4fc31b), (0x55a9d30629d4ed96186bad9c67ac6c1c0302509fda6af2491477426f8eb1b6fa83622726fcbcdb6210d105fa24b50fc7, 0x48e43cb5bfa6fbfa35ac3e50f98b1a4c43cda35aa6890facaf008c650c32abd238c658c96e0961817805145330c49a79, 0x1dee9bf05a7d1c755573e0f27ee110474f16c26b72f9e8d5fd6339969587f487b6437aed0b6fc0ce69227e4f610fdbc));
  ((0x51d3601c906d24663ab420d162ff9d187c74dd9e4ccecc1367a99fd9d3eb3692a65bf4b4f2587065a8630cd2df753dbacaeba61ab513b1dbcf8e30351c828e63a9f0218e7a9a3a40ecea46c21e088eca9eb67bc6ee5296e51c553be6752845, 0x10cce5de4bb65471f48935deb313a3c9a48e137c4ac90b84a3d7e1300ee09d5afd815e53399508404f0276dd0f5cb1ad346a435bf6db1921ea6d0408a4a34d261cf101b90c5c07eb22cb8e07f0c33c2be477be149d8e96735b70dadbb1c02, 0x160c300aa29b7758e0117ebab8778308a0d48ba74c4596862df8f860097cce1fe87a492516c60e3dd2e8c8fa96906a09), (0x873e720eef54f842f7666d07cfb17f11a364ce67016edb99d833a9fde0851bee88db41abe91ca71f5b2e4e77f89ce876, 0x5a019f515fecde8b91d27fe99c520cb16ea230b80289cc53ba41e53475c1f195dc275ba79f5ba7cd49faf4254930648, 0x98cf9540530b329fb06b9ce52e6b1a3748405f4d9bb2744ceb86521baaaf1a96366bf5084e1133967483faa41e041fb2));
  ((0x203d369f3dc3c59cb1550a2c2688016224c08cfe3af953f7fb6035ee1826aa986c7ef64b7e710a1dca18004a310615830f0a27e1f413333473e70162600eae006d5d2b5fb32bdc01b1e3790b6ea8b3c4f2df491737ea52723c6a1407dcf0a1f, 0x1b5e10f6237f5ecb38b5652a25614f8dcd518fc856cf83c1c10c26bc9983b361d1f983ccafa085436bf9621b9edc2db5c1e9676e94113989ef68c14a5bac9478ee816efb501b36c83b11ea2251230b3862455d80d9bb9454d340fc65dff53dbb, 0x1b33a9df226e885c0062821543017ad897a75fd8a2475ae2b82a5b60177acaa7f5cc9541344f2538b32486351334f7f19), (0x9212153d05b4b9c6e9a1a3b4981b87ee36d791397ad7f1674b7731998fe7c37d9c50ee4620c0a10aa62814116e8283, 0x2b1c7f654c5f327e8c06425a8676ed4e0bdbe1d6e173169faaecd8cde480eb6afd5fcd8272d9e82b9bd0e3a68eeb9cbb, 0xa039bd32892c18c6af1308870d7a98fb27488d3b82d08b858197f9be48657134e9a839e07efe044d08a21c327ccc92bd));
  ((0x1030f1f9898b156fb76e8d96933dab373cf6e1dd0f96bdc445bd20f3e4e0246bd6e572e339176742bfdbb1b3e82a8cdddc02506dc9d62b14501791705beb86b13cff714528c8a334d54069f3331171f8b9d92d5ff4bac1988f4020a98f3884b0, 0x1e1674cef5c78d254cbb69f558909d495861084561a12a66304a716cf8c8344e5e514893ddf80465b69fa74accbe599ccbb8f9528b72857c5f29ff0773ce64cc47dd74f27954417f410dc0d52f031bb8888111984b399eb628d6c3a554ef879a, 0x134d21b058eb5358ca7cc3c6d4beef406f814bcb63e32eca1ecbe2cabaf1e01efe0b6c712172e5ebeda1f6eb165ea2978), (0x14db6002782d38cfb5916451a54bab13563801f559dea9e5b02479a1be76d397f634da0d094ff6ccced4f3b670ec4b99, 0x8a17f29ed4b22cb17d4ae60058c4027b444fa271701f3da2e789ade5f0f618d0939e467a58d5763323813c5d0cb5f8e6, 0x72c6ef4629c710aeb16d66a39fa2ef1bf7c67c6564e9c52612a575e73be2bd6fb91979a5e7b28c84ccfb621487ff1a1a));
  ((0x2526f58d1fb975df1522b6f2c9d7106878a2c02fa5eb1a16a18268e9fd8c1515ed8ccf27b0d7a51cfdf26c99a4cc5489f3ff1b07e4c7ef82bda76350129ad1c9ab51bbde2bf5aac6a6d6c372120071d4978162e9306763df4801038ace2bf09e, 0xf7089f0cac40003b835cc0480e74f3294bc63f7d30d935a8f7c37b40d5c2a5c849f3fe626291d49e8edc130b52e1047b5694027a7dcdfbd8ea29b50f0a3257f05a2401bd2f3c05775e1f5a192e3e6e444a4705b1f473764912c543954fa34d6, 0xf792f6bcf6d6fbc454a3de49642addd52537547c74f09d1fdc854f2f5668e9106d4bad404e40648de3d0af2b5414fe8a), (0x6cfe56281dbe4ad2a8695bf7b5833210712302f1c54f5805b565a40b7c6d73eeff7ccedc3cc4807f04209150c9aa758f, 0x2f649b0f2be1271d6ebed6efd2597c509997450c3dbc06d450ebe8d32044c6a450cb251c38de387ddc8fe422742b6e2a, 0x96afaa86244c5bf21910d481c1887b411197f1a6d82847230d3894e3915fc82103095eb2e8f3b1001468b232fed7bc2e));
  ((0x10bd5213894c5a7f419415ddfc034e8ee515e99e08ac210d55019e4e157becbb0a02a94cb744b88c0194da07de1f7e5a94cd32b68f7a567ca317a78a2d8a39ef1c292de3ba55cb4379fd8c2db964e3687605946efca7d2e2d7edaabcef50e64f, 0x1a9c98bbc0782002442a7d9e4fa3d88637066166d20c1784f5fb2dca2d00af1793b856229908d43b0455025ab7db6d11ec9e31eb70fd9cc0ee02e5e4713892113b5346168ac3307e27d6fe3e872963abf7b5a9dfd64ef964fc8c9fa19dae1b2b, 0x1932cb77d3bbea51d2b38b39781a25489951fe6078fa4e970061981803faa40a15d08f71081531dcfb64009294e1e9467), (0xcae8346208cc4a426a215fcce69f4a6960a37ffcabb68f8ce10d08900dab0c8615369a80e11935a729a02aef0f7c55b0, 0x2b2fce615a40339dc780e4c403c810291b1ced0a50281bf5f8d5ea08d3e67bfb416ec72990c5cfdb21443c2fb8c37f9f, 0x5c64e68e7ca6709c5b8f75d316e7dfac87da6cb6fed629e182291dd25ea542744b0dbf301d627c715fe06d615687c37b));
  ((0x95a5dd20c624b7e04ddbd64273701515155250ff490a06714f66ae47a5de0299f30762122e18ecb9527453818df01d9ac16cb4f8f4d5db3a4af0c3f731c448d8e06621065772d84d4aa220818d4728b82d7b01cab85fa813757552c95090950, 0xa0143ffbedb458924712b5075e7a134191df926ea776fb719eb6abbb5047596e43bf76c7f96c168c1070ba4f6e5b519c21f553ba395530a4862564c4371b769094887d2cc6af99fa0d46cc27c183bf326854b90825f75f3b2ea3a2053ef4980, 0xfdc9f93eac5659e531516c2acb14ad909711be4c9703263e384587825a4f95e8725678d1b2b6d41261045821fe552e5f), (0x5aea6101c09b61cebdf4ec18043e0e3f55e82b89e4c05726eb7003c1c85cd806b0a67e9151fbca52b22fb08089740f0, 0xcdf87bb3ba0d478f7c2d1442e40291181eca45ae275b7e580e35a03c0bb460180e7d10df46d16229dfee7c01fef18f0e, 0xfeb5fc59bf9a34c771899cad2a276041542c002cb1a7d99e3483c19e045b995ef6214f21c80c28d350b16def54cea18b));
  ((0x7af9007b424c7bcb6b75d78fb4c3890b0358c9e80321308dec22d68a4d94490bb84339640faf5a3c0ce6735edf7a6fb6a55a2fc311ed72df1311ce96a7d18428cdb8a23cccf4fc53d6dc4d1db360c1f775be90fe1bd0e84047abebd836a0a2e3, 0x4c09489a8a300e1569e13271aa118e204de1331b0f56cb49df290faa90047f526554850aab139def3f08c4ea6f0cf886f0f7024db34bcf3928291f5f2edc74ad3ba09e57e5f46611a0aef63a5be17c83ca7c804988f6c09b1c0d6bf180b63f72, 0x3a94f736314e2c37e6c80d55e0fa66b84a15c378c93005c6dbea6bc681f3a5312782189998283cf0146d405b44cd7fed2), (0x411cf7cb19a8a40782c1ae1fdb6b716d3acd1116f774e7d1476cefb646bdd845d5f5cb6000f5a0e79ffdb177e5a91b23, 0x9cc11e4ad4109c8d256c8d99efc0e6e47caf1d56e2b76c8843bc7ae154d3bcb01d988997436ba3b4b78b5b71b21f1dde, 0xaa8ff9850c0434a3fce61795173b0b92882b93a1327faab19e4884580185bb784a5025e2aed5a0e125571d7f203f6ca1));
  ((0x3eab7bea1018b331df27e2e160f217022029e17952500151113099dd60a3e8bdc2861aebf9495739b9eccd0af0eb4e01d1fa11fdc318793376cff3d4ec2cd9ef890a734498e58d53ebafba6d02a447c26fa0459afbae68e56b250d766ae70266, 0x22185a8f72cc0a034bc5d0c1642d4b5d9cdeb582433fa24393ee4c85a18eacbb2d0972bb20831b2e197dfe554ab728bc91205631ec3abe34ab34a1d12f6c796ed5082dae37a5f92aa9d02e70d6361063dd2c6b48a6ffaaf7682c295408e609da, 0x20baa3e16bb7efaeffefd9d9df216c54bc1010216afed32e9433d3ab4cd9c059639a66ff7fa2ddf1330ab94957e32a6d2), (0xe9ba3e3e9955d0bd3ab637a4b8ccebf9988b0afb957ada0d037013831a848fd335cfe296337c4d744bbf4038be8668ef, 0x634ac1328b9b2eaaaaec3766955b0120805cf13ffbb8a9b8a2ac2e8029c9eaf51a1e771b04767f03e218617535cf9552, 0x470488c5fe2c85097a222fde791f82cd9f0d9de93cd2d1a0bdbc9df89e09bb15ceabc5381e8c1b04fe457c3ace49151f));
  ((0x108754058a98d77aa6fcd9530511e6202bc5ac5fd4462bd0881cff3dd72f3adb46e062f1f7e590022635c8a3c679de30dd31c132ae4fca2ea9b84a30be1fb4190d394546ee7b0da1af8722fe3dacca963c668ab1c564c2adfb841413d618a171, 0x5e935a8c56a6e4c035a5ab3562762e0f5d1806c6fba882fc77aefaf5df63dd79e2ed3a160e1b01c66ca38d70ea3784f51b4882ac0562ecf7d6e32397fff871e58abd007a46f11676f4f6da9686352b60695b58510fded4680b04517b35607d1, 0xe34b093097a65d9a91b879804a0881ffa3d118f3133ff07f22c1662bb039d24d2240dd664e2ff7f6346745a0aa3501fe), (0x6aeb85a21d4f573031fb39fa0bb519297167d19777bf0bc041dd12b6168d1f67c2561060798ea4a26726c08d1f959a52, 0xdf3dbfd4b11f0e525a8716b948e8a558b961bf705107b7bd4b97d2117ac23a5cfea3a6004ccf5a64c69e2afaa4388191, 0x16db31b73534a18918b4e5ec0cada6010de2a69a413aa75dafdb4e754a97b2d62d7fdbee64bd8b985e8f5246f2407d67));
  ((0xbf5c8e044f926f85739f0ef3d46e69a7e9c660bc6d859cf718d4e3e295acf975d007b99e39ebbfaf78258492823975ee3c69381c7c60d010c2dca97cb2089e5e1687e17e222587a85337da1a5a47917e4ade86c7bc57586bca2e1ddb6c5b09e, 0x9cbcfa1f71c19ec5e95512bf295cac795d0c0ee21600258502027ae594cb9bb92a8280252125c2d6175270f108cc8632c579a2293908bfd7991076d8e9da00b501e38e3decc2723ad077cae2ea962075a3d5689e12fdb94f7eab48e4dff771, 0xdbe36f3bfd2f224ffbd4b276a3f78c074a470d21aa08fd74ef3e9bfffb3133e24e6dce5255a422a2343582a7ccab3521), (0x14100abb6289422f1ea960fc298b926f194a5477ea5982ea86444c839149e25c04bd6ee8e0e4e0dcb911a18446c503c2, 0x8dcc6519e11bf62a92c310cd083157eaf0706ad10f5e71b27c7ae4b9adc346a26fbd3cf8bd80d940423330207c6fe6f, 0xf5415792427979398eca05c2195e5aa5b1729ebf1425afbabb52e09fada32cfb1600910352a914b74a475e02408e2991));
  ((0x51843871e84745a63efdacc43450c4536e265c7fa1b1e503f4b561bd87d9669e461e64ac749f7183290f9fe3b26eae4368ec1294d41d021c41b16e2fbf7860c6b6c9f9046f0c38b36d0a180b3e722915d58db1c137d2ec2013c835029061bc2, 0x467ee376e160372009e617b204308d3539276adb1a2ed4a71f12ff259f2de06b585a9ebdda00e79e3d7b4c7077368b2171580de768720ac077000b39ad9ca77fd8dba68e487e22f06c7848d61c61e6c0513f1dca7c4254a44710ee0eadd2ea73, 0x2e7a1e4171df5d32cf50c18d401187504a3090093de0acfe1790fb579a5d9a47917e03f7f28322810677b9429f710ffc3), (0x14c5926eb3dce9bd0ff1eec412ef6879d637eb2a9450d66cc3932fc11da2ddf7ac9874ea3652dae942e27887a6efcca6, 0xce8c04e2f696bc346fae3cdc25b1a23221f085ce4f8dede4c3dcbbd5f8cb2353757512285439271322031e026ac732f9, 0xfa1db57fb7cf8061a3f5ab043a17437e2e92a03ced95e07799ce3f8a3d42d0016cdfa8277c0773109b23b8b3f613260b));
  ((0x7917996dcfe6d5992223fdad506cf27dbbb27c1617bac70bd3fdd7f104281f519f564dd10654550ba95d9ee52894d2b0d52d0709d4ed9bb67a1073ba172cc6303cfe78d65a66666de6585392c9b135a7490519c38e531d7c3c157a1f4d070544, 0x4951557fc983910ceba82772b3f780940f4459961fac03c74e25a2fb35a9dd75a3098069591a900c25a79eb8c8f00ddebd856c68321304f927937e4e257925cdb26e76bf94d0188c83a0842ad54b66835f124bfb64806fcc8648f75db3c53bb1, 0x3ac56767a5458ad501e83fc545870c6df66ea197717e36090156e83f1302f8ab613752a6885376bbc094ba4fbacef584c), (0x15d2d3a91a49e1528c96e26aa8f8dcf722d0d720bb238320801442d9c10ba3797ab70e0b963b1b0a86f896229ef0b548, 0x197667fe826e9f2b58804eabb18aa76eb7e16e57ba61b3908768b920682b75f14dea08b89a26170827cc0f1ed3710b5f, 0xe164e718880c649106570793c08ff48571082eb4093f8977390ac81814455e3da7210aaa1e1fa2b2d1f191d68a103a2c));
  ((0xd73d0ad7bfbb3d141bc25db9a55a745b15daf31404ab067e20760d2a50de438c3a7ec281d5cc5ed2e2bea4e303a7ff455e97d73ba439e00ccaecfaaf018f9aea39e7e8b576a3d2d907f7fe1bd46f55976be24000a3516dc11e79d2c0cf2e77e, 0x3b8a5170ba92dd600cf750b67fd34adbb54453137f1ce4d326395d1bd1e518c7ba8abd9516f9a88dbb731aee095780a4eef4cde4114782b463981cc07c82f5d42b74e2e1c2454a318358d9246bc590927945e3523aa1e2dcff2f0367c5fb4ff0, 0x27c4db53a742814cc9a24d28aaf030efbbb37dfef8126654b13a7414bedd6ba6addaedb2298234d449f6028aba24b27a9), (0x2f090016fc3b326a4d557cd6fd390012346dd3e0a96a4f9b34b1a926d0e174bed091df15a4d2f83b000543e83088de3e, 0x44906d93a02268a8bd3892a4f6ddab9eb3a07af78af49bab98c738a6f44e9be693777216e28ff456b9ddeeb9c1993258, 0xf66a89ba2f60c0aea8f5bd3246970f973874aa2e62bd4bd22ae83d61e6822e6e935b7dfd2bccf062907775b08cb54c5a));
  ((0x279a3b02213ae1db93dfe02fb7dbbb4fb7271e8da15755c22f6886351cd327f674abffe122bd4498cdd791a63b51cd6eb76ce276267c917dd4a7402714bf0a7490ac932cf1c1259b7bb06d47a5ca08edd26b3cad176908428df10f39bb6579a6, 0x472a24c68e69f742a666f1c83886c61869dfb048708bab647a04d8b16cadc52371e3d4eaf0e0cb72e4f4ac9005e347f9d77068db586e8771e62d9d3d0d5d213dfd2d5ccc0a0d5e58f58556f1fd109a19909a222f158c12891e80c0813694546e, 0x3347c4506b06fac5520f83e7932f4ae31847cae206dbeef190d26360c60c219f6f11ed28781b9bf55c36ee4090ae61aa4), (0x9e41bc794518d35c1520a3f0e526abfaeb38af2c6ad942e16173ee4d4d082b296c2ef1c9a83f1638036e8d07bf92ceaa, 0x836fda499bf90e06cde480b07916f212fb45f70de93462b54dbc93f233639948d84dbc72994821fadbd50aa26e04b6ee, 0x71c24aa057dacf2660bdd6670724ba0dcf8256ad7461582bacaa5d9be527b1bcec72549f2bbaff339293db12e3f65b68));
  ((0x230c31e7425927de67f5514566c22b024c40fa55a2d786b1f7569c18117b6a05977789ee03752148b8d5dfb6adcde970fce986f0d4a1b168da799e2ef03aa7a3df8a3054e14544f38d4d4fbb10c264f67a32bf4d4609b68cf9de42c0a95c28d1, 0xf2aba342f45d196c5e06a7069ddc0262323eca7d8000e20dd779b457de1801712769a74b858d97192678465f2a59d8cb5528b0e24d9021dbca163bd9550aa9a3c3c1b43c73061e71313dba9bebe7c83062c22de841bbcbcd559fda57aee2b3f, 0x167c936938d25643ffd69d08be02f077672b45d4e64d1b88bdeb90d3916f82863cdc897e278f97149cb20713baa5f972e), (0x6b236b0c3644dcff145a3f8fd7cd108f1fc702b954cd4755d9689e26f87f4b02e42b91941b69580ac48cc3d7af6067b5, 0x698ce3dd28d59c47ee33872fdfeea0eccc3fef14b36d1bbe4de32158a881b97b1da6b15470b2690dfa4cc82df4b68b77, 0x31f887c1b64176a0a96687c1e32fa04da082934a7eff9e60b23269299e1b9d0734a460fbc10d2cf6eaee6b07d2fcf152));
  ((0xc5cfca0f09f2cbd9d04de76ace77c85bc5dfa67a4d399842cf483f590edc34c6a5a4218fbe04aa479f8620f7e4bec2a1cab10332ed72b781166103197d0ef7de276ec9c7e7789442e659e560e8bac2d131282d9deceeb4aedd97842e0173c00, 0x2ed339e2d30e01177541451d6d3f16c6d94c79f876da47503eceee097d52f37d9beca5a3842528604ca4999d525c6f607ca7f4c9357f6c450c2054f0295f3a088b8c88e37cfea4842a1613f5a5b5b7b6abd857e45b8352770a13aac7bd91a9b, 0x729bb56f68bcf99f88b5c6c1385847ab9a1fa73d312e255c656ef029f08abe9c6b4d777e34ab6a1f9fe4453e89c77a6e), (0x4df1c0df8a8483099e85fa610d32c7ac042224ba7771a7cd645d479d838ceb3d56f924bc2c56c91832c989251b54b1b9, 0xd483411c3bc379e683e9f952499c6ed2d28c271d946f156ddc42e14793bb3ca035137d00588105f293197c16d4b4bdd5, 0xc574f67ac10dd08b5741eb224c748852847791afd9f271e510c1016f9af3abede71600f21d82bde9945353da8715a07f));
  ((0x625bd68270eceb827848bc84aea953222cdf44447d4b7b14f12855265b332295e1e7236d9a7a9d0ccc671bd2dbf550b62c828d80554ea036e5f84bf71b28c5adedc334e52aa2cb68b12ff04f968ab7f5e91d2866209468cb59f99a049b8b13af, 0x2db1f6f2996ed20edb87ab3ef62ae496d135ae72633e735c65c5b0da48cbd3f65045d4266018ffe65f6359d6e51c7f68f86ab060bf41231036cce0b96ec899179e4b28dad9fb860656b1ed6efb6b8ddfeb35ef79fdea87ce341fd5217d19bfa2, 0x2f18e9d8457e938ed40dafdbf5fbe197188456c6c8dae8a7a03c9495775c4d12140871a58938d5406ad68f502270d10f7), (0xbeda0a0627be459d92cc213596b68f411eddb0f4fd4df22f91be8db5b3d0c8f797ab9ef49cd203f96765622d70548ec0, 0x8896dcde5113a2752ef885f45c91ae3fd47d209fa308b6076d8a4ade2d86016c7d79ad0a10393db0b0a329f3cddd388e, 0x5f008d6c40ff550731e96b2a13ef1a1c0fbd2c82302ad184d461b99e32ed2f08c07523920e3a9326f9062a41b441d6c1));
  ((0x1e6a909c0746502e4930d378cba49adc011cb785a74ca3f92afb73dfbe2e1b06180833e19c223272012dd36b2ef664f83a1649b7cb3650edf393cb05d488667a2b0498260dd18d57b1320bdacbc8ca17655634e322b19e35f64748e3edfebe7e, 0xa93e67cf7bb3ede0f02e32b11d623aa0630adc319d9616440b939c5c7fd8cc5c5c7bf6b9011e831460482ca61de54db16060cf502166ce244f1caf820617be6fae1cb4d3ccc07982152d6bf5f45a6a1ce040114fc2f675d052908a370b3fee5, 0x1404b84c5e5c0b64a8770ad92b4d8cc950424135c954ec3feb72304f475608255f90c6c51e1e8bdd50b38145a87414a6a), (0x2aa35e0b02e7dfb76c31c6ef0585076132bcc7a7afb5a4c4f78ba86999247c07abba90780d382f5ac202c0dd74147c3e, 0x6d588b6d4530e676086dcd1dd3c7e5b0f663c1dad9b4fbae7a6de9d8f1095b451582e95fbd8fd6c66f3c0503b2739349, 0xddaad3d307f7fba60b53d462e50568a5ba60275d5d7857068cb34b40c3f5e59ba966895463c89dbb0de3b925f0faf31));
  ((0x38d08854c80623d4784c4cd6e28c8e49a625ae2b669eab11140785aa4f23ea34ab22ea94bff561e0300fc630f6f39cc44fea750fc62fd57417232006028944e9ad6111aa5bc4ed952db0fc5aece633e3b920c05fa1b8cb7cd974fa06e007bee, 0x39966d405c9f05aa05c3a8b313ff4c90ffc6a46b4ea74e0d1d44bc7946900e6924ce95f365615191207cb5d833c23c030003f443d2def271cae6e5f7464d041a081aacfc08219d9f2edb101a0a19b0c6856d8918e6b3a11ebadb8ab9bf2cda, 0x3591c604d542e73ce5991e48536bf26248efa883b96576bbdf9027251a9c63b3960437d4c37be63b4f13128fc2b88e10), (0xa12af1a9656433dea9d98334722d863014ec472ea3a138ba73829a5f3ca8c4f5327fed2be2fce9bd91ebdfc2c779f412, 0x1bc578560b6711cc3c21a41211d46737ea779d2910c0c16d22fd4ab56542bb5928fd0e5b6847cd2900b6d6e57ac6f71c, 0x5d656cc6b4c6819f4843408c5feb225a7413f9037900d91f2275dc79afbd58c2b3a5f012968375d0b5369ea50ce9e2c0));
  ((0x6146743231a48849cc1f4d655980c686eb42bd1a8ffc908280729a2b8aa7d83bf0ef060a72d6505204b8fc8e3667f00f957675a7d50a2be6d96c2e740cef12cb4429e00cce270588b54079e36de1c6f8e2296265aeebe41fa8b1ffa1215170f, 0xa391f6246b1b447269958d3706cad241633af7bbabb437385bf1c587d9c793038c5fe5e9614044d79c3ceb9f18ee04bc67a017ded4239db4fe115a8bc98336ac7b86fdcfd093900b94a4e9f3560e26babb19dc9a04638502dc1949c3f3cb35c, 0xded4b3c8ebbf5a89a0a65c89f252ec34f23830c1093ee312e8e78ec7c05a89462d34caf3d33483008c5f67625a01fd63), (0xda44f0e1b2732e77d13dfcf7a82a266f7c90bec8367008b2230e3a448b6477267539b608c76550a6149d4bac46ef0853, 0x433eee035f466b610c7b8ae6ced7083cff09ae869aad26b09d71748cf413e736d85047ce345e8d692b1516f6d22e214c, 0xf3eea8cdff4456cbadb3a59afffb72ce7e052c9e32e4c1a9d297e273534a8d848a2162e5d5a8a0eea37faa0559819b73));
  ((0x267310243a63a8eaa661b763d8299f664c04fcdb5533a2ccab9b362bcf20f11b341bd26ff36d83c75fdd566e3b3f37b48d5b914c8fe54d72f17d58df62dd52c7282027b96d0d45fc0d8992474c2ac6d131b7cc61c04529b352f566fa7d802370, 0x45bcb69280ca724b8c03417ce7b8235abe02e31969d05da4e7db3e6637549d353645e5d73b0cc718ffb4e84ee0f606b755eb6c21d51861c8db2549312196c785af9ad9b5a4c7dd40b73bb0f3952edf89f3d7b70adfcb6754cc6b59bd2dc99328, 0x46aecb2442be9d204e9b79e655792b44be024ba35564b8c694fb12b9543d19a9ccb0980f792e7bf4c62898dedc918df04), (0x7cc2b515a3dc6b0ad7db57d6a5ce1ab71ffa5f7fcfa7368bc5b9e5eab42ad1b5a5548225937d2eba32773f5ce6c7ad9, 0x7046c2e276e2d335faa25b0ad675a3fdd5379bb59dc20ad7e144ab39491d4e3ac8d9f705a48783e52a5330ddfedbb8d8, 0x69a29df0704d812865a16a6282076f057d880a750f68e2ba2f2118276f66014c2eeb8a58414b4701ac3cd91bb818eb21));
  ((0x1bccef639cc9af185dd7dbf49cf7a5b7f6d8d0d2c3d73c6388136fe507f5a4299f940314ce8c0dd207373d8749f961fe5fb71ce1c9703fc6bcf8e0ea0f4b60216a9428bb3c90debc6a284ca0520e39466270078a0a51d37e9153be7c0066152b, 0xd13fba38a8a4a80471a5849e3683c61df982b1181b28fecae6cdef2d1e5842e9c92a7a1c2fb816100c976f828ca9e469b1f079bcaec17712a6acd604377b998e46027e198ccc2b2f42c967add8fbfb716fedc84eda5641b17650b38f8a62061, 0xba71c836779e4932c4287d868106e24c66cb0daeea853838869c41e59e6bde086437697ed7306df4d88a55cab72f227f), (0x22f2d03fbf950ba3336748409a83fca14a8e9a668a9bef12c0f675eb62e066aab128c4ad64b5219a583186bf00fa8c1c, 0xf17d0f703ea9a898a571180bb76fd61422b74b3eab5a6d86d72fa33b2651666cfdeb5e8d6d82f1a8a137cdb9d9ebeb1, 0xe817a5b992b6aa5c2d2b2882a973baa9e501f127f55f7d59463c43502da3a4806e703a455afe529af5c5d4d492d93974));
  ((0x836007bdbd8ca7e0301930b4b29720d25ef3953329f95bd87a8e315736d675d96f911eb75ecfa3563f847c1fe45d528202b9600781be40fc330f1a0863d4adaf1c59f356cc7f8bef71ba302ea1b98da22d1588d2be7efd24bd67d12e32d7ec5, 0x3f21b750f742abf76302ff3d9e04b75cb78109f427f5d78cafbccf741e5613d3648e97e983c23a624f030b8a05699e5716c3612dc8fb69ca45b3a8f4a3ca83d1584bc3530a5ba7aa7bc03114cc1b24a2780b037e196eeb97610444a98f9a1ee0, 0x2b782f6b77133a4faa2b663570d13f559e40f92a6494ab4e661bdf3d3b132c43cbbda135606d01f5d9e9a76830391d74e), (0x6153c3f126aec9af5ffedb9bcc6d044978f29317c1ae647d3deb9d538c95537871e660f3bcaf42eea19bb59925fed055, 0xe36f09f293afbfabce14a01c77e3f4b23933e79a6387cfb281459613d97959bb0832b67a5756afce88b013d3c627edd0, 0x28c45aadf6b19d30a836142ff635251d50396e144e0c93f6d0acb2ba656fe1fa697809fd0055ae1005baceca45ab14bf));
  ((0x15bba55a2a79016bba3101072fdc5f4e6232261d8cb43d69d2859019feeb2571d81937dac4bd0aa435bc9f683291af0a3a58ac7ae541301684bb3eec5892afc2dce45fb3820e60ea8272fba08da08f284f2759951690e4baa3dd70e820bbc248, 0x1f2a2c1b5a66328eb45b4f0fbe917308b0e6d164464ef492596bf5c374bcb8f5717ac75430860d427bcb4a113f7f6cf89807afa84bb50baeb0df88be89754b239c46e1f5561e96f6e4d41ef87a9ed0405daff26e2c4f87f737ec8306b93cd05, 0xfc876f146b5b169831983dd35f35520e8469793bedff2d5ab3e035590bae0a4901fd294fc8ccee83581e78cef9deac08), (0xae35f51e96453fa87abbccf9da140879ffd2b0fb6383a1cba42208ca8c16eb255be50f2f5453da3f92ac202217c3a481, 0x26e4c796e25b1ed5564e761cea8264a3ac269f253b027dc94753ecbb9f74ceca3f519c214deab55617311062f1848b55, 0x9e32718a850fa55f822626c646d410b1c320941cc711359c184f2086e875ac4951516375a0d54f7229207be0bf08cf61));
  ((0xe6c18acb42b4e9f17581599603fa22d375c7018c75fedfc54bd15a4b0b9c9918efd07d258b3e121e34f154d2de6422453b80b2845fe51989ac6b41891f84773f1463efa203bfe5562b376c23c27344ec72dcda20166f416cc57aeb4b7e2e32c, 0x1d54a919592103f77383ccce9dc381d65d91b8da1befb6e4e88b96f60339fc2a9c4905b306691b5e3e8386cbb065fd08f2e879c1bfe937d09215d9fa7fb725f0ac1e6bf50132ff1a277d116da3b51e47b85c3acc768c7369a7dc909e1053b7aa, 0x2027ee42930d197a8157e04ed1c3d6c5cd32033d7ab11c9009b31082965c4b71f9d62b5874f69bf0d36ba99aae383dc11), (0x566d6b33a6252b2ebe591ca4a06322d954a82b859254c0caa1ca6a67504868636d4ae3df26a3525fd2d9891744a164cd, 0x11e533139255f47d4f38b5932cc10eebf8b4b86d939573926b27117efbeb171e8152aba866c80a3db335a49d5ea7f1a2, 0x78c85c6a867ea0aa924a4d8cecc4465f4a3099fd0b6c64f7b391764617360bfc5d0760fcfc32557879b46ddc2986964f));
  ((0x510ffaf5b605cb7ac30cfeea1af1825fd2dc0cbba094f1cdff4b4d0f8d48e18513321da5acc080c4bd07d3d349fc00327a52cd72f6151b7f9234e8d9c138f4193525b5a9a71b0b182434f7fab2b6032c32d2029fce17749a5bceffbe620e2ec, 0x1118fbcc311fffe42d5dc9e934f32ca3e4d5474a0569692473a90a25673d6c2d5cc8eafa5c410f96bed3953693b727e9611b9b051a84892923cae864a33a9110fe495fd846cb8ae9e4f67cd8e6947c7fc8a72f700129b40b966f9ae5d2e0cc98, 0xfdc37638b54537a558b66b28070f8618f309bca3dae461620ac43f789a8cab0e95551305d4b524878fea4d134c161f77), (0x952d60744eebc756ddf74dade4a0b71d691e312ad2280c7b29efead48162d4ec080ba6b826d0109c4f9c67e53bedfad5, 0x2f40944e0a0b69a9ea75f409805ef6d1f1ffbf73b4994a04ec8d750053faedc1e6dc644c32250938443360d6f589c310, 0x44544b811b423cf57fda8276647862ecc4af4a39371e73ad08060c8d3afdbfeb1c0df50ae88211386bb5225e1abb01a4));
  ((0x7916d1c2317e29f9ef216458e4cf3a05906fa917180fe3d08692249c690c974515fd941adff6660aa040ea87200f52b87f869d0fbc9bcbb45002b1fdca7c7921eb1d80ecd364801ec873e2ee63299d56f9259132c572da1506511004a0649b1, 0x578cf7d1614012d95aa0642280071e68fafef145a931d469555858f993f02f9a7e361be3f0a411295aa661794d904a8072315d1602c327ea640ce84c550411d83f4b4125bad0021df096f914e56883b61c65a0e43b3b31f12fbde289c3043d4, 0x8f11cb5df552a79802d54e84b1d0d49b940416ce298f6c7082f4f9cddf7b5ddc16f5b241a2dc7855fb8a2c19795aba8e), (0xd2ba935ee5d04f80210470e65efc20335c51484721f5fd0de17df2f73bb5a98bf519d416b0b84777669154f6b29446ea, 0x3f9d9d070d458362b0a933bf2915068f5cb67620bf1bef9b0303bf23e4bfcf27b3263e333f32ca6deeec215d736fa2f4, 0xaa13bfa4bf662e360a0baa4dc4da0e7747b7909f19ebbc3f93a9b29388e3f8adb14213cf123c724f34f1fb24f1f939a6));
  ((0x195c689598f35a34320cee3fcae02cd055fda880f353a3c3642ece04c6673c718970d18f2c4665392a7983289f037a7224f3c81471f25b6d5959bb315f3beec93eb3efd32cfd24ce1549fcd700419c305ddbc22ccd60e5b1e5445946d5c3c7af, 0x21e6c25d9569ddd030ef37ffd90648122a6202e7885dfc07a8f4d857dde385ff15ef17585e70a22b197d35335622e7a6e3a50ca25b0d5a3424c7854c0f0838f8118a6b97d30e05a87f2f306edd46a36222979d9673f9df02327f9cac9d249429, 0x27ac9f7676f3c1295b5cf982bcbd3be0ce782a518878778cb296fa6d6537a8ffde36a0352c7da48e3c4b3d2ad4a0046bf), (0x18ff81e67bb4f48be3fd815b288ddb8f172a8b512113f685aa1ec20050a6d64c74fd9f084b0c1876cd5a667969518c93, 0xb4a291a84fea914aca74bff8bd9451c7c0165808b0b75c95dfdec3d6ad080b740829b3046bfa151e63e1fdbee04cdc9, 0xb9040a71095508f846ebc2e6c806edd6ae3707e024f76b55a93ef9c05fb1edfc4557b66192b46cb476be851b9a1c31b3));
  ((0x4e5640e885136fed7bf691c09e125b52c332ee32dc201030ebdcec2cda9d49e88650dd4582fbbbca6d559dd28c14165476118c267866aade65820654192417a1f35d9e99245d91408471d12b3545090364c03dc5caead947a5d54c03c337b94, 0x281e4dd3806d17decfbf20d47c4c79cb33540767b30605d0a8a740eae14169195078e324344ab0bd4558459d0d61504a54213ea1fd66b7f150821f977f76963484f54fb80ff211d940298833b6d7caa99795a8c8b74e5cd502e3d68e3206b668, 0x1b5c60e40633b98af7c65f2780a6881cee7254bc7c11191945de56b5032a63c5db4a3ca901aad0f0641a4dce04fc3939c), (0x597d088f9506b59898693646a9ab50669f6820c98c43c4f4576f2e37f4f55d70b0d28bd4c8081fd045309866f877775d, 0xd6b54f87b564594d01a1e1b14bd8d303d73fa6b56e55a24e5eebc83018780a098adc085240f819bca67f2eae81c15e10, 0xd9ef4c549506edaf8aa10d905d0698b61133d5f64ef8a2f57a090052e4130a2f21ccd09b25e09db8512d89f009e4007a));
  ((0x6dae4f36d37da8d6d1f72146864763d3f7eff92b80e8ebf2a7da248684ee8da0d7111e4f05718ac1b5c19e64c50e0462bb43c7ce64c57469627e1e60b2b12f6c3c219865be428049ebf3d346d8db7a725e5627df6a5f37edc5c5e8b3d09ff67f, 0x37aa208df954e1f95c5620a515d72ba9955abd75844fa49cfb8360d2013c44852e5f948d57f6c973fb4c0e5b358a932dcf6cd0cf37b163f778210540356ece39d966abda2d19e981e244e86ae72fc1a226479fdc5359cc61cfc68789a461e587, 0x3790793fc3bf337260e33a95e25b387ca855a91c97256ecfb9e5460ec5701b53a3293fc3119ff4d163f2b0db09c946f8c), (0xc87e5b7639d6efc0385449fa291d394d52a6459faa0b91a241150a9ee4e8dbea7ac85ebab838cc4dfbefc90043804248, 0x9d604d35bee26a12b09612c0e5c0ff1b94a0172d43f13a4937f392b2a25d8d110497a451acc952eb1fdbf7d43aba927, 0xbc657a0040a61ec8a6d3785c04ce9da3b27e32986b6474b4e75ab58539c2c073c33048e202b66ad0e8682801f4baa39c));
  ((0x457f48e4297bd999243cfa32118bef650b274445efe02af7ab3f63d532e5baf05a855e552d92e53e8e76e017a7739d5b4f34c19732cfe9109ef726402f225cffd3fbb1bdee774b311fbdb61bdd2ed1863e548633f64f9ec98e3f8165e22df63, 0x29990d08bf8f638b651d943f6e2b2cdc3c8fbd6159295c45fa472b34475285b4ff5fdfec3be5b39382ae0f10575d2201f709b94c5b78303efa612008cb71d2d7f42210d125972b2b6256c7ed2f323dfb4bc98905d458797b27c2c59bc1af2ccc, 0x2c768e2a32a7ad8aa35ad0b3daa2ff68af062098f3dc283c25d964c47485478da05f2eb0c91475974bf31e3cc4ec555e0), (0x4a5baae0885bd8df6ccefec6f4582af405d50370b9ce9ad0c06692ea5b51e855b5854a359291b497385b36d134575423, 0xb1b9de91241f963fda984d94444aacf255faf4c3d780fa5bebb7093ac9cd3d98193ec532eec462318443ae18c64a454, 0xc7fa87f54b579dfa8bcf16b03b9cee11aa1a3dfb44533019267481c71d285ebd78b396574325179774c92abbe1bc66c1));
  ((0x534f085374b793a87cf4c35c861a294e687126b6714e57b892c435d07a2b433988bbd043d012cb0ab464782efc15bec02fa35a54dbd63428057bb28a319fa8b89e270250387e1a39c551b9246f9a4e22e265b1991f0374713315849fc651e78, 0x2edeaa5c874ee7433f06edcdb14acc416c31e85886d716e9c061d8630ccc4acd079b99a7179b915e79e2df939329de27ec10517d83ce31bfda249de04e097967d3a2aad3afbe5efd5d2cfd509bf0cfce26735ec63e68ec48706dd234f59b5076, 0x2494dcde24368d3fc3038ed67c2ecdaa9ccc460520434ff7f4503a257ee12b962dfc10e89cae97fc37929cc3b9086ff75), (0xd895c621a402ce291f2c3cc8645394c80d35235a8a5ee0e938ff55a4a33dc18b52d4be34c8ad82f102f2bf4ce1734dc1, 0xa76d1d9c31c82dfc9629037bef6dbb914317442cd5094e9551359edb0e878947b867a482c603889a7c07b1092c0cb076, 0x5bc3fcb2d6a809672f0aca7e2bb4bd17b17b051285fba000fd20ea57773de35a742e24eb8daa6baa758095e1dbe6944e));
  ((0x240352ab2453b62dc16f97cdc3fbfff06f52ee3abd07356d1efbfa7c8eb03508975cc12cb9848b0e61a97589a3d0476296e543792314f5915ea88c913d7e221d17ace6d4747696183889abc7157cae66c6b11a1392818d1694b0c014014853cc, 0x9de88f3da004856cbacf264340e0aff09907e494835dbf543390638fb0e98403051e5154d717079de04300c37af71438b8a1048ca18dfac077cce53d808983f12e6d8527892f454053ddc98875a42f7a6b3a32ba89111deab3343758dc47d96, 0x16b7468d78249d5f43c85443d58c55cc90a0e9bec725b5df50f4a348ae2509f1fa98bdf69f7ff432d2741b6c11e83e41b), (0x3006c616c390d7f6ffd445976ba8dc624d7b48f8e297ef7e21b3f50ab64a105da560599b8b1503444d816dfbee8785cd, 0x523f0b56a2362616193567645605214362c5f0c4cc0c4ff8905a341cf028bf2ca95e23a22c1b835248a7b5e19edc037a, 0xc7b8bb47eedf71b8974d6084efc9801f2c7e6493a309ecfa2f031ad71194cb2e3c344bfbad2e7e40fd6460d52663bb67));
  ((0x2680d2d0d9d2fa5c18ca80419f75c12f0087be4941944e54d24da9a5e326377b97aab24d8c7a3cfe9aadeea7c95b60e405640091345caac443cfbfd6312bbfc1ec90773377fbd46ea275d90631f59abf8715234e8817efddad477b3e2ca4c42e, 0x2ebfd787286eed6eb6811a57139693fb9e966218d32fb7553f4f010baa9d06ab6e24bf8d9a1143b1b1b44dbf03b98f0dd2f04ab0882b510a959da9bcaed64ac3a0914b6a32f7b90d853d4532a03b7636e9f16a5fa853998f9109d6efd7ee5ba5, 0x238ce7429ddf5c4fbf36f5620832b9e56c211c083dfb8241181be0bdae87be7c72ca93330a06d553548df3a449b47d312), (0x70f629907e630142e7d558216f74b2265a17d39c0d6eda4fed677f9b87f68e03e5ab3acfa0263bbcc838ec5ded8a8917, 0xca4bc8c17585f96a6b98e27785d9590bd6b932bca8ae3f15ce26fb26f5997dc9e0b404ec0d9c7d91eec6772e7200059d, 0x633657623139b6c4d63d8af063927e8842e16db901313d28b1c57c363f991ed68e560134eab6ffc849bc9b90a0a5fc7f));
  ((0x2f0b61f9070af2744ddbdede04a5ad6f7c711e39de6486b4909c5503aeda9feb01fb1924c907e970afc289b94544cc392ac34d478ffc5c828aec594a9a6a68461c478b6d1d99dbbd4a6aac0b0541286a68d6cb5e0e3bac30a21fa9d722528611, 0xb8939914ce7703d51adb84c6bad4c1da0a79f8fec7f3388e630e9e7bd3a3e5c8d9aa2d2fa5f096fda7a7762fb5fb85268489e8f58d906f21075d019a2671fc1dcba4abb41770449f50cc7451ea2d3a6f43d13f02250d7bee60481bf12f75093, 0x16ac341ba971a1c869db757bbb5dd82c980d01f106b1d1573b788dc68f7a79e67a8cfc1c31fc87ebb441963a573f66a5c), (0x42c140f227e8eaf775df5718823f3d6b4f4c9e5a60ef0bcbd983648a92b258ae80fb00133dc4a6f51e1f60dbb8c68082, 0x59d3b6b281e410f2acf19c5719551becac2d996f04eafeef811a74a7116d6b73550989be1f5158e11f04b4eaf6c79f2b, 0xbf9a29174d470c367d5c9838a5390f5f782e60918ae9ae2b671554d7a35c2d8996981afd938cf47c1bf71dbbcb560e7a));
  ((0x2857b03c771d2dbed45c8a7065ad06ef5dc82ebf4c2dee32a6f5d2d28c4dfd9aeee2819fad1d75472d78504b64190c1007f2bd243185df7795a15b26d1bf16b5cb2122463f50da821da55f8517e0b52f105132fc455c82b41b90d906a64b361d, 0x2b068c3cebc4fa617545924b97cb2f99efadab8e6cee14e7b8a014fff55287c759cbaad84d4e95c1cd31a72f24a0645c6ca45b85b0e5724aff34a80da934d515d79dd9d533dc1ad4e379dd2fb44278c96e017796649e24cbe3f1db27426dedf1, 0x231a7db6b078380670360a856714a0cf3f2304eac668c16690d72d23b6241b75cccf9d5b404b7e2ce225a7220a07aef00), (0xeb6d1bcfaa95560eb212653764dfb00393d3a127dbdeafbc8c1c9f783e11bfd5d494c1956fa1a3ed5c28c533baf9b3e1, 0xab8f3e280202ae08aa2f454215babbaf451f87e10b4ad385c8c1988bc49c580a64586186976309e1761bb8044268e6d1, 0xbb4032472db87492ba3681f986d8b6160223326ed5a6aab45a175240d309bc40662cb08af29fabb544cede641740ca8d));
  ((0x4b4cc49130e3245858a5830c814c443f280f27233e6d1b28b62268381e83253c640fbb10d83f6d35e30797468e287122d51dba941312759b1d6f0e8eb06c1c3a97075223bff839647cbde6212f051c38b37026dcc6aa916d99447f6c2f17e5aa, 0x2917eeb0adac6a78543fa5f8e99f82614ed3ca49f281dd74cf0f882bdc1bc619cf831f801e49abc6de740e0e854168d7145bc3463cda7e772caff393bde306b3c3e39442905a95923f374df7fd3a7b051b95bbe165cbb12d9e5f8c3191814c51, 0x36644b38045c58484650ef95a2ba7e26e65c893f80fa6f6e850a6d7527c2e2a03c1325334c07154fffe3db489ce6c991f), (0x8acc322a307ef84dfd009db6c23e30441c9e97c5e0551479696d0911a1c8247496c6b98b8368f78cf0a6085b72fbf70b, 0xa4de687a17160b7d5f1b48fbb67e698aa4663366b5eed911ea4bcaa2027d3b513c3059a058dd69be5459fae1365b47f1, 0xc7854361cff9e8bf547ade38bbda9a7b5a4aba2ce98a8eaed7797c61ab2b8345a99072e8a432e37ab7cf7dcf08107e95));
  ((0x4d1ad93b80ba35ecb5f46004667219213eb128f468fd135573e03cabfc79563fbe70a27235db0c5f7d9bc8fda94ab46bcfe8bf4752d8ffcbd518b0462115d7a89a0de02bb3309632e1ead370c90889786f95617878884ac90f531864596eda89, 0x2ea7c2652ec09242b9fc9b9eae62dc760f54605ac1c9b738029def8017711b53fb4b6989e349e6ab09adb759c8f63dbcaee23c132839a71c65519e18389700c341b8a4d38df5c61c8198e0c2931168f25a5be72c849ca34a3eacec356569de02, 0x315090ab3e9d7bd4276f90f05a2c72f98fd27d9ea3ef8a9768f083965cd52d349321ec26475a680bd6c6e80274bb3d07a), (0xc0bf373acea960c70452c5cd91367d3fa833497b9c37a914680bb6d8cb97fa64826de39678c4adb09c36d32031498fa2, 0x8c0be437c3beb8e1c7f380ed303feb86f84d5179f02fd74479ad11ad5561bcf02bc3875ea7ebb2140145ddee52b322e6, 0xf3c7be740ccd4b3a898f1215c0db836e45b41087d3e53586e1d5e73ca6d418db814e246149ba33c267f45c60c6c2d054))].

Definition root384_inv : poly3 := (0x3d5a284458ba966612d48b5b33461faba226caa45c75cbef1b991b723537f949536d48b25723bd2ea382140a735b82b4, 0xe86e367ff2462423dc23932df6804ff9fd6392a4c14dec579047620c88b7b28e3ca11458c4be73099cee31107028f41b, 0x7c0be3902d14f734a185b89a2a5fb0a8e401d3379ec6d746da2d33ef993b9f48e1e9899ee04602920d6d3b64477d33b).
