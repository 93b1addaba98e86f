(** * Chain384: certificate of (n - 1) G = - G on P-384.  Written by
    /verif/tools/gen_chain.py; checked in [Nist384]. *)
From Coq Require Import ZArith List.
From Verif Require Import Chain.
Import ListNotations.
Open Scope Z_scope.

Definition chain384 : list step := [
Dbl 0x398e9bb647af27db82eb6364cba7d64252ab4c5d3bfcb59ef3c1276583b9a0aea40fa5894752d433118ffc8f4795bddf 0x8d999057ba3d2d969260045c55b97f089025959a6f434d651d207d19fb96e9e4fe0e86ebe0e64f85b96a9c75295df61 0x8e80f1fa5b1b3cedb7bfe8dffd6dba74b275d875bc6cc43e904e505f256ab4255ffd43e94d39e22d61501e700a940e80 0xa1ae311d42e7325e258bc6d92dc51583e51ae208e4b366c208253a0ee29abb9a052209ef0146c473debdb4711fe02b56 0x0 (-0x13c76fc311eec201d9ccf39f6386331addcf9c0f1bf3d0a317dca95404992069c51b67d0699635be709888684e61ee312) 0xcf0d0c848d9c2a813352bff9e803a9ad13b2aa683a2de999bce72afe5ce59240b5a229262143c112b18c4bbf318ec8e 0x2459d9e658fa27a34f2f3553f125723113eef94f54214070255b0f49f8377cae7e98bfa9a482956e40add146442bdef5;
Dbl 0x81de5175fe483568a459cd270b7e92416b025296aeafd8d02f494d82ac7d0be025bda2999a9553383c6e304d614654f7 0x138251cd52ac9298c1c8aad977321deb97e709bd0b4ca0aca55dc8ad51dcfc9d1589a1597e3a5120e1efd631c63e1835 0xcacae29869a62e1631e8a28181ab56616dc45d918abc09f3ab0e63cf792aa4dced7387be37bba569549f1c02b270ed67 0xf557473828f74040a75d556c4e297a04f11b4f9c9ba79429ac743f244ddc72003a5747143fd413d779a6d3968c57c72b 0x1 0x8faa7ea398a522dbc8983e5af8d724c152fd96b6e346e22f4e3db66ed4ce24c30e4cd5ab591a4e355aa4961748446d40 0x41e1cf2a4cd5ac5c337ff481f358de5233beaf0886997a2ee60f594648d49f1dfb896e345997f6f96dd9de1aaa22d0a6 0x7c760aa4c1763bd05be25da6c617aa44e08194fae05a2739e553ac55bd992a8acdc0380f65c6bcbd2432c927c637b56a;
Dbl 0xe57cf00a16844a0bfe5cfcad90163587f6e326bf706763b90420b2d21ad41a7ad77290ff75622179b0da5688efff5633 0x1692778ea596e0be75114297a6fa383445bf227fbe58190a900c3c73256f11fb5a3258d6f403d5ece6e9b269d822c87d 0xdcd2365700d4106a835388ba3db8fd0e22554adc6d521cd4bd1c30c2ec0eec196bade1e9cdd1708d6f6abfa4022b0ad2 0xfcefda3ead15b1da4cb76841d037e5b75227e73d4cf487a215518c3a2c6deaa0bb5748818a367b33fb0623c8ee1b4fb7 0x1 0x1671f1ac99a3a1ed985a99c9c784584d79fdaaec0c3b199e724842051b04ee4667253ebb204bbbb330aa9599aea3025de 0xcdb8c26b7721673effd80d180675b7f20413ca6a06867b23b67c1d1da7ad8f9e7c2dca32791323cfa1b76dbb53feaabe 0xe2bdff929b68d8e89fda4922b21476af5b53add0438ffd5ab61222275dd37c72406df1c5a12f5404f155578dd81a9cc4;
Dbl 0x6bc3e4ffdda16fde19c59c777e37bc3740e1ea2a78c87fa451a1f43e4e14b2d5c0dfa9d4277134c02683263eaef2b989 0xd5d89c3b5282369c5fbd88e2b231511a6b80dff0e5152cf6a464fa9428a8583bac8ebc773d157811a462b892401dafcf 0xd815229de12906d241816d5e9a9448f1d41d4fc40e2a3bdb9caba57e440a7abad1210cb8f49bf2236822b755ebab3673 0x40b9db535314aa221553b9b4f4c8e719da3e428ed942ec13eba741defcc6b9beada39c5eb6ee5ddb4286f9d8980518ad 0x1 0xb3f12bb00c2702590a6afec67916828fe27d6170226403d139602969424169e97ff7c40557ca629cbcbc389df5e98e54 0x2d5d57548de959f6eca70f2af6ad64ded7f1406ed070c69add5affec0a4ff86ce94af31dd59a15cc06b2ae2866e7f578 0x1b3f36241cb2dd5a9be5977db6abd40174e3bb2a5ff4b583edb8c538471ae37d5b213c6fce2ea93a66017067fabd07b0;
Dbl 0x19b599439c78d9e5cb4afa89c903be374e426e1a9d856a1ed40c4dbb3c524246f5c30d27c2302cc44f7ae1fdc1b20877 0x7f7356c5e0fbc6678bab99df1fd9b2b49f81618d6d99af63612ccf2cc4acaf5c44819b88e217ecd3cce82fe55ff86ed6 0xe003b31de2050a4a43d1a5fb9b4ca6622bc55e5de0c3e6f2ea6b40995968c751c75d1513aa614bc253ee2ce86961877b 0x5665457571867034d411ef0392579e65cbff7e63777b7d9343382b6763fba8df680d20ee5afd8b3dd77a88ace02540f9 0x0 (-0x1ec7fd067006fcbc661419911b2e79c855534790371c49c0ce3edb435a670a912a08bd089bb5c3c0e908070868197d2ca) 0x294f8c149ecc056bc005ada497a2964b94c23db48d4324a0d941d1378b48a6de61bda141c926835df5df263ac702723 0x8ad2d1bebf242ee129d102d768f435bf02db610b29b4cbbca0e39be394dc5a7c41fce9153ce39f963a1b8181391c22f;
Dbl 0xe4b29e93072ca9b54cbd7e029cb0378eb0c8202e51c9387396d2b58ea3b6470f1a2df803c36ed9b69c4278767fa4d067 0xc1e179aa178a780046e35841766073612ea5e5abd26608f259a599fc9a8425a3ea639d94cbe63fde1d69c70f9327605f 0xc3842f6e4dbca6d609ba6171650371b2adc07640a2420eabf7e8291eafa21b56eef31860c20ddeb88b45f0b4856f8ea5 0xbd91dd1bc9714e6744c8419da9793f5370db7be19b33a671078735302a2889b75a1dfdf31631acf5af7e68d6ccd10e76 0x1 0xd1e44589f8cbc73534d308e4b8ad54375dea13829a704cbda546cacbd7810e38cd13d61979a402d05b54b5475f9aebaf 0xcc4ea716cb7759b34fca69fa9ceb562c251270f94bd185b58d0ac6f00896aaa5d6de0cbfa3326732bea13b9e7378b49a 0xa95a2dc5634427ae66b8f451dfdcd9ebbe300795015467a8effca2d7eeea80be3555f12c1f06355da8bee6eedd5c64a6;
Dbl 0x99564aa05caa2887110de1c909047e587de96ee0719561c4b3d007c9798cf45a70567a9624e7999ad55cd8eb2a49918 0x79da1e5e28977552a26882916cf3ce49e82fa56f53e2d9d979df1c9778d6d1606c157d3bb68665089bdd08caecd5d092 0x57a8e52c2d2b9c5d7c6a5afb8b099d076e16e4dc839f861cb157aaccd72eb9eb96d0202bef0ac83965e76ee7f82499f9 0x48075b4beef302ada47ad5b0096ca5174676403c7e832f18dfc67d6521ad54437e4e2059155fdad5818cbe44a6518fcd 0x0 (-0x1a9ddc324b9979589d39de87681bac87207f079ff7c81efddb44c352da85c4f0346b106c32cc16ee43bbf9f47c327cf30) 0x5bd84249e842c0cb02cd8a2245caffdc3a6fb924d975a6cf1e17c37a551ae052b5fcf2241c24d6a523e0a030d6df10 0x2b24ad084c6109dd5587f2ba2b93aa923d614835e9daea3c901acfbe69345ed00d8f65514847839b2d87b397da92866;
Dbl 0x1408997cd7b1a6c0e3006be730ac65db55fdac1b6fa079300f803705669e8da21467046ab0cc90e1701567507b416a27 0x21a4f5d369269255deda6f0636c5018ab3f2467a351bc35ea2193f92a7dffdedb8e0f03cead4d0dcbd5ea78776ead2e4 0x3884923650514591e9a595ae828d35e0d78d4d860372df0c6a6a72aa967f587edd574f9cbc926b834a0ab4d409ea07cb 0x5835288abf70e2fcc38e138b362eccbf343d5ef51ec7167ad7c5dd04d0f6d372b3348cfecbb1942bde7e614375eafdae 0x0 (-0xa047782b9fedba6148dd9d111293ef719c71abdaa9e50a521a9245bd8ad3202d6d9f664948ae875591c27bce9a766415) 0x19158457587b3dc92ae3c7548142e633b362ac398da9f790ce9a44f97db74c69720682a0663046245d1341bc2c42217 0x6e71db6e4973824869a0d49085ebb32a26f4a1a0681fba1bbe85671557dc6e301a9dcf6b26e985ac0e632f6bb09f042;
Dbl 0x19ff2b27beabd0f1533b2469efe7e10475005619153475c9d0732398cc2eb2d0327e276fbd8466a5cc029027d02f9fe3 0xaa42feaf75113b9b74de9e043a2b213ebd69fc19d718ecc0571533f55ab413cce8bfe43551349b6e4bbcf5bfd2b95e4b 0x798ad0576904030a40b275b835e76ab9175bf2d5e013e684f78601bf6d1cdfa1f0553fa5a80ce91dabe51296c4bc5137 0x7761f723f41556ba69fbd101fc99e04bf6884a605e02d69e4b040b9d4d2bea1fd0210c0699a0356e71a1b1c8a4317498 0x1 (-0x1c9454d3283af9314d8b2adf7370e6bfff046064e104a9ec129318ce65595d9d12c678c9ce2553cbdfc8cc8d3a16ad5) 0x2a3d4c4c3b1c952c19395e37aa1ee91f53204846893c527c017472f409f42aeb773552f5af948549a9801c1c75940ca 0xc1f8fd7ad00bc8043ddc6eb0715cd02eb7088f19205a4804cc42fc8e5641773e5dbb39c8c164093d6107bc897798e3a;
Dbl 0xc34817788e0c91e7ccee9fa076528ce34d8619ec773dcc5e688b858ef510fa957b288fc4244be2958aac1017ba7aaf6c 0x2b5278c05f0dfce2ae476d29467c3bff7b4edf8a0a120b84400f88bf17678598a1d000f8db51c149ea4322e0d779e702 0x497e45e2747b108795cca3cfe2c7d9e377494933762390f609c720007625521fae41d7bd67cafaf09c2ce6b2d2715150 0x7ef085ef16033eb8c69730daf3aee53f421b1c8fcd06e13c1705ab36434c8e3446efe33c75e2da246179d2defb3f7749 0x0 (-0x9a493598405f89719dcde51a4df2b492ed4a65bcd213477b3024472ecad960076fcf8c9f3e831629a709f78f64f63a80) 0x94f6e80ede5defa4f169300667252442107e8670f368162b23f0d92bbe980028064ff11f488b963bda95554be1c7ce08 0x60d4f54e2c3992a711531dd551bacf79d9f6e446026036dd51146c1ca9b781c313965897cd6e1e5caa94ddb9531268bb;
Dbl 0xcae400bc5e7fdb344f347630411efdc552f00b8929899088213449985e91338c08d25a49a33db6f5b6d6072643823189 0x298b8179063d9a714deb02729a066e64a5abad7dbdca717f07216ada61fca10951c48db0a44d9d6b8913a117388408ce 0xfcf63e77d4c85682e610d9f066810e1db554da340064532b7dca4c7c695890d23f609b9d648d5ce1f620effa9b92f017 0x1c6f74758d06271605c6ab6ac75cd9ad5a3320c4c479a0538ee1de4b56ae48f500b7348370423de612f81c99ef5de34 0x0 0x5e7fc23b6688f59c3fdf4b1fc34867a934cf919185adccfc1a5694a7deaf9ea2ec20955c1ae4d93630b593c291602c69 0xa0cc9c3a94aaa447f0d7f9a0a58a259bcf9ea56f024367a1ca43365a540028c8e62f9e56f5fed1cc5e226789d8be1b81 0x1689453d66511b0cd8da4500373f9af60301e685508b361ed93e1074f6c9b09b4ffe76037976bc69c82b432da806393;
Dbl 0xdbcc2944fa4bcb10a9a4f1ff8a3e73e8a730413a9b22f1037db633bc816d0b701a206fdbd135da17ca4dcd231ca62f29 0xb251813991dc62be679662c03461d3475cc7168a6c27f447a7a882f95d1f591a8d8e5a4c1873b2bb00e8105825adc9ec 0xa89fbdb7f910c2d5242dc35ab01bee251a479632abedb90eb0b25e1f4f79204a6e5f2be81708eedf7958b510e701e4d0 0x773a003f746137b2e6549fb265a49b1d48e496f351a27d375f78e7e104dd47edc43633638bd9eab0882b90c012d63ee1 0x1 0x19e26d667e9cd151c2d333aed67b9cd5cfa4344ceb5403cb01b21ec823090020b916fa073c0f8143c127e1c0c6f2b37eb 0xbcb6f16dd0d3c0fc58d5eb2b031c95505db6cf9d7e8cd733c75dc20305b2f1bf767a5776b241a5316d11c4156cd9c6f7 0x665db3a6e524136bb46adc9ca8a056156d4973a409957753e79f2daf5a9208d40fdfb002162ce5e9f1d23b20c6d373de;
Dbl 0xb82c9dee6cdc388d5fb90617d152fa795a1109812657666a9fc1f55f817156ef3ef62ceb30d82b6bcde68a62dc2ce220 0xa14bdd8290ee7049ee4863b8a834d276b1d53c2cdb0fe66f06d76d643ad10d716be4fcbf4c8a33b2a105913d56e39561 0x8c7c4cecbc5c1b3f258b28d91b37fd53c63eed04320d54529ee9be704bb128741ddeaf12234df738ad42b03621be6ba9 0x1105a3b700edf274794dff078c2d00d0aaf1da5d91180dd8a0d11595224e4ba921a95d8ccbe97f085fe27f1aceca348b 0x0 (-0x81ffed458f1885a47f13e8042341b3c9f4a494cc6e64e912b9c41bdb17639cab1a3e65c80f8707da87d446cdff431f53) 0x84802acd67e04c935f53fbcbcad692b7a285c9a68c5454ac31bbaadb30254f3bd3dfb528fa371e2e7d538a211f82a539 0xc3f0523fc01a48ab60f8763dd2f6d1ec79865a13234e927f6aa8267a5a958ead20b34ce28fee502d75a855931330919;
Dbl 0x4b6ebbaa2e021718407e9dd154b4885feb1eef6d268cc1172cdd6ab855d3961bcc01cef0c4f445461ae432b9be320bcd 0xad8aaa7a7a3712afffe63565ec4d34147f6349d91161a482ae75918a2c0fac02311a08d3460708de327db3e3fbd684c3 0xc465c8b2be2e545f7b67b2f9d0b0e20b3ce66a2a812cbc1fd538d27970460778dda01f09c902c68ec63aae6b4c4e0fcc 0xf3c1330816b75d99ee622e52bbe79e623271f253c9ae41ec5861dbda0ec1616e3acaf3eb06832ad46e87dd5a5b0d109d 0x1 (-0xde172b701b9fbdab91aa0c82bd9743e17cf95477da9030ace0d3d9a47a1482606a2778b5a98d23802b4ac9b90aacc66a) 0x163a11db86c6d3ac3f6a7807ffe3df663f4265987f50b91c03ac8019c4fd8d33605f92fae92e3fb08e1fce23c0fe6d5c 0x47d309a77682fbd8a55f4a47199cd6b03f89b3dce570a0d8f6624997880595d196d595cfc2bc8485e7a683c230356ebc;
Dbl 0x3b2c4644c12eb186889e19d3965016030ba6e792568344675f5c131e63b5c2f901242eeadcd0a9587176d519f7cb7067 0x6a557a974d1fa3222045d0766f61f549efa237f7e6516f2c0f233093e7e26891e329cea21d4e8a322127dde075d5c4b0 0xfe8c04ae4d2e1e0c6c4bd55c18e98e4cbb8b410e296c9e9a7932eb342d4d210715342a079b08d99d1d7ecaed53c7cfbd 0x43352fe32d176f8ddfa064ef7ceb3eca8fc111e12b1035569f5260f6442d43704df03a3128b87eac1155d6038600c013 0x0 (-0x106234740caeb0f4772a7ee14b48ff97089164c3cdbcf5ecccb0972b4426dd6766bba5b14b73927d15d9d220c93923090) 0xdad700bebf799fdc4e328a09394cfa8ddd10e83d3ec0aa2f35470e299167596c4d4ee3b42fd511a515c3bbd36ce84c5 0xf88e1a02e6058ad39487f1c98c7b24dbe5786b53d15a80aa907b2227339378f09b9d8d0ee05dfb95d838e6bbdaf47e4;
Dbl 0x7b62d750209711408db55843be83e7be0c2ffaf91842c9ad7d53242d5420342d31e3431d36ed685c9a40d4201db436d8 0x13ee2f3c97b96d3f517356192bf6a67980bf2bf960a1e9a4399186afe7e9f447991daeaf210005fb7b5f7103450dcda4 0x4c1548bc5c11ea0770f25a5e9cbedc045b0af9b4f55e10eec0a1437b4d1751ada1ce495fe6860a4b3cb0f721220244b8 0x56674b5ab56635e2ced27a5d436b4ed06ee30bfe85af8587d591a9e3fff8744a4a0c1ff2fc4e8436a5c86cdd30c7f70c 0x0 0x70de69b1cea89c5041ef92941528c6059c3d92420b66acbb43f88f4bdbfb02d19b59f307a2e094b08f3687c7ab5fa00d 0x3b7821108dc1ce0f5f24157d5747b71efd4b9d8ff3a2d810494f4c75457155563152daa22198320c9b92e43e153980c4 0x29a4fd6b39722de1903a5c03efaf67a2e358e80de83a19d4f10cd2c731c2b60e6229c905e60930fdfa0094620e851a55;
Dbl 0xa849042763b8bb928706ede6cbac4e22f3ac27091b7ecf97d7710b9bea43e7a41093f98c2ad5096cacb5295238ec0d7e 0x7537fb3f9fac412d6f59f0d7421ba6d5d26fdc9a8416a886c2ff9583f90fcdc09c2bdc4a6cb303f5d79f493c2458e73f 0x9843123578d24514038ae226f03a52456ca17052df5c24a993bf861ca846f902f61b69536a5d17be4362a6438e9aa5ca 0x9eb633fcf80d2c11e2196541e9daffa3ae4f4f5edc8b411d7691f12beeda2685fcf1d263b44d0205a3c027c820b4e664 0x1 0x5f5fac36349782da03b311d556f8ae73a9911ff1d1a6bfd76c7738b108f8b68fd034682e2bd4cbfd64c8b62ee711de0d 0x6e9fea47116a96b899c83b7174fedc9ac8acb5b4ab10559ccb337f397854b3ab0ef9558948e93489f76d837dad6e7883 0x6854d6a61a503d716d85541a098b5a3a5abc885c0b7dd73905cf6927be2224534134a4bfccd377334df9c75323b0714a;
Dbl 0x321c676e397078dde462c733d9f8d6be6cf058b9d5c433010fdf4d1ff46a6706f75c16931d84e361bd6a626bd9ad5a6d 0x3081c294261632251242086943eede1604cd923f55f23a8fd92c7958b3d9673abbac8102999361286e37e0d269c85ecb 0xdc36448d686a279afaf751889959fbf34b21e0d3ae1da09d227569fc82773c061a27271a255c8d9331db5e857e414e8 0x44b638ab79960f085d17e86dfe2cc8bfcda24a5b2e246df6e9d31c2b45366685e07f5b47d31fa2cd69676869ba908874 0x0 (-0x6568aae0461cc0cf59459542cd3a36929288518aa823daf72b340755ee13581c99e55ab40d2f6138d139d5ec26aef184) 0x9cf1b8dd856617f088e3f20609865db0857acb8d5289db2027a278a6b84456d3d6c70a4a77203aa712d6a5c91375ae0 0xd7336c29704b5bad7e362c73f3aa66a2a303393ef902a767bb7aa284ed9d21441bbe7ac53a46095b6168d0c1c97d94e;
Dbl 0xc00f685979886005a45edbb858160ae2056fd339c556396ebcbae0e0f56029b26730dcb5d603a3d946f4c57021ba4ad 0xc8a919a7ea65beed072eec3b2a2c2457175b8ad54250941e770d4f6f8b7c12a8418ff27fbd7b9285d5d607738454893d 0x1f46ec4ce583fda6a3ecae11c9d7ce0ad51a34c1a800cf7e3667d95d3a8fe0112bb16b50120fedc0527bacff2abf9f3d 0x67d8a8ec3bb073380b131c2e19c2b9beed72076a13a1a671621f29e9285d54917a1c8e81dc17cea29861d95fe573d58d 0x1 (-0x1a48544efc4707f3bfbbe88db5212dda516f01deec2697f0f57e315190645ce3c420cb5945075a1ec4afc082bb2062a8) 0x90171d739b51a0083fc119971f9a7c8c27fa872787478bbd42f7e2107a0abe9c8875d6d193c10e8123dbdd7d7929ea 0x4de8beb762db420626b514555cb8237d36fdef491efeff8aa3e2aaa81930a2b527fa7053bd00641541894299eaf0fdc;
Dbl 0x23eead3be6d2c9b297b1d94e63bbbdc38e083707ce65245700aa349d9fc55fbe0ef4e20b5e32b160e38934a28ff373f4 0xf910ebfbb40893513fd704b7c1c26343ccd9fa5599cee80c69c951862fb21fd4b1fdf7de8d4a71ddb065876369feeee8 0xc62e2af747190a737648b908b5e6509710aff206568a25622a10ae0709f4a12ee5ee4625a14c33ef67787c6e78a34642 0xcf982dac365d2b9bc757e7836869c1134a81907fa881ac120d43fde95bc9f2d28f91faa0303120a8257080111a559a54 0x1 (-0x1cf12408add59670fa4d335ec5e0e49368a94c16d02427444d348476c6cfeb98c2dd6d6272ebc06a189ac1fa6555750b0) 0x50b21e4f1b8d712f7707970393344f3fbb9a8f3f0bd78723a2342bee4c618a48bd9f632e991a73ba5a8b33c84eae0d2 0x1d235a336ba6d66fd3d0ec65f32759e6bbbe164bf7844f437d8f6605cfba46bf7580587e69f0920fee83f21cabbc116f;
Dbl 0xefb91c876583d12d4811cb0f3570e97ce8a84e214dc2aaaf453f2dabb362c46098f3b0f3e4b217ef8853e83436473a65 0xf167656e54067d5129e474428b18e5519c842751cf28893122f2ea5266e0a101a6e456c4ebde570515eff3770a75674c 0xf422050f1fa8873ed25ebe80ee5fc17891152472d59d2e698553516f68e20e9ac9ad866fd35de55727174338bac64d61 0x7a9868d6002160015f2907536a97df23055d303caa65edb46d66733c8d17ed30b19a119a16c1ad89a7593ec5f89879c 0x0 (-0x163ccf56a6c3c59e67d212c45c78df2cd8ec7fa25a8e431ab9d5daca9961a992f3a3e0b605dd202e513193655334ac157) 0xe07b291f0e6abee7ef0d2f51431453030af21fa1216e3de10b986b93c944004d6ea691e6ce6bf0ece80f7204d11b5943 0x72ccefad0f39332391629c2611a08a9796fe0ae326350ec283f3d67cfc432b34459a04af19a038d0ab42367d529bb17;
Dbl 0xe9e6ea3511833fdee6d66cd47c1c5a642b1389d63ff6261b94ee28c9a8a7cf15e29b9204d0c860bfdeca79aba79f367f 0xc8d7badb4f176d776c2928d8ad044a11f4ee01154425b98f320329d79d4898d9b911b9a1d2c3763bcb474740e62d3d8 0x1b273c7cc8883c2ec479075fa26ab4f1e81d3037bb6257de00a0b834e36aed4131b1bb70055dba142d9a34e595a7f829 0xe4d9e9c09f150679b321e1b50048a0b07d3547407ae62d982fd2b7b4ed0c17740b533b2aceb21fa1593b7f02fc129374 0x0 (-0xeccd2b2b7bf9f899a4611c69eac3e5b691df303032392e2dc81cd2ed314b729f1fd07c4778c4c998ac6c4cd01670f691) 0xd5b6269e4781711eb707bd77f43053f64af1a20831e8eb73d602d5385d9104b97554d7046cb825a07a223308b3f1cf6f 0xd118c2e6f448533408a2bca4722a9f1107c1624b5cf59246f22fe6c45a469678a30041a27c4b5ec7ab867b3f1710a6fe;
Dbl 0xe920252d34f9ea024feb63ba7358dd75c85660f07720be7704fde86174651e099388e6aa77f8c1ca1dcf0cfc4a366b1b 0x2bae9f8314e50e8f89a3a942960dace44955f94941bce5c182219414845658284cba9aa252d3f512172b3701e06f50cd 0x89c34851a32448724b0f1e59136feaedb416422b5db67b793260c42970234bd059ff362119726bd1a4895667fe54475f 0xe0dedc2aa00c6847ed1ee94af4c297bcd5f8e6c8128575d770fe9e88f57e31644ed680f6ca584251a5893d732df3830a 0x1 0x2f9b886fec8d655f0a33389bbc8a63851cdbb593b918a90f7792e12515e8b0d1e7ad19755c39a0a0d7cb0cba21dcb417 0xd44b87b59b2243be9e85e1567708e0c76be33ffb9876ec34c06df2b65cfc20fbf3131f2b913e4c49f73a9ce9050163a4 0xccc712e63c86f420f837ea1c62bc6436eb95f7cadbc651816f76b84085fdcda2c8c9b4352ba97f8d6ce3a0566b6c3f7a;
Dbl 0x151383d92ba21c9a6cf681b20ab78d126c9d4bd1e7eb08f08b8d7562e3ca95205a90e25961959e6d8b45ee02e74a7e75 0x3e9c2dd27f00128daaaa4f9faa19b09636a26654f776ee76c96307a560f5afd2e2193c62ccd4759025043ffbbb5ef8a6 0x8e3337f55d674f6bad380091b02de357bc00520987023f04685d8cc3aba26b122df33bfa205d7508b9b681bea912e417 0xed1271b095e4fc01def959a2ebf3fc4e12b392f44a45f74ab8be8c6f2360a8546aa15e3e85ff7f81f226f70725105826 0x1 0x52a8a7f12012da485f64922394decfc615654b6a9598485fc1ea990181e95583eb8f756d0803ba14566f6d9d9d8ba2 0x1bc351e774d0da47e5703739012a7bd245f133a53e4cc74a089f09c64deaa60a2d9e4fe7de5258e2527db0dfc2238c7 0x138495cb799edd4fb8d8a9318a9709f26f7165cd88d17e47da6b60642c033a9812668f16a8503253b097212ce6902e18;
Dbl 0x3cf866b68d9acdc2744d6dcbdee0566f9fe3b55cb93e51b9f4b6a079306bf2ae989b14bf6e5fab0742f8ad87c6612824 0x145ebfb0196c4185325c084e0b4a5c2525c4cf4cc46b360775d7a25fb5a0c71086c1ac26174b97edeee3af9a82a0214b 0xd3129e29ed511cd1de0255464b2a15b0d32ff6e78ef190c65f228d817be18227f9f2af8984d53cab95f4f6f0198b3d09 0x2a3d6e226593d108784e47519ecf547110dd9708330bb86f538b6545ab54e8c25b57903cb588dda23620906138bed75b 0x0 0x15cbe7258b2166238fa58fc52e990f2bc6914f027579cdd79f8562f3fef4667f97066d14b5a36a1784633e9b4c38cc71 0xe85612cbd48e766d1ad0aebc481c8ba9fe8d44faf5d7cf159698fb888c0df8eb0f395c238d48a2d96839029d7cacd87 0xa0f62455a0c6dae125a037633e0234bf9019babd3c3aad915b4ed06ecbe606a83910ed679ba3c88b6206f9bfaa6a054;
Dbl 0xce0959e039a6b2382cdeba63cbf4563144450073fafe5744fad127c3be65a8ab820423a47472f739a4202d1b56051d1d 0x61378049d80ca7aa49e244bf17574144d6ce03e9f97cb7737a1cb60e6efe6d576d479c332523fc8aedf8cc52c65daa14 0x451266c8e7acb855a2248bf7d20e624b91d1e2b0a034670cfa2c4eda29fb53b04c88bd2ca71e7669afccf72f3e7daec7 0xb3273f66415f99dae879c38ef3f31ae04ef6cb62caee7e93fbbaec5146a259b8197a0ff1f2279b6300eae348bc427736 0x1 0x14ee48f00c004d87f7faf34305fb839138845b8b1ed88673bdd92ddf75999c75ba37948c8a996cec89cf351f7a68365de 0xa5d30cfc4e1a0105c8c8350bbb88aeedb79be5a8f91ecaac26eaf957da4d8c9ee3365de613e84ee07774bd21292c5761 0x9030204b12eda5a77ad62473d857c87c888bc0bc1c931d1c19ecfa123c63568a42aa9f28a34d9d91abf82c3604f24cb2;
Dbl 0xadd4f7d89def4aef14ec72086d48d8d879aae821ac31fa1dfa6f28f1f685094a20730e7beb682cb71637084a61b1e465 0x1a4bb4fd10a2a1d914ee54e47a99a7745b6aeec70595b342a76e302a447423ab7e33e89e7557fd5c639ba3487789af7f 0x4533347c139bceaafd0c500739e1d3ed99a741a54c82135571e192ad303b87cfe4517f69f8dc0dd01ff77ad5a1692068 0x46ebcb4cc76a05d134f3efda9cbd99d07b631522f3e70430d2ae85e42a8a49abef13b394afcbff2e8a5d290a4ed3fa95 0x0 (-0x10f3869cd4bd1160bc9e3b5e65e0f5b2a64cc374bee117f2ad95980aeb6dc38fe775a69da5009432fc5573b6d118ac59) 0x76098826342eb7a9e619692614b85392bf4127ff6f12ac1c08fb287a431032522a4bb868704af748dc978aa5dad6f3ce 0x30285850c2334d7e06c7926db5316a72574d5c16a41668e2377754e74ff9cce38dd86975bbb5c134306c679045133e66;
Dbl 0xd6b2f1ebe01a82b77b1b3e50729f9069a75c2f82f8b8c164fc14eebf970deeca287dc9f874d9052892c4b0fb7562413d 0x995b5b2a319c889898dc64ea82199d695f8dfd4a830a0d973048566f2bc686a7f6785debd6cff1e318a993cc5712ffa2 0x29e5ae4f35396542df966b7d2722305395b2911078f712f289f3b0639b8e1e809893a729518a9a551f67ebd36d293338 0x80f059d2df0619407c11eff9f8800a0afbdcf17c828ba5ab7725d9bb18ad9d0287bb8ab19e880b794af20f7d2076afdc 0x1 0x6bf7f4498076c6a713dbbbfc0ff9b7695f8107ad3166804a7c4e640806484adc0288c5ed3804d28902c6598df2886170 0xb40fa98bab4decafa7f098365e4d95f6adf36c0d8a164123233b5a63b82977129d1a96cd76a30bc669186d7e80d25617 0x6c230c0dcd1fccb908eaa1aca134846ea2cd429f3f8f59034e538fb8f59681dd5739ae7c795c6f3997bc284b516b9034;
Dbl 0xf57495b084c15f6f11d2c57f944d89b20c388313beee3725b405da0e1f30da73405c0efcbfdc0a55143f84ef3835d245 0xe52b9b0d84576adb3dca9d222da5a102a84e06a3c94f7c33e0f05b71fd81259f6bb5232de392c171727413001580ee63 0xf757edbe7a3800a4fdfe562edf64684c234659f9d842f98b4db920dee10ed4b59d96932844b8df447f997dc7e4a704db 0xb42fc01cad451dbd5b11c7c85473fc66b73ff6a6b9ba91634f57fafd2e4561078ac33abcf33d3071a63580cd4192113e 0x1 (-0xc34331ee677614583fd1a82296af7ba5f5a2cc53f746c883297147ac2f91ca394b562a3a0e4a2de206b98bb3fb4914a7) 0xeb585b9bdd996428fc9814fc9c9ebcc6018d08861d81ac05e1f1e13e273d642fc3ea54214b65800db2838581d65fa70e 0xacc3c1da87e727929049ab8e14c27ce396f35e54146c21f75e4936938a4b7e940a1f4b1556babd05710970f6b176b65d;
Dbl 0x50b62ce49b47f057f297227fa4147eedf160c5fb8077c4aa65489001dcd37c871491e4347dec16afa2b98772a319b587 0xa53063f55d4f4a496aa1a811d770420799457dc86e1cf66fa052ddad9183a9c70b6f2af68c57c7608bb00841cddc521e 0x150c10ee0eec4ce10b85cab2d331f284077315a3a8801995f0b663576adb3b812844efbb1b6411e9a45ff48042848025 0x3ffb371827082091d328f51056355efb0f0888db5b3285c4409d7dc46bfd7bd86045f837573afa10e6c40abe47a49c45 0x0 (-0x1cb7e241dd8077219c362f3eddd8338fd3536815670bda1695c5bbdd7c1d7f03ee4116c7e052d53bb5676c800acd61e22) 0x19725db2bdf92206659dedc2974c08ea5e1c461371f8967944dbcadbc84c8e7158cb16decb73e96988fe61fa19c801b3 0x142c090907629746487b5a863cd67aa458538b883e5156404ef3b9a286e3436fdd956aa36d9cbb31205cca98cb23539d;
Dbl 0x8079b674df85bce21b753bb51c16179dfc289510d17822e9c12ae577dd21922e16e585cdb14e0537fe1cc2258266d270 0xd2209fb4095b6e9a2601dcf98b6280718d8d948aa1da201a37ed9175d466aa8c99b9c74566d210b5f5dbfd58a1a61c3c 0xc73d6ac92a93231ba20670c59e3af40b682f77ef537c70924941d11f59582b75bdc833cbec9083ba9e3719f4b163f359 0xd30fc44153f3dbaf449fcb184c0dc1960bb7e93dcc42d65568654c37bd1cff3971b563b02585b6aa95d40aea2c3635e1 0x1 (-0x12aa629a9583f6e3232e542c6c68007d809ccca4d30c97deba48184f83a5bb5410e8129e78224014df001ac8869f321d7) 0x4079f052dc0b6c7c2622216ada91ea6f6bda068b9aa6eafa3e7676c45a8cbfa6a1d15f0df56d160e18c7b1ee1f22cf78 0x69ec3b01fdcefa43bd9611cb61ff77e1801b8c46e97e987a7898333645a8065489004c916a17c950502f0e506a584f0e;
Dbl 0x205f09afa00332cf21d20d780b22c547e53353fb2f0b21b76aea25ea3bc2916b6fea62466cbebef2182d7c4b92cd5cb7 0xba2213c7ad62b8956272beeb51d258a2a5be804e0e29eed161a16216ee89fb8a45346c2d84439ac81ac3b9d675ef7ece 0xa8fdb93c446d869e1c7edccc1056b3829132448edf5f1ec14759e13826deab8ddab5a0c08e055df0022346250328049b 0x17fe8bec5bf8b604c38f1e0e399027cee7cf143c93b03148d64c2f5ee5dcaf0254855b17e28e75eddb1843822bb69d6e 0x0 (-0x1d3095527d37a29a3f95699904c18182dfd044e8110ba0f8d0fe4b64ae30fdffa2fc918163a62a953dc9d268d69905711) 0x417e5b418b760cfe025a4622938bc983239f1393a457ab8cf1d5ac1a063fb7be5beda53005247613262e3445e91ac75 0x308b9dbe121920d403461dd208391fc677ac8a56358d199e099ec1a11d618ef8c9358b3e5e0673ac5d4ae6a0757e652;
Dbl 0xf606b599c79b2f27b0d9e6bf4d9daee3fa5bd7aa40c36834d6400fa8c1f95c2c775414b54e14dbe2756621a5baa5245e 0x1aeccc3245ae5d9352c59e322b81c70a39bbaf3a79969669337ef5aa4ef0651062e1b9c4ba2239ebacb8e103cba5648b 0xdd24a95db8743761b12e5af154992f9226930e51578d212b4560027f58553d2d44c97dc971234eced62f2e570abad918 0x9f35479567b45b020fad20b9265091986c02d113949358682e226c6c9f999679e252b268ca2160dc6e0ad8d2aa4a1a43 0x0 (-0x5130202fee7a97a6e985ee7a3a6740ec75c2b7d8c5c501d5fa35b6ffc2979d6f4962beedbdd82c5494d72796d022b08b) 0xec70e5308fa66a88218e3095d69589a04d3fb1b23fc6c6a23902742104431e421f209530e345350b8030a3c7392dcfa3 0x99015ef98dbf15868e910c714fa8ba0e75fee96dbfc3e37987d5c1ecfe6d9294dc9e9dcf84bb09a7354cdb417fcccd19;
Dbl 0x26a7bf14474f1f12ea564e6ae83a7ab28bcd305bebf569927cd088b4e0ea85c249d837fa1ee1ddd792215396d2c10757 0xa489d11a239ba6632273b220158d2bb248cda1784a384f83e71f6924a7e89470000539a7cab0712591e5bf6004091d03 0xbe1290e410d3873350bfece27b4e2540ec1273c04921fd6c21c19c96d5656a523edf609a2169436001aec01248801bce 0x7662fb182212b7303051ec1215f49b57f0ee0dc22f5e46e54c5f8c85a707d09f62dc801bef71c8c61ad321a4c79c4787 0x1 0x3a49d4b2878857f2a415a1ac0ef6ae1a9f555e121b52eeb60081e8800e569f350b5d4303cf1592bad2d8150564f1cc18 0x5d63aa4e03fca7770d76c34225a36df071b7c743646482c19a226f48cac85208d945867c2eff597c6614264cdf00688 0x11e044349bd9ab4331609dbc257e893daf8fb5ac8ec31f042cd786e21d4c66dc606a60889e217a25207295608c62f505;
Dbl 0xa89a30d36121484298c6759f27ffe6ec6366706899e37d6166024b43a6d0be2e6a0255f1f4d45d038d08941334cd90d5 0x4b43356e9d4acc031fa55ddf3f02cd0a9a0efb45d5bcc56e6711023def604f9014adc236663653f592f18c09aa3fb52c 0xbf9224587fbde625c9914c8e087a28b14f1dc95a6721b63b1f8fce5912a408b0098beb064745427c79d9f2169b02d0fc 0x59469bab8650da6002ce5440d68a5ea7aebea632747b8a15800e66e6b88844dfeb577771647a1d2ffef4335659c967d7 0x0 (-0x42e5454e6189f3aae8e2918c06fb3e2507ed86f0259109804abba3811c30fbf79831013d005688a5bede134b8be2fab4) 0x6f0abcf4371c7dd815749d4ed894e1e3b05008cb32b22b5f55a21d1ee4a5dea9fe87175b158dd39d59ceb93ce33f9df9 0x3acc1ba92995afca61738a4b25b846c748c2ac24def05eb3a679657ca783b6c59cc455143e19de97a4bf2f61115b96e7;
Dbl 0xbb0a9e50f1db29658fbdba9095b1b22f1a0e7fcb9ec381ab32ee09453008b9cc5dab05bacb4abc0c6155f9f1060e0af9 0x81edb994ebba96c8de81c101b58df192ed0f17742ef0ef360b81f5fb2ae8f15ed92988f99bcf52783f4afca6e2d987d4 0xc4c6090f1b6e5b438bb04837cddbbbac54c0448214996f8c6e489e1b10e4fd21d29c151f366014c3445201c42fd6596f 0xc9557bd9b190353a41239cdd8974db77acffe3d1a6cbd6385b8f0c42c4775e303b84393bca67017d53a68f63c7662d57 0x1 0xd58e0c9a321117a5a38025e6934940d23cdfa53ba1f3782fb613164a5c8cd86f58a8db53c58abdda628aa47fe43f8475 0x88a883bb019117bc308005dae9f5378e92267206c248c782b6bbcdf6d1ed1bcee200199a6db8bd4e098aec9a57a48bfb 0x9319cb5146922c6993c57f33ac490b7c88753b767a24b900c44fa908968754127eeb8ca2d79730cee931a64255efaacc;
Dbl 0x1584e36dd8a6780a0b4845cb8e829ca6709c534cf960a274cc6d656de6a6fe47cb28c9d255d3842a931cfaf37a86b253 0xaa03e980804ce174354e527db5ff2b8aaf9c0a1417a4e86d714592a87a2df918143f8e5bed64388d1a7b6d93e8609cc8 0xd2dc77b07d0062e5c2d56ae4cf02599137bf8db95d04916810d6349fc74dbe90bcb26eb15d719cae1a8d4f9ae781eb7a 0xd7e9d0146b6db554a9336e83ff8ec6083d730d60174c06c89a3c6352b0baf845c4e9fa9cae6b19eb24cf8f13fa78eb0b 0x1 (-0xa4bf8e05c9ae4563891f43ef2d156a616f464c5abd6993abb561e4022ae5b6fed72caca1b1bf175d46547699ed24834d) 0x1cf124b58deb8b6de32dd5bfef8d4f27f3325f617dd5599db8f7ce907e3b1d5de717d8b3d5b0f1ec13c3e0066f82587 0x12264271f020c6d1b11aab8632e8bff5320270c209b54b264e654b342747dcc7e3aa675ebb4e188d60b5df5588f46a58;
Dbl 0xac9333180d3a1ede967cdc05ee5699fd3c590d07c6fbcedc49320686fe2d8635f531c744485cdd599b25a9c44afb89e8 0xbf84a9a55523b5ab3eff91fdaf816cd4802c808d7057cfaf08b6587c6a441f61eb94779f0cc9b8e4af9ebc7ef2c6f6fe 0x707b147c0f5fd51feae4442f481dbc7337c3ac67e03861e334b95b8305faaaafa3f0f1018cf9af8ab4d7d33910b4db22 0xea7f3fdb2b292bc8f64ec080067dbeb62f6f8986a74d18be688f3a2c0fe9d9b528ab16bbe09a7fa86adcb115f599a5c9 0x1 (-0x3670d857d5b3dcb3f125642e8e4a384404087cb10999dafa675e4b898e10d1351fe964aad10a2230adfa41b490b24c63) 0x7456214c0997e1c231ba09133a05802f3cfd15123585d10d683338b29e99451d56a712a4a450774a009dc7d2ec4e0e4e 0x9e1454c64d9dcb8dcffe58bad99c5786ec806a8aa21a4703c5e5d8d6e38bc0c6cb7b4bd095b22de94725077c852cf774;
Dbl 0xc2c571794f4f9472c918f02bfaf6f67675d065f21eb729bc33c8a345281c9f96aa20a697f02a1020dac265c19a3ceb64 0x1ec28025ba330842d1c6bce564591d1598bb969c1b6fcf81e113574a03955391ceaa5177777bd97ccbd89c74ee69fc0f 0x7bbc02cdba9a279ce3c9e311a942b396d41ee6ec70ba0b4d391dee1c25ecf4741b0007d15b2aaddefd1e4b9e34829dc8 0xa0c2297f9af0ad686d38d5184b284fbee770e9f154e8002d27a3013266aecbd01cea2627954ddf67e3c6200a045cfaef 0x0 (-0x102ada17b7786b0e0be7b6165efa646319505abf9efcd3414cdef3a98c79e168a632d498d24ad6b866921be8e11ec3287) 0x942fd843b334fef8c44d2cca36b2d8600dd4fab27a9a29dc0253ab4ed660047c8ebebcaef8b028df6da811f254a72afb 0x7a4f201e84817344905b9e93b4a9745578925d871af6a0391366cd7aa65c9b57df4ae4c73df14d494880098ca0880e8e;
Dbl 0xe160bbad2b15d69d71287dd9a6f2cef1cd84572eabdab9d25aba6bf2a0c99072adcaa7eddf422d6c6acacbdf23d138a1 0xf94dfea620ad8c828d84f3be60aad0f1941d8442d2a5cf08c78f7b96ea7a5c797d3bd20f019aca87ee588514f72584e0 0x18bafdaea14b1c47301157448ca85c8cbe0387e0b65e4ead4f18508aeaddfd7f0c86f42702e421d6e8748e64ebf46b90 0x2574817f99857bc04441c92703ae4c24049e125948ca00791983dbb3191af717516e7f6775e10ef4dd801760f744772e 0x1 0xcec781eddb41ca0b4ec59aedff0ed088fd7e4d00578803da0b52e17bea4256051ae696d8c6b5e4307810a0ac5f90a510 0xc66b2e73b13325b6e14c77a8e10ddce212ffb482271c74abf96aa8eda6fcca3a500518523428340de33386c44a90a7bd 0x20f98cf726695fe72034f05b5fec537ab9276432cbbb29dbb2a5ef5799b450459e9d650f8f9dd94383456f180dc8056a;
Dbl 0xeb88f5f9f06097ac181f9fafb38a9fcac89c2d686619d861b0b68d84d17960cdcf510668051cea982a2210ca2b920b7b 0x6f44b85f8cea70bd24d1f005553a465c0b3ccf02d47a1044b6ad34d66ac75da695a624cd1072534d0f5dcfcc46fb3d63 0x98aa85b54c254ec3abe969010ac087d625cea93dd3971d8ec19b2b31d382eccc2ef7fe8715b257759ed48d41969ed02c 0x8a09464693c31bc568b303b90b708a9588e0b53ffe2bbec410e246c07fb2fed2e795ad41f128773adefab548b02a477d 0x0 (-0x2aad8af74b0ffbfce02fcaa0ad33a6d96877b9250ab451ef0e262a655814d2f493cb84c4953ae497951ac231a05367063) 0xd8b4bcdf253917357b0f648e7ba411619cd93d16f5f085ced6816b319f8f4e1bee5dba207dc1795a428572b7ca767a0a 0x7f005d11c40647593304fb527956947eed9d377fa9b5a12d8d4d7ea77c2406ab219bbb9723a05c26a8769b1448e683ad;
Dbl 0xd44450cebd598bd9569f9265c59de25c3ddb8d511f690f172a02bb209b5d794d3ffa1e931c4d8ce005edcefb34fe7ce5 0x392891c93affefdc36035df6ff5b3908868f43c3e14bf6a69f5b65b0e2bc84c91c010949b5427a45dbac48cfb197a532 0xa6980802fb968fdeb44d5162415b61f5a1e52b94fda86fe55c8e9f6843d830f3544779798025fca8838f0e95436f4606 0x361c269651ea80e0eece920e55df0d5384ad8b3ef32e199e1751cf25880ad8dd79a51b835b2fd90733b186fc95639831 0x0 0x6c15e96c7b065ace69ec1fdbe19557523b62df4a9b4b7e7c3f659f160597d44d1f171e67714a84386efa22a26f73ee20 0xb001381170f2c47f82808efaed1947c9106548c7d4a5bbf0b250caa7716d48f7426366cd377c570165978ec024337b1f 0x2cddc0833a7fb16952589e6a0cd01566cfed2004efca54de1b6271b8b3c25ffd944ae09b821f2a4a3865a02005a1365d;
Dbl 0x4a0f6bd5d32d4355cf3e182807f0f3a66884f6fb2d10c624837a2a64ce15bacd0011cf817d0c49e3686d36979083075d 0x2e76b3efd469898b23eb9cf20a50644c6a67ca3f6f1e3bbed107ae90eaa795f02202ac6b174686a7ddc55ae2790df1b 0x53d24077d10efdaaba16e6c9a1bfac8d4ed47bc4a2c08dacc9e426d0193a47b4dc12779b41bbfec23c41388ee298cd81 0x3641268a3db9574383c4a427deb632c3bfe8c71fea5a12eab24aeac7d4120b6a19e0de8303ce11db5dcff3218a06c617 0x0 0x3a1ab0bf91cbecf72d8d37e568cfdd95cf40e2030db5f6bcbb4424d78672cb4e2138cd464ba50871164c266bcfef44ed 0x156ceb456e915b5c6dad9c46f04f233da76021df0c0fcfbe04dd51eefc23a35f2463820296acb5b9ae1d41f4615bf1b6 0xfb219cfc4035464678ad0d7a9a77cfbb6e384e741787433f52a2994fb546fa567a54bb9b745b13bb0a162e584627c2c;
Dbl 0x5c809d9a9e1e3e9eb26a50f5c9bb38a5d94e502835e6ff82a6c3016b78ac1e082d74ec4b97bd3814be80c43df9d5aa62 0x38bf01ef8e1e90a40964ab2a9209aad893c8008c19636f5aa513701f9b585bc3774d66a6cde423d14e2f3013c8769ed 0x8b23082270d98f8f92573f3da3e336274059981af2b6ac21028308452a957afbe56836a436f7626072b187e28fda1cec 0xff5b7b200464af8e71a86f1c77846b973d69fc9b355bacc642bf43e714f4f3a1caab545b4496262d68f962adeb09752d 0x1 0x3c7a0b2c9bf7fcb9b74fc88eb3ffdef01f273ba229c554ed1c282007c06b5ba16c6287c1c5baa57a5690a5e497d97bc4 0x216cb1e51d4ade9465ca2b254ebd7abcc82e8fa732d1804c7f8b407f7e403c96cf892a813d237e1ef53fde80ef2eda9f 0x5c452b3266d9b690010362c30ab703d3b60576e04f4813281791d3242accec02af7f687b0ac2066251be876bed932d33;
Dbl 0xb07c1a345f3f62548a56f3c0f15cf1fc7f67b717c50e101236930c8b3441d0c3682dbd558f4a1ec2169165f5002a2559 0x5ac7ca646ec805d3407b161207b825b305ff0f39f757571dcd5a046239417d0c57de5b49e4f7287e7054c7b3cd2a0fa1 0x4dff2dab40e7d6d8f733da2aad7bf01df9c9380ec3b52c06ad93068a7cad09b62feb018d9ffdb927cd71ac20a1f0c1e9 0xa8c425ba8a19e337001b34a0a16874fa833d70ceca3edfd7dcf7329fc07408aedf967b1f87e719bea48e2b4e6f5d5a4b 0x1 0xbfb1553d31deb5ac4ea0476d26cb56b2a95b9bd4a1c4a5a91eda80e2f951e74cf314557c6f311442f1f5451f63ea7c20 0x79aae03168621aab3546cc8395ad4bb95d3ef3c5a2597a8e7d3cf28ffbae881f4ddddb31412886466cb6faf5ff920a8a 0x7458aa38f7c3dfc2e134ef3adfd85f0fb36f022def3268ae45151f3b8d824ede73aa06785b9713fc901f2d502bfba3c2;
Dbl 0x2718126f92d176c1eef3d0e2b2e0aaba91aa3101876d63692a9068ea1e36a2c5e1b9be07bf51ef6d8cadab25f8aef5d5 0xe90d5235a25a0af62364e85d0d12323b6b172df4c5c2766c7b349b273b415f7a526335bff699284216efbe1c9ac7d6d5 0xc15cbae167efe92451f89c5dcead527f49551d658cb85c9a5b6ba0845b6770c4212d72e95b859e5136743211ed1a91e6 0x71ba782ecc6dfadd1d162db4faa5f3779ae7e1453194e0b15225693afe001d91057b2588ee5e003c59650998326238cb 0x1 (-0x48c0d7b215135e355e1e857f664db5b10a1bb76b21c34220565bc55220105d7cb58b913e326c136f31e3094e632dddfa) 0x5f857e174fb3abb75b6effc121ea374279ffe060c5f51f2386cfa4dd5b2af136d123e2e32a4019898a4cef06b7e92de 0x115e19fb130eb8ba7d69e5dc8ed8a5a102504b96683c3cda8c3a96f58d8b8fc8ac17baee6f090e5a1211d22260fdcbe8;
Dbl 0x53c756009a55a061bedcad1c5de1b944ab39cd9f8b6ad6ba1662cbf81dc3bf53067ff9b56e2d964b07df3185ab3bcdd9 0x8857eb032eb833ab3badd35e7e9c8b7a861a28eb380f69a509a8bcc677493c2690c3e465dda835c3a3a3180c63716fe5 0xd7e9bd7aff7d7f1324744980be56ff1bc80c36d0f1971f0f27f55f6b3274ee31eaf29677ee61210941f8988f5a80335 0x60b5673273a1d74ae7b714fe8e75a6c0e4fd05098db30cc7718bde60c3f82353c19f515a18f0f27e734ca610375666f0 0x0 (-0x1fdec7fc15598e05458e3a6406b5e120dbdc6b302edd536d6ef465759173381dc43d6cea56cee749a1116b359226d4c44) 0x1b6adcfb35e7ded09e86a12b4a4df4db57f8b113040479dae7017c04f4e118fdd67c210021ea1bc83b7087712b75db9e 0x1fa61df5beadc759ed53077b4c7be771b440723a48642514dbb74e50c3906546e0bb58297dd29db8cf0c3cdac0c723ab;
Dbl 0x4998cc64d097ac35cf2305149e5be8b2b4184c063cdf5f27a3f7b3ac3999e9a70a3ae42e93b8c5e24feab62d11fcfd0 0xf19c3f9b433eb6a3804100caa7f6297ecbd8aa258512e48ab6971da1cc7fdedf3917d3a0900807059112e340f47168ac 0xae61a171f610090c4a1e9b515d38904565d24d485a620149af40b68bee4928be1b7078cb39d2cf6c45e0b1762d8b523f 0x96bbab67eb797d07bb6cd293d6a661fbba417ec5b2fc851a53119f24aac95d4657ac10c44da02ebe129034cc6f000738 0x1 (-0xd95c72a278e8b7092ecf7eb6962270e3ba0186294184e9aa6b3727e2539802d5a170d78f4e2d82e0d648c118f1d3c398) 0x15287fc4d9df08788af310597a2ce9906c2bf3bef8512ee78ac39a344c960fe6c33ae9fc36a0fecf0b624a1e423f76 0x2b557ba7509102628bb99840cb29cd471df1b2aad027a88e0b3171bd8ca57cbbe884832f9c0a239a7ed94c2558f2ff4;
Dbl 0x3cd7f6c3438a6658c5831223878234babdbe84c2a702a4fc6e5f3bc471ccf4270c0d51bd69572192d6914f529f734d11 0xa46a47ddf46973057ef609d88a31bea401034bc577258ff1a45c8fc05d71483b5478864706825d81c112b0ef98ead16f 0x2fa72bd3d53e9d9185854e37319ae89999443876637265138c96ec6b69f6fb491c25e56ca459fa0ece20da3240448eeb 0x4d31f7bd4ed5439e014af6f21dc46adacad55e600ded5499123a8de16f0e96a3e49f4d598985a983d00032515b86973d 0x0 (-0x25932b1877d2201d24f021b6d81c2afc308a94ef8f3bbc79b4993bf50240ab8ac0daed2130ad529398d992f2aaaa837b1) 0xe75f1dbf1802d2f790d75e2e3bef8f5c47f42cf3905902c44cd05ad4221f44df50470e8a96d3829868c948a0f5467a6 0x1258d57053f49f8b928cde42b7218f694c5ccb7024f5e1cb9ebf4339c9f776275e387edbf6dbe0fa9c1d3ee80afb7d1d;
Dbl 0x6ecaddbf6b2237fd510ec3de68fc2c3aa7a37804fcdd0099d4019c13d3c877128ec85283aa2c9bf44560ff71580b078 0xe6ca49e150d457b329676ef73b33ff31bb7b6db56c89583a8814adbef906a056aa3255a6236442c537bc769c51032bf1 0xfba7e4ada13ddf5132e5722e34b245c5ab2683e72ced02576989525d56e9baec929083444782094e61801510f83d65d6 0xbd9ffdfca3951b52558e9ae14efdbf724587de100a9c37b71c47e201646aa7e3aa46309fe31e1abc89563a5447e7a57d 0x1 (-0x13a35159b59be22b7e3101fddc4d9cd841f0784e03259f0d0c098f35297584f5c91416d1a52f08869fb7038d9ef01d1f0) 0x2ff2f753323a88382bfd24f35cb75e41dd220d8d7a1a1fc40d716f40d294e8cf86c8c8049c0158b5a479d5e133968f 0x521103a1df9ff5fc0b37249b254caf20aab1fb53e119d8b245ecf85d08043efe5089b67c777bf93f687257a42a67229;
Dbl 0x663dd8aacf86a281b109fc1cb729a90e364ad9cd4c85109e47974f2a487d8ab9e63bc79537598f33745e72f8ef7b9cf5 0xa71b35dce05d1a617764fb2e242d62ba742c86b13923e885664b60e50f3e56a453e95f4e14360bc1c9002aab1d45a723 0x39661ecb0210eaac11ca9df186bef1ac969402b14789d1cbc9f5982352f40c442e706e9e070539817e448b99b6904e62 0x3faf140470773d51b20273c917069c77474ee70433656fb521c94cd9e9c849b25648f6580f2e37036ebc4bf133bd84ce 0x0 (-0x1a72cf394224b1612804d3b9a54f48dd659c29353a37460bf0df462a65b58c33a9b27f49780b0a1352d391515b5b330fc) 0x28d557991626dfd4442804454593a9ba5c7e62807ff97e97d4135d0f144f2d244849abfe3d6d004c0add3afe15a27c8c 0x196f2497c0a567f09381c2478855e8c9f260dfd60f0323b474db5429f5882880719c35317a2effee673cdbc38c861312;
Dbl 0x3894b2a3940e47852075f9ad34577164c1b009ea6c739ce3eb99d8a04c7cfb5c36f9feb9a49ea053b0ac83936e9175a8 0xdae976e4bee33dfceb3468e9874cd0d472c8dab9ecb753834fa63884c733aa386073bb163706e5acb5004b5dced7e5ce 0x7453fe3054d9705bed5b9f08ff8a86b5a121a9365e9f0ecce8c517975da6e7e8f32b946ae323431bf61f4f0c28fd84dd 0xcc31bef82179dc648c3092449ce091e60163abf74c6c950216a52860480aac6af375a436dd2f261513ffdf4e4e6dc154 0x1 (-0x12dde2dd7f50e341fccc6ec78c26e06b01ac85b67aef61d785c538845f2fc94840e92ab6b8539ed866a9a678e2c1a6848) 0xc8164869a915236ab65ddcdb0aea8e534ef8600be1b23c9c3744a9b2e77b8d28ec9108de3f258c74f0873d52b0035d4 0x2d217d05bf53481955408b9acf4b9379bc7ee83120585ee401b78a732e465079a1196b1e34db76d710908110a597901f;
Dbl 0xa95eb61ed4cd671a9c3a4ec230b7f204802f27f07d2aa8219d6f24613995834a7a93732578445caad8c914bba3715927 0xef9793b48957ed086ddaac33401e64aec86d690a1ff1c027d767e4f2c7b417a1524a9160cfbb432be719dcd22c7c7546 0x9dca578f4f22bf4b96fdf9d948831c2d0762a1f05b16fba63b7a34386f80e8cb13a51461930f81586466d45884a55c90 0xeb51e330358b50f47d59bcb6472e6c25aa5b71afccc5935b783e5391ff7f92960e2929b4674ba280cde66e8ca25b7087 0x1 (-0x197aa6167bc1b078d188d054a7081f3de758460b101a3b00e3721f56c604196a2584ce60cce3bed465d803d5a79cf900d) 0x700e2f7ef52b534379728ec01d7a6bb76e0994095eeee4af3798e7a482611f67876330f27afd8504e8aeafcd4cb21cf1 0x9bb01e74cdc626cdb4aec9bb3385172729f70e513cf401290e1a34f1a4887064d721eb2309c8981b0ff293c286fecddc;
Dbl 0x884e62cae6ae6bb70ad58ce601f3e81c91087655ae1e08cde328bcbccda6c5511c252f68c07a651527b6ccd3ac2285d9 0x612a8a5a5698c6833f02150e82d4cdd03b68a37d56339cae1461dd48983f800c35ae40c298b09beea5ca6c71bfbe84d9 0x4e1241f4f476e32edea522cd9996fbae3e755d1ac1dd52588c33418b15fd79160964403212dba706bd8a302430c12f57 0x8e6d095a32bf26852ed89724bd4996de8d04c58cc9be2379c30607aa2f7497951c9c509e370aa73d414f70606cbdf06d 0x0 (-0x1f8ad80815bcb71b99b32b7d9a911020046a074bae1ba9e266aa2b2c1d03bb1b7fba284b1b12cd0f7c247a94c24295eb7) 0x489360f7eeddde2a84a5816258bbc52173db8f43c7cb2131e656d65f6b553b8ebad52b57c35022c278917f50ad183d74 0x4bd589276465ebbe82d266015b1045d2cceef1508baa16df88c9a664e782b4d1badf986b2631cbe4f5bbb429b0031e82;
Dbl 0x720a3c641dcc418038655ba0f72efc02c942aaa71ba547f608e325c95ab545fb3c1911ae85ab514475b38b93434adc7 0xa6e91f7bc788147dfec29bad206f718b089308abca72220c3ef7d2423f9174e821349f8764941e5674b2c9a3f521fba5 0xc1ee3a5cd2b8bf6f986a639d7aa91c42738c524dd5ae1ef21a835c46822311e1e4be4a2de07399c551c7be14dcacfd16 0xba416ade8f10b205403f796162655c4532d59ad18bc17aa1d56a0b0658ae0b231479a13a341c7d983117a2ceca9c8933 0x1 (-0x6a4ae3ae6319a091a9d0d613b751c89fd189077700e17b92894a4e6b76c46d100e4166560a28b24d61a79049aa85af72) 0x32cd1e31f09b536a59fdddf198bf66e5b927c065d0b3bcb028ba3b675bb5ab68a099cccaaf528fd5ce6c1f8dd074a6 0x52f8941574aef3495c7e709185b1411fb3dfa31c6aaf16ea50ff589bef36cb92f75e06bc00453d1d12c6dd08aac0ec8;
Dbl 0xb49a901509190138a40e802df8029adb74eedad5c6bf2dd7c8e8381d3490326ac303910849695761062c1425273c4205 0x1c9680815fc581a05ff9b4a3587090cdf55bf77de67355a1a13dbaf47ffa25319e1f87fceb3b8adb788075a99c901612 0x779876a7a9b81ebb8aaf499bb608a6caedce030230bb885eed4ac3f72325c589d376123e4fd22a600c5bb6c2f06dca9e 0x8a529efa67c292dd9ec8e709c7fee0bd1337112de3fecc6a9dba174dbf974fb68315178a7958937afc3253fa5891e593 0x0 (-0x34d84c5fed56bd1dbe81fca0762d67c239f10cb920b0b9a6ec4c3c6a705e1459cb8f17df2c9155b4e7f4641d29dc51d4) 0x7f69b7ef3f31c7c3bea676154f41591d1c0283292c77ed10eee1fe05250c29ada7c0c9e7ff7270dfa9e43a75fd757943 0x61959b558ab5898963f9fac4be7d746ff8db96198a0a211409f009d0c60c307d2d574bd593682469ccaa0589419d65d5;
Dbl 0xeb07bc770c42e94b2d73dff17d3b56c56e88288fd573a6c8a108627b84741fee4fceca99358af69885be590bfcc2039 0xfc233221c846caf98ef8efdb3b029a72b32935e9a3d9b940e0dc27201b6b8ff2dcd33dc92eb815fde3c6cd44835b8661 0x6e5f3c6924ddfed3f6d074fb4ce3177d06faa37f9b8e3a056c125da9d2ad4f49a7eaec8bc484e91b566508aef4a66823 0x20734e5f977eb6a6d100c4c81d6df65b4232c19442999c60c06193d4648e953dc14c4a32bc8374dd94b9a86619348fb0 0x1 0x425c47ee850983337c48da069a16d079dfd8bc3171c961f74b2b20da270c3fd88a01adfc8ea9cc0e7445cb81f19916d 0xd7c7343e69c495577500df7e3964e88d80358d2d89aef0728f49efc6d3eeb6b77cf18754cbf20f24daa9734f9565d4 0x1dcad3fca963facbc413bfc57bcaa422dbbdc463972de04fbde28a84e0a345ce9f6a33b7d9845d2d2b42209e62a3491;
Dbl 0xe7b0018c933eafa74ce3e763872c7c1b129b600767ff9a1405ce48aaafba9da2eb753ebf6bf20b824377b401ee3594b4 0x251dc53322b7a71e533f87a724c1815fddcd812e3dbaa1a3529dac7a2cbdcb9ac50dafe6ae81c7a00a0cd9e1070afd50 0x6d179b97dfacd72922136fc14619435dd1f0f100fa9dec7fa8a6164cfedc2cead58cf4841aa395faa49a2d5f4f43e59b 0xd7056ceea58f23db3bb9683416411912d55bb4bb661f179d8e3e7aa5eeadc45817c58de280364e5dd9b9f3637c508911 0x0 (-0x221384b4cfd566793b3b8b208e970deca98b993db3feafd86f3a91a34164bee004e776832c0c974d51a4a79566469d6f8) 0xd1af1bcdd307fd89516d7f9d57bd23a312aa93b69eaaa7f3bc9e51099ff9ae59330ace17c74d26f4bbebeace74d96b82 0xc299ba5353874152387c593b61a9686682df2c1b1d2b6966372d1ab481abc0d644af16cd29a1a691594e90db1d8719ca;
Dbl 0xf45d7056c49f9c9e6d3ac8bf049902434130c68e7ea321734e7920147a86af35911efdbbabaf012eeb6d79925c0764fe 0xd115e87e1bfe3489690bc09c8d68b5e4abe7bf81399adb267670e3cfd9c156447c61872eb0d7a7efe73c90eaa39e3ca6 0xc9810f88c4384d5e5bfd4cf2b106468c7ad07d7939d5587d4d2a4730a12bdced86982eceee09f482c42ba4ad935b6f0e 0x5407dcb506b97294ea33c70a9758cb7b31e5c1ad041fc67cdc2cc8aa52fc755548ac28b6fdaa1fb022d048f7636cc0a9 0x1 0xc01fc81a01bb85db7c30e344d7da2bcb4d5d73b9f1726709d09220cfba97880e8c929ec841ded5a3676c69aa221ef369 0xe9424040372727fa26a010bd5292316d56106d889052e4e7eb47d04ee94dce79228f913913d7c0ef0406716973f8cb42 0x50362a17a3e9f39b6c886863fe559b27ffadb047c6901aed9388068f03b1645dfdfa23817964e5bf15ea6424c0d728fb;
Dbl 0x7c243b0315ab97f44cf878c1091bfcb50bfe16c3d493fa111c676fbad3c214c660d629c2be036a2d04388ea132e50453 0x56a80dae6bac8b1fb697e0ffc0919df538c088ac2316a602881ed562b5c0a09f0af10bfae77ef3f977f32039cd485d1c 0x4fabc2bf1259802bbc65e264b1e4be6cff06b5d14384667e2801020aa9a07232c76909fdece4d5a417ec580cfac5bc04 0x7a6ddacfb051a969b273df9cccd717ef732736d516843523ee520e6d2400b5a571707b33c958b3f66f4970b0d655df8a 0x0 (-0x13ce0463a6fc4fe6e24afbae678b688c3209ece7c58d4a2e751dac54cc41d2c23c793cd4f31489dc4ca2efe5ea1fbc02b) 0x3c331e4ba376bf7e032c2003bbcb2f18804c09b7ff22c143561a787c1ccd13ef73c0367546a5faf697169e96ebf4237f 0x3b5e89a829b0da9cbc138a80b073e365ca9e2390d516f49384a3f8e00e4e63008738047444d1aa479ba2971bce598954;
Dbl 0x64dc7295e7d736eeadad6c67667aa6872562c8895939bc305ebba0ccf3e607e2a208890bf3a7e1f7b12b1391fa5ab88d 0x732d828e485842f84bff4f4fa18a0230c757ec66666930ad12b9fd5ca5726746a9fc71435ba694922c46d2723409b530 0x17a7b15838bcf4f78a8f5a2873589d0d4f64e38300c28756940ce0b4e90aee4286a3f51ed65a4e9cd6e474ac1fa405a2 0xe37a8b20235448276a9891b01f079bc471689c45bcad75557564d806104e395760f49ab68bd85f674bac4dc8993ea7eb 0x1 (-0x19389fdb2b93064170707c1af216e68268b49c5adc0b8ea5cd9bd02a201a8e87320f97aa4ea1bfaf19543ca9720ecb3b) 0x27bcf75a4210771441529d57c8547f459338291ad24fa191436078b8793c768e3427ab3beeb72cac3e3b3651226b71bf 0x599fc179e3b56252472b82d015aba0cb6edee56172a5345199ab2b42166f30caf095df6f08ef72452c00873123985d37;
Dbl 0xe1297c0c06c70c773372e08f473be4c44125764b6d3e4ed29e601a68af2ef93892a450b3487142fcd6334e0ba492c716 0xcf27b81a7e5c65bdc61becffd004ffd928b6358955568081290414a6c7015377a5a2bdde95b5ca029ff2cec170defeaa 0x5f8a40c1778f4b6042062db6a4c081b6988bca567e4af01bb80179b89d7eb7f22030f0b4e322208209b21507b53274a5 0xa405ca73c9fbdd3a85e3624fd18502579ea1b6dd1112b02be9b5e8b5de7113ce0459b363c5f0ca8f8c5403b1c32ab685 0x1 (-0x71d951c86a0793903c1b9b52a3238f39974d85e02b980c53fd4f4ac344054514b759778ba2cff495fc48ffae34e418db) 0xc609f2c61bdfb6ccfd88fde5ddc2b7346ee504316e91271b042f23f818d993ae4ecd49bdab6c575dd708bfabf9073326 0x9043ab57b3bef54610e63778711c38d4e046399a1e2b4ca930edd0ccbfd47e60a97e1115220b21df2494688f8f6f67d9;
Dbl 0x8b1b9cd13f03ffe77be2f2887e34f34212d4a083ed7f004b7745720050c442ca407362035bbaf072187ea5aa5a4095e6 0xabc9270edecbf1a73d35395c18cda6c0d1088a871ce29f5ab66f707ccd31bfaa5e0ba9255dba99568ca863ae5d6d42ea 0x747c0c310055a4076b22a03225e2202e60cd0de396231cf38ed8d12897f0628d7b58a89705691abe5e55999271ab778b 0x235e910b9f90741688e6b3a3b737591857adab023873e1267294a429f9cf93cd479714b937fb30ac134a6b131371bbc0 0x0 (-0x18f0f0724f01ead68a8955419f2e91f04ea0f9ea215ed3a3da8274f7583a5f4249ac952a01fb78a98c42a62c564684fd3) 0x4b96ff45aea152922f498438303410d3775318f8c394ad584bccb9417f6f575172c7eb9464401ac41bb8aba23c65b59a 0x133829652529962683b6e110da368ca75b7ab243657655ae22251d83b3f63c3c0d7694c93f8bb8cab59d98e50c687db0;
Dbl 0x88c0c573c9f85993e73b19662e6a8ac1ab37016172925f9f0aff9e4537e16bb124ed92f12b75f8329ae246384b444cb4 0x79dc566510cc718ff348797e2cfe67c2fce93bf5f6f39bf74c1ac3d8cbae3ef92dd9cdedfa0f56d06ba5918d74d9642 0xa64da09a5d9087bc89a8437e5c806f88626377708484b5f136275538892459a929f49d50cc51c42fa0ecd5d0c16bb523 0xa42b61a88dbf2a8e3e00b1c435fdc044a139f6c7bd73659b41adc43f4076dbbacb2e0c467e19a3e985ee0a95861faca8 0x0 (-0xdd5fcdfe06fce339057bbc35dcd9eccc66d125329aabf4892dd16254658bbcf467537a1bb39c8eede0f2b52769ae29cf) 0x490d62f3cc923cead1dfadfd4dc9e519b6f328e78fc3809e8073008f175b320ef30787ac89e0537107d2c811438cbd86 0x57b2ab0a6ce0c4ed24f894a613554c93e83444b6b5e1e0323039bd960e81723edf3483655e1cbcdd7737e43e68efe68e;
Dbl 0x9e4dc32e350eceb1623bc2abfaddbd7c1c9f3694d1f5d943dfe369a216fe9aa5457c514a5307b730535833b19f4b68b6 0xc4d678b7b8b51437a59b02054ba46991e97122d20c7c94185c489f26d8a3726790e25f4375774c695fe82b526c694c8f 0xd2cbf566d4f03d61cbd5e2b84e23a3b2c4d69c5a59bd3eccbacce7d2f9d685715e057d7dc8794d87ee5b973ca0083b43 0x42c74cae9857b2e159998592972b7cea465d70ed52f2a5a718790d16b417718701fb3d9a6a29a903a6d22dc76ae449b2 0x1 0xccfed471836cb9754a7bd834d5778b60305bee84df96eaf4695767ea7af35218cfddbc045c62eab492a57d9aa2dc3d45 0x61e4148c08199f36f72a82167220076ad0a9f49e3b7170296a20cbba2781aec0c36283a0619bf7ce38aae33e818c17af 0x294b4a2faf99d7e30c4f618f6e685abf85498685cfa026db57ca94491ea94a769925fe0936a4656860ce94fb80113bda;
Dbl 0x6ff80b5b0afb5bd9f40adca0c29e394e6b7cb32fee5c619e3582b62c908d85039dac3e483cb5ecd12d7634675db12db9 0x681f0677ca148e49d2a06a03268218a536e9ab0623aec713410902440096173fa62ddfd7c3a63f59258012b65beaf257 0x738623a90a9001eae2e30f877943e4fe6e923c08a845f2ed2827d8dca2d5f6fc51c614387aa92861344a189c24ca4464 0x5cb7723feea085edd2fa9802252250ecb28777cbe8cdcd051b3f9ce2d80d5b27eab47f6bb1d10d103a68189c107e5a38 0x0 (-0x10da5f8e802ae6da62471b3e2c9645647f71b0fbd0160f2555528e936dbadb3f92d7af55a46a4ed7faa1354e52cc78d36) 0x30f90a2ef46c33fb60fae245945706dd8ceae6a93a7863257da9388a233a08bf4f835d57b281834cbc153c6888c0fbc4 0x288d605d417f55263f3074e12925ae6bf2bef81e3c686c30f26f103f65c637616a6a7c56e9da38ba1b28f2aeeaef752f;
Dbl 0xbf14ed9363ceb4f29d4f9ea794afc96de7a07131eeeb342fd21ee90e0a375e4bb94e406d19faff152b312aaf1fa833eb 0xc35ce6fd098af3117da8a4043622f47036c458ca811056b54227b6cce1c1fe57818639a69c71f77e70dfe318bd1d983f 0xeb1ebb615fdf7e898de056314586f3ad20d76a35185df2a4d71c1f11dee3e163da37a38659966ec51ca998464e59416c 0xa4c21f7ac0899b3854f7c5fef05f24350025523ba29e705dfee14b771ed418e724a7a630273447dab4a02f9e9ecd5a17 0x1 0x2d69618b843c5b7c9936aad72118617d1e9dbe393859885b7a1043706a42658c512f47efaf2597f12f0277db35846518 0x8ea03c37ea7045f6cdfbeff04b46dbca6aa60d0d9debaa6929b4069ec97d12ad9ad124bd23ed02f6c8fbc9585bfc0334 0x7afa4d8d9e1688218ba14a94f5f5786a8aaaee4f10efa069e6382d01ccbc37a23aa52e8c1d468aa5a4202df1db973db3;
Dbl 0xb8838faec7fe9976161c3753b4f84d9176f4cf9945e977a0d4f1a384f1a1bea0180584068604ef002263086f804f8531 0x89ac606a3a976ac71e39d6df7a9d39eda5a5f852964452bdb00cd47a250b7a729d3383086b74dd327a605cbf1d845828 0x310ab22e1ec6ccb49efe7f18e37bbbe84d38da8eeed7cec97fe24da6e1c388f2916f53c326a847c509df5dd5defb5093 0x39b08692cef3884a5f6ecd24bb85ba82911e6077eacc03f7921ae252bcb683e4e452b69e30fd1a4bf67f86599f994017 0x0 (-0x6c562617d6883bfa8e3129b9f9019781ad88423a728efba35f2630d11b6155c4508906b95fd3f7fe393a213a805aa4d8) 0x84fd62279d0365edb86b896d00acfa7ff194af083eabfafb88eee59ddb1cd649b13b0542845d528af4d789d31e359545 0x2994866f6018024da69e98463ceeed70eeaa13f069b91a21bab65009d9cab5faf5ed75890b08701b5920a752bb9a5a98;
Dbl 0x551e4dbf070c80165ea129da551a53fd47d585fbdf729f900918c4c8084ac83b82e26a8cd089cc37294fcc7677340ab9 0xcd7a241c6f86d8081399b2fe2f6646b54753eabe08b0f0c6c29d6e967d57f66311040bba59c1ed8981fa99eec2092094 0xc85915d216726bd50785eb35cac76369d75cc779a0542409b1f9210d2db2095713790e38c89b4280fe1cf1f374a69dff 0xbc323c4dcb1092bf0aa023e14b36f3385e520d948d9361f6ed6f65e3a7b3840e8c2f774d11b2efa8f865c2d15b7b3793 0x1 (-0xbd81232c2e35b1a4486b418a390903569f9ce558ea29b00b784a5d653a61c3874c94e4c00dd9ee4c58d9d88a086b5db9) 0x1c4d23372b106cc5e9fb797c6eb548ea2288040efcc81a0ec2b544eae32bf0516240c97d540ef59d2d720387a376d733 0x3e92f510705740f3a2a756ebfc2d3e1224645e2a3d7a8b1722c6ba5aa3341a6e5d5958ae10df12f764e6c2a3c88f0757;
Dbl 0xc215b4762d1cc8e29cfe04bd3c25be37e6896094c1ed19d9b738d6ace69055bdb30abd0cda238273951ca8fa41ab9544 0xc1e78f614d9940a4500665d0a27100d35000ccf01e13abcd664b02f84cd2acdf49110175f0fc3c78889fce54aa512848 0x3e97e0582eca67fc9fb80f557cddee4a19ae5678d3f11bc7573263ad1d52f6959ce4bc1e54c7c9c4a80bb38e59400b97 0xb9294bb21ed9763c3934d2d8cf545e1f7531dcdea9d44f95c526b9e30854983c7f30a4468c5b110f95acb9a17b7f84c 0x0 (-0xbefd8a2db287c8135d5c7742a8f3a43dff87a3ca81b478f4b7432254358ebbc771a2821304a1a306ef627a1ea170c4cb) 0x9324e75a36f96d2e8419c065c17210a87d970bb37cd323542c3a2a7590209ef4900f34df25c43c491c56d3f4e6832f60 0x8c60fe46b3e0895a37b60a8aea3250c057c1770aee336e57a933a6d6b746a6fa5b743314787357b6f6c720546c07966;
Dbl 0x9dcc1a5fbd6bcb953e6b33c79937c6ba8f4078fe982f994c132c6f84d9fb8eddd38b0fa4c2e729f8fc185945d0c3b365 0x777dcf2ee16eabbc9ab3530f5e069fb0c2eff497cd59f8e03d037a8a098604ed66730c030a3c58353d2883e90694f300 0x93ba92cdb48d63fe9705b04e5c1a85b12567d53dad29a9c3f5179751f8d1d397dfe50b22f01fd34683eabca2753bff36 0x4a69c0326c2a94e7b55312c1446a61228d10d85850b9b2ed2947886e434ca7f1e29df572e6bfe4434b774a6ba3bc3548 0x0 (-0x16b72cecef9e0ae4b896cbc34df42bad387e8c958d9213b576e8c3829632d7b2fe1dd7029bc95a2396db001e999149269) 0x6143fb1379a3b1c98beeb9cda0f213fa56042417eff6d43898a46523e9d0022e4bc82ca39cb44e1bfea176b871a2ddb7 0x2dde2ecea657293905cd7fc0da94422f17089013d6d6079149c30b7c966c66aa666b13184adc4f2feef775928621ad65;
Dbl 0x321b1cd87c966c000974e7bf3dbfca0ce0229257d176c36ad38ce6a4143487381408368cfa66603f6e742a8e0d14cbf4 0x59de5a56e0344c2a85c3003bb658221b7707a8155831213c1cf6877ddaf57c5ece690ad306a39bd4ac45111a9211fa73 0x411d2298d916513afeb4cd34a08f5c25a41ca1e08199fac336089f518ef2acbb02e3059cf49c0bee468ac4c7a45d9e35 0x1d9f74d8013a5f9214f052d3a7ae7d954be84c827528d7a4200cf30c2e90888e980a01300398bc6090e372ce7482f88d 0x0 (-0x6d7e7156b67343a888280d93c1d5302188f9a70c03937467424619e6a6bc0234d56dc9a09726406e74bca799619322f3) 0x9ce9a23a9951c3e2dcbfc53e533371749ed817c52d7e31d78c8a8e2273cb45e3aff7ccbf1d7eca3a16ba7b8569effe3 0x5cc47fa00c262bc65c00442f66dfce4657e0dfcd209bb9bf1898d49b6a2957e862044c4f894bc682bee85359da8e807;
Dbl 0x15b6f4b7be37be914dc0d77872c8a002745a3036a9f6a92493b65b8b73699c558522a8c0fbf1bc6ff6472cbba01d6e80 0xb2d9a835fa366cdaddcec5d1fd319d5fdde89ac290f1aaf052764f0c2dc71892cad1648f9a4fa1475bf5bf9cfb2b8c90 0xe8cc597d05783c6204b14185c15e70037040e01be67fb56ec907fd631a4e4eaef7138da29446a19edf308e16564cc6e0 0xa704b220e5fddf4fa7f43a69b92684bb991f0d52c73f764bca803871ad2e63cb0397a6426c53fa8d504f517e96e66de2 0x1 (-0x53993a3c5c067c24872a1e9642d87790615929eaf4b061cf67b2e0158ba7026bf85d919eac212e4bd3114e73bcb55208) 0x1d786e70466630291aa6c84063f731d427940e26416711784d2a135db27bbed2667927bfa258377e2fce6c5e69d4176 0xe2abf9bb07de113a5165cbbd8733a730affab0a73866b99aa18418d7f429721f3821f9c41c22284e6264df2d1a25815;
Dbl 0xe1ca4b0c72459875bcff10ae2318e8738be1a0fcec0a9b356e76b0bfe914974ba7b00418b9db2fed3ca93914bafae796 0x9934d3f89e8749c985fce4076e5bc287c3ce15b767de9b7b49039e18bb9b505123f42a646ee15b65d78a0f476c50b635 0x5ffb0e4e132bd70863e816dec9135f29efd09ef26853d583b8f671ccda6bc9c9639692d54ebae7c6587b3fd5cf2276b6 0x19a4d43d5baf231157d1e1ca8ed5dad81a1a850b29130f750972b0f3722bc841a6dd3a2b2b6e45e1846bb0558edad65b 0x0 0x23cceb5c5e5fe9ab4041a46606f5daf7cbf498bd87cfc6d20f290b58b52a09022514eb30ded25b5e1c4036401248247d 0xc72537c66682f76340e3f453fec7d7bd1a619dc9d6c33630adc751a856d372d9b4b645d16e36cd8648b2c813482fc371 0x169e221def5991f6b600379f14441d02f178c85e7f72a86ab03af61c557ef27f207f2149629741a1e5224b9786eb8744;
Dbl 0xbd2e443799414886367c022bf043adf40391d3dbba7299104cea042c26aa3e6dd079d8db082722262af266148f5dedfb 0xfebe258abe457a2f755e10d353c9c9fef49cecbec688fcbd8d4e49f4a693786760f2c47fd16642cf3ad1c76646909e86 0x67f8693822ec34052611283229ed425a51c5b45e573f7c67499b7e3ea955305468280b1dc72505d16ad40a196b5caef1 0x9a76ae6de041cf9a109ed3341a91f888cf3128f8a1559ebdbbb554241507d7e8c30165e39d7b18969cb847e225c017ae 0x1 (-0x85352c52714361d693f4130ff2303182e1e8aaf0108acd50de3bab8ab7da7b6328839ce0c80f9ad8a49ec320412f8ffc) 0x8bcd5916ae730e0a21023fb948d2384678996e67d44d7da72d1adaea60734853997ca112114f5ac3fe57f73eef9956d7 0x72258943889bdd6906381af0f6e1a9439c865a911eda53eb2cef0214e16a309b90b36743ffeb106d39ef18b39505d80d;
Dbl 0x4da7b58da7f433b4be648450cad0993ffdf0575e3917a99cb796631efcd4f0ac75136b4afe28c1f2a44a7be72109fabe 0x4ec12d78d084b7cbbb4003bdc903dc6aaba9629554de88afbcc4322e417fb221ec1d62bcefe97e5beba8e784bbc7e72a 0x5d74a6c96f80fa8be716ccfd49f4c8cf019938092491c59f6e0920c206936041028784036af9e4de9093107bc3d9d39a 0xaffcf811edc0c263ba1e0d158ac5ed9448f38a2971aa740dd08a17c66513c64574d561c2e17cc4734f28dfe18ac8b75c 0x0 (-0x2b965f653d1f7b5dce72092378a14c3b2404e17c26a0294ec52f64a0ec09d04b8ca4d15b24dc0dd7e6a448bc7cf775753) 0x178e5115969ba597f2a7ed7984a1afd8cd079595c3d459d579bb52dd6a9d17c5124633b022aaf6e476314b96b5f57f32 0x35626172756448abd4013a73dd2bc154db46da9446bba78ecfac208afa5f7baee460ef57224389109fc0db35dcf29443;
Dbl 0xf7ddfcaf26a5c378f3b9950b1038ae80950b0cc9f5b589a3ac86add4faa9a72da694c6e342d6f77f1640786bf456a166 0xfdff5d78e52e83a1b2128765415b43936ad5643505f1dbe9e8e8a314685cb49e8bb26b1f0baff67e214a5541574a2d7a 0x4db0bc427857aa4c13f5d41ff10b944a00377f995963c951ef01a9d8dd2d7ec4dcc72e10d4d391b8e715e976978e2b11 0x50c1cfffeb56342a092d7c5887a898d740d3fe604eecacc5d3db8f19d922fd82606af79ce43987ddca5e9244647db9af 0x1 0x6c4a514c9118bc617cb78943023753efbc44c204c97050661d7a91abfa8429e85abd6294d3029857e598c7e6e6e625f1 0xeffe1e183c65e5531a71ec96bb15b194b6d08a6bc1a9751a83a2ab1983e57a5df192f283cc326991e53cdf358890872a 0x4e3106b6856c80cf2879470d2e3ed8c43c74ae18bd39d46be6f571f26e17ae023f108369f50b0af3b6a4681412bef3f1;
Dbl 0x69211726d9e3863359c1b64a14e0c4e92e1bdf12c9abe4defd2f865f210b5a9e5dd6b233a4f361dc7a0f2ca155ba9b68 0x79d29243dcde410789b81c4f6a8ece33bcbee39a6d59f0c5464719634f6bbc3e3e5a44a7037db03463c86b9043ad5051 0x99a5cf1bd320b877e225dcce675bbb074204b65694918c2e24c45a58ec1346f4b32dd9da7579045dce4e0ce5928f3240 0x842ccb350850429a285a6b15d6cc755fae16809a9897eb24a2a189b118f0f8604d58267808324649bd81e9b1139cdd29 0x0 (-0x2b4392868838039a7570f6a1f59998e9f5a85cd979cc992b38985b981d05143eb45cd5228f969bde0232656c86e893967) 0x2b2c2944d8d8d1cb03faa0938c12920f2e4fa2d3a40d5f9c6678133fef3d3dfd990ba1b9f2a6ea5cea1efb0eb0ca9105 0x3647751307a65c8a5c06422900c6f4755e25793021da16885c60770b1305434c630a95417e48b0de9a940904ebb1b1a9;
Dbl 0x15583a44755b413eb0e3f14e613cb3cea588822b778b6086328447508a1ad7e5907cde669c74108c3816ff734a0dc6dc 0x1c30f1e31b3b97398fcd8803614fc6886d8caf0059aef854b9917697932633426449a8854edc6a2277eef9adef78aedd 0xa3e17f44c2fdd6fb80d471914a1e48ee5c2494b5bcbbb181949f9fa188a23a7ee4a783f710fce62ae5ee56e9752242d0 0x5da1a060c1a2a9cdf9ea944c093f07ab4f32349a13aaf8708cb5a2cbbc4588fbda109c21b4a14611ebd971e25434a174 0x0 (-0x944b167f12838f5c6dca1041d818f4d659fe8e24bc67520f1e27a07c4859bd5088b00a61c1ab5b789c8410015c533120) 0x1c797f75794beed0bf69decc52986bbcabadf9aaa16f9118546ff38df0df1843d0871082b2850fa3bbb29e07a02426f 0x7ce8706b955ac07c06ffdfefe765d40213fdb3e151b6cc4e794a8ed60b7a133239c9b4b28e101085cb7e51a3ab2fd60;
Dbl 0xb9d9299e37825fef4179ea19b51ea5a13d2f0d96cd9d46a5e53a6eab234fdfc54b2a46a12cb8d554b4a50da7b2a441f1 0xb31975d3f87947487aa7ae1287ec952d7a9336d43e1774a6b4ef28cf1cc0d4b1950f44818591e9ec0762fe2f08d7e82f 0xdf11408c7c371327185b2584e7dcbd8e63628bc19ca19d833de7b18b6186f30e99002b9530560a02b96a90424a220ca4 0x69177c0f22c24ff11525d9f0d963315af2f9782c1b9783ae04a24dc876655e8fcf3a6402c94a8036708bfb7fe6a0c6ad 0x1 0xe4a1b8b4198e7c6608ae888608f7e9cdb44934e9c9ae06c9dd64b6b3ad17f38c607bdc9a44031ff82b124fc45af414b8 0x86eb965e4138993ec3f18af447e8e1b3d4ba45b235d20b9ed72e5016f44c62bd550c584688294e9f06f29b0d36050108 0x4c4b1ea4cf197159bd5d13575a95e8076597bd9f4041b55583748678b6a8cf8738fe741355feb060049416cd3ea35997;
Dbl 0x863d0a990231a976458756c16851decb00796a69f0ae882ccff473fe5f17071169d9c4c553b5a9dcaf240071853ce5ed 0xde9b67f3265436adbd5034660b6b608a2c60bdca21ea2fec04c9e7a4c4dd3e107bb818f7c700ea1841f1a766394b44df 0xe3ec604ac8bf365835d2f32ac94f4dbf82df7261f3f566c03e6b29ad354e9bc18edfcb99520452e53169f3d907279157 0xd47e0de0d225109abd5779ac7c8134a34e32790a1c2d44bab025412a57e396a019572b88be90ffd3c57156c9cf8ca34f 0x1 (-0x8df567a820d8e928624ead95ea083a37ee9c5e9a4ce61f483ca91a135265fba94d6eedfd3c8740c2d8b5f5703df325c8) 0x4663f5a63ba758b213c56e67a8785530e05e491f44dd0dbc25110525b3e94b25dead1d3d750341c02e558af9736137d4 0x6f6ca618ea44c1fecb6e83375fee72de05cce7f63fb9b010aec1ff717a87c45cdfb983fdd2af67fa05709bc80c7cc2d8;
Dbl 0x90beb7549420a2bea86db83716e4baa2f03338afa9c148420c6516b1c1caa089ec55101283968458804e757ab665ebcd 0x470df2a08d564334f48cc136892db5a3a5224bc9f1ae0df729c526cd0b05c74b4d95d9c0ccbab7337a99761f3a9d8caf 0xe36389ce96fcbb8d4655716c9942d777c7790f33271bf94454723439d6ba3734656b622f82c88f214f1f6a9e6c143072 0x978d755298fdf378c8c3732f823daae6873e7200303c21f4db04c0d7b9d776c52e223f36fa4632e4c7583146feadb830 0x0 (-0x142f82e3ca5f9788510e3bf620a373237087068e787d06bf0625d05d558b7d372301c66ab997e61250a1476984b46d096) 0x51d71c53cb7a9f40444a945c5ac5c7f5701726add8193ce262bca9e003546cffae4f74c7455a32f0112da3f048401444 0x55b07983ba5609c12ea93ee5c38c447a0929004b2ed3c6d0d068a1d16be8135add6289132fac8f115c1f3dd13f1b3359;
Dbl 0x1412783a99d00fb6281c96822246a09db89c8449fc1b9d196ce0eccff3194721d8eb153eb9f65e8336cc121fb2608bcf 0x22517a05d20f46991ce5a8e2b003d730889a1b41fcefd79901a8072612e11d7667f00fe0b54cfa539ef4a89d4fab638f 0x76bd1c1a551d84ca30d476828bfee08f76e23ff962009965ffa68fc33f87fd3b7c2130b94ead0cf4dd1bf7bdcc4ee7c5 0x24bc789abb46fc9bd7a71853d929de731c883087f4be365e281d1fa6f824a9d4e5a5c9e0176dbcdfdba4cd81eaf22920 0x0 (-0x1781dae9b5c8fb72db855d205555415601d92864c486250a1c79eaf577b3ee7107b87f9cb5b55e6c6c9e5fe61ae0857c) 0x192e41e48bd2153c94e5b8fbea042cd829d6141069d56a072bd03e0794f6eaa060f32a7a29c1274ec364170c14c0b8c 0x2e15fed52d111094ac272ba9b60cefe13a8331e648c546790f69f51e9f08c95f04a2dac7215b0a6c6d76ccd163f7757;
Dbl 0xe901689cfe94badb94ab5bc8e326300695846afb4a2b3c99fd7030286f009153c735b97c95851d43e27f3d2f6c89f17b 0xf84e292b7bcc96f57430740ebec4a862f1f8e726195b04d3f94c76cd8cc5b531ddbeef12749c85ede7658a429a87bddb 0x3948f91f6c08865619c9c477acc19cdbd94d431d29ab1ca6e5f7a48616ebe27e6f60fb80dccd2a07adb05a6f05afad92 0x2a0350da5642afa3a8b534d3f13f2ecd96a1341be394d2c5085b9058861b68438a3120cd40b07465b78f1e5bb523a5b3 0x1 0xca5850a577afacaab1890ec5ca19e9c0d7df7903e835efb4b5bf682912a1e6c53e52e5ce6964ce1d694f8bae10381c52 0xd413906fc364a86d4498b40721c41fc1b1b40b58d2a344c785423e2695c92384d2428b42eb21ec94b3f4981f186fb3e0 0x263d3fc52602b3041df8fa5a1345632720c3f7c15278b2299524930db0adace13f932c9df972542dbe36cf140a157556;
Dbl 0x42fcdefc128cf69a485375243fd437fed3d587e573d9283cd8fdcefe85c169029154d7e4095725d480480fad617029fe 0x3db8468d0dcda0d51621e068c14c4ee470e0dd6f38a39d9fdbcca42bca21cdbd77aba0b4f4404f38f2058252d8ea58f2 0x385ea9629f7c3a4b32fbb970831638fd0087dda7907626c5a80f413708b6461312bffd54f16e6c26f4fe05aba7c1d2a2 0xba95e29e6dfef6205e0e93a5fd78597e811809b6e0b767341d7fd2a1c2a3e77466134e5d805c36b4f56007efc19d64e9 0x0 (-0x2b48bcafa0d54fa1733d6459730e35736f1392b96bf8e3dd4a5bca08e7b6ace963317495fb0259b984c9bec72409fe5b0) 0x11875cc1bc0f5d0e0f9aa230cc384c7c1470aaec8a034de31782d61f9d350e0c289f3afb682bffaff32c5d38ccd67ca4 0x30d2f27d9fe5c1698d8c534b5dcea818137d5e0a27a127065d6f7141cc38a88915a020a4855ec1f5783ef9aeef2e1006;
Dbl 0xa20475626ebd3edc506707d649718353302c142cb97ef58c24a5f6ffbbe71041763dbdf62e227662dc3768655bff2133 0x5a94da88e716738d1fbc32679dcca36e3d325ebfb97879ced95ff55e809892c1344a1321b700697ade75a86751e8ef2b 0x396f6cf9833acf9b3653179152e9c2aeca5ac8b16f2873832285bc725417ae5c5a7ffe2918ce4ecf6a830772c67fe39c 0xe3236c0426b72d47f665ae01237fab7633ae7eaf7f2b23d1026caecd49893afb43618d923d3fe5be138fd9ec870169c6 0x1 0x1ab5c239d8a4e5742be4ac95af3dd45ddf6d958bcf708666c850b34ae79f4119ab756d6f2d238e678b36f558b1aa1dbd 0x6689a4a4750e188ac0e5993a65888c5d4c2bb15841df4a143a78fcd03d388897a2e92b4008d929276d131bd799d570e6 0x8fc05f0ed6bee6235e81067512d076d89f17b79e149b29db9f28552f91e437f12a19dbeba918e8ecac351d449c1d1dcc;
Dbl 0x69fe4a6af99af758622a9d9165060c89f8c38f1da95cbc09fb6573169ac0ab9ac0f85bb786c954c2e10270a52535b5bf 0x899bb138027edcdfde42e060cdcadfeccde93ee659fafcf6ca4c6129ed4184dc3e6a73ecfc1d4a68038ddc4808bd0cb6 0x729605b27284cb693fd1063b71c8f4247b66844c1c3af83bff7933143e301f02dd093eec7c0b49d3a2017e404dc899c5 0xd0f92950e49796ad41795206d001c3816f491fd95f7d7cd80f13943493570de3f5df9f33bae31f12dae7cc20492be274 0x1 (-0x30977ebba9efd96f1e84445f40e36411ca4c933715ecb35a010c684bbdf5ea6a73a3b536ffc4f02fe3f8613ba7244720) 0x2be295a382aa736a929c82bc540ea6d5808f11d766c9d5663d21ed1997dc22b5d108854f1037e016e442799db471468b 0x5685c5e884e251c21dba921b98202c50e9c23fdfca23044f1ddfe8a02d0e6c9e950ec9cf331e7954a324b820cf6a84d5;
Dbl 0xe675fe752d30572f18dfec40a5c30ec46df5e46bda6060cc458da2057d4e4856c3084212754f0b4521ec6aba9db28850 0xf4095b6fedeeb69857bf0a2370f1fa008e3ba3e5ab0f109fa8c8b378263796fd471c2fc852f856bc1ec8835640a566e4 0xbf6ec45490a13cb3ab946c508ad736ce896e8f4e8651b370202b59058a9437e5637af70d31ea077699472dffb3ee6deb 0x959255c8149026478683d63d5cd8e5ec3fad9b00aeebec572183adb1c709edddf74e4423a924f3abe4c558f2c817a5d1 0x1 (-0xf98d3f1a1c149a4897f268906e08c111004107d14ae74c8b7839e9328638c4f92b7f4071695170d2da9c74cc89cb6f7) 0xcf783b9d213ae62694ea476290895774b477cfdca6bad5e0f78f1b5da02c99fb80b1ed06c9de8cbd2b39d7425a4a6750 0x86a6699e9e4f9892ae15dfe9ff8a6f9b94277d4a42b3689191e394ece33c6ab0b9f451a11c8fdafca13d6f7871ea2e60;
Dbl 0x45df0ecd08194b984f520f91fd9cc36a4867d712981599ac194db9ef9ac342b611e2c5eb5558d1da755b8ef3dd5c9068 0xede509ef54b0511ae1d07ec7048b845d3d61b0b3a8453fd4965c481d8d800be7eeeb3dc4a2a968874f7181987cd61cb4 0x9c3b0c3c92f4bff5515a1ff3f4305c3247f11a99fde11706d824590fb23d9ff27e2d5bcf785d3008c85b81b54c8b3eed 0x6245180993e657d75ee8b5c6c6675a350d9f33202c9d0cb126c6b5a98b78b155830f203b04eee34cf5701bdc3cf4a30 0x0 (-0x2516634fc61fc4d013eaea46f151eeaecd7d72dbe7a3090720acff5cf8f7eb1a73004b95d3dcac76a0f2cdebaca823dc3) 0x13120055506ccfea8b25bf31353678199a25d3b1f325b540dbd7cb726aff2877216145e769c8b77677a7d04551ebc03c 0x1ad23f5900f58f99f4850f250006014f4f3994d9ee49ef5819bab21e1c0c5d47c4658b8f88ae8265c6168b6c1488958;
Dbl 0xa40f47a346f0b61db30293277a2eef29b897777b13485f6adadd4bc478798d15add41d82069bd6ee205e4bb5a957a6e7 0x2173d930442c035ca8f4ac78c7e05378f7ac22f04b46abcf6bf2eaf9a4ea7fb7bae6e28cfb91a48d0660625afb8918e1 0x3ba2c954cb36f4d39e08e59d315b2030ffd57fad513a7a5902315155e3742b308f65f74d46996e6d93a2e1d0c12c30fa 0xcc7130bf10844dbe38dbd24e3cab30e445b58dc35cfe94052a695d23e8958c3034045b37a717c3fa49111f3d814d03d3 0x0 (-0x1cef755e6a627f2f98d131c366c2b64b99ee4bb26989d2c286de49f5cc84ae2d498c5032f2ba0a6cd4215677247855009) 0x692394b2ac12b308540b2fe36d37094051a83ba24639c303bf9e046171f327caee450b57f843d23b2b401e5e1962edd8 0x8304b7120b04efacc272a1a8f0bb7c1a643db472097f3ae9473a9c74a216e329da026a353c9a615131032dced9092a82;
Dbl 0xae0520f66e07888a908774a7cc70f9646ff5c5ec155d2677074788a2f3c40f9af254f43cb77e213186ac7faea9126ebf 0x18f1bcd7821240d2008cdb1ef77592de0fde27d3b63026cd7cc82e3d4f310fe3aace6c9dc9ca80a00a6a7b03cc73280d 0x6b0ffa39a42bb2c1b515ba0a4f0d276c554c231de223b7702be43fef072c1dfef0d9d44c20110d7b4cde8fd37b60092e 0x8821c58c219c28aa867d159d06ac09ae7cdfb1c95168501ef2abcbc55b96fd4101875ef31c723ecfbf5e7572f15f0d4 0x0 0x43f67624c267cf037073877edf1a96017b351d9a5f86ec43fbbfdb2eb24486faa219a04dfd31de3db8701d335a86f434 0x764af8e94b7112a139c94fde1e9189401209df34b0b500bdfa47e03181c2e4f889e736e21c9768d496aa81d7d2c0a74e 0x5c89ae755e3ca8f6c12a04e903cc506d1db7cc39ad3ae1164f68b89066ef9c4b831aed20653f18d89632db9caca73fc;
Dbl 0x7929b9ef0be5aa76562131cf734c058a7f57bc207e62c276a3dbed680e1c2e87fbee6732fd316e7cdb7056ffe84cd256 0x9d755d13234edf6d79cb7bf169420b94846a727b39bfb9cce6d86f21cd1c65ed19b11f296d03b7b64a022566843354fa 0xc490547b2bdbeabb43b47a5af5eab7947ce2a463321df41e0f85c2af52e6f955fa15ea934078f9eda17f33fb67903be8 0x7b7c5fc45ec3616486c15f2d8e3387498b73b5587c706d0095efbf1b8214a9f5911d4d735cc6c8e9c068559e483fd312 0x1 0x5e0d5a2528bd3798fd298df1a59f5976295627fee28ef805c12433938d3a15ba8a78b24f89a450912c35f111e6f08f10 0x395878910edc491d9f13d3d97007f456657acf37e2685c4db05949b9960c7a9f7b509e70ff36d2aba3a76800ad387030 0x3a71e9df574cf7bb8dc80dd25fedd2d245d2b8fb1cd80d65830f491bdb74b785325c831076a7a696fb452d3f4902990a;
Dbl 0xcf6acbdf833d4fd45b84c791221b7d49f74d41705369fdc665faa79f61e59216a413ed721d61223ff2351d53e4a3ccec 0x699df0e0fd60e3d2a8007c97607b2e5c037d52989a7d39146e549c8caba006a543431d9a368ae121695dd912622e4d42 0xdb2cc56addbacc9b7ecda80b451d6b41cacd5146be44c2a65ad5bb968ee6f8538f1f6f4403324e141c875d46f0d5cc0b 0x33d76c3225edfb9ad1caff5a08c6dd3880ed1fe29f4280b87883d295217c5f47d66e018f3678d694e0a44c54220507b8 0x0 0x1bf9eb523dfa9405b42f73f5f16ef03f93ad4b5f2b0185184b1b682a6dfe34759dfd9894a95a3af02860feb0fc9ad8a9 0xa80de240edb21328ac90303078eed07bafa77a5faafc63d00626b47a38ed290b94f63b8eb923e6843ad59aaa7203fda6 0x2a00d0f86f75cd9c0b3d4e64be07dd1867985d43d60f8f5ac26161aebc01157d570dc0cb30aa03963eb9f62e2f744a53;
Dbl 0x5aa7dbbd5001433fce429b618263a4d46747397d6a087a716eac7c7055b6b4012550e9413f889f9d25432e9e8b753c49 0xf39eadf112b4c1d06e908b4ed40bbcc9f874de9ee23ad957c2beb3b1dfb3d5b03233681c71cbf6b8fd5361146c236097 0xc66dc376be0029f96dc2f741a53eeade066175245a805f4252863605283f634d4bf88e2550e7f46cec7351b06303e910 0x75ff42efeaac2202396ff1488c6f71920b0873f9b8425fbcab95e8dacbec30f4110fb57cc4beea686c0a77fef60aecaa 0x1 0x1882145dc4ce6ffb64c5879915ef842a1bd9ff671955b67c3ecb9de0a154dd6e373c275b43a3b8483076eb402378c8c3 0x201a749189dcb7cffe33314d462c2477996fb11d55ac36871579f6aaf6f3573d7f58698347ec70985713963fc193ae4a 0x29c91c55a39a9d09ed7fe9ae8403572956e0a2cc63419118890f1dbedfede61701190c9ce59566624e9017cf239260a1;
Dbl 0xd651812450085a297d4e4860833632f060a8dce73575a3c63f1c29c713fb22921367621f83151c866f8d2b6b73ae73f5 0x4387c1c3fa3c128dd0f0a90f3b4280482d726a8ba17c7bec49c3deaf818a4b4d57b1acb2e579ab4fe1024711cc902a90 0x2609076bd7b24a9ce731b7b9bc7155f925fb4ff1bc54d6f9cb9731403e42fa561ca6de6cee5ef58f0a2ce76543cf5c3a 0xb016ec2d1878af429d9fe23f98c93c81cb02741340be5d6b78fad5025e298a62da81bb698c524b691c511a029f933607 0x0 (-0x16b4605455f172c2349c90f913bdf21e76217a11d04ad459d6dbedae0a9cf7d1abe9717057f04239ed084a627596dad70) 0xb36c5ddbafee39d571fc911efc1139cce7a2ba37b3d5e1b39fcecf46ce8ddc7b658cd7f08ed11c36d7fc7ca1b144e345 0x936b3982f40278e77713eff7ef9472d6b163e4b58be3d840726175290b70a15fd635661b3e58fe044b4f3939efe96b97;
Dbl 0x64c81704305e924e5a5bef0952965a2b3953210b2772c67fa7f4ea0933d1f21f2cf52792bd977b452a9b6994e2203cec 0xf532389a060cbd1bd6e98b0d37ca7abc4360390918141b1a4b58808b3f8686a92c3e0c91558717db39c1b328d8ee21c9 0xb9d2852cc3b38e696f04caa2de3a82babd22cfb2a2124163bc40ce5abe64360331ea31b1085a4e9a7a7e183923d86ecd 0x4e558929f42f5571fa071e020378058bea123182896860d1fe6b5e244203c4a32b73a0208ff29374a74093e9f3a208c6 0x1 (-0x177e8380d601ed533d6e6439ec8e280d1020cffc0635411c05b20b55f135d2a6a7abee681e0e896a6f5f17be74d287f3) 0x27acee5f3e6736d45b6742e145f3f2b3579b328db062b3da15e0b2aeca007595c7da853399af364c8f904625788efd59 0x1ed6a372839f25d8554125be21b641cac891005d07d831f6f82c7be54e4044db2feafa6b0076558c007552deef794c7f;
Dbl 0x2f8ab5686795f1b64a934f4d213dc800f21a47e7d774ea0218b1e138a95e31929bdbd1278052a9190341fd71d52d2307 0xa5c22c7da00ac073d1bdab6c10dab49bfb590ecfce9b050d33df4305080336c4eb0ef027c20b658a969927c2779fa568 0x9be8c8da2c89865fdec9bfb542a66c3f30ebed9f8b67679ae17dab49d7f536db6f3aa29e8ce352d7e5cb982cb77d597f 0x4f700c1c6601fca8052bdfa126efc62048072a394979160d17793d8637834fe4412f1c69937bb250a3288b66614e7c61 0x0 (-0x27b86d359a2e9f8aacfac0d5ae3aa8ecb9b89f4a7086758f92ad3a95c8e26fd3ef3866da783b52ee887637423279fcdc6) 0x8d439c46b258977e374a7d4a99e193a33f4639472cb32facf33cb076d8dde69a2c278659206a49c2a30a6702e3afec9 0xec09cea5c42f63569bce519faa46df95f569afee99bc8bbf69bdb1bf56a9c38bd7438d835029f725819d3d6e5221ea5;
Dbl 0x318277ef64fbb04488f1eebbf7a906ecdf2f521d0cbaf59e4bb3a052009d31f118904c07c29c8e983c01b2061b86f087 0xe90123163bd23b94eff6eba448eb7302d65ebcaf5669eb850d09305e4e978b125166900f46db70be9e288ebbb932196e 0xbc486607ebc263943a0072f0b493f447de8c4e7dca741397f2490cdf2b9ffa4d111a6aedbd15553e9b6592a0822fed98 0xbcc10967643884dee1c6bfc7c7ef419924fa52207831198826d612a6b96babb199a860177b2ff4cbf8709907be6d8bf9 0x1 (-0x105ad9a7eae4b5f230837b947fafc8f06bde269f0a481155366354d01f7fe343f961008a90ad86d860df7ef9752c8d535) 0x9933467abfb58d8f5b0238bb6249b1bf82cdcd0eeecc1c1bcaaab8a7433d7c7cdd51614183efc662da81b1c7f1ffd0d 0x24812541cebb8826d3293318736f01d1919821c66e20553f126d9f82b79bd963ccdf502f6bc965e70cb19708935906c8;
Dbl 0x1d9cfe6935028692928a7d50e175cedd78bae632469408263e295b859efc7cf4283729efd668be60fc5c5d1981d941fc 0xa6276cffd19f66142b787ae46140b28a0cb9837a39deef30f4f1cb39deb9b06671f93955b633caaea3c535f4758b8517 0x12e78aaaf0118aea0a0f7ae17886aca4ac1ca076e6ef27895a3911b3e2d88f635b81ec2afad4613f47da54ebd4ff6c15 0x42d9b6166a32d580c47e70bfe7aac078c9a539351c8afc54181765246fdddaabdf6d56b990a7a60ffa6358c743a69457 0x0 (-0x250a9e00ababa4007d996ec6d2e24e40b7465d86429118fe30252d0251a0e3290767b01cae326022acdf1162ed836f177) 0x36cf1eae3101dfec1ed43f325a42b92ec10d4d2e378c57e672a8303dc449afc5ad03b250ee1f96fdc6f733601b5c7e3 0x7bba8bafb7e2143fb50a77f5bd13da0bf3b39a5c3ef049ae4236d8a5312f4ef80ac7feeac3b1e80524ac7cedecc3d09;
Dbl 0x820bc135cf6d317f927f9ff4b8302b0a019342cbaca7a69794885ed7151325bdde9f178b99b43c63241892a1fea38af4 0xa3f973765d6bd8af7dbe997ec1bd4c63422454f0da220c9b0a8ce94054a63592ffe3075972dcbd769703b2f6364f3d9b 0x228c222833435953061b2bce4e84c4a3f72bf2a53251dfef19425828076eec6c9fe70e8ccaba0102acbdc0141fb62abf 0x22df98974338d64adb9e1659f836626ca952e895fbce295ea64e1f98a137ad3721631fc43570d380cc182fe3f3c477c 0x0 (-0x130509105e08620499a3ecfc94093ba1b0a0559657ad0f46f41545200ab7924a714c472b21f568495a193ec963fa9f3d8) 0x420ff0c4d31ce7ba01aad3c2e13f33ea43418f068ab97bd6505a796144b6acd117068de1e51df662129466f9b3424f39 0x11b7256a45390d9671e9a7557984226ce5be4099b3f677d0d436de7f82247e6ce9d1b386f1afe172c6109eea4c49ca4;
Dbl 0xf5567425523622cf8b3f92877fdc81f2e63772c12851e7f0f1510072cde4be218a66296a8d972d582f90bf4304387a73 0x5007df563b0fed0baad8a9a5ca3824c1be42b59a865c96688e5e8b2688257d50ffebecfa7889c3f0219429a83dba7976 0x68fb60a657871405dc28a26e812dfc3f732efa8973ec8bc104e20df75d4dc8b971a89236a122379c26a7928964b4c044 0x53f19420225beba3d2e5efd8f78527a183e19f5653c576327c2e5e19cc80b841fff71a5efa52f986756f894df894c425 0x0 (-0xf8df456eab1dd67a4225ac155a62d0b98706bebd36d8b2225d1e9940c0ccef6c0790769e40e07eca02850a296080c012) 0xeb1e9781ad20b2f291921d1d547061dd05e6c205fb769f6f6f531b654572a923c38727dc423b45921d59321c45772503 0x50728c0037ab9d6d3d62f15e2ac7f3ca425ac729bb3073d8e7e7a95cd3842ed5e7c4fba886b375a6f4d9043978052c64;
Dbl 0x28dac3668d5dd49bcef558d4a7167542bd34aebce4ae9f5d4ef78f15684ac60a13f99ae78f1c6423edeecfba1419557 0xaeceb2d5ddeb6dc9f4ef04eba22d9204f4b0550a2b98b6dbd460ae53682d570a083ec61742ceba6ed5a43c8ce361626a 0x858175324b6c9e09959971165654e5df24abc0775ac83157da61ab45e4186ef720f7f2311d104da94a4566631fa863f4 0xa1392c805d247f41b5e9a4ba280a92bcc99260905ac3df8cb9fddcd31ff82645f7ad26e235bb09814befed1c5a59170b 0x1 (-0x48f6a3d220e71bac254360b78be4592f3eeba470c85769f0b9c92ae8baca799b92fdda9a88917ea4d8c324de25e78f0f) 0x68518016bfb7ab0b0c46da83afb669d576d81974a6ff048b2ff4c8aa580909b6a6d874944051b2debb263c389f1c5 0x19bab4b316921c3be298e11f5091591588127a776afa2c836741c60f6ae2f2f3e3ed853822ff79dc91d184930e1e87b;
Dbl 0x676cebf86b1231e532b1e49654d6352800e365249de165f4952c5f9a580f1fdf2341f2d0703209be8d69dc4c937519d4 0x11f3916064945560704c5c0ef51da970bd4a5771ef91c31596abdec43684fe3d462c8f0dfb69b4f29b11fc57c3a5a01a 0x5be970dc0e40a55c8039a1c4eaa5c7f57251617b667823d500a4ca71b44db54413ab179b4b2e5d3ed363315d8434a8a 0x9cdb21757957186984a2a8dcad0fe8943765fd983c06f3c63db4cf8f31a858ccc21237094765057c3a9240351fbbc250 0x0 (-0xfa391e54f1963d493bdeff2e20a95526c48acd1412091666d1e3dc046f1a67e192bbe36e6fea1832e58babdcc4f73877) 0x29c8d439d94501238fd19a2f4fc8373e54f3a349514983d43c749d884f6796c5eb8c6684d95c9df9db9c5bb574054d5e 0x3f5ee77dbefb38b815200f4737da345772c48753b3aec657ce80322877e9516d0a8346dede700b36a6f3707b9be4f43e;
Dbl 0x8714a34d6d604caa17b753a4b9ce2f4f2527af623d34a07fc6997984ceb1e09ef841331d3130fb011e046e3c222192ed 0x1b8607872971b4d63caec84571fdb4238ea6e63c6d9fa8d0c867147ea86ca648b68661b30add81d522fed8ddde151060 0xbd60a0400f597307cbefa5933f6059b73750825e38b8d1161dbef0a1a4e95e69630c727a5b5d3e242c6e8711de1aa18f 0xf66d89d93b22a08a339d93c9831ff54d2ea3713581f21a44ce44ca458e1857f38fa62d59f08c331d7813237ae5908fb9 0x1 0x2492d47f2c6b5eec6b61f45af9e894e344943a7c430e28721aa2b6c81598bb059bf8d24f0f787445e5eada217bc1c65 0x4746c5e595a0589afbe0ece4f539e9a290f1307044441495eda5fb0ffbcd7b1cc15003edee38d521932078323bf3212b 0x8207a1729a28feecb1c8ad08672ab2e26c6a45f3fae1d01051acd3996424d2ec2a5433ae843392f5ec8d2e33a4b85bd4;
Dbl 0xe37481d979659af15dcdc81369b54702e250cf5dec73320c5453dafa35cbba808c71ef3e5aaec8c6cd80d478d76d666b 0x64752e971303fc3e8c7985bc06aca2e5ff6e8130562c17fd2bc603423c8d610e50a3ff4643fbe8a80147632821a86f9 0x930471319adc000808157767291b2937baf6f7b7dd8c9e89c22e28f80dc2df972fa9b638f7b8a3b3e0d3a7ecc9821894 0x153eb49db841751253e72fe9b192e9f52eaffe29683ce750f5aab44a84a3d037d17c21bea69dc34aa2ea62ab5bfa8967 0x0 0x147a51898cad051ac3a117067168f8ca24a1d25a013d6d2d0d19c6e0917b6d4a2dd068c54823e4513f13c8810e99d6a73 0xca17d34d9c3d19f3e51115d5f477dd98eca3b2a3a5a844bfda49bc80a73529d0e614e66668d5554143c531d6242d3700 0x12e0455857172dfa06f6e3f7c42a6f17a271c82c0c479bf4a131760d0bcbe0a4b1f61c64bf0770134056a575614b4216;
Dbl 0xb6b1c21eb99e386368f63826509c71ca68759b49d699a1bbc092a43d6c67a17c52fe042196bd43a547aa931205467f2c 0x727b1e05c9f81233a60dc05785f320b0fc6ac9ffe21212f8d9f29516dc78034f652bb7784d629ee3c85d563d97a70627 0xba2656c1bcc90ae7c4a6106e4816ff176962f38dd140177da41ae56d9b270122a489c35abcc9454e793f967c5651c107 0x93cc34e3a7382d9042b9d8043a77a97d638c1e132350ae86f8c9cb1d4750d2c07fde887b16dd1fa6b7b71ff5ea7380d1 0x1 0xd16038c6f7a4890aa5dd9d5fb060651be36b4b378c4f654ae590df494d305185cc6b37cc0e03280634cfdcba2f2d8fb0 0x82613b71b19c39fb27d72dfb3b3e36e3e963e6195737cef406456b4851b684963835ed8342c2be5bdea3689a189f6489 0x6979cddce775307173c715e37107f8c090b8d1e3a036319f9cb67ee6e462b538ebd167430e9364304af758b938ec06af;
Dbl 0x823fe72d94597205ab5f1c4cfabc4cf46df50057002c5ea3fd4696cf6b6fa5ab4ffd62501fd23843b27aa089eff9d68 0x314ac7fb2388af4e0bfd0f5888c9420292d67fcdd3ddd71f92d8b6fdc39cb2737e6bf0db1649c4fc14dfd72bc34f6278 0x603cb4916a4229e8f6e2c7a580d28f4bd8105f3895ed33b7f44672644a109e94356b86e61a9f058cbf55fc6eea2f9b4d 0x4130560aa66f62e59a10b0fefd29deae69944a320e343bd94719de1918db50dbe6bfc69d3718d9e7b37d7f11d457a3af 0x0 (-0x8dbee7e61fd505d363c42f60100baf6d57f0ec2ee1e56a034ef08504e46302657a53874ffe253dce8a6e17e67e09dde0) 0x4244f6bde3dd25aaca06cde909edb401a2230cabd1f54ba3476ee2c22453c9b14f479e38c743c38cc6bc259ca4b486 0x212ad174ce0cfa44bc61243517cc2dbee1f3f877095e25d2752beaf0b1ecdd7e488c1bfac965f3cd8f6a0e530338a3c;
Dbl 0x46a1be849031175b2b68f872c63ce3465cfd166ea87ee7f3b14733c40868962e9a41b3b58a0d9f1e9e540d2ba547109d 0x2e4e9ade4ec7704a74c6968859f0736dc4450f9405243e7e9c12afd243b8def60a3e3a183eeed861c9b75bfdf5324c87 0xec1ef93ebbc36994eca60f71d82dcd7d47d089543f872163030730839c623b324ecc34d24d7ccd32c29f735cc4a0143d 0x2fc2d1cd4c13f03973678d02ed8ce94ce917039ceb998a0f6c6072b7fe3d37d742db6c2d75aec9a4b287b2dce1d15f1 0x0 0x18a1ab2555054888cc47d08e917a10ef1268540fd833aad6180beea9ed3e37f0a17d3e50979bf81636fb73549b4c2c4b 0x137cda61af6141331eecb00c5daf7174251843e9b4455eeb3f0384d91c0ba88d582325e9e8c1b7cff9d1e5a0e1a7112e 0xd2d726f67fb9734f68c8172d5984e100e822e05adf21fabbfb51dad1c6c3bc1a6558612b52a63033915cdf0ac32abd;
Dbl 0x78e87470fb89888eb34dcaba60ebdb03dfd75f12e2afe2d1dba3ae3671dac66377b869b2728fed45e32d4ef51098779d 0xf6f04805603192a0c1839805f3e198eadc9b89062c9a4b5e3835d0c7400dccbb7294092a22463ea81c15681e7c8ef3d0 0xae7650d5eeaa3725cbb7781a1c77698d3ade08b2cc1b5ff23561c9295b5b56bfb63da2871dba7c90f21fb42cb582a2c1 0x375e52d8ee95dda9b342fe82660eda82e7a9868dd889f32063dcdf0b03ab123997aa30ed1ca899b9ada1f3e078a358b6 0x1 0xc5e8d13b2a5136e0b7fd150b9ad30556168b37fb3c852e9147ed13695464c771801f53e033afc2e1ec88445d7d3bc4be 0x391ac03d2d8f6f1efdfdb614d5a57695aa8dd0896affdb47e8d3367575b04c42d81db578804a96c50b264e6b84a03695 0x1a267d7ff1a43cfab8f5543edd0ce9e6b5212dd4f997e2b7a782605817d0991420d688f13e4301396b8cc37583a8b560;
Dbl 0x84c14407d1ec92dcac6d21bd4c426e0d3f9303fe95075f352bbd221e14cfefa68f6514da354f27bd909f8001e2af7064 0x2cc111cd05f11d10d139f507ec4cd87676997c4f2645d77bc9436a6ecd71b7ab65a9221ccfbe4d1b6faf1a2cbb0a893e 0x3a5f27850b004592da0dff1bc48b2686f13a818f772731091037a130e1c292a5c839b2d15730d22611d63da38c099f48 0xca2f36385a40758ff049a2fe0794c07466020cb7065473e26ef26658729c15100ceae70d5287f18cac664df1c1846a92 0x0 (-0x215a695585568e0984d473ae112d726797cc4ea4d398eef6550f9a447029b5647196b555cd7eda79e040490b5bb786bcb) 0x44d7e00fb65aa5ebd7a5ed6eea9e73b7a55c54a9a3c3db58cc1b9e324f0d371b775e8abc99272076d73d98c44a18c9ce 0x68d8fb47a6821d81a3b60accbebe9ce222d9c122ff7817a2edc956f66adb3d73cbe7d6f6f80e5775eab4e18bfd64c101;
Dbl 0x3969952b3435c83ca53df8ebee0edc71ed05b9fde07cbabf768868ec52c784ec19ac61e13627f88834043d1f5e42ced5 0x6fa9fe2e78bc44f8a8b70f6cf2cc2b0ca7c8e6fc66130c26a05c4b6dd72465c85ce51fb7802f474173e11ee78f502fdc 0xd9e505a9707c26805d789929fb6bef3cfe35cf21a0b4b270a9c5f7dfe834b9af4fa64713265cb960af3aa05ae6935da0 0xbd17139e8d34d8182882e59af980ad69ced09552c032cb5528e71f00f64d51e208c402644f8f05d9fbcdfb462bba5961 0x1 0x2b5b67f2a9055e0c99af4476a93418cf64310bc4267c75541c9d44ceb7097b693eb02683f812658432de1123dc75339 0xce02ff8f19c195a7322e70e10fc921275a887d8fce015aee45881d3fa9dfe6d655209acc4c7bfbdd3985d764c75c51f 0x2a682003b154ac4593e033c42efffe3a9899cfc63033315d5287c8536bff9066cbed590fab9fd8a99998440373a29133;
Dbl 0x32a3b3a5214a2cb930c2d5842a825fb13dc930a96fda31e0a07b6e400595111f3d5a190f0b324567d9f924b4b907bcd2 0xa7fc27f272bff2463bdfaa52a3ea90086a163adfa07bed4317ff8f7ce9236f3fd0557c605251d5e5e54c3c1c268106ab 0x344ad7d91c82f217167c9adf81b96729939226dda9a55def5c5a7fd8e8e859da35b365a47c8791a2997c662739df6db2 0xc7add63c05fc52b26cd7651a4ee19b043db2ac1cc5971ee3885cbbf0ee00f6878c8fa3562ddd715b8e94e2cc68cf2930 0x1 (-0x3bea703ee1c7785cff78017e490a29ab2ca8defa575d42b9783e06dc63a99b4e254644b9c7d9604a26ce0ca4eab10b53) 0xa045adac359b4fef35d09727a19b9a2355e581e4aeaaee52a9a3f2395fe2b976d46ee321b54da3b7531fd96e2604a1f 0x277fa3a67b31686ec7eb6272337df7b0f53cacae3b8529ce06ee8308bcb3d55f50f5ba11a6e4a6abb18257a033f3c1f2;
Dbl 0x564b7efa721bd74a6c2d3866d074a7ebc5869a148b395124ec7570df40054859cd305116b082beaecae4fd2273eca8fd 0xae6f08712bb688212da9f4bf4749e090165882d9b158bd34c17985a52381b66e7fe0e2394ba826bd23337bcb1db16089 0x345c4e0f3e615afc205b64c14a7de1f5b83db405d6497300217a3695ae1519885fc686aaa922d6236f4e4ca4d5fe9b94 0xf98d1f8147096a250e35b5935ca0af7853bdb805ef23300e568609d7c5a1b8d050749a2606a9af28c218c05208cfa621 0x1 (-0x1276fbcb6a2285237c5b7c76fff65b6f2bdb885f551cb26ccf8829e703517981b509cc0c8b475e2356fbe57325a410f2c) 0x1d16cf93ea650e4c9f745301533d124ae9ef96a3ddc0c02b8f000945de48f3b243c8225f4ca060a5fc72e80a1aae63d6 0x541f00b5414b5a68830a1548523adb6838e6e059d3111a7d3c0df66457a37a1faf2442c59049b2038c97ea2a1c3532a9;
Dbl 0x77279d0040a93627edfa4de9f563db3b4e481a18de12864ae3d350bd981bfe0e544833d5f5efaf16fb59ea29135d07cd 0xda623d612839294d3e1cf4ae59669c565de021ef86fab6e11701c2018a3cd01bd43955bfcf794260e7c11e6e04a068c4 0xe3016497db69c5d9a8a9119b925e3192ece8d4117a30d52b29eeaeb0bac0b5ad6625cd9cc2dedd3ade326f7bed75aa2b 0xd40ccb10037d5ed3ef8d0010ede34439b87860ea2a5e0653aa77c3a39944e651aba78c787c2ee45c3b725d5e1910f7c4 0x1 (-0x133d359fb36b0547d0ba88171dd967a5939cf6e72b2df43032afb5b224d60f1d20dfc403d2e19b3a84df45824a4442718) 0x3775da17727a53373c2b3b84c626cb4a3bb36582f76b5a9b17d61085fb7376ade759322d5f9121b6a2ec311026d44fad 0x62b2c2636f27fd63ae252617aef3dfdebbeee111b5ba1950b9f0cdbebd0d97f6c0c1eba5fa6955b281e1b2f0abe381cb;
Dbl 0x9bc2ee4d0ba137cb8e8fbfa1c45787529085f71ccff6f808cb600f389036855477356c4e855ecce52b350d6834a59d63 0xed6ca2297684621fb2a8deae7c41d955079b97430df22e0441337a6e52df0f78db670e95fbc35de237010de915046c3 0x4705dc6612e2a8915b0ba4175e7b4dfcc476287c4197f7bd7d0e2f2130942442cc43b4ce6afb7d08a690b59410613a68 0xcb8b733e90d0e32b42f266c371a27ec10d66687b561b9400d2ee8a5aa50edf244682e4d66fbd0c82c4510d8f73502201 0x0 (-0x11aa4fe29fc773de07cfa41d264aa14ecbcbd1522c250f77ef6c37868148b81e822a835f0964d7c5bda217b440f88d915) 0x5ec5a0ff56ae32b8d26771c6182c674e0c77e29edcc91c92e34ad8ec9855cfddea8adb98dc15608402c5303820308402 0x7bd86bed1e6d394f139a9235e2f6572c73deb210485ca9c969873fc381ab1ee7690358b2a42a921106159718225a2130;
Dbl 0x7d73ec5d35ce039e84ee43756b91b82837edac121ce78c6bee31031f8b0e2e6e0c126b6276b929aa2aee2441ec44adf8 0xc7706509a1c855e6adbe354fd3724ac078d97625081d42013efac0dac7d54f8e0fbdf6b9d10970f68d12fe425ca8fad8 0x4cfec7ced5c067d33c1123818dc0a40a560334727b90d88c2ae095f6b53a955ebf575954828a967f3e610d70ddee3fa8 0x47666518f59ff03b4d6c589b1451d2d4d7a0434f28c1e0df051876cc1d58a1687df87a2e8eb2c4e7965d129d34a74bea 0x1 0x430774af2aa1f115cc9d90fd4fe54a7e82798063ca584a287dcb3560cd0cc460a17e51b0cfb5a88065768d89adbbf018 0x3d7a69513c8583c407e5f57e9e3e2510ae645b76f18c25582e7db6caba87df311ef4845dd62ba81c3246bcff5d50681e 0x22fd5448fe8cd3fc7a6753b60004edad73f9df2241a5966251eab2aac27ee47c946b6410d3bcdcab95fce6aefbc8cd60;
Dbl 0xfb3e1ea9df14f8595eabb492ff6282a6ee5384d0fbdab68c94bf6858229e3547911052b15ea263d4a0b4e61cd8474718 0xd4fb4faf93aafe25b92542956c78bda49f92bc778c6372920df0a00e089c502c282c3a338e87308b61f246f15d80df16 0xb6224913af108fb9269eacb5636724d3aeed6fabd9f6fcdc30ee099eb6c179c2496473960d783e126d4f49077dbf2133 0xf275155a0e1d57c0f498f2ba66f98d1bd946b9ad7bb9cf6f310a20ccbf38ff60e791bc854282406b2b20b751ff281bc1 0x1 (-0x13afed19e58bb414f29ca3ad2deaea7f66a42c0c0244fd643187d3d49ff0bd5962961f39d938e022d8a5fddb93f4b5cc3) 0xf692df33f9676e28c138f1d666d8f3e6db0b46f6bcb8cc38350fe623fc14b776c4743fa9457c6aa97c0dbceb13c48286 0xedf3a15512b9b0356096aedc16e01945d3ca322108fb08cc3bbadf74148c4b1aac170d73a1c04e5a376a9e20c5b13fc3;
Dbl 0xc22ab1e3f097fa09fe3ca0a14d8b31b05ab9cb956f8c0f8032566b4846d2beed09d43de981323ce8da1945a263458e72 0x346e353728d985b81c2bc1a83cd1e0c9ffb76317609ce622f1a6fdc98418abaacd1dbb13470234a1c025832376613a21 0xb5536534d1456f79a3dc918c244444bdf51c5841e41bb818b60e0bb3bffe1d455fbbb6c751335d2cb98c082a6cf4ba90 0xa08d1a786ad1786d9cf980ed2fa6dcda9fdb59602bc68c6f1c49a2448483a4815b0e7f204784fbe9a1ccc3cde71fa4f5 0x0 (-0xff4ae0eee707ede15d8a7c4384af8451df166f9a23d7b757c5fe86d43532d676bc092caea390dea090dbc60ae15623c3) 0x9344bcbc530e467be7ffddad8ccb71ebcd1885017a607ba05dafd474fbb61b53ebd5ef574217ef982d21c334ecac4d89 0x79c5b4c61c03971df05f5671bd50e00165da1e08fb6a7038316200bce5c828e0707d3d1bbe8ea8f6d2d9759a3c1380a9;
Dbl 0x1286331a702d28c5a5cf3ac48d15eee67dfea9878fc262b96592fd8112aadcca6f950a89c2ff1309f3c483aab061a297 0x4996a15fe4c3a28b07842c5408c057ed29acf01e32dc2d0ff068f96c7ae897276bcd94e2879a2b620fd1113d073804a4 0x9a09ca9d2964179e1a83da328064c8636571b00a52ccc678ee280d182d13d768d81614cc308bbbe73b2c0d75b2ee34da 0xead793d74415e32d14a79554341188dcd60a72f92dc0b913013e045d093014826150262fbf68093fb05471e76f29357c 0x1 (-0x5f909427e48b00f3d99ca68dc1907f3e3832f61b3947fb0d728e2f241f679961787ecd96f68d6e9c236a5b113536d20) 0x157258941a7546f72cd4d0fb62d0361ebe7864eb851347188504b63dd8d5acff55cfd327d716589fd943c00b64903d5 0x10fe441db8b7d1d58541a4f479b9380f816ce4af41aab6d04b4a343ba68b0a3a6170a14db8f509b0a5caf150f6bfeb46;
Dbl 0x7f09238cc02b772751f33dc08a16d94761ca6693ea423650a4127cb8ce244ee5785ac70a1d49c58e0e9682874f1742b3 0x873893319b8bb5395b51b855b1b8e23736ee2eea3031e72056aead32f86e089a05b67f0b2f3bc02ea4f057aeeb02d061 0x509e270d600a1b20aec182bc952c8acc0f317f1ba4aef7d82c97dab6506a5c3696ed905ac40ea2625841ee49205e62e9 0xc25e0e2e4937ed51ac3273fe570775b5f2bec13402aa45ef99ba4c39827a8e8c661715d6585e6b336ae0b98f1c353442 0x1 0x596af481a5c98f6b1e5c48f09cfc13ecb24b86e44a4c99ebbc81abd69370f664bce2380fbba9d0a1fd58c61ee7f64a51 0x3f0a11992b806d36067367e5bf128a1b26052ba7c9afc2666d8c6dcf495dee61dc628fea6c20b4905601089771e81080 0x607399552f3af1ec382864a54b22c2a361e54ff7c61a1789af648e72afaff63afc74ca8d99fdd13446535a4f52b2099d;
Dbl 0x93898ada5d094e6d136c46f03ddf7fb90b4cdfecde3240f9c6979fbccde3a4b16b424fec1502cc3d6f54cc118cb57cc2 0xb1af541b95c88f0f73b05703895b51f02e62f48b8ffb9b855ffb1fcd276b00ed8a5225855184c30102a172790038b3b1 0xce20f9cd28c2113b5c98ff50db8f60b511f639a13975da38b940c82585c6e9bb9e3445943d4423c6082a6621c7de8e5b 0xd5893f1605c32629e7a16152285d9047088b3a5ea0364b9af6b38d65d10307ab7b645984ddb6fd2da24ee536eaca1caf 0x1 (-0x7959e5a9f2802054d901b27facb8203b6f66685713fce75c8150e527e1dcfc16b881735f961acda3ce61b84b30f452e4) 0x55073f5cafe06a97d344116380e3693a9e2233e7b9f818c4d8bbb252a826da0ef904d611c9751c8ef4093063ff1dd16f 0x7b10897e88945b5e9be9e268259e7c977c018a20ebe13a2b81c97b8a547cbb73cd6b056c5d0589243a219384197370a6;
Dbl 0x70fcc733c80f8814d54275e68dcd029c9d5e7dba0b39c3c625d37bde899f5eae0f4dea836f65e635cc90bbca9829ca1c 0x7610bb500e93b90549cf03b77cbeeab451755490c19917a9626a130dee85669016a17ceded96ae7586f1fd865454fe22 0x84e427caca329d6cbfc2cd8c5f8d40edb88da8020aeaa43fab3641cf4279281b2762840ad58150c3c31f453de97c17cc 0x3b9e98cb8734d60a29e1534c0c9c673bdced9fface6283dbfd910cbf38e59a5d73b0a89763ee148b7baf74f2abe3b58f 0x0 (-0xbc07d2dcc4299e4e4b0df8f05079805117d51ab9c042fbbb87955a61f7a1fe4eb045b06bc5bbde811128a3e547c9bec8) 0x31de27e6180101279bb6e36dedc0f28217ab05579367b11bf6362c6b64448ceff074d938c12a6306bb4991e8b83e3274 0x1a50415bcb7661a837050b58ca7b5f8699d9f031add664303d294fa90fb08d87147afd01a3274f573070e69b3b48f483;
Dbl 0x2bf470fe539b986286e70796f63420ed6a8546f229f630d46958f62a66e1b0dbd03a5b05f90762e6daaf6fb36a2ef37e 0xa068909f7c3f582957cc340b8b5cf0604cef534f395542c19212c4aee9ce4617e739b7afc66ddad317ef0288c00ea431 0xbea3c1351abdfcef6f1bdec1e56f1fd6015d6d9b9f9bf24f9a10b64658d2ea8f0c412e87331ef7616fbfaedd5cbf427a 0xd5a82ab0925460dbf202cfabf161fa54048601418843d4e7d0574e5f04b720772f67c53d2728d3a26f02fafe944659f0 0x1 (-0x75b7dbb798a3d917bbe993bcf7375eafdc83df76ae2bfd8c2afe94b5506c7fe0ec797c9895b76bd9fc89654db0de3f47) 0x78c075d06c52b9dbe89a1e2cd104e39b00c99158c426ba825f35bb913bfdfad9c446ffdeb997e31ee8c7b91a7d82e71 0x24af41c22e2ea1be8a0b720fc6a01085f4f455dc679a974abb3153eb2308d2e8777240668ef63d4629e05183fb1c4626;
Dbl 0xc5fb018e3e77d62a1df903924dff975c1eaefea9b5097dc8e49575268dfc9d2bec7938b909a412303214a2307124d0f1 0xd4e59198608db07dd0bdcca9bf4ea967f2ecc08360518230c057820f553e946b7164fd9b71076f002505f3220d71d442 0x96c4edbd147750f198c302a2048e4b41c1e82061ede301efbd10607b214592a9618379a5fcd18ce5e4b80367f5b834cf 0xcb82ff071bb1a7ab870e6761cc0e46f85a0292cbd903c090d1bb429f948fb1ab75d4ba1355666bd2f2e90f67b29ccfee 0x1 (-0x6aabfadd0466ca8f18bd5a256340d4b9dcc463bc1d7dd09bdd1489694e0abaddf2a1cda6d151612e3749fbe3670f594) 0x991c4680f9155a2114943496940e5957779495e7514ad064b6e7764895f080db376a5251c19f2c60b039add65d3e99c3 0x9d6358ed1b99582cb3d2a7ffd3d0201df15a8dd3842d4ed790d024acea7018b29f66b03418141f175efa5a4c786e583b;
Dbl 0xd4e03995383704e9f3a2f12200521bb21e451e51f98c6d676cf9b58d5e70d5e993591a41c82b76140f1dfbd01ec98e6a 0xe18673956b23e753d8437dc3d3623bcf840526f8ea04c0ee30d700c379972959abc72da0f117801ba2b3b85844aecdb0 0x2af917ebac27be2b89dcd81630042846bf210d595a83569d0e3db5683a634b892446d5739d23df03b4330e3f3c9061fa 0xf35f1e02f569c929f87a4ee5ebec6d986ee7998a764cc1428f80814bdba76b10c59dcff97fefeee482523acac8c30691 0x1 (-0x11868ced1dde4cf24fa73e49991b737140a7d07ce9c71de4877a5be8594ef00263f393a932add9753d4c6d5faf56b3c63) 0xb10423c3f7314a6f11844153ee4c82356483cec8719ba341cfb07782be8c2c6bb862cec6de6f343a8a212c9a95e4b250 0xca5feed2bf4e943028d58d49611ec4b7b1a994858098d3cb325cfcdc56a322bff945e6ed71d66183443bb25dbe0a70bf;
Dbl 0x81885e2991cc658d333d042525be90a92cfa2cf6b447ba3ffe3769d6d819a4d3c34c86d7757f631b6754419263ea8632 0xa30a45760014c493eda342079660b37b3b3c490b022894d755266c1e022aa89b5432f47f7ec4400bcc32546cf8de14fd 0x9edb22c1c8ff9fc74fdf44b571cfe7e8115c844d5aa918bfc8ae5ff116900016526a6c3aa31e8acc0933dd66f5833839 0x3e7c2e1f6b0f22bfeaa03bbc3d01885448c8ddede7dc2c16dbb094a5776c80be579439217253400fd68163eb4bd0b8b3 0x0 (-0x2288c06fbc09e1313cc80aaa705823f36d163153531c3a5c36c0895b1c4b640045d83798336c6c938cd0d96c30675f2ab) 0x418ab78a13bd755654bf5619057644228d0dc4d4746a6fdb1e223b2a1c77c24333d67e93f56fb569ca9f640a3c7b4e99 0x1f9ddc32140ca6c2e124bd3096e897bc090756d3a53b6eeaa99c33b485923fa6d0b833f8e3b47d5b04c845f31603d53d;
Dbl 0xfe11866a1028b1e429f80e088504713213559664998658234cf4e653e8f1fb1a2609ca00758ae661f8918b7734b6dd84 0x4cff10cad19b7729ef2facba9715f3dcba965ffd0843c3c78f549345d8a3fe6d8567c613cdbdfc21d297e9d46a38d64 0xa1daa4dc78668a374c0fa39af95227d40b5f1e428f17cccad25b5ab96df97cf810d52de93611540a9dbb8086499baabf 0x9e3a546952fb0d214eb0473becef543d6f92e30b31a4589adc3122e9a4a068b47bdc781e41e86049af08d5cfb23a8799 0x0 0x3ce5a4ae5ffac590c3b03c7c0fc01e7fe3d50cfe31c970c3a6ba58ab038b05f5a28d25cde93ad0ea85ccf34f21d2150 0xfc26c7ed98ba1b4460891861cd5c722e749edd03d8b887f252f4f2ce58bfd7cd5bd89a963def402a459e9d6fe1028b4e 0x9d08b4b431a67b15d0015049c11c223de12faac433878e2bee26df6558da3f56f9e9b2077ee1bb00448e00c6571be314;
Dbl 0x72a8cd9db7be05b3a87b87587e5a7407f196b87959ba6f6912617cc6548101f222aaccecfc23c2ff898bb74477246dcf 0xe10cb36d11cd506e23a42ea485d5a52411c2df652b7b03e92bb64e18287c9b53ea2b1df419bf5f4984a2ae350020362e 0xd7e679724697d36352ec806a31d6ab0b425d781706cc84c07768fb7fe90ed2a464666b5536adb53ee5f50bfe2adaefc2 0x23c33d9f9b4c67047b4ecc27239bba19b9e6869aa50938534d3efb1c350da491ee2b5e6c231c80789886d06946835735 0x1 0x90b6b47c0682b4cc20893e5e3334950cb9493d64261ea8aeea11dc082e7afc9f188e1b202ce2f7b2ac46e1dbf171264b 0x335ac66efbcc5fecb5f11a1244a5587e814a54df3825af8bf16b9e04a4d8389b15a1846a094130766475e3c70a156395 0x1004864ae4a6a702c3ee3e3f8a1e0fcd4b01716be86dfa13db8d650dce041ea4c3c5728058532dc7d208b4ee9dad85a6;
Dbl 0x199d0012d6d0f6329f2d4ff94a95a469dc066425e46b80055d9aabce5e26cb5a8ecbd803229f59626014fbf3ca5ce33 0xf0cb9e35473716af0bb35a2b7c34c52eed8d941dc129f201e67b6a46af7a3e330065a1af71d9bee1587b2e13e2b3d371 0xb727daf89515c04a45b6a37d2dfac3a543ce50832265e29f22c87ebc1e6e6cac7192de7f9c66e98d0cb062cf34eb3b8b 0xf0411537ca9639bf17f0d47909a0dff524354b476a5111e7453ae3d179025d1fe9c57c43a7e5a0682c2780221d6c62bc 0x1 (-0x24ed2becc8ae7a654b325dbae8cdc3bfccd6363ecaaf044ef1f04c1f07b72e999bc1c624545b94a163f7faf8ba8456e83) 0x2900a4cc5104dc6c6d2bc7ecbddb3fb38074a6af1930fda593f317145d5e76ba9784d051f50e0456f5dfc872021a4 0x1809b30e242deb5d3f432574d1b14107a3ffe72fc84b875d3f07c9672a7a145e35fd8a8496ba42ab0469fe9988f37d9;
Dbl 0xfd187d899381012092a845d5d0219a414c796e0e61881e40e8463a48626a836205d54cd0a3c2799dd8638dbf3f474e50 0x9e9ba344be18e6cf3cde541f7b6dbf08b3967e774b4e69d07ae918a400a9db2a694d3fd27e125f0ef8b71d742808e9d1 0xf4f15bd5ef27ca90dbb27c39ae4067178742026034a90efbe1edee6640f72a8db35817408b222209d95d182e14817498 0x522ffaf0891e2fdfced5060c00c7062639f715a675db88316b9251a2aed06308971861dcf3c75fd25fc4109fbaaae9a0 0x0 (-0x13d536dde628bb19f80772993e990244663096f4b1638cee5407a4d9710a7501b4eed50d2b9be524153e4a6f3346b8340) 0xfa396a79b4e84865c82685f88d09505fcf25113bdb3d3a79d771c2d27a2eb17a607d3fba3472b857149a0987051bb7b3 0x514147ccd69f657401ecf10976c7dbf0777c47b5b10c6d865ae077c6cf83540fba81215653c9ccf044de4910b574ee23;
Dbl 0xbda9b6bbf537ba5570162baee05fa7a02e8a3abea15a343f1fc3bedaf61d6e64f9d5b5f3bc2a9686ec04159edb30a503 0x728b39afe59025fe44a7534802ebf3a286d52e5335c086e9eb4ad31e095b50ea07600b2841e742020d511cf10a9291dd 0xc8cacc04541e647db78c55fd19e87ae4688545f03cc80e0a17838c8d3dd71326ab08b817083eac3f0b2b588a5e0aa4a5 0x2c106994d888c0d0f83700d77881cb662cc15024158de2e68f9e4585f74e8a4061ed34aa3c2b1d0ceb6600831d7657f4 0x0 0x4423b17c17f6d980ce84ffd3e5a538275db487fd33c38f86c73eab211af90c8261bb05d4d4d4b998547bc37f2385aa50 0x8c8408544eadd761938e24c04b92d0d8fa2e3bb2c0423bf2f17939164944b01911bdfef49adc2eb9f5046e09ed278776 0x20a5543c9c6226f1b9d779d2c5f8063e9f23d060e55ac61b8df3efe4c2c9a44de378bccd3281c56886dfaa8c99b8cd61;
Dbl 0xadb213ccfbfaccf2bbe95334c0928743ec8018f36247fea220cc5e635daff1acc35ed5572a94a3da012b0b7c1a5890ea 0x1a60ec14eeb92e0cd71ed2a695d268aace059f5b5677cfe55f3af201efc36d768f8d46cd7bc1a00d6a0642f837c3ccaa 0x8859ef7eddb96fd59d89fa3427f4b8e09614a3ec752a51f056181333130860daba955625962a83fb9097f04340111ed6 0x582a4d9af6d6f7f16d8880a16d198af7b8cf8ef7df48b7048c0fe11c1997e37377d2c45ac625a1f4a34ad9f8d2cec533 0x0 0x76b88f88291486be79a6a9b766862fb5b1d530dcfb6535dd92d8f4cc00b4c881d0b3ea064f4006d9acf3eb974b71acb4 0x75da2aa29727734eddaf19460a7e95c2320937843696d34b199cad188df88947a954c830dc4ca4d0af16bc96d200da80 0x3bd1eaad6acf18d13c7dd56c24ac10871db5e61c0e77b8450323babd23ed8f5775b36e80c11ea638613fbad6a6a6d2dd;
Dbl 0xa99821acc3a9cadc2a930c6569aa74096ac28dc917a0ee4aa6cea65a6d80aa576142c3bb53666043e6d88dbef35481f1 0x91ac9bf0dfbba65626692878b48a0270cd1467ab5c38b0b0bf6bdf6ec40cda175bf5bf04623118308314ff5ec910ca1a 0xab87ccd7595aa60fb689d675e35c52a15bd0200e6c17ecda4720c80738fca75958ec80c490056fe9cb1e6d55d0ffbdba 0x88b450240efd87b6b0b5aa2de148663a00f137affa3f1f349fcf12932bb6935e339787c8199087dce6f1439a6eb3028f 0x1 0xac814eeea2b6c4e84f83e7c0000f6dbba0d901c65996ecc28902a7809d8b44291981c9e9b6ad427d189df0560e1267bd 0x705a36de1bec8680ddaa2b789d07c0b4495b1dd42ae17f7bbb0df0d8a00dc8f4c634332c2914731eff0f3d8b2a7b9e8d 0x5a9045f2e344c7b1281d0699b39d1dad9f365026a9d988cb1165fd61d7412444a3021f48b64c94f3482d6513125564f1;
Dbl 0x1fd515ecd4e0b58593474048a2a72b3b877106b16407b8eccf35f06f371d3068c23bfc132dededb8d7acfc232442263 0xf07d5ca532f0e6bc9da2425a21ac1c0ceff6ab98c0b205177a299cab5d933587aa28205f27ff2041802676c4e07c2449 0x2288a43cb47a0df138cb110c1ec73a3e4557ee8cf9971ba97b70cf2ed5d421041901fc80ea413e12a8d303693f98652e 0xa12f3f4baccabf9988c6e61e92dde663dd1dbc129b86ab99454242c36679a48eb1cd9ea43a31f7ef02ee889ae894a5d0 0x1 (-0xf604700acd823d44af3ec06f385c8ba9a41c28664f43d295255514408698849cc66384e11a8849230350e90be29b05f3) 0x3f54cacd9895fea770de07732937e5f975828f62577b1aead6655a18706ebce79340a9e0103edc69cd4197d674634 0x140ae2c7d1ab7ce17e4596990b9a6ca9ec4b6a7dbd629df729569dd570153972a9e6da1c475bf7dc6f8c5ecb5d66378;
Dbl 0x817257ce7950e72934b003e47ceed522a6905a43e0fda8af125c518dd6c44493c6c2ff8823787a7303229b93894288ab 0x2a28753805b2e335500258969ef1db01909315b32a337185abfc6e66e5863058d9447b276588ce43cf8ed71ef01c5653 0xd6fbf9dd4b8daa0133b810a399fd7aa991708e9f88b66b31483bcdfe0d79face86e81f12c62b41886c0ef385182b1d36 0xc654e76d2d3e03874d9fe9c382ba410b5f6395e5967e9391ce2d2e44780d052ed0e3a537c27651fdb0979fa5f05fcdf6 0x0 (-0x282d5526406e3732bd3e987433cf54a68c1427b7b4ff9555e1384c078a69eb6e449bc6ec021bef39304a75e73853a3504) 0x41746f9068459201dc9bece6699e3d8e231dd284281cc12b22420c7ef870795f1758807edd1b3a67ece1f360e9f27cac 0x64495e73e35f88a0b1369c03fa845dead4e4bfc503a44999ca1c6a28bdeb9ea72dcbc9bc57c04d9e79e9f64822ee3f12;
Dbl 0xd8e7e031a61f33d313ec2bfe07af68049621755ded72e6462bdaa240712573bf1497dc318e697aac878c70bf4f6b1264 0x3650873927b18635fe835db369d064b00088cc116c504757dacd84191b8b552cb207dd3d20bc008c066e749256eb547 0x811e25b1226ce3b0388b7a9f7e91a1903ed290b766527a63386101556bb2d5d8a578322e7b9e974e53948b386ee6c982 0x26c36cc47337cad1f01a22bb6854d4b6908a88f2136e6d102e4f962553cd7b060e23fd53937d0e3b0f27efd5caada10c 0x0 0x1577ac25d0a734fd09430200d52f9f0170e58073629bd5c4791d7d04722c82ce523ebc979c858619a7c94f3d92cdd3288 0xb7c81c5a2645601b56fc33225442270168af3a86e1e04aa1a6333c660ce21c83c4c3504af56524436c618d09ecbd2add 0x20d8000f6a3632ee786d6732340489cf100e86facd6aa3965baf9dd663a6ff3e3eb8991fb856e7a95a9d39c921e82608;
Dbl 0xac95e1c16cef7b909263d68094f942a10cd9c25bb1bfb6ffb1d20f79dd17380fde966fd450ba10968d736cec24321505 0x9d08b6ddb8a84de45ed1f12e23edb4f9558a4ac2be714244916cc4c392cafafe7248edf2df0ff407c5a7d47dc3d602ce 0x18ba98d20df0e720f0dd41bd164fd2d6a4d7479eff74f16510399869f9ef46ece6d3dfd254b2a8e7171bff2a9e9da7cf 0x665c5195d9d2ca7f011644ad12af5151aa7e41fe5853c230ec40137dfeedba5358d78fdff2fbcc00fabf12cc6198b278 0x1 0xadf52140df55ebf333588e63aaf9fb82dca3a9f76e8d03f058344b5cf7eb6f07c43d69315b33e138fa173360f54939fc 0x7459bf1c7ca0307281a7f20ea28da126b5a2831f4cacf854e0d66e277dbcfcb7dbac4dfd4dfe8f1f4dcc25656f059b43 0x4501f4d0a56e522c38ffa0f9ad6e70ebdc07f207dd7037fce6565c5ae564013b99edeab86b059baeaa43d5d0e3751cf9;
Dbl 0x9ee358ffc8e1b90e736eba3b9f7c6ad21833f12ffc49a78069d6130fd6793d60156341c270f85bfba5dc29814c91563c 0x83dcc3e1c4b4d9111f97e2a310fa9e3a80670864823717f82eec1aa9ce7246e9f98f78820265b684bc04e031b839ad99 0xf54f7fd271bfb7c358b72b3c3a2262da7fea2093c8bc7c3b2203f9e1b68776ba30c6f7dea720a52c53a7604c5595d9e9 0x192bf2fbf3f374d33f3a0e8b12f316bed523425e3c3a2a4c6280aa19c458b41478b97570dcaa3d8309a2f44c0b9c5535 0x0 (-0x10248d107ad97d8d69e2d5fef60dac18df77e589ea9f8b99193314f183059b4ad23802f5dab5d774c5c9e2014b9d423bf) 0x629d6bc2b085ba6904a776935ac43a356d183ede56f06313b74fff562823d5c450f7d2b966655e45bc172023d2e15525 0xf9f7ab03807bf763c617c470ad8e1607933c7d4883749393268bd851ea845c2860923dba61f8460e9ede37cb7eabb4c;
Dbl 0x97b26d8f84411a1173e395e95826eaf08ff793ba68899883026eb502afbc7652036e3ac4baa7f9535c0ea0b0b480c526 0x67c3d49d83d3550c8eefe537963102b09ab20872e578dacdf059cd025be5289303fe4822c665a9647a9c42a6bc903eef 0x7ebae722cac3bb1f727f1ccd2d28202e84780a079339dd73f77a0c0eac36692ad23ec4fdf8366ea6febfd069125aa06e 0x1c18ef4440e1840490a7fd6b7ac99b89e5b4fff19cbe3d2a3e924da7728d1e56f591305f3c000d2041689d8afba96eaa 0x0 0x56f6b0c1ce406a3769496e6ffbe1558963e36f0d1fcee2eb0d0936a5d2d86b7dac651bcb151dea817de1636e80b12524 0x59e3f99bd87c3e5d4c3cd2f5436dc7edb6740fdcd942b732eca69dc5f64e03737652cf9c4195ddab6aea3143ff30187d 0x10a64a7dfe0bd8fd24241cecf7535e73f12673df649aac6a6b6525e1d2eeca57bee4a59ec718c6c05be1ca1ecda13b1b;
Dbl 0x8c74c00dd4b85580fa6b545010f81e920adef3fab51ae726b6c58247092f38a8d63702eb6325cb893aee933934029928 0x7d1b47339420e572eb5c750215f458ff220d65288ba4a18e4460b514f1095811a4678f28dae4edccdfb863bb1f336928 0xf75eff066402b5c6106561e9837a6b850f6b57f604211c4e732bf98f77f540929e2e938da0f2b51956b340446f39d742 0xeaa88d69efb26f99a3937035803ca9b178a4a34a59d4393fabf917ed6adbd0805f96b8f8eb80bb979ae3deec9d5cd5c6 0x1 0xce283a887b91ef1ea2286d782aae534776d2eee741377dcad52c69ab40a3dfcb51d79253bf21b771305c9a46b3c4b00 0x4d0fe74dbd4724665a844e8f0d361115ccc6805a621a4577af5803ac2d62e95d53adfa08c0e10ac75706c7bf981310c6 0x80bf31c11ab160ab263f8fb6c929f2ad06fab669fe3ec18851e3989947f10d84af51cc97da28a5dbbd102b2c8bc3bac0;
Dbl 0x30dd71a5cc3aef8e9691c150e4ffed38d4a553406a02d22c9390d8a23bcf39aacd6805c901e6ff6dc8990275b33e69c1 0x9fcb3db89b2bd070a1e36e3e70fd63e52013034298ad8bb25b3d978e644ee4dc6f3b25df37461e099ba85c559b9a745d 0x5650e354aafe46ca1cc97f8772169ee329f31c2e11c18ef90740b872ca7f2b79b4a917f6dbbacc1614a2c419d7a2a95 0xdd50097af8f51502497906c3a4f6f51a01fa61e5f2f715dbe9231d868cba7334352c6948a39ecfc3441007668398f4ca 0x1 (-0x58fb5e086731b0df919a7887359da5a65b7604a7486fcb83674ed528e29571ddac91f157ccd810986bf29fe2745d32c7) 0x953ca2b974c814403094a3d8cd809fa1407648b4b11ccc2dc89fe19c55080cfd5aace5634b01bf9a30881728ed5632c 0x2a3e721ee72afe7356a657917b19213afb85e32f4f438f09426383995ef85cef26691c75587f54697b8c214993109b8d;
Dbl 0x155f72da42864311326dbb48b6aba87f9be45af3c5a6f321dd04b2e12eed51c0912b09d7a6385a3d8a727e8884edf921 0xb7de6523f5823069a04de80ec60d241d8f5731b6dbe8d567d1be27cf919d29dd60188e4eaf2dff0a7bc6620bdf08fb51 0x9d1c06077b330a3b6d155ebd6e6bbddf1d2b5767cd3d0048e905720acdabcf7d37dd4fa724922ff1d1c727dbc3f7c54e 0xe7ecd894a5a9a0070195862faaf03fc790bbd18bbcc4b64a897f6fbed2b1bafe0f22978f88181eff1fe1fa4abc91790b 0x1 (-0x12a53ade649d853312ed3c050a7a46ab8a65a56e3c06758e52290a00e7a7c54b453eeb61f1461e7d23ada933047dd9712) 0x1c8cc6e406e83fb8ab8795db132d892b78f84a21c882307d7f36b87e6284dd3fb91affcd68f00824f4a534fd4b2adca 0x135ce6b5c527b6ffd30da641bcf988f8becfa163ab75b61ab271c51a564e7378438d9e0a01b588fa4716b49ad8c6a278;
Dbl 0xae727047df7b24e06d8c1d404fbc61348f2862b17d619944758e190c4b0231b0406530753f3691ba6fe4e910d96d829e 0xd862f30483d13925f8447c9ffd06a669233ee413e8f1df42845d33438482debef3a986e1086fbd7b396b32b0a020cfaa 0xb40a1c1025a3c6e8464973fc1a99f670dbd225eeabab017a454005aa446c1f26bdf667c073e65f7ff198bb9f950d5d50 0xdf7b721f71b0f743a8096b6ec9067db46c184da2f2f6f6254d60f48c0d1a4b1d6c6f076ca6be418f425b2f5c3ee82ba6 0x1 (-0xb610926eaab703573361a4de301814ca65ee9006818f5b68de3d7c56c749e3f230be0cbc796c073193aa25986d4ef568) 0x76dfc3c9e50d67876676a2604aceda8487fb037c2fc677762ce337a9260e4ced521e807c3ab620454a6b1d880501ecc8 0x9849ce8ef1895a3e8d70580ce5152b79599112838468a87fe691d9838ef248bbf06b4d2a8418c491613f508a53e1e62a;
Dbl 0x9aa07a17e83c5d9f4fcffcf0206aa03a83cea9293288b66f9cea60e8a605f8c5c8ec8e22bee9331b4123da414f9edd99 0x4e5a9dfe6ac2c3ef049f9294aaf0c000d214b583badc49fb712e1253ee0d124b89bba01d262810506f5e0f5d2805e596 0x526f1b07f6acf1717bdd7fa6306b571281a2b6587a5e5a25b5a0603d0051e0574b8f321bced6e714965622c691013e25 0x8a085506190e7536f3a4ea0b5215e668512a2e902e159547132f20ef9675cc7369ede6c3e247ad2aca0d2353781aea14 0x0 (-0x14b377ee1f916eac16ddcb7f542e17ddac5862af337a28b83e8709c6f1bdaa022163758cc12298158b287512b92f892f7) 0x5d65777d9b85b7adc9ec22ec6d30a72d49ef1b4fce1b144382bc001d402c58f7a6a20e38417a01ef311fe92ab199ff79 0x535f8a2fab5f0085d64deac5f6b3308a1a99e93f91c99197dc6dbc29678ffe7120f3853f7f4e5a48dda83e687d8d7181;
Dbl 0xbbd75caac0c27056182d9062770d2aeb35ac222b0d5c6ba34b71dc4955f20251ecf29943b301fa23d3f15f95c2dca459 0x6a985fe8c9e99c018ac9a1edbcf843b4b1c2a5bb841447a2b84d53863d5128c3b74dd3e52d7a2bf58d0ccefc54a20f0f 0xd096128b418aaefe2c4c0940803f23fe6aab161e7fa12003bd3632efc4212524e33f37bd42fc437cbcf6bac890d636a3 0xe3c23e15a0d927ed79d5f0a6edf87c4c20520fc836c80258b8e0becdb0bbe986d26dcc36f8ade45ae2514061d363d686 0x1 0x3106fabb58871bfbd41f771568af615a272975a3d32ce762f32a34965de1bcf713169bcb7571e539bb41ad48a3307def 0x89d4568e3df70326cc0e7d60d3a82ce7f2df9ddb34c738e3f1f0c24a0015a96ca0b305d2802a8bd0f9461c24de33b34a 0xa71e7deda974626ab3f248840c6ad521c339e988533674c3422bf88ee175f8f2d1dbfddd7a852bd46d39eff6c78c0832;
Dbl 0xfc4bc79a7b05bc2f249efe870194323e6b8ef28e09d86a8ecc3687fc7ea4c6fe0ab3c8d51c02b55bd2f0accda73ef48f 0xf5b63054672d46d11ece663e0aa2c0e1eeeca14af141b6aed40d2f799d544c01a355a642d079f1b89321e632dd33f658 0xd09b496715ad2ad9d31c0473956847e7c0b478e154b820ba1ceb2cc3e043f4d1b14f78f33e214c241a856428492dab78 0x74e22f9462bc55306bfb3bafb25582d2c2d6047092d290f3e440240c9ffcdcc113f82da15d003a3cf9eae8ca776e18b6 0x1 0x115fb5359a5c25121abd4b92a2fc6767663afc069472b6e8db23aea10480bceddaed08613d9477eb89b46f8456f308686 0xf8a54766b258e8543c4eb0e05e944be64afd43e6bbd9fdbd9ad1928d2f24a1087c63f47c81f401ef39f7a92c95932c95 0x7331403c5ce2943f45855a495830353e8801e8b6049b3243dafcce36df4d84433fb2c1131449dbfc4defe7ed7de29c71;
Dbl 0x1c2e947795ef81b135d9fa8cb702cd139d9d190ac61a1565429e331706369713075cfc625a1f404a28c829c4ea219e95 0xc34fdec3c9dd7bf0b3adf2871d936522f07b82b0ea31e4eef76b6b2aabcae1f2e9030b07456a57ff54b76ad9aec56242 0xcec34ed808039aff7ab935cb119f346206a250a5bc24411fccb5fef8d9d0c760140d048fb97aba7d4f1aecf94087efc9 0x326651909d4fcae06b2073b6ed0f5bbefe711e9a070fd1bfdca1c44ef1896a0eba529b3b8b0f99b93e6a7b592e6e9416 0x0 (-0x29594ccab8c7b2e11a74cfb9e9f0e589355c0e54c50c7897b3ac21439ecf53b4045f514b7a6de66f3e688566a1769fef3) 0x31a38f3d9e0c3ab09e72f34a03a61e6304994bc2869b607b019229252fd093f1ae1b4e1802f47bdc44a3afdc0870c39 0x58c5c892b6d383a057084840ed6777f908509171eb52c2d4115b9c0c099bd9d71c86f4802ff9fc5a0225b8f111dd673;
Dbl 0x8332e19d68d534345c042a92492d4e5c34114a79a3c91897a07441913f3fc169ce7b91362ee0aa9032be64369128d6ac 0x4f769c4906508f4522046f04921335edf5035e9a3eba33088c6750b96ada20646176a0eff99591e82606311837d6c1b7 0x7e35d102849988cb4193702968e2eda5994d283d8c756857efbec9a6ca599ce5a8a4a41344b0f2e19bde2f072c18581e 0x73d9427ac38cecab91a983828b802f34fb782416ab77b1e66b041a7140f0c18e878c6a174bd4c6172eb139c176eea08b 0x0 (-0xeb1a3f6f128e2196993d513d29bf18d5deccdefc800ad651b79a5f21195b931a813c385fdea8247de9e185d7567e770f) 0x433d1d04019d39c680d43324fc84219145908679c97c1e0f3eb68625d377bfa3651d7a51b7f0861774824f33f39d82ab 0x3b5f338cfd27b830d1587d41c52c6cb9a3089d606e35fa268471a0a604f1dc5c1ce2e4eff7852f036a30e59239603883;
Dbl 0x247253fa2e5998afa7c21b73c0d3fcee5f5d8534fcc8fe2cb51f4ae04b2de6974485ca988cfe52cfcd0b9759b1b75bdb 0xa9fb189da2cf7e33c614c051df68b90d1d696dd706ff3cdc91a0ed3a911efea2d61fc391cae56ff006ac844143734351 0xb40137680eae3e84db567865b11c7981a6ae0f6e3dc853bd1f11063d2fa7c0ed7c46a6fa391d082b2788260d077e997f 0xa57b83ab638111115befaeb2b2aa7ce0d799f0c337baf62bfac6637ed9bb21c08b56dd5d2eb021f81f59acd7f4637e65 0x1 (-0x260f64b81e010c73b5ad3c2aa7d81162738237a533cfcde1f6839039df99c395cf563e39ffd61c59604b9ee6ff93c4e4) 0x5305aad4366a94a0c0470af2bbb7fa05cdde2b1fb7b703ffaa1522bcd813049b37ad2b3ce0cd4dcbdbef73869115966 0x178f45cd8095b8ce83c08b7a8f2293924b1c873b57f7c636527d9d78b365a5826c17921ca784b9b2d2c39d0c9558ea36;
Dbl 0xfd8590f06cb6af4672da9cc1b2d4b2dee362a229f975dbc71fe4f307545df7f6c0933e9f3130235ff8b5ddf51b12a93b 0xb43c75ac4a2a5408a2e399bfb2086dbf6c0b16d6ad5347e5446ebdda887de31994dd5f37a2c2db95e5cf38d35eb41c96 0xf5c20bfbf79950a2d6f7111fb9336d32de6d2955d5880cc0709394fbc104d7ed977eaa20cba4a0022477f19c5193ba70 0xf5bea2f158a52a2b233126922d604b4db15e570059abf4f74d322f6008a11b88414264592822945a20dd4b6ee4bf26ba 0x1 0x11edc63e7f4f15e8e89bb58bfe30dd58654e469c78680abe891395650c1adf7f0564555a3152f67c0eea3df6dc8c1056 0xfb11462b22c1685ce819fc8c2811367138c712cfa0db2c1ef9beeb99c666426f2a662a0df935aaf3806536f8376faf9f 0xf35d9e3532ba9722277fa411cdbe9459c72c0ef8ce253835e560d540b45007ae5b840a1518ceeb883ac63ca1195f9d11;
Dbl 0xaa97f480815b91bbc1af02a83a2632cdae71ec4a78f037a34765de395c9453f68e340f92cca1c61ff5fcaba073d30030 0x8d9d22cf70dc35e04db7768b232a750f5d6adc50e93b5ac1baad7a8959ce059dd723de6d64902f762a67dc19d95bb177 0x4c25e003d207aeceb0dbe352c9d4651973212db3367df9bd90632d4c9f5b607cbf31a13bf7a7865e44f78c1fd7d44f0a 0x269f52dcd94e1e28552c23348eddf8b00ea03a85c417ed2389c143512eafdd7bbdb980ca3e32ac1fbb675cb985586b1f 0x0 (-0x3525c2ff8c184b85e4a254c6465a62f51882ca3767576e949be0ad4540b70ce355270772b31582e7aec0630c71a27257) 0x71ae2aed04eb6eab7377fa940366f9d248cb9e152fec2bccd9078cc93db0b25fc602181d086e894000c2934f27a3e1a3 0x19bcb9e3c6ba1405fdb1d0ea1dac2a8289d0d3bd31724ebfc75c3cc39d5992f7a26a1a6f4fd10d7def30c63df146f3aa;
Dbl 0xe51733e4139dcee5c29a0086246d81c8af22b299a28ffa179a75d7db0bb07bfff8db3fcf2fb4fda3c2e6c705da9b475b 0x8b31d35358d442508c78145d0936e3794df54bca5e188d496530679b25efe64307b4a582b4a737ec686fba639a0b4196 0xbc3a4e5b6e84fe251c8c3fcf7f22ee03c0414185663ee951c37b19d92da9ca1e257cb87afe9f287758830d04dbf1b2b6 0x26b4f7c1807f38fc13f622e19f391960f7590868b22cd78557d12ee33de1f5acf6f38eaafe8f789c1f821b63f506fe1 0x0 (-0x62b9d9f0cfa6c128c3f50e380e062ffc8757003946dd2f79f371aae2a244b01abbabf7b2084bbb8edb51facbc8046d2c) 0xcd0284f0689885860e795f659bb6f7b1026436a510f15871997b2904dba3827eac6d20891731ff4ac0bb657dd4ad0a2b 0x22a363bae3d3d8ff110af23db59d201c0fd769f770186778acfca40933678ff5a0d5687c85df63cffe5fc338bebd5c5;
Dbl 0x8abd9c55f0a2e072474fc265b5794905b089adbea1f06e7dff9a83e3676f95afdf84e9496a32f0d6e54fafef937d1efe 0x510537a023b41693f6b18346d07e5b1b81eca3f4282aeea3dedb823e995a805a440e40014bacc6d2cc35e2c3eb25d058 0x3a724ff26a015fcf171d582ca49ce9d436b5da58ebf3c2f239701d18b9d48bbf355d2ee35604c7573bcd50e6d01ee86f 0x3a2c9bb335202bbc95c6911638b8885dcc08a7d635ed9ea58654e55c8c9565e8c3a6658168fa71199c39d79faee5713e 0x0 (-0x1707bf158e3621f2faf5b0082b39658888550914a8c9948516ecec54cbe230da42ce3b615b57405cf835df882028bd7f) 0x4b30f8fcddcdc49acd85689e5cd7c1c6305a14ce085232efcbf9584c222707c5eeb16500d09bef866ac91608236fcf80 0x1f87226444514c67bad17977c68a242e0f7118151310ad72600f6dfd2362b14aff094aadaadd3323a46071ad5bdefba1;
Dbl 0x5b650a253c34531f0badf7b9f7047e9a52929247f5641b22c7309cb902456cef8f65e9b1904b9c4a36bc01cad7783d81 0x2913d4eb34cb8fa1cd958f857f52c6e50e63f46050feaf12cf1df4fdc30bd6596cc28a6cca52b096d490b021e0bde8c2 0x47b885f5a14ffb1a5cce5a07765a13227855d537603fd5f2d48722eb3bb7da7b47f863ab1a874d8cbf987e9b083dcb0 0x27f162b4eee886f2291bf3c1512b94367388af93d72c3f910fbd8d40d64eaa00d74bb594815a163bf7a532a20a67e796 0x0 (-0x2331804051628717a64b068f297d1d89c70463562c35bfdd05283565e47ba87d23d57b815e1165b7f45e5f077afdcb21) 0x20a0fd177a95a2803493eaef1311aebdd04d769b25e84fff158ba4c44e77f9034bb9ceb6340711724d4002be5152ce71 0xe4291e77f71fc537ed54686cd2bff68ba02776f75662f6c1d9e9d10654587535ac93462538d033db18196a7f7c85489;
Dbl 0x8f245030cf3ca49681999b546e51838929337fa2e16b7900ad68af97dfc38c149ce38ce61fce2cad2c9f4145df7870e8 0x2d4c684184e4468cb55e14b747b914c4581128468d5195a33a6c52df2b512ea5c20995c57bb0f92df79bbe27e8ff36f4 0x300fc51960461e7397d2172bc1d6995cec47485c2e34bf6e9757e89d65ef7ef29561ee22c2b2ab26cd48ce283cb77354 0xfbc76ca9afe7491518377ace3799b220b652cc19c3ad196f94b1a21e97baa7b2aab8f4a64ea1b768dcf4f1faf7beb1cd 0x1 (-0xec2cb4e1c76e777d7d5d062cd7e4854716dd7e6144de888e081802120ae09be4f3935d9d5991b9224c8d248cedd65f7) 0x500996bd2e5e93c2b47cf8b593a17438d6001430d20ef8e2be6af917af742a841881b19d3d830e07ac669a356f2f3638 0x8cc81c9c644a3a9cc6a0e00cfe7af1ba5778acf5de5ac82dc331ac3a016cf42613d307933440a09059a084f40f887e3c;
Dbl 0x85572b59dc76f747023e75d646f222cc14440e6f3cee972f1cbc46de410a679905189534cbdf2e934201582eb5450e6c 0xd15fdfb4eccf825fdd83eadfe0e160280e7c0d8fd2000d9184d529756d0f4d11db56b796c56e955898163d1791f22d45 0x1bbea6c38ab95c3404ae4be665ab7f33ab2344ebfaa8f031f339b53dd705d8807414770c01ae050c183b44e192b01ea6 0x5bec888c9814c42cd7da29d766d7b49c49951ab6bb518811b5972969be41e192e6b2de2db64263d55f858111570d09ae 0x1 0x1a05436c1100442ef57d673f2ddb44d9a0a1be97fed476d66909cbb5c063b17d859f56d4a772c280d82cdd2f12fd0acd 0x4573b0b9dd7ec566da3ee750388b41b21158b3d46ca734f55ae5ee0f1db9404b6a8bc9eff23e2bbc80482f2ee4e89d9d 0x2fe12fe4721f8c90ce352d47348f6a8b052b085698b6f585da79d10660584e5c1824ea0fad3d8020f80a69e8bd79f892;
Dbl 0x242b67c29ed311b90721ec1ce2f84b27c49fde07f9214de30edf6cbbee4ab336b37e7984467a815bfebfccfe166255fc 0x9180059b49c3a23064b758895b35f7fe2728cd9e0f0d85ffcab4deb58114ac3ed5dac68a600c30c14eb769081ff4ed6a 0x64c8f91cb4203fc58563021d611795c4f9f8a1dd138a1bbb690622b25719762a36d56083d6ea74b74329d6f31a8b4fdc 0x3fdfda19a30be02f78cc925685ab6829e7533ff1c2f28791ba204abfebfaa0d3057bf10c65626497495ed40f71fd3fdb 0x0 (-0x1f9e206170505efcd55cdc5cfbc695bbf026e8920939bf906a99730be516fdd1af0f35e27b2337c3fd6ba2fb664ce9508) 0x51c3c8ac21ae7a6f0dce7e029fce904ebd38603c872b8b373f0df7e3bb4fdd31a139b146334578efcc28e7e0207f7e4 0x9064f28dd40791548f3a9c1ad53a6f7f1f6b733de4fa55542befcb668988fd6418cae5aef23b9a06b47d1fc1de6dbee;
Dbl 0x6e0a00149b0074357068d311855e3b6c719a9022e57bc3daeb3c2b21150bf8ac5a54404112def0b52bb7fa5b1b9aa7f1 0xd258b387dcfee29caebcdffe192d880aca8090147db698342cef98412735dbe9b0e2b6983ab51d9aea4679e12769e49e 0xc1b6f8ca09358ada3132ba57e2ce916e2cbc7c938eac39b6d6fb23f41b4d0513577cc62b41c30fbe6af299951441ea63 0xbf2752136cc4bf93b5fa788b42086ff35ca83d899156edcb9dc5467459ded05424f80ff1255713266470ef27f88b08cb 0x1 (-0xa1723d46346e025b563982502d152551bcb45aae28978de033de472824d683d4d0b7a29e13dcf7170a83ac65ea75148f) 0x2f4c9875b6d0818f96b292a6073bc9c8a05e4292717b8f7026931d5cba6ba24b98148cbe28494ac6d96aa45115336e91 0x522a5cdcf04e58fcee7517e8336d6278b0ffd365755ef51e08bb9727454207380c7173a19a62b67faa76332ece0f8624;
Dbl 0x4caca3acb5dea57c04bda5de2710e3ef8dcdb3f169972193dd57a20823e3bd972d48976db55d21dda0b896f05fbe3749 0xa5f6ed9ca33899398859b5818a271ff6c254c1875036d689d341416eb31546cb8aaa469784b52db8e111e4db8c212b5 0x34be3813bfc96ae1794b8bbc730fd7e361337ebb7aee362fceeeb28e7ec773388306cede6430001e3898b2d4a9787a22 0xc7f944ae12cb5909163744a6008b160b5e5b43fc08b32acb8fbb842a3c04877cf838122ec269cabf5c355b936ea7d1e9 0x0 (-0x192770689cec2b552eef90e38de02dd49102316365babfffb996856de3659837e7a74a0fdae311464c700e77fd7f0c1ed) 0x16f6f59ae4b5f98e6c95dda7768bcdf567373296998b9b28da6d524aa40f841ddbd5f1fc3b80db87d5b78bf1bd496920 0x3be4dbb872cf22f7caf78327f1c2c6bc996687b3c912593d68e4a705ae259e71512009a2abd042ac823844c9dfd87a14;
Dbl 0xef34fb3193b9295a845625bdebd551f14184eb17e0d4de228090a6fc6f205744ae076ac61db200e1087384bc831664ca 0x778bfe301d798ddd5f9507f0846e6f593d84e21e77d8d02f054cd79b9caf93b8511af0d367fec6ab8568960c8456b4da 0xbe41e479a3ae9e76150686bf1ec658a737869c2f72f26ec8f7f6ea02f76431b9fca8c5befa735802fe97a16b1b8935ff 0x92d370a9acb9fbb638f09367943402a62ea069f9fd2a9d3997e73c7b4e81c0b3678fb395104c8c3008a88842346b5dda 0x1 0x614e38c7ab76fd41b9800de37e6a1d9b3e54d1d7cc09fa16910d6aa3be41bb5157241b970f9f16b2931b034e47b28e40 0xdf83f7fd9471ffb6c9161d0a49f94f11eb196b34b3eebee196368a8f214fdee26e219b28ff7d1a9f4f8ef7bbbf746ae0 0x8931c933096140d049a4d73649c276b1473f818bbfc673a45592dab708737d30fc8f8bef66c30a85fb30a74cd8e47a1d;
Dbl 0x580462c1242e9f0a359503d468d5232c77cfa2e5b45d9e948280ef4a5592f7f0d7e6de0369aeff627165564311e648b 0x1a6c7b487d6ce34847ab3fcb86b8935f0de095094f885d0a68f09dd0bb2c1dd2bd4e3434a4d2d912e11d749ab35d9cb0 0xc9819b4102ee8a6d1e18efb2837bf6c0965c63b9f7ff304e243d3e87733018a124f75c5fbdf0bb5bc746f0db7c8b9563 0x5d1f82e7a00caa9517e9c824fdb5dbfa2fa44d15285073249c5c39cae18375e593ccbc9ec32bed98a44b2171d0f9182a 0x0 (-0x9f4d1b7d7b594c4d0bad0b08026b05fb970d8cf6a20447bb5d652d421d2a85fc8181375f194590a00ebf98f3e841fe01) 0x1e4303f80501a0374254e2ed71df0ef95f7e62e423b7e07f44eb5a42ef1ca1ad2836fbe2d98083801542edcdfa22eb 0x20046d69fcaa9aa6ce8da88fe1f731def837c7ec4f8a66d94efa7d6902c925cf89cb49b17584904a835ab33f4784494;
Dbl 0xf9fe16bbe109bacdf16c7c28402f59ffdc762c5fe70cc17c0666f19a122b35c1e3d93d1e3023d77d1e9b0484d1b720f7 0x8130cb0670c38f0ce47fa2f83dafc6ef639eb2df09dd7f4e49f9bc53357d89ded4782e62719e667a1b2f0e767c870844 0xdfeab4b877ae4a4709308d74a8cede3ceed95e0dc700734b9dd758f42ad2c0da3427ea30386d4a29ee77ce1dce216187 0x993bb0420ca9543b632b9cd34908cc6faa41e22a45aaddbc1ef6e17d85ae93f2e8d605d133347298c5ee662536d6946b 0x1 0x1815f7bf5aafaeef058627038cd48cd350634d7670887118d5202621972f487cb821cde5681e99caeaad94cfe9317e5f3 0xf420446a9a9c5143867485e6b3bb5d3de6bb578379341be120224173de3cbdd91e32622bebf707ead4834d736fe19353 0x95a32544b64bf9190620fa3729f4b33f15886007e5cc18783a4bd2e1609e1a03f7315899a38ba61e9d7058281b9963ad;
Dbl 0xa0b60b0474f521b212e1daa4144f4788e9aaa2f4ad982f3bda02aa007aefe03f9ae10eb8b03448f75ea9bb7052f3b655 0x7883978dbcc5b7010778cd4ba3e5d7fe2c21fa2f6180671ae4a78e379ee18a52bc41e648ccafec12426676061945d3a3 0xd980153eac47e6c0e1a439508ab87b311c80050a76f5dac1dfcb26b0f90bd433eb92b2bcf048e8f19eb636aaeb860245 0x8ad3378b3fdd80bdd06d5ac99c9eef1377cb8afa85d183365522e1b969bff8c18364819a4ee7a67d8c89870634134a1 0x0 0x558d3529c0234b2d7366acaadbdbcb1251ca608269e1f6b76c36777e3263c9ac84407787b0ad7765366c296dccd43e87 0x64e40f393d0218cb6eca96e2deed2031fbaf26aa54c08e171bedddfa20a8f97a81f730299f38048d8b22bdb2f718ebf2 0x5726bada03065570b9ac14e5230b21928d6de1b284268cd8ff86ebbf2224739b7702b7fe18f9cf13c3c3a0de2c37457;
Dbl 0x9ed15dd824f1e614e5491db7f2cbc2cf679fae97ec4c47953f630d176c7a0cd08a78f03581bd00179a627e19a9367409 0x137d087286fea1b0356556fe9d07fdddb56aa4a4f2ddd3e9a02d41138172145c59bbaa8709dd1ca27aa293664ec91657 0x9586a28c7820e29e732f05a054041a11b603544f6e41c6861283110d41df85f80db3df0ec2472c1542e9a2862f711ecf 0x65068f1b35c71550d213764d06ddda2076b7558a6ea29331447a4d241d6f75f662863bc1c2d2cf6fc7c3e29fca7cbd4c 0x0 0x63aaf7a662154e0425e284ea715b001b40df48e4f3ef0d064d3f3bdeccc5ef253ac70ff903c150a9d784e816bfe59c7e 0x62871b112aedac5197d9013483a593b790c34107be54553f353dc7d05285f7936b214f6edf9962ecb4c79e3376f0954c 0x3eacabb64e81ca47ab1ad5e16c6e85fbfe3d8df8b8c6995e90b50c7e7004700e92c98b398cbbe875d0ff8f875cc60968;
Dbl 0x5ed76f9b570f6f3bd8e6a85a1be282ccb01a843e32d400c6f869f919b4bbf3ac9bb38c31bfac02269ea95d8d21ad55e9 0x34bcf4a54976514e360df99eac7902be19d55ab14193edc885d944a51a59cee5200f2c69de2b078130f28c58b94a0f6d 0xdfb3611a728ad90759ed7d6d0f1928fd08ef486d4e46457358e25e3cb212bc08eac6f5aaabe870eb23ed1ee12816db1c 0xdec013cd3d885061ff575d5ff08efb1f9b9549f3b149e6211a53fc6e6718457639ac7e1c2bb2152149b0070e957f06e9 0x1 0x6a5724eda761291ec15a5c7f9d110bfc6bea1926747ae1652eb9c073d574b31017c7ec8094217dd40135b3f2d38da9e2 0x2322eb42bb83a55eb691ce2a87e8555ce8742d50c7ca542c1db8e14a31ee574cf018dc9a5bd1256f19e94f020b1dae0a 0x5285fbb270996ab71ef7efc1d92ca221b9508f5e2eee7a6df87d5ed05bdb7350a9496e28e241ae99c807f647652a52da;
Dbl 0x69a60b89fbfdc9e5fdcc611723d177b7fe89c6786036c86e2793b7afc9c41022843647b7296e082946739a8e9f75758a 0xcbbbea79c10d9acfdf1883331595f801b237ffefa2da6c4eb719027d44adce518cf877eb604e8982538591e28b8dc355 0x75ae8b340719c05d39a90d6ca0f6b5cc65a666e8cc47a6073a358fd1d40cb68a9e94cff574ded5d73165af04f162e2e1 0x69010a2b8868b67e56f5766b96e30abc679d5ac19eb98179cec04227d5ac00929316b47d7ddc7dfedd6cfa772dbc4c17 0x1 0x980b69e209c78f5fe6250ca354ab5ff6dd89df7041d1ee11d9ae4fb0e181f907bb330f96ab9397e389a4fd7c35520b08 0x2b99a12a282e22c7fd7e4e2dc9fd933acb9a43cb799c88aab9a8134332a80683b0d5c34436d67e93f4699360ec0673cb 0x2b5588941787d4b88a40c53f7a50aa6932b0941cd307102afeae3abe092008c36a069e25731d115fe35da34453af3697;
Dbl 0xb49ad74387c1756659db6c8bedf30c900cd2fd36674c12e1bba139d87c0d43be2ac55ebed01205689628eecc21d5fec5 0x93412af8d3f88b3f7edac629c4a612df6641b7693a22af64c9a148a8a0ca4ea953f1538a270a79dc8d6e50fb5f6be87c 0xa5ad027d4e755d01a34f79729b5d435dd2cc1d4e39fc6fb93f79d250391b1f9f4ca40eda4a35dcadec41c63225fc216b 0x387abf80ed150f90603dbd0950efe5224bf6488668b7bce9ed77b9d4a3e37fa83907246139440fa5c61740e72c21dad9 0x0 (-0x1405edfbe8dd84e1a6a2c365bdf79e85906e0c067a58f35840ae70b55d0960312fab716b68033e30d7ae8e1c81ccbdba2) 0x7f6a1c5ea929e1b077f3a72925158d66073a7f25193f33993e9ec1580619799257327d3702c57b779ed62bc4bb29eb8d 0x27d877fbd72a3ce5a894c902912fbb9a64a680690efbdb5dec798ec3834462575ddf0095b43313504c9e3a8a7aa14d4f;
Dbl 0x701088049abe0f505cc53074e5a626d50c52b124aa70b7a38d7fc2feb6540469da1556919f702aa1bbe5f469eabd196e 0xb3d99da97ebd5f3cb031da3effd6582cc05cfe04182a49cc66b6274cc951c5d9212dcf2c51f721aedb22f743057a5682 0x75b71e1bd554d1d35337672bf5203595f5bee88d6301c209f411e7ca96fb58228d37cb72c720a95e4d7e446d7a3d1084 0xdf678d4f553b2c02cea8ebeac4cfbab2a5e4b96521f8659862eb215bd77888cf32c3845cd513582db24b59b959f191f9 0x1 (-0x6d0eeff61a5d23aabd93c054dc4c1b711cc473bff612c4a8ba4cea6315ba84fd3c25a4443a3051b3186b37e13ed6a9c7) 0x310e7815503e89a75ef737a82d054580c638912112205a9bbab8c6c9381234d5f04807d3838dff5301bc4b081d5f7c36 0x61cbbafe91f9b8b28ba4f4898fb9e3e28a7c8b4832840bbe94a4aa9b27f27d37babeb7f871e8c28601f1213c045627f1;
Dbl 0x9f6ea64984c98f170077408bd9216a1daa63f43749a73bfc1c6cf20119a798200df0285e2c8eaee703d819de4ebf1d08 0xa179ad8f81da43669d49c404549c69943a476f7499314aad0f92bf0974dfdc53abc52a2539040d16cc397b2034f92fc0 0xda9fd8068543a8d6933a145e84d11aaf360a1b9e572f118155b29dc0caae1356dcee1d15c8f488c3a8140e0f957475df 0x125ff019fce31bd612e8163aab39ee9886158e8f7ef8ff1f572368435471e9857568a50718f314980ee97c22d08126c2 0x0 (-0xe86ee8b58a88e7715879faa8e14276ac2a0bc5178bcf0ba4ddb2e770bc827f95b01ab816d0698425c362cf349f1c2237) 0x634aa262a623ea47efbe72a3d632b24b18e30e4fffdef3cd45cad62bf79e6145c68b3d2a80720a54605787ed0ab30c84 0xb718748cbcff8aa751c545453b7abbb8cae651e30ee8d72ed7a627b7e7ea24178eff06b36041b564ec35db3e3865653;
Dbl 0x69b5816f59af5392232b09d0e6cd18312bad3ddf4309fa64a59973c5b4e30e107bef7c8bea37fcc97ff5b0fa2b4c459b 0x7396064945ec7f3121a96504758d0bc2ade3a46ae335ddb917cd5338cb2ecd2019a493498166e01da3df313fe9bb1adc 0xa4b29da0d8fe460b43124f15f7ab941f8a0b3df67f3f739d06b2537421ad1350addeafd6d8694ad84174d2b7db79c2d9 0x2de3a7463bedc4357ba05effdf0f5dd18c63cb09b5fb6cf3f7c56bd0a9b10f33922096dbb79d2cf9285a49e04b3e14e4 0x0 (-0x7d01b01bffed398cabdde00078fe07f33ce7c38bd83deb7e00a064f6dedb441f1cd6def5f26014feb78509ebe3c0c20d) 0x2ba664dda0780d4ba52e29441779bf8419f803780a2b432caa4489e07ee9a66f30306641b23df5029a5ced2bdab88e83 0x12f2e8c4c05062fe3ab3d8f0aac5e4c9aa89eb4deff47bb430a9269a63e3042ac7d34bde48a832dfed8fe5c5a7061eac;
Dbl 0xc987b43da5afb26922682e9735b1ec517cb0d7d620006a04390e636f8adb460dd6aaf6a17903dc008c54536697d8957 0xde1b58d5a6597374280a1d9bd4171a3444d4a3792229fe396a0442e4c7b0c25472097574ef0a4a00ef0eb2b4b2a122aa 0xc2b76ed80ea8a2844b6316b05fafb38b5e2f1ad0605b2b861452b38925aa1d281c34d41abbf1a588d3ab773866677a12 0x957aad739f930bbcf99f4768a175f18e690f00f1c10bdf7fadc91054037e0acaa79b1dd3925c961cb4d07e8c3719f831 0x1 (-0x8c5b73366341f292e25d7b9e1b87fe37c96b74d6bfe62a97de84734c4627723ec0b42f0df6840d4a144b20b4a08c6a51) 0x9ea660f86619654eb6c4b6186b6493d5bbaf84fda635902793f5d869f09816b3ca09a38d0d209bcde32318bf731cd1 0x75ac8f1f8132e457c2d6e325f4b3932eef60aca367ce31fdfaa3751259e8a81bc2c1c7b8e33097bf5b5cc40594eab44;
Dbl 0xac63c1fd7b4f2643d77dd3f701abbd07853d97c56d149b1522bc862d28653967a71be5e6ef1821983b3728fd37690c67 0x5916fdca401f5436b735f7b4b36de182e60fda5097f2913e1f1652fec4cc9ae90ad397a736c2daf9f5e6c882dcf5b44d 0xc00c4d4ec9c9273d501d12e8423aa34032927302f3197f7fed647ceae55b3b1caea86e9fb6a87be380453099cf414a55 0x85045b0b663a1f3d70d425e720a938b15ec4c9288a376cfb4aedefe602e4276b6735ddcdb8476f06f927ea31d5ab6e5d 0x0 (-0x13bdc150efb21f5703ea55c213979e9cb66db86dfbfbb6a240e96eb28cdbb83a7fb8dc79830035628e5a0d5a5e5e91fd3) 0x7416338c3abfe98d0f92d467584396e09991b8a83c1386aefdb74da53920a6162c73f8d0a60f242073615416d3202830 0x5992c2a6dc1b5fc5add1651ee61d4c701793f46a588e769f65988d582b8a6b8d7fd237f3d1d238ef4f4706cdf55e00fc;
Dbl 0x8ed11c4e9497191d4d26687b7eaeea9d782794a17404a8200ac47ad4d4771caf4d06b75148b9b19e0b815431ebc1fca7 0xc6c64174d80674530171f5f34979c2960817b49995eee5d472dc8d52b9775c41eca1d4d5638078fc3ad64ba6c094c2d1 0xefd7d25d4161a273b6eec090a6b22cc77c04c9125e9263b649af98b4bddba9661f5ecd7d947d4b0b4e1248c30584d8f6 0x9250bc556818dfe3b5c401c169f41eecddf825b70203ab69ac39c5ac0b553ea61e31c2d0d34261fdbb107cdd1c60f17b 0x1 0x794468bc8903564e9fcdb868e4ca654fdca47121e6b9f284c11f15db31aaac3e8c7208332d8e7ce16a9dee29c36aca92 0x4faca63668478733733f599388adbd635ad920b6dc9f51243ae9fea86fd47e3756dd54cbed131b80b880ca5ef358f67a 0x51a04c8edf978ac29ffbee8d7d5c8f2be3faf41f0059d47493178efc70718096234eabaa372dda63273fedf0ed18880e;
Dbl 0x37763d56fe83f4fc4110c77297e0e62fd9887dac1734eab067a2749fa3cfb89d57cd25f811304ad3b36ff8b1da9e89ca 0x65e03b5f1e0ffe1adc4d3bb7009cf83f21c5132d4dd13ec16113f954831d86eeebd70dbd6b60eaed4a8013b775b102e9 0xeaeb179ebaa4931dc888711a579c0b8f57e781a8a585310955abf92fcc13e08501dcb5cce017e212668984399626e70d 0x60e60615b9f676382524ba3c48dcca56e652a16c481da71311c893fe3659d55300cac717f81f8e0ef05637ef4ae3bfe8 0x0 (-0x167198a1452b489ddf03dcda81cdc638a5d98c11796529e3c5969ec8a58b86b0fd9f77fa9c5e7d92fe7eee289abc96458) 0xc0404f7fc41e7c51cf41fd206f2fb27a6d10018fd4100adddba4d83159a6ac266ebb5647788a698217511fd8f58b527 0x14fe2c8d36071016254f411d4540e2bda90d0a34ee2e4f9aef87781c0ebf65691ecb69d69775115d6b492ca6a1132af3;
Dbl 0xce9aaa1a1ab959cf6e9910277339e2efa14a255d2aa6b9c0064ed28bf0f20ae32d444450942218edad96cc6f555ff8bc 0x5370c73c66ba7afb044d45af1f474d7156fe29e5336e4635de167697ed4c028bd5f913a2b6b01a9707aba70a48453eec 0x2cab1aa75325e3ec17061b747b0927fdf881eb89981320f522c8f08a7e3e7e13228862f69ec6231921e4169d66f451b3 0x126f7422b755831fd7fff607e155aacdcac6e9481a62f88b82fd82bc95d1846315ddfa1ab4b0d05642d46cad2d6bc3fd 0x0 0x1018e1b48fdae533c3c3566cb99412ff1716e7875a9523f2a0dc3325ab5cfed51615dc3ecdcb2ccf21a3ecc87fa3cdd18 0xa6bd47331b7121b17f474f9dbd3a4b66ce017b4d9b1f303aabdc96fa2572cb16346a02bf16bed82fbcb016f7ce727aae 0xee0d2bfb0c69d080be56e395a2e4ebdc9860d180ffbd18499c6632a90a45b28acc896751c3f67ebf5df00d9803732f4;
Dbl 0x75400bf5369304ef526cc034b6f67857fc61d156f26bf4817307d6e532e1527b5edee50ba0bd9abbfffa1fe8c95acf5e 0xad0cad662b9046b5d91c12c57991a2b7262fd9322a8a454a3692169f687bb208f8e673e64917a76e63416ddf839484bc 0x806fbd102b8e1ad3603bb39f4ebf2d1cf8ad16efabfc71c799c48720f5a0cf25d36aab4f95de57dcb9e4584d4ce184ac 0xa66419d63b2a34452b3132e9a5b5aaba30ce50b308e400eba7845ff884d05081dd129fbb6d987328a46a392bc4b0ba2f 0x1 (-0x28ac3889c3103677994307bd9ec1bde54d082684978912b6d0ce1ad4563f9c426daaa20a6796635ab86f15b30f59fcc7) 0x35b39af41f0ca9975c76fbbd07fc16255c1dfda8c9c3ffe7b627346d6dec51444d64ab991d9bae289bde3fcc020ddc10 0x4c35609b0cfaaf2541985f3e526d0aa0e7c830fc9ec3e06b9033a8187394fd59e5f784254085d1031100310238df781d;
Dbl 0x1892cda3955e4ef1b53b5807029f20c8c89d12fc148a9b813323bd57338aa28aa922e837a22a03d2f4dfc593a859067c 0x73b32aa391b5185971070e1f0f80ead28637fb14a82414ab9ba19c961eadf12e745def903f7ea0bc3195fdb85bbc9ac9 0xb25277d8fe2167f2d25513dc5ff236ae83a90266440186691649d4f84e474cb8d630aa77ad2ac5c8980c82b9ee819191 0x395982c299db2e5c681504a66a10b7e49ff7de1d8266309e9af07a0949cdc0da84888456099906b231ab702727d7e9f3 0x0 (-0x1464627b8a2254f6ee03a316bd7ba3f23fdfdb699dea5b388d97a071ec231b7615ab9bf5b20b7ee8e47e702c999b15873) 0x25bdabddfc7741ff55c66e2fbda817aeda7bbc143949c9a225b0e3775a6820158feda42d3c9fe37a3a72fc820839831 0x581476024929c1e47d9e1f2d98bc642a86e258139c5ffce6e0a80f9d912ad3f3fcb92aa1e50eff531a9ce8911d71289;
Dbl 0x9099ea4500c1bdb95c64a9ac38afd5a00c932dcb44088ad657b03bab5577c8273eed0cac1fa4cb064e9a9384ed425c78 0x2c628772682fabc9747e82bb2b4dea9ce8c50da034f6d1295cd7e6f527fb3a9f022c7dca091b137999a101e7785b6f97 0xfb825ae7ece896d36e59833c7b5e714a0350b6a205d1cfb4b1ddee93b811029718cc087b9c565b8db53719a8b6e95303 0x4750a33129856c8ffc888b63e43300359d72ed74732d43823ec9b5a0f6b2b68f723171c636638d4297f4fbd0e3612b32 0x0 0x2c93d2ab6d9eeabe167b2bf05a30a2d29945783c4bbec14b5c44bc6e1200818446d1beb4637d7923d4e131b18d8ea580 0x51ad84177db71500e6c964a8022c69648bd1dbfbb332c1c63b0e0c8cae162d9f16be4151dd87ebb90e760e17308e2ce9 0x28483c401dd9c2a839db28d65a39fb73eb1f4a8f45c6568d6672537197c1ef079caf952edddac83d2f0b9e12b774ad24;
Dbl 0x51fad3e572fe111931aa82ff898fab7011c50ced880eb18fa0e02f6e3fc432a62fdf7c6cf0c7844dd85e19696800bf70 0x76f6e90bd832af817b1441dfeff9d89d86bcd55db749ab155d8caf926322d330a0f0a97a6ef5335401252e5a1d8af374 0x83f3475b9dc2750d350f524de15bc40b240840c250972de317add94d3a72a5c48c810d3243ba86b21a34a2faf7021abe 0xb56b9e668ffcfc47f96a40db3b5411ff620838427dad2613ff4b3762c4d8676d613bd44e9a25e025987bd38e5ad07c22 0x1 0x89ff4b0a1eb41cb95ee68e64e31552bf3634dc6f6e83ca38c65606e873debd753e570b07bb07beee16388b6f9bf3c490 0x1a40afd9be4d684115044a3fde83f7219db4068433ff125003f121e11ff8f1cb752694a57cbc79f67cff2e5f7f1981a2 0x3a18ce617208dcbc4b8c6bca2c18c2a5028c590c566bfbc9e20951493a015f72979ce20fe250766c977ccb1b9617c0e1;
Dbl 0x3a0c348977b227ca4e819ce8f7ffb43999cedecfba164205409ad1d7b90df4f3add167956e9d017c9f66cc275cc4465b 0xdd22a800f3cdbdd48d7d76002fd30feee1cb78ca8b1122c6f83f8cb0087fecfde002ff5a5742664b064b0f77ad3ab043 0x9926862dee1842f986d0cea210275f27247587582759b7ac25e7253e8e765f15517adad9fc7e03ed8b5ff455287ec7aa 0x99d4410ae464f1aced96cbdfc026c8aea4f15c932c38884e654d22e25aa2e631c0edaa1f17b2cd08fada1ee370504330 0x1 (-0x6a02d5a627d40ed1c68b945e620d5d64113b47f2eb0c5471b679ce0b4e6cac31d08035cb3902c70397f58ad24b4ea567) 0xd29886341e8152d1b59faa66530a3a694f4e6169d5b184e51c6bf9e555240064dc289ed819d6f4e6a27fe36b1a2b2d2 0x22e16c413bfb506f6d5a070a795f8e5a02ee243c7c5e35cb6bdde7d659b4398fea30a96bf1d674d25c0ffa308fd9e058;
Dbl 0x65672250df3dca03a8844d8a14b9c19c46dcc4d883f9fb0ffa419877c8b62a1fffe877be8ba7dd48f04613070dbb646f 0xdd805ab702f6137517651c75082289b792b9798ac2e0168d3045e687969a572e5d7c4a16984a801aff466437c2a0e5c7 0x65b2f90d1b25fd608e240f08a2b3a2cd752cd12f632e698da79e169d5b65096db23d7069dde24db273d5670ed8fe3fe 0xffa24d49f0d7aa5f7618598b27b086374f11ff3fc8310c39c7f9a62871e595ce8286b542bef7e6300704ab40ea99ca7b 0x1 (-0x1c3bac458e4b1dd0be12c9cfada5975a741bd9f4281edf1ef7a64baeecc72f445e3d4ab0587e33e996e33b3306f2160d4) 0x282a8aa071d3f9f824ddef8e157ef82f1780e1639f8b13e778c4239c503b986c105076e12ef1951c62c957e1f5855e2c 0x6542050f94ad0acea99a2b2ee45789cf0e8446ec646fc76c2354568d115b728a73f5b0059ba0eec711edaa53236ed453;
Dbl 0x8f09cfe679102718b396b223a40c41e82ffec3696b1860772dd3e780ff2c2f972322bc1a3c95da10ce7b07d6e5fea492 0x8786cf16bc08caf6f359c22f6c2f18df8aa24362896828ad36513cf8f633639440447620bfaa5797b1756ca8787d7f2f 0x9b80d141056df693d2dd863e56c4683a151dfdb115a3e948a73f09c6f387217512dea57d34cd8007447123b1194072ef 0x55f98ba046ed487e240b5a459bf370d8081736283977eddff9f4a98ea066f39a1d37d3f5d8a028834dd0f78f4a236698 0x0 (-0x237da3b106b925c80a9b80d3ce8beba382f20615b6e5d2972ece48a1cd6374030cab56d8c0cbfba7e0be46e41434c9ba8) 0x4febf6a3c24b161639df74670178662aaa9a59610ec34673bc725983366a9ccf316c39143bdf41c820956cc0ce3be779 0x3009b0969f0374e864e3ece5eec379282b95cf4bd8d1f73682caa4c55ad661abfdb0be28059145b02014ce324e16743d;
Dbl 0xcc83155b487815d3d26e85cac216476527e570a70c477393099ed423c2d7c50715c7f28abd293bf070eb17b0c5397363 0x76c9cbd1e7a563eeaa617c8c0fb254ca499d6124066651cfaad69e193b6406d1887c7e244324af38a52e8c202644dc98 0xd2cb2d0919f54d28f64190aa72caecf40c49b061a38c0769b0ad0ba3d10163faebc469299be827d26210904115e251f0 0x10bd0344d463670848f845a35c7cc4154104e23e8301d6dd8b7a9edfbacf5cc2b7c7f7fc7c85a85f0c46e0885238a297 0x0 0x21362d11883ae7810932cf460edf9d4c5483df7b35a089707fff23c232362132d472c2bb983deaab1972ae7a15b76106 0xa3612d2858b3a8203ba18c116e2c693e1909ab28dc70566564aa575fed75fa18e6e0a796c461065a99d33d832327c2ad 0xd5f30b8fea9b6ce38fc9dd746615ece4263396a7841717edfd57ac30a94e958be5a2ab78d09ee72c806753a8b930f7a;
Dbl 0x51804019f64355aca6a5705a8aaa9ec0a8e9734e62e912b37312d6d8cd397229759ea6839484acf1740091df33e9feca 0x4fa9b82487db5c077bd4d1121df710deca3aa1c935be0e7c2dc25204370da1ba98ade2d9fa12106d64809cc77c84ad05 0x333edd5cc2737a292013139e16a3589ded1fec99b6296d2ce2765b0528aa18e7d0afb3ca27d1e9ff5ba62b469c821b7d 0x272013ad5fca07e72e8cab79f1bb43eb7f62bf5ad0a843537d144c1504566516efce9b4a49129ecb40adef58a9c02f93 0x0 (-0x1f242da8770a7b18c6b0294989f3f7d1ee6a4f4a884d670f616abc5f46c86a5675b9a3423368bce8085272dc3e20c003) 0x19f268d097d9dd509efddff2b01923ba198a8b49123fd3b4b3ee2af08f42832f81867c37fcc076bf93d0da8683c4eed1 0xc74c00faeaf32cac0006e2bab99a835c56e82092f8bc78dc93b844195b083790d6bda6ae7c9b014c5de73217bc0096f;
Dbl 0xa80ef1d232565206678acd13b8a7fe687aaa5ee74a84becbfe8dfe2a49ee52ed4c0c8d74b1c70a8d40a91fcfb85bf964 0x7e6af6405baaa9f60e9cf4e12f5a8e79b1205e7ce7147ee627bec846b110fef8cbb454f89ac9935d507eadf4fc99e1c8 0xa34b2620955b1f27f8db1988f6f087881a46db654a2f2a556020b2ed58f8ee5e8222f0eb212f29d037ad44778442cc69 0xd13ec1e42c30b2116d37dc30ee9c8265191a434c4ea98f96060389bd85fca2c0ccf98de05f487d101401eed37feacb3c 0x1 (-0x7161247182c1bfa42a19d8c109066b1c88a9ecae26a12d53adc08c89a8d91cc0a829ed46596ba3b9ae3e8b76bb55d60) 0x6e539e43397c3c76868df6f33d642a2ba2300d4f9a683cd225a837584a2fbbe4f075b455416d63bfd9279502f5978cc2 0x895d66543aa20a4a4db2cbc5e35fbe85f44ffa2f1c7cb3e222e8a0725764c270436312a1dc17b17a5b20c21d6b0c2876;
Dbl 0x71145d461d5c64c387c31ae0af0938e2f5f4c6a568595bd66a783d533da25735194de4a8d1720441464ced230074d12b 0xd628049e35d0aebf3b50e7968028ebcc18a4523bcfa0b91141e9a006fd1de2be1a2e743e90cb2289476794db1626a3ab 0x21322b00b1787d2bae309f2baccaf5a3f99f424aefc267374ed0a5975bccd23d879cc447944b6918baa2a6719beccc48 0xa842f1a225d9fb36d34c0d4aaf31a2ad987c0c411773c5d4e5d5283fb3f31c39b185e0b909fe70d40917191ae6733e1c 0x1 (-0x2b0612e3d803c7afc5b7acf2d6e9006a72f218acd4f179a61b5ea1bd6b292c0f128b80d1c332b412a454d71f86c89889) 0x31f2fbf69adc2bed8f82aff56ed08f706e584408833902f6804003be9776a012a145d55834a1d3c39d1d15b6d57b2a02 0x4a52ef31dac276aa3c96eabbec3c300cd8f99c5cec254e5646d012f964d76702682941fcff102245159d3531306f4dfd;
Dbl 0xb54f4e8ade70d937e19653355147512015f6cb71b3fb1be18e7415d5d4094dc723170c377c2992ef02cc1b8ae288e42 0xdadda600d2cf75badb59c5b14d732beeeeb6b6c2813baedc881004e8702b845162dc9bd58462a9e14ae018cc3bafa793 0xcad99799d023dbf5e349ac89c954f941d2599e54c00e4fda63c2af5a04915a0efc16e3196020fe54db4bd3758695642e 0xfb4a5e9d630139045ff721e532b5bfdd29ed9b794e650a34b9d99b1e8cf25e6bb751d8680c6878a7fc877c0fda76fc17 0x1 (-0x2168471cb98c74ae8d17577e677c5e38228526406f964f6799c3400fc8ab27803226ebffd13900934c58d119fa5039878) 0x80693da1f059c7b06ccbf4a345131a3b5d40185237798678bd1aec209cfe2df5542f0454bac4742807bdb8ec4fa5e5 0xb1f96df172d5a381338f72f3ccf2bf4030d1974a19cae1f9542f163e13b46a91f452b0b30dbe93d581a99b3ca687088;
Dbl 0x1868a906a3f41fb2bde8d48122ed168b475c06a74e9cd01e2f72fe347584a54165aae82116941fe65c29f5738ee709e2 0x851ea5d61d5dc73235ff277c575d2139933a8beaf8f9b6df8dbefaeeb4ba5e68205fb93a1bfefcc464fac04cf055ffea 0x5dc6ee8f821aecce785c7b870516a17f32f82b9230b8384ff5307fb661b9d6267c46012d885ea15fa6c32ab62f5fe954 0x55bf002ab571ae88a55a9e34f6160ab55b7c2ad78841f7fcfa5109f9bb7125e9427ce29b6863ad1ce5e5587f4b59a7a9 0x0 (-0x20aac12ce7c1f21d2f66aaeb639b929f77a609a1d39dbafdf45155db5d615fbbc6af56d4b381e8ee08d11d4e513d2c200) 0x253ca7b03bcc0efaf22394d3d729443aa3114fe7b564cee27077f8c1205c94e47329341d8659a8f4d8c00ebd977a38c 0x82cf63962dcf3195d91938d539981d9a62a476475678d0be7875ac7895b987c04da0b0e1e851ef8cc70f6a4026b5950;
Dbl 0x2dc7a1af1b1683b973127eea563b7ad3f690f925c57ce0967e8314ff9799c232f7068de16eeda4ceb7b63583263d416d 0xfa0607771042436baf2e30df72d786f43611fd38818cdb1cabce755550297edb02fee81a24bf944c8a9d1afe97c715da 0xc31ed2b3ffe1dfbb7d8ad66e005ca7c431908465d5f165326ddb067850667529c2f23336ae5635fc975fc44bf870aa38 0x8b189e5f0d1b83c686d0f69ce4859a455d288eb2776cdbc2e1f085996490df8c1d60d11ef73f6877da5da54f588eea0f 0x1 (-0xae20625973a33bb35658a845ceed997f3da1bbe6d26c2c5b5868ceca8a3893c9d9e7de68385c248a0abbe9041a8953df) 0x82fca8453dfbf285a1a836c4f7c3e8fe0d917580933916cb05c4a629e8058ea95d307c4b40de9fbcfe0d33addc88d45 0x18dfcbd37156e529979cb0c6f38b3c71c102e49656072f91f5cb009f60165446e94d67414a77388874f2516d29f61c29;
Dbl 0x47b509c2a7ebbf48db2b3b50e2f20b5dc69b1ddb8b281cd5234e21943c306fe5f03683139b2516be03b9fe5eaf1ccc90 0xcd6175bd41cfbf9341566ce3119bfcf162bede5a512c518c72ae68254be9f625f76092e9db4e8d0ad375300e34fd163b 0x9a15d92c3947ffb270cbfa5f7189c6388e03096714585e11f5e64cb504d16f0af8d002159d2d5c48807dfe52af4ac70f 0x2ca491b9ce7283d86dd7c3fc613b8a02d3531ede3060899039200d30043f88b50b9e553049710741b727eaf062c9ff9f 0x0 (-0x26f4042d400b105c4dd92ff7a4dee8ed75a44102dcdc03e77086b5942cfea8a532eec168c147102430d9e606965ec4617) 0x1415eb70c6c57b48697e5c87c29757a8077a3623566fcb039d3cdb4c33c01adb1af9f84fb2d9ff46cb487a50219570ef 0xc8136794bbf2816305f2dd9921f4aa7f9aa4a8a2e7b2392a0ac29e4e61f8d64d3354dc044f3616c6bb17e4d7804f3d7;
Dbl 0xa1a30f11d486aab44cbc619186e4830a72df6abb72e09867db59fa7413a612ec52aa55a5242c9aaf725add755526efe9 0x826345c9f1e9f41638378792aebcf208d2ae7c6588bba8685333a589a20f10576b6983eb44d7ef8e61df1a56b3752d25 0x61a636a128781fa2e137f089b26474b4c35d61836f232845d7031f93f707afb161f0e88f3c6845a7b302c0a983662976 0x4afe2ff34fe5cb7d091ee55062df0ae8901061f4c870a9241f7ac29ba9dae5ce8bf70efe96769d7c719615b78187e916 0x0 (-0x12bbbede26c5d9306b1b7818546612f0c729e6fc2b9bf170c5ba00f499fa5ef6a8c4eafa2ec0cfa66439d9b5d049bc686) 0x660e80d09ee91e59dc71c91f551d82aa12c27e38a8fac85ead13f862218ceed84190d7a8b3d3d903f2417bc6496e778a 0x2f59a06aab1dc7e52d1a2225349ddf2d73846d8796927d22a15e057d858368fa26e9c8c3f9667dbfcb6e0ae9841e417f;
Dbl 0x285f11f385be93f791b9da7c25501e3ed87c5697ff90fcb15464ab47f1921c52707aec703036a87eafc98b3abb107254 0xc19e0b4c800119c440f7f9e706421279b42a31af8a3e297ddb2987894d10ddeaba065458a4f52d78a628b09aaa03bd53 0x16f3fdbf0356b301e5a0191d1f5b77f6577a30eae3567af9c1c7cad135f6ebf2af68aa6de639d858822d0fc5e6c88c41 0xc0c53a7d71e8da51f73f8daba87adf8f1e844ab5fe7d7eea780a1e0054fe326bb1632f919fe2c215bbb669bd09716fd1 0x1 (-0xa86e73ffb1a4cef24416a262335a60730dde767e659e189ab00caf67fec48f0e24e601607d82fe06960f779cad603768) 0x65dd8ea6dcb1119ac9b992f8013ad38d7f82c999df50151effb5de41e3339b1abcc16cc3c553455bd12032fdb5f2c0d 0x1e6667d8c7287a59ab7900cf4bb0070b4a3d38e9a05e4f9a2b42f948ab871080c6e361897188a68870209f38251af323;
Dbl 0x7bb7e2afcbe2ba4fceb7e297ac21a4574e8143007070e512568a0a0b57e9c1f2b45e5105d36c8da7face1de66ea700a4 0x9b793af458a9bde3b38e9816ac35967221511ec70b6e7624bfd5aad64b53391321602406047cb6772488a5e242167978 0xb4744f7dc0f02eb8b24c6dea5ded11ef822a5c687a770f812f04dd33de5f9256efd02e821f1061fca8448af044999a6d 0x2624d05827575be08d6961d05a0c7c0792d912e87ecfb3591b53dcb301bda4d798a63052a078770181a00ab867ed43db 0x0 (-0x1a11f9c813d581c90fe5aa5beb1ea191e24643ad9e15f7b606a4c0dd76ac03b536e6becad23601afd4fe28105e1e0b890) 0x3bca37eacdfc39e3c20f3d050e14b29aa6e343b15c5be978d72d02a6b933fedc4f7d594cf3fa9ee50f0151f6d0258b0e 0x126f1631fb64510e0dd9222a7ba4f566075a8aab3869c4372bddb778ce083d9abc0250e56e6ad21f6667e6443985ae62;
Dbl 0x804e45040aaa836fa9b2c1851659f1830c5190768663d68997ea849977aec5ad208a040ef20bea5eb05a3bff75857226 0x85bca8c6c8a9679ecf48637947c24c0d6d99d1ed631d06bef12df0bf0859640699891a6354c7e1a0eb39da6d89f1162 0x23fce909a8cb1cc52ed806f8724ecc40aaa5efe7b065d78ce64a440df1ebd1799072c1f32a29f6183d501ec08e8305e9 0x931d7067ec1f2769c69a11df17b971b14a7781a8353ca5b8d0c2cbca5acda2d2b7c7925fcf30385d15d5083b69776816 0x0 (-0x66616cbb6caf786753ebc7637b5c24592751eecd5de0c4ea19a810e4706f8e25194dccfc3b3827f6a16b8083539cf39f) 0x404e5cf22bbc3128025e3b423a662b705d3d7fd6be18343a5b17c76558ada1d1d3550294a41ba5bfcf0ce47ed26a26ae 0x49bbb2d5779c6cefebadc40fafc1301999c14e6eaf12b1a1cf1dae24a1c253c809fca94b7160ad74ef2b3f74dd9b6112;
Sub 0x843e3219180b2480fa4a3760906e222fa0195aee3737b16ba2fcb9c6a6dba290d1d7bc29e79efb50a6f09d9227f6b309 0x700d88e87daec1a3c32ab2be3869a2b0415e196ef5c49157cd4197a13fe2a98f9dafc1787724682279ae991514ac6479 0x7df0c417b2a88e41b33765ee4cf1caa4d2f92d88e6e243bbad39cbf4019bd92ee708e469249dd8acf284701920673a00 0x984e41a3eedbd4d629c9d3795c128210957b83afe06d3f1421d1476ab0a2ecafcbe8d02cbe2815f795050492c3f2ace8 0x1 0x5dd40069adff91425e42bf18a15b774c68bc61bc4a8a34d3951b9d2b6e316c0714959f4775f754add45f3f6f662906aa 0x1 0x30781beb31e88ea051a7217ae2e6556824652e6e2836db6560037cde7563e6c036556a28cd8b559f5c5d9ccd8af6fa4f 0x445032c62ec0f2e4bf475f589f100603e2e99ca0d08e52d7ef27a7177ce2569f35956dfd5467337b41dc26a80f3fea41 0x4ead5a9aa3a197e12a281f9f2fde8ce902d06f28d59da78086bd53d89d7ea6881bb9f9f133b459ef2f2d92959d8bf3c1;
Dbl 0x874d33582167a5f8c6cd49e5bc9257856e2ffbe4a92f5e1c1e861ed0f6c3e2f796c5d406232c727c23f9be72902cde4b 0x5de562880e039de5a201e2c43e23013b6909f9948a0840ba402f9603ef897d612f2f8bc79498dedd2eecab7ef13eaaf6 0x2187a79e40ea4604e8745cfd4920f2eabbaeeab6ac6626b90874322b6d29757e198905f8f2b0b485457e0e2023bd88b7 0x122826606fab23be2128cff9fa46a174d8541fda6bbc509d8d12019d50592c2e6e8035b0e28b89454ac1ed96236db983 0x0 (-0xe03a55c4333031423b080617252c663b1e4c49766e4809fb353044bc71be1851799b527f5436c2afc8a632bbeffb870) 0x4782836ee08ba50c8113386e56b5a7b06ed5379f3471d5f3633d846ebd6aa10db6646bf208bde3fc6f0d56da8fc949ef 0x998a5f4a5b5c497e38c98d9580f120dcbfea5c553a3d94891691dae105317f3eda33108f2a847b47512da4e299bcf56;
Dbl 0x649f76ec4e34eab54a89d104e979d2240ac72d757780043decf721c9c44aa389579862da8fe6debf763d6326271885c4 0xbf9e7bbdb0fb23cbf96df04a7e8508cc61be2fcc6e6c6d2c60e8f5b3206e3dacb87c543250732486c61bfbfbc06949ea 0x684e561b6a6e61d1489e6b280c50f6334f30b9287eb037ee0230122f902174c79eb97c47da67dd2db3b2c5afa102f51c 0x9e46e6ca5d087a19a893f279bf9df86f074bc9c81b9bd38ddf46a050cf1b3fb376b337944425ba5668d0af8430d5610b 0x1 (-0x4cf5a4c40821529e7e4a48bfba1781e8d29c186f63bda2fbfe6ace9a984351f2314106db19c6d2c0917e38c6c69c910f) 0x278cf83d8de12f5241426b6c9f8d49cc4e7d43aa22f2b18e31f4ffd8da918d40939a3c1e60567e50ac18eb74904161c6 0x3e3649b72c1f733af68136e3d4dd6051bfdc03103104bc6cc25ce84030e26cd2fdcd5c7812becab580828136bfef7a67;
Dbl 0x846f6531b94ff6d067b7d1f210c5e196aed036423b363bc9c9de5f736ec37287a40a7bcff3165fa3cfc9945f220296de 0x155f2187fca259393880efd9b20d46a52b1bb86e283cae72d6cedf32b58014db2ca7a2b0d687f37ffb5cb98e91a93f9 0xa4abcb52538659a0ee75bc373b0118dbe3d58ec60a8f13dc3f7159574825bc0f6909a14989d5f197ff6e70baa753da3d 0xbe4889a53130fe3865e5e14ce36434620f0c74458be8a245337c07bff5163c5f05b1da07430aa54ec6663062d74eb5f1 0x0 (-0x1425e0d14d1ae03206ac9a5e6de78f41f75fbe5bbb2eecac8a03e831233986dae7a042e7d8f3d8e3427949f06d6ec0ee7) 0x448310d430396fc083311b3be9bade05008fbcd5c189a93b6fd839eeb53e8106b5ce7d2c007cd4d41bfca9fbbd8c3f49 0x627033a46febf7a9847e9a72cae7841c093db3bcd1734bb23e7ef02111e44bef251468491d03482729c52db00597d25b;
Add 0xaeb0d5b22d28af8acaaa45904f8f3fef52676f2fd4825f4e5d469bcddf894fe6a9118e4f12dace293532f68f6df04ea7 0x2e21f65b361f1edd9ff5a6f0cb3145bdf7a1e42ba49ffebdc7d08a06791d2c83a983fca49ec0e81c985a4ddf553f07b4 0x143931ee886a2ead411c11a219e082935bd236ab2a92817e9e807b47e86a4f07b14a07faebafe67c4686af7a25097e6e 0xd333fbbd49ab06b5f392680ccfef8eac5b0fd75b3de3cc29659c63ecb23ad4c909467d856ea7971b675b7dba93db8c44 0x1 0x56ce27f5c13f205c04d647dea80026f5e494802456dc2f4ed375ac12a903d7145dc787cc4e1355cbc5616d6176a48941 0x1 0x3b3c155a74350ed11ce74452e7d2a6272b349ad8fb5638b79c7603a736eec9499262b1c9ba74e490983950fa35527477 0x7734dca4bcc361ba92fe871f1e1d3ef2a4dfbdee8f3cb87145de058bcbed8cee9c75f0676856c73103d69603e9857573 0x901f3924fa10203f73fb3065ac184c01dc3c087d5d797891a4adec88296831122a1409101796a0829f0b9837ffa8204f;
Dbl 0x43a2e9bd5f51afbfa988471ed010a52065f05f120b74cc2bce51be58ac0fb9bfb15bc791b673552ae6423bd18fa6df93 0xc900fbcd5266b79b934bf81596ea8b9628c690a9de59d2ac10fd45c7a0687f40e43ac0b53ef81c6d1189e63c856f76c0 0x695e5ebdfe12334889243eca227dad8c5db3683f53317df9eabc7e6834055cce243dca8f54b8d30b97c9568a860eaf53 0x6520fa8de3b867420ca9aedb3446ba27cedb5381c6462c11b6d3443ed8b4ad41c5493bee5fc8cbaf86d067a3cfcf90f3 0x1 (-0xe40fdaa926c2a8538d56e0a5a65347d7e3b1dd9dbc097b9e39dfdbcb976b41f8fe34872aa7f3a0d33d711eff558d2a7) 0x11deae05c8fba8f9555603cf785b2c0a124d1d5beec79d6609befdd705550c01045f51277f5eb2074c57ef27400817bf 0x1ab7fcc7836efe92c67ccaa50ad7282f96550622ff607fe90907875791aa8a217d305c3e29dd303cd29e0c33cd124538;
Dbl 0xab9ad909a86b7796c39b7d28444a70a8243019df5b50248364e06b484e5d01a4194173c986c0f6235fef18e387e15e7f 0x6933232702e3d8916f8fa40e58647717b5bb982efc457474f990f20a90d022adaa57a9f5460360d4f03b4b7188f36ff0 0x2858060aa038ade9ce5de5e611e928f0cdbf622b94f04a84551e6d1dd554a2cbff651adef9915a672ff29064608ce3d9 0x5fcdd8a64f82df0a23bc54073e86147e730af87ae2145e37176c53bd0f985c9339e316bff8f4bb98214e9acafc7c06d0 0x0 (-0x14c3417766b4d9d90aa717b20ee333ab14e028d5cafdedcb5fb6628b8254c5bbccec4521c76e2f5aa76886c697078385d) 0x73083b9cbe9f92f2c1ce4a90cb6bc78f022fe97bd7f7935a579a202e3f53617ead90fcc1ae76555e405b150e63b2da6f 0x403872c4851124ec79d9160b04c99e29e0c9b026a5bed467f2b9784aaec1085bbcd680bd141e3b15ac4f8a786dc3d1fc;
Dbl 0x9995ff4980d768576ef9c7a23f0d4ecc077069fc6e88ec4afaec8bfc32e01e6c20e82d696960662ea73db2e7098e5056 0x1deb32dff447ee27ff3d196a598dea49d658fedbe9c9abbd3cfa60a7d662e97c806a68719b18fa4bcd5c2923e1cbc8b4 0x5a988ae77a6a65739b5e9592aa1e67974ef86d3e45b0b6d5005d74ff68974f89be91921e2e76c10e5dcd332556cea70e 0x4b47f0470e9bea6970528aa3fed68ccddf629953127bc8b7bc969162ba6d393129ed4183aaea668922df224da727a73c 0x0 (-0x51487900d17e739f42fccff6407258e25fcfede81c4c0dacf5e83d0dab9e825c5ed40bc205c3a36b84d16ba1dc16b2cf) 0x5c24a3090624f93fd5fd8ded14c1b909349ec4a6bdeba5fc85464205d3d34210d4ee98ef0ee1a85eb903a7bfaf14cbb0 0x2d2a1a8b96d44be62f21b101b88ea664deeb7ae01dfc506a50242adef5c266b820c0cca87335ded84241d9f24c7e9cbf;
Dbl 0x92390b091a7901a71295eadc7318522c0ea047d628f4b9683bb3f22d9f78397f0f42f734a91aa0333694fdab8a8f5c68 0xeefe1a338a59549d6b35b1a83cbbee1d4f3d74b2194e90d381fdb946f75b61eb82383d544e5f86763e3ce481c978a78 0xfcea3cd9c6d705a112f136a8c5504311d92cf27c5b73ac02960b6e12dcb65bf1550ef92ff70c1c9249184938b8fe44f6 0xefb513cbba258de2889be4fd5c22b6801652790c834c2b004da851366ed335dc846e49c563301e469785adbc5343e3c 0x0 0x5d00f955e43f1366e1bb89257ef00c988b5b27e806d99fc865abcb44500e619d035a7889234fa2da953792992ed7704d 0x53851d4c4cb9985e92fc8d86b9e5348e3fa034b048c9ead97135dad650b6dd3dc14a21c73b045755e5d66f5762a431a0 0x88eaaef0e68702962391a9a0696b6ccd8a4fcd3e44621018154a30df6297f403adbc94add50e3cb66e37c0c10b213a4;
Sub 0x7f3ef426f741c4a0f2a12f51e34c9ed2724f01e1b842adc60f737c0d15052d259961dd48ff164a536b27506a0b4eb6bc 0xbc650e5dc1ff6f86f04fd2a908cfba9b175323fd37b30bebf6454a481f46646634261f5cf4dfc1fe37476e24b5ff2d75 0xab4b347a88de36bfd48f16b4a0430583f03dc5e9f0b09c87ec0ea9547fb85a485be42cd586d8b671b933935d70a72aa0 0x528ad34576a625c2e66388717afc0446bda0b34de9e1dd2141da914c502f51b783fd6477500636692c9c602466985d02 0x1 0x646817807a1a9012480193fb90ab116d66d69be895ed4d74de2899b3ed218be5632091768590cefb298f7010aa217fc0 0x1 0x31e854a0ec84eb95270e55ea299fc40a9bd18c6b37ea4553cca966dc8fd5e43dad073bc62f49df8323e717a75bfc0256 0x3f3f85b9d50d5236a3da9ba57a335c2c50f30742fb19751e4995556f06f49bc4b6e00aeaa375d7cfb05fd3a1400ce894 0x29072b278261e0dca7046878d4b1a90dcea9fd6728ccf2fe0b4779d8a6ffee9760d92b1be92eb334312c25c91305b61e;
Dbl 0x9ed12d307eb610db75935ca45e199b12d03744e8ec4a944ae94e2df22f7272061300bb6ea6aa3ae21fc90f98052b886e 0xf29bd9534416fe4ec634337d525b9180585ff7959c1cf3f2fa688749b72fc35d312f0ead253f902ccb0368ed74b70afe 0x2c52df880dde0e3a44ab4ff2dfcdadd66672c5e734de63a5e3f7cf6c27a3bc640257aadb1b8cfbbb3d1e2310603a1474 0xc9c9350a7de871382a1b9f2bb674291abef32c679b9617f8fbdcc2fe6816a10802f710aecfa031d16c44053841482276 0x1 (-0xcb64fceddbebb31e02fd52010414bb92305b1f323b523098ab1a7dced89ed6566078f0f6b43d5e9ca150c847e3399b18) 0x6286deb2ad91b7d2306314ae0f422f8109e70d1c8627c4323e26773728232b39467c77329d6580289218fa7f770c56a4 0x7d2f0f9f5f33952efedf96582bbb6bacade175bafc6a4422d356c89856f8fa5d5a6b09eca70b900958da961959c1c060;
Dbl 0x4f91ce89b207d42db9bafcbd47c6c58e2d2b640d1000a1520d240a56728862a3b75bd95f9e0e3857234a32351670c141 0x37dae1434ee174965740032fcfcfa82bf94a62f4c58d2835bb9571950716019b71888b254cc5dbb1db95cbd6f8aaca55 0xc45f4708a132eb79d906981fd5d734106c03cd86c39a34c3ef5027b1a5c6cae9fb874c04102bbcb90fd9ec98e5600a59 0xbac0f80ff53589b86ef4304d828be9545f1594a0d68fcbbd3ed315b4b019c1c1bfa68387d879b47aef6d9d167c0c40a9 0x0 (-0x296336deab163a65c73759a70438e82fd471c3965eac3165d1dc8d9d2dcf94b748c9792f00ababce33e19e73c8efecedf) 0x18bb50849a7e6667361760f5ba3f12add2e0b0a85a1d25f1ddbc3a142a973d26ddccea34b3860bc6a5396fb70b55cdd0 0x3a0bea852876e33943f2ec22653253182916116a9570157cdd6ef269e29bab351d0bad14db0273ff10ffcc6ab9ce4ae4;
Sub 0x4538a34f46ffd4e039d27fbc0ac9b4ef09c6b08dc3da89254088d6f455d353bfe0a96737a171994ee83afec28099af43 0xe46384fdd9501bedcf0e51731634cf5e93b1c83ad45547824926e3a2b77ff08c911ce2794ff53ca2edb3e7d7357516ca 0x66f528f28190146e7ceb6af8373b4ceb1b2082a69c99819bd94962af58a0571fbd2bb3cbe676cf5492ac1158982fb0a0 0x53775c45759158a88831b1bcb99ad8cd65989ab9f137e0b3726e8df24f96110de06ba8aafcd09f0eede1e400c335b38a 0x1 0x8d53172090566f5ec88e3c10dcaefab78b2d279239e58c9d619e2fb484c1d7621c8598c68d70b245a1416d9f8634bf9d 0x1 0x2636a9908196b17c050e3ea61db7b2f0b333d5f5a8dc0c872b68a423b95970b26195c12d5cab7b64db9d5be942aa9fa2 0x12b79490972305a4aff0990d660032f2b841a5c666514ba7f7055a32b53ee2d4b87f0af9077ab1c9b274b121aa83404d 0x1691a339c09da4837feb2bc3baa131b158798468f81481382bf0c3d21835eecc2e6eecea0c0eb00dbeaeb4b6634c67db;
Dbl 0xb788a972617c0bd6520a5d085dee3a8296fa629db4113f2c11d2305246dd4b74fdafe3babad0c1a8914394638b958747 0x25042a36775171026c83a081771b1f5a3c1f1dd40e82e35705a1f770d6745960b15772843e76c30287bc779bec7f81ff 0x44a6596d37230617e8bc3988cfa384bd58cd47be4ef0e2f00541ff0de66594d997e92f1cf297f0efe592b4e092ff9460 0xbf5f5ac761feaaeb628ab0f19f19b0045792aa66c5d2642b4384ec31e10b972bdfc56ff5117e79a065f7703b48f594cb 0x0 (-0x1cfa3d56afdd2bf30ff4e3c2d682f6cce0b023052715052cbcfed1d801375dd3bee212520a283a1c453a0c272a0fab297) 0x8394ab36010f2489bc3cbc4b7195bf41aeed57df37141c0d922d83b34d0d3c0a4c2ee74aeb9e7d7f7d1590047d47b9e2 0x89335338353d0462a760b3634e99dc37b807c60254cc42917a0ee6720e2c84502e80d3f84114cdf4aea6a0c69a74f3b3;
Dbl 0xd3cfb46179baf03d2505ae9458b192e9e3d268634363eecb13dd2667b64d2ecc13c45c46d7ea5fca9c5f63019cef5bd2 0x630ad2513ba84c323951690b9c2dee411507f4bf08e428b907ebed44451256b8bfbe867f463bb242f5d2e3b06ce7bbe8 0x67745f3a865d075c8f6c18a59ac8ca8e968f3dd39cd8ceef5babb22107cb0f5d61327d44d965e4af9bc28471cd121eda 0xc1f957e53ba924d033323775daed311927172915059eba9dfdb60a2c916202a6f198ec03f83b10bf91e993ec7f97c616 0x1 0x618b005d9728343da992785eacb11f6ca3be6c1b2a4565537bd3ff28a2ead1a4af8271f736429dabec10fab045034680 0xaf400bdde3663ca1a94b86fab136efcd4dc44077f1abb63a8d63921711f9f23050d9992539d1e31ff733df31c2dbc7a2 0xa07de4bd300ba2a834239ce75c3ec9c8b2fc91783ee4fec0683458fdc790bb855711a8b13aaa6965e0da4fa76b9d632e;
Dbl 0x4f0a825e3f9032b43efe7b67ab0ed3224e6a8be6b575551b1c6152d9b249f5704ce432587b569fe2e1fdd02a82dbd634 0xe18766c431c70ec849db3cb1f84dd73e90452514439a17d3835da7d80848c1d880a6ecd5874b63dce53acbd8ea07066a 0xb93b6f2d435d13f4b3dd77f2503ac9d30b4a3a5f7b1c0e5abaedd55533f8e1659b1ab0d42aa5bf8dce71a4bf256e1ef9 0x81836b8d09e13d69ef762c59a3e0170284c2cfaac54a10e5848e456c3cc994df3f1799a8bef04e66109817d882e0b57d 0x1 (-0x3311cc23e0c57f2d37ba18697fce355fb8fcafc430fde850b77f692abf76870cfbf7cd44cb3514d77801f8d59816b9d3) 0x18677ce49cfbd1d06622929223b773e040c9cd7332ec050d90bff3bf11e54a2bc270510493e717505aa14b7ec3a383aa 0x27fcdf4724964c9928f8e595584aaf51a7db56a18a214fd76e2f9b9d373df09535d1c4c43b953df5120bcd56c935e26f;
Add 0x61184fbf7d6157982ae176019f77df2419ce70a3ab0874ad728918fca3a7a7d0028c1361e4b9001f7557a737902fcbb7 0x2a751919c2e9d0d891b5cdfaf69492901045f0aff61e30a2a66dbf62191225a4ebe2c51e894932780ab153f7cf636fc9 0x5355447fdb3869ebe6b133469255bc1a74491b8fb654833e102543e91e6a9b63a37ef6f7508b9e54c5e0b3e4bfad5bd6 0xb7124daa6edd3defb8256eb701b944ae7fff34644d7be730dcefe875ef369c3394c427b6fe023164da8977e11aa396a1 0x0 0x36ff9ca1733c0990bb297593052d29ca2227e9b1b7f27c3b296665f785f497a02ba3fa77c7f63a70aae66da07790fbb3 0x0 0x14dc1371e0c7f56bfae246539a586323a3658ce3f074215abac0e52fd41aff6fdca6effe02ee4a2eae0fc3ba3e6c32a5 0x24d36ebe29c3054025bfb9c89793481c57006e3772036397209da454956998b3dc2d693d47f857f5a8e92965dc92c419 0x456f522c724550145010f04d03f46c524765500bdf63a03c0d8c7699292652eff6502269132af71f6cb8fcf7ea2a22b8;
Dbl 0x73a82772139a87f6d0353fa0d265f04a602d955d09fee290361f83d5538f679d52ea25b0324957c581f72d2d05cfdc1 0xc5b2a15e925b484a032dbc8491bb51bb263015741a1ee57d891bac7b25a235e32343261258023820cfb9dc72a0a0e773 0xdf6feb17fc107e3d2831bfc04abe92e193aa452d0c7797ae5484081103c26e51a06e201f34732033739883bc5fc50450 0x64c277bb308e888e8e88117664d940d4ea15db3bdbff4b251d5212e6f36fefc0c89f9f0b3146fa573af777862ec28855 0x1 (-0x106b2413077f4c897d6c6d1c58f374b814fed03c2ae500ecb83efa28f80ec7733ea2d35dee768a3d3b3fcc214fe7b13c) 0x344081e4496a85c8bf8fb5c628fc0c140b889955ee9b8aa820326317b8ef485f0154fa28651912ad5fcd214128bb84 0x2d858aee3035fc059b06b5486e973c011c2e4a0b8435d417335bd051046eaba71fde39a3e3c3de0127e89ea8f819711;
Dbl 0xdf4ba47ae95ad80889eee8f9d3ec998d7e3c5f272f27eb1f82f4e658d7b478d63be46f43e9a53375a6b5fa87b0b3a0c3 0x743b14a0190d66009ba3355607e35c8c071ab03163305f05285f7c073b12b809b29a8d217a59afd59fbda65969eabbd3 0xe6c3d25fe2e68874f6466399935a7f198d84928de303efc584a84678397d12d0aa71cabfc6dcd08b81b057911b22b238 0x51778cbe794de249678a872e89d7f52f1f156542b6ee867860bc3073ea8f7dd970a898f0dda8884b2ffc361936b62ba0 0x0 (-0x443c34bb9306c8828ed58fa1ffab5d7d67eeb91c7a980f80463a9a7401e636421f15d39f00133c1eb38c2ed0906658e8) 0xc2c4dee7ec3eb599196662397b32ceea42e8352d232024807ddc22a7e885289c3fa61b1f601d0cfeaf91b0ae55863630 0x470f35f7dade324b5e8884e5ba0106825d44bb55c7ab3f880f59aec96b0741a1caec3226494e07d0b6529ed072007ba8;
Sub 0x56056abb20c8b78377d855c852f6eedb9972c820aa4a581db1ade6e6d44096390422f9e1d4f0f8093fa34bccd08dcc97 0x12798f9ebb95ae872f80f077cb39de3c1909b91256dd5c7bc32ef066250985d2a71a7d072a1fa9adcca562b06afc53ed 0x5e6bc12d7a14621ec4ee1788ff5b30e47ea627b9df0f9af03fc242d45df08416b85f0eb111fd84b4b5cd8f8de45053f9 0x61c185015d77b7796c2244de3ca97e4fee10f71f0c53028965308ba1160932370b80101a503a0627d31843a8feee67e6 0x0 0xc9b34a7d5a8260c90cf16e3714c2af1798fd74ced788c36cce683a26b8be8dd05d979ac2bb04866965694821f774b11b 0x1 0x43c67f9e3d7e70132440d440d2a56f4de1263cccd02fca9ee548c52a1c8941557e3126189e5907fe64c177ce3d37c5ab 0x1ce7a3d311d5a312a10fcca64d96edd1da2252962abb1cf8b3e51b840cac464f70d175036e96c5fc902e3affe5861966 0x20d91437a460998fd6bc831db6b10e2f42d4ec417df16f6f4d3d7538b2a17025cda3af6e58a89835978a7dcf8c5a7587;
Dbl 0xc9d4114715b2de1dd0aa07f9ff56e6e076f692ddfebfe8a254ab7cda17baea53a2911a5934955af123503748001b0d77 0x31b4a1c6694adfdb0ee4a90b51d6937250b233d2700a5c4090c99703f7a74d4a7c431d4cc06305baf956d5bd21626fb 0x425d54476681f2aa5fc25c46b10b27de563c4abe40b1b7500b9afdf09109d5646814c2851b06fcf9f38ff6c392dcbde8 0xf5e4582550100897e92a5e7161c7504f3fe95d52fdcb6b7ba2256f5e58f10fdff564b325e1979521d0ff55498e62cf2 0x0 0x90e1aecde771bc94522e497f522853b6a86bc6dc694d1cb03c31907e1d9a4952eea2755762238ba01a5b56deac9740ba 0x9f1eb2ce3ef955a97f9a99cea2ceca31fd6d956fe2f9b2fd1e0c7d49834c73c744df4603101fff3b75befc74d03f8184 0xc1dbfae6bbc95a09aa220047584e5e0c2fad6e36bce5a5d37f571f464a299712f25328c2d666117d7ec5146f65fe363;
Dbl 0x3ef4959a49eb9b21226f4cda32e3aa385177031cff05d7e88adce6cf7a757abc43bc04587abf37483bf7a3ecb71fcb83 0xc35fba7c0ff8d14ad674dca653685e75a709f55831716859945398935fc164cea063f7c076d157b759320d762a162412 0x692cf585245a8831e628b12a5fe62209dda167b5675be33847ec803fc3a82aacb4737ab390801d2662c28bfd17ca89f3 0x3fbb8fa0569bdcb2da796dea61b50ac17e012de4f58f3d6a74b900dcdfb9100507603a135534d8a456635fe6a80002e8 0x1 0x2087105bbaed94a3bdde9df08350ffd4b5e36452c49b5f73eb838ed690e0b3692ddd04e5250e4aba900019ff7df222d8 0xf7b62244157ff4d0b3afaa6406f945a36e25ab3aa18dfbfab70f1bfa8aac4f42472ce3a9771723d958bd0bc98bf6cff 0xfac50cc4da0289edd30aac25554e70e65eade52cfb2aea52db8eda0a96af0d5e7ce2bdb0a5302172bf19baf7e3fd323;
Add 0xa399dbaeec3fb1b1644d7fc1b57c6fa46f6f5577a55ae0c1eaf2d4d3f4c3d350d774cbd6e2bbc149ea8f6e9fe8b41375 0x1ef65f0650027d2f1c2e3d66f2cdd9180ea979887b592669bb769b1d56fdc95d84901b6bb77e4127e688b53d408bd144 0x14dd847c4bd1e1a7c97adcc15f6d367872477dae69d5fa13ca027b59d7929336ab99d606a5948a93998989dc42f911a8 0xa4695b75bff6541bba469f3f609a855d98607bcfb61841efd8dcfd7608c39b711bd3dc54bf53168f72a95838e98a52ce 0x0 0x18d7f059516dcc1347c315876047b10138ecb9f5a5c9ccc13a5c56b2dd6d3a964b610562b77c2e4b1eddaf3db7a0195b 0x0 0xfe06c69388998e285af5e3d0b753591dd03c9c2515503a987fb83ccaf6fcee23e6f158f8a860306710bd9966cd723fd 0x688d4a39147440254665238c562b860f81b5ff4916124ef8d000a6b3e1c3a6bba23c166e394f372ea47ef43a6f156c94 0x6911e54a1b2d7f62f3ff15900764957b47ad1e7de068631401eeef469ad98f54109241300ba60ef4cfaf81b7718e7975;
Dbl 0xc6cac0bc1068feade0cf994c1a1198b86ceff43de4973d2cc7105588fd252f3164f8c51de4103c0fe404723a820b5e57 0x7be13839c7644a71c0c9425642da57bc90261c60e85306e942628481c085eb7c008c912698d8902a290a4d8079b98555 0x4b2a9155626e551e5a4981755e4320cf984308bd2abd7b0060b8523d922a700a93b1e9b6404133338a6483da9209db39 0xa31526cc889e32bd5b64fb10aff3815b7e835d2793061f807914169b9677dde084038a441ea5b0fdbd7e67bdc6d24bee 0x1 0x152bb3cf8dba09a4f7140459b6f82f4bc84835852b372cb696b323fc8f62e8402a549298502c123c7dbb67d72e06edfd 0x9a5e42b7a346f26c7b70143ee205c6ee9dc7955cdadc27863adec9aa0967856fae58f862d3b1d93a1cbb16896093264c 0x7ea3857a7a2441ffc4f7cc630f99ae16e379b64e3da75fe393ed397348fa8feb4764a9cf3e8ec428930552b1ec6fbaff;
Dbl 0x463638aaeb004279b90e75c7689dd11807d92c568c835e7a6ce4bf260400b6e34137557f1a99f6086bc92af3df722294 0x777e77000c4d4fd42cd9d57c4c42868cd91abb60cb2f6d0bd767c26ed9c61c70e22655bc738129f7f488beceea3f2863 0x2c00737ec73f8d1786deea6ff42c636bbffd5ea767201cf1c6bcafa178233749c11953e0dafd815b3364078894a25275 0x462c139bb16fa9d93ef6cd9f697d12fb70b61001d2399dd6afac212e6bfcf0b1e663b6a2557663234818eb18f7a5cf2 0x0 (-0x8a9b77cb36940ae3a2b63569a2efeb3b52fa110545513e8fa7b0b6d547d5570787c1b103464e6f96c340dd3909825340) 0x1341b2796d2a8163adb4ff2e6315a5115bc0189729cc0e18de58308bc5d496c268f50612a61e207b0e5da73435368d7d 0x133eea313355926c22d7ce703b59ad75fc3c3f1c0cfcfbbae356593b1061f4f4679a32774cd4049544b5c49c1d24dc6;
Add 0xe4845ddef4917da82ce8a90b467bbf1925e37d1d02fd8d193fb387fca7c1c72dda0ed446c8daa3e30f9183082d635770 0x96c46aabfdba3f9ce5bc28301988bb2365be261fb2d235319b1fb5924da106c90442e2b58615cebb4e580f34ca8a6e6d 0x781cbd7c73549a4b44855590d98a5baeef4f5939704f112e699b2a09bf30412c2f728e6b7b9ef8cd2a5dfc9156e3ef64 0xe0ba0c540e931037471dad4c32b9cb69735c9541185d37da3c480cdc8c2515a6dde37305ed6b5b3ca630af9b1fb4b9f5 0x1 0xccf6acdd4dc24a9c9e280e5d5921d9186afd7ffe3f87d1737d70808e5771f2378d23635db42c008bba34609777c91dab 0x1 0xb6f5ac4e59e308e0e8e939af3fed950c9eefe8cb0981347e197dafcefb5cb3cba870b2809487f5cbb9f43f02ba852c46 0xcbfc0ba613fb1dbbf0b48791835088e930596a402cbceb0a560e367a000ad131a2e82f54f6595679cf59527908c25087 0xc899e55086d4c3e53b4d0491415dcc43ee12daab93fba3c07157ba5fa2a1e61e7058a7d8dcbbb7c16e27e5e2a683a3a9;
Dbl 0xa93369059a2421992c123dfee47513a3bc55bc8c8f29c463d4c48ffd7370a218f12eccf7506559067c6af7c60cbbbd15 0xdce67e550e02c5826f702bee407e7647c7ac516bf107cce227f53a401546aaa55e15f05ca6ef5c73abc0e9ea4ffec78b 0xef67264beb3b585ae2edd91019ef0558e325d855f5228e5e6fc0c640c9ef6eda490320a06df92a09212773b9878757b0 0xb9ddec56efb77a1a764bfc41d90a44db9e11d4b3c1ca684f732a7b52385a5c22a62cf257df267247a297254b7a8ba6e1 0x1 (-0x6b9a1af08e615bbe70aba4626e9cd9071bb5d4c2a120f99d449e2609bfcca725350b75e761bc3b53769dd54029855f30) 0x6fd4eafc68d4b752a50018c7ad464eab7c8286bc92147ffa419fb3e0d36d43a208b01303c7fcd59b85e1831c24bda0ac 0x7ad8d47b90c0e2f4148ee50db650efbf38719752c6ddb239bdf93676e607c2800824f001797dbd9d3fece8644467799f;
Dbl 0xdd39ed4b3e062c314e7e07bae51d582e2da6418323028740be894c052d78ad8b74c360229abd8c20fd51146004eb22cf 0xcf413ed98abefc202483bd84a53499d576bf58fc2c559bca343198bb28a36ad6642b7038ad9eea5979093391e50618fe 0x922bbc45e222b3de7e6242dc7485f1d2cc7d5a87bbaa30db39ad3062d33bab877a1d3d2c14d43af4ed0dd13746b922c3 0xda53f7b8343c9624aec6e699b49dc7250ecf86fc4b23117f3c3a184eca33fcef9ea8023f950721a32b7b6586af8ae8d 0x0 (-0x9e127a1c747798742337d014d0d5cdce7fdc287f5d52a001ee425710c2e257e5c4e5e189865c3cc5a7aff6fc85325e38) 0xbf2d10cf708cae01a3f2bb3f74ecfb2cee8dbfdff7349eccb4c6794a28e8241ce60f15c3c6c9eae955e867ca203e04b3 0xbcabe3ec14f0a415645b9c53ee40eb005ae051609c89ef16c3fca46af245973fa448f932df0890b9aa723cad88d9c70;
Dbl 0x9cb1d520b7a238330af2a0c42410857689273d83e45e69bf54c66ed989d326d11a06051ae6360af23430f534cc9e2a7b 0x29d202bc0814f296dbea6b525f3b010888f2479d132c5515ecdf9ebe011dbe48ff0d3b0ba920db8030c92b36de8785c6 0x5b420709cbf2eb6b0952b76502de8d9cfdea8dcac368967a80d2c39e43f3878b4ef75028bad8fd0b17ca7f45108333df 0xa56f3c1d82aa09894899523245f998ccedcd115f192946b44751f9fd2785ac8d651e352d047e0ed94840085b067e9338 0x0 (-0x1446f5b7cb0aa18ad4faf8977ae63a589972451f37e7fc9b8c3ee5219d290021c2ad2f60750023389ffe0310a96f98f59) 0x5fe93748487b189249b9278ffdf3b270ee9115430a91ac4b5577ac15733f39c17b7c9a2971a73a29e5518d9f29b320a9 0x6542b4453d9e5f7683cfd8eec2bb0139e367ca4c446008b8b591f480376b076b55f3018ed65822e4a3f46999f7b46aba;
Sub 0xa11f505333324c97dafd23f04c82561795683a5cd762df891aa7c410560b3968f3fc6f3c9c9c02fc22c5ba81117a811b 0xc35e51751ad24de17ef7414ddb4e7c01a68a062508a8d4fba661515c17b1655f675c43505a24d47b2c1378b1a8344e4c 0x58487a505dac0e84baca8fa6249bf6d1c5eb11f3d8735f16b62d45fdb81aba5db499e6a46b956f4223fd9cd0df45aea1 0x6673b146ed42a4b55cf32a0483ec8506e26841780a83801a467e4d61e96c58e897b0f7ba4efc070504b5b28636533779 0x1 0x7f4a38994989ed5f4d38a4336c1a53941ad50c3a8784b97d92e85cdd7ec9940faa0a48ace9cbb213f674ccff6c117b0e 0x1 0x501d3f85d204b285c20f850cbb309da0ac8c1aeb255f66a70fd4159e9dd7281325a6eeaccb4881da3472aa91d9e739c5 0x656866dd33bfc58f3af3183fae86e0cbbd9ad8f6eb64a5277e1bf5dc946314b21c14c0df7d10d00729b9cf161459a5f0 0x407b4aa58633765ca1205380ab15fb5064207c7e673bcff6b710d20ca86753870025277647e4645165216dfacd640fbd;
Dbl 0x85be1effc730f66e4e508d6281ecf8ec9c96adfd96391914110e78574439f1a0f63e0385f322517caa311c51e338f459 0x1ff1757fdb43d868bbfa298baeca6b11588dab2c1b62ffec8c545b95074b381303ebe82b13dd08e8d6f115c7153d4d5c 0x4090d96e1baaf507a7704fcab26467eeb4470d3afdc541c9c6379785a5666ffc87d8acb388ce0b6e30e1fceb3af35bd 0xa36cdbf53f8e7578c2fd17c22c8410f04dfc5af8ed45d50f1a0cf5c710662d4c63705b254647cb92552262ea92f700f0 0x0 (-0x1630c087a8145690b699fe6aaa52e7fb2563d040ef27b3620291b20ee47a0c538c3804bf548d654b65340ab8a0b4f2045) 0x45df1967cc657efa5165e511f32c9f281a33824004854752ea8a999b9defc750292a5b6d4bc90947275603d9bf7c2303 0x5560ecdbb468e635d61fcd19ce3592efc7e59e3c433d51d0ab3a3b35adb0bcf159b6bc5ccb515166fbadde2009b0d0ee;
Dbl 0x8d3865786946786629d217bc3cb581034d7971d07269f31af89ac2bc5a70621c08e1d1a768c33f08f71bb148ef3c2b12 0xf698acda5c633660ddbd7b21af885a2bf255463ff1781a20e71b30d76490b870540970e6d21136c4b73d5e0c36dc30ad 0x683830969f8d65030118ecc272a94740dac78c1d6bf5aa153dc3e99dac6d21fe8469e1b6328d51fac21eb3149760682a 0x2958c8a57ee0a207de3cae69ff4210e5663864ec29eae5cba5392abda2ba7fa1afe2774341cbd2241fb3b7bbde611cae 0x1 (-0x7815a7920184f092e8767cc04fefc310c5bc344fb78c65a2858a05b3f39599c3e22742df61ae230587d10680f9fa167) 0x4de72c3330ddeb29af20190097b86e3debfdacc2ea4ef1505087b409c7418bbc4a5f24ab099dfd1b7c02c30b8da7be21 0x16cf025284dd9f08bcd297cc81e71a6160b50f7cf6756d44876cb0ee2f329ec6c72287d0bcff45c05b2c91852da25fab;
Sub 0x2e48f77d624a83ff0821f878ac3798747227b863b20e093b6b1ac6223df0594133ec2063ad1b1fb2a6ae796f32864c5 0xfd3e82ec456919738481411d78e05d66920cfe8303a5ea7090781ee01ee10fbf64b59e4cddf3566dac7608ba74b59002 0x50d4bdd9ade9d4bd15602fbc407316ce69368f81723b31a782cb091bdf9c36535469ca78ea9987c2c6e3b97f52db9ec 0xf95a29ee16fa1ced593c3a0436a7fcc5604847bcedd22fb056a311f745afa8afef53d298f41de0570ac75552c226a0aa 0x1 0x4c10e2b79dd831294f0bb402bc67acb784380add65d07e888d23eef6e23c8e37ff067e8912bc0d587ce8ffd3c46625f6 0x0 0xdc0b7064e33b57b2891ff26110bb5d723c55ee8519fbacbeffc8a4a0e0e0366e3cddabcd4e736d771683fbae6b283c 0x85e4dbd351d426ed398f3e67624127f12dad82a7f36d986b7bfce0903501f67b90244145f0e3a4189be427acd4bcd 0x2d1545f4b24fb1a622a1f1989522e2358fb90af79d0d153436955b66ab921f6f9739f8c27386aaf701d7f4395821744;
Dbl 0x1cb601269df77de4f2833025966f609db347f6e267d3c2a48eb53c8ebe6d7abf48d6849512f962da0d964557a8b44468 0xe993331dbde815cd230220d247670204ac5868d3e207830fd7ea62dc336853a9e5f347c931fbc92e4de051cb07d60310 0x5deba775992927ab172ce483d756d0fa3f3b92b4f7cbfee17d55f59de6ea83a5babddba7fd930b3d54eb821b14f336fb 0x13ab4fce878103a6617f204b31795b61e5b495af219e6760b88dbc03eb78bc157ec25683abf78d3f5e95b6ef6cdf8cf2 0x0 (-0x2ee6bc294120947b22711aeb3979f388eb021a15ba68433f83b0f27ba75edcca89e1c8952fdc17e20ad35ed9d6849afb7) 0x33851a6157812804c842e9cb2d71d9f66c03c1852d1fdf49849e5df8d783d4d6d00f8ea7a9c686cd31274ab2cb9b8d4 0x234b89bf6872d364fa9379d78ef8d1192527c308bf8cbd74a9c6e3dd4b445b083939bc6bcea00c8f319d82e83b76697;
Dbl 0xa46d84c2728e77b5114d32105eb1ef4016eb9af528218e54d9d352a3cc585de1e4c1aa1fa7df3fd375f0fdb3bb773478 0x4c430531bad119162cec4ab7f805cc458ef27f152961111b625333d970726b418bfbbf5946df3c8917a7f222f9a4bb83 0x886eaa22183928728bf03d53f0cd53eb2029f00062061bbbb209c239212c88efc7120d86ea2e7cce5447c0ec18e5accd 0x9d502dec0316fcb6f615d61a4f6135bf1d65e9beb8a671f475972f02c2f5e86859f7886feb1c8ca536385fa80e31478d 0x0 (-0x206b18c6aaddda190793957006a540231ade0bbbc3223e64e8a480196cc76b39a26ffba05e8e65660196d004f45576053) 0x699c80f375353086acfefe0db82728e839b8f988ecd7000ef63e17b02c8e96e7629bf70f43647e0739b87122e6ffc963 0x650aaa23944dc99d1d3b81847d290b43b4fa121c03e924b2ef653d991d75f77f72195d1147883727af2c064b42abb5b0;
Dbl 0x55f0928c2d48dd697a0c3f3b0085b454fd4f6fd8a9c5519f7445c9bee3a224e1c666b3fd1b8530a52d6c337ad90ef0e9 0x6b507f87800b61c7179ab7cedf394f2108c00180441c8d5074e995f7bb6d9c44dd1cb4c474b95810bacda9ca6d327f93 0x6e39a827a752b856dbd2d70639bf8252706c3023bef486da943ab0cac4f0f209537fcc8ccff55ccb159439cc1c45b1da 0xe0f285aa3ac5b74f155192e918cc7d2486327d94e54483caed699de1b504cefbaedf0a93d225e4785cda48598c723bef 0x1 0x177252c98a34291a3bc11b904d4ff1a204ea61850e881f2e7aac1ede445a5aff3fb4f1ac98892338b7dab8b8771101ee 0x1cd9a36430cb7c0fdd12261b923a76e0704699de12fb7a24acbae41f7404175fb867f1bdc7fe59464f8b073a224a4288 0x4b83ea8451c196189333d2ad78b961433854657e31a40986a06c3015c8361bf30d94351cf6611e08d5253fb96af0c220;
Dbl 0x515ecc6313cef39e2d6e071c46bf62f59decbd070963add7feae95e8ed2322273c1ca773c9154ac92f73b3de54f13339 0x36aba026795dfdf119d69086282d337e2e2db52d5c3c8c6668b8a09add601b3bb38c305c5124c3bbc6a2872a5c23e8ae 0x50a81d176c6729d3ae2eb785c2e114d3797158f87ea165ec67b818260edc654079c03a220edbe91707d57a65b6f1bab5 0x34a4df6106ad63d5fdc42748b70c1ba2da924c52e7e000ea0c30f55cde0d81092990846823949454f42b22a0110e96e5 0x0 (-0x40e30cffe11c8a8f9ed71bcb9585c7b445558f584cd4ffee495a3391368bb2fc4e19884298d71f84f049804c7f5c83dc) 0x19dd20716e79900f28c5e182111cbfe879705ed727afc5ed852c0e3cee28ece0b9de7c15a165c91edfd9462752f72523 0x10bba93f7a93cf72192f31282a248e2cbc5adfea4e3b01d0ff438df4ba46206c542b1077587fd67524eb7de4ed533492;
Dbl 0xda73357f6e8a8f9ed9c1f9ab4d3f33aad404356996e6d0e62ef9439ab323d30e173ed8d819ba0dbe96d36afc599cb4cc 0xbfee4e0b8824cc2a600430eacf56171127655616dfea69bd3c4bdde6c85e73384faa3bc595c9077d64ba26180a26c22 0xef5f693a71e155ddec71a35f72e1f1eb07abcc8ee5f7d826cc4f601c08565bdb882fb2c7035dec189f681eb12880a823 0x2aacbb45c0dbb12e73d64d777b37d20d1bb75fcbee3de5ca94f3e2bc70da34082e918c9ff7c83343f056e4c8db817c8c 0x0 0x66a05a6d37cdb839a48eadd59f43880fcd63769924a437c117cb84a9012a885e25d24a2fb3ef10e07213e047a2c76a51 0xba686af623ef504bd043a5b01a460242c9553a913504865a7df77c7366d4f436c82f24f1bccfe65982483461889abaee 0x246a4bfc877461a0332ab43079cdee5bec628bd3771b1bc2e5966e05ac5c87b07bb663c4467c3d4ec16068f45760b348;
Dbl 0xe72237c7c234b7b04ad1954e50ae461e9bee4c43f62c2da6f0d988b6c15b91647ecc13604395e13120a499189f56ad66 0x256dd29a6017dd6d1ba469e118ac39e9d34583f696dbf9e9fffa1c43169ccbe8005fcecb2b428fb6a15e1050a3f74927 0x112811b2cdefa136ea95189077320e280d269791773f5b63df6b72c3cafc2f3951bfa5aea5a889c8d20ae531a912497b 0xe6911246586a6f558a5bd92d944927873f30d16ad722acb1d3caa19b55e91b4a849ad4f02e1a00c134ed9211dcab22fa 0x1 0x1ae8e7d2d1e87a722efffbe87b9c816cd47abccfd4afe01cfdcc0bb7750d2f44619b658e338105e2b0297f0b77ed4d3a5 0xd0aec53d5db22ad31a11609bb33747102235a58719ce53f282165fe404db6a6d559376115a28fa5bbfd539fcfb411cc7 0xd02bb8fefbbb850812575722ca64790fdb4e15d869f6e19addb028fbd3f25edc797232818375672f3dafb10038c41002;
Add 0xcb66e72f4ab4ba214a45f578abc668f8e381a848fe22c59ed4b865635b572a9f9506c3a84f8a72867b302a7b975cb207 0xa5b5b2624de744527eab5ff19abdcf5d2065c9f3f6fbdb3704cf7f27c5f443ef875c8c779b4644bb4225788dfdab414f 0x12dbe72a0bf7df222f903e516e09e699a1dd03cacefbca177ad266ae7c71c7f1815412dfab886ea32874b1d2115fc8e5 0x7fb820381230991a9cf909ef7dee6a8cb2dfba029fe01eb2fb2a9d1b50a887f7790342528ffc4afb5f3897c3a64c07d7 0x1 0x7ae60877a18cd8358cf2a2c2258b8c75652848940b345e51a602da629448a1aeab5cdc6c6bed664a6709b21931813e6f 0x1 0x61a5cf5a8281cfd90254f85f388453938e4d84fd7ce609bac889dcb7ad94518be10e938dc0f41076db988110f7525813 0xa19c5c020af088c3ca638a82085abd725cba0da181784c4116c327327317f06d437386b4535fa923cb7ee5c46142d8fc 0x657a584009e9af1d8c0900e9b6c648e50244f5418b8a1a2dfd2cbc55ce4b841e6aa9c2d2635714eb9e8c1e48aea65d7f;
Dbl 0x29a22031447623a42a4cd2d042e6b3ae4bfa6385c153aa2eb19980ef6344a36bf8e8256f67feeef0d0fec68ed1e6b3d8 0x62c38392c503beb624b34269b1fc99925c94c7e186bd81a9e1454ba651c5c346dbc2978b095699c92696ac5bad717316 0xff89f0b1fefaa36eb614bd0c54922d8e0208a93e2fee30c748206335f28b7ab9b75784eee06d8beee4edbc4ed8eeea1d 0x42f22ecf88e3859c59f81d87e8c135cac3d10212703e598d238a3381742e80a8ab99f4ec91efaaf21b8ecc325039ce39 0x0 (-0x13ba8d79f16159c7d39abc2de8556d71d0c09984966a73e6041ffbb43c375743d083896da3559f2883e1e5442c7759d50) 0x6c554fc8a54d78881c3cda101e571a4bcc34dfbb4e9b6d90a2c7f62f663284544eb667b0c214f92b655a7bd52502f74 0xae32f2c045d3098fa3b81a6ae313baf256f5f575fdb449289ea33ae159c57a27068d6a928e91a4c476e0e94fe20d7ea;
Dbl 0x9f9455700f3e5bf70553eaaa552580adae2b86f1acdf69bb6dc2cf5d08fb3bba2fbdfdccabf2d5e0220964d109c644b5 0x60a0a22cfe8b404a911f5a58c7f54f63ee6fcd33f6326777aa2fd54464ce553f218f989eafa8cafeb03f63eb4dece456 0x85acf7fdb21faefbb804c7cde1121ee421ab97f353b0f7b0ff4232a753d1e3264fe43e804b88a782288206ad01a79e11 0x222e165c6787e6b9393e810ea074a2e6e24faad908b1a3237157661ecf76e07ba32feec59adceca765748705f848ec0 0x0 0xcc46a8e27d55fe034c1808c146ba0d14a47fe512083d5af7f0d2426bccb572c39d6862f616429736b3b624eabe67dca7 0x637998141904b183eec7462ced49711480cb54b9d925ba2166ccfd19f55636a0dbc639660d21f88acd4cbd3e94632289 0x154e6df09558c06c0a45eb6f590e58df9be87fcb4776ca8c8e80aa9f978ff5cdb48f6232fde2e6de3ed384bf3729a6e;
Dbl 0x27dd9f0ab0064016a11ead93d8a9d3450c94d9be6a465a94efcfa923eced071366c163bf5cbe6c550dffd556ade29786 0x32104456537888ad480296eef5a4e44726e538a6ab7e65bdda2bfd047a68f2c828b7647621f7bfd22b31bbb646eb615e 0x461280ddbc740522dc182cf8c65aef63978cabafc9ab6241679e3c9eee503aba09e0d3d600b149b93d19643f163df7de 0x2e905dd6ab12b79d491cc369d2506b1cc78a948d4ab401b9d003d83fea656276f8d834288db10b2c850da835070182f8 0x0 (-0x43c874fb1bfab7ea63d586db9b88746f881ac5c473a93bc2fe32a95d14655fd9f0e60d4bea725b71fdca67d5f549a123) 0x63546513ce4196b894b3e099df018f08b106091f37a1c4085b2e78f74f174652459a45db8aa5f619cbb800fe47dcfe6 0x7404dda5251eb52c582578ccfd13ac4c327131ec2df641524f8524f20310a347bb0688e2e50a594061a4c0051eac01f;
Dbl 0x80e7f0d150826b08102936bae5a680df7e6d89563106a56e0c326a8e2a392a90b77b8a26e3d4c76b21476f4e595a3aeb 0xd1cedd656bccb2112dfeee1f36dee7d1d436fa2c36324e28d17b5fddd8a2aa837d4e1d9019a0cca5a588e93f8f6890e8 0x9b4ac088a677f942343f2842f4ec14a8b93a6b711fdc6bce998f54fc47ae7ad61dacd9170f1485fb76293aa37f0f0b29 0x604166f0e7abd69c1a03a8cfbec5fc7552ae3e7a754c179508b09d26a1c64843ab6946e50856f32c85a8d277b782d075 0x1 0x293266e8939cc61dbcfd7c9d45952042dc16847ad40deb00c9a0b531e748aedbdbdcf795bd4c4b34429e8cd560a771f5 0x40e8c2f5cccad87e4faa07e93fe4a8f319f74fc5e7587997e76283d23ebec9f20a0859970f30a7c222c2d29e3c73ffeb 0x3077e9085b6354dadd3ab1b64e34957b7e7b5eb5112357cd4757ff4b16c12a70bd7d4f37627525dc23e133ed86db25a0;
Dbl 0xe0c40f9ee15d7d3c4da7445bc7069ad8fd70a6aa4041df0a6abd6ac76bc85c28bbaaf96948534fd4105d06269ca7d4d8 0xd40af21ffeaa808ec8af716e2e29c48b1907bc7934529a4db1ac0b595fab88cb171138e3a4877cbafa1db6b4df078b95 0xa028beb996798d30cfa9064b2f6dda954177fb4e7a467b3ca056644d79a5685e184e4f2b8f84e60892735dda40069c5b 0xfdc3eb456d223182654f7cb108b52346bb2f3db301dfb3db1fcf548478f721b7663ce4ab75194feaab6b328bb0610552 0x1 (-0xf32997a081509aab86083083feafd4cb8735e286ac8ba84b888a8effeb734d191c736b2e93ee24806f337fd51fcb4673) 0xc557b17df6a0b35536b4bf92f8e3d7701f55b87e54ec854d23a961ce1f7547d77832c5463842155a3ba776ca5b123725 0xdecdc758d9bf9dd74a65ca34ccaad3a92aa688e7dfde06caf893418f1854853c3c34f59809c9842928b5a23024534254;
Sub 0xd8b70225d1d759d8303eb6650edeb2cdaa9b081ac42a3f5c764dd5b9710ed7287c24a563f5a1ffaa21a60b4ca9a170c 0xa8c38ca9afd45b9038c41c09d126fa7f060dcd882295708f783cec7601134f5a21e070411ffe54d0c92e79a8762090d9 0x9dd40dc6429f16076377c19d88c3359340e7c2b49ec7de6f2f69cd72d093a4f605c743dbd3a34567deb8d82deac14af 0x2b4765764ed624fe8feb55645d02ca0c12f9eef111bd29be396f1ee35e983970f530c8a2848927ea30ef3d0c68e6fabc 0x0 0x298327fd401f7b5739fdaa4f3b091716aaea8116a8aafeb557b4c978dd575e92c20e4685e532534ebfc9587c6c9180de 0x0 0x232456d86c6f280b463a18099b6dd5e70c9cc1bdea2e1cf0b50279cea6163c74961cf2b8c40533a0c9fdac3f5feae53 0xb7755673e432065cf6277c8d41fcd4d4e6deaa1754dd81681bf66ac7d233302e923c7ee72f669b1ffa9b2c1b1afe95 0x24a32e024dad52fe78098b9fd2fc9e18e3fdd67d44367ff1a22c7957d800406437ae08d2e9ec9ba3927d49a46400c3a;
Dbl 0xb46b214857115a827596223ee195515ff08284be4500941a81a8d4ec38ae44f5d489fe152553e075cdbe526cfd40facb 0x51967a698752b6f5e84ac7f33ccfcde5167af0debe5b33c9d138423f786a3c110f29df92a350a3b57ae1618c1b3418b7 0x835a8739a944f707f6a646316abc2c7b87be19992037d4aaa690e060ca9ced0010ba9328a57f3e47d48929be672c2f48 0x572d12402881a49a5079541694572c99ef92dca9643a3cc5a704aa3688a9134912b690ae7cadb11b4e4d181c5aec7822 0x0 (-0x13fdc554028be1eb36519a37b3271765076ba2b9af9b63c3d8b3f4e20f2e96f63d5af9272760a1c8f796f474dbe3011ba) 0x7f26d3a2913ceaacaf1ec40db851ad28cfa21eb735469467cc0df82bec3f9f573539543c2d9e1bd8ce274ad16e441d70 0x3d702c012ef9b734b1226d643b43a8a68ef227d005d6e9a927b332d4a5f4cb04daa16b38fe6187dd03deb4cb9c83cd01;
Dbl 0xfb811663bfd4ef7de5c01986e80f39f21bf0efeff1374517dda8479cf274f31c3682f9a4761b42e718b2f76fa7742f3 0x5d7e72718b3695c61966af7865e0218d4b3b2ae8607dae9e0f518abcf330f7a214265059d6fa1bdfa4d1025cd7df38db 0x74623ac9b9d441ee7ec42bf93513de98fb11cfb93ee6243d388524e9a4073683469aac46daf2a42f7643ef134c630e3c 0xf41807f7fc1c212fcee4187ad6efac57cb3fc5f65ddd852bc1e6b7828539446dfb038f37cc5687d5d6105f304354dfdb 0x1 (-0x3de035e94d1e88c1f56d38c32ad2834eb4a0277a9ce90599832929f1490d06d4032058876e547f3716e4dacd47026a40) 0xf71662ff2ca82e10c5028b006160265bb3b22fed4c3db4d7e4bdbf734208bdc332e4471f4e52d4ddf8e4bf22db37a0 0xefcea5455508f97a9b5eac35afc09a774d5d1cfbd58816fce2707215811369b88d538a8ea255f27a5e20446fb7b4aa3;
Add 0x54fb7fac7515dbd602c8fd4468aab5dc438b469f8caeeb910ca50aa73c948e9ab3f56a536e03254e26452bc15b3a4f94 0xa791035d108e6c4380ceb7b8a8057f3a81233859fc4987e895370c69d7cc0044ebe49442f27f7b83b395322ba7e98d39 0x447e59be96d8cad5128b2ee7ad7c3b0800437394d9c2d9521b2a357db838663e61a06c2416e8aeea98fd2eab799701 0xb5ed6f147aa829829897f7bfbddaa252ca17f28e643426b57a1a7e531b64f75c2841bc15e47aa05bf13bd0322ff5aba1 0x1 0xb2f6a84eccab908e8ab4e85972bf7418dd1def85d4d61305b55a48dc70dccd68bf235dfb17a4f2736a7ca42565692e23 0x1 0x3b68c051cd7d26f69160ef5da9850459d67a8d91b37a8b8274604f1dd1b624a2fed7b981ff43b4fe79c9e1afc07f86a1 0x1c3602dcc8b0817ac288177c1ea38205ce5c35e627efa789261e6c641c90f9e38e6715ff0e3cf5d90a3a7ef89272233b 0x3c64a2f9fa2a47940fea22e66e068370914e14f5c5cdc568ac490a4f1ae6e12cb97bbe4f716563a12e932e8e5064bd29;
Dbl 0x309d7261b6564a518393d8339bb4509f3e907a77b58af8c4e26328e2bca0346ca0ad2aa8a4986f19703084deb6fce23 0x7d22397f8a83d72679c116feb2fb0c364a7291cbfd47892b2a8cbe47f18fb32b22127c781098cdec2197f8bd5648a4f6 0x9550d1f3455abc175eea80575b269b835a2d44853379a13e66a4b99ed8b63c79c0ad6b708d1e4f101007e4643650de2c 0x2a6ec9dd860a951d070da0b9f50a730436b0a68dff01febd6aaa4e21e63c4d19c9d217cae1e6ad9791fd396e51a0e843 0x0 (-0x14909ed5e93cfcf0ed09349c5e80ab237c86f12ee83017299e009bd59adaac23ad7d6d2df68b3eb26b101cccd22256236) 0x93b6bba23552d6642c68e21d7b63ff3d57a22a563593f0b2d8f6c8190ef141772330e2687c02fef0b1d5cfbc5669f 0x80edec0de1564203b76f6c9aef10db762d8bbfa841047a142d76d5aadf4697478670d5151e72084a6dfdb107d7ca04;
Dbl 0x9a52975d1f904297fc4db752a999cc2e16d88cb9049716dcca73048247aca1bb2b0bb69371b25f6b3d509d97f68f3d8f 0xd646b2579770008b5ecd1e70a43ad5b1537baadf215826816a2bedefca10ffd2df8b622a23a5221178d6f196db7b6387 0x2a3721706905e05ac1080dfcce6c83832ca72158db81c721362b61544db2be55628a12c94a44a8d03eff550df3a286cd 0xa6db8727f313d69b1af3f88e0ec03684f6f6e6ecdbef62a9c060d058277eb35742871a4cecf3abdaa8c107277acd416e 0x1 (-0x379bd3c77adc89c5aafb03705cab10b8778067546f6bb039d2701535eaa4746672f926bff96d16c2c4aa707875cd7ff) 0x5d0778c15b20c5a5a62f11d5af25c878da8fec6b96661ba8208b81fa9c629a10dd1945a0353f865f80307b7cdf7d3792 0x6495e44782111199935fc0da8aed5fba65270f44b87fad01c0f44adfabaf20d5358c8672bfc0ccc38d21913f6842a287;
Dbl 0xa50af6c3aecc1ce7e3ac512637dd9abd1e09ceab6823ae0ff1d680cfa5d48ec135c5ba17d0d7f7618c93ba1d6b4d77ea 0x566b0be26a5c22de820eddf171501858d8ba1ac484dcd42d07d711d773b3969364d29d7e01ad0c57e3fb22a3084cba7f 0x96655cc09bbdb29a102e1b799b1904519d65caf86da18cba2f3d3dbf5c756749d5d85417bc989f7053384a27f11d4c31 0x7fdba6752d13ddacdcbe407f32eabd587ac1901a9c7b52546254dc18565d693f7ab8c4ac21f815b994dbcef3d32ea908 0x0 (-0x1e3a022455deaf68f93ac41948e244d0899d64f4814431b89bfad169057aaa0a780eaaf0ef676efd3c4f3ca3ba67ff134) 0x6a67229074796eb93775b6eeedcdbf2a868c51a39fef82224cd280a3d8a01752030a1b7745d6447fe87a18c6c8541fa9 0x526e0c1cd43331d5a14e7baac88359d44822da44b24a8ee5db7d4d3ceaa708803545482834a218bfe4ebbb42fc1e99ae;
Dbl 0x334091cad82fd9ff2acd537c716a745c1bdda7091a5ba52f71d49871447589a93e99671ca0bbf16f2e5fb96a5cb3325f 0x9a32633cccfed3c571596382e51e559cad1e13e9669156b34c16040a687a133d36d23cfa82d1fe32c169617ecd2a839f 0x205224878389676b5e3f5119e0f76676b1d4882300592066fb0e66a03d7d9b60a36e5737203177c77d7c2d2291140e21 0xbc38a8a59d5d4f1910b57a6e8c31c2bc2b9c06db1e4b7d79bbc10dcd0b3983552e0060827edb0e252291c1253b2236df 0x1 (-0x1b4c094ce670df3d7d9383c2f2c40d4dd5c24b66b744c4edb7c85803cb8039eaeb7a432c270998ca3f35c65e90394f5e) 0xa42ca600a969268c1ab13e9d592a1a17fcad0047000589290e38a2b86425f062619c6e943b3830c391a11d11b00b95c 0x25aec2f462eecbe0201131a734c06503766324ccf7ff706932d946172fc37ffb80e27a1f457ac779d1e370835fda6f91;
Add 0xcf064795fbc2b07a740ad74c37b7e1883b9d95957acbb373bdbe5333b1a3b9019971a313b68275dd5ea8af822eeca35 0x1a34ebeb3b71d6cb36d322bf202750aaa46ee371fc3aff87b872ddca9b805b42c326dc85dacedf232e34e92b596e97ec 0x15c6df1bb841bc031a1fe6e45c6f95cee4fc7f16badcd08e6585f044d32fe732b4a2e8622d357c269b21c4400f14a400 0x7ffd7751918cfcfa3a8640c3c4f704f208af30776a56572b93a3263fccf9b7fa73ab6074a8031f0f9334785373bbebb3 0x0 0xefaa991a0e73ce8de2a79c63f1fda8283f00d886dae9bb1af21ec229e625e903e1cf4a9bc37cd4c6871503475ab478e7 0x1 0xc1d0d2d062bfd98498663d0f73d8c6f9de651aa3cffffddda6c511194ea4012da75f6135033e49fcf63d49dbca4b1ef 0xa76b27ebfc31300b5383adb884869db939b098b91043f8e3ecf62d4802a764d1fd701712063016146ce908eacb7749 0x6781173609175600f4c550d00e86ce41c656c57b85035250ec39ad3b227df9978f47e7a140b4716f4fd75707bdba812;
Dbl 0xd3cff2d6ea2d3045064971bd06fedeb2b3851ecf9071028f53e075b5c628f1262fe056be0dcb2ca2b6257d7984c75f14 0xe4746346ddcc012cdec53f77e47ded6cfd6e90ff2058520a6b9acd6bd8f4827609fa8e211f4e713ce337a5859c84d9e8 0x9e28b8952e74e25abcb7882d5d860b90099fafb91f2efffcc1b8b5cc650b560cb5d12d2f4488676a574a7ed853ae5cfe 0x35c088a45da5d59e580de3473ba9633da7005272dbe2ad7d4cd8105ec28bd8cbb92c4e63bb806de64afd43a6bce9be03 0x1 0x1bfcd41fa38e0971bd6faa412d1a769f20ec73813f253a6d9ac1ffc2f040691ee97ad43de8b40c6c1cab50555df724ad 0xaf407338e3f039cfa10313c517e96b3fc3b60de30d29b5683fa0e198b5b2ad5e81820bf7b56941da92a409d2bafa3030 0x2c795a4b17607bf72480876b564bac0e55996fa225f93b696d76e7fd3d189963140d4d5d259ed4cd28797fa1a2a80bc2;
Dbl 0x2a9e5357d76a64d4013afd0edd4cd41660fce23bd969a575d19432be76a96c6715049b6a2c6005e1edda52fef812fa8f 0x757e004bbcbcbbf51b1cd1b794596713f7dbcbeac711cbad037587c3deee3885272118bb2911e268ce279bd95a6b0239 0xa2135dd0415f5fd1cf89a68b55ca8b687deb01357925d3c545636e50285b3943557d600f0fdd6eb678c1ab10c747db48 0x6ef662fb210f4537c3a86dc0502486590592c5145946865d682545a7fa0649f0e2d97565f63c8ed4151009ac4219d7af 0x0 (-0x22ef59371507711fcb5713382634965a77a9bfbae2063ece69698a0ed829bcddf201d395aca2396d91aaeaa21abf29507) 0x7185543ce3ee43d230ec252167e6e78069fed6e54cab55c57703bb1e79a4ab8d0433d20ff6530d306966a6b521d1a28 0x12790c6e3f9d02b216221a939300d41b190844767de93f6fbff5cca1048e06819559644360aa99478956a5433f97d785;
Dbl 0xe4d5719b3c1263a6c9a680411e44f05088fbe96fe0f1725919c07cda79d2ad6cb4c6d5e187eee8c6949aade9f4bad6a3 0x1a238fed5782a1ef9e4066e09ce162075f88dafe03741cbbd325b4d7aff11027a2673115b4667699a1539dd043a5815b 0xde904f4b45f4a45809af0c2088adbaa788c81f9c51e516fe4dc27f4197da86dc220c8bef9eb1255e91567e5c35e6479d 0x5b5a705e653a1a057cdc6ad6f778050c9852f0ecc39daef1304fd2ec2efd285d84b9e7a574ab6bcf2cd3fe0916c580de 0x0 0x7ffb84522a1d502bee74f224daa2667079b3e8c01784df8c765f29b43d06b697618a442fe9bafbad25cce72102433460 0xcc8ce452c1bd2144f312ad8aefe4ca8456f6eb5af707d45fbe56f5ffac3351d5213ddd3fdddbff0a4509bb4da7aa9a04 0x51a8b6dde17d6e9bfddae729e6e6fdc3b32eca598af381249372ea7541e75201b5730a4cd9503fa2277637c42a67818b;
Sub 0xda33658b6a7f2df0eb99705445cdd73d99c6ce6a3faa70ffb34d6c597a6ddf53a795fe80f17dd27a73a9765efd9720eb 0x61c41119b2f466af479e1de7e0069e040ab30661f69b3f87ced60ac57aa33d9ad4d85ea192c78a0695aded9029235790 0x38fe9f67ece6e44b3c74f34b49fd929739a87667cff5604d538bea048645533885221fb52bc362faaa44038f1e2834e2 0xb85f7ed3a48e3b4056a248f8bcdac40354d5d49c0cd8dd34044faa12354dd28bcd8ed273219eec930ba5b0411a8229ca 0x1 0x6f9bc5ca98f79cb80f8e9fc1a9c0b492f16b9f9b77cc8123792e72f72d9ce5ee4d643eb6f5114d2d66ff3f98d12f76a3 0x1 0x5f210ebc2aaa9a58228e9bb96ea01a9f39ba0a332da9a68a8af034f7e42fce88f8087f2eaeafdbdc930531adc0450e5c 0xb9fb93430f3456dfcbe8c133541c4602ad3f3c390fcb47c3856309f0d4b76256b78faf11c54c4492d85054a587c94be9 0x9d26562893e1669ae7d3cf6a4777cfd78b02cfd0908d4aa183f88933a215b56e7bd5221ee181c58fe8aab8a97132e011;
Dbl 0x9f2cb9eeafb6834cd11904bcd7b0afa8f01a0caee7ee014fd61a109a94ff7882350d35d43bd8c427028eb08664d52440 0x7c10b07dff1db0456ddb619d8aec36d48158a51d9301414d3793416a61b3b17db9a8d70c91b861a994836b50604b5d41 0x5fb3b6d0f6fb19068c9ac17a9d112f8128b7b438b247bc29d19e18d461477dbea43b2f87e9eeb3e11852df1c45f0dd03 0xe5b3609bb3d6b669d9c2bc4a551a672f895a61446399fe3a9742c95b18ef8c1c1b2f8794010f285d012a8240c8d7fa4e 0x1 (-0x29224d0ad040be2d3a191d8e8e68b15fe15d6d15b52c41142920fe9aa0ed1c9e4768f5e14837f9764bf5c01665146e03) 0x62f896c6ef5bf65787e1272922a696e7fe9fde499d4d05a86bd479531935b636225ecbf1a58e42091b1e1a0a5aeffc61 0x8ed28aaa1ab2fc4b49d1566ccebe775d79b3b74c192c91574d573a36e1937f5d526869f7e1a04ce2d2e49e5214018665;
Dbl 0x341003e36dbfb28088ce96e7489ea0363bc8b61f2dbc3df1b4e054dfb25b1eb92d8b9b09138706794d6aef0969e02644 0x7528c274e0e45c4a7f65ba7e805229990487bafb91e18d6b507651dd26694b93819c4552953d3d4a3ca10a7ada37a20c 0x9949a89cef5e179a672e9310d59ab4da59f1b996fe2465283842096ed5c293c9460ee3aacb6487a8280572d3a0a8f2c6 0x6e7ee091e3953faee75a71f0a9a0d3b7cd0ea22011fb3e1e71cef8d3b4a65ea380c91b9fc7b245f57e260d58613bb35 0x0 (-0x8d73888dca340e934be9e6c89af9c2a9b4ec0401a92f633a188bad2b0b9e830c32519da9530ffdcd3473c8a452a76e18) 0xa968294e112b718d6d767d595159e5712a4891b9048ec9627d90eb346956e11ac94328eaf063ad27e6eaf2ad6161a7e 0x1678af3951da249e6c64fdc924a6644b38110adc4f3b9252c52e763d08feba6ffc41eb967c6644537cba61cd03237b5;
Dbl 0xb24d8b38622c7fa0df174dbf6ceb7f612ba632bbc726d74512c78294147075d0708d63a5147543e9047fa6a84cf6836d 0xc1414ce659862a4011182ffbb0ef262fd366b531bee27d6692fbd5d6105664bb51c356b3608d4ee45de8500038bd1d36 0xdaf5c744f7fc34c1ecb28ddafdc606481e18107c3e6e50cab89944bf17b543184d83c90fd94f1afa62d19ea6e5eb8b7d 0xb3e7758e875e320a6e4d8a82cf630369312105c9d2ff1004bd7a7c071612e6d72fd8ee9e34afee65deb8ba7ba17a84d5 0x1 0x34ac72cea4c79d78ca8a8c186f99a33228b9f3dde4d87a1a99b72cf0f987b7ef5d1607956e640c520b61e03f8a543111 0x7c2fed1774273747e8b93e3b2afa70cf2c6317d7c70e60c9156b52522cad7c261dd391dcce179f49981ae3615c37a4e5 0x7d4d6e31c2723147b4af3538a2be93a7a65a776a0bef43c3ce041779ed6049b561a46e69eabc6faed69382d432c2f092;
Sub 0x6c0ab6b05f65ce72940941573e072951a00d5af32ad2744656ccfe913b91d84a26791174f862ca940c4169a85b8f9cc8 0xd7e28bf6d96810116635b07da93cc12e26ce2b0f9bf0697432d1d1e273f3b2565f1231eac37c3dd2bb9fdd5a7c8d8ec5 0x3b373c0a6a1b55f33cdcd382c40e8bb21f6efcca2c13b52735e60d3dfacc717657cf7ef358bc760bc1ecf361b038d81f 0xe95ec0ef801e1a2eaae27f7e07b26501ac988a2222f213f2602a03f39c62b263f2b124c79d111111a24872a6bc2f8e70 0x1 0x16b982c39afb2508826668dcbdce78bb654979cf333ae1ce390493f58e023a82fcc06455a13825782393f1c7c647127f 0x0 0x99736a12bfed922c2feda5c1544a536618371648939b1a0d8b370c97c2f646a1cfb6b6b417d18f7b2b69e42c618c2a5 0x2d990a9798a49b4cdeeedf99038d0ee6f3e63551d36a279ef909abdbfe75c1a7fe1708b887d5f4ed4abfa57e704c5a72 0x627dbda2b8ad9623e2a7fafb6a0c41c3250a71f5203ad39005919313badd8cbddbefd0727d188a88b0ced18235a0dc1c;
Dbl 0x4b29997f8fb42a5d43648f7d9a15a2418153e8e3daed753b295b974656fa9bca4b5959c697b028e29669f0aed44d1279 0xc0953589ebda52b1ce56999919f2e34dcdaf60bf9417c8c3adbaa5138d63f8223ea57d0bd989aeb306eee2b68cd87571 0xf45c488086b3ac66db0a9dc2d292adac03b5ec81233c9223a6f87bb3da67407b6fb82abab797c6e835075778bdbb7928 0x174d566ced8dbd5f97df16e48f49dde0591eca5007d8a0b085172ccee68fba34206cb4dee9f28f1fb4b0faa3efb51954 0x0 (-0x1ff6552d9ca10d9e41bcce118636e4becaf2b9d3c1080076fd0132fb169cc7c2caf6a79d2459d148c23a340a3a8e33e86) 0x161166b3451951dd776ccb806b42629c3ad3fd0949a8f251e14fb3583380680ce65c4e88db14374cbf4938ecffd455ca 0x6d771ad962425b4affea0814e55db10b6db162e4871d91413e3e4747ebd011f7aa0e76988ca3096dee2b38c374f7093;
Dbl 0xf370475c30f553d1673f1093c3a4596a8bff141c0863fa4ada09f203ba2cfa69a58d03134e2f45c6d94d899d4182c271 0x79ccfaffd550edb31fbc3566185105fdf7a21596f9203d50b6e9296bd845888e8bc75d75b2817affe410a7032ef1fc86 0x10bbbffaf5ef6766fdfcdaabd46d2916362e2f60a7176c41f8adff89d8488a41540a21336fb3fd5abf4608f17b1d627f 0x46c83a8a168964feae9a643301a1dd4fd60d4b289af78b72f6d17ba7b51e6f93b2de1f96270833b322de3bb35de678eb 0x0 0x1e1d14cbe19e070034da087f5a5ac2eb7d7aad6a5ddff715e7947a43e0c5965edc4bd5927999c1bc0c6c3d9cf5efde50 0xe77e58b78980d8242f6b60f64833cb721248e8b81cf3329024fd9aa6ddb2ff180e729bd1863f246be0e0c3d5d82f7187 0x434f1ae5b588fca0deebc27d824e9e7bc10ac7022fc92a50026e77a45137688e4b357c52f5585e11d87260250c2565ec;
Add 0x710ab4a9e8d5830c9a2d99acc6b1a54b32ad6d7a367a775def7172fef7031e7298b8ffab1f4bd0d6e292f27d33cb2726 0xbeadaf39577adb72246c9e186c33088b81e2fa0c9182e9ce90d1aa31d59065a46d6f1c64c2a24c8eec1ee04a2f764153 0xe26139ef5d7d464c408007ea263c982777c9c90ae585a9da7c9769988d6eb1bff5749cd482e8d4feeaedfef339a82b69 0xbb1f4bc67dd61240fb4f974dac1dfd7275bf1b8a679d538226177f3a02b522e91e58410fefdf2e70f7f1c6b9ff7bbb32 0x1 0xcf4530dd16c5e87b910a6e47253058898984da346d78a1b85cf1e78b55f15e5536c46b16f32c5193a9bc48cbbc7bf1ce 0x1 0x5b86358bb73c884570a1e5fd613e3ef91f37e0bcac1b55e472b156ce284f0d3f13c6f14c756c622562e52c01459d0d8c 0x31ea73f09c520e90db0cbc4866b95429d1a7cc84496d7648da9a45c050f3e2c999557e01f3e5f3f926e6ee85909daeec 0x52a0a3b9c66d6c6f24c0ac434d444992c22ab78d624d1d394e5c2625be58da614b4c10bb29b978924f007006883d267c;
Dbl 0xec8786898b99780b54d29a069c64116bfc53307f73a7ac3a426d04c3b6cb69426fa88b65147fe2830ed24caa03be43a3 0xadc44726f2c41adf5257449612303df40677690f0702da89bd1bdaaccded82b225ef9a710212bda42e781e48ad888df0 0xc369e6101b7029323ddeb1045e4707ff08d769cb53d1df098ffdebb14907844f479bee049694c56cf20df60f9ce36831 0x10e9681264b6c092d21559825a02ca977b6b90fd8a800f44d3b5cf8507a2e2f2477f81f3c08f8eeabda6c20181edb363 0x0 (-0x7bfde80c16ef775e18c4fa821d55f7e3c78ce6cbe7f4ec1fa6264da37ad698427368da8c309610ecaad07360f2e7afe) 0xda8a27ccc528793ce0661f64e9ebef7abecb1ef009a357bffa2dc7c9b514749c361eea27c62f91710d03962fc2a256cd 0xfa01fea1926c765cdca63e3077a591e5c0c12a8f8e0698c043f7a6f5e80b68847e0aa01024b2799a4d8c05999c57291;
Dbl 0x23aca1bfd1225461844809967bfaa8aef6025f36f034969a4f622e46a171d709f866aef584d7dca9e2bdb9298b5d9f25 0x632ed56c0073e03d464e08023ab138996d8f36f3e07710ba86ae4c5729ee4b0124bd94f6ddd8f6a96d0fc1481c6bb943 0x7bf37afc2ffcbba702e5800e9fb6d77dfc0f2a2a88efbac30496cc30697342b13cbc6ac6aa64c1944a28dd0108aaef23 0x4a9571baf2503aa20c093c93d77f055a98e8321b268bc9cf366d8e55a3ff37b10132057a2439c6fac1685d00911cd4ad 0x0 (-0x12b6219d16ac3d07149e678d22c754fd7fe46182d9e0a109fc10e85aa42fce42aebda031c07aa81d16cba119b45ac392d) 0x4f8a8a433233dfaf76b17b3c75fa02fd637994c8e7a5c3695cdd936a46a69a84163265eb6892a6c7f2a96ba45abd9ca 0xa64ba14d7b03512f8642b4b66f96a85c394e6969a500f49df94e0b47fa08bbcde49223bdf2cde8c1fc9bb8592732753;
Sub 0x4c926f31951523ee7030490284379e09978365c39ea1d96519af83ba7f150a24b3d00f651ed5d895e2bca97ef4d811ae 0x79a3e80a61c5886a33ae972650ebe02b3e0c815338a5b567cf91f958ca8209650e9503110ef213539c94c6bd6a21abdd 0x47cd01c0bb30ea9866b5e1848ce901b0808017cbd89a1148372bdbc218d79dcde4eb248c2b63a4fd8018c514d8852c50 0xe98aed619eae57d3129f70dbe9c5586e2f82b5a0a7d15b52b71c52fe5f6c419b162891e4cee6e355d07afa8bb24a0d65 0x1 0xb8a70b4941e8db05b79c40e347908b24ff71fb9154cf75222cb70a76a79a20c7cfbaa2981e83cd3d32bb6310a9f5ae8b 0x1 0x373b36d260bf1d9c9370dbb365228fd413e4de4ccb777875db703b941237b060d4785a8992c861b9a6ec6cd702b92009 0x16e745c8755ea2554ca6c6900feda48fb478d045f9e499fcd766ac0b66a6b1fd3a591d199c9a0c88505e0877722add93 0x45dad524d54e2a5485aea449e4a3ca586b5c2682f06ea20332e4bc83c0c5f243c43d6d29dece4985f384142336bf4bcd;
Dbl 0xfe280b808086de6a3fe73d57ffe0ad6eab905ae6c236b5501b79635b53623a7b0368cffb492f242ba2864c0248aef1ca 0xea6947e9d6d17a70e047065b25f0bd5f8761d52615f89ad9240836c300241ea1bbe3dd636047a93565017bacc0237fcf 0x6b8a6cde4b56f50598fe184c6f7c02cf64e144837875e5ad169a44e6f45c1de27be82f94fb2365a71908a2512fb404b9 0x8f3aa0208af40df9536790cb2afb22cbb6aaac2d22ad1a8eab89c295ca5deac252b125acaeaa6a1e37934b11a9fe2c0d 0x1 (-0x1ed3c8e2acf79fa2ea3bf40beafbb9e8a0bd93e2ac55807db93b300f601a43c0b4f643d3c157dd6fc868b675594797e8) 0xfc537d1697b8170cb68587336a234cb540749d472b66ee975a1dd90549772e7850ef8f86777c4040213556956170e425 0x8e329278b90e176de5bc936d36932c06f7768c4a6a37934c6fae35cb6ed796650626e54f975f48810ae980f5055c31c7;
Dbl 0xa1912bd514f1f45513632312cfa294f4d6195f410cf41bead9a81eb794a89e6c7c60f17fd4eb551c35e994aadb66e169 0x289ab2e9886a76e3aca025cdef1a93da81af2eebeaa27593dbb527b69ecf3c2841eaa83808f3573a32cb48c2f3d20ab1 0xd6b037d55b46b610912311c2ce07c13867714709db5773278eddc619dac3d95340e83e50a48b88a32b60014f914fc02f 0xc1ce95004e67038d33a6e08d36d6298505b2a63a2b56254548530f0c6154e27979f9352b575451fb323632e9cc51751e 0x0 (-0x1fc2fd3b8371caa72ee70c2919e74fe3389a02972f7aa73bd38eb28bb6341bb361d7b9b7c18cb3194d7283cf1c429f5a2) 0x65f7eb74b33b55ceef2e855c31a2abf4ab41ed2dfab9a9a07f7abfc0c12b056ad0f13ed88aab3d3e845196e467f34d3e 0x7a50d2e69a3f8818f377e27cb99d55b22da1e5167ab6bbd7987821ef8dfad3b1dc721b652b40032032196d3107b75d9a;
Dbl 0x7a6cad407261532998817dc0c072df9adf90abd899f50b87761390710bce900603164b4014b9c086d4b99ead3b5ae6c 0xb51c8b3d7dee7e79b2a04f8a4212aed4d2c51116ce2d06e13a27d31135d41e1c693a3191abf6e928f91836f449864e35 0x66afd6fdf52951ba581ce2b18666af1ff2d0673a16d19096c53370c44b1f7c9459a5b038e300725a636bd7c71ba5319a 0x737e27ac0a7bf869f9ffd643ad07e505aeea1dd51c756eb2a18d54a568fb1e0ad8b076a55cfc6e1139b311cfaa4bbc7b 0x1 (-0x67cbc665e4205f3b75da68f55ff35f503b47a1ffb1761603a791aa4f7d7e30338407d1409b075b9348248018e7d2088) 0x3a8bc34410a57032be9eb91a4322284ee6c1170524ec9dc240e3ce21f1f5092baab436e58900055f4d3a9b0d9b6607 0x373b264a0d86c4c40370bee2ec5ef2a12f884467ce064db5475ca41448ab1fb8406682c158e77a2f2fb644cb6eed3e5;
Sub 0xbdd1a8e466fce4301bda69a4302968f1334fbe0b623a7d53d0763624360913e46c91afe7c914cd79427b0267953ddf84 0xb6512902e55f1165c05878d95fe9f316b902c78c5006457e7a7f19bfbad3575c19f402cf7aafb4a7110f5e68697d2394 0x11cf8367ef295c4abd014f7f42fa73800539cd5074c6d0b0dff6ef878407c341a12765dd8153386a046cb75f68bb8916 0xfecb623a988f6d13f247d6b0e228bbbe19c2498a7e26c162bfa8b9517b00c6bf4f462ec131473481e808d88ce0092aa0 0x1 0xa94c11abf63794223ee886b4ef2016064a7d5b442856b48e0309130b37ff3e414373f33eca1bfbcbec3d8bbd710437e 0x0 0x7d87cfd7599f2f4c74e9e0d6461d808a01b4f5afb738c42568e27ae4e16acaa83c3c4786205a7da8eb86b38325bb102 0x8cbf3f16746e24cf2712148595361113f5d4b8f088b29f83f443cb335a882b373535ee5007272e2a3ac532a9356a4070 0xbcecd3a940931d62d648d61e1df6afc8f53384a07b23bb5e65f1bb493b3670784f55735d1c63ee3d412f712cbb656030;
Dbl 0x7a0084950bb8c51a8b9ef0db994fd27dafb11a633e7f443ca2fa38d43570a99123abfa897bedfe7db970c78d43106d50 0xcedfa89d000b257a70e51c9e8ccdad00e21e39ed65d4fe288b4131e53f61d0f45eaef16732710b4a4d0c09b9f83bb255 0x9fb64e6c06a6bb604e386f36f64cd0f2bb281556ddc18b93dc200f109acc4324eca6415be07a8705210deb35583ba215 0xe7718065e553ebeb4f735c3ad31c4615d6e48d9eea314755ef3de7da7b718666bb451167483ea95cc40354af7141713e 0x1 (-0x1748ca46f7cf7a498641b93b7dc4ca6f1c3d84e1227f36a7a9ca5e360bec47061beab54c619574d215e3add814c450113) 0x3a247e5e53d626ba7df5b4bff371252af56b9245c90cbebe2776d632b85e7e753e625cd928bcbe86c01722a21288c07d 0x6e4c8f0dd5273046e501d4add2670f87027890b515bbe8cfc7e1293cbfa749b93626217ae1099ba7dc001473316c61cb;
Dbl 0x7e17bc1339045504a66477bdb777058500515bdd31f6d81837bdf76ff171d5db6b3afc8715ea24403f8e7c5620c21e30 0xa77a48f053b5b1711295663e7f0121f1c8795c81bf9f674f1c699b7f265d240b86725a377c62f199bb2c8ea81681c9e7 0xeb2dd57ce1c59b4f40e35904ed0f35e985a4f25e3389bb5ef3040b6ef88785e1a5724a1c350a75f9cc45911b3d7f15fe 0x27655facac5574095e4fb6600dcc8b0f19a4dd6ba63596d96ed796661904ace8d83c972fb60e19b091df7b11e1b9e86e 0x0 (-0x1583111ab689b2552539cf56386b239a79d7a81846ac51a609e08655d72a25dbb16af88d16455c3a93d1f080ad9f4c338) 0x3e1b5f5641c0bfa7bad72cef5df2937c866b37e9c3c4d469e8a2d7cffb914858d126162caebba5f266d2a4af42a9e591 0x13678c23fce4b021e5d7f108d3068bf90c89b418e902979d51008328b7acb8acf76e375c626a5cf59974e71196463f73;
Dbl 0x2d6ea4cc99e500311bf7247892632e61229471b4cb8ffa6ba608cde62ed0bd955b8c6659898eb25645c66b2d80938b88 0xca6072241e27c5689fd457cf3b5dff8a4f4272bdfb6503757fabdc6ef7ea798a2ee22a1b56e8828fb5cdff1245e2ae6b 0x36a57c8bd0c9ac014b6c5a745f9e13acd42178653229fe5b7719b4efad711530287eddf98865188b97cec1caa5d887ba 0xdd19d6cc358dec0872c10e6f43a322677936e9c3c43a63d99cbdbf102e72aa805790301b257a6f0a055e8f96d09f1b7b 0x1 (-0xf538e97d71256de3f4906b3a11f69da32ae147062be72fe1b71a0f5420fc19b3f7cab8fcfdda33ac37939274307d8690) 0x81015c1f8058b9077c3ac62fefac26d797abffa890702882b44beedce37df2499899763086bcf582359c7f9e8a949f9 0x273d1a3174452c2a1ae1c2eddf852bb581737ca38a3b3d0f35559ea9814a234341134dacc50349d924a5cc2763443b60;
Dbl 0xf29c306d773180c7395d3589f69078736c8f4089ef87d153ab71c215858284c6c95a2eca0b2839e3bc0873bac524546 0xda34d350f37dcd510b3718d2178a8a65824b59f8dbed536afb9d3ae64bfe7bedc8d8eca025bbdf6a3bd79f2a0f340b4 0xe9efb9e623e5baaf88867540474955983fb6e80f1c559bc25fca3f374483b3945cee7402d5cfdecb7738cddda3bb99a7 0xbcbd24ef0eefe8938f20e64219e556e3f71dbd1e6da62e3ecff208c0932a91cb52549b51548cc4991210851fa4ef6db7 0x0 (-0x1d97bd08719fa406be47d50c325f8cdfe31f1efc393589cdf9db56b740ed395f42127769cbf74d24ea83fc14001779b90) 0xe5ebaada03ec174ee3339147a821699b5d7589ba3490b677bf313e09664be1ba770fc834821462e480dcb2a921ce66 0xb2ddf3e0a921dbf43477771e1a51a4253f01606239d1bdc308504b8c41afcbd5474daff16f5681d964ff34e8eebce57;
Sub 0x161f7740a84be0ad1909f8dc98be4d541be81aad5a8d455f2b815ae33c64753133b5adddd27bafcd514af8f0d24e1e44 0xf5a5457b2528f93d0773d1efc91dd12c1d8a09a5f60d99f301e68ec1b8c46556c9953ca348b90f308941f80548e99339 0x7c2a5df6749b5d0af38a5393a3e669346710e5dec02103604a1f4af5b74fd1190562245b124e1e619d284208907dd939 0x17fe07b9ea0ee398093f9f9d585ad77a3a9aabf997b13b43add344ecabfb826712f85225b9a2aec61a7b81ee5809ad7a 0x1 0x631b831250acd79d8201aa6e2e57fb31ea077a3d0217399e55c291cde26bbd85878a9c6b4306948a69691bbb2e7d35fc 0x1 0x8908bc3441c5598a9f737df1f2ad010774244f965603b5d420a024ca2ba2c0beec98358a2f145836ce6ca960447c917 0x1e96c5d3622f9c949aeb86495805b042160203db21b770a49df890667a09b9754dbf18061a3f31edd71ebc6574edc94 0x212c79a0e7fcb30d49123e59510f0c8ae3915870b50d043e7ab0f5881ab8e28f344e4e9583d8a3b8f441b1cc0271278;
Dbl 0x687538f2629d82816af646d3ed00363b7ffa2837431cbcdbdd6d7596d0e3562d228180aec67dd531489716d4f2950eb1 0x3557ac0750ad04a91382119662272656690eb01c9b0c53647fc5a5cabedacbe35cc5a715b034d5b1d4840d67af63a4da 0xeb83932e104919d38f266a9e0cadfc9af46b0ec2f7792e004f13d017df713c50f7f6d16741b0c145b569a11feafcdbf6 0xc04d9973d47bf493f3f1c05966f6aad5b47b59895b01468e8220e8f6f9e999736ccf958d9884397eb4bdea9d9985ee5f 0x0 (-0x25dcd22c13f4a4e59da63070a6aa87b76abfac0869d208842bee9178ac18c1a06a7be4728c3c8301555adcf880add14c2) 0x2a9f73f20a590ea5f21432f7520ae0fa50b72575e700bb7d8fb60268628a9ccf812bd15cb4e18606394a0aa48254f4eb 0x4e7794953d42e45af0274f153350d741ac9b41eb1b1eb77bfa183b9d1746dfcca8beb041f196f73fefb13a56778cb380;
Dbl 0x57da7a85ec483f73c93cb0004fe5b1b45b64c948e8cfa14d538fa355b9708ec96c1efcab0a59d6bec7c05acd04979c20 0xbf548e5de37187e09da6a20d97437beb01bd4200ffe03f3e12448bcbeb42a014c76d4387c656e8cc9600bcc47acc63fa 0xed3a98a682d59e06a7b1eb31f472b5a695823f5003fa28852e516a1bcd1bc3e8bc12dc5cf72cbb0e78c6dad174b89ac 0x76031da96d3b7cc875db6f88cae3aa6b67516e1b9b2c14266d8119fed3982bcd9558638ce9ddece53e8350a4349740df 0x1 0x804d29cb9354dd205a9a07ef420386749cbafe452830fd2d22e87376d2649e6d0f48e66e7704cee378184ca7cccd4f69 0x1e2639bbed537170fd9b8e7a2388a6830c27c8302f628052e3306aaefb6c99d78760f26d6489d078a6f9df574c9ca9ae 0x287fc6370f13909d28f24cfd23c0be02990174446f042552a2c6a4886354a61d22847a6113270452dfdc952e844f65c2;
Dbl 0xa13461e4d8344f827cd3c6aef42ce9eae63fcb12a2481e624bab27056680a66241aed60ecba5514d540c60d29d5c3c9b 0x6d18878f436bfc6ef0aef321aaae6a8d1fc6e9dc4ea68a5167e0a8e9d10a117ad88c0e2ee518cfd21f7b554ab23d454e 0x464d66e595ed624c5a1a0c75a6d1490b64fe48adcb55befcf8f0f14769db877bfb665276c652f279929066c5d0b89a84 0x523c06cea0058b71acf7aeebec95115de1f65824b139b4ecaa63e2e21a388e99eee13558e13e18fa76856779c88f1eac 0x0 (-0x19a518c85a2b765c913c15389d4040e5806fdd229d969e9161bc05d2db522a57b95955420ecd0682aeec86fdf392f65df) 0x6582edd9c258d9abe60be9d434580e0322010d48265156e2543457da2d5a9521c1dd104820080ed51787e45eec150769 0x33c893eb9619cbf59950acc955c6a73bddf90edc8fed5e68a67e4b05a840afc3861fccea2cf95522eeb7626a6c5c420c;
Dbl 0x2a3a81ccbdd1182ade58a8f86888e5327cd4ccdecf0cbf8430e5d274cf7b9da31eb65e9976e8693ded89ca21efbe0858 0x59044ffbdfb3fa2a2f9bedd57f1ba479cfef77fc8b40d85027ff55fdaec7ea7865967b2866092dd3348ff3a21977a77b 0x9e74e036c200c88d82be557b5219dc0e90e75d88c255c0a677288984bdacdee92a45911702cd4454297070d3256de04 0x1414379363b80244c113054c2b92c6134fd771dfc365b2013fe152ec2242270272f593067f0fa1feeaeb61a898c59dd3 0x0 (-0x7448293caba2b3116a9072e42b12b32d2b7d5a2de6e61a94c03affcf24f15a4ed21a125e0f1ab141a8fd5caa26b50f77) 0x6f73ff640de99b8d0b9f87d8f09f59e02d948bd8ac80c32defea965414541c6bc0983adcb366691cbb5cab9cb0c93d7 0x34fe7e104c1aa316cf2001607b467f6f44c0b993066534d533bb92ffbbf20fe61610679568d0a5d9d1a7fe23298a000;
Dbl 0x3495abec4a529f0e1a322aef3f58fb3f768b03a5b47c8087ba53607bb6c7a6662d2a93306e3a267806000f389548bc7c 0x1f3677d6cdb1543b7a88c9b40a60bdd066f02394f6b1898b659d4839b8b23eb4db90b3da7ec7e1c908abb416858f4fb2 0x89f11ce614a9bb9792fb6e3d40cc1d99c3d175ef7f32315d6c46828b18822891d1ac6e9fdca3fbddba9964990cb07dbd 0x39cdd8251202a5eeb513242174bae6a968ff5467948f4ec4c2620dc3f615abc38a05c74de7414c0a2be43f8b93e857c9 0x0 (-0x58ca72cfb0dd3f9941c9ceca219df91f2080b34350cb4f902698459160347a1dd4ab0486b74afaf10d6ce3706cb9d498) 0xacd255992b59a2e5f74d774ed16f9aaef22a05857ef974f365050d5ab8baab21b1dda08636ac1f944cd1f9fcff84298 0xbdf9b882f2832c76b7e4f5e17fad628a17afca790dc4697c4b9d352c5bcaab68f51d120527b5dba9e248e684c7d3a65;
Dbl 0x5555e05cc133e715c71f11a69babf98272423ef3070654d3c17ee2550b3e9bcb72905deac27bd3e055b6be7d5e9c00a8 0x95b18e26df856afd3d0f14a8978f4d590b08363e4552950f765ac4dfe5cb93049cb7ccb43db5bdcc5af98ab81350f223 0xc4ec8aa16d35c2a75bb0877ea22d0b08f64b4c36584e7388ee0b5b81b702f1ae554815ccc81bd884fdf461dba9475df4 0x8984e9afee2be93e3d79b50b72d170775be7ed56b15ef47bef428359d2e6abaf3ed8e725411223fcadb2295f723e5d8e 0x1 0x508bf3417cfbf3762133d53c13372d7135b68ebe99eb47824e57f7bfdc814053f3db6f536835a5240aa73f398f04ff39 0x1c7223cc5a8737a22e345d6c92be5243bfafb3b98c2bcb153a10d446db565e96aae0aaa65dc219d8c6d7228ff1af2347 0x2dd7433f2185aa70f24995d96eaa169b023100ca96ebaf010c744c41b0be95ff9539c2917de3946455317fa196827681;
Sub 0x1dc7b6ada6fd055a3d7e25c997bcd7e8c0905b25b4997bd54d2cd1355c96679a347accd71d6b1cd674f238310c13eeae 0x4a0866acdc7da612b91e2fb6e587713e1b6427e52850cdcdfd43187dabbfe0d4791a38139f62ad169ca846348930ccc6 0x39497c3c598470c9dc2a10e7cac2fe301e48fb90cd6fbb5432f79e0da23e545a954fc2ad1e1fbecb80eb8e1079742773 0x4ba9277a0307c4ea83f0e4f1b207dc1aefa40e591d01c7417917ac623a0bb230239d94a09e5310b5be5144838a20255d 0x0 0xeb29c40420fa65c5ae5d4d89a46e9fe49ceafadbb9aaf9771c6382ff637768cb47b4da557e60946020a52c80a0dae76b 0x1 0x1b5b307b0cebe8b4ea733563f5a5928a81e3d922ee26763db431bd7718884eb23f049d325da25473a9236b653151a79a 0x376db30dc2a4fcfa6bcd719823e314859e77891bb925688f0335d55f3c19217ac7ff2bcbc68b0b35afa9bf7729bcb5c 0x8cd2ff416eb1f4e507388a032a4cbcc3c8570a7718968b5634dca15f92b7f0330365f5b3c3b6482a3b57d5b3c3eaa31;
Dbl 0xae6ef36876c7deb7e68628b369ef46d2da5bb6bcf873dac13269ab9be1f05655c5524197eee27e8a2dac3513b9b79bc 0xabf3189901c170447ed998df8b20c5d63624ba9aa37c63bbdde1381473c7bb66ceef68b94b68eec70f6b99e8e8f5dc8e 0x5f2b3e8456d52305188907bcf22d722e082deec4ea479578909b85db466a8d03369cefbec02c1b6d8fb01ee87b4dd828 0x9e154e13dabc35ce3a4496d75a66ab67e53f6d4a84d46a121f61e06937f8256caa2acf5953f9be4f8d3cac4ca03af037 0x1 (-0x3b597a17f9598615f14d399558b82dd91f4c6a79b674547f7ceae13946d757f93fbe36d79d124e25bf0cf561e9022b7f) 0x76db02f816ad42a58dbb6d0a68a584ce8f78240d68409df5188e08d874a9ac1e19d745bf8b179c129fe0daafcc340a 0x6bb6fe87c651b837af4c12803fd15046f700ac03d82f0d069fd16f29dfacad948a10f21ef7550fe0a7705bb4fa29837;
Dbl 0x86d559c31d37f5f7d89ba2a6be8cdb4efdd50b488e7e46e1eec0a6efa92b7a5fa10fa4bba24d739183f77f86b5dc3a01 0x3b7b13ee106c80df93f61bd47337ecc52aeaeec3fb9107d285bacbd48048aa6eb9c77c1861e0dd47c67d4ffacd582837 0x89c6d301f63de805600b5bda09fdf5a0b00a6d9361616498573406ca16b16575853e82c25bd4e62825b0f006191970a2 0x707804aaf154ef64eae37d0b17e8d9110b39cbd6a7eb5be958266c3ff37f10f81527eca0e988117f48ee49ee1b9db457 0x0 (-0xf63c16f6a15a1e08096d7d3c15b99c8e0bd5a5b4e6fcc5ec44eee83c7382311f40e1513b365358a0c87829477fdcb407) 0x47040bc6c0be73a534ce2769310cf0c7220044f4c02894c10dcd366175f1aa296451f1babf6bf0a50283129976676d52 0x3b3c8dbcce6e6b767a5528961d769dc049abc74848bc9061b0abe5133a640e314eeebd5d9589741497c1e69f4029de73;
Sub 0xb6da82268176c856c3a5f5099b678ccd749d74398f5d7c2a67ca8915503cadb04ab6f17be755087b3552cd87e0164bd6 0xd30d15423159a39308a0fd6f71174b8eb03df88f9fb1f1fee1bfa78a963ecb8d0d9c19048cc3d497ac6ebd2f3471282a 0xec0250bee3139b867cb32ba89c6c90534d776550a1ea529550b3ef3e765954607d722f976a1cf23631aef90e1fb424d5 0x686dfeabdf12dd4c8b551e650220a1367aacf6345bdf15d3a3fb2449ea09dee0ac2b6312d51d08b01a0e92cc98e7000c 0x1 0x90f349cb51e17ba8054454b580173f50bccdb3616fe96c3a2bc389f3fdf4803564c489b9a28bb3db8c28f1c35ae21d7f 0x1 0x6788af54bc3e1572133a064db0d2a7dc5316295e945e81d3ce63c3f0ec4d59dcdb09ecec33844ef9cd7c7034c970a1d8 0x829b6b90abd4846fe629b48a5d67b64c28d8785fd0d956cbcc38fdee5e6031a993a4e7b450e4de318008f13ad5004434 0x4a9755d09f6a55f0e1c586461a007fbc71596c19806389771ded8cb68a1bb4903f152072ba8fef2fc3c5627739a8076f;
Dbl 0x23c986132950a790016d1db2a7b99568e0acf92d02c1178cc715d5641fda1052468be72e372f4dd66c471cbb9fdc8c07 0xbfc2b8bd35369c0694c5e5eaf80d5f5968163dec4a2c71f721c7f589ad021ed5c96069b9ad99bafc33356baf700dd58b 0x7e9e37a93416aa1593256346267273ffc3d3598365d33f56958772f562378c4c1c8d1c4ffa200b2b133e61857cea93e6 0x134a5c84fc23078c73db17847909ec354827baa355858007bff7b200e93cacb7443baf4adf2a199b7939517fc463529f 0x0 (-0x1c7ff8036189ee43c278c7fd4f540cc4e4cd6baef2fb64fc49f585876648b09c2c26ea8a8211d931d980879b9061786fd) 0x500b94d0d9aff281894a36b35d49af63afae2ef841638246267f3ddff89f0a5526b07a21f425110f7d795902e507dae 0x2b25a2330f23810bfe5b5012fa305696b7a0eb4f9457a014c8d6141caef03c84e4c9de41273481512688f402b148262;
Dbl 0x5fc36c58d77598f2fe2227c4bb8ce0b5d8fd633dac9a4d97bcd022b0c23376567c622e3520444a03ff08c50567a4bbdd 0xaa5acf176f014576179e18bc71de8e6a0f8c8151efe7423d9a0cfabc94e3fae67e9e297d71e4629aeead9943f583c7c5 0x8924b6e8b349780644b2251043e5671e9edd9b2a2e3acf1ca2405997e05ca5c9680d284b56df68c350e9f64052199d87 0x1567e9a5c63556907d27cd2e862ed0ef5889bc9a5a452fb987bafacd181e23ef4ac2403c3bb558614487d26b7a8a0dc6 0x0 (-0x15031adcecb28b951d7ec34f3ffb82202643d0e8ab419cad5ff0351f59522d6c0ac68a6c74c435d42bbdac54fed0992b4) 0x23d29f982d1c994b6a096bf5724cbb57eb773821a47d6224528860053fc52a3df2020424bd21881c545bd4e5c29ad612 0x801e6eac22220dd37cb74591bf40f955eb472c8be9a2381856d31472402d25a94c251d2af4e2a9a607e2b1fb0eeab7f;
Sub 0xc7cc7d59a5f2ff815ed036833f5585cdb61236f08b1a4e21d595bd3045e59731b928dfa4c30cc22233852754800b73db 0x41ae95ebe4d8e7463d14ae143f4b603b111454a759e2033c5ee932dfa5a415919ae818da4bf0104f09ec453c363dc55 0xddc1d20fcb0f753af574c7b42853b6c556aa21adedf85f653992aa5c980940f7f63da92325ad9e48e18ac4f8d4791190 0xa63fe5b8b0b3b701b3cccddb2de9d8665e7b3c077a492209d41e678e9a89b98d64efa7efcd256195fe0ed4f0321feb70 0x0 0xffd304f4b076403e88ec519d7ebde0f5a16f45ef643fa6a54015b8dc128fd0ad299b371eb28f392eb4593b0c830dbd0d 0x1 0xc7a96245c7c69467c3cf7e5ebee7a0d1805a952af840c30ec134985fff307ed90671ec3dbe5c1f02b5f7888efac71ac8 0x9bef8e396440eff673a3f32703789d9e5c62614747b76d07b81a36968ef055fb572d41701d451b1ab353b732021d3178 0x81c077e50baf8b5a3309363241a42c0fcc8dd6fc6c8123ca856a93d81bfcf84acff1d14a892a0759d2e433a9d0b0f647;
Dbl 0x47531952325ff0ebd1acc98a61b5e23e2cf9f4742853c0aa177916f6265bc42a784de7723842bebd6da849cc3bec24b0 0x7dd8573ae59cfbea9046be6770e1f08cbbead50dd60615c5f4b66575c71b7be253bfd44901c6d7f95f444b8398dc5817 0x88404196d61cb94a09124735ec85032a6a66e98577df2b2442b5e4c4f2764da3b072a5a1afde0a8ab3ef4cdcd0d08f96 0x86429223d8b09289d38a8c79d312c576f526703c9f980a6dd1382db8333ec575c5eead43a2f8290b915a78d12a87843d 0x1 0x7b5eebb3a58bcb15b1b4dce08fb507ba4f41eff3bee4ed845b78ba6dba394f067eda0e145130018b3ce46923fb37f6a8 0x13df330505bf0a1413a5d1ec53a482818bb186a09791bd022775bc749699ad871f69539fd71bf488541660af55e217c1 0x25680b64eebbdb21b4ee089eaaee1b002ae34c75df2b9f1b8720b750587cffff4fc344c372610d5a7138853f624a2336;
Dbl 0x49a27014ac9ee757315e5e8d4a4a78b48cc12f75eb6d27606fcf0acd44189c311e971881f42d605f25624276f23495ea 0x23ea5fc3a452b31c056bb977ee27932404bf66fdaf4e27c878a0a5a953481407d7223df5f86adda10eefd31e6f8c3346 0x918ceba03c6e501598e7b3b8650753a8bbab4e65e5662a169b96f13bba107ef16987d7a9dcee52649faa6bfc2d4ea594 0x59edf777414a48ce8adb04ef82ba5d68b72b6e1026b7edfd7c15bfcc73d367da7c9d9653095bfa5850547865295024d1 0x0 (-0x6b3565ff3bd67ef76d16b654e9e946020546f79a54bde1851fee163cafb3bf00756f74280ab6d3fb268ff5dbefd3a408) 0x152e0afdd5af31c2fc28a7ae13b11e81fa91722682cd276fd8e87b81de02ebbb0b0327eebfb45bea11ccc1c1fa6aa990 0x19ddeb86fa94b60dc8effd0eb8243d0bfca432d2183e80fd9f05103f131d6289680f1d7dbb70a6b02e41b30a88fbe920;
Dbl 0xd49ebdf387149abbcfc50e88cbee4681cdf742254a64409a2e9f56713423d11c8a734aa20cfe7a81f334cf51749aac73 0xe3773f5ddacdd94c308372700b4bcc8d0ec0c7d106b65d66d1d8fd10f73fc78e2e83c4bf92e2aeafc44300457855eebb 0x607da218a7a77b32caf4f8747e776110ce0a2452604378560abb782e43c9cba4c95a7ee109eecdf884b8818fef1567df 0x40732065c984d9cfd4e84707e2dbc696f5fe9f2ca897ca61a6c7a8985c084c78a89e793565882ef14aacd2d9f736448a 0x1 0xe2a821eb1fafddd07ca7efbb190aea256b07768f7815faed463b1bd969ba4873ce8b74c9e0a336434300559dbf474271 0xb0974d0a5d465ad434d0a5808a2ebf97d446894ca3eb175e388a56bd02bd7b7e0405eda8a35dc6f490729b9e30e7999e 0x35874db497e930cca79c58e9a8ca117d1d7eeb879c8b9b9adde33fde5b13eb516910ba1ee9646e70b245bba0d5f28b75;
Dbl 0x82d0a60b8a093641f7bd6e9d94319c1d00d5b631cf2c0d0b1ad43fa4d756eb4c228e53cf838ea2fef81243c359c7d23c 0x1dc9c8ad0052c7c3e84faf67147f32fa34c4cf3e3bd1afb6739806bf62628182fe5727cac971576ecbfc4509055b7746 0xb31ad93c173c5cd35412d59fd2f22dc99934c366a875a56863d85752628c39014a765f92478e62cb65bb823c7abd086 0xc5ad76b0da7b11884833c308f6cc9992d9fbf892cae4adb05e40f65194dd460b302c9cf4c9715740f846bb3c72fa7775 0x0 (-0x1fbb933d12d8497335eed1e7585e829f5e49dd5404014c6da4eacf32a25a82ab99b35434043978686efd02b5096b9d6c0) 0x42d892b1f6a4a19c44651df4bb8a9cfd8a2915dce86df92cb779b6b1923972462d2899d1e4ead8f1be38e0b1b818d6ac 0x6503336da2a56924ad6c2d89ad24abe9ef1808cd3bc5ab4c508a4398abbc7113eba3b30dddb5937559c7eed6c51c3ef9;
Dbl 0xcfeba06430b2a2d33f1dca841fc9a04fa14f26da9cbb6bef04b7b72d3d786797db2a38c90bbf641e89734285b291327f 0x7e6bf349b767f68fcdd130d65308401aa137a50d1891a1dcd4f0d5674585fac517e6e9ffcfd7c8c9b26cc934c577e53 0xe6d6c71675752ba074b086167f9c5c4e9752fc7f51f1d1bf05c468308b292ae44e4c5286bae57c400610096fc73409ac 0x15e3097864dc485aeb729c59af4eaef88ab154ed6a489598a648f968ee0a21d6acd8b92acc73dae230d57875b903f8f3 0x0 0x7c8ee64af04d8186ad3a9a5b66d8c0077734c082698b02be0c308d05f5f7baaf1512ef65e5a2d0710ac1fe574493875 0xa8dee641e32faf5df042cbd81364c7f3f19b7bacbf80ba5a0486c55c2aca0b664cb18f359325c93b7ec9b7fa7d3a91de 0x11c6b9c881d77e57e740bd74acff4bc879752bf8c2377819d12e93323d2ab997a7adbaa4601c9dbfbde85a1707a4e3a5;
Dbl 0x8e5236bc4e0d639c3c10d3157e801465df0f29211e89669063637040d2350eff7b433d3ad062e1685ee11c65a61353ad 0xc20530b893342df62760150fa5e7075ff2cf4153c55d50b5f65264b1054ad6667b26ce45eb7f99c5ea0879f7da20c2b0 0x9acc743c3b2f6768f881f2c88d6b583393b67a0d7687edb9613730726048f48492d855fe0e181920f7f13be7910d2f1f 0x45e18e7c08425172d57cfdfdbf497ca1b74438fd0c2bc967d6fca8a56f0d8944d657a059117de2c6b11e529c7236bba2 0x1 0xffef3dd7a36008b89939f61bae74f5e44a13ff7ae37902af20b5b74d96a0d5eee9e12604b04cbdf77d838ab3ae1cd240 0x4f1f4f2002ecd68584358528dd18c9c2b8915297a0e434841288b46a93f4bbed48a803df152b3741dcb93f0f8fc81c6d 0x26d98e396b509c4ebdd8a05bceb301544e25744c4cf5f1b5bbb9934a71dd33008a7b703f2a2a3817e3f7e8427168e651;
Add 0x88e7cdda3f311ff31577d4a588cbeefbc6fd15f7495eaf96a2ccc5d6d00872095804ebf93d17a0fe82a25b493103eb4 0xd21e9785b8b7e7e297f7b6e849935e7d1da1a4bc13f64dab61d52834a9aac7defd7efddf0b41c1e34a3e84f1e2a026bb 0xa4993738311befa443f028dca8fd7b8899535e9194c4279ce9b865654220edfd67bf48b74679255ed81a17a455f5958e 0xefe69932da7c46138f685e275c53a8e2d52d9c97b167030a947d3c7c5ba00e867da7d065e03dd7e29fc9f506f7809bf4 0x1 0x177d6695d4a928be98ae4df0b2c659eb84b205f139b5b51d9c5b22d082f6ac2e2623dbe82c2a7059afb41bbf67aab7f9 0x0 0xc8fe38a9be877599235d3dadbfdf159e0259a3843b4634a88b55283caaa23b480c8cad756cffd59155de0348fb77ac 0x49371c9d08897fde4bef01bb0258cd860f5dada3a8c71a639862dc5726c58e0f4b78dd8c9afbaa5772c489915b4592 0x804bbb5f6f392268c0d6607bb492b22ab98451aad1f60ff625a6acbd48e8832428baba490abe066c8b522aadf90051d;
Dbl 0x852c8a4e359701a20103906960b8a0350d142fd5e65a68668ca7565a6a2e2b4c3b8ee878f11e6294b23043c4c99425b9 0x1b7849ff52831712cb3b83030c1ff065b29971de766546e787fc89899c5fe3292abc2d3ef7a32c09b7894fde445b580 0x1d115d2f598ddce601361b8bc02ca5308bc2f3f4f5dcb7036cb7f05d7c9e3576a6141a54684e290f66f5440c8d7ed2c0 0xd06712e5c38fb6716b43feb818d15f76c2780d9e2c8ff93ce9555f9c0fe4c9ac6ad33b0b1bc78f22aec5eff3fe5a713b 0x0 (-0x15a2222d8a01458647e59d7292770dc808ff125136c6f4f5e997d58e05d77101255ac7e2cb8fa2c40cca252154f890d74) 0x45474f751949bd4665bd94d79a2208f37d0f7682c65c46e25a425a2a547300443b7402a1adb84fb975520fe6840f0345 0x6c69cf1fd94f28f3567ec0f20d6cee51050a94b0050462f8e031338ec2a2ad0036ce630fa45bc20299408ce9389f0dab;
Dbl 0x21fbe318a2b0702b7374db1c2cba1f52fa5aac54dabdd610eda511eb3fc6145278e3bffcd3ad5de40ce2db59f2149033 0xb77d7057bb0ff8c671dc687384ef69a13c42e171267fd34b238cb89470acb68c01760a150910ac422c81d508a95287c1 0x9154e906ab6143807ed683eea2f0c740277b047f247647eeea2bed6c6885fc46867da17a5a97061ceed4a45c25679729 0x4a3a14483a1838aabad74fbcabd295651ee6b5acc0e6812354f31004291947a59135b8bde669867e6ef6bff63af32dbe 0x1 0x7aed5dcef7532458e330090533c9baee9742553b3967612c835b135a4f2e0c6a410ccaab00658917f7997600b6ac77d 0x482e86375b535caf85e661b3a49700a741ada24238bc570ccb5925ed02eebd9c1adbeb91e61eb2dc8251fdf2cac8898 0x9da8567d6e7f0a02685e515c7fe7679d55e4b466b3a8f64435897ed9c6977961e44702448df6cb5d729a8f5fbe16d0f;
Sub 0xc84eeec4561f4945488ea1a758973c6bb17f9d4b65d3679cb3582cab2266ead3758a68fc89cead57ed7293abac90a69b 0xccd95e76618966398f1ca7857935dea0b7920f67fc390f3cb989cb370300204c8391b171432db1fca5500aec68824565 0x9cbb9421b63acff17b01ea9f563b4eefb2479aa66be1d2c05c78c9ad262c8d34b1c230e26f6fa7259adb353c545c0494 0xeaa411e15986928ce2bfc0ee0bb98b0084b0d2092a46c40e6a02ed5d6dac963e7de458a2c5e2fa458731ca1d40d0425b 0x1 0xcf5a634fc84f38ee32aa15491cebc2cce25a60e9ad837b2c99576b3ee588c53ac7317b749bb82d5f22d76d036dc7d0a 0x0 0xa23e8c85a616d6942c24b044ee19baa685f3d193ed54fcc9d751d84279392334983b933963313cad91ffef7781d747b 0x9cbb6d6924e7044310b5218dabe0f8d3129682d599cf67f6bc8ae12c6635fe37d654163271b91936f0b06d83617d7604 0xb79886cdfdc7664a878a14d213d0026b7a98c760ed362963effb1011ed5fd4658fbba513906104d31a32f8fbb9746ca4;
Dbl 0x1d431ce916177d37ce6df977fc4f81c29ae68c4e16070420506962ac3461bf9a3951b25e98f070ac55ace0adf2ea077c 0x772f92ea9528f18ea5edb1dc472e6b7d8de222377e30fffe02ec912e4f443471da5a8f011326f8296faec2dc9a30325d 0x464f6deb581ba5b724b0b1555c074642b67784feb38eff3b00c29076e4f611e246f0d6532507927ae1f2126d2ed0d4e1 0x55a9cb8bcc6074aae92ef5a93207732329afed307e080f3eb69d3a08b3bbebdaa93722703006b9d335a1480fce521308 0x0 (-0x1c7ecc8343b27b90ff1787bd19b37eb25135bfc6c45458295a231ee8f0e5c0c5ab052418d69c4c18e29e6272117c9b9d8) 0x3584624f446b3b88c092880eb7bfb03e254a1ddd80a4d9858bb0780d228546e3c15ccaec9d242e0dc15281c4c4cb917 0x9cab12bacef6ab357c34d4377f683463cf68d3b01cbaf0b456cd1a99dc669bc8f1b30f1728d96cafa5251875f966995;
Dbl 0xf6a676f224804ebc03c5be29207f223285135ba6fb3628df5aff12de8efc07fa04909851d59cc6a0a13df2beb5cde467 0x28e504a8922ea13b96b818f1f6364bce28c7105f79a60cc622e55fa90c7ba14ecdadfae9d430e2906912ca885b7d1934 0xa4281a100d07ce570562b0c11b16fd2af2e1bf626dcb0e62f766069289b5e893f4ae192f4e2d8f2ccdb0a69f33d11c55 0x4e4a8e4202fa50530f3598ea50f81faf651b11d8048af337e007318542c893230cac94173ef61599069bf8543eb31929 0x0 (-0x1efbb2af0144bdfe5ede2c4e017d3bf7a0e83b6b44927bd023700802b84466451a806fc4b98c77c964390fe44f3cb3b6) 0xeda458d7d7720c66c373734eca3e69ebd9cbdb9a0344b1d0f7057690f590faca12e3a8889278e0388feb9d49511fdc7d 0x4b6e8d6c18e118a2b8cc3441db2821ac209e40f9e33a31870d433808a7c4c17a648f22e06521713196c6d06383554db7;
Add 0x66155e1eb1178e7f6214d65383a81191492a1f19173db0398fc224d445e276b40f3af00bbee5f3eb012e19ea3f0d4eb3 0x6b13ee0d4f5d621ec8971de0bc17e59e066c9cff493a7013d64d3b2f250242b82a7ac1576efdc880f03c259117fa9739 0x870ef689ebb996e6886e2df44dde079fbf2179a4b0b53a33e0c98b269590d48c4945efd7899236a2f52950b845f3d58f 0xbdd1169b42d13f1cce20fb113a1e6630225a7360306b9cb24c982479e7795e95a333399165331a0f78d6a4f8438281fa 0x1 0x7e5d3a85d3a39c04080651d303159e59baa9d4fcedfe712dc8ee1dc88a27771578ab088b14dbb9242ebe6c50e9070e7c 0x1 0x3263b16c8121a227a877505f8e8c56eeaece5de4f33af430cc7300939a7b203b2420fb0a61ffe760baef5f8d4c422542 0x28b508c908c261262bbb394f10bb18248383b4ac7227aa74bd9772f3e8b22e31d60f27cf02c64171ada315a3b58e29fb 0x4bb126f23f788b1d2053873b6f8f4a41fd1904f39928a9078d23ec3bee3de1a107d25e30ae27add7fe9819236237e416;
Dbl 0xc87ab3964d8a3a9871df5026ee58500c2647924a26bca98824b1b1f82456ce7323499742f06b44f00c03e6288edeb67a 0x47ebdde709aa115fea6eff9b3c0477a68bccb4d30774af96b3811c7a739129681e640fe349ba19e3ffb6d568be5b2923 0xd053e572a8724ed22f2110bc64e4552c94f25948234f499723363bf5e52102d3342ea284cf6213dbbf84cdadcf82b148 0x2328102645b350bede281e4580136df77a9fe82c41c5c07d22cc1eb4b17119500c16b1742543ae9cf0855028599f6e16 0x0 0x4d2bd95304d983c6f133151f4dde68013104534fa769e7501f679eb30a28dbb263e6604ca651ba8b4ae7d7476fe5ffc4 0x9cfff36a82656bfc4ea3c1dbe39211888854edb802414820c0e7cff726bc1c2641c5b8ab46af48589cc1b3ab98a6a571 0x1b88265f401b90330bba1a70b82827ebe2fe771e4d99220ab7f4e38a3f1218b32110d0be03272a363586890d5c246c5b;
Dbl 0x9c7e1f3a4a86d077878765327b0acac503b5d4cbcedcf0651f4445556c4974201be922f3cffbad97818eabe86ad41250 0x13ac471e9da13e69ae7b79be5d357b23a7cf33ee241af3a56b49be75f2bb6bbe161d2f4441b8020796291184be3bb0cd 0x5b0d14d50dee9500348f6a2730acef6dc7f9ae355dd9c7f448d2e1ef894f697568328eb369dc2645331301f6759d692a 0x343f96c86c08d2f63bf385dcdecefc82e3fd80e4e359bbf148375e0480d5bdaa0846e09f080217dc698dc3e4001f7856 0x0 0xc21579d6e16867e797d337714ecf88ae0137732544b7c8122f0586b07ddf1cb474ce4daff5b16607d6e0aba55a9dc358 0x5fa9f431cc04d619641c0d1d58c0f6b68082183ecf9c5fc51ad47066a167e6b61ee91cd8acfaf28e2c8d0690a522aa13 0x1ff07d8df15ae0ce5923b7b92346ad177ca1c5b6bd8b0d3e9f73a15f3866f2fcc608e3bbb047b2eae7a96220c19c7392;
Dbl 0xc198dfdc84d2c774e583603e67d0a0eceb9b5e644f33c6e5e496651786d69ed7d3b0ce3fcda942a724fd49edce32d7d4 0x1daa3f831e4bec6eb38467dd94b7580a3517a534621b1747a2da2970eaf1e6b5b847782cab63e5c11ebee7890e278f09 0x9ec771ff54c0b06c718e96b93e65749aa2fd79fa237326bc1e5fd94611e77fe01bb84ae2da213a714bd3beefc1da97c5 0xf602079b7f5551fafaf711e0c87e231972b78eb9c1ffdc5dc86f950507c985075dd5b71696541c46776a29fcb01421c3 0x1 0x852d64b51261742b466b5840f9c1e65ccaa8faa03fed9a82378a0cbf7be427b3aa878e71dfcc48e1596e47efee06d2e8 0x9267dcd519e57866e38f272221fcf781896f6a4d08bc6b8604cfb15b590fc974fd21c5b5547d7930f891cfab55d92913 0xba0a70106d558445f88f308260c5c1a38722bb248686a995162af162d75fbc2581782779ea7a8c235b0e9695fc5b4673;
Dbl 0x26ac19dd92dd2763eb601ec237b1e76f0238398e2b9d33e8c373d6979d0b7015e9f98889e34ea45651f89b5d9104bf9e 0xb01e8d92be656c0f79ca12f464372de713007aca97c93e63c89ebb89d17f5e7781ad3256a292c8c743ab3e6950fac464 0x1e55bb515eff71404dbe556e6eb1c3bafcd67a41d1e8d6c74e9858041f7854e65f7c937a794272a9eb243db1c162b794 0x6d8bb1f05fe6805f39ba54e930802a2322172a69ca51d8e3da3b6de71972883d369a45d508d11cf9db13a920bd2ccaa4 0x1 0x25a8a71a6ec5e6888effe91fd0142414e0388656cea096cd2a0cc64cfd4cba1ebff467fa9c703840c5b4f6d44187ddc4 0x5d78b608bf40754afed58c3288851baab2c999f8039b09ec7ec28fa7993d4f6b815f3d89b59d857b852dc79e4ecbcf2 0x108c6156b08e09bb6c209c4be391a5d661b0a4cb9a4018b6eef956354ea83d84bacc30e72dc2cdaa62fdd25b47d7e221;
Dbl 0x2712cbcbb3ebf33b02d5e0124a3a582081344e84313ee8f3155409e8bd71d8a4dd1f178b643a554cf93f6be1861cdb42 0xdf81223169dfc302cea3d18e0efedab53a2d68c017258e574646b889f260f77726368926e6edcb7b05d5b1e18b12e720 0xf12edef0ebcf42937860bf37a03a6a07b348013cc70cbfc3b6ce13a302852a7b5d988c1303bce6a3466cba1c2e63313e 0xd09d6b615485a90cab26416655385331d8d3120a80a3b00c825802ffdf1e66ff5b76a92ebba4fd4c3dd58c88c5e7dd43 0x1 (-0x1623b7f8067600b7a6cbd397b7eb02d6b10e864ece268dac95d4983aea21bffcb18ab1138bdc8830128b85c58b7720b23) 0x5f6bb795bb3e2b93990b60bc125f6c7d79d55a05559655858affb0e6e102567bc69af7bf74ebb207d39d2ca62ce72e4 0x1fd74c803450fb26f7f7a86362198e6ebe2601d43e9879628f9cdf57e88d6a0815633482845f3b766c5dcbb94a628c8c;
Add 0x6fa2d4d2efb2a1a1840c608e05205f43b17fcf98077ac822f2b25d47ed883aa13d01b933bef4599d04bf699f7ca9ce3c 0x33d26f3e51a63e81e798e245b81c26896ff0eea4ad0142cb0cd5a0d9ea119c86cc926cd9090a1dd579dd361decc17d1b 0x6bee74e5ebb9d72bd01f1e2dabbd98ab145c48c5ee55dbada5646322d7a91cf3ca0aa3064ff5be035869c6cb9375561b 0xabaeb2f318398480e70aef4856e2b42bca3c7a1b6a244b8c397117b0084f5af059a41c4ddde3ada58bf87bc39e516a05 0x0 0x34f9580eab54bdcb3ff20a6f1bde2d40cc102d5d8b7df2beec4f76a9700ccd3ed13396c92798a20ecb8153a9189cdc69 0x0 0x1719cf0238a24bdd1cb4658905aecc5658cadee32cd1dc452d591b76a9f55cd30400b0d6f47a70d371d7baeb4207fc43 0x30ae9c20f7c2510c9e2191873fa17c91acb050f92989766e83b93f1b0cd57bfb75b21ee0526799d7929cc025d8edd0e2 0x4addf2dec7964541cf45bcc5bdbe106822244ea01eddda142244a1cf92580a0060d00cd41e009bf73b8de4a1ba26a82d;
Dbl 0x5111a702363b68ee3c9a1e2d537e44c7f538f1beb60bcd5d9ebd253b61b4e3ab7bc13cdb6581d30756d6770157dea5a7 0x3b2c8874cd90db1052a181739480205f73fedaa5c5b28e94d995cc16504c4c95c7e415ac3ea0fc497c5876abd29365f5 0xcd1c1493f356eeb643555167c8670192c6294fc60583bdbf47f1428d3bd84da5a3d6861efaf3a6c95ed0539420656130 0xf8a5e6c98415637194f760d2239c0629fbf213fee74eb436333fd4c399c54ff004ae572bca69218bfd84bf731a2e1725 0x1 0x24e3388f6a5584d19585854af6d18db20eab5ca2fde54e35d7414cc9ae930612b85b745e7d7c154863891471a2a2fd4e 0x19ac2ce70190af11194f2868c105fca6b4fddbde6255f30b69475c5341f5c7e4361ed8f49ec70c2eee38ec987141ad3a 0x4ebda34075b27f7503dffd3d59aec317c21c99912ff604602fe02e52851ce22deece13890f15b58d9a70239745c8c528;
Dbl 0x417662dc695a526df33672a7cbce180e51add15eb4134c52c4a9b06909e088413eaa4cfbde6f3f4a13757d93730a7e91 0x650d29a7750a670fad576814b26a4d6693c6343c519599690e0ab6871318935e7b9905e0cca87ff17888bd61fd812d98 0xc13711aabfee573635b92946cf2ac7bc58726e30a2a47f433e069a6bd23f676ba18eb7b805a7f7d2ad0c64dfddf3 0xd61f5ecd58867400a54a195ee215d2f8e038a669741cf52bcb8b158f3d33b9364c4b0fca71f87c5803cfb94ad512385c 0x1 0x3fdd4ad1b3e1a73e66786683c5f08fe13bf565b6d951a0d1d9c33a382e827185f4edc1b31b704dc2152a715165a85d08 0x10bd54f336de7b8e3892ef16dee85e03af5dc70beed4f3c8e5e48154175229a64e2b4cf15a731879e41733703ac0eb61 0x36c0fc38337f6fa4bedeaa913c72d1c7c5afb3dcc3314267c9499e0c7aa2f96c434c82fbe48354ca97bb788a569e0b07;
Dbl 0x6703dfec78683859f3cdc65f8a5263e799e0091c8ec65dd9a5fc6e2a692bc7a71d6b94f952cbc36264d0a4f316d9de7b 0x447ff954610517f7fffbb7c0c49403c91e13d6e9ddb64a72b4360fcb51de4b987cdcc31286e1ae66ae8ac9bfe6232e39 0xc03e3fb4ec65459bbb445355a8bedd52ba443cdf010c8fd54c2194856d1c67de952c62aa7d71c5621da63436a34c19ff 0x208d305314054f17ad5bb053edd6499d75b25d5273df4ef659d4a6bbc13a47c5febc42ce45c6d18ac9fdf3a2175dff5f 0x0 (-0x77a98f2202e4c7b4f40ea03bc3df96832a2304fd4e280cec54a1a0ff7e40d4df21e7a9d15e0f3b448c079f27fc1a5cc5) 0x29741e3f4c4c83fd7f41c84fb49a38e57a913b3a6b413dba703322c24cd1f13de489172afc895fd2464e1da9cf45fa50 0xd194c920c97b9166e9c3d81c6b7985b189e4b6047c9a5120f95cab0d0ea0c016309e4d194eac94906caff9ea906e34d;
Sub 0xa7adb09e751ac30272caafe73e3d8b4b27bc623f1eba231b85f5f14425f67e4f35d1582b67a793787de24c33660f5a9d 0x9483876a72b611b6d3749a245f45c871971400a3d210f0758a56071a50d0e1c5ac4c96305297713226c2a136b9676d11 0xd0cb8b79a5f5f5e089f6f9093dc5fc44b91762fbc48174ce8e6f8a8649395cecae505e8160cceffa02078225572d9e98 0xaffc71e9ee4f06412c871d9c654e3b5786ffd6460ba559fd29e008b1010d69d1d0902ce1344a3d3487c8288a2cbbc127 0x1 0x99f82f31a27a12c07149f0a1d1735654aff69b87520eaeda5a3ecdeacf8a215f27d9d0b3c78c84fa74366b8873ad2381 0x1 0x64d95dbb339635206969905d1ec6c84987445fda5705a6102352b4cb216f9da4982d244e54582bf1a8b84c9ce9fd0842 0x6dd41246eccd73b251d1255a43c6d2cba565d798f502627ac62bae117985acc879d8aae6edc36289075a1b383787e1b8 0x73451553122b80759c7e0d8b7b08a410cf831a8ffe0b0af69a71bab2fd6d90c78d1cb00080a3233585b756d5ae238dac;
Dbl 0x3b7fd5f8e1a333a7abf8f17be64395b8d008082facf57d4fd742b1e1b7efc626a66d910b8a7ab26235ecb5620d35d159 0xfcb917e979a48fb59f287141c185e0258db6bafebd16edf25f3fc2989198629ed509a3263c71e031fd0d73c86ac837b0 0x3df1c66ab23d2c0b2af1fece4f2d238112486d04939b2b9304a849749c85c1dcf990eabe2209862307c5230197ba7618 0x97ca6f80f9118201344c28e29dbfe84c095d45a514fa02832b164481bf387f25d742f3091625910029b52d6f4e9f3560 0x1 (-0xa16aaf2db3e75e53e105446bb4f9cf26495bd183e6ba08478d129bf5e9ca7205a987ae8cc27665ae10127237a92c0450) 0xdd42c76b7c9332c10aac22fb77a7f22a86cb553b088e89ee90891b85aea9d336fd0a3429fcef8acb61ab25f798aa0e1 0x234773ff0b0e9d58b90bacd28cb4d9561d01df1e2349cc144f118926a6f1faad78bd3b1ba7abd394849a7528b21b2650;
Dbl 0xd8635d74b54c2b86cedda25a9d7ee21a77469fcc7be8d786b236d283de14fcb1776730ed3981ad26c9d8997b60784d06 0xd90c3e4e66246ac2066e07492d61f2f25937ce70c2242445ecb5e22f640e47c6f5c2aa7aded219047ca25f12b23fea56 0x5eac88399cfe75bd320f80582cb546cc515384170d0b67d7aa2a319a9f2dd5fa5ab375fc24113bafaa6f52d8ef9545d2 0x23acd99b138024f398ba69f89423ed33347eec8dfaf2c9ac7289e0692d8a1ad7df46f8ab5d9fc72d806b14b5b8884d5a 0x0 (-0x283beb1a8032d8fa8753eb6cf9948f30da0921aafb179b1348694374a5aab3073f78d99899cec8473e180e0ce90f0ae23) 0xb6e7d4465c52c34b4c6632137ca3b1e4a94058eecb695d2ac4b14acf1df496f68dec3a4eddbfd90a279b6224bb03bd92 0x1e27b0790e106d52473ce7ee3aa8992aefa67431ab47859368dd419edd20945ac9646842fe29133ac51799c132a9d9ce;
Dbl 0x74fc47ebc9fba2758b02e77b6b715fa78b73a6bf7911af947c478059da96a8dc0c31539eb4031aff22571631692af04e 0x9059ec93f435463da6373f428e7aee045fccedc07d9a4c6cd86ae667de8c94e3e7d030dd4961106a4f8ab5fdf9887e78 0x42eed1a12a803d22d73ac2f5d7629c41f1cf644879e836edebd99a3acf6c0cdbd854cf27db22c4d9a9c16cb18a3a9cc3 0x48b251ba71ef24846036c8069ee704edf96ae0b04489d7d9144afbc78581b2e30df2799d9571089a2d17a914b8b76bde 0x0 (-0x1d18a5251ed9d5abb6a798bca564ca2d96799612a5d67234673fc783ef7ba12deccf927d49036ee8571743f97c0484d4f) 0x357599cb5b7655d864dae2dcf5f7d92e1148927ccfa409f247e024ff5ced36b46b3d0bac551d0dc213b7c953a6ddfb60 0x213870fd58dfb6d7958239b86246540f06e12b9f6d3ca8937d47b695d2940f9dd3320a4f61dfe79764dc702b7c60e4f1;
Sub 0xb9eafadac17bc0987b70ee1326ff066096ace5ac1e8e9e4b190f4fab85e9a0513535c219d128eff41a87c4a65f4b0bca 0xfdea13e532f5e21e98ad1d7229dc5a816e29c6f6cd34dbb4680df34dc648efe3599d51e087977016500e34a243211b4d 0x89331acc72d1a8bdedbe8ee4b2d10f427a9cd28feceec5480bba7597486dbc7677b2626c78012bea34dc2bea37edcd00 0x926fd8aec13f641f0d8a21d0649e9382f1a326c9b06570b8705cf31a1843a4ff8e32defbc1c9a053ff7c815cb667632a 0x1 0xe5d2227135aa4106178578239b5a408ff1afb25df1f2b0d47e73a4875c386aaa92cd3e7e8a0be6fe153657c6871273c0 0x1 0xa6e7ce2ae3897e4130511d7a523fa0517d60b3ba0a940bf8dea6b85e6cd30d1e777f48c0f41a796fff9a5b7f925c15a3 0x8705763fb95e8f6c46548b8e443ebbb1a316035323ea10b467d2c25e4789097dc0334d551679a67f9a408f38da38a918 0x6a593d50b4e9bd18641c7b396e104969a59bd05db1e1bb270fdf592fa5eb403679d4ac3733ba1f8b60dda2e9c0035c9f;
Dbl 0x43922e91fd8d812acf6336acd5a522289823652f7642415c45c2405e73b50afdfe2ee1b3e517de1a8d679aa5663a59dd 0x27948cbe8dac2bb2fc324647dfdc897ba4179e3b719cffc395b820f2e26b33e9793e5f1139b6a857661ec7e4e13ec35c 0xa1ae993187f6fac377cd922a8a3b2ab5d804566f21aeb43b7d0d244d4d255394cef502db3832de90b43158015fd45ec5 0xd6558726a549b66b9c7ad72a49ffd105ca1228bb5b97dbf0d255d25ae3ddbbf9e05ef2cf4de0c7bee9ef6cbd61e257f1 0x0 (-0x2ab1c13d5c73bbd975c7ef839a9ebd171423b9842a2d581ac4b05f980a9861f391c06eb1b2ae6fd0306552ed9bcd3f288) 0x11d5d7d991b61163cd3b30559340e6541d9cce508d64957701f6dae4a2e144174c197a865c68825e940e7a8b73d1912d 0x3892c623ca500d30a342cf15d41943ac3fea4008f57c4d4e3e1316eaafc7e510d7eeb6b020971a4eb6154077742f77b8;
Dbl 0x4896aeb0de5dc2c5149ae4fc725e09e68f173830ac005c3b37fbf652db217daefeaac39215c4a661917735fa18cb04a9 0x8b87f685ed11ad24f3ae39d882739645f7fb5dc90ea5a8ab0ac33a19635530b154fceb3b268a13028ad80127cabe888a 0x39228136754e081691395e9b18c7d2bbc9da21b0bad411e010990b7cd1943dad79b26101961f142f4e1f3744b01555d 0x9c0c9638a09a7e8e08840c6f5d68f335ac1c407262f757188af4e6d97f160337244173d5132c9554db46c6be16803ad1 0x1 0x4954c030d91bc4735afd7bacdf179275c2986d7539447929ede791cf1d4e9e8db5bfc9f3d37e2c3fbdbb12ed63269313 0x14951af4ab8e3be91161bd762389dafe12519336e5f10a6dd8f4580ca27e6fe082c20a9ea98e47af8a3e22ae792057b1 0x2c3f641c50a763c6dfc7e859e90b099d24d6cfc9ef51dc9134f70b57df9d085dce9a1c9a9e3e36b4b762297b93889c29;
Sub 0x91904b1595d912460ae04a7ed2cf025a7708e2da4a0504b475d909c2db781179653264e0ce8968cd99615d7fa4abbe91 0x4900a639a7a4d1e4eecd730fa474a716b927a0e23be8d2b5f31949c57ad8eaea60da737b8440a16168e467a2822453c7 0xf7738d89e0e6b27f1dbbd18471087ba4b3ad6bc92367e5cebed76242b1ac62c2b0687a716381ef67cb3b88fcf64936db 0x4287504c456cdb4004e0c6c8ddfeef2f3ed3bce6d2bcd5f517a9f053e87c45c6f42277bfa24971a121f39985489a34c3 0x0 0xe1002c632e86a7ed64fc72b98f52e8d189de226682fe0d12b0cbf838e1010677fff9f8dc6734e9965083a2f058487dd2 0x1 0x7fefeb3b2add06ab1cdb2dacd04f11c319a4dde9df003c0e5dc5b51abc55f87d324ebddd0a3306677c848ade7a3443cb 0x52c4c663020e22870526c1ea32a3a5886bf49895475ce2a8e56ef00d08fb213558108becf27ffb06b12d32a9d3c758e7 0x25d4241b9ecacf325977e639e6bc33c9cafab3536b55c149d88ca271c777f3e9dba92d8d916cb7d0bca33f4a8488efc5;
Dbl 0x43b7eb0a26dbaf2373b2812a02a682a71985d94b8b28fd76dde526ef0521266acef0030add242e0afd50fefb6676f62a 0xde5ddf05d470b13c33d026fcfa4097ac28aa826e15209be592f675c13ca233c98e49f1dfdbae23398a47d450c71ea9bd 0x92e72b8c5ecee2f0bd8dd7b5fc801e16a1617e7fd73ba9d5269909e603020699f0f9df9dc1c46372db26041387e8ab89 0x6aa2c733d33420a8bafd4c12aa340f6a907d1e7426c836d06022d4043e36b71fd290819aa8927e27de9c9352bb05aa09 0x1 0x4475ed44643906ed45bd91787456e8cbe81a763d9316c3a43b6a021c183e07b2f780a6533d207529b94fa184bad10a34 0x11e9c92930a62f7f55d992830f5a9970857e205113d8514566863b377d8f28d32dfa965eee0433c4cf06242f77fa9267 0x1c3536669dbaa57cc0e0ae97e54477782d9a68c9df2377fa96e44a48de5159aa76048cec72a69a312f201d8167b956ea;
Dbl 0x37169f5387162158cff3c9223b518de4161e27b4feba87301337ca7d51d03065f536ece1f70a3fd90990edc7b34b7f72 0x49bf618e39c1518f7da6e130c4fa0b928b7c4ecfc37dfa24da81edf79d436794c92906c9930507c7fc719f8ffd648f94 0x90a818d10391a56fa5f29e9f20f9a3baf8f455f4f37a11523f0100cc4fa354553668d5c0139be954099bfae516e23c5f 0x949e7d779aaf5facb62945cc35468c199d2e339e51a2a1c0b87487c99f5ecc34c520eb1648a91b718dd634c0c9ba1a29 0x0 (-0x2043b8860e90bdebe8967ef4545d82518899ae14420adb76ba073b71fdce900f9616b0f94cd72833bda0467cdd12b736c) 0xbdaba75a98f973041acc9505e3b0f5350ab8f89f78fbd8593226e8d1d1cea688bbe4087abd9bc11d938fac23363944a 0x1ffb2f12683f5c9f3f7dd0eac3dad944efed913dac0b3d12d3a39af9875630b4310d44b8d6fce93d15a6430221edeaa6;
Dbl 0x77f3760049b6dc8370f62a6f16fd482897e9aeaea0a3bbb0fa27f18998b02f55cc3da4fd8432fde7af3653bdedcc71fa 0xe2a83d321240790be6960e8ab4f52983904ed0f923f44f325f54afe153365070bde5a86ecc8abb4e414e94b948770ba2 0x1a005519f6dca611666669ff334602999fa6b795897cb52c98facc0d1a17d8fe8d0e00404f1acdf241d53cd4c0bd143c 0x6717245c2780d8839710d2a61004e20efb2d7dd69f89aaf27b2d3e164a0d17230b435e59c67a4c79bb230ad7b4ed83f1 0x1 0x47d34d6b3b46d2ab9b18f2cde0eadbd3d8e009a568f6609ef10a48f725d2183290a39494f3d3285b7f7a60c783e24121 0x38343f3d7f78361d7d10474c04a6b6f9d098e468ca25819f2134bbaa872151b802243292922b2b8f501ec10c861182a6 0x304dcc6322481ac70649c03314e54b5144db379a17bbd8ef11c28bdc6f10e60d239b9c184961ec47a376e41f0f631641;
Add 0xf11616443629a7194cf34a943c8b75a1ce31c4346a9e7727c9b9c27a4728273a5f24a1dad3bdb0fa94e54c864ee9894b 0xc4f1f0d926689100188f708343b6eae3c3d494704e41d28b614944d795cc6d5a03c0335e3f4aa39034824da216346b39 0x2a00c1f069c1cf525911f7abdf81d75c92f53c160c9cab1ae95e88cd3e00eeb5cdf7fbb85eb66e7dfd7afb4c618bb225 0x1db64c58ebd7e80bce069e07713e3e9fcc7a3c88d5b27ca6fe0b6b09bd69e316ba2575108d4017be0ccc47173242a069 0x0 0x3820730f53b573d457e4476bc1d47c0f22319596984cb39a055d6e00d0e2263868e2b6110d3591e206fa3680d60100eb 0x0 0x34db63fd0f80df010f5a5cb81407711686cceaa61568d73964d08950a9b59e7bdd4c94ec488ba2097dc5dee38426fe04 0xe30a97d443a38742558a042c3d2d62e4f750ff1ae888d48781f87ea6db90890cb9d2f7e1cbbc06e2e29dfef3e8fa2599 0x1bfb2e1fdaefbb9618c9b89a2e4d6ae67a41714b0ea4b24d33444851f4132624be53632d29aea7f6e2ed6293c35a969e;
Dbl 0x1dccf7dad174dfb2a30e1fa25e04fb7c9225086ab55f7d89e32d617f3c764fd883e9c99cc8333c4b1324198fb4e2a6ff 0xf8fd272e94fd7f36050c92db447d4f5042bc4bad53c4d5f9ec7c3086cf2fec6bf31e49d7c1861b6ace340d6168668ec2 0xcf8a31c5bb91e7cc87239307bec6b8d694b02738eec16cfbc9aa8ff16b276f0a9c1e7f1c3daa4c6f0a9fa300183e364b 0xcbf4c9aa916b11ca1382dda7ff399b93811848c2fa7cfc9174cd1450c69c80ed10a1e9857dc48825664e4041adcddc76 0x1 (-0x1bcc2a9e0c764a738a188d1f0d5cb1dd60889a2ce2c2b48715da5f03b4e99add48c6f6bae51ebf23fd0b044e97876c9a6) 0x3781443882a482bebbccf2d54c5b40e50b132e6ee73f60e929964233d20bbb3d6faad88c51a940d41807974b5a3b333 0x17be07608a4c45ac645eb69a97ad14916c124d0a42294073b8cafbe3c7704b2d6d56f5563a9037f0cbcaf669449acae6;
Dbl 0x820bc65ca765d58b0be91e6ec8655a66639cf2e955bd4e91d4301d24d0769e7063f868dabfbd14aaf2eed082c831d790 0x75a6f74e9e763a712dec739d95934faa35b0cadbb0d9876f521c6e80fec6fe6760327da9c4fc8fdd425d7418f8d627e5 0x508b033cf6e41e17cca0e3fd5d6d2c7849d25a9270d9e4a71a263f0db63ef1f06a276fb709c629802f36849352c5e9c5 0x83562fdff68744c4d7201f3daee9ffa60d0b80d1a2eb4e8a9a5fc205d068ee0492ebcc2dfc898b8d8bd699486f9066dd 0x0 (-0x203a6f0b510fb3bbcd82bc5512ed85f19aea1cf1fe7f96ccc7caff7ca2dc3630c923117d3e149df7c04a096b5a749ad57) 0x420ff600bfad441bd706606be70f9f20fbdef0775b70bb4ab45ee202450e3dd49adeaa0e42978598708eca7f8f001469 0x42b7cec7fbb22daf2a6ca86fe5ba903ac4460bd05fb696c683c5f9e65badf40fee1c4d83cb36f706ed19caa80b19a8c0;
Dbl 0x5c880654bd281214537ada760c199f0f8f43a2448ba450859bc00cbfbbc7c88a687bbb45bb825bf4222306e650374efc 0xb70e690e53ab4f97d2a87d0b5b333e2e0d842a4c2e8341d2d76d9619ed278485221cac2bac83935680493678e1f4fdfd 0x5e888d2a68535ac7ed7ed39c69c057655f76fc76aa957554dbadf06cbd41cba4e7c929ce906e42d6e8594151fcbdd524 0xbe988e404acaead95b43f6923a60117c282ca08f8256459c7aaed867119f79e13e15d17d1878fc86c2143da116e129e7 0x1 (-0x67fc9ed7788164d5d73521ea9a5e94ff3e67e77bd83300a07338a93e3fc33ef3469378c2089f700d256cfac5e7838f50) 0x21720cd3a225dc7c608201c52be085e653ab2f0c88bf41e73b53d44a37eeb5d3ea32f3907d5d49e0f2de8a414afac5b7 0x44e418e157414d5db9b11f04cacce9e29c5a2504eb8f2cd373f04d3ee801ccd743990810cec755060cb6ccdcfe791d85;
Add 0x4a296403bff8265f4bea0e80f42c90de5e06031c995e9a16d0d1e40a15e47bfd5a876cbe58b627dc6a08d2a1f243192a 0x1019d1630ffe2773b2f7bd157ef31c95a57d4e81b62c64398ba87bce940025424079c380d67ec8f1d009f389284932dd 0x77266ed3b92b4c49bd406dec81d7668fcec9caadf494923a78acb4f27282cfbccc0391f0c99a08242117b18e6618c58 0xa6f497ab43ad28241fb0bff5dc4021986806dbca7856dd994bc51a4b59275f42e1a2e8aad604ca64b03f42efb9abcb20 0x0 0xc869eeb95204a6043f6b5ec681290b99f66eee9a2dba63a7d7654396ad35a4ccd19b9cded2e69ea45f4d8406f7ef346 0x0 0x3a0f06451e2af8b773d116d99dceab9be4214103190a1667cf24d5229ad8a536550c871f1ebe40d93deca70e3ec0749 0x157bf4835b41e1b3502934b266f3d4f2f08a53997541c32369325e1962dfff9bcb0e0ae934e9b97d63550ce9e63f00ad 0x305db23dc94ce4e977d9825c2b28e9e6f3b393d483e4402daced095434630ded67b63568886d16d2e24d49163cb9ee3c;
Dbl 0x287321b222bf0264ca0ae2cde72b2ea379a5eb2d542dbe876533fe369fbd7d5f003864fa836f67414d40a5b41e9e6c 0x6eb3955e4d2d9e430b4e2ae7a7c19c679f2b94dbfe22a958770647f256369fdb54104979a4865b74ba12ed8b3940a026 0x15d53a3a0d35687db84e5e82ae94cdde31d5e8b5de31824aa3321e165fab26386fb68b18fc58d2292b78ba1b1861995f 0xa1663c04c2d08930a7a9922dd731802e0651b9a5b809bae114a233dc3dc98565ec697a0631f86d7d15f705feef0892b6 0x1 (-0x3075be1ef5bf9e3d61ad88944d4feaae8a599944d0fc66775bd4829def0e9fd7c8483c8d35cd7f8bcbda6dc1bbbd1e8) 0x6642e4ef55651453aa5880f3aedc6a15b1e26f122f1a3c8dc4cde47c2c506c7c6e205bcb1855e3f134426798850 0x19808f8c314e724b52f288fdfb916f0d6a3b4f6a13145523e5911343c33ec7e1b46b799a3057a4e7012997b344ecef;
Dbl 0xb15b7b267d555124e61bbc7ebe958be39b39d89bb591b98bd66fcf409b111ca05f27e49d5904efada0bee3310d2a0c97 0x4b3007268ef7daf858cc1bb59c24e8f68c2b948b1334a45c2944234ee5729414444283d842342da12cb71d82d49746ac 0x9ee087be707366e2f04f54cf4e8f15f584a2af2aae668548c7a469b9f12669188662a634562294aeddb08bb47d8f1ca2 0x23838e37be35c34ab2820f320b9cb37113000050eaee04fc4dc224a370c40bc70fcdc5a162522dd38d5bd00864a9597a 0x0 (-0x715c01e8a7e30672756208f4301d2eae9d40f247576ea195a9ad964e5d34dcd4d17c4f66ec9d068e1c2e1eb0b9214529) 0x7adfa0fc01eb17162517ec1f41f44df47f7c43436e64caa5ad0bdec8135f5d80c77a147ae5dae411628d1682ceee05e7 0x189aa62da492c02e5097579f57245424ad59601bccf3fe4f9c214638898f8f2e711cded1433663641a4df78165d7370b;
Dbl 0x8b5bbec6823ed8467cb1086c464fc39a64ee46cc9c2909ea8dc3b38589c29d606c513c6009f76d7f9dac562ba5fb77ff 0xeb65bde593f4f9421535d135782f714dde28c427664643d1b51c0e3d4e99d3fdeb2dfe0abaa28337e7fd869e1bf89d26 0xef0182f972baf939d6af69b5a33252d0e5910a84319a21e515c1a61fb126643fd573e07b45985cc0e112504dc011e3aa 0x5fca4940fb02e1b643964a8023f577a8ae02d063acee608a7428151196d8c015591485cc8791aa6944b996e5b89ea985 0x1 0x6aba2c3b2ab20db890ef623dbf45c6f01ca55f4e66e10b0c7fe875977292b9af3a13dcfb7ada44fc03c58d10cdd9e3f1 0x4bdcc20cc0bc1acd5207f6364b2d931b1ab8a0ac7dd4aa4e1080ef2f04234058aa2fd61e20f3ec2da2ea18c388de1a7d 0x34252a10bbf2ea404537d0611fc105581452686c49b9afcab55ba6b647a49195fcc3473f47375446e3f3a804a86251d1;
Add 0x1fb5ab04dc0f8d4be401065dd73f542cd68cd124fea6c49ec701063697286056e5b369bf5ceed2f801b3402a95ed84e5 0x6a029b3a7815649b873f5ae2f96b62153d213c339bb5150116608cb923c16a2556f81145a673f43bd81f7636b49bcb8c 0x3a4fd73ff95b83eb320a42daf4d357b7b4136442f7a28d036dcdb2749a779b93fa8f9ae9c042acad9e684783d8460f42 0x816322ab1bdf94a68df676527ec40f38a10787f3ca912ed09ebb81842ad869d89435ecc5142e8efc0fde1067675cd19a 0x0 0x40ddf3c2d569f40a86840a16850ec3d9700b88c4da9ea8395b24cc5ccc45a9c5962b0bacfb4d59cbada92865a982926f 0x0 0x808e8c76da65a5a1f4628bad7397b2df7fe562d98c26227e5e87af5b0e6c234d82d8ad410e4d7fa0b548d270e169c00 0x3ed8056746a704a92f331c286207125c56f05568bef584bc0f8e2c6513628b9618ec91a8ba5ff59680e65675c0b7e90 0x1006d2b9e848ac631617c6d2edced5ac7014974a6620d7e57e5ba57254a36310aed7cd001d78b6edb4d90bff98ab0c2a;
Dbl 0x1f89c1801cf276b49050ff36d2a1c689eac35f52c9fb4f20d9c7fadd5ae0fe1d6778843013c0c93ddf22ef37d50f73ed 0x467fdbc081d8aa4ce1e7b66f2b41cc3931d75a2262dc49cedea68dc6e69a80fb87add45e12feb2044c1df873a9b8531 0x6e0364db1413a586e9d8f650e898dda9b8c5c43662e4992f1e9f8f17cde25a3e4b060085d36fe52cf25f7acdb028e1a9 0x659a9d7e6ff7d9f6b920df7c06b74551aa03c69175875064287623dcb557c2159e7d33ffc544091b935d96af7a00465b 0x0 (-0x755461fd02ffa748689f3ffa0c89ccc4b0d4410ea5a9e408b4b4339a2f10b5ab4a8fb77bc822a2e4ffc0f893090b8e87) 0x3e2a6fdb464200554eefa47057e0502e5dd596478ea07e7333c40447f2afda5e5fd06b442d1abbba3301127778e52e0 0xc84659d01c1252a010f216f12e9395e26042023a664d2a104ca7f410c46ee377515a9cc028a4d49cf11e8a0a03dedac;
Dbl 0xda2ebf52f0fd1e85dbe651adf6dcd6355819fbbf851a4d0ae69afca8071a874e55a4340d1bb7787ac183dd4ee957681d 0xaa7f249b36d64470456aa292b02f830c18fc4583442a8530229a9b5347fe864fa74713ddc20042ffdf4e65b7b78390ac 0x9320f7143dd22aabc9b89a990276e1aa6833398fa78cadfb83ed54d9b7e743917e15b56769ed977b6b546b4a0b8e552 0x59e8d920d147463488b3d8d4428499b77a21301ee2033f6ccb4fcd89266b21bf1133c9671f2fa820657379d08317f484 0x1 0xbb4bb6e99b92289052f12b79ab70fd0ac8879ebf21c4ac4e826a57214b6b417e24a0368e603a070213291018246b69d6 0xb9f3a662933a916beb2e294484eae1eb586643740f22972e9944872e1aa38ab8b7f18aaaa0312b7aa61b6f8274ad07c5 0x4ca0b3eed15486a43656c73e51c57324fc978a214b7af720884e4b1667ad26f27fc0fca38a1f30305060e4c07ef97407;
Dbl 0x82244f31fc8078b0f35519410d0cf4496187377ca0a06840dd8db96f9c4787f1dc7ea34dc4f296b9b673466678f4e8e9 0x9c3c2a86f9cbd37f0075861e2fc647191c40a1ea64a1554b9912b1186d94e72da2278e1c2b1bf1d2d3c179a98a7d354f 0x5ce37f5b155c669cc7f0dd0b95807d229ced4e5626268c5ee18db1cabeffeede9256e4c2f43a39b53c8f54e4c163941a 0xe42fa143d0a70f144f51c7480693bf2fcbba398df892fe48987ea3ada699f22051f85c196e4512d0b8cec0e2d065b5d 0x0 (-0x14b4ddfd69695bb467cdaadc5cc6161df33fabb6f6dee4626d6a1f49d6f3e66b3716607b7323f9f4d64dbda6ad7283497) 0x4228e5952301624f959f7596209fe1f4d0247e7916e1b41318a5ec47a341c16c6ef3a99be7139e0d32cded5bb9753296 0x74008d2e5e715ea85d4c5543dbd2c26ccd7f49cf4152cd96e7f6738e8765e989dc2796bd213567f390f39baf7e309c7;
Add 0x37799e8038f1b2ff5be5cd8927a3fdce0658cccb03a0713d80aa9469c386dba17a464a29c4a5b2a022bd9b0a0076a3c1 0x76367af32fe5b406e3b69a507c9ad55c42ee82aa798e85c31c3f92073131e8cbb71aa6450e5b26c68a44b375dd97bb26 0xa40cac27f5ad9bbc64342916f71fcdbdddb547f505edd3e1311b6fd39360205636c90900e20bd12c66237234488f2fcb 0x2605af93c9e61f781cbeebcdb32b71bcd9521f3feb12cf887cd31f113c62fe61eb0ce7d71cc0cb0c497cc633ace57a29 0x0 0xf1b460643b40ce4771c3beff3ca599a4ae236687d8f9b9b33f1b6f37eb40bcf44d249bbd6bc6c866996d1b7218072a97 0x1 0x3460949d7b8ca587a8b4d056806a8a348baba757d93be7cb0fe55b535e7f075e1d64b5b3300a1e3712c7fbc7e15a44e4 0xc057be24fd035e8463274db045a714748f80860adf924ac526ae1fb1db4a4ffd423ece928e3541851af76f37bdfa3ab 0x83d48f34ae50361281eaed763ae8037cbc0bf7ff6111ca2989deda8a96c6592b32ec981d3dffa015eadb8a945438ffc;
Dbl 0xe43b4cea09ab39ec4036a8d1c62f94c383a47a287628892c11f72ffa6ea75bd05b0c050396b9ef570d6c4e44006ea649 0xfbbd970f6128d58ce93dc84c0caa36fc54b5d7dbede15edb916514ef9458bc4ef1fcba17017d9fb9e10f6253d9f13969 0xab87cd2b9f7f162295f5f97576d33195189a1a88bf7d16ab171d7d24749a61f6d7d6f9cafd046b976bd5a61817f8b8a1 0x7a78e3e3cebcde79fa78d2046ff09e5fee38aace8bad26e78ada7d179cd92c7bc51dec2d0cdd870ca935512303a681bc 0x1 0x80bfc44124694f0331c902026fb922d21b1f4d33643f35b3e6cbc8d8d14ef7ecfbdfbf45c21d31bc22514bb09cd51723 0xcb79aebd6c353fccdd0e9c865d1bf7987829dc2051ae3109f88e65190dc986ca488fe70f25ed329dd845b5884261eee4 0x6d30099f4468f5c02037d1016b3cd5d68c5a092465c8426ecd127f1c34d8af6dad9360e280a9f0a9c62ff3469f2501d0;
Dbl 0xb390fbf8d1d66d171949f20246f79157885dd43f1e882a5e06ff900f1df87c115f7648ba68888b387cef0d84234c85a9 0xffb9c50d97ed9bd061f293c0dbcbf15adcbb9ed167a18649fecce63026777baec27df2fea6832626a13d3c934b451b5d 0x5eeccf10faecd1436c49bbe01525b85c7c64d81e57aebf04c3f207f92cd6a29dc08632c189275979c01702ac50760cee 0xfc03d201c93b39bc874b348b30de45a177fa390a863fd89192982ebf6de1409f2f7ec7175afa79933fd225c18eac1e0b 0x1 (-0x1f605c4861c58be56ac6f214271298952c9782e00553afd148d00c45cf0494d8b4e67432a8e10499172d73c26481d4762) 0x7df4127a655fcb1abcb855b1ba0919bdbb65b40f18e6bfa6de552e16447206a2e7193c449b252da80f7982252706849e 0xb0c5660a11e301c0b010d4a8125e7cbbf4f23e038692ad35f9122a8658c7c469cfb6fc3e525362bee300764960ef394c;
Sub 0xf1b37294413b665b38ddcad3adf59e3ba04c311d87522152d7d724b50fbdc0d066064452a48aefc26f892dd860544ea5 0xb966ca98bed95126d7aea9a875d128a57450f61a17dc77205b051f43d58d6290a5483f04c172ca68917c19f5bb60d22 0x260a9ec77d23e85f9999c39aef4c2c69b233d6ed2dac954c0b124627636c2a359392e0c95ab56769523c0b865cb72c10 0xf42358640c0006bdf477a926546eded085768f6fc623bed7f91c943be91ea585b8296f0e5a6bf98018257af3ef8f0e3b 0x0 0x5531faead9629698d340cca1e8ab43e66e9e636edbf9eab1a4d5a44fa42351766d7b00a0e72dfcba66e8de5ad8cf10a6 0x0 0x506fc54b2132e9937ac779f76d1cc07b4e16fa94d01e8d251d6da2dc3b87a029fdd140f2c46a01d10a4ce99b565fcc50 0xe4335b84916d6fbd4919edee247e6e24a3f7424e87cc194fa066ad6b88e8050d917b430ec8fbbf0e70e58a18a5003cdd 0xe68068321d41b0c057195fedfd1b5c61be32a6b2943b2b461611f9dd027895aef1e0e88967572615b053ede3e44712f7;
Dbl 0x2b19d23568b67f410d79d918937a212e6ced770499823c405e2e0d7ff19c8b6f4023c01522999999584a2bea9d02d014 0xb28e540add65bcfe5d0c28b1a2d297b3da20468966c8cf662855e7ebe312003db1b008c88410eb9dbe2a77883af3d7ca 0x5cdf8b1e11643da5a60f00edb3115511fe916f78edb1ac54022c47f2139236dbbae992b84525f553392ea9068d9c4af1 0x5908189eae87d814106ec1e8e48a7ad67d24c8d83ab4f80bdd5a6a085a46d5ea58a47b26c8064108caed4a1820c23557 0x1 0xb3c6cb50e82bc2b97ca677f8cbbe26c560c8d4024dfe23092d87417fe1122b3de3d16b511a3441b1475e05316948709 0x741af38ac376d54a467c5442fabd0ace76c1bc1e3d3c8a19ffd01c83f370f3a8326327c3d872406ea61db7480ef707e 0xefd57084619e298a5c46dd4e489982539b4005c94f73ff59c4dd8ec581d2659d237ccb24b64565a6ae83180ca229c35;
Dbl 0xd15c324759a892bf30360b8265a87fbc837a768d08362749ce665851ff3495145d92a63eca86579bafe817a002872594 0xc9872d47ede8c39a588b5ff44e848f7eb831af0c53a2b4d37c4ca6b09cb61136e936cd5ed49b1fcddea906f956b2c72c 0x7142e29697df13e4a13d081f2b0213736568c0c8df2c8e8589ba0135d7e2827ff33b5731daeaa2332d0d188f548caf82 0xe90726c2ef7cf9640480c8bd544e083521ee977d13261a92ac09413b465bef05c8793b68af75cbcfdf81708fe441109d 0x1 (-0xddb6cdb32d2bd787d067b640df739256fa0673d6ab3a8b970426319b597358f86cd19bc923e00dea4b544044026b8e7f) 0xab37ab4cad8da3ae5a5d9f8ee8c3006e3837c1bea0a30f147587fe1e58f540bfd615ae64bcf9b9504a065a4ad4fe5930 0xbe92c2fb6bbdda1a6d80b3c73b52b3e025dca67f6150e4a0e676f6be84f162a0642b881d9dda049ca46133868859aeaf;
Sub 0x2969c8fccfc6ab054451bf5e11f2283fec4cd09d4971227b9e9a2052de251dfffab3830087be24a9817e4d35d92a900 0x29208556c290a67c0a8a0d009dc9dedb78dfea03089a0153a9b188cb7ccb5ae56af8a7b3509e650fbcf1014da21eb786 0x86d4ae4f28923561a7528a8855315fcb5716f512f9bd7cd898fc6f22ef7d84dfc979712f85d35fa02ded95fcbb679fff 0xa066a7f12b581d1e4e0152f3b0bab0a33f51c5094b08b37fd29b1de51feab6517e3e25ab83fcbabe21b805abb4940fa6 0x0 0x1eff63252f5dbe62c9d998d55b63e20a4a1473a9c7fb193b225564d01a61e6fe9433db011545f661a454a8c0e43cbc75 0x0 0x503b5f6c0d9a5f3c0692ccb67a2b35505d861c3c70d2e196858bcd06140685f51a3fce1f359a07a7e59cb7d15380e2 0x6b30e1777bc12101d300a38dbbff2164b619dff3a1b2e9a1dbab265bc17cb73cad6519a654b2810a6771937b68969 0x19f2b8ef1c4d1b6b12fa2df4551be787cf7e766e03d1afccb3a509735187dbed2cc7bd8e1d02485adc689e516f3b981;
Dbl 0x2f5b9d8e1cbcbfd13bb7e56351e562aaa9e0928bace6545b62c3e2a348689302b304acc3a546f065de7ec70c9c3b1e01 0x3cc562c2daf7ea76c9eb950f7765bad15caaa05a9103f50ccfbec44086858b04e89d56adaf95d87e32576f12ad1d1769 0xaea943335691ecdb6b5c8ccf47b7c070d9a915e467f65d49076c8f66ff538047b1eb2f5cd8db8052746fabeeab331b77 0xec5b2293e798bc05409e77f12664240a1c3549a877960c46d9f2c48af645cfdf825b5104a1088c918a99923bf501a01c 0x1 0x1e104ca55ccda08260a6da4756594fda8fb2704007b1e401a4366b97b9e70204dd49b7e7184959290252078e15118a6b 0x8c2c4a3928d5ac29a933f756c269256a17b83dd2c8d7246aefcd65389df540b622a401b704f6be75b1543d1e1604a74 0x2bb951358b627cb1ad0bbb11a604b6f4cfa9b1ff1338aa7046c0483b7ebb55baecb969261c7f9fbf5092c2124a61d35a;
Dbl 0x9b906d0db72180710f7288ab7f1055d60235258cb3f8149370a718017c5426659181f9b8ae5da677fe58de53db800e2c 0x20b78323ad6772012a27395d1153644f98ce2405de28f7d69f25caeb2694c755ddccfde4f7128989a86dd50eeea7a65a 0xe82bfc7be0cbb6aa34dd1b7f7c3994e5f66c0482407d94c68e0e7d6b9708d58c31f840519b53c429be69198b351d23c7 0x1c0ddf9f2d9078759fc45bb266125681c3dc7c54b2dafd363098f9555ff0c3af0ad058c8b8834ef489e99a03be75710f 0x0 0xa8feaf2528fb669ea0017820fd6eec36360fc6191427b9d7e5b383f70e8542e3454338ab98c9fbccd953a3632c37a648 0x5e88358979a545e80bae4f00887da23e20c6af86d0c6969309ff1bb41f50da3899a682b3bdad4545a923d7fad418fd9c 0x110c3a26931cd266be3dc40158147102fdb5183e67c4f3c2b3cecf3c5ab4163f8f35b0f282c7cd3d86a3bac75b71feaa;
Dbl 0xbf9b8a2625ef793c2e6b27cfba334bcee0492cb12090699b3ee752ff12b7990c6c55d7eec574bf39200fbf20705bb37c 0xa799ce25b436de4405f4012cbf94a1e2f4260de53ee8ab71443d92d497878339cefdbc4678dc06165546c839f28a35fb 0x42531d48444f5004505661b2eccabb6b8a568d3baf863266a949cc6adc76ea90b631210d567cf2fd735a7060e34bc892 0x791db4fdf93093bd2433383051bec26ca4a816209f404c655ae838168f0d441b0ecf419d7e36837353270cd5fc1d705e 0x1 0x14f00959832e9dce5724fb07935ebac8e9901885834c6813b548da237514a7e0c279e012b127b9b8bbeb15a0ea4d19421 0x8f6976a5815a6d7a13901422795363448c1e8ac3fa8f3a1bda4d026af70ec67f52a4194eaec7ac9fb7650c1137dade9f 0x5aa6c062229d7beaeff92e4ec5c834a2ab46a1a7eb028ce76c6251300b8dce5d8f91a45f1347b188f1a6ca6e532ac4d1;
Dbl 0xe557cfbe0319db5a6ffca4f9e3ab9fe512b6ee8815de0c23440639133e33951be9edaed06ab97e5a3707d9404e34baa2 0x4910324b52f5457447585d4e7aa110dca4ec4597c9472ec209040be248feb6ba29f35cc709641e1e15f060f5c6454806 0x2cb07f84e08661e2045dedcd53fcea966b1beb1f84dbfb41824944885fbb067324108447040ba0a2029fb36339bfd88 0x5e899bda614198cfbe9ba3de44f391064f39c84d75a17caf3b3986f24e88cc7fa50a5f7f6f77e7f83f5667442c44edf5 0x0 (-0xd257e391b0eb1816b673dce3f02e5ea43dcd83b4637990f284852757b1768eb9fb8119cb4532047da3683413e0b45480) 0xcd7637c8cd47340f4ef995f8b3387297458ce447700cbe94d52648aa64b876c7275879eae72429dcf273b54a9979e578 0x54b185e5c08324f9e2e13ceb0a719b24be39ef8ce13ab3e8836794247e80358505cfd4eb432705c95777909802a12f10;
Dbl 0x174c44bb2780bcaa9f94e434d045b16b149bf1f0763282e2cfda187f8b5d7d73a62f1ac12346f8f86f3ec9f044d36e9c 0x68c2935c76751574140b3d43762569d31b260e1d92cc5364ef54c1454315de794ad866a1b9a92e38e9aac702cf280407 0x477af731e04899daa9c9ed5e6806aa089599a378431555a71e0cd89b27a47de67b4394299dd43b1ba27e08b63c2af0a4 0xe04d9eeedc803000334d200b047ba70989c6377a367adb5d19af4a9d05e8d83fdf1af6244fbaefe52c4599f3f71d43fe 0x1 (-0x3e0c93a48ea937637fba3103bcfca6a498d907b98157a427e6b3561e530b4d97252d26556a967483f1ac8fa493afbd57) 0x21ecb1282ac8c25ce6241ae6bd3a1973206cb511814fe992b7a155ddd36263867e6150be9eb4e5a0e1a500ef6c02503 0x1469cc8b3e4024bfbe29ad0ab3a8708934890fbc84e809cffad6a6cb2ff08af899af841bf6d113ffb3691b28c4605b64;
Add 0x981fde1890958455edb96d59504fd9ad5d20015281574ee93f7b8f5da58aed9b56fede0c3ad35a8b262520156842e1d6 0x689206977b6ac8b96b1e86ce5f97c85d5ed7d50192f3f900b937790baf568ab1b7d192bb9788a8a93eeb11d223eba460 0xb4a59524e7ace49783ff6759ed5207f877daa00bd1f2237c803799cf4b7a095bacf611e4af49803aa5410c052951904e 0x308cc4fb0a4cbaa8ecb675168da175bc4e391bffd85a64361d483993bf53c79306d3e62220858faabfb530ab3c5fa7 0x0 0xbe3ac939b7ea103c855976248304bc5ead08d2bb0724b7cc955d7f64c0c1b43ff5d57442fa5404ccaf5668cb5cb1f94f 0x1 0x710a95a1dea3559fde7fc2ae9024c92a44d379fe2db8e9c2cc593ded6f74991307ad49c1fec3a1e1c99e195763fe0b3b 0x5a65dbb4b6532e7ad6522960b34bbcbada0cf215f671308d845906176bc4d39e0450ac47ce4f04e2e12115344bf7d43a 0x1cd9a01fa3f3826b255d79df43a704c9d60d8c4ec4627656a2f3fc32208e8b43c6a1fc2e3bd1e80bfa36c4afe4c458;
Dbl 0xbfe4695c86b1c72ba7fca954242bb7230bedfe389dd974618949951946ed8e4aa622f529f5038550225ea3fea5840e56 0x4eb25c57b428f58202448d9ef93ed80d5e16822408a6944cb8dea0ee71b28c4fc5bf528861b7c564c561f940dcdf4d7a 0xdf24eaa1774262eb56169d727ee9262a160a5b0012873ddbded10ad226e8d6d9f35a37acc0e7ac10485f40e62df6d2d2 0x19dfaa3fc741d33768d9f92f6658f05000c152dd8a4d64b40058d81d3da3fe61f212403335d0e34479891891470c56e6 0x0 0x8eac863d59336ae7388f82426397f48435d7b5362c242b37826e21e1775d12e81b4b55eaa023919f2305fcbb4a5bef95 0x8fd6a103e92a3bccd675cddde58a168d4675db34bf30eb27413e1f2fca0674b155eac9f9d54799145bf7b8f97f391156 0x1364f5df4d49f5bf6f267bfc68c1908b0533a761164e5f84434c7b06f07cb0d906a56e4beb18444e3e4a7783bfca9ddc;
Dbl 0x3350a349bfeeb149ecd3852d5f6e3ab1a0d72f9b74f2e713bb4025e878ecc4a972be171abd627d4badcd3535b9f85681 0xf60a28dd990f422ca0ab48c1ddc03c825288f87d712b91256b94baca8b5c2e80123acab065519dc6aea2bd0dabe3e4b5 0x1fdca98557a695f07df8b1888be1302d5b82f332b321bafab0dd8b0117ac92cecdd41a16aee5046024974ed4ab0b8cf6 0x58a8337a1b19b355619944dd1b7e9b8b0b8d89a6977b03274d49e623e6565dceb38487d6fc66279e16bf3c3430fb68c4 0x1 0x10e1c39a97b3ac6135fb081979965f3418e3364049dd7a2c16b97cc97b2e68feb8a8cfbab31d9f7a3b0a14de22b64ac5 0xa493a75d8b80f7b3e5b961c2c3a9488ff5b3a46f370f97590859cd40cfc55f438ed48754d11e0ed358628df3c7792a8 0x11c56f5e0cc42c02fff3529101a09a8f3e80ef1449ab40544bfa4ac4f26487d164291619549ca007b7fa07269340bd04;
Add 0xd2014829275d8819a47d5b13cc17128501a497fa047a9a4cb35af589ffd3e53e310892077dc66faf62b36e62ae9038c1 0xaca1727238fb3fdbd3080fdef3b15e81bcd72da34e721c396fd70f0e6b21afa3dc6a6d58f467ee78797db3551ff91e73 0x8880d8c1ec86bb2269af8f887a0b640779c84ea4c3c444c589d07590657d45a8b46b6f8ca3e7bc796a4a47ebd134336 0x4968b66b60140250cda338e2ea0ede0095b1cada22b974ebfbbdabbc203a7edc35d05d5770e9af4e352509b88beac642 0x0 0x4b825ebada843cf511f981a2ea9f8f0de46bbd1ae583f58d119d78ea09080447bd37d852a5fc745a744e5ed5396dd9fe 0x0 0x3df15280741d80d729c4f87d695ba1c06bd68464cb18d23fa448ea5dc433c2baca65ec16ddc11d533cf514ef83c09619 0xac461a65293eeec760a298c85f7ab7dfa50dc958460eb93612d9b6a5e08aed2829f513cf2dd16f6b2ef32ccefc9e0c5e 0x3c3843be0b98fa0deacea156200342e5a346ebcf4a5695b973fabcc48014fc019ed35a2043bceb1c83b1a0ec2fa0e86a;
Dbl 0x1d0b2db26c60f2cad709762dcda3fbf252a66f0dadb8eec2ded39abb8b03eacffb768ed58006e4d265f55aa629fa3d3b 0x5c8f443e3f93dae1dae787f5106d60b2bf2d1ddc7a4a70c43e2a63500af001d21bcc52f976f085fc773a517934de977c 0xdbc443f68f7e192298500bfe211bc9299fe5743fdf8aba37d6cf9c8e8376c84287c33d4ecb8bacf9496a64d362a2ecef 0x50122e33f96764f9f82087e9e343fdcefdaa0fc6d427ab7531acabbe6031add1c09e1a5f7d77687c024361dbeb1a86f7 0x0 (-0x15b4c750148023db0d1d8f76c2ec8cc080ae937086c503cd7d72c2f198aabef72fc2cf34d890d7e4d2b6e19229a613fec) 0x34b88d7620b7dcbcc3582d50910a73f6704f2fe86d063c70cc272ed82403389bc6fe7574dda27a927c0602fe8efa8c9 0x9158e4ee025af1c207a75c56adc5c7f254c66d9c3bf8fe768a82be7fc48fed795e7a2e6f9d1b4cc60fc1d26423a3a38;
Dbl 0x8e9cc3f97c4acb9de1ab33a0f2e64934f2d36f8f5acae335377e6f9c1aae8514ea4bfb35a7e547f130a19ed33f98bfc9 0x926f7ba8270c5a5de29bd8beb709d62dfbf0c31b4348300d0b718efe43037e39c8d25401659c0b4c8b44e8b38d17e050 0xc69ff429cb25c709f1bc7fef309b601c4c9b8e4ea3a102cd2cf0e10ec4d3e1851f3c77d77eeb65a63a7f743724e37c84 0xca1fc89618878083f84baf3659638a84c33c5ac1370240b732b8d451c7ec839752f9fef711547aafebf568c6a7c6b72b 0x1 0x907507638c1fde75ec353a2590e488819009df2cf14dfd67e408a62636180588bbdd63457c9f559e9c4fc0965ee5dadf 0x4f72496833f87b8846d01ff495293945289410512d82f12d57690c445894853cd927ab5946da0e32270a443dba778377 0x7099675cade8fda521d4ae02f3a1042635fa8f2688c2cea1c9b43c5e27c140ea8412b3d389a8bef1113fda12334f83b0;
Add 0x644c4d5a5be6a67cd93fe46242d36ead17c5308bd5ae9f3a257ecb4750d7f54bee85f28c2b3de9660ee04fbca0be2202 0xc861b03be16d08127ea1d2f4289ed838bfb261acf85d7c878229f9a24f35dd583b5e78e5a257b1fdcd4e3f5ffc091534 0x9ef96016e8bac2efe5c5f0d0e729cdc80a369dd858ddb5d41afc5887da082e383a6efc435807b33662a1f0396cb7239d 0xca0dcb6c459f524b63fa05ca8e6afdf53c3e616e4aeab3858947955bf3cda0e08d73db1ac344594ebdf6a954910ecb1b 0x1 0xe7e7b1856881552653ea119fc3e928b98dd387b8b7a09474b17a4d1dc0af540073cf61a2a646e1e050f08a7c1aa1d598 0x1 0x5adba0335b876213246271524a6c91e754e2e5dde2d3fd9121b19eab64d304b0c092e321553eff3177faabf2598792f5 0x274bb32c9cd23e31e32cdd01e5ec7f19651a90990f80a8bc6d817f013fb54110ead850f96ebab252fe5497d9fc1a7837 0x4f299c9c26e8ef8f03480021a41266a30611f1f0b7b9da3c8515327d564ff2bf96b06bf58b79011f6898e5aeda7973eb;
Dbl 0x189c4e70254b99efbf820f7b1bbbbc21d8e76eaef699a52e64be57be462b034171d7c796b1e1b9b0df9aee16c4834546 0xb62191dadd38a149752eb0ae0eccbea3dffde1afffccd561dec4cfc1c1414b054ff8bc3cf1dda3cc51f909538d935fcf 0x2912a44a8512a507ff7db744629d51e1b8f96c8f896ffe9be498bee0a7f33827545c7609ffacea10817ca3b9d2733174 0x12401e61043466c90973224619d21994dfb47ffcf890a725a36529e08df49252eb65bca8b07a0e317b55360c6e75b565 0x0 (-0x1b7f976911e2612811283b39c48c225ffca4e942995deea439a5a3855148fc914b9ea25a3d71cdefceaafd12969cb642f) 0x25dae24b7b428db497d84b7a2dfd2d18f98e52e26b88181b83f8127a0324048053c7db9471c11398b68edbb5d42bb13 0x1c12783237afb719f5608d46d88f697dd55d7afdb62dee1bbdea57f8394c47acb941117c7eafcef2a35d36f2a678273;
Dbl 0xa87d1260b955258936b9fcc2f1007b1db16bb3a97b231bafdc0bb80f0a29068c1cf9a66b345173dc92275572b1be4673 0xb4553104b7f62d4cf37f75aed08a95e8ba09034862ae942cba58e13f73980c042d9a05f0045695b46f9d3716cb0218ad 0x796dbf68d419d8183070b26b21e3de506c9e29ecbc4719d292346cfcce0f45ee5f8de32ca700b27aabcbd406808076be 0x1cc60d6254273fc81af3aff3e4228bb25f4de679d1e4135246bee824da93f01225eb64ced870e17e25bd23cc2914722 0x0 (-0x14eaaa5a2783d43a6c67c5698bf95cfa6fc88f1887271be40f189042e97510005febcb342342c66d7934a6b004dfa0218) 0x6ee46539e7067d063f232c8e297112590123be886667a4dc004263beea3288ed366f4d4bb7b22b0186ef431c3a11c0a2 0x12f0078ddc47797654226da7fbdad4b355f3a706d959fc19f069e1842bf5eaed9830abd52e391dd20710007e50167ec;
Dbl 0x237b42db1bbafacc2fb5402f331694f80c2e761ebda2187a4619ad66b3aa9df862fc68fd40c66ba376a5599243e47062 0xb65b9a99e434d47e48170bb76c721e60141e560264d10582a838a97d82a93aea4e0775a1273788df812f7e64f9569162 0xb5ec719338e6f4890acb4d36337dfb9ad9cdda9f3f50f000dda47727d72f457384c9f4852bb1c26dd0f18b160e4af258 0xfdf9966ad3c158ceab6869f764187788a5eaad45fddd8eaa122037c1f0eed118df92904ddd1f0cd4ee6db8b2d1ab874a 0x1 (-0x15b6eca9fa02482a79b07cf7851047e45f20188eb9048cdbb1ebd709d4e764aa17efe0b2ad4cf87c067737b3577727ac0) 0x4eaefa139977c15b37cc32423006a7d539eb8c22f580d42183e5f1add2acef6af30169d35cf9ff9b4d51756e374dd38 0x233368cf99153809c917f52b5abead6c3990f2c4641f355e00b66ee49936067a3d2e2f804bbfb56bc9472a4e64093ec2;
Dbl 0x7e8f2f9aaadc11b13f40398847e13003ea2608cd239d8e495c4af7cac7766fe714899421695e0970b6683f22f78196d9 0x42cb20be74f2c3a5e920f0b48416f0a2c8f99590fe1258fc12db55abece015ad259072c6edca941fb3db6455f1825f7f 0xd1130f333b57ef263221106305b541d7c240c3ba617785e179ba22c3d0892313475962e1984b6fd57943374ccac454a8 0x739079db6f4210d85ef61b02e85b2dbd4b24c07166beac86955d53d195c9253d287702da396cf4bfcd541a0f07d431e3 0x0 (-0xd1d2e031d2422f2cdd9cc5a7cf8487fe9224f7e2e6368b44cf2616fff9aa9c9b163a92d42b7512b096c525652e857ca7) 0x3e9142f277d5ab750f954589ed46431d99332f145d276a52f44a267dddb2e991161e67609b857cbcea8ead1dc69a7e52 0x3921bf2b6abf8ab1026ee382745de5a777fdc552fbf63b1d7eeaceaaa4f54cbda39d025573af6960246aad6eb892fb95;
Sub 0xbc3d61347c4346e3468862443f886dc71b020df849d2b492f991bd9ede3789543f39e0c32d64310fb619a881b4bdafce 0x73cf2c51033c41e8d1c08a325ff8733c4e0d88a38fbe11681d0a831e6599d9003b49857ab360dd682ec2f6bcf3bd9a6f 0xfd5749bc9150f9a93a2ea3e1df7a795a337a64057a2b02ea2e8f6549c842f1d65fc7fa1f0c0629dd3fa1736cb510131b 0xcefbf46d71b681bd17606682241e7d667aec0ced6e544793f5d0d28d87463cabea46ed4b3a69b6b785186d99fdc4c50f 0x1 0x9843569bb667be6e5a6f299590f6432e5adc5a2e726abd63b8e413cb6a8beb73d08d80682e756ab37987061e7f0c54c7 0x1 0x6ff5f576b875e00c756292f3989ba7e4a74152d7820b17f0f384a3e10b9698a6331cc2be46d251633672e94d2ee321e6 0x8a6a357c8e6ed91b4b4633756ea26b0e3f7b40c95d849ec03e6a0fb9f40160301d9050ffe4cc3da3da009ac998cebae1 0x9832a82184d9adbbaa745b66f72d2337ba586ef7635744c1b017009b17d41bbcdf6d7aee95723d4191f6efa3c0b594b1;
Dbl 0x1f6b8e8f0d9cef7f843eeb252fefb916bbbb97c23d4a075652a1b6a888d38cc593703912e9bc930c9eade84c796d19e4 0x2536d73420e9f59ecbe2f1f6f0c53c8eb2cc7c56a5792f553e33a26564ceed795e80ce3e604557df903e658541884580 0x8ac7cd2c7bedb076d54c88b79685310ccce384c9fcdd90c1550ff3d6851883df4bb2e8efa2bf923c9f0750ea26234ee6 0x4e98551ce2524c4a05dd983b6f3336ad9b410c4cea44e212ded6e0b900caeb86dcc8b73c531b85889e849137b23554ef 0x0 (-0x5efb57712bafd25051c77d9af1f8d55d442ee044a521b3c232503078cbcc3df48a2ccf6bfb120b630ff1a493162c19b8) 0x3db39b72044663b665e213ed4c0fef40b9cd28de4cddc2ef62732b3ed680607945fb3e1dab3daec008c89f4923d274e 0x9a577be7cf60afc9eaa1b46228b17bcb3d91836a59303e584ca382614cc60c5717de26d358ca8d53fcb7fabcda56625;
Dbl 0x565648564849b7c649c8132a81ea880f7c1184cadfc527917a5d50f48d4ea24da12b5dc91e8fb05f5f4fd785a97741fa 0xda44d1797753d5e1fd84b902d761a1c372a3a1b8f4219e7cec58257ee0869f9122733a2e855ce6eef8fee999910c3c87 0xe3132814af49e85a9c2bcc3b5fec1fc7ebf83093abcde3d8a832f603771db4f6e373e551013de2805bd4112ae6b86711 0x4af205baa9961fbcce5e38f419639acb4028da9db15790d851db7ce684484de73c0d940edae870f0973f7becb07c08f8 0x1 0x4d6118a7fbefcdaa6046023da34f72f04af775967cf1a431abad9284766b4e31798f1ea8889a703254cba0984fbfdac5 0x1d1e15aea6fabebed01c8ea169915c962159684382ff73a3833c4cb0f08de36e0210c2a6e09e69b896f46d9898afdf63 0x19469067f5c179ec78ebc6e9b43c5887b020127c6048d96df61dc359ae353faae59f16afabd9c3b9f688637c522bfbc7;
Dbl 0xb4bc3f70d280221e12f6e36c7b661c5dcbcc835eeb96e53483804da8f59cac330f6ed78c0d126ecfdd38870b2aeede3e 0x8dd561fa7553524a6442b5fd41be9d61cdd5074e8dea769680545b0a7be1d76e1a0924acd8db4071e0f7a70369ac99ef 0x19af82700808e826ad2b17b014f2a8066106681fd2fe7452f8430ab378f869a6fec27e657bbc54d4395a39a8a4607bc3 0x4c6f6f7f020083979942030595a30461a4ce9a6a663727e66c03ca7464a4c823086a1581ac81a67d18074296275fa298 0x0 (-0xedaaf0bcf0afd0b95d05e4582f10d21e38c57d21d3d30c2725b1edb423b9b35d7d34b537edf23291ec1ae034d0c8baac) 0x7f9943a3e572158054d62a302a8f3e193a469a6ed5d1dc293c071e29c15c983b9d91919a1a979b1c1d43390d378d7bf9 0x35f68f2c4ab88953f25fbfd22be73036541c9aee193de1a6be2450ca265b73fec4ab469fd4f61854fe253636f99fb204;
Dbl 0x3a3beeb55b0d7c5000910d7b591bbc951012faeaab3f6ffd93601b4e1d3abd096e5a403af533e84624e51a8b45333810 0x5b247f89bdd4128cab9d50303a29595c39553962d727fec04a8730d1aea8f7b0b258467ffc4a6f0635b09637fee80b60 0x6ec174abd97b96ae8ec9838774ee455a3d45774d4053e155adedf38c7483290f5d43116a7f24645ef2a7a68dd806bddf 0x32b0e270b77f3fbdb8a565cd07954405947fcdebb6c277d635cd2a38cd38dfbd67b0de2cdc90d16bab4710cb6ac48e8f 0x0 (-0xe00eb176a24a5b94bb823abd355eb83f19f744e250c5c235a5456ce326dc181864f121b89918e953e2bf382b64c02100) 0xd3f3632136fca5281bb1e3d5a4ed635fb74d99bfa2eed3093ccd865cbafaf99152cf723b983d6955ae35aa4cf9a3e3e 0xb87f15615298f25cccf1c118d70956827c0da0ba9297d50ada08e3a813faa3b460d2046679e7daa0dea2f9cdf7208b2;
Dbl 0x1ba7008eced7804b5f73366d02836cb6ac4a68dfc20324a3807f8009c8e3d1b005c471c9d80db57c0ec28d4cee7e1ad 0x27c62b206db280030868bb4473a8963fb34b2692b45767ba736453a55950b34f0783415650d9e0a3795959bf0fc80f81 0x3336f3abbd5b800097339dab4772bf7083f967dcfe69614ccc4b27ac6661e529cfa736115324a9e4de3c08795c0d5ba1 0x335e546950219289a33494ebc680c31c860a12d022d09705d722dd2c55584461aad50529ab708e62bc573c78ef1ffbdf 0x0 (-0x5fda12a8411986e8bac5171a00cc437d614738f1208b15330509a7fa20cdba34daa915baa655207c7de7bd7b03cc7169) 0x2fca70fd9f3a1e366aab14bf11496164b246e33809d9f64fc435034dcf2acc307c1f89bde2342146545c394709758 0x58c758cd3fac8a97b8b1e0166748639de23d6c97893a9955a362e0520525481e08a6e407c39fab4bb17cb9c6dee4cd;
Sub 0xbc0d18501f9e6c1a6ee974ea267f4847b28d60a4a342c9fec5f4fce08f1a10ae397509b8b5ecd4f6aaccacf2f1bfa385 0x80b3af42968e571709f09ae7d8ecb4074112143c3941fb42db39a5c6b08d4cdafbb2c2bb46104acfca80249624300acd 0xb16e81a26850453f9082f2cc0b9dbe643f8d5d8eb3055f3156a0bc8087843e33a29b33ca77c88e23b81b7ecdedcfabb4 0xa7127bddd72428ebfe78205c9abbe238723912567b156c77982aaddea8c366730bd07e9a0ac995d3aed93529eb9804b3 0x1 0x7d3e60fdaf277acb79b6f4258087e8cb452deb3028afcc22196d11c4d6fc8915b2804ef79184b7373f04fb879d5204c9 0x1 0x5c00374a45910a02eddcc320197240c65ab7d13bf300c74074688d596bd45eb9425ba6b0c20f3ccb29e4e9342d57f294 0x8a233c6128e303df48c66cf6e54b97734b1b84a0c84842f8ef33db3bbe88a65658cbd5119e2ebcf29b651dafd38581ec 0x7aba1ec53a489d575e7baf629ecfd9fbac9fd46f37c374af23e9ab5fcee00b7e4a7796e81cca0a35f06b3cc614579d56;
Dbl 0xaed1f4d45bc7d0f072011c584564598ba15a6b5a3a9fd7502ed146fa685f9988fb339546d9247d33188e224ed8fa2d8b 0xceb87ed760d31c48c5fb16e306bfd3657b19339b44b2901bd5a2c177aa715bbddb509f8e4af80f54664b3c2fd158c5b0 0x5318894403a9a9a8c279e95bbc7763378fa5fc25943002c7c686ff85da5a7e707773f7259e46988947b5cea1a2c9f283 0xb1fb306b35bb3ace43f58404d22ce0a1c5f8e0a0f48f6b270596e44f061bf11c2062232bfb183b7b6434e86752d7451c 0x1 0x3038b9e6055e50b8e83bf02302795475f7213a94d9a1d23763c4570462b52af844bfd14a1a8033f8731c5996c28c3b00 0x7762150259a6fb670db7ba68a7ba9106d3b5a79b0e8215eda9de397b7026657b10b877a94fde82b38ec669218e22b1d1 0x798ab33274059d8e29371a9ea5f94313f26a3ce771c58cb9ac1759d53bcc6046ba20c38c0f206012fe5cd0b7a1392c03;
Dbl 0xb9de70106df524e05c98ada86b6346c9a2a2d77a89a12315a003c8ab284dfd129fbd6d842062a7329259d4e6150630c6 0xf61605ce03b4d1dc5120461fa3a16e09e5d22af5a8b655fb175e333e81c38a6c7589d86731034621a111fc10a337833d 0x2d127ccbb2442fcd4bc13e830e29bb48fff85cbfbcd514d208aec0f3d033e5a8a551248220754f66754e1adfa3679fbd 0xd8a279095d1e4a6c74dad0c3631e655b954708a59bfc3a20be448e3928add15065c6c72619f4c932c53940202e214272 0x1 (-0x17c1e75991b06b58bd2829ad3562e6ec8bb0d202ff06dfc42aee3cdffd735c49cf986e577ef4da863665f7cc9c27f37a7) 0x86f33f3e4c7965bca918dd026ff3ee4d6a74287c6b683e6bca4c3f24598cefe92699eb2295fb85e119b111fa77563579 0x9d49a531b691ed9b851a6467f5e9acf118f32a817c3db65b6a3cab8a28d00f3e9db84c07eac503a4aaf92c647356ce14;
Sub 0xf2ffc42b1ca8cc4912b9ee76c9eaadbb9481d4f72cef9c9f46a2faf56fcd4d838491ec43a0aa1ce296b70826ef16dfeb 0xb5986eaf17dfff36e2c972ca190ceadd0f6efe42dd6da1e52d7cca5deae420d00c62bdcda82fd6055ce08f9cbf606686 0x373bedeb38959b42fe0fc3b3f45cd4cb489de145fb50325cb83ed82a0b8b99e099b95c42be6c35ac2468de9ce7dfe263 0x407d971eebd4d2a56e56d3558a94832cd6632cb2cb48b415e9e168e096df699c69271a9988d3701c44316c73e3d71cb7 0x0 0x4b8e3bab4529cca4c26e7f00b080c09577b4ef931d0eba62bd66f15dff6f60342086e60971ae1cb566bd9dd830c17886 0x0 0x47b7f0faf603eef80335f9c937fa4dd9f8c06f1a3061ca6664efa61d777956c792ac8786474e90018dda6d7f7537511b 0xe6a88e69e66445a63db4b6776507bdfaeadf41d9bcb7d822f38458c2b165891df8d174803bf9276d3506babecaceb2c1 0x3d37275fc6c06947ce27786f9ef3bdecaf1b46f7782cbf4616d10c37d5da3abec8aba29bb007cd0fd5a1d14fb212bd23;
Dbl 0x328d7691f04f0d7d16b93e09dedfe17249bef10c2658847049667b463e43b84a43919c02b5e450092ef76c3316a69362 0x8e388580a54e04143f25eedc1432b60c136f778e03cd10a7be32557cf6d2578e32d458dbac188ce48239e4730fb809d0 0xcc6f573b8b5dceedac2f772a5bde93f1fae8305a3a25d116ff0da8b9dc34206e3042907bbe83c7061739484efec93cfe 0x275fe92e7291fb22a3a383ee04da34d0fbff86b4d9a0913d6f4a74e0f411c941d98e64f1fc174920daa6ab29afa85cb6 0x0 (-0x16ca241b7767c7e7f519544e197fc6fb92d495402ca7caa57a3c928ead5e3addc33e61e648fc720e544e27cb93d1ddb63) 0x9fb907cd58c7514b43c4ea4937da368a959d9d014d3c3ed1be85e947c24d88f9b753f49204b969546abb2403e872558 0x7c67d9b28ba2cd9e16470c0c9244ccf6aa9d15271e4f0574f7598ed9c54374115cee6e91fe0a9474d1f316838f51fb5;
Dbl 0xe4c1905f53d42e28c3766d65b56a2fa329571cfcf78bafe07a607b1eacb01587a2f0f57ecaecf84b3d88776c8fd003a5 0x8797abd0fabc44428172222f75d04a115fde2b2d4750f2d0204a7d1fe895d061788c380c1f42cfbc786ad672c20ada95 0x3beb64c9646d3e91f67f11945323373fc3722b145c58deebd12c9e63bf1675d4a6598fbaa9f264e3242ee5193f21988a 0x6a0d9afaa91bfd1bdb3ccac9e626bfab3914c60bc7c1dd79de7d85d0e3c872cba4820cf8cd5bd2809cf0e004dad2f3b 0x0 0x80533818ead2aa837314c1036b0325921b326f43b7857c43f251d4f03b7e351e054cf5568308c03328ddf74a6a8a4791 0xcc695b84ce79b9f43c7d0f5f560d805bedb61bc685dd6e6bbd6eac4d2c28d6139e67978ac7ddcb3e8f2bbee49f4da5dc 0x5ec44e183a8a3d4e125fd288a3af69adc81df44ce264a0ae0217d3c4b66d5316907ecdae2a83afa5498a5d1d0cdb381;
Dbl 0x4e1b2f9467bbd9920cc1bfdbfd14996d044a884ad9033ed9b56d18cfd0395cc49c4316f53d697921e4ee326c7e1e60fc 0xd6fd78ac9e1de3a788cb897cfc00bd10aa8d0642954392a51d36f61788865434dc6363df5fe57c8ca6d2ddf2862ce29 0xbeea821af198c179e5a6f7efb71cfae50fa9fd62a8cab38540b2f4c0f34f6ee34b866562ab307d32038679eea242fd41 0x7a27d44630da660808e56997a6103e4055355ac91dfcb9a5ce770dbe700d6b1e2ac601ce294477f3adfda89399a80c6c 0x0 (-0xb2e3c7dfc1760332a4662784d3f7aa4795a772c94956245f653d7292dd0747db955d7622ebc63c6a3e113db22e117f88) 0x17d493e1815c2e53f9b4a64185a4058551b2968d9fca6b85e883b810a1d75be0f4454b1603b0c822bdb73654bcaa8b43 0x25451b94e6c8f6fd4d37bc335e846010a691908ccd98e895514e0ae5533afb9c362bd581d285f4fef8cce239fea7db7b;
Dbl 0xa68b326de1ada1ca72e0e9f95cfe5201a2d2f276e3087b702f7c4023e9545f0e9c00164e29c60bfab41a645908702ee4 0x68b279c7a85095314d19bc4979cb5046290e9104d543b16357680cd9215cee8c85e559bc2864e4f093c78a51447b5eb4 0xe40a1f3b74dcf665e090de3469b6dd3ad1022fc7950b2bddd045511db39b080fbacd6898efb6d06ddb508a9eb8917228 0xa4bd5dc3219149092b72fc4e55f4bb8ae19a3f5f541087c6fa6b6288572b76b5c7e0dc80cd9972d836a5a38ee3e76f74 0x1 0xf64a185990b1b4bcc73598e877309027a4390e22d9a537878dad386e4f663106f9aad46a3e71e8a612cb66db25078fe8 0x6c58d1164def5bb206d5f71d18205910aad392e145dbea311a28ae1720b8a896b6657aa06bd7784fc4923766452a3ff6 0x6b2c5e1222e2a36081f62ee5c7857e00f8cd9a2cdad265cad8cae8632cc3619adc3d61d126feb52e4d72005f67ee5419;
Sub 0x207008a1361f40c945e58699923c90c4746925c1bcaf28257770971e1d3a4235223961f61290604807d9e4925d9853c3 0x73af05578c8d1b5d684228ec15d869f2f874ddc9cdb57404e81da202ce84c48bacd2ecfda13c021afd1cbce07d07032a 0xfda685062279e3a3f1cbe1db4df21bcc8178d7eb892194b2d151e5ce58ce263292bfc106d370cb1591f02c57cbbb0810 0xf50374701bc379d3e4d7935d63f2e6533099b33b078e3d5e6f4a6ad652d829ffd9126cbd8728e2d596aacd71c7745b89 0x1 0xbe2aafa4e9c58ff9be67f52a86aaa2d1baf155a2499c15cafd70caf89f08c45330e2675d690fbb8459732c19d20553fc 0x1 0x18188f0a8be8cecba470c5df9d9b392004169a6955a171606f16e833410c81a2d73051fba90fbbe3dc0b8c872b91d394 0x41c332fdae1a4721463cf2a18ad030e7ded2a2f31d6007b73b0096de59256ff25d227bf8a36c919da78218af300660c 0x1f0ba8535b20f41b9a33f4c715243aafed6940d67e0e995eae859c12d01378d2000ab8e81cacf2befe28c104bea555dd;
Dbl 0x6ac530cea56df6474b02d9052e54b445260248474d7b85a35aaf933073a9c0917085e30462409b9010d7b338047c1e8b 0x11ade3bec7f0f49ec5c507e9ebfd2c8551eb133312c57f85d3a495bd3c3f396cde873c499a01353c54751fb85c63c1ab 0x106988dc4b862301cc42c2f2ce7d415de0797f04a20dd639aa8e20cfe007d12a5540a16d427250397209926ddf0860dd 0x62012198c49c26bea27d210229db3d6da689ca96baeff47f14790c4592458b1ece4bb0b4073accdea8a79d2820a3417f 0x0 0x36c085cadf70876ac5dd7b6326f95c37d0a1dcba7827e0217db1c06d63208b3fe2c2798533eb365e9d6ae81a2e838749 0x2c87e44f4857d007f811d3aba2a34d8eb09a16869934f0b4aeda63451a97a23457d013a7c87dc24b7c41a60d6424e886 0x28dff5776e82756b62faab846b57c9ef5083ec87b5b49037b62a19b9ebbb5896ac0836c9b14cde02eb5d303f1aedf6f8;
Dbl 0x384668719a649e183d79ef981c4193e30e6002846898138eb88019621bfda7caf5d22b3bdc3e95bb7eaaee86ef65b36f 0x55e748659407c1bbea8d1bd4d930024f2577c377d67df27e29ebb7afb83048a641b1a4f08bfebf43d3154754d311d6cf 0x9a5b27d128352e78596c69eb1d0c25cae18b8a7bd6953b0758b545bc09f2c2803f40dcde8c32e57ff956ca4e1285b98b 0xbbc69b5933e932e2db37ec1512cd2a362c734fbb3c478d07a9b8de0d840ef0c59cd597580e0275f8815fd8648951eadb 0x1 0x38d87e4b6a14925a9473fe811f263e027921601362cada88c1786f3a713e218d41a3ef9c32da211667532a69934cb02 0xc5ee10efc48f40c7a8b709bfa65e982bab7e68dd1ff9d8f87ec16ea0158eb69a8e1ecb2f6c5c0c387192d25367ef004 0x294716e600c54b5ae441bddd75704a5f6f59cf9a251e8d3c5146f2f873ea51aaf94a0589b069b4c94c6a315d026b2473;
Sub 0x5ead6db22e5ebb0b5fceb19ad046891425418f21de0ccb5bc69131251736148710940d6a3a5c527c741e9f0b22972ba8 0x8b4ee5d25e44ed10cdb81856a535d62406cef6b239e093629c882e79c1c7c0ae4c65c7b7c290163b94bb7f27332cefa7 0xefe89a5551c200323f4e1a7248fc03e60ff441c540f5d4c0088014df347bd08d22be9bce7b328cc6d108f244e4cee834 0xca98629335c2d4ab1cd5037e33fa2c2b1ea8ccc59c9d5f1b8d638935f66887f6f54bdd37c96ea9083e59c82e9fe4e727 0x1 0xab5f7e42d57cbc845bdb54b5e60f54dab75a88154ad656e5cff475cf35dc1e6cecaeb291cca995d798c0e91d609bcc17 0x1 0x3f612953cdc0e4d9498ae58ca6506c18ff0749282ead9bf362d70f2ba36bd167bc2bf4c35e44f932c7e33e1da258fbd3 0x2303d20c4be174e657254176f6505ebd2b0912ce075a83728a2d7c847cf3f101902b29d923e94a0db1f326545112f2ed 0x4aed33fc8fd870b0d8541197bcc26b15df3f069c37304f985edefd6a1b954ea0f31ac16d899b02f5c9670de110486327;
Dbl 0xc16435b4950e1336d0bf3e22c470c91712432b8dd432debd5df8b9263ddba71f7ccb7db5b00cfdc289b2889818c3dffa 0x42bf35e86b5f34ef881e3ef2f3c97d1983c83fbc16d641532499b4cd81e65bb155094edf5dd84d5e9c70bc70c06f9b89 0xf5ef5325ec3b1b6a7f6966227a80e0a7bbf9bb28bf5add1bff9d8167691f1b54d11c5755fc736b4e0d4d302b5475c88 0x488fafe9f2e5b8214599d963b16c590a8306b6f6230a520f77ee79ac3fe164fcf75c78d864b7c8dcf84ac2b672bd541e 0x0 0x870c396c17a6e5e839b8610c221ffe2ead3e39e4f08ddcfe51fa72148bb1610f67259e251c2bb64dd849005687639f40 0x921840344917f111701c8bc19e73ef8538055c3c1ca42a5580edd2760fb540180705c86ce84da0d77d3eccb44bf7fab3 0x36d0baf90634d00657cff0a5929b03d8a4d0453dbf475b646df073ec7c32d3268bc1b44c10739b362b9fa6aebe11fd70;
Dbl 0x68ac9367c58f9592082dd2e24abc12bd65a34e007be7a2ed74531aad6e2152814230885387cb3f059bd42b93cc4a9c85 0x5e6bab6b7e7e87901c023bc19c169f40c6db46583db387a9b623bb20faf1b459adb6fd130869846d9b0d4d840b56b375 0xf5ce5f2d804640147a38400c54ede564798a9fdb3587237d7c0b8597127678d3a4b33ed16b1b8f738710e96564fc498a 0xe4538a7cece0ad5f6c1c033157b2ddd8bcecf963d922b9a96e75f9ac86f4a756a75251cb556ec8f101636eedb518e813 0x1 (-0x27a393520e2d3a5a63100deefa71ea805e30ef676ba020f01ea37fa7bcfdf144fb0a0e8d16e10b03f0d4a48855a45760) 0x2accac1ab8d6796b1aa6968da2fbca73bdc9a7651a9cd31886f920c81abf3d1f0cc34197519bc0c9effae5e2b79f8d6e 0x5d5bdbdc52813b4eee97f3b984cbda914d9bd7617f49fec1225893fcaaf90240842a46d81e3a193f5b031ab59d698033;
Add 0x7c7c9ad20e577fa4a51076bfb151c22dc06dffd30b5abb69987401fde707d2affadc2a806540350c4af42c5b4bcc356 0x5ba1f5ee46ddf2867865460656d6d4ff9cd1e59fa48b463554a95c721527a31a8fd7a7bc75e92c277d5d044c7ddd8d11 0x4a4eecead7d8bc9f8e28593abaaf320001cbd73cf473daf9568a9d31d717ef357bc2da03f91e91cf93b6acadd97cd826 0x2c9b57d37a09509a39cf5bb453fca412a0960b899284174617a5eaee5ca113f1ddf5556928058461db049378d792664 0x0 0xb3e3e148bff382588d5074a2a8f5f1cc58be0af5b20bec115c2c7940789d8a2058b40ab449145b0160b8ef4c98e0a8bd 0x1 0x5779f04b0cbf70b1427705b83a00ed2dba3563ca33db21325d36b7c14a561ba1955c0e2ec29d9c70457d555894594ad 0x3c88f2a1d7040e07f5550b915ef732fda186a173c8e25d2efd5f569f627943549cfe3aaed2f35724a1e225904e2a59 0x15b0f4c3064ea0479f397cbf59f92d88c8a4bcddf5ec1984b03ef2977cd5ffa895e791e1af594c0b2055d3ee181018;
Dbl 0x1ba4a1b7a30bddc2768e9b2d435dd58d9d4f5d1c8ed81bbd7336c1c841504a74000db9dc43d1eb0d64b97a98b236b96f 0x5ae4fdcc8141373c78ab90112ee35c68e0e1e63c5058328c98f02ec993c16aee5091fc8ffc57888ed2f671cfebd406c8 0xd5e3e300f6ae61f913fbcebe26973e71113d191218bb9616ce43a7d5d955951423c72b4ce9780529bafcdf1166cef76f 0xbcf821c59cbb49ffb9b5f527f37896bbefff63543313a8bbb92da88166382c3f45ab2c7991a398aa66927c92098649 0x0 (-0x525968f10120d716d5a4052ac0c0e9690450d64d2d10326f370525d518b1bf325edd69843bd111c7c5d74046ad712b94) 0x2fc23fc55d5e6ca95e7bd89af0e02feec082113191b7b6b35bd84f364362169bc83a9b2562ae08197e1d7d0ca6982c9 0x1467b1e51518547a3ad2b2fd6237cc19e5d899f973bd8c4335cbe278581aebed68b07dbc4587f2f0dee467f6b9d4ee;
Dbl 0xbb5ec85118334ffe3b965b5b45221c0448bf40ed56f8aed0a99cc98a046707bfaa8fa5f8e67c771225c7a4b61e8bcbb8 0xacdffd9eb0abc95e354c5f8c82a3e336ac5715271966351e83054b2b38195c1654baeff09910ef1d5896cd30b9cc3152 0x2dddf1571d7918fe0556d2c9b48d354ea1ad1d73222883b9de678f14a4e6985d0f838177fce52a2b569cdafcd479f218 0xae05002dd0956dde435f3084ac3f7932348ad11536f1fd6e15eae39e5ba80ed6fbd70c9e634699717a5fa4a03207d575 0x1 0xd847e1df221db6b851424bf917a7687b52aedde78005c3bf4faea9c60224b59f08db50e9cee328e3f1293b0585d23b2d 0x89239bbe31a78c0ca980f127b561da0c7cbb76babf94f274df66a79dbbfe66909446324d4f0cad2b1c8c21bc9586eaa2 0x7f5e1522905bf0f72124ea51b0131947485d7e402eb07ba95027279b4d8b898b27e85870046478a122114b3a72dcb66f;
Dbl 0xd9f3489078a57a6daf64b85a1c4e94a8980f27e92f5c48682489dc3332fe0ba1de90fe34aab1bd59dd807d6e417659a0 0xa299d418939df37b2ca71c25b48f7be696c77b67107ef4a43bf15a30ac55e0912ee177a3f364dacb83c698a297cc2171 0xe27c4a0698b23d8cd41042cd44fcc35419a985ec2488d1fb6ebcc806dff74df3feb8c0a4dab8988682f9065ebb5df7b6 0xa4629861d0dd5e308a54366ce146750158f99c008e7407a4713f0fa8bc37b8525d9784ca5ac1451d4d0348e22000fe1 0x0 (-0x1101fd1dcc15fe7418fd2cd8dbee5b34176df923761e2df46f478202b7156d23ebdb3df42631eb803e556e6434851d337) 0xb98e5837c35f29196776b58a98704955083855af1cd3236ab5d29b773dfb0fe58cb3ba02e468fca37b7f7d5f0c83e015 0x8bf3cb5a0eae9a52c884475a749ab293c8f0cc1701e6b4c2f6b29feb0299772be648a5c27b9fec22b550324d792c42e;
Dbl 0xe47cf05a0935e1424cde219f40cffc1903bdea2a50e7ec8f9fac54478f90d596353d930bdeeef3d95dcd910f243ac3d5 0x271ea8775994625facc053a3ddc78960fe0f3035a0de0602c8a5a60ee45b9db6297421b8684db74257677e1d8fa00da9 0xc2d9fac0c285f6344cebc39c9b0d0e254b5693f3a04966438ccf46dfad982db305363e87820f3ceeb4d1bfb86518c4b1 0x7b7b2ba13a09911b7fe6c881d6c7f28598b84b316fa0eea1734bb421c7fa42db056d55eb8b1723892c5f1a85082c13c8 0x0 0x5e754ef0e116b3134f5829d3f390e94817ee5a94894864d8b853b067517afd2ff0d65580e3f309a206f6efd17b2d82c4 0xcbeec91a1949d65fd1b9ab007e048ea9a1097248fdceb043b84bb59efaa5406c495ab823cbbe2e96a8ddff2d84e62152 0x6e35f673a06e70a6163b4d93dae9aa467aaa5c0deebb502bd9d83bed93cc2406a3e25c4d639d198058a3d1b02568eeff;
Sub 0x54765864460d25e930dfc300eb7c5ba3e6405a72233595ba2ac3770832f38904714b407b13a62b3e6b7b50b77b47ce90 0xa8c5e735f2c68561a7155df43f8728568bd29766317b16b821c5c4adbd8cc57e5928c61ca8a7e734ce5dd290f104ebe 0x95af827a254960fea42e03fee1075645f4562c5c361b226ee2bf3f7fb946989a9a724300f09094ce5a895311fffabbe8 0x1c924a03fa67fa09924efdc499cf16db955206bf3dc65497468949c40882d15e43e195569dc338cf0a81a0f4808fbeeb 0x0 0x7c96de549b095d281e0e8c84eaa6dbec8ff1f4d315366a6a6eae642e6207737cd4712f59a8f88dd61d131fe61d2a02f1 0x1 0x291b1982e7521e2199f503303037d929818146ada2cbb466306866031244b0cc7bd888f33a2c3d260d404d75242c3d81 0x1bdde0b768ee4c6fd28d0770ca4a3f4e803e9a399ca8d1b54cbbafe1bacd7a37bab72147e829ec4119baa91a769a561e 0x96d3594e667497ff6f4cf3eca855d1badbf6a7f24096345bf83c14380229a7653a55781cf9e336f7f6d29a18c6a0269;
Dbl 0x3a286f939a58240a08c3732187da88120fab5511745b9292d0bbf9f4b82e8a02839f1282393ebef24fd0ff4e177fe2a1 0x6786c2f541c51943998e328205678d4a0b86af32fc7401a2965e406ef670c24b52f456ac4750ac0aaf995181d5084ea2 0xfb7e55bf0b545cfe4f6d1f61339cf0e4e03a022b1ca11544a3cce40eaaf8428e2d1c14799bbd43de75d7fde011f824f 0xa3059b7e1d674f1280e3235d3e90e53b5d367a4366a3afc8ebbe1bdbe5680a0b929e35b48339d2689d4c8ba83a08001b 0x1 0x42b5036990db6b73996a28963addb3419ff8959ef08adc20adcdc063b4f7792fa77523593f31b433cb239414ce930539 0xd3658f1f0b180d2dca38e1398dac603622a019d1cad11cf5537e023b7178321ed7b6dacff32a833ecfc3bf960ca42dd 0x250905284b4b78a3b867ba99639f6a7fa65d1a749fa8f961ad2b86437c654e1550052a280cd952b041e762eff795573c;
Dbl 0x6b8bf85798e97c5f1b85509a781cc9ac127ca70c0914752177c1b3e209540c969c90bbc16cf79c4553f3d23db6ebb94e 0xb5aee98d2a5ee7f99a5ccae8b045f5e059bf66945796cc39ae12658082f32ade3fc8122c03352cf048a2f05f34d836e1 0xe9c6fd0c76635f22daa9ddc7b77ba44ce8faa64eb02537075c09c745dab342460aad4bc813e9577689cd913ccb7b9996 0xb1d7d96817663149ff31679955219769b1c7489ea4dd3568e84bdaee737d976c132c447f441b7f1a66f66123a03017c0 0x1 (-0x70643d891d3c457ca573ec801719234147430fbaf56b14a46fb1ff4c65d48aa599f3bccdd514dd070c57d32307be3a9b) 0x2d2e4e20d9dd11c23b4a3ac23b293ff1006c6d19742ba786660f9332d1dec94037d861f090406c631a46480f3b930061 0x4ab67497827e8112f17a18cb986e2b7dd59069a46ace903051d6eebd1fb7ae8fc51d49b2dbcfb8220ba97319ef8a1f65;
Sub 0x2387cc1b983f36aa61376763ca9c823d1ca2665660baebac70b0fa44e2d2644d3257ad91020ebd0bc00fffc58420a526 0x60c042267927bc47005587b7ec4ff8c9beb0033ceaa74c1ae46447dde54aaeac11995370f9b5d43d67341692d206aeb9 0x2373e0f15c5aff089b56ccebcfa01f2f287b58b9e9b14278638cc0ccfaf6cee26ad81bd6a06d6ddde91649cf62f0d0fb 0x54eea766b1372bb29a074330c3f5fd169b0f63576cef801ec9ae1da29da87c322e2ebebb097f58b2e16ed9cc62d18828 0x0 0xb271f6a6bd3e2c20bab03c9bd25486beba22b31cbef30a1541b23a0009f00a5eac51fce43e003840e4e9226c2622c2a 0x0 0x18c43d17ea7ee8cec05f87990d60880fad3ac5710f0d079eef7ad41f6589376ea6dcee7500534fc973d4c0b0e1c07ba 0x4ee69d87377d93c7547e21b6a174d1844b37fd56bf9328e0e205d50678be4df30677a6fc41f190e7d90c4e2954aeead 0xbc9ae74a6762861276c27b24127188cd987e913cac2eb295193737db463b4776ea2b4724286aaf602e93477d1906ca1;
Dbl 0x65d606337259de7a07d0dc6fb6b0da14a82c6e5c7f90ff62cd2215146001dc997ed368a91d18e4f08c7c8d3b88988d5b 0x541055df02a1bf4a1e3edb6c283ce87785c5d0c3b353abe6955b3e69c41430c4d85bba6f20e8c9694aa76706b380a584 0x82ed9d9fb89d5f87cf4ecfab149c61a354691ae0254fb037b337cdac0371323ff8c9e2e0f3bc27d05d9d9ca6cbd7275e 0xcafec477685fcfce216ac4bc413105238ea32793753a0344f09097421367de7393d9901d8cd0ad41c8caf8c1e860935 0x0 (-0x517d8f0e3c38f0caa8e88ca0ec1a76b415d021b1751ee7f3d274b94b3283ce16faecaeafc45dd9226143fbfbf3b50b62) 0x288293d2f6648b7f378065ceb9a1601a71ef90768874ed606fcdf5bbd7b89b5fc1698c38b1e1e04dd36e61be7d70a49d 0x50c039661c07b3c93f6e00262c6bf9bb913a9c4709cfe2393abcb72048790cb05892a6b6f41d9ac8d8e2fa8e2988182;
Dbl 0x752a555f2487547d38cb3830e4031df8c597bc068f961c899ce9d9d690394faa7f82784120e2a12bbd253272232aa834 0x92aa2dbdb411fe1410e38cb5eaa297a276183eda3e7d73bc4e13413a417fc89623d9acc895f210c07b18e2857c877a63 0x8b0b792a351684f2e5f0cf8c4af59b43d6ba9ea568f823160e839a391b9a21dfc69396cae97a6dbe608d9a6fe1ce0bd7 0xc16628214e8fc1360d5b4eb63d9a50d50fad91e974d6382a4747fd2f8294682db4820da58af6b8a8cf8e848236f92b20 0x1 0x2508532f3c53c0258e5d60a691525140392a99c206a7aaa1dc064ec7dc62896e96fcc51ea79415a724c03e80c31ee5fd 0x359fb909171401402ec297ffaa874ec76a14d480f32a3c3c202ac53b46bb4cbcfa6e6d5bf1ff26cdb4cd5c040bf47adb 0x5883ab989a3324ad41099bb3e2d4349b358c842b386f9fff279e0469c473af4f7eadb134d8b9cadb0ddbbf3e8b7b70b5;
Dbl 0x372ec0ab1d4e1971c5caa21c8f5b7ad5ae348aa5f3f4ac8805e3717fbe52eb0e8570926e9cbf8f89020f07ca71ca20af 0xb17633ee3ac59f6cd96cb44471ded7b0c69438a373e9026b627d12d6e8719632a7950832d6d97ca085093f960225c1b1 0xaef2fe103e6e0ef13bc91b8777fcbcc2c30fe220b99d306c9194c91d8dee1b6362eeb34b0545dab7f6ffec6880e64b21 0xe133f9cf794c5ea73776d87178c3bff1af840636ca947150eb962e63590e32627c44a494bf18941ff60fa2f07a61b8b1 0x1 (-0xc021f06cb7a863700b66013b7c565e1120ccadbfec385c9b1fc3dc0785bd8e14a9aa55538b7eceb09851c00e1330691a) 0xbe51f535517355557bb96c00268183fbd5c11e88d6c61d5ae05b2d7eb8219db2dfd8b7243403d28fc3c4cd8e4dc7ed6 0x308b4b7ff93244230341876d062b835d2ea068e4f2c1396957b9930c943d5a13a2588f812995f370ab58c4d5a626f5f9;
Dbl 0x5b5d8856b2f0517f9efc4c2b3a8d7a34f208ed1012b8b6a2d6331c9b49286c041f00e9558342d44691d961da66953956 0xa732c7931cb8e32fadebdab7fc2170ae25bee531e829cf4966e19ccde64eb0ec6d7dea355ccc5b517e8525fe3f34cbf7 0x11dd47944d6fad4c06cf0bb310fe01b9fd7cd48c0b838d02b096913607ed3baae84e9e8c4e14fabd50e3eef95b6324d1 0xa436c5b1e0cbc3d2b80d98c75bd6702a0d553718bbf3321fb9b76090222e5463a171dfd7a0d214f06841997c2f0f5ba 0x0 (-0xf42d67a5344ec91a486017c2a5bfceb0587b981bad5d2d77c377b811438bf4bc50eaac486c7ebd873805dac1ed76170c) 0x209ba119fad11807fee24f0f57cd3023cf2e6b959077de489c4577d4c2724574c55b72a9a85bd206e4a4787af08ce675 0x3a9b77a0c2bc3ee6063ada29e4a8ddaf3e5ca6f774cf576ae26f03143cf71448a826b3ed9931fe5f537bee9975e7976;
Dbl 0xbe6accd2e978e9b3199becb65061ccf59acd11dbf6f670418942bfe063f9f0878780a22e46a73b9871322a9c98797710 0x177c70269f444db94023af5320b41d1d6295237363db19b55ab1ddbb4001b82868247923121bb6e4f7048fd09888c3df 0x16378a45724d6ae16eeba8ca5803ecbfe3b73f44424039dc68015c0994a32752b95e90a85257af34f69b6062cd785c26 0x8fb6576c7d7495766dc82b64db6d5390c329c1be844eb5940c2fbf12a64cf8c4055971124ab0a46c8780962da6ac0818 0x0 (-0x12d068147fe1e16a8ed1997b6f0192b08ee47ba483e49853ac01d18d03bbfa58957a02aa48f41207ec327b13963a3ef30) 0x8da2b4975519a4e3f616d5a91d3c016e7d06653fdee565b3f821e8d14de2a836d88ef3f7572da23c9a56841552727acd 0x6ae5495e6c577a67d2bc204509ac4d5e2dfd8f0b0627b30ee0369914b62bde08ebe0bb1ec6517765af43c0c0b2ffd777;
Add 0x1e9dda954954883cf03fdf5d7c0e69291054fdc4354a6e5ad789f0d813a1e93aece08b31bfcbaf1fd8d1615d13efac 0x7fa9a1aee2c17440390a5744ad3954bc97435d7e7fbf2f6a66f4464d57ebc25dc743aec2eec755f84bff180e90962406 0x923410ebc73b1937d201bafa997573e4e955d9c581e9bfb55b2784fb421e324cee25b6a39e2c86c0ff26ffd570175800 0x97d2ce77bc82d9790719580e737ac860cb51c5f4e41bea4af3bd976de815f5c9a0e0ca5f235460ecab0577c307f29fd8 0x1 0x6cf4a603e0b94881b171e8342d936fa8f477e810d8337e1d00ba9bdabdad8def132186c452c68d78bcb031992612b927 0x1 0xd07da8623b03359ba0ee6561065bd39c65d6f050a26e394fcb1be5fd6846a0c7712dd289683d48286d49a44397e93 0x3a96090d2ee598fcc7d586ac605a980d2e7c925e28a91f511c807785aef95c235682c94238a5a78671b2faa570c 0x1228521cb48752cbb906a46b1d459dc9b214ee7de61dcf37b21150ad39a96690710a160c0910202685d7de0e49a706;
Dbl 0x9c17fc656a0e9da7ba99610d2a5644845544b401ebd9a2a299b9e1144cd1b358dcec81a29421b1cb30bc26c068efd67 0xe3d689ba11fbe0f1b68140a08619393e0fff5916ba2f57b0eeb31b69e4d37ac20ff841d314d55197cc2f1ab5ce3b1d12 0x50bba4fb52357a777bdf5a7df4a5f77b7cefaf0d707d186c0d8126e02d3da75a7d48c6ae40fe3da6ffd9afb98dc0d007 0x9bd317f4d0c5934e828916a427201b7e87440467c58fd7b978412ae37318479ab74b6ceed9f204607fcffd59c25b06f3 0x1 (-0xb3d88ed2e036dd8409a3e6483229108d790f93abfe3c98f569740512f73ee4355167f16627724fcb0e363b34026bbf97) 0x5f2d3ddaec52afbe61692ef33605d4a97853ba39a41e506da835443fbd379f44060714ad3168ab54c101d9024ea5ad 0x5f033c31dca2e60a2a5d64c3a01a31416e3c8fbd2c10222567d50e121d7ac19f68c55e80b29cee97c0c3b7448903542;
Dbl 0x5305342ce3978ba72f7a2a002d291b3141fc44018dc94d7ffb6e09b51d1276221b760253a376b7cec6a5595b631a4c7f 0x57458f003e202bd2b88c58d5beaacfe7c5272d4bbb243287568a82eb83f4caaae931fd1b1e3abbb8c5204f658d34230a 0xdea1e52421ff72596c13b55dd0d6ff4516dc5fc1bc53bc3f475dc2cfe909989ebced2409fb1a6fca72c210d001ab117c 0x8c90fab9d3dbb51efdf4e7cac76e69564ad82bcaff0b25299828987e60deb01726c644b7f69a95df070ecb504106fa08 0x0 (-0x22bf58ee7a70742419c1bcac84c57302b70d81aa4f44144ae45b43311ccb9803167db6097ec71e3cbdf1ea8cda7734f29) 0x1aec5ff02ff76cce747b1a243df490fcb9fcc365f246765b130ba4de2316af6349b97a60fd60c797b88b30d64f02b62d 0x2d95dcc53e21fa81cfbeb97bf75180b51eed92238bf70d56243d003eaf0214a9502f734bd781d9d7baf891b7bdeb778b;
Sub 0x9724d7dc57625455669ca80501a0c46dc83797b698b5b06bd03265d4abafb1627a9f795b56909372f6c536a738cedadc 0x91b9c70f80ff97187f08455a72698c84d132e47b2477e47282b2ffb24a3524c737f9eb08e44b342437f8f316a2a8cdf9 0x17ca779306188816226bfe5ccde2c1546491b0b3993875a9eae872807c8b46a71a2c145645c627def9e7d83df714198 0xc58bc7f0bd2094ba3984137b4c414362f3f448d096ac4e14d3d7833939bfa5e2b138121139ef87948d275c4fea8b5510 0x1 0xacbdc4dd7f95269b29da91b6cb8a22735709f1e92f7c96eefc93410b01a0a071942f0abc5ee5924c8acbf12e1abe1852 0x1 0x65fccb7663c8f6b3631a3041c997797651c5786c9f57d21049c980b7d72331e80c67fa2dcba74d30f7b6c98334866564 0x593c7bf35b126b91ef8e0a7f61b6803fbdb07e585d5cfa3d1c100a052f88d4861cf5c12797bd3e9c8f2bad716d278eaa 0x74a1e12989e23390c5a6a2e8e0e3a07685c8603f93b963d92af9efc8ad24e1bc34b41acd6a11c7f24a3db115b80f9954;
Dbl 0x48cecf4cc71120f5562fc27973fd7e90d5f0ee241008317edafd85537c1f8b916b66f5b3b5292ba3d05f1f5c8cd738fa 0xb31da7557af13a6a8fc4f87f22750a6cde29ca5f4300d4ccbd01069d3d815a3dd12c06264408aa6a9c80f4da22b953eb 0xbd771693a8c00a7275c49e302c44cd7870417b4e1708db5491664481c1adf4ee2362e0aded8ce2bbb7767a9be65b1756 0xde9c1fba060e5cadef434cdb4ff48217f3091a1be1770fa5c5b1f9150cb3ca8866cde4e1a04289b99b77fe3d7fef7a0d 0x1 (-0xf80369b8708f1cee00a0c7d753636333670f79e38f7ff45b1dbf186e991e08f2794c446b33137cb77495d27e019c6850) 0x14b4fbad7767430f8b9587b086631834a6237128282ec8d80b9699e8af72bf71e0a87228044c9441125ddbce37709bb9 0x3f4fbed0da80016f78d8c7172bd85e92be81db88ce839cbe607aec27ccfaea18764a6e1f617bec036e52b3c5d651503c;
Dbl 0x8c7f978313a4574ae70357bb0e51aef9d973cc066dcb4e85127c1f0cc4d19686f32fb733152060de8331a067ba82fe38 0x733551561cb9dd97f3cd4d701890e9a6020ce32231e601f84022a0b5fbe42086bb53ebc9e1a0622e0131fae685e41fd0 0x480c8684a68999e2c95a274a3e650e5a5c04af8dbe22b2697b41b9e01ba1d913a64f5d4f9e1e79b876516350e4a6c376 0x3fe855ff5e375cd29bf7ab0f09e420c6dc1ce73d111ad2d47cde65e7419d39b715d81a5c6268483c9b4ef9f39cd5341b 0x0 (-0xa80055343959ca90185059240c282651f474beee9c359d2241a741f64deebf2307108f1ed4bbbe8015afdd57c2083078) 0x4d1bcd4f0b3520d183aa5ee916327afeb59197267080e4b2e2752c866d60168133c2e73e7873d6e57bb652803e039b66 0x2312e91d14baeb7dcb802299381288bad10d7cfe9cdd83268885d2bdf8c319c7adae1f5c722daf65a54ac2eddef5aae4;
Add 0xc7ac1f0cf08273fcdc983aab0677133eb751b547136c7678686acbbdefc116ff9cb3d2a9a7e2d20332b8309d19fee12a 0x320e2bbb47270e6a2782c696445a3fcd5dcad7ebd9405c43d551f1b206d02d3de7cd7e0b92f6c7d5155f66d657a554d2 0xe684fdd073bb7204d5e8be509c4ef0d09c3ff6c897c342857634ea058ccd0abf503bcba0dc34f8b8b55875310a21606c 0x4127259ad592cf2dcc4a86d9d436a9d8a4420b3658a5a5b46ad0af03f513f348d3866dbe4ea99a58ebd294102e3ecafe 0x0 0xc8ad87335e2ed860651b865125703c3193efa7bfa63e665fe62b5ed5798ff64d6650f96b224b38c1c6dd9caf136e1518 0x1 0x9c85d106ecc43247619d8264334781136ee201c73f3497224d740912c0f1ec8acd7520a9210173fdbbfd612e1d532727 0x9bbd0bffdb122286010410da65535c16df6b58cb960ed6046ad8823fb0cdaba6c20a59c314989d1b496eb128869ca475 0x32d13c6fa8a60775c7f77e69a54a4ac9a08ab5bf3d16e57e1f0fc3e599f2af1f1377b5b341dd245d3754cb84f20d9836;
Dbl 0xc2dd946c1d8a33ceefc9827fe7fe096f8ad9cf2ca41baa3c8778b048ed82844cd5b39c12fd338106e64a6a4972d535c3 0x5999b0846a0470eb6fb57e4488cb530a994a08beb013c59dd3c7852724de4c6a6321bdae6970fe44b942524356474e73 0xa3651be60b3fe69f5154921bb6aed61a792c2073b1a61433317fb843e14bc0f8705b8062ffd2f4f58a4646c89cbfadca 0xd8747b36dd229d7eb7cd4851bb8eecc2c480cf2d292c96a6018a6c8ae1f1e0d284abc05c2985c9905c1d1494015e065e 0x1 0x141940000bcf3a7e78a57706d7a53c8c412b30c025db0db195f343bb9b0d67442b40dbdc429fe2b05424ed2e6a7edd841 0x945494bd757da6f3d2a301e94547dab591a5514f63fd27daeeb0aa90d12a56336abd0760dbff2596016e0ad3d7c9a58e 0xa4c39f6cb34ae1c71afc4645f281219d3194e737b4d1c451d5a02e0b5d439852c1b29fa622dccb1b67906ab0fcbabe9c;
Dbl 0xf167c75e500c4e3483f36fea0cdc36bd4f119f4d75b318c3a9f1d3c28b096798fe5eeac4d22312279798d6f294a1d23a 0x186d695fdcc96130a71e771c8e1956a66e495f85eefbfb08d252d78ccca068896a96ed3b18c2df7addcac155095306b6 0x56501ce02feb813d6cae54640ab1577ad1179d2279d6868f0fcb15c48f65e83accb4b617c776b94201f4431d8a7d99f7 0x412c47248d3b0fbac8970727fab1fc642b00a938c117ca950174ad9a583de3e0f88ad07350ae1ec9db7790ee4cf447bd 0x0 0xd6142d618cfdf48d5763c03c6cfdbb7734e211b2020697de0236f1590e60d993ce7c6bf68a689c8562ee91b7f76eaf70 0xe3a48f719bdf5857d2594bc858999817471d4bdf8cf1f2238d831a5c6de90550f82953a8050caf20e803e54e8c4a6e78 0x3d751a8b7699edfe8e03271460e6213972040bf26a4b47882c2a68bef43885898e14712e958f8babc0f7c7f2f32efcef;
Sub 0x495d4298c33612a59cff5321e2ac3f8791e433e96b125c0c5565cb91b67762045b7df999ba7a67826859bb465d06fd40 0x559fe21950f51bb3757df385c64ddc475130f9ef9cb7812ad556abb542005894cefe3930dc7cc75da7720face98a0848 0x3b9d0c484f9ceba289fd8f094aeb09ca63ffb229d35916c2b23367eef87db605a952d94690e777261b1e43e7c87f3b3d 0xc2cd87468bd4457d31a08396c7cb7a5f1d186596524479ddfcfc2bd78aa00ff39b98b4093c46181d3658b1a91fc8fe6d 0x1 0x6de59f3d1e3e5bf9186caffd9af8a932002c242363545f70785b95ac4a4c3e501593fadc596db60ea376631d96dcfbfe 0x1 0x1f7e836a0e0531b3dcb70a0ba5e0f155b3f9f30b755b238e21ffaa546514068c6b5ea14d9c690b2de587bbc4d12aa2d7 0x150651f493a5cbbc468ca45dfc5c0813d1b9a0998598eae7e22e482b69386b01991f311eca7085237d40a5be0bcb89b5 0x37d392ea7df48973706c3463e0356531cf4928394380f131d87c0b2ac611bc4c1d58190a7450700f33d885562dbd80f4;
Dbl 0xd8c1d56cf286b60872a9ba624e482100d1a02be3ac580ccb473ee03759b6c2f3fd2b7639e46bab111d082b75de48e230 0xe749ff94e5be7768534b026f2e774a200601a075ab3095cffad3756f7711182f10175e15ba7ee1d1b0bbf324cdbc342f 0xf3a589223f5cff124b3cd5c298f0255f8b04bbb015490891afac8c34543784da380e38a843974ccc31a53d9c9f7dc1ac 0x6e55e2846b36a44b2232f11697d692274b2f5979f186eb5ada833645caef4064bee6db1a21fde58bf6b61c891bcdd418 0x1 0xf089aee46951336e55ddf11d427d396c8f7e48ec9d5da6764da48e1ed00b3aa5cec4f7e53384c991c9161a0070fd1dd 0xb787aaeb59777c3e6c91eb6b26c18b0ae6a6ecfa80207024a3cfdd20f32b6792ad76e18e775d40c0eefa31525df77bbf 0x5d6c01dbea85eb6d650dfb2520c0eb65e71ca9d3191971945f33943121b6eb04497d094ffed15971bdb6dee405680869;
Dbl 0xc788b0219825a4a06ffc4d8ffec0779763ebd797a56738a5ae6b1f0abff4b3fc6eb18228e0d09bc767f9fa08ff185a5b 0x7b3812a7e2cbeef7beef9f1e15cbcf9047040da9c5215cf50e5b1f92824f97be97ad38fdce729200ffc69603e69e1770 0xf6731f61cc7c93e6bb623f4b5e154a865d33d1295d1a9293d33fe2bc02ead5de60062c83baae3f7adb0864d9f1210cb6 0x6c11eced02f28870945b635118ab7a8fbefd92cbe60f38daec7855dcf4c18070786a2517ec0c4fd0b0f55d20e71e1cbf 0x0 (-0xf714578ee8599bdd5847f5d7c8b36697341efb11b0930a1bb62b6e0e8bf846b51247619796c223a0b56f0e96e6d33e68) 0x9b85cacfd76a638caf0f010795f9d2e59a243a25eba71a96ec28dbbb8f2b1831f14d42ab8c7839490929f7c027226375 0x543ba30c9ca11e3f4c767776b412ca8d828a9cc4c947b15b08bb419f08baafed410316bde1ee2fa2d1885193dfe7707d;
Dbl 0xcce8f850daf22b2b9c750560785c0e12328310a28d5852a206a7994836430c866661f0285d57430e13bdb44090961730 0xdbcd7fa13fb3831a2e6e770d10c15659ada1c2aaed679a4c463fd830c960d9e1c24d12a02f3fd2ced4fbe01f422a3b4c 0x494125f4443b7d6a218c67bd5b1d2a290b396a1ffb3b45c984441e3c790f634de79de18babfa6e6dce0b647f91d4870c 0x9f6a9306a3186bdd90812811050a793699624afed7b9c2a8c81b4761b8eebddbd560265c9f32bf322acab5e5a473dc23 0x1 0xd89b3e26fd3aec82937e2268b4c4036d0c2c33f7a747f138d774b189409395fb105b20de1987b60b4cac34c18f3a7abd 0xa4041fc3e05b8d7a86a6e5abee6deb27cc65de332b1af8c9e3a032069f31f9d6f8f129a338a63023ab65833de10cc12c 0x7f9a0060200f32fda241d34daf8bcf88799f18021e84aca442d1c09502127478b334b7b1e75d1afb9107083f97f32832;
Sub 0x6ee617363ef53fed64e460196cb4c8d96c707c633f995bfc3a1b7a88cbf6550f149aa3a69063a6cf038720081e6f9798 0x1ee9b99dfa4c3540decb98250f9ec5767ad175f066b4a2a001d3e04e5df4ef58fa8bf9dc41e3fbc1ae0ca090f90e824f 0x4a78bf87cb7b2805c853d1c002d0de94ee924077a0dc89fdd50a7f15cb5e7fd9b93f833f373e80e17a86b406171ce2e4 0xbce3c60345674dd94fa2dee8012290e332d04cba86b2f7ac446bf7e26b6bea88c7c118c3ed5bd70d26ef3f8e491bb8fd 0x0 0x3145b57e81287de29fbcafee1da0a8e53f84874861bffeb3ec489650470cafa96d4a20426feaa9629aa781e6cfb43095 0x0 0x15583d151f482cbb8a1042e40438415f03f1da2f029e09ffafb1d83a3a5cebeeaff94b3474eed512e706c4e6007ed9f4 0x300a8ac055aeae6d91b4e32489f03d2eb7769eeff35d46685cc3b329d36920fffdb4f87ebb391c5db8a92b4e3e1a1e12 0x51d3a4d9cc0ced4cc039850c011928a32f828f7e49ac0d86fe961ccad4f120bfee578bac5716b66f97076d080aab58b8;
Dbl 0x5f2a2366a93d2134edb739f890791ae0f9da3c38715651a959cc4a5e3097196cc4b6683e409f91f935ea10dc827e635f 0xc057743f0e49e89a6c06991eef06447273613c8aade9759ea98575da597a0a1182557e550760ca0d7e52eb2ca955eb7b 0xa1ae6b68f7105833a86aa6eae171a214a1c3a4f30e6134f49c6a5e8924a4acfda560305efec851e823fb905de6d75da 0x5e92455eec024ca672c4ff062098810407703965b8cb2d01584e6a74047ae54678367b863a8331b42fb9b5654fb896d3 0x1 0x2c2b4bb1142f5a5bff60231a12973f5c95ae18bb408be95c7e5717f8137750048bb5137b1a43983dc2cb18542b8c3fe8 0x23604d35d43022263178b0c3c209575a847009ce5a3c38d08a757b07ee424f3d7c7b03971c65dadba9f1388c275c52d8 0x2327d8d1877055d34b2f6a05041900e4332caa844e06194461d84209eda43e6a00e3528390948538bf4cef4a9bdcc771;
Dbl 0x4d213631ec0a02b9724ba807ca77f7c18b5e18cc304f5722c65091ff19a291f733d5a5bbb277780c82bccccbd0830345 0x858ed5845d247574862590fb9a72625769525758559d1c5955eaf788e47cd8a77ea56802411980e95e6a19f4f70f5bf4 0x8ee51feabe9dc7fab1e7404b491e2ede5f087ce7140e48a510ae9ae2e9b14fbdd3546c4c965e76cb73da31e44142a284 0x3ac89ebab1257325e5e108235493e21b0a0ee532584c5945539a7e5174fd316a03b01652c64749241fe8d137b2468f87 0x0 (-0x1ab7316bbcf9ca44f9a085ac6151d13cfb731fa346fbce41539fcb557c64ef91aa14d921ec35453d4d1c341cd7a057c3c) 0x173cfee90c55f988b12eb735cee7d2357d187cabceb503545c354c3c3607e1919145006ea75f730d23f822d4d1128251 0x11b5f80c656e1b5a818cac27f8de9d2691915a7d54a29ca7884356413c760ba0af84268f92b00f6fe0fcc1051ce7d3fb;
Sub 0x8c24b1968ef87044df9537b23942bd90519a0c2f2ed10350b7b3eb80a46ba6650560351655183f42e407dc4e3e0cfe08 0x278f06b231e7eb3f0939a34b020e48a4b1e2c7f696d906e7f6a1d95da7eeaf1ecbfb439145977c50ef3f4056e1911dea 0x515c770af58458a364143e70e1ec19bbd92d012861f73eadac04b623126295c09351c2ef5eaa5ba37d1a4284fe3a6f7a 0x5dffced22b3c8a357cebedb0986419b2b76f8f61bec415715f491e2b3c8e2988b2aa2470fb8204986f2ad99e157e3e0a 0x0 0xdb070b619e99703cf773c9dca751b4e2fb351bf5c9f580c0fbf3b5a86228ae6e29a275a381c4577d2415bbbd8499513c 0x1 0x77e73f27abc7d8015317535f916f028b74617158a85ce8d2f248d780fc0e64654d172a2b52e78843f0f85dc337f89f04 0x4cb8277f19e97aea4e25726b1159e3344a4af90442a8471fa63c139759b4b561351f449696a3a306ce3d84449e42a455 0x33755e492b94cce504fb876db3b8dce28a3a6c2b0a95060642af7eacf93cc480be4fa98a979b2592d08cefd5fd8535ae;
Dbl 0x5ab40a7eef43d29a0ba8756b498d4ba4d11e8f2eaa898d35d7fd56fad973d92e0e8f0f3ee45e59a1a5320fd6c0e321ad 0x2c7f418b2b8417c59a38cb225b8a385f48c0e7078876c064b2b2c26823fedbf98fe3482a024604ab005e6e394581ff0e 0x286ed958deda0d5bfd5b9d661230c1a33dbb5fc0bd1e6f9c487dd4625ebec2ac28b4240a7a4da3f30742b8f5f3866c11 0xfb0fc5270663d3796f00d828a68410456921e0ef0e62468343ef16f583efd3243c17fb66435177a5eee0d21e9c0f1edb 0x1 0x2750c88eb112597ef3f526d52ab0551e329d8036498ca09f2833a17a7aa4976a9cdffc97e4969c8fe88794da51a46ec5 0x20231600032a51162ba9e534bd3e7c7be5266c1f96a0fada093adf5b7df88f3788ce64b7ef78626ad5ad0b9bcb682bf9 0x58f41cb171cc62b878a08af0e0a2f224376c23af3221bba0195c8f13e9a29ab28ff5ae11230a95053c4e789aec5dc68c;
Dbl 0x4ef32b423465cf1c6bd70e3b15f6da55c327982a42ddd03cacd2bd39c02dcb943cef692d53eb7e8e6b855742560fa311 0x9e8f91d2d7940074ace82905e5d6f6bd6b8febb4f55fdf27e800a76d962a513c33f1bb2c440bc19f722e8915e2512776 0xdd8f7326d457bc7e20b6f9b310eea32922209e5343e0f51bfb1c928262d66adba11c1dc4ba5124a77c80e88a1d536610 0x8defafb853f01750ed50a21c75b341a1dd30fb529316e13ccab21afa8dd48abc5bf18cfcbe3a430b8e2fe5246330d797 0x1 0x1bc632f1dc56902cc73de6a22a061bb7976db1eba8616c1bd96fb7741897a7469d51631dea692a802a19d552734ae07 0x185915577eecd235c477a2737f04be8dcb65c427fcf30edbced21e2a3f2b9adc5478cc7af3cd408c2ce5beb17d787e71 0x2bc5da09ece739b617ce00c8b80edbfd7b83956eff9b421437359cde2138796baf4ccda036a1beffa8697cd0057d5c1a;
Sub 0x246dea4c58566e32400c2aeda2a5409f652846d1672dd42e82d871b5fdfcc8eb492544f9907944a9b12845214b44f5f0 0xe4b9e72d10c0148cad3cab40b12c88459757092b927924abca09e1bf0a6c893beadb74ecf47be9fd78b86e80c2e5c20c 0x6fc4c579d167bcd721046c423965e2f8d72f6cdd166ccd01ada2d4f27e6a8ae43d58a781111eb713e6840e8f4f1c04d 0xb9d5aaa5c6d3ebe7ffab7dc534aa6e77d438e28962e6ba7c1df6c5ae8bbdc7ff4916463e4f8fd7a1f9761a961f6b6569 0x1 0xf407c7b01908fb3d1e3661e6f2b64948fd72b05269b8438f8e09658d13d62702deeec8cd84b6983337da2ade6fdb1cbe 0x1 0x22b9debcac8b3b9e11b9ac6c2f3df1866d010844376bfa7a01067ca73b8a15b0b4eea193fba91a90bd84cea2d1d8ac50 0x52f1916d44b30da8c0eca4c6f0983ec499731e2503e345d03c4e63793190db358dda6b863c78c18a3a6c679e3e7b339 0x1a71d60db215d6cb67de8636d52d3d6ae27bcee174658e4fc80dd354c4cb64fba4661c2317bf1c1a7bb8f8cb22a496ed;
Dbl 0xeef7fa5537816b8419d36455823ab9a358708080038788126c528d805df261123bdb3719da3f3b147441f2ba8e7024d2 0xfc4f58ac3fdddb37b5adfe75940db3074500d814457a6cc578c83bbe4ade33c9df2b17b2dbff6d33b1a12f9a8ef79cb2 0xe10e88731eaac1b0c3eca32df9168a4d7f4236ac7654c6dca63fb7505eac494af3974be4d0d66e7a7b2d4e6355b49e64 0xe86a8e80d0e23954f78eaccb1d1ed53e525631174cfeb7e65141a600bf8e55710bb05d39187c7cc9c7173ee733ee2559 0x1 (-0x2580859e0fc5be9a1a05bc4894d9295e44e0a41dd404477fa3168622fad873a6ba67627cf305c8651c8cff391c46a94a7) 0xdf1205ab78704c6dc6e72a44ece0af8a55d48d605d5ab0c92d82885ae17877c9123825260177cecf30524e00dfb76486 0xd8f43290ad6b5c4089f90324c59f47a4bba686243632703d829a21aea5be194c02fbb9bfb1b7686034e394737f1b37af;
Dbl 0xee40965bd2d8ea40ec70ff9fb6c2174c34e2651f97f44099ab831740226b33db2f40605357f69d6a03e5a1b0290d72fc 0x5ed0155fa83880e558e8ce7f42f48a13027c0fe023c7db827f35fb224e9b82627f61ce7b6d1d0a89b452469b412ca5e6 0xabe70873576d63747e1fe01bce0755832482379320d2a7bb2900d3f5923a958bd6fa88be579f4d15121a74528c6bd4b4 0x9d7f434c97a55a525cc52ff6511928f44284c83421b29142f992409bfc42b1675fc949376ee262a9fd4ee8ff4dcaf6cc 0x0 (-0x1471c582822bf3b62e26aa48c5912c3b811dc4f623e5667dae1c42c1724309427b555d03ce843ad9d0621039910a0a197) 0xddbc27de42447c0b9e7b8b27f3644cdbc5446c45e4c006052deff99b2ebea597d12a44e271477fa4dae6bb00c5de773a 0x92940ce317854917d35b25e0687cb166f5c7efd1bf77641ade044de38434ab50a40151d75f3c59b0c642f3f3b812aa48;
Sub 0x21b5a18d23db27def29e69f921a3ea1e0144c78430b69bf7cdf18ab9b6bc8ff897f119fa383eaab7ee618f38a159e46 0x7c9358f674808bd29db6a1d1a6f6815dbee1a5834e2bdb56760ac957f8ed71405f50ec66afc59d9b1b69cbf7d18c7e74 0x18be3a03504e5fce7d25024ad18a4d73de88cc827953315fab6fdb24a6044a2df1460e3485223274369aaad10ed425cc 0xe23cbc6933b7f512bb322cad9bfe08b5439a6a5cd59c002c092b31ca55ae11212010e213bd576cee98e87aa46fa02771 0x1 0xb4484b3ce9ad7badca3707604fd3dc9e945ed47d98203fea253eb941cc4758292a5edc1cadc7e11d79fde863ceb69b2e 0x1 0x17bd3a94e8938c525e5887dd5d4bc2c2e2c3763b2d4592124ba6a158b60149ddc60bbf49a4f6c1995897c235cdb1080 0x47054843ac609180865ec9accc208fd6a3720872a7feafb152de55a402ffc2ad906b91d50ab31f2ee3b5db3d8b3ed 0x1dca57ffb3ae3213b5accd8286f81eda6a80cac73a61f266f11e7a11225b2f3c74b9fa8c94e09a15a63073916d8739a;
Dbl 0xef4101beec0c0dfbb38b308a6b88c10be39d13fd51945f305bb8e6de202f0d8a08b3c0648843b742d58eb2e2c7191e37 0x34491fc9481470c58a4f5d5ed85e1218f53712995b5e529925682378d3ab1d507c77e5d24290e1b7ba7fb1cfb800fc55 0x69b4641829057b7464e0591ab6b27810473837ab41cc022fc8ad9b8bcf9b023782a6be4e9880f5e4d0b6c8c08756da4b 0x484a392d2c6c1b0d13674472ce986f44c9aa92e9f2cd88bd50a2a5df254253efe2d906946d34bbe360ea1a28198b821f 0x0 (-0x879d77b8165dbf97bef96aa004ca664d9bb3c96e2d9a93e9a9f1fca5752d097948b99e6ae0e7a3394ea85b67c1d8dffb) 0xdf9a71c45fb56c7666b604b0177614766292ef2e54bb0b63c33aa90a95ea69953be3fb77432b8348c3e46e9eeecb096c 0x438fa6b7e4e8a58aa338c3715e7df47b5505b2bca89ccb8192fc140d77df630898f61580cd92f46478462d3ff1eb696e;
Dbl 0x17aefe282d3251726e50d75fde598bf0f15cc1418ceb7c580b937651cdf8d0981feafdeae0bf0921d6652e7622b81684 0x40b0c0ed42800b7fa8b0f24af6125f25af432c29b344cb6d156a458514d1329e92e5681f465c56cd8141fab755547e0d 0xa7e14f102f182c12e597fba75c1658b2b98552fe0ef6f62ba1e2d8788ccc1968c0c849fad672c19741919aa91d2ba16b 0xf3985edc05946545e19e6b13e24bb2f345f3e66fa819872c0ffdddf3bed9eab0e9927db1fc348aea393db71962ac7e47 0x1 (-0xc7a704f3188640eaba780b216bb81a90e4902b07f09a24350b41a1ebffbb8a41637cbbf10389a49c0d07fe4bcbfa4b0) 0x230e949b3103b0748b3bdc90a510450220703f1be626fb016cdcdc85e210ae15aea8265c2fc7342a93344f2559b82a7 0x168933eda6fae9cf853a2be9e037070d1c5bd830e0b8fd12da8c98d8550721b165d6826d3e53096360d94577bfaf451a;
Add 0x3eacdc38d39aa1eba7a480c1ea92add03ea1f1c8fe8eabb8ef305480bf88ca8a354b3c47282761bc995c0b54f9bc2809 0xbb6536550f3f16c8ebf41706da754aba5edef38d30f74604bdf7c17b6962e3dd07e764d4653e0a387c6e477a295f6609 0xb146d242a62d21d614e3095468bc2847948454e83261e0ff8e76ad19cb836f3459d8393825b2815b765c1cd50de32540 0x854b8a983340f4b6bcbcdb441b9d146b5064389c824d856857728409ab6e4ec08afe0349e11e4c9504d3b33e2bf51803 0x1 0x9628f6ca83f5064819ff2b2c02f1b1b14125f0c7279d2fd4bb7303a4927d08653de275c087072d6146ed9c7fe2de7355 0x1 0x24c3507765307ce07b780f3c829103d1ffa9db361bd1acadd6c2b951fe2728b890ab9a320a59cb9c086ac5db70fe3d0f 0xf582f64304cf686c2b916f8b3c10141dad0eb3dc6c62b066d424d2db487ae83a43d5c96961a3d4948b122d19baf1e7c 0x20a24cfc7c7b0f3bbc985dbaf08911c78b49d1f911d945fb9f03f3eb704da3980b480a7963adc6e4c4057babc67c7690;
Dbl 0xa8c535fe6a07fb74f5b258ec8bc5d91032a56bf948d2331956fee640423528620149e983c08a10943ead23210a5e56d2 0x2930f4b29014acd5d410cdbb14f76512de8c2e88d471c9226c3410e8c6e98ea87b6ba2075aa16d27fd2d8c400af9e757 0x6bf54ad101ce87b58be29a89100d95620c131c763ccac74e466e9b0fe16ae258e3676a04ee51c8bb076e1a42bf4ced95 0x923441a27f2a69f317e3494bc57de5a78052c5045c857ce251c3b092a27955348c7bc2cd0a9c9d107f40bb3a1e657eb2 0x0 (-0xb1c8fa6dc9a30e18b681344dbd524985496c8bc787d8ccf3b1df01d89467c0fc71d50a19a5a0b3ef061844b870a49810) 0x6f436eca101cff10665c3f834d18e34aae6148e8d35a3920f2d3ed5aa253227321c772dbc610d6c983c9baa9160eef25 0x6062ec1f437da6f02035f56bda7bde041f986a05cc3fe5ab2f2feec51b28fad1c7e3f0d7fe34bcc21d94a8dc4c0258d1;
Dbl 0x89654d50e6f67737894da451e04b1bcc520b9b086e4a5716a8bfe6c639560b3212ea1a973490a6bc9131d6e9da84cc52 0xe85be34af2ed594cf73cd19914664d0b6c4fb33a805c3ed06d6240339fa9da6b9c6ff779042396b3e97b70199b80a167 0xf88a558e76e2328e486ab8602b1885abc6325840230a2e3d161e9cec4d8aae468174478322cc79632f06d13fa3e11fe9 0x40d511679d275388dcd3fc2200911807723c7b4e54158a51fed1d0b5273fb43bdefbaa8d567dd67413b21c276f7945ef 0x1 0x5fffd39ceaf30762cf1d9c9229c38e970d152b17e08b9cea390c585fa39b22da1a4fb2dce2d1313cc31b86f9ff4eb33c 0x49bd94d6b063ce94f0e927f2f103654b60da6392463950ef1d3b49a1b1a2616d85508228720cd39af468b847b1d1a5d1 0x22cbadf4e44a7f710ffcc6eca2a1c4de5d2379553289198cdeb0d04a4efd3e7cd4e6467d799dc662bd7f7c5f755f32f0;
Sub 0x2af9af15db6c89129e7872f1ad795d50305b82437630433eadaeac1dd08f2d8613b46a7cb4847142624193cea48d87a8 0x82d5722ed24f910bba66a5f853c9c15db57dc7f2f75871c9c6afe994737775933b3e289444b7f3b0abcf9634a165587e 0xffc72b44d6ec69ff6a8b505b5ca472a93514616ef5a72a349fee37b71b2780e305355fb0ca8f7e62c13a5cedc748bea2 0x6586711c209dc8413cd62ba0c09c8badb6d1eb478903cd06a6b2569f2c3264d86131cee4bf6ba3033dabd9e4fa1b48e9 0x0 0x3dd4192834625415688b0a7a21459f96fe3277d7f4b4a338136afe531d55b033476d051b44ce6d47af2711e1290a96b0 0x0 0xa6119b6554a49a5d1f186295e2405b02fd09501d90c44c6213883117608c383304c230b898c823e399f3c1ef1717ac9 0x736e0f93c4359f8e1809e47603548ca4a20ca4b16c63f57763b620dd3d41b692564f0f0bb5372223d61e474b869665c 0x110b13c234142bc420ded2225239086733bd1ef1ff7216371609a8437c9312e05d07bfa16f8bb387fbb9e46d797a26a3;
Dbl 0x96ddf8728010dc04a98774f2040a3fbaeb75eaac28d4aeb8d5d69960644f33ca2c7f710c3b05a7698f26b237fc7f3125 0xea664b0964a57aa3d771fa77fcd98dd1f3ed5045ac19acc629046e3529c1f41cafa605e1f86f3c33448675b2955a41d6 0xc3424db41a5df7ccd9aa154c8603c6cea6da2de30257118238d88c6a95eb1ca06b2c33ef86f4a451648e7d0d781c44cc 0x986f27256daa1667e2f4ab8056f0338bc19077ad4b3ec5039dab7b5f49b581758b9822b14c48b77d674920830c0b16a7 0x1 0x64e0873fca875b2e7e8427b051853c86fd148090da767789aed7ebcca54005d089d1668823d770c35b502aefc14b7b35 0x58e8df9d14e2ea4850154aa9dd04b517b90e22dfcf7aebc32a43ab713b15058f938d15191051c2ed8b202bbc33ffc379 0x59d54cd4953ea365479b9d966510901a65fbe606dad926f5baa81e6f9225ee12bf684851a3bb0a8de7cff859c19bc64b;
Dbl 0xef76875e40a8f965233aa5ed00fb8011dd9a100f55263448118548486f0c67d5ff252d8652701ff864749506c7c22be0 0x511eb0944bd9cf23720e6a8e13d0d89f8ea99e2b669417fed06cd84d1dfe32de35bc749dc0235659b528553c0cb986ca 0x72984abb76dd06148b39dcc9051988d01f29cbd39277fbb07685cf8a186d478a81cf02b9e7245859ffec79c2bc9aff2 0x99479a7518cbab8065638fe9e908b5326543b21a458594c7589795e80bc3c13e79e99144384be5d98f5e207688a0bb0c 0x0 (-0x11692e17187dffa72a00bfe241d6a59b9a402fe5a7f07cc57a878c222c0f5835c75588e632e9b1ba6dbcbcf77b791d057) 0xdffe87a30f33a8568478b98a11b5c87e9578f2b61e3e12fcd34e71483ebb0c6008aae546f8c8f2e5eb92051a70690676 0x8f60d141b5951cfe44af4b6608f33a69110fabb0557ca0a481b879a778a6ffb93756878605a8b6c2d76160c104bf463e;
Add 0xbc3082763753503c2d4aae8b8510deb7dd0fb1fd4fecded9dda27d8255cacedc930c42c6eb8cd231a8f3e76d97ca2bf9 0x659944e855a4d10e25b0c3f39f5d8ee58932761b6c0f302efc9b96fd503e1d6a38d0be0c098461fff947bc9675885155 0xa668d07795de888fbbbb36c5aaf870b3dff530438bda214b704a8a732347bd767f69b31692579ddf56e356e0ec165945 0xeb856babf634fe154c5da69a747349ba0577280ffa84e7cfd3d1414fcdc01572fcebb690b69ef459bbe098a697313574 0x1 0xa696e6718d4ec9ebe35ca36f20b02b2b208c62c8daec7c667675966c9baa08a4e0b9823f00ce2ced7ad3f7049a437c12 0x1 0x7a76626c27a4dfcda914e1fce93f4d186832e631b2b7be1f5235972dafbdde0d08f25a413d9ca1f4feddf5b4b530ee11 0x8a5748ced01363de2356a96ef58269167123e5ad4b6372d19b617d9c76f4be7cacdbab6f6d5cd930f0bfcb1cca364aa5 0xad229c1cfc20590696c35e98096a79f9d56a6b2fd8ab6850c00fae230bf5d942259cfed089735fa4505d76b22b808f63;
Dbl 0x4780319117455c3abb80c9041164a35b2a0b408da5a39e5ce61fb0b78e205dc43e72171353b50c614a42efb9d48ddf07 0x272206bd1748a138c6ed531f8e7e8c2b4614e17c8f8e2fd095f55e9afc2cb60f38e96e14aa836faef512e61876edeb56 0xb89fd3a11b3b9fc31e21672133028dd1ad08ef8e0742e3298d4147d98b6fa5001448f6977d58f6c224ef36e1ff9e0895 0x3e773e2b3e5c2fd55ec370d410df02ba431d949edc81005e66a638625411675affe74ff75f00f2510434d67dfe9a65ff 0x0 (-0x1c021784be01c5f90a8e6c22ac697b02eb39087414dccb02a39b32f8cf725a6019cc379cc8bfa7dfde7fd14dd44c651e) 0x13f85bb015989ba8babb6ff66122f84d4e831ad54a03c930ad91aca0adbb7dee11ee38b6f21571776a0b08f359fb5bcf 0x117259f54e08e004e2b4c370ec33520ee4402908981e045d5c27515f8091c19e750aec27555456fed5f088a11d2f76e1;
Dbl 0x25d2e4f3be0a36eee54a5cb86cf66b800c667993883d57d804288a3a66f3bce796a998e63c92a08c02117f2287ce5ed1 0x2773b72005d7be21e25de8880ed9dae17885983d3174b2b7c10ecf68b89cc33c8276c16b841a3c1d484bbf8eb5ac0ec0 0xf56c6c0e1d453b67ee5f1ed98826540705b4326256679ddcf652a36f1dba50ef6f4feb6c4aa1d6b932b812223ae9bd40 0xffae4f9d1170e316e48f6a977fa4b149cd8f493f5e197d18d4e68f32438ff2d1b672aca826693391acc7268ac141dc95 0x1 0x249c3be5d22f74b158f53f015b707c048e1cdba0a3cf4df08e3a56e6fec22c27c764535d1960020f9090603f3495935f 0x596a3eae195cf37b488a8b421347aacafdcc1a2e59ec28c6a33fe950258ad10343637f442750b41b3cd6ea97a0dbecb 0x25c6d329b188a7cfbd26f93542e647ce05dfc927d71e323889af1578bbc44b7436720fb687cf7d80042463da31ddfa30;
Sub 0x361f765f66ae471548bf7c47e355680ef981690311b48c4fc4ed864578a9c855300ac93ff07e3cb184511e4a407cb934 0xad775c2a80e537a8685b154346d05b076f43c63d5a049f5110f776ef7a0e42a204838b872915a191b92784e76a365def 0x95043e586328ee04aad524a3042cbb88dc8cbacd158bf9a0db879861a8b06f7fdc1d34c7958f3312f2f72d0fe535b04 0x79fc5af584f286797a02d344c8097fda0941d1ffd7701366b01758793e8e80997df335e35b049a8b8f243aa84b75b0d0 0x1 0x7cebecfd474cb8ea53ac21691bb92d6d0a685cdaa5cd171f67178d88364899032d73cf0cc4c512b10df7615743360408 0x1 0x1a691e526c9a8d9e74de951d3137efcf9163b7fea411d9f60ef1e98151a2c70e23d2e9c45eb13b2819c462d628113200 0xb7149ce21287a6839e81ef49ca5e4f8701baed26375e25d744259b5516359980d0a11bab013aeb8771a0c16a1fc44d6 0x19ca39269546c5c2cfdf08be0c452009487d1928ef9d0e054752d1a3876276e2bfa8674181504f1e0b0764ea33cede04;
Dbl 0x1acde692bbc75acd73514f08b1c92a8b7fa941451883777bdfa45dfb8187acd1d32b58e4925e9c59447f7d3b803dca79 0x78350c370f6c55bec3aa7a8b3bf2171b7600a07998edba95aa6b5231d00bde8925569a6703ea1e7bc769ad7fbef55a15 0x8c98d8866750c3bddce3c5d0d66623f03ee5cc0cea6f543805ec4bacef50415fec40ba432043280c5946513ee56a53f0 0x35424ff37178e1e9a4b09ab80ade43ebf94325c3c116e4bb668c24bdaa026418df2cf120252b8315f1bdd767ab4103da 0x0 (-0x15eac558a84a5cc8f66d0e493326f4cff237258272d9cb5a67d06f1de3a3eac30f4e183adf6f8597da21563f24873ca68) 0x2ce7870e4d1393e18c0cbba6ce28a095e3d29815b1624e699f1207f089d5a6f472ae79ddbde3074cecc48e77594e8c2 0x5939230da2f5f5efd0f6483c1157775338f4f2705a2a61ba5c8eabc45f5e245b05e13e2cb1bfcca02725a2fba06d8ea;
Dbl 0x7a0175b23d29b5651cef5c8615f1aca2a6e78b706b27d6931b368e9ea3e91043e504d97c01b408d672c77ef256f54d00 0x171d38f3c107146a5263b9989c7e2e7af9b8a94744bd21b53af49b62240e77116e590312077bb1bea73912d4169f2449 0x9b60340a5f3c7aea8b5e3ef36b002f100d2ff67ed8b6097053fceff12b83a69f3c6fcc932d0e1bb066c391d25736c358 0x6117d3434e6541547146c0f29f73e8a07c47f732543098e06f76b6cfabfd6777b6fd9754fc6e6cbd20309aaba85635cc 0x0 (-0x23520a7bc05913a9cdb8eb18ba26c29218facb07c16314d5d18482d5be56215243d3cc350376185ce9ccc56bb8300ed8) 0x3a25643003cca33906c9f25b581b3891a69cca051383fd1946c0d69b08a7943d5e9ef6003d8c0d409e51f77e1b60d873 0x2e45e86963f0b61c59c72feb981908ea6ac50550ec475b1f6c94b1a67ac98d69a1b048fcee7c9d3f8158a94b4a36bb48;
Dbl 0x242486cfb27ed551f0c3d0b3285583a1a53fe5344f0cc4d0dd9038fe34454056eeeeabafd3991aeaeede973c92c93cc5 0x1e2f3e3667c096838e255ef19a582d6b8b36dd37f7881027e392c53a734c85349c221e3032db88d8a6cbec103c55e128 0xe32244314633884554a5478cd8a87c994c2dec6a2072e1df547ce3d17533b37471b7151835b7c307309b78e3dc549a13 0xf8edfabd59467de6c43e5aa70226010f6e81cc0f4d35118d5761d627b0c1f1dbd236e4e0d4a028e6006d26c4da494320 0x1 0x259c9aa120b0e49e879989f4f824670a25f9d8885499a48250104121e7357d927b4d2053283f2d4603206c8ce56df100 0x51a4b209b9bf709f7a62bd2121d38e1e81f19a70500773692f49e9ba6c9acd15f7cd98955f8ccaff530420039cd3a21 0x2324fbd06a6c205afe414e89f304be8767aa1385c4473aed28ed7c431773abd451d9204b1b233249bd08808e194f35cb;
Dbl 0x85b1991c9327a807cbff930cc1323cbd01837df4f707497970d87ecb460e8dcd9ec9ab264c67d0346a6843e69a56670e 0x1f29fd90db0191b9d92d1d0ba5097782da719aa6ed12642c9c9dde961cb101eae06e3ab607e4e5b4c7fad2a5ddd2b16f 0x46f16c812d9d0b10c1f42c7cb1696d350b3245396d78cc27c08e0718589b6fe90f928dc5350326b6a438feb5dbfbac50 0xff0540a58cbf04c9b4f841e5f54eb5e8b0c542910a75abfb46f4e6a4569b8348bbb3e3792af6a323ded1196b5e832fb8 0x1 0xe28f6e0932f94309a58428a55cddac9db4930f78a3fb1d4fe20b050e9ee2022569047e1da5f3f3705bc7762491c5dea9 0x45d2044cc5fddc8460dc4ade4b00ab085fd2978ccace993e08a55d684985f33f11ced329d026291aef8e4773179a2efb 0x852ea5be4f631617c90f79d35952888b7015283e5383f93fb519662f7a4a90470bff7aa9c310e3e79e44d0f00d20a253;
Add 0x249b9d16d63c29d0fe8f50e75213da7d8190ded0b5c12094d8851e2ede7756692f646ea74e3ba8569f99724c3c88a034 0xb58723c39fa968ff9cb2dbf8d35757471f23af432b8d1159a4507f0ddfa6fc7796803eeb02033f5da479ec049bd4ad97 0x90f00cf148a5cc465f4fc96208d56d0c313b7565b9dba20fb0543506a75e102600dfaf108d3ac982cc8fa20885e2d322 0x69a2d9cd3b5828ba3c7a4112d1b2203bbb4deb63c18552d2f84d5f883d0a057249edfbca05e1a6572380e6a241fe03d7 0x1 0x74a2336e1c768c824a7b55ecb1e8ca0e6c545f44616ac89442a69cb59a5cd7b18b6b4857488fbc488da6746e6b5ca6b7 0x1 0x10adb50280c1da83d752d7645dd2ed4692eedce65da2a87f8f423775d0f1fd3d0a9aea19688719f75045dbd71ed560c5 0x53c22c6064d5d6cbb96bc819b7426858d691224f89d5fc68cce823393e92eef9f1e738d90fb15cdd31fb92cf09c5f2d 0xf1b1d0d0793dea0f1c4adae6b0e140de10b55499fd04a1296550f8244e22358a6021833495189755cd33ca3c9a757c6;
Dbl 0x266fef44c53aed068545cd17ffa6b9fae9505901a1357b1bb47457b22c68e79fb422f70fe541e6002c54b27b172b2b39 0x2bd3be53f295169cc46272abc4d8c24f4123951096ac1223ab975860cfe4a06187d159a5378cd26ee10b93f39194e07f 0x2cfb3e11218fdf6b3633ce93ca3e8d916f0f003f294cc15ca24d73d7fd68a3ee0ff8b3cd057fb5386cb1614c8a7b68f2 0x89b3656fad145262d850694d0e7e94f7de001a3294e0ff35f8b926ad0fc25c160eaee545ca766ceec36e58110a3fcd18 0x0 (-0x156a31ccb2571478c248d92b679d3cc1281d5b1288582f3fcf6b744f6333e912aa5e14f3eb31755233e3ee0b265f323f4) 0x5c56bf9c7d20234e10c22166843da1a856b936fe7fb2cc2f418ce7ee8ab264cb190ab49b57d51b9e5b3df26fecc08fc 0x14acd68b088e037cd99241ed26b6702414be1db05e49f36731a6be1e62c1c5bae8e4915b2518bdac9aa865e075ae89bc;
Dbl 0x28aef0cd560ffce8181136eaab3627da55ead8041c1ec91f6803157a028a10c8730619bf94a06a9e2fb1257fc9417734 0xc90f8d8e4e80967560fd71ebab25f2810f4057fb88bc7fa8630997150f7d1ebce797eb7277e08355d863786d172e9f71 0x4d144d9af535fe5c07c1e3f1df881427a47b289c4a8820260444a4c4aef9a50fc8963b970edd4c66447e891336622a81 0x62c430c5a4148027636500c019b2cfce31e33d150def927b488dc14bc06781a3a0396e31bfac4f1908a81b877a66410d 0x1 (-0x83675ad875b85219ce86dec9f13a57d3d56ddcac382d53a0cf9a80de23973cd7c4756823cfcc8ffc140eabfab742150) 0x67722cc6487a2d53fc310525c43c3a5c7389c8182802f8ea558c18e0e8cc4cf1e15934b9bbbe06f456072add26efddf 0xfb225df2e012580caa82d291dc6cc9db0c0b16546b3000d8b7b9dcf7c9aad34759308fbf4ef18ed332e2747a28e51cf;
Add 0xa7d7ca6397de4401d12efc5dad3a9f2cc620cf1b73b764887ffe0d28ba4ef490a36277e0e9bf79a0eb9351174b57ecf6 0xb09c0866bf5f7795f2f80ac1e321971facfdc980438a30ec21d4b24b30785713fc908abd6bd465430fc7994414c6ccea 0xd34582e1e9cf994f3ad06e99cff6c6d2a86d4fe5931da3cd1a55650279f16b8801d4297ff40c15da4354de18f3b6a0ff 0x187385278f211edf6e056729c8045b6162428e7b45324ebc4134e4c9df04c7a8eb0760b50c0c1e12c89bdf290267d287 0x0 0x1e87c36b8ff5913dd24baaccb805450ca1231c98fd14e410091255348d28f4849294f914b88b59e99e0f1a34a4b894ba 0x0 0x14044ca34b0f2148f0406320f96785988ff3b2299c2f789854a3af81dc5ff3050b919706d11a24b178bf298929c7b966 0x6e0b3ff3836e667a2d4c16e837f3ac50be6e7584b7010a2d79f3b6edb4bfb6fa028288e19d39260ba7ef87588fe0faae 0x1007f8364cd6e367d41da5ba82967daa83deb9f1943cb32d21990bc8e272cdb23b9e6645437c8e735f96543b0b5f09c6;
Dbl 0xb357ca989d4b3e39ba2ce4d5f512eecd29bf7b2091f8c18c8dee527621946092902cc9d6231676bc4385e5311f37ffeb 0x66da2f6ba3402b7ca3ed49c533e4e9182817da0b0acb60aebec2931096b7268b54e9c8115e65cfab216152044f650c4a 0x85d8ed1a7770663943fd2d5c3b529bd7a0b63a6de8438f89ef8e01e2225d128af93c25cd524ef2c8732ce8c65046c73b 0x49c1d8fb1c1f4c194f0ac0fcaf3cae0784e5ef7538bed03d63121f3a99c13088a7a6c2ac0d6e9597ee66473fc561c0a0 0x0 (-0x4580a34a12aca137d8f750e0ae82dab64144f06ee83b53759bfd2d88f79ee9a79bdfc6071406747f9c73d6c8aba04481) 0x7da3e36cc007555eedc9b152ffe49bd4d15d203b3bb54e752091518c8a2578eb559cf4199ab7905dc5cc26c09822a465 0x33abd5f73fa0f9ec19a9df735f1780a1ae9b87bee98f462fa19bc4c6c3732f9e33187416b8ce91bfbbe8d21ef202355a;
Dbl 0xbe96afe83bee594f5e7ffe0d6feac556809489871a15053b7ae9affad3ff0fe9e6c62260e6e7322af33bb1ba0ad9585a 0x8ea7a92ed6d2e65925bcd0a1b5b0b429be3fe1ca099f49712ce5cb185829c29741eac77429d3f619f49964d38778ef57 0x4b55f3bd02b024a26e439f6d3b03557de8cc7052baecacbf52d8d5c779ffb20a6a20cd4363f1fcb0e23788f4dde6ae41 0xd832863ccc6d45237e3079237e3434ee69d7f841012c173d91dcc7f83e8d63f312ff009c3491d9912cc7ed31c7ec1cf2 0x1 0x4b53caded9bc5b515f794efca57d63f38fbb7e56060603c345a4de3c758edf740864c187ddd546e167bfa01aa42e6aad 0x8de405cf55fb5c7f056cd93cb37d78d082a5ccf2de2559f2d08c82ae879744e598bd34ed373d8eb7889a86ed37310847 0xa0f4c1ca71830784377246ffbe88c1acbe114a60a27c4cc843de0ea4556cc508fecec7fa936fce20b74fffcfbe161868;
Dbl 0xc566696dc3e744d96fabafa9aa26ad0386738db844441ed547e1b9d044453eb6b002ac14bac49f185640c48b829866d8 0xf5ca88cb764f07ca05cb0af5fdc9e1ca6f27fb52bc77e533bf6a3f565f1b8528a0d769ac32d0a7bd46cd0d9a73100a3b 0xbc57da3c8bdd00e337f3831044f2d523719b181a574f1cdac08e4c1fa1696c5d5eb4853004c3deb5087ee5ddd97b4113 0x98dd20636083de8f1ff1c5abb7e6d25f4f17e6774d27643d6d7b8bc1f90e3d6da1135dc6f7034e5cadcc573a1468e51b 0x1 (-0x7a4cb8ce268675d9f3ca9a638a4af7a5c39a3b7c4b58a836b8ebd66c8e8e173590935b5342f8827d7c1c219e2f572b00) 0x9836c73b1e654605a2785bbf9c6b329d1f19785db3fb3345cd9f7e609831b1ebe3f120dad196b6510a97582cd83112a9 0x75df50fb9e4804057df407858c480cbe86229d054eac9026c7cb79741d03990d26548679a7a58b65cb251bf2f58fde8c;
Add 0x4827261c929af400718e17ba03cad96ea8727c88585eea8667b43ce78019293221a9c0d969b229f9167821672597a4bb 0xb024673b59122ba743a9d4ed865abef81692ae1b208cc4464bf5c4bf1503daf690b2f9db8920fd335ebc59cc458d665a 0xae0ad26dda834d9ef66c4f697beb21eadb24b65493e3ed3372363d20fd3632c15a7e0669df05568459311234b1603515 0x45a621901d3cdc22c2213608776f22d258954d379beb20ed73747a974a17aa3210246fd0a9afaa89e810b3ce2d82a3e1 0x0 0x4b42bea8b7c40292771943d70aa93456010abff030d0499b6572fd75dcc75af04bd4774e737b7e510c78af620099ff84 0x0 0x153647fece16a3ef7108a6506783c2c7b5537c778e867542cebb8a73015e15df8376f4cda8786f22b49571d06586fd48 0x14560b6cb4d8532cfe4d248ddd8f3669531d6a4084ec769f0542d75db06c62da8953389d8af691424d032c665e795ab3 0x13a1601e143789c0637acc51cb92051a45adc2552d21fa7395af1fa42683ef2afaeb43f55ccc91d56dae7dd76cba9ccd;
Dbl 0x4ebcac5bfba5f5b90c84befcdb098de58f4dd0a23e3ae81a9095819c1933278e3091e1b6625001b882cbfa3f8c52c55 0xb569864acff7461dd93de1506ed2a28b871410f42c508634d8c876caaa0f51f0c11dcac115ca42f48d378a6bcb919f4f 0x4edc1b1e9d8ca3d46040182a943ce784b8ca6b8b924cbe974cc96d9d93fed8c373c15b5a9b01279cbac1ed47adcf9ff2 0xfabae0f0891ae5896a6bf39d17881c6c8f7e9d26f43c3e11732d4df46af48904cf952f197356ba3ed184cf6179fbc70a 0x1 (-0x164e54734ac6e78e9f72b7a858ba8e7208fed5b74534d0bd3465587eb02cdc47fe33bf5d1d526455c31ffc884fa44f109) 0x18378415a87e78b18cf77d2b6ad13ff411751134e4008477a2e2860534411c87459083a667381d2ca96dce642d17ca 0x4d1dba96207238f8262a3b3d3b7ed8fe303f03071547d3fb171cdc5e46cab3bdaa47c36ed3cebf05e2d70ecbdaf06b5;
Dbl 0x8d57f0403fec290bf39d403f15ac0ced6f3ce02f0f40fd30c3440b991324d89f51728340bb2f77c617bccb6e871cb887 0xf848498de5e117ac85bc830af08f6f6e0f1ce48bc830e1523be542c1df6005de0625f903ec75419d8f6fae0dc264de75 0x1b3c874a83f71198493e10af25f31f0bba0a233452cd445cefd5168ff261a56471003b53cd50862b55e3724a2b069f6d 0xbd213cbcea162e7153815e457e43331d77f72c68641fa4e29ce33408caaf4c11baf7d1bc29550156fdc7dc5f092cc0d9 0x1 (-0x12a9686b13d092f79bb6337f1a666a34e0149213dc09bb453b19b62262584795161c5801fac598c3c082c950e91f2e21c) 0x4e09fcdbf38e1fb5e37bd277665c0d807b14981f45a951c7282aeb668049d865f4c02ceba6274c4785f08cec14fdc5e2 0x686c463e519bb6b7277d557e45ba3b00f75dc4f2c9ae79740df5b638b463d74fd5f608c3e7da5a412201e4f650e494f0;
Add 0x9cb6fc2d2ea05060c6a1f0ca167e84d05b0291ebe026d356429b22c369daad59c1f8f385c9aa2a133816f4f3a927dd02 0xd234ad415f30a65a7dc769bd201a2bec4c7b275e8bcebbd004710f707741f0e6ca68fece60e4e34da5e73792fa702cc1 0x495735d7746e5ad9ce8ac0d4d1a00dfdd76d7185c33d43d8288dd68a051752208053220c23c5b5a862c83e5c4009ffb4 0x26139c4c86b0715207f5194dd0754381c2a1bd2d3c62258237743351681e14f73bbcfa358b905e4fe988767ac7f4b1b4 0x0 0x4dc07f6b27561274f70abbebfd6ec1f9a0ffa9293c8945b9e1ee00e15d0bdba5b12306a62d201831551b4fd54feed3be 0x0 0x2f98e1171893929d7a5df138749d154eb67e396108dd827e08ba5f23a00b59f2615b9afc9d68ad687be4862f1d81e392 0x5fef8622997aa9ad46c89614ab55cec82be4d0563545c615fb979ba7a7897f5b394d07650dcace167a76dbf475e2a1e9 0x174f2ab1c6b872d3df815962374599788756d8efd13baf3e23f401850e4a9687b6817083076e4c8d07d45f58b752d7b9;
Dbl 0x2c54f08c6a5a56d8e3c074aab87aa263b5ee97c8f075d2f64a49425bd7ad2c7d6e8e8af2c2ec154876074102df9728b2 0xa33d3634894b54d3898ab2d8e2a64475a75f636eeff4d4863d3eb616678751b0cc58fd7e3ee674246fb5d63a2a1f9013 0x4adbdabc8999ddb29faa58166092f67df463e7dde5b077ac5f15fd222ad043b879206b085856fbe180a67f94d4deb1f9 0x2ef7770cd5e55186f43cb6e43d73e776a51bc3ef9bd9e749c732595a0fba9f35fe10015021fe6f2936316158d0509cae 0x0 (-0x1ec68bfb0e94286d3eb6fc0d570b4c25862b832b5787a2a610602cabd2c93bfa3612371a653430aca1ccf3c16fe0f19d0) 0x7ad4edf02bc6d916e743675ff44e1a2652bb3437550f9688dccd64d5c144a1f4e2db577ba06738660045a41fa8bcdd1 0x8221dcb076dc707ffc154c2e6fb35407f524e8d9bbcf5053cba1a3a99b81064a3d550085872b97bc79d3ef0a7be90b1;
Dbl 0x8519a24a88c16b9886bba8d981feaf84899caad3a7b1fd0230474fe22dd81a4c64d6b43d75a381bddb7a553e0d5de18c 0x37bec939c3629cacd3952a9ad6c18e15f7b9f53bf4d2e655d18113e49adf0bc1b365ea6f8e09c87a688b3c931498eb53 0xd7bee1ed0a02b88dbacc50cf34016b2b57b71c56714662ad05f662ab5edf45356edbda74721d2594a9aa459f8583b92b 0x6b7e6cfac5e8b826b5f5883e0be4b65fafa56e32fb21ee306bbda231cca845ef18f3130eb0dcabaa072a99a71586a4c0 0x0 (-0xea6d95dade54277aa26a1ec3f61d4b3032e033eff7ff88661132d83ec00ade79b1f0cf17d778932d1edbf2418c463620) 0x4533a5328b8a1a5ba4d6a141da1a5240533cd0adaecc3da7d3b38d4eec34f14d03fab8387a379b8a7efcacca8a68a6e9 0x37e3721c3a3dce83d7816448db77bef4dc974b9dd941d7f81092600e51d17e529ff293682749afb475922745a4339224;
Add 0x4961d1b190245b44c2ec3555d4f7cf1a17c42c9bd3f14dbdac6d26b4374771f46a3ef90d582c90c984a4ede168e661a9 0x911eb7dde396a4f4293b6f1a63744f7aaacdd20006e422fb217c2a1171dbaba15c9aa5f9d65ee0878919acb09384c6bf 0x558d08586558013f267bcfe6673107a4235dc2a299e85feaef3c1ec26fc00346fed0d09e226d6de20b8d50bc92558ca 0xa6a0115bdfcbf7b8aa59bb80734d3e9b4cec233bedeec35ab004e9d32903601f56cb4474b7aae7f2df718fe381142493 0x1 0x8d36ff1704d7977544e3637be3a0e0a1899cb9d9692b4abd7789d204188ae1885e62f810ceb49f0e2e36de5ba222e09b 0x1 0x287aa44010e577507c8f44a0d1131bcd7dba44c102a41fd6b1983a91a8bdffac5372ab6f14e95dd73a0f90def136a979 0x1508eef7d887601e61bbd49dbf6321d091b5c5773e2d349b3a7e86c41b8c79af7b7caded2c4c2769cc50eef529a63b38 0x2fc35016074aabd58d2db0a301589cf8a5c92ba8106fcc1da7309a6a6a15f1af0895a7d2e15c23aa1dc2c054e26f39ea;
Dbl 0x68b2fd3c6cdd6daa2de742f8ef7024e980ab5786f423b6a58c08c143efc7f32829defb0c96d5294acbdc960f4acf5dac 0xa205ace22d5e5a28ab47d08a072f09999bef322786ff1a03f60f2750db045a36991d66396fd43ae33748ca75305c8708 0xbd49eb8f42ec6cb44c67f43b32dcb78aee758b44d3edc7acac673f1606455489e487f44e2f3901b59a1f546a161b6a29 0xef190afbb6384acb7df39e905c4545e10ede9fd87fe508f72b6d02c096d75169c37d3fbf668aa5a451d0e23c63283fb6 0x1 (-0xf26bcc685e78ccae5f53aa55a0f1d9be1dd768e46ffb7d007bb7d776ccd67fa763cd128c4a1fdef677dbd61b0f920bf0) 0x2ad1eae63afbca77a6cd1692210841e88d050ee80c65ba24a1bc7349f4b8d5407b5654dd6c781579eee4b88448f7a8f6 0x61c95864147247484b1f19f1af94ecfef7fed60f20cd4390eb8edca2d199ce6a9fff2861a490ddb486a0dfe880e6d6ab;
Dbl 0xe3106e7f2137e33f9f426829ab6ab50ffe80f8b0163842cc9d7f7bd65de5fce9d09f731c0bfd1707c30c109fd86f1e43 0xc43461c23bb8174ec6e5d6293e7bc32766685a3cde1a948a751eef97da0858dbf47dd42553e81545730a734527a63ec2 0x18edba89812e2de7d9b02100ba873ce9e159e53e634e0343b9ae23c0522f82a2a0b1de03a48346b047edf9fc65482a70 0xddd14b1ff1a642d9e461fa60c8b346723586d7eaa8e4857980f037b900fc0159a49f92131bec259dc43e573108b64845 0x1 0x1c27d799a47882c8800d46ba027d09676154b710a58e87ddb19c1e71621e017ee38191ab2eeacdad2b684ce4c0232347 0xc9662503747ec3ad3d7147cdd6bb44bbd167d163e201880c247ac714b7fbbdc0c390b9d77b0eccf2bb39e4f236b18749 0xc4bed2701b29ede7ad76a2b68d8a7fc7b6f31241d8913bb1bb61243611d7a8b0b1ad871cc600273f933c8b37494b948a;
Sub 0x7d4248a910b542a9f9531ba84ee90e3b99416de0e92cb8f8076e4a9a159040b67e697571fa21c23884e0583af360af50 0xbcaea6b3c2450d573c79676eb2117262176316f78d1eb8f04c660a2d94b8b5f3318993678bbc9ca80eeb03e7ea52a1b9 0x8cd549a3bf74d620ae6aa28637cc934983b9223a9f4ee15ab12616686d96578f341d0ca7c96faedc5c1f58a310329185 0x785bb0e797309f78a6c6eba8c6a50c54f05434550fbdb9a28b8e56a454fa2e8c2f440bdc82b789d641f6f5d3d539d09 0x0 0x19ac979f7d2d121738340f0a4b5b15b2f84b1eda5272f8f21b27adb757b42ea39f7ae1c79492ebd938b6150cb530340b 0x0 0xc8febd1767f322306e41faa84065a6b824320a954e12ec40848edaf8789195ce9b5e88a724a39db3624fe0b6e6e7060 0x3d49cc1ea61d299d6308813324028110f4c806f5bbfb5fe22c74627d3954d5a300c936fb50bcdb7878f32601b0607232 0x3ae3ef2df6ab97099d0a04ea431de9b9c5434da7975bdc5f9020484dec29668e5c32dfb548a515e9ec04140b4a08225;
Dbl 0x6cee0fe94d8a81a4e0acbaaae196c53078d18585b010257e45d7067f654ed7358480315a4db0dd71847fcea520d68200 0x97de9fa072f8fd284203af613dace444fc1a25a96afcf1a141253efcb066c3ba06086f4cda99a626d4a607480e8b0099 0xcc86c4fb9afceb69fd08ef69e5f0851d3dfe9590d94898c614d6efd307966a67ab19bd7cc911a00332c864405b2c45f7 0x24d007134f4c102efa75b80d74648e1d1b48f14e2221c74f0b40cb30e451f2392b81241ab122f6813a44fc9fdbc7a120 0x0 (-0x129590fc46488dd9303fddaee62e5b2ec9f8d88605b47e0f677e2ab5c8716e0551d810743ae234bda79034f31481c6cf0) 0x2e59bace703636a0a4f16c0db2f033589e2e154eb1873f463eb3629750458ded17ccb3a28d74901aadb66ae5492c440b 0xfa9feac764edeaca6eabe85fe2979cb55a82c0597a792c3e992737edbd8edd7a48d7ac8068b0e07fe1de01f5acc977c;
Dbl 0x78438ff4f5e64c84a0730bc8f9a2e448c3c04f440660f46f673b73f338c3015f798e8ccb9508ee90d2c0a8c45ddacac4 0xaf9fa0249d770c5397148cfb5ece8ea28e8a2fdbd15364a74fb9da5bb8e36b8ca53069fff384a32c69fa9fe96e20e8e2 0x5dda0ca6c36711311be5eae135d52f5460a705280d5fa096d8c6d3ab7c6b16064f94ffa650daa1cbe1adfbac673a5742 0xe83eff7bd581f0d4aaef2265dede55a26d8ff5cd99a98cf9f16b64a0f783582c60d8054be71502fa6aab675fa06a17b6 0x1 (-0x4e1ed87c9972bc453c369530ebfae89a57e07647d1487a5b16ae374c24e59f6c0ea3666284c87d28730d17faf26ddbe8) 0x387f68ca51b4336558887cfa67ffe689944d0dedb2d6922e9c72d7a46b20f5cd36b6bb1b3408985e8683440d2ccd0404 0x6d1ad2d85554b0b6dfa49706052a145d6d0f20f2eb4e428edf528721dca0f086979e8b9f38d9633acb25e3b5eb7ad9e1;
Dbl 0x801210e1738bfd500c2a3f27058ca32950dce1ae82d375d6124d45c9bbe18ea23a7df2ebefc91e986910a10a50c71ed 0x54f6e346d02c7b11bc012ff92331a53ddd65c29e35aaf88b3221faf47806beaeeb5775ac46b58eeefd2507491db8e629 0xfd853e94ecb05761f2a434d5114c1bdb3a6849b037bc60c32445e1db10cc720f8393e8bec7a6b001a5c545a3d4cc60b1 0x5aa8bcddcd4a9141db135d023b9ce964b1246d3d9ba86c1c1d97df6740dcacddb9d8f453accf143d6cd598a0506802b9 0x0 (-0x163946cb4112f51950439205bc07fb002f9e44a8e6f81168d4f5b0a46898523e1266240fcc6df39a776b0e4f3182e9dab) 0x40121227d45d31fd7b504f758bb3c9ea5773310a30a983155a6ddc0da5080f12cdd975f239c91038d21c89970fa284 0x2d5ac4469144f3d08720ed4770fc4ae74a838eb16c72dbac15788ff9cf0c71eda8007aea3c82c870f7786e484dc89ae;
Sub 0xc9d80a6d45915f2ed855e93912e29f1a5100e2e6d978bff8bc5045a48d422c5139cf9d36e9f05ac854e5b0aa3c0d98ef 0x7fb7ff0a64f1436e10cb76f7215d11f7bcf2515590a158a7897d846681ef0ebc8bf40d1e920d2510d6702e39a7f43c59 0xab5616fde548217c848ead6d0e04b8a7be8213ab6af48af71cb4595204f034f276f3cd9e1ca3023ffb1eab8030819556 0xd53ee43c6b3b37a3ab35b90201d4934620737148a5099fe3a8a4768df617aff15f63688cb4a869de26b4d91075c4a9cf 0x1 0xaa6f192411a175da2d4f68da3010f7c96f48873baa035cf2d82ab913f5b294759654834d87606582c2d0a911ab42db71 0x1 0x86610f6b9ee07ce1ee839f9ab65273cc83c04c09a5f53425abd6202138330af0bcb5ba1d7b3003babeb9bfa52f437892 0x9f24f6b1301064dbdae65fdc566bfa84c8a471f2dec8b5c46ad5c1a0cce6eda7dfe99ba187b3ef836465f3fe4c807e18 0xa82256f37dd08dfd573c7ae1165f0fea7ff97cf8d9801a5c9d575819b68e2c8e8fde948d9b56b8f02a96e4602a5d85c6;
Dbl 0x83a291176b21f3889b724deeb8a39e4a41e60154450ade05491457d5d479ebf250d5e215f9ab979c4dc3109c7bd20555 0x541a32176345948bbb62c6f2731e2c56b96d8d2b044e24c58ba6af0174e7768365bfa3849bcbfab7d2091ed6763afb99 0x7a84b1e13ced0774b8c346e49f86af33111973a25c5e8c6fd9e5e8398719ea863b5d3afd960aeae23cb055f4837f1ffd 0x2b9dccf301abaee25568b004ae3ee5a10384c42a8c5333e1fdd6d5650d07983926346999f6412a5904670f6331b940c0 0x0 (-0xef4832cfc630bbdb08d720cc5e2a2e57605d0bf4f21bc1d9df7e04552300b75846bd46cd6764ea78f6480174955024c) 0x43afc7b9eb83dfb6eacba12540c1d1c109d15a8894a6abd3bbd748aba705985eca8080b05b9c7b4e3179e45758930612 0x166d72746a25b468ee4b109448590c4faf82b873fc632439a0629b323bb9c51ee773a6dd9f0a4876b8922a0c35ba7593;
Dbl 0x56dc618e5fd29c0d76a5d72335977c66ed8d5d85fdd4102356ca707f18761d293ae1c46109c30b6d28809a6dd997218c 0xac368d7835d02a8123cbe0bf44dc94b84be56fcf0aba6220f24a12c387ac60ae025e828e44497ab1c0c27a13ce2d4128 0x29706c4368050b705c944f5c1595d4f15a662f615a37b0863b31299a617eedfcd769d99dc2787fe53d0c876826144aa6 0xa7e3a49f2d756a0a9796e6332e41979e6d881d5bf993c2a4995c9c3ded3b15d4636120f5578280061146a4c3a80dba70 0x1 0x407e4d36b127f1f0cddb121506ddea3af4716c573090863dd87222d41d93d09850c479ca43c7e44ab96298ce0bed98 0x1d78cf437a4366a14ea0a9851ccf64afb269b3877a4daa74785e041c7903d75aeae0509b2deda69a0be9fa3acb15d3ca 0x38f700e9928dbc370d77b578cf0c24c7633612f8b22e8976449e589ca2fd02ad57b443568bf35f156ffb0a4414f90563;
Dbl 0xc3e0be7907ea7294432d494a1127a8e9cc48c3baa5c87741bc383b528d65a55eb016226dea5f1fdb186f2ec242e7e335 0xc79289fa8630fc920c6cf0bffe474b9095cc344b7b81f551d37f56cce4016278f2cd8493ee07c3e87587d14d7b9fdbd8 0xa9187aaea0eb19a2191a9e7bb35c68e24d34daabe2841ac88a7aed7501cd7f2fdfd4520a16d7459fd546344fb6f1e995 0xe4a4037daf9f2def175eefff46954927b6193b838f386ccf1ecabbf6a3aafe340f90fdf95641b6c94b3aa8c7528d654f 0x1 (-0x11c2205d659a407110d1e59b98c07cb0d93939066c1ad0c313c54106227a809fb3356bd92606b2aae0a640ef6066d49ff) 0x95e0277a4394e5cedfbf99bf975954b4f8300acc5964ae967693210cdf76ee9562af8edc6f1f9295212c4f1cf0ad552f 0xaef1a8499deeba5e8b652b0f52930cdbb06cb6bf18e0ac7d59c62dc9827c4e795c3474b10882befa1c67508d9ca22de0;
Add 0x2a51d5a2b61ec823e3a46251d9076377553f1a0f0b093d09017470683070dd093b77dec2425a47f1a2653072c349d119 0xd36fed39ca71063a5163e8119a37aff10f6b86d50f02f1d324238d2b090d80670849550566396ff5778738c0b39b107a 0x46c3e62b85b82f0ddfacb8f532101b4b82e07db1c8fdc36d1f572843416840acdcf2bc1cbd53266781fcfba9739aae51 0xf4229cc0bbbff657bb0908ae640f9b9f8660ad766c7f037eaf5bc9a1daf3e210ea842f8d87ce53f2fe00988dc804cb5d 0x1 0x1d0abfd7c7a5f75a7dbb29a10b269e1c27aef8e8efda59b9798814ec61ad38409dca92362eb29a7c3b3373150929d121 0x0 0x4cd0c1c811c781be57caedacb83d406ddf8ea4aeb04dec947dc9cb0acb8bd31aeb8424bb3b64695c301635c57cd7dfd 0x6fef442470183a0a6f8cccb47399519612031ef787f53241b84ad60b4bdad8333375d78f955736cf52d66c5a0a52298 0x285bb8672fca6ab1863c7b02bc5da15eaffc1ece30068229cea5cddce362517eaf264b753e2ae9be6272a8f5e388ced1;
Dbl 0x5b83a174c2f0be1a56765c86d5f6e96a0b7b7c183e8710b014adcb686ed9975ca7b0ac94679ee35e033c7868e2801a50 0xaa87ca22be8b05378eb1c71ef320ad746e1d3b628ba79b9859f741e082542a385502f25dbf55296c3a545e3872760ab7 0xc9e821b569d9d390a26167406d6d23d6070be242d765eb831625ceec4a0f473ef59f4e30e2817e6285bce2846f15f1a0 0x28e823170be60102c2b220f2a717027ca14e4b72835b563aca2c4b4a86b9562eb34662a7a6e446893d32da88412505c3 0x0 (-0x1d94d0a93108aa19ffd39a831e87783fb93f81ad3778b021152c786f59ef489cda19deb3ccd95287fb71c0bf94eb2f837) 0x20b6d877a5eabbfd5627ce0eb35a952df7be8bc255a0d02a745f6562774c43b0424f47915ee2fd7151b3d2d546f7d2ab 0xe9f8d0fcc6da094668929b3342be2b2e921869bccad7b55e3cd4a7ddd646b64ba034e340e6d8c457897c12bbd090501
].
